(** Properties C72, C73, C74: rate constants of the mechanism libraries, the second law and fall-off.
    Vocabulary: MechKin.v ([rate_arr], [act_T], [gibbs], [gibbs_size], [ln_Kc], [side_sum], [order],
    [kin]), MechArr.v ([Kc_err]), MechLaw.v ([potential], [affinity])
    and MechTroe.v ([f_cent], [broadening]), with the parameters of
    chem.cti (MechData.v); the rest as in PropMech.v. *)
From Coq Require Import List ZArith NArith QArith Qabs Qreals Reals Bool String Lra Lia.
From Verif Require Import Outcome Arith MechLang MechSrc MechReal MechChem Mechanisms
  MechSpec MechRate MechPmod MechNames MechData MechNasa MechKin MechArr MechLaw MechTroe.
Import ListNotations.
Local Open Scope nat_scope.

(** ** C72: rate constants *)

(** Forward: A T^b exp(-E/(R T)) of chem.cti in SI units; forward over reverse: the equilibrium
    constant of the NASA polynomials. *)
Theorem C72_rate_constants : forall m (T p : R), (0 < T)%R -> (0 < p)%R -> exists kf kr : nat -> R,
  (forall i, i < List.length (ch_reactions (chem m)) ->
     (0 < kf i)%R /\ (0 < rate_arr (k_high (kin m i)) (order (rxn (chem m) i)) T)%R /\
     (Rabs (ln (kf i) - ln (rate_arr (k_high (kin m i)) (order (rxn (chem m) i)) T)) <=
      2 * Q2R 1e-14 + Q2R (Qmake 1 1125899906842624) * (Rabs (act_T (k_high (kin m i))) / T))%R /\
     (rx_rev (rxn (chem m) i) = true -> (0 < kr i)%R /\
      (Rabs (ln (kf i) - ln (kr i) - ln_Kc m T (rxn (chem m) i)) <=
       Q2R (Qmake 1 1125899906842624) * (2 + side_sum (rx_lhs (rxn (chem m) i)) (gibbs_size m T) +
         side_sum (rx_rhs (rxn (chem m) i)) (gibbs_size m T)))%R)) /\
  forall C : list R, List.length C = s_NSP (library m) ->
  exists fwd rev : list R, lib_eval_rxn_rates exact_libm (library m) T p C = Ok (fwd, rev) /\
    forall i, i < List.length (ch_reactions (chem m)) ->
      (nth i fwd 0 = kf i * conc_product C (rx_lhs (rxn (chem m) i)))%R /\
      (rx_rev (rxn (chem m) i) = true ->
       nth (rank rx_rev (ch_reactions (chem m)) i) rev 0 = kr i * conc_product C (rx_rhs (rxn (chem m) i)))%R.
Proof. exact all_rates. Qed.
Print Assumptions C72_rate_constants.

(** O + H2 <=> H + OH, reaction 2 of gri30: 38.7 T^2.7 exp(-3150/T) in m, kmol, s. *)
Example C72_case :
  rx_lhs (rxn (chem gri30) 2) = [(2, 1); (0, 1)] /\ rx_rhs (rxn (chem gri30) 2) = [(1, 1); (4, 1)] /\
  map (fun k => nth k (foam_names gri30) ""%string) [2; 0; 1; 4] = ["O"; "H2"; "H"; "OH"]%string /\
  rx_rev (rxn (chem gri30) 2) = true /\
  factor_si (k_high (kin gri30 2)) (order (rxn (chem gri30) 2)) = 38.7%R /\ Q2R (a_b (k_high (kin gri30 2))) = 2.7%R /\
  (3150 < act_T (k_high (kin gri30 2)) < 3151)%R.
Proof.
  do 4 (split; [reflexivity|]). split; [|split].
  - unfold factor_si, Q2R. cbn. lra.
  - unfold Q2R. cbn. lra.
  - unfold act_T, gas_constant, Q2R. cbn. lra.
Qed.

(** ** C73: the second law *)

(** A reversible reaction runs forward if the affinity is positive, backward if it is negative and
    is balanced if it is zero, up to the rounding of the constants. *)
Theorem C73_direction : forall m (T p : R) (C fwd rev : list R),
  (0 < T)%R -> (0 < p)%R -> List.length C = s_NSP (library m) ->
  (forall k, k < List.length C -> (0 < nth k C 0)%R) -> lib_eval_rxn_rates exact_libm (library m) T p C = Ok (fwd, rev) ->
  forall i, i < List.length (ch_reactions (chem m)) -> rx_rev (rxn (chem m) i) = true ->
  forall f r, f = nth i fwd 0%R -> r = nth (rank rx_rev (ch_reactions (chem m)) i) rev 0%R ->
  ((Kc_err m T (rxn (chem m) i) < affinity m T C (rxn (chem m) i) -> r < f) /\
   (affinity m T C (rxn (chem m) i) < - Kc_err m T (rxn (chem m) i) -> f < r) /\
   (affinity m T C (rxn (chem m) i) = 0 -> Rabs (ln f - ln r) <= Kc_err m T (rxn (chem m) i)))%R.
Proof. exact directions. Qed.
Print Assumptions C73_direction.

(** Reactions do not increase the Gibbs energy (at constant temperature and pressure) but for the
    rounding of the constants and irreversible reactions. *)
Theorem C73_gibbs : forall m (T p : R) (C fwd rev pm sp : list R) (dyN : R), (0 < T)%R -> (0 < p)%R ->
  List.length C = s_NSP (library m) -> (forall k, k < List.length C -> (0 < nth k C 0)%R) ->
  Rsumn (List.length C) (fun k => nth k C 0%R) = (p / (gas_constant * T))%R ->
  lib_eval_rxn_rates exact_libm (library m) T p C = Ok (fwd, rev) ->
  lib_get_rxn_pres_mod exact_libm (library m) T p C = Ok pm ->
  lib_eval_spec_rates exact_libm (library m) fwd rev pm = Ok (sp, dyN) ->
  (forall i, i < List.length (ch_reactions (chem m)) -> rx_rev (rxn (chem m) i) = true ->
     (- Kc_err m T (rxn (chem m) i) * Rabs (progress (chem m) fwd rev pm i) <=
      affinity m T C (rxn (chem m) i) * progress (chem m) fwd rev pm i)%R) /\
  (Rsumn (s_NSP (library m)) (fun k => potential m T C k * nth k (sp ++ [dyN]) 0) <=
   Rsumn (List.length (ch_reactions (chem m)))
     (fun i => if rx_rev (rxn (chem m) i) then Kc_err m T (rxn (chem m) i) * Rabs (progress (chem m) fwd rev pm i)
               else - (affinity m T C (rxn (chem m) i) * progress (chem m) fwd rev pm i)))%R.
Proof. exact second_law. Qed.
Print Assumptions C73_gibbs.

(** Concentrations and a pressure as required; all reactions of drm19 are reversible. *)
Example C73_case : let C := repeat (1 / 1000)%R 21 in let p := (21 / 1000 * (gas_constant * 1500))%R in
  (0 < p)%R /\ List.length C = s_NSP (library drm19) /\ (forall k, k < List.length C -> (0 < nth k C 0)%R) /\
  Rsumn (List.length C) (fun k => nth k C 0%R) = (p / (gas_constant * 1500))%R /\
  forallb rx_rev (ch_reactions (chem drm19)) = true.
Proof.
  pose proof gas_pos as G. cbv zeta. split; [lra|]. split; [reflexivity|]. split; [|split; [|reflexivity]].
  - intros k Hk. rewrite (nth_indep _ 0%R (1 / 1000)%R Hk), nth_repeat. lra.
  - unfold Rsumn. cbn [repeat List.length seq map nth Rsum]. field. lra.
Qed.

(** ** C74: fall-off reactions *)

(** Pressure modification: F Pr/(1+Pr) with Pr = k0 [M]/kinf, the Arrhenius constants of chem.cti at low
    and high pressure and the Troe or Lindemann form of F. *)
Theorem C74_falloff : forall m (T p : R), (0 < T)%R -> (0 < p)%R -> exists k0 kinf : nat -> R,
  (forall i, i < List.length (ch_reactions (chem m)) -> rx_kind (rxn (chem m) i) = Falloff ->
     exists low, k_low (kin m i) = Some low /\ (0 < k0 i /\ 0 < kinf i)%R /\
     (Rabs (ln (k0 i) - ln (rate_arr low (molecules (rx_lhs (rxn (chem m) i)) + 1) T)) <=
      2 * Q2R 1e-14 + Q2R (Qmake 1 1125899906842624) * (Rabs (act_T low) / T))%R /\
     (Rabs (ln (kinf i) - ln (rate_arr (k_high (kin m i)) (molecules (rx_lhs (rxn (chem m) i))) T)) <=
      2 * Q2R 1e-14 + Q2R (Qmake 1 1125899906842624) * (Rabs (act_T (k_high (kin m i))) / T))%R) /\
  forall C : list R, List.length C = s_NSP (library m) ->
  Rsumn (List.length C) (fun k => nth k C 0%R) = (p / (gas_constant * T))%R ->
  exists pm : list R, lib_get_rxn_pres_mod exact_libm (library m) T p C = Ok pm /\
  forall i, i < List.length (ch_reactions (chem m)) -> rx_kind (rxn (chem m) i) = Falloff ->
  forall pr, pr = (k0 i * third_body (rxn (chem m) i) C / kinf i)%R ->
  nth (rank pdep (ch_reactions (chem m)) i) pm 0%R = (broadening (k_troe (kin m i)) T pr * (pr / (1 + pr)))%R.
Proof. exact falloff_factors. Qed.
Print Assumptions C74_falloff.

(** H + C3H7 (+ M) <=> C3H8 (+ M), reaction 319 of gri30, and O + CO (+ M) <=> CO2 (+ M), reaction 11. *)
Example C74_case :
  rx_kind (rxn (chem gri30) 319) = Falloff /\ rx_kind (rxn (chem gri30) 11) = Falloff /\
  map (fun k => nth (fst k) (foam_names gri30) ""%string) (rx_lhs (rxn (chem gri30) 319)) = ["H"; "C3H7"]%string /\
  map (fun k => nth (fst k) (foam_names gri30) ""%string) (rx_lhs (rxn (chem gri30) 11)) = ["O"; "CO"]%string /\
  k_troe (kin gri30 11) = None /\ option_map a_A (k_low (kin gri30 11)) = Some 6.020000e+14%Q /\
  (forall T, broadening (k_troe (kin gri30 11)) T 1 = 1)%R /\
  exists t, k_troe (kin gri30 319) = Some t /\
    f_cent t 3690 = (0.685 * exp (-10) + 0.315 * exp (- (3690 / 3285)) + exp (- (6667 / 3690)))%R.
Proof.
  do 6 (split; [reflexivity|]). split; [reflexivity|]. eexists. split; [reflexivity|].
  unfold f_cent. cbn [t_A t_T3 t_T1 t_T2].
  replace (Q2R 0.315) with 0.315%R by (unfold Q2R; cbn; lra).
  replace (Q2R 369.0) with 369%R by (unfold Q2R; cbn; lra).
  replace (Q2R 3285.0) with 3285%R by (unfold Q2R; cbn; lra).
  replace (Q2R 6667.0) with 6667%R by (unfold Q2R; cbn; lra).
  replace (1 - 0.315)%R with 0.685%R by lra.
  replace (- (3690) / 369)%R with (-10)%R by field.
  replace (- (3690) / 3285)%R with (- (3690 / 3285))%R by field.
  replace (- (6667) / 3690)%R with (- (6667 / 3690))%R by field. reflexivity.
Qed.
