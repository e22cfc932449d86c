(** Properties C59-C69: the mechanism libraries (utilities/mechanisms) against chem.cti and the
    data that OpenFOAM reads.
    Vocabulary: the functions [lib_...] in MechSrc.v, which run the sources in Drm19Code.v,
    Drm19Rates.v, ...; [chem m] is what chem.cti says (MechChem.v), [molWeight m] and
    [foam_elements m] what thermo.foam says (MechThermo.v), [library_names], [foam_names] and
    [cti_names] are in MechNames.v; [RA] is real arithmetic, [exact_libm] the mathematics library
    without rounding; [Rsumn n f] is the sum of [f 0 ... f (n-1)]; [rxn], [nu], [progress], [atoms]
    in MechSpec.v, [conc_product] in MechRate.v, [third_body], [gas_constant] in MechPmod.v,
    [all_fractions] in MechConc.v, [atomic_weight] in MechMass.v, [weights] in MechFacts.v. *)
From Coq Require Import List ZArith NArith QArith Qabs Qreals Reals Bool Lra Lia.
From Verif Require Import Outcome Arith MechLang MechSrc MechReal MechChem Mechanisms
  MechSpec MechRate MechPmod MechThermo MechConc MechRhs MechNames MechMass MechFacts.
Import ListNotations.
Local Open Scope nat_scope.

(** ** Test data *)

(** Hydrogen, oxygen and nitrogen with a little OH, as mass fractions for drm19. *)
Definition ex_mix : list R := [1/10; 0; 0; 2/10; 1/100; 0; 0; 0; 0; 0; 0; 0; 0; 0; 0; 0; 0; 0; 0; 0]%R.

Lemma ex_mix_nonneg k : k < length ex_mix -> (0 <= nth k ex_mix 0)%R.
Proof. intros H. do 20 (destruct k as [|k]; [cbn; lra|]). cbn in H. lia. Qed.

Lemma ex_mix_sum : Rsum ex_mix = (31 / 100)%R.
Proof. cbn. lra. Qed.

Lemma exact_exp (x : R) : (0 < m_exp exact_libm x)%R.
Proof. apply exp_pos. Qed.

Lemma exact_pow (x y : R) : (0 < x -> 0 < m_pow exact_libm x y)%R.
Proof. intros _. apply exp_pos. Qed.

(** Rates of progress for drm19 of which only that of reaction 1, O + H2 <=> H + OH, is not zero. *)
Definition ex_fwd : list Q := map (fun i => if i =? 1 then 5%Q else 0%Q) (seq 0 84).

(** Reverse rates. *)
Definition ex_rev : list Q := map (fun i => if i =? 1 then 3%Q else 0%Q) (seq 0 84).

(** Mathematics library for rational tests (not called by [eval_spec_rates]). *)
Definition ex_libm : libm QAD := @mkLibm QAD (fun x => x) (fun x => x) (fun x => x) (fun x _ => x).

(** ** C59: no function of a library reads or writes out of bounds or reads a variable not set *)

(** [y] holds the temperature and the mass fractions but the last; any arithmetic. *)
Theorem C59_rhs : forall (A : Arith) (M : libm A) m p y,
  length y = s_NSP (library m) ->
  exists dy, lib_dydt M (library m) p y = Ok dy /\ length dy = s_NSP (library m).
Proof. exact m_dydt_defined. Qed.
Print Assumptions C59_rhs.

(** The functions one by one. *)
Theorem C59_functions : forall (A : Arith) (M : libm A) m (T p : num A),
  (forall y, length y = s_NSP (library m) - 1 ->
     exists yN mw rho conc, lib_eval_conc M (library m) T p y = Ok (yN, mw, rho, conc) /\ length conc = s_NSP (library m)) /\
  (exists h, lib_eval_h M (library m) T = Ok h /\ length h = s_NSP (library m)) /\
  (exists cp, lib_eval_cp M (library m) T = Ok cp /\ length cp = s_NSP (library m)) /\
  (forall C, length C = s_NSP (library m) ->
     exists fwd rev, lib_eval_rxn_rates M (library m) T p C = Ok (fwd, rev) /\
       length fwd = s_fwd (library m) /\ length rev = s_rev (library m)) /\
  (forall C, length C = s_NSP (library m) ->
     exists pm, lib_get_rxn_pres_mod M (library m) T p C = Ok pm /\ length pm = s_pmod (library m)) /\
  (forall fwd rev pm, length fwd = s_fwd (library m) -> length rev = s_rev (library m) -> length pm = s_pmod (library m) ->
     exists sp dyN, lib_eval_spec_rates M (library m) fwd rev pm = Ok (sp, dyN) /\ length sp = s_NSP (library m) - 1) /\
  (forall X, length X = s_NSP (library m) - 1 ->
     (exists Y, lib_mole2mass M (library m) X = Ok Y /\ length Y = s_NSP (library m) - 1) /\
     (exists Y, lib_mass2mole M (library m) X = Ok Y /\ length Y = s_NSP (library m) - 1) /\
     (exists d, lib_getDensity M (library m) T p X = Ok d)).
Proof. exact m_functions_defined. Qed.
Print Assumptions C59_functions.

(** A state that is too short is read out of bounds. *)
Example C59_short : lib_dydt (A := QAD) ex_libm (library drm19) 0%Q [300%Q] = UB.
Proof. vm_compute. reflexivity. Qed.

(** ** C60: production rates are those of the stoichiometry of chem.cti *)

Theorem C60_production : forall (M : libm RA) m (fwd rev pm : list R),
  length fwd = s_fwd (library m) -> length rev = s_rev (library m) -> length pm = s_pmod (library m) ->
  exists (sp : list R) (dyN : R), lib_eval_spec_rates (A := RA) M (library m) fwd rev pm = Ok (sp, dyN) /\
    length sp = s_NSP (library m) - 1 /\
    forall k, k < s_NSP (library m) ->
      nth k (sp ++ [dyN]) 0%R =
      Rsumn (length (ch_reactions (chem m))) (fun i => nu (chem m) i k * progress (chem m) fwd rev pm i)%R.
Proof. exact m_production. Qed.
Print Assumptions C60_production.

(** O + H2 <=> H + OH with a net rate of progress of 2. *)
Example C60_case :
  match lib_eval_spec_rates (A := QAD) ex_libm (library drm19) ex_fwd ex_rev (repeat 0%Q 14) with
  | Ok (sp, dyN) => Forall2 Qeq (sp ++ [dyN]) [-2; 2; -2; 0; 2; 0; 0; 0; 0; 0; 0; 0; 0; 0; 0; 0; 0; 0; 0; 0; 0]%Q
  | _ => False
  end.
Proof. vm_compute. repeat constructor. Qed.

(** ** C61: elements and mass *)

(** Every element, the last species included. *)
Theorem C61_elements : forall (M : libm RA) m (fwd rev pm sp : list R) (dyN : R) e,
  length fwd = s_fwd (library m) -> length rev = s_rev (library m) -> length pm = s_pmod (library m) ->
  lib_eval_spec_rates (A := RA) M (library m) fwd rev pm = Ok (sp, dyN) -> e < ch_elements (chem m) ->
  Rsumn (s_NSP (library m)) (fun k => INR (atoms (chem m) e k) * nth k (sp ++ [dyN]) 0)%R = 0%R.
Proof. exact m_balanced. Qed.
Print Assumptions C61_elements.

(** An element that the last species (nitrogen) does not contain, in the result of [dydt]. *)
Theorem C61_elements_rates : forall m,
  exists w, weights m w /\
  forall (M : libm RA) (p T : R) (y dy : list R) e, length y = s_NSP (library m) - 1 ->
  lib_dydt M (library m) p (T :: y) = Ok dy ->
  e < ch_elements (chem m) -> atoms (chem m) e (s_NSP (library m) - 1) = 0 ->
    Rsumn (s_NSP (library m) - 1) (fun k => INR (atoms (chem m) e k) / w k * nth (k + 1) dy 0)%R = 0%R.
Proof. exact m_elements. Qed.
Print Assumptions C61_elements_rates.

(** The chemistry model takes the rate of the last species by difference; up to the rounding of the
    weights this is the rate that the mechanism gives it. *)
Theorem C61_mass : forall (M : libm RA) m (p T : R) (y : list R) (yN mw rho : R) (conc fwd rev pm sp : list R) (dyN : R) (cp h dy : list R),
  length y = s_NSP (library m) - 1 ->
  lib_eval_conc M (library m) T p y = Ok (yN, mw, rho, conc) ->
  lib_eval_rxn_rates M (library m) T p conc = Ok (fwd, rev) ->
  lib_get_rxn_pres_mod M (library m) T p conc = Ok pm ->
  lib_eval_spec_rates M (library m) fwd rev pm = Ok (sp, dyN) ->
  lib_eval_cp M (library m) T = Ok cp -> lib_eval_h M (library m) T = Ok h ->
  lib_dydt M (library m) p (T :: y) = Ok dy -> rho <> 0%R ->
  (Rabs (Rsumn (s_NSP (library m) - 1)%nat (fun k => nth (k + 1)%nat dy 0) +
         Q2R (nth (s_NSP (library m) - 1)%nat (molWeight m) 0%Q) * dyN / rho) <=
   4 / 10 ^ 15 * (Rsumn (s_NSP (library m) - 1)%nat (fun k => Rabs (nth (k + 1)%nat dy 0)) +
             Rabs (Q2R (nth (s_NSP (library m) - 1)%nat (molWeight m) 0%Q) * dyN / rho)))%R.
Proof. exact mass_conserved. Qed.
Print Assumptions C61_mass.

(** The hypotheses hold for a mixture, with a positive density. *)
Example C61_case : exists yN mw rho conc fwd rev pm sp dyN cp h dy,
  lib_eval_conc exact_libm (library drm19) 1000%R 100000%R ex_mix = Ok (yN, mw, rho, conc) /\
  lib_eval_rxn_rates exact_libm (library drm19) 1000%R 100000%R conc = Ok (fwd, rev) /\
  lib_get_rxn_pres_mod exact_libm (library drm19) 1000%R 100000%R conc = Ok pm /\
  lib_eval_spec_rates exact_libm (library drm19) fwd rev pm = Ok (sp, dyN) /\
  lib_eval_cp exact_libm (library drm19) 1000%R = Ok cp /\ lib_eval_h exact_libm (library drm19) 1000%R = Ok h /\
  lib_dydt exact_libm (library drm19) 100000%R (1000%R :: ex_mix) = Ok dy /\ (0 < rho)%R.
Proof.
  destruct (m_concentrations_nonneg exact_libm drm19 100000 1000 ex_mix eq_refl ltac:(lra) ltac:(lra) ex_mix_nonneg
    ltac:(rewrite ex_mix_sum; lra)) as (yN & mw & rho & conc & E1 & _ & _ & R & L & _).
  destruct (m_functions_defined RA exact_libm drm19 1000%R 100000%R) as (_ & (h & E6 & _) & (cp & E5 & _) & F4 & F5 & F6 & _).
  destruct (F4 conc L) as (fwd & rev & E2 & L1 & L2). destruct (F5 conc L) as (pm & E3 & L3).
  destruct (F6 fwd rev pm L1 L2 L3) as (sp & dyN & E4 & _).
  destruct (m_dydt_defined RA exact_libm drm19 100000%R (1000%R :: ex_mix) eq_refl) as (dy & E7 & _).
  exists yN, mw, rho, conc, fwd, rev, pm, sp, dyN, cp, h, dy. repeat split; assumption.
Qed.

(** Oxygen is an element that nitrogen does not contain; there is OH in the balance. *)
Example C61_case_oxygen : 0 < ch_elements (chem drm19) /\ atoms (chem drm19) 0 (s_NSP (library drm19) - 1) = 0 /\
  atoms (chem drm19) 0 4 = 1.
Proof. vm_compute. repeat split; lia. Qed.

(** ** C62: the law of mass action *)

(** The rate constants depend on temperature and pressure only; the orders are the coefficients. *)
Theorem C62_mass_action : forall (M : libm RA) m (T p : R),
  (forall x : R, 0 < m_exp M x)%R -> (0 < T)%R -> (0 < p)%R ->
  exists kf kr : nat -> R,
    (forall i, i < length (ch_reactions (chem m)) -> (0 < kf i /\ 0 < kr i)%R) /\
    forall C, length C = s_NSP (library m) ->
    exists fwd rev : list R, lib_eval_rxn_rates (A := RA) M (library m) T p C = Ok (fwd, rev) /\
      length fwd = s_fwd (library m) /\ length rev = s_rev (library m) /\
      forall i, i < length (ch_reactions (chem m)) ->
        (nth i fwd 0 = kf i * conc_product C (rx_lhs (rxn (chem m) i)))%R /\
        (rx_rev (rxn (chem m) i) = true ->
         nth (rank rx_rev (ch_reactions (chem m)) i) rev 0 = kr i * conc_product C (rx_rhs (rxn (chem m) i)))%R.
Proof. exact m_mass_action. Qed.
Print Assumptions C62_mass_action.

(** Reaction 1 of drm19, O + H2 <=> H + OH. *)
Example C62_case : rx_rev (rxn (chem drm19) 1) = true /\ rx_lhs (rxn (chem drm19) 1) = [(2, 1); (0, 1)] /\
  rx_rhs (rxn (chem drm19) 1) = [(1, 1); (4, 1)] /\ (forall x : R, 0 < m_exp exact_libm x)%R.
Proof. repeat split. apply exact_exp. Qed.

(** ** C63: third bodies and fall-off *)

(** [F] is the broadening factor, [ratio i] that of the rate constants at low and high pressure. *)
Theorem C63_third_bodies : forall (M : libm RA) m (T p : R),
  (forall x : R, 0 < m_exp M x)%R -> (forall x y : R, 0 < x -> 0 < m_pow M x y)%R -> (0 < T)%R -> (0 < p)%R ->
  exists ratio : nat -> R,
    (forall i, i < length (ch_reactions (chem m)) -> (0 < ratio i)%R) /\
    forall C, length C = s_NSP (library m) -> Rsumn (length C) (fun k => nth k C 0%R) = (p / (gas_constant * T))%R ->
    exists pm : list R, lib_get_rxn_pres_mod (A := RA) M (library m) T p C = Ok pm /\ length pm = s_pmod (library m) /\
      forall i, i < length (ch_reactions (chem m)) ->
        match rx_kind (rxn (chem m) i) with
        | Elementary => True
        | ThreeBody => nth (rank pdep (ch_reactions (chem m)) i) pm 0%R = third_body (rxn (chem m) i) C
        | Falloff => exists F, (0 < F)%R /\
            nth (rank pdep (ch_reactions (chem m)) i) pm 0%R =
            (F * (ratio i * third_body (rxn (chem m) i) C / (1 + ratio i * third_body (rxn (chem m) i) C)))%R
        end.
Proof. exact m_pressure. Qed.
Print Assumptions C63_third_bodies.

(** The concentrations of the mixture satisfy the hypothesis. *)
Example C63_case : exists yN mw rho conc,
  lib_eval_conc exact_libm (library drm19) 1000%R 100000%R ex_mix = Ok (yN, mw, rho, conc) /\
  length conc = s_NSP (library drm19) /\
  Rsumn (length conc) (fun k => nth k conc 0%R) = (100000 / (gas_constant * 1000))%R /\
  rx_kind (rxn (chem drm19) 0) = ThreeBody /\ efficiency (rxn (chem drm19) 0) 5 = 6.0%Q.
Proof.
  destruct (m_concentrations_nonneg exact_libm drm19 100000 1000 ex_mix eq_refl ltac:(lra) ltac:(lra) ex_mix_nonneg
    ltac:(rewrite ex_mix_sum; lra)) as (yN & mw & rho & conc & E & _ & _ & _ & L & _ & I).
  exists yN, mw, rho, conc. repeat split; assumption.
Qed.

(** ** C64: concentrations *)

Theorem C64_concentrations : forall m,
  exists w, weights m w /\
  forall (M : libm RA) (T p : R) (y : list R), length y = s_NSP (library m) - 1 ->
  forall s, s = Rsumn (s_NSP (library m)) (fun k => nth k (all_fractions y) 0 / w k)%R -> s <> 0%R ->
  exists conc : list R,
    lib_eval_conc (A := RA) M (library m) T p y = Ok ((1 - Rsum y)%R, (1 / s)%R, (p * (1 / s) / (gas_constant * T))%R, conc) /\
    length conc = s_NSP (library m) /\
    (forall k, k < s_NSP (library m) ->
       nth k conc 0%R = (p * (1 / s) / (gas_constant * T) * nth k (all_fractions y) 0 / w k)%R) /\
    Rsumn (length conc) (fun k => nth k conc 0%R) = (p / (gas_constant * T))%R.
Proof. exact m_concentrations. Qed.
Print Assumptions C64_concentrations.

Theorem C64_not_negative : forall (M : libm RA) m (p T : R) (y : list R),
  length y = s_NSP (library m) - 1 ->
  (0 < T)%R -> (0 < p)%R -> (forall k, k < length y -> (0 <= nth k y 0)%R) -> (Rsum y <= 1)%R ->
  exists (yN mw rho : R) (conc : list R), lib_eval_conc M (library m) T p y = Ok (yN, mw, rho, conc) /\
    (0 <= yN)%R /\ (0 < mw)%R /\ (0 < rho)%R /\ length conc = s_NSP (library m) /\ (forall k, 0 <= nth k conc 0)%R /\
    Rsumn (length conc) (fun k => nth k conc 0%R) = (p / (gas_constant * T))%R.
Proof. exact m_concentrations_nonneg. Qed.
Print Assumptions C64_not_negative.

Example C64_case : length ex_mix = s_NSP (library drm19) - 1 /\ (forall k, k < length ex_mix -> (0 <= nth k ex_mix 0)%R) /\
  (Rsum ex_mix <= 1)%R.
Proof. split; [reflexivity|]. split; [exact ex_mix_nonneg|]. rewrite ex_mix_sum. lra. Qed.

(** ** C65: the temperature derivative conserves the enthalpy *)

Theorem C65_enthalpy : forall m,
  exists w, weights m w /\
  forall (M : libm RA) (p T : R) (y : list R) (yN mw rho : R) (conc fwd rev pm sp : list R) (dyN : R) (cp h dy : list R),
  length y = s_NSP (library m) - 1 ->
  lib_eval_conc M (library m) T p y = Ok (yN, mw, rho, conc) ->
  lib_eval_rxn_rates M (library m) T p conc = Ok (fwd, rev) ->
  lib_get_rxn_pres_mod M (library m) T p conc = Ok pm ->
  lib_eval_spec_rates M (library m) fwd rev pm = Ok (sp, dyN) ->
  lib_eval_cp M (library m) T = Ok cp -> lib_eval_h M (library m) T = Ok h ->
  lib_dydt M (library m) p (T :: y) = Ok dy -> rho <> 0%R ->
  (forall k, k < s_NSP (library m) - 1 -> nth (k + 1) dy 0%R = (w k * nth k sp 0 / rho)%R) /\
  forall cpm : R, cpm = Rsumn (s_NSP (library m)) (fun k => nth k cp 0 * nth k (y ++ [yN]) 0)%R -> cpm <> 0%R ->
  (cpm * nth 0 dy 0 + Rsumn (s_NSP (library m) - 1)%nat (fun k => nth k h 0 * nth (k + 1)%nat dy 0) +
   nth (s_NSP (library m) - 1)%nat h 0 * (w (s_NSP (library m) - 1)%nat * dyN / rho) = 0)%R.
Proof. exact m_energy. Qed.
Print Assumptions C65_enthalpy.

(** ** C66: a species that is used up is not consumed *)

Theorem C66_quasi_positive : forall (M : libm RA) m (p T : R) (y : list R) k,
  (forall x : R, 0 < m_exp M x)%R -> (forall x z : R, 0 < x -> 0 < m_pow M x z)%R ->
  length y = s_NSP (library m) - 1 -> (0 < T)%R -> (0 < p)%R ->
  (forall k, k < length y -> (0 <= nth k y 0)%R) -> (Rsum y <= 1)%R ->
  k < length y -> nth k y 0%R = 0%R ->
  exists dy : list R, lib_dydt M (library m) p (T :: y) = Ok dy /\ (0 <= nth (k + 1) dy 0)%R.
Proof. exact quasi_positive. Qed.
Print Assumptions C66_quasi_positive.

(** Water in the mixture above (species 5), of which there is none. *)
Example C66_case : exists dy : list R,
  lib_dydt exact_libm (library drm19) 100000%R (1000%R :: ex_mix) = Ok dy /\ (0 <= nth 6 dy 0)%R.
Proof.
  apply (quasi_positive exact_libm drm19 100000 1000 ex_mix 5); try lra; try reflexivity.
  - exact exact_exp.
  - exact exact_pow.
  - exact ex_mix_nonneg.
  - rewrite ex_mix_sum. lra.
  - cbn. lia.
Qed.

(** ** C67: species, formulas and weights *)

Theorem C67_data : forall m,
  foam_names m = library_names m /\ NoDup (library_names m) /\ length (library_names m) = s_NSP (library m) /\
  foam_elements m = ch_atoms (chem m) /\ length (molWeight m) = s_NSP (library m) /\
  forall k, k < s_NSP (library m) ->
    (Rabs (Q2R (nth k (molWeight m) 0%Q) -
           Rsumn (ch_elements (chem m)) (fun e => INR (nth e (nth k (foam_elements m) []) 0%nat) * Q2R (nth e atomic_weight 0%Q))) <=
     1 / 10 ^ 15 * Q2R (nth k (molWeight m) 0%Q))%R.
Proof. exact m_foam_data. Qed.
Print Assumptions C67_data.

(** ** C68: mole and mass fractions *)

Theorem C68_conversions : forall m,
  exists w, weights m w /\
  forall (M : libm RA),
  (forall X : list R, length X = s_NSP (library m) - 1 ->
   forall mean, mean = Rsumn (s_NSP (library m)) (fun k => w k * nth k (all_fractions X) 0)%R -> mean <> 0%R ->
   exists Y : list R, lib_mole2mass (A := RA) M (library m) X = Ok Y /\ lib_mass2mole (A := RA) M (library m) Y = Ok X /\
     (forall k, k < s_NSP (library m) - 1 -> nth k Y 0%R = (nth k X 0 * w k / mean)%R) /\
     forall T p, lib_getDensity (A := RA) M (library m) T p X = Ok (p * mean / (gas_constant * T))%R) /\
  (forall Y : list R, length Y = s_NSP (library m) - 1 ->
   Rsumn (s_NSP (library m)) (fun k => / w k * nth k (all_fractions Y) 0)%R <> 0%R ->
   exists X : list R, lib_mass2mole (A := RA) M (library m) Y = Ok X /\ lib_mole2mass (A := RA) M (library m) X = Ok Y).
Proof. exact m_conversions. Qed.
Print Assumptions C68_conversions.

(** For mole fractions that are not negative the mean weight is not zero. *)
Example C68_case : forall w, weights drm19 w ->
  Rsumn (s_NSP (library drm19)) (fun k => w k * nth k (all_fractions ex_mix) 0)%R <> 0%R.
Proof.
  intros w Hw. apply Rgt_not_eq. unfold Rsumn, Rgt.
  assert (N : forall k, (0 <= nth k (all_fractions ex_mix) 0)%R).
  { apply fractions_nonneg; [exact ex_mix_nonneg|]. rewrite ex_mix_sum. lra. }
  apply Rsum_positive.
  - intros k Hk. apply in_seq in Hk. destruct (Hw k ltac:(cbn in *; lia)) as [P _]. specialize (N k). nra.
  - exists 0. split; [apply in_seq; cbn; lia|]. destruct (Hw 0 ltac:(cbn; lia)) as [P _]. cbn [all_fractions ex_mix app nth]. lra.
Qed.

(** ** C69: the order of the species *)

(** [apply_mask] brings the order of chem.cti into that of the library, [apply_reverse_mask] back. *)
Theorem C69_masks :
  forall m, apply_mask m (cti_names m) = Ok (library_names m) /\
  forall (X : Type) (y : list X), length y = s_NSP (library m) ->
    (exists z, apply_mask m y = Ok z /\ apply_reverse_mask m z = Ok y) /\
    (exists z, apply_reverse_mask m y = Ok z /\ apply_mask m z = Ok y).
Proof. exact masks. Qed.
Print Assumptions C69_masks.

Example C69_case : apply_mask yao (seq 0 54) = Ok (seq 1 53 ++ [0]).
Proof. reflexivity. Qed.
