(** Properties C70, C71: heat capacities and enthalpies of the mechanism libraries.
    Vocabulary: [cp_R], [h_R], [nasa_at], [nasa_abs], [species_nasa], [species_W], [element] in
    MechNasa.v; the coefficients are those of chem.cti (MechData.v); [gas_constant] in MechPmod.v,
    [weights] in MechFacts.v, the rest as in PropMech.v. *)
From Coq Require Import List ZArith NArith QArith Qabs Qreals Reals Bool String Lra Lia.
From Verif Require Import Outcome Arith MechLang MechSrc MechReal MechChem Mechanisms
  MechSpec MechPmod MechThermo MechConc MechNames MechFacts MechData MechNasa MechCp PropMech.
Import ListNotations.
Local Open Scope nat_scope.

(** ** C70: heat capacity and enthalpy are the NASA polynomials of chem.cti *)

Theorem C70_heat_capacity : forall m (M : libm RA) (T : R), (0 < T)%R -> exists cp : list R,
  lib_eval_cp M (library m) T = Ok cp /\ List.length cp = s_NSP (library m) /\
  forall k, k < s_NSP (library m) -> (0 < species_W m k)%R /\
    (Rabs (nth k cp 0 - gas_constant / species_W m k * cp_R (nasa_at (species_nasa m k) T) T) <=
     Q2R 4e-15 * (gas_constant / species_W m k * cp_R (nasa_abs (species_nasa m k) T) T))%R.
Proof. exact cp_value. Qed.
Print Assumptions C70_heat_capacity.

Theorem C70_enthalpy : forall m (M : libm RA) (T : R), (0 < T)%R -> exists h : list R,
  lib_eval_h M (library m) T = Ok h /\ List.length h = s_NSP (library m) /\
  forall k, k < s_NSP (library m) -> (0 < species_W m k)%R /\
    (Rabs (nth k h 0 - gas_constant / species_W m k * h_R (nasa_at (species_nasa m k) T) T) <=
     Q2R 4e-15 * (gas_constant / species_W m k * h_R (nasa_abs (species_nasa m k) T) T))%R.
Proof. exact h_value. Qed.
Print Assumptions C70_enthalpy.

(** The derivative of the enthalpy is the heat capacity (off the temperature where the polynomials change). *)
Theorem C70_slope : forall m (M : libm RA) (T : R) k, (0 < T)%R -> k < s_NSP (library m) ->
  T <> Q2R (n_mid (species_nasa m k)) ->
  exists d, derivable_pt_lim (element (lib_eval_h M (library m)) k) T d /\
    (Rabs (d - gas_constant / species_W m k * cp_R (nasa_at (species_nasa m k) T) T) <=
     Q2R 4e-15 * (gas_constant / species_W m k * cp_R (nasa_abs (species_nasa m k) T) T))%R.
Proof. exact h_slope. Qed.
Print Assumptions C70_slope.

(** Methane in gri30 (species 13) at 500 K: the low-temperature polynomial, and a temperature where it does not change. *)
Example C70_case :
  nth 13 (foam_names gri30) ""%string = "CH4"%string /\
  (nasa_at (species_nasa gri30 13) 500 0%nat = Q2R 5.14987613)%R /\ (500 <> Q2R (n_mid (species_nasa gri30 13)))%R.
Proof.
  split; [reflexivity|]. split.
  - unfold nasa_at. destruct (Rle_dec 500 (Q2R (n_mid (species_nasa gri30 13)))) as [H|H]; [reflexivity|].
    exfalso. apply H. unfold Q2R. cbn. lra.
  - unfold Q2R. cbn. lra.
Qed.

(** ** C71: heat capacities are positive *)

Theorem C71_species : forall m (M : libm RA) (T : R), (200 <= T <= 5000)%R -> exists cp : list R,
  lib_eval_cp M (library m) T = Ok cp /\ List.length cp = s_NSP (library m) /\
  forall k, k < s_NSP (library m) -> (0 < species_W m k /\ 2.4 * gas_constant / species_W m k <= nth k cp 0)%R.
Proof. exact cp_positive. Qed.
Print Assumptions C71_species.

Theorem C71_mixture : forall m (M : libm RA) (T : R) (y : list R), (200 <= T <= 5000)%R ->
  List.length y = s_NSP (library m) - 1 -> (forall k, k < List.length y -> (0 <= nth k y 0)%R) -> (Rsum y <= 1)%R ->
  exists cp : list R, lib_eval_cp M (library m) T = Ok cp /\
  (0 < Rsumn (s_NSP (library m)) (fun k => nth k cp 0 * nth k (y ++ [1 - Rsum y]) 0))%R.
Proof. exact mean_cp_positive. Qed.
Print Assumptions C71_mixture.

(** The temperature equation of a physical state: nothing is divided by zero. *)
Theorem C71_temperature : forall m, exists w, weights m w /\
  forall (M : libm RA) (p T : R) (y : list R), (200 <= T <= 5000)%R -> (0 < p)%R ->
  List.length y = s_NSP (library m) - 1 -> (forall k, k < List.length y -> (0 <= nth k y 0)%R) -> (Rsum y <= 1)%R ->
  exists (yN mw rho : R) (conc fwd rev pm sp : list R) (dyN : R) (cp h dy : list R),
    lib_eval_conc M (library m) T p y = Ok (yN, mw, rho, conc) /\
    lib_eval_rxn_rates M (library m) T p conc = Ok (fwd, rev) /\
    lib_get_rxn_pres_mod M (library m) T p conc = Ok pm /\
    lib_eval_spec_rates M (library m) fwd rev pm = Ok (sp, dyN) /\
    lib_eval_cp M (library m) T = Ok cp /\ lib_eval_h M (library m) T = Ok h /\
    lib_dydt M (library m) p (T :: y) = Ok dy /\
    (0 < rho)%R /\ (0 < Rsumn (s_NSP (library m)) (fun k => nth k cp 0 * nth k (y ++ [yN]) 0))%R /\
    (rho * Rsumn (s_NSP (library m)) (fun k => nth k cp 0 * nth k (y ++ [yN]) 0) * nth 0 dy 0 =
     - Rsumn (s_NSP (library m)) (fun k => w k * nth k (sp ++ [dyN]) 0 * nth k h 0))%R.
Proof. exact temperature_rate. Qed.
Print Assumptions C71_temperature.

(** The mixture of PropMech.v at 1000 K. *)
Example C71_case : (200 <= 1000 <= 5000)%R /\ (0 < 100000)%R /\ List.length ex_mix = s_NSP (library drm19) - 1 /\
  (forall k, k < List.length ex_mix -> (0 <= nth k ex_mix 0)%R) /\ (Rsum ex_mix <= 1)%R.
Proof. split; [lra|]. split; [lra|]. split; [reflexivity|]. split; [exact ex_mix_nonneg|]. rewrite ex_mix_sum. lra. Qed.
