(** Property C86: the functions of the mechanism libraries for constant volume.
    Vocabulary: [lib_eval_conc_rho], [lib_eval_u], [lib_eval_cv] at the head of MechVol.v (models of the code);
    the rest as in PropThermo.v. *)
From Coq Require Import List ZArith NArith QArith Qabs Qreals Reals Bool String Lra Lia.
From Verif Require Import Outcome Arith MechLang MechSrc MechReal MechChem Mechanisms
  MechSpec MechPmod MechThermo MechConc MechNames MechFacts MechData MechNasa MechCp MechVol PropMech.
Import ListNotations.
Local Open Scope nat_scope.

(** Defined for all arguments, in every arithmetic; the concentrations are those at the pressure that
    has this density. *)
Theorem C86_defined : forall (A : Arith) (M : libm A) m (T : num A),
  (exists u, lib_eval_u M m T = Ok u /\ List.length u = s_NSP (library m)) /\
  (exists cv, lib_eval_cv M m T = Ok cv /\ List.length cv = s_NSP (library m)).
Proof. exact volume_defined. Qed.
Print Assumptions C86_defined.

Theorem C86_state : forall (A : Arith) (M : libm A) m (T p r : num A) (y : list (num A)),
  List.length y = s_NSP (library m) - 1 ->
  exists (yN mw rho : num A) (conc conc' : list (num A)),
    lib_eval_conc M (library m) T p y = Ok (yN, mw, rho, conc) /\
    lib_eval_conc_rho M m T r y = Ok (yN, mw, ndiv A (nmul A (nmul A r (lit A 8.31446210e+03)) T) mw, conc') /\
    List.length conc = s_NSP (library m) /\ List.length conc' = s_NSP (library m) /\
    (r = rho -> conc' = conc).
Proof. exact @density_state. Qed.
Print Assumptions C86_state.

(** Without rounding: from pressure to density and back, and from density to pressure and back. *)
Theorem C86_pressure_density : forall m, exists w, weights m w /\
  forall (M : libm RA) (T x : R) (y : list R), List.length y = s_NSP (library m) - 1 -> T <> 0%R ->
  Rsumn (s_NSP (library m)) (fun k => nth k (y ++ [1 - Rsum y]) 0 / w k)%R <> 0%R ->
  (exists (yN mw rho : R) (conc : list R),
     lib_eval_conc (A := RA) M (library m) T x y = Ok (yN, mw, rho, conc) /\
     lib_eval_conc_rho (A := RA) M m T rho y = Ok (yN, mw, x, conc)) /\
  (exists (yN mw p : R) (conc : list R),
     lib_eval_conc_rho (A := RA) M m T x y = Ok (yN, mw, p, conc) /\
     lib_eval_conc (A := RA) M (library m) T p y = Ok (yN, mw, x, conc)).
Proof. exact m_volume. Qed.
Print Assumptions C86_pressure_density.

(** Heat capacities differ by the specific gas constant, enthalpy and internal energy by that times the
    temperature. *)
Theorem C86_mayer : forall m, exists r : nat -> R,
  (forall k, k < s_NSP (library m) -> (0 < species_W m k)%R /\
     (Rabs (r k - gas_constant / species_W m k) <= Q2R 1e-15 * (gas_constant / species_W m k))%R) /\
  forall (M : libm RA) (T : R), exists cp cv h u : list R,
    lib_eval_cp M (library m) T = Ok cp /\ lib_eval_cv M m T = Ok cv /\
    lib_eval_h M (library m) T = Ok h /\ lib_eval_u M m T = Ok u /\
    List.length cv = s_NSP (library m) /\ List.length u = s_NSP (library m) /\
    forall k, k < s_NSP (library m) ->
      nth k cv 0%R = (nth k cp 0 - r k)%R /\ nth k u 0%R = (nth k h 0 - r k * T)%R.
Proof. exact constant_volume. Qed.
Print Assumptions C86_mayer.

Theorem C86_positive : forall m (M : libm RA) (T : R), (200 <= T <= 5000)%R -> exists cv : list R,
  lib_eval_cv M m T = Ok cv /\ List.length cv = s_NSP (library m) /\
  forall k, k < s_NSP (library m) -> (0 < species_W m k /\ 1.39 * gas_constant / species_W m k <= nth k cv 0)%R.
Proof. exact cv_positive. Qed.
Print Assumptions C86_positive.

(** The derivative of the internal energy is the heat capacity (off the temperature where the polynomials change). *)
Theorem C86_slope : forall m (M : libm RA) (T : R) k, (0 < T)%R -> k < s_NSP (library m) ->
  T <> Q2R (n_mid (species_nasa m k)) ->
  exists d, derivable_pt_lim (element (lib_eval_u M m) k) T d /\
    (Rabs (d - gas_constant / species_W m k * (cp_R (nasa_at (species_nasa m k) T) T - 1)) <=
     Q2R 4e-15 * (gas_constant / species_W m k * (cp_R (nasa_abs (species_nasa m k) T) T + 1)))%R.
Proof. exact u_slope. Qed.
Print Assumptions C86_slope.

(** Hydrogen in drm19 at 500 K: c (a - 1 + ...) evaluated in rational arithmetic. *)
Example C86_case :
  nth 0 (foam_names drm19) ""%string = "H2"%string /\
  match lib_eval_cv (A := QAD) ex_libm drm19 500%Q, lib_eval_cp (A := QAD) ex_libm (library drm19) 500%Q with
  | Ok cv, Ok cp => Qeq (nth 0 cp 0 - nth 0 cv 0)%Q 4.1244826576978785e+03
  | _, _ => False
  end.
Proof. split; [reflexivity|]. vm_compute. reflexivity. Qed.

(** A mixture at 1000 K and 1 bar satisfies the hypotheses of the pressure and density theorem. *)
Example C86_case_mixture : exists (yN mw rho : R) (conc : list R),
  lib_eval_conc (A := RA) exact_libm (library drm19) 1000%R 100000%R ex_mix = Ok (yN, mw, rho, conc) /\
  lib_eval_conc_rho (A := RA) exact_libm drm19 1000%R rho ex_mix = Ok (yN, mw, 100000%R, conc) /\ (0 < rho)%R.
Proof.
  destruct (m_concentrations_nonneg exact_libm drm19 100000 1000 ex_mix eq_refl ltac:(lra) ltac:(lra) ex_mix_nonneg
    ltac:(rewrite ex_mix_sum; lra)) as (yN & mw & rho & conc & E & _ & _ & Hr & _).
  destruct (pressure_density exact_libm drm19 1000 100000 ex_mix eq_refl ltac:(lra)) as (a & b & c & d & E1 & E2).
  - intros Z. destruct (concentrations exact_libm (library drm19) 1000 100000 ex_mix (conc_all drm19) eq_refl) as (cc & E' & _).
    rewrite E' in E.
    assert (Er : (100000 * (1 / specific_moles (library drm19) ex_mix) / (gas_constant * 1000))%R = rho) by congruence.
    rewrite Z in Er. unfold Rdiv in Er. rewrite Rinv_0 in Er.
    rewrite <- Er, !Rmult_0_r, Rmult_0_l in Hr. lra.
  - rewrite E in E1. assert (X : (yN, mw, rho, conc) = (a, b, c, d)) by congruence. injection X as <- <- <- <-. exists yN, mw, rho, conc. auto.
Qed.
