(** Properties C41 to C49: the extrapolation method seulex.
    Vocabulary: Seulex.v and OdeSolver.v (the model), the heads of OdeFacts.v ([point], [stepped],
    [reach]), SeulexSafe.v ([sys_sane], [order_defined]), SeulexSpec.v ([euler], [col],
    [neville], [scaled_error], [plausible], [computes]), SeulexPoly.v ([poly],
    [extrapolated]) and SeulexCases.v ([seulex_range], [seulex_reach]); [good_tolerances] in SeulexRun.v; [lapack_solves], [euler_run] in
    SeulexFacts.v.  Instances for examples: SeulexEx.v. *)
From Coq Require Import List Arith ZArith QArith Qabs Bool Lia Lqa Setoid.
From Coq Require Import Floats.SpecFloat.
From Verif Require Import Outcome Arith ChemistryModel ChemFacts OdeSolver Seulex SeulexMono SeulexSafe
  SeulexRun SeulexSpec OdeFacts SeulexFacts SeulexPoly SeulexEx SeulexCases QSum.
Import ListNotations.
Local Open Scope nat_scope.

(** ** Test data *)

Lemma ex_good : good_tolerances qmath 1 ex_tol ex_tol.
Proof.
  split; auto. split; auto. split; [vm_compute; reflexivity|].
  intros a r Ea Er. inversion Ea; inversion Er; subst. eexists. vm_compute. reflexivity.
Qed.

(** ** C42: array accesses stay in bounds *)

(** Whatever a solver object was used for before (memory [m]), an integration has no undefined
    behaviour: no index is out of range and nothing uninitialised is read. *)
Theorem C42_in_bounds :
  forall (A : Arith) (S : Type) (cm : cmath A) (lap : lapack A) (sys : odesys A S)
         (absTol relTol : list (num A)) fuel,
    sys_sane sys -> 1 <= nEqns sys -> good_tolerances cm (nEqns sys) absTol relTol ->
    forall maxSteps m xs xe y dxTry, length y = nEqns sys ->
    match seulex_range cm lap sys absTol relTol fuel maxSteps m xs xe y dxTry with
    | Ok (y', _, _) => length y' = nEqns sys
    | UB => False
    | _ => True
    end.
Proof. exact @range_safe. Qed.
Print Assumptions C42_in_bounds.

(** It leaves the order target within 1..iMaxx-2. *)
Theorem C42_order_target :
  forall (A : Arith) (S : Type) (cm : cmath A) (lap : lapack A) (sys : odesys A S)
         (absTol relTol : list (num A)) fuel maxSteps m (xs xe : num A) y dxTry y' d' m',
    sys_sane sys -> 1 <= nEqns sys -> good_tolerances cm (nEqns sys) absTol relTol ->
    length y = nEqns sys ->
    seulex_range cm lap sys absTol relTol fuel maxSteps m xs xe y dxTry = Ok (y', d', m') ->
    exists k, m_kTarg m' = Some k /\ 1 <= k <= iMaxx - 2.
Proof. exact @range_order. Qed.
Print Assumptions C42_order_target.

(** Positive tolerances below 1 are good in exact arithmetic if the conversion to [int] does not
    fail. *)
Theorem C42_tolerances :
  forall sm gr vg (cm : cmath (QA sm gr vg)) n (absTol relTol : list Q),
    length absTol = n -> length relTol = n -> 1 <= n ->
    (forall q, fint cm q <> None) -> (forall r, In r relTol -> (0 < r)%Q) ->
    good_tolerances cm n absTol relTol.
Proof. exact positive_tolerances. Qed.
Print Assumptions C42_tolerances.

Example C42_case : match seulex_range qrmath lap1 rdecay ex_tol ex_tol 9 9 (newMem (A := QR) ex_tol tt) 0%Q (1 # 2)%Q
                           [1000]%Q (1 # 10)%Q with
                   | Ok ([v], _, m') => Qle_bool 606 v = true /\ Qle_bool v 607 = true /\ m_kTarg m' = Some 2
                   | _ => False
                   end.
Proof. vm_compute. auto. Qed.

(** ** C43: seulex is memoryless across calls *)

(** Two solver objects with any two pasts give the same result and next trial step, or both
    fail in the same way. *)
Theorem C43_memoryless :
  forall (A : Arith) (S : Type) (cm : cmath A) (lap : lapack A) (sys : odesys A S)
         (absTol relTol : list (num A)) fuel,
    sys_sane sys -> sys_memoryless sys -> 1 <= nEqns sys ->
    good_tolerances cm (nEqns sys) absTol relTol ->
    forall maxSteps m1 m2 xs xe y dxTry, length y = nEqns sys ->
    orel (fun a b => fst a = fst b)
      (seulex_range cm lap sys absTol relTol fuel maxSteps m1 xs xe y dxTry)
      (seulex_range cm lap sys absTol relTol fuel maxSteps m2 xs xe y dxTry).
Proof. exact @range_memoryless. Qed.
Print Assumptions C43_memoryless.

Example C43_case : sys_sane decay /\ sys_memoryless decay /\ good_tolerances qmath (nEqns decay) ex_tol ex_tol.
Proof. split; [apply scalar_sane|]. split; [apply scalar_memoryless|exact ex_good]. Qed.

(** With relative tolerance 0 the Jacobian is not evaluated in the first step, and what an
    earlier integration has left there decides the result. *)
Theorem C43_zero_relTol_refuted :
  exists (sys : odesys QAD unit) absTol (m1 m2 : mem QAD unit) x1 y1 s1 m1' x2 y2 s2 m2',
    sys_sane sys /\ sys_memoryless sys /\
    step_solve qmath lap1 sys absTol [0]%Q 30 0%Q [1000]%Q (newStep (A := QAD) 1%Q) m1 = Ok (x1, y1, s1, m1') /\
    step_solve qmath lap1 sys absTol [0]%Q 30 0%Q [1000]%Q (newStep (A := QAD) 1%Q) m2 = Ok (x2, y2, s2, m2') /\
    ~ (x1 == x2)%Q.
Proof. exact zero_relTol_stale. Qed.
Print Assumptions C43_zero_relTol_refuted.

(** ** C44: nothing uninitialised is read *)

(** An object of which nothing is initialised behaves well: a call reads only what was written
    in that call. *)
Theorem C44_reads_initialised :
  forall (A : Arith) (S : Type) (cm : cmath A) (lap : lapack A) (sys : odesys A S)
         (absTol relTol : list (num A)) fuel (s : S) maxSteps (xs xe : num A) y dxTry,
    sys_sane sys -> 1 <= nEqns sys -> good_tolerances cm (nEqns sys) absTol relTol ->
    length y = nEqns sys ->
    seulex_range cm lap sys absTol relTol fuel maxSteps (mkMem (fun _ _ => None) None None s)
      xs xe y dxTry <> UB.
Proof. exact @reads_initialised. Qed.
Print Assumptions C44_reads_initialised.

Example C44_case : match seulex_range qrmath lap1 rdecay ex_tol ex_tol 9 9
                           (mkMem (A := QR) (fun _ _ => None) None None tt) 0%Q (1 # 2)%Q [1000]%Q (1 # 10)%Q with
                   | Ok ([v], _, _) => Qle_bool 606 v = true /\ Qle_bool v 607 = true
                   | _ => False
                   end.
Proof. vm_compute. auto. Qed.

(** With relative tolerance 0 a new solver reads an uninitialised Jacobian. *)
Theorem C44_zero_relTol_refuted :
  seulex_range qmath lap1 decay [1 # 1000]%Q [0]%Q 9 9 (newMem (A := QAD) [0]%Q tt) 0%Q 1%Q [1000]%Q (1 # 10)%Q = UB.
Proof. vm_compute. reflexivity. Qed.
Print Assumptions C44_zero_relTol_refuted.

(** ** C46: a step advances by what it reports, to an extrapolated value *)

(** Every step of an integration, from whatever memory: it starts where the one before ended,
    advances by [dxDid], and its result is the extrapolation of columns 0 to [q] of that size
    computed with a Jacobian of the system; the error estimate of the last column is at most 1
    or, if that comparison fails, not above 1. *)
Theorem C46_every_step :
  forall (A : Arith) (S : Type) (cm : cmath A) (lap : lapack A) (sys : odesys A S)
         (absTol relTol : list (num A)) fuel rhs jacf,
    computes sys rhs jacf ->
    nltb A (jacRedo relTol) (nmul A (lit A 2) (jacRedo relTol)) = true ->
    forall m xs xe y dx k b,
    seulex_reach cm lap sys absTol relTol fuel m xs xe y dx k b ->
    exists x0 y0,
      ((k = 1 /\ x0 = xs /\ y0 = y) \/
       exists j b', k = Datatypes.S j /\ seulex_reach cm lap sys absTol relTol fuel m xs xe y dx j b' /\
                    x0 = pt_x b' /\ y0 = pt_y b') /\
      exists xj yj q,
        let H := ss_dxDid (pt_step b) in
        let E := col lap (nEqns sys) rhs (jacf xj yj) x0 y0 H in
        let err := scaled_error cm (nEqns sys) absTol relTol y0 (neville E q q) (neville E q (q - 1)) in
        1 <= q <= 12 /\ pt_x b = nadd A x0 H /\ pt_y b = neville E q q /\
        (nleb A err (lit A 1) = true \/ nltb A (lit A 1) err = false).
Proof. exact @step_by_step. Qed.
Print Assumptions C46_every_step.

(** Two steps with [y' = 100]. *)
Example C46_case :
  computes ex_ramp (fun _ _ => [100%Q]) (fun _ _ => [[0%Q]]) /\
  Qltb (jacRedo (A := QAD) ex_tol) (2 * jacRedo (A := QAD) ex_tol)%Q = true /\
  exists b, seulex_reach qmath lap1 ex_ramp ex_tol ex_tol 4 (newMem (A := QAD) ex_tol tt)
              0%Q 3%Q [1000]%Q 1%Q 2 b.
Proof.
  split; [exact (scalar_computes (A := QAD) (fun _ _ => 100%Q) 0%Q)|]. split; [vm_compute; reflexivity|].
  exact ramp_steps.
Qed.

(** ** C45: only steps within the tolerance are accepted *)

(** In exact arithmetic the error estimate of every accepted step is at most 1. *)
Theorem C45_accepted_within_tolerance :
  forall sm gr vg (S : Type) (cm : cmath (QA sm gr vg)) (lap : lapack (QA sm gr vg))
         (sys : odesys (QA sm gr vg) S) (absTol relTol : list Q) fuel rhs jacf,
    computes sys rhs jacf ->
    (forall r, In r relTol -> (0 < r)%Q) -> relTol <> [] ->
    forall m (xs xe : Q) y (dx : Q) k b,
    seulex_reach cm lap sys absTol relTol fuel m xs xe y dx k b ->
    exists x0 y0 xj yj q,
      let E := col (A := QA sm gr vg) lap (nEqns sys) rhs (jacf xj yj) x0 y0 (ss_dxDid (pt_step b)) in
      1 <= q <= 12 /\
      ((k = 1 /\ x0 = xs /\ y0 = y) \/
       exists j b', k = Datatypes.S j /\ seulex_reach cm lap sys absTol relTol fuel m xs xe y dx j b' /\
                    x0 = pt_x b' /\ y0 = pt_y b') /\
      pt_y b = neville (A := QA sm gr vg) E q q /\
      (scaled_error (A := QA sm gr vg) cm (nEqns sys) absTol relTol y0 (pt_y b)
         (neville (A := QA sm gr vg) E q (q - 1)) <= 1)%Q.
Proof. exact accepted_exact. Qed.
Print Assumptions C45_accepted_within_tolerance.

(** In doubles a step whose error estimate is NaN is accepted. *)
Theorem C45_nan_accepted_refuted :
  exists x s m,
    step_solve fmath lap1 (scalar_sys (A := F64) (fun _ _ => S754_nan) (zero F64))
      [lit F64 (1 # 1000)] [lit F64 (1 # 1000)] 1 (lit F64 0) [lit F64 1000] (newStep (A := F64) (lit F64 1))
      (newMem (A := F64) [lit F64 (1 # 1000)] tt)
    = Ok (x, [S754_nan], s, m).
Proof. exact nan_accepted. Qed.
Print Assumptions C45_nan_accepted_refuted.

(** ** C47: temperatures *)

(** Within an accepted step the states after all sub-steps but the last of each column have a
    first component in (200, 5000] (NaN passes). *)
Theorem C47_substeps_plausible :
  forall (A : Arith) (S : Type) (cm : cmath A) (lap : lapack A) (sys : odesys A S)
         (absTol relTol : list (num A)) fuel rhs jacf,
    computes sys rhs jacf ->
    nltb A (jacRedo relTol) (nmul A (lit A 2) (jacRedo relTol)) = true ->
    forall m xs xe y dx k b,
    seulex_reach cm lap sys absTol relTol fuel m xs xe y dx k b ->
    exists x0 y0 xj yj q, 1 <= q /\
      pt_y b = neville (col lap (nEqns sys) rhs (jacf xj yj) x0 y0 (ss_dxDid (pt_step b))) q q /\
      forall c, c <= q ->
        let s := nth c substep_numbers 0 in
        forall i, 1 <= i < s ->
          exists T rest, snd (euler lap (nEqns sys) rhs (jacf xj yj) x0 y0
                                (ndiv A (ss_dxDid (pt_step b)) (ofnat A s)) i) = T :: rest /\
            nleb A T (lit A 200) = false /\ nltb A (lit A 5000) T = false.
Proof. exact @substeps_plausible. Qed.
Print Assumptions C47_substeps_plausible.

(** The accepted state itself is not checked: from 1000 K a step to -100 K is accepted. *)
Theorem C47_accepted_temperature_refuted :
  exists (sys : odesys QAD unit) b,
    seulex_reach qmath lap1 sys ex_tol ex_tol 4 (newMem (A := QAD) ex_tol tt) 0%Q 2%Q [1000]%Q (11 # 10)%Q 1 b /\
    exists T, pt_y b = [T] /\ (T == -100)%Q.
Proof. exact cold_accepted. Qed.
Print Assumptions C47_accepted_temperature_refuted.

(** If the first component is outside (200, 5000] after a sub-step of every size, the
    integration never ends, however many attempts are allowed. *)
Theorem C47_never_returns :
  forall (A : Arith) (S : Type) (cm : cmath A) (lap : lapack A) (sys : odesys A S)
         (absTol relTol : list (num A)) fuel rhs jacf maxSteps m (xs xe : num A) y dx,
    computes sys rhs jacf -> sys_sane sys -> sys_quiet sys -> 1 <= nEqns sys ->
    good_tolerances cm (nEqns sys) absTol relTol -> length y = nEqns sys -> 1 <= maxSteps ->
    (forall x' y' h, ~ plausible (snd (euler lap (nEqns sys) rhs (jacf x' y') xs y h 1))) ->
    seulex_range cm lap sys absTol relTol fuel maxSteps m xs xe y dx = Diverge.
Proof. exact @never_returns. Qed.
Print Assumptions C47_never_returns.

(** A variable at 100 that does not change. *)
Example C47_case : forall fuel maxSteps m, 1 <= maxSteps ->
  seulex_range qmath lap1 (scalar_sys (A := QAD) (fun _ _ => 0%Q) 0%Q) ex_tol ex_tol fuel maxSteps m
    0%Q 1%Q [100]%Q (1 # 10)%Q = Diverge.
Proof.
  intros fuel maxSteps m HM. eapply C47_never_returns; eauto.
  - apply scalar_computes.
  - apply scalar_sane.
  - apply scalar_quiet.
  - exact ex_good.
  - intros x' y' h [P _]. apply Qle_bool_false in P. revert P. apply Qle_not_lt.
    change (100 + 0 / (-(1) * 0 + 1 / h) <= 200)%Q. setoid_replace (0 / (-(1) * 0 + 1 / h))%Q with 0%Q; [lra|].
    unfold Qdiv. ring.
Qed.

(** ** C48: each column is the linearly implicit Euler method *)

(** With a LAPACK that solves regular systems: the columns extrapolated in an accepted step are
    2, 3, 4, 6, ... implicit Euler steps of equal size [h] over the step (if 1/h - J is regular,
    [step_regular]). *)
Theorem C48_implicit_euler :
  forall sm gr vg (S : Type) (cm : cmath (QA sm gr vg)) (lap : lapack (QA sm gr vg))
         (sys : odesys (QA sm gr vg) S) (absTol relTol : list Q) fuel rhs jacf,
    computes sys rhs jacf -> lapack_solves lap (nEqns sys) ->
    (forall x y, length (rhs x y) = nEqns sys) ->
    (forall r, In r relTol -> (0 < r)%Q) -> relTol <> [] ->
    forall m (xs xe : Q) y (dx : Q) k b, length y = nEqns sys ->
    seulex_reach cm lap sys absTol relTol fuel m xs xe y dx k b ->
    exists x0 y0 xj yj q E,
      ((k = 1 /\ x0 = xs /\ y0 = y) \/
       exists j b', k = Datatypes.S j /\ seulex_reach cm lap sys absTol relTol fuel m xs xe y dx j b' /\
                    x0 = pt_x b' /\ y0 = pt_y b') /\
      1 <= q <= 12 /\ pt_y b = neville (A := QA sm gr vg) E q q /\
      forall c, c <= q ->
        let s := nth c substep_numbers 0 in
        let h := (ss_dxDid (pt_step b) / inject_Z (Z.of_nat s))%Q in
        step_regular (nEqns sys) (jacf xj yj) h ->
        euler_run (nEqns sys) rhs (jacf xj yj) x0 y0 h s (E c).
Proof. exact columns_are_euler. Qed.
Print Assumptions C48_implicit_euler.

Example C48_case :
  lapack_solves (lap1 (A := QAD)) (nEqns ex_ramp) /\
  (forall r, In r ex_tol -> (0 < r)%Q) /\
  (forall h, (~ h == 0)%Q -> step_regular (nEqns ex_ramp) [[0%Q]] h) /\
  exists b, seulex_reach qmath lap1 ex_ramp ex_tol ex_tol 4 (newMem (A := QAD) ex_tol tt)
              0%Q 3%Q [1000]%Q 1%Q 2 b.
Proof.
  split; [exact lap1_solves|]. split; [intros r [<-|[]]; reflexivity|]. split; [|exact ramp_steps].
  intros h Hh z [Lz Hz] i Hi. specialize (Hz i Hi). simpl in Hi. destruct i; [|lia].
  unfold Qsumf in Hz. simpl in Hz.
  assert (E : (nth 0 z 0 == nth 0 z 0 / h * h)%Q) by (field; exact Hh).
  rewrite E. set (q := (nth 0 z 0 / h)%Q) in *. assert (Z : (q == 0)%Q) by lra. rewrite Z. ring.
Qed.

(** ** C49: extrapolation is exact on polynomials *)

(** If each component of the columns is a polynomial of degree at most [K] in the sub-step size,
    extrapolating columns 0 to [K] gives its constant term. *)
Theorem C49_polynomials :
  forall sm gr vg (S : Type) (sys : odesys (QA sm gr vg) S) (H : Q) (cs : list (list Q)) E K m y' m',
    K <= 12 -> (forall c, In c cs -> length c <= K + 1) ->
    (forall j, E j = map (fun c => poly c (H / inject_Z (Z.of_nat (nth j substep_numbers 0%nat)))) cs) ->
    extrapolated sys E K m = Ok (y', m') ->
    length y' = length cs /\ forall i, i < length cs -> (nth i y' 0 == nth 0 (nth i cs []) 0)%Q.
Proof. exact extrapolated_poly. Qed.
Print Assumptions C49_polynomials.

(** 7 - 3 h + 5 h^2 with three columns of an interval of length 2. *)
Example C49_case : match extrapolated decay (fun j => [poly [7; -3; 5] (2 / inject_Z (Z.of_nat (nth j substep_numbers 0%nat)))])%Q 2
                           (newMem (A := QAD) ex_tol tt) with
                   | Ok ([v], _) => (v == 7)%Q | _ => False end.
Proof. vm_compute. reflexivity. Qed.

(** ** C41: the trial step *)

(** A step can advance by more than its trial step, and an integration beyond its end. *)
Theorem C41_trial_step_refuted :
  exists b, seulex_reach qrmath lap1 ex_grow ex_absTol ex_relTol 4 (newMem (A := QR) ex_relTol tt) 0%Q 9%Q [1000]%Q 1%Q 2 b /\
    (9 < pt_x b)%Q.
Proof. exact grows_beyond. Qed.
Print Assumptions C41_trial_step_refuted.
