(** Properties C39, C40 and C54: the ODE driver and the error norm.
    Vocabulary: OdeSolver.v (the model), the head of OdeFacts.v ([point], [arrived],
    [outside], [stepped], [carry], [reach]). *)
From Coq Require Import List Arith ZArith QArith Qabs Qminmax Bool Lia.
From Verif Require Import Outcome Arith OdeSolver OdeFacts.
Import ListNotations.
Local Open Scope nat_scope.

(** ** Test data *)

(** A stepper that goes 3/4 of the way, counts its calls, and proposes twice the step. *)
Definition ex_stepper (h : nat) (x : Q) (y : list Q) (s : stepState QAD)
  : outcome (Q * list Q * stepState QAD * nat) :=
  let d := Qred ((3 # 4) * ss_dxTry s) in
  Ok (Qred (x + d), map (fun v => Qred (v + d)) y,
      mkStep (A := QAD) (ss_forward s) (Qred (2 * ss_dxTry s)) d (ss_first s) (ss_last s) false false, S h)%Q.

(** The same, but the last step goes all the way. *)
Definition ex_stepper_last (h : nat) (x : Q) (y : list Q) (s : stepState QAD)
  : outcome (Q * list Q * stepState QAD * nat) :=
  let d := if ss_last s then ss_dxTry s else Qred ((3 # 4) * ss_dxTry s) in
  Ok (Qred (x + d), map (fun v => Qred (v + d)) y,
      mkStep (A := QAD) (ss_forward s) (Qred (2 * ss_dxTry s)) d (ss_first s) (ss_last s) false false, S h)%Q.

(** ** C39: the driver reaches the end or fails *)

(** It returns exactly if at most [maxSteps] steps lead to the end, with the state and memory
    then reached. *)
Theorem C39_returns_at_end :
  forall (A : Arith) (H : Type)
         (solve : H -> num A -> list (num A) -> stepState A
                  -> outcome (num A * list (num A) * stepState A * H))
         maxSteps h (xStart xEnd : num A) y dxTry y' h',
    (exists dxTry', solve_range solve maxSteps h xStart xEnd y dxTry = Ok (y', dxTry', h')) <->
    (exists k b, k <= maxSteps /\
       reach solve xStart xEnd (mkPoint h xStart y (newStep dxTry)) k b /\
       arrived xStart xEnd (pt_x b) /\ y' = pt_y b /\ h' = pt_mem b).
Proof. exact @range_returns. Qed.
Print Assumptions C39_returns_at_end.

(** With a stepper that always returns it never hangs: it returns or is fatal, and fatal only if
    [maxSteps] steps do not lead to the end. *)
Theorem C39_fatal_otherwise :
  forall (A : Arith) (H : Type)
         (solve : H -> num A -> list (num A) -> stepState A
                  -> outcome (num A * list (num A) * stepState A * H))
         maxSteps h (xStart xEnd : num A) y dxTry,
    (forall h x y s, exists r, solve h x y s = Ok r) ->
    (exists r, solve_range solve maxSteps h xStart xEnd y dxTry = Ok r) \/
    (solve_range solve maxSteps h xStart xEnd y dxTry = Fatal /\
     (maxSteps = 0 \/
      exists b, reach solve xStart xEnd (mkPoint h xStart y (newStep dxTry)) maxSteps b /\
                ~ arrived xStart xEnd (pt_x b))).
Proof. exact @range_fatal. Qed.
Print Assumptions C39_fatal_otherwise.

(** What [arrived] means without rounding. *)
Theorem C39_arrived_forward :
  forall sm gr vg (xStart xEnd x : Q), (xStart < xEnd)%Q ->
    (arrived (A := QA sm gr vg) xStart xEnd x <-> (xEnd <= x)%Q).
Proof. exact arrived_forward. Qed.
Print Assumptions C39_arrived_forward.

Theorem C39_arrived_backward :
  forall sm gr vg (xStart xEnd x : Q), (xEnd < xStart)%Q ->
    (arrived (A := QA sm gr vg) xStart xEnd x <-> (x <= xEnd)%Q).
Proof. exact arrived_backward. Qed.
Print Assumptions C39_arrived_backward.

(** From 0 to 1 with trial step 1/10: four steps; three are not enough; backwards likewise. *)
Example C39_case : exists d,
  solve_range (A := QAD) ex_stepper_last 4 0 0%Q 1%Q [5]%Q (1 # 10)%Q = Ok ([6]%Q, d, 4).
Proof. eexists. vm_compute. reflexivity. Qed.

Example C39_case_fatal :
  solve_range (A := QAD) ex_stepper_last 3 0 0%Q 1%Q [5]%Q (1 # 10)%Q = Fatal /\
  solve_range (A := QAD) ex_stepper 50 0 0%Q 1%Q [5]%Q (1 # 10)%Q = Fatal.
Proof. split; vm_compute; reflexivity. Qed.

Example C39_case_backward : exists d,
  solve_range (A := QAD) ex_stepper_last 4 0 1%Q 0%Q [5]%Q (-1 # 10)%Q = Ok ([4]%Q, d, 4).
Proof. eexists. vm_compute. reflexivity. Qed.

(** ** C40: no overshoot *)
Theorem C40_no_overshoot :
  forall sm gr vg (H : Type)
         (solve : H -> Q -> list Q -> stepState (QA sm gr vg)
                  -> outcome (Q * list Q * stepState (QA sm gr vg) * H))
         h (xStart xEnd : Q) y (dxTry : Q) k b,
    (forall h (x : Q) y (s : stepState (QA sm gr vg)) x' y' s' h',
       solve h x y s = Ok (x', y', s', h') ->
       (0 < ss_dxTry s -> x < x' <= x + ss_dxTry s /\ 0 < ss_dxTry s')%Q /\
       (ss_dxTry s < 0 -> x + ss_dxTry s <= x' < x /\ ss_dxTry s' < 0)%Q) ->
    reach (A := QA sm gr vg) solve xStart xEnd
      (mkPoint (A := QA sm gr vg) h xStart y (newStep (A := QA sm gr vg) dxTry)) k b ->
    ((xStart < xEnd)%Q -> (0 < dxTry)%Q -> (xStart < pt_x b)%Q /\ (pt_x b <= xEnd)%Q) /\
    ((xEnd < xStart)%Q -> (dxTry < 0)%Q -> (pt_x b < xStart)%Q /\ (xEnd <= pt_x b)%Q).
Proof. exact no_overshoot. Qed.
Print Assumptions C40_no_overshoot.

(** Both steppers meet the hypothesis. *)
Example C40_case : honours _ _ _ ex_stepper /\ honours _ _ _ ex_stepper_last.
Proof.
  assert (X : forall x x' d e f : Q, (x' == x + e -> (e == (3 # 4) * d \/ e == d) -> f == 2 * d ->
    (0 < d -> x < x' <= x + d /\ 0 < f) /\ (d < 0 -> x + d <= x' < x /\ f < 0))%Q).
  { intros x x' d e f P [E|E] F; rewrite E in P; split; intros; split; try split; Lqa.lra. }
  split; intros h x y s x' y' s' h' E; unfold ex_stepper, ex_stepper_last in E; assert (HR := Qred_correct); generalize dependent Qred; intros R E HR; inversion E; subst; clear E; cbn [ss_dxTry];
    (eapply X; [apply HR| |apply HR]).
  - left; apply HR.
  - revert s. intros [? d ? ? [|] ? ?]; cbn; [right; apply Qeq_refl|left; apply HR].
Qed.

(** A trial step of the wrong sign is replaced by the whole interval, but the step state still
    says backward. *)
Example C40_wrong_sign :
  let a := mkPoint (A := QAD) (H := nat) 0 0%Q [5%Q] (newStep (A := QAD) (-1 # 10)%Q) in
  exists b, stepped (A := QAD) ex_stepper 0%Q 1%Q a b /\ ss_forward (pt_step b) = false /\
            pt_x b = (3 # 4)%Q.
Proof.
  intros a. exists (mkPoint (A := QAD) 1 (3 # 4)%Q [23 # 4]%Q
                   (mkStep (A := QAD) false 2%Q (3 # 4)%Q true true false false)).
  split; [vm_compute; reflexivity|split; reflexivity].
Qed.

(** ** C54: the error norm *)
Theorem C54_norm :
  forall sm gr vg (absTol relTol y0 y err : list Q) n,
    length absTol = n -> length relTol = n -> length y0 = n -> length y = n -> length err = n ->
    (forall i, i < n -> (0 < nth i absTol 0)%Q /\ (0 <= nth i relTol 0)%Q) ->
    exists m, normalizeError (A := QA sm gr vg) absTol relTol y0 y err = Ok m /\ (0 <= m)%Q /\
      forall t, (0 <= t)%Q ->
        ((m <= t)%Q <-> forall i, i < n ->
          (Qabs (nth i err 0%Q) <=
           t * (nth i absTol 0%Q + nth i relTol 0%Q * Qmax (Qabs (nth i y0 0%Q)) (Qabs (nth i y 0%Q))))%Q).
Proof. exact normalizeError_lemma. Qed.
Print Assumptions C54_norm.

Example C54_case :
  exists m, normalizeError (A := QAD) [1; 2]%Q [1 # 2; 1]%Q [2; -4]%Q [1; 3]%Q [-3; 2]%Q = Ok m /\ (m == 3 # 2)%Q.
Proof. eexists. split; vm_compute; reflexivity. Qed.
