(** Property C89: the ODE driver in IEEE doubles.
    Vocabulary: OdeSolver.v (the model), the heads of OdeFacts.v ([point], [arrived], [outside], [reach]), Ieee.v ([fin64], [val],
    [u]) and OdeIeee.v ([interval], [forward_step], [steps_ahead]). *)
From Coq Require Import List Arith ZArith QArith Bool Lia Reals Lra.
From Coq Require Import Floats.SpecFloat.
From Flocq Require Import Core.
From Verif Require Import Outcome Arith OdeSolver OdeFacts Ieee SweepIeee TimeIeee MixIeee OdeIeee.
Import ListNotations.
Local Open Scope R_scope.

(** ** C89: the ODE driver in doubles *)

(** The end test is exact: it stops at [x] exactly if [x] is not before the end. *)
Theorem C89_end_test :
  forall xEnd, interval xEnd -> forall x : num F64, fin64 x -> 0 <= val x <= bpow radix2 402 ->
    (arrived (zero F64) xEnd x <-> val xEnd <= val x).
Proof. exact arrived64. Qed.
Print Assumptions C89_end_test.

(** So is the test whether a trial step leads beyond the end. *)
Theorem C89_cut_test :
  forall xEnd, interval xEnd -> forall x : num F64, fin64 x -> 0 <= val x <= bpow radix2 402 ->
    outside (zero F64) xEnd x = Rlt_bool (val xEnd) (val x).
Proof. exact outside64. Qed.
Print Assumptions C89_cut_test.

(** An integration over [xEnd] ends there up to three rounding errors. *)
Theorem C89_end :
  forall xEnd, interval xEnd ->
  forall (H : Type) (solve : H -> num F64 -> list (num F64) -> stepState F64 -> outcome (num F64 * list (num F64) * stepState F64 * H)),
    steps_ahead solve ->
  forall maxSteps h y dxTry y' dx' h', forward_step dxTry ->
    solve_range solve maxSteps h (zero F64) xEnd y dxTry = Ok (y', dx', h') ->
    exists k b, (k <= maxSteps)%nat /\ reach solve (zero F64) xEnd (mkPoint h (zero F64) y (newStep dxTry)) k b /\
      y' = pt_y b /\ h' = pt_mem b /\ fin64 (pt_x b) /\ val xEnd <= val (pt_x b) <= val xEnd * (1 + 3 * u).
Proof. exact @range64. Qed.
Print Assumptions C89_end.

(** No step method whatever makes the driver stop short of the end. *)
Theorem C89_not_short :
  forall xEnd, interval xEnd ->
  forall (H : Type) (solve : H -> num F64 -> list (num F64) -> stepState F64 -> outcome (num F64 * list (num F64) * stepState F64 * H))
         maxSteps h y dxTry y' dx' h',
    solve_range solve maxSteps h (zero F64) xEnd y dxTry = Ok (y', dx', h') ->
    exists k b, (k <= maxSteps)%nat /\ reach solve (zero F64) xEnd (mkPoint h (zero F64) y (newStep dxTry)) k b /\
      y' = pt_y b /\ h' = pt_mem b /\ (fin64 (pt_x b) -> 0 <= val (pt_x b) <= bpow radix2 402 -> val xEnd <= val (pt_x b)).
Proof. exact @not_short. Qed.
Print Assumptions C89_not_short.

(** A stepper that makes the step it is asked for, counts its calls, and proposes the same step; not a function of /repo. *)
Definition whole_stepper (h : nat) (x : num F64) (y : list (num F64)) (s : stepState F64)
  : outcome (num F64 * list (num F64) * stepState F64 * nat) :=
  Ok (nadd F64 x (ss_dxTry s), y,
      mkStep (A := F64) (ss_forward s) (ss_dxTry s) (ss_dxTry s) (ss_first s) (ss_last s) false false, S h).

Example C89_case_stepper : steps_ahead whole_stepper.
Proof.
  intros h x y s x' y' s' h' E Fx Hx Hd. unfold whole_stepper in E.
  assert (E1 : x' = nadd F64 x (ss_dxTry s)) by congruence.
  assert (E2 : ss_dxTry s' = ss_dxTry s).
  { assert (X : s' = mkStep (A := F64) (ss_forward s) (ss_dxTry s) (ss_dxTry s) (ss_first s) (ss_last s) false false) by congruence.
    rewrite X. reflexivity. }
  destruct Hd as [Fd Hd]. destruct bounds_400 as (B1 & B2 & B3).
  destruct (add64 x (ss_dxTry s) Fx Fd) as [F V].
  { apply big_400. rewrite Rabs_pos_eq by lra. apply Rle_trans with (bpow radix2 402); [lra|apply bpow_le; lia]. }
  rewrite E1, E2. split; [exact F|]. split; [|split; assumption]. split; [|lra].
  rewrite V. apply fl_ge_repr; [apply val_repr; exact Fx|lra].
Qed.

(** From 0 to 1 with steps of 3/10: four calls, not three. *)
Example C89_case :
  match solve_range whole_stepper 9%nat 0%nat (zero F64) (lit F64 1) [lit F64 5] (lit F64 (3 # 10)) with
  | Ok (_, d, h) => (h =? 4)%nat && SFeqb d (lit F64 (3 # 10)) | _ => false end = true /\
  match solve_range whole_stepper 3%nat 0%nat (zero F64) (lit F64 1) [lit F64 5] (lit F64 (3 # 10)) with Fatal => true | _ => false end = true.
Proof. split; vm_compute; reflexivity. Qed.

Example C89_case_interval : interval (lit F64 1) /\ forward_step (lit F64 (3 # 10)).
Proof.
  assert (L1 : fin64 (lit F64 1) /\ val (lit F64 1) = 1).
  { split; [split; vm_compute; reflexivity|unfold val; cbn; unfold F2R; cbn; lra]. }
  assert (L3 : fin64 (lit F64 (3 # 10)) /\ 0 < val (lit F64 (3 # 10)) <= 1).
  { split; [split; vm_compute; reflexivity|unfold val; cbn; unfold F2R; cbn; lra]. }
  assert (P : bpow radix2 (-400) <= 1 <= bpow radix2 400) by (split; [apply (bpow_le radix2 (-400) 0)|apply (bpow_le radix2 0 400)]; lia).
  destruct L1 as [F1 V1], L3 as [F3 V3]. split; [split; [exact F1|rewrite V1; exact P]|split; [exact F3|lra]].
Qed.
