(** Property C92: the problem counts of the load balancer in IEEE doubles.
    Vocabulary: Problem.v and LoadBalancing.v (the model), Ieee.v ([fin64], [val], [u]) and SweepIeee.v ([Rsum]). *)
From Coq Require Import List Arith ZArith QArith Bool Lia Reals Lra.
From Coq Require Import Floats.SpecFloat.
From Flocq Require Import Core.
From Verif Require Import Outcome Arith Problem LoadBalancing BalancerSpec PropBalancer Ieee SweepIeee CountIeee.
Import ListNotations.
Local Open Scope R_scope.

(** ** C92: problem counts in doubles *)

(** Each of the requested times gets a run of problems whose true total is hardly above it, and with one more problem hardly below. *)
Theorem C92_counts :
  forall (times : list (num F64)) (ps : list (problem F64)),
    (Z.of_nat (length ps) <= 2 ^ 20)%Z ->
    (forall p : problem F64, In p ps -> fin64 (p_cpuTime p) /\ 0 <= val (p_cpuTime p)) ->
    Rsum (map (fun p : problem F64 => val (p_cpuTime p)) ps) <= bpow radix2 900 ->
    let counts := timesToProblemCounts times ps in
    forall i t n, nth_error times i = Some t -> nth_error counts i = Some n -> fin64 t ->
      let rest := skipn (list_sum (firstn i counts)) ps in
      let total j := Rsum (map (fun p : problem F64 => val (p_cpuTime p)) (firstn j rest)) in
      (n <= length rest)%nat /\
      ((1 <= n)%nat -> total n * (1 - 2 * INR n * u) <= val t) /\
      ((n < length rest)%nat -> val t < total (n + 1)%nat * (1 + 2 * INR (n + 1) * u)).
Proof. exact counts64. Qed.
Print Assumptions C92_counts.

(** Four problems of a tenth; three of them do not fit into 3/10 though they would without rounding. *)
Example C92_case :
  timesToProblemCounts (A := F64) [lit F64 (3 # 10); lit F64 1] (map (tproblem F64 (1 # 10)) [0; 1; 2; 3]%nat) = [2; 2]%nat /\
  timesToProblemCounts (A := QAD) [3 # 10; 1]%Q (map (tproblem QAD (1 # 10)) [0; 1; 2; 3]%nat) = [3; 1]%nat.
Proof. split; vm_compute; reflexivity. Qed.

Example C92_case_input :
  (forall p : problem F64, In p (map (tproblem F64 (1 # 10)) [0; 1; 2; 3]%nat) -> fin64 (p_cpuTime p) /\ 0 <= val (p_cpuTime p)) /\
  Rsum (map (fun p : problem F64 => val (p_cpuTime p)) (map (tproblem F64 (1 # 10)) [0; 1; 2; 3]%nat)) <= bpow radix2 900 /\
  fin64 (lit F64 (3 # 10)).
Proof.
  assert (X : lit F64 (1 # 10) = S754_finite false 7205759403792794 (-56)) by (vm_compute; reflexivity).
  assert (V : 0 <= val (lit F64 (1 # 10)) <= 1) by (rewrite X; unfold val; cbn; unfold F2R; cbn; lra).
  assert (F : fin64 (lit F64 (1 # 10))) by (split; vm_compute; reflexivity).
  split; [|split; [|split; vm_compute; reflexivity]].
  - intros p Hp. apply in_map_iff in Hp as (c & <- & _). cbn [tproblem p_cpuTime]. split; [exact F|lra].
  - cbn [map Rsum tproblem p_cpuTime]. assert (4 <= bpow radix2 900) by (apply (bpow_le radix2 2 900); lia). lra.
Qed.
