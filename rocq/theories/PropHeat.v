(** Property C90: the heat release in IEEE doubles.
    Vocabulary: PyJac.v (the model), Ieee.v ([fin64], [val], [u]) and MechReal.v ([Rsum]). *)
From Coq Require Import List Arith ZArith QArith Bool Lia Reals Lra.
From Coq Require Import Floats.SpecFloat.
From Flocq Require Import Core.
From Verif Require Import Outcome Arith PyJac Ieee MechReal HeatIeee.
Import ListNotations.
Local Open Scope R_scope.

(** ** C90: heat release in doubles *)
Theorem C90_heat_release :
  forall (mc : mech F64) ns h (RR : list (list (num F64))) n,
    NSP mc = ns -> construct mc ns true = Ok h -> INR ns <= 2 ^ 20 ->
    length RR = ns -> (forall row, In row RR -> length row = n) ->
    (forall row x, In row RR -> In x row -> fin64 x) ->
    let h0 := h_elt mc (lit F64 (29815 # 100)) in
    let rr := fun i c => nth c (nth i RR []) (zero F64) in
    (forall i, (i < ns)%nat -> fin64 (h0 i)) ->
    exists q, Qdot ns true h RR n = Ok q /\ length q = n /\
      forall c, (c < n)%nat ->
        let M := Rsum (map (fun i => Rabs (val (h0 i) * val (rr i c))) (seq 0 ns)) in
        M <= bpow radix2 700 ->
        fin64 (nth c q (zero F64)) /\
        Rabs (val (nth c q (zero F64)) + Rsum (map (fun i => val (h0 i) * val (rr i c)) (seq 0 ns))) <=
        INR ns * (3 * u * M + bpow radix2 (-1074)).
Proof. exact heat64. Qed.
Print Assumptions C90_heat_release.

(** If all species take part with the same sign, the heat release has the opposite sign and is relatively accurate. *)
Theorem C90_no_cancellation :
  forall (mc : mech F64) ns h (RR : list (list (num F64))) n,
    NSP mc = ns -> construct mc ns true = Ok h -> INR ns <= 2 ^ 20 ->
    length RR = ns -> (forall row, In row RR -> length row = n) ->
    (forall row x, In row RR -> In x row -> fin64 x) ->
    let h0 := h_elt mc (lit F64 (29815 # 100)) in
    let rr := fun i c => nth c (nth i RR []) (zero F64) in
    (forall i, (i < ns)%nat -> fin64 (h0 i)) ->
    exists q, Qdot ns true h RR n = Ok q /\ length q = n /\
      forall c, (c < n)%nat ->
        (forall i, (i < ns)%nat -> val (h0 i) * val (rr i c) <= 0) ->
        let heat := - Rsum (map (fun i => val (h0 i) * val (rr i c)) (seq 0 ns)) in
        bpow radix2 (-1000) <= heat <= bpow radix2 700 ->
        fin64 (nth c q (zero F64)) /\ 0 < val (nth c q (zero F64)) /\
        Rabs (val (nth c q (zero F64)) - heat) <= 4 * INR ns * u * heat.
Proof. exact heat_released. Qed.
Print Assumptions C90_no_cancellation.

(** Two species with enthalpies 0.1 and -0.3 at 298.15 K; not a function of /repo. *)
Definition heat_mech : mech F64 :=
  mkMech (A := F64) 2 (fun _ _ _ => zero F64) (fun _ _ _ => zero F64)
    (fun _ i => if (i =? 0)%nat then lit F64 (1 # 10) else lit F64 (-(3 # 10))).

(** The rounded sum of 0.1 x 1 - 0.3 x 1 is that of the doubles, not the double next to 0.2. *)
Example C90_case :
  match construct heat_mech 2 true with
  | Ok h => match Qdot (A := F64) 2 true h [[lit F64 1; lit F64 (-(2))]; [lit F64 1; lit F64 (1 # 7)]] 2 with
            | Ok [a; b] => SFeqb a (nsub F64 (lit F64 (3 # 10)) (lit F64 (1 # 10))) && negb (SFeqb a (lit F64 (2 # 10))) && SFltb (lit F64 (24 # 100)) b
            | _ => false end
  | _ => false end = true.
Proof. vm_compute. reflexivity. Qed.

Example C90_case_input :
  NSP heat_mech = 2%nat /\ INR 2 <= 2 ^ 20 /\
  (forall i, (i < 2)%nat -> fin64 (h_elt heat_mech (lit F64 (29815 # 100)) i)) /\
  (forall row x, In row [[lit F64 1; lit F64 (-(2))]; [lit F64 1; lit F64 (1 # 7)]] -> In x row -> fin64 x) /\
  val (h_elt heat_mech (lit F64 (29815 # 100)) 0%nat) * val (lit F64 (-(2))) <= 0 /\
  val (h_elt heat_mech (lit F64 (29815 # 100)) 1%nat) * val (lit F64 (1 # 7)) <= 0.
Proof.
  split; [reflexivity|]. split; [cbn; lra|].
  split; [intros [|[|i]] Hi; [split; vm_compute; reflexivity|split; vm_compute; reflexivity|lia]|].
  split.
  { intros row x [<-|[<-|[]]] [<-|[<-|[]]]; split; vm_compute; reflexivity. }
  split; unfold val; cbn; unfold F2R; cbn; lra.
Qed.
