(** The problem counts of the load balancer in IEEE doubles. *)
From Coq Require Import List Arith ZArith QArith Bool Lia Reals Lra.
From Coq Require Import Floats.SpecFloat.
From Flocq Require Import Core.
From Verif Require Import Outcome Arith Problem LoadBalancing BalancerSpec BalancerProofs Ieee SweepIeee PyJacIeee.
Import ListNotations.
Local Open Scope R_scope.

Lemma Rsum_app (l1 l2 : list R) : Rsum (l1 ++ l2) = Rsum l1 + Rsum l2.
Proof. induction l1 as [|x l IH]; cbn [app Rsum]; [lra|]. rewrite IH. lra. Qed.

Lemma Rsum_pos (l : list R) : (forall x, In x l -> 0 <= x) -> 0 <= Rsum l.
Proof.
  induction l as [|x l IH]; intros H; cbn [Rsum]; [lra|]. pose proof (H x (or_introl eq_refl)).
  assert (0 <= Rsum l) by (apply IH; intros; apply H; right; assumption). lra.
Qed.

Theorem counts64 (times : list (num F64)) (ps : list (problem F64)) :
  (Z.of_nat (length ps) <= 2 ^ 20)%Z ->
  (forall p : problem F64, In p ps -> fin64 (p_cpuTime p) /\ 0 <= val (p_cpuTime p)) ->
  Rsum (map (fun p : problem F64 => val (p_cpuTime p)) ps) <= bpow radix2 900 ->
  let counts := timesToProblemCounts times ps in
  forall i t n, nth_error times i = Some t -> nth_error counts i = Some n -> fin64 t ->
    let rest := skipn (list_sum (firstn i counts)) ps in
    let total j := Rsum (map (fun p : problem F64 => val (p_cpuTime p)) (firstn j rest)) in
    (n <= length rest)%nat /\
    ((1 <= n)%nat -> total n * (1 - 2 * INR n * u) <= val t) /\
    ((n < length rest)%nat -> val t < total (n + 1)%nat * (1 + 2 * INR (n + 1) * u)).
Proof.
  intros HL HP HS counts i t n Ht Hn Ft rest total.
  destruct (counts_lemma (A := F64) times ps) as [_ H]. destruct (H i t n Ht Hn) as (H1 & H2 & H3). fold counts rest in H1, H2, H3.
  assert (SP' : forall j, ps = firstn (list_sum (firstn i counts)) ps ++ firstn j rest ++ skipn j rest).
  { intros j. rewrite (firstn_skipn j rest). unfold rest. symmetry. apply firstn_skipn. }
  assert (SP : forall j p, In p (firstn (list_sum (firstn i counts)) ps ++ firstn j rest ++ skipn j rest) -> In p ps).
  { intros j p Hp. rewrite <- SP' in Hp. exact Hp. }
  assert (X : forall j, (j <= length rest)%nat ->
    fin64 (nsum F64 (map p_cpuTime (firstn j rest))) /\ Rabs (val (nsum F64 (map p_cpuTime (firstn j rest))) - total j) <= 2 * INR j * u * total j /\ 0 <= total j).
  { intros j Hj. destruct (nsum64 (map p_cpuTime (firstn j rest))) as (F & E & P & _).
    - rewrite map_length, firstn_length. assert (length rest <= length ps)%nat by (unfold rest; rewrite skipn_length; lia). lia.
    - intros v Hv. apply in_map_iff in Hv as (p & <- & Hp). apply HP.
      apply (SP j). apply in_or_app. right. apply in_or_app. left. exact Hp.
    - rewrite map_map. rewrite (SP' j), !map_app, !Rsum_app in HS. 
      assert (Y : forall l, (forall p : problem F64, In p l -> In p ps) -> 0 <= Rsum (map (fun p : problem F64 => val (p_cpuTime p)) l)).
      { intros l Hl. apply Rsum_pos. intros x Hx. apply in_map_iff in Hx as (p & <- & Hp). apply HP, Hl, Hp. }
      pose proof (Y (firstn (list_sum (firstn i counts)) ps)) as Y1. pose proof (Y (skipn j rest)) as Y2.
      assert (Y1' : 0 <= Rsum (map (fun p : problem F64 => val (p_cpuTime p)) (firstn (list_sum (firstn i counts)) ps))).
      { apply Y1. intros p Hp. apply (SP j). apply in_or_app. left. exact Hp. }
      assert (Y2' : 0 <= Rsum (map (fun p : problem F64 => val (p_cpuTime p)) (skipn j rest))).
      { apply Y2. intros p Hp. apply (SP j). apply in_or_app. right. apply in_or_app. right. exact Hp. }
      lra.
    - rewrite map_map in E, P. rewrite map_length, firstn_length, Nat.min_l in E by exact Hj. auto. }
  split; [exact H1|]. split.
  - intros N. specialize (H2 n ltac:(lia)). cbv beta in H2. destruct (X n H1) as (F & E & P).
    rewrite (leb64 _ _ F Ft) in H2. destruct (Rle_bool_spec (val (nsum F64 (map p_cpuTime (firstn n rest)))) (val t)) as [C|C]; [|discriminate].
    apply Rabs_le_inv in E. lra.
  - intros N. specialize (H3 N). cbv beta in H3. destruct (X (n + 1)%nat ltac:(lia)) as (F & E & P).
    rewrite (leb64 _ _ F Ft) in H3. destruct (Rle_bool_spec (val (nsum F64 (map p_cpuTime (firstn (n + 1) rest)))) (val t)) as [C|C]; [discriminate|].
    apply Rabs_le_inv in E. lra.
Qed.
