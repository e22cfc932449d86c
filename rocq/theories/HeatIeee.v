(** The heat release in IEEE doubles. *)
From Coq Require Import List Arith ZArith QArith Bool Lia Reals Lra.
From Coq Require Import Floats.SpecFloat.
From Flocq Require Import Core BinarySingleNaN.
From Verif Require Import Outcome Arith PyJac PyJacCases Ieee SweepIeee MechReal PyJacIeee MixIeee.
Import ListNotations.
Local Open Scope R_scope.

(** ** Accumulated differences of products *)

(** One term subtracted. *)
Lemma less_product (v h r : num F64) (S E M : R) : fin64 v -> fin64 h -> fin64 r ->
  Rabs (val v + S) <= E -> E <= bpow radix2 800 -> Rabs S <= M -> Rabs (S + val h * val r) <= M -> M <= bpow radix2 800 ->
  let v' := nsub F64 v (nmul F64 h r) in
  fin64 v' /\ Rabs (val v' + (S + val h * val r)) <= E + (u * Rabs (val h * val r) + bpow radix2 (-1075)) * (1 + u) + u * (E + M).
Proof.
  intros Fv Fh Fr HE BE HS HT BM v'. set (t := val h * val r) in *. set (e := bpow radix2 (-1075)).
  pose proof u_range as [U0 U1]. pose proof (bpow_gt_0 radix2 800) as P. assert (Pe : 0 < e) by apply bpow_gt_0.
  assert (Pe1 : e <= 1) by (apply (bpow_le radix2 (-1075) 0); lia).
  assert (P1 : 1 <= bpow radix2 800) by (apply (bpow_le radix2 0 800); lia).
  assert (B900 : 16 * bpow radix2 800 <= bpow radix2 900).
  { replace (16 * bpow radix2 800) with (bpow radix2 804); [apply bpow_le; lia|]. change 804%Z with (4 + 800)%Z. rewrite bpow_plus. reflexivity. }
  assert (B1000 : bpow radix2 900 <= bpow radix2 1000) by (apply bpow_le; lia).
  apply Rabs_le_inv in HE. pose proof (Rabs_le_inv _ _ HS) as HS'. pose proof (Rabs_le_inv _ _ HT) as HT'.
  assert (Bt : Rabs t <= 2 * M) by (apply Rabs_le; lra).
  pose proof (fl_any t) as Ep. fold e in Ep.
  destruct (mul64 h r Fh Fr) as [Fp Vp]; [fold t; apply big_lt; lra|]. fold t in Vp. rewrite <- Vp in Ep.
  set (p := nmul F64 h r) in *.
  assert (Q : u * Rabs t <= Rabs t) by (pose proof (Rabs_pos t); nra).
  set (w := u * Rabs t + e) in *. assert (W : 0 <= w) by (unfold w; pose proof (Rabs_pos t); nra).
  apply Rabs_le_inv in Ep.
  assert (Bd : Rabs (val v - val p) <= E + M + w) by (apply Rabs_le; lra).
  destruct (sub64 v p Fv Fp) as [Fd Vd]; [apply big_lt; unfold w in *; lra|]. fold v' in Fd, Vd.
  split; [exact Fd|]. pose proof (fl_sub_err _ _ (val_repr v Fv) (val_repr p Fp)) as Ed. rewrite <- Vd in Ed.
  assert (Ed' : Rabs (val v' - (val v - val p)) <= u * (E + M + w)) by (eapply Rle_trans; [exact Ed|apply Rmult_le_compat_l; lra]).
  apply Rabs_le_inv in Ed'. apply Rabs_le. lra.
Qed.

(** The sum over a list of indices. *)
Lemma heat_fold (h r : nat -> num F64) (B : R) : 0 <= B -> B <= bpow radix2 700 ->
  forall (l : list nat) (v : num F64) (S T : R) (k : nat),
    (forall i, In i l -> fin64 (h i) /\ fin64 (r i)) ->
    INR (k + length l) <= 2 ^ 20 -> fin64 v -> Rabs S <= T ->
    T + Rsum (map (fun i => Rabs (val (h i) * val (r i))) l) <= B ->
    Rabs (val v + S) <= INR k * (3 * u * B + bpow radix2 (-1074)) ->
    let v' := fold_left (fun v i => nsub F64 v (nmul F64 (h i) (r i))) l v in
    fin64 v' /\ Rabs (val v' + (S + Rsum (map (fun i => val (h i) * val (r i)) l))) <= INR (k + length l) * (3 * u * B + bpow radix2 (-1074)).
Proof.
  intros B0 B7. pose proof u_range as [U0 U1]. pose proof u_val as U2.
  assert (B78 : 2 * bpow radix2 700 <= bpow radix2 800).
  { replace (2 * bpow radix2 700) with (bpow radix2 701); [apply bpow_le; lia|]. change 701%Z with (1 + 700)%Z. rewrite bpow_plus. reflexivity. }
  set (e := bpow radix2 (-1075)). assert (E2 : bpow radix2 (-1074) = 2 * e) by (unfold e; change (-1074)%Z with (1 + -1075)%Z; rewrite bpow_plus; reflexivity).
  rewrite E2. assert (Pe : 0 < e) by apply bpow_gt_0. assert (Pe1 : e <= 1) by (apply (bpow_le radix2 (-1075) 0); lia).
  assert (P700 : 1 <= bpow radix2 700) by (apply (bpow_le radix2 0 700); lia).
  induction l as [|i l IH]; intros v S T k Hf HK Fv HS HT HV v'.
  - cbn [map Rsum length]. rewrite Nat.add_0_r, Rplus_0_r. auto.
  - cbn [map Rsum] in HT. set (t := val (h i) * val (r i)) in *.
    assert (PR : 0 <= Rsum (map (fun i => Rabs (val (h i) * val (r i))) l)).
    { clear. induction l as [|j l IH]; cbn [map Rsum]; [lra|]. pose proof (Rabs_pos (val (h j) * val (r j))). lra. }
    pose proof (Rabs_pos t) as Pt. pose proof (Rabs_pos S) as PS.
    assert (HST : Rabs (S + t) <= T + Rabs t) by (pose proof (Rabs_triang S t); lra).
    assert (K2 : INR k <= 2 ^ 20) by (eapply Rle_trans; [apply le_INR with (m := (k + length (i :: l))%nat); lia|exact HK]).
    assert (KU : INR k * u <= / 1000).
    { apply Rle_trans with (2 ^ 20 * / 2 ^ 53); [|lra]. apply Rmult_le_compat; [apply pos_INR|lra|exact K2|exact U2]. }
    pose proof (pos_INR k) as K0.
    destruct (Hf i (or_introl eq_refl)) as [Fh Fr].
    assert (BE : INR k * (3 * u * B + 2 * e) <= bpow radix2 800).
    { replace (INR k * (3 * u * B + 2 * e)) with (3 * (INR k * u) * B + 2 * (INR k * e)) by ring.
      assert (3 * (INR k * u) * B <= B) by nra.
      assert (INR k * e <= / 4).
      { apply Rle_trans with (2 ^ 20 * bpow radix2 (-30)); [|cbn; lra].
        apply Rmult_le_compat; [exact K0|lra|exact K2|apply bpow_le; lia]. }
      lra. }
    destruct (less_product v (h i) (r i) S _ B Fv Fh Fr HV BE) as [F E]; [lra|fold t; lra|lra|].
    fold t e in E. set (v1 := nsub F64 v (nmul F64 (h i) (r i))) in *.
    destruct (IH v1 (S + t) (T + Rabs t) (Datatypes.S k)) as [R1 R2].
    + intros j Hj. apply Hf. right. exact Hj.
    + cbn [length] in HK. replace (Datatypes.S k + length l)%nat with (k + Datatypes.S (length l))%nat by lia. exact HK.
    + exact F.
    + exact HST.
    + lra.
    + eapply Rle_trans; [exact E|]. rewrite S_INR.
      replace ((INR k + 1) * (3 * u * B + 2 * e)) with (INR k * (3 * u * B + 2 * e) + (3 * u * B + 2 * e)) by ring.
      assert (X1 : u * Rabs t <= u * B) by (apply Rmult_le_compat_l; lra).
      assert (X2 : (u * Rabs t + e) * (1 + u) <= (u * B + e) * (1 + u)) by (apply Rmult_le_compat_r; lra).
      assert (X3 : u * (INR k * (3 * u * B + 2 * e)) <= / 2 * (u * B) + / 2 * e).
      { replace (u * (INR k * (3 * u * B + 2 * e))) with (INR k * u * (3 * (u * B) + 2 * e)) by ring.
        assert (0 <= u * B) by nra. nra. }
      assert (X4 : (u * B + e) * (1 + u) <= (u * B + e) * (1 + / 1000000)) by (apply Rmult_le_compat_l; nra).
      assert (0 <= u * B) by nra. lra.
    + cbn [fold_left] in v'. fold v1 in v'. fold v' in R1, R2. split; [exact R1|].
      cbn [map Rsum length]. fold t. replace (k + Datatypes.S (length l))%nat with (Datatypes.S k + length l)%nat by lia.
      rewrite <- (Rplus_assoc S t). exact R2.
Qed.

Theorem heat64 (mc : mech F64) ns h (RR : list (list (num F64))) n :
  NSP mc = ns -> construct mc ns true = Ok h -> INR ns <= 2 ^ 20 ->
  length RR = ns -> (forall row, In row RR -> length row = n) ->
  (forall row x, In row RR -> In x row -> fin64 x) ->
  let h0 := h_elt mc (lit F64 (29815 # 100)) in
  let rr := fun i c => nth c (nth i RR []) (zero F64) in
  (forall i, (i < ns)%nat -> fin64 (h0 i)) ->
  exists q, Qdot ns true h RR n = Ok q /\ length q = n /\
    forall c, (c < n)%nat ->
      let M := Rsum (map (fun i => Rabs (val (h0 i) * val (rr i c))) (seq 0 ns)) in
      M <= bpow radix2 700 ->
      fin64 (nth c q (zero F64)) /\
      Rabs (val (nth c q (zero F64)) + Rsum (map (fun i => val (h0 i) * val (rr i c)) (seq 0 ns))) <= INR ns * (3 * u * M + bpow radix2 (-1074)).
Proof.
  intros HN Eh Hns LR LRow HF h0 rr Hh. rewrite (construct_ok mc ns HN) in Eh.
  assert (E : h = map Some (map h0 (seq 0 ns))) by (unfold h0; congruence). subst h.
  rewrite (qdot_cells mc ns HN) by (auto; rewrite map_length, seq_length; reflexivity).
  eexists. split; [reflexivity|]. split; [rewrite map_length, seq_length; reflexivity|]. intros c Hc M HM.
  set (F := fun c => fold_left _ (seq 0 ns) _).
  assert (E : nth c (map F (seq 0 n)) (zero F64) = F c).
  { rewrite (nth_indep _ (zero F64) (F 0%nat)) by (rewrite map_length, seq_length; exact Hc).
    rewrite map_nth, seq_nth by exact Hc. reflexivity. }
  rewrite E. unfold F. clear E F.
  assert (E : forall l z, (forall i, In i l -> (i < ns)%nat) ->
    fold_left (fun (v : num F64) i => nsub F64 v (nmul F64 (nth i (map h0 (seq 0 ns)) (zero F64)) (nth c (nth i RR []) (zero F64)))) l z =
    fold_left (fun (v : num F64) i => nsub F64 v (nmul F64 (h0 i) (rr i c))) l z).
  { induction l as [|i l IH]; intros z Hl; [reflexivity|]. cbn [fold_left]. rewrite IH by (intros; apply Hl; right; auto).
    f_equal. f_equal. f_equal. rewrite (nth_indep _ (zero F64) (h0 0%nat)) by (rewrite map_length, seq_length; apply Hl; left; reflexivity).
    rewrite map_nth, seq_nth by (apply Hl; left; reflexivity). reflexivity. }
  rewrite E by (intros i Hi; apply in_seq in Hi; lia). clear E.
  destruct zero64 as [Fz Vz].
  assert (M0 : 0 <= M).
  { unfold M. generalize (seq 0 ns). intros l. induction l as [|j l IH]; cbn [map Rsum]; [lra|]. pose proof (Rabs_pos (val (h0 j) * val (rr j c))). lra. }
  destruct (heat_fold h0 (fun i => rr i c) M M0 HM (seq 0 ns) (zero F64) 0 0 0%nat) as [R1 R2].
  - intros i Hi. apply in_seq in Hi. split; [apply Hh; lia|]. unfold rr.
    assert (L : (i < length RR)%nat) by lia. pose proof (nth_In RR [] L) as I1.
    apply (HF (nth i RR [])); [exact I1|]. apply nth_In. rewrite (LRow _ I1). exact Hc.
  - rewrite seq_length. exact Hns.
  - exact Fz.
  - rewrite Rabs_R0. lra.
  - fold M. lra.
  - rewrite Vz, Rplus_0_r, Rabs_R0. cbn [INR]. lra.
  - split; [exact R1|]. rewrite seq_length, Rplus_0_l in R2. exact R2.
Qed.

Lemma same_sign (f : nat -> R) (l : list nat) : (forall i, In i l -> f i <= 0) ->
  Rsum (map (fun i => Rabs (f i)) l) = - Rsum (map f l).
Proof.
  induction l as [|i l IH]; intros Hl; cbn [map Rsum]; [lra|]. rewrite IH by (intros; apply Hl; right; assumption).
  rewrite Rabs_left1 by (apply Hl; left; reflexivity). lra.
Qed.

Theorem heat_released (mc : mech F64) ns h (RR : list (list (num F64))) n :
  NSP mc = ns -> construct mc ns true = Ok h -> INR ns <= 2 ^ 20 ->
  length RR = ns -> (forall row, In row RR -> length row = n) ->
  (forall row x, In row RR -> In x row -> fin64 x) ->
  let h0 := h_elt mc (lit F64 (29815 # 100)) in
  let rr := fun i c => nth c (nth i RR []) (zero F64) in
  (forall i, (i < ns)%nat -> fin64 (h0 i)) ->
  exists q, Qdot ns true h RR n = Ok q /\ length q = n /\
    forall c, (c < n)%nat ->
      (forall i, (i < ns)%nat -> val (h0 i) * val (rr i c) <= 0) ->
      let heat := - Rsum (map (fun i => val (h0 i) * val (rr i c)) (seq 0 ns)) in
      bpow radix2 (-1000) <= heat <= bpow radix2 700 ->
      fin64 (nth c q (zero F64)) /\ 0 < val (nth c q (zero F64)) /\
      Rabs (val (nth c q (zero F64)) - heat) <= 4 * INR ns * u * heat.
Proof.
  intros HN Eh Hns LR LRow HF h0 rr Hh.
  destruct (heat64 mc ns h RR n HN Eh Hns LR LRow HF Hh) as (q & Eq & Lq & Hq). exists q. split; [exact Eq|]. split; [exact Lq|].
  intros c Hc Hs heat HB. specialize (Hq c Hc). cbv zeta in Hq.
  fold h0 in Hq.
  assert (EM : Rsum (map (fun i => Rabs (val (h0 i) * val (nth c (nth i RR []) (zero F64)))) (seq 0 ns)) = heat).
  { unfold heat. apply (same_sign (fun i => val (h0 i) * val (rr i c))). intros i Hi. apply Hs. apply in_seq in Hi. lia. }
  rewrite EM in Hq. destruct (Hq (proj2 HB)) as [F E]. set (v := val (nth c q (zero F64))) in *.
  pose proof u_range as [U0 U1]. pose proof u_val as U2. pose proof (pos_INR ns) as N0.
  assert (E1 : bpow radix2 (-1074) <= u * heat).
  { apply Rle_trans with (bpow radix2 (-74) * bpow radix2 (-1000)).
    - rewrite <- bpow_plus. apply Rle_refl.
    - apply Rmult_le_compat; [apply bpow_ge_0|apply bpow_ge_0| |lra]. apply (bpow_le radix2 (-74) (-53)). lia. }
  assert (H0 : 0 < heat) by (pose proof (bpow_gt_0 radix2 (-1000)); lra).
  assert (E2 : Rabs (v - heat) <= 4 * INR ns * u * heat).
  { replace (v - heat) with (v + Rsum (map (fun i => val (h0 i) * val (rr i c)) (seq 0 ns))) by (unfold heat; ring).
    eapply Rle_trans; [exact E|]. replace (4 * INR ns * u * heat) with (INR ns * (3 * u * heat + u * heat)) by ring.
    apply Rmult_le_compat_l; lra. }
  split; [exact F|]. split; [|exact E2].
  assert (NU : INR ns * u <= / 1000) by (apply Rle_trans with (2 ^ 20 * / 2 ^ 53); [apply Rmult_le_compat; lra|lra]).
  assert (4 * INR ns * u * heat <= / 2 * heat) by (apply Rmult_le_compat_r; lra).
  apply Rabs_le_inv in E2. lra.
Qed.
