(** The transfer sweep of LoadBalancer::getOperations in IEEE doubles: rounding errors. *)
From Coq Require Import List Arith ZArith QArith Reals Lra Lia Psatz Bool Permutation Sorted
  Floats.SpecFloat.
From Flocq Require Import Core BinarySingleNaN.
From Verif Require Import Outcome Arith Problem LoadBalancing BalancerSpec SweepFacts Ieee.
Import ListNotations.
Local Open Scope R_scope.

Local Notation load := (load F64).

(** The time a load stands for. *)
Definition secs (l : load) : R := val (l_value l).

(** Sum of a list of reals. *)
Fixpoint Rsum (l : list R) : R := match l with [] => 0 | x :: r => x + Rsum r end.

Lemma Rsum_app l1 l2 : Rsum (l1 ++ l2) = Rsum l1 + Rsum l2.
Proof. induction l1; simpl; [ring|]. rewrite IHl1. ring. Qed.

Section Sweep.
  Variable mean : num F64.
  Hypothesis Hmean : fin64 mean.
  Let m : R := val mean.
  Let sm : R := val (small F64).
  Let w : R := u * m.
  Hypothesis Hm : 0 < m.
  Hypothesis Hsmall : fin64 (small F64).
  Hypothesis Hsm : 0 < sm.

  Variable n : nat.
  Let N : R := INR n.
  Variable D0 : R.
  Let eta : R := w * (N + 8) + sm.
  (** Bound of the imbalance left in the window after [k] steps. *)
  Definition del (k : nat) : R := D0 + INR k * eta.
  Hypothesis HD0 : 0 <= D0.
  Hypothesis Hdel : D0 + N * eta <= m / 8.
  Hypothesis Hw : w <= m / 1000.
  Hypothesis Hbig : (N + 4) * m <= bpow radix2 1000.

  Definition ld (l : load) : Prop := fin64 (l_value l).
  Definition dev (l : load) : R := secs l - m.

  Lemma w_pos : 0 < w.
  Proof. unfold w. apply Rmult_lt_0_compat; auto. apply u_pos. Qed.

  Lemma eta_pos : 0 < eta.
  Proof. unfold eta. assert (0 <= N) by apply pos_INR. assert (X := w_pos). nra. Qed.

  Lemma del_le k : (k <= n)%nat -> 0 <= del k <= m / 8.
  Proof.
    intros Hk. unfold del. assert (0 <= INR k) by apply pos_INR.
    assert (INR k <= N) by (apply le_INR; auto). assert (X := eta_pos). split; nra.
  Qed.

  Lemma uw c r : 0 <= c -> Rabs r <= c * m -> u * Rabs r <= c * w.
  Proof. intros Hc H. unfold w. assert (X := u_pos). nra. Qed.

  (** The window: a receiver [a], untouched loads [M] in increasing order, a sender [b]. *)
  Definition window (W : list load) : Prop :=
    exists a R, W = a :: R /\ ld a /\ 0 <= secs a /\
      (R = [] \/ exists M b, R = M ++ [b] /\ ld b /\
        (forall x, In x M -> ld x /\ 0 <= secs x) /\
        StronglySorted (fun x y => secs x <= secs y) M /\
        ((forall x, In x M -> secs x <= secs b) \/ m <= secs b) /\
        (secs a <= m + 3 * w \/
         (forall x, In x M -> secs a <= secs x) /\ (secs a <= secs b \/ m <= secs b))).

  Record finv (P W S : list load) : Prop := {
    fi_P : forall p, In p P -> ld p /\ Rabs (dev p) <= 3 * w;
    fi_S : forall s, In s S -> ld s /\ Rabs (dev s) <= sm;
    fi_W : window W;
    fi_len : length (P ++ W ++ S) = n;
    fi_D : Rabs (Rsum (map dev W)) <= del (length P + length S)
  }.

  Lemma sum_low (M : list load) : (forall x, In x M -> 0 <= secs x) ->
    - INR (length M) * m <= Rsum (map dev M).
  Proof.
    induction M as [|x M IH]; intros H; [simpl; lra|].
    cbn [map Rsum length]. rewrite S_INR.
    assert (0 <= secs x) by (apply H; left; auto).
    assert (- INR (length M) * m <= Rsum (map dev M)) by (apply IH; intros; apply H; right; auto).
    unfold dev at 1. lra.
  Qed.

  Lemma sum_neg (M : list load) : (forall x, In x M -> secs x <= m) -> Rsum (map dev M) <= 0.
  Proof.
    induction M as [|x M IH]; intros H; [simpl; lra|]. cbn [map Rsum].
    assert (secs x <= m) by (apply H; left; auto).
    assert (Rsum (map dev M) <= 0) by (apply IH; intros; apply H; right; auto).
    unfold dev at 1. lra.
  Qed.

  Lemma sum_pos (M : list load) : (forall x, In x M -> m <= secs x) -> 0 <= Rsum (map dev M).
  Proof.
    induction M as [|x M IH]; intros H; [simpl; lra|]. cbn [map Rsum].
    assert (m <= secs x) by (apply H; left; auto).
    assert (0 <= Rsum (map dev M)) by (apply IH; intros; apply H; right; auto).
    unfold dev at 1. lra.
  Qed.

  (** What one iteration does to receiver and sender. *)
  Record stepped (a b : load) (B : R) : Prop := {
    sp_recv : ld (recv' mean a b);
    sp_send : ld (send' mean a b);
    sp_pos : 0 <= secs (recv' mean a b);
    sp_top : secs (recv' mean a b) <= m + 3 * w;
    sp_case :
      (* limited by the surplus: the sender ends exactly at the mean *)
      (secs (send' mean a b) = m /\
       Rabs (secs (recv' mean a b) - secs a - (secs b - m)) <= 4 * w) \/
      (* limited by the deficit *)
      (m <= secs (send' mean a b) /\ Rabs (secs (recv' mean a b) - m) <= 3 * w /\
       Rabs (secs (recv' mean a b) + secs (send' mean a b) - secs a - secs b) <= B);
    (* what is transferred *)
    sp_xfer :
      Rabs (secs (recv' mean a b) - secs a - val (xfer mean a b)) <= 4 * w /\
      Rabs (secs (send' mean a b) - secs b + val (xfer mean a b)) <= (N + 4) * w /\
      val (xfer mean a b) <= fl (secs b - m) /\ val (xfer mean a b) <= fl (m - secs a) /\
      ((secs (send' mean a b) = m /\ val (xfer mean a b) = fl (secs b - m)) \/
       (Rabs (secs (recv' mean a b) - m) <= 3 * w /\ val (xfer mean a b) = fl (m - secs a)));
    sp_xfin : fin64 (xfer mean a b)
  }.

  Lemma rabs_le x c : - c <= x <= c -> Rabs x <= c.
  Proof. intros [H1 H2]. apply Rabs_le. split; lra. Qed.

  Lemma rabs_inv x c : Rabs x <= c -> - c <= x <= c.
  Proof. apply Rabs_le_inv. Qed.

  (** [secs b >= m/2] with small excess only if both are close to the mean. *)
  Lemma step_real a b : ld a -> ld b -> 0 <= secs a <= 2 * m ->
    m / 2 <= secs b -> secs b <= (N + 1) * m ->
    (secs b < m -> m / 2 <= secs a /\ - (m / 4) <= secs b - m) ->
    stepped a b ((N + 5) * w).
  Proof.
    intros La Lb Ha Hb1 Hb2 Hnear.
    assert (W0 := w_pos). assert (N0 : 0 <= N) by apply pos_INR. assert (U := u_pos).
    assert (Rm : repr m) by (apply val_repr; auto).
    assert (Ra : repr (secs a)) by (apply val_repr; auto).
    assert (Rb : repr (secs b)) by (apply val_repr; auto).
    assert (BIG : forall r, Rabs r <= (N + 4) * m -> Rabs (fl r) < big).
    { intros r Hr. apply big_lt. lra. }
    set (x := fl (secs b - m)). set (y := fl (m - secs a)).
    assert (X : fin64 (nsub F64 (l_value b) mean) /\ val (nsub F64 (l_value b) mean) = x).
    { apply sub64; auto. apply BIG. apply rabs_le. change (val (l_value b)) with (secs b). fold m.
      nra. }
    assert (Y : fin64 (nsub F64 mean (l_value a)) /\ val (nsub F64 mean (l_value a)) = y).
    { apply sub64; auto. apply BIG. apply rabs_le. change (val (l_value a)) with (secs a). fold m.
      nra. }
    destruct X as [FX VX], Y as [FY VY].
    assert (Rx : repr x) by apply fl_repr. assert (Ry : repr y) by apply fl_repr.
    assert (Ym : - m <= y <= m).
    { split; [apply fl_ge_repr; [now apply repr_opp|lra]|apply fl_le_repr; auto; lra]. }
    assert (Ye : Rabs (y - (m - secs a)) <= 1 * w).
    { eapply Rle_trans; [apply fl_sub_err; auto|]. apply uw; [lra|]. apply rabs_le; lra. }
    apply rabs_inv in Ye.
    set (v := xfer mean a b).
    assert (V : fin64 v /\ ((val v = x /\ x <= y) \/ (val v = y /\ y < x))).
    { unfold v, xfer, std_min. rewrite ltb64 by auto. rewrite VX, VY.
      destruct (Rlt_bool_spec y x) as [Q|Q]; (split; [assumption|]); [right|left]; auto. }
    destruct V as [FV V].
    (* the two updates *)
    assert (VR : Rabs (secs a + val v) <= (N + 4) * m -> Rabs (secs b - val v) <= (N + 4) * m ->
      ld (recv' mean a b) /\ ld (send' mean a b) /\
      secs (recv' mean a b) = fl (secs a + val v) /\ secs (send' mean a b) = fl (secs b - val v)).
    { intros H1 H2.
      destruct (add64 (l_value a) v La FV) as [F1 V1]; [apply BIG; exact H1|].
      destruct (sub64 (l_value b) v Lb FV) as [F2 V2]; [apply BIG; exact H2|].
      unfold ld, secs, recv', send'. cbn [l_value]. fold v. auto. }
    destruct V as [[EV L]|[EV L]].
    - (* limited by the surplus *)
      rewrite EV in VR.
      assert (XB : fl (secs b - x) = m /\ Rabs (x - (secs b - m)) <= 2 * w).
      { destruct (Rle_or_lt (secs b) (2 * m)) as [B2|B2].
        - assert (E : x = secs b - m) by (apply fl_sterbenz; auto; lra).
          rewrite E. replace (secs b - (secs b - m)) with m by ring. split; [now apply fl_id|].
          replace (secs b - m - (secs b - m)) with 0 by ring. rewrite Rabs_R0. lra.
        - assert (E : x = m).
          { apply Rle_antisym; [lra|]. apply fl_ge_repr; auto. lra. }
          split. { rewrite E. exact E. }
          assert (G : Rabs (x - (secs b - m)) <= u * Rabs (secs b - m)) by (apply fl_sub_err; auto).
          rewrite (Rabs_pos_eq (secs b - m)) in G by lra. apply rabs_inv in G.
          assert (u <= / 1000).
          { apply Rmult_le_reg_r with m; auto. unfold w in Hw. lra. }
          assert (secs b - m <= 2 * m) by (rewrite E in G; nra).
          apply rabs_le. rewrite E in *. unfold w. nra. }
      destruct XB as [XB XE]. apply rabs_inv in XE.
      assert (AX0 : 0 <= secs a + x).
      { destruct (Rlt_or_le (secs b) m) as [Lt|Ge].
        - destruct (Hnear Lt) as [Q1 Q2]. lra.
        - assert (0 <= x) by (apply fl_ge_repr; [apply repr_0|lra]). lra. }
      assert (AX1 : secs a + x <= m + w) by lra.
      destruct VR as (F1 & F2 & V1 & V2).
      { apply rabs_le. nra. } { apply rabs_le. nra. }
      assert (AE : Rabs (fl (secs a + x) - (secs a + x)) <= 2 * w).
      { eapply Rle_trans; [apply fl_add_err; auto|]. apply uw; [lra|]. apply rabs_le; lra. }
      apply rabs_inv in AE.
      split; auto.
      + rewrite V1. apply fl_ge_repr; auto. apply repr_0.
      + rewrite V1. lra.
      + left. rewrite V2. split; auto. rewrite V1. apply rabs_le. lra.
      + fold v. fold x. fold y. rewrite EV, V1, V2, XB.
        assert (0 <= (N + 2) * w) by (apply Rmult_le_pos; lra).
        split; [apply rabs_le; lra|]. split; [apply rabs_le; lra|]. split; [lra|]. split; [lra|]. left. auto.
    - (* limited by the deficit *)
      rewrite EV in VR.
      destruct VR as (F1 & F2 & V1 & V2).
      { apply rabs_le. nra. } { apply rabs_le. nra. }
      assert (AE : Rabs (fl (secs a + y) - (secs a + y)) <= 2 * w).
      { eapply Rle_trans; [apply fl_add_err; auto|]. apply uw; [lra|]. apply rabs_le; lra. }
      apply rabs_inv in AE.
      assert (BE : Rabs (fl (secs b - y) - (secs b - y)) <= (N + 2) * w).
      { eapply Rle_trans; [apply fl_sub_err; auto|]. apply uw; [lra|]. apply rabs_le. nra. }
      apply rabs_inv in BE.
      assert (BM : m <= secs b - y).
      { destruct (Rle_or_lt m (secs b - y)) as [G|G]; auto. exfalso.
        assert (x <= y) by (apply fl_le_repr; auto; lra). lra. }
      split; auto.
      + rewrite V1. apply fl_ge_repr; [apply repr_0|lra].
      + rewrite V1. lra.
      + right. rewrite V1, V2. split; [apply fl_ge_repr; auto|]. split.
        * apply rabs_le. lra.
        * apply rabs_le. lra.
      + fold v. fold x. fold y. rewrite EV, V1, V2.
        split; [apply rabs_le; lra|]. split; [apply rabs_le; lra|]. split; [lra|]. split; [lra|]. right.
        split; [apply rabs_le; lra|reflexivity].
  Qed.

  Lemma drained_iff b : ld b -> m <= secs b <= (N + 4) * m ->
    if drained mean b then secs b - m < sm else True.
  Proof.
    intros Lb Hb. unfold drained.
    assert (BIG : Rabs (fl (secs b - m)) < big).
    { apply big_lt. apply rabs_le. assert (N0 : 0 <= N) by apply pos_INR. nra. }
    destruct (sub64 (l_value b) mean Lb Hmean BIG) as [F V].
    destruct (abs64 _ F) as [F1 V1].
    rewrite ltb64 by auto. rewrite V1, V.
    change (val (l_value b)) with (secs b). fold m. fold sm.
    destruct (Rlt_bool_spec (Rabs (fl (secs b - m))) sm) as [L|L]; auto.
    rewrite Rabs_pos_eq in L by (apply fl_ge_repr; [apply repr_0|lra]).
    destruct (Rlt_or_le (secs b - m) sm) as [G|G]; auto. exfalso.
    assert (sm <= fl (secs b - m)) by (apply fl_ge_repr; auto; now apply val_repr). lra.
  Qed.

  Lemma drained_at b : ld b -> secs b = m -> drained mean b = true.
  Proof.
    intros Lb E. unfold drained.
    assert (BIG : Rabs (fl (secs b - m)) < big).
    { rewrite E, Rminus_eq_0. apply big_lt. rewrite Rabs_R0. apply bpow_ge_0. }
    destruct (sub64 (l_value b) mean Lb Hmean BIG) as [F V].
    destruct (abs64 _ F) as [F1 V1].
    rewrite ltb64 by auto. rewrite V1, V.
    change (val (l_value b)) with (secs b). fold m. fold sm. rewrite E, Rminus_eq_0, fl_0, Rabs_R0.
    apply Rlt_bool_true. exact Hsm.
  Qed.

  Lemma finv_step P a M b S : finv P (a :: M ++ [b]) S -> stepped a b ((N + 5) * w) /\
    secs (send' mean a b) <= (N + 4) * m /\
    Rabs (dev a + Rsum (map dev M) + dev b) <= del (length P + length S) /\
    (forall x, In x M -> ld x /\ 0 <= secs x) /\
    StronglySorted (fun x y => secs x <= secs y) M.
  Proof.
    intros [HP HS HW HL HD].
    assert (W0 := w_pos). assert (N0 : 0 <= N) by apply pos_INR.
    destruct HW as (a1 & R & E & La & Ha & HR). injection E as <- <-.
    destruct HR as [HR|(M1 & b1 & E & Lb & HM & Hsort & Htop & Hlow)].
    { destruct M; discriminate. }
    apply app_inj_tail in E as [<- <-].
    cbn [map Rsum] in HD. rewrite map_app, Rsum_app in HD. cbn [map Rsum] in HD.
    rewrite Rplus_0_r, <- Rplus_assoc in HD.
    assert (HLen : (length P + length S <= n)%nat).
    { rewrite !app_length in HL. lia. }
    assert (HLM : (length M + 2 <= n)%nat).
    { rewrite !app_length in HL. cbn [length] in HL. rewrite app_length in HL. simpl in HL. lia. }
    assert (HMN : INR (length M) + 2 <= N).
    { replace 2 with (INR 2) by (simpl; lra). rewrite <- plus_INR. now apply le_INR. }
    assert (DL := del_le _ HLen).
    assert (D1 := rabs_inv _ _ HD).
    assert (ML := sum_low M (fun x Hx => proj2 (HM x Hx))).
    assert (A2 : secs a <= 2 * m).
    { destruct (Rle_or_lt (secs a) (2 * m)) as [G|G]; auto. exfalso.
      destruct Hlow as [Hl|[Hl1 Hl2]]; [lra|].
      assert (0 <= Rsum (map dev M)).
      { apply sum_pos. intros x Hx. specialize (Hl1 x Hx). lra. }
      unfold dev in D1 at 1 3 4 6. destruct Hl2; lra. }
    assert (B1 : secs b < m -> m / 2 <= secs a /\ - (m / 4) <= secs b - m).
    { intros Lt. destruct Htop as [Ht|Ht]; [|lra].
      assert (Rsum (map dev M) <= 0).
      { apply sum_neg. intros x Hx. specialize (Ht x Hx). lra. }
      unfold dev in D1 at 1 3 4 6. destruct Hlow as [Hl|[Hl1 [Hl2|Hl2]]]; lra. }
    assert (B2 : m / 2 <= secs b).
    { destruct (Rlt_or_le (secs b) m) as [Lt|Ge]; [destruct (B1 Lt)|]; lra. }
    assert (B3 : secs b <= (N + 1) * m).
    { unfold dev in D1 at 1 3 4 6. nra. }
    assert (ST : stepped a b ((N + 5) * w)) by (apply step_real; auto; lra).
    split; auto. split; [|auto].
    destruct ST as [_ _ Sp St [[Sc _]|(Sc & Sd & Se)] _].
    - rewrite Sc. nra.
    - apply rabs_inv in Se. apply rabs_inv in Sd.
      assert (L0 : 0 <= INR (length M)) by apply pos_INR.
      assert (E0 : w * (N + 8) <= m / 8) by (unfold eta in Hdel; nra).
      lra.
  Qed.

  Lemma del_S k : del (Datatypes.S k) = del k + eta.
  Proof. unfold del. rewrite S_INR. ring. Qed.

  Lemma sorted_snoc (M : list load) b : StronglySorted (fun x y => secs x <= secs y) (M ++ [b]) ->
    StronglySorted (fun x y => secs x <= secs y) M /\ (forall x, In x M -> secs x <= secs b).
  Proof.
    induction M as [|x M IH]; intros H; [split; [constructor|intros ? []]|].
    inversion H as [|? ? H1 H2]; subst. destruct (IH H1) as [I1 I2]. split.
    - constructor; auto. rewrite Forall_forall in *. intros z Hz. apply H2. apply in_or_app; auto.
    - intros z [<-|Hz]; auto. rewrite Forall_forall in H2. apply H2. apply in_or_app.
      right. left. auto.
  Qed.

  Lemma reach_finv init P W S g : finv [] init [] -> reach mean init P W S g -> finv P W S.
  Proof.
    intros H0 HR. induction HR as [|P a M b S g HR IH D|P a M b S g HR IH D]; auto.
    - destruct (finv_step _ _ _ _ _ IH) as (ST & BT & HD & HM & Hsort).
      destruct IH as [HP HS HW HL _].
      assert (W0 := w_pos). assert (N0 : 0 <= N) by apply pos_INR.
      destruct ST as [L1 L2 Sp St Sc _]. apply rabs_inv in HD.
      assert (Sb : Rabs (dev (send' mean a b)) <= sm /\
                   Rabs (dev (recv' mean a b) - dev a - dev b) <= eta).
      { destruct Sc as [[E1 E2]|(E1 & E2 & E3)].
        - unfold dev. rewrite E1, Rminus_eq_0, Rabs_R0. split; [lra|].
          apply rabs_inv in E2. apply rabs_le. unfold eta. nra.
        - assert (G := drained_iff _ L2 (conj E1 BT)). rewrite D in G.
          apply rabs_inv in E3. unfold dev, eta. split; apply rabs_le; nra. }
      destruct Sb as [Sb1 Sb2]. apply rabs_inv in Sb2.
      split; auto.
      + intros s [<-|Hs]; auto.
      + exists (recv' mean a b), M. split; auto. split; auto. split; auto.
        destruct M as [|e M'] eqn:EM; [left; auto|]. right.
        destruct (list_snoc (e :: M')) as (M1 & b1 & E1); [discriminate|].
        rewrite E1 in *. exists M1, b1. split; auto.
        destruct (sorted_snoc _ _ Hsort) as [S1 S2].
        split; [apply HM; apply in_or_app; right; left; auto|].
        split; [intros x Hx; apply HM; apply in_or_app; auto|].
        split; auto.
      + rewrite <- HL. rewrite !app_length. cbn [length]. rewrite !app_length. cbn [length]. lia.
      + cbn [length map Rsum]. rewrite Nat.add_succ_r, del_S. apply rabs_le. lra.
    - destruct (finv_step _ _ _ _ _ IH) as (ST & BT & HD & HM & Hsort).
      destruct IH as [HP HS HW HL _].
      assert (W0 := w_pos). assert (N0 : 0 <= N) by apply pos_INR.
      destruct ST as [L1 L2 Sp St Sc _]. apply rabs_inv in HD.
      destruct Sc as [[E1 _]|(E1 & E2 & E3)].
      { exfalso. rewrite (drained_at _ L2 E1) in D. discriminate. }
      apply rabs_inv in E3. assert (E2' := rabs_inv _ _ E2).
      split; auto.
      + intros p Hp. apply in_app_or in Hp as [Hp|[<-|[]]]; auto.
      + destruct M as [|e M'].
        * exists (send' mean a b), []. split; auto. split; auto. split; [lra|left; auto].
        * inversion Hsort as [|? ? S1 S2]; subst. rewrite Forall_forall in S2.
          exists e, (M' ++ [send' mean a b]). split; auto.
          destruct (HM e (or_introl eq_refl)) as [Le Ge]. split; auto. split; auto. right.
          exists M', (send' mean a b). split; auto. split; auto.
          split; [intros x Hx; apply HM; right; auto|]. split; auto.
      + rewrite <- HL. rewrite !app_length. cbn [length]. rewrite !app_length. cbn [length]. lia.
      + rewrite app_length. cbn [length]. rewrite Nat.add_1_r, Nat.add_succ_l, del_S.
        rewrite map_app, Rsum_app. cbn [map Rsum]. unfold dev at 2.
        apply rabs_le. unfold dev in HD at 1 3 4 6. unfold eta. nra.
  Qed.

  (** The final loads. *)
  Lemma reach_final init P x S g : finv [] init [] -> reach mean init P [x] S g ->
    forall l, In l (P ++ [x] ++ S) -> ld l /\ Rabs (secs l - m) <= D0 + N * eta.
  Proof.
    intros H0 HR. destruct (reach_finv _ _ _ _ _ H0 HR) as [HP HS HW HL HD].
    assert (W0 := w_pos). assert (N0 : 0 <= N) by apply pos_INR. assert (E0 := eta_pos).
    assert (N1 : 1 <= N).
    { rewrite !app_length in HL. cbn [length] in HL.
      replace 1 with (INR 1) by (simpl; lra). apply le_INR. lia. }
    assert (HLen : (length P + length S <= n)%nat) by (rewrite !app_length in HL; lia).
    assert (DN : del (length P + length S) <= D0 + N * eta).
    { unfold del. assert (INR (length P + length S) <= N) by now apply le_INR. nra. }
    intros l Hl. apply in_app_or in Hl as [Hl|Hl].
    - destruct (HP l Hl) as [L1 L2]. split; auto. eapply Rle_trans; [exact L2|].
      unfold eta. nra.
    - apply in_app_or in Hl as [[<-|[]]|Hl].
      + destruct HW as (a1 & R & E & La & _). injection E as <- _. split; auto.
        cbn [map Rsum] in HD. rewrite Rplus_0_r in HD. unfold dev in HD. lra.
      + destruct (HS l Hl) as [L1 L2]. split; auto. eapply Rle_trans; [exact L2|].
        unfold eta. nra.
  Qed.
End Sweep.

(** ** The constants *)

Lemma val_one : fin64 (f64_of_Z 1) /\ val (f64_of_Z 1) = 1.
Proof. apply ofZ64. lia. Qed.

Lemma small64 : fin64 (small F64) /\ bpow radix2 (-50) <= val (small F64) <= bpow radix2 (-49).
Proof.
  change (small F64) with (ndiv F64 (f64_of_Z 1) (f64_of_Z (10 ^ 15))).
  destruct val_one as [F1 V1].
  destruct (ofZ64 (10 ^ 15)) as [F2 V2]; [apply Z.leb_le; reflexivity|].
  assert (P : 0 < IZR (10 ^ 15)) by (apply IZR_lt; reflexivity).
  assert (L : bpow radix2 (-50) <= val (f64_of_Z 1) / val (f64_of_Z (10 ^ 15)) <= bpow radix2 (-49)).
  { rewrite V1, V2. change (bpow radix2 (-50)) with (/ IZR (2 ^ 50)).
    change (bpow radix2 (-49)) with (/ IZR (2 ^ 49)). unfold Rdiv. rewrite Rmult_1_l.
    split; apply Rinv_le_contravar; auto; try (apply IZR_lt; reflexivity);
      apply IZR_le; apply Z.leb_le; reflexivity. }
  destruct L as [L1 L2].
  assert (R : forall e, (-1000 <= e)%Z -> repr (bpow radix2 e)).
  { intros e He. apply generic_format_bpow. unfold FLT_exp. lia. }
  destruct (div64 (f64_of_Z 1) (f64_of_Z (10 ^ 15)) F1 F2) as [F V].
  - rewrite V2. lra.
  - apply big_lt. rewrite Rabs_pos_eq.
    + eapply Rle_trans; [exact L2|]. apply bpow_le. lia.
    + eapply Rle_trans; [|exact L1]. apply bpow_ge_0.
  - split; auto. rewrite V. split.
    + apply fl_ge_repr; auto. apply R. lia.
    + apply fl_le_repr; auto. apply R. lia.
Qed.

Lemma ofnat64 n : (Z.of_nat n <= 2 ^ 53)%Z -> fin64 (ofnat F64 n) /\ val (ofnat F64 n) = INR n.
Proof.
  intros Hn. change (ofnat F64 n) with (ndiv F64 (f64_of_Z (Z.of_nat n)) (f64_of_Z 1)).
  destruct val_one as [F1 V1]. destruct (ofZ64 (Z.of_nat n)) as [F2 V2]; [lia|].
  assert (E : val (f64_of_Z (Z.of_nat n)) / val (f64_of_Z 1) = INR n).
  { rewrite V1, V2, <- INR_IZR_INZ. field. }
  assert (R : repr (INR n)).
  { rewrite INR_IZR_INZ, <- V2. now apply val_repr. }
  destruct (div64 (f64_of_Z (Z.of_nat n)) (f64_of_Z 1) F2 F1) as [F V].
  - rewrite V1. lra.
  - rewrite E. apply big_lt. rewrite Rabs_pos_eq by apply pos_INR.
    rewrite INR_IZR_INZ. apply Rle_trans with (IZR (2 ^ 53)); [now apply IZR_le|].
    change (IZR (2 ^ 53)) with (bpow radix2 53). apply bpow_le. lia.
  - split; auto. rewrite V, E. now apply fl_id.
Qed.

Lemma zero64 : fin64 (zero F64) /\ val (zero F64) = 0.
Proof. split; [split; reflexivity|reflexivity]. Qed.

(** ** The mean *)

Lemma sum64 (loads : list load) : forall (k : nat) (z : num F64) (s : R),
  fin64 z -> 0 <= s -> (1 - INR k * u) * s <= val z <= (1 + 2 * INR k * u) * s ->
  (forall l, In l loads -> ld l /\ 0 <= secs l) ->
  2 * INR (k + length loads) * u <= 1 -> 4 * (s + Rsum (map secs loads)) <= bpow radix2 1000 ->
  let r := fold_left (fun a l => nadd F64 a (l_value l)) loads z in
  fin64 r /\
  (1 - INR (k + length loads) * u) * (s + Rsum (map secs loads)) <= val r <=
  (1 + 2 * INR (k + length loads) * u) * (s + Rsum (map secs loads)).
Proof.
  assert (U := u_pos).
  induction loads as [|l loads IH]; intros k z s Fz Hs Hz Hl Hk Hb r.
  - simpl in *. rewrite Nat.add_0_r, Rplus_0_r. auto.
  - assert (K0 : 0 <= INR k) by apply pos_INR.
    assert (R0 : 0 <= Rsum (map secs loads)).
    { clear - Hl. induction loads as [|a loads IH]; simpl; [lra|].
      assert (0 <= secs a) by (apply Hl; right; left; auto).
      assert (0 <= Rsum (map secs loads)).
      { apply IH. intros x [<-|Hx]; apply Hl; [left|right; right]; auto. }
      lra. }
    destruct (Hl l (or_introl eq_refl)) as [Ll Pl].
    cbn [map Rsum length] in *.
    rewrite Nat.add_succ_r in *.
    assert (KN : INR k <= INR (k + length loads)) by (apply le_INR; lia).
    assert (SN : INR (S (k + length loads)) = INR (k + length loads) + 1) by apply S_INR.
    assert (HK2 : 2 * INR k * u <= 1) by nra.
    assert (Z0 : 0 <= val z) by nra.
    assert (ZS : val z <= 2 * s) by nra.
    assert (Rz : repr (val z)) by (now apply val_repr).
    assert (Rl : repr (secs l)) by (now apply val_repr).
    destruct (add64 z (l_value l) Fz Ll) as [F V].
    { apply big_lt. change (val (l_value l)) with (secs l). rewrite Rabs_pos_eq by lra. lra. }
    change (val (l_value l)) with (secs l) in V.
    assert (E : Rabs (fl (val z + secs l) - (val z + secs l)) <= u * Rabs (val z + secs l))
      by (apply fl_add_err; auto).
    rewrite (Rabs_pos_eq (val z + secs l)) in E by lra. apply Rabs_le_inv in E.
    assert (Q := IH (S k) (nadd F64 z (l_value l)) (s + secs l) F).
    cbn [fold_left] in r. fold r in Q.
    rewrite (S_INR k) in Q.
    replace (s + (secs l + Rsum (map secs loads))) with (s + secs l + Rsum (map secs loads)) by ring.
    apply Q; auto.
    + lra.
    + rewrite V. assert (0 <= INR k * u) by nra. assert (0 <= (1 - INR k * u)) by lra.
      split; [|].
      * assert ((1 - INR k * u) * (s + secs l) <= val z + secs l) by nra.
        assert (Y : (1 - u) * (val z + secs l) <= fl (val z + secs l)) by lra.
        assert (u <= 1) by (rewrite SN in Hk; nra).
        assert ((1 - u) * ((1 - INR k * u) * (s + secs l)) <= (1 - u) * (val z + secs l)) by nra.
        assert (1 - (INR k + 1) * u <= (1 - u) * (1 - INR k * u)) by nra.
        nra.
      * assert (val z + secs l <= (1 + 2 * INR k * u) * (s + secs l)) by nra.
        assert (Y : fl (val z + secs l) <= (1 + u) * (val z + secs l)) by lra.
        assert (T : 2 * INR k * u * u <= u) by nra.
        assert ((1 + u) * (val z + secs l) <= (1 + u) * ((1 + 2 * INR k * u) * (s + secs l))) by nra.
        assert ((1 + u) * (1 + 2 * INR k * u) <= 1 + 2 * (INR k + 1) * u) by lra.
        assert ((1 + u) * (1 + 2 * INR k * u) * (s + secs l)
                <= (1 + 2 * (INR k + 1) * u) * (s + secs l)) by (apply Rmult_le_compat_r; lra).
        lra.
    + intros x Hx. apply Hl. right. auto.
    + lra.
Qed.

(** The number of ranks is at most [2^20], and the loads are sane. *)
Definition sane_loads (loads : list load) : Prop :=
  (1 <= Z.of_nat (length loads) <= 2 ^ 20)%Z /\
  forall l, In l loads -> fin64 (l_value l) /\ 0 <= val (l_value l) <= bpow radix2 900.

(** Arithmetic mean of the loads, without rounding. *)
Definition true_mean (loads : list load) : R :=
  Rsum (map (fun l : load => val (l_value l)) loads) / INR (length loads).

Lemma Rsum_bound (loads : list load) B : 0 <= B ->
  (forall l, In l loads -> 0 <= secs l <= B) ->
  0 <= Rsum (map secs loads) <= INR (length loads) * B.
Proof.
  intros HB. induction loads as [|a loads IH]; intros H; [simpl; lra|].
  cbn [map Rsum length]. rewrite S_INR.
  assert (Ha := H a (or_introl eq_refl)).
  assert (Hr : 0 <= Rsum (map secs loads) <= INR (length loads) * B).
  { apply IH. intros; apply H; right; auto. }
  lra.
Qed.

Lemma u_small : u <= / 2 ^ 53.
Proof. unfold u. right. f_equal. rewrite (pow_IZR 2 53). reflexivity. Qed.

Lemma mean64 (loads : list load) : sane_loads loads ->
  bpow radix2 (-1000) <= true_mean loads ->
  let N := INR (length loads) in
  let m := val (getMean loads) in
  fin64 (getMean loads) /\ 0 < m /\ Rabs (m - true_mean loads) <= 4 * N * u * true_mean loads /\
  true_mean loads <= 2 * m /\ m <= bpow radix2 950.
Proof.
  intros [Hlen Hl] HT N m.
  assert (U := u_pos).
  assert (U1 : u * 2 ^ 53 <= 1).
  { assert (X := u_small). apply Rmult_le_compat_r with (r := 2 ^ 53) in X; [|apply pow_le; lra].
    rewrite Rinv_l in X; [exact X|]. apply pow_nonzero. lra. }
  assert (HN : 1 <= N <= 2 ^ 20).
  { unfold N. rewrite INR_IZR_INZ. split; [now apply (IZR_le 1)|].
    change (2 ^ 20) with (2 ^ 20). rewrite (pow_IZR 2 20). now apply IZR_le. }
  assert (NU : N * u <= / 2 ^ 33).
  { apply Rmult_le_reg_l with (2 ^ 33); [apply pow_lt; lra|].
    rewrite Rinv_r by (apply pow_nonzero; lra).
    apply Rle_trans with (2 ^ 33 * (2 ^ 20 * u)); [|].
    - apply Rmult_le_compat_l; [apply pow_le; lra|]. apply Rmult_le_compat_r; lra.
    - rewrite <- Rmult_assoc, <- pow_add. simpl (33 + 20)%nat. lra. }
  assert (P33 : / 2 ^ 33 <= / 1000).
  { apply Rinv_le_contravar; [lra|]. rewrite (pow_IZR 2 33). apply IZR_le.
    apply Z.leb_le. reflexivity. }
  set (S := Rsum (map secs loads)).
  assert (S0 : 0 <= S <= INR (length loads) * bpow radix2 900).
  { apply Rsum_bound; [apply bpow_ge_0|]. intros l Hin. apply Hl. auto. }
  assert (S1 : S <= bpow radix2 920).
  { eapply Rle_trans; [apply S0|]. change 920%Z with (20 + 900)%Z. rewrite bpow_plus.
    apply Rmult_le_compat_r; [apply bpow_ge_0|].
    change (bpow radix2 20) with (IZR (2 ^ Z.of_nat 20)). fold N. rewrite <- (pow_IZR 2 20). lra. }
  assert (TS : true_mean loads = S / N) by reflexivity.
  set (T := true_mean loads) in *.
  assert (ST : S = N * T) by (rewrite TS; field; lra).
  assert (Tpos : 0 < T) by (eapply Rlt_le_trans; [apply bpow_gt_0|exact HT]).
  destruct (sum64 loads 0 (zero F64) 0) as [Fs Vs].
  - apply zero64.
  - lra.
  - rewrite (proj2 zero64). simpl. lra.
  - intros l Hin. split; apply Hl; auto.
  - simpl. fold N. lra.
  - rewrite Rplus_0_l. fold S. change 1000%Z with (80 + 920)%Z. rewrite bpow_plus.
    change (bpow radix2 80) with (IZR (2 ^ 80)).
    assert (4 <= IZR (2 ^ 80)) by (apply IZR_le, Z.leb_le; reflexivity).
    assert (0 < bpow radix2 920) by apply bpow_gt_0. nra.
  - simpl Nat.add in Vs. rewrite Rplus_0_l in Vs. fold S N in Vs.
    set (sh := fold_left (fun a l => nadd F64 a (l_value l)) loads (zero F64)) in *.
    destruct (ofnat64 (length loads)) as [Fn Vn]; [lia|].
    fold N in Vn.
    assert (Nu0 : 0 <= N * u) by nra.
    assert (V1 : (1 - N * u) * S <= val sh <= (1 + 2 * (N * u)) * S) by lra.
    set (q := val sh / N).
    assert (Q : (1 - N * u) * T <= q <= (1 + 2 * (N * u)) * T).
    { unfold q. split.
      - apply Rmult_le_reg_r with N; [lra|]. unfold Rdiv.
        rewrite (Rmult_assoc (val sh)), Rinv_l by lra. rewrite ST in V1. nra.
      - apply Rmult_le_reg_r with N; [lra|]. unfold Rdiv.
        rewrite (Rmult_assoc (val sh)), Rinv_l by lra. rewrite ST in V1. nra. }
    assert (Q0 : T / 2 <= q <= 2 * T) by nra.
    assert (TB : T <= bpow radix2 920).
    { apply Rmult_le_reg_l with N; [lra|]. rewrite <- ST.
      assert (0 < bpow radix2 920) by apply bpow_gt_0. nra. }
    assert (QB : Rabs q <= bpow radix2 921).
    { rewrite Rabs_pos_eq by lra. change 921%Z with (1 + 920)%Z. rewrite bpow_plus.
      change (bpow radix2 1) with 2. lra. }
    destruct (div64 sh (ofnat F64 (length loads)) Fs Fn) as [Fm Vm].
    { rewrite Vn. lra. }
    { rewrite Vn. fold q. apply big_lt. eapply Rle_trans; [exact QB|]. apply bpow_le. lia. }
    rewrite Vn in Vm. fold q in Vm.
    change (ndiv F64 sh (ofnat F64 (length loads))) with (getMean loads) in *.
    fold m in Vm.
    assert (E : Rabs (fl q - q) <= u * Rabs q).
    { apply fl_err. rewrite Rabs_pos_eq by lra.
      apply Rle_trans with (bpow radix2 (-1000) / 2); [|lra].
      change (-1000)%Z with (-999 + -1)%Z. rewrite bpow_plus. change (bpow radix2 (-1)) with (/ 2).
      assert (bpow radix2 (-1022) <= bpow radix2 (-1001)) by (apply bpow_le; lia).
      replace (bpow radix2 (-999) * / 2 / 2) with (bpow radix2 (-1001)); auto.
      change (-999)%Z with (-1001 + 2)%Z at 1. rewrite bpow_plus.
      change (bpow radix2 2) with 4. field. }
    rewrite (Rabs_pos_eq q) in E by lra. rewrite <- Vm in E. apply Rabs_le_inv in E.
    assert (u1 : u <= N * u) by nra.
    assert (uq : u * q <= / 1000 * q) by nra.
    split; auto. split; [lra|]. split.
    + apply Rabs_le. assert (u * q <= 2 * (u * T)) by nra. split; nra.
    + split; [nra|]. apply Rle_trans with (bpow radix2 922).
      * change 922%Z with (1 + 921)%Z. rewrite bpow_plus. change (bpow radix2 1) with 2.
        rewrite Rabs_pos_eq in QB by lra. lra.
      * apply bpow_le. lia.
Qed.

Lemma mean_ieee (loads : list load) : sane_loads loads -> / 2 ^ 1000 <= true_mean loads ->
  fin64 (getMean loads) /\
  Rabs (val (getMean loads) - true_mean loads)
    <= 4 * INR (length loads) / 2 ^ 53 * true_mean loads.
Proof.
  intros H HT. destruct (mean64 loads H) as (Fm & _ & E & _).
  - change (bpow radix2 (-1000)) with (/ IZR (2 ^ Z.of_nat 1000)).
    rewrite <- (pow_IZR 2 1000). exact HT.
  - split; auto. replace (4 * INR (length loads) / 2 ^ 53) with (4 * INR (length loads) * u); auto.
    unfold u, Rdiv. now rewrite (pow_IZR 2 53).
Qed.

(** ** The whole sweep *)

Lemma sorted_secs (l : list load) : (forall x, In x l -> ld x) ->
  StronglySorted (fun a b => load_lt b a = false) l ->
  StronglySorted (fun x y => secs x <= secs y) l.
Proof.
  intros H. induction 1 as [|a l Hs IH Hf]; constructor.
  - apply IH. intros; apply H; right; auto.
  - rewrite Forall_forall in *. intros x Hx. specialize (Hf x Hx).
    unfold load_lt in Hf. rewrite ltb64 in Hf; [|apply H; right; auto|apply H; left; auto].
    destruct (Rlt_bool_spec (val (l_value x)) (val (l_value a))); [discriminate|]. auto.
Qed.

Lemma Rsum_perm l l' : Permutation l l' -> Rsum l = Rsum l'.
Proof. induction 1; simpl; lra. Qed.

Lemma fin64_comparable (loads : list load) : (forall x, In x loads -> ld x) ->
  comparable loads = true.
Proof.
  intros H.
  assert (K : forall a b, In a loads -> In b loads ->
    load_lt a b = Rlt_bool (secs a) (secs b)).
  { intros a b Ha Hb. unfold load_lt. apply ltb64; apply H; auto. }
  assert (T : forall a b, In a loads -> In b loads -> load_lt a b = true <-> secs a < secs b).
  { intros a b Ha Hb. rewrite (K a b Ha Hb). destruct (Rlt_bool_spec (secs a) (secs b)); split; intros;
      auto; try discriminate; lra. }
  assert (F : forall a b, In a loads -> In b loads -> load_lt a b = false <-> secs b <= secs a).
  { intros a b Ha Hb. rewrite (K a b Ha Hb). destruct (Rlt_bool_spec (secs a) (secs b)); split; intros;
      auto; try discriminate; lra. }
  unfold comparable. apply forallb_forall. intros a Ha. apply andb_true_iff. split.
  { apply negb_true_iff, F; auto. lra. }
  apply forallb_forall. intros b Hb. apply andb_true_iff. split.
  { apply negb_true_iff. destruct (load_lt a b) eqn:E1; auto. simpl.
    apply T in E1; auto. apply F; auto. lra. }
  apply forallb_forall. intros c Hc. apply andb_true_iff. split.
  - destruct (load_lt a b) eqn:E1; auto. destruct (load_lt b c) eqn:E2; auto. simpl.
    apply T in E1; auto. apply T in E2; auto. apply T; auto. lra.
  - destruct (load_lt a b) eqn:E1; auto. destruct (load_lt b a) eqn:E2; auto.
    destruct (load_lt b c) eqn:E3; auto. destruct (load_lt c b) eqn:E4; auto. simpl.
    apply F in E1; auto. apply F in E2; auto. apply F in E3; auto. apply F in E4; auto.
    apply andb_true_iff. split; apply negb_true_iff, F; auto; lra.
Qed.

(** The state in which the sweep starts, and its constants. *)
Lemma sweep_start sortf (loads : list load) :
  sort_contract sortf -> sane_loads loads ->
  / 1000000 <= true_mean loads ->
  let N := INR (length loads) in
  let T := true_mean loads in
  let m := val (getMean loads) in
  let sm := val (small F64) in
  exists D0, fin64 (getMean loads) /\ 0 < m /\ fin64 (small F64) /\ 0 < sm /\ 0 <= D0 /\
    D0 + N * (u * m * (N + 8) + sm) <= m / 8 /\ u * m <= m / 1000 /\ (N + 4) * m <= bpow radix2 1000 /\
    finv (getMean loads) (length loads) D0 [] (sortf loads) [] /\
    Rabs (m - T) <= 4 * N * u * T /\ m <= 2 * T /\ 1 <= N /\
    D0 + N * (u * m * (N + 8) + sm) + 4 * N * u * T <= (30 * N * N * u) * T + N * sm /\
    Permutation loads (sortf loads) /\ sortf loads <> [].
Proof.
  intros Hsort Hsane HT N T m0 sm0.
  assert (Hs := Hsane). destruct Hsane as [Hlen Hl].
  assert (T0 : bpow radix2 (-1000) <= true_mean loads).
  { eapply Rle_trans; [|exact HT]. apply Rle_trans with (bpow radix2 (-20)).
    - apply bpow_le. lia.
    - change (bpow radix2 (-20)) with (/ IZR (2 ^ 20)). apply Rinv_le_contravar; [lra|].
      apply IZR_le, Z.leb_le. reflexivity. }
  destruct (mean64 loads Hs T0) as (Fm & M0 & ME & MT & MB).
  fold N T in ME, MT, HT. set (m := val (getMean loads)) in *.
  assert (U := u_pos).
  assert (U1 : u * 2 ^ 53 <= 1).
  { assert (X := u_small). apply Rmult_le_compat_r with (r := 2 ^ 53) in X; [|apply pow_le; lra].
    rewrite Rinv_l in X; [exact X|]. apply pow_nonzero. lra. }
  assert (HN : 1 <= N <= 2 ^ 20).
  { unfold N. rewrite INR_IZR_INZ. split; [now apply (IZR_le 1)|].
    rewrite (pow_IZR 2 20). now apply IZR_le. }
  assert (NNU : N * N * u <= / 2 ^ 13).
  { apply Rmult_le_reg_l with (2 ^ 13); [apply pow_lt; lra|].
    rewrite Rinv_r by (apply pow_nonzero; lra).
    apply Rle_trans with (2 ^ 13 * (2 ^ 20 * 2 ^ 20 * u)); [|].
    - apply Rmult_le_compat_l; [apply pow_le; lra|]. apply Rmult_le_compat_r; [lra|].
      apply Rmult_le_compat; lra.
    - rewrite <- !Rmult_assoc, <- !pow_add. simpl (13 + 20 + 20)%nat. lra. }
  assert (P13 : / 2 ^ 13 <= / 8000).
  { apply Rinv_le_contravar; [lra|]. rewrite (pow_IZR 2 13). apply IZR_le.
    apply Z.leb_le. reflexivity. }
  destruct HN as [HN HN20].
  assert (Nu : u <= N * u <= N * N * u).
  { assert (0 <= (N - 1) * u) by (apply Rmult_le_pos; lra).
    assert (0 <= (N - 1) * (N * u)) by (apply Rmult_le_pos; [lra|apply Rmult_le_pos; lra]).
    split; lra. }
  destruct small64 as [Fsm Vsm]. set (sm := val (small F64)) in *.
  assert (S0 : 0 < sm) by (pose proof (bpow_gt_0 radix2 (-50)); lra).
  assert (SM : N * sm <= / 2 ^ 29).
  { apply Rle_trans with (2 ^ 20 * bpow radix2 (-49)).
    - apply Rmult_le_compat; lra.
    - right. change (bpow radix2 (-49)) with (/ IZR (2 ^ Z.of_nat 49)).
      rewrite <- (pow_IZR 2 49). change 49%nat with (20 + 29)%nat. rewrite pow_add.
      rewrite Rinv_mult. rewrite <- Rmult_assoc, Rinv_r; [ring|]. apply pow_nonzero. lra. }
  assert (P29 : / 2 ^ 29 <= / 500000000).
  { apply Rinv_le_contravar; [lra|]. rewrite (pow_IZR 2 29). apply IZR_le.
    apply Z.leb_le. reflexivity. }
  (* the sorted loads *)
  assert (Hc : comparable loads = true) by (apply fin64_comparable; intros x Hx; apply Hl; auto).
  destruct (Hsort loads Hc) as [Hperm Hst].
  assert (Hin : forall x, In x (sortf loads) -> ld x /\ 0 <= secs x).
  { intros x Hx. apply (Permutation_in _ (Permutation_sym Hperm)) in Hx.
    split; apply Hl; auto. }
  assert (HL : length (sortf loads) = length loads) by (symmetry; now apply Permutation_length).
  assert (Hne : sortf loads <> []).
  { intros E. rewrite E in HL. simpl in HL. rewrite <- HL in Hlen. simpl in Hlen. lia. }
  assert (HS : Rsum (map secs (sortf loads)) = N * T).
  { rewrite (Rsum_perm _ (map secs loads)) by (apply Permutation_map, Permutation_sym; auto).
    unfold T, true_mean. change (fun l : load => val (l_value l)) with secs. fold N. field. lra. }
  set (w := u * m) in *.
  set (D0 := 4 * (N * N * u) * T).
  set (eta := w * (N + 8) + sm).
  assert (TM : m <= 2 * T).
  { apply Rabs_le_inv in ME. assert (4 * N * u * T <= / 1000 * T) by nra. lra. }
  assert (HD : D0 + N * eta <= (30 * N * N * u) * T + N * sm).
  { unfold D0, eta, w. assert (N * (u * m * (N + 8)) <= 9 * (N * N * u) * m).
    { assert (N + 8 <= 9 * N) by lra. assert (0 <= N * (u * m)) by nra. nra. }
    nra. }
  assert (H8 : (30 * N * N * u) * T + N * sm <= m / 8).
  { assert (30 * N * N * u * T <= 30 / 8000 * T) by nra.
    assert (N * sm <= T / 500) by lra. nra. }
  assert (Hw : w <= m / 1000) by (unfold w; nra).
  assert (HB : (N + 4) * m <= bpow radix2 1000).
  { apply Rle_trans with (IZR (2 ^ 30) * bpow radix2 950).
    - apply Rmult_le_compat; lra.
    - change (IZR (2 ^ 30)) with (bpow radix2 30). rewrite <- bpow_plus. apply bpow_le. lia. }
  assert (D00 : 0 <= D0) by (unfold D0; nra).
  assert (HI : finv (getMean loads) (length loads) D0 [] (sortf loads) []).
  { split.
    - intros p [].
    - intros p [].
    - destruct (sortf loads) as [|a R] eqn:E; [congruence|]. exists a, R. split; auto.
      destruct (Hin a (or_introl eq_refl)) as [La Ga]. split; auto. split; auto.
      destruct R as [|r R']; [left; auto|]. right.
      destruct (list_snoc (r :: R')) as (M & b & EM); [discriminate|]. rewrite EM in *.
      exists M, b. split; auto.
      assert (SS : StronglySorted (fun x y => secs x <= secs y) (a :: M ++ [b])).
      { apply sorted_secs; auto. intros x Hx. apply Hin; auto. }
      inversion SS as [|? ? SS1 SS2]; subst. rewrite Forall_forall in SS2.
      destruct (sorted_snoc _ _ SS1) as [SS3 SS4].
      split; [apply Hin; right; apply in_or_app; right; left; auto|].
      split; [intros x Hx; apply Hin; right; apply in_or_app; auto|].
      split; auto. split; auto. right. split.
      + intros x Hx. apply SS2. apply in_or_app; auto.
      + left. apply SS2. apply in_or_app; right; left; auto.
    - simpl. rewrite app_nil_r. exact HL.
    - unfold del. change (INR (length (@nil load) + length (@nil load))) with 0.
      rewrite Rmult_0_l, Rplus_0_r.
      assert (E : Rsum (map (dev (getMean loads)) (sortf loads)) = N * (T - m)).
      { transitivity (Rsum (map secs (sortf loads)) - INR (length (sortf loads)) * m).
        - clear. induction (sortf loads) as [|x l IH]; [simpl; ring|].
          cbn [map Rsum length]. rewrite S_INR, IH. unfold dev. fold m. ring.
        - rewrite HS, HL. fold N. ring. }
      rewrite E. rewrite Rabs_mult, (Rabs_pos_eq N) by lra. rewrite Rabs_minus_sym.
      unfold D0. nra. }
  assert (HD' : D0 + N * eta + 4 * N * u * T <= (30 * N * N * u) * T + N * sm).
  { unfold D0, eta, w. assert (N * (u * m * (N + 8)) <= 9 * (N * N * u) * m).
    { assert (N + 8 <= 9 * N) by lra. assert (0 <= N * (u * m)) by nra. nra. }
    nra. }
  exists D0. subst m0 sm0. fold m sm. fold w. fold eta. repeat (split; [solve [auto; lra]|]). auto.
Qed.

Lemma sweep_bound sortf (loads : list load) my final ops :
  sort_contract sortf -> sane_loads loads ->
  / 1000000 <= true_mean loads ->
  sweep (length loads) (getMean loads) my (sortf loads) (length loads - 1) 0 []
    = Ok (final, ops) ->
  let N := INR (length loads) in
  let T := true_mean loads in
  Permutation (map l_rank final) (map l_rank loads) /\
  forall l, In l final -> fin64 (l_value l) /\
    Rabs (val (l_value l) - T) <= (30 * N * N * u) * T + N * val (small F64).
Proof.
  intros Hsort Hsane HT Hsw N T.
  destruct (sweep_start sortf loads Hsort Hsane HT) as (D0 & Fm & M0 & Fsm & S0 & D00 & HD8 & Hw & HB & HI & ME & TM & HN & HD' & Hperm & Hne).
  assert (HL : length (sortf loads) = length loads) by (symmetry; now apply Permutation_length).
  destruct (sweep_total (getMean loads) (sortf loads) Hne) as (P & x & S & g & HR & Hok & _).
  assert (Hsw' := Hok my (length loads)). rewrite HL in Hsw'. rewrite Hsw in Hsw'.
  assert (EF : final = P ++ [x] ++ S) by (specialize (Hsw' ltac:(lia)); injection Hsw'; auto).
  split.
  - rewrite EF. change (Permutation (ranks (P ++ [x] ++ S)) (map l_rank loads)).
    rewrite (reach_ranks _ _ _ _ _ _ HR). apply Permutation_map, Permutation_sym; auto.
  - intros l Hin'. rewrite EF in Hin'.
    destruct (reach_final (getMean loads) Fm M0 Fsm S0 (length loads) D0 D00
                HD8 Hw HB (sortf loads) P x S g HI HR l Hin') as [Ll Dl].
    split; auto. fold N in Dl. set (m := val (getMean loads)) in *. set (sm := val (small F64)) in *. fold N T in ME, HD'. change (secs l) with (val (l_value l)) in Dl.
    assert (TT : Rabs (val (l_value l) - T) <= Rabs (val (l_value l) - m) + Rabs (m - T)).
    { replace (val (l_value l) - T) with ((val (l_value l) - m) + (m - T)) by ring.
      apply Rabs_triang. }
    lra.
Qed.

(** ** The sweep always succeeds, and ends within 10% of the mean *)

Lemma sweep_close sortf (loads : list load) my :
  sort_contract sortf -> sane_loads loads -> / 1000000 <= true_mean loads ->
  exists final ops,
    sweep (length loads) (getMean loads) my (sortf loads) (length loads - 1) 0 []
      = Ok (final, ops) /\
    Permutation (map l_rank final) (map l_rank loads) /\
    forall l, In l final -> fin64 (l_value l) /\
      let N := INR (length loads) in
      Rabs (val (l_value l) - true_mean loads)
        <= (30 * N * N / 2 ^ 53) * true_mean loads + N * val (small F64) /\
      Rabs (val (l_value l) - true_mean loads) <= / 100 * true_mean loads.
Proof.
  intros Hsort Hsane HT.
  assert (Hs := Hsane). destruct Hs as [Hlen Hl].
  assert (Hc : comparable loads = true) by (apply fin64_comparable; intros x Hx; apply Hl; auto).
  destruct (Hsort loads Hc) as [Hperm _].
  assert (HL : length (sortf loads) = length loads) by (symmetry; now apply Permutation_length).
  assert (Hne : sortf loads <> []).
  { intros E. rewrite E in HL. simpl in HL. rewrite <- HL in Hlen. simpl in Hlen. lia. }
  destruct (sweep_total (getMean loads) (sortf loads) Hne) as (P & x & S & g & HR & Hok & _).
  specialize (Hok my (length loads)). rewrite HL in Hok. specialize (Hok ltac:(lia)).
  eexists _, _. split; [exact Hok|].
  destruct (sweep_bound sortf loads my _ _ Hsort Hsane HT Hok) as [Hp Hb].
  split; auto. intros l Hin. destruct (Hb l Hin) as [Fl Bl]. split; auto.
  set (N := INR (length loads)) in *. cbv zeta.
  assert (U : u = / 2 ^ 53) by (unfold u; now rewrite (pow_IZR 2 53)).
  split.
  { replace (30 * N * N / 2 ^ 53) with (30 * N * N * u); auto. rewrite U. reflexivity. }
  eapply Rle_trans; [exact Bl|].
  assert (U0 := u_pos).
  assert (HN : 1 <= N). { unfold N. rewrite INR_IZR_INZ. now apply (IZR_le 1). }
  assert (HN20 : N <= 2 ^ 20).
  { unfold N. rewrite INR_IZR_INZ, (pow_IZR 2 20). now apply IZR_le. }
  assert (NN : N * N <= 2 ^ 20 * 2 ^ 20) by (apply Rmult_le_compat; lra).
  assert (NU : 30 * N * N * u <= / 250).
  { apply Rle_trans with (30 * (2 ^ 20 * 2 ^ 20) * u).
    - rewrite !(Rmult_assoc 30). apply Rmult_le_compat_l; [lra|].
      apply Rmult_le_compat_r; lra.
    - rewrite U. apply Rmult_le_reg_r with (2 ^ 53); [apply pow_lt; lra|].
      rewrite Rmult_assoc, Rinv_l by (apply pow_nonzero; lra). lra. }
  destruct small64 as [Fsm Vsm]. set (sm := val (small F64)) in *.
  assert (B49 : bpow radix2 (-49) = / 2 ^ 49).
  { change (bpow radix2 (-49)) with (/ IZR (2 ^ Z.of_nat 49)). now rewrite <- (pow_IZR 2 49). }
  assert (B50 := bpow_gt_0 radix2 (-50)).
  assert (NS : N * sm <= / 500000000).
  { apply Rle_trans with (2 ^ 20 * / 2 ^ 49).
    - apply Rmult_le_compat; lra.
    - apply Rmult_le_reg_r with (2 ^ 49); [apply pow_lt; lra|].
      rewrite Rmult_assoc, Rinv_l by (apply pow_nonzero; lra). lra. }
  set (T := true_mean loads) in *.
  assert (30 * N * N * u * T <= / 250 * T) by (apply Rmult_le_compat_r; lra). lra.
Qed.

(** ** Tiny loads are not equalised *)

Definition tiny_loads : list load :=
  [@mkLoad F64 0 (zero F64); @mkLoad F64 1 (zero F64); @mkLoad F64 2 (lit F64 (9 # 10000000000000000))].

Definition tiny_final : outcome (list load * list (operation F64)) :=
  Ok ([@mkLoad F64 0 (zero F64); @mkLoad F64 1 (S754_finite false 6084722881095501 (-104));
       @mkLoad F64 2 (S754_finite false 6084722881095502 (-103))],
      [@mkOp F64 2 0 (S754_finite false 6084722881095501 (-104));
       @mkOp F64 1 0 (S754_finite true 6084722881095501 (-104))]).

Lemma tiny_sweep :
  sweep 3 (getMean tiny_loads) 0 (isort tiny_loads) 2 0 [] = tiny_final.
Proof. vm_cast_no_check (eq_refl tiny_final). Qed.

Lemma tiny_witness : exists (loads : list load) final ops idle,
  map l_rank loads = seq 0 3 /\ sane_loads loads /\ 0 < true_mean loads /\
  sweep (length loads) (getMean loads) 0 (isort loads) (length loads - 1) 0 [] = Ok (final, ops) /\
  In idle final /\ val (l_value idle) = 0.
Proof.
  pose proof tiny_sweep as TS. unfold tiny_final in TS.
  exists tiny_loads. do 2 eexists. exists (@mkLoad F64 0 (zero F64)).
  split; [reflexivity|]. 
  assert (V : 0 < val (lit F64 (9 # 10000000000000000)) <= 1).
  { assert (E : exists m e, lit F64 (9 # 10000000000000000) = S754_finite false m e /\
               (Z.pos m <= 2 ^ 53)%Z /\ (e <= -53)%Z).
    { do 2 eexists. split; [vm_compute; reflexivity|]. split; lia. }
    destruct E as (m & e & E & Hm & He). rewrite E. unfold val. cbn [SF2R].
    split; [apply F2R_gt_0; reflexivity|].
    change 1 with (bpow radix2 0). apply Rle_trans with (bpow radix2 (53 + e)).
    - rewrite bpow_plus. unfold F2R. cbn [Fnum Fexp cond_Zopp].
      apply Rmult_le_compat_r; [apply bpow_ge_0|].
      change (bpow radix2 53) with (IZR (2 ^ 53)). now apply IZR_le.
    - apply bpow_le. lia. }
  assert (B1 : 1 <= bpow radix2 900).
  { change 1 with (bpow radix2 0). apply bpow_le. lia. }
  split.
  { split; [cbn [length tiny_loads]; lia|]. intros l Hin.
    assert (Z0 : val (zero F64) = 0) by reflexivity.
    destruct Hin as [E|[E|[E|[]]]]; subst l; unfold l_value.
    - split; [split; vm_compute; reflexivity|]. rewrite Z0; lra.
    - split; [split; vm_compute; reflexivity|]. rewrite Z0; lra.
    - split; [split; vm_compute; reflexivity|]. lra. }
  split.
  { unfold true_mean, tiny_loads. cbn [map Rsum l_value length].
    change (val (zero F64)) with 0. apply Rdiv_lt_0_compat; [lra|]. apply lt_0_INR. lia. }
  split; [exact TS|]. split; [left; reflexivity|reflexivity].
Qed.

(** ** A case: loads 12, 1, 3 and 8 *)

Definition four_loads : list load :=
  [@mkLoad F64 0 (f64_of_Z 12); @mkLoad F64 1 (f64_of_Z 1); @mkLoad F64 2 (f64_of_Z 3);
   @mkLoad F64 3 (f64_of_Z 8)].

Lemma four_sane : sane_loads four_loads /\ true_mean four_loads = 6.
Proof.
  assert (V : forall z, (Z.abs z <= 2 ^ 53)%Z -> fin64 (f64_of_Z z) /\ val (f64_of_Z z) = IZR z)
    by (intros; apply ofZ64; lia).
  destruct (V 12%Z) as [F1 V1]; [lia|]. destruct (V 1%Z) as [F2 V2]; [lia|].
  destruct (V 3%Z) as [F3 V3]; [lia|]. destruct (V 8%Z) as [F4 V4]; [lia|].
  assert (B : 16 <= bpow radix2 900).
  { change 16 with (bpow radix2 4). apply bpow_le. lia. }
  split.
  - split; [simpl; lia|]. intros l [<-|[<-|[<-|[<-|[]]]]]; cbn [l_value]; (split; [auto|]);
      rewrite ?V1, ?V2, ?V3, ?V4; lra.
  - unfold true_mean, four_loads. cbn [map Rsum l_value length].
    rewrite V1, V2, V3, V4. simpl. lra.
Qed.
