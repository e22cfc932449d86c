(** The sweep in exact arithmetic: numeric invariants. *)
From Coq Require Import List Arith ZArith QArith Qabs Qminmax Lqa Lia Bool Permutation Sorted.
From Verif Require Import Outcome Arith Problem LoadBalancing BalancerSpec SweepFacts
  PlanFacts QSum.
Import ListNotations.
Local Open Scope Q_scope.

Section QSweep.
  Context (sm gr vg : Q) (Hsm : 0 < sm).
  Notation AQ := (QA sm gr vg).
  Notation load := (load AQ).
  Notation operation := (operation AQ).

  (** Load and operation values as rationals. *)
  Definition qv (l : load) : Q := l_value l.
  Definition qo (o : operation) : Q := o_value o.

  Variable m : Q.          (* the mean *)
  Variable c : Q.          (* the filter threshold *)
  Hypothesis Hc : 0 <= c.

  Notation recvQ := (recv' (A := AQ) m).
  Notation sendQ := (send' (A := AQ) m).
  Notation xopQ := (xop (A := AQ) m).
  Notation reachQ := (reach (A := AQ) m).
  Notation drainedQ := (drained (A := AQ) m).

  Definition qx (a b : load) : Q := xfer (A := AQ) m a b.

  Lemma qx_cases a b :
    (qv b - m <= m - qv a /\ qx a b = qv b - m) \/
    (m - qv a < qv b - m /\ qx a b = m - qv a).
  Proof.
    unfold qx, xfer, std_min. simpl.
    destruct (Qltb (m - l_value a) (l_value b - m)) eqn:E.
    - right. apply Qltb_true in E. split; auto.
    - left. apply Qltb_false in E. split; auto.
  Qed.

  Lemma qv_recv a b : qv (recvQ a b) = qv a + qx a b.
  Proof. reflexivity. Qed.
  Lemma qv_send a b : qv (sendQ a b) = qv b - qx a b.
  Proof. reflexivity. Qed.
  Lemma qo_xop a b : qo (xopQ a b) = qx a b.
  Proof. reflexivity. Qed.

  Lemma drained_true b : drainedQ b = true -> Qabs (qv b - m) < sm.
  Proof. intros H. apply Qltb_true in H. exact H. Qed.
  Lemma drained_false b : drainedQ b = false -> sm <= Qabs (qv b - m).
  Proof. intros H. apply Qltb_false in H. exact H. Qed.

  Lemma Qabs_lt_iff x y : Qabs x < y <-> - y < x /\ x < y.
  Proof.
    split.
    - intros H. destruct (Qabs_Qle_condition x (Qabs x)) as [H1 _].
      specialize (H1 (Qle_refl _)). lra.
    - intros [H1 H2]. destruct (Qlt_le_dec x 0).
      + rewrite Qabs_neg by lra. lra.
      + rewrite Qabs_pos by lra. lra.
  Qed.

  Lemma Qle_abs_iff x y : 0 < y -> (y <= Qabs x <-> x <= - y \/ y <= x).
  Proof.
    intros Hy. split.
    - intros H. destruct (Qlt_le_dec x 0).
      + rewrite Qabs_neg in H by lra. left; lra.
      + rewrite Qabs_pos in H by lra. right; lra.
    - intros [H|H].
      + rewrite Qabs_neg by lra. lra.
      + rewrite Qabs_pos by lra. lra.
  Qed.

  (** Sum of the values of the operations of [g] selected by [f]. *)
  Definition vsum (f : operation -> bool) (g : list operation) : Q :=
    Qsumf qo (filter f g).

  Lemma vsum_snoc f g op :
    vsum f (g ++ [op]) == vsum f g + (if f op then qo op else 0).
  Proof.
    unfold vsum. rewrite filter_app, Qsumf_app. simpl.
    destruct (f op); unfold Qsumf; simpl; lra.
  Qed.

  Lemma vsum_none f g : (forall op, In op g -> f op = false) -> vsum f g == 0.
  Proof. intros H. unfold vsum. rewrite filter_none by auto. reflexivity. Qed.

  (** Kept operations sent by / sent to a rank. *)
  Definition keptb (op : operation) : bool := Qltb c (qo op).
  Definition sentK k g := vsum (fun op => from_is k op && keptb op) g.
  Definition recvK k g := vsum (fun op => to_is k op && keptb op) g.

  (** ** Bookkeeping: values are initial values minus sent plus received. *)

  Definition booked (g : list operation) (l l0 : load) : Prop :=
    l_rank l = l_rank l0 /\
    qv l == qv l0 - vsum (from_is (l_rank l)) g + vsum (to_is (l_rank l)) g.

  (** Effect of one transfer from [b] to [a] on a load. *)
  Definition moved (a b l l' : load) : Prop :=
    l_rank l' = l_rank l /\
    qv l' == qv l - (if Nat.eqb (l_rank b) (l_rank l) then qx a b else 0)
                  + (if Nat.eqb (l_rank a) (l_rank l) then qx a b else 0).

  Lemma booked_moved a b g L L' I :
    Forall2 (moved a b) L L' -> Forall2 (booked g) L I ->
    Forall2 (booked (g ++ [xopQ a b])) L' I.
  Proof.
    intros H. revert I. induction H as [|l l' L L' [H1 H2] H IHf]; intros I HI.
    - inversion HI; constructor.
    - inversion HI as [|? l0 ? I' [K1 K2] K3]; subst. constructor; auto.
      split; [congruence|]. rewrite H1, !vsum_snoc, H2, K2, !qo_xop.
      change (from_is (l_rank l) (xopQ a b)) with (Nat.eqb (l_rank b) (l_rank l)).
      change (to_is (l_rank l) (xopQ a b)) with (Nat.eqb (l_rank a) (l_rank l)).
      destruct (Nat.eqb _ _), (Nat.eqb _ _); lra.
  Qed.

  Lemma moved_same a b L :
    (forall l, In l L -> l_rank l <> l_rank a /\ l_rank l <> l_rank b) ->
    Forall2 (moved a b) L L.
  Proof.
    induction L as [|l L IHL]; intros HL; constructor.
    - split; auto. destruct (HL l) as [H1 H2]; [left; auto|].
      rewrite (proj2 (Nat.eqb_neq _ _)) by congruence.
      rewrite (proj2 (Nat.eqb_neq _ _)) by congruence. lra.
    - apply IHL. intros. apply HL. right; auto.
  Qed.

  Lemma moved_step P a M b S :
    NoDup (ranks (P ++ [a] ++ M ++ [b] ++ S)) ->
    Forall2 (moved a b) (P ++ [a] ++ M ++ [b] ++ S)
      (P ++ [recvQ a b] ++ M ++ [sendQ a b] ++ S).
  Proof.
    intros Hnd. unfold ranks in Hnd. rewrite !map_app in Hnd. simpl in Hnd.
    assert (Hab : l_rank b <> l_rank a).
    { intros E. apply NoDup_appr in Hnd. inversion Hnd as [|? ? Hn _]; subst. apply Hn.
      rewrite <- E. apply in_or_app. right. left. auto. }
    assert (HP : forall l, In l P -> l_rank l <> l_rank a /\ l_rank l <> l_rank b).
    { intros l Hl. apply (in_map l_rank) in Hl.
      split; intros E; rewrite E in Hl; apply (NoDup_disj _ _ _ Hnd Hl).
      - left; auto.
      - right. apply in_or_app. right. left; auto. }
    apply NoDup_appr in Hnd. inversion Hnd as [|? ? Hna Hnd2]; subst.
    assert (HM : forall l, In l M -> l_rank l <> l_rank a /\ l_rank l <> l_rank b).
    { intros l Hl. apply (in_map l_rank) in Hl.
      split; intros E; rewrite E in Hl.
      - apply Hna. apply in_or_app. auto.
      - apply (NoDup_disj _ _ _ Hnd2 Hl). left; auto. }
    assert (HS : forall l, In l S -> l_rank l <> l_rank a /\ l_rank l <> l_rank b).
    { intros l Hl. apply (in_map l_rank) in Hl.
      split; intros E; rewrite E in Hl.
      - apply Hna. apply in_or_app. right. right; auto.
      - apply NoDup_appr in Hnd2. inversion Hnd2; subst. auto. }
    apply Forall2_app; [now apply moved_same|]. apply Forall2_app.
    { constructor; [|constructor]. split; auto. rewrite qv_recv, Nat.eqb_refl.
      rewrite (proj2 (Nat.eqb_neq _ _) Hab). lra. }
    apply Forall2_app; [now apply moved_same|]. apply Forall2_app; [|now apply moved_same].
    constructor; [|constructor]. split; auto. rewrite qv_send, Nat.eqb_refl.
    rewrite (proj2 (Nat.eqb_neq (l_rank a) (l_rank b))) by congruence. lra.
  Qed.

  Lemma reach_book init P W S g :
    NoDup (ranks init) ->
    reachQ init P W S g ->
    Forall2 (booked g) (P ++ W ++ S) init.
  Proof.
    intros Hnd HR.
    induction HR as [|P a M b S g HR IH D|P a M b S g HR IH D].
    - simpl. rewrite app_nil_r. clear. induction init; constructor; auto.
      split; auto. unfold vsum, Qsumf. simpl. lra.
    - assert (Hr := reach_ranks _ _ _ _ _ _ HR).
      replace (P ++ (recvQ a b :: M) ++ sendQ a b :: S)
        with (P ++ [recvQ a b] ++ M ++ [sendQ a b] ++ S) by lapp.
      replace (P ++ (a :: M ++ [b]) ++ S) with (P ++ [a] ++ M ++ [b] ++ S) in * by lapp.
      rewrite <- Hr in Hnd. eapply booked_moved; [|exact IH]. now apply moved_step.
    - assert (Hr := reach_ranks _ _ _ _ _ _ HR).
      replace ((P ++ [recvQ a b]) ++ (M ++ [sendQ a b]) ++ S)
        with (P ++ [recvQ a b] ++ M ++ [sendQ a b] ++ S) by lapp.
      replace (P ++ (a :: M ++ [b]) ++ S) with (P ++ [a] ++ M ++ [b] ++ S) in * by lapp.
      rewrite <- Hr in Hnd. eapply booked_moved; [|exact IH]. now apply moved_step.
  Qed.

  (** ** The main invariant *)

  Definition d (l : load) : Q := qv l - m.

  Lemma reach_sum init P W S g :
    reachQ init P W S g ->
    Qsumf d (P ++ W ++ S) == Qsumf d init.
  Proof.
    induction 1 as [|P a M b S g HR IH D|P a M b S g HR IH D].
    - simpl. rewrite app_nil_r. reflexivity.
    - rewrite <- IH. repeat (rewrite ?Qsumf_app, ?Qsumf_cons; simpl app).
      unfold d. rewrite qv_recv, qv_send. rewrite !Qsumf_nil. lra.
    - rewrite <- IH. repeat (rewrite ?Qsumf_app, ?Qsumf_cons; simpl app).
      unfold d. rewrite qv_recv, qv_send. rewrite !Qsumf_nil. lra.
  Qed.

  Definition sorted_d (l : list load) : Prop := StronglySorted (fun x y => d x <= d y) l.

  (** State of the receiver [a] (initially [a0]). *)
  Definition head_ok g (W : list load) (a a0 : load) : Prop :=
    d a <= 0 /\
    (recvK (l_rank a) g <= d a - d a0 \/
     (recvK (l_rank a) g <= Qmax 0 (- d a0) /\ forall l, In l W -> d l <= 0)).

  (** State of the sender [b] (initially [b0]). *)
  Definition tail_ok g (b b0 : load) : Prop :=
    (sentK (l_rank b) g == 0 /\ b = b0) \/
    (sm <= d b /\ sentK (l_rank b) g <= d b0 - d b).

  Record qinv (init P W S : list load) (g : list operation) : Prop := {
    qi_split : exists P0 W0 S0,
      init = P0 ++ W0 ++ S0 /\
      Forall2 (fun l l0 => l_rank l = l_rank l0 /\ d l == 0 /\
                 recvK (l_rank l) g <= Qmax 0 (- d l0)) P P0 /\
      Forall2 (fun l l0 => l_rank l = l_rank l0 /\ 0 <= d l /\ d l < sm /\
                 sentK (l_rank l) g <= Qmax 0 (d l0)) S S0 /\
      ((exists x x0, W = [x] /\ W0 = [x0] /\ l_rank x = l_rank x0 /\
          recvK (l_rank x) g <= Qmax 0 (- d x0) /\
          sentK (l_rank x) g <= Qmax 0 (d x0)) \/
       (exists a a0 M b b0, W = a :: M ++ [b] /\ W0 = a0 :: M ++ [b0] /\
          l_rank a = l_rank a0 /\ l_rank b = l_rank b0 /\
          head_ok g W a a0 /\ tail_ok g b b0))
  }.

  Lemma sentK_snoc k g op :
    sentK k (g ++ [op]) == sentK k g + (if from_is k op && keptb op then qo op else 0).
  Proof. apply vsum_snoc. Qed.

  Lemma recvK_snoc k g op :
    recvK k (g ++ [op]) == recvK k g + (if to_is k op && keptb op then qo op else 0).
  Proof. apply vsum_snoc. Qed.

  Lemma sorted_head_le a l :
    sorted_d (a :: l) -> Qsumf d (a :: l) <= 0 -> d a <= 0.
  Proof.
    intros Hs Hsum. apply Qnot_lt_le. intros Hpos.
    assert (0 < Qsumf d (a :: l)); [|lra].
    apply Qsumf_strict; [|discriminate].
    intros x [<-|Hx]; auto. inversion Hs as [|? ? _ Hall]; subst.
    rewrite Forall_forall in Hall. specialize (Hall x Hx). lra.
  Qed.

  Lemma sorted_app_l (l1 l2 : list load) : sorted_d (l1 ++ l2) -> sorted_d l1.
  Proof.
    induction l1; simpl; intros H; [constructor|]. inversion H as [|? ? H1 H2]; subst.
    constructor; [apply IHl1; auto|]. rewrite Forall_forall in *. intros x Hx. apply H2.
    apply in_or_app; auto.
  Qed.

  Lemma sorted_app_r (l1 l2 : list load) : sorted_d (l1 ++ l2) -> sorted_d l2.
  Proof. induction l1; simpl; intros H; auto. inversion H; auto. Qed.

  Lemma sorted_last (l : list load) b x : sorted_d (l ++ [b]) -> In x l -> d x <= d b.
  Proof.
    induction l; simpl; intros H Hx; [contradiction|]. inversion H as [|? ? H1 H2]; subst.
    destruct Hx as [<-|Hx]; auto. rewrite Forall_forall in H2. apply H2.
    apply in_or_app. right. left. auto.
  Qed.

  (** Value of the transfer in terms of deviations. *)
  Lemma qx_d a b :
    (d b <= - d a /\ qx a b == d b) \/ (- d a < d b /\ qx a b == - d a).
  Proof.
    unfold d. destruct (qx_cases a b) as [[H E]|[H E]]; rewrite E; [left|right]; lra.
  Qed.

  Lemma d_recv a b : d (recvQ a b) == d a + qx a b.
  Proof. unfold d. rewrite qv_recv. lra. Qed.
  Lemma d_send a b : d (sendQ a b) == d b - qx a b.
  Proof. unfold d. rewrite qv_send. lra. Qed.

  Lemma keptb_pos op : keptb op = true -> c < qo op.
  Proof. apply Qltb_true. Qed.

  Lemma Qmax_ge_l x y : x <= Qmax x y. Proof. apply Q.le_max_l. Qed.
  Lemma Qmax_ge_r x y : y <= Qmax x y. Proof. apply Q.le_max_r. Qed.

  Lemma reach_qinv init P W S g :
    NoDup (ranks init) -> init <> [] -> sorted_d init -> Qsumf d init == 0 ->
    reachQ init P W S g -> qinv init P W S g.
  Proof.
    intros Hnd Hne Hsort Hsum HR.
    induction HR as [|P a M b S g HR IH D|P a M b S g HR IH D].
    - split. exists [], init, []. simpl. rewrite app_nil_r.
      split; [reflexivity|]. split; [constructor|]. split; [constructor|].
      destruct init as [|a R]; [congruence|].
      destruct R as [|r R'].
      + left. exists a, a. repeat split; apply Qmax_ge_l.
      + destruct (list_snoc (r :: R')) as (M & b & E); [discriminate|]. rewrite E in *.
        right. exists a, a, M, b, b. repeat split; auto.
        * apply (sorted_head_le a (M ++ [b])); auto. rewrite Hsum. lra.
        * left. change (recvK (l_rank a) []) with 0. lra.
        * left. split; auto. reflexivity.
    - (* the sender is drained *)
      assert (Hstr := reach_struct (A := AQ) m init _ _ _ _ Hnd Hne HR).
      destruct Hstr as [Hloc _ _ _]. rewrite last_ranks_window in Hloc.
      cbn [ranks map hd] in Hloc.
      assert (Hr := reach_ranks _ _ _ _ _ _ HR).
      assert (ND : NoDup (ranks P ++ l_rank a :: ranks M ++ l_rank b :: ranks S)).
      { rewrite <- Hr in Hnd. revert Hnd. unfold ranks.
        repeat (rewrite ?map_app; simpl). rewrite <- !app_assoc. simpl. auto. }
      assert (Hab : l_rank b <> l_rank a).
      { intros E. apply NoDup_appr in ND. inversion ND as [|? ? Hn _]; subst. apply Hn.
        rewrite <- E. apply in_or_app. right. left. auto. }
      destruct IH as [(P0 & W0 & S0 & Hinit & HP & HS & HW)].
      destruct HW as [(x & x0 & E & _)|(a1 & a0 & M1 & b1 & b0 & E & -> & Ra & Rb & Hh & Ht)].
      { exfalso. destruct M; discriminate. }
      injection E as <- E. apply app_inj_tail in E as [<- <-].
      set (a' := recvQ a b). set (b' := sendQ a b). set (op := xopQ a b).
      assert (Fop : from_is (l_rank b) op = true) by apply Nat.eqb_refl.
      assert (Top : to_is (l_rank a) op = true) by apply Nat.eqb_refl.
      apply drained_true in D. apply Qabs_lt_iff in D.
      change (qv (sendQ a b) - m) with (d (sendQ a b)) in D.
      rewrite d_send in D.
      assert (Da : d a' == d a + qx a b) by apply d_recv.
      assert (Db : d b' == d b - qx a b) by apply d_send.
      assert (Hsorted : sorted_d (M ++ [b0])).
      { rewrite Hinit in Hsort. apply sorted_app_r in Hsort. apply sorted_app_l in Hsort.
        inversion Hsort; auto. }
      (* the essential case analysis *)
      assert (KEY :
        (d a' <= 0 /\
         (recvK (l_rank a) (g ++ [op]) <= d a' - d a0 \/
          (recvK (l_rank a) (g ++ [op]) <= Qmax 0 (- d a0) /\
           forall l, In l (a' :: M) -> d l <= 0))) /\
        0 <= d b' /\ sentK (l_rank b) (g ++ [op]) <= Qmax 0 (d b0)).
      { destruct Hh as [Ha Hmode]. rewrite recvK_snoc, sentK_snoc, Fop, Top.
        change (qo op) with (qx a b). cbn [andb].
        assert (HK : (keptb op = true /\ c < qx a b) \/ keptb op = false).
        { destruct (keptb op) eqn:K; auto. left. split; auto. apply (keptb_pos op K). }
        pose proof (Qmax_ge_l 0 (- d a0)). pose proof (Qmax_ge_r 0 (- d a0)).
        pose proof (Qmax_ge_l 0 (d b0)). pose proof (Qmax_ge_r 0 (d b0)).
        destruct (qx_d a b) as [[Hle Ex]|[Hlt Ex]].
        - (* transfer = d b *)
          destruct Hmode as [Hm1|[Hm2 Hall]].
          + destruct (Qlt_le_dec (d b) 0) as [Hneg|Hpos].
            * (* negative fresh sender *)
              destruct Ht as [[Hs0 ->]|[Hs1 _]]; [|lra].
              destruct HK as [[_ HK]|HK]; [lra|]. rewrite HK.
              repeat split; try lra. right. split; [lra|].
              intros l [<-|Hl]; [lra|].
              pose proof (sorted_last M b0 l Hsorted Hl). lra.
            * assert (Hsent : sentK (l_rank b) g + (if keptb op then qx a b else 0)
                              <= Qmax 0 (d b0)).
              { destruct Ht as [[Hs0 ->]|[Hs1 Hs2]]; destruct (keptb op); lra. }
              repeat split; try lra. left. destruct (keptb op); lra.
          + assert (d b <= 0) by (apply Hall; right; apply in_or_app; right; left; auto).
            destruct Ht as [[Hs0 ->]|[Hs1 _]]; [|lra].
            destruct HK as [[_ HK]|HK]; [lra|]. rewrite HK.
            repeat split; try lra. right. split; [lra|].
            intros l [<-|Hl]; [lra|]. apply Hall. right. apply in_or_app; auto.
        - (* transfer = - d a *)
          destruct Hmode as [Hm1|[Hm2 Hall]].
          2:{ assert (d b <= 0) by (apply Hall; right; apply in_or_app; right; left; auto).
              lra. }
          assert (Hsent : sentK (l_rank b) g + (if keptb op then qx a b else 0)
                          <= Qmax 0 (d b0)).
          { destruct Ht as [[Hs0 ->]|[Hs1 Hs2]]; destruct (keptb op); lra. }
          repeat split; try lra. left. destruct (keptb op); lra. }
      destruct KEY as (Kh & Kb & Ks).
      split. exists P0, (a0 :: M), (b0 :: S0).
      split; [rewrite Hinit; lapp|].
      split.
      { clear - HP ND. 
        assert (Hne : forall l, In l P -> l_rank l <> l_rank a).
        { intros l Hl E. apply (in_map l_rank) in Hl.
          apply (NoDup_disj _ _ _ ND Hl). left; auto. }
        clear ND. induction HP as [|l l0 P P0 (H1 & H2 & H3) HP IH]; constructor.
        - repeat split; auto. rewrite recvK_snoc. unfold op.
          replace (to_is (l_rank l) (xopQ a b)) with false.
          + simpl. lra.
          + symmetry. apply Nat.eqb_neq. simpl. intros E. apply (Hne l); [left; auto|auto].
        - apply IH. intros. apply Hne. right; auto. }
      split.
      { constructor.
        - repeat split; auto. simpl; lra.
        - clear - HS ND.
          assert (Hne : forall l, In l S -> l_rank l <> l_rank b).
          { intros l Hl E. apply (in_map l_rank) in Hl. apply NoDup_appr in ND.
            inversion ND as [|? ? _ ND2]; subst. apply NoDup_appr in ND2.
            inversion ND2; subst. rewrite E in Hl. auto. }
          clear ND. induction HS as [|l l0 S S0 (H1 & H2 & H3 & H4) HS IH]; constructor.
          + repeat split; auto. rewrite sentK_snoc. unfold op.
            replace (from_is (l_rank l) (xopQ a b)) with false.
            * simpl. lra.
            * symmetry. apply Nat.eqb_neq. simpl. intros E. apply (Hne l); [left; auto|auto].
          + apply IH. intros. apply Hne. right; auto. }
      (* nothing has been sent by the loads of the new window *)
      assert (Z : forall k, In k (l_rank a :: ranks M) -> sentK k (g ++ [op]) == 0).
      { intros k Hk. apply vsum_none. intros o Ho. apply andb_false_iff. left.
        apply Nat.eqb_neq. intros E.
        assert (Hin : In (o_from o) (l_rank b :: ranks S)).
        { apply in_app_or in Ho as [Ho|[<-|[]]]; [|left; auto].
          destruct (Hloc o Ho) as [[H|H] _]; [right; auto|left; auto]. }
        rewrite E in Hin. apply NoDup_appr in ND.
        apply (NoDup_disj (l_rank a :: ranks M) (l_rank b :: ranks S) k); auto. }
      destruct M as [|e M].
      + left. exists a', a0. repeat split; auto.
        * destruct Kh as [K1 [K2|[K2 _]]]; [|exact K2].
          pose proof (Qmax_ge_r 0 (- d a0)).
          change (l_rank a') with (l_rank a). lra.
        * change (l_rank a') with (l_rank a). rewrite Z by (left; auto). apply Qmax_ge_l.
      + destruct (list_snoc (e :: M)) as (M' & f & EM); [discriminate|]. rewrite EM in *.
        right. exists a', a0, M', f, f. repeat split; auto; try apply Kh.
        left. split; auto. apply Z. right. unfold ranks. apply in_map.
        apply in_or_app. right. left; auto.
    - (* the receiver is filled *)
      assert (Hstr := reach_struct (A := AQ) m init _ _ _ _ Hnd Hne HR).
      destruct Hstr as [Hloc _ _ _]. rewrite last_ranks_window in Hloc.
      cbn [ranks map hd] in Hloc.
      assert (HR' := reach_recv _ _ _ _ _ _ _ _ HR D).
      assert (Hsum' := reach_sum _ _ _ _ _ HR').
      assert (Hr := reach_ranks _ _ _ _ _ _ HR).
      assert (ND : NoDup (ranks P ++ l_rank a :: ranks M ++ l_rank b :: ranks S)).
      { rewrite <- Hr in Hnd. revert Hnd. unfold ranks.
        repeat (rewrite ?map_app; simpl). rewrite <- !app_assoc. simpl. auto. }
      destruct IH as [(P0 & W0 & S0 & Hinit & HP & HS & HW)].
      destruct HW as [(x & x0 & E & _)|(a1 & a0 & M1 & b1 & b0 & E & -> & Ra & Rb & Hh & Ht)].
      { exfalso. destruct M; discriminate. }
      injection E as <- E. apply app_inj_tail in E as [<- <-].
      set (a' := recvQ a b) in *. set (b' := sendQ a b) in *. set (op := xopQ a b) in *.
      assert (Fop : from_is (l_rank b) op = true) by apply Nat.eqb_refl.
      assert (Top : to_is (l_rank a) op = true) by apply Nat.eqb_refl.
      apply drained_false in D. apply Qle_abs_iff in D; [|exact Hsm].
      change (qv b' - m) with (d b') in D.
      assert (Da : d a' == d a + qx a b) by apply d_recv.
      assert (Db : d b' == d b - qx a b) by apply d_send.
      rewrite Db in D.
      destruct Hh as [Ha Hmode].
      destruct (qx_d a b) as [[Hle Ex]|[Hlt Ex]]; [lra|].
      destruct Hmode as [Hm1|[Hm2 Hall]].
      2:{ assert (d b <= 0) by (apply Hall; right; apply in_or_app; right; left; auto). lra. }
      assert (HPz : Qsumf d P == 0).
      { clear - HP. induction HP as [|l l0 P P0 (H1 & H2 & H3) HP IH]; [reflexivity|].
        rewrite Qsumf_cons. lra. }
      assert (HSz : 0 <= Qsumf d S).
      { clear - HS. induction HS as [|l l0 S S0 (H1 & H2 & H3 & H4) HS IH].
        - apply Qle_refl.
        - rewrite Qsumf_cons. lra. }
      assert (HMsum : Qsumf d M + d b' <= 0).
      { rewrite !Qsumf_app in Hsum'. rewrite !Qsumf_cons, !Qsumf_nil in Hsum'. lra. }
      destruct M as [|e M].
      { exfalso. unfold Qsumf in HMsum. simpl in HMsum. lra. }
      assert (Hsorted : sorted_d ((e :: M) ++ [b0])).
      { rewrite Hinit in Hsort. apply sorted_app_r in Hsort. apply sorted_app_l in Hsort.
        inversion Hsort; auto. }
      assert (He : d e <= 0).
      { apply (sorted_head_le e M); [apply sorted_app_l in Hsorted; auto|]. lra. }
      split. exists (P0 ++ [a0]), ((e :: M) ++ [b0]), S0.
      split; [rewrite Hinit; lapp|].
      split.
      { apply Forall2_app.
        - clear - HP ND.
          assert (Hne : forall l, In l P -> l_rank l <> l_rank a).
          { intros l Hl E. apply (in_map l_rank) in Hl.
            apply (NoDup_disj _ _ _ ND Hl). left; auto. }
          clear ND. induction HP as [|l l0 P P0 (H1 & H2 & H3) HP IH]; constructor.
          + repeat split; auto. rewrite recvK_snoc. unfold op.
            replace (to_is (l_rank l) (xopQ a b)) with false.
            * simpl. lra.
            * symmetry. apply Nat.eqb_neq. simpl. intros E. apply (Hne l); [left; auto|auto].
          + apply IH. intros. apply Hne. right; auto.
        - constructor; [|constructor]. split; [exact Ra|]. split; [lra|].
          change (l_rank a') with (l_rank a). rewrite recvK_snoc, Top. cbn [andb].
          change (qo op) with (qx a b).
          pose proof (Qmax_ge_r 0 (- d a0)). destruct (keptb op); lra. }
      split.
      { clear - HS ND.
        assert (Hne : forall l, In l S -> l_rank l <> l_rank b).
        { intros l Hl E. apply (in_map l_rank) in Hl. apply NoDup_appr in ND.
          inversion ND as [|? ? _ ND2]; subst. apply (NoDup_appr (ranks (e :: M)) (l_rank b :: ranks S)) in ND2.
          inversion ND2; subst. rewrite E in Hl. auto. }
        clear ND. induction HS as [|l l0 S S0 (H1 & H2 & H3 & H4) HS IH]; constructor.
        + repeat split; auto. rewrite sentK_snoc. unfold op.
          replace (from_is (l_rank l) (xopQ a b)) with false.
          * simpl. lra.
          * symmetry. apply Nat.eqb_neq. simpl. intros E. apply (Hne l); [left; auto|auto].
        + apply IH. intros. apply Hne. right; auto. }
      right. exists e, e, M, b', b0. repeat split; auto.
      + left. assert (Z : recvK (l_rank e) (g ++ [op]) == 0).
        { apply vsum_none. intros o Ho. apply andb_false_iff. left.
          apply Nat.eqb_neq. intros E.
          assert (Hin : In (o_to o) (ranks P ++ [l_rank a])).
          { apply in_or_app. apply in_app_or in Ho as [Ho|[<-|[]]].
            - destruct (Hloc o Ho) as [_ [H|H]]; simpl; auto.
            - right; left; auto. }
          rewrite E in Hin.
          apply (NoDup_disj (ranks P ++ [l_rank a]) (l_rank e :: ranks M ++ l_rank b :: ranks S)
                   (l_rank e)); auto.
          - rewrite <- app_assoc. exact ND.
          - left; auto. }
        rewrite Z. lra.
      + right. change (l_rank b') with (l_rank b). rewrite sentK_snoc, Fop. cbn [andb].
        change (qo op) with (qx a b).
        assert (HK : (keptb op = true /\ c < qx a b) \/ keptb op = false).
        { destruct (keptb op) eqn:K; auto. left. split; auto. apply (keptb_pos op K). }
        split; [lra|].
        destruct Ht as [[Hs0 ->]|[Hs1 Hs2]]; destruct (keptb op); lra.
  Qed.
End QSweep.
