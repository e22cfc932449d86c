(** Facts about the load statistics of LoadBalancerBase. *)
From Coq Require Import List Arith ZArith QArith Bool Lia.
From Verif Require Import Outcome Arith Problem LoadBalancing BalancerSpec SliceFacts.
Import ListNotations.
Local Open Scope nat_scope.

Section Stats.
  Context {A : Arith}.
  Notation load := (load A).

  Lemma swo_irrefl (L : list load) a : comparable L = true -> In a L -> load_lt a a = false.
  Proof.
    unfold comparable. intros H Ha. rewrite forallb_forall in H. specialize (H a Ha).
    apply andb_true_iff in H as [H _]. now apply negb_true_iff in H.
  Qed.

  (** [a < b] and not [c < b] give [a < c]. *)
  Lemma swo_lt_le (L : list load) a b c : swo L -> In a L -> In b L -> In c L ->
    load_lt a b = true -> load_lt c b = false -> load_lt a c = true.
  Proof.
    intros H Ha Hb Hc E1 E2. destruct (load_lt a c) eqn:E; auto. exfalso.
    assert (X := swo_le_trans L b c a H Hb Hc Ha E2 E). congruence.
  Qed.

  Lemma swo_le_lt (L : list load) a b c : swo L -> In a L -> In b L -> In c L ->
    load_lt b a = false -> load_lt b c = true -> load_lt a c = true.
  Proof.
    intros H Ha Hb Hc E1 E2. destruct (load_lt a c) eqn:E; auto. exfalso.
    assert (X := swo_le_trans L c a b H Hc Ha Hb E E1). congruence.
  Qed.

  (** Position [i] of [l] holds [m], nothing is smaller, everything before is larger. *)
  Definition first_least (R : load -> load -> bool) (l : list load) (m : load) : Prop :=
    exists i, nth_error l i = Some m /\
      forall j x, nth_error l j = Some x -> R x m = false /\ (j < i -> R m x = true).

  Lemma scan (R : load -> load -> bool) (L : list load) (f : load -> list load -> load) :
    (forall a, In a L -> R a a = false) ->
    (forall a b, In a L -> In b L -> R a b = true -> R b a = false) ->
    (forall a b c, In a L -> In b L -> In c L -> R a b = true -> R c b = false -> R a c = true) ->
    (forall b, f b [] = b) ->
    (forall b x l, f b (x :: l) = f (if R x b then x else b) l) ->
    forall l2 l1 b, L = l1 ++ l2 -> first_least R l1 b -> first_least R L (f b l2).
  Proof.
    intros Irr As Lt F0 F1. induction l2 as [|x l2 IH]; intros l1 b HL (i & Hi & Hm).
    - rewrite F0. rewrite app_nil_r in HL. subst. exists i. auto.
    - rewrite F1.
      assert (Ib : In b L). { subst L. apply in_or_app. left. eapply nth_error_In; eauto. }
      assert (Ix : In x L). { subst L. apply in_or_app. right. left. reflexivity. }
      assert (Ij : forall j y, nth_error l1 j = Some y -> In y L).
      { intros j y Hy. subst L. apply in_or_app. left. eapply nth_error_In; eauto. }
      apply (IH (l1 ++ [x])). { rewrite <- app_assoc. exact HL. }
      destruct (R x b) eqn:E.
      + exists (length l1). split.
        { rewrite nth_error_app2, Nat.sub_diag; auto. }
        intros j y Hy. destruct (Nat.lt_ge_cases j (length l1)) as [Hlt|Hge].
        * rewrite nth_error_app1 in Hy by auto.
          assert (X : R x y = true).
          { apply (Lt x b y); eauto. apply (Hm j y Hy). }
          split; auto. apply As; eauto.
        * rewrite nth_error_app2 in Hy by auto.
          destruct (j - length l1) as [|k] eqn:Ek; simpl in Hy.
          -- injection Hy as <-. split; [auto|lia].
          -- destruct k; discriminate.
      + exists i. split. { rewrite nth_error_app1; auto. apply nth_error_Some. congruence. }
        intros j y Hy. destruct (Nat.lt_ge_cases j (length l1)) as [Hlt|Hge].
        * rewrite nth_error_app1 in Hy by auto. auto.
        * rewrite nth_error_app2 in Hy by auto.
          destruct (j - length l1) as [|k] eqn:Ek; simpl in Hy.
          -- injection Hy as <-. split; auto. intros.
             assert (i < length l1) by (apply nth_error_Some; congruence). lia.
          -- destruct k; discriminate.
  Qed.

  Lemma getMin_first (l : list load) m : comparable l = true -> getMin l = Ok m ->
    exists i, nth_error l i = Some m /\
      forall j x, nth_error l j = Some x ->
        load_lt x m = false /\ (j < i -> load_lt m x = true).
  Proof.
    intros Hc Hm. destruct l as [|x l]; [discriminate|]. injection Hm as <-.
    assert (H := comparable_swo _ Hc).
    apply (scan load_lt (x :: l) min_element) with (l1 := [x]); auto.
    - intros a Ha. eapply swo_irrefl; eauto.
    - intros a b. apply (swo_asym _ H).
    - intros a b c. apply (swo_lt_le _ a b c H).
    - exists 0. split; auto. intros [|[|j]] y Hy; simpl in Hy; try discriminate.
      injection Hy as <-. split; [|lia]. eapply swo_irrefl; eauto. left; auto.
  Qed.

  Lemma getMax_first (l : list load) m : comparable l = true -> getMax l = Ok m ->
    exists i, nth_error l i = Some m /\
      forall j x, nth_error l j = Some x ->
        load_lt m x = false /\ (j < i -> load_lt x m = true).
  Proof.
    intros Hc Hm. destruct l as [|x l]; [discriminate|]. injection Hm as <-.
    assert (H := comparable_swo _ Hc).
    apply (scan (fun a b => load_lt b a) (x :: l) max_element) with (l1 := [x]); auto.
    - intros a Ha. eapply swo_irrefl; eauto.
    - intros a b Ha Hb. apply (swo_asym _ H); auto.
    - intros a b c Ha Hb Hc' E1 E2. apply (swo_le_lt _ c b a H); auto.
    - exists 0. split; auto. intros [|[|j]] y Hy; simpl in Hy; try discriminate.
      injection Hy as <-. split; [|lia]. eapply swo_irrefl; eauto. left; auto.
  Qed.

  Lemma getMin_defined (l : list load) : l <> [] -> exists m, getMin l = Ok m.
  Proof. destruct l; [congruence|]. intros _. simpl. eauto. Qed.

  Lemma getMax_defined (l : list load) : l <> [] -> exists m, getMax l = Ok m.
  Proof. destruct l; [congruence|]. intros _. simpl. eauto. Qed.

  Lemma rankToLoadIdx_from_spec (l : list load) rank k :
    match rankToLoadIdx_from k l rank with
    | Ok i => exists x, k <= i /\ nth_error l (i - k) = Some x /\ l_rank x = rank /\
                forall j y, k + j < i -> nth_error l j = Some y -> l_rank y <> rank
    | Fatal => forall x, In x l -> l_rank x <> rank
    | _ => False
    end.
  Proof.
    revert k. induction l as [|a l IH]; intros k; simpl; auto.
    destruct (Nat.eqb_spec (l_rank a) rank) as [E|E].
    - exists a. rewrite Nat.sub_diag. simpl. repeat split; auto. intros; lia.
    - specialize (IH (S k)). destruct (rankToLoadIdx_from (S k) l rank) as [i| | |]; auto.
      + destruct IH as (x & Hk & Hx & Hr & Hj). exists x. repeat split; auto; [lia| |].
        * replace (i - k) with (S (i - S k)) by lia. exact Hx.
        * intros [|j] y L Hy; simpl in Hy; [injection Hy as <-; auto|].
          apply (Hj j); auto. lia.
      + intros x [<-|Hx]; auto.
  Qed.

  Lemma rankToLoadIdx_ok (l : list load) rank i : rankToLoadIdx l rank = Ok i <->
    (exists x, nth_error l i = Some x /\ l_rank x = rank) /\
    (forall j y, j < i -> nth_error l j = Some y -> l_rank y <> rank).
  Proof.
    unfold rankToLoadIdx. assert (H := rankToLoadIdx_from_spec l rank 0).
    destruct (rankToLoadIdx_from 0 l rank) as [k| | |] eqn:E; try contradiction.
    - destruct H as (x & _ & Hx & Hr & Hj). rewrite Nat.sub_0_r in Hx. split.
      + intros [= <-]. split; eauto.
      + intros [(y & Hy & Hyr) Hj']. f_equal.
        destruct (Nat.lt_trichotomy k i) as [L|[L|L]]; auto; exfalso.
        * eapply Hj'; eauto.
        * eapply (Hj i y); eauto.
    - split; [discriminate|]. intros [(y & Hy & Hyr) _]. exfalso.
      eapply H; [|exact Hyr]. eapply nth_error_In; eauto.
  Qed.

  Lemma rankToLoadIdx_fatal (l : list load) rank : rankToLoadIdx l rank = Fatal <->
    (forall x, In x l -> l_rank x <> rank).
  Proof.
    unfold rankToLoadIdx. assert (H := rankToLoadIdx_from_spec l rank 0).
    destruct (rankToLoadIdx_from 0 l rank) as [k| | |] eqn:E; try contradiction.
    - destruct H as (x & _ & Hx & Hr & Hj). split; [discriminate|]. intros F. exfalso.
      eapply F; [|exact Hr]. eapply nth_error_In; eauto.
    - tauto.
  Qed.

  Lemma rankToLoadIdx_spec (l : list load) rank :
    (forall i, rankToLoadIdx l rank = Ok i <->
      (exists x, nth_error l i = Some x /\ l_rank x = rank) /\
      (forall j y, j < i -> nth_error l j = Some y -> l_rank y <> rank)) /\
    (rankToLoadIdx l rank = Fatal <-> (forall x, In x l -> l_rank x <> rank)) /\
    (rankToLoadIdx l rank = Fatal \/ exists i, rankToLoadIdx l rank = Ok i).
  Proof.
    split; [intros i; apply rankToLoadIdx_ok|]. split; [apply rankToLoadIdx_fatal|].
    unfold rankToLoadIdx. assert (H := rankToLoadIdx_from_spec l rank 0).
    destruct (rankToLoadIdx_from 0 l rank); try contradiction; eauto.
  Qed.

  Lemma getMin_spec (l : list load) : comparable l = true -> l <> [] ->
    exists m i, getMin l = Ok m /\ nth_error l i = Some m /\
      forall j x, nth_error l j = Some x ->
        load_lt x m = false /\ (j < i -> load_lt m x = true).
  Proof.
    intros Hc Hne. destruct (getMin_defined l Hne) as [m Hm].
    destruct (getMin_first l m Hc Hm) as (i & H1 & H2). exists m, i. auto.
  Qed.

  Lemma getMax_spec (l : list load) : comparable l = true -> l <> [] ->
    exists m i, getMax l = Ok m /\ nth_error l i = Some m /\
      forall j x, nth_error l j = Some x ->
        load_lt m x = false /\ (j < i -> load_lt x m = true).
  Proof.
    intros Hc Hne. destruct (getMax_defined l Hne) as [m Hm].
    destruct (getMax_first l m Hc Hm) as (i & H1 & H2). exists m, i. auto.
  Qed.
End Stats.

(** Sum of a list of rationals, as in mathematics. *)
Fixpoint Qtotal (l : list Q) : Q := match l with [] => 0%Q | x :: r => (x + Qtotal r)%Q end.

Lemma getMean_exact sm gr vg (l : list (load (QA sm gr vg))) :
  (getMean l == Qtotal (map l_value l) / inject_Z (Z.of_nat (length l)))%Q.
Proof.
  unfold getMean. simpl.
  assert (H : forall (m : list (load (QA sm gr vg))) (z : Q),
    (fold_left (fun (s : Q) (x : load (QA sm gr vg)) => s + l_value x) m z
     == z + Qtotal (map l_value m))%Q).
  { induction m as [|a m IH]; intros z; simpl; [ring|]. rewrite IH. symmetry. apply Qplus_assoc. }
  rewrite H. unfold ofnat. simpl.
  rewrite (Qplus_0_l (Qtotal (map l_value l))). reflexivity.
Qed.

(** Three loads of 0.1 seconds: the computed mean is the next double above 0.1. *)
Definition tenth_loads : list (load F64) :=
  [@mkLoad F64 0 (lit F64 (1 # 10)); @mkLoad F64 1 (lit F64 (1 # 10));
   @mkLoad F64 2 (lit F64 (1 # 10))].

Lemma mean_above : exists (loads : list (load F64)) m,
  loads <> [] /\ comparable loads = true /\ getMax loads = Ok m /\
  nltb F64 (l_value m) (getMean loads) = true.
Proof.
  exists tenth_loads, (@mkLoad F64 0 (lit F64 (1 # 10))). split; [discriminate|].
  split; [vm_cast_no_check (eq_refl true)|]. split.
  - vm_cast_no_check (eq_refl (getMax tenth_loads)).
  - vm_cast_no_check (eq_refl true).
Qed.
