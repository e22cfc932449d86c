(** Problem counts, send slices and the remaining problems; insertion sort. *)
From Coq Require Import List Arith ZArith QArith Bool Lia Permutation Sorted.
From Verif Require Import Outcome Arith Problem LoadBalancing BalancerSpec SweepFacts PlanFacts.
Import ListNotations.
Local Open Scope nat_scope.

Lemma skipn_skipn {T} n : forall m (l : list T), skipn m (skipn n l) = skipn (n + m) l.
Proof.
  induction n; intros m l; simpl; auto. destruct l; simpl; [destruct m; auto|apply IHn].
Qed.

Section Counts.
  Context {A : Arith}.
  Notation problem := (problem A).

  Lemma count_while_le t : forall z (ps : list problem), count_while z t ps <= length ps.
  Proof.
    intros z ps. revert z. induction ps; simpl; intros; [lia|].
    destruct (nleb A _ t); [|lia]. specialize (IHps (nadd A z (p_cpuTime a))). lia.
  Qed.

  (** Left-to-right running sum of the first [j] measured times. *)
  Definition running_sum z (j : nat) (ps : list problem) : num A :=
    fold_left (fun s p => nadd A s (p_cpuTime p)) (firstn j ps) z.

  Lemma count_while_spec t : forall (ps : list problem) z,
    (forall j, 1 <= j <= count_while z t ps -> nleb A (running_sum z j ps) t = true) /\
    (count_while z t ps < length ps ->
       nleb A (running_sum z (S (count_while z t ps)) ps) t = false).
  Proof.
    induction ps as [|p ps IH]; intros z; simpl; [split; intros; lia|].
    destruct (nleb A (nadd A z (p_cpuTime p)) t) eqn:E.
    - destruct (IH (nadd A z (p_cpuTime p))) as [H1 H2]. split.
      + intros j Hj. destruct j as [|j]; [lia|]. unfold running_sum. simpl.
        destruct j as [|j]; [exact E|]. apply H1. lia.
      + intros Hl. apply H2. lia.
    - split; [intros; lia|]. intros _. unfold running_sum. simpl. exact E.
  Qed.

  Lemma counts_nth times : forall (ps : list problem) i t n,
    nth_error times i = Some t ->
    nth_error (timesToProblemCounts times ps) i = Some n ->
    n = count_while (zero A) t
          (skipn (list_sum (firstn i (timesToProblemCounts times ps))) ps).
  Proof.
    induction times as [|t0 ts IH]; intros ps i t n H1 H2.
    - destruct i; discriminate.
    - destruct i as [|i]; simpl in *.
      + inversion H1; inversion H2; subst. reflexivity.
      + rewrite (IH _ _ _ _ H1 H2). f_equal.
        set (cs := timesToProblemCounts ts (skipn (count_while (zero A) t0 ps) ps)).
        rewrite skipn_skipn. auto.
  Qed.
End Counts.

(** Cutting a list by a list of counts. *)
Fixpoint cut {T} (counts : list nat) (l : list T) : list (list T) :=
  match counts with
  | [] => []
  | n :: ns => firstn n l :: cut ns (skipn n l)
  end.

Lemma cut_concat {T} counts : forall l : list T,
  concat (cut counts l) ++ skipn (list_sum counts) l = l.
Proof.
  induction counts as [|n ns IH]; intros l; simpl; auto.
  rewrite <- app_assoc.
  replace (skipn (n + list_sum ns) l) with (skipn (list_sum ns) (skipn n l)).
  - rewrite IH. apply firstn_skipn.
  - rewrite skipn_skipn. auto.
Qed.

Lemma cut_length {T} counts (l : list T) : length (cut counts l) = length counts.
Proof. revert l. induction counts; simpl; auto. Qed.

Lemma cut_nth {T} counts : forall (l : list T) i n,
  nth_error counts i = Some n ->
  nth_error (cut counts l) i = Some (firstn n (skipn (list_sum (firstn i counts)) l)).
Proof.
  induction counts as [|c cs IH]; intros l i n H; [destruct i; discriminate|].
  destruct i as [|i]; simpl in *.
  - inversion H. reflexivity.
  - rewrite (IH _ _ _ H). do 2 f_equal. rewrite skipn_skipn. auto.
Qed.

Lemma list_sum_firstn_le counts i n :
  nth_error counts i = Some n -> list_sum (firstn i counts) + n <= list_sum counts.
Proof.
  revert i. induction counts as [|c cs IH]; intros i H; [destruct i; discriminate|].
  destruct i as [|i]; simpl in *; [inversion H; lia|]. specialize (IH _ H). lia.
Qed.

Lemma sendbuffer_cut {T} (values : list T) counts i :
  list_sum counts <= length values ->
  sendbuffer_at values counts i =
  match nth_error (cut counts values) i with Some l => Ok l | None => UB end.
Proof.
  intros Hsum. unfold sendbuffer_at, idx.
  destruct (nth_error counts i) as [n|] eqn:E; simpl.
  - rewrite (cut_nth _ _ _ _ E). unfold slice. rewrite fold_add_sum. simpl.
    pose proof (list_sum_firstn_le _ _ _ E).
    replace (_ <=? _) with true; auto. symmetry. apply Nat.leb_le. lia.
  - apply nth_error_None in E. rewrite <- (cut_length counts values) in E.
    apply nth_error_None in E. rewrite E. reflexivity.
Qed.

Lemma mapM_idx {T} (l : list T) (f : nat -> outcome T) k :
  (forall i, f (k + i) = match nth_error l i with Some x => Ok x | None => UB end) ->
  mapM f (seq k (length l)) = Ok l.
Proof.
  revert k. induction l as [|x l IH]; intros k H; simpl; auto.
  rewrite <- (Nat.add_0_r k) at 1. rewrite (H 0). simpl. rewrite IH; auto.
  intros i. replace (S k + i) with (k + S i) by lia. apply (H (S i)).
Qed.

Lemma mapM_sendbuffer {T} (values : list T) counts :
  list_sum counts <= length values ->
  mapM (sendbuffer_at values counts) (seq 0 (length counts)) = Ok (cut counts values).
Proof.
  intros H. rewrite <- (cut_length counts values). apply mapM_idx.
  intros i. apply sendbuffer_cut. auto.
Qed.

Lemma getRemaining_skip {T} (values : list T) src dst counts :
  list_sum counts <= length values ->
  getRemaining (mkState src dst counts
     (Z.of_nat (length values) - Z.of_nat (list_sum counts))%Z) values
  = Ok (skipn (list_sum counts) values).
Proof.
  intros H. unfold getRemaining. simpl.
  destruct (Z.ltb_spec (Z.of_nat (length values) - Z.of_nat (list_sum counts)) 0); [lia|].
  destruct (Z.ltb_spec (Z.of_nat (length values))
              (Z.of_nat (length values) - Z.of_nat (list_sum counts))); [lia|].
  cbn [orb]. unfold slice.
  replace (Z.to_nat (Z.of_nat (length values) - Z.of_nat (list_sum counts)))
    with (length values - list_sum counts) by lia.
  replace (length values - (length values - list_sum counts)) with (list_sum counts) by lia.
  replace (_ <=? _) with true by (symmetry; apply Nat.leb_le; lia).
  rewrite firstn_all2; auto. rewrite skipn_length. lia.
Qed.

(** ** Insertion sort meets the contract of std::sort *)
Section Isort.
  Context {A : Arith}.
  Notation load := (load A).

  Lemma insert_perm (x : load) l : Permutation (x :: l) (insert_load x l).
  Proof.
    induction l as [|y l IH]; simpl; auto.
    destruct (load_lt y x); auto.
    eapply perm_trans; [apply perm_swap|]. constructor. auto.
  Qed.

  Lemma isort_perm (l : list load) : Permutation l (isort l).
  Proof.
    induction l; simpl; auto. eapply perm_trans; [|apply insert_perm]. constructor. auto.
  Qed.

  Record swo (L : list load) : Prop := {
    swo_asym : forall a b, In a L -> In b L -> load_lt a b = true -> load_lt b a = false;
    swo_trans : forall a b c, In a L -> In b L -> In c L ->
      load_lt a b = true -> load_lt b c = true -> load_lt a c = true;
    swo_incomp : forall a b c, In a L -> In b L -> In c L ->
      load_lt a b = false -> load_lt b a = false -> load_lt b c = false -> load_lt c b = false ->
      load_lt a c = false /\ load_lt c a = false
  }.

  Lemma comparable_swo (L : list load) : comparable L = true -> swo L.
  Proof.
    unfold comparable. intros H. rewrite forallb_forall in H. split.
    - intros a b Ha Hb E. specialize (H a Ha). apply andb_true_iff in H as [_ H].
      rewrite forallb_forall in H. specialize (H b Hb). apply andb_true_iff in H as [H _].
      rewrite E in H. simpl in H. apply negb_true_iff in H. exact H.
    - intros a b c Ha Hb Hc E1 E2. specialize (H a Ha). apply andb_true_iff in H as [_ H].
      rewrite forallb_forall in H. specialize (H b Hb). apply andb_true_iff in H as [_ H].
      rewrite forallb_forall in H. specialize (H c Hc). apply andb_true_iff in H as [H _].
      rewrite E1, E2 in H. exact H.
    - intros a b c Ha Hb Hc E1 E2 E3 E4. specialize (H a Ha).
      apply andb_true_iff in H as [_ H].
      rewrite forallb_forall in H. specialize (H b Hb). apply andb_true_iff in H as [_ H].
      rewrite forallb_forall in H. specialize (H c Hc). apply andb_true_iff in H as [_ H].
      rewrite E1, E2, E3, E4 in H. simpl in H. apply andb_true_iff in H as [H1 H2].
      apply negb_true_iff in H1. apply negb_true_iff in H2. auto.
  Qed.

  Lemma swo_le_trans L a b c : swo L -> In a L -> In b L -> In c L ->
    load_lt b a = false -> load_lt c b = false -> load_lt c a = false.
  Proof.
    intros H Ha Hb Hc E1 E2. destruct (load_lt c a) eqn:E; auto. exfalso.
    destruct (load_lt a b) eqn:Eab.
    - rewrite (swo_trans L H c a b) in E2; auto; discriminate.
    - destruct (load_lt b c) eqn:Ebc.
      + rewrite (swo_trans L H b c a) in E1; auto; discriminate.
      + destruct (swo_incomp L H a b c); auto; congruence.
  Qed.

  Lemma insert_sorted L x l :
    swo L -> In x L -> (forall y, In y l -> In y L) ->
    StronglySorted (fun a b => load_lt b a = false) l ->
    StronglySorted (fun a b => load_lt b a = false) (insert_load x l).
  Proof.
    intros H Hx. induction l as [|y l IH]; intros Hl Hs; simpl.
    - repeat constructor.
    - inversion Hs as [|? ? Hs' Hall]; subst.
      destruct (load_lt y x) eqn:E.
      + constructor.
        * apply IH; auto. intros; apply Hl; right; auto.
        * rewrite Forall_forall in *. intros z Hz.
          apply (Permutation_in _ (Permutation_sym (insert_perm x l))) in Hz as [<-|Hz].
          -- apply (swo_asym L H); auto. apply Hl; left; auto.
          -- apply Hall; auto.
      + constructor; auto. constructor; auto.
        rewrite Forall_forall in *. intros z Hz.
        apply (swo_le_trans L x y z); auto.
        * apply Hl; left; auto.
        * apply Hl; right; auto.
  Qed.

  Lemma isort_contract : sort_contract (@isort A).
  Proof.
    intros l Hc. split; [apply isort_perm|].
    assert (H := comparable_swo l Hc). revert H. generalize l at 1 as L.
    assert (G : forall L, swo L -> (forall y, In y l -> In y L) ->
                StronglySorted (fun a b => load_lt b a = false) (isort l)).
    { clear Hc. induction l as [|x l IH]; intros L HL Hin; simpl; [constructor|].
      apply (insert_sorted L); auto.
      - apply Hin; left; auto.
      - intros y Hy. apply Hin. right.
        apply (Permutation_in _ (Permutation_sym (isort_perm l))); auto.
      - apply (IH L); auto. intros; apply Hin; right; auto. }
    intros L HL. apply (G l); auto. apply comparable_swo; auto.
  Qed.
End Isort.
