(** From the sweep to the plans of all ranks; valid for every arithmetic. *)
From Coq Require Import List Arith ZArith QArith Bool Lia Permutation Sorted.
From Verif Require Import Outcome Arith Problem LoadBalancing BalancerSpec SweepFacts.
Import ListNotations.
Local Open Scope nat_scope.

(** ** Lists *)

Lemma enum_length {T} (l : list T) : length (enum l) = length l.
Proof. unfold enum. rewrite combine_length, seq_length. lia. Qed.

Lemma nth_error_combine {S T} (l1 : list S) (l2 : list T) i :
  nth_error (combine l1 l2) i =
  match nth_error l1 i, nth_error l2 i with
  | Some a, Some b => Some (a, b)
  | _, _ => None
  end.
Proof.
  revert l2 i. induction l1; destruct l2, i; simpl; auto.
  - destruct (nth_error l1 i); auto.
Qed.

Lemma nth_error_seq s n i :
  nth_error (seq s n) i = if i <? n then Some (s + i) else None.
Proof.
  revert s i. induction n; intros s i; destruct i; cbn [seq nth_error]; auto.
  - cbn. f_equal. lia.
  - rewrite IHn. change (S i <? S n) with (i <? n). destruct (i <? n); auto.
    f_equal. lia.
Qed.

Lemma nth_error_enum {T} (l : list T) i :
  nth_error (enum l) i = match nth_error l i with Some x => Some (i, x) | None => None end.
Proof.
  unfold enum. rewrite nth_error_combine, nth_error_seq.
  destruct (i <? length l) eqn:E; auto.
  apply Nat.ltb_ge in E. apply nth_error_None in E. rewrite E. reflexivity.
Qed.

Lemma map_fst_enum {T} (l : list T) : map fst (enum l) = seq 0 (length l).
Proof.
  unfold enum. generalize (seq_length (length l) 0). generalize (seq 0 (length l)).
  induction l as [|x l IH]; intros [|k ks]; simpl; intros H; try discriminate; auto.
  f_equal. auto.
Qed.

Lemma map_snd_enum {T} (l : list T) : map snd (enum l) = l.
Proof.
  unfold enum. generalize (seq_length (length l) 0). generalize (seq 0 (length l)).
  induction l as [|x l IH]; intros [|k ks]; simpl; intros H; try discriminate; auto.
  f_equal. auto.
Qed.

Lemma enum_map {T U} (f : T -> U) (l : list T) :
  enum (map f l) = map (fun ip => (fst ip, f (snd ip))) (enum l).
Proof.
  unfold enum. rewrite map_length. generalize (seq 0 (length l)).
  induction l as [|x l IH]; intros [|k ks]; simpl; auto. f_equal. apply IH.
Qed.

Lemma filter_filter {T} (f g : T -> bool) l :
  filter f (filter g l) = filter (fun x => g x && f x) l.
Proof.
  induction l; simpl; auto. destruct (g a); simpl; rewrite IHl; auto.
Qed.

Lemma filter_comm {T} (f g : T -> bool) l : filter f (filter g l) = filter g (filter f l).
Proof. rewrite !filter_filter. apply filter_ext. intros. apply andb_comm. Qed.

Lemma filter_none {T} (f : T -> bool) l :
  (forall x, In x l -> f x = false) -> filter f l = [].
Proof.
  induction l; simpl; intros H; auto. rewrite (H a); auto.
Qed.

Lemma fold_add_sum l z : fold_left Nat.add l z = z + list_sum l.
Proof.
  revert z. induction l; simpl; intros; [lia|]. rewrite IHl. lia.
Qed.

Section Plans.
  Context {A : Arith}.
  Notation load := (load A).
  Notation problem := (problem A).
  Notation operation := (operation A).

  Implicit Types (K : list operation).

  (** Properties of a set of operations from which all ranks read their plan. *)
  Record plan_ok (n : nat) K : Prop := {
    pk_range : forall op, In op K -> o_from op < n /\ o_to op < n;
    pk_roles : forall o1 o2, In o1 K -> In o2 K -> o_from o1 <> o_to o2;
    pk_nodup : NoDup (map (fun op => (o_from op, o_to op)) K)
  }.

  Definition from_is (r : nat) (op : operation) : bool := o_from op =? r.
  Definition to_is (r : nat) (op : operation) : bool := o_to op =? r.

  (** The plan of rank [my] read off the global operations. *)
  Definition plan_of K (my : nat) (ps : list problem) : bstate :=
    let counts := timesToProblemCounts (map o_value (filter (from_is my) K)) ps in
    mkState (map o_from (filter (to_is my) K)) (map o_to (filter (from_is my) K))
      counts (Z.of_nat (length ps) - Z.of_nat (list_sum counts))%Z.

  Lemma info_plan n K my ps :
    plan_ok n K -> operationsToInfo (filter (involves my) K) ps my = plan_of K my ps.
  Proof.
    intros [_ Hroles _]. unfold operationsToInfo, plan_of.
    assert (HS : forall op, In op K -> from_is my op = true ->
              filter (involves my) K = filter (from_is my) K /\
              filter (to_is my) K = []).
    { intros op Hin Hf. unfold from_is in Hf. apply Nat.eqb_eq in Hf.
      assert (Ht : forall o, In o K -> to_is my o = false).
      { intros o Ho. apply Nat.eqb_neq. intros E. apply (Hroles op o); congruence. }
      split; [|apply filter_none; auto].
      apply filter_ext_in. intros o Ho. unfold involves.
      specialize (Ht o Ho). unfold to_is in Ht. rewrite Ht, orb_false_r. reflexivity. }
    destruct (isSender (filter (involves my) K) my) eqn:E.
    - unfold isSender in E.
      destruct (filter (involves my) K) as [|op l] eqn:F; [discriminate|].
      assert (Hop : In op K /\ from_is my op = true).
      { split.
        - apply (proj1 (filter_In (involves my) op K)). rewrite F. left; auto.
        - simpl in E. apply andb_true_iff in E as [E _]. exact E. }
      destruct Hop as [Hin Hf]. destruct (HS op Hin Hf) as [H1 H2].
      rewrite <- H1, H2. rewrite fold_add_sum. reflexivity.
    - assert (Hno : forall o, In o K -> from_is my o = false).
      { intros o Ho. destruct (from_is my o) eqn:Hf; auto.
        destruct (HS o Ho Hf) as [H1 _]. rewrite H1 in E.
        assert (Hin : In o (filter (from_is my) K)) by (apply filter_In; auto).
        unfold isSender in E. destruct (filter (from_is my) K) eqn:F; [contradiction|].
        rewrite <- F in E. rewrite <- E. symmetry. apply forallb_forall.
        intros o' Ho'. apply filter_In in Ho' as [_ ?]. auto. }
      rewrite (filter_none (from_is my) K Hno). simpl.
      rewrite Z.sub_0_r. f_equal. f_equal.
      apply filter_ext_in. intros o Ho. unfold involves.
      specialize (Hno o Ho). unfold from_is in Hno. rewrite Hno. reflexivity.
  Qed.

  Lemma plan_ok_filter n K f : plan_ok n K -> plan_ok n (filter f K).
  Proof.
    intros [H1 H2 H3]. split.
    - intros op Hin. apply filter_In in Hin as [Hin _]. auto.
    - intros o1 o2 Hi1 Hi2. apply filter_In in Hi1 as [? _]. apply filter_In in Hi2 as [? _].
      auto.
    - clear H1 H2. induction K; simpl; auto. simpl in H3. inversion H3; subst.
      destruct (f a); auto. simpl. constructor; auto.
      intros Hin. apply H1. apply in_map_iff in Hin as (o & E & Ho).
      apply filter_In in Ho as [Ho _]. apply in_map_iff. eauto.
  Qed.

  (** The final state of the sweep gives a well-formed set of operations. *)
  Lemma reach_plan_ok mean n init P x S g :
    Permutation (ranks init) (seq 0 n) -> init <> [] ->
    reach mean init P [x] S g -> plan_ok n g.
  Proof.
    intros Hp Hne HR.
    assert (ND : NoDup (ranks init)).
    { apply (Permutation_NoDup (Permutation_sym Hp)). apply seq_NoDup. }
    destruct (reach_struct mean init P [x] S g ND Hne HR) as [Hloc Hexcl Hneq Hpairs].
    assert (Hr := reach_ranks _ _ _ _ _ _ HR).
    rewrite <- Hr in ND. unfold ranks in ND. rewrite !map_app in ND. simpl in ND.
    assert (Hin : forall k, In k (ranks P) \/ k = l_rank x \/ In k (ranks S) -> k < n).
    { intros k Hk. assert (H : In k (seq 0 n)).
      { apply (Permutation_in _ Hp). rewrite <- Hr. unfold ranks. rewrite !map_app.
        simpl. apply in_or_app. simpl. unfold ranks in Hk.
        destruct Hk as [?|[->|?]]; auto. }
      apply in_seq in H. lia. }
    simpl in Hloc, Hexcl.
    split; auto.
    - intros op Ho. destruct (Hloc op Ho) as [Hf Ht]. split; apply Hin; tauto.
    - intros o1 o2 H1 H2 E.
      destruct (Hloc o1 H1) as [[Hf|Hf] _]; destruct (Hloc o2 H2) as [_ [Ht|Ht]].
      + rewrite E in Hf. apply (NoDup_disj _ _ _ ND Ht). right. exact Hf.
      + apply NoDup_appr in ND. inversion ND; subst. apply H3. rewrite <- Ht, <- E. exact Hf.
      + apply (NoDup_disj _ _ _ ND Ht). left. congruence.
      + destruct Hexcl as [H|H]; [apply (H o1)|apply (H o2)]; auto.
  Qed.

  Lemma filter_large_involves mean my (g : list operation) :
    filter_large mean (filter (involves my) g) = filter (involves my) (filter_large mean g).
  Proof. apply filter_comm. Qed.

  (** What [getOperations] returns on each rank. *)
  Lemma getOperations_spec sortf (loads : list load) n :
    sort_contract sortf -> comparable loads = true ->
    ranks loads = seq 0 n -> loads <> [] ->
    exists P x S g,
      reach (getMean loads) (sortf loads) P [x] S g /\
      plan_ok n g /\
      forall dbg my,
        getOperations dbg sortf loads my =
        (if dbg && negb (nltb A (nabs A (nsub A (getMean (P ++ [x] ++ S)) (getMean loads)))
                           (lit A (1 # 10 ^ 7)))
         then Fatal
         else Ok (filter (involves my) (filter_large (getMean loads) g))).
  Proof.
    intros Hs Hc Hr Hne.
    destruct (Hs loads Hc) as [Hperm _].
    assert (Hlen : length (sortf loads) = length loads)
      by (symmetry; apply Permutation_length; auto).
    assert (Hne' : sortf loads <> []).
    { intros E. apply Hne. apply Permutation_nil. rewrite <- E. now apply Permutation_sym. }
    destruct (sweep_total (getMean loads) (sortf loads) Hne')
      as (P & x & S & g & HR & Hok & _).
    assert (PK : plan_ok n g).
    { eapply reach_plan_ok; [|exact Hne'|exact HR]. rewrite <- Hr.
      apply Permutation_map. now apply Permutation_sym. }
    exists P, x, S, g. split; [exact HR|]. split; [exact PK|].
    intros dbg my. unfold getOperations. rewrite Hc. cbn [negb].
    destruct (length (sortf loads)) as [|m] eqn:L.
    { apply length_zero_iff_nil in L. contradiction. }
    specialize (Hok my (Datatypes.S m)).
    cbn [Nat.sub] in Hok. rewrite Nat.sub_0_r in Hok.
    rewrite Hok by lia. cbn [bind].
    assert (HA : negb (isSender (filter (involves my) g) my &&
                       isReceiver (filter (involves my) g) my) = true).
    { apply negb_true_iff. apply not_true_iff_false. intros H.
      apply andb_true_iff in H as [H1 H2]. unfold isSender in H1.
      destruct (filter (involves my) g) as [|op l] eqn:F; [discriminate|].
      simpl in H1, H2. apply andb_true_iff in H1 as [H1 _].
      apply andb_true_iff in H2 as [H2 _].
      apply Nat.eqb_eq in H1. apply Nat.eqb_eq in H2.
      assert (Hin : In op g).
      { apply (proj1 (filter_In (involves my) op g)). rewrite F. left; auto. }
      apply (pk_roles n g PK op op Hin Hin). congruence. }
    rewrite HA. destruct dbg; cbn [runtime_assert bind andb].
    - destruct (nltb A _ _); cbn [bind negb]; auto.
      f_equal. apply filter_large_involves.
    - f_equal. apply filter_large_involves.
  Qed.

  (** ** Counting *)

  Lemma counts_le times : forall ps : list problem,
    list_sum (timesToProblemCounts times ps) <= length ps.
  Proof.
    induction times as [|t ts IH]; intros ps; simpl; [lia|].
    specialize (IH (skipn (count_while (zero A) t ps) ps)).
    rewrite skipn_length in IH.
    assert (H : forall z (qs : list problem), count_while z t qs <= length qs).
    { clear. intros z qs. revert z. induction qs; simpl; intros; [lia|].
      destruct (nleb A _ t); [|lia]. specialize (IHqs (nadd A z (p_cpuTime a))). lia. }
    specialize (H (zero A) ps). lia.
  Qed.

  Lemma counts_length times : forall ps : list problem,
    length (timesToProblemCounts times ps) = length times.
  Proof. induction times; simpl; intros; auto. Qed.

  (** ** Plans of all ranks *)

  Definition rank_loads (probs : list (list problem)) : list load :=
    map (fun ip => computeLoad (fst ip) (snd ip)) (enum probs).

  Lemma ranks_rank_loads probs : ranks (rank_loads probs) = seq 0 (length probs).
  Proof.
    unfold ranks, rank_loads. rewrite map_map. simpl. apply map_fst_enum.
  Qed.

  Lemma rank_loads_length probs : length (rank_loads probs) = length probs.
  Proof. unfold rank_loads. rewrite map_length. apply enum_length. Qed.

  Lemma nth_error_rank_loads probs i :
    nth_error (rank_loads probs) i = option_map (computeLoad i) (nth_error probs i).
  Proof.
    unfold rank_loads. rewrite nth_error_map, nth_error_enum.
    destruct (nth_error probs i); reflexivity.
  Qed.

  Lemma combine_const {T U V} (l : list T) (l' : list V) (c : U) :
    length l' = length l -> combine l (map (fun _ => c) l') = map (fun x => (x, c)) l.
  Proof.
    revert l'. induction l; destruct l'; simpl; intros; try discriminate; auto.
    f_equal. auto.
  Qed.

  Lemma plan_valid n K my ps :
    plan_ok n K -> validState n (plan_of K my ps) = true.
  Proof.
    intros PK. unfold validState, plan_of. simpl. apply andb_true_iff.
    assert (B : forall l, NoDup l -> (forall k, In k l -> k < n) -> length l <= n).
    { intros l ND Hl. rewrite <- (seq_length n 0). apply NoDup_incl_length; auto.
      intros k Hk. apply in_seq. specialize (Hl k Hk). lia. }
    destruct PK as [Hr Hx Hd].
    assert (NF : forall f (h : operation -> nat * nat),
      NoDup (map (fun op : operation => (o_from op, o_to op)) (filter f K))).
    { intros f _. apply (pk_nodup n), plan_ok_filter. split; auto. }
    split; apply Nat.leb_le; apply B.
    - specialize (NF (to_is my) (fun op => (0,0))).
      assert (E : forall op, In op (filter (to_is my) K) -> o_to op = my).
      { intros op Hop. apply filter_In in Hop as [_ H]. apply Nat.eqb_eq in H. auto. }
      induction (filter (to_is my) K) as [|o l IH]; simpl; [constructor|].
      simpl in NF. inversion NF as [|? ? Hn ND]; subst. constructor.
      + intros Hin. apply Hn. apply in_map_iff in Hin as (o' & E1 & E2).
        apply in_map_iff. exists o'. split; auto.
        rewrite (E o') by (right; auto). rewrite (E o) by (left; auto). congruence.
      + apply IH; auto. intros. apply E. right; auto.
    - intros k Hk. apply in_map_iff in Hk as (o & <- & Ho).
      apply filter_In in Ho as [Ho _]. apply Hr; auto.
    - specialize (NF (from_is my) (fun op => (0,0))).
      assert (E : forall op, In op (filter (from_is my) K) -> o_from op = my).
      { intros op Hop. apply filter_In in Hop as [_ H]. apply Nat.eqb_eq in H. auto. }
      induction (filter (from_is my) K) as [|o l IH]; simpl; [constructor|].
      simpl in NF. inversion NF as [|? ? Hn ND]; subst. constructor.
      + intros Hin. apply Hn. apply in_map_iff in Hin as (o' & E1 & E2).
        apply in_map_iff. exists o'. split; auto.
        rewrite (E o') by (right; auto). rewrite (E o) by (left; auto). congruence.
      + apply IH; auto. intros. apply E. right; auto.
    - intros k Hk. apply in_map_iff in Hk as (o & <- & Ho).
      apply filter_In in Ho as [Ho _]. apply Hr; auto.
  Qed.


  (** All ranks read their plan off one common well-formed set of operations. *)
  Lemma updateState_spec sortf (probs : list (list problem)) :
    sort_contract sortf -> comparable (rank_loads probs) = true -> probs <> [] ->
    exists P x S g,
      let loads := rank_loads probs in
      let K := filter_large (getMean loads) g in
      reach (getMean loads) (sortf loads) P [x] S g /\
      plan_ok (length probs) g /\ plan_ok (length probs) K /\
      forall dbg,
        updateState dbg sortf probs =
        (if dbg && negb (nltb A (nabs A (nsub A (getMean (P ++ [x] ++ S)) (getMean loads)))
                           (lit A (1 # 10 ^ 7)))
         then Fatal
         else Ok (map (fun ip => plan_of K (fst ip) (snd ip)) (enum probs))).
  Proof.
    intros Hs Hc Hne.
    assert (Hl : rank_loads probs <> []).
    { intros E. apply Hne. apply length_zero_iff_nil. rewrite <- rank_loads_length, E. auto. }
    destruct (getOperations_spec sortf (rank_loads probs) (length probs) Hs Hc
                (ranks_rank_loads probs) Hl) as (P & x & S & g & HR & PK & Hget).
    exists P, x, S, g. split; [exact HR|]. split; [exact PK|].
    split; [now apply plan_ok_filter|].
    intros dbg. unfold updateState.
    set (loads := rank_loads probs) in *.
    cbv zeta. fold (rank_loads probs). fold loads. unfold allGather.
    rewrite combine_const by (unfold loads; rewrite rank_loads_length; auto).
    match goal with |- _ = (if ?c then _ else _) => destruct c eqn:D end.
    - destruct probs as [|p probs']; [congruence|].
      unfold enum. simpl length. simpl seq. simpl map. simpl combine. cbn [mapM].
      unfold updateState_local. rewrite Hget, D. reflexivity.
    - assert (E : forall i ps, In (i, ps) (enum probs) ->
        updateState_local dbg sortf loads i ps
        = Ok (plan_of (filter_large (getMean loads) g) i ps)).
      { intros i ps Hin. unfold updateState_local. rewrite Hget, D. cbn [bind].
        rewrite (info_plan (length probs)) by (now apply plan_ok_filter).
        unfold setState.
        replace (validState _ _) with true.
        2:{ symmetry. unfold loads. rewrite rank_loads_length. apply plan_valid.
            now apply plan_ok_filter. }
        destruct dbg; reflexivity. }
      rewrite <- mapM_pure.
      assert (E2 : enum (map (fun x0 : list problem => (x0, loads)) probs)
                   = map (fun ip => (fst ip, (snd ip, loads))) (enum probs)).
      { apply (enum_map (fun q => (q, loads))). }
      rewrite E2. clear E2.
      assert (G : forall l, (forall i ps, In (i, ps) l -> In (i, ps) (enum probs)) ->
        mapM (fun '(i, (ps, al)) => updateState_local dbg sortf al i ps)
             (map (fun ip => (fst ip, (snd ip, loads))) l)
        = mapM (fun ip => Ok (plan_of (filter_large (getMean loads) g) (fst ip) (snd ip))) l).
      { induction l as [|[i ps] l IH]; intros Hl'; simpl; auto.
        rewrite E by (apply Hl'; left; auto). cbn [bind]. rewrite IH; auto.
        intros. apply Hl'. right; auto. }
      apply G. auto.
  Qed.

  Lemma updateState_uncomparable dbg sortf (probs : list (list problem)) sts :
    updateState dbg sortf probs = Ok sts -> probs <> [] ->
    comparable (rank_loads probs) = true.
  Proof.
    intros H Hne. destruct (comparable (rank_loads probs)) eqn:E; auto.
    exfalso. revert H. unfold updateState.
    cbv zeta. fold (rank_loads probs). unfold allGather.
    rewrite combine_const by (apply rank_loads_length).
    destruct probs as [|p probs']; [congruence|].
    unfold enum. simpl length. simpl map at 1. simpl seq. simpl combine. cbn [mapM].
    unfold updateState_local at 1, getOperations. rewrite E. simpl. discriminate.
  Qed.

  Lemma plan_of_nth K probs i st :
    nth_error (map (fun ip => plan_of K (fst ip) (snd ip)) (enum probs)) i = Some st ->
    exists ps, nth_error probs i = Some ps /\ st = plan_of K i ps.
  Proof.
    rewrite nth_error_map, nth_error_enum. destruct (nth_error probs i); simpl; [|discriminate].
    intros E. inversion E. eauto.
  Qed.

  (** Number of operations from [a] to [b]. *)
  Lemma occ_dest K a b ps :
    occurrences b (destinations (plan_of K a ps))
    = length (filter (fun op => from_is a op && to_is b op) K).
  Proof.
    unfold occurrences. simpl. induction K as [|o K IH]; simpl; auto.
    destruct (from_is a o); simpl; auto.
    destruct (Nat.eq_dec (o_to o) b) as [E|E].
    - unfold to_is at 1. rewrite (proj2 (Nat.eqb_eq _ _) E). simpl. auto.
    - unfold to_is at 1. rewrite (proj2 (Nat.eqb_neq _ _) E). auto.
  Qed.

  Lemma occ_src K a b ps :
    occurrences a (sources (plan_of K b ps))
    = length (filter (fun op => from_is a op && to_is b op) K).
  Proof.
    unfold occurrences. simpl. induction K as [|o K IH]; simpl; auto.
    destruct (to_is b o); simpl; rewrite ?andb_true_r, ?andb_false_r; auto.
    destruct (Nat.eq_dec (o_from o) a) as [E|E].
    - unfold from_is at 1. rewrite (proj2 (Nat.eqb_eq _ _) E). simpl. auto.
    - unfold from_is at 1. rewrite (proj2 (Nat.eqb_neq _ _) E). auto.
  Qed.

  Lemma occ_le1 n K a b :
    plan_ok n K -> length (filter (fun op => from_is a op && to_is b op) K) <= 1.
  Proof.
    intros PK. apply plan_ok_filter with (f := fun op => from_is a op && to_is b op) in PK.
    destruct PK as [_ _ ND].
    assert (E : forall op, In op (filter (fun op => from_is a op && to_is b op) K) ->
                (o_from op, o_to op) = (a, b)).
    { intros op Hin. apply filter_In in Hin as [_ H]. apply andb_true_iff in H as [H1 H2].
      apply Nat.eqb_eq in H1. apply Nat.eqb_eq in H2. congruence. }
    destruct (filter _ K) as [|o1 [|o2 l]]; simpl; auto.
    exfalso. simpl in ND. inversion ND as [|? ? Hn _]; subst. apply Hn. left.
    rewrite (E o1), (E o2); simpl; auto.
  Qed.
End Plans.
