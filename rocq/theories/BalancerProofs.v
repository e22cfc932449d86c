(** Proofs of the load-balancer properties C01-C06 and C08-C11. *)
From Coq Require Import List Arith ZArith QArith Qabs Qminmax Lqa Lia Bool Permutation Sorted.
From Verif Require Import Outcome Arith Problem LoadBalancing BalancerSpec SweepFacts
  PlanFacts QSum QSweep PlanQ SliceFacts.
Import ListNotations.
Local Open Scope nat_scope.

Section Any.
  Context {A : Arith}.
  Notation load := (load A).
  Notation problem := (problem A).
  Notation operation := (operation A).

  Lemma update_common dbg sortf (probs : list (list problem)) sts :
    sort_contract sortf -> updateState dbg sortf probs = Ok sts ->
    exists K : list operation, plan_ok (length probs) K /\
      sts = map (fun ip => plan_of K (fst ip) (snd ip)) (enum probs).
  Proof.
    intros Hs H. destruct probs as [|p0 probs'] eqn:E.
    - exists []. split; [split; simpl; try tauto; constructor|].
      unfold updateState in H. simpl in H. inversion H. reflexivity.
    - assert (Hne : p0 :: probs' <> []) by discriminate. rewrite <- E in *. clear E.
      assert (Hc := updateState_uncomparable dbg sortf probs sts H Hne).
      destruct (updateState_spec sortf probs Hs Hc Hne) as (P & x & S & g & _ & _ & PK & U).
      rewrite U in H. destruct (dbg && _); [discriminate|]. inversion H; subst. eauto.
  Qed.

  Lemma role_lemma dbg sortf (probs : list (list problem)) sts :
    sort_contract sortf -> updateState dbg sortf probs = Ok sts ->
    (forall a sa, nth_error sts a = Some sa -> sources sa = [] \/ destinations sa = []) /\
    (forall a b c sa sc, nth_error sts a = Some sa -> nth_error sts c = Some sc ->
       In b (destinations sa) -> ~ In b (sources sc)).
  Proof.
    intros Hs H. destruct (update_common _ _ _ _ Hs H) as (K & PK & ->). split.
    - intros a sa Ha. apply plan_of_nth in Ha as (ps & _ & ->). simpl.
      destruct (filter (to_is a) K) as [|o l] eqn:F; [left; auto|right].
      rewrite filter_none; auto. intros o' Ho'. apply Nat.eqb_neq. intros E.
      assert (Hin : In o (filter (to_is a) K)) by (rewrite F; left; auto).
      apply filter_In in Hin as [H1 H2]. apply Nat.eqb_eq in H2.
      apply (pk_roles _ _ PK o' o); congruence.
    - intros a b c sa sc Ha Hc Hb Hb'.
      apply plan_of_nth in Ha as (ps & _ & ->). apply plan_of_nth in Hc as (ps' & _ & ->).
      simpl in *. apply in_map_iff in Hb as (o & <- & Ho).
      apply in_map_iff in Hb' as (o' & E & Ho'). apply filter_In in Ho as [Ho _].
      apply filter_In in Ho' as [Ho' _]. apply (pk_roles _ _ PK o' o); congruence.
  Qed.

  Lemma symmetry_lemma dbg sortf (probs : list (list problem)) sts a b sa sb :
    sort_contract sortf -> updateState dbg sortf probs = Ok sts ->
    nth_error sts a = Some sa -> nth_error sts b = Some sb ->
    occurrences b (destinations sa) = occurrences a (sources sb) /\
    occurrences b (destinations sa) <= 1.
  Proof.
    intros Hs H Ha Hb. destruct (update_common _ _ _ _ Hs H) as (K & PK & ->).
    apply plan_of_nth in Ha as (ps & _ & ->). apply plan_of_nth in Hb as (ps' & _ & ->).
    rewrite occ_dest, occ_src. split; auto. apply (occ_le1 _ _ _ _ PK).
  Qed.

  Lemma nodup_occ l : (forall b, occurrences b l <= 1) -> NoDup l.
  Proof. intros H. apply (NoDup_count_occ Nat.eq_dec). exact H. Qed.

  Lemma wellformed_lemma dbg sortf (probs : list (list problem)) sts :
    sort_contract sortf -> updateState dbg sortf probs = Ok sts ->
    length sts = length probs /\
    forall a sa ps, nth_error sts a = Some sa -> nth_error probs a = Some ps ->
      (forall b, In b (destinations sa) \/ In b (sources sa) -> b < length probs /\ b <> a) /\
      NoDup (destinations sa) /\ NoDup (sources sa) /\
      length (nProblems sa) = length (destinations sa) /\
      (Z.of_nat (list_sum (nProblems sa)) + nRemaining sa = Z.of_nat (length ps))%Z /\
      (0 <= nRemaining sa)%Z /\
      validState (length probs) sa = true.
  Proof.
    intros Hs H. destruct (update_common _ _ _ _ Hs H) as (K & PK & ->).
    split; [rewrite map_length; apply enum_length|].
    intros a sa ps Ha Hp. apply plan_of_nth in Ha as (ps' & Hp' & ->).
    assert (ps' = ps) by congruence. subst ps'.
    split; [|split; [|split; [|split; [|split; [|split]]]]].
    - intros b [Hb|Hb]; simpl in Hb; apply in_map_iff in Hb as (o & <- & Ho);
        apply filter_In in Ho as [Ho E]; apply Nat.eqb_eq in E;
        (split; [apply (pk_range _ _ PK o Ho)|]); intros E';
        apply (pk_roles _ _ PK o o Ho Ho); congruence.
    - apply nodup_occ. intros b. rewrite occ_dest. apply (occ_le1 _ _ _ _ PK).
    - apply nodup_occ. intros b. rewrite occ_src. apply (occ_le1 _ _ _ _ PK).
    - simpl. rewrite counts_length, !map_length. reflexivity.
    - simpl. lia.
    - simpl. pose proof (counts_le (map o_value (filter (from_is a) K)) ps). lia.
    - apply plan_valid. exact PK.
  Qed.

  Lemma total_lemma sortf (probs : list (list problem)) :
    sort_contract sortf -> probs <> [] ->
    comparable (map (fun ip => computeLoad (fst ip) (snd ip)) (enum probs)) = true ->
    exists sts, updateState false sortf probs = Ok sts /\
      (updateState true sortf probs = Ok sts \/ updateState true sortf probs = Fatal).
  Proof.
    intros Hs Hne Hc.
    destruct (updateState_spec sortf probs Hs Hc Hne) as (P & x & S & g & _ & _ & _ & U).
    eexists. split; [rewrite U; simpl; reflexivity|].
    rewrite U. simpl. destruct (negb _); auto.
  Qed.

  Lemma iterations_lemma mean my (l : list load) fuel :
    l <> [] ->
    (fuel < length l - 1 -> sweep fuel mean my l (length l - 1) 0 [] = Diverge) /\
    (length l - 1 <= fuel ->
       exists final ops, sweep fuel mean my l (length l - 1) 0 [] = Ok (final, ops) /\
         map l_rank final = map l_rank l).
  Proof.
    intros H. destruct (sweep_total mean l H) as (P & x & S & g & R & H1 & H2).
    split; [apply H2|]. intros Hf. do 2 eexists. split; [apply H1; auto|].
    apply (reach_ranks _ _ _ _ _ _ R).
  Qed.

  (** The returned operations are exactly the large ones among the swept ones. *)
  Lemma filter_lemma dbg sortf (loads : list load) my ops :
    sort_contract sortf -> getOperations dbg sortf loads my = Ok ops ->
    exists final swept,
      sweep (length loads) (getMean loads) my (sortf loads) (length loads - 1) 0 []
        = Ok (final, swept) /\
      ops = filter (fun op => nltb A (nmul A (lit A (1 # 100)) (getMean loads))
                                     (o_value op)) swept.
  Proof.
    intros Hs. unfold getOperations. destruct (comparable loads) eqn:C; [|discriminate].
    cbn [negb]. destruct (Hs loads C) as [HP _].
    assert (L := Permutation_length HP). rewrite <- L.
    destruct (length loads) as [|n]; [discriminate|].
    replace (Datatypes.S n - 1) with n by lia.
    destruct (sweep (Datatypes.S n) (getMean loads) my (sortf loads) n 0 []) as [[f o]| | |];
      cbn [bind]; try discriminate.
    intros H. exists f, o. split; auto.
    destruct (runtime_assert _ _); cbn [bind] in H; try discriminate.
    destruct (runtime_assert _ _); cbn [bind] in H; try discriminate.
    inversion H. reflexivity.
  Qed.

  Lemma counts_lemma times (ps : list problem) :
    let counts := timesToProblemCounts times ps in
    length counts = length times /\
    forall i t n, nth_error times i = Some t -> nth_error counts i = Some n ->
      let rest := skipn (list_sum (firstn i counts)) ps in
      let within j := nleb A (nsum A (map p_cpuTime (firstn j rest))) t in
      n <= length rest /\
      (forall j, 1 <= j <= n -> within j = true) /\
      (n < length rest -> within (n + 1) = false).
  Proof.
    intros counts. split; [apply counts_length|].
    intros i t n Ht Hn rest within.
    assert (E := counts_nth times ps i t n Ht Hn). fold counts in E. fold rest in E.
    destruct (count_while_spec t rest (zero A)) as [H1 H2].
    assert (R : forall j, within j = nleb A (running_sum (zero A) j rest) t).
    { intros j. unfold within, running_sum, nsum, sum_from. f_equal.
      generalize (zero A). generalize (firstn j rest). intros l.
      induction l; simpl; intros; auto. }
    subst n. split; [apply count_while_le|]. split.
    - intros j Hj. rewrite R. auto.
    - intros Hl. rewrite R, Nat.add_1_r. auto.
  Qed.

  Lemma partition_lemma dbg sortf (probs : list (list problem)) sts a sa ps {T} (values : list T) :
    sort_contract sortf -> updateState dbg sortf probs = Ok sts ->
    nth_error sts a = Some sa -> nth_error probs a = Some ps ->
    length values = length ps ->
    exists slices rest,
      mapM (sendbuffer_at values (nProblems sa)) (seq 0 (length (destinations sa))) = Ok slices /\
      getRemaining sa values = Ok rest /\
      map (@length T) slices = nProblems sa /\
      concat slices ++ rest = values.
  Proof.
    intros Hs H Ha Hp L. destruct (update_common _ _ _ _ Hs H) as (K & PK & ->).
    apply plan_of_nth in Ha as (ps' & Hp' & ->).
    assert (ps' = ps) by congruence. subst ps'.
    unfold plan_of. simpl nProblems. simpl destinations.
    set (counts := timesToProblemCounts _ ps).
    assert (Hle : list_sum counts <= length values)
      by (rewrite L; apply counts_le).
    exists (cut counts values), (skipn (list_sum counts) values).
    assert (Hcl : length (map o_to (filter (from_is a) K)) = length counts).
    { unfold counts. rewrite counts_length, !map_length. reflexivity. }
    rewrite Hcl, mapM_sendbuffer by auto. split; auto. split.
    - rewrite <- L. apply getRemaining_skip. auto.
    - split; [|apply cut_concat].
      clear -Hle. revert values Hle. induction counts as [|n ns IH]; intros v Hle; simpl; auto.
      simpl in Hle. rewrite IH by (rewrite skipn_length; lia).
      f_equal. rewrite firstn_length. lia.
  Qed.
End Any.

Lemma Ok_pair_inj {S T} (a c : S) (b e : T) : Ok (a, b) = Ok (c, e) -> a = c /\ b = e.
Proof. intros H. inversion H. auto. Qed.

Section Exact.
  Context (sm gr vg : Q) (Hsm : (0 < sm)%Q).
  Notation AQ := (QA sm gr vg).
  Local Open Scope Q_scope.

  Lemma filter_from_inv k c (g : list (operation AQ)) :
    filter (fun op => Nat.eqb (o_from op) k)
      (filter (involves k) (filter (fun op : operation AQ => Qltb c (o_value op)) g))
    = filter (fun op => from_is k op && keptb sm gr vg c op) g.
  Proof.
    rewrite !filter_filter. apply filter_ext. intros op. unfold involves, from_is, keptb, qo.
    destruct (Nat.eqb (o_from op) k); simpl; rewrite ?andb_true_r, ?andb_false_r; auto.
  Qed.

  Lemma filter_to_inv k c (g : list (operation AQ)) :
    filter (fun op => Nat.eqb (o_to op) k)
      (filter (involves k) (filter (fun op : operation AQ => Qltb c (o_value op)) g))
    = filter (fun op => to_is k op && keptb sm gr vg c op) g.
  Proof.
    rewrite !filter_filter. apply filter_ext. intros op. unfold involves, to_is, keptb, qo.
    destruct (Nat.eqb (o_to op) k); simpl; rewrite ?orb_true_r, ?andb_true_r, ?andb_false_r; auto.
  Qed.

  Lemma ranks_nonempty n (loads : list (load AQ)) l :
    map l_rank loads = seq 0 n -> In l loads -> loads <> [].
  Proof. intros _ H E. subst. contradiction. Qed.

  (** Both bounds on the returned operations at once. *)
  Lemma getOps_exact dbg sortf (loads : list (load AQ)) n l ops :
    sort_contract sortf -> map l_rank loads = seq 0 n -> In l loads ->
    (forall x, In x (load_values loads) -> 0 <= x) ->
    getOperations dbg sortf loads (l_rank l) = Ok ops ->
    let m := Qmean (load_values loads) in
    let N := inject_Z (Z.of_nat (n - 1)) in
    given (l_rank l) ops <= Qmax 0 (l_value l - m) /\
    taken (l_rank l) ops <= Qmax 0 (m - l_value l) /\
    Qabs (l_value l - given (l_rank l) ops + taken (l_rank l) ops - m)
      <= N * sm + N * (m * (1 # 100) + N * sm).
  Proof.
    intros Hs Hr Hl Hnn H m N.
    assert (Hne := ranks_nonempty n loads l Hr Hl).
    destruct (getOperations_spec sortf loads n Hs (comparable_Q sm gr vg loads) Hr Hne)
      as (P & x & S & g & HR & PK & HG).
    rewrite HG in H. destruct (dbg && _); [discriminate|]. inversion H; subst ops. clear H HG.
    assert (Em : (getMean loads : Q) == m) by apply getMean_Q.
    assert (Hm : 0 <= m) by (apply Qmean_nonneg; auto).
    set (c := (1 # 100) * (getMean loads : Q)).
    assert (Hc : 0 <= c) by (unfold c; rewrite Em; lra).
    destruct (kept_bounds sm gr vg Hsm sortf Hs loads n Hr Hne c P x S g l Hc HR Hl) as [B1 B2].
    assert (B3 := final_kept sm gr vg Hsm sortf Hs loads n Hr Hne c P x S g l Hc PK HR Hl).
    cbv zeta in B3. fold N in B3.
    match goal with |- given _ ?X <= _ /\ _ =>
      change X with (filter (involves (l_rank l))
                       (filter (fun op : operation AQ => Qltb c (o_value op)) g)) end.
    assert (G : given (l_rank l) (filter (involves (l_rank l))
                  (filter (fun op : operation AQ => Qltb c (o_value op)) g))
                = sentK sm gr vg c (l_rank l) g).
    { unfold given. rewrite filter_from_inv. reflexivity. }
    assert (T : taken (l_rank l) (filter (involves (l_rank l))
                  (filter (fun op : operation AQ => Qltb c (o_value op)) g))
                = recvK sm gr vg c (l_rank l) g).
    { unfold taken. rewrite filter_to_inv. reflexivity. }
    rewrite G, T. unfold qv in *. rewrite Em in B1, B2, B3.
    split; [exact B1|]. split; [exact B2|].
    eapply Qle_trans; [exact B3|]. unfold c. rewrite Em.
    assert (E : (1 # 100) * m == m * (1 # 100)) by lra. rewrite E. apply Qle_refl.
  Qed.

  (** Loads after all swept operations. *)
  Lemma sweep_exact sortf (loads : list (load AQ)) n my final ops :
    sort_contract sortf -> map l_rank loads = seq 0 n ->
    sweep (length loads) (getMean loads) my (sortf loads) (length loads - 1) 0 []
      = Ok (final, ops) ->
    loads <> [] ->
    let m := Qmean (load_values loads) in
    let N := inject_Z (Z.of_nat (n - 1)) in
    Permutation (map l_rank final) (seq 0 n) /\
    (forall l, In l final -> Qabs (l_value l - m) <= N * sm) /\
    (exists r, forall l, In l final -> l_rank l <> r -> m <= l_value l) /\
    (forall l, In l loads -> l_rank l = my ->
       exists l', In l' final /\ l_rank l' = my /\
         l_value l' == l_value l - given my ops + taken my ops) /\
    Qmean (load_values final) == m.
  Proof.
    intros Hs Hr Hsw Hne m N.
    assert (HP := perm_sorted sm gr vg sortf Hs loads).
    assert (L : length (sortf loads) = length loads)
      by (symmetry; apply Permutation_length; auto).
    assert (Hne' : sortf loads <> []) by (apply (sorted_ne sm gr vg sortf Hs); auto).
    destruct (sweep_total (A := AQ) (getMean loads) (sortf loads) Hne')
      as (P & x & S & g & HR & Hok & _).
    rewrite <- L in Hsw. rewrite Hok in Hsw by lia. apply Ok_pair_inj in Hsw as [<- <-]. clear Hok.
    assert (Em : (getMean loads : Q) == m) by apply getMean_Q.
    assert (ND := sorted_nodup sm gr vg sortf Hs loads n Hr).
    assert (HB := reach_book sm gr vg (getMean loads) _ _ _ _ _ ND HR).
    assert (Hrk := reach_ranks _ _ _ _ _ _ HR).
    assert (Hfl := final_loads sm gr vg Hsm sortf Hs loads n Hr Hne P x S g).
    assert (Bk : forall l, In l (P ++ [x] ++ S) -> exists l0, In l0 loads /\
              l_rank l0 = l_rank l /\
              l_value l == l_value l0 - given (l_rank l0) g + taken (l_rank l0) g).
    { intros l Hl. clear -HB Hl HP.
      assert (G : exists l0, In l0 (sortf loads) /\ booked sm gr vg g l l0).
      { clear HP. induction HB as [|a b La Lb Hab HB IH]; [contradiction|].
        destruct Hl as [<-|Hl]; [exists b; split; auto; left; auto|].
        destruct (IH Hl) as (l0 & ? & ?). exists l0. split; auto. right; auto. }
      destruct G as (l0 & G1 & G2 & G3). exists l0. split.
      - apply (Permutation_in _ (Permutation_sym HP)); auto.
      - split; [congruence|]. rewrite <- G2. exact G3. }
    split; [|split; [|split; [|split]]].
    - unfold ranks in Hrk. etransitivity; [rewrite Hrk; apply Permutation_refl|].
      rewrite <- Hr. apply Permutation_map. apply Permutation_sym. exact HP.
    - intros l Hl. destruct (Bk l Hl) as (l0 & H1 & H2 & H3).
      destruct (Hfl l0 HR H1) as (F1 & F2 & _). unfold qv in *. fold N in F1, F2.
      rewrite Em in F1, F2.
      apply Qabs_Qle_condition. rewrite H3. split; lra.
    - exists (l_rank x). intros l Hl Hx. destruct (Bk l Hl) as (l0 & H1 & H2 & H3).
      destruct (Hfl l0 HR H1) as (_ & _ & F3). unfold qv in *.
      assert (F := F3 ltac:(congruence)). rewrite Em in F. rewrite H3. lra.
    - intros l Hl Hmy. subst my.
      assert (In (l_rank l) (ranks (P ++ [x] ++ S))).
      { rewrite Hrk. apply in_map. apply (Permutation_in _ HP). auto. }
      apply in_map_iff in H as (l' & E1 & E2). exists l'. split; auto. split; auto.
      destruct (Bk l' E2) as (l0 & H1 & H2 & H3).
      assert (l0 = l).
      { assert (NDl : NoDup (map l_rank loads)) by (rewrite Hr; apply seq_NoDup).
        clear -NDl H1 Hl H2 E1. rewrite E1 in H2. induction loads as [|a L IH]; [contradiction|].
        simpl in NDl. inversion NDl; subst.
        destruct H1 as [<-|H1], Hl as [<-|Hl]; auto.
        - exfalso. apply H3. rewrite H2. apply in_map. auto.
        - exfalso. apply H3. rewrite <- H2. apply in_map. auto. }
      subst l0. rewrite H3.
      assert (Gv : given (l_rank l) (filter (involves (l_rank l)) g) = given (l_rank l) g).
      { unfold given. rewrite filter_filter. do 2 f_equal. apply filter_ext. intros o.
        unfold involves. destruct (Nat.eqb (o_from o) (l_rank l)); auto.
        simpl. rewrite ?andb_false_r. auto. }
      assert (Tk : taken (l_rank l) (filter (involves (l_rank l)) g) = taken (l_rank l) g).
      { unfold taken. rewrite filter_filter. do 2 f_equal. apply filter_ext. intros o.
        unfold involves. destruct (Nat.eqb (o_to o) (l_rank l)); auto; simpl;
        rewrite ?orb_true_r, ?andb_false_r; auto. }
      rewrite Gv, Tk. reflexivity.
    - rewrite <- getMean_Q, (mean_after sm gr vg sortf Hs loads P x S g HR). apply getMean_Q.
  Qed.

  (** One list of transfers, of which every rank gets its own above the threshold,
      equalises the loads. *)
  Lemma plan_exact sortf (loads : list (load AQ)) n :
    sort_contract sortf -> map l_rank loads = seq 0 n -> loads <> [] ->
    let m := Qmean (load_values loads) in
    let N := inject_Z (Z.of_nat (n - 1)) in
    exists plan : list (operation AQ),
      (forall dbg my ops, getOperations dbg sortf loads my = Ok ops ->
         ops = filter (fun op : operation AQ =>
                         (Nat.eqb (o_from op) my || Nat.eqb (o_to op) my)
                         && Qltb ((1 # 100) * m) (o_value op)) plan) /\
      (forall l, In l loads ->
         Qabs (l_value l - given (l_rank l) plan + taken (l_rank l) plan - m) <= N * sm) /\
      (exists r, forall l, In l loads -> l_rank l <> r ->
         m <= l_value l - given (l_rank l) plan + taken (l_rank l) plan).
  Proof.
    intros Hs Hr Hne m N.
    destruct (getOperations_spec sortf loads n Hs (comparable_Q sm gr vg loads) Hr Hne)
      as (P & x & S & g & HR & PK & HG).
    assert (Em : (getMean loads : Q) == m) by apply getMean_Q.
    assert (Hfl := final_loads sm gr vg Hsm sortf Hs loads n Hr Hne P x S g).
    exists g. split; [|split].
    - intros dbg my ops H. rewrite HG in H. destruct (dbg && _); [discriminate|].
      inversion H; subst ops. clear H. unfold filter_large. rewrite filter_filter.
      apply filter_ext. intros o.
      change (nltb AQ (nmul AQ (lit AQ (1 # 100)) (getMean loads)) (o_value o))
        with (Qltb ((1 # 100) * (getMean loads : Q)) (o_value o)).
      unfold involves. rewrite andb_comm. f_equal.
      destruct (Qltb ((1 # 100) * m) (o_value o)) eqn:E.
      + apply Qltb_true. apply Qltb_true in E. rewrite Em. exact E.
      + apply Qltb_false. apply Qltb_false in E. rewrite Em. exact E.
    - intros l Hl. destruct (Hfl l HR Hl) as (F1 & F2 & _). fold N in F1, F2.
      unfold qv in *. rewrite Em in F1, F2. apply Qabs_Qle_condition. split; lra.
    - exists (l_rank x). intros l Hl Hx. destruct (Hfl l HR Hl) as (_ & _ & F3).
      assert (F := F3 Hx). unfold qv in *. rewrite Em in F. lra.
  Qed.

  Lemma assertion_lemma sortf (loads : list (load AQ)) n my :
    sort_contract sortf -> map l_rank loads = seq 0 n -> loads <> [] ->
    exists ops, getOperations false sortf loads my = Ok ops /\
                getOperations true sortf loads my = Ok ops.
  Proof.
    intros Hs Hr Hne.
    destruct (getOperations_spec sortf loads n Hs (comparable_Q sm gr vg loads) Hr Hne)
      as (P & x & S & g & HR & PK & HG).
    assert (E := mean_after sm gr vg sortf Hs loads P x S g HR).
    assert (Lt : nltb AQ (nabs AQ (nsub AQ (getMean (P ++ [x] ++ S)) (getMean loads)))
                   (lit AQ (1 # 10 ^ 7)) = true).
    { apply Qltb_true. change (Qabs (getMean (P ++ [x] ++ S) - getMean loads) < (1 # 10 ^ 7)).
      setoid_replace ((getMean (P ++ [x] ++ S) : Q) - getMean loads) with 0
        by (rewrite E; ring).
      reflexivity. }
    eexists. split; rewrite HG; [cbn [andb]; reflexivity|].
    cbn [andb]. rewrite Lt. reflexivity.
  Qed.

  (** No transfer between equal loads. *)
  Lemma equal_lemma dbg sortf (loads : list (load AQ)) n my v ops :
    sort_contract sortf -> map l_rank loads = seq 0 n ->
    (forall l, In l loads -> l_value l == v) -> 0 <= v ->
    getOperations dbg sortf loads my = Ok ops -> ops = [].
  Proof.
    intros Hs Hr Heq Hv H.
    destruct loads as [|l0 loads'] eqn:EL.
    { exfalso. unfold getOperations in H. simpl in H.
      destruct (Hs [] eq_refl) as [HP _]. apply Permutation_nil in HP.
      rewrite HP in H. simpl in H. discriminate. }
    rewrite <- EL in *. assert (Hne : loads <> []) by (rewrite EL; discriminate).
    assert (Hin0 : In l0 loads) by (rewrite EL; left; auto). clear EL.
    destruct (getOperations_spec sortf loads n Hs (comparable_Q sm gr vg loads) Hr Hne)
      as (P & x & S & g & HR & PK & HG).
    rewrite HG in H. destruct (dbg && _); [discriminate|]. inversion H; subst ops. clear H HG.
    assert (Em : (getMean loads : Q) == v).
    { rewrite getMean_Q. unfold Qmean.
      assert (E : Qsum (load_values loads) == inject_Z (Z.of_nat (length loads)) * v).
      { clear -Heq. induction loads as [|l L IH]; [reflexivity|].
        simpl load_values. unfold load_values in *. cbn [map Qsum length].
        rewrite IH by (intros; apply Heq; right; auto).
        rewrite (Heq l (or_introl eq_refl)). rewrite Nat2Z.inj_succ, <- Z.add_1_r, inject_Z_plus.
        change (inject_Z 1) with 1. ring. }
      rewrite E. unfold load_values. rewrite map_length.
      assert (0 < inject_Z (Z.of_nat (length loads))).
      { destruct loads; [congruence|]. apply inject_nat_pos. simpl. lia. }
      field. lra. }
    (* every load in the sweep stays at v and every operation is 0 *)
    assert (HP := perm_sorted sm gr vg sortf Hs loads).
    assert (Inv : forall (init P W S : list (load AQ)) (g : list (operation AQ)), (forall l, In l init -> l_value l == v) ->
              reach (A := AQ) (getMean loads) init P W S g ->
              (forall l, In l (P ++ W ++ S) -> l_value l == v) /\
              (forall o, In o g -> o_value o == 0)).
    { clear -Em. intros init P W S g Hi R.
      assert (Xf : forall a b : load AQ, l_value a == v -> l_value b == v ->
                   qx sm gr vg (getMean loads) a b == 0).
      { intros a b Ha Hb. destruct (qx_cases sm gr vg (getMean loads) a b) as [[_ E]|[_ E]];
          rewrite E; unfold qv; lra. }
      induction R as [|P a M b S g R [IH1 IH2] D|P a M b S g R [IH1 IH2] D].
      - rewrite app_nil_r. split; auto. intros o [].
      - assert (Ha := IH1 a ltac:(rewrite !in_app_iff; simpl; auto)).
        assert (Hb := IH1 b ltac:(rewrite !in_app_iff; simpl; rewrite in_app_iff; simpl; tauto)).
        assert (X := Xf a b Ha Hb). split.
        + intros l Hl. rewrite !in_app_iff in Hl. simpl in Hl.
          destruct Hl as [Hl|[[<-|Hl]|[<-|Hl]]].
          * apply IH1. rewrite !in_app_iff. tauto.
          * simpl. change (l_value a + qx sm gr vg (getMean loads) a b == v). lra.
          * apply IH1. rewrite !in_app_iff. simpl. rewrite in_app_iff. tauto.
          * simpl. change (l_value b - qx sm gr vg (getMean loads) a b == v). lra.
          * apply IH1. rewrite !in_app_iff. tauto.
        + intros o Ho. apply in_app_iff in Ho as [Ho|[<-|[]]]; auto.
      - assert (Ha := IH1 a ltac:(rewrite !in_app_iff; simpl; auto)).
        assert (Hb := IH1 b ltac:(rewrite !in_app_iff; simpl; rewrite in_app_iff; simpl; tauto)).
        assert (X := Xf a b Ha Hb). split.
        + intros l Hl. rewrite !in_app_iff in Hl. simpl in Hl.
          destruct Hl as [[Hl|[<-|[]]]|[[Hl|[<-|[]]]|Hl]].
          * apply IH1. rewrite !in_app_iff. tauto.
          * simpl. change (l_value a + qx sm gr vg (getMean loads) a b == v). lra.
          * apply IH1. rewrite !in_app_iff. simpl. rewrite in_app_iff. tauto.
          * simpl. change (l_value b - qx sm gr vg (getMean loads) a b == v). lra.
          * apply IH1. rewrite !in_app_iff. tauto.
        + intros o Ho. apply in_app_iff in Ho as [Ho|[<-|[]]]; auto. }
    destruct (Inv (sortf loads) P [x] S g) as [_ Hz]; auto.
    { intros l Hl. apply Heq. apply (Permutation_in _ (Permutation_sym HP)). auto. }
    unfold filter_large. rewrite (filter_none _ g); auto.
    intros o Ho. apply Qltb_false. simpl. rewrite (Hz o Ho), Em. lra.
  Qed.
End Exact.

(** The two halves of [getOps_exact]. *)
Lemma bounds_lemma sm gr vg : (0 < sm)%Q ->
  forall dbg sortf (loads : list (load (QA sm gr vg))) n l ops,
    sort_contract sortf -> map l_rank loads = seq 0 n -> In l loads ->
    (forall x, In x (load_values loads) -> (0 <= x)%Q) ->
    getOperations dbg sortf loads (l_rank l) = Ok ops ->
    let m := Qmean (load_values loads) in
    (given (l_rank l) ops <= Qmax 0 (l_value l - m))%Q /\
    (taken (l_rank l) ops <= Qmax 0 (m - l_value l))%Q.
Proof.
  intros Hsm dbg sortf loads n l ops Hs Hr Hl Hnn H m.
  destruct (getOps_exact sm gr vg Hsm dbg sortf loads n l ops Hs Hr Hl Hnn H) as (B1 & B2 & _).
  split; assumption.
Qed.

Lemma kept_lemma sm gr vg : (0 < sm)%Q ->
  forall dbg sortf (loads : list (load (QA sm gr vg))) n l ops,
    sort_contract sortf -> map l_rank loads = seq 0 n -> In l loads ->
    (forall x, In x (load_values loads) -> (0 <= x)%Q) ->
    getOperations dbg sortf loads (l_rank l) = Ok ops ->
    let m := Qmean (load_values loads) in
    let N := inject_Z (Z.of_nat (n - 1)) in
    (Qabs (l_value l - given (l_rank l) ops + taken (l_rank l) ops - m)
      <= N * sm + N * (m * (1 # 100) + N * sm))%Q.
Proof.
  intros Hsm dbg sortf loads n l ops Hs Hr Hl Hnn H m N.
  destruct (getOps_exact sm gr vg Hsm dbg sortf loads n l ops Hs Hr Hl Hnn H) as (_ & _ & B3).
  exact B3.
Qed.

(** ** IEEE witness for the 'Vanishing load' assertion *)

(** Four loads near 8e8 (decimal literals rounded to binary64). *)
Definition vanishing_loads : list (load F64) :=
  [ @mkLoad F64 0 (f64_of_Q (8000000001 # 10));
    @mkLoad F64 1 (f64_of_Q (9000000001 # 10));
    @mkLoad F64 2 (f64_of_Q (7000000000 # 10));
    @mkLoad F64 3 (f64_of_Q (8000000006 # 10)) ].

Lemma vanishing_witness :
  exists (loads : list (load F64)),
    map l_rank loads = seq 0 4 /\
    (forall my, exists ops, getOperations false isort loads my = Ok ops) /\
    (forall my, getOperations true isort loads my = Fatal).
Proof.
  exists vanishing_loads. split; [reflexivity|].
  assert (Hc : comparable vanishing_loads = true) by (vm_compute; reflexivity).
  destruct (getOperations_spec isort vanishing_loads 4 isort_contract Hc eq_refl
              ltac:(discriminate)) as (P & x & S & g & _ & _ & HG).
  assert (F0 : getOperations true isort vanishing_loads 0 = Fatal) by (vm_compute; reflexivity).
  rewrite HG in F0.
  split; intros my.
  - eexists. rewrite HG. cbn [andb]. reflexivity.
  - rewrite HG. destruct (true && _); [reflexivity|discriminate].
Qed.
