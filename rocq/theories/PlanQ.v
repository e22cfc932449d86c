(** Consequences of the exact-arithmetic invariant for the operations returned by
    LoadBalancer::getOperations. *)
From Coq Require Import List Arith ZArith QArith Qabs Qminmax Lqa Lia Bool Permutation Sorted.
From Verif Require Import Outcome Arith Problem LoadBalancing BalancerSpec SweepFacts
  PlanFacts QSum QSweep.
Import ListNotations.
Local Open Scope Q_scope.

(** ** Specification vocabulary (exact arithmetic) *)

(** Arithmetic mean of a list of rationals. *)
Definition Qmean (l : list Q) : Q := Qsum l / inject_Z (Z.of_nat (length l)).

(** Load values of a list of loads. *)
Definition load_values {sm gr vg} (loads : list (load (QA sm gr vg))) : list Q :=
  map (fun l => l_value l) loads.

(** Total value of the operations that take load away from rank [k]. *)
Definition given {sm gr vg} (k : nat) (ops : list (operation (QA sm gr vg))) : Q :=
  Qsum (map (fun op => o_value op) (filter (fun op => Nat.eqb (o_from op) k) ops)).

(** Total value of the operations that bring load to rank [k]. *)
Definition taken {sm gr vg} (k : nat) (ops : list (operation (QA sm gr vg))) : Q :=
  Qsum (map (fun op => o_value op) (filter (fun op => Nat.eqb (o_to op) k) ops)).

Section PlanQ.
  Context (sm gr vg : Q) (Hsm : 0 < sm).
  Notation AQ := (QA sm gr vg).
  Notation load := (load AQ).
  Notation operation := (operation AQ).

  Lemma comparable_Q (loads : list load) : comparable loads = true.
  Proof.
    unfold comparable. apply forallb_forall. intros a _.
    assert (T : forall x y : load, load_lt x y = true <-> qv sm gr vg x < qv sm gr vg y).
    { intros. apply Qltb_true. }
    assert (F : forall x y : load, load_lt x y = false <-> qv sm gr vg y <= qv sm gr vg x).
    { intros. apply Qltb_false. }
    apply andb_true_iff; split.
    { apply negb_true_iff. apply F. lra. }
    apply forallb_forall. intros b _. apply andb_true_iff; split.
    { apply negb_true_iff. destruct (load_lt a b) eqn:E; auto.
      apply T in E. apply F. lra. }
    apply forallb_forall. intros c _. apply andb_true_iff; split.
    - destruct (load_lt a b) eqn:E1; auto. destruct (load_lt b c) eqn:E2; auto. simpl.
      apply T in E1. apply T in E2. apply T. lra.
    - destruct (load_lt a b) eqn:E1; auto. destruct (load_lt b a) eqn:E2; auto.
      destruct (load_lt b c) eqn:E3; auto. destruct (load_lt c b) eqn:E4; auto. simpl.
      apply F in E1. apply F in E2. apply F in E3. apply F in E4.
      apply andb_true_iff; split; apply negb_true_iff; apply F; lra.
  Qed.

  Lemma getMean_Q (loads : list load) : (getMean loads : Q) == Qmean (load_values loads).
  Proof.
    unfold getMean, Qmean, load_values. simpl.
    rewrite map_length. unfold Qdiv. apply Qmult_comp; [|reflexivity].
    change (fold_left (fun sum l => sum + qv sm gr vg l) loads 0 == Qsumf (qv sm gr vg) loads).
    rewrite fold_left_Qsumf. lra.
  Qed.

  Lemma Qmean_perm l1 l2 : Permutation l1 l2 -> Qmean l1 == Qmean l2.
  Proof.
    intros H. unfold Qmean. rewrite (Permutation_length H).
    assert (E : Qsum l1 == Qsum l2); [|rewrite E; reflexivity].
    induction H; simpl; lra.
  Qed.

  Lemma Qmean_nonneg l : (forall x, In x l -> 0 <= x) -> 0 <= Qmean l.
  Proof.
    intros H. unfold Qmean.
    assert (0 <= Qsum l).
    { assert (G := Qsumf_nonneg (fun x => x) l H). unfold Qsumf in G.
      rewrite map_id in G. exact G. }
    destruct l as [|x l].
    - simpl. unfold Qdiv. lra.
    - apply Qle_shift_div_l; [apply inject_nat_pos; simpl; lia|]. lra.
  Qed.

  Lemma sum_dev (loads : list load) m :
    loads <> [] -> m == Qmean (load_values loads) ->
    Qsumf (d sm gr vg m) loads == 0.
  Proof.
    intros Hne Hm.
    assert (E : Qsumf (d sm gr vg m) loads
                == Qsumf (qv sm gr vg) loads - Qsumf (fun _ => m) loads).
    { rewrite <- Qsumf_minus. apply Qsumf_ext. reflexivity. }
    rewrite E, Qsumf_const, Hm. unfold Qmean, load_values. rewrite map_length.
    change (Qsum (map (fun l : load => l_value l) loads)) with (Qsumf (qv sm gr vg) loads).
    assert (0 < inject_Z (Z.of_nat (length loads))).
    { apply inject_nat_pos. destruct loads; [congruence|simpl; lia]. }
    field. lra.
  Qed.

  Lemma sorted_lt_d m (l : list load) :
    StronglySorted (fun a b => load_lt b a = false) l -> sorted_d sm gr vg m l.
  Proof.
    induction 1 as [|a l H IH Hall]; constructor; auto.
    rewrite Forall_forall in *. intros x Hx. specialize (Hall x Hx).
    apply Qltb_false in Hall. unfold d, qv. lra.
  Qed.

  Section Plan.
    Context (sortf : list load -> list load) (Hsort : sort_contract sortf).
    Context (loads : list load) (n : nat)
      (Hranks : ranks loads = seq 0 n) (Hne : loads <> []).
    Let m : Q := getMean loads.

    Lemma perm_sorted : Permutation loads (sortf loads).
    Proof. apply Hsort. apply comparable_Q. Qed.

    Lemma sorted_ne : sortf loads <> [].
    Proof.
      intros E. apply Hne. apply Permutation_nil. rewrite <- E.
      apply Permutation_sym, perm_sorted.
    Qed.

    Lemma sorted_nodup : NoDup (ranks (sortf loads)).
    Proof.
      apply (Permutation_NoDup (l := ranks loads)).
      - apply Permutation_map, perm_sorted.
      - rewrite Hranks. apply seq_NoDup.
    Qed.

    Lemma sorted_sum : Qsumf (d sm gr vg m) (sortf loads) == 0.
    Proof.
      rewrite <- (Qsumf_perm _ _ _ perm_sorted). apply sum_dev; auto.
      apply getMean_Q.
    Qed.

    Lemma sorted_ok : sorted_d sm gr vg m (sortf loads).
    Proof. apply sorted_lt_d. apply Hsort. apply comparable_Q. Qed.

    (** Bounds on what is kept, for every threshold. *)
    Lemma kept_bounds c P x S g l :
      0 <= c ->
      reach (A := AQ) m (sortf loads) P [x] S g -> In l loads ->
      sentK sm gr vg c (l_rank l) g <= Qmax 0 (qv sm gr vg l - m) /\
      recvK sm gr vg c (l_rank l) g <= Qmax 0 (m - qv sm gr vg l).
    Proof.
      intros Hc HR Hl.
      assert (Hin : In l (sortf loads)) by (apply (Permutation_in _ perm_sorted); auto).
      destruct (reach_qinv sm gr vg Hsm m c Hc _ _ _ _ _ sorted_nodup sorted_ne sorted_ok
                  sorted_sum HR) as [(P0 & W0 & S0 & Hinit & HP & HS & HW)].
      assert (Hstr := reach_struct (A := AQ) m _ _ _ _ _ sorted_nodup sorted_ne HR).
      destruct Hstr as [Hloc _ _ _]. simpl in Hloc.
      assert (Hr := reach_ranks _ _ _ _ _ _ HR).
      assert (ND := sorted_nodup). rewrite <- Hr in ND.
      unfold ranks in ND. rewrite !map_app in ND. simpl in ND.
      assert (Hd : - d sm gr vg m l == m - qv sm gr vg l) by (unfold d; lra).
      assert (Hmx : Qmax 0 (m - qv sm gr vg l) == Qmax 0 (- d sm gr vg m l))
        by (rewrite Hd; reflexivity).
      rewrite Hmx. change (qv sm gr vg l - m) with (d sm gr vg m l).
      rewrite Hinit in Hin. apply in_app_or in Hin as [Hin|Hin].
      - (* a filled receiver *)
        assert (G : exists p, In p P /\ l_rank p = l_rank l /\
                    recvK sm gr vg c (l_rank p) g <= Qmax 0 (- d sm gr vg m l)).
        { clear - HP Hin. induction HP as [|p p0 P P0 (H1 & H2 & H3) HP IH]; [contradiction|].
          destruct Hin as [<-|Hin].
          - exists p. repeat split; auto. left; auto.
          - destruct (IH Hin) as (q & Q1 & Q2 & Q3). exists q. repeat split; auto. right; auto. }
        destruct G as (p & G1 & G2 & G3). rewrite G2 in G3. split; auto.
        assert (Z : sentK sm gr vg c (l_rank l) g == 0).
        { apply vsum_none. intros o Ho. apply andb_false_iff. left. apply Nat.eqb_neq.
          intros E. apply (in_map l_rank) in G1.
          apply (NoDup_disj _ _ _ ND G1). rewrite G2, <- E.
          destruct (Hloc o Ho) as [[H|H] _]; [right; exact H|left; auto]. }
        rewrite Z. apply Q.le_max_l.
      - destruct HW as [(y & x0 & E & -> & Rx & Hrx & Hsx)|(a & a0 & M & b & b0 & E & _)].
        2:{ exfalso. destruct M; discriminate. }
        injection E as <-. simpl in Hin. destruct Hin as [<-|Hin].
        + rewrite <- Rx. split; auto.
        + assert (G : exists p, In p S /\ l_rank p = l_rank l /\
                    sentK sm gr vg c (l_rank p) g <= Qmax 0 (d sm gr vg m l)).
          { clear - HS Hin. induction HS as [|p p0 S S0 (H1 & H2 & H3 & H4) HS IH]; [contradiction|].
            destruct Hin as [<-|Hin].
            - exists p. repeat split; auto. left; auto.
            - destruct (IH Hin) as (q & Q1 & Q2 & Q3). exists q. repeat split; auto. right; auto. }
          destruct G as (p & G1 & G2 & G3). rewrite G2 in G3. split; auto.
          assert (Z : recvK sm gr vg c (l_rank l) g == 0).
          { apply vsum_none. intros o Ho. apply andb_false_iff. left. apply Nat.eqb_neq.
            intros E. apply (in_map l_rank) in G1.
            destruct (Hloc o Ho) as [_ [H|H]].
            - apply (NoDup_disj _ _ _ ND H). right. rewrite E, <- G2. exact G1.
            - apply NoDup_appr in ND. inversion ND; subst. apply H2.
              rewrite <- H, E, <- G2. exact G1. }
          rewrite Z. apply Q.le_max_l.
    Qed.

    (** Final loads after all operations of the sweep. *)
    Lemma final_loads P x S g l :
      reach (A := AQ) m (sortf loads) P [x] S g -> In l loads ->
      let after := qv sm gr vg l - given (l_rank l) g + taken (l_rank l) g in
      - (inject_Z (Z.of_nat (n - 1)) * sm) <= after - m /\
      after - m <= inject_Z (Z.of_nat (n - 1)) * sm /\
      (l_rank l <> l_rank x -> 0 <= after - m).
    Proof.
      intros HR Hl after.
      assert (Hin : In l (sortf loads)) by (apply (Permutation_in _ perm_sorted); auto).
      assert (Hbook := reach_book sm gr vg m _ _ _ _ _ sorted_nodup HR).
      destruct (reach_qinv sm gr vg Hsm m 0 (Qle_refl 0) _ _ _ _ _ sorted_nodup sorted_ne
                  sorted_ok sorted_sum HR) as [(P0 & W0 & S0 & Hinit & HP & HS & HW)].
      assert (Hsum := reach_sum sm gr vg m _ _ _ _ _ HR).
      rewrite sorted_sum in Hsum.
      assert (HPz : forall p, In p P -> d sm gr vg m p == 0).
      { clear - HP. induction HP as [|p p0 P P0 (H1 & H2 & H3) HP IH]; intros q Hq; [contradiction|destruct Hq as [<-|Hq]; auto]. }
      assert (HSz : forall p, In p S -> 0 <= d sm gr vg m p /\ d sm gr vg m p < sm).
      { clear - HS. induction HS as [|p p0 S S0 (H1 & H2 & H3 & H4) HS IH]; intros q Hq; [contradiction|destruct Hq as [<-|Hq]; auto]. }
      assert (HP0 : Qsumf (d sm gr vg m) P == 0).
      { rewrite (Qsumf_ext _ (fun _ => 0)) by auto. rewrite Qsumf_const. lra. }
      assert (HS0 : 0 <= Qsumf (d sm gr vg m) S <= inject_Z (Z.of_nat (length S)) * sm).
      { split.
        - apply Qsumf_nonneg. intros p Hp. apply HSz; auto.
        - rewrite <- Qsumf_const. apply Qsumf_le. intros p Hp.
          destruct (HSz p Hp). lra. }
      assert (Hlen : (length S <= n - 1)%nat).
      { assert (L : length (P ++ [x] ++ S) = n).
        { rewrite <- (map_length l_rank). fold (ranks (P ++ [x] ++ S)).
          rewrite (reach_ranks _ _ _ _ _ _ HR). unfold ranks. rewrite map_length.
          rewrite <- (Permutation_length perm_sorted).
          rewrite <- (map_length l_rank). fold (ranks loads). rewrite Hranks.
          apply seq_length. }
        rewrite !app_length in L. simpl in L. lia. }
      assert (HlenQ : inject_Z (Z.of_nat (length S)) * sm <= inject_Z (Z.of_nat (n - 1)) * sm).
      { apply Qmult_le_compat_r; [|lra]. rewrite <- Zle_Qle. lia. }
      assert (Hn0 : 0 <= inject_Z (Z.of_nat (n - 1)) * sm).
      { apply Qmult_le_0_compat; [apply inject_nat_nonneg|lra]. }
      assert (Hx : - (inject_Z (Z.of_nat (n - 1)) * sm) <= d sm gr vg m x <= 0).
      { rewrite !Qsumf_app, Qsumf_cons, Qsumf_nil in Hsum. lra. }
      assert (ALL : forall p, In p (P ++ [x] ++ S) ->
                - (inject_Z (Z.of_nat (n - 1)) * sm) <= d sm gr vg m p /\
                d sm gr vg m p <= inject_Z (Z.of_nat (n - 1)) * sm /\
                (l_rank p <> l_rank x -> 0 <= d sm gr vg m p)).
      { intros p Hp. apply in_app_or in Hp as [Hp|Hp].
        - specialize (HPz p Hp). repeat split; intros; lra.
        - destruct Hp as [<-|Hp]; [repeat split; intros; lra || congruence|].
          destruct (HSz p Hp).
          assert (1 * sm <= inject_Z (Z.of_nat (n - 1)) * sm).
          { apply Qmult_le_compat_r; [|lra]. change 1 with (inject_Z 1).
            rewrite <- Zle_Qle. destruct S; [contradiction|]. simpl in Hlen. lia. }
          repeat split; intros; lra. }
      assert (G : exists p, In p (P ++ [x] ++ S) /\ booked sm gr vg g p l).
      { clear - Hbook Hin. induction Hbook as [|p p0 L L0 H HL IH]; [contradiction|].
        destruct Hin as [<-|Hin].
        - exists p. split; [left|]; auto.
        - destruct (IH Hin) as (q & Q1 & Q2). exists q. split; [right|]; auto. }
      destruct G as (p & G1 & G2 & G3). specialize (ALL p G1).
      assert (E : after == qv sm gr vg p).
      { unfold after. rewrite G3, G2. reflexivity. }
      rewrite E. rewrite <- G2. exact ALL.
    Qed.

    (** No operation has a value below [-(n-1)*sm]. *)
    Lemma op_min P W S g :
      reach (A := AQ) m (sortf loads) P W S g -> forall op, In op g ->
      - (inject_Z (Z.of_nat (n - 1)) * sm) <= qo sm gr vg op.
    Proof.
      assert (Hn0 : 0 <= inject_Z (Z.of_nat (n - 1)) * sm).
      { apply Qmult_le_0_compat; [apply inject_nat_nonneg|lra]. }
      assert (STEP : forall P a M b S g,
        reach (A := AQ) m (sortf loads) P (a :: M ++ [b]) S g ->
        - (inject_Z (Z.of_nat (n - 1)) * sm) <= qx sm gr vg m a b).
      { clear P W S g. intros P a M b S g HR.
        destruct (reach_qinv sm gr vg Hsm m 0 (Qle_refl 0) _ _ _ _ _ sorted_nodup sorted_ne
                    sorted_ok sorted_sum HR) as [(P0 & W0 & S0 & Hinit & HP & HS & HW)].
        assert (Hsum := reach_sum sm gr vg m _ _ _ _ _ HR).
        rewrite sorted_sum in Hsum.
        destruct HW as [(y & x0 & E & _)|(a1 & a0 & M1 & b1 & b0 & E & -> & Ra & Rb & Hh & Ht)].
        { exfalso. destruct M; discriminate. }
        injection E as <- E. apply app_inj_tail in E as [<- <-].
        destruct (qx_d sm gr vg m a b) as [[Hle Ex]|[Hlt Ex]]; [|destruct Hh; lra].
        rewrite Ex. destruct (Qlt_le_dec (d sm gr vg m b) 0) as [Hneg|Hpos]; [|lra].
        destruct Ht as [[_ ->]|[Hs1 _]]; [|lra].
        assert (HP0 : Qsumf (d sm gr vg m) P == 0).
        { clear - HP. induction HP as [|l l0 P P0 (H1 & H2 & H3) HP IH]; [reflexivity|].
          rewrite Qsumf_cons. lra. }
        assert (HS0 : Qsumf (d sm gr vg m) S <= inject_Z (Z.of_nat (length S)) * sm).
        { rewrite <- Qsumf_const. apply Qsumf_le.
          clear - HS. induction HS as [|l l0 S S0 (H1 & H2 & H3 & H4) HS IH];
            intros q Hq; [contradiction|]. destruct Hq as [<-|Hq]; [lra|auto]. }
        assert (Hsorted : sorted_d sm gr vg m (M ++ [b0])).
        { assert (Hs := sorted_ok). rewrite Hinit in Hs.
          apply sorted_app_r in Hs. apply sorted_app_l in Hs. inversion Hs; auto. }
        assert (HM : Qsumf (d sm gr vg m) M <= 0).
        { setoid_replace 0 with (Qsumf (fun _ : load => 0) M) at 1.
          - apply Qsumf_le. intros l Hl.
            pose proof (sorted_last sm gr vg m M b0 l Hsorted Hl). lra.
          - rewrite Qsumf_const. lra. }
        assert (Hlen : (length S <= n - 1)%nat).
        { assert (L : length (P ++ (a :: M ++ [b0]) ++ S) = n).
          { rewrite <- (map_length l_rank). fold (ranks (P ++ (a :: M ++ [b0]) ++ S)).
            rewrite (reach_ranks _ _ _ _ _ _ HR). unfold ranks. rewrite map_length.
            rewrite <- (Permutation_length perm_sorted).
            rewrite <- (map_length l_rank). fold (ranks loads). rewrite Hranks.
            apply seq_length. }
          rewrite !app_length in L. simpl in L. lia. }
        assert (HlenQ : inject_Z (Z.of_nat (length S)) * sm <= inject_Z (Z.of_nat (n - 1)) * sm).
        { apply Qmult_le_compat_r; [|lra]. rewrite <- Zle_Qle. lia. }
        rewrite !Qsumf_app, Qsumf_cons, !Qsumf_app, Qsumf_cons, Qsumf_nil in Hsum.
        destruct Hh as [Ha _]. lra. }
      induction 1 as [|P a M b S g HR IH D|P a M b S g HR IH D].
      - intros op [].
      - intros op Hop. apply in_app_or in Hop as [Hop|[<-|[]]]; auto.
        rewrite qo_xop. eauto.
      - intros op Hop. apply in_app_or in Hop as [Hop|[<-|[]]]; auto.
        rewrite qo_xop. eauto.
    Qed.

    Lemma vsum_split f c g :
      vsum sm gr vg f g == vsum sm gr vg (fun op => f op && keptb sm gr vg c op) g
                         + vsum sm gr vg (fun op => f op && negb (keptb sm gr vg c op)) g.
    Proof.
      unfold vsum. induction g as [|o g IH]; simpl; [reflexivity|].
      destruct (f o); simpl; [|exact IH].
      destruct (keptb sm gr vg c o); simpl; rewrite ?Qsumf_cons, IH; lra.
    Qed.

    Lemma vsum_bounds (f : operation -> bool) g lo hi k :
      lo <= 0 -> 0 <= hi -> (length (filter f g) <= k)%nat ->
      (forall op, In op g -> f op = true -> lo <= qo sm gr vg op /\ qo sm gr vg op <= hi) ->
      inject_Z (Z.of_nat k) * lo <= vsum sm gr vg f g <= inject_Z (Z.of_nat k) * hi.
    Proof.
      intros Hlo Hhi Hk H.
      assert (B : inject_Z (Z.of_nat (length (filter f g))) * lo <= vsum sm gr vg f g
                  <= inject_Z (Z.of_nat (length (filter f g))) * hi).
      { unfold vsum. split.
        - rewrite <- (Qsumf_const lo (filter f g)). apply Qsumf_le. intros o Ho.
          apply filter_In in Ho as [H1 H2]. apply H; auto.
        - rewrite <- (Qsumf_const hi (filter f g)). apply Qsumf_le. intros o Ho.
          apply filter_In in Ho as [H1 H2]. apply H; auto. }
      assert (Hz : inject_Z (Z.of_nat (length (filter f g))) <= inject_Z (Z.of_nat k)).
      { rewrite <- Zle_Qle. lia. }
      pose proof (inject_nat_nonneg (length (filter f g))).
      set (ql := inject_Z (Z.of_nat (length (filter f g)))) in *.
      set (qk := inject_Z (Z.of_nat k)) in *.
      assert (0 <= (qk - ql) * - lo) by (apply Qmult_le_0_compat; lra).
      assert (0 <= (qk - ql) * hi) by (apply Qmult_le_0_compat; lra).
      split; lra.
    Qed.

    (** At most [n-1] operations leave (reach) a given rank. *)
    Lemma role_count (g : list operation) k :
      plan_ok n g ->
      (length (filter (from_is k) g) <= n - 1 /\ length (filter (to_is k) g) <= n - 1)%nat.
    Proof.
      intros PK.
      assert (B : forall l h, NoDup l -> (h < n)%nat -> ~ In h l ->
                  (forall j, In j l -> (j < n)%nat) -> (length l <= n - 1)%nat).
      { intros l h ND Hh Hn Hl.
        assert (length (h :: l) <= length (seq 0 n))%nat.
        { apply NoDup_incl_length; [constructor; auto|].
          intros j [<-|Hj]; apply in_seq; [lia|]. specialize (Hl j Hj). lia. }
        rewrite seq_length in H. simpl in H. lia. }
      split.
      - rewrite <- (map_length o_to). set (L := filter (from_is k) g).
        destruct L as [|o L'] eqn:EL; [simpl; lia|]. rewrite <- EL.
        assert (Hin : forall o', In o' (filter (from_is k) g) -> In o' g /\ o_from o' = k).
        { intros o' Ho. apply filter_In in Ho as [H1 H2]. apply Nat.eqb_eq in H2. auto. }
        assert (Ho : In o g /\ o_from o = k).
        { apply Hin. fold L. rewrite EL. left; auto. }
        apply (B _ k).
        + apply NoDup_map_inv with (f := fun j => (k, j)). rewrite map_map.
          assert (ND := pk_nodup _ _ (plan_ok_filter n g (from_is k) PK)).
          rewrite (map_ext_in _ (fun op => (o_from op, o_to op))); auto.
          intros o' Ho'. destruct (Hin o' Ho'). congruence.
        + destruct Ho as [H1 <-]. apply (pk_range _ _ PK o); auto.
        + intros H. apply in_map_iff in H as (o' & E & Ho').
          destruct (Hin o' Ho') as [H1 H2]. apply (pk_roles _ _ PK o' o'); congruence.
        + intros j H. apply in_map_iff in H as (o' & <- & Ho').
          destruct (Hin o' Ho') as [H1 H2]. apply (pk_range _ _ PK o'); auto.
      - rewrite <- (map_length o_from). set (L := filter (to_is k) g).
        destruct L as [|o L'] eqn:EL; [simpl; lia|]. rewrite <- EL.
        assert (Hin : forall o', In o' (filter (to_is k) g) -> In o' g /\ o_to o' = k).
        { intros o' Ho. apply filter_In in Ho as [H1 H2]. apply Nat.eqb_eq in H2. auto. }
        assert (Ho : In o g /\ o_to o = k).
        { apply Hin. fold L. rewrite EL. left; auto. }
        apply (B _ k).
        + apply NoDup_map_inv with (f := fun j => (j, k)). rewrite map_map.
          assert (ND := pk_nodup _ _ (plan_ok_filter n g (to_is k) PK)).
          rewrite (map_ext_in _ (fun op => (o_from op, o_to op))); auto.
          intros o' Ho'. destruct (Hin o' Ho'). congruence.
        + destruct Ho as [H1 <-]. apply (pk_range _ _ PK o); auto.
        + intros H. apply in_map_iff in H as (o' & E & Ho').
          destruct (Hin o' Ho') as [H1 H2]. apply (pk_roles _ _ PK o' o'); congruence.
        + intros j H. apply in_map_iff in H as (o' & <- & Ho').
          destruct (Hin o' Ho') as [H1 H2]. apply (pk_range _ _ PK o'); auto.
    Qed.

    (** Loads after the kept operations only. *)
    Lemma final_kept c P x S g l :
      0 <= c -> plan_ok n g ->
      reach (A := AQ) m (sortf loads) P [x] S g -> In l loads ->
      let N := inject_Z (Z.of_nat (n - 1)) in
      let after := qv sm gr vg l - sentK sm gr vg c (l_rank l) g
                                 + recvK sm gr vg c (l_rank l) g in
      Qabs (after - m) <= N * sm + N * (c + N * sm).
    Proof.
      intros Hc PK HR Hl N after.
      assert (HN : 0 <= N) by apply inject_nat_nonneg.
      assert (HNs : 0 <= N * sm) by (apply Qmult_le_0_compat; lra).
      destruct (final_loads P x S g l HR Hl) as (B1 & B2 & _).
      fold N in B1, B2.
      change (given (l_rank l) g) with (vsum sm gr vg (from_is (l_rank l)) g) in B1, B2.
      change (taken (l_rank l) g) with (vsum sm gr vg (to_is (l_rank l)) g) in B1, B2.
      set (k := l_rank l) in *.
      rewrite (vsum_split (from_is k) c g), (vsum_split (to_is k) c g) in B1, B2.
      change (vsum sm gr vg (fun op => from_is k op && keptb sm gr vg c op) g)
        with (sentK sm gr vg c k g) in B1, B2.
      change (vsum sm gr vg (fun op => to_is k op && keptb sm gr vg c op) g)
        with (recvK sm gr vg c k g) in B1, B2.
      assert (OB : forall f op, In op g -> f op && negb (keptb sm gr vg c op) = true ->
                - (N * sm) <= qo sm gr vg op /\ qo sm gr vg op <= c).
      { intros f op Hop Hf. apply andb_true_iff in Hf as [_ Hf]. apply negb_true_iff in Hf.
        apply Qltb_false in Hf. split; [|exact Hf]. eapply op_min; eauto. }
      destruct (role_count g k PK) as [C1 C2].
      assert (LF : forall f f' (l : list operation), (length (filter (fun o => f o && f' o) l)
                     <= length (filter f l))%nat).
      { intros f f' L. induction L as [|o L IH]; simpl; auto.
        destruct (f o); simpl; auto. destruct (f' o); simpl; lia. }
      assert (V1 := vsum_bounds (fun op => from_is k op && negb (keptb sm gr vg c op)) g
                      (- (N * sm)) c (n - 1) ltac:(lra) Hc
                      (Nat.le_trans _ _ _ (LF _ _ _) C1) (OB (from_is k))).
      assert (V2 := vsum_bounds (fun op => to_is k op && negb (keptb sm gr vg c op)) g
                      (- (N * sm)) c (n - 1) ltac:(lra) Hc
                      (Nat.le_trans _ _ _ (LF _ _ _) C2) (OB (to_is k))).
      fold N in V1, V2.
      assert (Z : vsum sm gr vg (fun op => from_is k op && negb (keptb sm gr vg c op)) g == 0 \/
                  vsum sm gr vg (fun op => to_is k op && negb (keptb sm gr vg c op)) g == 0).
      { destruct (filter (from_is k) g) as [|o L] eqn:F.
        - left. apply vsum_none. intros o Ho. apply andb_false_iff. left.
          destruct (from_is k o) eqn:E; auto.
          assert (In o (filter (from_is k) g)) by (apply filter_In; auto).
          rewrite F in H. contradiction.
        - right. apply vsum_none. intros o' Ho'. apply andb_false_iff. left.
          apply Nat.eqb_neq. intros E.
          assert (Hino : In o (filter (from_is k) g)) by (rewrite F; left; auto).
          apply filter_In in Hino as [Hg Hk]. apply Nat.eqb_eq in Hk.
          apply (pk_roles _ _ PK o o'); congruence. }
      assert (HNc : 0 <= N * c) by (apply Qmult_le_0_compat; lra).
      assert (HNN : 0 <= N * (N * sm)) by (apply Qmult_le_0_compat; lra).
      apply Qabs_Qle_condition. unfold after.
      set (u := vsum sm gr vg (fun op => from_is k op && negb (keptb sm gr vg c op)) g) in *.
      set (w := vsum sm gr vg (fun op => to_is k op && negb (keptb sm gr vg c op)) g) in *.
      assert (ED : N * (c + N * sm) == N * c + N * (N * sm)) by lra.
      assert (EN : N * - (N * sm) == - (N * (N * sm))) by lra.
      rewrite EN in V1, V2. rewrite ED.
      generalize dependent (N * (N * sm)). generalize dependent (N * c).
      generalize dependent (N * sm). intros.
      destruct Z as [Z|Z]; rewrite Z in *; split; lra.
    Qed.

    Lemma mean_after P x S g :
      reach (A := AQ) m (sortf loads) P [x] S g ->
      (getMean (P ++ [x] ++ S) : Q) == m.
    Proof.
      intros HR. rewrite getMean_Q. unfold m. rewrite getMean_Q.
      assert (L : length (P ++ [x] ++ S) = length loads).
      { rewrite <- (map_length l_rank). fold (ranks (P ++ [x] ++ S)).
        rewrite (reach_ranks _ _ _ _ _ _ HR). unfold ranks. rewrite map_length.
        symmetry. apply Permutation_length, perm_sorted. }
      unfold Qmean, load_values. rewrite !map_length, L.
      apply Qmult_comp; [|reflexivity].
      assert (Hsum := reach_sum sm gr vg m _ _ _ _ _ HR).
      rewrite <- (Qsumf_perm _ _ _ perm_sorted) in Hsum.
      assert (E : forall l : list load, Qsumf (d sm gr vg m) l
                  == Qsumf (qv sm gr vg) l - inject_Z (Z.of_nat (length l)) * m).
      { intros l. rewrite <- (Qsumf_const m l), <- Qsumf_minus.
        apply Qsumf_ext. reflexivity. }
      rewrite !E, L in Hsum.
      change (Qsumf (qv sm gr vg) (P ++ [x] ++ S) == Qsumf (qv sm gr vg) loads). lra.
    Qed.
  End Plan.
End PlanQ.
