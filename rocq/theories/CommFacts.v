(** The concurrent exchange terminates, never blocks, and computes the function
    [sendRecv]. *)
From Coq Require Import List Arith Bool ZArith Lia.
From Verif Require Import Outcome Arith Problem LoadBalancing PlanFacts Comm.
Import ListNotations.
Local Open Scope nat_scope.

Lemma fupd_eq {T} (f : nat -> T) i x : fupd f i x i = x.
Proof. unfold fupd. rewrite Nat.eqb_refl. auto. Qed.

Lemma fupd_ne {T} (f : nat -> T) i j x : j <> i -> fupd f i x j = f j.
Proof. unfold fupd. intros H. rewrite (proj2 (Nat.eqb_neq _ _) H). auto. Qed.

Section Facts.
  Context {K X : Type}.
  Variable enc : X -> list K.
  Variable dec : list K -> option (X * list K).
  Variable eager : nat -> nat -> bool.
  Notation written := (written enc).
  Notation reads := (reads dec).
  Notation step := (step enc dec eager).
  Notation steps := (steps enc dec eager).
  Notation config := (config K X).
  Notation rstate := (rstate K X).

  Lemma reads_ext n srcs : forall ib ib', (forall s, s < n -> ib s = ib' s) ->
    reads n srcs ib = reads n srcs ib'.
  Proof.
    induction srcs as [|s r IH]; intros ib ib' H; simpl; auto.
    destruct (Nat.ltb_spec s n); auto. rewrite H by auto.
    destruct (dec (ib' s)) as [[x rest]|]; auto.
    rewrite (IH (fupd ib s rest) (fupd ib' s rest)); auto.
    intros s' Hs'. unfold fupd. destruct (s' =? s); auto.
  Qed.

  Section Run.
    Variable outs : list (outbox X).
    Variable srcs : list (list nat).
    Hypothesis Hlen : length srcs = length outs.
    Notation n := (length outs).
    Definition wire (p q : nat) : list K := written (nth p outs []) q.

    (** Invariant of one rank. *)
    Definition rank_inv (c : config) (i : nat) (r : rstate) : Prop :=
      match ph r with
      | PWrite =>
          (forall q, sbuf r q ++ written (todo r) q = wire i q) /\
          (exists pre, nth i outs [] = pre ++ todo r) /\
          (forall p, rbuf r p = []) /\ (forall p, ~ In (p, i) (dlv c)) /\
          left r = nth i srcs [] /\ got r = []
      | PSizes =>
          todo r = [] /\ (forall q, sbuf r q = wire i q) /\
          (forall p, rbuf r p = []) /\ (forall p, ~ In (p, i) (dlv c)) /\
          left r = nth i srcs [] /\ got r = []
      | PXfer =>
          todo r = [] /\ (forall q, sbuf r q = wire i q) /\
          (forall p, p < n -> (In (p, i) (dlv c) -> rbuf r p = wire p i) /\
                              (~ In (p, i) (dlv c) -> rbuf r p = [])) /\
          left r = nth i srcs [] /\ got r = []
      | PRead =>
          todo r = [] /\ (forall q, sbuf r q = wire i q) /\
          (forall p, p < n -> wire p i = [] \/ In (p, i) (dlv c)) /\
          reads n (nth i srcs []) (fun p => wire p i)
          = (let* xs := reads n (left r) (rbuf r) in Ok (got r ++ xs))
      | PFail =>
          (exists d x, In (d, x) (nth i outs []) /\ n <= d) \/
          (forall xs, reads n (nth i srcs []) (fun p => wire p i) <> Ok xs)
      end.

    Record inv (c : config) : Prop := {
      inv_len : length (rks c) = n;
      inv_rank : forall i r, nth_error (rks c) i = Some r -> rank_inv c i r;
      inv_all : (exists i r, nth_error (rks c) i = Some r /\ posted r) ->
                forall j rj, nth_error (rks c) j = Some rj ->
                  ph rj <> PWrite /\ forall q, sbuf rj q = wire j q;
      inv_dlv : forall p q, In (p, q) (dlv c) -> p < n /\ q < n;
      inv_nodup : NoDup (dlv c)
    }.

    Lemma inv_init : inv (init outs srcs).
    Proof.
      assert (HN : forall i r, nth_error (rks (init (K := K) outs srcs)) i = Some r ->
                i < n /\ r = mkR PWrite (nth i outs []) (fun _ => []) (fun _ => [])
                             (nth i srcs []) []).
      { intros i r H. simpl in H. rewrite nth_error_map, nth_error_combine in H.
        destruct (nth_error outs i) as [o|] eqn:Eo; simpl in H; [|discriminate].
        destruct (nth_error srcs i) as [s|] eqn:Es; simpl in H; [|discriminate].
        inversion H. rewrite (nth_error_nth _ _ _ Eo), (nth_error_nth _ _ _ Es).
        split; auto. apply nth_error_Some. congruence. }
      split.
      - simpl. rewrite map_length, combine_length. lia.
      - intros i r H. destruct (HN i r H) as [Hi ->]. unfold rank_inv. simpl.
        repeat split; auto. exists []. auto.
      - intros (i & r & H & [P|P]); destruct (HN i r H) as [_ ->]; discriminate.
      - simpl. tauto.
      - constructor.
    Qed.

    (** Updating one rank: which entries changed. *)
    Lemma upd_cases (l : list rstate) i x j y :
      nth_error (upd l i x) j = Some y ->
      (j = i /\ y = x) \/ (j <> i /\ nth_error l j = Some y).
    Proof.
      intros H. destruct (Nat.eq_dec j i) as [->|N].
      - left. split; auto. rewrite nth_error_upd_eq in H; [congruence|].
        rewrite <- (upd_length l i x). apply nth_error_Some. congruence.
      - right. split; auto. rewrite nth_error_upd_ne in H; auto.
    Qed.

    Lemma written_cons d x t q :
      written ((d, x) :: t) q = (if d =? q then enc x else []) ++ written t q.
    Proof. unfold Comm.written. simpl. destruct (d =? q); auto. Qed.

    Lemma rank_inv_dlv c c' i r :
      (forall p, In (p, i) (dlv c) <-> In (p, i) (dlv c')) ->
      rank_inv c i r -> rank_inv c' i r.
    Proof.
      intros E. unfold rank_inv. destruct (ph r); auto.
      - intros (A1 & A2 & A3 & A4 & A5). repeat split; auto; try tauto.
        intros p Hp. apply (A4 p). apply E. auto.
      - intros (A1 & A2 & A3 & A4 & A5). repeat split; auto; try tauto.
        intros p Hp. apply (A4 p). apply E. auto.
      - intros (A1 & A2 & A3 & A4 & A5). repeat split; auto; try tauto.
        + intros Hp. apply A3; auto. apply E; auto.
        + intros Hp. apply A3; auto. rewrite E; auto.
      - intros (A1 & A2 & A3 & A4). repeat split; auto.
        intros p Hp. destruct (A3 p Hp); auto. right. apply E. auto.
    Qed.

    Lemma inv_step c c' : inv c -> step c c' -> inv c'.
    Proof.
      intros I St. destruct I as [IL IR IA ID IN].
      assert (Upd : forall i r x dl,
        nth_error (rks c) i = Some r -> dl = dlv c ->
        ((ph x <> PWrite /\ forall q, sbuf x q = sbuf r q) \/ ph r = PWrite) ->
        (posted x -> posted r) ->
        rank_inv (mkC (upd (rks c) i x) dl) i x ->
        inv (mkC (upd (rks c) i x) dl)).
      { intros i r x dl Hi -> Hw Hp Hx. split; simpl; auto.
        - rewrite upd_length. auto.
        - intros j y Hj. apply upd_cases in Hj as [[-> ->]|[N Hj]]; auto.
          apply (rank_inv_dlv c); [tauto|]. auto.
        - intros (j & y & Hj & Py) k rk Hk.
          assert (E : exists i r, nth_error (rks c) i = Some r /\ posted r).
          { apply upd_cases in Hj as [[-> ->]|[N Hj]]; eauto. }
          specialize (IA E). apply upd_cases in Hk as [[-> ->]|[N Hk]]; eauto.
          destruct (IA i r Hi) as [I1 I2]. destruct Hw as [[Hw1 Hw2]|Hw]; [|contradiction].
          split; auto. intros q. rewrite Hw2. auto. }
      destruct St as [i r d x t c H1 H2 H3 H4|i r d x t c H1 H2 H3 H4|i r c H1 H2 H3
        |i r c H1 H2 H3|p q rp rq c H1 H2 H3 H4 H5 H6|i r c H1 H2 H3 H4
        |i r s l x rest c H1 H2 H3 H4 H5|i r s l c H1 H2 H3 H4];
        assert (R := IR _ _ H1).
      - eapply Upd; eauto.
        + intros [P|P]; discriminate.
        + unfold rank_inv in *. rewrite H2 in R. simpl.
          destruct R as (A1 & (pre & A2) & A3 & A4 & A5 & A6). repeat split; auto.
          * intros q. rewrite <- (A1 q), H3, written_cons. unfold fupd.
            rewrite Nat.eqb_sym. destruct (Nat.eqb_spec d q) as [->|]; auto.
            rewrite app_assoc. auto.
          * exists (pre ++ [(d, x)]). rewrite A2, H3, <- app_assoc. auto.
      - eapply Upd; eauto.
        + intros [P|P]; discriminate.
        + unfold rank_inv in *. rewrite H2 in R. simpl.
          destruct R as (A1 & (pre & A2) & _). left. exists d, x. split; [|lia].
          rewrite A2, H3. apply in_or_app. right. left. auto.
      - eapply Upd; eauto.
        + intros [P|P]; discriminate.
        + unfold rank_inv in *. rewrite H2 in R. simpl.
          destruct R as (A1 & (pre & A2) & A3 & A4 & A5 & A6). repeat split; auto.
          intros q. rewrite <- (A1 q), H3. unfold Comm.written. simpl.
          symmetry. apply app_nil_r.
      - split; simpl; auto.
        + rewrite upd_length. auto.
        + intros j y Hj. apply upd_cases in Hj as [[-> ->]|[N Hj]].
          * unfold rank_inv in *. rewrite H2 in R. simpl.
            destruct R as (A1 & A2 & A3 & A4 & A5 & A6). repeat split; auto.
            intros Hin. exfalso. apply (A4 p). auto.
          * apply (rank_inv_dlv c); [tauto|]. auto.
        + intros _ k rk Hk.
          assert (Rk : forall k rk, nth_error (rks c) k = Some rk ->
                       forall q, sbuf rk q = wire k q).
          { intros k' rk' Hk'. assert (R' := IR _ _ Hk'). destruct (H3 _ _ Hk') as [E1 E2].
            unfold rank_inv in R'. destruct (ph rk') eqn:Eh; try congruence;
              destruct R' as (_ & S' & _); exact S'. }
          apply upd_cases in Hk as [[-> ->]|[N Hk]].
          * split; [discriminate|]. simpl. eauto.
          * split; [apply (H3 k rk Hk)|]. eauto.
      - assert (Hp : p < n) by (rewrite <- IL; apply nth_error_Some; congruence).
        assert (Hq : q < n) by (rewrite <- IL; apply nth_error_Some; congruence).
        assert (Rq := IR _ _ H2).
        assert (Sp : sbuf rp q = wire p q).
        { unfold rank_inv in R. destruct H3 as [E|E]; rewrite E in R;
            destruct R as (_ & S' & _); apply S'. }
        split; simpl.
        + rewrite upd_length. auto.
        + intros j y Hj. apply upd_cases in Hj as [[-> ->]|[N Hj]].
          * unfold rank_inv in *. rewrite H4 in Rq. simpl.
            destruct Rq as (A1 & A2 & A3 & A4 & A5).
            split; [auto|]. split; [auto|]. split; [|auto].
            intros p' Hp'. unfold fupd. destruct (Nat.eqb_spec p' p) as [->|N].
            -- split; auto. intros Hn. exfalso. apply Hn. auto.
            -- destruct (A3 p' Hp') as [B1 B2]. split.
               ++ intros [E|E]; [congruence|auto].
               ++ intros Hn. apply B2. tauto.
          * apply (rank_inv_dlv c); [|auto]. intros p'. simpl. split; [auto|].
            intros [E|E]; [congruence|auto].
        + intros _ k rk Hk.
          assert (E : exists i r, nth_error (rks c) i = Some r /\ posted r) by eauto.
          apply upd_cases in Hk as [[-> ->]|[N Hk]].
          * split; [discriminate|]. simpl. apply (IA E q rq H2).
          * eapply IA; eauto.
        + intros p' q' [E|E]; [inversion E; subst; auto|auto].
        + constructor; auto.
      - eapply Upd; eauto.
        + left. split; [discriminate|auto].
        + intros _. left. auto.
        + unfold rank_inv in *. rewrite H2 in R. simpl.
          destruct R as (A1 & A2 & A3 & A4 & A5). split; [auto|]. split; [auto|].
          assert (Post : exists i r, nth_error (rks c) i = Some r /\ posted r)
            by (exists i, r; split; auto; left; auto).
          split.
          { intros p Hp. destruct (nth_error (rks c) p) as [rp|] eqn:Ep.
            2:{ apply nth_error_None in Ep. lia. }
            destruct (IA Post p rp Ep) as [_ W]. rewrite <- W. eauto. }
          rewrite A5, A4. simpl.
          rewrite (reads_ext n (nth i srcs []) (rbuf r) (fun p => wire p i)).
          * destruct (reads n _ _); reflexivity.
          * intros p Hp. destruct (nth_error (rks c) p) as [rp|] eqn:Ep.
            2:{ apply nth_error_None in Ep. lia. }
            destruct (H3 p rp Ep) as [E|E]; [|apply A3; auto].
            assert (Rp := IR _ _ Ep).
            assert (W : wire p i = []).
            { rewrite <- E. symmetry. eapply IA; eauto. }
            destruct (A3 p Hp) as [B1 B2].
            assert (Dec : forall x y : nat * nat, {x = y} + {x <> y})
              by (intros; decide equality; apply Nat.eq_dec).
            rewrite W. destruct (in_dec Dec (p, i) (dlv c)); auto.
            rewrite B1; auto.
      - eapply Upd; eauto.
        + left. split; [discriminate|auto].
        + intros _. right. auto.
        + unfold rank_inv in *. rewrite H2 in R. simpl.
          destruct R as (A1 & A2 & A0 & A3). split; [auto|]. split; [auto|]. split; [auto|].
          rewrite A3, H3. simpl. rewrite <- IL at 1.
          rewrite (proj2 (Nat.ltb_lt _ _) H4), H5.
          destruct (reads n l (fupd (rbuf r) s rest)); simpl; auto.
          rewrite <- app_assoc. reflexivity.
      - eapply Upd; eauto.
        + left. split; [discriminate|auto].
        + intros [P|P]; discriminate.
        + unfold rank_inv in *. rewrite H2 in R. simpl. right.
          destruct R as (A1 & A2 & A0 & A3). intros xs. rewrite A3, H3. simpl.
          destruct (Nat.ltb_spec s n); [|discriminate].
          destruct H4 as [H4|H4]; [lia|]. rewrite H4. discriminate.
    Qed.

    Lemma inv_steps c : steps (init outs srcs) c -> inv c.
    Proof. induction 1; [apply inv_init|eapply inv_step; eauto]. Qed.

    (** *** Termination *)

    Definition weight (r : rstate) : nat :=
      length (todo r) + length (left r) +
      match ph r with PWrite => 4 | PSizes => 3 | PXfer => 2 | PRead => 1 | PFail => 0 end.

    Definition measure (c : config) : nat :=
      list_sum (map weight (rks c)) + (n * n - length (dlv c)).

    Lemma sum_upd (l : list rstate) i r x :
      nth_error l i = Some r -> weight x < weight r ->
      list_sum (map weight (upd l i x)) < list_sum (map weight l).
    Proof.
      revert i. induction l as [|a l IH]; intros i H Hw; [destruct i; discriminate|].
      destruct i; simpl in *; [inversion H; subst; lia|]. specialize (IH _ H Hw). lia.
    Qed.

    Lemma sum_upd_same (l : list rstate) i r x :
      nth_error l i = Some r -> weight x = weight r ->
      list_sum (map weight (upd l i x)) = list_sum (map weight l).
    Proof.
      revert i. induction l as [|a l IH]; intros i H Hw; [destruct i; discriminate|].
      destruct i; simpl in *; [inversion H; subst; lia|]. specialize (IH _ H Hw). lia.
    Qed.

    Lemma dlv_bound (l : list (nat * nat)) :
      NoDup l -> (forall p q, In (p, q) l -> p < n /\ q < n) -> length l <= n * n.
    Proof.
      intros ND H.
      rewrite <- (seq_length n 0) at 1 2. rewrite <- prod_length.
      apply NoDup_incl_length; auto. intros [p q] Hin. apply in_prod; apply in_seq.
      - specialize (H _ _ Hin). lia.
      - specialize (H _ _ Hin). lia.
    Qed.

    Lemma step_measure c c' : inv c -> step c c' -> measure c' < measure c.
    Proof.
      intros I St. assert (I' := inv_step _ _ I St). unfold measure.
      destruct St as [i r d x t c H1 H2 H3 H4|i r d x t c H1 H2 H3 H4|i r c H1 H2 H3
        |i r c H1 H2 H3|p q rp rq c H1 H2 H3 H4 H5 H6|i r c H1 H2 H3 H4
        |i r s l x rest c H1 H2 H3 H4 H5|i r s l c H1 H2 H3 H4]; simpl rks; simpl dlv.
      5:{ erewrite sum_upd_same; [|exact H2|unfold weight; simpl; rewrite H4; auto].
          assert (B := dlv_bound _ (inv_nodup _ I') (inv_dlv _ I')). simpl in B. simpl. lia. }
      all: apply Nat.add_lt_mono_r; eapply sum_upd; eauto; unfold weight; simpl;
        rewrite H2; try rewrite H3; simpl; lia.
    Qed.

    Lemma terminating c : inv c -> Acc (fun c' c => step c c') c.
    Proof.
      remember (measure c) as m eqn:E. revert c E.
      induction m as [m IH] using lt_wf_ind. intros c -> I. constructor. intros c' St.
      apply (IH (measure c')); auto.
      - apply step_measure; auto.
      - eapply inv_step; eauto.
    Qed.

    (** *** Progress *)
    Variable res : list (list X).
    Hypothesis Hres : sendRecv enc dec true outs srcs = Ok res.

    Lemma res_dest i d x : In (d, x) (nth i outs []) -> d < n.
    Proof.
      unfold sendRecv in Hres.
      destruct (forallb (forallb (fun dx : nat * X => fst dx <? n)) outs) eqn:F; [|discriminate]. intros Hin.
      rewrite forallb_forall in F.
      destruct (nth_in_or_default i outs []) as [Hi|Hi]; [|rewrite Hi in Hin; contradiction].
      specialize (F _ Hi). rewrite forallb_forall in F. specialize (F _ Hin).
      apply Nat.ltb_lt. exact F.
    Qed.

    Lemma res_reads i xs : i < n -> nth_error res i = Some xs ->
      reads n (nth i srcs []) (fun p => wire p i) = Ok xs.
    Proof.
      intros Hi Hx. unfold sendRecv in Hres.
      destruct (forallb (forallb (fun dx : nat * X => fst dx <? n)) outs) eqn:F; [|discriminate].
      apply mapM_ok in Hres.
      destruct (nth_error srcs i) as [s|] eqn:Es.
      2:{ apply nth_error_None in Es. lia. }
      assert (G : forall l1 l2, Forall2 (fun (a : nat * list nat) b =>
          (let '(q, s) := a in reads n s (fun p => wire p q)) = Ok b) l1 l2 ->
          forall k a b, nth_error l1 k = Some a -> nth_error l2 k = Some b ->
          (let '(q, s) := a in reads n s (fun p => wire p q)) = Ok b).
      { induction 1; intros k a b; destruct k; simpl; intros A B; try discriminate.
        - inversion A; inversion B; subst. auto.
        - eauto. }
      specialize (G _ _ Hres i (i, s) xs).
      rewrite nth_error_enum, Es in G. specialize (G eq_refl Hx).
      rewrite (nth_error_nth _ _ _ Es). exact G.
    Qed.

    Lemma res_len : length res = n.
    Proof.
      unfold sendRecv in Hres. destruct (forallb (forallb (fun dx : nat * X => fst dx <? n)) outs); [|discriminate].
      apply mapM_length in Hres. rewrite enum_length in Hres. lia.
    Qed.

    Lemma res_some i : i < n -> exists xs, nth_error res i = Some xs.
    Proof.
      intros H. destruct (nth_error res i) eqn:E; eauto.
      apply nth_error_None in E. rewrite res_len in E. lia.
    Qed.

    Lemma no_fail c i r : inv c -> nth_error (rks c) i = Some r -> ph r <> PFail.
    Proof.
      intros I H E. assert (R := inv_rank _ I _ _ H). unfold rank_inv in R. rewrite E in R.
      assert (Hi : i < n) by (rewrite <- (inv_len _ I); apply nth_error_Some; congruence).
      destruct R as [(d & x & H1 & H2)|R].
      - apply res_dest in H1. lia.
      - destruct (res_some i Hi) as (xs & Hx). apply (R xs). apply res_reads; auto.
    Qed.

    (** Some rank satisfies [P], or none does. *)
    Lemma find_rank (P : rstate -> bool) (l : list rstate) :
      (exists i r, nth_error l i = Some r /\ P r = true) \/
      (forall i r, nth_error l i = Some r -> P r = false).
    Proof.
      induction l as [|a l IH]; [right; intros i r; destruct i; discriminate|].
      destruct (P a) eqn:E; [left; exists 0, a; auto|].
      destruct IH as [(i & r & H1 & H2)|IH]; [left; exists (S i), r; auto|].
      right. intros i r H. destruct i; simpl in H; [congruence|eauto].
    Qed.

    Definition isW (r : rstate) := match ph r with PWrite => true | _ => false end.
    Definition isS (r : rstate) := match ph r with PSizes => true | _ => false end.
    Definition isX (r : rstate) := match ph r with PXfer => true | _ => false end.
    Definition isL (r : rstate) := match left r with [] => false | _ => true end.

    Lemma progress c : inv c -> finished c \/ exists c', step c c'.
    Proof.
      intros I.
      destruct (find_rank isW (rks c)) as [(i & r & H & E)|NW].
      { right. unfold isW in E. destruct (ph r) eqn:Ph; try discriminate.
        destruct (todo r) as [|[d x] t] eqn:Et.
        - eexists. eapply st_post; eauto.
        - destruct (lt_dec d (length (rks c))).
          + eexists. eapply st_write; eauto.
          + eexists. eapply st_badwrite; eauto. lia. }
      destruct (find_rank isS (rks c)) as [(i & r & H & E)|NS].
      { right. unfold isS in E. destruct (ph r) eqn:Ph; try discriminate.
        eexists. eapply st_sizes; eauto. intros j rj Hj. split.
        - intros E'. specialize (NW _ _ Hj). unfold isW in NW. rewrite E' in NW. discriminate.
        - eapply no_fail; eauto. }
      assert (AllP : forall j rj, nth_error (rks c) j = Some rj -> posted rj).
      { intros j rj Hj. specialize (NW _ _ Hj). specialize (NS _ _ Hj).
        assert (NF := no_fail _ _ _ I Hj). unfold isW, isS, posted in *.
        destruct (ph rj); try discriminate; auto. congruence. }
      assert (Dec : forall x y : nat * nat, {x = y} + {x <> y})
        by (intros; decide equality; apply Nat.eq_dec).
      destruct (find_rank isX (rks c)) as [(i & r & H & E)|NX].
      { right. unfold isX in E. destruct (ph r) eqn:Ph; try discriminate.
        assert (Hi : i < n) by (rewrite <- (inv_len _ I); apply nth_error_Some; congruence).
        (* a message to i that is not delivered *)
        assert (G : (exists p rp, nth_error (rks c) p = Some rp /\ sbuf rp i <> [] /\
                    ~ In (p, i) (dlv c)) \/
                    (forall p rp, nth_error (rks c) p = Some rp ->
                       sbuf rp i = [] \/ In (p, i) (dlv c))).
        { assert (G0 : forall k, k <= length (rks c) ->
             (exists p rp, nth_error (rks c) p = Some rp /\ sbuf rp i <> [] /\
                    ~ In (p, i) (dlv c)) \/
             (forall p rp, p < k -> nth_error (rks c) p = Some rp ->
                       sbuf rp i = [] \/ In (p, i) (dlv c))).
          { induction k as [|k IHk]; intros Hk; [right; intros; lia|].
            destruct IHk as [L|R]; [lia|left; auto|].
            destruct (nth_error (rks c) k) as [rk|] eqn:Ek.
            2:{ apply nth_error_None in Ek. lia. }
            destruct (in_dec Dec (k, i) (dlv c)) as [In1|Nin].
            - right. intros p rp Hp Hrp. destruct (Nat.eq_dec p k) as [->|]; auto.
              apply R; auto. lia.
            - destruct (sbuf rk i) eqn:Es.
              + right. intros p rp Hp Hrp. destruct (Nat.eq_dec p k) as [->|].
                * left. congruence.
                * apply R; auto. lia.
              + left. exists k, rk. repeat split; auto. congruence. }
          destruct (G0 (length (rks c)) (le_n _)) as [L|R]; auto.
          right. intros p rp Hp. apply R; auto. apply nth_error_Some. congruence. }
        destruct G as [(p & rp & G1 & G2 & G3)|G].
        { eexists. apply (st_deliver enc dec eager p i rp r); eauto. }
        (* a message from i that is not delivered *)
        assert (G' : (exists q, q < length (rks c) /\ sbuf r q <> [] /\
                    ~ In (i, q) (dlv c) /\ eager i q = false) \/
                     (forall q, q < length (rks c) ->
                        sbuf r q = [] \/ In (i, q) (dlv c) \/ eager i q = true)).
        { assert (G0 : forall k, 
             (exists q, q < k /\ sbuf r q <> [] /\ ~ In (i, q) (dlv c) /\ eager i q = false) \/
             (forall q, q < k ->
                sbuf r q = [] \/ In (i, q) (dlv c) \/ eager i q = true)).
          { induction k as [|k IHk]; [right; intros; lia|].
            destruct IHk as [(q & L1 & L2)|R]; [left; exists q; split; auto|].
            destruct (in_dec Dec (i, k) (dlv c)) as [In1|Nin].
            - right. intros q Hq. destruct (Nat.eq_dec q k) as [->|]; auto. apply R. lia.
            - destruct (sbuf r k) eqn:Es.
              + right. intros q Hq. destruct (Nat.eq_dec q k) as [->|]; auto. apply R. lia.
              + destruct (eager i k) eqn:Ee.
                * right. intros q Hq. destruct (Nat.eq_dec q k) as [->|]; auto. apply R. lia.
                * left. exists k. repeat split; auto. congruence. }
          apply G0. }
        destruct G' as [(q & Q1 & Q2 & Q3 & Q4)|G'].
        2:{ eexists. eapply st_complete; eauto. }
        destruct (nth_error (rks c) q) as [rq|] eqn:Eq.
        2:{ apply nth_error_None in Eq. lia. }
        destruct (AllP _ _ Eq) as [Pq|Pq].
        - eexists. apply (st_deliver enc dec eager i q r rq); eauto.
        - (* impossible: q is reading, so everything sent to q was delivered *)
          exfalso. assert (Rq := inv_rank _ I _ _ Eq). unfold rank_inv in Rq.
          rewrite Pq in Rq. destruct Rq as (_ & _ & A0 & _).
          assert (Ri := inv_rank _ I _ _ H). unfold rank_inv in Ri. rewrite Ph in Ri.
          destruct Ri as (_ & Ws & _).
          destruct (A0 i Hi) as [A0'|A0']; [|contradiction].
          apply Q2. rewrite Ws. auto. }
      destruct (find_rank isL (rks c)) as [(i & r & H & E)|NL].
      { right. unfold isL in E. destruct (left r) as [|s l] eqn:El; [discriminate|].
        assert (Ph : ph r = PRead).
        { specialize (NX _ _ H). unfold isX in NX. destruct (AllP _ _ H) as [P|P]; auto.
          rewrite P in NX. discriminate. }
        destruct (lt_dec s (length (rks c))).
        - destruct (dec (rbuf r s)) as [[x rest]|] eqn:Ed.
          + eexists. eapply st_read; eauto.
          + eexists. eapply st_badread; eauto.
        - eexists. eapply st_badread; eauto. left. lia. }
      left. intros i r H. split.
      - specialize (NX _ _ H). unfold isX in NX. destruct (AllP _ _ H) as [P|P]; auto.
        rewrite P in NX. discriminate.
      - specialize (NL _ _ H). unfold isL in NL. destruct (left r); auto. discriminate.
    Qed.

    Lemma finished_result c : inv c -> finished c -> map got (rks c) = res.
    Proof.
      intros I F. apply nth_error_ext. intros i. rewrite nth_error_map.
      destruct (nth_error (rks c) i) as [r|] eqn:E; simpl.
      - assert (Hi : i < n) by (rewrite <- (inv_len _ I); apply nth_error_Some; congruence).
        destruct (res_some i Hi) as (xs & Hx). rewrite Hx. f_equal.
        destruct (F _ _ E) as [F1 F2]. assert (R := inv_rank _ I _ _ E).
        unfold rank_inv in R. rewrite F1 in R. destruct R as (_ & _ & _ & R).
        rewrite F2 in R. simpl in R. rewrite (res_reads i xs Hi Hx), app_nil_r in R. congruence.
      - symmetry. apply nth_error_None. apply nth_error_None in E.
        rewrite res_len, <- (inv_len _ I). auto.
    Qed.
  End Run.

  (** The concurrent exchange against the function. *)
  Lemma exchange_concurrent outs srcs res :
    length srcs = length outs -> sendRecv enc dec true outs srcs = Ok res ->
    forall c, steps (init outs srcs) c ->
      Acc (fun c' c => step c c') c /\
      (forall i r, nth_error (rks c) i = Some r -> ph r <> PFail) /\
      ((exists c', step c c') \/ (finished c /\ map got (rks c) = res)).
  Proof.
    intros Hl Hr c Hs. assert (I := inv_steps outs srcs Hl c Hs). split; [|split].
    - eapply terminating; eauto.
    - intros i r. eapply no_fail; eauto.
    - destruct (progress outs srcs Hl res Hr c I) as [F|F]; auto.
      right. split; auto. eapply finished_result; eauto.
  Qed.

  (** ** Symmetric plans *)

  Hypothesis Hcodec : forall x rest, dec (enc x ++ rest) = Some (x, rest).

  Lemma reads_ok n val srcs : forall ib, NoDup srcs ->
    (forall s, In s srcs -> s < n /\ exists rest, ib s = enc (val s) ++ rest) ->
    reads n srcs ib = Ok (map val srcs).
  Proof.
    induction srcs as [|s r IH]; intros ib ND H; simpl; auto.
    inversion ND as [|? ? Hn ND']; subst.
    destruct (H s (or_introl eq_refl)) as (Hs & rest & E).
    rewrite (proj2 (Nat.ltb_lt _ _) Hs), E, Hcodec.
    rewrite IH; auto. intros s' Hs'. destruct (H s' (or_intror Hs')) as (Hs2 & rest' & E').
    split; auto. exists rest'. rewrite fupd_ne; auto. intros ->. contradiction.
  Qed.
End Facts.

(** Plans that fit together: the conclusion of C02 and C03, for argument lists
    [srcs], [dests] indexed by rank. *)
Record sym_plan (srcs dests : list (list nat)) : Prop := {
  sp_len : length srcs = length dests;
  sp_src : forall q s, In s (nth q srcs []) -> s < length dests;
  sp_dst : forall p d, In d (nth p dests []) -> d < length dests;
  sp_nosrc : forall q, NoDup (nth q srcs []);
  sp_nodst : forall p, NoDup (nth p dests []);
  sp_sym : forall p q, In q (nth p dests []) <-> In p (nth q srcs [])
}.

Lemma sym_plan_flip srcs dests : sym_plan srcs dests -> sym_plan dests srcs.
Proof.
  intros [A B C D E F]. split; auto; rewrite ?A; auto.
  intros p q. split; apply F.
Qed.

(** Position [j] of rank [s]'s buffer is meant for [q]. *)
Definition slot {V} (dests : list (list nat)) (bufs : list (list V)) (s q : nat) (v : V) : Prop :=
  exists j, nth_error (nth s dests []) j = Some q /\ nth_error (nth s bufs []) j = Some v.

Lemma slot_fun {V} dests (bufs : list (list V)) s q v v' :
  NoDup (nth s dests []) -> slot dests bufs s q v -> slot dests bufs s q v' -> v = v'.
Proof.
  intros ND (j & A & B) (j' & A' & B').
  assert (j = j').
  { rewrite NoDup_nth_error in ND. apply ND; [|congruence]. apply nth_error_Some. congruence. }
  subst. congruence.
Qed.

Lemma filter_combine_nodup {V} (ds : list nat) (vs : list V) q j v :
  NoDup ds -> nth_error ds j = Some q -> nth_error vs j = Some v ->
  filter (fun dx => fst dx =? q) (combine ds vs) = [(q, v)].
Proof.
  revert vs j. induction ds as [|d ds IH]; intros vs j ND Hd Hv; [destruct j; discriminate|].
  inversion ND as [|? ? Hn ND']; subst.
  destruct vs as [|v0 vs]; [destruct j; discriminate|]. simpl.
  destruct j as [|j]; simpl in *.
  - inversion Hd; inversion Hv; subst. rewrite Nat.eqb_refl. f_equal.
    apply filter_none. intros [d' v'] Hin. apply in_combine_l in Hin. simpl.
    apply Nat.eqb_neq. intros ->. contradiction.
  - destruct (Nat.eqb_spec d q) as [->|N]; [|eapply IH; eauto].
    exfalso. apply Hn. eapply nth_error_In; eauto.
Qed.

Section Exchange.
  Context {T K : Type}.
  Variable encl : list T -> list K.
  Variable decl : list K -> option (list T * list K).
  Hypothesis Hcodec : forall x rest, decl (encl x ++ rest) = Some (x, rest).

  Lemma outbox_of_ok (buf : nat -> outcome (list T)) dests vals :
    length vals = length dests ->
    (forall i v, nth_error vals i = Some v -> buf i = Ok v) ->
    outbox_of buf dests = Ok (combine dests vals).
  Proof.
    intros L H. unfold outbox_of. apply mapM_ok. unfold enum.
    assert (G : forall k vs, length vs = length dests ->
              (forall i v, nth_error vs i = Some v -> buf (k + i) = Ok v) ->
              Forall2 (fun (a : nat * nat) b =>
                 (let '(i, d) := a in let* v := buf i in Ok (d, v)) = Ok b)
                (combine (seq k (length dests)) dests) (combine dests vs)).
    { clear. induction dests as [|d ds IH]; intros k vs L H; simpl; [constructor|].
      destruct vs as [|v vs]; [discriminate|]. simpl. constructor.
      - specialize (H 0 v eq_refl). rewrite Nat.add_0_r in H. rewrite H. reflexivity.
      - apply IH; [simpl in L; lia|]. intros i w Hw. specialize (H (S i) w Hw).
        rewrite <- H. f_equal. lia. }
    apply G; auto.
  Qed.

  Lemma written_sym srcs dests (bufs : list (list (list T))) p q v :
    sym_plan srcs dests -> slot dests bufs p q v ->
    written encl (combine (nth p dests []) (nth p bufs [])) q = encl v.
  Proof.
    intros SP (j & A & B). unfold written.
    rewrite (filter_combine_nodup _ _ q j v (sp_nodst _ _ SP p) A B). simpl.
    apply app_nil_r.
  Qed.

  Lemma slot_exists srcs dests (bufs : list (list (list T))) p q :
    sym_plan srcs dests -> map (@length _) bufs = map (@length _) dests ->
    In p (nth q srcs []) -> exists v, slot dests bufs p q v.
  Proof.
    intros SP HL Hin. apply (sp_sym _ _ SP) in Hin.
    apply In_nth_error in Hin as (j & Hj).
    assert (LE : length (nth p bufs []) = length (nth p dests [])).
    { rewrite <- (map_nth (@length (list T)) bufs [] p), <- (map_nth (@length nat) dests [] p), HL.
      reflexivity. }
    destruct (nth_error (nth p bufs []) j) as [v|] eqn:E.
    - exists v, j. auto.
    - exfalso. apply nth_error_None in E. rewrite LE in E. apply nth_error_None in E. congruence.
  Qed.

  Lemma combine_nth_lists (dests : list (list nat)) (bufs : list (list (list T))) p :
    length bufs = length dests ->
    nth p (map (fun db => combine (fst db) (snd db)) (combine dests bufs)) []
    = combine (nth p dests []) (nth p bufs []).
  Proof.
    intros L. destruct (lt_dec p (length dests)).
    - change (@nil (nat * list T)) with ((fun db => combine (fst db) (snd db)) (@nil nat, @nil (list T))).
      rewrite map_nth, combine_nth by auto. reflexivity.
    - rewrite !nth_overflow; auto; try lia. rewrite map_length, combine_length. lia.
  Qed.

  (** A symmetric exchange delivers slot by slot. *)
  Lemma sendRecv_sym par srcs dests (bufs : list (list (list T))) :
    sym_plan srcs dests -> map (@length _) bufs = map (@length _) dests ->
    par = true \/ (forall q, nth q srcs [] = []) ->
    exists res,
      sendRecv encl decl par (map (fun db => combine (fst db) (snd db)) (combine dests bufs)) srcs
        = Ok res /\
      length res = length srcs /\
      forall q, Forall2 (fun s v => slot dests bufs s q v) (nth q srcs []) (nth q res []).
  Proof.
    intros SP HL Hpar.
    assert (LB : length bufs = length dests).
    { rewrite <- (map_length (@length _) bufs), HL, map_length. auto. }
    destruct par.
    2:{ destruct Hpar as [|Hpar]; [discriminate|].
        exists (map (fun _ => []) srcs). split; [reflexivity|]. split; [apply map_length|].
        intros q. rewrite Hpar.
        replace (nth q (map (fun _ : list nat => @nil (list T)) srcs) []) with (@nil (list T)).
        - constructor.
        - clear. revert q. induction srcs; destruct q; simpl; auto. }
    set (outs := map (fun db => combine (fst db) (snd db)) (combine dests bufs)).
    change (list (list (nat * list T))) with (list (outbox (list T))) in outs.
    assert (LO : length outs = length dests).
    { unfold outs. rewrite map_length, combine_length. lia. }
    assert (HO : forall p, nth p outs [] = combine (nth p dests []) (nth p bufs []))
      by (intros; apply combine_nth_lists; auto).
    unfold sendRecv.
    match goal with |- context [if ?b then _ else UB] => assert (HF : b = true) end.
    { apply forallb_forall. intros o Ho. apply forallb_forall. intros [d v] Hd.
        apply Nat.ltb_lt. simpl. rewrite LO.
        apply (In_nth _ _ []) in Ho as (p & _ & <-). rewrite HO in Hd.
        apply in_combine_l in Hd. apply (sp_dst _ _ SP p). auto. }
    (* the received value for source s on rank q *)
    assert (Rd : forall q, exists vs,
      reads decl (length outs) (nth q srcs []) (fun p => written encl (nth p outs []) q) = Ok vs /\
      Forall2 (fun s v => slot dests bufs s q v) (nth q srcs []) vs).
    { intros q.
      assert (V : forall l, (forall s, In s l -> In s (nth q srcs [])) -> NoDup l ->
                  exists val, forall s, In s l -> slot dests bufs s q (val s)).
      { induction l as [|s l IH]; intros Hin ND; [exists (fun _ => []); intros s []|].
        inversion ND; subst.
        destruct IH as (val & Hv); auto; [intros; apply Hin; right; auto|].
        destruct (slot_exists srcs dests bufs s q SP HL (Hin s (or_introl eq_refl))) as (v & Hs).
        exists (fun s' => if s' =? s then v else val s'). intros s' [<-|Hs'].
        - rewrite Nat.eqb_refl. auto.
        - destruct (Nat.eqb_spec s' s) as [->|]; auto. }
      destruct (V (nth q srcs []) (fun s H => H) (sp_nosrc _ _ SP q)) as (val & Hv).
      exists (map val (nth q srcs [])). split.
      - apply (reads_ok encl decl Hcodec); [apply (sp_nosrc _ _ SP)|].
        intros s Hs. split; [rewrite LO; eapply sp_src; eauto|].
        exists []. rewrite app_nil_r, HO. eapply written_sym; eauto.
      - clear -Hv. induction (nth q srcs []); simpl; constructor; auto.
        + apply Hv. left. auto.
        + apply IHl. intros. apply Hv. right. auto. }
    assert (G : forall l k, (forall i, i < length l -> nth_error l i = nth_error srcs (k + i)) ->
      exists res, mapM (fun '(q, s) =>
          reads decl (length outs) s (fun p => written encl (nth p outs []) q))
          (combine (seq k (length l)) l) = Ok res /\ length res = length l /\
        forall i, i < length l ->
          Forall2 (fun s v => slot dests bufs s (k + i) v) (nth i l []) (nth i res [])).
    { induction l as [|s l IH]; intros k Hk; [exists []; repeat split; auto; simpl; intros; lia|].
      simpl. destruct (IH (S k)) as (res & R1 & R2 & R3).
      { intros i Hi. specialize (Hk (S i)). simpl in Hk. rewrite Hk by lia. f_equal. lia. }
      assert (Es : nth k srcs [] = s).
      { specialize (Hk 0 ltac:(simpl; lia)). rewrite Nat.add_0_r in Hk. simpl in Hk.
        apply nth_error_nth. auto. }
      destruct (Rd k) as (vs & V1 & V2). rewrite Es in V1, V2.
      rewrite V1. cbn [bind]. rewrite R1. cbn [bind]. exists (vs :: res).
      split; auto. split; [simpl; auto|]. intros i Hi. destruct i as [|i]; simpl.
      - rewrite Nat.add_0_r. auto.
      - replace (k + S i) with (S k + i) by lia. apply R3. lia. }
    destruct (G srcs 0) as (res & R1 & R2 & R3); [reflexivity|].
    exists res. split; [rewrite HF; exact R1|]. split; auto. intros q.
    destruct (lt_dec q (length srcs)) as [Hq|Hq]; [apply (R3 q Hq)|].
    rewrite !nth_overflow by lia. constructor.
  Qed.
End Exchange.
