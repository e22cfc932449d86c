(** The two-pointer sweep of LoadBalancer::getOperations: reachability form and
    structural invariants valid for every arithmetic. *)
From Coq Require Import List Arith ZArith QArith Bool Lia Permutation Sorted.
From Verif Require Import Outcome Arith Problem LoadBalancing BalancerSpec.
Import ListNotations.
Local Open Scope nat_scope.

(** Normalise nested appends and close the goal. *)
Ltac lapp := repeat (progress (rewrite <- ?app_assoc; simpl)); reflexivity.

Section Sweep.
  Context {A : Arith}.
  Notation load := (load A).
  Notation operation := (operation A).

  (** Does the operation concern rank [my]?  (Test of LoadBalancer.C:126.) *)
  Definition involves (my : nat) (op : operation) : bool :=
    (o_from op =? my) || (o_to op =? my).

  Section Mean.
    Variable mean : num A.

    (** Lines 122-123, 130 and 131 of LoadBalancer.C for receiver [a], sender [b]. *)
    Definition xfer (a b : load) : num A :=
      std_min A (nsub A (l_value b) mean) (nsub A mean (l_value a)).
    Definition recv' (a b : load) : load := mkLoad (l_rank a) (nadd A (l_value a) (xfer a b)).
    Definition send' (a b : load) : load := mkLoad (l_rank b) (nsub A (l_value b) (xfer a b)).
    Definition xop (a b : load) : operation := mkOp (l_rank b) (l_rank a) (xfer a b).
    (** Test of LoadBalancer.C:133. *)
    Definition drained (b : load) : bool :=
      nltb A (nabs A (nsub A (l_value b) mean)) (small A).

    (** [reach init P W S g]: starting from the sorted loads [init] the sweep can be
        in a state whose loads are [P ++ W ++ S], receiver at the first and sender at
        the last element of the window [W], and [g] are all operations so far. *)
    Inductive reach (init : list load)
      : list load -> list load -> list load -> list operation -> Prop :=
    | reach_init : reach init [] init [] []
    | reach_send P a M b S g :
        reach init P (a :: M ++ [b]) S g ->
        drained (send' a b) = true ->
        reach init P (recv' a b :: M) (send' a b :: S) (g ++ [xop a b])
    | reach_recv P a M b S g :
        reach init P (a :: M ++ [b]) S g ->
        drained (send' a b) = false ->
        reach init (P ++ [recv' a b]) (M ++ [send' a b]) S (g ++ [xop a b]).

    Lemma list_snoc {T} (l : list T) : l <> [] -> exists M b, l = M ++ [b].
    Proof.
      intros H. destruct (exists_last H) as (M & b & E). eauto.
    Qed.

    Lemma window_split {T} (W : list T) n :
      length W = S (S n) -> exists a M b, W = a :: M ++ [b] /\ length M = n.
    Proof.
      destruct W as [|a W]; simpl; [discriminate|]. intros H.
      destruct (list_snoc W) as (M & b & ->).
      { intros ->. discriminate. }
      rewrite app_length in H; simpl in H. exists a, M, b. split; auto. lia.
    Qed.

    (** One iteration of the index-based loop on a window. *)
    Lemma sweep_step fuel my P a M b S g :
      sweep (Datatypes.S fuel) mean my (P ++ (a :: M ++ [b]) ++ S)
            (length P + Datatypes.S (length M)) (length P) (filter (involves my) g)
      = (if drained (send' a b)
         then sweep fuel mean my (P ++ (recv' a b :: M) ++ send' a b :: S)
                (length P + length M) (length P) (filter (involves my) (g ++ [xop a b]))
         else sweep fuel mean my ((P ++ [recv' a b]) ++ (M ++ [send' a b]) ++ S)
                (length P + Datatypes.S (length M)) (Datatypes.S (length P))
                (filter (involves my) (g ++ [xop a b]))).
    Proof.
      set (s := length P + Datatypes.S (length M)).
      cbn [sweep].
      assert (Hne : (s =? length P) = false) by (apply Nat.eqb_neq; unfold s; lia).
      rewrite Hne.
      assert (Hs : forall x y : load, s = length (P ++ (x :: M))).
      { intros. unfold s. rewrite app_length. simpl. lia. }
      assert (E1 : forall x y : load, P ++ (x :: M ++ [y]) ++ S = (P ++ x :: M) ++ y :: S).
      { intros. lapp. }
      assert (E2 : forall x y : load, P ++ (x :: M ++ [y]) ++ S = P ++ x :: (M ++ y :: S)).
      { intros. lapp. }
      assert (I1 : forall x y : load, idx (P ++ (x :: M ++ [y]) ++ S) s = Ok y).
      { intros. unfold idx. rewrite E1, (Hs x y), nth_error_mid. reflexivity. }
      assert (I2 : forall x y : load, idx (P ++ (x :: M ++ [y]) ++ S) (length P) = Ok x).
      { intros. unfold idx. rewrite E2, nth_error_mid. reflexivity. }
      assert (L : forall x y : load, length (P ++ (x :: M ++ [y]) ++ S)
                  = length P + Datatypes.S (Datatypes.S (length M + length S))).
      { intros. rewrite !app_length. simpl. rewrite !app_length. simpl. lia. }
      assert (U1 : forall x y z : load, setidx (P ++ (x :: M ++ [y]) ++ S) s z
                   = Ok (P ++ (x :: M ++ [z]) ++ S)).
      { intros. unfold setidx. rewrite L.
        replace (s <? _) with true by (symmetry; apply Nat.ltb_lt; unfold s; lia).
        rewrite !E1, (Hs x y), upd_app_r. reflexivity. }
      assert (U2 : forall x y z : load, setidx (P ++ (x :: M ++ [y]) ++ S) (length P) z
                   = Ok (P ++ (z :: M ++ [y]) ++ S)).
      { intros. unfold setidx. rewrite L.
        replace (_ <? _) with true by (symmetry; apply Nat.ltb_lt; lia).
        rewrite !E2, upd_app_r. reflexivity. }
      rewrite I1. cbn [bind]. rewrite I2. cbn [bind].
      rewrite U1. cbn [bind]. rewrite I2. cbn [bind]. rewrite U2. cbn [bind].
      rewrite I1. cbn [bind].
      fold (xfer a b). fold (recv' a b). fold (send' a b). fold (xop a b).
      change (nltb A (nabs A (nsub A (l_value (send' a b)) mean)) (small A))
        with (drained (send' a b)).
      replace (if (l_rank b =? my) || (l_rank a =? my)
               then filter (involves my) g ++ [xop a b]
               else filter (involves my) g)
        with (filter (involves my) (g ++ [xop a b])).
      2:{ rewrite filter_app. simpl. unfold involves at 2. simpl.
          destruct ((l_rank b =? my) || (l_rank a =? my)); auto using app_nil_r. }
      destruct (drained (send' a b)).
      - unfold s. rewrite Nat.add_succ_r.
        f_equal. lapp.
      - f_equal. lapp.
    Qed.

    Lemma sweep_stop fuel my P x S g :
      sweep fuel mean my (P ++ [x] ++ S) (length P) (length P) g
      = Ok (P ++ [x] ++ S, g).
    Proof. destruct fuel; simpl; rewrite Nat.eqb_refl; reflexivity. Qed.

    (** From a window of [n+1] loads the loop does exactly [n] iterations. *)
    Lemma sweep_reach init n : forall P W S g,
      length W = Datatypes.S n -> reach init P W S g ->
      exists P' x S' g',
        reach init P' [x] S' g' /\
        (forall my fuel, n <= fuel ->
           sweep fuel mean my (P ++ W ++ S) (length P + n) (length P)
             (filter (involves my) g)
           = Ok (P' ++ [x] ++ S', filter (involves my) g')) /\
        (forall my fuel, fuel < n ->
           sweep fuel mean my (P ++ W ++ S) (length P + n) (length P)
             (filter (involves my) g) = Diverge).
    Proof.
      induction n as [|n IH]; intros P W S g HW HR.
      - destruct W as [|x [|? ?]]; try discriminate.
        exists P, x, S, g. split; auto. split; [|lia].
        intros my fuel _. rewrite Nat.add_0_r. apply sweep_stop.
      - destruct (window_split W n HW) as (a & M & b & -> & HM).
        destruct (drained (send' a b)) eqn:D.
        + destruct (IH P (recv' a b :: M) (send' a b :: S) (g ++ [xop a b]))
            as (P' & x & S' & g' & HR' & Hok & Hdiv).
          { simpl; lia. } { now apply reach_send. }
          exists P', x, S', g'. split; auto. split.
          * intros my [|fuel] Hf; [lia|].
            rewrite <- HM, sweep_step, D, HM. apply Hok. lia.
          * intros my [|fuel] Hf.
            { simpl. replace (_ =? _) with false; auto.
              symmetry; apply Nat.eqb_neq; lia. }
            rewrite <- HM, sweep_step, D, HM. apply Hdiv. lia.
        + destruct (IH (P ++ [recv' a b]) (M ++ [send' a b]) S (g ++ [xop a b]))
            as (P' & x & S' & g' & HR' & Hok & Hdiv).
          { rewrite app_length; simpl; lia. } { now apply reach_recv. }
          rewrite app_length in Hok, Hdiv. cbn [length] in Hok, Hdiv.
          replace (length P + 1 + n) with (length P + Datatypes.S n) in Hok, Hdiv by lia.
          replace (length P + 1) with (Datatypes.S (length P)) in Hok, Hdiv by lia.
          exists P', x, S', g'. split; auto. split.
          * intros my [|fuel] Hf; [lia|].
            rewrite <- HM at 1. rewrite sweep_step, D, HM. apply Hok. lia.
          * intros my [|fuel] Hf.
            { simpl. replace (_ =? _) with false; auto.
              symmetry; apply Nat.eqb_neq; lia. }
            rewrite <- HM at 1. rewrite sweep_step, D, HM. apply Hdiv. lia.
    Qed.

    (** The whole loop. *)
    Lemma sweep_total init :
      init <> [] ->
      exists P x S g,
        reach init P [x] S g /\
        (forall my fuel, length init - 1 <= fuel ->
           sweep fuel mean my init (length init - 1) 0 []
           = Ok (P ++ [x] ++ S, filter (involves my) g)) /\
        (forall my fuel, fuel < length init - 1 ->
           sweep fuel mean my init (length init - 1) 0 [] = Diverge).
    Proof.
      intros Hne.
      destruct (sweep_reach init (length init - 1) [] init [] [])
        as (P & x & S & g & HR & H1 & H2).
      { destruct init; [congruence|simpl; lia]. }
      { constructor. }
      exists P, x, S, g. split; auto.
      rewrite app_nil_r in H1, H2. simpl in H1, H2. split; auto.
    Qed.

    (** ** Structural invariants *)

    Definition ranks (l : list load) : list nat := map l_rank l.

    Lemma reach_ranks init P W S g :
      reach init P W S g -> ranks (P ++ W ++ S) = ranks init.
    Proof.
      induction 1 as [|P a M b S g _ IH _|P a M b S g _ IH _].
      - simpl. rewrite app_nil_r. reflexivity.
      - rewrite <- IH. unfold ranks. repeat (rewrite ?map_app; simpl). lapp.
      - rewrite <- IH. unfold ranks. repeat (rewrite ?map_app; simpl). lapp.
    Qed.

    Lemma reach_nonempty init P W S g :
      init <> [] -> reach init P W S g -> W <> [].
    Proof.
      intros Hi. induction 1; auto; try discriminate.
      destruct M; discriminate.
    Qed.

    Record struct_inv (P W S : list load) (g : list operation) : Prop := {
      si_loc : forall op, In op g ->
        (In (o_from op) (ranks S) \/ o_from op = last (ranks W) 0) /\
        (In (o_to op) (ranks P) \/ o_to op = hd 0 (ranks W));
      si_excl : (forall op, In op g -> o_from op <> last (ranks W) 0) \/
                (forall op, In op g -> o_to op <> hd 0 (ranks W));
      si_ne : forall op, In op g -> o_from op <> o_to op;
      si_nodup : NoDup (map (fun op => (o_from op, o_to op)) g)
    }.

    Lemma last_ranks_snoc R b : last (ranks (R ++ [b])) 0 = l_rank b.
    Proof. unfold ranks. rewrite map_app. simpl. apply last_last. Qed.

    Lemma last_ranks_window a M b : last (ranks (a :: M ++ [b])) 0 = l_rank b.
    Proof. apply (last_ranks_snoc (a :: M)). Qed.

    Lemma last_in (l : list nat) : l <> [] -> In (last l 0) l.
    Proof.
      intros H. destruct (exists_last H) as (m & b & ->).
      rewrite last_last. apply in_or_app. right. left. reflexivity.
    Qed.

    Lemma NoDup_disj {T} (l1 l2 : list T) x :
      NoDup (l1 ++ l2) -> In x l1 -> In x l2 -> False.
    Proof.
      induction l1; simpl; intros H H1 H2; auto. inversion H; subst.
      destruct H1 as [->|H1]; eauto. apply H4. apply in_or_app. auto.
    Qed.

    Lemma NoDup_appr {T} (l1 l2 : list T) : NoDup (l1 ++ l2) -> NoDup l2.
    Proof. induction l1; simpl; auto. intros H. inversion H; auto. Qed.

    Lemma NoDup_rev_iff_app {T} (l : list T) x :
      (NoDup l /\ ~ In x l) -> NoDup (l ++ [x]).
    Proof.
      intros [H1 H2]. apply NoDup_rev in H1. rewrite in_rev in H2.
      rewrite <- (rev_involutive l). change [x] with (rev [x]).
      rewrite <- rev_app_distr. apply NoDup_rev. simpl. constructor; auto.
    Qed.

    Lemma reach_struct init P W S g :
      NoDup (ranks init) -> init <> [] ->
      reach init P W S g -> struct_inv P W S g.
    Proof.
      intros Hnd Hne HR.
      induction HR as [|P a M b S g HR IH D|P a M b S g HR IH D].
      - split; simpl; try tauto. constructor.
      - assert (Hr := reach_ranks _ _ _ _ _ HR).
        rewrite <- Hr in Hnd.
        assert (ND : NoDup (ranks P ++ [l_rank a] ++ ranks M ++ [l_rank b] ++ ranks S)).
        { clear - Hnd. revert Hnd. unfold ranks. repeat (rewrite ?map_app; simpl).
          rewrite <- !app_assoc. simpl. auto. }
        assert (Hab : l_rank b <> l_rank a).
        { intros E. apply NoDup_appr in ND. simpl in ND.
          inversion ND as [|? ? Hin _]; subst. apply Hin. rewrite <- E.
          apply in_or_app. right. left. reflexivity. }
        destruct IH as [Hloc Hexcl Hneq Hpairs].
        rewrite last_ranks_window in Hloc, Hexcl. cbn [ranks map hd] in Hloc, Hexcl.
        assert (Hfrom : forall op, In op (g ++ [xop a b]) ->
                  In (o_from op) (l_rank b :: ranks S)).
        { intros op Hin. apply in_app_or in Hin as [Hin|[<-|[]]].
          - destruct (Hloc op Hin) as [[?|E] _]; simpl; auto.
          - left. reflexivity. }
        split.
        + intros op Hin. split.
          * left. apply (Hfrom op Hin).
          * simpl. apply in_app_or in Hin as [Hin|[<-|[]]]; [apply Hloc; auto|].
            right. reflexivity.
        + left. intros op Hin E. specialize (Hfrom op Hin). rewrite E in Hfrom.
          assert (Hw : In (last (ranks (recv' a b :: M)) 0) (l_rank a :: ranks M)).
          { apply (last_in (l_rank a :: ranks M)). discriminate. }
          apply NoDup_appr in ND.
          apply (NoDup_disj (l_rank a :: ranks M) (l_rank b :: ranks S)
                   (last (ranks (recv' a b :: M)) 0)); auto.
        + intros op Hin. apply in_app_or in Hin as [Hin|[<-|[]]]; auto.
        + rewrite map_app. simpl. apply NoDup_rev_iff_app. split; auto.
          intros Hin. apply in_map_iff in Hin as (op & E & Hin).
          inversion E as [[E1 E2]].
          destruct Hexcl as [H|H]; specialize (H op Hin); congruence.
      - assert (Hr := reach_ranks _ _ _ _ _ HR).
        rewrite <- Hr in Hnd.
        assert (ND : NoDup (ranks P ++ [l_rank a] ++ ranks M ++ [l_rank b] ++ ranks S)).
        { clear - Hnd. revert Hnd. unfold ranks. repeat (rewrite ?map_app; simpl).
          rewrite <- !app_assoc. simpl. auto. }
        assert (Hab : l_rank b <> l_rank a).
        { intros E. apply NoDup_appr in ND. simpl in ND.
          inversion ND as [|? ? Hin _]; subst. apply Hin. rewrite <- E.
          apply in_or_app. right. left. reflexivity. }
        destruct IH as [Hloc Hexcl Hneq Hpairs].
        rewrite last_ranks_window in Hloc, Hexcl. cbn [ranks map hd] in Hloc, Hexcl.
        assert (Hto : forall op, In op (g ++ [xop a b]) ->
                  In (o_to op) (ranks P ++ [l_rank a])).
        { intros op Hin. apply in_or_app. apply in_app_or in Hin as [Hin|[<-|[]]].
          - destruct (Hloc op Hin) as [_ [?|E]]; simpl; auto.
          - right. left. reflexivity. }
        split.
        + intros op Hin. rewrite last_ranks_snoc. split.
          * apply in_app_or in Hin as [Hin|[<-|[]]]; [apply Hloc; auto|].
            right. reflexivity.
          * left. unfold ranks. rewrite map_app. simpl. apply (Hto op Hin).
        + right. intros op Hin E. specialize (Hto op Hin). rewrite E in Hto.
          rewrite app_assoc in ND.
          apply (NoDup_disj _ _ (hd 0 (ranks (M ++ [send' a b]))) ND Hto).
          destruct M; simpl; auto.
        + intros op Hin. apply in_app_or in Hin as [Hin|[<-|[]]]; auto.
        + rewrite map_app. simpl. apply NoDup_rev_iff_app. split; auto.
          intros Hin. apply in_map_iff in Hin as (op & E & Hin).
          inversion E as [[E1 E2]].
          destruct Hexcl as [H|H]; specialize (H op Hin); congruence.
    Qed.
  End Mean.
End Sweep.
