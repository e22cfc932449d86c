(** Leaving out statements of a function whose results the others do not use.
    The definitions below are not functions of /repo. *)
From Coq Require Import List NArith PArith QArith Bool Lia.
From Verif Require Import Outcome Arith MechLang MechSrc MechCall.
Import ListNotations.
Local Open Scope nat_scope.

Lemma var_eqb_eq a b : var_eqb a b = true -> a = b.
Proof. unfold var_eqb. intros H. apply Nat.eqb_eq in H. destruct a, b; try reflexivity; discriminate H. Qed.

Lemma var_eqb_refl a : var_eqb a a = true.
Proof. apply Nat.eqb_refl. Qed.

(** An element of an array. *)
Definition place := (var * N)%type.

(** Equality of elements. *)
Definition place_eqb (a b : place) : bool := N.eqb (snd a) (snd b) && var_eqb (fst a) (fst b).

Lemma place_eqb_eq a b : place_eqb a b = true -> a = b.
Proof.
  destruct a, b. unfold place_eqb. cbn. intros H. apply andb_true_iff in H as [H2 H1].
  apply var_eqb_eq in H1. apply N.eqb_eq in H2. congruence.
Qed.

Lemma place_eqb_refl a : place_eqb a a = true.
Proof. destruct a. unfold place_eqb. cbn. rewrite var_eqb_refl, N.eqb_refl. reflexivity. Qed.

Section Slices.
  (** Elements that are not compared at all. *)
  Variable hid : place -> bool.

  (** Not among the elements [d] that may differ. *)
  Definition vis (d : list place) (p : place) : bool := negb (hid p) && negb (existsb (place_eqb p) d).

  (** An expression that reads no such element. *)
  Fixpoint seen (d : list place) (e : expr) : bool :=
    match e with
    | Num _ => true
    | Ref v i => vis d (v, i)
    | Neg a | Exp a | Log a | Log10 a => seen d a
    | Add a b | Sub a b | Mul a b | Div a b | Pow a b | Fmax a b => seen d a && seen d b
    | Ite a b t f => seen d a && seen d b && seen d t && seen d f
    end.

  (** The element that an assignment sets. *)
  Definition target (a : asgn) : place :=
    match a with Asn v i _ | AddA v i _ | SubA v i _ | MulA v i _ => (v, i) end.

  (** Elements that may differ after an assignment that is kept. *)
  Definition keep_a (d : list place) (a : asgn) : option (list place) :=
    match a with
    | Asn v i e => if seen d e && negb (hid (v, i)) then Some (filter (fun q => negb (place_eqb (v, i) q)) d) else None
    | AddA v i e | SubA v i e | MulA v i e => if seen d e && vis d (v, i) then Some d else None
    end.

  (** The same for a list. *)
  Fixpoint keep_l (d : list place) (l : list asgn) : option (list place) :=
    match l with
    | [] => Some d
    | a :: r => match keep_a d a with Some d' => keep_l d' r | None => None end
    end.

  (** Elements that may differ after assignments that are left out. *)
  Definition drop_l (d : list place) (l : list asgn) : list place := filter (fun p => negb (hid p)) (map target l) ++ d.

  (** The same for a statement; [true]: kept. *)
  Definition slice_s (d : list place) (s : bool * stmt) : option (list place) :=
    match s with
    | (true, Do a) => keep_a d a
    | (true, If a b t f) =>
        if seen d a && seen d b then
          match keep_l d t, keep_l d f with Some d1, Some d2 => Some (d1 ++ filter (fun p => negb (existsb (place_eqb p) d1)) d2) | _, _ => None end
        else None
    | (false, Do a) => Some (drop_l d [a])
    | (false, If a b t f) => Some (drop_l (drop_l d t) f)
    end.

  (** The same for a function body. *)
  Fixpoint slice (d : list place) (l : list (bool * stmt)) : option (list place) :=
    match l with
    | [] => Some d
    | s :: r => match slice_s d s with Some d' => slice d' r | None => None end
    end.

  (** The statements that are kept. *)
  Definition kept (l : list (bool * stmt)) : list stmt := map snd (filter fst l).

  Context {A : Arith}.
  Variable M : libm A.
  Variables len1 len2 : var -> N.
  Hypothesis LEN : forall v i, hid (v, i) = false -> (i <? len1 v)%N = (i <? len2 v)%N.

  (** Memories with the same contents but for those elements. *)
  Definition same (d : list place) (m1 m2 : @mem A) : Prop := forall v i, vis d (v, i) = true -> m1 v i = m2 v i.

  Lemma vis_hid d v i : vis d (v, i) = true -> hid (v, i) = false.
  Proof. unfold vis. intros H. apply andb_true_iff in H as [H _]. apply negb_true_iff, H. Qed.

  Lemma load_same d m1 m2 v i : same d m1 m2 -> vis d (v, i) = true -> load len1 m1 v i = load len2 m2 v i.
  Proof. intros H V. unfold load. rewrite (LEN v i (vis_hid d v i V)), (H v i V). reflexivity. Qed.

  Lemma eval_same d m1 m2 e : same d m1 m2 -> seen d e = true -> eval M len1 m1 e = eval M len2 m2 e.
  Proof.
    intros H. induction e; cbn [seen eval]; intros V; try reflexivity;
      repeat match goal with V : _ && _ = true |- _ => apply andb_true_iff in V; destruct V end;
      try (rewrite IHe by assumption; reflexivity);
      try (rewrite IHe1, IHe2 by assumption; reflexivity).
    - apply (load_same d); assumption.
    - rewrite IHe1, IHe2, IHe3, IHe4 by assumption. reflexivity.
  Qed.

  Lemma existsb_filter p q d : place_eqb p q = false -> existsb (place_eqb p) (filter (fun x => negb (place_eqb q x)) d) = existsb (place_eqb p) d.
  Proof.
    intros N. induction d as [|x d IH]; [reflexivity|]. cbn [filter existsb]. destruct (place_eqb q x) eqn:E; cbn [negb].
    - apply place_eqb_eq in E. subst x. rewrite N, IH. reflexivity.
    - cbn [existsb]. rewrite IH. reflexivity.
  Qed.

  Lemma vis_filter d v i p : hid p = false -> vis (filter (fun q => negb (place_eqb p q)) d) (v, i) = true -> place_eqb p (v, i) = true \/ vis d (v, i) = true.
  Proof.
    intros HH V. destruct (place_eqb p (v, i)) eqn:E; [left; reflexivity|right]. unfold vis in *. apply andb_true_iff in V as [V1 V2].
    rewrite V1. rewrite existsb_filter in V2; [exact V2|]. destruct (place_eqb (v, i) p) eqn:E'; [|reflexivity].
    apply place_eqb_eq in E'. subst p. rewrite place_eqb_refl in E. discriminate.
  Qed.

  Lemma store_same d m1 m2 m1' v i x : same d m1 m2 -> hid (v, i) = false -> store len1 m1 v i x = Ok m1' ->
    exists m2', store len2 m2 v i x = Ok m2' /\ same (filter (fun q => negb (place_eqb (v, i) q)) d) m1' m2'.
  Proof.
    intros H V E. unfold store in *. rewrite (LEN v i V) in E. destruct (i <? len2 v)%N; [|discriminate].
    injection E as <-. eexists. split; [reflexivity|]. intros w j W. destruct (var_eqb v w && (i =? j)%N) eqn:EQ; [reflexivity|].
    destruct (vis_filter d w j (v, i) V W) as [P|P]; [|apply H, P]. unfold place_eqb in P. cbn in P. rewrite andb_comm in P. congruence.
  Qed.

  Lemma same_weaken d d' m1 m2 : (forall p, vis d' p = true -> vis d p = true) -> same d m1 m2 -> same d' m1 m2.
  Proof. intros W H v i V. apply H, W, V. Qed.

  Lemma vis_sub d v i p : vis d p = true -> vis (filter (fun q => negb (place_eqb (v, i) q)) d) p = true.
  Proof.
    unfold vis. intros H. apply andb_true_iff in H as [H1 H2]. rewrite H1. cbn [andb]. apply negb_true_iff. apply negb_true_iff in H2.
    destruct (existsb (place_eqb p) (filter _ d)) eqn:E; [|reflexivity]. exfalso. apply existsb_exists in E as (q & I & E). apply filter_In in I as [I _].
    assert (existsb (place_eqb p) d = true) by (apply existsb_exists; exists q; split; assumption). congruence.
  Qed.

  Lemma assign_same d d' m1 m2 m1' a : same d m1 m2 -> keep_a d a = Some d' -> assign M len1 m1 a = Ok m1' ->
    exists m2', assign M len2 m2 a = Ok m2' /\ same d' m1' m2'.
  Proof.
    intros H K E. destruct a as [v i e|v i e|v i e|v i e]; cbn [keep_a assign] in *.
    { destruct (seen d e && negb (hid (v, i))) eqn:G; [|discriminate]. apply andb_true_iff in G as [G1 G2]. apply negb_true_iff in G2. injection K as <-.
      rewrite (eval_same d m1 m2 e H G1) in E. destruct (eval M len2 m2 e) as [x| | |]; try discriminate. cbn [bind] in *.
      apply (store_same d m1 m2); assumption. }
    all: destruct (seen d e && vis d (v, i)) eqn:G; [|discriminate]; apply andb_true_iff in G as [G1 G2]; injection K as <-;
      rewrite (eval_same d m1 m2 e H G1) in E; destruct (eval M len2 m2 e) as [x| | |]; try discriminate; cbn [bind] in *;
      rewrite (load_same d m1 m2 v i H G2) in E; destruct (load len2 m2 v i) as [o| | |]; try discriminate; cbn [bind] in *;
      destruct (store_same d m1 m2 m1' v i _ H (vis_hid d v i G2) E) as (m2' & E2 & S2); exists m2'; (split; [exact E2|]);
      eapply same_weaken; [|exact S2]; intros p; apply vis_sub.
  Qed.

  Lemma assigns_same l : forall d d' m1 m2 m1', same d m1 m2 -> keep_l d l = Some d' -> assigns M len1 m1 l = Ok m1' ->
    exists m2', assigns M len2 m2 l = Ok m2' /\ same d' m1' m2'.
  Proof.
    induction l as [|a l IH]; intros d d' m1 m2 m1' H K E; cbn [keep_l assigns] in *.
    - injection K as <-. injection E as <-. exists m2. split; [reflexivity|exact H].
    - destruct (keep_a d a) as [d1|] eqn:KA; [|discriminate]. destruct (assign M len1 m1 a) as [n1| | |] eqn:EA; try discriminate. cbn [bind] in E.
      destruct (assign_same d d1 m1 m2 n1 a H KA EA) as (n2 & E2 & S2). rewrite E2. cbn [bind]. apply (IH d1 d' n1 n2); assumption.
  Qed.

  Lemma vis_app d1 d2 p : vis (d1 ++ d2) p = true -> vis d1 p = true /\ vis d2 p = true.
  Proof.
    unfold vis. rewrite existsb_app. intros H. apply andb_true_iff in H as [H1 H2]. apply negb_true_iff, orb_false_iff in H2 as [H2 H3].
    rewrite H1, H2, H3. split; reflexivity.
  Qed.

  Lemma vis_union d1 d2 p : vis (d1 ++ filter (fun p => negb (existsb (place_eqb p) d1)) d2) p = true -> vis d1 p = true /\ vis d2 p = true.
  Proof.
    intros V. apply vis_app in V as [V1 V2]. split; [exact V1|]. unfold vis in *. apply andb_true_iff in V1 as [V0 V1]. apply andb_true_iff in V2 as [_ V2].
    rewrite V0. cbn [andb]. apply negb_true_iff. apply negb_true_iff in V1, V2. destruct (existsb (place_eqb p) d2) eqn:E; [|reflexivity]. exfalso.
    apply existsb_exists in E as (q & I & E). apply place_eqb_eq in E. subst q.
    assert (existsb (place_eqb p) (filter (fun p => negb (existsb (place_eqb p) d1)) d2) = true); [|congruence].
    apply existsb_exists. exists p. split; [|apply place_eqb_refl]. apply filter_In. rewrite V1. auto.
  Qed.

  Lemma store_drop d m1 m2 m1' v i x : same d m1 m2 -> store len1 m1 v i x = Ok m1' ->
    same (filter (fun p => negb (hid p)) [(v, i)] ++ d) m1' m2.
  Proof.
    intros H E. unfold store in E. destruct (i <? len1 v)%N; [|discriminate]. injection E as <-. intros w j V. cbv beta.
    destruct (var_eqb v w && (i =? j)%N) eqn:EQ.
    - exfalso. apply andb_true_iff in EQ as [E1 E2]. apply var_eqb_eq in E1. apply N.eqb_eq in E2. subst w j.
      cbn [filter] in V. destruct (hid (v, i)) eqn:HH; cbn [negb] in V.
      + apply vis_hid in V. congruence.
      + unfold vis in V. cbn [app existsb] in V. rewrite place_eqb_refl in V. cbn [orb negb] in V. rewrite andb_false_r in V. discriminate.
    - apply H. apply vis_app in V. apply V.
  Qed.

  Lemma assign_drop d m1 m2 m1' a : same d m1 m2 -> assign M len1 m1 a = Ok m1' -> same (drop_l d [a]) m1' m2.
  Proof.
    intros H E. unfold drop_l. destruct a as [v i e|v i e|v i e|v i e]; cbn [assign map target] in *;
      destruct (eval M len1 m1 e) as [x| | |]; try discriminate; cbn [bind] in E; [apply (store_drop d m1 m2 m1' v i x H E)| | |];
      (destruct (load len1 m1 v i) as [o| | |]; try discriminate; cbn [bind] in E; eapply store_drop; [exact H|exact E]).
  Qed.

  Lemma drop_cons d a l p : vis (drop_l d (a :: l)) p = vis (drop_l (drop_l d [a]) l) p.
  Proof.
    unfold vis, drop_l. f_equal. f_equal. rewrite !existsb_app. cbn [map filter]. destruct (negb (hid (target a))); cbn [existsb].
    - rewrite orb_false_r. destruct (place_eqb p (target a)), (existsb (place_eqb p) (filter _ (map target l))); reflexivity.
    - reflexivity.
  Qed.

  Lemma assigns_drop l : forall d m1 m2 m1', same d m1 m2 -> assigns M len1 m1 l = Ok m1' -> same (drop_l d l) m1' m2.
  Proof.
    induction l as [|a l IH]; intros d m1 m2 m1' H E; cbn [assigns] in E.
    - injection E as <-. exact H.
    - destruct (assign M len1 m1 a) as [n1| | |] eqn:EA; try discriminate. cbn [bind] in E.
      eapply same_weaken; [|apply (IH (drop_l d [a]) n1 m2 m1'); [apply (assign_drop d m1); assumption|exact E]].
      intros p V. rewrite <- drop_cons. exact V.
  Qed.

  Theorem slice_run l : forall d d' m1 m2 m1', same d m1 m2 -> slice d l = Some d' -> run M len1 m1 (map snd l) = Ok m1' ->
    exists m2', run M len2 m2 (kept l) = Ok m2' /\ same d' m1' m2'.
  Proof.
    induction l as [|[b s] l IH]; intros d d' m1 m2 m1' H K E; cbn [slice map snd run] in *.
    - injection K as <-. injection E as <-. exists m2. split; [reflexivity|exact H].
    - destruct (slice_s d (b, s)) as [d1|] eqn:KS; [|discriminate]. destruct (step M len1 m1 s) as [n1| | |] eqn:ES; try discriminate. cbn [bind] in E.
      destruct b.
      + assert (G : exists n2, step M len2 m2 s = Ok n2 /\ same d1 n1 n2).
        { destruct s as [a|a c t f]; cbn [slice_s step] in *; [apply (assign_same d d1 m1); assumption|].
          destruct (seen d a && seen d c) eqn:G; [|discriminate]. apply andb_true_iff in G as [G1 G2].
          destruct (keep_l d t) as [dt|] eqn:Kt; [|discriminate]. destruct (keep_l d f) as [df|] eqn:Kf; [|discriminate]. injection KS as <-.
          rewrite (eval_same d m1 m2 a H G1) in ES. destruct (eval M len2 m2 a) as [x| | |]; try discriminate. cbn [bind] in *.
          rewrite (eval_same d m1 m2 c H G2) in ES. destruct (eval M len2 m2 c) as [z| | |]; try discriminate. cbn [bind] in *.
          destruct (nleb A x z).
          - destruct (assigns_same t d dt m1 m2 n1 H Kt ES) as (n2 & E2 & S2). exists n2. split; [exact E2|].
            eapply same_weaken; [|exact S2]. intros p V. apply vis_union in V. apply V.
          - destruct (assigns_same f d df m1 m2 n1 H Kf ES) as (n2 & E2 & S2). exists n2. split; [exact E2|].
            eapply same_weaken; [|exact S2]. intros p V. apply vis_union in V. apply V. }
        destruct G as (n2 & E2 & S2). unfold kept. cbn [filter fst map snd run]. rewrite E2. cbn [bind]. apply (IH d1 d' n1 n2); assumption.
      + assert (G : same d1 n1 m2).
        { destruct s as [a|a c t f]; cbn [slice_s step] in *.
          - injection KS as <-. apply (assign_drop d m1); assumption.
          - injection KS as <-. destruct (eval M len1 m1 a) as [x| | |]; try discriminate. cbn [bind] in ES.
            destruct (eval M len1 m1 c) as [z| | |]; try discriminate. cbn [bind] in ES.
            destruct (nleb A x z).
            + apply (same_weaken (drop_l d t)); [|apply (assigns_drop t d m1); assumption]. intros p V. unfold drop_l at 1 in V. apply vis_app in V. apply V.
            + apply (same_weaken (drop_l d f)); [|apply (assigns_drop f d m1); assumption]. intros p V. unfold drop_l in *.
              apply vis_app in V as [V1 V2]. apply vis_app in V2 as [_ V2]. unfold vis in *. apply andb_true_iff in V1 as [V0 V1]. apply andb_true_iff in V2 as [_ V2].
              rewrite V0, existsb_app. apply negb_true_iff in V1, V2. rewrite V1, V2. reflexivity. }
        unfold kept. cbn [filter fst]. apply (IH d1 d' n1 m2); assumption.
  Qed.

  Lemma read_same d m1 m2 v n l : same d m1 m2 -> (forall i, i < n -> vis d (v, N.of_nat i) = true) ->
    N.to_nat (len2 v) = n -> n <= N.to_nat (len1 v) ->
    read len1 m1 v = Ok l -> read len2 m2 v = Ok (firstn n l).
  Proof.
    intros H V E2 E1 R. unfold read in *. rewrite E2. replace (N.to_nat (len1 v)) with (n + (N.to_nat (len1 v) - n)) in R by lia.
    rewrite seq_app in R. revert R.
    assert (G : forall s r out, (forall i, In i s -> vis d (v, N.of_nat i) = true) ->
      mapM (fun i => load len1 m1 v (N.of_nat i)) (s ++ r) = Ok out -> mapM (fun i => load len2 m2 v (N.of_nat i)) s = Ok (firstn (length s) out)).
    { induction s as [|i s IH]; intros r out W E; [reflexivity|]. cbn [app mapM length] in *.
      rewrite (load_same d m1 m2) in E by (try exact H; apply W; left; reflexivity).
      destruct (load len2 m2 v (N.of_nat i)) as [x| | |]; try discriminate. cbn [bind] in *.
      destruct (mapM _ (s ++ r)) as [o| | |] eqn:EO; try discriminate. cbn [bind] in E. injection E as <-.
      rewrite (IH r o) by (try exact EO; intros; apply W; right; assumption). reflexivity. }
    intros R. assert (W : forall i, In i (seq 0 n) -> vis d (v, N.of_nat i) = true) by (intros i Hi; apply in_seq in Hi; apply V; lia).
    rewrite (G _ _ _ W R). rewrite seq_length. reflexivity.
  Qed.
End Slices.
