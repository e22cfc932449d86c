(** [eval_jacob] is defined for all arguments, in every arithmetic, and does not depend on what the uninitialised array dBdT contains.
    The definitions below are not functions of /repo. *)
From Coq Require Import List NArith PArith QArith Bool Lia.
From Verif Require Import Outcome Arith MechLang MechSrc MechCall MechDefined Mechanisms MechJac MechFull MechSlice MechSliceT.
Import ListNotations.
Local Open Scope nat_scope.

Section Initialised.
  Variable len : var -> N.
  (** Arguments. *)
  Variable ins : var -> bool.

  (** In bounds and initialised; [d] are the elements set so far. *)
  Definition set_p (d : list place) (p : place) : bool := N.ltb (snd p) (len (fst p)) && (ins (fst p) || existsb (place_eqb p) d).

  (** An expression reads only such elements. *)
  Fixpoint set_e (d : list place) (e : expr) : bool :=
    match e with
    | Num _ => true
    | Ref v i => set_p d (v, i)
    | Neg a | Exp a | Log a | Log10 a => set_e d a
    | Add a b | Sub a b | Mul a b | Div a b | Pow a b | Fmax a b => set_e d a && set_e d b
    | Ite a b t f => set_e d a && set_e d b && set_e d t && set_e d f
    end.

  (** Elements set after an assignment. *)
  Definition set_a (d : list place) (a : asgn) : option (list place) :=
    match a with
    | Asn v i e => if set_e d e && N.ltb i (len v) then Some (if ins v || existsb (place_eqb (v, i)) d then d else (v, i) :: d) else None
    | AddA v i e | SubA v i e | MulA v i e => if set_e d e && set_p d (v, i) then Some d else None
    end.

  Fixpoint set_l (d : list place) (l : list asgn) : option (list place) :=
    match l with
    | [] => Some d
    | a :: r => match set_a d a with Some d' => set_l d' r | None => None end
    end.

  (** The same for a statement; after an [if] only what both branches set. *)
  Definition set_s (d : list place) (s : stmt) : option (list place) :=
    match s with
    | Do a => set_a d a
    | If a b t f =>
        if set_e d a && set_e d b then
          match set_l d t, set_l d f with Some d1, Some d2 => Some (filter (fun p => existsb (place_eqb p) d2) d1) | _, _ => None end
        else None
    end.

  Fixpoint set_r (d : list place) (l : list stmt) : option (list place) :=
    match l with
    | [] => Some d
    | s :: r => match set_s d s with Some d' => set_r d' r | None => None end
    end.

  Context {A : Arith}.
  Variable M : libm A.

  Definition holds (d : list place) (m : @mem A) : Prop := forall v i, set_p d (v, i) = true -> exists x, m v i = Some x.

  Lemma load_set d m v i : holds d m -> set_p d (v, i) = true -> exists x, load len m v i = Ok x.
  Proof.
    intros H S. destruct (H v i S) as [x E]. unfold set_p in S. cbn [fst snd] in S. apply andb_true_iff in S as [S _].
    unfold load. rewrite S, E. eauto.
  Qed.

  Lemma eval_set d m e : holds d m -> set_e d e = true -> exists x, eval M len m e = Ok x.
  Proof.
    intros H. induction e; cbn [set_e eval]; intros S;
      repeat match goal with S : _ && _ = true |- _ => apply andb_true_iff in S; destruct S end;
      repeat match goal with IH : ?a = true -> exists x, _, K : ?a = true |- _ => let x := fresh "x" in let E := fresh "E" in destruct (IH K) as [x E]; clear IH; rewrite ?E; cbn [bind] end;
      eauto.
    - apply (load_set d); assumption.
    - destruct (nleb A _ _); eauto.
  Qed.

  Lemma store_set d m v i x : holds d m -> N.ltb i (len v) = true ->
    exists m', store len m v i x = Ok m' /\ holds (if ins v || existsb (place_eqb (v, i)) d then d else (v, i) :: d) m'.
  Proof.
    intros H L. unfold store. rewrite L. eexists. split; [reflexivity|]. intros w j S. cbv beta.
    destruct (var_eqb v w && (i =? j)%N) eqn:E; [eauto|]. apply H. unfold set_p in *. cbn [fst snd] in *.
    destruct (ins v || existsb (place_eqb (v, i)) d); [exact S|]. apply andb_true_iff in S as [S1 S2]. rewrite S1. cbn [andb].
    apply orb_true_iff in S2 as [S2|S2]; [rewrite S2; reflexivity|]. cbn [existsb] in S2. apply orb_true_iff in S2 as [S2|S2].
    - apply place_eqb_eq in S2. injection S2 as -> ->. rewrite var_eqb_refl, N.eqb_refl in E. discriminate.
    - rewrite S2. apply orb_true_r.
  Qed.

  Lemma assign_set d d' m a : holds d m -> set_a d a = Some d' -> exists m', assign M len m a = Ok m' /\ holds d' m'.
  Proof.
    intros H S. destruct a as [v i e|v i e|v i e|v i e]; cbn [set_a assign] in *.
    { destruct (set_e d e && N.ltb i (len v)) eqn:G; [|discriminate]. apply andb_true_iff in G as [G1 G2]. injection S as <-.
      destruct (eval_set d m e H G1) as [x ->]. cbn [bind]. apply store_set; assumption. }
    all: destruct (set_e d e && set_p d (v, i)) eqn:G; [|discriminate]; apply andb_true_iff in G as [G1 G2]; injection S as <-;
      destruct (eval_set d m e H G1) as [x ->]; cbn [bind]; destruct (load_set d m v i H G2) as [o ->]; cbn [bind];
      unfold set_p in G2; cbn [fst snd] in G2; apply andb_true_iff in G2 as [G2 G3].
    - destruct (store_set d m v i (nadd A o x) H G2) as (m' & E & Hm). rewrite G3 in Hm. eauto.
    - destruct (store_set d m v i (nsub A o x) H G2) as (m' & E & Hm). rewrite G3 in Hm. eauto.
    - destruct (store_set d m v i (nmul A o x) H G2) as (m' & E & Hm). rewrite G3 in Hm. eauto.
  Qed.

  Lemma assigns_set l : forall d d' m, holds d m -> set_l d l = Some d' -> exists m', assigns M len m l = Ok m' /\ holds d' m'.
  Proof.
    induction l as [|a l IH]; intros d d' m H S; cbn [set_l assigns] in *; [injection S as <-; eauto|].
    destruct (set_a d a) as [d1|] eqn:SA; [|discriminate]. destruct (assign_set d d1 m a H SA) as (m1 & -> & H1). cbn [bind]. apply (IH d1); assumption.
  Qed.

  Theorem run_set l : forall d d' m, holds d m -> set_r d l = Some d' -> exists m', run M len m l = Ok m' /\ holds d' m'.
  Proof.
    induction l as [|s l IH]; intros d d' m H S; cbn [set_r run] in *; [injection S as <-; eauto|].
    destruct (set_s d s) as [d1|] eqn:SS; [|discriminate].
    assert (G : exists m1, step M len m s = Ok m1 /\ holds d1 m1).
    { destruct s as [a|a b t f]; cbn [set_s step] in *; [apply (assign_set d); assumption|].
      destruct (set_e d a && set_e d b) eqn:G; [|discriminate]. apply andb_true_iff in G as [G1 G2].
      destruct (set_l d t) as [dt|] eqn:St; [|discriminate]. destruct (set_l d f) as [df|] eqn:Sf; [|discriminate]. injection SS as <-.
      destruct (eval_set d m a H G1) as [x ->]. destruct (eval_set d m b H G2) as [z ->]. cbn [bind].
      assert (W : forall v i, set_p (filter (fun p => existsb (place_eqb p) df) dt) (v, i) = true -> set_p dt (v, i) = true /\ set_p df (v, i) = true).
      { intros v i W. unfold set_p in *. cbn [fst snd] in *. apply andb_true_iff in W as [W1 W2]. rewrite W1. cbn [andb].
        apply orb_true_iff in W2 as [W2|W2]; [rewrite W2; auto|]. apply existsb_exists in W2 as (p & I & E). apply filter_In in I as [I1 I2].
        apply place_eqb_eq in E. subst p. rewrite I2. assert (I3 : existsb (place_eqb (v, i)) dt = true) by (apply existsb_exists; exists (v, i); split; [exact I1|apply place_eqb_refl]).
        rewrite I3, !orb_true_r. auto. }
      destruct (nleb A x z).
      - destruct (assigns_set t d dt m H St) as (m1 & E & H1). exists m1. split; [exact E|]. intros v i V. apply H1, W, V.
      - destruct (assigns_set f d df m H Sf) as (m1 & E & H1). exists m1. split; [exact E|]. intros v i V. apply H1, W, V. }
    destruct G as (m1 & -> & H1). cbn [bind]. apply (IH d1); assumption.
  Qed.
End Initialised.

(** A call is defined: checked without closed forms. *)
Definition call_set (sh locals : list (var * nat)) (body : list stmt) (outs : list var) : bool :=
  match set_r (sizes (sh ++ locals)) (among sh) [] body with
  | Some d => forallb (fun v => forallb (fun i => set_p (sizes (sh ++ locals)) (among sh) d (v, N.of_nat i)) (seq 0 (N.to_nat (sizes (sh ++ locals) v)))) outs
  | None => false
  end.

Lemma call_set_defined {A : Arith} (M : libm A) body (ins : list (var * list (num A))) locals outs :
  call_set (shape ins) locals body outs = true ->
  exists r, call M body ins locals outs = Ok r /\ map (@length _) r = map (fun v => N.to_nat (sizes (shape ins ++ locals) v)) outs.
Proof.
  unfold call_set, call. set (len := sizes (shape ins ++ locals)).
  destruct (set_r len (among (shape ins)) [] body) as [d|] eqn:E; [|discriminate]. intros C.
  destruct (run_set len (among (shape ins)) M body [] d (given ins)) as (m & -> & H); [|exact E|].
  { intros v i S. unfold set_p in S. cbn [fst snd existsb] in S. rewrite orb_false_r in S. apply andb_true_iff in S as [S1 S2].
    apply N.ltb_lt in S1. unfold len in S1. rewrite (sizes_shape ins locals v S2) in S1. unfold given.
    destruct (find (fun p => var_eqb (fst p) v) ins) as [p|]; [|cbn in S1; lia].
    destruct (nth_error (snd p) (N.to_nat i)) eqn:EN; [eauto|]. apply nth_error_None in EN. lia. }
  cbn [bind]. rewrite forallb_forall in C. clear E. induction outs as [|v outs IH]; [exists []; split; reflexivity|].
  assert (R : exists l, read len m v = Ok l).
  { specialize (C v (or_introl eq_refl)). rewrite forallb_forall in C. unfold read. revert C. generalize (seq 0 (N.to_nat (len v))).
    induction l as [|i l IHl]; intros C; [exists []; reflexivity|]. cbn [mapM].
    destruct (load_set len (among (shape ins)) d m v (N.of_nat i) H (C i (or_introl eq_refl))) as [x ->]. cbn [bind].
    destruct (IHl (fun j Hj => C j (or_intror Hj))) as [l' ->]. cbn [bind]. eauto. }
  destruct R as [l R]. cbn [mapM]. rewrite R. cbn [bind]. destruct (IH (fun w Hw => C w (or_intror Hw))) as (r & -> & Lr). cbn [bind].
  exists (l :: r). split; [reflexivity|]. cbn [map]. rewrite Lr. f_equal. apply (read_at len m v l R).
Qed.
