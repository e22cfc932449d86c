(** Facts about loadBalancedChemistryModel: loops, solving lists, storing solutions. *)
From Coq Require Import List Arith Bool ZArith Lia Permutation.
From Verif Require Import Outcome Arith Problem LoadBalancing PlanFacts Comm BalanceFacts
  MixtureFraction ChemistryModel.
Import ListNotations.
Local Open Scope nat_scope.

(** ** Two outcomes related: both return related values, or both fail the same way *)
Definition orel {S T} (R : S -> T -> Prop) (a : outcome S) (b : outcome T) : Prop :=
  match a, b with
  | Ok x, Ok y => R x y
  | UB, UB => True
  | Fatal, Fatal => True
  | Diverge, Diverge => True
  | _, _ => False
  end.

Lemma orel_bind {S T S' T'} (R : S -> T -> Prop) (R' : S' -> T' -> Prop) a b f g :
  orel R a b -> (forall x y, R x y -> orel R' (f x) (g y)) -> orel R' (bind a f) (bind b g).
Proof. destruct a, b; simpl; auto; contradiction. Qed.

Lemma orel_mono {S T} (R R' : S -> T -> Prop) a b :
  (forall x y, R x y -> R' x y) -> orel R a b -> orel R' a b.
Proof. destruct a, b; simpl; auto. Qed.

Lemma orel_eq {S} (a : outcome S) : orel eq a a.
Proof. destruct a; simpl; auto. Qed.

Lemma orel_ok_l {S T} (R : S -> T -> Prop) a b x :
  orel R a b -> a = Ok x -> exists y, b = Ok y /\ R x y.
Proof. intros H ->. destruct b; simpl in H; try contradiction. eauto. Qed.

Lemma orel_ok_r {S T} (R : S -> T -> Prop) a b y :
  orel R a b -> b = Ok y -> exists x, a = Ok x /\ R x y.
Proof. intros H ->. destruct a; simpl in H; try contradiction. eauto. Qed.

Lemma orel_mapM {S T S' T'} (R : S -> T -> Prop) (R' : S' -> T' -> Prop) f g l1 l2 :
  Forall2 R l1 l2 -> (forall x y, R x y -> orel R' (f x) (g y)) ->
  orel (Forall2 R') (mapM f l1) (mapM g l2).
Proof.
  intros F H. induction F; simpl; auto.
  eapply orel_bind; [apply H; eauto|]. intros. eapply orel_bind; [apply IHF|].
  intros. simpl. auto.
Qed.

Lemma orel_foldM {S T S' T'} (R : S -> T -> Prop) (R' : S' -> T' -> Prop) f g l1 l2 :
  (forall s t x y, R s t -> R' x y -> orel R (f s x) (g t y)) ->
  Forall2 R' l1 l2 -> forall s t, R s t -> orel R (foldM f s l1) (foldM g t l2).
Proof.
  intros H F. induction F; intros s t Hst; simpl; auto.
  eapply orel_bind; [apply H; eauto|]. auto.
Qed.

Lemma orel_mapS {E E' S T S' T'} (RE : E -> E' -> Prop) (R : S -> T -> Prop)
  (R' : S' -> T' -> Prop) f g l1 l2 :
  (forall e e' x y, RE e e' -> R x y ->
     orel (fun a b => R' (fst a) (fst b) /\ RE (snd a) (snd b)) (f e x) (g e' y)) ->
  Forall2 R l1 l2 -> forall e e', RE e e' ->
  orel (fun a b => Forall2 R' (fst a) (fst b) /\ RE (snd a) (snd b)) (mapS f e l1) (mapS g e' l2).
Proof.
  intros H F. induction F; intros e e' He; simpl; auto.
  eapply orel_bind; [apply H; eauto|]. intros [a ea] [b eb] [Hab Heab]; simpl in *.
  eapply orel_bind; [apply IHF; eauto|]. intros [a' ea'] [b' eb'] [Hab' Heab']; simpl in *. auto.
Qed.

Lemma foldM_app {S T} (f : S -> T -> outcome S) s l1 l2 :
  foldM f s (l1 ++ l2) = (let* s1 := foldM f s l1 in foldM f s1 l2).
Proof.
  revert s. induction l1 as [|x l1 IH]; intros s; simpl; auto.
  destruct (f s x); simpl; auto.
Qed.

Lemma foldM_ok {S T} (f : S -> T -> outcome S) s l s' :
  foldM f s l = Ok s' -> forall I : S -> Prop,
  (forall s x s1, I s -> f s x = Ok s1 -> I s1) -> I s -> I s'.
Proof.
  revert s. induction l as [|x l IH]; intros s Hf I HI Hs; simpl in Hf.
  - inversion Hf; subst; auto.
  - apply bind_ok in Hf as (s1 & H1 & H2). eapply IH; eauto.
Qed.

Lemma mapS_app {E S T} (f : E -> S -> outcome (T * E)) e l1 l2 :
  mapS f e (l1 ++ l2) =
  (let* (y1, e1) := mapS f e l1 in let* (y2, e2) := mapS f e1 l2 in Ok (y1 ++ y2, e2)).
Proof.
  revert e. induction l1 as [|x l1 IH]; intros e; simpl.
  - destruct (mapS f e l2) as [[]| | |]; reflexivity.
  - destruct (f e x) as [[y e1]| | |]; simpl; auto. rewrite IH.
    destruct (mapS f e1 l1) as [[y1 e2]| | |]; simpl; auto.
    destruct (mapS f e2 l2) as [[y2 e3]| | |]; simpl; auto.
Qed.

Lemma mapS_length {E S T} (f : E -> S -> outcome (T * E)) e l ys e' :
  mapS f e l = Ok (ys, e') -> length ys = length l.
Proof.
  revert e ys. induction l as [|x l IH]; intros e ys H; simpl in H; [inversion H; auto|].
  apply bind_ok in H as ([y e1] & H1 & H). apply bind_ok in H as ([y2 e2] & H2 & H).
  inversion H; subst; simpl. f_equal. eapply IH; eauto.
Qed.

(** Every result of a loop comes from one run of its body. *)
Lemma mapS_each {E S T} (f : E -> S -> outcome (T * E)) e l ys e' :
  mapS f e l = Ok (ys, e') -> Forall2 (fun x y => exists e1 e2, f e1 x = Ok (y, e2)) l ys.
Proof.
  revert e ys. induction l as [|x l IH]; intros e ys H; simpl in H; [inversion H; constructor|].
  apply bind_ok in H as ([y e1] & H1 & H). apply bind_ok in H as ([y2 e2] & H2 & H).
  inversion H; subst. constructor; eauto.
Qed.

(** ** Solving lists *)
Section Solving.
  Context {A : Arith} {H : Type}.
  Variable kern : H -> kcell A -> outcome (kcell A * H).
  Variable fuel : nat.
  Variable cfg : config A.
  Notation solveSingle := (solveSingle kern fuel cfg).
  Notation solveList := (solveList kern fuel cfg).
  Notation solveBuffer := (solveBuffer kern fuel cfg).

  (** One problem, one fully determined solution. *)
  Definition single (tm : nat -> num A) (e : H * nat) (p : problem A)
    : outcome (solution A * (H * nat)) :=
    let* (us, e') := solveSingle tm e p (us_sized (g_nSpecie cfg)) in
    let* s := us_read us in Ok (s, e').

  Lemma solveSingle_any tm e p s s' : solveSingle tm e p s = solveSingle tm e p s'.
  Proof. reflexivity. Qed.

  Lemma solveSingle_read tm e p s us e' :
    solveSingle tm e p s = Ok (us, e') -> exists x, us_read us = Ok x.
  Proof.
    unfold solveSingle. intros E. apply bind_ok in E as ([x h'] & _ & E).
    apply bind_ok in E as (rr & _ & E). inversion E; subst. eexists. reflexivity.
  Qed.

  Lemma solve_loop_spec tm : forall ps e pre pr,
    mapM us_read pre = Ok pr ->
    (let* (us, e') := solve_loop kern fuel cfg tm e ps (length pre)
                        (pre ++ repeat (us_sized (g_nSpecie cfg)) (length ps)) in
     let* sols := mapM us_read us in Ok (sols, e'))
    = (let* (ys, e') := mapS (single tm) e ps in Ok (pr ++ ys, e')).
  Proof.
    intros ps e pre pr Epre.
    revert e pre pr Epre. induction ps as [|p ps IH]; intros e pre pr Epre.
    - simpl. rewrite app_nil_r, Epre. simpl. rewrite app_nil_r. reflexivity.
    - cbn [solve_loop length repeat mapS]. unfold idx. rewrite nth_error_mid. cbn [bind].
      unfold single at 1.
      destruct (solveSingle tm e p (us_sized (g_nSpecie cfg))) as [[us e1]| | |] eqn:Es; simpl; auto.
      destruct (solveSingle_read _ _ _ _ _ _ Es) as (x & Ex). rewrite Ex. cbn [bind].
      unfold setidx. rewrite app_length. simpl.
      replace (length pre <? length pre + S (length (repeat (us_sized (g_nSpecie cfg)) (length ps))))
        with true by (symmetry; apply Nat.ltb_lt; lia).
      cbn [bind]. rewrite upd_app_r.
      specialize (IH e1 (pre ++ [us]) (pr ++ [x])).
      rewrite app_length in IH. simpl in IH. rewrite <- app_assoc in IH. simpl in IH.
      replace (length pre + 1) with (S (length pre)) in IH by lia.
      rewrite IH.
      + destruct (mapS (single tm) e1 ps) as [[ys e2]| | |]; simpl; auto.
        rewrite <- app_assoc. reflexivity.
      + rewrite mapM_app, Epre. simpl. rewrite Ex. reflexivity.
  Qed.

  Lemma solveList_mapS tm e ps : solveList tm e ps = mapS (single tm) e ps.
  Proof.
    unfold ChemistryModel.solveList. etransitivity; [exact (solve_loop_spec tm ps e [] [] eq_refl)|].
    simpl. destruct (mapS (single tm) e ps) as [[ys e2]| | |]; reflexivity.
  Qed.

  Lemma mapS_ext {E S T} (f g : E -> S -> outcome (T * E)) e l :
    (forall e x, f e x = g e x) -> mapS f e l = mapS g e l.
  Proof.
    intros Hfg. revert e. induction l; intros e; simpl; auto. rewrite Hfg.
    destruct (g e a) as [[y e1]| | |]; simpl; auto. rewrite IHl. auto.
  Qed.

  Lemma solveBuffer_mapS tm e b : solveBuffer tm e b = mapS (mapS (single tm)) e b.
  Proof. apply mapS_ext. intros. apply solveList_mapS. Qed.

  (** A nested loop solves the concatenation. *)
  Lemma mapS_concat {E S T} (f : E -> S -> outcome (T * E)) e (ll : list (list S)) :
    (let* (yy, e') := mapS (mapS f) e ll in Ok (concat yy, e')) = mapS f e (concat ll).
  Proof.
    revert e. induction ll as [|l ll IH]; intros e; simpl; auto.
    rewrite mapS_app. destruct (mapS f e l) as [[y e1]| | |]; simpl; auto.
    specialize (IH e1). destruct (mapS (mapS f) e1 ll) as [[yy e2]| | |]; simpl in *;
      rewrite <- IH; reflexivity.
  Qed.
End Solving.
