(** Closed forms as polynomials: a normaliser, sound over the reals. *)
From Coq Require Import List ZArith NArith QArith Qreals Reals Bool Lra Lia.
From Verif Require Import Outcome Arith MechLang MechSym MechReal.
Import ListNotations.
Local Open Scope R_scope.

(** Equality of rationals as written. *)
Definition Qsame (a b : Q) : bool := (Qnum a =? Qnum b)%Z && (Qden a =? Qden b)%positive.

Lemma Qsame_eq a b : Qsame a b = true -> a = b.
Proof.
  unfold Qsame. destruct a, b; cbn. rewrite andb_true_iff, Z.eqb_eq, Pos.eqb_eq. intros []. congruence.
Qed.

(** Equality of closed forms. *)
Fixpoint expr_eqb (a b : expr) : bool :=
  match a, b with
  | Num p, Num q => Qsame p q
  | Ref v i, Ref w j => var_eqb v w && (i =? j)%N
  | Neg a, Neg b => expr_eqb a b
  | Add a a', Add b b' => expr_eqb a b && expr_eqb a' b'
  | Sub a a', Sub b b' => expr_eqb a b && expr_eqb a' b'
  | Mul a a', Mul b b' => expr_eqb a b && expr_eqb a' b'
  | Div a a', Div b b' => expr_eqb a b && expr_eqb a' b'
  | Exp a, Exp b => expr_eqb a b
  | Log a, Log b => expr_eqb a b
  | Log10 a, Log10 b => expr_eqb a b
  | Pow a a', Pow b b' => expr_eqb a b && expr_eqb a' b'
  | Fmax a a', Fmax b b' => expr_eqb a b && expr_eqb a' b'
  | Ite a a' c c', Ite b b' d d' => expr_eqb a b && expr_eqb a' b' && expr_eqb c d && expr_eqb c' d'
  | _, _ => false
  end.

Lemma expr_eqb_eq a : forall b, expr_eqb a b = true -> a = b.
Proof.
  induction a; intros []; cbn; intros H; try discriminate;
    try (apply Qsame_eq in H; congruence);
    repeat (apply andb_true_iff in H as [H ?]);
    try (f_equal; auto; fail).
  destruct (var_eqb_spec v v0); [|discriminate]. apply N.eqb_eq in H0. congruence.
Qed.

(** Monomials: a list of factors. *)
Definition mono := list expr.

(** Polynomials. *)
Definition poly := list (Q * mono).

(** Removes one factor. *)
Fixpoint mremove (e : expr) (m : mono) : option mono :=
  match m with
  | [] => None
  | x :: r => if expr_eqb x e then Some r else match mremove e r with Some r' => Some (x :: r') | None => None end
  end.

(** Equality of monomials up to the order of the factors. *)
Fixpoint mono_eqb (a b : mono) : bool :=
  match a with
  | [] => match b with [] => true | _ => false end
  | x :: r => match mremove x b with Some b' => mono_eqb r b' | None => false end
  end.

(** Adds a term. *)
Fixpoint padd1 (c : Q) (m : mono) (p : poly) : poly :=
  match p with
  | [] => [(c, m)]
  | (d, n) :: r => if mono_eqb m n then (Qred (c + d), n) :: r else (d, n) :: padd1 c m r
  end.

(** Sum. *)
Definition padd (p q : poly) : poly := fold_right (fun t s => padd1 (fst t) (snd t) s) q p.

(** Multiple. *)
Definition pscale (c : Q) (p : poly) : poly := map (fun t => (Qred (c * fst t), snd t)) p.

(** Product. *)
Definition pmul (p q : poly) : poly :=
  fold_right (fun t s => padd (map (fun u => (Qred (fst t * fst u), snd t ++ snd u)) q) s) [] p.

(** Normal form; what is not a sum or product is a factor of its own. *)
Fixpoint norm (e : expr) : poly :=
  match e with
  | Num q => [(q, [])]
  | Neg a => pscale (-1) (norm a)
  | Add a b => padd (norm b) (norm a)
  | Sub a b => padd (pscale (-1) (norm b)) (norm a)
  | Mul a b => pmul (norm a) (norm b)
  | Div a b =>
      match b with
      | Num q => if Qeq_bool q 0 then [(1%Q, [e])] else pscale (/ q) (norm a)
      | _ => [(1%Q, [e])]
      end
  | _ => [(1%Q, [e])]
  end.

(** All coefficients are zero. *)
Definition pzero (p : poly) : bool := forallb (fun t => Qeq_bool (fst t) 0) p.

(** Equality of polynomials. *)
Definition peqb (p q : poly) : bool := pzero (padd (pscale (-1) q) p).

Section Meaning.
  Variable M : libm RA.
  Variable rho : var -> N -> R.

  (** Value of a closed form. *)
  Definition rval (e : expr) : R := val (A := RA) M rho e.

  (** Value of a monomial. *)
  Definition mval (m : mono) : R := Rprod (map rval m).

  (** Value of a polynomial. *)
  Definition pval (p : poly) : R := Rsum (map (fun t => Q2R (fst t) * mval (snd t)) p).

  Lemma mremove_val e : forall m m', mremove e m = Some m' -> mval m = rval e * mval m'.
  Proof.
    induction m as [|x m IH]; cbn; [discriminate|]. intros m'. destruct (expr_eqb x e) eqn:E.
    - apply expr_eqb_eq in E. intros [= <-]. subst. reflexivity.
    - destruct (mremove e m) as [r|]; [|discriminate]. intros [= <-].
      unfold mval in *. cbn [map Rprod]. rewrite (IH r eq_refl). ring.
  Qed.

  Lemma mono_eqb_val a : forall b, mono_eqb a b = true -> mval a = mval b.
  Proof.
    induction a as [|x a IH]; intros b; cbn.
    - destruct b; [reflexivity|discriminate].
    - destruct (mremove x b) as [b'|] eqn:E; [|discriminate]. intros H.
      rewrite (mremove_val _ _ _ E), <- (IH _ H). reflexivity.
  Qed.

  Lemma Q2R_Qred q : Q2R (Qred q) = Q2R q.
  Proof. apply Qeq_eqR, Qred_correct. Qed.

  Lemma padd1_val c m p : pval (padd1 c m p) = Q2R c * mval m + pval p.
  Proof.
    unfold pval. induction p as [|[d n] p IH]; cbn [padd1 map fst snd Rsum]; [ring|].
    destruct (mono_eqb m n) eqn:E; cbn [map fst snd Rsum].
    - rewrite Q2R_Qred, Q2R_plus, (mono_eqb_val _ _ E). ring.
    - rewrite IH. ring.
  Qed.

  Lemma padd_val p q : pval (padd p q) = pval p + pval q.
  Proof.
    induction p as [|[c m] p IH]; cbn [padd fold_right]; [unfold pval at 2; cbn [map Rsum]; ring|].
    fold (padd p q). rewrite padd1_val, IH. unfold pval. cbn [map fst snd Rsum]. ring.
  Qed.

  Lemma pscale_val c p : pval (pscale c p) = Q2R c * pval p.
  Proof.
    unfold pval, pscale. induction p as [|[d m] p IH]; cbn [map fst snd Rsum]; [ring|].
    rewrite IH, Q2R_Qred, Q2R_mult. ring.
  Qed.

  Lemma mval_app a b : mval (a ++ b) = mval a * mval b.
  Proof. unfold mval. rewrite map_app. apply Rprod_app. Qed.

  Lemma pmul_val p q : pval (pmul p q) = pval p * pval q.
  Proof.
    induction p as [|[c m] p IH]; cbn [pmul fold_right]; [unfold pval; cbn [map Rsum]; ring|].
    fold (pmul p q). rewrite padd_val, IH.
    replace (pval ((c, m) :: p)) with (Q2R c * mval m + pval p) by reflexivity.
    rewrite Rmult_plus_distr_r. f_equal. cbn [fst snd]. clear IH.
    unfold pval. induction q as [|[d n] q IH]; cbn [map fst snd Rsum]; [ring|].
    rewrite IH, Q2R_Qred, Q2R_mult, mval_app. ring.
  Qed.

  Lemma norm_val e : pval (norm e) = rval e.
  Proof.
    assert (atom : forall e, pval [(1%Q, [e])] = rval e).
    { intros. unfold pval, mval. cbn [map fst snd Rsum Rprod]. rewrite Q2R_1. ring. }
    induction e; cbn [norm]; try apply atom.
    - unfold pval, mval. cbn [map fst snd Rsum Rprod]. change (rval (Num q)) with (Q2R q). ring.
    - rewrite pscale_val, IHe. reflexivity.
    - rewrite padd_val, IHe1, IHe2. change (rval (Add e1 e2)) with (rval e1 + rval e2). ring.
    - rewrite padd_val, pscale_val, IHe1, IHe2, Q2R_m1. change (rval (Sub e1 e2)) with (rval e1 - rval e2). ring.
    - rewrite pmul_val, IHe1, IHe2. reflexivity.
    - destruct e2; try apply atom. destruct (Qeq_bool q 0) eqn:Z; [apply atom|].
      rewrite pscale_val, IHe1, Q2R_inv by (apply Qeq_bool_neq; exact Z).
      change (rval (Div e1 (Num q))) with (rval e1 / Q2R q). unfold Rdiv. ring.
  Qed.

  Lemma pzero_val p : pzero p = true -> pval p = 0.
  Proof.
    intros H. apply Rsum_zero. intros t Ht. unfold pzero in H. rewrite forallb_forall in H.
    apply H, Qeq_bool_eq, Qeq_eqR in Ht. rewrite Ht, Q2R_0. ring.
  Qed.

  Lemma peqb_val p q : peqb p q = true -> pval p = pval q.
  Proof.
    intros H. apply pzero_val in H. rewrite padd_val, pscale_val, Q2R_m1 in H. lra.
  Qed.
End Meaning.
