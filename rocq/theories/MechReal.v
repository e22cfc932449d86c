(** Real arithmetic: what the mechanism functions compute without rounding. *)
From Coq Require Import List ZArith QArith Qreals Reals Bool Lra Lia.
From Verif Require Import Outcome Arith MechLang.
Import ListNotations.
Local Open Scope R_scope.

(** Comparisons of reals as booleans; not functions of /repo. *)
Definition Rleb (a b : R) : bool := if Rle_dec a b then true else false.

(** Strict comparison. *)
Definition Rltb (a b : R) : bool := if Rlt_dec a b then true else false.

(** Equality. *)
Definition Reqb (a b : R) : bool := if Req_EM_T a b then true else false.

(** Exact arithmetic over the reals, with the OpenFOAM constants (Arith.v). *)
Definition RA : Arith :=
  mkArith R Q2R Rplus Rminus Rmult Rdiv Rabs Rltb Rleb Reqb
    (Q2R (Qmake 1 (10 ^ 15))) (Q2R (inject_Z (10 ^ 15))) (Q2R (inject_Z (10 ^ 300))).

(** The C mathematics library without rounding. *)
Definition exact_libm : libm RA :=
  @mkLibm RA exp ln (fun x => ln x / ln 10) Rpower.

(** Sum over a list; not a function of /repo. *)
Fixpoint Rsum (l : list R) : R := match l with [] => 0 | x :: r => x + Rsum r end.

(** Sum of [f i] for [i < n]. *)
Definition Rsumn (n : nat) (f : nat -> R) : R := Rsum (map f (seq 0 n)).

(** Product over a list. *)
Fixpoint Rprod (l : list R) : R := match l with [] => 1 | x :: r => x * Rprod r end.

Lemma Rsum_app a b : Rsum (a ++ b) = Rsum a + Rsum b.
Proof. induction a as [|x a IH]; cbn; [ring|]. rewrite IH. ring. Qed.

Lemma Rprod_app a b : Rprod (a ++ b) = Rprod a * Rprod b.
Proof. induction a as [|x a IH]; cbn; [ring|]. rewrite IH. ring. Qed.

Lemma Rsum_ext {X} (f g : X -> R) l : (forall x, In x l -> f x = g x) -> Rsum (map f l) = Rsum (map g l).
Proof.
  induction l as [|x l IH]; cbn; intros H; [reflexivity|].
  rewrite (H x) by auto. rewrite IH; auto.
Qed.

Lemma Rsumn_ext n f g : (forall i, (i < n)%nat -> f i = g i) -> Rsumn n f = Rsumn n g.
Proof. intros H. apply Rsum_ext. intros i Hi. apply in_seq in Hi. apply H. lia. Qed.

Lemma Rsum_scal {X} c (f : X -> R) l : Rsum (map (fun x => c * f x) l) = c * Rsum (map f l).
Proof. induction l as [|x l IH]; cbn; [ring|]. rewrite IH. ring. Qed.

Lemma Rsum_plus {X} (f g : X -> R) l : Rsum (map (fun x => f x + g x) l) = Rsum (map f l) + Rsum (map g l).
Proof. induction l as [|x l IH]; cbn; [ring|]. rewrite IH. ring. Qed.

Lemma Rsum_minus {X} (f g : X -> R) l : Rsum (map (fun x => f x - g x) l) = Rsum (map f l) - Rsum (map g l).
Proof. induction l as [|x l IH]; cbn; [ring|]. rewrite IH. ring. Qed.

Lemma Rsum_zero {X} (f : X -> R) l : (forall x, In x l -> f x = 0) -> Rsum (map f l) = 0.
Proof.
  induction l as [|x l IH]; cbn; intros H; [reflexivity|].
  rewrite (H x) by auto. rewrite IH; auto. ring.
Qed.

Lemma Rsum_nonneg {X} (f : X -> R) l : (forall x, In x l -> 0 <= f x) -> 0 <= Rsum (map f l).
Proof.
  induction l as [|x l IH]; cbn; intros H; [lra|].
  specialize (IH (fun y Hy => H y (or_intror Hy))). specialize (H x (or_introl eq_refl)). lra.
Qed.

Lemma Rsum_swap {X Y} (f : X -> Y -> R) l l' :
  Rsum (map (fun x => Rsum (map (f x) l')) l) = Rsum (map (fun y => Rsum (map (fun x => f x y) l)) l').
Proof.
  induction l as [|x l IH]; cbn.
  - symmetry. apply Rsum_zero. reflexivity.
  - rewrite IH. symmetry. apply (Rsum_plus (f x) (fun y => Rsum (map (fun x => f x y) l))).
Qed.

Lemma Rsumn_S n f : Rsumn (S n) f = Rsumn n f + f n.
Proof. unfold Rsumn. rewrite seq_S, map_app, Rsum_app. cbn. ring. Qed.

Lemma Q2R_0 : Q2R 0 = 0.
Proof. unfold Q2R. cbn. lra. Qed.

Lemma Q2R_1 : Q2R 1 = 1.
Proof. unfold Q2R. cbn. lra. Qed.

Lemma Q2R_m1 : Q2R (-1) = -1.
Proof. unfold Q2R. cbn. lra. Qed.

Lemma Q2R_sum {X} (f : X -> Q) l : Q2R (fold_right (fun x s => f x + s)%Q 0%Q l) = Rsum (map (fun x => Q2R (f x)) l).
Proof. induction l as [|x l IH]; cbn; [apply Q2R_0|]. rewrite Q2R_plus, IH. reflexivity. Qed.
