(** Sums of rationals. *)
From Coq Require Import List QArith Qabs Lqa Lia Permutation Setoid Morphisms.
Import ListNotations.
Local Open Scope Q_scope.

(** Sum of a list of rationals. *)
Fixpoint Qsum (l : list Q) : Q :=
  match l with [] => 0 | x :: l' => x + Qsum l' end.

(** Sum of [f] over a list. *)
Definition Qsumf {T} (f : T -> Q) (l : list T) : Q := Qsum (map f l).

Lemma Qsum_app l1 l2 : Qsum (l1 ++ l2) == Qsum l1 + Qsum l2.
Proof. induction l1; simpl; lra. Qed.

Lemma Qsumf_app {T} (f : T -> Q) l1 l2 : Qsumf f (l1 ++ l2) == Qsumf f l1 + Qsumf f l2.
Proof. unfold Qsumf. rewrite map_app. apply Qsum_app. Qed.

Lemma Qsumf_cons {T} (f : T -> Q) x l : Qsumf f (x :: l) == f x + Qsumf f l.
Proof. reflexivity. Qed.

Lemma Qsumf_nil {T} (f : T -> Q) : Qsumf f [] == 0.
Proof. reflexivity. Qed.

Lemma Qsumf_ext {T} (f g : T -> Q) l :
  (forall x, In x l -> f x == g x) -> Qsumf f l == Qsumf g l.
Proof.
  induction l; intros H; [reflexivity|]. rewrite !Qsumf_cons.
  rewrite H by (left; auto). rewrite IHl by (intros; apply H; right; auto). reflexivity.
Qed.

Lemma Qsumf_le {T} (f g : T -> Q) l :
  (forall x, In x l -> f x <= g x) -> Qsumf f l <= Qsumf g l.
Proof.
  induction l; intros H; [apply Qle_refl|]. rewrite !Qsumf_cons.
  assert (f a <= g a) by (apply H; left; auto).
  assert (Qsumf f l <= Qsumf g l) by (apply IHl; intros; apply H; right; auto). lra.
Qed.

Lemma Qsumf_perm {T} (f : T -> Q) l1 l2 :
  Permutation l1 l2 -> Qsumf f l1 == Qsumf f l2.
Proof.
  induction 1; rewrite ?Qsumf_cons in *; try lra.
Qed.

Lemma Qsumf_nonneg {T} (f : T -> Q) l :
  (forall x, In x l -> 0 <= f x) -> 0 <= Qsumf f l.
Proof.
  induction l; intros H; [apply Qle_refl|]. rewrite Qsumf_cons.
  assert (0 <= f a) by (apply H; left; auto).
  assert (0 <= Qsumf f l) by (apply IHl; intros; apply H; right; auto). lra.
Qed.

Lemma Qsumf_const {T} (c : Q) (l : list T) :
  Qsumf (fun _ => c) l == inject_Z (Z.of_nat (length l)) * c.
Proof.
  induction l; [unfold Qsumf; simpl; change (inject_Z 0) with 0; lra|].
  rewrite Qsumf_cons, IHl. simpl length. rewrite Nat2Z.inj_succ. unfold Z.succ. rewrite inject_Z_plus.
  change (inject_Z 1) with 1. lra.
Qed.

Lemma Qsumf_plus {T} (f g : T -> Q) l :
  Qsumf (fun x => f x + g x) l == Qsumf f l + Qsumf g l.
Proof. induction l; [unfold Qsumf; simpl; lra|]. rewrite !Qsumf_cons. lra. Qed.

Lemma Qsumf_minus {T} (f g : T -> Q) l :
  Qsumf (fun x => f x - g x) l == Qsumf f l - Qsumf g l.
Proof. induction l; [unfold Qsumf; simpl; lra|]. rewrite !Qsumf_cons. lra. Qed.

Lemma Qsumf_scale {T} (f : T -> Q) c l :
  Qsumf (fun x => c * f x) l == c * Qsumf f l.
Proof. induction l; [unfold Qsumf; simpl; lra|]. rewrite !Qsumf_cons. lra. Qed.

Lemma fold_left_Qsumf {T} (f : T -> Q) l z :
  fold_left (fun s x => s + f x) l z == z + Qsumf f l.
Proof.
  revert z. induction l; intros z; simpl; [unfold Qsumf; simpl; lra|].
  rewrite IHl, Qsumf_cons. lra.
Qed.

Lemma inject_nat_pos n : (0 < n)%nat -> 0 < inject_Z (Z.of_nat n).
Proof. intros H. change 0 with (inject_Z 0). rewrite <- Zlt_Qlt. lia. Qed.

Lemma inject_nat_nonneg n : 0 <= inject_Z (Z.of_nat n).
Proof. change 0 with (inject_Z 0). rewrite <- Zle_Qle. lia. Qed.

Lemma Qsumf_strict {T} (f : T -> Q) l :
  (forall x, In x l -> 0 < f x) -> l <> [] -> 0 < Qsumf f l.
Proof.
  destruct l as [|a l]; intros H Hne; [congruence|]. rewrite Qsumf_cons.
  assert (0 < f a) by (apply H; left; auto).
  assert (0 <= Qsumf f l).
  { apply Qsumf_nonneg. intros x Hx. apply Qlt_le_weak. apply H. right; auto. }
  lra.
Qed.
