(** Outcomes of C++ code and the list operations shared by the model. *)
From Coq Require Import List Arith Lia Bool.
Import ListNotations.

(** What running a piece of C++ can do.  Not a function of /repo: the modelling
    convention of DESIGN.md section 1.
    - [Ok a]    : returns [a];
    - [UB]      : undefined behaviour (out-of-range access, iterator misuse,
                  read of an indeterminate value, invalid comparator);
    - [Fatal]   : [FatalError] / [abort] / uncaught [throw];
    - [Diverge] : the fuel standing for the number of iterations of a [while]
                  loop was used up. *)
Inductive outcome (A : Type) : Type :=
| Ok (a : A)
| UB
| Fatal
| Diverge.
Arguments Ok {A} a.
Arguments UB {A}.
Arguments Fatal {A}.
Arguments Diverge {A}.

(** Sequencing: C++ statement sequencing; not a function of /repo. *)
Definition bind {A B} (m : outcome A) (f : A -> outcome B) : outcome B :=
  match m with
  | Ok a => f a
  | UB => UB
  | Fatal => Fatal
  | Diverge => Diverge
  end.

Declare Scope outcome_scope.
Delimit Scope outcome_scope with outcome.
Notation "'let*' x ':=' m 'in' k" := (bind m (fun x => k))
  (at level 200, x pattern, right associativity) : outcome_scope.
Open Scope outcome_scope.

(** A C++ range-for loop collecting one result per element (or an SPMD phase
    collecting one result per rank); not a function of /repo. *)
Fixpoint mapM {A B} (f : A -> outcome B) (l : list A) : outcome (list B) :=
  match l with
  | [] => Ok []
  | a :: l' => let* b := f a in let* bs := mapM f l' in Ok (b :: bs)
  end.

(** Checked element access [v[i]] of std::vector / Foam::List; out of range is UB. *)
Definition idx {A} (l : list A) (i : nat) : outcome A :=
  match nth_error l i with Some a => Ok a | None => UB end.

(** Read of a scalar that may be indeterminate ([None]); reading an
    indeterminate value is UB. *)
Definition rd {A} (o : option A) : outcome A :=
  match o with Some a => Ok a | None => UB end.

(** Element assignment [v[i] = x] (total version: no effect out of range). *)
Fixpoint upd {A} (l : list A) (i : nat) (x : A) : list A :=
  match l, i with
  | [], _ => []
  | _ :: l', O => x :: l'
  | a :: l', S i' => a :: upd l' i' x
  end.

(** Checked element assignment [v[i] = x]; out of range is UB. *)
Definition setidx {A} (l : list A) (i : nat) (x : A) : outcome (list A) :=
  if i <? length l then Ok (upd l i x) else UB.

(** [SubList(values, size, start)]: checked slice; out of range is UB. *)
Definition slice {A} (l : list A) (start size : nat) : outcome (list A) :=
  if start + size <=? length l then Ok (firstn size (skipn start l)) else UB.

(** ** Facts *)

Lemma bind_ok {A B} (m : outcome A) (f : A -> outcome B) b :
  bind m f = Ok b <-> exists a, m = Ok a /\ f a = Ok b.
Proof.
  destruct m; simpl; split; try discriminate; eauto;
    try (intros (a' & H & _); discriminate).
  intros (a' & H & K). inversion H. subst. exact K.
Qed.

Lemma mapM_ok {A B} (f : A -> outcome B) l bs :
  mapM f l = Ok bs <-> Forall2 (fun a b => f a = Ok b) l bs.
Proof.
  revert bs. induction l as [|a l IH]; intros bs; simpl.
  - split; intros H.
    + inversion H. constructor.
    + inversion H. reflexivity.
  - rewrite bind_ok. split.
    + intros (b & Hb & H). apply bind_ok in H as (bs' & H1 & H2).
      inversion H2; subst. constructor; auto. apply IH; auto.
    + intros H. inversion H as [|? b ? bs' Hb Hbs]; subst. exists b. split; auto.
      apply IH in Hbs. rewrite Hbs. reflexivity.
Qed.

Lemma Forall2_len {A B} (R : A -> B -> Prop) l1 l2 :
  Forall2 R l1 l2 -> length l1 = length l2.
Proof. induction 1; simpl; auto. Qed.

Lemma mapM_length {A B} (f : A -> outcome B) l bs :
  mapM f l = Ok bs -> length bs = length l.
Proof. intros H. apply mapM_ok in H. symmetry. eapply Forall2_len; eauto. Qed.

Lemma mapM_pure {A B} (f : A -> B) l : mapM (fun a => Ok (f a)) l = Ok (map f l).
Proof. induction l; simpl; auto. rewrite IHl. reflexivity. Qed.

Lemma mapM_ext_in {A B} (f g : A -> outcome B) l :
  (forall a, In a l -> f a = g a) -> mapM f l = mapM g l.
Proof.
  induction l; simpl; intros H; auto. rewrite H, IHl; auto.
Qed.

Lemma mapM_app {A B} (f : A -> outcome B) l1 l2 :
  mapM f (l1 ++ l2) =
  (let* b1 := mapM f l1 in let* b2 := mapM f l2 in Ok (b1 ++ b2)).
Proof.
  induction l1; simpl.
  - destruct (mapM f l2); reflexivity.
  - rewrite IHl1. destruct (f a); simpl; auto. destruct (mapM f l1); simpl; auto.
    destruct (mapM f l2); simpl; auto.
Qed.

Lemma upd_length {A} (l : list A) i x : length (upd l i x) = length l.
Proof. revert i; induction l; destruct i; simpl; auto. Qed.

Lemma nth_error_upd_eq {A} (l : list A) i x :
  i < length l -> nth_error (upd l i x) i = Some x.
Proof.
  revert i; induction l; destruct i; simpl; intros; try lia; auto.
  apply IHl; lia.
Qed.

Lemma nth_error_upd_ne {A} (l : list A) i j x :
  i <> j -> nth_error (upd l i x) j = nth_error l j.
Proof.
  revert i j; induction l; destruct i, j; simpl; intros; auto; try lia.
Qed.

Lemma upd_app_r {A} (l1 l2 : list A) x y :
  upd (l1 ++ x :: l2) (length l1) y = l1 ++ y :: l2.
Proof. induction l1; simpl; auto. rewrite IHl1. reflexivity. Qed.

Lemma nth_error_mid {A} (l1 l2 : list A) x :
  nth_error (l1 ++ x :: l2) (length l1) = Some x.
Proof. induction l1; simpl; auto. Qed.

Lemma nth_error_ext {A} (l l' : list A) :
  (forall i, nth_error l i = nth_error l' i) -> l = l'.
Proof.
  revert l'. induction l as [|a l IH]; intros [|b l'] H; auto.
  - specialize (H 0). discriminate.
  - specialize (H 0). discriminate.
  - f_equal; [specialize (H 0); simpl in H; congruence|].
    apply IH. intros i. apply (H (S i)).
Qed.
