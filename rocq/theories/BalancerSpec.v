(** Small specification vocabulary for the load balancer, independent of how the
    plan is computed. *)
From Coq Require Import List Arith Bool Permutation Sorted.
From Verif Require Import Outcome Arith Problem LoadBalancing.
Import ListNotations.

(** Contract of std::sort (C++ standard [alg.sort]) for LoadBalancer.C:115: on
    mutually comparable loads the result is a reordering in which no element is
    smaller than an earlier one.  Nothing is said about the order of ties. *)
Definition sort_contract {A : Arith} (sortf : list (load A) -> list (load A)) : Prop :=
  forall l, comparable l = true ->
    Permutation l (sortf l) /\
    StronglySorted (fun a b => load_lt b a = false) (sortf l).

(** An implementation of the contract, used for examples: insertion sort. *)
Fixpoint insert_load {A : Arith} (x : load A) (l : list (load A)) : list (load A) :=
  match l with
  | [] => [x]
  | y :: l' => if load_lt y x then y :: insert_load x l' else x :: l
  end.

(** Insertion sort (stands for one possible std::sort at LoadBalancer.C:115). *)
Definition isort {A : Arith} (l : list (load A)) : list (load A) :=
  fold_right insert_load [] l.

(** Number of times rank [b] is listed in [l]. *)
Definition occurrences (b : nat) (l : list nat) : nat :=
  count_occ Nat.eq_dec l b.
