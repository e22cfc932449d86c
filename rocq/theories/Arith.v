(** Scalar arithmetic as a parameter, with an exact and an IEEE instance. *)
From Coq Require Import List ZArith QArith Qabs Bool.
From Coq Require Import Floats.SpecFloat.
Import ListNotations.

(** The operations on [Foam::scalar] / [double] used by the modelled code.  Not a
    function of /repo: [scalar] and its constants come from OpenFOAM
    (small = SMALL = 1e-15, great = 1e15, vGreat = VGREAT = 1e300).
    [lit] is the value of a decimal literal written in the source. *)
Record Arith := mkArith {
  num : Type;
  lit : Q -> num;
  nadd : num -> num -> num;
  nsub : num -> num -> num;
  nmul : num -> num -> num;
  ndiv : num -> num -> num;
  nabs : num -> num;
  nltb : num -> num -> bool;
  nleb : num -> num -> bool;
  neqb : num -> num -> bool;
  small : num;
  great : num;
  vgreat : num
}.

(** Conversion of a size or label to scalar (exact below 2^53). *)
Definition ofnat (A : Arith) (n : nat) : num A := lit A (inject_Z (Z.of_nat n)).

(** The literals [0] and [0.0]. *)
Definition zero (A : Arith) : num A := lit A 0.

(** The literals [1] and [1.0]. *)
Definition one (A : Arith) : num A := lit A 1.

(** [std::min(a,b)] returns [b < a ? b : a] (C++ standard; used at LoadBalancer.C:122). *)
Definition std_min (A : Arith) (a b : num A) : num A := if nltb A b a then b else a.

(** OpenFOAM [min(s1,s2)] is [(s1 < s2) ? s1 : s2] (Scalar functions; used at
    loadBalancedChemistryModel.C:241,267,294,457). *)
Definition foam_min (A : Arith) (a b : num A) : num A := if nltb A a b then a else b.

(** OpenFOAM [max(s1,s2)] is [(s1 > s2) ? s1 : s2] (used in ode_pyJac.C,
    loadBalanced_pyJacChemistryModel.C, seulex_LAPACK.C). *)
Definition foam_max (A : Arith) (a b : num A) : num A := if nltb A b a then a else b.

(** [std::accumulate] of scalars starting from [z]. *)
Definition sum_from (A : Arith) (z : num A) (l : list (num A)) : num A :=
  fold_left (nadd A) l z.

(** Sum starting from the literal zero. *)
Definition nsum (A : Arith) (l : list (num A)) : num A := sum_from A (zero A) l.

(** ** Exact instance: rationals, with the three constants as parameters. *)

(** Strict comparison of rationals as a boolean. *)
Definition Qltb (a b : Q) : bool := negb (Qle_bool b a).

(** Exact arithmetic: what the code would compute without rounding. *)
Definition QA (sm gr vg : Q) : Arith :=
  mkArith Q (fun q => q) Qplus Qminus Qmult Qdiv Qabs Qltb Qle_bool Qeq_bool sm gr vg.

(** Exact arithmetic with the OpenFOAM double-precision constants. *)
Definition QAD : Arith := QA (1 # 10 ^ 15) (10 ^ 15 # 1) (inject_Z (10 ^ 300)).

(** ** IEEE binary64 instance (Stdlib SpecFloat, round to nearest even). *)

(** Binary64 value of an integer. *)
Definition f64_of_Z (z : Z) : spec_float := binary_normalize 53 1024 z 0 false.

(** Binary64 nearest to a rational whose numerator and denominator are both
    exactly representable (true of all literals used). *)
Definition f64_of_Q (q : Q) : spec_float :=
  SFdiv 53 1024 (f64_of_Z (Qnum q)) (f64_of_Z (Zpos (Qden q))).

(** IEEE double arithmetic with the OpenFOAM double-precision constants. *)
Definition F64 : Arith :=
  mkArith spec_float f64_of_Q (SFadd 53 1024) (SFsub 53 1024) (SFmul 53 1024)
    (SFdiv 53 1024) SFabs SFltb SFleb SFeqb
    (f64_of_Q (1 # 10 ^ 15)) (f64_of_Z (10 ^ 15)) (f64_of_Z (10 ^ 300)).

(** ** Facts about the exact instance *)

Lemma Qltb_true a b : Qltb a b = true <-> (a < b)%Q.
Proof.
  unfold Qltb. rewrite negb_true_iff. rewrite <- not_true_iff_false, Qle_bool_iff.
  split; intros H.
  - now apply Qnot_le_lt.
  - now apply Qlt_not_le.
Qed.

Lemma Qltb_false a b : Qltb a b = false <-> (b <= a)%Q.
Proof. unfold Qltb. rewrite negb_false_iff. apply Qle_bool_iff. Qed.

Lemma Qle_bool_false a b : Qle_bool a b = false <-> (b < a)%Q.
Proof.
  rewrite <- not_true_iff_false, Qle_bool_iff. split; intros H.
  - now apply Qnot_le_lt.
  - now apply Qlt_not_le.
Qed.
