(** IEEE doubles and real numbers: the value of a double, and what the operations of the
    arithmetic [F64] compute, from Flocq's proofs about Stdlib's SpecFloat. *)
From Coq Require Import ZArith Reals Lra Lia Bool Floats.SpecFloat.
From Flocq Require Import Core Relative Plus_error Sterbenz BinarySingleNaN.
From Verif Require Import Outcome Arith.
Local Open Scope R_scope.

(** A finite double (sign, 53-bit mantissa, exponent in range). *)
Definition fin64 (x : spec_float) : Prop :=
  valid_binary 53 1024 x = true /\ is_finite_SF x = true.

(** The real number a finite double stands for. *)
Definition val (x : spec_float) : R := SF2R radix2 x.

(** Rounding to the nearest double, ties to even, without overflow. *)
Definition fl (r : R) : R := round radix2 (FLT_exp (-1074) 53) ZnearestE r.

(** Real numbers that are doubles. *)
Definition repr (r : R) : Prop := generic_format radix2 (FLT_exp (-1074) 53) r.

(** Half the distance from 1 to the next double. *)
Definition u : R := / IZR (2 ^ 53).

Local Instance P53 : Prec_gt_0 53. Proof. reflexivity. Qed.
Local Instance P1024 : Prec_lt_emax 53 1024. Proof. reflexivity. Qed.

Notation B64 := (binary_float 53 1024).

Lemma round_nearest_even_equiv s m l :
  round_nearest_even m l = choice_mode mode_NE s m l.
Proof.
  case l; [reflexivity|intro c]. case c; [ | reflexivity..].
  now simpl; unfold Round.cond_incr; case Z.even.
Qed.

Lemma binary_round_aux_equiv sx mx ex lx :
  SpecFloat.binary_round_aux 53 1024 sx mx ex lx
  = binary_round_aux 53 1024 mode_NE sx mx ex lx.
Proof.
  unfold SpecFloat.binary_round_aux, binary_round_aux.
  set (mrse' := shr_fexp _ _ _ _ _). case mrse'; intros mrs' e'; simpl.
  now rewrite (round_nearest_even_equiv sx).
Qed.

Lemma binary_round_equiv s m e :
  SpecFloat.binary_round 53 1024 s m e = binary_round 53 1024 mode_NE s m e.
Proof.
  unfold SpecFloat.binary_round, binary_round, shl_align_fexp.
  set (mez := shl_align _ _ _); case mez as [mz ez].
  apply binary_round_aux_equiv.
Qed.

Lemma binary_normalize_equiv m e szero :
  SpecFloat.binary_normalize 53 1024 m e szero
  = B2SF (binary_normalize 53 1024 P53 P1024 mode_NE m e szero).
Proof.
  case m as [ | p | p].
  - now simpl.
  - simpl; rewrite B2SF_SF2B; apply binary_round_equiv.
  - simpl; rewrite B2SF_SF2B; apply binary_round_equiv.
Qed.

Lemma add_B (x y : B64) : SFadd 53 1024 (B2SF x) (B2SF y) = B2SF (Bplus mode_NE x y).
Proof.
  destruct x as [sx|sx| |sx mx ex Bx], y as [sy|sy| |sy my ey By];
    [now (trivial || simpl; case Bool.eqb).. | ].
  apply binary_normalize_equiv.
Qed.

Lemma sub_B (x y : B64) : SFsub 53 1024 (B2SF x) (B2SF y) = B2SF (Bminus mode_NE x y).
Proof.
  destruct x as [sx|sx| |sx mx ex Bx], y as [sy|sy| |sy my ey By];
    [now (trivial || simpl; case Bool.eqb).. | ].
  simpl. unfold Zminus. rewrite <- cond_Zopp_negb. apply binary_normalize_equiv.
Qed.

Lemma mul_B (x y : B64) : SFmul 53 1024 (B2SF x) (B2SF y) = B2SF (Bmult mode_NE x y).
Proof.
  destruct x as [sx|sx| |sx mx ex Bx], y as [sy|sy| |sy my ey By]; [now trivial.. | ].
  simpl. rewrite B2SF_SF2B. apply binary_round_aux_equiv.
Qed.

Lemma div_B (x y : B64) : SFdiv 53 1024 (B2SF x) (B2SF y) = B2SF (Bdiv mode_NE x y).
Proof.
  destruct x as [sx|sx| |sx mx ex Bx], y as [sy|sy| |sy my ey By];
    [now (trivial || simpl; case Bool.eqb).. | ].
  simpl. rewrite B2SF_SF2B.
  set (melz := SFdiv_core_binary _ _ _ _ _ _). case melz as [[mz ez] lz].
  apply binary_round_aux_equiv.
Qed.

(** Every finite double is one of Flocq's. *)
Lemma fin64_B x : fin64 x -> exists b : B64, x = B2SF b /\ is_finite b = true /\ val x = B2R b.
Proof.
  intros [V F]. exists (SF2B x V). split; [now rewrite B2SF_SF2B|]. split.
  - now rewrite is_finite_SF2B.
  - now rewrite B2R_SF2B.
Qed.

Lemma B_fin64 (b : B64) : is_finite b = true -> fin64 (B2SF b) /\ val (B2SF b) = B2R b.
Proof.
  intros F. split; [split|].
  - apply valid_binary_B2SF.
  - now rewrite is_finite_SF_B2SF.
  - unfold val. apply SF2R_B2SF.
Qed.

Lemma val_repr x : fin64 x -> repr (val x).
Proof. intros H. destruct (fin64_B x H) as (b & _ & _ & ->). apply generic_format_B2R. Qed.

(** ** The operations *)

Definition big : R := bpow radix2 1024.

Lemma add64 x y : fin64 x -> fin64 y -> Rabs (fl (val x + val y)) < big ->
  fin64 (nadd F64 x y) /\ val (nadd F64 x y) = fl (val x + val y).
Proof.
  intros Hx Hy Hb. destruct (fin64_B x Hx) as (a & -> & Fa & Va).
  destruct (fin64_B y Hy) as (b & -> & Fb & Vb). rewrite Va, Vb in *.
  simpl. rewrite add_B. assert (H := Bplus_correct 53 1024 _ _ mode_NE a b Fa Fb).
  rewrite Rlt_bool_true in H by exact Hb. destruct H as (H1 & H2 & _).
  destruct (B_fin64 _ H2) as [F V]. split; auto. rewrite V. exact H1.
Qed.

Lemma sub64 x y : fin64 x -> fin64 y -> Rabs (fl (val x - val y)) < big ->
  fin64 (nsub F64 x y) /\ val (nsub F64 x y) = fl (val x - val y).
Proof.
  intros Hx Hy Hb. destruct (fin64_B x Hx) as (a & -> & Fa & Va).
  destruct (fin64_B y Hy) as (b & -> & Fb & Vb). rewrite Va, Vb in *.
  simpl. rewrite sub_B. assert (H := Bminus_correct 53 1024 _ _ mode_NE a b Fa Fb).
  rewrite Rlt_bool_true in H by exact Hb. destruct H as (H1 & H2 & _).
  destruct (B_fin64 _ H2) as [F V]. split; auto. rewrite V. exact H1.
Qed.

Lemma mul64 x y : fin64 x -> fin64 y -> Rabs (fl (val x * val y)) < big ->
  fin64 (nmul F64 x y) /\ val (nmul F64 x y) = fl (val x * val y).
Proof.
  intros Hx Hy Hb. destruct (fin64_B x Hx) as (a & -> & Fa & Va).
  destruct (fin64_B y Hy) as (b & -> & Fb & Vb). rewrite Va, Vb in *.
  simpl. rewrite mul_B. assert (H := Bmult_correct 53 1024 _ _ mode_NE a b).
  rewrite Rlt_bool_true in H by exact Hb. destruct H as (H1 & H2 & _).
  rewrite Fa, Fb in H2. destruct (B_fin64 _ H2) as [F V]. split; auto. rewrite V. exact H1.
Qed.

Lemma div64 x y : fin64 x -> fin64 y -> val y <> 0 -> Rabs (fl (val x / val y)) < big ->
  fin64 (ndiv F64 x y) /\ val (ndiv F64 x y) = fl (val x / val y).
Proof.
  intros Hx Hy Hn Hb. destruct (fin64_B x Hx) as (a & -> & Fa & Va).
  destruct (fin64_B y Hy) as (b & -> & Fb & Vb). rewrite Va, Vb in *.
  simpl. rewrite div_B. assert (H := Bdiv_correct 53 1024 _ _ mode_NE a b Hn).
  rewrite Rlt_bool_true in H by exact Hb. destruct H as (H1 & H2 & _).
  rewrite Fa in H2. destruct (B_fin64 _ H2) as [F V]. split; auto. rewrite V. exact H1.
Qed.

Lemma abs64 x : fin64 x -> fin64 (nabs F64 x) /\ val (nabs F64 x) = Rabs (val x).
Proof.
  intros Hx. destruct (fin64_B x Hx) as (a & -> & Fa & Va). rewrite Va.
  assert (E : nabs F64 (B2SF a) = B2SF (Babs a)) by (now destruct a).
  rewrite E. assert (F : is_finite (Babs a) = true) by (now rewrite is_finite_Babs).
  destruct (B_fin64 _ F) as [G V]. split; auto. rewrite V. apply B2R_Babs.
Qed.

Lemma ltb64 x y : fin64 x -> fin64 y -> nltb F64 x y = Rlt_bool (val x) (val y).
Proof.
  intros Hx Hy. destruct (fin64_B x Hx) as (a & -> & Fa & Va).
  destruct (fin64_B y Hy) as (b & -> & Fb & Vb). rewrite Va, Vb.
  apply (Bltb_correct 53 1024 a b Fa Fb).
Qed.

Lemma leb64 x y : fin64 x -> fin64 y -> nleb F64 x y = Rle_bool (val x) (val y).
Proof.
  intros Hx Hy. destruct (fin64_B x Hx) as (a & -> & Fa & Va).
  destruct (fin64_B y Hy) as (b & -> & Fb & Vb). rewrite Va, Vb.
  apply (Bleb_correct 53 1024 a b Fa Fb).
Qed.

(** Integers up to 2^53 are doubles. *)
Lemma ofZ64 z : (Z.abs z <= 2 ^ 53)%Z ->
  fin64 (f64_of_Z z) /\ val (f64_of_Z z) = IZR z.
Proof.
  intros Hz. unfold f64_of_Z. rewrite binary_normalize_equiv.
  assert (H := binary_normalize_correct 53 1024 P53 P1024 mode_NE z 0 false).
  cbv zeta in H.
  assert (E : F2R (Float radix2 z 0) = IZR z).
  { unfold F2R. simpl. ring. }
  assert (G : generic_format radix2 (SpecFloat.fexp 53 1024) (IZR z)).
  { apply (generic_format_FLT radix2 (-1074) 53).
    destruct (Z.eq_dec (Z.abs z) (2 ^ 53)) as [Hq|Hq].
    - destruct (Z.abs_spec z) as [[_ Ha]|[_ Ha]].
      + exists (Float radix2 1 53); [|reflexivity|simpl; lia].
        unfold F2R. simpl. replace z with (2 ^ 53)%Z by lia. simpl. lra.
      + exists (Float radix2 (-1) 53); [|reflexivity|simpl; lia].
        unfold F2R. simpl. replace z with (- 2 ^ 53)%Z by lia. simpl. lra.
    - exists (Float radix2 z 0); [now rewrite E|simpl; lia|simpl; lia]. }
  rewrite E in H. rewrite round_generic in H; auto with typeclass_instances.
  rewrite Rlt_bool_true in H.
  - destruct H as (H1 & H2 & _). destruct (B_fin64 _ H2) as [F V]. split; auto.
    rewrite V. exact H1.
  - rewrite <- abs_IZR. apply Rle_lt_trans with (IZR (2 ^ 53)); [now apply IZR_le|].
    change (IZR (2 ^ 53)) with (bpow radix2 53). apply bpow_lt. lia.
Qed.

(** ** Rounding *)

Local Instance fexp_ok : Valid_exp (FLT_exp (-1074) 53) := FLT_exp_valid (-1074) 53.
Local Instance fexp_mono : Monotone_exp (FLT_exp (-1074) 53) := FLT_exp_monotone (-1074) 53.

Lemma fl_repr r : repr (fl r).
Proof. apply generic_format_round; auto with typeclass_instances. Qed.

Lemma fl_id r : repr r -> fl r = r.
Proof. intros H. apply round_generic; auto with typeclass_instances. Qed.

Lemma fl_le r s : r <= s -> fl r <= fl s.
Proof. intros H. apply round_le; auto with typeclass_instances. Qed.

(** A double below a number stays below the rounded number. *)
Lemma fl_ge_repr r s : repr r -> r <= s -> r <= fl s.
Proof. intros H L. rewrite <- (fl_id r H). now apply fl_le. Qed.

Lemma fl_le_repr r s : repr s -> r <= s -> fl r <= s.
Proof. intros H L. rewrite <- (fl_id s H). now apply fl_le. Qed.

Lemma fl_0 : fl 0 = 0.
Proof. apply round_0; auto with typeclass_instances. Qed.

Lemma repr_0 : repr 0.
Proof. apply generic_format_0. Qed.

Lemma repr_opp r : repr r -> repr (- r).
Proof. apply generic_format_opp. Qed.

Lemma u_pos : 0 < u.
Proof. unfold u. apply Rinv_0_lt_compat. apply IZR_lt. reflexivity. Qed.

Lemma u_bpow : u = / 2 * bpow radix2 (- 53 + 1).
Proof.
  unfold u. change (IZR (2 ^ 53)) with (2 * IZR (2 ^ 52)).
  rewrite Rinv_mult. reflexivity.
Qed.

(** Relative error of a sum or difference of doubles; there is no underflow. *)
Lemma fl_add_err a b : repr a -> repr b -> Rabs (fl (a + b) - (a + b)) <= u * Rabs (a + b).
Proof.
  intros Ha Hb. destruct (Rle_or_lt (bpow radix2 (-1074 + 53 - 1)) (Rabs (a + b))) as [L|L].
  - rewrite u_bpow. apply relative_error_N_FLT; auto. reflexivity.
  - rewrite fl_id.
    + rewrite Rminus_eq_0, Rabs_R0. apply Rmult_le_pos; [left; apply u_pos|apply Rabs_pos].
    + apply FLT_format_plus_small; auto with typeclass_instances. apply Rlt_le, Rlt_trans with (1 := L).
      apply bpow_lt. lia.
Qed.

Lemma fl_sub_err a b : repr a -> repr b -> Rabs (fl (a - b) - (a - b)) <= u * Rabs (a - b).
Proof. intros Ha Hb. apply fl_add_err; auto. now apply repr_opp. Qed.

(** Relative error in the normal range. *)
Lemma fl_err r : bpow radix2 (-1022) <= Rabs r -> Rabs (fl r - r) <= u * Rabs r.
Proof. intros L. rewrite u_bpow. apply relative_error_N_FLT; auto. reflexivity. Qed.

(** Sterbenz: nearby doubles are subtracted exactly. *)
Lemma fl_sterbenz a b : repr a -> repr b -> b / 2 <= a <= 2 * b -> fl (a - b) = a - b.
Proof. intros Ha Hb H. apply fl_id. apply sterbenz; auto with typeclass_instances. Qed.

Lemma big_lt r : Rabs r <= bpow radix2 1000 -> Rabs (fl r) < big.
Proof.
  intros H. apply Rle_lt_trans with (bpow radix2 1000).
  - apply abs_round_le_generic; auto with typeclass_instances.
    apply generic_format_bpow. unfold FLT_exp. lia.
  - apply bpow_lt. lia.
Qed.
