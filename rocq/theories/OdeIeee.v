(** The ODE driver in IEEE doubles. *)
From Coq Require Import List Arith ZArith QArith Bool Lia Reals Lra.
From Coq Require Import Floats.SpecFloat.
From Flocq Require Import Core BinarySingleNaN.
From Verif Require Import Outcome Arith OdeSolver OdeFacts Ieee SweepIeee TimeIeee MixIeee.
Import ListNotations.
Local Open Scope R_scope.

(** ** Vocabulary (not functions of /repo) *)

(** A sensible length of an integration interval, from 2^-400 to 2^400. *)
Definition interval (xEnd : num F64) : Prop := fin64 xEnd /\ bpow radix2 (-400) <= val xEnd <= bpow radix2 400.

(** A sensible step forward, up to 2^400. *)
Definition forward_step (d : num F64) : Prop := fin64 d /\ 0 < val d <= bpow radix2 400.

(** Steppers that, asked for a step forward, do not go back, go at most to the rounded sum of position and step,
    and propose a step forward. *)
Definition steps_ahead {H} (solve : H -> num F64 -> list (num F64) -> stepState F64
                        -> outcome (num F64 * list (num F64) * stepState F64 * H)) : Prop :=
  forall h x y s x' y' s' h', solve h x y s = Ok (x', y', s', h') ->
    fin64 x -> 0 <= val x <= bpow radix2 400 -> forward_step (ss_dxTry s) ->
    fin64 x' /\ val x <= val x' <= val (nadd F64 x (ss_dxTry s)) /\ forward_step (ss_dxTry s').

(** ** Differences of doubles *)

Lemma repr_bpow e : (-1074 <= e)%Z -> repr (bpow radix2 e).
Proof. intros He. replace (bpow radix2 e) with (F2R (Float radix2 1 e)) by (unfold F2R; cbn [Fnum Fexp]; ring). apply repr_int; lia. Qed.

Lemma gap a b : repr a -> repr b -> 0 <= a < b -> bpow radix2 (-400) <= b -> bpow radix2 (-453) <= b - a.
Proof.
  intros Ra Rb [Pa L] Hb.
  assert (B1 : bpow radix2 (-400) = 2 * bpow radix2 (-401)) by (change (-400)%Z with (1 + -401)%Z; rewrite bpow_plus; reflexivity).
  assert (B2 : bpow radix2 (-453) <= bpow radix2 (-401)) by (apply bpow_le; lia).
  destruct (Rle_or_lt (bpow radix2 (-401)) a) as [C|C]; [|lra].
  assert (V : Valid_exp (FLT_exp (-1074) 53)) by (apply FLT_exp_valid; reflexivity).
  pose proof (succ_le_lt radix2 (FLT_exp (-1074) 53) a b Ra Rb L) as S. rewrite succ_eq_pos in S by exact Pa.
  pose proof (bpow_gt_0 radix2 (-401)) as P.
  rewrite ulp_neq_0 in S by lra.
  assert (M : (-400 <= mag radix2 a)%Z) by (apply mag_ge_bpow; rewrite Rabs_pos_eq by lra; exact C).
  assert (bpow radix2 (-453) <= bpow radix2 (cexp radix2 (FLT_exp (-1074) 53) a)).
  { apply bpow_le. unfold cexp, FLT_exp. lia. }
  lra.
Qed.

Lemma big_400 r : Rabs r <= bpow radix2 900 -> Rabs (fl r) < big.
Proof. intros L. apply big_lt. eapply Rle_trans; [exact L|]. apply bpow_le. lia. Qed.

(** Difference of two positions. *)
Lemma minus64 (x y : num F64) : fin64 x -> fin64 y -> 0 <= val x <= bpow radix2 402 -> 0 <= val y <= bpow radix2 402 ->
  fin64 (nsub F64 x y) /\ val (nsub F64 x y) = fl (val x - val y) /\ Rabs (fl (val x - val y)) <= bpow radix2 402.
Proof.
  intros Fx Fy Hx Hy. assert (B : Rabs (val x - val y) <= bpow radix2 402) by (apply Rabs_le; lra).
  destruct (sub64 x y Fx Fy) as [F V].
  - apply big_400. eapply Rle_trans; [exact B|]. apply bpow_le. lia.
  - split; [exact F|]. split; [exact V|]. apply Rabs_le_inv in B.
    apply Rabs_le. split; [apply fl_ge_repr; [apply repr_opp, repr_bpow; lia|lra]|apply fl_le_repr; [apply repr_bpow; lia|lra]].
Qed.

Lemma minus_zero (x : num F64) : fin64 x -> 0 <= val x <= bpow radix2 402 -> fin64 (nsub F64 x (zero F64)) /\ val (nsub F64 x (zero F64)) = val x.
Proof.
  intros Fx Hx. destruct zero64 as [Fz Vz]. pose proof (bpow_gt_0 radix2 402) as P.
  destruct (minus64 x (zero F64) Fx Fz Hx) as (F & V & _); [rewrite Vz; lra|].
  split; [exact F|]. rewrite V, Vz, Rminus_0_r. apply fl_id. apply val_repr. exact Fx.
Qed.

(** Sign of a rounded product of a difference and a length. *)
Lemma product64 (x y w : num F64) : fin64 x -> fin64 y -> fin64 w ->
  0 <= val x <= bpow radix2 402 -> bpow radix2 (-400) <= val y <= bpow radix2 402 -> 0 <= val w <= bpow radix2 402 ->
  let p := nmul F64 (nsub F64 x y) w in
  fin64 p /\ (val x <= val y -> val p <= 0) /\ (val y <= val x -> 0 <= val p) /\
  (val y < val x -> bpow radix2 (-400) <= val w -> 0 < val p) /\
  (val x < val y -> bpow radix2 (-400) <= val w -> val p < 0).
Proof.
  intros Fx Fy Fw Hx Hy Hw p. pose proof (bpow_gt_0 radix2 (-400)) as P400.
  destruct (minus64 x y Fx Fy Hx) as (Fd & Vd & Bd); [lra|].
  set (d := fl (val x - val y)) in *.
  assert (Bp : Rabs (d * val w) <= bpow radix2 900).
  { rewrite Rabs_mult, (Rabs_pos_eq (val w)) by lra. apply Rle_trans with (bpow radix2 402 * bpow radix2 402).
    - apply Rmult_le_compat; [apply Rabs_pos|lra|exact Bd|lra].
    - rewrite <- bpow_plus. apply bpow_le. lia. }
  destruct (mul64 _ w Fd Fw) as [Fp Vp]; [rewrite Vd; apply big_400; exact Bp|]. fold p in Fp, Vp. rewrite Vd in Vp.
  assert (E : bpow radix2 (-453) * bpow radix2 (-400) = bpow radix2 (-853)) by (rewrite <- bpow_plus; reflexivity).
  assert (P853 : 0 < bpow radix2 (-853)) by apply bpow_gt_0.
  assert (P453 : 0 < bpow radix2 (-453)) by apply bpow_gt_0.
  split; [exact Fp|]. rewrite Vp. repeat split.
  - intros L. assert (d <= 0) by (apply fl_le_repr; [apply repr_0|lra]). apply fl_le_repr; [apply repr_0|nra].
  - intros L. assert (0 <= d) by (apply fl_ge_repr; [apply repr_0|lra]). apply fl_ge_repr; [apply repr_0|nra].
  - intros L W. assert (D : bpow radix2 (-453) <= d).
    { apply fl_ge_repr; [apply repr_bpow; lia|]. apply Rle_trans with (val x - val y); [|lra].
      apply gap; [apply val_repr; exact Fy|apply val_repr; exact Fx|lra|lra]. }
    apply Rlt_le_trans with (bpow radix2 (-853)); [exact P853|]. apply fl_ge_repr; [apply repr_bpow; lia|].
    rewrite <- E. apply Rmult_le_compat; lra.
  - intros L W. assert (D : d <= - bpow radix2 (-453)).
    { apply fl_le_repr; [apply repr_opp, repr_bpow; lia|].
      assert (bpow radix2 (-453) <= val y - val x); [|lra].
      apply gap; [apply val_repr; exact Fx|apply val_repr; exact Fy|lra|lra]. }
    apply Rle_lt_trans with (- bpow radix2 (-853)); [|lra]. apply fl_le_repr; [apply repr_opp, repr_bpow; lia|].
    rewrite <- E. assert (bpow radix2 (-453) * bpow radix2 (-400) <= - d * val w); [|lra]. apply Rmult_le_compat; lra.
Qed.

(** ** The tests of the driver *)
Section Tests.
  Variable xe : num F64.
  Hypothesis He : interval xe.

  Lemma bounds_400 : bpow radix2 402 = 4 * bpow radix2 400 /\ 0 < bpow radix2 (-400) /\ 0 < bpow radix2 400.
  Proof. split; [change 402%Z with (2 + 400)%Z; rewrite bpow_plus; reflexivity|split; apply bpow_gt_0]. Qed.

  Lemma arrived64 (x : num F64) : fin64 x -> 0 <= val x <= bpow radix2 402 ->
    (arrived (zero F64) xe x <-> val xe <= val x).
  Proof.
    intros Fx Hx. destruct He as [Fe Be]. destruct bounds_400 as (B1 & B2 & B3).
    destruct (minus_zero xe Fe) as [Fw Vw]; [lra|].
    destruct (product64 x xe _ Fx Fe Fw Hx) as (Fp & P1 & P2 & P3 & P4); [lra|rewrite Vw; lra|].
    unfold arrived. destruct zero64 as [Fz Vz]. rewrite (leb64 _ _ Fz Fp), Vz.
    split; intros A.
    - destruct (Rle_bool_spec 0 (val (nmul F64 (nsub F64 x xe) (nsub F64 xe (zero F64))))) as [C|C]; [|discriminate].
      destruct (Rle_or_lt (val xe) (val x)) as [D|D]; [exact D|]. specialize (P4 D). rewrite Vw in P4.
      assert (val (nmul F64 (nsub F64 x xe) (nsub F64 xe (zero F64))) < 0) by (apply P4; lra). lra.
    - apply Rle_bool_true. apply P2. exact A.
  Qed.

  Lemma outside64 (x : num F64) : fin64 x -> 0 <= val x <= bpow radix2 402 ->
    outside (zero F64) xe x = Rlt_bool (val xe) (val x).
  Proof.
    intros Fx Hx. destruct He as [Fe Be]. destruct bounds_400 as (B1 & B2 & B3).
    destruct (minus_zero x Fx Hx) as [Fw Vw].
    destruct (product64 x xe _ Fx Fe Fw Hx) as (Fp & P1 & P2 & P3 & P4); [lra|rewrite Vw; lra|].
    unfold outside. destruct zero64 as [Fz Vz]. rewrite (ltb64 _ _ Fz Fp), Vz.
    destruct (Rlt_bool_spec (val xe) (val x)) as [D|D].
    - apply Rlt_bool_true. apply P3; [exact D|rewrite Vw; lra].
    - apply Rlt_bool_false. apply P1. exact D.
  Qed.

  (** ** Steps *)
  Context {H : Type}.
  Variable solve : H -> num F64 -> list (num F64) -> stepState F64 -> outcome (num F64 * list (num F64) * stepState F64 * H).
  Hypothesis Hs : steps_ahead solve.

  Lemma step64 a b : OdeFacts.stepped solve (zero F64) xe a b -> fin64 (pt_x a) -> 0 <= val (pt_x a) < val xe ->
    forward_step (ss_dxTry (pt_step a)) ->
    fin64 (pt_x b) /\ val (pt_x a) <= val (pt_x b) <= val xe * (1 + 3 * u) /\ forward_step (ss_dxTry (pt_step b)).
  Proof.
    intros St Fa Ha [Fd Hd]. destruct He as [Fe Be]. destruct bounds_400 as (B1 & B2 & B3). pose proof u_range as [U0 U1].
    set (x := pt_x a) in *. set (d := ss_dxTry (pt_step a)) in *.
    destruct (add64 x d Fa Fd) as [Fn Vn].
    { apply big_400. rewrite Rabs_pos_eq by lra. apply Rle_trans with (bpow radix2 402); [lra|apply bpow_le; lia]. }
    assert (Bn : 0 <= val (nadd F64 x d) <= bpow radix2 402).
    { rewrite Vn. split; [apply fl_ge_repr; [apply repr_0|lra]|apply fl_le_repr; [apply repr_bpow; lia|lra]]. }
    unfold OdeFacts.stepped in St. cbv zeta in St. fold x d in St. rewrite (outside64 _ Fn Bn) in St.
    destruct (Rlt_bool_spec (val xe) (val (nadd F64 x d))) as [C|C].
    - destruct (minus64 xe x Fe Fa) as (Fm & Vm & _); [lra|lra|].
      assert (G : bpow radix2 (-453) <= val xe - val x) by (apply gap; [apply val_repr; exact Fa|apply val_repr; exact Fe|lra|lra]).
      assert (G1 : bpow radix2 (-453) <= fl (val xe - val x)) by (apply fl_ge_repr; [apply repr_bpow; lia|exact G]).
      assert (G2 : fl (val xe - val x) <= val xe) by (apply fl_le_repr; [apply val_repr; exact Fe|lra]).
      pose proof (bpow_gt_0 radix2 (-453)) as P.
      pose proof (fl_sub_err _ _ (val_repr xe Fe) (val_repr x Fa)) as Er. rewrite (Rabs_pos_eq (val xe - val x)) in Er by lra.
      rewrite <- Vm in G1, G2, Er. set (m := nsub F64 xe x) in *.
      destruct (Hs _ _ _ _ _ _ _ _ St Fa) as (R1 & R2 & R3); [fold x; lra|split; [exact Fm|cbn [ss_dxTry]; fold x m; lra]|].
      cbn [ss_dxTry] in R2. fold x m in R2. split; [exact R1|]. split; [|exact R3]. split; [exact (proj1 R2)|].
      eapply Rle_trans; [exact (proj2 R2)|].
      destruct (add64 x m Fa Fm) as [Fs Vs].
      { apply big_400. rewrite Rabs_pos_eq by lra. apply Rle_trans with (bpow radix2 402); [lra|apply bpow_le; lia]. }
      rewrite Vs. pose proof (fl_add_err _ _ (val_repr x Fa) (val_repr m Fm)) as Es.
      rewrite (Rabs_pos_eq (val x + val m)) in Es by lra.
      apply Rabs_le_inv in Er. apply Rabs_le_inv in Es.
      assert (M : val x + val m <= val xe * (1 + u)).
      { assert (u * (val xe - val x) <= u * val xe) by (apply Rmult_le_compat_l; lra). lra. }
      assert (fl (val x + val m) <= (val x + val m) * (1 + u)) by lra.
      apply Rle_trans with ((val x + val m) * (1 + u)); [assumption|].
      apply Rle_trans with (val xe * (1 + u) * (1 + u)); [apply Rmult_le_compat_r; lra|].
      rewrite Rmult_assoc. apply Rmult_le_compat_l; [lra|]. nra.
    - destruct (Hs _ _ _ _ _ _ _ _ St Fa) as (R1 & R2 & R3); [fold x; lra|split; [exact Fd|exact Hd]|].
      cbn [ss_dxTry] in R2. fold x d in R2. split; [exact R1|]. split; [|exact R3]. split; [exact (proj1 R2)|].
      eapply Rle_trans; [exact (proj2 R2)|]. eapply Rle_trans; [exact C|]. nra.
  Qed.

  Lemma reach64 a k b : reach solve (zero F64) xe a k b -> fin64 (pt_x a) -> 0 <= val (pt_x a) < val xe ->
    forward_step (ss_dxTry (pt_step a)) ->
    fin64 (pt_x b) /\ val (pt_x a) <= val (pt_x b) <= val xe * (1 + 3 * u).
  Proof.
    intros R. induction R as [a b St|a b k c St Hn R IH]; intros Fa Ha Hd;
      destruct (step64 a b St Fa Ha Hd) as (F1 & L1 & D1); [auto|].
    destruct He as [Fe Be]. destruct bounds_400 as (B1 & B2 & B3). pose proof u_range as [U0 U1].
    assert (B : 0 <= val (pt_x b) <= bpow radix2 402) by nra.
    destruct IH as [I1 I2]; [exact F1| |exact D1|].
    - cbn [carry pt_x]. split; [lra|]. apply Rnot_le_lt. intros C. apply Hn. apply (arrived64 _ F1 B). exact C.
    - split; [exact I1|]. cbn [carry pt_x] in I2. lra.
  Qed.

  (** The driver returns a state at the end of the interval. *)
  Theorem range64 maxSteps h y dxTry y' dx' h' : forward_step dxTry ->
    solve_range solve maxSteps h (zero F64) xe y dxTry = Ok (y', dx', h') ->
    exists k b, (k <= maxSteps)%nat /\ reach solve (zero F64) xe (mkPoint h (zero F64) y (newStep dxTry)) k b /\
      y' = pt_y b /\ h' = pt_mem b /\ fin64 (pt_x b) /\ val xe <= val (pt_x b) <= val xe * (1 + 3 * u).
  Proof.
    intros Hd E. destruct (proj1 (range_returns solve maxSteps h (zero F64) xe y dxTry y' h')) as (k & b & K & R & A & Y & M); [eauto|].
    destruct zero64 as [Fz Vz]. destruct He as [Fe Be]. destruct bounds_400 as (B1 & B2 & B3). pose proof u_range as [U0 U1].
    destruct (reach64 _ _ _ R) as [F L]; [exact Fz|cbn [pt_x]; rewrite Vz; lra|exact Hd|].
    cbn [pt_x] in L. rewrite Vz in L.
    exists k, b. do 4 (split; [assumption|]). split; [exact F|]. split; [|lra].
    apply (arrived64 _ F); [nra|exact A].
  Qed.
End Tests.

Theorem not_short (xEnd : num F64) : interval xEnd ->
  forall (H : Type) (solve : H -> num F64 -> list (num F64) -> stepState F64 -> outcome (num F64 * list (num F64) * stepState F64 * H))
         maxSteps h y dxTry y' dx' h',
    solve_range solve maxSteps h (zero F64) xEnd y dxTry = Ok (y', dx', h') ->
    exists k b, (k <= maxSteps)%nat /\ reach solve (zero F64) xEnd (mkPoint h (zero F64) y (newStep dxTry)) k b /\
      y' = pt_y b /\ h' = pt_mem b /\ (fin64 (pt_x b) -> 0 <= val (pt_x b) <= bpow radix2 402 -> val xEnd <= val (pt_x b)).
Proof.
  intros He H solve maxSteps h y dxTry y' dx' h' E.
  destruct (proj1 (range_returns solve maxSteps h (zero F64) xEnd y dxTry y' h')) as (k & b & L & R & Ar & Ey & Eh); [eauto|].
  exists k, b. split; [exact L|]. split; [exact R|]. split; [exact Ey|]. split; [exact Eh|].
  intros Fx Bx. apply (arrived64 xEnd He _ Fx Bx). exact Ar.
Qed.
