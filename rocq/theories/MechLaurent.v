(** Closed forms that are polynomials in T plus multiples of ln T and 1/T, and exponentials of
    such forms. *)
From Coq Require Import List ZArith NArith QArith Qabs Qreals Reals Bool Lra Lia.
From Verif Require Import Outcome Arith MechLang MechSym MechReal MechPoly.
Import ListNotations.
Local Open Scope R_scope.

(** Interval [(lo, hi]] of temperatures; no [hi]: no upper end. *)
Record region := mkRegion { r_lo : Q; r_hi : option Q }.

(** The temperature lies in the interval. *)
Definition inside (r : region) (T : R) : Prop :=
  Q2R (r_lo r) < T /\ match r_hi r with Some h => T <= Q2R h | None => True end.

(** Outcome of [T <= q] on an interval, if it is the same everywhere. *)
Definition decide (r : region) (q : Q) : option bool :=
  if match r_hi r with Some h => Qle_bool h q | None => false end then Some true
  else if Qle_bool q (r_lo r) then Some false else None.

Lemma decide_sound r q b T : decide r q = Some b -> inside r T -> Rleb T (Q2R q) = b.
Proof.
  unfold decide, inside, Rleb. intros H [L U].
  destruct (match r_hi r with Some h => Qle_bool h q | None => false end) eqn:E.
  - injection H as <-. destruct (r_hi r); [|discriminate]. apply Qle_bool_iff, Qle_Rle in E.
    destruct (Rle_dec T (Q2R q)); [reflexivity|lra].
  - destruct (Qle_bool q (r_lo r)) eqn:F; [|discriminate]. injection H as <-.
    apply Qle_bool_iff, Qle_Rle in F. destruct (Rle_dec T (Q2R q)); [lra|reflexivity].
Qed.

(** Value of the polynomial with the given coefficients. *)
Fixpoint peval (l : list R) (T : R) : R := match l with [] => 0 | a :: r => a + T * peval r T end.

(** Polynomial with rational coefficients. *)
Definition qeval (l : list Q) (T : R) : R := peval (map Q2R l) T.

(** Sum of rationals, on the larger denominator if the other one divides it. *)
Definition qplus (x y : Q) : Q :=
  let dx := Zpos (Qden x) in
  let dy := Zpos (Qden y) in
  if (Qnum x =? 0)%Z then y else if (Qnum y =? 0)%Z then x else
  if (Qden x =? Qden y)%positive then Qmake (Qnum x + Qnum y) (Qden y) else
  if (dx <=? dy)%Z then
    let (k, z) := Z.div_eucl dy dx in
    if (z =? 0)%Z then Qmake (Qnum x * k + Qnum y) (Qden y) else (x + y)%Q
  else
    let (k, z) := Z.div_eucl dx dy in
    if (z =? 0)%Z then Qmake (Qnum x + Qnum y * k) (Qden x) else (x + y)%Q.

Lemma Q2R_qplus x y : Q2R (qplus x y) = Q2R x + Q2R y.
Proof.
  rewrite <- Q2R_plus. apply Qeq_eqR. unfold qplus.
  destruct (Qnum x =? 0)%Z eqn:X.
  { apply Z.eqb_eq in X. unfold Qeq. cbn. rewrite X, Pos2Z.inj_mul. ring. }
  destruct (Qnum y =? 0)%Z eqn:Y.
  { apply Z.eqb_eq in Y. unfold Qeq. cbn. rewrite Y, Pos2Z.inj_mul. ring. }
  destruct (Qden x =? Qden y)%positive eqn:DD.
  { apply Pos.eqb_eq in DD. unfold Qeq. cbn. rewrite DD, Pos2Z.inj_mul. ring. }
  assert (K : forall a b, (0 < b)%Z -> let (q, r) := Z.div_eucl a b in a = (b * q + r)%Z).
  { intros a b Hb. pose proof (Z_div_mod a b ltac:(lia)) as D. destruct (Z.div_eucl a b). tauto. }
  destruct (Zpos (Qden x) <=? Zpos (Qden y))%Z.
  - specialize (K (Zpos (Qden y)) (Zpos (Qden x)) eq_refl). destruct (Z.div_eucl _ _) as [k z].
    destruct (z =? 0)%Z eqn:Z; [|reflexivity]. apply Z.eqb_eq in Z. subst z. unfold Qeq. cbn. rewrite Pos2Z.inj_mul, K. ring.
  - specialize (K (Zpos (Qden x)) (Zpos (Qden y)) eq_refl). destruct (Z.div_eucl _ _) as [k z].
    destruct (z =? 0)%Z eqn:Z; [|reflexivity]. apply Z.eqb_eq in Z. subst z. unfold Qeq. cbn. rewrite Pos2Z.inj_mul, K. ring.
Qed.

(** Sum of coefficient lists. *)
Fixpoint qadd (a b : list Q) : list Q :=
  match a, b with
  | [], _ => b
  | _, [] => a
  | x :: a', y :: b' => qplus x y :: qadd a' b'
  end.

(** Multiple of a coefficient list. *)
Definition qscale (c : Q) (a : list Q) : list Q := map (fun x => c * x)%Q a.

(** Product of coefficient lists. *)
Fixpoint qmul (a b : list Q) : list Q :=
  match a with
  | [] => []
  | x :: r => qadd (qscale x b) (match r with [] => [] | _ => 0%Q :: qmul r b end)
  end.

Lemma Q2R_red q : Q2R (Qred q) = Q2R q.
Proof. apply Qeq_eqR, Qred_correct. Qed.

Lemma qadd_val T : forall a b, qeval (qadd a b) T = qeval a T + qeval b T.
Proof.
  unfold qeval. induction a as [|x a IH]; intros b; cbn [qadd map peval]; [ring|].
  destruct b as [|y b]; cbn [map peval]; [ring|]. rewrite IH, Q2R_qplus. ring.
Qed.

Lemma qscale_val T c a : qeval (qscale c a) T = Q2R c * qeval a T.
Proof.
  unfold qeval, qscale. induction a as [|x a IH]; cbn [map peval]; [ring|]. rewrite IH, Q2R_mult. ring.
Qed.

Lemma qmul_val T : forall a b, qeval (qmul a b) T = qeval a T * qeval b T.
Proof.
  induction a as [|x a IH]; intros b; cbn [qmul]; [unfold qeval; cbn; ring|].
  rewrite qadd_val, qscale_val.
  replace (qeval (match a with [] => [] | _ => 0%Q :: qmul a b end) T) with (T * (qeval a T * qeval b T)).
  - unfold qeval. cbn. ring.
  - rewrite <- IH. destruct a; unfold qeval; cbn [map peval]; [|rewrite Q2R_0]; cbn; ring.
Qed.

(** The form [l_log * ln T + l_inv / T + l_poly(T)]. *)
Record laurent := mkLau { l_log : Q; l_inv : Q; l_poly : list Q }.

(** Its value. *)
Definition lau_val (l : laurent) (T : R) : R :=
  Q2R (l_log l) * ln T + Q2R (l_inv l) / T + qeval (l_poly l) T.

(** Sum. *)
Definition lau_add (a b : laurent) : laurent :=
  mkLau (qplus (l_log a) (l_log b)) (qplus (l_inv a) (l_inv b)) (qadd (l_poly a) (l_poly b)).

(** Multiple. *)
Definition lau_scale (c : Q) (a : laurent) : laurent :=
  mkLau (c * l_log a) (c * l_inv a) (qscale c (l_poly a)).

Lemma lau_add_val a b T : lau_val (lau_add a b) T = lau_val a T + lau_val b T.
Proof. unfold lau_val, lau_add. cbn [l_log l_inv l_poly]. rewrite !Q2R_qplus, qadd_val. unfold Rdiv. ring. Qed.

Lemma lau_scale_val c a T : lau_val (lau_scale c a) T = Q2R c * lau_val a T.
Proof. unfold lau_val, lau_scale. cbn [l_log l_inv l_poly]. rewrite !Q2R_mult, qscale_val. unfold Rdiv. ring. Qed.

(** Neither ln T nor 1/T occurs. *)
Definition only_poly (l : laurent) : bool := (Qnum (l_log l) =? 0)%Z && (Qnum (l_inv l) =? 0)%Z.

Lemma Qnum_0 q : (Qnum q =? 0)%Z = true -> Q2R q = 0.
Proof. intros H. apply Z.eqb_eq in H. unfold Q2R. rewrite H. lra. Qed.

Lemma only_poly_val l T : only_poly l = true -> lau_val l T = qeval (l_poly l) T.
Proof.
  unfold only_poly, lau_val. intros H. apply andb_true_iff in H as [A B].
  rewrite (Qnum_0 _ A), (Qnum_0 _ B). unfold Rdiv. ring.
Qed.

(** A constant. *)
Definition constant (l : laurent) : option Q :=
  if only_poly l then match l_poly l with [] => Some 0%Q | [q] => Some q | _ => None end else None.

Lemma constant_val l q T : constant l = Some q -> lau_val l T = Q2R q.
Proof.
  unfold constant. destruct (only_poly l) eqn:E; [|discriminate]. rewrite (only_poly_val _ _ E).
  destruct (l_poly l) as [|a [|]]; try discriminate; intros [= <-]; unfold qeval; cbn; [rewrite Q2R_0|]; ring.
Qed.

(** Multiplication by T of what is not a constant. *)
Definition by_T (a b : laurent) : option laurent :=
  match l_poly a with
  | [z; o] => if only_poly a && only_poly b && (Qnum z =? 0)%Z && Qeq_bool o 1
              then Some (mkLau 0 0 (0%Q :: l_poly b)) else None
  | _ => None
  end.

Lemma by_T_val a b l T : by_T a b = Some l -> lau_val l T = lau_val a T * lau_val b T.
Proof.
  unfold by_T. destruct (l_poly a) as [|z [|o [|]]] eqn:E; try discriminate.
  destruct (only_poly a && only_poly b && (Qnum z =? 0)%Z && Qeq_bool o 1) eqn:F; [|discriminate].
  do 3 (apply andb_true_iff in F as [F ?]). intros K. injection K as <-.
  rewrite (only_poly_val a T F), (only_poly_val b T) by assumption. rewrite only_poly_val by reflexivity.
  rewrite E. unfold qeval. cbn [l_poly map peval]. rewrite (Qnum_0 z) by assumption.
  apply Qeq_bool_eq, Qeq_eqR in H. rewrite H, Q2R_1, Q2R_0. ring.
Qed.

(** Product, if one factor is constant or both are polynomials. *)
Definition lau_mul (a b : laurent) : option laurent :=
  match constant a, constant b with
  | Some c, _ => Some (lau_scale c b)
  | None, Some c => Some (lau_scale c a)
  | None, None =>
      match by_T a b with Some l => Some l | None =>
      if only_poly a && only_poly b then Some (mkLau 0 0 (qmul (l_poly a) (l_poly b))) else None
      end
  end.

Lemma lau_mul_val a b l T : lau_mul a b = Some l -> lau_val l T = lau_val a T * lau_val b T.
Proof.
  unfold lau_mul. destruct (constant a) as [c|] eqn:A.
  - intros [= <-]. rewrite lau_scale_val, (constant_val a c T A). reflexivity.
  - destruct (constant b) as [c|] eqn:B.
    + intros [= <-]. rewrite lau_scale_val, (constant_val b c T B). ring.
    + destruct (by_T a b) as [l'|] eqn:F; [intros [= <-]; apply by_T_val, F|].
      destruct (only_poly a && only_poly b) eqn:E; [|discriminate]. intros [= <-].
      apply andb_true_iff in E as [Ea Eb]. rewrite (only_poly_val a T Ea), (only_poly_val b T Eb), <- qmul_val.
      apply only_poly_val. reflexivity.
Qed.

(** The temperature. *)
Definition is_T (e : expr) : bool := match e with Ref v_T 0%N => true | _ => false end.

(** The form of an expression on an interval of temperatures. *)
Fixpoint lin (r : region) (e : expr) : option laurent :=
  match e with
  | Num q => Some (mkLau 0 0 [q])
  | Ref _ _ => if is_T e then Some (mkLau 0 0 [0; 1]%Q) else None
  | Neg a => option_map (lau_scale (-1)) (lin r a)
  | Add a b => match lin r a, lin r b with Some x, Some y => Some (lau_add x y) | _, _ => None end
  | Sub a b => match lin r a, lin r b with Some x, Some y => Some (lau_add x (lau_scale (-1) y)) | _, _ => None end
  | Mul a b => match lin r a, lin r b with Some x, Some y => lau_mul x y | _, _ => None end
  | Div a b =>
      match lin r a with
      | Some x =>
          if is_T b then match constant x with Some c => Some (mkLau 0 c []) | None => None end
          else match b with Num q => if Qeq_bool q 0 then None else Some (lau_scale (/ q) x) | _ => None end
      | None => None
      end
  | Log a => if is_T a then Some (mkLau 1 0 []) else None
  | Ite a b t f =>
      if is_T a then
        match b with
        | Num q => match decide r q with Some true => lin r t | Some false => lin r f | None => None end
        | _ => None
        end
      else None
  | _ => None
  end.

(** The form [c * exp l] of a positive expression. *)
Fixpoint pos_form (r : region) (e : expr) : option (Q * laurent) :=
  match e with
  | Num q => if (0 <? Qnum q)%Z then Some (q, mkLau 0 0 []) else None
  | Exp a => option_map (fun l => (1%Q, l)) (lin r a)
  | Mul a b =>
      match pos_form r a, pos_form r b with
      | Some (c, x), Some (d, y) => Some ((c * d)%Q, lau_add x y)
      | _, _ => None
      end
  | Div a b =>
      match pos_form r a, pos_form r b with
      | Some (c, x), Some (d, y) => Some ((c / d)%Q, lau_add x (lau_scale (-1) y))
      | _, _ => None
      end
  | Ite a b t f =>
      if is_T a then
        match b with
        | Num q => match decide r q with Some true => pos_form r t | Some false => pos_form r f | None => None end
        | _ => None
        end
      else None
  | _ => None
  end.

Lemma some_pair {X Y} (a c : X) (b d : Y) : Some (a, b) = Some (c, d) -> a = c /\ b = d.
Proof. intros H. inversion H. auto. Qed.

Section Values.
  Variable rho : var -> N -> R.
  Variable r : region.
  Notation T := (rho v_T 0%N).
  Hypothesis HT : inside r T.
  Notation rval := (rval exact_libm rho).

  Lemma is_T_val e : is_T e = true -> rval e = T.
  Proof. destruct e; cbn; try discriminate. destruct v; try discriminate. destruct i; [reflexivity|discriminate]. Qed.

  Lemma lin_val e : forall l, lin r e = Some l -> rval e = lau_val l T.
  Proof.
    induction e; intros l; cbn [lin]; try discriminate.
    - intros [= <-]. unfold lau_val, qeval. cbn. rewrite Q2R_0. unfold Rdiv. ring.
    - destruct (is_T (Ref v i)) eqn:E; [|discriminate]. intros [= <-]. rewrite (is_T_val _ E).
      unfold lau_val, qeval. cbn. rewrite Q2R_0, Q2R_1. unfold Rdiv. ring.
    - destruct (lin r e) as [x|]; [|discriminate]. intros [= <-].
      change (rval (Neg e)) with (Q2R (-1) * rval e). rewrite (IHe x eq_refl), lau_scale_val. reflexivity.
    - destruct (lin r e1) as [x|]; [|discriminate]. destruct (lin r e2) as [y|]; [|discriminate]. intros [= <-].
      change (rval (Add e1 e2)) with (rval e1 + rval e2). rewrite (IHe1 x eq_refl), (IHe2 y eq_refl), lau_add_val.
      reflexivity.
    - destruct (lin r e1) as [x|]; [|discriminate]. destruct (lin r e2) as [y|]; [|discriminate]. intros [= <-].
      change (rval (Sub e1 e2)) with (rval e1 - rval e2).
      rewrite (IHe1 x eq_refl), (IHe2 y eq_refl), lau_add_val, lau_scale_val, Q2R_m1. ring.
    - destruct (lin r e1) as [x|]; [|discriminate]. destruct (lin r e2) as [y|]; [|discriminate]. intros H.
      change (rval (Mul e1 e2)) with (rval e1 * rval e2).
      rewrite (IHe1 x eq_refl), (IHe2 y eq_refl), (lau_mul_val x y l T H). reflexivity.
    - destruct (lin r e1) as [x|]; [|discriminate].
      change (rval (Div e1 e2)) with (rval e1 / rval e2). rewrite (IHe1 x eq_refl).
      destruct (is_T e2) eqn:E.
      + destruct (constant x) as [c|] eqn:C; [|discriminate]. intros [= <-].
        rewrite (is_T_val _ E), (constant_val x c T C). unfold lau_val, qeval. cbn. rewrite Q2R_0. unfold Rdiv. ring.
      + destruct e2; try discriminate. destruct (Qeq_bool q 0) eqn:Z; [discriminate|]. intros [= <-].
        rewrite lau_scale_val, Q2R_inv by (apply Qeq_bool_neq; exact Z).
        change (rval (Num q)) with (Q2R q). unfold Rdiv. ring.
    - destruct (is_T e) eqn:E; [|discriminate]. intros [= <-].
      change (rval (Log e)) with (ln (rval e)). rewrite (is_T_val _ E).
      unfold lau_val, qeval. cbn. rewrite Q2R_0, Q2R_1. unfold Rdiv. ring.
    - destruct (is_T e1) eqn:E; [|discriminate]. destruct e2; try discriminate.
      destruct (decide r q) as [b|] eqn:D; [|discriminate].
      pose proof (decide_sound r q b T D HT) as V.
      assert (W : rval (Ite e1 (Num q) e3 e4) = if b then rval e3 else rval e4).
      { change (rval (Ite e1 (Num q) e3 e4)) with (if Rleb (rval e1) (Q2R q) then rval e3 else rval e4).
        rewrite (is_T_val _ E), V. reflexivity. }
      rewrite W. destruct b; auto.
  Qed.

  Lemma pos_form_val e : forall c l, pos_form r e = Some (c, l) ->
    0 < Q2R c /\ rval e = Q2R c * exp (lau_val l T).
  Proof.
    induction e; intros c l; cbn [pos_form]; try discriminate.
    - destruct (0 <? Qnum q)%Z eqn:P; [|discriminate]. intros [= <- <-]. split.
      + rewrite <- Q2R_0. apply Qlt_Rlt. unfold Qlt. cbn. apply Z.ltb_lt in P. lia.
      + change (rval (Num q)) with (Q2R q). unfold lau_val, qeval. cbn. rewrite Q2R_0.
        replace (0 * ln T + 0 / T + 0) with 0 by (unfold Rdiv; ring). rewrite exp_0. ring.
    - destruct (pos_form r e1) as [[c1 x]|]; [|discriminate]. destruct (pos_form r e2) as [[c2 y]|]; [|discriminate].
      intros H. apply some_pair in H as [<- <-]. destruct (IHe1 _ _ eq_refl) as [P1 V1], (IHe2 _ _ eq_refl) as [P2 V2].
      change (rval (Mul e1 e2)) with (rval e1 * rval e2).
      rewrite Q2R_mult, lau_add_val, exp_plus, V1, V2. split; [apply Rmult_lt_0_compat; assumption|ring].
    - destruct (pos_form r e1) as [[c1 x]|]; [|discriminate]. destruct (pos_form r e2) as [[c2 y]|]; [|discriminate].
      intros H. apply some_pair in H as [<- <-]. destruct (IHe1 _ _ eq_refl) as [P1 V1], (IHe2 _ _ eq_refl) as [P2 V2].
      change (rval (Div e1 e2)) with (rval e1 / rval e2).
      assert (N2 : ~ (c2 == 0)%Q).
      { intros Z. apply Qeq_eqR in Z. rewrite Q2R_0 in Z. lra. }
      unfold Qdiv. rewrite Q2R_mult, Q2R_inv by exact N2.
      rewrite lau_add_val, lau_scale_val, exp_plus, V1, V2, Q2R_m1.
      split; [apply Rmult_lt_0_compat; [assumption|apply Rinv_0_lt_compat; assumption]|].
      replace (-1 * lau_val y T) with (- lau_val y T) by ring. rewrite exp_Ropp. field.
      split; [|lra]. apply Rgt_not_eq, exp_pos.
    - destruct (lin r e) as [x|] eqn:L; [|discriminate]. intros [= <- <-]. rewrite Q2R_1.
      change (rval (Exp e)) with (exp (rval e)). rewrite (lin_val e x L). split; [lra|ring].
    - destruct (is_T e1) eqn:E; [|discriminate]. destruct e2; try discriminate.
      destruct (decide r q) as [b|] eqn:D; [|discriminate].
      pose proof (decide_sound r q b T D HT) as V.
      assert (W : rval (Ite e1 (Num q) e3 e4) = if b then rval e3 else rval e4).
      { change (rval (Ite e1 (Num q) e3 e4)) with (if Rleb (rval e1) (Q2R q) then rval e3 else rval e4).
        rewrite (is_T_val _ E), V. reflexivity. }
      rewrite W. destruct b; auto.
  Qed.
End Values.

(** The intervals between the given temperatures, in increasing order. *)
Fixpoint regions (lo : Q) (l : list Q) : list region :=
  match l with
  | [] => [mkRegion lo None]
  | q :: r => mkRegion lo (Some q) :: regions q r
  end.

Lemma regions_cover l : forall lo T, Q2R lo < T -> exists r, In r (regions lo l) /\ inside r T.
Proof.
  induction l as [|q l IH]; intros lo T H; cbn.
  - eexists. split; [left; reflexivity|]. split; [exact H|exact I].
  - destruct (Rle_dec T (Q2R q)).
    + eexists. split; [left; reflexivity|]. split; assumption.
    + destruct (IH q T ltac:(lra)) as (r & R1 & R2). eauto.
Qed.

(** ** Comparison of coefficients *)

(** Polynomial with the absolute values of the coefficients. *)
Definition qsize (l : list Q) (T : R) : R := peval (map (fun q => Rabs (Q2R q)) l) T.

(** Coefficients agree with those of [b] up to [eps] times those of [s]. *)
Fixpoint near (eps : Q) (a b s : list Q) : bool :=
  match a, b, s with
  | x :: a', y :: b', z :: s' => Qle_bool (Qabs (qplus x (- y))) (eps * Qabs z) && near eps a' b' s'
  | [], [], [] => true
  | _, _, _ => false
  end.

Lemma Q2R_abs q : Q2R (Qabs q) = Rabs (Q2R q).
Proof.
  unfold Q2R, Qabs. destruct q as [n d]. cbn. rewrite Rabs_mult, abs_IZR. f_equal.
  symmetry. apply Rabs_pos_eq. left. apply Rinv_0_lt_compat. apply (IZR_lt 0). lia.
Qed.

Lemma near_val eps a : forall b s T, near eps a b s = true -> 0 <= T ->
  Rabs (qeval a T - qeval b T) <= Q2R eps * qsize s T.
Proof.
  unfold qeval, qsize. induction a as [|x a IH]; intros b s T; destruct b as [|y b], s as [|z s]; cbn [near map peval]; try discriminate.
  - intros _ _. rewrite Rminus_0_r, Rabs_R0. lra.
  - intros H HT. apply andb_true_iff in H as [H1 H2]. specialize (IH b s T H2 HT).
    apply Qle_bool_iff, Qle_Rle in H1. rewrite Q2R_mult, !Q2R_abs, Q2R_qplus, Q2R_opp in H1.
    replace (Q2R x + T * peval (map Q2R a) T - (Q2R y + T * peval (map Q2R b) T))
      with ((Q2R x - Q2R y) + T * (peval (map Q2R a) T - peval (map Q2R b) T)) by ring.
    eapply Rle_trans; [apply Rabs_triang|]. rewrite Rabs_mult, (Rabs_pos_eq T HT). unfold Rminus in *.
    apply (Rmult_le_compat_l T) in IH; [|exact HT]. lra.
Qed.
