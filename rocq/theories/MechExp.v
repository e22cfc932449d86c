(** Rational bounds of the exponential function. *)
From Coq Require Import List ZArith QArith Qreals Reals Bool Lra Lia.
Local Open Scope R_scope.

(** Taylor polynomial of degree [n] of exp, plus [c] times the next term. *)
Fixpoint term (j : nat) (x : R) : R := match j with O => 1 | S i => x / INR j * term i x end.

(** The sum of the first terms. *)
Fixpoint terms (n : nat) (x : R) : R := match n with O => 1 | S i => terms i x + term n x end.

(** With a multiple of the next term. *)
Definition taylor (c : R) (n : nat) (x : R) : R := terms n x + c * term (S n) x.

Lemma term_derive j x : derivable_pt_lim (term (S j)) x (term j x).
Proof.
  revert x. induction j as [|j IH]; intros x.
  - replace (term 0 x) with (1 * / INR 1) by (cbn; field).
    apply (derivable_pt_lim_ext (fun y => / INR 1 * y)%R); [intros; cbn; field|].
    replace (1 * / INR 1) with (/ INR 1 * 1) by ring.
    apply (derivable_pt_lim_scal id). apply derivable_pt_lim_id.
  - apply (derivable_pt_lim_ext (fun y => / INR (S (S j)) * (y * term (S j) y))).
    { intros y. change (term (S (S j)) y) with (y / INR (S (S j)) * term (S j) y). unfold Rdiv. ring. }
    assert (N1 : INR (S j) <> 0) by (apply not_0_INR; lia).
    assert (N2 : INR (S (S j)) <> 0) by (apply not_0_INR; lia).
    replace (term (S j) x) with (/ INR (S (S j)) * (1 * term (S j) x + x * term j x)).
    { apply (derivable_pt_lim_scal (fun y => y * term (S j) y)).
      apply (derivable_pt_lim_mult id (term (S j))); [apply derivable_pt_lim_id|apply IH]. }
    change (term (S j) x) with (x / INR (S j) * term j x). rewrite (S_INR (S j)) in *. field. split; assumption.
Qed.

Lemma terms_derive n x : derivable_pt_lim (terms (S n)) x (terms n x).
Proof.
  revert x. induction n as [|n IH]; intros x.
  - apply (derivable_pt_lim_ext (fun y => 1 + term 1 y)); [reflexivity|].
    replace (terms 0 x) with (0 + term 0 x) by (cbn; ring).
    apply (derivable_pt_lim_plus (fun _ => 1) (term 1)); [apply derivable_pt_lim_const|apply term_derive].
  - apply (derivable_pt_lim_ext (fun y => terms (S n) y + term (S (S n)) y)); [reflexivity|].
    change (terms (S n) x) with (terms n x + term (S n) x).
    apply (derivable_pt_lim_plus (terms (S n)) (term (S (S n)))); [apply IH|apply term_derive].
Qed.

Lemma taylor_derive c n x : derivable_pt_lim (taylor c (S n)) x (taylor c n x).
Proof.
  apply (derivable_pt_lim_ext (fun y => terms (S n) y + c * term (S (S n)) y)); [reflexivity|].
  apply (derivable_pt_lim_plus (terms (S n)) (fun y => c * term (S (S n)) y)); [apply terms_derive|].
  apply (derivable_pt_lim_scal (term (S (S n)))). apply term_derive.
Qed.

Lemma term_0 j : term (S j) 0 = 0.
Proof. cbn. unfold Rdiv. ring. Qed.

Lemma taylor_0 c n : taylor c n 0 = 1.
Proof.
  unfold taylor. rewrite term_0. assert (E : terms n 0 = 1); [|rewrite E; ring].
  induction n as [|n IH]; [reflexivity|]. cbn [terms]. rewrite IH, term_0. ring.
Qed.

(** A function that starts at zero and has a non-negative derivative is non-negative. *)
Lemma grows (f f' : R -> R) x : 0 <= x -> f 0 = 0 ->
  (forall y, 0 <= y <= x -> derivable_pt_lim f y (f' y)) -> (forall y, 0 <= y <= x -> 0 <= f' y) -> 0 <= f x.
Proof.
  intros Hx H0 D P. destruct (Req_dec x 0) as [->|N]; [lra|].
  destruct (MVT_cor2 f f' 0 x ltac:(lra) D) as (y & E & I). rewrite H0 in E.
  specialize (P y ltac:(lra)). assert (0 <= f' y * (x - 0)) by (apply Rmult_le_pos; lra). lra.
Qed.

Lemma taylor_low n : forall x, 0 <= x -> taylor 0 n x <= exp x.
Proof.
  induction n as [|n IH]; intros x Hx.
  - unfold taylor. cbn. destruct (Req_dec x 0) as [->|N]; [rewrite exp_0; lra|].
    pose proof (exp_ineq1 x N). lra.
  - assert (G : 0 <= exp x - taylor 0 (S n) x); [|lra].
    apply (grows (fun y => exp y - taylor 0 (S n) y) (fun y => exp y - taylor 0 n y)); [exact Hx| | |].
    + rewrite exp_0, taylor_0. ring.
    + intros y _. apply (derivable_pt_lim_minus exp (taylor 0 (S n))); [apply derivable_pt_lim_exp|apply taylor_derive].
    + intros y [Hy _]. specialize (IH y Hy). lra.
Qed.

Lemma taylor_high n : forall x, 0 <= x <= 1 / 2 -> exp x <= taylor 2 n x.
Proof.
  induction n as [|n IH]; intros x Hx.
  - unfold taylor. cbn. pose proof (exp_ineq1_le (- x)) as H. rewrite exp_Ropp in H.
    pose proof (exp_pos x) as P.
    assert (exp x * (1 - x) <= 1).
    { apply (Rmult_le_compat_l (exp x)) in H; [|lra]. rewrite Rinv_r in H by lra. lra. }
    assert (K : exp x <= 2).
    { assert (exp x * (1 / 2) <= exp x * (1 - x)) by (apply Rmult_le_compat_l; lra). lra. }
    assert (exp x * x <= 2 * x) by (apply Rmult_le_compat_r; lra). lra.
  - assert (G : 0 <= taylor 2 (S n) x - exp x); [|lra].
    apply (grows (fun y => taylor 2 (S n) y - exp y) (fun y => taylor 2 n y - exp y)); [lra| | |].
    + rewrite exp_0, taylor_0. ring.
    + intros y _. apply (derivable_pt_lim_minus (taylor 2 (S n)) exp); [apply taylor_derive|apply derivable_pt_lim_exp].
    + intros y Hy. specialize (IH y ltac:(lra)). lra.
Qed.

(** Horner's scheme. *)
Fixpoint horner (c : R) (m k : nat) (x : R) : R :=
  match m with
  | O => 1 + c * (x / INR k)
  | S i => 1 + x / INR k * horner c i (S k) x
  end.

Lemma horner_terms c x : forall m k, terms k x + term (S k) x * horner c m (S (S k)) x = taylor c (S k + m) x.
Proof.
  induction m as [|m IH]; intros k; cbn [horner].
  - rewrite Nat.add_0_r. unfold taylor. cbn [terms].
    change (term (S (S k)) x) with (x / INR (S (S k)) * term (S k) x). ring.
  - rewrite <- Nat.add_succ_comm, <- IH. cbn [terms].
    change (term (S (S k)) x) with (x / INR (S (S k)) * term (S k) x). ring.
Qed.

Lemma horner_taylor c m x : horner c (S m) 1 x = taylor c (S m) x.
Proof. change (taylor c (S m) x) with (taylor c (1 + m) x). rewrite <- (horner_terms c x m 0). cbn [horner terms term]. change (INR 1) with 1. field. Qed.

(** ** Fixed-point computation *)

(** Number of binary digits after the point. *)
Definition prec : Z := 72.

(** The unit. *)
Definition one : Z := Eval vm_compute in (2 ^ 72)%Z.

(** Halvings of the argument. *)
Definition halvings : nat := 9.

(** Value of a fixed-point number. *)
Definition fx (z : Z) : R := IZR z / IZR one.

(** Division by the unit. *)
Definition cut (z : Z) : Z := Z.shiftr z prec.

Lemma cut_div z : cut z = (z / one)%Z.
Proof. unfold cut. rewrite Z.shiftr_div_pow2 by (unfold prec; lia). reflexivity. Qed.

Lemma cut_div_k z k : (0 < k)%Z -> (cut z / k = z / (k * one))%Z.
Proof. intros H. rewrite cut_div, Z.div_div, Z.mul_comm; [reflexivity|discriminate|exact H]. Qed.

(** Horner's scheme from below. *)
Fixpoint hlow (m : nat) (k x : Z) : Z :=
  match m with
  | O => one
  | S i => one + cut (x * hlow i (k + 1) x) / k
  end%Z.

(** Horner's scheme from above. *)
Fixpoint hhigh (m : nat) (k x : Z) : Z :=
  match m with
  | O => one + 2 * x / k + 1
  | S i => one + cut (x * hhigh i (k + 1) x) / k + 1
  end%Z.

(** Repeated squaring from below. *)
Fixpoint sqlow (n : nat) (x : Z) : Z := match n with O => x | S i => sqlow i (cut (x * x)) end.

(** Repeated squaring from above. *)
Fixpoint sqhigh (n : nat) (x : Z) : Z := match n with O => x | S i => sqhigh i (cut (x * x) + 1)%Z end.

(** Bounds of exp of a non-negative rational. *)
Definition exp_pos_bounds (q : Q) : option (Z * Z) :=
  let x := (Qnum q * one / (Zpos (Qden q) * 2 ^ Z.of_nat halvings))%Z in
  if (0 <=? x)%Z && (2 * (x + 1) <=? one)%Z
  then Some (sqlow halvings (hlow 15 1 x), sqhigh halvings (hhigh 15 1 (x + 1)%Z))
  else None.

(** Bounds of exp of a rational. *)
Definition exp_bounds (q : Q) : option (Q * Q) :=
  if (0 <=? Qnum q)%Z then
    match exp_pos_bounds q with
    | Some (l, h) => Some (Qmake l (Z.to_pos one), Qmake h (Z.to_pos one))
    | None => None
    end
  else
    match exp_pos_bounds (- q) with
    | Some (l, h) => if (0 <? l)%Z && (0 <? h)%Z then Some (Qmake one (Z.to_pos h), Qmake one (Z.to_pos l)) else None
    | None => None
    end.

Lemma one_pos : 0 < IZR one.
Proof. apply (IZR_lt 0). reflexivity. Qed.

Lemma div_low a b : (0 < b)%Z -> IZR (a / b) <= IZR a / IZR b.
Proof.
  intros H. assert (0 < IZR b) by (apply (IZR_lt 0); exact H).
  apply (Rmult_le_reg_r (IZR b)); [assumption|]. unfold Rdiv. rewrite Rmult_assoc, Rinv_l, Rmult_1_r by lra.
  rewrite <- mult_IZR. apply IZR_le. pose proof (Z.mul_div_le a b H). lia.
Qed.

Lemma div_high a b : (0 < b)%Z -> IZR a / IZR b <= IZR (a / b + 1).
Proof.
  intros H. assert (0 < IZR b) by (apply (IZR_lt 0); exact H).
  apply (Rmult_le_reg_r (IZR b)); [assumption|]. unfold Rdiv. rewrite Rmult_assoc, Rinv_l, Rmult_1_r by lra.
  rewrite <- mult_IZR. apply IZR_le. pose proof (Z.mul_succ_div_gt a b H). lia.
Qed.

Lemma fx_one : fx one = 1.
Proof. unfold fx. pose proof one_pos. field. lra. Qed.

Lemma fx_add a b : fx (a + b) = fx a + fx b.
Proof. unfold fx. rewrite plus_IZR. pose proof one_pos. field. lra. Qed.

Lemma fx_le a b : (a <= b)%Z -> fx a <= fx b.
Proof.
  intros H. unfold fx, Rdiv. apply Rmult_le_compat_r; [left; apply Rinv_0_lt_compat, one_pos|apply IZR_le, H].
Qed.

Lemma fx_nonneg a : (0 <= a)%Z -> 0 <= fx a.
Proof. intros H. replace 0 with (fx 0) by (unfold fx, Rdiv; ring). apply fx_le, H. Qed.

Lemma fx_div_low a b k : (0 < k)%Z -> fx (cut (a * b) / k) <= fx a * fx b / IZR k.
Proof.
  intros Hk. rewrite (cut_div_k _ _ Hk). pose proof one_pos as O. assert (0 < IZR k) by (apply (IZR_lt 0); exact Hk).
  unfold fx. pose proof (div_low (a * b) (k * one) ltac:(apply Z.mul_pos_pos; [exact Hk|reflexivity])) as H1.
  rewrite !mult_IZR in H1. unfold Rdiv at 1. apply (Rmult_le_compat_r (/ IZR one)) in H1; [|left; apply Rinv_0_lt_compat, O].
  eapply Rle_trans; [exact H1|]. right. field. split; lra.
Qed.

Lemma fx_div_high a b k : (0 < k)%Z -> fx a * fx b / IZR k <= fx (cut (a * b) / k + 1).
Proof.
  intros Hk. rewrite (cut_div_k _ _ Hk). pose proof one_pos as O. assert (0 < IZR k) by (apply (IZR_lt 0); exact Hk).
  unfold fx. pose proof (div_high (a * b) (k * one) ltac:(apply Z.mul_pos_pos; [exact Hk|reflexivity])) as H1.
  rewrite !mult_IZR in H1. unfold Rdiv at 4. apply (Rmult_le_compat_r (/ IZR one)) in H1; [|left; apply Rinv_0_lt_compat, O].
  eapply Rle_trans; [|exact H1]. right. field. split; lra.
Qed.

Lemma hlow_le m : forall k x, (0 <= x)%Z -> (0 < hlow m (Z.of_nat k) x)%Z /\ ((0 < k)%nat -> fx (hlow m (Z.of_nat k) x) <= horner 0 m k (fx x)).
Proof.
  induction m as [|m IH]; intros k x Hx; cbn [hlow horner].
  - split; [reflexivity|]. intros _. rewrite fx_one. lra.
  - replace (Z.of_nat k + 1)%Z with (Z.of_nat (S k)) by lia. destruct (IH (S k) x Hx) as [P L]. split.
    + assert (0 < one)%Z by reflexivity.
      assert (0 <= cut (x * hlow m (Z.of_nat (S k)) x) / Z.of_nat k)%Z; [|lia].
      destruct k as [|k]; [change (Z.of_nat 0) with 0%Z; rewrite Zdiv_0_r; lia|].
      rewrite cut_div. apply Z.div_pos; [apply Z.div_pos; nia|lia].
    + intros Hk. specialize (L ltac:(lia)). rewrite fx_add, fx_one. apply Rplus_le_compat_l.
      eapply Rle_trans; [apply fx_div_low; lia|]. rewrite <- INR_IZR_INZ. unfold Rdiv.
      assert (0 < / INR k) by (apply Rinv_0_lt_compat, (lt_INR 0), Hk).
      rewrite Rmult_assoc, (Rmult_comm _ (/ INR k)), <- Rmult_assoc.
      apply Rmult_le_compat_l; [|exact L]. apply Rmult_le_pos; [apply fx_nonneg, Hx|lra].
Qed.

Lemma horner_mono c m : 0 <= c -> forall k x y, 0 <= x <= y -> (0 < k)%nat ->
  0 <= horner c m k x <= horner c m k y.
Proof.
  intros Hc. induction m as [|m IH]; intros k x y Hx Hk; cbn [horner];
    assert (P : 0 < / INR k) by (apply Rinv_0_lt_compat, (lt_INR 0), Hk); unfold Rdiv.
  - assert (0 <= x * / INR k) by (apply Rmult_le_pos; lra).
    assert (x * / INR k <= y * / INR k) by (apply Rmult_le_compat_r; lra).
    assert (0 <= c * (x * / INR k)) by (apply Rmult_le_pos; lra).
    assert (c * (x * / INR k) <= c * (y * / INR k)) by (apply Rmult_le_compat_l; lra). lra.
  - specialize (IH (S k) x y Hx ltac:(lia)).
    assert (0 <= x * / INR k) by (apply Rmult_le_pos; lra).
    assert (x * / INR k <= y * / INR k) by (apply Rmult_le_compat_r; lra).
    assert (0 <= x * / INR k * horner c m (S k) x) by (apply Rmult_le_pos; lra).
    assert (x * / INR k * horner c m (S k) x <= y * / INR k * horner c m (S k) y) by (apply Rmult_le_compat; lra).
    lra.
Qed.

Lemma hhigh_ge m : forall k x, (0 <= x)%Z -> (0 < k)%nat -> horner 2 m k (fx x) <= fx (hhigh m (Z.of_nat k) x).
Proof.
  induction m as [|m IH]; intros k x Hx Hk; cbn [hhigh horner].
  - rewrite <- Z.add_assoc, fx_add, fx_one. apply Rplus_le_compat_l.
    pose proof one_pos as O. assert (0 < INR k) by (apply (lt_INR 0), Hk).
    unfold fx. pose proof (div_high (2 * x) (Z.of_nat k) ltac:(lia)) as H1. rewrite mult_IZR, <- INR_IZR_INZ in H1.
    unfold Rdiv at 3. apply (Rmult_le_compat_r (/ IZR one)) in H1; [|left; apply Rinv_0_lt_compat, O].
    eapply Rle_trans; [|exact H1]. right. field. split; lra.
  - replace (Z.of_nat k + 1)%Z with (Z.of_nat (S k)) by lia. specialize (IH (S k) x Hx ltac:(lia)).
    rewrite <- Z.add_assoc, fx_add, fx_one. apply Rplus_le_compat_l.
    eapply Rle_trans; [|apply fx_div_high; lia]. rewrite <- INR_IZR_INZ. unfold Rdiv.
    assert (0 < / INR k) by (apply Rinv_0_lt_compat, (lt_INR 0), Hk).
    rewrite (Rmult_assoc (fx x)), (Rmult_comm (/ INR k)), <- Rmult_assoc.
    apply Rmult_le_compat_r; [lra|]. apply Rmult_le_compat_l; [apply fx_nonneg, Hx|exact IH].
Qed.

Lemma exp_double y : exp (2 * y) = exp y * exp y.
Proof. rewrite <- exp_plus. f_equal. ring. Qed.

Lemma sqlow_le n : forall x y, (0 <= x)%Z -> fx x <= exp y -> fx (sqlow n x) <= exp (2 ^ n * y).
Proof.
  induction n as [|n IH]; intros x y Hx H; cbn [sqlow pow]; [rewrite Rmult_1_l; exact H|].
  replace (2 * 2 ^ n * y) with (2 ^ n * (2 * y)) by ring. apply IH.
  - rewrite cut_div. apply Z.div_pos; [nia|reflexivity].
  - rewrite exp_double. pose proof (fx_div_low x x 1 ltac:(lia)) as D. rewrite Z.div_1_r in D.
    eapply Rle_trans; [exact D|]. unfold Rdiv. rewrite Rinv_1, Rmult_1_r.
    apply Rmult_le_compat; try apply fx_nonneg; assumption.
Qed.

Lemma sqhigh_ge n : forall x y, exp y <= fx x -> exp (2 ^ n * y) <= fx (sqhigh n x).
Proof.
  induction n as [|n IH]; intros x y H; cbn [sqhigh pow]; [rewrite Rmult_1_l; exact H|].
  replace (2 * 2 ^ n * y) with (2 ^ n * (2 * y)) by ring. apply IH.
  rewrite exp_double. pose proof (fx_div_high x x 1 ltac:(lia)) as D. rewrite Z.div_1_r in D.
  eapply Rle_trans; [|exact D]. unfold Rdiv. rewrite Rinv_1, Rmult_1_r.
  pose proof (exp_pos y). apply Rmult_le_compat; lra.
Qed.

Lemma some_pair {X Y} (a c : X) (b d : Y) : Some (a, b) = Some (c, d) -> a = c /\ b = d.
Proof. intros H. inversion H. auto. Qed.

Lemma exp_pos_sound q l h : exp_pos_bounds q = Some (l, h) -> fx l <= exp (Q2R q) <= fx h.
Proof.
  unfold exp_pos_bounds. set (x := (Qnum q * one / (Zpos (Qden q) * 2 ^ Z.of_nat halvings))%Z).
  destruct ((0 <=? x)%Z && (2 * (x + 1) <=? one)%Z) eqn:E; [|discriminate]. intros H. apply some_pair in H as [<- <-].
  apply andb_true_iff in E as [E1 E2]. apply Z.leb_le in E1, E2.
  set (y := Q2R q / 2 ^ halvings). assert (P2 : 0 < 2 ^ halvings) by (apply pow_lt; lra).
  assert (Q : Q2R q = 2 ^ halvings * y) by (unfold y; field; lra).
  pose proof one_pos as O.
  assert (D : IZR (Zpos (Qden q) * 2 ^ Z.of_nat halvings) = IZR (Zpos (Qden q)) * 2 ^ halvings).
  { rewrite mult_IZR. f_equal. change (2 ^ Z.of_nat halvings)%Z with 512%Z. unfold halvings. cbn. lra. }
  assert (B : (0 < Zpos (Qden q) * 2 ^ Z.of_nat halvings)%Z) by (apply Z.mul_pos_pos; reflexivity).
  assert (Pd : 0 < IZR (Zpos (Qden q))) by (apply (IZR_lt 0); reflexivity).
  assert (Y : fx x <= y <= fx (x + 1)).
  { pose proof (div_low (Qnum q * one) _ B) as L. pose proof (div_high (Qnum q * one) _ B) as H. fold x in L, H.
    rewrite D, mult_IZR in L, H. unfold fx. split.
    - apply (Rmult_le_reg_r (IZR one)); [exact O|]. unfold Rdiv at 1. rewrite Rmult_assoc, Rinv_l, Rmult_1_r by lra.
      eapply Rle_trans; [exact L|]. right. unfold y, Q2R. field. split; lra.
    - apply (Rmult_le_reg_r (IZR one)); [exact O|]. unfold Rdiv at 1. rewrite Rmult_assoc, Rinv_l, Rmult_1_r by lra.
      eapply Rle_trans; [|exact H]. right. unfold y, Q2R. field. split; lra. }
  assert (Y0 : 0 <= fx x) by (apply fx_nonneg, E1).
  assert (Y1 : fx (x + 1) <= 1 / 2).
  { apply fx_le in E2. rewrite fx_one in E2. replace (2 * (x + 1))%Z with ((x + 1) + (x + 1))%Z in E2 by ring.
    rewrite fx_add in E2. lra. }
  rewrite Q. split.
  - apply sqlow_le.
    + destruct (hlow_le 15 1 x E1) as [P _]. change (Z.of_nat 1) with 1%Z in P. lia.
    + destruct (hlow_le 15 1 x E1) as [_ L]. change (Z.of_nat 1) with 1%Z in L. specialize (L ltac:(lia)).
      eapply Rle_trans; [exact L|].
      eapply Rle_trans; [apply (horner_mono 0 15 ltac:(lra) 1 (fx x) y); [lra|lia]|].
      rewrite horner_taylor. apply taylor_low. lra.
  - apply sqhigh_ge. pose proof (hhigh_ge 15 1 (x + 1)%Z ltac:(lia) ltac:(lia)) as H. change (Z.of_nat 1) with 1%Z in H.
    eapply Rle_trans; [|exact H].
    eapply Rle_trans; [|apply (horner_mono 2 15 ltac:(lra) 1 y (fx (x + 1))); [lra|lia]].
    rewrite horner_taylor. apply taylor_high. lra.
Qed.

Lemma Q2R_fx z : Q2R (Qmake z (Z.to_pos one)) = fx z.
Proof. reflexivity. Qed.

Theorem exp_bounds_sound q l h : exp_bounds q = Some (l, h) -> Q2R l <= exp (Q2R q) <= Q2R h.
Proof.
  unfold exp_bounds. destruct (0 <=? Qnum q)%Z eqn:S.
  - destruct (exp_pos_bounds q) as [[a b]|] eqn:E; [|discriminate]. intros H. apply some_pair in H as [<- <-].
    apply exp_pos_sound, E.
  - destruct (exp_pos_bounds (- q)) as [[a b]|] eqn:E; [|discriminate].
    destruct ((0 <? a)%Z && (0 <? b)%Z) eqn:P; [|discriminate]. intros H. apply some_pair in H as [<- <-].
    apply andb_true_iff in P as [Pa Pb]. apply Z.ltb_lt in Pa, Pb.
    apply exp_pos_sound in E. rewrite Q2R_opp, exp_Ropp in E. pose proof (exp_pos (Q2R q)) as X. pose proof one_pos as O.
    assert (Fa : 0 < fx a) by (unfold fx; apply Rdiv_lt_0_compat; [apply (IZR_lt 0), Pa|exact O]).
    assert (Ea : Q2R (Qmake one (Z.to_pos a)) = / fx a).
    { unfold Q2R, fx. cbn [Qnum Qden]. rewrite Z2Pos.id by lia. field. split; [apply Rgt_not_eq, O|apply not_0_IZR; lia]. }
    assert (Eb : Q2R (Qmake one (Z.to_pos b)) = / fx b).
    { unfold Q2R, fx. cbn [Qnum Qden]. rewrite Z2Pos.id by lia. field. split; [apply Rgt_not_eq, O|apply not_0_IZR; lia]. }
    rewrite Ea, Eb. rewrite <- (Rinv_inv (exp (Q2R q))). assert (0 < / exp (Q2R q)) by (apply Rinv_0_lt_compat, X).
    split; apply Rinv_le_contravar; lra.
Qed.

(** [c * exp q] equals [a] up to the relative error [eps]. *)
Definition exp_close (eps c q a : Q) : bool :=
  (0 <? Qnum c)%Z && (0 <? Qnum a)%Z &&
  match exp_bounds q with
  | Some (l, h) => Qle_bool (a * (1 - eps)) (c * l) && Qle_bool (c * h) (a * (1 + eps))
  | None => false
  end.

Lemma ln_le x : 0 < x -> ln x <= x - 1.
Proof.
  intros H. pose proof (exp_ineq1_le (ln x)) as E. rewrite exp_ln in E by exact H. lra.
Qed.

Lemma ln_near a x e : 0 < a -> 0 <= e <= 1 / 2 -> a * (1 - e) <= x <= a * (1 + e) -> Rabs (ln x - ln a) <= 2 * e.
Proof.
  intros Ha He [L H].
  assert (P : 0 < a * (1 - e)) by (apply Rmult_lt_0_compat; lra).
  assert (Hx : 0 < x) by lra.
  assert (D : forall u v, 0 < u -> 0 < v -> ln u - ln v <= u / v - 1).
  { intros u v Hu Hv.
    assert (0 < u / v) by (apply Rdiv_lt_0_compat; assumption).
    replace (ln u - ln v) with (ln (u / v)); [apply ln_le; assumption|].
    unfold Rdiv. rewrite ln_mult, ln_Rinv by (try apply Rinv_0_lt_compat; assumption). ring. }
  apply Rabs_le. split.
  - specialize (D a x Ha Hx).
    assert (a / x <= a / (a * (1 - e))).
    { unfold Rdiv. apply Rmult_le_compat_l; [lra|]. apply Rinv_le_contravar; assumption. }
    replace (a / (a * (1 - e))) with (/ (1 - e)) in * by (field; lra).
    assert (/ (1 - e) <= 1 + 2 * e).
    { apply (Rmult_le_reg_l (1 - e)); [lra|]. rewrite Rinv_r by lra.
      assert (0 <= e * (1 - 2 * e)) by (apply Rmult_le_pos; lra). lra. }
    lra.
  - specialize (D x a Hx Ha).
    assert (x / a <= 1 + e).
    { apply (Rmult_le_reg_r a); [exact Ha|]. unfold Rdiv. rewrite Rmult_assoc, Rinv_l by lra. lra. }
    lra.
Qed.

Lemma Q2R_pos q : (0 <? Qnum q)%Z = true -> 0 < Q2R q.
Proof.
  intros H. apply Z.ltb_lt in H. unfold Q2R. apply Rmult_lt_0_compat; [apply (IZR_lt 0), H|].
  apply Rinv_0_lt_compat, (IZR_lt 0). reflexivity.
Qed.

Theorem exp_close_sound eps c q a : exp_close eps c q a = true -> 0 <= Q2R eps <= 1 / 2 ->
  Rabs (ln (Q2R c) + Q2R q - ln (Q2R a)) <= 2 * Q2R eps.
Proof.
  unfold exp_close. intros H He. apply andb_true_iff in H as [H B]. apply andb_true_iff in H as [Hc Ha].
  apply Q2R_pos in Hc, Ha. destruct (exp_bounds q) as [[l h]|] eqn:E; [|discriminate].
  apply andb_true_iff in B as [B1 B2]. apply Qle_bool_iff, Qle_Rle in B1, B2.
  rewrite Q2R_mult, Q2R_minus, Q2R_mult in B1. rewrite !Q2R_mult, Q2R_plus in B2.
  replace (Q2R 1) with 1 in B1, B2 by (unfold Q2R; cbn; lra).
  apply exp_bounds_sound in E. pose proof (exp_pos (Q2R q)) as X.
  replace (ln (Q2R c) + Q2R q) with (ln (Q2R c * exp (Q2R q))) by (rewrite ln_mult, ln_exp by assumption; reflexivity).
  apply ln_near; [exact Ha|exact He|].
  assert (Q2R c * Q2R l <= Q2R c * exp (Q2R q)) by (apply Rmult_le_compat_l; lra).
  assert (Q2R c * exp (Q2R q) <= Q2R c * Q2R h) by (apply Rmult_le_compat_l; lra). lra.
Qed.
