(** [eval_jacob]: derivatives of fall-off factors.
    The definitions below are not functions of /repo. *)
From Coq Require Import List ZArith NArith QArith Qabs Qreals Reals Bool Lra Lia.
From Verif Require Import Outcome Arith MechLang MechSym MechSrc MechCall MechReal MechPoly MechChem Mechanisms
  MechSpec MechRate MechPmod MechThermo MechConc MechDydt MechRhs MechData MechExp MechLaurent MechNasa MechKin MechArr MechLaw MechTroe
  MechJac MechJacT MechJacS MechJacD MechJacR MechJacE.
Import ListNotations.
Local Open Scope R_scope.

(** ** The function *)

(** A of the Troe function, given centre and reduced pressure. *)
Definition troe_A (fc pr : R) : R := log10c pr - 0.67 * log10c fc - 0.4.

(** B of the Troe function. *)
Definition troe_B (fc pr : R) : R := 0.806 - 1.1762 * log10c fc - 0.14 * log10c pr.

(** Broadening factor. *)
Definition broad (fc pr : R) : R :=
  Rpower 10 (log10c fc / (1 + troe_A fc pr * troe_A fc pr / (troe_B fc pr * troe_B fc pr))).

Lemma broadening_broad t T pr : broadening (Some t) T pr = broad (f_cent t T) pr.
Proof. reflexivity. Qed.

Lemma ln10_pos : 0 < ln 10.
Proof. rewrite <- ln_1. apply ln_increasing; lra. Qed.

Lemma log10c_derive x : Q2R tiny < x -> 0 < x -> derivable_pt_lim log10c x (/ (x * ln 10)).
Proof.
  intros H Hx. pose proof ln10_pos as L.
  apply (derivable_pt_lim_locally_ext (fun y => ln y * / ln 10) _ x (Q2R tiny) (x + 1)); [lra| |].
  - intros y Hy. unfold log10c. rewrite Rmax_left by lra. reflexivity.
  - rewrite Rinv_mult.
    replace (/ x * / ln 10) with (/ x * / ln 10 + ln x * 0) by ring.
    apply (derivable_pt_lim_mult ln (fun _ => / ln 10)); [apply derivable_pt_lim_ln, Hx|apply derivable_pt_lim_const].
Qed.

(** 2 ln(Fcent) A / (B^3 (1 + (A/B)^2)^2). *)
Definition troe_L (fc pr : R) : R :=
  2 * (log10c fc * ln 10) * troe_A fc pr /
  (troe_B fc pr * troe_B fc pr * troe_B fc pr *
   (1 + troe_A fc pr * troe_A fc pr / (troe_B fc pr * troe_B fc pr)) *
   (1 + troe_A fc pr * troe_A fc pr / (troe_B fc pr * troe_B fc pr))).

(** Derivative of the logarithm of the fall-off factor; [dF] is that of the centre, [lP] that of the logarithm of
    the reduced pressure. *)
Definition troe_slope (fc pr dF lP : R) : R :=
  lP / (1 + pr) +
  (1 / (fc * (1 + troe_A fc pr * troe_A fc pr / (troe_B fc pr * troe_B fc pr))) -
   troe_L fc pr * ((1.1762 * troe_A fc pr - 0.67 * troe_B fc pr) / ln 10) / fc) * dF -
  troe_L fc pr * ((troe_B fc pr + 0.14 * troe_A fc pr) / ln 10) * lP.

Lemma sq_ratio a b : b <> 0 -> 1 + a * a / (b * b) <> 0.
Proof.
  intros Hb. apply Rgt_not_eq. assert (0 < b * b) by nra.
  assert (0 <= a * a / (b * b)) by (apply Rmult_le_pos; [nra|left; apply Rinv_0_lt_compat; assumption]). lra.
Qed.

Lemma troe_derive (F P : R -> R) T dF lP :
  derivable_pt_lim F T dF -> derivable_pt_lim P T (P T * lP) ->
  Q2R tiny < F T -> Q2R tiny < P T -> troe_B (F T) (P T) <> 0 ->
  derivable_pt_lim (fun t => ln (broad (F t) (P t) * (P t / (1 + P t)))) T (troe_slope (F T) (P T) dF lP).
Proof.
  intros DF DP HF HP HB. pose proof ln10_pos as L10.
  assert (T0 : 0 < Q2R tiny) by (unfold Q2R, tiny; cbn [Qnum Qden]; apply Rmult_lt_0_compat; [apply IZR_lt; reflexivity|apply Rinv_0_lt_compat, IZR_lt; reflexivity]).
  assert (F0 : 0 < F T) by lra. assert (P0 : 0 < P T) by lra.
  set (l := ln 10) in *. set (f := F T) in *. set (q := P T) in *.
  assert (Df : derivable_pt_lim (fun t => log10c (F t)) T (/ (f * l) * dF)).
  { apply (derivable_pt_lim_comp F log10c); [exact DF|]. apply log10c_derive; assumption. }
  assert (Dq : derivable_pt_lim (fun t => log10c (P t)) T (/ (q * l) * (q * lP))).
  { apply (derivable_pt_lim_comp P log10c); [exact DP|]. apply log10c_derive; assumption. }
  assert (DA : derivable_pt_lim (fun t => troe_A (F t) (P t)) T (/ (q * l) * (q * lP) - 0.67 * (/ (f * l) * dF) - 0)).
  { apply (derivable_pt_lim_minus (fun t => log10c (P t) - 0.67 * log10c (F t)) (fun _ => 0.4)); [|apply derivable_pt_lim_const].
    apply (derivable_pt_lim_minus (fun t => log10c (P t)) (fun t => 0.67 * log10c (F t))); [exact Dq|].
    apply (derivable_pt_lim_scal (fun t => log10c (F t))), Df. }
  assert (DB : derivable_pt_lim (fun t => troe_B (F t) (P t)) T (0 - 1.1762 * (/ (f * l) * dF) - 0.14 * (/ (q * l) * (q * lP)))).
  { apply (derivable_pt_lim_minus (fun t => 0.806 - 1.1762 * log10c (F t)) (fun t => 0.14 * log10c (P t)));
      [|apply (derivable_pt_lim_scal (fun t => log10c (P t))), Dq].
    apply (derivable_pt_lim_minus (fun _ => 0.806) (fun t => 1.1762 * log10c (F t))); [apply derivable_pt_lim_const|].
    apply (derivable_pt_lim_scal (fun t => log10c (F t))), Df. }
  set (dA := / (q * l) * (q * lP) - 0.67 * (/ (f * l) * dF) - 0) in DA.
  set (dB := 0 - 1.1762 * (/ (f * l) * dF) - 0.14 * (/ (q * l) * (q * lP))) in DB.
  set (a := troe_A f q) in *. set (b := troe_B f q) in *.
  assert (DD : derivable_pt_lim (fun t => 1 + troe_A (F t) (P t) * troe_A (F t) (P t) / (troe_B (F t) (P t) * troe_B (F t) (P t))) T
    (0 + ((dA * a + a * dA) * (b * b) - (dB * b + b * dB) * (a * a)) / Rsqr (b * b))).
  { apply (derivable_pt_lim_plus (fun _ => 1) (fun t => troe_A (F t) (P t) * troe_A (F t) (P t) / (troe_B (F t) (P t) * troe_B (F t) (P t))));
      [apply derivable_pt_lim_const|].
    apply (derivable_pt_lim_div (fun t => troe_A (F t) (P t) * troe_A (F t) (P t)) (fun t => troe_B (F t) (P t) * troe_B (F t) (P t))).
    - apply (derivable_pt_lim_mult (fun t => troe_A (F t) (P t)) (fun t => troe_A (F t) (P t))); exact DA.
    - apply (derivable_pt_lim_mult (fun t => troe_B (F t) (P t)) (fun t => troe_B (F t) (P t))); exact DB.
    - change (b * b <> 0). nra. }
  set (dD := 0 + ((dA * a + a * dA) * (b * b) - (dB * b + b * dB) * (a * a)) / Rsqr (b * b)) in DD.
  set (D := 1 + a * a / (b * b)).
  assert (HD : D <> 0) by (apply sq_ratio; exact HB).
  assert (DZ : derivable_pt_lim (fun t => log10c (F t) /
      (1 + troe_A (F t) (P t) * troe_A (F t) (P t) / (troe_B (F t) (P t) * troe_B (F t) (P t)))) T
      ((/ (f * l) * dF * D - dD * log10c f) / Rsqr D)).
  { apply (derivable_pt_lim_div (fun t => log10c (F t))
      (fun t => 1 + troe_A (F t) (P t) * troe_A (F t) (P t) / (troe_B (F t) (P t) * troe_B (F t) (P t)))); assumption. }
  set (dZ := (/ (f * l) * dF * D - dD * log10c f) / Rsqr D) in DZ.
  assert (Dbr : derivable_pt_lim (fun t => broad (F t) (P t)) T (broad f q * (dZ * l))).
  { unfold broad at 1. unfold Rpower.
    apply (derivable_pt_lim_comp (fun t => log10c (F t) /
      (1 + troe_A (F t) (P t) * troe_A (F t) (P t) / (troe_B (F t) (P t) * troe_B (F t) (P t))) * ln 10) exp).
    - replace (dZ * l) with (dZ * l + log10c (F T) /
      (1 + troe_A (F T) (P T) * troe_A (F T) (P T) / (troe_B (F T) (P T) * troe_B (F T) (P T))) * 0) by ring.
      apply (derivable_pt_lim_mult (fun t => log10c (F t) /
        (1 + troe_A (F t) (P t) * troe_A (F t) (P t) / (troe_B (F t) (P t) * troe_B (F t) (P t)))) (fun _ => ln 10));
        [exact DZ|apply derivable_pt_lim_const].
    - apply derivable_pt_lim_exp. }
  assert (Dfr : derivable_pt_lim (fun t => P t / (1 + P t)) T ((q * lP * (1 + q) - (0 + q * lP) * q) / Rsqr (1 + q))).
  { apply (derivable_pt_lim_div P (fun t => 1 + P t)); [exact DP| |change (1 + q <> 0); lra].
    apply (derivable_pt_lim_plus (fun _ => 1) P); [apply derivable_pt_lim_const|exact DP]. }
  set (dfr := (q * lP * (1 + q) - (0 + q * lP) * q) / Rsqr (1 + q)) in Dfr.
  assert (Pb : 0 < broad f q) by apply exp_pos.
  assert (Pfr : 0 < q / (1 + q)) by (apply Rdiv_lt_0_compat; lra).
  replace (troe_slope f q dF lP) with (/ (broad f q * (q / (1 + q))) * (broad f q * (dZ * l) * (q / (1 + q)) + broad f q * dfr)).
  - apply (derivable_pt_lim_comp (fun t => broad (F t) (P t) * (P t / (1 + P t))) ln).
    + apply (derivable_pt_lim_mult (fun t => broad (F t) (P t)) (fun t => P t / (1 + P t))); assumption.
    + apply derivable_pt_lim_ln. apply Rmult_lt_0_compat; assumption.
  - replace (/ (broad f q * (q / (1 + q))) * (broad f q * (dZ * l) * (q / (1 + q)) + broad f q * dfr))
      with (dZ * l + dfr * ((1 + q) / q)) by (field; repeat split; lra).
    replace (dfr * ((1 + q) / q)) with (lP / (1 + q)) by (unfold dfr, Rsqr; field; lra).
    unfold troe_slope, troe_L. fold a b l D. rewrite (Rplus_comm (dZ * l)). unfold Rminus at 1. rewrite Rplus_assoc. f_equal.
    assert (HbD : b * b + a * a <> 0) by nra.
    assert (ED : D = (b * b + a * a) / (b * b)) by (unfold D; field; exact HB).
    unfold dZ, dD, dA, dB, Rsqr. set (lf := log10c f).
    set (k1 := 0.67). set (k2 := 1.1762). set (k3 := 0.14). clearbody lf a b l k1 k2 k3. rewrite ED.
    field. repeat split; try lra; try exact HB; exact HbD.
Qed.

(** ** Parameters *)

(** Parameters of the ratio of the rate constants at low and at high pressure, up to rounding; the factor 1000 turns
    cm^3/mol into m^3/kmol. *)
Definition near_ratio (low high : arrhenius) (c e : R) : Prop :=
  0 < c /\ Rabs (ln c - (ln (Q2R (a_A low)) - ln (1000 * Q2R (a_A high)))) <= 2 * Q2R tolA /\
  Rabs (e - (act_T low - act_T high)) <= Q2R tolE * (Rabs (act_T low) + Rabs (act_T high)).

(** Exponent of the temperature in that ratio. *)
Definition exponent_T (low high : arrhenius) : R := Q2R (a_b low) - Q2R (a_b high).

(** Reduced pressure, given the concentration of the colliders. *)
Definition reduced (c b e thd t : R) : R := c * exp (b * ln t) * exp (- e / t) * thd.

(** Parameters of a centre. *)
Record centre_par := mkCentre { ce_1 : R; ce_T3 : R; ce_2 : R; ce_T1 : R; ce_T2 : option R }.

(** They are those of chem.cti up to rounding. *)
Definition near_centre (t : troe) (z : centre_par) : Prop :=
  Rabs (ce_1 z - (1 - Q2R (t_A t))) <= Q2R tolE /\
  Rabs (ce_2 z - Q2R (t_A t)) <= Q2R tolE * Rabs (Q2R (t_A t)) /\
  Rabs (ce_T3 z - Q2R (t_T3 t)) <= Q2R tolE * Rabs (Q2R (t_T3 t)) /\
  Rabs (ce_T1 z - Q2R (t_T1 t)) <= Q2R tolE * Rabs (Q2R (t_T1 t)) /\
  match ce_T2 z, t_T2 t with
  | Some x, Some q => Rabs (x - Q2R q) <= Q2R tolE * Rabs (Q2R q)
  | None, None => True
  | _, _ => False
  end.

(** The centre at temperature [t]. *)
Definition centre_at (z : centre_par) (t : R) : R :=
  ce_1 z * exp (- t / ce_T3 z) + ce_2 z * exp (- t / ce_T1 z) + match ce_T2 z with Some x => exp (- x / t) | None => 0 end.

(** Its derivative. *)
Definition centre_slope (z : centre_par) (t : R) : R :=
  ce_1 z * (exp (- t / ce_T3 z) * (- / ce_T3 z)) + ce_2 z * (exp (- t / ce_T1 z) * (- / ce_T1 z)) +
  match ce_T2 z with Some x => exp (- x / t) * (x / (t * t)) | None => 0 end.

(** The terms of the derivative. *)
Definition centre_size (z : centre_par) (t : R) : R :=
  Rabs (ce_1 z / ce_T3 z) * exp (- t / ce_T3 z) + Rabs (ce_2 z / ce_T1 z) * exp (- t / ce_T1 z) +
  match ce_T2 z with Some x => Rabs x / (t * t) * exp (- x / t) | None => 0 end.

(** The terms of [troe_slope]. *)
Definition troe_size (fc pr dF lP : R) : R :=
  lP / (1 + pr) +
  (1 / (fc * (1 + troe_A fc pr * troe_A fc pr / (troe_B fc pr * troe_B fc pr))) +
   Rabs (troe_L fc pr) * ((1.1762 * Rabs (troe_A fc pr) + 0.67 * Rabs (troe_B fc pr)) / ln 10) / fc) * dF +
  Rabs (troe_L fc pr) * ((Rabs (troe_B fc pr) + 0.14 * Rabs (troe_A fc pr)) / ln 10) * lP.

Lemma decay_derive x t : derivable_pt_lim (fun t => exp (- t / x)) t (exp (- t / x) * (- / x)).
Proof.
  apply (derivable_pt_lim_comp (fun t => - t / x) exp); [|apply derivable_pt_lim_exp].
  replace (- / x) with (- / x * 1) by ring.
  apply (derivable_pt_lim_locally_ext (fun t => - / x * t) _ t (t - 1) (t + 1)); [lra| |].
  - intros s _. unfold Rdiv. ring.
  - apply (derivable_pt_lim_scal (fun t => t)), derivable_pt_lim_id.
Qed.

Lemma inverse_derive x t : 0 < t -> derivable_pt_lim (fun t => exp (- x / t)) t (exp (- x / t) * (x / (t * t))).
Proof.
  intros Ht. apply (derivable_pt_lim_comp (fun t => - x / t) exp); [|apply derivable_pt_lim_exp].
  replace (x / (t * t)) with ((0 * t - 1 * - x) / Rsqr t) by (unfold Rsqr; field; lra).
  apply (derivable_pt_lim_div (fun _ => - x) (fun t => t)); [apply derivable_pt_lim_const|apply derivable_pt_lim_id|lra].
Qed.

Lemma centre_derive z t : 0 < t -> derivable_pt_lim (centre_at z) t (centre_slope z t).
Proof.
  intros Ht. unfold centre_at, centre_slope.
  apply (derivable_pt_lim_plus (fun t => ce_1 z * exp (- t / ce_T3 z) + ce_2 z * exp (- t / ce_T1 z))
    (fun t => match ce_T2 z with Some x => exp (- x / t) | None => 0 end)).
  - apply (derivable_pt_lim_plus (fun t => ce_1 z * exp (- t / ce_T3 z)) (fun t => ce_2 z * exp (- t / ce_T1 z))).
    + apply (derivable_pt_lim_scal (fun t => exp (- t / ce_T3 z))), decay_derive.
    + apply (derivable_pt_lim_scal (fun t => exp (- t / ce_T1 z))), decay_derive.
  - destruct (ce_T2 z) as [x|]; [apply inverse_derive, Ht|apply derivable_pt_lim_const].
Qed.

Lemma centre_slope_size z t : 0 < t -> Rabs (centre_slope z t) <= centre_size z t.
Proof.
  intros Ht. unfold centre_slope, centre_size.
  eapply Rle_trans; [apply Rabs_triang|]. apply Rplus_le_compat.
  - eapply Rle_trans; [apply Rabs_triang|]. apply Rplus_le_compat; right; unfold Rdiv; rewrite !Rabs_mult, Rabs_Ropp, (Rabs_pos_eq (exp _)) by (left; apply exp_pos); ring.
  - destruct (ce_T2 z) as [x|]; [|rewrite Rabs_R0; lra]. right. assert (0 < / (t * t)) by (apply Rinv_0_lt_compat; nra).
    unfold Rdiv. rewrite !Rabs_mult, (Rabs_pos_eq (exp _)) by (left; apply exp_pos). rewrite (Rabs_pos_eq (/ (t * t))) by lra. ring.
Qed.

(** ** Values of the expressions *)

Lemma qclose_val eps x y : qclose eps x y = true -> Rabs (Q2R x - Q2R y) <= Q2R eps * Rabs (Q2R y).
Proof.
  unfold qclose. intros H. apply Qle_bool_iff, Qle_Rle in H. rewrite Q2R_mult, !Q2R_abs, Q2R_qplus, Q2R_opp in H. exact H.
Qed.

Lemma half_between q : (0 <= q)%Q -> (q <= Qmake 1 2)%Q -> 0 <= Q2R q <= 1 / 2.
Proof.
  intros A B. apply Qle_Rle in A, B. rewrite Q2R_0 in A. split; [exact A|]. eapply Rle_trans; [exact B|].
  unfold Q2R. cbn [Qnum Qden]. lra.
Qed.

Lemma ratio_ok_val low high l : ratio_ok low high l = true ->
  exists c e, near_ratio low high c e /\
    (forall t, exp (lau_val l t) = c * exp (exponent_T low high * ln t) * exp (- e / t)) /\
    (forall t, dlau l t = exponent_T low high + e / t) /\
    Q2R (l_log l) = exponent_T low high /\ Q2R (l_inv l) = - e.
Proof.
  unfold ratio_ok. intros H. apply andb_true_iff in H as [H H3]. apply andb_true_iff in H as [H1 H2].
  apply Qeq_bool_eq, Qeq_eqR in H1. rewrite Q2R_minus in H1. fold (exponent_T low high) in H1.
  apply Qle_bool_iff, Qle_Rle in H2. rewrite Q2R_mult, Q2R_plus, !Q2R_abs, !Q2R_qplus, Q2R_opp, !Q2R_qact in H2.
  destruct (constant (mkLau 0 0 (l_poly l))) as [q|] eqn:C; [|discriminate].
  apply exp_close_sound in H3; [|apply half_between; vm_compute; discriminate].
  exists (exp (Q2R q)), (- Q2R (l_inv l)). split; [|split; [|split; [|split]]].
  - split; [apply exp_pos|]. split.
    + rewrite ln_exp. rewrite Q2R_mult in H3. replace (Q2R 1000) with 1000 in H3 by (unfold Q2R; cbn; lra).
      rewrite (Rmult_comm 1000). match goal with |- Rabs ?x <= _ => match type of H3 with Rabs ?z <= _ => replace x with z by ring end end. exact H3.
    + match goal with |- Rabs ?x <= _ => match type of H2 with Rabs ?z <= _ => replace x with (- z) by ring end end. rewrite Rabs_Ropp. exact H2.
  - intros t. rewrite Ropp_involutive, <- !exp_plus. f_equal.
    pose proof (constant_val _ q t C) as V. unfold lau_val in V |- *. cbn [l_log l_inv l_poly] in V. rewrite <- H1.
    rewrite <- V, Q2R_0. unfold Rdiv. ring.
  - intros t. unfold dlau. rewrite H1. unfold constant in C. cbn [l_log l_inv l_poly only_poly Qnum Z.eqb andb] in C.
    change (only_poly (mkLau 0 0 (l_poly l))) with true in C.
    destruct (l_poly l) as [|z [|w r]]; [| |discriminate]; cbn [map wsum INR]; unfold Rdiv; ring.
  - exact H1.
  - ring.
Qed.

Section Values.
  Variable m : mechanism.
  Variable T : R.
  Variable a : var -> N -> R.
  Variable C : list R.
  Hypothesis HT : 0 < T.
  Hypothesis aT : a v_T 0%N = T.
  Hypothesis LC : length C = s_NSP (library m).
  Hypothesis aC : forall k, a v_conc (N.of_nat k) = nth k C 0.
  Hypothesis aM : a v_m 0%N = Rsumn (length C) (fun k => nth k C 0).
  Notation rv := (rval exact_libm a).

  Lemma third_valJ r e : peqb (norm e) (third_polyJ (s_NSP (library m)) r) = true -> rv e = third_body r C.
  Proof.
    intros H. apply (peqb_val exact_libm a) in H. rewrite norm_val in H. rewrite H.
    unfold third_polyJ. rewrite pval_cons. cbn [fst snd]. rewrite Q2R_1. unfold mval. cbn [map Rprod].
    change (rv (Ref v_m 0)) with (a v_m 0%N). rewrite aM. unfold third_body, Rsumn.
    rewrite (Rsum_ext (fun k => Q2R (efficiency r k) * nth k C 0)
      (fun k => nth k C 0 + (Q2R (efficiency r k) - 1) * nth k C 0)) by (intros; ring).
    rewrite (Rsum_plus (fun k => nth k C 0) (fun k => (Q2R (efficiency r k) - 1) * nth k C 0)).
    replace (1 * (Rsum (map (fun k => nth k C 0) (seq 0 (length C))) * 1))
      with (Rsum (map (fun k => nth k C 0) (seq 0 (length C)))) by ring. f_equal. rewrite LC.
    generalize (seq 0 (s_NSP (library m))). intros l.
    induction l as [|k l IH]; [reflexivity|]. cbn [flat_map map Rsum]. rewrite pval_app, IH. f_equal.
    destruct (Qeq_bool (efficiency r k) 1) eqn:Q.
    - apply Qeq_bool_eq, Qeq_eqR in Q. rewrite Q, Q2R_1. unfold pval. cbn. ring.
    - unfold pval, mval. cbn [map fst snd Rsum Rprod]. rewrite Q2R_minus, Q2R_1.
      change (rv (Ref v_conc (N.of_nat k))) with (a v_conc (N.of_nat k)). rewrite aC. ring.
  Qed.

  (** Bound of the terms of the derivative of the reduced pressure. *)
  Definition lp_size (low high : arrhenius) (e : R) : R := Rabs (exponent_T low high) + Rabs e / T + 1.

  Lemma lp_val low high l e0 x : Q2R (l_log l) = exponent_T low high -> Q2R (l_inv l) = - e0 -> lp_ok l x = true ->
    Rabs (rv x - (exponent_T low high + e0 / T - 1)) <= Q2R tolE * lp_size low high e0.
  Proof.
    unfold lp_ok. intros E1 E2 H. apply andb_true_iff in H as [H H3]. apply andb_true_iff in H as [H1 H2].
    set (q1 := lit_of (opl (opl x))) in *. set (q2 := lit_of (opl (opr (opl x)))) in *. clearbody q1 q2.
    apply expr_eqb_eq in H1. subst x. apply qclose_val in H2, H3. rewrite E1 in H2. rewrite Q2R_opp, E2, Ropp_involutive in H3.
    change (rv (e_lp q1 q2)) with (Q2R q1 + Q2R q2 / a v_T 0%N - Q2R 1.0). rewrite aT.
    replace (Q2R 1.0) with 1 by (unfold Q2R; cbn; lra).
    pose proof tolE_val as [TE _]. assert (IT : 0 < / T) by apply Rinv_0_lt_compat, HT. unfold lp_size.
    match goal with |- Rabs ?z <= _ => replace z with ((Q2R q1 - exponent_T low high) + (Q2R q2 - e0) * / T) by (unfold Rdiv; ring) end.
    eapply Rle_trans; [apply Rabs_triang|]. rewrite Rabs_mult, (Rabs_pos_eq (/ T)) by lra.
    apply (Rmult_le_compat_r (/ T)) in H3; [|lra]. unfold Rdiv. lra.
  Qed.

  Lemma pr_okJ_val i pr lp : pr_okJ m i pr lp = true ->
    exists low l, k_low (kin m i) = Some low /\ ratio_ok low (k_high (kin m i)) l = true /\ lp_ok l lp = true /\
      rv pr = third_body (rxn (chem m) i) C * exp (lau_val l T) /\
      exists x y, pr = Mul x (Exp y) /\ lin anyT y = Some l.
  Proof.
    unfold pr_okJ. destruct pr as [| | | | |t u| | | | | | |]; try discriminate. destruct u; try discriminate.
    destruct (k_low (kin m i)) as [low|]; [|discriminate]. intros H. apply andb_true_iff in H as [H1 H2].
    destruct (lin anyT u) as [l|] eqn:L; [|discriminate]. apply andb_true_iff in H2 as [H2 H3].
    exists low, l. split; [reflexivity|]. split; [exact H2|]. split; [exact H3|]. split; [|exists t, u; split; [reflexivity|exact L]].
    change (rv (Mul t (Exp u))) with (rv t * exp (rv u)). rewrite (third_valJ _ _ H1).
    rewrite (lin_val a anyT (in_anyT _ (eq_ind_r (fun x => 0 < x) HT aT)) u l L), aT. reflexivity.
  Qed.
End Values.

Lemma tolE_num : Q2R tolE = / 1125899906842624.
Proof. unfold tolE, Q2R. cbn [Qnum Qden]. lra. Qed.

Lemma inv_ln10_val : Rabs (Q2R inv_ln10 * ln 10 - 1) <= / 10000000000000000.
Proof.
  assert (H : exp_close 1e-17 1 2.302585092994045684 10 = true) by (vm_compute; reflexivity).
  apply exp_close_sound in H; [|apply half_between; vm_compute; discriminate].
  rewrite Q2R_1, ln_1 in H. replace (Q2R 10) with 10 in H by (unfold Q2R; cbn; lra).
  assert (E1 : Q2R 2.302585092994045684 = 2302585092994045684 / 1000000000000000000) by (unfold Q2R; cbn [Qnum Qden]; lra).
  assert (E2 : Q2R 1e-17 = / 100000000000000000) by (replace (Q2R 1e-17) with (Q2R (Qmake 1 100000000000000000)) by reflexivity; unfold Q2R; cbn [Qnum Qden]; lra).
  assert (E3 : Q2R inv_ln10 = 43429448190325182765 / 100000000000000000000) by (unfold inv_ln10, Q2R; cbn [Qnum Qden]; lra).
  rewrite E1, E2 in H. rewrite E3.
  revert H. unfold Rabs. destruct (Rcase_abs _), (Rcase_abs _); intros H; lra.
Qed.

Lemma const_val x (k : R) c : Q2R x = k * Q2R inv_ln10 -> qclose tolH c x = true ->
  Rabs (Q2R c - k / ln 10) <= Q2R tolE * Rabs (k / ln 10).
Proof.
  intros E H. apply qclose_val in H. rewrite E in H. pose proof inv_ln10_val as V. pose proof ln10_pos as L.
  assert (EH : Q2R tolH = / 2251799813685248) by (unfold tolH, Q2R; cbn [Qnum Qden]; lra). rewrite EH in H. rewrite tolE_num.
  set (u := k / ln 10). set (v := k * Q2R inv_ln10) in *.
  assert (B : Rabs (v - u) <= / 10000000000000000 * Rabs u).
  { replace (v - u) with (u * (Q2R inv_ln10 * ln 10 - 1)) by (unfold u, v; field; lra).
    rewrite Rabs_mult, Rmult_comm. apply Rmult_le_compat_r; [apply Rabs_pos|exact V]. }
  pose proof (Rabs_pos u) as Pu.
  assert (Bv : Rabs v <= (1 + / 10000000000000000) * Rabs u).
  { replace v with ((v - u) + u) by ring. eapply Rle_trans; [apply Rabs_triang|]. lra. }
  replace (Q2R c - u) with ((Q2R c - v) + (v - u)) by ring.
  eapply Rle_trans; [apply Rabs_triang|]. lra.
Qed.

(** Errors in the numbers of which [troe_slope] consists. *)
Lemma slope_error tau (F P D L A B T l0 ls lp lp' dF ds dF' c1 c2 c3 c4 k1 k2 k3 k4 : R) :
  0 <= tau <= 1 / 2 -> 0 < T -> 0 < 1 + P -> 0 < F -> 0 < D ->
  Rabs l0 <= ls -> Rabs (lp - l0) <= tau * ls -> Rabs (lp' - l0) <= tau * ls ->
  Rabs dF <= ds -> Rabs (dF' - dF) <= tau * ds ->
  Rabs (c1 - k1) <= tau * Rabs k1 -> Rabs (c2 - k2) <= tau * Rabs k2 -> Rabs (c3 - k3) <= tau * Rabs k3 -> Rabs (c4 - k4) <= tau * Rabs k4 ->
  Rabs ((lp / (T * (1 + P)) + (1 / (F * D) - L * (c1 * B + c2 * A) / F) * dF' - L * (c3 * B + c4 * A) * lp' / T) -
        (l0 / T / (1 + P) + (1 / (F * D) - L * (k1 * B + k2 * A) / F) * dF - L * (k3 * B + k4 * A) * (l0 / T))) <=
  3 * tau * (ls / T / (1 + P) + (1 / (F * D) + Rabs L * (Rabs k1 * Rabs B + Rabs k2 * Rabs A) / F) * ds +
             Rabs L * (Rabs k3 * Rabs B + Rabs k4 * Rabs A) * (ls / T)).
Proof.
  intros [Ht0 Ht1] HT HP HF HD B0 B1 B1' B2 B3 C1 C2 C3 C4.
  assert (IT : 0 < / T) by apply Rinv_0_lt_compat, HT. assert (IP : 0 < / (1 + P)) by apply Rinv_0_lt_compat, HP.
  assert (IF : 0 < / F) by apply Rinv_0_lt_compat, HF. assert (ID : 0 < / D) by apply Rinv_0_lt_compat, HD.
  assert (lin2 : forall c d k h, Rabs (c - k) <= tau * Rabs k -> Rabs (d - h) <= tau * Rabs h ->
    Rabs ((c * B + d * A) - (k * B + h * A)) <= tau * (Rabs k * Rabs B + Rabs h * Rabs A) /\
    Rabs (k * B + h * A) <= Rabs k * Rabs B + Rabs h * Rabs A).
  { intros c d k h X Y. split.
    - replace ((c * B + d * A) - (k * B + h * A)) with ((c - k) * B + (d - h) * A) by ring.
      eapply Rle_trans; [apply Rabs_triang|]. rewrite !Rabs_mult.
      apply (Rmult_le_compat_r (Rabs B)) in X; [|apply Rabs_pos]. apply (Rmult_le_compat_r (Rabs A)) in Y; [|apply Rabs_pos]. lra.
    - eapply Rle_trans; [apply Rabs_triang|]. rewrite !Rabs_mult. lra. }
  assert (prod : forall u' u U x' x xs, Rabs (u' - u) <= tau * U -> Rabs u <= U -> Rabs (x' - x) <= tau * xs -> Rabs x <= xs ->
    Rabs (u' * x' - u * x) <= 3 * tau * (U * xs)).
  { intros u' u U x' x xs X1 X2 Y1 Y2. assert (PU : 0 <= U) by (pose proof (Rabs_pos u); lra).
    assert (Px : 0 <= xs) by (pose proof (Rabs_pos x); lra).
    replace (u' * x' - u * x) with ((u' - u) * (x' - x) + (u' - u) * x + u * (x' - x)) by ring.
    eapply Rle_trans; [apply Rabs_triang|]. eapply Rle_trans; [apply Rplus_le_compat_r, Rabs_triang|]. rewrite !Rabs_mult.
    pose proof (Rmult_le_compat _ _ _ _ (Rabs_pos _) (Rabs_pos _) X1 Y1) as Z1.
    pose proof (Rmult_le_compat _ _ _ _ (Rabs_pos _) (Rabs_pos _) X1 Y2) as Z2.
    pose proof (Rmult_le_compat _ _ _ _ (Rabs_pos _) (Rabs_pos _) X2 Y1) as Z3.
    assert (0 <= U * xs) by (apply Rmult_le_pos; assumption).
    assert (tau * U * (tau * xs) <= 1 * (tau * (U * xs))).
    { replace (tau * U * (tau * xs)) with (tau * (tau * (U * xs))) by ring. apply Rmult_le_compat_r; [apply Rmult_le_pos; lra|lra]. }
    lra. }
  destruct (lin2 _ _ _ _ C1 C2) as [U1 U2]. destruct (lin2 _ _ _ _ C3 C4) as [V1 V2].
  pose proof (prod _ _ _ _ _ _ U1 U2 B3 B2) as PU. pose proof (prod _ _ _ _ _ _ V1 V2 B1' B0) as PV.
  set (u' := c1 * B + c2 * A) in *. set (u := k1 * B + k2 * A) in *. set (U := Rabs k1 * Rabs B + Rabs k2 * Rabs A) in *.
  set (v' := c3 * B + c4 * A) in *. set (v := k3 * B + k4 * A) in *. set (V := Rabs k3 * Rabs B + Rabs k4 * Rabs A) in *.
  match goal with |- Rabs ?z <= _ => replace z with
    ((lp - l0) * (/ T * / (1 + P)) + (dF' - dF) * (/ F * / D) - (u' * dF' - u * dF) * (L * / F) - (v' * lp' - v * l0) * (L * / T)) by (field; repeat split; lra) end.
  assert (PL : 0 <= Rabs L) by apply Rabs_pos.
  assert (E1 : Rabs ((lp - l0) * (/ T * / (1 + P))) <= tau * ls * (/ T * / (1 + P))).
  { rewrite Rabs_mult, (Rabs_pos_eq (/ T * _)) by (apply Rmult_le_pos; lra). apply Rmult_le_compat_r; [apply Rmult_le_pos; lra|exact B1]. }
  assert (E2 : Rabs ((dF' - dF) * (/ F * / D)) <= tau * ds * (/ F * / D)).
  { rewrite Rabs_mult, (Rabs_pos_eq (/ F * _)) by (apply Rmult_le_pos; lra). apply Rmult_le_compat_r; [apply Rmult_le_pos; lra|exact B3]. }
  assert (E3 : Rabs ((u' * dF' - u * dF) * (L * / F)) <= 3 * tau * (U * ds) * (Rabs L * / F)).
  { rewrite !Rabs_mult, (Rabs_pos_eq (/ F)) by lra. apply Rmult_le_compat_r; [apply Rmult_le_pos; lra|exact PU]. }
  assert (E4 : Rabs ((v' * lp' - v * l0) * (L * / T)) <= 3 * tau * (V * ls) * (Rabs L * / T)).
  { rewrite !Rabs_mult, (Rabs_pos_eq (/ T)) by lra. apply Rmult_le_compat_r; [apply Rmult_le_pos; lra|exact PV]. }
  assert (P1 : 0 <= tau * ls * (/ T * / (1 + P))) by (pose proof (Rabs_pos ((lp - l0) * (/ T * / (1 + P)))); lra).
  assert (P2 : 0 <= tau * ds * (/ F * / D)) by (pose proof (Rabs_pos ((dF' - dF) * (/ F * / D))); lra).
  match goal with |- Rabs (?w - ?x - ?y) <= _ => pose proof (Rabs_triang (w - x) (- y)) as T1; pose proof (Rabs_triang w (- x)) as T2 end.
  rewrite Rabs_Ropp in T1, T2. pose proof (Rabs_triang ((lp - l0) * (/ T * / (1 + P))) ((dF' - dF) * (/ F * / D))) as T3.
  unfold Rminus at 1. unfold Rminus at 2.
  replace (3 * tau * (ls / T / (1 + P) + (1 / (F * D) + Rabs L * U / F) * ds + Rabs L * V * (ls / T))) with
    (3 * (tau * ls * (/ T * / (1 + P))) + 3 * (tau * ds * (/ F * / D)) + 3 * tau * (U * ds) * (Rabs L * / F) + 3 * tau * (V * ls) * (Rabs L * / T))
    by (field; repeat split; lra).
  unfold Rminus in *. lra.
Qed.

Lemma decimals : Q2R 1.0 = 1 /\ Q2R 2.0 = 2.
Proof. split; unfold Q2R; cbn; lra. Qed.

Section Troe.
  Variable T : R.
  Variable a : var -> N -> R.
  Hypothesis HT : 0 < T.
  Hypothesis aT : a v_T 0%N = T.
  Notation rv := (rval exact_libm a).

  Lemma log_valJ e : rv (e_log e) = log10c (rv e).
  Proof.
    change (rv (e_log e)) with (ln (c_fmax RA (rv e) (Q2R tiny)) / ln 10). rewrite c_fmax_R. reflexivity.
  Qed.

  Lemma A_val pr fc : rv (e_A pr fc) = troe_A (rv fc) (rv pr).
  Proof.
    change (rv (e_A pr fc)) with (rv (e_log pr) - Q2R 0.67 * rv (e_log fc) - Q2R 0.4).
    rewrite !log_valJ. reflexivity.
  Qed.

  Lemma B_val pr fc : rv (e_B pr fc) = troe_B (rv fc) (rv pr).
  Proof.
    change (rv (e_B pr fc)) with (Q2R 0.806 - Q2R 1.1762 * rv (e_log fc) - Q2R 0.14 * rv (e_log pr)).
    rewrite !log_valJ. reflexivity.
  Qed.

  Lemma D_val pr fc : rv (e_D pr fc) =
    1 + troe_A (rv fc) (rv pr) * troe_A (rv fc) (rv pr) / (troe_B (rv fc) (rv pr) * troe_B (rv fc) (rv pr)).
  Proof.
    change (rv (e_D pr fc)) with (Q2R 1.0 + rv (e_A pr fc) * rv (e_A pr fc) / (rv (e_B pr fc) * rv (e_B pr fc))).
    destruct decimals as (-> & _). rewrite A_val, B_val. reflexivity.
  Qed.

  Lemma L_val pr fc : rv (e_L pr fc) = troe_L (rv fc) (rv pr).
  Proof.
    change (rv (e_L pr fc)) with (Q2R 2.0 * ln (c_fmax RA (rv fc) (Q2R tiny)) * rv (e_A pr fc) /
      (rv (e_B pr fc) * rv (e_B pr fc) * rv (e_B pr fc) * rv (e_D pr fc) * rv (e_D pr fc))).
    destruct decimals as (_ & ->). rewrite A_val, B_val, D_val, c_fmax_R. unfold troe_L. f_equal. f_equal. f_equal.
    unfold log10c. pose proof ln10_pos. field. lra.
  Qed.

  Lemma X_val c1 c2 c3 c4 pr lp lp' fc dfc : rv (e_X c1 c2 c3 c4 pr lp lp' fc dfc) =
    rv lp / (T * (1 + rv pr)) +
    (1 / (rv fc * rv (e_D pr fc)) - troe_L (rv fc) (rv pr) * (Q2R c1 * troe_B (rv fc) (rv pr) + Q2R c2 * troe_A (rv fc) (rv pr)) / rv fc) * rv dfc -
    troe_L (rv fc) (rv pr) * (Q2R c3 * troe_B (rv fc) (rv pr) + Q2R c4 * troe_A (rv fc) (rv pr)) * rv lp' / T.
  Proof.
    rewrite <- L_val, <- A_val, <- B_val.
    change (rv (e_X c1 c2 c3 c4 pr lp lp' fc dfc)) with
      (rv lp / (a v_T 0%N * (Q2R 1.0 + rv pr)) +
       (Q2R 1.0 / (rv fc * rv (e_D pr fc)) - rv (e_L pr fc) * (Q2R c1 * rv (e_B pr fc) + Q2R c2 * rv (e_A pr fc)) / rv fc) * rv dfc -
       rv (e_L pr fc) * (Q2R c3 * rv (e_B pr fc) + Q2R c4 * rv (e_A pr fc)) * rv lp' / a v_T 0%N).
    destruct decimals as (-> & _). rewrite aT. reflexivity.
  Qed.

  Lemma neg_div x y : y <> 0 -> - x / - y = x / y.
  Proof. intros H. field. exact H. Qed.

  Lemma centre_val t fc dfc : centre_okJ t fc dfc = true ->
    exists z, near_centre t z /\ rv fc = centre_at z T /\ Rabs (rv dfc - centre_slope z T) <= Q2R tolE * centre_size z T.
  Proof.
    unfold centre_okJ. destruct (centre_lits fc) as [[[[a1 n3] a2] n1] n2]. cbv zeta. intros H.
    set (d1 := lit_of (opl (opl (match n2 with Some _ => opl dfc | None => dfc end)))) in H.
    set (d2 := lit_of (opl (opr (match n2 with Some _ => opl dfc | None => dfc end)))) in H.
    set (d3 := lit_of (opl (opl (opr dfc)))) in H. clearbody d1 d2 d3.
    apply andb_true_iff in H as [H H11]. apply andb_true_iff in H as [H H10]. apply andb_true_iff in H as [H H9].
    apply andb_true_iff in H as [H H8]. apply andb_true_iff in H as [H H7]. apply andb_true_iff in H as [H H6].
    apply andb_true_iff in H as [H H5]. apply andb_true_iff in H as [H H4]. apply andb_true_iff in H as [H H3].
    apply andb_true_iff in H as [H1 H2].
    apply expr_eqb_eq in H1. apply expr_eqb_eq in H2. subst fc dfc.
    apply Qle_bool_iff, Qle_Rle in H3. rewrite Q2R_abs, Q2R_qplus, Q2R_minus, Q2R_1 in H3.
    apply qclose_val in H4, H5, H6, H9, H10. rewrite Q2R_opp in H5, H6, H10. rewrite !Q2R_mult in H9, H10.
    assert (N3 : Q2R n3 <> 0).
    { intros Z. unfold Q2R in Z. apply Rmult_integral in Z. destruct Z as [Z|Z].
      - apply eq_IZR_R0 in Z. rewrite Z in H7. discriminate.
      - pose proof (Rinv_0_lt_compat _ (IZR_lt _ _ (Pos2Z.is_pos (Qden n3)))). lra. }
    assert (N1 : Q2R n1 <> 0).
    { intros Z. unfold Q2R in Z. apply Rmult_integral in Z. destruct Z as [Z|Z].
      - apply eq_IZR_R0 in Z. rewrite Z in H8. discriminate.
      - pose proof (Rinv_0_lt_compat _ (IZR_lt _ _ (Pos2Z.is_pos (Qden n1)))). lra. }
    pose proof tolE_val as [TE _].
    exists (mkCentre (Q2R a1) (- Q2R n3) (Q2R a2) (- Q2R n1) (match n2 with Some n => Some (- Q2R n) | None => None end)).
    assert (CL : forall x y w, Rabs (x - - y) <= w * Rabs (- y) -> Rabs (- x - y) <= w * Rabs y).
    { intros x y w B. rewrite Rabs_Ropp in B. replace (- x - y) with (- (x - - y)) by ring. rewrite Rabs_Ropp. exact B. }
    assert (E3 : exp (- T / - Q2R n3) = exp (T / Q2R n3)) by (rewrite neg_div by exact N3; reflexivity).
    assert (E1 : exp (- T / - Q2R n1) = exp (T / Q2R n1)) by (rewrite neg_div by exact N1; reflexivity).
    set (x3 := exp (T / Q2R n3)) in *. set (x1 := exp (T / Q2R n1)) in *.
    assert (Px3 : 0 < x3) by apply exp_pos. assert (Px1 : 0 < x1) by apply exp_pos.
    assert (term : forall d n c x, n <> 0 -> 0 < x -> Rabs (d * n - c) <= Q2R tolE * Rabs c ->
      Rabs (d * x - c * (x * - / - n)) <= Q2R tolE * (Rabs (c / - n) * x)).
    { intros d n c x Hn Hx B. replace (d * x - c * (x * - / - n)) with ((d * n - c) * (x / n)) by (field; exact Hn).
      rewrite Rabs_mult. replace (Rabs (c / - n) * x) with (Rabs c * Rabs (x / n)).
      - rewrite <- Rmult_assoc. apply Rmult_le_compat_r; [apply Rabs_pos|exact B].
      - transitivity (Rabs (c / - n * x)); [|rewrite Rabs_mult, (Rabs_pos_eq x) by lra; reflexivity].
        rewrite <- Rabs_mult, <- (Rabs_Ropp (c / - n * x)). f_equal. field. exact Hn. }
    assert (two : Rabs ((Q2R d1 * x3 - Q2R d2 * x1) - (Q2R a1 * (x3 * - / - Q2R n3) + Q2R a2 * (x1 * - / - Q2R n1))) <=
      Q2R tolE * (Rabs (Q2R a1 / - Q2R n3) * x3 + Rabs (Q2R a2 / - Q2R n1) * x1)).
    { replace ((Q2R d1 * x3 - Q2R d2 * x1) - (Q2R a1 * (x3 * - / - Q2R n3) + Q2R a2 * (x1 * - / - Q2R n1))) with
        ((Q2R d1 * x3 - Q2R a1 * (x3 * - / - Q2R n3)) + (- Q2R d2 * x1 - Q2R a2 * (x1 * - / - Q2R n1))) by ring.
      eapply Rle_trans; [apply Rabs_triang|]. rewrite Rmult_plus_distr_l. apply Rplus_le_compat; apply term; try assumption.
      rewrite Rabs_Ropp in H10. replace (- Q2R d2 * Q2R n1 - Q2R a2) with (- (Q2R d2 * Q2R n1 - - Q2R a2)) by ring.
      rewrite Rabs_Ropp. exact H10. }
    destruct n2 as [n|], (t_T2 t) as [q|] eqn:ET; try discriminate.
    - apply andb_true_iff in H11 as [H11 H12]. apply qclose_val in H11, H12. rewrite Q2R_opp in H11, H12.
      split; [|split].
      + repeat split; cbn [ce_1 ce_2 ce_T1 ce_T2 ce_T3].
        * replace (Q2R a1 - (1 - Q2R (t_A t))) with (Q2R a1 + (Q2R (t_A t) - 1)) by ring. exact H3.
        * exact H4.
        * apply CL, H5.
        * apply CL, H6.
        * rewrite ET. apply CL, H11.
      + unfold centre_at. cbn [ce_1 ce_2 ce_T1 ce_T2 ce_T3]. rewrite E3, E1, Ropp_involutive. unfold x3, x1. rewrite <- aT. reflexivity.
      + unfold centre_slope, centre_size. cbn [ce_1 ce_2 ce_T1 ce_T2 ce_T3]. rewrite E3, E1, Ropp_involutive.
        set (x2 := exp (Q2R n / T)). assert (P2 : 0 < x2) by apply exp_pos.
        replace (rv (e_dfc d1 n3 d2 n1 d3 (Some n))) with (Q2R d1 * x3 - Q2R d2 * x1 + Q2R d3 / (T * T) * x2)
          by (unfold x1, x2, x3; rewrite <- aT; reflexivity).
        assert (I2 : 0 < / (T * T)) by (apply Rinv_0_lt_compat; nra).
        match goal with |- Rabs ?z <= _ => match type of two with Rabs ?w <= _ => replace z with (w + (Q2R d3 - - Q2R n) * (/ (T * T) * x2)) by (unfold Rdiv; ring) end end.
        eapply Rle_trans; [apply Rabs_triang|]. rewrite Rmult_plus_distr_l. apply Rplus_le_compat; [exact two|].
        rewrite Rabs_mult, (Rabs_pos_eq (/ (T * T) * x2)) by (apply Rmult_le_pos; lra).
        unfold Rdiv. rewrite <- !Rmult_assoc, (Rmult_assoc (_ * _)), (Rmult_assoc (Rabs _)). apply Rmult_le_compat_r; [apply Rmult_le_pos; lra|exact H12].
    - split; [|split].
      + repeat split; cbn [ce_1 ce_2 ce_T1 ce_T2 ce_T3].
        * replace (Q2R a1 - (1 - Q2R (t_A t))) with (Q2R a1 + (Q2R (t_A t) - 1)) by ring. exact H3.
        * exact H4.
        * apply CL, H5.
        * apply CL, H6.
        * rewrite ET. exact I.
      + unfold centre_at. cbn [ce_1 ce_2 ce_T1 ce_T2 ce_T3]. rewrite E3, E1, Rplus_0_r. unfold x3, x1. rewrite <- aT. reflexivity.
      + unfold centre_slope, centre_size. cbn [ce_1 ce_2 ce_T1 ce_T2 ce_T3]. rewrite E3, E1, !Rplus_0_r.
        replace (rv (e_dfc d1 n3 d2 n1 d3 None)) with (Q2R d1 * x3 - Q2R d2 * x1) by (unfold x1, x3; rewrite <- aT; reflexivity).
        exact two.
  Qed.
End Troe.

(** ** The contribution of a fall-off reaction *)

Section FallContribution.
  Variable m : mechanism.
  Variables T rho : R.
  Variable a : var -> N -> R.
  Variable i : nat.
  Variable C : list R.
  Hypothesis HT : 0 < T.
  Hypothesis Hrho : 0 < rho.
  Hypothesis aT : a v_T 0%N = T.
  Hypothesis ar : a v_rho 0%N = rho.
  Hypothesis LC : length C = s_NSP (library m).
  Hypothesis aC : forall k, a v_conc (N.of_nat k) = nth k C 0.
  Hypothesis aM : a v_m 0%N = Rsumn (length C) (fun k => nth k C 0).
  Notation r := (rxn (chem m) i).
  Notation rv := (rval exact_libm a).
  Notation high := (k_high (kin m i)).

  (** The derivative of the logarithm of the fall-off factor. *)
  Lemma x_val x : x_ok m i x = true ->
    exists low c e, k_low (kin m i) = Some low /\ near_ratio low high c e /\
      forall P, P = reduced c (exponent_T low high) e (third_body r C) T ->
      match k_troe (kin m i) with
      | None => 0 < P ->
          Rabs (rv x - (exponent_T low high + e / T - 1) / T / (1 + P)) <= 3 * Q2R tolE * (lp_size T low high e / T / (1 + P))
      | Some t => exists z, near_centre t z /\ (0 < P -> 0 < centre_at z T -> troe_B (centre_at z T) P <> 0 ->
          Rabs (rv x - troe_slope (centre_at z T) P (centre_slope z T) ((exponent_T low high + e / T - 1) / T)) <=
          3 * Q2R tolE * troe_size (centre_at z T) P (centre_size z T) (lp_size T low high e / T))
      end.
  Proof.
    unfold x_ok. pose proof tolE_val as TE.
    assert (LS : forall low e, Rabs (exponent_T low high + e / T - 1) <= lp_size T low high e).
    { intros low e. unfold lp_size. unfold Rminus. eapply Rle_trans; [apply Rabs_triang|]. rewrite Rabs_Ropp, Rabs_R1.
      apply Rplus_le_compat_r. eapply Rle_trans; [apply Rabs_triang|]. apply Rplus_le_compat_l. unfold Rdiv.
      rewrite Rabs_mult, (Rabs_pos_eq (/ T)); [lra|]. left. apply Rinv_0_lt_compat, HT. }
    destruct (k_troe (kin m i)) as [t|].
    - set (lp := opl (opl (opl x))). set (pr := opr (opr (opr (opl (opl x))))). set (dfc := opr (opr (opl x))).
      set (fc := opr (opr (opl (opr (opl x))))). set (lp' := opr (opl (opr x))).
      set (s := opr (opl (opr (opl (opr (opl x)))))). set (s' := opr (opl (opl (opr x)))).
      set (c1 := lit_of (opl (opl s))). set (c2 := lit_of (opl (opr s))).
      set (c3 := lit_of (opl (opl s'))). set (c4 := lit_of (opl (opr s'))). intros H.
      clearbody lp pr dfc fc lp' c1 c2 c3 c4. clear s s'.
      apply andb_true_iff in H as [H H8]. apply andb_true_iff in H as [H H7]. apply andb_true_iff in H as [H H6].
      apply andb_true_iff in H as [H H5]. apply andb_true_iff in H as [H H4]. apply andb_true_iff in H as [H H3].
      apply andb_true_iff in H as [H1 H2]. apply expr_eqb_eq in H1. subst x.
      destruct (pr_okJ_val m T a C HT aT LC aC aM i pr lp H2) as (low & l & K1 & K2 & K3 & K4 & x1 & y1 & X1 & X2).
      destruct (pr_okJ_val m T a C HT aT LC aC aM i pr lp' H3) as (low' & l' & K1' & _ & K3' & _ & x1' & y1' & X1' & X2').
      rewrite K1 in K1'. injection K1' as <-. rewrite X1 in X1'. injection X1' as <- <-. rewrite X2 in X2'. injection X2' as <-.
      destruct (ratio_ok_val _ _ _ K2) as (c & e & NR & V1 & _ & V3 & V4).
      exists low, c, e. split; [exact K1|]. split; [exact NR|]. intros P EP.
      assert (VP : rv pr = P) by (rewrite K4, V1, EP; unfold reduced; ring).
      destruct (centre_val T a HT aT t fc dfc H4) as (z & NZ & VF & VD).
      exists z. split; [exact NZ|]. intros PP PF PB.
      rewrite (X_val T a aT), D_val, VP, VF.
      pose proof (lp_val T a HT aT low high l e lp V3 V4 K3) as B1. pose proof (lp_val T a HT aT low high l e lp' V3 V4 K3') as B2.
      pose proof (const_val _ (- (0.67)) c1 ltac:(rewrite Q2R_mult; f_equal; rewrite <- Q2R_opp; reflexivity) H5) as C1.
      pose proof (const_val _ 1.1762 c2 ltac:(rewrite Q2R_mult; reflexivity) H6) as C2.
      pose proof (const_val inv_ln10 1 c3 (eq_sym (Rmult_1_l _)) H7) as C3.
      pose proof (const_val _ 0.14 c4 ltac:(rewrite Q2R_mult; reflexivity) H8) as C4.
      set (F := centre_at z T) in *. set (A := troe_A F P). set (B := troe_B F P) in *.
      assert (PD : 0 < 1 + A * A / (B * B)).
      { assert (0 <= A * A / (B * B)); [|lra]. apply Rmult_le_pos; [nra|]. left. apply Rinv_0_lt_compat. nra. }
      assert (I10 : 0 < / ln 10) by apply Rinv_0_lt_compat, ln10_pos.
      pose proof (slope_error (Q2R tolE) F P (1 + A * A / (B * B)) (troe_L F P) A B T _ _ _ _ _ _ _ _ _ _ _ _ _ _ _
        TE HT ltac:(lra) PF PD (LS low e) B1 B2 (centre_slope_size z T HT) VD C1 C2 C3 C4) as SE.
      match type of SE with Rabs (?u - ?v) <= 3 * _ * ?w =>
        replace (troe_slope F P (centre_slope z T) ((exponent_T low high + e / T - 1) / T)) with v;
        [replace (troe_size F P (centre_size z T) (lp_size T low high e / T)) with w; [exact SE|]|] end.
      + unfold troe_size. fold A B. unfold Rdiv. rewrite !Rabs_mult, (Rabs_pos_eq (/ ln 10)) by lra.
        rewrite Rabs_Ropp, Rabs_R1, (Rabs_pos_eq 0.67), (Rabs_pos_eq 1.1762), (Rabs_pos_eq 0.14) by lra. ring.
      + unfold troe_slope. fold A B. unfold Rdiv. ring.
    - set (lp := opl x). set (pr := opr (opr (opr x))). intros H. clearbody lp pr.
      apply andb_true_iff in H as [H1 H2]. apply expr_eqb_eq in H1. subst x.
      destruct (pr_okJ_val m T a C HT aT LC aC aM i pr lp H2) as (low & l & K1 & K2 & K3 & K4 & _).
      destruct (ratio_ok_val _ _ _ K2) as (c & e & NR & V1 & _ & V3 & V4).
      exists low, c, e. split; [exact K1|]. split; [exact NR|]. intros P EP PP.
      assert (VP : rv pr = P) by (rewrite K4, V1, EP; unfold reduced; ring).
      pose proof (lp_val T a HT aT low high l e lp V3 V4 K3) as B1.
      change (rv (Div lp (Mul e_T (Add (Num 1.0) pr)))) with (rv lp / (a v_T 0%N * (Q2R 1.0 + rv pr))).
      destruct decimals as (-> & _). rewrite VP, aT.
      assert (I1 : 0 < / T * / (1 + P)) by (apply Rmult_lt_0_compat; apply Rinv_0_lt_compat; lra).
      match goal with |- Rabs ?w <= _ => replace w with ((rv lp - (exponent_T low high + e / T - 1)) * (/ T * / (1 + P))) by (field; lra) end.
      rewrite Rabs_mult, (Rabs_pos_eq (/ T * _)) by lra. apply (Rmult_le_compat_r (/ T * / (1 + P))) in B1; [|lra].
      eapply Rle_trans; [exact B1|]. unfold Rdiv.
      pose proof (Rabs_pos (exponent_T low high + e / T - 1)) as A0. pose proof (LS low e) as A1.
      assert (0 <= Q2R tolE * lp_size T low high e * (/ T * / (1 + P))) by (apply Rmult_le_pos; [apply Rmult_le_pos; lra|lra]). lra.
  Qed.

  Hypothesis Hi : (i < length (ch_reactions (chem m)))%nat.
  Variable dB : list R.
  Hypothesis ab : forall k, (k < s_NSP (library m))%nat -> a v_dBdT (N.of_nat k) = nth k dB 0.
  Hypothesis HB : forall k, (k < s_NSP (library m))%nat -> reversible m k = true ->
    Rabs (T * nth k dB 0 - (h_RT m T k - 1)) <= Q2R tolE * h_size m T k.
  Variables f g q Df Dr : R.
  Hypothesis af : a v_fwd_rates (N.of_nat i) = f.
  Hypothesis ag : rx_rev r = true -> a v_rev_rates (N.of_nat (rank rx_rev (ch_reactions (chem m)) i)) = g.
  Hypothesis g0 : rx_rev r = false -> g = 0.
  Hypothesis aq : a v_pres_mod (N.of_nat (rank pdep (ch_reactions (chem m)) i)) = q.
  Hypothesis Pf : 0 <= f.
  Hypothesis Pg : 0 <= g.
  Hypothesis Pq : 0 <= q.
  Hypothesis HDf : Rabs (Df - (slope (k_high (kin m i)) T + (1 - INR (molecules (rx_lhs r))))) <=
    Q2R tolE * (Rabs (act_T (k_high (kin m i))) / T).
  Hypothesis HDr : rx_rev r = true ->
    Rabs (Dr - (slope (k_high (kin m i)) T - heat m T r + (1 - INR (molecules (rx_rhs r))))) <=
    Q2R tolE * (Rabs (act_T (k_high (kin m i))) / T + heat_size m T r).

  Lemma fall_val e : fall_ok m i e = true -> exists x, x_ok m i x = true /\
    (q * (f + g) = 0 -> rv e = 0) /\
    forall X s, Rabs (rv x - X) <= 3 * Q2R tolE * s ->
      Rabs (rv e - q * ((f * Df - g * Dr) / T / rho + (f - g) / rho * X)) <=
      Q2R tolE * (q * (f + g) / rho) * (4 * terms_size m T i / T + 3 * s).
  Proof.
    unfold fall_ok. set (x := opr (opl (opl (opl e)))). set (b := opr (opr (opl e))). intros H. clearbody x b.
    apply andb_true_iff in H as [H H3]. apply andb_true_iff in H as [H1 H2]. apply expr_eqb_eq in H1. subst e.
    apply (pnear_val exact_libm a) in H2. rewrite !expand_val, psize_expand in H2.
    pose proof (base_val m T a i HT aT Hi dB ab HB f g Df Dr af ag g0 Pf Pg HDf HDr) as BV.
    destruct (net_val m T a i f g Dr af ag g0 Pf Pg HDr) as [NV _]. pose proof tolE_val as [TE _].
    assert (IT : 0 < / T) by apply Rinv_0_lt_compat, HT. assert (IR : 0 < / rho) by apply Rinv_0_lt_compat, Hrho.
    set (tau := Q2R tolE) in *. set (ts := terms_size m T i) in *.
    assert (VE : rv (e_fall m i x b) = (q * rv x * (f - g) + q / T * rv b) * (1 / rho)).
    { change (rv (e_fall m i x b)) with
        ((a v_pres_mod (N.of_nat (rank pdep (ch_reactions (chem m)) i)) * rv x * rv (e_net m i) +
          a v_pres_mod (N.of_nat (rank pdep (ch_reactions (chem m)) i)) / a v_T 0%N * rv b) * (Q2R 1.0 / a v_rho 0%N)).
      destruct decimals as (-> & _). rewrite aq, aT, ar, NV. reflexivity. }
    assert (Bb : Rabs (rv b - (f * Df - g * Dr)) <= tau * ((f + g) * (4 * ts - 3))).
    { replace (rv b - (f * Df - g * Dr)) with ((rv b - rv (e_base m i)) + (rv (e_base m i) - (f * Df - g * Dr))) by ring.
      eapply Rle_trans; [apply Rabs_triang|]. lra. }
    exists x. split; [exact H3|]. split.
    - intros Z0. rewrite VE. apply Rmult_integral in Z0 as [Z0|Z0]; [rewrite Z0; unfold Rdiv; ring|].
      assert (F0 : f = 0) by lra. assert (G0 : g = 0) by lra. rewrite F0, G0 in Bb.
      replace (rv b - (0 * Df - 0 * Dr)) with (rv b) in Bb by ring. replace (tau * ((0 + 0) * (4 * ts - 3))) with 0 in Bb by ring.
      assert (Z : rv b = 0) by (pose proof (Rabs_pos (rv b)); destruct (Req_dec (rv b) 0) as [E|E]; [exact E|apply Rabs_pos_lt in E; lra]).
      rewrite F0, G0, Z. ring.
    - intros X s BX. rewrite VE.
      match goal with |- Rabs ?w <= _ => replace w with
        (((rv x - X) * (f - g) + (rv b - (f * Df - g * Dr)) * / T) * (q * / rho)) by (field; lra) end.
      assert (Pqr : 0 <= q * / rho) by (apply Rmult_le_pos; lra).
      rewrite Rabs_mult, (Rabs_pos_eq (q * / rho)) by exact Pqr.
      replace (tau * (q * (f + g) / rho) * (4 * ts / T + 3 * s)) with
        ((3 * tau * s * (f + g) + tau * ((f + g) * (4 * ts)) * / T) * (q * / rho)) by (unfold Rdiv; ring).
      apply Rmult_le_compat_r; [exact Pqr|]. eapply Rle_trans; [apply Rabs_triang|]. apply Rplus_le_compat.
      + rewrite Rabs_mult. assert (FG : Rabs (f - g) <= f + g) by (apply Rabs_le; lra).
        apply Rmult_le_compat; [apply Rabs_pos|apply Rabs_pos|exact BX|exact FG].
      + rewrite Rabs_mult, (Rabs_pos_eq (/ T)) by lra. apply Rmult_le_compat_r; [lra|]. eapply Rle_trans; [exact Bb|].
        apply Rmult_le_compat_l; [exact TE|]. apply Rmult_le_compat_l; lra.
  Qed.
End FallContribution.

(** ** The function whose derivative it is *)

Lemma lindemann_derive (P : R -> R) T lP : derivable_pt_lim P T (P T * lP) -> 0 < P T ->
  derivable_pt_lim (fun t => ln (P t / (1 + P t))) T (lP / (1 + P T)).
Proof.
  intros DP P0. set (q := P T) in *.
  assert (Dfr : derivable_pt_lim (fun t => P t / (1 + P t)) T ((q * lP * (1 + q) - (0 + q * lP) * q) / Rsqr (1 + q))).
  { apply (derivable_pt_lim_div P (fun t => 1 + P t)); [exact DP| |change (1 + q <> 0); lra].
    apply (derivable_pt_lim_plus (fun _ => 1) P); [apply derivable_pt_lim_const|exact DP]. }
  replace (lP / (1 + q)) with (/ (q / (1 + q)) * ((q * lP * (1 + q) - (0 + q * lP) * q) / Rsqr (1 + q))) by (unfold Rsqr; field; lra).
  apply (derivable_pt_lim_comp (fun t => P t / (1 + P t)) ln); [exact Dfr|]. apply derivable_pt_lim_ln.
  apply Rdiv_lt_0_compat; fold q; lra.
Qed.

Lemma reduced_derive c b e k T : 0 < T ->
  derivable_pt_lim (fun t => reduced c b e (k / t) t) T (reduced c b e (k / T) T * ((b + e / T - 1) / T)).
Proof.
  intros HT. unfold reduced.
  assert (D1 : derivable_pt_lim (fun t => exp (b * ln t)) T (exp (b * ln T) * (b * / T))).
  { apply (derivable_pt_lim_comp (fun t => b * ln t) exp); [|apply derivable_pt_lim_exp].
    apply (derivable_pt_lim_scal ln), derivable_pt_lim_ln, HT. }
  assert (D2 := inverse_derive e T HT).
  assert (D3 : derivable_pt_lim (fun t => k / t) T ((0 * T - 1 * k) / Rsqr T)).
  { apply (derivable_pt_lim_div (fun _ => k) (fun t => t)); [apply derivable_pt_lim_const|apply derivable_pt_lim_id|lra]. }
  replace (_ * ((b + e / T - 1) / T)) with
    ((c * (exp (b * ln T) * (b * / T)) * exp (- e / T) + c * exp (b * ln T) * (exp (- e / T) * (e / (T * T)))) * (k / T) +
     c * exp (b * ln T) * exp (- e / T) * ((0 * T - 1 * k) / Rsqr T)) by (unfold Rsqr; field; lra).
  apply (derivable_pt_lim_mult (fun t => c * exp (b * ln t) * exp (- e / t)) (fun t => k / t)); [|exact D3].
  apply (derivable_pt_lim_mult (fun t => c * exp (b * ln t)) (fun t => exp (- e / t))); [|exact D2].
  apply (derivable_pt_lim_scal (fun t => exp (b * ln t))), D1.
Qed.

(** Concentration of the colliders of reaction [i], weighted with their efficiencies, as the library computes the
    concentrations at temperature [t], pressure [p] and mass fractions [y]. *)
Definition collider (m : mechanism) (p : R) (y : list R) (i : nat) (t : R) : R :=
  match lib_eval_conc (A := RA) exact_libm (library m) t p y with
  | Ok (_, _, _, conc) => third_body (rxn (chem m) i) conc
  | _ => 0
  end.

(** Reduced pressure of reaction [i] along the temperature. *)
Definition pr_at (m : mechanism) (p : R) (y : list R) (i : nat) (low : arrhenius) (c e t : R) : R :=
  reduced c (exponent_T low (k_high (kin m i))) e (collider m p y i t) t.

Section Reduced.
  Variable m : mechanism.
  Variable p : R.
  Variable y : list R.
  Hypothesis Hp : 0 < p.
  Hypothesis Ly : length y = (s_NSP (library m) - 1)%nat.
  Hypothesis H1 : forall k, (k < length y)%nat -> 0 <= nth k y 0.
  Hypothesis H2 : Rsum y <= 1.

  Lemma collider_at i t : 0 < t -> collider m p y i t = third_body (rxn (chem m) i) (conc1 m p y) / t.
  Proof.
    intros Ht. destruct (conc_at m p y Hp Ly H1 H2 t Ht) as (conc & E & L & C1 & _). unfold collider. rewrite E.
    apply third_body_inv; [|exact C1]. rewrite L. unfold conc1. rewrite map_length, seq_length. reflexivity.
  Qed.

  Lemma pr_derive i low c e T : 0 < T ->
    derivable_pt_lim (pr_at m p y i low c e) T
      (pr_at m p y i low c e T * ((exponent_T low (k_high (kin m i)) + e / T - 1) / T)).
  Proof.
    intros HT. unfold pr_at at 2. rewrite (collider_at i T HT).
    apply (derivable_pt_lim_locally_ext (fun t => reduced c (exponent_T low (k_high (kin m i))) e (third_body (rxn (chem m) i) (conc1 m p y) / t) t)
      _ T 0 (T + 1)); [lra| |apply reduced_derive, HT].
    intros t Ht. unfold pr_at. rewrite collider_at by lra. reflexivity.
  Qed.
End Reduced.
