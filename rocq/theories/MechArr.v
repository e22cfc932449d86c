(** Soundness of the checks in MechKin.v: rate constants, equilibrium constants, second law. *)
From Coq Require Import List ZArith NArith QArith Qabs Qreals Reals Bool Lra Lia.
From Verif Require Import Outcome Arith MechLang MechSym MechSrc MechCall MechReal MechPoly MechChem Mechanisms
  MechSpec MechRate MechPmod MechThermo MechData MechExp MechLaurent MechNasa MechKin.
Import ListNotations.
Local Open Scope nat_scope.

(** ** Numbers *)

Lemma tolE_val : (0 <= Q2R tolE <= 1 / 2)%R.
Proof.
  split.
  - rewrite <- Q2R_0. apply Qle_Rle. discriminate.
  - replace (1 / 2)%R with (Q2R (1 / 2)) by (unfold Q2R; cbn; lra). apply Qle_Rle. discriminate.
Qed.

Lemma tolA_val : (0 <= Q2R tolA <= 1 / 2)%R.
Proof.
  split.
  - rewrite <- Q2R_0. apply Qle_Rle. discriminate.
  - replace (1 / 2)%R with (Q2R (1 / 2)) by (unfold Q2R; cbn; lra). apply Qle_Rle. discriminate.
Qed.

Lemma gas_pos : (0 < gas_constant)%R.
Proof. unfold gas_constant. rewrite <- Q2R_0. apply Qlt_Rlt. reflexivity. Qed.

Lemma Q2R_1000 : Q2R 1000 = 1000%R.
Proof. unfold Q2R. cbn. lra. Qed.

Lemma Q2R_qact a : Q2R (qact a) = act_T a.
Proof.
  unfold qact, act_T, Qdiv. rewrite !Q2R_mult, Q2R_inv by discriminate. change (Q2R Ru) with gas_constant.
  replace (Q2R 4184) with (4.184 * 1000)%R by (unfold Q2R; cbn; lra). unfold Rdiv. ring.
Qed.

Lemma Q2R_patm : Q2R patm_R = (p_std / gas_constant)%R.
Proof.
  unfold patm_R, Qdiv, p_std. rewrite Q2R_mult, Q2R_inv by discriminate. change (Q2R Ru) with gas_constant.
  replace (Q2R 101325) with 101325%R by (unfold Q2R; cbn; lra). reflexivity.
Qed.

Lemma ln_pow x n : (0 < x)%R -> ln (x ^ n) = (INR n * ln x)%R.
Proof.
  intros H. induction n as [|n IH]; [cbn; rewrite ln_1; ring|].
  cbn [pow]. rewrite ln_mult, IH, S_INR; [ring|exact H|apply pow_lt, H].
Qed.

Lemma ln_div x y : (0 < x)%R -> (0 < y)%R -> ln (x / y) = (ln x - ln y)%R.
Proof. intros Hx Hy. unfold Rdiv. rewrite ln_mult, ln_Rinv by (try apply Rinv_0_lt_compat; assumption). ring. Qed.

(** ** Arrhenius *)

Lemma factor_pos a n : (0 < Q2R (a_A a))%R -> (0 < factor_si a n)%R.
Proof. intros H. unfold factor_si. apply Rdiv_lt_0_compat; [lra|]. apply pow_lt. lra. Qed.

Lemma ln_rate_arr a n T : (0 < Q2R (a_A a))%R -> (0 < T)%R ->
  (0 < rate_arr a n T)%R /\
  ln (rate_arr a n T) = (ln (Q2R (a_A a) * 1000) - INR n * ln 1000 + Q2R (a_b a) * ln T - act_T a / T)%R.
Proof.
  intros HA HT. pose proof (factor_pos a n HA) as F. unfold rate_arr, Rpower.
  assert (P1 : (0 < factor_si a n * exp (Q2R (a_b a) * ln T))%R) by (apply Rmult_lt_0_compat; [exact F|apply exp_pos]).
  split; [apply Rmult_lt_0_compat; [exact P1|apply exp_pos]|].
  rewrite ln_mult by (try exact P1; apply exp_pos). rewrite ln_mult by (try exact F; apply exp_pos). rewrite !ln_exp.
  unfold factor_si. rewrite ln_div by (try (apply pow_lt; lra); lra). rewrite ln_pow by lra. unfold Rdiv. ring.
Qed.

Lemma arr_ok_val a n e rho : let T := rho v_T 0%N in
  arr_ok a n e = true -> (0 < T)%R ->
  (0 < Q2R (a_A a))%R /\ (0 < rval exact_libm rho e)%R /\
  (Rabs (ln (rval exact_libm rho e) - ln (rate_arr a n T)) <= 2 * Q2R tolA + Q2R tolE * (Rabs (act_T a) / T))%R.
Proof.
  intros T H HT. unfold arr_ok in H. destruct (pos_form anyT e) as [[c l]|] eqn:P; [|discriminate].
  assert (In : inside anyT T) by (split; [cbn [r_lo anyT]; rewrite Q2R_0; exact HT|exact I]).
  destruct (pos_form_val rho anyT In e c l P) as [Pc V]. fold T in V.
  apply andb_true_iff in H as [H H3]. apply andb_true_iff in H as [H1 H2].
  apply Qeq_bool_iff, Qeq_eqR in H1. apply Qle_bool_iff, Qle_Rle in H2.
  rewrite Q2R_mult, !Q2R_abs, Q2R_qplus, Q2R_qact in H2.
  destruct (constant (mkLau 0 0 (l_poly l))) as [q|] eqn:C; [|discriminate].
  pose proof (constant_val _ q T C) as CV. unfold lau_val in CV. cbn [l_log l_inv l_poly] in CV. rewrite Q2R_0 in CV.
  assert (HA : (0 < Q2R (a_A a))%R).
  { unfold exp_close in H3. apply andb_true_iff in H3 as [H3 _]. apply andb_true_iff in H3 as [_ H3]. apply Q2R_pos in H3.
    rewrite Q2R_mult, Q2R_1000 in H3. lra. }
  apply exp_close_sound in H3; [|exact tolA_val].
  rewrite !Q2R_mult, qpow_val, Q2R_1000 in H3.
  rewrite ln_mult in H3 by (try apply pow_lt; lra). rewrite ln_pow in H3 by lra.
  split; [exact HA|].
  assert (Pe : (0 < rval exact_libm rho e)%R) by (rewrite V; apply Rmult_lt_0_compat; [exact Pc|apply exp_pos]).
  split; [exact Pe|].
  destruct (ln_rate_arr a n T HA HT) as [_ ->]. rewrite V, ln_mult by (try exact Pc; apply exp_pos). rewrite ln_exp.
  unfold lau_val. rewrite H1.
  match goal with |- (Rabs ?x <= _)%R =>
    replace x with ((ln (Q2R c) + INR n * ln 1000 + Q2R q - ln (Q2R (a_A a) * 1000)) + (Q2R (l_inv l) + act_T a) / T)%R
      by (unfold Rdiv in *; lra) end.
  eapply Rle_trans; [apply Rabs_triang|]. apply Rplus_le_compat; [exact H3|].
  unfold Rdiv. rewrite Rabs_mult, (Rabs_pos_eq (/ T)) by (left; apply Rinv_0_lt_compat, HT).
  rewrite <- Rmult_assoc. apply Rmult_le_compat_r; [left; apply Rinv_0_lt_compat, HT|exact H2].
Qed.

(** ** Coefficients on common denominators *)

Lemma on_den_val d q : Q2R (on_den d q) = Q2R q.
Proof.
  unfold on_den. pose proof (Z_div_mod (Zpos d) (Zpos (Qden q)) eq_refl) as D.
  destruct (Z.div_eucl (Zpos d) (Zpos (Qden q))) as [k z]. destruct D as [D _].
  destruct (z =? 0)%Z eqn:Z; [|reflexivity]. apply Z.eqb_eq in Z. subst z. rewrite Z.add_0_r in D.
  apply Qeq_eqR. unfold Qeq. cbn. rewrite D. ring.
Qed.

Lemma common_length a : length (common a) = Nat.min 7 (length a).
Proof. unfold common. rewrite map_length, combine_length. reflexivity. Qed.

Lemma common_nth a i : length (common a) = 7 -> i < 7 -> Q2R (nth i (common a) 0%Q) = Q2R (nth i a 0%Q).
Proof.
  rewrite common_length. intros L Hi.
  do 7 (destruct a as [|? a]; [cbn in L; lia|]).
  do 7 (destruct i as [|i]; [cbn [common combine dens map nth fst snd]; apply on_den_val|]). lia.
Qed.

(** ** Sums over the molecules of a side *)

(** Sizes of the terms. *)
Definition lau_size (l : laurent) (T : R) : R :=
  (Rabs (Q2R (l_log l)) * Rabs (ln T) + Rabs (Q2R (l_inv l)) / T + qsize (l_poly l) T)%R.

Lemma qsize_add T : (0 <= T)%R -> forall a b, (qsize (qadd a b) T <= qsize a T + qsize b T)%R.
Proof.
  intros HT. unfold qsize.
  assert (Z : forall l, (0 <= peval (map (fun q => Rabs (Q2R q)) l) T)%R).
  { induction l as [|x l IH]; cbn [map peval]; [lra|]. pose proof (Rabs_pos (Q2R x)).
    assert (0 <= T * peval (map (fun q => Rabs (Q2R q)) l) T)%R by (apply Rmult_le_pos; assumption). lra. }
  induction a as [|x a IH]; intros b; cbn [qadd].
  - cbn [map peval]. lra.
  - destruct b as [|y b]; cbn [map peval]; [lra|]. rewrite Q2R_qplus. specialize (IH b).
    pose proof (Rabs_triang (Q2R x) (Q2R y)) as R.
    apply (Rmult_le_compat_l T) in IH; [|exact HT]. rewrite Rmult_plus_distr_l in IH. lra.
Qed.

Lemma qsize_scale T c a : qsize (qscale c a) T = (Rabs (Q2R c) * qsize a T)%R.
Proof.
  unfold qsize, qscale. induction a as [|x a IH]; cbn [map peval]; [ring|]. rewrite IH, Q2R_mult, Rabs_mult. ring.
Qed.

Lemma lau_size_add a b T : (0 < T)%R -> (lau_size (lau_add a b) T <= lau_size a T + lau_size b T)%R.
Proof.
  intros HT. unfold lau_size, lau_add. cbn [l_log l_inv l_poly]. rewrite !Q2R_qplus.
  pose proof (qsize_add T (Rlt_le _ _ HT) (l_poly a) (l_poly b)) as H.
  pose proof (Rabs_triang (Q2R (l_log a)) (Q2R (l_log b))) as H1.
  pose proof (Rabs_triang (Q2R (l_inv a)) (Q2R (l_inv b))) as H2.
  apply (Rmult_le_compat_r (Rabs (ln T)) _ _ (Rabs_pos _)) in H1.
  apply (Rmult_le_compat_r (/ T)) in H2; [|left; apply Rinv_0_lt_compat, HT]. unfold Rdiv. lra.
Qed.

Lemma lau_size_scale c a T : lau_size (lau_scale c a) T = (Rabs (Q2R c) * lau_size a T)%R.
Proof. unfold lau_size, lau_scale. cbn [l_log l_inv l_poly]. rewrite !Q2R_mult, !Rabs_mult, qsize_scale. unfold Rdiv. ring. Qed.

Lemma lau_near_val eps a b s T : lau_near eps a b s = true -> (0 < T)%R -> (0 <= Q2R eps)%R ->
  (Rabs (lau_val a T - lau_val b T) <= Q2R eps * lau_size s T)%R.
Proof.
  unfold lau_near. intros H HT He. apply andb_true_iff in H as [H H3]. apply andb_true_iff in H as [H1 H2].
  apply Qle_bool_iff, Qle_Rle in H1, H2. rewrite Q2R_mult, !Q2R_abs, Q2R_qplus, Q2R_opp in H1, H2.
  pose proof (near_val eps _ _ _ T H3 (Rlt_le _ _ HT)) as H3'.
  unfold lau_val, lau_size.
  match goal with |- (Rabs ?x <= _)%R =>
    replace x with ((Q2R (l_log a) + - Q2R (l_log b)) * ln T + ((Q2R (l_inv a) + - Q2R (l_inv b)) * / T +
      (qeval (l_poly a) T - qeval (l_poly b) T)))%R by (unfold Rdiv; ring) end.
  eapply Rle_trans; [apply Rabs_triang|]. rewrite !Rmult_plus_distr_l, Rplus_assoc. apply Rplus_le_compat.
  - rewrite Rabs_mult, <- Rmult_assoc. apply Rmult_le_compat_r; [apply Rabs_pos|exact H1].
  - eapply Rle_trans; [apply Rabs_triang|]. apply Rplus_le_compat; [|exact H3'].
    rewrite Rabs_mult, (Rabs_pos_eq (/ T)) by (left; apply Rinv_0_lt_compat, HT). unfold Rdiv. rewrite <- Rmult_assoc.
    apply Rmult_le_compat_r; [left; apply Rinv_0_lt_compat, HT|exact H2].
Qed.

Lemma Q2R_60 : Q2R 60 = 60%R.  Proof. unfold Q2R. cbn. lra. Qed.

Lemma seven (a : list Q) : length a = 7 -> exists a0 a1 a2 a3 a4 a5 a6, a = [a0; a1; a2; a3; a4; a5; a6].
Proof. intros L. do 7 (destruct a as [|? a]; [discriminate|]). destruct a; [|discriminate]. repeat eexists. Qed.

Lemma g_lau_val a T : length a = 7 -> (0 < T)%R ->
  lau_val (g_lau a) T = (60 * (- g_RT (fun i => Q2R (nth i a 0%Q)) T - ln T))%R.
Proof.
  intros L HT. destruct (seven a L) as (a0 & a1 & a2 & a3 & a4 & a5 & a6 & ->). clear L.
  unfold lau_val, g_lau, qeval, g_RT, h_R, s_R. cbn [l_log l_inv l_poly map peval nth].
  rewrite !Q2R_mult, !Q2R_qplus, Q2R_opp, Q2R_60, Q2R_m1.
  replace (Q2R (-60)) with (-60)%R by (unfold Q2R; cbn; lra).
  replace (Q2R 30) with 30%R by (unfold Q2R; cbn; lra).
  replace (Q2R 10) with 10%R by (unfold Q2R; cbn; lra).
  replace (Q2R 5) with 5%R by (unfold Q2R; cbn; lra).
  replace (Q2R 3) with 3%R by (unfold Q2R; cbn; lra).
  field. lra.
Qed.

Lemma g_scale_val a T : length a = 7 -> (0 < T)%R ->
  lau_size (g_scale a) T = (60 * g_size (fun i => Rabs (Q2R (nth i a 0%Q))) T)%R.
Proof.
  intros L HT. destruct (seven a L) as (a0 & a1 & a2 & a3 & a4 & a5 & a6 & ->). clear L.
  unfold lau_size, g_scale, qsize, g_size. cbn [l_log l_inv l_poly map peval nth].
  assert (P : forall (x : R) q, (0 <= x)%R -> Rabs (x * Rabs (Q2R q)) = (x * Rabs (Q2R q))%R).
  { intros x q Hx. apply Rabs_pos_eq, Rmult_le_pos; [exact Hx|apply Rabs_pos]. }
  rewrite !Q2R_mult, !Q2R_qplus, !Q2R_abs, Q2R_60, Q2R_1.
  replace (Q2R 30) with 30%R by (unfold Q2R; cbn; lra).
  replace (Q2R 10) with 10%R by (unfold Q2R; cbn; lra).
  replace (Q2R 5) with 5%R by (unfold Q2R; cbn; lra).
  replace (Q2R 3) with 3%R by (unfold Q2R; cbn; lra).
  rewrite !P by lra.
  pose proof (Rabs_pos (Q2R a0)). pose proof (Rabs_pos (Q2R a6)).
  rewrite (Rabs_pos_eq (60 * (Rabs (Q2R a0) + 1))), (Rabs_pos_eq (60 * (Rabs (Q2R a6) + Rabs (Q2R a0)))) by lra.
  field. lra.
Qed.

Lemma g_RT_ext a b T : (forall i, i < 7 -> a i = b i) -> g_RT a T = g_RT b T.
Proof. intros E. unfold g_RT, h_R, s_R. rewrite !E by lia. reflexivity. Qed.

Lemma g_size_ext a b T : (forall i, i < 7 -> a i = b i) -> g_size a T = g_size b T.
Proof. intros E. unfold g_size. rewrite !E by lia. reflexivity. Qed.

(** An entry of the table on an interval. *)
Lemma entry_val N k e r a T : nth_error (common_all N) k = Some e -> branch r e = Some a -> (length a =? 7) = true ->
  inside r T -> forall i, i < 7 -> nasa_at (nth k N (mkNasa 0 [] [])) T i = Q2R (nth i a 0%Q).
Proof.
  intros E B L HT i Hi. unfold common_all in E. rewrite nth_error_map in E.
  destruct (nth_error N k) as [n|] eqn:F; [|discriminate]. cbn [option_map] in E. injection E as <-.
  rewrite (nth_error_nth N k _ F). apply Nat.eqb_eq in L. unfold branch in B. cbn [n_mid n_low n_high] in B.
  destruct (decide r (n_mid n)) as [b|] eqn:D; [|discriminate].
  pose proof (decide_sound r _ b T D HT) as V. unfold Rleb in V. unfold nasa_at.
  destruct (Rle_dec T (Q2R (n_mid n))); destruct b; try discriminate; injection B as <-; symmetry; apply common_nth; assumption.
Qed.

Lemma Q2R_nat n : Q2R (inject_Z (Z.of_nat n)) = INR n.
Proof. unfold Q2R, inject_Z. cbn. rewrite INR_IZR_INZ. field. Qed.

Lemma side_cons k n l f : side_sum ((k, n) :: l) f = (INR n * f k + side_sum l f)%R.
Proof. reflexivity. Qed.

Lemma side_app l l' f : side_sum (l ++ l') f = (side_sum l f + side_sum l' f)%R.
Proof. unfold side_sum. rewrite map_app, Rsum_app. reflexivity. Qed.

Lemma molecules_cons k n l : molecules ((k, n) :: l) = n + molecules l.
Proof. reflexivity. Qed.

Lemma side_lau_val m r l T : (0 < T)%R -> inside r T -> forall s, side_lau (common_all (nasa m)) g_lau r l = Some s ->
  lau_val s T = (60 * (- side_sum l (gibbs m T) - INR (molecules l) * ln T))%R.
Proof.
  intros HT HI. induction l as [|[k n] l IH]; intros s; cbn [side_lau].
  - intros [= <-]. unfold lau_val, side_sum, qeval. cbn. rewrite Q2R_0. unfold Rdiv. ring.
  - destruct (nth_error (common_all (nasa m)) k) as [e|] eqn:E; [|discriminate].
    destruct (side_lau (common_all (nasa m)) g_lau r l) as [s'|]; [|discriminate].
    destruct (branch r e) as [a|] eqn:B; [|discriminate].
    destruct (length a =? 7) eqn:L; [|discriminate].
    intros H. assert (H' : s = lau_add (lau_scale (inject_Z (Z.of_nat n)) (g_lau a)) s') by congruence. subst s. clear H.
    rewrite lau_add_val, lau_scale_val, Q2R_nat, (IH s' eq_refl).
    rewrite (g_lau_val a T) by (try apply Nat.eqb_eq; assumption).
    rewrite side_cons, molecules_cons, plus_INR.
    replace (gibbs m T k) with (g_RT (fun i => Q2R (nth i a 0%Q)) T); [ring|].
    unfold gibbs, species_nasa. apply g_RT_ext. intros i Hi. symmetry. apply (entry_val _ _ _ _ _ _ E B L HI i Hi).
Qed.

Lemma side_lau_size m r l T : (0 < T)%R -> inside r T -> forall s, side_lau (common_all (nasa m)) g_scale r l = Some s ->
  (lau_size s T <= 60 * side_sum l (gibbs_size m T))%R.
Proof.
  intros HT HI. induction l as [|[k n] l IH]; intros s; cbn [side_lau].
  - intros [= <-]. unfold lau_size, side_sum, qsize. cbn. rewrite Q2R_0, Rabs_R0. unfold Rdiv. lra.
  - destruct (nth_error (common_all (nasa m)) k) as [e|] eqn:E; [|discriminate].
    destruct (side_lau (common_all (nasa m)) g_scale r l) as [s'|]; [|discriminate].
    destruct (branch r e) as [a|] eqn:B; [|discriminate].
    destruct (length a =? 7) eqn:L; [|discriminate].
    intros H. assert (H' : s = lau_add (lau_scale (inject_Z (Z.of_nat n)) (g_scale a)) s') by congruence. subst s. clear H.
    eapply Rle_trans; [apply lau_size_add, HT|]. specialize (IH s' eq_refl).
    rewrite lau_size_scale, Q2R_nat, (Rabs_pos_eq (INR n)) by apply pos_INR.
    rewrite (g_scale_val a T) by (try apply Nat.eqb_eq; assumption).
    rewrite side_cons.
    replace (gibbs_size m T k) with (g_size (fun i => Rabs (Q2R (nth i a 0%Q))) T); [lra|].
    unfold gibbs_size, species_nasa. apply g_size_ext. intros i Hi. unfold nasa_abs. f_equal. symmetry.
    apply (entry_val _ _ _ _ _ _ E B L HI i Hi).
Qed.

(** ** The equilibrium constant *)

Lemma near_1 x y e : (0 < y)%R -> (0 <= e <= 1 / 2)%R -> (Rabs (x - y) <= e * y)%R -> (Rabs (ln x - ln y) <= 2 * e)%R.
Proof.
  intros Hy He H. apply ln_near; [exact Hy|exact He|].
  pose proof (Rle_abs (x - y)). pose proof (Rle_abs (- (x - y))) as H'. rewrite Rabs_Ropp in H'. lra.
Qed.

Lemma power_ok_val d a b : power_ok d a b = true -> (0 < Q2R d)%R ->
  (Rabs (ln (Q2R d) - (INR b - INR a) * ln (p_std / gas_constant)) <= 2 * Q2R tolE)%R.
Proof.
  intros H Hd. unfold power_ok in H.
  assert (Pp : (0 < Q2R patm_R)%R) by (rewrite <- Q2R_0; apply Qlt_Rlt; reflexivity).
  rewrite <- Q2R_patm. destruct (a <=? b) eqn:L.
  - apply Nat.leb_le in L. apply Qle_bool_iff, Qle_Rle in H.
    rewrite Q2R_mult, Q2R_abs, Q2R_minus, qpow_val in H.
    apply near_1 in H; [|apply pow_lt, Pp|exact tolE_val]. rewrite ln_pow, minus_INR in H by assumption. exact H.
  - apply Nat.leb_gt in L. apply Qle_bool_iff, Qle_Rle in H.
    rewrite Q2R_abs, Q2R_minus, Q2R_mult, qpow_val, Q2R_1 in H. rewrite <- (Rmult_1_r (Q2R tolE)) in H.
    apply near_1 in H; [|lra|exact tolE_val].
    rewrite ln_mult, ln_1, ln_pow, minus_INR in H by (try apply pow_lt; try lia; assumption).
    match goal with H : (Rabs ?x <= _)%R |- (Rabs ?y <= _)%R => replace y with x by ring end. exact H.
Qed.

Lemma qsames_eq a : forall b, qsames a b = true -> a = b.
Proof.
  induction a as [|x a IH]; destruct b as [|y b]; cbn; try discriminate; [reflexivity|].
  intros H. apply andb_true_iff in H as [H1 H2]. apply Qsame_eq in H1. f_equal; auto.
Qed.

Lemma same_form_eq x y : same_form x y = true -> x = y /\ exists c l, x = Some (c, l).
Proof.
  destruct x as [[c l]|], y as [[d k]|]; cbn [same_form]; try discriminate. intros H.
  apply andb_true_iff in H as [H H4]. apply andb_true_iff in H as [H H3]. apply andb_true_iff in H as [H1 H2].
  apply Qsame_eq in H1, H2, H3. apply qsames_eq in H4. destruct l as [l1 l2 l3], k as [k1 k2 k3]. cbn [l_log l_inv l_poly] in *.
  subst. split; eauto.
Qed.

Lemma equil_val m r kf kr rho : let T := rho v_T 0%N in
  equil_ok (common_all (nasa m)) r kf kr = true -> (0 < T)%R ->
  (0 < rval exact_libm rho kf)%R /\ (0 < rval exact_libm rho kr)%R /\
  (Rabs (ln (rval exact_libm rho kf) - ln (rval exact_libm rho kr) - ln_Kc m T r) <=
   Q2R tolE * (2 + side_sum (rx_lhs r) (gibbs_size m T) + side_sum (rx_rhs r) (gibbs_size m T)))%R.
Proof.
  intros T H HT. unfold equil_ok in H. destruct kr as [| | | | | |a K| | | | | |]; try discriminate.
  apply andb_true_iff in H as [H1 H2]. apply same_form_eq in H1 as [H1 (c & l & Ec)].
  assert (In0 : inside anyT T) by (split; [cbn [r_lo anyT]; rewrite Q2R_0; exact HT|exact I]).
  assert (Ea := Ec). rewrite H1 in Ea.
  destruct (pos_form_val rho anyT In0 kf c l Ec) as [Pc Vf]. destruct (pos_form_val rho anyT In0 a c l Ea) as [_ Va].
  fold T in Vf, Va.
  destruct (regions_cover (switches (common_all (nasa m)) r) 0 T ltac:(rewrite Q2R_0; exact HT)) as (g & G1 & G2).
  rewrite forallb_forall in H2. specialize (H2 g G1). cbv beta in H2.
  destruct (pos_form g K) as [[d e]|] eqn:EK; [|discriminate].
  destruct (side_lau (common_all (nasa m)) g_lau g (rx_rhs r)) as [sr|] eqn:ER; [|discriminate].
  destruct (side_lau (common_all (nasa m)) g_lau g (rx_lhs r)) as [sl|] eqn:EL; [|discriminate].
  destruct (side_lau (common_all (nasa m)) g_scale g (rx_rhs r ++ rx_lhs r)) as [ss|] eqn:ES; [|discriminate].
  apply andb_true_iff in H2 as [H2 H3].
  destruct (pos_form_val rho g G2 K d e EK) as [Pd VK]. fold T in VK.
  apply power_ok_val in H2; [|exact Pd].
  apply (lau_near_val _ _ _ _ T) in H3; [|exact HT|apply tolE_val].
  rewrite lau_scale_val, lau_add_val, lau_scale_val, Q2R_60, Q2R_m1 in H3.
  rewrite (side_lau_val m g _ T HT G2 _ ER), (side_lau_val m g _ T HT G2 _ EL) in H3.
  pose proof (side_lau_size m g _ T HT G2 _ ES) as SS. rewrite side_app in SS.
  assert (PK : (0 < rval exact_libm rho K)%R) by (rewrite VK; apply Rmult_lt_0_compat; [exact Pd|apply exp_pos]).
  assert (Pf : (0 < rval exact_libm rho kf)%R) by (rewrite Vf; apply Rmult_lt_0_compat; [exact Pc|apply exp_pos]).
  change (rval exact_libm rho (Div a K)) with (rval exact_libm rho a / rval exact_libm rho K)%R.
  rewrite Va, <- Vf.
  split; [exact Pf|]. split; [apply Rdiv_lt_0_compat; assumption|].
  rewrite ln_div by assumption. rewrite VK, ln_mult by (try exact Pd; apply exp_pos). rewrite ln_exp.
  unfold ln_Kc. unfold Rdiv at 1. rewrite Rinv_mult.
  rewrite <- Rmult_assoc. rewrite ln_mult.
  2: { apply Rmult_lt_0_compat; [unfold p_std; lra|apply Rinv_0_lt_compat, gas_pos]. }
  2: { apply Rinv_0_lt_compat, HT. }
  rewrite ln_Rinv by exact HT. fold (Rdiv p_std gas_constant).
  set (X := ln (p_std / gas_constant)) in *. set (SL := side_sum (rx_lhs r) (gibbs m T)) in *. set (SR := side_sum (rx_rhs r) (gibbs m T)) in *.
  set (nl := INR (molecules (rx_lhs r))) in *. set (nr := INR (molecules (rx_rhs r))) in *.
  set (ZL := side_sum (rx_lhs r) (gibbs_size m T)) in *. set (ZR := side_sum (rx_rhs r) (gibbs_size m T)) in *.
  assert (H4 : (Rabs (lau_val e T - (SL - SR - (nr - nl) * ln T)) <= Q2R tolE * (ZR + ZL))%R).
  { match type of H3 with (Rabs ?x <= _)%R =>
      replace x with (60 * (lau_val e T - (SL - SR - (nr - nl) * ln T)))%R in H3 by ring end.
    rewrite Rabs_mult, (Rabs_pos_eq 60) in H3 by lra.
    apply (Rmult_le_compat_l (Q2R tolE)) in SS; [|apply tolE_val]. lra. }
  match goal with |- (Rabs ?x <= _)%R =>
    replace x with ((ln (Q2R d) - (nr - nl) * X) + (lau_val e T - (SL - SR - (nr - nl) * ln T)))%R by ring end.
  eapply Rle_trans; [apply Rabs_triang|]. lra.
Qed.

(** ** The rate constants of the library *)

(** Error bound for ln of a forward rate constant. *)
Definition arr_err (a : arrhenius) (T : R) : R := (2 * Q2R tolA + Q2R tolE * (Rabs (act_T a) / T))%R.

(** Error bound for ln of an equilibrium constant. *)
Definition Kc_err (m : mechanism) (T : R) (r : reaction) : R :=
  (Q2R tolE * (2 + side_sum (rx_lhs r) (gibbs_size m T) + side_sum (rx_rhs r) (gibbs_size m T)))%R.

Theorem rate_constants m (T p : R) i : (0 < T)%R -> i < length (ch_reactions (chem m)) ->
  (0 < k_fwd exact_libm (library m) T p i)%R /\ (0 < rate_arr (k_high (kin m i)) (order (rxn (chem m) i)) T)%R /\
  (Rabs (ln (k_fwd exact_libm (library m) T p i) - ln (rate_arr (k_high (kin m i)) (order (rxn (chem m) i)) T)) <=
   arr_err (k_high (kin m i)) T)%R /\
  (rx_rev (rxn (chem m) i) = true ->
   (0 < k_rev exact_libm (library m) (chem m) T p i)%R /\
   (Rabs (ln (k_fwd exact_libm (library m) T p i) - ln (k_rev exact_libm (library m) (chem m) T p i) -
          ln_Kc m T (rxn (chem m) i)) <= Kc_err m T (rxn (chem m) i))%R).
Proof.
  intros HT Hi. pose proof (kinetics_all m) as H. unfold kinetics_ok in H. unfold k_fwd, k_rev.
  destruct (rate_state (library m)) as [s|]; [|discriminate].
  apply andb_true_iff in H as [_ H]. rewrite forallb_forall in H. specialize (H i ltac:(apply in_seq; lia)).
  unfold reaction_ok in H. unfold rate_constant.
  destruct (split (fwd_form (library m) s i)) as [[lf kf]|]; [|discriminate].
  apply andb_true_iff in H as [H1 H2].
  set (rho := argument [(v_T, [T] : list (num RA)); (v_pres, [p])]).
  destruct (arr_ok_val _ _ _ rho H1 HT) as (PA & P & V).
  split; [exact P|]. split; [apply (ln_rate_arr _ _ T PA HT)|]. split; [exact V|].
  intros Rv. rewrite Rv in H2 |- *.
  destruct (split (rev_form (library m) (chem m) s i)) as [[lr kr]|]; [|discriminate].
  destruct (equil_val m _ kf kr rho H2 HT) as (_ & Pr & Vr). split; [exact Pr|exact Vr].
Qed.
