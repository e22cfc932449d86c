(** Derivatives of the forms of MechLaurent.v with respect to the temperature.
    The definitions below are not functions of /repo. *)
From Coq Require Import List ZArith NArith QArith Qabs Qreals Reals Bool Lra Lia.
From Verif Require Import Outcome Arith MechLang MechSym MechSrc MechCall MechReal MechPoly MechChem Mechanisms
  MechSpec MechRate MechPmod MechThermo MechDydt MechRhs MechData MechExp MechLaurent MechNasa MechKin MechArr MechJac
  MechJacT.
Import ListNotations.
Local Open Scope R_scope.

(** Sum of [(n + j) a_j T^j]. *)
Fixpoint wsum (n : nat) (l : list R) (T : R) : R :=
  match l with [] => 0 | a :: r => INR n * a + T * wsum (S n) r T end.

Lemma wsum_S l T : forall n, wsum (S n) l T = peval l T + wsum n l T.
Proof.
  induction l as [|a l IH]; intros n; cbn [wsum peval]; [ring|]. rewrite (IH (S n)).
  change (INR (S n)) with (match n with O => 1 | S _ => INR n + 1 end).
  replace (match n with O => 1 | S _ => INR n + 1 end) with (INR n + 1) by (destruct n; cbn [INR]; ring). ring.
Qed.

Lemma wsum_add T a : forall b n, wsum n (map Q2R (qadd a b)) T = wsum n (map Q2R a) T + wsum n (map Q2R b) T.
Proof.
  induction a as [|x a IH]; intros b n; cbn [qadd map wsum]; [ring|].
  destruct b as [|y b]; cbn [map wsum]; [ring|]. rewrite IH, Q2R_qplus. ring.
Qed.

Lemma wsum_scale T c a : forall n, wsum n (map Q2R (qscale c a)) T = Q2R c * wsum n (map Q2R a) T.
Proof.
  unfold qscale. induction a as [|x a IH]; intros n; cbn [map wsum]; [ring|]. rewrite IH, Q2R_mult. ring.
Qed.

(** T times the derivative of a polynomial in T, with absolute values. *)
Definition wsize (l : list Q) (T : R) : R := wsum 0 (map (fun q => Rabs (Q2R q)) l) T.

Lemma wsum_pos T l : 0 <= T -> forall n, 0 <= wsum n (map (fun q => Rabs (Q2R q)) l) T.
Proof.
  intros HT. induction l as [|a l IH]; intros n; cbn [map wsum]; [lra|].
  apply Rplus_le_le_0_compat; [apply Rmult_le_pos; [apply pos_INR|apply Rabs_pos]|apply Rmult_le_pos; [exact HT|apply IH]].
Qed.

Lemma wsize_add T a b : 0 <= T -> wsize (qadd a b) T <= wsize a T + wsize b T.
Proof.
  intros HT. unfold wsize. generalize 0%nat. revert b. induction a as [|x a IH]; intros b n; cbn [qadd].
  - cbn [map wsum]. lra.
  - destruct b as [|y b]; cbn [map wsum]; [lra|]. rewrite Q2R_qplus. specialize (IH b (S n)).
    pose proof (Rabs_triang (Q2R x) (Q2R y)) as R.
    apply (Rmult_le_compat_l (INR n) _ _ (pos_INR n)) in R.
    apply (Rmult_le_compat_l T) in IH; [|exact HT]. lra.
Qed.

Lemma wsize_scale T c a : wsize (qscale c a) T = Rabs (Q2R c) * wsize a T.
Proof.
  unfold wsize, qscale. generalize 0%nat. induction a as [|x a IH]; intros n; cbn [map wsum]; [ring|].
  rewrite IH, Q2R_mult, Rabs_mult. ring.
Qed.

Lemma near_wsum eps a : forall b s T n, near eps a b s = true -> 0 <= T ->
  Rabs (wsum n (map Q2R a) T - wsum n (map Q2R b) T) <= Q2R eps * wsum n (map (fun q => Rabs (Q2R q)) s) T.
Proof.
  induction a as [|x a IH]; intros b s T n; destruct b as [|y b], s as [|z s]; cbn [near map wsum]; try discriminate.
  - intros _ _. rewrite Rminus_0_r, Rabs_R0. lra.
  - intros H HT. apply andb_true_iff in H as [H1 H2]. specialize (IH b s T (S n) H2 HT).
    apply Qle_bool_iff, Qle_Rle in H1. rewrite Q2R_mult, !Q2R_abs, Q2R_qplus, Q2R_opp in H1.
    match goal with |- Rabs ?e <= _ => replace e with (INR n * (Q2R x + - Q2R y) +
      T * (wsum (S n) (map Q2R a) T - wsum (S n) (map Q2R b) T)) by ring end.
    eapply Rle_trans; [apply Rabs_triang|]. rewrite !Rabs_mult, (Rabs_pos_eq T HT), (Rabs_pos_eq _ (pos_INR n)).
    apply (Rmult_le_compat_l T) in IH; [|exact HT].
    apply (Rmult_le_compat_l (INR n) _ _ (pos_INR n)) in H1. lra.
Qed.

(** T times the derivative of a form. *)
Definition dlau (l : laurent) (T : R) : R := Q2R (l_log l) - Q2R (l_inv l) / T + wsum 0 (map Q2R (l_poly l)) T.

(** Sizes of its terms. *)
Definition dsize (l : laurent) (T : R) : R := Rabs (Q2R (l_log l)) + Rabs (Q2R (l_inv l)) / T + wsize (l_poly l) T.

Lemma dlau_add a b T : dlau (lau_add a b) T = dlau a T + dlau b T.
Proof. unfold dlau, lau_add. cbn [l_log l_inv l_poly]. rewrite !Q2R_qplus, wsum_add. unfold Rdiv. ring. Qed.

Lemma dlau_scale c a T : dlau (lau_scale c a) T = Q2R c * dlau a T.
Proof. unfold dlau, lau_scale. cbn [l_log l_inv l_poly]. rewrite !Q2R_mult, wsum_scale. unfold Rdiv. ring. Qed.

Lemma dsize_add a b T : 0 < T -> dsize (lau_add a b) T <= dsize a T + dsize b T.
Proof.
  intros HT. unfold dsize, lau_add. cbn [l_log l_inv l_poly]. rewrite !Q2R_qplus.
  pose proof (wsize_add T (l_poly a) (l_poly b) (Rlt_le _ _ HT)) as H.
  pose proof (Rabs_triang (Q2R (l_log a)) (Q2R (l_log b))) as H1.
  pose proof (Rabs_triang (Q2R (l_inv a)) (Q2R (l_inv b))) as H2.
  apply (Rmult_le_compat_r (/ T)) in H2; [|left; apply Rinv_0_lt_compat, HT]. unfold Rdiv. lra.
Qed.

Lemma dsize_scale c a T : dsize (lau_scale c a) T = Rabs (Q2R c) * dsize a T.
Proof. unfold dsize, lau_scale. cbn [l_log l_inv l_poly]. rewrite !Q2R_mult, !Rabs_mult, wsize_scale. unfold Rdiv. ring. Qed.

Lemma dlau_near eps a b s T : lau_near eps a b s = true -> 0 < T -> Rabs (dlau a T - dlau b T) <= Q2R eps * dsize s T.
Proof.
  unfold lau_near. intros H HT. apply andb_true_iff in H as [H H3]. apply andb_true_iff in H as [H1 H2].
  apply Qle_bool_iff, Qle_Rle in H1, H2. rewrite Q2R_mult, !Q2R_abs, Q2R_qplus, Q2R_opp in H1, H2.
  pose proof (near_wsum eps _ _ _ T 0 H3 (Rlt_le _ _ HT)) as H3'.
  unfold dlau, dsize, wsize.
  match goal with |- Rabs ?x <= _ =>
    replace x with ((Q2R (l_log a) + - Q2R (l_log b)) + (- ((Q2R (l_inv a) + - Q2R (l_inv b)) * / T) +
      (wsum 0 (map Q2R (l_poly a)) T - wsum 0 (map Q2R (l_poly b)) T))) by (unfold Rdiv; ring) end.
  eapply Rle_trans; [apply Rabs_triang|]. rewrite !Rmult_plus_distr_l, Rplus_assoc. apply Rplus_le_compat; [exact H1|].
  eapply Rle_trans; [apply Rabs_triang|]. apply Rplus_le_compat; [|exact H3'].
  rewrite Rabs_Ropp, Rabs_mult, (Rabs_pos_eq (/ T)) by (left; apply Rinv_0_lt_compat, HT). unfold Rdiv. rewrite <- Rmult_assoc.
  apply Rmult_le_compat_r; [left; apply Rinv_0_lt_compat, HT|exact H2].
Qed.

Lemma peval_derive l T : T <> 0 -> derivable_pt_lim (peval l) T (wsum 0 l T / T).
Proof.
  intros HT. induction l as [|a l IH].
  - cbn [wsum]. unfold Rdiv. rewrite Rmult_0_l. apply (derivable_pt_lim_const 0).
  - replace (wsum 0 (a :: l) T / T) with (0 + (1 * peval l T + T * (wsum 0 l T / T))).
    + apply (derivable_pt_lim_plus (fun _ => a) (fun x => x * peval l x)); [apply derivable_pt_lim_const|].
      apply (derivable_pt_lim_mult (fun x => x) (peval l)); [apply derivable_pt_lim_id|exact IH].
    + cbn [wsum]. rewrite wsum_S. cbn [INR]. field. exact HT.
Qed.

Lemma lau_derive l T : 0 < T -> derivable_pt_lim (lau_val l) T (dlau l T / T).
Proof.
  intros HT.
  replace (dlau l T / T) with (Q2R (l_log l) * / T + (0 * id T - 1 * Q2R (l_inv l)) / Rsqr (id T) + wsum 0 (map Q2R (l_poly l)) T / T).
  - apply (derivable_pt_lim_plus (fun x => Q2R (l_log l) * ln x + Q2R (l_inv l) / x) (qeval (l_poly l))).
    + apply (derivable_pt_lim_plus (fun x => Q2R (l_log l) * ln x) (fun x => Q2R (l_inv l) / x)).
      * apply (derivable_pt_lim_scal ln), derivable_pt_lim_ln, HT.
      * apply (derivable_pt_lim_div (fun _ => Q2R (l_inv l)) id); [apply derivable_pt_lim_const|apply derivable_pt_lim_id|].
        unfold id. lra.
    + apply peval_derive. lra.
  - unfold dlau, Rsqr, id. field. lra.
Qed.

Lemma exp_derive (c : R) l T : 0 < T ->
  derivable_pt_lim (fun t => c * exp (lau_val l t)) T (c * exp (lau_val l T) * dlau l T / T).
Proof.
  intros HT. replace (c * exp (lau_val l T) * dlau l T / T) with (c * (exp (lau_val l T) * (dlau l T / T))) by (unfold Rdiv; ring).
  apply (derivable_pt_lim_scal (fun t => exp (lau_val l t))).
  apply (derivable_pt_lim_comp (lau_val l) exp); [apply lau_derive, HT|apply derivable_pt_lim_exp].
Qed.

(** ** Gibbs functions and enthalpies *)

(** h/(R T) of species [k] (chem.cti). *)
Definition h_RT (m : mechanism) (T : R) (k : nat) : R := h_R (nasa_at (species_nasa m k) T) T / T.

(** Size of the terms of h/(R T) - 1. *)
Definition hs (a : nat -> R) (T : R) : R :=
  a 0%nat + 1 + a 1%nat / 2 * T + a 2%nat / 3 * T ^ 2 + a 3%nat / 4 * T ^ 3 + a 4%nat / 5 * T ^ 4 + a 5%nat / T.

(** The same for species [k]. *)
Definition h_size (m : mechanism) (T : R) (k : nat) : R := hs (nasa_abs (species_nasa m k) T) T.

Lemma h_size_pos m T k : 0 < T -> 1 <= h_size m T k.
Proof.
  intros HT. unfold h_size, hs.
  assert (P : forall i, 0 <= nasa_abs (species_nasa m k) T i) by (intros i; apply Rabs_pos).
  assert (Q : forall i (c : R) n, 0 <= c -> 0 <= nasa_abs (species_nasa m k) T i / c * T ^ n).
  { intros i c n Hc. apply Rmult_le_pos; [|apply pow_le; lra]. unfold Rdiv. apply Rmult_le_pos; [apply P|].
    destruct Hc as [Hc|<-]; [left; apply Rinv_0_lt_compat, Hc|rewrite Rinv_0; lra]. }
  pose proof (Q 1%nat 2 1%nat ltac:(lra)) as Q1. rewrite pow_1 in Q1.
  pose proof (Q 2%nat 3 2%nat ltac:(lra)). pose proof (Q 3%nat 4 3%nat ltac:(lra)). pose proof (Q 4%nat 5 4%nat ltac:(lra)).
  assert (0 <= nasa_abs (species_nasa m k) T 5 / T) by (apply Rmult_le_pos; [apply P|left; apply Rinv_0_lt_compat, HT]).
  pose proof (P 0%nat). lra.
Qed.

Lemma h_RT_size m T k : 0 < T -> Rabs (h_RT m T k - 1) <= h_size m T k.
Proof.
  intros HT. unfold h_RT, h_size, hs, h_R, nasa_abs. set (a := nasa_at (species_nasa m k) T).
  match goal with |- Rabs ?x <= _ => replace x with (a 0%nat + ((-1) + (a 1%nat / 2 * T + (a 2%nat / 3 * T ^ 2 + (a 3%nat / 4 * T ^ 3 +
    (a 4%nat / 5 * T ^ 4 + a 5%nat / T)))))) by (field; lra) end.
  assert (A : forall i (c : R) n, 0 < c -> Rabs (a i / c * T ^ n) = Rabs (a i) / c * T ^ n).
  { intros i c n Hc. unfold Rdiv. rewrite !Rabs_mult, (Rabs_pos_eq (/ c)), (Rabs_pos_eq (T ^ n)); [reflexivity|apply pow_le; lra|].
    left. apply Rinv_0_lt_compat, Hc. }
  rewrite <- (A 2%nat 3 2%nat), <- (A 3%nat 4 3%nat), <- (A 4%nat 5 4%nat) by lra.
  replace (Rabs (a 1%nat) / 2 * T) with (Rabs (a 1%nat / 2 * T)).
  2: { pose proof (A 1%nat 2 1%nat ltac:(lra)) as A1. rewrite pow_1 in A1. exact A1. }
  replace (Rabs (a 5%nat) / T) with (Rabs (a 5%nat / T)).
  2: { unfold Rdiv. rewrite Rabs_mult, (Rabs_pos_eq (/ T)); [reflexivity|left; apply Rinv_0_lt_compat, HT]. }
  assert (E1 : Rabs (-1) = 1) by (rewrite Rabs_left; lra).
  eapply Rle_trans; [apply Rabs_triang|]. rewrite !Rplus_assoc. apply Rplus_le_compat_l.
  eapply Rle_trans; [apply Rabs_triang|]. rewrite E1. apply Rplus_le_compat_l.
  do 4 (eapply Rle_trans; [apply Rabs_triang|apply Rplus_le_compat_l]). lra.
Qed.

Lemma g_lau_d a T : length a = 7%nat -> 0 < T ->
  dlau (g_lau a) T = 60 * (h_R (fun i => Q2R (nth i a 0%Q)) T / T - 1).
Proof.
  intros L HT. destruct (seven a L) as (a0 & a1 & a2 & a3 & a4 & a5 & a6 & ->). clear L.
  unfold dlau, g_lau, h_R. cbn [l_log l_inv l_poly map wsum nth].
  rewrite !Q2R_mult, !Q2R_qplus, Q2R_opp, Q2R_60, Q2R_m1.
  replace (Q2R (-60)) with (-60) by (unfold Q2R; cbn; lra).
  replace (Q2R 30) with 30 by (unfold Q2R; cbn; lra).
  replace (Q2R 10) with 10 by (unfold Q2R; cbn; lra).
  replace (Q2R 5) with 5 by (unfold Q2R; cbn; lra).
  replace (Q2R 3) with 3 by (unfold Q2R; cbn; lra).
  cbn [INR]. field. lra.
Qed.

Lemma g_scale_d a T : length a = 7%nat -> 0 < T ->
  dsize (g_scale a) T = 60 * hs (fun i => Rabs (Q2R (nth i a 0%Q))) T.
Proof.
  intros L HT. destruct (seven a L) as (a0 & a1 & a2 & a3 & a4 & a5 & a6 & ->). clear L.
  unfold dsize, g_scale, wsize, hs. cbn [l_log l_inv l_poly map wsum nth].
  assert (P : forall (x : R) q, 0 <= x -> Rabs (x * Rabs (Q2R q)) = x * Rabs (Q2R q)).
  { intros x q Hx. apply Rabs_pos_eq, Rmult_le_pos; [exact Hx|apply Rabs_pos]. }
  rewrite !Q2R_mult, !Q2R_qplus, !Q2R_abs, Q2R_60, Q2R_1.
  replace (Q2R 30) with 30 by (unfold Q2R; cbn; lra).
  replace (Q2R 10) with 10 by (unfold Q2R; cbn; lra).
  replace (Q2R 5) with 5 by (unfold Q2R; cbn; lra).
  replace (Q2R 3) with 3 by (unfold Q2R; cbn; lra).
  rewrite !P by lra.
  pose proof (Rabs_pos (Q2R a0)). pose proof (Rabs_pos (Q2R a6)).
  rewrite (Rabs_pos_eq (60 * (Rabs (Q2R a0) + 1))) by lra.
  cbn [INR]. field. lra.
Qed.

Lemma dB_lau_val a T : length a = 7%nat -> 0 < T ->
  lau_val (dB_lau a) T = 60 * (h_R (fun i => Q2R (nth i a 0%Q)) T / T - 1).
Proof.
  intros L HT. destruct (seven a L) as (a0 & a1 & a2 & a3 & a4 & a5 & a6 & ->). clear L.
  unfold lau_val, dB_lau, h_R, qeval. cbn [l_log l_inv l_poly map peval nth].
  rewrite !Q2R_mult, !Q2R_qplus, Q2R_60, Q2R_m1, Q2R_0.
  replace (Q2R 30) with 30 by (unfold Q2R; cbn; lra).
  replace (Q2R 20) with 20 by (unfold Q2R; cbn; lra).
  replace (Q2R 15) with 15 by (unfold Q2R; cbn; lra).
  replace (Q2R 12) with 12 by (unfold Q2R; cbn; lra).
  field. lra.
Qed.

Lemma dB_scale_val a T : length a = 7%nat -> 0 < T ->
  lau_size (dB_scale a) T = 60 * hs (fun i => Rabs (Q2R (nth i a 0%Q))) T.
Proof.
  intros L HT. destruct (seven a L) as (a0 & a1 & a2 & a3 & a4 & a5 & a6 & ->). clear L.
  unfold lau_size, dB_scale, qsize, hs. cbn [l_log l_inv l_poly map peval nth].
  assert (P : forall (x : R) q, 0 <= x -> Rabs (x * Rabs (Q2R q)) = x * Rabs (Q2R q)).
  { intros x q Hx. apply Rabs_pos_eq, Rmult_le_pos; [exact Hx|apply Rabs_pos]. }
  rewrite !Q2R_mult, !Q2R_qplus, !Q2R_abs, Q2R_60, Q2R_1, Q2R_0, Rabs_R0.
  replace (Q2R 30) with 30 by (unfold Q2R; cbn; lra).
  replace (Q2R 20) with 20 by (unfold Q2R; cbn; lra).
  replace (Q2R 15) with 15 by (unfold Q2R; cbn; lra).
  replace (Q2R 12) with 12 by (unfold Q2R; cbn; lra).
  rewrite !P by lra.
  pose proof (Rabs_pos (Q2R a0)).
  rewrite (Rabs_pos_eq (60 * (Rabs (Q2R a0) + 1))) by lra.
  field. lra.
Qed.

Lemma h_R_ext a b T : (forall i, (i < 7)%nat -> a i = b i) -> h_R a T = h_R b T.
Proof. intros E. unfold h_R. rewrite !E by lia. reflexivity. Qed.

Lemma hs_ext a b T : (forall i, (i < 7)%nat -> a i = b i) -> hs a T = hs b T.
Proof. intros E. unfold hs. rewrite !E by lia. reflexivity. Qed.

Lemma side_lau_d m r l T : 0 < T -> inside r T -> forall s, side_lau (common_all (nasa m)) g_lau r l = Some s ->
  dlau s T = 60 * side_sum l (fun k => h_RT m T k - 1).
Proof.
  intros HT HI. induction l as [|[k n] l IH]; intros s; cbn [side_lau].
  - intros [= <-]. unfold dlau, side_sum. cbn. rewrite Q2R_0. unfold Rdiv. ring.
  - destruct (nth_error (common_all (nasa m)) k) as [e|] eqn:E; [|discriminate].
    destruct (side_lau (common_all (nasa m)) g_lau r l) as [s'|]; [|discriminate].
    destruct (branch r e) as [a|] eqn:B; [|discriminate].
    destruct (length a =? 7)%nat eqn:L; [|discriminate].
    intros H. assert (H' : s = lau_add (lau_scale (inject_Z (Z.of_nat n)) (g_lau a)) s') by congruence. subst s. clear H.
    rewrite dlau_add, dlau_scale, Q2R_nat, (IH s' eq_refl).
    rewrite (g_lau_d a T) by (try apply Nat.eqb_eq; assumption).
    rewrite side_cons.
    replace (h_RT m T k) with (h_R (fun i => Q2R (nth i a 0%Q)) T / T); [ring|].
    unfold h_RT, species_nasa. f_equal. apply h_R_ext. intros i Hi. symmetry. apply (entry_val _ _ _ _ _ _ E B L HI i Hi).
Qed.

Lemma side_lau_dsize m r l T : 0 < T -> inside r T -> forall s, side_lau (common_all (nasa m)) g_scale r l = Some s ->
  dsize s T <= 60 * side_sum l (h_size m T).
Proof.
  intros HT HI. induction l as [|[k n] l IH]; intros s; cbn [side_lau].
  - intros [= <-]. unfold dsize, side_sum, wsize. cbn. rewrite Q2R_0, Rabs_R0. unfold Rdiv. lra.
  - destruct (nth_error (common_all (nasa m)) k) as [e|] eqn:E; [|discriminate].
    destruct (side_lau (common_all (nasa m)) g_scale r l) as [s'|]; [|discriminate].
    destruct (branch r e) as [a|] eqn:B; [|discriminate].
    destruct (length a =? 7)%nat eqn:L; [|discriminate].
    intros H. assert (H' : s = lau_add (lau_scale (inject_Z (Z.of_nat n)) (g_scale a)) s') by congruence. subst s. clear H.
    eapply Rle_trans; [apply dsize_add, HT|]. specialize (IH s' eq_refl).
    rewrite dsize_scale, Q2R_nat, (Rabs_pos_eq (INR n)) by apply pos_INR.
    rewrite (g_scale_d a T) by (try apply Nat.eqb_eq; assumption).
    rewrite side_cons.
    replace (h_size m T k) with (hs (fun i => Rabs (Q2R (nth i a 0%Q))) T); [lra|].
    unfold h_size, species_nasa. apply hs_ext. intros i Hi. unfold nasa_abs. f_equal. symmetry.
    apply (entry_val _ _ _ _ _ _ E B L HI i Hi).
Qed.
