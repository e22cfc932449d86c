(** Heat capacities are positive in the range of temperatures of the solver. *)
From Coq Require Import List ZArith NArith QArith Qabs Qminmax Qreals Reals Bool Lra Lia.
From Verif Require Import Outcome Arith MechLang MechSym MechSrc MechCall MechReal MechPoly MechChem Mechanisms
  MechSpec MechRate MechPmod MechConc MechRhs MechFacts MechThermo MechData MechExp MechLaurent MechNasa.
Import ListNotations.
Local Open Scope nat_scope.

(** Coefficients of p(a + s) as a polynomial in s. *)
Fixpoint shift (a : Q) (p : list Q) : list Q :=
  match p with
  | [] => []
  | c :: r => let s := shift a r in qadd [c] (qadd (qscale a s) (0%Q :: s))
  end.

Lemma shift_val a p s : qeval (shift a p) s = qeval p (Q2R a + s)%R.
Proof.
  induction p as [|c r IH]; [reflexivity|]. cbn [shift]. rewrite !qadd_val, qscale_val.
  unfold qeval at 1 3 4. cbn [map peval]. fold (qeval (shift a r) s). rewrite IH. fold (qeval r (Q2R a + s)%R). rewrite Q2R_0. ring.
Qed.

(** A lower bound of a polynomial on [0, w]. *)
Fixpoint low_bound (w : Q) (p : list Q) : Q :=
  match p with
  | [] => 0
  | c :: r => let l := low_bound w r in if (Qnum l <? 0)%Z then qplus c (w * l) else c
  end.

Lemma low_bound_val w p s : (0 <= s <= Q2R w)%R -> (Q2R (low_bound w p) <= qeval p s)%R.
Proof.
  intros Hs. induction p as [|c r IH]; unfold qeval in *; cbn [low_bound map peval]; [rewrite Q2R_0; lra|].
  destruct (Qnum (low_bound w r) <? 0)%Z eqn:E.
  - rewrite Q2R_qplus, Q2R_mult. apply Rplus_le_compat_l.
    assert (Q2R (low_bound w r) < 0)%R.
    { apply Z.ltb_lt in E. rewrite <- Q2R_0. apply Qlt_Rlt. unfold Qlt. cbn. lia. }
    apply Rle_trans with (s * Q2R (low_bound w r))%R; [|apply Rmult_le_compat_l; lra].
    apply Ropp_le_cancel. rewrite !Ropp_mult_distr_r. apply Rmult_le_compat_r; lra.
  - assert (0 <= Q2R (low_bound w r))%R.
    { apply Z.ltb_ge in E. rewrite <- Q2R_0. apply Qle_Rle. unfold Qle. cbn. lia. }
    assert (0 <= s * peval (map Q2R r) s)%R by (apply Rmult_le_pos; lra). lra.
Qed.

(** A polynomial is at least [c] on [a, b]: by halving the interval at most [n] times. *)
Fixpoint at_least (n : nat) (c : Q) (p : list Q) (a b : Q) : bool :=
  if Qle_bool c (low_bound (b - a) (shift a p)) then true else
  match n with
  | O => false
  | S i => let h := Qred ((a + b) / 2) in at_least i c p a h && at_least i c p h b
  end.

Lemma at_least_val n c p : forall a b T, at_least n c p a b = true -> (Q2R a <= T <= Q2R b)%R ->
  (Q2R c <= qeval p T)%R.
Proof.
  induction n as [|n IH]; intros a b T; cbn [at_least];
    destruct (Qle_bool c (low_bound (b - a) (shift a p))) eqn:E.
  1, 3: intros _ HT; apply Qle_bool_iff, Qle_Rle in E;
    pose proof (low_bound_val (b - a) (shift a p) (T - Q2R a)) as L; rewrite shift_val, Q2R_minus in L;
    replace (Q2R a + (T - Q2R a))%R with T in L by ring; specialize (L ltac:(lra)); lra.
  - discriminate.
  - intros H HT. apply andb_true_iff in H as [H1 H2]. set (h := Qred ((a + b) / 2)) in *.
    destruct (Rle_dec T (Q2R h)); [apply (IH a h T H1)|apply (IH h b T H2)]; lra.
Qed.

(** Limits of the temperature. *)
Definition Tlow : Q := 200.

(** Upper limit. *)
Definition Thigh : Q := 5000.

(** Sum of the absolute values of the terms at a rational temperature. *)
Fixpoint qsum (l : list Q) (t : Q) : Q := match l with [] => 0%Q | a :: r => qplus (Qabs a) (t * qsum r t) end.

Lemma qsum_val l t T : (0 <= T <= Q2R t)%R -> (qsize l T <= Q2R (qsum l t))%R.
Proof.
  intros HT. unfold qsize. induction l as [|a l IH]; cbn [map peval qsum]; [rewrite Q2R_0; lra|].
  rewrite Q2R_qplus, Q2R_mult, Q2R_abs. apply Rplus_le_compat_l.
  assert (0 <= peval (map (fun q => Rabs (Q2R q)) l) T)%R.
  { clear IH. induction l as [|b l IH]; cbn [map peval]; [lra|]. pose proof (Rabs_pos (Q2R b)).
    assert (0 <= T * peval (map (fun q => Rabs (Q2R q)) l) T)%R by (apply Rmult_le_pos; lra). lra. }
  apply Rmult_le_compat; lra.
Qed.

(** One polynomial on its part of the range. *)
Definition heat_ok (a : list Q) (lo hi : Q) : bool :=
  at_least 8 2.401 (cp_coeffs a) lo hi && Qle_bool (qsum (cp_coeffs a) Thigh) 1000000.

(** All species. *)
Definition heats_ok (m : mechanism) : bool :=
  forallb (fun n => (length (n_low n) =? 7) && (length (n_high n) =? 7) &&
    heat_ok (n_low n) Tlow (n_mid n) && heat_ok (n_high n) (n_mid n) Thigh) (nasa m) &&
  (length (nasa m) =? s_NSP (library m)).

Lemma heats_all m : heats_ok m = true.
Proof. destruct m; vm_compute; reflexivity. Qed.

Lemma heat_bound m k T : k < s_NSP (library m) -> (200 <= T <= 5000)%R ->
  (2401 / 1000 <= cp_R (nasa_at (species_nasa m k) T) T /\ cp_R (nasa_abs (species_nasa m k) T) T <= 1000000)%R.
Proof.
  intros Hk HT. pose proof (heats_all m) as H. apply andb_true_iff in H as [H L]. apply Nat.eqb_eq in L.
  rewrite forallb_forall in H. specialize (H (species_nasa m k) ltac:(apply nth_In; lia)).
  do 3 (apply andb_true_iff in H as [H ?]). apply Nat.eqb_eq in H, H2. rename H into L1, H2 into L2, H1 into A, H0 into B.
  assert (E1 : Q2R Tlow = 200%R) by (unfold Q2R; cbn; lra). assert (E2 : Q2R Thigh = 5000%R) by (unfold Q2R; cbn; lra).
  assert (E3 : Q2R 2.401 = (2401 / 1000)%R) by (unfold Q2R; cbn; lra).
  assert (E4 : Q2R 1000000 = 1000000%R) by (unfold Q2R; cbn; lra).
  assert (K : forall a lo hi, length a = 7 -> heat_ok a lo hi = true -> (Q2R lo <= T <= Q2R hi)%R ->
    (2401 / 1000 <= cp_R (fun i => Q2R (nth i a 0%Q)) T /\ cp_R (fun i => Rabs (Q2R (nth i a 0%Q))) T <= 1000000)%R).
  { intros a lo hi La O HI. unfold heat_ok in O. apply andb_true_iff in O as [O1 O2].
    destruct (cp_same a T La) as [C1 C2]. rewrite <- C1, <- C2. split.
    - rewrite <- E3. apply (at_least_val _ _ _ _ _ _ O1 HI).
    - eapply Rle_trans; [apply (qsum_val _ Thigh); lra|]. rewrite <- E4. apply Qle_Rle, Qle_bool_iff, O2. }
  unfold nasa_abs, nasa_at. destruct (Rle_dec T (Q2R (n_mid (species_nasa m k)))).
  - apply (K _ _ _ L1 A). lra.
  - apply (K _ _ _ L2 B). lra.
Qed.

Theorem cp_positive m (M : libm RA) (T : R) : (200 <= T <= 5000)%R -> exists cp : list R,
  lib_eval_cp M (library m) T = Ok cp /\ length cp = s_NSP (library m) /\
  forall k, k < s_NSP (library m) -> (0 < species_W m k /\ 2.4 * gas_constant / species_W m k <= nth k cp 0)%R.
Proof.
  intros HT. destruct (cp_value m M T ltac:(lra)) as (cp & E & L & V). exists cp. split; [exact E|]. split; [exact L|].
  intros k Hk. destruct (V k Hk) as [Wk B]. split; [exact Wk|].
  destruct (heat_bound m k T Hk HT) as [H1 H2]. pose proof (ratio_pos m k Wk) as P.
  set (c := (gas_constant / species_W m k)%R) in *. assert (B' := Rle_abs (- (nth k cp 0 - c * cp_R (nasa_at (species_nasa m k) T) T))%R). rewrite Rabs_Ropp in B'.
  assert (T4 : (Q2R tol <= / 1000000000)%R).
  { replace (/ 1000000000)%R with (Q2R 1e-9) by (unfold Q2R; cbn; lra). apply Qle_Rle. discriminate. }
  assert (T0 : (0 <= Q2R tol)%R) by (rewrite <- Q2R_0; apply Qle_Rle; discriminate).
  assert (X : (Q2R tol * (c * cp_R (nasa_abs (species_nasa m k) T) T) <= c * (1 / 1000))%R).
  { rewrite <- Rmult_assoc, (Rmult_comm (Q2R tol)), Rmult_assoc. apply Rmult_le_compat_l; [lra|].
    eapply Rle_trans; [apply Rmult_le_compat_l; [exact T0|exact H2]|]. lra. }
  assert (Y : (c * (2401 / 1000) <= c * cp_R (nasa_at (species_nasa m k) T) T)%R) by (apply Rmult_le_compat_l; lra).
  unfold Rdiv in c. fold c in Y. replace (2.4 * gas_constant / species_W m k)%R with (2.4 * c)%R by (unfold c, Rdiv; ring).
  lra.
Qed.

Theorem mean_cp_positive m (M : libm RA) (T : R) (y : list R) : (200 <= T <= 5000)%R ->
  length y = s_NSP (library m) - 1 -> (forall k, k < length y -> (0 <= nth k y 0)%R) -> (Rsum y <= 1)%R ->
  exists cp : list R, lib_eval_cp M (library m) T = Ok cp /\
  (0 < Rsumn (s_NSP (library m)) (fun k => nth k cp 0 * nth k (y ++ [1 - Rsum y]) 0))%R.
Proof.
  intros HT Ly Hy Hs. destruct (cp_positive m M T HT) as (cp & E & L & V). exists cp. split; [exact E|].
  assert (NS : 1 <= s_NSP (library m)) by (destruct m; cbn; lia).
  assert (Pk : forall k, k < s_NSP (library m) -> (0 < nth k cp 0)%R).
  { intros k Hk. destruct (V k Hk) as [Wk B]. pose proof (ratio_pos m k Wk) as P.
    replace (2.4 * gas_constant / species_W m k)%R with (2.4 * (gas_constant / species_W m k))%R in B by (unfold Rdiv; ring).
    lra. }
  set (z := y ++ [(1 - Rsum y)%R]) in *.
  assert (Lz : length z = s_NSP (library m)) by (unfold z; rewrite app_length; cbn; lia).
  assert (Hz : forall k, (0 <= nth k z 0)%R).
  { intros k. unfold z. destruct (Nat.lt_ge_cases k (length y)).
    - rewrite app_nth1 by assumption. apply Hy. assumption.
    - rewrite app_nth2 by assumption. destruct (k - length y) as [|[|]]; cbn; lra. }
  assert (Sz : Rsum z = 1%R) by (unfold z; rewrite Rsum_app; cbn; lra).
  assert (N : exists k, k < length z /\ (0 < nth k z 0)%R).
  { destruct (Exists_dec (fun x => 0 < x)%R z) as [X|X].
    - intros x. destruct (Rlt_dec 0 x); auto.
    - apply Exists_exists in X as (x & I & P). apply (In_nth _ _ 0%R) in I as (k & K1 & K2). exists k. rewrite K2. auto.
    - exfalso. assert (Z : Rsum z = 0%R); [|lra].
      rewrite <- (map_id z). apply Rsum_zero. intros x I.
      apply (In_nth _ _ 0%R) in I as (k & K1 & K2). specialize (Hz k). rewrite K2 in Hz.
      destruct (Req_dec x 0); [assumption|]. exfalso. apply X. apply Exists_exists. exists x. split; [|lra].
      rewrite <- K2. apply nth_In, K1. }
  destruct N as (k & K1 & K2). rewrite Lz in K1.
  apply Rlt_le_trans with (nth k cp 0 * nth k z 0)%R; [apply Rmult_lt_0_compat; [apply Pk, K1|exact K2]|].
  unfold Rsumn. replace (s_NSP (library m)) with (k + (1 + (s_NSP (library m) - k - 1))) by lia.
  rewrite !seq_app, !map_app, !Rsum_app. cbn [seq map Rsum plus].
  assert (G : forall l, (forall i, In i l -> i < s_NSP (library m)) -> (0 <= Rsum (map (fun k => nth k cp 0 * nth k z 0) l))%R).
  { intros l Hl. apply Rsum_nonneg. intros i Hi. apply Rmult_le_pos; [left; apply Pk, Hl, Hi|apply Hz]. }
  pose proof (G (seq 0 k)) as G1. pose proof (G (seq (k + 1) (s_NSP (library m) - k - 1))) as G2.
  specialize (G1 ltac:(intros i Hi; apply in_seq in Hi; lia)). specialize (G2 ltac:(intros i Hi; apply in_seq in Hi; lia)).
  lra.
Qed.

(** In a physical state the temperature changes by the heat released over density and heat capacity. *)
Theorem temperature_rate m : exists w, weights m w /\
  forall (M : libm RA) (p T : R) (y : list R), (200 <= T <= 5000)%R -> (0 < p)%R ->
  length y = s_NSP (library m) - 1 -> (forall k, k < length y -> (0 <= nth k y 0)%R) -> (Rsum y <= 1)%R ->
  exists (yN mw rho : R) (conc fwd rev pm sp : list R) (dyN : R) (cp h dy : list R),
    lib_eval_conc M (library m) T p y = Ok (yN, mw, rho, conc) /\
    lib_eval_rxn_rates M (library m) T p conc = Ok (fwd, rev) /\
    lib_get_rxn_pres_mod M (library m) T p conc = Ok pm /\
    lib_eval_spec_rates M (library m) fwd rev pm = Ok (sp, dyN) /\
    lib_eval_cp M (library m) T = Ok cp /\ lib_eval_h M (library m) T = Ok h /\
    lib_dydt M (library m) p (T :: y) = Ok dy /\
    (0 < rho)%R /\ (0 < Rsumn (s_NSP (library m)) (fun k => nth k cp 0 * nth k (y ++ [yN]) 0))%R /\
    (rho * Rsumn (s_NSP (library m)) (fun k => nth k cp 0 * nth k (y ++ [yN]) 0) * nth 0 dy 0 =
     - Rsumn (s_NSP (library m)) (fun k => w k * nth k (sp ++ [dyN]) 0 * nth k h 0))%R.
Proof.
  exists (W m). split; [apply weights_W|]. intros M p T y HT Hp Ly Hy Hs.
  destruct (right_hand_side M m p T y Ly) as (s & K & _ & G0).
  destruct K as ((yN & mw & K1 & KN) & _ & K3 & K4 & _ & _ & _ & K5 & _ & K6 & _ & K7 & _ & K8 & _).
  destruct (concentrations_nonneg M m p T y Ly ltac:(lra) Hp Hy Hs) as (yN' & mw' & rho & C & E & _ & Hr & _).
  rewrite K1 in E. injection E as _ _ Er _. rewrite <- Er in Hr.
  destruct (mean_cp_positive m M T y HT Ly Hy Hs) as (cp & Ec & Pc). rewrite K6 in Ec. injection Ec as <-. subst yN.
  exists (1 - Rsum y)%R, mw, (st_rho s), (st_conc s), (st_fwd s), (st_rev s), (st_pm s), (st_sp s), (st_dyN s), (st_cp s), (st_h s), (st_dy s).
  do 9 (split; [assumption|]).
  rewrite G0. unfold all_fractions. unfold Rdiv. field. split; lra.
Qed.
