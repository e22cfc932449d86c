(** [eval_jacob] of drm19: the columns of the species against derivatives.
    The definitions below are not functions of /repo. *)
From Coq Require Import List ZArith NArith QArith Qabs Qreals Reals Bool Lra Lia.
From Verif Require Import Outcome Arith MechLang MechSym MechSrc MechCall MechReal MechPoly MechChem Mechanisms
  MechSpec MechRate MechPmod MechThermo MechConc MechDydt MechRhs MechData MechExp MechLaurent MechNasa MechKin MechArr MechDefined
  MechJac MechJacT MechJacS MechJacD MechJacR MechJacE MechJacC MechJacW MechJacX MechFull MechFullT MechFullS MechFullD MechFullV MechFullR MechFullE.
Import ListNotations.
Local Open Scope R_scope.

(** ** Vocabulary *)

(** Size of the terms of the derivative of the rate of reaction [i] with respect to the mass fraction of species [j],
    with reverse rate constant [kr]. *)
Definition column_size (m : mechanism) (T p : R) (y : list R) (i j : nat) (kr : R) : R :=
  species_size m y i j (1 / specific_moles (library m) y) (density m T p y) (conc_of m T p y) (f_at m T p i y) (g_at m T p i y)
    (modifier m p y i T) (kf_of m T p i) kr 0 (third_of (rxn (chem m) i)).

(** Size of the part of it that contains the reverse rate constant. *)
Definition reverse_size (m : mechanism) (T p : R) (y : list R) (i j : nat) : R :=
  modifier m p y i T * (kr_at m T p i * direct_size m y j (side (rx_rhs (rxn (chem m) i))) (conc_of m T p y)).

(** Error of the contribution of a reaction. *)
Definition column_error (m : mechanism) (T p : R) (y : list R) (i j : nat) : R :=
  Q2R tolE * column_size m T p y i j ((1 + rev_gap m T i) * kr_at m T p i) + rev_gap m T i * reverse_size m T p y i j.

(** Size of the change of the density. *)
Definition dilution_size (m : mechanism) (T p : R) (y : list R) (i j : nat) : R :=
  (u_of m j + u_of m (s_NSP (library m) - 1)) / specific_moles (library m) y * Rabs (specific_rate m p y i T).

Lemma efficiency_nonneg m i k : 0 <= Q2R (efficiency (rxn (chem m) i) k).
Proof.
  assert (E : forallb (fun r => forallb (fun p => (0 <=? Qnum (snd p))%Z) (rx_eff r)) (ch_reactions (chem m)) = true)
    by (destruct m; vm_compute; reflexivity).
  unfold efficiency, rxn. rewrite forallb_forall in E.
  destruct (find (fun p => (fst p =? k)%nat) (rx_eff (nth i (ch_reactions (chem m)) (mkRx Elementary [] [] false [])))) as [q|] eqn:F.
  - apply find_some in F as [F _].
    destruct (Nat.lt_ge_cases i (length (ch_reactions (chem m)))) as [L|L].
    + specialize (E _ (nth_In _ (mkRx Elementary [] [] false []) L)). rewrite forallb_forall in E.
      specialize (E _ F). rewrite <- Q2R_0. apply Qle_Rle. unfold Qle. cbn. apply Z.leb_le in E. lia.
    + rewrite nth_overflow in F by exact L. destruct F.
  - rewrite Q2R_1. lra.
Qed.

Lemma direct_nonneg m y j l C : (j < s_NSP (library m))%nat -> (length y < s_NSP (library m))%nat -> (forall k, 0 <= nth k C 0) ->
  0 <= direct_size m y j l C /\ Rabs (direct_sum m y j l C) <= direct_size m y j l C.
Proof.
  intros Hj HN HC. pose proof (u_pos m j Hj) as U1. pose proof (u_pos m (length y) HN) as U2.
  assert (P : forall n, 0 <= INR (times n l) * Rprod (map (fun k => nth k C 0) (drop1 n l))).
  { intros n. apply Rmult_le_pos; [apply pos_INR|apply prod_nonneg, HC]. }
  unfold direct_size, direct_sum. pose proof (Rmult_le_pos _ _ (Rlt_le _ _ U1) (P j)) as Q1.
  pose proof (Rmult_le_pos _ _ (Rlt_le _ _ U2) (P (length y))) as Q2. split; [lra|]. apply Rabs_le. lra.
Qed.

Lemma rev_gap_nonneg m T i : 0 <= Kc_err m T (rxn (chem m) i) -> 0 <= rev_gap m T i.
Proof.
  intros H. unfold rev_gap. pose proof (exp_ineq1_le (2 * Kc_err m T (rxn (chem m) i))) as E. lra.
Qed.

(** A difference of reverse rate constants. *)
Lemma term_gap m y i j mw rho C f g q kf kr kr' x xy :
  species_term m y i j mw rho C f g q kf kr x xy - species_term m y i j mw rho C f g q kf kr' x xy =
  - (kr - kr') * (q * direct_sum m y j (side (rx_rhs (rxn (chem m) i))) C).
Proof. unfold species_term. ring. Qed.

Lemma size_mono m y i j mw rho C f g q kf kr kr' x xy : (j < s_NSP (library m))%nat -> (length y < s_NSP (library m))%nat ->
  (forall k, 0 <= nth k C 0) -> 0 <= q -> kr <= kr' ->
  species_size m y i j mw rho C f g q kf kr x xy <= species_size m y i j mw rho C f g q kf kr' x xy.
Proof.
  intros Hj HN HC Hq Hk. unfold species_size. apply Rplus_le_compat_l. apply Rmult_le_compat_l; [exact Hq|].
  apply Rplus_le_compat_l. apply Rmult_le_compat_r; [|exact Hk]. apply direct_nonneg; assumption.
Qed.

Lemma term_size m y i j mw rho C f g q kf kr x xy : (j < s_NSP (library m))%nat -> (length y < s_NSP (library m))%nat ->
  (forall k, 0 <= nth k C 0) -> 0 <= q -> 0 <= f -> 0 <= g -> 0 <= kf -> 0 <= kr -> 0 < mw -> 0 < rho ->
  Rabs (species_term m y i j mw rho C f g q kf kr x xy) <= species_size m y i j mw rho C f g q kf kr x xy.
Proof.
  intros Hj HN HC Hq Hf Hg Hkf Hkr Hm Hr. unfold species_term, species_size.
  pose proof (u_pos m j Hj) as U1. pose proof (u_pos m (length y) HN) as U2.
  assert (O : forall l, 0 <= order3 (rxn (chem m) i) l).
  { intros l. unfold order3. pose proof (pos_INR (molecules l)). destruct (rx_kind _); lra. }
  assert (EP : forall k r, 0 <= Q2R (efficiency (rxn (chem m) k) r)).
  { intros k r. apply efficiency_nonneg. }
  eapply Rle_trans; [apply Rabs_triang|]. apply Rplus_le_compat; [eapply Rle_trans; [apply Rabs_triang|]; apply Rplus_le_compat|].
  - rewrite Rabs_mult, Rabs_Ropp. unfold Rdiv. rewrite !Rabs_mult, (Rabs_pos_eq mw), (Rabs_pos_eq (/ rho)) by (try lra; left; apply Rinv_0_lt_compat, Hr).
    rewrite (Rabs_pos_eq q) by exact Hq.
    assert (PR : 0 < / rho) by (apply Rinv_0_lt_compat, Hr).
    apply Rmult_le_compat; try apply Rmult_le_pos; try apply Rmult_le_pos; try lra; try apply Rabs_pos.
    + apply Rmult_le_compat_r; [lra|]. apply Rmult_le_compat_l; [lra|]. apply Rabs_le. lra.
    + apply Rmult_le_compat_l; [lra|]. unfold Rminus. eapply Rle_trans; [apply Rabs_triang|]. rewrite Rabs_Ropp, !Rabs_mult, (Rabs_pos_eq f), (Rabs_pos_eq g) by assumption.
      apply Rplus_le_compat; (apply Rmult_le_compat_r; [assumption|]); (eapply Rle_trans; [apply Rabs_triang|]); (rewrite (Rabs_pos_eq (order3 _ _)) by apply O); lra.
  - rewrite !Rabs_mult. apply Rmult_le_compat; try apply Rmult_le_pos; try apply Rabs_pos; [|apply Rabs_le; lra].
    apply Rmult_le_compat_l; [apply Rabs_pos|]. unfold collider_slope, collider_size.
    pose proof (Rmult_le_pos _ _ (EP i j) (Rlt_le _ _ U1)). pose proof (Rmult_le_pos _ _ (EP i (length y)) (Rlt_le _ _ U2)). apply Rabs_le. lra.
  - rewrite Rabs_mult, (Rabs_pos_eq q) by exact Hq. apply Rmult_le_compat_l; [exact Hq|].
    unfold Rminus. eapply Rle_trans; [apply Rabs_triang|]. rewrite Rabs_Ropp, !Rabs_mult, (Rabs_pos_eq kf), (Rabs_pos_eq kr) by assumption.
    apply Rplus_le_compat; apply Rmult_le_compat_l; try assumption; apply direct_nonneg; assumption.
Qed.

(** ** The whole function *)

(** Contribution of a reaction to the column of species [j], with the change of the density. *)
Definition slope_of (m : mechanism) (T p : R) (y : list R) (i j : nat) (x : R) : R :=
  x * u_of m j + thinning m y j * specific_rate m p y i T.

Lemma involved_all m k (c : Q) (x : nat -> R) :
  Rsum (map (fun i => Q2R (net (rxn (chem m) i) k * c) * x i) (involved m k 0 (length (ch_reactions (chem m))))) =
  Q2R c * Rsumn (length (ch_reactions (chem m))) (fun i => nu (chem m) i k * x i).
Proof.
  unfold Rsumn. rewrite <- Rsum_scal. unfold involved. generalize (seq 0 (length (ch_reactions (chem m)))). intros l.
  induction l as [|i l IH]; [reflexivity|].
  cbn [filter map Rsum]. destruct (Qnum (net (rxn (chem m) i) k) =? 0)%Z eqn:Z; cbn [negb].
  - rewrite IH. unfold nu. rewrite (Qnum_0 _ Z). ring.
  - cbn [map Rsum]. rewrite IH. f_equal. unfold nu. rewrite Q2R_mult. ring.
Qed.

Lemma involved_abs m k (c : Q) (x : nat -> R) : 0 <= Q2R c ->
  Rsum (map (fun i => Rabs (Q2R (net (rxn (chem m) i) k * c)) * x i) (involved m k 0 (length (ch_reactions (chem m))))) =
  Q2R c * Rsumn (length (ch_reactions (chem m))) (fun i => Rabs (nu (chem m) i k) * x i).
Proof.
  intros Hc. unfold Rsumn. rewrite <- Rsum_scal. unfold involved. generalize (seq 0 (length (ch_reactions (chem m)))). intros l.
  induction l as [|i l IH]; [reflexivity|].
  cbn [filter map Rsum]. destruct (Qnum (net (rxn (chem m) i) k) =? 0)%Z eqn:Z; cbn [negb].
  - rewrite IH. unfold nu. rewrite (Qnum_0 _ Z), Rabs_R0. ring.
  - cbn [map Rsum]. rewrite IH. f_equal. unfold nu. rewrite Q2R_mult, Rabs_mult, (Rabs_pos_eq (Q2R c)) by exact Hc. ring.
Qed.

Lemma Rsum_Rabs {X} (f g : X -> R) l : Rabs (Rsum (map (fun x => f x * g x) l)) <= Rsum (map (fun x => Rabs (f x) * Rabs (g x)) l).
Proof.
  induction l as [|x l IH]; cbn [map Rsum]; [rewrite Rabs_R0; lra|].
  eapply Rle_trans; [apply Rabs_triang|]. rewrite Rabs_mult. lra.
Qed.

Lemma Rsum_below {X} (f g : X -> R) l : (forall x, In x l -> f x <= g x) -> Rsum (map f l) <= Rsum (map g l).
Proof.
  induction l as [|x l IH]; intros H; cbn [map Rsum]; [lra|].
  pose proof (H x (or_introl eq_refl)). pose proof (IH (fun z Hz => H z (or_intror Hz))). lra.
Qed.

Lemma entry_index m j k : (j < s_NSP (library m) - 1)%nat -> (k < s_NSP (library m) - 1)%nat ->
  (at_jk m (j + 1) (k + 1) < s_NSP (library m) * s_NSP (library m))%nat /\ at_jk m (j + 1) (k + 1) <> 0%nat.
Proof. intros Hj Hk. unfold at_jk. split; [|lia]. nia. Qed.

Lemma row_index m j : (j < s_NSP (library m) - 1)%nat ->
  (at_jk m (j + 1) 0 < s_NSP (library m) * s_NSP (library m))%nat /\ at_jk m (j + 1) 0 <> 0%nat.
Proof. intros Hj. unfold at_jk. split; nia. Qed.

Lemma jacobian_call m (F : jacobian_all) (T p : R) (y dB0 : list R) :
  full_all_ok m F = true -> ends_ok m F = true -> a_head F = j_head (jac_T m) ->
  length y = (s_NSP (library m) - 1)%nat -> 0 < T -> 0 < p -> (forall k, (k < length y)%nat -> 0 <= nth k y 0) -> Rsum y <= 1 ->
  length dB0 = s_NSP (library m) ->
  exists (J fwd rev pm sp dB h cp : list R) (rs : smem) (x : nat -> nat -> R),
    lib_jacob (A := RA) exact_libm (library m) F p (T :: y) (repeat 0 (s_NSP (library m) * s_NSP (library m))) dB0 = Ok J /\
    length J = (s_NSP (library m) * s_NSP (library m))%nat /\
    rate_state (library m) = Some rs /\
    lib_eval_rxn_rates (A := RA) exact_libm (library m) T p (conc_of m T p y) = Ok (fwd, rev) /\
    lib_get_rxn_pres_mod (A := RA) exact_libm (library m) T p (conc_of m T p y) = Ok pm /\
    lib_eval_h (A := RA) exact_libm (library m) T = Ok h /\ lib_eval_cp (A := RA) exact_libm (library m) T = Ok cp /\
    (forall j k, (j < s_NSP (library m) - 1)%nat -> (k < s_NSP (library m) - 1)%nat ->
       Rabs (entry m J j k - W m k * Rsumn (length (ch_reactions (chem m))) (fun i => nu (chem m) i k * slope_of m T p y i j (x i j))) <=
       Q2R tolE * (W m k * Rsumn (length (ch_reactions (chem m)))
         (fun i => Rabs (nu (chem m) i k) * (Rabs (x i j * u_of m j) + dilution_size m T p y i j)))) /\
    (forall i, (i < length (ch_reactions (chem m)))%nat ->
       column_of exact_libm m (inverse_weights (library m)) (common_all (nasa m)) rs T p (p / (gas_constant * T))
         (1 / specific_moles (library m) y) (density m T p y) (conc_of m T p y) fwd rev pm sp dB i (x i)) /\
    (forall j, (j < s_NSP (library m) - 1)%nat -> exists ws : nat -> R,
       (forall k, (k < s_NSP (library m))%nat -> Rabs (ws k - W m k) <= Q2R tolE * W m k) /\
       nth (at_jk m (j + 1) 0) J 0 =
       - Rsum (map (fun k => nth k h 0 * (entry m J j k / Rsumn (s_NSP (library m)) (fun k => nth k cp 0 * nth k (y ++ [1 - Rsum y]) 0) -
           (nth j cp 0 - nth (s_NSP (library m) - 1) cp 0) * Rsumn (length (ch_reactions (chem m))) (fun i => nu (chem m) i k * specific_rate m p y i T) * ws k /
           (Rsumn (s_NSP (library m)) (fun k => nth k cp 0 * nth k (y ++ [1 - Rsum y]) 0) * Rsumn (s_NSP (library m)) (fun k => nth k cp 0 * nth k (y ++ [1 - Rsum y]) 0)))) (active m))).
Proof.
  intros HF HE HH Ly HT Hp H1 H2 LB. pose proof (NSP_pos m) as HN.
  pose proof (specific_moles_positive m y Ly H1 H2) as HS.
  pose proof (density_pos m T p y HT Hp HS) as PD.
  destruct (conc_any m T p y Ly ltac:(lra)) as [E1 SC].
  pose proof (conc_of_length m T p y) as LC.
  destruct (rates_any m T p HT Hp y Ly HS) as (fwd & rev & pm & E2 & E3 & Lf & Lr & Lp & _).
  destruct (production exact_libm (library m) (chem m) fwd rev pm (spec_all m) Lf Lr Lp) as (sp & dyN & E4 & Lsp & Vsp).
  destruct (head_call m T p dB0 HT LB) as (dB & E5 & LdB & _).
  set (mm := p / (gas_constant * T)) in *. set (mw := 1 / specific_moles (library m) y) in *.
  set (rho := density m T p y) in *. set (C := conc_of m T p y) in *.
  assert (Lsp' : length (sp ++ [dyN]) = s_NSP (library m)).
  { rewrite app_length. cbn [length]. change (@length (num RA)) with (@length R) in *. lia. }
  unfold full_all_ok in HF. destruct (rate_state (library m)) as [rs|] eqn:Ers; [|discriminate].
  unfold ends_ok in HE. apply andb_true_iff in HE as [HE HE3]. apply andb_true_iff in HE as [HE1 HE2].
  set (n := s_NSP (library m)) in *.
  destruct (fulls_call exact_libm m (dydt_weights (library m) nitrogen) (inverse_weights (library m)) (common_all (nasa m)) rs T p mm mw rho
    C fwd rev pm (sp ++ [dyN]) dB LC Lf Lr Lp Lsp' LdB (a_parts F) 0 (repeat 0 (n * n))) as (jac & x & E6 & Lj & _ & Sj & Tj); try assumption.
  { apply repeat_length. }
  { intros j k _ _ _. unfold entry. apply nth_repeat. }
  destruct (eval_cp_defined exact_libm (library m) (library_all m) T) as (cp & E8 & Lcp).
  destruct (eval_h_defined exact_libm (library m) (library_all m) T) as (h & E7 & Lh).
  destruct (mid_call exact_libm m (a_mid F) T (1 - Rsum y) y cp jac HE1 Ly Lcp Lj) as (wt & jac1 & E9 & L1 & K1).
  set (cpa := Rsumn (s_NSP (library m)) (fun k => nth k cp 0 * nth k (y ++ [1 - Rsum y]) 0)) in *.
  destruct (species_call exact_libm m (a_species F) mw rho cpa (sp ++ [dyN]) h cp jac1 HE2 Lsp' Lh Lcp L1) as (jac2 & E10 & L2 & _ & K2 & R2).
  destruct (end_call exact_libm m (a_tail F) T (1 - Rsum y) rho cpa wt y (sp ++ [dyN]) h cp jac2 HE3 Ly Lsp' Lh Lcp L2) as (J & E11 & LJ & KJ).
  fold n in KJ, K1, K2, R2.
  exists J, fwd, rev, pm, (sp ++ [dyN]), dB, h, cp, rs, x.
  assert (SP : forall k, (k < n)%nat -> nth k (sp ++ [dyN]) 0 =
    rho * Rsumn (length (ch_reactions (chem m))) (fun i => nu (chem m) i k * specific_rate m p y i T)).
  { intros k Hk. eapply eq_trans; [exact (Vsp k Hk)|]. unfold Rsumn. rewrite <- Rsum_scal. apply Rsum_ext. intros i _.
    unfold specific_rate. rewrite E1. fold C. rewrite E2, E3. field. lra. }
  assert (KE : forall j k, (j < n - 1)%nat -> (k < n - 1)%nat -> entry m J j k = entry m jac2 j k).
  { intros j k Hj Hk. apply KJ; apply entry_index; assumption. }
  split.
  { unfold lib_jacob. cbn [idx nth_error bind skipn]. fold n in E1, E2, E3, E4.
    rewrite E1. cbn [bind]. rewrite E2. cbn [bind]. rewrite E3. cbn [bind]. rewrite E4. cbn [bind].
    rewrite HH. unfold lib_jac_head in E5 |- *. cbn [j_head]. rewrite E5. cbn [bind].
    eapply eq_trans; [eapply (f_equal (fun o => bind o _)); exact E6|]. cbn [bind]. rewrite E7. cbn [bind]. rewrite E8. cbn [bind].
    eapply eq_trans; [eapply (f_equal (fun o => bind o _)); exact E9|]. cbn [bind].
    eapply eq_trans; [eapply (f_equal (fun o => bind o _)); exact E10|]. cbn [bind only].
    eapply eq_trans; [eapply (f_equal (fun o => bind o _)); exact E11|]. reflexivity. }
  split; [exact LJ|]. split; [reflexivity|]. split; [exact E2|]. split; [exact E3|]. split; [exact E7|]. split; [exact E8|].
  split; [|split].
  - intros j k Hj Hk. rewrite (KE j k Hj Hk).
    specialize (Sj j k Hj Hk). rewrite Nat.sub_0_r in Sj.
    assert (Z0 : entry m (repeat 0 (n * n)) j k = 0) by (unfold entry; apply nth_repeat). rewrite Z0, Rplus_0_l in Sj.
    unfold contributions, contributions_abs in Sj.
    assert (PW : 0 < W m k) by (apply W_positive; lia).
    pose proof (u_pos m j ltac:(lia)) as U1. pose proof (u_pos m (n - 1) ltac:(lia)) as U2.
    set (nr := length (ch_reactions (chem m))) in *.
    assert (A1 : Rsum (map (fun i => Q2R (coef_j m (dydt_weights (library m) nitrogen) (inverse_weights (library m)) k i j) * x i j) (involved m k 0 nr)) =
      W m k * Rsumn nr (fun i => nu (chem m) i k * (x i j * u_of m j))).
    { unfold nr, W, weight. rewrite <- involved_all. apply Rsum_ext. intros i _. unfold coef_j, u_of. rewrite !Q2R_mult. ring. }
    assert (A2 : Rsum (map (fun i => Rabs (Q2R (coef_j m (dydt_weights (library m) nitrogen) (inverse_weights (library m)) k i j)) * Rabs (x i j)) (involved m k 0 nr)) =
      W m k * Rsumn nr (fun i => Rabs (nu (chem m) i k) * Rabs (x i j * u_of m j))).
    { unfold nr, W, weight. rewrite <- involved_abs by (left; exact PW). apply Rsum_ext. intros i _. unfold coef_j.
      rewrite !Q2R_mult. fold (u_of m j). rewrite !Rabs_mult, (Rabs_pos_eq (u_of m j)) by lra. ring. }
    rewrite A1, A2 in Sj. clear A1 A2.
    assert (N1 : entry m jac1 j k = entry m jac j k) by (apply K1; apply entry_index; assumption).
    set (Pk := Rsumn nr (fun i => nu (chem m) i k * specific_rate m p y i T)).
    assert (A3 : W m k * Rsumn nr (fun i => nu (chem m) i k * slope_of m T p y i j (x i j)) =
      W m k * Rsumn nr (fun i => nu (chem m) i k * (x i j * u_of m j)) + W m k * thinning m y j * Pk).
    { unfold slope_of, Pk, Rsumn. rewrite Rmult_assoc, <- Rmult_plus_distr_l. f_equal. rewrite <- Rsum_scal, <- Rsum_plus.
      apply Rsum_ext. intros i _. ring. }
    assert (A4 : W m k * Rsumn nr (fun i => Rabs (nu (chem m) i k) * (Rabs (x i j * u_of m j) + dilution_size m T p y i j)) =
      W m k * Rsumn nr (fun i => Rabs (nu (chem m) i k) * Rabs (x i j * u_of m j)) +
      W m k * ((u_of m j + u_of m (n - 1)) * mw) * Rsumn nr (fun i => Rabs (nu (chem m) i k) * Rabs (specific_rate m p y i T))).
    { unfold dilution_size, Rsumn. rewrite Rmult_assoc, <- Rmult_plus_distr_l. f_equal. rewrite <- Rsum_scal, <- Rsum_plus.
      apply Rsum_ext. intros i _. unfold mw. fold n. field. lra. }
    assert (A5 : Rabs Pk <= Rsumn nr (fun i => Rabs (nu (chem m) i k) * Rabs (specific_rate m p y i T))) by apply Rsum_Rabs.
    pose proof tolE_val as TE. rewrite A3, A4.
    assert (PM : 0 < mw) by (unfold mw; apply Rdiv_lt_0_compat; lra).
    assert (PU : 0 <= W m k * ((u_of m j + u_of m (n - 1)) * mw)) by (apply Rmult_le_pos; [lra|]; apply Rmult_le_pos; lra).
    set (X := W m k * Rsumn nr (fun i => nu (chem m) i k * (x i j * u_of m j))) in *.
    set (XA := W m k * Rsumn nr (fun i => Rabs (nu (chem m) i k) * Rabs (x i j * u_of m j))) in *.
    specialize (K2 j k Hj Hk). destruct (inert (chem m) k) eqn:IN.
    + assert (P0 : Pk = 0).
      { unfold Pk, nr. pose proof (inert_production (chem m) fwd rev pm k IN) as IP. rewrite <- Vsp in IP by lia.
        assert (IP' : nth k (sp ++ [dyN]) 0 = 0) by exact IP. rewrite SP in IP' by lia. apply Rmult_integral in IP' as [Z|Z]; [lra|exact Z]. }
      rewrite K2, N1, P0, Rmult_0_r, Rplus_0_r. rewrite P0, Rabs_R0 in A5.
      pose proof (Rmult_le_pos _ _ PU A5) as Q1. pose proof (Rmult_le_pos _ _ (proj1 TE) Q1) as Q2. lra.
    + destruct K2 as (d & K2 & Bd). rewrite K2, N1, SP by lia. fold nr. fold Pk.
      replace (rho * Pk * mw * d / rho) with (Pk * mw * d) by (field; lra).
      replace (thinning m y j) with (mw * (u_of m j - u_of m (n - 1))).
      2: { unfold thinning, moles_slope, mw. rewrite Ly. fold n. field. lra. }
      replace (entry m jac j k + Pk * mw * d - (X + W m k * (mw * (u_of m j - u_of m (n - 1))) * Pk))
        with ((entry m jac j k - X) + Pk * mw * (d - W m k * (u_of m j - u_of m (n - 1)))) by ring.
      eapply Rle_trans; [apply Rabs_triang|]. rewrite Rmult_plus_distr_l. apply Rplus_le_compat; [exact Sj|].
      rewrite !Rabs_mult, (Rabs_pos_eq mw) by lra.
      apply Rle_trans with (Rabs Pk * mw * (Q2R tolE * (W m k * (u_of m j + u_of m (n - 1))))).
      { apply Rmult_le_compat_l; [apply Rmult_le_pos; [apply Rabs_pos|lra]|exact Bd]. }
      replace (Rabs Pk * mw * (Q2R tolE * (W m k * (u_of m j + u_of m (n - 1))))) with (Q2R tolE * (W m k * ((u_of m j + u_of m (n - 1)) * mw) * Rabs Pk)) by ring.
      apply Rmult_le_compat_l; [lra|]. apply Rmult_le_compat_l; assumption.
  - intros i Hi. apply Tj. lia.
  - intros j Hj. destruct (R2 j Hj) as (ws & Bw & ER). exists ws. split; [exact Bw|].
    rewrite KJ by (apply row_index; exact Hj). rewrite ER. f_equal. apply Rsum_ext. intros k Hk.
    assert (Hk' : (k < n - 1)%nat) by (unfold active in Hk; apply filter_In in Hk as [Hk _]; apply in_seq in Hk; fold n in Hk; lia).
    rewrite (KE j k Hj Hk'), SP by lia. f_equal. f_equal.
    assert (D : forall a b c : R, a * (rho * b) * ws k / (rho * c * c) = a * b * ws k / (c * c)).
    { intros a b c. unfold Rdiv. rewrite !Rinv_mult. replace (a * (rho * b) * ws k * (/ rho * / c * / c)) with (a * b * ws k * (/ c * / c) * (rho * / rho)) by ring.
      rewrite Rinv_r by lra. ring. }
    apply D.
Qed.

(** ** Contributions of the reactions *)

Section Contributions.
  Variable m : mechanism.
  Variables T p : R.
  Variable y : list R.
  Notation S := (library m).
  Notation rxi i := (rxn (chem m) i).
  Hypothesis HT : 0 < T.
  Hypothesis Hp : 0 < p.
  Hypothesis Ly : length y = (s_NSP S - 1)%nat.
  Hypothesis H1 : forall k, (k < length y)%nat -> 0 <= nth k y 0.
  Hypothesis H2 : Rsum y <= 1.
  Hypothesis OK : shape_ok m = true.
  Notation term i j := (species_term m y i j (1 / specific_moles S y) (density m T p y) (conc_of m T p y) (f_at m T p i y) (g_at m T p i y)
         (modifier m p y i T) (kf_of m T p i)).
  Notation size i j := (species_size m y i j (1 / specific_moles S y) (density m T p y) (conc_of m T p y) (f_at m T p i y) (g_at m T p i y)
         (modifier m p y i T) (kf_of m T p i)).

  Lemma facts_at i : (i < length (ch_reactions (chem m)))%nat ->
    0 < kf_of m T p i /\ 0 <= kr_at m T p i /\ 0 <= f_at m T p i y /\ 0 <= g_at m T p i y /\ 0 <= modifier m p y i T /\
    0 < 1 / specific_moles S y /\ 0 < density m T p y /\
    specific_rate m p y i T = modifier m p y i T * (f_at m T p i y - g_at m T p i y) / density m T p y.
  Proof.
    intros Hi. pose proof (moles_pos m y Ly H1 H2) as HS.
    destruct (rates_any m T p HT Hp y Ly HS) as (fwd & rev & pm & _ & _ & _ & _ & _ & V).
    destruct (V i Hi) as (_ & _ & _ & VS & _ & P1 & P2 & _).
    destruct (rates_nonneg m T p y HT Hp Ly H1 H2 i Hi) as [Pf Pg].
    pose proof (modifier_nonneg m T p y HT Hp Ly H1 H2 i Hi) as Pq.
    repeat (split; [assumption|]). split; [apply Rdiv_lt_0_compat; lra|]. split; [apply density_pos; assumption|exact VS].
  Qed.

  Lemma column_bound (mm : R) (sp dB fwd rev pm : list R) (rs : smem) i x : (i < length (ch_reactions (chem m)))%nat ->
    rate_state S = Some rs ->
    lib_eval_rxn_rates (A := RA) exact_libm S T p (conc_of m T p y) = Ok (fwd, rev) ->
    lib_get_rxn_pres_mod (A := RA) exact_libm S T p (conc_of m T p y) = Ok pm ->
    column_of exact_libm m (inverse_weights S) (common_all (nasa m)) rs T p mm (1 / specific_moles S y) (density m T p y) (conc_of m T p y) fwd rev pm sp dB i x ->
    0 <= rev_gap m T i * kr_at m T p i /\
    exists (jac : list R) (X Y : expr) (X' XY : R),
      (rx_kind (rxi i) = Falloff -> xy_ok m i X Y = true) /\
      X' = x_of m i (rval exact_libm (env_all T p mm (1 / specific_moles S y) (density m T p y) (conc_of m T p y) fwd rev pm sp dB jac) X) /\
      XY = xy_val m i (rval exact_libm (env_all T p mm (1 / specific_moles S y) (density m T p y) (conc_of m T p y) fwd rev pm sp dB jac) X)
             (rval exact_libm (env_all T p mm (1 / specific_moles S y) (density m T p y) (conc_of m T p y) fwd rev pm sp dB jac) Y) /\
      forall j, (j < length y)%nat ->
        Rabs (x j * u_of m j - term i j (kr_at m T p i) X' XY) <=
        Q2R tolE * size i j ((1 + rev_gap m T i) * kr_at m T p i) X' XY + rev_gap m T i * reverse_size m T p y i j.
  Proof.
    intros Hi Ers E2 E3 CO. pose proof (NSP_pos m) as HN. pose proof tolE_val as TE.
    destruct (facts_at i Hi) as (P1 & P2 & Pf & Pg & Pq & Pm & Pr & _).
    pose proof (conc_of_nonneg m T p y HT Hp Ly H1 H2) as PC.
    destruct (column_val m T p y HT Hp Ly H1 H2 OK mm sp dB fwd rev pm rs Ers E2 E3 i x Hi CO) as (jac & X & Y & KR & HX & PK & GK & B).
    split; [eapply Rle_trans; [apply Rabs_pos|exact GK]|].
    exists jac, X, Y. do 2 eexists. split; [exact HX|]. split; [reflexivity|]. split; [reflexivity|]. intros j Hj. specialize (B j Hj).
    set (X' := x_of m i _) in *. set (XY := xy_val m i _ _) in *.
    pose proof (term_gap m y i j (1 / specific_moles S y) (density m T p y) (conc_of m T p y) (f_at m T p i y) (g_at m T p i y)
         (modifier m p y i T) (kf_of m T p i) KR (kr_at m T p i) X' XY) as TG.
    assert (KR <= (1 + rev_gap m T i) * kr_at m T p i) as KB by (revert GK; unfold Rabs; destruct Rcase_abs; lra).
    pose proof (size_mono m y i j (1 / specific_moles S y) (density m T p y) (conc_of m T p y) (f_at m T p i y) (g_at m T p i y)
         (modifier m p y i T) (kf_of m T p i) KR _ X' XY ltac:(lia) ltac:(lia) PC Pq KB) as SM.
    destruct (direct_nonneg m y j (side (rx_rhs (rxi i))) (conc_of m T p y) ltac:(lia) ltac:(lia) PC) as [D1 D2].
    replace (x j * u_of m j - term i j (kr_at m T p i) X' XY)
      with ((x j * u_of m j - term i j KR X' XY) + (term i j KR X' XY - term i j (kr_at m T p i) X' XY)) by ring.
    eapply Rle_trans; [apply Rabs_triang|]. apply Rplus_le_compat.
    - eapply Rle_trans; [exact B|]. apply Rmult_le_compat_l; [lra|exact SM].
    - rewrite TG, Rabs_mult, Rabs_Ropp, Rabs_mult, (Rabs_pos_eq _ Pq). unfold reverse_size.
      replace (rev_gap m T i * (modifier m p y i T * (kr_at m T p i * direct_size m y j (side (rx_rhs (rxi i))) (conc_of m T p y))))
        with (rev_gap m T i * kr_at m T p i * (modifier m p y i T * direct_size m y j (side (rx_rhs (rxi i))) (conc_of m T p y))) by ring.
      apply Rmult_le_compat; try apply Rabs_pos; [apply Rmult_le_pos; [exact Pq|apply Rabs_pos]|exact GK|].
      apply Rmult_le_compat_l; assumption.
  Qed.

  (** The size of the change of the density is at most that of the other terms. *)
  Lemma dilution_le i j x xy : (i < length (ch_reactions (chem m)))%nat -> (j < length y)%nat ->
    dilution_size m T p y i j <= size i j (kr_at m T p i) x xy.
  Proof.
    intros Hi Hj. destruct (facts_at i Hi) as (P1 & P2 & Pf & Pg & Pq & Pm & Pr & VS).
    destruct (shape_at m y Ly OK i Hi) as (_ & _ & ML & MR & _).
    pose proof (NSP_pos m) as HN. pose proof (u_pos m j ltac:(lia)) as U1. pose proof (u_pos m (length y) ltac:(lia)) as U2.
    pose proof (conc_of_nonneg m T p y HT Hp Ly H1 H2) as PC.
    assert (PR : 0 < / density m T p y) by (apply Rinv_0_lt_compat, Pr).
    assert (O : forall l, (1 <= molecules l)%nat -> 1 <= order3 (rxi i) l).
    { intros l Hl. unfold order3. apply le_INR in Hl. cbn [INR] in Hl. destruct (rx_kind _); lra. }
    unfold dilution_size. rewrite VS, <- Ly. unfold species_size.
    apply Rle_trans with (1 / specific_moles S y * (u_of m j + u_of m (length y)) / density m T p y *
      (modifier m p y i T * ((order3 (rxi i) (rx_lhs (rxi i)) + Rabs x) * f_at m T p i y + (order3 (rxi i) (rx_rhs (rxi i)) + Rabs x) * g_at m T p i y))).
    - unfold Rdiv at 2. rewrite !Rabs_mult, (Rabs_pos_eq _ Pq), (Rabs_pos_eq (/ density m T p y)) by lra.
      replace ((u_of m j + u_of m (length y)) / specific_moles S y * (modifier m p y i T * Rabs (f_at m T p i y - g_at m T p i y) * / density m T p y))
        with (1 / specific_moles S y * (u_of m j + u_of m (length y)) / density m T p y * (modifier m p y i T * Rabs (f_at m T p i y - g_at m T p i y)))
        by (field; split; [lra|pose proof (moles_pos m y Ly H1 H2); lra]).
      apply Rmult_le_compat_l.
      { apply Rmult_le_pos; [apply Rmult_le_pos; lra|lra]. }
      apply Rmult_le_compat_l; [exact Pq|]. apply Rle_trans with (f_at m T p i y + g_at m T p i y); [apply Rabs_le; lra|].
      pose proof (O _ ML) as O1. pose proof (O _ MR) as O2. pose proof (Rabs_pos x) as PX.
      apply Rplus_le_compat; [rewrite <- (Rmult_1_l (f_at m T p i y)) at 1|rewrite <- (Rmult_1_l (g_at m T p i y)) at 1]; apply Rmult_le_compat_r; lra.
    - destruct (direct_nonneg m y j (side (rx_rhs (rxi i))) (conc_of m T p y) ltac:(lia) ltac:(lia) PC) as [D1 _].
      destruct (direct_nonneg m y j (side (rx_lhs (rxi i))) (conc_of m T p y) ltac:(lia) ltac:(lia) PC) as [D2 _].
      assert (0 <= Rabs xy * collider_size m y j (rxi i) * (f_at m T p i y + g_at m T p i y)).
      { apply Rmult_le_pos; [|lra]. apply Rmult_le_pos; [apply Rabs_pos|]. unfold collider_size.
        pose proof (Rmult_le_pos _ _ (efficiency_nonneg m i j) (Rlt_le _ _ U1)). pose proof (Rmult_le_pos _ _ (efficiency_nonneg m i (length y)) (Rlt_le _ _ U2)). lra. }
      assert (0 <= modifier m p y i T * (kf_of m T p i * direct_size m y j (side (rx_lhs (rxi i))) (conc_of m T p y) + kr_at m T p i * direct_size m y j (side (rx_rhs (rxi i))) (conc_of m T p y))).
      { apply Rmult_le_pos; [exact Pq|]. pose proof (Rmult_le_pos _ _ (Rlt_le _ _ P1) D2). pose proof (Rmult_le_pos _ _ P2 D1). lra. }
      lra.
  Qed.
End Contributions.

(** ** Columns without fall-off reactions *)

(** Error of an element, per molecule. *)
Definition element_error (m : mechanism) (T p : R) (y : list R) (i j : nat) : R :=
  6 * Q2R tolE * column_size m T p y i j ((1 + rev_gap m T i) * kr_at m T p i) + 2 * rev_gap m T i * reverse_size m T p y i j.

Lemma dydt_at_any m (p : R) (y : list R) k t : length y = (s_NSP (library m) - 1)%nat -> (k < s_NSP (library m) - 1)%nat ->
  dydt_at m p y (k + 1) t = W m k * Rsumn (length (ch_reactions (chem m))) (fun i => nu (chem m) i k * specific_rate m p y i t).
Proof.
  intros Ly Hk.
  destruct (right_hand_side exact_libm m p t y Ly) as (s & K & Gk & _). pose proof (stages_rates s K k ltac:(lia)) as SR.
  destruct K as ((yN & mw & E1 & _) & LC & E2 & E3 & _ & _ & _ & _ & Lsp & _ & _ & _ & _ & E & _).
  unfold dydt_at. rewrite E. eapply eq_trans; [exact (Gk k Hk)|].
  rewrite app_nth1 in SR by (change (@length (num RA)) with (@length R) in *; lia).
  eapply eq_trans; [apply (f_equal (fun x => Rmult x _)); exact SR|]. unfold Rdiv. rewrite Rmult_comm, Rmult_assoc. f_equal. unfold Rsumn. rewrite <- Rsum_scal. apply Rsum_ext.
  intros i _. unfold specific_rate. rewrite E1, E2, E3. unfold Rdiv. ring.
Qed.

(** A species of a side other than [j] and other than the last one is absent. *)
Definition withheld (y : list R) (j : nat) (l : list (nat * nat)) : Prop :=
  exists s, In s l /\ (0 < snd s)%nat /\ fst s <> j /\ (fst s < length y)%nat /\ nth (fst s) y 0 = 0.

(** A reaction that does not run however the mass fraction of species [j] is changed. *)
Definition stuck (m : mechanism) (y : list R) (j i : nat) : Prop :=
  withheld y j (rx_lhs (rxn (chem m) i)) /\ (rx_rev (rxn (chem m) i) = true -> withheld y j (rx_rhs (rxn (chem m) i))).

Lemma withheld_conc m (T p : R) (y : list R) j l t : length y = (s_NSP (library m) - 1)%nat -> (j < length y)%nat -> withheld y j l ->
  exists k, In k (side l) /\ k <> j /\ k <> length y /\ nth k (conc_of m T p (upd y j t)) 0 = 0.
Proof.
  intros Ly Hj (s & I & P & N & B & Z). exists (fst s). split; [|split; [exact N|split; [lia|]]].
  - unfold side. apply in_flat_map. exists s. split; [exact I|]. destruct (snd s); [lia|]. left. reflexivity.
  - unfold conc_of. rewrite (nth_map_seq (fun k => density m T p (upd y j t) * nth k (all_fractions (upd y j t)) 0 * u_of m k)) by lia.
    rewrite fractions_upd by exact Hj. unfold ind. rewrite (proj2 (Nat.eqb_neq (fst s) j) N), (proj2 (Nat.eqb_neq (fst s) (length y))) by lia.
    unfold all_fractions. rewrite app_nth1, Z by exact B. ring.
Qed.

Lemma Rprod_hit (f : nat -> R) l k : In k l -> f k = 0 -> Rprod (map f l) = 0.
Proof. intros I Z. induction l as [|a l IH]; [destruct I|]. cbn [map Rprod]. destruct I as [->|I]; [rewrite Z; ring|rewrite IH by exact I; ring]. Qed.

Lemma drop1_keep j k l : In k l -> k <> j -> In k (drop1 j l).
Proof.
  intros I N. induction l as [|a l IH]; [destruct I|]. cbn [drop1]. destruct (Nat.eqb_spec a j) as [->|Na].
  - destruct I as [E|I]; [congruence|exact I].
  - destruct I as [E|I]; [left; exact E|right; apply IH, I].
Qed.

Lemma withheld_product m (T p : R) (y : list R) j l t : length y = (s_NSP (library m) - 1)%nat -> (j < length y)%nat -> withheld y j l ->
  conc_product (conc_of m T p (upd y j t)) l = 0.
Proof.
  intros Ly Hj H. destruct (withheld_conc m T p y j l t Ly Hj H) as (k & I & _ & _ & Z). rewrite conc_product_side.
  apply (Rprod_hit (fun k => nth k (conc_of m T p (upd y j t)) 0) _ k I Z).
Qed.

Lemma withheld_direct m (T p : R) (y : list R) j l : length y = (s_NSP (library m) - 1)%nat -> (j < length y)%nat -> withheld y j l ->
  direct_size m y j (side l) (conc_of m T p y) = 0 /\ direct_sum m y j (side l) (conc_of m T p y) = 0.
Proof.
  intros Ly Hj H. destruct (withheld_conc m T p y j l (nth j y 0) Ly Hj H) as (k & I & N1 & N2 & Z). rewrite upd_same in Z by exact Hj.
  pose proof (Rprod_hit (fun k => nth k (conc_of m T p y) 0) _ k (drop1_keep j k _ I N1) Z) as Z1.
  pose proof (Rprod_hit (fun k => nth k (conc_of m T p y) 0) _ k (drop1_keep (length y) k _ I N2) Z) as Z2.
  unfold direct_size, direct_sum. rewrite Z1, Z2. split; ring.
Qed.

Section Columns.
  Variable m : mechanism.
  Variable F : jacobian_all.
  Hypothesis CF : full_all_ok m F = true.
  Hypothesis CE : ends_ok m F = true.
  Hypothesis CH : a_head F = j_head (jac_T m).
  Hypothesis CS : shape_ok m = true.
  Notation S := (library m).
  Notation rxi i := (rxn (chem m) i).
  Notation nr := (length (ch_reactions (chem m))).

  (** [F] contains the rate of each reaction; the part without fall-off. *)
  Lemma plain_column (T p : R) (y : list R) (mm : R) (sp dB fwd rev pm : list R) (rs : smem) i x :
    length y = (s_NSP S - 1)%nat -> 0 < T -> 0 < p -> (forall k, (k < length y)%nat -> 0 <= nth k y 0) -> Rsum y <= 1 ->
    (i < nr)%nat -> rate_state S = Some rs ->
    lib_eval_rxn_rates (A := RA) exact_libm S T p (conc_of m T p y) = Ok (fwd, rev) ->
    lib_get_rxn_pres_mod (A := RA) exact_libm S T p (conc_of m T p y) = Ok pm ->
    column_of exact_libm m (inverse_weights S) (common_all (nasa m)) rs T p mm (1 / specific_moles S y) (density m T p y) (conc_of m T p y) fwd rev pm sp dB i x ->
    rx_kind (rxi i) <> Falloff -> forall j, (j < length y)%nat ->
    exists d, derivable_pt_lim (fun t => specific_rate m p (upd y j t) i T) (nth j y 0) d /\
      Rabs (slope_of m T p y i j (x j) - d) <= column_error m T p y i j /\
      Rabs (x j * u_of m j) <= column_size m T p y i j ((1 + rev_gap m T i) * kr_at m T p i) + column_error m T p y i j /\
      dilution_size m T p y i j <= column_size m T p y i j ((1 + rev_gap m T i) * kr_at m T p i) /\
      0 <= rev_gap m T i * reverse_size m T p y i j.
  Proof.
    intros Ly HT Hp H1 H2 Hi Ers E2 E3 CO NF j Hj. pose proof (NSP_pos m) as HN.
    destruct (facts_at m T p y HT Hp Ly H1 H2 i Hi) as (P1 & P2 & Pf & Pg & Pq & Pm & Pr & VS).
    destruct (shape_at m y Ly CS i Hi) as (RL & RR & _).
    pose proof (conc_of_nonneg m T p y HT Hp Ly H1 H2) as PC.
    destruct (column_bound m T p y HT Hp Ly H1 H2 CS mm sp dB fwd rev pm rs i x Hi Ers E2 E3 CO) as (PG & jac & X & Y & X' & XY & _ & EX & EY & B).
    specialize (B j Hj).
    assert (X0 : X' = 0) by (rewrite EX; unfold x_of; destruct (rx_kind (rxi i)); congruence).
    assert (XY0 : XY = third_of (rxi i)) by (rewrite EY; unfold xy_val, third_of; destruct (rx_kind (rxi i)); congruence).
    clear EX EY. subst X' XY.
    assert (KB : kr_at m T p i <= (1 + rev_gap m T i) * kr_at m T p i) by lra.
    pose proof (size_mono m y i j (1 / specific_moles S y) (density m T p y) (conc_of m T p y) (f_at m T p i y) (g_at m T p i y)
         (modifier m p y i T) (kf_of m T p i) _ _ 0 (third_of (rxi i)) ltac:(lia) ltac:(lia) PC Pq KB) as SM.
    eexists. split; [apply (plain_derive m T p y j HT Hp Ly (moles_pos m y Ly H1 H2) Hj i Hi RL RR NF)|].
    split; [|split; [|split]].
    - unfold slope_of, column_error, column_size. rewrite VS.
      match goal with |- Rabs ?a <= _ => match type of B with Rabs ?b <= _ => replace a with b; [exact B|] end end. unfold Rdiv. ring.
    - pose proof (term_size m y i j (1 / specific_moles S y) (density m T p y) (conc_of m T p y) (f_at m T p i y) (g_at m T p i y)
         (modifier m p y i T) (kf_of m T p i) (kr_at m T p i) 0 (third_of (rxi i)) ltac:(lia) ltac:(lia) PC Pq Pf Pg (Rlt_le _ _ P1) P2 Pm Pr) as TS.
      match type of B with Rabs (?a - ?b) <= _ => replace a with (b + (a - b)) by ring end.
      eapply Rle_trans; [apply Rabs_triang|]. apply Rplus_le_compat; [eapply Rle_trans; [exact TS|exact SM]|exact B].
    - eapply Rle_trans; [apply (dilution_le m T p y HT Hp Ly H1 H2 CS i j 0 (third_of (rxi i)) Hi Hj)|exact SM].
    - unfold reverse_size. destruct (direct_nonneg m y j (side (rx_rhs (rxi i))) (conc_of m T p y) ltac:(lia) ltac:(lia) PC) as [D1 _].
      replace (rev_gap m T i * (modifier m p y i T * (kr_at m T p i * direct_size m y j (side (rx_rhs (rxi i))) (conc_of m T p y))))
        with (rev_gap m T i * kr_at m T p i * (modifier m p y i T * direct_size m y j (side (rx_rhs (rxi i))) (conc_of m T p y))) by ring.
      apply Rmult_le_pos; [exact PG|]. apply Rmult_le_pos; assumption.
  Qed.

  (** The same for a reaction that does not run. *)
  Lemma stuck_column (T p : R) (y : list R) (mm : R) (sp dB fwd rev pm : list R) (rs : smem) i x j :
    length y = (s_NSP S - 1)%nat -> 0 < T -> 0 < p -> (forall k, (k < length y)%nat -> 0 <= nth k y 0) -> Rsum y <= 1 ->
    (i < nr)%nat -> rate_state S = Some rs ->
    lib_eval_rxn_rates (A := RA) exact_libm S T p (conc_of m T p y) = Ok (fwd, rev) ->
    lib_get_rxn_pres_mod (A := RA) exact_libm S T p (conc_of m T p y) = Ok pm ->
    column_of exact_libm m (inverse_weights S) (common_all (nasa m)) rs T p mm (1 / specific_moles S y) (density m T p y) (conc_of m T p y) fwd rev pm sp dB i x ->
    (j < length y)%nat -> stuck m y j i ->
    exists d, derivable_pt_lim (fun t => specific_rate m p (upd y j t) i T) (nth j y 0) d /\
      Rabs (slope_of m T p y i j (x j) - d) <= column_error m T p y i j /\
      Rabs (x j * u_of m j) <= column_size m T p y i j ((1 + rev_gap m T i) * kr_at m T p i) + column_error m T p y i j /\
      dilution_size m T p y i j <= column_size m T p y i j ((1 + rev_gap m T i) * kr_at m T p i) /\
      0 <= rev_gap m T i * reverse_size m T p y i j.
  Proof.
    intros Ly HT Hp H1 H2 Hi Ers E2 E3 CO Hj [SL SR]. pose proof (NSP_pos m) as HN.
    destruct (facts_at m T p y HT Hp Ly H1 H2 i Hi) as (P1 & P2 & Pf & Pg & Pq & Pm & Pr & VS).
    destruct (column_bound m T p y HT Hp Ly H1 H2 CS mm sp dB fwd rev pm rs i x Hi Ers E2 E3 CO) as (PG & jac & X & Y & X' & XY & _ & _ & _ & B).
    specialize (B j Hj).
    assert (Zf : forall t, f_at m T p i (upd y j t) = 0) by (intros t; unfold f_at; rewrite (withheld_product m T p y j _ t Ly Hj SL); ring).
    assert (Zg : forall t, g_at m T p i (upd y j t) = 0).
    { intros t. unfold g_at. destruct (rx_rev (rxi i)) eqn:Rv; [rewrite (withheld_product m T p y j _ t Ly Hj (SR eq_refl)); ring|]. unfold kr_at. rewrite Rv. ring. }
    destruct (withheld_direct m T p y j _ Ly Hj SL) as [L1 L2].
    assert (KR : kr_at m T p i * direct_size m y j (side (rx_rhs (rxi i))) (conc_of m T p y) = 0 /\
                 kr_at m T p i * direct_sum m y j (side (rx_rhs (rxi i))) (conc_of m T p y) = 0).
    { destruct (rx_rev (rxi i)) eqn:Rv; [|unfold kr_at; rewrite Rv; split; ring].
      destruct (withheld_direct m T p y j _ Ly Hj (SR eq_refl)) as [R1 R2]. rewrite R1, R2. split; ring. }
    destruct KR as [K1 K2]. pose proof (Zf (nth j y 0)) as F0. pose proof (Zg (nth j y 0)) as G0. rewrite upd_same in F0, G0 by exact Hj.
    assert (RS : reverse_size m T p y i j = 0) by (unfold reverse_size; rewrite K1; ring).
    assert (SZ : forall xx xy, species_size m y i j (1 / specific_moles S y) (density m T p y) (conc_of m T p y) (f_at m T p i y) (g_at m T p i y)
      (modifier m p y i T) (kf_of m T p i) ((1 + rev_gap m T i) * kr_at m T p i) xx xy = 0).
    { intros xx xy. unfold species_size. rewrite F0, G0, L1, (Rmult_assoc (1 + rev_gap m T i)), K1. unfold Rdiv. ring. }
    assert (TZ : forall xx xy, species_term m y i j (1 / specific_moles S y) (density m T p y) (conc_of m T p y) (f_at m T p i y) (g_at m T p i y)
      (modifier m p y i T) (kf_of m T p i) (kr_at m T p i) xx xy = 0).
    { intros xx xy. unfold species_term. rewrite F0, G0, L2, K2. unfold Rdiv. ring. }
    rewrite SZ, TZ, RS, !Rmult_0_r, Rplus_0_r, Rminus_0_r in B.
    assert (X0 : x j * u_of m j = 0) by (revert B; unfold Rabs; destruct (Rcase_abs _); lra).
    assert (S0 : specific_rate m p y i T = 0) by (rewrite VS, F0, G0; unfold Rdiv; ring).
    assert (CE0 : column_error m T p y i j = 0) by (unfold column_error, column_size; rewrite SZ, RS; ring).
    unfold column_size. rewrite CE0, SZ, RS. exists 0. split; [|split; [|split; [|split]]].
    - destruct (near_moles m y j Ly (moles_pos m y Ly H1 H2) Hj) as (lo & hi & Hlh & NM).
      apply (derivable_pt_lim_locally_ext (fun _ => 0) _ (nth j y 0) lo hi); [exact Hlh| |apply derivable_pt_lim_const].
      intros t Ht. destruct (rates_any m T p HT Hp (upd y j t) ltac:(rewrite upd_length; exact Ly) (NM t Ht)) as (f' & r' & p' & _ & _ & _ & _ & _ & V).
      destruct (V i Hi) as (_ & _ & _ & V4 & _). rewrite V4, Zf, Zg. unfold Rdiv. ring.
    - unfold slope_of. rewrite X0, S0. replace (0 + thinning m y j * 0 - 0) with 0 by ring. rewrite Rabs_R0. lra.
    - rewrite X0, Rabs_R0. lra.
    - unfold dilution_size. rewrite S0, Rabs_R0. lra.
    - lra.
  Qed.

  Theorem species_columns (T p : R) (y dB0 : list R) :
    length y = (s_NSP S - 1)%nat -> 0 < T -> 0 < p -> (forall k, (k < length y)%nat -> 0 <= nth k y 0) -> Rsum y <= 1 ->
    length dB0 = s_NSP S ->
    exists J : list R,
      lib_jacob (A := RA) exact_libm S F p (T :: y) (repeat 0 (s_NSP S * s_NSP S)) dB0 = Ok J /\
      length J = (s_NSP S * s_NSP S)%nat /\
      forall j k, (j < s_NSP S - 1)%nat -> (k < s_NSP S - 1)%nat ->
        (forall i, (i < nr)%nat -> rx_kind (rxi i) = Falloff -> nu (chem m) i k = 0 \/ stuck m y j i) ->
        exists D, derivable_pt_lim (fun t => dydt_at m p (upd y j t) (k + 1) T) (nth j y 0) D /\
          Rabs (nth ((j + 1) * s_NSP S + (k + 1)) J 0 - D) <= W m k * Rsumn nr (fun i => Rabs (nu (chem m) i k) * element_error m T p y i j).
  Proof.
    intros Ly HT Hp H1 H2 LB. pose proof tolE_val as TE.
    destruct (jacobian_call m F T p y dB0 CF CE CH Ly HT Hp H1 H2 LB) as (J & fwd & rev & pm & sp & dB & h & cp & rs & x & EJ & LJ & Ers & E2 & E3 & _ & _ & B & CO & _).
    exists J. split; [exact EJ|]. split; [exact LJ|]. intros j k Hj Hk NF. specialize (B j k Hj Hk).
    assert (PW : 0 < W m k) by (apply W_positive; lia).
    assert (PC : forall i, (i < nr)%nat -> nu (chem m) i k <> 0 ->
      exists d, derivable_pt_lim (fun t => specific_rate m p (upd y j t) i T) (nth j y 0) d /\
      Rabs (slope_of m T p y i j (x i j) - d) <= column_error m T p y i j /\
      Rabs (x i j * u_of m j) <= column_size m T p y i j ((1 + rev_gap m T i) * kr_at m T p i) + column_error m T p y i j /\
      dilution_size m T p y i j <= column_size m T p y i j ((1 + rev_gap m T i) * kr_at m T p i) /\
      0 <= rev_gap m T i * reverse_size m T p y i j).
    { intros i Hi Z. destruct (rx_kind (rxi i)) eqn:Kf.
      all: try (apply (plain_column T p y (p / (gas_constant * T)) sp dB fwd rev pm rs i (x i) Ly HT Hp H1 H2 Hi Ers E2 E3 (CO i Hi)); [congruence|lia]).
      destruct (NF i Hi Kf) as [Z'|ST]; [contradiction|].
      apply (stuck_column T p y (p / (gas_constant * T)) sp dB fwd rev pm rs i (x i) j Ly HT Hp H1 H2 Hi Ers E2 E3 (CO i Hi)); [lia|exact ST]. }
    destruct (sum_derive (fun i => nu (chem m) i k) (fun i t => specific_rate m p (upd y j t) i T) (fun i => slope_of m T p y i j (x i j))
      (fun i => column_error m T p y i j) (nth j y 0) (seq 0 nr)) as (D & DD & BD).
    { intros i Hi Z. apply in_seq in Hi. destruct (PC i ltac:(lia) Z) as (d & Dd & Bd & _). exists d. split; assumption. }
    exists (W m k * D). split.
    - apply (derivable_pt_lim_ext (mult_real_fct (W m k) (fun t => Rsum (map (fun i => nu (chem m) i k * specific_rate m p (upd y j t) i T) (seq 0 nr))))).
      { intros t. unfold mult_real_fct. rewrite dydt_at_any; [reflexivity|rewrite upd_length; exact Ly|exact Hk]. }
      apply derivable_pt_lim_scal, DD.
    - change (nth ((j + 1) * s_NSP S + (k + 1)) J 0) with (entry m J j k).
      set (SL := Rsumn nr (fun i => nu (chem m) i k * slope_of m T p y i j (x i j))) in *.
      replace (entry m J j k - W m k * D) with ((entry m J j k - W m k * SL) + W m k * (SL - D)) by ring.
      eapply Rle_trans; [apply Rabs_triang|]. rewrite (Rabs_mult (W m k)), (Rabs_pos_eq (W m k)) by lra.
      apply Rle_trans with (W m k * (Q2R tolE * Rsumn nr (fun i => Rabs (nu (chem m) i k) * (Rabs (x i j * u_of m j) + dilution_size m T p y i j)) +
         Rsumn nr (fun i => Rabs (nu (chem m) i k) * column_error m T p y i j))).
      { rewrite Rmult_plus_distr_l. apply Rplus_le_compat; [eapply Rle_trans; [exact B|]; right; ring|]. apply Rmult_le_compat_l; [lra|exact BD]. }
      apply Rmult_le_compat_l; [lra|]. unfold Rsumn. rewrite <- Rsum_scal, <- Rsum_plus. apply Rsum_below. intros i Hi. apply in_seq in Hi.
      destruct (Req_dec (nu (chem m) i k) 0) as [Z|Z]; [rewrite Z, Rabs_R0; lra|].
      destruct (PC i ltac:(lia) Z) as (d & _ & _ & B1 & B2 & B3). rewrite <- (Rmult_assoc (Q2R tolE)), (Rmult_comm (Q2R tolE)), Rmult_assoc, <- Rmult_plus_distr_l.
      apply Rmult_le_compat_l; [apply Rabs_pos|]. unfold element_error, column_error in *.
      set (c := column_size m T p y i j ((1 + rev_gap m T i) * kr_at m T p i)) in *. set (g := rev_gap m T i * reverse_size m T p y i j) in *.
      replace (2 * rev_gap m T i * reverse_size m T p y i j) with (2 * g) by (unfold g; ring).
      assert (c0 : 0 <= c).
      { eapply Rle_trans; [|exact B2]. unfold dilution_size. apply Rmult_le_pos; [|apply Rabs_pos]. pose proof (NSP_pos m) as HN.
        pose proof (u_pos m j ltac:(lia)). pose proof (u_pos m (s_NSP S - 1) ltac:(lia)). apply Rmult_le_pos; [lra|]. left. apply Rinv_0_lt_compat, (moles_pos m y Ly H1 H2). }
      assert (Q2R tolE * (Rabs (x i j * u_of m j) + dilution_size m T p y i j) <= Q2R tolE * (c + (Q2R tolE * c + g) + c)) by (apply Rmult_le_compat_l; lra).
      pose proof (Rmult_le_pos _ _ (proj1 TE) c0) as Q1.
      assert (Q2R tolE * (Q2R tolE * c) <= 1 / 2 * (Q2R tolE * c)) by (apply Rmult_le_compat_r; lra).
      assert (Q2R tolE * g <= 1 / 2 * g) by (apply Rmult_le_compat_r; lra). lra.
  Qed.
End Columns.

(** The vocabulary is not vacuous: the checks hold of drm19. *)
Theorem species_columns_drm19 (T p : R) (y dB0 : list R) :
  length y = 20%nat -> 0 < T -> 0 < p -> (forall k, (k < length y)%nat -> 0 <= nth k y 0) -> Rsum y <= 1 -> length dB0 = 21%nat ->
  exists J : list R,
    lib_jacob (A := RA) exact_libm (library drm19) drm19_jac_all p (T :: y) (repeat 0 (21 * 21)) dB0 = Ok J /\
    length J = (21 * 21)%nat /\
    forall j k, (j < 20)%nat -> (k < 20)%nat ->
      (forall i, (i < length (ch_reactions (chem drm19)))%nat -> rx_kind (rxn (chem drm19) i) = Falloff -> nu (chem drm19) i k = 0 \/ stuck drm19 y j i) ->
      exists D, derivable_pt_lim (fun t => dydt_at drm19 p (upd y j t) (k + 1) T) (nth j y 0) D /\
        Rabs (nth ((j + 1) * 21 + (k + 1)) J 0 - D) <=
        W drm19 k * Rsumn (length (ch_reactions (chem drm19))) (fun i => Rabs (nu (chem drm19) i k) * element_error drm19 T p y i j).
Proof. exact (species_columns drm19 drm19_jac_all full_all ends_drm19 eq_refl shape_drm19 T p y dB0). Qed.
