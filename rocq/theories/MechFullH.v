(** [eval_jacob] of drm19: the row of the temperature and the columns of the species together.
    The definitions below are not functions of /repo. *)
From Coq Require Import List ZArith NArith QArith Qabs Qreals Reals Bool Lra Lia.
From Verif Require Import Outcome Arith MechLang MechSym MechSrc MechCall MechReal MechPoly MechChem Mechanisms
  MechSpec MechRate MechPmod MechThermo MechConc MechDydt MechRhs MechData MechExp MechLaurent MechNasa MechKin MechArr MechTroe MechDefined
  MechJac MechJacT MechJacS MechJacD MechJacR MechJacE MechJacF MechJacC MechJacW MechJacX MechFull MechFullT MechFullS MechFullD MechFullV MechFullR MechFullE MechFullC MechFullF.
Import ListNotations.
Local Open Scope R_scope.

Lemma capacity_upd m (y : list R) j (T t : R) : length y = (s_NSP (library m) - 1)%nat -> (j < length y)%nat ->
  mean_capacity m (upd y j t) T = mean_capacity m y T + (t - nth j y 0) * (capacity m j T - capacity m (length y) T).
Proof.
  intros Ly Hj. pose proof (NSP_pos m) as HN. unfold mean_capacity.
  rewrite (Rsumn_ext _ _ (fun k => capacity m k T * nth k (all_fractions y) 0 +
    (t - nth j y 0) * (capacity m k T * ind k j - capacity m k T * ind k (length y)))).
  2: { intros k _. rewrite fractions_upd by exact Hj. ring. }
  unfold Rsumn. rewrite Rsum_plus. f_equal. rewrite Rsum_scal. f_equal. rewrite Rsum_minus. f_equal.
  - change (Rsumn (s_NSP (library m)) (fun k => capacity m k T * ind k j) = capacity m j T). rewrite (Rsumn_one _ _ j).
    + unfold ind. rewrite Nat.eqb_refl. ring.
    + lia.
    + intros k _ Hk. unfold ind. rewrite (proj2 (Nat.eqb_neq k j) Hk). ring.
  - change (Rsumn (s_NSP (library m)) (fun k => capacity m k T * ind k (length y)) = capacity m (length y) T). rewrite (Rsumn_one _ _ (length y)).
    + unfold ind. rewrite Nat.eqb_refl. ring.
    + lia.
    + intros k _ Hk. unfold ind. rewrite (proj2 (Nat.eqb_neq k (length y)) Hk). ring.
Qed.

(** Size of the rounding errors of the row of the temperature. *)
Definition row_size (m : mechanism) (p : R) (y : list R) (j : nat) (T : R) : R :=
  Rabs (capacity m j T - capacity m (length y) T) *
  Rsumn (s_NSP (library m) - 1) (fun k => Rabs (species_rate m p y k T * enthalpy m k T)).

Lemma inert_rate m (p : R) (y : list R) k t : inert (chem m) k = true -> species_rate m p y k t = 0.
Proof.
  intros H. unfold species_rate. replace (Rsumn _ _) with 0; [ring|]. symmetry. apply Rsum_zero. intros i Hi. apply in_seq in Hi.
  unfold inert in H. rewrite forallb_forall in H. specialize (H (rxn (chem m) i) ltac:(apply nth_In; lia)).
  unfold nu. apply Qeq_bool_eq, Qeq_eqR in H. rewrite H, Q2R_0. ring.
Qed.

Lemma inert_nu m i k : inert (chem m) k = true -> (i < length (ch_reactions (chem m)))%nat -> nu (chem m) i k = 0.
Proof.
  intros H Hi. unfold inert in H. rewrite forallb_forall in H. specialize (H (rxn (chem m) i) ltac:(apply nth_In; lia)).
  unfold nu. apply Qeq_bool_eq, Qeq_eqR in H. rewrite H, Q2R_0. reflexivity.
Qed.

Lemma active_sum m (f : nat -> R) : (forall k, (k < s_NSP (library m) - 1)%nat -> inert (chem m) k = true -> f k = 0) ->
  Rsum (map f (active m)) = Rsumn (s_NSP (library m) - 1) f.
Proof.
  intros H. unfold active, Rsumn. assert (H' : forall k, In k (seq 0 (s_NSP (library m) - 1)) -> inert (chem m) k = true -> f k = 0).
  { intros k Hk. apply in_seq in Hk. apply H. lia. }
  clear H. induction (seq 0 (s_NSP (library m) - 1)) as [|k l IH]; [reflexivity|]. cbn [filter].
  assert (IH' := IH (fun z Hz => H' z (or_intror Hz))). specialize (H' k (or_introl eq_refl)).
  destruct (inert (chem m) k); cbn [negb map Rsum]; rewrite IH'; [rewrite H' by reflexivity; ring|reflexivity].
Qed.

Section Row.
  Variable m : mechanism.
  Variable F : jacobian_all.
  Hypothesis CF : full_all_ok m F = true.
  Hypothesis CE : ends_ok m F = true.
  Hypothesis CH : a_head F = j_head (jac_T m).
  Hypothesis CS : shape_ok m = true.
  Hypothesis CL : last_reacts m = false.
  Notation S := (library m).
  Notation rxi i := (rxn (chem m) i).
  Notation nr := (length (ch_reactions (chem m))).

  Theorem species_row (T p : R) (y dB0 : list R) :
    length y = (s_NSP S - 1)%nat -> 0 < T -> 0 < p -> (forall k, (k < length y)%nat -> 0 <= nth k y 0) -> Rsum y <= 1 ->
    mean_capacity m y T <> 0 -> length dB0 = s_NSP S ->
    exists J : list R,
      lib_jacob (A := RA) exact_libm S F p (T :: y) (repeat 0 (s_NSP S * s_NSP S)) dB0 = Ok J /\
      length J = (s_NSP S * s_NSP S)%nat /\
      forall j, (j < s_NSP S - 1)%nat ->
      forall D : nat -> R, (forall k, (k < s_NSP S - 1)%nat -> derivable_pt_lim (fun t => dydt_at m p (upd y j t) (k + 1) T) (nth j y 0) (D k)) ->
      exists D0, derivable_pt_lim (fun t => dydt_at m p (upd y j t) 0 T) (nth j y 0) D0 /\
        Rabs (nth ((j + 1) * s_NSP S) J 0 - D0 +
              Rsumn (s_NSP S - 1) (fun k => (nth ((j + 1) * s_NSP S + (k + 1)) J 0 - D k) * enthalpy m k T) / mean_capacity m y T) <=
        Q2R tolE * row_size m p y j T / (mean_capacity m y T * mean_capacity m y T).
  Proof.
    intros Ly HT Hp H1 H2 HC LB. pose proof (NSP_pos m) as HN. pose proof tolE_val as TE.
    destruct (jacobian_call m F T p y dB0 CF CE CH Ly HT Hp H1 H2 LB) as (J & fwd & rev & pm & sp & dB & h & cp & rs & x & EJ & LJ & _ & _ & _ & Eh & Ecp & B & _ & RW).
    exists J. split; [exact EJ|]. split; [exact LJ|]. intros j Hj D HD.
    set (C := mean_capacity m y T) in *. set (n := s_NSP S) in *.
    assert (Vh : forall k, nth k h 0 = enthalpy m k T) by (intros k; unfold enthalpy, element; rewrite Eh; reflexivity).
    assert (Vc : forall k, nth k cp 0 = capacity m k T) by (intros k; unfold capacity, element; rewrite Ecp; reflexivity).
    assert (VC : Rsumn n (fun k => nth k cp 0 * nth k (y ++ [1 - Rsum y]) 0) = C).
    { unfold C, mean_capacity. fold n. unfold Rsumn. apply Rsum_ext. intros k _. rewrite Vc. reflexivity. }
    destruct (RW j Hj) as (ws & Bw & VR). rewrite VC, !Vc in VR.
    set (dc := capacity m j T - capacity m (n - 1) T) in *.
    assert (Edc : capacity m j T - capacity m (length y) T = dc) by (unfold dc, n; rewrite Ly; reflexivity).
    assert (LU : forall t, length (upd y j t) = (n - 1)%nat) by (intros t; rewrite upd_length; exact Ly).
    assert (HN1 : inert (chem m) (n - 1) = true) by (apply negb_false_iff; exact CL).
    (* derivative of the numerator *)
    set (N := fun t => Rsumn (n - 1) (fun k => enthalpy m k T * dydt_at m p (upd y j t) (k + 1) T)).
    assert (DN : derivable_pt_lim N (nth j y 0) (Rsumn (n - 1) (fun k => enthalpy m k T * D k))).
    { apply (Rsumn_derive (n - 1) (fun k t => enthalpy m k T * dydt_at m p (upd y j t) (k + 1) T)). intros k Hk.
      apply (derivable_pt_lim_scal (fun t => dydt_at m p (upd y j t) (k + 1) T)). apply HD, Hk. }
    assert (DC : derivable_pt_lim (fun t => mean_capacity m (upd y j t) T) (nth j y 0) dc).
    { apply (derivable_pt_lim_ext (fun t => C + (t - nth j y 0) * dc)).
      - intros t. rewrite capacity_upd by (try exact Ly; lia). rewrite Edc. reflexivity.
      - assert (Q : 0 + ((1 - 0) * dc + (nth j y 0 - nth j y 0) * 0) = dc) by ring.
        refine (eq_rect _ (derivable_pt_lim (fun t => C + (t - nth j y 0) * dc) (nth j y 0)) _ _ Q).
        apply (derivable_pt_lim_plus (fun _ => C) (fun t => (t - nth j y 0) * dc)); [apply derivable_pt_lim_const|].
        apply (derivable_pt_lim_mult (fun t => t - nth j y 0) (fun _ => dc)); [|apply derivable_pt_lim_const].
        apply (derivable_pt_lim_minus (fun t => t) (fun _ => nth j y 0)); [apply derivable_pt_lim_id|apply derivable_pt_lim_const]. }
    assert (US : upd y j (nth j y 0) = y) by (apply upd_same; lia).
    assert (C0 : mean_capacity m (upd y j (nth j y 0)) T = C) by (rewrite US; reflexivity).
    set (DS := Rsumn (n - 1) (fun k => enthalpy m k T * D k)) in *.
    exists (- ((DS * C - dc * N (nth j y 0)) / Rsqr C)). split.
    { apply (derivable_pt_lim_ext (fun t => - (N t / mean_capacity m (upd y j t) T))).
      - intros t. rewrite (dydt_0 m p (upd y j t) T (LU t)). fold n. rewrite (Rsumn_last n) by lia. rewrite (inert_rate m p _ (n - 1) T HN1), Rmult_0_l, Rplus_0_r.
        unfold Rdiv. rewrite Ropp_mult_distr_l. f_equal. f_equal. unfold N, Rsumn. apply Rsum_ext. intros k Hk. apply in_seq in Hk.
        rewrite (dydt_at_any m p (upd y j t) k T (LU t)) by (fold n; lia). unfold species_rate. ring.
      - apply (derivable_pt_lim_opp (fun t => N t / mean_capacity m (upd y j t) T)). rewrite <- C0.
        apply (derivable_pt_lim_div N (fun t => mean_capacity m (upd y j t) T)); [exact DN|exact DC|rewrite C0; exact HC]. }
    (* inert species *)
    assert (Z : forall k, (k < n - 1)%nat -> inert (chem m) k = true -> entry m J j k = 0 /\ D k = 0).
    { intros k Hk IN. split.
      - specialize (B j k Hj Hk).
        replace (Rsumn nr (fun i => nu (chem m) i k * slope_of m T p y i j (x i j))) with 0 in B
          by (symmetry; apply Rsum_zero; intros i Hi; apply in_seq in Hi; rewrite inert_nu by (try exact IN; lia); ring).
        replace (Rsumn nr (fun i => Rabs (nu (chem m) i k) * (Rabs (x i j * u_of m j) + dilution_size m T p y i j))) with 0 in B
          by (symmetry; apply Rsum_zero; intros i Hi; apply in_seq in Hi; rewrite inert_nu by (try exact IN; lia); rewrite Rabs_R0; ring).
        rewrite !Rmult_0_r, Rminus_0_r in B. revert B. unfold Rabs. destruct Rcase_abs; lra.
      - apply (uniqueness_limite (fun t => dydt_at m p (upd y j t) (k + 1) T) (nth j y 0)); [apply HD, Hk|].
        apply (derivable_pt_lim_ext (fun _ => 0)); [|apply derivable_pt_lim_const]. intros t.
        rewrite (dydt_at_any m p (upd y j t) k T (LU t)) by (fold n; lia).
        symmetry. apply (inert_rate m p (upd y j t) k T IN). }
    change (nth ((j + 1) * n) J 0) with (nth ((j + 1) * s_NSP S) J 0).
    replace (nth ((j + 1) * s_NSP S) J 0) with (nth (at_jk m (j + 1) 0) J 0) by (unfold at_jk; f_equal; lia).
    rewrite VR, active_sum.
    2: { intros k Hk IN. destruct (Z k Hk IN) as [Z1 _]. rewrite Z1.
         pose proof (inert_rate m p y k T IN) as IR. unfold species_rate in IR. apply Rmult_integral in IR as [IR|IR].
         - pose proof (W_positive m k ltac:(fold n in Hk; unfold n in Hk; lia)). lra.
         - rewrite IR. unfold Rdiv. ring. }
    fold n.
    set (r := fun k => Rsumn nr (fun i => nu (chem m) i k * specific_rate m p y i T)).
    assert (EN : N (nth j y 0) = Rsumn (n - 1) (fun k => enthalpy m k T * (W m k * r k))).
    { unfold N, Rsumn. apply Rsum_ext. intros k Hk. apply in_seq in Hk. rewrite US. rewrite dydt_at_any by (try exact Ly; fold n; lia). reflexivity. }
    assert (E : - Rsumn (n - 1) (fun k => nth k h 0 * (entry m J j k / C - dc * r k * ws k / (C * C))) - - ((DS * C - dc * N (nth j y 0)) / Rsqr C) +
      Rsumn (n - 1) (fun k => (nth ((j + 1) * n + (k + 1)) J 0 - D k) * enthalpy m k T) / C =
      dc / (C * C) * Rsumn (n - 1) (fun k => enthalpy m k T * r k * (ws k - W m k))).
    { rewrite EN.
      replace (Rsumn (n - 1) (fun k => nth k h 0 * (entry m J j k / C - dc * r k * ws k / (C * C))))
        with (/ C * Rsumn (n - 1) (fun k => enthalpy m k T * entry m J j k) + - (dc / (C * C)) * Rsumn (n - 1) (fun k => enthalpy m k T * r k * ws k)).
      2: { unfold Rsumn. rewrite <- !Rsum_scal, <- Rsum_plus. apply Rsum_ext. intros k _. rewrite Vh. field. exact HC. }
      replace (Rsumn (n - 1) (fun k => (nth ((j + 1) * n + (k + 1)) J 0 - D k) * enthalpy m k T))
        with (Rsumn (n - 1) (fun k => enthalpy m k T * entry m J j k) - DS).
      2: { unfold DS, Rsumn. rewrite <- Rsum_minus. apply Rsum_ext. intros k _. unfold entry, at_jk. fold n. ring. }
      replace (Rsumn (n - 1) (fun k => enthalpy m k T * r k * (ws k - W m k)))
        with (Rsumn (n - 1) (fun k => enthalpy m k T * r k * ws k) - Rsumn (n - 1) (fun k => enthalpy m k T * (W m k * r k))).
      2: { unfold Rsumn. rewrite <- Rsum_minus. apply Rsum_ext. intros k _. ring. }
      unfold Rsqr. field. exact HC. }
    eapply Rle_trans; [right; apply f_equal; exact E|].
    assert (CC : 0 < C * C) by nra. unfold Rdiv. rewrite !Rabs_mult, (Rabs_pos_eq (/ (C * C))) by (left; apply Rinv_0_lt_compat, CC).
    unfold row_size. rewrite Edc. fold n.
    assert (BB : Rabs (Rsumn (n - 1) (fun k => enthalpy m k T * r k * (ws k - W m k))) <=
      Q2R tolE * Rsumn (n - 1) (fun k => Rabs (species_rate m p y k T * enthalpy m k T))).
    { unfold Rsumn. eapply Rle_trans; [apply Rsum_Rabs|]. rewrite <- Rsum_scal. apply Rsum_below. intros k Hk. apply in_seq in Hk.
      assert (PW : 0 < W m k) by (apply W_positive; fold n; lia).
      unfold species_rate. fold (r k). rewrite !Rabs_mult, (Rabs_pos_eq (W m k)) by lra.
      specialize (Bw k ltac:(fold n; lia)).
      pose proof (Rmult_le_pos _ _ (Rabs_pos (enthalpy m k T)) (Rabs_pos (r k))) as Q. apply (Rmult_le_compat_l _ _ _ Q) in Bw.
      eapply Rle_trans; [exact Bw|]. right. ring. }
    pose proof (Rinv_0_lt_compat _ CC) as IC. pose proof (Rabs_pos dc) as Pd.
    apply (Rmult_le_compat_l (Rabs dc * / (C * C))) in BB; [|apply Rmult_le_pos; lra].
    eapply Rle_trans; [exact BB|]. right. ring.
  Qed.
End Row.

Section Reactions.
  Variable m : mechanism.
  Variable F : jacobian_all.
  Hypothesis CF : full_all_ok m F = true.
  Hypothesis CE : ends_ok m F = true.
  Hypothesis CH : a_head F = j_head (jac_T m).
  Hypothesis CS : shape_ok m = true.
  Notation S := (library m).
  Notation rxi i := (rxn (chem m) i).
  Notation nr := (length (ch_reactions (chem m))).

  Theorem species_reactions (T p : R) (y dB0 : list R) :
    length y = (s_NSP S - 1)%nat -> 0 < T -> 0 < p -> (forall k, (k < length y)%nat -> 0 <= nth k y 0) -> Rsum y <= 1 ->
    length dB0 = s_NSP S ->
    exists (J : list R) (s : nat -> nat -> R),
      lib_jacob (A := RA) exact_libm S F p (T :: y) (repeat 0 (s_NSP S * s_NSP S)) dB0 = Ok J /\
      length J = (s_NSP S * s_NSP S)%nat /\
      (forall j k, (j < s_NSP S - 1)%nat -> (k < s_NSP S - 1)%nat ->
        Rabs (nth ((j + 1) * s_NSP S + (k + 1)) J 0 - W m k * Rsumn nr (fun i => nu (chem m) i k * s i j)) <=
        Q2R tolE * (W m k * Rsumn nr (fun i => Rabs (nu (chem m) i k) * (Rabs (s i j) + 2 * dilution_size m T p y i j)))) /\
      forall i, (i < nr)%nat ->
        (rx_kind (rxi i) <> Falloff -> forall j, (j < s_NSP S - 1)%nat ->
           exists d, derivable_pt_lim (fun t => specific_rate m p (upd y j t) i T) (nth j y 0) d /\
             Rabs (s i j - d) <= column_error m T p y i j) /\
        (rx_kind (rxi i) = Falloff ->
           exists t low c e z, k_troe (kin m i) = Some t /\ k_low (kin m i) = Some low /\ near_ratio low (k_high (kin m i)) c e /\ near_centre t z /\
             forall j, (j < s_NSP S - 1)%nat ->
             exists U, derivable_pt_lim (fun t => unmodified m p (upd y j t) i T) (nth j y 0) U /\
               (Q2R tiny < centre_at z T -> Q2R tiny < pr_at m p y i low c e T -> troe_B (centre_at z T) (pr_at m p y i low c e T) <> 0 ->
                exists D, derivable_pt_lim (fun t => ln (fall_factor (centre_at z T) (pr_at m p (upd y j t) i low c e T))) (nth j y 0) D /\
                  Rabs (s i j -
                    (modifier m p y i T * (U + unmodified m p y i T * D) +
                     (fall_factor (centre_at z T) (pr_at m p y i low c e T) - modifier m p y i T) *
                     (unmodified m p y i T * (troe_slope (centre_at z T) (pr_at m p y i low c e T) 0 1 * collider_share m T p y i j)))) <=
                  Q2R tolE * fall_terms m T p y i j (centre_at z T) (pr_at m p y i low c e T) ((1 + rev_gap m T i) * kr_at m T p i) +
                  rev_gap m T i * reverse_size m T p y i j)).
  Proof.
    intros Ly HT Hp H1 H2 LB. pose proof tolE_val as TE. pose proof (NSP_pos m) as HN.
    destruct (jacobian_call m F T p y dB0 CF CE CH Ly HT Hp H1 H2 LB) as (J & fwd & rev & pm & sp & dB & h & cp & rs & x & EJ & LJ & Ers & E2 & E3 & _ & _ & B & CO & _).
    exists J, (fun i j => slope_of m T p y i j (x i j)). split; [exact EJ|]. split; [exact LJ|]. split.
    - intros j k Hj Hk. specialize (B j k Hj Hk). eapply Rle_trans; [exact B|].
      assert (PW : 0 < W m k) by (apply W_positive; lia).
      apply Rmult_le_compat_l; [lra|]. apply Rmult_le_compat_l; [lra|]. apply Rsum_below. intros i Hi. apply in_seq in Hi.
      apply Rmult_le_compat_l; [apply Rabs_pos|]. unfold slope_of.
      replace (x i j * u_of m j) with ((x i j * u_of m j + thinning m y j * specific_rate m p y i T) - thinning m y j * specific_rate m p y i T) at 1 by ring.
      assert (Q : Rabs (thinning m y j * specific_rate m p y i T) <= dilution_size m T p y i j).
      { rewrite Rabs_mult. unfold dilution_size. apply Rmult_le_compat_r; [apply Rabs_pos|].
        pose proof (u_pos m j ltac:(lia)) as U1. pose proof (u_pos m (s_NSP S - 1) ltac:(lia)) as U2. pose proof (moles_pos m y Ly H1 H2) as PM.
        unfold thinning, moles_slope, Rdiv. rewrite Rabs_mult, (Rabs_pos_eq (/ _)) by (left; apply Rinv_0_lt_compat, PM).
        apply Rmult_le_compat_r; [left; apply Rinv_0_lt_compat, PM|]. unfold Rabs. rewrite ?Ly. destruct (Rcase_abs _); lra. }
      unfold Rminus. eapply Rle_trans; [apply Rplus_le_compat_r, Rabs_triang|]. rewrite Rabs_Ropp. lra.
    - intros i Hi. split.
      + intros NF j Hj. destruct (plain_column m CS T p y (p / (gas_constant * T)) sp dB fwd rev pm rs i (x i) Ly HT Hp H1 H2 Hi Ers E2 E3 (CO i Hi) NF j ltac:(lia)) as (d & Dd & Bd & _).
        exists d. split; assumption.
      + intros Kf. destruct (fall_column m T p y HT Hp Ly H1 H2 CS sp dB fwd rev pm rs i (x i) Hi Ers E2 E3 (CO i Hi) Kf) as (t & low & c & e & z & A1 & A2 & A3 & A4 & A5).
        exists t, low, c, e, z. do 4 (split; [assumption|]). intros j Hj. apply A5. lia.
  Qed.
End Reactions.

Theorem species_reactions_drm19 (T p : R) (y dB0 : list R) :
  length y = 20%nat -> 0 < T -> 0 < p -> (forall k, (k < length y)%nat -> 0 <= nth k y 0) -> Rsum y <= 1 -> length dB0 = 21%nat ->
  exists (J : list R) (s : nat -> nat -> R),
    lib_jacob (A := RA) exact_libm (library drm19) drm19_jac_all p (T :: y) (repeat 0 (21 * 21)) dB0 = Ok J /\
    length J = (21 * 21)%nat /\
    (forall j k, (j < 20)%nat -> (k < 20)%nat ->
      Rabs (nth ((j + 1) * 21 + (k + 1)) J 0 -
            W drm19 k * Rsumn (length (ch_reactions (chem drm19))) (fun i => nu (chem drm19) i k * s i j)) <=
      Q2R tolE * (W drm19 k * Rsumn (length (ch_reactions (chem drm19)))
        (fun i => Rabs (nu (chem drm19) i k) * (Rabs (s i j) + 2 * dilution_size drm19 T p y i j)))) /\
    forall i, (i < length (ch_reactions (chem drm19)))%nat ->
      (rx_kind (rxn (chem drm19) i) <> Falloff -> forall j, (j < 20)%nat ->
         exists d, derivable_pt_lim (fun t => specific_rate drm19 p (upd y j t) i T) (nth j y 0) d /\
           Rabs (s i j - d) <= column_error drm19 T p y i j) /\
      (rx_kind (rxn (chem drm19) i) = Falloff ->
         exists t low c e z, k_troe (kin drm19 i) = Some t /\ k_low (kin drm19 i) = Some low /\
           near_ratio low (k_high (kin drm19 i)) c e /\ near_centre t z /\
           forall j, (j < 20)%nat ->
           exists U, derivable_pt_lim (fun t => unmodified drm19 p (upd y j t) i T) (nth j y 0) U /\
             (Q2R tiny < centre_at z T -> Q2R tiny < pr_at drm19 p y i low c e T ->
              troe_B (centre_at z T) (pr_at drm19 p y i low c e T) <> 0 ->
              exists D, derivable_pt_lim (fun t => ln (fall_factor (centre_at z T) (pr_at drm19 p (upd y j t) i low c e T))) (nth j y 0) D /\
                Rabs (s i j -
                  (modifier drm19 p y i T * (U + unmodified drm19 p y i T * D) +
                   (fall_factor (centre_at z T) (pr_at drm19 p y i low c e T) - modifier drm19 p y i T) *
                   (unmodified drm19 p y i T * (troe_slope (centre_at z T) (pr_at drm19 p y i low c e T) 0 1 * collider_share drm19 T p y i j)))) <=
                Q2R tolE * fall_terms drm19 T p y i j (centre_at z T) (pr_at drm19 p y i low c e T) ((1 + rev_gap drm19 T i) * kr_at drm19 T p i) +
                rev_gap drm19 T i * reverse_size drm19 T p y i j)).
Proof. exact (species_reactions drm19 drm19_jac_all full_all ends_drm19 eq_refl shape_drm19 T p y dB0). Qed.

Theorem species_row_drm19 (T p : R) (y dB0 : list R) :
  length y = 20%nat -> 200 <= T <= 5000 -> 0 < p -> (forall k, (k < length y)%nat -> 0 <= nth k y 0) -> Rsum y <= 1 -> length dB0 = 21%nat ->
  exists J : list R,
    lib_jacob (A := RA) exact_libm (library drm19) drm19_jac_all p (T :: y) (repeat 0 (21 * 21)) dB0 = Ok J /\
    length J = (21 * 21)%nat /\ 0 < mean_capacity drm19 y T /\
    forall j, (j < 20)%nat ->
    forall D : nat -> R, (forall k, (k < 20)%nat -> derivable_pt_lim (fun t => dydt_at drm19 p (upd y j t) (k + 1) T) (nth j y 0) (D k)) ->
    exists D0, derivable_pt_lim (fun t => dydt_at drm19 p (upd y j t) 0 T) (nth j y 0) D0 /\
      Rabs (nth ((j + 1) * 21) J 0 - D0 +
            Rsumn 20 (fun k => (nth ((j + 1) * 21 + (k + 1)) J 0 - D k) * enthalpy drm19 k T) / mean_capacity drm19 y T) <=
      Q2R tolE * row_size drm19 p y j T / (mean_capacity drm19 y T * mean_capacity drm19 y T).
Proof.
  intros Ly HT Hp H1 H2 LB. assert (PC : 0 < mean_capacity drm19 y T) by (apply mean_capacity_pos; assumption).
  destruct (species_row drm19 drm19_jac_all full_all ends_drm19 eq_refl eq_refl T p y dB0 Ly ltac:(lra) Hp H1 H2 ltac:(lra) LB) as (J & E & L & V).
  exists J. split; [exact E|]. split; [exact L|]. split; [exact PC|exact V].
Qed.

(** Error of an element of a column. *)
Definition fraction_error (m : mechanism) (T p : R) (y : list R) (j k : nat) : R :=
  W m k * Rsumn (length (ch_reactions (chem m))) (fun i => Rabs (nu (chem m) i k) * element_error m T p y i j).

Theorem species_column_drm19 (T p : R) (y dB0 : list R) :
  length y = 20%nat -> 200 <= T <= 5000 -> 0 < p -> (forall k, (k < length y)%nat -> 0 <= nth k y 0) -> Rsum y <= 1 -> length dB0 = 21%nat ->
  exists J : list R,
    lib_jacob (A := RA) exact_libm (library drm19) drm19_jac_all p (T :: y) (repeat 0 (21 * 21)) dB0 = Ok J /\
    length J = (21 * 21)%nat /\ 0 < mean_capacity drm19 y T /\
    forall j, (j < 20)%nat ->
    (forall i, (i < length (ch_reactions (chem drm19)))%nat -> rx_kind (rxn (chem drm19) i) = Falloff -> stuck drm19 y j i) ->
    exists D : list R,
      (forall k, (k < 21)%nat -> derivable_pt_lim (fun t => dydt_at drm19 p (upd y j t) k T) (nth j y 0) (nth k D 0)) /\
      (forall k, (k < 20)%nat -> Rabs (nth ((j + 1) * 21 + (k + 1)) J 0 - nth (k + 1) D 0) <= fraction_error drm19 T p y j k) /\
      Rabs (nth ((j + 1) * 21) J 0 - nth 0 D 0) <=
        Rsumn 20 (fun k => fraction_error drm19 T p y j k * Rabs (enthalpy drm19 k T)) / mean_capacity drm19 y T +
        Q2R tolE * row_size drm19 p y j T / (mean_capacity drm19 y T * mean_capacity drm19 y T).
Proof.
  intros Ly HT Hp H1 H2 LB.
  destruct (species_columns_drm19 T p y dB0 Ly ltac:(lra) Hp H1 H2 LB) as (J & E & L & V).
  destruct (species_row_drm19 T p y dB0 Ly HT Hp H1 H2 LB) as (J' & E' & _ & PC & V'). rewrite E in E'. injection E' as <-.
  exists J. split; [exact E|]. split; [exact L|]. split; [exact PC|]. intros j Hj ST.
  assert (C : forall n, (n <= 20)%nat -> exists D : list R, length D = n /\ forall k, (k < n)%nat ->
    derivable_pt_lim (fun t => dydt_at drm19 p (upd y j t) (k + 1) T) (nth j y 0) (nth k D 0) /\
    Rabs (nth ((j + 1) * 21 + (k + 1)) J 0 - nth k D 0) <= fraction_error drm19 T p y j k).
  { induction n as [|n IH]; intros Hn; [exists []; split; [reflexivity|intros k Hk; lia]|].
    destruct IH as (D & LD & VD); [lia|]. destruct (V j n Hj ltac:(lia)) as (d & D1 & D2); [intros i Hi Kf; right; apply ST; assumption|].
    exists (D ++ [d]). split; [rewrite app_length, LD; cbn; lia|]. intros k Hk. destruct (Nat.eq_dec k n) as [->|N].
    - rewrite app_nth2, LD, Nat.sub_diag by lia. cbn [nth]. split; assumption.
    - rewrite app_nth1 by lia. apply VD. lia. }
  destruct (C 20%nat (Nat.le_refl _)) as (D & LD & VD). clear C.
  destruct (V' j Hj (fun k => nth k D 0)) as (D0 & DD & B); [intros k Hk; apply VD, Hk|].
  exists (D0 :: D). split; [|split].
  - intros [|k] Hk; [exact DD|]. replace (Datatypes.S k) with (k + 1)%nat by lia. cbn [nth]. rewrite Nat.add_1_r. cbn [nth]. rewrite <- Nat.add_1_r.
    apply VD. lia.
  - intros k Hk. rewrite (Nat.add_1_r k). cbn [nth]. rewrite <- (Nat.add_1_r k). apply VD, Hk.
  - cbn [nth]. set (C := mean_capacity drm19 y T) in *.
    set (G := Rsumn 20 (fun k => (nth ((j + 1) * 21 + (k + 1)) J 0 - nth k D 0) * enthalpy drm19 k T)) in *.
    assert (BG : Rabs G <= Rsumn 20 (fun k => fraction_error drm19 T p y j k * Rabs (enthalpy drm19 k T))).
    { unfold G, Rsumn. eapply Rle_trans; [apply Rsum_Rabs|]. apply Rsum_below. intros k Hk. apply in_seq in Hk.
      apply Rmult_le_compat_r; [apply Rabs_pos|]. apply VD. lia. }
    replace (nth ((j + 1) * 21) J 0 - D0) with (- (G / C) + (nth ((j + 1) * 21) J 0 - D0 + G / C)) by ring.
    eapply Rle_trans; [apply Rabs_triang|]. apply Rplus_le_compat; [|exact B]. rewrite Rabs_Ropp. unfold Rdiv.
    rewrite Rabs_mult, (Rabs_pos_eq (/ C)) by (left; apply Rinv_0_lt_compat, PC). apply Rmult_le_compat_r; [left; apply Rinv_0_lt_compat, PC|exact BG].
Qed.
