(** [eval_jacob] of drm19: fall-off reactions in the columns of the species.
    The definitions below are not functions of /repo. *)
From Coq Require Import List ZArith NArith QArith Qabs Qreals Reals Bool Lra Lia.
From Verif Require Import Outcome Arith MechLang MechSym MechSrc MechCall MechReal MechPoly MechChem Mechanisms
  MechSpec MechRate MechPmod MechThermo MechConc MechDydt MechRhs MechData MechExp MechLaurent MechNasa MechKin MechArr MechTroe MechDefined
  MechJac MechJacT MechJacS MechJacD MechJacR MechJacE MechJacF MechJacC MechJacW MechJacX MechFull MechFullT MechFullS MechFullD MechFullV MechFullR MechFullE MechFullC.
Import ListNotations.
Local Open Scope R_scope.

(** ** Values of the expressions *)

Section Values.
  Variable T : R.
  Variable a : var -> N -> R.
  Hypothesis HT : 0 < T.
  Hypothesis aT : a v_T 0%N = T.
  Notation rv := (rval exact_libm a).

  Lemma centre_valS t fc : centre_okS t fc = true -> exists z, near_centre t z /\ rv fc = centre_at z T.
  Proof.
    unfold centre_okS. destruct (centre_lits fc) as [[[[a1 n3] a2] n1] n2]. intros H.
    apply andb_true_iff in H as [H H11]. 
    apply andb_true_iff in H as [H H8]. apply andb_true_iff in H as [H H7]. apply andb_true_iff in H as [H H6].
    apply andb_true_iff in H as [H H5]. apply andb_true_iff in H as [H H4]. apply andb_true_iff in H as [H1 H3].
    apply expr_eqb_eq in H1. subst fc.
    apply Qle_bool_iff, Qle_Rle in H3. rewrite Q2R_abs, Q2R_qplus, Q2R_minus, Q2R_1 in H3.
    apply qclose_val in H4, H5, H6. rewrite Q2R_opp in H5, H6.
    assert (N3 : Q2R n3 <> 0).
    { intros Z. unfold Q2R in Z. apply Rmult_integral in Z. destruct Z as [Z|Z].
      - apply eq_IZR_R0 in Z. rewrite Z in H7. discriminate.
      - pose proof (Rinv_0_lt_compat _ (IZR_lt _ _ (Pos2Z.is_pos (Qden n3)))). lra. }
    assert (N1 : Q2R n1 <> 0).
    { intros Z. unfold Q2R in Z. apply Rmult_integral in Z. destruct Z as [Z|Z].
      - apply eq_IZR_R0 in Z. rewrite Z in H8. discriminate.
      - pose proof (Rinv_0_lt_compat _ (IZR_lt _ _ (Pos2Z.is_pos (Qden n1)))). lra. }
    exists (mkCentre (Q2R a1) (- Q2R n3) (Q2R a2) (- Q2R n1) (match n2 with Some n => Some (- Q2R n) | None => None end)).
    assert (CL : forall x y w, Rabs (x - - y) <= w * Rabs (- y) -> Rabs (- x - y) <= w * Rabs y).
    { intros x y w B. rewrite Rabs_Ropp in B. replace (- x - y) with (- (x - - y)) by ring. rewrite Rabs_Ropp. exact B. }
    assert (E3 : exp (- T / - Q2R n3) = exp (T / Q2R n3)) by (rewrite neg_div by exact N3; reflexivity).
    assert (E1 : exp (- T / - Q2R n1) = exp (T / Q2R n1)) by (rewrite neg_div by exact N1; reflexivity).
    destruct n2 as [n|], (t_T2 t) as [q|] eqn:ET; try discriminate.
    - apply qclose_val in H11. rewrite Q2R_opp in H11. split.
      + repeat split; cbn [ce_1 ce_2 ce_T1 ce_T2 ce_T3].
        * replace (Q2R a1 - (1 - Q2R (t_A t))) with (Q2R a1 + (Q2R (t_A t) - 1)) by ring. exact H3.
        * exact H4.
        * apply CL, H5.
        * apply CL, H6.
        * rewrite ET. apply CL, H11.
      + unfold centre_at. cbn [ce_1 ce_2 ce_T1 ce_T2 ce_T3]. rewrite E3, E1, Ropp_involutive, <- aT. reflexivity.
    - split.
      + repeat split; cbn [ce_1 ce_2 ce_T1 ce_T2 ce_T3].
        * replace (Q2R a1 - (1 - Q2R (t_A t))) with (Q2R a1 + (Q2R (t_A t) - 1)) by ring. exact H3.
        * exact H4.
        * apply CL, H5.
        * apply CL, H6.
        * rewrite ET. exact I.
      + unfold centre_at. cbn [ce_1 ce_2 ce_T1 ce_T2 ce_T3]. rewrite E3, E1, Rplus_0_r, <- aT. reflexivity.
  Qed.

  Lemma XS_val c3 c4 pr fc : rv (e_XS c3 c4 pr fc) =
    1 / (1 + rv pr) - troe_L (rv fc) (rv pr) * (troe_B (rv fc) (rv pr) * Q2R c3 + troe_A (rv fc) (rv pr) * Q2R c4).
  Proof.
    rewrite <- (L_val a), <- (A_val a), <- (B_val a).
    change (rv (e_XS c3 c4 pr fc)) with
      (Q2R 1.0 / (Q2R 1.0 + rv pr) -
       ln (c_fmax RA (rv fc) (Q2R tiny)) * Q2R 2.0 * rv (e_A pr fc) * (rv (e_B pr fc) * Q2R c3 + rv (e_A pr fc) * Q2R c4) /
       (rv (e_B pr fc) * rv (e_B pr fc) * rv (e_B pr fc) * rv (e_D pr fc) * rv (e_D pr fc))).
    change (rv (e_L pr fc)) with (Q2R 2.0 * ln (c_fmax RA (rv fc) (Q2R tiny)) * rv (e_A pr fc) /
      (rv (e_B pr fc) * rv (e_B pr fc) * rv (e_B pr fc) * rv (e_D pr fc) * rv (e_D pr fc))).
    destruct decimals as (-> & _). unfold Rdiv. ring.
  Qed.
End Values.

(** Size of the derivative of the logarithm of the fall-off factor with respect to that of the colliders. *)
Definition fall_size (fc pr : R) : R :=
  1 / (1 + pr) + Rabs (troe_L fc pr) * ((Rabs (troe_B fc pr) + 0.14 * Rabs (troe_A fc pr)) / ln 10).

Lemma fall_slope_size fc pr : 0 < pr -> Rabs (troe_slope fc pr 0 1) <= fall_size fc pr /\ 0 <= fall_size fc pr.
Proof.
  intros HP. pose proof ln10_pos as L10.
  assert (I1 : 0 < / (1 + pr)) by (apply Rinv_0_lt_compat; lra). assert (I10 : 0 < / ln 10) by (apply Rinv_0_lt_compat; lra).
  assert (B : Rabs (troe_slope fc pr 0 1) <= fall_size fc pr).
  { unfold troe_slope, fall_size. rewrite Rmult_0_r, Rplus_0_r, Rmult_1_r. unfold Rminus.
    eapply Rle_trans; [apply Rabs_triang|]. rewrite Rabs_Ropp, Rabs_mult. apply Rplus_le_compat.
    - rewrite Rabs_pos_eq; [lra|]. unfold Rdiv. lra.
    - apply Rmult_le_compat_l; [apply Rabs_pos|]. unfold Rdiv. rewrite Rabs_mult, (Rabs_pos_eq (/ ln 10)) by lra.
      apply Rmult_le_compat_r; [lra|]. eapply Rle_trans; [apply Rabs_triang|]. rewrite Rabs_mult, (Rabs_pos_eq 0.14) by lra. lra. }
  split; [exact B|]. eapply Rle_trans; [apply Rabs_pos|exact B].
Qed.

Lemma troe_slope_linear fc pr l : troe_slope fc pr 0 l = troe_slope fc pr 0 1 * l.
Proof. unfold troe_slope, Rdiv. ring. Qed.

(** Fall-off factor. *)
Definition fall_factor (fc pr : R) : R := broad fc pr * (pr / (1 + pr)).

(** X and Y of a reaction that passes the check. *)
Lemma xy_ok_val m i X Y (T : R) (a : var -> N -> R) (C : list R) : xy_ok m i X Y = true ->
  0 < T -> a v_T 0%N = T -> length C = s_NSP (library m) -> (forall k, a v_conc (N.of_nat k) = nth k C 0) ->
  a v_m 0%N = Rsumn (length C) (fun k => nth k C 0) ->
  exists t low c e z, k_troe (kin m i) = Some t /\ k_low (kin m i) = Some low /\ near_ratio low (k_high (kin m i)) c e /\ near_centre t z /\
    forall P, P = reduced c (exponent_T low (k_high (kin m i))) e (third_body (rxn (chem m) i) C) T ->
      0 < P -> Q2R tiny < centre_at z T -> troe_B (centre_at z T) P <> 0 ->
      Rabs (rval exact_libm a X - troe_slope (centre_at z T) P 0 1) <= Q2R tolE * fall_size (centre_at z T) P /\
      rval exact_libm a Y * third_body (rxn (chem m) i) C = fall_factor (centre_at z T) P.
Proof.
  intros H HT aT LC aC aM. unfold xy_ok in H. destruct (k_troe (kin m i)) as [t|]; [|discriminate]. cbv zeta in H.
  set (pr := opr (opr (opl X))) in *. set (u := opl (opr X)) in *.
  set (c3 := lit_of (opr (opl (opr u)))) in *. set (c4 := lit_of (opr (opr (opr u)))) in *.
  set (fc := match opl (opl (opl u)) with Log (Fmax f _) => f | _ => Num 0 end) in *.
  set (q := match opr (opl Y) with Pow _ q => q | _ => Num 0 end) in *.
  apply andb_true_iff in H as [H H8]. apply andb_true_iff in H as [H H7]. apply andb_true_iff in H as [H H6].
  apply andb_true_iff in H as [H H5]. apply andb_true_iff in H as [H H4]. apply andb_true_iff in H as [H H3].
  apply andb_true_iff in H as [H1 H2]. apply expr_eqb_eq in H1, H2, H3, H4.
  assert (Hpr : pr = Mul (opl pr) (Exp (inner (opr pr)))).
  { unfold pr at 1. rewrite H1. reflexivity. }
  unfold pr_okS in H5. destruct (k_low (kin m i)) as [low|]; [|discriminate]. apply andb_true_iff in H5 as [H5 H5'].
  destruct (lin anyT (inner (opr pr))) as [l|] eqn:L; [|discriminate].
  destruct (ratio_ok_val _ _ _ H5') as (c & e & NR & V1 & _).
  destruct (centre_valS T a aT t fc H6) as (z & NZ & VF).
  exists t, low, c, e, z. split; [reflexivity|]. split; [reflexivity|]. split; [exact NR|]. split; [exact NZ|].
  intros P EP PP PF PB. set (M := third_body (rxn (chem m) i) C) in *.
  assert (VX : rval exact_libm a (Exp (inner (opr pr))) = c * exp (exponent_T low (k_high (kin m i)) * ln T) * exp (- e / T)).
  { change (rval exact_libm a (Exp (inner (opr pr)))) with (exp (rval exact_libm a (inner (opr pr)))).
    rewrite (lin_val a anyT (in_anyT _ (eq_ind_r (fun x => 0 < x) HT aT)) _ _ L), aT. apply V1. }
  assert (VM : rval exact_libm a (opl pr) = M) by (apply (third_valJ m a C LC aC aM), H5).
  assert (VP : rval exact_libm a pr = P).
  { rewrite Hpr. change (rval exact_libm a (Mul (opl pr) (Exp (inner (opr pr))))) with (rval exact_libm a (opl pr) * rval exact_libm a (Exp (inner (opr pr)))).
    rewrite VM, VX, EP. unfold reduced. ring. }
  set (F := centre_at z T) in *. split.
  - rewrite H1, <- Hpr, (XS_val a), VP, VF.
    pose proof (const_val inv_ln10 1 c3 (eq_sym (Rmult_1_l _)) H7) as C3.
    pose proof (const_val _ 0.14 c4 ltac:(rewrite Q2R_mult; reflexivity) H8) as C4.
    unfold troe_slope, fall_size. rewrite Rmult_0_r, Rplus_0_r, Rmult_1_r.
    pose proof ln10_pos as L10. assert (I10 : 0 < / ln 10) by (apply Rinv_0_lt_compat; lra).
    set (A := troe_A F P) in *. set (B := troe_B F P) in *. set (K := troe_L F P).
    match goal with |- Rabs ?w <= _ => replace w with (- (K * (B * (Q2R c3 - 1 / ln 10) + A * (Q2R c4 - 0.14 / ln 10)))) by (unfold Rdiv; ring) end.
    rewrite Rabs_Ropp, Rabs_mult. rewrite (Rabs_pos_eq (1 / ln 10)) in C3 by (unfold Rdiv; lra). rewrite (Rabs_pos_eq (0.14 / ln 10)) in C4 by (unfold Rdiv; lra).
    pose proof tolE_val as TE.
    apply Rle_trans with (Q2R tolE * (Rabs K * ((Rabs B + 0.14 * Rabs A) / ln 10))).
    + rewrite (Rmult_comm (Q2R tolE)), Rmult_assoc. apply Rmult_le_compat_l; [apply Rabs_pos|].
      eapply Rle_trans; [apply Rabs_triang|]. rewrite !Rabs_mult.
      apply Rle_trans with (Rabs B * (Q2R tolE * (1 / ln 10)) + Rabs A * (Q2R tolE * (0.14 / ln 10))).
      * apply Rplus_le_compat; apply Rmult_le_compat_l; try apply Rabs_pos; assumption.
      * right. unfold Rdiv. ring.
    + apply Rmult_le_compat_l; [lra|]. assert (0 < / (1 + P)) by (apply Rinv_0_lt_compat; lra). unfold Rdiv. lra.
  - assert (VD : rval exact_libm a (opr q) = 1 + troe_A F P * troe_A F P / (troe_B F P * troe_B F P)).
    { rewrite H4, H3. change (rval exact_libm a (Add (Num 1) (opr (e_D pr fc)))) with
        (Q2R 1 + rval exact_libm a (e_A pr fc) * rval exact_libm a (e_A pr fc) / (rval exact_libm a (e_B pr fc) * rval exact_libm a (e_B pr fc))).
      rewrite (A_val a), (B_val a), VP, VF, Q2R_1. reflexivity. }
    rewrite H2, <- Hpr.
    change (rval exact_libm a (e_YS (inner (opr pr)) pr fc (opr q))) with
      (rval exact_libm a (Exp (inner (opr pr))) * Rpower (rval exact_libm a fc) (Q2R 1.0 / rval exact_libm a (opr q)) / (Q2R 1.0 + rval exact_libm a pr)).
    destruct decimals as (-> & _). rewrite VD, VP, VF, VX.
    assert (EB : Rpower F (1 / (1 + troe_A F P * troe_A F P / (troe_B F P * troe_B F P))) = broad F P).
    { unfold broad, Rpower. f_equal. unfold log10c. rewrite Rmax_left by lra. pose proof ln10_pos.
      pose proof (sq_ratio (troe_A F P) (troe_B F P) PB) as SQ.
      set (d := 1 + troe_A F P * troe_A F P / (troe_B F P * troe_B F P)) in *. field. split; [lra|exact SQ]. }
    rewrite EB. unfold fall_factor. unfold reduced in EP.
    match goal with |- ?k * ?b / ?d * M = _ => replace (k * b / d * M) with (b * (k * M / d)) by (unfold Rdiv; ring) end.
    rewrite <- EP. reflexivity.
Qed.

(** ** Contributions *)

Section Fall.
  Variable m : mechanism.
  Variables T p : R.
  Variable y : list R.
  Notation S := (library m).
  Notation rxi i := (rxn (chem m) i).
  Hypothesis HT : 0 < T.
  Hypothesis Hp : 0 < p.
  Hypothesis Ly : length y = (s_NSP S - 1)%nat.

  Lemma unmodified_any x i : length x = (s_NSP S - 1)%nat -> 0 < specific_moles S x -> (i < length (ch_reactions (chem m)))%nat ->
    unmodified m p x i T = (f_at m T p i x - g_at m T p i x) / density m T p x.
  Proof.
    intros Lx Hx Hi. destruct (conc_any m T p x Lx ltac:(lra)) as [E1 _].
    destruct (rates_any m T p HT Hp x Lx Hx) as (fwd & rev & pm & E2 & _ & _ & _ & _ & V).
    destruct (V i Hi) as (V1 & V2 & _). unfold unmodified. rewrite E1, E2. apply (f_equal (fun z => z / density m T p x)). apply (f_equal2 Rminus); [exact V1|].
    destruct (rx_rev (rxi i)) eqn:Rv; [apply V2; reflexivity|]. unfold g_at, kr_at. rewrite Rv. ring.
  Qed.

  Lemma collider_any x i : length x = (s_NSP S - 1)%nat -> 0 < specific_moles S x ->
    collider m p x i T = third_body (rxi i) (conc_of m T p x).
  Proof. intros Lx Hx. unfold collider. destruct (conc_any m T p x Lx ltac:(lra)) as [E1 _]. rewrite E1. reflexivity. Qed.

  (** Share of species [j] in the change of the colliders. *)
  Definition collider_share (i j : nat) : R := density m T p y * collider_slope m y j (rxi i) / collider m p y i T.

  Hypothesis H1 : forall k, (k < length y)%nat -> 0 <= nth k y 0.
  Hypothesis H2 : Rsum y <= 1.
  Hypothesis OK : shape_ok m = true.

  Lemma unmodified_derive_j i j : (i < length (ch_reactions (chem m)))%nat -> (j < length y)%nat -> rx_kind (rxi i) = Falloff ->
    derivable_pt_lim (fun t => unmodified m p (upd y j t) i T) (nth j y 0)
      (species_term m y i j (1 / specific_moles S y) (density m T p y) (conc_of m T p y) (f_at m T p i y) (g_at m T p i y) 1 (kf_of m T p i) (kr_at m T p i) 0 0 +
       thinning m y j * (f_at m T p i y - g_at m T p i y) / density m T p y).
  Proof.
    intros Hi Hj Kf. pose proof (moles_pos m y Ly H1 H2) as HS. pose proof (density_pos m T p y HT Hp HS) as PD.
    destruct (shape_at m y Ly OK i Hi) as (RL & RR & _).
    destruct (near_moles m y j Ly HS Hj) as (lo & hi & Hlh & NM). pose proof (upd_same y j Hj) as US.
    assert (Df : derivable_pt_lim (fun t => f_at m T p i (upd y j t)) (nth j y 0)
      (kf_of m T p i * (- thinning m y j * INR (molecules (rx_lhs (rxi i))) * conc_product (conc_of m T p y) (rx_lhs (rxi i)) +
        density m T p y * direct_sum m y j (side (rx_lhs (rxi i))) (conc_of m T p y)))).
    { apply (derivable_pt_lim_scal (fun t => conc_product (conc_of m T p (upd y j t)) (rx_lhs (rxi i)))). apply product_derive; assumption. }
    assert (Dg : derivable_pt_lim (fun t => g_at m T p i (upd y j t)) (nth j y 0)
      (kr_at m T p i * (- thinning m y j * INR (molecules (rx_rhs (rxi i))) * conc_product (conc_of m T p y) (rx_rhs (rxi i)) +
        density m T p y * direct_sum m y j (side (rx_rhs (rxi i))) (conc_of m T p y)))).
    { apply (derivable_pt_lim_scal (fun t => conc_product (conc_of m T p (upd y j t)) (rx_rhs (rxi i)))). apply product_derive; assumption. }
    assert (Dd := derivable_pt_lim_minus _ _ _ _ _ Df Dg).
    apply (over_density_derive m T p y j HT Hp Ly HS Hj) in Dd.
    apply (derivable_pt_lim_locally_ext
      (fun t => minus_fct (fun t => f_at m T p i (upd y j t)) (fun t => g_at m T p i (upd y j t)) t / density m T p (upd y j t))
      _ (nth j y 0) lo hi); [exact Hlh| |].
    - intros t Ht. rewrite unmodified_any; [reflexivity|rewrite upd_length; exact Ly|apply NM, Ht|exact Hi].
    - match type of Dd with derivable_pt_lim _ _ ?v => match goal with |- derivable_pt_lim _ _ ?w => replace w with v; [exact Dd|] end end.
      unfold minus_fct. rewrite US. unfold species_term, order3, thinning, moles_slope, f_at, g_at. rewrite Kf.
      set (K := conc_product (conc_of m T p y)). field. split; lra.
  Qed.

  Lemma pr_derive_j i j low c e : (j < length y)%nat -> 0 < collider m p y i T ->
    derivable_pt_lim (fun t => pr_at m p (upd y j t) i low c e T) (nth j y 0)
      (pr_at m p y i low c e T * (collider_share i j - thinning m y j)).
  Proof.
    intros Hj PM. pose proof (moles_pos m y Ly H1 H2) as HS.
    destruct (near_moles m y j Ly HS Hj) as (lo & hi & Hlh & NM).
    set (K := c * exp (exponent_T low (k_high (kin m i)) * ln T) * exp (- e / T)).
    apply (derivable_pt_lim_locally_ext (mult_real_fct K (fun t => third_body (rxi i) (conc_of m T p (upd y j t)))) _ (nth j y 0) lo hi); [exact Hlh| |].
    - intros t Ht. unfold pr_at, reduced, mult_real_fct. fold K. rewrite collider_any; [reflexivity|rewrite upd_length; exact Ly|apply NM, Ht].
    - pose proof (third_derive m T p y j HT Ly HS Hj (rxi i)) as D. apply (derivable_pt_lim_scal _ K) in D.
      match type of D with derivable_pt_lim _ _ ?v => match goal with |- derivable_pt_lim _ _ ?w => replace w with v; [exact D|] end end.
      unfold pr_at, reduced, collider_share. fold K. rewrite collider_any in PM |- * by assumption. field. lra.
  Qed.

  (** Size of the terms of the contribution of a fall-off reaction with reverse rate constant [kr]; [fc] is the centre and
      [pr] the reduced pressure. *)
  Definition fall_terms (i j : nat) (fc pr kr : R) : R :=
    species_size m y i j (1 / specific_moles S y) (density m T p y) (conc_of m T p y) (f_at m T p i y) (g_at m T p i y)
      (modifier m p y i T) (kf_of m T p i) kr (3 * fall_size fc pr) (3 * fall_size fc pr * (fall_factor fc pr / collider m p y i T)).

  Lemma fall_column (sp dB fwd rev pm : list R) (rs : smem) i x : (i < length (ch_reactions (chem m)))%nat ->
    rate_state S = Some rs ->
    lib_eval_rxn_rates (A := RA) exact_libm S T p (conc_of m T p y) = Ok (fwd, rev) ->
    lib_get_rxn_pres_mod (A := RA) exact_libm S T p (conc_of m T p y) = Ok pm ->
    column_of exact_libm m (inverse_weights S) (common_all (nasa m)) rs T p (p / (gas_constant * T)) (1 / specific_moles S y) (density m T p y) (conc_of m T p y) fwd rev pm sp dB i x ->
    rx_kind (rxi i) = Falloff ->
    exists t low c e z, k_troe (kin m i) = Some t /\ k_low (kin m i) = Some low /\ near_ratio low (k_high (kin m i)) c e /\ near_centre t z /\
      forall j, (j < length y)%nat ->
      exists U, derivable_pt_lim (fun t => unmodified m p (upd y j t) i T) (nth j y 0) U /\
        (Q2R tiny < centre_at z T -> Q2R tiny < pr_at m p y i low c e T -> troe_B (centre_at z T) (pr_at m p y i low c e T) <> 0 ->
         exists D, derivable_pt_lim (fun t => ln (fall_factor (centre_at z T) (pr_at m p (upd y j t) i low c e T))) (nth j y 0) D /\
           Rabs (slope_of m T p y i j (x j) -
             (modifier m p y i T * (U + unmodified m p y i T * D) +
              (fall_factor (centre_at z T) (pr_at m p y i low c e T) - modifier m p y i T) *
              (unmodified m p y i T * (troe_slope (centre_at z T) (pr_at m p y i low c e T) 0 1 * collider_share i j)))) <=
           Q2R tolE * fall_terms i j (centre_at z T) (pr_at m p y i low c e T) ((1 + rev_gap m T i) * kr_at m T p i) +
           rev_gap m T i * reverse_size m T p y i j).
  Proof.
    intros Hi Ers E2 E3 CO Kf. pose proof (NSP_pos m) as HN. pose proof tolE_val as TE.
    pose proof (moles_pos m y Ly H1 H2) as HS.
    destruct (facts_at m T p y HT Hp Ly H1 H2 i Hi) as (P1 & P2 & Pf & Pg & Pq & Pm & Pr & VS).
    pose proof (conc_of_nonneg m T p y HT Hp Ly H1 H2) as PC. pose proof (third_body_nonneg m i _ PC) as PM.
    destruct (conc_any m T p y Ly ltac:(lra)) as [E1 SC]. pose proof (conc_of_length m T p y) as LC.
    destruct (column_bound m T p y HT Hp Ly H1 H2 OK _ sp dB fwd rev pm rs i x Hi Ers E2 E3 CO) as (PG & jac & X & Y & X' & XY & HX & EX & EY & B).
    specialize (HX Kf). unfold x_of in EX. unfold xy_val in EY. rewrite Kf in EX, EY.
    set (a := env_all T p (p / (gas_constant * T)) (1 / specific_moles S y) (density m T p y) (conc_of m T p y) fwd rev pm sp dB jac) in *.
    assert (aC : forall k, a v_conc (N.of_nat k) = nth k (conc_of m T p y) 0).
    { intros k. unfold a, env_all, argument, all_ins. cbn [find fst snd var_eqb var_id Nat.eqb]. rewrite Nat2N.id.
      cbn [zero lit RA]. rewrite Q2R_0. reflexivity. }
    destruct (xy_ok_val m i X Y T a (conc_of m T p y) HX HT eq_refl LC aC ltac:(rewrite SC; reflexivity)) as (t & low & c & e & z & K1 & K2 & NR & NZ & V).
    exists t, low, c, e, z. do 4 (split; [assumption|]). intros j Hj.
    exists (species_term m y i j (1 / specific_moles S y) (density m T p y) (conc_of m T p y) (f_at m T p i y) (g_at m T p i y) 1 (kf_of m T p i) (kr_at m T p i) 0 0 +
       thinning m y j * (f_at m T p i y - g_at m T p i y) / density m T p y).
    split; [apply unmodified_derive_j; assumption|]. intros PF PP PB.
    assert (T0 : 0 < Q2R tiny) by (unfold Q2R, tiny; cbn [Qnum Qden]; apply Rmult_lt_0_compat; [apply IZR_lt; reflexivity|apply Rinv_0_lt_compat, IZR_lt; reflexivity]).
    pose proof (collider_any y i Ly HS) as VM.
    assert (EP : pr_at m p y i low c e T = reduced c (exponent_T low (k_high (kin m i))) e (third_body (rxi i) (conc_of m T p y)) T)
      by (unfold pr_at; rewrite VM; reflexivity).
    set (P := pr_at m p y i low c e T) in *. set (F := centre_at z T) in *.
    destruct (V P EP ltac:(lra) PF PB) as [BX VY].
    assert (M0 : 0 < collider m p y i T).
    { rewrite VM. destruct PM as [PM|PM]; [exact PM|]. exfalso. rewrite <- PM in EP. unfold reduced in EP. rewrite Rmult_0_r in EP. lra. }
    pose proof (pr_derive_j i j low c e Hj M0) as DP.
    assert (DT : derivable_pt_lim (fun t => ln (fall_factor F (pr_at m p (upd y j t) i low c e T))) (nth j y 0)
      (troe_slope F P 0 (collider_share i j - thinning m y j))).
    { pose proof (troe_derive (fun _ => F) (fun t => pr_at m p (upd y j t) i low c e T) (nth j y 0) 0 (collider_share i j - thinning m y j)) as D.
      cbv beta in D. rewrite (upd_same y j Hj) in D. fold P in D. apply D; try assumption. apply derivable_pt_lim_const. }
    exists (troe_slope F P 0 (collider_share i j - thinning m y j)). split; [exact DT|].
    specialize (B j Hj). rewrite <- VM in VY.
    set (G := fall_factor F P) in *. set (Mc := collider m p y i T) in *.
    assert (VY' : rval exact_libm a Y = G / Mc) by (rewrite <- VY; field; lra).
    rewrite VY' in EY. rewrite <- EX in EY, BX. clear EX. subst XY.
    destruct (fall_slope_size F P ltac:(lra)) as [SX S0].
    rewrite troe_slope_linear. set (X0 := troe_slope F P 0 1) in *. set (Xs := fall_size F P) in *.
    assert (G0 : 0 <= G).
    { unfold G, fall_factor. apply Rmult_le_pos; [left; apply exp_pos|]. apply Rmult_le_pos; [lra|]. left. apply Rinv_0_lt_compat. lra. }
    assert (GM : 0 <= G / Mc) by (apply Rmult_le_pos; [exact G0|left; apply Rinv_0_lt_compat, M0]).
    rewrite (unmodified_any y i Ly HS Hi). unfold slope_of. rewrite VS. unfold collider_share. fold Mc.
    set (rho := density m T p y) in *. set (mw := 1 / specific_moles S y) in *. set (C := conc_of m T p y) in *.
    set (f := f_at m T p i y) in *. set (g := g_at m T p i y) in *. set (q := modifier m p y i T) in *.
    set (cs := collider_slope m y j (rxi i)).
    match goal with |- Rabs ?w <= _ => replace w with
      ((x j * u_of m j - species_term m y i j mw rho C f g q (kf_of m T p i) (kr_at m T p i) X' (X' * (G / Mc))) +
       (X' - X0) * (- (mw * (u_of m j - u_of m (length y)) / rho) * (q * (f - g)) + G / Mc * cs * (f - g))) end.
    2: { unfold species_term. fold cs. unfold thinning, moles_slope. fold mw.
         replace ((u_of m j - u_of m (length y)) / specific_moles S y) with (mw * (u_of m j - u_of m (length y))) by (unfold mw; field; lra).
         field. split; lra. }
    eapply Rle_trans; [apply Rabs_triang|].
    pose proof (u_pos m j ltac:(lia)) as U1. pose proof (u_pos m (length y) ltac:(lia)) as U2.
    assert (PR : 0 < / rho) by (apply Rinv_0_lt_compat, Pr).
    set (w1 := mw * (u_of m j + u_of m (length y)) / rho * (q * (f + g))).
    set (w2 := collider_size m y j (rxi i) * (f + g)).
    assert (W1 : 0 <= w1).
    { unfold w1, Rdiv. apply Rmult_le_pos; [|apply Rmult_le_pos; lra]. apply Rmult_le_pos; [|lra]. apply Rmult_le_pos; lra. }
    assert (W2 : 0 <= collider_size m y j (rxi i) /\ Rabs cs <= collider_size m y j (rxi i)).
    { unfold cs, collider_slope, collider_size. pose proof (Rmult_le_pos _ _ (efficiency_nonneg m i j) (Rlt_le _ _ U1)).
      pose proof (Rmult_le_pos _ _ (efficiency_nonneg m i (length y)) (Rlt_le _ _ U2)). split; [lra|]. apply Rabs_le. lra. }
    assert (W2' : 0 <= w2) by (apply Rmult_le_pos; lra).
    assert (E : Rabs (- (mw * (u_of m j - u_of m (length y)) / rho) * (q * (f - g)) + G / Mc * cs * (f - g)) <= w1 + G / Mc * w2).
    { eapply Rle_trans; [apply Rabs_triang|]. apply Rplus_le_compat.
      - rewrite Rabs_mult, Rabs_Ropp. unfold w1, Rdiv. rewrite !Rabs_mult, (Rabs_pos_eq mw), (Rabs_pos_eq (/ rho)), (Rabs_pos_eq q) by lra.
        pose proof (Rabs_pos (u_of m j - u_of m (length y))) as Q1. pose proof (Rabs_pos (f - g)) as Q2.
        apply Rmult_le_compat; [apply Rmult_le_pos; [apply Rmult_le_pos|]; lra|apply Rmult_le_pos; lra| |].
        + apply Rmult_le_compat_r; [lra|]. apply Rmult_le_compat_l; [lra|]. apply Rabs_le. lra.
        + apply Rmult_le_compat_l; [lra|]. apply Rabs_le. lra.
      - rewrite Rmult_assoc, Rabs_mult, (Rabs_pos_eq (G / Mc)) by exact GM. apply Rmult_le_compat_l; [exact GM|]. unfold w2.
        rewrite Rabs_mult. apply Rmult_le_compat; try apply Rabs_pos; [apply W2|apply Rabs_le; lra]. }
    assert (AX : Rabs X' <= 2 * Xs).
    { replace X' with (X0 + (X' - X0)) by ring. eapply Rle_trans; [apply Rabs_triang|].
      assert (Q2R tolE * Xs <= 1 * Xs) by (apply Rmult_le_compat_r; lra). lra. }
    assert (SZ : species_size m y i j mw rho C f g q (kf_of m T p i) ((1 + rev_gap m T i) * kr_at m T p i) X' (X' * (G / Mc)) + Xs * (w1 + G / Mc * w2) <=
      fall_terms i j F P ((1 + rev_gap m T i) * kr_at m T p i)).
    { unfold fall_terms, species_size. fold Mc G Xs mw rho C f g q.
      rewrite (Rabs_pos_eq (3 * Xs)), (Rabs_pos_eq (3 * Xs * (G / Mc))), Rabs_mult, (Rabs_pos_eq (G / Mc)) by (try exact GM; try apply Rmult_le_pos; lra).
      match goal with |- ?u1 + ?v1 + ?r1 + _ <= ?u2 + ?v2 + ?r2 =>
        assert (Q1 : u1 + Xs * w1 <= u2); [|assert (Q2 : v1 + Xs * (G / Mc * w2) <= v2); [|lra]] end.
      - unfold w1. match goal with |- ?k * (q * ((?n1 + _) * f + (?n2 + _) * g)) + _ <= _ =>
          replace (k * (q * ((n1 + 3 * Xs) * f + (n2 + 3 * Xs) * g))) with (k * (q * ((n1 + 2 * Xs) * f + (n2 + 2 * Xs) * g)) + Xs * (k * (q * (f + g)))) by ring;
          apply Rplus_le_compat_r, Rmult_le_compat_l end.
        + unfold Rdiv. apply Rmult_le_pos; [apply Rmult_le_pos|]; lra.
        + apply Rmult_le_compat_l; [lra|]. apply Rplus_le_compat; apply Rmult_le_compat_r; lra.
      - unfold w2. replace (3 * Xs * (G / Mc) * collider_size m y j (rxi i) * (f + g)) with
          (2 * Xs * (G / Mc) * collider_size m y j (rxi i) * (f + g) + Xs * (G / Mc * (collider_size m y j (rxi i) * (f + g)))) by ring.
        apply Rplus_le_compat_r. apply Rmult_le_compat_r; [lra|]. apply Rmult_le_compat_r; [apply W2|]. apply Rmult_le_compat_r; [exact GM|exact AX]. }
    assert (E' : Rabs ((X' - X0) * (- (mw * (u_of m j - u_of m (length y)) / rho) * (q * (f - g)) + G / Mc * cs * (f - g))) <= Q2R tolE * (Xs * (w1 + G / Mc * w2))).
    { rewrite Rabs_mult, <- (Rmult_assoc (Q2R tolE)). apply Rmult_le_compat; try apply Rabs_pos; assumption. }
    pose proof (Rmult_le_compat_l _ _ _ (proj1 TE) SZ) as SZ'. rewrite Rmult_plus_distr_l in SZ'. lra.
  Qed.
End Fall.
