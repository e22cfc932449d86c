(** Properties C75 and following: the Jacobian computed by the mechanism libraries.
    Vocabulary: MechJacR.v ([specific_rate], [no_switch], [heat_size]), MechJacE.v ([terms_size]), MechJacC.v ([gross_rate],
    [dydt_at], [idle]), MechJacW.v ([enthalpy], [mean_capacity], [energy_size]), MechJacX.v ([species_error]); the rest as in
    PropMech.v and PropKin.v. *)
From Coq Require Import List ZArith NArith QArith Qabs Qreals Reals Bool String Lra Lia.
From Verif Require Import Outcome Arith MechLang MechSrc MechReal MechChem Mechanisms
  MechSpec MechRate MechPmod MechConc MechRhs MechNames MechData MechNasa MechKin MechArr MechLaw
  MechTroe MechJac MechJacT MechJacD MechJacR MechJacE MechJacF MechJacC MechJacW MechJacX PropMech.
Import ListNotations.
Local Open Scope R_scope.

(** ** C75: derivatives with respect to the temperature *)

(** Every element of the temperature column is the weight of the species times the sum over the reactions of the
    molecules formed times one number per reaction; for a reaction without fall-off this number is the derivative
    of its rate of progress over the density at constant pressure and mass fractions. *)
Theorem C75_reactions : forall m (T p : R) (y dB0 : list R),
  List.length y = (s_NSP (library m) - 1)%nat -> 0 < T -> 0 < p ->
  (forall k, (k < List.length y)%nat -> 0 <= nth k y 0) -> Rsum y <= 1 ->
  (forall k, Q2R (n_mid (species_nasa m k)) <> T) -> List.length dB0 = s_NSP (library m) ->
  exists (J : list R) (j : nat -> R),
    lib_jacob_T (A := RA) exact_libm (library m) (jac_T m) p (T :: y) (repeat 0 (s_NSP (library m))) dB0 = Ok J /\
    List.length J = s_NSP (library m) /\
    (forall k, (k < s_NSP (library m) - 1)%nat ->
       nth (k + 1) J 0 = W m k * Rsumn (List.length (ch_reactions (chem m))) (fun i => nu (chem m) i k * j i)) /\
    forall i, (i < List.length (ch_reactions (chem m)))%nat -> rx_kind (rxn (chem m) i) <> Falloff ->
      exists d : R, derivable_pt_lim (specific_rate m p y i) T d /\
        Rabs (j i - d) <= 4 * Q2R (Qmake 1 1125899906842624) * (gross_rate m p y i T / T) * terms_size m T i.
Proof. exact temperature_reactions. Qed.
Print Assumptions C75_reactions.

(** So for a species in no fall-off reaction (or only in such that do not run, a species being absent on either side) the
    element is the derivative of the element of [dydt]. *)
Theorem C75_species : forall m (T p : R) (y dB0 : list R),
  List.length y = (s_NSP (library m) - 1)%nat -> 0 < T -> 0 < p ->
  (forall k, (k < List.length y)%nat -> 0 <= nth k y 0) -> Rsum y <= 1 ->
  (forall k, Q2R (n_mid (species_nasa m k)) <> T) -> List.length dB0 = s_NSP (library m) ->
  exists J : list R,
    lib_jacob_T (A := RA) exact_libm (library m) (jac_T m) p (T :: y) (repeat 0 (s_NSP (library m))) dB0 = Ok J /\
    List.length J = s_NSP (library m) /\
    forall k, (k < s_NSP (library m) - 1)%nat ->
      (forall i, (i < List.length (ch_reactions (chem m)))%nat -> nu (chem m) i k <> 0 -> rx_kind (rxn (chem m) i) = Falloff ->
         (exists s, In s (rx_lhs (rxn (chem m) i)) /\ (0 < snd s)%nat /\ nth (fst s) (y ++ [1 - Rsum y]) 0 = 0) /\
         (rx_rev (rxn (chem m) i) = true ->
          exists s, In s (rx_rhs (rxn (chem m) i)) /\ (0 < snd s)%nat /\ nth (fst s) (y ++ [1 - Rsum y]) 0 = 0)) ->
      exists D : R, derivable_pt_lim (dydt_at m p y (k + 1)) T D /\
        Rabs (nth (k + 1) J 0 - D) <=
        4 * Q2R (Qmake 1 1125899906842624) * W m k / T *
        Rsumn (List.length (ch_reactions (chem m))) (fun i => Rabs (nu (chem m) i k) * (gross_rate m p y i T * terms_size m T i)).
Proof. exact species_derivatives. Qed.
Print Assumptions C75_species.

(** O (species 2 of drm19) takes part in 18 reactions, none of them with fall-off; 1200 K is no switch temperature. *)
Example C75_case :
  nth 2 (foam_names drm19) ""%string = "O"%string /\
  (forall k, Q2R (n_mid (species_nasa drm19 k)) <> 1200) /\
  List.length (filter (fun i => negb (Qnum (net (rxn (chem drm19) i) 2) =? 0)%Z) (seq 0 (List.length (ch_reactions (chem drm19))))) = 18%nat /\
  (forall i, (i < List.length (ch_reactions (chem drm19)))%nat -> nu (chem drm19) i 2 <> 0 -> rx_kind (rxn (chem drm19) i) <> Falloff) /\
  List.length ex_mix = (s_NSP (library drm19) - 1)%nat /\ (forall k, (k < List.length ex_mix)%nat -> 0 <= nth k ex_mix 0) /\ Rsum ex_mix <= 1.
Proof.
  split; [reflexivity|]. split; [|split; [vm_compute; reflexivity|split; [|split; [reflexivity|split; [exact ex_mix_nonneg|rewrite ex_mix_sum; lra]]]]].
  - intros k. destruct (Nat.lt_ge_cases k (List.length (nasa drm19))) as [B|B].
    + assert (F : forallb (fun n => negb (Qeq_bool (n_mid n) 1200)) (nasa drm19) = true) by (vm_compute; reflexivity).
      rewrite forallb_forall in F. specialize (F _ (nth_In _ (mkNasa 0 [] []) B)).
      unfold species_nasa. intros E. replace 1200 with (Q2R 1200) in E by (unfold Q2R; cbn; lra).
      apply eqR_Qeq, Qeq_eq_bool in E. rewrite E in F. discriminate.
    + unfold species_nasa. rewrite nth_overflow by exact B. cbn [n_mid]. rewrite Q2R_0. lra.
  - intros i Hi Hn.
    assert (F : forallb (fun i => match rx_kind (rxn (chem drm19) i) with Falloff => (Qnum (net (rxn (chem drm19) i) 2) =? 0)%Z | _ => true end)
      (seq 0 (List.length (ch_reactions (chem drm19)))) = true) by (vm_compute; reflexivity).
    rewrite forallb_forall in F. specialize (F i ltac:(apply in_seq; lia)). intros K. rewrite K in F.
    apply Hn. unfold nu. apply Z.eqb_eq in F. unfold Q2R. rewrite F. apply Rmult_0_l.
Qed.

(** ** C76: fall-off reactions *)

(** The number of a fall-off reaction is the derivative of the product of the unmodified rate over the density and
    the fall-off factor, the factor with the parameters of chem.cti up to rounding. *)
Theorem C76_falloff : forall m (T p : R) (y dB0 : list R),
  List.length y = (s_NSP (library m) - 1)%nat -> 0 < T -> 0 < p ->
  (forall k, (k < List.length y)%nat -> 0 <= nth k y 0) -> Rsum y <= 1 ->
  (forall k, Q2R (n_mid (species_nasa m k)) <> T) -> List.length dB0 = s_NSP (library m) ->
  exists (J : list R) (j : nat -> R),
    lib_jacob_T (A := RA) exact_libm (library m) (jac_T m) p (T :: y) (repeat 0 (s_NSP (library m))) dB0 = Ok J /\
    List.length J = s_NSP (library m) /\
    (forall k, (k < s_NSP (library m) - 1)%nat ->
       nth (k + 1) J 0 = W m k * Rsumn (List.length (ch_reactions (chem m))) (fun i => nu (chem m) i k * j i)) /\
    forall i, (i < List.length (ch_reactions (chem m)))%nat -> rx_kind (rxn (chem m) i) = Falloff ->
      (gross_rate m p y i T = 0 -> j i = 0) /\
      exists (low : arrhenius) (c e U : R), k_low (kin m i) = Some low /\ near_ratio low (k_high (kin m i)) c e /\
        derivable_pt_lim (unmodified m p y i) T U /\
        match k_troe (kin m i) with
        | None => 0 < pr_at m p y i low c e T ->
            exists D, derivable_pt_lim (fun t => ln (pr_at m p y i low c e t / (1 + pr_at m p y i low c e t))) T D /\
              Rabs (j i - modifier m p y i T * (U + unmodified m p y i T * D)) <=
              Q2R (Qmake 1 1125899906842624) * gross_rate m p y i T *
              (4 * terms_size m T i / T + 3 * (lp_size T low (k_high (kin m i)) e / T / (1 + pr_at m p y i low c e T)))
        | Some t => exists z, near_centre t z /\
            (Q2R tiny < centre_at z T -> Q2R tiny < pr_at m p y i low c e T -> troe_B (centre_at z T) (pr_at m p y i low c e T) <> 0 ->
             exists D, derivable_pt_lim (fun t => ln (broad (centre_at z t) (pr_at m p y i low c e t) *
                 (pr_at m p y i low c e t / (1 + pr_at m p y i low c e t)))) T D /\
               Rabs (j i - modifier m p y i T * (U + unmodified m p y i T * D)) <=
               Q2R (Qmake 1 1125899906842624) * gross_rate m p y i T *
               (4 * terms_size m T i / T +
                3 * troe_size (centre_at z T) (pr_at m p y i low c e T) (centre_size z T) (lp_size T low (k_high (kin m i)) e / T)))
        end.
Proof. exact temperature_falloff. Qed.
Print Assumptions C76_falloff.

(** A mixture with H and CH2. *)
Definition ex_mixF : list R := [1/10; 1/100; 0; 2/10; 0; 0; 0; 1/100; 0; 0; 0; 0; 0; 0; 0; 0; 0; 0; 0; 0].

Lemma exp_m1 x : -1 <= x -> / 3 <= exp x.
Proof.
  intros H. apply Rle_trans with (exp (-1)).
  - replace (exp (-1)) with (/ exp 1) by (rewrite <- exp_Ropp; reflexivity). apply Rinv_le_contravar; [apply exp_pos|apply exp_le_3].
  - destruct H as [H| <-]; [left; apply exp_increasing, H|right; reflexivity].
Qed.

Lemma exp_le1 x : x <= 0 -> exp x <= 1.
Proof. intros [H|H]; [left; rewrite <- exp_0; apply exp_increasing, H|right; rewrite H; apply exp_0]. Qed.

Lemma no_switch_2000 : forall k, Q2R (n_mid (species_nasa drm19 k)) <> 2000.
Proof.
  intros k. destruct (Nat.lt_ge_cases k (List.length (nasa drm19))) as [B|B].
  - assert (F : forallb (fun n => negb (Qeq_bool (n_mid n) 2000)) (nasa drm19) = true) by (vm_compute; reflexivity).
    rewrite forallb_forall in F. specialize (F _ (nth_In _ (mkNasa 0 [] []) B)).
    unfold species_nasa. intros E. replace 2000 with (Q2R 2000) in E by (unfold Q2R; cbn; lra).
    apply eqR_Qeq, Qeq_eq_bool in E. rewrite E in F. discriminate.
  - unfold species_nasa. rewrite nth_overflow by exact B. cbn [n_mid]. rewrite Q2R_0. lra.
Qed.

Lemma tiny_small x : / 1000000 <= x -> Q2R tiny < x.
Proof.
  intros H. eapply Rlt_le_trans; [|exact H]. replace (/ 1000000) with (Q2R (Qmake 1 1000000)) by (unfold Q2R; cbn; lra).
  apply Qlt_Rlt. vm_compute. reflexivity.
Qed.

Lemma log10_le x n d : 0 < x -> Q2R tiny < x -> (0 < d)%nat -> x ^ d <= 10 ^ n -> log10c x <= INR n / INR d.
Proof.
  intros Hx Ht Hd H. unfold log10c. rewrite Rmax_left by lra. pose proof ln10_pos as L.
  assert (P : 0 < INR d) by (apply lt_0_INR; exact Hd).
  assert (Q : INR d * ln x <= INR n * ln 10).
  { rewrite <- !ln_pow by lra. destruct H as [H|H]; [left; apply ln_increasing; [apply pow_lt, Hx|exact H]|right; rewrite H; reflexivity]. }
  apply (Rmult_le_reg_r (INR d * ln 10)); [apply Rmult_lt_0_compat; assumption|].
  replace (ln x / ln 10 * (INR d * ln 10)) with (INR d * ln x) by (field; lra).
  replace (INR n / INR d * (INR d * ln 10)) with (INR n * ln 10) by (field; lra). exact Q.
Qed.

(** CH2 + H (+ M) <=> CH3 (+ M), reaction 29 of drm19, at 2000 K and 1 bar: whatever the parameters near those of chem.cti,
    the conditions on centre, reduced pressure and denominator are met. *)
Example C76_case :
  (29 < List.length (ch_reactions (chem drm19)))%nat /\ rx_kind (rxn (chem drm19) 29) = Falloff /\
  List.length ex_mixF = (s_NSP (library drm19) - 1)%nat /\ (forall k, (k < List.length ex_mixF)%nat -> 0 <= nth k ex_mixF 0) /\ Rsum ex_mixF <= 1 /\
  (forall k, Q2R (n_mid (species_nasa drm19 k)) <> 2000) /\
  exists low t, k_low (kin drm19 29) = Some low /\ k_troe (kin drm19 29) = Some t /\
  forall c e z, near_ratio low (k_high (kin drm19 29)) c e -> near_centre t z ->
    Q2R tiny < centre_at z 2000 /\ Q2R tiny < pr_at drm19 100000 ex_mixF 29 low c e 2000 /\
    troe_B (centre_at z 2000) (pr_at drm19 100000 ex_mixF 29 low c e 2000) <> 0.
Proof.
  assert (LM : List.length ex_mixF = (s_NSP (library drm19) - 1)%nat) by reflexivity.
  assert (NM : forall k, (k < List.length ex_mixF)%nat -> 0 <= nth k ex_mixF 0)
    by (intros k H; do 20 (destruct k as [|k]; [cbn; lra|]); cbn in H; lia).
  assert (SM : Rsum ex_mixF <= 1) by (cbn; lra).
  split; [vm_compute; repeat constructor|]. split; [vm_compute; reflexivity|]. do 3 (split; [assumption|]). split; [exact no_switch_2000|].
  destruct (k_low (kin drm19 29)) as [low|] eqn:KL; [|vm_compute in KL; discriminate].
  destruct (k_troe (kin drm19 29)) as [t|] eqn:KT; [|vm_compute in KT; discriminate].
  exists low, t. split; [reflexivity|]. split; [reflexivity|]. intros c e z (C0 & C1 & C2) (Z1 & Z2 & Z3 & Z4 & Z5).
  set (hi := k_high (kin drm19 29)) in *.
  assert (V1 : Q2R (a_A low) = 3200000000000000000000000000).
  { transitivity (Q2R (Qmake 3200000000000000000000000000 1)); [|unfold Q2R; cbn [Qnum Qden]; lra].
    apply Qeq_eqR. assert (E : Qeq_bool (match k_low (kin drm19 29) with Some a => a_A a | None => 0 end) (Qmake 3200000000000000000000000000 1) = true)
      by (vm_compute; reflexivity). rewrite KL in E. apply Qeq_bool_eq, E. }
  assert (V2 : Q2R (a_A hi) = 25000000000000000).
  { transitivity (Q2R (Qmake 25000000000000000 1)); [|unfold Q2R; cbn [Qnum Qden]; lra]. apply Qeq_eqR. vm_compute. reflexivity. }
  assert (V3 : exponent_T low hi = - (234 / 100)).
  { unfold exponent_T. rewrite <- Q2R_minus. transitivity (Q2R (Qmake (-234) 100)); [|unfold Q2R; cbn [Qnum Qden]; lra].
    apply Qeq_eqR. assert (E : Qeq_bool (match k_low (kin drm19 29) with Some a => a_b a - a_b hi | None => 0 end) (Qmake (-234) 100) = true)
      by (vm_compute; reflexivity). rewrite KL in E. apply Qeq_bool_eq, E. }
  assert (V4 : 0 <= act_T low <= 1000).
  { rewrite <- Q2R_qact. assert (E : (match k_low (kin drm19 29) with Some a => Qle_bool 0 (qact a) && Qle_bool (qact a) 1000 | None => false end) = true)
      by (vm_compute; reflexivity). rewrite KL in E. apply andb_true_iff in E as [E1 E2]. apply Qle_bool_iff, Qle_Rle in E1, E2.
    rewrite Q2R_0 in E1. replace (Q2R 1000) with 1000 in E2 by (unfold Q2R; cbn; lra). split; assumption. }
  assert (V5 : act_T hi = 0).
  { rewrite <- Q2R_qact, <- Q2R_0. apply Qeq_eqR. vm_compute. reflexivity. }
  assert (TT : (match k_troe (kin drm19 29) with
    | Some t => Qeq_bool (t_A t) 0.68 && Qeq_bool (t_T3 t) 78 && Qeq_bool (t_T1 t) 1995 && match t_T2 t with Some q => Qeq_bool q 5590 | None => false end
    | None => false end) = true) by (vm_compute; reflexivity).
  rewrite KT in TT. apply andb_true_iff in TT as [TT W4]. apply andb_true_iff in TT as [TT W3]. apply andb_true_iff in TT as [W1 W2].
  destruct (t_T2 t) as [q2|]; [|discriminate]. apply Qeq_bool_eq, Qeq_eqR in W1, W2, W3, W4.
  replace (Q2R 78) with 78 in W2 by (unfold Q2R; cbn; lra). replace (Q2R 1995) with 1995 in W3 by (unfold Q2R; cbn; lra).
  replace (Q2R 5590) with 5590 in W4 by (unfold Q2R; cbn; lra).
  destruct (ce_T2 z) as [x2|] eqn:EZ; [|contradiction].
  rewrite W1 in Z1, Z2. rewrite W2 in Z3. rewrite W3 in Z4. rewrite W4 in Z5. rewrite tolE_num in *.
  replace (Q2R 0.68) with (68 / 100) in * by (unfold Q2R; cbn; lra).
  assert (AB : forall u v w, 0 <= v -> Rabs (u - v) <= / 1125899906842624 * Rabs v -> v <= w -> 0 <= w -> v - w / 1000000 <= u <= v + w / 1000000).
  { intros u v w Hv B Hw Hw0. rewrite (Rabs_pos_eq v) in B by exact Hv. revert B. unfold Rabs. destruct (Rcase_abs _); intros B; lra. }
  apply (AB _ _ 1) in Z2; [|lra|lra|lra]. apply (AB _ _ 10000) in Z3; [|lra|lra|lra]. apply (AB _ _ 10000) in Z4; [|lra|lra|lra].
  apply (AB _ _ 10000) in Z5; [|lra|lra|lra].
  assert (Z1' : 31 / 100 <= ce_1 z <= 33 / 100) by (revert Z1; unfold Rabs; destruct (Rcase_abs _); intros; lra).
  assert (E2 : 0 <= e <= 1001).
  { rewrite V5, Rminus_0_r, Rabs_R0, Rplus_0_r in C2. apply (AB _ _ 1000) in C2; [|lra|lra|lra].
    revert C2. intros C2. assert (E : (match k_low (kin drm19 29) with Some a => Qle_bool 100 (qact a) | None => false end) = true)
      by (vm_compute; reflexivity). rewrite KL in E. apply Qle_bool_iff, Qle_Rle in E. rewrite Q2R_qact in E.
    replace (Q2R 100) with 100 in E by (unfold Q2R; cbn; lra). lra. }
  (* the centre *)
  assert (D3 : 0 < exp (- (2000) / ce_T3 z) <= 1).
  { split; [apply exp_pos|]. apply exp_le1. unfold Rdiv. assert (0 < / ce_T3 z) by (apply Rinv_0_lt_compat; lra). nra. }
  assert (D1 : / 9 <= exp (- (2000) / ce_T1 z) <= 1).
  { assert (I1 : 0 < / ce_T1 z) by (apply Rinv_0_lt_compat; lra). assert (J1 : ce_T1 z * / ce_T1 z = 1) by (apply Rinv_r; lra). split.
    - replace (- (2000) / ce_T1 z) with (-1000 * / ce_T1 z + -1000 * / ce_T1 z) by (unfold Rdiv; ring). rewrite exp_plus.
      pose proof (exp_m1 (-1000 * / ce_T1 z) ltac:(nra)). nra.
    - apply exp_le1. unfold Rdiv. nra. }
  assert (D2 : 0 < exp (- x2 / 2000) <= 1) by (split; [apply exp_pos|apply exp_le1; lra]).
  assert (BF : / 1000000 <= centre_at z 2000 <= 3).
  { unfold centre_at. rewrite EZ. nra. }
  (* the reduced pressure *)
  assert (PC : 0 < c <= 384000000 /\ 40000000 <= c).
  { rewrite V1, V2 in C1. assert (T2 : 0 <= Q2R tolA <= / 10).
    { split; [rewrite <- Q2R_0; apply Qle_Rle; vm_compute; discriminate|].
      replace (/ 10) with (Q2R (Qmake 1 10)) by (unfold Q2R; cbn; lra). apply Qle_Rle. vm_compute. discriminate. }
    assert (EL : ln 3200000000000000000000000000 - ln (1000 * 25000000000000000) = ln 128000000).
    { replace 3200000000000000000000000000 with (128000000 * (1000 * 25000000000000000)) by lra. rewrite ln_mult by lra. ring. }
    rewrite EL in C1. assert (BL : ln 128000000 - 1 <= ln c <= ln 128000000 + 1) by (revert C1; unfold Rabs; destruct (Rcase_abs _); intros; lra).
    assert (EC : c = exp (ln c)) by (symmetry; apply exp_ln; exact C0).
    assert (EQ : exp (ln 128000000) = 128000000) by (apply exp_ln; lra).
    assert (X1 : c <= 128000000 * 3).
    { rewrite EC. apply Rle_trans with (exp (ln 128000000 + 1)).
      - destruct (proj2 BL) as [B|B]; [left; apply exp_increasing, B|right; rewrite B; reflexivity].
      - rewrite exp_plus, EQ. pose proof exp_le_3. lra. }
    assert (X2 : 128000000 * / 3 <= c).
    { rewrite EC. apply Rle_trans with (exp (ln 128000000 + -1)).
      - rewrite exp_plus, EQ. pose proof (exp_m1 (-1) ltac:(lra)). lra.
      - destruct (proj1 BL) as [B|B]; [left; apply exp_increasing; lra|right; f_equal; lra]. }
    lra. }
  assert (L2 : 0 < ln 2000) by (rewrite <- ln_1; apply ln_increasing; lra).
  assert (PT : / 8000000000 <= exp (exponent_T low hi * ln 2000) <= / 4000000).
  { rewrite V3. assert (Q : forall n, exp (- INR n * ln 2000) = / 2000 ^ n).
    { intros n. rewrite Ropp_mult_distr_l_reverse, exp_Ropp. f_equal.
      rewrite <- (ln_pow 2000) by lra. apply exp_ln. apply pow_lt. lra. }
    pose proof (Q 2%nat) as Q2. pose proof (Q 3%nat) as Q3. cbn [INR pow] in Q2, Q3.
    replace (/ (2000 * (2000 * 1))) with (/ 4000000) in Q2 by (f_equal; lra).
    replace (/ (2000 * (2000 * (2000 * 1)))) with (/ 8000000000) in Q3 by (f_equal; lra).
    rewrite <- Q2, <- Q3. split; left; apply exp_increasing; nra. }
  assert (PE : / 3 <= exp (- e / 2000) <= 1) by (split; [apply exp_m1; lra|apply exp_le1; lra]).
  assert (PH : / 1000 <= collider drm19 100000 ex_mixF 29 2000 <= / 10).
  { destruct (conc_at drm19 100000 ex_mixF ltac:(lra) LM NM SM 2000 ltac:(lra)) as (conc & E & L & _ & CN & SC).
    unfold collider. rewrite E.
    assert (EB : forall k, 7 / 10 <= Q2R (efficiency (rxn (chem drm19) 29) k) <= 6).
    { intros k. unfold efficiency.
      assert (F : forallb (fun x => Qle_bool 0.7 (snd x) && Qle_bool (snd x) 6) (rx_eff (rxn (chem drm19) 29)) = true) by (vm_compute; reflexivity).
      destruct (find _ _) as [x|] eqn:FX; [|rewrite Q2R_1; lra]. apply find_some in FX as [FX _].
      rewrite forallb_forall in F. specialize (F _ FX). apply andb_true_iff in F as [F1 F2]. apply Qle_bool_iff, Qle_Rle in F1, F2.
      replace (Q2R 0.7) with (7 / 10) in F1 by (unfold Q2R; cbn; lra). replace (Q2R 6) with 6 in F2 by (unfold Q2R; cbn; lra). lra. }
    assert (BS : 7 / 10 * Rsumn (List.length conc) (fun k => nth k conc 0) <= third_body (rxn (chem drm19) 29) conc <=
      6 * Rsumn (List.length conc) (fun k => nth k conc 0)).
    { unfold third_body, Rsumn. generalize (seq 0 (List.length conc)). intros l. induction l as [|k l IH]; cbn [map Rsum]; [lra|].
      pose proof (CN k). pose proof (EB k). nra. }
    rewrite SC in BS. assert (GB : 8000 <= gas_constant <= 9000).
    { unfold gas_constant. unfold Q2R. cbn. lra. }
    assert (I1 : / (9000 * 2000) <= / (gas_constant * 2000) <= / (8000 * 2000)) by (split; apply Rinv_le_contravar; lra).
    unfold Rdiv in BS. lra. }
  assert (BP : / 1000000 <= pr_at drm19 100000 ex_mixF 29 low c e 2000 <= 10).
  { unfold pr_at, reduced. fold hi.
    set (u := exp (exponent_T low hi * ln 2000)) in *. set (v := exp (- e / 2000)) in *. set (w := collider drm19 100000 ex_mixF 29 2000) in *.
    assert (Y1 : 40000000 * / 8000000000 <= c * u <= 384000000 * / 4000000) by (split; apply Rmult_le_compat; lra).
    assert (Y2 : 40000000 * / 8000000000 * / 3 <= c * u * v <= 384000000 * / 4000000 * 1) by (split; apply Rmult_le_compat; lra).
    assert (Y3 : 40000000 * / 8000000000 * / 3 * / 1000 <= c * u * v * w <= 384000000 * / 4000000 * 1 * / 10) by (split; apply Rmult_le_compat; lra).
    lra. }
  split; [apply tiny_small; lra|]. split; [apply tiny_small; lra|].
  assert (B1 : log10c (centre_at z 2000) <= INR 1 / INR 2).
  { apply log10_le; [lra|apply tiny_small; lra|lia|]. cbn [pow]. nra. }
  assert (B2 : log10c (pr_at drm19 100000 ex_mixF 29 low c e 2000) <= INR 1 / INR 1).
  { apply log10_le; [lra|apply tiny_small; lra|lia|]. cbn [pow]. lra. }
  cbn [INR] in B1, B2. apply Rgt_not_eq. unfold troe_B.
  replace (0.806) with (806 / 1000) by (unfold Q2R; cbn; lra). replace (1.1762) with (11762 / 10000) by (unfold Q2R; cbn; lra).
  replace (0.14) with (14 / 100) by (unfold Q2R; cbn; lra). lra.
Qed.

(** ** C77: the rate of change of the temperature *)

(** drm19 and yao: the first element of the temperature column is the derivative of the first element of [dydt] if the
    others are derivatives of the others; their errors enter with the enthalpies over the heat capacity. *)
Theorem C77_temperature : forall m (T p : R) (y dB0 : list R), m <> gri30 ->
  List.length y = (s_NSP (library m) - 1)%nat -> 200 <= T <= 5000 -> 0 < p ->
  (forall k, (k < List.length y)%nat -> 0 <= nth k y 0) -> Rsum y <= 1 ->
  (forall k, Q2R (n_mid (species_nasa m k)) <> T) -> List.length dB0 = s_NSP (library m) ->
  exists J : list R,
    lib_jacob_T (A := RA) exact_libm (library m) (jac_T m) p (T :: y) (repeat 0 (s_NSP (library m))) dB0 = Ok J /\
    List.length J = s_NSP (library m) /\ 0 < mean_capacity m y T /\
    forall D : nat -> R, (forall k, (k < s_NSP (library m) - 1)%nat -> derivable_pt_lim (dydt_at m p y (k + 1)) T (D k)) ->
    exists D0 : R, derivable_pt_lim (dydt_at m p y 0) T D0 /\
      Rabs (nth 0 J 0 - D0 + Rsumn (s_NSP (library m) - 1) (fun k => (nth (k + 1) J 0 - D k) * enthalpy m k T) / mean_capacity m y T) <=
      3 * Q2R 4e-15 * energy_size m p y T / mean_capacity m y T.
Proof.
  intros m T p y dB0 Hm. apply temperature_element. destruct m; [vm_compute; reflexivity|contradiction|vm_compute; reflexivity].
Qed.
Print Assumptions C77_temperature.

(** So the whole column is the derivative where the fall-off reactions do not run. *)
Theorem C77_column : forall m (T p : R) (y dB0 : list R), m <> gri30 ->
  List.length y = (s_NSP (library m) - 1)%nat -> 200 <= T <= 5000 -> 0 < p ->
  (forall k, (k < List.length y)%nat -> 0 <= nth k y 0) -> Rsum y <= 1 ->
  (forall k, Q2R (n_mid (species_nasa m k)) <> T) -> List.length dB0 = s_NSP (library m) ->
  (forall i, (i < List.length (ch_reactions (chem m)))%nat -> rx_kind (rxn (chem m) i) = Falloff ->
     (exists s, In s (rx_lhs (rxn (chem m) i)) /\ (0 < snd s)%nat /\ nth (fst s) (y ++ [1 - Rsum y]) 0 = 0) /\
     (rx_rev (rxn (chem m) i) = true ->
      exists s, In s (rx_rhs (rxn (chem m) i)) /\ (0 < snd s)%nat /\ nth (fst s) (y ++ [1 - Rsum y]) 0 = 0)) ->
  exists J D : list R,
    lib_jacob_T (A := RA) exact_libm (library m) (jac_T m) p (T :: y) (repeat 0 (s_NSP (library m))) dB0 = Ok J /\
    List.length J = s_NSP (library m) /\ 0 < mean_capacity m y T /\
    (forall k, (k < s_NSP (library m))%nat -> derivable_pt_lim (dydt_at m p y k) T (nth k D 0)) /\
    (forall k, (k < s_NSP (library m) - 1)%nat -> Rabs (nth (k + 1) J 0 - nth (k + 1) D 0) <= species_error m p y T k) /\
    Rabs (nth 0 J 0 - nth 0 D 0) <=
      (Rsumn (s_NSP (library m) - 1) (fun k => species_error m p y T k * Rabs (enthalpy m k T)) +
       3 * Q2R 4e-15 * energy_size m p y T) / mean_capacity m y T.
Proof.
  intros m T p y dB0 Hm. apply temperature_element_idle. destruct m; [vm_compute; reflexivity|contradiction|vm_compute; reflexivity].
Qed.
Print Assumptions C77_column.

(** H2, O2, OH and N2 (drm19) at 2000 K: no fall-off reaction runs, but eight others have all their reactants. *)
Example C77_case :
  List.length ex_mix = (s_NSP (library drm19) - 1)%nat /\ (forall k, (k < List.length ex_mix)%nat -> 0 <= nth k ex_mix 0) /\ Rsum ex_mix <= 1 /\
  (forall k, Q2R (n_mid (species_nasa drm19 k)) <> 2000) /\
  (forall i, (i < List.length (ch_reactions (chem drm19)))%nat -> rx_kind (rxn (chem drm19) i) = Falloff -> idle drm19 ex_mix i) /\
  List.length (filter (fun i => forallb (fun s => existsb (Nat.eqb (fst s)) [0; 3; 4; 20]%nat) (rx_lhs (rxn (chem drm19) i)) ||
                                rx_rev (rxn (chem drm19) i) && forallb (fun s => existsb (Nat.eqb (fst s)) [0; 3; 4; 20]%nat) (rx_rhs (rxn (chem drm19) i)))
    (seq 0 (List.length (ch_reactions (chem drm19))))) = 8%nat /\
  (forall k, In k [0; 3; 4; 20]%nat -> 0 < nth k (ex_mix ++ [1 - Rsum ex_mix]) 0).
Proof.
  split; [reflexivity|]. split; [exact ex_mix_nonneg|]. split; [rewrite ex_mix_sum; lra|]. split; [exact no_switch_2000|]. split; [|split].
  - intros i Hi K.
    set (ab := fun l : list (nat * nat) => existsb (fun s => (0 <? snd s)%nat && (fst s <? 20)%nat && negb (existsb (Nat.eqb (fst s)) [0; 3; 4]%nat)) l).
    assert (F : forallb (fun i => match rx_kind (rxn (chem drm19) i) with Falloff => ab (rx_lhs (rxn (chem drm19) i)) && ab (rx_rhs (rxn (chem drm19) i)) | _ => true end)
      (seq 0 (List.length (ch_reactions (chem drm19)))) = true) by (vm_compute; reflexivity).
    rewrite forallb_forall in F. specialize (F i ltac:(apply in_seq; lia)). rewrite K in F. apply andb_true_iff in F as [F1 F2].
    assert (G : forall l, ab l = true -> absent ex_mix l).
    { intros l Hl. apply existsb_exists in Hl as (s & I & Hl). apply andb_true_iff in Hl as [Hl H3]. apply andb_true_iff in Hl as [H1 H2].
      exists s. split; [exact I|]. split; [apply Nat.ltb_lt, H1|]. apply Nat.ltb_lt in H2. apply negb_true_iff in H3.
      unfold all_fractions. rewrite app_nth1 by exact H2.
      destruct s as [k n]. cbn [fst] in *. do 20 (destruct k as [|k]; [first [discriminate H3|reflexivity]|]). lia. }
    split; [apply G, F1|intros _; apply G, F2].
  - vm_compute. reflexivity.
  - rewrite ex_mix_sum. intros k [<-|[<-|[<-|[<-|[]]]]]; cbn; lra.
Qed.

(** gri30: the last species (N2) reacts, but [J_nplusone] is overwritten by each of its 26 reactions instead of summed up.  In pure
    NNH at 1200 K and 10 bar the other elements are right and the first is wrong by more than a thousand times the bound of C77. *)
Theorem C77_gri30_refuted :
  List.length only_NNH = (s_NSP (library gri30) - 1)%nat /\ (forall k, (k < List.length only_NNH)%nat -> 0 <= nth k only_NNH 0) /\ Rsum only_NNH = 1 /\
  nth 34 only_NNH 0 = 1 /\ nth 34 (foam_names gri30) ""%string = "NNH"%string /\ (forall k, Q2R (n_mid (species_nasa gri30 k)) <> 1200) /\
  forall dB0, List.length dB0 = s_NSP (library gri30) ->
  exists (J : list R) (D : nat -> R) (D0 : R),
    lib_jacob_T (A := RA) exact_libm (library gri30) (jac_T gri30) 1000000 (1200 :: only_NNH) (repeat 0 (s_NSP (library gri30))) dB0 = Ok J /\
    (forall k, (k < s_NSP (library gri30) - 1)%nat -> derivable_pt_lim (dydt_at gri30 1000000 only_NNH (k + 1)) 1200 (D k) /\
       Rabs (nth (k + 1) J 0 - D k) <= species_error gri30 1000000 only_NNH 1200 k) /\
    derivable_pt_lim (dydt_at gri30 1000000 only_NNH 0) 1200 D0 /\ 0 < mean_capacity gri30 only_NNH 1200 /\
    1000 * (3 * Q2R 4e-15 * energy_size gri30 1000000 only_NNH 1200 / mean_capacity gri30 only_NNH 1200) <
    Rabs (nth 0 J 0 - D0 + Rsumn (s_NSP (library gri30) - 1) (fun k => (nth (k + 1) J 0 - D k) * enthalpy gri30 k 1200) / mean_capacity gri30 only_NNH 1200).
Proof.
  split; [reflexivity|]. split; [exact only_NNH_nonneg|]. split; [exact only_NNH_sum|]. split; [reflexivity|]. split; [reflexivity|].
  split; [exact no_switch_1200|]. exact last_species_lost.
Qed.
Print Assumptions C77_gri30_refuted.
