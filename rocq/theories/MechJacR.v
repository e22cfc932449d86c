(** The rates of the reactions as functions of the temperature, and their derivatives.
    The definitions below are not functions of /repo. *)
From Coq Require Import List ZArith NArith QArith Qabs Qreals Reals Bool Lra Lia.
From Verif Require Import Outcome Arith MechLang MechSym MechSrc MechCall MechReal MechPoly MechChem Mechanisms
  MechSpec MechRate MechPmod MechThermo MechConc MechDydt MechRhs MechData MechExp MechLaurent MechNasa MechKin MechArr
  MechJac MechJacT MechJacD.
Import ListNotations.
Local Open Scope R_scope.

(** ** Rate constants *)

(** Arrhenius slope: T times the derivative of ln k. *)
Definition slope (a : arrhenius) (T : R) : R := Q2R (a_b a) + act_T a / T.

(** The temperature is none at which a polynomial changes. *)
Definition no_switch (m : mechanism) (T : R) : Prop := forall k, Q2R (n_mid (species_nasa m k)) <> T.

Lemma regions_interior l : forall lo T, Q2R lo < T -> (forall q, In q l -> Q2R q <> T) ->
  exists r, In r (regions lo l) /\ Q2R (r_lo r) < T /\ match r_hi r with Some h => T < Q2R h | None => True end.
Proof.
  induction l as [|q l IH]; intros lo T H N; cbn [regions].
  - eexists. split; [left; reflexivity|]. split; [exact H|exact I].
  - destruct (Rlt_dec T (Q2R q)) as [L|L].
    + eexists. split; [left; reflexivity|]. split; assumption.
    + assert (Q2R q < T) by (specialize (N q (or_introl eq_refl)); lra).
      destruct (IH q T ltac:(lra)) as (r & R1 & R2); [intros; apply N; right; assumption|].
      exists r. split; [right; exact R1|exact R2].
Qed.

Lemma regions_lo l : forall lo r, 0 <= Q2R lo -> (forall q, In q l -> 0 <= Q2R q) -> In r (regions lo l) -> 0 <= Q2R (r_lo r).
Proof.
  induction l as [|q l IH]; intros lo r H N; cbn [regions In].
  - intros [<-|[]]. exact H.
  - intros [<-|I]; [exact H|]. apply (IH q r); [apply N; left; reflexivity|intros; apply N; right; assumption|exact I].
Qed.

Lemma insert_in q l x : In x (insert q l) -> x = q \/ In x l.
Proof.
  induction l as [|y l IH]; cbn [insert].
  - intros [->|[]]. auto.
  - destruct (Qeq_bool q y); [auto|]. destruct (Qle_bool q y).
    + intros [->|I]; auto.
    + intros [->|I]; [right; left; reflexivity|]. destruct (IH I); [auto|right; right; assumption].
Qed.

Lemma switches_in N r x : In x (switches N r) -> exists k, x = n_mid (nth k N (mkNasa 0 [] [])).
Proof.
  unfold switches. induction (rx_lhs r ++ rx_rhs r) as [|p l IH]; cbn [map fold_right]; [intros []|].
  intros H. apply insert_in in H as [->|H]; [eauto|apply IH, H].
Qed.

Lemma common_mid m k : n_mid (nth k (common_all (nasa m)) (mkNasa 0 [] [])) = n_mid (species_nasa m k).
Proof.
  unfold common_all, species_nasa.
  change (mkNasa 0 [] []) with ((fun n => mkNasa (n_mid n) (common (n_low n)) (common (n_high n))) (mkNasa 0 [] [])) at 1.
  rewrite map_nth. reflexivity.
Qed.

Lemma constant_wsum l q T : constant (mkLau 0 0 l) = Some q -> wsum 0 (map Q2R l) T = 0.
Proof.
  unfold constant. cbn. destruct l as [|a [|]]; try discriminate; intros _; cbn; ring.
Qed.

Lemma arr_form a n e : arr_ok a n e = true ->
  exists c l, pos_form anyT e = Some (c, l) /\
    forall T, 0 < T -> Rabs (dlau l T - slope a T) <= Q2R tolE * (Rabs (act_T a) / T).
Proof.
  unfold arr_ok. destruct (pos_form anyT e) as [[c l]|]; [|discriminate]. intros H. exists c, l. split; [reflexivity|].
  intros T HT.
  apply andb_true_iff in H as [H H3]. apply andb_true_iff in H as [H1 H2].
  apply Qeq_bool_iff, Qeq_eqR in H1. apply Qle_bool_iff, Qle_Rle in H2.
  rewrite Q2R_mult, !Q2R_abs, Q2R_qplus, Q2R_qact in H2.
  destruct (constant (mkLau 0 0 (l_poly l))) as [q|] eqn:C; [|discriminate].
  unfold dlau, slope. rewrite (constant_wsum _ q T C), H1.
  match goal with |- Rabs ?x <= _ => replace x with (- ((Q2R (l_inv l) + act_T a) * / T)) by (unfold Rdiv; ring) end.
  rewrite Rabs_Ropp, Rabs_mult, (Rabs_pos_eq (/ T)) by (left; apply Rinv_0_lt_compat, HT).
  unfold Rdiv. rewrite <- Rmult_assoc. apply Rmult_le_compat_r; [left; apply Rinv_0_lt_compat, HT|exact H2].
Qed.

Lemma in_anyT T : 0 < T -> inside anyT T.
Proof. intros HT. split; [cbn [r_lo anyT]; rewrite Q2R_0; exact HT|exact I]. Qed.

(** T times the derivative of ln Kc. *)
Definition heat (m : mechanism) (T : R) (r : reaction) : R :=
  side_sum (rx_rhs r) (fun k => h_RT m T k - 1) - side_sum (rx_lhs r) (fun k => h_RT m T k - 1).

(** Size of its terms. *)
Definition heat_size (m : mechanism) (T : R) (r : reaction) : R :=
  side_sum (rx_lhs r) (h_size m T) + side_sum (rx_rhs r) (h_size m T).

(** The rate constants of the library near a temperature are multiples of exponentials with the right
    derivatives. *)
Lemma k_forms m (T p : R) i : 0 < T -> no_switch m T -> (i < length (ch_reactions (chem m)))%nat ->
  exists (c : R) (l : laurent),
    0 < c /\ (forall t, 0 < t -> k_fwd exact_libm (library m) t p i = c * exp (lau_val l t)) /\
    Rabs (dlau l T - slope (k_high (kin m i)) T) <= Q2R tolE * (Rabs (act_T (k_high (kin m i))) / T) /\
    (rx_rev (rxn (chem m) i) = true ->
     exists (d : R) (e : laurent) (lo hi : R), 0 < d /\ 0 <= lo < T /\ T < hi /\
       (forall t, lo < t < hi -> k_rev exact_libm (library m) (chem m) t p i = d * exp (lau_val e t)) /\
       Rabs (dlau e T - (dlau l T - heat m T (rxn (chem m) i))) <= Q2R tolE * heat_size m T (rxn (chem m) i)).
Proof.
  intros HT HN Hi. pose proof (kinetics_all m) as H. unfold kinetics_ok in H. unfold k_fwd, k_rev.
  destruct (rate_state (library m)) as [s|]; [|discriminate].
  apply andb_true_iff in H as [_ H]. rewrite forallb_forall in H. specialize (H i ltac:(apply in_seq; lia)).
  unfold reaction_ok in H. unfold rate_constant.
  destruct (split (fwd_form (library m) s i)) as [[lf kf]|]; [|discriminate].
  apply andb_true_iff in H as [H1 H2]. destruct (arr_form _ _ _ H1) as (c & l & Pf & Df).
  set (rho := fun t : R => argument [(v_T, [t] : list (num RA)); (v_pres, [p])]).
  exists (Q2R c), l.
  split; [apply (pos_form_val (rho T) anyT (in_anyT T HT) kf c l Pf)|].
  split; [intros t Ht; apply (pos_form_val (rho t) anyT (in_anyT t Ht) kf c l Pf)|].
  split; [apply Df, HT|].
  intros Rv. rewrite Rv in H2 |- *.
  destruct (split (rev_form (library m) (chem m) s i)) as [[lr kr]|]; [|discriminate].
  set (r := rxn (chem m) i) in *.
  unfold equil_ok in H2. destruct kr as [| | | | | |a K| | | | | |]; try discriminate.
  apply andb_true_iff in H2 as [H2 H3]. apply same_form_eq in H2 as [H2 _]. rewrite Pf in H2. symmetry in H2.
  destruct (regions_interior (switches (common_all (nasa m)) r) 0 T) as (g & G1 & G2 & G3).
  { rewrite Q2R_0. exact HT. }
  { intros q Hq. apply switches_in in Hq as (k & ->). rewrite common_mid. apply HN. }
  rewrite forallb_forall in H3. specialize (H3 g G1). cbv beta in H3.
  destruct (pos_form g K) as [[d e]|] eqn:EK; [|discriminate].
  destruct (side_lau (common_all (nasa m)) g_lau g (rx_rhs r)) as [sr|] eqn:ER; [|discriminate].
  destruct (side_lau (common_all (nasa m)) g_lau g (rx_lhs r)) as [sl|] eqn:EL; [|discriminate].
  destruct (side_lau (common_all (nasa m)) g_scale g (rx_rhs r ++ rx_lhs r)) as [ss|] eqn:ES; [|discriminate].
  apply andb_true_iff in H3 as [_ H3].
  assert (GT : inside g T) by (split; [exact G2|destruct (r_hi g); [left; exact G3|exact I]]).
  apply (dlau_near _ _ _ _ T) in H3; [|exact HT].
  rewrite dlau_scale, dlau_add, dlau_scale, Q2R_60, Q2R_m1 in H3.
  rewrite (side_lau_d m g _ T HT GT _ ER), (side_lau_d m g _ T HT GT _ EL) in H3.
  pose proof (side_lau_dsize m g _ T HT GT _ ES) as SS. rewrite side_app in SS.
  destruct (pos_form_val (rho T) g GT K d e EK) as [Pd _].
  destruct (pos_form_val (rho T) anyT (in_anyT T HT) kf c l Pf) as [Pc _].
  exists (Q2R c / Q2R d), (lau_add l (lau_scale (-1) e)), (Rmax 0 (Q2R (r_lo g))),
    (match r_hi g with Some h => Q2R h | None => T + 1 end).
  split; [apply Rdiv_lt_0_compat; assumption|].
  split; [split; [apply Rmax_l|apply Rmax_lub_lt; assumption]|].
  split; [destruct (r_hi g); lra|].
  split.
  - intros t [Lt Ht]. assert (T0 : 0 < t) by (eapply Rle_lt_trans; [apply Rmax_l|exact Lt]).
    assert (Gt : inside g t).
    { split; [eapply Rle_lt_trans; [apply Rmax_r|exact Lt]|]. destruct (r_hi g); [left; exact Ht|exact I]. }
    destruct (pos_form_val (rho t) g Gt K d e EK) as [_ VK].
    destruct (pos_form_val (rho t) anyT (in_anyT t T0) a c l H2) as [_ Va].
    change (rho t v_T 0%N) with t in VK, Va.
    change (rval exact_libm (argument [(v_T, [t] : list (num RA)); (v_pres, [p])]) (Div a K))
      with (rval exact_libm (rho t) a / rval exact_libm (rho t) K).
    rewrite VK, Va, lau_add_val, lau_scale_val, Q2R_m1, exp_plus.
    replace (-1 * lau_val e t) with (- lau_val e t) by ring. rewrite exp_Ropp.
    field. split; [apply Rgt_not_eq, exp_pos|lra].
  - rewrite dlau_add, dlau_scale, Q2R_m1. unfold heat, heat_size.
    set (SL := side_sum (rx_lhs r) (fun k => h_RT m T k - 1)) in *. set (SR := side_sum (rx_rhs r) (fun k => h_RT m T k - 1)) in *.
    set (ZL := side_sum (rx_lhs r) (h_size m T)) in *. set (ZR := side_sum (rx_rhs r) (h_size m T)) in *.
    replace (dlau l T + -1 * dlau e T - (dlau l T - (SR - SL))) with (- (dlau e T - (SR - SL))) by ring. rewrite Rabs_Ropp.
    match type of H3 with Rabs ?x <= _ => replace x with (60 * (dlau e T - (SR - SL))) in H3 by ring end.
    rewrite Rabs_mult, (Rabs_pos_eq 60) in H3 by lra.
    apply (Rmult_le_compat_l (Q2R tolE)) in SS; [|apply tolE_val]. lra.
Qed.

(** ** The rates along a path of constant pressure and composition *)

Lemma conc_product_inv (C C1 : list R) l t : t <> 0 -> (forall k, nth k C 0 = nth k C1 0 / t) ->
  conc_product C l = conc_product C1 l * (/ t) ^ molecules l.
Proof.
  intros Ht H. unfold conc_product. induction l as [|[k n] l IH]; [cbn; ring|].
  cbn [map Rprod fst snd]. rewrite IH, H, molecules_cons, pow_add. unfold Rdiv. rewrite Rpow_mult_distr. ring.
Qed.

Lemma third_body_inv r (C C1 : list R) t : length C = length C1 -> (forall k, nth k C 0 = nth k C1 0 / t) ->
  third_body r C = third_body r C1 / t.
Proof.
  intros L H. unfold third_body. rewrite L. unfold Rsumn, Rdiv. rewrite Rmult_comm, <- Rsum_scal. apply Rsum_ext.
  intros k _. rewrite H. unfold Rdiv. ring.
Qed.

Lemma pow_exp t n : 0 < t -> (/ t) ^ n = exp (- INR n * ln t).
Proof.
  intros H. induction n as [|n IH].
  - cbn [pow INR]. rewrite Ropp_0, Rmult_0_l, exp_0. reflexivity.
  - cbn [pow]. rewrite IH, S_INR. replace (- (INR n + 1) * ln t) with (- ln t + - INR n * ln t) by ring.
    rewrite exp_plus, exp_Ropp, exp_ln by exact H. reflexivity.
Qed.

(** Adds a multiple of ln T. *)
Definition shift (z : Q) (l : laurent) : laurent := lau_add (mkLau z 0 []) l.

Lemma shift_val z l t : 0 < t -> exp (lau_val (shift z l) t) = exp (Q2R z * ln t) * exp (lau_val l t).
Proof.
  intros Ht. unfold shift. rewrite lau_add_val, exp_plus. f_equal. f_equal. unfold lau_val, qeval. cbn. rewrite Q2R_0.
  unfold Rdiv. ring.
Qed.

Lemma shift_d z l t : dlau (shift z l) t = Q2R z + dlau l t.
Proof. unfold shift. rewrite dlau_add. f_equal. unfold dlau. cbn. rewrite Q2R_0. unfold Rdiv. ring. Qed.

(** Rate of progress of reaction [i] over the density, as the library computes it at temperature [t],
    pressure [p] and mass fractions [y]. *)
Definition specific_rate (m : mechanism) (p : R) (y : list R) (i : nat) (t : R) : R :=
  match lib_eval_conc (A := RA) exact_libm (library m) t p y with
  | Ok (_, _, rho, conc) =>
      match lib_eval_rxn_rates (A := RA) exact_libm (library m) t p conc, lib_get_rxn_pres_mod (A := RA) exact_libm (library m) t p conc with
      | Ok (fwd, rev), Ok pm => progress (chem m) fwd rev pm i / rho
      | _, _ => 0
      end
  | _ => 0
  end.

(** The same without the pressure modification. *)
Definition unmodified (m : mechanism) (p : R) (y : list R) (i : nat) (t : R) : R :=
  match lib_eval_conc (A := RA) exact_libm (library m) t p y with
  | Ok (_, _, rho, conc) =>
      match lib_eval_rxn_rates (A := RA) exact_libm (library m) t p conc with
      | Ok (fwd, rev) =>
          (nth i fwd 0 - (if rx_rev (rxn (chem m) i) then nth (rank rx_rev (ch_reactions (chem m)) i) rev 0 else 0)) / rho
      | _ => 0
      end
  | _ => 0
  end.

(** The pressure modification. *)
Definition modifier (m : mechanism) (p : R) (y : list R) (i : nat) (t : R) : R :=
  match lib_eval_conc (A := RA) exact_libm (library m) t p y with
  | Ok (_, _, _, conc) =>
      match lib_get_rxn_pres_mod (A := RA) exact_libm (library m) t p conc with
      | Ok pm => if pdep (rxn (chem m) i) then nth (rank pdep (ch_reactions (chem m)) i) pm 0 else 1
      | _ => 0
      end
  | _ => 0
  end.

(** Exponent of T in the concentrations of [n] molecules over the density. *)
Definition power (n : nat) : Q := (1 - qnat n)%Q.

Lemma Q2R_power n : Q2R (power n) = 1 - INR n.
Proof. unfold power, qnat. rewrite Q2R_minus, Q2R_nat, Q2R_1. reflexivity. Qed.

Lemma power_val n t : 0 < t -> t * (/ t) ^ n = exp (Q2R (power n) * ln t).
Proof.
  intros Ht. rewrite Q2R_power. replace ((1 - INR n) * ln t) with (ln t + - INR n * ln t) by ring.
  rewrite exp_plus, exp_ln by exact Ht. rewrite pow_exp by exact Ht. reflexivity.
Qed.

Section Path.
  Variable m : mechanism.
  Variable p : R.
  Variable y : list R.
  Hypothesis Hp : 0 < p.
  Hypothesis Ly : length y = (s_NSP (library m) - 1)%nat.
  Hypothesis H1 : forall k, (k < length y)%nat -> 0 <= nth k y 0.
  Hypothesis H2 : Rsum y <= 1.
  Notation S := (library m).

  (** Density and concentrations at 1 K. *)
  Definition rho1 : R := p * (1 / specific_moles S y) / gas_constant.

  (** Concentrations at 1 K. *)
  Definition conc1 : list R :=
    map (fun k => rho1 * nth k (all_fractions y) 0 * Q2R (nth k (inverse_weights S) 0%Q)) (seq 0 (s_NSP S)).

  Lemma conc_at t : 0 < t -> exists conc : list R,
    lib_eval_conc (A := RA) exact_libm S t p y = Ok (1 - Rsum y, 1 / specific_moles S y, rho1 / t, conc) /\
    length conc = s_NSP S /\ (forall k, nth k conc 0 = nth k conc1 0 / t) /\ (forall k, 0 <= nth k conc 0) /\
    Rsumn (length conc) (fun k => nth k conc 0) = p / (gas_constant * t).
  Proof.
    intros Ht. pose proof gas_pos as HG.
    destruct (concentrations exact_libm S t p y (conc_all m) Ly) as (conc & E & L & G).
    destruct (concentrations_nonneg exact_libm m p t y Ly Ht Hp H1 H2) as (a & b & c & C' & E' & _ & _ & N & SC & _).
    rewrite E in E'. injection E' as <- <- <- <-.
    assert (HM : specific_moles S y <> 0) by apply Rgt_not_eq, (specific_moles_positive m y Ly H1 H2).
    assert (HR : rho1 / t = p * (1 / specific_moles S y) / (gas_constant * t)).
    { unfold rho1. field. repeat split; (lra || exact HM). }
    exists conc. split; [rewrite HR; exact E|].
    split; [exact L|]. split; [|split; [exact N|exact SC]].
    intros k. destruct (Nat.lt_ge_cases k (s_NSP S)) as [B|B].
    - rewrite (G k B). unfold conc1. rewrite (nth_map_seq (fun k => rho1 * nth k (all_fractions y) 0 * Q2R (nth k (inverse_weights S) 0%Q))) by exact B.
      rewrite <- HR. unfold Rdiv. ring.
    - rewrite !nth_overflow; [unfold Rdiv; ring| |lia]. unfold conc1. rewrite map_length, seq_length. exact B.
  Qed.

  Lemma rho1_pos : 0 < rho1.
  Proof.
    unfold rho1. apply Rdiv_lt_0_compat; [|exact gas_pos]. apply Rmult_lt_0_compat; [exact Hp|].
    apply Rdiv_lt_0_compat; [lra|apply (specific_moles_positive m y Ly H1 H2)].
  Qed.

  (** Third-body factor of a reaction at 1 K. *)
  Definition third1 (r : reaction) : R := match rx_kind r with ThreeBody => third_body r conc1 | _ => 1 end.

  (** What the library computes at temperature [t]. *)
  Lemma rates_at t : 0 < t -> exists conc fwd rev pm : list R,
    lib_eval_conc (A := RA) exact_libm S t p y = Ok (1 - Rsum y, 1 / specific_moles S y, rho1 / t, conc) /\ length conc = s_NSP S /\
    lib_eval_rxn_rates (A := RA) exact_libm S t p conc = Ok (fwd, rev) /\ length fwd = s_fwd S /\ length rev = s_rev S /\
    lib_get_rxn_pres_mod (A := RA) exact_libm S t p conc = Ok pm /\ length pm = s_pmod S /\
    (forall k, 0 <= nth k conc 0) /\ Rsumn (length conc) (fun k => nth k conc 0) = p / (gas_constant * t) /\
    forall i, (i < length (ch_reactions (chem m)))%nat ->
      specific_rate m p y i t = progress (chem m) fwd rev pm i / (rho1 / t) /\
      unmodified m p y i t =
        (nth i fwd 0 - (if rx_rev (rxn (chem m) i) then nth (rank rx_rev (ch_reactions (chem m)) i) rev 0 else 0)) / (rho1 / t) /\
      modifier m p y i t = (if pdep (rxn (chem m) i) then nth (rank pdep (ch_reactions (chem m)) i) pm 0 else 1) /\
      0 <= nth i fwd 0 /\
      nth i fwd 0 = k_fwd exact_libm S t p i * conc_product conc1 (rx_lhs (rxn (chem m) i)) * (/ t) ^ molecules (rx_lhs (rxn (chem m) i)) /\
      (rx_rev (rxn (chem m) i) = true ->
       0 <= nth (rank rx_rev (ch_reactions (chem m)) i) rev 0 /\
       nth (rank rx_rev (ch_reactions (chem m)) i) rev 0 =
       k_rev exact_libm S (chem m) t p i * conc_product conc1 (rx_rhs (rxn (chem m) i)) * (/ t) ^ molecules (rx_rhs (rxn (chem m) i))) /\
      (rx_kind (rxn (chem m) i) = ThreeBody ->
       0 <= nth (rank pdep (ch_reactions (chem m)) i) pm 0 /\
       nth (rank pdep (ch_reactions (chem m)) i) pm 0 = third1 (rxn (chem m) i) / t).
  Proof.
    intros Ht. destruct (conc_at t Ht) as (conc & E & L & C1 & CN & SC).
    assert (HE : forall x : R, 0 < m_exp exact_libm x) by (intros x; apply exp_pos).
    assert (HW : forall x z : R, 0 < x -> 0 < m_pow exact_libm x z) by (intros x z _; apply exp_pos).
    destruct (mass_action_at exact_libm S (chem m) t p (rates_all m) HE Ht Hp) as [PK G].
    destruct (G conc L) as (fwd & rev & E2 & Lf & Lr & V).
    destruct (pressure_modifications exact_libm S (chem m) t p (pmod_all m) HE HW Ht Hp) as (ra & _ & PM).
    destruct (PM conc L SC) as (pm & E3 & Lp & VP).
    exists conc, fwd, rev, pm. do 7 (split; [assumption|]). split; [exact CN|]. split; [exact SC|].
    intros i Hi. destruct (V i Hi) as [Vf Vr]. destruct (PK i Hi) as [Pf Pr].
    split; [unfold specific_rate; rewrite E, E2, E3; reflexivity|].
    split; [unfold unmodified; rewrite E, E2; reflexivity|].
    split; [unfold modifier; rewrite E, E3; reflexivity|].
    split; [rewrite Vf; apply Rmult_le_pos; [lra|apply conc_product_nonneg, CN]|].
    split; [rewrite Vf, (conc_product_inv conc conc1 _ t) by (try exact C1; lra); ring|].
    split.
    - intros Rv. specialize (Vr Rv).
      split; [rewrite Vr; apply Rmult_le_pos; [lra|apply conc_product_nonneg, CN]|].
      rewrite Vr, (conc_product_inv conc conc1 _ t) by (try exact C1; lra); ring.
    - intros K. specialize (VP i Hi). rewrite K in VP.
      split; [rewrite VP; apply third_body_nonneg, CN|].
      unfold third1. rewrite VP, K. apply third_body_inv; [|exact C1].
      rewrite L. unfold conc1. rewrite map_length, seq_length. reflexivity.
  Qed.

  (** Derivative of the unmodified rate. *)
  Lemma unmodified_derive T i : 0 < T -> no_switch m T -> (i < length (ch_reactions (chem m)))%nat ->
    forall conc fwd rev : list R,
    lib_eval_conc (A := RA) exact_libm S T p y = Ok (1 - Rsum y, 1 / specific_moles S y, rho1 / T, conc) ->
    lib_eval_rxn_rates (A := RA) exact_libm S T p conc = Ok (fwd, rev) ->
    exists Df Dr : R,
      derivable_pt_lim (unmodified m p y i) T
        ((nth i fwd 0 * Df - (if rx_rev (rxn (chem m) i) then nth (rank rx_rev (ch_reactions (chem m)) i) rev 0 else 0) * Dr) / T / (rho1 / T)) /\
      Rabs (Df - (slope (k_high (kin m i)) T + (1 - INR (molecules (rx_lhs (rxn (chem m) i)))))) <=
        Q2R tolE * (Rabs (act_T (k_high (kin m i))) / T) /\
      (rx_rev (rxn (chem m) i) = true ->
       Rabs (Dr - (slope (k_high (kin m i)) T - heat m T (rxn (chem m) i) + (1 - INR (molecules (rx_rhs (rxn (chem m) i)))))) <=
         Q2R tolE * (Rabs (act_T (k_high (kin m i))) / T + heat_size m T (rxn (chem m) i))).
  Proof.
    intros HT HN Hi conc fwd rev E1 E2.
    destruct (k_forms m T p i HT HN Hi) as (c & l & Hc & Vf & Bf & Hr).
    pose proof rho1_pos as Hrho.
    set (r := rxn (chem m) i) in *.
    set (P := conc_product conc1 (rx_lhs r)). set (nl := molecules (rx_lhs r)).
    set (Af := c * P / rho1). set (lf := shift (power nl) l).
    destruct (rates_at T HT) as (conc' & fwd' & rev' & pm & E1' & _ & E2' & _ & _ & _ & _ & _ & _ & VT).
    rewrite E1 in E1'. injection E1' as <-. rewrite E2 in E2'. injection E2' as <- <-.
    destruct (VT i Hi) as (_ & _ & _ & _ & VTf & VTr & _). fold r in VTf, VTr.
    assert (Ff : forall t, 0 < t -> k_fwd exact_libm S t p i * P * (/ t) ^ nl / (rho1 / t) = Af * exp (lau_val lf t)).
    { intros t Ht. unfold lf. rewrite shift_val, <- power_val, Vf by exact Ht. unfold Af. field. lra. }
    assert (Dlf : dlau lf T = dlau l T + (1 - INR nl)) by (unfold lf; rewrite shift_d, Q2R_power; ring).
    assert (Vfw : Af * exp (lau_val lf T) = nth i fwd 0 / (rho1 / T)) by (rewrite VTf, <- Ff by exact HT; reflexivity).
    assert (Bl : Rabs (dlau lf T - (slope (k_high (kin m i)) T + (1 - INR nl))) <= Q2R tolE * (Rabs (act_T (k_high (kin m i))) / T)).
    { rewrite Dlf. match goal with |- Rabs ?x <= _ => replace x with (dlau l T - slope (k_high (kin m i)) T) by ring end. exact Bf. }
    destruct (rx_rev r) eqn:Rv.
    - destruct (Hr eq_refl) as (d & e & lo & hi & Hd & [Hlo HloT] & Hhi & Vr & Br).
      set (Q := conc_product conc1 (rx_rhs r)). set (nr := molecules (rx_rhs r)).
      set (Ar := d * Q / rho1). set (lr := shift (power nr) e).
      assert (Fr : forall t, lo < t < hi -> k_rev exact_libm S (chem m) t p i * Q * (/ t) ^ nr / (rho1 / t) = Ar * exp (lau_val lr t)).
      { intros t Ht. assert (0 < t) by lra. unfold lr. rewrite shift_val, <- power_val, Vr by (try exact Ht; lra). unfold Ar. field. lra. }
      assert (Dlr : dlau lr T = dlau e T + (1 - INR nr)) by (unfold lr; rewrite shift_d, Q2R_power; ring).
      destruct (VTr eq_refl) as [_ VTr'].
      assert (Vrv : Ar * exp (lau_val lr T) = nth (rank rx_rev (ch_reactions (chem m)) i) rev 0 / (rho1 / T))
        by (rewrite VTr', <- Fr by lra; reflexivity).
      exists (dlau lf T), (dlau lr T). split; [|split].
      + apply (derivable_pt_lim_locally_ext (fun t => Af * exp (lau_val lf t) - Ar * exp (lau_val lr t)) _ T lo hi); [lra| |].
        * intros t Ht. assert (Ht0 : 0 < t) by lra.
          destruct (rates_at t Ht0) as (C & F & G & PM & _ & _ & _ & _ & _ & _ & _ & _ & _ & V).
          destruct (V i Hi) as (_ & U & _ & _ & V1 & V2 & _). fold r in U, V1, V2. rewrite Rv in U, V2. rewrite U.
          destruct (V2 eq_refl) as [_ V2']. rewrite V1, V2', <- Ff, <- Fr by assumption.
          fold P nl Q nr. unfold Rdiv. ring.
        * replace (_ / T / (rho1 / T)) with (Af * exp (lau_val lf T) * dlau lf T / T - Ar * exp (lau_val lr T) * dlau lr T / T)
            by (rewrite Vfw, Vrv; unfold Rdiv; ring).
          apply derivable_pt_lim_minus; apply exp_derive, HT.
      + exact Bl.
      + intros _. rewrite Dlr.
        match goal with |- Rabs ?x <= _ => replace x with
          ((dlau l T - slope (k_high (kin m i)) T) + (dlau e T - (dlau l T - heat m T r))) by ring end.
        eapply Rle_trans; [apply Rabs_triang|]. rewrite Rmult_plus_distr_l. lra.
    - exists (dlau lf T), 0. split; [|split].
      + apply (derivable_pt_lim_locally_ext (fun t => Af * exp (lau_val lf t)) _ T 0 (T + 1)); [lra| |].
        * intros t Ht. assert (Ht0 : 0 < t) by lra.
          destruct (rates_at t Ht0) as (C & F & G & PM & _ & _ & _ & _ & _ & _ & _ & _ & _ & V).
          destruct (V i Hi) as (_ & U & _ & _ & V1 & _). fold r in U, V1. rewrite Rv in U. rewrite U.
          rewrite V1, <- Ff by assumption. fold P nl. rewrite Rminus_0_r. reflexivity.
        * replace (_ / T / (rho1 / T)) with (Af * exp (lau_val lf T) * dlau lf T / T)
            by (rewrite Vfw; unfold Rdiv; ring).
          apply exp_derive, HT.
      + exact Bl.
      + discriminate.
  Qed.
End Path.
