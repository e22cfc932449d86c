(** The temperature column of the Jacobian computed by [eval_jacob].
    The definitions below are not functions of /repo. *)
From Coq Require Import List ZArith NArith QArith Qabs Qreals Reals Bool Lra Lia.
From Verif Require Import Outcome Arith MechLang MechSym MechSrc MechCall MechReal MechPoly MechChem Mechanisms
  MechSpec MechRate MechPmod MechThermo MechConc MechDydt MechRhs MechData MechExp MechLaurent MechNasa MechKin MechArr MechLaw
  MechJac MechJacT MechJacS MechJacD MechJacR.
Import ListNotations.
Local Open Scope R_scope.

(** ** The array dBdT *)

Lemma T_times_val (rho : var -> N -> R) r e l : inside r (rho v_T 0%N) -> 0 < rho v_T 0%N -> T_times r e = Some l ->
  rho v_T 0%N * rval exact_libm rho e = lau_val l (rho v_T 0%N).
Proof.
  intros G HT. unfold T_times.
  destruct e as [| | |u b| | | | | | | | |]; try discriminate. destruct u as [| | |u c| | | | | | | | |]; try discriminate.
  destruct u as [| | | | | |a t| | | | | |]; try discriminate.
  destruct (is_T t) eqn:Et; [|discriminate].
  destruct (lin r a) as [x|] eqn:Ea; [|discriminate].
  destruct (lin r (Add c b)) as [z|] eqn:Ez; [|discriminate].
  destruct (only_poly z) eqn:Eo; [|discriminate]. intros [= <-].
  rewrite lau_add_val. rewrite <- (lin_val rho r G a x Ea).
  change (rval exact_libm rho (Add (Add (Div a t) c) b))
    with (rval exact_libm rho a / rval exact_libm rho t + rval exact_libm rho c + rval exact_libm rho b).
  rewrite (is_T_val rho t Et).
  pose proof (lin_val rho r G _ z Ez) as V. rewrite (only_poly_val _ _ Eo) in V.
  change (rval exact_libm rho (Add c b)) with (rval exact_libm rho c + rval exact_libm rho b) in V.
  unfold lau_val at 1. cbn [l_log l_inv l_poly]. unfold qeval in *. cbn [map peval]. rewrite <- V, Q2R_0. field. lra.
Qed.

Lemma dB_ok_val m k e (rho : var -> N -> R) : 0 < rho v_T 0%N -> (k < length (nasa m))%nat ->
  dB_ok (nth k (common_all (nasa m)) (mkNasa 0 [] [])) e = true ->
  Rabs (rho v_T 0%N * rval exact_libm rho e - (h_RT m (rho v_T 0%N) k - 1)) <= Q2R tolE * h_size m (rho v_T 0%N) k.
Proof.
  intros HT Hk H. set (T := rho v_T 0%N) in *. set (n := nth k (common_all (nasa m)) (mkNasa 0 [] [])) in *.
  assert (HN : nth_error (common_all (nasa m)) k = Some n).
  { apply nth_error_nth'. unfold common_all. rewrite map_length. exact Hk. }
  unfold dB_ok in H. rewrite forallb_forall in H.
  destruct (regions_cover [n_mid n] 0 T) as (r & R1 & R2); [rewrite Q2R_0; exact HT|].
  specialize (H r R1). cbv beta in H.
  destruct (branch r n) as [a|] eqn:B; [|discriminate].
  destruct (case_of r e) as [e'|] eqn:C; [|discriminate].
  destruct (T_times r e') as [l|] eqn:D; [|discriminate].
  apply andb_true_iff in H as [H1 H2].
  assert (Ee : rval exact_libm rho e = rval exact_libm rho e').
  { unfold case_of in C. destruct e as [| | | | | | | | | | | |x z u v]; try discriminate.
    destruct z; try discriminate. destruct (is_T x) eqn:Ex; [|discriminate].
    destruct (decide r q) as [b|] eqn:Dq; [|discriminate].
    pose proof (decide_sound r q b T Dq R2) as V.
    assert (Iv : rval exact_libm rho (Ite x (Num q) u v) =
      (if Rleb (rval exact_libm rho x) (Q2R q) then rval exact_libm rho u else rval exact_libm rho v)) by reflexivity.
    rewrite Iv, (is_T_val rho x Ex). fold T. rewrite V. destruct b; injection C as <-; reflexivity. }
  rewrite Ee. pose proof (T_times_val rho r e' l R2 HT D) as VT. fold T in VT. rewrite VT.
  pose proof (entry_val (nasa m) k n r a T HN B H1 R2) as EV.
  apply Nat.eqb_eq in H1.
  apply (lau_near_val _ _ _ _ T) in H2; [|exact HT|apply tolE_val].
  rewrite lau_scale_val, Q2R_60, (dB_lau_val a T H1 HT), (dB_scale_val a T H1 HT) in H2.
  assert (E1 : h_R (fun i => Q2R (nth i a 0%Q)) T = h_R (nasa_at (species_nasa m k) T) T).
  { apply h_R_ext. intros i Hi. symmetry. apply EV. lia. }
  assert (E2 : hs (fun i => Rabs (Q2R (nth i a 0%Q))) T = h_size m T k).
  { unfold h_size. apply hs_ext. intros i Hi. unfold nasa_abs. rewrite <- (EV i) by lia. reflexivity. }
  rewrite E1, E2 in H2. fold (h_RT m T k) in H2.
  rewrite <- Rmult_minus_distr_l, Rabs_mult, (Rabs_pos_eq 60) in H2 by lra. lra.
Qed.

Lemma head_call m (T p : R) (dB0 : list R) : 0 < T -> length dB0 = s_NSP (library m) ->
  exists dB : list R, lib_jac_head (A := RA) exact_libm (jac_T m) T p dB0 = Ok (p / (gas_constant * T), dB) /\
    length dB = s_NSP (library m) /\
    forall k, (k < s_NSP (library m))%nat -> reversible m k = true ->
      Rabs (T * nth k dB 0 - (h_RT m T k - 1)) <= Q2R tolE * h_size m T k.
Proof.
  intros HT LB. pose proof (head_all m) as H. unfold head_ok in H.
  destruct (symbolic (head_sh (library m)) head_locals (j_head (jac_T m))) as [s|] eqn:E; [|discriminate].
  cbv zeta in H. apply andb_true_iff in H as [H1 H2].
  set (ins := [(v_T, [T] : list (num RA)); (v_pres, [p]); (v_dBdT, dB0)]).
  assert (Hsh : shape ins = head_sh (library m)).
  { unfold ins, shape, head_sh. cbn [map fst snd length]. change (@length (num RA)) with (@length R). rewrite LB. reflexivity. }
  unfold lib_jac_head. fold ins. rewrite (call_closed exact_libm _ ins head_locals [v_m; v_dBdT] s).
  2: { rewrite Hsh. exact E. }
  2: { rewrite Hsh. intros v [<-|[<-|[]]]; eapply all_forms_weaken; eassumption. }
  rewrite Hsh. cbn [map]. set (a := argument ins).
  assert (Eb : N.to_nat (sizes (head_sh (library m) ++ head_locals) v_dBdT) = s_NSP (library m)) by (cbn; lia).
  rewrite Eb. replace (N.to_nat (sizes (head_sh (library m) ++ head_locals) v_m)) with 1%nat by reflexivity.
  change (seq 0 1) with [0%nat]. cbn [map bind].
  assert (Em : val exact_libm a (formd (head_sh (library m)) head_locals s v_m 0) = p / (gas_constant * T)).
  { destruct (all_forms_in _ _ _ _ _ 0%nat H1) as [_ P]; [cbn; lia|]. apply expr_eqb_eq in P. rewrite P. reflexivity. }
  rewrite Em. eexists. split; [reflexivity|]. split; [rewrite map_length, seq_length; reflexivity|].
  intros k Hk Rv.
  rewrite (nth_map_seq (fun i => val exact_libm a (formd (head_sh (library m)) head_locals s v_dBdT i))) by exact Hk.
  destruct (all_forms_in _ _ _ _ _ k H2) as [_ P]; [rewrite Eb; exact Hk|]. rewrite Rv in P. cbn [negb orb] in P.
  assert (L : length (nasa m) = s_NSP (library m)) by (destruct m; reflexivity).
  exact (dB_ok_val m k _ a HT ltac:(lia) P).
Qed.

(** ** The contribution of a reaction *)

(** Terms of which the derivative of a rate of progress consists, relative to the rate. *)
Definition terms_size (m : mechanism) (T : R) (i : nat) : R :=
  Rabs (Q2R (a_b (k_high (kin m i)))) + Rabs (act_T (k_high (kin m i))) / T +
  INR (molecules (rx_lhs (rxn (chem m) i))) + INR (molecules (rx_rhs (rxn (chem m) i))) + 1 +
  heat_size m T (rxn (chem m) i).

Section Contribution.
  Variable m : mechanism.
  Variables T rho : R.
  Variable a : var -> N -> R.
  Variable i : nat.
  Hypothesis HT : 0 < T.
  Hypothesis Hrho : 0 < rho.
  Hypothesis aT : a v_T 0%N = T.
  Hypothesis ar : a v_rho 0%N = rho.
  Hypothesis Hi : (i < length (ch_reactions (chem m)))%nat.
  Variable dB : list R.
  Hypothesis ab : forall k, (k < s_NSP (library m))%nat -> a v_dBdT (N.of_nat k) = nth k dB 0.
  Hypothesis HB : forall k, (k < s_NSP (library m))%nat -> reversible m k = true ->
    Rabs (T * nth k dB 0 - (h_RT m T k - 1)) <= Q2R tolE * h_size m T k.
  Notation r := (rxn (chem m) i).
  Notation rv := (rval exact_libm a).
  Notation av := (aval exact_libm a).

  Lemma reversible_in k : rx_rev r = true -> (Qnum (net r k) =? 0)%Z = false -> reversible m k = true.
  Proof.
    intros Rv N. unfold reversible. apply existsb_exists. exists r. split; [|rewrite Rv, N; reflexivity].
    unfold rxn. apply nth_In. exact Hi.
  Qed.

  Lemma net_side (g : nat -> R) : Rsumn (s_NSP (library m)) (fun k => Q2R (net r k) * g k) = side_sum (rx_rhs r) g - side_sum (rx_lhs r) g.
  Proof.
    destruct (ranges m i Hi) as [RL RR]. rewrite <- (side_coeff _ _ g RL), <- (side_coeff _ _ g RR).
    unfold Rsumn, Rminus. rewrite <- (Rmult_1_l (Rsum (map (fun k => INR (coeff (rx_lhs r) k) * g k) _))), <- Ropp_mult_distr_l_reverse,
      <- Rsum_scal, <- Rsum_plus. apply Rsum_ext. intros k _. rewrite Q2R_net. ring.
  Qed.

  Lemma dB_net_val : rx_rev r = true ->
    Rabs (T * rv (dB_net m i) - heat m T r) <= Q2R tolE * heat_size m T r /\
    T * av (dB_net m i) <= 2 * heat_size m T r.
  Proof.
    intros Rv.
    assert (S : heat_size m T r = Rsumn (s_NSP (library m)) (fun k => (INR (coeff (rx_lhs r) k) + INR (coeff (rx_rhs r) k)) * h_size m T k)).
    { destruct (ranges m i Hi) as [RL RR]. unfold heat_size. rewrite <- (side_coeff _ _ _ RL), <- (side_coeff _ _ _ RR).
      unfold Rsumn. rewrite <- Rsum_plus. apply Rsum_ext. intros k _. ring. }
    assert (G : heat m T r = Rsumn (s_NSP (library m)) (fun k => Q2R (net r k) * (h_RT m T k - 1))) by (rewrite net_side; reflexivity).
    rewrite S, G. clear S G. unfold dB_net, Rsumn.
    assert (K : forall k, In k (seq 0 (s_NSP (library m))) -> (k < s_NSP (library m))%nat) by (intros k Hk; apply in_seq in Hk; lia).
    revert K. generalize (seq 0 (s_NSP (library m))). intros l. induction l as [|k l IH]; intros K.
    - cbn [fold_right map Rsum]. change (rv (Num 0)) with (Q2R 0). change (av (Num 0)) with (Rabs (Q2R 0)).
      rewrite Q2R_0, Rmult_0_r, Rminus_0_r, !Rabs_R0. lra.
    - cbn [fold_right map Rsum]. destruct IH as [IH1 IH2]; [intros; apply K; right; assumption|].
      assert (Hk := K k (or_introl eq_refl)). pose proof (h_size_pos m T k HT) as HP. pose proof tolE_val as [TE0 TE1].
      assert (HC : 0 <= INR (coeff (rx_lhs r) k) + INR (coeff (rx_rhs r) k)) by (pose proof (pos_INR (coeff (rx_lhs r) k)); pose proof (pos_INR (coeff (rx_rhs r) k)); lra).
      assert (HN : Rabs (Q2R (net r k)) <= INR (coeff (rx_lhs r) k) + INR (coeff (rx_rhs r) k)).
      { rewrite Q2R_net. pose proof (pos_INR (coeff (rx_lhs r) k)); pose proof (pos_INR (coeff (rx_rhs r) k)). apply Rabs_le. lra. }
      set (cc := INR (coeff (rx_lhs r) k) + INR (coeff (rx_rhs r) k)) in *.
      assert (HH : 0 <= cc * h_size m T k) by (apply Rmult_le_pos; lra).
      destruct (Qnum (net r k) =? 0)%Z eqn:Z.
      + rewrite (Qnum_0 _ Z), Rmult_0_l, Rplus_0_l, Rmult_plus_distr_l. split.
        * pose proof (Rmult_le_pos _ _ TE0 HH). lra.
        * lra.
      + specialize (HB k Hk (reversible_in k Rv Z)).
        match goal with |- context [fold_right ?f ?z l] => set (E := fold_right f z l) in * end.
        change (rv (Add (Mul (Num (net r k)) (Ref v_dBdT (N.of_nat k))) E)) with (Q2R (net r k) * a v_dBdT (N.of_nat k) + rv E).
        change (av (Add (Mul (Num (net r k)) (Ref v_dBdT (N.of_nat k))) E)) with (Rabs (Q2R (net r k)) * Rabs (a v_dBdT (N.of_nat k)) + av E).
        rewrite (ab k Hk). set (w := nth k dB 0) in *. split.
        * match goal with |- Rabs ?x <= _ => replace x with (Q2R (net r k) * (T * w - (h_RT m T k - 1)) +
            (T * rv E - Rsum (map (fun k => Q2R (net r k) * (h_RT m T k - 1)) l))) by ring end.
          eapply Rle_trans; [apply Rabs_triang|]. rewrite Rabs_mult, Rmult_plus_distr_l. apply Rplus_le_compat; [|exact IH1].
          replace (Q2R tolE * (cc * h_size m T k)) with (cc * (Q2R tolE * h_size m T k)) by ring.
          apply Rmult_le_compat; [apply Rabs_pos|apply Rabs_pos|exact HN|exact HB].
        * rewrite Rmult_plus_distr_l, Rmult_plus_distr_l. apply Rplus_le_compat; [|exact IH2].
          replace (T * (Rabs (Q2R (net r k)) * Rabs w)) with (Rabs (Q2R (net r k)) * Rabs (T * w))
            by (rewrite (Rabs_mult T w), (Rabs_pos_eq T) by lra; ring).
          replace (2 * (cc * h_size m T k)) with (cc * (2 * h_size m T k)) by ring.
          apply Rmult_le_compat; [apply Rabs_pos|apply Rabs_pos|exact HN|].
          pose proof (h_RT_size m T k HT) as HS.
          replace (T * w) with ((T * w - (h_RT m T k - 1)) + (h_RT m T k - 1)) by ring.
          eapply Rle_trans; [apply Rabs_triang|].
          assert (Q2R tolE * h_size m T k <= 1 * h_size m T k) by (apply Rmult_le_compat_r; lra). lra.
  Qed.

  Variables f g q Df Dr : R.
  Hypothesis af : a v_fwd_rates (N.of_nat i) = f.
  Hypothesis ag : rx_rev r = true -> a v_rev_rates (N.of_nat (rank rx_rev (ch_reactions (chem m)) i)) = g.
  Hypothesis g0 : rx_rev r = false -> g = 0.
  Hypothesis aq : rx_kind r = ThreeBody -> a v_pres_mod (N.of_nat (rank pdep (ch_reactions (chem m)) i)) = q.
  Hypothesis Pf : 0 <= f.
  Hypothesis Pg : 0 <= g.
  Hypothesis Pq : 0 <= q.
  Hypothesis HDf : Rabs (Df - (slope (k_high (kin m i)) T + (1 - INR (molecules (rx_lhs r))))) <=
    Q2R tolE * (Rabs (act_T (k_high (kin m i))) / T).
  Hypothesis HDr : rx_rev r = true ->
    Rabs (Dr - (slope (k_high (kin m i)) T - heat m T r + (1 - INR (molecules (rx_rhs r))))) <=
    Q2R tolE * (Rabs (act_T (k_high (kin m i))) / T + heat_size m T r).

  Lemma heat_size_pos : 0 <= heat_size m T r.
  Proof.
    unfold heat_size, side_sum.
    assert (P : forall l, 0 <= Rsum (map (fun x => INR (snd x) * h_size m T (fst x)) l)).
    { induction l as [|x l IH]; cbn [map Rsum]; [lra|]. pose proof (h_size_pos m T (fst x) HT) as H1.
      assert (H2 : 0 <= h_size m T (fst x)) by lra. pose proof (Rmult_le_pos _ _ (pos_INR (snd x)) H2). lra. }
    pose proof (P (rx_lhs r)). pose proof (P (rx_rhs r)). lra.
  Qed.

  Lemma net_val : rv (e_net m i) = f - g /\ av (e_net m i) = f + g.
  Proof.
    unfold e_net. destruct (rx_rev r) eqn:Rv.
    - change (rv (Sub (e_fwd i) (e_rev m i))) with (a v_fwd_rates (N.of_nat i) - a v_rev_rates (N.of_nat (rank rx_rev (ch_reactions (chem m)) i))).
      change (av (Sub (e_fwd i) (e_rev m i))) with (Rabs (a v_fwd_rates (N.of_nat i)) + Rabs (a v_rev_rates (N.of_nat (rank rx_rev (ch_reactions (chem m)) i)))).
      rewrite af, (ag eq_refl), !Rabs_pos_eq by assumption. split; reflexivity.
    - change (rv (e_fwd i)) with (a v_fwd_rates (N.of_nat i)). change (av (e_fwd i)) with (Rabs (a v_fwd_rates (N.of_nat i))).
      rewrite af, (g0 eq_refl), Rabs_pos_eq by assumption. split; ring.
  Qed.

  Lemma base_val : Rabs (rv (e_base m i) - (f * Df - g * Dr)) + Q2R tolE * av (e_base m i) <=
    Q2R tolE * ((f + g) * (4 * terms_size m T i - 3)).
  Proof.
    pose proof tolE_val as [TE _]. pose proof heat_size_pos as HP. set (tau := Q2R tolE) in *.
    unfold e_base, terms_size. set (ar0 := k_high (kin m i)) in *.
    set (A := Rabs (act_T ar0) / T) in *.
    assert (PA : 0 <= A) by (unfold A, Rdiv; apply Rmult_le_pos; [apply Rabs_pos|left; apply Rinv_0_lt_compat, HT]).
    set (B := Rabs (Q2R (a_b ar0))). assert (PB : 0 <= B) by apply Rabs_pos.
    set (nl := INR (molecules (rx_lhs r))) in *. set (nr := INR (molecules (rx_rhs r))) in *.
    assert (Pnl : 0 <= nl) by apply pos_INR. assert (Pnr : 0 <= nr) by apply pos_INR.
    set (H := heat_size m T r) in *. set (sl := slope ar0 T) in *.
    set (es := Add (Num (a_b ar0)) (Div (Num (qact ar0)) e_T)).
    assert (Vs : rv es = sl).
    { change (rv es) with (Q2R (a_b ar0) + Q2R (qact ar0) / a v_T 0%N). rewrite aT, Q2R_qact. reflexivity. }
    assert (As : av es = B + A).
    { change (av es) with (Rabs (Q2R (a_b ar0)) + Rabs (Q2R (qact ar0)) / Rabs (a v_T 0%N)).
      rewrite aT, Q2R_qact, (Rabs_pos_eq T) by lra. reflexivity. }
    assert (Vn : forall n, Q2R (1 - qnat n) = 1 - INR n) by (intros n; exact (Q2R_power n)).
    assert (An : forall x, 0 <= x -> Rabs (1 - x) <= 1 + x) by (intros x Hx; apply Rabs_le; lra).
    destruct (rx_rev r) eqn:Rv.
    - destruct (dB_net_val Rv) as [D1 D2]. fold H in D1, D2. fold tau in D1.
      specialize (HDr eq_refl).
      match goal with |- Rabs (rv ?x - _) + _ <= _ =>
        replace (rv x) with ((f - g) * sl + f * (1 - nl) - g * (1 - nr - T * rv (dB_net m i)));
        [replace (av x) with ((f + g) * (B + A) + f * Rabs (1 - nl) + g * (Rabs (1 - nr) + T * av (dB_net m i)))|] end.
      2: { rewrite <- As. unfold nl, nr. rewrite <- !Vn. rewrite <- (ag eq_refl), <- af, <- aT.
           rewrite <- (Rabs_pos_eq (a v_fwd_rates (N.of_nat i))) by (rewrite af; exact Pf).
           rewrite <- (Rabs_pos_eq (a v_rev_rates (N.of_nat (rank rx_rev (ch_reactions (chem m)) i)))) by (rewrite (ag eq_refl); exact Pg).
           rewrite <- (Rabs_pos_eq (a v_T 0%N)) by (rewrite aT; lra). reflexivity. }
      2: { rewrite <- Vs. unfold nl, nr. rewrite <- !Vn. rewrite <- (ag eq_refl), <- af, <- aT. reflexivity. }
      set (dv := T * rv (dB_net m i)) in *. set (da := T * av (dB_net m i)) in *. set (he := heat m T r) in *.
      assert (E1 : Rabs ((f - g) * sl + f * (1 - nl) - g * (1 - nr - dv) - (f * Df - g * Dr)) <= tau * (f * A + g * (A + 2 * H))).
      { match goal with |- Rabs ?x <= _ => replace x with
          (f * - (Df - (sl + (1 - nl))) + (g * (Dr - (sl - he + (1 - nr))) + g * (dv - he))) by ring end.
        eapply Rle_trans; [apply Rabs_triang|]. eapply Rle_trans; [apply Rplus_le_compat_l, Rabs_triang|].
        rewrite !Rabs_mult, Rabs_Ropp, (Rabs_pos_eq f), (Rabs_pos_eq g) by assumption.
        apply (Rmult_le_compat_l f) in HDf; [|exact Pf]. apply (Rmult_le_compat_l g) in HDr; [|exact Pg].
        apply (Rmult_le_compat_l g) in D1; [|exact Pg].
        replace (tau * (f * A + g * (A + 2 * H))) with (f * (tau * A) + (g * (tau * (A + H)) + g * (tau * H))) by ring. lra. }
      assert (E2 : (f + g) * (B + A) + f * Rabs (1 - nl) + g * (Rabs (1 - nr) + da) <= (f + g) * (B + A) + f * (1 + nl) + g * (1 + nr + 2 * H)).
      { pose proof (Rmult_le_compat_l f _ _ Pf (An nl Pnl)). pose proof (Rmult_le_compat_l g _ _ Pg (Rplus_le_compat _ _ _ _ (An nr Pnr) D2)). lra. }
      apply (Rmult_le_compat_l tau) in E2; [|exact TE].
      eapply Rle_trans; [apply Rplus_le_compat; [exact E1|exact E2]|].
      rewrite <- Rmult_plus_distr_l. apply Rmult_le_compat_l; [exact TE|].
      match goal with |- ?x <= ?y => cut (0 <= y - x); [lra|] end.
      match goal with |- 0 <= ?x => replace x with (f * (3 * B + 2 * A + 3 * nl + 4 * nr + 4 * H) + g * (3 * B + 2 * A + 4 * nl + 3 * nr)) by ring end.
      apply Rplus_le_le_0_compat; apply Rmult_le_pos; lra.
    - specialize (g0 eq_refl).
      match goal with |- Rabs (rv ?x - _) + _ <= _ =>
        replace (rv x) with (f * (sl + (1 - nl))); [replace (av x) with (f * (B + A + Rabs (1 - nl)))|] end.
      2: { rewrite <- As. unfold nl. rewrite <- !Vn. rewrite <- af.
           rewrite <- (Rabs_pos_eq (a v_fwd_rates (N.of_nat i))) by (rewrite af; exact Pf). reflexivity. }
      2: { rewrite <- Vs. unfold nl. rewrite <- !Vn. rewrite <- af. reflexivity. }
      rewrite g0, Rmult_0_l, Rminus_0_r, Rplus_0_r.
      assert (E1 : Rabs (f * (sl + (1 - nl)) - f * Df) <= tau * (f * A)).
      { match goal with |- Rabs ?x <= _ => replace x with (f * - (Df - (sl + (1 - nl)))) by ring end.
        rewrite Rabs_mult, Rabs_Ropp, (Rabs_pos_eq f) by assumption.
        apply (Rmult_le_compat_l f) in HDf; [|exact Pf]. lra. }
      assert (E2 : f * (B + A + Rabs (1 - nl)) <= f * (B + A + (1 + nl))).
      { apply Rmult_le_compat_l; [exact Pf|]. pose proof (An nl Pnl). lra. }
      apply (Rmult_le_compat_l tau) in E2; [|exact TE].
      eapply Rle_trans; [apply Rplus_le_compat; [exact E1|exact E2]|].
      rewrite <- Rmult_plus_distr_l. apply Rmult_le_compat_l; [exact TE|].
      rewrite <- Rmult_plus_distr_l. apply Rmult_le_compat_l; [exact Pf|]. lra.
  Qed.

  (** An expression that passes the check of reaction [i]. *)
  Lemma contribution e : rx_kind r <> Falloff -> term_ok m i e = true ->
    match rx_kind r with
    | ThreeBody => Rabs (rv e - ((f * Df - g * Dr) / T / rho * q + (f - g) / rho * (- q / T))) <=
                   4 * Q2R tolE * (q * (f + g) / (rho * T)) * terms_size m T i
    | _ => Rabs (rv e - (f * Df - g * Dr) / T / rho) <= 4 * Q2R tolE * ((f + g) / (rho * T)) * terms_size m T i
    end.
  Proof.
    intros Kf H. pose proof base_val as BV. destruct net_val as [NV NA]. pose proof tolE_val as [TE _].
    set (tau := Q2R tolE) in *. set (X := rv (e_base m i)) in *. set (AX := av (e_base m i)) in *. set (D := f * Df - g * Dr) in *.
    set (ts := terms_size m T i) in *. unfold term_ok in H.
    assert (IT : 0 < / T) by apply Rinv_0_lt_compat, HT. assert (IR : 0 < / rho) by apply Rinv_0_lt_compat, Hrho.
    assert (PN : pnear tolE (expand e) (expand (e_contrib m i)) = true) by (destruct (rx_kind r); [exact H|exact H|contradiction]).
    apply (pnear_val exact_libm a) in PN. rewrite !expand_val, psize_expand in PN. fold tau in PN.
    assert (Arho : Rabs (a v_rho 0%N) = rho) by (rewrite ar; apply Rabs_pos_eq; lra).
    assert (AT : Rabs (a v_T 0%N) = T) by (rewrite aT; apply Rabs_pos_eq; lra).
    destruct (rx_kind r) eqn:K; [| |contradiction].
    - assert (V : rv (e_contrib m i) = X / T / rho).
      { unfold e_contrib. rewrite K. rewrite <- ar, <- aT. reflexivity. }
      assert (A : av (e_contrib m i) = AX / T / rho).
      { unfold e_contrib. rewrite K. rewrite <- Arho, <- AT. reflexivity. }
      rewrite V, A in PN.
      replace (rv e - D / T / rho) with ((rv e - X / T / rho) + (X - D) / T / rho) by (unfold Rdiv; ring).
      eapply Rle_trans; [apply Rabs_triang|].
      replace (Rabs ((X - D) / T / rho)) with (Rabs (X - D) / T / rho)
        by (unfold Rdiv; rewrite !Rabs_mult, (Rabs_pos_eq (/ T)), (Rabs_pos_eq (/ rho)) by lra; reflexivity).
      apply Rle_trans with ((Rabs (X - D) + tau * AX) / T / rho); [unfold Rdiv in *; lra|].
      apply Rle_trans with (tau * ((f + g) * (4 * ts - 3)) / T / rho).
      { unfold Rdiv. apply Rmult_le_compat_r; [lra|]. apply Rmult_le_compat_r; [lra|]. exact BV. }
      replace (4 * tau * ((f + g) / (rho * T)) * ts) with (tau * ((f + g) * (4 * ts)) / T / rho) by (field; lra).
      unfold Rdiv. apply Rmult_le_compat_r; [lra|]. apply Rmult_le_compat_r; [lra|].
      apply Rmult_le_compat_l; [exact TE|]. apply Rmult_le_compat_l; lra.
    - specialize (aq eq_refl).
      assert (V : rv (e_contrib m i) = (q * X / T - q * (f - g) / T) / rho).
      { unfold e_contrib. rewrite K. rewrite <- NV, <- ar, <- aT, <- aq. reflexivity. }
      assert (A : av (e_contrib m i) = (q * AX / T + q * (f + g) / T) / rho).
      { unfold e_contrib. rewrite K. rewrite <- NA. rewrite <- (Rabs_pos_eq q Pq), <- Arho, <- AT, <- aq. reflexivity. }
      rewrite V, A in PN.
      replace (rv e - (D / T / rho * q + (f - g) / rho * (- q / T))) with ((rv e - (q * X / T - q * (f - g) / T) / rho) + q * (X - D) / T / rho)
        by (field; lra).
      eapply Rle_trans; [apply Rabs_triang|].
      replace (Rabs (q * (X - D) / T / rho)) with (q * Rabs (X - D) / T / rho)
        by (unfold Rdiv; rewrite !Rabs_mult, (Rabs_pos_eq (/ T)), (Rabs_pos_eq (/ rho)), (Rabs_pos_eq q) by lra; reflexivity).
      apply Rle_trans with (q * ((Rabs (X - D) + tau * AX) + tau * (f + g)) / T / rho); [unfold Rdiv in *; lra|].
      replace (4 * tau * (q * (f + g) / (rho * T)) * ts) with (q * (tau * ((f + g) * (4 * ts - 3)) + 3 * (tau * (f + g))) / T / rho) by (field; lra).
      unfold Rdiv. apply Rmult_le_compat_r; [lra|]. apply Rmult_le_compat_r; [lra|]. apply Rmult_le_compat_l; [exact Pq|].
      assert (0 <= tau * (f + g)) by (apply Rmult_le_pos; lra). lra.
  Qed.
End Contribution.
