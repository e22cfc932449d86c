(** [eval_jacob]: the derivative of the rate of change of the temperature.
    The definitions below are not functions of /repo. *)
From Coq Require Import List ZArith NArith QArith Qabs Qreals Reals Bool Lra Lia.
From Verif Require Import Outcome Arith MechLang MechSym MechSrc MechCall MechReal MechPoly MechChem Mechanisms
  MechSpec MechRate MechPmod MechThermo MechConc MechDydt MechRhs MechData MechExp MechLaurent MechNasa MechCp MechKin MechArr MechLaw
  MechDefined MechJac MechJacT MechJacS MechJacD MechJacR MechJacE MechTroe MechJacF MechJacC MechJacW.
Import ListNotations.
Local Open Scope R_scope.

Lemma mean_capacity_pos m (y : list R) T : 200 <= T <= 5000 ->
  length y = (s_NSP (library m) - 1)%nat -> (forall k, (k < length y)%nat -> 0 <= nth k y 0) -> Rsum y <= 1 ->
  0 < mean_capacity m y T.
Proof.
  intros HT Ly H1 H2. destruct (mean_cp_positive m exact_libm T y HT Ly H1 H2) as (cp & E & P).
  unfold mean_capacity, all_fractions. eapply Rlt_le_trans; [exact P|]. right. unfold Rsumn. apply Rsum_ext. intros k _.
  unfold capacity, element. rewrite E. reflexivity.
Qed.

Lemma species_rate_dydt m (p : R) (y : list R) k t :
  length y = (s_NSP (library m) - 1)%nat -> 0 < t -> 0 < p -> (forall k, (k < length y)%nat -> 0 <= nth k y 0) -> Rsum y <= 1 ->
  (k < s_NSP (library m) - 1)%nat -> dydt_at m p y (k + 1) t = species_rate m p y k t.
Proof. intros. rewrite dydt_at_sum by assumption. reflexivity. Qed.

(** ** Mechanisms whose last species does not react *)

Theorem temperature_element m (T p : R) (y dB0 : list R) : last_reacts m = false ->
  length y = (s_NSP (library m) - 1)%nat -> 200 <= T <= 5000 -> 0 < p -> (forall k, (k < length y)%nat -> 0 <= nth k y 0) -> Rsum y <= 1 ->
  no_switch m T -> length dB0 = s_NSP (library m) ->
  exists J : list R,
    lib_jacob_T (A := RA) exact_libm (library m) (jac_T m) p (T :: y) (repeat 0 (s_NSP (library m))) dB0 = Ok J /\
    length J = s_NSP (library m) /\ 0 < mean_capacity m y T /\
    forall D : nat -> R, (forall k, (k < s_NSP (library m) - 1)%nat -> derivable_pt_lim (dydt_at m p y (k + 1)) T (D k)) ->
    exists D0 : R, derivable_pt_lim (dydt_at m p y 0) T D0 /\
      Rabs (nth 0 J 0 - D0 + Rsumn (s_NSP (library m) - 1) (fun k => (nth (k + 1) J 0 - D k) * enthalpy m k T) / mean_capacity m y T) <=
      3 * Q2R tol * energy_size m p y T / mean_capacity m y T.
Proof.
  intros HL Ly HT Hp H1 H2 HN LB. assert (T0 : 0 < T) by lra. pose proof (NSP_pos m) as HS.
  pose proof (mean_capacity_pos m y T HT Ly H1 H2) as PC.
  destruct (column_runs m T p y dB0 Ly T0 Hp H1 H2 LB) as [c RO].
  exists (cr_J c). split; [apply (ro_J c RO)|]. split; [apply (ro_LJ c RO)|]. split; [exact PC|]. intros D HD.
  set (n := s_NSP (library m)) in *.
  destruct (energy_element c RO Ly T0 Hp H1 H2 HN (Rgt_not_eq _ _ PC) (fun k => if (k <? n - 1)%nat then D k else 0)) as (D0 & HD0 & B).
  { fold n. intros k Hk. destruct (Nat.ltb_spec k (n - 1)) as [L|L].
    - apply (derivable_pt_lim_locally_ext (dydt_at m p y (k + 1)) _ T 0 (T + 1)); [lra| |apply HD, L].
      intros t Ht. apply species_rate_dydt; try assumption. lra.
    - apply (derivable_pt_lim_ext (fun _ => 0)); [|apply derivable_pt_lim_const].
      intros t. unfold species_rate. unfold Rsumn. rewrite (Rsum_zero (fun i => nu (chem m) i k * specific_rate m p y i t)); [ring|].
      intros i Hi. apply in_seq in Hi. unfold last_reacts in HL. apply negb_false_iff in HL. unfold inert in HL. rewrite forallb_forall in HL.
      fold n in HL. replace (n - 1)%nat with k in HL by lia. specialize (HL (rxn (chem m) i) ltac:(apply nth_In; lia)).
      unfold nu. apply Qeq_bool_eq, Qeq_eqR in HL. rewrite HL, Q2R_0. ring. }
  exists D0. split; [exact HD0|]. fold n in B. rewrite (Rabs_pos_eq (mean_capacity m y T)) in B by lra.
  eapply Rle_trans; [|exact B]. right. f_equal. f_equal. f_equal.
  rewrite (Rsumn_last n) by lia. unfold used_change at 2. fold n. rewrite Nat.ltb_irrefl, HL, Rminus_0_r, Rmult_0_l, Rplus_0_r.
  unfold Rsumn. apply Rsum_ext. intros k Hk. apply in_seq in Hk. unfold used_change. fold n.
  destruct (Nat.ltb_spec k (n - 1)); [reflexivity|lia].
Qed.

(** Errors of the other elements of the column. *)
Definition species_error (m : mechanism) (p : R) (y : list R) (T : R) (k : nat) : R :=
  4 * Q2R tolE * W m k / T *
  Rsumn (length (ch_reactions (chem m))) (fun i => Rabs (nu (chem m) i k) * (gross_rate m p y i T * terms_size m T i)).

(** Fall-off reactions that do not run. *)
Theorem temperature_element_idle m (T p : R) (y dB0 : list R) : last_reacts m = false ->
  length y = (s_NSP (library m) - 1)%nat -> 200 <= T <= 5000 -> 0 < p -> (forall k, (k < length y)%nat -> 0 <= nth k y 0) -> Rsum y <= 1 ->
  no_switch m T -> length dB0 = s_NSP (library m) ->
  (forall i, (i < length (ch_reactions (chem m)))%nat -> rx_kind (rxn (chem m) i) = Falloff -> idle m y i) ->
  exists J D : list R,
    lib_jacob_T (A := RA) exact_libm (library m) (jac_T m) p (T :: y) (repeat 0 (s_NSP (library m))) dB0 = Ok J /\
    length J = s_NSP (library m) /\ 0 < mean_capacity m y T /\
    (forall k, (k < s_NSP (library m))%nat -> derivable_pt_lim (dydt_at m p y k) T (nth k D 0)) /\
    (forall k, (k < s_NSP (library m) - 1)%nat -> Rabs (nth (k + 1) J 0 - nth (k + 1) D 0) <= species_error m p y T k) /\
    Rabs (nth 0 J 0 - nth 0 D 0) <=
      (Rsumn (s_NSP (library m) - 1) (fun k => species_error m p y T k * Rabs (enthalpy m k T)) +
       3 * Q2R tol * energy_size m p y T) / mean_capacity m y T.
Proof.
  intros HL Ly HT Hp H1 H2 HN LB HF. assert (T0 : 0 < T) by lra. pose proof (NSP_pos m) as HS.
  destruct (temperature_element m T p y dB0 HL Ly HT Hp H1 H2 HN LB) as (J & E & LJ & PC & G).
  destruct (species_derivatives m T p y dB0 Ly T0 Hp H1 H2 HN LB) as (J' & E' & _ & S).
  assert (EJ : J' = J) by congruence. subst J'. set (n := s_NSP (library m)) in *.
  destruct (finite_choice (fun k d => derivable_pt_lim (dydt_at m p y (k + 1)) T d /\ Rabs (nth (k + 1) J 0 - d) <= species_error m p y T k) (n - 1)) as [d Hd].
  { intros k Hk. apply (S k Hk). intros i Hi _ K. apply HF; assumption. }
  destruct (G d) as (D0 & HD0 & B); [intros k Hk; apply Hd, Hk|].
  exists J, (D0 :: map d (seq 0 (n - 1))).
  assert (ND : forall k, (k < n - 1)%nat -> nth (k + 1) (D0 :: map d (seq 0 (n - 1))) 0 = d k).
  { intros k Hk. rewrite Nat.add_1_r. cbn [nth]. apply nth_map_seq, Hk. }
  split; [exact E|]. split; [exact LJ|]. split; [exact PC|]. split; [|split].
  - intros [|k] Hk; [exact HD0|]. rewrite <- (Nat.add_1_r k), ND by lia. apply Hd. lia.
  - intros k Hk. rewrite ND by exact Hk. apply Hd, Hk.
  - cbn [nth]. set (C := mean_capacity m y T) in *. set (SS := Rsumn (n - 1) (fun k => (nth (k + 1) J 0 - d k) * enthalpy m k T)) in *.
    assert (BS : Rabs SS <= Rsumn (n - 1) (fun k => species_error m p y T k * Rabs (enthalpy m k T))).
    { unfold SS, Rsumn. rewrite <- (Rminus_0_r (Rsum (map (fun k => (nth (k + 1) J 0 - d k) * enthalpy m k T) (seq 0 (n - 1))))).
      rewrite <- (Rsum_zero (fun _ => 0) (seq 0 (n - 1))) at 1 by reflexivity.
      apply Rsum_error. intros k Hk. apply in_seq in Hk. rewrite Rminus_0_r, Rabs_mult. apply Rmult_le_compat_r; [apply Rabs_pos|]. apply Hd. lia. }
    replace (nth 0 J 0 - D0) with ((nth 0 J 0 - D0 + SS / C) + - (SS / C)) by ring.
    eapply Rle_trans; [apply Rabs_triang|]. rewrite Rabs_Ropp. unfold Rdiv at 2. rewrite Rabs_mult, Rabs_inv, (Rabs_pos_eq C) by lra.
    rewrite Rdiv_plus_distr. rewrite Rplus_comm. apply Rplus_le_compat; [|exact B].
    apply Rmult_le_compat_r; [left; apply Rinv_0_lt_compat, PC|exact BS].
Qed.

(** ** The last species of gri30 *)

(** The last of the functions to assign [J_nplusone] assigns a multiple of the contribution of reaction [i]. *)
Fixpoint last_assigned (m : mechanism) (i : nat) (l : list (nat * list stmt)) (st : bool) : bool :=
  match l with
  | [] => st
  | q :: l' =>
      match symbolic (part_sh (library m)) part_locals (snd q) with
      | None => false
      | Some s =>
          let f := formd (part_sh (library m)) part_locals s v_J_nplusone 0 in
          last_assigned m i l' (if expr_eqb f (Ref v_J_nplusone 0) then st else term_ok m i (snd (strip f)))
      end
  end.

Section LastAssigned.
  Variable m : mechanism.
  Variables T p mm mw rho : R.
  Variables conc fwd rev pm sp dB : list R.
  Hypothesis Lc : length conc = s_NSP (library m).
  Hypothesis Lf : length fwd = s_fwd (library m).
  Hypothesis Lr : length rev = s_rev (library m).
  Hypothesis Lp : length pm = s_pmod (library m).
  Hypothesis Ls : length sp = s_NSP (library m).
  Hypothesis Lb : length dB = s_NSP (library m).
  Variable ws : list Q.

  Definition multiple (i : nat) (x : R) : Prop :=
    exists c t, x = c * t /\ term_of exact_libm m T p mm mw rho conc fwd rev pm sp dB i t.

  Lemma last_assigned_value i l : forall first st (jac jac' : list R) (J1 J1' : R),
    parts_ok m ws first l = true -> last_assigned m i l st = true -> length jac = s_NSP (library m) ->
    (forall k, involved m k 0 first = [] -> nth (k + 1) jac 0%R = 0%R) ->
    (st = true -> multiple i J1) ->
    lib_jac_parts (A := RA) exact_libm T p conc fwd rev pm sp mm mw rho dB l jac J1 = Ok (jac', J1') -> multiple i J1'.
  Proof.
    induction l as [|[count body] l IH]; intros first st jac jac' J1 J1' HP HA Lj Hz HS E.
    - cbn [lib_jac_parts] in E. injection E as <- <-. apply HS. exact HA.
    - cbn [parts_ok fst snd] in HP. apply andb_true_iff in HP as [HP1 HP2].
      destruct (part_call exact_libm m ws T p mm mw rho conc fwd rev pm sp dB Lc Lf Lr Lp Ls Lb first count body jac J1 HP1 Lj Hz)
        as (jac1 & J2 & j1 & C1 & L1 & S1 & _).
      cbn [lib_jac_parts snd] in E. rewrite C1 in E. cbn [bind] in E. cbn [last_assigned snd] in HA.
      destruct (symbolic (part_sh (library m)) part_locals body) as [s|] eqn:Sy; [|discriminate].
      eapply (IH (first + count)%nat); [exact HP2|exact HA|exact L1| | |exact E].
      + intros k Hk. rewrite involved_app, Nat.add_0_l in Hk. apply app_eq_nil in Hk as [K1 K2].
        destruct (Nat.lt_ge_cases k (s_NSP (library m) - 1)) as [L|L].
        * rewrite (S1 k L), K2, (Hz k K1). cbn. ring.
        * apply nth_overflow. lia.
      + intros F. unfold part_ok in HP1. rewrite Sy in HP1. cbv zeta in HP1.
        apply andb_true_iff in HP1 as [HP1 _]. apply andb_true_iff in HP1 as [A1 A2].
        set (ins := part_ins (A := RA) T p conc fwd rev pm sp mm mw rho dB jac J1) in *.
        assert (Hsh : shape ins = part_sh (library m)).
        { unfold ins, part_ins, part_sh, shape. cbn [map fst snd].
          change (@length (num RA)) with (@length R). rewrite Lc, Lf, Lr, Lp, Ls, Lb, Lj. reflexivity. }
        rewrite (call_closed exact_libm _ ins part_locals [v_jac; v_J_nplusone] s) in C1.
        2: { rewrite Hsh. exact Sy. }
        2: { rewrite Hsh. intros v [<-|[<-|[]]]; eapply all_forms_weaken; eassumption. }
        rewrite Hsh in C1. cbn [map] in C1.
        replace (N.to_nat (sizes (part_sh (library m) ++ part_locals) v_J_nplusone)) with 1%nat in C1 by reflexivity.
        change (seq 0 1) with [0%nat] in C1. cbn [map] in C1.
        assert (V : J2 = val (A := RA) exact_libm (argument ins) (formd (part_sh (library m)) part_locals s v_J_nplusone 0)) by congruence.
        destruct (expr_eqb (formd (part_sh (library m)) part_locals s v_J_nplusone 0) (Ref v_J_nplusone 0)) eqn:X.
        * apply expr_eqb_eq in X. rewrite X in V. change (J2 = J1) in V. subst J2. apply HS, F.
        * rewrite V. exists (Q2R (fst (strip (formd (part_sh (library m)) part_locals s v_J_nplusone 0)))).
          eexists. split; [apply (strip_val exact_libm (argument ins))|]. exists jac, J1. eexists. split; [exact F|]. reflexivity.
  Qed.
End LastAssigned.

Lemma gri30_last : last_assigned gri30 260 (j_parts (jac_T gri30)) false = true.
Proof. vm_compute. reflexivity. Qed.

(** The contribution of a reaction that does not run. *)
Lemma idle_term {m T p y dB0} (c : column_run m T p y dB0) i (x : R) : run_ok c ->
  length y = (s_NSP (library m) - 1)%nat -> 0 < T -> 0 < p -> (forall k, (k < length y)%nat -> 0 <= nth k y 0) -> Rsum y <= 1 ->
  no_switch m T -> (i < length (ch_reactions (chem m)))%nat -> rx_kind (rxn (chem m) i) <> Falloff -> idle m y i ->
  term_of exact_libm m T p (p / (gas_constant * T)) (1 / specific_moles (library m) y) (rho1 m p y / T)
    (cr_conc c) (cr_fwd c) (cr_rev c) (cr_pm c) (cr_sp c) (cr_dB c) i x -> x = 0.
Proof.
  intros RO Ly HT Hp H1 H2 HN Hi Kf [I1 I2] (jc & J2 & e & TO & ->).
  pose proof (rho1_pos m p y Hp Ly H1 H2) as HR. set (rho := rho1 m p y) in *.
  destruct (rates_at m p y Hp Ly H1 H2 T HT) as (conc & fwd & rev & pm & E1 & _ & E2 & _ & _ & E3 & _ & _ & _ & V).
  assert (cr_conc c = conc) by (pose proof (ro_conc c RO); congruence). subst conc.
  assert (XX : Ok (cr_fwd c, cr_rev c) = Ok (fwd, rev)) by (rewrite <- (ro_rates c RO); exact E2).
  assert (cr_fwd c = fwd) by congruence. assert (cr_rev c = rev) by congruence. subst fwd rev. clear XX.
  assert (XX : Ok (cr_pm c) = Ok pm) by (rewrite <- (ro_pm c RO); exact E3). assert (cr_pm c = pm) by congruence. subst pm. clear XX.
  destruct (unmodified_derive m p y Hp Ly H1 H2 T i HT HN Hi _ _ _ E1 E2) as (Df & Dr & _ & BDf & BDr).
  destruct (V i Hi) as (_ & _ & _ & _ & Vf & Vr & Vt).
  set (r := rxn (chem m) i) in *.
  assert (F : nth i (cr_fwd c) 0 = 0) by (eapply eq_trans; [exact Vf|]; rewrite absent_product by exact I1; ring).
  assert (B : rx_rev r = true -> nth (rank rx_rev (ch_reactions (chem m)) i) (cr_rev c) 0 = 0).
  { intros Rv. destruct (Vr Rv) as [_ Q]. eapply eq_trans; [exact Q|]. rewrite absent_product by (apply I2; exact Rv). ring. }
  set (a := env T p (p / (gas_constant * T)) (1 / specific_moles (library m) y) (rho / T) (cr_conc c) (cr_fwd c) (cr_rev c) (cr_pm c) (cr_sp c) (cr_dB c) jc J2).
  assert (aa : forall v (l : list R), find (fun x => var_eqb (fst x) v) (part_ins (A := RA) T p (cr_conc c) (cr_fwd c) (cr_rev c) (cr_pm c) (cr_sp c) (p / (gas_constant * T)) (1 / specific_moles (library m) y) (rho / T) (cr_dB c) jc J2) = Some (v, l) ->
      forall n, a v (N.of_nat n) = nth n l 0).
  { intros v l Fi n. unfold a, env, argument. rewrite Fi. cbn [snd]. rewrite Nat2N.id. cbn [zero lit RA]. rewrite Q2R_0. reflexivity. }
  assert (Prho : 0 < rho / T) by (apply Rdiv_lt_0_compat; assumption).
  set (q := match rx_kind r with ThreeBody => nth (rank pdep (ch_reactions (chem m)) i) (cr_pm c) 0 | _ => 0 end).
  assert (CB := contribution m T (rho / T) a i HT Prho eq_refl eq_refl Hi (cr_dB c) (fun k _ => aa v_dBdT (cr_dB c) eq_refl k) (ro_dB c RO)
      0 0 q Df Dr). fold r in CB.
  assert (P : 0 <= q) by (unfold q; destruct (rx_kind r) eqn:K; [lra|apply Vt; reflexivity|lra]).
  specialize (CB ltac:(eapply eq_trans; [apply (aa v_fwd_rates (cr_fwd c) eq_refl)|exact F])).
  specialize (CB ltac:(intros Rv; eapply eq_trans; [apply (aa v_rev_rates (cr_rev c) eq_refl)|exact (B Rv)])).
  specialize (CB ltac:(reflexivity)).
  specialize (CB ltac:(intros K; unfold q; rewrite K; apply (aa v_pres_mod (cr_pm c) eq_refl))).
  specialize (CB ltac:(lra) ltac:(lra) P BDf BDr e Kf TO).
  assert (Z : forall u w, Rabs (u - w) <= 0 -> w = 0 -> u = 0).
  { intros u w Hu ->. rewrite Rminus_0_r in Hu. pose proof (Rabs_pos u). destruct (Req_dec u 0) as [|Nz]; [assumption|]. pose proof (Rabs_pos_lt u Nz). lra. }
  destruct (rx_kind r); [| |contradiction]; (eapply Z; [eapply Rle_trans; [exact CB|right; unfold Rdiv; ring]|unfold Rdiv; ring]).
Qed.

(** Derivative of the rate of a reaction whose products are absent. *)
Lemma one_way_derive m (p : R) (y : list R) i T :
  length y = (s_NSP (library m) - 1)%nat -> 0 < T -> 0 < p -> (forall k, (k < length y)%nat -> 0 <= nth k y 0) -> Rsum y <= 1 ->
  no_switch m T -> (i < length (ch_reactions (chem m)))%nat -> rx_kind (rxn (chem m) i) <> Falloff ->
  absent y (rx_rhs (rxn (chem m) i)) ->
  exists Df : R,
    derivable_pt_lim (specific_rate m p y i) T (specific_rate m p y i T * (Df - match rx_kind (rxn (chem m) i) with ThreeBody => 1 | _ => 0 end) / T) /\
    Rabs (Df - (slope (k_high (kin m i)) T + (1 - INR (molecules (rx_lhs (rxn (chem m) i)))))) <= Q2R tolE * (Rabs (act_T (k_high (kin m i))) / T).
Proof.
  intros Ly HT Hp H1 H2 HN Hi Kf I2.
  destruct (rates_at m p y Hp Ly H1 H2 T HT) as (conc & fwd & rev & pm & E1 & _ & E2 & _ & _ & E3 & _ & _ & _ & V).
  destruct (unmodified_derive m p y Hp Ly H1 H2 T i HT HN Hi _ _ _ E1 E2) as (Df & Dr & DU & BDf & _).
  exists Df. split; [|exact BDf]. destruct (V i Hi) as (VS & VU & _ & _ & Vf & Vr & Vt).
  pose proof (rho1_pos m p y Hp Ly H1 H2) as HR.
  set (r := rxn (chem m) i) in *. set (rho := rho1 m p y) in *.
  assert (B : (if rx_rev r then nth (rank rx_rev (ch_reactions (chem m)) i) rev 0 else 0) = 0).
  { destruct (rx_rev r); [|reflexivity]. destruct (Vr eq_refl) as [_ Q]. eapply eq_trans; [exact Q|]. rewrite absent_product by exact I2. ring. }
  change (@nth (num RA)) with (@nth R) in *. rewrite B in DU, VU. unfold progress in VS. fold r in VS. rewrite B in VS.
  set (f := nth i fwd 0) in *. set (q := nth (rank pdep (ch_reactions (chem m)) i) pm 0) in *.
  destruct (rx_kind r) eqn:K; [| |contradiction].
  - assert (Pd : pdep r = false) by (unfold pdep; rewrite K; reflexivity). rewrite Pd in VS.
    apply (derivable_pt_lim_locally_ext (unmodified m p y i) _ T 0 (T + 1)); [lra| |].
    + intros t Ht. destruct (rates_at m p y Hp Ly H1 H2 t ltac:(lra)) as (c' & f' & r' & pm' & _ & _ & _ & _ & _ & _ & _ & _ & _ & V').
      destruct (V' i Hi) as (VS' & VU' & _). rewrite VS', VU'. unfold progress. fold r. rewrite Pd, Rmult_1_r. reflexivity.
    + rewrite VS. replace ((f - 0) * 1 / (rho / T) * (Df - 0) / T) with ((f * Df - 0 * Dr) / T / (rho / T)) by (field; lra). exact DU.
  - assert (Pd : pdep r = true) by (unfold pdep; rewrite K; reflexivity). rewrite Pd in VS. destruct (Vt eq_refl) as [Pq Vq].
    apply (derivable_pt_lim_locally_ext (mult_fct (unmodified m p y i) (fun t => third1 m p y r / t)) _ T 0 (T + 1)); [lra| |].
    + intros t Ht. destruct (rates_at m p y Hp Ly H1 H2 t ltac:(lra)) as (c' & f' & r' & pm' & _ & _ & _ & _ & _ & _ & _ & _ & _ & V').
      destruct (V' i Hi) as (VS' & VU' & _ & _ & _ & _ & Vt'). fold r in VU', Vt'. specialize (Vt' K). destruct Vt' as [_ Vt'].
      unfold mult_fct. rewrite VS', VU', <- Vt'. unfold progress. fold r. rewrite Pd. unfold Rdiv. ring.
    + rewrite VS. replace ((f - 0) * q / (rho / T) * (Df - 1) / T)
        with ((f * Df - 0 * Dr) / T / (rho / T) * q + (f - 0) / (rho / T) * (- q / T)) by (field; lra).
      rewrite Vq. rewrite <- VU. apply derivable_pt_lim_mult; [exact DU|]. apply derivable_inv, HT.
Qed.

(** ** Pure NNH at 1200 K *)

(** Mass fractions of the first 52 species of gri30. *)
Definition only_NNH : list R := repeat 0 34 ++ [1] ++ repeat 0 17.

Lemma only_NNH_sum : Rsum only_NNH = 1.
Proof. unfold only_NNH. cbn. ring. Qed.

Lemma only_NNH_nth k : nth k (all_fractions only_NNH) 0 = if (k =? 34)%nat then 1 else 0.
Proof.
  unfold all_fractions. rewrite only_NNH_sum. unfold Rminus. rewrite Rplus_opp_r.
  destruct (Nat.lt_ge_cases k 53) as [B|B].
  - do 53 (destruct k as [|k]; [reflexivity|]). lia.
  - rewrite nth_overflow by exact B. destruct (Nat.eqb_spec k 34); [lia|reflexivity].
Qed.

Lemma only_NNH_nonneg k : (k < length only_NNH)%nat -> 0 <= nth k only_NNH 0.
Proof.
  intros B. cbn in B. do 52 (destruct k as [|k]; [cbn; lra|]). lia.
Qed.

(** A side with a species other than NNH. *)
Definition other (l : list (nat * nat)) : bool := existsb (fun s => (0 <? snd s)%nat && negb (fst s =? 34)%nat) l.

Lemma other_absent l : other l = true -> absent only_NNH l.
Proof.
  intros H. apply existsb_exists in H as (s & I & H). apply andb_true_iff in H as [H1 H2].
  exists s. split; [exact I|]. split; [apply Nat.ltb_lt, H1|]. rewrite only_NNH_nth. apply negb_true_iff in H2. rewrite H2. reflexivity.
Qed.

Lemma only_NNH_idle i : (i < length (ch_reactions (chem gri30)))%nat -> i <> 203%nat -> i <> 204%nat -> idle gri30 only_NNH i.
Proof.
  intros Hi N1 N2.
  assert (F : forallb (fun i => (i =? 203)%nat || (i =? 204)%nat || (other (rx_lhs (rxn (chem gri30) i)) && other (rx_rhs (rxn (chem gri30) i))))
    (seq 0 (length (ch_reactions (chem gri30)))) = true) by (vm_compute; reflexivity).
  rewrite forallb_forall in F. specialize (F i ltac:(apply in_seq; lia)).
  destruct (Nat.eqb_spec i 203); [contradiction|]. destruct (Nat.eqb_spec i 204); [contradiction|].
  cbn [orb] in F. apply andb_true_iff in F as [F1 F2]. split; [apply other_absent, F1|intros _; apply other_absent, F2].
Qed.

Lemma Rsumn_two n f a b : (a < b < n)%nat -> (forall i, (i < n)%nat -> i <> a -> i <> b -> f i = 0) -> Rsumn n f = f a + f b.
Proof.
  intros B H. replace n with (a + (1 + ((b - a - 1) + (1 + (n - b - 1)))))%nat by lia.
  unfold Rsumn. rewrite !seq_app, !map_app, !Rsum_app. cbn [seq map Rsum].
  rewrite !Nat.add_0_l. replace (a + 1 + (b - a - 1))%nat with b by lia.
  rewrite !(Rsum_zero f); [ring|..]; intros i Hi; apply in_seq in Hi; apply H; lia.
Qed.

Lemma no_switch_1200 : no_switch gri30 1200.
Proof.
  intros k. destruct (Nat.lt_ge_cases k (length (nasa gri30))) as [B|B].
  - assert (F : forallb (fun n => negb (Qeq_bool (n_mid n) 1200)) (nasa gri30) = true) by (vm_compute; reflexivity).
    rewrite forallb_forall in F. specialize (F _ (nth_In _ (mkNasa 0 [] []) B)).
    unfold species_nasa. intros E. replace 1200 with (Q2R 1200) in E by (unfold Q2R; cbn; lra).
    apply eqR_Qeq, Qeq_eq_bool in E. rewrite E in F. discriminate.
  - unfold species_nasa. rewrite nth_overflow by exact B. cbn [n_mid]. rewrite Q2R_0. lra.
Qed.

(** NASA polynomials at rational temperatures. *)
Definition cpQ (a : list Q) (t : Q) : Q := let n i := nth i a 0%Q in (n 0%nat + n 1%nat * t + n 2%nat * (t * t) + n 3%nat * (t * t * t) + n 4%nat * (t * t * t * t))%Q.
Definition hQ (a : list Q) (t : Q) : Q := let n i := nth i a 0%Q in
  (n 5%nat + n 0%nat * t + n 1%nat * Qmake 1 2 * (t * t) + n 2%nat * Qmake 1 3 * (t * t * t) + n 3%nat * Qmake 1 4 * (t * t * t * t) + n 4%nat * Qmake 1 5 * (t * t * t * t * t))%Q.
Definition dcpQ (a : list Q) (t : Q) : Q := let n i := nth i a 0%Q in (n 1%nat + 2 * n 2%nat * t + 3 * n 3%nat * (t * t) + 4 * n 4%nat * (t * t * t))%Q.

Lemma Q2R_int z : Q2R (inject_Z z) = IZR z.
Proof. unfold Q2R, inject_Z. cbn [Qnum Qden]. rewrite Rinv_1. ring. Qed.

Lemma Q2R_unit p : Q2R (Qmake 1 p) = / IZR (Z.pos p).
Proof. unfold Q2R. cbn [Qnum Qden]. ring. Qed.

Lemma cpQ_val a t : cp_R (fun i => Q2R (nth i a 0%Q)) (Q2R t) = Q2R (cpQ a t).
Proof. unfold cp_R, cpQ. rewrite !Q2R_plus, !Q2R_mult. ring. Qed.

Lemma hQ_val a t : h_R (fun i => Q2R (nth i a 0%Q)) (Q2R t) = Q2R (hQ a t).
Proof. unfold h_R, hQ. rewrite !Q2R_plus, !Q2R_mult, !Q2R_unit. field. Qed.

Lemma dcpQ_val a t : dcp_R (fun i => Q2R (nth i a 0%Q)) (Q2R t) = Q2R (dcpQ a t).
Proof.
  unfold dcp_R, dcpQ. rewrite !Q2R_plus, !Q2R_mult. change (Q2R 2) with (Q2R (inject_Z 2)). change (Q2R 3) with (Q2R (inject_Z 3)).
  change (Q2R 4) with (Q2R (inject_Z 4)). rewrite !Q2R_int. ring.
Qed.

Lemma abs_coeff a i : Rabs (Q2R (nth i a 0%Q)) = Q2R (nth i (map Qabs a) 0%Q).
Proof.
  replace (nth i (map Qabs a) 0%Q) with (Qabs (nth i a 0%Q)) by (symmetry; apply (map_nth Qabs a 0%Q i)). symmetry. apply Q2R_abs.
Qed.

(** Coefficients of species [k] at 1200 K. *)
Definition hot (k : nat) : list Q := n_high (species_nasa gri30 k).

Lemma nasa_hot k i : Qle_bool 1200 (n_mid (species_nasa gri30 k)) = false -> nasa_at (species_nasa gri30 k) 1200 i = Q2R (nth i (hot k) 0%Q).
Proof.
  intros H. unfold nasa_at, hot. destruct (Rle_dec 1200 (Q2R (n_mid (species_nasa gri30 k)))) as [L|_]; [|reflexivity].
  replace 1200 with (Q2R 1200) in L by (apply (Q2R_int 1200)). apply Rle_Qle, Qle_bool_iff in L. rewrite L in H. discriminate.
Qed.

Lemma cold_false k : In k [1; 34; 52]%nat -> Qle_bool 1200 (n_mid (species_nasa gri30 k)) = false.
Proof. intros [<-|[<-|[<-|[]]]]; vm_compute; reflexivity. Qed.

(** Bounds for the species of the two reactions. *)
Lemma bounds_Q k : In k [1; 34; 52]%nat ->
  (cpQ (map Qabs (hot k)) 1200 <= 12 /\ hQ (map Qabs (hot k)) 1200 <= 100000 /\ dcpQ (map Qabs (hot k)) 1200 <= 1 / 100 /\
   1 <= nth k (molWeight gri30) 0 /\ nth k (molWeight gri30) 0 <= 30 /\ nth k (dydt_weights (library gri30) nitrogen) 0 <= 30)%Q.
Proof. intros [<-|[<-|[<-|[]]]]; repeat split; apply Qle_bool_iff; vm_compute; reflexivity. Qed.

Lemma bounds_R k : In k [1; 34; 52]%nat ->
  Q2R (cpQ (map Qabs (hot k)) 1200) <= 12 /\ Q2R (hQ (map Qabs (hot k)) 1200) <= 100000 /\ Q2R (dcpQ (map Qabs (hot k)) 1200) <= / 100 /\
  1 <= species_W gri30 k <= 30 /\ W gri30 k <= 30.
Proof.
  intros I. destruct (bounds_Q k I) as (H1 & H2 & H3 & H4 & H5 & H6).
  assert (U : Q2R (1 / 100) = / 100) by (unfold Q2R; cbn; lra).
  unfold species_W, W, weight. rewrite <- U, <- (Q2R_int 1), <- (Q2R_int 12), <- (Q2R_int 30), <- (Q2R_int 100000).
  repeat split; apply Qle_Rle; assumption.
Qed.

Lemma ratio_bound k : In k [1; 34; 52]%nat -> 0 < gas_constant / species_W gri30 k <= 8315 /\ 277 <= gas_constant / species_W gri30 k /\ species_W gri30 k <= 30.
Proof.
  intros I. destruct (bounds_R k I) as (_ & _ & _ & [H1 H2] & _).
  assert (G : 8314 <= gas_constant <= 8315).
  { rewrite <- (Q2R_int 8314), <- (Q2R_int 8315). split; apply Qle_Rle; discriminate. }
  assert (I1 : / species_W gri30 k <= 1) by (rewrite <- Rinv_1; apply Rinv_le_contravar; lra).
  assert (I2 : / 30 <= / species_W gri30 k) by (apply Rinv_le_contravar; lra).
  unfold Rdiv. repeat split; try nra.
Qed.

Lemma size_bounds k : In k [1; 34; 52]%nat ->
  0 <= capacity_size gri30 k 1200 <= 100000 /\ Rabs (enthalpy gri30 k 1200) <= 1000000000 /\ 0 <= cp_slope_size gri30 k 1200 <= 100 /\ 0 < W gri30 k <= 30.
Proof.
  intros I. destruct (bounds_R k I) as (H1 & H2 & H3 & _ & H4).
  destruct (ratio_bound k I) as [[R0 R1] _]. pose proof (cold_false k I) as C.
  assert (K : (k < s_NSP (library gri30))%nat) by (destruct I as [<-|[<-|[<-|[]]]]; cbn; lia).
  assert (T12 : 1200 = Q2R 1200) by (symmetry; apply (Q2R_int 1200)).
  assert (NA : forall i, nasa_abs (species_nasa gri30 k) 1200 i = Q2R (nth i (map Qabs (hot k)) 0%Q)).
  { intros i. unfold nasa_abs. rewrite (nasa_hot k i C). apply abs_coeff. }
  assert (E1 : cp_R (nasa_abs (species_nasa gri30 k) 1200) 1200 = Q2R (cpQ (map Qabs (hot k)) 1200)).
  { rewrite <- cpQ_val, <- T12. unfold cp_R. rewrite !NA. reflexivity. }
  assert (E2 : h_R (nasa_abs (species_nasa gri30 k) 1200) 1200 = Q2R (hQ (map Qabs (hot k)) 1200)).
  { rewrite <- hQ_val, <- T12. unfold h_R. rewrite !NA. reflexivity. }
  assert (E3 : dcp_R (nasa_abs (species_nasa gri30 k) 1200) 1200 = Q2R (dcpQ (map Qabs (hot k)) 1200)).
  { rewrite <- dcpQ_val, <- T12. unfold dcp_R. rewrite !NA. reflexivity. }
  rewrite <- E1 in H1. rewrite <- E2 in H2. rewrite <- E3 in H3.
  assert (NP : forall i, 0 <= nasa_abs (species_nasa gri30 k) 1200 i) by (intros; apply Rabs_pos).
  set (n := nasa_abs (species_nasa gri30 k) 1200) in *.
  assert (P1 : 0 <= cp_R n 1200).
  { unfold cp_R. pose proof (NP 0%nat); pose proof (NP 1%nat); pose proof (NP 2%nat); pose proof (NP 3%nat); pose proof (NP 4%nat). lra. }
  assert (P3 : 0 <= dcp_R n 1200).
  { unfold dcp_R. pose proof (NP 1%nat); pose proof (NP 2%nat); pose proof (NP 3%nat); pose proof (NP 4%nat). lra. }
  split; [unfold capacity_size; fold n; split; nra|]. split; [|split; [unfold cp_slope_size; fold n; split; nra|split; [apply W_positive, K|exact H4]]].
  destruct (h_value gri30 exact_libm 1200 ltac:(lra)) as (h & E & _ & B). destruct (B k K) as [_ Bk].
  assert (Vh : enthalpy gri30 k 1200 = nth k h 0) by (unfold enthalpy, element; rewrite E; reflexivity). rewrite Vh. fold n in Bk.
  set (g := gas_constant / species_W gri30 k) in *.
  assert (A : Rabs (h_R (nasa_at (species_nasa gri30 k) 1200) 1200) <= h_R n 1200).
  { unfold h_R, n, nasa_abs. set (a := nasa_at (species_nasa gri30 k) 1200).
    assert (Ad : forall i d j, 0 < d -> Rabs (a i / d * 1200 ^ j) = Rabs (a i) / d * 1200 ^ j).
    { intros i d j Hd. unfold Rdiv. rewrite !Rabs_mult, Rabs_inv, (Rabs_pos_eq d), (Rabs_pos_eq (1200 ^ j)) by (try apply pow_le; lra). reflexivity. }
    repeat (eapply Rle_trans; [apply Rabs_triang|]; apply Rplus_le_compat); try (right; apply Ad; lra); [right; reflexivity|].
    rewrite Rabs_mult, (Rabs_pos_eq 1200) by lra. lra. }
  assert (Tt : 0 <= Q2R tol <= / 100) by (rewrite <- Q2R_0; replace (/ 100) with (Q2R (1 / 100)) by (unfold Q2R; cbn; lra); split; apply Qle_Rle; discriminate).
  assert (A2 : Rabs (g * h_R (nasa_at (species_nasa gri30 k) 1200) 1200) <= g * h_R n 1200).
  { rewrite Rabs_mult, (Rabs_pos_eq g) by lra. apply Rmult_le_compat_l; [lra|exact A]. }
  assert (A3 : 0 <= g * h_R n 1200 <= 831500000).
  { assert (0 <= h_R n 1200) by (eapply Rle_trans; [apply Rabs_pos|exact A]). split; nra. }
  replace (nth k h 0) with ((nth k h 0 - g * h_R (nasa_at (species_nasa gri30 k) 1200) 1200) + g * h_R (nasa_at (species_nasa gri30 k) 1200) 1200) by ring.
  eapply Rle_trans; [apply Rabs_triang|]. nra.
Qed.

Lemma N2_enthalpy : 500000 <= enthalpy gri30 52 1200.
Proof.
  assert (I : In 52%nat [1; 34; 52]%nat) by (cbn; tauto).
  destruct (ratio_bound 52 I) as ([R0 R1] & R2 & _). pose proof (cold_false 52 I) as C.
  assert (T12 : 1200 = Q2R 1200) by (symmetry; apply (Q2R_int 1200)).
  destruct (h_value gri30 exact_libm 1200 ltac:(lra)) as (h & E & _ & B). destruct (B 52%nat ltac:(cbn; lia)) as [_ Bk].
  assert (Vh : enthalpy gri30 52 1200 = nth 52 h 0) by (unfold enthalpy, element; rewrite E; reflexivity). rewrite Vh.
  assert (E2 : h_R (nasa_at (species_nasa gri30 52) 1200) 1200 = Q2R (hQ (hot 52) 1200)).
  { rewrite <- hQ_val, <- T12. unfold h_R. rewrite !(fun i => nasa_hot 52 i C). reflexivity. }
  assert (E3 : h_R (nasa_abs (species_nasa gri30 52) 1200) 1200 = Q2R (hQ (map Qabs (hot 52)) 1200)).
  { rewrite <- hQ_val, <- T12. unfold h_R, nasa_abs. rewrite !(fun i => nasa_hot 52 i C), !abs_coeff. reflexivity. }
  assert (L1 : 3000 <= h_R (nasa_at (species_nasa gri30 52) 1200) 1200) by (rewrite E2, <- (Q2R_int 3000); apply Qle_Rle, Qle_bool_iff; vm_compute; reflexivity).
  assert (L2 : 0 <= h_R (nasa_abs (species_nasa gri30 52) 1200) 1200 <= 100000).
  { rewrite E3, <- Q2R_0, <- (Q2R_int 100000). split; apply Qle_Rle, Qle_bool_iff; vm_compute; reflexivity. }
  assert (Tt : 0 <= Q2R tol <= / 1000000000) by (rewrite <- Q2R_0; rewrite <- (Q2R_unit 1000000000); split; apply Qle_Rle, Qle_bool_iff; vm_compute; reflexivity).
  set (g := gas_constant / species_W gri30 52) in *.
  set (hn := h_R (nasa_abs (species_nasa gri30 52) 1200) 1200) in *. set (hv := h_R (nasa_at (species_nasa gri30 52) 1200) 1200) in *.
  pose proof (Rle_abs (- (nth 52 h 0 - g * hv))) as Bn. rewrite Rabs_Ropp in Bn. assert (0 <= g * hn <= 831500000) by (split; nra). nra.
Qed.

Notation y1 := only_NNH.
Notation nR := (length (ch_reactions (chem gri30))).

Lemma y1_length : length y1 = (s_NSP (library gri30) - 1)%nat.
Proof. reflexivity. Qed.

Lemma y1_sum : Rsum y1 <= 1.
Proof. rewrite only_NNH_sum. lra. Qed.

(** The rates of the two reactions. *)
Definition r203 (p t : R) : R := specific_rate gri30 p y1 203 t.
Definition r204 (p t : R) : R := specific_rate gri30 p y1 204 t.

Lemma NNH_same k : nu (chem gri30) 204 k = nu (chem gri30) 203 k.
Proof.
  unfold nu, net.
  assert (L : rx_lhs (rxn (chem gri30) 204) = rx_lhs (rxn (chem gri30) 203)) by (vm_compute; reflexivity).
  assert (H : rx_rhs (rxn (chem gri30) 204) = rx_rhs (rxn (chem gri30) 203)) by (vm_compute; reflexivity).
  rewrite L, H. reflexivity.
Qed.

Lemma NNH_rate p k t : 0 < p -> 0 < t ->
  species_rate gri30 p y1 k t = W gri30 k * nu (chem gri30) 203 k * (r203 p t + r204 p t).
Proof.
  intros Hp Ht. unfold species_rate.
  rewrite (Rsumn_two nR (fun i => nu (chem gri30) i k * specific_rate gri30 p y1 i t) 203 204).
  - rewrite NNH_same. unfold r203, r204. generalize (W gri30 k), (nu (chem gri30) 203 k), (specific_rate gri30 p y1 203 t), (specific_rate gri30 p y1 204 t).
    intros. ring.
  - split; [lia|]. apply Nat.ltb_lt. vm_compute. reflexivity.
  - intros i Hi N1 N2. destruct (idle_rates gri30 p y1 i t y1_length Ht Hp only_NNH_nonneg y1_sum Hi (only_NNH_idle i Hi N1 N2)) as [-> _]. ring.
Qed.

Lemma NNH_nu k : (k < 53)%nat -> ~ In k [1; 34; 52]%nat -> nu (chem gri30) 203 k = 0.
Proof.
  intros Hk Ni. unfold nu.
  assert (F : forallb (fun k => (Qnum (net (rxn (chem gri30) 203) k) =? 0)%Z || existsb (Nat.eqb k) [1; 34; 52]%nat) (seq 0 53) = true) by (vm_compute; reflexivity).
  rewrite forallb_forall in F. specialize (F k ltac:(apply in_seq; lia)). apply orb_true_iff in F as [F|F].
  - apply Z.eqb_eq in F. unfold Q2R. rewrite F. apply Rmult_0_l.
  - exfalso. apply Ni. apply existsb_exists in F as (x & I & E). apply Nat.eqb_eq in E. subst x. exact I.
Qed.

Lemma NNH_nu_abs k : (k < 53)%nat -> Rabs (nu (chem gri30) 203 k) <= 1.
Proof.
  intros B.
  assert (F : forallb (fun k => Qle_bool (Qabs (net (rxn (chem gri30) 203) k)) 1) (seq 0 53) = true) by (vm_compute; reflexivity).
  rewrite forallb_forall in F. specialize (F k ltac:(apply in_seq; lia)). apply Qle_bool_iff, Qle_Rle in F.
  unfold nu. rewrite <- Q2R_abs. rewrite <- (Q2R_int 1). exact F.
Qed.

Lemma N2_nu : nu (chem gri30) 203 52 = 1.
Proof.
  unfold nu. assert (E : (net (rxn (chem gri30) 203) 52 == 1)%Q) by (vm_compute; reflexivity). apply Qeq_eqR in E. rewrite E. apply (Q2R_int 1).
Qed.

Lemma Rsumn_one n f a : (a < n)%nat -> (forall i, (i < n)%nat -> i <> a -> f i = 0) -> Rsumn n f = f a.
Proof.
  intros B H. replace n with (a + (1 + (n - a - 1)))%nat by lia.
  unfold Rsumn. rewrite !seq_app, !map_app, !Rsum_app. cbn [seq map Rsum]. rewrite !Nat.add_0_l.
  rewrite !(Rsum_zero f); [ring|..]; intros i Hi; apply in_seq in Hi; apply H; lia.
Qed.

Lemma inv_weight_pos : 0 < Q2R (nth 34 (inverse_weights (library gri30)) 0%Q).
Proof. apply Q2R_pos. vm_compute. reflexivity. Qed.

Lemma NNH_conc1 p k : nth k (conc1 gri30 p y1) 0 = if (k =? 34)%nat then p / gas_constant else 0.
Proof.
  pose proof inv_weight_pos as P.
  destruct (Nat.lt_ge_cases k 53) as [B|B].
  - unfold conc1. rewrite (nth_map_seq (fun k => rho1 gri30 p y1 * nth k (all_fractions y1) 0 * Q2R (nth k (inverse_weights (library gri30)) 0%Q))) by exact B.
    rewrite only_NNH_nth. destruct (Nat.eqb_spec k 34) as [->|_]; [|ring].
    unfold rho1, specific_moles.
    rewrite (Rsumn_one (s_NSP (library gri30)) (fun k => Q2R (nth k (inverse_weights (library gri30)) 0%Q) * nth k (all_fractions y1) 0) 34).
    + rewrite only_NNH_nth, Nat.eqb_refl. set (w := Q2R (nth 34 (inverse_weights (library gri30)) 0%Q)) in *.
      pose proof gas_pos. field. split; lra.
    + cbn. lia.
    + intros i _ Ni. rewrite only_NNH_nth. destruct (Nat.eqb_spec i 34); [contradiction|ring].
  - rewrite nth_overflow by (unfold conc1; rewrite map_length, seq_length; exact B). destruct (Nat.eqb_spec k 34); [lia|reflexivity].
Qed.

Lemma ln_near a b : 0 < a -> 0 < b -> Rabs (ln a - ln b) <= 1 -> a <= 3 * b /\ b <= 3 * a.
Proof.
  intros Ha Hb H.
  assert (G : forall x z, 0 < x -> 0 < z -> ln x - ln z <= 1 -> x <= 3 * z).
  { intros x z Hx Hz L. rewrite <- (exp_ln x), <- (exp_ln z) at 1 by assumption.
    apply Rle_trans with (exp (1 + ln z)).
    - destruct L as [L|L]; [left; apply exp_increasing; lra|right; f_equal; lra].
    - rewrite exp_plus. apply Rmult_le_compat_r; [left; apply exp_pos|apply exp_le_3]. }
  pose proof (Rle_abs (ln a - ln b)). pose proof (Rle_abs (- (ln a - ln b))) as H'. rewrite Rabs_Ropp in H'.
  split; apply G; try assumption; lra.
Qed.

Lemma kin203 : k_high (kin gri30 203) = mkArr 330000000.000000 0.0 0.0.
Proof. vm_compute. reflexivity. Qed.

Lemma kin204 : k_high (kin gri30 204) = mkArr 130000000000000.000000 (-0.11) 4980.0.
Proof. vm_compute. reflexivity. Qed.

Lemma act203 : act_T (k_high (kin gri30 203)) = 0.
Proof. rewrite kin203. unfold act_T. cbn [a_E]. replace (Q2R 0.0) with 0 by (unfold Q2R; cbn; lra). unfold Rdiv. ring. Qed.

Lemma act204 : 2505 <= act_T (k_high (kin gri30 204)) <= 2507.
Proof.
  rewrite kin204. unfold act_T. cbn [a_E].
  replace (Q2R 4980.0) with 4980 by (unfold Q2R; cbn; lra). replace 4.184 with (4184 / 1000) by lra.
  assert (G : 8314 <= gas_constant <= 8315).
  { rewrite <- (Q2R_int 8314), <- (Q2R_int 8315). split; apply Qle_Rle; discriminate. }
  split.
  - apply (Rmult_le_reg_r gas_constant); [lra|]. unfold Rdiv. rewrite (Rmult_assoc _ (/ gas_constant)), Rinv_l by lra. lra.
  - apply (Rmult_le_reg_r gas_constant); [lra|]. unfold Rdiv. rewrite (Rmult_assoc _ (/ gas_constant)), Rinv_l by lra. lra.
Qed.

Lemma rate203 : rate_arr (k_high (kin gri30 203)) (order (rxn (chem gri30) 203)) 1200 = 330000000.
Proof.
  unfold rate_arr. rewrite act203, kin203. cbn [a_b].
  replace (order (rxn (chem gri30) 203)) with 1%nat by (vm_compute; reflexivity).
  unfold factor_si. cbn [a_A]. replace (Q2R 0.0) with 0 by (unfold Q2R; cbn; lra).
  replace (Q2R 330000000.000000) with 330000000 by (symmetry; apply Rmult_eq_reg_r with 1000000; [unfold Q2R; cbn [Qnum Qden]; field|lra]).
  rewrite Rpower_O by lra. replace (- 0 / 1200) with 0 by (unfold Rdiv; ring). rewrite exp_0. field.
Qed.

Lemma rate204 : 4000000 <= rate_arr (k_high (kin gri30 204)) (order (rxn (chem gri30) 204)) 1200.
Proof.
  pose proof act204 as A. unfold rate_arr. set (a := act_T (k_high (kin gri30 204))) in *. rewrite kin204. cbn [a_b].
  replace (order (rxn (chem gri30) 204)) with 2%nat by (vm_compute; reflexivity).
  unfold factor_si. cbn [a_A].
  replace (Q2R 130000000000000.000000) with 130000000000000 by (symmetry; apply Rmult_eq_reg_r with 1000000; [unfold Q2R; cbn [Qnum Qden]; field|lra]).
  assert (L : 0 < ln 1200) by (rewrite <- ln_1; apply ln_increasing; lra).
  assert (P1 : / 1200 <= Rpower 1200 (Q2R (-0.11))).
  { unfold Rpower. rewrite <- (exp_ln (/ 1200)) by lra. rewrite ln_Rinv by lra.
    assert (Q : -1 <= Q2R (-0.11)) by (unfold Q2R; cbn; lra). left. apply exp_increasing.
    assert (Q' : -1 < Q2R (-0.11)) by (unfold Q2R; cbn; lra). nra. }
  assert (P2 : / 27 <= exp (- a / 1200)).
  { apply Rle_trans with (exp (-3)).
    - replace (-3) with (- (1 + (1 + 1))) by ring. rewrite exp_Ropp, !exp_plus. apply Rinv_le_contravar.
      + repeat apply Rmult_lt_0_compat; apply exp_pos.
      + pose proof exp_le_3. pose proof (exp_pos 1). nra.
    - left. apply exp_increasing. lra. }
  assert (P3 : / 1200 * / 27 <= Rpower 1200 (Q2R (-0.11)) * exp (- a / 1200)) by (apply Rmult_le_compat; lra).
  replace (130000000000000 * 1000 / 1000 ^ 2 * Rpower 1200 (Q2R (-0.11)) * exp (- a / 1200))
    with (130000000000 * (Rpower 1200 (Q2R (-0.11)) * exp (- a / 1200))) by field.
  lra.
Qed.

Notation p1 := 1000000.

Lemma NNH_ratio : 0 < r204 p1 1200 /\ 0 < r203 p1 1200 <= 10000 * r204 p1 1200.
Proof.
  assert (HT : 0 < 1200) by lra. assert (Hp : 0 < p1) by lra. pose proof gas_pos as GP.
  destruct (rates_at gri30 p1 y1 Hp y1_length only_NNH_nonneg y1_sum 1200 HT) as (conc & fwd & rev & pm & E1 & _ & E2 & _ & _ & E3 & _ & _ & _ & V).
  pose proof (rho1_pos gri30 p1 y1 Hp y1_length only_NNH_nonneg y1_sum) as HR. set (rho := rho1 gri30 p1 y1) in *.
  assert (H203 : (203 < nR)%nat) by (apply Nat.ltb_lt; vm_compute; reflexivity).
  assert (H204 : (204 < nR)%nat) by (apply Nat.ltb_lt; vm_compute; reflexivity).
  assert (AB : absent y1 [(52, 1); (1, 1)]%nat) by (apply other_absent; reflexivity).
  assert (Rh : rx_rhs (rxn (chem gri30) 203) = [(52, 1); (1, 1)]%nat /\ rx_rhs (rxn (chem gri30) 204) = [(52, 1); (1, 1)]%nat /\
               rx_lhs (rxn (chem gri30) 203) = [(34, 1)]%nat /\ rx_lhs (rxn (chem gri30) 204) = [(34, 1)]%nat /\
               rx_rev (rxn (chem gri30) 203) = true /\ rx_rev (rxn (chem gri30) 204) = true /\
               pdep (rxn (chem gri30) 203) = false /\ pdep (rxn (chem gri30) 204) = true /\
               rx_kind (rxn (chem gri30) 204) = ThreeBody) by (vm_compute; repeat split; reflexivity).
  destruct Rh as (R1 & R2 & L1 & L2 & V1 & V2 & D1 & D2 & K2).
  destruct (V 203%nat H203) as (S1 & _ & _ & _ & F1 & B1 & _). destruct (V 204%nat H204) as (S2 & _ & _ & _ & F2 & B2 & T2).
  rewrite V1 in B1. rewrite V2 in B2. rewrite K2 in T2. destruct (B1 eq_refl) as [_ B1']. destruct (B2 eq_refl) as [_ B2']. destruct (T2 eq_refl) as [_ T2'].
  rewrite R1 in B1'. rewrite R2 in B2'. rewrite (absent_product gri30 p1 y1 _ AB), Rmult_0_r, Rmult_0_l in B1', B2'.
  rewrite L1 in F1. rewrite L2 in F2.
  assert (CP : conc_product (conc1 gri30 p1 y1) [(34, 1)]%nat = p1 / gas_constant).
  { unfold conc_product. cbn [map fst snd Rprod]. rewrite NNH_conc1, Nat.eqb_refl. ring. }
  assert (M1 : molecules [(34, 1)]%nat = 1%nat) by reflexivity.
  rewrite CP, M1, pow_1 in F1, F2.
  assert (TB : third1 gri30 p1 y1 (rxn (chem gri30) 204) = p1 / gas_constant).
  { unfold third1. rewrite K2. unfold third_body.
    rewrite (Rsumn_one (length (conc1 gri30 p1 y1)) (fun k => Q2R (efficiency (rxn (chem gri30) 204) k) * nth k (conc1 gri30 p1 y1) 0) 34).
    - rewrite NNH_conc1, Nat.eqb_refl. replace (efficiency (rxn (chem gri30) 204) 34) with 1%Q by (vm_compute; reflexivity). rewrite Q2R_1. ring.
    - unfold conc1. rewrite map_length, seq_length. cbn. lia.
    - intros i _ Ni. rewrite NNH_conc1. destruct (Nat.eqb_spec i 34); [contradiction|ring]. }
  rewrite TB in T2'.
  unfold progress in S1, S2. rewrite V1, D1 in S1. rewrite V2, D2 in S2.
  unfold r203, r204. rewrite S1, S2.
  change (@nth (num RA)) with (@nth R) in *. rewrite F1, F2, B1', B2', T2'.
  destruct (rate_constants gri30 1200 p1 203 HT H203) as (P1 & P1' & N1 & _).
  destruct (rate_constants gri30 1200 p1 204 HT H204) as (P2 & P2' & N2 & _).
  assert (TA : 0 <= Q2R tolA <= / 1000 /\ 0 <= Q2R tolE <= / 1000).
  { rewrite <- Q2R_0, <- (Q2R_unit 1000). repeat split; apply Qle_Rle, Qle_bool_iff; vm_compute; reflexivity. }
  pose proof act203 as A1. pose proof act204 as A2.
  set (k3 := k_fwd exact_libm (library gri30) 1200 p1 203) in *. set (k4 := k_fwd exact_libm (library gri30) 1200 p1 204) in *.
  destruct (ln_near _ _ P1 P1') as [U1 _].
  { eapply Rle_trans; [exact N1|]. unfold arr_err. rewrite A1, Rabs_R0. unfold Rdiv. lra. }
  destruct (ln_near _ _ P2 P2') as [_ U2].
  { eapply Rle_trans; [exact N2|]. unfold arr_err. set (a := act_T (k_high (kin gri30 204))) in *. rewrite (Rabs_pos_eq a) by lra. nra. }
  pose proof rate203 as Q1. pose proof rate204 as Q2. rewrite Q1 in U1.
  assert (U3 : 4000000 <= 3 * k4) by lra. clear U2 Q2.
  assert (G : 8314 <= gas_constant <= 8315).
  { rewrite <- (Q2R_int 8314), <- (Q2R_int 8315). split; apply Qle_Rle; discriminate. }
  assert (X : / 10 <= p1 / gas_constant / 1200).
  { apply (Rmult_le_reg_r gas_constant); [lra|]. replace (p1 / gas_constant / 1200 * gas_constant) with (p1 / 1200) by (field; lra). lra. }
  clearbody k3 k4 rho. clear V E1 E2 E3 F1 F2 B1' B2' T2' S1 S2.
  set (x := p1 / gas_constant / 1200) in *. set (iR := / (rho / 1200)).
  assert (IR : 0 < iR) by (apply Rinv_0_lt_compat, Rdiv_lt_0_compat; lra).
  replace ((k4 * (p1 / gas_constant) * / 1200 - 0) * x / (rho / 1200)) with (x * iR * (k4 * x)) by (unfold iR, x, Rdiv; ring).
  replace ((k3 * (p1 / gas_constant) * / 1200 - 0) * 1 / (rho / 1200)) with (x * iR * k3) by (unfold iR, x, Rdiv; ring).
  assert (XI : 0 < x * iR) by (apply Rmult_lt_0_compat; lra).
  assert (k3 <= 10000 * (k4 * x)) by nra.
  split; [|split].
  - apply Rmult_lt_0_compat; [exact XI|]. nra.
  - apply Rmult_lt_0_compat; lra.
  - replace (10000 * (x * iR * (k4 * x))) with (x * iR * (10000 * (k4 * x))) by ring. apply Rmult_le_compat_l; lra.
Qed.

Lemma Rsumn_nonneg n f : (forall i, (i < n)%nat -> 0 <= f i) -> 0 <= Rsumn n f.
Proof.
  intros H. unfold Rsumn.
  assert (G : forall l, (forall i, In i l -> 0 <= f i) -> 0 <= Rsum (map f l)).
  { induction l as [|i l IH]; intros Hl; cbn [map Rsum]; [lra|].
    pose proof (Hl i (or_introl eq_refl)). pose proof (IH (fun j Hj => Hl j (or_intror Hj))). lra. }
  apply G. intros i Hi. apply in_seq in Hi. apply H. lia.
Qed.

Theorem last_species_lost (dB0 : list R) : length dB0 = s_NSP (library gri30) ->
  exists (J : list R) (D : nat -> R) (D0 : R),
    lib_jacob_T (A := RA) exact_libm (library gri30) (jac_T gri30) p1 (1200 :: y1) (repeat 0 (s_NSP (library gri30))) dB0 = Ok J /\
    (forall k, (k < s_NSP (library gri30) - 1)%nat -> derivable_pt_lim (dydt_at gri30 p1 y1 (k + 1)) 1200 (D k) /\
       Rabs (nth (k + 1) J 0 - D k) <= species_error gri30 p1 y1 1200 k) /\
    derivable_pt_lim (dydt_at gri30 p1 y1 0) 1200 D0 /\ 0 < mean_capacity gri30 y1 1200 /\
    1000 * (3 * Q2R tol * energy_size gri30 p1 y1 1200 / mean_capacity gri30 y1 1200) <
    Rabs (nth 0 J 0 - D0 + Rsumn (s_NSP (library gri30) - 1) (fun k => (nth (k + 1) J 0 - D k) * enthalpy gri30 k 1200) / mean_capacity gri30 y1 1200).
Proof.
  intros LB. assert (HT : 0 < 1200) by lra. assert (Hp : 0 < p1) by lra.
  pose proof (mean_capacity_pos gri30 y1 1200 ltac:(lra) y1_length only_NNH_nonneg y1_sum) as PC.
  destruct (column_runs gri30 1200 p1 y1 dB0 y1_length HT Hp only_NNH_nonneg y1_sum LB) as [c RO].
  assert (H203 : (203 < nR)%nat) by (apply Nat.ltb_lt; vm_compute; reflexivity).
  assert (H204 : (204 < nR)%nat) by (apply Nat.ltb_lt; vm_compute; reflexivity).
  assert (H260 : (260 < nR)%nat) by (apply Nat.ltb_lt; vm_compute; reflexivity).
  assert (J0 : cr_J1 c = 0).
  { destruct (last_assigned_value gri30 1200 p1 (p1 / (gas_constant * 1200)) (1 / specific_moles (library gri30) y1) (rho1 gri30 p1 y1 / 1200)
      (cr_conc c) (cr_fwd c) (cr_rev c) (cr_pm c) (cr_sp c) (cr_dB c)
      (ro_Lconc c RO) (ro_Lfwd c RO) (ro_Lrev c RO) (ro_Lpm c RO) (ro_Lsp c RO) (ro_LdB c RO) (dydt_weights (library gri30) nitrogen)
      260 (j_parts (jac_T gri30)) 0 false (repeat 0 (s_NSP (library gri30))) (cr_jac c) 0 (cr_J1 c) (parts_all gri30) gri30_last
      (repeat_length _ _) (fun k _ => nth_repeat _ _ _) ltac:(discriminate) (ro_parts c RO)) as (a & t & -> & TO).
    rewrite (idle_term c 260 t RO y1_length HT Hp only_NNH_nonneg y1_sum no_switch_1200 H260); [ring| | |exact TO].
    - vm_compute. discriminate.
    - apply only_NNH_idle; [exact H260|lia|lia]. }
  assert (AB : absent y1 [(52, 1); (1, 1)]%nat) by (apply other_absent; reflexivity).
  assert (Rh : rx_rhs (rxn (chem gri30) 203) = [(52, 1); (1, 1)]%nat /\ rx_rhs (rxn (chem gri30) 204) = [(52, 1); (1, 1)]%nat /\
               rx_lhs (rxn (chem gri30) 203) = [(34, 1)]%nat /\ rx_lhs (rxn (chem gri30) 204) = [(34, 1)]%nat /\
               rx_kind (rxn (chem gri30) 203) = Elementary /\ rx_kind (rxn (chem gri30) 204) = ThreeBody) by (vm_compute; repeat split; reflexivity).
  destruct Rh as (R1 & R2 & L1 & L2 & K1 & K2).
  destruct (one_way_derive gri30 p1 y1 203 1200 y1_length HT Hp only_NNH_nonneg y1_sum no_switch_1200 H203) as (Df3 & D3 & B3).
  { rewrite K1. discriminate. }
  { rewrite R1. exact AB. }
  destruct (one_way_derive gri30 p1 y1 204 1200 y1_length HT Hp only_NNH_nonneg y1_sum no_switch_1200 H204) as (Df4 & D4 & B4).
  { rewrite K2. discriminate. }
  { rewrite R2. exact AB. }
  rewrite K1 in D3. rewrite K2 in D4. rewrite L1 in B3. rewrite L2 in B4.
  change (INR (molecules [(34, 1)]%nat)) with 1 in B3, B4.
  assert (Z3 : Df3 = 0).
  { rewrite act203, Rabs_R0 in B3. unfold slope in B3. rewrite act203, kin203 in B3. cbn [a_b] in B3.
    replace (Q2R 0.0) with 0 in B3 by (unfold Q2R; cbn; lra).
    pose proof (Rabs_pos (Df3 - (0 + 0 / 1200 + (1 - 1)))) as P0.
    destruct (Req_dec (Df3 - (0 + 0 / 1200 + (1 - 1))) 0) as [Z|Nz]; [unfold Rdiv in Z; lra|].
    pose proof (Rabs_pos_lt _ Nz). unfold Rdiv in *. lra. }
  assert (G4 : 9 / 10 <= Df4 - 1).
  { pose proof act204 as A4. unfold slope in B4. set (a := act_T (k_high (kin gri30 204))) in *. rewrite kin204 in B4. cbn [a_b] in B4.
    replace (Q2R (-0.11)) with (- (11 / 100)) in B4 by (unfold Q2R; cbn; lra).
    assert (TE : 0 <= Q2R tolE <= / 1000) by (rewrite <- Q2R_0, <- (Q2R_unit 1000); split; apply Qle_Rle, Qle_bool_iff; vm_compute; reflexivity).
    rewrite (Rabs_pos_eq a) in B4 by lra.
    pose proof (Rle_abs (- (Df4 - (- (11 / 100) + a / 1200 + (1 - 1))))) as Bn. rewrite Rabs_Ropp in Bn.
    assert (Q2R tolE * (a / 1200) <= / 1000 * 3) by (apply Rmult_le_compat; lra). lra. }
  fold (r204 p1 1200) in D4. change (derivable_pt_lim (r203 p1) 1200 (r203 p1 1200 * (Df3 - 0) / 1200)) in D3.
  change (derivable_pt_lim (r204 p1) 1200 (r204 p1 1200 * (Df4 - 1) / 1200)) in D4.
  rewrite Z3 in D3. replace (r203 p1 1200 * (0 - 0) / 1200) with 0 in D3 by (unfold Rdiv; ring).
  set (d4 := r204 p1 1200 * (Df4 - 1) / 1200) in *.
  set (D := fun k => W gri30 k * nu (chem gri30) 203 k * (0 + d4)).
  assert (HD : forall k, derivable_pt_lim (species_rate gri30 p1 y1 k) 1200 (D k)).
  { intros k. apply (derivable_pt_lim_locally_ext (fun t => W gri30 k * nu (chem gri30) 203 k * (r203 p1 t + r204 p1 t)) _ 1200 0 1201); [lra| |].
    - intros t Ht. symmetry. apply NNH_rate; lra.
    - apply (derivable_pt_lim_scal (fun t => r203 p1 t + r204 p1 t)). apply (derivable_pt_lim_plus (r203 p1) (r204 p1)); assumption. }
  destruct (energy_element c RO y1_length HT Hp only_NNH_nonneg y1_sum no_switch_1200 (Rgt_not_eq _ _ PC) D (fun k _ => HD k)) as (D0 & HD0 & B).
  assert (HDy : forall k, (k < s_NSP (library gri30) - 1)%nat -> derivable_pt_lim (dydt_at gri30 p1 y1 (k + 1)) 1200 (D k)).
  { intros k Hk. apply (derivable_pt_lim_locally_ext (species_rate gri30 p1 y1 k) _ 1200 0 1201); [lra| |apply HD].
    intros t Ht. symmetry. apply species_rate_dydt; try assumption; [exact y1_length|lra|exact only_NNH_nonneg|exact y1_sum]. }
  exists (cr_J c), D, D0. split; [apply (ro_J c RO)|]. split.
  { intros k Hk. split; [apply HDy, Hk|].
    destruct (species_derivatives gri30 1200 p1 y1 dB0 y1_length HT Hp only_NNH_nonneg y1_sum no_switch_1200 LB) as (J' & E' & _ & S).
    assert (EJ : J' = cr_J c) by (pose proof (ro_J c RO); congruence). subst J'.
    destruct (S k Hk) as (D' & HD' & B').
    - intros i Hi _ Kf. apply only_NNH_idle; [exact Hi|intros ->; congruence|intros ->; congruence].
    - rewrite (uniqueness_limite _ _ _ _ (HDy k Hk) HD'). exact B'. }
  split; [exact HD0|]. split; [exact PC|].
  assert (NS : s_NSP (library gri30) = 53%nat) by reflexivity.
  set (C := mean_capacity gri30 y1 1200) in *. rewrite (Rabs_pos_eq C) in B by lra.
  set (ES := energy_size gri30 p1 y1 1200) in *.
  rewrite (Rsumn_last (s_NSP (library gri30)) (fun k => (used_change c k - D k) * enthalpy gri30 k 1200)) in B by (rewrite NS; lia).
  unfold used_change at 2 in B. rewrite Nat.ltb_irrefl in B. rewrite J0 in B.
  replace (if last_reacts gri30 then 0 else 0) with 0 in B by (destruct (last_reacts gri30); reflexivity).
  set (S' := Rsumn (s_NSP (library gri30) - 1) (fun k => (nth (k + 1) (cr_J c) 0 - D k) * enthalpy gri30 k 1200)) in *.
  replace (Rsumn (s_NSP (library gri30) - 1) (fun k => (used_change c k - D k) * enthalpy gri30 k 1200)) with S' in B.
  2: { unfold S', Rsumn. apply Rsum_ext. intros k Hk. apply in_seq in Hk. unfold used_change.
       destruct (Nat.ltb_spec k (s_NSP (library gri30) - 1)); [reflexivity|lia]. }
  rewrite NS in B. change (53 - 1)%nat with 52%nat in B.
  destruct NNH_ratio as (P4 & P3 & P34). set (r4 := r204 p1 1200) in *. set (r3 := r203 p1 1200) in *.
  (* the lost term *)
  assert (W52 : 28 <= W gri30 52).
  { unfold W, weight. rewrite <- (Q2R_int 28). apply Qle_Rle, Qle_bool_iff. vm_compute. reflexivity. }
  pose proof N2_enthalpy as H52.
  assert (L52 : 28 * (9 / 10 / 1200 * r4) * 500000 <= D 52%nat * enthalpy gri30 52 1200).
  { unfold D. rewrite N2_nu, Rmult_1_r, Rplus_0_l.
    assert (Pd : 9 / 10 / 1200 * r4 <= d4) by (unfold d4; nra).
    assert (0 <= 9 / 10 / 1200 * r4) by nra.
    apply Rmult_le_compat; [nra|lra| |exact H52]. apply Rmult_le_compat; lra. }
  (* the bound *)
  assert (CL : 600 <= C).
  { unfold C, mean_capacity.
    rewrite (Rsumn_one (s_NSP (library gri30)) (fun k => capacity gri30 k 1200 * nth k (all_fractions y1) 0) 34).
    - rewrite only_NNH_nth, Nat.eqb_refl, Rmult_1_r. destruct (cp_positive gri30 exact_libm 1200 ltac:(lra)) as (cp & E & _ & V).
      destruct (V 34%nat ltac:(rewrite NS; lia)) as [_ Bc]. unfold capacity, element. rewrite E.
      destruct (ratio_bound 34 ltac:(cbn; tauto)) as (_ & Rb & _).
      replace (2.4 * gas_constant / species_W gri30 34) with (2.4 * (gas_constant / species_W gri30 34)) in Bc by (unfold Rdiv; ring).
      set (gw := gas_constant / species_W gri30 34) in *. replace 2.4 with (24 / 10) in Bc by lra. change (@nth (num RA)) with (@nth R) in *. lra.
    - rewrite NS. lia.
    - intros i _ Ni. rewrite only_NNH_nth. destruct (Nat.eqb_spec i 34); [contradiction|ring]. }
  assert (MS : 0 <= mean_slope_size gri30 (all_fractions y1) 1200 <= 100).
  { unfold mean_slope_size.
    rewrite (Rsumn_one (s_NSP (library gri30)) (fun k => Rabs (nth k (all_fractions y1) 0) * cp_slope_size gri30 k 1200) 34).
    - rewrite only_NNH_nth, Nat.eqb_refl, Rabs_R1, Rmult_1_l. apply (size_bounds 34). cbn. tauto.
    - rewrite NS. lia.
    - intros i _ Ni. rewrite only_NNH_nth. destruct (Nat.eqb_spec i 34); [contradiction|]. rewrite Rabs_R0. ring. }
  set (ms := mean_slope_size gri30 (all_fractions y1) 1200) in *.
  assert (Term : forall k, In k [1; 34; 52]%nat ->
    Rabs (species_rate gri30 p1 y1 k 1200) * (capacity_size gri30 k 1200 + ms * Rabs (enthalpy gri30 k 1200) / Rabs C) <= 30 * (r3 + r4) * 200000000).
  { intros k I. destruct (size_bounds k I) as ([c0 c1] & h1 & _ & [w0 w1]).
    assert (Kb : (k < 53)%nat) by (destruct I as [<-|[<-|[<-|[]]]]; lia).
    rewrite NNH_rate by lra. fold r3 r4. rewrite !Rabs_mult, (Rabs_pos_eq (W gri30 k)), (Rabs_pos_eq (r3 + r4)), (Rabs_pos_eq C) by lra.
    pose proof (NNH_nu_abs k Kb) as Nk. pose proof (Rabs_pos (nu (chem gri30) 203 k)) as Np. pose proof (Rabs_pos (enthalpy gri30 k 1200)) as Ep.
    set (an := Rabs (nu (chem gri30) 203 k)) in *. set (eh := Rabs (enthalpy gri30 k 1200)) in *.
    assert (IC : 0 < / C <= / 600) by (split; [apply Rinv_0_lt_compat; lra|apply Rinv_le_contravar; lra]).
    assert (Q1 : ms * eh <= 100 * 1000000000) by (apply Rmult_le_compat; lra).
    assert (Q0 : 0 <= ms * eh) by (apply Rmult_le_pos; lra).
    assert (Q2 : ms * eh / C <= 100 * 1000000000 * / 600) by (unfold Rdiv; apply Rmult_le_compat; lra).
    assert (Q3 : 0 <= ms * eh / C) by (apply Rmult_le_pos; lra).
    assert (Q4 : 0 <= W gri30 k * an <= 30) by (split; nra).
    apply Rmult_le_compat; [nra|lra|nra|lra]. }
  assert (EB : ES <= 3 * (30 * (r3 + r4) * 200000000)).
  { unfold ES, energy_size. fold ms C.
    set (F := fun k => Rabs (species_rate gri30 p1 y1 k 1200) * (capacity_size gri30 k 1200 + ms * Rabs (enthalpy gri30 k 1200) / Rabs C)) in *.
    rewrite NS. change (Rsumn 53 F) with (Rsum (map F (seq 0 (1 + (1 + (32 + (1 + (17 + 1)))))))).
    rewrite !seq_app, !map_app, !Rsum_app.
    assert (ZF : forall k, (k < 53)%nat -> ~ In k [1; 34; 52]%nat -> F k = 0).
    { intros k Kb Ni. unfold F. rewrite NNH_rate, (NNH_nu k Kb Ni) by lra. rewrite Rmult_0_r, Rmult_0_l, Rabs_R0. ring. }
    cbn [Nat.add].
    rewrite (Rsum_zero F (seq 2 32)), (Rsum_zero F (seq 35 17)).
    2, 3: intros i Hi; apply in_seq in Hi; apply ZF; [lia|cbn; lia].
    cbn [seq map Rsum]. rewrite (ZF 0%nat) by (cbn; lia).
    pose proof (Term 1%nat ltac:(cbn; tauto)) as T1. pose proof (Term 34%nat ltac:(cbn; tauto)) as T2. pose proof (Term 52%nat ltac:(cbn; tauto)) as T3.
    fold (F 1%nat) in T1. fold (F 34%nat) in T2. fold (F 52%nat) in T3. lra. }
  assert (Tt : 0 <= Q2R tol <= 4 * / 1000000000000000).
  { rewrite <- Q2R_0, <- (Q2R_unit 1000000000000000), <- (Q2R_int 4), <- Q2R_mult. split; apply Qle_Rle, Qle_bool_iff; vm_compute; reflexivity. }
  assert (ES0 : 0 <= ES).
  { unfold ES, energy_size. apply Rsumn_nonneg. intros k Hk. apply Rmult_le_pos; [apply Rabs_pos|].
    fold ms C. assert (0 <= ms * Rabs (enthalpy gri30 k 1200) / Rabs C).
    { apply Rmult_le_pos; [apply Rmult_le_pos; [lra|apply Rabs_pos]|]. left. apply Rinv_0_lt_compat, Rabs_pos_lt. lra. }
    destruct (cp_value gri30 exact_libm 1200 ltac:(lra)) as (cp & _ & _ & V). destruct (V k Hk) as [Wk Bk].
    assert (0 <= capacity_size gri30 k 1200); [|lra].
    unfold capacity_size. apply Rmult_le_pos; [pose proof (ratio_pos gri30 k Wk); lra|]. unfold cp_R, nasa_abs.
    repeat (apply Rplus_le_le_0_compat); repeat apply Rmult_le_pos; try apply Rabs_pos; try apply pow_le; lra. }
  set (lost := D 52%nat * enthalpy gri30 52 1200) in *.
  replace (nth 0 (cr_J c) 0 - D0 + S' / C) with ((nth 0 (cr_J c) 0 - D0 + (S' + (0 - D 52%nat) * enthalpy gri30 52 1200) / C) + lost / C)
    by (unfold lost, Rdiv; ring).
  set (X := nth 0 (cr_J c) 0 - D0 + (S' + (0 - D 52%nat) * enthalpy gri30 52 1200) / C) in *.
  set (eps := 3 * Q2R tol * ES) in *.
  assert (E1 : eps <= 3 * (4 * / 1000000000000000) * (3 * (30 * (10001 * r4) * 200000000))).
  { unfold eps. apply Rmult_le_compat; [lra|exact ES0|lra|]. eapply Rle_trans; [exact EB|]. nra. }
  assert (E2 : 1001 * eps < lost) by lra.
  assert (IC : 0 < / C) by (apply Rinv_0_lt_compat; lra).
  assert (LX : Rabs X < lost / C - 1000 * (eps / C)).
  { eapply Rle_lt_trans; [exact B|]. unfold Rdiv. nra. }
  pose proof (Rabs_triang_inv (lost / C) (- X)) as TI. rewrite Rabs_Ropp in TI. replace (lost / C - - X) with (X + lost / C) in TI by ring.
  pose proof (Rle_abs (lost / C)). lra.
Qed.
