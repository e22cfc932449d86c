(** The rates of the libraries along the pressure.
    The definitions below are not functions of /repo. *)
From Coq Require Import List ZArith NArith QArith Qreals Reals Bool Lra Lia.
From Verif Require Import Outcome Arith MechLang MechSrc MechCall MechReal MechDefined MechChem Mechanisms MechSpec MechRate MechPmod MechConc MechDydt MechRhs MechFacts MechKin
  MechJac MechJacR MechJacC MechJacW MechJacX MechFull MechFullD MechFullR MechFullC MechSlice MechEntry.
Import ListNotations.
Local Open Scope R_scope.

(** ** The rate constants do not read the pressure *)

(** The argument [pres]. *)
Definition pressure : list place := [(v_pres, 0%N)].

(** [eval_rxn_rates] does not read its argument [pres]. *)
Lemma rates_blind m : exists d, slice none pressure (every (s_eval_rxn_rates (library m))) = Some d /\
  clean d v_fwd_rxn_rates (s_fwd (library m)) = true /\ clean d v_rev_rxn_rates (s_rev (library m)) = true.
Proof.
  assert (H : match slice none pressure (every (s_eval_rxn_rates (library m))) with
    | Some d => clean d v_fwd_rxn_rates (s_fwd (library m)) && clean d v_rev_rxn_rates (s_rev (library m)) | None => false end = true)
    by (destruct m; vm_compute; reflexivity).
  destruct (slice none pressure _) as [d|]; [|discriminate H]. apply andb_true_iff in H as [H1 H2]. exists d. auto.
Qed.

Section Any.
  Context {A : Arith}.
  Variable M : libm A.

  Lemma two_outputs body ins locals a b (l : list (list (num A))) : call M body ins locals [a; b] = Ok l -> exists x y, l = [x; y].
  Proof.
    unfold call. destruct (run M _ _ body) as [mm| | |]; intros H; try discriminate H. cbn [bind mapM] in H.
    destruct (read _ mm a) as [x| | |]; try discriminate H. cbn [bind] in H. destruct (read _ mm b) as [y| | |]; try discriminate H. cbn [bind] in H.
    injection H as <-. eauto.
  Qed.

  Theorem rates_no_pressure m T p1 p2 (C : list (num A)) : length C = s_NSP (library m) ->
    lib_eval_rxn_rates M (library m) T p1 C = lib_eval_rxn_rates M (library m) T p2 C.
  Proof.
    intros L. destruct (eval_rxn_rates_defined M (library m) (library_all m) T p1 C L) as (f1 & r1 & E1 & Lf1 & Lr1).
    destruct (eval_rxn_rates_defined M (library m) (library_all m) T p2 C L) as (f2 & r2 & E2 & Lf2 & Lr2).
    rewrite E1, E2. destruct (rates_blind m) as (d & D & D1 & D2). unfold lib_eval_rxn_rates in E1, E2.
    destruct (call M _ [(v_T, [T]); (v_pres, [p1]); (v_C, C)] _ _) as [o1| | |] eqn:C1; try discriminate E1.
    destruct (call M _ [(v_T, [T]); (v_pres, [p2]); (v_C, C)] _ _) as [o2| | |] eqn:C2; try discriminate E2.
    destruct (two_outputs _ _ _ _ _ _ C1) as (a1 & b1 & ->). destruct (two_outputs _ _ _ _ _ _ C2) as (a2 & b2 & ->).
    cbn [bind] in E1, E2. injection E1 as -> ->. injection E2 as -> ->.
    assert (G : forall v i, vis none pressure (v, i) = true -> given [(v_T, [T]); (v_pres, [p1]); (v_C, C)] v i = given [(v_T, [T]); (v_pres, [p2]); (v_C, C)] v i).
    { intros v i V. destruct v; try reflexivity. destruct i as [|q]; [discriminate V|]. unfold given. cbn -[nth_error N.to_nat].
      destruct (N.to_nat (N.pos q)) as [|n] eqn:Q; [lia|]. destruct n; reflexivity. }
    pose proof (agree_call M _ [(v_T, [T]); (v_pres, [p1]); (v_C, C)] [(v_T, [T]); (v_pres, [p2]); (v_C, C)] _ _ _ _ _ _ eq_refl G D C1 C2) as AG.
    apply f_equal. apply f_equal2.
    - exact (clean_nth d _ _ f1 f2 D1 Lf1 Lf2 (AG 0%nat v_fwd_rxn_rates f1 f2 eq_refl eq_refl eq_refl)).
    - exact (clean_nth d _ _ r1 r2 D2 Lr1 Lr2 (AG 1%nat v_rev_rxn_rates r1 r2 eq_refl eq_refl eq_refl)).
  Qed.
End Any.

(** ** Scaling with the pressure *)

Lemma Rprod_scaled l (f : nat * nat -> R) c : Rprod (map (fun s => (c * f s) ^ snd s) l) = c ^ molecules l * Rprod (map (fun s => f s ^ snd s) l).
Proof.
  unfold molecules. induction l as [|s l IH]; cbn [map Rprod list_sum fold_right]; [ring|]. rewrite IH, Rpow_mult_distr.
  change (fold_right Nat.add 0%nat (map snd l)) with (list_sum (map snd l)). rewrite pow_add. ring.
Qed.

Lemma product_scaled C l c : conc_product (map (Rmult c) C) l = c ^ molecules l * conc_product C l.
Proof.
  unfold conc_product. rewrite <- Rprod_scaled. f_equal. apply map_ext. intros s. f_equal.
  replace 0 with (c * 0) at 1 by ring. apply map_nth.
Qed.

Lemma third_scaled r C c : third_body r (map (Rmult c) C) = c * third_body r C.
Proof.
  unfold third_body. rewrite map_length. unfold Rsumn. rewrite <- Rsum_scal. apply Rsum_ext. intros k _.
  replace 0 with (c * 0) at 1 by ring. rewrite (map_nth (Rmult c)). ring.
Qed.

Section Scaling.
  Variable m : mechanism.
  Variables T p : R.
  Variable y : list R.
  Hypothesis HT : 0 < T.
  Hypothesis Hp : 0 < p.
  Hypothesis Ly : length y = (s_NSP (library m) - 1)%nat.
  Hypothesis H1 : forall k, (k < length y)%nat -> 0 <= nth k y 0.
  Hypothesis H2 : Rsum y <= 1.
  Notation S := (library m).
  Notation rxi i := (rxn (chem m) i).

  Lemma density_scaled c : density m T (c * p) y = c * density m T p y.
  Proof. unfold density, Rdiv. ring. Qed.

  Lemma conc_scaled c : conc_of m T (c * p) y = map (Rmult c) (conc_of m T p y).
  Proof. unfold conc_of. rewrite map_map. apply map_ext. intros k. rewrite density_scaled. ring. Qed.

  (** Concentrations, density and rates at [c] times the pressure. *)
  Theorem rates_scaled (c : R) : 0 < c ->
    exists (yN mw rho : R) (C fwd rev pm fwd' rev' pm' : list R),
      lib_eval_conc (A := RA) exact_libm S T p y = Ok (yN, mw, rho, C) /\
     lib_eval_rxn_rates (A := RA) exact_libm S T p C = Ok (fwd, rev) /\ lib_get_rxn_pres_mod (A := RA) exact_libm S T p C = Ok pm /\
     lib_eval_conc (A := RA) exact_libm S T (c * p) y = Ok (yN, mw, c * rho, map (Rmult c) C) /\
     lib_eval_rxn_rates (A := RA) exact_libm S T (c * p) (map (Rmult c) C) = Ok (fwd', rev') /\
     lib_get_rxn_pres_mod (A := RA) exact_libm S T (c * p) (map (Rmult c) C) = Ok pm' /\
     forall i, (i < length (ch_reactions (chem m)))%nat ->
        nth i fwd' 0 = c ^ molecules (rx_lhs (rxi i)) * nth i fwd 0 /\
       (rx_rev (rxi i) = true ->
         nth (rank rx_rev (ch_reactions (chem m)) i) rev' 0 = c ^ molecules (rx_rhs (rxi i)) * nth (rank rx_rev (ch_reactions (chem m)) i) rev 0) /\
       (rx_kind (rxi i) = ThreeBody ->
         nth (rank pdep (ch_reactions (chem m)) i) pm' 0 = c * nth (rank pdep (ch_reactions (chem m)) i) pm 0).
  Proof.
    intros Hc. pose proof (specific_moles_positive m y Ly H1 H2) as HS. assert (Hcp : 0 < c * p) by (apply Rmult_lt_0_compat; assumption).
    destruct (conc_any m T p y Ly ltac:(lra)) as [E _]. destruct (conc_any m T (c * p) y Ly ltac:(lra)) as [E' _].
    destruct (rates_any m T p HT Hp y Ly HS) as (fwd & rev & pm & R1 & R2 & _ & _ & _ & V).
    destruct (rates_any m T (c * p) HT Hcp y Ly HS) as (fwd' & rev' & pm' & R1' & R2' & _ & _ & _ & V').
    rewrite conc_scaled, density_scaled in E'. rewrite conc_scaled in R1', R2'.
    do 3 eexists. exists (conc_of m T p y), fwd, rev, pm, fwd', rev', pm'. do 6 (split; [eassumption|]).
    assert (HE : forall x : R, 0 < m_exp exact_libm x) by (intros z; apply exp_pos).
    destruct (mass_action_at exact_libm S (chem m) T p (rates_all m) HE HT Hp) as [_ G].
    pose proof (conc_of_length m T p y) as LC.
    destruct (G _ LC) as (f & r & F1 & _ & _ & K). destruct (G (map (Rmult c) (conc_of m T p y)) ltac:(rewrite map_length; exact LC)) as (f' & r' & F1' & _ & _ & K').
    assert (Q : Ok (f, r) = Ok (fwd, rev)) by exact (eq_trans (eq_sym F1) R1). injection Q as -> ->.
    assert (Q : Ok (f', r') = Ok (fwd', rev')).
    { refine (eq_trans (eq_sym F1') (eq_trans _ R1')). apply (rates_no_pressure (A := RA) exact_libm m T p (c * p)). rewrite map_length. exact LC. }
    injection Q as -> ->. intros i Hi. destruct (K i Hi) as [Kf Kr]. destruct (K' i Hi) as [Kf' Kr']. destruct (V i Hi) as (_ & _ & V3 & _). destruct (V' i Hi) as (_ & _ & V3' & _).
    split; [|split].
    - rewrite Kf, Kf', product_scaled. ring.
    - intros Rv. rewrite (Kr Rv), (Kr' Rv), product_scaled. ring.
    - intros Tb. rewrite (V3 Tb), (V3' Tb), conc_scaled. apply third_scaled.
  Qed.
End Scaling.

(** ** Derivatives along the pressure *)

Lemma power_derive (a b : nat) (f g c0 : R) : 0 < c0 ->
  derivable_pt_lim (fun u => ((u / c0) ^ a * f - (u / c0) ^ b * g) / (u / c0)) c0 (((INR a - 1) * f - (INR b - 1) * g) / c0).
Proof.
  intros H. assert (D1 : forall n, derivable_pt_lim (fun u => (u / c0) ^ n) c0 (INR n * / c0)).
  { intros n. assert (D := derivable_pt_lim_comp (fun u => u / c0) (fun x => x ^ n) c0 (/ c0) (INR n * (c0 / c0) ^ pred n)).
    replace (INR n * / c0) with (INR n * (c0 / c0) ^ pred n * / c0) by (unfold Rdiv; rewrite Rinv_r, pow1 by lra; ring). apply D.
    - apply (derivable_pt_lim_ext (fun u => / c0 * u)); [intros u; unfold Rdiv; ring|].
      pose proof (derivable_pt_lim_scal id (/ c0) c0 1 (derivable_pt_lim_id c0)) as I. rewrite Rmult_1_r in I. exact I.
    - apply derivable_pt_lim_pow. }
  assert (S : forall n x, derivable_pt_lim (fun u => (u / c0) ^ n * x) c0 (INR n * / c0 * x)).
  { intros n x. apply (derivable_pt_lim_ext (fun u => x * (u / c0) ^ n)); [intros u; ring|]. rewrite (Rmult_comm _ x). apply (derivable_pt_lim_scal (fun u => (u / c0) ^ n)), D1. }
  assert (D := derivable_pt_lim_div _ _ _ _ _ (derivable_pt_lim_minus _ _ _ _ _ (S a f) (S b g)) (D1 1%nat)).
  assert (E : (c0 / c0) ^ 1 <> 0) by (unfold Rdiv; rewrite Rinv_r by lra; cbn; lra). specialize (D E).
  apply (derivable_pt_lim_ext (fun u => ((u / c0) ^ a * f - (u / c0) ^ b * g) / (u / c0) ^ 1)); [intros u; rewrite pow_1; reflexivity|].
  match type of D with derivable_pt_lim _ _ ?v => replace (((INR a - 1) * f - (INR b - 1) * g) / c0) with v; [exact D|] end.
  unfold minus_fct. rewrite !pow_1. cbv beta. replace (c0 / c0) with 1 by (field; lra). rewrite !pow1. cbn [INR]. unfold Rsqr. field. lra.
Qed.

(** Third bodies counted with the reactants. *)
Definition third_count (r : reaction) : nat := match rx_kind r with ThreeBody => 1 | _ => 0 end.

Section Derive.
  Variable m : mechanism.
  Variables T p : R.
  Variable y : list R.
  Hypothesis HT : 0 < T.
  Hypothesis Hp : 0 < p.
  Hypothesis Ly : length y = (s_NSP (library m) - 1)%nat.
  Hypothesis H1 : forall k, (k < length y)%nat -> 0 <= nth k y 0.
  Hypothesis H2 : Rsum y <= 1.
  Notation S := (library m).
  Notation rxi i := (rxn (chem m) i).

  Theorem pressure_derive :
    exists (yN mw rho : R) (C fwd rev pm : list R),
      lib_eval_conc (A := RA) exact_libm S T p y = Ok (yN, mw, rho, C) /\ 0 < rho /\
      lib_eval_rxn_rates (A := RA) exact_libm S T p C = Ok (fwd, rev) /\ lib_get_rxn_pres_mod (A := RA) exact_libm S T p C = Ok pm /\
      forall i, (i < length (ch_reactions (chem m)))%nat -> rx_kind (rxi i) <> Falloff ->
        derivable_pt_lim (fun u => specific_rate m u y i T) p
          ((if pdep (rxi i) then nth (rank pdep (ch_reactions (chem m)) i) pm 0 else 1) *
           ((INR (molecules (rx_lhs (rxi i)) + third_count (rxi i)) - 1) * nth i fwd 0 -
            (INR (molecules (rx_rhs (rxi i)) + third_count (rxi i)) - 1) *
              (if rx_rev (rxi i) then nth (rank rx_rev (ch_reactions (chem m)) i) rev 0 else 0)) / (rho * p)).
  Proof.
    pose proof (specific_moles_positive m y Ly H1 H2) as HS. destruct (conc_any m T p y Ly ltac:(lra)) as [E _].
    destruct (rates_any m T p HT Hp y Ly HS) as (fwd & rev & pm & R1 & R2 & _ & _ & _ & _).
    pose proof (density_pos m T p y HT Hp HS) as PD.
    do 2 eexists. exists (density m T p y), (conc_of m T p y), fwd, rev, pm. split; [exact E|]. split; [exact PD|]. split; [exact R1|]. split; [exact R2|].
    intros i Hi NF. set (q := if pdep (rxi i) then nth (rank pdep (ch_reactions (chem m)) i) pm 0 else 1).
    set (g := if rx_rev (rxi i) then nth (rank rx_rev (ch_reactions (chem m)) i) rev 0 else 0).
    pose proof (power_derive (molecules (rx_lhs (rxi i)) + third_count (rxi i)) (molecules (rx_rhs (rxi i)) + third_count (rxi i))
      (q * nth i fwd 0 / density m T p y) (q * g / density m T p y) p Hp) as D.
    match type of D with derivable_pt_lim ?F _ ?v => apply (derivable_pt_lim_locally_ext F _ p 0 (p + 1)); [lra| |] end.
    2: { match type of D with derivable_pt_lim _ _ ?v => match goal with |- derivable_pt_lim _ _ ?w => replace w with v; [exact D|] end end. field. lra. }
    intros u Hu. assert (Hc : 0 < u / p) by (apply Rdiv_lt_0_compat; lra).
    destruct (rates_scaled m T p y HT Hp Ly H1 H2 (u / p) Hc) as (yN & mw & rho & C & f1 & r1 & p1 & f2 & r2 & p2 & A1 & A2 & A3 & B1 & B2 & B3 & V).
    assert (Q : Ok (yN, mw, rho, C) = Ok (1 - Rsum y, 1 / specific_moles S y, density m T p y, conc_of m T p y)) by exact (eq_trans (eq_sym A1) E).
    injection Q as Q1 Q2 Q3 Q4. subst rho C yN mw.
    assert (Q : Ok (f1, r1) = Ok (fwd, rev)) by exact (eq_trans (eq_sym A2) R1). injection Q as -> ->.
    assert (Q : Ok p1 = Ok pm) by exact (eq_trans (eq_sym A3) R2). injection Q as ->.
    replace (u / p * p) with u in B1, B2, B3 by (field; lra).
    unfold specific_rate. rewrite B1, B2, B3. unfold progress. destruct (V i Hi) as (V1 & V2 & V3). change (num RA) with R in *. rewrite V1.
    assert (G : (if rx_rev (rxi i) then nth (rank rx_rev (ch_reactions (chem m)) i) r2 0 else 0) = (u / p) ^ molecules (rx_rhs (rxi i)) * g).
    { unfold g. destruct (rx_rev (rxi i)); [apply V2; reflexivity|ring]. }
    rewrite G. assert (MM : (if pdep (rxi i) then nth (rank pdep (ch_reactions (chem m)) i) p2 0 else 1) = (u / p) ^ third_count (rxi i) * q).
    { unfold q, third_count, pdep in *. destruct (rx_kind (rxi i)); [ring|rewrite V3 by reflexivity; ring|contradiction]. }
    rewrite MM, !pow_add. field. split; lra.
  Qed.
End Derive.
