(** [eval_jacob] of drm19: the contribution of a reaction to a column of a species, and the derivative of its rate.
    The definitions below are not functions of /repo. *)
From Coq Require Import List ZArith NArith QArith Qabs Qreals Reals Bool Lra Lia.
From Verif Require Import Outcome Arith MechLang MechSym MechSrc MechCall MechReal MechPoly MechChem Mechanisms
  MechSpec MechRate MechPmod MechThermo MechConc MechDydt MechRhs MechData MechExp MechLaurent MechNasa MechKin MechArr
  MechJac MechJacT MechJacS MechJacD MechJacR MechJacC MechJacW MechJacX MechFull MechFullT MechFullS MechFullD MechFullV.
Import ListNotations.
Local Open Scope R_scope.

(** ** Derivatives *)

Section Rates.
  Variable m : mechanism.
  Variables T p : R.
  Variable y : list R.
  Variable j : nat.
  Hypothesis HT : 0 < T.
  Hypothesis Hp : 0 < p.
  Hypothesis Ly : length y = (s_NSP (library m) - 1)%nat.
  Hypothesis HS : 0 < specific_moles (library m) y.
  Hypothesis Hj : (j < length y)%nat.
  Notation S := (library m).
  Notation rxi i := (rxn (chem m) i).

  (** Rate constants. *)
  Definition kf_of (i : nat) : R := k_fwd exact_libm S T p i.

  (** The reverse one. *)
  Definition kr_at (i : nat) : R := if rx_rev (rxi i) then k_rev exact_libm S (chem m) T p i else 0.

  (** Forward rate. *)
  Definition f_at (i : nat) (x : list R) : R := kf_of i * conc_product (conc_of m T p x) (rx_lhs (rxi i)).

  (** Reverse rate. *)
  Definition g_at (i : nat) (x : list R) : R := kr_at i * conc_product (conc_of m T p x) (rx_rhs (rxi i)).

  Lemma rates_any x : length x = (s_NSP S - 1)%nat -> 0 < specific_moles S x ->
    exists fwd rev pm : list R,
      lib_eval_rxn_rates (A := RA) exact_libm S T p (conc_of m T p x) = Ok (fwd, rev) /\
      lib_get_rxn_pres_mod (A := RA) exact_libm S T p (conc_of m T p x) = Ok pm /\
      length fwd = s_fwd S /\ length rev = s_rev S /\ length pm = s_pmod S /\
      forall i, (i < length (ch_reactions (chem m)))%nat ->
        nth i fwd 0 = f_at i x /\
        (rx_rev (rxi i) = true -> nth (rank rx_rev (ch_reactions (chem m)) i) rev 0 = g_at i x) /\
        (rx_kind (rxi i) = ThreeBody -> nth (rank pdep (ch_reactions (chem m)) i) pm 0 = third_body (rxi i) (conc_of m T p x)) /\
        specific_rate m p x i T = modifier m p x i T * (f_at i x - g_at i x) / density m T p x /\
        modifier m p x i T = (if pdep (rxi i) then nth (rank pdep (ch_reactions (chem m)) i) pm 0 else 1) /\
        0 < kf_of i /\ 0 <= kr_at i /\ (rx_rev (rxi i) = true -> 0 < kr_at i).
  Proof.
    intros Lx Hx. destruct (conc_any m T p x Lx ltac:(lra)) as [E SC].
    pose proof (conc_of_length m T p x) as L. set (C := conc_of m T p x) in *.
    assert (HE : forall x : R, 0 < m_exp exact_libm x) by (intros z; apply exp_pos).
    assert (HW : forall x z : R, 0 < x -> 0 < m_pow exact_libm x z) by (intros z z' _; apply exp_pos).
    destruct (mass_action_at exact_libm S (chem m) T p (rates_all m) HE HT Hp) as [PK G].
    destruct (G C L) as (fwd & rev & E2 & Lf & Lr & V).
    destruct (pressure_modifications exact_libm S (chem m) T p (pmod_all m) HE HW HT Hp) as (ra & _ & PM).
    destruct (PM C L SC) as (pm & E3 & Lp & VP).
    exists fwd, rev, pm. do 5 (split; [assumption|]). intros i Hi. destruct (V i Hi) as [Vf Vr]. destruct (PK i Hi) as [Pf Pr].
    assert (Eg : (if rx_rev (rxi i) then nth (rank rx_rev (ch_reactions (chem m)) i) rev 0 else 0) = g_at i x).
    { unfold g_at, kr_at. fold C. destruct (rx_rev (rxi i)); [apply Vr; reflexivity|ring]. }
    split; [exact Vf|]. split; [intros Rv; rewrite Rv in Eg; exact Eg|].
    split; [intros K; specialize (VP i Hi); rewrite K in VP; exact VP|].
    assert (Em : modifier m p x i T = (if pdep (rxi i) then nth (rank pdep (ch_reactions (chem m)) i) pm 0 else 1))
      by (unfold modifier; rewrite E, E3; reflexivity).
    split; [|split; [exact Em|split; [exact Pf|unfold kr_at; destruct (rx_rev (rxi i)); split; intros; (lra || discriminate)]]].
    unfold specific_rate. rewrite E, E2, E3, Em. unfold progress. rewrite Eg, Vf. unfold f_at, kf_of. fold C. unfold Rdiv. ring.
  Qed.

  (** 1 for a reaction with a third body. *)
  Definition third_of (r : reaction) : R := match rx_kind r with ThreeBody => 1 | _ => 0 end.

  Lemma rate_derive i (Q : R -> R) x xy : (i < length (ch_reactions (chem m)))%nat ->
    in_range m (rx_lhs (rxi i)) -> in_range m (rx_rhs (rxi i)) ->
    derivable_pt_lim Q (nth j y 0)
      (- thinning m y j * (third_of (rxi i) + x) * Q (nth j y 0) + density m T p y * (xy * collider_slope m y j (rxi i))) ->
    (forall t, 0 < specific_moles S (upd y j t) -> modifier m p (upd y j t) i T = Q t) ->
    derivable_pt_lim (fun t => specific_rate m p (upd y j t) i T) (nth j y 0)
      (species_term m y i j (1 / specific_moles S y) (density m T p y) (conc_of m T p y) (f_at i y) (g_at i y)
         (modifier m p y i T) (kf_of i) (kr_at i) x xy +
       thinning m y j * (modifier m p y i T * (f_at i y - g_at i y)) / density m T p y).
  Proof.
    intros Hi Rl Rr DQ VQ. pose proof (density_pos m T p y HT Hp HS) as PD.
    destruct (near_moles m y j Ly HS Hj) as (lo & hi & Hlh & NM).
    pose proof (upd_same y j Hj) as US.
    assert (Q0 : Q (nth j y 0) = modifier m p y i T) by (rewrite <- VQ; rewrite US; [reflexivity|exact HS]).
    assert (Df : derivable_pt_lim (fun t => f_at i (upd y j t)) (nth j y 0)
      (kf_of i * (- thinning m y j * INR (molecules (rx_lhs (rxi i))) * conc_product (conc_of m T p y) (rx_lhs (rxi i)) +
        density m T p y * direct_sum m y j (side (rx_lhs (rxi i))) (conc_of m T p y)))).
    { apply (derivable_pt_lim_scal (fun t => conc_product (conc_of m T p (upd y j t)) (rx_lhs (rxi i)))).
      apply product_derive; assumption. }
    assert (Dg : derivable_pt_lim (fun t => g_at i (upd y j t)) (nth j y 0)
      (kr_at i * (- thinning m y j * INR (molecules (rx_rhs (rxi i))) * conc_product (conc_of m T p y) (rx_rhs (rxi i)) +
        density m T p y * direct_sum m y j (side (rx_rhs (rxi i))) (conc_of m T p y)))).
    { apply (derivable_pt_lim_scal (fun t => conc_product (conc_of m T p (upd y j t)) (rx_rhs (rxi i)))).
      apply product_derive; assumption. }
    assert (Dd := derivable_pt_lim_minus _ _ _ _ _ Df Dg). assert (Dm := derivable_pt_lim_mult _ _ _ _ _ DQ Dd).
    apply (over_density_derive m T p y j HT Hp Ly HS Hj) in Dm.
    apply (derivable_pt_lim_locally_ext
      (fun t => mult_fct Q (minus_fct (fun t => f_at i (upd y j t)) (fun t => g_at i (upd y j t))) t / density m T p (upd y j t))
      _ (nth j y 0) lo hi); [exact Hlh| |].
    - intros t Ht. specialize (NM t Ht). destruct (rates_any (upd y j t) ltac:(rewrite upd_length; exact Ly) NM) as (fwd & rev & pm & _ & _ & _ & _ & _ & V).
      destruct (V i Hi) as (_ & _ & _ & V4 & _). rewrite V4, VQ by exact NM. reflexivity.
    - match type of Dm with derivable_pt_lim _ _ ?v => match goal with |- derivable_pt_lim _ _ ?w => replace w with v; [exact Dm|] end end.
      unfold mult_fct, minus_fct. rewrite US, Q0. unfold species_term, order3, third_of, thinning, moles_slope, f_at, g_at.
      set (K := conc_product (conc_of m T p y)). set (q := modifier m p y i T).
      destruct (rx_kind (rxi i)); field; split; lra.
  Qed.

  Lemma plain_derive i : (i < length (ch_reactions (chem m)))%nat ->
    in_range m (rx_lhs (rxi i)) -> in_range m (rx_rhs (rxi i)) -> rx_kind (rxi i) <> Falloff ->
    derivable_pt_lim (fun t => specific_rate m p (upd y j t) i T) (nth j y 0)
      (species_term m y i j (1 / specific_moles S y) (density m T p y) (conc_of m T p y) (f_at i y) (g_at i y)
         (modifier m p y i T) (kf_of i) (kr_at i) 0 (third_of (rxi i)) +
       thinning m y j * (modifier m p y i T * (f_at i y - g_at i y)) / density m T p y).
  Proof.
    intros Hi Rl Rr NF. pose proof (density_pos m T p y HT Hp HS) as PD.
    apply (rate_derive i (fun t => match rx_kind (rxi i) with ThreeBody => third_body (rxi i) (conc_of m T p (upd y j t)) | _ => 1 end)); try assumption.
    - unfold third_of. destruct (rx_kind (rxi i)) eqn:K; [|rewrite upd_same by exact Hj|contradiction].
      + match goal with |- derivable_pt_lim _ _ ?v => replace v with 0 by ring end. apply derivable_pt_lim_const.
      + assert (D := third_derive m T p y j HT Ly HS Hj (rxi i)).
        match type of D with derivable_pt_lim _ _ ?v => match goal with |- derivable_pt_lim _ _ ?w => replace w with v by ring; exact D end end.
    - intros t Ht. destruct (rates_any (upd y j t) ltac:(rewrite upd_length; exact Ly) Ht) as (fwd & rev & pm & _ & _ & _ & _ & _ & V).
      destruct (V i Hi) as (_ & _ & V3 & _ & V5 & _). rewrite V5. unfold pdep. destruct (rx_kind (rxi i)) eqn:K; [reflexivity|apply V3; reflexivity|contradiction].
  Qed.
End Rates.

(** ** The columns *)

(** The rate constants are single terms, the sides of the reactions are not empty and mention species only. *)
Definition shape_ok (m : mechanism) : bool :=
  match rate_state (library m) with
  | None => false
  | Some rs =>
      forallb (fun i => match expd [] (rate_k m rs i) with [_] => true | _ => false end &&
                        let r := rxn (chem m) i in
                        forallb (fun l => forallb (fun k => k <? s_NSP (library m))%nat (side l) && (1 <=? molecules l)%nat)
                          [rx_lhs r; rx_rhs r])
        (seq 0 (length (ch_reactions (chem m))))
  end.

Lemma shape_drm19 : shape_ok drm19 = true.
Proof. vm_compute. reflexivity. Qed.

(** Relative error of the reverse rate constant of the Jacobian against that of [eval_rxn_rates]. *)
Definition rev_gap (m : mechanism) (T : R) (i : nat) : R := exp (2 * Kc_err m T (rxn (chem m) i)) - 1.

Lemma rate_k_val m (a : var -> N -> R) (T p : R) rs i : 0 < T -> a v_T 0%N = T -> rate_state (library m) = Some rs ->
  (i < length (ch_reactions (chem m)))%nat -> rval exact_libm a (rate_k m rs i) = k_fwd exact_libm (library m) T p i.
Proof.
  intros HT aT E Hi. pose proof (kinetics_all m) as H. unfold kinetics_ok in H. unfold k_fwd. rewrite E in H |- *.
  apply andb_true_iff in H as [_ H]. rewrite forallb_forall in H. specialize (H i ltac:(apply in_seq; lia)).
  unfold reaction_ok in H. unfold rate_constant, rate_k.
  destruct (split (fwd_form (library m) rs i)) as [[lf kf]|]; [|discriminate].
  apply andb_true_iff in H as [H1 _]. destruct (arr_form _ _ _ H1) as (c & l & Pf & _).
  set (b := argument [(v_T, [T] : list (num RA)); (v_pres, [p])]).
  destruct (pos_form_val a anyT ltac:(rewrite aT; apply in_anyT, HT) kf c l Pf) as [_ V1].
  destruct (pos_form_val b anyT (in_anyT T HT) kf c l Pf) as [_ V2].
  rewrite V1. rewrite aT. symmetry. exact V2.
Qed.

Lemma exp_gap x y e : 0 < x -> 0 < y -> Rabs (ln x - ln y) <= e -> Rabs (x - y) <= (exp e - 1) * y.
Proof.
  intros Hx Hy H. assert (- e <= ln x - ln y <= e) by (revert H; unfold Rabs; destruct Rcase_abs; lra). clear H.
  assert (U : x <= y * exp e).
  { replace (y * exp e) with (exp (ln y + e)) by (rewrite exp_plus, exp_ln by exact Hy; reflexivity).
    rewrite <- (exp_ln x) at 1 by exact Hx. destruct (Req_dec (ln x) (ln y + e)) as [->|]; [lra|]. left. apply exp_increasing. lra. }
  assert (Lo : y <= x * exp e).
  { replace (x * exp e) with (exp (ln x + e)) by (rewrite exp_plus, exp_ln by exact Hx; reflexivity).
    rewrite <- (exp_ln y) at 1 by exact Hy. destruct (Req_dec (ln y) (ln x + e)) as [->|]; [lra|]. left. apply exp_increasing. lra. }
  pose proof (exp_pos e) as E.
  assert (E1 : 1 <= exp e).
  { destruct (Rle_lt_dec 1 (exp e)) as [L|L]; [exact L|]. assert (0 <= e) by lra. rewrite <- exp_0 in L. apply exp_lt_inv in L. lra. }
  apply Rabs_le. split; [|lra].
  destruct (Rle_dec y x) as [D|D]; [nra|]. assert (x * exp e <= x * 1 + (exp e - 1) * y) by nra. lra.
Qed.

Section Column.
  Variable m : mechanism.
  Variables T p : R.
  Variable y : list R.
  Hypothesis HT : 0 < T.
  Hypothesis Hp : 0 < p.
  Hypothesis Ly : length y = (s_NSP (library m) - 1)%nat.
  Hypothesis H1 : forall k, (k < length y)%nat -> 0 <= nth k y 0.
  Hypothesis H2 : Rsum y <= 1.
  Hypothesis OK : shape_ok m = true.
  Notation S := (library m).
  Notation rxi i := (rxn (chem m) i).
  Notation us := (inverse_weights S).

  Lemma moles_pos : 0 < specific_moles S y.
  Proof. apply (specific_moles_positive m y Ly H1 H2). Qed.

  Lemma conc_of_nonneg k : 0 <= nth k (conc_of m T p y) 0.
  Proof.
    destruct (Nat.lt_ge_cases k (s_NSP S)) as [B|B].
    - unfold conc_of. rewrite (nth_map_seq (fun k => density m T p y * nth k (all_fractions y) 0 * u_of m k)) by exact B.
      apply Rmult_le_pos; [apply Rmult_le_pos; [left; apply density_pos; [exact HT|exact Hp|exact moles_pos]|]|left; apply u_pos, B].
      unfold all_fractions. destruct (Nat.lt_ge_cases k (length y)) as [D|D].
      + rewrite app_nth1 by exact D. apply H1, D.
      + rewrite app_nth2 by exact D. destruct (k - length y)%nat as [|[|q]]; cbn [nth]; lra.
    - rewrite nth_overflow by (rewrite conc_of_length; exact B). lra.
  Qed.

  Lemma rates_nonneg i : (i < length (ch_reactions (chem m)))%nat -> 0 <= f_at m T p i y /\ 0 <= g_at m T p i y.
  Proof.
    intros Hi. destruct (rates_any m T p HT Hp y Ly moles_pos) as (fwd & rev & pm & _ & _ & _ & _ & _ & V).
    destruct (V i Hi) as (_ & _ & _ & _ & _ & P1 & P2 & _).
    split; apply Rmult_le_pos; try lra; apply conc_product_nonneg, conc_of_nonneg.
  Qed.

  Lemma modifier_nonneg i : (i < length (ch_reactions (chem m)))%nat -> 0 <= modifier m p y i T.
  Proof.
    intros Hi. destruct (conc_any m T p y Ly ltac:(pose proof moles_pos; lra)) as [E SC].
    pose proof (conc_of_length m T p y) as L. pose proof conc_of_nonneg as PC. set (C := conc_of m T p y) in *.
    assert (HE : forall x : R, 0 < m_exp exact_libm x) by (intros z; apply exp_pos).
    assert (HW : forall x z : R, 0 < x -> 0 < m_pow exact_libm x z) by (intros z z' _; apply exp_pos).
    destruct (pressure_modifications exact_libm S (chem m) T p (pmod_all m) HE HW HT Hp) as (ra & Pr & PM).
    destruct (PM C L SC) as (pm & E3 & Lp & VP). unfold modifier. rewrite E, E3. specialize (VP i Hi).
    replace (pdep (rxi i)) with (match rx_kind (rxi i) with Elementary => false | _ => true end) by reflexivity.
    destruct (rx_kind (rxi i)); [lra|eapply Rle_trans; [|right; symmetry; exact VP]; apply third_body_nonneg, PC|].
    destruct VP as (F & PF & VP). eapply Rle_trans; [|right; symmetry; exact VP].
    specialize (Pr i Hi). pose proof (third_body_nonneg m i C PC) as Q.
    assert (0 <= ra i * third_body (rxi i) C) by (apply Rmult_le_pos; lra).
    apply Rmult_le_pos; [lra|]. apply Rmult_le_pos; [assumption|]. left. apply Rinv_0_lt_compat. lra.
  Qed.

  Lemma shape_at i : (i < length (ch_reactions (chem m)))%nat ->
    in_range m (rx_lhs (rxi i)) /\ in_range m (rx_rhs (rxi i)) /\
    (1 <= molecules (rx_lhs (rxi i)))%nat /\ (1 <= molecules (rx_rhs (rxi i)))%nat /\
    forall rs, rate_state S = Some rs -> exists t, expd [] (rate_k m rs i) = [t].
  Proof.
    intros Hi. pose proof OK as H. unfold shape_ok in H. destruct (rate_state S) as [rs|]; [|discriminate].
    rewrite forallb_forall in H. specialize (H i ltac:(apply in_seq; lia)). cbv zeta in H.
    apply andb_true_iff in H as [H3 H]. cbn [forallb] in H. apply andb_true_iff in H as [HA H]. apply andb_true_iff in H as [HB _].
    apply andb_true_iff in HA as [A1 A2]. apply andb_true_iff in HB as [B1 B2]. apply Nat.leb_le in A2, B2.
    rewrite forallb_forall in A1, B1.
    split; [intros k Hk; apply Nat.ltb_lt, A1, Hk|]. split; [intros k Hk; apply Nat.ltb_lt, B1, Hk|].
    split; [exact A2|]. split; [exact B2|]. intros rs' [= <-].
    destruct (expd [] (rate_k m rs i)) as [|t [|]]; try discriminate. eauto.
  Qed.

  Variables (mm : R) (sp dB fwd rev pm : list R) (rs : smem).
  Hypothesis Ers : rate_state S = Some rs.
  Hypothesis E2 : lib_eval_rxn_rates (A := RA) exact_libm S T p (conc_of m T p y) = Ok (fwd, rev).
  Hypothesis E3 : lib_get_rxn_pres_mod (A := RA) exact_libm S T p (conc_of m T p y) = Ok pm.
  Notation env := (env_all T p mm (1 / specific_moles S y) (density m T p y) (conc_of m T p y) fwd rev pm sp dB).
  Notation term i j := (species_term m y i j (1 / specific_moles S y) (density m T p y) (conc_of m T p y) (f_at m T p i y) (g_at m T p i y)
         (modifier m p y i T) (kf_of m T p i)).
  Notation size i j := (species_size m y i j (1 / specific_moles S y) (density m T p y) (conc_of m T p y) (f_at m T p i y) (g_at m T p i y)
         (modifier m p y i T) (kf_of m T p i)).

  Lemma column_val i x : (i < length (ch_reactions (chem m)))%nat ->
    column_of exact_libm m us (common_all (nasa m)) rs T p mm (1 / specific_moles S y) (density m T p y) (conc_of m T p y) fwd rev pm sp dB i x ->
    exists (jac : list R) (X Y : expr) (KR : R),
      (rx_kind (rxi i) = Falloff -> xy_ok m i X Y = true) /\ 0 <= KR /\
      Rabs (KR - kr_at m T p i) <= rev_gap m T i * kr_at m T p i /\
      forall j, (j < length y)%nat ->
        Rabs (x j * u_of m j - term i j KR (x_of m i (rval exact_libm (env jac) X)) (xy_val m i (rval exact_libm (env jac) X) (rval exact_libm (env jac) Y))) <=
        Q2R tolE * size i j KR (x_of m i (rval exact_libm (env jac) X)) (xy_val m i (rval exact_libm (env jac) X) (rval exact_libm (env jac) Y)).
  Proof.
    intros Hi (jac & ((X & Y) & kr) & HA & G). unfold atoms_ok in HA. apply andb_true_iff in HA as [A1 A2].
    set (a := env jac) in *.
    destruct (rates_any m T p HT Hp y Ly moles_pos) as (fwd' & rev' & pm' & E2' & E3' & Lf & Lr & Lp & V).
    rewrite E2 in E2'. rewrite E3 in E3'. injection E2' as <- <-. injection E3' as <-.
    destruct (V i Hi) as (V1 & V2 & V3 & V4 & V5 & P1 & P2 & P3). clear V.
    destruct (shape_at i Hi) as (_ & _ & _ & _ & Sg). destruct (Sg rs Ers) as (t & Et).
    assert (aT : a v_T 0%N = T) by reflexivity.
    assert (VK : rval exact_libm a (rate_k m rs i) = kf_of m T p i) by (apply rate_k_val; assumption).
    assert (Vt : pval exact_libm a [t] = kf_of m T p i) by (rewrite <- Et, expd_val; exact VK).
    assert (aC : forall k, a v_conc (N.of_nat k) = nth k (conc_of m T p y) 0).
    { intros k. unfold a, env_all, argument, all_ins. cbn [find fst snd var_eqb var_id Nat.eqb]. rewrite Nat2N.id.
      cbn [zero lit RA]. rewrite Q2R_0. reflexivity. }
    assert (af : a v_fwd_rates (N.of_nat i) = f_at m T p i y).
    { rewrite <- V1. unfold a, env_all, argument, all_ins. cbn [find fst snd var_eqb var_id Nat.eqb]. rewrite Nat2N.id.
      cbn [zero lit RA]. rewrite Q2R_0. reflexivity. }
    assert (ag : rx_rev (rxi i) = true -> a v_rev_rates (N.of_nat (rank rx_rev (ch_reactions (chem m)) i)) = g_at m T p i y).
    { intros Rv. rewrite <- (V2 Rv). unfold a, env_all, argument, all_ins. cbn [find fst snd var_eqb var_id Nat.eqb]. rewrite Nat2N.id.
      cbn [zero lit RA]. rewrite Q2R_0. reflexivity. }
    assert (g0 : rx_rev (rxi i) = false -> g_at m T p i y = 0).
    { intros Rv. unfold g_at, kr_at. rewrite Rv. ring. }
    assert (aq : if pdep (rxi i) then a v_pres_mod (N.of_nat (rank pdep (ch_reactions (chem m)) i)) = modifier m p y i T else modifier m p y i T = 1).
    { rewrite V5. destruct (pdep (rxi i)); [|reflexivity]. unfold a, env_all, argument, all_ins. cbn [find fst snd var_eqb var_id Nat.eqb]. rewrite Nat2N.id.
      cbn [zero lit RA]. rewrite Q2R_0. reflexivity. }
    pose proof moles_pos as PM. pose proof (density_pos m T p y HT Hp PM) as PD.
    destruct (rates_nonneg i Hi) as [Pf Pg]. pose proof (modifier_nonneg i Hi) as Pq.
    assert (KR : 0 <= (if rx_rev (rxi i) then rval exact_libm a kr else 0) /\
      Rabs ((if rx_rev (rxi i) then rval exact_libm a kr else 0) - kr_at m T p i) <= rev_gap m T i * kr_at m T p i /\
      (rx_rev (rxi i) = true -> 0 < rval exact_libm a kr)).
    { unfold kr_at in *. destruct (rx_rev (rxi i)) eqn:Rv.
      - cbn [negb orb] in A2. destruct (equil_val m _ _ _ a A2 HT) as (Q1 & Q2 & Q3). rewrite VK in Q3.
        destruct (rate_constants m T p i HT Hi) as (_ & _ & _ & RC). destruct (RC Rv) as [Q4 Q5].
        split; [lra|]. split; [|intros _; exact Q2]. apply exp_gap; [exact Q2|exact Q4|].
        unfold kf_of in Q3. unfold Kc_err in Q5 |- *. change (a v_T 0%N) with T in Q3.
        set (e := Q2R tolE * _) in *.
        match goal with |- Rabs ?z <= _ => replace z with
          ((ln (k_fwd exact_libm S T p i) - ln (k_rev exact_libm S (chem m) T p i) - ln_Kc m T (rxi i)) -
           (ln (k_fwd exact_libm S T p i) - ln (rval exact_libm a kr) - ln_Kc m T (rxi i))) by ring end.
        eapply Rle_trans; [apply Rabs_triang|]. rewrite Rabs_Ropp. lra.
      - split; [lra|]. split; [rewrite Rminus_0_r, Rabs_R0; lra|discriminate]. }
    exists jac, X, Y, (if rx_rev (rxi i) then rval exact_libm a kr else 0).
    split; [intros K; rewrite K in A1; exact A1|]. destruct KR as (K1 & K2 & K3). split; [exact K1|]. split; [exact K2|].
    intros j Hj. destruct (G j ltac:(lia)) as (e & Se & Ex). fold a in Ex.
    destruct (species_val m (1 / specific_moles S y) (density m T p y) y a i j (conc_of m T p y) (f_at m T p i y) (g_at m T p i y) (modifier m p y i T)) with (X := X) (Y := Y) (kr := kr) (t := t)
      as [B1 B2]; try assumption; try reflexivity.
    { apply Rdiv_lt_0_compat; lra. } { exact conc_of_nonneg. }
    unfold species_ok in Se. rewrite Et in Se. apply (tnear_val exact_libm a) in Se. rewrite expd_val, <- Ex in Se.
    pose proof (u_pos m j ltac:(lia)) as U.
    fold a. rewrite Vt in B1, B2. rewrite <- B1.
    specialize (B2 ltac:(lra) (fun Rv => Rlt_le _ _ (K3 Rv))).
    rewrite <- B2, <- Rmult_minus_distr_r, Rabs_mult, (Rabs_pos_eq (u_of m j)) by lra. rewrite <- Rmult_assoc. apply Rmult_le_compat_r; lra.
  Qed.
End Column.
