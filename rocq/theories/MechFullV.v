(** [eval_jacob] of drm19: the contribution of a reaction to a column of a species.
    The definitions below are not functions of /repo. *)
From Coq Require Import List ZArith NArith QArith Qabs Qreals Reals Bool Lra Lia.
From Verif Require Import Outcome Arith MechLang MechSym MechSrc MechCall MechReal MechPoly MechChem Mechanisms
  MechSpec MechRate MechPmod MechThermo MechConc MechDydt MechRhs MechData MechExp MechLaurent MechNasa MechKin MechArr
  MechJac MechJacT MechJacS MechJacD MechJacR MechFull MechFullT MechFullS MechFullD.
Import ListNotations.
Local Open Scope R_scope.

(** ** Terms *)

Section TermValues.
  Variable m : mechanism.
  Variable a : var -> N -> R.
  Variable i : nat.
  Variable C : list R.
  Variables f g : R.
  Notation r := (rxn (chem m) i).
  Notation rv := (rval exact_libm a).
  Notation mv := (mval exact_libm a).
  Notation pv := (pval exact_libm a).
  Notation tv := (tval exact_libm a).
  Notation ts := (tsize exact_libm a).
  Hypothesis aC : forall k, a v_conc (N.of_nat k) = nth k C 0.
  Hypothesis af : a v_fwd_rates (N.of_nat i) = f.
  Hypothesis ag : rx_rev r = true -> a v_rev_rates (N.of_nat (rank rx_rev (ch_reactions (chem m)) i)) = g.
  Hypothesis g0 : rx_rev r = false -> g = 0.
  Hypothesis Pf : 0 <= f.
  Hypothesis Pg : 0 <= g.
  Hypothesis PC : forall k, 0 <= nth k C 0.

  Lemma mval_one e : mv [e] = rv e.
  Proof. unfold mval. cbn [map Rprod]. ring. Qed.

  Lemma mval_cons e l : mv (e :: l) = rv e * mv l.
  Proof. reflexivity. Qed.

  Lemma both_val c d s z P : tv (both m i c d s z P) = (Q2R c * f + Q2R d * g) * mv P.
  Proof.
    unfold both, tval. cbn [map Rsum fst snd]. rewrite mval_app, mval_one. change (rv (e_fwd i)) with (a v_fwd_rates (N.of_nat i)). rewrite af.
    destruct (rx_rev r) eqn:Rv; cbn [map Rsum fst snd].
    - rewrite mval_app, mval_one. change (rv (e_rev m i)) with (a v_rev_rates (N.of_nat (rank rx_rev (ch_reactions (chem m)) i))).
      rewrite (ag eq_refl). ring.
    - rewrite (g0 eq_refl). ring.
  Qed.

  Lemma both_size c d s z P : ts (both m i c d s z P) = (Q2R s * f + Q2R z * g) * Rabs (mv P).
  Proof.
    unfold both, tsize. cbn [map Rsum fst snd]. rewrite mval_app, mval_one, Rabs_mult.
    change (rv (e_fwd i)) with (a v_fwd_rates (N.of_nat i)). rewrite af, (Rabs_pos_eq f) by exact Pf.
    destruct (rx_rev r) eqn:Rv; cbn [map Rsum fst snd].
    - rewrite mval_app, mval_one, Rabs_mult. change (rv (e_rev m i)) with (a v_rev_rates (N.of_nat (rank rx_rev (ch_reactions (chem m)) i))).
      rewrite (ag eq_refl), (Rabs_pos_eq g) by exact Pg. ring.
    - rewrite (g0 eq_refl). ring.
  Qed.

  (** Number of molecules of species [j] times the product without one of them. *)
  Definition without (j : nat) (l : list nat) : R := INR (times j l) * Rprod (map (fun k => nth k C 0) (drop1 j l)).

  Lemma mval_conc l : mv (map e_conc l) = Rprod (map (fun k => nth k C 0) l).
  Proof.
    unfold mval. rewrite map_map. f_equal. apply map_ext. intros k. change (rv (e_conc k)) with (a v_conc (N.of_nat k)). apply aC.
  Qed.

  Lemma prod_nonneg l : 0 <= Rprod (map (fun k => nth k C 0) l).
  Proof. induction l as [|k l IH]; cbn [map Rprod]; [lra|]. apply Rmult_le_pos; [apply PC|exact IH]. Qed.

  Lemma without_nonneg j l : 0 <= without j l.
  Proof. apply Rmult_le_pos; [apply pos_INR|apply prod_nonneg]. Qed.

  Lemma direct1_val c z P k l j : tv (direct1 c z P k l j) = Q2R c * mv P * pv k * without j (side l).
  Proof.
    unfold direct1, without. destruct (times j (side l)) as [|n].
    - unfold tval. cbn [map Rsum INR]. ring.
    - rewrite <- (mval_conc (drop1 j (side l))).
      unfold tval, pval. rewrite map_map. cbn [fst snd]. induction k as [|[t1 t2] k IH]; cbn [map Rsum fst snd]; [ring|].
      rewrite IH, !mval_app. unfold qnat. rewrite !Q2R_mult, Q2R_nat. ring.
  Qed.

  Lemma direct1_size c z P t l j :
    ts (direct1 c z P [t] l j) = Q2R z * Rabs (mv P) * Rabs (pv [t]) * without j (side l).
  Proof.
    unfold direct1, without. destruct t as [t1 t2]. destruct (times j (side l)) as [|n].
    - unfold tsize. cbn [map Rsum INR]. ring.
    - unfold tsize, pval. cbn [map Rsum fst snd]. rewrite !mval_app, mval_conc, !Rabs_mult.
      rewrite (Rabs_pos_eq (Rprod _)) by apply prod_nonneg. unfold qnat. rewrite !Q2R_mult, Q2R_nat, Q2R_abs.
      rewrite !Rplus_0_r, ?Rabs_mult. ring.
  Qed.
End TermValues.

(** ** The contribution *)

(** Molecules on a side, with the third body. *)
Definition order3 (r : reaction) (l : list (nat * nat)) : R :=
  INR (molecules l) + match rx_kind r with ThreeBody => 1 | _ => 0 end.

(** Derivative of the rate of progress of a reaction with respect to the mass fraction of species [j], over the density:
    [f] and [g] are the rates, [kf] and [kr] the rate constants, [q] is the pressure modification, [x] the derivative
    of its logarithm with respect to that of the concentration of colliders, [xy] that of the modification itself with
    respect to this concentration. *)
Definition species_term (m : mechanism) (y : list R) (i j : nat) (mw rho : R) (C : list R) (f g q kf kr x xy : R) : R :=
  let r := rxn (chem m) i in
  - (mw * (u_of m j - u_of m (length y)) / rho) * (q * ((order3 r (rx_lhs r) + x) * f - (order3 r (rx_rhs r) + x) * g)) +
  xy * collider_slope m y j r * (f - g) +
  q * (kf * direct_sum m y j (side (rx_lhs r)) C - kr * direct_sum m y j (side (rx_rhs r)) C).

(** The same for the colliders with absolute values. *)
Definition collider_size (m : mechanism) (y : list R) (j : nat) (r : reaction) : R :=
  Q2R (efficiency r j) * u_of m j + Q2R (efficiency r (length y)) * u_of m (length y).

(** The terms of [species_term] in absolute value. *)
Definition species_size (m : mechanism) (y : list R) (i j : nat) (mw rho : R) (C : list R) (f g q kf kr x xy : R) : R :=
  let r := rxn (chem m) i in
  mw * (u_of m j + u_of m (length y)) / rho * (q * ((order3 r (rx_lhs r) + Rabs x) * f + (order3 r (rx_rhs r) + Rabs x) * g)) +
  Rabs xy * collider_size m y j r * (f + g) +
  q * (kf * direct_size m y j (side (rx_lhs r)) C + kr * direct_size m y j (side (rx_rhs r)) C).

Lemma u_pos m k : (k < s_NSP (library m))%nat -> 0 < u_of m k.
Proof. intros H. apply all_positive_in; [apply inverse_weights_positive|]. rewrite inverse_weights_length. exact H. Qed.

Section Contribution.
  Variable m : mechanism.
  Variables T p mw rho : R.
  Variable y : list R.
  Variable a : var -> N -> R.
  Variables i j : nat.
  Variable C : list R.
  Variables f g q : R.
  Notation r := (rxn (chem m) i).
  Notation rv := (rval exact_libm a).
  Notation mv := (mval exact_libm a).
  Notation us := (inverse_weights (library m)).
  Hypothesis Ly : length y = (s_NSP (library m) - 1)%nat.
  Hypothesis Hj : (j < length y)%nat.
  Hypothesis HT : 0 < T.
  Hypothesis Hmw : 0 < mw.
  Hypothesis Hrho : 0 < rho.
  Hypothesis aT : a v_T 0%N = T.
  Hypothesis am : a v_mw_avg 0%N = mw.
  Hypothesis ar : a v_rho 0%N = rho.
  Hypothesis aC : forall k, a v_conc (N.of_nat k) = nth k C 0.
  Hypothesis af : a v_fwd_rates (N.of_nat i) = f.
  Hypothesis ag : rx_rev r = true -> a v_rev_rates (N.of_nat (rank rx_rev (ch_reactions (chem m)) i)) = g.
  Hypothesis g0 : rx_rev r = false -> g = 0.
  Hypothesis aq : if pdep r then a v_pres_mod (N.of_nat (rank pdep (ch_reactions (chem m)) i)) = q else q = 1.
  Hypothesis Pf : 0 <= f.
  Hypothesis Pg : 0 <= g.
  Hypothesis Pq : 0 <= q.
  Hypothesis PC : forall k, 0 <= nth k C 0.

  (** X and XY of a reaction. *)
  Definition x_of (X : R) : R := match rx_kind r with Falloff => X | _ => 0 end.

  (** The same for the collider. *)
  Definition xy_val (X Y : R) : R := match rx_kind r with Elementary => 0 | ThreeBody => 1 | Falloff => X * Y end.

  Lemma rel_val : Q2R (rel us j) = u_of m (length y) / u_of m j.
  Proof.
    pose proof (NSP_pos m). pose proof (u_pos m j ltac:(lia)) as U. unfold rel. rewrite inverse_weights_length, <- Ly.
    unfold Qdiv. rewrite Q2R_mult, Q2R_inv; [reflexivity|]. intros Z. apply Qeq_eqR in Z. rewrite Q2R_0 in Z. unfold u_of in U. lra.
  Qed.

  Lemma none_val : (Qnum (efficiency r j) =? 0)%Z && (Qnum (efficiency r (length us - 1)) =? 0)%Z = true ->
    Q2R (efficiency r j) = 0 /\ Q2R (efficiency r (length y)) = 0.
  Proof.
    rewrite inverse_weights_length, <- Ly. intros H. apply andb_true_iff in H as [H1 H2]. apply Z.eqb_eq in H1, H2.
    unfold Q2R. rewrite H1, H2. split; ring.
  Qed.

  Lemma prefix_val : mv (if pdep r then [e_pm m i] else []) = q.
  Proof.
    destruct (pdep r); [|rewrite aq; reflexivity]. rewrite mval_one. exact aq.
  Qed.

  Variables (X Y kr : expr) (t : Q * mono).

  Lemma colliders_val P : mv P = q \/ True ->
    forall z, tval exact_libm a (if (Qnum (efficiency r j) =? 0)%Z && (Qnum (efficiency r (length us - 1)) =? 0)%Z then [] else
      both m i (efficiency r j - efficiency r (length us - 1) * rel us j) (efficiency r (length us - 1) * rel us j - efficiency r j)
        (efficiency r j + efficiency r (length us - 1) * rel us j) (efficiency r j + efficiency r (length us - 1) * rel us j) z) * u_of m j =
      mv z * collider_slope m y j r * (f - g) /\
    tsize exact_libm a (if (Qnum (efficiency r j) =? 0)%Z && (Qnum (efficiency r (length us - 1)) =? 0)%Z then [] else
      both m i (efficiency r j - efficiency r (length us - 1) * rel us j) (efficiency r (length us - 1) * rel us j - efficiency r j)
        (efficiency r j + efficiency r (length us - 1) * rel us j) (efficiency r j + efficiency r (length us - 1) * rel us j) z) * u_of m j =
      Rabs (mv z) * collider_size m y j r * (f + g).
  Proof.
    intros _ z. pose proof (NSP_pos m). pose proof (u_pos m j ltac:(lia)) as U.
    destruct (_ && _) eqn:Z.
    - apply none_val in Z as [Z1 Z2]. unfold tval, tsize, collider_slope, collider_size. cbn [map Rsum]. rewrite Z1, Z2. split; ring.
    - rewrite (both_val m a i f g af ag g0), (both_size m a i f g af ag g0 Pf Pg).
      rewrite !Q2R_minus, !Q2R_plus, !Q2R_mult, rel_val, inverse_weights_length, <- Ly. unfold collider_slope, collider_size.
      split; field; lra.
  Qed.

  Theorem species_val :
    tval exact_libm a (e_species m us X Y [t] [(1%Q, [kr])] i j) * u_of m j =
    species_term m y i j mw rho C f g q (pval exact_libm a [t]) (if rx_rev r then rv kr else 0) (x_of (rv X)) (xy_val (rv X) (rv Y)) /\
    (0 <= pval exact_libm a [t] -> (rx_rev r = true -> 0 <= rv kr) ->
     tsize exact_libm a (e_species m us X Y [t] [(1%Q, [kr])] i j) * u_of m j =
     species_size m y i j mw rho C f g q (pval exact_libm a [t]) (if rx_rev r then rv kr else 0) (x_of (rv X)) (xy_val (rv X) (rv Y))).
  Proof.
    pose proof (NSP_pos m). pose proof (u_pos m j ltac:(lia)) as U.
    assert (EN : (length us - 1)%nat = length y) by (rewrite inverse_weights_length; lia).
    unfold e_species. cbv zeta. set (P := if pdep r then [e_pm m i] else []).
    set (D := Ref v_mw_avg 0 :: Div (Num 1) (Ref v_rho 0) :: P).
    assert (VP : mv P = q) by apply prefix_val.
    assert (VD : mv D = mw / rho * q).
    { unfold D. rewrite mval_cons, mval_inv, VP. change (rv (Ref v_mw_avg 0)) with (a v_mw_avg 0%N). rewrite am, ar. unfold Rdiv. ring. }
    assert (PD : 0 <= mw / rho * q) by (apply Rmult_le_pos; [left; apply Rdiv_lt_0_compat|]; assumption).
    assert (K1 : pval exact_libm a [(1%Q, [kr])] = rv kr) by (unfold pval; cbn [map Rsum fst snd]; rewrite mval_one, Q2R_1; ring).
    assert (VR : Q2R (rel us j) = u_of m (length y) / u_of m j) by apply rel_val.
    assert (Dv : forall s k l, tval exact_libm a (direct s P [k] l j (length us - 1) (rel us j)) * u_of m j =
      Q2R s * q * pval exact_libm a [k] * direct_sum m y j (side l) C).
    { intros s k l. unfold direct. rewrite tval_app, !(direct1_val a C aC), VP, Q2R_opp, Q2R_mult, VR, EN.
      unfold direct_sum, without. field. lra. }
    assert (Ds : forall s k l, 0 <= pval exact_libm a [k] -> tsize exact_libm a (direct s P [k] l j (length us - 1) (rel us j)) * u_of m j =
      q * pval exact_libm a [k] * direct_size m y j (side l) C).
    { intros s k l Hk. unfold direct. rewrite tsize_app, !(direct1_size a C aC PC), VP, VR, EN, Q2R_1.
      rewrite (Rabs_pos_eq q), (Rabs_pos_eq (pval _ _ _)) by assumption. unfold direct_size, without. field. lra. }
    assert (VX : mv (X :: D) = rv X * (mw / rho * q)) by (rewrite mval_cons, VD; reflexivity).
    assert (VXY : mv [X; Y] = rv X * rv Y) by (rewrite mval_cons, mval_one; reflexivity).
    assert (V0 : mv [] = 1) by reflexivity.
    pose proof (fun z => proj1 (colliders_val [] (or_intror I) z)) as CV.
    pose proof (fun z => proj2 (colliders_val [] (or_intror I) z)) as CS.
    split.
    - rewrite !tval_app, !Rmult_plus_distr_r, Dv.
      assert (ER : tval exact_libm a (if rx_rev r then direct (-1) P [(1%Q, [kr])] (rx_rhs r) j (length us - 1) (rel us j) else []) * u_of m j =
        - q * (if rx_rev r then rv kr else 0) * direct_sum m y j (side (rx_rhs r)) C).
      { destruct (rx_rev r); [eapply eq_trans; [apply Dv|]; eapply eq_trans; [apply (f_equal (fun z => Q2R (-1) * q * z * _)); exact K1|]; rewrite Q2R_m1; ring|unfold tval; cbn [map Rsum]; ring]. }
      rewrite ER, (both_val m a i f g af ag g0), VD, Q2R_opp, !Q2R_mult, Q2R_minus, VR, Q2R_1. unfold qnat. rewrite !Q2R_nat, !plus_INR.
      unfold species_term, order3, x_of, xy_val. destruct (rx_kind r) eqn:K.
      + unfold tval at 1. cbn [map Rsum INR]. field. lra.
      + rewrite CV, V0. cbn [INR]. field. lra.
      + rewrite tval_app, (Rmult_plus_distr_r (tval exact_libm a (both m i _ _ _ _ (X :: D)))), CV, VXY, (both_val m a i f g af ag g0), VX, Q2R_opp, Q2R_minus, VR, Q2R_1. cbn [INR].
        field. lra.
    - intros Hk Hr. rewrite !tsize_app, !Rmult_plus_distr_r, Ds by exact Hk.
      assert (ER : tsize exact_libm a (if rx_rev r then direct (-1) P [(1%Q, [kr])] (rx_rhs r) j (length us - 1) (rel us j) else []) * u_of m j =
        q * (if rx_rev r then rv kr else 0) * direct_size m y j (side (rx_rhs r)) C).
      { destruct (rx_rev r); [eapply eq_trans; [apply Ds; eapply Rle_trans; [exact (Hr eq_refl)|right; symmetry; exact K1]|]; eapply eq_trans; [apply (f_equal (fun z => q * z * _)); exact K1|]; reflexivity|unfold tsize; cbn [map Rsum]; ring]. }
      rewrite ER, (both_size m a i f g af ag g0 Pf Pg), VD, !Q2R_mult, Q2R_plus, VR, Q2R_1, (Rabs_pos_eq _ PD). unfold qnat. rewrite !Q2R_nat, !plus_INR.
      unfold species_size, order3, x_of, xy_val. destruct (rx_kind r) eqn:K.
      + unfold tsize at 1. cbn [map Rsum INR]. rewrite Rabs_R0. field. lra.
      + rewrite CS, V0. cbn [INR]. rewrite Rabs_R0, Rabs_R1. field. lra.
      + rewrite tsize_app, (Rmult_plus_distr_r (tsize exact_libm a (both m i _ _ _ _ (X :: D)))), CS, VXY, (both_size m a i f g af ag g0 Pf Pg), VX, Q2R_plus, VR, Q2R_1. cbn [INR].
        rewrite (Rabs_mult (rv X) (mw / rho * q)), (Rabs_pos_eq _ PD). field. lra.
  Qed.
End Contribution.
