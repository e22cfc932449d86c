(** The pressure in the system that the ODE solver integrates.
    The definitions below are not functions of /repo. *)
From Coq Require Import List ZArith NArith QArith Qreals Reals Bool Lra Lia.
From Verif Require Import Outcome Arith MechLang MechSrc MechReal MechChem Mechanisms MechSpec MechRate MechPmod MechConc MechDydt MechRhs MechFacts MechKin
  MechJacR MechJacC MechJacW MechJacX MechFull MechFullD MechFullR MechFullC PyJac PyJacSpec MechModel MechModelR MechPress.
Import ListNotations.
Local Open Scope R_scope.

(** Hydrogen. *)
Definition only_H2 : list R := 1 :: repeat 0 19.

Lemma only_H2_nth k : nth k (all_fractions only_H2) 0 = if (k =? 0)%nat then 1 else 0.
Proof.
  unfold all_fractions, only_H2. cbn [Rsum repeat app]. replace (1 - _) with 0 by ring.
  do 21 (destruct k as [|k]; [reflexivity|]). destruct k; reflexivity.
Qed.

Lemma only_H2_nonneg k : (k < length only_H2)%nat -> 0 <= nth k only_H2 0.
Proof. intros _. unfold only_H2. do 20 (destruct k as [|k]; [cbn; lra|]). destruct k; cbn; lra. Qed.

Lemma only_H2_sum : Rsum only_H2 <= 1.
Proof. unfold only_H2. cbn [Rsum repeat]. lra. Qed.

(** A side with a species other than hydrogen. *)
Definition foreign (l : list (nat * nat)) : bool := existsb (fun s => (0 <? snd s)%nat && negb (fst s =? 0)%nat) l.

Lemma foreign_absent l : foreign l = true -> absent only_H2 l.
Proof.
  intros H. apply existsb_exists in H as (s & I & H). apply andb_true_iff in H as [A B].
  exists s. split; [exact I|]. split; [apply Nat.ltb_lt, A|]. rewrite only_H2_nth. apply negb_true_iff in B. rewrite B. reflexivity.
Qed.

Lemma H2_reactions i : (i < length (ch_reactions (chem drm19)))%nat -> i <> 22%nat -> i <> 23%nat -> idle drm19 only_H2 i.
Proof.
  intros Hi N1 N2.
  assert (F : forallb (fun i => (i =? 22)%nat || (i =? 23)%nat || (foreign (rx_lhs (rxn (chem drm19) i)) && foreign (rx_rhs (rxn (chem drm19) i))))
    (seq 0 (length (ch_reactions (chem drm19)))) = true) by (vm_compute; reflexivity).
  rewrite forallb_forall in F. specialize (F i ltac:(apply in_seq; lia)).
  destruct (Nat.eqb_spec i 22); [contradiction|]. destruct (Nat.eqb_spec i 23); [contradiction|].
  cbn [orb] in F. apply andb_true_iff in F as [F1 F2]. split; [apply foreign_absent, F1|intros _; apply foreign_absent, F2].
Qed.

Lemma rxn23 : rx_kind (rxn (chem drm19) 23) = Elementary /\ rx_lhs (rxn (chem drm19) 23) = [(1, 2); (0, 1)]%nat /\ rx_rhs (rxn (chem drm19) 23) = [(0, 2)]%nat /\
  rx_rev (rxn (chem drm19) 23) = true /\ Qeq (net (rxn (chem drm19) 23) 1) (-2) /\ (23 < length (ch_reactions (chem drm19)))%nat.
Proof. vm_compute. repeat split; repeat constructor. Qed.

Lemma rxn22 : rx_kind (rxn (chem drm19) 22) = ThreeBody /\ Qeq (efficiency (rxn (chem drm19) 22) 0) 0 /\ (22 < length (ch_reactions (chem drm19)))%nat.
Proof. vm_compute. repeat split; repeat constructor. Qed.

Section H2.
  Variables T p : R.
  Hypothesis HT : 0 < T.
  Hypothesis Hp : 0 < p.

  Lemma HS : 0 < specific_moles (library drm19) only_H2.
  Proof. apply specific_moles_positive; [reflexivity|exact only_H2_nonneg|exact only_H2_sum]. Qed.

  Lemma H2_conc k : (0 < k)%nat -> nth k (conc_of drm19 T p only_H2) 0 = 0.
  Proof.
    intros Hk. destruct (Nat.lt_ge_cases k (s_NSP (library drm19))) as [B|B].
    - unfold conc_of. rewrite (nth_map_seq (fun k => density drm19 T p only_H2 * nth k (all_fractions only_H2) 0 * u_of drm19 k)) by exact B.
      rewrite only_H2_nth. destruct k; [lia|]. cbn [Nat.eqb]. ring.
    - apply nth_overflow. rewrite conc_of_length. exact B.
  Qed.

  Lemma H2_conc0 : 0 < nth 0 (conc_of drm19 T p only_H2) 0.
  Proof.
    unfold conc_of. rewrite (nth_map_seq (fun k => density drm19 T p only_H2 * nth k (all_fractions only_H2) 0 * u_of drm19 k)) by (vm_compute; repeat constructor).
    rewrite only_H2_nth. cbn [Nat.eqb]. rewrite Rmult_1_r. apply Rmult_lt_0_compat; [apply density_pos; [exact HT|exact Hp|exact HS]|].
    unfold u_of. replace 0 with (Q2R 0) by (unfold Q2R; cbn; ring). apply Qlt_Rlt. vm_compute. reflexivity.
  Qed.

  (** The reaction with hydrogen as the only third body has the efficiency 0. *)
  Lemma H2_third : specific_rate drm19 p only_H2 22 T = 0.
  Proof.
    destruct rxn22 as (K & E & B). destruct (rates_any drm19 T p HT Hp only_H2 eq_refl HS) as (fwd & rev & pm & _ & _ & _ & _ & _ & V).
    destruct (V 22%nat B) as (_ & _ & V3 & V4 & V5 & _). rewrite V4, V5.
    replace (pdep (rxn (chem drm19) 22)) with true by (unfold pdep; rewrite K; reflexivity). rewrite (V3 K). unfold third_body.
    rewrite (Rsumn_ext _ _ (fun _ => 0)).
    - unfold Rsumn. rewrite (Rsum_zero (fun _ => 0)) by reflexivity. unfold Rdiv. ring.
    - intros k _. destruct k as [|k]; [|rewrite H2_conc by lia; ring]. rewrite (Qeq_eqR _ _ E). replace (Q2R 0) with 0 by (unfold Q2R; cbn; ring). ring.
  Qed.

  (** The rate of change of the mass fraction of H. *)
  Lemma H2_sum : dydt_at drm19 p only_H2 2 T = W drm19 1 * (nu (chem drm19) 23 1 * specific_rate drm19 p only_H2 23 T).
  Proof.
    change 2%nat with (1 + 1)%nat. rewrite (dydt_at_any drm19 p only_H2 1 T eq_refl) by (vm_compute; repeat constructor). f_equal.
    destruct rxn23 as (_ & _ & _ & _ & _ & B). apply (Rsumn_one _ (fun i => nu (chem drm19) i 1 * specific_rate drm19 p only_H2 i T) 23 B). intros i Hi N.
    destruct (Nat.eq_dec i 22) as [->|N2]; [rewrite H2_third; ring|].
    destruct (idle_rates drm19 p only_H2 i T eq_refl HT Hp only_H2_nonneg only_H2_sum Hi (H2_reactions i Hi N2 N)) as [-> _]. ring.
  Qed.
End H2.

(** The rate of change of the mass fraction of H grows with the pressure. *)
Theorem H2_pressure (T p : R) : 0 < T -> 0 < p -> exists d, 0 < d /\ derivable_pt_lim (fun u => dydt_at drm19 u only_H2 2 T) p d.
Proof.
  intros HT Hp. destruct rxn23 as (K & L & Rr & Rv & N & B).
  destruct (pressure_derive drm19 T p only_H2 HT Hp eq_refl only_H2_nonneg only_H2_sum) as (yN & mw & rho & C & fwd & rev & pm & E1 & Pr & E2 & E3 & D).
  specialize (D 23%nat B ltac:(rewrite K; discriminate)).
  destruct (conc_any drm19 T p only_H2 eq_refl ltac:(pose proof HS; lra)) as [E _].
  assert (Q : Ok (yN, mw, rho, C) = Ok (1 - Rsum only_H2, 1 / specific_moles (library drm19) only_H2, density drm19 T p only_H2, conc_of drm19 T p only_H2)) by exact (eq_trans (eq_sym E1) E).
  injection Q as Q1 Q2 Q3 Q4. subst C.
  destruct (rates_any drm19 T p HT Hp only_H2 eq_refl HS) as (f & r & pq & R1 & _ & _ & _ & _ & V).
  assert (Q : Ok (f, r) = Ok (fwd, rev)) by exact (eq_trans (eq_sym R1) E2). injection Q as -> ->.
  destruct (V 23%nat B) as (V1 & V2 & _ & _ & _ & _ & _ & V8). specialize (V2 Rv). specialize (V8 Rv).
  assert (F : nth 23 fwd 0 = 0).
  { rewrite V1. unfold f_at. rewrite L. unfold conc_product. cbn [map Rprod fst snd]. rewrite H2_conc by lia. ring. }
  assert (G : 0 < nth (rank rx_rev (ch_reactions (chem drm19)) 23) rev 0).
  { rewrite V2. unfold g_at. apply Rmult_lt_0_compat; [exact V8|]. rewrite Rr. unfold conc_product. cbn [map Rprod fst snd].
    rewrite Rmult_1_r. apply pow_lt, H2_conc0; assumption. }
  replace (pdep (rxn (chem drm19) 23)) with false in D by (unfold pdep; rewrite K; reflexivity).
  rewrite L, Rr, Rv, F in D. unfold third_count in D. rewrite K in D. unfold molecules in D. cbn [map snd list_sum fold_right Nat.add] in D.
  set (g := nth (rank rx_rev (ch_reactions (chem drm19)) 23) rev 0) in *.
  assert (NU : nu (chem drm19) 23 1 = -2) by (unfold nu; rewrite (Qeq_eqR _ _ N); unfold Q2R; cbn; lra).
  assert (PW : 0 < W drm19 1).
  { apply W_positive. vm_compute. repeat constructor. }
  eexists. split.
  2: { apply (derivable_pt_lim_locally_ext (fun u => W drm19 1 * (-2) * specific_rate drm19 u only_H2 23 T) _ p 0 (p + 1)); [lra| |].
       - intros u Hu. rewrite H2_sum by lra. rewrite NU. ring.
       - apply (derivable_pt_lim_scal (fun u => specific_rate drm19 u only_H2 23 T)). exact D. }
  cbn [INR]. replace (W drm19 1 * -2 * (1 * ((1 + 1 + 1 - 1) * 0 - (1 + 1 - 1) * g) / (rho * p))) with (2 * (W drm19 1 * g / (rho * p))) by (field; lra).
  apply Rmult_lt_0_compat; [lra|]. apply Rdiv_lt_0_compat; apply Rmult_lt_0_compat; assumption.
Qed.

(** ** The linear systems of the solver *)

(** A solution of the system [a x - J x = b] with the pressure neither in [b] nor in the last row of [J] is one for any last column of [J]. *)
Lemma column_free n (a : R) (J J' : nat -> nat -> R) (b x : nat -> R) : a <> 0 -> b n = 0 -> (forall j, (j <= n)%nat -> J n j = 0) -> (forall j, (j <= n)%nat -> J' n j = 0) ->
  (forall i j, (i < n)%nat -> (j < n)%nat -> J i j = J' i j) ->
  (forall i, (i <= n)%nat -> a * x i - Rsumn (S n) (fun j => J i j * x j) = b i) ->
  x n = 0 /\ forall i, (i <= n)%nat -> a * x i - Rsumn (S n) (fun j => J' i j * x j) = b i.
Proof.
  intros Ha Hb HJ HJ' E H. assert (X : x n = 0).
  { pose proof (H n (le_n n)) as Hn. rewrite (Rsumn_ext _ _ (fun _ => 0)) in Hn by (intros j Hj; rewrite HJ by lia; ring).
    replace (Rsumn (S n) (fun _ => 0)) with 0 in Hn by (unfold Rsumn; symmetry; apply Rsum_zero; reflexivity). rewrite Hb in Hn.
    assert (Z : a * x n = 0) by lra. apply Rmult_integral in Z as [Z|Z]; [contradiction|exact Z]. }
  split; [exact X|]. intros i Hi. rewrite <- (H i Hi), !Rsumn_S, X, !Rmult_0_r, (Rsumn_ext n (fun j => J' i j * x j) (fun j => J i j * x j)); [reflexivity|]. intros j Hj.
  destruct (Nat.eq_dec i n) as [->|Ne]; [rewrite HJ, HJ' by lia; reflexivity|]. rewrite (E i j) by lia. reflexivity.
Qed.

(** [jacobian] has no column for the pressure. *)
Theorem pressure_column_refuted : ~ forall (T p : R) (y : list R) s t rows s',
  List.length y = 20%nat -> 200 <= T <= 5000 -> 0 < p -> (forall k, (k < List.length y)%nat -> 0 <= nth k y 0) -> Rsum y <= 1 ->
  pj_jac (drm19_mech (A := RA) exact_libm) 21 s t (T :: y ++ [p]) = Ok (repeat (zero RA) 22, rows, s') ->
  forall k d, (k < 21)%nat -> derivable_pt_lim (fun u => nth k (pj_rhs (drm19_mech (A := RA) exact_libm) 21 t (T :: y ++ [u])) 0) p d ->
  nth 21 (nth k rows []) 0 = d.
Proof.
  intros H. assert (HT : 0 < 2000) by lra. assert (Hp : 0 < 100000) by lra.
  destruct (linked_jacobian (A := RA) exact_libm (fun _ => None) 0 2000 100000 only_H2 (repeat 0 21) eq_refl eq_refl) as (J & rows & s' & _ & _ & E & _ & _ & _ & Z & _).
  destruct (H2_pressure 2000 100000 HT Hp) as (d & Pd & D).
  assert (X : nth 21 (nth 2 rows []) 0 = d).
  { apply (H 2000 100000 only_H2 (fun _ => None) 0 rows s' eq_refl); try lra; try exact only_H2_nonneg; [exact only_H2_sum|exact E|lia|].
    apply (deriv_near (fun u => dydt_at drm19 u only_H2 2 2000) _ _ _ 1 ltac:(lra)); [|exact D]. intros u _. symmetry.
    apply (rates_of drm19 (drm19_jac_of exact_libm) 0 2000 u only_H2 2 eq_refl only_H2_nonneg). vm_compute. repeat constructor. }
  pose proof (Z 2%nat) as Q. rewrite RA_zero in Q. change (num RA) with R in *. rewrite Q in X. lra.
Qed.

(** It does not matter to the linear systems of the solver. *)
Theorem pressure_column_free (T p : R) (y : list R) s t : List.length y = 20%nat ->
  exists (rows : list (list R)) s', pj_jac (drm19_mech (A := RA) exact_libm) 21 s t (T :: y ++ [p]) = Ok (repeat (zero RA) 22, rows, s') /\
    forall (a : R) (b x c : nat -> R), a <> 0 -> b 21%nat = 0 ->
    ((forall i, (i < 22)%nat -> a * x i - Rsumn 22 (fun j => nth j (nth i rows []) 0 * x j) = b i) <->
     (forall i, (i < 22)%nat -> a * x i - Rsumn 22 (fun j => (if (j =? 21)%nat && (i <? 21)%nat then c i else nth j (nth i rows []) 0) * x j) = b i)).
Proof.
  intros L. destruct (linked_jacobian (A := RA) exact_libm s t T p y (repeat 0 21) L eq_refl) as (J & rows & s' & _ & _ & E & _ & _ & _ & _ & Z).
  exists rows, s'. split; [exact E|]. intros a b x c Ha Hb.
  assert (Z1 : forall j, (j <= 21)%nat -> nth j (nth 21 rows []) 0 = 0) by (intros j _; pose proof (Z j) as Q; rewrite RA_zero in Q; exact Q).
  set (J' := fun i j => if (j =? 21)%nat && (i <? 21)%nat then c i else nth j (nth i rows []) 0).
  assert (Z2 : forall j, (j <= 21)%nat -> J' 21%nat j = 0) by (intros j Hj; unfold J'; rewrite andb_false_r; apply Z1, Hj).
  assert (EQ : forall i j, (i < 21)%nat -> (j < 21)%nat -> nth j (nth i rows []) 0 = J' i j) by (intros i j Hi Hj; unfold J'; replace (j =? 21)%nat with false by (symmetry; apply Nat.eqb_neq; lia); reflexivity).
  split; intros H.
  - destruct (column_free 21 a (fun i j => nth j (nth i rows []) 0) J' b x Ha Hb Z1 Z2 EQ) as [_ G]; [intros i Hi; apply H; lia|]. intros i Hi. apply (G i). lia.
  - destruct (column_free 21 a J' (fun i j => nth j (nth i rows []) 0) b x Ha Hb Z2 Z1 (fun i j Hi Hj => eq_sym (EQ i j Hi Hj))) as [_ G]; [intros i Hi; apply H; lia|]. intros i Hi. apply (G i). lia.
Qed.
