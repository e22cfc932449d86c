(** Linear combinations of mass fractions that the mechanism conserves are conserved by the cell
    solver, in exact arithmetic. *)
From Coq Require Import List Arith ZArith QArith Qabs Bool Lia Lqa Setoid.
From Verif Require Import Outcome Arith ChemistryModel ChemFacts ChemSim OdeSolver Seulex SeulexMono SeulexSafe
  SeulexRun SeulexSpec OdeFacts SeulexFacts SeulexEx SeulexCases SeulexLinear PyJac PyJacFacts PyJacSpec
  PyJacCases QSum.
Import ListNotations.
Local Open Scope nat_scope.

(** The mechanism conserves the sum of [e k] times the mass fraction of species [k], the last
    mass fraction being one minus the others: the rates of change cancel, and so do the columns
    of the Jacobian. *)
Definition conserves {sm gr vg} (mc : mech (QA sm gr vg)) (ns : nat) (e : nat -> Q) : Prop :=
  forall (p : Q) (y : list Q), length y = ns ->
    (Qsumf (fun k => (e k - e (ns - 1)%nat) * dydt_elt mc p y (k + 1)) (seq 0 (ns - 1)) == 0)%Q /\
    forall j, j < ns ->
      (Qsumf (fun k => (e k - e (ns - 1)%nat) * jacob_elt mc p y (j * ns + (k + 1))) (seq 0 (ns - 1)) == 0)%Q.

Lemma eqQ (a b : Q) : a = b -> (a == b)%Q.
Proof. intros ->. reflexivity. Qed.

Lemma Qsumf_seq_S (f : nat -> Q) s k : (Qsumf f (seq s (S k)) == f s + Qsumf (fun i => f (i + 1)%nat) (seq s k))%Q.
Proof.
  cbn [seq]. rewrite Qsumf_cons. rewrite <- seq_shift. unfold Qsumf. rewrite map_map.
  rewrite (map_ext (fun x => f (S x)) (fun i => f (i + 1)%nat)); [reflexivity|]. intros i. f_equal. lia.
Qed.

Lemma Qsumf_seq_last (f : nat -> Q) s k : (Qsumf f (seq s (S k)) == Qsumf f (seq s k) + f (s + k)%nat)%Q.
Proof. rewrite seq_S, Qsumf_app. unfold Qsumf at 2. simpl. ring. Qed.

(** Weights of the components of the solve-vector: temperature, all species but the last,
    pressure. *)
Definition cell_weights (ns : nat) (e : nat -> Q) (i : nat) : Q :=
  if (i =? 0) || (ns <=? i) then 0%Q else (e (i - 1)%nat - e (ns - 1)%nat)%Q.

Lemma cell_weighted ns e (f : nat -> Q) : 1 <= ns ->
  (Qsumf (fun i => cell_weights ns e i * f i) (seq 0 (ns + 1)) ==
   Qsumf (fun k => (e k - e (ns - 1)%nat) * f (k + 1)%nat) (seq 0 (ns - 1)))%Q.
Proof.
  intros N1. replace (ns + 1) with (S (S (ns - 1))) by lia. rewrite Qsumf_seq_S, Qsumf_seq_last.
  assert (Z : forall i, (i =? 0) || (ns <=? i) = true -> cell_weights ns e i = 0%Q)
    by (intros i E; unfold cell_weights; rewrite E; reflexivity).
  rewrite (Z 0) by reflexivity.
  rewrite (Z (0 + (ns - 1) + 1)) by (rewrite (proj2 (Nat.leb_le _ _)) by lia; apply orb_true_r).
  rewrite (Qsumf_ext (fun i => cell_weights ns e (i + 1) * f (i + 1)%nat)%Q
    (fun k => (e k - e (ns - 1)%nat) * f (k + 1)%nat)%Q).
  - ring.
  - intros k Hk. apply in_seq in Hk. unfold cell_weights.
    rewrite (proj2 (Nat.eqb_neq _ _)), (proj2 (Nat.leb_gt _ _)) by lia. cbn [orb].
    replace (k + 1 - 1) with k by lia. reflexivity.
Qed.

(** The sum of all mass fractions being 1, the last one need not be counted. *)
Lemma all_species ns e (c : list Q) : 1 <= ns -> length c = ns -> (Qsum c == 1)%Q ->
  (Qsumf (fun k => e k * nth k c 0) (seq 0 ns) ==
   e (ns - 1)%nat + Qsumf (fun k => (e k - e (ns - 1)%nat) * nth k c 0) (seq 0 (ns - 1)))%Q.
Proof.
  intros N1 L S1.
  assert (E : (Qsumf (fun k => nth k c 0) (seq 0 ns) == 1)%Q).
  { rewrite <- S1, <- L. clear. unfold Qsumf.
    assert (X : map (fun k => nth k c 0%Q) (seq 0 (length c)) = c); [|rewrite X; reflexivity].
    clear. induction c as [|x c IH]; auto. cbn [length seq map]. rewrite <- seq_shift, map_map. f_equal. exact IH. }
  assert (F : (Qsumf (fun k => e k * nth k c 0) (seq 0 ns) ==
    Qsumf (fun k => (e k - e (ns - 1)%nat) * nth k c 0) (seq 0 ns) +
    e (ns - 1)%nat * Qsumf (fun k => nth k c 0) (seq 0 ns))%Q).
  { rewrite <- Qsumf_scale, <- Qsumf_plus. apply Qsumf_ext. intros; ring. }
  rewrite F, E. clear F E. replace (seq 0 ns) with (seq 0 (S (ns - 1))) by (f_equal; lia).
  rewrite Qsumf_seq_last. cbn [plus]. ring.
Qed.

Section Elements.
  Variables sm gr vg : Q.
  Notation AQ := (QA sm gr vg).
  Variable cm : cmath AQ.
  Variable lap : lapack AQ.
  Variable mc : mech AQ.
  Variable ns : nat.
  Hypothesis HN : NSP mc = ns.
  Hypothesis N1 : 1 <= ns.
  Variable e : nat -> Q.
  Hypothesis CE : conserves mc ns e.

  Lemma rhs_conserves x y : length y = ns + 1 ->
    (weighted (ns + 1) (cell_weights ns e) (pj_rhs mc ns x y) == 0)%Q.
  Proof.
    intros L. destruct (ends (A := AQ) ns N1 y L) as (T & p & E0 & E1). unfold weighted.
    rewrite cell_weighted by auto. unfold pj_rhs.
    destruct (derivs_eq mc ns HN N1 (fun _ => None) x y T p L E0 E1) as (s' & ->).
    match goal with |- context [dydt_elt mc p ?v] => set (Y := v) end.
    assert (LY : length Y = ns).
    { unfold Y. cbn [length]. rewrite firstn_length, handed_length, firstn_length. destruct y; simpl in *; lia. }
    destruct (CE p Y LY) as [C _]. rewrite <- C. apply Qsumf_ext. intros k Hk. apply in_seq in Hk.
    change (num AQ) with Q. rewrite app_nth1 by (rewrite map_length, seq_length; lia).
    rewrite (nth_indep _ 0%Q (dydt_elt mc p Y 0)) by (rewrite map_length, seq_length; lia).
    rewrite (map_nth (dydt_elt mc p Y)), seq_nth by lia. reflexivity.
  Qed.

  Lemma jac_conserves x y j : j < ns + 1 ->
    (Qsumf (fun i => cell_weights ns e i * nth j (nth i (pj_jacf mc ns x y) []) 0) (seq 0 (ns + 1)) == 0)%Q.
  Proof.
    intros Hj. rewrite (cell_weighted ns e (fun i => nth j (nth i (pj_jacf mc ns x y) []) 0%Q)) by auto.
    assert (Z : forall J : list (list Q), (forall k, k < ns - 1 -> nth j (nth (k + 1) J []) 0%Q = 0%Q) ->
      (Qsumf (fun k => (e k - e (ns - 1)%nat) * nth j (nth (k + 1) J []) 0) (seq 0 (ns - 1)) == 0)%Q).
    { intros J HZ. rewrite (Qsumf_ext _ (fun _ => 0%Q)).
      - rewrite Qsumf_const. ring.
      - intros k Hk. apply in_seq in Hk. rewrite HZ by lia. ring. }
    assert (Z0 : forall k, nth j (nth (k + 1) (@nil (list Q)) []) 0%Q = 0%Q)
      by (intros k; rewrite Nat.add_1_r; destruct j; reflexivity).
    unfold pj_jacf, pj_jac. destruct (to_pyJac ns y) as [[[p v] s]| | |]; cbn [bind]; try (apply Z; intros; apply Z0).
    unfold c_jacob, into. rewrite HN.
    destruct (_ && _) eqn:B; cbn [bind]; [|apply Z; intros; apply Z0].
    apply andb_prop in B as [_ B]. apply Nat.leb_le in B.
    set (Y := firstn ns v). assert (LY : length Y = ns) by (unfold Y; rewrite firstn_length_le; auto).
    rewrite Nat.sub_diag. cbn [repeat]. rewrite app_nil_r.
    rewrite (mapM_pure _ (fun i => map (fun j => jacob_elt mc p Y (j * ns + i)) (seq 0 ns) ++ [zero AQ])).
    2:{ intros i Hi. apply in_seq in Hi.
        rewrite (mapM_pure _ (fun j => jacob_elt mc p Y (j * ns + i))); [reflexivity|].
        intros q Hq. apply in_seq in Hq. unfold idx. rewrite nth_error_map.
        assert (BB : q * ns + i < ns * ns) by nia.
        rewrite PlanFacts.nth_error_seq, (proj2 (Nat.ltb_lt _ _) BB). reflexivity. }
    cbn [bind].
    set (row := fun i => map (fun j => jacob_elt mc p Y (j * ns + i)) (seq 0 ns) ++ [zero AQ]).
    assert (RW : forall k, k < ns - 1 -> nth (k + 1) (map row (seq 0 ns) ++ [repeat (zero AQ) (ns + 1)]) [] = row (k + 1)).
    { intros k Hk. rewrite app_nth1 by (rewrite map_length, seq_length; lia).
      rewrite (nth_indep _ [] (row 0)) by (rewrite map_length, seq_length; lia).
      rewrite (map_nth row), seq_nth by lia. reflexivity. }
    destruct (Nat.eq_dec j ns) as [->|Hne].
    - apply Z. intros k Hk. transitivity (nth ns (row (k + 1)) 0%Q); [exact (f_equal (fun r => nth ns r 0%Q) (RW k Hk))|].
      unfold row. rewrite app_nth2; rewrite map_length, seq_length; [|apply le_n]. rewrite Nat.sub_diag. reflexivity.
    - destruct (CE p Y LY) as [_ C]. rewrite <- (C j) by lia. apply Qsumf_ext. intros k Hk. apply in_seq in Hk.
      apply Qmult_comp; [reflexivity|].
      assert (X : nth j (row (k + 1)) 0%Q = jacob_elt mc p Y (j * ns + (k + 1))).
      { unfold row. rewrite app_nth1 by (rewrite map_length, seq_length; lia).
        rewrite (nth_indep _ _ (jacob_elt mc p Y (0 * ns + (k + 1)))) by (rewrite map_length, seq_length; lia).
        rewrite (map_nth (fun j => jacob_elt mc p Y (j * ns + (k + 1)))), seq_nth by lia. reflexivity. }
      exact (eqQ _ _ (eq_trans (f_equal (fun r => nth j r 0%Q) (RW k ltac:(lia))) X)).
  Qed.

  Lemma solve_memory {H} (ode : H -> Q -> Q -> list Q -> Q -> outcome (list Q * Q * H)) h (x x' : kcell AQ) h' :
    length (k_c x) = ns ->
    ode_solve (A := AQ) ns (ns + 1) ode h x = Ok (x', h') ->
    exists y' o', ode (snd h) 0%Q (k_dt x) (k_T x :: firstn (ns - 1) (k_c x) ++ [k_p x]) (k_sub x)
                    = Ok (y', k_sub x', o') /\ fst h' = nth_error y' /\
      exists cs, length cs = ns - 1 /\ k_c x' = cs ++ [nsub AQ (lit AQ 1) (nsum AQ cs)] /\
        (forall i, i < ns - 1 -> exists v, nth_error y' (i + 1) = Some v /\ nth_error cs i = Some (clip (A := AQ) v)).
  Proof.
    intros L E. destruct h as [cTp h]. cbn [snd].
    assert (E' := E). rewrite (ode_solve_eq (A := AQ)) in E' by lia.
    apply bind_ok in E' as ([[y2 sub2] o2] & Eo2 & E'). apply bind_ok in E' as (T & ET & E').
    apply bind_ok in E' as (p & Ep & E'). apply bind_ok in E' as (cs' & Ec & E').
    assert (F : fst h' = nth_error y2) by (inversion E'; subst; reflexivity). clear E'.
    destruct (solve_result (A := AQ) ns ode N1 (cTp, h) x x' h' L E) as (y' & o' & Eo & _ & _ & _ & cs & Lc & Ek & Hc).
    exists y', o'. split; [exact Eo|]. split; [|eauto]. rewrite F. cbn [snd] in Eo.
    assert (X : Ok (y2, sub2, o2) = Ok (y', k_sub x', o')) by (rewrite <- Eo2, <- Eo; reflexivity).
    inversion X. reflexivity.
  Qed.

  Lemma start_weighted (x : kcell AQ) : length (k_c x) = ns ->
    (weighted (ns + 1) (cell_weights ns e) (k_T x :: firstn (ns - 1) (k_c x) ++ [k_p x]) ==
     Qsumf (fun k => (e k - e (ns - 1)%nat) * nth k (k_c x) 0) (seq 0 (ns - 1)))%Q.
  Proof.
    intros L. unfold weighted.
    rewrite (cell_weighted ns e (fun i => nth i (k_T x :: firstn (ns - 1) (k_c x) ++ [k_p x]) 0%Q)) by auto.
    apply Qsumf_ext. intros k Hk. apply in_seq in Hk. rewrite Nat.add_1_r. cbn [nth].
    apply Qmult_comp; [reflexivity|].
    assert (Lf : length (firstn (ns - 1) (k_c x)) = ns - 1) by (apply firstn_length_le; lia).
    change (num AQ) with Q in *. rewrite app_nth1 by (unfold lt; lia).
    assert (G : forall (c : list Q) m i, i < m -> nth i (firstn m c) 0%Q = nth i c 0%Q).
    { clear. induction c as [|a c IH]; intros [|m] [|i] H; simpl; auto; try lia. apply IH. lia. }
    rewrite G by lia. reflexivity.
  Qed.

  Lemma conserved_cell (aT rT : Q) fuel maxSteps h (x x' : kcell AQ) h' :
    (0 < rT)%Q -> lapack_solves lap (ns + 1) -> length (k_c x) = ns -> (Qsum (k_c x) == 1)%Q ->
    regular_steps sm gr vg cm lap (pj_sys mc ns) (repeat aT (ns + 1)) (repeat rT (ns + 1)) fuel (pj_jacf mc ns)
      (snd h) 0%Q (k_dt x) (k_T x :: firstn (ns - 1) (k_c x) ++ [k_p x]) (k_sub x) ->
    pyJac_kern cm lap mc aT rT fuel maxSteps ns h x = Ok (x', h') ->
    (forall i, 1 <= i < ns -> exists v, fst h' i = Some v /\ (0 <= v)%Q) ->
    (Qsumf (fun k => e k * nth k (k_c x') 0) (seq 0 ns) == Qsumf (fun k => e k * nth k (k_c x) 0) (seq 0 ns))%Q.
  Proof.
    intros HR LS L S1 RG E NC.
    destruct (normalised sm gr vg ns _ N1 h x x' h' L E) as (Lx' & _ & S1').
    destruct (solve_memory _ h x x' h' L E) as (y' & o' & Eo & Em & cs & Lc & Ek & Hc).
    rewrite (all_species ns e (k_c x') N1 Lx' S1'), (all_species ns e (k_c x) N1 L S1). apply Qplus_comp; [reflexivity|].
    rewrite <- (start_weighted x L).
    assert (X : exists k b, seulex_reach cm lap (pj_sys mc ns) (repeat aT (ns + 1)) (repeat rT (ns + 1)) fuel
      (snd h) 0%Q (k_dt x) (k_T x :: firstn (ns - 1) (k_c x) ++ [k_p x]) (k_sub x) k b /\ y' = pt_y b).
    { destruct (proj1 (range_returns _ maxSteps (snd h) (lit AQ 0) (k_dt x) _ (k_sub x) y' o') (ex_intro _ _ Eo))
        as (k & b & _ & R & _ & Ey & _). eauto. }
    destruct X as (k & b & R & ->).
    assert (Ly := start_length (A := AQ) ns N1 x (Nat.eq_le_incl _ _ (eq_sym L))).
    assert (K := linear_kept sm gr vg cm lap (pj_sys mc ns) (repeat aT (ns + 1)) (repeat rT (ns + 1)) fuel
      (pj_rhs mc ns) (pj_jacf mc ns) (pj_computes mc ns)
      ltac:(intros r Hr; apply repeat_spec in Hr; subst; exact HR) ltac:(rewrite Nat.add_1_r; discriminate) LS
      (fun x y L => proj1 (rhs_last mc ns HN N1 x y L)) (cell_weights ns e) rhs_conserves jac_conserves
      (snd h) 0%Q (k_dt x) _ (k_sub x) Ly RG k b R).
    etransitivity; [|exact K]. clear K. unfold weighted. cbn [nEqns pj_sys]. rewrite (cell_weighted ns e (fun i => nth i (pt_y b) 0%Q)) by auto.
    apply Qsumf_ext. intros i Hi. apply in_seq in Hi. apply Qmult_comp; [reflexivity|].
    destruct (Hc i ltac:(lia)) as (v & Ev & Ec). destruct (NC (i + 1) ltac:(lia)) as (v' & Ev' & Hv).
    rewrite Em, Ev in Ev'. inversion Ev'; subst v'.
    assert (E1 : nth (i + 1) (pt_y b) 0%Q = v) by (apply nth_error_nth; exact Ev).
    assert (E2 : nth i (k_c x') 0%Q = clip (A := AQ) v).
    { apply nth_error_nth. rewrite Ek. rewrite nth_error_app1; [exact Ec|]. unfold lt. apply Nat.le_trans with (ns - 1); [lia|].
      apply Nat.eq_le_incl. symmetry. exact Lc. }
    transitivity (clip (A := AQ) v); [rewrite <- E2; reflexivity|]. transitivity v; [|rewrite <- E1; reflexivity].
    unfold clip, foam_max. destruct (nltb AQ v (lit AQ 0)) eqn:N; [|reflexivity].
    apply Qltb_true in N. exfalso. apply (Qlt_not_le _ _ N). exact Hv.
  Qed.
End Elements.
