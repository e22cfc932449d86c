(** The rates of the reactions as functions of a mass fraction, and their derivatives.
    The definitions below are not functions of /repo. *)
From Coq Require Import List ZArith NArith QArith Qabs Qreals Reals Bool Lra Lia.
From Verif Require Import Outcome Arith MechLang MechSym MechSrc MechCall MechReal MechPoly MechChem Mechanisms
  MechSpec MechRate MechPmod MechThermo MechConc MechDydt MechRhs MechData MechExp MechLaurent MechNasa MechKin MechArr
  MechJac MechJacT MechJacD MechJacR MechJacC MechJacW MechJacX MechFull MechFullT.
Import ListNotations.
Local Open Scope R_scope.

(** ** Products *)

(** 1 if two numbers are equal, otherwise 0. *)
Definition ind (k j : nat) : R := if (k =? j)%nat then 1 else 0.

Lemma times_cons j k l : INR (times j (k :: l)) = ind k j + INR (times j l).
Proof.
  unfold times, ind. cbn [filter]. rewrite Nat.eqb_sym. destruct (k =? j)%nat; cbn [length]; [rewrite S_INR|]; ring.
Qed.

Lemma drop1_prod (f : nat -> R) j l :
  INR (times j l) * Rprod (map f l) = INR (times j l) * (f j * Rprod (map f (drop1 j l))).
Proof.
  induction l as [|k l IH]; [unfold times; cbn; ring|]. cbn [drop1]. destruct (Nat.eqb_spec k j) as [->|N].
  - cbn [map Rprod]. reflexivity.
  - rewrite times_cons. unfold ind. rewrite (proj2 (Nat.eqb_neq k j) N), Rplus_0_l. cbn [map Rprod].
    replace (INR (times j l) * (f k * Rprod (map f l))) with (f k * (INR (times j l) * Rprod (map f l))) by ring.
    rewrite IH. ring.
Qed.

Lemma drop1_cons (f : nat -> R) j k l :
  INR (times j (k :: l)) * Rprod (map f (drop1 j (k :: l))) =
  ind k j * Rprod (map f l) + f k * (INR (times j l) * Rprod (map f (drop1 j l))).
Proof.
  rewrite times_cons. cbn [drop1]. unfold ind. destruct (Nat.eqb_spec k j) as [->|N].
  - rewrite Rmult_plus_distr_r, drop1_prod. ring.
  - cbn [map Rprod]. ring.
Qed.

(** Derivative of a product of functions that decrease by a common factor, except two of them. *)
Lemma prod_derive (C : nat -> R -> R) (x L a b : R) (j n : nat) l :
  (forall k, In k l -> derivable_pt_lim (C k) x (- L * C k x + a * ind k j - b * ind k n)) ->
  derivable_pt_lim (fun t => Rprod (map (fun k => C k t) l)) x
    (- L * INR (length l) * Rprod (map (fun k => C k x) l) +
     a * (INR (times j l) * Rprod (map (fun k => C k x) (drop1 j l))) -
     b * (INR (times n l) * Rprod (map (fun k => C k x) (drop1 n l)))).
Proof.
  induction l as [|k l IH]; intros H.
  - cbn [map Rprod length INR drop1]. unfold times. cbn [filter length INR].
    match goal with |- derivable_pt_lim _ _ ?v => replace v with 0 by ring end. apply derivable_pt_lim_const.
  - assert (IH' := IH (fun k I => H k (or_intror I))). specialize (H k (or_introl eq_refl)).
    rewrite !(drop1_cons (fun k => C k x)). cbn [length map Rprod]. rewrite S_INR.
    match goal with |- derivable_pt_lim _ _ ?v => replace v with
      ((- L * C k x + a * ind k j - b * ind k n) * Rprod (map (fun k => C k x) l) +
       C k x * (- L * INR (length l) * Rprod (map (fun k => C k x) l) +
        a * (INR (times j l) * Rprod (map (fun k => C k x) (drop1 j l))) -
        b * (INR (times n l) * Rprod (map (fun k => C k x) (drop1 n l))))) by ring end.
    apply (derivable_pt_lim_mult (C k) (fun t => Rprod (map (fun k => C k t) l))); assumption.
Qed.

Lemma Rprod_repeat (f : nat -> R) k n : Rprod (map f (repeat k n)) = f k ^ n.
Proof. induction n as [|n IH]; cbn [repeat map Rprod pow]; [reflexivity|]. rewrite IH. reflexivity. Qed.

Lemma conc_product_side C l : conc_product C l = Rprod (map (fun k => nth k C 0) (side l)).
Proof.
  unfold conc_product, side. induction l as [|p l IH]; [reflexivity|]. cbn [map flat_map Rprod].
  rewrite map_app, Rprod_app, Rprod_repeat, <- IH. reflexivity.
Qed.

Lemma side_length l : length (side l) = molecules l.
Proof.
  unfold side, molecules. induction l as [|p l IH]; [reflexivity|]. cbn [flat_map map list_sum fold_right].
  rewrite app_length, repeat_length, IH. reflexivity.
Qed.

(** ** The composition *)

Lemma nth_upd l j (x : R) k : (j < length l)%nat -> nth k (upd l j x) 0 = if (k =? j)%nat then x else nth k l 0.
Proof.
  revert j k. induction l as [|z l IH]; intros j k H; [cbn in H; lia|]. cbn [length] in H.
  destruct j as [|j], k as [|k]; cbn [upd nth Nat.eqb]; try reflexivity. apply IH. lia.
Qed.

Lemma Rsum_upd l j (x : R) : (j < length l)%nat -> Rsum (upd l j x) = Rsum l + (x - nth j l 0).
Proof.
  revert j. induction l as [|z l IH]; intros j H; [cbn in H; lia|]. cbn [length] in H.
  destruct j as [|j]; cbn [upd Rsum nth]; [ring|]. rewrite IH by lia. ring.
Qed.

Lemma fractions_upd y j (t : R) k : (j < length y)%nat ->
  nth k (all_fractions (upd y j t)) 0 = nth k (all_fractions y) 0 + (t - nth j y 0) * (ind k j - ind k (length y)).
Proof.
  intros Hj. unfold all_fractions, ind. destruct (Nat.lt_ge_cases k (length y)) as [B|B].
  - rewrite !app_nth1 by (rewrite ?upd_length; exact B). rewrite nth_upd by exact Hj.
    rewrite (proj2 (Nat.eqb_neq k (length y))) by lia. destruct (Nat.eqb_spec k j) as [->|N]; ring.
  - rewrite !app_nth2 by (rewrite ?upd_length; exact B). rewrite upd_length. rewrite (proj2 (Nat.eqb_neq k j)) by lia.
    destruct (Nat.eqb_spec k (length y)) as [->|N].
    + rewrite Nat.sub_diag. cbn [nth]. rewrite Rsum_upd by exact Hj. ring.
    + destruct (k - length y)%nat as [|[|q]] eqn:E; [lia| |]; cbn [nth]; ring.
Qed.

Section Direction.
  Variable m : mechanism.
  Variables T p : R.
  Variable y : list R.
  Variable j : nat.
  Hypothesis HT : 0 < T.
  Hypothesis Hp : 0 < p.
  Hypothesis Ly : length y = (s_NSP (library m) - 1)%nat.
  Hypothesis HS : 0 < specific_moles (library m) y.
  Hypothesis Hj : (j < length y)%nat.
  Notation S := (library m).
  Notation N := (length y).

  (** Reciprocal weight. *)
  Definition u_of (k : nat) : R := Q2R (nth k (inverse_weights S) 0%Q).

  (** Density. *)
  Definition density (x : list R) : R := p * (1 / specific_moles S x) / (gas_constant * T).

  (** Concentrations. *)
  Definition conc_of (x : list R) : list R :=
    map (fun k => density x * nth k (all_fractions x) 0 * u_of k) (seq 0 (s_NSP S)).

  Lemma conc_any x : length x = (s_NSP S - 1)%nat -> specific_moles S x <> 0 ->
    lib_eval_conc (A := RA) exact_libm S T p x = Ok (1 - Rsum x, 1 / specific_moles S x, density x, conc_of x) /\
    Rsumn (length (conc_of x)) (fun k => nth k (conc_of x) 0) = p / (gas_constant * T).
  Proof.
    intros Lx Hx. destruct (concentrations exact_libm S T p x (conc_all m) Lx) as (C & E & LC & G).
    destruct (ideal_gas exact_libm S T p x (conc_all m) Lx Hx) as (a & b & c & C' & E' & _ & SC).
    rewrite E in E'. injection E' as <- <- <- <-.
    assert (EC : C = conc_of x).
    { apply (nth_ext _ _ 0 0).
      - unfold conc_of. rewrite map_length, seq_length. exact LC.
      - intros k Hk. rewrite LC in Hk. rewrite (G k Hk). unfold conc_of.
        rewrite (nth_map_seq (fun k => density x * nth k (all_fractions x) 0 * u_of k)) by exact Hk. reflexivity. }
    rewrite EC in E, SC. split; [exact E|exact SC].
  Qed.

  Lemma conc_of_length x : length (conc_of x) = s_NSP S.
  Proof. unfold conc_of. rewrite map_length, seq_length. reflexivity. Qed.

  (** Change of the moles per mass. *)
  Definition moles_slope : R := u_of j - u_of N.

  Lemma moles_upd t : specific_moles S (upd y j t) = specific_moles S y + (t - nth j y 0) * moles_slope.
  Proof.
    unfold specific_moles.
    rewrite (Rsumn_ext _ _ (fun k => Q2R (nth k (inverse_weights S) 0%Q) * nth k (all_fractions y) 0 +
      (t - nth j y 0) * (u_of k * ind k j - u_of k * ind k N))).
    2: { intros k _. rewrite fractions_upd by exact Hj. unfold u_of. ring. }
    unfold Rsumn. rewrite Rsum_plus. f_equal. rewrite Rsum_scal. f_equal. rewrite Rsum_minus.
    pose proof (NSP_pos m) as HN. unfold moles_slope. f_equal.
    - change (Rsumn (s_NSP S) (fun k => u_of k * ind k j) = u_of j). rewrite (Rsumn_one _ _ j).
      + unfold ind. rewrite Nat.eqb_refl. ring.
      + lia.
      + intros k _ Hk. unfold ind. rewrite (proj2 (Nat.eqb_neq k j) Hk). ring.
    - change (Rsumn (s_NSP S) (fun k => u_of k * ind k N) = u_of N). rewrite (Rsumn_one _ _ N).
      + unfold ind. rewrite Nat.eqb_refl. ring.
      + lia.
      + intros k _ Hk. unfold ind. rewrite (proj2 (Nat.eqb_neq k N) Hk). ring.
  Qed.

  Lemma near_moles : exists lo hi, lo < nth j y 0 < hi /\ forall t, lo < t < hi -> 0 < specific_moles S (upd y j t).
  Proof.
    set (d := specific_moles S y / (1 + Rabs moles_slope)).
    pose proof (Rabs_pos moles_slope) as PA.
    assert (Pd : 0 < d) by (apply Rdiv_lt_0_compat; lra).
    exists (nth j y 0 - d), (nth j y 0 + d). split; [lra|]. intros t Ht. rewrite moles_upd.
    assert (B : Rabs ((t - nth j y 0) * moles_slope) < specific_moles S y).
    { rewrite Rabs_mult. assert (Rabs (t - nth j y 0) < d) by (apply Rabs_def1; lra).
      assert (E : d * (1 + Rabs moles_slope) = specific_moles S y) by (unfold d; field; lra).
      pose proof (Rabs_pos (t - nth j y 0)) as P1. nra. }
    apply Rabs_def2 in B. lra.
  Qed.

  (** Relative change of the density, with opposite sign. *)
  Definition thinning : R := moles_slope / specific_moles S y.

  Lemma upd_same : upd y j (nth j y 0) = y.
  Proof.
    apply (nth_ext _ _ 0 0); [apply upd_length|]. intros k _. rewrite nth_upd by exact Hj.
    destruct (Nat.eqb_spec k j) as [->|]; reflexivity.
  Qed.

  Lemma shift_derive (a b x0 : R) : derivable_pt_lim (fun t => a + (t - x0) * b) x0 b.
  Proof.
    assert (D0 : derivable_pt_lim (fun t => t - x0) x0 (1 - 0)) by (apply (derivable_pt_lim_minus id (fun _ => x0)); [apply derivable_pt_lim_id|apply derivable_pt_lim_const]).
    assert (D : derivable_pt_lim (fun t => a + (t - x0) * b) x0 (0 + ((1 - 0) * b + (x0 - x0) * 0))).
    { apply (derivable_pt_lim_plus (fun _ => a) (fun t => (t - x0) * b)); [apply derivable_pt_lim_const|].
      apply (derivable_pt_lim_mult (fun t => t - x0) (fun _ => b)); [exact D0|apply derivable_pt_lim_const]. }
    replace (0 + ((1 - 0) * b + (x0 - x0) * 0)) with b in D by ring. exact D.
  Qed.

  Lemma gas_T_pos : 0 < gas_constant * T.
  Proof. apply Rmult_lt_0_compat; [exact gas_pos|exact HT]. Qed.

  Lemma density_pos : 0 < density y.
  Proof.
    unfold density. apply Rdiv_lt_0_compat; [|exact gas_T_pos]. apply Rmult_lt_0_compat; [exact Hp|]. apply Rdiv_lt_0_compat; lra.
  Qed.

  Lemma density_derive : derivable_pt_lim (fun t => density (upd y j t)) (nth j y 0) (- thinning * density y).
  Proof.
    pose proof gas_T_pos as HG. pose proof gas_pos as HG0. set (K := p / (gas_constant * T)).
    apply (derivable_pt_lim_ext (fun t => K / (specific_moles S y + (t - nth j y 0) * moles_slope))).
    - intros t. unfold density. rewrite moles_upd. unfold K, Rdiv. ring.
    - replace (- thinning * density y) with
        ((0 * (specific_moles S y + (nth j y 0 - nth j y 0) * moles_slope) - moles_slope * K) /
         Rsqr (specific_moles S y + (nth j y 0 - nth j y 0) * moles_slope)).
      + apply (derivable_pt_lim_div (fun _ => K) (fun t => specific_moles S y + (t - nth j y 0) * moles_slope)).
        * apply derivable_pt_lim_const.
        * apply shift_derive.
        * unfold Rminus. rewrite Rplus_opp_r, Rmult_0_l, Rplus_0_r. lra.
      + replace (specific_moles S y + (nth j y 0 - nth j y 0) * moles_slope) with (specific_moles S y) by ring. unfold thinning, density, K, Rsqr. field.
        repeat split; lra.
  Qed.

  Lemma conc_derive k : (k < s_NSP S)%nat ->
    derivable_pt_lim (fun t => nth k (conc_of (upd y j t)) 0) (nth j y 0)
      (- thinning * nth k (conc_of y) 0 + density y * u_of j * ind k j - density y * u_of N * ind k N).
  Proof.
    intros Hk.
    apply (derivable_pt_lim_ext (fun t => density (upd y j t) * (nth k (all_fractions y) 0 + (t - nth j y 0) * (ind k j - ind k N)) * u_of k)).
    - intros t. unfold conc_of.
      rewrite (nth_map_seq (fun k => density (upd y j t) * nth k (all_fractions (upd y j t)) 0 * u_of k)) by exact Hk.
      rewrite fractions_upd by exact Hj. reflexivity.
    - unfold conc_of. rewrite (nth_map_seq (fun k => density y * nth k (all_fractions y) 0 * u_of k)) by exact Hk.
      match goal with |- derivable_pt_lim _ _ ?v => replace v with
        ((- thinning * density y * (nth k (all_fractions y) 0 + (nth j y 0 - nth j y 0) * (ind k j - ind k N)) +
          density y * (ind k j - ind k N)) * u_of k +
         density y * (nth k (all_fractions y) 0 + (nth j y 0 - nth j y 0) * (ind k j - ind k N)) * 0) end.
      + replace (density y) with (density (upd y j (nth j y 0))) by (rewrite upd_same; reflexivity).
        apply (derivable_pt_lim_mult (fun t => density (upd y j t) * (nth k (all_fractions y) 0 + (t - nth j y 0) * (ind k j - ind k N))) (fun _ => u_of k));
          [|apply derivable_pt_lim_const].
        apply (derivable_pt_lim_mult (fun t => density (upd y j t)) (fun t => nth k (all_fractions y) 0 + (t - nth j y 0) * (ind k j - ind k N))).
        * rewrite upd_same. apply density_derive.
        * apply shift_derive.
      + unfold ind. destruct (Nat.eqb_spec k j) as [E1|N1], (Nat.eqb_spec k N) as [E2|N2]; try rewrite <- E1; try rewrite <- E2; ring.
  Qed.

  (** Derivative of a product of concentrations over the density, apart from the thinning. *)
  Definition direct_sum (l : list nat) (C : list R) : R :=
    u_of j * (INR (times j l) * Rprod (map (fun k => nth k C 0) (drop1 j l))) -
    u_of N * (INR (times N l) * Rprod (map (fun k => nth k C 0) (drop1 N l))).

  (** The same with absolute values. *)
  Definition direct_size (l : list nat) (C : list R) : R :=
    u_of j * (INR (times j l) * Rprod (map (fun k => nth k C 0) (drop1 j l))) +
    u_of N * (INR (times N l) * Rprod (map (fun k => nth k C 0) (drop1 N l))).

  (** Numbers of a side of a reaction are numbers of species. *)
  Definition in_range (l : list (nat * nat)) : Prop := forall k, In k (side l) -> (k < s_NSP S)%nat.

  Lemma product_derive l : in_range l ->
    derivable_pt_lim (fun t => conc_product (conc_of (upd y j t)) l) (nth j y 0)
      (- thinning * INR (molecules l) * conc_product (conc_of y) l + density y * direct_sum (side l) (conc_of y)).
  Proof.
    intros HR. apply (derivable_pt_lim_ext (fun t => Rprod (map (fun k => nth k (conc_of (upd y j t)) 0) (side l)))).
    - intros t. symmetry. apply conc_product_side.
    - rewrite conc_product_side.
      match goal with |- derivable_pt_lim _ _ ?v => replace v with
        (- thinning * INR (length (side l)) * Rprod (map (fun k => nth k (conc_of (upd y j (nth j y 0))) 0) (side l)) +
         density y * u_of j * (INR (times j (side l)) * Rprod (map (fun k => nth k (conc_of (upd y j (nth j y 0))) 0) (drop1 j (side l)))) -
         density y * u_of N * (INR (times N (side l)) * Rprod (map (fun k => nth k (conc_of (upd y j (nth j y 0))) 0) (drop1 N (side l))))) end.
      + apply (prod_derive (fun k t => nth k (conc_of (upd y j t)) 0)). intros k Hk. rewrite upd_same. apply conc_derive, HR, Hk.
      + rewrite upd_same, side_length. unfold direct_sum. ring.
  Qed.

  Lemma over_density_derive (F : R -> R) dF : derivable_pt_lim F (nth j y 0) dF ->
    derivable_pt_lim (fun t => F t / density (upd y j t)) (nth j y 0) (dF / density y + thinning * F (nth j y 0) / density y).
  Proof.
    intros D. pose proof density_pos as PD.
    replace (dF / density y + thinning * F (nth j y 0) / density y) with
      ((dF * density (upd y j (nth j y 0)) - - thinning * density y * F (nth j y 0)) / Rsqr (density (upd y j (nth j y 0))))
      by (rewrite upd_same; unfold Rsqr; field; lra).
    apply (derivable_pt_lim_div F (fun t => density (upd y j t))); [exact D|apply density_derive|rewrite upd_same; lra].
  Qed.

  (** Derivative of the concentration of colliders over the density, apart from the thinning. *)
  Definition collider_slope (r : reaction) : R := Q2R (efficiency r j) * u_of j - Q2R (efficiency r N) * u_of N.

  Lemma third_derive r :
    derivable_pt_lim (fun t => third_body r (conc_of (upd y j t))) (nth j y 0)
      (- thinning * third_body r (conc_of y) + density y * collider_slope r).
  Proof.
    pose proof (NSP_pos m) as HN.
    apply (derivable_pt_lim_ext (fun t => Rsumn (s_NSP S) (fun k => Q2R (efficiency r k) * nth k (conc_of (upd y j t)) 0))).
    - intros t. unfold third_body. rewrite conc_of_length. reflexivity.
    - match goal with |- derivable_pt_lim _ _ ?v => replace v with
        (Rsumn (s_NSP S) (fun k => Q2R (efficiency r k) * (- thinning * nth k (conc_of y) 0 + density y * u_of j * ind k j - density y * u_of N * ind k N))) end.
      + apply (Rsumn_derive (s_NSP S) (fun k t => Q2R (efficiency r k) * nth k (conc_of (upd y j t)) 0)).
        intros k Hk. apply (derivable_pt_lim_scal (fun t => nth k (conc_of (upd y j t)) 0)), conc_derive, Hk.
      + unfold third_body, collider_slope. rewrite conc_of_length.
        rewrite (Rsumn_ext _ _ (fun k => (- thinning) * (Q2R (efficiency r k) * nth k (conc_of y) 0) +
          density y * (Q2R (efficiency r k) * u_of j * ind k j - Q2R (efficiency r k) * u_of N * ind k N))) by (intros; ring).
        unfold Rsumn. rewrite Rsum_plus, !Rsum_scal. f_equal. f_equal. rewrite Rsum_minus. f_equal.
        * change (Rsumn (s_NSP S) (fun k => Q2R (efficiency r k) * u_of j * ind k j) = Q2R (efficiency r j) * u_of j).
          rewrite (Rsumn_one _ _ j); [unfold ind; rewrite Nat.eqb_refl; ring|lia|].
          intros k _ Hk. unfold ind. rewrite (proj2 (Nat.eqb_neq k j) Hk). ring.
        * change (Rsumn (s_NSP S) (fun k => Q2R (efficiency r k) * u_of N * ind k N) = Q2R (efficiency r N) * u_of N).
          rewrite (Rsumn_one _ _ N); [unfold ind; rewrite Nat.eqb_refl; ring|lia|].
          intros k _ Hk. unfold ind. rewrite (proj2 (Nat.eqb_neq k N) Hk). ring.
  Qed.
End Direction.
