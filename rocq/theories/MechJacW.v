(** [eval_jacob]: the derivative of dT/dt with respect to the temperature.
    The definitions below are not functions of /repo. *)
From Coq Require Import List ZArith NArith QArith Qabs Qreals Reals Bool Lra Lia FMapPositive.
From Verif Require Import Outcome Arith MechLang MechSym MechSrc MechCall MechReal MechPoly MechChem Mechanisms
  MechSpec MechRate MechPmod MechThermo MechConc MechDydt MechRhs MechData MechExp MechLaurent MechNasa MechKin MechArr MechLaw
  MechDefined MechJac MechJacT MechJacS MechJacD MechJacR MechJacE MechTroe MechJacF MechJacC.
Import ListNotations.
Local Open Scope nat_scope.

(** ** Checks *)

(** The terms of a sum, on an interval of temperatures. *)
Fixpoint flatten (r : region) (e : expr) : list expr :=
  match e with
  | Add a b => flatten r a ++ flatten r b
  | Ite a (Num q) t f =>
      if is_T a then match decide r q with Some true => flatten r t | Some false => flatten r f | None => [e] end else [e]
  | _ => [e]
  end.

(** Mass fraction of species [k] in [eval_jacob]; [n] is the number of species. *)
Definition y_ref (n k : nat) : expr := if k =? n - 1 then Ref v_y_N 0 else Ref v_y (N.of_nat (k + 1)).

(** The species whose mass fraction an expression is. *)
Definition y_of (n : nat) (e : expr) : nat :=
  match e with Ref v_y_N _ => n - 1 | Ref v_y i => N.to_nat i - 1 | _ => 0 end.

(** Equality of lists of expressions. *)
Definition exprs_eqb (a b : list expr) : bool :=
  (length a =? length b) && forallb (fun p => expr_eqb (fst p) (snd p)) (combine a b).

(** Mean heat capacity. *)
Definition avg_ok (n : nat) (e : expr) : bool :=
  exprs_eqb (flatten anyT e) (map (fun k => Mul (y_ref n k) (Ref v_cp (N.of_nat k))) (seq 0 n)).

(** The coefficients of the derivative of cp/R. *)
Definition dcp_coeffs (a : list Q) : list Q :=
  match a with [a0; a1; a2; a3; a4; a5; a6] => [a1; (2 * a2)%Q; (3 * a3)%Q; (4 * a4)%Q] | _ => [] end.

(** A term of the derivative of the mean heat capacity. *)
Definition slope_term (m : mechanism) (r : region) (k : nat) (e : expr) : bool :=
  match e with
  | Mul (Mul y (Num c)) p =>
      expr_eqb y (y_ref (s_NSP (library m)) k) &&
      match branch r (species_nasa m k), lin r p with
      | Some a, Some l =>
          (length a =? 7) && only_poly l && Qle_bool (Qabs (c - Ru / nth k (molWeight m) 0%Q)) (tol1 * (Ru / nth k (molWeight m) 0%Q)) &&
          near tol1 (l_poly l) (dcp_coeffs a) (dcp_coeffs a)
      | _, _ => false
      end
  | _ => false
  end.

(** The species of a term. *)
Definition slope_key (n : nat) (e : expr) : nat := match e with Mul (Mul y _) _ => y_of n y | _ => n end.

(** The temperatures at which a polynomial changes. *)
Definition mids (m : mechanism) : list Q := fold_right insert [] (map n_mid (nasa m)).

(** The derivative of the mean heat capacity. *)
Definition slope_ok (m : mechanism) (e : expr) : bool :=
  let n := s_NSP (library m) in
  forallb (fun r =>
    let l := flatten r e in
    forallb (fun t => slope_key n t <? n) l &&
    forallb (fun k => match filter (fun t => slope_key n t =? k) l with [t] => slope_term m r k t | _ => false end) (seq 0 n))
    (regions 0 (mids m)).

(** The literal weight in a term of the last statement. *)
Definition weight_of (e : expr) : Q := match e with Mul (Mul _ (Num w)) _ => w | _ => 0%Q end.

(** Production of species [k] in the last statement. *)
Definition made (w : Q) (k : nat) : expr :=
  Mul (Mul (Ref v_spec_rates (N.of_nat k)) (Num w))
    (Add (Div (Mul (Neg (Ref v_working_temp 0)) (Ref v_h (N.of_nat k))) (Ref v_cp_avg 0)) (Ref v_cp (N.of_nat k))).

(** Change of the production. *)
Definition change (v : var) (i : nat) (k : nat) : expr :=
  Mul (Mul (Ref v (N.of_nat i)) (Ref v_h (N.of_nat k))) (Ref v_rho 0).

(** The last species takes part in reactions. *)
Definition last_reacts (m : mechanism) : bool := negb (inert (chem m) (s_NSP (library m) - 1)).

(** The terms of the last statement. *)
Definition energy_terms (m : mechanism) (ws : list Q) : list expr :=
  let n := s_NSP (library m) in
  flat_map (fun k => [made (nth k ws 0%Q) k; change v_jac (k + 1) k]) (seq 0 (n - 1)) ++ [made (nth (n - 1) ws 0%Q) (n - 1)] ++
  (if last_reacts m then [change v_J_nplusone 0 (n - 1)] else []).

(** Every other element. *)
Fixpoint evens {X} (l : list X) : list X := match l with [] => [] | [x] => [x] | x :: _ :: r => x :: evens r end.

(** The weights of the last statement. *)
Definition energy_weights (m : mechanism) (e : expr) : list Q :=
  map weight_of (firstn (s_NSP (library m)) (evens (flatten anyT e))).

(** The last statement. *)
Definition energy_ok (m : mechanism) (e : expr) : bool :=
  let ws := energy_weights m e in
  close (1 / 10 ^ 15)%Q ws (dydt_weights (library m) nitrogen) && exprs_eqb (flatten anyT e) (energy_terms m ws).

(** An argument that has not been changed. *)
Definition kept (m : mechanism) (s : smem) (v : var) (l : list nat) : bool :=
  forallb (fun k => match form (tail_sh (library m)) tail_locals s v k with Some e => expr_eqb e (Ref v (N.of_nat k)) | None => false end) l.

(** The statements after the calls. *)
Definition tail_ok (m : mechanism) : bool :=
  let n := s_NSP (library m) in
  match symbolic (tail_sh (library m)) tail_locals (removelast (j_tail (jac_T m))), last (j_tail (jac_T m)) (Do (Asn v_T 0 (Num 0))) with
  | Some s, Do (Asn v_jac 0 (Div (Neg e) (Mul (Ref v_rho 0) (Ref v_cp_avg 0)))) =>
      kept m s v_spec_rates (seq 0 n) && kept m s v_h (seq 0 n) && kept m s v_cp (seq 0 n) && kept m s v_jac (seq 1 (n - 1)) &&
      kept m s v_T [0] && kept m s v_rho [0] && kept m s v_J_nplusone [0] &&
      match form (tail_sh (library m)) tail_locals s v_cp_avg 0, form (tail_sh (library m)) tail_locals s v_working_temp 0 with
      | Some c, Some w => avg_ok n c && slope_ok m w
      | _, _ => false
      end && energy_ok m e
  | _, _ => false
  end.

Lemma tail_all m : tail_ok m = true.
Proof. destruct m; vm_compute; reflexivity. Qed.

(** ** Values of the checked expressions *)

Lemma exprs_eqb_eq a : forall b, exprs_eqb a b = true -> a = b.
Proof.
  unfold exprs_eqb. induction a as [|x a IH]; intros [|y b] H; try discriminate; [reflexivity|].
  cbn in H. apply andb_true_iff in H as [L H]. apply andb_true_iff in H as [E H]. apply expr_eqb_eq in E. subst y. f_equal.
  apply IH. rewrite H, andb_true_r. exact L.
Qed.

Local Open Scope R_scope.

Lemma flatten_val M rho r e : inside r (rho v_T 0%N) -> rval M rho e = Rsum (map (rval M rho) (flatten r e)).
Proof.
  intros HT. assert (triv : forall x, rval M rho x = Rsum (map (rval M rho) [x])) by (intros; cbn; ring).
  induction e; try apply triv; cbn [flatten].
  - change (rval M rho (Add e1 e2)) with (rval M rho e1 + rval M rho e2). rewrite IHe1, IHe2, map_app, Rsum_app. reflexivity.
  - destruct e2; try apply triv. destruct (is_T e1) eqn:E; [|apply triv].
    destruct (decide r q) as [b|] eqn:D; [|apply triv].
    pose proof (decide_sound r q b _ D HT) as V.
    assert (W : rval M rho (Ite e1 (Num q) e3 e4) = if b then rval M rho e3 else rval M rho e4).
    { change (rval M rho (Ite e1 (Num q) e3 e4))
        with (if Rleb (rval M rho e1) (Q2R q) then rval M rho e3 else rval M rho e4).
      replace (rval M rho e1) with (rho v_T 0%N); [rewrite V; reflexivity|].
      destruct e1; cbn in E; try discriminate. destruct v; try discriminate. destruct i; [reflexivity|discriminate]. }
    rewrite W. destruct b; assumption.
Qed.

Lemma Rsum_keys {X} (key : X -> nat) (f : X -> R) n l : forallb (fun t => (key t <? n)%nat) l = true ->
  Rsum (map f l) = Rsumn n (fun k => Rsum (map f (filter (fun t => (key t =? k)%nat) l))).
Proof.
  induction l as [|x l IH]; cbn [forallb map filter Rsum]; intros H.
  - unfold Rsumn. symmetry. apply Rsum_zero. intros; reflexivity.
  - apply andb_true_iff in H as [K H]. rewrite (IH H). apply Nat.ltb_lt in K.
    rewrite <- (pick n (key x) (fun _ => f x) K). unfold Rsumn. rewrite <- Rsum_plus. apply Rsum_ext. intros k _.
    destruct (key x =? k)%nat; cbn [map Rsum]; ring.
Qed.

(** Derivative of cp/R. *)
Definition dcp_R (a : nat -> R) (T : R) : R := a 1%nat + 2 * a 2%nat * T + 3 * a 3%nat * T ^ 2 + 4 * a 4%nat * T ^ 3.

Lemma dcp_same a T : length a = 7%nat ->
  qeval (dcp_coeffs a) T = dcp_R (fun i => Q2R (nth i a 0%Q)) T /\
  qsize (dcp_coeffs a) T = dcp_R (fun i => Rabs (Q2R (nth i a 0%Q))) T.
Proof.
  intros L. do 8 (destruct a as [|? a]; try discriminate). unfold dcp_R, qeval, qsize. cbn [dcp_coeffs map peval nth].
  assert (A : forall n q, Q2R (inject_Z (Zpos n) * q) = IZR (Zpos n) * Q2R q).
  { intros. rewrite Q2R_mult. f_equal. unfold Q2R, inject_Z. cbn [Qnum Qden]. rewrite Rinv_1. ring. }
  change 2%Q with (inject_Z 2). change 3%Q with (inject_Z 3). change 4%Q with (inject_Z 4).
  rewrite !A, !Rabs_mult, !(Rabs_pos_eq (IZR _)) by (apply IZR_le; discriminate). split; ring.
Qed.

(** Derivative of the heat capacity of species [k], and the size of its terms. *)
Definition cp_slope (m : mechanism) (k : nat) (T : R) : R := gas_constant / species_W m k * dcp_R (nasa_at (species_nasa m k) T) T.
Definition cp_slope_size (m : mechanism) (k : nat) (T : R) : R := gas_constant / species_W m k * dcp_R (nasa_abs (species_nasa m k) T) T.

Lemma species_W_pos m k : (k < s_NSP (library m))%nat -> 0 < species_W m k.
Proof.
  intros Hk. unfold species_W. apply Q2R_pos.
  assert (F : forallb (fun w => 0 <? Qnum w)%Z (molWeight m) = true) by (destruct m; vm_compute; reflexivity).
  rewrite forallb_forall in F. apply F, nth_In. rewrite molWeight_length. exact Hk.
Qed.

Lemma Ru_ratio m k : (k < s_NSP (library m))%nat -> Q2R (Ru / nth k (molWeight m) 0%Q) = gas_constant / species_W m k.
Proof.
  intros Hk. pose proof (species_W_pos m k Hk) as Wk. unfold Qdiv. rewrite Q2R_mult, Q2R_inv; [reflexivity|].
  intros Z. apply Qeq_eqR in Z. unfold species_W in Wk. rewrite Z, Q2R_0 in Wk. lra.
Qed.

Lemma nasa_poly m k r a T c l (want : list Q -> list Q) (f : (nat -> R) -> R -> R) :
  (forall a T, length a = 7%nat -> qeval (want a) T = f (fun i => Q2R (nth i a 0%Q)) T /\
     qsize (want a) T = f (fun i => Rabs (Q2R (nth i a 0%Q))) T) ->
  (k < s_NSP (library m))%nat -> 0 < T -> inside r T -> branch r (species_nasa m k) = Some a -> length a = 7%nat ->
  Rabs (c - gas_constant / species_W m k) <= Q2R tol1 * (gas_constant / species_W m k) ->
  near tol1 l (want a) (want a) = true ->
  Rabs (c * qeval l T - gas_constant / species_W m k * f (nasa_at (species_nasa m k) T) T) <=
  Q2R tol * (gas_constant / species_W m k * f (nasa_abs (species_nasa m k) T) T).
Proof.
  intros Hf Hk HT HI B L7 Hc Hn.
  apply (near_val tol1 _ _ _ T) in Hn; [|lra]. destruct (Hf a T L7) as [F1 F2].
  pose proof (qsize_abs (want a) T ltac:(lra)) as A. rewrite F1, F2 in A, Hn.
  assert (G : nasa_at (species_nasa m k) T = (fun i => Q2R (nth i a 0%Q))).
  { apply FunctionalExtensionality.functional_extensionality. intros i. apply (branch_val r _ _ _ _ B HI). }
  assert (G' : nasa_abs (species_nasa m k) T = (fun i => Rabs (Q2R (nth i a 0%Q)))).
  { unfold nasa_abs. rewrite G. reflexivity. }
  rewrite G, G', tol_4. apply product_error; try assumption; [|exact tol1_range].
  apply ratio_pos, species_W_pos, Hk.
Qed.

Lemma slope_term_val m rho r k e (Y : R) : slope_term m r k e = true -> (k < s_NSP (library m))%nat ->
  0 < rho v_T 0%N -> inside r (rho v_T 0%N) -> rval exact_libm rho (y_ref (s_NSP (library m)) k) = Y ->
  Rabs (rval exact_libm rho e - Y * cp_slope m k (rho v_T 0%N)) <= Q2R tol * (Rabs Y * cp_slope_size m k (rho v_T 0%N)).
Proof.
  unfold slope_term. intros H Hk HT HI HY.
  destruct e as [| | | | |x p| | | | | | |]; try discriminate. destruct x as [| | | | |yy c| | | | | | |]; try discriminate.
  destruct c as [c| | | | | | | | | | | |]; try discriminate.
  apply andb_true_iff in H as [E H]. apply expr_eqb_eq in E. subst yy.
  destruct (branch r (species_nasa m k)) as [a|] eqn:B; [|discriminate].
  destruct (lin r p) as [l|] eqn:L; [|discriminate].
  repeat (apply andb_true_iff in H as [H ?]). apply Nat.eqb_eq in H.
  change (rval exact_libm rho (Mul (Mul (y_ref (s_NSP (library m)) k) (Num c)) p))
    with (rval exact_libm rho (y_ref (s_NSP (library m)) k) * Q2R c * rval exact_libm rho p).
  rewrite HY, (lin_val rho r HI p l L), (only_poly_val _ _ H2).
  apply Qle_bool_iff, Qle_Rle in H1. rewrite Q2R_abs, Q2R_minus, Q2R_mult, (Ru_ratio m k Hk) in H1.
  pose proof (nasa_poly m k r a _ (Q2R c) (l_poly l) dcp_coeffs dcp_R dcp_same Hk HT HI B H H1 H0) as V.
  fold (cp_slope m k (rho v_T 0%N)) in V. fold (cp_slope_size m k (rho v_T 0%N)) in V.
  replace (Y * Q2R c * qeval (l_poly l) (rho v_T 0%N) - Y * cp_slope m k (rho v_T 0%N))
    with (Y * (Q2R c * qeval (l_poly l) (rho v_T 0%N) - cp_slope m k (rho v_T 0%N))) by ring.
  rewrite Rabs_mult. apply (Rmult_le_compat_l (Rabs Y)) in V; [|apply Rabs_pos]. lra.
Qed.

Lemma Rsum_error {X} (l : list X) (f g b : X -> R) : (forall x, In x l -> Rabs (f x - g x) <= b x) ->
  Rabs (Rsum (map f l) - Rsum (map g l)) <= Rsum (map b l).
Proof.
  induction l as [|x l IH]; intros H; cbn [map Rsum].
  - rewrite Rminus_0_r, Rabs_R0. lra.
  - replace (f x + Rsum (map f l) - (g x + Rsum (map g l))) with ((f x - g x) + (Rsum (map f l) - Rsum (map g l))) by ring.
    eapply Rle_trans; [apply Rabs_triang|]. apply Rplus_le_compat; [apply H; left; reflexivity|apply IH; intros; apply H; right; assumption].
Qed.

(** Derivative of the mean heat capacity for the mass fractions [Y], and the size of its terms. *)
Definition mean_slope (m : mechanism) (Y : list R) (T : R) : R := Rsumn (s_NSP (library m)) (fun k => nth k Y 0 * cp_slope m k T).
Definition mean_slope_size (m : mechanism) (Y : list R) (T : R) : R :=
  Rsumn (s_NSP (library m)) (fun k => Rabs (nth k Y 0) * cp_slope_size m k T).

Lemma slope_val m rho e (Y : list R) : slope_ok m e = true -> 0 < rho v_T 0%N ->
  (forall k, (k < s_NSP (library m))%nat -> rval exact_libm rho (y_ref (s_NSP (library m)) k) = nth k Y 0) ->
  Rabs (rval exact_libm rho e - mean_slope m Y (rho v_T 0%N)) <= Q2R tol * mean_slope_size m Y (rho v_T 0%N).
Proof.
  unfold slope_ok. intros H HT HY.
  destruct (regions_cover (mids m) 0 (rho v_T 0%N) ltac:(rewrite Q2R_0; exact HT)) as (r & R1 & R2).
  rewrite forallb_forall in H. specialize (H r R1). cbv zeta in H. apply andb_true_iff in H as [K H].
  rewrite (flatten_val _ rho r e R2), (Rsum_keys (slope_key (s_NSP (library m))) _ _ _ K).
  unfold mean_slope, mean_slope_size, Rsumn. rewrite <- Rsum_scal. apply Rsum_error. intros k Hk.
  rewrite forallb_forall in H. specialize (H k Hk). apply in_seq in Hk.
  destruct (filter (fun t => (slope_key (s_NSP (library m)) t =? k)%nat) (flatten r e)) as [|t [|]]; try discriminate.
  cbn [map Rsum]. rewrite Rplus_0_r. apply (slope_term_val m rho r k t (nth k Y 0) H ltac:(lia) HT R2). apply HY. lia.
Qed.

Lemma avg_val n M rho e (Y cp : list R) : avg_ok n e = true -> 0 < rho v_T 0%N ->
  (forall k, (k < n)%nat -> rval M rho (y_ref n k) = nth k Y 0) -> (forall k, (k < n)%nat -> rho v_cp (N.of_nat k) = nth k cp 0) ->
  rval M rho e = Rsumn n (fun k => nth k cp 0 * nth k Y 0).
Proof.
  unfold avg_ok. intros H HT HY HC. apply exprs_eqb_eq in H. rewrite (flatten_val M rho anyT e (in_anyT _ HT)), H, map_map.
  unfold Rsumn. apply Rsum_ext. intros k Hk. apply in_seq in Hk.
  change (rval M rho (Mul (y_ref n k) (Ref v_cp (N.of_nat k)))) with (rval M rho (y_ref n k) * rho v_cp (N.of_nat k)).
  rewrite HY, HC by lia. ring.
Qed.

Lemma Rsumn_last n f : (0 < n)%nat -> Rsumn n f = Rsumn (n - 1) f + f (n - 1)%nat.
Proof.
  intros H. destruct n as [|n]; [lia|]. cbn [Nat.sub]. rewrite Nat.sub_0_r. unfold Rsumn. rewrite seq_S, map_app, Rsum_app. cbn. ring.
Qed.

(** Value of the sum of the last statement. *)
Lemma energy_val m M rho e : energy_ok m e = true -> 0 < rho v_T 0%N ->
  exists ws : nat -> R, (forall k, (k < s_NSP (library m))%nat -> Rabs (ws k - W m k) <= Q2R (1 / 10 ^ 15) * W m k) /\
  rval M rho e =
    Rsumn (s_NSP (library m)) (fun k => rho v_spec_rates (N.of_nat k) * ws k *
      (- rho v_working_temp 0%N * rho v_h (N.of_nat k) / rho v_cp_avg 0%N + rho v_cp (N.of_nat k))) +
    Rsumn (s_NSP (library m) - 1) (fun k => rho v_jac (N.of_nat (k + 1)) * rho v_h (N.of_nat k) * rho v_rho 0%N) +
    (if last_reacts m then rho v_J_nplusone 0%N * rho v_h (N.of_nat (s_NSP (library m) - 1)) * rho v_rho 0%N else 0).
Proof.
  unfold energy_ok. intros H HT. apply andb_true_iff in H as [C H]. apply exprs_eqb_eq in H.
  set (ws := energy_weights m e) in *. exists (fun k => Q2R (nth k ws 0%Q)). split.
  { intros k Hk. apply (close_in _ _ _ k C). rewrite weights_length. exact Hk. }
  pose proof (NSP_pos m) as HN. rewrite (Rsumn_last (s_NSP (library m))) by lia.
  rewrite (flatten_val M rho anyT e (in_anyT _ HT)), H. unfold energy_terms. cbv zeta. rewrite !map_app, !Rsum_app.
  set (n := s_NSP (library m)) in *.
  assert (V1 : forall k, rval M rho (made (nth k ws 0%Q) k) = rho v_spec_rates (N.of_nat k) * Q2R (nth k ws 0%Q) *
      (- rho v_working_temp 0%N * rho v_h (N.of_nat k) / rho v_cp_avg 0%N + rho v_cp (N.of_nat k))).
  { intros k. change (rval M rho (made (nth k ws 0%Q) k)) with (rho v_spec_rates (N.of_nat k) * Q2R (nth k ws 0%Q) *
      (Q2R (-1) * rho v_working_temp 0%N * rho v_h (N.of_nat k) / rho v_cp_avg 0%N + rho v_cp (N.of_nat k))).
    rewrite Q2R_m1. unfold Rdiv. ring. }
  assert (V2 : forall v i k, rval M rho (change v i k) = rho v (N.of_nat i) * rho v_h (N.of_nat k) * rho v_rho 0%N) by reflexivity.
  replace (Rsum (map (rval M rho) (flat_map (fun k => [made (nth k ws 0%Q) k; change v_jac (k + 1) k]) (seq 0 (n - 1)))))
    with (Rsumn (n - 1) (fun k => rval M rho (made (nth k ws 0%Q) k)) + Rsumn (n - 1) (fun k => rval M rho (change v_jac (k + 1) k))).
  2: { unfold Rsumn. rewrite <- Rsum_plus. induction (seq 0 (n - 1)) as [|k l IH]; [reflexivity|].
       cbn [map flat_map app Rsum]. rewrite IH. ring. }
  cbn [map Rsum]. rewrite V1.
  replace (Rsum (map (rval M rho) (if last_reacts m then [change v_J_nplusone 0 (n - 1)] else [])))
    with (if last_reacts m then rho v_J_nplusone 0%N * rho v_h (N.of_nat (n - 1)) * rho v_rho 0%N else 0).
  2: { destruct (last_reacts m); cbn [map Rsum]; [rewrite V2; cbn; ring|ring]. }
  assert (A1 : Rsumn (n - 1) (fun k => rval M rho (made (nth k ws 0%Q) k)) = Rsumn (n - 1) (fun k => rho v_spec_rates (N.of_nat k) * Q2R (nth k ws 0%Q) *
      (- rho v_working_temp 0%N * rho v_h (N.of_nat k) / rho v_cp_avg 0%N + rho v_cp (N.of_nat k)))).
  { unfold Rsumn. apply Rsum_ext. intros k _. apply V1. }
  rewrite A1. change (Rsumn (n - 1) (fun k => rval M rho (change v_jac (k + 1) k)))
    with (Rsumn (n - 1) (fun k => rho v_jac (N.of_nat (k + 1)) * rho v_h (N.of_nat k) * rho v_rho 0%N)).
  set (S1 := Rsumn (n - 1) _). set (S2 := Rsumn (n - 1) _). set (L := if last_reacts m then _ else _). ring.
Qed.

(** ** Value of the first element *)

Lemma srun_app len inp a : forall s b, srun len inp s (a ++ b) = match srun len inp s a with Some s' => srun len inp s' b | None => None end.
Proof.
  induction a as [|p a IH]; intros s b; cbn [app srun]; [reflexivity|]. destruct (sstep len inp s p); [apply IH|reflexivity].
Qed.

(** Values of the variables in a symbolic memory. *)
Definition reached (M : libm RA) (rho : var -> N -> R) len inp (s : smem) (v : var) (i : N) : R :=
  match look len inp s v i with Some e => rval M rho e | None => 0 end.

Lemma sub_val M rho len inp s e : forall e', sub len inp s e = Some e' ->
  rval M rho e' = rval M (reached M rho len inp s) e.
Proof.
  unfold rval at 2.
  induction e; cbn [sub]; intros e' E;
    repeat match type of E with
    | match ?x with Some _ => _ | None => _ end = _ => destruct x eqn:?; [|discriminate E]
    end;
    try (injection E as <-);
    repeat match goal with
    | IH : forall e'' : expr, Some ?a = Some e'' -> _ |- _ => specialize (IH _ eq_refl)
    end; unfold rval in *; cbn [val]; try congruence.
  - unfold reached. rewrite E. reflexivity.
  - rewrite <- IHe1, <- IHe2, <- IHe3, <- IHe4. reflexivity.
Qed.

Lemma kept_val m s v l k (M : libm RA) (rho : var -> N -> R) : kept m s v l = true -> In k l ->
  reached M rho (sizes (tail_sh (library m) ++ tail_locals)) (among (tail_sh (library m))) s v (N.of_nat k) = rho v (N.of_nat k).
Proof.
  unfold kept. rewrite forallb_forall. intros H Hk. specialize (H k Hk). unfold reached. unfold form in H.
  destruct (look _ _ s v (N.of_nat k)) as [e|]; [|discriminate]. apply expr_eqb_eq in H. subst e. reflexivity.
Qed.

Lemma tail_value m (T yN rho J1 : R) (y sp h cp jac J : list R) :
  length y = (s_NSP (library m) - 1)%nat -> length sp = s_NSP (library m) -> length h = s_NSP (library m) ->
  length cp = s_NSP (library m) -> length jac = s_NSP (library m) -> 0 < T ->
  call exact_libm (j_tail (jac_T m)) (tail_ins (A := RA) T (T :: y) yN rho sp h cp jac J1) [(v_cp_avg, 1%nat); (v_working_temp, 1%nat)] [v_jac] = Ok [J] ->
  exists (wt : R) (ws : nat -> R),
    (forall k, (k < s_NSP (library m))%nat -> Rabs (ws k - W m k) <= Q2R (1 / 10 ^ 15) * W m k) /\
    Rabs (wt - mean_slope m (y ++ [yN]) T) <= Q2R tol * mean_slope_size m (y ++ [yN]) T /\
    nth 0 J 0 =
    - (Rsumn (s_NSP (library m)) (fun k => nth k sp 0 * ws k *
        (- wt * nth k h 0 / Rsumn (s_NSP (library m)) (fun k => nth k cp 0 * nth k (y ++ [yN]) 0) + nth k cp 0)) +
       Rsumn (s_NSP (library m) - 1) (fun k => nth (k + 1) jac 0 * nth k h 0 * rho) +
       (if last_reacts m then J1 * nth (s_NSP (library m) - 1) h 0 * rho else 0)) /
    (rho * Rsumn (s_NSP (library m)) (fun k => nth k cp 0 * nth k (y ++ [yN]) 0)).
Proof.
  intros Ly Ls Lh Lc Lj HT E. pose proof (tail_all m) as H. unfold tail_ok in H. cbv zeta in H.
  set (n := s_NSP (library m)) in *. pose proof (NSP_pos m) as HN. fold n in HN.
  set (sh := tail_sh (library m)) in *.
  destruct (symbolic sh tail_locals (removelast (j_tail (jac_T m)))) as [s|] eqn:Es; [|discriminate].
  destruct (last (j_tail (jac_T m)) (Do (Asn v_T 0 (Num 0)))) as [a|] eqn:El; [|discriminate].
  destruct a as [v i x| | |]; try discriminate. destruct v; try discriminate. destruct i; try discriminate.
  destruct x as [| | | | | |x1 x2| | | | | |]; try discriminate. destruct x1 as [| |e| | | | | | | | | |]; try discriminate.
  destruct x2 as [| | | | |r c| | | | | | |]; try discriminate. destruct r as [|v i| | | | | | | | | | |]; try discriminate.
  destruct v; try discriminate. destruct i; try discriminate. destruct c as [|v i| | | | | | | | | | |]; try discriminate.
  destruct v; try discriminate. destruct i; try discriminate.
  set (X := Div (Neg e) (Mul (Ref v_rho 0) (Ref v_cp_avg 0))) in *.
  repeat (apply andb_true_iff in H as [H ?]). rename H0 into HE, H1 into HF.
  destruct (form sh tail_locals s v_cp_avg 0) as [ec|] eqn:Fc; [|discriminate].
  destruct (form sh tail_locals s v_working_temp 0) as [ew|] eqn:Fw; [|discriminate].
  apply andb_true_iff in HF as [HA HS].
  assert (Et : j_tail (jac_T m) = removelast (j_tail (jac_T m)) ++ [Do (Asn v_jac 0 X)]).
  { rewrite <- El. apply app_removelast_last. destruct m; discriminate. }
  set (ins := tail_ins (A := RA) T (T :: y) yN rho sp h cp jac J1) in *.
  assert (Hsh : shape ins = sh).
  { unfold ins, tail_ins, shape, sh, tail_sh. cbn [map fst snd length]. fold n.
    change (@length (num RA)) with (@length R). rewrite Ly, Ls, Lh, Lc, Lj.
    replace (Datatypes.S (n - 1)) with n by lia. reflexivity. }
  pose proof (tail_keeps_all m) as KK. unfold tail_keeps in KK. fold sh in KK.
  destruct (symbolic sh tail_locals (j_tail (jac_T m))) as [s'|] eqn:E'; [|discriminate].
  rewrite (call_closed exact_libm _ ins tail_locals [v_jac] s') in E.
  2: { rewrite Hsh. exact E'. }
  2: { rewrite Hsh. intros v [<-|[]]. eapply all_forms_weaken. exact KK. }
  rewrite Hsh in E. cbn [map] in E.
  set (len := sizes (sh ++ tail_locals)) in *. set (inp := among sh) in *.
  assert (Ej : N.to_nat (len v_jac) = n) by (unfold len, n; cbn; lia).  rewrite Ej in E.
  set (a := argument ins) in *.
  assert (EJ : J = map (fun i => val exact_libm a (formd sh tail_locals s' v_jac i)) (seq 0 n)) by congruence. clear E.
  assert (S' : exists x', sub len inp s X = Some x' /\ form sh tail_locals s' v_jac 0 = Some x').
  { unfold symbolic in E', Es. rewrite Et, srun_app in E'. fold len inp in E', Es. rewrite Es in E'. cbn [srun sstep sassign] in E'.
    destruct (sub len inp s X) as [x'|]; [|discriminate]. unfold swrite in E'. destruct (0 <? len v_jac)%N eqn:L0; [|discriminate].
    assert (Q : s' = PositiveMap.add (key v_jac 0) x' s) by congruence. exists x'. split; [reflexivity|]. unfold form, look. fold len. change (N.of_nat 0) with 0%N. rewrite L0, Q, PositiveMap.gss. reflexivity. }
  destruct S' as (x' & Sx & Fx).
  assert (V0 : nth 0 J 0 = rval exact_libm (reached exact_libm a len inp s) X).
  { rewrite EJ, (nth_map_seq (fun i => val exact_libm a (formd sh tail_locals s' v_jac i))) by lia.
    unfold formd. rewrite Fx. apply (sub_val _ _ _ _ _ _ _ Sx). }
  set (rv := reached exact_libm a len inp s) in *.
  assert (aa : forall v (l : list R), find (fun x => var_eqb (fst x) v) ins = Some (v, l) ->
      forall k, a v (N.of_nat k) = nth k l 0)
      by (intros v l F k; unfold a, argument; rewrite F; cbn [snd]; rewrite Nat2N.id; cbn [zero lit RA]; rewrite Q2R_0; reflexivity).
  assert (r_sp : forall k, (k < n)%nat -> rv v_spec_rates (N.of_nat k) = nth k sp 0).
  { intros k Hk. unfold rv, len, inp, sh. rewrite (kept_val m s v_spec_rates (seq 0 n)) by (try assumption; apply in_seq; lia). apply (aa v_spec_rates sp eq_refl). }
  assert (r_h : forall k, (k < n)%nat -> rv v_h (N.of_nat k) = nth k h 0).
  { intros k Hk. unfold rv, len, inp, sh. rewrite (kept_val m s v_h (seq 0 n)) by (try assumption; apply in_seq; lia). apply (aa v_h h eq_refl). }
  assert (r_cp : forall k, (k < n)%nat -> rv v_cp (N.of_nat k) = nth k cp 0).
  { intros k Hk. unfold rv, len, inp, sh. rewrite (kept_val m s v_cp (seq 0 n)) by (try assumption; apply in_seq; lia). apply (aa v_cp cp eq_refl). }
  assert (r_j : forall k, (k < n - 1)%nat -> rv v_jac (N.of_nat (k + 1)) = nth (k + 1) jac 0).
  { intros k Hk. unfold rv, len, inp, sh. rewrite (kept_val m s v_jac (seq 1 (n - 1))) by (try assumption; apply in_seq; lia). apply (aa v_jac jac eq_refl). }
  assert (r_r : rv v_rho 0%N = rho).
  { unfold rv, len, inp, sh. change 0%N with (N.of_nat 0). rewrite (kept_val m s v_rho [0%nat]) by (try assumption; left; reflexivity). apply (aa v_rho [rho] eq_refl). }
  assert (r_J : rv v_J_nplusone 0%N = J1).
  { unfold rv, len, inp, sh. change 0%N with (N.of_nat 0). rewrite (kept_val m s v_J_nplusone [0%nat]) by (try assumption; left; reflexivity). apply (aa v_J_nplusone [J1] eq_refl). }
  assert (aT : a v_T 0%N = T) by (apply (aa v_T [T] eq_refl 0%nat)).
  assert (aY : forall k, (k < n)%nat -> rval exact_libm a (y_ref n k) = nth k (y ++ [yN]) 0).
  { intros k Hk. unfold y_ref. destruct (Nat.eqb_spec k (n - 1)) as [->|N].
    - rewrite <- Ly, app_nth2, Nat.sub_diag by lia. apply (aa v_y_N [yN] eq_refl 0%nat).
    - rewrite app_nth1 by lia. change (rval exact_libm a (Ref v_y (N.of_nat (k + 1)))) with (a v_y (N.of_nat (k + 1))).
      rewrite (aa v_y (T :: y) eq_refl), Nat.add_1_r. reflexivity. }
  assert (r_c : rv v_cp_avg 0%N = Rsumn n (fun k => nth k cp 0 * nth k (y ++ [yN]) 0)).
  { unfold rv, reached. unfold form in Fc. fold len inp in Fc. change (N.of_nat 0) with 0%N in Fc. rewrite Fc.
    apply avg_val; [exact HA|rewrite aT; exact HT|exact aY|intros; apply (aa v_cp cp eq_refl)]. }
  assert (r_w : rv v_working_temp 0%N = rval exact_libm a ew).
  { unfold rv, reached. unfold form in Fw. fold len inp in Fw. change (N.of_nat 0) with 0%N in Fw. rewrite Fw. reflexivity. }
  pose proof (slope_val m a ew (y ++ [yN]) HS ltac:(rewrite aT; exact HT) aY) as VS. rewrite aT in VS.
  assert (r_T : rv v_T 0%N = T).
  { unfold rv, len, inp, sh. change 0%N with (N.of_nat 0). rewrite (kept_val m s v_T [0%nat]) by (try assumption; left; reflexivity). apply (aa v_T [T] eq_refl). }
  destruct (energy_val m exact_libm rv e HE ltac:(rewrite r_T; exact HT)) as (ws & Hw & VE).
  exists (rval exact_libm a ew), ws. split; [exact Hw|]. split; [exact VS|].
  rewrite V0. change (rval exact_libm rv X) with (Q2R (-1) * rval exact_libm rv e / (rv v_rho 0%N * rv v_cp_avg 0%N)).
  rewrite VE, r_r, r_c, r_w, r_J, Q2R_m1. fold n. rewrite r_h by lia.
  match goal with |- _ * (?A + ?B + _) / _ = - (?A' + ?B' + _) / _ =>
    replace A with A'; [replace B with B'; [unfold Rdiv; ring|]|] end;
  unfold Rsumn; apply Rsum_ext; intros k Hk; apply in_seq in Hk.
  - rewrite r_j, r_h by lia. reflexivity.
  - rewrite r_sp, r_h, r_cp by lia. reflexivity.
Qed.

(** ** The derivative of dT/dt *)

Lemma cp_derive a T : length a = 7%nat ->
  peval (derive_from 1 (map Q2R (tl (cp_coeffs a)))) T = dcp_R (fun i => Q2R (nth i a 0%Q)) T /\
  peval (derive_from 1 (map (fun q => Rabs (Q2R q)) (tl (cp_coeffs a)))) T = dcp_R (fun i => Rabs (Q2R (nth i a 0%Q))) T.
Proof.
  intros L. do 8 (destruct a as [|? a]; try discriminate). unfold dcp_R.
  cbn [cp_coeffs tl map derive_from peval nth INR]. split; ring.
Qed.

Lemma dcp_abs a T : length a = 7%nat -> 0 <= T ->
  Rabs (dcp_R (fun i => Q2R (nth i a 0%Q)) T) <= dcp_R (fun i => Rabs (Q2R (nth i a 0%Q))) T.
Proof. intros L HT. destruct (dcp_same a T L) as [<- <-]. apply qsize_abs, HT. Qed.

(** The heat capacity of a species has the derivative of its polynomial. *)
Lemma cp_slope_derive m (M : libm RA) (T : R) k : 0 < T -> (k < s_NSP (library m))%nat ->
  T <> Q2R (n_mid (species_nasa m k)) ->
  exists d, derivable_pt_lim (element (lib_eval_cp M (library m)) k) T d /\
    Rabs (d - cp_slope m k T) <= Q2R tol * cp_slope_size m k T /\ Rabs (cp_slope m k T) <= cp_slope_size m k T.
Proof.
  intros HT Hk HN.
  destruct (nasa_forms m _ v_cp cp_coeffs (cp_all m) ltac:(discriminate)) as (out & O & F).
  destruct (F k Hk) as [Wk G].
  destruct (regions_cover [n_mid (species_nasa m k)] 0 T ltac:(rewrite Q2R_0; exact HT)) as (r & R1 & R2).
  destruct (G r R1) as (c & p & a & B & (L7 & Fc & Fp) & E).
  exists (c * peval (derive_from 1 (tl (map Q2R p))) T). split.
  - apply (local_derive _ (fun x => c * qeval p x) T _ r).
    + intros x Hx. destruct (O M x) as [Ox _].
      assert (Ex : lib_eval_cp M (library m) x = Ok (out M x)) by exact Ox. unfold element. rewrite Ex. apply E, Hx.
    + exact R2.
    + destruct R1 as [<-|[<-|[]]]; cbn; [exact HN|exact I].
    + apply (derivable_pt_lim_scal (qeval p)). apply (MechNasa.peval_derive (map Q2R p)).
  - rewrite map_tl. apply near_tl in Fp. apply (near_derive tol1 _ _ _ 1 T) in Fp; [|lra].
    destruct (cp_derive a T L7) as [D1 D2]. rewrite D1, D2 in Fp.
    pose proof (ratio_pos m k Wk) as Pc.
    assert (G1 : nasa_at (species_nasa m k) T = (fun i => Q2R (nth i a 0%Q))).
    { apply FunctionalExtensionality.functional_extensionality. intros i. apply (branch_val r _ _ _ _ B R2). }
    pose proof (dcp_abs a T L7 ltac:(lra)) as A.
    unfold cp_slope, cp_slope_size, nasa_abs. rewrite G1. split.
    + rewrite tol_4. apply product_error; try assumption. exact tol1_range.
    + rewrite Rabs_mult, (Rabs_pos_eq (gas_constant / species_W m k)) by lra. apply Rmult_le_compat_l; lra.
Qed.

Lemma finite_choice (P : nat -> R -> Prop) n : (forall k, (k < n)%nat -> exists x, P k x) -> exists f, forall k, (k < n)%nat -> P k (f k).
Proof.
  induction n as [|n IH]; intros H; [exists (fun _ => 0); lia|].
  destruct IH as [f F]; [intros; apply H; lia|]. destruct (H n ltac:(lia)) as [x X].
  exists (fun k => if (k =? n)%nat then x else f k). intros k Hk. destruct (Nat.eqb_spec k n) as [->|]; [exact X|]. apply F. lia.
Qed.

Lemma Rsumn_derive n (f : nat -> R -> R) (d : nat -> R) T : (forall k, (k < n)%nat -> derivable_pt_lim (f k) T (d k)) ->
  derivable_pt_lim (fun t => Rsumn n (fun k => f k t)) T (Rsumn n d).
Proof.
  unfold Rsumn. intros H. assert (H' : forall k, In k (seq 0 n) -> derivable_pt_lim (f k) T (d k)) by (intros k Hk; apply H; apply in_seq in Hk; lia).
  clear H. induction (seq 0 n) as [|k l IH]; cbn [map Rsum]; [apply derivable_pt_lim_const|].
  apply (derivable_pt_lim_plus (f k)); [apply H'; left; reflexivity|]. apply IH. intros; apply H'; right; assumption.
Qed.

(** Rate of change of the mass fraction of species [k] at temperature [t], pressure [p] and mass fractions [y]; for all
    species but the last it is an element of [dydt]. *)
Definition species_rate (m : mechanism) (p : R) (y : list R) (k : nat) (t : R) : R :=
  W m k * Rsumn (length (ch_reactions (chem m))) (fun i => nu (chem m) i k * specific_rate m p y i t).

(** Specific enthalpy and heat capacity of species [k] at temperature [t]. *)
Definition enthalpy (m : mechanism) (k : nat) (t : R) : R := element (lib_eval_h (A := RA) exact_libm (library m)) k t.
Definition capacity (m : mechanism) (k : nat) (t : R) : R := element (lib_eval_cp (A := RA) exact_libm (library m)) k t.

(** Heat capacity of the mixture. *)
Definition mean_capacity (m : mechanism) (y : list R) (t : R) : R :=
  Rsumn (s_NSP (library m)) (fun k => capacity m k t * nth k (all_fractions y) 0).

(** Size of the terms of the heat capacity of species [k]. *)
Definition capacity_size (m : mechanism) (k : nat) (t : R) : R :=
  gas_constant / species_W m k * cp_R (nasa_abs (species_nasa m k) t) t.

Lemma dydt_0 m (p : R) (y : list R) t :
  length y = (s_NSP (library m) - 1)%nat ->
  dydt_at m p y 0 t = - Rsumn (s_NSP (library m)) (fun k => species_rate m p y k t * enthalpy m k t) / mean_capacity m y t.
Proof.
  intros Ly. destruct (right_hand_side exact_libm m p t y Ly) as (s & K & _ & G0). pose proof (stages_rates s K) as SR.
  destruct K as ((yN & mw & E1 & _) & LC & E2 & E3 & _ & _ & _ & _ & Lsp & E5 & Lcp & E6 & Lh & E & _).
  unfold dydt_at. rewrite E. eapply eq_trans; [exact G0|].
  assert (C : Rsumn (s_NSP (library m)) (fun k => nth k (st_cp s) 0 * nth k (all_fractions y) 0) = mean_capacity m y t).
  { unfold mean_capacity, capacity, element. rewrite E5. reflexivity. }
  rewrite C. unfold Rdiv. rewrite Rinv_mult.
  replace (Rsumn (s_NSP (library m)) (fun k => species_rate m p y k t * enthalpy m k t))
    with (/ st_rho s * Rsumn (s_NSP (library m)) (fun k => W m k * nth k (st_sp s ++ [st_dyN s]) 0 * nth k (st_h s) 0)).
  { ring. }
  unfold Rsumn at 1 2. rewrite <- Rsum_scal. apply Rsum_ext. intros k Hk. apply in_seq in Hk.
  unfold enthalpy, element. rewrite E6, (SR k) by lia. unfold species_rate.
  replace (Rsumn (length (ch_reactions (chem m))) (fun i => nu (chem m) i k * specific_rate m p y i t))
    with (/ st_rho s * Rsumn (length (ch_reactions (chem m))) (fun i => nu (chem m) i k * progress (chem m) (st_fwd s) (st_rev s) (st_pm s) i)).
  { ring. }
  unfold Rsumn. rewrite <- Rsum_scal. apply Rsum_ext. intros i _. unfold specific_rate. rewrite E1, E2, E3. unfold Rdiv. ring.
Qed.

Lemma tol_15 : Q2R (1 / 10 ^ 15) = Q2R tol1.
Proof. apply Qeq_eqR. vm_compute. reflexivity. Qed.

(** Error of one term. *)
Lemma energy_error G g cp wt h C dh C' cs ws : C <> 0 ->
  Rabs (g - G) <= Q2R tol1 * Rabs G -> Rabs (cp - dh) <= 2 * Q2R tol * cs -> Rabs (wt - C') <= 2 * Q2R tol * ws ->
  Rabs cp <= 2 * cs -> Rabs wt <= 2 * ws ->
  Rabs (g * (cp - wt * h / C) - G * (dh - C' * h / C)) <= 3 * Q2R tol * (Rabs G * (cs + ws * Rabs h / Rabs C)).
Proof.
  intros HC Hg Hc Hw Bc Bw. pose proof tol1_range as Ht. rewrite tol_4 in *. set (t := Q2R tol1) in *.
  set (q := Rabs h / Rabs C). assert (Pq : 0 <= q).
  { unfold q. apply Rmult_le_pos; [apply Rabs_pos|]. left. apply Rinv_0_lt_compat, Rabs_pos_lt, HC. }
  assert (Q : forall x, Rabs (x * h / C) = Rabs x * q).
  { intros x. unfold q, Rdiv. rewrite !Rabs_mult, Rabs_inv. ring. }
  replace (g * (cp - wt * h / C) - G * (dh - C' * h / C))
    with ((g - G) * (cp - wt * h / C) + G * ((cp - dh) - (wt - C') * h / C)) by (unfold Rdiv; ring).
  pose proof (Rabs_pos G) as PG. pose proof (Rabs_pos cp). pose proof (Rabs_pos wt).
  assert (A1 : Rabs (cp - wt * h / C) <= 2 * cs + 2 * ws * q).
  { unfold Rminus. eapply Rle_trans; [apply Rabs_triang|]. rewrite Rabs_Ropp, Q.
    apply (Rmult_le_compat_r q) in Bw; [lra|exact Pq]. }
  assert (A2 : Rabs ((cp - dh) - (wt - C') * h / C) <= 8 * t * (cs + ws * q)).
  { unfold Rminus at 1. eapply Rle_trans; [apply Rabs_triang|]. rewrite Rabs_Ropp, Q.
    apply (Rmult_le_compat_r q) in Hw; [lra|exact Pq]. }
  eapply Rle_trans; [apply Rabs_triang|]. rewrite !Rabs_mult.
  assert (B1 : Rabs (g - G) * Rabs (cp - wt * h / C) <= t * Rabs G * (2 * cs + 2 * ws * q)).
  { apply Rmult_le_compat; try apply Rabs_pos; assumption. }
  assert (B2 : Rabs G * Rabs ((cp - dh) - (wt - C') * h / C) <= Rabs G * (8 * t * (cs + ws * q))).
  { apply Rmult_le_compat_l; assumption. }
  replace (ws * Rabs h / Rabs C) with (ws * q) by (unfold q, Rdiv; ring).
  assert (0 <= t * Rabs G * (cs + ws * q)).
  { apply Rmult_le_pos; [apply Rmult_le_pos; lra|]. assert (0 <= ws * q) by (apply Rmult_le_pos; lra). lra. }
  nra.
Qed.

(** What [eval_jacob] goes through. *)
Record column_run (m : mechanism) (T p : R) (y dB0 : list R) := mkRun {
  cr_conc : list R; cr_fwd : list R; cr_rev : list R; cr_pm : list R; cr_sp : list R; cr_dB : list R;
  cr_jac : list R; cr_J1 : R; cr_h : list R; cr_cp : list R; cr_J : list R
}.
Arguments cr_conc {m T p y dB0}.
Arguments cr_fwd {m T p y dB0}.
Arguments cr_rev {m T p y dB0}.
Arguments cr_pm {m T p y dB0}.
Arguments cr_sp {m T p y dB0}.
Arguments cr_dB {m T p y dB0}.
Arguments cr_jac {m T p y dB0}.
Arguments cr_J1 {m T p y dB0}.
Arguments cr_h {m T p y dB0}.
Arguments cr_cp {m T p y dB0}.
Arguments cr_J {m T p y dB0}.

(** The run is that of the functions. *)
Record run_ok {m T p y dB0} (c : column_run m T p y dB0) : Prop := mkRunOk {
  ro_conc : lib_eval_conc (A := RA) exact_libm (library m) T p y = Ok (1 - Rsum y, 1 / specific_moles (library m) y, rho1 m p y / T, cr_conc c);
  ro_Lconc : length (cr_conc c) = s_NSP (library m);
  ro_rates : lib_eval_rxn_rates (A := RA) exact_libm (library m) T p (cr_conc c) = Ok (cr_fwd c, cr_rev c);
  ro_Lfwd : length (cr_fwd c) = s_fwd (library m);
  ro_Lrev : length (cr_rev c) = s_rev (library m);
  ro_pm : lib_get_rxn_pres_mod (A := RA) exact_libm (library m) T p (cr_conc c) = Ok (cr_pm c);
  ro_Lpm : length (cr_pm c) = s_pmod (library m);
  ro_sp : forall k, (k < s_NSP (library m))%nat -> nth k (cr_sp c) 0 =
    Rsumn (length (ch_reactions (chem m))) (fun i => nu (chem m) i k * progress (chem m) (cr_fwd c) (cr_rev c) (cr_pm c) i);
  ro_Lsp : length (cr_sp c) = s_NSP (library m);
  ro_LdB : length (cr_dB c) = s_NSP (library m);
  ro_dB : forall k, (k < s_NSP (library m))%nat -> reversible m k = true ->
    Rabs (T * nth k (cr_dB c) 0 - (h_RT m T k - 1)) <= Q2R tolE * h_size m T k;
  ro_parts : lib_jac_parts (A := RA) exact_libm T p (cr_conc c) (cr_fwd c) (cr_rev c) (cr_pm c) (cr_sp c) (p / (gas_constant * T))
    (1 / specific_moles (library m) y) (rho1 m p y / T) (cr_dB c) (j_parts (jac_T m)) (repeat 0 (s_NSP (library m))) 0 = Ok (cr_jac c, cr_J1 c);
  ro_Ljac : length (cr_jac c) = s_NSP (library m);
  ro_h : lib_eval_h (A := RA) exact_libm (library m) T = Ok (cr_h c);
  ro_Lh : length (cr_h c) = s_NSP (library m);
  ro_cp : lib_eval_cp (A := RA) exact_libm (library m) T = Ok (cr_cp c);
  ro_Lcp : length (cr_cp c) = s_NSP (library m);
  ro_tail : call exact_libm (j_tail (jac_T m)) (tail_ins (A := RA) T (T :: y) (1 - Rsum y) (rho1 m p y / T) (cr_sp c) (cr_h c) (cr_cp c) (cr_jac c) (cr_J1 c))
    [(v_cp_avg, 1%nat); (v_working_temp, 1%nat)] [v_jac] = Ok [cr_J c];
  ro_keep : forall k, (0 < k)%nat -> nth k (cr_J c) 0 = nth k (cr_jac c) 0;
  ro_LJ : length (cr_J c) = s_NSP (library m);
  ro_J : lib_jacob_T (A := RA) exact_libm (library m) (jac_T m) p (T :: y) (repeat 0 (s_NSP (library m))) dB0 = Ok (cr_J c)
}.

Lemma column_runs m (T p : R) (y dB0 : list R) :
  length y = (s_NSP (library m) - 1)%nat -> 0 < T -> 0 < p -> (forall k, (k < length y)%nat -> 0 <= nth k y 0) -> Rsum y <= 1 ->
  length dB0 = s_NSP (library m) ->
  exists c : column_run m T p y dB0, run_ok c.
Proof.
  intros Ly HT Hp H1 H2 LB. pose proof (NSP_pos m) as HS.
  destruct (rates_at m p y Hp Ly H1 H2 T HT) as (conc & fwd & rev & pm & E1 & LC & E2 & Lf & Lr & E3 & Lp & CN & SC & _).
  destruct (production exact_libm (library m) (chem m) fwd rev pm (spec_all m) Lf Lr Lp) as (sp & dyN & E4 & Lsp & G4).
  destruct (head_call m T p dB0 HT LB) as (dB & E5 & LdB & HB).
  assert (Lsp' : length (sp ++ [dyN]) = s_NSP (library m)).
  { rewrite app_length. cbn [length]. change (@length (num RA)) with (@length R) in *. lia. }
  destruct (parts_call exact_libm m (dydt_weights (library m) nitrogen) T p (p / (gas_constant * T)) (1 / specific_moles (library m) y) (rho1 m p y / T)
    conc fwd rev pm (sp ++ [dyN]) dB LC Lf Lr Lp Lsp' LdB
    (j_parts (jac_T m)) 0 (repeat 0 (s_NSP (library m))) 0 (parts_all m)) as (jac & J1 & j & E6 & Lj & _ & _ & _).
  { apply repeat_length. }
  { intros k _. apply nth_repeat. }
  destruct (eval_cp_defined exact_libm (library m) (library_all m) T) as (cp & E8 & Lcp).
  destruct (eval_h_defined exact_libm (library m) (library_all m) T) as (h & E7 & Lh).
  destruct (tail_call m exact_libm T (1 - Rsum y) (rho1 m p y / T) J1 (T :: y) (sp ++ [dyN]) h cp jac) as (J & E9 & LJ & KJ); try assumption.
  { cbn [length]. lia. }
  exists (mkRun m T p y dB0 conc fwd rev pm (sp ++ [dyN]) dB jac J1 h cp J). constructor;
    cbn [cr_conc cr_fwd cr_rev cr_pm cr_sp cr_dB cr_jac cr_J1 cr_h cr_cp cr_J]; try assumption.
  unfold lib_jacob_T. cbn [idx nth_error bind skipn].
  rewrite E1. cbn [bind]. rewrite E2. cbn [bind]. rewrite E3. cbn [bind]. rewrite E4. cbn [bind].
  rewrite E5. cbn [bind].
  assert (Z0 : zero RA = 0) by (cbn [zero lit RA]; rewrite Q2R_0; reflexivity). rewrite Z0.
  eapply eq_trans; [eapply (f_equal (fun o => bind o _)); exact E6|]. cbn [bind]. rewrite E7. cbn [bind]. rewrite E8. cbn [bind].
  eapply eq_trans; [eapply (f_equal (fun o => bind o _)); exact E9|]. reflexivity.
Qed.

(** The changes of the production rates that the last statement uses. *)
Definition used_change {m T p y dB0} (c : column_run m T p y dB0) (k : nat) : R :=
  if (k <? s_NSP (library m) - 1)%nat then nth (k + 1) (cr_J c) 0 else if last_reacts m then cr_J1 c else 0.

(** Rounding errors of the literals. *)
Definition energy_size (m : mechanism) (p : R) (y : list R) (T : R) : R :=
  Rsumn (s_NSP (library m)) (fun k => Rabs (species_rate m p y k T) *
    (capacity_size m k T + mean_slope_size m (all_fractions y) T * Rabs (enthalpy m k T) / Rabs (mean_capacity m y T))).

Lemma run_rate {m T p y dB0} (c : column_run m T p y dB0) k : run_ok c -> (k < s_NSP (library m))%nat ->
  species_rate m p y k T = nth k (cr_sp c) 0 * W m k / (rho1 m p y / T).
Proof.
  intros H Hk. rewrite (ro_sp c H k Hk). unfold species_rate.
  replace (Rsumn (length (ch_reactions (chem m))) (fun i => nu (chem m) i k * specific_rate m p y i T))
    with (/ (rho1 m p y / T) * Rsumn (length (ch_reactions (chem m))) (fun i => nu (chem m) i k * progress (chem m) (cr_fwd c) (cr_rev c) (cr_pm c) i)).
  { unfold Rdiv. ring. }
  unfold Rsumn. rewrite <- Rsum_scal. apply Rsum_ext. intros i _. unfold specific_rate.
  rewrite (ro_conc c H), (ro_rates c H), (ro_pm c H). unfold Rdiv. ring.
Qed.

Theorem energy_element {m T p y dB0} (c : column_run m T p y dB0) : run_ok c ->
  length y = (s_NSP (library m) - 1)%nat -> 0 < T -> 0 < p -> (forall k, (k < length y)%nat -> 0 <= nth k y 0) -> Rsum y <= 1 ->
  no_switch m T -> mean_capacity m y T <> 0 ->
  forall D : nat -> R, (forall k, (k < s_NSP (library m))%nat -> derivable_pt_lim (species_rate m p y k) T (D k)) ->
  exists D0 : R, derivable_pt_lim (dydt_at m p y 0) T D0 /\
    Rabs (nth 0 (cr_J c) 0 - D0 + Rsumn (s_NSP (library m)) (fun k => (used_change c k - D k) * enthalpy m k T) / mean_capacity m y T) <=
    3 * Q2R tol * energy_size m p y T / Rabs (mean_capacity m y T).
Proof.
  intros RO Ly HT Hp H1 H2 HN HC D HD. set (n := s_NSP (library m)) in *. pose proof (NSP_pos m) as HS. fold n in HS.
  set (C := mean_capacity m y T) in *.
  (* derivatives of the enthalpies and heat capacities *)
  destruct (finite_choice (fun k d => derivable_pt_lim (enthalpy m k) T d /\
    Rabs (d - gas_constant / species_W m k * cp_R (nasa_at (species_nasa m k) T) T) <= Q2R tol * capacity_size m k T) n) as [dh Hdh].
  { intros k Hk. apply (h_slope m exact_libm T k HT Hk). intros E. apply (HN k). symmetry. exact E. }
  destruct (finite_choice (fun k d => derivable_pt_lim (capacity m k) T d /\
    Rabs (d - cp_slope m k T) <= Q2R tol * cp_slope_size m k T /\ Rabs (cp_slope m k T) <= cp_slope_size m k T) n) as [dc Hdc].
  { intros k Hk. apply (cp_slope_derive m exact_libm T k HT Hk). intros E. apply (HN k). symmetry. exact E. }
  set (N := fun t => Rsumn n (fun k => species_rate m p y k t * enthalpy m k t)).
  assert (DN : derivable_pt_lim N T (Rsumn n (fun k => D k * enthalpy m k T + species_rate m p y k T * dh k))).
  { apply (Rsumn_derive n (fun k t => species_rate m p y k t * enthalpy m k t)). intros k Hk.
    apply (derivable_pt_lim_mult (species_rate m p y k) (enthalpy m k)); [apply HD, Hk|apply Hdh, Hk]. }
  set (C' := Rsumn n (fun k => dc k * nth k (all_fractions y) 0)).
  assert (DC : derivable_pt_lim (mean_capacity m y) T C').
  { apply (Rsumn_derive n (fun k t => capacity m k t * nth k (all_fractions y) 0)). intros k Hk.
    apply (derivable_pt_lim_ext (fun t => nth k (all_fractions y) 0 * capacity m k t)); [intros; ring|]. rewrite Rmult_comm.
    apply derivable_pt_lim_scal, Hdc, Hk. }
  set (DS := Rsumn n (fun k => D k * enthalpy m k T + species_rate m p y k T * dh k)) in *.
  exists (- ((DS * C - C' * N T) / Rsqr C)). split.
  { apply (derivable_pt_lim_ext (fun t => - (N t / mean_capacity m y t))).
    - intros t. rewrite (dydt_0 m p y t Ly). unfold N, n, Rdiv. ring.
    - apply (derivable_pt_lim_opp (fun t => N t / mean_capacity m y t)). apply derivable_pt_lim_div; assumption. }
  destruct (tail_value m T (1 - Rsum y) (rho1 m p y / T) (cr_J1 c) y (cr_sp c) (cr_h c) (cr_cp c) (cr_jac c) (cr_J c) Ly
    (ro_Lsp c RO) (ro_Lh c RO) (ro_Lcp c RO) (ro_Ljac c RO) HT (ro_tail c RO)) as (wt & ws & Hws & Hwt & V0).
  fold n in Hws, V0. fold (all_fractions y) in V0, Hwt.
  assert (Vh : forall k, nth k (cr_h c) 0 = enthalpy m k T) by (intros k; unfold enthalpy, element; rewrite (ro_h c RO); reflexivity).
  assert (Vc : forall k, nth k (cr_cp c) 0 = capacity m k T) by (intros k; unfold capacity, element; rewrite (ro_cp c RO); reflexivity).
  assert (VC : Rsumn n (fun k => nth k (cr_cp c) 0 * nth k (all_fractions y) 0) = C).
  { unfold C, mean_capacity. fold n. unfold Rsumn. apply Rsum_ext. intros k _. rewrite Vc. reflexivity. }
  rewrite VC in V0.
  pose proof (rho1_pos m p y Hp Ly H1 H2) as HR. set (rho := rho1 m p y / T) in *.
  assert (Prho : 0 < rho) by (apply Rdiv_lt_0_compat; assumption).
  set (g := fun k => nth k (cr_sp c) 0 * ws k / rho).
  set (G := fun k => species_rate m p y k T).
  assert (VG : forall k, (k < n)%nat -> G k = nth k (cr_sp c) 0 * W m k / rho) by (intros k Hk; apply (run_rate c k RO Hk)).
  (* the element *)
  assert (V1 : nth 0 (cr_J c) 0 =
    - (Rsumn n (fun k => g k * (capacity m k T - wt * enthalpy m k T / C)) + Rsumn n (fun k => used_change c k * enthalpy m k T)) / C).
  { rewrite V0.
    replace (Rsumn n (fun k => nth k (cr_sp c) 0 * ws k * (- wt * nth k (cr_h c) 0 / C + nth k (cr_cp c) 0)))
      with (rho * Rsumn n (fun k => g k * (capacity m k T - wt * enthalpy m k T / C))).
    2: { unfold Rsumn. rewrite <- Rsum_scal. apply Rsum_ext. intros k _. rewrite Vh, Vc. unfold g. field. split; [exact HC|lra]. }
    rewrite (Rsumn_last n (fun k => used_change c k * enthalpy m k T)) by lia.
    replace (Rsumn (n - 1) (fun k => used_change c k * enthalpy m k T)) with (Rsumn (n - 1) (fun k => nth (k + 1) (cr_jac c) 0 * nth k (cr_h c) 0)).
    2: { unfold Rsumn. apply Rsum_ext. intros k Hk. apply in_seq in Hk. unfold used_change. fold n.
         destruct (Nat.ltb_spec k (n - 1)); [|lia]. rewrite Vh, (ro_keep c RO) by lia. reflexivity. }
    replace (Rsumn (n - 1) (fun k => nth (k + 1) (cr_jac c) 0 * nth k (cr_h c) 0 * rho))
      with (rho * Rsumn (n - 1) (fun k => nth (k + 1) (cr_jac c) 0 * nth k (cr_h c) 0)).
    2: { unfold Rsumn. rewrite <- Rsum_scal. apply Rsum_ext. intros k _. ring. }
    unfold used_change. fold n. rewrite Nat.ltb_irrefl, Vh.
    replace (if last_reacts m then cr_J1 c * enthalpy m (n - 1) T * rho else 0) with (rho * ((if last_reacts m then cr_J1 c else 0) * enthalpy m (n - 1) T))
      by (destruct (last_reacts m); ring).
    field. split; [exact HC|lra]. }
  replace (nth 0 (cr_J c) 0 - - ((DS * C - C' * N T) / Rsqr C) + Rsumn n (fun k => (used_change c k - D k) * enthalpy m k T) / C)
    with (- / C * (Rsumn n (fun k => g k * (capacity m k T - wt * enthalpy m k T / C)) - Rsumn n (fun k => G k * (dh k - C' * enthalpy m k T / C)))).
  2: { rewrite V1.
       replace (Rsumn n (fun k => (used_change c k - D k) * enthalpy m k T))
         with (Rsumn n (fun k => used_change c k * enthalpy m k T) + -1 * Rsumn n (fun k => D k * enthalpy m k T)).
       2: { unfold Rsumn. rewrite <- Rsum_scal, <- Rsum_plus. apply Rsum_ext. intros k _. ring. }
       replace (Rsumn n (fun k => G k * (dh k - C' * enthalpy m k T / C)))
         with (Rsumn n (fun k => G k * dh k) + - C' / C * N T).
       2: { unfold N, Rsumn. rewrite <- Rsum_scal, <- Rsum_plus. apply Rsum_ext. intros k _. unfold G, Rdiv. ring. }
       replace DS with (Rsumn n (fun k => D k * enthalpy m k T) + Rsumn n (fun k => G k * dh k)).
       2: { unfold DS, Rsumn. rewrite <- Rsum_plus. apply Rsum_ext. intros k _. reflexivity. }
       unfold Rsqr. field. exact HC. }
  rewrite Rabs_mult, Rabs_Ropp, Rabs_inv. unfold Rdiv at 1. rewrite Rmult_comm.
  apply Rmult_le_compat_r; [left; apply Rinv_0_lt_compat, Rabs_pos_lt, HC|].
  unfold energy_size. fold n C. unfold Rsumn at 1 2 3. rewrite <- Rsum_scal. apply Rsum_error. intros k Hk. apply in_seq in Hk.
  destruct (Hdh k ltac:(lia)) as [_ Bh].
  destruct (cp_value m exact_libm T HT) as (cp' & Ecp & _ & Bcp). destruct (Bcp k ltac:(fold n; lia)) as [Wk Bk].
  rewrite (ro_cp c RO) in Ecp. injection Ecp as <-. rewrite Vc in Bk. fold (capacity_size m k T) in Bk.
  set (cR := gas_constant / species_W m k * cp_R (nasa_at (species_nasa m k) T) T) in *.
  assert (AcR : Rabs cR <= capacity_size m k T).
  { unfold cR, capacity_size. pose proof (ratio_pos m k Wk) as Pc. rewrite Rabs_mult, (Rabs_pos_eq (gas_constant / species_W m k)) by lra.
    apply Rmult_le_compat_l; [lra|]. unfold cp_R, nasa_abs. set (a := nasa_at (species_nasa m k) T).
    assert (P : forall j, 0 <= T ^ j) by (intros; apply pow_le; lra).
    repeat (eapply Rle_trans; [apply Rabs_triang|]; apply Rplus_le_compat); rewrite ?Rabs_mult, ?(Rabs_pos_eq (T ^ _)) by apply P; try lra.
    rewrite (Rabs_pos_eq T) by lra. lra. }
  assert (AC : Rabs (C' - mean_slope m (all_fractions y) T) <= Q2R tol * mean_slope_size m (all_fractions y) T).
  { unfold C', mean_slope, mean_slope_size. fold n. unfold Rsumn. rewrite <- Rsum_scal. apply Rsum_error. intros j Hj. apply in_seq in Hj.
    destruct (Hdc j ltac:(lia)) as (_ & B & _). set (Y := nth j (all_fractions y) 0) in *.
    replace (dc j * Y - Y * cp_slope m j T) with (Y * (dc j - cp_slope m j T)) by ring. rewrite Rabs_mult.
    apply (Rmult_le_compat_l (Rabs Y)) in B; [lra|apply Rabs_pos]. }
  assert (AS : Rabs (mean_slope m (all_fractions y) T) <= mean_slope_size m (all_fractions y) T).
  { unfold mean_slope, mean_slope_size. fold n. unfold Rsumn.
    rewrite <- (Rminus_0_r (Rsum _)). rewrite <- (Rsum_zero (fun _ => 0) (seq 0 n)) at 1 by reflexivity.
    apply Rsum_error. intros j Hj. apply in_seq in Hj. destruct (Hdc j ltac:(lia)) as (_ & _ & B).
    rewrite Rminus_0_r, Rabs_mult. apply Rmult_le_compat_l; [apply Rabs_pos|exact B]. }
  assert (Tt : 0 <= Q2R tol <= 1) by (rewrite <- Q2R_0, <- Q2R_1; split; apply Qle_Rle; discriminate).
  set (MS := mean_slope_size m (all_fractions y) T) in *. set (M0 := mean_slope m (all_fractions y) T) in *.
  set (cs := capacity_size m k T) in *.
  assert (Ps : 0 <= cs) by (eapply Rle_trans; [apply Rabs_pos|exact AcR]).
  assert (Pm : 0 <= MS) by (eapply Rle_trans; [apply Rabs_pos|exact AS]).
  change (species_rate m p y k T) with (G k).
  apply energy_error.
  - exact HC.
  - unfold g. rewrite (VG k) by lia. rewrite <- tol_15.
    replace (nth k (cr_sp c) 0 * ws k / rho - nth k (cr_sp c) 0 * W m k / rho) with (nth k (cr_sp c) 0 / rho * (ws k - W m k)) by (unfold Rdiv; ring).
    replace (nth k (cr_sp c) 0 * W m k / rho) with (nth k (cr_sp c) 0 / rho * W m k) by (unfold Rdiv; ring).
    rewrite !Rabs_mult. rewrite (Rabs_pos_eq (W m k)) by (left; apply W_positive; fold n; lia).
    specialize (Hws k ltac:(lia)). apply (Rmult_le_compat_l (Rabs (nth k (cr_sp c) 0 / rho))) in Hws; [lra|apply Rabs_pos].
  - replace (capacity m k T - dh k) with ((capacity m k T - cR) - (dh k - cR)) by ring.
    unfold Rminus at 1. eapply Rle_trans; [apply Rabs_triang|]. rewrite Rabs_Ropp. lra.
  - replace (wt - C') with ((wt - M0) - (C' - M0)) by ring.
    unfold Rminus at 1. eapply Rle_trans; [apply Rabs_triang|]. rewrite Rabs_Ropp. lra.
  - replace (capacity m k T) with ((capacity m k T - cR) + cR) by ring. eapply Rle_trans; [apply Rabs_triang|]. nra.
  - replace wt with ((wt - M0) + M0) by ring. eapply Rle_trans; [apply Rabs_triang|]. nra.
Qed.
