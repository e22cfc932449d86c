(** [eval_cp] and [eval_h]: the NASA polynomials of chem.cti. *)
From Coq Require Import List ZArith NArith QArith Qabs Qreals Reals Bool Lra Lia.
From Verif Require Import Outcome Arith MechLang MechSym MechSrc MechCall MechReal MechPoly MechChem Mechanisms
  MechSpec MechRate MechPmod MechThermo MechData MechExp MechLaurent.
Import ListNotations.
Local Open Scope nat_scope.

(** ** The polynomials *)

(** Heat capacity cp/R of NASA coefficients [a]. *)
Definition cp_R (a : nat -> R) (T : R) : R := (a 0%nat + a 1%nat * T + a 2%nat * T ^ 2 + a 3%nat * T ^ 3 + a 4%nat * T ^ 4)%R.

(** Enthalpy h/R. *)
Definition h_R (a : nat -> R) (T : R) : R :=
  (a 5%nat + a 0%nat * T + a 1%nat / 2 * T ^ 2 + a 2%nat / 3 * T ^ 3 + a 3%nat / 4 * T ^ 4 + a 4%nat / 5 * T ^ 5)%R.

(** The coefficients that hold at temperature [T]. *)
Definition nasa_at (n : nasa7) (T : R) (i : nat) : R :=
  Q2R (nth i (if Rle_dec T (Q2R (n_mid n)) then n_low n else n_high n) 0%Q).

(** Their absolute values. *)
Definition nasa_abs (n : nasa7) (T : R) (i : nat) : R := Rabs (nasa_at n T i).

(** The thermo entry of species [k]. *)
Definition species_nasa (m : mechanism) (k : nat) : nasa7 := nth k (nasa m) (mkNasa 0 [] []).

(** Molecular weight of species [k] (foam/thermo.foam). *)
Definition species_W (m : mechanism) (k : nat) : R := Q2R (nth k (molWeight m) 0%Q).

(** ** Checks *)

(** Only sums, products and quotients. *)
Fixpoint arith_only (e : expr) : bool :=
  match e with
  | Num _ | Ref _ _ => true
  | Neg a => arith_only a
  | Add a b | Sub a b | Mul a b | Div a b => arith_only a && arith_only b
  | Ite a b t f => arith_only a && arith_only b && arith_only t && arith_only f
  | _ => false
  end.

Lemma arith_only_val (M M' : libm RA) rho e : arith_only e = true -> rval M rho e = rval M' rho e.
Proof.
  unfold rval. induction e; cbn; intros H; try discriminate; repeat (apply andb_true_iff in H as [H ?]);
    rewrite ?IHe, ?IHe1, ?IHe2, ?IHe3, ?IHe4 by assumption; reflexivity.
Qed.

(** The intervals on which the polynomial of a species does not change. *)
Definition pieces (n : nasa7) : list region := regions 0 [n_mid n].

(** Coefficients on an interval. *)
Definition branch (r : region) (n : nasa7) : option (list Q) :=
  match decide r (n_mid n) with Some true => Some (n_low n) | Some false => Some (n_high n) | None => None end.

(** Coefficients of h/R. *)
Definition h_coeffs (a : list Q) : list Q :=
  match a with
  | [a0; a1; a2; a3; a4; a5; a6] => [a5; a0; (a1 / 2)%Q; (a2 / 3)%Q; (a3 / 4)%Q; (a4 / 5)%Q]
  | _ => []
  end.

(** Coefficients of cp/R. *)
Definition cp_coeffs (a : list Q) : list Q :=
  match a with [a0; a1; a2; a3; a4; a5; a6] => [a0; a1; a2; a3; a4] | _ => [] end.

(** The gas constant as a rational. *)
Definition Ru : Q := 8.31446210e+03.

(** Relative error of the results. *)
Definition tol : Q := 4e-15.

(** Relative error of the factor R/W, and of the coefficients. *)
Definition tol1 : Q := 1e-15.

Lemma tol_4 : Q2R tol = (4 * Q2R tol1)%R.
Proof.
  replace 4%R with (Q2R 4) by (unfold Q2R; cbn; lra). rewrite <- Q2R_mult. apply Qeq_eqR. reflexivity.
Qed.

Lemma tol1_range : (0 <= Q2R tol1 <= 1)%R.
Proof. rewrite <- Q2R_0, <- Q2R_1. split; apply Qle_Rle; discriminate. Qed.

(** A constant times a form, on an interval. *)
Fixpoint scaled (r : region) (e : expr) : option (Q * laurent) :=
  match e with
  | Mul (Num c) p => option_map (pair c) (lin r p)
  | Ite a (Num q) t f =>
      if is_T a then
        match decide r q with Some true => scaled r t | Some false => scaled r f | None => None end
      else None
  | _ => None
  end.

(** On an interval a closed form is [c] times the polynomial with the given coefficients. *)
Definition poly_ok (r : region) (c : Q) (want : list Q) (e : expr) : bool :=
  match scaled r e with
  | Some (d, l) =>
      only_poly l && Qle_bool (Qabs (d - c)) (tol1 * c) && near tol1 (l_poly l) want want
  | None => false
  end.

(** The closed forms of an array are the polynomials of the species. *)
Definition nasa_ok (m : mechanism) (body : list stmt) (v : var) (want : list Q -> list Q) : bool :=
  let S := library m in
  match symbolic [(v_T, 1)] [(v, s_NSP S)] body with
  | None => false
  | Some s =>
      (length (nasa m) =? s_NSP S) && (length (molWeight m) =? s_NSP S) &&
      forallb (fun w => 0 <? Qnum w)%Z (molWeight m) &&
      forallb (fun n => (length (n_low n) =? 7) && (length (n_high n) =? 7)) (nasa m) &&
      all_forms [(v_T, 1)] [(v, s_NSP S)] s v (fun k e =>
        arith_only e &&
        let n := species_nasa m k in
        forallb (fun r =>
          match branch r n with
          | Some a => poly_ok r (Ru / nth k (molWeight m) 0%Q) (want a) e
          | None => false
          end) (pieces n))
  end.

Lemma branch_val r n a T i : branch r n = Some a -> inside r T -> nasa_at n T i = Q2R (nth i a 0%Q).
Proof.
  unfold branch, nasa_at. destruct (decide r (n_mid n)) as [b|] eqn:D; [|discriminate]. intros H HT.
  pose proof (decide_sound r _ b T D HT) as E. unfold Rleb in E.
  destruct (Rle_dec T (Q2R (n_mid n))); destruct b; try discriminate; injection H as <-; reflexivity.
Qed.

(** The polynomials from coefficient lists. *)
Definition same_poly (want : list Q -> list Q) (f : (nat -> R) -> R -> R) : Prop :=
  forall a T, length a = 7 ->
    qeval (want a) T = f (fun i => Q2R (nth i a 0%Q)) T /\
    qsize (want a) T = f (fun i => Rabs (Q2R (nth i a 0%Q))) T.

Lemma cp_same : same_poly cp_coeffs cp_R.
Proof.
  intros a T L. do 8 (destruct a as [|? a]; try discriminate). unfold cp_R, qeval, qsize. cbn [cp_coeffs map peval nth].
  split; ring.
Qed.

Lemma Rabs_div_pos x n : (0 < n)%R -> Rabs (x / n) = (Rabs x / n)%R.
Proof. intros H. unfold Rdiv. rewrite Rabs_mult. f_equal. apply Rabs_pos_eq. left. apply Rinv_0_lt_compat, H. Qed.

Lemma Q2R_div_nat q n : Q2R (q / inject_Z (Zpos n)) = (Q2R q / IZR (Zpos n))%R.
Proof.
  unfold Qdiv. rewrite Q2R_mult, Q2R_inv by discriminate. unfold Rdiv. f_equal. f_equal.
  unfold Q2R, inject_Z. cbn [Qnum Qden]. rewrite Rinv_1. ring.
Qed.

Lemma h_same : same_poly h_coeffs h_R.
Proof.
  intros a T L. do 8 (destruct a as [|? a]; try discriminate). unfold h_R, qeval, qsize. cbn [h_coeffs map peval nth].
  change 2%Q with (inject_Z 2). change 3%Q with (inject_Z 3). change 4%Q with (inject_Z 4). change 5%Q with (inject_Z 5).
  rewrite !Q2R_div_nat, !Rabs_div_pos by lra. split; field.
Qed.

Lemma scaled_val rho r e : inside r (rho v_T 0%N) -> forall c l, scaled r e = Some (c, l) ->
  rval exact_libm rho e = (Q2R c * lau_val l (rho v_T 0%N))%R.
Proof.
  intros HT. induction e; intros c l; cbn [scaled]; try discriminate.
  - destruct e1; try discriminate. destruct (lin r e2) as [x|] eqn:L; [|discriminate]. intros [= <- <-].
    rewrite <- (lin_val rho r HT e2 x L). reflexivity.
  - destruct e2; try discriminate. destruct (is_T e1) eqn:E; [|discriminate].
    destruct (decide r q) as [b|] eqn:D; [|discriminate].
    pose proof (decide_sound r q b _ D HT) as V.
    assert (W : rval exact_libm rho (Ite e1 (Num q) e3 e4) = if b then rval exact_libm rho e3 else rval exact_libm rho e4).
    { change (rval exact_libm rho (Ite e1 (Num q) e3 e4))
        with (if Rleb (rval exact_libm rho e1) (Q2R q) then rval exact_libm rho e3 else rval exact_libm rho e4).
      rewrite (is_T_val rho _ E), V. reflexivity. }
    rewrite W. destruct b; auto.
Qed.

Lemma peval_le (g h : Q -> R) l T : (0 <= T)%R -> (forall q, g q <= h q)%R -> (peval (map g l) T <= peval (map h l) T)%R.
Proof.
  intros HT H. induction l as [|x l IH]; cbn [map peval]; [lra|].
  specialize (H x). apply (Rmult_le_compat_l T) in IH; [lra|exact HT].
Qed.

Lemma qsize_abs l T : (0 <= T)%R -> (Rabs (qeval l T) <= qsize l T)%R.
Proof.
  intros HT. unfold qeval, qsize. induction l as [|x l IH]; cbn [map peval]; [rewrite Rabs_R0; lra|].
  eapply Rle_trans; [apply Rabs_triang|]. rewrite Rabs_mult, (Rabs_pos_eq T HT).
  apply (Rmult_le_compat_l T) in IH; [lra|exact HT].
Qed.

Lemma product_error c d x w s e : (0 < c)%R -> (0 <= e <= 1)%R -> (Rabs (d - c) <= e * c)%R ->
  (Rabs (x - w) <= e * s)%R -> (Rabs w <= s)%R -> (Rabs (d * x - c * w) <= 4 * e * (c * s))%R.
Proof.
  intros Hc He Hd Hx Hw. pose proof (Rabs_pos w) as Ps.
  replace (d * x - c * w)%R with ((d - c) * (x - w) + (d - c) * w + c * (x - w))%R by ring.
  assert (A : (Rabs ((d - c) * (x - w)) <= e * c * (e * s))%R).
  { rewrite Rabs_mult. apply Rmult_le_compat; try apply Rabs_pos; assumption. }
  assert (B : (Rabs ((d - c) * w) <= e * c * s)%R).
  { rewrite Rabs_mult. apply Rmult_le_compat; try apply Rabs_pos; assumption. }
  assert (D : (Rabs (c * (x - w)) <= c * (e * s))%R).
  { rewrite Rabs_mult, (Rabs_pos_eq c) by lra. apply Rmult_le_compat_l; lra. }
  assert (P : (0 <= c * s)%R) by (apply Rmult_le_pos; lra).
  assert (Q : (e * e * (c * s) <= e * (c * s))%R).
  { apply Rmult_le_compat_r; [exact P|]. rewrite <- (Rmult_1_r e) at 3. apply Rmult_le_compat_l; lra. }
  assert (0 <= e * (c * s))%R by (apply Rmult_le_pos; lra).
  eapply Rle_trans; [apply Rabs_triang|]. eapply Rle_trans; [apply Rplus_le_compat_r, Rabs_triang|]. lra.
Qed.

Section Species.
  Variable m : mechanism.
  Variables (body : list stmt) (v : var) (want : list Q -> list Q).
  Hypothesis Hok : nasa_ok m body v want = true.
  Hypothesis Hv : v <> v_T.

  (** A coefficient list is that of a polynomial, up to rounding. *)
  Definition represents (k : nat) (c : R) (p a : list Q) : Prop :=
    length a = 7 /\ (Rabs (c - gas_constant / species_W m k) <= Q2R tol1 * (gas_constant / species_W m k))%R /\
    near tol1 p (want a) (want a) = true.

  Lemma nasa_forms : exists out : libm RA -> R -> list R,
    (forall M T, (let* l := call (A := RA) M body [(v_T, [T])] [(v, s_NSP (library m))] [v] in only l) = Ok (out M T) /\
      length (out M T) = s_NSP (library m)) /\
    forall k, k < s_NSP (library m) ->
      (0 < species_W m k)%R /\
      forall r, In r (pieces (species_nasa m k)) ->
      exists c p a, branch r (species_nasa m k) = Some a /\ represents k c p a /\
        forall M T, inside r T -> nth k (out M T) 0%R = (c * qeval p T)%R.
  Proof.
    unfold nasa_ok in Hok. set (S := library m) in *.
    destruct (symbolic [(v_T, 1)] [(v, s_NSP S)] body) as [s|] eqn:E; [|discriminate].
    repeat (apply andb_true_iff in Hok as [Hok ?]).
    assert (V : var_eqb v_T v = false) by (destruct (var_eqb_spec v_T v); congruence).
    assert (Es : N.to_nat (sizes ([(v_T, 1)] ++ [(v, s_NSP S)]) v) = s_NSP S).
    { unfold sizes. cbn [app find fst snd]. rewrite V, var_eqb_refl. cbn [snd]. lia. }
    exists (fun M T => map (fun i => val (A := RA) M (argument [(v_T, [T] : list (num RA))])
      (formd [(v_T, 1)] [(v, s_NSP S)] s v i)) (seq 0 (s_NSP S))). split.
    - intros M T. set (ins := [(v_T, [T] : list (num RA))]).
      change [(v_T, 1)] with (shape ins) in E, H.
      rewrite (call_closed M _ ins _ [v] s).
      2: exact E.
      2: { intros w [<-|[]]. eapply all_forms_weaken. eassumption. }
      cbn [map bind only]. change (shape ins ++ [(v, s_NSP S)]) with ([(v_T, 1)] ++ [(v, s_NSP S)]). rewrite Es.
      split; [reflexivity|]. rewrite map_length, seq_length; reflexivity.
    - intros k Hk.
      destruct (all_forms_in _ _ _ _ _ k H) as [_ F]; [rewrite Es; exact Hk|].
      set (e := formd [(v_T, 1)] [(v, s_NSP S)] s v k) in *.
      apply andb_true_iff in F as [Fa F]. rewrite forallb_forall in F.
      assert (Wk : (0 < species_W m k)%R).
      { unfold species_W. apply Q2R_pos. rewrite forallb_forall in H1. apply H1. apply nth_In.
        apply Nat.eqb_eq in H2. lia. }
      split; [exact Wk|]. intros r R1.
      specialize (F r R1). destruct (branch r (species_nasa m k)) as [a|] eqn:B; [|discriminate].
      unfold poly_ok in F. destruct (scaled r e) as [[d l]|] eqn:L; [|discriminate].
      apply andb_true_iff in F as [P F]. apply andb_true_iff in P as [P Fd].
      apply Qle_bool_iff, Qle_Rle in Fd. rewrite Q2R_abs, Q2R_minus, Q2R_mult in Fd.
      assert (C : Q2R (Ru / nth k (molWeight m) 0%Q) = (gas_constant / species_W m k)%R).
      { unfold Qdiv. rewrite Q2R_mult, Q2R_inv; [reflexivity|]. intros Z. apply Qeq_eqR in Z.
        unfold species_W in Wk. rewrite Z, Q2R_0 in Wk. lra. }
      rewrite C in Fd. exists (Q2R d), (l_poly l), a. split; [reflexivity|]. split.
      + split; [|split; assumption].
        rewrite forallb_forall in H0. specialize (H0 (species_nasa m k)).
        apply Nat.eqb_eq in Hok. specialize (H0 ltac:(apply nth_In; lia)). apply andb_true_iff in H0 as [A1 A2].
        apply Nat.eqb_eq in A1, A2. unfold branch in B.
        destruct (decide r _) as [[]|]; try discriminate; injection B as <-; assumption.
      + intros M T HT.
        rewrite (nth_map_seq (fun i => val (A := RA) M (argument [(v_T, [T] : list (num RA))])
          (formd [(v_T, 1)] [(v, s_NSP S)] s v i))) by exact Hk.
        fold e. change (val (A := RA) M (argument [(v_T, [T] : list (num RA))]) e)
          with (rval M (argument [(v_T, [T] : list (num RA))]) e).
        rewrite (arith_only_val M exact_libm _ _ Fa), (scaled_val (argument [(v_T, [T] : list (num RA))]) r e HT d l L), (only_poly_val _ _ P). reflexivity.
  Qed.

  Variable f : (nat -> R) -> R -> R.
  Hypothesis Hf : same_poly want f.

  Lemma ratio_pos k : (0 < species_W m k)%R -> (0 < gas_constant / species_W m k)%R.
  Proof. intros H. apply Rdiv_lt_0_compat; [|exact H]. unfold gas_constant. apply Q2R_pos. reflexivity. Qed.

  Lemma represents_val k c p a r T : (0 < species_W m k)%R -> represents k c p a ->
    branch r (species_nasa m k) = Some a -> inside r T -> (0 <= T)%R ->
    (Rabs (c * qeval p T - gas_constant / species_W m k * f (nasa_at (species_nasa m k) T) T) <=
     Q2R tol * (gas_constant / species_W m k * f (nasa_abs (species_nasa m k) T) T))%R.
  Proof.
    intros Wk (L7 & Fd & F) B R2 HT. apply (near_val tol1 _ _ _ T) in F; [|exact HT].
    destruct (Hf a T L7) as [F1 F2].
    pose proof (qsize_abs (want a) T HT) as A. rewrite F1, F2 in A, F.
    pose proof (ratio_pos k Wk) as Pc.
    assert (G : forall i, nasa_at (species_nasa m k) T i = Q2R (nth i a 0%Q)).
    { intros i. apply (branch_val r _ _ _ _ B R2). }
    assert (X : forall g g', (forall i, g i = g' i) -> f g T = f g' T).
    { intros g g' Hg. assert (HH : g = g'); [|rewrite HH; reflexivity].
      apply FunctionalExtensionality.functional_extensionality. exact Hg. }
    rewrite (X (nasa_at (species_nasa m k) T) (fun i => Q2R (nth i a 0%Q)) G).
    rewrite (X (nasa_abs (species_nasa m k) T) (fun i => Rabs (Q2R (nth i a 0%Q)))).
    2: { intros i. unfold nasa_abs. rewrite G. reflexivity. }
    rewrite tol_4. apply product_error; try assumption. exact tol1_range.
  Qed.

  Lemma nasa_value (M : libm RA) (T : R) : (0 < T)%R -> exists out : list R,
    (let* l := call (A := RA) M body [(v_T, [T])] [(v, s_NSP (library m))] [v] in only l) = Ok out /\
    length out = s_NSP (library m) /\
    forall k, k < s_NSP (library m) ->
      (0 < species_W m k)%R /\
      (Rabs (nth k out 0 - gas_constant / species_W m k * f (nasa_at (species_nasa m k) T) T) <=
       Q2R tol * (gas_constant / species_W m k * f (nasa_abs (species_nasa m k) T) T))%R.
  Proof.
    intros HT. destruct nasa_forms as (out & O & F). exists (out M T). destruct (O M T) as [O1 O2].
    split; [exact O1|]. split; [exact O2|]. intros k Hk. destruct (F k Hk) as [Wk G]. split; [exact Wk|].
    destruct (regions_cover [n_mid (species_nasa m k)] 0 T ltac:(rewrite Q2R_0; exact HT)) as (r & R1 & R2).
    destruct (G r R1) as (c & p & a & B & Rp & E). rewrite (E M T R2).
    apply (represents_val k c p a r T); try assumption. lra.
  Qed.
End Species.

(** ** The heat capacity is the derivative of the enthalpy *)

(** Derivative of a coefficient list, starting with the factor [i]. *)
Fixpoint derive_from (i : nat) (l : list R) : list R :=
  match l with [] => [] | a :: r => (INR i * a)%R :: derive_from (S i) r end.

Lemma peval_derive_aux l : forall i T,
  derivable_pt_lim (fun x => x ^ S i * peval l x)%R T (T ^ i * peval (derive_from (S i) l) T)%R.
Proof.
  induction l as [|a l IH]; intros i T; cbn [peval derive_from].
  - rewrite Rmult_0_r. apply (derivable_pt_lim_ext (fun _ => 0%R)); [intros; ring|]. apply derivable_pt_lim_const.
  - apply (derivable_pt_lim_ext (fun x => a * x ^ S i + x ^ S (S i) * peval l x)%R).
    { intros x. cbn [pow]. ring. }
    replace (T ^ i * (INR (S i) * a + T * peval (derive_from (S (S i)) l) T))%R
      with (a * (INR (S i) * T ^ i) + T ^ S i * peval (derive_from (S (S i)) l) T)%R by (cbn [pow]; ring).
    apply (derivable_pt_lim_plus (fun x => a * x ^ S i)%R (fun x => x ^ S (S i) * peval l x)%R).
    + apply (derivable_pt_lim_scal (fun x => x ^ S i)%R). apply (derivable_pt_lim_pow T (S i)).
    + apply (IH (S i)).
Qed.

Lemma peval_derive l T : derivable_pt_lim (peval l) T (peval (derive_from 1 (tl l)) T).
Proof.
  destruct l as [|a l]; cbn [tl].
  - apply (derivable_pt_lim_ext (fun _ => 0%R)); [reflexivity|]. apply derivable_pt_lim_const.
  - apply (derivable_pt_lim_ext (fun x => a + x ^ 1 * peval l x)%R).
    { intros x. cbn [peval pow]. ring. }
    replace (peval (derive_from 1 l) T) with (0 + T ^ 0 * peval (derive_from 1 l) T)%R by (cbn; ring).
    apply (derivable_pt_lim_plus (fun _ => a) (fun x => x ^ 1 * peval l x)%R).
    + apply derivable_pt_lim_const.
    + apply (peval_derive_aux l 0).
Qed.

Lemma near_derive eps a : forall b s i T, near eps a b s = true -> (0 <= T)%R ->
  (Rabs (peval (derive_from i (map Q2R a)) T - peval (derive_from i (map Q2R b)) T) <=
   Q2R eps * peval (derive_from i (map (fun q => Rabs (Q2R q)) s)) T)%R.
Proof.
  induction a as [|x a IH]; intros b s i T; destruct b as [|y b], s as [|z s]; cbn [near map derive_from peval]; try discriminate.
  - intros _ _. rewrite Rminus_0_r, Rabs_R0. lra.
  - intros H HT. apply andb_true_iff in H as [H1 H2]. specialize (IH b s (S i) T H2 HT).
    apply Qle_bool_iff, Qle_Rle in H1. rewrite Q2R_mult, !Q2R_abs, Q2R_qplus, Q2R_opp in H1.
    set (p := peval (derive_from (S i) (map Q2R a)) T) in *. set (q := peval (derive_from (S i) (map Q2R b)) T) in *.
    replace (INR i * Q2R x + T * p - (INR i * Q2R y + T * q))%R
      with (INR i * (Q2R x + - Q2R y) + T * (p - q))%R by ring.
    eapply Rle_trans; [apply Rabs_triang|]. rewrite !Rabs_mult, (Rabs_pos_eq T HT), (Rabs_pos_eq (INR i)) by apply pos_INR.
    apply (Rmult_le_compat_l T) in IH; [|exact HT]. apply (Rmult_le_compat_l (INR i)) in H1; [|apply pos_INR]. lra.
Qed.

Lemma near_tl eps a b s : near eps a b s = true -> near eps (tl a) (tl b) (tl s) = true.
Proof.
  destruct a, b, s; cbn; intros H; try discriminate; try reflexivity. apply andb_true_iff in H. apply H.
Qed.

Lemma map_tl {X Y} (f : X -> Y) l : tl (map f l) = map f (tl l).
Proof. destruct l; reflexivity. Qed.

Lemma h_derive a T : length a = 7 ->
  peval (derive_from 1 (map Q2R (tl (h_coeffs a)))) T = cp_R (fun i => Q2R (nth i a 0%Q)) T /\
  peval (derive_from 1 (map (fun q => Rabs (Q2R q)) (tl (h_coeffs a)))) T = cp_R (fun i => Rabs (Q2R (nth i a 0%Q))) T.
Proof.
  intros L. do 8 (destruct a as [|? a]; try discriminate). unfold cp_R.
  cbn [h_coeffs tl map derive_from peval nth].
  change 2%Q with (inject_Z 2). change 3%Q with (inject_Z 3). change 4%Q with (inject_Z 4). change 5%Q with (inject_Z 5).
  rewrite !Q2R_div_nat, !Rabs_div_pos by lra. cbn [INR]. split; field.
Qed.

(** The element [k] of a result as a function of the temperature. *)
Definition element (f : R -> outcome (list R)) (k : nat) (T : R) : R :=
  match f T with Ok l => nth k l 0%R | _ => 0%R end.

Lemma local_derive (f g : R -> R) T d r : (forall x, inside r x -> f x = g x) -> inside r T ->
  match r_hi r with Some h => T <> Q2R h | None => True end ->
  derivable_pt_lim g T d -> derivable_pt_lim f T d.
Proof.
  intros E [L U] N D eps He. destruct (D eps He) as [del Hd].
  set (w := match r_hi r with Some h => Rmin (T - Q2R (r_lo r)) (Q2R h - T) | None => (T - Q2R (r_lo r))%R end).
  assert (Hw : (0 < w)%R).
  { unfold w. destruct (r_hi r); [|lra]. apply Rmin_pos; lra. }
  exists (mkposreal (Rmin del w) (Rmin_pos _ _ (cond_pos del) Hw)). intros h Hh Ha. cbn in Ha.
  assert (A1 : (Rabs h < del)%R) by (eapply Rlt_le_trans; [exact Ha|apply Rmin_l]).
  assert (A2 : (Rabs h < w)%R) by (eapply Rlt_le_trans; [exact Ha|apply Rmin_r]).
  apply Rabs_def2 in A2 as [B1 B2].
  rewrite !E; [apply Hd; assumption|split; [lra|exact U]|].
  unfold inside. unfold w in *. destruct (r_hi r) as [q|]; [|split; [lra|exact I]].
  pose proof (Rmin_l (T - Q2R (r_lo r)) (Q2R q - T)). pose proof (Rmin_r (T - Q2R (r_lo r)) (Q2R q - T)). split; lra.
Qed.

Lemma cp_all m : nasa_ok m (s_eval_cp (library m)) v_cp cp_coeffs = true.
Proof. destruct m; vm_compute; reflexivity. Qed.

Lemma h_all m : nasa_ok m (s_eval_h (library m)) v_h h_coeffs = true.
Proof. destruct m; vm_compute; reflexivity. Qed.

Theorem cp_value m (M : libm RA) (T : R) : (0 < T)%R -> exists cp : list R,
  lib_eval_cp M (library m) T = Ok cp /\ length cp = s_NSP (library m) /\
  forall k, k < s_NSP (library m) -> (0 < species_W m k)%R /\
    (Rabs (nth k cp 0 - gas_constant / species_W m k * cp_R (nasa_at (species_nasa m k) T) T) <=
     Q2R tol * (gas_constant / species_W m k * cp_R (nasa_abs (species_nasa m k) T) T))%R.
Proof. apply (nasa_value m _ v_cp cp_coeffs (cp_all m) ltac:(discriminate) cp_R cp_same). Qed.

Theorem h_value m (M : libm RA) (T : R) : (0 < T)%R -> exists h : list R,
  lib_eval_h M (library m) T = Ok h /\ length h = s_NSP (library m) /\
  forall k, k < s_NSP (library m) -> (0 < species_W m k)%R /\
    (Rabs (nth k h 0 - gas_constant / species_W m k * h_R (nasa_at (species_nasa m k) T) T) <=
     Q2R tol * (gas_constant / species_W m k * h_R (nasa_abs (species_nasa m k) T) T))%R.
Proof. apply (nasa_value m _ v_h h_coeffs (h_all m) ltac:(discriminate) h_R h_same). Qed.

Theorem h_slope m (M : libm RA) (T : R) k : (0 < T)%R -> k < s_NSP (library m) ->
  T <> Q2R (n_mid (species_nasa m k)) ->
  exists d, derivable_pt_lim (element (lib_eval_h M (library m)) k) T d /\
    (Rabs (d - gas_constant / species_W m k * cp_R (nasa_at (species_nasa m k) T) T) <=
     Q2R tol * (gas_constant / species_W m k * cp_R (nasa_abs (species_nasa m k) T) T))%R.
Proof.
  intros HT Hk HN.
  destruct (nasa_forms m _ v_h h_coeffs (h_all m) ltac:(discriminate)) as (out & O & F).
  destruct (F k Hk) as [Wk G].
  destruct (regions_cover [n_mid (species_nasa m k)] 0 T ltac:(rewrite Q2R_0; exact HT)) as (r & R1 & R2).
  destruct (G r R1) as (c & p & a & B & (L7 & Fc & Fp) & E).
  exists (c * peval (derive_from 1 (tl (map Q2R p))) T)%R. split.
  - apply (local_derive _ (fun x => c * qeval p x)%R T _ r).
    + intros x Hx. destruct (O M x) as [Ox _].
      assert (Ex : lib_eval_h M (library m) x = Ok (out M x)) by exact Ox. unfold element. rewrite Ex. apply E, Hx.
    + exact R2.
    + destruct R1 as [<-|[<-|[]]]; cbn; [exact HN|exact I].
    + apply (derivable_pt_lim_scal (qeval p)). apply (peval_derive (map Q2R p)).
  - rewrite map_tl. apply near_tl in Fp. apply (near_derive tol1 _ _ _ 1 T) in Fp; [|lra].
    destruct (h_derive a T L7) as [D1 D2]. rewrite D1, D2 in Fp.
    pose proof (ratio_pos m k Wk) as Pc.
    assert (G1 : forall i, nasa_at (species_nasa m k) T i = Q2R (nth i a 0%Q)) by (intros i; apply (branch_val r _ _ _ _ B R2)).
    unfold nasa_abs. unfold cp_R in *. rewrite !G1. rewrite tol_4.
    apply product_error; [exact Pc|exact tol1_range|exact Fc|exact Fp|].
    destruct (cp_same a T L7) as [S1 S2]. unfold cp_R in S1, S2. rewrite <- S1, <- S2. apply qsize_abs. lra.
Qed.
