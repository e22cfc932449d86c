(** [eval_jacob]: the temperature column as sums over the reactions of chem.cti.
    The definitions below are not functions of /repo. *)
From Coq Require Import List ZArith NArith QArith Qabs Qreals Reals Bool Lra Lia.
From Verif Require Import Outcome Arith MechLang MechSym MechSrc MechCall MechReal MechPoly MechChem Mechanisms
  MechSpec MechRate MechPmod MechThermo MechDydt MechRhs MechData MechExp MechLaurent MechNasa MechKin MechArr MechJac.
Import ListNotations.
Local Open Scope nat_scope.

(** ** Sums of products *)

(** Changes the sign of a coefficient. *)
Definition opp_term (t : Q * mono) : Q * mono := ((- fst t)%Q, snd t).

(** Product of two terms. *)
Definition mul_term (t u : Q * mono) : Q * mono := ((fst t * fst u)%Q, snd t ++ snd u).

(** Expansion of a closed form in a sum of products; terms are not collected. *)
Fixpoint expand (e : expr) : poly :=
  match e with
  | Num q => if (Qnum q =? 0)%Z then [] else [(q, [])]
  | Neg a => map opp_term (expand a)
  | Add a b => expand a ++ expand b
  | Sub a b => expand a ++ map opp_term (expand b)
  | Mul a b => flat_map (fun t => map (mul_term t) (expand b)) (expand a)
  | Div a b =>
      match b with
      | Ref v i => map (fun t => (fst t, Div (Num 1) (Ref v i) :: snd t)) (expand a)
      | _ => [(1%Q, [e])]
      end
  | _ => [(1%Q, [e])]
  end.

(** Removes a term with the given factors and about the given coefficient. *)
Fixpoint premove (eps : Q) (t : Q * mono) (p : poly) : option poly :=
  match p with
  | [] => None
  | u :: r =>
      if Qle_bool (Qabs (fst u - fst t)) (eps * Qabs (fst t)) && mono_eqb (snd u) (snd t) then Some r
      else match premove eps t r with Some r' => Some (u :: r') | None => None end
  end.

(** The same terms in any order, with coefficients that agree up to [eps]. *)
Fixpoint pnear (eps : Q) (p q : poly) : bool :=
  match q with
  | [] => match p with [] => true | _ => false end
  | t :: r => match premove eps t p with Some p' => pnear eps p' r | None => false end
  end.

Section Terms.
  Variable M : libm RA.
  Variable rho : var -> N -> R.
  Notation rval := (rval M rho).
  Notation pval := (pval M rho).
  Notation mval := (mval M rho).
  Local Open Scope R_scope.

  (** Sum of the absolute values of the terms. *)
  Definition psize (p : poly) : R := Rsum (map (fun t => Rabs (Q2R (fst t)) * Rabs (mval (snd t))) p).

  (** The value with all numbers replaced by their absolute values and differences by sums. *)
  Fixpoint aval (e : expr) : R :=
    match e with
    | Num q => Rabs (Q2R q)
    | Neg a => aval a
    | Add a b | Sub a b => aval a + aval b
    | Mul a b => aval a * aval b
    | Div a b => match b with Ref v i => aval a / Rabs (rho v i) | _ => Rabs (rval e) end
    | _ => Rabs (rval e)
    end.

  Lemma pval_opp p : pval (map opp_term p) = - pval p.
  Proof. unfold MechPoly.pval. induction p as [|t p IH]; cbn [map Rsum fst snd opp_term]; [ring|]. rewrite IH, Q2R_opp. ring. Qed.

  Lemma pval_appl p q : pval (p ++ q) = pval p + pval q.
  Proof. unfold MechPoly.pval. rewrite map_app, Rsum_app. reflexivity. Qed.

  Lemma pval_mul1 t q : pval (map (mul_term t) q) = Q2R (fst t) * mval (snd t) * pval q.
  Proof.
    unfold MechPoly.pval. induction q as [|u q IH]; cbn [map Rsum mul_term fst snd]; [ring|].
    rewrite IH, Q2R_mult, mval_app. ring.
  Qed.

  Lemma pval_mul p q : pval (flat_map (fun t => map (mul_term t) q) p) = pval p * pval q.
  Proof.
    induction p as [|t p IH]; [unfold MechPoly.pval; cbn; ring|].
    cbn [flat_map]. rewrite pval_appl, IH, pval_mul1. unfold MechPoly.pval. cbn [map Rsum]. ring.
  Qed.

  Lemma mval_inv v i l : mval (Div (Num 1) (Ref v i) :: l) = / rho v i * mval l.
  Proof.
    unfold MechPoly.mval. cbn [map Rprod]. change (rval (Div (Num 1) (Ref v i))) with (Q2R 1 / rho v i). rewrite Q2R_1.
    unfold Rdiv. ring.
  Qed.

  Lemma pval_div v i l : pval (map (fun t => (fst t, Div (Num 1) (Ref v i) :: snd t)) l) = pval l / rho v i.
  Proof.
    induction l as [|t l IH]; [unfold MechPoly.pval; cbn; unfold Rdiv; ring|].
    cbn [map]. rewrite !pval_cons, IH. cbn [fst snd]. rewrite mval_inv. unfold Rdiv. rewrite Rmult_plus_distr_r, Rmult_assoc. rewrite (Rmult_comm (/ _) (mval _)). reflexivity.
  Qed.

  Lemma expand_val e : pval (expand e) = rval e.
  Proof.
    assert (atom : forall e, pval [(1%Q, [e])] = rval e).
    { intros. unfold MechPoly.pval, MechPoly.mval. cbn [map fst snd Rsum Rprod]. rewrite Q2R_1. ring. }
    induction e; cbn [expand]; try apply atom.
    - destruct (Qnum q =? 0)%Z eqn:Z; [change (rval (Num q)) with (Q2R q); rewrite (Qnum_0 _ Z); reflexivity|].
      unfold MechPoly.pval, MechPoly.mval. cbn [map fst snd Rsum Rprod]. change (rval (Num q)) with (Q2R q). ring.
    - rewrite pval_opp, IHe. change (rval (Neg e)) with (Q2R (-1) * rval e). rewrite Q2R_m1. ring.
    - rewrite pval_appl, IHe1, IHe2. reflexivity.
    - rewrite pval_appl, pval_opp, IHe1, IHe2. change (rval (Sub e1 e2)) with (rval e1 - rval e2). ring.
    - rewrite pval_mul, IHe1, IHe2. reflexivity.
    - destruct e2; try apply atom. change (rval (Div e1 (Ref v i))) with (rval e1 / rho v i). rewrite <- IHe1.
      apply pval_div.
  Qed.

  Lemma psize_opp p : psize (map opp_term p) = psize p.
  Proof.
    unfold psize. induction p as [|t p IH]; cbn [map Rsum fst snd opp_term]; [reflexivity|]. rewrite IH, Q2R_opp, Rabs_Ropp.
    reflexivity.
  Qed.

  Lemma psize_app p q : psize (p ++ q) = psize p + psize q.
  Proof. unfold psize. rewrite map_app, Rsum_app. reflexivity. Qed.

  Lemma psize_mul1 t q : psize (map (mul_term t) q) = Rabs (Q2R (fst t)) * Rabs (mval (snd t)) * psize q.
  Proof.
    unfold psize. induction q as [|u q IH]; cbn [map Rsum mul_term fst snd]; [ring|].
    rewrite IH, Q2R_mult, mval_app, !Rabs_mult. ring.
  Qed.

  Lemma psize_mul p q : psize (flat_map (fun t => map (mul_term t) q) p) = psize p * psize q.
  Proof.
    induction p as [|t p IH]; [unfold psize; cbn; ring|].
    cbn [flat_map]. rewrite psize_app, IH, psize_mul1. unfold psize. cbn [map Rsum]. ring.
  Qed.

  Lemma psize_cons t p : psize (t :: p) = Rabs (Q2R (fst t)) * Rabs (mval (snd t)) + psize p.
  Proof. reflexivity. Qed.

  Lemma psize_div v i l : psize (map (fun t => (fst t, Div (Num 1) (Ref v i) :: snd t)) l) = psize l / Rabs (rho v i).
  Proof.
    induction l as [|t l IH]; [unfold psize; cbn; unfold Rdiv; ring|].
    cbn [map]. rewrite !psize_cons, IH. cbn [fst snd]. rewrite mval_inv, Rabs_mult, Rabs_inv. unfold Rdiv.
    rewrite Rmult_plus_distr_r, Rmult_assoc. rewrite (Rmult_comm (/ _) (Rabs (mval _))). reflexivity.
  Qed.

  Lemma psize_expand e : psize (expand e) = aval e.
  Proof.
    assert (atom : forall e, psize [(1%Q, [e])] = Rabs (rval e)).
    { intros. unfold psize, MechPoly.mval. cbn [map fst snd Rsum Rprod]. rewrite Q2R_1, Rabs_R1, Rmult_1_r. ring. }
    induction e; cbn [expand aval]; try apply atom.
    - destruct (Qnum q =? 0)%Z eqn:Z; [rewrite (Qnum_0 _ Z), Rabs_R0; reflexivity|].
      unfold psize, MechPoly.mval. cbn [map fst snd Rsum Rprod]. rewrite Rabs_R1. ring.
    - rewrite psize_opp, IHe. reflexivity.
    - rewrite psize_app, IHe1, IHe2. reflexivity.
    - rewrite psize_app, psize_opp, IHe1, IHe2. reflexivity.
    - rewrite psize_mul, IHe1, IHe2. reflexivity.
    - destruct e2; try apply atom. rewrite <- IHe1.
      apply psize_div.
  Qed.

  Lemma premove_val eps t p p' : premove eps t p = Some p' ->
    exists c, Rabs (c - Q2R (fst t)) <= Q2R eps * Rabs (Q2R (fst t)) /\ pval p = c * mval (snd t) + pval p'.
  Proof.
    revert p'. induction p as [|u p IH]; intros p'; cbn [premove]; [discriminate|].
    destruct (Qle_bool (Qabs (fst u - fst t)) (eps * Qabs (fst t)) && mono_eqb (snd u) (snd t)) eqn:E.
    - intros [= <-]. apply andb_true_iff in E as [E1 E2]. apply Qle_bool_iff, Qle_Rle in E1.
      rewrite Q2R_mult, !Q2R_abs, Q2R_minus in E1. apply (mono_eqb_val M rho) in E2.
      exists (Q2R (fst u)). split; [exact E1|]. unfold MechPoly.pval. cbn [map Rsum]. rewrite E2. reflexivity.
    - destruct (premove eps t p) as [r|] eqn:P; [|discriminate]. intros [= <-].
      destruct (IH r eq_refl) as (c & C1 & C2). exists c. split; [exact C1|].
      unfold MechPoly.pval in *. cbn [map Rsum]. rewrite C2. ring.
  Qed.

  Lemma pnear_val eps q : forall p, pnear eps p q = true -> Rabs (pval p - pval q) <= Q2R eps * psize q.
  Proof.
    induction q as [|t q IH]; intros p; cbn [pnear].
    - destruct p; [|discriminate]. intros _. unfold MechPoly.pval, psize. cbn. rewrite Rminus_0_r, Rabs_R0. lra.
    - destruct (premove eps t p) as [p'|] eqn:E; [|discriminate]. intros H. apply premove_val in E as (c & C1 & C2).
      specialize (IH p' H). rewrite C2. unfold MechPoly.pval at 2. cbn [map Rsum]. fold (MechPoly.pval M rho q).
      unfold psize. cbn [map Rsum]. fold (psize q).
      replace (c * mval (snd t) + pval p' - (Q2R (fst t) * mval (snd t) + pval q))
        with ((c - Q2R (fst t)) * mval (snd t) + (pval p' - pval q)) by ring.
      eapply Rle_trans; [apply Rabs_triang|]. rewrite Rabs_mult.
      apply (Rmult_le_compat_r (Rabs (mval (snd t))) _ _ (Rabs_pos _)) in C1. lra.
  Qed.
End Terms.

(** ** The contribution of a reaction *)

(** Integer as a number. *)
Definition qnat (n : nat) : Q := inject_Z (Z.of_nat n).

(** Sum of [dBdT] over the molecules formed minus those used. *)
Definition dB_net (m : mechanism) (i : nat) : expr :=
  fold_right (fun k e => if (Qnum (net (rxn (chem m) i) k) =? 0)%Z then e
                         else Add (Mul (Num (net (rxn (chem m) i) k)) (Ref v_dBdT (N.of_nat k))) e)
    (Num 0) (seq 0 (s_NSP (library m))).

(** Forward rate, reverse rate and pressure modification of reaction [i]. *)
Definition e_fwd (i : nat) : expr := Ref v_fwd_rates (N.of_nat i).

(** Reverse rate. *)
Definition e_rev (m : mechanism) (i : nat) : expr := Ref v_rev_rates (N.of_nat (rank rx_rev (ch_reactions (chem m)) i)).

(** Pressure modification. *)
Definition e_pm (m : mechanism) (i : nat) : expr := Ref v_pres_mod (N.of_nat (rank pdep (ch_reactions (chem m)) i)).

(** Temperature. *)
Definition e_T : expr := Ref v_T 0.

(** T times the derivative of (f - r)/rho with respect to T, times rho: f and r are products of
    concentrations (proportional to 1/T) and rate constants. *)
Definition e_base (m : mechanism) (i : nat) : expr :=
  let r := rxn (chem m) i in
  let a := k_high (kin m i) in
  let slope := Add (Num (a_b a)) (Div (Num (qact a)) e_T) in
  let nf := (1 - qnat (molecules (rx_lhs r)))%Q in
  let nr := (1 - qnat (molecules (rx_rhs r)))%Q in
  if rx_rev r
  then Sub (Add (Mul (Sub (e_fwd i) (e_rev m i)) slope) (Mul (e_fwd i) (Num nf)))
         (Mul (e_rev m i) (Sub (Num nr) (Mul e_T (dB_net m i))))
  else Mul (e_fwd i) (Add slope (Num nf)).

(** Net rate without pressure modification. *)
Definition e_net (m : mechanism) (i : nat) : expr :=
  if rx_rev (rxn (chem m) i) then Sub (e_fwd i) (e_rev m i) else e_fwd i.

(** Derivative of the rate of progress over rho. *)
Definition e_contrib (m : mechanism) (i : nat) : expr :=
  Div
    match rx_kind (rxn (chem m) i) with
    | ThreeBody => Sub (Div (Mul (e_pm m i) (e_base m i)) e_T) (Div (Mul (e_pm m i) (e_net m i)) e_T)
    | _ => Div (e_base m i) e_T
    end (Ref v_rho 0).

(** ** Checks *)

(** A sum as its first term and the others. *)
Fixpoint chain (e : expr) (acc : list expr) : expr * list expr :=
  match e with Add a b => chain a (b :: acc) | _ => (e, acc) end.

(** The first term is the old value. *)
Definition summands (v : var) (k : nat) (e : expr) : bool * list expr :=
  let (x, l) := chain e [] in
  if expr_eqb x (Ref v (N.of_nat k)) then (true, l) else (false, x :: l).

(** Reactions in which species [k] takes part. *)
Definition involved (m : mechanism) (k first count : nat) : list nat :=
  filter (fun i => negb (Qnum (net (rxn (chem m) i) k) =? 0)%Z) (seq first count).

(** Coefficient of a contribution: molecules formed times molecular weight; [ws] are the weights. *)
Definition coef (m : mechanism) (ws : list Q) (k i : nat) : Q := (net (rxn (chem m) i) k * nth k ws 0)%Q.

(** *** Fall-off reactions *)

(** Left operand. *)
Definition opl (e : expr) : expr :=
  match e with Add a _ | Sub a _ | Mul a _ | Div a _ => a | _ => Num 0 end.

(** Right operand. *)
Definition opr (e : expr) : expr :=
  match e with Add _ b | Sub _ b | Mul _ b | Div _ b => b | _ => Num 0 end.

(** Value of a literal. *)
Definition lit_of (e : expr) : Q := match e with Num q => q | _ => 0%Q end.

(** Two numbers agree up to a relative error. *)
Definition qclose (eps x y : Q) : bool := Qle_bool (Qabs (qplus x (- y))) (eps * Qabs y).

(** Sum of the concentrations with the efficiencies, with [m] for the sum of all concentrations. *)
Definition third_polyJ (n : nat) (r : reaction) : poly :=
  (1%Q, [Ref v_m 0]) ::
  flat_map (fun k => if Qeq_bool (efficiency r k) 1 then []
                     else [((efficiency r k - 1)%Q, [Ref v_conc (N.of_nat k)])]) (seq 0 n).

(** Form of the logarithm of the ratio of the rate constants at low and at high pressure. *)
Definition ratio_ok (low high : arrhenius) (l : laurent) : bool :=
  Qeq_bool (l_log l) (a_b low - a_b high) &&
  Qle_bool (Qabs (qplus (l_inv l) (qplus (qact low) (- qact high)))) (tolE * (Qabs (qact low) + Qabs (qact high))) &&
  match constant (mkLau 0 0 (l_poly l)) with
  | Some q => exp_close tolA (a_A high * 1000) q (a_A low)
  | None => false
  end.

(** T times the derivative of the logarithm of the reduced pressure. *)
Definition e_lp (q1 q2 : Q) : expr := Sub (Add (Num q1) (Div (Num q2) e_T)) (Num 1.0).

(** An expression of this form agrees with the form of the ratio. *)
Definition lp_ok (l : laurent) (e : expr) : bool :=
  let q1 := lit_of (opl (opl e)) in
  let q2 := lit_of (opl (opr (opl e))) in
  expr_eqb e (e_lp q1 q2) && qclose tolE q1 (l_log l) && qclose tolE q2 (- l_inv l).

(** The reduced pressure. *)
Definition pr_okJ (m : mechanism) (i : nat) (pr lp : expr) : bool :=
  match pr, k_low (kin m i) with
  | Mul thd (Exp x), Some low =>
      peqb (norm thd) (third_polyJ (s_NSP (library m)) (rxn (chem m) i)) &&
      match lin anyT x with
      | Some l => ratio_ok low (k_high (kin m i)) l && lp_ok l lp
      | None => false
      end
  | _, _ => false
  end.

(** The number at which the logarithms are cut off. *)
Definition cut : Q := Eval vm_compute in 1.0e-300%Q.

(** Decimal logarithm, cut off. *)
Definition e_log (e : expr) : expr := Log10 (Fmax e (Num cut)).

(** A of the Troe function. *)
Definition e_A (pr fc : expr) : expr := Sub (Sub (e_log pr) (Mul (Num 0.67) (e_log fc))) (Num 0.4).

(** B of the Troe function. *)
Definition e_B (pr fc : expr) : expr := Sub (Sub (Num 0.806) (Mul (Num 1.1762) (e_log fc))) (Mul (Num 0.14) (e_log pr)).

(** 1 + (A/B)^2. *)
Definition e_D (pr fc : expr) : expr :=
  Add (Num 1.0) (Div (Mul (e_A pr fc) (e_A pr fc)) (Mul (e_B pr fc) (e_B pr fc))).

(** 2 ln(Fcent) A / (B^3 (1 + (A/B)^2)^2). *)
Definition e_L (pr fc : expr) : expr :=
  Div (Mul (Mul (Num 2.0) (Log (Fmax fc (Num cut)))) (e_A pr fc))
    (Mul (Mul (Mul (Mul (e_B pr fc) (e_B pr fc)) (e_B pr fc)) (e_D pr fc)) (e_D pr fc)).

(** Derivative of the logarithm of the fall-off factor with broadening. *)
Definition e_X (c1 c2 c3 c4 : Q) (pr lp lp' fc dfc : expr) : expr :=
  Sub (Add (Div lp (Mul e_T (Add (Num 1.0) pr)))
         (Mul (Sub (Div (Num 1.0) (Mul fc (e_D pr fc)))
                 (Div (Mul (e_L pr fc) (Add (Mul (Num c1) (e_B pr fc)) (Mul (Num c2) (e_A pr fc)))) fc)) dfc))
    (Div (Mul (Mul (e_L pr fc) (Add (Mul (Num c3) (e_B pr fc)) (Mul (Num c4) (e_A pr fc)))) lp') e_T).

(** 1/ln 10. *)
Definition inv_ln10 : Q := 0.43429448190325182765.

(** Centre with coefficients [a1], [a2] and literals [n3], [n1], [n2] in the exponents. *)
Definition e_fc (a1 n3 a2 n1 : Q) (n2 : option Q) : expr :=
  let x := Add (Mul (Num a1) (Exp (Div e_T (Num n3)))) (Mul (Num a2) (Exp (Div e_T (Num n1)))) in
  match n2 with Some n => Add x (Exp (Div (Num n) e_T)) | None => x end.

(** Its derivative. *)
Definition e_dfc (d1 n3 d2 n1 d3 : Q) (n2 : option Q) : expr :=
  let x := Sub (Mul (Num d1) (Exp (Div e_T (Num n3)))) (Mul (Num d2) (Exp (Div e_T (Num n1)))) in
  match n2 with Some n => Add x (Mul (Div (Num d3) (Mul e_T e_T)) (Exp (Div (Num n) e_T))) | None => x end.

(** The expression under an exponential. *)
Definition inner (e : expr) : expr := match e with Exp x => x | _ => Num 0 end.

(** Literals of a centre: coefficients and denominators of the first two terms, numerator of the third. *)
Definition centre_lits (e : expr) : Q * Q * Q * Q * option Q :=
  let two x := (lit_of (opl (opl x)), lit_of (opr (inner (opr (opl x)))), lit_of (opl (opr x)), lit_of (opr (inner (opr (opr x))))) in
  match e with
  | Add x (Exp y) => (two x, Some (lit_of (opl y)))
  | _ => (two e, None)
  end.

(** A centre and its derivative, given the parameters of chem.cti. *)
Definition centre_okJ (t : troe) (fc dfc : expr) : bool :=
  match centre_lits fc with
  | (a1, n3, a2, n1, n2) =>
      let two := match n2 with Some _ => opl dfc | None => dfc end in
      let d1 := lit_of (opl (opl two)) in
      let d2 := lit_of (opl (opr two)) in
      let d3 := lit_of (opl (opl (opr dfc))) in
      expr_eqb fc (e_fc a1 n3 a2 n1 n2) && expr_eqb dfc (e_dfc d1 n3 d2 n1 d3 n2) &&
      Qle_bool (Qabs (qplus a1 (t_A t - 1))) tolE && qclose tolE a2 (t_A t) && qclose tolE n3 (- t_T3 t) && qclose tolE n1 (- t_T1 t) &&
      negb (Qnum n3 =? 0)%Z && negb (Qnum n1 =? 0)%Z &&
      qclose tolE (d1 * n3) a1 && qclose tolE (d2 * n1) (- a2) &&
      match n2, t_T2 t with
      | Some n, Some q => qclose tolE n (- q) && qclose tolE d3 (- n)
      | None, None => true
      | _, _ => false
      end
  end.

(** Half of the tolerance. *)
Definition tolH : Q := Eval vm_compute in Qred (tolE / 2).

(** Expression for the derivative of the logarithm of the fall-off factor. *)
Definition x_ok (m : mechanism) (i : nat) (e : expr) : bool :=
  match k_troe (kin m i) with
  | None =>
      let lp := opl e in
      let pr := opr (opr (opr e)) in
      expr_eqb e (Div lp (Mul e_T (Add (Num 1.0) pr))) && pr_okJ m i pr lp
  | Some t =>
      let lp := opl (opl (opl e)) in
      let pr := opr (opr (opr (opl (opl e)))) in
      let b := opr (opl e) in
      let dfc := opr b in
      let fc := opr (opr (opl b)) in
      let s := opr (opl (opr (opl b))) in
      let u := opl (opr e) in
      let lp' := opr u in
      let s' := opr (opl u) in
      let c1 := lit_of (opl (opl s)) in
      let c2 := lit_of (opl (opr s)) in
      let c3 := lit_of (opl (opl s')) in
      let c4 := lit_of (opl (opr s')) in
      expr_eqb e (e_X c1 c2 c3 c4 pr lp lp' fc dfc) && pr_okJ m i pr lp && pr_okJ m i pr lp' && centre_okJ t fc dfc &&
      qclose tolH c1 (- 0.67 * inv_ln10) && qclose tolH c2 (1.1762 * inv_ln10) &&
      qclose tolH c3 inv_ln10 && qclose tolH c4 (0.14 * inv_ln10)
  end.

(** Contribution of a fall-off reaction, given the derivative of the logarithm of the fall-off factor. *)
Definition e_fall (m : mechanism) (i : nat) (x base : expr) : expr :=
  Mul (Add (Mul (Mul (e_pm m i) x) (e_net m i)) (Mul (Div (e_pm m i) e_T) base)) (Div (Num 1.0) (Ref v_rho 0)).

(** An expression is the contribution of the fall-off reaction [i]. *)
Definition fall_ok (m : mechanism) (i : nat) (e : expr) : bool :=
  let x := opr (opl (opl (opl e))) in
  let base := opr (opr (opl e)) in
  expr_eqb e (e_fall m i x base) && pnear tolE (expand base) (expand (e_base m i)) && x_ok m i x.

(** An expression is the contribution of reaction [i]. *)
Definition term_ok (m : mechanism) (i : nat) (e : expr) : bool :=
  match rx_kind (rxn (chem m) i) with
  | Falloff => fall_ok m i e
  | _ => pnear tolE (expand e) (expand (e_contrib m i))
  end.

(** A literal. *)
Definition num_of (e : expr) : option Q := match e with Num q => Some q | _ => None end.

(** Literal factor and the rest of a product. *)
Fixpoint strip (e : expr) : Q * expr :=
  match e with
  | Neg a => ((- fst (strip a))%Q, snd (strip a))
  | Mul a b =>
      match num_of a, num_of b with
      | Some q, _ => ((q * fst (strip b))%Q, snd (strip b))
      | None, Some q => ((q * fst (strip a))%Q, snd (strip a))
      | None, None => (1%Q, e)
      end
  | _ => (1%Q, e)
  end.

(** Pairs of elements of lists of the same length. *)
Fixpoint zip {X Y} (a : list X) (b : list Y) : option (list (X * Y)) :=
  match a, b with
  | [], [] => Some []
  | x :: a', y :: b' => match zip a' b' with Some l => Some ((x, y) :: l) | None => None end
  | _, _ => None
  end.

(** The summands of entry [k + 1] with their reactions; in a function that does not start from the old
    value the reactions before must not involve the species. *)
Definition entry_terms (m : mechanism) (first count k : nat) (e : expr) : option (list (nat * expr)) :=
  let (b, l) := summands v_jac (k + 1) e in
  if b || (length (involved m k 0 first) =? 0) then zip (involved m k first count) l else None.

(** The first expression that belongs to reaction [i]. *)
Definition find_j (l : list (nat * list (nat * expr))) (i : nat) : expr :=
  match find (fun t => fst t =? i) (flat_map snd l) with Some t => snd (strip (snd t)) | None => Num 0 end.

(** Shape of the arguments of eval_jacob_*. *)
Definition part_sh (S : source) : list (var * nat) :=
  [(v_T, 1); (v_pres, 1); (v_conc, s_NSP S); (v_fwd_rates, s_fwd S); (v_rev_rates, s_rev S); (v_pres_mod, s_pmod S);
   (v_spec_rates, s_NSP S); (v_m, 1); (v_mw_avg, 1); (v_rho, 1); (v_dBdT, s_NSP S); (v_jac, s_NSP S);
   (v_J_nplusone, 1)].

(** The function eval_jacob_* adds to every entry multiples of one expression per reaction. *)
Definition part_terms (m : mechanism) (first count : nat) (s : smem) : list (nat * list (nat * expr)) :=
  map (fun k => (k, match entry_terms m first count k (formd (part_sh (library m)) part_locals s v_jac (k + 1)) with
                    | Some l => l | None => [] end)) (seq 0 (s_NSP (library m) - 1)).

(** Those expressions. *)
Definition part_js (m : mechanism) (first count : nat) (s : smem) : list expr :=
  let L := part_terms m first count s in map (find_j L) (seq first count).

(** Check of a function eval_jacob_*. *)
Definition part_ok (m : mechanism) (ws : list Q) (first count : nat) (body : list stmt) : bool :=
  match symbolic (part_sh (library m)) part_locals body with
  | None => false
  | Some s =>
      let J := part_js m first count s in
      all_forms (part_sh (library m)) part_locals s v_J_nplusone (fun _ _ => true) &&
      all_forms (part_sh (library m)) part_locals s v_jac
        (fun k e =>
           match k with
           | O => true
           | S k' =>
               match entry_terms m first count k' e with
               | Some l => forallb (fun t => let (c, j) := strip (snd t) in
                                             Qeq_bool c (coef m ws k' (fst t)) && expr_eqb j (nth (fst t - first) J (Num 0))) l
               | None => false
               end
           end) &&
      forallb (fun t => term_ok m (fst t) (snd t)) (combine (seq first count) J)
  end.

(** All functions. *)
Fixpoint parts_ok (m : mechanism) (ws : list Q) (first : nat) (l : list (nat * list stmt)) : bool :=
  match l with
  | [] => first =? length (ch_reactions (chem m))
  | p :: r => part_ok m ws first (fst p) (snd p) && parts_ok m ws (first + fst p) r
  end.

Lemma parts_all m : parts_ok m (dydt_weights (library m) nitrogen) 0 (j_parts (jac_T m)) = true.
Proof. destruct m; vm_compute; reflexivity. Qed.

(** ** The array dBdT *)

(** Shape of the arguments of the first statements of [eval_jacob]. *)
Definition head_sh (S : source) : list (var * nat) := [(v_T, 1); (v_pres, 1); (v_dBdT, s_NSP S)].

(** Local variables of the first statements. *)
Definition head_locals : list (var * nat) := [(v_m, 1); (v_logT, 1)].

(** A species takes part in a reversible reaction. *)
Definition reversible (m : mechanism) (k : nat) : bool :=
  existsb (fun r => rx_rev r && negb (Qnum (net r k) =? 0)%Z) (ch_reactions (chem m)).

(** T times a form (c0 + c5/T)/T + c1 + T*(...). *)
Definition T_times (r : region) (e : expr) : option laurent :=
  match e with
  | Add (Add (Div a t) c) b =>
      if is_T t then
        match lin r a, lin r (Add c b) with
        | Some x, Some y => if only_poly y then Some (lau_add x (mkLau 0 0 (0%Q :: l_poly y))) else None
        | _, _ => None
        end
      else None
  | _ => None
  end.

(** 60 times h/(R T) - 1. *)
Definition dB_lau (a : list Q) : laurent :=
  match a with
  | [a0; a1; a2; a3; a4; a5; a6] =>
      mkLau 0 (60 * a5) [60 * qplus a0 (-1); 30 * a1; 20 * a2; 15 * a3; 12 * a4]%Q
  | _ => mkLau 0 0 []
  end.

(** 60 times the sizes of its terms. *)
Definition dB_scale (a : list Q) : laurent :=
  match a with
  | [a0; a1; a2; a3; a4; a5; a6] =>
      mkLau 0 (60 * Qabs a5) [60 * qplus (Qabs a0) 1; 30 * Qabs a1; 20 * Qabs a2; 15 * Qabs a3; 12 * Qabs a4]%Q
  | _ => mkLau 0 0 []
  end.

(** The case of a conditional that holds on an interval. *)
Definition case_of (r : region) (e : expr) : option expr :=
  match e with
  | Ite a (Num q) t f =>
      if is_T a then match decide r q with Some true => Some t | Some false => Some f | None => None end else None
  | _ => None
  end.

(** A closed form of dBdT is that of the NASA polynomial. *)
Definition dB_ok (n : nasa7) (e : expr) : bool :=
  forallb (fun r =>
    match branch r n, case_of r e with
    | Some a, Some e' =>
        match T_times r e' with
        | Some l => (length a =? 7) && lau_near tolE (lau_scale 60 l) (dB_lau a) (dB_scale a)
        | None => false
        end
    | _, _ => false
    end) (pieces n).

(** The first statements of [eval_jacob]. *)
Definition head_ok (m : mechanism) : bool :=
  match symbolic (head_sh (library m)) head_locals (j_head (jac_T m)) with
  | None => false
  | Some s =>
      all_forms (head_sh (library m)) head_locals s v_m (fun _ e => expr_eqb e total_form) &&
      let N := common_all (nasa m) in
      all_forms (head_sh (library m)) head_locals s v_dBdT
        (fun k e => negb (reversible m k) || dB_ok (nth k N (mkNasa 0 [] [])) e)
  end.

Lemma head_all m : head_ok m = true.
Proof. destruct m; vm_compute; reflexivity. Qed.
