(** [eval_jacob] of drm19: the columns of the species as sums over the reactions of chem.cti.
    The definitions below are not functions of /repo. *)
From Coq Require Import List ZArith NArith QArith Qabs Qreals Reals Bool Lra Lia.
From Verif Require Import Outcome Arith MechLang MechSym MechSrc MechCall MechReal MechPoly MechChem Mechanisms
  MechSpec MechRate MechPmod MechThermo MechConc MechDydt MechRhs MechData MechExp MechLaurent MechNasa MechKin MechArr MechJac
  MechJacT MechFull.
Import ListNotations.
Local Open Scope nat_scope.

(** ** Sums of products *)

(** Expansion of a closed form in a sum of products; the expressions of [ops] are taken as they are. *)
Fixpoint expd (ops : list expr) (e : expr) : poly :=
  if existsb (expr_eqb e) ops then [(1%Q, [e])] else
  match e with
  | Num q => [(q, [])]
  | Neg a => map opp_term (expd ops a)
  | Add a b => expd ops a ++ expd ops b
  | Sub a b => expd ops a ++ map opp_term (expd ops b)
  | Mul a b => flat_map (fun t => map (mul_term t) (expd ops b)) (expd ops a)
  | Div a b => map (fun t => (fst t, Div (Num 1) b :: snd t)) (expd ops a)
  | _ => [(1%Q, [e])]
  end.

(** A term with the size of its coefficient. *)
Definition sized := (Q * Q * mono)%type.

(** Removes a term with the given factors and about the given coefficient. *)
Fixpoint tremove (eps : Q) (t : sized) (p : poly) : option poly :=
  match p with
  | [] => None
  | u :: r =>
      if mono_eqb (snd u) (snd t) && Qle_bool (Qabs (fst u - fst (fst t))) (eps * snd (fst t)) then Some r
      else match tremove eps t r with Some r' => Some (u :: r') | None => None end
  end.

(** The same terms in any order, with coefficients that agree up to [eps] of their sizes. *)
Fixpoint tnear (eps : Q) (p : poly) (q : list sized) : bool :=
  match q with
  | [] => match p with [] => true | _ => false end
  | t :: r => match tremove eps t p with Some p' => tnear eps p' r | None => false end
  end.

Section Terms.
  Variable M : libm RA.
  Variable rho : var -> N -> R.
  Notation rval := (rval M rho).
  Notation pval := (pval M rho).
  Notation mval := (mval M rho).
  Local Open Scope R_scope.

  (** Value of a sum of terms. *)
  Definition tval (q : list sized) : R := Rsum (map (fun t => Q2R (fst (fst t)) * mval (snd t)) q).

  (** Size of a sum of terms. *)
  Definition tsize (q : list sized) : R := Rsum (map (fun t => Q2R (snd (fst t)) * Rabs (mval (snd t))) q).

  Lemma tval_app a b : tval (a ++ b) = tval a + tval b.
  Proof. unfold tval. rewrite map_app, Rsum_app. reflexivity. Qed.

  Lemma tsize_app a b : tsize (a ++ b) = tsize a + tsize b.
  Proof. unfold tsize. rewrite map_app, Rsum_app. reflexivity. Qed.

  Lemma mval_quot b l : mval (Div (Num 1) b :: l) = / rval b * mval l.
  Proof.
    unfold MechPoly.mval. cbn [map Rprod]. change (rval (Div (Num 1) b)) with (Q2R 1 / rval b). rewrite Q2R_1.
    unfold Rdiv. ring.
  Qed.

  Lemma expd_val ops e : pval (expd ops e) = rval e.
  Proof.
    assert (atom : forall e, pval [(1%Q, [e])] = rval e).
    { intros. unfold MechPoly.pval, MechPoly.mval. cbn [map fst snd Rsum Rprod]. rewrite Q2R_1. ring. }
    induction e; cbn [expd]; (destruct (existsb _ ops); [apply atom|]); try apply atom.
    - unfold MechPoly.pval, MechPoly.mval. cbn [map fst snd Rsum Rprod]. change (rval (Num q)) with (Q2R q). ring.
    - rewrite pval_opp, IHe. change (rval (Neg e)) with (Q2R (-1) * rval e). rewrite Q2R_m1. ring.
    - rewrite pval_appl, IHe1, IHe2. reflexivity.
    - rewrite pval_appl, pval_opp, IHe1, IHe2. change (rval (Sub e1 e2)) with (rval e1 - rval e2). ring.
    - rewrite pval_mul, IHe1, IHe2. reflexivity.
    - change (rval (Div e1 e2)) with (rval e1 / rval e2). rewrite <- IHe1. generalize (expd ops e1). intros l.
      induction l as [|t l IH]; [unfold MechPoly.pval; cbn; unfold Rdiv; ring|].
      cbn [map]. rewrite !pval_cons, IH. cbn [fst snd]. rewrite mval_quot. unfold Rdiv.
      rewrite Rmult_plus_distr_r, Rmult_assoc. rewrite (Rmult_comm (/ _) (mval _)). reflexivity.
  Qed.

  Lemma tremove_val eps t p p' : tremove eps t p = Some p' ->
    exists c, Rabs (c - Q2R (fst (fst t))) <= Q2R eps * Q2R (snd (fst t)) /\ pval p = c * mval (snd t) + pval p'.
  Proof.
    revert p'. induction p as [|u p IH]; intros p'; cbn [tremove]; [discriminate|].
    destruct (mono_eqb (snd u) (snd t) && Qle_bool (Qabs (fst u - fst (fst t))) (eps * snd (fst t))) eqn:E.
    - intros [= <-]. apply andb_true_iff in E as [E2 E1]. apply Qle_bool_iff, Qle_Rle in E1.
      rewrite Q2R_mult, Q2R_abs, Q2R_minus in E1. apply (mono_eqb_val M rho) in E2.
      exists (Q2R (fst u)). split; [exact E1|]. unfold MechPoly.pval. cbn [map Rsum]. rewrite E2. reflexivity.
    - destruct (tremove eps t p) as [r|] eqn:P; [|discriminate]. intros [= <-].
      destruct (IH r eq_refl) as (c & C1 & C2). exists c. split; [exact C1|].
      unfold MechPoly.pval in *. cbn [map Rsum]. rewrite C2. ring.
  Qed.

  Lemma tnear_val eps q : forall p, tnear eps p q = true -> Rabs (pval p - tval q) <= Q2R eps * tsize q.
  Proof.
    induction q as [|t q IH]; intros p; cbn [tnear].
    - destruct p; [|discriminate]. intros _. unfold MechPoly.pval, tval, tsize. cbn. rewrite Rminus_0_r, Rabs_R0. lra.
    - destruct (tremove eps t p) as [p'|] eqn:E; [|discriminate]. intros H. apply tremove_val in E as (c & C1 & C2).
      specialize (IH p' H). rewrite C2. unfold tval, tsize. cbn [map Rsum]. fold (tval q). fold (tsize q).
      replace (c * mval (snd t) + pval p' - (Q2R (fst (fst t)) * mval (snd t) + tval q))
        with ((c - Q2R (fst (fst t))) * mval (snd t) + (pval p' - tval q)) by ring.
      eapply Rle_trans; [apply Rabs_triang|]. rewrite Rabs_mult.
      apply (Rmult_le_compat_r (Rabs (mval (snd t))) _ _ (Rabs_pos _)) in C1. lra.
  Qed.
End Terms.

(** ** The contribution of a reaction *)

(** Number of the last species. *)
Definition lastN (m : mechanism) : nat := s_NSP (library m) - 1.

(** Weight of species [j] over that of the last one, by the reciprocal weights of [eval_conc]. *)
Definition rel (us : list Q) (j : nat) : Q := (nth (length us - 1) us 0 / nth j us 0)%Q.

(** Removes one occurrence. *)
Fixpoint drop1 (j : nat) (l : list nat) : list nat :=
  match l with [] => [] | x :: r => if x =? j then r else x :: drop1 j r end.

(** Number of occurrences. *)
Definition times (j : nat) (l : list nat) : nat := length (filter (Nat.eqb j) l).

(** A concentration. *)
Definition e_conc (k : nat) : expr := Ref v_conc (N.of_nat k).

(** Derivative of a product of concentrations with the rate constant [k] with respect to that of species [j],
    times [c] and the factors [P]; [z] is the size of [c]. *)
Definition direct1 (c z : Q) (P : mono) (k : poly) (l : list (nat * nat)) (j : nat) : list sized :=
  match times j (side l) with
  | O => []
  | n => map (fun t => ((c * qnat n * fst t)%Q, (z * qnat n * Qabs (fst t))%Q, P ++ snd t ++ map e_conc (drop1 j (side l)))) k
  end.

(** The same when the last species decreases by [x]. *)
Definition direct (sgn : Q) (P : mono) (k : poly) (l : list (nat * nat)) (j N : nat) (x : Q) : list sized :=
  direct1 sgn 1 P k l j ++ direct1 (- (sgn * x)) x P k l N.

(** Forward and reverse rate with opposite signs. *)
Definition both (m : mechanism) (i : nat) (c d : Q) (s z : Q) (P : mono) : list sized :=
  (c, s, P ++ [e_fwd i]) :: (if rx_rev (rxn (chem m) i) then [(d, z, P ++ [e_rev m i])] else []).

(** Derivative of the rate of progress with respect to the mass fraction of species [j], times its weight and over
    the density; [X] is the derivative of the logarithm of the fall-off factor with respect to that of the reduced
    pressure and [Y] the fall-off factor over the concentration of colliders. *)
Definition e_species (m : mechanism) (us : list Q) (X Y : expr) (kf kr : poly) (i j : nat) : list sized :=
  let r := rxn (chem m) i in
  let P := if pdep r then [e_pm m i] else [] in
  let D := Ref v_mw_avg 0 :: Div (Num 1) (Ref v_rho 0) :: P in
  let x := rel us j in
  let a := (1 - x)%Q in
  let b := (1 + x)%Q in
  let more := match rx_kind r with ThreeBody => 1 | _ => 0 end in
  let nf := qnat (molecules (rx_lhs r) + more) in
  let nr := qnat (molecules (rx_rhs r) + more) in
  let ej := efficiency r j in
  let eN := (efficiency r (length us - 1) * x)%Q in
  let none := (Qnum ej =? 0)%Z && (Qnum (efficiency r (length us - 1)) =? 0)%Z in
  both m i (- (nf * a)) (nr * a) (nf * b) (nr * b) D ++
  match rx_kind r with
  | Elementary => []
  | ThreeBody => if none then [] else both m i (ej - eN) (eN - ej) (ej + eN) (ej + eN) []
  | Falloff => both m i (- a) a b b (X :: D) ++ if none then [] else both m i (ej - eN) (eN - ej) (ej + eN) (ej + eN) [X; Y]
  end ++
  direct 1 P kf (rx_lhs r) j (length us - 1) x ++ (if rx_rev r then direct (-1) P kr (rx_rhs r) j (length us - 1) x else []).

(** ** Checks *)

(** The forward rate constant of reaction [i] as [eval_rxn_rates] computes it. *)
Definition rate_k (m : mechanism) (s : smem) (i : nat) : expr :=
  match split (fwd_form (library m) s i) with Some (_, k) => k | None => Num 0 end.

(** The first quotient by something that is no variable. *)
Fixpoint find_quot (e : expr) : option expr :=
  match e with
  | Div _ b => match b with Ref _ _ => None | _ => Some e end
  | Neg a => find_quot a
  | Add a b | Sub a b | Mul a b => match find_quot a with Some x => Some x | None => find_quot b end
  | _ => None
  end.

(** Literal in front of a contribution, and the contribution. *)
Definition strip1 (e : expr) : Q * expr :=
  match e with
  | Mul (Num q) a => (q, a)
  | Neg a => ((-1)%Q, a)
  | _ => (1%Q, e)
  end.

(** Position of the derivative of entry [k] with respect to entry [j] (both counted with the temperature). *)
Definition at_jk (m : mechanism) (j k : nat) : nat := j * s_NSP (library m) + k.

(** Takes off the last [n] summands. *)
Fixpoint peel (n : nat) (e : expr) (acc : list expr) : option (expr * list expr) :=
  match n with
  | O => Some (e, acc)
  | S n' => match e with Add a b => peel n' a (b :: acc) | _ => None end
  end.

(** The [n] summands of an expression, after the old value or not. *)
Definition parts_of (v : var) (k n : nat) (e : expr) : option (bool * list expr) :=
  match peel n e [] with
  | Some (x, l) => if expr_eqb x (Ref v (N.of_nat k)) then Some (true, l) else
      match n with
      | O => None
      | S n' => match peel n' e [] with Some (x, l) => Some (false, x :: l) | None => None end
      end
  | None =>
      match n with
      | O => None
      | S n' => match peel n' e [] with Some (x, l) => Some (false, x :: l) | None => None end
      end
  end.

(** The summands of the derivative of species [k] with respect to [j] with their reactions; in a function that does not
    start from the old value the reactions before must not involve the species. *)
Definition entry_jk (m : mechanism) (first count j k : nat) (e : expr) : option (list (nat * expr)) :=
  let I := involved m k first count in
  match parts_of v_jac (at_jk m (j + 1) (k + 1)) (length I) e with
  | Some (b, l) => if b || (length (involved m k 0 first) =? 0) then zip I l else None
  | None => None
  end.

(** The first contribution that belongs to reaction [i]. *)
Definition find_s (l : list (list (nat * expr))) (i : nat) : expr :=
  match find (fun t => fst t =? i) (concat l) with Some t => snd (strip1 (snd t)) | None => Num 0 end.

(** Shape of the arguments of eval_jacob_*. *)
Definition all_sh (S : source) : list (var * nat) :=
  [(v_T, 1); (v_pres, 1); (v_conc, s_NSP S); (v_fwd_rates, s_fwd S); (v_rev_rates, s_rev S); (v_pres_mod, s_pmod S);
   (v_spec_rates, s_NSP S); (v_m, 1); (v_mw_avg, 1); (v_rho, 1); (v_dBdT, s_NSP S); (v_jac, s_NSP S * s_NSP S)].

(** Summands of all entries of column [j]. *)
Definition col_terms (m : mechanism) (first count : nat) (s : smem) (j : nat) : list (list (nat * expr)) :=
  map (fun k => match entry_jk m first count j k (formd (all_sh (library m)) part_locals s v_jac (at_jk m (j + 1) (k + 1))) with
                | Some l => l | None => [] end) (seq 0 (s_NSP (library m) - 1)).

(** Contributions of the reactions to column [j]. *)
Definition col_js (m : mechanism) (first count : nat) (s : smem) (j : nat) : list expr :=
  let L := col_terms m first count s j in map (find_s L) (seq first count).

(** X and Y of a contribution. *)
Definition xy_of (e : expr) : expr * expr :=
  let p := match e with
           | Add (Add _ (Mul (Num _) p)) _ => p
           | Add _ (Mul (Num _) p) => p
           | _ => Num 0
           end in
  (opl (opl p), opr p).

(** A species that reaction [i] forms, other than the last. *)
Definition formed (m : mechanism) (i : nat) : nat :=
  match find (fun k => k <? lastN m) (side (rx_rhs (rxn (chem m) i))) with Some k => k | None => 0 end.

(** The reverse rate constant of a contribution to the column of such a species. *)
Definition kr_of (e : expr) : expr := match find_quot (opr e) with Some x => x | None => Num 0 end.

(** Coefficient of a contribution: molecules formed times the molecular weight over that of species [j]. *)
Definition coef_j (m : mechanism) (ws us : list Q) (k i j : nat) : Q := (net (rxn (chem m) i) k * nth k ws 0 * nth j us 0)%Q.

(** The coefficients of column [j] and the contributions. *)
Definition col_ok (m : mechanism) (ws us : list Q) (first count : nat) (s : smem) (j : nat) (J : list expr) : bool :=
  forallb (fun k =>
    match entry_jk m first count j k (formd (all_sh (library m)) part_locals s v_jac (at_jk m (j + 1) (k + 1))) with
    | Some l => forallb (fun t => let (c, e) := strip1 (snd t) in
                                  qclose tolE c (coef_j m ws us k (fst t) j) && expr_eqb e (nth (fst t - first) J (Num 0))) l
    | None => false
    end) (seq 0 (s_NSP (library m) - 1)).

(** The reduced pressure [pr] with the ratio of rate constants exp([x]). *)
Definition pr_okS (m : mechanism) (i : nat) (thd x : expr) : bool :=
  match k_low (kin m i) with
  | Some low =>
      peqb (norm thd) (third_polyJ (s_NSP (library m)) (rxn (chem m) i)) &&
      match lin anyT x with Some l => ratio_ok low (k_high (kin m i)) l | None => false end
  | None => false
  end.

(** A centre, given the parameters of chem.cti. *)
Definition centre_okS (t : troe) (fc : expr) : bool :=
  match centre_lits fc with
  | (a1, n3, a2, n1, n2) =>
      expr_eqb fc (e_fc a1 n3 a2 n1 n2) &&
      Qle_bool (Qabs (qplus a1 (t_A t - 1))) tolE && qclose tolE a2 (t_A t) && qclose tolE n3 (- t_T3 t) && qclose tolE n1 (- t_T1 t) &&
      negb (Qnum n3 =? 0)%Z && negb (Qnum n1 =? 0)%Z &&
      match n2, t_T2 t with
      | Some n, Some q => qclose tolE n (- q)
      | None, None => true
      | _, _ => false
      end
  end.

(** Derivative of the logarithm of the fall-off factor with respect to that of the reduced pressure. *)
Definition e_XS (c3 c4 : Q) (pr fc : expr) : expr :=
  Sub (Div (Num 1.0) (Add (Num 1.0) pr))
    (Div (Mul (Mul (Mul (Log (Fmax fc (Num cut))) (Num 2.0)) (e_A pr fc))
            (Add (Mul (e_B pr fc) (Num c3)) (Mul (e_A pr fc) (Num c4))))
       (Mul (Mul (Mul (Mul (e_B pr fc) (e_B pr fc)) (e_B pr fc)) (e_D pr fc)) (e_D pr fc))).

(** Fall-off factor over the concentration of colliders. *)
Definition e_YS (x pr fc D : expr) : expr :=
  Div (Mul (Exp x) (Pow fc (Div (Num 1.0) D))) (Add (Num 1.0) pr).

(** X and Y of reaction [i]. *)
Definition xy_ok (m : mechanism) (i : nat) (X Y : expr) : bool :=
  match k_troe (kin m i) with
  | None => false
  | Some t =>
      let pr := opr (opr (opl X)) in
      let thd := opl pr in
      let x := inner (opr pr) in
      let u := opl (opr X) in
      let c3 := lit_of (opr (opl (opr u))) in
      let c4 := lit_of (opr (opr (opr u))) in
      let fc := match opl (opl (opl u)) with Log (Fmax f _) => f | _ => Num 0 end in
      let q := match opr (opl Y) with Pow _ q => q | _ => Num 0 end in
      expr_eqb X (e_XS c3 c4 (Mul thd (Exp x)) fc) && expr_eqb Y (e_YS x (Mul thd (Exp x)) fc (opr q)) &&
      expr_eqb (opr (opr q)) (opr (e_D pr fc)) && expr_eqb (opr q) (Add (Num 1) (opr (opr q))) &&
      pr_okS m i thd x && centre_okS t fc && qclose tolH c3 inv_ln10 && qclose tolH c4 (0.14 * inv_ln10)
  end.

(** What the contributions of reaction [i] have in common: X, Y and the reverse rate constant. *)
Definition atoms := (expr * expr * expr)%type.

(** They are as they should be. *)
Definition atoms_ok (m : mechanism) (N : list nasa7) (kf : expr) (i : nat) (t : atoms) : bool :=
  let '(X, Y, kr) := t in
  match rx_kind (rxn (chem m) i) with Falloff => xy_ok m i X Y | _ => true end &&
  (negb (rx_rev (rxn (chem m) i)) || equil_ok N (rxn (chem m) i) kf kr).

(** A contribution of reaction [i] to column [j]. *)
Definition species_ok (m : mechanism) (us : list Q) (kf : poly) (t : atoms) (i j : nat) (e : expr) : bool :=
  let '(X, Y, kr) := t in
  let ops := match rx_kind (rxn (chem m) i) with Falloff => [kr; X; Y] | _ => [kr] end in
  tnear tolE (expd ops e) (e_species m us X Y kf [(1%Q, [kr])] i j).

(** The atoms of the reactions. *)
Definition part_atoms (m : mechanism) (first count : nat) (Js : list (list expr)) : list atoms :=
  map (fun i => let xy := xy_of (nth (i - first) (nth 0 Js []) (Num 0)) in
                (fst xy, snd xy, kr_of (nth (i - first) (nth (formed m i) Js []) (Num 0)))) (seq first count).

(** Check of a function eval_jacob_*. *)
Definition full_ok (m : mechanism) (ws us : list Q) (N : list nasa7) (rs : smem) (first count : nat) (body : list stmt) : bool :=
  match symbolic (all_sh (library m)) part_locals body with
  | None => false
  | Some s =>
      let n := s_NSP (library m) - 1 in
      let Js := map (col_js m first count s) (seq 0 n) in
      let At := part_atoms m first count Js in
      let kfs := map (rate_k m rs) (seq first count) in
      all_forms (all_sh (library m)) part_locals s v_jac (fun _ _ => true) &&
      forallb (fun t => col_ok m ws us first count s (fst t) (snd t)) (combine (seq 0 n) Js) &&
      forallb (fun t => let '(i, kf, at_i) := t in atoms_ok m N kf i at_i) (combine (combine (seq first count) kfs) At) &&
      forallb (fun t => let '(i, kf, at_i) := t in
                        let kp := expd [] kf in
                        forallb (fun u => species_ok m us kp at_i i (fst u) (nth (i - first) (snd u) (Num 0))) (combine (seq 0 n) Js))
        (combine (combine (seq first count) kfs) At)
  end.

(** All functions. *)
Fixpoint fulls_ok (m : mechanism) (ws us : list Q) (N : list nasa7) (rs : smem) (first : nat) (l : list (nat * list stmt)) : bool :=
  match l with
  | [] => first =? length (ch_reactions (chem m))
  | p :: r => full_ok m ws us N rs first (fst p) (snd p) && fulls_ok m ws us N rs (first + fst p) r
  end.

(** The whole check. *)
Definition full_all_ok (m : mechanism) (J : jacobian_all) : bool :=
  match rate_state (library m) with
  | None => false
  | Some rs => fulls_ok m (dydt_weights (library m) nitrogen) (inverse_weights (library m)) (common_all (nasa m)) rs 0 (a_parts J)
  end.

Lemma full_all : full_all_ok drm19 drm19_jac_all = true.
Proof. vm_compute. reflexivity. Qed.
