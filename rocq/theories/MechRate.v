(** [eval_rxn_rates]: the law of mass action with the orders of chem.cti. *)
From Coq Require Import List ZArith NArith QArith Qreals Reals Bool Lra Lia.
From Verif Require Import Outcome Arith MechLang MechSym MechSrc MechCall MechReal MechPoly MechChem Mechanisms MechSpec.
Import ListNotations.
Local Open Scope nat_scope.

(** No concentration occurs. *)
Fixpoint cfree (e : expr) : bool :=
  match e with
  | Num _ => true
  | Ref v _ => negb (var_eqb v v_C)
  | Neg a | Exp a | Log a | Log10 a => cfree a
  | Add a b | Sub a b | Mul a b | Div a b | Pow a b | Fmax a b => cfree a && cfree b
  | Ite a b t f => cfree a && cfree b && cfree t && cfree f
  end.

Lemma cfree_val {A : Arith} (M : libm A) rho rho' e : cfree e = true ->
  (forall v i, v <> v_C -> rho v i = rho' v i) -> val M rho e = val M rho' e.
Proof.
  intros H E. induction e; cbn in H |- *; repeat (apply andb_true_iff in H as [H ?]);
    rewrite ?IHe, ?IHe1, ?IHe2, ?IHe3, ?IHe4 by assumption; try reflexivity.
  apply E. intros ->. rewrite var_eqb_refl in H. discriminate.
Qed.

(** Separates the factors that are concentrations. *)
Fixpoint split (e : expr) : option (list expr * expr) :=
  if cfree e then Some ([], e) else
  match e with
  | Ref v i => Some ([Ref v i], Num 1)
  | Mul a b =>
      match split a, split b with
      | Some (la, ra), Some (lb, rb) => Some (la ++ lb, Mul ra rb)
      | _, _ => None
      end
  | Div a b => if cfree b then match split a with Some (la, ra) => Some (la, Div ra b) | None => None end else None
  | _ => None
  end.

Lemma split_val M rho e : forall l r, split e = Some (l, r) ->
  rval M rho e = (rval M rho r * mval M rho l)%R /\ cfree r = true.
Proof.
  assert (triv : forall e, rval M rho e = (rval M rho e * mval M rho [])%R) by (intros; unfold mval; cbn; ring).
  induction e; intros l r; cbn [split]; destruct (cfree _) eqn:F;
    try (intros [= <- <-]; split; [apply triv|exact F]); try discriminate.
  - intros [= <- <-]. split; [|reflexivity]. unfold mval. cbn [map Rprod].
    change (rval M rho (Num 1)) with (Q2R 1). rewrite Q2R_1. ring.
  - destruct (split e1) as [[l1 r1]|]; [|discriminate]. destruct (split e2) as [[l2 r2]|]; [|discriminate].
    intros [= <- <-]. destruct (IHe1 _ _ eq_refl) as [E1 F1], (IHe2 _ _ eq_refl) as [E2 F2].
    split; [|cbn; rewrite F1, F2; reflexivity]. rewrite mval_app.
    change (rval M rho (Mul e1 e2)) with (rval M rho e1 * rval M rho e2)%R.
    change (rval M rho (Mul r1 r2)) with (rval M rho r1 * rval M rho r2)%R. rewrite E1, E2. ring.
  - destruct (cfree e2) eqn:F2; [|discriminate]. destruct (split e1) as [[l1 r1]|]; [|discriminate].
    intros [= <- <-]. destruct (IHe1 _ _ eq_refl) as [E1 F1].
    split; [|cbn; rewrite F1, F2; reflexivity].
    change (rval M rho (Div e1 e2)) with (rval M rho e1 / rval M rho e2)%R.
    change (rval M rho (Div r1 e2)) with (rval M rho r1 / rval M rho e2)%R. rewrite E1. unfold Rdiv. ring.
Qed.

(** Certainly positive, when temperature and pressure are. *)
Fixpoint positive_form (e : expr) : bool :=
  match e with
  | Num q => (0 <? Qnum q)%Z
  | Ref v i => (var_eqb v v_T || var_eqb v v_pres) && (i =? 0)%N
  | Exp _ => true
  | Add a b | Mul a b | Div a b => positive_form a && positive_form b
  | Ite _ _ t f => positive_form t && positive_form f
  | _ => false
  end.

Lemma positive_val (M : libm RA) rho e : (forall x : R, 0 < m_exp M x)%R ->
  (0 < rho v_T 0%N)%R -> (0 < rho v_pres 0%N)%R ->
  positive_form e = true -> (0 < rval M rho e)%R.
Proof.
  intros HE HT HP. induction e; cbn [positive_form]; intros H; try discriminate;
    try (apply andb_true_iff in H as [Ha Hb]).
  - change (rval M rho (Num q)) with (Q2R q). rewrite <- Q2R_0. apply Qlt_Rlt.
    unfold Qlt. cbn. apply Z.ltb_lt in H. lia.
  - apply N.eqb_eq in Hb. subst. apply orb_true_iff in Ha as [H|H].
    + destruct (var_eqb_spec v v_T); [subst; apply HT|discriminate].
    + destruct (var_eqb_spec v v_pres); [subst; apply HP|discriminate].
  - apply Rplus_lt_0_compat; [apply IHe1|apply IHe2]; assumption.
  - apply Rmult_lt_0_compat; [apply IHe1|apply IHe2]; assumption.
  - apply Rdiv_lt_0_compat; [apply IHe1|apply IHe2]; assumption.
  - apply HE.
  - unfold rval in *. cbn. destruct (Rleb _ _); auto.
Qed.

(** Species of one side of a reaction, each as often as its coefficient. *)
Definition side (l : list (nat * nat)) : list nat := flat_map (fun p => repeat (fst p) (snd p)) l.

(** Product of the concentrations of one side of a reaction, to the powers of the coefficients. *)
Definition conc_product (C : list R) (l : list (nat * nat)) : R :=
  Rprod (map (fun p => nth (fst p) C 0 ^ snd p)%R l).

(** A closed form is a positive rate constant times the concentrations of a side. *)
Definition action_ok (l : list (nat * nat)) (e : expr) : bool :=
  match split e with
  | Some (c, k) => mono_eqb c (map (fun j => Ref v_C (N.of_nat j)) (side l)) && positive_form k
  | None => false
  end.

(** Shape of the arguments of [eval_rxn_rates] and [get_rxn_pres_mod]. *)
Definition rate_sh (S : source) : list (var * nat) := [(v_T, 1); (v_pres, 1); (v_C, s_NSP S)].

(** The reactions that satisfy [f]. *)
Definition selected (f : reaction -> bool) (ch : chemistry) : list reaction := filter f (ch_reactions ch).

(** The closed forms of [eval_rxn_rates] obey the law of mass action. *)
Definition rates_ok (S : source) (ch : chemistry) : bool :=
  match symbolic (rate_sh S) (rate_locals S) (s_eval_rxn_rates S) with
  | None => false
  | Some s =>
      let rv := selected rx_rev ch in
      (length (ch_reactions ch) =? s_fwd S) && (length rv =? s_rev S) &&
      all_forms (rate_sh S) (rate_locals S) s v_fwd_rxn_rates (fun i e => action_ok (rx_lhs (rxn ch i)) e) &&
      all_forms (rate_sh S) (rate_locals S) s v_rev_rxn_rates
        (fun j e => action_ok (rx_rhs (nth j rv (mkRx Elementary [] [] false []))) e)
  end.

Lemma rank_nth f (d : reaction) : forall l i, i < length l -> f (nth i l d) = true ->
  nth (rank f l i) (filter f l) d = nth i l d /\ rank f l i < length (filter f l).
Proof.
  unfold rank. induction l as [|x l IH]; cbn [length]; intros i Hi F; [lia|].
  destruct i as [|i]; cbn [firstn nth filter].
  - cbn in F. rewrite F. cbn. split; [reflexivity|lia].
  - cbn in F. destruct (IH i ltac:(lia) F) as [E L]. destruct (f x); cbn [length nth]; [|auto].
    split; [exact E|lia].
Qed.

Lemma nth_map_seq {X} (f : nat -> X) n k d : k < n -> nth k (map f (seq 0 n)) d = f k.
Proof.
  intros H. rewrite (nth_indep _ d (f 0)) by (rewrite map_length, seq_length; exact H).
  rewrite map_nth, seq_nth by exact H. reflexivity.
Qed.

Lemma side_val M rho l :
  mval M rho (map (fun j => Ref v_C (N.of_nat j)) (side l)) =
  Rprod (map (fun p => rho v_C (N.of_nat (fst p)) ^ snd p)%R l).
Proof.
  unfold mval. rewrite map_map. induction l as [|[k n] l IH]; [reflexivity|].
  cbn [side flat_map fst snd map Rprod]. fold (side l). rewrite map_app, Rprod_app, IH. f_equal.
  induction n as [|n IHn]; cbn [repeat map Rprod pow]; [reflexivity|]. rewrite IHn. reflexivity.
Qed.

(** Rate constant: the closed form without the concentrations. *)
Definition rate_constant (M : libm RA) (T p : R) (e : expr) : R :=
  match split e with
  | Some (_, k) => rval M (argument [(v_T, [T] : list (num RA)); (v_pres, [p])]) k
  | None => 1
  end.

Lemma action_val (M : libm RA) (T p : R) (C : list R) l e : (forall x : R, 0 < m_exp M x)%R ->
  (0 < T)%R -> (0 < p)%R -> action_ok l e = true ->
  (0 < rate_constant M T p e)%R /\
  rval M (argument [(v_T, [T] : list (num RA)); (v_pres, [p]); (v_C, C)]) e =
  (rate_constant M T p e * conc_product C l)%R.
Proof.
  intros HE HT Hp H. unfold action_ok in H. unfold rate_constant.
  set (a := argument [(v_T, [T] : list (num RA)); (v_pres, [p]); (v_C, C)]).
  destruct (split e) as [[c k]|] eqn:E; [|discriminate].
  apply andb_true_iff in H as [H1 H2]. destruct (split_val M a _ _ _ E) as [V F].
  assert (W : rval M (argument [(v_T, [T] : list (num RA)); (v_pres, [p])]) k = rval M a k).
  { apply (cfree_val M _ _ k F). intros v i N. unfold a, argument. cbn [find fst snd].
    destruct (var_eqb v_T v); [reflexivity|]. destruct (var_eqb v_pres v); [reflexivity|].
    destruct (var_eqb_spec v_C v); [congruence|reflexivity]. }
  split.
  - apply positive_val; assumption.
  - rewrite V, W, (mono_eqb_val M a _ _ H1), side_val. unfold conc_product. f_equal. f_equal. apply map_ext. intros q.
    unfold a, argument. cbn [find fst snd var_eqb var_id Nat.eqb]. rewrite Nat2N.id. cbn [zero lit RA].
    rewrite Q2R_0. reflexivity.
Qed.

(** Symbolic state after [eval_rxn_rates]. *)
Definition rate_state (S : source) : option smem := symbolic (rate_sh S) (rate_locals S) (s_eval_rxn_rates S).

(** Closed form of the forward rate of reaction [i]. *)
Definition fwd_form (S : source) (s : smem) (i : nat) : expr := formd (rate_sh S) (rate_locals S) s v_fwd_rxn_rates i.

(** Closed form of the reverse rate of reaction [i]. *)
Definition rev_form (S : source) (ch : chemistry) (s : smem) (i : nat) : expr :=
  formd (rate_sh S) (rate_locals S) s v_rev_rxn_rates (rank rx_rev (ch_reactions ch) i).

(** Forward rate constant of reaction [i]. *)
Definition k_fwd (M : libm RA) (S : source) (T p : R) (i : nat) : R :=
  match rate_state S with Some s => rate_constant M T p (fwd_form S s i) | None => 1%R end.

(** Reverse rate constant of reaction [i]. *)
Definition k_rev (M : libm RA) (S : source) (ch : chemistry) (T p : R) (i : nat) : R :=
  match rate_state S with
  | Some s => if rx_rev (rxn ch i) then rate_constant M T p (rev_form S ch s i) else 1%R
  | None => 1%R
  end.

Theorem mass_action_at (M : libm RA) S ch (T p : R) : rates_ok S ch = true -> (forall x : R, 0 < m_exp M x)%R ->
  (0 < T)%R -> (0 < p)%R ->
    (forall i, i < length (ch_reactions ch) -> (0 < k_fwd M S T p i /\ 0 < k_rev M S ch T p i)%R) /\
    forall C, length C = s_NSP S ->
    exists fwd rev : list R, lib_eval_rxn_rates (A := RA) M S T p C = Ok (fwd, rev) /\
      length fwd = s_fwd S /\ length rev = s_rev S /\
      forall i, i < length (ch_reactions ch) ->
        (nth i fwd 0 = k_fwd M S T p i * conc_product C (rx_lhs (rxn ch i)))%R /\
        (rx_rev (rxn ch i) = true ->
         nth (rank rx_rev (ch_reactions ch) i) rev 0 = k_rev M S ch T p i * conc_product C (rx_rhs (rxn ch i)))%R.
Proof.
  unfold rates_ok, k_fwd, k_rev, rate_state, fwd_form, rev_form. intros H HE HT Hp.
  destruct (symbolic (rate_sh S) (rate_locals S) (s_eval_rxn_rates S)) as [s|] eqn:E; [|discriminate].
  apply andb_true_iff in H as [H Hr]. apply andb_true_iff in H as [H Hf]. apply andb_true_iff in H as [Lf Lr].
  apply Nat.eqb_eq in Lf, Lr.
  set (ff := fun i => formd (rate_sh S) (rate_locals S) s v_fwd_rxn_rates i).
  set (fr := fun i => formd (rate_sh S) (rate_locals S) s v_rev_rxn_rates (rank rx_rev (ch_reactions ch) i)).
  assert (Ef : N.to_nat (sizes (rate_sh S ++ rate_locals S) v_fwd_rxn_rates) = s_fwd S) by (cbn; lia).
  assert (Er : N.to_nat (sizes (rate_sh S ++ rate_locals S) v_rev_rxn_rates) = s_rev S) by (cbn; lia).
  assert (Af : forall i, i < length (ch_reactions ch) -> action_ok (rx_lhs (rxn ch i)) (ff i) = true).
  { intros i Hi. apply (all_forms_in _ _ _ _ _ i Hf). rewrite Ef. lia. }
  assert (Ar : forall i, i < length (ch_reactions ch) -> rx_rev (rxn ch i) = true ->
    action_ok (rx_rhs (rxn ch i)) (fr i) = true).
  { intros i Hi R. destruct (rank_nth rx_rev (mkRx Elementary [] [] false []) _ i Hi R) as [K L].
    fold (rxn ch i) in K. fold (selected rx_rev ch) in K, L. rewrite <- K.
    apply (all_forms_in _ _ _ _ _ _ Hr). rewrite Er. lia. }
  split.
  - intros i Hi. split.
    + apply (action_val M T p [] _ _ HE HT Hp (Af i Hi)).
    + destruct (rx_rev (rxn ch i)) eqn:R; [|lra]. apply (action_val M T p [] _ _ HE HT Hp (Ar i Hi R)).
  - intros C LC.
    set (ins := [(v_T, [T] : list (num RA)); (v_pres, [p]); (v_C, C)]).
    assert (Hsh : shape ins = rate_sh S) by (unfold rate_sh; rewrite <- LC; reflexivity).
    unfold lib_eval_rxn_rates. fold ins.
    rewrite (call_closed M _ ins (rate_locals S) [v_fwd_rxn_rates; v_rev_rxn_rates] s).
    2: { rewrite Hsh. exact E. }
    2: { rewrite Hsh. intros v [<-|[<-|[]]]; eapply all_forms_weaken; eassumption. }
    rewrite Hsh. cbn [map]. rewrite Ef, Er. cbn [bind].
    eexists _, _. split; [reflexivity|].
    split; [rewrite map_length, seq_length; reflexivity|].
    split; [rewrite map_length, seq_length; reflexivity|].
    intros i Hi. split.
    + rewrite (nth_map_seq (fun i => val M (argument ins) (formd (rate_sh S) (rate_locals S) s v_fwd_rxn_rates i)))
        by lia.
      apply (action_val M T p C _ _ HE HT Hp (Af i Hi)).
    + intros R. rewrite R.
      destruct (rank_nth rx_rev (mkRx Elementary [] [] false []) _ i Hi R) as [_ L]. fold (selected rx_rev ch) in L.
      rewrite (nth_map_seq (fun i => val M (argument ins) (formd (rate_sh S) (rate_locals S) s v_rev_rxn_rates i)))
        by lia.
      apply (action_val M T p C _ _ HE HT Hp (Ar i Hi R)).
Qed.

Theorem mass_action (M : libm RA) S ch (T p : R) : rates_ok S ch = true -> (forall x : R, 0 < m_exp M x)%R ->
  (0 < T)%R -> (0 < p)%R ->
  exists kf kr : nat -> R,
    (forall i, i < length (ch_reactions ch) -> (0 < kf i /\ 0 < kr i)%R) /\
    forall C, length C = s_NSP S ->
    exists fwd rev : list R, lib_eval_rxn_rates (A := RA) M S T p C = Ok (fwd, rev) /\
      length fwd = s_fwd S /\ length rev = s_rev S /\
      forall i, i < length (ch_reactions ch) ->
        (nth i fwd 0 = kf i * conc_product C (rx_lhs (rxn ch i)))%R /\
        (rx_rev (rxn ch i) = true ->
         nth (rank rx_rev (ch_reactions ch) i) rev 0 = kr i * conc_product C (rx_rhs (rxn ch i)))%R.
Proof.
  intros H HE HT Hp. exists (k_fwd M S T p), (k_rev M S ch T p). exact (mass_action_at M S ch T p H HE HT Hp).
Qed.

Lemma rates_all m : rates_ok (library m) (chem m) = true.
Proof. destruct m; vm_compute; reflexivity. Qed.

