(** [get_rxn_pres_mod]: third-body and fall-off factors with the efficiencies of chem.cti. *)
From Coq Require Import List ZArith NArith QArith Qreals Reals Bool Lra Lia.
From Verif Require Import Outcome Arith MechLang MechSym MechSrc MechCall MechReal MechPoly MechChem Mechanisms
  MechSpec MechRate.
Import ListNotations.
Local Open Scope nat_scope.

(** The gas constant written in the sources (chem_utils.c, rxn_rates_pres_mod.c), J/(kmol K). *)
Definition gas_constant : R := Q2R 8.31446210e+03.

(** Effective concentration of third bodies in reaction [r]. *)
Definition third_body (r : reaction) (C : list R) : R :=
  Rsumn (length C) (fun k => Q2R (efficiency r k) * nth k C 0)%R.

(** p/(R T) as the sources write it. *)
Definition total_form : expr := Div (Ref v_pres 0) (Mul (Num 8.31446210e+03) (Ref v_T 0)).

(** The same as a polynomial with p/(R T) for the sum of all concentrations. *)
Definition third_poly (n : nat) (r : reaction) : poly :=
  (1%Q, [total_form]) ::
  flat_map (fun k => if Qeq_bool (efficiency r k) 1 then []
                     else [((efficiency r k - 1)%Q, [Ref v_C (N.of_nat k)])]) (seq 0 n).

(** A closed form is the effective concentration. *)
Definition third_ok (n : nat) (r : reaction) (e : expr) : bool := peqb (norm e) (third_poly n r).

(** Reduced pressure: ratio of rate constants times effective concentration. *)
Definition pr_ok (n : nat) (r : reaction) (e : expr) : bool :=
  match e with
  | Div (Mul k0 thd) kinf =>
      cfree k0 && cfree kinf && positive_form k0 && positive_form kinf && third_ok n r thd
  | _ => false
  end.

(** Fall-off factor. *)
Definition falloff_ok (n : nat) (r : reaction) (e : expr) : bool :=
  match e with
  | Div a (Add (Num c) q) =>
      Qsame c 1.0 && pr_ok n r q &&
      match a with
      | Mul (Pow (Num b) _) q' => Qsame b 10.0 && expr_eqb q q'
      | _ => expr_eqb q a
      end
  | _ => false
  end.

(** Pressure modification of a reaction. *)
Definition pmod_form_ok (n : nat) (r : reaction) (e : expr) : bool :=
  match rx_kind r with
  | Elementary => false
  | ThreeBody => third_ok n r e
  | Falloff => falloff_ok n r e
  end.

(** The closed forms of [get_rxn_pres_mod] are of that kind. *)
Definition pmod_ok (S : source) (ch : chemistry) : bool :=
  match symbolic (rate_sh S) (pmod_locals S) (s_get_rxn_pres_mod S) with
  | None => false
  | Some s =>
      let pd := selected pdep ch in
      (length pd =? s_pmod S) &&
      all_forms (rate_sh S) (pmod_locals S) s v_pres_mod
        (fun j e => pmod_form_ok (s_NSP S) (nth j pd (mkRx Elementary [] [] false [])) e)
  end.

Lemma pval_cons M rho t q : pval M rho (t :: q) = (Q2R (fst t) * mval M rho (snd t) + pval M rho q)%R.
Proof. reflexivity. Qed.

Section Values.
  Variable M : libm RA.
  Hypothesis HE : forall x : R, (0 < m_exp M x)%R.
  Hypothesis HPow : forall x y : R, (0 < x -> 0 < m_pow M x y)%R.
  Variables T p : R.
  Hypothesis HT : (0 < T)%R.
  Hypothesis Hp : (0 < p)%R.

  (** Arguments without and with the concentrations. *)
  Definition env0 := argument [(v_T, [T] : list (num RA)); (v_pres, [p])].

  (** Arguments with the concentrations. *)
  Definition envC (C : list R) := argument [(v_T, [T] : list (num RA)); (v_pres, [p]); (v_C, C)].

  Lemma env_cfree C e : cfree e = true -> rval M (envC C) e = rval M env0 e.
  Proof.
    intros F. apply (cfree_val M _ _ e F). intros v i N. unfold envC, env0, argument. cbn [find fst snd].
    destruct (var_eqb v_T v); [reflexivity|]. destruct (var_eqb v_pres v); [reflexivity|].
    destruct (var_eqb_spec v_C v); [congruence|reflexivity].
  Qed.

  Lemma envC_C C k : envC C v_C (N.of_nat k) = nth k C 0%R.
  Proof.
    unfold envC, argument. cbn [find fst snd var_eqb var_id Nat.eqb]. rewrite Nat2N.id. cbn [zero lit RA].
    rewrite Q2R_0. reflexivity.
  Qed.

  Lemma third_val C r e : third_ok (length C) r e = true ->
    Rsumn (length C) (fun k => nth k C 0)%R = (p / (gas_constant * T))%R ->
    rval M (envC C) e = third_body r C.
  Proof.
    intros H E. apply (peqb_val M (envC C)) in H. rewrite norm_val in H. rewrite H.
    unfold third_poly. rewrite pval_cons. cbn [fst snd]. rewrite Q2R_1. unfold mval. cbn [map Rprod].
    replace (rval M (envC C) total_form) with (p / (gas_constant * T))%R by reflexivity.
    rewrite <- E. unfold third_body, Rsumn.
    rewrite (Rsum_ext (fun k => Q2R (efficiency r k) * nth k C 0)%R
      (fun k => nth k C 0 + (Q2R (efficiency r k) - 1) * nth k C 0)%R) by (intros; ring).
    rewrite (Rsum_plus (fun k => nth k C 0)%R (fun k => (Q2R (efficiency r k) - 1) * nth k C 0)%R).
    replace (1 * (Rsum (map (fun k => nth k C 0) (seq 0 (length C))) * 1))%R
      with (Rsum (map (fun k => nth k C 0%R) (seq 0 (length C)))) by ring. f_equal.
    generalize (seq 0 (length C)). intros l.
    induction l as [|k l IH]; [reflexivity|]. cbn [flat_map map Rsum]. rewrite pval_app, IH. f_equal.
    destruct (Qeq_bool (efficiency r k) 1) eqn:Q.
    - apply Qeq_bool_eq, Qeq_eqR in Q. rewrite Q, Q2R_1. unfold pval. cbn. ring.
    - unfold pval, mval. cbn [map fst snd Rsum Rprod]. rewrite Q2R_minus, Q2R_1.
      change (rval M (envC C) (Ref v_C (N.of_nat k))) with (envC C v_C (N.of_nat k)).
      rewrite envC_C. ring.
  Qed.

  (** Ratio of the rate constants in the reduced pressure. *)
  Definition low_high_ratio (e : expr) : R :=
    match e with
    | Div _ (Add _ (Div (Mul k0 _) kinf)) => rval M env0 k0 / rval M env0 kinf
    | _ => 1
    end.

  Lemma positive_env0 e : positive_form e = true -> (0 < rval M env0 e)%R.
  Proof. intros H. apply positive_val; assumption. Qed.

  Lemma pr_val C r e : pr_ok (length C) r e = true ->
    Rsumn (length C) (fun k => nth k C 0)%R = (p / (gas_constant * T))%R ->
    (0 < low_high_ratio (Div e (Add (Num 1) e)) )%R /\
    rval M (envC C) e = (low_high_ratio (Div e (Add (Num 1) e)) * third_body r C)%R.
  Proof.
    unfold pr_ok. destruct e; try discriminate. destruct e1; try discriminate. intros H E.
    repeat (apply andb_true_iff in H as [H ?]). cbn [low_high_ratio].
    split; [apply Rdiv_lt_0_compat; apply positive_env0; assumption|].
    change (rval M (envC C) (Div (Mul e1_1 e1_2) e2))
      with (rval M (envC C) e1_1 * rval M (envC C) e1_2 / rval M (envC C) e2)%R.
    rewrite !(env_cfree C e1_1), (env_cfree C e2), (third_val C r) by assumption.
    unfold Rdiv. ring.
  Qed.

  Lemma falloff_val C r e : falloff_ok (length C) r e = true ->
    Rsumn (length C) (fun k => nth k C 0)%R = (p / (gas_constant * T))%R ->
    (0 < low_high_ratio e)%R /\
    exists F, (0 < F)%R /\
    rval M (envC C) e = (F * (low_high_ratio e * third_body r C / (1 + low_high_ratio e * third_body r C)))%R.
  Proof.
    unfold falloff_ok. destruct e; try discriminate. destruct e2; try discriminate. destruct e2_1; try discriminate.
    intros H E. apply andb_true_iff in H as [H H3]. apply andb_true_iff in H as [H1 H2].
    apply Qsame_eq in H1. subst q. destruct (pr_val C r _ H2 E) as [P V].
    assert (K : low_high_ratio (Div e1 (Add (Num 1.0) e2_2)) = low_high_ratio (Div e2_2 (Add (Num 1) e2_2))).
    { clear. destruct e2_2; reflexivity. }
    rewrite K. split; [exact P|].
    assert (G : rval M (envC C) e1 = rval M (envC C) e2_2 ->
      exists F, (0 < F)%R /\ rval M (envC C) (Div e1 (Add (Num 1.0) e2_2)) =
      (F * (low_high_ratio (Div e2_2 (Add (Num 1) e2_2)) * third_body r C /
           (1 + low_high_ratio (Div e2_2 (Add (Num 1) e2_2)) * third_body r C)))%R).
    { intros X. exists 1%R. split; [lra|].
      change (rval M (envC C) (Div e1 (Add (Num 1.0) e2_2)))
        with (rval M (envC C) e1 / (Q2R 1.0 + rval M (envC C) e2_2))%R.
      rewrite X, V. replace (Q2R 1.0) with 1%R by (unfold Q2R; cbn; lra). ring. }
    assert (G2 : forall c y, e1 = Mul (Pow (Num c) y) e2_2 -> Qsame c 10.0 = true ->
      exists F, (0 < F)%R /\ rval M (envC C) (Div e1 (Add (Num 1.0) e2_2)) =
      (F * (low_high_ratio (Div e2_2 (Add (Num 1) e2_2)) * third_body r C /
           (1 + low_high_ratio (Div e2_2 (Add (Num 1) e2_2)) * third_body r C)))%R).
    { intros c y -> Hc. apply Qsame_eq in Hc. subst c.
      exists (m_pow M (Q2R 10.0) (rval M (envC C) y)). split.
      - apply HPow. unfold Q2R. cbn. lra.
      - change (rval M (envC C) (Div (Mul (Pow (Num 10.0) y) e2_2) (Add (Num 1.0) e2_2)))
          with (m_pow M (Q2R 10.0) (rval M (envC C) y) * rval M (envC C) e2_2 / (Q2R 1.0 + rval M (envC C) e2_2))%R.
        rewrite V. replace (Q2R 1.0) with 1%R by (unfold Q2R; cbn; lra). unfold Rdiv. ring. }
    assert (D : expr_eqb e2_2 e1 = true \/
      exists c y, e1 = Mul (Pow (Num c) y) e2_2 /\ Qsame c 10.0 = true).
    { destruct e1; auto. destruct e1_1; auto. destruct e1_1_1; auto.
      apply andb_true_iff in H3 as [A B]. right. apply expr_eqb_eq in B. subst. eauto. }
    destruct D as [D|(c & y & D1 & D2)]; [|eauto]. apply G. apply expr_eqb_eq in D. congruence.
  Qed.
End Values.

Theorem pressure_modifications (M : libm RA) S ch (T p : R) : pmod_ok S ch = true ->
  (forall x : R, 0 < m_exp M x)%R -> (forall x y : R, 0 < x -> 0 < m_pow M x y)%R -> (0 < T)%R -> (0 < p)%R ->
  exists ratio : nat -> R,
    (forall i, i < length (ch_reactions ch) -> (0 < ratio i)%R) /\
    forall C, length C = s_NSP S -> Rsumn (length C) (fun k => nth k C 0%R) = (p / (gas_constant * T))%R ->
    exists pm : list R, lib_get_rxn_pres_mod (A := RA) M S T p C = Ok pm /\ length pm = s_pmod S /\
      forall i, i < length (ch_reactions ch) ->
        match rx_kind (rxn ch i) with
        | Elementary => True
        | ThreeBody => nth (rank pdep (ch_reactions ch) i) pm 0%R = third_body (rxn ch i) C
        | Falloff => exists F, (0 < F)%R /\
            nth (rank pdep (ch_reactions ch) i) pm 0%R =
            (F * (ratio i * third_body (rxn ch i) C / (1 + ratio i * third_body (rxn ch i) C)))%R
        end.
Proof.
  unfold pmod_ok. intros H HE HPow HT Hp.
  destruct (symbolic (rate_sh S) (pmod_locals S) (s_get_rxn_pres_mod S)) as [s|] eqn:E; [|discriminate].
  apply andb_true_iff in H as [L H]. apply Nat.eqb_eq in L.
  set (f := fun i => formd (rate_sh S) (pmod_locals S) s v_pres_mod (rank pdep (ch_reactions ch) i)).
  assert (Es : N.to_nat (sizes (rate_sh S ++ pmod_locals S) v_pres_mod) = s_pmod S) by (cbn; lia).
  assert (Rk : forall i, i < length (ch_reactions ch) -> pdep (rxn ch i) = true ->
    rank pdep (ch_reactions ch) i < s_pmod S /\ pmod_form_ok (s_NSP S) (rxn ch i) (f i) = true).
  { intros i Hi R. destruct (rank_nth pdep (mkRx Elementary [] [] false []) _ i Hi R) as [K B].
    fold (rxn ch i) in K. fold (selected pdep ch) in K, B. split; [lia|]. rewrite <- K.
    apply (all_forms_in _ _ _ _ _ _ H). rewrite Es. lia. }
  (* the ratio of a fall-off reaction is positive whatever the concentrations: take all equal *)
  exists (fun i => match rx_kind (rxn ch i) with Falloff => low_high_ratio M T p (f i) | _ => 1%R end). split.
  - intros i Hi. destruct (rx_kind (rxn ch i)) eqn:K; try lra.
    destruct (Rk i Hi) as [_ F]; [unfold pdep; rewrite K; reflexivity|].
    unfold pmod_form_ok in F. rewrite K in F. unfold falloff_ok in F.
    destruct (f i); try discriminate. destruct e2; try discriminate. destruct e2_1; try discriminate.
    apply andb_true_iff in F as [F _]. apply andb_true_iff in F as [_ F].
    unfold pr_ok in F. destruct e2_2; try discriminate. destruct e2_2_1; try discriminate.
    repeat (apply andb_true_iff in F as [F ?]). cbn [low_high_ratio].
    apply Rdiv_lt_0_compat; apply positive_env0; assumption.
  - intros C LC EC.
    set (ins := [(v_T, [T] : list (num RA)); (v_pres, [p]); (v_C, C)]).
    assert (Hsh : shape ins = rate_sh S) by (unfold rate_sh; rewrite <- LC; reflexivity).
    unfold lib_get_rxn_pres_mod. fold ins.
    rewrite (call_closed M _ ins (pmod_locals S) [v_pres_mod] s).
    2: { rewrite Hsh. exact E. }
    2: { rewrite Hsh. intros v [<-|[]]; eapply all_forms_weaken; eassumption. }
    rewrite Hsh. cbn [map]. rewrite Es. cbn [bind only].
    eexists. split; [reflexivity|].
    split; [rewrite map_length, seq_length; reflexivity|].
    intros i Hi. specialize (Rk i Hi). unfold pmod_form_ok, pdep in Rk.
    destruct (rx_kind (rxn ch i)) eqn:K; [exact I| |];
      destruct (Rk eq_refl) as [B F];
      rewrite (nth_map_seq (fun i => val M (argument ins) (formd (rate_sh S) (pmod_locals S) s v_pres_mod i)))
        by exact B; rewrite <- LC in F.
    + apply (third_val M T p C _ _ F EC).
    + apply (falloff_val M HE HPow T p HT Hp C _ _ F EC).
Qed.

Lemma pmod_all m : pmod_ok (library m) (chem m) = true.
Proof. destruct m; vm_compute; reflexivity. Qed.
