(** [eval_spec_rates]: the production rates against the stoichiometry of chem.cti. *)
From Coq Require Import List ZArith NArith QArith Qreals Reals Bool Lra Lia.
From Verif Require Import Outcome Arith MechLang MechSym MechSrc MechCall MechReal MechPoly MechChem Mechanisms.
Import ListNotations.
Local Open Scope nat_scope.

(** Reaction [i] of a mechanism; not a function of /repo. *)
Definition rxn (ch : chemistry) (i : nat) : reaction := nth i (ch_reactions ch) (mkRx Elementary [] [] false []).

(** Net rate of progress of reaction [i], from the forward rates, the reverse rates of the
    reversible reactions and the modifications of the pressure-dependent ones. *)
Definition progress (ch : chemistry) (fwd rev pm : list R) (i : nat) : R :=
  ((nth i fwd 0 - (if rx_rev (rxn ch i) then nth (rank rx_rev (ch_reactions ch) i) rev 0 else 0)) *
   (if pdep (rxn ch i) then nth (rank pdep (ch_reactions ch) i) pm 0 else 1))%R.

(** Net stoichiometric coefficient of species [k] in reaction [i]. *)
Definition nu (ch : chemistry) (i k : nat) : R := Q2R (net (rxn ch i) k).

(** Shape of the arguments of [eval_spec_rates]. *)
Definition spec_sh (S : source) : list (var * nat) :=
  [(v_fwd_rates, s_fwd S); (v_rev_rates, s_rev S); (v_pres_mod, s_pmod S)].

(** A reaction with the position of its reverse rate and of its modification. *)
Definition row (ch : chemistry) (i : nat) : nat * reaction * nat * nat :=
  (i, rxn ch i, rank rx_rev (ch_reactions ch) i, rank pdep (ch_reactions ch) i).

(** All of them. *)
Definition table (ch : chemistry) : list (nat * reaction * nat * nat) :=
  map (row ch) (seq 0 (length (ch_reactions ch))).

(** Terms of a reaction in the production rate of species [k]. *)
Definition row_terms (k : nat) (t : nat * reaction * nat * nat) : poly :=
  let '(i, r, rr, pr) := t in
  if Qeq_bool (net r k) 0 then [] else
    let c := net r k in
    let pm := if pdep r then [Ref v_pres_mod (N.of_nat pr)] else [] in
    (c, Ref v_fwd_rates (N.of_nat i) :: pm) ::
    (if rx_rev r then [(- c, Ref v_rev_rates (N.of_nat rr) :: pm)] else [])%Q.

(** The production rate of species [k] as a polynomial. *)
Definition expected (tb : list (nat * reaction * nat * nat)) (k : nat) : poly :=
  flat_map (row_terms k) tb.

(** The closed forms of [eval_spec_rates] are those polynomials. *)
Definition spec_ok (S : source) (ch : chemistry) : bool :=
  match symbolic (spec_sh S) (spec_locals S) (s_eval_spec_rates S) with
  | None => false
  | Some s =>
      let tb := table ch in
      (1 <=? s_NSP S) && (length (ch_reactions ch) =? s_fwd S) &&
      all_forms (spec_sh S) (spec_locals S) s v_sp_rates (fun k e => peqb (norm e) (expected tb k)) &&
      all_forms (spec_sh S) (spec_locals S) s v_dy_N (fun _ e => peqb (norm e) (expected tb (s_NSP S - 1)))
  end.

Lemma pval_app M rho p q : pval M rho (p ++ q) = (pval M rho p + pval M rho q)%R.
Proof. unfold pval. rewrite map_app, Rsum_app. reflexivity. Qed.

Lemma row_val M rho ch k i :
  pval M rho (row_terms k (row ch i)) =
  (nu ch i k * ((rho v_fwd_rates (N.of_nat i) -
     (if rx_rev (rxn ch i) then rho v_rev_rates (N.of_nat (rank rx_rev (ch_reactions ch) i)) else 0)) *
   (if pdep (rxn ch i) then rho v_pres_mod (N.of_nat (rank pdep (ch_reactions ch) i)) else 1)))%R.
Proof.
  unfold row, row_terms, nu. destruct (Qeq_bool (net (rxn ch i) k) 0) eqn:E.
  - apply Qeq_bool_eq, Qeq_eqR in E. rewrite E, Q2R_0. unfold pval. cbn. ring.
  - unfold pval, mval.
    destruct (pdep (rxn ch i)), (rx_rev (rxn ch i)); cbn [map fst snd Rsum Rprod];
      rewrite ?Q2R_opp; unfold rval; cbn [val]; ring.
Qed.

Lemma expected_val M rho ch k :
  pval M rho (expected (table ch) k) =
  Rsumn (length (ch_reactions ch)) (fun i => nu ch i k * ((rho v_fwd_rates (N.of_nat i) -
     (if rx_rev (rxn ch i) then rho v_rev_rates (N.of_nat (rank rx_rev (ch_reactions ch) i)) else 0)) *
   (if pdep (rxn ch i) then rho v_pres_mod (N.of_nat (rank pdep (ch_reactions ch) i)) else 1)))%R.
Proof.
  unfold expected, table, Rsumn. rewrite flat_map_concat_map, map_map.
  induction (seq 0 (length (ch_reactions ch))) as [|i l IH]; [reflexivity|].
  cbn [map concat Rsum]. rewrite pval_app, IH, row_val. reflexivity.
Qed.

Theorem production M S ch fwd rev pm : spec_ok S ch = true ->
  length fwd = s_fwd S -> length rev = s_rev S -> length pm = s_pmod S ->
  exists (sp : list R) (dyN : R), lib_eval_spec_rates (A := RA) M S fwd rev pm = Ok (sp, dyN) /\
    length sp = s_NSP S - 1 /\
    forall k, k < s_NSP S ->
      nth k (sp ++ [dyN]) 0%R =
      Rsumn (length (ch_reactions ch)) (fun i => nu ch i k * progress ch fwd rev pm i)%R.
Proof.
  unfold spec_ok. intros H Lf Lr Lp.
  destruct (symbolic (spec_sh S) (spec_locals S) (s_eval_spec_rates S)) as [s|] eqn:E; [|discriminate].
  apply andb_true_iff in H as [H H2]. apply andb_true_iff in H as [H H1]. apply andb_true_iff in H as [H0 H].
  apply Nat.leb_le in H0. apply Nat.eqb_eq in H.
  set (ins := [(v_fwd_rates, fwd); (v_rev_rates, rev); (v_pres_mod, pm)] : list (var * list (num RA))).
  assert (Hsh : shape ins = spec_sh S) by (unfold spec_sh; rewrite <- Lf, <- Lr, <- Lp; reflexivity).
  unfold lib_eval_spec_rates. fold ins.
  rewrite (call_closed M _ ins (spec_locals S) [v_sp_rates; v_dy_N] s).
  2: { rewrite Hsh. exact E. }
  2: { rewrite Hsh. intros v [<-|[<-|[]]]; eapply all_forms_weaken; eassumption. }
  rewrite Hsh. cbn [map].
  replace (N.to_nat (sizes (spec_sh S ++ spec_locals S) v_dy_N)) with 1 by reflexivity.
  assert (E1 : N.to_nat (sizes (spec_sh S ++ spec_locals S) v_sp_rates) = s_NSP S - 1)
    by (cbn; lia).
  rewrite E1. cbn [bind seq map].
  eexists _, _. split; [reflexivity|]. split; [rewrite map_length, seq_length; reflexivity|].
  assert (G : forall k e, peqb (norm e) (expected (table ch) k) = true ->
    val M (argument ins) e =
    Rsumn (length (ch_reactions ch)) (fun i => nu ch i k * progress ch fwd rev pm i)%R).
  { intros k e P. apply (peqb_val M (argument ins)) in P. rewrite norm_val, expected_val in P.
    unfold rval in P. rewrite P. unfold Rsumn. f_equal. apply map_ext. intros i.
    unfold argument, progress. cbn [find fst snd var_eqb var_id Nat.eqb ins].
    rewrite !Nat2N.id. cbn [zero lit RA]. rewrite Q2R_0. reflexivity. }
  intros k Hk. destruct (Nat.eq_dec k (s_NSP S - 1)) as [->|N].
  - rewrite app_nth2; rewrite map_length, seq_length; [|lia]. rewrite Nat.sub_diag. cbn [nth].
    destruct (all_forms_in _ _ _ _ _ 0 H2) as [_ P]; [cbn; lia|]. apply (G _ _ P).
  - rewrite app_nth1 by (rewrite map_length, seq_length; lia).
    destruct (all_forms_in _ _ _ _ _ k H1) as [_ P]; [rewrite E1; lia|].
    rewrite <- (G _ _ P).
    rewrite (nth_indep _ _ (val M (argument ins) (formd (spec_sh S) (spec_locals S) s v_sp_rates 0)))
      by (rewrite map_length, seq_length; lia).
    rewrite map_nth with (f := fun i => val M (argument ins) (formd (spec_sh S) (spec_locals S) s v_sp_rates i)).
    rewrite seq_nth by lia. reflexivity.
Qed.

(** Atoms of element [e] in species [k]. *)
Definition atoms (ch : chemistry) (e k : nat) : nat := nth e (nth k (ch_atoms ch) []) 0.

(** Change of element [e] in reaction [r]. *)
Definition imbalance (ch : chemistry) (e : nat) (r : reaction) : Q :=
  fold_right (fun k s => inject_Z (Z.of_nat (atoms ch e k)) * net r k + s)%Q 0%Q (seq 0 (ch_species ch)).

(** Every reaction is balanced in every element. *)
Definition balanced (ch : chemistry) : bool :=
  forallb (fun e => forallb (fun r => Qeq_bool (imbalance ch e r) 0) (ch_reactions ch)) (seq 0 (ch_elements ch)).

Lemma balanced_in ch e i : balanced ch = true -> e < ch_elements ch -> i < length (ch_reactions ch) ->
  Rsumn (ch_species ch) (fun k => INR (atoms ch e k) * nu ch i k)%R = 0%R.
Proof.
  intros H He Hi. unfold balanced in H. rewrite forallb_forall in H.
  specialize (H e ltac:(apply in_seq; lia)). rewrite forallb_forall in H.
  specialize (H (rxn ch i) ltac:(apply nth_In; exact Hi)).
  apply Qeq_bool_eq, Qeq_eqR in H. rewrite Q2R_0 in H. rewrite <- H. unfold imbalance.
  rewrite (Q2R_sum (fun k => inject_Z (Z.of_nat (atoms ch e k)) * net (rxn ch i) k)%Q).
  apply Rsum_ext. intros k _. rewrite Q2R_mult. unfold nu. f_equal.
  unfold Q2R. cbn. rewrite <- INR_IZR_INZ. field.
Qed.

Theorem production_balanced M S ch fwd rev pm : spec_ok S ch = true -> balanced ch = true ->
  ch_species ch = s_NSP S ->
  length fwd = s_fwd S -> length rev = s_rev S -> length pm = s_pmod S ->
  exists (sp : list R) (dyN : R), lib_eval_spec_rates (A := RA) M S fwd rev pm = Ok (sp, dyN) /\
    forall e, e < ch_elements ch ->
      Rsumn (ch_species ch) (fun k => INR (atoms ch e k) * nth k (sp ++ [dyN]) 0)%R = 0%R.
Proof.
  intros H B N Lf Lr Lp. destruct (production M S ch fwd rev pm H Lf Lr Lp) as (sp & dyN & E & _ & G).
  exists sp, dyN. split; [exact E|]. intros e He.
  rewrite (Rsumn_ext _ _ (fun k => Rsumn (length (ch_reactions ch))
    (fun i => INR (atoms ch e k) * nu ch i k * progress ch fwd rev pm i)%R)).
  - unfold Rsumn. rewrite (Rsum_swap (fun k i => INR (atoms ch e k) * nu ch i k * progress ch fwd rev pm i)%R).
    apply Rsum_zero. intros i Hi. apply in_seq in Hi.
    rewrite (Rsum_ext _ (fun k => progress ch fwd rev pm i * (INR (atoms ch e k) * nu ch i k))%R)
      by (intros; ring).
    rewrite (Rsum_scal (progress ch fwd rev pm i) (fun k => INR (atoms ch e k) * nu ch i k)%R).
    change (Rsum (map (fun k => INR (atoms ch e k) * nu ch i k)%R (seq 0 (ch_species ch))))
      with (Rsumn (ch_species ch) (fun k => INR (atoms ch e k) * nu ch i k)%R).
    rewrite (balanced_in ch e i B He) by lia. ring.
  - intros k Hk. rewrite (G k) by lia. unfold Rsumn.
    rewrite <- (Rsum_scal (INR (atoms ch e k)) (fun i => nu ch i k * progress ch fwd rev pm i)%R).
    apply Rsum_ext. intros; ring.
Qed.

Lemma spec_all m : spec_ok (library m) (chem m) = true.
Proof. destruct m; vm_compute; reflexivity. Qed.

Lemma balanced_all m : balanced (chem m) = true.
Proof. destruct m; vm_compute; reflexivity. Qed.

Lemma species_all m : ch_species (chem m) = s_NSP (library m).
Proof. destruct m; reflexivity. Qed.
