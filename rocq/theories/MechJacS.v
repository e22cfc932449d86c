(** [eval_jacob]: soundness of the checks in MechJacT.v.
    The definitions below are not functions of /repo. *)
From Coq Require Import List ZArith NArith QArith Qabs Qreals Reals Bool Lra Lia.
From Verif Require Import Outcome Arith MechLang MechSym MechSrc MechCall MechReal MechPoly MechChem Mechanisms
  MechSpec MechRate MechPmod MechThermo MechDydt MechRhs MechData MechExp MechLaurent MechNasa MechKin MechArr MechJac
  MechJacT.
Import ListNotations.
Local Open Scope nat_scope.

(** ** Sums *)

Section Sums.
  Variable M : libm RA.
  Variable rho : var -> N -> R.
  Notation rval := (rval M rho).
  Local Open Scope R_scope.

  Lemma strip_val e : rval e = Q2R (fst (strip e)) * rval (snd (strip e)).
  Proof.
    assert (triv : forall e, rval e = Q2R 1 * rval e) by (intros; rewrite Q2R_1; ring).
    assert (num : forall e q, num_of e = Some q -> rval e = Q2R q) by (intros e0 q; destruct e0; try discriminate; intros [= <-]; reflexivity).
    induction e; try apply triv; cbn [strip].
    - cbn [fst snd]. change (rval (Neg e)) with (Q2R (-1) * rval e). rewrite IHe at 1. rewrite Q2R_opp, Q2R_m1. ring.
    - change (rval (Mul e1 e2)) with (rval e1 * rval e2).
      destruct (num_of e1) as [q|] eqn:N1; [|destruct (num_of e2) as [q|] eqn:N2; [|apply (triv (Mul e1 e2))]]; cbn [fst snd].
      + rewrite (num _ _ N1). rewrite IHe2 at 1. rewrite Q2R_mult. ring.
      + rewrite (num _ _ N2). rewrite IHe1 at 1. rewrite Q2R_mult. ring.
  Qed.

  Lemma chain_val e : forall acc,
    rval (fst (chain e acc)) + Rsum (map rval (snd (chain e acc))) = rval e + Rsum (map rval acc).
  Proof.
    induction e; intros acc; try reflexivity. cbn [chain]. rewrite IHe1. cbn [map Rsum].
    change (rval (Add e1 e2)) with (rval e1 + rval e2). ring.
  Qed.

  Lemma summands_val v k e :
    rval e = (if fst (summands v k e) then rho v (N.of_nat k) else 0) + Rsum (map rval (snd (summands v k e))).
  Proof.
    unfold summands. pose proof (chain_val e []) as H. destruct (chain e []) as [x l]. cbn [fst snd map Rsum] in H.
    destruct (expr_eqb x (Ref v (N.of_nat k))) eqn:E; cbn [fst snd map Rsum].
    - apply expr_eqb_eq in E. subst x. change (rval (Ref v (N.of_nat k))) with (rho v (N.of_nat k)) in H. lra.
    - lra.
  Qed.
End Sums.

Lemma zip_spec {X Y} (a : list X) : forall (b : list Y) l, zip a b = Some l -> map fst l = a /\ map snd l = b.
Proof.
  induction a as [|x a IH]; intros [|y b] l; cbn [zip]; try discriminate.
  - intros [= <-]. auto.
  - destruct (zip a b) as [l'|] eqn:E; [|discriminate]. intros [= <-]. destruct (IH b l' E) as [<- <-]. auto.
Qed.

Lemma involved_app m k first a b : involved m k first (a + b) = involved m k first a ++ involved m k (first + a) b.
Proof. unfold involved. rewrite seq_app, filter_app. reflexivity. Qed.

Lemma involved_in m k first n i : In i (involved m k first n) -> first <= i < first + n.
Proof. unfold involved. intros H. apply filter_In in H as [H _]. apply in_seq in H. exact H. Qed.

(** ** One function *)

Section Parts.
  Variable M : libm RA.
  Variable m : mechanism.
  Variable ws : list Q.
  Variables T p mm mw rho : R.
  Variables conc fwd rev pm sp dB : list R.
  Notation S := (library m).
  Hypothesis Lc : length conc = s_NSP S.
  Hypothesis Lf : length fwd = s_fwd S.
  Hypothesis Lr : length rev = s_rev S.
  Hypothesis Lp : length pm = s_pmod S.
  Hypothesis Ls : length sp = s_NSP S.
  Hypothesis Lb : length dB = s_NSP S.

  (** Values of the arguments. *)
  Definition env (jac : list R) (J1 : R) : var -> N -> R :=
    argument (A := RA) (part_ins (A := RA) T p conc fwd rev pm sp mm mw rho dB jac J1).

  (** A number is the value of an expression that passes the check of reaction [i]. *)
  Definition term_of (i : nat) (x : R) : Prop :=
    exists (jac : list R) (J1 : R) e, term_ok m i e = true /\ x = rval M (env jac J1) e.

  Lemma part_call first count body (jac : list R) (J1 : R) : part_ok m ws first count body = true -> length jac = s_NSP S ->
    (forall k, involved m k 0 first = [] -> nth (k + 1) jac 0%R = 0%R) ->
    exists (jac' : list R) (J1' : R) (j : nat -> R),
      call M body (part_ins (A := RA) T p conc fwd rev pm sp mm mw rho dB jac J1) part_locals [v_jac; v_J_nplusone] = Ok [jac'; [J1']] /\
      length jac' = s_NSP S /\
      (forall k, k < s_NSP S - 1 -> nth (k + 1) jac' 0%R =
        (nth (k + 1) jac 0 + Rsum (map (fun i => Q2R (coef m ws k i) * j i) (involved m k first count)))%R) /\
      forall i, first <= i < first + count -> term_of i (j i).
  Proof.
    unfold part_ok. intros H Lj Hz.
    destruct (symbolic (part_sh S) part_locals body) as [s|] eqn:E; [|discriminate].
    set (Js := part_js m first count s) in H. cbv zeta in H.
    apply andb_true_iff in H as [H H3]. apply andb_true_iff in H as [H1 H2].
    set (ins := part_ins (A := RA) T p conc fwd rev pm sp mm mw rho dB jac J1).
    assert (Hsh : shape ins = part_sh S).
    { unfold ins, part_ins, part_sh, shape. cbn [map fst snd].
      change (@length (num RA)) with (@length R). rewrite Lc, Lf, Lr, Lp, Ls, Lb, Lj. reflexivity. }
    fold ins. rewrite (call_closed M _ ins part_locals [v_jac; v_J_nplusone] s).
    2: { rewrite Hsh. exact E. }
    2: { rewrite Hsh. intros v [<-|[<-|[]]]; eapply all_forms_weaken; eassumption. }
    assert (Ej : N.to_nat (sizes (part_sh S ++ part_locals) v_jac) = s_NSP S) by (cbn; lia).
    rewrite Hsh. cbn [map]. rewrite Ej.
    replace (N.to_nat (sizes (part_sh S ++ part_locals) v_J_nplusone)) with 1 by reflexivity.
    change (seq 0 1) with [0]. cbn [map].
    set (a := argument ins).
    eexists _, _, (fun i => rval M a (nth (i - first) Js (Num 0))). split; [reflexivity|].
    split; [rewrite map_length, seq_length; reflexivity|].
    split.
    - intros k Hk.
      rewrite (nth_map_seq (fun i => val M a (formd (part_sh S) part_locals s v_jac i))) by lia.
      destruct (all_forms_in _ _ _ _ _ (k + 1) H2) as [_ P]; [rewrite Ej; lia|].
      rewrite Nat.add_1_r in P at 1.
      destruct (entry_terms m first count k (formd (part_sh S) part_locals s v_jac (k + 1))) as [l|] eqn:F; [|discriminate].
      unfold entry_terms in F.
      pose proof (summands_val M a v_jac (k + 1) (formd (part_sh S) part_locals s v_jac (k + 1))) as V.
      destruct (summands v_jac (k + 1) (formd (part_sh S) part_locals s v_jac (k + 1))) as [b L]. cbn [fst snd] in V.
      destruct (b || (length (involved m k 0 first) =? 0)) eqn:B; [|discriminate].
      apply zip_spec in F as [F1 F2].
      change (val M a (formd (part_sh S) part_locals s v_jac (k + 1)))
        with (rval M a (formd (part_sh S) part_locals s v_jac (k + 1))). rewrite V. f_equal.
      + assert (Aj : a v_jac (N.of_nat (k + 1)) = nth (k + 1) jac 0%R).
        { unfold a, ins, argument, part_ins. cbn [find fst snd var_eqb var_id Nat.eqb]. rewrite Nat2N.id.
          cbn [zero lit RA]. rewrite Q2R_0. reflexivity. }
        destruct b; [exact Aj|]. cbn [orb] in B. apply Nat.eqb_eq in B. symmetry. apply Hz.
        destruct (involved m k 0 first); [reflexivity|discriminate].
      + rewrite <- F1, <- F2, !map_map. apply Rsum_ext. intros t It.
        rewrite forallb_forall in P. specialize (P t It).
        rewrite (strip_val M a (snd t)). destruct (strip (snd t)) as [c e]. cbn [fst snd].
        apply andb_true_iff in P as [P1 P2]. apply Qeq_bool_eq, Qeq_eqR in P1. apply expr_eqb_eq in P2. subst e.
        rewrite P1. reflexivity.
    - intros i Hi. exists jac, J1, (nth (i - first) Js (Num 0)). split; [|reflexivity].
      rewrite forallb_forall in H3.
      assert (LJ : length Js = count) by (unfold Js, part_js; rewrite map_length, seq_length; reflexivity).
      specialize (H3 (i, nth (i - first) Js (Num 0))). cbn [fst snd] in H3. apply H3.
      replace (i, nth (i - first) Js (Num 0)) with (nth (i - first) (combine (seq first count) Js) (0, Num 0)).
      + apply nth_In. rewrite combine_length, seq_length. lia.
      + rewrite combine_nth by (rewrite seq_length; lia). rewrite seq_nth by lia. f_equal. lia.
  Qed.

  (** *** All functions *)

  Lemma parts_call l : forall first (jac : list R) (J1 : R), parts_ok m ws first l = true -> length jac = s_NSP S ->
    (forall k, involved m k 0 first = [] -> nth (k + 1) jac 0%R = 0%R) ->
    exists (jac' : list R) (J1' : R) (j : nat -> R),
      lib_jac_parts M T p conc fwd rev pm sp mm mw rho dB l jac J1 = Ok (jac', J1') /\
      length jac' = s_NSP S /\ first <= length (ch_reactions (chem m)) /\
      (forall k, k < s_NSP S - 1 -> nth (k + 1) jac' 0%R =
        (nth (k + 1) jac 0 + Rsum (map (fun i => Q2R (coef m ws k i) * j i)
                                     (involved m k first (length (ch_reactions (chem m)) - first))))%R) /\
      forall i, first <= i < length (ch_reactions (chem m)) -> term_of i (j i).
  Proof.
    induction l as [|[count body] l IH]; intros first jac J1 H Lj Hz; cbn [parts_ok] in H.
    - apply Nat.eqb_eq in H. exists jac, J1, (fun _ => 0%R). cbn [lib_jac_parts]. split; [reflexivity|].
      split; [exact Lj|]. split; [lia|]. rewrite <- H, Nat.sub_diag. split; [|lia].
      intros k _. cbn. ring.
    - cbn [fst snd] in H. apply andb_true_iff in H as [H1 H2].
      destruct (part_call first count body jac J1 H1 Lj Hz) as (jac1 & J2 & j1 & C1 & L1 & S1 & T1).
      cbn [lib_jac_parts snd]. rewrite C1. cbn [bind].
      destruct (IH (first + count) jac1 J2 H2 L1) as (jac' & J1' & j2 & C2 & L2 & B2 & S2 & T2).
      { intros k Hk. rewrite involved_app, Nat.add_0_l in Hk. apply app_eq_nil in Hk as [K1 K2].
        destruct (Nat.lt_ge_cases k (s_NSP S - 1)) as [L|L].
        - rewrite (S1 k L), K2, (Hz k K1). cbn. ring.
        - apply nth_overflow. lia. }
      exists jac', J1', (fun i => if i <? first + count then j1 i else j2 i).
      split; [exact C2|]. split; [exact L2|]. split; [lia|]. split.
      + intros k Hk. rewrite (S2 k Hk), (S1 k Hk).
        replace (length (ch_reactions (chem m)) - first) with (count + (length (ch_reactions (chem m)) - (first + count))) by lia.
        rewrite involved_app, map_app, Rsum_app, Rplus_assoc. f_equal. f_equal.
        * apply Rsum_ext. intros i Hi. apply involved_in in Hi. destruct (Nat.ltb_spec i (first + count)); [reflexivity|lia].
        * apply Rsum_ext. intros i Hi. apply involved_in in Hi. destruct (Nat.ltb_spec i (first + count)); [lia|reflexivity].
      + intros i Hi. destruct (Nat.ltb_spec i (first + count)); [apply T1|apply T2]; lia.
  Qed.
End Parts.
