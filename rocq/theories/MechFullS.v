(** [eval_jacob] of drm19: soundness of the checks in MechFullT.v.
    The definitions below are not functions of /repo. *)
From Coq Require Import List ZArith NArith QArith Qabs Qreals Reals Bool Lra Lia.
From Verif Require Import Outcome Arith MechLang MechSym MechSrc MechCall MechReal MechPoly MechChem Mechanisms
  MechSpec MechRate MechPmod MechThermo MechConc MechDydt MechRhs MechData MechExp MechLaurent MechNasa MechKin MechArr MechJac
  MechJacT MechJacS MechFull MechFullT.
Import ListNotations.
Local Open Scope nat_scope.

(** ** Sums *)

Section Sums.
  Variable M : libm RA.
  Variable rho : var -> N -> R.
  Notation rval := (rval M rho).
  Local Open Scope R_scope.

  Lemma strip1_val e : rval e = Q2R (fst (strip1 e)) * rval (snd (strip1 e)).
  Proof.
    assert (triv : forall e, rval e = Q2R 1 * rval e) by (intros; rewrite Q2R_1; ring).
    destruct e; try apply triv; cbn [strip1].
    - cbn [fst snd]. reflexivity.
    - destruct e1; try apply (triv (Mul _ e2)); reflexivity.
  Qed.

  Lemma peel_val n : forall e acc x l, peel n e acc = Some (x, l) ->
    rval x + Rsum (map rval l) = rval e + Rsum (map rval acc).
  Proof.
    induction n as [|n IH]; intros e acc x l; cbn [peel].
    - intros [= <- <-]. reflexivity.
    - destruct e; try discriminate. intros H. apply IH in H. rewrite H. cbn [map Rsum].
      change (rval (Add e1 e2)) with (rval e1 + rval e2). ring.
  Qed.

  Lemma parts_of_val v k n e b l : parts_of v k n e = Some (b, l) ->
    rval e = (if b then rho v (N.of_nat k) else 0) + Rsum (map rval l).
  Proof.
    unfold parts_of.
    assert (G : match n with
      | O => None
      | S n' => match peel n' e [] with Some (x, l) => Some (false, x :: l) | None => None end
      end = Some (b, l) -> rval e = (if b then rho v (N.of_nat k) else 0) + Rsum (map rval l)).
    { destruct n; [discriminate|]. destruct (peel n e []) as [[x l']|] eqn:P; [|discriminate]. intros [= <- <-].
      apply peel_val in P. cbn [map Rsum] in *. lra. }
    destruct (peel n e []) as [[x l']|] eqn:P; [|exact G].
    destruct (expr_eqb x (Ref v (N.of_nat k))) eqn:E; [|exact G]. intros [= <- <-].
    apply expr_eqb_eq in E. subst x. apply peel_val in P. cbn [map Rsum] in P.
    change (rval (Ref v (N.of_nat k))) with (rho v (N.of_nat k)) in P. lra.
  Qed.
End Sums.

Lemma qclose_val eps x y : qclose eps x y = true -> (Rabs (Q2R x - Q2R y) <= Q2R eps * Rabs (Q2R y))%R.
Proof.
  unfold qclose. intros H. apply Qle_bool_iff, Qle_Rle in H. rewrite Q2R_mult, !Q2R_abs, Q2R_qplus, Q2R_opp in H. exact H.
Qed.

Lemma at_jk_lt m j k : j < s_NSP (library m) -> k < s_NSP (library m) -> at_jk m j k < s_NSP (library m) * s_NSP (library m).
Proof. unfold at_jk. intros Hj Hk. nia. Qed.

(** ** One function *)

Section Parts.
  Variable M : libm RA.
  Variable m : mechanism.
  Variables ws us : list Q.
  Variable NN : list nasa7.
  Variable rs : smem.
  Variables T p mm mw rho : R.
  Variables conc fwd rev pm sp dB : list R.
  Notation S := (library m).
  Hypothesis Lc : length conc = s_NSP S.
  Hypothesis Lf : length fwd = s_fwd S.
  Hypothesis Lr : length rev = s_rev S.
  Hypothesis Lp : length pm = s_pmod S.
  Hypothesis Ls : length sp = s_NSP S.
  Hypothesis Lb : length dB = s_NSP S.

  (** Values of the arguments. *)
  Definition env_all (jac : list R) : var -> N -> R :=
    argument (A := RA) (all_ins (A := RA) T p conc fwd rev pm sp mm mw rho dB jac).

  (** Numbers are the values of expressions that pass the check of reaction [i]. *)
  Definition column_of (i : nat) (x : nat -> R) : Prop :=
    exists (jac : list R) (a : atoms), atoms_ok m NN (rate_k m rs i) i a = true /\
      forall j, j < s_NSP S - 1 ->
      exists e, species_ok m us (expd [] (rate_k m rs i)) a i j e = true /\ x j = rval M (env_all jac) e.

  (** An entry of the Jacobian. *)
  Definition entry (jac : list R) (j k : nat) : R := nth (at_jk m (j + 1) (k + 1)) jac 0%R.

  (** Sum of the contributions of the reactions. *)
  Definition contributions (x : nat -> nat -> R) (j k : nat) (l : list nat) : R :=
    Rsum (map (fun i => Q2R (coef_j m ws us k i j) * x i j)%R l).

  (** Sum of their absolute values. *)
  Definition contributions_abs (x : nat -> nat -> R) (j k : nat) (l : list nat) : R :=
    Rsum (map (fun i => Rabs (Q2R (coef_j m ws us k i j)) * Rabs (x i j))%R l).

  Lemma sum_close (eps : R) (l : list (nat * expr)) (f : nat -> R) (v : nat * expr -> R) (c : nat -> R) :
    (forall t, In t l -> Rabs (v t - c (fst t) * f (fst t)) <= eps * (Rabs (c (fst t)) * Rabs (f (fst t))))%R ->
    (Rabs (Rsum (map v l) - Rsum (map (fun i => c i * f i)%R (map fst l))) <=
     eps * Rsum (map (fun i => Rabs (c i) * Rabs (f i))%R (map fst l)))%R.
  Proof.
    induction l as [|t l IH]; intros H; cbn [map Rsum].
    - rewrite Rminus_0_r, Rabs_R0. lra.
    - assert (IH' := IH (fun t I => H t (or_intror I))). specialize (H t (or_introl eq_refl)).
      match goal with |- (Rabs ?x <= _)%R => replace x with ((v t - c (fst t) * f (fst t)) +
        (Rsum (map v l) - Rsum (map (fun i => (c i * f i)%R) (map fst l))))%R by ring end.
      eapply Rle_trans; [apply Rabs_triang|]. rewrite Rmult_plus_distr_l. apply Rplus_le_compat; assumption.
  Qed.

  Lemma full_call first count body (jac : list R) : full_ok m ws us NN rs first count body = true ->
    length jac = s_NSP S * s_NSP S ->
    (forall j k, j < s_NSP S - 1 -> k < s_NSP S - 1 -> involved m k 0 first = [] -> entry jac j k = 0%R) ->
    exists (jac' : list R) (x : nat -> nat -> R),
      call M body (all_ins (A := RA) T p conc fwd rev pm sp mm mw rho dB jac) part_locals [v_jac] = Ok [jac'] /\
      length jac' = s_NSP S * s_NSP S /\
      (forall j k, j < s_NSP S - 1 -> k < s_NSP S - 1 ->
        (Rabs (entry jac' j k - (entry jac j k + contributions x j k (involved m k first count))) <=
         Q2R tolE * contributions_abs x j k (involved m k first count))%R) /\
      forall i, first <= i < first + count -> column_of i (x i).
  Proof.
    unfold full_ok. intros H Lj Hz.
    destruct (symbolic (all_sh S) part_locals body) as [s|] eqn:E; [|discriminate].
    set (n := s_NSP S - 1) in *. set (Js := map (col_js m first count s) (seq 0 n)) in H.
    set (At := part_atoms m first count Js) in H. set (kfs := map (rate_k m rs) (seq first count)) in H. cbv zeta in H.
    apply andb_true_iff in H as [H H4]. apply andb_true_iff in H as [H H3]. apply andb_true_iff in H as [H1 H2].
    set (ins := all_ins (A := RA) T p conc fwd rev pm sp mm mw rho dB jac).
    assert (Hsh : shape ins = all_sh S).
    { unfold ins, all_ins, all_sh, shape. cbn [map fst snd].
      change (@length (num RA)) with (@length R). rewrite Lc, Lf, Lr, Lp, Ls, Lb, Lj. reflexivity. }
    fold ins. rewrite (call_closed M _ ins part_locals [v_jac] s).
    2: { rewrite Hsh. exact E. }
    2: { rewrite Hsh. intros v [<-|[]]; eapply all_forms_weaken; eassumption. }
    assert (Ej : N.to_nat (sizes (all_sh S ++ part_locals) v_jac) = s_NSP S * s_NSP S) by (cbn; lia).
    rewrite Hsh. cbn [map]. rewrite Ej. set (a := argument ins).
    assert (LJ : length Js = n) by (unfold Js; rewrite map_length, seq_length; reflexivity).
    assert (inJ : forall j, j < n -> In (j, nth j Js []) (combine (seq 0 n) Js)).
    { intros j Hj. replace (j, nth j Js []) with (nth j (combine (seq 0 n) Js) (0, [])).
      - apply nth_In. rewrite combine_length, seq_length. lia.
      - rewrite combine_nth by (rewrite seq_length; lia). rewrite seq_nth by lia. reflexivity. }
    eexists _, (fun i j => rval M a (nth (i - first) (nth j Js []) (Num 0))). split; [reflexivity|].
    split; [rewrite map_length, seq_length; reflexivity|].
    split.
    - intros j k Hj Hk. rewrite forallb_forall in H2. specialize (H2 _ (inJ j Hj)). cbn [fst snd] in H2.
      unfold col_ok in H2. rewrite forallb_forall in H2. specialize (H2 k ltac:(apply in_seq; lia)).
      pose proof (at_jk_lt m (j + 1) (k + 1) ltac:(lia) ltac:(lia)) as Hb.
      unfold entry at 1. rewrite (nth_map_seq (fun i => val M a (formd (all_sh S) part_locals s v_jac i))) by exact Hb.
      set (ix := at_jk m (j + 1) (k + 1)) in *. set (e := formd (all_sh S) part_locals s v_jac ix) in *.
      unfold entry_jk in H2. fold ix in H2.
      destruct (parts_of v_jac ix (length (involved m k first count)) e) as [[b L]|] eqn:P; [|discriminate].
      apply (parts_of_val M a) in P. change (val M a e) with (rval M a e).
      destruct (b || (length (involved m k 0 first) =? 0)) eqn:B; [|discriminate].
      destruct (zip (involved m k first count) L) as [l|] eqn:Z; [|discriminate]. apply zip_spec in Z as [Z1 Z2].
      assert (Ob : (if b then a v_jac (N.of_nat ix) else 0%R) = entry jac j k).
      { assert (Aj : a v_jac (N.of_nat ix) = entry jac j k).
        { unfold entry. fold ix. unfold a, ins, argument, all_ins. cbn [find fst snd var_eqb var_id Nat.eqb]. rewrite Nat2N.id.
          cbn [zero lit RA]. rewrite Q2R_0. reflexivity. }
        destruct b; [exact Aj|]. cbn [orb] in B. apply Nat.eqb_eq in B. symmetry. apply Hz; [exact Hj|exact Hk|].
        destruct (involved m k 0 first); [reflexivity|discriminate]. }
      assert (P' : rval M a e = (entry jac j k + Rsum (map (rval M a) L))%R) by (eapply eq_trans; [exact P|]; f_equal; exact Ob).
      rewrite P'. unfold contributions, contributions_abs. rewrite <- Z1, <- Z2, map_map.
      match goal with |- (Rabs ?x <= _)%R => replace x with
        (Rsum (map (fun t => rval M a (snd t)) l) - Rsum (map (fun i => (Q2R (coef_j m ws us k i j) * rval M a (nth (i - first) (nth j Js []) (Num 0)))%R) (map fst l)))%R by ring end.
      apply (sum_close (Q2R tolE) l (fun i => rval M a (nth (i - first) (nth j Js []) (Num 0))) (fun t => rval M a (snd t))
        (fun i => Q2R (coef_j m ws us k i j))).
      intros t It. rewrite forallb_forall in H2. specialize (H2 t It).
      rewrite (strip1_val M a (snd t)). destruct (strip1 (snd t)) as [c e']. cbn [fst snd].
      apply andb_true_iff in H2 as [P1 P2]. apply qclose_val in P1. apply expr_eqb_eq in P2. subst e'.
      rewrite <- Rmult_minus_distr_r, Rabs_mult, <- Rmult_assoc. apply Rmult_le_compat_r; [apply Rabs_pos|exact P1].
    - intros i Hi. set (q := i - first). assert (Hq : q < count) by (unfold q; lia). assert (Eq : first + q = i) by (unfold q; lia).
      assert (Lk : length kfs = count) by (unfold kfs; rewrite map_length, seq_length; reflexivity).
      assert (LA : length At = count) by (unfold At, part_atoms; rewrite map_length, seq_length; reflexivity).
      assert (inA : In (i, rate_k m rs i, nth q At (Num 0, Num 0, Num 0)) (combine (combine (seq first count) kfs) At)).
      { replace (i, rate_k m rs i, nth q At (Num 0, Num 0, Num 0)) with
          (nth q (combine (combine (seq first count) kfs) At) (0, rate_k m rs 0, (Num 0, Num 0, Num 0))).
        - apply nth_In. rewrite !combine_length, seq_length. lia.
        - rewrite combine_nth by (transitivity count; [rewrite combine_length, seq_length; lia|symmetry; exact LA]).
          rewrite combine_nth by (rewrite seq_length, Lk; reflexivity). rewrite seq_nth by exact Hq.
          unfold kfs. rewrite map_nth, seq_nth by exact Hq. rewrite Eq. reflexivity. }
      exists jac, (nth q At (Num 0, Num 0, Num 0)).
      rewrite forallb_forall in H3. split; [apply (H3 _ inA)|].
      intros j Hj. rewrite forallb_forall in H4. specialize (H4 _ inA). cbv beta iota zeta in H4.
      rewrite forallb_forall in H4. specialize (H4 _ (inJ j Hj)). cbn [fst snd] in H4.
      exists (nth q (nth j Js []) (Num 0)). split; [exact H4|reflexivity].
  Qed.

  (** *** All functions *)

  Lemma contributions_app x j k a b : contributions x j k (a ++ b) = (contributions x j k a + contributions x j k b)%R.
  Proof. unfold contributions. rewrite map_app, Rsum_app. reflexivity. Qed.

  Lemma contributions_abs_app x j k a b :
    contributions_abs x j k (a ++ b) = (contributions_abs x j k a + contributions_abs x j k b)%R.
  Proof. unfold contributions_abs. rewrite map_app, Rsum_app. reflexivity. Qed.

  Lemma contributions_ext x z j k l : (forall i, In i l -> x i j = z i j) -> contributions x j k l = contributions z j k l.
  Proof. intros H. unfold contributions. apply Rsum_ext. intros i Hi. rewrite (H i Hi). reflexivity. Qed.

  Lemma contributions_abs_ext x z j k l : (forall i, In i l -> x i j = z i j) -> contributions_abs x j k l = contributions_abs z j k l.
  Proof. intros H. unfold contributions_abs. apply Rsum_ext. intros i Hi. rewrite (H i Hi). reflexivity. Qed.

  Lemma fulls_call l : forall first (jac : list R), fulls_ok m ws us NN rs first l = true -> length jac = s_NSP S * s_NSP S ->
    (forall j k, j < s_NSP S - 1 -> k < s_NSP S - 1 -> involved m k 0 first = [] -> entry jac j k = 0%R) ->
    exists (jac' : list R) (x : nat -> nat -> R),
      lib_all_parts M T p conc fwd rev pm sp mm mw rho dB l jac = Ok jac' /\
      length jac' = s_NSP S * s_NSP S /\ first <= length (ch_reactions (chem m)) /\
      (forall j k, j < s_NSP S - 1 -> k < s_NSP S - 1 ->
        (Rabs (entry jac' j k - (entry jac j k + contributions x j k (involved m k first (length (ch_reactions (chem m)) - first)))) <=
         Q2R tolE * contributions_abs x j k (involved m k first (length (ch_reactions (chem m)) - first)))%R) /\
      forall i, first <= i < length (ch_reactions (chem m)) -> column_of i (x i).
  Proof.
    induction l as [|[count body] l IH]; intros first jac H Lj Hz; cbn [fulls_ok] in H.
    - apply Nat.eqb_eq in H. exists jac, (fun _ _ => 0%R). cbn [lib_all_parts]. split; [reflexivity|].
      split; [exact Lj|]. split; [lia|]. rewrite <- H, Nat.sub_diag. split; [|lia].
      intros j k _ _. unfold contributions, contributions_abs, involved. cbn [seq filter map Rsum].
      rewrite Rplus_0_r, Rmult_0_r. unfold Rminus. rewrite Rplus_opp_r, Rabs_R0. lra.
    - cbn [fst snd] in H. apply andb_true_iff in H as [H1 H2].
      destruct (full_call first count body jac H1 Lj Hz) as (jac1 & x1 & C1 & L1 & S1 & T1).
      cbn [lib_all_parts snd]. rewrite C1. cbn [bind only].
      destruct (IH (first + count) jac1 H2 L1) as (jac' & x2 & C2 & L2 & B2 & S2 & T2).
      { intros j k Hj Hk HI. rewrite involved_app, Nat.add_0_l in HI. apply app_eq_nil in HI as [K1 K2].
        specialize (S1 j k Hj Hk). rewrite K2, (Hz j k Hj Hk K1) in S1. unfold contributions, contributions_abs in S1.
        cbn [map Rsum] in S1. rewrite Rmult_0_r, Rplus_0_r, Rminus_0_r in S1.
        destruct (Req_dec (entry jac1 j k) 0) as [Z|Z]; [exact Z|]. apply Rabs_pos_lt in Z. lra. }
      exists jac', (fun i => if i <? first + count then x1 i else x2 i).
      split; [exact C2|]. split; [exact L2|]. split; [lia|]. split.
      + intros j k Hj Hk. specialize (S1 j k Hj Hk). specialize (S2 j k Hj Hk).
        replace (length (ch_reactions (chem m)) - first) with (count + (length (ch_reactions (chem m)) - (first + count))) by lia.
        rewrite involved_app, contributions_app, contributions_abs_app.
        rewrite (contributions_ext _ x1) by (intros i Hi; apply involved_in in Hi; destruct (Nat.ltb_spec i (first + count)); [reflexivity|lia]).
        rewrite (contributions_abs_ext _ x1) by (intros i Hi; apply involved_in in Hi; destruct (Nat.ltb_spec i (first + count)); [reflexivity|lia]).
        rewrite (contributions_ext _ x2 j k (involved m k (first + count) _)) by (intros i Hi; apply involved_in in Hi; destruct (Nat.ltb_spec i (first + count)); [lia|reflexivity]).
        rewrite (contributions_abs_ext _ x2 j k (involved m k (first + count) _)) by (intros i Hi; apply involved_in in Hi; destruct (Nat.ltb_spec i (first + count)); [lia|reflexivity]).
        match goal with |- (Rabs ?z <= _)%R => replace z with
          ((entry jac1 j k - (entry jac j k + contributions x1 j k (involved m k first count))) +
           (entry jac' j k - (entry jac1 j k + contributions x2 j k (involved m k (first + count) (length (ch_reactions (chem m)) - (first + count))))))%R by ring end.
        eapply Rle_trans; [apply Rabs_triang|]. rewrite Rmult_plus_distr_l. apply Rplus_le_compat; assumption.
      + intros i Hi. destruct (Nat.ltb_spec i (first + count)); [apply T1|apply T2]; lia.
  Qed.
End Parts.
