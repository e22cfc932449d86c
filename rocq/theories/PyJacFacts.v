(** The cell solver pyJac + ode_pyJac + seulex: safety and independence of the past. *)
From Coq Require Import List Arith ZArith QArith Bool Lia.
From Verif Require Import Outcome Arith ChemistryModel ChemFacts ChemSim ChemBalance OdeSolver Seulex
  SeulexMono SeulexSafe SeulexRun PyJac.
Import ListNotations.
Local Open Scope nat_scope.

Lemma idx_lt {X} (l : list X) i : i < length l -> exists v, idx l i = Ok v.
Proof.
  intros Hi. unfold idx. destruct (nth_error l i) eqn:E; eauto. apply nth_error_None in E. lia.
Qed.

Section System.
  Context {A : Arith}.
  Variable mc : mech A.
  Variable ns : nat.

  Lemma pj_memoryless : sys_memoryless (pj_sys mc ns).
  Proof.
    split; intros s1 s2 x y; simpl; unfold pj_derivs, pj_jac;
      destruct (to_pyJac ns y) as [[[p v] s]| | |]; simpl; auto.
    - destruct (c_dydt mc ns p v); simpl; auto.
    - destruct (c_jacob mc (ns * ns) p v); simpl; auto. destruct (mapM _ _); simpl; auto.
  Qed.

  Hypothesis HN : NSP mc = ns.
  Hypothesis N1 : 1 <= ns.

  Lemma to_pyJac_ok (c : list (num A)) : length c = ns + 1 ->
    exists p y s, to_pyJac ns c = Ok (p, y, s) /\ length y = ns + 1.
  Proof.
    intros L. unfold to_pyJac. destruct (Nat.eqb_spec ns 0); [lia|].
    destruct (idx_lt c 0) as (T & ->); [lia|]. destruct (idx_lt c ns) as (p & ->); [lia|]. cbn [bind].
    destruct (mapM_total (fun i => let* v := idx c (i + 1) in Ok (foam_max A v (zero A))) (seq 0 (ns - 1)))
      as (ys & E).
    { intros i Hi. apply in_seq in Hi. destruct (idx_lt c (i + 1)) as (v & ->); [lia|]. simpl. eauto. }
    rewrite E. cbn [bind]. do 3 eexists. split; [reflexivity|].
    apply mapM_length in E. rewrite seq_length in E. simpl. rewrite app_length. simpl. lia.
  Qed.

  Lemma into_ok n k have r (f : nat -> num A) : k <= n -> r <= have ->
    exists l, into n k have r f = Ok l /\ length l = n.
  Proof.
    intros H1 H2. unfold into. rewrite (proj2 (Nat.leb_le _ _) H1), (proj2 (Nat.leb_le _ _) H2). cbn [andb].
    eexists. split; [reflexivity|]. rewrite app_length, map_length, seq_length, repeat_length. lia.
  Qed.

  Lemma pj_sane : sys_sane (pj_sys mc ns).
  Proof.
    split; intros s x y L; simpl in *; destruct (to_pyJac_ok y L) as (p & v & s' & E & Lv);
      unfold pj_derivs, pj_jac; rewrite E; cbn [bind].
    - unfold c_dydt. rewrite HN. destruct (into_ok ns ns (length v) ns (dydt_elt mc p (firstn ns v))) as (l & -> & Ll); [lia|lia|].
      simpl. rewrite app_length. simpl. lia.
    - unfold c_jacob. rewrite HN.
      destruct (into_ok (ns * ns) (ns * ns) (length v) ns (jacob_elt mc p (firstn ns v))) as (l & -> & Ll); [lia|lia|].
      cbn [bind].
      destruct (mapM_total (fun i => let* r := mapM (fun j => idx l (j * ns + i)) (seq 0 ns) in Ok (r ++ [zero A])) (seq 0 ns))
        as (rows & ER).
      { intros i Hi. apply in_seq in Hi.
        destruct (mapM_total (fun j => idx l (j * ns + i)) (seq 0 ns)) as (r & ->); [|simpl; eauto].
        intros j Hj. apply in_seq in Hj. apply idx_lt. rewrite Ll. nia. }
      rewrite ER. cbn [bind]. split; [apply repeat_length|]. split.
      + rewrite app_length. apply mapM_length in ER. rewrite ER, seq_length. simpl. lia.
      + intros r Hr. apply in_app_iff in Hr as [Hr|[<-|[]]]; [|apply repeat_length].
        apply mapM_ok in ER. apply In_nth_error in Hr as (q & Hq).
        destruct (BalanceFacts.Forall2_nth_error_r _ _ _ ER q _ Hq) as (i & _ & Ei).
        apply bind_ok in Ei as (r' & Er & Ei). inversion Ei; subst.
        rewrite app_length. apply mapM_length in Er. rewrite Er, seq_length. simpl. lia.
  Qed.
End System.

Section Kernel.
  Context {A : Arith} {H : Type}.
  Variable ns : nat.
  Variable ode : H -> num A -> num A -> list (num A) -> num A -> outcome (list (num A) * num A * H).

  (** [ode_solve] for a model with one equation per species and one more, spelled out. *)
  Lemma ode_solve_eq cTp h (x : kcell A) : 1 <= ns -> ns <= length (k_c x) ->
    ode_solve ns (ns + 1) ode (cTp, h) x =
    (let* (y', sub, h') := ode h (lit A 0) (k_dt x) (k_T x :: firstn (ns - 1) (k_c x) ++ [k_p x]) (k_sub x) in
     let* T := idx y' 0 in
     let* p := idx y' ns in
     let* cs' := mapM (fun i => let* v := idx y' (i + 1) in Ok (clip v)) (seq 0 (ns - 1)) in
     Ok (mkCell p T (cs' ++ [nsub A (lit A 1) (nsum A cs')] ++ skipn ns (k_c x)) (k_dt x) sub, (nth_error y', h'))).
  Proof.
    intros N1 L. unfold ode_solve.
    rewrite (proj2 (Nat.eqb_neq (ns + 1) (ns + 2))) by lia.
    rewrite (proj2 (Nat.eqb_neq ns (ns + 1 + 2))) by lia.
    rewrite (proj2 (Nat.eqb_neq ns 0)) by lia.
    rewrite (proj2 (Nat.ltb_lt ns (ns + 1))) by lia.
    rewrite (proj2 (Nat.ltb_ge (length (k_c x)) ns)) by lia. cbn [orb negb].
    assert (E : mapM (idx (k_c x)) (seq 0 (ns - 1)) = Ok (firstn (ns - 1) (k_c x))).
    { assert (X : forall k, k <= length (k_c x) -> mapM (idx (k_c x)) (seq 0 k) = Ok (firstn k (k_c x))).
      { induction k as [|k IH]; intros Hk; auto. rewrite seq_S, mapM_app, IH by lia. cbn [bind mapM plus].
        unfold idx. destruct (nth_error (k_c x) k) as [v|] eqn:Ev; [|apply nth_error_None in Ev; lia].
        cbn [bind]. f_equal. clear -Ev. revert k Ev. induction (k_c x) as [|c l IH]; intros [|k] Ev; simpl in *; try discriminate.
        - inversion Ev; auto.
        - f_equal. apply IH. auto. }
      apply X. lia. }
    rewrite E. cbn [bind].
    set (init := k_T x :: firstn (ns - 1) (k_c x) ++ [k_p x]).
    assert (Li : length init = ns + 1).
    { unfold init. simpl. rewrite app_length, firstn_length_le by lia. simpl. lia. }
    assert (E2 : mapM (fun i => rd (if i <=? ns then nth_error init i else cTp i)) (seq 0 (ns + 1)) = Ok init).
    { rewrite (mapM_ext_in _ (fun i => idx init i)).
      2:{ intros i Hi. apply in_seq in Hi. rewrite (proj2 (Nat.leb_le i ns)) by lia. reflexivity. }
      rewrite <- Li. clear. assert (X : forall l2 l1 : list (num A), mapM (fun i => idx (l1 ++ l2) i) (seq (length l1) (length l2)) = Ok l2).
      { induction l2 as [|a l2 IH]; intros l1; simpl; auto.
        unfold idx at 1. rewrite nth_error_mid. cbn [bind].
        specialize (IH (l1 ++ [a])). rewrite app_length in IH. simpl in IH. rewrite Nat.add_1_r in IH.
        rewrite <- app_assoc in IH. simpl in IH. rewrite IH. reflexivity. }
      apply (X init []). }
    rewrite E2. cbn [bind].
    reflexivity.
  Qed.

  Hypothesis N1 : 1 <= ns.
  Hypothesis OS : forall h a b y t, length y = ns + 1 ->
    match ode h a b y t with Ok (y', _, _) => length y' = ns + 1 | UB => False | _ => True end.

  Lemma start_length (x : kcell A) : ns <= length (k_c x) ->
    length (k_T x :: firstn (ns - 1) (k_c x) ++ [k_p x]) = ns + 1.
  Proof. intros L. simpl. rewrite app_length, firstn_length_le by lia. simpl. lia. Qed.

  Lemma ode_solve_sane h (x : kcell A) : length (k_c x) = ns ->
    match ode_solve ns (ns + 1) ode h x with
    | Ok (x', _) => length (k_c x') = ns /\ k_dt x' = k_dt x
    | UB => False
    | _ => True
    end.
  Proof.
    intros L. destruct h as [cTp h]. rewrite ode_solve_eq by lia.
    assert (P := OS h (lit A 0) (k_dt x) _ (k_sub x) (start_length x ltac:(lia))).
    destruct (ode h _ _ _ _) as [[[y' sub] h']| | |]; cbn [bind]; auto.
    destruct (idx_lt y' 0) as (T & ->); [lia|]. destruct (idx_lt y' ns) as (p & ->); [lia|]. cbn [bind].
    destruct (mapM_total (fun i => let* v := idx y' (i + 1) in Ok (clip v)) (seq 0 (ns - 1))) as (cs & E).
    { intros i Hi. apply in_seq in Hi. destruct (idx_lt y' (i + 1)) as (v & ->); [lia|]. simpl. eauto. }
    rewrite E. cbn [bind k_c k_dt]. split; auto. rewrite app_length. apply mapM_length in E.
    rewrite E, seq_length. simpl. rewrite skipn_length. lia.
  Qed.

  Hypothesis OM : forall h1 h2 a b y t, length y = ns + 1 ->
    orel (fun u v => fst u = fst v) (ode h1 a b y t) (ode h2 a b y t).

  Lemma ode_solve_memoryless : memoryless (ode_solve ns (ns + 1) ode).
  Proof.
    intros [c1 h1] [c2 h2] x. destruct (le_lt_dec ns (length (k_c x))) as [L|L].
    - rewrite !ode_solve_eq by auto.
      generalize (OM h1 h2 (lit A 0) (k_dt x) _ (k_sub x) (start_length x L)).
      destruct (ode h1 _ _ _ _) as [[[y1 s1] g1]| | |], (ode h2 _ _ _ _) as [[[y2 s2] g2]| | |];
        simpl; try contradiction; auto.
      intros E; inversion E; subst. destruct (idx y2 0); simpl; auto. destruct (idx y2 ns); simpl; auto.
      destruct (mapM _ _); simpl; auto.
    - unfold ode_solve.
      rewrite (proj2 (Nat.eqb_neq (ns + 1) (ns + 2))), (proj2 (Nat.eqb_neq ns (ns + 1 + 2))) by lia.
      rewrite (proj2 (Nat.ltb_lt (length (k_c x)) ns)) by lia. rewrite !orb_true_r. exact I.
  Qed.
End Kernel.

Section Stack.
  Context {A : Arith}.
  Variable cm : cmath A.
  Variable lap : lapack A.
  Variable mc : mech A.
  Variables aT rT : num A.
  Variables fuel maxSteps ns : nat.
  Hypothesis HN : NSP mc = ns.
  Hypothesis N1 : 1 <= ns.
  Hypothesis HJ : nltb A (jacRedo [rT]) (nmul A (lit A 2) (jacRedo [rT])) = true.
  Hypothesis HO : order_defined cm aT rT.

  Lemma jacRedo_repeat k : jacRedo (repeat rT (S k)) = jacRedo [rT].
  Proof.
    assert (E : forall b : num A, foam_min A b b = b) by (intros b; unfold foam_min; match goal with |- (if ?c then _ else _) = _ => destruct c end; auto).
    unfold jacRedo. f_equal. simpl. rewrite E. induction k as [|k IH]; simpl; auto. rewrite E. exact IH.
  Qed.

  Lemma stack_tolerances : good_tolerances cm (nEqns (pj_sys mc ns)) (repeat aT (ns + 1)) (repeat rT (ns + 1)).
  Proof.
    unfold good_tolerances. rewrite !repeat_length, Nat.add_1_r, jacRedo_repeat. repeat split; auto.
    - simpl. lia.
    - simpl. lia.
    - intros a r Ea Er. inversion Ea; inversion Er; subst; auto.
  Qed.

  Lemma pyJac_sane h (x : kcell A) : length (k_c x) = ns ->
    match pyJac_kern cm lap mc aT rT fuel maxSteps ns h x with
    | Ok (x', _) => length (k_c x') = ns /\ k_dt x' = k_dt x
    | UB => False
    | _ => True
    end.
  Proof.
    intros L. apply ode_solve_sane; auto. intros m a b y t Ly.
    apply range_safe; auto using pj_sane, stack_tolerances.
    all: simpl; try lia. 
  Qed.

  Lemma pyJac_memoryless : memoryless (pyJac_kern cm lap mc aT rT fuel maxSteps ns).
  Proof.
    apply ode_solve_memoryless; auto. intros m1 m2 a b y t Ly.
    apply range_memoryless; auto using pj_sane, pj_memoryless, stack_tolerances.
    simpl; lia.
  Qed.
End Stack.
