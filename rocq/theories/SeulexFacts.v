(** What seulex does over whole integrations. *)
From Coq Require Import List Arith ZArith QArith Qabs Bool Lia Lqa.
From Verif Require Import Outcome Arith ChemistryModel ChemFacts ChemBalance ChemCells OdeSolver Seulex
  SeulexMono SeulexSafe SeulexRun SeulexSpec OdeFacts.
Import ListNotations.
Local Open Scope nat_scope.

(** ** No fatal error *)
Definition quiet {A S T} (f : M A S T) : Prop := forall m, f m <> Fatal.

(** The functions of the system raise no fatal error. *)
Definition sys_quiet {A S} (sys : odesys A S) : Prop :=
  (forall s x y, derivs sys s x y <> Fatal) /\ (forall s x y, jac sys s x y <> Fatal).

Section Quiet.
  Context {A : Arith} {S : Type}.

  Lemma quiet_ret {T} (x : T) : quiet (S := S) (A := A) (ret x).
  Proof. intros m C. discriminate. Qed.

  Lemma quiet_bind {T U} (c : M A S T) (f : T -> M A S U) : quiet c -> (forall x, quiet (f x)) -> quiet (mbind c f).
  Proof.
    intros Hc Hf m. unfold mbind. specialize (Hc m). destruct (c m) as [[x m']| | |]; cbn [bind];
      [apply Hf|discriminate|congruence|discriminate].
  Qed.

  Lemma quiet_lift {T} (o : outcome T) : o <> Fatal -> quiet (S := S) (A := A) (lift o).
  Proof. intros Ho m. unfold lift. destruct o; cbn [bind]; congruence. Qed.

  Lemma quiet_if {T} (b : bool) (f g : M A S T) : quiet f -> quiet g -> quiet (if b then f else g).
  Proof. destruct b; auto. Qed.

  Lemma mapM_quiet {X Y} (f : X -> outcome Y) l : (forall x, f x <> Fatal) -> mapM f l <> Fatal.
  Proof.
    intros Hf. induction l as [|x l IH]; simpl; [discriminate|]. specialize (Hf x).
    destruct (f x); cbn [bind]; try congruence. destruct (mapM f l); cbn [bind]; congruence.
  Qed.

  Lemma map2_quiet {X Y Z} (f : X -> Y -> Z) l1 : forall l2, map2 f l1 l2 <> Fatal.
  Proof.
    induction l1 as [|x l1 IH]; intros [|y l2]; simpl; try discriminate.
    specialize (IH l2). destruct (map2 f l1 l2); cbn [bind]; congruence.
  Qed.

  Lemma rd_quiet {X} (o : option X) : rd o <> Fatal.
  Proof. destruct o; discriminate. Qed.

  Lemma idx_quiet {X} (l : list X) i : idx l i <> Fatal.
  Proof. unfold idx. destruct (nth_error l i); discriminate. Qed.

  Lemma bind_quiet {X Y} (o : outcome X) (f : X -> outcome Y) : o <> Fatal -> (forall x, f x <> Fatal) -> bind o f <> Fatal.
  Proof. intros H1 H2. destruct o; simpl; [apply H2|discriminate|congruence|discriminate]. Qed.

  Lemma quiet_rdv n a : quiet (S := S) (A := A) (rdv n a).
  Proof.
    intros m. unfold rdv. apply bind_quiet; [|discriminate]. apply mapM_quiet. intros; apply rd_quiet.
  Qed.
  Lemma quiet_rde n a i : quiet (S := S) (A := A) (rde n a i).
  Proof. intros m. unfold rde. destruct (i <? size n a); [|discriminate]. apply bind_quiet; [apply rd_quiet|discriminate]. Qed.
  Lemma quiet_wrv n a v : quiet (S := S) (A := A) (wrv n a v).
  Proof. intros m. unfold wrv. destruct (_ =? _); discriminate. Qed.
  Lemma quiet_wre n a i v : quiet (S := S) (A := A) (wre n a i v).
  Proof. intros m. unfold wre. destruct (_ <? _); discriminate. Qed.
  Lemma quiet_get_theta : quiet (S := S) (A := A) get_theta.
  Proof. intros m. apply bind_quiet; [apply rd_quiet|discriminate]. Qed.
  Lemma quiet_set_theta t : quiet (S := S) (A := A) (set_theta t).
  Proof. intros m. discriminate. Qed.
  Lemma quiet_get_kTarg : quiet (S := S) (A := A) get_kTarg.
  Proof. intros m. apply bind_quiet; [apply rd_quiet|discriminate]. Qed.
  Lemma quiet_set_kTarg t : quiet (S := S) (A := A) (set_kTarg t).
  Proof. intros m. discriminate. Qed.
End Quiet.

Create HintDb quiet.
#[export] Hint Resolve quiet_ret quiet_lift quiet_rdv quiet_rde quiet_wrv quiet_wre quiet_get_theta
  quiet_set_theta quiet_get_kTarg quiet_set_kTarg map2_quiet rd_quiet idx_quiet : quiet.

Ltac quiet :=
  repeat match goal with
  | |- forall _, _ => intro
  | |- quiet (let '(_, _) := ?p in _) => destruct p
  | |- quiet (match ?p with (_, _) => _ end) => destruct p
  | |- quiet (if ?b then _ else _) => apply quiet_if
  | |- quiet (mbind _ _) => apply quiet_bind
  | |- quiet (lift UB) => apply quiet_lift; discriminate
  | |- quiet (lift Diverge) => apply quiet_lift; discriminate
  | |- quiet _ => solve [auto with quiet]
  | |- quiet (lift _) => apply quiet_lift
  | |- bind _ _ <> Fatal => apply bind_quiet
  | |- (if ?b then _ else _) <> Fatal => destruct b
  | |- _ <> Fatal => solve [auto with quiet|discriminate]
  end.

Section QuietStep.
  Context {A : Arith} {S : Type}.
  Variable cm : cmath A.
  Variable lap : lapack A.
  Variable sys : odesys A S.
  Variables absTol relTol : list (num A).
  Hypothesis SQ : sys_quiet sys.

  Lemma quiet_derivs x y : quiet (call_derivs sys x y).
  Proof. intros m. unfold call_derivs. apply bind_quiet; [apply SQ|intros [? ?]; discriminate]. Qed.
  Lemma quiet_wr_rows l : forall i, quiet (wr_rows sys i l).
  Proof. induction l; intros i; simpl; quiet. Qed.
  Lemma quiet_jac x y : quiet (call_jac sys x y).
  Proof.
    unfold call_jac. apply quiet_bind.
    - intros m. apply bind_quiet; [apply SQ|intros [[? ?] ?]; discriminate].
    - intros [dfdx dfdy]. apply quiet_bind; [auto with quiet|]. intros _. apply quiet_wr_rows.
  Qed.
  Hint Resolve quiet_derivs quiet_jac : quiet.
  Lemma quiet_rows k : forall i, quiet (rd_rows (A := A) sys i k).
  Proof. induction k; intros i; simpl; quiet. Qed.
  Lemma quiet_back f : quiet (back_solve lap sys f).
  Proof. unfold back_solve. quiet. Qed.
  Lemma squares_quiet v s : scaled_squares (A := A) v s <> Fatal.
  Proof. unfold scaled_squares. quiet. Qed.
  Lemma guarded_quiet v : forall acc s, guarded_squares cm acc v s <> Fatal.
  Proof. induction v; intros acc [|b s]; simpl; try discriminate. destruct (nltb A _ _); [discriminate|apply IHv]. Qed.
  Hint Resolve quiet_rows quiet_back squares_quiet guarded_quiet : quiet.
  Lemma quiet_stability f x0 dx : quiet (stability cm lap sys f x0 dx).
  Proof. unfold stability. cbv zeta. quiet. Qed.
  Hint Resolve quiet_stability : quiet.
  Lemma quiet_loop l : forall nn k f x0 dx xn, quiet (seul_loop cm lap sys l nn k f x0 dx xn).
  Proof. induction l; intros; simpl; quiet. Qed.
  Lemma sysmatrix_quiet J dx : sysmatrix sys J dx <> Fatal.
  Proof.
    unfold sysmatrix. apply bind_quiet; [|discriminate]. apply mapM_quiet. intros j. apply mapM_quiet. intros i. quiet.
  Qed.
  Hint Resolve quiet_loop sysmatrix_quiet : quiet.
  Lemma quiet_seul x0 dx k : quiet (seul cm lap sys x0 dx k).
  Proof. unfold seul. cbv zeta. unfold nSeq_at. quiet. Qed.
  Hint Resolve quiet_seul : quiet.
  Lemma quiet_erows k j : quiet (extrapolate_rows sys k j).
  Proof. induction j; cbn [extrapolate_rows]; unfold table_row, coeff_at; quiet. Qed.
  Hint Resolve quiet_erows : quiet.
  Lemma quiet_extrapolate k y : quiet (extrapolate sys k y).
  Proof. unfold extrapolate, coeff_at. quiet. Qed.
  Lemma quiet_retry i y : quiet (retry sys i y).
  Proof. unfold retry. quiet. Qed.
  Hint Resolve quiet_extrapolate quiet_retry : quiet.
  Lemma quiet_decide k st d e eo y : quiet (decide sys k st d e eo y).
  Proof. unfold decide, nSeq_at. cbv zeta. quiet. Qed.
  Hint Resolve quiet_decide : quiet.
  Lemma quiet_column x dx k st d eo y : quiet (column cm lap sys absTol relTol x dx k st d eo y).
  Proof. unfold column, table_row, scales, error_of, cpu_at. cbv zeta. quiet. Qed.
  Hint Resolve quiet_column : quiet.
  Lemma quiet_columns l : forall k x dx st d eo y, quiet (columns cm lap sys absTol relTol l k x dx st d eo y).
  Proof. induction l; intros; simpl; quiet. destruct x1; quiet. Qed.
  Hint Resolve quiet_columns : quiet.
  Lemma quiet_attempts f : forall x d r st y, quiet (attempts cm lap sys absTol relTol f x d r st y).
  Proof. induction f; intros; cbn [attempts]; cbv zeta; quiet. Qed.
  Lemma quiet_order k : quiet (order (A := A) sys k).
  Proof. unfold order. quiet. Qed.
  Lemma quiet_next k ko dx p : quiet (next_size sys k ko dx p).
  Proof. unfold next_size, cpu_at. cbv zeta. quiet. Qed.
  Hint Resolve quiet_attempts quiet_order quiet_next : quiet.
  Lemma quiet_step f x y st : quiet (step_solve cm lap sys absTol relTol f x y st).
  Proof. unfold step_solve, scales. cbv zeta. quiet. Qed.
End QuietStep.

(** ** The steps of an integration *)
Section Steps.
  Context {A : Arith} {H : Type}.
  Variable solve : H -> num A -> list (num A) -> stepState A
                   -> outcome (num A * list (num A) * stepState A * H).
  Variables xs xe : num A.

  Lemma reach_last (I : point A H -> Prop) :
    (forall a b, I a -> stepped solve xs xe a b -> I (carry b)) ->
    forall a k b, reach solve xs xe a k b -> I a ->
    exists a', I a' /\ stepped solve xs xe a' b /\
      ((k = 1 /\ a' = a) \/ exists j b', k = S j /\ reach solve xs xe a j b' /\ a' = carry b').
  Proof.
    intros Step. induction 1 as [a b Hs|a b k c Hs Hn R IH]; intros Ia.
    - exists a. auto.
    - destruct (IH (Step _ _ Ia Hs)) as (a' & I' & S' & [(-> & ->)|(j & b' & -> & R' & ->)]).
      + exists (carry b). split; auto. split; auto. right. exists 1, b. split; auto. split; auto.
        apply reach_one. auto.
      + exists (carry b'). split; auto. split; auto. right. exists (S j), b'. split; auto. split; auto.
        eapply reach_more; eauto.
  Qed.
End Steps.

Section Seulex.
  Context {A : Arith} {S : Type}.
  Variable cm : cmath A.
  Variable lap : lapack A.
  Variable sys : odesys A S.
  Variables absTol relTol : list (num A).
  Variable fuel : nat.
  Notation n := (nEqns sys).
  Notation solver := (fun h x y step => step_solve cm lap sys absTol relTol fuel x y step h).

  Section Meaning.
    Variable rhs : num A -> list (num A) -> list (num A).
    Variable jacf : num A -> list (num A) -> list (list (num A)).
    Hypothesis CP : computes sys rhs jacf.
    Hypothesis HJ : nltb A (jacRedo relTol) (nmul A (lit A 2) (jacRedo relTol)) = true.
    Variable P : list (list (num A)) -> Prop.
    Hypothesis PJ : forall x y, P (jacf x y).

    Lemma every_step m (xs xe : num A) y dx k b :
      reach solver xs xe (mkPoint m xs y (newStep dx)) k b ->
      exists x0 y0,
        ((k = 1 /\ x0 = xs /\ y0 = y) \/
         exists j b', k = Datatypes.S j /\ reach solver xs xe (mkPoint m xs y (newStep dx)) j b' /\
                      x0 = pt_x b' /\ y0 = pt_y b') /\
        exists J q, P J /\ pt_x b = nadd A x0 (ss_dxDid (pt_step b)) /\
          good cm lap sys absTol relTol rhs J x0 y0 (ss_dxDid (pt_step b)) q (pt_y b).
    Proof.
      intros R.
      set (I := fun a : point A (mem A S) =>
        (nltb A (jacRedo relTol) (nmul A (lit A 2) (jacRedo relTol)) = true /\ ss_first (pt_step a) = true) \/
        (exists J, rows sys (pt_mem a) J /\ P J)).
      assert (St : forall a b, I a -> stepped solver xs xe a b ->
        (exists J, rows sys (pt_mem b) J /\ P J) /\
        exists J q, P J /\ pt_x b = nadd A (pt_x a) (ss_dxDid (pt_step b)) /\
          good cm lap sys absTol relTol rhs J (pt_x a) (pt_y a) (ss_dxDid (pt_step b)) q (pt_y b)).
      { intros a b' Ia Hs. unfold stepped in Hs. cbv zeta in Hs.
        eapply post_ok in Hs; [|apply (post_step cm lap sys absTol relTol rhs jacf CP P PJ); exact Ia].
        simpl in Hs. destruct Hs as (J & q & Ex & HP & HR & G). split; [eauto|]. exists J, q. auto. }
      destruct (reach_last solver xs xe I) with (a := mkPoint m xs y (newStep dx)) (k := k) (b := b)
        as (a' & Ia & Hs & Hw); auto.
      - intros a b' Ia Hs. right. destruct (St _ _ Ia Hs) as [X _]. exact X.
      - left. auto.
      - destruct (St _ _ Ia Hs) as [_ X]. exists (pt_x a'), (pt_y a'). split; [|exact X].
        destruct Hw as [(-> & ->)|(j & b' & -> & Hr & ->)]; [left; auto|].
        right. exists j, b'. auto.
    Qed.
  End Meaning.

  Lemma range_order maxSteps m (xs xe : num A) y dx y' d' m' : sys_sane sys -> 1 <= n ->
    good_tolerances cm n absTol relTol -> length y = n ->
    solve_range solver maxSteps m xs xe y dx = Ok (y', d', m') ->
    exists k, m_kTarg m' = Some k /\ 1 <= k <= iMaxx - 2.
  Proof.
    intros SS N1 GT Ly E.
    assert (X : exists k b, k <= maxSteps /\ reach solver xs xe (mkPoint m xs y (newStep dx)) k b /\
       arrived xs xe (pt_x b) /\ y' = pt_y b /\ m' = pt_mem b) by (apply range_returns; eauto).
    destruct X as (k & b & _ & R & _ & _ & ->).
    set (I := fun a : point A (mem A S) => length (pt_y a) = n /\ (ss_first (pt_step a) = true \/ ready sys (pt_mem a))).
    assert (St : forall a b, I a -> stepped solver xs xe a b -> length (pt_y b) = n /\ ready sys (pt_mem b)).
    { intros a b0 [La Ha] Hs. unfold stepped in Hs. cbv zeta in Hs.
      assert (Q := step_safe cm lap sys absTol relTol fuel SS N1 GT (pt_x a) (pt_y a)
        (mkStep (ss_forward (pt_step a))
          (if outside xs xe (nadd A (pt_x a) (ss_dxTry (pt_step a))) then nsub A xe (pt_x a) else ss_dxTry (pt_step a))
          (ss_dxDid (pt_step a)) (ss_first (pt_step a))
          (if outside xs xe (nadd A (pt_x a) (ss_dxTry (pt_step a))) then true else ss_last (pt_step a)) false
          (ss_prevReject (pt_step a))) (pt_mem a) La Ha).
      unfold safe in Q. rewrite Hs in Q. exact Q. }
    destruct (reach_last solver xs xe I) with (a := mkPoint m xs y (newStep dx)) (k := k) (b := b)
      as (a' & Ia & Hs & _); auto.
    - intros a b0 Ia Hs. destruct (St _ _ Ia Hs). split; [assumption|right; assumption].
    - split; auto.
    - destruct (St _ _ Ia Hs) as [_ (_ & _ & q & T1 & T2)]. exists q. split; auto.
  Qed.

  Lemma never_returns rhs jacf maxSteps m (xs xe : num A) y dx :
    computes sys rhs jacf -> sys_sane sys -> sys_quiet sys -> 1 <= n ->
    good_tolerances cm n absTol relTol -> length y = n -> 1 <= maxSteps ->
    (forall x' y' h, ~ plausible (snd (euler lap n rhs (jacf x' y') xs y h 1))) ->
    solve_range solver maxSteps m xs xe y dx = Diverge.
  Proof.
    intros CP SS SQ N1 GT Ly HM NP. unfold solve_range. destruct maxSteps as [|l]; [lia|].
    set (a := mkPoint m xs y (newStep dx)).
    change (drive solver (Datatypes.S l) 0 xs xe (pt_mem a) (pt_x a) (pt_y a) (pt_step a) = Diverge).
    rewrite drive_unfold. cbv zeta.
    match goal with |- (let* _ := step_solve _ _ _ _ _ _ _ _ ?st _ in _) = _ => set (s := st) end.
    assert (Hf : ss_first s = true) by reflexivity.
    assert (P1 := step_safe cm lap sys absTol relTol fuel SS N1 GT (pt_x a) (pt_y a) s (pt_mem a) Ly (or_introl Hf)).
    assert (P2 := quiet_step cm lap sys absTol relTol SQ fuel (pt_x a) (pt_y a) s (pt_mem a)).
    assert (P3 := post_step cm lap sys absTol relTol rhs jacf CP (fun J => exists x' y', J = jacf x' y')
      (fun x' y' => ex_intro _ x' (ex_intro _ y' eq_refl)) fuel (pt_x a) (pt_y a) s (pt_mem a)
      (or_introl (conj (proj1 (proj2 (proj2 GT))) Hf))).
    unfold safe in P1. unfold post in P3.
    destruct (step_solve cm lap sys absTol relTol fuel (pt_x a) (pt_y a) s (pt_mem a)) as [[[[x1 y1] s1] m1]| | |];
      try contradiction; cbn [bind]; auto.
    exfalso. destruct P3 as (J & k & _ & (x' & y' & ->) & _ & (_ & _ & _ & PC)).
    apply (NP x' y' (ndiv A (ss_dxDid s1) (ofnat A 2))). apply (PC 0 ltac:(lia) 1). simpl. lia.
  Qed.
End Seulex.

(** ** Exact arithmetic *)
From Verif Require Import QSum.

(** Row [i] of the product of a matrix stored by columns and a vector. *)
Definition matvec (n : nat) (a z : list Q) (i : nat) : Q :=
  Qsumf (fun j => nth (j * n + i) a 0 * nth j z 0)%Q (seq 0 n).

(** The only solution of the homogeneous system is zero. *)
Definition regular (n : nat) (a : list Q) : Prop :=
  forall z, length z = n -> (forall i, i < n -> (matvec n a z i == 0)%Q) -> forall i, i < n -> (nth i z 0 == 0)%Q.

(** [dgetrf] and [dgetrs] solve systems with a regular matrix. *)
Definition lapack_solves {sm gr vg} (lap : lapack (QA sm gr vg)) (n : nat) : Prop :=
  forall a b : list Q, length a = n * n -> length b = n -> regular n a ->
  forall i, i < n ->
  (matvec n a (map (dgetrs lap n (dgetrf lap n a) b) (seq 0 n)) i == nth i b 0)%Q.

(** [(1/h - J) z = f]. *)
Definition implicit_increment (n : nat) (J : list (list Q)) (h : Q) (z f : list Q) : Prop :=
  length z = n /\
  forall i, i < n -> (nth i z 0 / h - Qsumf (fun j => nth j (nth i J []) 0 * nth j z 0) (seq 0 n) == nth i f 0)%Q.

(** [1/h - J] is regular. *)
Definition step_regular (n : nat) (J : list (list Q)) (h : Q) : Prop :=
  forall z, implicit_increment n J h z (repeat 0%Q n) -> forall i, i < n -> (nth i z 0 == 0)%Q.

(** [m] steps of size [h] of the linearly implicit Euler method lead from [x0], [y0] to [y]. *)
Definition euler_run (n : nat) (rhs : Q -> list Q -> list Q) (J : list (list Q)) (x0 : Q) (y0 : list Q)
  (h : Q) (m : nat) (y : list Q) : Prop :=
  exists (X : nat -> Q) (Y Z : nat -> list Q), X 0 = x0 /\ Y 0 = y0 /\ Y m = y /\
    forall i, i < m ->
      X (i + 1) = (X i + h)%Q /\
      implicit_increment n J h (Z i) (rhs (X (i + 1)) (Y i)) /\
      length (Y (i + 1)) = n /\
      forall c, c < n -> nth c (Y (i + 1)) 0%Q = (nth c (Y i) 0 + nth c (Z i) 0)%Q.

Section Exact.
  Variables sm gr vg : Q.
  Notation AQ := (QA sm gr vg).
  Variable lap : lapack AQ.
  Variable n : nat.
  Variable rhs : Q -> list Q -> list Q.

  Lemma grid_nth {X} (f : nat -> nat -> X) (d : X) N : forall s M j i, j < M -> i < N ->
    nth (j * N + i) (flat_map (fun j => map (f j) (seq 0 N)) (seq s M)) d = f (s + j) i.
  Proof.
    intros s M. revert s. induction M as [|M IH]; intros s j i Hj Hi; [lia|]. simpl.
    destruct j as [|j].
    - rewrite app_nth1 by (rewrite map_length, seq_length; simpl; lia). rewrite Nat.add_0_r. simpl.
      rewrite (nth_indep _ d (f s 0)) by (rewrite map_length, seq_length; lia).
      rewrite (map_nth (f s)), seq_nth by lia. reflexivity.
    - rewrite app_nth2 by (rewrite map_length, seq_length; simpl; lia). rewrite map_length, seq_length.
      replace (Datatypes.S j * N + i - N) with (j * N + i) by (simpl; lia). rewrite IH by lia. f_equal. lia.
  Qed.

  Lemma grid_length {X} (f : nat -> nat -> X) N M : forall s,
    length (flat_map (fun j => map (f j) (seq 0 N)) (seq s M)) = M * N.
  Proof. induction M as [|M IH]; intros s; simpl; auto. rewrite app_length, map_length, seq_length, IH. auto. Qed.

  Lemma matvec_shifted J h z i : i < n ->
    (matvec n (shifted (A := AQ) n J h) z i ==
     nth i z 0 / h - Qsumf (fun j => nth j (nth i J []) 0 * nth j z 0) (seq 0 n))%Q.
  Proof.
    intros Hi. unfold matvec, shifted.
    assert (E : forall j, In j (seq 0 n) ->
      (nth (j * n + i) (flat_map (fun j => map (fun i => let v := nneg AQ (nth j (nth i J []) (zero AQ)) in
          if i =? j then nadd AQ v (ndiv AQ (lit AQ 1) h) else v) (seq 0 n)) (seq 0 n)) 0 * nth j z 0 ==
       (if j =? i then nth i z 0 / h else 0) - nth j (nth i J []) 0 * nth j z 0)%Q).
    { intros j Hj. apply in_seq in Hj.
      rewrite (grid_nth (fun j i => let v := nneg AQ (nth j (nth i J []) (zero AQ)) in
          if i =? j then nadd AQ v (ndiv AQ (lit AQ 1) h) else v) 0%Q n 0 n j i) by lia.
      simpl. unfold nneg. simpl. rewrite (Nat.eqb_sym i j). destruct (Nat.eqb_spec j i) as [->|]; unfold zero; simpl.
      - unfold Qdiv. ring.
      - ring. }
    rewrite (Qsumf_ext _ _ _ E). clear E.
    assert (X : forall f g l, (Qsumf (fun j : nat => f j - g j) l == Qsumf f l - Qsumf g l)%Q).
    { intros f g l. induction l as [|x l IH]; [unfold Qsumf; simpl; ring|]. rewrite !Qsumf_cons, IH. ring. }
    rewrite X. assert (Y : forall s N, s <= i < s + N ->
      (Qsumf (fun j => if j =? i then nth i z 0 / h else 0) (seq s N) == nth i z 0 / h)%Q).
    { intros s N. revert s. induction N as [|N IH]; intros s Hs; [lia|]. cbn [seq]. rewrite Qsumf_cons.
      destruct (Nat.eqb_spec s i) as [->|].
      - rewrite (Qsumf_ext _ (fun _ => 0%Q)).
        + rewrite Qsumf_const. ring.
        + intros x Hx. apply in_seq in Hx. destruct (Nat.eqb_spec x i); [lia|reflexivity].
      - rewrite IH by lia. ring. }
    rewrite Y by lia. reflexivity.
  Qed.

  Hypothesis LS : lapack_solves lap n.
  Hypothesis RL : forall x y, length (rhs x y) = n.

  Lemma increment_solves J h b : length b = n -> step_regular n J h ->
    implicit_increment n J h (increment lap n J h b) b.
  Proof.
    intros Lb R. split; [unfold increment; rewrite map_length, seq_length; auto|].
    intros i Hi. rewrite <- matvec_shifted by auto. unfold increment. apply LS; auto.
    - unfold shifted. rewrite grid_length. auto.
    - intros z Lz Hz. apply R. split; auto. intros j Hj. rewrite <- matvec_shifted by auto.
      rewrite Hz by auto. rewrite nth_repeat. reflexivity.
  Qed.

  Lemma euler_is_run J (x0 : Q) y0 (h : Q) m : length y0 = n -> step_regular n J h ->
    euler_run n rhs J x0 y0 h m (snd (euler (A := AQ) lap n rhs J x0 y0 h m)).
  Proof.
    intros L0 R.
    assert (LY : forall i, length (snd (euler (A := AQ) lap n rhs J x0 y0 h i)) = n).
    { intros [|i]; auto. cbn [euler]. destruct (euler lap n rhs J x0 y0 h i) as [x y] eqn:E. simpl snd.
      unfold vadd. rewrite map_length, combine_length. unfold increment. rewrite map_length, seq_length.
      assert (length y = n); [|lia]. clear -E L0. revert x y E. induction i as [|i IH]; intros x y E; simpl in E.
      - inversion E; subst; auto.
      - destruct (euler lap n rhs J x0 y0 h i) as [x1 y1]. inversion E; subst.
        unfold vadd. rewrite map_length, combine_length. unfold increment. rewrite map_length, seq_length.
        rewrite (IH x1 y1) by auto. lia. }
    exists (fun i => fst (euler (A := AQ) lap n rhs J x0 y0 h i)),
      (fun i => snd (euler (A := AQ) lap n rhs J x0 y0 h i)),
      (fun i => increment lap n J h (rhs (fst (euler (A := AQ) lap n rhs J x0 y0 h (i + 1)))
                                        (snd (euler (A := AQ) lap n rhs J x0 y0 h i)))).
    split; [reflexivity|]. split; [reflexivity|]. split; [reflexivity|]. intros i Hi.
    rewrite Nat.add_1_r. assert (E := euler_S lap (mkSys (S := unit) n (fun _ _ _ => UB) (fun _ _ _ => UB)) rhs J x0 y0 h i).
    simpl nEqns in E. rewrite E. simpl fst. simpl snd. split; [reflexivity|].
    split; [apply increment_solves; auto|].
    match goal with |- context [vadd ?s ?t] => set (z := t); set (u := s) end.
    assert (Li : length u = n) by apply (LY i).
    assert (Lz : length z = n) by (unfold z, increment; rewrite map_length, seq_length; auto).
    split.
    { unfold vadd. rewrite map_length, combine_length.
      transitivity (Nat.min n n); [f_equal; [exact Li|exact Lz]|apply Nat.min_id]. }
    intros c Hc. unfold vadd. change 0%Q with ((fun '(a, b) => nadd AQ a b) (0%Q, 0%Q)) at 1.
    rewrite map_nth. rewrite combine_nth by (transitivity n; [exact Li|symmetry; exact Lz]). reflexivity.
  Qed.
End Exact.
