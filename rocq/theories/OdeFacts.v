(** The ODE driver and the error norm. *)
From Coq Require Import List Arith ZArith QArith Qabs Qminmax Bool Lia Lqa.
From Verif Require Import Outcome Arith ChemistryModel ChemFacts ChemBalance ChemCells OdeSolver.
Import ListNotations.
Local Open Scope nat_scope.

(** ** Vocabulary *)

(** What is passed on from step to step. *)
Record point (A : Arith) (H : Type) := mkPoint {
  pt_mem : H; pt_x : num A; pt_y : list (num A); pt_step : stepState A
}.
Arguments mkPoint {A H}.
Arguments pt_mem {A H}.
Arguments pt_x {A H}.
Arguments pt_y {A H}.
Arguments pt_step {A H}.

(** The end test. *)
Definition arrived {A : Arith} (xStart xEnd x : num A) : Prop :=
  nleb A (zero A) (nmul A (nsub A x xEnd) (nsub A xEnd xStart)) = true.

(** [x] is outside the interval, not in it or at one of its ends. *)
Definition outside {A : Arith} (xStart xEnd x : num A) : bool :=
  nltb A (zero A) (nmul A (nsub A x xEnd) (nsub A x xStart)).

(** A call of the stepper at [a] returned [b].  It was given the trial step of [a], or what is
    left of the interval if the trial step leads out of it; then it is told to be the last. *)
Definition stepped {A H} (solve : H -> num A -> list (num A) -> stepState A
                        -> outcome (num A * list (num A) * stepState A * H))
  (xStart xEnd : num A) (a b : point A H) : Prop :=
  let s := pt_step a in
  let cut := outside xStart xEnd (nadd A (pt_x a) (ss_dxTry s)) in
  solve (pt_mem a) (pt_x a) (pt_y a)
    (mkStep (ss_forward s) (if cut then nsub A xEnd (pt_x a) else ss_dxTry s) (ss_dxDid s)
       (ss_first s) (if cut then true else ss_last s) false (ss_prevReject s))
  = Ok (pt_x b, pt_y b, pt_step b, pt_mem b).

(** Before the next step: no longer the first one; a rejection is remembered. *)
Definition carry {A H} (b : point A H) : point A H :=
  let s := pt_step b in
  mkPoint (pt_mem b) (pt_x b) (pt_y b)
    (mkStep (ss_forward s) (ss_dxTry s) (ss_dxDid s) false (ss_last s) (ss_reject s)
       (ss_reject s || ss_prevReject s)).

(** [reach a k b]: [k] steps lead from [a] to [b], none but perhaps the last to the end. *)
Inductive reach {A H} solve (xStart xEnd : num A) : point A H -> nat -> point A H -> Prop :=
| reach_one a b : stepped solve xStart xEnd a b -> reach solve xStart xEnd a 1 b
| reach_more a b k c : stepped solve xStart xEnd a b -> ~ arrived xStart xEnd (pt_x b) ->
    reach solve xStart xEnd (carry b) k c -> reach solve xStart xEnd a (S k) c.

(** ** Proofs *)
Section Driver.
  Context {A : Arith} {H : Type}.
  Variable solve : H -> num A -> list (num A) -> stepState A
                   -> outcome (num A * list (num A) * stepState A * H).
  Variables xs xe : num A.

  Notation stepped := (stepped solve xs xe).
  Notation reach := (reach solve xs xe).
  Notation arrived := (arrived xs xe).

  (** The state passed to the stepper by the driver. *)
  Let state (a : point A H) :=
    let s := pt_step a in
    let cut := outside xs xe (nadd A (pt_x a) (ss_dxTry s)) in
    mkStep (ss_forward s) (if cut then nsub A xe (pt_x a) else ss_dxTry s) (ss_dxDid s)
       (ss_first s) (if cut then true else ss_last s) false (ss_prevReject s).

  Lemma drive_unfold l nS a :
    drive solve (S l) nS xs xe (pt_mem a) (pt_x a) (pt_y a) (pt_step a) =
    (let* (x', y', s3, h') := solve (pt_mem a) (pt_x a) (pt_y a) (state a) in
     if nleb A (zero A) (nmul A (nsub A x' xe) (nsub A xe xs)) then
       Ok (y', if (0 <? nS) && ss_last s3 then ss_dxTry (pt_step a) else ss_dxTry s3, h')
     else
       let c := carry (mkPoint h' x' y' s3) in
       drive solve l (S nS) xs xe (pt_mem c) (pt_x c) (pt_y c) (pt_step c)).
  Proof.
    cbn [drive]. cbv zeta. cbn [ss_dxTry ss_forward ss_dxDid ss_first ss_last ss_reject ss_prevReject].
    unfold state, outside. destruct (nltb A (zero A) _).
    all: destruct (solve _ _ _ _) as [[[[x' y'] s3] h']| | |]; cbn [bind]; auto.
  Qed.

  Lemma reach_pos a k b : reach a k b -> 1 <= k.
  Proof. induction 1; lia. Qed.

  Lemma drive_ok l : forall nS a y' d' h',
    drive solve l nS xs xe (pt_mem a) (pt_x a) (pt_y a) (pt_step a) = Ok (y', d', h') ->
    exists k b, k <= l /\ reach a k b /\ arrived (pt_x b) /\ y' = pt_y b /\ h' = pt_mem b.
  Proof.
    induction l as [|l IH]; intros nS a y' d' h' E; [discriminate|]. rewrite drive_unfold in E.
    apply bind_ok in E as ([[[x1 y1] s3] h1] & E1 & E).
    destruct (nleb A (zero A) _) eqn:En.
    - inversion E; subst. exists 1, (mkPoint h' x1 y' s3). split; [lia|]. split; [|auto].
      apply reach_one. exact E1.
    - cbv zeta in E. destruct (IH _ _ _ _ _ E) as (k & b & L & R & Ar & ? & ?).
      exists (S k), b. split; [lia|]. split; [|auto].
      eapply reach_more; [|unfold OdeFacts.arrived; simpl|exact R]; [exact E1|simpl; congruence].
  Qed.

  Lemma drive_complete a k b : reach a k b -> arrived (pt_x b) -> forall l nS, k <= l ->
    exists d', drive solve l nS xs xe (pt_mem a) (pt_x a) (pt_y a) (pt_step a) = Ok (pt_y b, d', pt_mem b).
  Proof.
    induction 1 as [a b Hs|a b k c Hs Hn R IH]; intros Ha l nS Hl; (destruct l as [|l]; [lia|]);
      rewrite drive_unfold; unfold stepped in Hs; cbv zeta in Hs;
      unfold state; cbv zeta; rewrite Hs; cbn [bind].
    - unfold arrived in Ha. rewrite Ha. eauto.
    - unfold arrived in Hn. destruct (nleb A (zero A) _); [congruence|].
      destruct b; apply IH; auto; lia.
  Qed.

  Lemma drive_fatal l : (forall h x y s, exists r, solve h x y s = Ok r) -> forall nS a,
    (exists r, drive solve l nS xs xe (pt_mem a) (pt_x a) (pt_y a) (pt_step a) = Ok r) \/
    (drive solve l nS xs xe (pt_mem a) (pt_x a) (pt_y a) (pt_step a) = Fatal /\
     (l = 0 \/ exists b, reach a l b /\ ~ arrived (pt_x b))).
  Proof.
    intros T. induction l as [|l IH]; intros nS a; [right; auto|]. rewrite drive_unfold.
    destruct (T (pt_mem a) (pt_x a) (pt_y a) (state a)) as ([[[x1 y1] s3] h1] & E). rewrite E. cbn [bind].
    assert (Hs : stepped a (mkPoint h1 x1 y1 s3)) by exact E.
    destruct (nleb A (zero A) _) eqn:En; [left; eauto|].
    assert (Hn : ~ arrived (pt_x (mkPoint h1 x1 y1 s3))) by (unfold OdeFacts.arrived; simpl; congruence).
    cbv zeta. destruct (IH (S nS) (carry (mkPoint h1 x1 y1 s3))) as [|(EF & [->|(b & R & N)])]; auto.
    - right. split; auto. right. eexists. split; [apply reach_one; exact Hs|auto].
    - right. split; auto. right. exists b. split; auto. eapply reach_more; eauto.
  Qed.
End Driver.

Lemma range_returns {A H} solve maxSteps (h : H) (xs xe : num A) y dx y' h' :
  (exists d', solve_range solve maxSteps h xs xe y dx = Ok (y', d', h')) <->
  (exists k b, k <= maxSteps /\ reach solve xs xe (mkPoint h xs y (newStep dx)) k b /\
     arrived xs xe (pt_x b) /\ y' = pt_y b /\ h' = pt_mem b).
Proof.
  split.
  - intros (d' & E). apply (drive_ok solve xs xe maxSteps 0 (mkPoint h xs y (newStep dx)) y' d' h' E).
  - intros (k & b & L & R & Ar & -> & ->).
    destruct (drive_complete solve xs xe _ _ _ R Ar maxSteps 0 L) as (d' & E). eauto.
Qed.

Lemma range_fatal {A H} solve maxSteps (h : H) (xs xe : num A) y dx :
  (forall h x y s, exists r, solve h x y s = Ok r) ->
  (exists r, solve_range solve maxSteps h xs xe y dx = Ok r) \/
  (solve_range solve maxSteps h xs xe y dx = Fatal /\
   (maxSteps = 0 \/ exists b, reach solve xs xe (mkPoint h xs y (newStep dx)) maxSteps b /\
                              ~ arrived xs xe (pt_x b))).
Proof. intros T. apply (drive_fatal solve xs xe maxSteps T 0 (mkPoint h xs y (newStep dx))). Qed.

(** ** Exact arithmetic *)
Section Exact.
  Variables sm gr vg : Q.
  Notation AQ := (QA sm gr vg).

  Lemma arrived_forward (xs xe x : Q) : (xs < xe)%Q -> (arrived (A := AQ) xs xe x <-> (xe <= x)%Q).
  Proof.
    intros L. unfold arrived. simpl. rewrite Qle_bool_iff. unfold zero; simpl.
    split; intros P; [|nra]. destruct (Qlt_le_dec x xe); auto. exfalso. nra.
  Qed.

  Lemma arrived_backward (xs xe x : Q) : (xe < xs)%Q -> (arrived (A := AQ) xs xe x <-> (x <= xe)%Q).
  Proof.
    intros L. unfold arrived. simpl. rewrite Qle_bool_iff. unfold zero; simpl.
    split; intros P; [|nra]. destruct (Qlt_le_dec xe x); auto. exfalso. nra.
  Qed.

  Context {H : Type}.
  Variable solve : H -> Q -> list Q -> stepState AQ -> outcome (Q * list Q * stepState AQ * H).

  (** The stepper moves in the direction of the step it is to try, by no more than that, and
      proposes a step in the same direction. *)
  Definition honours : Prop :=
    forall h (x : Q) y (s : stepState AQ) x' y' s' h',
      solve h x y s = Ok (x', y', s', h') ->
      (0 < ss_dxTry s -> x < x' <= x + ss_dxTry s /\ 0 < ss_dxTry s')%Q /\
      (ss_dxTry s < 0 -> x + ss_dxTry s <= x' < x /\ ss_dxTry s' < 0)%Q.

  Lemma stepped_forward xs xe a b : honours -> (xs < xe)%Q -> stepped (A := AQ) solve xs xe a b ->
    (xs <= pt_x a)%Q -> (pt_x a < xe)%Q -> (0 < ss_dxTry (pt_step a))%Q ->
    (pt_x a < pt_x b)%Q /\ (pt_x b <= xe)%Q /\ (0 < ss_dxTry (pt_step b))%Q.
  Proof.
    destruct a as [ha xa ya sa], b as [hb xb yb sb]. intros Hh L Hs P1 P2 P3.
    unfold stepped in Hs. cbv zeta in Hs. apply Hh in Hs as [Hs _].
    cbn [pt_x pt_step pt_y pt_mem ss_dxTry] in *. set (d := ss_dxTry sa) in *. set (d' := ss_dxTry sb) in *.
    clearbody d d'. change Q in d, d', xa, xb.
    destruct (outside (A := AQ) xs xe (nadd AQ xa d)) eqn:C.
    - destruct Hs as [Hs Hs']; [change (0 < xe - xa)%Q; lra|].
      change (xa < xb <= xa + (xe - xa))%Q in Hs. repeat split; auto; lra.
    - destruct Hs as [Hs Hs']; [exact P3|]. unfold outside in C. apply Qltb_false in C.
      change ((xa + d - xe) * (xa + d - xs) <= 0)%Q in C. change (xa < xb <= xa + d)%Q in Hs.
      repeat split; auto; [lra|]. destruct (Qlt_le_dec xe xb); auto. exfalso. nra.
  Qed.

  Lemma stepped_backward xs xe a b : honours -> (xe < xs)%Q -> stepped (A := AQ) solve xs xe a b ->
    (pt_x a <= xs)%Q -> (xe < pt_x a)%Q -> (ss_dxTry (pt_step a) < 0)%Q ->
    (pt_x b < pt_x a)%Q /\ (xe <= pt_x b)%Q /\ (ss_dxTry (pt_step b) < 0)%Q.
  Proof.
    destruct a as [ha xa ya sa], b as [hb xb yb sb]. intros Hh L Hs P1 P2 P3.
    unfold stepped in Hs. cbv zeta in Hs. apply Hh in Hs as [_ Hs].
    cbn [pt_x pt_step pt_y pt_mem ss_dxTry] in *. set (d := ss_dxTry sa) in *. set (d' := ss_dxTry sb) in *.
    clearbody d d'. change Q in d, d', xa, xb.
    destruct (outside (A := AQ) xs xe (nadd AQ xa d)) eqn:C.
    - destruct Hs as [Hs Hs']; [change (xe - xa < 0)%Q; lra|].
      change (xa + (xe - xa) <= xb < xa)%Q in Hs. repeat split; auto; lra.
    - destruct Hs as [Hs Hs']; [exact P3|]. unfold outside in C. apply Qltb_false in C.
      change ((xa + d - xe) * (xa + d - xs) <= 0)%Q in C. change (xa + d <= xb < xa)%Q in Hs.
      repeat split; auto; [lra|]. destruct (Qlt_le_dec xb xe); auto. exfalso. nra.
  Qed.

  Lemma reach_forward xs xe a k b : honours -> (xs < xe)%Q ->
    reach (A := AQ) solve xs xe a k b -> (xs <= pt_x a)%Q -> (pt_x a < xe)%Q ->
    (0 < ss_dxTry (pt_step a))%Q -> (pt_x a < pt_x b)%Q /\ (pt_x b <= xe)%Q.
  Proof.
    intros Hh L R. induction R as [a b Hs|a b k c Hs Hn R IH]; intros P1 P2 P3;
      destruct (stepped_forward _ _ _ _ Hh L Hs P1 P2 P3) as (B1 & B2 & B3).
    - split; auto.
    - rewrite arrived_forward in Hn by auto. simpl in IH.
      destruct IH as [I1 I2]; [eapply Qle_trans; [exact P1|apply Qlt_le_weak; exact B1]|
                               apply Qnot_le_lt; exact Hn|exact B3|].
      split; [eapply Qlt_trans; eauto|auto].
  Qed.

  Lemma reach_backward xs xe a k b : honours -> (xe < xs)%Q ->
    reach (A := AQ) solve xs xe a k b -> (pt_x a <= xs)%Q -> (xe < pt_x a)%Q ->
    (ss_dxTry (pt_step a) < 0)%Q -> (pt_x b < pt_x a)%Q /\ (xe <= pt_x b)%Q.
  Proof.
    intros Hh L R. induction R as [a b Hs|a b k c Hs Hn R IH]; intros P1 P2 P3;
      destruct (stepped_backward _ _ _ _ Hh L Hs P1 P2 P3) as (B1 & B2 & B3).
    - split; auto.
    - rewrite arrived_backward in Hn by auto. simpl in IH.
      destruct IH as [I1 I2]; [eapply Qle_trans; [apply Qlt_le_weak; exact B1|exact P1]|
                               apply Qnot_le_lt; exact Hn|exact B3|].
      split; [eapply Qlt_trans; eauto|auto].
  Qed.

  Lemma no_overshoot h (xs xe : Q) y (dx : Q) k b : honours ->
    reach (A := AQ) solve xs xe (mkPoint (A := AQ) h xs y (newStep (A := AQ) dx)) k b ->
    ((xs < xe)%Q -> (0 < dx)%Q -> (xs < pt_x b)%Q /\ (pt_x b <= xe)%Q) /\
    ((xe < xs)%Q -> (dx < 0)%Q -> (pt_x b < xs)%Q /\ (xe <= pt_x b)%Q).
  Proof.
    intros Hh R. split; intros L D.
    - apply (reach_forward xs xe _ _ _ Hh L R); simpl; auto. apply Qle_refl.
    - apply (reach_backward xs xe _ _ _ Hh L R); simpl; auto. apply Qle_refl.
  Qed.

  (** ** The error norm *)

  Lemma foam_max_le (a b t : Q) : (foam_max AQ a b <= t)%Q <-> (a <= t)%Q /\ (b <= t)%Q.
  Proof.
    unfold foam_max. simpl. destruct (Qltb b a) eqn:E.
    - apply Qltb_true in E. split; [|tauto]. intros; split; auto. lra.
    - apply Qltb_false in E. split; [|tauto]. intros; split; auto. lra.
  Qed.

  Lemma foam_max_ge (a b : Q) : (a <= foam_max AQ a b)%Q.
  Proof.
    unfold foam_max. simpl. destruct (Qltb b a) eqn:E; [apply Qle_refl|apply Qltb_false; auto].
  Qed.

  Lemma foam_max_Qmax (a b : Q) : (foam_max AQ a b == Qmax a b)%Q.
  Proof.
    unfold foam_max. simpl. destruct (Qltb b a) eqn:E.
    - apply Qltb_true in E. symmetry. apply Q.max_l. apply Qlt_le_weak; auto.
    - apply Qltb_false in E. symmetry. apply Q.max_r. auto.
  Qed.

  Definition tolerance (a r u v : Q) : Q := (a + r * Qmax (Qabs u) (Qabs v))%Q.

  Lemma within (a r u v e t : Q) : (0 < a)%Q -> (0 <= r)%Q ->
    ((Qabs e / (a + r * foam_max AQ (Qabs u) (Qabs v)) <= t)%Q <-> (Qabs e <= t * tolerance a r u v)%Q).
  Proof.
    intros Ha Hr. unfold tolerance. rewrite foam_max_Qmax.
    assert (Hm : (0 <= Qmax (Qabs u) (Qabs v))%Q).
    { eapply Qle_trans; [apply Qabs_nonneg|apply Q.le_max_l]. }
    assert (Hd : (0 < a + r * Qmax (Qabs u) (Qabs v))%Q) by nra.
    split; intros E.
    - rewrite <- (Qmult_div_r (Qabs e) (a + r * Qmax (Qabs u) (Qabs v))) by lra.
      rewrite (Qmult_comm t). apply Qmult_le_l; auto.
    - apply Qle_shift_div_r; auto.
  Qed.

  Lemma normalizeError_upto (a r u v e : list Q) k :
    length a = length e -> length r = length e -> length u = length e -> length v = length e ->
    (forall i, i < length e -> (0 < nth i a 0)%Q /\ (0 <= nth i r 0)%Q) -> k <= length e ->
    exists m, foldM (fun (maxErr : num AQ) i =>
             let* a := idx (a : list (num AQ)) i in
             let* r := idx (r : list (num AQ)) i in
             let* u := idx (u : list (num AQ)) i in
             let* v := idx (v : list (num AQ)) i in
             let* e := idx (e : list (num AQ)) i in
             let tol := nadd AQ a (nmul AQ r (foam_max AQ (nabs AQ u) (nabs AQ v))) in
             Ok (foam_max AQ maxErr (ndiv AQ (nabs AQ e) tol)))
          (zero AQ) (seq 0 k) = Ok m /\ (0 <= m)%Q /\
      forall t, (0 <= t)%Q -> ((m <= t)%Q <-> forall i, i < k ->
        (Qabs (nth i e 0%Q) <= t * tolerance (nth i a 0%Q) (nth i r 0%Q) (nth i u 0%Q) (nth i v 0%Q))%Q).
  Proof.
    intros La Lr Lu Lv Hp. induction k as [|k IH]; intros Hk.
    - exists 0%Q. split; [reflexivity|]. split; [apply Qle_refl|]. intros t Ht. split; auto. intros _ i Hi; lia.
    - destruct IH as (m & E & P & IH); [lia|].
      rewrite seq_S, foldM_app, E. cbn [bind foldM plus].
      assert (Hx : forall l : list Q, length l = length e -> idx (l : list (num AQ)) k = Ok (nth k l 0%Q)).
      { intros l Hl. apply idx_nth. change (k < length l). lia. }
      rewrite (Hx a), (Hx r), (Hx u), (Hx v), (Hx e) by auto. cbn [bind]. cbv zeta.
      eexists. split; [reflexivity|]. destruct (Hp k) as [P1 P2]; [lia|].
      split; [eapply Qle_trans; [exact P|apply foam_max_ge]|].
      intros t Ht. rewrite foam_max_le. simpl nabs. simpl ndiv. simpl nadd. simpl nmul.
      rewrite within by auto. rewrite (IH t Ht). split.
      + intros [X Y] i Hi. destruct (Nat.eq_dec i k) as [->|]; auto. apply X. lia.
      + intros X. split; [intros; apply X; lia|apply X; lia].
  Qed.

  Lemma normalizeError_lemma (a r u v e : list Q) n :
    length a = n -> length r = n -> length u = n -> length v = n -> length e = n ->
    (forall i, i < n -> (0 < nth i a 0)%Q /\ (0 <= nth i r 0)%Q) ->
    exists m, normalizeError (A := AQ) a r u v e = Ok m /\ (0 <= m)%Q /\
      forall t, (0 <= t)%Q -> ((m <= t)%Q <-> forall i, i < n ->
        (Qabs (nth i e 0%Q) <= t * tolerance (nth i a 0%Q) (nth i r 0%Q) (nth i u 0%Q) (nth i v 0%Q))%Q).
  Proof. intros La Lr Lu Lv <- Hp. apply normalizeError_upto; auto. Qed.
End Exact.
