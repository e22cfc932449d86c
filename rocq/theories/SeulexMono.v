(** What seulex computes is determined by the initialised part of its memory. *)
From Coq Require Import List Arith ZArith QArith Bool Lia.
From Verif Require Import Outcome Arith ChemistryModel ChemFacts OdeSolver Seulex.
Import ListNotations.
Local Open Scope nat_scope.

(** ** Vocabulary *)

(** What the functions of an ODE system return does not depend on earlier calls. *)
Definition sys_memoryless {A S} (sys : odesys A S) : Prop :=
  (forall s1 s2 x y, orel (fun a b => fst a = fst b) (derivs sys s1 x y) (derivs sys s2 x y)) /\
  (forall s1 s2 x y, orel (fun a b => fst a = fst b) (jac sys s1 x y) (jac sys s2 x y)).

(** Every value known in [m1] is the same in [m2]; the ODE system's memory is not compared. *)
Definition below {A S} (m1 m2 : mem A S) : Prop :=
  (forall a i v, m_arr m1 a i = Some v -> m_arr m2 a i = Some v) /\
  (forall t, m_theta m1 = Some t -> m_theta m2 = Some t) /\
  (forall k, m_kTarg m1 = Some k -> m_kTarg m2 = Some k).

Definition mono {A S T} (f : M A S T) : Prop :=
  forall m1 m2, below m1 m2 ->
    match f m1 with
    | Ok (v, m1') => exists m2', f m2 = Ok (v, m2') /\ below m1' m2'
    | UB => True
    | Fatal => f m2 = Fatal
    | Diverge => f m2 = Diverge
    end.

Section Combinators.
  Context {A : Arith} {S : Type}.
  Notation mem := (mem A S).

  Lemma mono_ret {T} (x : T) : mono (S := S) (A := A) (ret x).
  Proof. intros m1 m2 L. exists m2. split; auto. Qed.

  Lemma mono_bind {T U} (c : M A S T) (f : T -> M A S U) :
    mono c -> (forall x, mono (f x)) -> mono (mbind c f).
  Proof.
    intros Hc Hf m1 m2 L. specialize (Hc m1 m2 L). unfold mbind.
    destruct (c m1) as [[x m1']| | |]; simpl; auto.
    - destruct Hc as (m2' & -> & L'). simpl. apply Hf; auto.
    - rewrite Hc. reflexivity.
    - rewrite Hc. reflexivity.
  Qed.

  Lemma mono_lift {T} (o : outcome T) : mono (S := S) (A := A) (lift o).
  Proof. intros m1 m2 L. unfold lift. destruct o; simpl; eauto. Qed.

  Lemma mono_if {T} (b : bool) (f g : M A S T) : mono f -> mono g -> mono (if b then f else g).
  Proof. destruct b; auto. Qed.

  Lemma rdv_below (m1 m2 : mem) a l v : below m1 m2 ->
    mapM (fun i => rd (m_arr m1 a i)) l = Ok v -> mapM (fun i => rd (m_arr m2 a i)) l = Ok v.
  Proof.
    intros (L & _ & _). revert v. induction l as [|i l IH]; intros v E; simpl in *; auto.
    apply bind_ok in E as (x & E1 & E). apply bind_ok in E as (r & E2 & E).
    rewrite (IH r E2). destruct (m_arr m1 a i) eqn:Ea; [|discriminate].
    rewrite (L _ _ _ Ea). simpl in *. inversion E1; subst. exact E.
  Qed.

  Lemma rdv_cases (m : mem) a l :
    (exists v, mapM (fun i => rd (m_arr m a i)) l = Ok v) \/ mapM (fun i => rd (m_arr m a i)) l = UB.
  Proof.
    induction l as [|i l IH]; simpl; eauto.
    destruct (m_arr m a i); simpl; auto. destruct IH as [(v & ->)| ->]; simpl; eauto.
  Qed.

  Lemma mono_rdv n a : mono (S := S) (A := A) (rdv n a).
  Proof.
    intros m1 m2 L. unfold rdv. destruct (rdv_cases m1 a (seq 0 (size n a))) as [(v & E)|E]; rewrite E; simpl; auto.
    rewrite (rdv_below _ _ _ _ _ L E). simpl. eauto.
  Qed.

  Lemma mono_rde n a i : mono (S := S) (A := A) (rde n a i).
  Proof.
    intros m1 m2 L. unfold rde. destruct (i <? size n a); auto.
    destruct (m_arr m1 a i) eqn:E; simpl; auto. rewrite (proj1 L _ _ _ E). simpl. eauto.
  Qed.

  Lemma below_set (m1 m2 : mem) a f1 f2 : below m1 m2 ->
    (forall i v, f1 i = Some v -> f2 i = Some v) -> below (set_arr m1 a f1) (set_arr m2 a f2).
  Proof.
    intros (L1 & L2 & L3) F. repeat split; auto. intros b i v; simpl. destruct (arr_eqb a b); auto.
  Qed.

  Lemma mono_wrv n a v : mono (S := S) (A := A) (wrv n a v).
  Proof.
    intros m1 m2 L. unfold wrv. destruct (length v =? size n a); auto.
    eexists. split; [reflexivity|]. apply below_set; auto.
  Qed.

  Lemma mono_wre n a i v : mono (S := S) (A := A) (wre n a i v).
  Proof.
    intros m1 m2 L. unfold wre. destruct (i <? size n a); auto.
    eexists. split; [reflexivity|]. apply below_set; auto.
    intros j w. destruct (j =? i); auto. apply L.
  Qed.

  Lemma mono_get_theta : mono (S := S) (A := A) get_theta.
  Proof.
    intros m1 m2 L. unfold get_theta. destruct (m_theta m1) eqn:E; simpl; auto.
    rewrite (proj1 (proj2 L) _ E). simpl. eauto.
  Qed.

  Lemma mono_set_theta t : mono (S := S) (A := A) (set_theta t).
  Proof.
    intros m1 m2 (L1 & L2 & L3). unfold set_theta. eexists. split; [reflexivity|].
    repeat split; simpl; auto.
  Qed.

  Lemma mono_get_kTarg : mono (S := S) (A := A) get_kTarg.
  Proof.
    intros m1 m2 L. unfold get_kTarg. destruct (m_kTarg m1) eqn:E; simpl; auto.
    rewrite (proj2 (proj2 L) _ E). simpl. eauto.
  Qed.

  Lemma mono_set_kTarg t : mono (S := S) (A := A) (set_kTarg t).
  Proof.
    intros m1 m2 (L1 & L2 & L3). unfold set_kTarg. eexists. split; [reflexivity|].
    repeat split; simpl; auto.
  Qed.
End Combinators.

Create HintDb mono.
#[export] Hint Resolve mono_ret mono_lift mono_rdv mono_rde mono_wrv mono_wre mono_get_theta
  mono_set_theta mono_get_kTarg mono_set_kTarg : mono.

Ltac mono :=
  repeat match goal with
  | |- forall _, _ => intro
  | |- mono (let '(_, _) := ?p in _) => destruct p
  | |- mono (match ?p with (_, _) => _ end) => destruct p
  | |- mono (if ?b then _ else _) => apply mono_if
  | |- mono (mbind _ _) => apply mono_bind
  | |- mono _ => solve [auto with mono]
  end.

Section Seulex.
  Context {A : Arith} {S : Type}.
  Variable cm : cmath A.
  Variable lap : lapack A.
  Variable sys : odesys A S.
  Variables absTol relTol : list (num A).
  Hypothesis SM : sys_memoryless sys.

  Lemma mono_derivs x y : mono (call_derivs sys x y).
  Proof.
    intros m1 m2 (L1 & L2 & L3). unfold call_derivs. generalize (proj1 SM (m_sys m1) (m_sys m2) x y).
    destruct (derivs sys (m_sys m1) x y) as [[d s]| | |], (derivs sys (m_sys m2) x y) as [[d' s']| | |];
      simpl; try contradiction; auto.
    intros <-. eexists. split; [reflexivity|]. repeat split; simpl; auto.
  Qed.

  Lemma mono_wr_rows l : forall i, mono (wr_rows sys i l).
  Proof. induction l; intros i; simpl; mono. Qed.

  Lemma mono_jac x y : mono (call_jac sys x y).
  Proof.
    unfold call_jac. apply mono_bind.
    - intros m1 m2 (L1 & L2 & L3). generalize (proj2 SM (m_sys m1) (m_sys m2) x y).
      destruct (jac sys (m_sys m1) x y) as [[[d e] s]| | |], (jac sys (m_sys m2) x y) as [[[d' e'] s']| | |];
        simpl; try contradiction; auto.
      intros E; inversion E; subst. eexists. split; [reflexivity|]. repeat split; simpl; auto.
    - intros [dfdx dfdy]. apply mono_bind; [auto with mono|]. intros _. apply mono_wr_rows.
  Qed.
  Hint Resolve mono_derivs mono_jac : mono.

  Lemma mono_rows k : forall i, mono (rd_rows (A := A) sys i k).
  Proof. induction k; intros i; simpl; mono. Qed.
  Hint Resolve mono_rows : mono.

  Lemma mono_back f : mono (back_solve lap sys f).
  Proof. unfold back_solve. mono. Qed.
  Hint Resolve mono_back : mono.

  Lemma mono_stability f x0 dx : mono (stability cm lap sys f x0 dx).
  Proof. unfold stability. mono. Qed.
  Hint Resolve mono_stability : mono.

  Lemma mono_loop l : forall nn k f x0 dx xn, mono (seul_loop cm lap sys l nn k f x0 dx xn).
  Proof. induction l; intros; simpl; mono. Qed.
  Hint Resolve mono_loop : mono.

  Lemma mono_seul x0 dx k : mono (seul cm lap sys x0 dx k).
  Proof. unfold seul. cbv zeta. mono. Qed.
  Hint Resolve mono_seul : mono.

  Lemma mono_erows k j : mono (extrapolate_rows sys k j).
  Proof. induction j; simpl; mono. Qed.
  Hint Resolve mono_erows : mono.

  Lemma mono_extrapolate k y : mono (extrapolate sys k y).
  Proof. unfold extrapolate. mono. Qed.
  Hint Resolve mono_extrapolate : mono.

  Lemma mono_retry i y : mono (retry sys i y).
  Proof. unfold retry. mono. Qed.
  Hint Resolve mono_retry : mono.

  Lemma mono_decide k st d e eo y : mono (decide sys k st d e eo y).
  Proof. unfold decide. cbv zeta. mono. Qed.
  Hint Resolve mono_decide : mono.

  Lemma mono_column x dx k st d eo y : mono (column cm lap sys absTol relTol x dx k st d eo y).
  Proof. unfold column. cbv zeta. mono. Qed.
  Hint Resolve mono_column : mono.

  Lemma mono_columns l : forall k x dx st d eo y,
    mono (columns cm lap sys absTol relTol l k x dx st d eo y).
  Proof.
    induction l; intros; simpl; mono.
    destruct x1; mono.
  Qed.
  Hint Resolve mono_columns : mono.

  Lemma mono_attempts f : forall x d r st y, mono (attempts cm lap sys absTol relTol f x d r st y).
  Proof. induction f; intros; cbn [attempts]; cbv zeta; mono. Qed.
  Hint Resolve mono_attempts : mono.

  Lemma mono_order k : mono (order (A := A) sys k).
  Proof. unfold order. mono. Qed.

  Lemma mono_next k ko dx p : mono (next_size sys k ko dx p).
  Proof. unfold next_size. cbv zeta. mono. Qed.
  Hint Resolve mono_order mono_next : mono.

  Lemma mono_step f x y st : mono (step_solve cm lap sys absTol relTol f x y st).
  Proof. unfold step_solve. cbv zeta. mono. Qed.
End Seulex.
