(** seulex never reads outside its arrays or what it has not written. *)
From Coq Require Import List Arith ZArith QArith Bool Lia.
From Verif Require Import Outcome Arith ChemistryModel ChemFacts ChemBalance OdeSolver Seulex.
Import ListNotations.
Local Open Scope nat_scope.

(** ** Vocabulary *)

(** An ODE system whose functions, given a vector of [nEqns] elements, have no undefined
    behaviour and fill vectors of [nEqns] elements and an [nEqns] x [nEqns] matrix. *)
Definition sys_sane {A S} (sys : odesys A S) : Prop :=
  let n := nEqns sys in
  (forall s x y, length y = n ->
     match derivs sys s x y with Ok (d, _) => length d = n | UB => False | _ => True end) /\
  (forall s x y, length y = n ->
     match jac sys s x y with
     | Ok (dfdx, dfdy, _) =>
         length dfdx = n /\ length dfdy = n /\ forall r, In r dfdy -> length r = n
     | UB => False
     | _ => True
     end).

(** The order given by the tolerances can be computed. *)
Definition order_defined {A} (cm : cmath A) (a r : num A) : Prop :=
  exists z, fint cm (nadd A (nmul A (nneg A (flog10 cm (nadd A r a))) (lit A (6 # 10)))
                       (lit A (1 # 2))) = Some z.

(** ** Safety of a computation *)
Definition safe {A S T} (f : M A S T) (m : mem A S) (Q : T -> mem A S -> Prop) : Prop :=
  match f m with Ok (v, m') => Q v m' | UB => False | _ => True end.

Section Safe.
  Context {A : Arith} {S : Type}.
  Notation mem := (mem A S).

  Lemma safe_ret {T} (x : T) (m : mem) (Q : _ -> mem -> Prop) : Q x m -> safe (ret x) m Q.
  Proof. auto. Qed.

  Lemma safe_bind {T U} (c : M A S T) (f : T -> M A S U) m (Q : U -> mem -> Prop) :
    safe c m (fun x m' => safe (f x) m' Q) -> safe (mbind c f) m Q.
  Proof. unfold safe, mbind. destruct (c m) as [[x m']| | |]; auto. Qed.

  Lemma safe_weaken {T} (f : M A S T) m (Q Q' : T -> mem -> Prop) :
    safe f m Q -> (forall v m', Q v m' -> Q' v m') -> safe f m Q'.
  Proof. unfold safe. destruct (f m) as [[x m']| | |]; auto. Qed.

  Lemma safe_lift {T} (o : outcome T) (m : mem) (P : T -> Prop) (Q : T -> mem -> Prop) :
    match o with Ok x => P x | UB => False | _ => True end ->
    (forall x, P x -> Q x m) -> safe (lift o) m Q.
  Proof. unfold safe, lift. destruct o; simpl; auto. Qed.

  Lemma safe_lift_ok {T} (x : T) (m : mem) (Q : _ -> mem -> Prop) : Q x m -> safe (lift (Ok x)) m Q.
  Proof. auto. Qed.

  Variable sys : odesys A S.
  Notation n := (nEqns sys).

  (** [a[i]] is an element of the array and has a value. *)
  Definition has (m : mem) (a : arr) (i : nat) : Prop := i < size n a /\ m_arr m a i <> None.

  (** The array [a] is initialised. *)
  Definition full (m : mem) (a : arr) : Prop := forall i, i < size n a -> has m a i.

  (** What has a value in [m] has one in [m']. *)
  Definition grows (m m' : mem) : Prop :=
    (forall a i, has m a i -> has m' a i) /\ (m_theta m <> None -> m_theta m' <> None).

  (** ... and the target order is the same. *)
  Definition extends (m m' : mem) : Prop := grows m m' /\ m_kTarg m' = m_kTarg m.

  Lemma extends_refl m : extends m m.
  Proof. repeat split; auto; apply H. Qed.

  Lemma extends_trans m1 m2 m3 : extends m1 m2 -> extends m2 m3 -> extends m1 m3.
  Proof. intros [[A1 A2] A3] [[B1 B2] B3]. split; [split|]; auto. congruence. Qed.

  Lemma full_grows m m' a : grows m m' -> full m a -> full m' a.
  Proof. intros [G _] F i Hi. apply G, F, Hi. Qed.

  Lemma full_extends m m' a : extends m m' -> full m a -> full m' a.
  Proof. intros [G _]. now apply full_grows. Qed.

  Lemma has_extends m m' a i : extends m m' -> has m a i -> has m' a i.
  Proof. intros [[G _] _]. apply G. Qed.

  Lemma arr_eqb_eq a b : arr_eqb a b = true <-> a = b.
  Proof.
    destruct a, b; simpl; split; try discriminate; auto; try (intros E; inversion E; subst; apply Nat.eqb_refl);
      intros E; apply Nat.eqb_eq in E; congruence.
  Qed.

  Lemma arr_eqb_refl a : arr_eqb a a = true.
  Proof. now apply arr_eqb_eq. Qed.

  Lemma safe_rdv a (m : mem) (Q : _ -> mem -> Prop) : full m a -> (forall v, length v = size n a -> Q v m) ->
    safe (rdv n a) m Q.
  Proof.
    intros F HQ. unfold safe, rdv.
    assert (X : forall l, (forall i, In i l -> has m a i) ->
              exists v, mapM (fun i => rd (m_arr m a i)) l = Ok v /\ length v = length l).
    { induction l as [|i l IH]; intros Hl; simpl; [eauto|].
      destruct IH as (v & E & L); [intros; apply Hl; simpl; auto|].
      destruct (Hl i (or_introl eq_refl)) as [_ Hi].
      destruct (m_arr m a i) as [x|]; [|contradiction]. rewrite E. simpl. eexists; split; eauto. simpl; auto. }
    destruct (X (seq 0 (size n a))) as (v & E & L).
    { intros i Hi. apply in_seq in Hi. apply F. lia. }
    rewrite E. simpl. apply HQ. rewrite L. apply seq_length.
  Qed.

  Lemma safe_rde a i (m : mem) (Q : num A -> mem -> Prop) :
    has m a i -> (forall v, Q v m) -> safe (rde n a i) m Q.
  Proof.
    intros [Hi Hh] HQ. unfold safe, rde. apply Nat.ltb_lt in Hi. rewrite Hi.
    destruct (m_arr m a i); [apply HQ|contradiction].
  Qed.

  Lemma safe_wrv a v (m : mem) (Q : unit -> mem -> Prop) : length v = size n a ->
    (forall m', extends m m' -> full m' a -> Q tt m') -> safe (wrv n a v) m Q.
  Proof.
    intros L HQ. unfold safe, wrv. rewrite L, Nat.eqb_refl.
    assert (F : forall i, i < size n a -> nth_error v i <> None)
      by (intros; apply nth_error_Some; lia).
    apply HQ.
    - split; [split|]; auto. intros b i [Hb Hv]. split; auto. simpl.
      destruct (arr_eqb a b) eqn:E; auto. apply arr_eqb_eq in E. subst b. auto.
    - intros i Hi. split; auto. simpl. rewrite arr_eqb_refl. auto.
  Qed.

  Lemma safe_wrv_theta a v (m : mem) (Q : unit -> mem -> Prop) : length v = size n a ->
    (forall m', extends m m' -> full m' a -> m_theta m' = m_theta m -> Q tt m') -> safe (wrv n a v) m Q.
  Proof.
    intros L HQ.
    assert (X := safe_wrv a v m (fun _ m' => extends m m' /\ full m' a) L).
    unfold safe, wrv in *. rewrite L, Nat.eqb_refl in *. destruct X as [X1 X2]; auto.
  Qed.

  Lemma safe_wre a i v (m : mem) (Q : unit -> mem -> Prop) : i < size n a ->
    (forall m', extends m m' -> has m' a i -> Q tt m') -> safe (wre n a i v) m Q.
  Proof.
    intros Hi HQ. unfold safe, wre. assert (E := Hi). apply Nat.ltb_lt in E. rewrite E. apply HQ.
    - split; [split|]; auto. intros b j [Hb Hv]. split; auto. simpl.
      destruct (arr_eqb a b) eqn:Eb; auto. apply arr_eqb_eq in Eb. subst b.
      destruct (j =? i); [discriminate|auto].
    - split; auto. simpl. rewrite arr_eqb_refl, Nat.eqb_refl. discriminate.
  Qed.

  Lemma safe_get_theta (m : mem) (Q : num A -> mem -> Prop) :
    m_theta m <> None -> (forall t, Q t m) -> safe get_theta m Q.
  Proof. unfold safe, get_theta. destruct (m_theta m); simpl; auto; contradiction. Qed.

  Lemma safe_set_theta t (m : mem) (Q : unit -> mem -> Prop) :
    (forall m', extends m m' -> m_theta m' = Some t -> Q tt m') -> safe (set_theta t) m Q.
  Proof.
    intros HQ. apply HQ; auto. split; [split|]; auto. discriminate.
  Qed.

  Lemma safe_get_kTarg k (m : mem) (Q : nat -> mem -> Prop) :
    m_kTarg m = Some k -> Q k m -> safe get_kTarg m Q.
  Proof. intros E HQ. unfold safe, get_kTarg. rewrite E. exact HQ. Qed.

  Lemma safe_set_kTarg k (m : mem) (Q : unit -> mem -> Prop) :
    (forall m', grows m m' -> m_kTarg m' = Some k -> Q tt m') -> safe (set_kTarg k) m Q.
  Proof. intros HQ. apply HQ; auto. split; auto. Qed.

  Lemma safe_map2 {X Y Z} (f : X -> Y -> Z) l1 l2 (m : mem) (Q : _ -> mem -> Prop) : length l1 = length l2 ->
    (forall l, length l = length l1 -> Q l m) -> safe (lift (map2 f l1 l2)) m Q.
  Proof.
    intros L HQ. assert (E : exists l, map2 f l1 l2 = Ok l /\ length l = length l1).
    { clear HQ. revert l2 L. induction l1 as [|x l1 IH]; intros [|y l2] L; simpl in *; try discriminate; eauto.
      destruct (IH l2) as (l & -> & E); auto. simpl. eexists; split; eauto. simpl; auto. }
    destruct E as (l & E & L'). rewrite E. apply HQ; auto.
  Qed.

  Hypothesis SS : sys_sane sys.

  Lemma safe_derivs x y (m : mem) (Q : _ -> mem -> Prop) : length y = n ->
    (forall d m', length d = n -> extends m m' -> Q d m') -> safe (call_derivs sys x y) m Q.
  Proof.
    intros L HQ. assert (D := proj1 SS (m_sys m) x y L). unfold safe, call_derivs.
    destruct (derivs sys (m_sys m) x y) as [[d s]| | |]; simpl; auto.
    apply HQ; auto. split; [split|]; auto.
  Qed.

  Lemma safe_wr_rows l : forall i (m : mem) (Q : unit -> mem -> Prop),
    i + length l = n -> (forall r, In r l -> length r = n) -> (forall j, j < i -> full m (Dfdy j)) ->
    (forall m', extends m m' -> (forall j, j < n -> full m' (Dfdy j)) -> Q tt m') ->
    safe (wr_rows sys i l) m Q.
  Proof.
    induction l as [|r l IH]; intros i m Q L Hr HF HQ; simpl in *.
    - rewrite (proj2 (Nat.eqb_eq i n)) by lia. apply safe_ret. apply HQ; [apply extends_refl|].
      intros j Hj. apply HF. lia.
    - rewrite (proj2 (Nat.ltb_lt i n)) by lia. apply safe_bind. apply safe_wrv; [apply Hr; auto|].
      intros m1 E1 F1. apply IH; auto; [lia| |].
      + intros j Hj. destruct (Nat.eq_dec j i) as [->|]; auto. eapply full_extends; eauto. apply HF. lia.
      + intros m2 E2 F2. apply HQ; auto. eapply extends_trans; eauto.
  Qed.

  Lemma safe_jac x y (m : mem) (Q : unit -> mem -> Prop) : length y = n ->
    (forall m', extends m m' -> (forall j, j < n -> full m' (Dfdy j)) -> Q tt m') ->
    safe (call_jac sys x y) m Q.
  Proof.
    intros L HQ. assert (D := proj2 SS (m_sys m) x y L). unfold call_jac. apply safe_bind.
    unfold safe at 1. destruct (jac sys (m_sys m) x y) as [[[a b] s]| | |]; simpl; auto.
    destruct D as (D1 & D2 & D3).
    apply safe_bind. apply safe_wrv; auto. intros m1 E1 _.
    apply safe_wr_rows; auto; [intros; lia|]. intros m2 E2 F2. apply HQ; auto.
    eapply extends_trans; [|exact E2]. destruct E1 as [[G1 G2] G3]. split; [split|]; auto.
  Qed.

  Lemma safe_rd_rows k : forall i (m : mem) (Q : _ -> mem -> Prop), (forall j, j < i + k -> full m (Dfdy j)) ->
    (forall rs, length rs = k -> (forall r, In r rs -> length r = n) -> Q rs m) ->
    safe (rd_rows sys i k) m Q.
  Proof.
    induction k as [|k IH]; intros i m Q HF HQ; simpl.
    - apply safe_ret. apply HQ; auto. intros r [].
    - apply safe_bind, safe_rdv; [apply HF; lia|]. intros r Lr.
      apply safe_bind, IH; [intros; apply HF; lia|]. intros rs Lrs Hrs. apply safe_ret.
      apply HQ; simpl; auto. intros q [<-|Hq]; auto.
  Qed.

  Lemma sysmatrix_ok (J : list (list (num A))) dx : length J = n -> (forall r, In r J -> length r = n) ->
    exists a, sysmatrix sys J dx = Ok a.
  Proof.
    intros L HJ. unfold sysmatrix.
    assert (X : exists cols, mapM (fun j => mapM (fun i =>
                   let* row := idx J i in
                   let* v := idx row j in
                   Ok (if i =? j then nadd A (nneg A v) (ndiv A (lit A 1) dx) else nneg A v))
                   (seq 0 n)) (seq 0 n) = Ok cols).
    { apply mapM_total. intros j Hj. apply in_seq in Hj. apply mapM_total. intros i Hi. apply in_seq in Hi.
      unfold idx. destruct (nth_error J i) as [row|] eqn:E.
      2:{ apply nth_error_None in E. lia. }
      simpl. destruct (nth_error row j) eqn:E2; simpl; eauto.
      apply nth_error_None in E2. rewrite (HJ row) in E2; [lia|]. eapply nth_error_In; eauto. }
    destruct X as (cols & ->). simpl. eauto.
  Qed.

  (** ** The phases of a step *)

  Ltac fulls :=
    match goal with
    | |- full ?m ?a =>
      first [ assumption
            | match goal with E : extends ?m0 m |- _ => apply (full_extends m0 m a E); fulls end ]
    end.
  Ltac hass :=
    match goal with
    | |- has ?m ?a ?i =>
      first [ assumption
            | match goal with F : full m a |- _ => apply F; simpl; lia end
            | match goal with E : extends ?m0 m |- _ => apply (has_extends m0 m a i E); hass end ]
    end.
  Ltac exts :=
    match goal with
    | |- extends ?m ?m' =>
      first [ assumption | apply extends_refl
            | match goal with E : extends ?m0 m' |- _ => apply (extends_trans m m0 m'); [exts|exact E] end ]
    end.

  Hypothesis N1 : 1 <= n.
  Variable cm : cmath A.
  Variable lap : lapack A.

  (** The Jacobian, the state at the start of the step and the scales are there. *)
  Definition base (m : mem) : Prop :=
    (forall j, j < n -> full m (Dfdy j)) /\ full m Y0 /\ full m Scale.

  Lemma base_grows m m' : grows m m' -> base m -> base m'.
  Proof. intros G (B1 & B2 & B3). repeat split; intros; eapply full_grows; eauto. Qed.

  Lemma base_extends m m' : extends m m' -> base m -> base m'.
  Proof. intros [G _]. now apply base_grows. Qed.

  Lemma map2_ok {X Y Z} (f : X -> Y -> Z) l1 l2 : length l1 = length l2 ->
    exists l, map2 f l1 l2 = Ok l /\ length l = length l1.
  Proof.
    revert l2. induction l1 as [|x l1 IH]; intros [|y l2] L; simpl in *; try discriminate; eauto.
    destruct (IH l2) as (l & -> & E); auto. simpl. eexists; split; eauto. simpl; auto.
  Qed.

  Lemma safe_squares v sc (m : mem) (Q : num A -> mem -> Prop) : length v = length sc -> (forall q, Q q m) ->
    safe (lift (scaled_squares v sc)) m Q.
  Proof.
    intros L HQ. unfold scaled_squares. destruct (map2_ok (fun d s => sqr A (ndiv A d s)) v sc L) as (l & -> & _).
    apply safe_lift_ok. auto.
  Qed.

  Lemma safe_guarded v : forall sc acc (m : mem) (Q : num A -> mem -> Prop), length v = length sc ->
    (forall q, Q q m) -> safe (lift (guarded_squares cm acc v sc)) m Q.
  Proof.
    induction v as [|d v IH]; intros [|s sc] acc m Q L HQ; simpl in *; try discriminate.
    - apply safe_lift_ok; auto.
    - destruct (nltb A _ _); [apply safe_lift_ok; auto|apply IH; auto].
  Qed.

  Lemma safe_back f (m : mem) (Q : unit -> mem -> Prop) : full m Dy ->
    (forall m', extends m m' -> Q tt m') -> safe (back_solve lap sys f) m Q.
  Proof.
    intros F HQ. unfold back_solve. apply safe_bind, safe_rdv; auto. intros v Lv.
    apply safe_wrv; [rewrite map_length, seq_length; reflexivity|]. auto.
  Qed.

  Lemma safe_stability f x0 dx (m : mem) (Q : bool -> mem -> Prop) :
    base m -> full m Dy -> full m YTemp ->
    (forall b m', extends m m' -> Q b m') -> safe (stability cm lap sys f x0 dx) m Q.
  Proof.
    intros (B1 & B2 & B3) FD FY HQ. unfold stability.
    apply safe_bind, safe_rdv; [fulls|]. intros dy Ldy.
    apply safe_bind, safe_rdv; [fulls|]. intros sc Lsc.
    apply safe_bind, safe_squares; [simpl in *; congruence|]. intros q1.
    apply safe_bind, safe_rdv; [fulls|]. intros yt Lyt.
    apply safe_bind, safe_derivs; auto. intros d m1 Ld E1.
    apply safe_bind, safe_wrv; auto. intros m2 E2 F2.
    apply safe_bind, safe_rdv; [fulls|]. intros dd Ldd.
    apply safe_bind, safe_map2; [simpl in *; congruence|]. intros r Lr.
    apply safe_bind, safe_wrv; [simpl in *; congruence|]. intros m3 E3 F3.
    apply safe_bind, safe_back; [fulls|]. intros m4 E4.
    apply safe_bind, safe_rdv; [fulls|]. intros dy' Ldy'.
    apply safe_bind, safe_guarded; [simpl in *; congruence|]. intros q2.
    apply safe_bind, safe_set_theta. intros m5 E5 T5. apply safe_ret. apply HQ. exts.
  Qed.

  Lemma safe_loop l : forall nn k f x0 dx xn (m : mem) (Q : bool -> mem -> Prop),
    base m -> full m Dy -> full m YTemp ->
    (forall b m', extends m m' -> full m' Dy -> full m' YTemp -> Q b m') ->
    safe (seul_loop cm lap sys l nn k f x0 dx xn) m Q.
  Proof.
    induction l as [|l IH]; intros nn k f x0 dx xn m Q B FD FY HQ; cbn [seul_loop].
    - apply safe_ret. apply HQ; auto. exts.
    - apply safe_bind, safe_rdv; [fulls|]. intros yt Lyt.
      apply safe_bind, safe_rdv; [fulls|]. intros dy Ldy.
      apply safe_bind, safe_map2; [simpl in *; congruence|]. intros s Ls.
      apply safe_bind, safe_wrv; [simpl in *; congruence|]. intros m1 E1 F1. cbv zeta.
      apply safe_bind, safe_rde; [hass|]. intros T.
      destruct (nleb A T (lit A 200) || nltb A (lit A 5000) T).
      { apply safe_ret. apply HQ; auto. fulls. }
      assert (B1 := base_extends _ _ E1 B).
      apply safe_bind. eapply (safe_weaken _ _ (fun _ m' => extends m1 m')).
      { destruct ((nn =? 1) && (k <=? 1)).
        - apply safe_stability; auto. fulls.
        - apply safe_ret. exts. }
      intros ok m2 E2. destruct ok.
      2:{ apply safe_ret. apply HQ; [exts|fulls|fulls]. }
      apply safe_bind, safe_rdv; [fulls|]. intros yt' Lyt'.
      apply safe_bind, safe_derivs; auto. intros d m3 Ld E3.
      apply safe_bind, safe_wrv; auto. intros m4 E4 F4.
      apply safe_bind, safe_back; auto. intros m5 E5.
      apply IH.
      + eapply base_extends; [|exact B1]. exts.
      + fulls.
      + fulls.
      + intros b m6 E6 G1 G2. apply HQ; auto. exts.
  Qed.

  Lemma safe_seul x0 dx k (m : mem) (Q : bool -> mem -> Prop) : base m -> k < iMaxx ->
    (forall b m', extends m m' -> (b = true -> full m' YSeq) -> Q b m') ->
    safe (seul cm lap sys x0 dx k) m Q.
  Proof.
    intros B Hk HQ. assert (X := B). destruct X as (B1 & B2 & B3). unfold seul, nSeq_at.
    rewrite (proj2 (Nat.ltb_lt _ _) Hk). apply safe_bind, safe_lift_ok. cbv zeta.
    apply safe_bind, safe_rd_rows; [auto|]. intros J LJ HJ.
    destruct (sysmatrix_ok J (ndiv A dx (ofnat A (nseq k))) LJ HJ) as (a & ->).
    apply safe_bind, safe_lift_ok.
    apply safe_bind, safe_rdv; auto. intros y0 Ly0.
    apply safe_bind, safe_derivs; auto. intros d m1 Ld E1.
    apply safe_bind, safe_wrv; auto. intros m2 E2 F2.
    apply safe_bind, safe_back; auto. intros m3 E3.
    apply safe_bind, safe_wrv; auto. intros m4 E4 F4.
    apply safe_bind, safe_loop; [|fulls|fulls|].
    { eapply base_extends; [|exact B]. exts. }
    intros ok m5 E5 G1 G2. destruct ok.
    - apply safe_bind, safe_rdv; auto. intros yt Lyt.
      apply safe_bind, safe_rdv; auto. intros dy Ldy.
      apply safe_bind, safe_map2; [simpl in *; congruence|]. intros s Ls.
      apply safe_bind, safe_wrv; [simpl in *; congruence|]. intros m6 E6 F6.
      apply safe_ret. apply HQ; auto. exts.
    - apply safe_ret. apply HQ; [exts|discriminate].
  Qed.

  Lemma safe_erows k : k < iMaxx -> forall j (m : mem) (Q : unit -> mem -> Prop), j < k ->
    (forall i, i <= j -> full m (Table i)) ->
    (forall m', extends m m' -> Q tt m') -> safe (extrapolate_rows sys k j) m Q.
  Proof.
    intros Hk. induction j as [|j IH]; intros m Q Hj HF HQ; cbn [extrapolate_rows].
    - apply safe_ret. apply HQ. exts.
    - unfold table_row, coeff_at. unfold iMaxx in *.
      rewrite (proj2 (Nat.ltb_lt (Datatypes.S j) kMaxx)) by lia.
      rewrite (proj2 (Nat.ltb_lt j kMaxx)) by lia.
      rewrite (proj2 (Nat.ltb_lt k (kMaxx + 1))) by lia.
      rewrite (proj2 (Nat.ltb_lt (Datatypes.S j) k)) by lia. cbn [andb].
      do 3 apply safe_bind, safe_lift_ok.
      apply safe_bind, safe_rdv; [apply HF; lia|]. intros u Lu.
      apply safe_bind, safe_rdv; [apply HF; lia|]. intros v Lv.
      apply safe_bind, safe_map2; [simpl in *; congruence|]. intros r Lr.
      apply safe_bind, safe_wrv; [simpl in *; congruence|]. intros m1 E1 F1.
      apply IH; [lia| |].
      + intros i Hi. eapply full_extends; eauto.
      + intros m2 E2. apply HQ. exts.
  Qed.

  Lemma safe_extrapolate k y (m : mem) (Q : list (num A) -> mem -> Prop) : 1 <= k < iMaxx -> length y = n ->
    (forall i, i < k -> full m (Table i)) ->
    (forall v m', length v = n -> extends m m' -> Q v m') -> safe (extrapolate sys k y) m Q.
  Proof.
    intros [Hk1 Hk] Ly HF HQ. unfold extrapolate. apply safe_bind, safe_erows; auto; [lia| |].
    { intros i Hi. apply HF. lia. }
    intros m1 E1. unfold coeff_at. rewrite (proj2 (Nat.ltb_lt _ _) Hk).
    rewrite (proj2 (Nat.ltb_lt 0 k)) by lia. cbn [andb]. apply safe_bind, safe_lift_ok.
    apply safe_bind, safe_rdv; [eapply full_extends; eauto; apply HF; lia|]. intros u Lu.
    apply safe_map2; [simpl in *; congruence|]. intros l Ll. apply HQ; auto. simpl in *; congruence.
  Qed.

  Variables absTol relTol : list (num A).
  Hypothesis LA : length absTol = n.
  Hypothesis LR : length relTol = n.

  Lemma safe_scales y (m : mem) (Q : list (num A) -> mem -> Prop) : length y = n ->
    (forall v, length v = n -> Q v m) -> safe (lift (scales absTol relTol y)) m Q.
  Proof.
    intros Ly HQ. unfold scales.
    destruct (map2_ok (fun r v => nmul A r (nabs A v)) relTol y) as (q & -> & Lq); [congruence|]. cbn [bind].
    apply safe_map2; [congruence|]. intros l Ll. apply HQ. congruence.
  Qed.

  (** A target order that the tables allow for. *)
  Definition target (m : mem) (k : nat) : Prop := m_kTarg m = Some k /\ 1 <= k <= 11.

  (** Step sizes and work estimates of the columns up to [k] are there. *)
  Definition upto (m : mem) (k : nat) : Prop := forall i, i <= k -> has m DxOpt i /\ has m Temp i.

  Lemma upto_grows m m' k : grows m m' -> upto m k -> upto m' k.
  Proof. intros [G _] U i Hi. destruct (U i Hi). split; apply G; auto. Qed.

  Lemma safe_retry i y k (m : mem) (Q : after -> mem -> Prop) kT :
    target m kT -> upto m k -> 1 <= i <= k -> kT <= k ->
    (forall d m' kT', grows m m' -> target m' kT' -> Q (Leave true d y) m') ->
    safe (retry sys i y) m Q.
  Proof.
    intros [K1 K2] U Hi Hk HQ. unfold retry. apply safe_bind, (safe_get_kTarg kT); auto.
    apply safe_bind.
    eapply (safe_weaken _ _ (fun _ m' => grows m m' /\ exists kT', target m' kT' /\ kT' <= k)).
    - destruct (Nat.ltb_spec 1 kT).
      + apply safe_bind, safe_rde; [apply U; lia|]. intros a.
        apply safe_bind, safe_rde; [apply U; lia|]. intros b.
        destruct (nltb A a _).
        * apply safe_set_kTarg. intros m' G E. split; auto. exists (kT - 1). repeat split; auto; lia.
        * apply safe_ret. split; [apply extends_refl|]. exists kT. repeat split; auto; lia.
      + apply safe_ret. split; [apply extends_refl|]. exists kT. repeat split; auto; lia.
    - intros _ m' [G (kT' & T' & Hk')]. apply safe_bind, (safe_get_kTarg kT'); [apply T'|].
      apply safe_bind, safe_rde; [apply G, U; lia|]. intros d. apply safe_ret. eapply HQ; eauto.
  Qed.

  (** What the loop body may do at column [k], the target order being [kT]. *)
  Definition goes_on (k kT : nat) (m : mem) (a : after (A := A)) (m' : mem) : Prop :=
    match a with
    | Leave true _ y => length y = n /\ grows m m' /\ exists kT', target m' kT'
    | Leave false _ y => length y = n /\ extends m m' /\ 1 <= k <= kT + 1 /\ upto m' k
    | Go _ y => length y = n /\ extends m m' /\ (1 <= k -> upto m' k /\ k <> kT + 1)
    end.

  Lemma safe_decide k st dn e eo y (m : mem) kT :
    target m kT -> upto m k -> 1 <= k <= kT + 1 -> length y = n ->
    safe (decide sys k st dn e eo y) m (goes_on k kT m).
  Proof.
    intros T U Hk Ly. assert (K := T). destruct K as [K1 K2]. unfold decide. cbv zeta.
    assert (Acc : goes_on k kT m (Leave false dn y) m)
      by (split; [auto|split; [apply extends_refl|split; auto; lia]]).
    destruct ((ss_first st || ss_last st) && nleb A e (lit A 1)); [apply safe_ret; exact Acc|].
    apply safe_bind, (safe_get_kTarg kT); auto.
    set (below := (k =? kT - 1) && _ && _ && _).
    destruct (below && nleb A e (lit A 1)) eqn:Eb; [apply safe_ret; exact Acc|].
    apply safe_bind. eapply (safe_weaken _ _ (fun b m' => m' = m /\ (b = true -> k = kT - 1))).
    { unfold nSeq_at. destruct below eqn:Ebel.
      - assert (k = kT - 1).
        { unfold below in Ebel. destruct (Nat.eqb_spec k (kT - 1)); auto. discriminate. }
        unfold iMaxx, kMaxx. rewrite (proj2 (Nat.ltb_lt kT (12 + 1))) by lia.
        rewrite (proj2 (Nat.ltb_lt (kT + 1) (12 + 1))) by lia.
        do 2 apply safe_bind, safe_lift_ok. apply safe_ret. auto.
      - apply safe_ret. split; auto. discriminate. }
    intros early m0 [-> He]. destruct early.
    { apply safe_bind, safe_set_kTarg. intros m1 G1 E1.
      apply (safe_retry k y k m1 _ k); auto; try lia.
      - split; auto. specialize (He eq_refl). lia.
      - eapply upto_grows; eauto.
      - intros d m2 kT' G2 T2. simpl. split; auto. split; [|eauto].
        destruct G1, G2. split; auto. }
    destruct ((k =? kT) && nleb A e (lit A 1)); [apply safe_ret; exact Acc|].
    apply safe_bind. eapply (safe_weaken _ _ (fun b m' => m' = m /\ (b = true -> k = kT))).
    { unfold nSeq_at. destruct (Nat.eqb_spec k kT).
      - unfold iMaxx, kMaxx. rewrite (proj2 (Nat.ltb_lt (k + 1) (12 + 1))) by lia.
        apply safe_bind, safe_lift_ok. apply safe_ret. auto.
      - apply safe_ret. split; auto. discriminate. }
    intros late m0 [-> Hl]. destruct late.
    { specialize (Hl eq_refl). apply (safe_retry k y k m _ kT); auto; try lia.
      intros d m2 kT' G2 T2. simpl. eauto. }
    destruct (Nat.eqb_spec k (kT + 1)).
    - destruct (nltb A (lit A 1) e).
      + apply (safe_retry kT y k m _ kT); auto; try lia. intros d m2 kT' G2 T2. simpl. eauto.
      + apply safe_ret. exact Acc.
    - apply safe_ret. simpl. split; auto. split; [apply extends_refl|]. auto.
  Qed.

  Lemma error_ok y t0 sc (m : mem) (Q : num A -> mem -> Prop) : length y = n -> length t0 = n -> length sc = n ->
    (forall e, Q e m) -> safe (lift (error_of cm sys y t0 sc)) m Q.
  Proof.
    intros L1 L2 L3 HQ. unfold error_of.
    destruct (map2_ok (nsub A) y t0) as (d & -> & Ld); [congruence|]. cbn [bind]. unfold scaled_squares.
    destruct (map2_ok (fun d s => sqr A (ndiv A d s)) d sc) as (q & -> & Lq); [congruence|].
    apply safe_lift_ok. auto.
  Qed.

  Lemma safe_column x dx k st dn eo y (m : mem) kT :
    base m -> target m kT -> upto m (k - 1) -> (forall i, i + 1 < k -> full m (Table i)) ->
    k <= kT + 1 -> length y = n ->
    safe (column cm lap sys absTol relTol x dx k st dn eo y) m
      (fun a m' => goes_on k kT m a m' /\
                   match a with Go _ _ => forall i, i < k -> full m' (Table i) | _ => True end).
  Proof.
    intros B T U HT Hk Ly. assert (K := T). destruct K as [K1 K2]. unfold column. cbv zeta.
    apply safe_bind, safe_seul; auto; [unfold iMaxx, kMaxx; lia|]. intros ok m1 E1 F1.
    destruct ok; cbn [negb].
    2:{ apply safe_ret. split; auto. simpl. split; auto. split; [apply E1|]. exists kT. split; auto.
        destruct E1. congruence. }
    specialize (F1 eq_refl).
    apply safe_bind, safe_rdv; auto. intros ys Lys.
    destruct (Nat.eqb_spec k 0) as [->|Hk0].
    { apply safe_bind, safe_map2; [simpl in *; congruence|]. intros l Ll. apply safe_ret. split.
      - simpl. split; [congruence|]. split; auto. lia.
      - intros; lia. }
    unfold table_row. unfold kMaxx at 1. rewrite (proj2 (Nat.ltb_lt (k - 1) 12)) by lia.
    apply safe_bind, safe_lift_ok.
    apply safe_bind, safe_wrv; auto. intros m2 E2 F2.
    assert (HT2 : forall i, i < k -> full m2 (Table i)).
    { intros i Hi. destruct (Nat.eq_dec i (k - 1)) as [->|]; auto.
      assert (full m (Table i)) by (apply HT; lia). fulls. }
    apply safe_bind, safe_extrapolate; auto; [unfold iMaxx, kMaxx; lia|]. intros y' m3 Ly' E3.
    assert (B3 : base m3) by (eapply base_extends; [|exact B]; exts).
    apply safe_bind, safe_rdv; [apply B3|]. intros y0 Ly0.
    apply safe_bind, safe_scales; auto. intros sc Lsc.
    apply safe_bind, safe_wrv; auto. intros m4 E4 F4.
    assert (full m4 (Table 0)) by (assert (full m2 (Table 0)) by (apply HT2; lia); fulls).
    apply safe_bind, safe_rdv; auto. intros t0 Lt0.
    apply safe_bind, error_ok; auto. intros e.
    assert (E04 : extends m m4) by exts.
    destruct (nltb A (ndiv A (lit A 1) (small A)) e || (1 <? k) && nleb A eo e).
    { apply safe_ret. split; auto. simpl. split; auto. split; [apply E04|]. exists kT. split; auto.
      destruct E04. congruence. }
    apply safe_bind, safe_wre; [simpl; unfold iMaxx, kMaxx; lia|]. intros m5 E5 F5.
    unfold cpu_at. unfold iMaxx, kMaxx at 1. rewrite (proj2 (Nat.ltb_lt k (12 + 1))) by lia.
    apply safe_bind, safe_lift_ok.
    apply safe_bind, safe_rde; [hass|]. intros d.
    apply safe_bind, safe_wre; [simpl; unfold iMaxx, kMaxx; lia|]. intros m6 E6 F6.
    assert (E06 : extends m m6) by exts.
    assert (T6 : target m6 kT) by (split; auto; destruct E06; congruence).
    assert (U6 : upto m6 k).
    { intros i Hi. destruct (Nat.eq_dec i k) as [->|].
      - split; hass.
      - destruct (U i) as [U1 U2]; [lia|]. split; hass. }
    eapply safe_weaken; [apply (safe_decide k st dn e _ y' m6 kT); auto; lia|].
    intros a m7 H7. destruct a as [[] ? ?|].
    - destruct H7 as (L7 & G7 & X7). split; auto. simpl. split; auto. split; auto.
      destruct E06 as [[P1 P2] _], G7 as [Q1 Q2]. split; auto.
    - destruct H7 as (L7 & G7 & X7). split; auto. simpl. split; auto. split; auto. exts.
    - destruct H7 as (L7 & G7 & X7). split.
      + simpl. split; auto. split; auto. exts.
      + intros i Hi. assert (F7 := HT2 i Hi). fulls.
  Qed.

  (** How the loop over the columns ends. *)
  Definition ended (m' : mem) (r : nat * bool * num A * list (num A)) : Prop :=
    let '(k, reject, _, y) := r in
    length y = n /\ base m' /\ m_theta m' <> None /\ upto m' 0 /\ exists kT, target m' kT /\
    (reject = false -> 1 <= k <= kT + 1 /\ upto m' k).

  Lemma safe_columns l : forall k x dx st dn eo y (m : mem) kT,
    base m -> m_theta m <> None -> target m kT -> upto m (k - 1) -> (forall i, i + 1 < k -> full m (Table i)) ->
    k <= kT + 1 -> length y = n ->
    safe (columns cm lap sys absTol relTol l k x dx st dn eo y) m (fun r m' => ended m' r).
  Proof.
    induction l as [|l IH]; intros k x dx st dn eo y m kT B Th T U HT Hk Ly; cbn [columns].
    - apply safe_bind, (safe_get_kTarg kT); [apply T|]. rewrite (proj2 (Nat.leb_le _ _) Hk). exact I.
    - apply safe_bind, (safe_get_kTarg kT); [apply T|]. rewrite (proj2 (Nat.leb_le _ _) Hk).
      apply safe_bind. eapply safe_weaken; [apply (safe_column x dx k st dn eo y m kT); auto|].
      intros a m1 [H1 H2]. destruct a as [[] d y'|e y'].
      + apply safe_ret. destruct H1 as (L1 & G1 & kT' & T1).
        split; auto. split; [eapply base_grows; eauto|]. split; [apply G1; auto|].
        split; [eapply upto_grows; [exact G1|]; intros i Hi; apply U; lia|].
        exists kT'. split; auto. discriminate.
      + apply safe_ret. destruct H1 as (L1 & E1 & X1 & X2).
        split; auto. split; [eapply base_extends; eauto|]. split; [apply E1; auto|].
        split; [intros i Hi; apply X2; lia|].
        exists kT. split; auto. split; [destruct E1, T; congruence|apply T].
      + destruct H1 as (L1 & E1 & X1).
        assert (T1 : target m1 kT) by (split; [destruct E1, T; congruence|apply T]).
        assert (U1 : upto m1 (k + 1 - 1)).
        { rewrite Nat.add_sub. destruct (Nat.eq_dec k 0) as [->|].
          - eapply upto_grows; [apply E1|]. exact U.
          - apply X1. lia. }
        apply IH with (kT := kT); auto.
        * eapply base_extends; eauto.
        * apply E1; auto.
        * intros i Hi. apply H2. lia.
        * destruct (Nat.eq_dec k 0) as [->|]; [lia|]. destruct X1; lia.
  Qed.

  (** ** A step *)
  Variable a0 r0 : num A.
  Hypothesis HA0 : nth_error absTol 0 = Some a0.
  Hypothesis HR0 : nth_error relTol 0 = Some r0.
  Hypothesis HO : order_defined cm a0 r0.
  Hypothesis HJ : nltb A (jacRedo relTol) (nmul A (lit A 2) (jacRedo relTol)) = true.

  (** The state of the solver after a step. *)
  Definition ready (m : mem) : Prop :=
    (forall j, j < n -> full m (Dfdy j)) /\ m_theta m <> None /\ exists k, target m k.

  (** How the loop over attempts ends. *)
  Definition settled (m' : mem) (r : nat * num A * num A * list (num A) * bool) : Prop :=
    let '(k, _, _, y, _) := r in
    length y = n /\ base m' /\ m_theta m' <> None /\
    exists kT, target m' kT /\ 1 <= k <= kT + 1 /\ upto m' k.

  Lemma safe_attempts f : forall x dn redone st y (m : mem) kT,
    base m -> m_theta m <> None -> target m kT -> upto m 0 -> length y = n ->
    safe (attempts cm lap sys absTol relTol f x dn redone st y) m (fun r m' => settled m' r).
  Proof.
    induction f as [|f IH]; intros x dn redone st y m kT B Th T U Ly; cbn [attempts]; [exact I|].
    cbv zeta. apply safe_bind.
    eapply safe_weaken; [apply (safe_columns (iMaxx + 1) 0) with (kT := kT); auto; intros; lia|].
    intros [[[k rj] dn'] y'] m1 (L1 & B1 & Th1 & U1 & kT1 & T1 & X1). destruct rj.
    - apply safe_bind.
      eapply (safe_weaken _ _ (fun _ m' => extends m1 m' /\ base m')).
      { destruct redone; [apply safe_ret; split; auto; apply extends_refl|].
        apply safe_bind, safe_set_theta. intros m2 E2 Th2.
        apply safe_bind, safe_get_theta; [congruence|]. intros t.
        assert (B2 := base_extends _ _ E2 B1).
        destruct (nltb A (jacRedo relTol) t); [|apply safe_ret; auto].
        apply safe_bind, safe_jac; auto. intros m3 E3 F3. apply safe_ret.
        split; [exts|]. eapply base_extends; eauto. }
      intros rd m2 [E2 B2]. apply IH with (kT := kT1); auto.
      + apply E2; auto.
      + split; [destruct E2, T1; congruence|apply T1].
      + eapply upto_grows; [apply E2|auto].
    - apply safe_ret. destruct (X1 eq_refl) as [Y1 Y2].
      split; auto. split; auto. split; auto. exists kT1. auto.
  Qed.

  Lemma safe_order k (m : mem) kT : target m kT -> 1 <= k <= kT + 1 -> upto m k ->
    safe (order (A := A) sys k) m (fun ko m' => m' = m /\ 1 <= ko <= 11).
  Proof.
    intros [T1 T2] Hk U. unfold order. destruct (Nat.eqb_spec k 1); [apply safe_ret; split; auto; lia|].
    apply safe_bind, (safe_get_kTarg kT); auto.
    destruct (Nat.leb_spec k kT).
    - apply safe_bind, safe_rde; [apply U; lia|]. intros a.
      apply safe_bind, safe_rde; [apply U; lia|]. intros b. unfold kMaxx.
      destruct (nltb A a _); [|destruct (nltb A b _)]; apply safe_ret; split; auto; lia.
    - apply safe_bind.
      eapply (safe_weaken _ _ (fun k1 m' => m' = m /\ 1 <= k1 < k)).
      { destruct (Nat.ltb_spec 2 k).
        - apply safe_bind, safe_rde; [apply U; lia|]. intros a.
          apply safe_bind, safe_rde; [apply U; lia|]. intros b.
          apply safe_ret. split; auto. destruct (nltb A a _); lia.
        - apply safe_ret. split; auto; lia. }
      intros k1 m' [-> Hk1].
      apply safe_bind, safe_rde; [apply U; lia|]. intros a.
      apply safe_bind, safe_rde; [apply U; lia|]. intros b.
      apply safe_ret. split; auto. unfold kMaxx. destruct (nltb A a _); lia.
  Qed.

  Lemma safe_next k ko dx pr (m : mem) kT : target m kT -> 1 <= k <= kT + 1 -> upto m k -> 1 <= ko <= 11 ->
    safe (next_size sys k ko dx pr) m (fun _ m' => grows m m' /\ exists k', target m' k').
  Proof.
    intros [T1 T2] Hk U Hko. unfold next_size. cbv zeta. destruct pr.
    - apply safe_bind, safe_set_kTarg. intros m1 G1 E1.
      apply safe_bind, safe_rde; [apply G1, U; lia|]. intros d. apply safe_ret. split; auto.
      eexists. split; eauto. lia.
    - apply safe_bind. eapply (safe_weaken _ _ (fun _ m' => m' = m)).
      { destruct (Nat.leb_spec ko k).
        - apply safe_rde; [apply U; lia|]. auto.
        - apply safe_bind, (safe_get_kTarg kT); auto. apply safe_bind.
          eapply (safe_weaken _ _ (fun _ m' => m' = m)).
          { destruct (Nat.ltb_spec k kT); [|apply safe_ret; auto].
            apply safe_bind, safe_rde; [apply U; lia|]. intros a.
            apply safe_bind, safe_rde; [apply U; lia|]. intros b. apply safe_ret; auto. }
          intros up m' ->. apply safe_bind, safe_rde; [apply U; lia|]. intros d.
          unfold cpu_at, iMaxx, kMaxx.
          rewrite (proj2 (Nat.ltb_lt (if up then ko + 1 else ko) (12 + 1))) by (destruct up; lia).
          rewrite (proj2 (Nat.ltb_lt k (12 + 1))) by lia.
          do 2 apply safe_bind, safe_lift_ok. apply safe_ret; auto. }
      intros dn m' ->. apply safe_bind, safe_set_kTarg. intros m1 G1 E1. apply safe_ret.
      split; auto. exists ko. split; auto.
  Qed.

  Lemma idx0 {X} (l : list X) v : nth_error l 0 = Some v -> idx l 0 = Ok v.
  Proof. unfold idx. intros ->. reflexivity. Qed.

  Lemma safe_step f x y st (m : mem) :
    length y = n -> ss_first st = true \/ ready m ->
    safe (step_solve cm lap sys absTol relTol f x y st) m
      (fun '(_, y', _) m' => length y' = n /\ ready m').
  Proof.
    intros Ly HF. unfold step_solve. cbv zeta.
    apply safe_bind, safe_wre; [simpl; unfold iMaxx, kMaxx; lia|]. intros m1 E1 F1.
    apply safe_bind, safe_wrv; auto. intros m2 E2 F2.
    apply safe_bind, safe_wre; [simpl; unfold iMaxx, kMaxx; lia|]. intros m3 E3 F3.
    assert (E03 : extends m m3) by exts.
    assert (U3 : upto m3 0) by (intros i Hi; replace i with 0 by lia; split; hass).
    assert (Y3 : full m3 Y0) by fulls.
    (* theta *)
    apply safe_bind.
    eapply (safe_weaken _ _ (fun _ m' => extends m3 m' /\ m_theta m' <> None /\
              (ss_first st = true -> m_theta m' = Some (nmul A (lit A 2) (jacRedo relTol))))).
    { destruct (ss_first st || ss_prevReject st) eqn:Ef.
      - apply safe_set_theta. intros m4 E4 T4. split; auto. split; [congruence|auto].
      - apply safe_ret. destruct HF as [HF|(R1 & R2 & R3)]; [rewrite HF in Ef; discriminate|].
        split; [apply extends_refl|]. split; [apply E03; auto|].
        intros X; rewrite X in Ef; discriminate. }
    intros _ m4 (E4 & Th4 & Tf4).
    assert (E04 : extends m m4) by exts.
    (* kTarg *)
    apply safe_bind.
    eapply (safe_weaken _ _ (fun _ m' => grows m4 m' /\ m_theta m' = m_theta m4 /\ exists k, target m' k)).
    { destruct (ss_first st) eqn:Ef.
      - rewrite (idx0 _ _ HA0), (idx0 _ _ HR0). do 2 apply safe_bind, safe_lift_ok.
        destruct HO as (z & Hz). unfold order_defined in Hz. rewrite Hz.
        apply safe_bind, safe_lift_ok.
        unfold set_kTarg, safe. split; [split; auto|]. split; [reflexivity|].
        eexists. split; [reflexivity|]. unfold kMaxx. lia.
      - apply safe_ret. destruct HF as [HF|(R1 & R2 & k & R3 & R4)]; [discriminate|].
        split; [apply extends_refl|]. split; auto. exists k. split; auto.
        destruct E04. congruence. }
    intros _ m5 (G5 & Th5 & kT & T5).
    assert (Y5 : full m5 Y0) by (eapply full_grows; [exact G5|]; fulls).
    assert (U5 : upto m5 0) by (eapply upto_grows; [exact G5|]; eapply upto_grows; [apply E4|auto]).
    apply safe_bind, safe_scales; auto. intros sc Lsc.
    apply safe_bind, safe_wrv_theta; auto. intros m6 E6 F6 Sm6.
    assert (Th6 : m_theta m6 <> None) by (apply E6; rewrite Th5; auto).
    apply safe_bind. unfold safe at 1, get_theta. destruct (m_theta m6) as [th|] eqn:Et; [|contradiction].
    cbn [rd bind]. apply safe_bind.
    assert (Hth : ss_first st = true -> th = nmul A (lit A 2) (jacRedo relTol)).
    { intros Hf. specialize (Tf4 Hf).
      congruence. }
    eapply (safe_weaken _ _ (fun _ m' => extends m6 m' /\ base m')).
    { destruct (nltb A (jacRedo relTol) th) eqn:Ej.
      - apply safe_bind, safe_jac; auto. intros m7 E7 F7. apply safe_ret. split; auto.
        split; auto. split; fulls.
      - apply safe_ret. split; [apply extends_refl|].
        destruct (ss_first st) eqn:Ef.
        + rewrite (Hth eq_refl) in Ej. congruence.
        + destruct HF as [HF|(R1 & R2 & R3)]; [discriminate|].
          split; [|split; fulls]. intros j Hj. eapply full_extends; [exact E6|].
          eapply full_grows; [exact G5|]. eapply full_extends; [exact E04|]. auto. }
    intros redone m7 [E7 B7].
    apply safe_bind. eapply safe_weaken.
    { apply safe_attempts with (kT := kT); auto.
      - apply E7. congruence.
      - split; [|apply T5]. destruct E6, E7, T5. congruence.
      - eapply upto_grows; [apply E7|]. eapply upto_grows; [apply E6|auto]. }
    intros [[[[k dx'] dn] y'] pr] m8 (L8 & B8 & Th8 & kT8 & T8 & K8 & U8).
    apply safe_bind. eapply safe_weaken; [apply (safe_order k m8 kT8); auto|]. intros ko m' [-> Hko].
    apply safe_bind. eapply safe_weaken; [apply (safe_next k ko dx' pr m8 kT8); auto|].
    intros d m9 [G9 T9]. apply safe_ret. split; auto.
    split; [intros j Hj; eapply full_grows; eauto; apply B8; auto|]. split; [apply G9; auto|auto].
  Qed.
End Safe.
