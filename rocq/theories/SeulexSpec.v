(** What a seulex step computes, as functions without memory. *)
From Coq Require Import List Arith ZArith QArith Bool Lia.
From Verif Require Import Outcome Arith ChemistryModel ChemFacts ChemBalance ChemCells OdeSolver Seulex
  SeulexMono SeulexSafe.
Import ListNotations.
Local Open Scope nat_scope.

(** ** Vocabulary *)

(** Numbers of sub-steps of the columns. *)
Definition substep_numbers : list nat := [2; 3; 4; 6; 8; 12; 16; 24; 32; 48; 64; 96; 128].

Section Spec.
  Context {A : Arith}.
  Variable cm : cmath A.
  Variable lap : lapack A.
  (** Number of equations, right-hand side. *)
  Variable n : nat.
  Variable rhs : num A -> list (num A) -> list (num A).

  Definition vadd (u v : list (num A)) : list (num A) :=
    map (fun '(a, b) => nadd A a b) (combine u v).

  (** The matrix 1/dx - J by columns. *)
  Definition shifted (J : list (list (num A))) (dx : num A) : list (num A) :=
    flat_map (fun j => map (fun i =>
        let v := nneg A (nth j (nth i J []) (zero A)) in
        if i =? j then nadd A v (ndiv A (lit A 1) dx) else v) (seq 0 n)) (seq 0 n).

  (** The solution of (1/dx - J) z = b that LAPACK gives. *)
  Definition increment (J : list (list (num A))) (dx : num A) (b : list (num A)) : list (num A) :=
    map (dgetrs lap n (dgetrf lap n (shifted J dx)) b) (seq 0 n).

  (** [j] steps of size [dx] of the linearly implicit Euler method with Jacobian [J]:
      x and y. *)
  Fixpoint euler (J : list (list (num A))) (x0 : num A) (y0 : list (num A)) (dx : num A) (j : nat)
    : num A * list (num A) :=
    match j with
    | O => (x0, y0)
    | S i => let (x, y) := euler J x0 y0 dx i in
             let x' := nadd A x dx in
             (x', vadd y (increment J dx (rhs x' y)))
    end.

  (** Column [k]: the interval [H] in the [k]-th number of sub-steps. *)
  Definition col (J : list (list (num A))) (x0 : num A) (y0 : list (num A)) (H : num A) (k : nat)
    : list (num A) :=
    let m := nth k substep_numbers 0 in
    snd (euler J x0 y0 (ndiv A H (ofnat A m)) m).

  (** The first component, a temperature, is in (200, 5000] (or not comparable). *)
  Definition plausible (y : list (num A)) : Prop :=
    match y with
    | [] => False
    | T :: _ => nleb A T (lit A 200) = false /\ nltb A (lit A 5000) T = false
    end.

  (** So are the states between the sub-steps of column [k]. *)
  Definition plausible_col (J : list (list (num A))) (x0 : num A) (y0 : list (num A)) (H : num A)
    (k : nat) : Prop :=
    let m := nth k substep_numbers 0 in
    forall i, 1 <= i < m -> plausible (snd (euler J x0 y0 (ndiv A H (ofnat A m)) i)).

  (** Aitken-Neville extrapolation of columns [k-i] to [k]. *)
  Fixpoint neville (E : nat -> list (num A)) (k i : nat) : list (num A) :=
    match i with
    | O => E k
    | S i' =>
      let c := ndiv A (lit A 1)
                 (nsub A (ndiv A (ofnat A (nth k substep_numbers 0))
                                 (ofnat A (nth (k - i) substep_numbers 0))) (lit A 1)) in
      map (fun '(a, b) => nadd A a (nmul A c (nsub A a b)))
        (combine (neville E k i') (neville E (k - 1) i'))
    end.

  (** Root mean square of the components of [u - v] divided by [absTol + relTol |y0|]. *)
  Definition scaled_error (absTol relTol y0 u v : list (num A)) : num A :=
    let scale := map (fun '(a, (r, y)) => nadd A a (nmul A r (nabs A y))) (combine absTol (combine relTol y0)) in
    fsqrt cm (ndiv A (nsum A (map (fun '((a, b), s) => sqr A (ndiv A (nsub A a b) s)) (combine (combine u v) scale)))
                (ofnat A n)).
End Spec.

(** The system computes these functions whatever its memory (if it returns). *)
Definition computes {A S} (sys : odesys A S) (rhs : num A -> list (num A) -> list (num A))
  (jacf : num A -> list (num A) -> list (list (num A))) : Prop :=
  (forall s x y d s', derivs sys s x y = Ok (d, s') -> d = rhs x y) /\
  (forall s x y a b s', jac sys s x y = Ok (a, b, s') -> b = jacf x y).

(** ** Partial correctness *)
Definition post {A S T} (f : M A S T) (m : mem A S) (Q : T -> mem A S -> Prop) : Prop :=
  match f m with Ok (v, m') => Q v m' | _ => True end.

Section Post.
  Context {A : Arith} {S : Type}.
  Notation mem := (mem A S).

  Lemma post_ok {T} (f : M A S T) m (Q : T -> mem -> Prop) v m' : post f m Q -> f m = Ok (v, m') -> Q v m'.
  Proof. unfold post. intros P E. rewrite E in P. exact P. Qed.

  Lemma post_ret {T} (x : T) (m : mem) (Q : _ -> mem -> Prop) : Q x m -> post (ret x) m Q.
  Proof. auto. Qed.

  Lemma post_bind {T U} (c : M A S T) (f : T -> M A S U) m (Q : U -> mem -> Prop) R :
    post c m R -> (forall x m', R x m' -> post (f x) m' Q) -> post (mbind c f) m Q.
  Proof.
    unfold post, mbind. destruct (c m) as [[x m']| | |]; cbn [bind]; auto. intros P K. apply K; auto.
  Qed.

  Lemma post_weaken {T} (f : M A S T) m (Q Q' : T -> mem -> Prop) :
    post f m Q -> (forall v m', Q v m' -> Q' v m') -> post f m Q'.
  Proof. unfold post. destruct (f m) as [[x m']| | |]; auto. Qed.

  Lemma post_lift {T} (o : outcome T) (m : mem) : post (lift o) m (fun v m' => o = Ok v /\ m' = m).
  Proof. unfold post, lift. destruct o; cbn [bind]; auto. Qed.

  (** The array [a] of [n] equations holds [v]. *)
  Definition holds (n : nat) (m : mem) (a : arr) (v : list (num A)) : Prop :=
    length v = size n a /\ forall i, i < size n a -> m_arr m a i = nth_error v i.

  Lemma holds_inj n m a v w : holds n m a v -> holds n m a w -> v = w.
  Proof.
    intros [L1 H1] [L2 H2]. apply nth_error_ext. intros i.
    destruct (Nat.lt_ge_cases i (size n a)) as [Hi|Hi].
    - rewrite <- H1, <- H2; auto.
    - rewrite (proj2 (nth_error_None v i)), (proj2 (nth_error_None w i)) by lia. auto.
  Qed.

  Lemma holds_same n (m m' : mem) a v : m_arr m' a = m_arr m a -> holds n m a v -> holds n m' a v.
  Proof. intros E [L P]. split; auto. intros i Hi. rewrite E. auto. Qed.

  Lemma post_rdv n a (m : mem) : post (rdv n a) m (fun v m' => m' = m /\ holds n m a v).
  Proof.
    unfold post, rdv. destruct (mapM _ _) as [v| | |] eqn:E; cbn [bind]; auto. split; auto.
    assert (L := mapM_length _ _ _ E). rewrite seq_length in L. split; auto.
    intros i Hi. apply mapM_ok in E.
    destruct (BalanceFacts.Forall2_nth_error _ _ _ E i i) as (z & Ez & Er).
    { rewrite PlanFacts.nth_error_seq, (proj2 (Nat.ltb_lt _ _) Hi). auto. }
    rewrite Ez. destruct (m_arr m a i); inversion Er; auto.
  Qed.

  Lemma post_rdv_is n a (m : mem) v : holds n m a v -> post (rdv n a) m (fun w m' => m' = m /\ w = v).
  Proof.
    intros P. eapply post_weaken; [apply post_rdv|]. intros w m' [-> P']. split; auto.
    eapply holds_inj; eauto.
  Qed.

  Lemma post_wrv n a v (m : mem) :
    post (wrv n a v) m (fun _ m' => m' = set_arr m a (nth_error v) /\ length v = size n a).
  Proof. unfold post, wrv. destruct (Nat.eqb_spec (length v) (size n a)); auto. Qed.

  Lemma arr_eqb_refl a : arr_eqb a a = true.
  Proof. destruct a; simpl; auto using Nat.eqb_refl. Qed.

  Lemma arr_eqb_eq a b : arr_eqb a b = true -> a = b.
  Proof. destruct a, b; simpl; try discriminate; auto; intros E; apply Nat.eqb_eq in E; congruence. Qed.

  Lemma holds_set n (m : mem) a v : length v = size n a -> holds n (set_arr m a (nth_error v)) a v.
  Proof. intros L. split; auto. intros i Hi. simpl. rewrite arr_eqb_refl. auto. Qed.

  Lemma post_set_theta t (m : mem) : post (set_theta t) m (fun _ m' => m_arr m' = m_arr m /\ m_kTarg m' = m_kTarg m).
  Proof. unfold post, set_theta. auto. Qed.

  Lemma post_get_theta (m : mem) : post get_theta m (fun t m' => m' = m /\ m_theta m = Some t).
  Proof. unfold post, get_theta. destruct (m_theta m); simpl; auto. Qed.

  Lemma post_get_kTarg (m : mem) : post get_kTarg m (fun k m' => m' = m /\ m_kTarg m = Some k).
  Proof. unfold post, get_kTarg. destruct (m_kTarg m); simpl; auto. Qed.

  Lemma post_set_kTarg k (m : mem) : post (set_kTarg k) m (fun _ m' => m_arr m' = m_arr m).
  Proof. unfold post, set_kTarg. auto. Qed.

  Lemma post_rde n a i (m : mem) : post (rde n a i) m (fun _ m' => m' = m).
  Proof. unfold post, rde. destruct (i <? size n a); auto. destruct (m_arr m a i); simpl; auto. Qed.

  Lemma post_rde_is n a i (m : mem) : post (rde n a i) m (fun v m' => m' = m /\ m_arr m a i = Some v).
  Proof. unfold post, rde. destruct (i <? size n a); auto. destruct (m_arr m a i); simpl; auto. Qed.

  Lemma post_wre n a i v (m : mem) :
    post (wre n a i v) m (fun _ m' => (forall b, arr_eqb a b = false -> m_arr m' b = m_arr m b) /\
                                      m_kTarg m' = m_kTarg m).
  Proof. unfold post, wre. destruct (i <? size n a); auto. split; auto. intros b Hb. simpl. rewrite Hb. auto. Qed.

  Lemma set_other (m : mem) a b l : arr_eqb a b = false -> m_arr (set_arr m a l) b = m_arr m b.
  Proof. intros E. simpl. rewrite E. auto. Qed.
End Post.

Section Proofs.
  Context {A : Arith} {S : Type}.
  Variable cm : cmath A.
  Variable lap : lapack A.
  Variable sys : odesys A S.
  Variables absTol relTol : list (num A).
  Variable rhs : num A -> list (num A) -> list (num A).
  Variable jacf : num A -> list (num A) -> list (list (num A)).
  Hypothesis CP : computes sys rhs jacf.
  Notation n := (nEqns sys).
  Notation mem := (mem A S).
  Notation holds := (holds n).

  (** Only these arrays may differ, and [theta]. *)
  Definition work (a : arr) : bool :=
    match a with Dy | YTemp | YSeq | Dydx => true | _ => false end.
  Definition kept (m m' : mem) : Prop :=
    (forall a, work a = false -> m_arr m' a = m_arr m a) /\ m_kTarg m' = m_kTarg m.

  Lemma kept_refl m : kept m m.
  Proof. split; auto. Qed.

  Lemma kept_trans m1 m2 m3 : kept m1 m2 -> kept m2 m3 -> kept m1 m3.
  Proof. intros [H1 K1] [H2 K2]. split; [|congruence]. intros a Ha. rewrite H2, H1; auto. Qed.

  Lemma kept_set m a l : work a = true -> kept m (set_arr m a l).
  Proof.
    intros W. split; auto. intros b Hb. apply set_other. destruct (arr_eqb a b) eqn:E; auto.
    apply arr_eqb_eq in E. congruence.
  Qed.

  Lemma post_derivs x y m :
    post (call_derivs sys x y) m (fun d m' => d = rhs x y /\ m_arr m' = m_arr m /\ kept m m').
  Proof.
    unfold post, call_derivs. destruct (derivs sys (m_sys m) x y) as [[d s']| | |] eqn:E; cbn [bind]; auto.
    split; [eapply CP; eauto|]. split; auto. split; auto.
  Qed.

  Lemma map2_ok {X Y Z} (f : X -> Y -> Z) l1 : forall l2 r, map2 f l1 l2 = Ok r ->
    r = map (fun '(a, b) => f a b) (combine l1 l2) /\ length r = length l1 /\ length l2 = length l1.
  Proof.
    induction l1 as [|x l1 IH]; intros [|y l2] r E; simpl in E; try discriminate.
    - inversion E; auto.
    - apply bind_ok in E as (r' & E1 & E). inversion E; subst. apply IH in E1 as (-> & L1 & L2).
      simpl. auto.
  Qed.

  Lemma post_back_solve f m b : holds m Dy b ->
    post (back_solve lap sys f) m (fun _ m' =>
      holds m' Dy (map (dgetrs lap n f b) (seq 0 n)) /\ kept m m' /\ m_arr m' YTemp = m_arr m YTemp).
  Proof.
    intros Hb. unfold back_solve. eapply post_bind; [apply post_rdv_is; exact Hb|].
    intros w m1 [-> ->]. eapply post_weaken; [apply post_wrv|]. intros _ m' [-> L].
    split; [apply holds_set; auto|]. split; [apply kept_set; auto|apply set_other; auto].
  Qed.

  Lemma post_stability f x0 dx m :
    post (stability cm lap sys f x0 dx) m (fun _ m' => kept m m' /\ m_arr m' YTemp = m_arr m YTemp).
  Proof.
    unfold stability.
    eapply post_bind; [apply post_rdv|]. intros dy m1 [-> Hdy].
    eapply post_bind; [apply post_rdv|]. intros sc m1 [-> Hsc].
    eapply post_bind; [apply post_lift|]. intros q1 m1 [_ ->].
    eapply post_bind; [apply post_rdv|]. intros yt m1 [-> Hyt].
    eapply post_bind; [apply post_derivs|]. intros d m1 (_ & E1 & K1).
    eapply post_bind; [apply post_wrv|]. intros _ m2 (-> & L2).
    eapply post_bind; [apply post_rdv|]. intros dydx m3 [-> _].
    eapply post_bind; [apply post_lift|]. intros r m3 [_ ->].
    eapply post_bind; [apply post_wrv|]. intros _ m3 (-> & L3).
    eapply post_bind; [apply post_back_solve; apply holds_set; exact L3|]. intros _ m4 (_ & K4 & E4).
    eapply post_bind; [apply post_rdv|]. intros dy' m5 [-> _].
    eapply post_bind; [apply post_lift|]. intros q2 m5 [_ ->].
    eapply post_bind; [apply post_set_theta|]. intros _ m5 [E5 K5]. apply post_ret.
    assert (K : kept m m4).
    { eapply kept_trans; [exact K1|]. eapply kept_trans; [apply (kept_set m1 Dydx (nth_error d)); reflexivity|].
      eapply kept_trans; [|exact K4]. apply kept_set. reflexivity. }
    split.
    - destruct K as [Ka Kb]. split; [|congruence]. intros a Ha. rewrite E5. auto.
    - rewrite E5, E4. simpl. rewrite E1. auto.
  Qed.

  Notation euler := (euler lap n rhs).
  Notation increment := (increment lap n).

  Lemma euler_S J x0 y0 dx j :
    euler J x0 y0 dx (Datatypes.S j) =
    (nadd A (fst (euler J x0 y0 dx j)) dx,
     vadd (snd (euler J x0 y0 dx j))
       (increment J dx (rhs (nadd A (fst (euler J x0 y0 dx j)) dx) (snd (euler J x0 y0 dx j))))).
  Proof. simpl. destruct (euler J x0 y0 dx j). reflexivity. Qed.

  Lemma post_loop k f x0 dx J y0 left : f = dgetrf lap n (shifted n J dx) -> forall nn j m xnew y,
    holds m YTemp y -> holds m Dy (increment J dx (rhs xnew y)) ->
    xnew = fst (euler J x0 y0 dx (Datatypes.S j)) -> y = snd (euler J x0 y0 dx j) ->
    post (seul_loop cm lap sys left nn k f x0 dx xnew) m (fun ok m' => kept m m' /\
       (ok = true -> exists y' dy', holds m' YTemp y' /\ holds m' Dy dy' /\
           vadd y' dy' = snd (euler J x0 y0 dx (j + left + 1)) /\
           forall i, j < i <= j + left -> plausible (snd (euler J x0 y0 dx i)))).
  Proof.
    intros Hf. induction left as [|left IH]; intros nn j m xnew y Hy Hd Ex Ey; cbn [seul_loop].
    - apply post_ret. split; [apply kept_refl|]. intros _. exists y, (increment J dx (rhs xnew y)).
      split; [exact Hy|]. split; [exact Hd|]. split; [|intros; lia]. rewrite Nat.add_0_r, Nat.add_1_r, euler_S. simpl snd.
      rewrite <- Ey. rewrite euler_S in Ex. simpl fst in Ex. rewrite <- Ex. reflexivity.
    - eapply post_bind; [apply post_rdv_is; exact Hy|]. intros w m1 [-> ->].
      eapply post_bind; [apply post_rdv_is; exact Hd|]. intros w m1 [-> ->].
      eapply post_bind; [apply post_lift|]. intros s m1 [Es ->]. apply map2_ok in Es as (Es & _).
      eapply post_bind; [apply post_wrv|]. intros _ m2 (-> & L2).
      eapply post_bind; [apply post_rde_is|]. intros T m3 [-> ET].
      assert (K2 := kept_set m YTemp (nth_error s) eq_refl).
      destruct (nleb A T _ || nltb A _ T) eqn:EP; [apply post_ret; split; [auto|discriminate]|].
      assert (Ps : plausible s).
      { simpl in ET. destruct s as [|t s]; [discriminate|]. inversion ET; subst t.
        apply orb_false_iff in EP. exact EP. }
      clear ET EP. set (m2 := set_arr m YTemp (nth_error s)) in *.
      assert (Hs : s = snd (euler J x0 y0 dx (Datatypes.S j))).
      { rewrite euler_S. simpl snd. rewrite <- Ey. rewrite euler_S in Ex. simpl fst in Ex. rewrite <- Ex. exact Es. }
      apply (post_bind _ _ _ _ (fun _ m' => kept m m' /\ m_arr m' YTemp = m_arr m2 YTemp)).
      + destruct ((nn =? 1) && (k <=? 1)); [|apply post_ret; auto].
        eapply post_weaken; [apply post_stability|]. intros _ m3 [K3 E3]. split; auto.
        eapply kept_trans; eauto.
      + intros ok m3 [K3 E3]. destruct ok; [|apply post_ret; split; [auto|discriminate]].
        assert (H3 : holds m3 YTemp s) by (eapply holds_same; [exact E3|apply holds_set; auto]).
        eapply post_bind; [apply post_rdv_is; exact H3|]. intros w m4 [-> ->].
        eapply post_bind; [apply post_derivs|]. intros d m4 (-> & E4 & K4).
        eapply post_bind; [apply post_wrv|]. intros _ m5 (-> & L5).
        eapply post_bind; [apply post_back_solve; apply holds_set; exact L5|]. intros _ m6 (H6 & K6 & E6).
        assert (K : kept m m6).
        { eapply kept_trans; [exact K3|]. eapply kept_trans; [exact K4|].
          eapply kept_trans; [|exact K6]. apply kept_set; auto. }
        eapply post_weaken; [apply (IH (nn + 1) (Datatypes.S j) m6 (nadd A xnew dx) s)|].
        * eapply holds_same; [|exact H3]. rewrite E6. simpl. rewrite E4. reflexivity.
        * unfold SeulexSpec.increment. rewrite <- Hf. exact H6.
        * rewrite (euler_S J x0 y0 dx (Datatypes.S j)), <- Ex. reflexivity.
        * exact Hs.
        * intros ok m7 [K7 P7]. split; [eapply kept_trans; eauto|]. intros E. destruct (P7 E) as (y' & dy' & H1 & H2 & H4 & H5).
          exists y', dy'. split; [exact H1|]. split; [exact H2|]. split; [rewrite H4; do 2 f_equal; lia|].
          intros i Hi. destruct (Nat.eq_dec i (Datatypes.S j)) as [->|]; [rewrite <- Hs; exact Ps|].
          apply H5. lia.
  Qed.

  (** The rows of [dfdy_]. *)
  Definition rows (m : mem) (J : list (list (num A))) : Prop :=
    length J = n /\ forall i, i < n -> holds m (Dfdy i) (nth i J []).

  Lemma rows_same (m m' : mem) J : (forall i, m_arr m' (Dfdy i) = m_arr m (Dfdy i)) -> rows m J -> rows m' J.
  Proof. intros E [L P]. split; auto. intros i Hi. eapply holds_same; eauto. Qed.

  Lemma rows_kept m m' J : kept m m' -> rows m J -> rows m' J.
  Proof. intros [K _]. apply rows_same. intros i. apply K. reflexivity. Qed.

  Lemma post_rd_rows k : forall i m, post (rd_rows sys i k) m (fun l m' => m' = m /\ length l = k /\
    forall q, q < k -> holds m (Dfdy (i + q)) (nth q l [])).
  Proof.
    induction k as [|k IH]; intros i m; cbn [rd_rows]; [apply post_ret; repeat split; intros; lia|].
    eapply post_bind; [apply post_rdv|]. intros r m1 [-> Hr].
    eapply post_bind; [apply IH|]. intros rs m1 (-> & L & P). apply post_ret. split; auto.
    split; [simpl; lia|]. intros [|q] Hq; [rewrite Nat.add_0_r; exact Hr|].
    replace (i + Datatypes.S q) with (i + 1 + q) by lia. apply P. lia.
  Qed.

  Lemma mapM_map {X Y} (f : X -> outcome Y) (g : X -> Y) l : forall r, mapM f l = Ok r ->
    (forall x y, In x l -> f x = Ok y -> y = g x) -> r = map g l.
  Proof.
    induction l as [|x l IH]; intros r E P; simpl in E; [inversion E; auto|].
    apply bind_ok in E as (y & E1 & E). apply bind_ok in E as (ys & E2 & E). inversion E; subst.
    simpl. rewrite (P x y), (IH ys); auto; simpl; auto. intros; apply P; simpl; auto.
  Qed.

  Lemma idx_is {X} (l : list X) i v d : idx l i = Ok v -> v = nth i l d.
  Proof. unfold idx. destruct (nth_error l i) eqn:E; intros X1; inversion X1; subst. symmetry. apply nth_error_nth; auto. Qed.

  Lemma sysmatrix_is J dx a : sysmatrix sys J dx = Ok a -> a = shifted n J dx.
  Proof.
    unfold sysmatrix, shifted. intros E. apply bind_ok in E as (cols & E1 & E). inversion E; subst.
    rewrite flat_map_concat_map. f_equal. eapply mapM_map; [exact E1|].
    intros j c Hj Ec. eapply mapM_map; [exact Ec|]. intros i v Hi Ev. simpl in Ev.
    apply bind_ok in Ev as (row & Er & Ev). apply bind_ok in Ev as (z & Ez & Ev).
    apply (idx_is _ _ _ []) in Er. apply (idx_is _ _ _ (zero A)) in Ez. subst. inversion Ev. reflexivity.
  Qed.

  Lemma nSeq_is k s : nSeq_at k = Ok s -> k < 13 /\ s = nth k substep_numbers 0.
  Proof.
    unfold nSeq_at. change iMaxx with 13. destruct (Nat.ltb_spec k 13) as [L|]; [|discriminate]. intros E; inversion E; subst. split; auto. clear E.
    do 13 (destruct k as [|k]; [reflexivity|]). lia.
  Qed.

  Notation col := (col lap n rhs).

  Lemma post_seul x0 H k m J y0 : rows m J -> holds m Y0 y0 ->
    post (seul cm lap sys x0 H k) m (fun ok m' => kept m m' /\
      (ok = true -> k < 13 /\ holds m' YSeq (col J x0 y0 H k) /\ plausible_col lap n rhs J x0 y0 H k)).
  Proof.
    intros HJ HY. unfold seul.
    eapply post_bind; [apply post_lift|]. intros ns m1 [Es ->]. apply nSeq_is in Es as [Lk Es].
    eapply post_bind; [apply post_rd_rows|]. intros J' m1 (-> & LJ & PJ).
    assert (J' = J).
    { destruct HJ as [L P]. apply (nth_ext _ _ [] []); [lia|]. intros q Hq. rewrite LJ in Hq.
      eapply holds_inj; [apply (PJ q); auto|apply P; auto]. }
    subst J'. eapply post_bind; [apply post_lift|]. intros a m1 [Ea ->]. apply sysmatrix_is in Ea. subst a.
    eapply post_bind; [apply post_rdv_is; exact HY|]. intros w m1 [-> ->].
    eapply post_bind; [apply post_derivs|]. intros d m1 (-> & E1 & K1).
    eapply post_bind; [apply post_wrv|]. intros _ m2 (-> & L2).
    eapply post_bind; [apply post_back_solve; apply holds_set; exact L2|]. intros _ m3 (H3 & K3 & E3).
    eapply post_bind; [apply post_wrv|]. intros _ m4 (-> & L4).
    set (dx := ndiv A H (ofnat A ns)) in *. set (m4 := set_arr m3 YTemp (nth_error y0)) in *.
    assert (K : kept m m4).
    { eapply kept_trans; [exact K1|]. eapply kept_trans; [apply (kept_set m1 Dy); reflexivity|].
      eapply kept_trans; [exact K3|]. apply kept_set; reflexivity. }
    eapply post_bind; [apply (post_loop k _ x0 dx J y0 (ns - 1) eq_refl 1 0 m4 _ y0)|].
    - apply holds_set. auto.
    - eapply holds_same; [|exact H3]. apply set_other. reflexivity.
    - reflexivity.
    - reflexivity.
    - intros ok m5 [K5 P5]. destruct ok; [|apply post_ret; split; [eapply kept_trans; eauto|discriminate]].
      destruct P5 as (y' & dy' & Hy & Hd & Ev & Pl); auto.
      eapply post_bind; [apply post_rdv_is; exact Hy|]. intros w m6 [-> ->].
      eapply post_bind; [apply post_rdv_is; exact Hd|]. intros w m6 [-> ->].
      eapply post_bind; [apply post_lift|]. intros s m6 [Ev' ->]. apply map2_ok in Ev' as (Ev' & _).
      eapply post_bind; [apply post_wrv|]. intros _ m6 (-> & L6). apply post_ret.
      split; [eapply kept_trans; [exact K|]; eapply kept_trans; [exact K5|apply kept_set; reflexivity]|].
      intros _. split; auto. change (vadd y' dy') with (map (fun '(a, b) => nadd A a b) (combine y' dy')) in Ev.
      rewrite <- Ev' in Ev. unfold SeulexSpec.col. rewrite <- Es. fold dx.
      assert (En : 0 + (ns - 1) + 1 = ns).
      { assert (2 <= ns); [|lia]. subst ns. clear -Lk. do 13 (destruct k as [|k]; [simpl; lia|]). lia. }
      rewrite En in Ev. rewrite <- Ev. split; [apply holds_set; auto|].
      unfold plausible_col. rewrite <- Es. fold dx. intros i Hi. apply Pl. lia.
  Qed.

  (** ** Extrapolation *)

  (** Only the table may differ. *)
  Definition tabled (m m' : mem) : Prop :=
    (forall a, (forall i, a <> Table i) -> m_arr m' a = m_arr m a) /\ m_kTarg m' = m_kTarg m.

  Lemma tabled_set m i l : tabled m (set_arr m (Table i) l).
  Proof.
    split; auto. intros a Ha. apply set_other. destruct (arr_eqb (Table i) a) eqn:E; auto.
    apply arr_eqb_eq in E. subst. exfalso. eapply Ha; eauto.
  Qed.

  Lemma tabled_trans m1 m2 m3 : tabled m1 m2 -> tabled m2 m3 -> tabled m1 m3.
  Proof. intros [H1 K1] [H2 K2]. split; [|congruence]. intros a Ha. rewrite H2, H1; auto. Qed.

  Lemma tabled_rows m m' J : tabled m m' -> rows m J -> rows m' J.
  Proof. intros [K _]. apply rows_same. intros i. apply K. discriminate. Qed.

  Definition weight (k l : nat) : num A :=
    ndiv A (lit A 1) (nsub A (ndiv A (ofnat A (nth k substep_numbers 0))
                                     (ofnat A (nth l substep_numbers 0))) (lit A 1)).

  Lemma coeff_is k l c : coeff_at k l = Ok c -> c = weight k l.
  Proof.
    unfold coeff_at, weight. change iMaxx with 13.
    destruct (Nat.ltb_spec k 13) as [L|]; [|discriminate].
    destruct (Nat.ltb_spec l k) as [L'|]; [|discriminate]. cbn [andb]. intros E; inversion E.
    assert (X : forall j, j < 13 -> nseq j = nth j substep_numbers 0).
    { clear. intros j Hj. do 13 (destruct j as [|j]; [reflexivity|]). lia. }
    rewrite (X k), (X l) by lia. reflexivity.
  Qed.

  Lemma neville_S E k i : neville E k (Datatypes.S i) =
    map (fun '(a, b) => nadd A a (nmul A (weight k (k - Datatypes.S i)) (nsub A a b)))
      (combine (neville E k i) (neville E (k - 1) i)).
  Proof. reflexivity. Qed.

  Lemma row_is i a : table_row i = Ok a -> a = Table i /\ i < kMaxx.
  Proof.
    unfold table_row. destruct (Nat.ltb_spec i kMaxx); [|discriminate]. intros E; inversion E. auto.
  Qed.

  Lemma post_extrapolate_rows E k j : forall m, j < k ->
    holds m (Table j) (neville E k (k - 1 - j)) ->
    (forall i, i < j -> holds m (Table i) (neville E (k - 1) (k - 2 - i))) ->
    post (extrapolate_rows sys k j) m (fun _ m' => tabled m m' /\
      (forall i, i <= j -> holds m' (Table i) (neville E k (k - 1 - i))) /\
      (forall i, j < i -> m_arr m' (Table i) = m_arr m (Table i))).
  Proof.
    induction j as [|j IH]; intros m Hj H1 H2; cbn [extrapolate_rows].
    - apply post_ret. split; [split; auto|]. split; auto. intros i Hi. replace i with 0 by lia. auto.
    - eapply post_bind; [apply post_lift|]. intros hi m1 [E1 ->]. apply row_is in E1 as [-> _].
      eapply post_bind; [apply post_lift|]. intros lo m1 [E1 ->]. apply row_is in E1 as [-> _].
      eapply post_bind; [apply post_lift|]. intros c m1 [E1 ->]. apply coeff_is in E1. subst c.
      eapply post_bind; [apply post_rdv_is; exact H1|]. intros w m1 [-> ->].
      eapply post_bind; [apply post_rdv_is; apply (H2 j); lia|]. intros w m1 [-> ->].
      eapply post_bind; [apply post_lift|]. intros r m1 [Er ->]. apply map2_ok in Er as (Er & _).
      eapply post_bind; [apply post_wrv|]. intros _ m2 (-> & L2).
      assert (Hr : r = neville E k (k - 1 - j)).
      { replace (k - 1 - j) with (Datatypes.S (k - 1 - Datatypes.S j)) by lia. rewrite neville_S.
        replace (k - Datatypes.S (k - 1 - Datatypes.S j)) with (Datatypes.S j) by lia. rewrite Er.
        replace (k - 2 - j) with (k - 1 - Datatypes.S j) by lia. reflexivity. }
      set (m2 := set_arr m (Table j) (nth_error r)) in *.
      eapply post_weaken; [apply (IH m2)|].
      + lia.
      + rewrite <- Hr. apply holds_set. auto.
      + intros i Hi. eapply holds_same; [|apply H2; lia]. apply set_other. simpl. apply Nat.eqb_neq. lia.
      + intros _ m3 (T3 & A3 & B3). split; [eapply tabled_trans; [apply tabled_set|exact T3]|].
        assert (X : forall i, j < i -> m_arr m2 (Table i) = m_arr m (Table i)).
        { intros i Hi. apply set_other. simpl. apply Nat.eqb_neq. lia. }
        split.
        * intros i Hi. destruct (Nat.eq_dec i (Datatypes.S j)) as [->|]; [|apply A3; lia].
          eapply holds_same; [|exact H1]. rewrite B3, X by lia. auto.
        * intros i Hi. rewrite B3, X by lia. auto.
  Qed.

  Lemma post_extrapolate E k y m : 1 <= k ->
    holds m (Table (k - 1)) (E k) ->
    (forall i, i < k - 1 -> holds m (Table i) (neville E (k - 1) (k - 2 - i))) ->
    y = neville E (k - 1) (k - 1) ->
    post (extrapolate sys k y) m (fun y' m' => tabled m m' /\
      (forall i, i < k -> holds m' (Table i) (neville E k (k - 1 - i))) /\ y' = neville E k k).
  Proof.
    intros Hk H1 H2 Hy. unfold extrapolate.
    eapply post_bind; [apply (post_extrapolate_rows E k (k - 1))|]; auto.
    - lia.
    - rewrite Nat.sub_diag. exact H1.
    - intros _ m1 (T1 & A1 & _).
      eapply post_bind; [apply post_lift|]. intros c m2 [Ec ->]. apply coeff_is in Ec. subst c.
      eapply post_bind; [apply post_rdv_is; apply (A1 0); lia|]. intros w m2 [-> ->].
      eapply post_weaken; [apply post_lift|]. intros r m2 [Er ->]. apply map2_ok in Er as (Er & _).
      split; auto. split; [intros i Hi; apply A1; lia|]. rewrite Er, Hy.
      destruct k as [|k]; [lia|]. rewrite neville_S, Nat.sub_diag. simpl. rewrite !Nat.sub_0_r. reflexivity.
  Qed.

  (** ** A column and the loops *)
  Notation err_of := (scaled_error cm n absTol relTol).

  Lemma error_is y0 y t sc e : scales absTol relTol y0 = Ok sc -> error_of cm sys y t sc = Ok e ->
    e = err_of y0 y t.
  Proof.
    unfold scales, error_of, scaled_squares, scaled_error. intros Es Ee.
    apply bind_ok in Es as (q & Eq & Es). apply map2_ok in Eq as (-> & _). apply map2_ok in Es as (-> & _).
    apply bind_ok in Ee as (d & Ed & Ee). apply bind_ok in Ee as (q2 & Eq2 & Ee).
    apply bind_ok in Eq2 as (q3 & Eq3 & Eq2). apply map2_ok in Ed as (-> & _). apply map2_ok in Eq3 as (-> & _).
    inversion Eq2; inversion Ee; subst. do 3 f_equal.
    assert (X : forall (l1 l2 : list (num A)) l3, map (fun '(a, b) => nadd A a b)
        (combine l1 (map (fun '(a, b) => nmul A a (nabs A b)) (combine l2 l3))) =
      map (fun '(a, (r, y)) => nadd A a (nmul A r (nabs A y))) (combine l1 (combine l2 l3))).
    { induction l1 as [|a l1 IH]; intros [|b l2] [|c l3]; simpl; auto. rewrite IH. auto. }
    rewrite X. set (scl := map _ (combine absTol _)).
    assert (Y : forall u v w, map (fun '(a, b) => sqr A (ndiv A a b)) (combine (map (fun '(a, b) => nsub A a b) (combine u v)) w) =
      map (fun '((a, b), s) => sqr A (ndiv A (nsub A a b) s)) (combine (combine u v) w)).
    { induction u as [|a u IH]; intros [|b v] [|c w]; simpl; auto. rewrite IH. auto. }
    apply Y.
  Qed.

  (** Accepted: not more than 1, or not comparable with 1. *)
  Definition accepted (e : num A) : Prop := nleb A e (lit A 1) = true \/ nltb A (lit A 1) e = false.

  (** Arrays other than those of [dfdy_] and [y0_] do not matter here. *)
  Definition frame (m m' : mem) : Prop :=
    (forall i, m_arr m' (Dfdy i) = m_arr m (Dfdy i)) /\ m_arr m' Y0 = m_arr m Y0.

  Lemma frame_refl m : frame m m.
  Proof. split; auto. Qed.
  Lemma frame_trans m1 m2 m3 : frame m1 m2 -> frame m2 m3 -> frame m1 m3.
  Proof. intros [H1 K1] [H2 K2]. split; [intros; rewrite H2; auto|congruence]. Qed.
  Lemma frame_arr (m m' : mem) : m_arr m' = m_arr m -> frame m m'.
  Proof. intros E. split; rewrite E; auto. Qed.
  Lemma frame_kept m m' : kept m m' -> frame m m'.
  Proof. intros [K _]. split; [intros|]; apply K; reflexivity. Qed.
  Lemma frame_tabled m m' : tabled m m' -> frame m m'.
  Proof. intros [K _]. split; [intros|]; apply K; discriminate. Qed.

  Lemma post_retry i y m : post (retry sys i y) m (fun a m' => m_arr m' = m_arr m /\ exists d, a = Leave true d y).
  Proof.
    unfold retry. eapply post_bind; [apply post_get_kTarg|]. intros kT m1 [-> _].
    apply (post_bind _ _ _ _ (fun _ m' => m_arr m' = m_arr m)).
    - destruct (1 <? kT); [|apply post_ret; auto].
      eapply post_bind; [apply post_rde|]. intros a m1 ->. eapply post_bind; [apply post_rde|]. intros b m1 ->.
      destruct (nltb A a _); [apply post_set_kTarg|apply post_ret; auto].
    - intros ? m1 E1. eapply post_bind; [apply post_get_kTarg|]. intros k m2 [-> _].
      eapply post_bind; [apply post_rde|]. intros d m2 ->. apply post_ret. eauto.
  Qed.

  Lemma post_decide k step dxNew err errOld y m kT : m_kTarg m = Some kT ->
    post (decide sys k step dxNew err errOld y) m (fun a m' => m_arr m' = m_arr m /\
      match a with
      | Leave false _ y' => y' = y /\ accepted err
      | Leave true _ _ => True
      | Go _ y' => y' = y /\ k <> kT + 1 /\ m_kTarg m' = Some kT
      end).
  Proof.
    intros HkT. unfold decide, accepted. cbv zeta.
    destruct (nleb A err (lit A 1)) eqn:Ea; rewrite ?andb_true_r, ?andb_false_r.
    - destruct (ss_first step || ss_last step); [apply post_ret; auto|].
      eapply post_bind; [apply post_get_kTarg|]. intros k' m1 [-> E1]. rewrite HkT in E1. inversion E1; subst k'.
      set (b := (k =? kT - 1) && _ && _ && _). destruct b; [apply post_ret; auto|].
      apply (post_bind _ _ _ _ (fun e m' => e = false /\ m' = m)); [apply post_ret; auto|].
      intros early m1 [-> ->]. cbn [andb].
      destruct (k =? kT) eqn:Ek; [apply post_ret; auto|]. cbn [andb].
      apply (post_bind _ _ _ _ (fun e m' => e = false /\ m' = m)); [apply post_ret; auto|].
      intros late m1 [-> ->].
      destruct (Nat.eqb_spec k (kT + 1)).
      + destruct (nltb A (lit A 1) err) eqn:El; [|apply post_ret; auto].
        eapply post_weaken; [apply post_retry|]. intros a m1 [E1' (d & ->)]. auto.
      + apply post_ret. auto.
    - eapply post_bind; [apply post_get_kTarg|]. intros k' m1 [-> E1]. rewrite HkT in E1. inversion E1; subst k'.
      set (b := (k =? kT - 1) && _ && _ && _). rewrite andb_false_r.
      apply (post_bind _ _ _ _ (fun _ m' => m' = m)).
      { destruct b; [|apply post_ret; auto].
        eapply post_bind; [apply post_lift|]. intros u m1 [_ ->].
        eapply post_bind; [apply post_lift|]. intros v m1 [_ ->]. apply post_ret. auto. }
      intros early m1 ->. destruct early.
      { eapply post_bind; [apply post_set_kTarg|]. intros ? m1 E2.
        eapply post_weaken; [apply post_retry|]. intros a m2 [E3 (d & ->)]. split; auto. congruence. }
      rewrite andb_false_r.
      apply (post_bind _ _ _ _ (fun _ m' => m' = m)).
      { destruct (k =? kT); [|apply post_ret; auto].
        eapply post_bind; [apply post_lift|]. intros u m1 [_ ->]. apply post_ret. auto. }
      intros late m1 ->. destruct late.
      { eapply post_weaken; [apply post_retry|]. intros a m2 [E3 (d & ->)]. auto. }
      destruct (Nat.eqb_spec k (kT + 1)).
      + destruct (nltb A (lit A 1) err) eqn:El; [|apply post_ret; auto].
        eapply post_weaken; [apply post_retry|]. intros a m1 [E1' (d & ->)]. auto.
      + apply post_ret. auto.
  Qed.

  (** What holds when the loop over columns is left with an accepted column. *)
  Definition good (J : list (list (num A))) (x : num A) (y0 : list (num A)) (dx : num A) (k : nat)
    (y' : list (num A)) : Prop :=
    1 <= k < 13 /\ y' = neville (col J x y0 dx) k k /\
    accepted (err_of y0 y' (neville (col J x y0 dx) k (k - 1))) /\
    forall q, q <= k -> plausible_col lap n rhs J x y0 dx q.

  (** State of the table before column [k]. *)
  Definition prepared (J : list (list (num A))) (x : num A) (y0 : list (num A)) (dx : num A) (k : nat)
    (y : list (num A)) (m : mem) : Prop :=
    (forall q, q < k -> plausible_col lap n rhs J x y0 dx q) /\
    (1 <= k -> y = neville (col J x y0 dx) (k - 1) (k - 1) /\
      forall i, i < k - 1 -> holds m (Table i) (neville (col J x y0 dx) (k - 1) (k - 2 - i))).

  Lemma post_column x dx k step dxNew errOld y m J y0 kT : rows m J -> holds m Y0 y0 ->
    m_kTarg m = Some kT -> k <= kT + 1 -> prepared J x y0 dx k y m ->
    post (column cm lap sys absTol relTol x dx k step dxNew errOld y) m (fun a m' =>
      frame m m' /\
      match a with
      | Leave false _ y' => good J x y0 dx k y'
      | Leave true _ _ => True
      | Go _ y' => prepared J x y0 dx (k + 1) y' m' /\ m_kTarg m' = Some kT /\ k < kT + 1
      end).
  Proof.
    intros HJ HY HkT Hk [Pq Pr]. unfold column.
    eapply post_bind; [apply post_seul; eauto|]. intros ok m1 [K1 P1].
    destruct ok; cbn [negb]; [|apply post_ret; split; [apply frame_kept; auto|auto]].
    destruct P1 as (Lk & HS & Pk); auto.
    assert (Pq' : forall q, q <= k -> plausible_col lap n rhs J x y0 dx q).
    { intros q Hq. destruct (Nat.eq_dec q k) as [->|]; [exact Pk|apply Pq; lia]. }
    eapply post_bind; [apply post_rdv_is; exact HS|]. intros w m2 [-> ->].
    set (E := col J x y0 dx) in *.
    destruct (Nat.eqb_spec k 0) as [->|Hk0].
    - eapply post_bind; [apply post_lift|]. intros y' m2 [Ey ->]. apply post_ret.
      split; [apply frame_kept; auto|]. split; [|split; [rewrite <- HkT; apply K1|lia]].
      split; [intros q Hq; apply Pq'; lia|]. intros _. simpl. fold E. split; [|intros; lia]. apply map2_ok in Ey as (Ey & L1 & L2).
      rewrite Ey. revert L2. generalize (E 0). clear. intros l. revert y. induction l as [|e l IH]; intros [|a y] L; try discriminate L; [reflexivity|].
      simpl. f_equal. apply IH. injection L. auto.
    - destruct Pr as [Py PT]; [lia|].
      eapply post_bind; [apply post_lift|]. intros a m2 [Ea ->]. apply row_is in Ea as [-> _].
      eapply post_bind; [apply post_wrv|]. intros _ m2 (-> & L2).
      set (m2 := set_arr m1 (Table (k - 1)) (nth_error (E k))) in *.
      eapply post_bind; [apply (post_extrapolate E k y m2)|].
      + lia.
      + apply holds_set. auto.
      + intros i Hi. eapply holds_same; [|apply PT; lia]. unfold m2. rewrite set_other.
        * apply K1. reflexivity.
        * simpl. apply Nat.eqb_neq. lia.
      + exact Py.
      + intros y' m3 (T3 & A3 & Hy').
        assert (F3 : frame m m3).
        { eapply frame_trans; [apply frame_kept; exact K1|]. eapply frame_trans; [apply frame_tabled, tabled_set|].
          apply frame_tabled. exact T3. }
        assert (KT3 : m_kTarg m3 = Some kT).
        { rewrite (proj2 T3). simpl. rewrite (proj2 K1). auto. }
        eapply post_bind; [apply post_rdv_is|].
        { eapply holds_same; [apply F3|exact HY]. }
        intros w m4 [-> ->].
        eapply post_bind; [apply post_lift|]. intros sc m4 [Esc ->].
        eapply post_bind; [apply post_wrv|]. intros _ m4 (-> & L4).
        eapply post_bind; [apply post_rdv_is|].
        { eapply holds_same; [|apply (A3 0); lia]. apply set_other. reflexivity. }
        intros w m5 [-> ->].
        eapply post_bind; [apply post_lift|]. intros err m5 [Ee ->].
        rewrite Nat.sub_0_r in Ee. apply (error_is _ _ _ _ _ Esc) in Ee.
        set (m4 := set_arr m3 Scale (nth_error sc)) in *.
        assert (F4 : frame m m4) by (eapply frame_trans; [exact F3|split; reflexivity]).
        destruct (nltb A _ err || _); [apply post_ret; auto|].
        eapply post_bind; [apply post_wre|]. intros _ m5 [A5 KT5].
        eapply post_bind; [apply post_lift|]. intros c m6 [_ ->].
        eapply post_bind; [apply post_rde|]. intros d m6 ->.
        eapply post_bind; [apply post_wre|]. intros _ m6 [A6 KT6].
        assert (F6 : frame m m6).
        { eapply frame_trans; [exact F4|]. split; [intros i|]; rewrite A6, A5; reflexivity. }
        eapply post_weaken; [apply (post_decide k step dxNew err _ y' m6 kT); rewrite KT6, KT5; exact KT3|].
        intros a m7 [A7 P7]. split; [eapply frame_trans; [exact F6|apply frame_arr; exact A7]|].
        destruct a as [[|] d' y''|e y'']; auto.
        * destruct P7 as [-> Hacc]. split; [lia|]. split; [exact Hy'|]. fold E. rewrite <- Ee. split; [exact Hacc|exact Pq'].
        * destruct P7 as (-> & Hne & KT7). split; [|split; [auto|lia]].
          split; [intros q Hq; apply Pq'; lia|]. intros _. rewrite Nat.add_sub. split; [exact Hy'|]. intros i Hi.
          replace (k + 1 - 2 - i) with (k - 1 - i) by lia. eapply holds_same; [|apply A3; exact Hi].
          rewrite A7, A6, A5 by reflexivity. apply set_other. reflexivity.
  Qed.

  Lemma post_columns x dx step dxNew y0 J kT : forall left k errOld y m, rows m J -> holds m Y0 y0 ->
    m_kTarg m = Some kT -> k <= kT + 1 -> prepared J x y0 dx k y m ->
    post (columns cm lap sys absTol relTol left k x dx step dxNew errOld y) m (fun '(k', reject, _, y') m' =>
      frame m m' /\ (reject = false -> good J x y0 dx k' y')).
  Proof.
    induction left as [|left IH]; intros k errOld y m HJ HY HkT Hk Pr; cbn [columns].
    - eapply post_bind; [apply post_get_kTarg|]. intros k' m1 [-> E1]. rewrite HkT in E1. inversion E1; subst k'.
      rewrite (proj2 (Nat.leb_le _ _) Hk). exact I.
    - eapply post_bind; [apply post_get_kTarg|]. intros k' m1 [-> E1]. rewrite HkT in E1. inversion E1; subst k'.
      rewrite (proj2 (Nat.leb_le _ _) Hk).
      eapply post_bind; [apply post_column; eauto|]. intros a m1 [F1 P1].
      destruct a as [[|] d y'|e y'].
      + apply post_ret. split; auto. discriminate.
      + apply post_ret. auto.
      + destruct P1 as (Pr1 & KT1 & L1).
        eapply post_weaken; [apply (IH (k + 1) e y' m1)|]; auto; try lia.
        * eapply rows_same; [apply F1|exact HJ].
        * eapply holds_same; [apply F1|exact HY].
        * intros [[[k' r] d'] y''] m2 [F2 P2]. split; auto. eapply frame_trans; eauto.
  Qed.

  Lemma post_call_jac x y m : post (call_jac sys x y) m (fun _ m' => rows m' (jacf x y) /\ m_arr m' Y0 = m_arr m Y0).
  Proof.
    unfold call_jac.
    apply (post_bind _ _ _ _ (fun '(_, dfdy) m' => dfdy = jacf x y /\ m_arr m' = m_arr m)).
    { unfold post. destruct (jac sys (m_sys m) x y) as [[[a b] s']| | |] eqn:E; cbn [bind]; auto.
      split; auto. eapply CP; eauto. }
    intros [dfdx dfdy] m1 [-> E1]. eapply post_bind; [apply post_wrv|]. intros _ m2 (-> & L2).
    assert (E2 : m_arr (set_arr m1 Dfdx (nth_error dfdx)) Y0 = m_arr m Y0) by (simpl; rewrite E1; auto).
    revert E2. generalize (set_arr m1 Dfdx (nth_error dfdx)). intros m2 E2.
    assert (X : forall l i m, post (wr_rows sys i l) m (fun _ m' => i + length l = n /\
        (forall q, q < length l -> holds m' (Dfdy (i + q)) (nth q l [])) /\
        (forall a, (forall q, q < length l -> a <> Dfdy (i + q)) -> m_arr m' a = m_arr m a))).
    { clear. induction l as [|r l IH]; intros i m; cbn [wr_rows].
      - destruct (Nat.eqb_spec i n); [|exact I]. apply post_ret. simpl. split; [lia|]. split; [intros; lia|auto].
      - destruct (Nat.ltb_spec i n); [|exact I]. eapply post_bind; [apply post_wrv|]. intros _ m1 (-> & L1).
        eapply post_weaken; [apply IH|]. intros _ m2 (L2 & P2 & O2). simpl. split; [lia|]. split.
        + intros [|q] Hq.
          * rewrite Nat.add_0_r. eapply holds_same; [|apply holds_set; exact L1]. apply O2.
            intros q _ E. inversion E. lia.
          * replace (i + Datatypes.S q) with (i + 1 + q) by lia. apply P2. lia.
        + intros a Ha. rewrite O2.
          * apply set_other. destruct (arr_eqb (Dfdy i) a) eqn:E; auto. apply arr_eqb_eq in E. subst.
            exfalso. apply (Ha 0); [lia|f_equal; lia].
          * intros q Hq E. subst. apply (Ha (Datatypes.S q)); [lia|f_equal; lia]. }
    eapply post_weaken; [apply X|]. intros _ m3 (L3 & P3 & O3). simpl in L3. split.
    - split; auto. intros i Hi. apply (P3 i). lia.
    - rewrite O3; [exact E2|]. intros; discriminate.
  Qed.

  Variable P : list (list (num A)) -> Prop.
  Hypothesis PJ : forall x y, P (jacf x y).

  Lemma post_attempts x y0 fuel : forall dxNew redone step y m J, rows m J -> P J -> holds m Y0 y0 ->
    post (attempts cm lap sys absTol relTol fuel x dxNew redone step y) m (fun '(k, dx, _, y', _) m' =>
      exists J', rows m' J' /\ P J' /\ good J' x y0 dx k y').
  Proof.
    induction fuel as [|fuel IH]; intros dxNew redone step y m J HJ HP HY; cbn [attempts]; [exact I|].
    set (dx := if ss_forward step then dxNew else nneg A dxNew).
    destruct (m_kTarg m) as [kT|] eqn:HkT.
    2:{ apply (post_bind _ _ _ _ (fun _ _ => False)); [|intros ? ? []].
change (iMaxx + 1) with (Datatypes.S iMaxx). cbn [columns].
        eapply post_bind; [apply post_get_kTarg|]. intros kT ? [_ C]. congruence. }
    eapply post_bind; [apply (post_columns x dx step dxNew y0 J kT); eauto; [lia|split; [intros; lia|intros C; lia]]|].
    intros [[[k reject] dxNew'] y'] m1 [F1 G1].
    assert (HJ1 : rows m1 J) by (eapply rows_same; [apply F1|exact HJ]).
    assert (HY1 : holds m1 Y0 y0) by (eapply holds_same; [apply F1|exact HY]).
    destruct reject; [|apply post_ret; exists J; auto].
    apply (post_bind _ _ _ _ (fun _ m' => (exists J', rows m' J' /\ P J') /\ holds m' Y0 y0)).
    - destruct redone; [apply post_ret; eauto|].
      eapply post_bind; [apply post_set_theta|]. intros _ m2 [E2 _].
      eapply post_bind; [apply post_get_theta|]. intros t m3 [-> _].
      assert (HJ2 : rows m2 J) by (eapply rows_same; [rewrite E2; auto|exact HJ1]).
      assert (HY2 : holds m2 Y0 y0) by (eapply holds_same; [rewrite E2; auto|exact HY1]).
      destruct (nltb A _ t); [|apply post_ret; eauto].
      eapply post_bind; [apply post_call_jac|]. intros _ m3 [R3 E3]. apply post_ret.
      split; [eauto|]. eapply holds_same; [exact E3|exact HY2].
    - intros redone' m2 ((J' & HJ' & HP') & HY2). apply (IH _ _ _ _ _ J'); auto.
  Qed.

  Lemma post_order k m : post (order sys k) m (fun _ m' => m' = m).
  Proof.
    unfold order. destruct (k =? 1); [apply post_ret; auto|].
    eapply post_bind; [apply post_get_kTarg|]. intros kT m1 [-> _]. destruct (k <=? kT).
    - eapply post_bind; [apply post_rde|]. intros a m1 ->. eapply post_bind; [apply post_rde|]. intros b m1 ->.
      destruct (nltb A a _); [apply post_ret; auto|]. destruct (nltb A b _); apply post_ret; auto.
    - apply (post_bind _ _ _ _ (fun _ m' => m' = m)).
      + destruct (2 <? k); [|apply post_ret; auto].
        eapply post_bind; [apply post_rde|]. intros a m1 ->. eapply post_bind; [apply post_rde|]. intros b m1 ->.
        apply post_ret; auto.
      + intros k1 m1 ->. eapply post_bind; [apply post_rde|]. intros a m1 ->.
        eapply post_bind; [apply post_rde|]. intros b m1 ->. apply post_ret; auto.
  Qed.

  Lemma post_next k kopt dx pr m : post (next_size sys k kopt dx pr) m (fun _ m' => m_arr m' = m_arr m).
  Proof.
    unfold next_size. destruct pr.
    - eapply post_bind; [apply post_set_kTarg|]. intros ? m1 E1.
      eapply post_bind; [apply post_rde|]. intros d m2 ->. apply post_ret. auto.
    - apply (post_bind _ _ _ _ (fun _ m' => m' = m)).
      + destruct (kopt <=? k); [apply post_rde|].
        eapply post_bind; [apply post_get_kTarg|]. intros kT m1 [-> _].
        apply (post_bind _ _ _ _ (fun _ m' => m' = m)).
        { destruct (k <? kT); [|apply post_ret; auto].
          eapply post_bind; [apply post_rde|]. intros a m1 ->. eapply post_bind; [apply post_rde|]. intros b m1 ->.
          apply post_ret; auto. }
        intros up m1 ->. eapply post_bind; [apply post_rde|]. intros d m1 ->.
        eapply post_bind; [apply post_lift|]. intros c1 m1 [_ ->].
        eapply post_bind; [apply post_lift|]. intros c0 m1 [_ ->]. apply post_ret; auto.
      + intros dxNew m1 ->. eapply post_bind; [apply post_set_kTarg|]. intros ? m1 E1. apply post_ret; auto.
  Qed.

  (** A step: the extrapolation of linearly implicit Euler results over the step taken. *)
  Lemma post_step fuel x y st m :
    (nltb A (jacRedo relTol) (nmul A (lit A 2) (jacRedo relTol)) = true /\ ss_first st = true) \/
      (exists J, rows m J /\ P J) ->
    post (step_solve cm lap sys absTol relTol fuel x y st) m (fun '(x', y', st') m' =>
      exists J k, x' = nadd A x (ss_dxDid st') /\ P J /\ rows m' J /\ good J x y (ss_dxDid st') k y').
  Proof.
    intros HF. unfold step_solve.
    eapply post_bind; [apply post_wre|]. intros _ m1 [A1 _].
    eapply post_bind; [apply post_wrv|]. intros _ m2 (-> & L2).
    assert (H2 : holds (set_arr m1 Y0 (nth_error y)) Y0 y) by (apply holds_set; auto).
    assert (R2 : forall i, m_arr (set_arr m1 Y0 (nth_error y)) (Dfdy i) = m_arr m (Dfdy i)).
    { intros i. simpl. rewrite A1; auto. }
    revert H2 R2. generalize (set_arr m1 Y0 (nth_error y)). clear m1 A1 L2. intros m2 H2 R2.
    eapply post_bind; [apply post_wre|]. intros _ m3 [A3 _].
    apply (post_bind _ _ _ _ (fun _ m' => m_arr m' = m_arr m3 /\
      (ss_first st = true -> m_theta m' = Some (nmul A (lit A 2) (jacRedo relTol))))).
    { destruct (ss_first st || ss_prevReject st) eqn:Ef.
      - unfold post, set_theta. auto.
      - apply post_ret. split; auto. intros C. rewrite C in Ef. discriminate. }
    intros _ m4 [E4 T4].
    apply (post_bind _ _ _ _ (fun _ m' => m_arr m' = m_arr m3 /\ m_theta m' = m_theta m4)).
    { destruct (ss_first st); [|apply post_ret; auto].
      eapply post_bind; [apply post_lift|]. intros r m5 [_ ->].
      eapply post_bind; [apply post_lift|]. intros a m5 [_ ->].
      eapply post_bind; [apply post_lift|]. intros z m5 [_ ->].
      unfold post, set_kTarg. auto. }
    intros _ m5 [E5 T5].
    eapply post_bind; [apply post_lift|]. intros sc m6 [_ ->].
    eapply post_bind; [apply post_wrv|]. intros _ m6 (-> & L6).
    eapply post_bind; [apply post_get_theta|]. intros theta m7 [-> T7]. simpl in T7.
    apply (post_bind _ _ _ _ (fun _ m' => (exists J, rows m' J /\ P J) /\ holds m' Y0 y)).
    { assert (H6 : holds (set_arr m5 Scale (nth_error sc)) Y0 y).
      { eapply holds_same; [|exact H2]. simpl. rewrite E5. apply A3. reflexivity. }
      destruct (nltb A (jacRedo relTol) theta) eqn:En.
      - eapply post_bind; [apply post_call_jac|]. intros _ m6 [R6 E6]. apply post_ret.
        split; [eauto|]. eapply holds_same; [exact E6|exact H6].
      - apply post_ret. split; auto. destruct HF as [[HJ Hf]|(J & HJ & HP)].
        + rewrite T5, (T4 Hf) in T7. inversion T7; subst. congruence.
        + exists J. split; auto. eapply rows_same; [|exact HJ]. intros i. simpl. rewrite E5, A3, R2; auto. }
    intros redone m8 ((J & HJ & HP) & H8).
    eapply post_bind; [eapply post_attempts; eauto|].
    intros [[[[k dx'] dxN] y'] pr] m9 (J' & HJ' & HP' & G).
    eapply post_bind; [apply post_order|]. intros kopt m10 ->.
    eapply post_bind; [apply post_next|]. intros dxNew m10 E10.
    apply post_ret. exists J', k. cbn [ss_dxDid]. split; auto. split; auto. split; auto.
    eapply rows_same; [|exact HJ']. intros i. rewrite E10. auto.
  Qed.
End Proofs.
