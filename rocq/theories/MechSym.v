(** Closed forms of what a mechanism function computes: symbolic execution, sound for every
    arithmetic. *)
From Coq Require Import List NArith PArith QArith Bool Lia FMapPositive.
From Verif Require Import Outcome Arith MechLang.
Import ListNotations.
Local Open Scope nat_scope.

Lemma var_id_inj a b : var_id a = var_id b -> a = b.
Proof.
  set (g := fun n => nth_error [v_T; v_pres; v_rho; v_y; v_y_N; v_mw_avg; v_conc; v_C; v_h; v_u; v_cp; v_cv;
    v_logT; v_kf; v_Kc; v_fwd_rxn_rates; v_rev_rxn_rates; v_thd; v_k0; v_kinf; v_Pr; v_logFcent; v_A; v_B;
    v_m; v_pres_mod; v_fwd_rates; v_rev_rates; v_sp_rates; v_dy_N; v_cp_avg; v_dy; v_X; v_X_N; v_Y; v_Y_N;
    v_temp; v_ret; v_y_specs; v_jac; v_dBdT; v_j_temp; v_pres_mod_temp; v_kr; v_Fcent; v_lnF_AB; v_conc_temp;
    v_rho_inv; v_spec_rates; v_J_nplusone; v_working_temp] n).
  assert (G : forall v, g (var_id v) = Some v) by (intros []; reflexivity).
  intros E. apply (f_equal g) in E. rewrite !G in E. congruence.
Qed.

Lemma var_eqb_spec a b : reflect (a = b) (var_eqb a b).
Proof.
  unfold var_eqb. destruct (Nat.eqb_spec (var_id a) (var_id b)) as [E|E]; constructor.
  - now apply var_id_inj.
  - intros ->. now apply E.
Qed.

Lemma var_eqb_refl a : var_eqb a a = true.
Proof. unfold var_eqb. apply Nat.eqb_refl. Qed.

(** Keys of locations; not a function of /repo. *)
Fixpoint pad (n : nat) (p : positive) : positive :=
  match n with O => xI p | S k => xO (pad k p) end.

(** Key of [v[i]]; not a function of /repo. *)
Definition key (v : var) (i : N) : positive := pad (var_id v) (N.succ_pos i).

Lemma pad_inj n n' p p' : pad n p = pad n' p' -> n = n' /\ p = p'.
Proof.
  revert n'. induction n as [|n IH]; intros [|n']; cbn; intros E; try discriminate.
  - inversion E. auto.
  - inversion E as [H]. apply IH in H as []. subst. auto.
Qed.

Lemma key_inj v i w j : key v i = key w j -> v = w /\ i = j.
Proof.
  unfold key. intros E. apply pad_inj in E as [E1 E2]. apply var_id_inj in E1. split; [exact E1|].
  apply (f_equal N.pos) in E2. rewrite !N.succ_pos_spec in E2. lia.
Qed.

(** Symbolic memory: closed forms of the locations written so far; not a function of /repo. *)
Definition smem := PositiveMap.t expr.

Section Sym.
  Variable len : var -> N.
  Variable inp : var -> bool.

  (** Closed form of [v[i]], if it is certainly initialised and within bounds. *)
  Definition look (s : smem) (v : var) (i : N) : option expr :=
    if (i <? len v)%N then
      match PositiveMap.find (key v i) s with
      | Some e => Some e
      | None => if inp v then Some (Ref v i) else None
      end
    else None.

  (** Closed form of an expression. *)
  Fixpoint sub (s : smem) (e : expr) : option expr :=
    let un f a := match sub s a with Some x => Some (f x) | None => None end in
    let bin f a b := match sub s a, sub s b with Some x, Some y => Some (f x y) | _, _ => None end in
    match e with
    | Num q => Some (Num q)
    | Ref v i => look s v i
    | Neg a => un Neg a
    | Add a b => bin Add a b
    | Sub a b => bin Sub a b
    | Mul a b => bin Mul a b
    | Div a b => bin Div a b
    | Exp a => un Exp a
    | Log a => un Log a
    | Log10 a => un Log10 a
    | Pow a b => bin Pow a b
    | Fmax a b => bin Fmax a b
    | Ite a b t f =>
        match sub s a, sub s b, sub s t, sub s f with
        | Some a', Some b', Some t', Some f' => Some (Ite a' b' t' f')
        | _, _, _, _ => None
        end
    end.

  (** Symbolic write. *)
  Definition swrite (s : smem) (v : var) (i : N) (e : expr) : option smem :=
    if (i <? len v)%N then Some (PositiveMap.add (key v i) e s) else None.

  (** Symbolic assignment. *)
  Definition sassign (s : smem) (a : asgn) : option smem :=
    let upd f v i e := match sub s e, look s v i with Some x, Some o => swrite s v i (f o x) | _, _ => None end in
    match a with
    | Asn v i e => match sub s e with Some x => swrite s v i x | None => None end
    | AddA v i e => upd Add v i e
    | SubA v i e => upd Sub v i e
    | MulA v i e => upd Mul v i e
    end.

  (** Symbolic assignments. *)
  Fixpoint sassigns (s : smem) (l : list asgn) : option smem :=
    match l with
    | [] => Some s
    | a :: r => match sassign s a with Some s' => sassigns s' r | None => None end
    end.

  (** Location written by an assignment. *)
  Definition target (a : asgn) : var * N :=
    match a with Asn v i _ | AddA v i _ | SubA v i _ | MulA v i _ => (v, i) end.

  (** Symbolic memory after an [if]: the written locations become conditional values. *)
  Fixpoint merge (a b : expr) (st sf s : smem) (l : list (var * N)) : option smem :=
    match l with
    | [] => Some s
    | (v, i) :: r =>
        match look st v i, look sf v i with
        | Some x, Some y => merge a b st sf (PositiveMap.add (key v i) (Ite a b x y) s) r
        | _, _ => None
        end
    end.

  (** Symbolic statement. *)
  Definition sstep (s : smem) (p : stmt) : option smem :=
    match p with
    | Do a => sassign s a
    | If a b t f =>
        match sub s a, sub s b, sassigns s t, sassigns s f with
        | Some a', Some b', Some st, Some sf => merge a' b' st sf s (map target (t ++ f))
        | _, _, _, _ => None
        end
    end.

  (** Symbolic function body. *)
  Fixpoint srun (s : smem) (l : list stmt) : option smem :=
    match l with
    | [] => Some s
    | p :: r => match sstep s p with Some s' => srun s' r | None => None end
    end.

  Section Sound.
    Context {A : Arith}.
    Variable M : libm A.
    Variable rho : var -> N -> num A.

    (** Value of a closed form. *)
    Fixpoint val (e : expr) : num A :=
      match e with
      | Num q => lit A q
      | Ref v i => rho v i
      | Neg a => nmul A (lit A (-1)%Q) (val a)
      | Add a b => nadd A (val a) (val b)
      | Sub a b => nsub A (val a) (val b)
      | Mul a b => nmul A (val a) (val b)
      | Div a b => ndiv A (val a) (val b)
      | Exp a => m_exp M (val a)
      | Log a => m_log M (val a)
      | Log10 a => m_log10 M (val a)
      | Pow a b => m_pow M (val a) (val b)
      | Fmax a b => c_fmax A (val a) (val b)
      | Ite a b t f => if nleb A (val a) (val b) then val t else val f
      end.

    (** The memory agrees with the symbolic memory. *)
    Definition agrees (m : mem (A := A)) (s : smem) : Prop :=
      forall v i e, look s v i = Some e -> m v i = Some (val e).

    Lemma look_load m s v i e : agrees m s -> look s v i = Some e -> load len m v i = Ok (val e).
    Proof.
      intros H L. unfold load. pose proof (H _ _ _ L) as ->. unfold look in L.
      destruct (i <? len v)%N; [reflexivity|discriminate].
    Qed.

    Lemma sub_eval m s e e' : agrees m s -> sub s e = Some e' -> eval M len m e = Ok (val e').
    Proof.
      intros H. revert e'.
      induction e; cbn [sub eval]; intros e' E;
        repeat match type of E with
        | match ?x with Some _ => _ | None => _ end = _ => destruct x eqn:?; [|discriminate E]
        end;
        try (inversion E; subst; clear E);
        repeat match goal with
        | IH : forall e'' : expr, Some ?a = Some e'' -> _ |- _ => rewrite (IH _ eq_refl)
        end; cbn [bind val]; try reflexivity.
      - eapply look_load; eauto.
      - destruct (nleb A (val e) (val e0)); reflexivity.
    Qed.

    Lemma swrite_store m s v i e s' : agrees m s -> swrite s v i e = Some s' ->
      exists m', store len m v i (val e) = Ok m' /\ agrees m' s'.
    Proof.
      unfold swrite, store. intros H E. destruct (i <? len v)%N eqn:L; [|discriminate].
      inversion E; subst; clear E. eexists. split; [reflexivity|].
      intros w j e' K. unfold look in K.
      destruct (j <? len w)%N eqn:L'; [|discriminate].
      destruct (Pos.eq_dec (key v i) (key w j)) as [Q|Q].
      - pose proof (key_inj _ _ _ _ Q) as [-> ->]. rewrite PositiveMap.gss in K. inversion K; subst.
        rewrite var_eqb_refl, N.eqb_refl. reflexivity.
      - rewrite PositiveMap.gso in K by congruence.
        destruct (var_eqb_spec v w) as [->|]; cbn [andb].
        + destruct (N.eqb_spec i j) as [->|]; [congruence|].
          apply H. unfold look. rewrite L'. exact K.
        + apply H. unfold look. rewrite L'. exact K.
    Qed.

    Lemma sassign_assign m s a s' : agrees m s -> sassign s a = Some s' ->
      exists m', assign M len m a = Ok m' /\ agrees m' s'.
    Proof.
      intros H. destruct a; cbn [sassign assign]; intros E;
        (destruct (sub s e) as [x|] eqn:S; [|discriminate E]); rewrite (sub_eval _ _ _ _ H S); cbn [bind].
      1: eapply swrite_store; eauto.
      all: destruct (look s v i) as [o|] eqn:L; [|discriminate E]; rewrite (look_load _ _ _ _ _ H L); cbn [bind].
      - exact (swrite_store _ _ _ _ (Add o x) _ H E).
      - exact (swrite_store _ _ _ _ (Sub o x) _ H E).
      - exact (swrite_store _ _ _ _ (Mul o x) _ H E).
    Qed.

    Lemma sassigns_assigns l : forall m s s', agrees m s -> sassigns s l = Some s' ->
      exists m', assigns M len m l = Ok m' /\ agrees m' s'.
    Proof.
      induction l as [|a l IH]; cbn [sassigns assigns]; intros m s s' H E.
      - inversion E; subst. eauto.
      - destruct (sassign s a) as [s1|] eqn:S; [|discriminate].
        destruct (sassign_assign _ _ _ _ H S) as (m1 & -> & H1). cbn [bind]. eauto.
    Qed.

    (** Assignments leave the other locations alone. *)
    Lemma store_other (m : mem (A := A)) v i x m' w j : store len m v i x = Ok m' -> (v, i) <> (w, j) -> m' w j = m w j.
    Proof.
      unfold store. destruct (i <? len v)%N; [|discriminate]. intros E N. inversion E; subst.
      destruct (var_eqb_spec v w) as [->|]; cbn [andb]; [|reflexivity].
      destruct (N.eqb_spec i j) as [->|]; [congruence|reflexivity].
    Qed.

    Lemma assign_other m a m' w j : assign M len m a = Ok m' -> target a <> (w, j) -> m' w j = m w j.
    Proof.
      destruct a; cbn [assign target]; intros E N; destruct (eval M len m e); cbn [bind] in E; try discriminate;
        try (destruct (load len m v i); cbn [bind] in E; try discriminate); eapply store_other; eauto.
    Qed.

    Lemma assigns_other l : forall m m' w j, assigns M len m l = Ok m' -> ~ In (w, j) (map target l) ->
      m' w j = m w j.
    Proof.
      induction l as [|a l IH]; cbn [assigns map In]; intros m m' w j E N.
      - now inversion E.
      - destruct (assign M len m a) as [m1| | |] eqn:B; cbn [bind] in E; try discriminate.
        rewrite (IH _ _ _ _ E) by tauto. eapply assign_other; eauto.
    Qed.

    Lemma merge_agrees a b st sf l : forall s m s',
      merge a b st sf s l = Some s' ->
      agrees m (if nleb A (val a) (val b) then st else sf) ->
      (forall v i e, look s v i = Some e -> In (v, i) l \/ m v i = Some (val e)) ->
      agrees m s'.
    Proof.
      induction l as [|[v i] l IH]; cbn [merge]; intros s m s' E HC HO.
      - inversion E; subst. intros w j e L. destruct (HO _ _ _ L) as [[]|]; assumption.
      - destruct (look st v i) as [x|] eqn:Lx; [|discriminate].
        destruct (look sf v i) as [y|] eqn:Ly; [|discriminate].
        assert (V : m v i = Some (val (Ite a b x y))).
        { cbn [val]. destruct (nleb A (val a) (val b)); apply HC; assumption. }
        apply (IH _ _ _ E HC). intros w j e L.
        destruct (Pos.eq_dec (key v i) (key w j)) as [Q|Q].
        + right. pose proof (key_inj _ _ _ _ Q) as [-> ->]. unfold look in L.
          destruct (j <? len w)%N; [|discriminate]. rewrite PositiveMap.gss in L. inversion L; subst. exact V.
        + assert (L' : look s w j = Some e).
          { unfold look in L |- *. destruct (j <? len w)%N; [|discriminate].
            rewrite PositiveMap.gso in L by congruence. exact L. }
          destruct (HO _ _ _ L') as [[K|K]|K]; auto. inversion K; subst. congruence.
    Qed.

    Lemma sstep_step m s p s' : agrees m s -> sstep s p = Some s' ->
      exists m', step M len m p = Ok m' /\ agrees m' s'.
    Proof.
      intros H. destruct p as [a|a b t f]; cbn [sstep step]; [apply sassign_assign; exact H|].
      intros E.
      destruct (sub s a) as [a'|] eqn:Sa; [|discriminate]. destruct (sub s b) as [b'|] eqn:Sb; [|discriminate].
      destruct (sassigns s t) as [st|] eqn:St; [|discriminate].
      destruct (sassigns s f) as [sf|] eqn:Sf; [|discriminate].
      rewrite (sub_eval _ _ _ _ H Sa), (sub_eval _ _ _ _ H Sb). cbn [bind].
      destruct (sassigns_assigns _ _ _ _ H St) as (mt & Et & Ht).
      destruct (sassigns_assigns _ _ _ _ H Sf) as (mf & Ef & Hf).
      exists (if nleb A (val a') (val b') then mt else mf).
      split; [destruct (nleb A (val a') (val b')); assumption|].
      apply (merge_agrees _ _ _ _ _ _ _ _ E); [destruct (nleb A (val a') (val b')); assumption|].
      intros v i e L.
      assert (D : {In (v, i) (map target (t ++ f))} + {~ In (v, i) (map target (t ++ f))}).
      { apply in_dec. intros [v1 i1] [v2 i2]. destruct (N.eq_dec i1 i2) as [->|]; [|right; congruence].
        destruct (var_eqb_spec v1 v2) as [->|]; [left; reflexivity|right; congruence]. }
      destruct D as [D|D]; [left; exact D|right].
      rewrite map_app, in_app_iff in D.
      destruct (nleb A (val a') (val b')).
      - rewrite (assigns_other _ _ _ _ _ Et) by tauto. apply H. exact L.
      - rewrite (assigns_other _ _ _ _ _ Ef) by tauto. apply H. exact L.
    Qed.

    Lemma srun_run l : forall m s s', agrees m s -> srun s l = Some s' ->
      exists m', run M len m l = Ok m' /\ agrees m' s'.
    Proof.
      induction l as [|p l IH]; cbn [srun run]; intros m s s' H E.
      - inversion E; subst. eauto.
      - destruct (sstep s p) as [s1|] eqn:S; [|discriminate].
        destruct (sstep_step _ _ _ _ H S) as (m1 & -> & H1). cbn [bind]. eauto.
    Qed.

    (** A function whose inputs are initialised runs without undefined behaviour, and what it
        leaves is the value of the closed forms. *)
    Theorem closed_forms m l s :
      (forall v i, inp v = true -> (i < len v)%N -> m v i = Some (rho v i)) ->
      srun (PositiveMap.empty expr) l = Some s ->
      exists m', run M len m l = Ok m' /\ agrees m' s.
    Proof.
      intros H E. eapply srun_run; [|exact E]. intros v i e L. unfold look in L.
      rewrite PositiveMap.gempty in L.
      destruct (N.ltb_spec i (len v)); [|discriminate]. destruct (inp v) eqn:I; [|discriminate].
      inversion L; subst. apply H; assumption.
    Qed.

    Lemma read_closed m s v (g : nat -> expr) :
      agrees m s -> (forall i, i < N.to_nat (len v) -> look s v (N.of_nat i) = Some (g i)) ->
      read len m v = Ok (map (fun i => val (g i)) (seq 0 (N.to_nat (len v)))).
    Proof.
      intros H G. unfold read.
      assert (K : forall l, (forall i, In i l -> i < N.to_nat (len v)) ->
        mapM (fun i => load len m v (N.of_nat i)) l = Ok (map (fun i => val (g i)) l)).
      { induction l as [|i l IH]; intros B; cbn [mapM map]; [reflexivity|].
        rewrite (look_load _ _ _ _ _ H (G i (B i (or_introl eq_refl)))). cbn [bind].
        rewrite IH by (intros; apply B; right; assumption). reflexivity. }
      apply K. intros i Hi. apply in_seq in Hi. lia.
    Qed.
  End Sound.
End Sym.
