(** What getProblems assembles and what is stored, cell by cell. *)
From Coq Require Import List Arith Bool ZArith Lia Permutation.
From Verif Require Import Outcome Arith Problem LoadBalancing PlanFacts BalanceFacts
  MixtureFraction ChemistryModel ChemFacts ChemSim ChemBalance.
Import ListNotations.
Local Open Scope nat_scope.

(** ** Vocabulary *)
Section Vocabulary.
  Context {A : Arith}.

  (** The model's fields on a mesh of [n] cells with [ns] species. *)
  Record shapeM (ns n : nat) (m : mstate A) : Prop := mkShapeM {
    sm_RR : length (m_RR m) = ns;
    sm_rows : forall row, In row (m_RR m) -> length row = n;
    sm_dtc : length (m_dtc m) = n;
    sm_cpu : length (m_cpu m) = n;
    sm_ref : length (m_ref m) = n
  }.

  (** The flow fields and the time step field on the same mesh. *)
  Record shapeF (ns n : nat) (F : fields A) (d : deltaT A) : Prop := mkShapeF {
    sf_Y : length (f_Y F) = ns;
    sf_rows : forall y, In y (f_Y F) -> length y = n;
    sf_T : length (f_T F) = n;
    sf_p : length (f_p F) = n;
    sf_rho : length (f_rho F) = n;
    sf_dt : match d with DField l => length l = n | DUniform _ => True end
  }.

  (** The mapper was set up for [ns] species (or is inactive). *)
  Definition mapper_ok (ns : nat) (mp : mapper A) : Prop :=
    mp_active mp = true -> ns <= length (mf_alpha (mp_mix mp)) /\ 2 <= length (mf_beta (mp_mix mp)).

  (** Cell [i] holds these reaction rates, chemical time step, measured time, label. *)
  Definition cell_is (m : mstate A) (i : nat) (rr : list (num A)) (dtc cpu : num A) (ref : nat) : Prop :=
    map (fun row => nth_error row i) (m_RR m) = map Some rr /\
    nth_error (m_dtc m) i = Some dtc /\ nth_error (m_cpu m) i = Some cpu /\
    nth_error (m_ref m) i = Some ref.

  (** [p] is the problem of cell [i]: its members are the values of the fields there. *)
  Definition problem_of (F : fields A) (d : deltaT A) (m : mstate A) (i : nat) (p : problem A) : Prop :=
    map (fun y => nth_error y i) (f_Y F) = map Some (p_c p) /\
    nth_error (f_T F) i = Some (p_T p) /\ nth_error (f_p F) i = Some (p_p p) /\
    nth_error (f_rho F) i = Some (p_rho p) /\ nth_error (m_dtc m) i = Some (p_deltaTChem p) /\
    match d with DField l => nth_error l i | DUniform x => Some x end = Some (p_deltaT p) /\
    nth_error (m_cpu m) i = Some (p_cpuTime p) /\ p_cellid p = i.
End Vocabulary.

(** ** Lists *)
Lemma map_Some_inj {T} (l1 l2 : list T) : map Some l1 = map Some l2 -> l1 = l2.
Proof.
  revert l2. induction l1; intros [|]; simpl; intros E; inversion E; auto. f_equal; auto.
Qed.

Lemma upd_at {T} (l1 l2 : list T) k x y :
  k = length l1 -> upd (l1 ++ x :: l2) k y = l1 ++ y :: l2.
Proof. intros ->. apply upd_app_r. Qed.

Lemma mapM_seq_idx {S T} (l : list S) (g : S -> outcome T) :
  mapM (fun j => let* y := idx l j in g y) (seq 0 (length l)) = mapM g l.
Proof.
  assert (G : forall l2 l1, mapM (fun j => let* y := idx (l1 ++ l2) j in g y)
                (seq (length l1) (length l2)) = mapM g l2).
  { induction l2 as [|x l2 IH]; intros l1; simpl; auto.
    unfold idx at 1. rewrite nth_error_mid. simpl. destruct (g x); simpl; auto.
    specialize (IH (l1 ++ [x])). rewrite app_length in IH. simpl in IH.
    rewrite <- app_assoc in IH. simpl in IH. rewrite Nat.add_1_r in IH. rewrite IH. auto. }
  apply (G l []).
Qed.

Lemma idx_nth {T} (l : list T) i d : i < length l -> idx l i = Ok (nth i l d).
Proof. intros L. unfold idx. rewrite (nth_error_nth' l d L). auto. Qed.

Lemma mapM_rd_Some {T} (l : list T) : mapM rd (map Some l) = Ok l.
Proof. induction l; simpl; auto. rewrite IHl. auto. Qed.

Lemma filter_app_last {T} (f : T -> bool) l x :
  filter f (l ++ [x]) = filter f l ++ (if f x then [x] else []).
Proof. rewrite filter_app. simpl. destruct (f x); auto. Qed.

Lemma filter_split_length {T} (f : T -> bool) l :
  length (filter (fun x => negb (f x)) l) + length (filter f l) = length l.
Proof. induction l; simpl; auto. destruct (f a); simpl; lia. Qed.

Lemma skipn_cons_nth {T} (l : list T) k : k < length l -> exists x, skipn k l = x :: skipn (S k) l.
Proof.
  revert k. induction l as [|a l IH]; intros [|k] L; simpl in *; try lia; eauto.
  apply IH. lia.
Qed.

Lemma filter_seq_first (f : nat -> bool) : forall k a i r,
  filter f (seq a k) = i :: r ->
  a <= i < a + k /\ f i = true /\ forall j, a <= j < i -> f j = false.
Proof.
  induction k as [|k IH]; intros a i r E; simpl in E; [discriminate|].
  destruct (f a) eqn:Ea.
  - inversion E; subst. repeat split; auto; lia.
  - apply IH in E as (E1 & E2 & E3). repeat split; auto; try lia.
    intros j Hj. destruct (Nat.eq_dec j a) as [->|]; auto. apply E3. lia.
Qed.

Lemma NoDup_app_intro {T} (l1 l2 : list T) :
  NoDup l1 -> NoDup l2 -> (forall x, In x l1 -> ~ In x l2) -> NoDup (l1 ++ l2).
Proof.
  induction 1; simpl; intros N2 D; auto. constructor.
  - rewrite in_app_iff. intros [Hx|Hx]; auto. apply (D x); simpl; auto.
  - apply IHNoDup; auto.
Qed.

Section Cells.
  Context {A : Arith} {H : Type}.
  Variable kern : H -> kcell A -> outcome (kcell A * H).
  Variable fuel : nat.
  Variable cfg : config A.
  Notation ns := (g_nSpecie cfg).

  (** ** Storing one solution *)
  Lemma store_rows (k : nat) (rest : list (list (num A))) : forall rrs pre rpre,
    length rpre = length pre -> length rrs = length rest ->
    (forall row, In row rest -> k < length row) ->
    foldM (fun RR j =>
             let* row := idx RR j in
             let* r := idx (rpre ++ rrs) j in
             let* row' := setidx row k r in
             setidx RR j row') (pre ++ rest) (seq (length pre) (length rest))
    = Ok (pre ++ map (fun '(row, r) => upd row k r) (combine rest rrs)).
  Proof.
    induction rest as [|row rest IH]; intros [|r rrs] pre rpre L1 L2 Hr; simpl in L2; try discriminate; simpl; auto.
    unfold idx at 1. rewrite nth_error_mid. cbn [bind].
    unfold idx at 1. rewrite <- L1, nth_error_mid. cbn [bind].
    unfold setidx at 1. rewrite (proj2 (Nat.ltb_lt _ _)) by (apply Hr; simpl; auto). cbn [bind].
    unfold setidx at 1. rewrite app_length. simpl.
    rewrite (proj2 (Nat.ltb_lt _ _)) by lia. cbn [bind]. rewrite L1, upd_app_r.
    specialize (IH rrs (pre ++ [upd row k r]) (rpre ++ [r])).
    rewrite !app_length in IH. simpl in IH. rewrite <- !app_assoc in IH. simpl in IH.
    rewrite !Nat.add_1_r in IH. apply IH; auto.
    intros x Hx. apply Hr. simpl; auto.
  Qed.

  Lemma cell_exists n (m : mstate A) i : shapeM ns n m -> i < n ->
    exists rr dtc cpu ref, cell_is m i rr dtc cpu ref /\ length rr = ns.
  Proof.
    intros [S1 S2 S3 S4 S5] Hi.
    exists (map (fun row => nth i row (zero A)) (m_RR m)), (nth i (m_dtc m) (zero A)),
      (nth i (m_cpu m) (zero A)), (nth i (m_ref m) 0).
    split; [|rewrite map_length; auto]. repeat split; try (apply nth_error_nth'; lia).
    rewrite map_map. apply map_ext_in. intros row Hrow. apply nth_error_nth'. rewrite S2; auto.
  Qed.

  Lemma cell_unique (m : mstate A) i rr dtc cpu ref rr' dtc' cpu' ref' :
    cell_is m i rr dtc cpu ref -> cell_is m i rr' dtc' cpu' ref' ->
    rr' = rr /\ dtc' = dtc /\ cpu' = cpu /\ ref' = ref.
  Proof.
    intros (A1 & A2 & A3 & A4) (B1 & B2 & B3 & B4). repeat split; try congruence.
    apply map_Some_inj. congruence.
  Qed.

  Lemma cell_length n (m : mstate A) i rr dtc cpu ref : shapeM ns n m -> cell_is m i rr dtc cpu ref -> length rr = ns.
  Proof.
    intros S (C1 & _). apply (f_equal (@length _)) in C1. rewrite !map_length in C1.
    rewrite <- C1. apply sm_RR in S. auto.
  Qed.

  Lemma nth_error_combine_upd (RR : list (list (num A))) rr k i :
    length rr = length RR ->
    map (fun row => nth_error row i) (map (fun '(row, r) => upd row k r) (combine RR rr)) =
    (if i =? k then map (fun '(row, r) => if k <? length row then Some r else None) (combine RR rr)
     else map (fun row => nth_error row i) RR).
  Proof.
    revert rr. induction RR as [|row RR IH]; intros [|r rr] L; simpl in L; try discriminate; simpl.
    - destruct (i =? k); auto.
    - rewrite IH by lia. clear IH. destruct (Nat.eqb_spec i k) as [Hik|Hne].
      + subst k. f_equal. destruct (Nat.ltb_spec i (length row)).
        * apply nth_error_upd_eq; auto.
        * apply nth_error_None. rewrite upd_length. auto.
      + f_equal. apply nth_error_upd_ne. auto.
  Qed.

  Lemma urr_ok n (m : mstate A) k s : shapeM ns n m -> k < n -> length (s_rr s) = ns ->
    exists m', updateReactionRate cfg s k m = Ok m' /\ shapeM ns n m' /\
      (forall rr dtc cpu ref, cell_is m k rr dtc cpu ref ->
         cell_is m' k (s_rr s) (foam_min A (s_deltaTChem s) (g_dtcMax cfg)) cpu ref) /\
      (forall i rr dtc cpu ref, i <> k -> cell_is m i rr dtc cpu ref -> cell_is m' i rr dtc cpu ref).
  Proof.
    intros [S1 S2 S3 S4 S5] Hk Hl. unfold updateReactionRate.
    assert (E := store_rows k (m_RR m) (s_rr s) [] [] eq_refl).
    simpl in E. rewrite S1 in E. rewrite E; clear E; auto; [|intros row Hr; rewrite S2; auto].
    cbn [bind]. unfold setidx. rewrite S3, (proj2 (Nat.ltb_lt _ _)) by auto. cbn [bind].
    eexists. split; [reflexivity|]. split; [|split].
    - constructor; simpl; auto.
      + rewrite map_length, combine_length. lia.
      + intros row Hrow. apply in_map_iff in Hrow as ([row' r] & <- & Hin).
        rewrite upd_length. apply S2. apply in_combine_l in Hin. auto.
      + rewrite upd_length; auto.
    - intros rr dtc cpu ref (C1 & C2 & C3 & C4). repeat split; simpl; auto.
      + rewrite nth_error_combine_upd by lia. rewrite Nat.eqb_refl.
        assert (L : length (s_rr s) = length (m_RR m)) by lia.
        clear -S2 L Hk. revert L. generalize (s_rr s). induction (m_RR m) as [|row RR IH];
          intros [|r l] L; simpl in L; try discriminate; simpl; auto.
        rewrite S2 by (simpl; auto). rewrite (proj2 (Nat.ltb_lt _ _)) by auto. f_equal.
        apply IH; auto. intros; apply S2; simpl; auto.
      + rewrite nth_error_upd_eq; auto. lia.
    - intros i rr dtc cpu ref Hne (C1 & C2 & C3 & C4). repeat split; simpl; auto.
      + rewrite nth_error_combine_upd by lia. apply Nat.eqb_neq in Hne. rewrite Hne. auto.
      + rewrite nth_error_upd_ne; auto.
  Qed.

  Lemma set_cpu_ok n (m : mstate A) k t : shapeM ns n m -> k < n ->
    exists m', set_cpu m k t = Ok m' /\ shapeM ns n m' /\
      (forall rr dtc cpu ref, cell_is m k rr dtc cpu ref -> cell_is m' k rr dtc t ref) /\
      (forall i rr dtc cpu ref, i <> k -> cell_is m i rr dtc cpu ref -> cell_is m' i rr dtc cpu ref).
  Proof.
    intros [S1 S2 S3 S4 S5] Hk. unfold set_cpu, setidx. rewrite S4, (proj2 (Nat.ltb_lt _ _)) by auto.
    cbn [bind]. eexists. split; [reflexivity|]. split; [|split].
    - constructor; simpl; auto. rewrite upd_length; auto.
    - intros rr dtc cpu ref (C1 & C2 & C3 & C4). repeat split; simpl; auto.
      rewrite nth_error_upd_eq; auto. lia.
    - intros i rr dtc cpu ref Hne (C1 & C2 & C3 & C4). repeat split; simpl; auto.
      rewrite nth_error_upd_ne; auto.
  Qed.

  Lemma set_ref_ok n (m : mstate A) k t : shapeM ns n m -> k < n ->
    exists m', set_ref m k t = Ok m' /\ shapeM ns n m' /\
      (forall rr dtc cpu ref, cell_is m k rr dtc cpu ref -> cell_is m' k rr dtc cpu t) /\
      (forall i rr dtc cpu ref, i <> k -> cell_is m i rr dtc cpu ref -> cell_is m' i rr dtc cpu ref).
  Proof.
    intros [S1 S2 S3 S4 S5] Hk. unfold set_ref, setidx. rewrite S5, (proj2 (Nat.ltb_lt _ _)) by auto.
    cbn [bind]. eexists. split; [reflexivity|]. split; [|split].
    - constructor; simpl; auto. rewrite upd_length; auto.
    - intros rr dtc cpu ref (C1 & C2 & C3 & C4). repeat split; simpl; auto.
      rewrite nth_error_upd_eq; auto. lia.
    - intros i rr dtc cpu ref Hne (C1 & C2 & C3 & C4). repeat split; simpl; auto.
      rewrite nth_error_upd_ne; auto.
  Qed.

  (** ** The loop over cells *)
  Section OneRank.
    Variables (n : nat) (F : fields A) (d : deltaT A) (m : mstate A).
    Hypothesis SF : shapeF ns n F d.
    Hypothesis SM : shapeM ns n m.
    Hypothesis MO : mapper_ok ns (g_mapper cfg).

    Definition Yat (i : nat) : list (num A) := map (fun y => nth i y (zero A)) (f_Y F).
    Definition dt_of (i : nat) : num A :=
      match d with DField l => nth i l (zero A) | DUniform x => x end.
    Definition Tat (i : nat) : num A := nth i (f_T F) (zero A).
    Definition prob (i : nat) : problem A :=
      mkProblem (Yat i) (Tat i) (nth i (f_p F) (zero A)) (nth i (f_rho F) (zero A))
        (nth i (m_dtc m) (zero A)) (dt_of i) (nth i (m_cpu m) (zero A)) i.

    Definition uof (p : problem A) : uproblem A :=
      mkU (map Some (p_c p)) (Some (p_T p)) (Some (p_p p)) (Some (p_rho p)) (Some (p_deltaTChem p))
        (Some (p_deltaT p)) (Some (p_cpuTime p)) (Some (p_cellid p)).

    (** Cell [i] is a candidate for mapping. *)
    Definition low (i : nat) : bool :=
      match shouldMap (g_mapper cfg) (Yat i) with Ok b => b | _ => false end.

    Lemma uof_read p : u_read (uof p) = Ok p.
    Proof. unfold u_read, uof; simpl. rewrite mapM_rd_Some. simpl. destruct p; auto. Qed.

    Lemma problem_of_prob i : i < n -> problem_of F d m i (prob i).
    Proof.
      intros Hi. destruct SF as [F1 F2 F3 F4 F5 F6], SM as [S1 S2 S3 S4 S5].
      unfold problem_of, prob, Tat; simpl. repeat split; try (apply nth_error_nth'; lia).
      - unfold Yat. rewrite map_map. apply map_ext_in. intros y Hy. apply nth_error_nth'. rewrite F2; auto.
      - unfold dt_of. destruct d; auto. apply nth_error_nth'. lia.
    Qed.

    Lemma problem_of_unique i p p' : problem_of F d m i p -> problem_of F d m i p' -> p' = p.
    Proof.
      intros (A1 & A2 & A3 & A4 & A5 & A6 & A7 & A8) (B1 & B2 & B3 & B4 & B5 & B6 & B7 & B8).
      destruct p, p'; simpl in *. f_equal; try congruence. apply map_Some_inj. congruence.
    Qed.

    Lemma cell_problem_ok m' i : i < n -> m_dtc m' = m_dtc m -> m_cpu m' = m_cpu m ->
      cell_problem cfg F d m' i = Ok (uof (prob i)).
    Proof.
      intros Hi E1 E2. destruct SF as [F1 F2 F3 F4 F5 F6], SM as [S1 S2 S3 S4 S5].
      unfold cell_problem, cell_Y. rewrite <- F1, mapM_seq_idx.
      assert (EY : mapM (fun y => idx y i) (f_Y F) = Ok (Yat i)).
      { unfold Yat. rewrite <- mapM_pure. apply mapM_ext_in. intros y Hy. apply idx_nth. rewrite F2; auto. }
      rewrite EY. cbn [bind].
      rewrite (idx_nth _ _ (zero A)) by lia. cbn [bind].
      rewrite (idx_nth _ _ (zero A)) by lia. cbn [bind].
      rewrite (idx_nth _ _ (zero A)) by lia. cbn [bind]. rewrite E1, E2.
      rewrite (idx_nth _ _ (zero A)) by lia. cbn [bind].
      assert (ED : dt_at d i = Ok (dt_of i)).
      { unfold dt_at, dt_of. destruct d; auto. apply idx_nth. lia. }
      rewrite ED. cbn [bind]. rewrite (idx_nth _ _ (zero A)) by lia. reflexivity.
    Qed.

    Lemma Yat_length i : length (Yat i) = ns.
    Proof. unfold Yat. rewrite map_length. apply (sf_Y _ _ _ _ SF). Qed.

    Lemma shouldMap_low i : shouldMap (g_mapper cfg) (Yat i) = Ok (low i).
    Proof.
      unfold low. unfold shouldMap. destruct (mp_active (g_mapper cfg)) eqn:Ea; auto.
      destruct (MO Ea) as [M1 M2]. unfold massFractionToMixtureFraction.
      rewrite Yat_length, (proj2 (Nat.leb_le _ _) M1).
      rewrite (idx_nth _ 0 (zero A)) by lia. cbn [bind].
      rewrite (idx_nth _ 1 (zero A)) by lia. reflexivity.
    Qed.

    Definition solved_upto (k : nat) := filter (fun i => negb (low i)) (seq 0 k).
    Definition mapped_upto (k : nat) := filter low (seq 0 k).

    Lemma solved_upto_le k : length (solved_upto k) <= k.
    Proof.
      unfold solved_upto. assert (L := filter_split_length low (seq 0 k)).
      rewrite seq_length in L. lia.
    Qed.

    Lemma cells_loop : forall k, k <= n ->
      foldM (cell_step cfg F d) (mkL (repeat (u_sized ns) n) [] 0, m) (seq 0 k)
      = Ok (mkL (map uof (map prob (solved_upto k)) ++ repeat (u_sized ns) (n - length (solved_upto k)))
                (map uof (map prob (mapped_upto k))) (length (solved_upto k)),
            mkM (m_RR m) (m_dtc m) (m_cpu m)
              (map (fun i => if low i then 1 else 2) (seq 0 k) ++ skipn k (m_ref m))).
    Proof.
      induction k as [|k IH]; intros Hk.
      - simpl. rewrite Nat.sub_0_r. destruct m; reflexivity.
      - rewrite seq_S, foldM_app, IH by lia. cbn [bind foldM].
        change (0 + k) with k.
        unfold cell_step. rewrite (cell_problem_ok _ k) by (auto; lia).
        cbn [bind]. change (u_c (uof (prob k))) with (map Some (Yat k)). rewrite mapM_rd_Some. cbn [bind].
        rewrite shouldMap_low. cbn [bind].
        assert (Ls := solved_upto_le k).
        assert (ER : forall v, set_ref (mkM (m_RR m) (m_dtc m) (m_cpu m)
              (map (fun i => if low i then 1 else 2) (seq 0 k) ++ skipn k (m_ref m))) k v
              = Ok (mkM (m_RR m) (m_dtc m) (m_cpu m)
              (map (fun i => if low i then 1 else 2) (seq 0 k) ++ v :: skipn (S k) (m_ref m)))).
        { intros v. unfold set_ref, setidx. cbn [m_ref m_RR m_dtc m_cpu].
          destruct (skipn_cons_nth (m_ref m) k) as (x & Ex); [rewrite (sm_ref _ _ _ SM); lia|].
          rewrite Ex. rewrite app_length, map_length, seq_length. simpl length.
          rewrite (proj2 (Nat.ltb_lt _ _)) by lia. cbn [bind].
          rewrite upd_at by (rewrite map_length, seq_length; auto). reflexivity. }
        rewrite map_app. cbn [map].
        unfold solved_upto, mapped_upto in *. rewrite seq_S, !filter_app_last. change (0 + k) with k.
        destruct (low k) eqn:El; cbn [negb].
        + rewrite ER. cbn [bind l_solved l_mapped l_counter]. rewrite app_nil_r, !map_app.
          rewrite <- app_assoc. reflexivity.
        + cbn [l_solved l_mapped l_counter]. unfold setidx at 1.
          rewrite app_length, !map_length, repeat_length.
          rewrite (proj2 (Nat.ltb_lt _ _)) by lia. cbn [bind]. rewrite ER. cbn [bind].
          rewrite app_nil_r, !map_app, !app_length. simpl length. rewrite <- !app_assoc.
          replace (n - length (filter (fun i => negb (low i)) (seq 0 k)))
            with (S (n - (length (filter (fun i => negb (low i)) (seq 0 k)) + 1))) by lia.
          cbn [repeat map app].
          rewrite upd_at by (rewrite !map_length; auto). rewrite Nat.add_1_r. reflexivity.
    Qed.

    (** ** Serving cells from the reference solution *)
    Definition hot (i0 i : nat) : bool :=
      negb (temperatureWithinRange (g_mapper cfg) (Tat i) (Tat i0)).

    Lemma map_fold s i0 : length (s_rr s) = ns -> forall L sv m1,
      (forall i, In i L -> i < n) -> shapeM ns n m1 ->
      exists m2,
        foldM (map_step cfg s (Tat i0)) (sv, m1) (map uof (map prob L))
          = Ok (sv ++ map uof (map prob (filter (hot i0) L)), m2) /\
        shapeM ns n m2 /\
        forall i rr dtc cpu ref, cell_is m1 i rr dtc cpu ref ->
          (In i L -> hot i0 i = true -> cell_is m2 i rr dtc cpu 2) /\
          (In i L -> hot i0 i = false ->
             cell_is m2 i (s_rr s) (foam_min A (s_deltaTChem s) (g_dtcMax cfg)) (s_cpuTime s) ref) /\
          (~ In i L -> cell_is m2 i rr dtc cpu ref).
    Proof.
      intros Hl. induction L as [|a L IH]; intros sv m1 HL S1.
      - exists m1. simpl. rewrite app_nil_r. split; auto. split; auto.
        intros i rr dtc cpu ref C. split; [contradiction|]. split; [contradiction|]. auto.
      - assert (Ha : a < n) by (apply HL; simpl; auto).
        cbn [map foldM]. unfold map_step at 1. cbn [uof u_T u_cellid prob p_T p_cellid rd bind].
        cbn [filter]. unfold hot at 1.
        destruct (temperatureWithinRange (g_mapper cfg) (Tat a) (Tat i0)) eqn:Et; cbn [negb].
        + destruct (urr_ok n m1 a s S1 Ha Hl) as (ma & E1 & Sa & Ca & Da). rewrite E1. cbn [bind].
          destruct (set_cpu_ok n ma a (s_cpuTime s) Sa Ha) as (mb & E2 & Sb & Cb & Db). rewrite E2. cbn [bind].
          destruct (IH sv mb (fun i Hi => HL i (or_intror Hi)) Sb) as (m2 & E3 & S2 & C2).
          exists m2. split; auto. split; auto.
          intros i rr dtc cpu ref C.
          destruct (Nat.eq_dec i a) as [->|Hne].
          * assert (Hh : hot i0 a = false) by (unfold hot; rewrite Et; auto).
            destruct (C2 a _ _ _ _ (Cb _ _ _ _ (Ca _ _ _ _ C))) as (K1 & K2 & K3).
            split; [congruence|]. split.
            -- intros _ _. destruct (in_dec Nat.eq_dec a L); auto.
            -- intros Hn. exfalso. apply Hn. simpl; auto.
          * destruct (C2 i _ _ _ _ (Db i _ _ _ _ Hne (Da i _ _ _ _ Hne C))) as (K1 & K2 & K3).
            split; [|split].
            -- intros [->|Hin]; [congruence|auto].
            -- intros [->|Hin]; [congruence|auto].
            -- intros Hn. apply K3. intros Hin. apply Hn. simpl; auto.
        + destruct (set_ref_ok n m1 a 2 S1 Ha) as (ma & E1 & Sa & Ca & Da). rewrite E1. cbn [bind].
          destruct (IH (sv ++ [uof (prob a)]) ma (fun i Hi => HL i (or_intror Hi)) Sa) as (m2 & E3 & S2 & C2).
          exists m2. change (prob a) with (prob a) in E3.
          split; [rewrite <- app_assoc in E3; exact E3|]. split; auto.
          intros i rr dtc cpu ref C.
          destruct (Nat.eq_dec i a) as [->|Hne].
          * assert (Hh : hot i0 a = true) by (unfold hot; rewrite Et; auto).
            destruct (C2 a _ _ _ _ (Ca _ _ _ _ C)) as (K1 & K2 & K3).
            split; [|split].
            -- intros _ _. destruct (in_dec Nat.eq_dec a L); auto.
            -- congruence.
            -- intros Hn. exfalso. apply Hn. simpl; auto.
          * destruct (C2 i _ _ _ _ (Da i _ _ _ _ Hne C)) as (K1 & K2 & K3).
            split; [|split].
            -- intros [->|Hin]; [congruence|auto].
            -- intros [->|Hin]; [congruence|auto].
            -- intros Hn. apply K3. intros Hin. apply Hn. simpl; auto.
    Qed.

    Lemma single_facts tm e p s e' : single kern fuel cfg tm e p = Ok (s, e') ->
      length (s_rr s) = length (p_c p) /\ s_cellid s = p_cellid p /\ s_rho s = p_rho p /\
      s_cpuTime s = tm (snd e) /\
      exists x h', substeps kern fuel (fst e) (p_deltaT p)
          (mkCell (p_p p) (p_T p) (p_c p) (p_deltaT p) (p_deltaTChem p)) = Ok (x, h') /\
        e' = (h', S (snd e)) /\
        s_deltaTChem s = foam_min A (k_sub x) (g_dtcMax cfg) /\ length (k_c x) = length (p_c p) /\
        s_rr s = map (fun '(y, y0) => ndiv A (nmul A (nsub A y y0) (p_rho p)) (p_deltaT p))
                   (combine (k_c x) (p_c p)).
    Proof.
      unfold single, solveSingle. intros E. apply bind_ok in E as ([us e1] & E1 & E).
      apply bind_ok in E1 as ([x h'] & Ex & E1). apply bind_ok in E1 as (rr & Er & E1).
      inversion E1; subst us e1. cbn [us_read us_deltaTChem us_cpuTime us_cellid us_rho us_rr rd bind] in E.
      inversion E; subst s e'. cbn [s_rr s_cellid s_rho s_cpuTime s_deltaTChem].
      unfold rates in Er. destruct (Nat.eqb_spec (length (k_c x)) (length (p_c p))) as [L|]; [|discriminate].
      inversion Er; subst rr. repeat split; auto.
      - rewrite map_length, combine_length. lia.
      - exists x, h'. repeat split; auto.
    Qed.

    (** Cells handed to the balancer, in order: the high ones, then those too far in
        temperature from the reference. *)
    Definition cells_for (i0 : option nat) : list nat :=
      solved_upto n ++ match i0 with None => [] | Some i0 => filter (hot i0) (mapped_upto n) end.

    Lemma mapped_lt i : In i (mapped_upto n) <-> i < n /\ low i = true.
    Proof. unfold mapped_upto. rewrite filter_In, in_seq. intuition lia. Qed.

    Lemma solved_lt i : In i (solved_upto n) <-> i < n /\ low i = false.
    Proof. unfold solved_upto. rewrite filter_In, in_seq, negb_true_iff. intuition lia. Qed.

    (** State after the loop over cells. *)
    Definition labelled : mstate A :=
      mkM (m_RR m) (m_dtc m) (m_cpu m) (map (fun i => if low i then 1 else 2) (seq 0 n)).

    Lemma labelled_shape : shapeM ns n labelled.
    Proof.
      destruct SM as [S1 S2 S3 S4 S5]. constructor; simpl; auto. rewrite map_length, seq_length. auto.
    Qed.

    Lemma labelled_cell i rr dtc cpu ref : i < n -> cell_is m i rr dtc cpu ref ->
      cell_is labelled i rr dtc cpu (if low i then 1 else 2).
    Proof.
      intros Hi (C1 & C2 & C3 & C4). repeat split; simpl; auto.
      rewrite nth_error_map, nth_error_seq.
      rewrite (proj2 (Nat.ltb_lt _ _)) by auto. reflexivity.
    Qed.

    Lemma reads_back L : mapM u_read (map uof (map prob L)) = Ok (map prob L).
    Proof.
      induction L; cbn [map mapM]; auto. rewrite IHL, uof_read. reflexivity.
    Qed.

    Lemma getProblems_eq dbg tm e :
      getProblems kern fuel cfg dbg tm e F d m =
      match mapped_upto n with
      | [] => Ok (map prob (solved_upto n), labelled, e)
      | i0 :: _ =>
        let* (s, e') := single kern fuel cfg tm e (prob i0) in
        let* m1 := set_ref labelled i0 0 in
        let* (us, m2) := foldM (map_step cfg s (Tat i0)) (map uof (map prob (solved_upto n)), m1)
                           (map uof (map prob (mapped_upto n))) in
        let* ps := mapM u_read us in
        Ok (ps, m2, e')
      end.
    Proof.
      unfold getProblems. rewrite (sf_p _ _ _ _ SF), (sf_T _ _ _ _ SF), cells_loop by lia. cbn [bind l_counter l_solved l_mapped].
      rewrite skipn_all2 by (rewrite (sm_ref _ _ _ SM); lia). rewrite app_nil_r. fold labelled.
      replace (firstn (length (solved_upto n)) _) with (map uof (map prob (solved_upto n))).
      2:{ rewrite firstn_app, firstn_all2, !map_length, Nat.sub_diag by (rewrite !map_length; auto).
          rewrite firstn_O, app_nil_r. auto. }
      rewrite !map_length. replace (length (solved_upto n) + length (mapped_upto n)) with n.
      2:{ unfold solved_upto, mapped_upto. rewrite filter_split_length, seq_length. auto. }
      unfold runtime_assert. rewrite Nat.eqb_refl.
      replace (if dbg then Ok tt else Ok tt) with (Ok tt) by (destruct dbg; auto). cbn [bind].
      destruct (mapped_upto n) as [|i0 M] eqn:EM.
      - cbn [map map_cells bind]. rewrite reads_back. reflexivity.
      - cbn [map]. rewrite map_cells_eq, uof_read. cbn [bind].
        destruct (single kern fuel cfg tm e (prob i0)) as [[s e']| | |]; auto. cbn [bind].
        change (p_cellid (prob i0)) with i0. change (p_T (prob i0)) with (Tat i0).
        destruct (set_ref labelled i0 0) as [m1| | |]; auto. cbn [bind].
        match goal with |- context [foldM ?f ?a ?b] => destruct (foldM f a b) as [[us m2]| | |] end; auto.
    Qed.

    (** The reference cell, if any. *)
    Definition ref_cell : option nat := hd_error (mapped_upto n).

    Lemma ref_cell_spec :
      match ref_cell with
      | None => forall i, i < n -> low i = false
      | Some i0 => i0 < n /\ low i0 = true /\ forall i, i < i0 -> low i = false
      end.
    Proof.
      unfold ref_cell. destruct (mapped_upto n) as [|i0 r] eqn:E; simpl.
      - intros i Hi. destruct (low i) eqn:El; auto. exfalso.
        assert (Hin : In i (mapped_upto n)) by (apply mapped_lt; auto). rewrite E in Hin. auto.
      - apply filter_seq_first in E as (E1 & E2 & E3). repeat split; auto; [lia|].
        intros i Hi. apply E3; lia.
    Qed.

    Lemma cells_NoDup : NoDup (cells_for ref_cell).
    Proof.
      unfold cells_for. apply NoDup_app_intro.
      - apply NoDup_filter, seq_NoDup.
      - destruct ref_cell; [|constructor]. apply NoDup_filter, NoDup_filter, seq_NoDup.
      - intros i H1 H2. apply solved_lt in H1 as [_ H1]. destruct ref_cell; [|contradiction].
        apply filter_In in H2 as [H2 _]. apply mapped_lt in H2 as [_ H2]. congruence.
    Qed.

    Lemma cells_lt i : In i (cells_for ref_cell) -> i < n.
    Proof.
      unfold cells_for. rewrite in_app_iff. intros [Hi|Hi].
      - apply solved_lt in Hi. tauto.
      - destruct ref_cell; [|contradiction]. apply filter_In in Hi as [Hi _]. apply mapped_lt in Hi. tauto.
    Qed.

    (** Cell [i] takes the solution of the reference cell [i0]. *)
    Definition served (i0 i : nat) : Prop := low i = true /\ hot i0 i = false.

    Lemma cells_in i : i < n ->
      (In i (cells_for ref_cell) <->
       match ref_cell with Some i0 => ~ served i0 i | None => True end).
    Proof.
      intros Hi. unfold cells_for. rewrite in_app_iff, solved_lt. unfold served.
      assert (R := ref_cell_spec). destruct ref_cell as [i0|].
      - rewrite filter_In, mapped_lt. destruct (low i), (hot i0 i); intuition congruence.
      - specialize (R i Hi). tauto.
    Qed.

    Lemma getProblems_total dbg tm e :
      (forall i0, ref_cell = Some i0 -> exists s e', single kern fuel cfg tm e (prob i0) = Ok (s, e')) ->
      exists r, getProblems kern fuel cfg dbg tm e F d m = Ok r.
    Proof.
      intros Hr. rewrite getProblems_eq. unfold ref_cell in Hr.
      destruct (mapped_upto n) as [|i0 M] eqn:EM; eauto.
      destruct (Hr i0 eq_refl) as (s & e' & Es). rewrite Es. cbn [bind].
      assert (Hi0 : i0 < n) by (apply mapped_lt; rewrite EM; simpl; auto).
      destruct (set_ref_ok n labelled i0 0 labelled_shape Hi0) as (m1 & E1 & S1 & _).
      rewrite E1. cbn [bind].
      destruct (single_facts _ _ _ _ _ Es) as (Ls & _). change (p_c (prob i0)) with (Yat i0) in Ls.
      rewrite Yat_length in Ls.
      destruct (map_fold s i0 Ls (mapped_upto n) (map uof (map prob (solved_upto n))) m1) as (m2 & E2 & _); auto.
      { intros i Hi. apply mapped_lt in Hi. tauto. }
      rewrite EM in E2. rewrite E2. cbn [bind].
      rewrite <- map_app, <- map_app, reads_back. simpl. eauto.
    Qed.

    (** Everything about a successful [getProblems]. *)
    Lemma getProblems_ok dbg tm e ps m' e' :
      getProblems kern fuel cfg dbg tm e F d m = Ok (ps, m', e') ->
      ps = map prob (cells_for ref_cell) /\ shapeM ns n m' /\
      match ref_cell with
      | None => e' = e
      | Some i0 => exists s, single kern fuel cfg tm e (prob i0) = Ok (s, e') /\
          forall i, i < n -> served i0 i ->
            cell_is m' i (s_rr s) (foam_min A (s_deltaTChem s) (g_dtcMax cfg)) (s_cpuTime s)
              (if i =? i0 then 0 else 1)
      end /\
      forall i rr dtc cpu ref, In i (cells_for ref_cell) -> cell_is m i rr dtc cpu ref ->
        cell_is m' i rr dtc cpu 2.
    Proof.
      intros E. rewrite getProblems_eq in E. assert (R := ref_cell_spec).
      unfold ref_cell in *. destruct (mapped_upto n) as [|i0 M] eqn:EM; cbn [hd_error] in *.
      - inversion E; subst. split.
        { unfold cells_for. rewrite app_nil_r. auto. }
        split; [apply labelled_shape|]. split; auto.
        intros i rr dtc cpu ref Hin C. unfold cells_for in Hin. rewrite app_nil_r in Hin.
        apply solved_lt in Hin as [Hi El].
        replace 2 with (if low i then 1 else 2) by (rewrite El; auto).
        eapply labelled_cell; eauto.
      - destruct R as (Hi0 & Li0 & Hbefore).
        apply bind_ok in E as ([s e1] & Es & E).
        destruct (set_ref_ok n labelled i0 0 labelled_shape Hi0) as (m1 & E1 & S1 & C1 & D1).
        rewrite E1 in E. cbn [bind] in E.
        destruct (single_facts _ _ _ _ _ Es) as (Ls & _). change (p_c (prob i0)) with (Yat i0) in Ls.
        rewrite Yat_length in Ls.
        destruct (map_fold s i0 Ls (mapped_upto n) (map uof (map prob (solved_upto n))) m1) as (m2 & E2 & S2 & C2); auto.
        { intros i Hi. apply mapped_lt in Hi. tauto. }
        rewrite <- EM, E2 in E. cbn [bind] in E.
        rewrite <- map_app, <- map_app, reads_back in E. cbn [bind] in E. inversion E; subst ps m' e'.
        split; auto. split; auto. split.
        + exists s. split; auto. intros i Hi [Sl Sh].
          destruct (cell_exists n m i SM Hi) as (rr & dtc & cpu & ref & C & _).
          assert (Cl := labelled_cell i rr dtc cpu ref Hi C). rewrite Sl in Cl.
          assert (Hin : In i (mapped_upto n)) by (apply mapped_lt; auto).
          destruct (Nat.eqb_spec i i0) as [->|Hne].
          * destruct (C2 i0 _ _ _ _ (C1 _ _ _ _ Cl)) as (_ & K2 & _). auto.
          * destruct (C2 i _ _ _ _ (D1 i _ _ _ _ Hne Cl)) as (_ & K2 & _). auto.
        + intros i rr dtc cpu ref Hin C. unfold cells_for in Hin. apply in_app_iff in Hin as [Hin|Hin].
          * apply solved_lt in Hin as [Hi El].
            assert (Cl := labelled_cell i rr dtc cpu ref Hi C). rewrite El in Cl.
            assert (Hne : i <> i0) by congruence.
            destruct (C2 i _ _ _ _ (D1 i _ _ _ _ Hne Cl)) as (_ & _ & K3). apply K3.
            rewrite mapped_lt. intuition congruence.
          * apply filter_In in Hin as [Hin Hh]. assert (X := proj1 (mapped_lt i) Hin). destruct X as [Hi El].
            assert (Cl := labelled_cell i rr dtc cpu ref Hi C).
            destruct (Nat.eq_dec i i0) as [->|Hne].
            -- destruct (C2 i0 _ _ _ _ (C1 _ _ _ _ Cl)) as (K1 & _). auto.
            -- destruct (C2 i _ _ _ _ (D1 i _ _ _ _ Hne Cl)) as (K1 & _). auto.
    Qed.
  End OneRank.

  (** ** Storing the solutions *)
  Lemma store_all n : forall (ss : list (solution A)) dt m,
    shapeM ns n m -> (forall s, In s ss -> s_cellid s < n /\ length (s_rr s) = ns) ->
    NoDup (map s_cellid ss) ->
    exists m',
      foldM (fun '(dtMin, m) s =>
               let* m1 := updateReactionRate cfg s (s_cellid s) m in
               let dtMin' := foam_min A (s_deltaTChem s) dtMin in
               let* m2 := set_cpu m1 (s_cellid s) (s_cpuTime s) in
               Ok (dtMin', m2)) (dt, m) ss
        = Ok (fold_left (fun t s => foam_min A (s_deltaTChem s) t) ss dt, m') /\
      shapeM ns n m' /\
      forall i rr dtc cpu ref, cell_is m i rr dtc cpu ref ->
        (forall s, In s ss -> s_cellid s = i ->
           cell_is m' i (s_rr s) (foam_min A (s_deltaTChem s) (g_dtcMax cfg)) (s_cpuTime s) ref) /\
        (~ In i (map s_cellid ss) -> cell_is m' i rr dtc cpu ref).
  Proof.
    induction ss as [|s ss IH]; intros dt m SM Hs ND.
    - exists m. simpl. split; auto. split; auto. intros. split; [contradiction|auto].
    - inversion ND as [|? ? N1 N2]; subst. destruct (Hs s) as [Hc Hl]; [simpl; auto|].
      cbn [foldM fold_left].
      destruct (urr_ok n m (s_cellid s) s SM Hc Hl) as (ma & E1 & Sa & Ca & Da). rewrite E1. cbn [bind].
      destruct (set_cpu_ok n ma (s_cellid s) (s_cpuTime s) Sa Hc) as (mb & E2 & Sb & Cb & Db). rewrite E2. cbn [bind].
      destruct (IH (foam_min A (s_deltaTChem s) dt) mb Sb) as (m' & E3 & S3 & C3); auto.
      { intros x Hx. apply Hs. simpl; auto. }
      exists m'. split; auto. split; auto. intros i rr dtc cpu ref C.
      destruct (Nat.eq_dec i (s_cellid s)) as [->|Hne].
      + destruct (C3 _ _ _ _ _ (Cb _ _ _ _ (Ca _ _ _ _ C))) as [K1 K2]. split.
        * intros x [->|Hx] Ex; [apply K2; auto|]. exfalso. apply N1. rewrite <- Ex. apply in_map; auto.
        * simpl. tauto.
      + destruct (C3 i _ _ _ _ (Db i _ _ _ _ Hne (Da i _ _ _ _ Hne C))) as [K1 K2]. split.
        * intros x [->|Hx] Ex; [congruence|auto].
        * simpl. intros Hn. apply K2. tauto.
  Qed.
End Cells.
