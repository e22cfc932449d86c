(** One call of solve(), cell by cell; absence of undefined behaviour. *)
From Coq Require Import List Arith Bool ZArith Lia Permutation.
From Verif Require Import Outcome Arith Problem LoadBalancing BalancerSpec PlanFacts
  BalancerProofs Streams StreamFacts Comm BalanceFacts MixtureFraction ChemistryModel ChemFacts
  ChemSim ChemBalance ChemTransparent ChemCells.
Import ListNotations.
Local Open Scope nat_scope.

(** ** Vocabulary *)
Section Vocabulary.
  Context {A : Arith} {H : Type}.
  Variable kern : H -> kcell A -> outcome (kcell A * H).

  (** [calls h t x l x' h']: the cell solver, started with memory [h] on the cell state [x]
      with time [t] left, is called until at most [small] is left; [l] are the time steps
      consumed by the calls, [x'] the final cell state.  Each call is asked for all the time
      left. *)
  Inductive calls : H -> num A -> kcell A -> list (num A) -> kcell A -> H -> Prop :=
  | calls_done h t x : nltb A (small A) t = false -> calls h t x [] x h
  | calls_step h t x x1 h1 l x' h' : nltb A (small A) t = true ->
      kern h (mkCell (k_p x) (k_T x) (k_c x) t (k_sub x)) = Ok (x1, h1) ->
      calls h1 (nsub A t (k_dt x1)) x1 l x' h' ->
      calls h t x (k_dt x1 :: l) x' h'.

  (** [s] results from integrating the problem [p] over its time step; [tms]: timers. *)
  Definition integrated (cfg : config A) (tms : nat -> nat -> num A) (p : problem A) (s : solution A)
    : Prop :=
    exists q k h l x h',
      calls h (p_deltaT p) (mkCell (p_p p) (p_T p) (p_c p) (p_deltaT p) (p_deltaTChem p)) l x h' /\
      length (k_c x) = length (p_c p) /\
      s_rr s = map (fun '(y, y0) => ndiv A (nmul A (nsub A y y0) (p_rho p)) (p_deltaT p))
                 (combine (k_c x) (p_c p)) /\
      s_deltaTChem s = foam_min A (k_sub x) (g_dtcMax cfg) /\
      s_cpuTime s = tms q k /\ s_cellid s = p_cellid p /\ s_rho s = p_rho p.

  (** Mixture fraction of cell [i] below the mapper's tolerance. *)
  Definition candidate (mp : mapper A) (F : fields A) (i : nat) : Prop :=
    mp_active mp = true /\
    exists Y Z, map (fun y => nth_error y i) (f_Y F) = map Some Y /\
      massFractionToMixtureFraction (mp_mix mp) Y = Ok Z /\ nltb A Z (mp_Ztol mp) = true.

  (** Temperature of cell [i] within the mapper's range of that of cell [i0]. *)
  Definition near (mp : mapper A) (F : fields A) (i i0 : nat) : Prop :=
    exists T T0, nth_error (f_T F) i = Some T /\ nth_error (f_T F) i0 = Some T0 /\
      nltb A (nabs A (nsub A T T0)) (mp_Ttol mp) = true.

  (** The first candidate of the rank. *)
  Definition reference (mp : mapper A) (F : fields A) (i0 : nat) : Prop :=
    candidate mp F i0 /\ forall i, i < i0 -> ~ candidate mp F i.

  (** A rank whose fields all live on one mesh of [n] cells. *)
  Definition meshed (ns n : nat) (r : rankin A H) : Prop :=
    shapeF ns n (r_fields r) (r_dt r) /\ shapeM ns n (r_state r).
End Vocabulary.

Section Step.
  Context {A : Arith} {H : Type}.
  Variable kern : H -> kcell A -> outcome (kcell A * H).
  Variable fuel : nat.
  Variable cfg : config A.
  Notation ns := (g_nSpecie cfg).

  Lemma substeps_calls n : forall h t x x' h',
    substeps kern n h t x = Ok (x', h') -> exists l, calls kern h t x l x' h'.
  Proof.
    induction n as [|n IH]; intros h t x x' h' E; simpl in E;
      destruct (nltb A (small A) t) eqn:Et; try discriminate.
    - inversion E; subst. exists []. constructor; auto.
    - apply bind_ok in E as ([x1 h1] & E1 & E). apply IH in E as (l & C).
      exists (k_dt x1 :: l). econstructor; eauto.
    - inversion E; subst. exists []. constructor; auto.
  Qed.

  Lemma sol_integrated tms p s : sol kern fuel cfg tms p s -> integrated kern cfg tms p s.
  Proof.
    intros (q & e & e' & E).
    destruct (single_facts kern fuel cfg _ _ _ _ _ E) as (F1 & F2 & F3 & F4 & x & h' & F5 & F6 & F7 & F8 & F9).
    apply substeps_calls in F5 as (l & C).
    exists q, (snd e), (fst e), l, x, h'. repeat split; auto.
  Qed.

  Lemma foam_min_twice (a b : num A) : foam_min A (foam_min A a b) b = foam_min A a b.
  Proof.
    unfold foam_min. destruct (nltb A a b) eqn:E; [rewrite E; auto|]. destruct (nltb A b b); auto.
  Qed.

  Section Mesh.
    Variables (n : nat) (F : fields A) (d : deltaT A) (m : mstate A).
    Hypothesis SF : shapeF ns n F d.
    Hypothesis SM : shapeM ns n m.
    Hypothesis MO : mapper_ok ns (g_mapper cfg).

    Lemma Yat_spec i Y : i < n -> map (fun y => nth_error y i) (f_Y F) = map Some Y -> Y = Yat F i.
    Proof.
      intros Hi E. apply map_Some_inj. rewrite <- E. unfold Yat. rewrite map_map.
      apply map_ext_in. intros y Hy. symmetry. symmetry. apply nth_error_nth'. rewrite (sf_rows _ _ _ _ SF); auto.
    Qed.

    Lemma low_candidate i : i < n -> (low cfg F i = true <-> candidate (g_mapper cfg) F i).
    Proof.
      intros Hi. assert (S := shouldMap_low cfg n F d SF MO i).
      unfold candidate. unfold shouldMap in S.
      destruct (mp_active (g_mapper cfg)) eqn:Ea.
      - apply bind_ok in S as (Z & E1 & E2). inversion E2 as [E3]. split.
        + intros El. split; auto. exists (Yat F i), Z. repeat split; auto.
          unfold Yat. rewrite map_map. apply map_ext_in. intros y Hy. apply nth_error_nth'.
          rewrite (sf_rows _ _ _ _ SF); auto.
        + intros (_ & Y & Z' & EY & EZ & Et). apply (Yat_spec i) in EY; auto. subst Y.
          rewrite E1 in EZ. inversion EZ; subst. auto.
      - inversion S as [E]. split; [congruence|]. intros [E' _]. congruence.
    Qed.

    Lemma hot_near i i0 : i < n -> i0 < n -> (hot cfg F i0 i = false <-> near (g_mapper cfg) F i i0).
    Proof.
      intros Hi Hi0. unfold hot, near, temperatureWithinRange, Tat. rewrite negb_false_iff.
      assert (L := sf_T _ _ _ _ SF). split.
      - intros E. exists (nth i (f_T F) (zero A)), (nth i0 (f_T F) (zero A)).
        repeat split; auto; apply nth_error_nth'; lia.
      - intros (T & T0 & E1 & E2 & E3).
        rewrite (nth_error_nth _ _ (zero A) E1), (nth_error_nth _ _ (zero A) E2). auto.
    Qed.

    Lemma candidate_lt i : candidate (g_mapper cfg) F i -> ns <> 0 -> i < n.
    Proof.
      intros (_ & Y & Z & E & _) Hn. assert (L := sf_Y _ _ _ _ SF).
      destruct (f_Y F) as [|y l] eqn:EF; [simpl in L; congruence|]. simpl in E.
      destruct Y as [|y0 Y]; [discriminate|]. simpl in E. inversion E as [[E1 E2]].
      rewrite <- (sf_rows _ _ _ _ SF y); [apply nth_error_Some; congruence|]. rewrite EF. simpl; auto.
    Qed.

    Lemma ref_reference i0 : i0 < n ->
      (ref_cell cfg n F = Some i0 <-> reference (g_mapper cfg) F i0).
    Proof.
      intros Hi0. assert (R := ref_cell_spec cfg n F). split.
      - intros E. rewrite E in R. destruct R as (_ & R2 & R3). split.
        + apply low_candidate; auto.
        + intros i Hi Hc. apply low_candidate in Hc; [|lia]. rewrite R3 in Hc; auto. discriminate.
      - intros [C1 C2]. apply low_candidate in C1; auto. destruct (ref_cell cfg n F) as [j|].
        + destruct R as (R1 & R2 & R3). f_equal. destruct (Nat.lt_trichotomy j i0) as [L|[L|L]]; auto.
          * exfalso. apply (C2 j L). apply low_candidate; auto.
          * rewrite R3 in C1; auto. discriminate.
        + rewrite R in C1; auto. discriminate.
    Qed.
  End Mesh.

  (** ** A whole call *)
  Variables (dbg par : bool) (sortf : list (load A) -> list (load A)) (tms : nat -> nat -> num A).

  Definition rank_done (q : nat) (r : rankin A H) (o : rankout A H) : Prop :=
    forall n, meshed ns n r ->
      let F := r_fields r in
      let P := prob F (r_dt r) (r_state r) in
      let cells := cells_for cfg n F (ref_cell cfg n F) in
      shapeM ns n (o_state o) /\
      (exists ss, Forall2 (sol kern fuel cfg tms) (map P cells) ss /\
         o_dtmin o = fold_left (fun t s => foam_min A (s_deltaTChem s) t) ss (great A) /\
         forall k i s, nth_error cells k = Some i -> nth_error ss k = Some s ->
           cell_is (o_state o) i (s_rr s) (foam_min A (s_deltaTChem s) (g_dtcMax cfg)) (s_cpuTime s) 2) /\
      match ref_cell cfg n F with
      | None => True
      | Some i0 => exists s e', single kern fuel cfg (tms q) (r_env r) (P i0) = Ok (s, e') /\
          forall i, i < n -> served cfg F i0 i ->
            cell_is (o_state o) i (s_rr s) (foam_min A (s_deltaTChem s) (g_dtcMax cfg)) (s_cpuTime s)
              (if i =? i0 then 0 else 1)
      end.

  Lemma sols_cells n F d m (SF : shapeF ns n F d) cells ss :
    Forall2 (sol kern fuel cfg tms) (map (prob F d m) cells) ss ->
    map s_cellid ss = cells /\ forall s, In s ss -> length (s_rr s) = ns.
  Proof.
    revert ss. induction cells as [|i cells IH]; intros ss Fs; inversion Fs; subst; simpl.
    - split; auto. contradiction.
    - destruct (IH _ H4) as [I1 I2].
      destruct H2 as (q & e & e' & E). destruct (single_facts kern fuel cfg _ _ _ _ _ E) as (F1 & F2 & _).
      split.
      + f_equal; auto.
      + intros s [<-|Hs]; auto. rewrite F1. unfold prob; simpl. eapply Yat_length; eauto.
  Qed.

  Lemma call_done ranks outs :
    g_chem cfg = true -> mapper_ok ns (g_mapper cfg) ->
    sort_contract sortf -> par = true \/ length ranks <= 1 ->
    solve_all kern fuel cfg dbg par sortf tms ranks = Ok outs ->
    Forall2 (fun '(q, r) o => rank_done q r o) (enum ranks) outs.
  Proof.
    intros Hch MO Hs Hpar E. unfold solve_all in E. rewrite Hch in E. cbn [negb] in E.
    apply bind_ok in E as (got & Eg & E). apply bind_ok in E as (sv & Es & E).
    assert (Lg := phase_get_length kern fuel _ _ _ _ _ Eg).
    assert (An := branch_answers kern fuel cfg dbg par sortf tms got sv Hs
                    ltac:(rewrite Lg; auto) Es).
    unfold phase_get in Eg. apply mapM_ok in Eg. unfold phase_update in E.
    assert (Lo := mapM_length _ _ _ E). apply mapM_ok in E.
    assert (Lv := Forall2_len _ _ _ An). rewrite map_length in Lv.
    rewrite combine_length, <- Lv, Nat.min_id in Lo.
    apply Forall2_index; [rewrite enum_length; lia|].
    intros k [q r] o Hr Ho. rewrite nth_error_enum in Hr.
    destruct (nth_error ranks k) as [r'|] eqn:Er; [|discriminate]. simpl in Hr. inversion Hr; subst k r'.
    assert (Hen : nth_error (enum ranks) q = Some (q, r)) by (rewrite nth_error_enum, Er; auto).
    destruct (Forall2_nth_error _ _ _ Eg q _ Hen) as ([[ps m'] e'] & Gq & Eq).
    assert (Hp : nth_error (map (fun '(ps, _, _) => ps) got) q = Some ps) by (rewrite nth_error_map, Gq; auto).
    destruct (Forall2_nth_error _ _ _ An q _ Hp) as ([inc e2] & Vq & Fq).
    destruct (Forall2_nth_error_r _ _ _ E q _ Ho) as ([[[ps2 m2] e3] [inc2 e4]] & Cq & Uq).
    rewrite nth_error_combine, Gq, Vq in Cq. inversion Cq; subst ps2 m2 e3 inc2 e4. clear Cq.
    apply bind_ok in Uq as ([dt mo] & Uq & Eo). inversion Eo; subst o. clear Eo.
    intros n [SF SM] Fl P cells. cbn [o_state o_dtmin].
    destruct (getProblems_ok kern fuel cfg n _ _ _ SF SM MO _ _ _ _ _ _ Eq) as (G1 & G2 & G3 & G4).
    fold Fl in G1, G3, G4. fold cells in G1, G4. fold P in G1. subst ps.
    unfold updateReactionRates in Uq.
    destruct (sols_cells n _ _ _ SF cells (concat inc) Fq) as [K1 K2].
    destruct (store_all cfg n (concat inc) (great A) m' G2) as (mo' & U1 & U2 & U3).
    { intros s Hs'. split; auto.
      eapply (cells_lt cfg n Fl). fold cells. rewrite <- K1. apply in_map; auto. }
    { rewrite K1. apply cells_NoDup. }
    assert (Uq' := eq_trans (eq_sym U1) Uq). inversion Uq'; subst dt mo'. clear Uq Uq'.
    split; auto. split.
    - exists (concat inc). split; auto. split; auto.
      intros k i s Hi Hsk.
      assert (Hin : In i cells) by (eapply nth_error_In; eauto).
      destruct (cell_exists cfg n (r_state r) i SM) as (rr & dtc & cpu & ref & C & _).
      { eapply (cells_lt cfg n Fl). exact Hin. }
      destruct (U3 _ _ _ _ _ (G4 _ _ _ _ _ Hin C)) as [V1 _].
      apply V1; [eapply nth_error_In; eauto|].
      assert (X : nth_error (map s_cellid (concat inc)) k = Some i) by (rewrite K1; auto).
      rewrite nth_error_map, Hsk in X. inversion X; auto.
    - assert (RI := cells_in cfg n Fl). fold cells in RI.
      destruct (ref_cell cfg n Fl) as [i0|]; auto.
      destruct G3 as (s & S1 & S2). exists s, e'. split; auto. intros i Hi Sv.
      destruct (U3 _ _ _ _ _ (S2 i Hi Sv)) as [_ V2]. apply V2. rewrite K1.
      intros Hin. apply RI in Hin; auto.
  Qed.
End Step.
