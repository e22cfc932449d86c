(** Two calls of solve() that differ only in timers, solver memory and balancing. *)
From Coq Require Import List Arith Bool ZArith Lia Permutation.
From Verif Require Import Outcome Arith Problem LoadBalancing BalancerSpec PlanFacts
  BalancerProofs Streams StreamFacts Comm CommFacts BalanceFacts MixtureFraction ChemistryModel
  ChemFacts.
Import ListNotations.
Local Open Scope nat_scope.

(** ** Vocabulary *)
Section Vocabulary.
  Context {A : Arith} {H : Type}.

  (** What the cell solver returns (or that it fails) does not depend on what it has
      solved before. *)
  Definition memoryless (kern : H -> kcell A -> outcome (kcell A * H)) : Prop :=
    forall h1 h2 x, orel (fun a b => fst a = fst b) (kern h1 x) (kern h2 x).

  (** Same case, balancing switched on or off. *)
  Definition with_active (cfg : config A) (b : bool) : config A :=
    mkConfig (g_nSpecie cfg) (g_dtcMax cfg) (g_chem cfg) b (g_mapper cfg).

  (** Same physical inputs; measured times and solver memory may differ. *)
  Definition same_inputs (r1 r2 : rankin A H) : Prop :=
    r_fields r1 = r_fields r2 /\ r_dt r1 = r_dt r2 /\
    m_RR (r_state r1) = m_RR (r_state r2) /\ m_dtc (r_state r1) = m_dtc (r_state r2) /\
    m_ref (r_state r1) = m_ref (r_state r2) /\
    length (m_cpu (r_state r1)) = length (m_cpu (r_state r2)).

  (** Same physical results: returned time step, reaction rates, chemical time steps and
      reference map. *)
  Definition same_results (o1 o2 : rankout A H) : Prop :=
    o_dtmin o1 = o_dtmin o2 /\ m_RR (o_state o1) = m_RR (o_state o2) /\
    m_dtc (o_state o1) = m_dtc (o_state o2) /\ m_ref (o_state o1) = m_ref (o_state o2).

  Definition sim (m1 m2 : mstate A) : Prop :=
    m_RR m1 = m_RR m2 /\ m_dtc m1 = m_dtc m2 /\ m_ref m1 = m_ref m2 /\
    length (m_cpu m1) = length (m_cpu m2).

  (** Equal up to the measured time. *)
  Definition peq (p1 p2 : problem A) : Prop :=
    p_c p1 = p_c p2 /\ p_T p1 = p_T p2 /\ p_p p1 = p_p p2 /\ p_rho p1 = p_rho p2 /\
    p_deltaTChem p1 = p_deltaTChem p2 /\ p_deltaT p1 = p_deltaT p2 /\ p_cellid p1 = p_cellid p2.

  Definition speq (s1 s2 : solution A) : Prop :=
    s_rr s1 = s_rr s2 /\ s_deltaTChem s1 = s_deltaTChem s2 /\ s_cellid s1 = s_cellid s2 /\
    s_rho s1 = s_rho s2.

  Definition upeq (u1 u2 : uproblem A) : Prop :=
    u_c u1 = u_c u2 /\ u_T u1 = u_T u2 /\ u_p u1 = u_p u2 /\ u_rho u1 = u_rho u2 /\
    u_deltaTChem u1 = u_deltaTChem u2 /\ u_deltaT u1 = u_deltaT u2 /\ u_cellid u1 = u_cellid u2 /\
    (u_cpuTime u1 = None <-> u_cpuTime u2 = None).
End Vocabulary.

Lemma setidx_orel {T} (R : list T -> list T -> Prop) l1 l2 i x1 x2 :
  length l1 = length l2 -> (i < length l1 -> R (upd l1 i x1) (upd l2 i x2)) ->
  orel R (setidx l1 i x1) (setidx l2 i x2).
Proof.
  intros L HR. unfold setidx. rewrite <- L. destruct (Nat.ltb_spec i (length l1)); simpl; auto.
Qed.

Lemma Forall2_upd {S T} (R : S -> T -> Prop) l1 l2 i x y :
  Forall2 R l1 l2 -> R x y -> Forall2 R (upd l1 i x) (upd l2 i y).
Proof.
  intros F Hxy. revert i. induction F; intros [|i]; simpl; constructor; auto.
Qed.

Lemma Forall2_same {T} (R : T -> T -> Prop) l : (forall x, In x l -> R x x) -> Forall2 R l l.
Proof. induction l; intros Hr; constructor; simpl in *; auto. Qed.

Lemma Forall2_firstn {S T} (R : S -> T -> Prop) l1 l2 n :
  Forall2 R l1 l2 -> Forall2 R (firstn n l1) (firstn n l2).
Proof. intros F. revert n. induction F; intros [|n]; simpl; constructor; auto. Qed.

Section Sim.
  Context {A : Arith} {H : Type}.
  Variable kern : H -> kcell A -> outcome (kcell A * H).
  Variable fuel : nat.
  Variable cfg : config A.
  Hypothesis ML : memoryless kern.

  Lemma substeps_sim n : forall h1 h2 t x,
    orel (fun a b => fst a = fst b) (substeps kern n h1 t x) (substeps kern n h2 t x).
  Proof.
    induction n as [|n IH]; intros h1 h2 t x; simpl; destruct (nltb A (small A) t); simpl; auto.
    eapply orel_bind; [apply ML|]. intros [x1 k1] [x2 k2] E; simpl in E; subst. apply IH.
  Qed.

  Lemma single_sim tm1 tm2 e1 e2 p1 p2 : peq p1 p2 ->
    orel (fun a b => speq (fst a) (fst b)) (single kern fuel cfg tm1 e1 p1)
         (single kern fuel cfg tm2 e2 p2).
  Proof.
    intros (E1 & E2 & E3 & E4 & E5 & E6 & E7). unfold single, solveSingle.
    rewrite <- E1, <- E2, <- E3, <- E4, <- E5, <- E6, <- E7.
    destruct e1 as [h1 n1], e2 as [h2 n2]. cbn [fst snd].
    generalize (substeps_sim fuel h1 h2 (p_deltaT p1)
      (mkCell (p_p p1) (p_T p1) (p_c p1) (p_deltaT p1) (p_deltaTChem p1))).
    destruct (substeps kern fuel h1 _ _) as [[x1 k1]| | |];
      destruct (substeps kern fuel h2 _ _) as [[x2 k2]| | |]; simpl; try contradiction; auto.
    intros <-. destruct (rates (k_c x1) (p_c p1) (p_rho p1) (p_deltaT p1)); simpl; auto.
    repeat split.
  Qed.

  Lemma singles_sim tm1 tm2 ps1 ps2 : Forall2 peq ps1 ps2 -> forall e1 e2,
    orel (fun a b => Forall2 speq (fst a) (fst b)) (mapS (single kern fuel cfg tm1) e1 ps1)
         (mapS (single kern fuel cfg tm2) e2 ps2).
  Proof.
    intros F e1 e2. eapply orel_mono; [|eapply (orel_mapS (fun _ _ => True)); eauto].
    - intros x y [Hx _]. exact Hx.
    - intros. eapply orel_mono; [|apply single_sim; eauto]. auto.
  Qed.

  Lemma updateReactionRate_sim s1 s2 i m1 m2 : speq s1 s2 -> sim m1 m2 ->
    orel sim (updateReactionRate cfg s1 i m1) (updateReactionRate cfg s2 i m2).
  Proof.
    intros (E1 & E2 & E3 & E4) (M1 & M2 & M3 & M4). unfold updateReactionRate.
    rewrite <- E1, <- E2, <- M1, <- M2.
    eapply orel_bind; [apply orel_eq|]. intros RR ? <-.
    eapply orel_bind; [apply orel_eq|]. intros dtc ? <-. simpl. repeat split; auto.
  Qed.

  Lemma set_cpu_sim (m1 m2 : mstate A) i t1 t2 : sim m1 m2 -> orel sim (set_cpu m1 i t1) (set_cpu m2 i t2).
  Proof.
    intros (M1 & M2 & M3 & M4). unfold set_cpu.
    eapply (orel_bind (fun a b => length a = length b)).
    - apply setidx_orel; auto. intros _. rewrite !upd_length. auto.
    - intros. simpl. repeat split; auto.
  Qed.

  Lemma set_ref_sim (m1 m2 : mstate A) i k : sim m1 m2 -> orel sim (set_ref m1 i k) (set_ref m2 i k).
  Proof.
    intros (M1 & M2 & M3 & M4). unfold set_ref. rewrite <- M3.
    eapply orel_bind; [apply orel_eq|]. intros ? ? <-. simpl. repeat split; auto.
  Qed.

  Lemma updateReactionRates_sim m1 m2 i1 i2 : sim m1 m2 -> Forall2 speq (concat i1) (concat i2) ->
    orel (fun a b => fst a = fst b /\ sim (snd a) (snd b))
         (updateReactionRates cfg m1 i1) (updateReactionRates cfg m2 i2).
  Proof.
    intros Hm F. unfold updateReactionRates. eapply orel_foldM; [|exact F|simpl; auto].
    intros [t1 s1] [t2 s2] x y [Et Es] Hxy; simpl in Et, Es; subst t2.
    assert (X := Hxy). destruct X as (E1 & E2 & E3 & E4). rewrite <- E2, <- E3.
    eapply orel_bind; [apply updateReactionRate_sim; eauto|]. intros a b Hab.
    eapply orel_bind; [apply set_cpu_sim; eauto|]. intros. simpl. auto.
  Qed.

  Lemma u_read_sim u1 u2 : upeq u1 u2 -> orel peq (u_read u1) (u_read (A := A) u2).
  Proof.
    intros (E1 & E2 & E3 & E4 & E5 & E6 & E7 & E8). unfold u_read.
    rewrite <- E1, <- E2, <- E3, <- E4, <- E5, <- E6, <- E7.
    do 6 (eapply orel_bind; [apply orel_eq|]; intros ? ? <-).
    eapply (orel_bind (fun _ _ => True)).
    - destruct (u_cpuTime u1), (u_cpuTime u2); simpl; auto; destruct E8 as [A1 A2];
        [now discriminate A2|now discriminate A1].
    - intros ? ? _. eapply orel_bind; [apply orel_eq|]; intros ? ? <-. simpl. repeat split.
  Qed.

  Lemma idx_len_orel {T} (l1 l2 : list T) i : length l1 = length l2 ->
    orel (fun _ _ => True) (idx l1 i) (idx l2 i).
  Proof.
    intros L. unfold idx. destruct (nth_error l1 i) eqn:E1, (nth_error l2 i) eqn:E2; simpl; auto.
    - apply nth_error_None in E2. assert (i < length l1) by (apply nth_error_Some; congruence). lia.
    - apply nth_error_None in E1. assert (i < length l2) by (apply nth_error_Some; congruence). lia.
  Qed.

  Lemma cell_problem_sim F d m1 m2 i : sim m1 m2 ->
    orel upeq (cell_problem cfg F d m1 i) (cell_problem cfg F d m2 i).
  Proof.
    intros (M1 & M2 & M3 & M4). unfold cell_problem. rewrite <- M2.
    do 6 (eapply orel_bind; [apply orel_eq|]; intros ? ? <-).
    eapply orel_bind; [apply idx_len_orel; exact M4|]. intros ? ? _. simpl.
    repeat split; simpl; auto; discriminate.
  Qed.

  Definition lsim (a b : lists (A := A) * mstate A) : Prop :=
    Forall2 upeq (l_solved (fst a)) (l_solved (fst b)) /\
    Forall2 upeq (l_mapped (fst a)) (l_mapped (fst b)) /\
    l_counter (fst a) = l_counter (fst b) /\ sim (snd a) (snd b).

  Lemma cell_step_sim F d a b i : lsim a b -> orel lsim (cell_step cfg F d a i) (cell_step cfg F d b i).
  Proof.
    destruct a as [l1 m1], b as [l2 m2]. intros (L1 & L2 & L3 & L4); simpl in *.
    unfold cell_step. eapply orel_bind; [apply cell_problem_sim; eauto|].
    intros u1 u2 Hu. assert (X := Hu). destruct X as (E1 & _). rewrite <- E1.
    eapply orel_bind; [apply orel_eq|]. intros Y ? <-.
    eapply orel_bind; [apply orel_eq|]. intros b ? <-. destruct b.
    - eapply orel_bind; [apply set_ref_sim; eauto|]. intros. simpl. unfold lsim; simpl.
      repeat split; auto. apply Forall2_app; auto. all: try apply H0.
    - rewrite <- L3.
      eapply (orel_bind (Forall2 upeq)).
      + apply setidx_orel; [eapply Forall2_len; eauto|]. intros _. apply Forall2_upd; auto.
      + intros x y Hxy. eapply orel_bind; [apply set_ref_sim; eauto|]. intros. simpl.
        unfold lsim; simpl. repeat split; auto. all: apply H0.
  Qed.

  Lemma map_step_sim s1 s2 T a b u1 u2 : speq s1 s2 -> upeq u1 u2 ->
    Forall2 upeq (fst a) (fst b) /\ sim (snd a) (snd b) ->
    orel (fun a b => Forall2 upeq (fst a) (fst b) /\ sim (snd a) (snd b))
      (map_step cfg s1 T a u1) (map_step cfg s2 T b u2).
  Proof.
    intros Hs Hu. assert (X := Hu). destruct X as (E1 & E2 & E3 & E4 & E5 & E6 & E7 & E8).
    destruct a as [l1 m1], b as [l2 m2]; simpl. intros [L M].
    unfold map_step. rewrite <- E2, <- E7.
    eapply orel_bind; [apply orel_eq|]. intros Ti ? <-.
    eapply orel_bind; [apply orel_eq|]. intros cell ? <-.
    destruct (temperatureWithinRange (g_mapper cfg) Ti T).
    - eapply orel_bind; [apply updateReactionRate_sim; eauto|]. intros x y Hxy.
      eapply orel_bind; [apply set_cpu_sim; eauto|]. intros. simpl. auto.
    - eapply orel_bind; [apply set_ref_sim; eauto|]. intros. simpl. split; auto.
      apply Forall2_app; auto.
  Qed.

  Definition gsim (a b : list (problem A) * mstate A * (H * nat)) : Prop :=
    Forall2 peq (fst (fst a)) (fst (fst b)) /\ sim (snd (fst a)) (snd (fst b)).

  Lemma solveSingle_single tm e p :
    (let* (us, e') := solveSingle kern fuel cfg tm e p (us_sized (g_nSpecie cfg)) in
     let* s := us_read us in Ok (s, e')) = single kern fuel cfg tm e p.
  Proof. reflexivity. Qed.

  Lemma map_cells_eq tm e u0 mapped solved m :
    map_cells kern fuel cfg tm e (u0 :: mapped) solved m =
    (let* refProblem := u_read u0 in
     let* (refSolution, e') := single kern fuel cfg tm e refProblem in
     let* m1 := set_ref m (p_cellid refProblem) 0 in
     let* (solved', m2) := foldM (map_step cfg refSolution (p_T refProblem)) (solved, m1)
                             (u0 :: mapped) in
     Ok (solved', m2, e')).
  Proof.
    unfold map_cells, single. destruct (u_read u0) as [p| | |]; simpl; auto.
    destruct (solveSingle kern fuel cfg tm e p (us_sized (g_nSpecie cfg))) as [[us e']| | |]; simpl; auto.
    destruct (us_read us); simpl; auto.
  Qed.

  Lemma getProblems_sim dbg tm1 tm2 e1 e2 F d m1 m2 : sim m1 m2 ->
    orel gsim (getProblems kern fuel cfg dbg tm1 e1 F d m1) (getProblems kern fuel cfg dbg tm2 e2 F d m2).
  Proof.
    intros M. unfold getProblems.
    eapply (orel_bind lsim).
    - eapply (orel_foldM lsim eq); [|apply Forall2_same; auto|].
      + intros s t x y Hst <-. apply cell_step_sim; auto.
      + unfold lsim; simpl. repeat split; auto; try apply M.
        apply Forall2_same. intros u Hu. apply repeat_spec in Hu. subst.
        repeat split; auto.
    - intros [l1 s1] [l2 s2] (L1 & L2 & L3 & L4); simpl in *. rewrite <- L3.
      rewrite (Forall2_len _ _ _ (Forall2_firstn _ _ _ (l_counter l1) L1)), (Forall2_len _ _ _ L2).
      eapply orel_bind; [apply orel_eq|]. intros [] [] _.
      eapply (orel_bind (fun a b => Forall2 upeq (fst (fst a)) (fst (fst b)) /\
                                    sim (snd (fst a)) (snd (fst b)))).
      + destruct L2 as [|u1 u2 r1 r2 Hu L2].
        * simpl. split; auto. apply Forall2_firstn; auto.
        * rewrite !map_cells_eq. eapply orel_bind; [apply u_read_sim; eauto|].
          intros p1 p2 Hp. assert (X := Hp). destruct X as (_ & ET & _ & _ & _ & _ & EC).
          rewrite <- ET, <- EC. eapply orel_bind; [apply single_sim; eauto|].
          intros [x1 f1] [x2 f2] Hx; simpl in Hx.
          eapply orel_bind; [apply set_ref_sim; eauto|]. intros y1 y2 Hy.
          eapply (orel_bind (fun a b => Forall2 upeq (fst a) (fst b) /\ sim (snd a) (snd b))).
          -- eapply (orel_foldM _ upeq); [|constructor; eauto|].
             ++ intros. apply map_step_sim; auto.
             ++ simpl. split; auto. apply Forall2_firstn; auto.
          -- intros [] [] [? ?]; simpl in *. auto.
      + intros [[us1 n1] f1] [[us2 n2] f2] [Hus Hn]; simpl in *.
        eapply orel_bind; [eapply orel_mapM; [exact Hus|apply u_read_sim]|].
        intros. simpl. split; auto.
  Qed.
End Sim.
