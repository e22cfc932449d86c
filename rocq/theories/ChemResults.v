(** The results of a call of solve() in terms of cells, ready for the property theorems. *)
From Coq Require Import List Arith Bool ZArith QArith Qround Lia Lqa Permutation.
From Verif Require Import Outcome Arith Problem LoadBalancing BalancerSpec PlanFacts
  BalancerProofs Streams StreamFacts Comm CommFacts BalanceFacts MixtureFraction ChemistryModel
  ChemFacts ChemSim ChemBalance WorkFacts ChemTransparent ChemCells ChemStep ChemSafe.
Import ListNotations.
Local Open Scope nat_scope.

(** ** Vocabulary *)

(** Cell [i] is to take over the solution of cell [i0]: [i0] is the first cell whose mixture
    fraction is below the tolerance, [i] is such a cell too, and its temperature is within
    range of that of [i0]. *)
Definition mapped {A} (mp : mapper A) (F : fields A) (i0 i : nat) : Prop :=
  reference mp F i0 /\ candidate mp F i /\ near mp F i i0.

(** The species mass fractions, time step, ... of cell [i] were integrated; [s] is the result
    and the cell now holds it, with label [k]. *)
Definition holds {A} (m : mstate A) (i : nat) (s : solution A) (k : nat) : Prop :=
  cell_is m i (s_rr s) (s_deltaTChem s) (s_cpuTime s) k.

Section Results.
  Context {A : Arith} {H : Type}.
  Variable kern : H -> kcell A -> outcome (kcell A * H).
  Variable fuel : nat.
  Variable cfg : config A.
  Notation ns := (g_nSpecie cfg).
  Notation mp := (g_mapper cfg).

  Lemma mapper_ok_new act tol dT sp (m : mapper A) :
    newMapper act tol dT sp = Ok m -> mapper_ok (length sp) m.
  Proof.
    unfold newMapper. destruct (or_default act false) eqn:Ea; intros E.
    - apply bind_ok in E as (mf & E1 & E). inversion E; subst. intros _. simpl.
      unfold initialize in E1. apply bind_ok in E1 as (al & E1 & E2).
      apply mapM_length in E1. destruct (_ || _); [discriminate|]. inversion E2; subst. simpl. lia.
    - inversion E; subst. intros C. discriminate.
  Qed.

  Section Mesh.
    Variables (n : nat) (F : fields A) (d : deltaT A) (m : mstate A).
    Hypothesis SF : shapeF ns n F d.
    Hypothesis SM : shapeM ns n m.
    Hypothesis MO : mapper_ok ns mp.

    Lemma served_mapped i0 i : i < n ->
      (ref_cell cfg n F = Some i0 /\ served cfg F i0 i <-> mapped mp F i0 i).
    Proof.
      intros Hi. assert (R := ref_cell_spec cfg n F). split.
      - intros [E [S1 S2]]. rewrite E in R. destruct R as (R1 & R2 & R3). split; [|split].
        + apply (ref_reference cfg n F d SF MO); auto.
        + apply (low_candidate cfg n F d SF MO); auto.
        + apply (hot_near cfg n F d SF); auto.
      - intros (M1 & M2 & M3).
        assert (Hi0 : i0 < n).
        { destruct M1 as [_ M1]. destruct (Nat.lt_ge_cases i i0) as [L|L]; [|lia].
          exfalso. apply (M1 i L). auto. }
        split; [apply (ref_reference cfg n F d SF MO); auto|]. split.
        + apply (low_candidate cfg n F d SF MO); auto.
        + apply (hot_near cfg n F d SF); auto.
    Qed.

    Lemma mapped_fun i i0 i1 : mapped mp F i0 i -> mapped mp F i1 i -> i0 = i1.
    Proof.
      intros ((A1 & A2) & _) ((B1 & B2) & _).
      destruct (Nat.lt_trichotomy i0 i1) as [L|[L|L]]; auto; exfalso.
      - apply (B2 i0 L A1).
      - apply (A2 i1 L B1).
    Qed.

    Lemma cells_unmapped i : i < n ->
      (In i (cells_for cfg n F (ref_cell cfg n F)) <-> forall i0, ~ mapped mp F i0 i).
    Proof.
      intros Hi. rewrite (cells_in cfg n F i Hi). split.
      - intros C i0 M. apply (served_mapped i0 i Hi) in M as [E S]. rewrite E in C. auto.
      - intros C. destruct (ref_cell cfg n F) as [i0|] eqn:E; auto. intros S.
        apply (C i0). apply (served_mapped i0 i Hi). auto.
    Qed.

    Lemma prob_ids cells : map p_cellid (map (prob F d m) cells) = cells.
    Proof. rewrite map_map. apply map_id. Qed.

    Lemma get_lemma dbg tm e ps m' e' :
      getProblems kern fuel cfg dbg tm e F d m = Ok (ps, m', e') ->
      NoDup (map p_cellid ps) /\
      (forall p, In p ps -> p_cellid p < n /\ problem_of F d m (p_cellid p) p) /\
      forall i, i < n ->
        (In i (map p_cellid ps) <-> forall i0, ~ mapped mp F i0 i) /\
        (nth_error (m_ref m') i = Some 2 <-> In i (map p_cellid ps)) /\
        (nth_error (m_ref m') i = Some 0 <-> mapped mp F i i) /\
        (nth_error (m_ref m') i = Some 1 <-> exists i0, i0 <> i /\ mapped mp F i0 i).
    Proof.
      intros E. destruct (getProblems_ok kern fuel cfg n F d m SF SM MO _ _ _ _ _ _ E) as (G1 & G2 & G3 & G4).
      subst ps. rewrite prob_ids. split; [apply cells_NoDup|]. split.
      - intros p Hp. apply in_map_iff in Hp as (i & <- & Hi). cbn [p_cellid prob].
        apply (cells_lt cfg n F) in Hi as L. split; auto.
        apply (problem_of_prob cfg n F d m SF SM); auto.
      - intros i Hi. assert (CU := cells_unmapped i Hi). split; auto.
        destruct (in_dec Nat.eq_dec i (cells_for cfg n F (ref_cell cfg n F))) as [Hin|Hout].
        + destruct (cell_exists cfg n m i SM Hi) as (rr & dtc & cpu & ref & C & _).
          assert (C' := G4 _ _ _ _ _ Hin C).
          assert (Un := proj1 CU Hin).
          destruct C' as (_ & _ & _ & C'). rewrite C'. split; [tauto|]. split.
          * split; [discriminate|]. intros M. exfalso. eapply Un; eauto.
          * split; [discriminate|]. intros (i0 & _ & M). exfalso. eapply Un; eauto.
        + assert (X : exists i0, ref_cell cfg n F = Some i0 /\ served cfg F i0 i).
          { assert (CI := cells_in cfg n F i Hi). destruct (ref_cell cfg n F) as [i0|].
            - exists i0. split; auto. unfold served in *.
              destruct (low cfg F i), (hot cfg F i0 i); tauto || (exfalso; apply Hout; apply CI; intuition congruence).
            - exfalso. apply Hout. apply CI. auto. }
          destruct X as (i0 & Er & Sv). rewrite Er in G3. destruct G3 as (s & _ & G3).
          destruct (G3 i Hi Sv) as (_ & _ & _ & C'). rewrite C'.
          assert (M : mapped mp F i0 i) by (apply served_mapped; auto).
          split; [destruct (i =? i0); split; try discriminate; tauto|].
          destruct (Nat.eqb_spec i i0) as [->|N].
          * split; [tauto|]. split; [discriminate|]. intros (i1 & N & M1). exfalso. apply N.
            eapply mapped_fun; eauto.
          * split; [split; [discriminate|]; intros M1; exfalso; apply N; eapply mapped_fun; eauto|].
            split; eauto.
    Qed.

    Lemma get_inactive dbg tm e : mp_active mp = false ->
      exists ps m', getProblems kern fuel cfg dbg tm e F d m = Ok (ps, m', e) /\
        map p_cellid ps = seq 0 n /\ m_RR m' = m_RR m /\ m_dtc m' = m_dtc m /\ m_cpu m' = m_cpu m /\
        m_ref m' = repeat 2 n.
    Proof.
      intros Ha.
      assert (Lo : forall i, low cfg F i = false).
      { intros i. unfold low, shouldMap. rewrite Ha. auto. }
      assert (Em : mapped_upto cfg F n = []).
      { unfold mapped_upto. apply filter_none. intros; apply Lo. }
      rewrite (getProblems_eq kern fuel cfg n F d m SF SM MO), Em.
      do 2 eexists. split; [reflexivity|]. rewrite prob_ids. split.
      { unfold solved_upto. rewrite <- (map_id (seq 0 n)) at 2.
        generalize (seq 0 n) as l. induction l as [|a l IH]; simpl; auto. rewrite Lo. simpl. f_equal; auto. }
      unfold labelled. cbn [m_RR m_dtc m_cpu m_ref]. split; [auto|]. split; [auto|]. split; [auto|].
      rewrite (map_ext _ (fun _ => 2)) by (intros i; rewrite Lo; auto).
      assert (G : forall k l, map (fun _ : nat => 2) (seq k l) = repeat 2 l).
      { intros k l. revert k. induction l; intros k; simpl; auto. f_equal. auto. }
      apply G.
    Qed.
  End Mesh.

  (** ** A whole call *)
  Section Call.
    Variables (dbg par : bool) (sortf : list (load A) -> list (load A)) (tms : nat -> nat -> num A).
    Variables (ranks : list (rankin A H)) (outs : list (rankout A H)).
    Hypothesis Hch : g_chem cfg = true.
    Hypothesis MO : mapper_ok ns mp.
    Hypothesis Hs : sort_contract sortf.
    Hypothesis Hpar : par = true \/ length ranks <= 1.
    Hypothesis E : solve_all kern fuel cfg dbg par sortf tms ranks = Ok outs.
    Variables (q : nat) (r : rankin A H) (o : rankout A H) (n : nat).
    Hypothesis Hr : nth_error ranks q = Some r.
    Hypothesis Ho : nth_error outs q = Some o.
    Hypothesis HM : meshed ns n r.
    Notation F := (r_fields r).
    Notation d := (r_dt r).
    Notation m := (r_state r).

    Lemma done : rank_done kern fuel cfg tms q r o.
    Proof.
      assert (D := call_done kern fuel cfg dbg par sortf tms ranks outs Hch MO Hs Hpar E).
      assert (Hen : nth_error (enum ranks) q = Some (q, r)) by (rewrite nth_error_enum, Hr; auto).
      destruct (Forall2_nth_error _ _ _ D q _ Hen) as (o' & Ho' & D'). simpl in D'. rewrite Ho in Ho'. inversion Ho'; subst. exact D'.
    Qed.

    Lemma stored_twice p s : integrated kern cfg tms p s ->
      foam_min A (s_deltaTChem s) (g_dtcMax cfg) = s_deltaTChem s.
    Proof. intros (? & ? & ? & ? & ? & ? & _ & _ & _ & -> & _). apply foam_min_twice. Qed.

    Lemma cells_result :
      exists ss, o_dtmin o = fold_left (fun t s => foam_min A (s_deltaTChem s) t) ss (great A) /\
        Forall2 (fun i s => i < n /\ (forall i0, ~ mapped mp F i0 i) /\
                  integrated kern cfg tms (prob F d m i) s /\ holds (o_state o) i s 2)
          (cells_for cfg n F (ref_cell cfg n F)) ss.
    Proof.
      destruct (done n HM) as (D1 & (ss & D2 & D3 & D4) & D5). exists ss. split; auto.
      assert (L := Forall2_len _ _ _ D2). rewrite map_length in L.
      destruct HM as [SF SM].
      apply Forall2_index; auto. intros k i s Hk Hsk.
      assert (Hin : In i (cells_for cfg n F (ref_cell cfg n F))) by (eapply nth_error_In; eauto).
      assert (Hi : i < n) by (eapply (cells_lt cfg n F); eauto).
      destruct (Forall2_nth_error_r _ _ _ D2 k _ Hsk) as (p & Hp & Sp).
      rewrite nth_error_map, Hk in Hp. simpl in Hp. inversion Hp; subst p.
      assert (I := sol_integrated kern fuel cfg tms _ _ Sp).
      split; auto. split; [apply (cells_unmapped n F d SF MO); auto|]. split; auto.
      unfold holds. specialize (D4 k i s Hk Hsk). rewrite (stored_twice _ _ I) in D4. auto.
    Qed.

    (** Cells that are not mapped are solved individually. *)
    Lemma solved_cell i : i < n -> (forall i0, ~ mapped mp F i0 i) ->
      exists p s, problem_of F d m i p /\ integrated kern cfg tms p s /\ holds (o_state o) i s 2.
    Proof.
      intros Hi Un. destruct HM as [SF SM].
      apply (cells_unmapped n F d SF MO) in Un; auto.
      destruct cells_result as (ss & _ & D). apply In_nth_error in Un as (k & Hk).
      destruct (Forall2_nth_error _ _ _ D k _ Hk) as (s & _ & _ & _ & I & Hh).
      exists (prob F d m i), s. split; auto. apply (problem_of_prob cfg n F d m SF SM); auto.
    Qed.

    (** Mapped cells get the solution of the reference cell. *)
    Lemma mapped_cells i0 : i0 < n -> reference mp F i0 ->
      exists p s, problem_of F d m i0 p /\ integrated kern cfg tms p s /\
        forall i, i < n -> mapped mp F i0 i -> holds (o_state o) i s (if i =? i0 then 0 else 1).
    Proof.
      intros Hi0 R. destruct (done n HM) as (D1 & _ & D5). destruct HM as [SF SM].
      apply (ref_reference cfg n F d SF MO) in R; auto. rewrite R in D5.
      destruct D5 as (s & e' & Es & D5).
      assert (I : integrated kern cfg tms (prob F d m i0) s).
      { apply (sol_integrated kern fuel). do 3 eexists. exact Es. }
      exists (prob F d m i0), s. split; [apply (problem_of_prob cfg n F d m SF SM); auto|].
      split; auto. intros i Hi M. apply (served_mapped n F d SF MO) in M as [_ Sv]; auto.
      unfold holds. specialize (D5 i Hi Sv). rewrite (stored_twice _ _ I) in D5. auto.
    Qed.

    Lemma mapped_dec i : i < n -> (exists i0, i0 < n /\ mapped mp F i0 i) \/ (forall i0, ~ mapped mp F i0 i).
    Proof.
      intros Hi. destruct HM as [SF SM].
      destruct (in_dec Nat.eq_dec i (cells_for cfg n F (ref_cell cfg n F))) as [Hin|Hout].
      - right. apply (cells_unmapped n F d SF MO); auto.
      - left. assert (CI := cells_in cfg n F i Hi). assert (R := ref_cell_spec cfg n F).
        destruct (ref_cell cfg n F) as [i0|] eqn:Er; [|exfalso; apply Hout; apply CI; auto].
        exists i0. split; [tauto|]. apply (served_mapped n F d SF MO); auto. split; auto.
        unfold served in *. destruct (low cfg F i), (hot cfg F i0 i); auto;
          exfalso; apply Hout; apply CI; intuition congruence.
    Qed.

    (** Every cell holds a solution computed in this call. *)
    Lemma every_cell i : i < n ->
      exists j p s k, j < n /\ problem_of F d m j p /\ integrated kern cfg tms p s /\
        holds (o_state o) i s k /\
        ((k = 2 /\ j = i /\ forall i0, ~ mapped mp F i0 i) \/
         (k = 0 /\ j = i /\ mapped mp F i i) \/ (k = 1 /\ j <> i /\ mapped mp F j i)).
    Proof.
      intros Hi. destruct (mapped_dec i Hi) as [(i0 & Hi0 & M)|Un].
      - destruct (mapped_cells i0 Hi0) as (p & s & P1 & P2 & P3); [apply M|].
        exists i0, p, s, (if i =? i0 then 0 else 1). repeat (split; auto); try apply P3; auto.
        destruct (Nat.eqb_spec i i0); subst; auto 6.
      - destruct (solved_cell i Hi Un) as (p & s & P1 & P2 & P3).
        exists i, p, s, 2. auto 8.
    Qed.

    Lemma shape_out : shapeM ns n (o_state o).
    Proof. apply (done n HM). Qed.

    Lemma labels i : i < n ->
      (nth_error (m_ref (o_state o)) i = Some 2 <-> forall i0, ~ mapped mp F i0 i) /\
      (nth_error (m_ref (o_state o)) i = Some 0 <-> mapped mp F i i) /\
      (nth_error (m_ref (o_state o)) i = Some 1 <-> exists i0, i0 <> i /\ mapped mp F i0 i).
    Proof.
      intros Hi. destruct (every_cell i Hi) as (j & p & s & k & _ & _ & _ & (_ & _ & _ & Hk) & C).
      rewrite Hk. destruct C as [(-> & -> & C)|[(-> & -> & C)|(-> & N & C)]].
      - split; [tauto|]. split.
        + split; [discriminate|]. intros M. exfalso. eapply C; eauto.
        + split; [discriminate|]. intros (i1 & _ & M). exfalso. eapply C; eauto.
      - split; [split; [discriminate|intros X; exfalso; eapply X; eauto]|]. split; [tauto|].
        split; [discriminate|]. intros (i1 & N & M). exfalso. apply N.
        eapply (mapped_fun); eauto.
      - split; [split; [discriminate|intros X; exfalso; eapply X; eauto]|].
        split; [|split; eauto]. split; [discriminate|]. intros M. exfalso. apply N.
        eapply (mapped_fun); eauto.
    Qed.

    (** The returned time step. *)
    Lemma dtmin_attained :
      o_dtmin o = great A \/
      exists i, i < n /\ nth_error (m_ref (o_state o)) i = Some 2 /\
        nth_error (m_dtc (o_state o)) i = Some (o_dtmin o).
    Proof.
      destruct cells_result as (ss & Ed & D). rewrite Ed.
      assert (G : forall l t, fold_left (fun t s => foam_min A (s_deltaTChem s) t) l t = t \/
                  exists s, In s l /\ fold_left (fun t s => foam_min A (s_deltaTChem s) t) l t = s_deltaTChem s).
      { induction l as [|s l IH]; intros t; simpl; auto.
        destruct (IH (foam_min A (s_deltaTChem s) t)) as [G|(x & G1 & G2)]; eauto.
        rewrite G. unfold foam_min. destruct (nltb A (s_deltaTChem s) t); eauto. }
      destruct (G ss (great A)) as [G'|(s & G1 & G2)]; auto. right. rewrite G2.
      apply In_nth_error in G1 as (k & Hk).
      destruct (Forall2_nth_error_r _ _ _ D k _ Hk) as (i & _ & Hi & _ & _ & (_ & C2 & _ & C4)).
      exists i. auto.
    Qed.

    Lemma no_solved : (forall i, i < n -> nth_error (m_ref (o_state o)) i <> Some 2) -> o_dtmin o = great A.
    Proof.
      intros No. destruct dtmin_attained as [|(i & Hi & L & _)]; auto. exfalso. eapply No; eauto.
    Qed.

    Lemma capped i : i < n -> exists x, nth_error (m_dtc (o_state o)) i = Some x /\
      (x = g_dtcMax cfg \/ nltb A x (g_dtcMax cfg) = true).
    Proof.
      intros Hi. destruct (every_cell i Hi) as (j & p & s & k & _ & _ & I & (_ & C2 & _ & _) & _).
      destruct I as (? & ? & ? & ? & x & ? & _ & _ & _ & I & _). exists (s_deltaTChem s). split; auto.
      rewrite I. unfold foam_min. destruct (nltb A (k_sub x) (g_dtcMax cfg)) eqn:El; auto.
    Qed.
  End Call.
End Results.

(** ** Exact arithmetic *)
Section Exact.
  Variables sm gr vg : Q.
  Notation AQ := (QA sm gr vg).
  Context {H : Type}.
  Variable kern : H -> kcell AQ -> outcome (kcell AQ * H).
  Variable fuel : nat.
  Variable cfg : config AQ.

  Lemma foam_min_Q (a b : Q) : (foam_min AQ a b <= a)%Q /\ (foam_min AQ a b <= b)%Q.
  Proof.
    unfold foam_min. destruct (nltb AQ a b) eqn:E.
    - apply Qltb_true in E. split; [apply Qle_refl|apply Qlt_le_weak; auto].
    - apply Qltb_false in E. split; [auto|apply Qle_refl].
  Qed.

  Lemma fold_min_le (ss : list (solution AQ)) : forall t : Q,
    (fold_left (fun t s => foam_min AQ (s_deltaTChem s) t) ss t <= t)%Q /\
    forall s, In s ss -> (fold_left (fun t s => foam_min AQ (s_deltaTChem s) t) ss t <= s_deltaTChem s)%Q.
  Proof.
    induction ss as [|x ss IH]; intros t; simpl.
    - split; [apply Qle_refl|contradiction].
    - destruct (IH (foam_min AQ (s_deltaTChem x) t)) as [I1 I2].
      destruct (foam_min_Q (s_deltaTChem x) t) as [M1 M2]. split; [eapply Qle_trans; eauto|].
      intros s [<-|Hin]; auto. eapply Qle_trans; eauto.
  Qed.

  Lemma dtmin_lower dbg par sortf tms ranks outs q r o n i (x : Q) :
    g_chem cfg = true -> mapper_ok (g_nSpecie cfg) (g_mapper cfg) -> sort_contract sortf ->
    par = true \/ length ranks <= 1 ->
    solve_all kern fuel cfg dbg par sortf tms ranks = Ok outs ->
    nth_error ranks q = Some r -> nth_error outs q = Some o -> meshed (g_nSpecie cfg) n r ->
    (o_dtmin o <= gr)%Q /\
    (i < n -> nth_error (m_ref (o_state o)) i = Some 2 ->
     nth_error (m_dtc (o_state o)) i = Some x -> (o_dtmin o <= x)%Q).
  Proof.
    intros Hch MO Hs Hpar E Hr Ho HM.
    destruct (cells_result kern fuel cfg dbg par sortf tms ranks outs Hch MO Hs Hpar E q r o n Hr Ho HM)
      as (ss & Ed & D).
    destruct (fold_min_le ss gr) as [F1 F2]. change (great AQ) with gr in Ed. rewrite Ed. split; auto.
    intros Hi Hl Hx.
    pose proof (proj1 (proj1 (labels kern fuel cfg dbg par sortf tms ranks outs Hch MO Hs Hpar E q r o n Hr Ho HM i Hi)) Hl) as Un.
    destruct HM as [SF SM]. apply (cells_unmapped cfg n _ _ SF MO) in Un; auto.
    apply In_nth_error in Un as (k & Hk).
    destruct (Forall2_nth_error _ _ _ D k _ Hk) as (s & Hsk & _ & _ & _ & (_ & C2 & _)).
    rewrite Hx in C2. inversion C2; subst x. apply F2. eapply nth_error_In; eauto.
  Qed.

  (** *** Sub-stepping *)

  (** If every call consumes at least [delta] the loop ends within [t/delta + 1] rounds. *)
  Lemma substeps_ends (delta : Q) : (0 <= sm)%Q -> (0 < delta)%Q ->
    (forall h x, exists x' h', kern h x = Ok (x', h') /\ (delta <= k_dt x')%Q) ->
    forall n h (t : Q) x, (t <= inject_Z (Z.of_nat n) * delta)%Q ->
      exists x' h', substeps kern n h t x = Ok (x', h').
  Proof.
    intros Hsm Hd K. induction n as [|n IH]; intros h t x Ht; simpl.
    - replace (Qltb sm t) with false; eauto. symmetry. apply Qltb_false.
      change (inject_Z (Z.of_nat 0)) with 0%Q in Ht. change (t <= 0 * delta)%Q in Ht. lra.
    - destruct (Qltb sm t); eauto.
      destruct (K h (mkCell (A := AQ) (k_p x) (k_T x) (k_c x) t (k_sub x))) as (x' & h' & E & Hk).
      rewrite E. cbn [bind]. apply IH. change (t - k_dt x' <= inject_Z (Z.of_nat n) * delta)%Q.
      rewrite Nat2Z.inj_succ in Ht. unfold Z.succ in Ht. rewrite inject_Z_plus in Ht.
      change (inject_Z 1) with 1%Q in Ht. set (N := inject_Z (Z.of_nat n)) in *.
      change (t <= (N + 1) * delta)%Q in Ht. change (delta <= k_dt x')%Q in Hk. lra.
  Qed.
End Exact.

(** A solver that consumes the whole step is called once if there is any time. *)
Lemma calls_whole {A : Arith} {H : Type} (kern : H -> kcell A -> outcome (kcell A * H)) h t x l x' h' :
  (forall s, nltb A (small A) s = true -> nltb A (small A) (nsub A s s) = false) ->
  (forall h x x1 h1, kern h x = Ok (x1, h1) -> k_dt x1 = k_dt x) ->
  calls kern h t x l x' h' ->
  l = if nltb A (small A) t then [t] else [].
Proof.
  intros HA K C. inversion C; subst.
  - rewrite H0. auto.
  - rewrite H0. apply K in H1. simpl in H1. rewrite H1 in *.
    inversion H2; subst; auto. rewrite HA in H3 by auto. discriminate.
Qed.

(** ** Remaining facts used by the property theorems *)
Section Final.
  Context {A : Arith} {H : Type}.
  Variable kern : H -> kcell A -> outcome (kcell A * H).
  Variable fuel : nat.

  Lemma ok_plans cfg dbg par sortf tms ranks outs :
    solve_all kern fuel cfg dbg par sortf tms ranks = Ok outs ->
    g_chem cfg = true -> g_active cfg = true -> forall got,
      phase_get kern fuel cfg dbg tms ranks = Ok got ->
      exists sts, updateState dbg sortf (map (fun '(ps, _, _) => ps) got) = Ok sts.
  Proof.
    intros E Hc Ha got Eg. unfold solve_all in E. rewrite Hc, Ha in E. cbn [negb] in E. rewrite Eg in E.
    cbn [bind] in E. apply bind_ok in E as (sv & E & _). unfold solve_balanced in E. cbv zeta in E.
    apply bind_ok in E as (sts & E & _). eauto.
  Qed.

  Lemma same_lemma cfg dbg b1 b2 par1 par2 sortf1 sortf2 tms1 tms2 ranks1 ranks2 outs1 outs2 :
    memoryless kern -> Forall2 same_inputs ranks1 ranks2 ->
    sort_contract sortf1 -> sort_contract sortf2 ->
    par1 = true \/ length ranks1 <= 1 -> par2 = true \/ length ranks2 <= 1 ->
    solve_all kern fuel (with_active cfg b1) dbg par1 sortf1 tms1 ranks1 = Ok outs1 ->
    solve_all kern fuel (with_active cfg b2) dbg par2 sortf2 tms2 ranks2 = Ok outs2 ->
    Forall2 same_results outs1 outs2.
  Proof.
    intros ML HR Hs1 Hs2 P1 P2 E1 E2.
    destruct (one_step kern fuel ML cfg b1 b2 dbg par1 par2 sortf1 sortf2 tms1 tms2 ranks1 ranks2 outs1
                HR Hs1 Hs2 P1 P2) as (outs & E & F); auto.
    { intros Hc Hb got Eg. subst b2. eapply ok_plans; eauto. }
    rewrite E2 in E. inversion E; subst outs.
    eapply Forall2_impl; [|exact F]. intros o1 o2. apply osim_results.
  Qed.

  Lemma returns_lemma cfg dbg b1 b2 par1 par2 sortf1 sortf2 tms1 tms2 ranks1 ranks2 outs1 :
    memoryless kern -> Forall2 same_inputs ranks1 ranks2 ->
    sort_contract sortf1 -> sort_contract sortf2 ->
    par1 = true \/ length ranks1 <= 1 -> par2 = true \/ length ranks2 <= 1 ->
    (forall probs, length probs = length ranks2 -> exists sts, updateState dbg sortf2 probs = Ok sts) ->
    solve_all kern fuel (with_active cfg b1) dbg par1 sortf1 tms1 ranks1 = Ok outs1 ->
    exists outs2,
      solve_all kern fuel (with_active cfg b2) dbg par2 sortf2 tms2 ranks2 = Ok outs2 /\
      Forall2 same_results outs1 outs2.
  Proof.
    intros ML HR Hs1 Hs2 P1 P2 HU E1.
    destruct (one_step kern fuel ML cfg b1 b2 dbg par1 par2 sortf1 sortf2 tms1 tms2 ranks1 ranks2 outs1
                HR Hs1 Hs2 P1 P2) as (outs & E & F); auto.
    { intros Hc Hb got Eg. apply HU. rewrite map_length. eapply phase_get_length; eauto. }
    exists outs. split; auto.
    eapply Forall2_impl; [|exact F]. intros o1 o2. apply osim_results.
  Qed.

  Lemma runs_lemma (X : Type) (flow : X -> list phys -> X * list (fields A * deltaT A)) cfg dbg par
    setups1 setups2 x inp sts1 sts2 h1 h2 :
    memoryless kern -> length setups1 = length setups2 ->
    (forall s, In s setups1 \/ In s setups2 -> sort_contract (su_sort s)) ->
    par = true \/ length sts1 <= 1 ->
    Forall2 (fun a b => m_RR (fst a) = m_RR (fst b) /\ m_dtc (fst a) = m_dtc (fst b) /\
               m_ref (fst a) = m_ref (fst b) /\ length (m_cpu (fst a)) = length (m_cpu (fst b)))
      sts1 sts2 ->
    run kern fuel X flow cfg dbg par setups1 x inp sts1 = Ok h1 ->
    run kern fuel X flow cfg dbg par setups2 x inp sts2 = Ok h2 ->
    h1 = h2.
  Proof.
    intros ML L Hs Hpar F E1 E2. symmetry.
    apply (run_same kern fuel ML X flow cfg dbg par setups1 setups2 x inp sts1 sts2 h1); auto.
  Qed.

  Lemma doubled_lemma cfg dbg par sortf tms dt ranks outs o :
    solve_scalar kern fuel cfg dbg par sortf tms dt ranks = Ok outs -> In o outs ->
    o_dtmin o = nmul A (lit A 2) dt \/ nltb A (o_dtmin o) (nmul A (lit A 2) dt) = true.
  Proof.
    intros E Hin. unfold solve_scalar in E. apply bind_ok in E as (fo & _ & E). inversion E; subst.
    apply in_map_iff in Hin as (f & <- & _). cbn [o_dtmin]. unfold foam_min.
    destruct (nltb A (o_dtmin f) (nmul A (lit A 2) dt)) eqn:El; auto.
  Qed.

  Lemma field_solve_lemma cfg dbg par sortf tms dt ranks outs :
    solve_scalar kern fuel cfg dbg par sortf tms dt ranks = Ok outs ->
    exists fouts,
      solve_all kern fuel cfg dbg par sortf tms
        (map (fun r => mkIn (r_fields r) (DUniform dt) (r_state r) (r_env r)) ranks) = Ok fouts /\
      Forall2 (fun f o => o_state o = o_state f /\ o_env o = o_env f /\
        (nltb A (o_dtmin f) (nmul A (lit A 2) dt) = true -> o_dtmin o = o_dtmin f)) fouts outs.
  Proof.
    intros E. unfold solve_scalar in E. apply bind_ok in E as (fo & E1 & E). inversion E; subst.
    exists fo. split; auto. clear. induction fo as [|f fo IH]; simpl; constructor; auto.
    cbn [o_state o_env o_dtmin]. split; auto. split; auto. unfold foam_min. intros ->. auto.
  Qed.

  Lemma off_lemma cfg dbg par sortf tms ranks :
    g_chem cfg = false ->
    exists outs, solve_all kern fuel cfg dbg par sortf tms ranks = Ok outs /\
      Forall2 (fun r o => o_dtmin o = great A /\ o_state o = r_state r /\ o_env o = r_env r) ranks outs.
  Proof.
    intros E. unfold solve_all. rewrite E. cbn [negb]. eexists. split; [reflexivity|].
    induction ranks; simpl; constructor; auto.
  Qed.

  Lemma rate_lemma cfg dbg par sortf tms ranks outs :
    g_chem cfg = true -> mapper_ok (g_nSpecie cfg) (g_mapper cfg) -> sort_contract sortf ->
    par = true \/ length ranks <= 1 ->
    solve_all kern fuel cfg dbg par sortf tms ranks = Ok outs ->
    forall q r o n, nth_error ranks q = Some r -> nth_error outs q = Some o ->
      meshed (g_nSpecie cfg) n r ->
      forall i, i < n -> (forall i0, ~ mapped (g_mapper cfg) (r_fields r) i0 i) ->
      exists Y0 T p rho dt sub h l x h',
        map (fun y => nth_error y i) (f_Y (r_fields r)) = map Some Y0 /\
        nth_error (f_T (r_fields r)) i = Some T /\ nth_error (f_p (r_fields r)) i = Some p /\
        nth_error (f_rho (r_fields r)) i = Some rho /\
        match r_dt r with DField l => nth_error l i | DUniform y => Some y end = Some dt /\
        nth_error (m_dtc (r_state r)) i = Some sub /\
        calls kern h dt (mkCell p T Y0 dt sub) l x h' /\ length (k_c x) = length Y0 /\
        map (fun row => nth_error row i) (m_RR (o_state o)) =
          map (fun '(y1, y0) => Some (ndiv A (nmul A (nsub A y1 y0) rho) dt)) (combine (k_c x) Y0) /\
        nth_error (m_dtc (o_state o)) i = Some (foam_min A (k_sub x) (g_dtcMax cfg)).
  Proof.
    intros Hch MO Hs Hpar E q r o n Hr Ho HM i Hi Un.
    destruct (solved_cell kern fuel cfg dbg par sortf tms ranks outs Hch MO Hs Hpar E q r o n Hr Ho HM i Hi Un)
      as (p & s & (P1 & P2 & P3 & P4 & P5 & P6 & _) & (q' & k & h & l & x & h' & I1 & I2 & I3 & I4 & _) & (C1 & C2 & _)).
    exists (p_c p), (p_T p), (p_p p), (p_rho p), (p_deltaT p), (p_deltaTChem p), h, l, x, h'.
    split; auto. split; auto. split; auto. split; auto. split; auto. split; auto. split; auto. split; auto.
    split.
    - rewrite C1, I3, map_map. apply map_ext. intros [y1 y0]. auto.
    - rewrite C2, I4. auto.
  Qed.

  Lemma loop_lemma n : forall h t x x' h',
    substeps kern n h t x = Ok (x', h') -> exists l, calls kern h t x l x' h' /\ length l <= n.
  Proof.
    induction n as [|n IH]; intros h t x x' h' E; simpl in E;
      destruct (nltb A (small A) t) eqn:Et; try discriminate.
    - inversion E; subst. exists []. split; auto. constructor; auto.
    - apply bind_ok in E as ([x1 h1] & E1 & E). apply IH in E as (l & C & L).
      exists (k_dt x1 :: l). split; [econstructor; eauto|]. simpl. lia.
    - inversion E; subst. exists []. split; [constructor; auto|]. simpl. lia.
  Qed.

  Lemma serial_plan_lemma dbg sortf (ps : list (problem A)) sts :
    sort_contract sortf -> updateState dbg sortf [ps] = Ok sts ->
    sts = [mkState [] [] [] (Z.of_nat (length ps))].
  Proof.
    intros Hs E. destruct (wellformed_lemma _ _ _ _ Hs E) as [L W].
    destruct sts as [|st [|]]; try discriminate.
    destruct (update_serial _ _ _ _ Hs E (le_n 1) st (or_introl eq_refl)) as [S1 S2].
    destruct (W 0 st ps eq_refl eq_refl) as (_ & _ & _ & W1 & W2 & _).
    destruct st as [src dst np rem]; cbn [sources destinations nProblems nRemaining] in *. subst.
    destruct np; [|discriminate]. cbn [list_sum fold_right] in W2. f_equal. f_equal. lia.
  Qed.
End Final.

Section FinalExact.
  Variables sm gr vg : Q.
  Notation AQ := (QA sm gr vg).
  Context {H : Type}.
  Variable kern : H -> kcell AQ -> outcome (kcell AQ * H).

  Lemma same_inputs_refl (ranks : list (rankin AQ H)) : Forall2 same_inputs ranks ranks.
  Proof. induction ranks; constructor; auto. repeat split. Qed.

  Lemma exact_lemma fuel cfg dbg b1 b2 par sortf tms1 tms2 ranks outs1 :
    memoryless kern -> sort_contract sortf -> par = true \/ length ranks <= 1 ->
    solve_all kern fuel (with_active cfg b1) dbg par sortf tms1 ranks = Ok outs1 ->
    exists outs2,
      solve_all kern fuel (with_active cfg b2) dbg par sortf tms2 ranks = Ok outs2 /\
      Forall2 same_results outs1 outs2.
  Proof.
    intros ML Hs Hpar E.
    eapply (returns_lemma kern fuel cfg dbg b1 b2 par par sortf sortf tms1 tms2 ranks ranks outs1); auto.
    - apply same_inputs_refl.
    - intros. apply plan_Q; auto.
  Qed.

  Lemma runs_exact fuel (X : Type) (flow : X -> list phys -> X * list (fields AQ * deltaT AQ))
    cfg dbg par setups1 setups2 x inp sts1 sts2 h :
    memoryless kern -> length setups1 = length setups2 ->
    (forall s, In s setups1 \/ In s setups2 -> sort_contract (su_sort s)) ->
    par = true \/ length sts1 <= 1 ->
    Forall2 (fun a b => m_RR (fst a) = m_RR (fst b) /\ m_dtc (fst a) = m_dtc (fst b) /\
               m_ref (fst a) = m_ref (fst b) /\ length (m_cpu (fst a)) = length (m_cpu (fst b)))
      sts1 sts2 ->
    run kern fuel X flow cfg dbg par setups1 x inp sts1 = Ok h ->
    run kern fuel X flow cfg dbg par setups2 x inp sts2 = Ok h.
  Proof.
    intros ML L Hs Hpar F E1.
    apply (run_same kern fuel ML X flow cfg dbg par setups1 setups2 x inp sts1 sts2 h); auto.
    intros s Hin _ probs. apply plan_Q. auto.
  Qed.

  Lemma call_returns fuel cfg dbg par sortf tms ranks :
    (0 <= sm)%Q ->
    mapper_ok (g_nSpecie cfg) (g_mapper cfg) ->
    (forall r, In r ranks -> exists n, meshed (g_nSpecie cfg) n r) ->
    sort_contract sortf -> par = true \/ length ranks <= 1 ->
    whole_step kern (g_nSpecie cfg) -> 1 <= fuel ->
    exists outs, solve_all kern fuel cfg dbg par sortf tms ranks = Ok outs.
  Proof.
    intros Hsm MO HM Hs Hpar W Hf. apply solve_all_total; auto.
    - apply whole_solvable; auto. intros t _. apply Qltb_false. change (t - t <= sm)%Q. lra.
    - intros. apply plan_Q; auto.
  Qed.

  Lemma dtmin_unmapped fuel cfg dbg par sortf tms ranks outs q r o n i (x : Q) :
    g_chem cfg = true -> mp_active (g_mapper cfg) = false -> sort_contract sortf ->
    par = true \/ length ranks <= 1 ->
    solve_all kern fuel cfg dbg par sortf tms ranks = Ok outs ->
    nth_error ranks q = Some r -> nth_error outs q = Some o -> meshed (g_nSpecie cfg) n r ->
    i < n -> nth_error (m_dtc (o_state o)) i = Some x -> (o_dtmin o <= x)%Q.
  Proof.
    intros Hch Ha Hs Hpar E Hr Ho HM Hi Hx.
    assert (MO : mapper_ok (g_nSpecie cfg) (g_mapper cfg)) by (intros C; congruence).
    refine (proj2 (dtmin_lower sm gr vg kern fuel cfg dbg par sortf tms ranks outs q r o n i x Hch MO Hs Hpar E Hr Ho HM) Hi _ Hx).
    apply (labels kern fuel cfg dbg par sortf tms ranks outs Hch MO Hs Hpar E q r o n Hr Ho HM i Hi).
    intros i0 ((C & _) & _). destruct C as [C _]. congruence.
  Qed.

  Lemma covers_lemma h (t : Q) x l x' h' : calls kern h t x l x' h' ->
    (t - fold_right Qplus 0 l <= sm)%Q /\
    ((forall h x x1 h1, kern h x = Ok (x1, h1) -> (k_dt x1 <= k_dt x)%Q) -> (0 <= t)%Q ->
     (fold_right Qplus 0 l <= t)%Q).
  Proof.
    intros C. split; [eapply calls_sum; eauto|]. intros K Ht.
    assert (X := calls_within sm gr vg kern h t x l x' h' C K Ht).
    set (s := fold_right Qplus 0%Q l) in *. change (s <= t)%Q. change (0 <= t - s)%Q in X. lra.
  Qed.

  Lemma no_progress_lemma :
    (forall h x, exists x' h', kern h x = Ok (x', h') /\ (k_dt x' == 0)%Q) ->
    forall n h (t : Q) x, (sm < t)%Q -> substeps kern n h t x = Diverge.
  Proof.
    intros K. induction n as [|n IH]; intros h t x Ht; simpl; apply Qltb_true in Ht as Ht'; rewrite Ht'; auto.
    destruct (K h (mkCell (A := AQ) (k_p x) (k_T x) (k_c x) t (k_sub x))) as (x' & h' & E & Hk).
    rewrite E. cbn [bind]. apply IH. change (sm < t - k_dt x')%Q. change (k_dt x' == 0)%Q in Hk. rewrite Hk. lra.
  Qed.
End FinalExact.

(** Two cells: cell 0 (mixture fraction 0) is the reference with chemical time step 1, cell 1
    is solved, chemical time step 5. *)
Lemma uncovered_witness :
  exists (cfg : config QAD) kern ranks outs q r o n i x,
    g_chem cfg = true /\ mapper_ok (g_nSpecie cfg) (g_mapper cfg) /\
    memoryless kern /\ whole_step kern (g_nSpecie cfg) /\
    solve_all (H := nat) kern 1 cfg true true isort (fun _ _ => one QAD) ranks = Ok outs /\
    nth_error ranks q = Some r /\ nth_error outs q = Some o /\ meshed (g_nSpecie cfg) n r /\
    i < n /\ nth_error (m_dtc (o_state o)) i = Some x /\ (x < o_dtmin o)%Q.
Proof.
  exists (mkConfig (A := QAD) 1 100%Q true true
            (mkMapper (A := QAD) true (1 # 2)%Q 2%Q (mkMix (A := QAD) [1%Q] [0%Q; 1%Q]))).
  exists (fun h x => Ok (mkCell (k_p x) (k_T x) (k_c x) (k_dt x) (k_T x), S h)).
  exists [mkIn (A := QAD) (mkFields (A := QAD) [[0; 1]] [1; 5] [1; 1] [1; 1])%Q (DUniform (A := QAD) 1%Q)
            (mkM (A := QAD) [[0; 0]] [1; 1] [1; 1] [0; 0]%nat)%Q (0, 0)].
  eexists _, 0, _, _, 2, 0, _.
  split; [reflexivity|]. split; [intros _; simpl; lia|]. split; [intros h1 h2 x; reflexivity|].
  split; [intros h x L; do 2 eexists; split; [reflexivity|]; split; [reflexivity|exact L]|].
  split; [vm_compute; reflexivity|]. split; [reflexivity|]. split; [reflexivity|].
  split; [split; [repeat split; auto|repeat split]; intros y [<-|[]]; reflexivity|].
  split; [lia|]. split; [reflexivity|]. reflexivity.
Qed.
