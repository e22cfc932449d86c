(** The chemistry call in IEEE doubles, release build: planning always succeeds because
    measured times are not negative. *)
From Coq Require Import List Arith ZArith QArith Bool Lia.
From Verif Require Import Outcome Arith Problem LoadBalancing BalancerSpec PlanFacts BalancerProofs
  MixtureFraction ChemistryModel ChemFacts ChemSim ChemBalance WorkFacts ChemTransparent ChemCells
  ChemStep ChemSafe ChemResults F64Facts BalanceFacts.
Import ListNotations.
Local Open Scope nat_scope.

(** The measured times of a rank are not negative. *)
Definition timed {H} (r : rankin F64 H) : Prop :=
  forall x, In x (m_cpu (r_state r)) -> f_nonneg x = true.

Section Ieee.
  Context {H : Type}.
  Variable kern : H -> kcell F64 -> outcome (kcell F64 * H).
  Variable fuel : nat.
  Variable cfg : config F64.
  Hypothesis MO : mapper_ok (g_nSpecie cfg) (g_mapper cfg).

  Lemma got_plans tms sortf ranks got :
    (forall r, In r ranks -> (exists n, meshed (g_nSpecie cfg) n r) /\ timed r) ->
    sort_contract sortf ->
    phase_get kern fuel cfg false tms ranks = Ok got ->
    exists sts, updateState false sortf (map (fun '(ps, _, _) => ps) got) = Ok sts.
  Proof.
    intros HM Hs Eg. apply plan_ieee; auto. intros ps p Hps Hp.
    apply in_map_iff in Hps as ([[ps' m'] e'] & <- & Hin). apply In_nth_error in Hin as (q & Hq).
    assert (L := phase_get_length kern fuel cfg false tms ranks got Eg).
    destruct (nth_error ranks q) as [r|] eqn:Er.
    2:{ apply nth_error_None in Er. assert (q < length got) by (apply nth_error_Some; congruence). lia. }
    assert (Hr := nth_error_In _ _ Er). destruct (HM r Hr) as [(n & SF & SM) Ht].
    assert (G := phase_get_each kern fuel cfg false tms ranks got q r ps' m' e' Eg Er Hq).
    destruct (get_lemma kern fuel cfg n _ _ _ SF SM MO false _ _ _ _ _ G) as (_ & P & _).
    destruct (P p Hp) as (_ & (_ & _ & _ & _ & _ & _ & P7 & _)).
    apply Ht. eapply nth_error_In; eauto.
  Qed.

  Lemma ieee_same b1 b2 par sortf1 sortf2 tms1 tms2 ranks1 ranks2 outs1 :
    memoryless kern -> Forall2 same_inputs ranks1 ranks2 ->
    (forall r, In r ranks2 -> (exists n, meshed (g_nSpecie cfg) n r) /\ timed r) ->
    sort_contract sortf1 -> sort_contract sortf2 -> par = true \/ length ranks1 <= 1 ->
    solve_all kern fuel (with_active cfg b1) false par sortf1 tms1 ranks1 = Ok outs1 ->
    exists outs2,
      solve_all kern fuel (with_active cfg b2) false par sortf2 tms2 ranks2 = Ok outs2 /\
      Forall2 osim outs1 outs2.
  Proof.
    intros ML HR HM Hs1 Hs2 Hpar E. assert (L := Forall2_len _ _ _ HR).
    apply (one_step kern fuel ML cfg b1 b2 false par par sortf1 sortf2 tms1 tms2 ranks1 ranks2); auto.
    - destruct Hpar; auto. right. lia.
    - intros. eapply got_plans; eauto.
  Qed.

  Lemma ieee_transparent b1 b2 par sortf1 sortf2 tms1 tms2 ranks outs1 :
    memoryless kern ->
    (forall r, In r ranks -> (exists n, meshed (g_nSpecie cfg) n r) /\ timed r) ->
    sort_contract sortf1 -> sort_contract sortf2 -> par = true \/ length ranks <= 1 ->
    solve_all kern fuel (with_active cfg b1) false par sortf1 tms1 ranks = Ok outs1 ->
    exists outs2,
      solve_all kern fuel (with_active cfg b2) false par sortf2 tms2 ranks = Ok outs2 /\
      Forall2 same_results outs1 outs2.
  Proof.
    intros ML HM Hs1 Hs2 Hpar E.
    destruct (ieee_same b1 b2 par sortf1 sortf2 tms1 tms2 ranks ranks outs1) as (outs2 & E2 & F); auto.
    - clear. induction ranks; constructor; auto. repeat split.
    - exists outs2. split; auto. eapply Forall2_impl; [|exact F]. intros o1 o2. apply osim_results.
  Qed.

  Lemma ieee_returns par sortf tms ranks :
    (forall r, In r ranks -> (exists n, meshed (g_nSpecie cfg) n r) /\ timed r) ->
    sort_contract sortf -> par = true \/ length ranks <= 1 ->
    whole_step kern (g_nSpecie cfg) -> 1 <= fuel ->
    exists outs, solve_all kern fuel cfg false par sortf tms ranks = Ok outs.
  Proof.
    intros HM Hs Hpar W Hf. apply solve_all_total; auto.
    - intros r Hr. apply HM; auto.
    - apply whole_solvable; auto. intros. apply f64_self.
    - intros _ _ got Eg. eapply got_plans; eauto.
  Qed.

  Lemma ieee_sane par sortf tms ranks :
    (forall r, In r ranks -> (exists n, meshed (g_nSpecie cfg) n r) /\ timed r) ->
    sort_contract sortf -> par = true \/ length ranks <= 1 -> sane_solver kern (g_nSpecie cfg) ->
    solve_all kern fuel cfg false par sortf tms ranks <> UB.
  Proof.
    intros HM Hs Hpar K. apply solve_all_sane; auto.
    - intros r Hr. apply HM; auto.
    - intros _ _ got Eg. destruct (got_plans tms sortf ranks got HM Hs Eg) as (sts & ->). discriminate.
  Qed.

  (** The next call finds times that are not negative if the timers are not. *)
  Lemma timed_next dbg par sortf tms ranks outs q r o n :
    g_chem cfg = true -> sort_contract sortf -> par = true \/ length ranks <= 1 ->
    solve_all kern fuel cfg dbg par sortf tms ranks = Ok outs ->
    nth_error ranks q = Some r -> nth_error outs q = Some o -> meshed (g_nSpecie cfg) n r ->
    (forall a k, f_nonneg (tms a k) = true) ->
    forall x, In x (m_cpu (o_state o)) -> f_nonneg x = true.
  Proof.
    intros Hch Hs Hpar E Hr Ho HM Ht x Hx. apply In_nth_error in Hx as (i & Hi).
    assert (SM := shape_out kern fuel cfg dbg par sortf tms ranks outs Hch MO Hs Hpar E q r o n Hr Ho HM).
    assert (Li : i < n).
    { rewrite <- (sm_cpu _ _ _ SM). apply nth_error_Some. congruence. }
    destruct (every_cell kern fuel cfg dbg par sortf tms ranks outs Hch MO Hs Hpar E q r o n Hr Ho HM i Li)
      as (j & p & s & k & _ & _ & (q' & k' & ? & ? & ? & ? & _ & _ & _ & _ & T & _) & (_ & _ & C & _) & _).
    rewrite Hi in C. inversion C; subst. rewrite T. apply Ht.
  Qed.
End Ieee.

Section Runs.
  Context {H : Type}.
  Variable kern : H -> kcell F64 -> outcome (kcell F64 * H).
  Variable fuel : nat.
  Variable X : Type.
  Variable flow : X -> list (@phys F64) -> X * list (fields F64 * deltaT F64).

  (** The flow solver keeps the meshes of [ns] cells. *)
  Definition keeps_mesh (nsp : nat) (ns : list nat) : Prop :=
    forall x o, Forall2 (fun n '(F, d) => shapeF nsp n F d) ns (snd (flow x o)).

  Lemma ieee_runs (cfg : config F64) par ns : mapper_ok (g_nSpecie cfg) (g_mapper cfg) ->
    memoryless kern -> keeps_mesh (g_nSpecie cfg) ns ->
    forall (setups1 setups2 : list (@setup F64)) x inp
           (sts1 sts2 : list (mstate F64 * (H * nat))) h,
      length setups1 = length setups2 ->
      (forall s, In s setups1 \/ In s setups2 -> sort_contract (su_sort s)) ->
      (forall s, In s setups2 -> forall q k, f_nonneg (su_tms s q k) = true) ->
      par = true \/ length sts1 <= 1 ->
      Forall2 (fun a b => sim (fst a) (fst b)) sts1 sts2 ->
      Forall2 (fun n '(F, d) => shapeF (g_nSpecie cfg) n F d) ns inp ->
      Forall2 (fun n (st : mstate F64 * (H * nat)) => shapeM (g_nSpecie cfg) n (fst st) /\
                 forall y, In y (m_cpu (fst st)) -> f_nonneg y = true) ns sts2 ->
      run kern fuel X flow cfg false par setups1 x inp sts1 = Ok h ->
      run kern fuel X flow cfg false par setups2 x inp sts2 = Ok h.
  Proof.
    intros MO ML KM.
    induction setups1 as [|s1 r1 IH]; intros [|s2 r2] x inp sts1 sts2 h L Hs Ht Hpar F FI FS E;
      simpl in L; try discriminate; auto.
    simpl in E. apply bind_ok in E as (outs1 & O1 & E).
    set (R1 := map (fun '((F0, d), (m, e)) => mkIn F0 d m e) (combine inp sts1)) in *.
    set (R2 := map (fun '((F0, d), (m, e)) => mkIn F0 d m e) (combine inp sts2)) in *.
    assert (HR : Forall2 same_inputs R1 R2).
    { unfold R1, R2. clear -F. revert inp. induction F as [|[m1 e1] [m2 e2] ? ? HF F IH]; intros [|[Fi d] inp];
        simpl; constructor; auto. destruct HF as (? & ? & ? & ?). repeat split; auto. }
    assert (LF := Forall2_len _ _ _ F). assert (LI := Forall2_len _ _ _ FI). assert (LS := Forall2_len _ _ _ FS).
    assert (LR1 : length R1 = length sts1) by (unfold R1; rewrite map_length, combine_length; lia).
    assert (LR2 : length R2 = length ns) by (unfold R2; rewrite map_length, combine_length; lia).
    assert (MT : Forall2 (fun n r => meshed (g_nSpecie cfg) n r /\ timed r) ns R2).
    { unfold R2. clear -FI FS. revert sts2 FS. induction FI as [|n [Fi d] ns inp SF FI IH]; intros sts2 FS;
        inversion FS as [|? [m e] ? ? [SM T] FS']; subst; simpl; constructor; auto.
      split; [split; auto|]. exact T. }
    assert (Hpar2 : par = true \/ length R2 <= 1) by (destruct Hpar; [auto|right; lia]).
    destruct (ieee_same kern fuel cfg MO (su_active s1) (su_active s2) par (su_sort s1) (su_sort s2)
                (su_tms s1) (su_tms s2) R1 R2 outs1) as (outs2 & O2 & FO); auto.
    { intros r Hr. apply In_nth_error in Hr as (q & Hq).
      destruct (Forall2_nth_error_r _ _ _ MT q _ Hq) as (n & _ & M1 & M2). eauto. }
    { apply Hs; simpl; auto. }
    { apply Hs; simpl; auto. }
    { rewrite LR1; auto. }
    simpl. fold R2. rewrite O2. cbn [bind]. rewrite <- (osim_phys _ _ FO).
    destruct (flow x (map phys_of outs1)) as [x' inp'] eqn:Efl.
    apply bind_ok in E as (h' & Eh & E). inversion E; subst h; clear E.
    assert (LO := Forall2_len _ _ _ FO).
    assert (Lo2 : length outs2 = length R2).
    { unfold solve_all in O2. destruct (negb _).
      - inversion O2. apply map_length.
      - apply bind_ok in O2 as (got & Eg & O2). apply bind_ok in O2 as (sv & Es & O2).
        apply mapM_length in O2. rewrite combine_length in O2.
        assert (Lg := phase_get_length kern fuel _ _ _ _ _ Eg).
        assert (An : Forall2 (fun ps '(inc, _) => Forall2 (sol kern fuel (with_active cfg (su_active s2)) (su_tms s2)) ps (concat inc))
                       (map (fun '(ps, _, _) => ps) got) sv).
        { refine (branch_answers kern fuel (with_active cfg (su_active s2)) false par (su_sort s2) (su_tms s2)
                    got sv _ _ Es).
          - apply Hs. simpl; auto.
          - rewrite Lg; auto. }
        apply Forall2_len in An. rewrite map_length in An. lia. }
    erewrite IH; [reflexivity|simpl in L; lia| | | | | | |exact Eh].
    - intros s [Hin|Hin]; apply Hs; simpl; auto.
    - intros s Hin. apply Ht; simpl; auto.
    - rewrite map_length. destruct Hpar; [auto|right; lia].
    - clear -FO. induction FO as [|o1 o2 l1 l2 [_ Hsim]]; simpl; constructor; auto.
    - specialize (KM x (map phys_of outs1)). rewrite Efl in KM. exact KM.
    - apply Forall2_index; [rewrite map_length; lia|].
      intros q n st Hn Hst. rewrite nth_error_map in Hst. destruct (nth_error outs2 q) as [o|] eqn:Ho; [|discriminate].
      inversion Hst; subst st; clear Hst. cbn [fst].
      destruct (Forall2_nth_error _ _ _ MT q _ Hn) as (r & Hr & M1 & M2).
      destruct (g_chem cfg) eqn:Hch.
      + split.
        * apply (shape_out kern fuel (with_active cfg (su_active s2)) false par (su_sort s2) (su_tms s2) R2 outs2
                   Hch MO (Hs s2 (or_intror (or_introl eq_refl))) Hpar2 O2 q r o n Hr Ho M1).
        * apply (timed_next kern fuel (with_active cfg (su_active s2)) MO false par (su_sort s2) (su_tms s2) R2 outs2
                   q r o n Hch (Hs s2 (or_intror (or_introl eq_refl))) Hpar2 O2 Hr Ho M1).
          apply Ht. left; auto.
      + unfold solve_all in O2. cbn [g_chem with_active] in O2. rewrite Hch in O2. cbn [negb] in O2.
        inversion O2; subst outs2. rewrite nth_error_map, Hr in Ho. simpl in Ho. inversion Ho; subst o. cbn [o_state].
        split; [apply M1|exact M2].
  Qed.
End Runs.
