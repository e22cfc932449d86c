(** Load balancing does not change results: one call, and runs of many calls. *)
From Coq Require Import List Arith Bool ZArith Lia Permutation.
From Verif Require Import Outcome Arith Problem LoadBalancing BalancerSpec PlanFacts
  BalancerProofs Streams Comm BalanceFacts MixtureFraction ChemistryModel ChemFacts ChemSim
  ChemBalance.
Import ListNotations.
Local Open Scope nat_scope.

Lemma Forall2_enum {S T} (R : S -> T -> Prop) l1 l2 :
  Forall2 R l1 l2 -> Forall2 (fun a b => fst a = fst b /\ R (snd a) (snd b)) (enum l1) (enum l2).
Proof.
  intros F. apply Forall2_index.
  - rewrite !enum_length. eapply Forall2_len; eauto.
  - intros i [a x] [b y] Ha Hb. rewrite nth_error_enum in Ha. rewrite nth_error_enum in Hb.
    destruct (nth_error l1 i) eqn:E1; [|discriminate]. destruct (nth_error l2 i) eqn:E2; [|discriminate].
    destruct (Forall2_nth_error _ _ _ F i _ E1) as (z & Z1 & Z2).
    simpl in *. inversion Ha; inversion Hb; subst. split; auto. simpl. congruence.
Qed.

Section Transparent.
  Context {A : Arith} {H : Type}.
  Variable kern : H -> kcell A -> outcome (kcell A * H).
  Variable fuel : nat.
  Hypothesis ML : memoryless kern.

  (** Same results, and as many measured times. *)
  Definition osim (o1 o2 : rankout A H) : Prop :=
    o_dtmin o1 = o_dtmin o2 /\ sim (o_state o1) (o_state o2).

  Lemma osim_results o1 o2 : osim o1 o2 -> same_results o1 o2.
  Proof. intros (E1 & E2 & E3 & E4 & E5). repeat split; auto. Qed.

  Lemma sol_fun cfg tms1 tms2 p1 p2 s1 s2 : peq p1 p2 ->
    sol kern fuel cfg tms1 p1 s1 -> sol kern fuel cfg tms2 p2 s2 -> speq s1 s2.
  Proof.
    intros Hp (q1 & e1 & f1 & E1) (q2 & e2 & f2 & E2).
    assert (S := single_sim kern fuel cfg ML (tms1 q1) (tms2 q2) e1 e2 p1 p2 Hp).
    rewrite E1, E2 in S. exact S.
  Qed.

  Lemma sol_solvable cfg tms1 p1 p2 s1 : peq p1 p2 -> sol kern fuel cfg tms1 p1 s1 -> solvable kern fuel cfg p2.
  Proof.
    intros Hp (q1 & e1 & f1 & E1) tm e.
    assert (S := single_sim kern fuel cfg ML (tms1 q1) tm e1 e p1 p2 Hp). rewrite E1 in S.
    destruct (single kern fuel cfg tm e p2) as [[s f]| | |]; try contradiction. eauto.
  Qed.

  Lemma sols_fun cfg tms1 tms2 ps1 ps2 ss1 ss2 : Forall2 peq ps1 ps2 ->
    Forall2 (sol kern fuel cfg tms1) ps1 ss1 -> Forall2 (sol kern fuel cfg tms2) ps2 ss2 ->
    Forall2 speq ss1 ss2.
  Proof.
    intros F. revert ss1 ss2. induction F; intros ss1 ss2 F1 F2; inversion F1; inversion F2; subst; auto.
    constructor; eauto. eapply sol_fun; eauto.
  Qed.

  Lemma phase_get_sim cfg dbg tms1 tms2 r1 r2 : Forall2 same_inputs r1 r2 ->
    orel (Forall2 gsim) (phase_get kern fuel cfg dbg tms1 r1) (phase_get kern fuel cfg dbg tms2 r2).
  Proof.
    intros F. unfold phase_get. eapply orel_mapM; [apply Forall2_enum; exact F|].
    intros [i x] [j y] [E (I1 & I2 & I3 & I4 & I5 & I6)]; simpl in *. subst j.
    rewrite <- I1, <- I2. apply getProblems_sim; auto. repeat split; auto.
  Qed.

  Lemma phase_update_sim cfg got1 got2 sv1 sv2 : Forall2 gsim got1 got2 ->
    Forall2 (fun '(i1, _) '(i2, _) => Forall2 speq (concat i1) (concat i2)) sv1 sv2 ->
    orel (Forall2 osim) (phase_update cfg got1 sv1) (phase_update (H := H) cfg got2 sv2).
  Proof.
    intros F1 F2. unfold phase_update.
    assert (F : Forall2 (fun a b => gsim (fst a) (fst b) /\
                (let '(i1, _) := snd a in let '(i2, _) := snd b in Forall2 speq (concat i1) (concat i2)))
              (combine got1 sv1) (combine got2 sv2)).
    { revert sv1 sv2 F2. induction F1; intros sv1 sv2 F2; simpl; auto.
      inversion F2; subst; [constructor|]. constructor; [split; auto; destruct x0, y0; auto|apply IHF1; auto]. }
    eapply orel_mapM; [exact F|].
    intros [[[ps1 m1] e1] [i1 f1]] [[[ps2 m2] e2] [i2 f2]] [[G1 G2] G3]; simpl in *.
    eapply orel_bind; [apply updateReactionRates_sim; eauto|].
    intros [d1 n1] [d2 n2] [E1 (E2 & E3 & E4 & E5)]; simpl in *. repeat split; auto.
  Qed.

  (** The branch taken by [solve]. *)
  Definition branch cfg dbg par sortf tms got :=
    if g_active cfg then solve_balanced kern fuel cfg dbg par sortf tms got
    else solve_local kern fuel cfg tms got.

  Lemma branch_answers cfg dbg par sortf tms got sv :
    sort_contract sortf -> par = true \/ length got <= 1 ->
    branch cfg dbg par sortf tms got = Ok sv ->
    Forall2 (fun ps '(inc, _) => Forall2 (sol kern fuel cfg tms) ps (concat inc))
      (map (fun '(ps, _, _) => ps) got) sv.
  Proof.
    intros Hs Hpar E. unfold branch in E. destruct (g_active cfg).
    - assert (E0 := E). unfold solve_balanced in E0. cbv zeta in E0.
      apply bind_ok in E0 as (sts & HU & _).
      eapply balanced_answers; eauto.
    - eapply local_answers; eauto.
  Qed.

  Lemma branch_total cfg dbg par sortf tms got :
    sort_contract sortf -> par = true \/ length got <= 1 ->
    (g_active cfg = true ->
       exists sts, updateState dbg sortf (map (fun '(ps, _, _) => ps) got) = Ok sts) ->
    (forall ps p, In ps (map (fun '(ps, _, _) => ps) got) -> In p ps -> solvable kern fuel cfg p) ->
    exists sv, branch cfg dbg par sortf tms got = Ok sv.
  Proof.
    intros Hs Hpar HU Sv. unfold branch. destruct (g_active cfg).
    - destruct HU as (sts & HU); auto. eapply balanced_total; eauto.
    - apply local_total; auto.
  Qed.

  Lemma phase_get_length cfg dbg tms r got :
    phase_get kern fuel cfg dbg tms r = Ok got -> length got = length r.
  Proof. intros E. apply mapM_length in E. rewrite enum_length in E. auto. Qed.

  Lemma one_step cfg b1 b2 dbg par1 par2 sortf1 sortf2 tms1 tms2 ranks1 ranks2 outs1 :
    Forall2 same_inputs ranks1 ranks2 ->
    sort_contract sortf1 -> sort_contract sortf2 ->
    par1 = true \/ length ranks1 <= 1 -> par2 = true \/ length ranks2 <= 1 ->
    (g_chem cfg = true -> b2 = true -> forall got, phase_get kern fuel cfg dbg tms2 ranks2 = Ok got ->
       exists sts, updateState dbg sortf2 (map (fun '(ps, _, _) => ps) got) = Ok sts) ->
    solve_all kern fuel (with_active cfg b1) dbg par1 sortf1 tms1 ranks1 = Ok outs1 ->
    exists outs2, solve_all kern fuel (with_active cfg b2) dbg par2 sortf2 tms2 ranks2 = Ok outs2 /\
      Forall2 osim outs1 outs2.
  Proof.
    intros HR Hs1 Hs2 P1 P2 HU E. unfold solve_all in *. cbn [g_chem with_active] in *.
    destruct (g_chem cfg) eqn:Ec; cbn [negb] in *.
    - apply bind_ok in E as (got1 & G1 & E). apply bind_ok in E as (sv1 & S1 & E).
      destruct (orel_ok_l _ _ _ _ (phase_get_sim cfg dbg tms1 tms2 ranks1 ranks2 HR) G1)
        as (got2 & G2 & GS).
      change (phase_get kern fuel (with_active cfg b2)) with (phase_get kern fuel cfg).
      change (phase_get kern fuel (with_active cfg b1)) with (phase_get kern fuel cfg) in G1.
      assert (L1 := phase_get_length _ _ _ _ _ G1). assert (L2 := phase_get_length _ _ _ _ _ G2).
      rewrite G2. cbn [bind].
      assert (An1 : Forall2 (fun ps '(inc, _) => Forall2 (sol kern fuel cfg tms1) ps (concat inc))
                      (map (fun '(ps, _, _) => ps) got1) sv1).
      { refine (branch_answers (with_active cfg b1) dbg par1 sortf1 tms1 got1 sv1 Hs1 _ S1). rewrite L1. auto. }
      assert (Fp : Forall2 (Forall2 peq) (map (fun '(ps, _, _) => ps) got1)
                     (map (fun '(ps, _, _) => ps) got2)).
      { clear -GS. induction GS as [|[[p1 m1] e1] [[p2 m2] e2] ? ? [G1 G2]]; simpl; auto. }
      destruct (branch_total (with_active cfg b2) dbg par2 sortf2 tms2 got2) as (sv2 & S2); auto.
      { rewrite L2; auto. }
      { intros ps p Hps Hp. apply In_nth_error in Hps as (q & Hq). apply In_nth_error in Hp as (j & Hj).
        destruct (Forall2_nth_error_r _ _ _ Fp q _ Hq) as (ps1 & Q1 & Q2).
        destruct (Forall2_nth_error_r _ _ _ Q2 j _ Hj) as (p1 & J1 & J2).
        destruct (Forall2_nth_error _ _ _ An1 q _ Q1) as ([inc e] & I1 & I2).
        destruct (Forall2_nth_error _ _ _ I2 j _ J1) as (s1 & K1 & K2).
        eapply sol_solvable; eauto. }
      assert (An2 : Forall2 (fun ps '(inc, _) => Forall2 (sol kern fuel cfg tms2) ps (concat inc))
                      (map (fun '(ps, _, _) => ps) got2) sv2).
      { refine (branch_answers (with_active cfg b2) dbg par2 sortf2 tms2 got2 sv2 Hs2 _ S2). rewrite L2. auto. }
      unfold branch in S2. rewrite S2. cbn [bind].
      change (phase_update (with_active cfg b2)) with (phase_update (H := H) cfg).
      eapply orel_ok_l; [|exact E].
      change (phase_update (with_active cfg b1)) with (phase_update (H := H) cfg).
      apply phase_update_sim; auto.
      apply Forall2_index.
      { apply Forall2_len in An1. apply Forall2_len in An2. apply Forall2_len in GS.
        rewrite map_length in *. lia. }
      intros q [i1 f1] [i2 f2] H1 H2.
      destruct (Forall2_nth_error_r _ _ _ An1 q _ H1) as (ps1 & Q1 & Q1').
      destruct (Forall2_nth_error_r _ _ _ An2 q _ H2) as (ps2 & Q2 & Q2').
      destruct (Forall2_nth_error _ _ _ Fp q _ Q1) as (ps2' & Q3 & Q3').
      assert (ps2' = ps2) by congruence. subst ps2'.
      eapply sols_fun; eauto.
    - inversion E; subst. eexists. split; [reflexivity|].
      clear -HR. induction HR as [|r1 r2 l1 l2 (I1 & I2 & I3 & I4 & I5 & I6)]; simpl; constructor; auto.
      repeat split; auto.
  Qed.

  (** ** Runs of many calls *)
  Section Runs.
    Variable X : Type.   (* state of the flow solver *)

    (** Physical results of one rank: returned time step, RR, deltaTChem_, refMap_. *)
    Definition phys : Type := (num A * list (list (num A)) * list (num A) * list nat)%type.
    Definition phys_of (o : rankout A H) : phys :=
      (o_dtmin o, m_RR (o_state o), m_dtc (o_state o), m_ref (o_state o)).

    (** The rest of the simulation between two calls, on all ranks: it sees the physical
        results and gives the next fields and time step of each rank. *)
    Variable flow : X -> list phys -> X * list (fields A * deltaT A).

    (** What may differ between two runs in one call: whether balancing is on, the sorting
        algorithm, the timers. *)
    Record setup := mkSetup {
      su_active : bool;
      su_sort : list (load A) -> list (load A);
      su_tms : nat -> nat -> num A
    }.

    Fixpoint run (cfg : config A) (dbg par : bool) (setups : list setup) (x : X)
      (inp : list (fields A * deltaT A)) (sts : list (mstate A * (H * nat)))
      : outcome (list (list phys)) :=
      match setups with
      | [] => Ok []
      | s :: r =>
        let* outs := solve_all kern fuel (with_active cfg (su_active s)) dbg par (su_sort s) (su_tms s)
                       (map (fun '((F, d), (m, e)) => mkIn F d m e) (combine inp sts)) in
        let (x', inp') := flow x (map phys_of outs) in
        let* rest := run cfg dbg par r x' inp' (map (fun o => (o_state o, o_env o)) outs) in
        Ok (map phys_of outs :: rest)
      end.

    Lemma osim_phys outs1 outs2 : Forall2 osim outs1 outs2 -> map phys_of outs1 = map phys_of outs2.
    Proof.
      induction 1 as [|o1 o2 l1 l2 (E1 & E2 & E3 & E4 & E5)]; simpl; auto.
      f_equal; auto. unfold phys_of. congruence.
    Qed.

    Lemma run_same cfg dbg par : forall setups1 setups2 x inp sts1 sts2 h1,
      length setups1 = length setups2 ->
      (forall s, In s setups1 \/ In s setups2 -> sort_contract (su_sort s)) ->
      par = true \/ length sts1 <= 1 ->
      Forall2 (fun a b => sim (fst a) (fst b)) sts1 sts2 ->
      run cfg dbg par setups1 x inp sts1 = Ok h1 ->
      (forall h2, run cfg dbg par setups2 x inp sts2 = Ok h2 -> h2 = h1) /\
      ((forall s, In s setups2 -> su_active s = true ->
          forall probs, exists st, updateState dbg (su_sort s) probs = Ok st) ->
       run cfg dbg par setups2 x inp sts2 = Ok h1).
    Proof.
      induction setups1 as [|s1 r1 IH]; intros [|s2 r2] x inp sts1 sts2 h1 L Hs Hpar F E;
        simpl in L; try discriminate.
      - simpl in *. split; intros; congruence.
      - simpl in E. apply bind_ok in E as (outs1 & O1 & E).
        set (R1 := map (fun '((F0, d), (m, e)) => mkIn F0 d m e) (combine inp sts1)) in *.
        set (R2 := map (fun '((F0, d), (m, e)) => mkIn F0 d m e) (combine inp sts2)) in *.
        assert (HR : Forall2 same_inputs R1 R2).
        { unfold R1, R2. clear -F. revert inp. induction F as [|[m1 e1] [m2 e2] ? ? HF F IH]; intros [|[Fi d] inp];
            simpl; constructor; auto. destruct HF as (? & ? & ? & ?). repeat split; auto. }
        assert (LR : length R1 <= length sts1).
        { unfold R1. rewrite map_length, combine_length. lia. }
        assert (LR2 := Forall2_len _ _ _ HR).
        assert (Step : forall outs2,
                  solve_all kern fuel (with_active cfg (su_active s2)) dbg par (su_sort s2) (su_tms s2) R2 = Ok outs2 ->
                  Forall2 osim outs1 outs2).
        { intros outs2 O2.
          destruct (one_step cfg (su_active s1) (su_active s2) dbg par par (su_sort s1) (su_sort s2)
                     (su_tms s1) (su_tms s2) R1 R2 outs1) as (o2 & E2 & E2'); auto.
          - apply Hs. simpl; auto.
          - apply Hs. simpl; auto.
          - destruct Hpar; [auto|right; lia].
          - destruct Hpar; [auto|right; lia].
          - intros Ec B got Eg. unfold solve_all in O2. cbn [g_chem with_active g_active] in O2.
            rewrite B, Ec in O2. cbn [negb] in O2.
            change (phase_get kern fuel (with_active cfg true)) with (phase_get kern fuel cfg) in O2.
            rewrite Eg in O2. cbn [bind] in O2. apply bind_ok in O2 as (sv & O2 & _).
            unfold solve_balanced in O2. cbv zeta in O2. apply bind_ok in O2 as (st & O2 & _). eauto.
          - congruence. }
        assert (Next : forall outs2, Forall2 osim outs1 outs2 ->
                  Forall2 (fun a b => sim (fst a) (fst b))
                    (map (fun o => (o_state o, o_env o)) outs1) (map (fun o => (o_state o, o_env o)) outs2)).
        { intros outs2 FO. clear -FO. induction FO as [|o1 o2 l1 l2 [_ Hsim]]; simpl; constructor; auto. }
        destruct (flow x (map phys_of outs1)) as [x' inp'] eqn:Efl.
        apply bind_ok in E as (h & Eh & E). inversion E; subst h1; clear E.
        assert (Lo : length outs1 = length R1).
        { unfold solve_all in O1. destruct (negb _).
          - inversion O1. apply map_length.
          - apply bind_ok in O1 as (got & Eg & O1). apply bind_ok in O1 as (sv & Es & O1).
            apply mapM_length in O1. rewrite combine_length in O1.
            assert (Lg := phase_get_length _ _ _ _ _ Eg).
            assert (An : Forall2 (fun ps '(inc, _) => Forall2 (sol kern fuel (with_active cfg (su_active s1)) (su_tms s1)) ps (concat inc))
                           (map (fun '(ps, _, _) => ps) got) sv).
            { refine (branch_answers (with_active cfg (su_active s1)) dbg par (su_sort s1) (su_tms s1)
                        got sv _ _ Es).
              - apply Hs. simpl; auto.
              - destruct Hpar; [auto|right; lia]. }
            apply Forall2_len in An. rewrite map_length in An. lia. }
        assert (Rest : forall outs2, Forall2 osim outs1 outs2 ->
           (forall h2, run cfg dbg par r2 x' inp' (map (fun o => (o_state o, o_env o)) outs2) = Ok h2 -> h2 = h) /\
           ((forall s, In s r2 -> su_active s = true ->
               forall probs, exists st, updateState dbg (su_sort s) probs = Ok st) ->
            run cfg dbg par r2 x' inp' (map (fun o => (o_state o, o_env o)) outs2) = Ok h)).
        { intros outs2 FO. apply (IH r2 x' inp' (map (fun o => (o_state o, o_env o)) outs1)); auto.
          - intros s [Hin|Hin]; apply Hs; simpl; auto.
          - rewrite map_length. destruct Hpar; [auto|right; lia]. }
        split.
        + intros h2 E2. simpl in E2. fold R2 in E2. apply bind_ok in E2 as (outs2 & O2 & E2).
          assert (FO := Step outs2 O2). rewrite <- (osim_phys _ _ FO), Efl in E2.
          apply bind_ok in E2 as (h' & Eh' & E2). inversion E2; subst h2. f_equal.
          destruct (Rest _ FO) as [IH1 _]. auto.
        + intros Pl. simpl. fold R2.
          destruct (one_step cfg (su_active s1) (su_active s2) dbg par par (su_sort s1) (su_sort s2)
                     (su_tms s1) (su_tms s2) R1 R2 outs1) as (outs2 & O2 & FO); auto.
          { apply Hs. simpl; auto. }
          { apply Hs. simpl; auto. }
          { destruct Hpar; [auto|right; lia]. }
          { destruct Hpar; [auto|right; lia]. }
          { intros _ B got _. apply Pl; simpl; auto. }
          rewrite O2. cbn [bind]. rewrite <- (osim_phys _ _ FO), Efl.
          destruct (Rest _ FO) as [_ IH2].
          rewrite IH2; [reflexivity|]. intros s Hin. apply Pl. simpl; auto.
    Qed.
  End Runs.
End Transparent.
