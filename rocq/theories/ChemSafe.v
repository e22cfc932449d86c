(** No undefined behaviour in a call of solve(); completion; sub-stepping. *)
From Coq Require Import List Arith Bool ZArith QArith Lia Lqa Permutation.
From Verif Require Import Outcome Arith Problem LoadBalancing BalancerSpec PlanFacts
  BalancerProofs Streams StreamFacts Comm CommFacts BalanceFacts MixtureFraction ChemistryModel
  ChemFacts ChemSim ChemBalance ChemTransparent ChemCells ChemStep.
Import ListNotations.
Local Open Scope nat_scope.

Lemma noUB_bind {S T} (a : outcome S) (f : S -> outcome T) :
  a <> UB -> (forall x, a = Ok x -> f x <> UB) -> bind a f <> UB.
Proof. destruct a; simpl; auto; discriminate. Qed.

Lemma noUB_mapM {S T} (f : S -> outcome T) l :
  (forall x, In x l -> f x <> UB) -> mapM f l <> UB.
Proof.
  induction l as [|a l IH]; intros Hf; simpl; [discriminate|].
  apply noUB_bind; [apply Hf; simpl; auto|]. intros. apply noUB_bind.
  - apply IH. intros; apply Hf; simpl; auto.
  - discriminate.
Qed.

Lemma noUB_mapS {E S T} (f : E -> S -> outcome (T * E)) l :
  (forall e x, In x l -> f e x <> UB) -> forall e, mapS f e l <> UB.
Proof.
  induction l as [|a l IH]; intros Hf e; simpl; [discriminate|].
  apply noUB_bind; [apply Hf; simpl; auto|]. intros [y e1] _. apply noUB_bind; [|intros [ys e2] _; discriminate].
  apply IH. intros; apply Hf; simpl; auto.
Qed.

Section Safe.
  Context {A : Arith} {H : Type}.
  Variable kern : H -> kcell A -> outcome (kcell A * H).
  Variable fuel : nat.
  Variable cfg : config A.
  Notation ns := (g_nSpecie cfg).

  (** On a cell with all the species the cell solver has no undefined behaviour and keeps the
      number of species. *)
  Definition sane_solver (nsp : nat) : Prop :=
    forall h x, length (k_c x) = nsp ->
      match kern h x with
      | Ok (x', _) => length (k_c x') = nsp
      | UB => False
      | _ => True
      end.

  Section Sane.
    Hypothesis KS : sane_solver ns.

    Lemma substeps_sane n : forall h t x, length (k_c x) = ns ->
      match substeps kern n h t x with
      | Ok (x', _) => length (k_c x') = ns
      | UB => False
      | _ => True
      end.
    Proof.
      induction n as [|n IH]; intros h t x L; simpl; destruct (nltb A (small A) t); auto.
      assert (P := KS h (mkCell (k_p x) (k_T x) (k_c x) t (k_sub x)) L).
      destruct (kern h _) as [[x1 h1]| | |]; cbn [bind]; auto. apply IH. exact P.
    Qed.

    Lemma single_sane tm e p : length (p_c p) = ns -> single kern fuel cfg tm e p <> UB.
    Proof.
      intros L. unfold single, solveSingle. apply noUB_bind.
      - assert (P := substeps_sane fuel (fst e) (p_deltaT p)
                       (mkCell (p_p p) (p_T p) (p_c p) (p_deltaT p) (p_deltaTChem p)) L).
        destruct (substeps kern fuel _ _ _) as [[x h']| | |]; cbn [bind]; try discriminate; try contradiction.
        unfold rates. rewrite P, L, Nat.eqb_refl. cbn [bind]. discriminate.
      - intros [us e'] E. destruct (solveSingle_read kern fuel cfg tm e p (us_sized ns) us e' E) as (s & ->). discriminate.
    Qed.

    Lemma solveList_sane tm e ps : (forall p, In p ps -> length (p_c p) = ns) ->
      solveList kern fuel cfg tm e ps <> UB.
    Proof. intros L. rewrite solveList_mapS. apply noUB_mapS. intros. apply single_sane; auto. Qed.

    Lemma phase_solve_sane tm e own gs : (forall p, In p own -> length (p_c p) = ns) ->
      (forall v p, In v gs -> In p v -> length (p_c p) = ns) ->
      phase_solve kern fuel cfg tm e own gs <> UB.
    Proof.
      intros L1 L2. unfold phase_solve. apply noUB_bind; [apply solveList_sane; auto|]. intros [os e1] _.
      apply noUB_bind; [apply noUB_mapS; intros; apply solveList_sane; eauto|]. intros [] _. discriminate.
    Qed.
  End Sane.

  Lemma phase_get_each dbg tms ranks got q r ps m e :
    phase_get kern fuel cfg dbg tms ranks = Ok got ->
    nth_error ranks q = Some r -> nth_error got q = Some (ps, m, e) ->
    getProblems kern fuel cfg dbg (tms q) (r_env r) (r_fields r) (r_dt r) (r_state r) = Ok (ps, m, e).
  Proof.
    intros Eg Er Gq. unfold phase_get in Eg. apply mapM_ok in Eg.
    assert (Hen : nth_error (enum ranks) q = Some (q, r)) by (rewrite nth_error_enum, Er; auto).
    destruct (Forall2_nth_error _ _ _ Eg q _ Hen) as (g & Gq' & Eq). simpl in Eq. congruence.
  Qed.

  Lemma phase_update_total dbg tms ranks got sv :
    mapper_ok ns (g_mapper cfg) ->
    (forall r, In r ranks -> exists n, meshed ns n r) ->
    phase_get kern fuel cfg dbg tms ranks = Ok got ->
    Forall2 (fun ps '(inc, _) => Forall2 (sol kern fuel cfg tms) ps (concat inc))
      (map (fun '(ps, _, _) => ps) got) sv ->
    exists outs, phase_update cfg got sv = Ok outs.
  Proof.
    intros MO HM Eg An. unfold phase_update. apply mapM_total.
    intros [[[ps m'] e] [inc e2]] Hin. apply In_nth_error in Hin as (q & Hq).
    rewrite nth_error_combine in Hq.
    destruct (nth_error got q) as [g|] eqn:Gq; [|discriminate].
    destruct (nth_error sv q) as [v|] eqn:Vq; [|discriminate]. inversion Hq; subst g v. clear Hq.
    assert (Lg := phase_get_length kern fuel _ _ _ _ _ Eg).
    destruct (nth_error_some_lt ranks q) as (r & Er).
    { rewrite <- Lg. apply nth_error_Some. congruence. }
    assert (Eq := phase_get_each _ _ _ _ _ _ _ _ _ Eg Er Gq).
    assert (Hp : nth_error (map (fun '(ps, _, _) => ps) got) q = Some ps) by (rewrite nth_error_map, Gq; auto).
    destruct (Forall2_nth_error _ _ _ An q _ Hp) as ([inc' e3] & Vq' & Fq).
    rewrite Vq in Vq'. inversion Vq'; subst inc' e3.
    destruct (HM r) as (n & SF & SM); [eapply nth_error_In; eauto|].
    destruct (getProblems_ok kern fuel cfg n _ _ _ SF SM MO _ _ _ _ _ _ Eq) as (G1 & G2 & _ & _).
    subst ps. destruct (sols_cells kern fuel cfg tms n _ _ _ SF _ (concat inc) Fq) as [K1 K2].
    destruct (store_all cfg n (concat inc) (great A) m' G2) as (mo' & U1 & _).
    { intros s Hs'. split; auto.
      eapply (cells_lt cfg n (r_fields r)). rewrite <- K1. apply in_map; auto. }
    { rewrite K1. apply cells_NoDup. }
    unfold updateReactionRates. exists (mkOut (fold_left (fun t s => foam_min A (s_deltaTChem s) t) (concat inc) (great A)) mo' e2).
    refine (eq_trans (f_equal (fun o => bind o _) U1) _). reflexivity.
  Qed.

  Lemma prob_length n (F : fields A) d m i : shapeF ns n F d -> length (p_c (prob F d m i)) = ns.
  Proof. intros SF. simpl. unfold Yat. rewrite map_length. apply (sf_Y _ _ _ _ SF). Qed.

  Section Call.
    Variables (dbg par : bool) (sortf : list (load A) -> list (load A)) (tms : nat -> nat -> num A).
    Variable ranks : list (rankin A H).
    Hypothesis MO : mapper_ok ns (g_mapper cfg).
    Hypothesis HM : forall r, In r ranks -> exists n, meshed ns n r.
    Hypothesis Hs : sort_contract sortf.
    Hypothesis Hpar : par = true \/ length ranks <= 1.

    Lemma In_enum {T} (l : list T) i x : In (i, x) (enum l) -> nth_error l i = Some x.
    Proof.
      intros Hin. apply In_nth_error in Hin as (k & Hk). rewrite nth_error_enum in Hk.
      destruct (nth_error l k) eqn:E; [|discriminate]. simpl in Hk. inversion Hk; subst. auto.
    Qed.

    Lemma getProblems_sane : sane_solver ns -> forall tm e n (r : rankin A H), meshed ns n r ->
      getProblems kern fuel cfg dbg tm e (r_fields r) (r_dt r) (r_state r) <> UB.
    Proof.
      intros KS tm e n r [SF SM].
      destruct (ref_cell cfg n (r_fields r)) as [i0|] eqn:Er.
      - destruct (single kern fuel cfg tm e (prob (r_fields r) (r_dt r) (r_state r) i0)) as [[s e']| | |] eqn:Es.
        + destruct (getProblems_total kern fuel cfg n _ _ _ SF SM MO dbg tm e) as (x & ->); [|discriminate].
          intros i E. rewrite Er in E. inversion E; subst. eauto.
        + exfalso. eapply (single_sane KS); [|exact Es]. apply (prob_length n); auto.
        + rewrite (getProblems_eq kern fuel cfg n _ _ _ SF SM MO). unfold ref_cell in Er.
          destruct (mapped_upto cfg (r_fields r) n); [discriminate|]. simpl in Er. inversion Er; subst.
          rewrite Es. discriminate.
        + rewrite (getProblems_eq kern fuel cfg n _ _ _ SF SM MO). unfold ref_cell in Er.
          destruct (mapped_upto cfg (r_fields r) n); [discriminate|]. simpl in Er. inversion Er; subst.
          rewrite Es. discriminate.
      - destruct (getProblems_total kern fuel cfg n _ _ _ SF SM MO dbg tm e) as (x & ->); [|discriminate].
        intros i E. rewrite Er in E. discriminate.
    Qed.

    Lemma got_length got : phase_get kern fuel cfg dbg tms ranks = Ok got ->
      forall ps p, In ps (map (fun '(ps, _, _) => ps) got) -> In p ps -> length (p_c p) = ns.
    Proof.
      intros Eg ps p Hps Hp. apply In_nth_error in Hps as (q & Hq). rewrite nth_error_map in Hq.
      destruct (nth_error got q) as [[[ps1 m] e]|] eqn:Gq; [|discriminate]. inversion Hq; subst ps1.
      assert (Lg := phase_get_length kern fuel _ _ _ _ _ Eg).
      destruct (nth_error_some_lt ranks q) as (r & Er).
      { rewrite <- Lg. apply nth_error_Some. congruence. }
      assert (Eq := phase_get_each _ _ _ _ _ _ _ _ _ Eg Er Gq).
      destruct (HM r) as (n & SF & SM); [eapply nth_error_In; eauto|].
      destruct (getProblems_ok kern fuel cfg n _ _ _ SF SM MO _ _ _ _ _ _ Eq) as (G1 & _). subst ps.
      apply in_map_iff in Hp as (i & <- & Hi). apply (prob_length n); auto.
    Qed.

    Lemma solve_all_sane : sane_solver ns ->
      (g_chem cfg = true -> g_active cfg = true -> forall got,
         phase_get kern fuel cfg dbg tms ranks = Ok got ->
         updateState dbg sortf (map (fun '(ps, _, _) => ps) got) <> UB) ->
      solve_all kern fuel cfg dbg par sortf tms ranks <> UB.
    Proof.
      intros KS HU. unfold solve_all. destruct (g_chem cfg); cbn [negb]; [|discriminate].
      apply noUB_bind.
      { unfold phase_get. apply noUB_mapM. intros [i r] Hin. apply In_enum in Hin.
        destruct (HM r) as (n & M); [eapply nth_error_In; eauto|]. eapply getProblems_sane; eauto. }
      intros got Eg. assert (Lg := phase_get_length kern fuel _ _ _ _ _ Eg).
      assert (Hpar' : par = true \/ length got <= 1) by (rewrite Lg; auto).
      apply noUB_bind.
      - destruct (g_active cfg) eqn:Ea.
        + destruct (updateState dbg sortf (map (fun '(ps, _, _) => ps) got)) as [sts| | |] eqn:EU.
          2:{ exfalso. eapply HU; eauto. }
          2,3: unfold solve_balanced; cbv zeta; rewrite EU; discriminate.
          unfold solve_balanced. cbv zeta. rewrite EU. cbn [bind].
          destruct (outward dbg par sortf got sts Hs EU Hpar')
            as (sl & guests & owns & B1 & O1 & LG & LO & LS & LT & Hsl & Hlen & G3).
          rewrite B1. cbn [bind]. rewrite O1. cbn [bind]. apply noUB_bind.
          * apply noUB_mapM. intros [i [[[ps m] e] [own gs]]] Hin. apply In_enum in Hin.
            rewrite !nth_error_combine in Hin. destruct (nth_error got i) as [g|] eqn:Eg'; [|discriminate].
            destruct (nth_error owns i) as [o|] eqn:Eo; [|discriminate].
            destruct (nth_error guests i) as [gg|] eqn:Egg; [|discriminate]. inversion Hin; subst.
            destruct (members par got sts Hpar' sl guests owns LG LO LS LT Hsl G3 i own gs Eo Egg) as [M1 M2].
            apply phase_solve_sane; auto.
            -- intros p Hp. destruct (M1 p Hp) as (ps1 & K1 & K2). eapply got_length; eauto.
            -- intros v p Hv Hp. destruct (M2 v p Hv Hp) as (ps1 & K1 & K2). eapply got_length; eauto.
          * intros sols E1.
            destruct (homeward kern fuel cfg tms dbg par sortf got sts Hs EU Hpar' sl guests owns sols
                        LG LO LS LT Hsl Hlen G3) as (back & B & _); [|rewrite B; discriminate].
            apply mapM_ok in E1. apply Forall2_index.
            -- apply Forall2_len in E1. rewrite enum_length in E1. rewrite !combine_length in *. lia.
            -- intros q [own gs] [[os gss] e] Hq Hs'.
               destruct (Forall2_nth_error_r _ _ _ E1 q _ Hs') as ([i [[[ps m] e0] [own' gs']]] & En & Ep).
               rewrite nth_error_enum in En.
               destruct (nth_error (combine got (combine owns guests)) q) as [z|] eqn:Ez; [|discriminate].
               simpl in En. inversion En; subst i z. rewrite nth_error_combine in Ez.
               rewrite Hq in Ez. destruct (nth_error got q); [|discriminate]. inversion Ez; subst.
               unfold phase_solve in Ep. apply bind_ok in Ep as ([os1 e1] & P1 & Ep).
               apply bind_ok in Ep as ([gs1 e2] & P2 & Ep). inversion Ep; subst.
               split; [eapply solveList_sol; eauto|eapply solveBuffer_sol; eauto].
        + unfold solve_local. apply noUB_mapM. intros [i [[ps m] e]] Hin. apply In_enum in Hin.
          apply noUB_bind; [apply solveList_sane; auto|intros [] _; discriminate].
          intros p Hp. apply (got_length got Eg ps); auto.
          apply (in_map (fun '(ps, _, _) => ps)) in Hin || (apply nth_error_In in Hin; apply (in_map (fun '(ps, _, _) => ps)) in Hin); auto.
      - intros sv Es.
        assert (An := branch_answers kern fuel cfg dbg par sortf tms got sv Hs Hpar' Es).
        destruct (phase_update_total dbg tms ranks got sv MO HM Eg An) as (outs & ->). discriminate.
    Qed.

    (** With a solver that answers every problem the call completes. *)
    Lemma solve_all_total :
      (forall p, length (p_c p) = ns -> solvable kern fuel cfg p) ->
      (g_chem cfg = true -> g_active cfg = true -> forall got,
         phase_get kern fuel cfg dbg tms ranks = Ok got ->
         exists sts, updateState dbg sortf (map (fun '(ps, _, _) => ps) got) = Ok sts) ->
      exists outs, solve_all kern fuel cfg dbg par sortf tms ranks = Ok outs.
    Proof.
      intros Sv HU. unfold solve_all. destruct (g_chem cfg); cbn [negb]; eauto.
      destruct (mapM_total (fun '(i, r) =>
            getProblems kern fuel cfg dbg (tms i) (r_env r) (r_fields r) (r_dt r) (r_state r)) (enum ranks))
        as (got & Eg).
      { intros [i r] Hin. apply In_enum in Hin.
        destruct (HM r) as (n & SF & SM); [eapply nth_error_In; eauto|].
        eapply getProblems_total; eauto. intros i0 Ei. apply Sv. apply (prob_length n); auto. }
      change (phase_get kern fuel cfg dbg tms ranks = Ok got) in Eg. rewrite Eg. cbn [bind].
      assert (Lg := phase_get_length kern fuel _ _ _ _ _ Eg).
      assert (Hpar' : par = true \/ length got <= 1) by (rewrite Lg; auto).
      destruct (branch_total kern fuel cfg dbg par sortf tms got Hs Hpar') as (sv & Es); auto.
      { intros ps p Hps Hp. apply Sv. eapply got_length; eauto. }
      assert (An := branch_answers kern fuel cfg dbg par sortf tms got sv Hs Hpar' Es).
      unfold branch in Es. rewrite Es. cbn [bind].
      eapply phase_update_total; eauto.
    Qed.
  End Call.

  (** A cell solver that always returns, having consumed the whole step asked for. *)
  Definition whole_step (nsp : nat) : Prop :=
    forall h x, length (k_c x) = nsp ->
      exists x' h', kern h x = Ok (x', h') /\ k_dt x' = k_dt x /\ length (k_c x') = nsp.

  Lemma whole_solvable :
    (forall t, nltb A (small A) t = true -> nltb A (small A) (nsub A t t) = false) ->
    whole_step ns -> 1 <= fuel -> forall p, length (p_c p) = ns -> solvable kern fuel cfg p.
  Proof.
    intros HA W Hf p Lp tm e.
    assert (Sb : exists x h', substeps kern fuel (fst e) (p_deltaT p)
              (mkCell (p_p p) (p_T p) (p_c p) (p_deltaT p) (p_deltaTChem p)) = Ok (x, h') /\
              length (k_c x) = ns).
    { destruct fuel as [|n]; [lia|]. simpl. destruct (nltb A (small A) (p_deltaT p)) eqn:Et.
      - destruct (W (fst e) (mkCell (p_p p) (p_T p) (p_c p) (p_deltaT p) (p_deltaTChem p)) Lp) as (x & h' & E & Ed & El).
        rewrite E. simpl in Ed, El. cbn [bind]. rewrite Ed.
        exists x, h'. split; auto. destruct n; simpl; rewrite HA; auto.
      - eexists _, _. split; [reflexivity|]. exact Lp. }
    destruct Sb as (x & h' & E & L). unfold single, solveSingle. rewrite E. cbn [bind].
    unfold rates. rewrite L, Lp, Nat.eqb_refl. cbn [bind us_read us_deltaTChem us_cpuTime us_cellid us_rho us_rr rd].
    eauto.
  Qed.
End Safe.

(** ** Sub-stepping in exact arithmetic *)
Section Substep.
  Variables sm gr vg : Q.
  Notation AQ := (QA sm gr vg).
  Context {H : Type}.
  Variable kern : H -> kcell AQ -> outcome (kcell AQ * H).

  Lemma calls_sum h (t : Q) x l x' h' : calls kern h t x l x' h' ->
    (t - fold_right Qplus 0 l <= sm)%Q.
  Proof.
    induction 1 as [h t x Ht | h t x x1 h1 l x' h' Ht E C IH].
    - apply Qltb_false in Ht. simpl. change (t - 0 <= sm)%Q. unfold small in Ht; simpl in Ht. lra.
    - simpl in *. change (nsub AQ t (k_dt x1)) with (t - k_dt x1)%Q in IH.
      set (s := fold_right Qplus 0%Q l) in *. change (t - (k_dt x1 + s) <= sm)%Q. lra.
  Qed.

  Lemma calls_within h (t : Q) x l x' h' : calls kern h t x l x' h' ->
    (forall h x x1 h1, kern h x = Ok (x1, h1) -> (k_dt x1 <= k_dt x)%Q) ->
    (0 <= t)%Q -> (0 <= t - fold_right Qplus 0 l)%Q.
  Proof.
    intros C Hk. induction C as [h t x Ht | h t x x1 h1 l x' h' Ht E C IH]; intros Hp.
    - simpl. change (0 <= t - 0)%Q. change (0 <= t)%Q in Hp. lra.
    - apply Hk in E. simpl in E. simpl in IH. change (nsub AQ t (k_dt x1)) with (t - k_dt x1)%Q in IH.
      simpl. set (s := fold_right Qplus 0%Q l) in *. change (0 <= t - (k_dt x1 + s))%Q.
      assert (0 <= t - k_dt x1)%Q by (change (k_dt x1 <= t)%Q in E; lra). apply IH in H0. lra.
  Qed.
End Substep.
