(** The balanced solving phase answers each problem in place. *)
From Coq Require Import List Arith Bool ZArith Lia Permutation.
From Verif Require Import Outcome Arith Problem LoadBalancing BalancerSpec SweepFacts PlanFacts
  SliceFacts BalancerProofs Streams StreamFacts Comm CommFacts BalanceFacts MixtureFraction
  ChemistryModel ChemFacts ChemSim.
Import ListNotations.
Local Open Scope nat_scope.

Lemma Forall2_impl {S T} (R R' : S -> T -> Prop) l1 l2 :
  (forall x y, R x y -> R' x y) -> Forall2 R l1 l2 -> Forall2 R' l1 l2.
Proof. intros Hi. induction 1; auto. Qed.

Lemma Forall2_concat {S T} (R : S -> T -> Prop) l1 l2 :
  Forall2 (Forall2 R) l1 l2 -> Forall2 R (concat l1) (concat l2).
Proof. induction 1; simpl; auto. apply Forall2_app; auto. Qed.

Lemma Forall2_index {S T} (R : S -> T -> Prop) l1 l2 :
  length l1 = length l2 ->
  (forall i a b, nth_error l1 i = Some a -> nth_error l2 i = Some b -> R a b) -> Forall2 R l1 l2.
Proof.
  revert l2. induction l1 as [|a l1 IH]; intros [|b l2] L HR; simpl in L; try discriminate; auto.
  constructor; [apply (HR 0); auto|]. apply IH; [lia|]. intros i. apply (HR (Datatypes.S i)).
Qed.

Lemma nth_error_some_lt {T} (l : list T) i : i < length l -> exists x, nth_error l i = Some x.
Proof.
  intros L. destruct (nth_error l i) eqn:E; eauto. apply nth_error_None in E. lia.
Qed.

Lemma mapM_total {S T} (f : S -> outcome T) l :
  (forall x, In x l -> exists y, f x = Ok y) -> exists ys, mapM f l = Ok ys.
Proof.
  induction l as [|a l IH]; intros Hf; simpl; eauto.
  destruct (Hf a) as (y & ->); [simpl; auto|]. simpl.
  destruct IH as (ys & ->); [intros; apply Hf; simpl; auto|]. simpl. eauto.
Qed.

Lemma mapS_total {E S T} (f : E -> S -> outcome (T * E)) l :
  (forall x e, In x l -> exists y e', f e x = Ok (y, e')) -> forall e,
  exists ys e', mapS f e l = Ok (ys, e').
Proof.
  induction l as [|a l IH]; intros Hf e; simpl; eauto.
  destruct (Hf a e) as (y & e1 & ->); [simpl; auto|]. simpl.
  destruct (IH (fun x e Hx => Hf x e (or_intror Hx)) e1) as (ys & e2 & ->). simpl. eauto.
Qed.

Section Bal.
  Context {A : Arith} {H : Type}.
  Variable kern : H -> kcell A -> outcome (kcell A * H).
  Variable fuel : nat.
  Variable cfg : config A.

  (** Timers of all ranks. *)
  Variable tms : nat -> nat -> num A.

  (** [s] is an answer of [solveSingle] to [p], on some rank [q]. *)
  Definition sol (p : problem A) (s : solution A) : Prop :=
    exists q e e', single kern fuel cfg (tms q) e p = Ok (s, e').

  Lemma singles_sol q e ps ss e' :
    mapS (single kern fuel cfg (tms q)) e ps = Ok (ss, e') -> Forall2 sol ps ss.
  Proof.
    intros E. apply mapS_each in E. eapply Forall2_impl; [|exact E].
    intros p s (e1 & e2 & E2). exists q, e1, e2. auto.
  Qed.

  Lemma solveList_sol q e ps ss e' :
    solveList kern fuel cfg (tms q) e ps = Ok (ss, e') -> Forall2 sol ps ss.
  Proof. rewrite solveList_mapS. apply singles_sol. Qed.

  Lemma solveBuffer_sol q e b bs e' :
    solveBuffer kern fuel cfg (tms q) e b = Ok (bs, e') -> Forall2 (Forall2 sol) b bs.
  Proof.
    rewrite solveBuffer_mapS. intros E. apply mapS_each in E. eapply Forall2_impl; [|exact E].
    intros p s (e1 & e2 & E2). eapply singles_sol; eauto.
  Qed.

  Definition solvable (p : problem A) : Prop :=
    forall tm e, exists s e', single kern fuel cfg tm e p = Ok (s, e').

  Lemma solveList_total tm e ps : (forall p, In p ps -> solvable p) ->
    exists ss e', solveList kern fuel cfg tm e ps = Ok (ss, e').
  Proof. intros Hs. rewrite solveList_mapS. apply mapS_total. intros. apply Hs; auto. Qed.

  Lemma solveBuffer_total tm e b : (forall ps p, In ps b -> In p ps -> solvable p) ->
    exists bs e', solveBuffer kern fuel cfg tm e b = Ok (bs, e').
  Proof.
    intros Hs. unfold solveBuffer. apply mapS_total. intros.
    apply solveList_total; eauto.
  Qed.

  Section Plan.
    Variables (dbg par : bool) (sortf : list (load A) -> list (load A)).
    Variable got : list (list (problem A) * mstate A * (H * nat)).
    Let probs := map (fun '(ps, _, _) => ps) got.
    Variable sts : list bstate.
    Hypothesis Hs : sort_contract sortf.
    Hypothesis HU : updateState dbg sortf probs = Ok sts.
    Hypothesis Hpar : par = true \/ length got <= 1.

    Lemma got_probs : length probs = length got.
    Proof. apply map_length. Qed.

    (** The first half of the phase always succeeds. *)
    Lemma outward :
      exists sl guests owns,
        balance (wr_list wr_problem) (rd_list rd_problem) par sts probs = Ok guests /\
        mapM (fun '(st, ps) => getRemaining st ps) (combine sts probs) = Ok owns /\
        length guests = length got /\ length owns = length got /\ length sl = length got /\
        length sts = length got /\
        (forall p ps, nth_error probs p = Some ps ->
           exists s r, nth_error sl p = Some s /\ nth_error owns p = Some r /\ concat s ++ r = ps) /\
        (forall p st s, nth_error sts p = Some st -> nth_error sl p = Some s ->
           length s = length (destinations st)) /\
        (forall q, Forall2 (fun s v => slot (map destinations sts) sl s q v)
                     (nth q (map sources sts) []) (nth q guests [])).
    Proof.
      assert (SP := update_sym _ _ _ _ Hs HU).
      destruct (wellformed_lemma _ _ _ _ Hs HU) as [L _].
      destruct (update_slices dbg sortf probs sts probs Hs HU eq_refl) as (sl & owns & S1 & S2 & S3 & S4).
      destruct (balance_ok (wr_list wr_problem) (rd_list rd_problem)
                  (codec_list _ _ codec_problem) par sts probs sl SP) as (guests & G1 & G2 & G3); auto.
      { destruct Hpar as [|Hp]; auto. right. intros st Hst.
        eapply (update_serial dbg sortf probs sts); eauto. rewrite got_probs; auto. }
      assert (LC : length (combine sts probs) = length got).
      { rewrite combine_length, L, Nat.min_id, got_probs. auto. }
      assert (Lsl := Forall2_len _ _ _ S1). assert (Lown := Forall2_len _ _ _ S2).
      rewrite got_probs in L.
      exists sl, guests, owns. split; auto. split.
      { apply mapM_ok. eapply Forall2_impl; [|exact S2]. intros [st vs] r. auto. }
      split; [lia|]. split; [lia|]. split; [lia|]. split; [lia|]. split; [|split; auto].
      - intros p ps Hp. destruct (Forall2_nth_error _ _ _ S3 p _ Hp) as ([s r] & E3 & E3').
        rewrite nth_error_combine in E3.
        destruct (nth_error sl p) eqn:Es; [|discriminate].
        destruct (nth_error owns p) eqn:Eo; [|discriminate].
        inversion E3; subst. eauto.
      - intros p st s Hst Hsl. destruct (Forall2_nth_error_r _ _ _ S1 p _ Hsl) as ([st' vs] & E & E').
        rewrite nth_error_combine, Hst in E. destruct (nth_error probs p); [|discriminate].
        inversion E; subst. apply mapM_length in E'. rewrite seq_length in E'. auto.
    Qed.

    (** What comes back, if every rank solves its own and its guests' problems. *)
    Lemma homeward sl guests owns (sols : list (list (solution A) * list (list (solution A)) * (H * nat))) :
      length guests = length got -> length owns = length got -> length sl = length got ->
      length sts = length got ->
      (forall p ps, nth_error probs p = Some ps ->
         exists s r, nth_error sl p = Some s /\ nth_error owns p = Some r /\ concat s ++ r = ps) ->
      (forall p st s, nth_error sts p = Some st -> nth_error sl p = Some s ->
         length s = length (destinations st)) ->
      (forall q, Forall2 (fun s v => slot (map destinations sts) sl s q v)
                   (nth q (map sources sts) []) (nth q guests [])) ->
      Forall2 (fun '(own, gs) '(os, gss, _) => Forall2 sol own os /\ Forall2 (Forall2 sol) gs gss)
        (combine owns guests) sols ->
      exists back,
        unbalance (wr_list wr_solution) (rd_list rd_solution) par sts
          (map (fun '(_, gs, _) => gs) sols) = Ok back /\
        length back = length got /\
        Forall2 (fun ps '(inc, _) => Forall2 sol ps (concat inc)) probs
          (map (fun '((os, _, e), b) => (b ++ [os], e)) (combine sols back)).
    Proof.
      intros LG LO LS LT Hsl Hlen G3 F.
      assert (SP := update_sym _ _ _ _ Hs HU).
      assert (Lsols : length sols = length got).
      { apply Forall2_len in F. rewrite combine_length, LG, LO, Nat.min_id in F. auto. }
      set (gsols := map (fun '(_, gs, _) => gs) sols).
      assert (Rank : forall q own gs, nth_error owns q = Some own -> nth_error guests q = Some gs ->
                exists os gss e, nth_error sols q = Some (os, gss, e) /\
                  nth_error gsols q = Some gss /\ Forall2 sol own os /\ Forall2 (Forall2 sol) gs gss).
      { intros q own gs Ho Hg.
        destruct (Forall2_nth_error _ _ _ F q (own, gs)) as ([[os gss] e] & E1 & E2 & E3).
        { rewrite nth_error_combine, Ho, Hg. auto. }
        exists os, gss, e. repeat split; auto. unfold gsols. rewrite nth_error_map, E1. auto. }
      assert (Lgs : length gsols = length got) by (unfold gsols; rewrite map_length; auto).
      assert (Gq : forall q, q < length got -> exists gs gss, nth_error guests q = Some gs /\
                nth_error gsols q = Some gss /\ Forall2 (Forall2 sol) gs gss).
      { intros q Hq. destruct (nth_error_some_lt guests q) as (gs & Eg); [lia|].
        destruct (nth_error_some_lt owns q) as (own & Eo); [lia|].
        destruct (Rank q own gs Eo Eg) as (os & gss & e & _ & E2 & _ & E4). eauto. }
      destruct (unbalance_ok (wr_list wr_solution) (rd_list rd_solution)
                  (codec_list _ _ codec_solution) par sts gsols SP) as (back & B1 & B2 & B3).
      { apply nth_error_ext. intros q. rewrite !nth_error_map.
        destruct (nth_error sts q) as [st|] eqn:Eq.
        - assert (Hq : q < length got) by (rewrite <- LT; apply nth_error_Some; congruence).
          destruct (Gq q Hq) as (gs & gss & Eg & Egs & Fg). rewrite Egs. simpl. f_equal.
          specialize (G3 q). rewrite (nth_map_sources _ _ _ Eq), (nth_error_nth _ _ _ Eg) in G3.
          apply Forall2_len in G3. apply Forall2_len in Fg. lia.
        - apply nth_error_None in Eq. rewrite (proj2 (nth_error_None gsols q)) by lia. auto. }
      { destruct Hpar as [|Hp]; auto. right. intros st Hst.
        eapply (update_serial dbg sortf probs sts); eauto. rewrite got_probs; auto. }
      exists back. split; auto. split; [lia|].
      apply Forall2_index.
      { rewrite map_length, combine_length, got_probs. lia. }
      intros p ps [inc e] Hp Hinc.
      assert (Hlt : p < length got) by (rewrite <- got_probs; apply nth_error_Some; congruence).
      destruct (Hsl p ps Hp) as (s & r & Es & Er & Ec).
      destruct (nth_error_some_lt guests p) as (gs & Eg); [lia|].
      destruct (nth_error_some_lt sts p) as (st & Est); [lia|].
      destruct (nth_error_some_lt back p) as (b & Eb); [lia|].
      destruct (Rank p r gs Er Eg) as (os & gss & e' & E1 & E2 & E3 & E4).
      rewrite nth_error_map, nth_error_combine, E1, Eb in Hinc. simpl in Hinc.
      inversion Hinc; subst inc e'. rewrite concat_app. simpl. rewrite app_nil_r, <- Ec.
      apply Forall2_app; auto. apply Forall2_concat.
      assert (RT := roundtrip _ _ sl guests gsols back SP G3 B3 p).
      rewrite (nth_map_dests _ _ _ Est), (nth_error_nth _ _ _ Es), (nth_error_nth _ _ _ Eb) in RT.
      assert (LB : length b = length (destinations st)).
      { specialize (B3 p). rewrite (nth_map_dests _ _ _ Est), (nth_error_nth _ _ _ Eb) in B3.
        apply Forall2_len in B3. auto. }
      assert (LS2 := Hlen p st s Est Es).
      apply Forall2_index; [lia|]. intros i v w Hv Hw.
      destruct (nth_error_some_lt (destinations st) i) as (d & Ed).
      { rewrite <- LB. apply nth_error_Some. congruence. }
      destruct (RT i d Ed) as (j & v' & w' & R1 & R2 & R3 & R4 & R5).
      assert (v' = v) by congruence. assert (w' = w) by congruence. subst v' w'.
      assert (Hd : d < length got).
      { assert (B := sp_dst _ _ SP p d). rewrite map_length in B. rewrite <- LT. apply B.
        rewrite (nth_map_dests _ _ _ Est). eapply nth_error_In; eauto. }
      destruct (Gq d Hd) as (gd & gsd & Egd & Egsd & Fgd).
      rewrite (nth_error_nth _ _ _ Egd) in R3. rewrite (nth_error_nth _ _ _ Egsd) in R4.
      destruct (Forall2_nth_error _ _ _ Fgd j v R3) as (w2 & Ew2 & Fw). congruence.
    Qed.

    Lemma balanced_answers solved :
      solve_balanced kern fuel cfg dbg par sortf tms got = Ok solved ->
      Forall2 (fun ps '(inc, _) => Forall2 sol ps (concat inc)) probs solved.
    Proof.
      intros E. unfold solve_balanced in E. cbv zeta in E. fold probs in E. rewrite HU in E. cbn [bind] in E.
      destruct outward as (sl & guests & owns & B1 & O1 & LG & LO & LS & LT & Hsl & Hlen & G3).
      rewrite B1 in E. cbn [bind] in E. rewrite O1 in E. cbn [bind] in E.
      apply bind_ok in E as (sols & E1 & E).
      apply bind_ok in E as (back & E2 & E). inversion E; subst solved; clear E.
      destruct (homeward sl guests owns sols LG LO LS LT Hsl Hlen G3) as (back' & B & _ & F).
      - apply mapM_ok in E1. apply Forall2_index.
        + apply Forall2_len in E1. rewrite enum_length in E1.
          rewrite !combine_length in *. lia.
        + intros q [own gs] [[os gss] e] Hq Hs'.
          destruct (Forall2_nth_error_r _ _ _ E1 q _ Hs') as ([i [[[ps m] e0] [own' gs']]] & En & Ep).
          rewrite nth_error_enum in En.
          destruct (nth_error (combine got (combine owns guests)) q) as [z|] eqn:Ez; [|discriminate].
          simpl in En. inversion En; subst i z. rewrite nth_error_combine in Ez.
          rewrite Hq in Ez. destruct (nth_error got q); [|discriminate]. inversion Ez; subst.
          unfold phase_solve in Ep. apply bind_ok in Ep as ([os1 e1] & P1 & Ep).
          apply bind_ok in Ep as ([gs1 e2] & P2 & Ep). inversion Ep; subst.
          split; [eapply solveList_sol; eauto|eapply solveBuffer_sol; eauto].
      - rewrite B in E2. inversion E2; subst. exact F.
    Qed.

    (** What a rank works on was put to it by one of the ranks. *)
    Lemma members sl guests owns :
      length guests = length got -> length owns = length got -> length sl = length got ->
      length sts = length got ->
      (forall p ps, nth_error probs p = Some ps ->
         exists s r, nth_error sl p = Some s /\ nth_error owns p = Some r /\ concat s ++ r = ps) ->
      (forall q, Forall2 (fun s v => slot (map destinations sts) sl s q v)
                   (nth q (map sources sts) []) (nth q guests [])) ->
      forall q own gs, nth_error owns q = Some own -> nth_error guests q = Some gs ->
        (forall p, In p own -> exists ps, In ps probs /\ In p ps) /\
        (forall v p, In v gs -> In p v -> exists ps, In ps probs /\ In p ps).
    Proof.
      intros LG LO LS LT Hsl G3 q own gs Eo Eg.
      assert (Rk : forall q, q < length got -> exists ps s r, nth_error probs q = Some ps /\
                nth_error sl q = Some s /\ nth_error owns q = Some r /\ concat s ++ r = ps).
      { intros a Ha. destruct (nth_error_some_lt probs a) as (ps & E1); [rewrite got_probs; auto|].
        destruct (Hsl a ps E1) as (s & r & E2 & E3 & E4). eauto 8. }
      split.
      - intros p Hp. destruct (Rk q) as (ps & s & r & K1 & _ & K3 & K4).
        { rewrite <- LO. apply nth_error_Some. congruence. }
        rewrite Eo in K3. inversion K3; subst r. exists ps. split; [eapply nth_error_In; eauto|].
        rewrite <- K4. apply in_or_app. auto.
      - intros v p Hv Hp. apply In_nth_error in Hv as (j & Hj).
        specialize (G3 q). rewrite (nth_error_nth _ _ _ Eg) in G3.
        destruct (Forall2_nth_error_r _ _ _ G3 j _ Hj) as (a & _ & (k & K1 & K2)).
        destruct (Rk a) as (psa & s & r & J1 & J2 & J3 & J4).
        { destruct (Nat.lt_ge_cases a (length got)); auto.
          rewrite (nth_overflow sl) in K2 by lia. destruct k; discriminate. }
        rewrite (nth_error_nth _ _ _ J2) in K2. exists psa. split; [eapply nth_error_In; eauto|].
        rewrite <- J4. apply in_or_app. left. apply in_concat.
        exists v. split; auto. eapply nth_error_In; eauto.
    Qed.

    Lemma balanced_total :
      (forall ps p, In ps probs -> In p ps -> solvable p) ->
      exists solved, solve_balanced kern fuel cfg dbg par sortf tms got = Ok solved.
    Proof.
      intros Sv. unfold solve_balanced. cbv zeta. fold probs. rewrite HU. cbn [bind].
      destruct outward as (sl & guests & owns & B1 & O1 & LG & LO & LS & LT & Hsl & Hlen & G3).
      rewrite B1. cbn [bind]. rewrite O1. cbn [bind].
      destruct (mapM_total (fun '(i, ((_, _, e), (own, gs))) => phase_solve kern fuel cfg (tms i) e own gs)
                  (enum (combine got (combine owns guests)))) as (sols & E1).
      { intros [i [[[ps m] e] [own gs]]] Hin. apply In_nth_error in Hin as (q & Hq).
        rewrite nth_error_enum in Hq.
        destruct (nth_error (combine got (combine owns guests)) q) as [z|] eqn:Ez; [|discriminate].
        simpl in Hq. inversion Hq; subst i z. rewrite !nth_error_combine in Ez.
        destruct (nth_error got q) as [g|] eqn:Eg; [|discriminate].
        destruct (nth_error owns q) as [o|] eqn:Eo; [|discriminate].
        destruct (nth_error guests q) as [gg|] eqn:Egg; [|discriminate].
        inversion Ez; subst.
        destruct (members sl guests owns LG LO LS LT Hsl G3 q own gs Eo Egg) as [M1 M2].
        unfold phase_solve.
        destruct (solveList_total (tms q) e own) as (os & e1 & ->).
        { intros p Hp. destruct (M1 p Hp) as (ps1 & K1 & K2). eauto. }
        simpl. destruct (solveBuffer_total (tms q) e1 gs) as (gss & e2 & ->).
        { intros v p Hv Hp. destruct (M2 v p Hv Hp) as (ps1 & K1 & K2). eauto. }
        simpl. eauto. }
      rewrite E1. cbn [bind].
      destruct (homeward sl guests owns sols LG LO LS LT Hsl Hlen G3) as (back & B & _ & _).
      - apply mapM_ok in E1. apply Forall2_index.
        + apply Forall2_len in E1. rewrite enum_length in E1.
          rewrite !combine_length in *. lia.
        + intros q [own gs] [[os gss] e] Hq Hs'.
          destruct (Forall2_nth_error_r _ _ _ E1 q _ Hs') as ([i [[[ps m] e0] [own' gs']]] & En & Ep).
          rewrite nth_error_enum in En.
          destruct (nth_error (combine got (combine owns guests)) q) as [z|] eqn:Ez; [|discriminate].
          simpl in En. inversion En; subst i z. rewrite nth_error_combine in Ez.
          rewrite Hq in Ez. destruct (nth_error got q); [|discriminate]. inversion Ez; subst.
          unfold phase_solve in Ep. apply bind_ok in Ep as ([os1 e1] & P1 & Ep).
          apply bind_ok in Ep as ([gs1 e2] & P2 & Ep). inversion Ep; subst.
          split; [eapply solveList_sol; eauto|eapply solveBuffer_sol; eauto].
      - rewrite B. simpl. eauto.
    Qed.
  End Plan.

  Lemma local_answers got solved :
    solve_local kern fuel cfg tms got = Ok solved ->
    Forall2 (fun ps '(inc, _) => Forall2 sol ps (concat inc)) (map (fun '(ps, _, _) => ps) got) solved.
  Proof.
    unfold solve_local. intros E. apply mapM_ok in E. apply Forall2_index.
    - apply Forall2_len in E. rewrite enum_length in E. rewrite map_length. auto.
    - intros q ps [inc e] Hq Hs'. rewrite nth_error_map in Hq.
      destruct (nth_error got q) as [[[ps' m] e0]|] eqn:Eg; [|discriminate]. inversion Hq; subst ps'.
      destruct (Forall2_nth_error_r _ _ _ E q _ Hs') as ([i [[ps2 m2] e2]] & En & Ep).
      rewrite nth_error_enum, Eg in En. simpl in En. inversion En; subst.
      apply bind_ok in Ep as ([os e1] & P1 & Ep). inversion Ep; subst. simpl. rewrite app_nil_r.
      eapply solveList_sol; eauto.
  Qed.

  Lemma local_total got :
    (forall ps p, In ps (map (fun '(ps, _, _) => ps) got) -> In p ps -> solvable p) ->
    exists solved, solve_local kern fuel cfg tms got = Ok solved.
  Proof.
    intros Sv. unfold solve_local. apply mapM_total. intros [i [[ps m] e]] Hin.
    destruct (solveList_total (tms i) e ps) as (os & e1 & ->); [|simpl; eauto].
    intros p Hp. apply (Sv ps); auto. apply in_map_iff. exists (ps, m, e). split; auto.
    apply In_nth_error in Hin as (q & Hq). rewrite nth_error_enum in Hq.
    destruct (nth_error got q) eqn:Eg; [|discriminate]. simpl in Hq. inversion Hq; subst.
    eapply nth_error_In; eauto.
  Qed.
End Bal.
