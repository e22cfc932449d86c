(** Who solves what: the work of a balanced step is a permutation of all problems; serial
    runs; planning in exact arithmetic. *)
From Coq Require Import List Arith Bool ZArith QArith Qabs Lia Permutation Floats.SpecFloat.
From Verif Require Import Outcome Arith Problem LoadBalancing BalancerSpec SweepFacts PlanFacts
  QSum QSweep PlanQ SliceFacts BalancerProofs Streams StreamFacts Comm CommFacts BalanceFacts
  MixtureFraction ChemistryModel ChemFacts ChemSim ChemBalance.
Import ListNotations.
Local Open Scope nat_scope.

(** ** Rearranging double concatenations *)
Lemma flat_map_ext_in {S T} (f g : S -> list T) l :
  (forall x, In x l -> f x = g x) -> flat_map f l = flat_map g l.
Proof. induction l; simpl; intros E; auto. rewrite E, IHl; auto. Qed.

Lemma flat_map_nil {S T} (f : S -> list T) l : (forall x, In x l -> f x = []) -> flat_map f l = [].
Proof. induction l; simpl; intros E; auto. rewrite E, IHl; auto. Qed.

Lemma flat_map_app_fun {S T} (f g : S -> list T) l :
  Permutation (flat_map (fun x => f x ++ g x) l) (flat_map f l ++ flat_map g l).
Proof.
  induction l as [|a l IH]; simpl; auto. rewrite <- !app_assoc. apply Permutation_app_head.
  rewrite IH. rewrite !app_assoc. apply Permutation_app_tail. apply Permutation_app_comm.
Qed.

Lemma flat_map_swap {S S' T} (g : S -> S' -> list T) l m :
  Permutation (flat_map (fun x => flat_map (g x) m) l) (flat_map (fun y => flat_map (fun x => g x y) l) m).
Proof.
  induction l as [|a l IH]; simpl.
  - rewrite flat_map_nil; auto.
  - rewrite IH. symmetry. apply (flat_map_app_fun (g a) (fun y => flat_map (fun x => g x y) l)).
Qed.

Lemma flat_map_filter {S T} (f : S -> list T) (P : S -> bool) l :
  (forall x, In x l -> P x = false -> f x = []) -> flat_map f (filter P l) = flat_map f l.
Proof.
  induction l as [|a l IH]; intros E; simpl; auto. destruct (P a) eqn:Ep; simpl.
  - f_equal. apply IH. intros; apply E; simpl; auto.
  - rewrite (E a) by (simpl; auto). apply IH. intros; apply E; simpl; auto.
Qed.

(** A concatenation over some ranks is one over all ranks if the others contribute
    nothing. *)
Lemma flat_map_support {T} (f : nat -> list T) l n :
  NoDup l -> (forall x, In x l -> x < n) -> (forall x, ~ In x l -> f x = []) ->
  Permutation (flat_map f l) (flat_map f (seq 0 n)).
Proof.
  intros ND Hn Hf.
  rewrite <- (flat_map_filter f (fun x => if in_dec Nat.eq_dec x l then true else false) (seq 0 n)).
  - apply Permutation_flat_map. apply NoDup_Permutation; auto.
    + apply NoDup_filter. apply seq_NoDup.
    + intros x. rewrite filter_In, in_seq. destruct (in_dec Nat.eq_dec x l).
      * specialize (Hn x i). intuition lia.
      * intuition congruence.
  - intros x _. destruct (in_dec Nat.eq_dec x l); auto. discriminate.
Qed.

Lemma Permutation_flat_map_ext {S T} (f g : S -> list T) l :
  (forall x, Permutation (f x) (g x)) -> Permutation (flat_map f l) (flat_map g l).
Proof. intros E. induction l; simpl; auto. apply Permutation_app; auto. Qed.

Lemma concat_by_index {T} (l : list (list T)) : concat l = flat_map (fun i => nth i l []) (seq 0 (length l)).
Proof.
  induction l as [|a l IH]; simpl; auto. f_equal. rewrite IH. rewrite <- seq_shift, flat_map_concat_map.
  rewrite flat_map_concat_map, map_map. reflexivity.
Qed.

Section Moved.
  Context {T : Type}.
  Variables (srcs dests : list (list nat)) (sl guests : list (list (list T))).
  Hypothesis SP : sym_plan srcs dests.
  Hypothesis LS : forall p, length (nth p sl []) = length (nth p dests []).
  Hypothesis HG : forall q, Forall2 (fun s v => slot dests sl s q v) (nth q srcs []) (nth q guests []).

  (** What [p] sends to [q]. *)
  Let parcel (p q : nat) : list T :=
    concat (map snd (filter (fun dx => fst dx =? q) (combine (nth p dests []) (nth p sl [])))).

  Lemma parcel_slot p q v : slot dests sl p q v -> parcel p q = v.
  Proof.
    intros (j & E1 & E2). unfold parcel.
    rewrite (filter_combine_nodup _ _ _ _ _ (sp_nodst _ _ SP p) E1 E2). simpl. apply app_nil_r.
  Qed.

  Lemma parcel_none p q : ~ In q (nth p dests []) -> parcel p q = [].
  Proof.
    intros N. unfold parcel. rewrite filter_none; auto. intros [d v] Hin. simpl.
    apply in_combine_l in Hin. apply Nat.eqb_neq. intros ->. contradiction.
  Qed.

  Lemma sent_parcels p : concat (nth p sl []) = flat_map (parcel p) (nth p dests []).
  Proof.
    rewrite flat_map_concat_map. f_equal.
    apply nth_ext with (d := []) (d' := []); [rewrite map_length; apply LS|].
    intros i Hi. rewrite LS in Hi.
    transitivity (parcel p (nth i (nth p dests []) 0)).
    - symmetry. apply parcel_slot. exists i. split; apply nth_error_nth'; auto. rewrite LS. auto.
    - rewrite <- (map_nth (parcel p)). apply nth_indep. rewrite map_length. auto.
  Qed.

  Lemma received_parcels q : concat (nth q guests []) = flat_map (fun p => parcel p q) (nth q srcs []).
  Proof.
    specialize (HG q). revert HG. generalize (nth q srcs []), (nth q guests []).
    induction 1; simpl; auto. f_equal; auto. symmetry. apply parcel_slot; auto.
  Qed.

  Lemma moved_perm n : length dests = n -> length sl = n -> length guests = n ->
    Permutation (concat (map (@concat T) guests)) (concat (map (@concat T) sl)).
  Proof.
    intros Ld Ls Lg.
    assert (E : forall (L : list (list (list T))), length L = n ->
                concat (map (@concat T) L) = flat_map (fun i => concat (nth i L [])) (seq 0 n)).
    { intros L HL. rewrite concat_by_index, map_length, HL. apply flat_map_ext_in. intros i Hi.
      rewrite <- (map_nth (@concat T) L [] i). reflexivity. }
    rewrite !E by auto.
    transitivity (flat_map (fun q => flat_map (fun p => parcel p q) (seq 0 n)) (seq 0 n)).
    - apply Permutation_flat_map_ext. intros q. rewrite received_parcels. apply flat_map_support.
      + apply (sp_nosrc _ _ SP).
      + intros x Hx. apply (sp_src _ _ SP) in Hx. lia.
      + intros x Hx. apply parcel_none. rewrite (sp_sym _ _ SP). auto.
    - rewrite flat_map_swap. symmetry. apply Permutation_flat_map_ext. intros p. rewrite sent_parcels.
      apply flat_map_support.
      + apply (sp_nodst _ _ SP).
      + intros x Hx. apply (sp_dst _ _ SP) in Hx. lia.
      + intros x Hx. apply parcel_none. auto.
  Qed.
End Moved.

(** ** A balanced step distributes exactly the problems *)
Lemma combine_concat_perm {T} (owns : list (list T)) (gs : list (list T)) :
  length owns = length gs ->
  Permutation (concat (map (fun '(o, g) => o ++ g) (combine owns gs))) (concat owns ++ concat gs).
Proof.
  revert gs. induction owns as [|o owns IH]; intros [|g gs] L; simpl in L; try discriminate; simpl; auto.
  rewrite IH by lia. rewrite <- !app_assoc. apply Permutation_app_head.
  rewrite !app_assoc. apply Permutation_app_tail. apply Permutation_app_comm.
Qed.

Lemma work_lemma {A T K} (enc : list T -> list K) dec par dbg sortf
  (probs : list (list (problem A))) sts (values : list (list T)) :
  (forall x rest, dec (enc x ++ rest) = Some (x, rest)) ->
  sort_contract sortf -> updateState dbg sortf probs = Ok sts ->
  par = true \/ length probs <= 1 ->
  map (@length _) values = map (@length _) probs ->
  exists guests owns,
    balance enc dec par sts values = Ok guests /\
    mapM (fun '(st, vs) => getRemaining st vs) (combine sts values) = Ok owns /\
    length guests = length probs /\ length owns = length probs /\
    Permutation (concat (map (fun '(own, gs) => own ++ concat gs) (combine owns guests)))
      (concat values).
Proof.
  intros HC Hs HU Hpar HL.
  assert (SP := update_sym _ _ _ _ Hs HU).
  destruct (wellformed_lemma _ _ _ _ Hs HU) as [L _].
  assert (LV : length values = length probs).
  { rewrite <- (map_length (@length _) values), HL, map_length. auto. }
  destruct (update_slices dbg sortf probs sts values Hs HU HL) as (sl & owns & S1 & S2 & S3 & S4).
  destruct (balance_ok enc dec HC par sts values sl SP) as (guests & G1 & G2 & G3); auto.
  { lia. }
  { destruct Hpar as [|Hp]; auto. right. intros st Hst.
    eapply (update_serial dbg sortf probs sts); eauto. }
  assert (Lsl := Forall2_len _ _ _ S1). assert (Lown := Forall2_len _ _ _ S2).
  rewrite combine_length in Lsl, Lown.
  exists guests, owns. split; auto. split.
  { apply mapM_ok. eapply Forall2_impl; [|exact S2]. intros [st vs] r. auto. }
  split; [lia|]. split; [lia|].
  assert (LS : forall p, length (nth p sl []) = length (nth p (map destinations sts) [])).
  { intros p. destruct (nth_error sl p) as [s|] eqn:Es.
    - destruct (Forall2_nth_error_r _ _ _ S1 p _ Es) as ([st vs] & E & E').
      rewrite nth_error_combine in E. destruct (nth_error sts p) eqn:Et; [|discriminate].
      destruct (nth_error values p); [|discriminate]. inversion E; subst.
      rewrite (nth_error_nth _ _ _ Es), (nth_map_dests _ _ _ Et). apply mapM_length in E'.
      rewrite seq_length in E'. auto.
    - apply nth_error_None in Es. rewrite !nth_overflow; auto. rewrite map_length. lia. }
  assert (MP := moved_perm (map sources sts) (map destinations sts) sl guests SP LS G3 (length sts)).
  specialize (MP ltac:(rewrite map_length; auto) ltac:(lia) ltac:(lia)).
  assert (E : map (fun '(own, gs) => own ++ concat gs) (combine owns guests)
              = map (fun '(o, g) => o ++ g) (combine owns (map (@concat T) guests))).
  { clear. revert guests. induction owns; intros [|g guests]; simpl; auto. f_equal. auto. }
  rewrite E, combine_concat_perm by (rewrite map_length; lia). rewrite MP.
  assert (E2 : values = map (fun '(o, g) => o ++ g) (combine (map (@concat T) sl) owns)).
  { clear -S3. revert S3. generalize sl, owns. induction values as [|v values IH]; intros sl0 owns0 S3;
      inversion S3; subst.
    - destruct sl0, owns0; simpl in *; try discriminate; auto.
    - destruct sl0 as [|s sl0], owns0 as [|r owns0]; simpl in *; try discriminate. inversion H1; subst.
      simpl in *. f_equal; auto. }
  rewrite E2 at 1. rewrite combine_concat_perm by (rewrite map_length; lia).
  apply Permutation_app_comm.
Qed.

Section Solve.
  Context {A : Arith} {H : Type}.
  Variable kern : H -> kcell A -> outcome (kcell A * H).
  Variable fuel : nat.
  Variable cfg : config A.

  Lemma phase_solve_list tm e own gs os gss e' :
    phase_solve kern fuel cfg tm e own gs = Ok (os, gss, e') ->
    solveList kern fuel cfg tm e (own ++ concat gs) = Ok (os ++ concat gss, e').
  Proof.
    unfold phase_solve. intros E. apply bind_ok in E as ([o1 e1] & E1 & E).
    apply bind_ok in E as ([g1 e2] & E2 & E). inversion E; subst.
    rewrite solveList_mapS in *. rewrite mapS_app, E1. cbn [bind].
    rewrite solveBuffer_mapS in E2.
    assert (C := mapS_concat (single kern fuel cfg tm) e1 gs). rewrite E2 in C. cbn [bind] in C.
    rewrite <- C. reflexivity.
  Qed.

  (** Every rank of a balanced step runs the solver over a list of problems; together the
      lists are all problems, each once. *)
  Lemma balanced_work dbg par sortf tms (got : list (list (problem A) * mstate A * (H * nat))) sv :
    sort_contract sortf -> par = true \/ length got <= 1 ->
    solve_balanced kern fuel cfg dbg par sortf tms got = Ok sv ->
    exists work : list (list (problem A)),
      Permutation (concat work) (concat (map (fun '(ps, _, _) => ps) got)) /\
      length work = length got /\ length sv = length got /\
      forall q w ps m e inc e', nth_error work q = Some w -> nth_error got q = Some (ps, m, e) ->
        nth_error sv q = Some (inc, e') ->
        exists ss, solveList kern fuel cfg (tms q) e w = Ok (ss, e').
  Proof.
    intros Hs Hpar E. unfold solve_balanced in E. cbv zeta in E.
    set (probs := map (fun '(ps, _, _) => ps) got) in *.
    assert (Lp : length probs = length got) by apply map_length.
    apply bind_ok in E as (sts & HU & E). apply bind_ok in E as (guests & EB & E).
    apply bind_ok in E as (owns & EO & E). apply bind_ok in E as (sols & ES & E).
    apply bind_ok in E as (back & EU & E). inversion E; subst sv; clear E.
    destruct (work_lemma (wr_list wr_problem) (rd_list rd_problem) par dbg sortf probs sts probs
                (codec_list _ _ codec_problem) Hs HU) as (guests' & owns' & W1 & W2 & W3 & W4 & W5); auto.
    { rewrite Lp; auto. }
    assert (guests' = guests) by congruence. assert (owns' = owns) by congruence. subst guests' owns'.
    assert (Ls := mapM_length _ _ _ ES). rewrite enum_length, !combine_length in Ls.
    assert (Lb : length back = length got).
    { destruct (outward dbg par sortf got sts Hs HU Hpar)
        as (sl & g2 & o2 & B1 & O1 & LG & LO & LS & LT & Hsl & Hlen & G3).
      fold probs in B1, O1. rewrite W1 in B1. rewrite W2 in O1. inversion B1; inversion O1; subst g2 o2.
      destruct (homeward kern fuel cfg tms dbg par sortf got sts Hs HU Hpar sl guests owns sols
                  LG LO LS LT Hsl Hlen G3) as (back' & B & LB & _); [|congruence].
      apply mapM_ok in ES. apply Forall2_index; [rewrite combine_length; lia|].
      intros q [own gs] [[os gss] e] Hq Hs'.
      destruct (Forall2_nth_error_r _ _ _ ES q _ Hs') as ([i [[[ps m] e0] [own' gs']]] & En & Ep).
      rewrite nth_error_enum in En.
      destruct (nth_error (combine got (combine owns guests)) q) as [z|] eqn:Ez; [|discriminate].
      simpl in En. inversion En; subst i z. rewrite nth_error_combine in Ez.
      rewrite Hq in Ez. destruct (nth_error got q); [|discriminate]. inversion Ez; subst.
      unfold phase_solve in Ep. apply bind_ok in Ep as ([os1 e1] & P1 & Ep).
      apply bind_ok in Ep as ([gs1 e2] & P2 & Ep). inversion Ep; subst.
      split; [eapply solveList_sol; eauto|eapply solveBuffer_sol; eauto]. }
    exists (map (fun '(own, gs) => own ++ concat gs) (combine owns guests)).
    split; auto. split; [rewrite map_length, combine_length; lia|].
    split; [rewrite map_length, combine_length; lia|].
    intros q w ps m e inc e' Hw Hg Hv. rewrite nth_error_map in Hw. rewrite nth_error_map in Hv.
    destruct (nth_error (combine owns guests) q) as [[own gs]|] eqn:Ec; [|discriminate].
    inversion Hw; subst w. clear Hw. rewrite nth_error_combine in Hv.
    destruct (nth_error sols q) as [[[os gss] e1]|] eqn:Eso; [|discriminate].
    destruct (nth_error back q) as [b|]; [|discriminate]. inversion Hv; subst.
    apply mapM_ok in ES. destruct (Forall2_nth_error_r _ _ _ ES q _ Eso) as ([i [[[ps2 m2] e2] [own' gs']]] & En & Ep).
    rewrite nth_error_enum in En. rewrite nth_error_combine, Hg, Ec in En. inversion En; subst.
    exists (os ++ concat gss). apply phase_solve_list. auto.
  Qed.

  Lemma local_work tms (got : list (list (problem A) * mstate A * (H * nat))) sv :
    solve_local kern fuel cfg tms got = Ok sv ->
    forall q ps m e inc e', nth_error got q = Some (ps, m, e) -> nth_error sv q = Some (inc, e') ->
      exists ss, solveList kern fuel cfg (tms q) e ps = Ok (ss, e').
  Proof.
    unfold solve_local. intros E q ps m e inc e' Hg Hv. apply mapM_ok in E.
    destruct (Forall2_nth_error_r _ _ _ E q _ Hv) as ([i [[ps2 m2] e2]] & En & Ep).
    rewrite nth_error_enum, Hg in En. inversion En; subst.
    apply bind_ok in Ep as ([os e1] & P1 & Ep). inversion Ep; subst. eauto.
  Qed.
End Solve.

(** ** Planning *)

(** In exact arithmetic planning never fails, not even the debug assertions. *)
Lemma plan_Q sm gr vg dbg sortf (probs : list (list (problem (QA sm gr vg)))) :
  sort_contract sortf -> exists sts, updateState dbg sortf probs = Ok sts.
Proof.
  intros Hs. destruct probs as [|ps0 probs0] eqn:Ep; [exists []; reflexivity|]. rewrite <- Ep.
  assert (Hne : probs <> []) by congruence.
  destruct (updateState_spec sortf probs Hs (comparable_Q sm gr vg _) Hne) as (P & x & S & g & HR & _ & _ & U).
  rewrite U. clear U.
  assert (E := mean_after sm gr vg sortf Hs (rank_loads probs) P x S g HR).
  assert (Lt : nltb (QA sm gr vg) (nabs (QA sm gr vg) (nsub (QA sm gr vg) (getMean (P ++ [x] ++ S)) (getMean (rank_loads probs))))
                 (lit (QA sm gr vg) (1 # 10 ^ 7)) = true).
  { apply Qltb_true. change (Qabs (getMean (P ++ [x] ++ S) - getMean (rank_loads probs)) < (1 # 10 ^ 7))%Q.
    setoid_replace ((getMean (P ++ [x] ++ S) : Q) - getMean (rank_loads probs))%Q with 0%Q
      by (rewrite E; ring).
    reflexivity. }
  rewrite Lt, andb_false_r. eauto.
Qed.

Lemma plan_single {A} sortf (ps : list (problem A)) :
  (forall x, nltb A x x = false) -> sort_contract sortf ->
  exists sts, updateState false sortf [ps] = Ok sts.
Proof.
  intros Irr Hs. destruct (total_lemma sortf [ps] Hs) as (sts & E & _); eauto; [discriminate|].
  unfold comparable, enum; simpl. unfold load_lt. rewrite !Irr. reflexivity.
Qed.

(** IEEE comparison is irreflexive. *)
Lemma f64_irrefl (x : num F64) : nltb F64 x x = false.
Proof.
  change (SFltb x x = false). unfold SFltb. destruct x as [s|s| |s m e]; simpl; auto.
  - destruct s; auto.
  - rewrite Z.compare_refl. destruct s; rewrite Pos.compare_cont_refl; auto.
Qed.

(** ** One rank *)
Section Serial.
  Context {A : Arith} {H : Type}.
  Variable kern : H -> kcell A -> outcome (kcell A * H).
  Variable fuel : nat.
  Variable cfg : config A.

  Lemma serial_lemma dbg par sortf tms (got : list (list (problem A) * mstate A * (H * nat))) sts :
    sort_contract sortf -> length got <= 1 ->
    updateState dbg sortf (map (fun '(ps, _, _) => ps) got) = Ok sts ->
    solve_balanced kern fuel cfg dbg par sortf tms got = solve_local kern fuel cfg tms got.
  Proof.
    intros Hs L HU. assert (SE := update_serial _ _ _ _ Hs HU). rewrite map_length in SE. specialize (SE L).
    destruct (outward dbg par sortf got sts Hs HU (or_intror L))
      as (sl & guests & owns & B1 & O1 & LG & LO & LS & LT & Hsl & Hlen & G3).
    assert (SP := update_sym _ _ _ _ Hs HU).
    unfold solve_balanced. cbv zeta. rewrite HU. cbn [bind]. rewrite B1. cbn [bind]. rewrite O1. cbn [bind].
    destruct got as [|[[ps m] e] [|]]; simpl in L; try lia; simpl in LG, LO, LS, LT.
    - destruct guests, owns, sts, sl; try discriminate. simpl.
      destruct (unbalance_ok (wr_list wr_solution) (rd_list rd_solution)
                  (codec_list _ _ (codec_solution (A := A))) par [] [] SP) as (back & B & LB & _); auto.
      { right. intros st []. }
      rewrite B. simpl. unfold solve_local; simpl. destruct back; [reflexivity|discriminate].
    - destruct guests as [|gs [|]], owns as [|own [|]], sts as [|st [|]], sl as [|s [|]]; try discriminate.
      destruct (SE st) as [E1 E2]; [simpl; auto|].
      specialize (G3 0). simpl in G3. rewrite E1 in G3. inversion G3; subst gs.
      assert (Ls := Hlen 0 st s eq_refl eq_refl). rewrite E2 in Ls. destruct s; [|discriminate].
      destruct (Hsl 0 ps eq_refl) as (s' & r' & K1 & K2 & K3). inversion K1; inversion K2; subst s' r'.
      simpl in K3. subst own.
      unfold solve_local, enum. cbn [combine length seq mapM]. unfold phase_solve.
      destruct (solveList kern fuel cfg (tms 0) e ps) as [[os e1]| | |]; cbn [bind]; auto.
      cbn [solveBuffer mapS bind map].
      destruct (unbalance_ok (wr_list wr_solution) (rd_list rd_solution)
                  (codec_list _ _ (codec_solution (A := A))) par [st] [[]] SP) as (back & B & LB & FB).
      { simpl. rewrite E1. reflexivity. }
      { right. intros st' [<-|[]]. auto. }
      rewrite B. cbn [bind]. destruct back as [|b [|]]; try discriminate.
      specialize (FB 0). simpl in FB. rewrite E2 in FB. inversion FB; subst b. reflexivity.
  Qed.

  Lemma serial_solve dbg par sortf tms (ranks : list (rankin A H)) :
    sort_contract sortf -> length ranks <= 1 ->
    (forall ps : list (problem A), exists sts, updateState dbg sortf [ps] = Ok sts) ->
    solve_all kern fuel (with_active cfg true) dbg par sortf tms ranks =
    solve_all kern fuel (with_active cfg false) dbg par sortf tms ranks.
  Proof.
    intros Hs L HU. unfold solve_all. cbn [g_chem with_active g_active].
    destruct (g_chem cfg); cbn [negb]; auto.
    change (phase_get kern fuel (with_active cfg true)) with (phase_get kern fuel cfg).
    change (phase_get kern fuel (with_active cfg false)) with (phase_get kern fuel cfg).
    destruct (phase_get kern fuel cfg dbg tms ranks) as [got| | |] eqn:Eg; cbn [bind]; auto.
    assert (Lg : length got <= 1).
    { apply mapM_length in Eg. rewrite enum_length in Eg. lia. }
    change (solve_balanced kern fuel (with_active cfg true)) with (solve_balanced kern fuel cfg).
    change (solve_local kern fuel (with_active cfg false)) with (solve_local kern fuel cfg).
    change (phase_update (H := H) (with_active cfg true)) with (phase_update (H := H) cfg).
    change (phase_update (H := H) (with_active cfg false)) with (phase_update (H := H) cfg).
    assert (HU' : exists sts, updateState dbg sortf (map (fun '(ps, _, _) => ps) got) = Ok sts).
    { destruct got as [|[[ps m] e] [|]]; simpl in *; try lia; auto. exists []. reflexivity. }
    destruct HU' as (sts & HU'). rewrite (serial_lemma _ _ _ _ _ _ Hs Lg HU'). reflexivity.
  Qed.
End Serial.
