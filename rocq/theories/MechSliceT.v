(** [eval_jacob] of drm19: the temperature column of the whole run is the one of [lib_jacob_T], in any arithmetic.
    The definitions below are not functions of /repo. *)
From Coq Require Import List NArith PArith QArith Bool Lia.
From Verif Require Import Outcome Arith MechLang MechSrc MechCall Mechanisms Drm19Jac MechJac MechFull MechSlice.
Import ListNotations.
Local Open Scope nat_scope.

(** Statements of eval_jacob_*, those of the temperature column marked. *)
Definition marked (d : list stmt) (b : list (list stmt * list stmt)) : list (bool * stmt) :=
  map (pair true) d ++ flat_map (fun x => map (pair true) (fst x) ++ map (pair false) (snd x)) b.

Lemma snd_pair {X} (c : bool) (l : list X) : map snd (map (pair c) l) = l.
Proof. induction l as [|x l IH]; cbn; [reflexivity|rewrite IH; reflexivity]. Qed.

Lemma kept_true l : kept (map (pair true) l) = l.
Proof. unfold kept. induction l as [|x l IH]; cbn; [reflexivity|rewrite IH; reflexivity]. Qed.

Lemma kept_false l : kept (map (pair false) l) = [].
Proof. unfold kept. induction l as [|x l IH]; cbn; [reflexivity|exact IH]. Qed.

Lemma kept_app a b : kept (a ++ b) = kept a ++ kept b.
Proof. unfold kept. rewrite filter_app, map_app. reflexivity. Qed.

Lemma marked_all d b : map snd (marked d b) = snd (all_blocks d b).
Proof.
  unfold marked, all_blocks. cbn [snd]. rewrite map_app, snd_pair. f_equal.
  induction b as [|x b IH]; [reflexivity|]. cbn [flat_map]. rewrite !map_app, !snd_pair, IH. reflexivity.
Qed.

Lemma marked_kept d b : kept (marked d b) = snd (T_blocks d b).
Proof.
  unfold marked, T_blocks. cbn [snd]. rewrite kept_app, kept_true. f_equal.
  induction b as [|x b IH]; [reflexivity|]. cbn [flat_map]. rewrite !kept_app, kept_true, kept_false, IH, app_nil_r. reflexivity.
Qed.

(** Elements outside the temperature column. *)
Definition outside (n : nat) (p : place) : bool := (var_eqb (fst p) v_jac && N.leb (N.of_nat n) (snd p)) || var_eqb (fst p) v_J_nplusone.

(** The statements marked can do without the others. *)
Definition part_slice (n : nat) (l : list (bool * stmt)) : bool :=
  match slice (outside n) [] l with
  | Some d => forallb (fun i => vis (outside n) d (v_jac, N.of_nat i)) (seq 0 n)
  | None => false
  end.

(** A list of statements does not set an element. *)
Definition untouched (p : place) (l : list stmt) : bool :=
  forallb (fun s => match s with Do a => negb (place_eqb (target a) p) | If _ _ t f => forallb (fun a => negb (place_eqb (target a) p)) (t ++ f) end) l.

Section Frame.
  Context {A : Arith}.
  Variable M : libm A.
  Variable len : var -> N.

  Lemma assign_frame m m' a v i : assign M len m a = Ok m' -> place_eqb (target a) (v, i) = false -> m' v i = m v i.
  Proof.
    intros E P. assert (S : forall w j x n, store len m w j x = Ok n -> place_eqb (w, j) (v, i) = false -> n v i = m v i).
    { intros w j x n ES Q. unfold store in ES. destruct (j <? len w)%N; [|discriminate]. injection ES as <-. unfold place_eqb in Q. cbn in Q. rewrite andb_comm in Q. rewrite Q. reflexivity. }
    destruct a as [w j e|w j e|w j e|w j e]; cbn [assign target] in *; destruct (eval M len m e); try discriminate; cbn [bind] in E;
      [eapply S; eassumption| | |]; destruct (load len m w j); try discriminate; cbn [bind] in E; eapply S; eassumption.
  Qed.

  Lemma assigns_frame l v i : forall m m', assigns M len m l = Ok m' -> forallb (fun a => negb (place_eqb (target a) (v, i))) l = true -> m' v i = m v i.
  Proof.
    induction l as [|a l IH]; intros m m' E H; cbn [assigns forallb] in *; [injection E as <-; reflexivity|].
    destruct (assign M len m a) as [n| | |] eqn:EA; try discriminate. cbn [bind] in E. apply andb_true_iff in H as [H1 H2].
    rewrite (IH n m' E H2). apply (assign_frame m n a); [exact EA|apply negb_true_iff, H1].
  Qed.

  Lemma run_frame l v i : forall m m', run M len m l = Ok m' -> untouched (v, i) l = true -> m' v i = m v i.
  Proof.
    unfold untouched. induction l as [|s l IH]; intros m m' E H; cbn [run forallb] in *; [injection E as <-; reflexivity|].
    destruct (step M len m s) as [n| | |] eqn:ES; try discriminate. cbn [bind] in E. apply andb_true_iff in H as [H1 H2].
    rewrite (IH n m' E H2). destruct s as [a|a b t f]; cbn [step] in ES.
    - apply (assign_frame m n a); [exact ES|apply negb_true_iff, H1].
    - rewrite forallb_app in H1. apply andb_true_iff in H1 as [Ht Hf].
      destruct (eval M len m a) as [x| | |]; try discriminate. cbn [bind] in ES. destruct (eval M len m b) as [z| | |]; try discriminate. cbn [bind] in ES.
      destruct (nleb A x z); [apply (assigns_frame t v i m n ES Ht)|apply (assigns_frame f v i m n ES Hf)].
  Qed.

  Lemma read_at (m : @mem A) v l : read len m v = Ok l -> length l = N.to_nat (len v) /\ forall i, i < length l -> m v (N.of_nat i) = nth_error l i.
  Proof.
    unfold read. assert (G : forall n s out, mapM (fun i => load len m v (N.of_nat i)) (seq s n) = Ok out ->
      length out = n /\ forall i, i < n -> m v (N.of_nat (s + i)) = nth_error out i).
    { induction n as [|n IH]; intros s out E; cbn [seq mapM] in E; [injection E as <-; split; [reflexivity|intros; lia]|].
      destruct (load len m v (N.of_nat s)) as [x| | |] eqn:EL; try discriminate. cbn [bind] in E.
      destruct (mapM _ (seq (S s) n)) as [o| | |] eqn:EO; try discriminate. cbn [bind] in E. injection E as <-.
      destruct (IH _ _ EO) as [L V]. split; [cbn; rewrite L; reflexivity|]. intros [|i] Hi.
      - rewrite Nat.add_0_r. cbn. unfold load in EL. destruct (N.of_nat s <? len v)%N; [|discriminate]. destruct (m v (N.of_nat s)); congruence.
      - replace (s + S i) with (S s + i) by lia. cbn [nth_error]. apply V. lia. }
    intros E. destruct (G _ _ _ E) as [L V]. split; [exact L|]. intros i Hi. apply (V i). lia.
  Qed.

  Lemma read_of (m : @mem A) v l : N.to_nat (len v) = length l -> (forall i, i < length l -> m v (N.of_nat i) = nth_error l i) -> read len m v = Ok l.
  Proof.
    intros L V. unfold read. rewrite L.
    assert (G : forall l' s, (forall i, i < length l' -> m v (N.of_nat (s + i)) = nth_error l' i) -> s + length l' <= N.to_nat (len v) ->
      mapM (fun i => load len m v (N.of_nat i)) (seq s (length l')) = Ok l').
    { induction l' as [|x l' IH]; intros s W B; cbn [length seq mapM] in *; [reflexivity|].
      pose proof (W 0 ltac:(lia)) as W0. rewrite Nat.add_0_r in W0. cbn in W0. unfold load at 1.
      rewrite (proj2 (N.ltb_lt _ _)), W0 by lia. cbn [bind]. rewrite IH; [reflexivity| |lia].
      intros i Hi. replace (S s + i) with (s + S i) by lia. rewrite W by lia. reflexivity. }
    apply (G l 0); [exact V|lia].
  Qed.
End Frame.

Section Parts.
  Context {A : Arith}.
  Variable M : libm A.
  Variable n : nat.

  Lemma part_call (T pres : num A) conc fwd rev pm sp (m mw rho : num A) dB jac J1 d b o :
    part_slice n (marked d b) = true -> untouched (v_J_nplusone, 0%N) (snd (T_blocks d b)) = true -> n <= length jac ->
    call M (snd (all_blocks d b)) (all_ins T pres conc fwd rev pm sp m mw rho dB jac) part_locals [v_jac] = Ok o ->
    exists jac', o = [jac'] /\ length jac' = length jac /\
      call M (snd (T_blocks d b)) (part_ins T pres conc fwd rev pm sp m mw rho dB (firstn n jac) J1) part_locals [v_jac; v_J_nplusone] =
      Ok [firstn n jac'; [J1]].
  Proof.
    intros C U Lj E. unfold call in *.
    set (ins1 := all_ins T pres conc fwd rev pm sp m mw rho dB jac) in *. set (ins2 := part_ins T pres conc fwd rev pm sp m mw rho dB (firstn n jac) J1) in *.
    set (len1 := sizes (shape ins1 ++ part_locals)) in *. set (len2 := sizes (shape ins2 ++ part_locals)) in *.
    destruct (run M len1 (given ins1) (snd (all_blocks d b))) as [m1'| | |] eqn:ER; try discriminate. cbn [bind mapM] in E.
    destruct (read len1 m1' v_jac) as [jac'| | |] eqn:EJ; try discriminate. cbn [bind] in E. injection E as <-.
    exists jac'. split; [reflexivity|]. unfold part_slice in C. destruct (slice (outside n) [] (marked d b)) as [d'|] eqn:ES; [|discriminate].
    assert (L1 : len1 v_jac = N.of_nat (length jac)) by reflexivity.
    assert (L2 : len2 v_jac = N.of_nat n) by (unfold len2, ins2; cbn -[firstn N.of_nat]; rewrite firstn_length_le by exact Lj; reflexivity).
    assert (LEN : forall v i, outside n (v, i) = false -> (i <? len1 v)%N = (i <? len2 v)%N).
    { intros v i O. destruct (var_eqb v v_jac) eqn:EV.
      - apply var_eqb_eq in EV. subst v. rewrite L1, L2. unfold outside in O. cbn -[N.leb N.of_nat] in O. apply orb_false_iff in O as [O _].
        apply N.leb_gt in O. rewrite !(proj2 (N.ltb_lt _ _)) by lia. reflexivity.
      - destruct v; try reflexivity; discriminate. }
    assert (SM : same (outside n) [] (given ins1) (given ins2)).
    { intros v i V. apply vis_hid in V. destruct (var_eqb v v_jac) eqn:EV.
      - apply var_eqb_eq in EV. subst v. unfold outside in V. cbn -[N.leb N.of_nat] in V. apply orb_false_iff in V as [V _]. apply N.leb_gt in V.
        unfold given, ins1, ins2. cbn -[firstn nth_error]. rewrite <- (firstn_skipn n jac) at 1. rewrite nth_error_app1; [reflexivity|].
        rewrite firstn_length_le by exact Lj. lia.
      - destruct v; try reflexivity; discriminate. }
    rewrite <- marked_all in ER. destruct (slice_run (outside n) M len1 len2 LEN (marked d b) [] d' _ _ m1' SM ES ER) as (m2' & E2 & S2).
    rewrite marked_kept in E2. rewrite E2. cbn [bind mapM].
    destruct (read_at len1 m1' v_jac jac' EJ) as [LJ _]. rewrite L1, Nat2N.id in LJ. split; [exact LJ|].
    rewrite (read_same (outside n) len1 len2 LEN d' m1' m2' v_jac n jac' S2); [| |rewrite L2; apply Nat2N.id|rewrite L1, Nat2N.id; exact Lj|exact EJ].
    2: { intros i Hi. rewrite forallb_forall in C. apply C, in_seq. lia. }
    cbn [bind]. rewrite (read_of len2 m2' v_J_nplusone [J1]); [reflexivity|reflexivity|].
    intros i Hi. cbn [length] in Hi. replace i with 0 by lia. change (N.of_nat 0) with 0%N.
    rewrite (run_frame M len2 _ v_J_nplusone 0%N _ _ E2 U). reflexivity.
  Qed.

  (** All parts. *)
  Lemma parts_call (T pres : num A) conc fwd rev pm sp (m mw rho : num A) dB J1 (bs : list (list stmt * list (list stmt * list stmt))) :
    (forall x, In x bs -> part_slice n (marked (fst x) (snd x)) = true /\ untouched (v_J_nplusone, 0%N) (snd (T_blocks (fst x) (snd x))) = true) ->
    forall jac jac', n <= length jac ->
    lib_all_parts M T pres conc fwd rev pm sp m mw rho dB (map (fun x => all_blocks (fst x) (snd x)) bs) jac = Ok jac' ->
    length jac' = length jac /\
    lib_jac_parts M T pres conc fwd rev pm sp m mw rho dB (map (fun x => T_blocks (fst x) (snd x)) bs) (firstn n jac) J1 = Ok (firstn n jac', J1).
  Proof.
    induction bs as [|x bs IH]; intros C jac jac' Lj E; cbn [map lib_all_parts lib_jac_parts] in *.
    - injection E as <-. split; reflexivity.
    - destruct (C x (or_introl eq_refl)) as [C1 C2].
      destruct (call M (snd (all_blocks (fst x) (snd x))) _ part_locals [v_jac]) as [o| | |] eqn:EC; try discriminate. cbn [bind] in E.
      destruct (part_call _ _ _ _ _ _ _ _ _ _ _ _ J1 _ _ _ C1 C2 Lj EC) as (j1 & -> & L1 & E1). cbn [only bind] in E.
      rewrite E1. cbn [bind]. destruct (IH (fun z Hz => C z (or_intror Hz)) j1 jac' ltac:(lia) E) as [L2 E2]. split; [lia|exact E2].
  Qed.
End Parts.

(** The checks for drm19. *)
Definition drm19_blocks : list (list stmt * list (list stmt * list stmt)) :=
  [(drm19_jac_d0, drm19_jac_b0); (drm19_jac_d1, drm19_jac_b1); (drm19_jac_d2, drm19_jac_b2)].

Lemma drm19_parts_ok : forallb (fun x => part_slice 21 (marked (fst x) (snd x)) && untouched (v_J_nplusone, 0%N) (snd (T_blocks (fst x) (snd x)))) drm19_blocks = true.
Proof. vm_compute. reflexivity. Qed.

(** Elements not compared in the last statements. *)
Definition outside_mid (p : place) : bool :=
  outside 21 p || var_eqb (fst p) v_T || var_eqb (fst p) v_rho || var_eqb (fst p) v_spec_rates || var_eqb (fst p) v_h.
Definition outside_end (p : place) : bool :=
  outside 21 p || ((var_eqb (fst p) v_cp_avg || var_eqb (fst p) v_working_temp) && N.leb 1 (snd p)).

Lemma mid_slice : slice outside_mid [] (map (pair true) (firstn 3 drm19_jac_tail)) = Some [].
Proof. vm_compute. reflexivity. Qed.

Lemma end_slice : slice outside_end [] (map (pair true) (skipn 3 drm19_jac_tail)) = Some [].
Proof. vm_compute. reflexivity. Qed.

Lemma species_outside : forallb (fun i => untouched (v_jac, N.of_nat i) drm19_jac_f3) (seq 0 21) = true.
Proof. vm_compute. reflexivity. Qed.

(** The statements between [eval_cp] and [eval_jacob_3] set only these. *)
Lemma mid_sets v i : place_eqb (v_cp_avg, 0%N) (v, i) = false -> place_eqb (v_jac, 0%N) (v, i) = false -> place_eqb (v_working_temp, 0%N) (v, i) = false ->
  untouched (v, i) (firstn 3 drm19_jac_tail) = true.
Proof.
  intros H1 H2 H3.
  assert (E : map (fun s => match s with Do a => Some (target a) | If _ _ _ _ => None end) (firstn 3 drm19_jac_tail) =
    [Some (v_cp_avg, 0%N); Some (v_jac, 0%N); Some (v_working_temp, 0%N)]) by reflexivity.
  destruct (firstn 3 drm19_jac_tail) as [|s1 [|s2 [|s3 [|]]]]; try discriminate. cbn [map] in E.
  destruct s1 as [a1|]; [|discriminate]. destruct s2 as [a2|]; [|discriminate]. destruct s3 as [a3|]; [|discriminate]. injection E as E1 E2 E3.
  unfold untouched. cbn [forallb]. rewrite E1, E2, E3, H1, H2, H3. reflexivity.
Qed.

Lemma run_app {A : Arith} (M : libm A) len a b : forall m, run M len m (a ++ b) = (let* m' := run M len m a in run M len m' b).
Proof. induction a as [|s a IH]; intros m; cbn [app run bind]; [reflexivity|]. destruct (step M len m s); cbn [bind]; [apply IH| | |]; reflexivity. Qed.

Section Tail.
  Context {A : Arith}.
  Variable M : libm A.

  Lemma tail_call (T : num A) (y : list (num A)) (yN rho mw : num A) (sp h cp jac : list (num A)) (J1 cpa wt : num A) (jac1 jac2 jac3 : list (num A)) l1 l2 :
    21 <= length jac ->
    call M (firstn 3 drm19_jac_tail) (mid_ins y yN cp jac) [(v_cp_avg, 1); (v_working_temp, 1)] [v_cp_avg; v_working_temp; v_jac] = Ok [[cpa]; [wt]; jac1] ->
    call M drm19_jac_f3 (species_ins mw rho cpa sp h cp jac1) [(v_rho_inv, 1); (v_working_temp, 1); (v_j_temp, 1)] [v_jac] = Ok l1 -> only l1 = Ok jac2 ->
    call M (skipn 3 drm19_jac_tail) (end_ins T y yN rho sp h cp cpa wt jac2) [] [v_jac] = Ok l2 -> only l2 = Ok jac3 ->
    call M drm19_jac_tail (tail_ins T y yN rho sp h cp (firstn 21 jac) J1) [(v_cp_avg, 1); (v_working_temp, 1)] [v_jac] = Ok [firstn 21 jac3].
  Proof.
    intros Lj E1 E2 O2 E3 O3. unfold call in *.
    set (insm := mid_ins y yN cp jac) in *. set (inss := species_ins mw rho cpa sp h cp jac1) in *.
    set (inse := end_ins T y yN rho sp h cp cpa wt jac2) in *. set (inst := tail_ins T y yN rho sp h cp (firstn 21 jac) J1).
    set (lm := sizes (shape insm ++ [(v_cp_avg, 1); (v_working_temp, 1)])) in *.
    set (ls := sizes (shape inss ++ [(v_rho_inv, 1); (v_working_temp, 1); (v_j_temp, 1)])) in *.
    set (le := sizes (shape inse ++ [])) in *. set (lt := sizes (shape inst ++ [(v_cp_avg, 1); (v_working_temp, 1)])).
    destruct (run M lm (given insm) (firstn 3 drm19_jac_tail)) as [mm| | |] eqn:Rm; try discriminate. cbn [bind mapM] in E1.
    destruct (read lm mm v_cp_avg) as [c'| | |] eqn:Rc; try discriminate. cbn [bind] in E1.
    destruct (read lm mm v_working_temp) as [w'| | |] eqn:Rw; try discriminate. cbn [bind] in E1.
    destruct (read lm mm v_jac) as [j'| | |] eqn:Rj; try discriminate. cbn [bind] in E1. injection E1 as -> -> ->.
    destruct (run M ls (given inss) drm19_jac_f3) as [ms| | |] eqn:Rs; try discriminate. cbn [bind mapM] in E2.
    destruct (read ls ms v_jac) as [j2| | |] eqn:Rj2; try discriminate. cbn [bind] in E2. injection E2 as <-. cbn [only] in O2. injection O2 as ->.
    destruct (run M le (given inse) (skipn 3 drm19_jac_tail)) as [me| | |] eqn:Re; try discriminate. cbn [bind mapM] in E3.
    destruct (read le me v_jac) as [j3| | |] eqn:Rj3; try discriminate. cbn [bind] in E3. injection E3 as <-. cbn [only] in O3. injection O3 as ->.
    assert (Lm : lm v_jac = N.of_nat (length jac)) by reflexivity.
    destruct (read_at lm mm v_cp_avg _ Rc) as [_ Vc]. specialize (Vc 0 Nat.lt_0_1). destruct (read_at lm mm v_working_temp _ Rw) as [_ Vw]. specialize (Vw 0 Nat.lt_0_1).
    destruct (read_at lm mm v_jac _ Rj) as [Lj1 Vj]. rewrite Lm, Nat2N.id in Lj1.
    destruct (read_at ls ms v_jac _ Rj2) as [Lj2 Vj2]. change (ls v_jac) with (N.of_nat (length jac1)) in Lj2. rewrite Nat2N.id in Lj2.
    assert (Lt : lt v_jac = 21%N) by (unfold lt, inst; cbn -[firstn N.of_nat]; rewrite firstn_length_le by exact Lj; reflexivity).
    assert (Le : le v_jac = N.of_nat (length jac2)) by reflexivity.
    (* statements before eval_jacob_3 *)
    assert (LENm : forall v i, outside_mid (v, i) = false -> (i <? lm v)%N = (i <? lt v)%N).
    { intros v i O. destruct (var_eqb v v_jac) eqn:EV.
      - apply var_eqb_eq in EV. subst v. rewrite Lm, Lt. unfold outside_mid, outside in O. cbn -[N.leb N.of_nat] in O. rewrite !orb_false_r in O.
        apply N.leb_gt in O. change (N.of_nat 21) with 21%N in O. rewrite !(proj2 (N.ltb_lt _ _)) by lia. reflexivity.
      - destruct v; try reflexivity; discriminate. }
    assert (SMm : same outside_mid [] (given insm) (given inst)).
    { intros v i V. apply vis_hid in V. destruct (var_eqb v v_jac) eqn:EV.
      - apply var_eqb_eq in EV. subst v. unfold outside_mid, outside in V. cbn -[N.leb N.of_nat] in V. rewrite !orb_false_r in V. apply N.leb_gt in V.
        change (N.of_nat 21) with 21%N in V.
        unfold given, insm, inst. cbn -[firstn nth_error]. rewrite <- (firstn_skipn 21 jac) at 1. rewrite nth_error_app1; [reflexivity|].
        rewrite firstn_length_le by exact Lj. lia.
      - destruct v; try reflexivity; discriminate. }
    rewrite <- (snd_pair true (firstn 3 drm19_jac_tail)) in Rm.
    destruct (slice_run outside_mid M lm lt LENm _ [] [] _ _ mm SMm mid_slice Rm) as (mt & Rt & St). rewrite kept_true in Rt.
    assert (FR : forall v i, place_eqb (v_cp_avg, 0%N) (v, i) = false -> place_eqb (v_jac, 0%N) (v, i) = false -> place_eqb (v_working_temp, 0%N) (v, i) = false -> mt v i = given inst v i).
    { intros v i H1 H2 H3. apply (run_frame M lt _ v i _ _ Rt), mid_sets; assumption. }
    (* statements after it *)
    assert (LENe : forall v i, outside_end (v, i) = false -> (i <? le v)%N = (i <? lt v)%N).
    { intros v i O. destruct (var_eqb v v_jac) eqn:EV.
      - apply var_eqb_eq in EV. subst v. rewrite Le, Lt, Lj2, Lj1. unfold outside_end, outside in O. cbn -[N.leb N.of_nat] in O. rewrite !orb_false_r in O.
        apply N.leb_gt in O. change (N.of_nat 21) with 21%N in O. rewrite !(proj2 (N.ltb_lt _ _)) by lia. reflexivity.
      - destruct v; try reflexivity; discriminate. }
    assert (SMe : same outside_end [] (given inse) mt).
    { intros v i V. pose proof (vis_hid outside_end _ _ _ V) as HV. destruct (var_eqb v v_jac) eqn:EV.
      - apply var_eqb_eq in EV. subst v. unfold outside_end, outside in HV. cbn -[N.leb N.of_nat] in HV. rewrite !orb_false_r in HV. apply N.leb_gt in HV.
        change (N.of_nat 21) with 21%N in HV. rewrite <- (St v_jac i).
        2: { unfold vis, outside_mid, outside. cbn -[N.leb N.of_nat]. rewrite !orb_false_r, andb_true_r. apply negb_true_iff, N.leb_gt. exact HV. }
        rewrite <- (N2Nat.id i). rewrite (Vj (N.to_nat i)) by lia.
        pose proof species_outside as SO. rewrite forallb_forall in SO. specialize (SO (N.to_nat i) ltac:(apply in_seq; lia)).
        pose proof (run_frame M ls _ _ _ _ _ Rs SO) as FS. rewrite Vj2 in FS by lia. change (given inss v_jac (N.of_nat (N.to_nat i))) with (nth_error jac1 (N.to_nat (N.of_nat (N.to_nat i)))) in FS.
        change (given inse v_jac (N.of_nat (N.to_nat i))) with (nth_error jac2 (N.to_nat (N.of_nat (N.to_nat i)))). rewrite Nat2N.id in FS |- *. exact FS.
      - destruct (var_eqb v v_cp_avg) eqn:EV1; [|destruct (var_eqb v v_working_temp) eqn:EV2].
        + apply var_eqb_eq in EV1. subst v. unfold outside_end, outside in HV. cbn -[N.leb] in HV. apply N.leb_gt in HV. assert (i = 0%N) by lia. subst i.
          rewrite <- (St v_cp_avg 0%N eq_refl). symmetry. exact Vc.
        + apply var_eqb_eq in EV2. subst v. unfold outside_end, outside in HV. cbn -[N.leb] in HV. apply N.leb_gt in HV. assert (i = 0%N) by lia. subst i.
          rewrite <- (St v_working_temp 0%N eq_refl). symmetry. exact Vw.
        + rewrite FR.
          * destruct v; try reflexivity; discriminate.
          * unfold place_eqb. cbn [fst snd]. rewrite andb_comm. destruct v; try reflexivity; discriminate.
          * unfold place_eqb. cbn [fst snd]. rewrite andb_comm. destruct v; try reflexivity; discriminate.
          * unfold place_eqb. cbn [fst snd]. rewrite andb_comm. destruct v; try reflexivity; discriminate. }
    rewrite <- (snd_pair true (skipn 3 drm19_jac_tail)) in Re.
    destruct (slice_run outside_end M le lt LENe _ [] [] _ _ me SMe end_slice Re) as (mf & Rf & Sf). rewrite kept_true in Rf.
    rewrite <- (firstn_skipn 3 drm19_jac_tail), run_app, Rt. cbn [bind]. rewrite Rf. cbn [bind mapM].
    rewrite (read_same outside_end le lt LENe [] me mf v_jac 21 jac3 Sf); [reflexivity| |rewrite Lt; reflexivity|rewrite Le, Nat2N.id; lia|exact Rj3].
    intros i Hi. unfold vis, outside_end, outside. cbn -[N.leb N.of_nat]. rewrite !orb_false_r, andb_true_r. apply negb_true_iff, N.leb_gt. lia.
  Qed.

  Theorem temperature_slice (p : num A) (y jac0 dB0 J : list (num A)) : 21 <= length jac0 ->
    lib_jacob M (library drm19) drm19_jac_all p y jac0 dB0 = Ok J ->
    lib_jacob_T M (library drm19) (jac_T drm19) p y (firstn 21 jac0) dB0 = Ok (firstn 21 J).
  Proof.
    intros L0 E. unfold lib_jacob in E. unfold lib_jacob_T.
    destruct (idx y 0) as [T| | |]; try discriminate. cbn [bind] in *.
    destruct (lib_eval_conc M (library drm19) T p (skipn 1 y)) as [[[[yN mw] rho] conc]| | |]; try discriminate. cbn [bind] in *.
    destruct (lib_eval_rxn_rates M (library drm19) T p conc) as [[fwd rev]| | |]; try discriminate. cbn [bind] in *.
    destruct (lib_get_rxn_pres_mod M (library drm19) T p conc) as [pm| | |]; try discriminate. cbn [bind] in *.
    destruct (lib_eval_spec_rates M (library drm19) fwd rev pm) as [[sp dyN]| | |]; try discriminate. cbn [bind] in *.
    change (lib_jac_head M (mkJac (a_head drm19_jac_all) [] []) T p dB0) with (lib_jac_head M (jac_T drm19) T p dB0) in E.
    destruct (lib_jac_head M (jac_T drm19) T p dB0) as [[m dB]| | |]; try discriminate. cbn [bind] in *.
    change (a_parts drm19_jac_all) with (map (fun x => all_blocks (fst x) (snd x)) drm19_blocks) in E.
    destruct (lib_all_parts M T p conc fwd rev pm (sp ++ [dyN]) m mw rho dB (map (fun x => all_blocks (fst x) (snd x)) drm19_blocks) jac0) as [jac| | |] eqn:EP; try discriminate.
    cbn [bind] in E.
    change (j_parts (jac_T drm19)) with (map (fun x => T_blocks (fst x) (snd x)) drm19_blocks).
    assert (C : forall x, In x drm19_blocks -> part_slice 21 (marked (fst x) (snd x)) = true /\ untouched (v_J_nplusone, 0%N) (snd (T_blocks (fst x) (snd x))) = true).
    { pose proof drm19_parts_ok as H. rewrite forallb_forall in H. intros x Hx. apply andb_true_iff, H, Hx. }
    destruct (parts_call M 21 T p conc fwd rev pm (sp ++ [dyN]) m mw rho dB (zero A) drm19_blocks C jac0 jac L0 EP) as [Lj ->]. cbn [bind].
    destruct (lib_eval_h M (library drm19) T) as [h| | |]; try discriminate. cbn [bind] in *.
    destruct (lib_eval_cp M (library drm19) T) as [cp| | |]; try discriminate. cbn [bind] in *.
    change (a_mid drm19_jac_all) with (firstn 3 drm19_jac_tail) in E. change (a_species drm19_jac_all) with drm19_jac_f3 in E.
    change (a_tail drm19_jac_all) with (skipn 3 drm19_jac_tail) in E. change (j_tail (jac_T drm19)) with drm19_jac_tail.
    destruct (call M (firstn 3 drm19_jac_tail) _ _ _) as [l| | |] eqn:E1; try discriminate. cbn [bind] in E.
    destruct l as [|[|cpa [|]] [|[|wt [|]] [|jac1 [|]]]]; try discriminate.
    destruct (call M drm19_jac_f3 _ _ _) as [l1| | |] eqn:E2; try discriminate. cbn [bind] in E.
    destruct (only l1) as [jac2| | |] eqn:O2; try discriminate. cbn [bind] in E.
    destruct (call M (skipn 3 drm19_jac_tail) _ _ _) as [l2| | |] eqn:E3; try discriminate. cbn [bind] in E.
    rewrite (tail_call T y yN rho mw (sp ++ [dyN]) h cp jac (zero A) cpa wt jac1 jac2 J l1 l2 ltac:(lia) E1 E2 O2 E3 E). reflexivity.
  Qed.
End Tail.
