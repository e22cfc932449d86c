(** [eval_jacob] in any arithmetic (continued). *)
From Coq Require Import List NArith PArith QArith Bool Lia.
From Verif Require Import Outcome Arith MechLang MechSrc MechCall MechDefined MechChem Mechanisms MechDydt MechJac MechFull MechSlice MechSliceT MechInit MechEntry.
Import ListNotations.
Local Open Scope nat_scope.

Lemma every_mechanism (f : mechanism -> bool) : forallb f [drm19; gri30; yao] = true -> forall m, f m = true.
Proof. cbn [forallb]. rewrite !andb_true_iff. intros (H1 & H2 & H3 & _) []; assumption. Qed.

Lemma vis_app_none d1 d2 p : vis none (d1 ++ d2) p = true -> vis none d1 p = true /\ vis none d2 p = true.
Proof. apply vis_app. Qed.

Section Column.
  Context {A : Arith}.
  Variable M : libm A.
  Variable S : source.

  Lemma head_set (b : list stmt) tl (T p : num A) dB0 : call_set (head_shape S) [(v_m, 1); (v_logT, 1)] b [v_m; v_dBdT] = true -> length dB0 = s_NSP S ->
    exists m dB, lib_jac_head M (mkJac b [] tl) T p dB0 = Ok (m, dB) /\ length dB = s_NSP S.
  Proof.
    intros C L. unfold lib_jac_head. cbn [j_head].
    assert (SH : shape [(v_T, [T]); (v_pres, [p]); (v_dBdT, dB0)] = head_shape S) by (cbn; rewrite L; reflexivity). rewrite <- SH in C.
    destruct (call_set2 M _ _ _ _ _ C) as (a & c & -> & L1 & L2). cbn [bind]. cbn in L1. destruct (one_element a L1) as [x ->].
    exists x, c. split; [reflexivity|]. rewrite L2. cbn. rewrite Nat2N.id. exact L.
  Qed.

  Lemma part_shape_of T p conc fwd rev pm sp (m mw rho : num A) dB jac :
    length conc = s_NSP S -> length fwd = s_fwd S -> length rev = s_rev S -> length pm = s_pmod S -> length sp = s_NSP S -> length dB = s_NSP S ->
    shape (all_ins T p conc fwd rev pm sp m mw rho dB jac) = part_shape S (length jac).
  Proof. intros L1 L2 L3 L4 L5 L6. unfold shape, all_ins, part_shape. cbn [map fst snd]. rewrite L1, L2, L3, L4, L5, L6. reflexivity. Qed.

  Lemma part_ins_all T p conc fwd rev pm sp (m mw rho : num A) dB jac J1 :
    part_ins T p conc fwd rev pm sp m mw rho dB jac J1 = all_ins T p conc fwd rev pm sp m mw rho dB jac ++ [(v_J_nplusone, [J1])].
  Proof. reflexivity. Qed.

  Section Parts.
    Variables T p : num A.
    Variables conc fwd rev pm sp : list (num A).
    Variables m mw rho : num A.
    Hypothesis L1 : length conc = s_NSP S.
    Hypothesis L2 : length fwd = s_fwd S.
    Hypothesis L3 : length rev = s_rev S.
    Hypothesis L4 : length pm = s_pmod S.
    Hypothesis L5 : length sp = s_NSP S.

    Lemma part_defined body dB (jac : list (num A)) J1 : length dB = s_NSP S ->
      call_set (part_shape S (length jac) ++ [(v_J_nplusone, 1)]) part_locals body [v_jac; v_J_nplusone] = true ->
      exists jac' J1', call M body (part_ins T p conc fwd rev pm sp m mw rho dB jac J1) part_locals [v_jac; v_J_nplusone] = Ok [jac'; [J1']] /\ length jac' = length jac.
    Proof.
      intros L6 C. rewrite <- (part_shape_of T p conc fwd rev pm sp m mw rho dB jac L1 L2 L3 L4 L5 L6) in C.
      destruct (call_set2 M body (part_ins T p conc fwd rev pm sp m mw rho dB jac J1) part_locals v_jac v_J_nplusone) as (a & b & E & La & Lb);
        [rewrite part_ins_all; unfold shape; rewrite map_app; exact C|].
      cbn in Lb. destruct (one_element b Lb) as [x ->]. exists a, x. split; [exact E|]. rewrite La. cbn. apply Nat2N.id.
    Qed.

    Lemma all_defined body dB (jac : list (num A)) : length dB = s_NSP S ->
      call_set (part_shape S (length jac)) part_locals body [v_jac] = true ->
      exists jac', call M body (all_ins T p conc fwd rev pm sp m mw rho dB jac) part_locals [v_jac] = Ok [jac'] /\ length jac' = length jac.
    Proof.
      intros L6 C. rewrite <- (part_shape_of T p conc fwd rev pm sp m mw rho dB jac L1 L2 L3 L4 L5 L6) in C.
      destruct (call_set1 M body (all_ins T p conc fwd rev pm sp m mw rho dB jac) part_locals v_jac C) as (a & E & La).
      exists a. split; [exact E|]. rewrite La. cbn. apply Nat2N.id.
    Qed.

    Lemma parts_defined dB l : length dB = s_NSP S -> forall (jac : list (num A)) J1,
      forallb (fun q => call_set (part_shape S (length jac) ++ [(v_J_nplusone, 1)]) part_locals (snd q) [v_jac; v_J_nplusone]) l = true ->
      exists jac' J1', lib_jac_parts M T p conc fwd rev pm sp m mw rho dB l jac J1 = Ok (jac', J1') /\ length jac' = length jac.
    Proof.
      intros L6. induction l as [|q l IH]; intros jac J1 C; cbn [lib_jac_parts]; [eauto|]. cbn [forallb] in C. apply andb_true_iff in C as [C1 C2].
      destruct (part_defined (snd q) dB jac J1 L6 C1) as (jac' & J1' & -> & L). cbn [bind]. rewrite <- L in C2.
      destruct (IH jac' J1' C2) as (j & k & -> & Lj). exists j, k. split; [reflexivity|congruence].
    Qed.

    Lemma all_parts_defined dB l : length dB = s_NSP S -> forall (jac : list (num A)),
      forallb (fun q => call_set (part_shape S (length jac)) part_locals (snd q) [v_jac]) l = true ->
      exists jac', lib_all_parts M T p conc fwd rev pm sp m mw rho dB l jac = Ok jac' /\ length jac' = length jac.
    Proof.
      intros L6. induction l as [|q l IH]; intros jac C; cbn [lib_all_parts]; [eauto|]. cbn [forallb] in C. apply andb_true_iff in C as [C1 C2].
      destruct (all_defined (snd q) dB jac L6 C1) as (jac' & -> & L). cbn [bind only]. rewrite <- L in C2.
      destruct (IH jac' C2) as (j & -> & Lj). exists j. split; [reflexivity|congruence].
    Qed.

    (** Agreement of two arrays but for [d]. *)
    Definition near (d : list place) (v : var) (a b : list (num A)) : Prop := forall i, vis none d (v, N.of_nat i) = true -> nth_error a i = nth_error b i.

    Lemma near_of d v a b : near d v a b -> near (of_array v d) v a b.
    Proof. intros H i V. apply H, vis_of_array, V. Qed.

    Lemma given_near dB1 dB2 j1 j2 d e v i : near d v_dBdT dB1 dB2 -> near e v_jac j1 j2 -> vis none (d ++ e) (v, i) = true ->
      given (all_ins T p conc fwd rev pm sp m mw rho dB1 j1) v i = given (all_ins T p conc fwd rev pm sp m mw rho dB2 j2) v i.
    Proof.
      intros H1 H2 V. apply vis_app_none in V as [V1 V2]. destruct v; try reflexivity.
      all: unfold given, all_ins; cbn -[nth_error]; first [apply H1; rewrite N2Nat.id; exact V1|apply H2; rewrite N2Nat.id; exact V2].
    Qed.

    Lemma given_near_part dB1 dB2 j1 j2 J1 d e v i : near d v_dBdT dB1 dB2 -> near e v_jac j1 j2 -> vis none (d ++ e) (v, i) = true ->
      given (part_ins T p conc fwd rev pm sp m mw rho dB1 j1 J1) v i = given (part_ins T p conc fwd rev pm sp m mw rho dB2 j2 J1) v i.
    Proof.
      intros H1 H2 V. apply vis_app_none in V as [V1 V2]. destruct v; try reflexivity.
      all: unfold given, part_ins; cbn -[nth_error]; first [apply H1; rewrite N2Nat.id; exact V1|apply H2; rewrite N2Nat.id; exact V2].
    Qed.

    Lemma parts_agree dB1 dB2 d l : length dB1 = s_NSP S -> length dB2 = s_NSP S -> near d v_dBdT dB1 dB2 ->
      forall e e' (j1 j2 : list (num A)) J1 r1 r2 K1 K2, length j1 = length j2 -> near e v_jac j1 j2 -> agree_parts d e l = Some e' ->
      lib_jac_parts M T p conc fwd rev pm sp m mw rho dB1 l j1 J1 = Ok (r1, K1) -> lib_jac_parts M T p conc fwd rev pm sp m mw rho dB2 l j2 J1 = Ok (r2, K2) ->
      near e' v_jac r1 r2 /\ K1 = K2.
    Proof.
      intros D1 D2 ND. induction l as [|q l IH]; intros e e' j1 j2 J1 r1 r2 K1 K2 LJ NJ C E1 E2; cbn [agree_parts lib_jac_parts] in *.
      - injection C as <-. injection E1 as <- <-. injection E2 as <- <-. split; [exact NJ|reflexivity].
      - destruct (slice none (d ++ e) (every (snd q))) as [d'|] eqn:SL; [|discriminate]. destruct (vis none d' (v_J_nplusone, 0%N)) eqn:VJ; [|discriminate].
        destruct (call M (snd q) (part_ins T p conc fwd rev pm sp m mw rho dB1 j1 J1) part_locals [v_jac; v_J_nplusone]) as [o1| | |] eqn:C1; try discriminate.
        destruct (call M (snd q) (part_ins T p conc fwd rev pm sp m mw rho dB2 j2 J1) part_locals [v_jac; v_J_nplusone]) as [o2| | |] eqn:C2; try discriminate.
        cbn [bind] in *.
        assert (AG := agree_call M (snd q) (part_ins T p conc fwd rev pm sp m mw rho dB1 j1 J1) (part_ins T p conc fwd rev pm sp m mw rho dB2 j2 J1) part_locals [v_jac; v_J_nplusone] o1 o2 (d ++ e) d'
          ltac:(rewrite !part_ins_all; unfold shape; cbn [app all_ins map fst snd]; rewrite LJ, D1, D2; reflexivity)
          (fun v i => given_near_part dB1 dB2 j1 j2 J1 d e v i ND NJ) SL C1 C2).
        destruct o1 as [|a1 [|[|b1 [|]] [|]]]; try discriminate. destruct o2 as [|a2 [|[|b2 [|]] [|]]]; try discriminate.
        assert (b1 = b2). { specialize (AG 1 v_J_nplusone [b1] [b2] eq_refl eq_refl eq_refl 0 VJ). cbn in AG. congruence. } subst b2.
        refine (IH (of_array v_jac d') e' a1 a2 b1 r1 r2 K1 K2 _ _ C E1 E2).
        + unfold call in C1, C2.
          match type of C1 with (let* m := run _ ?len ?g _ in _) = _ => destruct (run M len g (snd q)) as [m1| | |]; try discriminate end. cbn [bind mapM] in C1.
          match type of C2 with (let* m := run _ ?len ?g _ in _) = _ => destruct (run M len g (snd q)) as [m2| | |]; try discriminate end. cbn [bind mapM] in C2.
          match type of C1 with (let* b := read ?len _ _ in _) = _ => destruct (read len m1 v_jac) as [x1| | |] eqn:R1; try discriminate; cbn [bind] in C1; destruct (read len m1 v_J_nplusone); try discriminate end.
          match type of C2 with (let* b := read ?len _ _ in _) = _ => destruct (read len m2 v_jac) as [x2| | |] eqn:R2; try discriminate; cbn [bind] in C2; destruct (read len m2 v_J_nplusone); try discriminate end.
          injection C1 as -> _. injection C2 as -> _. rewrite (proj1 (read_at _ _ _ _ R1)), (proj1 (read_at _ _ _ _ R2)). cbn. rewrite LJ. reflexivity.
        + apply near_of. intros i V. exact (AG 0 v_jac a1 a2 eq_refl eq_refl eq_refl i V).
    Qed.
  End Parts.
End Column.

Lemma near_other {A : Arith} ch n z (a b : list (num A)) : length a = z -> length b = z ->
  (forall i, inert_row ch n i = true -> nth_error a i = nth_error b i) -> near (other_rows ch n z) v_jac a b.
Proof.
  intros La Lb H i V. destruct (Nat.lt_ge_cases i z) as [L|L]; [|rewrite !(proj2 (nth_error_None _ _)) by lia; reflexivity].
  destruct (inert_row ch n i) eqn:E; [apply H, E|]. exfalso. unfold vis in V. cbn [none negb andb] in V. apply negb_true_iff in V.
  assert (existsb (place_eqb (v_jac, N.of_nat i)) (other_rows ch n z) = true); [|congruence].
  apply existsb_exists. exists (v_jac, N.of_nat i). split; [|apply place_eqb_refl]. unfold other_rows, all_of. apply filter_In. cbn [snd]. rewrite Nat2N.id, E.
  split; [|reflexivity]. apply in_map_iff. exists i. split; [reflexivity|apply in_seq; lia].
Qed.

Section Theorems.
  Context {A : Arith}.
  Variable M : libm A.

  Lemma call_length body (ins : list (var * list (num A))) locals outs r k v l : call M body ins locals outs = Ok r ->
    nth_error outs k = Some v -> nth_error r k = Some l -> length l = N.to_nat (sizes (shape ins ++ locals) v).
  Proof.
    intros E Hk Hl. unfold call in E. destruct (run M _ (given ins) body) as [m| | |]; try discriminate. cbn [bind] in E.
    destruct (mapM_nth _ _ _ E k v Hk) as (a & A1 & A2). assert (a = l) by congruence. subst a. apply (read_at _ _ _ _ A2).
  Qed.

  Lemma all_parts_agree (T p : num A) conc fwd rev pm sp (m mw rho : num A) dB1 dB2 d l : length dB1 = length dB2 -> near d v_dBdT dB1 dB2 ->
    forall e e' (j1 j2 : list (num A)) r1 r2, length j1 = length j2 -> near e v_jac j1 j2 -> agree_parts d e l = Some e' ->
    lib_all_parts M T p conc fwd rev pm sp m mw rho dB1 l j1 = Ok r1 -> lib_all_parts M T p conc fwd rev pm sp m mw rho dB2 l j2 = Ok r2 ->
    near e' v_jac r1 r2.
  Proof.
    intros D ND. induction l as [|q l IH]; intros e e' j1 j2 r1 r2 LJ NJ C E1 E2; cbn [agree_parts lib_all_parts] in *.
    - injection C as <-. injection E1 as <-. injection E2 as <-. exact NJ.
    - destruct (slice none (d ++ e) (every (snd q))) as [d'|] eqn:SL; [|discriminate]. destruct (vis none d' (v_J_nplusone, 0%N)); [|discriminate].
      set (i1 := all_ins T p conc fwd rev pm sp m mw rho dB1 j1) in *. set (i2 := all_ins T p conc fwd rev pm sp m mw rho dB2 j2) in *.
      destruct (call M (snd q) i1 part_locals [v_jac]) as [o1| | |] eqn:C1; try discriminate.
      destruct (call M (snd q) i2 part_locals [v_jac]) as [o2| | |] eqn:C2; try discriminate. cbn [bind] in *.
      assert (SH : shape i1 = shape i2) by (unfold shape, i1, i2; cbn [all_ins map fst snd]; rewrite LJ, D; reflexivity).
      assert (AG := agree_call M (snd q) i1 i2 part_locals [v_jac] o1 o2 (d ++ e) d' SH
        (fun v i => given_near T p conc fwd rev pm sp m mw rho dB1 dB2 j1 j2 d e v i ND NJ) SL C1 C2).
      destruct o1 as [|a1 [|]]; try discriminate. destruct o2 as [|a2 [|]]; try discriminate. cbn [only bind] in *.
      refine (IH (of_array v_jac d') e' a1 a2 r1 r2 _ _ C E1 E2).
      + rewrite (call_length _ _ _ _ _ 0 v_jac a1 C1 eq_refl eq_refl), (call_length _ _ _ _ _ 0 v_jac a2 C2 eq_refl eq_refl), SH. reflexivity.
      + apply near_of. intros i V. exact (AG 0 v_jac a1 a2 eq_refl eq_refl eq_refl i V).
  Qed.

  Lemma head_agree (J1 J2 : jacobian) (T p : num A) d1 d2 d m1 m2 b1 b2 n : j_head J1 = j_head J2 -> length d1 = n -> length d2 = n ->
    slice none (all_of v_dBdT n) (every (j_head J1)) = Some d -> vis none d (v_m, 0%N) = true ->
    lib_jac_head M J1 T p d1 = Ok (m1, b1) -> lib_jac_head M J2 T p d2 = Ok (m2, b2) -> m1 = m2 /\ near (of_array v_dBdT d) v_dBdT b1 b2.
  Proof.
    intros HJ L1 L2 SL VM E1 E2. unfold lib_jac_head in *. rewrite <- HJ in E2.
    set (i1 := [(v_T, [T]); (v_pres, [p]); (v_dBdT, d1)]) in *. set (i2 := [(v_T, [T]); (v_pres, [p]); (v_dBdT, d2)]) in *.
    destruct (call M (j_head J1) i1 _ _) as [o1| | |] eqn:C1; try discriminate. destruct (call M (j_head J1) i2 _ _) as [o2| | |] eqn:C2; try discriminate. cbn [bind] in *.
    assert (SH : shape i1 = shape i2) by (unfold shape, i1, i2; cbn [map fst snd]; rewrite L1, L2; reflexivity).
    assert (G : forall v i, vis none (all_of v_dBdT n) (v, i) = true -> given i1 v i = given i2 v i).
    { intros v i V. destruct v; try reflexivity. unfold given, i1, i2. cbn -[nth_error].
      destruct (Nat.lt_ge_cases (N.to_nat i) n) as [L|L]; [|rewrite !(proj2 (nth_error_None _ _)) by lia; reflexivity]. exfalso.
      unfold vis in V. cbn [none negb andb] in V. apply negb_true_iff in V.
      assert (existsb (place_eqb (v_dBdT, i)) (all_of v_dBdT n) = true); [|congruence].
      apply existsb_exists. exists (v_dBdT, i). split; [|apply place_eqb_refl]. unfold all_of. apply in_map_iff. exists (N.to_nat i).
      split; [rewrite N2Nat.id; reflexivity|apply in_seq; lia]. }
    assert (AG := agree_call M (j_head J1) i1 i2 [(v_m, 1); (v_logT, 1)] [v_m; v_dBdT] o1 o2 _ d SH G SL C1 C2).
    destruct o1 as [|[|x1 [|]] [|c1 [|]]]; try discriminate. destruct o2 as [|[|x2 [|]] [|c2 [|]]]; try discriminate.
    injection E1 as -> ->. injection E2 as -> ->. split.
    - specialize (AG 0 v_m [m1] [m2] eq_refl eq_refl eq_refl 0 VM). cbn in AG. congruence.
    - apply near_of. intros i V. exact (AG 1 v_dBdT b1 b2 eq_refl eq_refl eq_refl i V).
  Qed.

  (** What [eval_jacob] computes before the calls of eval_jacob_*. *)
  Lemma before S (p : num A) y : library_ok S = true -> length y = s_NSP S -> 1 <= s_NSP S ->
    exists T yN mw rho conc fwd rev pm sp dyN h cp,
      idx y 0 = Ok T /\ lib_eval_conc M S T p (skipn 1 y) = Ok (yN, mw, rho, conc) /\ lib_eval_rxn_rates M S T p conc = Ok (fwd, rev) /\
      lib_get_rxn_pres_mod M S T p conc = Ok pm /\ lib_eval_spec_rates M S fwd rev pm = Ok (sp, dyN) /\ lib_eval_h M S T = Ok h /\ lib_eval_cp M S T = Ok cp /\
      length conc = s_NSP S /\ length fwd = s_fwd S /\ length rev = s_rev S /\ length pm = s_pmod S /\ length (sp ++ [dyN]) = s_NSP S /\
      length h = s_NSP S /\ length cp = s_NSP S.
  Proof.
    intros K Ly N1. destruct y as [|T y]; [cbn in Ly; lia|]. cbn [length] in Ly.
    destruct (eval_conc_defined M S K T p y ltac:(lia)) as (yN & mw & rho & conc & E1 & L1).
    destruct (eval_rxn_rates_defined M S K T p conc L1) as (fwd & rev & E2 & L2 & L3).
    destruct (get_rxn_pres_mod_defined M S K T p conc L1) as (pm & E3 & L4).
    destruct (eval_spec_rates_defined M S K fwd rev pm L2 L3 L4) as (sp & dyN & E4 & L5).
    destruct (eval_h_defined M S K T) as (h & E5 & L6). destruct (eval_cp_defined M S K T) as (cp & E6 & L7).
    exists T, yN, mw, rho, conc, fwd, rev, pm, sp, dyN, h, cp. cbn [skipn idx nth_error]. rewrite E1, E2, E3, E4, E5, E6.
    rewrite app_length, L5. cbn [length]. repeat split; try assumption; lia.
  Qed.

  Lemma tail_shape_of S T y yN rho sp h cp jac (J1 : num A) : length y = s_NSP S -> length sp = s_NSP S -> length h = s_NSP S -> length cp = s_NSP S -> length jac = s_NSP S ->
    shape (tail_ins T y yN rho sp h cp jac J1) = tail_shape S.
  Proof. intros L1 L2 L3 L4 L5. unfold shape, tail_ins, tail_shape. cbn [map fst snd length]. rewrite L1, L2, L3, L4, L5. reflexivity. Qed.

  (** The temperature column: defined, the rows of inert species as they were, nothing else of the entry values in the result. *)
  Theorem column_entry m (p : num A) y jac0 dB0 : length y = s_NSP (library m) -> length jac0 = s_NSP (library m) -> length dB0 = s_NSP (library m) ->
    exists J, lib_jacob_T M (library m) (jac_T m) p y jac0 dB0 = Ok J /\ length J = s_NSP (library m) /\
      (forall i, inert_row (chem m) (s_NSP (library m)) i = true -> nth_error J i = nth_error jac0 i) /\
      forall jac0' dB0', length jac0' = s_NSP (library m) -> length dB0' = s_NSP (library m) ->
        (forall i, inert_row (chem m) (s_NSP (library m)) i = true -> nth_error jac0' i = nth_error jac0 i) ->
        lib_jacob_T M (library m) (jac_T m) p y jac0' dB0' = Ok J.
  Proof.
    intros Ly Lj LB. pose proof (library_all m) as K. pose proof (every_mechanism _ column_set_all m) as CS. pose proof (every_mechanism _ column_agree_all m) as CA.
    pose proof (every_mechanism _ column_leaves_all m) as CL. cbv beta in CS, CA, CL. 
    assert (N1 : 1 <= s_NSP (library m)) by (destruct m; vm_compute; repeat constructor).
    set (S := library m) in *. set (Jc := jac_T m) in *.
    destruct (before S p y K Ly N1) as (T & yN & mw & rho & conc & fwd & rev & pm & sp & dyN & h & cp & E0 & E1 & E2 & E3 & E4 & E5 & E6 & L1 & L2 & L3 & L4 & L5 & L6 & L7).
    unfold column_set in CS. apply andb_true_iff in CS as [CS CS3]. apply andb_true_iff in CS as [CS1 CS2].
    assert (HS : forall d, length d = s_NSP S -> exists mm dB, lib_jac_head M Jc T p d = Ok (mm, dB) /\ length dB = s_NSP S).
    { intros d Ld. destruct (head_set M S (j_head Jc) [] T p d CS1 Ld) as (a & b & E & L). exists a, b. split; [exact E|exact L]. }
    assert (RUN : forall j0 d0, length j0 = s_NSP S -> length d0 = s_NSP S -> exists mm dB j1 k1 j2,
      lib_jac_head M Jc T p d0 = Ok (mm, dB) /\ length dB = s_NSP S /\
      lib_jac_parts M T p conc fwd rev pm (sp ++ [dyN]) mm mw rho dB (j_parts Jc) j0 (zero A) = Ok (j1, k1) /\ length j1 = s_NSP S /\
      call M (j_tail Jc) (tail_ins T y yN rho (sp ++ [dyN]) h cp j1 k1) [(v_cp_avg, 1); (v_working_temp, 1)] [v_jac] = Ok [j2] /\ length j2 = s_NSP S /\
      lib_jacob_T M S Jc p y j0 d0 = Ok j2).
    { intros j0 d0 Lj0 Ld0. destruct (HS d0 Ld0) as (mm & dB & EH & LdB). rewrite <- Lj0 in CS2.
      destruct (parts_defined M S T p conc fwd rev pm (sp ++ [dyN]) mm mw rho L1 L2 L3 L4 L5 dB (j_parts Jc) LdB j0 (zero A) CS2) as (j1 & k1 & EP & Lj1).
      rewrite Lj0 in Lj1. rewrite <- (tail_shape_of S T y yN rho (sp ++ [dyN]) h cp j1 k1 Ly L5 L6 L7 Lj1) in CS3.
      destruct (call_set1 M _ _ _ _ CS3) as (j2 & ET & Lj2).
      exists mm, dB, j1, k1, j2. do 5 (split; [assumption|]). split; [rewrite Lj2; cbn; rewrite Nat2N.id; exact Lj1|].
      unfold lib_jacob_T. rewrite E0. cbn [bind]. rewrite E1. cbn [bind]. rewrite E2. cbn [bind]. rewrite E3. cbn [bind]. rewrite E4. cbn [bind]. rewrite EH. cbn [bind].
      rewrite EP. cbn [bind]. rewrite E5. cbn [bind]. rewrite E6. cbn [bind]. rewrite ET. reflexivity. }
    destruct (RUN jac0 dB0 Lj LB) as (mm & dB & j1 & k1 & J & EH & LdB & EP & Lj1 & ET & LJ & E). exists J. split; [exact E|]. split; [exact LJ|]. split.
    - intros i HI. destruct (Nat.lt_ge_cases i (s_NSP S)) as [L|L]; [|rewrite !(proj2 (nth_error_None _ _)) by lia; reflexivity].
      unfold leaves in CL. rewrite forallb_forall in CL. specialize (CL i ltac:(apply in_seq; lia)). rewrite HI in CL. cbn [negb orb] in CL.
      rewrite forallb_app in CL. apply andb_true_iff in CL as [CL1 CL2]. cbn [forallb] in CL2. rewrite andb_true_r in CL2.
      rewrite (frame_call M _ _ _ _ _ i 0 v_jac J CL2 ET eq_refl eq_refl) by lia. unfold given, tail_ins. cbn -[nth_error]. rewrite Nat2N.id.
      clear ET LJ E RUN CS2 CS3 CS1 CA CL2 HS. revert EP. generalize (zero A) as z0. revert CL1 Lj. generalize (j_parts Jc) jac0.
      induction l as [|q l IH]; intros j0 CL1 Lj0 z0 EP; cbn [lib_jac_parts] in EP; [injection EP as <- <-; reflexivity|].
      cbn [map forallb] in CL1. apply andb_true_iff in CL1 as [CL0 CL1].
      destruct (call M (snd q) (part_ins T p conc fwd rev pm (sp ++ [dyN]) mm mw rho dB j0 z0) part_locals [v_jac; v_J_nplusone]) as [o| | |] eqn:C; try discriminate. cbn [bind] in EP.
      destruct o as [|a [|[|b [|]] [|]]]; try discriminate.
      pose proof (call_length _ _ _ _ _ 0 v_jac a C eq_refl eq_refl) as La. cbn in La. rewrite Nat2N.id, Lj0 in La.
      rewrite (IH a CL1 La b EP). rewrite (frame_call M _ _ _ _ _ i 0 v_jac a CL0 C eq_refl eq_refl) by lia. unfold given, part_ins. cbn -[nth_error]. rewrite Nat2N.id. reflexivity.
    - intros jac0' dB0' Lj' LB' HI. destruct (RUN jac0' dB0' Lj' LB') as (mm' & dB' & j1' & k1' & J' & EH' & LdB' & EP' & Lj1' & ET' & LJ' & E'). rewrite E'. f_equal.
      unfold column_agree in CA. destruct (slice none (all_of v_dBdT (s_NSP S)) (every (j_head Jc))) as [d|] eqn:SH; [|discriminate]. apply andb_true_iff in CA as [VM CA].
      destruct (agree_parts (of_array v_dBdT d) _ (j_parts Jc)) as [d1|] eqn:AP; [|discriminate]. destruct (slice none d1 (every (j_tail Jc))) as [d2|] eqn:ST; [|discriminate].
      destruct (head_agree Jc Jc T p dB0' dB0 d mm' mm dB' dB (s_NSP S) eq_refl LB' LB SH VM EH' EH) as [-> ND].
      assert (NJ : near (other_rows (chem m) (s_NSP S) (s_NSP S)) v_jac jac0' jac0).
      { apply near_other; [exact Lj'|exact Lj|exact HI]. }
      destruct (parts_agree M S T p conc fwd rev pm (sp ++ [dyN]) mm mw rho dB' dB _ (j_parts Jc) LdB' LdB ND _ d1 jac0' jac0 (zero A) j1' j1 k1' k1 ltac:(congruence) NJ AP EP' EP) as [NJ1 ->].
      apply (clean_nth d2 v_jac (s_NSP S)); [exact CA|exact LJ'|exact LJ|]. intros i V.
      refine (agree_call M (j_tail Jc) _ _ _ [v_jac] [J'] [J] d1 d2 _ _ ST ET' ET 0 v_jac J' J eq_refl eq_refl eq_refl i V).
      + unfold shape, tail_ins. cbn [map fst snd]. rewrite Lj1, Lj1'. reflexivity.
      + intros v j W. destruct v; try reflexivity. unfold given, tail_ins. cbn -[nth_error]. apply NJ1. rewrite N2Nat.id. exact W.
  Qed.
End Theorems.
