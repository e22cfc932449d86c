(** [eval_jacob] of drm19 in any arithmetic: the whole array. *)
From Coq Require Import List NArith PArith QArith Bool Lia.
From Verif Require Import Outcome Arith MechLang MechSrc MechCall MechDefined MechChem Mechanisms MechDydt MechJac MechFull MechSlice MechSliceT MechInit MechEntry MechEntryT.
Import ListNotations.
Local Open Scope nat_scope.

Section Whole.
  Context {A : Arith}.
  Variable M : libm A.
  Variable S : source.
  Variable Jw : jacobian_all.
  Variable ch : chemistry.
  Variables n Z : nat.
  Hypothesis K : library_ok S = true.
  Hypothesis N1 : 1 <= s_NSP S.
  Hypothesis CS : whole_set S Jw Z = true.
  Hypothesis CA : whole_agree S Jw Z (other_rows ch n Z) = true.
  Hypothesis CL : leaves ch n Z (map snd (a_parts Jw) ++ [a_mid Jw; a_species Jw; a_tail Jw]) = true.

  Lemma whole_entry_of (p : num A) y jac0 dB0 : length y = s_NSP S -> length jac0 = Z -> length dB0 = s_NSP S ->
    exists J, lib_jacob M S Jw p y jac0 dB0 = Ok J /\ length J = Z /\
      (forall i, inert_row ch n i = true -> nth_error J i = nth_error jac0 i) /\
      forall jac0' dB0', length jac0' = Z -> length dB0' = s_NSP S ->
        (forall i, inert_row ch n i = true -> nth_error jac0' i = nth_error jac0 i) ->
        lib_jacob M S Jw p y jac0' dB0' = Ok J.
  Proof.
    intros Ly Lj LB. revert CS CA CL. intros CS CA CL.
    destruct (before M S p y K Ly N1) as (T & yN & mw & rho & conc & fwd & rev & pm & sp & dyN & h & cp & E0 & E1 & E2 & E3 & E4 & E5 & E6 & L1 & L2 & L3 & L4 & L5 & L6 & L7).
    unfold whole_set in CS. apply andb_true_iff in CS as [CS CS5]. apply andb_true_iff in CS as [CS CS4]. apply andb_true_iff in CS as [CS CS3]. apply andb_true_iff in CS as [CS1 CS2].
    assert (RUN : forall j0 d0, length j0 = Z -> length d0 = s_NSP S -> exists mm dB j1 cpa wt j2 j3 j4,
      lib_jac_head M (mkJac (a_head Jw) [] []) T p d0 = Ok (mm, dB) /\ length dB = s_NSP S /\
      lib_all_parts M T p conc fwd rev pm (sp ++ [dyN]) mm mw rho dB (a_parts Jw) j0 = Ok j1 /\ length j1 = Z /\
      call M (a_mid Jw) (mid_ins y yN cp j1) [(v_cp_avg, 1); (v_working_temp, 1)] [v_cp_avg; v_working_temp; v_jac] = Ok [[cpa]; [wt]; j2] /\ length j2 = Z /\
      call M (a_species Jw) (species_ins mw rho cpa (sp ++ [dyN]) h cp j2) [(v_rho_inv, 1); (v_working_temp, 1); (v_j_temp, 1)] [v_jac] = Ok [j3] /\ length j3 = Z /\
      call M (a_tail Jw) (end_ins T y yN rho (sp ++ [dyN]) h cp cpa wt j3) [] [v_jac] = Ok [j4] /\ length j4 = Z /\
      lib_jacob M S Jw p y j0 d0 = Ok j4).
    { intros j0 d0 Lj0 Ld0. destruct (head_set M S (a_head Jw) [] T p d0 CS1 Ld0) as (mm & dB & EH & LdB). rewrite <- Lj0 in CS2.
      destruct (all_parts_defined M S T p conc fwd rev pm (sp ++ [dyN]) mm mw rho L1 L2 L3 L4 L5 dB (a_parts Jw) LdB j0 CS2) as (j1 & EP & Lj1). rewrite Lj0 in Lj1.
      assert (SM : shape (mid_ins y yN cp j1) = mid_shape S Z) by (unfold shape, mid_ins, mid_shape; cbn [map fst snd]; rewrite Ly, L7, Lj1; reflexivity).
      rewrite <- SM in CS3. destruct (call_set3 M _ _ _ _ _ _ CS3) as (a & b & j2 & EM & La & Lb & Lj2). cbn in La, Lb. destruct (one_element a La) as [cpa ->]. destruct (one_element b Lb) as [wt ->].
      assert (Lj2' : length j2 = Z) by (rewrite Lj2; cbn; rewrite Nat2N.id; exact Lj1).
      assert (SS : shape (species_ins mw rho cpa (sp ++ [dyN]) h cp j2) = species_shape S Z) by (unfold shape, species_ins, species_shape; cbn [map fst snd]; rewrite L5, L6, L7, Lj2'; reflexivity).
      rewrite <- SS in CS4. destruct (call_set1 M _ _ _ _ CS4) as (j3 & ES & Lj3). assert (Lj3' : length j3 = Z) by (rewrite Lj3; cbn; rewrite Nat2N.id; exact Lj2').
      assert (SE : shape (end_ins T y yN rho (sp ++ [dyN]) h cp cpa wt j3) = end_shape S Z) by (unfold shape, end_ins, end_shape; cbn [map fst snd]; rewrite Ly, L5, L6, L7, Lj3'; reflexivity).
      rewrite <- SE in CS5. destruct (call_set1 M _ _ _ _ CS5) as (j4 & EE & Lj4). assert (Lj4' : length j4 = Z) by (rewrite Lj4; cbn; rewrite Nat2N.id; exact Lj3').
      exists mm, dB, j1, cpa, wt, j2, j3, j4. do 10 (split; [assumption|]).
      unfold lib_jacob. rewrite E0. cbn [bind]. rewrite E1. cbn [bind]. rewrite E2. cbn [bind]. rewrite E3. cbn [bind]. rewrite E4. cbn [bind]. rewrite EH. cbn [bind].
      rewrite EP. cbn [bind]. rewrite E5. cbn [bind]. rewrite E6. cbn [bind]. rewrite EM. cbn [bind]. rewrite ES. cbn [bind only]. rewrite EE. reflexivity. }
    destruct (RUN jac0 dB0 Lj LB) as (mm & dB & j1 & cpa & wt & j2 & j3 & J & EH & LdB & EP & Lj1 & EM & Lj2 & ES & Lj3 & EE & LJ & E).
    exists J. split; [exact E|]. split; [exact LJ|]. split.
    - intros i HI. destruct (Nat.lt_ge_cases i Z) as [L|L]; [|rewrite !(proj2 (nth_error_None _ _)) by lia; reflexivity].
      unfold leaves in CL. rewrite forallb_forall in CL. specialize (CL i ltac:(apply in_seq; lia)). rewrite HI in CL. cbn [negb orb] in CL.
      rewrite forallb_app in CL. apply andb_true_iff in CL as [CL1 CL]. cbn [forallb] in CL. rewrite andb_true_r in CL. apply andb_true_iff in CL as [CL2 CL]. apply andb_true_iff in CL as [CL3 CL4].
      rewrite (frame_call M _ _ _ _ _ i 0 v_jac J CL4 EE eq_refl eq_refl) by lia. unfold given at 1, end_ins. cbn -[nth_error lib_jacob]. rewrite Nat2N.id.
      rewrite (frame_call M _ _ _ _ _ i 0 v_jac j3 CL3 ES eq_refl eq_refl) by lia. unfold given at 1, species_ins. cbn -[nth_error lib_jacob]. rewrite Nat2N.id.
      rewrite (frame_call M _ _ _ _ _ i 2 v_jac j2 CL2 EM eq_refl eq_refl) by lia. unfold given at 1, mid_ins. cbn -[nth_error lib_jacob]. rewrite Nat2N.id.
      clear EE ES EM E RUN CS1 CS2 CS3 CS4 CS5 CA CL2 CL3 CL4. revert EP. revert CL1 Lj. generalize (a_parts Jw) jac0.
      induction l as [|q l IH]; intros j0 CL1 Lj0 EP; cbn [lib_all_parts] in EP; [injection EP as <-; reflexivity|].
      cbn [map forallb] in CL1. apply andb_true_iff in CL1 as [CL0 CL1].
      destruct (call M (snd q) (all_ins T p conc fwd rev pm (sp ++ [dyN]) mm mw rho dB j0) part_locals [v_jac]) as [o| | |] eqn:C; try discriminate EP. cbn [bind] in EP.
      destruct o as [|a [|]]; try discriminate EP. cbn [only bind] in EP.
      pose proof (call_length M _ _ _ _ _ 0 v_jac a C eq_refl eq_refl) as La. cbn in La. rewrite Nat2N.id, Lj0 in La.
      rewrite (IH a CL1 La EP). rewrite (frame_call M _ _ _ _ _ i 0 v_jac a CL0 C eq_refl eq_refl) by lia. unfold given, all_ins. cbn -[nth_error]. rewrite Nat2N.id. reflexivity.
    - intros jac0' dB0' Lj' LB' HI.
      destruct (RUN jac0' dB0' Lj' LB') as (mm' & dB' & j1' & cpa' & wt' & j2' & j3' & J' & EH' & LdB' & EP' & Lj1' & EM' & Lj2' & ES' & Lj3' & EE' & LJ' & E'). rewrite E'. f_equal.
      unfold whole_agree in CA. destruct (slice none (all_of v_dBdT (s_NSP S)) (every (a_head Jw))) as [d|] eqn:SH; [|discriminate CA]. apply andb_true_iff in CA as [VM CA].
      destruct (agree_parts (of_array v_dBdT d) _ (a_parts Jw)) as [d1|] eqn:AP; [|discriminate CA].
      destruct (slice none d1 (every (a_mid Jw))) as [d2|] eqn:SM; [|discriminate CA]. apply andb_true_iff in CA as [VC CA]. apply andb_true_iff in VC as [VC VW].
      destruct (slice none (of_array v_jac d2) (every (a_species Jw))) as [d3|] eqn:SS; [|discriminate CA].
      destruct (slice none (of_array v_jac d3) (every (a_tail Jw))) as [d4|] eqn:ST; [|discriminate CA].
      destruct (head_agree M (mkJac (a_head Jw) [] []) (mkJac (a_head Jw) [] []) T p dB0' dB0 d mm' mm dB' dB (s_NSP S) eq_refl LB' LB SH VM EH' EH) as [-> ND].
      assert (NJ : near (other_rows ch n Z) v_jac jac0' jac0) by (apply near_other; [exact Lj'|exact Lj|exact HI]).
      pose proof (all_parts_agree M T p conc fwd rev pm (sp ++ [dyN]) mm mw rho dB' dB _ (a_parts Jw) ltac:(congruence) ND _ d1 jac0' jac0 j1' j1 ltac:(congruence) NJ AP EP' EP) as NJ1.
      assert (AM := agree_call M (a_mid Jw) (mid_ins y yN cp j1') (mid_ins y yN cp j1) [(v_cp_avg, 1); (v_working_temp, 1)] [v_cp_avg; v_working_temp; v_jac] _ _ d1 d2
        ltac:(unfold shape, mid_ins; cbn [map fst snd]; rewrite Lj1, Lj1'; reflexivity)
        ltac:(intros v j W; destruct v; try reflexivity; unfold given, mid_ins; cbn -[nth_error]; apply NJ1; rewrite N2Nat.id; exact W) SM EM' EM).
      assert (cpa' = cpa) by (specialize (AM 0 v_cp_avg [cpa'] [cpa] eq_refl eq_refl eq_refl 0 VC); cbn in AM; congruence).
      assert (wt' = wt) by (specialize (AM 1 v_working_temp [wt'] [wt] eq_refl eq_refl eq_refl 0 VW); cbn in AM; congruence). subst cpa' wt'.
      assert (NJ2 : near (of_array v_jac d2) v_jac j2' j2) by (apply near_of; intros i V; exact (AM 2 v_jac j2' j2 eq_refl eq_refl eq_refl i V)).
      assert (AS := agree_call M (a_species Jw) (species_ins mw rho cpa (sp ++ [dyN]) h cp j2') (species_ins mw rho cpa (sp ++ [dyN]) h cp j2) [(v_rho_inv, 1); (v_working_temp, 1); (v_j_temp, 1)] [v_jac] _ _ _ d3
        ltac:(unfold shape, species_ins; cbn [map fst snd]; rewrite Lj2, Lj2'; reflexivity)
        ltac:(intros v j W; destruct v; try reflexivity; unfold given, species_ins; cbn -[nth_error]; apply NJ2; rewrite N2Nat.id; exact W) SS ES' ES).
      assert (NJ3 : near (of_array v_jac d3) v_jac j3' j3) by (apply near_of; intros i V; exact (AS 0 v_jac j3' j3 eq_refl eq_refl eq_refl i V)).
      apply (clean_nth d4 v_jac Z); [exact CA|exact LJ'|exact LJ|]. intros i V.
      refine (agree_call M (a_tail Jw) (end_ins T y yN rho (sp ++ [dyN]) h cp cpa wt j3') (end_ins T y yN rho (sp ++ [dyN]) h cp cpa wt j3) [] [v_jac] [J'] [J] _ d4 _ _ ST EE' EE 0 v_jac J' J eq_refl eq_refl eq_refl i V).
      + unfold shape, end_ins. cbn [map fst snd]. rewrite Lj3, Lj3'. reflexivity.
      + intros v j W. destruct v; try reflexivity. unfold given, end_ins. cbn -[nth_error]. apply NJ3. rewrite N2Nat.id. exact W.
  Qed.
End Whole.

(** Defined, the rows of inert species as they were, nothing else of the entry values in the result. *)
Theorem whole_entry {A : Arith} (M : libm A) (p : num A) y jac0 dB0 : length y = 21 -> length jac0 = 441 -> length dB0 = 21 ->
  exists J, lib_jacob M (library drm19) drm19_jac_all p y jac0 dB0 = Ok J /\ length J = 441 /\
    (forall i, inert_row (chem drm19) 21 i = true -> nth_error J i = nth_error jac0 i) /\
    forall jac0' dB0', length jac0' = 441 -> length dB0' = 21 ->
      (forall i, inert_row (chem drm19) 21 i = true -> nth_error jac0' i = nth_error jac0 i) ->
      lib_jacob M (library drm19) drm19_jac_all p y jac0' dB0' = Ok J.
Proof.
  assert (N : s_NSP (library drm19) = 21) by reflexivity.
  assert (N1 : 1 <= s_NSP (library drm19)) by (rewrite N; repeat constructor).
  pose proof (whole_entry_of M (library drm19) drm19_jac_all (chem drm19) 21 441 (library_all drm19) N1 whole_set_drm19 whole_agree_drm19 whole_leaves_drm19 p y jac0 dB0) as H.
  rewrite N in H. exact H.
Qed.
