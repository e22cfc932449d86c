(** Conservation of mass and of enthalpy, the order of the species, and the mechanism data. *)
From Coq Require Import List ZArith NArith QArith Qabs Qreals Reals Bool String Lra Lia.
From Verif Require Import Outcome Arith MechLang MechSym MechSrc MechCall MechReal MechPoly MechChem Mechanisms
  MechSpec MechRate MechPmod MechThermo MechConc MechDydt MechDefined MechRhs MechConv MechNames.
Import ListNotations.
Local Open Scope nat_scope.

(** Atomic weights of O, H, C, N and Ar (the order of the elements in the chem.cti). *)
Definition atomic_weight : list Q := [15.9994; 1.00794; 12.011; 14.00674; 39.948]%Q.

(** Weight of a species, from its atoms. *)
Definition formula_weight (a : list nat) : Q :=
  fold_right (fun e s => inject_Z (Z.of_nat (nth e a 0%nat)) * nth e atomic_weight 0%Q + s)%Q 0%Q (seq 0 5).

(** Weights from the formulas. *)
Definition formula_weights (m : mechanism) : list Q := map formula_weight (ch_atoms (chem m)).

Lemma formula_close m : close (1 / 10 ^ 15)%Q (dydt_weights (library m) nitrogen) (formula_weights m) = true.
Proof. destruct m; vm_compute; reflexivity. Qed.

Lemma molWeight_close m : close (1 / 10 ^ 15)%Q (molWeight m) (formula_weights m) = true.
Proof. destruct m; vm_compute; reflexivity. Qed.

Lemma molWeight_positive m : all_positive (molWeight m) = true.
Proof. destruct m; vm_compute; reflexivity. Qed.

Lemma formula_length m : List.length (formula_weights m) = s_NSP (library m).
Proof. destruct m; vm_compute; reflexivity. Qed.

Lemma atoms_length m : List.length (ch_atoms (chem m)) = s_NSP (library m).
Proof. destruct m; vm_compute; reflexivity. Qed.

Lemma elements_five m : ch_elements (chem m) = 5.
Proof. destruct m; reflexivity. Qed.

Lemma formula_weight_val m k : k < s_NSP (library m) ->
  Q2R (nth k (formula_weights m) 0%Q) = Rsumn 5 (fun e => INR (atoms (chem m) e k) * Q2R (nth e atomic_weight 0%Q))%R.
Proof.
  intros Hk. unfold formula_weights.
  rewrite (nth_indep _ 0%Q (formula_weight [])) by (rewrite map_length, atoms_length; exact Hk).
  rewrite map_nth. unfold formula_weight. rewrite (Q2R_sum (fun e => inject_Z (Z.of_nat (nth e (nth k (ch_atoms (chem m)) []) 0%nat)) * nth e atomic_weight 0%Q)%Q).
  unfold Rsumn. apply Rsum_ext. intros e _. rewrite Q2R_mult. f_equal. unfold atoms, Q2R, inject_Z. cbn [Qnum Qden].
  rewrite INR_IZR_INZ. field.
Qed.

Lemma Rsum_abs {X} (f : X -> R) l : (Rabs (Rsum (map f l)) <= Rsum (map (fun x => Rabs (f x)) l))%R.
Proof.
  induction l as [|x l IH]; cbn [map Rsum]; [rewrite Rabs_R0; lra|].
  eapply Rle_trans; [apply Rabs_triang|]. lra.
Qed.

Lemma Rsum_le {X} (f g : X -> R) l : (forall x, In x l -> f x <= g x)%R -> (Rsum (map f l) <= Rsum (map g l))%R.
Proof.
  induction l as [|x l IH]; cbn [map Rsum]; intros H; [lra|].
  pose proof (H x (or_introl eq_refl)). specialize (IH (fun z Hz => H z (or_intror Hz))). lra.
Qed.

(** Production rates have no net mass, up to the rounding of the weights. *)
Lemma mass_balance (M : libm RA) m (fwd rev pm : list R) (sp : list R) (dyN : R) (w : nat -> R) (eps : R) :
  (forall k, k < s_NSP (library m) ->
     (Rabs (w k - Q2R (nth k (formula_weights m) 0%Q)) <= eps * Q2R (nth k (formula_weights m) 0%Q))%R) ->
  List.length fwd = s_fwd (library m) -> List.length rev = s_rev (library m) -> List.length pm = s_pmod (library m) ->
  lib_eval_spec_rates (A := RA) M (library m) fwd rev pm = Ok (sp, dyN) ->
  (Rabs (Rsumn (s_NSP (library m)) (fun k => w k * nth k (sp ++ [dyN]) 0)) <=
   eps * Rsumn (s_NSP (library m)) (fun k => Q2R (nth k (formula_weights m) 0%Q) * Rabs (nth k (sp ++ [dyN]) 0)))%R.
Proof.
  intros Hw L1 L2 L3 E.
  destruct (production_balanced M (library m) (chem m) fwd rev pm (spec_all m) (balanced_all m) (species_all m) L1 L2 L3)
    as (sp' & d' & E' & B).
  rewrite E in E'. injection E' as <- <-. rewrite species_all in B.
  assert (Z : Rsumn (s_NSP (library m)) (fun k => Q2R (nth k (formula_weights m) 0%Q) * nth k (sp ++ [dyN]) 0)%R = 0%R).
  { rewrite (Rsumn_ext _ _ (fun k => Rsumn 5 (fun e => Q2R (nth e atomic_weight 0%Q) * (INR (atoms (chem m) e k) * nth k (sp ++ [dyN]) 0)))%R).
    - unfold Rsumn. rewrite Rsum_swap. rewrite (Rsum_ext _ (fun _ => 0%R)); [apply Rsum_zero; reflexivity|].
      intros e He. apply in_seq in He. cbv beta. rewrite (Rsum_scal (Q2R (nth e atomic_weight 0%Q)) (fun k => INR (atoms (chem m) e k) * nth k (sp ++ [dyN]) 0)%R).
      specialize (B e). rewrite elements_five in B. unfold Rsumn in B. rewrite B by lia. ring.
    - intros k Hk. rewrite (formula_weight_val m k Hk). unfold Rsumn.
      rewrite Rmult_comm, <- Rsum_scal. apply Rsum_ext. intros e _. ring. }
  replace (Rsumn (s_NSP (library m)) (fun k => w k * nth k (sp ++ [dyN]) 0)%R)
    with (Rsumn (s_NSP (library m)) (fun k => (w k - Q2R (nth k (formula_weights m) 0%Q)) * nth k (sp ++ [dyN]) 0)%R).
  2: { apply Rplus_eq_reg_r with (Rsumn (s_NSP (library m)) (fun k => Q2R (nth k (formula_weights m) 0%Q) * nth k (sp ++ [dyN]) 0)%R).
       unfold Rsumn at 1 2. rewrite <- Rsum_plus. rewrite Z, Rplus_0_r. apply Rsumn_ext. intros; ring. }
  unfold Rsumn. rewrite <- Rsum_scal. eapply Rle_trans; [apply Rsum_abs|]. apply Rsum_le.
  intros k Hk. apply in_seq in Hk. rewrite Rabs_mult.
  specialize (Hw k ltac:(lia)). pose proof (Rabs_pos (nth k (sp ++ [dyN]) 0%R)). nra.
Qed.

(** [dydt] from the results of the functions it calls. *)
Theorem rhs_explicit (M : libm RA) m (p T : R) (y : list R) (yN mw rho : R) (conc fwd rev pm sp : list R) (dyN : R) (cp h dy : list R) :
  List.length y = s_NSP (library m) - 1 ->
  lib_eval_conc M (library m) T p y = Ok (yN, mw, rho, conc) ->
  lib_eval_rxn_rates M (library m) T p conc = Ok (fwd, rev) ->
  lib_get_rxn_pres_mod M (library m) T p conc = Ok pm ->
  lib_eval_spec_rates M (library m) fwd rev pm = Ok (sp, dyN) ->
  lib_eval_cp M (library m) T = Ok cp -> lib_eval_h M (library m) T = Ok h ->
  lib_dydt M (library m) p (T :: y) = Ok dy ->
  List.length fwd = s_fwd (library m) /\ List.length rev = s_rev (library m) /\ List.length pm = s_pmod (library m) /\
  List.length sp = s_NSP (library m) - 1 /\
  yN = (1 - Rsum y)%R /\
  (forall k, k < s_NSP (library m) - 1 -> nth (k + 1) dy 0%R = (nth k sp 0 * (W m k / rho))%R) /\
  nth 0 dy 0%R =
      (-1 / (rho * Rsumn (s_NSP (library m)) (fun k => nth k cp 0 * nth k (all_fractions y) 0)) *
       Rsumn (s_NSP (library m)) (fun k => W m k * nth k (sp ++ [dyN]) 0 * nth k h 0))%R.
Proof.
  intros L E1 E2 E3 E4 E5 E6 E7. destruct (right_hand_side M m p T y L) as (s & K & G1 & G2).
  destruct K as ((yN' & mw' & K1 & KN) & _ & K2 & K3 & L1 & L2 & L3 & K4 & L4 & K5 & _ & K6 & _ & K7 & _).
  rewrite E1 in K1. injection K1 as <- <- R1 R2. rewrite <- R2, E2 in K2. injection K2 as R3 R4.
  rewrite <- R2, E3 in K3. injection K3 as R5.
  rewrite <- R3, <- R4, <- R5, E4 in K4. injection K4 as R6 R7.
  rewrite E5 in K5. injection K5 as R8. rewrite E6 in K6. injection K6 as R9. rewrite E7 in K7. injection K7 as R10.
  rewrite R1, R3, R4, R5, R6, R7, R8, R9, R10. auto 10.
Qed.

(** The rate of the last species, which the chemistry model takes by difference, is the one the
    mechanism gives it. *)
Theorem mass_conserved (M : libm RA) m (p T : R) (y : list R) (yN mw rho : R) (conc fwd rev pm sp : list R) (dyN : R) (cp h dy : list R) :
  List.length y = s_NSP (library m) - 1 ->
  lib_eval_conc M (library m) T p y = Ok (yN, mw, rho, conc) ->
  lib_eval_rxn_rates M (library m) T p conc = Ok (fwd, rev) ->
  lib_get_rxn_pres_mod M (library m) T p conc = Ok pm ->
  lib_eval_spec_rates M (library m) fwd rev pm = Ok (sp, dyN) ->
  lib_eval_cp M (library m) T = Ok cp -> lib_eval_h M (library m) T = Ok h ->
  lib_dydt M (library m) p (T :: y) = Ok dy -> rho <> 0%R ->
  (Rabs (Rsumn (s_NSP (library m) - 1)%nat (fun k => nth (k + 1)%nat dy 0) +
         Q2R (nth (s_NSP (library m) - 1)%nat (molWeight m) 0%Q) * dyN / rho) <=
   4 / 10 ^ 15 * (Rsumn (s_NSP (library m) - 1)%nat (fun k => Rabs (nth (k + 1)%nat dy 0)) +
             Rabs (Q2R (nth (s_NSP (library m) - 1)%nat (molWeight m) 0%Q) * dyN / rho)))%R.
Proof.
  intros L E1 E2 E3 E4 E5 E6 E7 D.
  destruct (rhs_explicit M m p T y yN mw rho conc fwd rev pm sp dyN cp h dy L E1 E2 E3 E4 E5 E6 E7)
    as (L1 & L2 & L3 & L4 & _ & G & _).
  set (n := s_NSP (library m)) in *. assert (Hn : 1 <= n) by (pose proof (NSP_pos m) as NP; fold n in NP; lia).
  set (e15 := (1 / 10 ^ 15)%R). assert (P15 : (0 < e15 <= 1 / 4)%R) by (unfold e15; split; [apply Rdiv_lt_0_compat; [lra|apply pow_lt; lra]|lra]).
  set (w := fun k => if k =? n - 1 then Q2R (nth (n - 1)%nat (molWeight m) 0%Q) else W m k).
  set (f := fun k => Q2R (nth k (formula_weights m) 0%Q)).
  assert (Q15 : Q2R (1 / 10 ^ 15) = e15).
  { unfold e15. unfold Q2R. cbn. lra. }
  assert (Hw : forall k, k < n -> (Rabs (w k - f k) <= e15 * f k)%R).
  { intros k Hk. unfold w, f. rewrite <- Q15. destruct (Nat.eqb_spec k (n - 1)) as [->|N].
    - apply close_in; [apply molWeight_close|]. rewrite formula_length. exact Hk.
    - apply (close_in _ (dydt_weights (library m) nitrogen)); [apply formula_close|]. rewrite formula_length. exact Hk. }
  pose proof (mass_balance M m fwd rev pm sp dyN w e15 Hw L1 L2 L3 E4) as B. fold n in B.
  assert (Hf : forall k, k < n -> (f k <= 4 * Rabs (w k))%R).
  { intros k Hk. specialize (Hw k Hk). assert (F0 : (0 <= f k)%R).
    { pose proof (Rabs_pos (w k - f k)). destruct P15. nra. }
    pose proof (Rabs_triang_inv (f k) (f k - w k)) as T1. replace (f k - (f k - w k))%R with (w k) in T1 by ring.
    rewrite (Rabs_minus_sym (f k) (w k)) in T1. rewrite (Rabs_right (f k)) in T1 by lra. nra. }
  assert (S1 : forall g : R -> R, (forall a b, g (a * b) = g a * g b)%R ->
    Rsumn n (fun k => g (w k * nth k (sp ++ [dyN]) 0 / rho))%R =
    (Rsumn (n - 1)%nat (fun k => g (nth (k + 1)%nat dy 0)) + g (Q2R (nth (n - 1)%nat (molWeight m) 0%Q) * dyN / rho))%R).
  { intros g Hg. replace n with (S (n - 1)) at 1 by lia. rewrite Rsumn_S. f_equal.
    - apply Rsumn_ext. intros k Hk. f_equal. rewrite (G k) by lia. unfold w. destruct (Nat.eqb_spec k (n - 1)); [lia|].
      rewrite app_nth1 by lia. unfold Rdiv. ring.
    - unfold w. rewrite Nat.eqb_refl. rewrite app_nth2 by lia. rewrite L4, Nat.sub_diag. reflexivity. }
  rewrite <- (S1 (fun x => x)) by reflexivity. rewrite <- (S1 Rabs) by (intros; apply Rabs_mult).
  assert (A1 : Rsumn n (fun k => w k * nth k (sp ++ [dyN]) 0 / rho)%R = (/ rho * Rsumn n (fun k => w k * nth k (sp ++ [dyN]) 0))%R).
  { unfold Rsumn. rewrite <- Rsum_scal. apply Rsum_ext. intros; unfold Rdiv; ring. }
  rewrite A1, Rabs_mult.
  replace (4 / 10 ^ 15)%R with (4 * e15)%R by (unfold e15; field; apply pow_nonzero; lra).
  assert (A2 : Rsumn n (fun k => Rabs (w k * nth k (sp ++ [dyN]) 0 / rho))%R =
     (Rabs (/ rho) * Rsumn n (fun k => Rabs (w k) * Rabs (nth k (sp ++ [dyN]) 0)))%R).
  { unfold Rsumn. rewrite <- Rsum_scal. apply Rsum_ext. intros. unfold Rdiv. rewrite !Rabs_mult. ring. }
  rewrite A2.
  assert (A3 : (Rsumn n (fun k => f k * Rabs (nth k (sp ++ [dyN]) 0)) <=
     4 * Rsumn n (fun k => Rabs (w k) * Rabs (nth k (sp ++ [dyN]) 0)))%R).
  { unfold Rsumn. rewrite <- Rsum_scal. apply Rsum_le. intros k Hk. apply in_seq in Hk. rewrite <- Rmult_assoc.
    apply Rmult_le_compat_r; [apply Rabs_pos|]. apply Hf. lia. }
  pose proof (Rabs_pos (/ rho)) as A4.
  eapply Rle_trans; [apply Rmult_le_compat_l; [exact A4|exact B]|].
  replace (4 * e15 * (Rabs (/ rho) * Rsumn n (fun k => Rabs (w k) * Rabs (nth k (sp ++ [dyN]) 0))))%R
    with (Rabs (/ rho) * (e15 * (4 * Rsumn n (fun k => Rabs (w k) * Rabs (nth k (sp ++ [dyN]) 0)))))%R by ring.
  apply Rmult_le_compat_l; [exact A4|]. apply Rmult_le_compat_l; [lra|]. exact A3.
Qed.

(** ** The order of the species *)

Lemma mask_inverse {X} m (y : list X) : List.length y = s_NSP (library m) ->
  exists z, apply_mask m y = Ok z /\ apply_reverse_mask m z = Ok y.
Proof.
  destruct m; intros L; cbn [library s_NSP drm19_source gri30_source yao_source] in L.
  - do 21 (destruct y as [|? y]; [discriminate|]). destruct y; [|discriminate]. eexists. split; reflexivity.
  - do 53 (destruct y as [|? y]; [discriminate|]). destruct y; [|discriminate]. eexists. split; reflexivity.
  - do 54 (destruct y as [|? y]; [discriminate|]). destruct y; [|discriminate]. eexists. split; reflexivity.
Qed.

Lemma reverse_mask_inverse {X} m (y : list X) : List.length y = s_NSP (library m) ->
  exists z, apply_reverse_mask m y = Ok z /\ apply_mask m z = Ok y.
Proof.
  destruct m; intros L; cbn [library s_NSP drm19_source gri30_source yao_source] in L.
  - do 21 (destruct y as [|? y]; [discriminate|]). destruct y; [|discriminate]. eexists. split; reflexivity.
  - do 53 (destruct y as [|? y]; [discriminate|]). destruct y; [|discriminate]. eexists. split; reflexivity.
  - do 54 (destruct y as [|? y]; [discriminate|]). destruct y; [|discriminate]. eexists. split; reflexivity.
Qed.

Lemma mask_names m : apply_mask m (cti_names m) = Ok (library_names m).
Proof. destruct m; vm_compute; reflexivity. Qed.

Lemma names_agree m : foam_names m = library_names m /\ List.length (library_names m) = s_NSP (library m) /\
  NoDup (library_names m).
Proof.
  split; [destruct m; reflexivity|]. split; [destruct m; reflexivity|].
  assert (H : forall l : list string, (fix nd (l : list string) := match l with [] => true | x :: r => negb (existsb (String.eqb x) r) && nd r end) l = true -> NoDup l).
  { induction l as [|x r IH]; intros H; [constructor|]. apply andb_true_iff in H as [H1 H2]. constructor; [|apply IH; exact H2].
    intros I. apply negb_true_iff in H1. assert (existsb (String.eqb x) r = true); [|congruence].
    apply existsb_exists. exists x. split; [exact I|apply String.eqb_refl]. }
  apply H. destruct m; vm_compute; reflexivity.
Qed.

Lemma elements_agree m : foam_elements m = ch_atoms (chem m).
Proof. destruct m; vm_compute; reflexivity. Qed.

Theorem masks m : apply_mask m (cti_names m) = Ok (library_names m) /\
  forall (X : Type) (y : list X), List.length y = s_NSP (library m) ->
    (exists z, apply_mask m y = Ok z /\ apply_reverse_mask m z = Ok y) /\
    (exists z, apply_reverse_mask m y = Ok z /\ apply_mask m z = Ok y).
Proof.
  split; [apply mask_names|]. intros X y L. split; [apply mask_inverse|apply reverse_mask_inverse]; exact L.
Qed.
