(** The chemistry model linked with drm19, over the reals: its Jacobian and its rates. *)
From Coq Require Import List NArith PArith QArith Qreals Reals Bool Lra Lia.
From Verif Require Import Outcome Arith MechLang MechSrc MechReal MechChem MechDefined Mechanisms MechSpec MechRate MechFacts MechDydt MechKin MechData MechNasa MechJac MechJacC MechJacW MechJacX MechFull MechFullC MechFullF MechFullH
  MechEntryP PyJac PyJacSpec MechModel PropMech PropJac PropFull.
Import ListNotations.
Local Open Scope R_scope.

Lemma RA_zero : zero RA = 0.
Proof. cbn [zero lit RA]. apply Q2R_0. Qed.

Lemma cut_nonneg (y : list R) : (forall k, (k < List.length y)%nat -> 0 <= nth k y 0) -> cut (A := RA) y = y.
Proof.
  unfold cut. induction y as [|v y IH]; intros H; [reflexivity|]. cbn [map]. f_equal.
  - change (nltb RA) with Rltb. unfold Rltb. rewrite RA_zero. destruct (Rlt_dec 0 v) as [L|L]; [reflexivity|]. specialize (H 0%nat ltac:(cbn; lia)). cbn in H. lra.
  - apply IH. intros k Hk. apply (H (S k)). cbn. lia.
Qed.

Lemma deriv_near f g x D a : 0 < a -> (forall t, Rabs (t - x) < a -> f t = g t) -> derivable_pt_lim f x D -> derivable_pt_lim g x D.
Proof.
  intros Ha E H e He. destruct (H e He) as [d Hd]. assert (M : 0 < Rmin d a) by (apply Rmin_pos; [apply cond_pos|exact Ha]).
  exists (mkposreal _ M). intros h H0 Hh. cbn [pos] in Hh. rewrite <- !E.
  - apply Hd; [exact H0|]. eapply Rlt_le_trans; [exact Hh|apply Rmin_l].
  - rewrite Rminus_diag_eq, Rabs_R0 by reflexivity. exact Ha.
  - replace (x + h - x) with h by ring. eapply Rlt_le_trans; [exact Hh|apply Rmin_r].
Qed.

Lemma pj_rhs_ok {A : Arith} (mc : mech A) n t c d s' : pj_derivs mc n (fun _ => None) t c = Ok (d, s') -> pj_rhs mc n t c = d.
Proof. intros E. unfold pj_rhs. rewrite E. reflexivity. Qed.

(** The rates of the model with the library of [m]. *)
Lemma rates_of m jac t (T p : R) y k : List.length y = (s_NSP (library m) - 1)%nat -> (forall k, (k < List.length y)%nat -> 0 <= nth k y 0) -> (k < s_NSP (library m))%nat ->
  nth k (pj_rhs (lib_mech (A := RA) exact_libm m jac) (s_NSP (library m)) t (T :: y ++ [p])) 0 = dydt_at m p y k T.
Proof.
  intros L P Hk. destruct (linked_rhs (A := RA) exact_libm m jac (fun _ => None) t T p y L) as (dy & s' & E & LD & ED).
  refine (eq_trans (f_equal (fun l : list R => nth k l 0) (pj_rhs_ok _ _ _ _ _ _ ED)) _). cbv beta. rewrite app_nth1 by (rewrite LD; exact Hk).
  rewrite (cut_nonneg y P) in E. unfold dydt_at. change (num RA) with R in *. rewrite E. reflexivity.
Qed.

Lemma upd_nonneg (y : list R) j t : (forall k, (k < List.length y)%nat -> 0 <= nth k y 0) -> 0 <= t -> forall k, (k < List.length (upd y j t))%nat -> 0 <= nth k (upd y j t) 0.
Proof.
  intros P Ht. revert j P. induction y as [|v y IH]; intros j P k Hk; [destruct j; cbn in Hk; lia|]. destruct j as [|j]; cbn [upd] in *.
  - destruct k as [|k]; cbn [nth]; [exact Ht|]. apply (P (S k)). cbn in *. lia.
  - destruct k as [|k]; cbn [nth]; [apply (P 0%nat); cbn; lia|]. apply IH; [intros q Hq; apply (P (S q)); cbn; lia|cbn in Hk; lia].
Qed.

(** Derivatives of the rates of the model are those of [dydt]. *)
Lemma temperature_same m jac t (T p : R) y k D : List.length y = (s_NSP (library m) - 1)%nat -> (forall k, (k < List.length y)%nat -> 0 <= nth k y 0) -> (k < s_NSP (library m))%nat ->
  derivable_pt_lim (dydt_at m p y k) T D ->
  derivable_pt_lim (fun u => nth k (pj_rhs (lib_mech (A := RA) exact_libm m jac) (s_NSP (library m)) t (u :: y ++ [p])) 0) T D.
Proof.
  intros L P Hk H. apply (deriv_near (dydt_at m p y k) _ T D 1 ltac:(lra)); [|exact H]. intros u _. symmetry. apply rates_of; assumption.
Qed.

Lemma fraction_same m jac t (T p : R) y j k D : List.length y = (s_NSP (library m) - 1)%nat -> (forall k, (k < List.length y)%nat -> 0 <= nth k y 0) -> (k < s_NSP (library m))%nat -> 0 < nth j y 0 ->
  derivable_pt_lim (fun u => dydt_at m p (upd y j u) k T) (nth j y 0) D ->
  derivable_pt_lim (fun u => nth k (pj_rhs (lib_mech (A := RA) exact_libm m jac) (s_NSP (library m)) t (T :: upd y j u ++ [p])) 0) (nth j y 0) D.
Proof.
  intros L P Hk Hj H. apply (deriv_near (fun u => dydt_at m p (upd y j u) k T) _ _ D (nth j y 0) Hj); [|exact H]. intros u Hu. apply Rabs_def2 in Hu. symmetry.
  apply rates_of; [rewrite upd_length; exact L| |exact Hk]. apply upd_nonneg; [exact P|lra].
Qed.

(** The pressure. *)
Lemma pressure_rate m jac t (T p : R) y : List.length y = (s_NSP (library m) - 1)%nat ->
  nth (s_NSP (library m)) (pj_rhs (lib_mech (A := RA) exact_libm m jac) (s_NSP (library m)) t (T :: y ++ [p])) 0 = 0.
Proof.
  intros L. destruct (linked_rhs (A := RA) exact_libm m jac (fun _ => None) t T p y L) as (dy & s' & E & LD & ED).
  refine (eq_trans (f_equal (fun l : list R => nth (s_NSP (library m)) l 0) (pj_rhs_ok _ _ _ _ _ _ ED)) _). cbv beta.
  rewrite app_nth2 by lia. rewrite LD, Nat.sub_diag. apply RA_zero.
Qed.

(** A column of [jacobian] for a mass fraction. *)
Theorem model_column (T p : R) (y : list R) s t :
  List.length y = 20%nat -> 200 <= T <= 5000 -> 0 < p -> (forall k, (k < List.length y)%nat -> 0 <= nth k y 0) -> Rsum y <= 1 ->
  exists rows s', pj_jac (drm19_mech (A := RA) exact_libm) 21 s t (T :: y ++ [p]) = Ok (repeat (zero RA) 22, rows, s') /\ 0 < mean_capacity drm19 y T /\
    forall j, (j < 20)%nat -> 0 < nth j y 0 ->
    (forall i, (i < List.length (ch_reactions (chem drm19)))%nat -> rx_kind (rxn (chem drm19) i) = Falloff ->
       (exists s, In s (rx_lhs (rxn (chem drm19) i)) /\ (0 < snd s)%nat /\ fst s <> j /\ (fst s < List.length y)%nat /\ nth (fst s) y 0 = 0) /\
       (rx_rev (rxn (chem drm19) i) = true ->
        exists s, In s (rx_rhs (rxn (chem drm19) i)) /\ (0 < snd s)%nat /\ fst s <> j /\ (fst s < List.length y)%nat /\ nth (fst s) y 0 = 0)) ->
    exists D : list R,
      (forall k, (k < 21)%nat -> derivable_pt_lim (fun u => nth k (pj_rhs (drm19_mech (A := RA) exact_libm) 21 t (T :: upd y j u ++ [p])) 0) (nth j y 0) (nth k D 0)) /\
      (forall k, (k < 20)%nat -> Rabs (nth (j + 1) (nth (k + 1) rows []) 0 - nth (k + 1) D 0) <= fraction_error drm19 T p y j k) /\
      Rabs (nth (j + 1) (nth 0 rows []) 0 - nth 0 D 0) <=
        Rsumn 20 (fun k => fraction_error drm19 T p y j k * Rabs (enthalpy drm19 k T)) / mean_capacity drm19 y T +
        Q2R (Qmake 1 1125899906842624) * row_size drm19 p y j T / (mean_capacity drm19 y T * mean_capacity drm19 y T).
Proof.
  intros L HT Hp P S1. set (dB0 := repeat 0 21).
  destruct (C80_column T p y dB0 L HT Hp P S1 (repeat_length _ _)) as (J & EJ & LJ & CP & C).
  destruct (linked_jacobian (A := RA) exact_libm s t T p y dB0 L (repeat_length _ _)) as (J' & rows & s' & EJ' & _ & EP & _ & _ & EL & _ & _).
  rewrite (cut_nonneg y P), RA_zero in EJ'. change (num RA) with R in *. rewrite EJ in EJ'. injection EJ' as <-.
  exists rows, s'. split; [exact EP|]. split; [exact CP|]. intros j Hj Yj ST. destruct (C j Hj ST) as (D & D1 & D2 & D3). exists D.
  assert (EL' : forall i j, (i < 21)%nat -> (j < 21)%nat -> nth j (nth i rows []) 0 = nth (j * 21 + i) J 0).
  { intros a b Ha Hb. pose proof (EL a b Ha Hb) as Q. rewrite !RA_zero in Q. exact Q. }
  split; [|split].
  - intros k Hk. exact (fraction_same drm19 (drm19_jac_of exact_libm) t T p y j k (nth k D 0) L P Hk Yj (D1 k Hk)).
  - intros k Hk. rewrite EL' by lia. apply D2, Hk.
  - rewrite EL' by lia. rewrite Nat.add_0_r. exact D3.
Qed.

(** The column for the temperature. *)
Theorem model_temperature (T p : R) (y : list R) s t :
  List.length y = 20%nat -> 200 <= T <= 5000 -> 0 < p -> (forall k, (k < List.length y)%nat -> 0 <= nth k y 0) -> Rsum y <= 1 ->
  (forall k, Q2R (n_mid (species_nasa drm19 k)) <> T) ->
  (forall i, (i < List.length (ch_reactions (chem drm19)))%nat -> rx_kind (rxn (chem drm19) i) = Falloff ->
     (exists s, In s (rx_lhs (rxn (chem drm19) i)) /\ (0 < snd s)%nat /\ nth (fst s) (y ++ [1 - Rsum y]) 0 = 0) /\
     (rx_rev (rxn (chem drm19) i) = true ->
      exists s, In s (rx_rhs (rxn (chem drm19) i)) /\ (0 < snd s)%nat /\ nth (fst s) (y ++ [1 - Rsum y]) 0 = 0)) ->
  exists rows s' (D : list R), pj_jac (drm19_mech (A := RA) exact_libm) 21 s t (T :: y ++ [p]) = Ok (repeat (zero RA) 22, rows, s') /\ 0 < mean_capacity drm19 y T /\
    (forall k, (k < 21)%nat -> derivable_pt_lim (fun u => nth k (pj_rhs (drm19_mech (A := RA) exact_libm) 21 t (u :: y ++ [p])) 0) T (nth k D 0)) /\
    (forall k, (k < 20)%nat -> Rabs (nth 0 (nth (k + 1) rows []) 0 - nth (k + 1) D 0) <= species_error drm19 p y T k) /\
    Rabs (nth 0 (nth 0 rows []) 0 - nth 0 D 0) <=
      (Rsumn 20 (fun k => species_error drm19 p y T k * Rabs (enthalpy drm19 k T)) + 3 * Q2R 4e-15 * energy_size drm19 p y T) / mean_capacity drm19 y T.
Proof.
  intros L HT Hp P S1 SW ID. set (dB0 := repeat 0 21).
  destruct (C77_column drm19 T p y dB0 ltac:(discriminate) L HT Hp P S1 SW (repeat_length _ _) ID) as (JT & D & EJ & LJ & CP & D1 & D2 & D3).
  destruct (linked_jacobian (A := RA) exact_libm s t T p y dB0 L (repeat_length _ _)) as (J & rows & s' & EJ' & LJ' & EP & _ & _ & EL & _ & _).
  rewrite (cut_nonneg y P), RA_zero in EJ'.
  assert (LY : List.length (T :: y) = 21%nat) by (cbn; lia).
  destruct (whole_column (A := RA) exact_libm p (T :: y) (repeat 0 (21 * 21)) dB0 dB0 LY (repeat_length _ _) (repeat_length _ _) (repeat_length _ _)) as (J2 & E2 & E3).
  assert (J2 = J) by (assert (Q : Ok J2 = Ok J) by exact (eq_trans (eq_sym E2) EJ'); injection Q as Q; exact Q). subst J2. change (firstn 21 (repeat 0 (21 * 21))) with (repeat 0 21) in E3. 
  assert (JT = firstn 21 J) by (assert (Q : Ok JT = Ok (firstn 21 J)) by exact (eq_trans (eq_sym EJ) E3); injection Q as Q; exact Q). subst JT.
  assert (EL' : forall i, (i < 21)%nat -> nth 0 (nth i rows []) 0 = nth i (firstn 21 J) 0).
  { intros a Ha. pose proof (EL a 0%nat Ha ltac:(lia)) as Q. rewrite !RA_zero in Q. rewrite Q. cbn [Nat.mul Nat.add]. change (num RA) with R in *.
    rewrite <- (firstn_skipn 21 J) at 1. apply app_nth1. rewrite firstn_length_le; lia. }
  exists rows, s', D. split; [exact EP|]. split; [exact CP|]. split; [|split].
  - intros k Hk. exact (temperature_same drm19 (drm19_jac_of exact_libm) t T p y k (nth k D 0) L P Hk (D1 k Hk)).
  - intros k Hk. rewrite EL' by lia. apply D2, Hk.
  - rewrite EL' by lia. exact D3.
Qed.

(** Elements. *)
Theorem model_elements m : exists w, weights m w /\
  forall (M : libm RA) jac (s : scratch (A := RA)) (t T p : R) (y : list R) e, List.length y = (s_NSP (library m) - 1)%nat ->
  (e < ch_elements (chem m))%nat -> atoms (chem m) e (s_NSP (library m) - 1) = 0%nat ->
  exists dcdt s', pj_derivs (lib_mech M m jac) (s_NSP (library m)) s t (T :: y ++ [p]) = Ok (dcdt, s') /\ List.length dcdt = (s_NSP (library m) + 1)%nat /\
    Rsumn (s_NSP (library m) - 1) (fun k => INR (atoms (chem m) e k) / w k * nth (k + 1) dcdt 0) = 0.
Proof.
  destruct (C61_elements_rates m) as (w & W & H). exists w. split; [exact W|]. intros M jac s t T p y e L He Ha.
  destruct (linked_rhs (A := RA) M m jac s t T p y L) as (dy & s' & E & LD & ED). exists (dy ++ [zero RA]), s'. split; [exact ED|].
  split; [rewrite app_length, LD; reflexivity|]. assert (LC : List.length (cut (A := RA) y) = (s_NSP (library m) - 1)%nat) by (unfold cut; rewrite map_length; exact L).
  refine (eq_trans _ (H M p T (cut (A := RA) y) dy e LC E He Ha)). apply Rsumn_ext. intros k Hk. f_equal. apply app_nth1. change (num RA) with R in *. rewrite LD. lia.
Qed.
