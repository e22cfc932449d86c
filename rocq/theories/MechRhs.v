(** The right-hand side of the library as a whole: conservation and positivity. *)
From Coq Require Import List ZArith NArith QArith Qabs Qreals Reals Bool Lra Lia.
From Verif Require Import Outcome Arith MechLang MechSym MechSrc MechCall MechReal MechPoly MechChem Mechanisms
  MechSpec MechRate MechPmod MechThermo MechConc MechDydt MechDefined.
Import ListNotations.
Local Open Scope nat_scope.

(** Weight of the last species (nitrogen) where [dydt] does not mention it. *)
Definition nitrogen : Q := 28.01348.

(** Weight of species [k] in [dydt] of mechanism [m]. *)
Definition W (m : mechanism) (k : nat) : R := weight (library m) nitrogen k.

(** Two lists of rationals agree within a relative error. *)
Definition close (eps : Q) (a b : list Q) : bool :=
  (length a =? length b) && forallb (fun p => Qle_bool (Qabs (fst p - snd p)) (eps * snd p)) (combine a b).

Lemma close_in eps a b k : close eps a b = true -> k < length b ->
  (Rabs (Q2R (nth k a 0%Q) - Q2R (nth k b 0%Q)) <= Q2R eps * Q2R (nth k b 0%Q))%R.
Proof.
  unfold close. intros H Hk. apply andb_true_iff in H as [L H]. apply Nat.eqb_eq in L.
  rewrite forallb_forall in H.
  specialize (H (nth k a 0%Q, nth k b 0%Q)). cbn [fst snd] in H.
  rewrite <- Q2R_minus, <- Q2R_mult.
  assert (I : In (nth k a 0%Q, nth k b 0%Q) (combine a b)).
  { rewrite <- (combine_nth a b k 0%Q 0%Q L). apply nth_In. rewrite combine_length. lia. }
  apply H, Qle_bool_iff in I. apply Qabs_Qle_condition in I as [I1 I2].
  apply Qle_Rle in I1, I2. rewrite Q2R_opp in I1. apply Rabs_le. lra.
Qed.

Lemma weights_close m : close (1 / 10 ^ 15)%Q (dydt_weights (library m) nitrogen) (molWeight m) = true.
Proof. destruct m; vm_compute; reflexivity. Qed.

Lemma inverse_weights_close m :
  close (1 / 10 ^ 15)%Q (map Qinv (inverse_weights (library m))) (molWeight m) = true.
Proof. destruct m; vm_compute; reflexivity. Qed.

(** Positive rationals. *)
Definition all_positive (l : list Q) : bool := forallb (fun w => (0 <? Qnum w)%Z) l.

Lemma all_positive_in l k : all_positive l = true -> k < length l -> (0 < Q2R (nth k l 0%Q))%R.
Proof.
  unfold all_positive. rewrite forallb_forall. intros H Hk. specialize (H _ (nth_In l 0%Q Hk)).
  rewrite <- Q2R_0. apply Qlt_Rlt. unfold Qlt. cbn. apply Z.ltb_lt in H. lia.
Qed.

Lemma weights_positive m : all_positive (dydt_weights (library m) nitrogen) = true.
Proof. destruct m; vm_compute; reflexivity. Qed.

Lemma inverse_weights_positive m : all_positive (inverse_weights (library m)) = true.
Proof. destruct m; vm_compute; reflexivity. Qed.

Lemma weights_length m : length (dydt_weights (library m) nitrogen) = s_NSP (library m).
Proof. destruct m; vm_compute; reflexivity. Qed.

Lemma inverse_weights_length m : length (inverse_weights (library m)) = s_NSP (library m).
Proof. destruct m; vm_compute; reflexivity. Qed.

Lemma molWeight_length m : length (molWeight m) = s_NSP (library m).
Proof. destruct m; vm_compute; reflexivity. Qed.

Lemma W_positive m k : k < s_NSP (library m) -> (0 < W m k)%R.
Proof. intros H. apply all_positive_in; [apply weights_positive|]. rewrite weights_length. exact H. Qed.

Lemma NSP_pos m : 1 < s_NSP (library m).
Proof. destruct m; cbn; lia. Qed.

(** The concentrations, rates and production rates that [dydt] goes through, and its result. *)
Record stages (M : libm RA) (m : mechanism) (p T : R) (y : list R) := mkStages {
  st_rho : R;
  st_conc : list R;
  st_fwd : list R;
  st_rev : list R;
  st_pm : list R;
  st_sp : list R;
  st_dyN : R;
  st_cp : list R;
  st_h : list R;
  st_dy : list R
}.
Arguments st_rho {M m p T y}.
Arguments st_conc {M m p T y}.
Arguments st_fwd {M m p T y}.
Arguments st_rev {M m p T y}.
Arguments st_pm {M m p T y}.
Arguments st_sp {M m p T y}.
Arguments st_dyN {M m p T y}.
Arguments st_cp {M m p T y}.
Arguments st_h {M m p T y}.
Arguments st_dy {M m p T y}.

(** The intermediate results are those of the functions called. *)
Definition stages_ok {M m p T y} (s : stages M m p T y) : Prop :=
  (exists yN mw, lib_eval_conc M (library m) T p y = Ok (yN, mw, st_rho s, st_conc s) /\ yN = (1 - Rsum y)%R) /\
  length (st_conc s) = s_NSP (library m) /\
  lib_eval_rxn_rates M (library m) T p (st_conc s) = Ok (st_fwd s, st_rev s) /\
  lib_get_rxn_pres_mod M (library m) T p (st_conc s) = Ok (st_pm s) /\
  length (st_fwd s) = s_fwd (library m) /\ length (st_rev s) = s_rev (library m) /\
  length (st_pm s) = s_pmod (library m) /\
  lib_eval_spec_rates M (library m) (st_fwd s) (st_rev s) (st_pm s) = Ok (st_sp s, st_dyN s) /\
  length (st_sp s) = s_NSP (library m) - 1 /\
  lib_eval_cp M (library m) T = Ok (st_cp s) /\ length (st_cp s) = s_NSP (library m) /\
  lib_eval_h M (library m) T = Ok (st_h s) /\ length (st_h s) = s_NSP (library m) /\
  lib_dydt M (library m) p (T :: y) = Ok (st_dy s) /\ length (st_dy s) = s_NSP (library m).

Lemma stages_rates {M m p T y} (s : stages M m p T y) : stages_ok s ->
  forall k, k < s_NSP (library m) ->
    nth k (st_sp s ++ [st_dyN s]) 0%R =
    Rsumn (length (ch_reactions (chem m))) (fun i => nu (chem m) i k * progress (chem m) (st_fwd s) (st_rev s) (st_pm s) i)%R.
Proof.
  intros (_ & _ & _ & _ & Lf & Lr & Lp & E & _) k Hk.
  destruct (production M (library m) (chem m) _ _ _ (spec_all m) Lf Lr Lp) as (sp & dyN & E' & _ & G).
  rewrite E' in E. injection E as <- <-. apply G. exact Hk.
Qed.

Theorem right_hand_side (M : libm RA) m (p T : R) (y : list R) : length y = s_NSP (library m) - 1 ->
  exists s : stages M m p T y, stages_ok s /\
    (forall k, k < s_NSP (library m) - 1 -> nth (k + 1) (st_dy s) 0%R = (nth k (st_sp s) 0 * (W m k / st_rho s))%R) /\
    nth 0 (st_dy s) 0%R =
      (-1 / (st_rho s * Rsumn (s_NSP (library m)) (fun k => nth k (st_cp s) 0 * nth k (all_fractions y) 0)) *
       Rsumn (s_NSP (library m)) (fun k => W m k * nth k (st_sp s ++ [st_dyN s]) 0 * nth k (st_h s) 0))%R.
Proof.
  intros Ly. pose proof (NSP_pos m) as HN.
  destruct (concentrations M (library m) T p y (conc_all m) Ly) as (C & E1 & LC & _).
  set (rho := (p * (1 / specific_moles (library m) y) / (gas_constant * T))%R) in *.
  destruct (eval_rxn_rates_defined M (library m) (library_all m) T p C LC) as (f & r & E2 & Lf & Lr).
  destruct (get_rxn_pres_mod_defined M (library m) (library_all m) T p C LC) as (pm & E3 & Lpm).
  destruct (production M (library m) (chem m) f r pm (spec_all m) Lf Lr Lpm) as (sp & dyN & E4 & Lsp & G).
  destruct (eval_cp_defined M (library m) (library_all m) T) as (cp & E5 & Lcp).
  destruct (eval_h_defined M (library m) (library_all m) T) as (h & E6 & Lh).
  destruct (dydt_tail M (library m) (chem m) 28.01348 (dydt_all m) (T :: y) cp h sp (1 - Rsum y)%R rho dyN)
    as (dy & E7 & Ldy & Gk & G0); try assumption.
  { cbn [length]. rewrite Ly. lia. }
  { intros k Hk I. eapply eq_trans; [exact (G k Hk)|]. apply inert_production. exact I. }
  exists (mkStages M m p T y rho C f r pm sp dyN cp h dy).
  assert (Hdy : lib_dydt M (library m) p (T :: y) = Ok dy).
  { unfold lib_dydt. cbn [idx nth_error bind skipn].
    rewrite E1. cbn [bind]. rewrite E2. cbn [bind]. rewrite E3. cbn [bind]. rewrite E4. cbn [bind].
    rewrite E5. cbn [bind]. rewrite E6. cbn [bind]. exact E7. }
  split; [|split].
  - repeat split; try assumption. do 2 eexists. split; [exact E1|reflexivity].
  - exact Gk.
  - exact G0.
Qed.

(** *** Conservation of the elements *)

Theorem elements_conserved (M : libm RA) m (p T : R) (y : list R) e : length y = s_NSP (library m) - 1 ->
  e < ch_elements (chem m) -> atoms (chem m) e (s_NSP (library m) - 1) = 0 ->
  exists dy : list R, lib_dydt M (library m) p (T :: y) = Ok dy /\
    Rsumn (s_NSP (library m) - 1) (fun k => INR (atoms (chem m) e k) / W m k * nth (k + 1) dy 0)%R = 0%R.
Proof.
  intros Ly He Ha. destruct (right_hand_side M m p T y Ly) as (s & K & Gk & _).
  exists (st_dy s). destruct K as (K1 & K2 & K3 & K4 & Lf & Lr & Lp & K5 & Lsp & _ & _ & _ & _ & Hdy & _).
  split; [exact Hdy|]. pose proof (NSP_pos m) as HN.
  destruct (production_balanced M (library m) (chem m) _ _ _ (spec_all m) (balanced_all m) (species_all m) Lf Lr Lp)
    as (sp & dyN & E & B).
  rewrite K5 in E. injection E as <- <-.
  assert (B' : Rsumn (ch_species (chem m)) (fun k => INR (atoms (chem m) e k) * nth k (st_sp s ++ [st_dyN s]) 0)%R = 0%R)
    by exact (B e He).
  clear B. rename B' into B.
  rewrite (species_all m) in B. replace (s_NSP (library m)) with (S (s_NSP (library m) - 1)) in B by lia.
  rewrite Rsumn_S, Ha in B. cbn [INR] in B. rewrite Rmult_0_l, Rplus_0_r in B.
  rewrite (Rsumn_ext _ _ (fun k => / st_rho s * (INR (atoms (chem m) e k) * nth k (st_sp s ++ [st_dyN s]) 0))%R).
  - unfold Rsumn in *.
    rewrite (Rsum_scal (/ st_rho s) (fun k => INR (atoms (chem m) e k) * nth k (st_sp s ++ [st_dyN s]) 0)%R), B. ring.
  - intros k Hk. rewrite (Gk k Hk), app_nth1 by lia.
    assert (W m k <> 0)%R by (apply Rgt_not_eq, W_positive; lia). unfold Rdiv.
    replace (INR (atoms (chem m) e k) * / W m k * (nth k (st_sp s) 0 * (W m k * / st_rho s)))%R
      with (/ st_rho s * (INR (atoms (chem m) e k) * nth k (st_sp s) 0) * (/ W m k * W m k))%R by ring.
    rewrite Rinv_l by assumption. ring.
Qed.

(** *** Conservation of energy *)

Theorem enthalpy_conserved (M : libm RA) m (p T : R) (y : list R) : length y = s_NSP (library m) - 1 ->
  exists s : stages M m p T y, stages_ok s /\
    (st_rho s <> 0 ->
     Rsumn (s_NSP (library m)) (fun k => nth k (st_cp s) 0 * nth k (all_fractions y) 0) <> 0 ->
     Rsumn (s_NSP (library m)) (fun k => nth k (st_cp s) 0 * nth k (all_fractions y) 0) * nth 0 (st_dy s) 0 +
     Rsumn (s_NSP (library m) - 1) (fun k => nth k (st_h s) 0 * nth (k + 1) (st_dy s) 0) +
     nth (s_NSP (library m) - 1) (st_h s) 0 * (W m (s_NSP (library m) - 1) * st_dyN s / st_rho s) = 0)%R.
Proof.
  intros Ly. destruct (right_hand_side M m p T y Ly) as (s & K & Gk & G0).
  exists s. split; [exact K|]. intros Hr Hc. rewrite G0. pose proof (NSP_pos m) as HN.
  destruct K as (_ & _ & _ & _ & _ & _ & _ & _ & Lsp & _).
  set (cpa := Rsumn (s_NSP (library m)) (fun k => nth k (st_cp s) 0 * nth k (all_fractions y) 0)%R) in *.
  replace (s_NSP (library m)) with (S (s_NSP (library m) - 1)) at 1 by lia. rewrite Rsumn_S.
  rewrite app_nth2 by lia. rewrite Lsp, Nat.sub_diag. cbn [nth].
  rewrite (Rsumn_ext _ (fun k => nth k (st_h s) 0 * nth (k + 1) (st_dy s) 0)%R
    (fun k => / st_rho s * (W m k * nth k (st_sp s ++ [st_dyN s]) 0 * nth k (st_h s) 0))%R).
  - unfold Rsumn.
    rewrite (Rsum_scal (/ st_rho s) (fun k => W m k * nth k (st_sp s ++ [st_dyN s]) 0 * nth k (st_h s) 0)%R).
    field. split; assumption.
  - intros k Hk. rewrite (Gk k Hk), app_nth1 by lia. unfold Rdiv. ring.
Qed.

(** *** Positivity *)

Lemma fractions_nonneg (y : list R) : (forall k, k < length y -> (0 <= nth k y 0)%R) -> (Rsum y <= 1)%R ->
  forall k, (0 <= nth k (all_fractions y) 0)%R.
Proof.
  intros H1 H2 k. unfold all_fractions. destruct (Nat.lt_ge_cases k (length y)) as [L|L].
  - rewrite app_nth1 by exact L. auto.
  - rewrite app_nth2 by exact L. destruct (k - length y) as [|[|]]; cbn; lra.
Qed.

Lemma Rsum_positive {X} (f : X -> R) l : (forall x, In x l -> 0 <= f x)%R -> (exists x, In x l /\ 0 < f x)%R ->
  (0 < Rsum (map f l))%R.
Proof.
  induction l as [|a l IH]; intros H (x & I & P); [destruct I|]. cbn [map Rsum].
  pose proof (H a (or_introl eq_refl)) as Ha. destruct I as [->|I].
  - pose proof (Rsum_nonneg f l (fun z Hz => H z (or_intror Hz))). lra.
  - pose proof (IH (fun z Hz => H z (or_intror Hz)) (ex_intro _ x (conj I P))). lra.
Qed.

Lemma Rsum_all_zero (l : list R) : (forall k, k < length l -> (nth k l 0 <= 0)%R) -> (Rsum l <= 0)%R.
Proof.
  induction l as [|a l IH]; intros H; cbn; [lra|].
  pose proof (H 0 ltac:(cbn; lia)) as H0. cbn in H0.
  pose proof (IH (fun k Hk => H (S k) ltac:(cbn; lia))). lra.
Qed.

Lemma some_positive (l : list R) : (0 < Rsum l)%R -> exists k, k < length l /\ (0 < nth k l 0)%R.
Proof.
  intros H. destruct (existsb (fun k => if Rlt_dec 0 (nth k l 0%R) then true else false) (seq 0 (length l))) eqn:E.
  - apply existsb_exists in E as (k & I & P). apply in_seq in I. exists k.
    destruct (Rlt_dec 0 (nth k l 0%R)); [split; [lia|assumption]|discriminate].
  - exfalso. apply (Rlt_not_le _ _ H). apply Rsum_all_zero. intros k Hk.
    destruct (Rlt_dec 0 (nth k l 0%R)) as [P|P]; [|lra].
    assert (X : existsb (fun k => if Rlt_dec 0 (nth k l 0%R) then true else false) (seq 0 (length l)) = true).
    { apply existsb_exists. exists k. split; [apply in_seq; lia|]. destruct (Rlt_dec 0 (nth k l 0%R)); [reflexivity|contradiction]. }
    congruence.
Qed.

Lemma specific_moles_positive m (y : list R) : length y = s_NSP (library m) - 1 ->
  (forall k, k < length y -> (0 <= nth k y 0)%R) -> (Rsum y <= 1)%R -> (0 < specific_moles (library m) y)%R.
Proof.
  intros Ly H1 H2. pose proof (NSP_pos m) as HN. pose proof (fractions_nonneg y H1 H2) as F.
  assert (P : forall k, k < s_NSP (library m) -> (0 < Q2R (nth k (inverse_weights (library m)) 0%Q))%R).
  { intros k Hk. apply all_positive_in; [apply inverse_weights_positive|]. rewrite inverse_weights_length. exact Hk. }
  apply Rsum_positive.
  - intros k Hk. apply in_seq in Hk. apply Rmult_le_pos; [apply Rlt_le, P; lia|apply F].
  - destruct (some_positive (all_fractions y)) as (k & Hk & K).
    { unfold all_fractions. rewrite Rsum_app. cbn. lra. }
    assert (k < s_NSP (library m)) by (unfold all_fractions in Hk; rewrite app_length in Hk; cbn in Hk; lia).
    exists k. split; [apply in_seq; lia|]. apply Rmult_lt_0_compat; [apply P; assumption|exact K].
Qed.

Lemma conc_product_nonneg C l : (forall k, 0 <= nth k C 0)%R -> (0 <= conc_product C l)%R.
Proof.
  intros H. unfold conc_product. induction l as [|[k n] l IH]; cbn [map Rprod fst snd]; [lra|].
  apply Rmult_le_pos; [apply pow_le, H|exact IH].
Qed.

Lemma conc_product_zero C l k : nth k C 0%R = 0%R -> coeff l k <> 0 -> conc_product C l = 0%R.
Proof.
  intros Z. unfold conc_product, coeff. induction l as [|[j n] l IH]; cbn [map Rprod fst snd filter]; [intros []; reflexivity|].
  destruct (Nat.eqb_spec j k) as [->|N].
  - destruct n as [|n].
    + cbn. intros H. rewrite IH by exact H. ring.
    + intros _. rewrite Z. cbn [pow]. ring.
  - intros H. rewrite IH by exact H. ring.
Qed.

Lemma third_body_nonneg m i C : (forall k, 0 <= nth k C 0)%R -> (0 <= third_body (rxn (chem m) i) C)%R.
Proof.
  intros H. apply Rsum_nonneg. intros k _. apply Rmult_le_pos; [|apply H].
  assert (E : forallb (fun r => forallb (fun p => (0 <=? Qnum (snd p))%Z) (rx_eff r)) (ch_reactions (chem m)) = true)
    by (destruct m; vm_compute; reflexivity).
  unfold efficiency, rxn. rewrite forallb_forall in E.
  destruct (find (fun p => fst p =? k) (rx_eff (nth i (ch_reactions (chem m)) (mkRx Elementary [] [] false [])))) as [q|] eqn:F.
  - apply find_some in F as [F _].
    destruct (Nat.lt_ge_cases i (length (ch_reactions (chem m)))) as [L|L].
    + specialize (E _ (nth_In _ (mkRx Elementary [] [] false []) L)). rewrite forallb_forall in E.
      specialize (E _ F). rewrite <- Q2R_0. apply Qle_Rle. unfold Qle. cbn. apply Z.leb_le in E. lia.
    + rewrite nth_overflow in F by exact L. destruct F.
  - rewrite Q2R_1. lra.
Qed.

Lemma Q2R_net r k : Q2R (net r k) = (INR (coeff (rx_rhs r) k) - INR (coeff (rx_lhs r) k))%R.
Proof.
  unfold net. rewrite Q2R_minus. unfold Q2R. cbn [Qnum Qden inject_Z]. rewrite <- !INR_IZR_INZ. field.
Qed.

(** Concentrations are not negative, add up to p/(R T) and vanish with the mass fraction. *)
Lemma concentrations_nonneg (M : libm RA) m (p T : R) (y : list R) : length y = s_NSP (library m) - 1 ->
  (0 < T)%R -> (0 < p)%R -> (forall k, k < length y -> (0 <= nth k y 0)%R) -> (Rsum y <= 1)%R ->
  exists (yN mw rho : R) (conc : list R), lib_eval_conc M (library m) T p y = Ok (yN, mw, rho, conc) /\
    length conc = s_NSP (library m) /\ (0 < rho)%R /\ (forall k, 0 <= nth k conc 0)%R /\
    Rsumn (length conc) (fun k => nth k conc 0%R) = (p / (gas_constant * T))%R /\
    forall k, nth k (all_fractions y) 0%R = 0%R -> nth k conc 0%R = 0%R.
Proof.
  intros Ly HT Hp H1 H2. pose proof (specific_moles_positive m y Ly H1 H2) as D.
  destruct (concentrations M (library m) T p y (conc_all m) Ly) as (C & E & LC & G).
  destruct (ideal_gas M (library m) T p y (conc_all m) Ly ltac:(lra)) as (a & b & c & C' & E' & _ & SC).
  rewrite E' in E. injection E as -> -> -> ->.
  set (rho := (p * (1 / specific_moles (library m) y) / (gas_constant * T))%R) in *.
  assert (Hg : (0 < gas_constant)%R) by (unfold gas_constant, Q2R; cbn; lra).
  assert (Hr : (0 < rho)%R).
  { unfold rho. apply Rdiv_lt_0_compat; [|apply Rmult_lt_0_compat; assumption].
    apply Rmult_lt_0_compat; [exact Hp|]. apply Rdiv_lt_0_compat; lra. }
  do 4 eexists. split; [exact E'|]. split; [exact LC|]. split; [exact Hr|]. split; [|split; [exact SC|]].
  - intros k. destruct (Nat.lt_ge_cases k (s_NSP (library m))) as [L|L].
    + rewrite (G k L). apply Rmult_le_pos; [apply Rmult_le_pos; [lra|apply fractions_nonneg; assumption]|].
      apply Rlt_le, all_positive_in; [apply inverse_weights_positive|]. rewrite inverse_weights_length. exact L.
    + rewrite nth_overflow by lia. lra.
  - intros k Z. destruct (Nat.lt_ge_cases k (s_NSP (library m))) as [L|L].
    + rewrite (G k L), Z. ring.
    + apply nth_overflow. lia.
Qed.

Theorem quasi_positive (M : libm RA) m (p T : R) (y : list R) k :
  (forall x : R, 0 < m_exp M x)%R -> (forall x z : R, 0 < x -> 0 < m_pow M x z)%R ->
  length y = s_NSP (library m) - 1 -> (0 < T)%R -> (0 < p)%R ->
  (forall k, k < length y -> (0 <= nth k y 0)%R) -> (Rsum y <= 1)%R ->
  k < length y -> nth k y 0%R = 0%R ->
  exists dy : list R, lib_dydt M (library m) p (T :: y) = Ok dy /\ (0 <= nth (k + 1) dy 0)%R.
Proof.
  intros HE HPow Ly HT Hp H1 H2 Hk Z. pose proof (NSP_pos m) as HN.
  destruct (right_hand_side M m p T y Ly) as (s & K & Gk & _).
  pose proof (stages_rates s K) as SR.
  destruct K as ((yN & mw & K1 & _) & K2 & K3 & K4 & Lf & Lr & Lp & K5 & Lsp & _ & _ & _ & _ & Hdy & _).
  exists (st_dy s). split; [exact Hdy|].
  destruct (concentrations_nonneg M m p T y Ly HT Hp H1 H2) as (yN' & mw' & rho & C & E & LC & Hr & HC & SC & ZC).
  rewrite K1 in E. injection E as <- <- Er EC. rewrite <- Er in Hr. rewrite <- EC in HC, SC, ZC. clear LC Er EC rho C.
  assert (ZK : nth k (st_conc s) 0%R = 0%R).
  { apply ZC. unfold all_fractions. rewrite app_nth1 by exact Hk. exact Z. }
  rewrite (Gk k ltac:(lia)). apply Rmult_le_pos.
  2: { apply Rlt_le, Rdiv_lt_0_compat; [apply W_positive; lia|exact Hr]. }
  replace (nth k (st_sp s) 0%R) with (nth k (st_sp s ++ [st_dyN s]) 0%R) by (apply app_nth1; lia).
  rewrite (SR k ltac:(lia)). apply Rsum_nonneg. intros i Hi. apply in_seq in Hi.
  destruct (mass_action M (library m) (chem m) T p (rates_all m) HE HT Hp) as (kf & kr & KP & MA).
  destruct (MA (st_conc s) K2) as (f & r & E & _ & _ & GR). rewrite K3 in E. injection E as <- <-.
  destruct (GR i ltac:(lia)) as [GF GV]. destruct (KP i ltac:(lia)) as [Pf Pr].
  destruct (pressure_modifications M (library m) (chem m) T p (pmod_all m) HE HPow HT Hp) as (ra & RP & PM).
  destruct (PM (st_conc s) K2 SC) as (pm & E & _ & GP). rewrite K4 in E. injection E as <-.
  specialize (GP i ltac:(lia)). specialize (RP i ltac:(lia)).
  pose proof (third_body_nonneg m i (st_conc s) HC) as TB.
  assert (Q : (0 <= (if pdep (rxn (chem m) i) then nth (rank pdep (ch_reactions (chem m)) i) (st_pm s) 0 else 1))%R).
  { destruct (pdep (rxn (chem m) i)) eqn:PD; [|lra]. unfold pdep in PD.
    destruct (rx_kind (rxn (chem m) i)); [discriminate|rewrite GP; exact TB|].
    destruct GP as (F & HF & ->). apply Rmult_le_pos; [lra|].
    assert (0 <= ra i * third_body (rxn (chem m) i) (st_conc s))%R by (apply Rmult_le_pos; lra).
    unfold Rdiv. apply Rmult_le_pos; [assumption|]. apply Rlt_le, Rinv_0_lt_compat. lra. }
  unfold progress, nu. rewrite <- Rmult_assoc. apply Rmult_le_pos; [|exact Q].
  rewrite GF, Q2R_net.
  pose proof (conc_product_nonneg (st_conc s) (rx_lhs (rxn (chem m) i)) HC) as PL.
  pose proof (conc_product_nonneg (st_conc s) (rx_rhs (rxn (chem m) i)) HC) as PR.
  pose proof (pos_INR (coeff (rx_lhs (rxn (chem m) i)) k)) as IL.
  pose proof (pos_INR (coeff (rx_rhs (rxn (chem m) i)) k)) as IR.
  assert (RV : exists v, (if rx_rev (rxn (chem m) i) then nth (rank rx_rev (ch_reactions (chem m)) i) (st_rev s) 0 else 0)%R =
     (v * conc_product (st_conc s) (rx_rhs (rxn (chem m) i)))%R /\ (0 <= v)%R).
  { destruct (rx_rev (rxn (chem m) i)); [exists (kr i); split; [apply GV; reflexivity|lra]|exists 0%R; split; [ring|lra]]. }
  destruct RV as (v & -> & Hv).
  destruct (Nat.eq_dec (coeff (rx_lhs (rxn (chem m) i)) k) 0) as [L0|L0].
  - rewrite L0. cbn [INR]. destruct (Nat.eq_dec (coeff (rx_rhs (rxn (chem m) i)) k) 0) as [R0|R0].
    + rewrite R0. cbn [INR]. lra.
    + rewrite (conc_product_zero (st_conc s) (rx_rhs (rxn (chem m) i)) k ZK R0).
      apply Rmult_le_pos; [lra|]. rewrite Rmult_0_r, Rminus_0_r. apply Rmult_le_pos; lra.
  - rewrite (conc_product_zero (st_conc s) (rx_lhs (rxn (chem m) i)) k ZK L0).
    destruct (Nat.eq_dec (coeff (rx_rhs (rxn (chem m) i)) k) 0) as [R0|R0].
    + rewrite R0. cbn [INR]. rewrite Rmult_0_r.
      pose proof (Rmult_le_pos _ _ Hv PR) as X. pose proof (Rmult_le_pos _ _ IL X) as Y. lra.
    + rewrite (conc_product_zero (st_conc s) (rx_rhs (rxn (chem m) i)) k ZK R0). rewrite !Rmult_0_r. lra.
Qed.
