(** The properties of the mechanism libraries, mechanism by mechanism. *)
From Coq Require Import List ZArith NArith QArith Qabs Qreals Reals Bool Lra Lia.
From Verif Require Import Outcome Arith MechLang MechSym MechSrc MechCall MechReal MechPoly MechChem Mechanisms
  MechSpec MechRate MechPmod MechThermo MechConc MechDydt MechDefined MechRhs MechConv MechNames MechMass.
Import ListNotations.
Local Open Scope nat_scope.

(** [w] are the molecular weights of thermo.foam, up to the last digit; not a function of /repo. *)
Definition weights (m : mechanism) (w : nat -> R) : Prop :=
  forall k, k < s_NSP (library m) ->
    (0 < w k)%R /\
    (Rabs (w k - Q2R (nth k (molWeight m) 0%Q)) <= 1 / 10 ^ 15 * Q2R (nth k (molWeight m) 0%Q))%R.

Lemma Q15 : Q2R (1 / 10 ^ 15) = (1 / 10 ^ 15)%R.
Proof. unfold Q2R. cbn. lra. Qed.

Lemma weights_W m : weights m (W m).
Proof.
  intros k Hk. split; [apply W_positive; exact Hk|]. rewrite <- Q15.
  apply (close_in _ (dydt_weights (library m) nitrogen)); [apply weights_close|]. rewrite molWeight_length. exact Hk.
Qed.

Lemma weights_wt m : weights m (wt (library m)).
Proof.
  intros k Hk. split.
  - destruct (conv_parts (library m) (conv_all m)) as (s & t & u & _ & _ & _ & _ & P & _). apply P. exact Hk.
  - rewrite <- Q15. apply (close_in _ (conv_weights (library m))); [apply conv_close|]. rewrite molWeight_length. exact Hk.
Qed.

(** Weights whose reciprocals [eval_conc] multiplies with. *)
Definition conc_weight (m : mechanism) (k : nat) : R := (/ Q2R (nth k (inverse_weights (library m)) 0%Q))%R.

Lemma weights_conc m : weights m (conc_weight m).
Proof.
  intros k Hk.
  assert (P : (0 < Q2R (nth k (inverse_weights (library m)) 0%Q))%R).
  { apply all_positive_in; [apply inverse_weights_positive|]. rewrite inverse_weights_length. exact Hk. }
  split; [apply Rinv_0_lt_compat; exact P|].
  rewrite <- Q15. unfold conc_weight.
  assert (E : Q2R (nth k (map Qinv (inverse_weights (library m))) 0%Q) = (/ Q2R (nth k (inverse_weights (library m)) 0%Q))%R).
  { rewrite nth_Qinv. destruct (Qeq_bool _ _) eqn:Z; [|reflexivity].
    apply Qeq_bool_eq, Qeq_eqR in Z. rewrite Z, Q2R_0 in P. lra. }
  rewrite <- E. apply close_in; [apply inverse_weights_close|]. rewrite molWeight_length. exact Hk.
Qed.

Lemma specific_moles_weights m y :
  specific_moles (library m) y = Rsumn (s_NSP (library m)) (fun k => nth k (all_fractions y) 0 / conc_weight m k)%R.
Proof. apply Rsumn_ext. intros k _. unfold conc_weight, Rdiv. rewrite Rinv_inv. ring. Qed.

(** ** Definedness *)

Theorem m_dydt_defined (A : Arith) (M : libm A) m p y : length y = s_NSP (library m) ->
  exists dy, lib_dydt M (library m) p y = Ok dy /\ length dy = s_NSP (library m).
Proof. apply dydt_defined. apply library_all. Qed.

Theorem m_functions_defined (A : Arith) (M : libm A) m (T p : num A) :
  (forall y, length y = s_NSP (library m) - 1 ->
     exists yN mw rho conc, lib_eval_conc M (library m) T p y = Ok (yN, mw, rho, conc) /\ length conc = s_NSP (library m)) /\
  (exists h, lib_eval_h M (library m) T = Ok h /\ length h = s_NSP (library m)) /\
  (exists cp, lib_eval_cp M (library m) T = Ok cp /\ length cp = s_NSP (library m)) /\
  (forall C, length C = s_NSP (library m) ->
     exists fwd rev, lib_eval_rxn_rates M (library m) T p C = Ok (fwd, rev) /\
       length fwd = s_fwd (library m) /\ length rev = s_rev (library m)) /\
  (forall C, length C = s_NSP (library m) ->
     exists pm, lib_get_rxn_pres_mod M (library m) T p C = Ok pm /\ length pm = s_pmod (library m)) /\
  (forall fwd rev pm, length fwd = s_fwd (library m) -> length rev = s_rev (library m) -> length pm = s_pmod (library m) ->
     exists sp dyN, lib_eval_spec_rates M (library m) fwd rev pm = Ok (sp, dyN) /\ length sp = s_NSP (library m) - 1) /\
  (forall X, length X = s_NSP (library m) - 1 ->
     (exists Y, lib_mole2mass M (library m) X = Ok Y /\ length Y = s_NSP (library m) - 1) /\
     (exists Y, lib_mass2mole M (library m) X = Ok Y /\ length Y = s_NSP (library m) - 1) /\
     (exists d, lib_getDensity M (library m) T p X = Ok d)).
Proof.
  pose proof (library_all m) as H. repeat split.
  - intros y Hy. apply eval_conc_defined; assumption.
  - apply eval_h_defined; assumption.
  - apply eval_cp_defined; assumption.
  - intros C Hy. apply eval_rxn_rates_defined; assumption.
  - intros C Hy. apply get_rxn_pres_mod_defined; assumption.
  - intros. apply eval_spec_rates_defined; assumption.
  - destruct (mole_mass_defined M (library m) H X H0) as (K1 & K2 & K3). exact K1.
  - destruct (mole_mass_defined M (library m) H X H0) as (K1 & K2 & K3). exact K2.
  - destruct (mole_mass_defined M (library m) H X H0) as (K1 & K2 & K3). apply K3.
Qed.

(** ** Production rates *)

Theorem m_production (M : libm RA) m (fwd rev pm : list R) :
  length fwd = s_fwd (library m) -> length rev = s_rev (library m) -> length pm = s_pmod (library m) ->
  exists (sp : list R) (dyN : R), lib_eval_spec_rates (A := RA) M (library m) fwd rev pm = Ok (sp, dyN) /\
    length sp = s_NSP (library m) - 1 /\
    forall k, k < s_NSP (library m) ->
      nth k (sp ++ [dyN]) 0%R =
      Rsumn (length (ch_reactions (chem m))) (fun i => nu (chem m) i k * progress (chem m) fwd rev pm i)%R.
Proof. apply production. apply spec_all. Qed.

Theorem m_balanced (M : libm RA) m (fwd rev pm sp : list R) (dyN : R) e :
  length fwd = s_fwd (library m) -> length rev = s_rev (library m) -> length pm = s_pmod (library m) ->
  lib_eval_spec_rates (A := RA) M (library m) fwd rev pm = Ok (sp, dyN) -> e < ch_elements (chem m) ->
  Rsumn (s_NSP (library m)) (fun k => INR (atoms (chem m) e k) * nth k (sp ++ [dyN]) 0)%R = 0%R.
Proof.
  intros L1 L2 L3 E He.
  destruct (production_balanced M (library m) (chem m) fwd rev pm (spec_all m) (balanced_all m) (species_all m) L1 L2 L3)
    as (sp' & d' & E' & B).
  rewrite E in E'. injection E' as <- <-. rewrite species_all in B. apply B. exact He.
Qed.

Theorem m_elements m : exists w, weights m w /\
  forall (M : libm RA) (p T : R) (y dy : list R) e, length y = s_NSP (library m) - 1 ->
  lib_dydt M (library m) p (T :: y) = Ok dy ->
  e < ch_elements (chem m) -> atoms (chem m) e (s_NSP (library m) - 1) = 0 ->
    Rsumn (s_NSP (library m) - 1) (fun k => INR (atoms (chem m) e k) / w k * nth (k + 1) dy 0)%R = 0%R.
Proof.
  exists (W m). split; [apply weights_W|]. intros M p T y dy e L E He Ha.
  destruct (elements_conserved M m p T y e L He Ha) as (dy' & E' & B). rewrite E in E'. injection E' as <-. exact B.
Qed.

(** ** Rates *)

Theorem m_mass_action (M : libm RA) m (T p : R) : (forall x : R, 0 < m_exp M x)%R -> (0 < T)%R -> (0 < p)%R ->
  exists kf kr : nat -> R,
    (forall i, i < length (ch_reactions (chem m)) -> (0 < kf i /\ 0 < kr i)%R) /\
    forall C, length C = s_NSP (library m) ->
    exists fwd rev : list R, lib_eval_rxn_rates (A := RA) M (library m) T p C = Ok (fwd, rev) /\
      length fwd = s_fwd (library m) /\ length rev = s_rev (library m) /\
      forall i, i < length (ch_reactions (chem m)) ->
        (nth i fwd 0 = kf i * conc_product C (rx_lhs (rxn (chem m) i)))%R /\
        (rx_rev (rxn (chem m) i) = true ->
         nth (rank rx_rev (ch_reactions (chem m)) i) rev 0 = kr i * conc_product C (rx_rhs (rxn (chem m) i)))%R.
Proof. apply mass_action. apply rates_all. Qed.

Theorem m_pressure (M : libm RA) m (T p : R) :
  (forall x : R, 0 < m_exp M x)%R -> (forall x y : R, 0 < x -> 0 < m_pow M x y)%R -> (0 < T)%R -> (0 < p)%R ->
  exists ratio : nat -> R,
    (forall i, i < length (ch_reactions (chem m)) -> (0 < ratio i)%R) /\
    forall C, length C = s_NSP (library m) -> Rsumn (length C) (fun k => nth k C 0%R) = (p / (gas_constant * T))%R ->
    exists pm : list R, lib_get_rxn_pres_mod (A := RA) M (library m) T p C = Ok pm /\ length pm = s_pmod (library m) /\
      forall i, i < length (ch_reactions (chem m)) ->
        match rx_kind (rxn (chem m) i) with
        | Elementary => True
        | ThreeBody => nth (rank pdep (ch_reactions (chem m)) i) pm 0%R = third_body (rxn (chem m) i) C
        | Falloff => exists F, (0 < F)%R /\
            nth (rank pdep (ch_reactions (chem m)) i) pm 0%R =
            (F * (ratio i * third_body (rxn (chem m) i) C / (1 + ratio i * third_body (rxn (chem m) i) C)))%R
        end.
Proof. apply pressure_modifications. apply pmod_all. Qed.

(** ** Concentrations *)

Theorem m_concentrations m : exists w, weights m w /\
  forall (M : libm RA) (T p : R) (y : list R), length y = s_NSP (library m) - 1 ->
  forall s, s = Rsumn (s_NSP (library m)) (fun k => nth k (all_fractions y) 0 / w k)%R -> s <> 0%R ->
  exists conc : list R,
    lib_eval_conc (A := RA) M (library m) T p y = Ok ((1 - Rsum y)%R, (1 / s)%R, (p * (1 / s) / (gas_constant * T))%R, conc) /\
    length conc = s_NSP (library m) /\
    (forall k, k < s_NSP (library m) ->
       nth k conc 0%R = (p * (1 / s) / (gas_constant * T) * nth k (all_fractions y) 0 / w k)%R) /\
    Rsumn (length conc) (fun k => nth k conc 0%R) = (p / (gas_constant * T))%R.
Proof.
  exists (conc_weight m). split; [apply weights_conc|]. intros M T p y L s -> D.
  rewrite <- specific_moles_weights in *.
  destruct (concentrations M (library m) T p y (conc_all m) L) as (conc & E & LC & G).
  destruct (ideal_gas M (library m) T p y (conc_all m) L D) as (yN & mw & rho & conc' & E' & _ & I).
  rewrite E in E'. injection E' as _ _ _ <-.
  exists conc. split; [exact E|]. split; [exact LC|]. split; [|exact I].
  intros k Hk. rewrite (G k Hk). unfold conc_weight, Rdiv. rewrite Rinv_inv. reflexivity.
Qed.

Theorem m_concentrations_nonneg (M : libm RA) m (p T : R) (y : list R) : length y = s_NSP (library m) - 1 ->
  (0 < T)%R -> (0 < p)%R -> (forall k, k < length y -> (0 <= nth k y 0)%R) -> (Rsum y <= 1)%R ->
  exists (yN mw rho : R) (conc : list R), lib_eval_conc M (library m) T p y = Ok (yN, mw, rho, conc) /\
    (0 <= yN)%R /\ (0 < mw)%R /\ (0 < rho)%R /\ length conc = s_NSP (library m) /\ (forall k, 0 <= nth k conc 0)%R /\
    Rsumn (length conc) (fun k => nth k conc 0%R) = (p / (gas_constant * T))%R.
Proof.
  intros L HT Hp Hy H1.
  destruct (concentrations_nonneg M m p T y L HT Hp Hy H1) as (yN & mw & rho & conc & E & LC & R & C & I & _).
  destruct (concentrations M (library m) T p y (conc_all m) L) as (conc' & E' & _).
  pose proof E as E2. rewrite E' in E2. injection E2 as A1 A2 A3 A4.
  exists yN, mw, rho, conc. split; [exact E|]. split; [lra|]. split; [|auto].
  rewrite <- A2. apply Rdiv_lt_0_compat; [lra|]. apply specific_moles_positive; assumption.
Qed.

(** ** Energy *)

Theorem m_energy m : exists w, weights m w /\
  forall (M : libm RA) (p T : R) (y : list R) (yN mw rho : R) (conc fwd rev pm sp : list R) (dyN : R) (cp h dy : list R),
  length y = s_NSP (library m) - 1 ->
  lib_eval_conc M (library m) T p y = Ok (yN, mw, rho, conc) ->
  lib_eval_rxn_rates M (library m) T p conc = Ok (fwd, rev) ->
  lib_get_rxn_pres_mod M (library m) T p conc = Ok pm ->
  lib_eval_spec_rates M (library m) fwd rev pm = Ok (sp, dyN) ->
  lib_eval_cp M (library m) T = Ok cp -> lib_eval_h M (library m) T = Ok h ->
  lib_dydt M (library m) p (T :: y) = Ok dy -> rho <> 0%R ->
  (forall k, k < s_NSP (library m) - 1 -> nth (k + 1) dy 0%R = (w k * nth k sp 0 / rho)%R) /\
  forall cpm : R, cpm = Rsumn (s_NSP (library m)) (fun k => nth k cp 0 * nth k (y ++ [yN]) 0)%R -> cpm <> 0%R ->
  (cpm * nth 0 dy 0 + Rsumn (s_NSP (library m) - 1)%nat (fun k => nth k h 0 * nth (k + 1)%nat dy 0) +
   nth (s_NSP (library m) - 1)%nat h 0 * (w (s_NSP (library m) - 1)%nat * dyN / rho) = 0)%R.
Proof.
  exists (W m). split; [apply weights_W|].
  intros M p T y yN mw rho conc fwd rev pm sp dyN cp h dy L E1 E2 E3 E4 E5 E6 E7 D.
  destruct (rhs_explicit M m p T y yN mw rho conc fwd rev pm sp dyN cp h dy L E1 E2 E3 E4 E5 E6 E7)
    as (_ & _ & _ & L4 & EN & G & G0).
  split; [intros k Hk; rewrite (G k Hk); unfold Rdiv; ring|].
  intros cpm Ecp Dcp. rewrite G0. subst yN. fold (all_fractions y) in Ecp. rewrite <- Ecp.
  set (n := s_NSP (library m)) in *. assert (Hn : 1 <= n) by (pose proof (NSP_pos m) as NP; fold n in NP; lia).
  rewrite (Rsumn_ext (n - 1) _ (fun k => / rho * (W m k * nth k (sp ++ [dyN]) 0 * nth k h 0))%R).
  2: { intros k Hk. rewrite (G k) by exact Hk. rewrite app_nth1 by lia. unfold Rdiv. ring. }
  assert (S1 : Rsumn n (fun k => W m k * nth k (sp ++ [dyN]) 0 * nth k h 0)%R =
    (Rsumn (n - 1)%nat (fun k => W m k * nth k (sp ++ [dyN]) 0 * nth k h 0) +
     W m (n - 1)%nat * dyN * nth (n - 1)%nat h 0)%R).
  { replace n with (S (n - 1)) at 1 by lia. rewrite Rsumn_S. f_equal. rewrite app_nth2 by lia. rewrite L4, Nat.sub_diag. reflexivity. }
  rewrite S1. unfold Rsumn at 2. rewrite (Rsum_scal (/ rho)). fold (Rsumn (n - 1) (fun k => W m k * nth k (sp ++ [dyN]) 0 * nth k h 0)%R).
  field. split; assumption.
Qed.

(** ** Conversions *)

Theorem m_conversions m : exists w, weights m w /\
  forall (M : libm RA),
  (forall X : list R, length X = s_NSP (library m) - 1 ->
   forall mean, mean = Rsumn (s_NSP (library m)) (fun k => w k * nth k (all_fractions X) 0)%R -> mean <> 0%R ->
   exists Y : list R, lib_mole2mass (A := RA) M (library m) X = Ok Y /\ lib_mass2mole (A := RA) M (library m) Y = Ok X /\
     (forall k, k < s_NSP (library m) - 1 -> nth k Y 0%R = (nth k X 0 * w k / mean)%R) /\
     forall T p, lib_getDensity (A := RA) M (library m) T p X = Ok (p * mean / (gas_constant * T))%R) /\
  (forall Y : list R, length Y = s_NSP (library m) - 1 ->
   Rsumn (s_NSP (library m)) (fun k => / w k * nth k (all_fractions Y) 0)%R <> 0%R ->
   exists X : list R, lib_mass2mole (A := RA) M (library m) Y = Ok X /\ lib_mole2mass (A := RA) M (library m) X = Ok Y).
Proof.
  exists (wt (library m)). split; [apply weights_wt|]. intros M. split.
  - intros X L mean -> D.
    destruct (mole_mass_mole M (library m) (conv_all m) X L D) as (Y & E1 & E2).
    destruct (mole2mass_spec M (library m) (conv_all m) X L) as (Y' & E1' & _ & G).
    pose proof E1 as E3. rewrite E1' in E3. injection E3 as <-.
    exists Y'. split; [exact E1|]. split; [exact E2|]. split; [exact G|].
    intros T p. apply density_spec; [apply conv_all|exact L].
  - intros Y L D. exact (mass_mole_mass M (library m) (conv_all m) Y L D).
Qed.

(** ** Data *)

Theorem m_foam_data m :
  foam_names m = library_names m /\ NoDup (library_names m) /\ length (library_names m) = s_NSP (library m) /\
  foam_elements m = ch_atoms (chem m) /\ length (molWeight m) = s_NSP (library m) /\
  forall k, k < s_NSP (library m) ->
    (Rabs (Q2R (nth k (molWeight m) 0%Q) -
           Rsumn (ch_elements (chem m)) (fun e => INR (nth e (nth k (foam_elements m) []) 0%nat) * Q2R (nth e atomic_weight 0%Q))) <=
     1 / 10 ^ 15 * Q2R (nth k (molWeight m) 0%Q))%R.
Proof.
  destruct (names_agree m) as (N1 & N2 & N3).
  refine (conj N1 (conj N3 (conj N2 (conj (elements_agree m) (conj (molWeight_length m) _))))).
  intros k Hk. rewrite elements_agree, elements_five.
  change (Rsumn 5 (fun e => INR (nth e (nth k (ch_atoms (chem m)) []) 0%nat) * Q2R (nth e atomic_weight 0%Q))%R)
    with (Rsumn 5 (fun e => INR (atoms (chem m) e k) * Q2R (nth e atomic_weight 0%Q))%R).
  rewrite <- (formula_weight_val m k Hk). rewrite Rabs_minus_sym, <- Q15.
  apply close_in; [destruct m; vm_compute; reflexivity|]. rewrite molWeight_length. exact Hk.
Qed.
