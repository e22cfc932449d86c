(** The second law: every reversible reaction runs in the direction of its affinity. *)
From Coq Require Import List ZArith NArith QArith Qabs Qreals Reals Bool Lra Lia.
From Verif Require Import Outcome Arith MechLang MechSym MechSrc MechCall MechReal MechPoly MechChem Mechanisms
  MechSpec MechRate MechPmod MechThermo MechConc MechRhs MechData MechExp MechLaurent MechNasa MechKin MechArr.
Import ListNotations.
Local Open Scope nat_scope.

(** Chemical potential of species [k] over R T: Gibbs function at the standard pressure and ln of the
    partial pressure. *)
Definition potential (m : mechanism) (T : R) (C : list R) (k : nat) : R :=
  (gibbs m T k + ln (nth k C 0 * (gas_constant * T / p_std)))%R.

(** Affinity over R T. *)
Definition affinity (m : mechanism) (T : R) (C : list R) (r : reaction) : R :=
  (side_sum (rx_lhs r) (potential m T C) - side_sum (rx_rhs r) (potential m T C))%R.

(** Species numbers are in range. *)
Definition in_range (n : nat) (l : list (nat * nat)) : Prop := forall p, In p l -> fst p < n.

Lemma ranges m i : i < length (ch_reactions (chem m)) ->
  in_range (s_NSP (library m)) (rx_lhs (rxn (chem m) i)) /\ in_range (s_NSP (library m)) (rx_rhs (rxn (chem m) i)).
Proof.
  intros Hi.
  assert (E : forallb (fun r => forallb (fun p => fst p <? s_NSP (library m)) (rx_lhs r ++ rx_rhs r)) (ch_reactions (chem m)) = true)
    by (destruct m; vm_compute; reflexivity).
  rewrite forallb_forall in E. specialize (E _ (nth_In _ (mkRx Elementary [] [] false []) Hi)). fold (rxn (chem m) i) in E.
  rewrite forallb_forall in E. split; intros q Q; apply Nat.ltb_lt, E, in_or_app; auto.
Qed.

(** ** Sums over sides *)

Lemma side_ext l f g : (forall p, In p l -> f (fst p) = g (fst p)) -> side_sum l f = side_sum l g.
Proof. intros H. apply Rsum_ext. intros p Hp. rewrite (H p Hp). reflexivity. Qed.

Lemma side_plus l f g : side_sum l (fun k => f k + g k)%R = (side_sum l f + side_sum l g)%R.
Proof. unfold side_sum. rewrite <- Rsum_plus. apply Rsum_ext. intros; ring. Qed.

Lemma side_const l c : side_sum l (fun _ => c) = (INR (molecules l) * c)%R.
Proof.
  induction l as [|[k n] l IH]; [unfold side_sum; cbn; ring|].
  rewrite side_cons, molecules_cons, plus_INR, IH. ring.
Qed.

Lemma coeff_cons k n l j : coeff ((k, n) :: l) j = (if k =? j then n else 0) + coeff l j.
Proof. unfold coeff. cbn [filter fst]. destruct (k =? j); reflexivity. Qed.

Lemma pick n k (f : nat -> R) : k < n -> Rsumn n (fun j => if k =? j then f j else 0)%R = f k.
Proof.
  induction n as [|n IH]; intros H; [lia|]. rewrite Rsumn_S. destruct (Nat.eqb_spec k n) as [->|N].
  - rewrite (Rsumn_ext n _ (fun _ => 0)%R); [unfold Rsumn; rewrite Rsum_zero; [ring|reflexivity]|].
    intros i Hi. destruct (Nat.eqb_spec n i); [lia|reflexivity].
  - rewrite IH by lia. ring.
Qed.

Lemma side_coeff n l f : in_range n l -> Rsumn n (fun k => INR (coeff l k) * f k)%R = side_sum l f.
Proof.
  induction l as [|[k c] l IH]; intros H.
  - unfold side_sum. cbn. unfold Rsumn. apply Rsum_zero. intros; cbn; ring.
  - rewrite side_cons, <- IH by (intros p Hp; apply H; right; exact Hp).
    rewrite <- (pick n k (fun j => INR c * f j)%R) by (apply (H (k, c)); left; reflexivity).
    unfold Rsumn. rewrite <- Rsum_plus. apply Rsum_ext. intros j _. rewrite coeff_cons, plus_INR.
    destruct (k =? j); cbn [INR]; ring.
Qed.

Lemma ln_product C l : in_range (length C) l -> (forall k, k < length C -> (0 < nth k C 0)%R) ->
  (0 < conc_product C l)%R /\ ln (conc_product C l) = side_sum l (fun k => ln (nth k C 0%R)).
Proof.
  intros H HC. induction l as [|[k n] l IH].
  - unfold conc_product, side_sum. cbn. rewrite ln_1. split; lra.
  - destruct IH as [P E]; [intros p Hp; apply H; right; exact Hp|].
    assert (Hk : (0 < nth k C 0)%R) by (apply HC, (H (k, n)); left; reflexivity).
    change (conc_product C ((k, n) :: l)) with (nth k C 0 ^ n * conc_product C l)%R.
    split; [apply Rmult_lt_0_compat; [apply pow_lt, Hk|exact P]|].
    rewrite ln_mult, ln_pow, side_cons, E by (try apply pow_lt; assumption). reflexivity.
Qed.

(** ** Affinity and rates *)

Lemma affinity_val m T C r : (0 < T)%R -> in_range (length C) (rx_lhs r) -> in_range (length C) (rx_rhs r) ->
  (forall k, k < length C -> (0 < nth k C 0)%R) ->
  affinity m T C r = (ln_Kc m T r + ln (conc_product C (rx_lhs r)) - ln (conc_product C (rx_rhs r)))%R.
Proof.
  intros HT HL HR HC. pose proof gas_pos as G.
  assert (Px : (0 < gas_constant * T / p_std)%R) by (unfold p_std; apply Rdiv_lt_0_compat; [apply Rmult_lt_0_compat; assumption|lra]).
  assert (S : forall l, in_range (length C) l -> side_sum l (potential m T C) =
    (side_sum l (gibbs m T) + ln (conc_product C l) + INR (molecules l) * ln (gas_constant * T / p_std))%R).
  { intros l Hl. destruct (ln_product C l Hl HC) as [_ ->].
    rewrite (side_ext l _ (fun k => gibbs m T k + (ln (nth k C 0) + ln (gas_constant * T / p_std)))%R).
    - rewrite side_plus, (side_plus l (fun k => ln (nth k C 0%R)) (fun _ => ln (gas_constant * T / p_std))), side_const. ring.
    - intros q Hq. unfold potential. rewrite ln_mult; [reflexivity|apply HC, Hl, Hq|exact Px]. }
  unfold affinity. rewrite !S by assumption. unfold ln_Kc.
  replace (p_std / (gas_constant * T))%R with (/ (gas_constant * T / p_std))%R.
  - rewrite ln_Rinv by exact Px. ring.
  - unfold p_std. field. split; lra.
Qed.

Theorem affinity_rates m (T p : R) (C fwd rev : list R) : (0 < T)%R -> (0 < p)%R -> length C = s_NSP (library m) ->
  (forall k, k < length C -> (0 < nth k C 0)%R) -> lib_eval_rxn_rates exact_libm (library m) T p C = Ok (fwd, rev) ->
  forall i, i < length (ch_reactions (chem m)) -> rx_rev (rxn (chem m) i) = true ->
  forall f r, f = nth i fwd 0%R -> r = nth (rank rx_rev (ch_reactions (chem m)) i) rev 0%R ->
  (0 < f)%R /\ (0 < r)%R /\
  (Rabs (ln f - ln r - affinity m T C (rxn (chem m) i)) <= Kc_err m T (rxn (chem m) i))%R.
Proof.
  intros HT Hp LC HC E i Hi Rv f r -> ->.
  destruct (mass_action_at exact_libm (library m) (chem m) T p (rates_all m) (fun x => exp_pos x) HT Hp) as [P G].
  destruct (G C LC) as (fwd' & rev' & E' & _ & _ & V). rewrite E in E'. injection E' as <- <-.
  destruct (V i Hi) as [Vf Vr]. specialize (Vr Rv). rewrite Vf, Vr.
  destruct (P i Hi) as [Pf Pr]. destruct (ranges m i Hi) as [RL RR]. rewrite <- LC in RL, RR.
  destruct (ln_product C _ RL HC) as [QL _]. destruct (ln_product C _ RR HC) as [QR _].
  split; [apply Rmult_lt_0_compat; assumption|]. split; [apply Rmult_lt_0_compat; assumption|].
  destruct (rate_constants m T p i HT Hi) as (_ & _ & _ & K). destruct (K Rv) as [_ K'].
  rewrite affinity_val, !ln_mult by assumption.
  match goal with |- (Rabs ?x <= _)%R => match type of K' with (Rabs ?y <= _)%R => replace x with y by ring end end.
  exact K'.
Qed.

(** A difference has the sign of the difference of logarithms up to the error. *)
Lemma direction f r A e : (0 < f)%R -> (0 < r)%R -> (Rabs (ln f - ln r - A) <= e)%R ->
  ((e < A -> r < f) /\ (A < - e -> f < r) /\ - e * Rabs (f - r) <= A * (f - r))%R.
Proof.
  intros Hf Hr H. pose proof (Rle_abs (ln f - ln r - A)) as H1. pose proof (Rle_abs (- (ln f - ln r - A))) as H2.
  rewrite Rabs_Ropp in H2. pose proof (Rabs_pos (ln f - ln r - A)) as H0.
  split; [|split].
  - intros L. apply ln_lt_inv; lra.
  - intros L. apply ln_lt_inv; lra.
  - destruct (Rle_dec r f) as [L|L].
    + rewrite Rabs_pos_eq by lra.
      assert (ln r <= ln f)%R by (destruct L as [L|<-]; [left; apply ln_increasing; assumption|lra]).
      apply Rmult_le_compat_r; lra.
    + assert (ln f < ln r)%R by (apply ln_increasing; lra).
      rewrite Rabs_left by lra.
      assert (0 <= (r - f) * (e - A))%R by (apply Rmult_le_pos; lra). lra.
Qed.

(** ** Modifications are not negative *)

Lemma modifier_nonneg (M : libm RA) m (p T : R) (C pm : list R) i :
  (forall x : R, 0 < m_exp M x)%R -> (forall x z : R, 0 < x -> 0 < m_pow M x z)%R ->
  (0 < T)%R -> (0 < p)%R -> length C = s_NSP (library m) -> (forall k, 0 <= nth k C 0)%R ->
  Rsumn (length C) (fun k => nth k C 0%R) = (p / (gas_constant * T))%R ->
  lib_get_rxn_pres_mod M (library m) T p C = Ok pm -> i < length (ch_reactions (chem m)) ->
  (0 <= (if pdep (rxn (chem m) i) then nth (rank pdep (ch_reactions (chem m)) i) pm 0 else 1))%R.
Proof.
  intros HE HPow HT Hp LC HC SC E Hi.
  destruct (pressure_modifications M (library m) (chem m) T p (pmod_all m) HE HPow HT Hp) as (ra & RP & PM).
  destruct (PM C LC SC) as (pm' & E' & _ & GP). rewrite E in E'. injection E' as <-.
  specialize (GP i Hi). specialize (RP i Hi).
  pose proof (third_body_nonneg m i C HC) as TB.
  destruct (pdep (rxn (chem m) i)) eqn:PD; [|lra]. unfold pdep in PD.
  destruct (rx_kind (rxn (chem m) i)); [discriminate|rewrite GP; exact TB|].
  destruct GP as (F & HF & ->). apply Rmult_le_pos; [lra|].
  assert (0 <= ra i * third_body (rxn (chem m) i) C)%R by (apply Rmult_le_pos; lra).
  unfold Rdiv. apply Rmult_le_pos; [assumption|]. apply Rlt_le, Rinv_0_lt_compat. lra.
Qed.

(** ** The Gibbs energy does not increase *)

(** What an irreversible reaction contributes, and the rounding of the constants of a reversible one. *)
Definition dissipation_bound (m : mechanism) (T : R) (C : list R) (q : R) (r : reaction) : R :=
  if rx_rev r then (Kc_err m T r * Rabs q)%R else (- (affinity m T C r * q))%R.

Theorem second_law m (T p : R) (C fwd rev pm sp : list R) (dyN : R) : (0 < T)%R -> (0 < p)%R ->
  length C = s_NSP (library m) -> (forall k, k < length C -> (0 < nth k C 0)%R) ->
  Rsumn (length C) (fun k => nth k C 0%R) = (p / (gas_constant * T))%R ->
  lib_eval_rxn_rates exact_libm (library m) T p C = Ok (fwd, rev) ->
  lib_get_rxn_pres_mod exact_libm (library m) T p C = Ok pm ->
  lib_eval_spec_rates exact_libm (library m) fwd rev pm = Ok (sp, dyN) ->
  (forall i, i < length (ch_reactions (chem m)) -> rx_rev (rxn (chem m) i) = true ->
     (- Kc_err m T (rxn (chem m) i) * Rabs (progress (chem m) fwd rev pm i) <=
      affinity m T C (rxn (chem m) i) * progress (chem m) fwd rev pm i)%R) /\
  (Rsumn (s_NSP (library m)) (fun k => potential m T C k * nth k (sp ++ [dyN]) 0) <=
   Rsumn (length (ch_reactions (chem m)))
     (fun i => dissipation_bound m T C (progress (chem m) fwd rev pm i) (rxn (chem m) i)))%R.
Proof.
  intros HT Hp LC HC SC E1 E2 E3.
  assert (HE : forall x : R, (0 < m_exp exact_libm x)%R) by (intros x; apply exp_pos).
  assert (HW : forall x z : R, (0 < x -> 0 < m_pow exact_libm x z)%R) by (intros x z _; apply exp_pos).
  assert (HC0 : forall k, (0 <= nth k C 0)%R).
  { intros k. destruct (Nat.lt_ge_cases k (length C)) as [L|L]; [left; apply HC, L|rewrite nth_overflow by exact L; lra]. }
  destruct (mass_action_at exact_libm (library m) (chem m) T p (rates_all m) HE HT Hp) as [_ G].
  destruct (G C LC) as (fwd' & rev' & E' & Lf & Lr & _). rewrite E1 in E'. injection E' as <- <-.
  destruct (pressure_modifications exact_libm (library m) (chem m) T p (pmod_all m) HE HW HT Hp) as (ra & _ & PM).
  destruct (PM C LC SC) as (pm' & E' & Lp & _). rewrite E2 in E'. injection E' as <-.
  destruct (production exact_libm (library m) (chem m) fwd rev pm (spec_all m) Lf Lr Lp) as (sp' & dyN' & E' & _ & PR).
  rewrite E3 in E'. injection E' as <- <-.
  assert (D : forall i, i < length (ch_reactions (chem m)) -> rx_rev (rxn (chem m) i) = true ->
     (- Kc_err m T (rxn (chem m) i) * Rabs (progress (chem m) fwd rev pm i) <=
      affinity m T C (rxn (chem m) i) * progress (chem m) fwd rev pm i)%R).
  { intros i Hi Rv. destruct (affinity_rates m T p C fwd rev HT Hp LC HC E1 i Hi Rv _ _ eq_refl eq_refl) as (Pf & Pr & A).
    destruct (direction _ _ _ _ Pf Pr A) as (_ & _ & D).
    pose proof (modifier_nonneg exact_libm m p T C pm i HE HW HT Hp LC HC0 SC E2 Hi) as N.
    unfold progress. rewrite Rv.
    set (q := (if pdep (rxn (chem m) i) then nth (rank pdep (ch_reactions (chem m)) i) pm 0 else 1)%R) in *.
    rewrite Rabs_mult, (Rabs_pos_eq q N), <- !Rmult_assoc. apply Rmult_le_compat_r; [exact N|exact D]. }
  split; [exact D|].
  assert (X : Rsumn (s_NSP (library m)) (fun k => potential m T C k * nth k (sp ++ [dyN]) 0)%R =
    Rsumn (length (ch_reactions (chem m))) (fun i => - (affinity m T C (rxn (chem m) i) * progress (chem m) fwd rev pm i))%R).
  { rewrite (Rsumn_ext _ _ (fun k => Rsumn (length (ch_reactions (chem m)))
      (fun i => potential m T C k * nu (chem m) i k * progress (chem m) fwd rev pm i)%R)).
    - unfold Rsumn. rewrite (Rsum_swap (fun k i => potential m T C k * nu (chem m) i k * progress (chem m) fwd rev pm i)%R).
      apply Rsum_ext. intros i Hi. apply in_seq in Hi. destruct (ranges m i ltac:(lia)) as [RL RR].
      rewrite (Rsum_ext _ (fun k => progress (chem m) fwd rev pm i *
        (INR (coeff (rx_rhs (rxn (chem m) i)) k) * potential m T C k - INR (coeff (rx_lhs (rxn (chem m) i)) k) * potential m T C k))%R)
        by (intros k _; unfold nu; rewrite Q2R_net; ring).
      rewrite Rsum_scal, Rsum_minus. unfold affinity.
      rewrite <- (side_coeff _ _ (potential m T C) RL), <- (side_coeff _ _ (potential m T C) RR). unfold Rsumn. ring.
    - intros k Hk. rewrite (PR k Hk). unfold Rsumn.
      rewrite <- (Rsum_scal (potential m T C k) (fun i => nu (chem m) i k * progress (chem m) fwd rev pm i)%R).
      apply Rsum_ext. intros; ring. }
  rewrite X. unfold Rsumn.
  assert (LE : forall l, (forall i, In i l -> i < length (ch_reactions (chem m))) ->
    (Rsum (map (fun i => - (affinity m T C (rxn (chem m) i) * progress (chem m) fwd rev pm i)) l) <=
     Rsum (map (fun i => dissipation_bound m T C (progress (chem m) fwd rev pm i) (rxn (chem m) i)) l))%R).
  { induction l as [|i l IH]; intros Hl; cbn [map Rsum]; [lra|]. apply Rplus_le_compat; [|apply IH; intros j Hj; apply Hl; right; exact Hj].
    unfold dissipation_bound. destruct (rx_rev (rxn (chem m) i)) eqn:Rv; [|lra].
    specialize (D i (Hl i (or_introl eq_refl)) Rv). lra. }
  apply LE. intros i Hi. apply in_seq in Hi. lia.
Qed.

(** ** All rate constants together *)

Theorem all_rates m (T p : R) : (0 < T)%R -> (0 < p)%R -> exists kf kr : nat -> R,
  (forall i, i < length (ch_reactions (chem m)) ->
     (0 < kf i)%R /\ (0 < rate_arr (k_high (kin m i)) (order (rxn (chem m) i)) T)%R /\
     (Rabs (ln (kf i) - ln (rate_arr (k_high (kin m i)) (order (rxn (chem m) i)) T)) <= arr_err (k_high (kin m i)) T)%R /\
     (rx_rev (rxn (chem m) i) = true -> (0 < kr i)%R /\
      (Rabs (ln (kf i) - ln (kr i) - ln_Kc m T (rxn (chem m) i)) <= Kc_err m T (rxn (chem m) i))%R)) /\
  forall C : list R, length C = s_NSP (library m) ->
  exists fwd rev : list R, lib_eval_rxn_rates exact_libm (library m) T p C = Ok (fwd, rev) /\
    forall i, i < length (ch_reactions (chem m)) ->
      (nth i fwd 0 = kf i * conc_product C (rx_lhs (rxn (chem m) i)))%R /\
      (rx_rev (rxn (chem m) i) = true ->
       nth (rank rx_rev (ch_reactions (chem m)) i) rev 0 = kr i * conc_product C (rx_rhs (rxn (chem m) i)))%R.
Proof.
  intros HT Hp. exists (k_fwd exact_libm (library m) T p), (k_rev exact_libm (library m) (chem m) T p).
  split; [intros i Hi; apply rate_constants; assumption|]. intros C LC.
  destruct (mass_action_at exact_libm (library m) (chem m) T p (rates_all m) (fun x => exp_pos x) HT Hp) as [_ G].
  destruct (G C LC) as (fwd & rev & E & _ & _ & V). eauto.
Qed.

Theorem directions m (T p : R) (C fwd rev : list R) : (0 < T)%R -> (0 < p)%R -> length C = s_NSP (library m) ->
  (forall k, k < length C -> (0 < nth k C 0)%R) -> lib_eval_rxn_rates exact_libm (library m) T p C = Ok (fwd, rev) ->
  forall i, i < length (ch_reactions (chem m)) -> rx_rev (rxn (chem m) i) = true ->
  forall f r, f = nth i fwd 0%R -> r = nth (rank rx_rev (ch_reactions (chem m)) i) rev 0%R ->
  ((Kc_err m T (rxn (chem m) i) < affinity m T C (rxn (chem m) i) -> r < f) /\
   (affinity m T C (rxn (chem m) i) < - Kc_err m T (rxn (chem m) i) -> f < r) /\
   (affinity m T C (rxn (chem m) i) = 0 -> Rabs (ln f - ln r) <= Kc_err m T (rxn (chem m) i)))%R.
Proof.
  intros HT Hp LC HC E i Hi Rv f r Ef Er.
  destruct (affinity_rates m T p C fwd rev HT Hp LC HC E i Hi Rv f r Ef Er) as (Pf & Pr & A).
  destruct (direction _ _ _ _ Pf Pr A) as (D1 & D2 & _). split; [exact D1|]. split; [exact D2|].
  intros Z. rewrite Z, Rminus_0_r in A. exact A.
Qed.
