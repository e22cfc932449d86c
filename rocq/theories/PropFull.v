(** Properties C78 and following: the columns of the Jacobian of drm19 that belong to the mass fractions.
    Vocabulary: MechFullC.v ([element_error], [column_error], [dilution_size]), MechFullF.v ([fall_factor], [collider_share],
    [fall_terms]), MechFullH.v ([row_size], [fraction_error]); [upd y j t] is [y] with [t] at place [j]; the rest as in PropJac.v. *)
From Coq Require Import List ZArith NArith QArith Qabs Qreals Reals Bool String Lra Lia.
From Verif Require Import Outcome Arith MechLang MechSrc MechReal MechChem Mechanisms
  MechSpec MechRate MechPmod MechConc MechRhs MechNames MechData MechNasa MechKin MechArr MechLaw
  MechTroe MechJac MechJacT MechJacD MechJacR MechJacE MechJacF MechJacC MechJacW MechJacX
  MechFull MechFullD MechFullV MechFullR MechFullC MechFullF MechFullH PropMech PropJac.
Import ListNotations.
Local Open Scope R_scope.

(** ** C78: derivatives with respect to the mass fractions *)

(** Element (k+1) of column (j+1) is the derivative of element (k+1) of [dydt] with respect to mass fraction j at constant pressure
    and temperature (the last mass fraction makes up the rest), for a species k in no fall-off reaction, or only in such that
    cannot run whatever mass fraction j is, another species being absent on either side. *)
Theorem C78_columns : forall (T p : R) (y dB0 : list R),
  List.length y = 20%nat -> 0 < T -> 0 < p -> (forall k, (k < List.length y)%nat -> 0 <= nth k y 0) -> Rsum y <= 1 -> List.length dB0 = 21%nat ->
  exists J : list R,
    lib_jacob (A := RA) exact_libm (library drm19) drm19_jac_all p (T :: y) (repeat 0 (21 * 21)) dB0 = Ok J /\
    List.length J = (21 * 21)%nat /\
    forall j k, (j < 20)%nat -> (k < 20)%nat ->
      (forall i, (i < List.length (ch_reactions (chem drm19)))%nat -> rx_kind (rxn (chem drm19) i) = Falloff ->
         nu (chem drm19) i k = 0 \/
         ((exists s, In s (rx_lhs (rxn (chem drm19) i)) /\ (0 < snd s)%nat /\ fst s <> j /\ (fst s < List.length y)%nat /\ nth (fst s) y 0 = 0) /\
          (rx_rev (rxn (chem drm19) i) = true ->
           exists s, In s (rx_rhs (rxn (chem drm19) i)) /\ (0 < snd s)%nat /\ fst s <> j /\ (fst s < List.length y)%nat /\ nth (fst s) y 0 = 0))) ->
      exists D, derivable_pt_lim (fun t => dydt_at drm19 p (upd y j t) (k + 1) T) (nth j y 0) D /\
        Rabs (nth ((j + 1) * 21 + (k + 1)) J 0 - D) <=
        W drm19 k * Rsumn (List.length (ch_reactions (chem drm19))) (fun i => Rabs (nu (chem drm19) i k) * element_error drm19 T p y i j).
Proof. exact species_columns_drm19. Qed.
Print Assumptions C78_columns.

(** O, O2, OH, H2O, HO2, CH2(S) and CO2 are in no fall-off reaction, but O2 in 20 others; the mixture is burning methane. *)
Definition ex_burn : list R := [1/100; 1/1000; 1/1000; 1/10; 1/100; 5/100; 1/1000; 1/1000; 1/1000; 1/100; 2/100; 3/100; 5/100; 1/1000; 1/1000; 1/1000; 1/1000; 1/1000; 1/1000; 0].

Lemma ex_burn_nonneg : forall k, (k < List.length ex_burn)%nat -> 0 <= nth k ex_burn 0.
Proof. intros k H. do 20 (destruct k as [|k]; [cbn; lra|]). cbn in H. lia. Qed.

Example C78_case :
  List.length ex_burn = 20%nat /\ (forall k, (k < List.length ex_burn)%nat -> 0 <= nth k ex_burn 0) /\ Rsum ex_burn <= 1 /\
  (forall i k, (i < List.length (ch_reactions (chem drm19)))%nat -> rx_kind (rxn (chem drm19) i) = Falloff -> In k [2; 3; 4; 5; 6; 8; 12]%nat -> nu (chem drm19) i k = 0) /\
  List.length (filter (fun i => negb (Qeq_bool (net (rxn (chem drm19) i) 3) 0)) (seq 0 (List.length (ch_reactions (chem drm19))))) = 20%nat.
Proof.
  split; [reflexivity|]. split; [exact ex_burn_nonneg|]. split; [cbn; lra|]. split; [|vm_compute; reflexivity]. intros i k Hi Kf Hk.
  assert (F : forallb (fun i => match rx_kind (rxn (chem drm19) i) with
      Falloff => forallb (fun k => Qeq_bool (net (rxn (chem drm19) i) k) 0) [2; 3; 4; 5; 6; 8; 12]%nat | _ => true end)
    (seq 0 (List.length (ch_reactions (chem drm19)))) = true) by (vm_compute; reflexivity).
  rewrite forallb_forall in F. specialize (F i ltac:(apply in_seq; lia)). rewrite Kf, forallb_forall in F.
  specialize (F k Hk). unfold nu. apply Qeq_bool_eq, Qeq_eqR in F. rewrite F. apply Q2R_0.
Qed.

(** ** C79: the contributions of the reactions, fall-off included *)

(** Every such element is, up to rounding, the weight of the species times the sum over the reactions of the molecules formed times one number
    per reaction and column: the derivative of the rate of progress over the density, for a fall-off reaction by the product
    rule with the fall-off factor at parameters near those of chem.cti (the difference between the factor and the
    modification computed by [get_rxn_pres_mod] enters in one of the terms). *)
Theorem C79_reactions : forall (T p : R) (y dB0 : list R),
  List.length y = 20%nat -> 0 < T -> 0 < p -> (forall k, (k < List.length y)%nat -> 0 <= nth k y 0) -> Rsum y <= 1 -> List.length dB0 = 21%nat ->
  exists (J : list R) (s : nat -> nat -> R),
    lib_jacob (A := RA) exact_libm (library drm19) drm19_jac_all p (T :: y) (repeat 0 (21 * 21)) dB0 = Ok J /\
    List.length J = (21 * 21)%nat /\
    (forall j k, (j < 20)%nat -> (k < 20)%nat ->
      Rabs (nth ((j + 1) * 21 + (k + 1)) J 0 -
            W drm19 k * Rsumn (List.length (ch_reactions (chem drm19))) (fun i => nu (chem drm19) i k * s i j)) <=
      Q2R (Qmake 1 1125899906842624) * (W drm19 k * Rsumn (List.length (ch_reactions (chem drm19)))
        (fun i => Rabs (nu (chem drm19) i k) * (Rabs (s i j) + 2 * dilution_size drm19 T p y i j)))) /\
    forall i, (i < List.length (ch_reactions (chem drm19)))%nat ->
      (rx_kind (rxn (chem drm19) i) <> Falloff -> forall j, (j < 20)%nat ->
         exists d, derivable_pt_lim (fun t => specific_rate drm19 p (upd y j t) i T) (nth j y 0) d /\
           Rabs (s i j - d) <= column_error drm19 T p y i j) /\
      (rx_kind (rxn (chem drm19) i) = Falloff ->
         exists t low c e z, k_troe (kin drm19 i) = Some t /\ k_low (kin drm19 i) = Some low /\
           near_ratio low (k_high (kin drm19 i)) c e /\ near_centre t z /\
           forall j, (j < 20)%nat ->
           exists U, derivable_pt_lim (fun t => unmodified drm19 p (upd y j t) i T) (nth j y 0) U /\
             (Q2R tiny < centre_at z T -> Q2R tiny < pr_at drm19 p y i low c e T ->
              troe_B (centre_at z T) (pr_at drm19 p y i low c e T) <> 0 ->
              exists D, derivable_pt_lim (fun t => ln (fall_factor (centre_at z T) (pr_at drm19 p (upd y j t) i low c e T))) (nth j y 0) D /\
                Rabs (s i j -
                  (modifier drm19 p y i T * (U + unmodified drm19 p y i T * D) +
                   (fall_factor (centre_at z T) (pr_at drm19 p y i low c e T) - modifier drm19 p y i T) *
                   (unmodified drm19 p y i T * (troe_slope (centre_at z T) (pr_at drm19 p y i low c e T) 0 1 * collider_share drm19 T p y i j)))) <=
                Q2R (Qmake 1 1125899906842624) * fall_terms drm19 T p y i j (centre_at z T) (pr_at drm19 p y i low c e T) ((1 + rev_gap drm19 T i) * kr_at drm19 T p i) +
                rev_gap drm19 T i * reverse_size drm19 T p y i j)).
Proof. exact species_reactions_drm19. Qed.
Print Assumptions C79_reactions.

(** The conditions of the fall-off part hold of reaction 29 in the mixture of C76. *)
Example C79_case :
  (29 < List.length (ch_reactions (chem drm19)))%nat /\ rx_kind (rxn (chem drm19) 29) = Falloff /\
  List.length ex_mixF = 20%nat /\ (forall k, (k < List.length ex_mixF)%nat -> 0 <= nth k ex_mixF 0) /\ Rsum ex_mixF <= 1 /\
  exists low t, k_low (kin drm19 29) = Some low /\ k_troe (kin drm19 29) = Some t /\
  forall c e z, near_ratio low (k_high (kin drm19 29)) c e -> near_centre t z ->
    Q2R tiny < centre_at z 2000 /\ Q2R tiny < pr_at drm19 100000 ex_mixF 29 low c e 2000 /\
    troe_B (centre_at z 2000) (pr_at drm19 100000 ex_mixF 29 low c e 2000) <> 0.
Proof. destruct C76_case as (A1 & A2 & A3 & A4 & A5 & _ & A6). repeat (split; [assumption|]). exact A6. Qed.

(** ** C80: the row of the temperature *)

(** The first element of a column is the derivative of the rate of change of the temperature with respect to the mass fraction if the
    others are derivatives of the others; their errors enter with the enthalpies over the heat capacity. *)
Theorem C80_temperature : forall (T p : R) (y dB0 : list R),
  List.length y = 20%nat -> 200 <= T <= 5000 -> 0 < p -> (forall k, (k < List.length y)%nat -> 0 <= nth k y 0) -> Rsum y <= 1 -> List.length dB0 = 21%nat ->
  exists J : list R,
    lib_jacob (A := RA) exact_libm (library drm19) drm19_jac_all p (T :: y) (repeat 0 (21 * 21)) dB0 = Ok J /\
    List.length J = (21 * 21)%nat /\ 0 < mean_capacity drm19 y T /\
    forall j, (j < 20)%nat ->
    forall D : nat -> R, (forall k, (k < 20)%nat -> derivable_pt_lim (fun t => dydt_at drm19 p (upd y j t) (k + 1) T) (nth j y 0) (D k)) ->
    exists D0, derivable_pt_lim (fun t => dydt_at drm19 p (upd y j t) 0 T) (nth j y 0) D0 /\
      Rabs (nth ((j + 1) * 21) J 0 - D0 +
            Rsumn 20 (fun k => (nth ((j + 1) * 21 + (k + 1)) J 0 - D k) * enthalpy drm19 k T) / mean_capacity drm19 y T) <=
      Q2R (Qmake 1 1125899906842624) * row_size drm19 p y j T / (mean_capacity drm19 y T * mean_capacity drm19 y T).
Proof. exact species_row_drm19. Qed.
Print Assumptions C80_temperature.

(** So a whole column is the derivative where no fall-off reaction can run whatever its mass fraction is. *)
Theorem C80_column : forall (T p : R) (y dB0 : list R),
  List.length y = 20%nat -> 200 <= T <= 5000 -> 0 < p -> (forall k, (k < List.length y)%nat -> 0 <= nth k y 0) -> Rsum y <= 1 -> List.length dB0 = 21%nat ->
  exists J : list R,
    lib_jacob (A := RA) exact_libm (library drm19) drm19_jac_all p (T :: y) (repeat 0 (21 * 21)) dB0 = Ok J /\
    List.length J = (21 * 21)%nat /\ 0 < mean_capacity drm19 y T /\
    forall j, (j < 20)%nat ->
    (forall i, (i < List.length (ch_reactions (chem drm19)))%nat -> rx_kind (rxn (chem drm19) i) = Falloff ->
       (exists s, In s (rx_lhs (rxn (chem drm19) i)) /\ (0 < snd s)%nat /\ fst s <> j /\ (fst s < List.length y)%nat /\ nth (fst s) y 0 = 0) /\
       (rx_rev (rxn (chem drm19) i) = true ->
        exists s, In s (rx_rhs (rxn (chem drm19) i)) /\ (0 < snd s)%nat /\ fst s <> j /\ (fst s < List.length y)%nat /\ nth (fst s) y 0 = 0)) ->
    exists D : list R,
      (forall k, (k < 21)%nat -> derivable_pt_lim (fun t => dydt_at drm19 p (upd y j t) k T) (nth j y 0) (nth k D 0)) /\
      (forall k, (k < 20)%nat -> Rabs (nth ((j + 1) * 21 + (k + 1)) J 0 - nth (k + 1) D 0) <= fraction_error drm19 T p y j k) /\
      Rabs (nth ((j + 1) * 21) J 0 - nth 0 D 0) <=
        Rsumn 20 (fun k => fraction_error drm19 T p y j k * Rabs (enthalpy drm19 k T)) / mean_capacity drm19 y T +
        Q2R (Qmake 1 1125899906842624) * row_size drm19 p y j T / (mean_capacity drm19 y T * mean_capacity drm19 y T).
Proof. exact species_column_drm19. Qed.
Print Assumptions C80_column.

(** H2, O2, OH and N2: the condition holds of the columns of 13 species, the three of the mixture among them. *)
Example C80_case : forall j, In j [0; 1; 2; 3; 4; 5; 6; 7; 8; 12; 13; 16; 19]%nat ->
  forall i, (i < List.length (ch_reactions (chem drm19)))%nat -> rx_kind (rxn (chem drm19) i) = Falloff -> stuck drm19 ex_mix j i.
Proof.
  intros j Hj i Hi K.
  set (ab := fun j (l : list (nat * nat)) => existsb (fun s => (0 <? snd s)%nat && (fst s <? 20)%nat && negb (Nat.eqb (fst s) j) && negb (existsb (Nat.eqb (fst s)) [0; 3; 4]%nat)) l).
  assert (F : forallb (fun j => forallb (fun i => match rx_kind (rxn (chem drm19) i) with
      Falloff => ab j (rx_lhs (rxn (chem drm19) i)) && ab j (rx_rhs (rxn (chem drm19) i)) | _ => true end)
    (seq 0 (List.length (ch_reactions (chem drm19))))) [0; 1; 2; 3; 4; 5; 6; 7; 8; 12; 13; 16; 19]%nat = true) by (vm_compute; reflexivity).
  rewrite forallb_forall in F. specialize (F j Hj).
  rewrite forallb_forall in F. specialize (F i ltac:(apply in_seq; lia)). rewrite K in F. apply andb_true_iff in F as [F1 F2].
  assert (G : forall l, ab j l = true -> withheld ex_mix j l).
  { intros l Hl. apply existsb_exists in Hl as (s & I & Hl). apply andb_true_iff in Hl as [Hl H3]. apply andb_true_iff in Hl as [Hl H4].
    apply andb_true_iff in Hl as [H1 H2].
    exists s. split; [exact I|]. split; [apply Nat.ltb_lt, H1|]. apply Nat.ltb_lt in H2. apply negb_true_iff in H3, H4.
    split; [apply Nat.eqb_neq, H4|]. split; [exact H2|].
    destruct s as [k n]. cbn [fst] in *. do 20 (destruct k as [|k]; [first [discriminate H3|reflexivity]|]). lia. }
  split; [apply G, F1|intros _; apply G, F2].
Qed.
