(** Properties C87 and C88: time steps and mixture fractions in IEEE doubles.
    Vocabulary: the heads of Ieee.v ([fin64], [val], [u]), TimeIeee.v ([consumes], [consumed]), MixIeee.v ([sane_species],
    [sane_fractions], [coefficient], [bilger_sum]) and ChemStep.v ([calls], [meshed]). *)
From Coq Require Import List Arith ZArith QArith Bool Lia Reals Lra.
From Coq Require Import Floats.SpecFloat.
From Verif Require Import Outcome Arith Problem LoadBalancing BalancerSpec BalancerProofs F64Facts MixtureFraction ChemistryModel ChemCells ChemStep
  Ieee SweepIeee MechReal TimeIeee MixIeee PropBalancer PropChemistry.
Import ListNotations.
Local Open Scope nat_scope.

(** ** C87: time steps in doubles *)

(** No integrated cell stores less than the returned time step. *)
Theorem C87_smallest :
  forall (H : Type) (kern : H -> kcell F64 -> outcome (kcell F64 * H)) fuel cfg dbg par sortf tms ranks outs q r o n,
    g_chem cfg = true -> mapper_ok (g_nSpecie cfg) (g_mapper cfg) -> sort_contract sortf ->
    par = true \/ length ranks <= 1 ->
    solve_all kern fuel cfg dbg par sortf tms ranks = Ok outs ->
    nth_error ranks q = Some r -> nth_error outs q = Some o -> meshed (g_nSpecie cfg) n r ->
    nleb F64 (o_dtmin o) (great F64) = true /\
    forall i (x : num F64), i < n -> nth_error (m_ref (o_state o)) i = Some 2 -> nth_error (m_dtc (o_state o)) i = Some x ->
      nltb F64 x (o_dtmin o) = false /\ (is_nan x = false -> nleb F64 (o_dtmin o) x = true).
Proof. exact @dtmin64. Qed.
Print Assumptions C87_smallest.

(** Without mapping this covers every cell. *)
Theorem C87_smallest_unmapped :
  forall (H : Type) (kern : H -> kcell F64 -> outcome (kcell F64 * H)) fuel cfg dbg par sortf tms ranks outs q r o n i (x : num F64),
    g_chem cfg = true -> mp_active (g_mapper cfg) = false -> sort_contract sortf ->
    par = true \/ length ranks <= 1 ->
    solve_all kern fuel cfg dbg par sortf tms ranks = Ok outs ->
    nth_error ranks q = Some r -> nth_error outs q = Some o -> meshed (g_nSpecie cfg) n r ->
    i < n -> nth_error (m_dtc (o_state o)) i = Some x ->
    nltb F64 x (o_dtmin o) = false /\ (is_nan x = false -> nleb F64 (o_dtmin o) x = true).
Proof. exact @dtmin64_unmapped. Qed.
Print Assumptions C87_smallest_unmapped.

(** A solver proposing NaN for cells hotter than 4. *)
Definition nan_kern (h : nat) (x : kcell F64) : outcome (kcell F64 * nat) :=
  Ok (mkCell (k_p x) (k_T x) (k_c x) (k_dt x) (if nltb F64 (lit F64 4) (k_T x) then S754_nan else k_T x), S h).

(** One rank, cells at 5, 3 and 6: NaN is replaced by the maximum 6, the time step returned is 3. *)
Definition nan_rank : rankin F64 nat :=
  let l := map (lit F64) in
  (mkIn (mkFields [l [1; 1; 1]] (l [5; 3; 6]) (l [1; 1; 1]) (l [2; 2; 2])) (DField (l [1; 1; 1]))
       (mkM [l [0; 0; 0]] (l [8; 8; 8]) (l [4; 4; 4]) (repeat 0 3)%nat) (0, 0)%nat)%Q.

Example C87_case :
  match solve_all nan_kern 9 (ex_cfg F64 true false false) false false isort (ex_tms F64) [nan_rank] with
  | Ok [o] => SFeqb (o_dtmin o) (lit F64 3) && match nth_error (m_dtc (o_state o)) 0, nth_error (m_dtc (o_state o)) 1 with
                | Some x, Some y => SFeqb x (lit F64 6) && SFeqb y (lit F64 3) | _, _ => false end
  | _ => false
  end = true.
Proof. vm_compute. reflexivity. Qed.

(** What the sub-steps of a cell add up to. *)
Theorem C87_substeps :
  forall (H : Type) (kern : H -> kcell F64 -> outcome (kcell F64 * H)) h t x l x' h',
    consumes kern -> calls kern h t x l x' h' -> fin64 t -> (0 <= val t)%R ->
    (val t - val (small F64) - INR (length l) * u * val t <= consumed l <= val t + INR (length l) * u * val t)%R.
Proof. exact @substeps64. Qed.
Print Assumptions C87_substeps.

(** A solver that takes steps of one half, or what is left. *)
Definition half_kern (h : nat) (x : kcell F64) : outcome (kcell F64 * nat) :=
  Ok (mkCell (k_p x) (k_T x) (k_c x) (if nltb F64 (lit F64 (1 # 2)) (k_dt x) then lit F64 (1 # 2) else k_dt x) (k_sub x), S h).

Example C87_case_consumes : consumes half_kern.
Proof.
  intros h x x1 h1 E F P. unfold half_kern in E.
  destruct literal_half as [F2 V2]. pose proof (ltb64 _ _ F2 F) as L.
  destruct (nltb F64 (lit F64 (1 # 2)) (k_dt x)).
  - assert (E' : x1 = mkCell (k_p x) (k_T x) (k_c x) (lit F64 (1 # 2)) (k_sub x)) by congruence. subst x1. cbn [k_dt].
    destruct (Flocq.Core.Raux.Rlt_bool_spec (val (lit F64 (1 # 2))) (val (k_dt x))) as [C|C]; [|discriminate].
    split; [exact F2|]. rewrite V2 in *. lra.
  - assert (E' : x1 = mkCell (k_p x) (k_T x) (k_c x) (k_dt x) (k_sub x)) by congruence. subst x1. cbn [k_dt].
    split; [exact F|]. lra.
Qed.

Example C87_case_calls : forall p T c s, exists x h',
  calls half_kern 0 (lit F64 (5 # 4)) (mkCell p T c (lit F64 (5 # 4)) s) [lit F64 (1 # 2); lit F64 (1 # 2); lit F64 (1 # 4)] x h'.
Proof.
  intros p T c s. eexists. eexists.
  apply (calls_step half_kern 0 (lit F64 (5 # 4)) _ (mkCell p T c (lit F64 (1 # 2)) s) 1); [reflexivity|reflexivity|].
  eapply (calls_step half_kern 1 _ _ (mkCell p T c (lit F64 (1 # 2)) s) 2); [reflexivity|reflexivity|].
  eapply (calls_step half_kern 2 _ _ (mkCell p T c (lit F64 (1 # 4)) s) 3); [reflexivity|reflexivity|].
  apply calls_done. reflexivity.
Qed.

(** ** C88: the mixture fraction in doubles *)
Local Open Scope R_scope.

(** Computed against exact mixture fraction. *)
Theorem C88_error :
  forall (sp : list (speciesData F64)) mf Y,
    (forall s, In s sp -> sane_species s) -> INR (length sp) <= 2 ^ 20 ->
    sane_fractions (map y_ox sp) -> sane_fractions (map y_fu sp) -> initialize sp = Ok mf ->
    let D := bilger_sum sp (map y_fu sp) - bilger_sum sp (map y_ox sp) in
    / 1000 <= Rabs D -> sane_fractions Y -> (length Y <= length sp)%nat ->
    let Z := (bilger_sum sp Y - bilger_sum sp (map y_ox sp)) / D in
    exists z, massFractionToMixtureFraction mf Y = Ok z /\ fin64 z /\
      Rabs (val z - Z) <= 90 * INR (length sp) * u * (1 + Rabs Z) / Rabs D.
Proof. exact (fun sp mf Y H1 H2 H3 H4 H5 HD => mixture64 sp mf H1 H2 H3 H4 H5 HD Y). Qed.
Print Assumptions C88_error.

(** The streams get exactly 0 and 1. *)
Theorem C88_streams :
  forall (sp : list (speciesData F64)) mf,
    (forall s, In s sp -> sane_species s) -> INR (length sp) <= 2 ^ 20 ->
    sane_fractions (map y_ox sp) -> sane_fractions (map y_fu sp) -> initialize sp = Ok mf ->
    / 1000 <= Rabs (bilger_sum sp (map y_fu sp) - bilger_sum sp (map y_ox sp)) ->
    exists z0 z1,
      massFractionToMixtureFraction mf (map y_ox sp) = Ok z0 /\ fin64 z0 /\ val z0 = 0 /\
      massFractionToMixtureFraction mf (map y_fu sp) = Ok z1 /\ fin64 z1 /\ val z1 = 1.
Proof. exact streams64. Qed.
Print Assumptions C88_streams.

(** The mapper decides as without rounding except near the tolerance. *)
Theorem C88_decision :
  forall (sp : list (speciesData F64)) mf (tol dT : num F64) Y,
    (forall s, In s sp -> sane_species s) -> INR (length sp) <= 2 ^ 20 ->
    sane_fractions (map y_ox sp) -> sane_fractions (map y_fu sp) -> initialize sp = Ok mf ->
    let D := bilger_sum sp (map y_fu sp) - bilger_sum sp (map y_ox sp) in
    / 1000 <= Rabs D -> sane_fractions Y -> (length Y <= length sp)%nat -> fin64 tol ->
    let Z := (bilger_sum sp Y - bilger_sum sp (map y_ox sp)) / D in
    let e := 90 * INR (length sp) * u * (1 + Rabs Z) / Rabs D in
    (Z + e < val tol -> shouldMap (mkMapper true tol dT mf) Y = Ok true) /\
    (val tol + e <= Z -> shouldMap (mkMapper true tol dT mf) Y = Ok false).
Proof. exact (fun sp mf tol dT Y H1 H2 H3 H4 H5 HD => should64 sp mf H1 H2 H3 H4 H5 HD tol dT Y). Qed.
Print Assumptions C88_decision.

(** Methane against a mixture of oxygen and nitrogen, 1:3. *)
Definition ex_species64 : list (speciesData F64) :=
  [ @mkSpecies F64 (Some (Some 1%Z, Some 4%Z, None)) (lit F64 16) None (Some (one F64));
    @mkSpecies F64 (Some (None, None, Some 2%Z)) (lit F64 32) (Some (lit F64 (1 # 4))) None;
    @mkSpecies F64 (Some (None, None, None)) (lit F64 28) (Some (lit F64 (3 # 4))) None ].

Ltac literal := split; [split; vm_compute; reflexivity|unfold val; cbn; unfold Flocq.Core.Defs.F2R; cbn; lra].

Example C88_case :
  (forall s, In s ex_species64 -> sane_species s) /\ INR (length ex_species64) <= 2 ^ 20 /\
  sane_fractions (map y_ox ex_species64) /\ sane_fractions (map y_fu ex_species64) /\
  (exists mf, initialize ex_species64 = Ok mf) /\
  / 1000 <= Rabs (bilger_sum ex_species64 (map y_fu ex_species64) - bilger_sum ex_species64 (map y_ox ex_species64)).
Proof.
  assert (L16 : fin64 (lit F64 16) /\ val (lit F64 16) = 16) by literal.
  assert (L32 : fin64 (lit F64 32) /\ val (lit F64 32) = 32) by literal.
  assert (L28 : fin64 (lit F64 28) /\ val (lit F64 28) = 28) by literal.
  assert (L1 : fin64 (one F64) /\ val (one F64) = 1) by literal.
  assert (L14 : fin64 (lit F64 (1 # 4)) /\ val (lit F64 (1 # 4)) = 1 / 4) by literal.
  assert (L34 : fin64 (lit F64 (3 # 4)) /\ val (lit F64 (3 # 4)) = 3 / 4) by literal.
  destruct L16 as [F16 V16], L32 as [F32 V32], L28 as [F28 V28], L1 as [F1 V1], L14 as [F14 V14], L34 as [F34 V34].
  destruct zero64 as [F0 V0].
  assert (P : 1 <= 2 ^ 20 /\ 4 <= 2 ^ 20 /\ 0 <= 2 ^ 20) by (repeat split; lra).
  split; [|split; [cbn; lra|split; [|split; [|split]]]].
  - intros s [<-|[<-|[<-|[]]]]; unfold sane_species; cbn [sp_elements sp_W]; do 3 eexists; (split; [reflexivity|]); unfold count;
      rewrite ?V16, ?V32, ?V28; repeat split; try (apply F16 || apply F32 || apply F28); lra.
  - split; [|cbn [ex_species64 map y_ox or_default sp_ox Rsum]; rewrite V0, V14, V34; lra].
    intros y [<-|[<-|[<-|[]]]]; cbn [y_ox or_default sp_ox]; (split; [assumption|]); rewrite ?V0, ?V14, ?V34; lra.
  - split; [|cbn [ex_species64 map y_fu or_default sp_fu Rsum]; rewrite V0, V1; lra].
    intros y [<-|[<-|[<-|[]]]]; cbn [y_fu or_default sp_fu]; (split; [assumption|]); rewrite ?V0, ?V1; lra.
  - match goal with |- exists mf, ?X = Ok mf =>
      assert (E : match X with Ok _ => true | _ => false end = true) by reflexivity;
      destruct X as [mf| | |]; [exists mf; reflexivity|discriminate E..] end.
  - unfold bilger_sum. cbn [ex_species64 map combine y_ox y_fu or_default sp_ox sp_fu fst snd Rsum].
    unfold coefficient. cbn [sp_elements sp_W]. unfold count. rewrite V0, V1, V14, V34, V16, V32, V28.
    rewrite Rabs_pos_eq; lra.
Qed.
