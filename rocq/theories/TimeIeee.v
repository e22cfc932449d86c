(** Time steps in IEEE doubles: the returned minimum, and sub-stepping. *)
From Coq Require Import List Arith ZArith QArith Bool Lia Reals Lra.
From Coq Require Import Floats.SpecFloat.
From Flocq Require Import Core BinarySingleNaN.
From Verif Require Import Outcome Arith Problem LoadBalancing BalancerSpec BalancerProofs BalanceFacts F64Facts WorkFacts MixtureFraction ChemistryModel
  ChemStep ChemCells ChemResults Ieee SweepIeee.
Import ListNotations.
Local Open Scope nat_scope.

(** ** The smallest time step *)

Lemma f64_trans (x y z : spec_float) : nltb F64 x y = true -> nltb F64 y z = true -> nltb F64 x z = true.
Proof.
  change (SFltb x y = true -> SFltb y z = true -> SFltb x z = true). intros H1 H2.
  assert (N : is_nan x = false /\ is_nan y = false /\ is_nan z = false).
  { destruct x as [| | |], y as [| | |], z as [| | |]; try discriminate; auto. }
  destruct N as (Nx & Ny & Nz).
  apply (f64_ltb_key x y Nx Ny) in H1. apply (f64_ltb_key y z Ny Nz) in H2. apply (f64_ltb_key x z Nx Nz).
  destruct (f_key x) as [[? ?] ?], (f_key y) as [[? ?] ?], (f_key z) as [[? ?] ?]. simpl in *. lia.
Qed.

Lemma f64_not_lt (x y : spec_float) : is_nan x = false -> is_nan y = false ->
  nltb F64 x y = false -> nleb F64 y x = true.
Proof.
  change (is_nan x = false -> is_nan y = false -> SFltb x y = false -> SFleb y x = true).
  intros Nx Ny. unfold SFltb, SFleb, SFcompare.
  destruct x as [sx|[]| |[] mx ex], y as [sy|[]| |[] my ey]; try discriminate; auto;
    rewrite (Z.compare_antisym ex ey); destruct (ex ?= ey)%Z; cbn; try discriminate; auto;
    change (Pos.compare_cont Eq mx my) with (Pos.compare mx my); change (Pos.compare_cont Eq my mx) with (Pos.compare my mx);
    rewrite (Pos.compare_antisym mx my); destruct (Pos.compare mx my); cbn; try discriminate; auto.
Qed.

(** Minimum of a list as the code computes it: nothing is smaller, and it is not NaN. *)
Lemma fold_min64 (ss : list (solution F64)) : forall t : num F64, is_nan t = false ->
  let r := fold_left (fun t s => foam_min F64 (s_deltaTChem s) t) ss t in
  is_nan r = false /\ nltb F64 t r = false /\ forall s, In s ss -> nltb F64 (s_deltaTChem s) r = false.
Proof.
  induction ss as [|s ss IH]; intros t Ht r.
  - split; [exact Ht|]. split; [apply f64_irrefl|intros ? []].
  - cbn [fold_left] in r. set (t' := foam_min F64 (s_deltaTChem s) t) in *.
    assert (N : is_nan t' = false).
    { unfold t', foam_min. destruct (nltb F64 (s_deltaTChem s) t) eqn:E; [|exact Ht].
      change (SFltb (s_deltaTChem s) t = true) in E. destruct (s_deltaTChem s : spec_float), (t : spec_float); try discriminate; reflexivity. }
    destruct (IH t' N) as (R1 & R2 & R3). fold r in R1, R2, R3.
    assert (K : forall x, nltb F64 x t' = false -> nltb F64 x r = false).
    { intros x Hx. destruct (nltb F64 x r) eqn:E; [|reflexivity].
      destruct (is_nan x) eqn:Nx.
      { destruct (x : spec_float); try discriminate. }
      assert (L := f64_not_lt t' r N R1 R2).
      change (SFleb r t' = true) in L. change (SFltb x r = true) in E. change (SFltb x t' = false) in Hx.
      apply (f64_ltb_key x r Nx R1) in E.
      assert (NL : ~ key_lt (f_key x) (f_key t')).
      { intros X. apply (f64_ltb_key x t' Nx N) in X. congruence. }
      assert (NL2 : ~ key_lt (f_key t') (f_key r)).
      { intros X. apply (f64_ltb_key t' r N R1) in X. change (SFltb t' r = false) in R2. congruence. }
      exfalso. destruct (f_key x) as [[? ?] ?], (f_key t') as [[? ?] ?], (f_key r) as [[? ?] ?]. simpl in *. lia. }
    split; [exact R1|]. split.
    + apply K. unfold t', foam_min. destruct (nltb F64 (s_deltaTChem s) t) eqn:E; [|apply f64_irrefl].
      destruct (nltb F64 t (s_deltaTChem s)) eqn:E'; [|reflexivity].
      pose proof (f64_trans _ _ _ E E') as X. rewrite f64_irrefl in X. discriminate.
    + intros x [<-|Hx]; [|apply R3; exact Hx]. apply K. unfold t', foam_min.
      destruct (nltb F64 (s_deltaTChem s) t) eqn:E; [apply f64_irrefl|exact E].
Qed.

Section Chem.
  Context {H : Type}.
  Variable kern : H -> kcell F64 -> outcome (kcell F64 * H).

  Theorem dtmin64 fuel cfg dbg par sortf tms ranks outs q r o n :
    g_chem cfg = true -> mapper_ok (g_nSpecie cfg) (g_mapper cfg) -> sort_contract sortf ->
    par = true \/ length ranks <= 1 ->
    solve_all kern fuel cfg dbg par sortf tms ranks = Ok outs ->
    nth_error ranks q = Some r -> nth_error outs q = Some o -> meshed (g_nSpecie cfg) n r ->
    nleb F64 (o_dtmin o) (great F64) = true /\
    forall i (x : num F64), i < n -> nth_error (m_ref (o_state o)) i = Some 2 -> nth_error (m_dtc (o_state o)) i = Some x ->
      nltb F64 x (o_dtmin o) = false /\ (is_nan x = false -> nleb F64 (o_dtmin o) x = true).
  Proof.
    intros Hch MO Hs Hpar E Hr Ho HM.
    destruct (cells_result kern fuel cfg dbg par sortf tms ranks outs Hch MO Hs Hpar E q r o n Hr Ho HM) as (ss & Ed & D).
    destruct (fold_min64 ss (great F64) eq_refl) as (F0 & F1 & F2). rewrite <- Ed in F0, F1, F2.
    split; [apply f64_not_lt; [reflexivity|exact F0|exact F1]|].
    intros i x Hi Hl Hx.
    assert (L : nltb F64 x (o_dtmin o) = false).
    { pose proof (proj1 (proj1 (labels kern fuel cfg dbg par sortf tms ranks outs Hch MO Hs Hpar E q r o n Hr Ho HM i Hi)) Hl) as Un.
      destruct HM as [SF SM]. apply (cells_unmapped cfg n _ _ SF MO) in Un; auto.
      apply In_nth_error in Un as (k & Hk).
      destruct (Forall2_nth_error _ _ _ D k _ Hk) as (s & Hsk & _ & _ & _ & (_ & C2 & _)).
      rewrite Hx in C2. inversion C2; subst x. apply F2. eapply nth_error_In; eauto. }
    split; [exact L|]. intros Nx. apply f64_not_lt; assumption.
  Qed.

  Theorem dtmin64_unmapped fuel cfg dbg par sortf tms ranks outs q r o n i (x : num F64) :
    g_chem cfg = true -> mp_active (g_mapper cfg) = false -> sort_contract sortf ->
    par = true \/ length ranks <= 1 ->
    solve_all kern fuel cfg dbg par sortf tms ranks = Ok outs ->
    nth_error ranks q = Some r -> nth_error outs q = Some o -> meshed (g_nSpecie cfg) n r ->
    i < n -> nth_error (m_dtc (o_state o)) i = Some x ->
    nltb F64 x (o_dtmin o) = false /\ (is_nan x = false -> nleb F64 (o_dtmin o) x = true).
  Proof.
    intros Hch Ha Hs Hpar E Hr Ho HM Hi Hx.
    assert (MO : mapper_ok (g_nSpecie cfg) (g_mapper cfg)) by (intros C; congruence).
    apply (proj2 (dtmin64 fuel cfg dbg par sortf tms ranks outs q r o n Hch MO Hs Hpar E Hr Ho HM) i x Hi); [|exact Hx].
    apply (labels kern fuel cfg dbg par sortf tms ranks outs Hch MO Hs Hpar E q r o n Hr Ho HM i Hi).
    intros i0 ((C & _) & _). destruct C as [C _]. congruence.
  Qed.
End Chem.

(** ** Sub-stepping *)
Section Substeps.
  Local Open Scope R_scope.
  Context {H : Type}.
  Variable kern : H -> kcell F64 -> outcome (kcell F64 * H).

  (** Every call consumes a finite time, not negative and at most what it was asked for; not a function of /repo. *)
  Definition consumes : Prop := forall h (x : kcell F64) x1 h1, kern h x = Ok (x1, h1) ->
    fin64 (k_dt x) -> 0 <= val (k_dt x) -> fin64 (k_dt x1) /\ 0 <= val (k_dt x1) <= val (k_dt x).

  (** Sum of the consumed times without rounding; not a function of /repo. *)
  Definition consumed (l : list (num F64)) : R := fold_right (fun d s => val d + s) 0 l.

  Lemma val_big x : fin64 x -> Rabs (val x) < big.
  Proof. intros F. destruct (fin64_B x F) as (b & -> & _ & ->). apply abs_B2R_lt_emax. Qed.

  Lemma calls64 (t0 : R) : consumes -> forall h t x l x' h', calls kern h t x l x' h' ->
    fin64 t -> 0 <= val t <= t0 ->
    val t - consumed l <= val (small F64) + INR (length l) * u * t0 /\
    consumed l - val t <= INR (length l) * u * t0.
  Proof.
    intros K h t x l x' h' C. induction C as [h t x E|h t x x1 h1 l x' h' E Ek C IH]; intros Ft Ht.
    - destruct small64 as [Fs _]. rewrite (ltb64 _ _ Fs Ft) in E. cbn [consumed fold_right length INR].
      destruct (Rlt_bool_spec (val (small F64)) (val t)); [discriminate|]. lra.
    - destruct (K _ _ _ _ Ek) as [Fd Hd]; [exact Ft|cbn [k_dt]; lra|]. cbn [k_dt] in Hd.
      assert (R : 0 <= val t - val (k_dt x1) <= val t) by lra.
      assert (B0 : 0 <= fl (val t - val (k_dt x1))) by (apply fl_ge_repr; [apply repr_0|exact (proj1 R)]).
      assert (B1 : fl (val t - val (k_dt x1)) <= val t) by (apply fl_le_repr; [apply val_repr; exact Ft|exact (proj2 R)]).
      destruct (sub64 t (k_dt x1) Ft Fd) as [F V].
      { rewrite Rabs_pos_eq by exact B0. eapply Rle_lt_trans; [exact B1|].
        eapply Rle_lt_trans; [apply Rle_abs|]. apply val_big; exact Ft. }
      destruct (IH F) as [I1 I2]; [rewrite V; lra|].
      pose proof (fl_sub_err _ _ (val_repr t Ft) (val_repr (k_dt x1) Fd)) as Er. rewrite <- V in Er.
      rewrite (Rabs_pos_eq (val t - val (k_dt x1)) (proj1 R)) in Er. pose proof u_pos as Up.
      assert (Er' : u * (val t - val (k_dt x1)) <= u * t0) by (apply Rmult_le_compat_l; lra).
      apply Rabs_le_inv in Er. destruct Er as [E1 E2].
      cbn [consumed fold_right length]. fold (consumed l). rewrite S_INR.
      replace ((INR (length l) + 1) * u * t0) with (INR (length l) * u * t0 + u * t0) by ring.
      split; lra.
  Qed.

  Theorem substeps64 h t x l x' h' : consumes -> calls kern h t x l x' h' ->
    fin64 t -> 0 <= val t ->
    val t - val (small F64) - INR (length l) * u * val t <= consumed l <= val t + INR (length l) * u * val t.
  Proof.
    intros K C Ft Ht. destruct (calls64 (val t) K h t x l x' h' C Ft) as [A B]; [lra|]. lra.
  Qed.
End Substeps.
