(** Integration over an interval with seulex: safety and independence of the past. *)
From Coq Require Import List Arith ZArith QArith Bool Lia.
From Verif Require Import Outcome Arith ChemistryModel ChemFacts ChemBalance OdeSolver Seulex
  SeulexMono SeulexSafe.
Import ListNotations.
Local Open Scope nat_scope.

(** Tolerances for which seulex starts with a fresh Jacobian and a defined order. *)
Definition good_tolerances {A} (cm : cmath A) (n : nat) (absTol relTol : list (num A)) : Prop :=
  length absTol = n /\ length relTol = n /\
  nltb A (jacRedo relTol) (nmul A (lit A 2) (jacRedo relTol)) = true /\
  forall a r, nth_error absTol 0 = Some a -> nth_error relTol 0 = Some r -> order_defined cm a r.

Section Run.
  Context {A : Arith} {S : Type}.
  Variable cm : cmath A.
  Variable lap : lapack A.
  Variable sys : odesys A S.
  Variables absTol relTol : list (num A).
  Variable fuel : nat.
  Notation n := (nEqns sys).
  Notation solver := (fun h x y step => step_solve cm lap sys absTol relTol fuel x y step h).

  Section Sane.
    Hypothesis SS : sys_sane sys.
    Hypothesis N1 : 1 <= n.
    Hypothesis GT : good_tolerances cm n absTol relTol.

    Lemma step_safe x y st m : length y = n -> ss_first st = true \/ ready sys m ->
      safe (step_solve cm lap sys absTol relTol fuel x y st) m
        (fun '(_, y', _) m' => length y' = n /\ ready sys m').
    Proof.
      destruct GT as (LA & LR & HJ & HO). intros Ly HF.
      destruct absTol as [|a0 aT] eqn:Ea; [simpl in LA; lia|].
      destruct relTol as [|r0 rT] eqn:Er; [simpl in LR; lia|]. rewrite <- Ea, <- Er in *.
      apply (safe_step sys SS N1 cm lap absTol relTol LA LR a0 r0); auto; try (rewrite Ea || rewrite Er; reflexivity).
      apply HO; [rewrite Ea|rewrite Er]; reflexivity.
    Qed.

    Lemma drive_safe left : forall nStep xs xe m x y st,
      length y = n -> ss_first st = true \/ ready sys m ->
      match drive solver left nStep xs xe m x y st with
      | Ok (y', _, m') => length y' = n
      | UB => False
      | _ => True
      end.
    Proof.
      induction left as [|l IH]; intros nStep xs xe m x y st Ly HF; cbn [drive]; auto. cbv zeta.
      set (s2 := if nltb A (zero A) _ then _ else _).
      assert (Hf2 : ss_first s2 = true \/ ready sys m).
      { unfold s2. destruct (nltb A (zero A) _); simpl; auto. }
      assert (P := step_safe x y s2 m Ly Hf2). unfold safe in P.
      destruct (step_solve cm lap sys absTol relTol fuel x y s2 m) as [[[[x' y'] s3] m']| | |]; cbn [bind]; auto.
      destruct P as [L' R']. destruct (nleb A (zero A) _); [exact L'|apply IH; auto].
    Qed.
  End Sane.

  Section Memoryless.
    Hypothesis SM : sys_memoryless sys.

    Lemma drive_mono left : forall nStep xs xe m1 m2 x y st, below m1 m2 ->
      match drive solver left nStep xs xe m1 x y st with
      | Ok (r, m1') => exists m2', drive solver left nStep xs xe m2 x y st = Ok (r, m2') /\ below m1' m2'
      | UB => True
      | Fatal => drive solver left nStep xs xe m2 x y st = Fatal
      | Diverge => drive solver left nStep xs xe m2 x y st = Diverge
      end.
    Proof.
      induction left as [|l IH]; intros nStep xs xe m1 m2 x y st L; cbn [drive]; auto. cbv zeta.
      set (s2 := if nltb A (zero A) _ then _ else _).
      assert (P := mono_step cm lap sys absTol relTol SM fuel x y s2 m1 m2 L).
      destruct (step_solve cm lap sys absTol relTol fuel x y s2 m1) as [[[[x' y'] s3] m']| | |]; cbn [bind]; auto.
      - destruct P as (m2' & -> & L'). cbn [bind]. destruct (nleb A (zero A) _); [|apply IH; auto].
        eexists. split; [reflexivity|auto].
      - rewrite P. reflexivity.
      - rewrite P. reflexivity.
    Qed.
  End Memoryless.

  Section Both.
    Hypothesis SS : sys_sane sys.
    Hypothesis SM : sys_memoryless sys.
    Hypothesis N1 : 1 <= n.
    Hypothesis GT : good_tolerances cm n absTol relTol.

    Lemma range_safe maxSteps m xs xe y dxTry : length y = n ->
      match solve_range solver maxSteps m xs xe y dxTry with
      | Ok (y', _, _) => length y' = n
      | UB => False
      | _ => True
      end.
    Proof. intros Ly. apply drive_safe; auto. Qed.

    Lemma range_memoryless maxSteps m1 m2 xs xe y dxTry : length y = n ->
      orel (fun a b => fst a = fst b) (solve_range solver maxSteps m1 xs xe y dxTry)
                                       (solve_range solver maxSteps m2 xs xe y dxTry).
    Proof.
      intros Ly.
      set (m0 := mkMem (A := A) (fun _ _ => None) None None (m_sys m1)).
      assert (B1 : below m0 m1) by (repeat split; discriminate).
      assert (B2 : below m0 m2) by (repeat split; discriminate).
      assert (P := range_safe maxSteps m0 xs xe y dxTry Ly).
      assert (Q1 := drive_mono SM maxSteps 0 xs xe m0 m1 xs y (newStep dxTry) B1).
      assert (Q2 := drive_mono SM maxSteps 0 xs xe m0 m2 xs y (newStep dxTry) B2).
      unfold solve_range in *.
      destruct (drive solver maxSteps 0 xs xe m0 xs y (newStep dxTry)) as [[r m']| | |].
      - destruct Q1 as (m1' & -> & _), Q2 as (m2' & -> & _). reflexivity.
      - contradiction.
      - rewrite Q1, Q2. exact I.
      - rewrite Q1, Q2. exact I.
    Qed.
  End Both.
End Run.
