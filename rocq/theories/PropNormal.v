(** Property C84: normalisation of compositions in IEEE doubles.
    Vocabulary: PyJac.v ([ode_solve]), ChemistryModel.v ([solve_all]), ChemStep.v ([problem_of],
    [mapped]), PyJacCases.v ([composition]), Ieee.v ([fin64]: a finite double, [val]: the real number
    it stands for, [u]: 2^-53), SweepIeee.v ([Rsum]: sum of a list of real numbers). *)
From Coq Require Import List Arith ZArith QArith Bool Lia Reals Lra.
From Coq Require Import Floats.SpecFloat.
From Flocq Require Import Core BinarySingleNaN.
From Verif Require Import Outcome Arith Problem LoadBalancing BalancerSpec MixtureFraction ChemistryModel ChemFacts ChemSim ChemBalance ChemCells ChemStep ChemSafe ChemResults
  OdeSolver PyJac PyJacFacts PyJacSpec PyJacCases Ieee SweepIeee PyJacIeee PropBalancer PropChemistry PropPyJac.
Import ListNotations.
Local Open Scope R_scope.

(** The composition that the cell solve returns, whatever the integrator does. *)
Theorem C84_returned :
  forall (H : Type) ns (ode : H -> num F64 -> num F64 -> list (num F64) -> num F64 -> outcome (list (num F64) * num F64 * H)),
    (1 <= ns)%nat -> (Z.of_nat ns <= 2 ^ 20)%Z ->
  forall h (x x' : kcell F64) h', length (k_c x) = ns -> ode_solve ns (ns + 1) ode h x = Ok (x', h') ->
    Forall fin64 (firstn (ns - 1) (k_c x')) -> Rsum (map val (firstn (ns - 1) (k_c x'))) <= bpow radix2 900 ->
    length (k_c x') = ns /\ Forall fin64 (k_c x') /\ Forall (fun v => 0 <= val v) (firstn (ns - 1) (k_c x')) /\
    Rabs (Rsum (map val (k_c x')) - 1) <= (1 + 2 * INR ns * Rsum (map val (firstn (ns - 1) (k_c x')))) * u.
Proof. exact @composition64. Qed.
Print Assumptions C84_returned.

(** The composition that the mechanism gets (C35). *)
Theorem C84_handed :
  forall ns, (1 <= ns)%nat -> (Z.of_nat ns <= 2 ^ 20)%Z ->
  forall (c Y : list (num F64)), length c = (ns + 1)%nat -> composition (A := F64) ns c Y ->
    Forall fin64 (firstn (ns - 1) Y) -> Rsum (map val (firstn (ns - 1) Y)) <= bpow radix2 900 ->
    Forall fin64 Y /\ Forall (fun v => 0 <= val v) (firstn (ns - 1) Y) /\
    Rabs (Rsum (map val Y) - 1) <= (1 + 2 * INR ns * Rsum (map val (firstn (ns - 1) Y))) * u.
Proof. exact handed64. Qed.
Print Assumptions C84_handed.

(** The rates of a cell (of its reference cell [j], if it is mapped) are finite, and their sum is
    off zero by the error of the given composition and by rounding only. *)
Theorem C84_rates :
  forall (H : Type) ns (ode : H -> num F64 -> num F64 -> list (num F64) -> num F64 -> outcome (list (num F64) * num F64 * H)),
    (1 <= ns)%nat -> (Z.of_nat ns <= 2 ^ 20)%Z ->
  forall fuel cfg dbg par sortf tms ranks outs,
    g_nSpecie cfg = ns -> g_chem cfg = true -> mapper_ok (g_nSpecie cfg) (g_mapper cfg) -> sort_contract sortf ->
    par = true \/ (length ranks <= 1)%nat ->
    solve_all (ode_solve ns (ns + 1) ode) fuel cfg dbg par sortf tms ranks = Ok outs ->
    forall q r o n, nth_error ranks q = Some r -> nth_error outs q = Some o ->
      meshed (g_nSpecie cfg) n r ->
      forall i, (i < n)%nat ->
      exists j p c rates, (j < n)%nat /\ problem_of (r_fields r) (r_dt r) (r_state r) j p /\
        (j = i \/ mapped (g_mapper cfg) (r_fields r) j i) /\
        map (fun row => nth_error row i) (m_RR (o_state o)) = map Some rates /\
        length c = ns /\ length (p_c p) = ns /\
        rates = map (fun '(y, y0) => ndiv F64 (nmul F64 (nsub F64 y y0) (p_rho p)) (p_deltaT p)) (combine c (p_c p)) /\
        (Forall (fun v => fin64 v /\ Rabs (val v) <= 2) (p_c p) -> Forall (fun v => fin64 v /\ Rabs (val v) <= 2) (firstn (ns - 1) c) ->
         fin64 (p_rho p) -> 0 <= val (p_rho p) <= bpow radix2 100 -> fin64 (p_deltaT p) -> bpow radix2 (-100) <= val (p_deltaT p) ->
         Forall fin64 rates /\
         Rabs (Rsum (map val rates)) <=
           (Rabs (Rsum (map val (p_c p)) - 1) +
            (1 + 2 * INR ns * Rsum (map (fun v => Rabs (val v)) (firstn (ns - 1) c)) + 4 * Rsum (map (fun '(y, y0) => Rabs (val y - val y0)) (combine c (p_c p)))) * u) *
           (val (p_rho p) / val (p_deltaT p)) + INR ns * bpow radix2 (-900)).
Proof. exact @total_rate64. Qed.
Print Assumptions C84_rates.

(** An integrator that returns the mass fractions 0.1, 0.2 and 0.3. *)
Definition ex_ode84 (h : nat) (a b : num F64) (y : list (num F64)) (sub : num F64) : outcome (list (num F64) * num F64 * nat) :=
  Ok (map (lit F64) [1000; 1 # 10; 2 # 10; 3 # 10; 100000]%Q, sub, S h).

(** The composition it leads to: the doubles nearest to 0.1, 0.2 and 0.3, and the rest. Its exact
    sum is not 1. *)
Definition ex_c84 : list spec_float :=
  [S754_finite false 7205759403792794 (-56); S754_finite false 7205759403792794 (-55);
   S754_finite false 5404319552844595 (-54); S754_finite false 7205759403792792 (-54)].

Lemma ex_sum84 : Rsum (map val (firstn 3 ex_c84)) = 43234556422756762 / 72057594037927936 /\
  Rsum (map val ex_c84) = 1 - 6 / 72057594037927936.
Proof. unfold val. cbn. unfold F2R. cbn. lra. Qed.

Example C84_case :
  (exists x' h',
    ode_solve (A := F64) 4 5 ex_ode84 (fun _ => None, 0%nat)
      (mkCell (A := F64) (lit F64 100000) (lit F64 1000) (map (lit F64) [1 # 4; 1 # 4; 1 # 4; (1 # 4)%Q]%Q) (lit F64 1) (lit F64 1)) = Ok (x', h') /\
    k_c x' = ex_c84) /\
  composition (A := F64) 4 (map (lit F64) [1000; 1 # 10; 2 # 10; 3 # 10; 100000]%Q) ex_c84 /\
  Forall fin64 (firstn 3 ex_c84) /\ Rsum (map val (firstn 3 ex_c84)) <= bpow radix2 900 /\ Rsum (map val ex_c84) <> 1.
Proof.
  split; [apply by_solve; vm_compute; reflexivity|]. split.
  - split; [reflexivity|]. split; [|vm_compute; reflexivity].
    assert (E : map (lit F64) [1000; 1 # 10; 2 # 10; 3 # 10; 100000]%Q = lit F64 1000 :: firstn 3 ex_c84 ++ [lit F64 100000]) by (vm_compute; reflexivity).
    rewrite E. unfold ex_c84. intros [|[|[|i]]] v Hi Ev; [injection Ev as <-; vm_compute; reflexivity..|cbn in Hi; lia].
  - split; [repeat constructor|]. destruct ex_sum84 as [-> ->]. split; [|lra].
    apply Rle_trans with (bpow radix2 0); [cbn; lra|apply bpow_le; lia].
Qed.

(** A field with one cell: density and time step 1, mass fractions 1/4. The rates do not cancel
    exactly. *)
Definition ex_cfg84 : config F64 :=
  mkConfig 4 (lit F64 6) true true (mkMapper false (lit F64 1) (lit F64 1) (mkMix [] [])).

Definition ex_rank84 : rankin F64 ((nat -> option (num F64)) * nat) :=
  let l := map (lit F64) in
  mkIn (mkFields [l [(1 # 4)%Q]; l [(1 # 4)%Q]; l [(1 # 4)%Q]; l [(1 # 4)%Q]] (l [1000%Q]) (l [100000%Q]) (l [1%Q])) (DUniform (lit F64 1))
    (mkM [l [0%Q]; l [0%Q]; l [0%Q]; l [0%Q]] (l [1%Q]) (l [1%Q]) [0%nat]) ((fun _ => None, 0), 0)%nat.

Definition ex_rates84 : list spec_float :=
  [S754_finite true 5404319552844595 (-55); S754_finite true 7205759403792792 (-57);
   S754_finite false 7205759403792792 (-57); S754_finite false 5404319552844592 (-55)].

Example C84_rates_case :
  (exists o, solve_all (ode_solve (A := F64) 4 5 ex_ode84) 9 ex_cfg84 true false isort (ex_tms F64) [ex_rank84] = Ok [o] /\
    map (fun row => nth_error row 0) (m_RR (o_state o)) = map Some ex_rates84) /\
  meshed 4 1 ex_rank84 /\ mapper_ok 4 (g_mapper ex_cfg84) /\
  Forall (fun v => fin64 v /\ Rabs (val v) <= 2) (map (lit F64) [1 # 4; 1 # 4; 1 # 4; 1 # 4]%Q) /\
  Forall (fun v => fin64 v /\ Rabs (val v) <= 2) (firstn 3 ex_c84) /\
  Rsum (map val ex_rates84) = - 3 / 36028797018963968.
Proof.
  split.
  { assert (X : match solve_all (ode_solve (A := F64) 4 5 ex_ode84) 9 ex_cfg84 true false isort (ex_tms F64) [ex_rank84] with
      | Ok [o] => map (fun row => nth_error row 0) (m_RR (o_state o)) = map Some ex_rates84 | _ => False end) by (vm_compute; reflexivity).
    destruct (solve_all _ _ _ _ _ _ _ _) as [[|o [|]]| | |]; try contradiction. exists o. split; [reflexivity|exact X]. }
  split. { split; [repeat split; auto|repeat split]; intros row [<-|[<-|[<-|[<-|[]]]]]; reflexivity. }
  split; [intros E; discriminate E|].
  split.
  { replace (map (lit F64) [1 # 4; 1 # 4; 1 # 4; 1 # 4]%Q) with (repeat (S754_finite false 4503599627370496 (-54)) 4) by (vm_compute; reflexivity). cbn [repeat].
    repeat (apply Forall_cons; [split; [split; reflexivity|unfold val; cbn; unfold F2R; cbn; apply Rabs_le; lra]|]); apply Forall_nil. }
  split. { unfold ex_c84. cbn [firstn]. repeat (apply Forall_cons; [split; [split; reflexivity|unfold val; cbn; unfold F2R; cbn; apply Rabs_le; lra]|]); apply Forall_nil. }
  unfold val. cbn. unfold F2R. cbn. lra.
Qed.
