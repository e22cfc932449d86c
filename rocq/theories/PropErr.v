(** Property C91: the error norms of the ODE solvers in IEEE doubles.
    Vocabulary: OdeSolver.v and Seulex.v (the models), the heads of OdeFacts.v ([point]), SeulexSpec.v ([scaled_error], [neville],
    [col], [computes]) and SeulexCases.v ([seulex_reach]), Ieee.v ([fin64], [val], [u]) and ErrIeee.v ([bounded], [divisor],
    [ratio]). *)
From Coq Require Import List Arith ZArith QArith Bool Lia Reals Lra.
From Coq Require Import Floats.SpecFloat.
From Flocq Require Import Core.
From Verif Require Import Outcome Arith OdeSolver OdeFacts Seulex SeulexSpec SeulexCases SeulexEx Ieee ErrIeee.
Import ListNotations.
Local Open Scope R_scope.

(** ** C91: error norms in doubles *)

(** [normalizeError] is the largest ratio of error and tolerance up to five rounding errors. *)
Theorem C91_norm :
  forall (absTol relTol y0 y err : list (num F64)) n,
    length absTol = n -> length relTol = n -> length y0 = n -> length y = n -> length err = n ->
    (forall x, In x absTol -> divisor 400 x) -> (forall x, In x relTol -> bounded 400 x /\ 0 <= val x) ->
    (forall x, In x y0 \/ In x y \/ In x err -> bounded 400 x) ->
    let ratio_of := fun i => ratio (nth i absTol (zero F64)) (nth i relTol (zero F64)) (nth i y0 (zero F64)) (nth i y (zero F64)) (nth i err (zero F64)) in
    exists m, normalizeError (A := F64) absTol relTol y0 y err = Ok m /\ fin64 m /\ 0 <= val m /\
      (forall i, (i < n)%nat -> ratio_of i <= val m * (1 + 5 * u) + bpow radix2 (-1074)) /\
      (val m = 0 \/ exists i, (i < n)%nat /\ val m <= ratio_of i * (1 + 5 * u) + bpow radix2 (-1074)).
Proof. exact norm64. Qed.
Print Assumptions C91_norm.

(** An error that is not a number does not count, unless it is the last one: the norm may be 0. *)
Theorem C91_nan_lost_refuted :
  normalizeError (A := F64) [lit F64 1; lit F64 1] [lit F64 1; lit F64 1] [lit F64 0; lit F64 0] [lit F64 0; lit F64 0] [S754_nan; lit F64 0] = Ok (lit F64 0) /\
  normalizeError (A := F64) [lit F64 1; lit F64 1] [lit F64 1; lit F64 1] [lit F64 0; lit F64 0] [lit F64 0; lit F64 0] [lit F64 0; S754_nan] = Ok S754_nan.
Proof. exact nan_lost. Qed.
Print Assumptions C91_nan_lost_refuted.

(** Where seulex's estimate does not exceed 1, no component is off by more than the square root of the number of equations times its
    scale, up to rounding errors.  [sqrt] is the correctly rounded one. *)
Theorem C91_estimate :
  forall (cm : cmath F64) n (absTol relTol y0 v w : list (num F64)),
    fsqrt cm = SFsqrt 53 1024 -> (1 <= n)%nat -> INR n <= 2 ^ 20 ->
    length absTol = n -> length relTol = n -> length y0 = n -> length v = n -> length w = n ->
    (forall x, In x absTol -> divisor 200 x) -> (forall x, In x relTol -> bounded 200 x /\ 0 <= val x) ->
    (forall x, In x y0 \/ In x v \/ In x w -> bounded 200 x) ->
    (let err := scaled_error cm n absTol relTol y0 v w in nleb F64 err (lit F64 1) = true \/ nltb F64 (lit F64 1) err = false) ->
    forall i, (i < n)%nat ->
      Rabs (val (nth i v (zero F64)) - val (nth i w (zero F64))) <=
      sqrt (INR n) * (val (nth i absTol (zero F64)) + val (nth i relTol (zero F64)) * Rabs (val (nth i y0 (zero F64)))) * (1 + 14 * u).
Proof. exact estimate64. Qed.
Print Assumptions C91_estimate.

(** So the last two extrapolations of every step of an integration differ by no more than that, if they are numbers of moderate size. *)
Theorem C91_accepted :
  forall (S : Type) (cm : cmath F64) (lap : lapack F64) (sys : odesys F64 S) (absTol relTol : list (num F64)) fuel rhs jacf,
    computes sys rhs jacf -> fsqrt cm = SFsqrt 53 1024 ->
    nltb F64 (jacRedo relTol) (nmul F64 (lit F64 2) (jacRedo relTol)) = true ->
    (1 <= nEqns sys)%nat -> INR (nEqns sys) <= 2 ^ 20 ->
    length absTol = nEqns sys -> length relTol = nEqns sys ->
    (forall x, In x absTol -> divisor 200 x) -> (forall x, In x relTol -> bounded 200 x /\ 0 <= val x) ->
    forall m xs xe y dx k b, length y = nEqns sys ->
    seulex_reach cm lap sys absTol relTol fuel m xs xe y dx k b ->
    exists x0 y0 xj yj q,
      let E := col lap (nEqns sys) rhs (jacf xj yj) x0 y0 (ss_dxDid (pt_step b)) in
      (1 <= q <= 12)%nat /\
      ((k = 1%nat /\ x0 = xs /\ y0 = y) \/
       exists j b', k = Datatypes.S j /\ seulex_reach cm lap sys absTol relTol fuel m xs xe y dx j b' /\ x0 = pt_x b' /\ y0 = pt_y b') /\
      pt_y b = neville E q q /\
      ((forall x, In x y0 \/ In x (pt_y b) \/ In x (neville E q (q - 1)) -> bounded 200 x) ->
       forall i, (i < nEqns sys)%nat ->
         Rabs (val (nth i (pt_y b) (zero F64)) - val (nth i (neville E q (q - 1)) (zero F64))) <=
         sqrt (INR (nEqns sys)) * (val (nth i absTol (zero F64)) + val (nth i relTol (zero F64)) * Rabs (val (nth i y0 (zero F64)))) * (1 + 14 * u)).
Proof. exact accepted64. Qed.
Print Assumptions C91_accepted.

(** ** Cases *)

(** Two components with ratios 0.1 / 1.2 and 0.3 / 0.2. *)
Example C91_case_norm :
  match normalizeError (A := F64) [lit F64 1; lit F64 (1 # 10)] [lit F64 (1 # 10); lit F64 (1 # 10)] [lit F64 2; lit F64 (-(1))] [lit F64 1; lit F64 (1 # 2)]
          [lit F64 (1 # 10); lit F64 (-(3 # 10))] with
  | Ok m => SFltb (lit F64 (149 # 100)) m && SFltb m (lit F64 (151 # 100)) | _ => false end = true.
Proof. vm_compute. reflexivity. Qed.

Lemma moderate (k : Z) (x : num F64) (lo hi : R) : fin64 x -> lo <= val x <= hi -> - bpow radix2 k <= lo -> hi <= bpow radix2 k -> bounded k x.
Proof. intros F H H1 H2. split; [exact F|]. apply Rabs_le. lra. Qed.

Example C91_case_input : divisor 200 (lit F64 (1 # 1000)) /\ bounded 200 (lit F64 (1 # 1000)) /\ 0 <= val (lit F64 (1 # 1000)) /\ bounded 200 (lit F64 1000).
Proof.
  assert (F : fin64 (lit F64 (1 # 1000)) /\ fin64 (lit F64 1000)) by (split; split; vm_compute; reflexivity).
  assert (X1 : lit F64 (1 # 1000) = S754_finite false 4611686018427388 (-62)) by (vm_compute; reflexivity).
  assert (X2 : lit F64 1000 = S754_finite false 8796093022208000 (-43)) by (vm_compute; reflexivity).
  assert (V : / 1024 <= val (lit F64 (1 # 1000)) <= 1) by (rewrite X1; unfold val; cbn; unfold F2R; cbn; lra).
  assert (W : 0 <= val (lit F64 1000) <= 1024) by (rewrite X2; unfold val; cbn; unfold F2R; cbn; lra).
  assert (B1 : 1024 <= bpow radix2 200) by (apply (bpow_le radix2 10 200); lia).
  assert (B2 : bpow radix2 (-200) <= / 1024) by (apply (bpow_le radix2 (-200) (-10)); lia).
  destruct F as [F1 F2]. split; [split; [exact F1|cbn [Z.opp]; lra]|].
  split; [apply (moderate 200 _ 0 1); [exact F1|lra|lra|lra]|]. split; [lra|]. apply (moderate 200 _ 0 1024); [exact F2|lra|lra|lra].
Qed.

Lemma returned {U V} (o : outcome (num F64 * list (num F64) * U * V)) (p : list (num F64) -> bool) :
  match o with Ok (_, y, _, _) => p y | _ => false end = true -> exists x y s m, o = Ok (x, y, s, m) /\ p y = true.
Proof. destruct o as [[[[x y] s] m]| | |]; try discriminate. intros P. exists x, y, s, m. auto. Qed.

Lemma first_reached {A S} (cm : cmath A) (lap : lapack A) (sys : odesys A S) absTol relTol fuel m (xs xe : num A) y dx x' y' s' m' :
  outside xs xe (nadd A xs dx) = false ->
  step_solve cm lap sys absTol relTol fuel xs y (newStep dx) m = Ok (x', y', s', m') ->
  seulex_reach cm lap sys absTol relTol fuel m xs xe y dx 1 (mkPoint m' x' y' s').
Proof.
  intros C E. apply reach_one. unfold OdeFacts.stepped. cbn [pt_step pt_mem pt_x pt_y newStep ss_dxTry]. rewrite C. exact E.
Qed.

(** [y' = -y] from 1000 over 1/100; not a function of /repo. *)
Definition decay64 : odesys F64 unit := scalar_sys (A := F64) (fun _ v => nmul F64 (lit F64 (-(1))) v) (lit F64 (-(1))).

Example C91_case :
  computes decay64 (fun _ y => [nmul F64 (lit F64 (-(1))) (nth 0 y (zero F64))]) (fun _ _ => [[lit F64 (-(1))]]) /\
  fsqrt fmath = SFsqrt 53 1024 /\
  SFltb (jacRedo (A := F64) [lit F64 (1 # 1000)]) (nmul F64 (lit F64 2) (jacRedo (A := F64) [lit F64 (1 # 1000)])) = true /\
  exists b, seulex_reach fmath lap1 decay64 [lit F64 (1 # 1000)] [lit F64 (1 # 1000)] 4 (newMem (A := F64) [lit F64 (1 # 1000)] tt)
              (lit F64 0) (lit F64 (1 # 100)) [lit F64 1000] (lit F64 (1 # 100)) 1 b /\
    match pt_y b with [v] => SFltb v (lit F64 (9901 # 10)) && SFltb (lit F64 990) v | _ => false end = true.
Proof.
  split; [exact (scalar_computes (A := F64) (fun _ v => nmul F64 (lit F64 (-(1))) v) (lit F64 (-(1))))|].
  split; [reflexivity|]. split; [vm_compute; reflexivity|].
  destruct (returned (step_solve fmath lap1 decay64 [lit F64 (1 # 1000)] [lit F64 (1 # 1000)] 4 (lit F64 0) [lit F64 1000]
              (newStep (A := F64) (lit F64 (1 # 100))) (newMem (A := F64) [lit F64 (1 # 1000)] tt))
    (fun l => match l with [v] => SFltb v (lit F64 (9901 # 10)) && SFltb (lit F64 990) v | _ => false end)) as (x & y & s & m & E & P).
  { vm_compute. reflexivity. }
  exists (mkPoint (A := F64) m x y s). split; [|exact P]. apply first_reached; [vm_compute; reflexivity|exact E].
Qed.
