(** Model of ODESolver.[HC] and of the interface ODESystem.H (in src/ODE_DLB). *)
From Coq Require Import List Arith ZArith QArith Bool.
From Verif Require Import Outcome Arith ChemistryModel.
Import ListNotations.
Local Open Scope nat_scope.

(** Unary minus, ODESolvers/seulex_LAPACK/seulex_LAPACK.C:141, 354, 377, 595
    (multiplication by -1 is exact). *)
Definition nneg (A : Arith) (x : num A) : num A := nmul A (lit A (-1)) x.

(** [sqr], OpenFOAM Scalar.H (used in seulex_LAPACK.C). *)
Definition sqr (A : Arith) (x : num A) : num A := nmul A x x.

(** Elementwise operation on two fields of the same size; a loop over one of them with an
    index into the other (fields of different size: UB). *)
Fixpoint map2 {A B C} (f : A -> B -> C) (l1 : list A) (l2 : list B) : outcome (list C) :=
  match l1, l2 with
  | [], [] => Ok []
  | x :: r1, y :: r2 => let* r := map2 f r1 r2 in Ok (f x y :: r)
  | _, _ => UB
  end.

(** An ODE system, ODESystem/ODESystem.H:68-89, with the memory [S] of its mutable members.
    [jac] returns [dfdx] and the rows of [dfdy].  The index [li] is passed on unused and
    left out. *)
Record odesys (A : Arith) (S : Type) := mkSys {
  nEqns : nat;
  derivs : S -> num A -> list (num A) -> outcome (list (num A) * S);
  jac : S -> num A -> list (num A) -> outcome (list (num A) * list (list (num A)) * S)
}.
Arguments mkSys {A S}.
Arguments nEqns {A S}.
Arguments derivs {A S}.
Arguments jac {A S}.

(** [ODESolver::stepState], ODESolver.H:99-121. *)
Record stepState (A : Arith) := mkStep {
  ss_forward : bool;
  ss_dxTry : num A;
  ss_dxDid : num A;
  ss_first : bool;
  ss_last : bool;
  ss_reject : bool;
  ss_prevReject : bool
}.
Arguments mkStep {A}.
Arguments ss_forward {A}.
Arguments ss_dxTry {A}.
Arguments ss_dxDid {A}.
Arguments ss_first {A}.
Arguments ss_last {A}.
Arguments ss_reject {A}.
Arguments ss_prevReject {A}.

Section Ode.
  Context {A : Arith}.

  (** Constructor of [stepState], ODESolver.H:110-120. *)
  Definition newStep (dx : num A) : stepState A :=
    mkStep (nltb A (zero A) dx) dx (zero A) true false false false.

  (** [ODESolver::normalizeError], ODESolver.C:41-57. *)
  Definition normalizeError (absTol relTol y0 y err : list (num A)) : outcome (num A) :=
    foldM (fun maxErr i =>
             let* a := idx absTol i in
             let* r := idx relTol i in
             let* u := idx y0 i in
             let* v := idx y i in
             let* e := idx err i in
             let tol := nadd A a (nmul A r (foam_max A (nabs A u) (nabs A v))) in
             Ok (foam_max A maxErr (ndiv A (nabs A e) tol)))
          (zero A) (seq 0 (length err)).

  (** [ODESolver::resize], ODESolver.C:91-114: new [n_] and whether it changed. *)
  Definition resize (odes_n maxN n : nat) : outcome (nat * bool) :=
    if negb (odes_n =? n) then
      if maxN <? odes_n then Fatal else Ok (odes_n, true)
    else Ok (n, false).

  (** The driver.  [H]: memory of the solver; [solve]: the virtual
      [solve(x, y, li, step)] of the derived class. *)
  Section Driver.
    Context {H : Type}.
    Variable solve : H -> num A -> list (num A) -> stepState A
                     -> outcome (num A * list (num A) * stepState A * H).

    (** [ODESolver::solve(x, y, li, dxTry)], ODESolver.C:117-128. *)
    Definition solve_try (h : H) (x : num A) (y : list (num A)) (dxTry : num A)
      : outcome (num A * list (num A) * num A * H) :=
      let* (x', y', step, h') := solve h x y (newStep dxTry) in
      Ok (x', y', ss_dxTry step, h').

    (** The loop of [ODESolver::solve(xStart, xEnd, y, li, dxTry)], ODESolver.C:157-194.
        [left]: iterations left until [maxSteps_]; [nStep]: loop counter. *)
    Fixpoint drive (left nStep : nat) (xStart xEnd : num A) (h : H) (x : num A)
      (y : list (num A)) (step : stepState A) : outcome (list (num A) * num A * H) :=
      match left with
      | O => Fatal
      | S left' =>
        let dxTry0 := ss_dxTry step in
        let s1 := mkStep (ss_forward step) (ss_dxTry step) (ss_dxDid step) (ss_first step)
                    (ss_last step) false (ss_prevReject step) in
        let ahead := nadd A x (ss_dxTry s1) in
        let s2 := if nltb A (zero A) (nmul A (nsub A ahead xEnd) (nsub A ahead xStart))
                  then mkStep (ss_forward s1) (nsub A xEnd x) (ss_dxDid s1) (ss_first s1)
                         true (ss_reject s1) (ss_prevReject s1)
                  else s1 in
        let* (x', y', s3, h') := solve h x y s2 in
        if nleb A (zero A) (nmul A (nsub A x' xEnd) (nsub A xEnd xStart)) then
          Ok (y', if (0 <? nStep) && ss_last s3 then dxTry0 else ss_dxTry s3, h')
        else
          let s4 := mkStep (ss_forward s3) (ss_dxTry s3) (ss_dxDid s3) false (ss_last s3)
                      (ss_reject s3) (if ss_reject s3 then true else ss_prevReject s3) in
          drive left' (S nStep) xStart xEnd h' x' y' s4
      end.

    (** [ODESolver::solve(xStart, xEnd, y, li, dxTry)], ODESolver.C:145-202: new [y], new
        [dxTry]. *)
    Definition solve_range (maxSteps : nat) (h : H) (xStart xEnd : num A) (y : list (num A))
      (dxTry : num A) : outcome (list (num A) * num A * H) :=
      drive maxSteps 0 xStart xEnd h xStart y (newStep dxTry).
  End Driver.
End Ode.
