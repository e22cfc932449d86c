(** Model of loadBalanced_pyJacChemistryModel.[HC] ("pjCM.C" below) and of
    chemistrySolver/ode_pyJac/ode_pyJac.C, with the interface of a pyJac library. *)
From Coq Require Import List Arith ZArith QArith Bool.
From Verif Require Import Outcome Arith ChemistryModel OdeSolver Seulex.
Import ListNotations.
Local Open Scope nat_scope.

(** A mechanism library generated by pyJac, interface in
    src/thermophysicalModels/chemistryModel/pyJacInclude/{dydt,jacob,chem_utils}.h:
    [PYJAC_NSP()] and the elements that [dydt(t, p, y, dy)] (NSP of them),
    [eval_jacob(t, p, y, jac)] (NSP*NSP, by columns) and [eval_h(T, h)] (NSP) write.  The
    functions read the first NSP elements of [y] (e.g. drm19/lib/src/dydt.c:7-74, NSP = 21) and
    do not use [t]. *)
Record mech (A : Arith) := mkMech {
  NSP : nat;
  dydt_elt : num A -> list (num A) -> nat -> num A;
  jacob_elt : num A -> list (num A) -> nat -> num A;
  h_elt : num A -> nat -> num A
}.
Arguments mkMech {A}.
Arguments NSP {A}.
Arguments dydt_elt {A}.
Arguments jacob_elt {A}.
Arguments h_elt {A}.

Section Model.
  Context {A : Arith}.
  Variable mc : mech A.

  (** A C function writing [k] elements into a buffer of [n] zeros, reading [r] elements of one
      of [have]; not a function of /repo. *)
  Definition into (n k have r : nat) (f : nat -> num A) : outcome (list (num A)) :=
    if (k <=? n) && (r <=? have) then Ok (map f (seq 0 k) ++ repeat (zero A) (n - k)) else UB.

  (** [dydt(0, p, y.data(), dy.data())] with [dy] of [n] elements, pjCM.C:125, 143. *)
  Definition c_dydt (n : nat) (p : num A) (y : list (num A)) : outcome (list (num A)) :=
    into n (NSP mc) (length y) (NSP mc) (dydt_elt mc p (firstn (NSP mc) y)).

  (** [eval_jacob(0, p, y.data(), jac.data())] with [jac] of [n] elements, pjCM.C:84, 105. *)
  Definition c_jacob (n : nat) (p : num A) (y : list (num A)) : outcome (list (num A)) :=
    into n (NSP mc * NSP mc) (length y) (NSP mc) (jacob_elt mc p (firstn (NSP mc) y)).

  (** [eval_h(T, h.data())] with [h] of [n] elements, pjCM.C:50-51. *)
  Definition c_h (n : nat) (T : num A) : outcome (list (num A)) :=
    into n (NSP mc) 0 0 (h_elt mc T).

  (** Constructor, pjCM.C:34-71: [sp_enth_form] (indeterminate with chemistry off). *)
  Definition construct (nSpecie : nat) (chem : bool) : outcome (list (option (num A))) :=
    let* h := (if chem
               then let* l := c_h nSpecie (lit A (29815 # 100)) in Ok (map Some l)
               else Ok (repeat None nSpecie)) in
    if nSpecie =? NSP mc then Ok h else Fatal.

  Variable nSpecie : nat.

  (** The member [c_] (pjCM.H:105); [None]: indeterminate. *)
  Definition scratch : Type := nat -> option (num A).

  (** The vector for pyJac and the new [c_], pjCM.C:88-103, 127-140.  ([c_[nSpecie-1]] is out of
      range without species.) *)
  Definition to_pyJac (c : list (num A)) : outcome (num A * list (num A) * scratch) :=
    if nSpecie =? 0 then UB
    else
      let* T := idx c 0 in
      let* p := idx c nSpecie in
      let* ys := mapM (fun i => let* v := idx c (i + 1) in Ok (foam_max A v (zero A)))
                   (seq 0 (nSpecie - 1)) in
      let full := ys ++ [nsub A (lit A 1) (nsum A ys)] in
      Ok (p, T :: full, nth_error full).

  (** [derivatives], pjCM.C:120-147. *)
  Definition pj_derivs (s : scratch) (t : num A) (c : list (num A))
    : outcome (list (num A) * scratch) :=
    let* (p, y, s') := to_pyJac c in
    let* dy := c_dydt nSpecie p y in
    Ok (dy ++ [zero A], s').

  (** [jacobian], pjCM.C:78-118: [dcdt] and the rows of [J]. *)
  Definition pj_jac (s : scratch) (t : num A) (c : list (num A))
    : outcome (list (num A) * list (list (num A)) * scratch) :=
    let* (p, y, s') := to_pyJac c in
    let* jac := c_jacob (nSpecie * nSpecie) p y in
    let* rows := mapM (fun i =>
                   let* r := mapM (fun j => idx jac (j * nSpecie + i)) (seq 0 nSpecie) in
                   Ok (r ++ [zero A])) (seq 0 nSpecie) in
    Ok (repeat (zero A) (nSpecie + 1), rows ++ [repeat (zero A) (nSpecie + 1)], s').

  (** The ODE system of the model; [nEqns()], pjCM I.H:33-39. *)
  Definition pj_sys : odesys A scratch := mkSys (nSpecie + 1) pj_derivs pj_jac.

  (** [Qdot], pjCM.C:149-172: [h] is [sp_enth_form], [RR] the rates of the species in each
      cell, [n] the number of cells. *)
  Definition Qdot (chem : bool) (h : list (option (num A))) (RR : list (list (num A))) (n : nat)
    : outcome (list (num A)) :=
    if chem then
      foldM (fun q i =>
               let* hi := idx h i in
               let* row := idx RR i in
               mapM (fun '(c, v) =>
                       let* hv := rd hi in
                       let* r := idx row c in
                       Ok (nsub A v (nmul A hv r))) (combine (seq 0 n) q))
            (repeat (zero A) n) (seq 0 nSpecie)
    else Ok (repeat (zero A) n).

  (** [tc], pjCM.C:174-195. *)
  Definition tc : outcome (list (num A)) := Fatal.
End Model.

Section Solve.
  Context {A : Arith} {H : Type}.
  (** [nSpecie()] and [nEqns()] of the chemistry model. *)
  Variables nSpecie nEq : nat.
  (** [odeSolver_->solve(xStart, xEnd, y, li, dxTry)]. *)
  Variable ode : H -> num A -> num A -> list (num A) -> num A
                 -> outcome (list (num A) * num A * H).

  (** [c[i] = max(0.0, v)], ode_pyJac.C:84, 111. *)
  Definition clip (v : num A) : num A := foam_max A (lit A 0) v.

  (** [ode_pyJac::solve], ode_pyJac.C:49-117, with [cTp_] (ode_pyJac.H:62) and the ODE solver as
      memory.  The call of [resize()] (62-65) is left out: [nEqns()] never changes, see
      [OdeSolver.resize].  [deltaT] is left as it is. *)
  Definition ode_solve (h : (nat -> option (num A)) * H) (x : kcell A)
    : outcome (kcell A * ((nat -> option (num A)) * H)) :=
    let (cTp, ho) := h in
    let c := k_c x in
    if (nEq =? nSpecie + 2) || (nSpecie =? nEq + 2) then
      let* cs := mapM (idx c) (seq 0 nSpecie) in
      let init := cs ++ [k_T x; k_p x] in
      if nSpecie + 2 <=? nEq then
        let v0 := fun i => if i <? nSpecie + 2 then nth_error init i else cTp i in
        let* y := mapM (fun i => rd (v0 i)) (seq 0 nEq) in
        let* (y', sub, ho') := ode ho (lit A 0) (k_dt x) y (k_sub x) in
        let* cs' := mapM (fun i => let* v := idx y' i in Ok (clip v)) (seq 0 nSpecie) in
        let* T := idx y' nSpecie in
        let* p := idx y' (nSpecie + 1) in
        Ok (mkCell p T (cs' ++ skipn nSpecie c) (k_dt x) sub, (nth_error y', ho'))
      else UB
    else if (nSpecie =? 0) || negb (nSpecie <? nEq) || (length c <? nSpecie) then UB
    else
      let* cs := mapM (idx c) (seq 0 (nSpecie - 1)) in
      let init := k_T x :: cs ++ [k_p x] in
      let v0 := fun i => if i <=? nSpecie then nth_error init i else cTp i in
      let* y := mapM (fun i => rd (v0 i)) (seq 0 nEq) in
      let* (y', sub, ho') := ode ho (lit A 0) (k_dt x) y (k_sub x) in
      let* T := idx y' 0 in
      let* p := idx y' nSpecie in
      let* cs' := mapM (fun i => let* v := idx y' (i + 1) in Ok (clip v)) (seq 0 (nSpecie - 1)) in
      Ok (mkCell p T (cs' ++ [nsub A (lit A 1) (nsum A cs')] ++ skipn nSpecie c) (k_dt x) sub,
          (nth_error y', ho')).
End Solve.

(** The cell solver of a case with chemistry model loadBalanced_pyJac, chemistry solver
    ode_pyJac and ODE solver seulex_LAPACK ([aT], [rT]: absTol and relTol, the same for all
    equations, ODESolver.C:67-68; [fuel]: bound on the attempts of a step). *)
Definition pyJac_kern {A : Arith} (cm : cmath A) (lap : lapack A) (mc : mech A)
  (aT rT : num A) (fuel maxSteps nSpecie : nat)
  : (nat -> option (num A)) * mem A (scratch (A := A)) -> kcell A
    -> outcome (kcell A * ((nat -> option (num A)) * mem A (scratch (A := A)))) :=
  let sys := pj_sys mc nSpecie in
  let tol := fun t => repeat t (nEqns sys) in
  ode_solve nSpecie (nEqns sys)
    (solve_range (fun h x y step => step_solve cm lap sys (tol aT) (tol rT) fuel x y step h)
       maxSteps).
