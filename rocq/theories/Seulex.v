(** Model of ODESolvers/seulex_LAPACK/seulex_LAPACK.[HC] (in src/ODE_DLB; "seulex.C" below). *)
From Coq Require Import List Arith ZArith QArith Bool.
From Verif Require Import Outcome Arith ChemistryModel OdeSolver.
Import ListNotations.
Local Open Scope nat_scope.

(** Functions of the C library used by seulex.C: [sqrt] (197, 223, 227, 429), [pow] (439, 449),
    [log10] (354), conversion to [int] (355; [None]: not representable, UB). *)
Record cmath (A : Arith) := mkCmath {
  fsqrt : num A -> num A;
  fpow : num A -> num A -> num A;
  flog10 : num A -> num A;
  fint : num A -> option Z
}.
Arguments fsqrt {A}.
Arguments fpow {A}.
Arguments flog10 {A}.
Arguments fint {A}.

(** LAPACK: [dgetrf] factorises an n*n matrix given by columns, [dgetrs] solves with the
    factorisation and gives the elements of the solution (seulex.C:146, 157, 210, 267).  The code ignores INFO except for a message;
    what LAPACK leaves in the arrays then is the result here too. *)
Record lapack (A : Arith) := mkLapack {
  lu : Type;
  dgetrf : nat -> list (num A) -> lu;
  dgetrs : nat -> lu -> list (num A) -> nat -> num A
}.
Arguments lu {A}.
Arguments dgetrf {A}.
Arguments dgetrs {A}.

(** The mutable arrays of the class, seulex_LAPACK.H:100-113: rows of [table_] and [dfdy_], then
    [dfdx_], [dxOpt_], [temp_], [y0_], [ySequence_], [scale_], [dy_], [yTemp_], [dydx_].
    [a_] and [pivotIndices_] are never used. *)
Inductive arr :=
| Table (i : nat) | Dfdy (i : nat) | Dfdx | DxOpt | Temp | Y0 | YSeq | Scale | Dy | YTemp | Dydx.

(** Comparison of array names; not a function of /repo. *)
Definition arr_eqb (a b : arr) : bool :=
  match a, b with
  | Table i, Table j | Dfdy i, Dfdy j => i =? j
  | Dfdx, Dfdx | DxOpt, DxOpt | Temp, Temp | Y0, Y0 | YSeq, YSeq | Scale, Scale | Dy, Dy
  | YTemp, YTemp | Dydx, Dydx => true
  | _, _ => false
  end.

(** [kMaxx_] and [iMaxx_], seulex_LAPACK.H:79-80. *)
Definition kMaxx : nat := 12.
Definition iMaxx : nat := kMaxx + 1.

(** Number of elements of an array of a solver for [n] equations, seulex.C:60-72 (a row for
    [table_] and [dfdy_]). *)
Definition size (n : nat) (a : arr) : nat := match a with DxOpt | Temp => iMaxx | _ => n end.

Section Memory.
  Context {A : Arith} {S : Type}.

  (** Mutable members of the class and of the ODE system ([m_sys]), seulex_LAPACK.H:98-113.
      [None]: indeterminate. *)
  Record mem := mkMem {
    m_arr : arr -> nat -> option (num A);
    m_theta : option (num A);
    m_kTarg : option nat;
    m_sys : S
  }.

  (** Computations on the memory; not a function of /repo. *)
  Definition M (T : Type) : Type := mem -> outcome (T * mem).
  Definition ret {T} (x : T) : M T := fun m => Ok (x, m).
  Definition mbind {T U} (c : M T) (f : T -> M U) : M U :=
    fun m => let* (x, m') := c m in f x m'.
  Definition lift {T} (o : outcome T) : M T := fun m => let* x := o in Ok (x, m).

  (** Read of a whole array in a loop; reading an indeterminate element is UB. *)
  Definition rdv (n : nat) (a : arr) : M (list (num A)) :=
    fun m => let* v := mapM (fun i => rd (m_arr m a i)) (seq 0 (size n a)) in Ok (v, m).
  (** Read of an element. *)
  Definition rde (n : nat) (a : arr) (i : nat) : M (num A) :=
    fun m => if i <? size n a then let* v := rd (m_arr m a i) in Ok (v, m) else UB.
  (** Replace an array. *)
  Definition set_arr (m : mem) (a : arr) (l : nat -> option (num A)) : mem :=
    mkMem (fun b => if arr_eqb a b then l else m_arr m b) (m_theta m) (m_kTarg m) (m_sys m).
  (** Write of a whole array in a loop or by assignment of a field.  (OpenFOAM's field assignment
      would resize; only vectors of [n_] elements are assigned here, and another size is UB.) *)
  Definition wrv (n : nat) (a : arr) (v : list (num A)) : M unit :=
    fun m => if length v =? size n a then Ok (tt, set_arr m a (nth_error v)) else UB.
  (** Write of an element. *)
  Definition wre (n : nat) (a : arr) (i : nat) (v : num A) : M unit :=
    fun m => if i <? size n a
             then Ok (tt, set_arr m a (fun j => if j =? i then Some v else m_arr m a j))
             else UB.
  (** [theta_], seulex_LAPACK.H:98. *)
  Definition get_theta : M (num A) := fun m => let* t := rd (m_theta m) in Ok (t, m).
  Definition set_theta (t : num A) : M unit :=
    fun m => Ok (tt, mkMem (m_arr m) (Some t) (m_kTarg m) (m_sys m)).
  (** [kTarg_], seulex_LAPACK.H:99. *)
  Definition get_kTarg : M nat := fun m => let* k := rd (m_kTarg m) in Ok (k, m).
  Definition set_kTarg (k : nat) : M unit :=
    fun m => Ok (tt, mkMem (m_arr m) (m_theta m) (Some k) (m_sys m)).
End Memory.
Arguments mem A S : clear implicits.
Arguments M A S T : clear implicits.

Notation "'let!' x ':=' c 'in' k" := (mbind c (fun x => k))
  (at level 200, x pattern, right associativity) : outcome_scope.

Section Model.
  Context {A : Arith} {S : Type}.
  Variable cm : cmath A.
  Variable lap : lapack A.
  Variable sys : odesys A S.
  (** [absTol_], [relTol_], ODESolver.H:74-77. *)
  Variables absTol relTol : list (num A).

  Local Notation M := (M A S).
  (** [n_], ODESolver.C:66. *)
  Local Notation n := (nEqns sys).
  Local Notation rdv := (rdv n).
  Local Notation rde := (rde n).
  Local Notation wrv := (wrv n).
  Local Notation wre := (wre n).

  (** [nSeq_], seulex.C:80-86. *)
  Fixpoint nseq (i : nat) : nat :=
    match i with O => 2 | 1 => 3 | Datatypes.S (Datatypes.S j) => 2 * nseq j end.

  (** [cpu_], seulex.C:77-78, 87-92. *)
  Fixpoint cpu (i : nat) : num A :=
    match i with
    | O => nadd A (nadd A (lit A 5) (lit A 1))
             (nmul A (ofnat A (nseq 0)) (nadd A (lit A 1) (lit A 1)))
    | Datatypes.S j =>
      nadd A (nadd A (cpu j) (nmul A (ofnat A (nseq (j + 1) - 1)) (nadd A (lit A 1) (lit A 1)))) (lit A 1)
    end.

  (** [nSeq_[i]] (seulex.C:119, 471, 489), [cpu_[i]] (453, 585, 589), [coeff_[k][l]] (297, 303; set for [l < k] only, seulex.C:95-102). *)
  Definition nSeq_at (i : nat) : outcome nat := if i <? iMaxx then Ok (nseq i) else UB.
  Definition cpu_at (i : nat) : outcome (num A) := if i <? iMaxx then Ok (cpu i) else UB.
  Definition coeff_at (k l : nat) : outcome (num A) :=
    if (k <? iMaxx) && (l <? k)
    then Ok (ndiv A (lit A 1)
               (nsub A (ndiv A (ofnat A (nseq k)) (ofnat A (nseq l))) (lit A 1)))
    else UB.

  (** [table_[i]]: the table has [kMaxx_] rows, seulex.C:60 (accesses 297, 303, 414, 427). *)
  Definition table_row (i : nat) : outcome arr := if i <? kMaxx then Ok (Table i) else UB.

  (** [jacRedo_ = min(1e-4, min(relTol_))], seulex.C:55 (OpenFOAM [min] of a field: the first
      element, then [min] of each with it; VGREAT if there is none). *)
  Definition jacRedo : num A :=
    foam_min A (lit A (1 # 10 ^ 4))
      (match relTol with
       | [] => vgreat A
       | r :: _ => fold_left (fun a b => foam_min A b a) relTol r
       end).

  (** The memory after construction, seulex.C:52-75; [kTarg_] and the arrays are not
      initialised.  [s]: memory of the ODE system. *)
  Definition newMem (s : S) : mem A S :=
    mkMem (fun _ _ => None) (Some (nmul A (lit A 2) jacRedo)) None s.

  (** Call of [odes_.derivatives], seulex.C:150, 199, 260. *)
  Definition call_derivs (x : num A) (y : list (num A)) : M (list (num A)) :=
    fun m => let* (d, s) := derivs sys (m_sys m) x y in
             Ok (d, mkMem (m_arr m) (m_theta m) (m_kTarg m) s).

  (** Write of the rows of [dfdy_] from row [i] on; all of its [n_] rows are written. *)
  Fixpoint wr_rows (i : nat) (l : list (list (num A))) : M unit :=
    match l with
    | [] => if i =? n then ret tt else lift UB
    | r :: l' => if i <? n then let! _ := wrv (Dfdy i) r in wr_rows (i + 1) l' else lift UB
    end.

  (** Call of [odes_.jacobian(x, y, li, dfdx_, dfdy_)], seulex.C:367, 528. *)
  Definition call_jac (x : num A) (y : list (num A)) : M unit :=
    let! (dfdx, dfdy) := (fun m => let* (a, b, s) := jac sys (m_sys m) x y in
                                   Ok ((a, b), mkMem (m_arr m) (m_theta m) (m_kTarg m) s)) in
    let! _ := wrv Dfdx dfdx in
    wr_rows 0 dfdy.

  (** Read of the rows of [dfdy_], seulex.C:137-144. *)
  Fixpoint rd_rows (i k : nat) : M (list (list (num A))) :=
    match k with
    | O => ret []
    | Datatypes.S k' => let! r := rdv (Dfdy i) in let! rs := rd_rows (i + 1) k' in ret (r :: rs)
    end.

  (** The system matrix by columns, seulex.C:137-144: entry (i,j) of [1/dx - dfdy_] at
      [j*n+i]. *)
  Definition sysmatrix (J : list (list (num A))) (dx : num A) : outcome (list (num A)) :=
    let* cols := mapM (fun j => mapM (fun i =>
                   let* row := idx J i in
                   let* v := idx row j in
                   Ok (if i =? j then nadd A (nneg A v) (ndiv A (lit A 1) dx) else nneg A v))
                   (seq 0 n)) (seq 0 n) in
    Ok (concat cols).

  (** [sum += sqr(v[i]/scale[i])], seulex.C:192-196, 423-428. *)
  Definition scaled_squares (v scale : list (num A)) : outcome (num A) :=
    let* q := map2 (fun d s => sqr A (ndiv A d s)) v scale in Ok (nsum A q).

  (** The sum with overflow check, seulex.C:218-225. *)
  Fixpoint guarded_squares (acc : num A) (v scale : list (num A)) : outcome (num A) :=
    match v, scale with
    | [], [] => Ok acc
    | d :: v', s :: scale' =>
      if nltb A (fsqrt cm (vgreat A)) (nabs A d) then Ok (vgreat A)
      else guarded_squares (nadd A acc (sqr A (ndiv A d s))) v' scale'
    | _, _ => UB
    end.

  (** [dy_] replaced by the solution of the linear system with right-hand side [dy_],
      seulex.C:152-162, 205-215, 262-272. *)
  Definition back_solve (f : lu lap) : M unit :=
    let! b := rdv Dy in wrv Dy (map (dgetrs lap n f b) (seq 0 n)).

  (** Stability check of the first sub-step, seulex.C:190-258; [false]: return false. *)
  Definition stability (f : lu lap) (x0 dx : num A) : M bool :=
    let! dy := rdv Dy in
    let! scale := rdv Scale in
    let! q1 := lift (scaled_squares dy scale) in
    let dy1 := fsqrt cm q1 in
    let! yt := rdv YTemp in
    let! d := call_derivs (nadd A x0 dx) yt in
    let! _ := wrv Dydx d in
    let! dydx := rdv Dydx in
    let! r := lift (map2 (fun a b => nsub A a (ndiv A b dx)) dydx dy) in
    let! _ := wrv Dy r in
    let! _ := back_solve f in
    let! dy := rdv Dy in
    let! q2 := lift (guarded_squares (lit A 0) dy scale) in
    let dy2 := fsqrt cm q2 in
    let theta := ndiv A dy2 (foam_max A (lit A 1) (nadd A dy1 (small A))) in
    let! _ := set_theta theta in
    ret (negb (nltb A (lit A 1) theta)).

  (** The loop over sub-steps, seulex.C:169-274: [left] iterations left, counter [nn].
      [NASAP_mintemp], [NASAP_maxtemp] = 200, 5000 (seulex.C:73-74). *)
  Fixpoint seul_loop (left nn k : nat) (f : lu lap) (x0 dx xnew : num A) : M bool :=
    match left with
    | O => ret true
    | Datatypes.S left' =>
      let! yt := rdv YTemp in
      let! dy := rdv Dy in
      let! s := lift (map2 (nadd A) yt dy) in
      let! _ := wrv YTemp s in
      let xnew' := nadd A xnew dx in
      let! T := rde YTemp 0 in
      if nleb A T (lit A 200) || nltb A (lit A 5000) T then ret false
      else
        let! ok := (if (nn =? 1) && (k <=? 1) then stability f x0 dx else ret true) in
        if ok then
          let! yt := rdv YTemp in
          let! d := call_derivs xnew' yt in
          let! _ := wrv Dy d in
          let! _ := back_solve f in
          seul_loop left' (nn + 1) k f x0 dx xnew'
        else ret false
    end.

  (** [seul(x0, y0_, li, dxTot, k, ySequence_, scale_)], seulex.C:107-282 with the arguments of
      the only call, line 394. *)
  Definition seul (x0 dxTot : num A) (k : nat) : M bool :=
    let! nSteps := lift (nSeq_at k) in
    let dx := ndiv A dxTot (ofnat A nSteps) in
    let! J := rd_rows 0 n in
    let! a := lift (sysmatrix J dx) in
    let f := dgetrf lap n a in
    let xnew := nadd A x0 dx in
    let! y0 := rdv Y0 in
    let! d := call_derivs xnew y0 in
    let! _ := wrv Dy d in
    let! _ := back_solve f in
    let! _ := wrv YTemp y0 in
    let! ok := seul_loop (nSteps - 1) 1 k f x0 dx xnew in
    if ok then
      let! yt := rdv YTemp in
      let! dy := rdv Dy in
      let! s := lift (map2 (nadd A) yt dy) in
      let! _ := wrv YSeq s in
      ret true
    else ret false.

  (** First loop of [extrapolate], seulex.C:293-299: [j] counts down from [k-1] to 1. *)
  Fixpoint extrapolate_rows (k j : nat) : M unit :=
    match j with
    | O => ret tt
    | Datatypes.S j' =>
      let! hi := lift (table_row j) in
      let! lo := lift (table_row j') in
      let! c := lift (coeff_at k j) in
      let! u := rdv hi in
      let! v := rdv lo in
      let! r := lift (map2 (fun a b => nadd A a (nmul A c (nsub A a b))) u v) in
      let! _ := wrv lo r in
      extrapolate_rows k j'
    end.

  (** [extrapolate(k, table_, y)], seulex.C:286-305: the new [y]. *)
  Definition extrapolate (k : nat) (y : list (num A)) : M (list (num A)) :=
    let! _ := extrapolate_rows k (k - 1) in
    let! c := lift (coeff_at k 0) in
    let! u := rdv (Table 0) in
    lift (map2 (fun a b => nadd A a (nmul A c (nsub A a b))) u y).

  (** [scale[i] = absTol_[i] + relTol_[i]*mag(y[i])], seulex.C:358-361 and 426. *)
  Definition scales (y : list (num A)) : outcome (list (num A)) :=
    let* q := map2 (fun r v => nmul A r (nabs A v)) relTol y in
    map2 (nadd A) absTol q.

  (** The error estimate, seulex.C:423-429. *)
  Definition error_of (y t0 scale : list (num A)) : outcome (num A) :=
    let* d := map2 (nsub A) y t0 in
    let* q := scaled_squares d scale in
    Ok (fsqrt cm (ndiv A q (ofnat A n))).

  (** The step size factor, seulex.C:438-451. *)
  Definition factor (k : nat) (err : num A) : num A :=
    let expo := ndiv A (lit A 1) (ofnat A (k + 1)) in
    let facmin := fpow cm (lit A (1 # 10)) expo in
    if neqb A err (lit A 0) then ndiv A (lit A 1) facmin
    else
      let fac := ndiv A (lit A (93 # 100)) (fpow cm (ndiv A err (lit A (8 # 10))) expo) in
      foam_max A (ndiv A facmin (lit A 4)) (foam_min A (ndiv A (lit A 1) facmin) fac).

  (** What the body of the loop over [k] does next: leave the loop with this [step.reject],
      [dxNew] and [y], or go on with this [errOld] and [y]. *)
  Inductive after := Leave (reject : bool) (dxNew : num A) (y : list (num A))
                   | Go (errOld : num A) (y : list (num A)).

  (** Reduction of the order before a retry and the new [dxNew], seulex.C:475-479, 491-496,
      505-514 ([temp_[i-1] < kFactor1_*temp_[i]] with [i] = the column that is compared). *)
  Definition retry (i : nat) (y : list (num A)) : M after :=
    let! kT := get_kTarg in
    let! _ := (if 1 <? kT then
                 let! a := rde Temp (i - 1) in
                 let! b := rde Temp i in
                 if nltb A a (nmul A (lit A (7 # 10)) b) then set_kTarg (kT - 1) else ret tt
               else ret tt) in
    let! kT := get_kTarg in
    let! d := rde DxOpt kT in
    ret (Leave true d y).

  (** Tests for leaving the loop, seulex.C:457-516, with the error [err] of column [k].
      ([kTarg_ - 1] is never negative: theorem C42.) *)
  Definition decide (k : nat) (step : stepState A) (dxNew err errOld : num A) (y : list (num A))
    : M after :=
    let accept := nleb A err (lit A 1) in
    if (ss_first step || ss_last step) && accept then ret (Leave false dxNew y)
    else
      let! kT := get_kTarg in
      let below := (k =? kT - 1) && negb (ss_prevReject step) && negb (ss_first step)
                   && negb (ss_last step) in
      if below && accept then ret (Leave false dxNew y)
      else
        let! early := (if below then
                         let! a := lift (nSeq_at kT) in
                         let! b := lift (nSeq_at (kT + 1)) in
                         ret (nltb A (nmul A (ofnat A (a * b)) (lit A 4)) err)
                       else ret false) in
        if early then
          let! _ := set_kTarg k in retry k y
        else if (k =? kT) && accept then ret (Leave false dxNew y)
        else
          let! late := (if k =? kT then
                          let! a := lift (nSeq_at (k + 1)) in
                          ret (nltb A (nmul A (ofnat A a) (lit A 2)) err)
                        else ret false) in
          if late then retry k y
          else if k =? kT + 1 then
            if nltb A (lit A 1) err then retry kT y else ret (Leave false dxNew y)
          else ret (Go errOld y).

  (** Body of the loop over [k], seulex.C:394-517. *)
  Definition column (x dx : num A) (k : nat) (step : stepState A) (dxNew errOld : num A)
    (y : list (num A)) : M after :=
    let halved := nmul A (nabs A dx) (lit A (1 # 2)) in
    let! success := seul x dx k in
    if negb success then ret (Leave true halved y)
    else
      let! ys := rdv YSeq in
      if k =? 0 then
        let! y' := lift (map2 (fun _ v => v) y ys) in ret (Go errOld y')
      else
        let! row := lift (table_row (k - 1)) in
        let! _ := wrv row ys in
        let! y' := extrapolate k y in
        let! y0 := rdv Y0 in
        let! sc := lift (scales y0) in
        let! _ := wrv Scale sc in
        let! t0 := rdv (Table 0) in
        let! err := lift (error_of y' t0 sc) in
        if nltb A (ndiv A (lit A 1) (small A)) err || ((1 <? k) && nleb A errOld err)
        then ret (Leave true halved y')
        else
          let errOld' := foam_max A (nmul A (lit A 4) err) (lit A 1) in
          let opt := nabs A (nmul A dx (factor k err)) in
          let! _ := wre DxOpt k opt in
          let! c := lift (cpu_at k) in
          let! d := rde DxOpt k in
          let! _ := wre Temp k (ndiv A c d) in
          decide k step dxNew err errOld' y'.

  (** The loop over [k], seulex.C:390-518; [left] bounds the iterations.  Result: [k],
      [step.reject], [dxNew], [y]. *)
  Fixpoint columns (left k : nat) (x dx : num A) (step : stepState A) (dxNew errOld : num A)
    (y : list (num A)) : M (nat * bool * num A * list (num A)) :=
    let! kT := get_kTarg in
    if k <=? kT + 1 then
      match left with
      | O => lift Diverge
      | Datatypes.S left' =>
        let! a := column x dx k step dxNew errOld y in
        match a with
        | Leave r d y' => ret (k, r, d, y')
        | Go e y' => columns left' (k + 1) x dx step dxNew e y'
        end
      end
    else ret (k, false, dxNew, y).

  (** The loop over attempts, seulex.C:375-535; [fuel] bounds the attempts.  [redone] is
      [jacUpdated].  The warning about step size underflow (381-385) is left out.  Result:
      [k], [dx], [dxNew], [y], [step.prevReject]. *)
  Fixpoint attempts (fuel : nat) (x dxNew : num A) (redone : bool) (step : stepState A)
    (y : list (num A)) : M (nat * num A * num A * list (num A) * bool) :=
    match fuel with
    | O => lift Diverge
    | Datatypes.S fuel' =>
      let dx := if ss_forward step then dxNew else nneg A dxNew in
      let! (k, reject, dxNew', y') := columns (iMaxx + 1) 0 x dx step dxNew (lit A 0) y in
      if reject then
        let step' := mkStep (ss_forward step) (ss_dxTry step) (ss_dxDid step) (ss_first step)
                       (ss_last step) true true in
        let! redone' :=
          (if redone then ret true
           else
             let! _ := set_theta (nmul A (lit A 2) jacRedo) in
             let! theta := get_theta in
             if nltb A jacRedo theta then let! _ := call_jac x y' in ret true else ret false) in
        attempts fuel' x dxNew' redone' step' y'
      else ret (k, dx, dxNew', y', ss_prevReject step)
    end.

  (** The order for the next step, seulex.C:539-568. *)
  Definition order (k : nat) : M nat :=
    if k =? 1 then ret 2
    else
      let! kT := get_kTarg in
      if k <=? kT then
        let! a := rde Temp (k - 1) in
        let! b := rde Temp k in
        if nltb A a (nmul A (lit A (7 # 10)) b) then ret (k - 1)
        else if nltb A b (nmul A (lit A (9 # 10)) a) then ret (Nat.min (k + 1) (kMaxx - 1))
        else ret k
      else
        let! k1 := (if 2 <? k then
                      let! a := rde Temp (k - 2) in
                      let! b := rde Temp (k - 1) in
                      ret (if nltb A a (nmul A (lit A (7 # 10)) b) then k - 2 else k - 1)
                    else ret (k - 1)) in
        let! a := rde Temp k in
        let! b := rde Temp k1 in
        ret (if nltb A a (nmul A (lit A (9 # 10)) b) then Nat.min k (kMaxx - 1) else k1).

  (** The next step size, seulex.C:569-593. *)
  Definition next_size (k kopt : nat) (dx : num A) (prevReject : bool) : M (num A) :=
    if prevReject then
      let kT := Nat.min kopt k in
      let! _ := set_kTarg kT in
      let! d := rde DxOpt kT in
      ret (foam_min A (nabs A dx) d)
    else
      let! dxNew :=
        (if kopt <=? k then rde DxOpt kopt
         else
           let! kT := get_kTarg in
           let! up := (if k <? kT then
                         let! a := rde Temp k in
                         let! b := rde Temp (k - 1) in
                         ret (nltb A a (nmul A (lit A (9 # 10)) b))
                       else ret false) in
           let! d := rde DxOpt k in
           let! c1 := lift (cpu_at (if up then kopt + 1 else kopt)) in
           let! c0 := lift (cpu_at k) in
           ret (ndiv A (nmul A d c1) c0)) in
      let! _ := set_kTarg kopt in
      ret dxNew.

  (** [solve(x, y, li, step)], seulex.C:333-597. *)
  Definition step_solve (fuel : nat) (x : num A) (y : list (num A)) (step : stepState A)
    : M (num A * list (num A) * stepState A) :=
    let! _ := wre Temp 0 (great A) in
    let dx := ss_dxTry step in
    let! _ := wrv Y0 y in
    let! _ := wre DxOpt 0 (nabs A (nmul A (lit A (1 # 10)) dx)) in
    let! _ := (if ss_first step || ss_prevReject step
               then set_theta (nmul A (lit A 2) jacRedo) else ret tt) in
    let! _ := (if ss_first step then
                 let! r := lift (idx relTol 0) in
                 let! a := lift (idx absTol 0) in
                 let logTol := nadd A (nmul A (nneg A (flog10 cm (nadd A r a))) (lit A (6 # 10)))
                                 (lit A (1 # 2)) in
                 let! z := lift (rd (fint cm logTol)) in
                 set_kTarg (Z.to_nat (Z.max 1 (Z.min (Z.of_nat (kMaxx - 1)) z)))
               else ret tt) in
    let! sc := lift (scales y) in
    let! _ := wrv Scale sc in
    let! theta := get_theta in
    let! redone := (if nltb A jacRedo theta then let! _ := call_jac x y in ret true
                    else ret false) in
    let! (k, dx', _, y', prevReject) := attempts fuel x (nabs A dx) redone step y in
    let! kopt := order k in
    let! dxNew := next_size k kopt dx' prevReject in
    ret (nadd A x dx', y',
         mkStep (ss_forward step) (if ss_forward step then dxNew else nneg A dxNew) dx'
           (ss_first step) (ss_last step) false false).
End Model.
