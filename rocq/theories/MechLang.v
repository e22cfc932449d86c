(** The C subset in which the mechanism sources of /repo/utilities/mechanisms are written, and
    its meaning. *)
From Coq Require Import List NArith PArith QArith Bool FMapPositive.
From Verif Require Import Outcome Arith.
Import ListNotations.

(** The variables of the modelled functions, named as in the sources (drm19/lib/src/*.c and the
    same files of gri30 and yao).  A scalar is an array of one element. *)
Inductive var :=
| v_T | v_pres | v_rho | v_y | v_y_N | v_mw_avg | v_conc | v_C | v_h | v_u | v_cp | v_cv
| v_logT | v_kf | v_Kc | v_fwd_rxn_rates | v_rev_rxn_rates
| v_thd | v_k0 | v_kinf | v_Pr | v_logFcent | v_A | v_B | v_m | v_pres_mod
| v_fwd_rates | v_rev_rates | v_sp_rates | v_dy_N | v_cp_avg | v_dy
| v_X | v_X_N | v_Y | v_Y_N | v_temp | v_ret | v_y_specs
| v_jac | v_dBdT | v_j_temp | v_pres_mod_temp | v_kr | v_Fcent | v_lnF_AB | v_conc_temp | v_rho_inv
| v_spec_rates | v_J_nplusone | v_working_temp.

(** Numbers of the variables; not a function of /repo. *)
Definition var_id (v : var) : nat :=
  match v with
  | v_T => 0 | v_pres => 1 | v_rho => 2 | v_y => 3 | v_y_N => 4 | v_mw_avg => 5 | v_conc => 6 | v_C => 7
  | v_h => 8 | v_u => 9 | v_cp => 10 | v_cv => 11 | v_logT => 12 | v_kf => 13 | v_Kc => 14
  | v_fwd_rxn_rates => 15 | v_rev_rxn_rates => 16 | v_thd => 17 | v_k0 => 18 | v_kinf => 19 | v_Pr => 20
  | v_logFcent => 21 | v_A => 22 | v_B => 23 | v_m => 24 | v_pres_mod => 25 | v_fwd_rates => 26
  | v_rev_rates => 27 | v_sp_rates => 28 | v_dy_N => 29 | v_cp_avg => 30 | v_dy => 31 | v_X => 32
  | v_X_N => 33 | v_Y => 34 | v_Y_N => 35 | v_temp => 36 | v_ret => 37 | v_y_specs => 38
  | v_jac => 39 | v_dBdT => 40 | v_j_temp => 41 | v_pres_mod_temp => 42 | v_kr => 43 | v_Fcent => 44
  | v_lnF_AB => 45 | v_conc_temp => 46 | v_rho_inv => 47 | v_spec_rates => 48 | v_J_nplusone => 49
  | v_working_temp => 50
  end.

(** Equality of variables; not a function of /repo. *)
Definition var_eqb (a b : var) : bool := Nat.eqb (var_id a) (var_id b).

(** Expressions; [Ite a b t f] is [a <= b ? t : f], which no source uses (it stands for the
    outcome of an [if] statement in closed forms). *)
Inductive expr :=
| Num (q : Q)
| Ref (v : var) (i : N)
| Neg (e : expr)
| Add (a b : expr)
| Sub (a b : expr)
| Mul (a b : expr)
| Div (a b : expr)
| Exp (e : expr)
| Log (e : expr)
| Log10 (e : expr)
| Pow (a b : expr)
| Fmax (a b : expr)
| Ite (a b t f : expr).

(** Assignments [v[i] = e], [+=], [-=], [*=]. *)
Inductive asgn := Asn (v : var) (i : N) (e : expr) | AddA (v : var) (i : N) (e : expr)
| SubA (v : var) (i : N) (e : expr) | MulA (v : var) (i : N) (e : expr).

(** Statements; [If a b t f] is [if (a <= b) {t} else {f}]. *)
Inductive stmt := Do (a : asgn) | If (a b : expr) (t f : list asgn).

Declare Scope mech_scope.
Delimit Scope mech_scope with mech.
Bind Scope mech_scope with expr.
Arguments Num q%Q.
Arguments Ref v i%N.
Arguments Asn v i%N e%mech.
Arguments AddA v i%N e%mech.
Arguments SubA v i%N e%mech.
Arguments MulA v i%N e%mech.
Arguments Exp e%mech.
Arguments Log e%mech.
Arguments Log10 e%mech.
Arguments Pow (a b)%mech.
Arguments Fmax (a b)%mech.
Arguments If (a b)%mech t f.
Notation "a + b" := (Add a b) : mech_scope.
Notation "a - b" := (Sub a b) : mech_scope.
Notation "a * b" := (Mul a b) : mech_scope.
Notation "a / b" := (Div a b) : mech_scope.
Notation "- a" := (Neg a) : mech_scope.
Notation "# q" := (Num q%Q) (at level 1, q at level 0, format "# q") : mech_scope.
Notation "$ v" := (Ref v 0%N) (at level 1, v at level 0, format "$ v") : mech_scope.
Notation "v .[ i ]" := (Ref v i%N) (at level 1, format "v .[ i ]") : mech_scope.

(** The functions of the C mathematics library that the sources call. *)
Record libm (A : Arith) := mkLibm {
  m_exp : num A -> num A;
  m_log : num A -> num A;
  m_log10 : num A -> num A;
  m_pow : num A -> num A -> num A
}.
Arguments mkLibm {A}.
Arguments m_exp {A}.
Arguments m_log {A}.
Arguments m_log10 {A}.
Arguments m_pow {A}.

(** [fmax] of the C mathematics library: a NaN argument is ignored. *)
Definition c_fmax (A : Arith) (x y : num A) : num A :=
  if nltb A x y then y else if neqb A x x then x else y.

Section Meaning.
  Context {A : Arith}.
  Variable M : libm A.
  Variable len : var -> N.

  (** Contents of the variables; [None]: not initialised. *)
  Definition mem := var -> N -> option (num A).

  (** Reading [v[i]]: outside the array or not initialised is undefined behaviour. *)
  Definition load (m : mem) (v : var) (i : N) : outcome (num A) :=
    if (i <? len v)%N then match m v i with Some x => Ok x | None => UB end else UB.

  (** Writing [v[i]]. *)
  Definition store (m : mem) (v : var) (i : N) (x : num A) : outcome mem :=
    if (i <? len v)%N
    then Ok (fun w j => if var_eqb v w && (i =? j)%N then Some x else m w j)
    else UB.

  (** Value of an expression.  (The unary minus is multiplication by -1, the same in IEEE
      arithmetic.) *)
  Fixpoint eval (m : mem) (e : expr) : outcome (num A) :=
    match e with
    | Num q => Ok (lit A q)
    | Ref v i => load m v i
    | Neg a => let* x := eval m a in Ok (nmul A (lit A (-1)) x)
    | Add a b => let* x := eval m a in let* y := eval m b in Ok (nadd A x y)
    | Sub a b => let* x := eval m a in let* y := eval m b in Ok (nsub A x y)
    | Mul a b => let* x := eval m a in let* y := eval m b in Ok (nmul A x y)
    | Div a b => let* x := eval m a in let* y := eval m b in Ok (ndiv A x y)
    | Exp a => let* x := eval m a in Ok (m_exp M x)
    | Log a => let* x := eval m a in Ok (m_log M x)
    | Log10 a => let* x := eval m a in Ok (m_log10 M x)
    | Pow a b => let* x := eval m a in let* y := eval m b in Ok (m_pow M x y)
    | Fmax a b => let* x := eval m a in let* y := eval m b in Ok (c_fmax A x y)
    | Ite a b t f =>
        let* x := eval m a in let* y := eval m b in
        if nleb A x y then eval m t else eval m f
    end.

  (** One assignment. *)
  Definition assign (m : mem) (s : asgn) : outcome mem :=
    match s with
    | Asn v i e => let* x := eval m e in store m v i x
    | AddA v i e => let* x := eval m e in let* o := load m v i in store m v i (nadd A o x)
    | SubA v i e => let* x := eval m e in let* o := load m v i in store m v i (nsub A o x)
    | MulA v i e => let* x := eval m e in let* o := load m v i in store m v i (nmul A o x)
    end.

  (** Assignments in order. *)
  Fixpoint assigns (m : mem) (l : list asgn) : outcome mem :=
    match l with
    | [] => Ok m
    | s :: r => let* m' := assign m s in assigns m' r
    end.

  (** One statement. *)
  Definition step (m : mem) (s : stmt) : outcome mem :=
    match s with
    | Do a => assign m a
    | If a b t f =>
        let* x := eval m a in let* y := eval m b in
        if nleb A x y then assigns m t else assigns m f
    end.

  (** A function body. *)
  Fixpoint run (m : mem) (l : list stmt) : outcome mem :=
    match l with
    | [] => Ok m
    | s :: r => let* m' := step m s in run m' r
    end.

  (** The elements of [v]; undefined behaviour if one of them was not written.  (What a caller
      that reads the whole array gets.) *)
  Definition read (m : mem) (v : var) : outcome (list (num A)) :=
    mapM (fun i => load m v (N.of_nat i)) (seq 0 (N.to_nat (len v))).
End Meaning.

(** Memory with the given arrays and all else uninitialised; not a function of /repo. *)
Definition given {A : Arith} (l : list (var * list (num A))) : @mem A :=
  fun v i =>
    match find (fun p => var_eqb (fst p) v) l with
    | Some p => nth_error (snd p) (N.to_nat i)
    | None => None
    end.
