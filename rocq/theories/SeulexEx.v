(** Concrete instances used in examples and refutations about seulex: library functions computed
    on rationals and doubles, small linear solvers and systems. *)
From Coq Require Import List Arith ZArith QArith Qabs Qround Bool Lia Lqa Setoid.
From Coq Require Import Floats.SpecFloat.
From Verif Require Import Outcome Arith ChemistryModel OdeSolver Seulex.
Import ListNotations.
Local Open Scope nat_scope.

(** Floor of the [m]-th root of [z] below 2^b. *)
Fixpoint zroot_bits (m : Z) (z acc : Z) (b : nat) : Z :=
  match b with
  | O => acc
  | S b' => let t := (acc + 2 ^ Z.of_nat b')%Z in
            if (t ^ m <=? z)%Z then zroot_bits m z t b' else zroot_bits m z acc b'
  end.

(** Square root with 60 binary places, exact for squares of rationals. *)
Definition qsqrt (q : Q) : Q :=
  let r := Qred q in
  Qred (inject_Z (Z.sqrt (Qnum r * Zpos (Qden r) * 4 ^ 60)) / inject_Z (Zpos (Qden r) * 2 ^ 60))%Q.

(** [q] to the power [e = 1/m] with 20 binary places (for [q] below 2^24). *)
Definition qpow (q e : Q) : Q :=
  let m := Qfloor (/ e + (1 # 2)) in
  let z := Qfloor (q * inject_Z (2 ^ (20 * m))) in
  Qred (inject_Z (zroot_bits m z 0 44) / inject_Z (2 ^ 20))%Q.

(** A whole number near the decimal logarithm of [q] (for [q] below 10). *)
Fixpoint digits (q : Q) (fuel : nat) : Z :=
  match fuel with
  | O => 0%Z
  | S f => if Qle_bool 1 q then 0%Z else (digits (q * 10)%Q f - 1)%Z
  end.
Definition qlog10 (q : Q) : Q := inject_Z (digits q 30).

(** Conversion to [int] truncates. *)
Definition qint (q : Q) : option Z := Some (Z.quot (Qnum q) (Zpos (Qden q))).

(** The library functions over exact numbers. *)
Definition qmath : cmath QAD := mkCmath QAD qsqrt qpow qlog10 qint.

(** Rational value of a double; 0 for infinities and NaN. *)
Definition q_of_f64 (x : spec_float) : Q :=
  match x with
  | S754_finite s m e =>
    let z := if s then Zneg m else Zpos m in
    if (0 <=? e)%Z then inject_Z (z * 2 ^ e) else (inject_Z z / inject_Z (2 ^ (- e)))%Q
  | _ => 0%Q
  end.

(** The library functions over doubles; NaN gives NaN. *)
Definition via_q (f : Q -> Q) (x : spec_float) : spec_float :=
  match x with S754_nan => S754_nan | _ => f64_of_Q (f (q_of_f64 x)) end.
Definition fmath : cmath F64 :=
  mkCmath F64 (SFsqrt 53 1024) (fun x e => via_q (fun q => qpow q (q_of_f64 e)) x) (via_q qlog10)
    (fun x => match x with S754_finite _ _ _ | S754_zero _ => qint (q_of_f64 x) | _ => None end).

(** Linear systems with one equation. *)
Definition lap1 {A : Arith} : lapack A :=
  mkLapack A (num A) (fun _ a => nth 0 a (zero A)) (fun _ f b _ => ndiv A (nth 0 b (zero A)) f).

(** One equation [y' = f x y] with constant Jacobian [j]. *)
Definition scalar_sys {A : Arith} (f : num A -> num A -> num A) (j : num A) : odesys A unit :=
  mkSys 1
    (fun s x y => match y with [v] => Ok ([f x v], s) | _ => UB end)
    (fun s x y => match y with [_] => Ok ([zero A], [[j]], s) | _ => UB end).

(** Decay, [y' = -y]. *)
Definition decay : odesys QAD unit := scalar_sys (A := QAD) (fun _ v => - v)%Q (-1)%Q.

(** Exact arithmetic with results in lowest terms. *)
Definition QR : Arith :=
  mkArith Q (fun q => q) (fun a b => Qred (a + b)) (fun a b => Qred (a - b)) (fun a b => Qred (a * b))
    (fun a b => Qred (a / b)) Qabs Qltb Qle_bool Qeq_bool (small QAD) (great QAD) (vgreat QAD).
Definition qrmath : cmath QR := mkCmath QR qsqrt qpow qlog10 qint.
(** [y' = -y] there. *)
Definition rdecay : odesys QR unit := scalar_sys (A := QR) (fun _ v => - v)%Q (-1)%Q.

(** A system [y' = f x] whose errors make seulex reject two attempts of the second step and then
    try a larger step: the columns of the attempts of size [ex_D] and [ex_H] have the scaled
    errors 50, 1.1, 1.2 and 0.26, 1.03, 1.5; with any other step all errors are 0. *)
Definition ex_absTol : list Q := [9 # 10000]%Q.
Definition ex_relTol : list Q := [1 # 10000]%Q.
Definition ex_D : Q := Qred (1 / qpow (1 # 10) (1 # 2) * (33 # 15))%Q.
Definition ex_H : Q := Qred (ex_D * factor (A := QR) qrmath 2 (11 # 10)%Q)%Q.
Definition ex_f (x : Q) : Q :=
  let z := Qred (x - 1) in
  let sc := (1009 # 10000)%Q in
  let pick (H e1 e2 e3 : Q) :=
    (let d1 := e1 * sc / 2 in
     let d2 := (e2 * sc + 6 * d1) / 4 in
     let n21 := 4 * d2 - 3 * d1 in
     let n22 := n21 + (4 * d2 - 6 * d1) in
     let n31 := (2 * e3 * sc + n21 + n22) / 2 in
     let d3 := (n31 + 2 * d2) / 3 in
     if Qeq_bool z (H / 3) then d1 * 3 / H
     else if Qeq_bool z (H / 4) then d2 * 4 / H
     else if Qeq_bool z (H / 6) then d3 * 6 / H - d1 * 3 / H
     else 0)%Q in
  Qred (pick ex_D 50 (11 # 10) (12 # 10) + pick ex_H (26 # 100) (103 # 100) (15 # 10))%Q.
Definition ex_grow : odesys QR unit := scalar_sys (A := QR) (fun x _ => ex_f x) 0%Q.

(** [y' = 100]. *)
Definition ex_ramp : odesys QAD unit := scalar_sys (A := QAD) (fun _ _ => 100)%Q 0%Q.
