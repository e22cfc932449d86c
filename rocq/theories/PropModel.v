(** Property C82: the chemistry model linked with a mechanism library, from the C sources of the library up to the system that the ODE
    solver integrates.
    Vocabulary: [lib_mech], [drm19_mech], [cut] in MechModel.v; [pj_derivs], [pj_jac] (derivatives, jacobian) in PyJac.v; [pj_rhs] is what
    [pj_derivs] returns (PyJacSpec.v); the state is temperature, mass fractions but the last, pressure; the rest as in PropFull.v. *)
From Coq Require Import List ZArith NArith QArith Qabs Qreals Reals Bool String Lra Lia.
From Verif Require Import Outcome Arith MechLang MechSrc MechReal MechChem Mechanisms
  MechSpec MechRate MechFacts MechNasa MechKin MechData MechJac MechJacC MechJacW MechJacX MechFull MechFullC MechFullF MechFullH PyJac PyJacSpec MechModel MechModelR PropMech PropJac PropFull.
Import ListNotations.
Local Open Scope nat_scope.

(** ** C82: the system handed to the ODE solver *)

(** Any arithmetic and each of the libraries: [derivatives] returns the rates of the library at the mass fractions cut off at zero, and
    zero for the pressure. *)
Theorem C82_rhs : forall (A : Arith) (M : libm A) m jac s t (T p : num A) ys, List.length ys = s_NSP (library m) - 1 ->
  exists dy s', lib_dydt M (library m) p (T :: map (fun v => if nltb A (zero A) v then v else zero A) ys) = Ok dy /\ List.length dy = s_NSP (library m) /\
    pj_derivs (lib_mech M m jac) (s_NSP (library m)) s t (T :: ys ++ [p]) = Ok (dy ++ [zero A], s').
Proof. exact @linked_rhs. Qed.
Print Assumptions C82_rhs.

(** Any arithmetic, drm19: [jacobian] returns the elements that [eval_jacob] writes, whatever its local array holds, by rows, and zeros for
    the pressure. *)
Theorem C82_jacobian : forall (A : Arith) (M : libm A) s t (T p : num A) ys dB0, List.length ys = 20 -> List.length dB0 = 21 ->
  exists J rows s',
    lib_jacob M (library drm19) drm19_jac_all p (T :: map (fun v => if nltb A (zero A) v then v else zero A) ys) (repeat (zero A) (21 * 21)) dB0 = Ok J /\
    List.length J = 21 * 21 /\
    pj_jac (drm19_mech M) 21 s t (T :: ys ++ [p]) = Ok (repeat (zero A) 22, rows, s') /\ List.length rows = 22 /\
    (forall i, i < 22 -> List.length (nth i rows []) = 22) /\
    (forall i j, i < 21 -> j < 21 -> nth j (nth i rows []) (zero A) = nth (j * 21 + i) J (zero A)) /\
    (forall i, nth 21 (nth i rows []) (zero A) = zero A) /\ (forall j, nth j (nth 21 rows []) (zero A) = zero A).
Proof. exact @linked_jacobian. Qed.
Print Assumptions C82_jacobian.

Local Open Scope R_scope.

(** Over the reals: [derivatives] conserves the elements that the last species does not contain. *)
Theorem C82_elements : forall m, exists w, weights m w /\
  forall (M : libm RA) jac (s : scratch (A := RA)) (t T p : R) (y : list R) e, List.length y = (s_NSP (library m) - 1)%nat ->
  (e < ch_elements (chem m))%nat -> atoms (chem m) e (s_NSP (library m) - 1) = 0%nat ->
  exists dcdt s', pj_derivs (lib_mech M m jac) (s_NSP (library m)) s t (T :: y ++ [p]) = Ok (dcdt, s') /\ List.length dcdt = (s_NSP (library m) + 1)%nat /\
    Rsumn (s_NSP (library m) - 1) (fun k => INR (atoms (chem m) e k) / w k * nth (k + 1) dcdt 0) = 0.
Proof. exact model_elements. Qed.
Print Assumptions C82_elements.

(** Oxygen, hydrogen and carbon in each of the mechanisms. *)
Example C82_elements_case : forallb (fun m => forallb (fun e => Nat.ltb e (ch_elements (chem m)) && Nat.eqb (atoms (chem m) e (s_NSP (library m) - 1)) 0) [0; 1; 2]%nat)
  [drm19; gri30; yao] = true.
Proof. vm_compute. reflexivity. Qed.

(** Over the reals: the column of [jacobian] for a mass fraction that is positive holds the derivatives of what [derivatives] returns. *)
Theorem C82_column : forall (T p : R) (y : list R) s t,
  List.length y = 20%nat -> 200 <= T <= 5000 -> 0 < p -> (forall k, (k < List.length y)%nat -> 0 <= nth k y 0) -> Rsum y <= 1 ->
  exists rows s', pj_jac (drm19_mech (A := RA) exact_libm) 21 s t (T :: y ++ [p]) = Ok (repeat (zero RA) 22, rows, s') /\ 0 < mean_capacity drm19 y T /\
    forall j, (j < 20)%nat -> 0 < nth j y 0 ->
    (forall i, (i < List.length (ch_reactions (chem drm19)))%nat -> rx_kind (rxn (chem drm19) i) = Falloff ->
       (exists s, In s (rx_lhs (rxn (chem drm19) i)) /\ (0 < snd s)%nat /\ fst s <> j /\ (fst s < List.length y)%nat /\ nth (fst s) y 0 = 0) /\
       (rx_rev (rxn (chem drm19) i) = true ->
        exists s, In s (rx_rhs (rxn (chem drm19) i)) /\ (0 < snd s)%nat /\ fst s <> j /\ (fst s < List.length y)%nat /\ nth (fst s) y 0 = 0)) ->
    exists D : list R,
      (forall k, (k < 21)%nat -> derivable_pt_lim (fun u => nth k (pj_rhs (drm19_mech (A := RA) exact_libm) 21 t (T :: upd y j u ++ [p])) 0) (nth j y 0) (nth k D 0)) /\
      (forall k, (k < 20)%nat -> Rabs (nth (j + 1) (nth (k + 1) rows []) 0 - nth (k + 1) D 0) <= fraction_error drm19 T p y j k) /\
      Rabs (nth (j + 1) (nth 0 rows []) 0 - nth 0 D 0) <=
        Rsumn 20 (fun k => fraction_error drm19 T p y j k * Rabs (enthalpy drm19 k T)) / mean_capacity drm19 y T +
        Q2R (Qmake 1 1125899906842624) * row_size drm19 p y j T / (mean_capacity drm19 y T * mean_capacity drm19 y T).
Proof. exact model_column. Qed.
Print Assumptions C82_column.

(** Over the reals: so does the column for the temperature. *)
Theorem C82_temperature : forall (T p : R) (y : list R) s t,
  List.length y = 20%nat -> 200 <= T <= 5000 -> 0 < p -> (forall k, (k < List.length y)%nat -> 0 <= nth k y 0) -> Rsum y <= 1 ->
  (forall k, Q2R (n_mid (species_nasa drm19 k)) <> T) ->
  (forall i, (i < List.length (ch_reactions (chem drm19)))%nat -> rx_kind (rxn (chem drm19) i) = Falloff ->
     (exists s, In s (rx_lhs (rxn (chem drm19) i)) /\ (0 < snd s)%nat /\ nth (fst s) (y ++ [1 - Rsum y]) 0 = 0) /\
     (rx_rev (rxn (chem drm19) i) = true ->
      exists s, In s (rx_rhs (rxn (chem drm19) i)) /\ (0 < snd s)%nat /\ nth (fst s) (y ++ [1 - Rsum y]) 0 = 0)) ->
  exists rows s' (D : list R), pj_jac (drm19_mech (A := RA) exact_libm) 21 s t (T :: y ++ [p]) = Ok (repeat (zero RA) 22, rows, s') /\ 0 < mean_capacity drm19 y T /\
    (forall k, (k < 21)%nat -> derivable_pt_lim (fun u => nth k (pj_rhs (drm19_mech (A := RA) exact_libm) 21 t (u :: y ++ [p])) 0) T (nth k D 0)) /\
    (forall k, (k < 20)%nat -> Rabs (nth 0 (nth (k + 1) rows []) 0 - nth (k + 1) D 0) <= species_error drm19 p y T k) /\
    Rabs (nth 0 (nth 0 rows []) 0 - nth 0 D 0) <=
      (Rsumn 20 (fun k => species_error drm19 p y T k * Rabs (enthalpy drm19 k T)) + 3 * Q2R 4e-15 * energy_size drm19 p y T) / mean_capacity drm19 y T.
Proof. exact model_temperature. Qed.
Print Assumptions C82_temperature.

(** Hydrogen, oxygen, OH and nitrogen at 2000 K and 1 bar: the condition on the fall-off reactions holds (C80_case, C77_case) for the
    columns of the temperature and of the three species. *)
Example C82_case : exists rows s', pj_jac (drm19_mech (A := RA) exact_libm) 21 (fun _ => None) 0 (2000 :: ex_mix ++ [100000]) = Ok (repeat (zero RA) 22, rows, s') /\
  forall j, In j [0; 3; 4]%nat -> exists D : list R,
    (forall k, (k < 21)%nat -> derivable_pt_lim (fun u => nth k (pj_rhs (drm19_mech (A := RA) exact_libm) 21 0 (2000 :: upd ex_mix j u ++ [100000])) 0) (nth j ex_mix 0) (nth k D 0)) /\
    forall k, (k < 20)%nat -> Rabs (nth (j + 1) (nth (k + 1) rows []) 0 - nth (k + 1) D 0) <= fraction_error drm19 2000 100000 ex_mix j k.
Proof.
  destruct C77_case as (A1 & A2 & A3 & _ & _ & _ & A6).
  destruct (C82_column 2000 100000 ex_mix (fun _ => None) 0 A1 ltac:(lra) ltac:(lra) A2 A3) as (rows & s' & E & _ & H). exists rows, s'. split; [exact E|].
  intros j Hj. assert (J3 : (j < 20)%nat /\ 0 < nth j ex_mix 0 /\ In j [0; 1; 2; 3; 4; 5; 6; 7; 8; 12; 13; 16; 19]%nat).
  { clear - Hj A6. assert (I : In j [0; 3; 4; 20]%nat) by (destruct Hj as [<-|[<-|[<-|[]]]]; cbn; tauto). assert (P := A6 j I).
    assert (L : (j < 20)%nat) by (destruct Hj as [<-|[<-|[<-|[]]]]; lia). rewrite app_nth1 in P by exact L.
    split; [exact L|]. split; [exact P|]. destruct Hj as [<-|[<-|[<-|[]]]]; cbn; tauto. }
  destruct J3 as (J1 & J2 & J3). destruct (H j J1 J2 (C80_case j J3)) as (D & D1 & D2 & _). exists D. split; assumption.
Qed.
