(** Property C83: the pressure in the mechanism libraries and in the system that the ODE solver integrates.
    Vocabulary: [molecules] counts the molecules of a side (MechKin.v), [specific_rate] is the rate of progress over the density (MechJacR.v),
    [third_count] is 1 for a three-body reaction (MechPress.v); the rest as in PropFull.v and PropModel.v. *)
From Coq Require Import List ZArith NArith QArith Qabs Qreals Reals Bool String Lra Lia.
From Verif Require Import Outcome Arith MechLang MechSrc MechReal MechChem Mechanisms MechSpec MechRate MechPmod MechKin MechJacR MechFull PyJac PyJacSpec MechModel MechPress MechPressX PropMech.
Import ListNotations.

(** ** C83: pressure dependence *)

(** Any arithmetic: rates of the reactions depend on the pressure through the concentrations only. *)
Theorem C83_rates : forall (A : Arith) (M : libm A) m (T p1 p2 : num A) (C : list (num A)), List.length C = s_NSP (library m) ->
  lib_eval_rxn_rates M (library m) T p1 C = lib_eval_rxn_rates M (library m) T p2 C.
Proof. exact @rates_no_pressure. Qed.
Print Assumptions C83_rates.

Local Open Scope R_scope.

(** At [c] times the pressure: density and concentrations grow by the factor [c], a rate by [c] to the number of molecules that react,
    the factor of a three-body reaction by [c]. *)
Theorem C83_scaling : forall m (T p : R) (y : list R), 0 < T -> 0 < p -> List.length y = (s_NSP (library m) - 1)%nat ->
  (forall k, (k < List.length y)%nat -> 0 <= nth k y 0) -> Rsum y <= 1 -> forall c : R, 0 < c ->
  exists (yN mw rho : R) (C fwd rev pm fwd' rev' pm' : list R),
    lib_eval_conc (A := RA) exact_libm (library m) T p y = Ok (yN, mw, rho, C) /\
    lib_eval_rxn_rates (A := RA) exact_libm (library m) T p C = Ok (fwd, rev) /\ lib_get_rxn_pres_mod (A := RA) exact_libm (library m) T p C = Ok pm /\
    lib_eval_conc (A := RA) exact_libm (library m) T (c * p) y = Ok (yN, mw, c * rho, map (Rmult c) C) /\
    lib_eval_rxn_rates (A := RA) exact_libm (library m) T (c * p) (map (Rmult c) C) = Ok (fwd', rev') /\
    lib_get_rxn_pres_mod (A := RA) exact_libm (library m) T (c * p) (map (Rmult c) C) = Ok pm' /\
    forall i, (i < List.length (ch_reactions (chem m)))%nat ->
      nth i fwd' 0 = c ^ molecules (rx_lhs (rxn (chem m) i)) * nth i fwd 0 /\
      (rx_rev (rxn (chem m) i) = true ->
       nth (rank rx_rev (ch_reactions (chem m)) i) rev' 0 = c ^ molecules (rx_rhs (rxn (chem m) i)) * nth (rank rx_rev (ch_reactions (chem m)) i) rev 0) /\
      (rx_kind (rxn (chem m) i) = ThreeBody ->
       nth (rank pdep (ch_reactions (chem m)) i) pm' 0 = c * nth (rank pdep (ch_reactions (chem m)) i) pm 0).
Proof. exact rates_scaled. Qed.
Print Assumptions C83_scaling.

(** The mixture of C66 and twice the pressure; reaction 23 of drm19 (2 H + H2 <=> 2 H2) has three molecules on the left and two on the right. *)
Example C83_case : List.length ex_mix = (s_NSP (library drm19) - 1)%nat /\
  molecules (rx_lhs (rxn (chem drm19) 23)) = 3%nat /\ molecules (rx_rhs (rxn (chem drm19) 23)) = 2%nat /\ rx_kind (rxn (chem drm19) 22) = ThreeBody.
Proof. repeat split. Qed.

(** The derivative along the pressure of the rate of progress over the density: the number of molecules less one times the rate over the pressure. *)
Theorem C83_derivative : forall m (T p : R) (y : list R), 0 < T -> 0 < p -> List.length y = (s_NSP (library m) - 1)%nat ->
  (forall k, (k < List.length y)%nat -> 0 <= nth k y 0) -> Rsum y <= 1 ->
  exists (yN mw rho : R) (C fwd rev pm : list R),
    lib_eval_conc (A := RA) exact_libm (library m) T p y = Ok (yN, mw, rho, C) /\ 0 < rho /\
    lib_eval_rxn_rates (A := RA) exact_libm (library m) T p C = Ok (fwd, rev) /\ lib_get_rxn_pres_mod (A := RA) exact_libm (library m) T p C = Ok pm /\
    forall i, (i < List.length (ch_reactions (chem m)))%nat -> rx_kind (rxn (chem m) i) <> Falloff ->
      derivable_pt_lim (fun u => specific_rate m u y i T) p
        ((if pdep (rxn (chem m) i) then nth (rank pdep (ch_reactions (chem m)) i) pm 0 else 1) *
         ((INR (molecules (rx_lhs (rxn (chem m) i)) + third_count (rxn (chem m) i)) - 1) * nth i fwd 0 -
          (INR (molecules (rx_rhs (rxn (chem m) i)) + third_count (rxn (chem m) i)) - 1) *
            (if rx_rev (rxn (chem m) i) then nth (rank rx_rev (ch_reactions (chem m)) i) rev 0 else 0)) / (rho * p)).
Proof. exact pressure_derive. Qed.
Print Assumptions C83_derivative.

(** [jacobian] is not the derivative with respect to the pressure: that column is zero, while in pure hydrogen the rate of change of the mass
    fraction of H grows with the pressure. *)
Theorem C83_column_refuted : ~ forall (T p : R) (y : list R) s t rows s',
  List.length y = 20%nat -> 200 <= T <= 5000 -> 0 < p -> (forall k, (k < List.length y)%nat -> 0 <= nth k y 0) -> Rsum y <= 1 ->
  pj_jac (drm19_mech (A := RA) exact_libm) 21 s t (T :: y ++ [p]) = Ok (repeat (zero RA) 22, rows, s') ->
  forall k d, (k < 21)%nat -> derivable_pt_lim (fun u => nth k (pj_rhs (drm19_mech (A := RA) exact_libm) 21 t (T :: y ++ [u])) 0) p d ->
  nth 21 (nth k rows []) 0 = d.
Proof. exact pressure_column_refuted. Qed.
Print Assumptions C83_column_refuted.

(** The linear systems [a x - J x = b] of a linearly implicit solver have the same solutions with any other column for the pressure, [derivatives]
    being zero for the pressure. *)
Theorem C83_linear : forall (T p : R) (y : list R) s t, List.length y = 20%nat ->
  exists (rows : list (list R)) s', pj_jac (drm19_mech (A := RA) exact_libm) 21 s t (T :: y ++ [p]) = Ok (repeat (zero RA) 22, rows, s') /\
    forall (a : R) (b x c : nat -> R), a <> 0 -> b 21%nat = 0 ->
    ((forall i, (i < 22)%nat -> a * x i - Rsumn 22 (fun j => nth j (nth i rows []) 0 * x j) = b i) <->
     (forall i, (i < 22)%nat -> a * x i - Rsumn 22 (fun j => (if (j =? 21)%nat && (i <? 21)%nat then c i else nth j (nth i rows []) 0) * x j) = b i)).
Proof. exact pressure_column_free. Qed.
Print Assumptions C83_linear.
