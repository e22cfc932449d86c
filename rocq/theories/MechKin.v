(** [eval_rxn_rates]: the rate constants are those of the Arrhenius parameters and the Gibbs
    functions of chem.cti. *)
From Coq Require Import List ZArith NArith QArith Qabs Qreals Reals Bool Lra Lia.
From Verif Require Import Outcome Arith MechLang MechSym MechSrc MechCall MechReal MechPoly MechChem Mechanisms
  MechSpec MechRate MechPmod MechThermo MechData MechExp MechLaurent MechNasa.
Import ListNotations.
Local Open Scope nat_scope.

(** ** What chem.cti says *)

(** Number of molecules on a side. *)
Definition molecules (l : list (nat * nat)) : nat := list_sum (map snd l).

(** Order of the forward reaction (the third body of a three-body reaction counts). *)
Definition order (r : reaction) : nat :=
  molecules (rx_lhs r) + match rx_kind r with ThreeBody => 1 | _ => 0 end.

(** Pre-exponential factor in m, kmol, s for a reaction of order [n] given in cm, mol, s: one
    cm3/mol is 1/1000 m3/kmol. *)
Definition factor_si (a : arrhenius) (n : nat) : R := (Q2R (a_A a) * 1000 / 1000 ^ n)%R.

(** Activation temperature: E is in cal/mol, a calorie is 4.184 J. *)
Definition act_T (a : arrhenius) : R := (Q2R (a_E a) * 4.184 * 1000 / gas_constant)%R.

(** Rate constant A T^b exp(-E/(R T)). *)
Definition rate_arr (a : arrhenius) (n : nat) (T : R) : R :=
  (factor_si a n * Rpower T (Q2R (a_b a)) * exp (- act_T a / T))%R.

(** Entropy s/R of NASA coefficients [a]. *)
Definition s_R (a : nat -> R) (T : R) : R :=
  (a 0%nat * ln T + a 1%nat * T + a 2%nat / 2 * T ^ 2 + a 3%nat / 3 * T ^ 3 + a 4%nat / 4 * T ^ 4 + a 6%nat)%R.

(** Gibbs function g/(R T) at the standard pressure. *)
Definition g_RT (a : nat -> R) (T : R) : R := (h_R a T / T - s_R a T)%R.

(** Size of the terms of g/(R T) (in absolute value), for error bounds. *)
Definition g_size (a : nat -> R) (T : R) : R :=
  (a 6%nat + a 0%nat + (a 0%nat + 1) * Rabs (ln T) + a 1%nat / 2 * T + a 2%nat / 6 * T ^ 2 + a 3%nat / 12 * T ^ 3 +
   a 4%nat / 20 * T ^ 4 + a 5%nat / T)%R.

(** Sum over the molecules of a side. *)
Definition side_sum (l : list (nat * nat)) (f : nat -> R) : R :=
  Rsum (map (fun p => INR (snd p) * f (fst p))%R l).

(** Rate data of reaction [i]. *)
Definition kin (m : mechanism) (i : nat) : kinetics := nth i (rate_data m) (mkKin (mkArr 1 0 0) None None).

(** Gibbs function of species [k]. *)
Definition gibbs (m : mechanism) (T : R) (k : nat) : R := g_RT (nasa_at (species_nasa m k) T) T.

(** Size of its terms. *)
Definition gibbs_size (m : mechanism) (T : R) (k : nat) : R := g_size (nasa_abs (species_nasa m k) T) T.

(** The standard pressure, 1 atm in Pa. *)
Definition p_std : R := 101325.

(** Logarithm of the equilibrium constant in concentrations (kmol/m3). *)
Definition ln_Kc (m : mechanism) (T : R) (r : reaction) : R :=
  (side_sum (rx_lhs r) (gibbs m T) - side_sum (rx_rhs r) (gibbs m T) +
   (INR (molecules (rx_rhs r)) - INR (molecules (rx_lhs r))) * ln (p_std / (gas_constant * T)))%R.

(** ** Checks *)

(** Powers of rationals. *)
Fixpoint qpow (q : Q) (n : nat) : Q := match n with O => 1%Q | S i => (q * qpow q i)%Q end.

Lemma qpow_val q n : Q2R (qpow q n) = (Q2R q ^ n)%R.
Proof. induction n as [|n IH]; cbn [qpow pow]; [apply Q2R_1|]. rewrite Q2R_mult, IH. reflexivity. Qed.

(** Relative error of ln A. *)
Definition tolA : Q := 1e-14.

(** Error of the other numbers, 2^-50. *)
Definition tolE : Q := Qmake 1 1125899906842624.

(** Any temperature. *)
Definition anyT : region := mkRegion 0 None.

(** Activation temperature as a rational. *)
Definition qact (a : arrhenius) : Q := (a_E a * 4184 / Ru)%Q.

(** A closed form is the rate constant of Arrhenius parameters. *)
Definition arr_ok (a : arrhenius) (n : nat) (e : expr) : bool :=
  match pos_form anyT e with
  | Some (c, l) =>
      Qeq_bool (l_log l) (a_b a) &&
      Qle_bool (Qabs (qplus (l_inv l) (qact a))) (tolE * Qabs (qact a)) &&
      match constant (mkLau 0 0 (l_poly l)) with
      | Some q => exp_close tolA (c * qpow 1000 n) q (a_A a * 1000)
      | None => false
      end
  | None => false
  end.

(** ln T and 1/T coefficients and polynomial agree. *)
Definition lau_near (eps : Q) (a b s : laurent) : bool :=
  Qle_bool (Qabs (qplus (l_log a) (- l_log b))) (eps * Qabs (l_log s)) &&
  Qle_bool (Qabs (qplus (l_inv a) (- l_inv b))) (eps * Qabs (l_inv s)) &&
  near eps (l_poly a) (l_poly b) (l_poly s).

(** The same number on the denominator [d], if possible. *)
Definition on_den (d : positive) (q : Q) : Q :=
  let (k, z) := Z.div_eucl (Zpos d) (Zpos (Qden q)) in
  if (z =? 0)%Z then Qmake (Qnum q * k) d else q.

(** Denominators for the seven NASA coefficients. *)
Definition dens : list positive :=
  [10000000000; 1000000000000000000000; 100000000000000000000000; 100000000000000000000000000;
   1000000000000000000000000000000; 10000000; 10000000000]%positive.

(** A list of coefficients on these denominators. *)
Definition common (a : list Q) : list Q := map (fun x => on_den (fst x) (snd x)) (combine dens a).

(** The table of coefficients on common denominators. *)
Definition common_all (N : list nasa7) : list nasa7 :=
  map (fun n => mkNasa (n_mid n) (common (n_low n)) (common (n_high n))) N.

(** 60 times -g/(R T) - ln T of NASA coefficients (so that no division is needed). *)
Definition g_lau (a : list Q) : laurent :=
  match a with
  | [a0; a1; a2; a3; a4; a5; a6] =>
      mkLau (60 * qplus a0 (-1)) (-60 * a5) [60 * qplus a6 (- a0); 30 * a1; 10 * a2; 5 * a3; 3 * a4]%Q
  | _ => mkLau 0 0 []
  end.

(** 60 times the sizes of its terms. *)
Definition g_scale (a : list Q) : laurent :=
  match a with
  | [a0; a1; a2; a3; a4; a5; a6] =>
      mkLau (60 * qplus (Qabs a0) 1) (60 * Qabs a5)
        [60 * qplus (Qabs a6) (Qabs a0); 30 * Qabs a1; 10 * Qabs a2; 5 * Qabs a3; 3 * Qabs a4]%Q
  | _ => mkLau 0 0 []
  end.

(** Sum over the molecules of a side, on an interval of temperatures. *)
Fixpoint side_lau (N : list nasa7) (f : list Q -> laurent) (r : region) (l : list (nat * nat)) : option laurent :=
  match l with
  | [] => Some (mkLau 0 0 [])
  | (k, n) :: t =>
      match nth_error N k, side_lau N f r t with
      | Some e, Some s =>
          match branch r e with
          | Some a => if length a =? 7 then Some (lau_add (lau_scale (inject_Z (Z.of_nat n)) (f a)) s) else None
          | None => None
          end
      | _, _ => None
      end
  end.

(** Inserts a temperature in an increasing list. *)
Fixpoint insert (q : Q) (l : list Q) : list Q :=
  match l with
  | [] => [q]
  | x :: r => if Qeq_bool q x then l else if Qle_bool q x then q :: l else x :: insert q r
  end.

(** The temperatures at which a polynomial of a species of the reaction changes. *)
Definition switches (N : list nasa7) (r : reaction) : list Q :=
  fold_right insert [] (map (fun p => n_mid (nth (fst p) N (mkNasa 0 [] []))) (rx_lhs r ++ rx_rhs r)).

(** The standard pressure over the gas constant. *)
Definition patm_R : Q := (101325 / Ru)%Q.

(** Equal lists of numbers. *)
Fixpoint qsames (a b : list Q) : bool :=
  match a, b with
  | [], [] => true
  | x :: a', y :: b' => Qsame x y && qsames a' b'
  | _, _ => false
  end.

(** The same closed forms. *)
Definition same_form (x y : option (Q * laurent)) : bool :=
  match x, y with
  | Some (c, l), Some (d, l') =>
      Qsame c d && Qsame (l_log l) (l_log l') && Qsame (l_inv l) (l_inv l') && qsames (l_poly l) (l_poly l')
  | _, _ => false
  end.

(** A constant is the power of the standard pressure over the gas constant that belongs to the reaction. *)
Definition power_ok (d : Q) (a b : nat) : bool :=
  if a <=? b
  then let y := qpow patm_R (b - a) in Qle_bool (Qabs (d - y)) (tolE * y)
  else Qle_bool (Qabs (d * qpow patm_R (a - b) - 1)) tolE.

(** The reverse rate constant is the forward one over the equilibrium constant. *)
Definition equil_ok (N : list nasa7) (r : reaction) (kf kr : expr) : bool :=
  match kr with
  | Div a K =>
      same_form (pos_form anyT kf) (pos_form anyT a) &&
      forallb (fun g =>
        match pos_form g K, side_lau N g_lau g (rx_rhs r), side_lau N g_lau g (rx_lhs r),
              side_lau N g_scale g (rx_rhs r ++ rx_lhs r) with
        | Some (d, e), Some R, Some L, Some s =>
            power_ok d (molecules (rx_lhs r)) (molecules (rx_rhs r)) &&
            lau_near tolE (lau_scale 60 e) (lau_add R (lau_scale (-1) L)) s
        | _, _, _, _ => false
        end) (regions 0 (switches N r))
  | _ => false
  end.

(** One reaction. *)
Definition reaction_ok (m : mechanism) (s : smem) (N : list nasa7) (i : nat) : bool :=
  match split (fwd_form (library m) s i) with
  | Some (_, kf) =>
      arr_ok (k_high (kin m i)) (order (rxn (chem m) i)) kf &&
      if rx_rev (rxn (chem m) i) then
        match split (rev_form (library m) (chem m) s i) with
        | Some (_, kr) => equil_ok N (rxn (chem m) i) kf kr
        | None => false
        end
      else true
  | None => false
  end.

(** All reactions. *)
Definition kinetics_ok (m : mechanism) : bool :=
  match rate_state (library m) with
  | None => false
  | Some s =>
      (length (rate_data m) =? length (ch_reactions (chem m))) &&
      let N := common_all (nasa m) in
      forallb (reaction_ok m s N) (seq 0 (length (ch_reactions (chem m))))
  end.

Lemma kinetics_all m : kinetics_ok m = true.
Proof. destruct m; vm_compute; reflexivity. Qed.
