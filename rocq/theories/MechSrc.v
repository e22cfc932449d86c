(** The functions of a mechanism library, and the reaction mechanism it is generated from. *)
From Coq Require Import List NArith QArith Bool.
From Verif Require Import Outcome Arith MechLang.
Import ListNotations.
Local Open Scope nat_scope.

(** The bodies of the functions of a library (lib/src) and its sizes (lib/src/mechanism.h: [NSP],
    [FWD_RATES], [REV_RATES], [PRES_MOD_RATES]). *)
Record source := mkSource {
  s_NSP : nat;
  s_fwd : nat;
  s_rev : nat;
  s_pmod : nat;
  s_eval_conc : list stmt;
  s_eval_h : list stmt;
  s_eval_cp : list stmt;
  s_eval_rxn_rates : list stmt;
  s_get_rxn_pres_mod : list stmt;
  s_eval_spec_rates : list stmt;
  s_dydt : list stmt;
  s_mole2mass : list stmt;
  s_mass2mole : list stmt;
  s_getDensity : list stmt
}.

(** Number of elements of the variables listed; not a function of /repo. *)
Definition sizes (l : list (var * nat)) (v : var) : N :=
  match find (fun p => var_eqb (fst p) v) l with Some p => N.of_nat (snd p) | None => 0%N end.

(** Names and lengths of arrays; not a function of /repo. *)
Definition shape {X} (l : list (var * list X)) : list (var * nat) := map (fun p => (fst p, length (snd p))) l.

Section Functions.
  Context {A : Arith}.
  Variable M : libm A.

  (** A call: the arguments [ins] are initialised, the variables [locals] (local variables and
      output arrays of the given sizes) are not; the result is the contents of [outs] on return,
      all of whose elements the callers read.  (The pointers do not overlap: [__restrict__].) *)
  Definition call (body : list stmt) (ins : list (var * list (num A))) (locals : list (var * nat))
    (outs : list var) : outcome (list (list (num A))) :=
    let len := sizes (shape ins ++ locals) in
    let* m := run M len (given ins) body in
    mapM (read len m) outs.

  (** Output array of a call with one output array; not a function of /repo. *)
  Definition only (l : list (list (num A))) : outcome (list (num A)) :=
    match l with [a] => Ok a | _ => UB end.

  (** Output scalar of a call; not a function of /repo. *)
  Definition scalar (l : list (num A)) : outcome (num A) :=
    match l with [a] => Ok a | _ => UB end.

  Variable S : source.
  Notation NS := (s_NSP S).

  (** Local variables and output arrays of [eval_conc], chem_utils.c:12. *)
  Definition conc_locals := [(v_y_N, 1); (v_mw_avg, 1); (v_rho, 1); (v_conc, NS)].

  (** [eval_conc (T, pres, y, &y_N, &mw_avg, &rho, conc)], chem_utils.c:12: [y_N], [mw_avg],
      [rho] and [conc]. *)
  Definition lib_eval_conc (T pres : num A) (y : list (num A)) : outcome (num A * num A * num A * list (num A)) :=
    let* l := call (s_eval_conc S) [(v_T, [T]); (v_pres, [pres]); (v_y, y)] conc_locals
                [v_y_N; v_mw_avg; v_rho; v_conc] in
    match l with
    | [[yN]; [mw]; [rho]; conc] => Ok (yN, mw, rho, conc)
    | _ => UB
    end.

  (** [eval_h (T, h)], chem_utils.c. *)
  Definition lib_eval_h (T : num A) : outcome (list (num A)) :=
    let* l := call (s_eval_h S) [(v_T, [T])] [(v_h, NS)] [v_h] in only l.

  (** [eval_cp (T, cp)], chem_utils.c. *)
  Definition lib_eval_cp (T : num A) : outcome (list (num A)) :=
    let* l := call (s_eval_cp S) [(v_T, [T])] [(v_cp, NS)] [v_cp] in only l.

  (** Local variables and output arrays of [eval_rxn_rates], rxn_rates.c:2-6. *)
  Definition rate_locals :=
    [(v_logT, 1); (v_kf, 1); (v_Kc, 1); (v_fwd_rxn_rates, s_fwd S); (v_rev_rxn_rates, s_rev S)].

  (** [eval_rxn_rates (T, pres, C, fwd_rxn_rates, rev_rxn_rates)], rxn_rates.c:2. *)
  Definition lib_eval_rxn_rates (T pres : num A) (C : list (num A)) : outcome (list (num A) * list (num A)) :=
    let* l := call (s_eval_rxn_rates S) [(v_T, [T]); (v_pres, [pres]); (v_C, C)] rate_locals
                [v_fwd_rxn_rates; v_rev_rxn_rates] in
    match l with [f; r] => Ok (f, r) | _ => UB end.

  (** Local variables and output array of [get_rxn_pres_mod], rxn_rates_pres_mod.c:5-20. *)
  Definition pmod_locals :=
    [(v_thd, 1); (v_k0, 1); (v_kinf, 1); (v_Pr, 1); (v_logFcent, 1); (v_A, 1); (v_B, 1); (v_logT, 1); (v_m, 1);
     (v_pres_mod, s_pmod S)].

  (** [get_rxn_pres_mod (T, pres, C, pres_mod)], rxn_rates_pres_mod.c:5. *)
  Definition lib_get_rxn_pres_mod (T pres : num A) (C : list (num A)) : outcome (list (num A)) :=
    let* l := call (s_get_rxn_pres_mod S) [(v_T, [T]); (v_pres, [pres]); (v_C, C)] pmod_locals
                [v_pres_mod] in only l.

  (** Output variables of [eval_spec_rates], spec_rates.c:4. *)
  Definition spec_locals := [(v_sp_rates, NS - 1); (v_dy_N, 1)].

  (** [eval_spec_rates (fwd_rates, rev_rates, pres_mod, sp_rates, &dy_N)], spec_rates.c:4. *)
  Definition lib_eval_spec_rates (fwd rev pm : list (num A)) : outcome (list (num A) * num A) :=
    let* l := call (s_eval_spec_rates S) [(v_fwd_rates, fwd); (v_rev_rates, rev); (v_pres_mod, pm)] spec_locals
                [v_sp_rates; v_dy_N] in
    match l with [sp; [n]] => Ok (sp, n) | _ => UB end.

  (** [dydt (t, pres, y, dy)], dydt.c:7 of the constant-pressure branch; [dy] is zero on entry
      (pjCM.C:124), and only [dy[0]] keeps that value until it is assigned. *)
  Definition lib_dydt (pres : num A) (y : list (num A)) : outcome (list (num A)) :=
    let* T := idx y 0 in
    let* (yN, mw, rho, conc) := lib_eval_conc T pres (skipn 1 y) in
    let* (fwd, rev) := lib_eval_rxn_rates T pres conc in
    let* pm := lib_get_rxn_pres_mod T pres conc in
    let* (sp, dyN) := lib_eval_spec_rates fwd rev pm in
    let* cp := lib_eval_cp T in
    let* h := lib_eval_h T in
    let* l := call (s_dydt S)
                [(v_y, y); (v_y_N, [yN]); (v_rho, [rho]); (v_cp, cp); (v_h, h); (v_dy_N, [dyN]);
                 (v_dy, zero A :: sp)] [(v_cp_avg, 1)] [v_dy] in
    only l.

  (** [mole2mass (X, Y)], mass_mole.c:8. *)
  Definition lib_mole2mass (X : list (num A)) : outcome (list (num A)) :=
    let* l := call (s_mole2mass S) [(v_X, X)] [(v_X_N, 1); (v_mw_avg, 1); (v_Y, NS - 1)] [v_Y] in only l.

  (** [mass2mole (Y, X)], mass_mole.c. *)
  Definition lib_mass2mole (Y : list (num A)) : outcome (list (num A)) :=
    let* l := call (s_mass2mole S) [(v_Y, Y)] [(v_Y_N, 1); (v_mw_avg, 1); (v_X, NS - 1)] [v_X] in only l.

  (** [getDensity (temp, pres, X)], mass_mole.c. *)
  Definition lib_getDensity (temp pres : num A) (X : list (num A)) : outcome (num A) :=
    let* l := call (s_getDensity S) [(v_temp, [temp]); (v_pres, [pres]); (v_X, X)]
                [(v_X_N, 1); (v_mw_avg, 1); (v_ret, 1)] [v_ret] in
    let* a := only l in scalar a.
End Functions.

(** ** The reaction mechanism, as chem.cti states it *)

(** Kind of a reaction in chem.cti: [reaction], [three_body_reaction], [falloff_reaction]. *)
Inductive kind := Elementary | ThreeBody | Falloff.

(** A reaction of chem.cti: species (their number in foam/species.foam) with coefficients on both
    sides, third-body efficiencies other than one. *)
Record reaction := mkRx {
  rx_kind : kind;
  rx_lhs : list (nat * nat);
  rx_rhs : list (nat * nat);
  rx_rev : bool;
  rx_eff : list (nat * Q)
}.

(** A mechanism: number of species, atoms per species (for each element of chem.cti), reactions. *)
Record chemistry := mkChem {
  ch_species : nat;
  ch_elements : nat;
  ch_atoms : list (list nat);
  ch_reactions : list reaction
}.

(** Total coefficient of species [k] on a side; not a function of /repo. *)
Definition coeff (l : list (nat * nat)) (k : nat) : nat :=
  list_sum (map snd (filter (fun p => fst p =? k) l)).

(** Net stoichiometric coefficient of species [k]; not a function of /repo. *)
Definition net (r : reaction) (k : nat) : Q :=
  (inject_Z (Z.of_nat (coeff (rx_rhs r) k)) - inject_Z (Z.of_nat (coeff (rx_lhs r) k)))%Q.

(** Reactions with a pressure modification; not a function of /repo. *)
Definition pdep (r : reaction) : bool := match rx_kind r with Elementary => false | _ => true end.

(** Number of the reactions before reaction [i] that satisfy [f]; not a function of /repo. *)
Definition rank (f : reaction -> bool) (l : list reaction) (i : nat) : nat :=
  length (filter f (firstn i l)).

(** Third-body efficiency of species [k]; not a function of /repo. *)
Definition efficiency (r : reaction) (k : nat) : Q :=
  match find (fun p => fst p =? k) (rx_eff r) with Some p => snd p | None => 1%Q end.
