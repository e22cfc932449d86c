(** [eval_jacob]: the functions that fill the Jacobian. *)
From Coq Require Import List NArith QArith Bool.
From Verif Require Import Outcome Arith MechLang MechSrc Mechanisms Drm19Jac Gri30JacT YaoJacT.
Import ListNotations.
Local Open Scope nat_scope.

(** What fills the temperature column: the statements of [eval_jacob] (jacob.c) before and after the
    calls of [eval_jacob_0], [eval_jacob_1], ..., and for each of these the number of reactions it deals
    with and its statements. *)
Record jacobian := mkJac {
  j_head : list stmt;
  j_parts : list (nat * list stmt);
  j_tail : list stmt
}.

(** Declarations and the blocks "wrt T" of a function eval_jacob_* of drm19. *)
Definition T_blocks (d : list stmt) (b : list (list stmt * list stmt)) : nat * list stmt :=
  (length b, d ++ flat_map fst b).

(** drm19/lib/src/jacob.c:3-169, jacobs/jacob_0.c, jacob_1.c, jacob_2.c. *)
Definition drm19_jac_T : jacobian :=
  mkJac drm19_jac_head
    [T_blocks drm19_jac_d0 drm19_jac_b0; T_blocks drm19_jac_d1 drm19_jac_b1; T_blocks drm19_jac_d2 drm19_jac_b2]
    drm19_jac_tail.

(** gri30/lib/src/jacob.c:3-371, jacobs/jacob_0.c to jacob_8.c (40 reactions each, the last one 5). *)
Definition gri30_jac_T : jacobian :=
  mkJac gri30_jac_head
    [(40, gri30_jac_T0); (40, gri30_jac_T1); (40, gri30_jac_T2); (40, gri30_jac_T3); (40, gri30_jac_T4);
     (40, gri30_jac_T5); (40, gri30_jac_T6); (40, gri30_jac_T7); (5, gri30_jac_T8)]
    gri30_jac_tail.

(** yao/lib/src/jacob.c:3-377, jacobs/jacob_0.c to jacob_6.c (40 reactions each, the last one 29). *)
Definition yao_jac_T : jacobian :=
  mkJac yao_jac_head
    [(40, yao_jac_T0); (40, yao_jac_T1); (40, yao_jac_T2); (40, yao_jac_T3); (40, yao_jac_T4);
     (40, yao_jac_T5); (29, yao_jac_T6)]
    yao_jac_tail.

(** The temperature column of a mechanism. *)
Definition jac_T (m : mechanism) : jacobian :=
  match m with drm19 => drm19_jac_T | gri30 => gri30_jac_T | yao => yao_jac_T end.

(** Local variables of eval_jacob_* (jacobs/jacob_0.c:4-17 and so on). *)
Definition part_locals : list (var * nat) :=
  [(v_conc_temp, 1); (v_logT, 1); (v_kf, 1); (v_j_temp, 1); (v_pres_mod_temp, 1); (v_Kc, 1); (v_kr, 1); (v_Pr, 1);
   (v_Fcent, 1); (v_A, 1); (v_B, 1); (v_lnF_AB, 1); (v_rho_inv, 1)].

Section Functions.
  Context {A : Arith}.
  Variable M : libm A.
  Variable S : source.
  Variable J : jacobian.
  Notation NS := (s_NSP S).

  (** The statements of [eval_jacob] before the calls, jacob.c: [m] and [dBdT].  The array dBdT is not
      initialised; [dB0] are the values it happens to have.  (In yao two elements are never set; eval_jacob_*
      does not read them.) *)
  Definition lib_jac_head (T pres : num A) (dB0 : list (num A)) : outcome (num A * list (num A)) :=
    let* l := call M (j_head J) [(v_T, [T]); (v_pres, [pres]); (v_dBdT, dB0)] [(v_m, 1); (v_logT, 1)] [v_m; v_dBdT] in
    match l with [[m]; b] => Ok (m, b) | _ => UB end.

  (** Arguments of eval_jacob_* (jacobs/jacob_0.c:4 and so on). *)
  Definition part_ins (T pres : num A) (conc fwd rev pm sp : list (num A)) (m mw rho : num A) (dB jac : list (num A))
    (J1 : num A) : list (var * list (num A)) :=
    [(v_T, [T]); (v_pres, [pres]); (v_conc, conc); (v_fwd_rates, fwd); (v_rev_rates, rev); (v_pres_mod, pm);
     (v_spec_rates, sp); (v_m, [m]); (v_mw_avg, [mw]); (v_rho, [rho]); (v_dBdT, dB); (v_jac, jac);
     (v_J_nplusone, [J1])].

  (** The calls of [eval_jacob_0], [eval_jacob_1], ... in order, jacob.c; [jac] is the temperature column
      (elements 0 to NSP - 1 of the array) and [J_nplusone] is passed to all of them (in gri30 it is an
      argument of [eval_jacob_4] to [eval_jacob_6], in the others of none; the others do not use it). *)
  Fixpoint lib_jac_parts (T pres : num A) (conc fwd rev pm sp : list (num A)) (m mw rho : num A) (dB : list (num A))
    (l : list (nat * list stmt)) (jac : list (num A)) (J1 : num A) : outcome (list (num A) * num A) :=
    match l with
    | [] => Ok (jac, J1)
    | p :: l' =>
        let* o := call M (snd p) (part_ins T pres conc fwd rev pm sp m mw rho dB jac J1) part_locals
                    [v_jac; v_J_nplusone] in
        match o with
        | [jac'; [J1']] => lib_jac_parts T pres conc fwd rev pm sp m mw rho dB l' jac' J1'
        | _ => UB
        end
    end.

  (** Arguments of the statements of [eval_jacob] after the calls. *)
  Definition tail_ins (T : num A) (y : list (num A)) (yN rho : num A) (sp h cp jac : list (num A)) (J1 : num A) :
    list (var * list (num A)) :=
    [(v_T, [T]); (v_y, y); (v_y_N, [yN]); (v_rho, [rho]); (v_spec_rates, sp); (v_h, h); (v_cp, cp); (v_jac, jac);
     (v_J_nplusone, [J1])].

  (** [eval_jacob (t, pres, y, jac)], jacob.c:3: elements 0 to NSP - 1 of [jac], the derivatives with respect
      to the temperature; [jac0] are their values on entry and [dB0] those of the local array dBdT.  (The functions that fill the other
      columns, called before the last statements, do not touch these.) *)
  Definition lib_jacob_T (pres : num A) (y jac0 dB0 : list (num A)) : outcome (list (num A)) :=
    let* T := idx y 0 in
    let* (yN, mw, rho, conc) := lib_eval_conc M S T pres (skipn 1 y) in
    let* (fwd, rev) := lib_eval_rxn_rates M S T pres conc in
    let* pm := lib_get_rxn_pres_mod M S T pres conc in
    let* (sp, dyN) := lib_eval_spec_rates M S fwd rev pm in
    let* (m, dB) := lib_jac_head T pres dB0 in
    let* (jac, J1) := lib_jac_parts T pres conc fwd rev pm (sp ++ [dyN]) m mw rho dB (j_parts J) jac0 (zero A) in
    let* h := lib_eval_h M S T in
    let* cp := lib_eval_cp M S T in
    let* l := call M (j_tail J) (tail_ins T y yN rho (sp ++ [dyN]) h cp jac J1) [(v_cp_avg, 1); (v_working_temp, 1)]
                [v_jac] in
    only l.
End Functions.
