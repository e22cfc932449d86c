(** [eval_jacob] of drm19: the whole Jacobian. *)
From Coq Require Import List NArith QArith Bool.
From Verif Require Import Outcome Arith MechLang MechSrc Mechanisms Drm19Jac MechJac.
Import ListNotations.
Local Open Scope nat_scope.

(** All statements of [eval_jacob]: those before the calls of [eval_jacob_0], [eval_jacob_1], ...; for each of these that
    deal with reactions the number of reactions and the statements; those between the call of [eval_cp] and the call of the
    function that finishes the columns of the species; this function; and the rest. *)
Record jacobian_all := mkJacAll {
  a_head : list stmt;
  a_parts : list (nat * list stmt);
  a_mid : list stmt;
  a_species : list stmt;
  a_tail : list stmt
}.

(** Declarations and the blocks "wrt T" and "wrt species" of a function eval_jacob_* of drm19. *)
Definition all_blocks (d : list stmt) (b : list (list stmt * list stmt)) : nat * list stmt :=
  (length b, d ++ flat_map (fun x => fst x ++ snd x) b).

(** drm19/lib/src/jacob.c:3-170, jacobs/jacob_0.c to jacob_3.c; the first three statements after [eval_cp] (lines 91-97) come
    before the call of [eval_jacob_3]. *)
Definition drm19_jac_all : jacobian_all :=
  mkJacAll drm19_jac_head
    [all_blocks drm19_jac_d0 drm19_jac_b0; all_blocks drm19_jac_d1 drm19_jac_b1; all_blocks drm19_jac_d2 drm19_jac_b2]
    (firstn 3 drm19_jac_tail) drm19_jac_f3 (skipn 3 drm19_jac_tail).

Section Functions.
  Context {A : Arith}.
  Variable M : libm A.
  Variable S : source.
  Variable J : jacobian_all.

  (** Arguments of eval_jacob_0, ... (jacobs/jacob_0.c:4, jacob_1.c:4; jacob_2.c:4 has no [m]). *)
  Definition all_ins (T pres : num A) (conc fwd rev pm sp : list (num A)) (m mw rho : num A) (dB jac : list (num A)) :
    list (var * list (num A)) :=
    [(v_T, [T]); (v_pres, [pres]); (v_conc, conc); (v_fwd_rates, fwd); (v_rev_rates, rev); (v_pres_mod, pm);
     (v_spec_rates, sp); (v_m, [m]); (v_mw_avg, [mw]); (v_rho, [rho]); (v_dBdT, dB); (v_jac, jac)].

  (** The calls of eval_jacob_0, eval_jacob_1, ... in order, jacob.c:79-81. *)
  Fixpoint lib_all_parts (T pres : num A) (conc fwd rev pm sp : list (num A)) (m mw rho : num A) (dB : list (num A))
    (l : list (nat * list stmt)) (jac : list (num A)) : outcome (list (num A)) :=
    match l with
    | [] => Ok jac
    | p :: l' =>
        let* o := call M (snd p) (all_ins T pres conc fwd rev pm sp m mw rho dB jac) part_locals [v_jac] in
        let* jac' := only o in
        lib_all_parts T pres conc fwd rev pm sp m mw rho dB l' jac'
    end.

  (** Arguments of the statements between the calls of [eval_cp] and [eval_jacob_3], jacob.c:90-97. *)
  Definition mid_ins (y : list (num A)) (yN : num A) (cp jac : list (num A)) : list (var * list (num A)) :=
    [(v_y, y); (v_y_N, [yN]); (v_cp, cp); (v_jac, jac)].

  (** Arguments of [eval_jacob_3], jacobs/jacob_3.c:3. *)
  Definition species_ins (mw rho cpa : num A) (sp h cp jac : list (num A)) : list (var * list (num A)) :=
    [(v_mw_avg, [mw]); (v_rho, [rho]); (v_cp_avg, [cpa]); (v_spec_rates, sp); (v_h, h); (v_cp, cp); (v_jac, jac)].

  (** Arguments of the last statements, jacob.c:101-169. *)
  Definition end_ins (T : num A) (y : list (num A)) (yN rho : num A) (sp h cp : list (num A)) (cpa wt : num A)
    (jac : list (num A)) : list (var * list (num A)) :=
    [(v_T, [T]); (v_y, y); (v_y_N, [yN]); (v_rho, [rho]); (v_spec_rates, sp); (v_h, h); (v_cp, cp); (v_cp_avg, [cpa]);
     (v_working_temp, [wt]); (v_jac, jac)].

  (** [eval_jacob (t, pres, y, jac)], jacob.c:3; [jac0] are the values of [jac] on entry and [dB0] those of the local
      array dBdT. *)
  Definition lib_jacob (pres : num A) (y jac0 dB0 : list (num A)) : outcome (list (num A)) :=
    let* T := idx y 0 in
    let* (yN, mw, rho, conc) := lib_eval_conc M S T pres (skipn 1 y) in
    let* (fwd, rev) := lib_eval_rxn_rates M S T pres conc in
    let* pm := lib_get_rxn_pres_mod M S T pres conc in
    let* (sp, dyN) := lib_eval_spec_rates M S fwd rev pm in
    let* (m, dB) := lib_jac_head M (mkJac (a_head J) [] []) T pres dB0 in
    let* jac := lib_all_parts T pres conc fwd rev pm (sp ++ [dyN]) m mw rho dB (a_parts J) jac0 in
    let* h := lib_eval_h M S T in
    let* cp := lib_eval_cp M S T in
    let* l := call M (a_mid J) (mid_ins y yN cp jac) [(v_cp_avg, 1); (v_working_temp, 1)] [v_cp_avg; v_working_temp; v_jac] in
    match l with
    | [[cpa]; [wt]; jac1] =>
        let* l1 := call M (a_species J) (species_ins mw rho cpa (sp ++ [dyN]) h cp jac1)
                     [(v_rho_inv, 1); (v_working_temp, 1); (v_j_temp, 1)] [v_jac] in
        let* jac2 := only l1 in
        let* l2 := call M (a_tail J) (end_ins T y yN rho (sp ++ [dyN]) h cp cpa wt jac2) [] [v_jac] in
        only l2
    | _ => UB
    end.
End Functions.
