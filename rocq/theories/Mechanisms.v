(** The three mechanism libraries of /repo/utilities/mechanisms. *)
From Coq Require Import List.
From Verif Require Import MechLang MechSrc MechChem Drm19Code Drm19Rates Gri30Code Gri30Rates YaoCode YaoRates.
Import ListNotations.

(** drm19/lib/src, sizes of mechanism.h:31-39. *)
Definition drm19_source : source :=
  mkSource 21 84 84 14
    drm19_eval_conc
    drm19_eval_h
    drm19_eval_cp
    drm19_eval_rxn_rates
    drm19_get_rxn_pres_mod
    drm19_eval_spec_rates
    drm19_dydt
    drm19_mole2mass
    drm19_mass2mole
    drm19_getDensity.

(** gri30/lib/src, sizes of mechanism.h:63-71. *)
Definition gri30_source : source :=
  mkSource 53 325 309 41
    gri30_eval_conc
    gri30_eval_h
    gri30_eval_cp
    gri30_eval_rxn_rates
    gri30_get_rxn_pres_mod
    gri30_eval_spec_rates
    gri30_dydt
    gri30_mole2mass
    gri30_mass2mole
    gri30_getDensity.

(** yao/lib/src, sizes of mechanism.h:64-72. *)
Definition yao_source : source :=
  mkSource 54 269 250 31
    yao_eval_conc
    yao_eval_h
    yao_eval_cp
    yao_eval_rxn_rates
    yao_get_rxn_pres_mod
    yao_eval_spec_rates
    yao_dydt
    yao_mole2mass
    yao_mass2mole
    yao_getDensity.

(** The directories of /repo/utilities/mechanisms. *)
Inductive mechanism := drm19 | gri30 | yao.

(** Library of a mechanism (lib/src). *)
Definition library (m : mechanism) : source :=
  match m with drm19 => drm19_source | gri30 => gri30_source | yao => yao_source end.

(** Chemistry of a mechanism (chem.cti). *)
Definition chem (m : mechanism) : chemistry :=
  match m with drm19 => drm19_chemistry | gri30 => gri30_chemistry | yao => yao_chemistry end.
