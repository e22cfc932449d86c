(** Names of the species in the files of the mechanisms, and the reorderings of mechanism.c. *)
From Coq Require Import List String.
From Verif Require Import Outcome Arith Mechanisms.
Import ListNotations.
Local Open Scope string_scope.

(** Species of the library, drm19/lib/src/mechanism.h:7-27. *)
Definition drm19_library_names : list string := [
  "H2"; "H"; "O"; "O2"; "OH"; "H2O"; "HO2"; "CH2"; "CH2(S)"; "CH3"; "CH4"; "CO"; "CO2"; "HCO"; "CH2O";
  "CH3O"; "C2H4"; "C2H5"; "C2H6"; "AR"; "N2"
].

(** Species of OpenFOAM, drm19/foam/species.foam. *)
Definition drm19_foam_names : list string := [
  "H2"; "H"; "O"; "O2"; "OH"; "H2O"; "HO2"; "CH2"; "CH2(S)"; "CH3"; "CH4"; "CO"; "CO2"; "HCO"; "CH2O";
  "CH3O"; "C2H4"; "C2H5"; "C2H6"; "AR"; "N2"
].

(** Species of the mechanism, drm19/chem.cti:16-18. *)
Definition drm19_cti_names : list string := [
  "H2"; "H"; "O"; "O2"; "OH"; "H2O"; "HO2"; "CH2"; "CH2(S)"; "CH3"; "CH4"; "CO"; "CO2"; "HCO"; "CH2O";
  "CH3O"; "C2H4"; "C2H5"; "C2H6"; "N2"; "AR"
].

(** The elements of [temp] in the order in which [apply_mask] assigns them, drm19/lib/src/mechanism.c:8-28. *)
Definition drm19_apply_mask : list nat := [
  0; 1; 2; 3; 4; 5; 6; 7; 8; 9; 10; 11; 12; 13; 14; 15; 16; 17; 18; 20; 19
].

(** The elements of [temp] in the order in which [apply_reverse_mask] assigns them, drm19/lib/src/mechanism.c:34-54. *)
Definition drm19_apply_reverse_mask : list nat := [
  0; 1; 2; 3; 4; 5; 6; 7; 8; 9; 10; 11; 12; 13; 14; 15; 16; 17; 18; 20; 19
].

(** Species of the library, gri30/lib/src/mechanism.h:7-59. *)
Definition gri30_library_names : list string := [
  "H2"; "H"; "O"; "O2"; "OH"; "H2O"; "HO2"; "H2O2"; "C"; "CH"; "CH2"; "CH2(S)"; "CH3"; "CH4"; "CO"; "CO2";
  "HCO"; "CH2O"; "CH2OH"; "CH3O"; "CH3OH"; "C2H"; "C2H2"; "C2H3"; "C2H4"; "C2H5"; "C2H6"; "HCCO"; "CH2CO";
  "HCCOH"; "N"; "NH"; "NH2"; "NH3"; "NNH"; "NO"; "NO2"; "N2O"; "HNO"; "CN"; "HCN"; "H2CN"; "HCNN"; "HCNO";
  "HOCN"; "HNCO"; "NCO"; "AR"; "C3H7"; "C3H8"; "CH2CHO"; "CH3CHO"; "N2"
].

(** Species of OpenFOAM, gri30/foam/species.foam. *)
Definition gri30_foam_names : list string := [
  "H2"; "H"; "O"; "O2"; "OH"; "H2O"; "HO2"; "H2O2"; "C"; "CH"; "CH2"; "CH2(S)"; "CH3"; "CH4"; "CO"; "CO2";
  "HCO"; "CH2O"; "CH2OH"; "CH3O"; "CH3OH"; "C2H"; "C2H2"; "C2H3"; "C2H4"; "C2H5"; "C2H6"; "HCCO"; "CH2CO";
  "HCCOH"; "N"; "NH"; "NH2"; "NH3"; "NNH"; "NO"; "NO2"; "N2O"; "HNO"; "CN"; "HCN"; "H2CN"; "HCNN"; "HCNO";
  "HOCN"; "HNCO"; "NCO"; "AR"; "C3H7"; "C3H8"; "CH2CHO"; "CH3CHO"; "N2"
].

(** Species of the mechanism, gri30/chem.cti:13-20. *)
Definition gri30_cti_names : list string := [
  "H2"; "H"; "O"; "O2"; "OH"; "H2O"; "HO2"; "H2O2"; "C"; "CH"; "CH2"; "CH2(S)"; "CH3"; "CH4"; "CO"; "CO2";
  "HCO"; "CH2O"; "CH2OH"; "CH3O"; "CH3OH"; "C2H"; "C2H2"; "C2H3"; "C2H4"; "C2H5"; "C2H6"; "HCCO"; "CH2CO";
  "HCCOH"; "N"; "NH"; "NH2"; "NH3"; "NNH"; "NO"; "NO2"; "N2O"; "HNO"; "CN"; "HCN"; "H2CN"; "HCNN"; "HCNO";
  "HOCN"; "HNCO"; "NCO"; "N2"; "AR"; "C3H7"; "C3H8"; "CH2CHO"; "CH3CHO"
].

(** The elements of [temp] in the order in which [apply_mask] assigns them, gri30/lib/src/mechanism.c:8-60. *)
Definition gri30_apply_mask : list nat := [
  0; 1; 2; 3; 4; 5; 6; 7; 8; 9; 10; 11; 12; 13; 14; 15; 16; 17; 18; 19; 20; 21; 22; 23; 24; 25; 26; 27; 28;
  29; 30; 31; 32; 33; 34; 35; 36; 37; 38; 39; 40; 41; 42; 43; 44; 45; 46; 48; 49; 50; 51; 52; 47
].

(** The elements of [temp] in the order in which [apply_reverse_mask] assigns them, gri30/lib/src/mechanism.c:66-118. *)
Definition gri30_apply_reverse_mask : list nat := [
  0; 1; 2; 3; 4; 5; 6; 7; 8; 9; 10; 11; 12; 13; 14; 15; 16; 17; 18; 19; 20; 21; 22; 23; 24; 25; 26; 27; 28;
  29; 30; 31; 32; 33; 34; 35; 36; 37; 38; 39; 40; 41; 42; 43; 44; 45; 46; 52; 47; 48; 49; 50; 51
].

(** Species of the library, yao/lib/src/mechanism.h:7-60. *)
Definition yao_library_names : list string := [
  "AR"; "H"; "O"; "OH"; "HO2"; "H2"; "H2O"; "H2O2"; "O2"; "CH2"; "CH2*"; "CH3"; "CH4"; "HCO"; "CH2O"; "CH3O";
  "CO"; "CO2"; "C2H2"; "C2H3"; "C2H4"; "C2H5"; "C2H6"; "CH2CHO"; "aC3H5"; "C3H6"; "nC3H7"; "C2H3CHO"; "C4H7";
  "C4H81"; "pC4H9"; "C5H9"; "C5H10"; "PXC5H11"; "C6H12"; "PXC6H13"; "C7H14"; "PXC7H15"; "C8H16"; "PXC8H17";
  "C9H18"; "PXC9H19"; "C10H20"; "PXC10H21"; "NC12H26"; "PXC12H25"; "SXC12H25"; "S3XC12H25"; "C12H24";
  "C12H25O2"; "C12OOH"; "O2C12H24OOH"; "OC12H23OOH"; "N2"
].

(** Species of OpenFOAM, yao/foam/species.foam. *)
Definition yao_foam_names : list string := [
  "AR"; "H"; "O"; "OH"; "HO2"; "H2"; "H2O"; "H2O2"; "O2"; "CH2"; "CH2*"; "CH3"; "CH4"; "HCO"; "CH2O"; "CH3O";
  "CO"; "CO2"; "C2H2"; "C2H3"; "C2H4"; "C2H5"; "C2H6"; "CH2CHO"; "aC3H5"; "C3H6"; "nC3H7"; "C2H3CHO"; "C4H7";
  "C4H81"; "pC4H9"; "C5H9"; "C5H10"; "PXC5H11"; "C6H12"; "PXC6H13"; "C7H14"; "PXC7H15"; "C8H16"; "PXC8H17";
  "C9H18"; "PXC9H19"; "C10H20"; "PXC10H21"; "NC12H26"; "PXC12H25"; "SXC12H25"; "S3XC12H25"; "C12H24";
  "C12H25O2"; "C12OOH"; "O2C12H24OOH"; "OC12H23OOH"; "N2"
].

(** Species of the mechanism, yao/chem.cti:5-18. *)
Definition yao_cti_names : list string := [
  "N2"; "AR"; "H"; "O"; "OH"; "HO2"; "H2"; "H2O"; "H2O2"; "O2"; "CH2"; "CH2*"; "CH3"; "CH4"; "HCO"; "CH2O";
  "CH3O"; "CO"; "CO2"; "C2H2"; "C2H3"; "C2H4"; "C2H5"; "C2H6"; "CH2CHO"; "aC3H5"; "C3H6"; "nC3H7"; "C2H3CHO";
  "C4H7"; "C4H81"; "pC4H9"; "C5H9"; "C5H10"; "PXC5H11"; "C6H12"; "PXC6H13"; "C7H14"; "PXC7H15"; "C8H16";
  "PXC8H17"; "C9H18"; "PXC9H19"; "C10H20"; "PXC10H21"; "NC12H26"; "PXC12H25"; "SXC12H25"; "S3XC12H25";
  "C12H24"; "C12H25O2"; "C12OOH"; "O2C12H24OOH"; "OC12H23OOH"
].

(** The elements of [temp] in the order in which [apply_mask] assigns them, yao/lib/src/mechanism.c:8-61. *)
Definition yao_apply_mask : list nat := [
  1; 2; 3; 4; 5; 6; 7; 8; 9; 10; 11; 12; 13; 14; 15; 16; 17; 18; 19; 20; 21; 22; 23; 24; 25; 26; 27; 28; 29;
  30; 31; 32; 33; 34; 35; 36; 37; 38; 39; 40; 41; 42; 43; 44; 45; 46; 47; 48; 49; 50; 51; 52; 53; 0
].

(** The elements of [temp] in the order in which [apply_reverse_mask] assigns them, yao/lib/src/mechanism.c:67-120. *)
Definition yao_apply_reverse_mask : list nat := [
  53; 0; 1; 2; 3; 4; 5; 6; 7; 8; 9; 10; 11; 12; 13; 14; 15; 16; 17; 18; 19; 20; 21; 22; 23; 24; 25; 26; 27;
  28; 29; 30; 31; 32; 33; 34; 35; 36; 37; 38; 39; 40; 41; 42; 43; 44; 45; 46; 47; 48; 49; 50; 51; 52
].

(** Species of the library. *)
Definition library_names (m : mechanism) : list string :=
  match m with drm19 => drm19_library_names | gri30 => gri30_library_names | yao => yao_library_names end.

(** Species in OpenFOAM. *)
Definition foam_names (m : mechanism) : list string :=
  match m with drm19 => drm19_foam_names | gri30 => gri30_foam_names | yao => yao_foam_names end.

(** Species of chem.cti. *)
Definition cti_names (m : mechanism) : list string :=
  match m with drm19 => drm19_cti_names | gri30 => gri30_cti_names | yao => yao_cti_names end.

(** Positions in [apply_mask]. *)
Definition mask (m : mechanism) : list nat :=
  match m with drm19 => drm19_apply_mask | gri30 => gri30_apply_mask | yao => yao_apply_mask end.

(** Positions in [apply_reverse_mask]. *)
Definition reverse_mask (m : mechanism) : list nat :=
  match m with drm19 => drm19_apply_reverse_mask | gri30 => gri30_apply_reverse_mask | yao => yao_apply_reverse_mask end.

(** [apply_mask (y_specs)], mechanism.c:5: [temp] is a copy of the array, from which every element
    is assigned; a shorter array is read out of bounds. *)
Definition apply_mask {X} (m : mechanism) (y_specs : list X) : outcome (list X) := mapM (idx y_specs) (mask m).

(** [apply_reverse_mask (y_specs)], mechanism.c. *)
Definition apply_reverse_mask {X} (m : mechanism) (y_specs : list X) : outcome (list X) :=
  mapM (idx y_specs) (reverse_mask m).
