(** Molecular weights and atoms that OpenFOAM reads for the mechanisms (foam/thermo.foam). *)
From Coq Require Import List QArith.
From Verif Require Import Mechanisms.
Import ListNotations.
Local Open Scope Q_scope.

(** Molecular weights, in the order of drm19/foam/species.foam; the number before a species is its line
    in drm19/foam/thermo.foam. *)
Definition drm19_molWeight : list Q := [
  (*6 H2*) 2.01588;
  (*37 H*) 1.00794;
  (*68 O*) 15.9994;
  (*99 O2*) 31.9988;
  (*130 OH*) 17.00734;
  (*162 H2O*) 18.01528;
  (*194 HO2*) 33.00674;
  (*226 CH2*) 14.026879999999998;
  (*258 CH2(S)*) 14.026879999999998;
  (*290 CH3*) 15.03482;
  (*322 CH4*) 16.04276;
  (*354 CO*) 28.010399999999997;
  (*386 CO2*) 44.0098;
  (*418 HCO*) 29.01834;
  (*451 CH2O*) 30.02628;
  (*484 CH3O*) 31.034219999999998;
  (*517 C2H4*) 28.053759999999997;
  (*549 C2H5*) 29.0617;
  (*581 C2H6*) 30.06964;
  (*644 AR*) 39.948;
  (*613 N2*) 28.01348
].

(** Atoms of each species ([elements]), in the order of drm19/foam/species.foam; elements in the order O H C N Ar;
    the number before a species is the line of its [elements] in drm19/foam/thermo.foam. *)
Definition drm19_elements : list (list nat) := [
  (*26 H2*) [0; 2; 0; 0; 0]%nat;
  (*57 H*) [0; 1; 0; 0; 0]%nat;
  (*88 O*) [1; 0; 0; 0; 0]%nat;
  (*119 O2*) [2; 0; 0; 0; 0]%nat;
  (*150 OH*) [1; 1; 0; 0; 0]%nat;
  (*182 H2O*) [1; 2; 0; 0; 0]%nat;
  (*214 HO2*) [2; 1; 0; 0; 0]%nat;
  (*246 CH2*) [0; 2; 1; 0; 0]%nat;
  (*278 CH2(S)*) [0; 2; 1; 0; 0]%nat;
  (*310 CH3*) [0; 3; 1; 0; 0]%nat;
  (*342 CH4*) [0; 4; 1; 0; 0]%nat;
  (*374 CO*) [1; 0; 1; 0; 0]%nat;
  (*406 CO2*) [2; 0; 1; 0; 0]%nat;
  (*438 HCO*) [1; 1; 1; 0; 0]%nat;
  (*471 CH2O*) [1; 2; 1; 0; 0]%nat;
  (*504 CH3O*) [1; 3; 1; 0; 0]%nat;
  (*537 C2H4*) [0; 4; 2; 0; 0]%nat;
  (*569 C2H5*) [0; 5; 2; 0; 0]%nat;
  (*601 C2H6*) [0; 6; 2; 0; 0]%nat;
  (*664 AR*) [0; 0; 0; 0; 1]%nat;
  (*633 N2*) [0; 0; 0; 2; 0]%nat
].

(** Molecular weights, in the order of gri30/foam/species.foam; the number before a species is its line
    in gri30/foam/thermo.foam. *)
Definition gri30_molWeight : list Q := [
  (*6 H2*) 2.01588;
  (*37 H*) 1.00794;
  (*68 O*) 15.9994;
  (*99 O2*) 31.9988;
  (*130 OH*) 17.00734;
  (*162 H2O*) 18.01528;
  (*194 HO2*) 33.00674;
  (*226 H2O2*) 34.01468;
  (*258 C*) 12.011;
  (*289 CH*) 13.018939999999999;
  (*321 CH2*) 14.026879999999998;
  (*353 CH2(S)*) 14.026879999999998;
  (*385 CH3*) 15.03482;
  (*417 CH4*) 16.04276;
  (*449 CO*) 28.010399999999997;
  (*481 CO2*) 44.0098;
  (*513 HCO*) 29.01834;
  (*546 CH2O*) 30.02628;
  (*579 CH2OH*) 31.034219999999998;
  (*612 CH3O*) 31.034219999999998;
  (*645 CH3OH*) 32.042159999999996;
  (*678 C2H*) 25.02994;
  (*710 C2H2*) 26.037879999999998;
  (*742 C2H3*) 27.04582;
  (*774 C2H4*) 28.053759999999997;
  (*806 C2H5*) 29.0617;
  (*838 C2H6*) 30.06964;
  (*870 HCCO*) 41.02934;
  (*903 CH2CO*) 42.037279999999996;
  (*936 HCCOH*) 42.037279999999996;
  (*969 N*) 14.00674;
  (*1000 NH*) 15.01468;
  (*1032 NH2*) 16.02262;
  (*1064 NH3*) 17.03056;
  (*1096 NNH*) 29.021420000000003;
  (*1128 NO*) 30.006140000000002;
  (*1160 NO2*) 46.005539999999996;
  (*1192 N2O*) 44.01288;
  (*1224 HNO*) 31.01408;
  (*1257 CN*) 26.01774;
  (*1289 HCN*) 27.02568;
  (*1322 H2CN*) 28.03362;
  (*1355 HCNN*) 41.03242;
  (*1388 HCNO*) 43.02508;
  (*1422 HOCN*) 43.02508;
  (*1456 HNCO*) 43.02508;
  (*1490 NCO*) 42.01714;
  (*1554 AR*) 39.948;
  (*1585 C3H7*) 43.08858;
  (*1617 C3H8*) 44.09652;
  (*1649 CH2CHO*) 43.04522;
  (*1682 CH3CHO*) 44.05316;
  (*1523 N2*) 28.01348
].

(** Atoms of each species ([elements]), in the order of gri30/foam/species.foam; elements in the order O H C N Ar;
    the number before a species is the line of its [elements] in gri30/foam/thermo.foam. *)
Definition gri30_elements : list (list nat) := [
  (*26 H2*) [0; 2; 0; 0; 0]%nat;
  (*57 H*) [0; 1; 0; 0; 0]%nat;
  (*88 O*) [1; 0; 0; 0; 0]%nat;
  (*119 O2*) [2; 0; 0; 0; 0]%nat;
  (*150 OH*) [1; 1; 0; 0; 0]%nat;
  (*182 H2O*) [1; 2; 0; 0; 0]%nat;
  (*214 HO2*) [2; 1; 0; 0; 0]%nat;
  (*246 H2O2*) [2; 2; 0; 0; 0]%nat;
  (*278 C*) [0; 0; 1; 0; 0]%nat;
  (*309 CH*) [0; 1; 1; 0; 0]%nat;
  (*341 CH2*) [0; 2; 1; 0; 0]%nat;
  (*373 CH2(S)*) [0; 2; 1; 0; 0]%nat;
  (*405 CH3*) [0; 3; 1; 0; 0]%nat;
  (*437 CH4*) [0; 4; 1; 0; 0]%nat;
  (*469 CO*) [1; 0; 1; 0; 0]%nat;
  (*501 CO2*) [2; 0; 1; 0; 0]%nat;
  (*533 HCO*) [1; 1; 1; 0; 0]%nat;
  (*566 CH2O*) [1; 2; 1; 0; 0]%nat;
  (*599 CH2OH*) [1; 3; 1; 0; 0]%nat;
  (*632 CH3O*) [1; 3; 1; 0; 0]%nat;
  (*665 CH3OH*) [1; 4; 1; 0; 0]%nat;
  (*698 C2H*) [0; 1; 2; 0; 0]%nat;
  (*730 C2H2*) [0; 2; 2; 0; 0]%nat;
  (*762 C2H3*) [0; 3; 2; 0; 0]%nat;
  (*794 C2H4*) [0; 4; 2; 0; 0]%nat;
  (*826 C2H5*) [0; 5; 2; 0; 0]%nat;
  (*858 C2H6*) [0; 6; 2; 0; 0]%nat;
  (*890 HCCO*) [1; 1; 2; 0; 0]%nat;
  (*923 CH2CO*) [1; 2; 2; 0; 0]%nat;
  (*956 HCCOH*) [1; 2; 2; 0; 0]%nat;
  (*989 N*) [0; 0; 0; 1; 0]%nat;
  (*1020 NH*) [0; 1; 0; 1; 0]%nat;
  (*1052 NH2*) [0; 2; 0; 1; 0]%nat;
  (*1084 NH3*) [0; 3; 0; 1; 0]%nat;
  (*1116 NNH*) [0; 1; 0; 2; 0]%nat;
  (*1148 NO*) [1; 0; 0; 1; 0]%nat;
  (*1180 NO2*) [2; 0; 0; 1; 0]%nat;
  (*1212 N2O*) [1; 0; 0; 2; 0]%nat;
  (*1244 HNO*) [1; 1; 0; 1; 0]%nat;
  (*1277 CN*) [0; 0; 1; 1; 0]%nat;
  (*1309 HCN*) [0; 1; 1; 1; 0]%nat;
  (*1342 H2CN*) [0; 2; 1; 1; 0]%nat;
  (*1375 HCNN*) [0; 1; 1; 2; 0]%nat;
  (*1408 HCNO*) [1; 1; 1; 1; 0]%nat;
  (*1442 HOCN*) [1; 1; 1; 1; 0]%nat;
  (*1476 HNCO*) [1; 1; 1; 1; 0]%nat;
  (*1510 NCO*) [1; 0; 1; 1; 0]%nat;
  (*1574 AR*) [0; 0; 0; 0; 1]%nat;
  (*1605 C3H7*) [0; 7; 3; 0; 0]%nat;
  (*1637 C3H8*) [0; 8; 3; 0; 0]%nat;
  (*1669 CH2CHO*) [1; 3; 2; 0; 0]%nat;
  (*1702 CH3CHO*) [1; 4; 2; 0; 0]%nat;
  (*1543 N2*) [0; 0; 0; 2; 0]%nat
].

(** Molecular weights, in the order of yao/foam/species.foam; the number before a species is its line
    in yao/foam/thermo.foam. *)
Definition yao_molWeight : list Q := [
  (*37 AR*) 39.948;
  (*68 H*) 1.00794;
  (*99 O*) 15.9994;
  (*130 OH*) 17.00734;
  (*162 HO2*) 33.00674;
  (*194 H2*) 2.01588;
  (*225 H2O*) 18.01528;
  (*257 H2O2*) 34.01468;
  (*289 O2*) 31.9988;
  (*320 CH2*) 14.026879999999998;
  (*352 CH2**) 14.026879999999998;
  (*384 CH3*) 15.03482;
  (*416 CH4*) 16.04276;
  (*448 HCO*) 29.01834;
  (*481 CH2O*) 30.02628;
  (*514 CH3O*) 31.034219999999998;
  (*547 CO*) 28.010399999999997;
  (*579 CO2*) 44.0098;
  (*611 C2H2*) 26.037879999999998;
  (*643 C2H3*) 27.04582;
  (*675 C2H4*) 28.053759999999997;
  (*707 C2H5*) 29.0617;
  (*739 C2H6*) 30.06964;
  (*771 CH2CHO*) 43.04522;
  (*804 aC3H5*) 41.0727;
  (*836 C3H6*) 42.08064;
  (*868 nC3H7*) 43.08858;
  (*900 C2H3CHO*) 56.06416;
  (*933 C4H7*) 55.099579999999996;
  (*965 C4H81*) 56.107519999999994;
  (*997 pC4H9*) 57.11546;
  (*1029 C5H9*) 69.12646;
  (*1061 C5H10*) 70.1344;
  (*1093 PXC5H11*) 71.14233999999999;
  (*1125 C6H12*) 84.16128;
  (*1157 PXC6H13*) 85.16922;
  (*1189 C7H14*) 98.18816;
  (*1221 PXC7H15*) 99.1961;
  (*1253 C8H16*) 112.21503999999999;
  (*1285 PXC8H17*) 113.22297999999999;
  (*1317 C9H18*) 126.24192;
  (*1349 PXC9H19*) 127.24985999999998;
  (*1381 C10H20*) 140.2688;
  (*1413 PXC10H21*) 141.27674;
  (*1445 NC12H26*) 170.33844;
  (*1477 PXC12H25*) 169.3305;
  (*1509 SXC12H25*) 169.3305;
  (*1541 S3XC12H25*) 169.3305;
  (*1573 C12H24*) 168.32256;
  (*1605 C12H25O2*) 201.3293;
  (*1638 C12OOH*) 201.3293;
  (*1671 O2C12H24OOH*) 233.3281;
  (*1704 OC12H23OOH*) 216.32076;
  (*6 N2*) 28.01348
].

(** Atoms of each species ([elements]), in the order of yao/foam/species.foam; elements in the order O H C N Ar;
    the number before a species is the line of its [elements] in yao/foam/thermo.foam. *)
Definition yao_elements : list (list nat) := [
  (*57 AR*) [0; 0; 0; 0; 1]%nat;
  (*88 H*) [0; 1; 0; 0; 0]%nat;
  (*119 O*) [1; 0; 0; 0; 0]%nat;
  (*150 OH*) [1; 1; 0; 0; 0]%nat;
  (*182 HO2*) [2; 1; 0; 0; 0]%nat;
  (*214 H2*) [0; 2; 0; 0; 0]%nat;
  (*245 H2O*) [1; 2; 0; 0; 0]%nat;
  (*277 H2O2*) [2; 2; 0; 0; 0]%nat;
  (*309 O2*) [2; 0; 0; 0; 0]%nat;
  (*340 CH2*) [0; 2; 1; 0; 0]%nat;
  (*372 CH2**) [0; 2; 1; 0; 0]%nat;
  (*404 CH3*) [0; 3; 1; 0; 0]%nat;
  (*436 CH4*) [0; 4; 1; 0; 0]%nat;
  (*468 HCO*) [1; 1; 1; 0; 0]%nat;
  (*501 CH2O*) [1; 2; 1; 0; 0]%nat;
  (*534 CH3O*) [1; 3; 1; 0; 0]%nat;
  (*567 CO*) [1; 0; 1; 0; 0]%nat;
  (*599 CO2*) [2; 0; 1; 0; 0]%nat;
  (*631 C2H2*) [0; 2; 2; 0; 0]%nat;
  (*663 C2H3*) [0; 3; 2; 0; 0]%nat;
  (*695 C2H4*) [0; 4; 2; 0; 0]%nat;
  (*727 C2H5*) [0; 5; 2; 0; 0]%nat;
  (*759 C2H6*) [0; 6; 2; 0; 0]%nat;
  (*791 CH2CHO*) [1; 3; 2; 0; 0]%nat;
  (*824 aC3H5*) [0; 5; 3; 0; 0]%nat;
  (*856 C3H6*) [0; 6; 3; 0; 0]%nat;
  (*888 nC3H7*) [0; 7; 3; 0; 0]%nat;
  (*920 C2H3CHO*) [1; 4; 3; 0; 0]%nat;
  (*953 C4H7*) [0; 7; 4; 0; 0]%nat;
  (*985 C4H81*) [0; 8; 4; 0; 0]%nat;
  (*1017 pC4H9*) [0; 9; 4; 0; 0]%nat;
  (*1049 C5H9*) [0; 9; 5; 0; 0]%nat;
  (*1081 C5H10*) [0; 10; 5; 0; 0]%nat;
  (*1113 PXC5H11*) [0; 11; 5; 0; 0]%nat;
  (*1145 C6H12*) [0; 12; 6; 0; 0]%nat;
  (*1177 PXC6H13*) [0; 13; 6; 0; 0]%nat;
  (*1209 C7H14*) [0; 14; 7; 0; 0]%nat;
  (*1241 PXC7H15*) [0; 15; 7; 0; 0]%nat;
  (*1273 C8H16*) [0; 16; 8; 0; 0]%nat;
  (*1305 PXC8H17*) [0; 17; 8; 0; 0]%nat;
  (*1337 C9H18*) [0; 18; 9; 0; 0]%nat;
  (*1369 PXC9H19*) [0; 19; 9; 0; 0]%nat;
  (*1401 C10H20*) [0; 20; 10; 0; 0]%nat;
  (*1433 PXC10H21*) [0; 21; 10; 0; 0]%nat;
  (*1465 NC12H26*) [0; 26; 12; 0; 0]%nat;
  (*1497 PXC12H25*) [0; 25; 12; 0; 0]%nat;
  (*1529 SXC12H25*) [0; 25; 12; 0; 0]%nat;
  (*1561 S3XC12H25*) [0; 25; 12; 0; 0]%nat;
  (*1593 C12H24*) [0; 24; 12; 0; 0]%nat;
  (*1625 C12H25O2*) [2; 25; 12; 0; 0]%nat;
  (*1658 C12OOH*) [2; 25; 12; 0; 0]%nat;
  (*1691 O2C12H24OOH*) [4; 25; 12; 0; 0]%nat;
  (*1724 OC12H23OOH*) [3; 24; 12; 0; 0]%nat;
  (*26 N2*) [0; 0; 0; 2; 0]%nat
].

(** Molecular weights of a mechanism. *)
Definition molWeight (m : mechanism) : list Q :=
  match m with drm19 => drm19_molWeight | gri30 => gri30_molWeight | yao => yao_molWeight end.

(** Atoms per species of a mechanism. *)
Definition foam_elements (m : mechanism) : list (list nat) :=
  match m with drm19 => drm19_elements | gri30 => gri30_elements | yao => yao_elements end.
