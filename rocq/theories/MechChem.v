(** The reaction mechanisms of /repo/utilities/mechanisms (chem.cti, foam/species.foam). *)
From Coq Require Import List QArith.
From Verif Require Import MechSrc.
Import ListNotations.
Local Open Scope nat_scope.

(** Atoms of each species, in the order of drm19/foam/species.foam; elements in the order O H C N Ar of
    drm19/chem.cti:15.  The number before a species is its line in drm19/chem.cti. *)
Definition drm19_atoms : list (list nat) := [
  (*27 H2*) [0; 2; 0; 0; 0];
  (*44 H*) [0; 1; 0; 0; 0];
  (*59 O*) [1; 0; 0; 0; 0];
  (*74 O2*) [2; 0; 0; 0; 0];
  (*91 OH*) [1; 1; 0; 0; 0];
  (*106 H2O*) [1; 2; 0; 0; 0];
  (*123 HO2*) [2; 1; 0; 0; 0];
  (*139 CH2*) [0; 2; 1; 0; 0];
  (*154 CH2(S)*) [0; 2; 1; 0; 0];
  (*169 CH3*) [0; 3; 1; 0; 0];
  (*184 CH4*) [0; 4; 1; 0; 0];
  (*201 CO*) [1; 0; 1; 0; 0];
  (*218 CO2*) [2; 0; 1; 0; 0];
  (*235 HCO*) [1; 1; 1; 0; 0];
  (*250 CH2O*) [1; 2; 1; 0; 0];
  (*266 CH3O*) [1; 3; 1; 0; 0];
  (*283 C2H4*) [0; 4; 2; 0; 0];
  (*299 C2H5*) [0; 5; 2; 0; 0];
  (*315 C2H6*) [0; 6; 2; 0; 0];
  (*348 AR*) [0; 0; 0; 0; 1];
  (*331 N2*) [0; 0; 0; 2; 0]
].

(** The reactions of drm19/chem.cti; the number before a reaction is its line. *)
Definition drm19_reactions : list reaction := [
  (*368 O + H + M <=> OH + M*)
  mkRx ThreeBody [(2, 1); (1, 1)] [(4, 1)] true [(19, 0.7%Q); (18, 3.0%Q); (10, 2.0%Q); (11, 1.5%Q); (12, 2.0%Q); (0, 2.0%Q); (5, 6.0%Q)];
  (*372 O + H2 <=> H + OH*)
  mkRx Elementary [(2, 1); (0, 1)] [(1, 1); (4, 1)] true [];
  (*375 O + HO2 <=> OH + O2*)
  mkRx Elementary [(2, 1); (6, 1)] [(4, 1); (3, 1)] true [];
  (*378 O + CH2 <=> H + HCO*)
  mkRx Elementary [(2, 1); (7, 1)] [(1, 1); (13, 1)] true [];
  (*381 O + CH2(S) <=> H + HCO*)
  mkRx Elementary [(2, 1); (8, 1)] [(1, 1); (13, 1)] true [];
  (*384 O + CH3 <=> H + CH2O*)
  mkRx Elementary [(2, 1); (9, 1)] [(1, 1); (14, 1)] true [];
  (*387 O + CH4 <=> OH + CH3*)
  mkRx Elementary [(2, 1); (10, 1)] [(4, 1); (9, 1)] true [];
  (*390 O + CO + M <=> CO2 + M*)
  mkRx ThreeBody [(2, 1); (11, 1)] [(12, 1)] true [(19, 0.5%Q); (18, 3.0%Q); (10, 2.0%Q); (11, 1.5%Q); (12, 3.5%Q); (0, 2.0%Q); (5, 6.0%Q); (3, 6.0%Q)];
  (*394 O + HCO <=> OH + CO*)
  mkRx Elementary [(2, 1); (13, 1)] [(4, 1); (11, 1)] true [];
  (*397 O + HCO <=> H + CO2*)
  mkRx Elementary [(2, 1); (13, 1)] [(1, 1); (12, 1)] true [];
  (*400 O + CH2O <=> OH + HCO*)
  mkRx Elementary [(2, 1); (14, 1)] [(4, 1); (13, 1)] true [];
  (*403 O + C2H4 <=> CH3 + HCO*)
  mkRx Elementary [(2, 1); (16, 1)] [(9, 1); (13, 1)] true [];
  (*406 O + C2H5 <=> CH3 + CH2O*)
  mkRx Elementary [(2, 1); (17, 1)] [(9, 1); (14, 1)] true [];
  (*409 O + C2H6 <=> OH + C2H5*)
  mkRx Elementary [(2, 1); (18, 1)] [(4, 1); (17, 1)] true [];
  (*412 O2 + CO <=> O + CO2*)
  mkRx Elementary [(3, 1); (11, 1)] [(2, 1); (12, 1)] true [];
  (*415 O2 + CH2O <=> HO2 + HCO*)
  mkRx Elementary [(3, 1); (14, 1)] [(6, 1); (13, 1)] true [];
  (*418 H + O2 + M <=> HO2 + M*)
  mkRx ThreeBody [(1, 1); (3, 1)] [(6, 1)] true [(19, 0.0%Q); (18, 1.5%Q); (11, 0.75%Q); (12, 1.5%Q); (5, 0.0%Q); (20, 0.0%Q); (3, 0.0%Q)];
  (*422 H + 2 O2 <=> HO2 + O2*)
  mkRx Elementary [(1, 1); (3, 2)] [(6, 1); (3, 1)] true [];
  (*425 H + O2 + H2O <=> HO2 + H2O*)
  mkRx Elementary [(1, 1); (3, 1); (5, 1)] [(6, 1); (5, 1)] true [];
  (*428 H + O2 + N2 <=> HO2 + N2*)
  mkRx Elementary [(1, 1); (3, 1); (20, 1)] [(6, 1); (20, 1)] true [];
  (*431 H + O2 + AR <=> HO2 + AR*)
  mkRx Elementary [(1, 1); (3, 1); (19, 1)] [(6, 1); (19, 1)] true [];
  (*434 H + O2 <=> O + OH*)
  mkRx Elementary [(1, 1); (3, 1)] [(2, 1); (4, 1)] true [];
  (*437 2 H + M <=> H2 + M*)
  mkRx ThreeBody [(1, 2)] [(0, 1)] true [(19, 0.63%Q); (18, 3.0%Q); (10, 2.0%Q); (12, 0.0%Q); (0, 0.0%Q); (5, 0.0%Q)];
  (*441 2 H + H2 <=> 2 H2*)
  mkRx Elementary [(1, 2); (0, 1)] [(0, 2)] true [];
  (*444 2 H + H2O <=> H2 + H2O*)
  mkRx Elementary [(1, 2); (5, 1)] [(0, 1); (5, 1)] true [];
  (*447 2 H + CO2 <=> H2 + CO2*)
  mkRx Elementary [(1, 2); (12, 1)] [(0, 1); (12, 1)] true [];
  (*450 H + OH + M <=> H2O + M*)
  mkRx ThreeBody [(1, 1); (4, 1)] [(5, 1)] true [(19, 0.38%Q); (18, 3.0%Q); (10, 2.0%Q); (0, 0.73%Q); (5, 3.65%Q)];
  (*454 H + HO2 <=> O2 + H2*)
  mkRx Elementary [(1, 1); (6, 1)] [(3, 1); (0, 1)] true [];
  (*457 H + HO2 <=> 2 OH*)
  mkRx Elementary [(1, 1); (6, 1)] [(4, 2)] true [];
  (*460 H + CH2 (+ M) <=> CH3 (+ M)*)
  mkRx Falloff [(1, 1); (7, 1)] [(9, 1)] true [(19, 0.7%Q); (18, 3.0%Q); (10, 2.0%Q); (11, 1.5%Q); (12, 2.0%Q); (0, 2.0%Q); (5, 6.0%Q)];
  (*467 H + CH3 (+ M) <=> CH4 (+ M)*)
  mkRx Falloff [(1, 1); (9, 1)] [(10, 1)] true [(19, 0.7%Q); (18, 3.0%Q); (10, 2.0%Q); (11, 1.5%Q); (12, 2.0%Q); (0, 2.0%Q); (5, 6.0%Q)];
  (*474 H + CH4 <=> CH3 + H2*)
  mkRx Elementary [(1, 1); (10, 1)] [(9, 1); (0, 1)] true [];
  (*477 H + HCO (+ M) <=> CH2O (+ M)*)
  mkRx Falloff [(1, 1); (13, 1)] [(14, 1)] true [(19, 0.7%Q); (18, 3.0%Q); (10, 2.0%Q); (11, 1.5%Q); (12, 2.0%Q); (0, 2.0%Q); (5, 6.0%Q)];
  (*484 H + HCO <=> H2 + CO*)
  mkRx Elementary [(1, 1); (13, 1)] [(0, 1); (11, 1)] true [];
  (*487 H + CH2O (+ M) <=> CH3O (+ M)*)
  mkRx Falloff [(1, 1); (14, 1)] [(15, 1)] true [(18, 3.0%Q); (10, 2.0%Q); (11, 1.5%Q); (12, 2.0%Q); (0, 2.0%Q); (5, 6.0%Q)];
  (*494 H + CH2O <=> HCO + H2*)
  mkRx Elementary [(1, 1); (14, 1)] [(13, 1); (0, 1)] true [];
  (*497 H + CH3O <=> OH + CH3*)
  mkRx Elementary [(1, 1); (15, 1)] [(4, 1); (9, 1)] true [];
  (*500 H + C2H4 (+ M) <=> C2H5 (+ M)*)
  mkRx Falloff [(1, 1); (16, 1)] [(17, 1)] true [(19, 0.7%Q); (18, 3.0%Q); (10, 2.0%Q); (11, 1.5%Q); (12, 2.0%Q); (0, 2.0%Q); (5, 6.0%Q)];
  (*507 H + C2H5 (+ M) <=> C2H6 (+ M)*)
  mkRx Falloff [(1, 1); (17, 1)] [(18, 1)] true [(19, 0.7%Q); (18, 3.0%Q); (10, 2.0%Q); (11, 1.5%Q); (12, 2.0%Q); (0, 2.0%Q); (5, 6.0%Q)];
  (*514 H + C2H6 <=> C2H5 + H2*)
  mkRx Elementary [(1, 1); (18, 1)] [(17, 1); (0, 1)] true [];
  (*517 H2 + CO (+ M) <=> CH2O (+ M)*)
  mkRx Falloff [(0, 1); (11, 1)] [(14, 1)] true [(19, 0.7%Q); (18, 3.0%Q); (10, 2.0%Q); (11, 1.5%Q); (12, 2.0%Q); (0, 2.0%Q); (5, 6.0%Q)];
  (*524 OH + H2 <=> H + H2O*)
  mkRx Elementary [(4, 1); (0, 1)] [(1, 1); (5, 1)] true [];
  (*527 2 OH <=> O + H2O*)
  mkRx Elementary [(4, 2)] [(2, 1); (5, 1)] true [];
  (*530 OH + HO2 <=> O2 + H2O*)
  mkRx Elementary [(4, 1); (6, 1)] [(3, 1); (5, 1)] true [];
  (*533 OH + CH2 <=> H + CH2O*)
  mkRx Elementary [(4, 1); (7, 1)] [(1, 1); (14, 1)] true [];
  (*536 OH + CH2(S) <=> H + CH2O*)
  mkRx Elementary [(4, 1); (8, 1)] [(1, 1); (14, 1)] true [];
  (*539 OH + CH3 <=> CH2 + H2O*)
  mkRx Elementary [(4, 1); (9, 1)] [(7, 1); (5, 1)] true [];
  (*542 OH + CH3 <=> CH2(S) + H2O*)
  mkRx Elementary [(4, 1); (9, 1)] [(8, 1); (5, 1)] true [];
  (*545 OH + CH4 <=> CH3 + H2O*)
  mkRx Elementary [(4, 1); (10, 1)] [(9, 1); (5, 1)] true [];
  (*548 OH + CO <=> H + CO2*)
  mkRx Elementary [(4, 1); (11, 1)] [(1, 1); (12, 1)] true [];
  (*551 OH + HCO <=> H2O + CO*)
  mkRx Elementary [(4, 1); (13, 1)] [(5, 1); (11, 1)] true [];
  (*554 OH + CH2O <=> HCO + H2O*)
  mkRx Elementary [(4, 1); (14, 1)] [(13, 1); (5, 1)] true [];
  (*557 OH + C2H6 <=> C2H5 + H2O*)
  mkRx Elementary [(4, 1); (18, 1)] [(17, 1); (5, 1)] true [];
  (*560 HO2 + CH2 <=> OH + CH2O*)
  mkRx Elementary [(6, 1); (7, 1)] [(4, 1); (14, 1)] true [];
  (*563 HO2 + CH3 <=> O2 + CH4*)
  mkRx Elementary [(6, 1); (9, 1)] [(3, 1); (10, 1)] true [];
  (*566 HO2 + CH3 <=> OH + CH3O*)
  mkRx Elementary [(6, 1); (9, 1)] [(4, 1); (15, 1)] true [];
  (*569 HO2 + CO <=> OH + CO2*)
  mkRx Elementary [(6, 1); (11, 1)] [(4, 1); (12, 1)] true [];
  (*572 CH2 + O2 <=> OH + HCO*)
  mkRx Elementary [(7, 1); (3, 1)] [(4, 1); (13, 1)] true [];
  (*575 CH2 + H2 <=> H + CH3*)
  mkRx Elementary [(7, 1); (0, 1)] [(1, 1); (9, 1)] true [];
  (*578 CH2 + CH3 <=> H + C2H4*)
  mkRx Elementary [(7, 1); (9, 1)] [(1, 1); (16, 1)] true [];
  (*581 CH2 + CH4 <=> 2 CH3*)
  mkRx Elementary [(7, 1); (10, 1)] [(9, 2)] true [];
  (*584 CH2(S) + N2 <=> CH2 + N2*)
  mkRx Elementary [(8, 1); (20, 1)] [(7, 1); (20, 1)] true [];
  (*587 CH2(S) + AR <=> CH2 + AR*)
  mkRx Elementary [(8, 1); (19, 1)] [(7, 1); (19, 1)] true [];
  (*590 CH2(S) + O2 <=> H + OH + CO*)
  mkRx Elementary [(8, 1); (3, 1)] [(1, 1); (4, 1); (11, 1)] true [];
  (*593 CH2(S) + O2 <=> CO + H2O*)
  mkRx Elementary [(8, 1); (3, 1)] [(11, 1); (5, 1)] true [];
  (*596 CH2(S) + H2 <=> CH3 + H*)
  mkRx Elementary [(8, 1); (0, 1)] [(9, 1); (1, 1)] true [];
  (*599 CH2(S) + H2O <=> CH2 + H2O*)
  mkRx Elementary [(8, 1); (5, 1)] [(7, 1); (5, 1)] true [];
  (*602 CH2(S) + CH3 <=> H + C2H4*)
  mkRx Elementary [(8, 1); (9, 1)] [(1, 1); (16, 1)] true [];
  (*605 CH2(S) + CH4 <=> 2 CH3*)
  mkRx Elementary [(8, 1); (10, 1)] [(9, 2)] true [];
  (*608 CH2(S) + CO <=> CH2 + CO*)
  mkRx Elementary [(8, 1); (11, 1)] [(7, 1); (11, 1)] true [];
  (*611 CH2(S) + CO2 <=> CH2 + CO2*)
  mkRx Elementary [(8, 1); (12, 1)] [(7, 1); (12, 1)] true [];
  (*614 CH2(S) + CO2 <=> CO + CH2O*)
  mkRx Elementary [(8, 1); (12, 1)] [(11, 1); (14, 1)] true [];
  (*617 CH3 + O2 <=> O + CH3O*)
  mkRx Elementary [(9, 1); (3, 1)] [(2, 1); (15, 1)] true [];
  (*620 CH3 + O2 <=> OH + CH2O*)
  mkRx Elementary [(9, 1); (3, 1)] [(4, 1); (14, 1)] true [];
  (*623 2 CH3 (+ M) <=> C2H6 (+ M)*)
  mkRx Falloff [(9, 2)] [(18, 1)] true [(19, 0.7%Q); (18, 3.0%Q); (10, 2.0%Q); (11, 1.5%Q); (12, 2.0%Q); (0, 2.0%Q); (5, 6.0%Q)];
  (*630 2 CH3 <=> H + C2H5*)
  mkRx Elementary [(9, 2)] [(1, 1); (17, 1)] true [];
  (*633 CH3 + HCO <=> CH4 + CO*)
  mkRx Elementary [(9, 1); (13, 1)] [(10, 1); (11, 1)] true [];
  (*636 CH3 + CH2O <=> HCO + CH4*)
  mkRx Elementary [(9, 1); (14, 1)] [(13, 1); (10, 1)] true [];
  (*639 CH3 + C2H6 <=> C2H5 + CH4*)
  mkRx Elementary [(9, 1); (18, 1)] [(17, 1); (10, 1)] true [];
  (*642 HCO + H2O <=> H + CO + H2O*)
  mkRx Elementary [(13, 1); (5, 1)] [(1, 1); (11, 1); (5, 1)] true [];
  (*645 HCO + M <=> H + CO + M*)
  mkRx ThreeBody [(13, 1)] [(1, 1); (11, 1)] true [(18, 3.0%Q); (10, 2.0%Q); (11, 1.5%Q); (12, 2.0%Q); (0, 2.0%Q); (5, 0.0%Q)];
  (*649 HCO + O2 <=> HO2 + CO*)
  mkRx Elementary [(13, 1); (3, 1)] [(6, 1); (11, 1)] true [];
  (*652 CH3O + O2 <=> HO2 + CH2O*)
  mkRx Elementary [(15, 1); (3, 1)] [(6, 1); (14, 1)] true [];
  (*655 C2H5 + O2 <=> HO2 + C2H4*)
  mkRx Elementary [(17, 1); (3, 1)] [(6, 1); (16, 1)] true []
].

(** The mechanism drm19. *)
Definition drm19_chemistry : chemistry := mkChem 21 5 drm19_atoms drm19_reactions.

(** Atoms of each species, in the order of gri30/foam/species.foam; elements in the order O H C N Ar of
    gri30/chem.cti:12.  The number before a species is its line in gri30/chem.cti. *)
Definition gri30_atoms : list (list nat) := [
  (*29 H2*) [0; 2; 0; 0; 0];
  (*46 H*) [0; 1; 0; 0; 0];
  (*61 O*) [1; 0; 0; 0; 0];
  (*76 O2*) [2; 0; 0; 0; 0];
  (*93 OH*) [1; 1; 0; 0; 0];
  (*108 H2O*) [1; 2; 0; 0; 0];
  (*125 HO2*) [2; 1; 0; 0; 0];
  (*141 H2O2*) [2; 2; 0; 0; 0];
  (*157 C*) [0; 0; 1; 0; 0];
  (*172 CH*) [0; 1; 1; 0; 0];
  (*187 CH2*) [0; 2; 1; 0; 0];
  (*202 CH2(S)*) [0; 2; 1; 0; 0];
  (*217 CH3*) [0; 3; 1; 0; 0];
  (*232 CH4*) [0; 4; 1; 0; 0];
  (*249 CO*) [1; 0; 1; 0; 0];
  (*266 CO2*) [2; 0; 1; 0; 0];
  (*283 HCO*) [1; 1; 1; 0; 0];
  (*298 CH2O*) [1; 2; 1; 0; 0];
  (*314 CH2OH*) [1; 3; 1; 0; 0];
  (*331 CH3O*) [1; 3; 1; 0; 0];
  (*348 CH3OH*) [1; 4; 1; 0; 0];
  (*364 C2H*) [0; 1; 2; 0; 0];
  (*380 C2H2*) [0; 2; 2; 0; 0];
  (*396 C2H3*) [0; 3; 2; 0; 0];
  (*412 C2H4*) [0; 4; 2; 0; 0];
  (*428 C2H5*) [0; 5; 2; 0; 0];
  (*444 C2H6*) [0; 6; 2; 0; 0];
  (*460 HCCO*) [1; 1; 2; 0; 0];
  (*476 CH2CO*) [1; 2; 2; 0; 0];
  (*492 HCCOH*) [1; 2; 2; 0; 0];
  (*508 N*) [0; 0; 0; 1; 0];
  (*523 NH*) [0; 1; 0; 1; 0];
  (*539 NH2*) [0; 2; 0; 1; 0];
  (*556 NH3*) [0; 3; 0; 1; 0];
  (*573 NNH*) [0; 1; 0; 2; 0];
  (*589 NO*) [1; 0; 0; 1; 0];
  (*606 NO2*) [2; 0; 0; 1; 0];
  (*622 N2O*) [1; 0; 0; 2; 0];
  (*638 HNO*) [1; 1; 0; 1; 0];
  (*654 CN*) [0; 0; 1; 1; 0];
  (*670 HCN*) [0; 1; 1; 1; 0];
  (*686 H2CN*) [0; 2; 1; 1; 0];
  (*702 HCNN*) [0; 1; 1; 2; 0];
  (*718 HCNO*) [1; 1; 1; 1; 0];
  (*734 HOCN*) [1; 1; 1; 1; 0];
  (*750 HNCO*) [1; 1; 1; 1; 0];
  (*766 NCO*) [1; 0; 1; 1; 0];
  (*799 AR*) [0; 0; 0; 0; 1];
  (*814 C3H7*) [0; 7; 3; 0; 0];
  (*830 C3H8*) [0; 8; 3; 0; 0];
  (*846 CH2CHO*) [1; 3; 2; 0; 0];
  (*862 CH3CHO*) [1; 4; 2; 0; 0];
  (*782 N2*) [0; 0; 0; 2; 0]
].

(** The reactions of gri30/chem.cti; the number before a reaction is its line. *)
Definition gri30_reactions : list reaction := [
  (*883 2 O + M <=> O2 + M*)
  mkRx ThreeBody [(2, 2)] [(3, 1)] true [(47, 0.83%Q); (26, 3.0%Q); (13, 2.0%Q); (14, 1.75%Q); (15, 3.6%Q); (0, 2.4%Q); (5, 15.4%Q)];
  (*887 O + H + M <=> OH + M*)
  mkRx ThreeBody [(2, 1); (1, 1)] [(4, 1)] true [(47, 0.7%Q); (26, 3.0%Q); (13, 2.0%Q); (14, 1.5%Q); (15, 2.0%Q); (0, 2.0%Q); (5, 6.0%Q)];
  (*891 O + H2 <=> H + OH*)
  mkRx Elementary [(2, 1); (0, 1)] [(1, 1); (4, 1)] true [];
  (*894 O + HO2 <=> OH + O2*)
  mkRx Elementary [(2, 1); (6, 1)] [(4, 1); (3, 1)] true [];
  (*897 O + H2O2 <=> OH + HO2*)
  mkRx Elementary [(2, 1); (7, 1)] [(4, 1); (6, 1)] true [];
  (*900 O + CH <=> H + CO*)
  mkRx Elementary [(2, 1); (9, 1)] [(1, 1); (14, 1)] true [];
  (*903 O + CH2 <=> H + HCO*)
  mkRx Elementary [(2, 1); (10, 1)] [(1, 1); (16, 1)] true [];
  (*906 O + CH2(S) <=> H2 + CO*)
  mkRx Elementary [(2, 1); (11, 1)] [(0, 1); (14, 1)] true [];
  (*909 O + CH2(S) <=> H + HCO*)
  mkRx Elementary [(2, 1); (11, 1)] [(1, 1); (16, 1)] true [];
  (*912 O + CH3 <=> H + CH2O*)
  mkRx Elementary [(2, 1); (12, 1)] [(1, 1); (17, 1)] true [];
  (*915 O + CH4 <=> OH + CH3*)
  mkRx Elementary [(2, 1); (13, 1)] [(4, 1); (12, 1)] true [];
  (*918 O + CO (+ M) <=> CO2 (+ M)*)
  mkRx Falloff [(2, 1); (14, 1)] [(15, 1)] true [(47, 0.5%Q); (26, 3.0%Q); (13, 2.0%Q); (14, 1.5%Q); (15, 3.5%Q); (0, 2.0%Q); (5, 6.0%Q); (3, 6.0%Q)];
  (*924 O + HCO <=> OH + CO*)
  mkRx Elementary [(2, 1); (16, 1)] [(4, 1); (14, 1)] true [];
  (*927 O + HCO <=> H + CO2*)
  mkRx Elementary [(2, 1); (16, 1)] [(1, 1); (15, 1)] true [];
  (*930 O + CH2O <=> OH + HCO*)
  mkRx Elementary [(2, 1); (17, 1)] [(4, 1); (16, 1)] true [];
  (*933 O + CH2OH <=> OH + CH2O*)
  mkRx Elementary [(2, 1); (18, 1)] [(4, 1); (17, 1)] true [];
  (*936 O + CH3O <=> OH + CH2O*)
  mkRx Elementary [(2, 1); (19, 1)] [(4, 1); (17, 1)] true [];
  (*939 O + CH3OH <=> OH + CH2OH*)
  mkRx Elementary [(2, 1); (20, 1)] [(4, 1); (18, 1)] true [];
  (*942 O + CH3OH <=> OH + CH3O*)
  mkRx Elementary [(2, 1); (20, 1)] [(4, 1); (19, 1)] true [];
  (*945 O + C2H <=> CH + CO*)
  mkRx Elementary [(2, 1); (21, 1)] [(9, 1); (14, 1)] true [];
  (*948 O + C2H2 <=> H + HCCO*)
  mkRx Elementary [(2, 1); (22, 1)] [(1, 1); (27, 1)] true [];
  (*951 O + C2H2 <=> OH + C2H*)
  mkRx Elementary [(2, 1); (22, 1)] [(4, 1); (21, 1)] true [];
  (*954 O + C2H2 <=> CO + CH2*)
  mkRx Elementary [(2, 1); (22, 1)] [(14, 1); (10, 1)] true [];
  (*957 O + C2H3 <=> H + CH2CO*)
  mkRx Elementary [(2, 1); (23, 1)] [(1, 1); (28, 1)] true [];
  (*960 O + C2H4 <=> CH3 + HCO*)
  mkRx Elementary [(2, 1); (24, 1)] [(12, 1); (16, 1)] true [];
  (*963 O + C2H5 <=> CH3 + CH2O*)
  mkRx Elementary [(2, 1); (25, 1)] [(12, 1); (17, 1)] true [];
  (*966 O + C2H6 <=> OH + C2H5*)
  mkRx Elementary [(2, 1); (26, 1)] [(4, 1); (25, 1)] true [];
  (*969 O + HCCO <=> H + 2 CO*)
  mkRx Elementary [(2, 1); (27, 1)] [(1, 1); (14, 2)] true [];
  (*972 O + CH2CO <=> OH + HCCO*)
  mkRx Elementary [(2, 1); (28, 1)] [(4, 1); (27, 1)] true [];
  (*975 O + CH2CO <=> CH2 + CO2*)
  mkRx Elementary [(2, 1); (28, 1)] [(10, 1); (15, 1)] true [];
  (*978 O2 + CO <=> O + CO2*)
  mkRx Elementary [(3, 1); (14, 1)] [(2, 1); (15, 1)] true [];
  (*981 O2 + CH2O <=> HO2 + HCO*)
  mkRx Elementary [(3, 1); (17, 1)] [(6, 1); (16, 1)] true [];
  (*984 H + O2 + M <=> HO2 + M*)
  mkRx ThreeBody [(1, 1); (3, 1)] [(6, 1)] true [(47, 0.0%Q); (26, 1.5%Q); (14, 0.75%Q); (15, 1.5%Q); (5, 0.0%Q); (52, 0.0%Q); (3, 0.0%Q)];
  (*988 H + 2 O2 <=> HO2 + O2*)
  mkRx Elementary [(1, 1); (3, 2)] [(6, 1); (3, 1)] true [];
  (*991 H + O2 + H2O <=> HO2 + H2O*)
  mkRx Elementary [(1, 1); (3, 1); (5, 1)] [(6, 1); (5, 1)] true [];
  (*994 H + O2 + N2 <=> HO2 + N2*)
  mkRx Elementary [(1, 1); (3, 1); (52, 1)] [(6, 1); (52, 1)] true [];
  (*997 H + O2 + AR <=> HO2 + AR*)
  mkRx Elementary [(1, 1); (3, 1); (47, 1)] [(6, 1); (47, 1)] true [];
  (*1000 H + O2 <=> O + OH*)
  mkRx Elementary [(1, 1); (3, 1)] [(2, 1); (4, 1)] true [];
  (*1003 2 H + M <=> H2 + M*)
  mkRx ThreeBody [(1, 2)] [(0, 1)] true [(47, 0.63%Q); (26, 3.0%Q); (13, 2.0%Q); (15, 0.0%Q); (0, 0.0%Q); (5, 0.0%Q)];
  (*1007 2 H + H2 <=> 2 H2*)
  mkRx Elementary [(1, 2); (0, 1)] [(0, 2)] true [];
  (*1010 2 H + H2O <=> H2 + H2O*)
  mkRx Elementary [(1, 2); (5, 1)] [(0, 1); (5, 1)] true [];
  (*1013 2 H + CO2 <=> H2 + CO2*)
  mkRx Elementary [(1, 2); (15, 1)] [(0, 1); (15, 1)] true [];
  (*1016 H + OH + M <=> H2O + M*)
  mkRx ThreeBody [(1, 1); (4, 1)] [(5, 1)] true [(47, 0.38%Q); (26, 3.0%Q); (13, 2.0%Q); (0, 0.73%Q); (5, 3.65%Q)];
  (*1020 H + HO2 <=> O + H2O*)
  mkRx Elementary [(1, 1); (6, 1)] [(2, 1); (5, 1)] true [];
  (*1023 H + HO2 <=> O2 + H2*)
  mkRx Elementary [(1, 1); (6, 1)] [(3, 1); (0, 1)] true [];
  (*1026 H + HO2 <=> 2 OH*)
  mkRx Elementary [(1, 1); (6, 1)] [(4, 2)] true [];
  (*1029 H + H2O2 <=> HO2 + H2*)
  mkRx Elementary [(1, 1); (7, 1)] [(6, 1); (0, 1)] true [];
  (*1032 H + H2O2 <=> OH + H2O*)
  mkRx Elementary [(1, 1); (7, 1)] [(4, 1); (5, 1)] true [];
  (*1035 H + CH <=> C + H2*)
  mkRx Elementary [(1, 1); (9, 1)] [(8, 1); (0, 1)] true [];
  (*1038 H + CH2 (+ M) <=> CH3 (+ M)*)
  mkRx Falloff [(1, 1); (10, 1)] [(12, 1)] true [(47, 0.7%Q); (26, 3.0%Q); (13, 2.0%Q); (14, 1.5%Q); (15, 2.0%Q); (0, 2.0%Q); (5, 6.0%Q)];
  (*1045 H + CH2(S) <=> CH + H2*)
  mkRx Elementary [(1, 1); (11, 1)] [(9, 1); (0, 1)] true [];
  (*1048 H + CH3 (+ M) <=> CH4 (+ M)*)
  mkRx Falloff [(1, 1); (12, 1)] [(13, 1)] true [(47, 0.7%Q); (26, 3.0%Q); (13, 3.0%Q); (14, 1.5%Q); (15, 2.0%Q); (0, 2.0%Q); (5, 6.0%Q)];
  (*1055 H + CH4 <=> CH3 + H2*)
  mkRx Elementary [(1, 1); (13, 1)] [(12, 1); (0, 1)] true [];
  (*1058 H + HCO (+ M) <=> CH2O (+ M)*)
  mkRx Falloff [(1, 1); (16, 1)] [(17, 1)] true [(47, 0.7%Q); (26, 3.0%Q); (13, 2.0%Q); (14, 1.5%Q); (15, 2.0%Q); (0, 2.0%Q); (5, 6.0%Q)];
  (*1065 H + HCO <=> H2 + CO*)
  mkRx Elementary [(1, 1); (16, 1)] [(0, 1); (14, 1)] true [];
  (*1068 H + CH2O (+ M) <=> CH2OH (+ M)*)
  mkRx Falloff [(1, 1); (17, 1)] [(18, 1)] true [(26, 3.0%Q); (13, 2.0%Q); (14, 1.5%Q); (15, 2.0%Q); (0, 2.0%Q); (5, 6.0%Q)];
  (*1075 H + CH2O (+ M) <=> CH3O (+ M)*)
  mkRx Falloff [(1, 1); (17, 1)] [(19, 1)] true [(26, 3.0%Q); (13, 2.0%Q); (14, 1.5%Q); (15, 2.0%Q); (0, 2.0%Q); (5, 6.0%Q)];
  (*1082 H + CH2O <=> HCO + H2*)
  mkRx Elementary [(1, 1); (17, 1)] [(16, 1); (0, 1)] true [];
  (*1085 H + CH2OH (+ M) <=> CH3OH (+ M)*)
  mkRx Falloff [(1, 1); (18, 1)] [(20, 1)] true [(26, 3.0%Q); (13, 2.0%Q); (14, 1.5%Q); (15, 2.0%Q); (0, 2.0%Q); (5, 6.0%Q)];
  (*1092 H + CH2OH <=> H2 + CH2O*)
  mkRx Elementary [(1, 1); (18, 1)] [(0, 1); (17, 1)] true [];
  (*1095 H + CH2OH <=> OH + CH3*)
  mkRx Elementary [(1, 1); (18, 1)] [(4, 1); (12, 1)] true [];
  (*1098 H + CH2OH <=> CH2(S) + H2O*)
  mkRx Elementary [(1, 1); (18, 1)] [(11, 1); (5, 1)] true [];
  (*1101 H + CH3O (+ M) <=> CH3OH (+ M)*)
  mkRx Falloff [(1, 1); (19, 1)] [(20, 1)] true [(26, 3.0%Q); (13, 2.0%Q); (14, 1.5%Q); (15, 2.0%Q); (0, 2.0%Q); (5, 6.0%Q)];
  (*1108 H + CH3O <=> H + CH2OH*)
  mkRx Elementary [(1, 1); (19, 1)] [(1, 1); (18, 1)] true [];
  (*1111 H + CH3O <=> H2 + CH2O*)
  mkRx Elementary [(1, 1); (19, 1)] [(0, 1); (17, 1)] true [];
  (*1114 H + CH3O <=> OH + CH3*)
  mkRx Elementary [(1, 1); (19, 1)] [(4, 1); (12, 1)] true [];
  (*1117 H + CH3O <=> CH2(S) + H2O*)
  mkRx Elementary [(1, 1); (19, 1)] [(11, 1); (5, 1)] true [];
  (*1120 H + CH3OH <=> CH2OH + H2*)
  mkRx Elementary [(1, 1); (20, 1)] [(18, 1); (0, 1)] true [];
  (*1123 H + CH3OH <=> CH3O + H2*)
  mkRx Elementary [(1, 1); (20, 1)] [(19, 1); (0, 1)] true [];
  (*1126 H + C2H (+ M) <=> C2H2 (+ M)*)
  mkRx Falloff [(1, 1); (21, 1)] [(22, 1)] true [(47, 0.7%Q); (26, 3.0%Q); (13, 2.0%Q); (14, 1.5%Q); (15, 2.0%Q); (0, 2.0%Q); (5, 6.0%Q)];
  (*1133 H + C2H2 (+ M) <=> C2H3 (+ M)*)
  mkRx Falloff [(1, 1); (22, 1)] [(23, 1)] true [(47, 0.7%Q); (26, 3.0%Q); (13, 2.0%Q); (14, 1.5%Q); (15, 2.0%Q); (0, 2.0%Q); (5, 6.0%Q)];
  (*1140 H + C2H3 (+ M) <=> C2H4 (+ M)*)
  mkRx Falloff [(1, 1); (23, 1)] [(24, 1)] true [(47, 0.7%Q); (26, 3.0%Q); (13, 2.0%Q); (14, 1.5%Q); (15, 2.0%Q); (0, 2.0%Q); (5, 6.0%Q)];
  (*1147 H + C2H3 <=> H2 + C2H2*)
  mkRx Elementary [(1, 1); (23, 1)] [(0, 1); (22, 1)] true [];
  (*1150 H + C2H4 (+ M) <=> C2H5 (+ M)*)
  mkRx Falloff [(1, 1); (24, 1)] [(25, 1)] true [(47, 0.7%Q); (26, 3.0%Q); (13, 2.0%Q); (14, 1.5%Q); (15, 2.0%Q); (0, 2.0%Q); (5, 6.0%Q)];
  (*1157 H + C2H4 <=> C2H3 + H2*)
  mkRx Elementary [(1, 1); (24, 1)] [(23, 1); (0, 1)] true [];
  (*1160 H + C2H5 (+ M) <=> C2H6 (+ M)*)
  mkRx Falloff [(1, 1); (25, 1)] [(26, 1)] true [(47, 0.7%Q); (26, 3.0%Q); (13, 2.0%Q); (14, 1.5%Q); (15, 2.0%Q); (0, 2.0%Q); (5, 6.0%Q)];
  (*1167 H + C2H5 <=> H2 + C2H4*)
  mkRx Elementary [(1, 1); (25, 1)] [(0, 1); (24, 1)] true [];
  (*1170 H + C2H6 <=> C2H5 + H2*)
  mkRx Elementary [(1, 1); (26, 1)] [(25, 1); (0, 1)] true [];
  (*1173 H + HCCO <=> CH2(S) + CO*)
  mkRx Elementary [(1, 1); (27, 1)] [(11, 1); (14, 1)] true [];
  (*1176 H + CH2CO <=> HCCO + H2*)
  mkRx Elementary [(1, 1); (28, 1)] [(27, 1); (0, 1)] true [];
  (*1179 H + CH2CO <=> CH3 + CO*)
  mkRx Elementary [(1, 1); (28, 1)] [(12, 1); (14, 1)] true [];
  (*1182 H + HCCOH <=> H + CH2CO*)
  mkRx Elementary [(1, 1); (29, 1)] [(1, 1); (28, 1)] true [];
  (*1185 H2 + CO (+ M) <=> CH2O (+ M)*)
  mkRx Falloff [(0, 1); (14, 1)] [(17, 1)] true [(47, 0.7%Q); (26, 3.0%Q); (13, 2.0%Q); (14, 1.5%Q); (15, 2.0%Q); (0, 2.0%Q); (5, 6.0%Q)];
  (*1192 OH + H2 <=> H + H2O*)
  mkRx Elementary [(4, 1); (0, 1)] [(1, 1); (5, 1)] true [];
  (*1195 2 OH (+ M) <=> H2O2 (+ M)*)
  mkRx Falloff [(4, 2)] [(7, 1)] true [(47, 0.7%Q); (26, 3.0%Q); (13, 2.0%Q); (14, 1.5%Q); (15, 2.0%Q); (0, 2.0%Q); (5, 6.0%Q)];
  (*1202 2 OH <=> O + H2O*)
  mkRx Elementary [(4, 2)] [(2, 1); (5, 1)] true [];
  (*1205 OH + HO2 <=> O2 + H2O*)
  mkRx Elementary [(4, 1); (6, 1)] [(3, 1); (5, 1)] true [];
  (*1209 OH + H2O2 <=> HO2 + H2O*)
  mkRx Elementary [(4, 1); (7, 1)] [(6, 1); (5, 1)] true [];
  (*1213 OH + H2O2 <=> HO2 + H2O*)
  mkRx Elementary [(4, 1); (7, 1)] [(6, 1); (5, 1)] true [];
  (*1217 OH + C <=> H + CO*)
  mkRx Elementary [(4, 1); (8, 1)] [(1, 1); (14, 1)] true [];
  (*1220 OH + CH <=> H + HCO*)
  mkRx Elementary [(4, 1); (9, 1)] [(1, 1); (16, 1)] true [];
  (*1223 OH + CH2 <=> H + CH2O*)
  mkRx Elementary [(4, 1); (10, 1)] [(1, 1); (17, 1)] true [];
  (*1226 OH + CH2 <=> CH + H2O*)
  mkRx Elementary [(4, 1); (10, 1)] [(9, 1); (5, 1)] true [];
  (*1229 OH + CH2(S) <=> H + CH2O*)
  mkRx Elementary [(4, 1); (11, 1)] [(1, 1); (17, 1)] true [];
  (*1232 OH + CH3 (+ M) <=> CH3OH (+ M)*)
  mkRx Falloff [(4, 1); (12, 1)] [(20, 1)] true [(26, 3.0%Q); (13, 2.0%Q); (14, 1.5%Q); (15, 2.0%Q); (0, 2.0%Q); (5, 6.0%Q)];
  (*1239 OH + CH3 <=> CH2 + H2O*)
  mkRx Elementary [(4, 1); (12, 1)] [(10, 1); (5, 1)] true [];
  (*1242 OH + CH3 <=> CH2(S) + H2O*)
  mkRx Elementary [(4, 1); (12, 1)] [(11, 1); (5, 1)] true [];
  (*1245 OH + CH4 <=> CH3 + H2O*)
  mkRx Elementary [(4, 1); (13, 1)] [(12, 1); (5, 1)] true [];
  (*1248 OH + CO <=> H + CO2*)
  mkRx Elementary [(4, 1); (14, 1)] [(1, 1); (15, 1)] true [];
  (*1251 OH + HCO <=> H2O + CO*)
  mkRx Elementary [(4, 1); (16, 1)] [(5, 1); (14, 1)] true [];
  (*1254 OH + CH2O <=> HCO + H2O*)
  mkRx Elementary [(4, 1); (17, 1)] [(16, 1); (5, 1)] true [];
  (*1257 OH + CH2OH <=> H2O + CH2O*)
  mkRx Elementary [(4, 1); (18, 1)] [(5, 1); (17, 1)] true [];
  (*1260 OH + CH3O <=> H2O + CH2O*)
  mkRx Elementary [(4, 1); (19, 1)] [(5, 1); (17, 1)] true [];
  (*1263 OH + CH3OH <=> CH2OH + H2O*)
  mkRx Elementary [(4, 1); (20, 1)] [(18, 1); (5, 1)] true [];
  (*1266 OH + CH3OH <=> CH3O + H2O*)
  mkRx Elementary [(4, 1); (20, 1)] [(19, 1); (5, 1)] true [];
  (*1269 OH + C2H <=> H + HCCO*)
  mkRx Elementary [(4, 1); (21, 1)] [(1, 1); (27, 1)] true [];
  (*1272 OH + C2H2 <=> H + CH2CO*)
  mkRx Elementary [(4, 1); (22, 1)] [(1, 1); (28, 1)] true [];
  (*1275 OH + C2H2 <=> H + HCCOH*)
  mkRx Elementary [(4, 1); (22, 1)] [(1, 1); (29, 1)] true [];
  (*1278 OH + C2H2 <=> C2H + H2O*)
  mkRx Elementary [(4, 1); (22, 1)] [(21, 1); (5, 1)] true [];
  (*1281 OH + C2H2 <=> CH3 + CO*)
  mkRx Elementary [(4, 1); (22, 1)] [(12, 1); (14, 1)] true [];
  (*1284 OH + C2H3 <=> H2O + C2H2*)
  mkRx Elementary [(4, 1); (23, 1)] [(5, 1); (22, 1)] true [];
  (*1287 OH + C2H4 <=> C2H3 + H2O*)
  mkRx Elementary [(4, 1); (24, 1)] [(23, 1); (5, 1)] true [];
  (*1290 OH + C2H6 <=> C2H5 + H2O*)
  mkRx Elementary [(4, 1); (26, 1)] [(25, 1); (5, 1)] true [];
  (*1293 OH + CH2CO <=> HCCO + H2O*)
  mkRx Elementary [(4, 1); (28, 1)] [(27, 1); (5, 1)] true [];
  (*1296 2 HO2 <=> O2 + H2O2*)
  mkRx Elementary [(6, 2)] [(3, 1); (7, 1)] true [];
  (*1300 2 HO2 <=> O2 + H2O2*)
  mkRx Elementary [(6, 2)] [(3, 1); (7, 1)] true [];
  (*1304 HO2 + CH2 <=> OH + CH2O*)
  mkRx Elementary [(6, 1); (10, 1)] [(4, 1); (17, 1)] true [];
  (*1307 HO2 + CH3 <=> O2 + CH4*)
  mkRx Elementary [(6, 1); (12, 1)] [(3, 1); (13, 1)] true [];
  (*1310 HO2 + CH3 <=> OH + CH3O*)
  mkRx Elementary [(6, 1); (12, 1)] [(4, 1); (19, 1)] true [];
  (*1313 HO2 + CO <=> OH + CO2*)
  mkRx Elementary [(6, 1); (14, 1)] [(4, 1); (15, 1)] true [];
  (*1316 HO2 + CH2O <=> HCO + H2O2*)
  mkRx Elementary [(6, 1); (17, 1)] [(16, 1); (7, 1)] true [];
  (*1319 C + O2 <=> O + CO*)
  mkRx Elementary [(8, 1); (3, 1)] [(2, 1); (14, 1)] true [];
  (*1322 C + CH2 <=> H + C2H*)
  mkRx Elementary [(8, 1); (10, 1)] [(1, 1); (21, 1)] true [];
  (*1325 C + CH3 <=> H + C2H2*)
  mkRx Elementary [(8, 1); (12, 1)] [(1, 1); (22, 1)] true [];
  (*1328 CH + O2 <=> O + HCO*)
  mkRx Elementary [(9, 1); (3, 1)] [(2, 1); (16, 1)] true [];
  (*1331 CH + H2 <=> H + CH2*)
  mkRx Elementary [(9, 1); (0, 1)] [(1, 1); (10, 1)] true [];
  (*1334 CH + H2O <=> H + CH2O*)
  mkRx Elementary [(9, 1); (5, 1)] [(1, 1); (17, 1)] true [];
  (*1337 CH + CH2 <=> H + C2H2*)
  mkRx Elementary [(9, 1); (10, 1)] [(1, 1); (22, 1)] true [];
  (*1340 CH + CH3 <=> H + C2H3*)
  mkRx Elementary [(9, 1); (12, 1)] [(1, 1); (23, 1)] true [];
  (*1343 CH + CH4 <=> H + C2H4*)
  mkRx Elementary [(9, 1); (13, 1)] [(1, 1); (24, 1)] true [];
  (*1346 CH + CO (+ M) <=> HCCO (+ M)*)
  mkRx Falloff [(9, 1); (14, 1)] [(27, 1)] true [(47, 0.7%Q); (26, 3.0%Q); (13, 2.0%Q); (14, 1.5%Q); (15, 2.0%Q); (0, 2.0%Q); (5, 6.0%Q)];
  (*1353 CH + CO2 <=> HCO + CO*)
  mkRx Elementary [(9, 1); (15, 1)] [(16, 1); (14, 1)] true [];
  (*1356 CH + CH2O <=> H + CH2CO*)
  mkRx Elementary [(9, 1); (17, 1)] [(1, 1); (28, 1)] true [];
  (*1359 CH + HCCO <=> CO + C2H2*)
  mkRx Elementary [(9, 1); (27, 1)] [(14, 1); (22, 1)] true [];
  (*1362 CH2 + O2 => OH + H + CO*)
  mkRx Elementary [(10, 1); (3, 1)] [(4, 1); (1, 1); (14, 1)] false [];
  (*1365 CH2 + H2 <=> H + CH3*)
  mkRx Elementary [(10, 1); (0, 1)] [(1, 1); (12, 1)] true [];
  (*1368 2 CH2 <=> H2 + C2H2*)
  mkRx Elementary [(10, 2)] [(0, 1); (22, 1)] true [];
  (*1371 CH2 + CH3 <=> H + C2H4*)
  mkRx Elementary [(10, 1); (12, 1)] [(1, 1); (24, 1)] true [];
  (*1374 CH2 + CH4 <=> 2 CH3*)
  mkRx Elementary [(10, 1); (13, 1)] [(12, 2)] true [];
  (*1377 CH2 + CO (+ M) <=> CH2CO (+ M)*)
  mkRx Falloff [(10, 1); (14, 1)] [(28, 1)] true [(47, 0.7%Q); (26, 3.0%Q); (13, 2.0%Q); (14, 1.5%Q); (15, 2.0%Q); (0, 2.0%Q); (5, 6.0%Q)];
  (*1384 CH2 + HCCO <=> C2H3 + CO*)
  mkRx Elementary [(10, 1); (27, 1)] [(23, 1); (14, 1)] true [];
  (*1387 CH2(S) + N2 <=> CH2 + N2*)
  mkRx Elementary [(11, 1); (52, 1)] [(10, 1); (52, 1)] true [];
  (*1390 CH2(S) + AR <=> CH2 + AR*)
  mkRx Elementary [(11, 1); (47, 1)] [(10, 1); (47, 1)] true [];
  (*1393 CH2(S) + O2 <=> H + OH + CO*)
  mkRx Elementary [(11, 1); (3, 1)] [(1, 1); (4, 1); (14, 1)] true [];
  (*1396 CH2(S) + O2 <=> CO + H2O*)
  mkRx Elementary [(11, 1); (3, 1)] [(14, 1); (5, 1)] true [];
  (*1399 CH2(S) + H2 <=> CH3 + H*)
  mkRx Elementary [(11, 1); (0, 1)] [(12, 1); (1, 1)] true [];
  (*1402 CH2(S) + H2O (+ M) <=> CH3OH (+ M)*)
  mkRx Falloff [(11, 1); (5, 1)] [(20, 1)] true [(26, 3.0%Q); (13, 2.0%Q); (14, 1.5%Q); (15, 2.0%Q); (0, 2.0%Q); (5, 6.0%Q)];
  (*1409 CH2(S) + H2O <=> CH2 + H2O*)
  mkRx Elementary [(11, 1); (5, 1)] [(10, 1); (5, 1)] true [];
  (*1412 CH2(S) + CH3 <=> H + C2H4*)
  mkRx Elementary [(11, 1); (12, 1)] [(1, 1); (24, 1)] true [];
  (*1415 CH2(S) + CH4 <=> 2 CH3*)
  mkRx Elementary [(11, 1); (13, 1)] [(12, 2)] true [];
  (*1418 CH2(S) + CO <=> CH2 + CO*)
  mkRx Elementary [(11, 1); (14, 1)] [(10, 1); (14, 1)] true [];
  (*1421 CH2(S) + CO2 <=> CH2 + CO2*)
  mkRx Elementary [(11, 1); (15, 1)] [(10, 1); (15, 1)] true [];
  (*1424 CH2(S) + CO2 <=> CO + CH2O*)
  mkRx Elementary [(11, 1); (15, 1)] [(14, 1); (17, 1)] true [];
  (*1427 CH2(S) + C2H6 <=> CH3 + C2H5*)
  mkRx Elementary [(11, 1); (26, 1)] [(12, 1); (25, 1)] true [];
  (*1430 CH3 + O2 <=> O + CH3O*)
  mkRx Elementary [(12, 1); (3, 1)] [(2, 1); (19, 1)] true [];
  (*1433 CH3 + O2 <=> OH + CH2O*)
  mkRx Elementary [(12, 1); (3, 1)] [(4, 1); (17, 1)] true [];
  (*1436 CH3 + H2O2 <=> HO2 + CH4*)
  mkRx Elementary [(12, 1); (7, 1)] [(6, 1); (13, 1)] true [];
  (*1439 2 CH3 (+ M) <=> C2H6 (+ M)*)
  mkRx Falloff [(12, 2)] [(26, 1)] true [(47, 0.7%Q); (26, 3.0%Q); (13, 2.0%Q); (14, 1.5%Q); (15, 2.0%Q); (0, 2.0%Q); (5, 6.0%Q)];
  (*1446 2 CH3 <=> H + C2H5*)
  mkRx Elementary [(12, 2)] [(1, 1); (25, 1)] true [];
  (*1449 CH3 + HCO <=> CH4 + CO*)
  mkRx Elementary [(12, 1); (16, 1)] [(13, 1); (14, 1)] true [];
  (*1452 CH3 + CH2O <=> HCO + CH4*)
  mkRx Elementary [(12, 1); (17, 1)] [(16, 1); (13, 1)] true [];
  (*1455 CH3 + CH3OH <=> CH2OH + CH4*)
  mkRx Elementary [(12, 1); (20, 1)] [(18, 1); (13, 1)] true [];
  (*1458 CH3 + CH3OH <=> CH3O + CH4*)
  mkRx Elementary [(12, 1); (20, 1)] [(19, 1); (13, 1)] true [];
  (*1461 CH3 + C2H4 <=> C2H3 + CH4*)
  mkRx Elementary [(12, 1); (24, 1)] [(23, 1); (13, 1)] true [];
  (*1464 CH3 + C2H6 <=> C2H5 + CH4*)
  mkRx Elementary [(12, 1); (26, 1)] [(25, 1); (13, 1)] true [];
  (*1467 HCO + H2O <=> H + CO + H2O*)
  mkRx Elementary [(16, 1); (5, 1)] [(1, 1); (14, 1); (5, 1)] true [];
  (*1470 HCO + M <=> H + CO + M*)
  mkRx ThreeBody [(16, 1)] [(1, 1); (14, 1)] true [(26, 3.0%Q); (13, 2.0%Q); (14, 1.5%Q); (15, 2.0%Q); (0, 2.0%Q); (5, 0.0%Q)];
  (*1474 HCO + O2 <=> HO2 + CO*)
  mkRx Elementary [(16, 1); (3, 1)] [(6, 1); (14, 1)] true [];
  (*1477 CH2OH + O2 <=> HO2 + CH2O*)
  mkRx Elementary [(18, 1); (3, 1)] [(6, 1); (17, 1)] true [];
  (*1480 CH3O + O2 <=> HO2 + CH2O*)
  mkRx Elementary [(19, 1); (3, 1)] [(6, 1); (17, 1)] true [];
  (*1483 C2H + O2 <=> HCO + CO*)
  mkRx Elementary [(21, 1); (3, 1)] [(16, 1); (14, 1)] true [];
  (*1486 C2H + H2 <=> H + C2H2*)
  mkRx Elementary [(21, 1); (0, 1)] [(1, 1); (22, 1)] true [];
  (*1489 C2H3 + O2 <=> HCO + CH2O*)
  mkRx Elementary [(23, 1); (3, 1)] [(16, 1); (17, 1)] true [];
  (*1492 C2H4 (+ M) <=> H2 + C2H2 (+ M)*)
  mkRx Falloff [(24, 1)] [(0, 1); (22, 1)] true [(47, 0.7%Q); (26, 3.0%Q); (13, 2.0%Q); (14, 1.5%Q); (15, 2.0%Q); (0, 2.0%Q); (5, 6.0%Q)];
  (*1499 C2H5 + O2 <=> HO2 + C2H4*)
  mkRx Elementary [(25, 1); (3, 1)] [(6, 1); (24, 1)] true [];
  (*1502 HCCO + O2 <=> OH + 2 CO*)
  mkRx Elementary [(27, 1); (3, 1)] [(4, 1); (14, 2)] true [];
  (*1505 2 HCCO <=> 2 CO + C2H2*)
  mkRx Elementary [(27, 2)] [(14, 2); (22, 1)] true [];
  (*1508 N + NO <=> N2 + O*)
  mkRx Elementary [(30, 1); (35, 1)] [(52, 1); (2, 1)] true [];
  (*1511 N + O2 <=> NO + O*)
  mkRx Elementary [(30, 1); (3, 1)] [(35, 1); (2, 1)] true [];
  (*1514 N + OH <=> NO + H*)
  mkRx Elementary [(30, 1); (4, 1)] [(35, 1); (1, 1)] true [];
  (*1517 N2O + O <=> N2 + O2*)
  mkRx Elementary [(37, 1); (2, 1)] [(52, 1); (3, 1)] true [];
  (*1520 N2O + O <=> 2 NO*)
  mkRx Elementary [(37, 1); (2, 1)] [(35, 2)] true [];
  (*1523 N2O + H <=> N2 + OH*)
  mkRx Elementary [(37, 1); (1, 1)] [(52, 1); (4, 1)] true [];
  (*1526 N2O + OH <=> N2 + HO2*)
  mkRx Elementary [(37, 1); (4, 1)] [(52, 1); (6, 1)] true [];
  (*1529 N2O (+ M) <=> N2 + O (+ M)*)
  mkRx Falloff [(37, 1)] [(52, 1); (2, 1)] true [(47, 0.625%Q); (26, 3.0%Q); (13, 2.0%Q); (14, 1.5%Q); (15, 2.0%Q); (0, 2.0%Q); (5, 6.0%Q)];
  (*1535 HO2 + NO <=> NO2 + OH*)
  mkRx Elementary [(6, 1); (35, 1)] [(36, 1); (4, 1)] true [];
  (*1538 NO + O + M <=> NO2 + M*)
  mkRx ThreeBody [(35, 1); (2, 1)] [(36, 1)] true [(47, 0.7%Q); (26, 3.0%Q); (13, 2.0%Q); (14, 1.5%Q); (15, 2.0%Q); (0, 2.0%Q); (5, 6.0%Q)];
  (*1542 NO2 + O <=> NO + O2*)
  mkRx Elementary [(36, 1); (2, 1)] [(35, 1); (3, 1)] true [];
  (*1545 NO2 + H <=> NO + OH*)
  mkRx Elementary [(36, 1); (1, 1)] [(35, 1); (4, 1)] true [];
  (*1548 NH + O <=> NO + H*)
  mkRx Elementary [(31, 1); (2, 1)] [(35, 1); (1, 1)] true [];
  (*1551 NH + H <=> N + H2*)
  mkRx Elementary [(31, 1); (1, 1)] [(30, 1); (0, 1)] true [];
  (*1554 NH + OH <=> HNO + H*)
  mkRx Elementary [(31, 1); (4, 1)] [(38, 1); (1, 1)] true [];
  (*1557 NH + OH <=> N + H2O*)
  mkRx Elementary [(31, 1); (4, 1)] [(30, 1); (5, 1)] true [];
  (*1560 NH + O2 <=> HNO + O*)
  mkRx Elementary [(31, 1); (3, 1)] [(38, 1); (2, 1)] true [];
  (*1563 NH + O2 <=> NO + OH*)
  mkRx Elementary [(31, 1); (3, 1)] [(35, 1); (4, 1)] true [];
  (*1566 NH + N <=> N2 + H*)
  mkRx Elementary [(31, 1); (30, 1)] [(52, 1); (1, 1)] true [];
  (*1569 NH + H2O <=> HNO + H2*)
  mkRx Elementary [(31, 1); (5, 1)] [(38, 1); (0, 1)] true [];
  (*1572 NH + NO <=> N2 + OH*)
  mkRx Elementary [(31, 1); (35, 1)] [(52, 1); (4, 1)] true [];
  (*1575 NH + NO <=> N2O + H*)
  mkRx Elementary [(31, 1); (35, 1)] [(37, 1); (1, 1)] true [];
  (*1578 NH2 + O <=> OH + NH*)
  mkRx Elementary [(32, 1); (2, 1)] [(4, 1); (31, 1)] true [];
  (*1581 NH2 + O <=> H + HNO*)
  mkRx Elementary [(32, 1); (2, 1)] [(1, 1); (38, 1)] true [];
  (*1584 NH2 + H <=> NH + H2*)
  mkRx Elementary [(32, 1); (1, 1)] [(31, 1); (0, 1)] true [];
  (*1587 NH2 + OH <=> NH + H2O*)
  mkRx Elementary [(32, 1); (4, 1)] [(31, 1); (5, 1)] true [];
  (*1590 NNH <=> N2 + H*)
  mkRx Elementary [(34, 1)] [(52, 1); (1, 1)] true [];
  (*1593 NNH + M <=> N2 + H + M*)
  mkRx ThreeBody [(34, 1)] [(52, 1); (1, 1)] true [(47, 0.7%Q); (26, 3.0%Q); (13, 2.0%Q); (14, 1.5%Q); (15, 2.0%Q); (0, 2.0%Q); (5, 6.0%Q)];
  (*1597 NNH + O2 <=> HO2 + N2*)
  mkRx Elementary [(34, 1); (3, 1)] [(6, 1); (52, 1)] true [];
  (*1600 NNH + O <=> OH + N2*)
  mkRx Elementary [(34, 1); (2, 1)] [(4, 1); (52, 1)] true [];
  (*1603 NNH + O <=> NH + NO*)
  mkRx Elementary [(34, 1); (2, 1)] [(31, 1); (35, 1)] true [];
  (*1606 NNH + H <=> H2 + N2*)
  mkRx Elementary [(34, 1); (1, 1)] [(0, 1); (52, 1)] true [];
  (*1609 NNH + OH <=> H2O + N2*)
  mkRx Elementary [(34, 1); (4, 1)] [(5, 1); (52, 1)] true [];
  (*1612 NNH + CH3 <=> CH4 + N2*)
  mkRx Elementary [(34, 1); (12, 1)] [(13, 1); (52, 1)] true [];
  (*1615 H + NO + M <=> HNO + M*)
  mkRx ThreeBody [(1, 1); (35, 1)] [(38, 1)] true [(47, 0.7%Q); (26, 3.0%Q); (13, 2.0%Q); (14, 1.5%Q); (15, 2.0%Q); (0, 2.0%Q); (5, 6.0%Q)];
  (*1619 HNO + O <=> NO + OH*)
  mkRx Elementary [(38, 1); (2, 1)] [(35, 1); (4, 1)] true [];
  (*1622 HNO + H <=> H2 + NO*)
  mkRx Elementary [(38, 1); (1, 1)] [(0, 1); (35, 1)] true [];
  (*1625 HNO + OH <=> NO + H2O*)
  mkRx Elementary [(38, 1); (4, 1)] [(35, 1); (5, 1)] true [];
  (*1628 HNO + O2 <=> HO2 + NO*)
  mkRx Elementary [(38, 1); (3, 1)] [(6, 1); (35, 1)] true [];
  (*1631 CN + O <=> CO + N*)
  mkRx Elementary [(39, 1); (2, 1)] [(14, 1); (30, 1)] true [];
  (*1634 CN + OH <=> NCO + H*)
  mkRx Elementary [(39, 1); (4, 1)] [(46, 1); (1, 1)] true [];
  (*1637 CN + H2O <=> HCN + OH*)
  mkRx Elementary [(39, 1); (5, 1)] [(40, 1); (4, 1)] true [];
  (*1640 CN + O2 <=> NCO + O*)
  mkRx Elementary [(39, 1); (3, 1)] [(46, 1); (2, 1)] true [];
  (*1643 CN + H2 <=> HCN + H*)
  mkRx Elementary [(39, 1); (0, 1)] [(40, 1); (1, 1)] true [];
  (*1646 NCO + O <=> NO + CO*)
  mkRx Elementary [(46, 1); (2, 1)] [(35, 1); (14, 1)] true [];
  (*1649 NCO + H <=> NH + CO*)
  mkRx Elementary [(46, 1); (1, 1)] [(31, 1); (14, 1)] true [];
  (*1652 NCO + OH <=> NO + H + CO*)
  mkRx Elementary [(46, 1); (4, 1)] [(35, 1); (1, 1); (14, 1)] true [];
  (*1655 NCO + N <=> N2 + CO*)
  mkRx Elementary [(46, 1); (30, 1)] [(52, 1); (14, 1)] true [];
  (*1658 NCO + O2 <=> NO + CO2*)
  mkRx Elementary [(46, 1); (3, 1)] [(35, 1); (15, 1)] true [];
  (*1661 NCO + M <=> N + CO + M*)
  mkRx ThreeBody [(46, 1)] [(30, 1); (14, 1)] true [(47, 0.7%Q); (26, 3.0%Q); (13, 2.0%Q); (14, 1.5%Q); (15, 2.0%Q); (0, 2.0%Q); (5, 6.0%Q)];
  (*1665 NCO + NO <=> N2O + CO*)
  mkRx Elementary [(46, 1); (35, 1)] [(37, 1); (14, 1)] true [];
  (*1668 NCO + NO <=> N2 + CO2*)
  mkRx Elementary [(46, 1); (35, 1)] [(52, 1); (15, 1)] true [];
  (*1671 HCN + M <=> H + CN + M*)
  mkRx ThreeBody [(40, 1)] [(1, 1); (39, 1)] true [(47, 0.7%Q); (26, 3.0%Q); (13, 2.0%Q); (14, 1.5%Q); (15, 2.0%Q); (0, 2.0%Q); (5, 6.0%Q)];
  (*1675 HCN + O <=> NCO + H*)
  mkRx Elementary [(40, 1); (2, 1)] [(46, 1); (1, 1)] true [];
  (*1678 HCN + O <=> NH + CO*)
  mkRx Elementary [(40, 1); (2, 1)] [(31, 1); (14, 1)] true [];
  (*1681 HCN + O <=> CN + OH*)
  mkRx Elementary [(40, 1); (2, 1)] [(39, 1); (4, 1)] true [];
  (*1684 HCN + OH <=> HOCN + H*)
  mkRx Elementary [(40, 1); (4, 1)] [(44, 1); (1, 1)] true [];
  (*1687 HCN + OH <=> HNCO + H*)
  mkRx Elementary [(40, 1); (4, 1)] [(45, 1); (1, 1)] true [];
  (*1690 HCN + OH <=> NH2 + CO*)
  mkRx Elementary [(40, 1); (4, 1)] [(32, 1); (14, 1)] true [];
  (*1693 H + HCN (+ M) <=> H2CN (+ M)*)
  mkRx Falloff [(1, 1); (40, 1)] [(41, 1)] true [(47, 0.7%Q); (26, 3.0%Q); (13, 2.0%Q); (14, 1.5%Q); (15, 2.0%Q); (0, 2.0%Q); (5, 6.0%Q)];
  (*1699 H2CN + N <=> N2 + CH2*)
  mkRx Elementary [(41, 1); (30, 1)] [(52, 1); (10, 1)] true [];
  (*1702 C + N2 <=> CN + N*)
  mkRx Elementary [(8, 1); (52, 1)] [(39, 1); (30, 1)] true [];
  (*1705 CH + N2 <=> HCN + N*)
  mkRx Elementary [(9, 1); (52, 1)] [(40, 1); (30, 1)] true [];
  (*1708 CH + N2 (+ M) <=> HCNN (+ M)*)
  mkRx Falloff [(9, 1); (52, 1)] [(42, 1)] true [(47, 1.0%Q); (26, 3.0%Q); (13, 2.0%Q); (14, 1.5%Q); (15, 2.0%Q); (0, 2.0%Q); (5, 6.0%Q)];
  (*1715 CH2 + N2 <=> HCN + NH*)
  mkRx Elementary [(10, 1); (52, 1)] [(40, 1); (31, 1)] true [];
  (*1718 CH2(S) + N2 <=> NH + HCN*)
  mkRx Elementary [(11, 1); (52, 1)] [(31, 1); (40, 1)] true [];
  (*1721 C + NO <=> CN + O*)
  mkRx Elementary [(8, 1); (35, 1)] [(39, 1); (2, 1)] true [];
  (*1724 C + NO <=> CO + N*)
  mkRx Elementary [(8, 1); (35, 1)] [(14, 1); (30, 1)] true [];
  (*1727 CH + NO <=> HCN + O*)
  mkRx Elementary [(9, 1); (35, 1)] [(40, 1); (2, 1)] true [];
  (*1730 CH + NO <=> H + NCO*)
  mkRx Elementary [(9, 1); (35, 1)] [(1, 1); (46, 1)] true [];
  (*1733 CH + NO <=> N + HCO*)
  mkRx Elementary [(9, 1); (35, 1)] [(30, 1); (16, 1)] true [];
  (*1736 CH2 + NO <=> H + HNCO*)
  mkRx Elementary [(10, 1); (35, 1)] [(1, 1); (45, 1)] true [];
  (*1739 CH2 + NO <=> OH + HCN*)
  mkRx Elementary [(10, 1); (35, 1)] [(4, 1); (40, 1)] true [];
  (*1742 CH2 + NO <=> H + HCNO*)
  mkRx Elementary [(10, 1); (35, 1)] [(1, 1); (43, 1)] true [];
  (*1745 CH2(S) + NO <=> H + HNCO*)
  mkRx Elementary [(11, 1); (35, 1)] [(1, 1); (45, 1)] true [];
  (*1748 CH2(S) + NO <=> OH + HCN*)
  mkRx Elementary [(11, 1); (35, 1)] [(4, 1); (40, 1)] true [];
  (*1751 CH2(S) + NO <=> H + HCNO*)
  mkRx Elementary [(11, 1); (35, 1)] [(1, 1); (43, 1)] true [];
  (*1754 CH3 + NO <=> HCN + H2O*)
  mkRx Elementary [(12, 1); (35, 1)] [(40, 1); (5, 1)] true [];
  (*1757 CH3 + NO <=> H2CN + OH*)
  mkRx Elementary [(12, 1); (35, 1)] [(41, 1); (4, 1)] true [];
  (*1760 HCNN + O <=> CO + H + N2*)
  mkRx Elementary [(42, 1); (2, 1)] [(14, 1); (1, 1); (52, 1)] true [];
  (*1763 HCNN + O <=> HCN + NO*)
  mkRx Elementary [(42, 1); (2, 1)] [(40, 1); (35, 1)] true [];
  (*1766 HCNN + O2 <=> O + HCO + N2*)
  mkRx Elementary [(42, 1); (3, 1)] [(2, 1); (16, 1); (52, 1)] true [];
  (*1769 HCNN + OH <=> H + HCO + N2*)
  mkRx Elementary [(42, 1); (4, 1)] [(1, 1); (16, 1); (52, 1)] true [];
  (*1772 HCNN + H <=> CH2 + N2*)
  mkRx Elementary [(42, 1); (1, 1)] [(10, 1); (52, 1)] true [];
  (*1775 HNCO + O <=> NH + CO2*)
  mkRx Elementary [(45, 1); (2, 1)] [(31, 1); (15, 1)] true [];
  (*1778 HNCO + O <=> HNO + CO*)
  mkRx Elementary [(45, 1); (2, 1)] [(38, 1); (14, 1)] true [];
  (*1781 HNCO + O <=> NCO + OH*)
  mkRx Elementary [(45, 1); (2, 1)] [(46, 1); (4, 1)] true [];
  (*1784 HNCO + H <=> NH2 + CO*)
  mkRx Elementary [(45, 1); (1, 1)] [(32, 1); (14, 1)] true [];
  (*1787 HNCO + H <=> H2 + NCO*)
  mkRx Elementary [(45, 1); (1, 1)] [(0, 1); (46, 1)] true [];
  (*1790 HNCO + OH <=> NCO + H2O*)
  mkRx Elementary [(45, 1); (4, 1)] [(46, 1); (5, 1)] true [];
  (*1793 HNCO + OH <=> NH2 + CO2*)
  mkRx Elementary [(45, 1); (4, 1)] [(32, 1); (15, 1)] true [];
  (*1796 HNCO + M <=> NH + CO + M*)
  mkRx ThreeBody [(45, 1)] [(31, 1); (14, 1)] true [(47, 0.7%Q); (26, 3.0%Q); (13, 2.0%Q); (14, 1.5%Q); (15, 2.0%Q); (0, 2.0%Q); (5, 6.0%Q)];
  (*1800 HCNO + H <=> H + HNCO*)
  mkRx Elementary [(43, 1); (1, 1)] [(1, 1); (45, 1)] true [];
  (*1803 HCNO + H <=> OH + HCN*)
  mkRx Elementary [(43, 1); (1, 1)] [(4, 1); (40, 1)] true [];
  (*1806 HCNO + H <=> NH2 + CO*)
  mkRx Elementary [(43, 1); (1, 1)] [(32, 1); (14, 1)] true [];
  (*1809 HOCN + H <=> H + HNCO*)
  mkRx Elementary [(44, 1); (1, 1)] [(1, 1); (45, 1)] true [];
  (*1812 HCCO + NO <=> HCNO + CO*)
  mkRx Elementary [(27, 1); (35, 1)] [(43, 1); (14, 1)] true [];
  (*1815 CH3 + N <=> H2CN + H*)
  mkRx Elementary [(12, 1); (30, 1)] [(41, 1); (1, 1)] true [];
  (*1818 CH3 + N <=> HCN + H2*)
  mkRx Elementary [(12, 1); (30, 1)] [(40, 1); (0, 1)] true [];
  (*1821 NH3 + H <=> NH2 + H2*)
  mkRx Elementary [(33, 1); (1, 1)] [(32, 1); (0, 1)] true [];
  (*1824 NH3 + OH <=> NH2 + H2O*)
  mkRx Elementary [(33, 1); (4, 1)] [(32, 1); (5, 1)] true [];
  (*1827 NH3 + O <=> NH2 + OH*)
  mkRx Elementary [(33, 1); (2, 1)] [(32, 1); (4, 1)] true [];
  (*1830 NH + CO2 <=> HNO + CO*)
  mkRx Elementary [(31, 1); (15, 1)] [(38, 1); (14, 1)] true [];
  (*1833 CN + NO2 <=> NCO + NO*)
  mkRx Elementary [(39, 1); (36, 1)] [(46, 1); (35, 1)] true [];
  (*1836 NCO + NO2 <=> N2O + CO2*)
  mkRx Elementary [(46, 1); (36, 1)] [(37, 1); (15, 1)] true [];
  (*1839 N + CO2 <=> NO + CO*)
  mkRx Elementary [(30, 1); (15, 1)] [(35, 1); (14, 1)] true [];
  (*1842 O + CH3 => H + H2 + CO*)
  mkRx Elementary [(2, 1); (12, 1)] [(1, 1); (0, 1); (14, 1)] false [];
  (*1845 O + C2H4 <=> H + CH2CHO*)
  mkRx Elementary [(2, 1); (24, 1)] [(1, 1); (50, 1)] true [];
  (*1848 O + C2H5 <=> H + CH3CHO*)
  mkRx Elementary [(2, 1); (25, 1)] [(1, 1); (51, 1)] true [];
  (*1851 OH + HO2 <=> O2 + H2O*)
  mkRx Elementary [(4, 1); (6, 1)] [(3, 1); (5, 1)] true [];
  (*1855 OH + CH3 => H2 + CH2O*)
  mkRx Elementary [(4, 1); (12, 1)] [(0, 1); (17, 1)] false [];
  (*1858 CH + H2 (+ M) <=> CH3 (+ M)*)
  mkRx Falloff [(9, 1); (0, 1)] [(12, 1)] true [(47, 0.7%Q); (26, 3.0%Q); (13, 2.0%Q); (14, 1.5%Q); (15, 2.0%Q); (0, 2.0%Q); (5, 6.0%Q)];
  (*1865 CH2 + O2 => 2 H + CO2*)
  mkRx Elementary [(10, 1); (3, 1)] [(1, 2); (15, 1)] false [];
  (*1868 CH2 + O2 <=> O + CH2O*)
  mkRx Elementary [(10, 1); (3, 1)] [(2, 1); (17, 1)] true [];
  (*1871 CH2 + CH2 => 2 H + C2H2*)
  mkRx Elementary [(10, 1); (10, 1)] [(1, 2); (22, 1)] false [];
  (*1874 CH2(S) + H2O => H2 + CH2O*)
  mkRx Elementary [(11, 1); (5, 1)] [(0, 1); (17, 1)] false [];
  (*1877 C2H3 + O2 <=> O + CH2CHO*)
  mkRx Elementary [(23, 1); (3, 1)] [(2, 1); (50, 1)] true [];
  (*1880 C2H3 + O2 <=> HO2 + C2H2*)
  mkRx Elementary [(23, 1); (3, 1)] [(6, 1); (22, 1)] true [];
  (*1883 O + CH3CHO <=> OH + CH2CHO*)
  mkRx Elementary [(2, 1); (51, 1)] [(4, 1); (50, 1)] true [];
  (*1886 O + CH3CHO => OH + CH3 + CO*)
  mkRx Elementary [(2, 1); (51, 1)] [(4, 1); (12, 1); (14, 1)] false [];
  (*1889 O2 + CH3CHO => HO2 + CH3 + CO*)
  mkRx Elementary [(3, 1); (51, 1)] [(6, 1); (12, 1); (14, 1)] false [];
  (*1892 H + CH3CHO <=> CH2CHO + H2*)
  mkRx Elementary [(1, 1); (51, 1)] [(50, 1); (0, 1)] true [];
  (*1895 H + CH3CHO => CH3 + H2 + CO*)
  mkRx Elementary [(1, 1); (51, 1)] [(12, 1); (0, 1); (14, 1)] false [];
  (*1898 OH + CH3CHO => CH3 + H2O + CO*)
  mkRx Elementary [(4, 1); (51, 1)] [(12, 1); (5, 1); (14, 1)] false [];
  (*1901 HO2 + CH3CHO => CH3 + H2O2 + CO*)
  mkRx Elementary [(6, 1); (51, 1)] [(12, 1); (7, 1); (14, 1)] false [];
  (*1904 CH3 + CH3CHO => CH3 + CH4 + CO*)
  mkRx Elementary [(12, 1); (51, 1)] [(12, 1); (13, 1); (14, 1)] false [];
  (*1907 H + CH2CO (+ M) <=> CH2CHO (+ M)*)
  mkRx Falloff [(1, 1); (28, 1)] [(50, 1)] true [(47, 0.7%Q); (26, 3.0%Q); (13, 2.0%Q); (14, 1.5%Q); (15, 2.0%Q); (0, 2.0%Q); (5, 6.0%Q)];
  (*1914 O + CH2CHO => H + CH2 + CO2*)
  mkRx Elementary [(2, 1); (50, 1)] [(1, 1); (10, 1); (15, 1)] false [];
  (*1917 O2 + CH2CHO => OH + CO + CH2O*)
  mkRx Elementary [(3, 1); (50, 1)] [(4, 1); (14, 1); (17, 1)] false [];
  (*1920 O2 + CH2CHO => OH + 2 HCO*)
  mkRx Elementary [(3, 1); (50, 1)] [(4, 1); (16, 2)] false [];
  (*1923 H + CH2CHO <=> CH3 + HCO*)
  mkRx Elementary [(1, 1); (50, 1)] [(12, 1); (16, 1)] true [];
  (*1926 H + CH2CHO <=> CH2CO + H2*)
  mkRx Elementary [(1, 1); (50, 1)] [(28, 1); (0, 1)] true [];
  (*1929 OH + CH2CHO <=> H2O + CH2CO*)
  mkRx Elementary [(4, 1); (50, 1)] [(5, 1); (28, 1)] true [];
  (*1932 OH + CH2CHO <=> HCO + CH2OH*)
  mkRx Elementary [(4, 1); (50, 1)] [(16, 1); (18, 1)] true [];
  (*1935 CH3 + C2H5 (+ M) <=> C3H8 (+ M)*)
  mkRx Falloff [(12, 1); (25, 1)] [(49, 1)] true [(47, 0.7%Q); (26, 3.0%Q); (13, 2.0%Q); (14, 1.5%Q); (15, 2.0%Q); (0, 2.0%Q); (5, 6.0%Q)];
  (*1942 O + C3H8 <=> OH + C3H7*)
  mkRx Elementary [(2, 1); (49, 1)] [(4, 1); (48, 1)] true [];
  (*1945 H + C3H8 <=> C3H7 + H2*)
  mkRx Elementary [(1, 1); (49, 1)] [(48, 1); (0, 1)] true [];
  (*1948 OH + C3H8 <=> C3H7 + H2O*)
  mkRx Elementary [(4, 1); (49, 1)] [(48, 1); (5, 1)] true [];
  (*1951 C3H7 + H2O2 <=> HO2 + C3H8*)
  mkRx Elementary [(48, 1); (7, 1)] [(6, 1); (49, 1)] true [];
  (*1954 CH3 + C3H8 <=> C3H7 + CH4*)
  mkRx Elementary [(12, 1); (49, 1)] [(48, 1); (13, 1)] true [];
  (*1957 CH3 + C2H4 (+ M) <=> C3H7 (+ M)*)
  mkRx Falloff [(12, 1); (24, 1)] [(48, 1)] true [(47, 0.7%Q); (26, 3.0%Q); (13, 2.0%Q); (14, 1.5%Q); (15, 2.0%Q); (0, 2.0%Q); (5, 6.0%Q)];
  (*1964 O + C3H7 <=> C2H5 + CH2O*)
  mkRx Elementary [(2, 1); (48, 1)] [(25, 1); (17, 1)] true [];
  (*1967 H + C3H7 (+ M) <=> C3H8 (+ M)*)
  mkRx Falloff [(1, 1); (48, 1)] [(49, 1)] true [(47, 0.7%Q); (26, 3.0%Q); (13, 2.0%Q); (14, 1.5%Q); (15, 2.0%Q); (0, 2.0%Q); (5, 6.0%Q)];
  (*1974 H + C3H7 <=> CH3 + C2H5*)
  mkRx Elementary [(1, 1); (48, 1)] [(12, 1); (25, 1)] true [];
  (*1977 OH + C3H7 <=> C2H5 + CH2OH*)
  mkRx Elementary [(4, 1); (48, 1)] [(25, 1); (18, 1)] true [];
  (*1980 HO2 + C3H7 <=> O2 + C3H8*)
  mkRx Elementary [(6, 1); (48, 1)] [(3, 1); (49, 1)] true [];
  (*1983 HO2 + C3H7 => OH + C2H5 + CH2O*)
  mkRx Elementary [(6, 1); (48, 1)] [(4, 1); (25, 1); (17, 1)] false [];
  (*1986 CH3 + C3H7 <=> 2 C2H5*)
  mkRx Elementary [(12, 1); (48, 1)] [(25, 2)] true []
].

(** The mechanism gri30. *)
Definition gri30_chemistry : chemistry := mkChem 53 5 gri30_atoms gri30_reactions.

(** Atoms of each species, in the order of yao/foam/species.foam; elements in the order O H C N Ar of
    yao/chem.cti:4.  The number before a species is its line in yao/chem.cti. *)
Definition yao_atoms : list (list nat) := [
  (*44 AR*) [0; 0; 0; 0; 1];
  (*59 H*) [0; 1; 0; 0; 0];
  (*74 O*) [1; 0; 0; 0; 0];
  (*89 OH*) [1; 1; 0; 0; 0];
  (*104 HO2*) [2; 1; 0; 0; 0];
  (*120 H2*) [0; 2; 0; 0; 0];
  (*137 H2O*) [1; 2; 0; 0; 0];
  (*154 H2O2*) [2; 2; 0; 0; 0];
  (*170 O2*) [2; 0; 0; 0; 0];
  (*187 CH2*) [0; 2; 1; 0; 0];
  (*202 CH2**) [0; 2; 1; 0; 0];
  (*217 CH3*) [0; 3; 1; 0; 0];
  (*232 CH4*) [0; 4; 1; 0; 0];
  (*249 HCO*) [1; 1; 1; 0; 0];
  (*264 CH2O*) [1; 2; 1; 0; 0];
  (*280 CH3O*) [1; 3; 1; 0; 0];
  (*297 CO*) [1; 0; 1; 0; 0];
  (*314 CO2*) [2; 0; 1; 0; 0];
  (*331 C2H2*) [0; 2; 2; 0; 0];
  (*347 C2H3*) [0; 3; 2; 0; 0];
  (*363 C2H4*) [0; 4; 2; 0; 0];
  (*379 C2H5*) [0; 5; 2; 0; 0];
  (*395 C2H6*) [0; 6; 2; 0; 0];
  (*411 CH2CHO*) [1; 3; 2; 0; 0];
  (*427 aC3H5*) [0; 5; 3; 0; 0];
  (*443 C3H6*) [0; 6; 3; 0; 0];
  (*459 nC3H7*) [0; 7; 3; 0; 0];
  (*475 C2H3CHO*) [1; 4; 3; 0; 0];
  (*491 C4H7*) [0; 7; 4; 0; 0];
  (*507 C4H81*) [0; 8; 4; 0; 0];
  (*523 pC4H9*) [0; 9; 4; 0; 0];
  (*539 C5H9*) [0; 9; 5; 0; 0];
  (*555 C5H10*) [0; 10; 5; 0; 0];
  (*571 PXC5H11*) [0; 11; 5; 0; 0];
  (*587 C6H12*) [0; 12; 6; 0; 0];
  (*603 PXC6H13*) [0; 13; 6; 0; 0];
  (*619 C7H14*) [0; 14; 7; 0; 0];
  (*635 PXC7H15*) [0; 15; 7; 0; 0];
  (*651 C8H16*) [0; 16; 8; 0; 0];
  (*667 PXC8H17*) [0; 17; 8; 0; 0];
  (*683 C9H18*) [0; 18; 9; 0; 0];
  (*699 PXC9H19*) [0; 19; 9; 0; 0];
  (*715 C10H20*) [0; 20; 10; 0; 0];
  (*731 PXC10H21*) [0; 21; 10; 0; 0];
  (*747 NC12H26*) [0; 26; 12; 0; 0];
  (*763 PXC12H25*) [0; 25; 12; 0; 0];
  (*779 SXC12H25*) [0; 25; 12; 0; 0];
  (*795 S3XC12H25*) [0; 25; 12; 0; 0];
  (*811 C12H24*) [0; 24; 12; 0; 0];
  (*827 C12H25O2*) [2; 25; 12; 0; 0];
  (*843 C12OOH*) [2; 25; 12; 0; 0];
  (*859 O2C12H24OOH*) [4; 25; 12; 0; 0];
  (*875 OC12H23OOH*) [3; 24; 12; 0; 0];
  (*27 N2*) [0; 0; 0; 2; 0]
].

(** The reactions of yao/chem.cti; the number before a reaction is its line. *)
Definition yao_reactions : list reaction := [
  (*896 H + O2 <=> OH + O*)
  mkRx Elementary [(1, 1); (8, 1)] [(3, 1); (2, 1)] true [];
  (*899 O + H2 <=> H + OH*)
  mkRx Elementary [(2, 1); (5, 1)] [(1, 1); (3, 1)] true [];
  (*902 OH + H2 <=> H2O + H*)
  mkRx Elementary [(3, 1); (5, 1)] [(6, 1); (1, 1)] true [];
  (*905 OH + OH <=> O + H2O*)
  mkRx Elementary [(3, 1); (3, 1)] [(2, 1); (6, 1)] true [];
  (*908 H + O2 (+ M) <=> HO2 (+ M)*)
  mkRx Falloff [(1, 1); (8, 1)] [(4, 1)] true [(6, 11.89%Q); (17, 2.18%Q); (16, 1.09%Q); (8, 0.85%Q); (0, 0.4%Q)];
  (*915 HO2 + H <=> OH + OH*)
  mkRx Elementary [(4, 1); (1, 1)] [(3, 1); (3, 1)] true [];
  (*918 H2 + O2 <=> HO2 + H*)
  mkRx Elementary [(5, 1); (8, 1)] [(4, 1); (1, 1)] true [];
  (*921 HO2 + OH <=> H2O + O2*)
  mkRx Elementary [(4, 1); (3, 1)] [(6, 1); (8, 1)] true [];
  (*924 HO2 + H <=> O + H2O*)
  mkRx Elementary [(4, 1); (1, 1)] [(2, 1); (6, 1)] true [];
  (*927 HO2 + O <=> OH + O2*)
  mkRx Elementary [(4, 1); (2, 1)] [(3, 1); (8, 1)] true [];
  (*930 HO2 + HO2 <=> O2 + H2O2*)
  mkRx Elementary [(4, 1); (4, 1)] [(8, 1); (7, 1)] true [];
  (*934 HO2 + HO2 <=> O2 + H2O2*)
  mkRx Elementary [(4, 1); (4, 1)] [(8, 1); (7, 1)] true [];
  (*938 H2O2 + H <=> OH + H2O*)
  mkRx Elementary [(7, 1); (1, 1)] [(3, 1); (6, 1)] true [];
  (*941 H2O2 + H <=> HO2 + H2*)
  mkRx Elementary [(7, 1); (1, 1)] [(4, 1); (5, 1)] true [];
  (*944 H2O2 + O <=> OH + HO2*)
  mkRx Elementary [(7, 1); (2, 1)] [(3, 1); (4, 1)] true [];
  (*947 H2O2 + OH <=> HO2 + H2O*)
  mkRx Elementary [(7, 1); (3, 1)] [(4, 1); (6, 1)] true [];
  (*951 H2O2 + OH <=> HO2 + H2O*)
  mkRx Elementary [(7, 1); (3, 1)] [(4, 1); (6, 1)] true [];
  (*955 OH + OH (+ M) <=> H2O2 (+ M)*)
  mkRx Falloff [(3, 1); (3, 1)] [(7, 1)] true [(5, 2.0%Q); (6, 6.0%Q); (17, 3.6%Q); (16, 1.75%Q); (0, 0.7%Q)];
  (*962 H + H + M <=> H2 + M*)
  mkRx ThreeBody [(1, 1); (1, 1)] [(5, 1)] true [(5, 0.0%Q); (6, 0.0%Q); (17, 0.0%Q); (0, 0.63%Q)];
  (*966 H + OH + M <=> H2O + M*)
  mkRx ThreeBody [(1, 1); (3, 1)] [(6, 1)] true [(5, 2.0%Q); (6, 6.3%Q); (17, 3.6%Q); (16, 1.75%Q); (0, 0.38%Q)];
  (*970 O + O + M <=> O2 + M*)
  mkRx ThreeBody [(2, 1); (2, 1)] [(8, 1)] true [(5, 2.4%Q); (6, 15.4%Q); (17, 3.6%Q); (16, 1.75%Q); (0, 0.83%Q)];
  (*974 H + H + H2 <=> H2 + H2*)
  mkRx Elementary [(1, 1); (1, 1); (5, 1)] [(5, 1); (5, 1)] true [];
  (*977 H + H + H2O <=> H2 + H2O*)
  mkRx Elementary [(1, 1); (1, 1); (6, 1)] [(5, 1); (6, 1)] true [];
  (*980 H + H + CO2 <=> H2 + CO2*)
  mkRx Elementary [(1, 1); (1, 1); (17, 1)] [(5, 1); (17, 1)] true [];
  (*983 O + H + M <=> OH + M*)
  mkRx ThreeBody [(2, 1); (1, 1)] [(3, 1)] true [(5, 2.0%Q); (6, 12.0%Q); (17, 3.6%Q); (16, 1.75%Q); (0, 0.7%Q)];
  (*987 CO + OH <=> CO2 + H*)
  mkRx Elementary [(16, 1); (3, 1)] [(17, 1); (1, 1)] true [];
  (*991 CO + OH <=> CO2 + H*)
  mkRx Elementary [(16, 1); (3, 1)] [(17, 1); (1, 1)] true [];
  (*995 CO + HO2 <=> CO2 + OH*)
  mkRx Elementary [(16, 1); (4, 1)] [(17, 1); (3, 1)] true [];
  (*998 CO + O (+ M) <=> CO2 (+ M)*)
  mkRx Falloff [(16, 1); (2, 1)] [(17, 1)] true [(5, 2.0%Q); (6, 12.0%Q); (17, 3.6%Q); (16, 1.75%Q); (0, 0.7%Q)];
  (*1004 CO + O2 <=> CO2 + O*)
  mkRx Elementary [(16, 1); (8, 1)] [(17, 1); (2, 1)] true [];
  (*1007 HCO + M <=> CO + H + M*)
  mkRx ThreeBody [(13, 1)] [(16, 1); (1, 1)] true [(5, 2.0%Q); (6, 0.0%Q); (17, 3.6%Q); (16, 1.75%Q)];
  (*1011 HCO + H <=> CO + H2*)
  mkRx Elementary [(13, 1); (1, 1)] [(16, 1); (5, 1)] true [];
  (*1014 HCO + O <=> CO + OH*)
  mkRx Elementary [(13, 1); (2, 1)] [(16, 1); (3, 1)] true [];
  (*1017 HCO + O <=> CO2 + H*)
  mkRx Elementary [(13, 1); (2, 1)] [(17, 1); (1, 1)] true [];
  (*1020 HCO + OH <=> CO + H2O*)
  mkRx Elementary [(13, 1); (3, 1)] [(16, 1); (6, 1)] true [];
  (*1023 HCO + O2 <=> CO + HO2*)
  mkRx Elementary [(13, 1); (8, 1)] [(16, 1); (4, 1)] true [];
  (*1026 HCO + H2O <=> CO + H + H2O*)
  mkRx Elementary [(13, 1); (6, 1)] [(16, 1); (1, 1); (6, 1)] true [];
  (*1029 CO + H2 (+ M) <=> CH2O (+ M)*)
  mkRx Falloff [(16, 1); (5, 1)] [(14, 1)] true [(17, 2.0%Q); (16, 1.5%Q); (5, 2.0%Q); (6, 6.0%Q); (0, 0.7%Q); (12, 2.0%Q); (22, 3.0%Q)];
  (*1036 HCO + H (+ M) <=> CH2O (+ M)*)
  mkRx Falloff [(13, 1); (1, 1)] [(14, 1)] true [(17, 2.0%Q); (16, 1.5%Q); (5, 2.0%Q); (6, 6.0%Q); (0, 0.7%Q); (12, 2.0%Q); (22, 3.0%Q)];
  (*1043 CH2 + H (+ M) <=> CH3 (+ M)*)
  mkRx Falloff [(9, 1); (1, 1)] [(11, 1)] true [(17, 2.0%Q); (16, 1.5%Q); (5, 2.0%Q); (6, 6.0%Q); (0, 0.7%Q); (12, 2.0%Q); (22, 3.0%Q)];
  (*1050 CH2 + O <=> HCO + H*)
  mkRx Elementary [(9, 1); (2, 1)] [(13, 1); (1, 1)] true [];
  (*1053 CH2 + OH <=> CH2O + H*)
  mkRx Elementary [(9, 1); (3, 1)] [(14, 1); (1, 1)] true [];
  (*1056 CH2 + H2 <=> H + CH3*)
  mkRx Elementary [(9, 1); (5, 1)] [(1, 1); (11, 1)] true [];
  (*1059 CH2 + O2 <=> HCO + OH*)
  mkRx Elementary [(9, 1); (8, 1)] [(13, 1); (3, 1)] true [];
  (*1062 CH2 + O2 <=> CO2 + H + H*)
  mkRx Elementary [(9, 1); (8, 1)] [(17, 1); (1, 1); (1, 1)] true [];
  (*1065 CH2 + HO2 <=> CH2O + OH*)
  mkRx Elementary [(9, 1); (4, 1)] [(14, 1); (3, 1)] true [];
  (*1068 CH2 + CH2 <=> C2H2 + H2*)
  mkRx Elementary [(9, 1); (9, 1)] [(18, 1); (5, 1)] true [];
  (*1071 CH2* + N2 <=> CH2 + N2*)
  mkRx Elementary [(10, 1); (53, 1)] [(9, 1); (53, 1)] true [];
  (*1074 CH2* + AR <=> CH2 + AR*)
  mkRx Elementary [(10, 1); (0, 1)] [(9, 1); (0, 1)] true [];
  (*1077 CH2* + O <=> CO + H2*)
  mkRx Elementary [(10, 1); (2, 1)] [(16, 1); (5, 1)] true [];
  (*1080 CH2* + O <=> HCO + H*)
  mkRx Elementary [(10, 1); (2, 1)] [(13, 1); (1, 1)] true [];
  (*1083 CH2* + OH <=> CH2O + H*)
  mkRx Elementary [(10, 1); (3, 1)] [(14, 1); (1, 1)] true [];
  (*1086 CH2* + H2 <=> CH3 + H*)
  mkRx Elementary [(10, 1); (5, 1)] [(11, 1); (1, 1)] true [];
  (*1089 CH2* + O2 <=> H + OH + CO*)
  mkRx Elementary [(10, 1); (8, 1)] [(1, 1); (3, 1); (16, 1)] true [];
  (*1092 CH2* + O2 <=> CO + H2O*)
  mkRx Elementary [(10, 1); (8, 1)] [(16, 1); (6, 1)] true [];
  (*1095 CH2* + H2O <=> CH2 + H2O*)
  mkRx Elementary [(10, 1); (6, 1)] [(9, 1); (6, 1)] true [];
  (*1098 CH2* + CO <=> CH2 + CO*)
  mkRx Elementary [(10, 1); (16, 1)] [(9, 1); (16, 1)] true [];
  (*1101 CH2* + CO2 <=> CH2 + CO2*)
  mkRx Elementary [(10, 1); (17, 1)] [(9, 1); (17, 1)] true [];
  (*1104 CH2* + CO2 <=> CH2O + CO*)
  mkRx Elementary [(10, 1); (17, 1)] [(14, 1); (16, 1)] true [];
  (*1107 CH2O + H (+ M) <=> CH3O (+ M)*)
  mkRx Falloff [(14, 1); (1, 1)] [(15, 1)] true [(17, 2.0%Q); (16, 1.5%Q); (5, 2.0%Q); (6, 6.0%Q); (12, 2.0%Q); (22, 3.0%Q)];
  (*1114 CH2O + H <=> HCO + H2*)
  mkRx Elementary [(14, 1); (1, 1)] [(13, 1); (5, 1)] true [];
  (*1117 CH2O + O <=> HCO + OH*)
  mkRx Elementary [(14, 1); (2, 1)] [(13, 1); (3, 1)] true [];
  (*1120 CH2O + OH <=> HCO + H2O*)
  mkRx Elementary [(14, 1); (3, 1)] [(13, 1); (6, 1)] true [];
  (*1123 CH2O + O2 <=> HCO + HO2*)
  mkRx Elementary [(14, 1); (8, 1)] [(13, 1); (4, 1)] true [];
  (*1126 CH2O + HO2 <=> HCO + H2O2*)
  mkRx Elementary [(14, 1); (4, 1)] [(13, 1); (7, 1)] true [];
  (*1129 CH3 + H (+ M) <=> CH4 (+ M)*)
  mkRx Falloff [(11, 1); (1, 1)] [(12, 1)] true [(17, 2.0%Q); (16, 1.5%Q); (5, 2.0%Q); (6, 6.0%Q); (0, 0.7%Q); (12, 2.0%Q); (22, 3.0%Q)];
  (*1136 CH3 + O <=> CH2O + H*)
  mkRx Elementary [(11, 1); (2, 1)] [(14, 1); (1, 1)] true [];
  (*1139 CH3 + OH <=> CH2 + H2O*)
  mkRx Elementary [(11, 1); (3, 1)] [(9, 1); (6, 1)] true [];
  (*1142 CH3 + OH <=> CH2* + H2O*)
  mkRx Elementary [(11, 1); (3, 1)] [(10, 1); (6, 1)] true [];
  (*1145 CH3 + O2 <=> O + CH3O*)
  mkRx Elementary [(11, 1); (8, 1)] [(2, 1); (15, 1)] true [];
  (*1148 CH3 + O2 <=> OH + CH2O*)
  mkRx Elementary [(11, 1); (8, 1)] [(3, 1); (14, 1)] true [];
  (*1151 CH3 + HO2 <=> CH4 + O2*)
  mkRx Elementary [(11, 1); (4, 1)] [(12, 1); (8, 1)] true [];
  (*1154 CH3 + HO2 <=> CH3O + OH*)
  mkRx Elementary [(11, 1); (4, 1)] [(15, 1); (3, 1)] true [];
  (*1157 CH3 + H2O2 <=> CH4 + HO2*)
  mkRx Elementary [(11, 1); (7, 1)] [(12, 1); (4, 1)] true [];
  (*1160 CH3 + HCO <=> CH4 + CO*)
  mkRx Elementary [(11, 1); (13, 1)] [(12, 1); (16, 1)] true [];
  (*1163 CH3 + CH2O <=> CH4 + HCO*)
  mkRx Elementary [(11, 1); (14, 1)] [(12, 1); (13, 1)] true [];
  (*1166 CH3 + CH2 <=> C2H4 + H*)
  mkRx Elementary [(11, 1); (9, 1)] [(20, 1); (1, 1)] true [];
  (*1169 CH3 + CH2* <=> C2H4 + H*)
  mkRx Elementary [(11, 1); (10, 1)] [(20, 1); (1, 1)] true [];
  (*1172 CH3 + CH3 (+ M) <=> C2H6 (+ M)*)
  mkRx Falloff [(11, 1); (11, 1)] [(22, 1)] true [(17, 2.0%Q); (16, 1.5%Q); (5, 2.0%Q); (6, 6.0%Q); (0, 0.7%Q); (12, 2.0%Q); (22, 3.0%Q)];
  (*1179 CH3 + CH3 <=> H + C2H5*)
  mkRx Elementary [(11, 1); (11, 1)] [(1, 1); (21, 1)] true [];
  (*1182 CH3O + H <=> CH2O + H2*)
  mkRx Elementary [(15, 1); (1, 1)] [(14, 1); (5, 1)] true [];
  (*1185 CH3O + H <=> CH3 + OH*)
  mkRx Elementary [(15, 1); (1, 1)] [(11, 1); (3, 1)] true [];
  (*1188 CH3O + H <=> CH2* + H2O*)
  mkRx Elementary [(15, 1); (1, 1)] [(10, 1); (6, 1)] true [];
  (*1191 CH3O + O <=> CH2O + OH*)
  mkRx Elementary [(15, 1); (2, 1)] [(14, 1); (3, 1)] true [];
  (*1194 CH3O + OH <=> CH2O + H2O*)
  mkRx Elementary [(15, 1); (3, 1)] [(14, 1); (6, 1)] true [];
  (*1197 CH3O + O2 <=> CH2O + HO2*)
  mkRx Elementary [(15, 1); (8, 1)] [(14, 1); (4, 1)] true [];
  (*1200 CH4 + H <=> CH3 + H2*)
  mkRx Elementary [(12, 1); (1, 1)] [(11, 1); (5, 1)] true [];
  (*1203 CH4 + O <=> CH3 + OH*)
  mkRx Elementary [(12, 1); (2, 1)] [(11, 1); (3, 1)] true [];
  (*1206 CH4 + OH <=> CH3 + H2O*)
  mkRx Elementary [(12, 1); (3, 1)] [(11, 1); (6, 1)] true [];
  (*1209 CH4 + CH2 <=> CH3 + CH3*)
  mkRx Elementary [(12, 1); (9, 1)] [(11, 1); (11, 1)] true [];
  (*1212 CH4 + CH2* <=> CH3 + CH3*)
  mkRx Elementary [(12, 1); (10, 1)] [(11, 1); (11, 1)] true [];
  (*1215 C2H3 (+ M) <=> C2H2 + H (+ M)*)
  mkRx Falloff [(19, 1)] [(18, 1); (1, 1)] true [(17, 2.0%Q); (16, 1.5%Q); (5, 2.0%Q); (6, 6.0%Q); (0, 0.7%Q); (12, 2.0%Q); (22, 3.0%Q); (20, 3.0%Q); (18, 3.0%Q)];
  (*1222 C2H2 + O <=> CH2 + CO*)
  mkRx Elementary [(18, 1); (2, 1)] [(9, 1); (16, 1)] true [];
  (*1225 C2H2 + OH <=> CH3 + CO*)
  mkRx Elementary [(18, 1); (3, 1)] [(11, 1); (16, 1)] true [];
  (*1228 C2H2 + HCO <=> C2H3 + CO*)
  mkRx Elementary [(18, 1); (13, 1)] [(19, 1); (16, 1)] true [];
  (*1231 C2H2 + CH3 <=> aC3H5*)
  mkRx Elementary [(18, 1); (11, 1)] [(24, 1)] true [];
  (*1235 C2H3 + H (+ M) <=> C2H4 (+ M)*)
  mkRx Falloff [(19, 1); (1, 1)] [(20, 1)] true [(17, 2.0%Q); (16, 1.5%Q); (5, 2.0%Q); (6, 6.0%Q); (0, 0.7%Q); (12, 2.0%Q); (22, 3.0%Q); (20, 3.0%Q); (18, 3.0%Q)];
  (*1242 C2H3 + H <=> C2H2 + H2*)
  mkRx Elementary [(19, 1); (1, 1)] [(18, 1); (5, 1)] true [];
  (*1245 C2H3 + O <=> CH3 + CO*)
  mkRx Elementary [(19, 1); (2, 1)] [(11, 1); (16, 1)] true [];
  (*1248 C2H3 + OH <=> C2H2 + H2O*)
  mkRx Elementary [(19, 1); (3, 1)] [(18, 1); (6, 1)] true [];
  (*1251 C2H3 + O2 <=> C2H2 + HO2*)
  mkRx Elementary [(19, 1); (8, 1)] [(18, 1); (4, 1)] true [];
  (*1254 C2H3 + O2 <=> CH2CHO + O*)
  mkRx Elementary [(19, 1); (8, 1)] [(23, 1); (2, 1)] true [];
  (*1257 C2H3 + O2 <=> HCO + CH2O*)
  mkRx Elementary [(19, 1); (8, 1)] [(13, 1); (14, 1)] true [];
  (*1260 C2H3 + HO2 <=> CH2CHO + OH*)
  mkRx Elementary [(19, 1); (4, 1)] [(23, 1); (3, 1)] true [];
  (*1263 C2H3 + H2O2 <=> C2H4 + HO2*)
  mkRx Elementary [(19, 1); (7, 1)] [(20, 1); (4, 1)] true [];
  (*1266 C2H3 + HCO <=> C2H4 + CO*)
  mkRx Elementary [(19, 1); (13, 1)] [(20, 1); (16, 1)] true [];
  (*1269 C2H3 + HCO <=> C2H3CHO*)
  mkRx Elementary [(19, 1); (13, 1)] [(27, 1)] true [];
  (*1272 C2H3 + CH3 <=> C2H2 + CH4*)
  mkRx Elementary [(19, 1); (11, 1)] [(18, 1); (12, 1)] true [];
  (*1275 C2H3 + CH3 (+ M) <=> C3H6 (+ M)*)
  mkRx Falloff [(19, 1); (11, 1)] [(25, 1)] true [(17, 2.0%Q); (16, 1.5%Q); (5, 2.0%Q); (6, 6.0%Q); (0, 0.7%Q); (12, 2.0%Q); (22, 3.0%Q); (20, 3.0%Q); (18, 3.0%Q)];
  (*1282 C2H3 + CH3 <=> aC3H5 + H*)
  mkRx Elementary [(19, 1); (11, 1)] [(24, 1); (1, 1)] true [];
  (*1285 C2H3 + C2H3 <=> C2H2 + C2H4*)
  mkRx Elementary [(19, 1); (19, 1)] [(18, 1); (20, 1)] true [];
  (*1288 CH2CHO <=> CH3 + CO*)
  mkRx Elementary [(23, 1)] [(11, 1); (16, 1)] true [];
  (*1291 CH2CHO + H <=> CH3 + HCO*)
  mkRx Elementary [(23, 1); (1, 1)] [(11, 1); (13, 1)] true [];
  (*1294 CH2CHO + O2 <=> CH2O + CO + OH*)
  mkRx Elementary [(23, 1); (8, 1)] [(14, 1); (16, 1); (3, 1)] true [];
  (*1298 C2H4 + H (+ M) <=> C2H5 (+ M)*)
  mkRx Falloff [(20, 1); (1, 1)] [(21, 1)] true [(17, 2.0%Q); (16, 1.5%Q); (5, 2.0%Q); (6, 6.0%Q); (0, 0.7%Q); (12, 2.0%Q); (22, 3.0%Q)];
  (*1305 C2H4 + H <=> C2H3 + H2*)
  mkRx Elementary [(20, 1); (1, 1)] [(19, 1); (5, 1)] true [];
  (*1308 C2H4 + O <=> C2H3 + OH*)
  mkRx Elementary [(20, 1); (2, 1)] [(19, 1); (3, 1)] true [];
  (*1311 C2H4 + O <=> CH3 + HCO*)
  mkRx Elementary [(20, 1); (2, 1)] [(11, 1); (13, 1)] true [];
  (*1314 C2H4 + O <=> CH2 + CH2O*)
  mkRx Elementary [(20, 1); (2, 1)] [(9, 1); (14, 1)] true [];
  (*1317 C2H4 + OH <=> C2H3 + H2O*)
  mkRx Elementary [(20, 1); (3, 1)] [(19, 1); (6, 1)] true [];
  (*1320 C2H4 + HCO <=> C2H5 + CO*)
  mkRx Elementary [(20, 1); (13, 1)] [(21, 1); (16, 1)] true [];
  (*1323 C2H4 + CH2 <=> aC3H5 + H*)
  mkRx Elementary [(20, 1); (9, 1)] [(24, 1); (1, 1)] true [];
  (*1326 C2H4 + CH2* <=> aC3H5 + H*)
  mkRx Elementary [(20, 1); (10, 1)] [(24, 1); (1, 1)] true [];
  (*1329 C2H4 + CH3 <=> C2H3 + CH4*)
  mkRx Elementary [(20, 1); (11, 1)] [(19, 1); (12, 1)] true [];
  (*1332 nC3H7 <=> CH3 + C2H4*)
  mkRx Elementary [(26, 1)] [(11, 1); (20, 1)] true [];
  (*1335 C2H4 + O2 <=> C2H3 + HO2*)
  mkRx Elementary [(20, 1); (8, 1)] [(19, 1); (4, 1)] true [];
  (*1338 C2H4 + C2H3 <=> C4H7*)
  mkRx Elementary [(20, 1); (19, 1)] [(28, 1)] true [];
  (*1342 C2H5 + H (+ M) <=> C2H6 (+ M)*)
  mkRx Falloff [(21, 1); (1, 1)] [(22, 1)] true [(17, 2.0%Q); (16, 1.5%Q); (5, 2.0%Q); (6, 6.0%Q); (0, 0.7%Q); (12, 2.0%Q); (22, 3.0%Q)];
  (*1349 C2H5 + H <=> C2H4 + H2*)
  mkRx Elementary [(21, 1); (1, 1)] [(20, 1); (5, 1)] true [];
  (*1352 C2H5 + O <=> CH3 + CH2O*)
  mkRx Elementary [(21, 1); (2, 1)] [(11, 1); (14, 1)] true [];
  (*1355 C2H5 + O2 <=> C2H4 + HO2*)
  mkRx Elementary [(21, 1); (8, 1)] [(20, 1); (4, 1)] true [];
  (*1358 C2H5 + HO2 <=> C2H6 + O2*)
  mkRx Elementary [(21, 1); (4, 1)] [(22, 1); (8, 1)] true [];
  (*1361 C2H5 + HO2 <=> C2H4 + H2O2*)
  mkRx Elementary [(21, 1); (4, 1)] [(20, 1); (7, 1)] true [];
  (*1364 C2H5 + HO2 <=> CH3 + CH2O + OH*)
  mkRx Elementary [(21, 1); (4, 1)] [(11, 1); (14, 1); (3, 1)] true [];
  (*1367 C2H5 + H2O2 <=> C2H6 + HO2*)
  mkRx Elementary [(21, 1); (7, 1)] [(22, 1); (4, 1)] true [];
  (*1370 C2H5 + C2H3 (+ M) <=> C4H81 (+ M)*)
  mkRx Falloff [(21, 1); (19, 1)] [(29, 1)] true [(17, 2.0%Q); (16, 1.5%Q); (5, 2.0%Q); (6, 6.0%Q); (0, 0.7%Q); (12, 2.0%Q); (22, 3.0%Q)];
  (*1377 C2H5 + C2H3 <=> aC3H5 + CH3*)
  mkRx Elementary [(21, 1); (19, 1)] [(24, 1); (11, 1)] true [];
  (*1381 C2H6 + H <=> C2H5 + H2*)
  mkRx Elementary [(22, 1); (1, 1)] [(21, 1); (5, 1)] true [];
  (*1384 C2H6 + O <=> C2H5 + OH*)
  mkRx Elementary [(22, 1); (2, 1)] [(21, 1); (3, 1)] true [];
  (*1387 C2H6 + OH <=> C2H5 + H2O*)
  mkRx Elementary [(22, 1); (3, 1)] [(21, 1); (6, 1)] true [];
  (*1390 C2H6 + CH2* <=> C2H5 + CH3*)
  mkRx Elementary [(22, 1); (10, 1)] [(21, 1); (11, 1)] true [];
  (*1393 C2H6 + CH3 <=> C2H5 + CH4*)
  mkRx Elementary [(22, 1); (11, 1)] [(21, 1); (12, 1)] true [];
  (*1397 aC3H5 + H (+ M) <=> C3H6 (+ M)*)
  mkRx Falloff [(24, 1); (1, 1)] [(25, 1)] true [(17, 2.0%Q); (16, 1.5%Q); (5, 2.0%Q); (6, 6.0%Q); (0, 0.7%Q); (12, 2.0%Q); (22, 3.0%Q)];
  (*1404 aC3H5 + O <=> C2H3CHO + H*)
  mkRx Elementary [(24, 1); (2, 1)] [(27, 1); (1, 1)] true [];
  (*1407 aC3H5 + OH <=> C2H3CHO + H + H*)
  mkRx Elementary [(24, 1); (3, 1)] [(27, 1); (1, 1); (1, 1)] true [];
  (*1410 aC3H5 + O2 <=> C2H3CHO + OH*)
  mkRx Elementary [(24, 1); (8, 1)] [(27, 1); (3, 1)] true [];
  (*1413 aC3H5 + HO2 <=> C3H6 + O2*)
  mkRx Elementary [(24, 1); (4, 1)] [(25, 1); (8, 1)] true [];
  (*1416 aC3H5 + HO2 <=> OH + C2H3 + CH2O*)
  mkRx Elementary [(24, 1); (4, 1)] [(3, 1); (19, 1); (14, 1)] true [];
  (*1419 aC3H5 + HCO <=> C3H6 + CO*)
  mkRx Elementary [(24, 1); (13, 1)] [(25, 1); (16, 1)] true [];
  (*1422 aC3H5 + CH3 (+ M) <=> C4H81 (+ M)*)
  mkRx Falloff [(24, 1); (11, 1)] [(29, 1)] true [(17, 2.0%Q); (16, 1.5%Q); (5, 2.0%Q); (6, 6.0%Q); (0, 0.7%Q); (12, 2.0%Q); (22, 3.0%Q)];
  (*1430 C3H6 + H (+ M) <=> nC3H7 (+ M)*)
  mkRx Falloff [(25, 1); (1, 1)] [(26, 1)] true [(17, 2.0%Q); (16, 1.5%Q); (5, 2.0%Q); (6, 6.0%Q); (0, 0.7%Q); (12, 2.0%Q); (22, 3.0%Q)];
  (*1437 C3H6 + H <=> C2H4 + CH3*)
  mkRx Elementary [(25, 1); (1, 1)] [(20, 1); (11, 1)] true [];
  (*1440 C3H6 + H <=> aC3H5 + H2*)
  mkRx Elementary [(25, 1); (1, 1)] [(24, 1); (5, 1)] true [];
  (*1443 C3H6 + O <=> C2H3CHO + H + H*)
  mkRx Elementary [(25, 1); (2, 1)] [(27, 1); (1, 1); (1, 1)] true [];
  (*1446 C3H6 + O <=> C2H5 + HCO*)
  mkRx Elementary [(25, 1); (2, 1)] [(21, 1); (13, 1)] true [];
  (*1449 C3H6 + O <=> aC3H5 + OH*)
  mkRx Elementary [(25, 1); (2, 1)] [(24, 1); (3, 1)] true [];
  (*1452 C3H6 + OH <=> aC3H5 + H2O*)
  mkRx Elementary [(25, 1); (3, 1)] [(24, 1); (6, 1)] true [];
  (*1455 C3H6 + HO2 <=> aC3H5 + H2O2*)
  mkRx Elementary [(25, 1); (4, 1)] [(24, 1); (7, 1)] true [];
  (*1458 C3H6 + CH3 <=> aC3H5 + CH4*)
  mkRx Elementary [(25, 1); (11, 1)] [(24, 1); (12, 1)] true [];
  (*1462 C2H3CHO + H <=> C2H4 + HCO*)
  mkRx Elementary [(27, 1); (1, 1)] [(20, 1); (13, 1)] true [];
  (*1465 C2H3CHO + O <=> C2H3 + OH + CO*)
  mkRx Elementary [(27, 1); (2, 1)] [(19, 1); (3, 1); (16, 1)] true [];
  (*1468 C2H3CHO + OH <=> C2H3 + H2O + CO*)
  mkRx Elementary [(27, 1); (3, 1)] [(19, 1); (6, 1); (16, 1)] true [];
  (*1472 nC3H7 + H <=> C2H5 + CH3*)
  mkRx Elementary [(26, 1); (1, 1)] [(21, 1); (11, 1)] true [];
  (*1475 nC3H7 + H <=> C3H6 + H2*)
  mkRx Elementary [(26, 1); (1, 1)] [(25, 1); (5, 1)] true [];
  (*1478 nC3H7 + O <=> C2H5 + CH2O*)
  mkRx Elementary [(26, 1); (2, 1)] [(21, 1); (14, 1)] true [];
  (*1481 nC3H7 + OH <=> C3H6 + H2O*)
  mkRx Elementary [(26, 1); (3, 1)] [(25, 1); (6, 1)] true [];
  (*1484 nC3H7 + O2 <=> C3H6 + HO2*)
  mkRx Elementary [(26, 1); (8, 1)] [(25, 1); (4, 1)] true [];
  (*1487 nC3H7 + HO2 <=> C2H5 + OH + CH2O*)
  mkRx Elementary [(26, 1); (4, 1)] [(21, 1); (3, 1); (14, 1)] true [];
  (*1490 nC3H7 + CH3 <=> CH4 + C3H6*)
  mkRx Elementary [(26, 1); (11, 1)] [(12, 1); (25, 1)] true [];
  (*1494 C4H7 + H (+ M) <=> C4H81 (+ M)*)
  mkRx Falloff [(28, 1); (1, 1)] [(29, 1)] true [(17, 2.0%Q); (16, 1.5%Q); (5, 2.0%Q); (6, 6.0%Q); (0, 0.7%Q); (12, 2.0%Q); (22, 3.0%Q)];
  (*1501 C4H7 + H <=> CH3 + aC3H5*)
  mkRx Elementary [(28, 1); (1, 1)] [(11, 1); (24, 1)] true [];
  (*1504 C4H7 + HO2 <=> CH2O + OH + aC3H5*)
  mkRx Elementary [(28, 1); (4, 1)] [(14, 1); (3, 1); (24, 1)] true [];
  (*1507 C4H7 + HCO <=> C4H81 + CO*)
  mkRx Elementary [(28, 1); (13, 1)] [(29, 1); (16, 1)] true [];
  (*1511 C4H81 + H (+ M) <=> pC4H9 (+ M)*)
  mkRx Falloff [(29, 1); (1, 1)] [(30, 1)] true [(17, 2.0%Q); (16, 1.5%Q); (5, 2.0%Q); (6, 6.0%Q); (0, 0.7%Q); (12, 2.0%Q); (22, 3.0%Q)];
  (*1518 C4H81 + H <=> C2H4 + C2H5*)
  mkRx Elementary [(29, 1); (1, 1)] [(20, 1); (21, 1)] true [];
  (*1521 C4H81 + H <=> C3H6 + CH3*)
  mkRx Elementary [(29, 1); (1, 1)] [(25, 1); (11, 1)] true [];
  (*1524 C4H81 + H <=> C4H7 + H2*)
  mkRx Elementary [(29, 1); (1, 1)] [(28, 1); (5, 1)] true [];
  (*1527 C4H81 + O <=> nC3H7 + HCO*)
  mkRx Elementary [(29, 1); (2, 1)] [(26, 1); (13, 1)] true [];
  (*1530 C4H81 + O <=> C4H7 + OH*)
  mkRx Elementary [(29, 1); (2, 1)] [(28, 1); (3, 1)] true [];
  (*1534 C4H81 + O <=> C4H7 + OH*)
  mkRx Elementary [(29, 1); (2, 1)] [(28, 1); (3, 1)] true [];
  (*1538 C4H81 + OH <=> C4H7 + H2O*)
  mkRx Elementary [(29, 1); (3, 1)] [(28, 1); (6, 1)] true [];
  (*1541 C4H81 + O2 <=> C4H7 + HO2*)
  mkRx Elementary [(29, 1); (8, 1)] [(28, 1); (4, 1)] true [];
  (*1544 C4H81 + HO2 <=> C4H7 + H2O2*)
  mkRx Elementary [(29, 1); (4, 1)] [(28, 1); (7, 1)] true [];
  (*1547 C4H81 + CH3 <=> C4H7 + CH4*)
  mkRx Elementary [(29, 1); (11, 1)] [(28, 1); (12, 1)] true [];
  (*1552 pC4H9 + H <=> C2H5 + C2H5*)
  mkRx Elementary [(30, 1); (1, 1)] [(21, 1); (21, 1)] true [];
  (*1555 pC4H9 + H <=> C4H81 + H2*)
  mkRx Elementary [(30, 1); (1, 1)] [(29, 1); (5, 1)] true [];
  (*1558 pC4H9 + O <=> nC3H7 + CH2O*)
  mkRx Elementary [(30, 1); (2, 1)] [(26, 1); (14, 1)] true [];
  (*1561 pC4H9 + OH <=> C4H81 + H2O*)
  mkRx Elementary [(30, 1); (3, 1)] [(29, 1); (6, 1)] true [];
  (*1564 pC4H9 + O2 <=> C4H81 + HO2*)
  mkRx Elementary [(30, 1); (8, 1)] [(29, 1); (4, 1)] true [];
  (*1567 pC4H9 + HO2 <=> nC3H7 + OH + CH2O*)
  mkRx Elementary [(30, 1); (4, 1)] [(26, 1); (3, 1); (14, 1)] true [];
  (*1570 pC4H9 + CH3 <=> C4H81 + CH4*)
  mkRx Elementary [(30, 1); (11, 1)] [(29, 1); (12, 1)] true [];
  (*1576 C5H9 => aC3H5 + C2H4*)
  mkRx Elementary [(31, 1)] [(24, 1); (20, 1)] false [];
  (*1579 C5H9 => C2H3 + C3H6*)
  mkRx Elementary [(31, 1)] [(19, 1); (25, 1)] false [];
  (*1582 C5H10 + H (+ M) <=> PXC5H11 (+ M)*)
  mkRx Falloff [(32, 1); (1, 1)] [(33, 1)] true [(17, 2.0%Q); (16, 1.5%Q); (5, 2.0%Q); (6, 6.0%Q); (0, 0.7%Q); (12, 2.0%Q); (22, 3.0%Q)];
  (*1589 C5H10 + H <=> C2H4 + nC3H7*)
  mkRx Elementary [(32, 1); (1, 1)] [(20, 1); (26, 1)] true [];
  (*1592 C5H10 + H <=> C3H6 + C2H5*)
  mkRx Elementary [(32, 1); (1, 1)] [(25, 1); (21, 1)] true [];
  (*1595 C2H4 + nC3H7 <=> PXC5H11*)
  mkRx Elementary [(20, 1); (26, 1)] [(33, 1)] true [];
  (*1598 C6H12 + H (+ M) <=> PXC6H13 (+ M)*)
  mkRx Falloff [(34, 1); (1, 1)] [(35, 1)] true [(17, 2.0%Q); (16, 1.5%Q); (5, 2.0%Q); (6, 6.0%Q); (0, 0.7%Q); (12, 2.0%Q); (22, 3.0%Q)];
  (*1605 C6H12 + H <=> C2H4 + pC4H9*)
  mkRx Elementary [(34, 1); (1, 1)] [(20, 1); (30, 1)] true [];
  (*1608 C6H12 + H <=> C3H6 + nC3H7*)
  mkRx Elementary [(34, 1); (1, 1)] [(25, 1); (26, 1)] true [];
  (*1611 C2H4 + pC4H9 <=> PXC6H13*)
  mkRx Elementary [(20, 1); (30, 1)] [(35, 1)] true [];
  (*1614 C7H14 + H (+ M) <=> PXC7H15 (+ M)*)
  mkRx Falloff [(36, 1); (1, 1)] [(37, 1)] true [(17, 2.0%Q); (16, 1.5%Q); (5, 2.0%Q); (6, 6.0%Q); (0, 0.7%Q); (12, 2.0%Q); (22, 3.0%Q)];
  (*1621 C7H14 + H <=> C2H4 + PXC5H11*)
  mkRx Elementary [(36, 1); (1, 1)] [(20, 1); (33, 1)] true [];
  (*1624 C7H14 + H <=> C3H6 + pC4H9*)
  mkRx Elementary [(36, 1); (1, 1)] [(25, 1); (30, 1)] true [];
  (*1627 C2H4 + PXC5H11 <=> PXC7H15*)
  mkRx Elementary [(20, 1); (33, 1)] [(37, 1)] true [];
  (*1630 C8H16 + H (+ M) <=> PXC8H17 (+ M)*)
  mkRx Falloff [(38, 1); (1, 1)] [(39, 1)] true [(17, 2.0%Q); (16, 1.5%Q); (5, 2.0%Q); (6, 6.0%Q); (0, 0.7%Q); (12, 2.0%Q); (22, 3.0%Q)];
  (*1637 C8H16 + H <=> C2H4 + PXC6H13*)
  mkRx Elementary [(38, 1); (1, 1)] [(20, 1); (35, 1)] true [];
  (*1640 C8H16 + H <=> C3H6 + PXC5H11*)
  mkRx Elementary [(38, 1); (1, 1)] [(25, 1); (33, 1)] true [];
  (*1643 C2H4 + PXC6H13 <=> PXC8H17*)
  mkRx Elementary [(20, 1); (35, 1)] [(39, 1)] true [];
  (*1646 C9H18 + H (+ M) <=> PXC9H19 (+ M)*)
  mkRx Falloff [(40, 1); (1, 1)] [(41, 1)] true [(17, 2.0%Q); (16, 1.5%Q); (5, 2.0%Q); (6, 6.0%Q); (0, 0.7%Q); (12, 2.0%Q); (22, 3.0%Q)];
  (*1653 C9H18 + H <=> C2H4 + PXC7H15*)
  mkRx Elementary [(40, 1); (1, 1)] [(20, 1); (37, 1)] true [];
  (*1656 C9H18 + H <=> C3H6 + PXC6H13*)
  mkRx Elementary [(40, 1); (1, 1)] [(25, 1); (35, 1)] true [];
  (*1659 C2H4 + PXC7H15 <=> PXC9H19*)
  mkRx Elementary [(20, 1); (37, 1)] [(41, 1)] true [];
  (*1662 C10H20 + H (+ M) <=> PXC10H21 (+ M)*)
  mkRx Falloff [(42, 1); (1, 1)] [(43, 1)] true [(17, 2.0%Q); (16, 1.5%Q); (5, 2.0%Q); (6, 6.0%Q); (0, 0.7%Q); (12, 2.0%Q); (22, 3.0%Q)];
  (*1669 C10H20 + H <=> C2H4 + PXC8H17*)
  mkRx Elementary [(42, 1); (1, 1)] [(20, 1); (39, 1)] true [];
  (*1672 C10H20 + H <=> C3H6 + PXC7H15*)
  mkRx Elementary [(42, 1); (1, 1)] [(25, 1); (37, 1)] true [];
  (*1675 C2H4 + PXC8H17 <=> PXC10H21*)
  mkRx Elementary [(20, 1); (39, 1)] [(43, 1)] true [];
  (*1678 C12H24 <=> PXC7H15 + C5H9*)
  mkRx Elementary [(48, 1)] [(37, 1); (31, 1)] true [];
  (*1681 C2H4 + PXC10H21 <=> PXC12H25*)
  mkRx Elementary [(20, 1); (43, 1)] [(45, 1)] true [];
  (*1684 PXC12H25 <=> S3XC12H25*)
  mkRx Elementary [(45, 1)] [(47, 1)] true [];
  (*1687 C3H6 + PXC9H19 <=> SXC12H25*)
  mkRx Elementary [(25, 1); (41, 1)] [(46, 1)] true [];
  (*1690 C4H81 + PXC8H17 <=> SXC12H25*)
  mkRx Elementary [(29, 1); (39, 1)] [(46, 1)] true [];
  (*1693 C5H10 + PXC7H15 <=> S3XC12H25*)
  mkRx Elementary [(32, 1); (37, 1)] [(47, 1)] true [];
  (*1696 C10H20 + C2H5 <=> S3XC12H25*)
  mkRx Elementary [(42, 1); (21, 1)] [(47, 1)] true [];
  (*1699 C6H12 + PXC6H13 <=> S3XC12H25*)
  mkRx Elementary [(34, 1); (35, 1)] [(47, 1)] true [];
  (*1702 C9H18 + nC3H7 <=> S3XC12H25*)
  mkRx Elementary [(40, 1); (26, 1)] [(47, 1)] true [];
  (*1705 C7H14 + PXC5H11 <=> S3XC12H25*)
  mkRx Elementary [(36, 1); (33, 1)] [(47, 1)] true [];
  (*1708 C8H16 + pC4H9 <=> S3XC12H25*)
  mkRx Elementary [(38, 1); (30, 1)] [(47, 1)] true [];
  (*1712 PXC10H21 + C2H5 <=> NC12H26*)
  mkRx Elementary [(43, 1); (21, 1)] [(44, 1)] true [];
  (*1715 PXC9H19 + nC3H7 <=> NC12H26*)
  mkRx Elementary [(41, 1); (26, 1)] [(44, 1)] true [];
  (*1718 PXC8H17 + pC4H9 <=> NC12H26*)
  mkRx Elementary [(39, 1); (30, 1)] [(44, 1)] true [];
  (*1721 PXC7H15 + PXC5H11 <=> NC12H26*)
  mkRx Elementary [(37, 1); (33, 1)] [(44, 1)] true [];
  (*1724 PXC6H13 + PXC6H13 <=> NC12H26*)
  mkRx Elementary [(35, 1); (35, 1)] [(44, 1)] true [];
  (*1727 NC12H26 + H <=> PXC12H25 + H2*)
  mkRx Elementary [(44, 1); (1, 1)] [(45, 1); (5, 1)] true [];
  (*1730 NC12H26 + H <=> SXC12H25 + H2*)
  mkRx Elementary [(44, 1); (1, 1)] [(46, 1); (5, 1)] true [];
  (*1733 NC12H26 + H <=> S3XC12H25 + H2*)
  mkRx Elementary [(44, 1); (1, 1)] [(47, 1); (5, 1)] true [];
  (*1736 NC12H26 + O <=> PXC12H25 + OH*)
  mkRx Elementary [(44, 1); (2, 1)] [(45, 1); (3, 1)] true [];
  (*1739 NC12H26 + O <=> SXC12H25 + OH*)
  mkRx Elementary [(44, 1); (2, 1)] [(46, 1); (3, 1)] true [];
  (*1742 NC12H26 + O <=> S3XC12H25 + OH*)
  mkRx Elementary [(44, 1); (2, 1)] [(47, 1); (3, 1)] true [];
  (*1745 NC12H26 + OH <=> PXC12H25 + H2O*)
  mkRx Elementary [(44, 1); (3, 1)] [(45, 1); (6, 1)] true [];
  (*1748 NC12H26 + OH <=> SXC12H25 + H2O*)
  mkRx Elementary [(44, 1); (3, 1)] [(46, 1); (6, 1)] true [];
  (*1751 NC12H26 + OH <=> S3XC12H25 + H2O*)
  mkRx Elementary [(44, 1); (3, 1)] [(47, 1); (6, 1)] true [];
  (*1754 NC12H26 + O2 <=> PXC12H25 + HO2*)
  mkRx Elementary [(44, 1); (8, 1)] [(45, 1); (4, 1)] true [];
  (*1757 NC12H26 + O2 <=> SXC12H25 + HO2*)
  mkRx Elementary [(44, 1); (8, 1)] [(46, 1); (4, 1)] true [];
  (*1760 NC12H26 + O2 <=> S3XC12H25 + HO2*)
  mkRx Elementary [(44, 1); (8, 1)] [(47, 1); (4, 1)] true [];
  (*1763 NC12H26 + HO2 <=> PXC12H25 + H2O2*)
  mkRx Elementary [(44, 1); (4, 1)] [(45, 1); (7, 1)] true [];
  (*1766 NC12H26 + HO2 <=> SXC12H25 + H2O2*)
  mkRx Elementary [(44, 1); (4, 1)] [(46, 1); (7, 1)] true [];
  (*1769 NC12H26 + HO2 <=> S3XC12H25 + H2O2*)
  mkRx Elementary [(44, 1); (4, 1)] [(47, 1); (7, 1)] true [];
  (*1772 NC12H26 + CH3 <=> PXC12H25 + CH4*)
  mkRx Elementary [(44, 1); (11, 1)] [(45, 1); (12, 1)] true [];
  (*1775 NC12H26 + CH3 <=> SXC12H25 + CH4*)
  mkRx Elementary [(44, 1); (11, 1)] [(46, 1); (12, 1)] true [];
  (*1778 NC12H26 + CH3 <=> S3XC12H25 + CH4*)
  mkRx Elementary [(44, 1); (11, 1)] [(47, 1); (12, 1)] true [];
  (*1782 PXC12H25 + O2 => C12H25O2*)
  mkRx Elementary [(45, 1); (8, 1)] [(49, 1)] false [];
  (*1785 C12H25O2 => PXC12H25 + O2*)
  mkRx Elementary [(49, 1)] [(45, 1); (8, 1)] false [];
  (*1788 SXC12H25 + O2 => C12H25O2*)
  mkRx Elementary [(46, 1); (8, 1)] [(49, 1)] false [];
  (*1791 C12H25O2 => SXC12H25 + O2*)
  mkRx Elementary [(49, 1)] [(46, 1); (8, 1)] false [];
  (*1794 S3XC12H25 + O2 => C12H25O2*)
  mkRx Elementary [(47, 1); (8, 1)] [(49, 1)] false [];
  (*1797 C12H25O2 => S3XC12H25 + O2*)
  mkRx Elementary [(49, 1)] [(47, 1); (8, 1)] false [];
  (*1800 C12H25O2 => C12OOH*)
  mkRx Elementary [(49, 1)] [(50, 1)] false [];
  (*1803 C12OOH => C12H25O2*)
  mkRx Elementary [(50, 1)] [(49, 1)] false [];
  (*1806 PXC12H25 + O2 => C12H24 + HO2*)
  mkRx Elementary [(45, 1); (8, 1)] [(48, 1); (4, 1)] false [];
  (*1809 C12H24 + HO2 => PXC12H25 + O2*)
  mkRx Elementary [(48, 1); (4, 1)] [(45, 1); (8, 1)] false [];
  (*1812 SXC12H25 + O2 => C12H24 + HO2*)
  mkRx Elementary [(46, 1); (8, 1)] [(48, 1); (4, 1)] false [];
  (*1815 C12H24 + HO2 => SXC12H25 + O2*)
  mkRx Elementary [(48, 1); (4, 1)] [(46, 1); (8, 1)] false [];
  (*1818 S3XC12H25 + O2 => C12H24 + HO2*)
  mkRx Elementary [(47, 1); (8, 1)] [(48, 1); (4, 1)] false [];
  (*1821 C12H24 + HO2 => S3XC12H25 + O2*)
  mkRx Elementary [(48, 1); (4, 1)] [(47, 1); (8, 1)] false [];
  (*1824 C12OOH + O2 => O2C12H24OOH*)
  mkRx Elementary [(50, 1); (8, 1)] [(51, 1)] false [];
  (*1827 O2C12H24OOH => C12OOH + O2*)
  mkRx Elementary [(51, 1)] [(50, 1); (8, 1)] false [];
  (*1830 O2C12H24OOH <=> OC12H23OOH + OH*)
  mkRx Elementary [(51, 1)] [(52, 1); (3, 1)] true [];
  (*1833 OC12H23OOH => 3 C2H4 + C2H5 + 2 CH2CHO + OH*)
  mkRx Elementary [(52, 1)] [(20, 3); (21, 1); (23, 2); (3, 1)] false []
].

(** The mechanism yao. *)
Definition yao_chemistry : chemistry := mkChem 54 5 yao_atoms yao_reactions.

