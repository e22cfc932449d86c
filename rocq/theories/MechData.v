(** Thermodynamic and kinetic data of the mechanisms (chem.cti). *)
From Coq Require Import List QArith.
From Verif Require Import Mechanisms.
Import ListNotations.
Local Open Scope Q_scope.

(** The thermo entry of a species in chem.cti: two NASA polynomials (7 coefficients each), the first
    for temperatures up to [n_mid], the second above. *)
Record nasa7 := mkNasa { n_mid : Q; n_low : list Q; n_high : list Q }.

(** Arrhenius parameters [A, b, E] as written in chem.cti (units cm, mol, s, cal/mol, chem.cti:
    [units(...)]). *)
Record arrhenius := mkArr { a_A : Q; a_b : Q; a_E : Q }.

(** Parameters [A], [T3], [T1] and, if given, [T2] of [Troe(...)]. *)
Record troe := mkTroe { t_A : Q; t_T3 : Q; t_T1 : Q; t_T2 : option Q }.

(** Rate data of a reaction: the rate constant (of a fall-off reaction: [kf], the high-pressure
    limit), the low-pressure limit [kf0], and the fall-off function. *)
Record kinetics := mkKin { k_high : arrhenius; k_low : option arrhenius; k_troe : option troe }.

(** Thermo entries of drm19/chem.cti, in the order of drm19/foam/species.foam; the number before a species is
    its line. *)
Definition drm19_nasa : list nasa7 := [
  (*27 H2*) mkNasa 1000.00
    [2.34433112e+00; 7.98052075e-03; (-1.94781510e-05); 2.01572094e-08; (-7.37611761e-12); (-9.17935173e+02); 6.83010238e-01]
    [3.33727920e+00; (-4.94024731e-05); 4.99456778e-07; (-1.79566394e-10); 2.00255376e-14; (-9.50158922e+02); (-3.20502331e+00)];
  (*44 H*) mkNasa 1000.00
    [2.50000000e+00; 7.05332819e-13; (-1.99591964e-15); 2.30081632e-18; (-9.27732332e-22); 2.54736599e+04; (-4.46682853e-01)]
    [2.50000001e+00; (-2.30842973e-11); 1.61561948e-14; (-4.73515235e-18); 4.98197357e-22; 2.54736599e+04; (-4.46682914e-01)];
  (*59 O*) mkNasa 1000.00
    [3.16826710e+00; (-3.27931884e-03); 6.64306396e-06; (-6.12806624e-09); 2.11265971e-12; 2.91222592e+04; 2.05193346e+00]
    [2.56942078e+00; (-8.59741137e-05); 4.19484589e-08; (-1.00177799e-11); 1.22833691e-15; 2.92175791e+04; 4.78433864e+00];
  (*74 O2*) mkNasa 1000.00
    [3.78245636e+00; (-2.99673416e-03); 9.84730201e-06; (-9.68129509e-09); 3.24372837e-12; (-1.06394356e+03); 3.65767573e+00]
    [3.28253784e+00; 1.48308754e-03; (-7.57966669e-07); 2.09470555e-10; (-2.16717794e-14); (-1.08845772e+03); 5.45323129e+00];
  (*91 OH*) mkNasa 1000.00
    [3.99201543e+00; (-2.40131752e-03); 4.61793841e-06; (-3.88113333e-09); 1.36411470e-12; 3.61508056e+03; (-1.03925458e-01)]
    [3.09288767e+00; 5.48429716e-04; 1.26505228e-07; (-8.79461556e-11); 1.17412376e-14; 3.85865700e+03; 4.47669610e+00];
  (*106 H2O*) mkNasa 1000.00
    [4.19864056e+00; (-2.03643410e-03); 6.52040211e-06; (-5.48797062e-09); 1.77197817e-12; (-3.02937267e+04); (-8.49032208e-01)]
    [3.03399249e+00; 2.17691804e-03; (-1.64072518e-07); (-9.70419870e-11); 1.68200992e-14; (-3.00042971e+04); 4.96677010e+00];
  (*123 HO2*) mkNasa 1000.00
    [4.30179801e+00; (-4.74912051e-03); 2.11582891e-05; (-2.42763894e-08); 9.29225124e-12; 2.94808040e+02; 3.71666245e+00]
    [4.01721090e+00; 2.23982013e-03; (-6.33658150e-07); 1.14246370e-10; (-1.07908535e-14); 1.11856713e+02; 3.78510215e+00];
  (*139 CH2*) mkNasa 1000.00
    [3.76267867e+00; 9.68872143e-04; 2.79489841e-06; (-3.85091153e-09); 1.68741719e-12; 4.60040401e+04; 1.56253185e+00]
    [2.87410113e+00; 3.65639292e-03; (-1.40894597e-06); 2.60179549e-10; (-1.87727567e-14); 4.62636040e+04; 6.17119324e+00];
  (*154 CH2(S)*) mkNasa 1000.00
    [4.19860411e+00; (-2.36661419e-03); 8.23296220e-06; (-6.68815981e-09); 1.94314737e-12; 5.04968163e+04; (-7.69118967e-01)]
    [2.29203842e+00; 4.65588637e-03; (-2.01191947e-06); 4.17906000e-10; (-3.39716365e-14); 5.09259997e+04; 8.62650169e+00];
  (*169 CH3*) mkNasa 1000.00
    [3.67359040e+00; 2.01095175e-03; 5.73021856e-06; (-6.87117425e-09); 2.54385734e-12; 1.64449988e+04; 1.60456433e+00]
    [2.28571772e+00; 7.23990037e-03; (-2.98714348e-06); 5.95684644e-10; (-4.67154394e-14); 1.67755843e+04; 8.48007179e+00];
  (*184 CH4*) mkNasa 1000.00
    [5.14987613e+00; (-1.36709788e-02); 4.91800599e-05; (-4.84743026e-08); 1.66693956e-11; (-1.02466476e+04); (-4.64130376e+00)]
    [7.48514950e-02; 1.33909467e-02; (-5.73285809e-06); 1.22292535e-09; (-1.01815230e-13); (-9.46834459e+03); 1.84373180e+01];
  (*201 CO*) mkNasa 1000.00
    [3.57953347e+00; (-6.10353680e-04); 1.01681433e-06; 9.07005884e-10; (-9.04424499e-13); (-1.43440860e+04); 3.50840928e+00]
    [2.71518561e+00; 2.06252743e-03; (-9.98825771e-07); 2.30053008e-10; (-2.03647716e-14); (-1.41518724e+04); 7.81868772e+00];
  (*218 CO2*) mkNasa 1000.00
    [2.35677352e+00; 8.98459677e-03; (-7.12356269e-06); 2.45919022e-09; (-1.43699548e-13); (-4.83719697e+04); 9.90105222e+00]
    [3.85746029e+00; 4.41437026e-03; (-2.21481404e-06); 5.23490188e-10; (-4.72084164e-14); (-4.87591660e+04); 2.27163806e+00];
  (*235 HCO*) mkNasa 1000.00
    [4.22118584e+00; (-3.24392532e-03); 1.37799446e-05; (-1.33144093e-08); 4.33768865e-12; 3.83956496e+03; 3.39437243e+00]
    [2.77217438e+00; 4.95695526e-03; (-2.48445613e-06); 5.89161778e-10; (-5.33508711e-14); 4.01191815e+03; 9.79834492e+00];
  (*250 CH2O*) mkNasa 1000.00
    [4.79372315e+00; (-9.90833369e-03); 3.73220008e-05; (-3.79285261e-08); 1.31772652e-11; (-1.43089567e+04); 6.02812900e-01]
    [1.76069008e+00; 9.20000082e-03; (-4.42258813e-06); 1.00641212e-09; (-8.83855640e-14); (-1.39958323e+04); 1.36563230e+01];
  (*266 CH3O*) mkNasa 1000.00
    [2.10620400e+00; 7.21659500e-03; 5.33847200e-06; (-7.37763600e-09); 2.07561000e-12; 9.78601100e+02; 1.31521770e+01]
    [3.77079900e+00; 7.87149700e-03; (-2.65638400e-06); 3.94443100e-10; (-2.11261600e-14); 1.27832520e+02; 2.92957500e+00];
  (*283 C2H4*) mkNasa 1000.00
    [3.95920148e+00; (-7.57052247e-03); 5.70990292e-05; (-6.91588753e-08); 2.69884373e-11; 5.08977593e+03; 4.09733096e+00]
    [2.03611116e+00; 1.46454151e-02; (-6.71077915e-06); 1.47222923e-09; (-1.25706061e-13); 4.93988614e+03; 1.03053693e+01];
  (*299 C2H5*) mkNasa 1000.00
    [4.30646568e+00; (-4.18658892e-03); 4.97142807e-05; (-5.99126606e-08); 2.30509004e-11; 1.28416265e+04; 4.70720924e+00]
    [1.95465642e+00; 1.73972722e-02; (-7.98206668e-06); 1.75217689e-09; (-1.49641576e-13); 1.28575200e+04; 1.34624343e+01];
  (*315 C2H6*) mkNasa 1000.00
    [4.29142492e+00; (-5.50154270e-03); 5.99438288e-05; (-7.08466285e-08); 2.68685771e-11; (-1.15222055e+04); 2.66682316e+00]
    [1.07188150e+00; 2.16852677e-02; (-1.00256067e-05); 2.21412001e-09; (-1.90002890e-13); (-1.14263932e+04); 1.51156107e+01];
  (*348 AR*) mkNasa 1000.00
    [2.50000000e+00; 0.00000000e+00; 0.00000000e+00; 0.00000000e+00; 0.00000000e+00; (-7.45375000e+02); 4.36600000e+00]
    [2.50000000e+00; 0.00000000e+00; 0.00000000e+00; 0.00000000e+00; 0.00000000e+00; (-7.45375000e+02); 4.36600000e+00];
  (*331 N2*) mkNasa 1000.00
    [3.29867700e+00; 1.40824040e-03; (-3.96322200e-06); 5.64151500e-09; (-2.44485400e-12); (-1.02089990e+03); 3.95037200e+00]
    [2.92664000e+00; 1.48797680e-03; (-5.68476000e-07); 1.00970380e-10; (-6.75335100e-15); (-9.22797700e+02); 5.98052800e+00]
].

(** Rate data of the reactions of drm19/chem.cti; the number before a reaction is its line. *)
Definition drm19_kinetics : list kinetics := [
  (*368 O + H + M <=> OH + M*) mkKin (mkArr 5.000000e+17 (-1.0) 0.0) None None;
  (*372 O + H2 <=> H + OH*) mkKin (mkArr 5.000000e+04 2.67 6290.0) None None;
  (*375 O + HO2 <=> OH + O2*) mkKin (mkArr 2.000000e+13 0.0 0.0) None None;
  (*378 O + CH2 <=> H + HCO*) mkKin (mkArr 8.000000e+13 0.0 0.0) None None;
  (*381 O + CH2(S) <=> H + HCO*) mkKin (mkArr 1.500000e+13 0.0 0.0) None None;
  (*384 O + CH3 <=> H + CH2O*) mkKin (mkArr 8.430000e+13 0.0 0.0) None None;
  (*387 O + CH4 <=> OH + CH3*) mkKin (mkArr 1.020000e+09 1.5 8600.0) None None;
  (*390 O + CO + M <=> CO2 + M*) mkKin (mkArr 6.020000e+14 0.0 3000.0) None None;
  (*394 O + HCO <=> OH + CO*) mkKin (mkArr 3.000000e+13 0.0 0.0) None None;
  (*397 O + HCO <=> H + CO2*) mkKin (mkArr 3.000000e+13 0.0 0.0) None None;
  (*400 O + CH2O <=> OH + HCO*) mkKin (mkArr 3.900000e+13 0.0 3540.0) None None;
  (*403 O + C2H4 <=> CH3 + HCO*) mkKin (mkArr 1.920000e+07 1.83 220.0) None None;
  (*406 O + C2H5 <=> CH3 + CH2O*) mkKin (mkArr 1.320000e+14 0.0 0.0) None None;
  (*409 O + C2H6 <=> OH + C2H5*) mkKin (mkArr 8.980000e+07 1.92 5690.0) None None;
  (*412 O2 + CO <=> O + CO2*) mkKin (mkArr 2.500000e+12 0.0 47800.0) None None;
  (*415 O2 + CH2O <=> HO2 + HCO*) mkKin (mkArr 1.000000e+14 0.0 40000.0) None None;
  (*418 H + O2 + M <=> HO2 + M*) mkKin (mkArr 2.800000e+18 (-0.86) 0.0) None None;
  (*422 H + 2 O2 <=> HO2 + O2*) mkKin (mkArr 3.000000e+20 (-1.72) 0.0) None None;
  (*425 H + O2 + H2O <=> HO2 + H2O*) mkKin (mkArr 9.380000e+18 (-0.76) 0.0) None None;
  (*428 H + O2 + N2 <=> HO2 + N2*) mkKin (mkArr 3.750000e+20 (-1.72) 0.0) None None;
  (*431 H + O2 + AR <=> HO2 + AR*) mkKin (mkArr 7.000000e+17 (-0.8) 0.0) None None;
  (*434 H + O2 <=> O + OH*) mkKin (mkArr 8.300000e+13 0.0 14413.0) None None;
  (*437 2 H + M <=> H2 + M*) mkKin (mkArr 1.000000e+18 (-1.0) 0.0) None None;
  (*441 2 H + H2 <=> 2 H2*) mkKin (mkArr 9.000000e+16 (-0.6) 0.0) None None;
  (*444 2 H + H2O <=> H2 + H2O*) mkKin (mkArr 6.000000e+19 (-1.25) 0.0) None None;
  (*447 2 H + CO2 <=> H2 + CO2*) mkKin (mkArr 5.500000e+20 (-2.0) 0.0) None None;
  (*450 H + OH + M <=> H2O + M*) mkKin (mkArr 2.200000e+22 (-2.0) 0.0) None None;
  (*454 H + HO2 <=> O2 + H2*) mkKin (mkArr 2.800000e+13 0.0 1068.0) None None;
  (*457 H + HO2 <=> 2 OH*) mkKin (mkArr 1.340000e+14 0.0 635.0) None None;
  (*460 H + CH2 (+ M) <=> CH3 (+ M)*) mkKin (mkArr 2.500000e+16 (-0.8) 0.0) (Some (mkArr 3.200000e+27 (-3.14) 1230.0)) (Some (mkTroe 0.68 78.0 1995.0 (Some 5590.0)));
  (*467 H + CH3 (+ M) <=> CH4 (+ M)*) mkKin (mkArr 1.270000e+16 (-0.63) 383.0) (Some (mkArr 2.477000e+33 (-4.76) 2440.0)) (Some (mkTroe 0.783 74.0 2941.0 (Some 6964.0)));
  (*474 H + CH4 <=> CH3 + H2*) mkKin (mkArr 6.600000e+08 1.62 10840.0) None None;
  (*477 H + HCO (+ M) <=> CH2O (+ M)*) mkKin (mkArr 1.090000e+12 0.48 (-260.0)) (Some (mkArr 1.350000e+24 (-2.57) 1425.0)) (Some (mkTroe 0.7824 271.0 2755.0 (Some 6570.0)));
  (*484 H + HCO <=> H2 + CO*) mkKin (mkArr 7.340000e+13 0.0 0.0) None None;
  (*487 H + CH2O (+ M) <=> CH3O (+ M)*) mkKin (mkArr 5.400000e+11 0.454 2600.0) (Some (mkArr 2.200000e+30 (-4.8) 5560.0)) (Some (mkTroe 0.758 94.0 1555.0 (Some 4200.0)));
  (*494 H + CH2O <=> HCO + H2*) mkKin (mkArr 2.300000e+10 1.05 3275.0) None None;
  (*497 H + CH3O <=> OH + CH3*) mkKin (mkArr 3.200000e+13 0.0 0.0) None None;
  (*500 H + C2H4 (+ M) <=> C2H5 (+ M)*) mkKin (mkArr 1.080000e+12 0.454 1820.0) (Some (mkArr 1.200000e+42 (-7.62) 6970.0)) (Some (mkTroe 0.9753 210.0 984.0 (Some 4374.0)));
  (*507 H + C2H5 (+ M) <=> C2H6 (+ M)*) mkKin (mkArr 5.210000e+17 (-0.99) 1580.0) (Some (mkArr 1.990000e+41 (-7.08) 6685.0)) (Some (mkTroe 0.8422 125.0 2219.0 (Some 6882.0)));
  (*514 H + C2H6 <=> C2H5 + H2*) mkKin (mkArr 1.150000e+08 1.9 7530.0) None None;
  (*517 H2 + CO (+ M) <=> CH2O (+ M)*) mkKin (mkArr 4.300000e+07 1.5 79600.0) (Some (mkArr 5.070000e+27 (-3.42) 84350.0)) (Some (mkTroe 0.932 197.0 1540.0 (Some 10300.0)));
  (*524 OH + H2 <=> H + H2O*) mkKin (mkArr 2.160000e+08 1.51 3430.0) None None;
  (*527 2 OH <=> O + H2O*) mkKin (mkArr 3.570000e+04 2.4 (-2110.0)) None None;
  (*530 OH + HO2 <=> O2 + H2O*) mkKin (mkArr 2.900000e+13 0.0 (-500.0)) None None;
  (*533 OH + CH2 <=> H + CH2O*) mkKin (mkArr 2.000000e+13 0.0 0.0) None None;
  (*536 OH + CH2(S) <=> H + CH2O*) mkKin (mkArr 3.000000e+13 0.0 0.0) None None;
  (*539 OH + CH3 <=> CH2 + H2O*) mkKin (mkArr 5.600000e+07 1.6 5420.0) None None;
  (*542 OH + CH3 <=> CH2(S) + H2O*) mkKin (mkArr 2.501000e+13 0.0 0.0) None None;
  (*545 OH + CH4 <=> CH3 + H2O*) mkKin (mkArr 1.000000e+08 1.6 3120.0) None None;
  (*548 OH + CO <=> H + CO2*) mkKin (mkArr 4.760000e+07 1.228 70.0) None None;
  (*551 OH + HCO <=> H2O + CO*) mkKin (mkArr 5.000000e+13 0.0 0.0) None None;
  (*554 OH + CH2O <=> HCO + H2O*) mkKin (mkArr 3.430000e+09 1.18 (-447.0)) None None;
  (*557 OH + C2H6 <=> C2H5 + H2O*) mkKin (mkArr 3.540000e+06 2.12 870.0) None None;
  (*560 HO2 + CH2 <=> OH + CH2O*) mkKin (mkArr 2.000000e+13 0.0 0.0) None None;
  (*563 HO2 + CH3 <=> O2 + CH4*) mkKin (mkArr 1.000000e+12 0.0 0.0) None None;
  (*566 HO2 + CH3 <=> OH + CH3O*) mkKin (mkArr 2.000000e+13 0.0 0.0) None None;
  (*569 HO2 + CO <=> OH + CO2*) mkKin (mkArr 1.500000e+14 0.0 23600.0) None None;
  (*572 CH2 + O2 <=> OH + HCO*) mkKin (mkArr 1.320000e+13 0.0 1500.0) None None;
  (*575 CH2 + H2 <=> H + CH3*) mkKin (mkArr 5.000000e+05 2.0 7230.0) None None;
  (*578 CH2 + CH3 <=> H + C2H4*) mkKin (mkArr 4.000000e+13 0.0 0.0) None None;
  (*581 CH2 + CH4 <=> 2 CH3*) mkKin (mkArr 2.460000e+06 2.0 8270.0) None None;
  (*584 CH2(S) + N2 <=> CH2 + N2*) mkKin (mkArr 1.500000e+13 0.0 600.0) None None;
  (*587 CH2(S) + AR <=> CH2 + AR*) mkKin (mkArr 9.000000e+12 0.0 600.0) None None;
  (*590 CH2(S) + O2 <=> H + OH + CO*) mkKin (mkArr 2.800000e+13 0.0 0.0) None None;
  (*593 CH2(S) + O2 <=> CO + H2O*) mkKin (mkArr 1.200000e+13 0.0 0.0) None None;
  (*596 CH2(S) + H2 <=> CH3 + H*) mkKin (mkArr 7.000000e+13 0.0 0.0) None None;
  (*599 CH2(S) + H2O <=> CH2 + H2O*) mkKin (mkArr 3.000000e+13 0.0 0.0) None None;
  (*602 CH2(S) + CH3 <=> H + C2H4*) mkKin (mkArr 1.200000e+13 0.0 (-570.0)) None None;
  (*605 CH2(S) + CH4 <=> 2 CH3*) mkKin (mkArr 1.600000e+13 0.0 (-570.0)) None None;
  (*608 CH2(S) + CO <=> CH2 + CO*) mkKin (mkArr 9.000000e+12 0.0 0.0) None None;
  (*611 CH2(S) + CO2 <=> CH2 + CO2*) mkKin (mkArr 7.000000e+12 0.0 0.0) None None;
  (*614 CH2(S) + CO2 <=> CO + CH2O*) mkKin (mkArr 1.400000e+13 0.0 0.0) None None;
  (*617 CH3 + O2 <=> O + CH3O*) mkKin (mkArr 2.675000e+13 0.0 28800.0) None None;
  (*620 CH3 + O2 <=> OH + CH2O*) mkKin (mkArr 3.600000e+10 0.0 8940.0) None None;
  (*623 2 CH3 (+ M) <=> C2H6 (+ M)*) mkKin (mkArr 2.120000e+16 (-0.97) 620.0) (Some (mkArr 1.770000e+50 (-9.67) 6220.0)) (Some (mkTroe 0.5325 151.0 1038.0 (Some 4970.0)));
  (*630 2 CH3 <=> H + C2H5*) mkKin (mkArr 4.990000e+12 0.1 10600.0) None None;
  (*633 CH3 + HCO <=> CH4 + CO*) mkKin (mkArr 2.648000e+13 0.0 0.0) None None;
  (*636 CH3 + CH2O <=> HCO + CH4*) mkKin (mkArr 3.320000e+03 2.81 5860.0) None None;
  (*639 CH3 + C2H6 <=> C2H5 + CH4*) mkKin (mkArr 6.140000e+06 1.74 10450.0) None None;
  (*642 HCO + H2O <=> H + CO + H2O*) mkKin (mkArr 2.244000e+18 (-1.0) 17000.0) None None;
  (*645 HCO + M <=> H + CO + M*) mkKin (mkArr 1.870000e+17 (-1.0) 17000.0) None None;
  (*649 HCO + O2 <=> HO2 + CO*) mkKin (mkArr 7.600000e+12 0.0 400.0) None None;
  (*652 CH3O + O2 <=> HO2 + CH2O*) mkKin (mkArr 4.280000e-13 7.6 (-3530.0)) None None;
  (*655 C2H5 + O2 <=> HO2 + C2H4*) mkKin (mkArr 8.400000e+11 0.0 3875.0) None None
].

(** Thermo entries of gri30/chem.cti, in the order of gri30/foam/species.foam; the number before a species is
    its line. *)
Definition gri30_nasa : list nasa7 := [
  (*29 H2*) mkNasa 1000.00
    [2.34433112e+00; 7.98052075e-03; (-1.94781510e-05); 2.01572094e-08; (-7.37611761e-12); (-9.17935173e+02); 6.83010238e-01]
    [3.33727920e+00; (-4.94024731e-05); 4.99456778e-07; (-1.79566394e-10); 2.00255376e-14; (-9.50158922e+02); (-3.20502331e+00)];
  (*46 H*) mkNasa 1000.00
    [2.50000000e+00; 7.05332819e-13; (-1.99591964e-15); 2.30081632e-18; (-9.27732332e-22); 2.54736599e+04; (-4.46682853e-01)]
    [2.50000001e+00; (-2.30842973e-11); 1.61561948e-14; (-4.73515235e-18); 4.98197357e-22; 2.54736599e+04; (-4.46682914e-01)];
  (*61 O*) mkNasa 1000.00
    [3.16826710e+00; (-3.27931884e-03); 6.64306396e-06; (-6.12806624e-09); 2.11265971e-12; 2.91222592e+04; 2.05193346e+00]
    [2.56942078e+00; (-8.59741137e-05); 4.19484589e-08; (-1.00177799e-11); 1.22833691e-15; 2.92175791e+04; 4.78433864e+00];
  (*76 O2*) mkNasa 1000.00
    [3.78245636e+00; (-2.99673416e-03); 9.84730201e-06; (-9.68129509e-09); 3.24372837e-12; (-1.06394356e+03); 3.65767573e+00]
    [3.28253784e+00; 1.48308754e-03; (-7.57966669e-07); 2.09470555e-10; (-2.16717794e-14); (-1.08845772e+03); 5.45323129e+00];
  (*93 OH*) mkNasa 1000.00
    [3.99201543e+00; (-2.40131752e-03); 4.61793841e-06; (-3.88113333e-09); 1.36411470e-12; 3.61508056e+03; (-1.03925458e-01)]
    [3.09288767e+00; 5.48429716e-04; 1.26505228e-07; (-8.79461556e-11); 1.17412376e-14; 3.85865700e+03; 4.47669610e+00];
  (*108 H2O*) mkNasa 1000.00
    [4.19864056e+00; (-2.03643410e-03); 6.52040211e-06; (-5.48797062e-09); 1.77197817e-12; (-3.02937267e+04); (-8.49032208e-01)]
    [3.03399249e+00; 2.17691804e-03; (-1.64072518e-07); (-9.70419870e-11); 1.68200992e-14; (-3.00042971e+04); 4.96677010e+00];
  (*125 HO2*) mkNasa 1000.00
    [4.30179801e+00; (-4.74912051e-03); 2.11582891e-05; (-2.42763894e-08); 9.29225124e-12; 2.94808040e+02; 3.71666245e+00]
    [4.01721090e+00; 2.23982013e-03; (-6.33658150e-07); 1.14246370e-10; (-1.07908535e-14); 1.11856713e+02; 3.78510215e+00];
  (*141 H2O2*) mkNasa 1000.00
    [4.27611269e+00; (-5.42822417e-04); 1.67335701e-05; (-2.15770813e-08); 8.62454363e-12; (-1.77025821e+04); 3.43505074e+00]
    [4.16500285e+00; 4.90831694e-03; (-1.90139225e-06); 3.71185986e-10; (-2.87908305e-14); (-1.78617877e+04); 2.91615662e+00];
  (*157 C*) mkNasa 1000.00
    [2.55423955e+00; (-3.21537724e-04); 7.33792245e-07; (-7.32234889e-10); 2.66521446e-13; 8.54438832e+04; 4.53130848e+00]
    [2.49266888e+00; 4.79889284e-05; (-7.24335020e-08); 3.74291029e-11; (-4.87277893e-15); 8.54512953e+04; 4.80150373e+00];
  (*172 CH*) mkNasa 1000.00
    [3.48981665e+00; 3.23835541e-04; (-1.68899065e-06); 3.16217327e-09; (-1.40609067e-12); 7.07972934e+04; 2.08401108e+00]
    [2.87846473e+00; 9.70913681e-04; 1.44445655e-07; (-1.30687849e-10); 1.76079383e-14; 7.10124364e+04; 5.48497999e+00];
  (*187 CH2*) mkNasa 1000.00
    [3.76267867e+00; 9.68872143e-04; 2.79489841e-06; (-3.85091153e-09); 1.68741719e-12; 4.60040401e+04; 1.56253185e+00]
    [2.87410113e+00; 3.65639292e-03; (-1.40894597e-06); 2.60179549e-10; (-1.87727567e-14); 4.62636040e+04; 6.17119324e+00];
  (*202 CH2(S)*) mkNasa 1000.00
    [4.19860411e+00; (-2.36661419e-03); 8.23296220e-06; (-6.68815981e-09); 1.94314737e-12; 5.04968163e+04; (-7.69118967e-01)]
    [2.29203842e+00; 4.65588637e-03; (-2.01191947e-06); 4.17906000e-10; (-3.39716365e-14); 5.09259997e+04; 8.62650169e+00];
  (*217 CH3*) mkNasa 1000.00
    [3.67359040e+00; 2.01095175e-03; 5.73021856e-06; (-6.87117425e-09); 2.54385734e-12; 1.64449988e+04; 1.60456433e+00]
    [2.28571772e+00; 7.23990037e-03; (-2.98714348e-06); 5.95684644e-10; (-4.67154394e-14); 1.67755843e+04; 8.48007179e+00];
  (*232 CH4*) mkNasa 1000.00
    [5.14987613e+00; (-1.36709788e-02); 4.91800599e-05; (-4.84743026e-08); 1.66693956e-11; (-1.02466476e+04); (-4.64130376e+00)]
    [7.48514950e-02; 1.33909467e-02; (-5.73285809e-06); 1.22292535e-09; (-1.01815230e-13); (-9.46834459e+03); 1.84373180e+01];
  (*249 CO*) mkNasa 1000.00
    [3.57953347e+00; (-6.10353680e-04); 1.01681433e-06; 9.07005884e-10; (-9.04424499e-13); (-1.43440860e+04); 3.50840928e+00]
    [2.71518561e+00; 2.06252743e-03; (-9.98825771e-07); 2.30053008e-10; (-2.03647716e-14); (-1.41518724e+04); 7.81868772e+00];
  (*266 CO2*) mkNasa 1000.00
    [2.35677352e+00; 8.98459677e-03; (-7.12356269e-06); 2.45919022e-09; (-1.43699548e-13); (-4.83719697e+04); 9.90105222e+00]
    [3.85746029e+00; 4.41437026e-03; (-2.21481404e-06); 5.23490188e-10; (-4.72084164e-14); (-4.87591660e+04); 2.27163806e+00];
  (*283 HCO*) mkNasa 1000.00
    [4.22118584e+00; (-3.24392532e-03); 1.37799446e-05; (-1.33144093e-08); 4.33768865e-12; 3.83956496e+03; 3.39437243e+00]
    [2.77217438e+00; 4.95695526e-03; (-2.48445613e-06); 5.89161778e-10; (-5.33508711e-14); 4.01191815e+03; 9.79834492e+00];
  (*298 CH2O*) mkNasa 1000.00
    [4.79372315e+00; (-9.90833369e-03); 3.73220008e-05; (-3.79285261e-08); 1.31772652e-11; (-1.43089567e+04); 6.02812900e-01]
    [1.76069008e+00; 9.20000082e-03; (-4.42258813e-06); 1.00641212e-09; (-8.83855640e-14); (-1.39958323e+04); 1.36563230e+01];
  (*314 CH2OH*) mkNasa 1000.00
    [3.86388918e+00; 5.59672304e-03; 5.93271791e-06; (-1.04532012e-08); 4.36967278e-12; (-3.19391367e+03); 5.47302243e+00]
    [3.69266569e+00; 8.64576797e-03; (-3.75101120e-06); 7.87234636e-10; (-6.48554201e-14); (-3.24250627e+03); 5.81043215e+00];
  (*331 CH3O*) mkNasa 1000.00
    [2.10620400e+00; 7.21659500e-03; 5.33847200e-06; (-7.37763600e-09); 2.07561000e-12; 9.78601100e+02; 1.31521770e+01]
    [3.77079900e+00; 7.87149700e-03; (-2.65638400e-06); 3.94443100e-10; (-2.11261600e-14); 1.27832520e+02; 2.92957500e+00];
  (*348 CH3OH*) mkNasa 1000.00
    [5.71539582e+00; (-1.52309129e-02); 6.52441155e-05; (-7.10806889e-08); 2.61352698e-11; (-2.56427656e+04); (-1.50409823e+00)]
    [1.78970791e+00; 1.40938292e-02; (-6.36500835e-06); 1.38171085e-09; (-1.17060220e-13); (-2.53748747e+04); 1.45023623e+01];
  (*364 C2H*) mkNasa 1000.00
    [2.88965733e+00; 1.34099611e-02; (-2.84769501e-05); 2.94791045e-08; (-1.09331511e-11); 6.68393932e+04; 6.22296438e+00]
    [3.16780652e+00; 4.75221902e-03; (-1.83787077e-06); 3.04190252e-10; (-1.77232770e-14); 6.71210650e+04; 6.63589475e+00];
  (*380 C2H2*) mkNasa 1000.00
    [8.08681094e-01; 2.33615629e-02; (-3.55171815e-05); 2.80152437e-08; (-8.50072974e-12); 2.64289807e+04; 1.39397051e+01]
    [4.14756964e+00; 5.96166664e-03; (-2.37294852e-06); 4.67412171e-10; (-3.61235213e-14); 2.59359992e+04; (-1.23028121e+00)];
  (*396 C2H3*) mkNasa 1000.00
    [3.21246645e+00; 1.51479162e-03; 2.59209412e-05; (-3.57657847e-08); 1.47150873e-11; 3.48598468e+04; 8.51054025e+00]
    [3.01672400e+00; 1.03302292e-02; (-4.68082349e-06); 1.01763288e-09; (-8.62607041e-14); 3.46128739e+04; 7.78732378e+00];
  (*412 C2H4*) mkNasa 1000.00
    [3.95920148e+00; (-7.57052247e-03); 5.70990292e-05; (-6.91588753e-08); 2.69884373e-11; 5.08977593e+03; 4.09733096e+00]
    [2.03611116e+00; 1.46454151e-02; (-6.71077915e-06); 1.47222923e-09; (-1.25706061e-13); 4.93988614e+03; 1.03053693e+01];
  (*428 C2H5*) mkNasa 1000.00
    [4.30646568e+00; (-4.18658892e-03); 4.97142807e-05; (-5.99126606e-08); 2.30509004e-11; 1.28416265e+04; 4.70720924e+00]
    [1.95465642e+00; 1.73972722e-02; (-7.98206668e-06); 1.75217689e-09; (-1.49641576e-13); 1.28575200e+04; 1.34624343e+01];
  (*444 C2H6*) mkNasa 1000.00
    [4.29142492e+00; (-5.50154270e-03); 5.99438288e-05; (-7.08466285e-08); 2.68685771e-11; (-1.15222055e+04); 2.66682316e+00]
    [1.07188150e+00; 2.16852677e-02; (-1.00256067e-05); 2.21412001e-09; (-1.90002890e-13); (-1.14263932e+04); 1.51156107e+01];
  (*460 HCCO*) mkNasa 1000.00
    [2.25172140e+00; 1.76550210e-02; (-2.37291010e-05); 1.72757590e-08; (-5.06648110e-12); 2.00594490e+04; 1.24904170e+01]
    [5.62820580e+00; 4.08534010e-03; (-1.59345470e-06); 2.86260520e-10; (-1.94078320e-14); 1.93272150e+04; (-3.93025950e+00)];
  (*476 CH2CO*) mkNasa 1000.00
    [2.13583630e+00; 1.81188721e-02; (-1.73947474e-05); 9.34397568e-09; (-2.01457615e-12); (-7.04291804e+03); 1.22156480e+01]
    [4.51129732e+00; 9.00359745e-03; (-4.16939635e-06); 9.23345882e-10; (-7.94838201e-14); (-7.55105311e+03); 6.32247205e-01];
  (*492 HCCOH*) mkNasa 1000.00
    [1.24237330e+00; 3.10722010e-02; (-5.08668640e-05); 4.31371310e-08; (-1.40145940e-11); 8.03161430e+03; 1.38743190e+01]
    [5.92382910e+00; 6.79236000e-03; (-2.56585640e-06); 4.49878410e-10; (-2.99401010e-14); 7.26462600e+03; (-7.60177420e+00)];
  (*508 N*) mkNasa 1000.00
    [2.50000000e+00; 0.00000000e+00; 0.00000000e+00; 0.00000000e+00; 0.00000000e+00; 5.61046370e+04; 4.19390870e+00]
    [2.41594290e+00; 1.74890650e-04; (-1.19023690e-07); 3.02262450e-11; (-2.03609820e-15); 5.61337730e+04; 4.64960960e+00];
  (*523 NH*) mkNasa 1000.00
    [3.49290850e+00; 3.11791980e-04; (-1.48904840e-06); 2.48164420e-09; (-1.03569670e-12); 4.18806290e+04; 1.84832780e+00]
    [2.78369280e+00; 1.32984300e-03; (-4.24780470e-07); 7.83485010e-11; (-5.50444700e-15); 4.21208480e+04; 5.74077990e+00];
  (*539 NH2*) mkNasa 1000.00
    [4.20400290e+00; (-2.10613850e-03); 7.10683480e-06; (-5.61151970e-09); 1.64407170e-12; 2.18859100e+04; (-1.41842480e-01)]
    [2.83474210e+00; 3.20730820e-03; (-9.33908040e-07); 1.37029530e-10; (-7.92061440e-15); 2.21719570e+04; 6.52041630e+00];
  (*556 NH3*) mkNasa 1000.00
    [4.28602740e+00; (-4.66052300e-03); 2.17185130e-05; (-2.28088870e-08); 8.26380460e-12; (-6.74172850e+03); (-6.25372770e-01)]
    [2.63445210e+00; 5.66625600e-03; (-1.72786760e-06); 2.38671610e-10; (-1.25787860e-14); (-6.54469580e+03); 6.56629280e+00];
  (*573 NNH*) mkNasa 1000.00
    [4.34469270e+00; (-4.84970720e-03); 2.00594590e-05; (-2.17264640e-08); 7.94695390e-12; 2.87919730e+04; 2.97794100e+00]
    [3.76675440e+00; 2.89150820e-03; (-1.04166200e-06); 1.68425940e-10; (-1.00918960e-14); 2.86506970e+04; 4.47050670e+00];
  (*589 NO*) mkNasa 1000.00
    [4.21847630e+00; (-4.63897600e-03); 1.10410220e-05; (-9.33613540e-09); 2.80357700e-12; 9.84462300e+03; 2.28084640e+00]
    [3.26060560e+00; 1.19110430e-03; (-4.29170480e-07); 6.94576690e-11; (-4.03360990e-15); 9.92097460e+03; 6.36930270e+00];
  (*606 NO2*) mkNasa 1000.00
    [3.94403120e+00; (-1.58542900e-03); 1.66578120e-05; (-2.04754260e-08); 7.83505640e-12; 2.89661790e+03; 6.31199170e+00]
    [4.88475420e+00; 2.17239560e-03; (-8.28069060e-07); 1.57475100e-10; (-1.05108950e-14); 2.31649830e+03; (-1.17416950e-01)];
  (*622 N2O*) mkNasa 1000.00
    [2.25715020e+00; 1.13047280e-02; (-1.36713190e-05); 9.68198060e-09; (-2.93071820e-12); 8.74177440e+03; 1.07579920e+01]
    [4.82307290e+00; 2.62702510e-03; (-9.58508740e-07); 1.60007120e-10; (-9.77523030e-15); 8.07340480e+03; (-2.20172070e+00)];
  (*638 HNO*) mkNasa 1000.00
    [4.53349160e+00; (-5.66961710e-03); 1.84732070e-05; (-1.71370940e-08); 5.54545730e-12; 1.15482970e+04; 1.74984170e+00]
    [2.97925090e+00; 3.49440590e-03; (-7.85497780e-07); 5.74795940e-11; (-1.93359160e-16); 1.17505820e+04; 8.60637280e+00];
  (*654 CN*) mkNasa 1000.00
    [3.61293510e+00; (-9.55513270e-04); 2.14429770e-06; (-3.15163230e-10); (-4.64303560e-13); 5.17083400e+04; 3.98049950e+00]
    [3.74598050e+00; 4.34507750e-05; 2.97059840e-07; (-6.86518060e-11); 4.41341730e-15; 5.15361880e+04; 2.78676010e+00];
  (*670 HCN*) mkNasa 1000.00
    [2.25898860e+00; 1.00511700e-02; (-1.33517630e-05); 1.00923490e-08; (-3.00890280e-12); 1.47126330e+04; 8.91644190e+00]
    [3.80223920e+00; 3.14642280e-03; (-1.06321850e-06); 1.66197570e-10; (-9.79975700e-15); 1.44072920e+04; 1.57546010e+00];
  (*686 H2CN*) mkNasa 1000.00
    [2.85166100e+00; 5.69523310e-03; 1.07114000e-06; (-1.62261200e-09); (-2.35110810e-13); 2.86378200e+04; 8.99275110e+00]
    [5.20970300e+00; 2.96929110e-03; (-2.85558910e-07); (-1.63555000e-10); 3.04325890e-14; 2.76771090e+04; (-4.44447800e+00)];
  (*702 HCNN*) mkNasa 1000.00
    [2.52431940e+00; 1.59606190e-02; (-1.88163540e-05); 1.21255400e-08; (-3.23573780e-12); 5.42619840e+04; 1.16758700e+01]
    [5.89463620e+00; 3.98959590e-03; (-1.59823800e-06); 2.92493950e-10; (-2.00946860e-14); 5.34529410e+04; (-5.10305020e+00)];
  (*718 HCNO*) mkNasa 1382.00
    [2.64727989e+00; 1.27505342e-02; (-1.04794236e-05); 4.41432836e-09; (-7.57521466e-13); 1.92990252e+04; 1.07332972e+01]
    [6.59860456e+00; 3.02778626e-03; (-1.07704346e-06); 1.71666528e-10; (-1.01439391e-14); 1.79661339e+04; (-1.03306599e+01)];
  (*734 HOCN*) mkNasa 1368.00
    [3.78604952e+00; 6.88667922e-03; (-3.21487864e-06); 5.17195767e-10; 1.19360788e-14; (-2.82698400e+03); 5.63292162e+00]
    [5.89784885e+00; 3.16789393e-03; (-1.11801064e-06); 1.77243144e-10; (-1.04339177e-14); (-3.70653331e+03); (-6.18167825e+00)];
  (*750 HNCO*) mkNasa 1478.00
    [3.63096317e+00; 7.30282357e-03; (-2.28050003e-06); (-6.61271298e-10); 3.62235752e-13; (-1.55873636e+04); 6.19457727e+00]
    [6.22395134e+00; 3.17864004e-03; (-1.09378755e-06); 1.70735163e-10; (-9.95021955e-15); (-1.66599344e+04); (-8.38224741e+00)];
  (*766 NCO*) mkNasa 1000.00
    [2.82693080e+00; 8.80516880e-03; (-8.38661340e-06); 4.80169640e-09; (-1.33135950e-12); 1.46824770e+04; 9.55046460e+00]
    [5.15218450e+00; 2.30517610e-03; (-8.80331530e-07); 1.47890980e-10; (-9.09779960e-15); 1.40041230e+04; (-2.54426600e+00)];
  (*799 AR*) mkNasa 1000.00
    [2.50000000e+00; 0.00000000e+00; 0.00000000e+00; 0.00000000e+00; 0.00000000e+00; (-7.45375000e+02); 4.36600000e+00]
    [2.50000000e+00; 0.00000000e+00; 0.00000000e+00; 0.00000000e+00; 0.00000000e+00; (-7.45375000e+02); 4.36600000e+00];
  (*814 C3H7*) mkNasa 1000.00
    [1.05155180e+00; 2.59919800e-02; 2.38005400e-06; (-1.96095690e-08); 9.37324700e-12; 1.06318630e+04; 2.11225590e+01]
    [7.70269870e+00; 1.60442030e-02; (-5.28332200e-06); 7.62985900e-10; (-3.93922840e-14); 8.29843360e+03; (-1.54801800e+01)];
  (*830 C3H8*) mkNasa 1000.00
    [9.33553810e-01; 2.64245790e-02; 6.10597270e-06; (-2.19774990e-08); 9.51492530e-12; (-1.39585200e+04); 1.92016910e+01]
    [7.53413680e+00; 1.88722390e-02; (-6.27184910e-06); 9.14756490e-10; (-4.78380690e-14); (-1.64675160e+04); (-1.78923490e+01)];
  (*846 CH2CHO*) mkNasa 1000.00
    [3.40906200e+00; 1.07385740e-02; 1.89149200e-06; (-7.15858300e-09); 2.86738500e-12; 1.52147660e+03; 9.55829000e+00]
    [5.97567000e+00; 8.13059100e-03; (-2.74362400e-06); 4.07030400e-10; (-2.17601700e-14); 4.90321800e+02; (-5.04525100e+00)];
  (*862 CH3CHO*) mkNasa 1000.00
    [4.72945950e+00; (-3.19328580e-03); 4.75349210e-05; (-5.74586110e-08); 2.19311120e-11; (-2.15728780e+04); 4.10301590e+00]
    [5.40411080e+00; 1.17230590e-02; (-4.22631370e-06); 6.83724510e-10; (-4.09848630e-14); (-2.25931220e+04); (-3.48079170e+00)];
  (*782 N2*) mkNasa 1000.00
    [3.29867700e+00; 1.40824040e-03; (-3.96322200e-06); 5.64151500e-09; (-2.44485400e-12); (-1.02089990e+03); 3.95037200e+00]
    [2.92664000e+00; 1.48797680e-03; (-5.68476000e-07); 1.00970380e-10; (-6.75335100e-15); (-9.22797700e+02); 5.98052800e+00]
].

(** Rate data of the reactions of gri30/chem.cti; the number before a reaction is its line. *)
Definition gri30_kinetics : list kinetics := [
  (*883 2 O + M <=> O2 + M*) mkKin (mkArr 1.200000e+17 (-1.0) 0.0) None None;
  (*887 O + H + M <=> OH + M*) mkKin (mkArr 5.000000e+17 (-1.0) 0.0) None None;
  (*891 O + H2 <=> H + OH*) mkKin (mkArr 3.870000e+04 2.7 6260.0) None None;
  (*894 O + HO2 <=> OH + O2*) mkKin (mkArr 2.000000e+13 0.0 0.0) None None;
  (*897 O + H2O2 <=> OH + HO2*) mkKin (mkArr 9.630000e+06 2.0 4000.0) None None;
  (*900 O + CH <=> H + CO*) mkKin (mkArr 5.700000e+13 0.0 0.0) None None;
  (*903 O + CH2 <=> H + HCO*) mkKin (mkArr 8.000000e+13 0.0 0.0) None None;
  (*906 O + CH2(S) <=> H2 + CO*) mkKin (mkArr 1.500000e+13 0.0 0.0) None None;
  (*909 O + CH2(S) <=> H + HCO*) mkKin (mkArr 1.500000e+13 0.0 0.0) None None;
  (*912 O + CH3 <=> H + CH2O*) mkKin (mkArr 5.060000e+13 0.0 0.0) None None;
  (*915 O + CH4 <=> OH + CH3*) mkKin (mkArr 1.020000e+09 1.5 8600.0) None None;
  (*918 O + CO (+ M) <=> CO2 (+ M)*) mkKin (mkArr 1.800000e+10 0.0 2385.0) (Some (mkArr 6.020000e+14 0.0 3000.0)) None;
  (*924 O + HCO <=> OH + CO*) mkKin (mkArr 3.000000e+13 0.0 0.0) None None;
  (*927 O + HCO <=> H + CO2*) mkKin (mkArr 3.000000e+13 0.0 0.0) None None;
  (*930 O + CH2O <=> OH + HCO*) mkKin (mkArr 3.900000e+13 0.0 3540.0) None None;
  (*933 O + CH2OH <=> OH + CH2O*) mkKin (mkArr 1.000000e+13 0.0 0.0) None None;
  (*936 O + CH3O <=> OH + CH2O*) mkKin (mkArr 1.000000e+13 0.0 0.0) None None;
  (*939 O + CH3OH <=> OH + CH2OH*) mkKin (mkArr 3.880000e+05 2.5 3100.0) None None;
  (*942 O + CH3OH <=> OH + CH3O*) mkKin (mkArr 1.300000e+05 2.5 5000.0) None None;
  (*945 O + C2H <=> CH + CO*) mkKin (mkArr 5.000000e+13 0.0 0.0) None None;
  (*948 O + C2H2 <=> H + HCCO*) mkKin (mkArr 1.350000e+07 2.0 1900.0) None None;
  (*951 O + C2H2 <=> OH + C2H*) mkKin (mkArr 4.600000e+19 (-1.41) 28950.0) None None;
  (*954 O + C2H2 <=> CO + CH2*) mkKin (mkArr 6.940000e+06 2.0 1900.0) None None;
  (*957 O + C2H3 <=> H + CH2CO*) mkKin (mkArr 3.000000e+13 0.0 0.0) None None;
  (*960 O + C2H4 <=> CH3 + HCO*) mkKin (mkArr 1.250000e+07 1.83 220.0) None None;
  (*963 O + C2H5 <=> CH3 + CH2O*) mkKin (mkArr 2.240000e+13 0.0 0.0) None None;
  (*966 O + C2H6 <=> OH + C2H5*) mkKin (mkArr 8.980000e+07 1.92 5690.0) None None;
  (*969 O + HCCO <=> H + 2 CO*) mkKin (mkArr 1.000000e+14 0.0 0.0) None None;
  (*972 O + CH2CO <=> OH + HCCO*) mkKin (mkArr 1.000000e+13 0.0 8000.0) None None;
  (*975 O + CH2CO <=> CH2 + CO2*) mkKin (mkArr 1.750000e+12 0.0 1350.0) None None;
  (*978 O2 + CO <=> O + CO2*) mkKin (mkArr 2.500000e+12 0.0 47800.0) None None;
  (*981 O2 + CH2O <=> HO2 + HCO*) mkKin (mkArr 1.000000e+14 0.0 40000.0) None None;
  (*984 H + O2 + M <=> HO2 + M*) mkKin (mkArr 2.800000e+18 (-0.86) 0.0) None None;
  (*988 H + 2 O2 <=> HO2 + O2*) mkKin (mkArr 2.080000e+19 (-1.24) 0.0) None None;
  (*991 H + O2 + H2O <=> HO2 + H2O*) mkKin (mkArr 1.126000e+19 (-0.76) 0.0) None None;
  (*994 H + O2 + N2 <=> HO2 + N2*) mkKin (mkArr 2.600000e+19 (-1.24) 0.0) None None;
  (*997 H + O2 + AR <=> HO2 + AR*) mkKin (mkArr 7.000000e+17 (-0.8) 0.0) None None;
  (*1000 H + O2 <=> O + OH*) mkKin (mkArr 2.650000e+16 (-0.6707) 17041.0) None None;
  (*1003 2 H + M <=> H2 + M*) mkKin (mkArr 1.000000e+18 (-1.0) 0.0) None None;
  (*1007 2 H + H2 <=> 2 H2*) mkKin (mkArr 9.000000e+16 (-0.6) 0.0) None None;
  (*1010 2 H + H2O <=> H2 + H2O*) mkKin (mkArr 6.000000e+19 (-1.25) 0.0) None None;
  (*1013 2 H + CO2 <=> H2 + CO2*) mkKin (mkArr 5.500000e+20 (-2.0) 0.0) None None;
  (*1016 H + OH + M <=> H2O + M*) mkKin (mkArr 2.200000e+22 (-2.0) 0.0) None None;
  (*1020 H + HO2 <=> O + H2O*) mkKin (mkArr 3.970000e+12 0.0 671.0) None None;
  (*1023 H + HO2 <=> O2 + H2*) mkKin (mkArr 4.480000e+13 0.0 1068.0) None None;
  (*1026 H + HO2 <=> 2 OH*) mkKin (mkArr 8.400000e+13 0.0 635.0) None None;
  (*1029 H + H2O2 <=> HO2 + H2*) mkKin (mkArr 1.210000e+07 2.0 5200.0) None None;
  (*1032 H + H2O2 <=> OH + H2O*) mkKin (mkArr 1.000000e+13 0.0 3600.0) None None;
  (*1035 H + CH <=> C + H2*) mkKin (mkArr 1.650000e+14 0.0 0.0) None None;
  (*1038 H + CH2 (+ M) <=> CH3 (+ M)*) mkKin (mkArr 6.000000e+14 0.0 0.0) (Some (mkArr 1.040000e+26 (-2.76) 1600.0)) (Some (mkTroe 0.562 91.0 5836.0 (Some 8552.0)));
  (*1045 H + CH2(S) <=> CH + H2*) mkKin (mkArr 3.000000e+13 0.0 0.0) None None;
  (*1048 H + CH3 (+ M) <=> CH4 (+ M)*) mkKin (mkArr 1.390000e+16 (-0.534) 536.0) (Some (mkArr 2.620000e+33 (-4.76) 2440.0)) (Some (mkTroe 0.783 74.0 2941.0 (Some 6964.0)));
  (*1055 H + CH4 <=> CH3 + H2*) mkKin (mkArr 6.600000e+08 1.62 10840.0) None None;
  (*1058 H + HCO (+ M) <=> CH2O (+ M)*) mkKin (mkArr 1.090000e+12 0.48 (-260.0)) (Some (mkArr 2.470000e+24 (-2.57) 425.0)) (Some (mkTroe 0.7824 271.0 2755.0 (Some 6570.0)));
  (*1065 H + HCO <=> H2 + CO*) mkKin (mkArr 7.340000e+13 0.0 0.0) None None;
  (*1068 H + CH2O (+ M) <=> CH2OH (+ M)*) mkKin (mkArr 5.400000e+11 0.454 3600.0) (Some (mkArr 1.270000e+32 (-4.82) 6530.0)) (Some (mkTroe 0.7187 103.0 1291.0 (Some 4160.0)));
  (*1075 H + CH2O (+ M) <=> CH3O (+ M)*) mkKin (mkArr 5.400000e+11 0.454 2600.0) (Some (mkArr 2.200000e+30 (-4.8) 5560.0)) (Some (mkTroe 0.758 94.0 1555.0 (Some 4200.0)));
  (*1082 H + CH2O <=> HCO + H2*) mkKin (mkArr 5.740000e+07 1.9 2742.0) None None;
  (*1085 H + CH2OH (+ M) <=> CH3OH (+ M)*) mkKin (mkArr 1.055000e+12 0.5 86.0) (Some (mkArr 4.360000e+31 (-4.65) 5080.0)) (Some (mkTroe 0.6 100.0 90000.0 (Some 10000.0)));
  (*1092 H + CH2OH <=> H2 + CH2O*) mkKin (mkArr 2.000000e+13 0.0 0.0) None None;
  (*1095 H + CH2OH <=> OH + CH3*) mkKin (mkArr 1.650000e+11 0.65 (-284.0)) None None;
  (*1098 H + CH2OH <=> CH2(S) + H2O*) mkKin (mkArr 3.280000e+13 (-0.09) 610.0) None None;
  (*1101 H + CH3O (+ M) <=> CH3OH (+ M)*) mkKin (mkArr 2.430000e+12 0.515 50.0) (Some (mkArr 4.660000e+41 (-7.44) 14080.0)) (Some (mkTroe 0.7 100.0 90000.0 (Some 10000.0)));
  (*1108 H + CH3O <=> H + CH2OH*) mkKin (mkArr 4.150000e+07 1.63 1924.0) None None;
  (*1111 H + CH3O <=> H2 + CH2O*) mkKin (mkArr 2.000000e+13 0.0 0.0) None None;
  (*1114 H + CH3O <=> OH + CH3*) mkKin (mkArr 1.500000e+12 0.5 (-110.0)) None None;
  (*1117 H + CH3O <=> CH2(S) + H2O*) mkKin (mkArr 2.620000e+14 (-0.23) 1070.0) None None;
  (*1120 H + CH3OH <=> CH2OH + H2*) mkKin (mkArr 1.700000e+07 2.1 4870.0) None None;
  (*1123 H + CH3OH <=> CH3O + H2*) mkKin (mkArr 4.200000e+06 2.1 4870.0) None None;
  (*1126 H + C2H (+ M) <=> C2H2 (+ M)*) mkKin (mkArr 1.000000e+17 (-1.0) 0.0) (Some (mkArr 3.750000e+33 (-4.8) 1900.0)) (Some (mkTroe 0.6464 132.0 1315.0 (Some 5566.0)));
  (*1133 H + C2H2 (+ M) <=> C2H3 (+ M)*) mkKin (mkArr 5.600000e+12 0.0 2400.0) (Some (mkArr 3.800000e+40 (-7.27) 7220.0)) (Some (mkTroe 0.7507 98.5 1302.0 (Some 4167.0)));
  (*1140 H + C2H3 (+ M) <=> C2H4 (+ M)*) mkKin (mkArr 6.080000e+12 0.27 280.0) (Some (mkArr 1.400000e+30 (-3.86) 3320.0)) (Some (mkTroe 0.782 207.5 2663.0 (Some 6095.0)));
  (*1147 H + C2H3 <=> H2 + C2H2*) mkKin (mkArr 3.000000e+13 0.0 0.0) None None;
  (*1150 H + C2H4 (+ M) <=> C2H5 (+ M)*) mkKin (mkArr 5.400000e+11 0.454 1820.0) (Some (mkArr 6.000000e+41 (-7.62) 6970.0)) (Some (mkTroe 0.9753 210.0 984.0 (Some 4374.0)));
  (*1157 H + C2H4 <=> C2H3 + H2*) mkKin (mkArr 1.325000e+06 2.53 12240.0) None None;
  (*1160 H + C2H5 (+ M) <=> C2H6 (+ M)*) mkKin (mkArr 5.210000e+17 (-0.99) 1580.0) (Some (mkArr 1.990000e+41 (-7.08) 6685.0)) (Some (mkTroe 0.8422 125.0 2219.0 (Some 6882.0)));
  (*1167 H + C2H5 <=> H2 + C2H4*) mkKin (mkArr 2.000000e+12 0.0 0.0) None None;
  (*1170 H + C2H6 <=> C2H5 + H2*) mkKin (mkArr 1.150000e+08 1.9 7530.0) None None;
  (*1173 H + HCCO <=> CH2(S) + CO*) mkKin (mkArr 1.000000e+14 0.0 0.0) None None;
  (*1176 H + CH2CO <=> HCCO + H2*) mkKin (mkArr 5.000000e+13 0.0 8000.0) None None;
  (*1179 H + CH2CO <=> CH3 + CO*) mkKin (mkArr 1.130000e+13 0.0 3428.0) None None;
  (*1182 H + HCCOH <=> H + CH2CO*) mkKin (mkArr 1.000000e+13 0.0 0.0) None None;
  (*1185 H2 + CO (+ M) <=> CH2O (+ M)*) mkKin (mkArr 4.300000e+07 1.5 79600.0) (Some (mkArr 5.070000e+27 (-3.42) 84350.0)) (Some (mkTroe 0.932 197.0 1540.0 (Some 10300.0)));
  (*1192 OH + H2 <=> H + H2O*) mkKin (mkArr 2.160000e+08 1.51 3430.0) None None;
  (*1195 2 OH (+ M) <=> H2O2 (+ M)*) mkKin (mkArr 7.400000e+13 (-0.37) 0.0) (Some (mkArr 2.300000e+18 (-0.9) (-1700.0))) (Some (mkTroe 0.7346 94.0 1756.0 (Some 5182.0)));
  (*1202 2 OH <=> O + H2O*) mkKin (mkArr 3.570000e+04 2.4 (-2110.0)) None None;
  (*1205 OH + HO2 <=> O2 + H2O*) mkKin (mkArr 1.450000e+13 0.0 (-500.0)) None None;
  (*1209 OH + H2O2 <=> HO2 + H2O*) mkKin (mkArr 2.000000e+12 0.0 427.0) None None;
  (*1213 OH + H2O2 <=> HO2 + H2O*) mkKin (mkArr 1.700000e+18 0.0 29410.0) None None;
  (*1217 OH + C <=> H + CO*) mkKin (mkArr 5.000000e+13 0.0 0.0) None None;
  (*1220 OH + CH <=> H + HCO*) mkKin (mkArr 3.000000e+13 0.0 0.0) None None;
  (*1223 OH + CH2 <=> H + CH2O*) mkKin (mkArr 2.000000e+13 0.0 0.0) None None;
  (*1226 OH + CH2 <=> CH + H2O*) mkKin (mkArr 1.130000e+07 2.0 3000.0) None None;
  (*1229 OH + CH2(S) <=> H + CH2O*) mkKin (mkArr 3.000000e+13 0.0 0.0) None None;
  (*1232 OH + CH3 (+ M) <=> CH3OH (+ M)*) mkKin (mkArr 2.790000e+18 (-1.43) 1330.0) (Some (mkArr 4.000000e+36 (-5.92) 3140.0)) (Some (mkTroe 0.412 195.0 5900.0 (Some 6394.0)));
  (*1239 OH + CH3 <=> CH2 + H2O*) mkKin (mkArr 5.600000e+07 1.6 5420.0) None None;
  (*1242 OH + CH3 <=> CH2(S) + H2O*) mkKin (mkArr 6.440000e+17 (-1.34) 1417.0) None None;
  (*1245 OH + CH4 <=> CH3 + H2O*) mkKin (mkArr 1.000000e+08 1.6 3120.0) None None;
  (*1248 OH + CO <=> H + CO2*) mkKin (mkArr 4.760000e+07 1.228 70.0) None None;
  (*1251 OH + HCO <=> H2O + CO*) mkKin (mkArr 5.000000e+13 0.0 0.0) None None;
  (*1254 OH + CH2O <=> HCO + H2O*) mkKin (mkArr 3.430000e+09 1.18 (-447.0)) None None;
  (*1257 OH + CH2OH <=> H2O + CH2O*) mkKin (mkArr 5.000000e+12 0.0 0.0) None None;
  (*1260 OH + CH3O <=> H2O + CH2O*) mkKin (mkArr 5.000000e+12 0.0 0.0) None None;
  (*1263 OH + CH3OH <=> CH2OH + H2O*) mkKin (mkArr 1.440000e+06 2.0 (-840.0)) None None;
  (*1266 OH + CH3OH <=> CH3O + H2O*) mkKin (mkArr 6.300000e+06 2.0 1500.0) None None;
  (*1269 OH + C2H <=> H + HCCO*) mkKin (mkArr 2.000000e+13 0.0 0.0) None None;
  (*1272 OH + C2H2 <=> H + CH2CO*) mkKin (mkArr 2.180000e-04 4.5 (-1000.0)) None None;
  (*1275 OH + C2H2 <=> H + HCCOH*) mkKin (mkArr 5.040000e+05 2.3 13500.0) None None;
  (*1278 OH + C2H2 <=> C2H + H2O*) mkKin (mkArr 3.370000e+07 2.0 14000.0) None None;
  (*1281 OH + C2H2 <=> CH3 + CO*) mkKin (mkArr 4.830000e-04 4.0 (-2000.0)) None None;
  (*1284 OH + C2H3 <=> H2O + C2H2*) mkKin (mkArr 5.000000e+12 0.0 0.0) None None;
  (*1287 OH + C2H4 <=> C2H3 + H2O*) mkKin (mkArr 3.600000e+06 2.0 2500.0) None None;
  (*1290 OH + C2H6 <=> C2H5 + H2O*) mkKin (mkArr 3.540000e+06 2.12 870.0) None None;
  (*1293 OH + CH2CO <=> HCCO + H2O*) mkKin (mkArr 7.500000e+12 0.0 2000.0) None None;
  (*1296 2 HO2 <=> O2 + H2O2*) mkKin (mkArr 1.300000e+11 0.0 (-1630.0)) None None;
  (*1300 2 HO2 <=> O2 + H2O2*) mkKin (mkArr 4.200000e+14 0.0 12000.0) None None;
  (*1304 HO2 + CH2 <=> OH + CH2O*) mkKin (mkArr 2.000000e+13 0.0 0.0) None None;
  (*1307 HO2 + CH3 <=> O2 + CH4*) mkKin (mkArr 1.000000e+12 0.0 0.0) None None;
  (*1310 HO2 + CH3 <=> OH + CH3O*) mkKin (mkArr 3.780000e+13 0.0 0.0) None None;
  (*1313 HO2 + CO <=> OH + CO2*) mkKin (mkArr 1.500000e+14 0.0 23600.0) None None;
  (*1316 HO2 + CH2O <=> HCO + H2O2*) mkKin (mkArr 5.600000e+06 2.0 12000.0) None None;
  (*1319 C + O2 <=> O + CO*) mkKin (mkArr 5.800000e+13 0.0 576.0) None None;
  (*1322 C + CH2 <=> H + C2H*) mkKin (mkArr 5.000000e+13 0.0 0.0) None None;
  (*1325 C + CH3 <=> H + C2H2*) mkKin (mkArr 5.000000e+13 0.0 0.0) None None;
  (*1328 CH + O2 <=> O + HCO*) mkKin (mkArr 6.710000e+13 0.0 0.0) None None;
  (*1331 CH + H2 <=> H + CH2*) mkKin (mkArr 1.080000e+14 0.0 3110.0) None None;
  (*1334 CH + H2O <=> H + CH2O*) mkKin (mkArr 5.710000e+12 0.0 (-755.0)) None None;
  (*1337 CH + CH2 <=> H + C2H2*) mkKin (mkArr 4.000000e+13 0.0 0.0) None None;
  (*1340 CH + CH3 <=> H + C2H3*) mkKin (mkArr 3.000000e+13 0.0 0.0) None None;
  (*1343 CH + CH4 <=> H + C2H4*) mkKin (mkArr 6.000000e+13 0.0 0.0) None None;
  (*1346 CH + CO (+ M) <=> HCCO (+ M)*) mkKin (mkArr 5.000000e+13 0.0 0.0) (Some (mkArr 2.690000e+28 (-3.74) 1936.0)) (Some (mkTroe 0.5757 237.0 1652.0 (Some 5069.0)));
  (*1353 CH + CO2 <=> HCO + CO*) mkKin (mkArr 1.900000e+14 0.0 15792.0) None None;
  (*1356 CH + CH2O <=> H + CH2CO*) mkKin (mkArr 9.460000e+13 0.0 (-515.0)) None None;
  (*1359 CH + HCCO <=> CO + C2H2*) mkKin (mkArr 5.000000e+13 0.0 0.0) None None;
  (*1362 CH2 + O2 => OH + H + CO*) mkKin (mkArr 5.000000e+12 0.0 1500.0) None None;
  (*1365 CH2 + H2 <=> H + CH3*) mkKin (mkArr 5.000000e+05 2.0 7230.0) None None;
  (*1368 2 CH2 <=> H2 + C2H2*) mkKin (mkArr 1.600000e+15 0.0 11944.0) None None;
  (*1371 CH2 + CH3 <=> H + C2H4*) mkKin (mkArr 4.000000e+13 0.0 0.0) None None;
  (*1374 CH2 + CH4 <=> 2 CH3*) mkKin (mkArr 2.460000e+06 2.0 8270.0) None None;
  (*1377 CH2 + CO (+ M) <=> CH2CO (+ M)*) mkKin (mkArr 8.100000e+11 0.5 4510.0) (Some (mkArr 2.690000e+33 (-5.11) 7095.0)) (Some (mkTroe 0.5907 275.0 1226.0 (Some 5185.0)));
  (*1384 CH2 + HCCO <=> C2H3 + CO*) mkKin (mkArr 3.000000e+13 0.0 0.0) None None;
  (*1387 CH2(S) + N2 <=> CH2 + N2*) mkKin (mkArr 1.500000e+13 0.0 600.0) None None;
  (*1390 CH2(S) + AR <=> CH2 + AR*) mkKin (mkArr 9.000000e+12 0.0 600.0) None None;
  (*1393 CH2(S) + O2 <=> H + OH + CO*) mkKin (mkArr 2.800000e+13 0.0 0.0) None None;
  (*1396 CH2(S) + O2 <=> CO + H2O*) mkKin (mkArr 1.200000e+13 0.0 0.0) None None;
  (*1399 CH2(S) + H2 <=> CH3 + H*) mkKin (mkArr 7.000000e+13 0.0 0.0) None None;
  (*1402 CH2(S) + H2O (+ M) <=> CH3OH (+ M)*) mkKin (mkArr 4.820000e+17 (-1.16) 1145.0) (Some (mkArr 1.880000e+38 (-6.36) 5040.0)) (Some (mkTroe 0.6027 208.0 3922.0 (Some 10180.0)));
  (*1409 CH2(S) + H2O <=> CH2 + H2O*) mkKin (mkArr 3.000000e+13 0.0 0.0) None None;
  (*1412 CH2(S) + CH3 <=> H + C2H4*) mkKin (mkArr 1.200000e+13 0.0 (-570.0)) None None;
  (*1415 CH2(S) + CH4 <=> 2 CH3*) mkKin (mkArr 1.600000e+13 0.0 (-570.0)) None None;
  (*1418 CH2(S) + CO <=> CH2 + CO*) mkKin (mkArr 9.000000e+12 0.0 0.0) None None;
  (*1421 CH2(S) + CO2 <=> CH2 + CO2*) mkKin (mkArr 7.000000e+12 0.0 0.0) None None;
  (*1424 CH2(S) + CO2 <=> CO + CH2O*) mkKin (mkArr 1.400000e+13 0.0 0.0) None None;
  (*1427 CH2(S) + C2H6 <=> CH3 + C2H5*) mkKin (mkArr 4.000000e+13 0.0 (-550.0)) None None;
  (*1430 CH3 + O2 <=> O + CH3O*) mkKin (mkArr 3.560000e+13 0.0 30480.0) None None;
  (*1433 CH3 + O2 <=> OH + CH2O*) mkKin (mkArr 2.310000e+12 0.0 20315.0) None None;
  (*1436 CH3 + H2O2 <=> HO2 + CH4*) mkKin (mkArr 2.450000e+04 2.47 5180.0) None None;
  (*1439 2 CH3 (+ M) <=> C2H6 (+ M)*) mkKin (mkArr 6.770000e+16 (-1.18) 654.0) (Some (mkArr 3.400000e+41 (-7.03) 2762.0)) (Some (mkTroe 0.619 73.2 1180.0 (Some 9999.0)));
  (*1446 2 CH3 <=> H + C2H5*) mkKin (mkArr 6.840000e+12 0.1 10600.0) None None;
  (*1449 CH3 + HCO <=> CH4 + CO*) mkKin (mkArr 2.648000e+13 0.0 0.0) None None;
  (*1452 CH3 + CH2O <=> HCO + CH4*) mkKin (mkArr 3.320000e+03 2.81 5860.0) None None;
  (*1455 CH3 + CH3OH <=> CH2OH + CH4*) mkKin (mkArr 3.000000e+07 1.5 9940.0) None None;
  (*1458 CH3 + CH3OH <=> CH3O + CH4*) mkKin (mkArr 1.000000e+07 1.5 9940.0) None None;
  (*1461 CH3 + C2H4 <=> C2H3 + CH4*) mkKin (mkArr 2.270000e+05 2.0 9200.0) None None;
  (*1464 CH3 + C2H6 <=> C2H5 + CH4*) mkKin (mkArr 6.140000e+06 1.74 10450.0) None None;
  (*1467 HCO + H2O <=> H + CO + H2O*) mkKin (mkArr 1.500000e+18 (-1.0) 17000.0) None None;
  (*1470 HCO + M <=> H + CO + M*) mkKin (mkArr 1.870000e+17 (-1.0) 17000.0) None None;
  (*1474 HCO + O2 <=> HO2 + CO*) mkKin (mkArr 1.345000e+13 0.0 400.0) None None;
  (*1477 CH2OH + O2 <=> HO2 + CH2O*) mkKin (mkArr 1.800000e+13 0.0 900.0) None None;
  (*1480 CH3O + O2 <=> HO2 + CH2O*) mkKin (mkArr 4.280000e-13 7.6 (-3530.0)) None None;
  (*1483 C2H + O2 <=> HCO + CO*) mkKin (mkArr 1.000000e+13 0.0 (-755.0)) None None;
  (*1486 C2H + H2 <=> H + C2H2*) mkKin (mkArr 5.680000e+10 0.9 1993.0) None None;
  (*1489 C2H3 + O2 <=> HCO + CH2O*) mkKin (mkArr 4.580000e+16 (-1.39) 1015.0) None None;
  (*1492 C2H4 (+ M) <=> H2 + C2H2 (+ M)*) mkKin (mkArr 8.000000e+12 0.44 86770.0) (Some (mkArr 1.580000e+51 (-9.3) 97800.0)) (Some (mkTroe 0.7345 180.0 1035.0 (Some 5417.0)));
  (*1499 C2H5 + O2 <=> HO2 + C2H4*) mkKin (mkArr 8.400000e+11 0.0 3875.0) None None;
  (*1502 HCCO + O2 <=> OH + 2 CO*) mkKin (mkArr 3.200000e+12 0.0 854.0) None None;
  (*1505 2 HCCO <=> 2 CO + C2H2*) mkKin (mkArr 1.000000e+13 0.0 0.0) None None;
  (*1508 N + NO <=> N2 + O*) mkKin (mkArr 2.700000e+13 0.0 355.0) None None;
  (*1511 N + O2 <=> NO + O*) mkKin (mkArr 9.000000e+09 1.0 6500.0) None None;
  (*1514 N + OH <=> NO + H*) mkKin (mkArr 3.360000e+13 0.0 385.0) None None;
  (*1517 N2O + O <=> N2 + O2*) mkKin (mkArr 1.400000e+12 0.0 10810.0) None None;
  (*1520 N2O + O <=> 2 NO*) mkKin (mkArr 2.900000e+13 0.0 23150.0) None None;
  (*1523 N2O + H <=> N2 + OH*) mkKin (mkArr 3.870000e+14 0.0 18880.0) None None;
  (*1526 N2O + OH <=> N2 + HO2*) mkKin (mkArr 2.000000e+12 0.0 21060.0) None None;
  (*1529 N2O (+ M) <=> N2 + O (+ M)*) mkKin (mkArr 7.910000e+10 0.0 56020.0) (Some (mkArr 6.370000e+14 0.0 56640.0)) None;
  (*1535 HO2 + NO <=> NO2 + OH*) mkKin (mkArr 2.110000e+12 0.0 (-480.0)) None None;
  (*1538 NO + O + M <=> NO2 + M*) mkKin (mkArr 1.060000e+20 (-1.41) 0.0) None None;
  (*1542 NO2 + O <=> NO + O2*) mkKin (mkArr 3.900000e+12 0.0 (-240.0)) None None;
  (*1545 NO2 + H <=> NO + OH*) mkKin (mkArr 1.320000e+14 0.0 360.0) None None;
  (*1548 NH + O <=> NO + H*) mkKin (mkArr 4.000000e+13 0.0 0.0) None None;
  (*1551 NH + H <=> N + H2*) mkKin (mkArr 3.200000e+13 0.0 330.0) None None;
  (*1554 NH + OH <=> HNO + H*) mkKin (mkArr 2.000000e+13 0.0 0.0) None None;
  (*1557 NH + OH <=> N + H2O*) mkKin (mkArr 2.000000e+09 1.2 0.0) None None;
  (*1560 NH + O2 <=> HNO + O*) mkKin (mkArr 4.610000e+05 2.0 6500.0) None None;
  (*1563 NH + O2 <=> NO + OH*) mkKin (mkArr 1.280000e+06 1.5 100.0) None None;
  (*1566 NH + N <=> N2 + H*) mkKin (mkArr 1.500000e+13 0.0 0.0) None None;
  (*1569 NH + H2O <=> HNO + H2*) mkKin (mkArr 2.000000e+13 0.0 13850.0) None None;
  (*1572 NH + NO <=> N2 + OH*) mkKin (mkArr 2.160000e+13 (-0.23) 0.0) None None;
  (*1575 NH + NO <=> N2O + H*) mkKin (mkArr 3.650000e+14 (-0.45) 0.0) None None;
  (*1578 NH2 + O <=> OH + NH*) mkKin (mkArr 3.000000e+12 0.0 0.0) None None;
  (*1581 NH2 + O <=> H + HNO*) mkKin (mkArr 3.900000e+13 0.0 0.0) None None;
  (*1584 NH2 + H <=> NH + H2*) mkKin (mkArr 4.000000e+13 0.0 3650.0) None None;
  (*1587 NH2 + OH <=> NH + H2O*) mkKin (mkArr 9.000000e+07 1.5 (-460.0)) None None;
  (*1590 NNH <=> N2 + H*) mkKin (mkArr 3.300000e+08 0.0 0.0) None None;
  (*1593 NNH + M <=> N2 + H + M*) mkKin (mkArr 1.300000e+14 (-0.11) 4980.0) None None;
  (*1597 NNH + O2 <=> HO2 + N2*) mkKin (mkArr 5.000000e+12 0.0 0.0) None None;
  (*1600 NNH + O <=> OH + N2*) mkKin (mkArr 2.500000e+13 0.0 0.0) None None;
  (*1603 NNH + O <=> NH + NO*) mkKin (mkArr 7.000000e+13 0.0 0.0) None None;
  (*1606 NNH + H <=> H2 + N2*) mkKin (mkArr 5.000000e+13 0.0 0.0) None None;
  (*1609 NNH + OH <=> H2O + N2*) mkKin (mkArr 2.000000e+13 0.0 0.0) None None;
  (*1612 NNH + CH3 <=> CH4 + N2*) mkKin (mkArr 2.500000e+13 0.0 0.0) None None;
  (*1615 H + NO + M <=> HNO + M*) mkKin (mkArr 4.480000e+19 (-1.32) 740.0) None None;
  (*1619 HNO + O <=> NO + OH*) mkKin (mkArr 2.500000e+13 0.0 0.0) None None;
  (*1622 HNO + H <=> H2 + NO*) mkKin (mkArr 9.000000e+11 0.72 660.0) None None;
  (*1625 HNO + OH <=> NO + H2O*) mkKin (mkArr 1.300000e+07 1.9 (-950.0)) None None;
  (*1628 HNO + O2 <=> HO2 + NO*) mkKin (mkArr 1.000000e+13 0.0 13000.0) None None;
  (*1631 CN + O <=> CO + N*) mkKin (mkArr 7.700000e+13 0.0 0.0) None None;
  (*1634 CN + OH <=> NCO + H*) mkKin (mkArr 4.000000e+13 0.0 0.0) None None;
  (*1637 CN + H2O <=> HCN + OH*) mkKin (mkArr 8.000000e+12 0.0 7460.0) None None;
  (*1640 CN + O2 <=> NCO + O*) mkKin (mkArr 6.140000e+12 0.0 (-440.0)) None None;
  (*1643 CN + H2 <=> HCN + H*) mkKin (mkArr 2.950000e+05 2.45 2240.0) None None;
  (*1646 NCO + O <=> NO + CO*) mkKin (mkArr 2.350000e+13 0.0 0.0) None None;
  (*1649 NCO + H <=> NH + CO*) mkKin (mkArr 5.400000e+13 0.0 0.0) None None;
  (*1652 NCO + OH <=> NO + H + CO*) mkKin (mkArr 2.500000e+12 0.0 0.0) None None;
  (*1655 NCO + N <=> N2 + CO*) mkKin (mkArr 2.000000e+13 0.0 0.0) None None;
  (*1658 NCO + O2 <=> NO + CO2*) mkKin (mkArr 2.000000e+12 0.0 20000.0) None None;
  (*1661 NCO + M <=> N + CO + M*) mkKin (mkArr 3.100000e+14 0.0 54050.0) None None;
  (*1665 NCO + NO <=> N2O + CO*) mkKin (mkArr 1.900000e+17 (-1.52) 740.0) None None;
  (*1668 NCO + NO <=> N2 + CO2*) mkKin (mkArr 3.800000e+18 (-2.0) 800.0) None None;
  (*1671 HCN + M <=> H + CN + M*) mkKin (mkArr 1.040000e+29 (-3.3) 126600.0) None None;
  (*1675 HCN + O <=> NCO + H*) mkKin (mkArr 2.030000e+04 2.64 4980.0) None None;
  (*1678 HCN + O <=> NH + CO*) mkKin (mkArr 5.070000e+03 2.64 4980.0) None None;
  (*1681 HCN + O <=> CN + OH*) mkKin (mkArr 3.910000e+09 1.58 26600.0) None None;
  (*1684 HCN + OH <=> HOCN + H*) mkKin (mkArr 1.100000e+06 2.03 13370.0) None None;
  (*1687 HCN + OH <=> HNCO + H*) mkKin (mkArr 4.400000e+03 2.26 6400.0) None None;
  (*1690 HCN + OH <=> NH2 + CO*) mkKin (mkArr 1.600000e+02 2.56 9000.0) None None;
  (*1693 H + HCN (+ M) <=> H2CN (+ M)*) mkKin (mkArr 3.300000e+13 0.0 0.0) (Some (mkArr 1.400000e+26 (-3.4) 1900.0)) None;
  (*1699 H2CN + N <=> N2 + CH2*) mkKin (mkArr 6.000000e+13 0.0 400.0) None None;
  (*1702 C + N2 <=> CN + N*) mkKin (mkArr 6.300000e+13 0.0 46020.0) None None;
  (*1705 CH + N2 <=> HCN + N*) mkKin (mkArr 3.120000e+09 0.88 20130.0) None None;
  (*1708 CH + N2 (+ M) <=> HCNN (+ M)*) mkKin (mkArr 3.100000e+12 0.15 0.0) (Some (mkArr 1.300000e+25 (-3.16) 740.0)) (Some (mkTroe 0.667 235.0 2117.0 (Some 4536.0)));
  (*1715 CH2 + N2 <=> HCN + NH*) mkKin (mkArr 1.000000e+13 0.0 74000.0) None None;
  (*1718 CH2(S) + N2 <=> NH + HCN*) mkKin (mkArr 1.000000e+11 0.0 65000.0) None None;
  (*1721 C + NO <=> CN + O*) mkKin (mkArr 1.900000e+13 0.0 0.0) None None;
  (*1724 C + NO <=> CO + N*) mkKin (mkArr 2.900000e+13 0.0 0.0) None None;
  (*1727 CH + NO <=> HCN + O*) mkKin (mkArr 4.100000e+13 0.0 0.0) None None;
  (*1730 CH + NO <=> H + NCO*) mkKin (mkArr 1.620000e+13 0.0 0.0) None None;
  (*1733 CH + NO <=> N + HCO*) mkKin (mkArr 2.460000e+13 0.0 0.0) None None;
  (*1736 CH2 + NO <=> H + HNCO*) mkKin (mkArr 3.100000e+17 (-1.38) 1270.0) None None;
  (*1739 CH2 + NO <=> OH + HCN*) mkKin (mkArr 2.900000e+14 (-0.69) 760.0) None None;
  (*1742 CH2 + NO <=> H + HCNO*) mkKin (mkArr 3.800000e+13 (-0.36) 580.0) None None;
  (*1745 CH2(S) + NO <=> H + HNCO*) mkKin (mkArr 3.100000e+17 (-1.38) 1270.0) None None;
  (*1748 CH2(S) + NO <=> OH + HCN*) mkKin (mkArr 2.900000e+14 (-0.69) 760.0) None None;
  (*1751 CH2(S) + NO <=> H + HCNO*) mkKin (mkArr 3.800000e+13 (-0.36) 580.0) None None;
  (*1754 CH3 + NO <=> HCN + H2O*) mkKin (mkArr 9.600000e+13 0.0 28800.0) None None;
  (*1757 CH3 + NO <=> H2CN + OH*) mkKin (mkArr 1.000000e+12 0.0 21750.0) None None;
  (*1760 HCNN + O <=> CO + H + N2*) mkKin (mkArr 2.200000e+13 0.0 0.0) None None;
  (*1763 HCNN + O <=> HCN + NO*) mkKin (mkArr 2.000000e+12 0.0 0.0) None None;
  (*1766 HCNN + O2 <=> O + HCO + N2*) mkKin (mkArr 1.200000e+13 0.0 0.0) None None;
  (*1769 HCNN + OH <=> H + HCO + N2*) mkKin (mkArr 1.200000e+13 0.0 0.0) None None;
  (*1772 HCNN + H <=> CH2 + N2*) mkKin (mkArr 1.000000e+14 0.0 0.0) None None;
  (*1775 HNCO + O <=> NH + CO2*) mkKin (mkArr 9.800000e+07 1.41 8500.0) None None;
  (*1778 HNCO + O <=> HNO + CO*) mkKin (mkArr 1.500000e+08 1.57 44000.0) None None;
  (*1781 HNCO + O <=> NCO + OH*) mkKin (mkArr 2.200000e+06 2.11 11400.0) None None;
  (*1784 HNCO + H <=> NH2 + CO*) mkKin (mkArr 2.250000e+07 1.7 3800.0) None None;
  (*1787 HNCO + H <=> H2 + NCO*) mkKin (mkArr 1.050000e+05 2.5 13300.0) None None;
  (*1790 HNCO + OH <=> NCO + H2O*) mkKin (mkArr 3.300000e+07 1.5 3600.0) None None;
  (*1793 HNCO + OH <=> NH2 + CO2*) mkKin (mkArr 3.300000e+06 1.5 3600.0) None None;
  (*1796 HNCO + M <=> NH + CO + M*) mkKin (mkArr 1.180000e+16 0.0 84720.0) None None;
  (*1800 HCNO + H <=> H + HNCO*) mkKin (mkArr 2.100000e+15 (-0.69) 2850.0) None None;
  (*1803 HCNO + H <=> OH + HCN*) mkKin (mkArr 2.700000e+11 0.18 2120.0) None None;
  (*1806 HCNO + H <=> NH2 + CO*) mkKin (mkArr 1.700000e+14 (-0.75) 2890.0) None None;
  (*1809 HOCN + H <=> H + HNCO*) mkKin (mkArr 2.000000e+07 2.0 2000.0) None None;
  (*1812 HCCO + NO <=> HCNO + CO*) mkKin (mkArr 9.000000e+12 0.0 0.0) None None;
  (*1815 CH3 + N <=> H2CN + H*) mkKin (mkArr 6.100000e+14 (-0.31) 290.0) None None;
  (*1818 CH3 + N <=> HCN + H2*) mkKin (mkArr 3.700000e+12 0.15 (-90.0)) None None;
  (*1821 NH3 + H <=> NH2 + H2*) mkKin (mkArr 5.400000e+05 2.4 9915.0) None None;
  (*1824 NH3 + OH <=> NH2 + H2O*) mkKin (mkArr 5.000000e+07 1.6 955.0) None None;
  (*1827 NH3 + O <=> NH2 + OH*) mkKin (mkArr 9.400000e+06 1.94 6460.0) None None;
  (*1830 NH + CO2 <=> HNO + CO*) mkKin (mkArr 1.000000e+13 0.0 14350.0) None None;
  (*1833 CN + NO2 <=> NCO + NO*) mkKin (mkArr 6.160000e+15 (-0.752) 345.0) None None;
  (*1836 NCO + NO2 <=> N2O + CO2*) mkKin (mkArr 3.250000e+12 0.0 (-705.0)) None None;
  (*1839 N + CO2 <=> NO + CO*) mkKin (mkArr 3.000000e+12 0.0 11300.0) None None;
  (*1842 O + CH3 => H + H2 + CO*) mkKin (mkArr 3.370000e+13 0.0 0.0) None None;
  (*1845 O + C2H4 <=> H + CH2CHO*) mkKin (mkArr 6.700000e+06 1.83 220.0) None None;
  (*1848 O + C2H5 <=> H + CH3CHO*) mkKin (mkArr 1.096000e+14 0.0 0.0) None None;
  (*1851 OH + HO2 <=> O2 + H2O*) mkKin (mkArr 5.000000e+15 0.0 17330.0) None None;
  (*1855 OH + CH3 => H2 + CH2O*) mkKin (mkArr 8.000000e+09 0.5 (-1755.0)) None None;
  (*1858 CH + H2 (+ M) <=> CH3 (+ M)*) mkKin (mkArr 1.970000e+12 0.43 (-370.0)) (Some (mkArr 4.820000e+25 (-2.8) 590.0)) (Some (mkTroe 0.578 122.0 2535.0 (Some 9365.0)));
  (*1865 CH2 + O2 => 2 H + CO2*) mkKin (mkArr 5.800000e+12 0.0 1500.0) None None;
  (*1868 CH2 + O2 <=> O + CH2O*) mkKin (mkArr 2.400000e+12 0.0 1500.0) None None;
  (*1871 CH2 + CH2 => 2 H + C2H2*) mkKin (mkArr 2.000000e+14 0.0 10989.0) None None;
  (*1874 CH2(S) + H2O => H2 + CH2O*) mkKin (mkArr 6.820000e+10 0.25 (-935.0)) None None;
  (*1877 C2H3 + O2 <=> O + CH2CHO*) mkKin (mkArr 3.030000e+11 0.29 11.0) None None;
  (*1880 C2H3 + O2 <=> HO2 + C2H2*) mkKin (mkArr 1.337000e+06 1.61 (-384.0)) None None;
  (*1883 O + CH3CHO <=> OH + CH2CHO*) mkKin (mkArr 2.920000e+12 0.0 1808.0) None None;
  (*1886 O + CH3CHO => OH + CH3 + CO*) mkKin (mkArr 2.920000e+12 0.0 1808.0) None None;
  (*1889 O2 + CH3CHO => HO2 + CH3 + CO*) mkKin (mkArr 3.010000e+13 0.0 39150.0) None None;
  (*1892 H + CH3CHO <=> CH2CHO + H2*) mkKin (mkArr 2.050000e+09 1.16 2405.0) None None;
  (*1895 H + CH3CHO => CH3 + H2 + CO*) mkKin (mkArr 2.050000e+09 1.16 2405.0) None None;
  (*1898 OH + CH3CHO => CH3 + H2O + CO*) mkKin (mkArr 2.343000e+10 0.73 (-1113.0)) None None;
  (*1901 HO2 + CH3CHO => CH3 + H2O2 + CO*) mkKin (mkArr 3.010000e+12 0.0 11923.0) None None;
  (*1904 CH3 + CH3CHO => CH3 + CH4 + CO*) mkKin (mkArr 2.720000e+06 1.77 5920.0) None None;
  (*1907 H + CH2CO (+ M) <=> CH2CHO (+ M)*) mkKin (mkArr 4.865000e+11 0.422 (-1755.0)) (Some (mkArr 1.012000e+42 (-7.63) 3854.0)) (Some (mkTroe 0.465 201.0 1773.0 (Some 5333.0)));
  (*1914 O + CH2CHO => H + CH2 + CO2*) mkKin (mkArr 1.500000e+14 0.0 0.0) None None;
  (*1917 O2 + CH2CHO => OH + CO + CH2O*) mkKin (mkArr 1.810000e+10 0.0 0.0) None None;
  (*1920 O2 + CH2CHO => OH + 2 HCO*) mkKin (mkArr 2.350000e+10 0.0 0.0) None None;
  (*1923 H + CH2CHO <=> CH3 + HCO*) mkKin (mkArr 2.200000e+13 0.0 0.0) None None;
  (*1926 H + CH2CHO <=> CH2CO + H2*) mkKin (mkArr 1.100000e+13 0.0 0.0) None None;
  (*1929 OH + CH2CHO <=> H2O + CH2CO*) mkKin (mkArr 1.200000e+13 0.0 0.0) None None;
  (*1932 OH + CH2CHO <=> HCO + CH2OH*) mkKin (mkArr 3.010000e+13 0.0 0.0) None None;
  (*1935 CH3 + C2H5 (+ M) <=> C3H8 (+ M)*) mkKin (mkArr 9.430000e+12 0.0 0.0) (Some (mkArr 2.710000e+74 (-16.82) 13065.0)) (Some (mkTroe 0.1527 291.0 2742.0 (Some 7748.0)));
  (*1942 O + C3H8 <=> OH + C3H7*) mkKin (mkArr 1.930000e+05 2.68 3716.0) None None;
  (*1945 H + C3H8 <=> C3H7 + H2*) mkKin (mkArr 1.320000e+06 2.54 6756.0) None None;
  (*1948 OH + C3H8 <=> C3H7 + H2O*) mkKin (mkArr 3.160000e+07 1.8 934.0) None None;
  (*1951 C3H7 + H2O2 <=> HO2 + C3H8*) mkKin (mkArr 3.780000e+02 2.72 1500.0) None None;
  (*1954 CH3 + C3H8 <=> C3H7 + CH4*) mkKin (mkArr 9.030000e-01 3.65 7154.0) None None;
  (*1957 CH3 + C2H4 (+ M) <=> C3H7 (+ M)*) mkKin (mkArr 2.550000e+06 1.6 5700.0) (Some (mkArr 3.000000e+63 (-14.6) 18170.0)) (Some (mkTroe 0.1894 277.0 8748.0 (Some 7891.0)));
  (*1964 O + C3H7 <=> C2H5 + CH2O*) mkKin (mkArr 9.640000e+13 0.0 0.0) None None;
  (*1967 H + C3H7 (+ M) <=> C3H8 (+ M)*) mkKin (mkArr 3.613000e+13 0.0 0.0) (Some (mkArr 4.420000e+61 (-13.545) 11357.0)) (Some (mkTroe 0.315 369.0 3285.0 (Some 6667.0)));
  (*1974 H + C3H7 <=> CH3 + C2H5*) mkKin (mkArr 4.060000e+06 2.19 890.0) None None;
  (*1977 OH + C3H7 <=> C2H5 + CH2OH*) mkKin (mkArr 2.410000e+13 0.0 0.0) None None;
  (*1980 HO2 + C3H7 <=> O2 + C3H8*) mkKin (mkArr 2.550000e+10 0.255 (-943.0)) None None;
  (*1983 HO2 + C3H7 => OH + C2H5 + CH2O*) mkKin (mkArr 2.410000e+13 0.0 0.0) None None;
  (*1986 CH3 + C3H7 <=> 2 C2H5*) mkKin (mkArr 1.927000e+13 (-0.32) 0.0) None None
].

(** Thermo entries of yao/chem.cti, in the order of yao/foam/species.foam; the number before a species is
    its line. *)
Definition yao_nasa : list nasa7 := [
  (*44 AR*) mkNasa 1000.00
    [2.50000000e+00; 0.00000000e+00; 0.00000000e+00; 0.00000000e+00; 0.00000000e+00; (-7.45375000e+02); 4.36600000e+00]
    [2.50000000e+00; 0.00000000e+00; 0.00000000e+00; 0.00000000e+00; 0.00000000e+00; (-7.45375000e+02); 4.36600000e+00];
  (*59 H*) mkNasa 1000.00
    [2.50000000e+00; 7.05332819e-13; (-1.99591964e-15); 2.30081632e-18; (-9.27732332e-22); 2.54736599e+04; (-4.46682853e-01)]
    [2.50000001e+00; (-2.30842973e-11); 1.61561948e-14; (-4.73515235e-18); 4.98197357e-22; 2.54736599e+04; (-4.46682914e-01)];
  (*74 O*) mkNasa 1000.00
    [3.16826710e+00; (-3.27931884e-03); 6.64306396e-06; (-6.12806624e-09); 2.11265971e-12; 2.91222592e+04; 2.05193346e+00]
    [2.56942078e+00; (-8.59741137e-05); 4.19484589e-08; (-1.00177799e-11); 1.22833691e-15; 2.92175791e+04; 4.78433864e+00];
  (*89 OH*) mkNasa 1000.00
    [4.12530561e+00; (-3.22544939e-03); 6.52764691e-06; (-5.79853643e-09); 2.06237379e-12; 3.38153812e+03; (-6.90432960e-01)]
    [2.86472886e+00; 1.05650448e-03; (-2.59082758e-07); 3.05218674e-11; (-1.33195876e-15); 3.71885774e+03; 5.70164073e+00];
  (*104 HO2*) mkNasa 1000.00
    [4.30179801e+00; (-4.74912051e-03); 2.11582891e-05; (-2.42763894e-08); 9.29225124e-12; 2.94808040e+02; 3.71666245e+00]
    [4.01721090e+00; 2.23982013e-03; (-6.33658150e-07); 1.14246370e-10; (-1.07908535e-14); 1.11856713e+02; 3.78510215e+00];
  (*120 H2*) mkNasa 1000.00
    [2.34433112e+00; 7.98052075e-03; (-1.94781510e-05); 2.01572094e-08; (-7.37611761e-12); (-9.17935173e+02); 6.83010238e-01]
    [3.33727920e+00; (-4.94024731e-05); 4.99456778e-07; (-1.79566394e-10); 2.00255376e-14; (-9.50158922e+02); (-3.20502331e+00)];
  (*137 H2O*) mkNasa 1000.00
    [4.19864056e+00; (-2.03643410e-03); 6.52040211e-06; (-5.48797062e-09); 1.77197817e-12; (-3.02937267e+04); (-8.49032208e-01)]
    [3.03399249e+00; 2.17691804e-03; (-1.64072518e-07); (-9.70419870e-11); 1.68200992e-14; (-3.00042971e+04); 4.96677010e+00];
  (*154 H2O2*) mkNasa 1000.00
    [4.27611269e+00; (-5.42822417e-04); 1.67335701e-05; (-2.15770813e-08); 8.62454363e-12; (-1.77025821e+04); 3.43505074e+00]
    [4.16500285e+00; 4.90831694e-03; (-1.90139225e-06); 3.71185986e-10; (-2.87908305e-14); (-1.78617877e+04); 2.91615662e+00];
  (*170 O2*) mkNasa 1000.00
    [3.78245636e+00; (-2.99673416e-03); 9.84730201e-06; (-9.68129509e-09); 3.24372837e-12; (-1.06394356e+03); 3.65767573e+00]
    [3.28253784e+00; 1.48308754e-03; (-7.57966669e-07); 2.09470555e-10; (-2.16717794e-14); (-1.08845772e+03); 5.45323129e+00];
  (*187 CH2*) mkNasa 1000.00
    [3.76267867e+00; 9.68872143e-04; 2.79489841e-06; (-3.85091153e-09); 1.68741719e-12; 4.60040401e+04; 1.56253185e+00]
    [2.87410113e+00; 3.65639292e-03; (-1.40894597e-06); 2.60179549e-10; (-1.87727567e-14); 4.62636040e+04; 6.17119324e+00];
  (*202 CH2**) mkNasa 1000.00
    [4.19860411e+00; (-2.36661419e-03); 8.23296220e-06; (-6.68815981e-09); 1.94314737e-12; 5.04968163e+04; (-7.69118967e-01)]
    [2.29203842e+00; 4.65588637e-03; (-2.01191947e-06); 4.17906000e-10; (-3.39716365e-14); 5.09259997e+04; 8.62650169e+00];
  (*217 CH3*) mkNasa 1000.00
    [3.67359040e+00; 2.01095175e-03; 5.73021856e-06; (-6.87117425e-09); 2.54385734e-12; 1.64449988e+04; 1.60456433e+00]
    [2.28571772e+00; 7.23990037e-03; (-2.98714348e-06); 5.95684644e-10; (-4.67154394e-14); 1.67755843e+04; 8.48007179e+00];
  (*232 CH4*) mkNasa 1000.00
    [5.14987613e+00; (-1.36709788e-02); 4.91800599e-05; (-4.84743026e-08); 1.66693956e-11; (-1.02466476e+04); (-4.64130376e+00)]
    [7.48514950e-02; 1.33909467e-02; (-5.73285809e-06); 1.22292535e-09; (-1.01815230e-13); (-9.46834459e+03); 1.84373180e+01];
  (*249 HCO*) mkNasa 1000.00
    [4.22118584e+00; (-3.24392532e-03); 1.37799446e-05; (-1.33144093e-08); 4.33768865e-12; 3.83956496e+03; 3.39437243e+00]
    [2.77217438e+00; 4.95695526e-03; (-2.48445613e-06); 5.89161778e-10; (-5.33508711e-14); 4.01191815e+03; 9.79834492e+00];
  (*264 CH2O*) mkNasa 1000.00
    [4.79372315e+00; (-9.90833369e-03); 3.73220008e-05; (-3.79285261e-08); 1.31772652e-11; (-1.43089567e+04); 6.02812900e-01]
    [1.76069008e+00; 9.20000082e-03; (-4.42258813e-06); 1.00641212e-09; (-8.83855640e-14); (-1.39958323e+04); 1.36563230e+01];
  (*280 CH3O*) mkNasa 1000.00
    [3.71180502e+00; (-2.80463306e-03); 3.76550971e-05; (-4.73072089e-08); 1.86588420e-11; 1.29569760e+03; 6.57240864e+00]
    [4.75779238e+00; 7.44142474e-03; (-2.69705176e-06); 4.38090504e-10; (-2.63537098e-14); 3.78111940e+02; (-1.96680028e+00)];
  (*297 CO*) mkNasa 1000.00
    [3.57953347e+00; (-6.10353680e-04); 1.01681433e-06; 9.07005884e-10; (-9.04424499e-13); (-1.43440860e+04); 3.50840928e+00]
    [2.71518561e+00; 2.06252743e-03; (-9.98825771e-07); 2.30053008e-10; (-2.03647716e-14); (-1.41518724e+04); 7.81868772e+00];
  (*314 CO2*) mkNasa 1000.00
    [2.35677352e+00; 8.98459677e-03; (-7.12356269e-06); 2.45919022e-09; (-1.43699548e-13); (-4.83719697e+04); 9.90105222e+00]
    [3.85746029e+00; 4.41437026e-03; (-2.21481404e-06); 5.23490188e-10; (-4.72084164e-14); (-4.87591660e+04); 2.27163806e+00];
  (*331 C2H2*) mkNasa 1000.00
    [8.08681094e-01; 2.33615629e-02; (-3.55171815e-05); 2.80152437e-08; (-8.50072974e-12); 2.64289807e+04; 1.39397051e+01]
    [4.14756964e+00; 5.96166664e-03; (-2.37294852e-06); 4.67412171e-10; (-3.61235213e-14); 2.59359992e+04; (-1.23028121e+00)];
  (*347 C2H3*) mkNasa 1000.00
    [3.21246645e+00; 1.51479162e-03; 2.59209412e-05; (-3.57657847e-08); 1.47150873e-11; 3.48598468e+04; 8.51054025e+00]
    [3.01672400e+00; 1.03302292e-02; (-4.68082349e-06); 1.01763288e-09; (-8.62607041e-14); 3.46128739e+04; 7.78732378e+00];
  (*363 C2H4*) mkNasa 1000.00
    [3.95920148e+00; (-7.57052247e-03); 5.70990292e-05; (-6.91588753e-08); 2.69884373e-11; 5.08977593e+03; 4.09733096e+00]
    [2.03611116e+00; 1.46454151e-02; (-6.71077915e-06); 1.47222923e-09; (-1.25706061e-13); 4.93988614e+03; 1.03053693e+01];
  (*379 C2H5*) mkNasa 1000.00
    [4.30646568e+00; (-4.18658892e-03); 4.97142807e-05; (-5.99126606e-08); 2.30509004e-11; 1.28416265e+04; 4.70720924e+00]
    [1.95465642e+00; 1.73972722e-02; (-7.98206668e-06); 1.75217689e-09; (-1.49641576e-13); 1.28575200e+04; 1.34624343e+01];
  (*395 C2H6*) mkNasa 1000.00
    [4.29142492e+00; (-5.50154270e-03); 5.99438288e-05; (-7.08466285e-08); 2.68685771e-11; (-1.15222055e+04); 2.66682316e+00]
    [1.07188150e+00; 2.16852677e-02; (-1.00256067e-05); 2.21412001e-09; (-1.90002890e-13); (-1.14263932e+04); 1.51156107e+01];
  (*411 CH2CHO*) mkNasa 1000.00
    [3.40906240e+00; 1.07385740e-02; 1.89149250e-06; (-7.15858310e-09); 2.86738510e-12; 6.20000000e+01; 9.57145350e+00]
    [5.97566990e+00; 8.13059140e-03; (-2.74362450e-06); 4.07030410e-10; (-2.17601710e-14); (-9.69500000e+02); (-5.03208790e+00)];
  (*427 aC3H5*) mkNasa 1000.00
    [1.36318350e+00; 1.98138210e-02; 1.24970600e-05; (-3.33555550e-08); 1.58465710e-11; 1.92456290e+04; 1.71732140e+01]
    [6.50078770e+00; 1.43247310e-02; (-5.67816320e-06); 1.10808010e-09; (-9.03638870e-14); 1.74824490e+04; (-1.12430500e+01)];
  (*443 C3H6*) mkNasa 1000.00
    [1.49330700e+00; 2.09251800e-02; 4.48679400e-06; (-1.66891200e-08); 7.15814600e-12; 1.07482600e+03; 1.61453400e+01]
    [6.73225700e+00; 1.49083400e-02; (-4.94989900e-06); 7.21202200e-10; (-3.76620400e-14); (-9.23570300e+02); (-1.33133500e+01)];
  (*459 nC3H7*) mkNasa 1000.00
    [1.04911730e+00; 2.60089730e-02; 2.35425160e-06; (-1.95951320e-08); 9.37202070e-12; 1.03123460e+04; 2.11360340e+01]
    [7.70974790e+00; 1.60314850e-02; (-5.27202380e-06); 7.58883520e-10; (-3.88627190e-14); 7.97622360e+03; (-1.55152970e+01)];
  (*475 C2H3CHO*) mkNasa 1000.00
    [1.27134980e+00; 2.62310540e-02; (-9.29123050e-06); (-4.78372720e-09); 3.34805430e-12; (-9.33573440e+03); 1.94980770e+01]
    [5.81118680e+00; 1.71142560e-02; (-7.48341610e-06); 1.42522490e-09; (-9.17468410e-14); (-1.07840540e+04); (-4.85880040e+00)];
  (*491 C4H7*) mkNasa 1000.00
    [7.44494320e-01; 3.96788570e-02; (-2.28980860e-05); 2.13529730e-09; 2.30963750e-12; 2.26533280e+04; 2.34378780e+01]
    [7.01348350e+00; 2.26345580e-02; (-9.25454700e-06); 1.68079270e-09; (-1.04086170e-13); 2.09550080e+04; (-8.88930800e+00)];
  (*507 C4H81*) mkNasa 1000.00
    [1.18113800e+00; 3.08533800e-02; 5.08652470e-06; (-2.46548880e-08); 1.11101930e-11; (-1.79040040e+03); 2.10624690e+01]
    [2.05358410e+00; 3.43505070e-02; (-1.58831970e-05); 3.30896620e-09; (-2.53610450e-13); (-2.13972310e+03); 1.55432010e+01];
  (*523 pC4H9*) mkNasa 1000.00
    [1.20870420e+00; 3.82974970e-02; (-7.26605090e-06); (-1.54285470e-08); 8.68594350e-12; 7.32210400e+03; 2.21692680e+01]
    [8.68223950e+00; 2.36910710e-02; (-7.59488650e-06); 6.64271360e-10; 5.48451360e-14; 4.96440580e+03; (-1.78917470e+01)];
  (*539 C5H9*) mkNasa 1000.00
    [(-2.41901110e+00); 4.04303890e-02; 6.78023390e-06; (-3.37247420e-08); 1.51167130e-11; 2.81218870e+03; 3.64592440e+01]
    [1.01386400e+01; 2.27141380e-02; (-7.79104630e-06); 1.18765220e-09; (-6.59324480e-14); (-1.72183590e+03); (-3.31258850e+01)];
  (*555 C5H10*) mkNasa 1392.00
    [(-1.06223481e+00); 5.74218294e-02; (-3.74486890e-05); 1.27364989e-08; (-1.79609789e-12); (-4.46546666e+03); 3.22739790e+01]
    [1.45851539e+01; 2.24072471e-02; (-7.63348025e-06); 1.18188966e-09; (-6.84385139e-14); (-1.00898205e+04); (-5.23683936e+01)];
  (*571 PXC5H11*) mkNasa 1390.00
    [5.24384081e-02; 5.60796958e-02; (-3.31545803e-05); 9.77533781e-09; (-1.14009660e-12); 4.71611460e+03; 2.87238666e+01]
    [1.52977446e+01; 2.39735310e-02; (-8.18392948e-06); 1.26883076e-09; (-7.35409055e-14); (-9.80712307e+02); (-5.44829293e+01)];
  (*587 C6H12*) mkNasa 1392.00
    [(-1.35275205e+00); 6.98655426e-02; (-4.59408022e-05); 1.56967343e-08; (-2.21296175e-12); (-7.34368617e+03); 3.53120691e+01]
    [1.78337529e+01; 2.67377658e-02; (-9.10036773e-06); 1.40819768e-09; (-8.15124244e-14); (-1.42062860e+04); (-6.83818851e+01)];
  (*603 PXC6H13*) mkNasa 1390.00
    [(-2.04871465e-01); 6.83801272e-02; (-4.14447912e-05); 1.26155802e-08; (-1.53120058e-12); 1.83280393e+03; 3.16075093e+01]
    [1.85385470e+01; 2.83107962e-02; (-9.65307246e-06); 1.49547585e-09; (-8.66336064e-14); (-5.09299041e+03); (-7.04490943e+01)];
  (*619 C7H14*) mkNasa 1392.00
    [(-1.67720549e+00); 8.24611601e-02; (-5.46504108e-05); 1.87862303e-08; (-2.65737983e-12); (-1.02168601e+04); 3.85068032e+01]
    [2.10898039e+01; 3.10607878e-02; (-1.05644793e-05); 1.63405780e-09; (-9.45598219e-14); (-1.83260065e+04); (-8.44391108e+01)];
  (*635 PXC7H15*) mkNasa 1390.00
    [(-4.99570406e-01); 8.08826467e-02; (-5.00532754e-05); 1.56549308e-08; (-1.96616227e-12); (-1.04590223e+03); 3.46564011e+01]
    [2.17940709e+01; 3.26280243e-02; (-1.11138244e-05); 1.72067148e-09; (-9.96366999e-14); (-9.20938221e+03); (-8.64954311e+01)];
  (*651 C8H16*) mkNasa 1392.00
    [(-1.89226915e+00); 9.46066357e-02; (-6.27385521e-05); 2.15158309e-08; (-3.02718683e-12); (-1.31074559e+04); 4.11878981e+01]
    [2.43540125e+01; 3.53666462e-02; (-1.20208388e-05); 1.85855053e-09; (-1.07522262e-13); (-2.24485674e+04); (-1.00537716e+02)];
  (*667 PXC8H17*) mkNasa 1390.00
    [(-7.72759438e-01); 9.32549705e-02; (-5.84447245e-05); 1.85570214e-08; (-2.37127483e-12); (-3.92689511e+03); 3.76130631e+01]
    [2.50510356e+01; 3.69480162e-02; (-1.25765264e-05); 1.94628409e-09; (-1.12668898e-13); (-1.33300535e+04); (-1.02557384e+02)];
  (*683 C9H18*) mkNasa 1392.00
    [(-2.16108263e+00); 1.06958297e-01; (-7.10973244e-05); 2.43971077e-08; (-3.42771547e-12); (-1.59890847e+04); 4.41245128e+01]
    [2.76142176e+01; 3.96825287e-02; (-1.34819446e-05); 2.08390452e-09; (-1.20539294e-13); (-2.65709061e+04); (-1.16618623e+02)];
  (*699 PXC9H19*) mkNasa 1390.00
    [(-1.04387292e+00); 1.05617283e-01; (-6.68199971e-05); 2.14486166e-08; (-2.77404275e-12); (-6.80818512e+03); 4.23518992e+01]
    [2.83097514e+01; 4.12657344e-02; (-1.40383289e-05); 2.17174871e-09; (-1.25692307e-13); (-1.74516030e+04); (-1.16837897e+02)];
  (*715 C10H20*) mkNasa 1392.00
    [(-2.42901688e+00); 1.19305598e-01; (-7.94489025e-05); 2.72736596e-08; (-3.82718373e-12); (-1.88708365e+04); 4.70571383e+01]
    [3.08753903e+01; 4.39971526e-02; (-1.49425530e-05); 2.30917678e-09; (-1.33551477e-13); (-3.06937307e+04); (-1.32705172e+02)];
  (*731 PXC10H21*) mkNasa 1390.00
    [(-1.31358348e+00); 1.17972813e-01; (-7.51843079e-05); 2.43331106e-08; (-3.17522852e-12); (-9.68967550e+03); 4.35010452e+01]
    [3.15697160e+01; 4.55818403e-02; (-1.54994965e-05); 2.39710933e-09; (-1.38709559e-13); (-2.15737832e+04); (-1.34708986e+02)];
  (*747 NC12H26*) mkNasa 1391.00
    [(-2.62181594e+00); 1.47237711e-01; (-9.43970271e-05); 3.07441268e-08; (-4.03602230e-12); (-4.00654253e+04); 5.00994626e+01]
    [3.85095037e+01; 5.63550048e-02; (-1.91493200e-05); 2.96024862e-09; (-1.71244150e-13); (-5.48843465e+04); (-1.72670922e+02)];
  (*763 PXC12H25*) mkNasa 1390.00
    [(-1.85028741e+00); 1.42670708e-01; (-9.18916555e-05); 3.00883392e-08; (-3.97454300e-12); (-1.54530435e+04); 4.93702421e+01]
    [3.80921885e+01; 5.42107848e-02; (-1.84205517e-05); 2.84762173e-09; (-1.64731748e-13); (-2.98194375e+04); (-1.66882734e+02)];
  (*779 SXC12H25*) mkNasa 1385.00
    [(-1.36787089e+00); 1.37355348e-01; (-8.24076158e-05); 2.36421562e-08; (-2.47435932e-12); (-1.67660539e+04); 4.83521895e+01]
    [3.79688268e+01; 5.38719464e-02; (-1.82171263e-05); 2.80774503e-09; (-1.62108420e-13); (-3.12144988e+04); (-1.65805933e+02)];
  (*795 S3XC12H25*) mkNasa 1385.00
    [(-1.36787089e+00); 1.37355348e-01; (-8.24076158e-05); 2.36421562e-08; (-2.47435932e-12); (-1.67660539e+04); 4.83521895e+01]
    [3.79688268e+01; 5.38719464e-02; (-1.82171263e-05); 2.80774503e-09; (-1.62108420e-13); (-3.12144988e+04); (-1.65805933e+02)];
  (*811 C12H24*) mkNasa 1391.00
    [(-2.96342681e+00); 1.43992360e-01; (-9.61384015e-05); 3.30174473e-08; (-4.62398190e-12); (-2.46345299e+04); 5.29158870e+01]
    [3.74002111e+01; 5.26230753e-02; (-1.78624319e-05); 2.75949863e-09; (-1.59562499e-13); (-3.89405962e+04); (-1.64892663e+02)];
  (*827 C12H25O2*) mkNasa 1000.00
    [5.31404000e+00; 8.93873000e-02; 1.45351000e-05; (-7.49250000e-08); 3.35325000e-11; (-2.98918000e+04); 1.69741000e+01]
    [2.84782000e+01; 5.37539000e-02; (-1.68186000e-05); 2.51367000e-09; (-1.47208000e-13); (-3.74118000e+04); (-1.09121000e+02)];
  (*843 C12OOH*) mkNasa 1000.00
    [5.15231000e+00; 9.97913000e-02; (-1.80635000e-05); (-4.18435000e-08); 2.22786000e-11; (-2.38380000e+04); 1.93526000e+01]
    [2.92019000e+01; 5.15917000e-02; (-1.57327000e-05); 2.30306000e-09; (-1.32640000e-13); (-3.11192000e+04); (-1.08855000e+02)];
  (*859 O2C12H24OOH*) mkNasa 1000.00
    [4.81972000e-01; 1.45020000e-01; (-9.99308000e-05); 2.60422000e-08; 1.19358000e-12; (-4.16875000e+04); 4.13429000e+01]
    [3.50907000e+01; 5.10590000e-02; (-1.54345000e-05); 2.24627000e-09; (-1.28901000e-13); (-5.12675000e+04); (-1.37750000e+02)];
  (*875 OC12H23OOH*) mkNasa 1000.00
    [8.80733000e+00; 6.50623000e-02; 6.95058000e-05; (-1.26905000e-07); 5.10991000e-11; (-6.65361000e+04); 6.84155000e+00]
    [2.36731000e+01; 6.16392000e-02; (-2.09836000e-05); 3.33166000e-09; (-2.03590000e-13); (-7.18258000e+04); (-7.77662000e+01)];
  (*27 N2*) mkNasa 1000.00
    [3.29867700e+00; 1.40824040e-03; (-3.96322200e-06); 5.64151500e-09; (-2.44485400e-12); (-1.02089990e+03); 3.95037200e+00]
    [2.92664000e+00; 1.48797680e-03; (-5.68476000e-07); 1.00970380e-10; (-6.75335100e-15); (-9.22797700e+02); 5.98052800e+00]
].

(** Rate data of the reactions of yao/chem.cti; the number before a reaction is its line. *)
Definition yao_kinetics : list kinetics := [
  (*896 H + O2 <=> OH + O*) mkKin (mkArr 9.756000e+13 0.0 14842.26) None None;
  (*899 O + H2 <=> H + OH*) mkKin (mkArr 4.589000e+04 2.7 6260.0) None None;
  (*902 OH + H2 <=> H2O + H*) mkKin (mkArr 1.024000e+08 1.6 3298.28) None None;
  (*905 OH + OH <=> O + H2O*) mkKin (mkArr 3.973000e+04 2.4 (-2110.0)) None None;
  (*908 H + O2 (+ M) <=> HO2 (+ M)*) mkKin (mkArr 5.116000e+12 0.44 0.0) (Some (mkArr 6.328000e+19 (-1.4) 0.0)) (Some (mkTroe 0.5 1e-30 1e+30 None));
  (*915 HO2 + H <=> OH + OH*) mkKin (mkArr 7.485000e+13 0.0 295.0) None None;
  (*918 H2 + O2 <=> HO2 + H*) mkKin (mkArr 5.916000e+05 2.433 53502.0) None None;
  (*921 HO2 + OH <=> H2O + O2*) mkKin (mkArr 2.891000e+13 0.0 (-501.91)) None None;
  (*924 HO2 + H <=> O + H2O*) mkKin (mkArr 3.970000e+12 0.0 671.0) None None;
  (*927 HO2 + O <=> OH + O2*) mkKin (mkArr 4.000000e+13 0.0 0.0) None None;
  (*930 HO2 + HO2 <=> O2 + H2O2*) mkKin (mkArr 1.300000e+11 0.0 (-1630.0)) None None;
  (*934 HO2 + HO2 <=> O2 + H2O2*) mkKin (mkArr 3.658000e+14 0.0 12000.0) None None;
  (*938 H2O2 + H <=> OH + H2O*) mkKin (mkArr 2.410000e+13 0.0 3970.0) None None;
  (*941 H2O2 + H <=> HO2 + H2*) mkKin (mkArr 6.050000e+06 2.0 5200.0) None None;
  (*944 H2O2 + O <=> OH + HO2*) mkKin (mkArr 9.630000e+06 2.0 3970.0) None None;
  (*947 H2O2 + OH <=> HO2 + H2O*) mkKin (mkArr 2.000000e+12 0.0 427.0) None None;
  (*951 H2O2 + OH <=> HO2 + H2O*) mkKin (mkArr 2.670000e+41 (-7.0) 37600.0) None None;
  (*955 OH + OH (+ M) <=> H2O2 (+ M)*) mkKin (mkArr 1.110000e+14 (-0.37) 0.0) (Some (mkArr 2.010000e+17 (-0.584) (-2293.0))) (Some (mkTroe 0.7346 94.0 1756.0 (Some 5182.0)));
  (*962 H + H + M <=> H2 + M*) mkKin (mkArr 1.780000e+18 (-1.0) 0.0) None None;
  (*966 H + OH + M <=> H2O + M*) mkKin (mkArr 4.400000e+22 (-2.0) 0.0) None None;
  (*970 O + O + M <=> O2 + M*) mkKin (mkArr 1.200000e+17 (-1.0) 0.0) None None;
  (*974 H + H + H2 <=> H2 + H2*) mkKin (mkArr 9.000000e+16 (-0.6) 0.0) None None;
  (*977 H + H + H2O <=> H2 + H2O*) mkKin (mkArr 5.624000e+19 (-1.25) 0.0) None None;
  (*980 H + H + CO2 <=> H2 + CO2*) mkKin (mkArr 5.500000e+20 (-2.0) 0.0) None None;
  (*983 O + H + M <=> OH + M*) mkKin (mkArr 9.428000e+18 (-1.0) 0.0) None None;
  (*987 CO + OH <=> CO2 + H*) mkKin (mkArr 7.046000e+04 2.053 (-355.67)) None None;
  (*991 CO + OH <=> CO2 + H*) mkKin (mkArr 5.757000e+12 (-0.664) 331.83) None None;
  (*995 CO + HO2 <=> CO2 + OH*) mkKin (mkArr 1.570000e+05 2.18 17942.61) None None;
  (*998 CO + O (+ M) <=> CO2 (+ M)*) mkKin (mkArr 1.362000e+10 0.0 2384.0) (Some (mkArr 1.173000e+24 (-2.79) 4191.0)) None;
  (*1004 CO + O2 <=> CO2 + O*) mkKin (mkArr 1.119000e+12 0.0 47700.0) None None;
  (*1007 HCO + M <=> CO + H + M*) mkKin (mkArr 1.870000e+17 (-1.0) 17000.0) None None;
  (*1011 HCO + H <=> CO + H2*) mkKin (mkArr 1.200000e+14 0.0 0.0) None None;
  (*1014 HCO + O <=> CO + OH*) mkKin (mkArr 3.000000e+13 0.0 0.0) None None;
  (*1017 HCO + O <=> CO2 + H*) mkKin (mkArr 3.000000e+13 0.0 0.0) None None;
  (*1020 HCO + OH <=> CO + H2O*) mkKin (mkArr 3.020000e+13 0.0 0.0) None None;
  (*1023 HCO + O2 <=> CO + HO2*) mkKin (mkArr 1.204000e+10 0.807 (-727.0)) None None;
  (*1026 HCO + H2O <=> CO + H + H2O*) mkKin (mkArr 2.244000e+18 (-1.0) 17000.0) None None;
  (*1029 CO + H2 (+ M) <=> CH2O (+ M)*) mkKin (mkArr 4.300000e+07 1.5 79600.0) (Some (mkArr 5.070000e+27 (-3.42) 84350.0)) (Some (mkTroe 0.932 197.0 1540.0 (Some 10300.0)));
  (*1036 HCO + H (+ M) <=> CH2O (+ M)*) mkKin (mkArr 1.090000e+12 0.48 (-260.0)) (Some (mkArr 1.350000e+24 (-2.57) 1425.0)) (Some (mkTroe 0.7824 271.0 2755.0 (Some 6570.0)));
  (*1043 CH2 + H (+ M) <=> CH3 (+ M)*) mkKin (mkArr 2.500000e+16 (-0.8) 0.0) (Some (mkArr 3.200000e+27 (-3.14) 1230.0)) (Some (mkTroe 0.68 78.0 1995.0 (Some 5590.0)));
  (*1050 CH2 + O <=> HCO + H*) mkKin (mkArr 8.000000e+13 0.0 0.0) None None;
  (*1053 CH2 + OH <=> CH2O + H*) mkKin (mkArr 2.000000e+13 0.0 0.0) None None;
  (*1056 CH2 + H2 <=> H + CH3*) mkKin (mkArr 5.000000e+05 2.0 7230.0) None None;
  (*1059 CH2 + O2 <=> HCO + OH*) mkKin (mkArr 1.060000e+13 0.0 1500.0) None None;
  (*1062 CH2 + O2 <=> CO2 + H + H*) mkKin (mkArr 2.640000e+12 0.0 1500.0) None None;
  (*1065 CH2 + HO2 <=> CH2O + OH*) mkKin (mkArr 2.000000e+13 0.0 0.0) None None;
  (*1068 CH2 + CH2 <=> C2H2 + H2*) mkKin (mkArr 3.200000e+13 0.0 0.0) None None;
  (*1071 CH2* + N2 <=> CH2 + N2*) mkKin (mkArr 1.500000e+13 0.0 600.0) None None;
  (*1074 CH2* + AR <=> CH2 + AR*) mkKin (mkArr 9.000000e+12 0.0 600.0) None None;
  (*1077 CH2* + O <=> CO + H2*) mkKin (mkArr 1.500000e+13 0.0 0.0) None None;
  (*1080 CH2* + O <=> HCO + H*) mkKin (mkArr 1.500000e+13 0.0 0.0) None None;
  (*1083 CH2* + OH <=> CH2O + H*) mkKin (mkArr 3.000000e+13 0.0 0.0) None None;
  (*1086 CH2* + H2 <=> CH3 + H*) mkKin (mkArr 7.000000e+13 0.0 0.0) None None;
  (*1089 CH2* + O2 <=> H + OH + CO*) mkKin (mkArr 2.800000e+13 0.0 0.0) None None;
  (*1092 CH2* + O2 <=> CO + H2O*) mkKin (mkArr 1.200000e+13 0.0 0.0) None None;
  (*1095 CH2* + H2O <=> CH2 + H2O*) mkKin (mkArr 3.000000e+13 0.0 0.0) None None;
  (*1098 CH2* + CO <=> CH2 + CO*) mkKin (mkArr 9.000000e+12 0.0 0.0) None None;
  (*1101 CH2* + CO2 <=> CH2 + CO2*) mkKin (mkArr 7.000000e+12 0.0 0.0) None None;
  (*1104 CH2* + CO2 <=> CH2O + CO*) mkKin (mkArr 1.400000e+13 0.0 0.0) None None;
  (*1107 CH2O + H (+ M) <=> CH3O (+ M)*) mkKin (mkArr 5.400000e+11 0.454 2600.0) (Some (mkArr 2.200000e+30 (-4.8) 5560.0)) (Some (mkTroe 0.758 94.0 1555.0 (Some 4200.0)));
  (*1114 CH2O + H <=> HCO + H2*) mkKin (mkArr 2.300000e+10 1.05 3275.0) None None;
  (*1117 CH2O + O <=> HCO + OH*) mkKin (mkArr 3.900000e+13 0.0 3540.0) None None;
  (*1120 CH2O + OH <=> HCO + H2O*) mkKin (mkArr 3.430000e+09 1.18 (-447.0)) None None;
  (*1123 CH2O + O2 <=> HCO + HO2*) mkKin (mkArr 1.000000e+14 0.0 40000.0) None None;
  (*1126 CH2O + HO2 <=> HCO + H2O2*) mkKin (mkArr 1.000000e+12 0.0 8000.0) None None;
  (*1129 CH3 + H (+ M) <=> CH4 (+ M)*) mkKin (mkArr 1.270000e+16 (-0.63) 383.0) (Some (mkArr 2.477000e+33 (-4.76) 2440.0)) (Some (mkTroe 0.783 74.0 2941.0 (Some 6964.0)));
  (*1136 CH3 + O <=> CH2O + H*) mkKin (mkArr 8.430000e+13 0.0 0.0) None None;
  (*1139 CH3 + OH <=> CH2 + H2O*) mkKin (mkArr 5.600000e+07 1.6 5420.0) None None;
  (*1142 CH3 + OH <=> CH2* + H2O*) mkKin (mkArr 2.501000e+13 0.0 0.0) None None;
  (*1145 CH3 + O2 <=> O + CH3O*) mkKin (mkArr 3.083000e+13 0.0 28800.0) None None;
  (*1148 CH3 + O2 <=> OH + CH2O*) mkKin (mkArr 3.600000e+10 0.0 8940.0) None None;
  (*1151 CH3 + HO2 <=> CH4 + O2*) mkKin (mkArr 1.000000e+12 0.0 0.0) None None;
  (*1154 CH3 + HO2 <=> CH3O + OH*) mkKin (mkArr 1.340000e+13 0.0 0.0) None None;
  (*1157 CH3 + H2O2 <=> CH4 + HO2*) mkKin (mkArr 2.450000e+04 2.47 5180.0) None None;
  (*1160 CH3 + HCO <=> CH4 + CO*) mkKin (mkArr 8.480000e+12 0.0 0.0) None None;
  (*1163 CH3 + CH2O <=> CH4 + HCO*) mkKin (mkArr 3.320000e+03 2.81 5860.0) None None;
  (*1166 CH3 + CH2 <=> C2H4 + H*) mkKin (mkArr 4.000000e+13 0.0 0.0) None None;
  (*1169 CH3 + CH2* <=> C2H4 + H*) mkKin (mkArr 1.200000e+13 0.0 (-570.0)) None None;
  (*1172 CH3 + CH3 (+ M) <=> C2H6 (+ M)*) mkKin (mkArr 2.120000e+16 (-0.97) 620.0) (Some (mkArr 1.770000e+50 (-9.67) 6220.0)) (Some (mkTroe 0.5325 151.0 1038.0 (Some 4970.0)));
  (*1179 CH3 + CH3 <=> H + C2H5*) mkKin (mkArr 4.990000e+12 0.1 10600.0) None None;
  (*1182 CH3O + H <=> CH2O + H2*) mkKin (mkArr 2.000000e+13 0.0 0.0) None None;
  (*1185 CH3O + H <=> CH3 + OH*) mkKin (mkArr 3.200000e+13 0.0 0.0) None None;
  (*1188 CH3O + H <=> CH2* + H2O*) mkKin (mkArr 1.600000e+13 0.0 0.0) None None;
  (*1191 CH3O + O <=> CH2O + OH*) mkKin (mkArr 1.000000e+13 0.0 0.0) None None;
  (*1194 CH3O + OH <=> CH2O + H2O*) mkKin (mkArr 5.000000e+12 0.0 0.0) None None;
  (*1197 CH3O + O2 <=> CH2O + HO2*) mkKin (mkArr 4.280000e-13 7.6 (-3530.0)) None None;
  (*1200 CH4 + H <=> CH3 + H2*) mkKin (mkArr 6.600000e+08 1.62 10840.0) None None;
  (*1203 CH4 + O <=> CH3 + OH*) mkKin (mkArr 1.020000e+09 1.5 8600.0) None None;
  (*1206 CH4 + OH <=> CH3 + H2O*) mkKin (mkArr 1.000000e+08 1.6 3120.0) None None;
  (*1209 CH4 + CH2 <=> CH3 + CH3*) mkKin (mkArr 2.460000e+06 2.0 8270.0) None None;
  (*1212 CH4 + CH2* <=> CH3 + CH3*) mkKin (mkArr 1.600000e+13 0.0 (-570.0)) None None;
  (*1215 C2H3 (+ M) <=> C2H2 + H (+ M)*) mkKin (mkArr 3.860000e+07 1.62 37048.2) (Some (mkArr 2.565000e+27 (-3.4) 35798.72)) (Some (mkTroe 1.9816 5383.7 4.2932 (Some (-0.0795))));
  (*1222 C2H2 + O <=> CH2 + CO*) mkKin (mkArr 4.080000e+06 2.0 1900.0) None None;
  (*1225 C2H2 + OH <=> CH3 + CO*) mkKin (mkArr 4.830000e-04 4.0 (-2000.0)) None None;
  (*1228 C2H2 + HCO <=> C2H3 + CO*) mkKin (mkArr 1.000000e+07 2.0 6000.0) None None;
  (*1231 C2H2 + CH3 <=> aC3H5*) mkKin (mkArr 2.680000e+53 (-12.82) 35730.0) None None;
  (*1235 C2H3 + H (+ M) <=> C2H4 (+ M)*) mkKin (mkArr 6.080000e+12 0.27 280.0) (Some (mkArr 1.400000e+30 (-3.86) 3320.0)) (Some (mkTroe 0.782 207.5 2663.0 (Some 6095.0)));
  (*1242 C2H3 + H <=> C2H2 + H2*) mkKin (mkArr 9.000000e+13 0.0 0.0) None None;
  (*1245 C2H3 + O <=> CH3 + CO*) mkKin (mkArr 4.800000e+13 0.0 0.0) None None;
  (*1248 C2H3 + OH <=> C2H2 + H2O*) mkKin (mkArr 3.011000e+13 0.0 0.0) None None;
  (*1251 C2H3 + O2 <=> C2H2 + HO2*) mkKin (mkArr 1.340000e+06 1.61 (-383.4)) None None;
  (*1254 C2H3 + O2 <=> CH2CHO + O*) mkKin (mkArr 3.000000e+11 0.29 11.0) None None;
  (*1257 C2H3 + O2 <=> HCO + CH2O*) mkKin (mkArr 4.600000e+16 (-1.39) 1010.0) None None;
  (*1260 C2H3 + HO2 <=> CH2CHO + OH*) mkKin (mkArr 1.000000e+13 0.0 0.0) None None;
  (*1263 C2H3 + H2O2 <=> C2H4 + HO2*) mkKin (mkArr 1.210000e+10 0.0 (-596.0)) None None;
  (*1266 C2H3 + HCO <=> C2H4 + CO*) mkKin (mkArr 9.033000e+13 0.0 0.0) None None;
  (*1269 C2H3 + HCO <=> C2H3CHO*) mkKin (mkArr 1.800000e+13 0.0 0.0) None None;
  (*1272 C2H3 + CH3 <=> C2H2 + CH4*) mkKin (mkArr 3.920000e+11 0.0 0.0) None None;
  (*1275 C2H3 + CH3 (+ M) <=> C3H6 (+ M)*) mkKin (mkArr 2.500000e+13 0.0 0.0) (Some (mkArr 4.270000e+58 (-11.94) 9769.8)) (Some (mkTroe 0.175 1340.6 60000.0 (Some 10139.8)));
  (*1282 C2H3 + CH3 <=> aC3H5 + H*) mkKin (mkArr 1.500000e+24 (-2.83) 18618.0) None None;
  (*1285 C2H3 + C2H3 <=> C2H2 + C2H4*) mkKin (mkArr 9.600000e+11 0.0 0.0) None None;
  (*1288 CH2CHO <=> CH3 + CO*) mkKin (mkArr 7.800000e+41 (-9.147) 46900.0) None None;
  (*1291 CH2CHO + H <=> CH3 + HCO*) mkKin (mkArr 9.000000e+13 0.0 0.0) None None;
  (*1294 CH2CHO + O2 <=> CH2O + CO + OH*) mkKin (mkArr 1.800000e+10 0.0 0.0) None None;
  (*1298 C2H4 + H (+ M) <=> C2H5 (+ M)*) mkKin (mkArr 3.975000e+09 1.28 1290.63) (Some (mkArr 4.715000e+18 0.0 755.26)) (Some (mkTroe 0.76 40.0 1025.0 None));
  (*1305 C2H4 + H <=> C2H3 + H2*) mkKin (mkArr 5.070000e+07 1.9 12950.0) None None;
  (*1308 C2H4 + O <=> C2H3 + OH*) mkKin (mkArr 1.510000e+07 1.9 3740.0) None None;
  (*1311 C2H4 + O <=> CH3 + HCO*) mkKin (mkArr 1.920000e+07 1.83 220.0) None None;
  (*1314 C2H4 + O <=> CH2 + CH2O*) mkKin (mkArr 3.840000e+05 1.83 220.0) None None;
  (*1317 C2H4 + OH <=> C2H3 + H2O*) mkKin (mkArr 3.600000e+06 2.0 2500.0) None None;
  (*1320 C2H4 + HCO <=> C2H5 + CO*) mkKin (mkArr 1.000000e+07 2.0 8000.0) None None;
  (*1323 C2H4 + CH2 <=> aC3H5 + H*) mkKin (mkArr 2.000000e+13 0.0 6000.0) None None;
  (*1326 C2H4 + CH2* <=> aC3H5 + H*) mkKin (mkArr 5.000000e+13 0.0 0.0) None None;
  (*1329 C2H4 + CH3 <=> C2H3 + CH4*) mkKin (mkArr 2.270000e+05 2.0 9200.0) None None;
  (*1332 nC3H7 <=> CH3 + C2H4*) mkKin (mkArr 9.600000e+13 0.0 31022.94) None None;
  (*1335 C2H4 + O2 <=> C2H3 + HO2*) mkKin (mkArr 4.220000e+13 0.0 60800.0) None None;
  (*1338 C2H4 + C2H3 <=> C4H7*) mkKin (mkArr 7.930000e+38 (-8.47) 14220.0) None None;
  (*1342 C2H5 + H (+ M) <=> C2H6 (+ M)*) mkKin (mkArr 5.210000e+17 (-0.99) 1580.0) (Some (mkArr 1.990000e+41 (-7.08) 6685.0)) (Some (mkTroe 0.8422 125.0 2219.0 (Some 6882.0)));
  (*1349 C2H5 + H <=> C2H4 + H2*) mkKin (mkArr 2.000000e+12 0.0 0.0) None None;
  (*1352 C2H5 + O <=> CH3 + CH2O*) mkKin (mkArr 1.604000e+13 0.0 0.0) None None;
  (*1355 C2H5 + O2 <=> C2H4 + HO2*) mkKin (mkArr 2.000000e+10 0.0 0.0) None None;
  (*1358 C2H5 + HO2 <=> C2H6 + O2*) mkKin (mkArr 3.000000e+11 0.0 0.0) None None;
  (*1361 C2H5 + HO2 <=> C2H4 + H2O2*) mkKin (mkArr 3.000000e+11 0.0 0.0) None None;
  (*1364 C2H5 + HO2 <=> CH3 + CH2O + OH*) mkKin (mkArr 2.400000e+13 0.0 0.0) None None;
  (*1367 C2H5 + H2O2 <=> C2H6 + HO2*) mkKin (mkArr 8.700000e+09 0.0 974.0) None None;
  (*1370 C2H5 + C2H3 (+ M) <=> C4H81 (+ M)*) mkKin (mkArr 1.500000e+13 0.0 0.0) (Some (mkArr 1.550000e+56 (-11.79) 8984.5)) (Some (mkTroe 0.198 2277.9 60000.0 (Some 5723.2)));
  (*1377 C2H5 + C2H3 <=> aC3H5 + CH3*) mkKin (mkArr 3.900000e+32 (-5.22) 19747.0) None None;
  (*1381 C2H6 + H <=> C2H5 + H2*) mkKin (mkArr 1.150000e+08 1.9 7530.0) None None;
  (*1384 C2H6 + O <=> C2H5 + OH*) mkKin (mkArr 8.980000e+07 1.92 5690.0) None None;
  (*1387 C2H6 + OH <=> C2H5 + H2O*) mkKin (mkArr 3.540000e+06 2.12 870.0) None None;
  (*1390 C2H6 + CH2* <=> C2H5 + CH3*) mkKin (mkArr 4.000000e+13 0.0 (-550.0)) None None;
  (*1393 C2H6 + CH3 <=> C2H5 + CH4*) mkKin (mkArr 6.140000e+06 1.74 10450.0) None None;
  (*1397 aC3H5 + H (+ M) <=> C3H6 (+ M)*) mkKin (mkArr 2.000000e+14 0.0 0.0) (Some (mkArr 1.330000e+60 (-12.0) 5967.8)) (Some (mkTroe 0.02 1096.6 1096.6 (Some 6859.5)));
  (*1404 aC3H5 + O <=> C2H3CHO + H*) mkKin (mkArr 6.000000e+13 0.0 0.0) None None;
  (*1407 aC3H5 + OH <=> C2H3CHO + H + H*) mkKin (mkArr 4.200000e+32 (-5.16) 30126.0) None None;
  (*1410 aC3H5 + O2 <=> C2H3CHO + OH*) mkKin (mkArr 1.820000e+13 (-0.41) 22859.0) None None;
  (*1413 aC3H5 + HO2 <=> C3H6 + O2*) mkKin (mkArr 2.660000e+12 0.0 0.0) None None;
  (*1416 aC3H5 + HO2 <=> OH + C2H3 + CH2O*) mkKin (mkArr 6.600000e+12 0.0 0.0) None None;
  (*1419 aC3H5 + HCO <=> C3H6 + CO*) mkKin (mkArr 6.000000e+13 0.0 0.0) None None;
  (*1422 aC3H5 + CH3 (+ M) <=> C4H81 (+ M)*) mkKin (mkArr 1.000000e+14 (-0.32) (-262.3)) (Some (mkArr 3.910000e+60 (-12.81) 6250.0)) (Some (mkTroe 0.104 1606.0 60000.0 (Some 6118.4)));
  (*1430 C3H6 + H (+ M) <=> nC3H7 (+ M)*) mkKin (mkArr 1.330000e+13 0.0 3260.7) (Some (mkArr 6.260000e+38 (-6.66) 7000.0)) (Some (mkTroe 1.0 1000.0 1310.0 (Some 48097.0)));
  (*1437 C3H6 + H <=> C2H4 + CH3*) mkKin (mkArr 8.000000e+21 (-2.39) 11180.0) None None;
  (*1440 C3H6 + H <=> aC3H5 + H2*) mkKin (mkArr 1.730000e+05 2.5 2490.0) None None;
  (*1443 C3H6 + O <=> C2H3CHO + H + H*) mkKin (mkArr 4.000000e+07 1.65 327.0) None None;
  (*1446 C3H6 + O <=> C2H5 + HCO*) mkKin (mkArr 3.500000e+07 1.65 (-972.0)) None None;
  (*1449 C3H6 + O <=> aC3H5 + OH*) mkKin (mkArr 1.800000e+11 0.7 5880.0) None None;
  (*1452 C3H6 + OH <=> aC3H5 + H2O*) mkKin (mkArr 3.100000e+06 2.0 (-298.0)) None None;
  (*1455 C3H6 + HO2 <=> aC3H5 + H2O2*) mkKin (mkArr 9.600000e+03 2.6 13910.0) None None;
  (*1458 C3H6 + CH3 <=> aC3H5 + CH4*) mkKin (mkArr 2.200000e+00 3.5 5675.0) None None;
  (*1462 C2H3CHO + H <=> C2H4 + HCO*) mkKin (mkArr 1.080000e+11 0.454 5820.0) None None;
  (*1465 C2H3CHO + O <=> C2H3 + OH + CO*) mkKin (mkArr 3.000000e+13 0.0 3540.0) None None;
  (*1468 C2H3CHO + OH <=> C2H3 + H2O + CO*) mkKin (mkArr 3.430000e+09 1.18 (-447.0)) None None;
  (*1472 nC3H7 + H <=> C2H5 + CH3*) mkKin (mkArr 3.700000e+24 (-2.92) 12505.0) None None;
  (*1475 nC3H7 + H <=> C3H6 + H2*) mkKin (mkArr 1.800000e+12 0.0 0.0) None None;
  (*1478 nC3H7 + O <=> C2H5 + CH2O*) mkKin (mkArr 9.600000e+13 0.0 0.0) None None;
  (*1481 nC3H7 + OH <=> C3H6 + H2O*) mkKin (mkArr 2.400000e+13 0.0 0.0) None None;
  (*1484 nC3H7 + O2 <=> C3H6 + HO2*) mkKin (mkArr 9.000000e+10 0.0 0.0) None None;
  (*1487 nC3H7 + HO2 <=> C2H5 + OH + CH2O*) mkKin (mkArr 2.400000e+13 0.0 0.0) None None;
  (*1490 nC3H7 + CH3 <=> CH4 + C3H6*) mkKin (mkArr 1.100000e+13 0.0 0.0) None None;
  (*1494 C4H7 + H (+ M) <=> C4H81 (+ M)*) mkKin (mkArr 3.600000e+13 0.0 0.0) (Some (mkArr 3.010000e+48 (-9.32) 5833.6)) (Some (mkTroe 0.498 1314.0 1314.0 (Some 50000.0)));
  (*1501 C4H7 + H <=> CH3 + aC3H5*) mkKin (mkArr 2.000000e+21 (-2.0) 11000.0) None None;
  (*1504 C4H7 + HO2 <=> CH2O + OH + aC3H5*) mkKin (mkArr 2.400000e+13 0.0 0.0) None None;
  (*1507 C4H7 + HCO <=> C4H81 + CO*) mkKin (mkArr 6.000000e+13 0.0 0.0) None None;
  (*1511 C4H81 + H (+ M) <=> pC4H9 (+ M)*) mkKin (mkArr 1.330000e+13 0.0 3260.7) (Some (mkArr 6.260000e+38 (-6.66) 7000.0)) (Some (mkTroe 1.0 1000.0 1310.0 (Some 48097.0)));
  (*1518 C4H81 + H <=> C2H4 + C2H5*) mkKin (mkArr 1.600000e+22 (-2.39) 11180.0) None None;
  (*1521 C4H81 + H <=> C3H6 + CH3*) mkKin (mkArr 3.200000e+22 (-2.39) 11180.0) None None;
  (*1524 C4H81 + H <=> C4H7 + H2*) mkKin (mkArr 6.500000e+05 2.54 6756.0) None None;
  (*1527 C4H81 + O <=> nC3H7 + HCO*) mkKin (mkArr 3.300000e+08 1.45 (-402.0)) None None;
  (*1530 C4H81 + O <=> C4H7 + OH*) mkKin (mkArr 1.500000e+13 0.0 5760.0) None None;
  (*1534 C4H81 + O <=> C4H7 + OH*) mkKin (mkArr 2.600000e+13 0.0 4470.0) None None;
  (*1538 C4H81 + OH <=> C4H7 + H2O*) mkKin (mkArr 7.000000e+02 2.66 527.0) None None;
  (*1541 C4H81 + O2 <=> C4H7 + HO2*) mkKin (mkArr 2.000000e+13 0.0 50930.0) None None;
  (*1544 C4H81 + HO2 <=> C4H7 + H2O2*) mkKin (mkArr 1.000000e+12 0.0 14340.0) None None;
  (*1547 C4H81 + CH3 <=> C4H7 + CH4*) mkKin (mkArr 4.500000e-01 3.65 7153.0) None None;
  (*1552 pC4H9 + H <=> C2H5 + C2H5*) mkKin (mkArr 3.700000e+24 (-2.92) 12505.0) None None;
  (*1555 pC4H9 + H <=> C4H81 + H2*) mkKin (mkArr 1.800000e+12 0.0 0.0) None None;
  (*1558 pC4H9 + O <=> nC3H7 + CH2O*) mkKin (mkArr 9.600000e+13 0.0 0.0) None None;
  (*1561 pC4H9 + OH <=> C4H81 + H2O*) mkKin (mkArr 2.400000e+13 0.0 0.0) None None;
  (*1564 pC4H9 + O2 <=> C4H81 + HO2*) mkKin (mkArr 2.700000e+11 0.0 0.0) None None;
  (*1567 pC4H9 + HO2 <=> nC3H7 + OH + CH2O*) mkKin (mkArr 2.400000e+13 0.0 0.0) None None;
  (*1570 pC4H9 + CH3 <=> C4H81 + CH4*) mkKin (mkArr 1.100000e+13 0.0 0.0) None None;
  (*1576 C5H9 => aC3H5 + C2H4*) mkKin (mkArr 2.500000e+13 0.0 30019.12) None None;
  (*1579 C5H9 => C2H3 + C3H6*) mkKin (mkArr 2.500000e+13 0.0 30019.12) None None;
  (*1582 C5H10 + H (+ M) <=> PXC5H11 (+ M)*) mkKin (mkArr 1.330000e+13 0.0 3260.7) (Some (mkArr 6.260000e+38 (-6.66) 7000.0)) (Some (mkTroe 1.0 1000.0 1310.0 (Some 48097.0)));
  (*1589 C5H10 + H <=> C2H4 + nC3H7*) mkKin (mkArr 8.000000e+21 (-2.39) 11180.0) None None;
  (*1592 C5H10 + H <=> C3H6 + C2H5*) mkKin (mkArr 1.600000e+22 (-2.39) 11180.0) None None;
  (*1595 C2H4 + nC3H7 <=> PXC5H11*) mkKin (mkArr 3.000000e+11 0.0 7300.0) None None;
  (*1598 C6H12 + H (+ M) <=> PXC6H13 (+ M)*) mkKin (mkArr 1.330000e+13 0.0 3260.7) (Some (mkArr 6.260000e+38 (-6.66) 7000.0)) (Some (mkTroe 1.0 1000.0 1310.0 (Some 48097.0)));
  (*1605 C6H12 + H <=> C2H4 + pC4H9*) mkKin (mkArr 8.000000e+21 (-2.39) 11180.0) None None;
  (*1608 C6H12 + H <=> C3H6 + nC3H7*) mkKin (mkArr 1.600000e+22 (-2.39) 11180.0) None None;
  (*1611 C2H4 + pC4H9 <=> PXC6H13*) mkKin (mkArr 3.000000e+11 0.0 7300.0) None None;
  (*1614 C7H14 + H (+ M) <=> PXC7H15 (+ M)*) mkKin (mkArr 1.330000e+13 0.0 3260.7) (Some (mkArr 6.260000e+38 (-6.66) 7000.0)) (Some (mkTroe 1.0 1000.0 1310.0 (Some 48097.0)));
  (*1621 C7H14 + H <=> C2H4 + PXC5H11*) mkKin (mkArr 8.000000e+21 (-2.39) 11180.0) None None;
  (*1624 C7H14 + H <=> C3H6 + pC4H9*) mkKin (mkArr 1.600000e+22 (-2.39) 11180.0) None None;
  (*1627 C2H4 + PXC5H11 <=> PXC7H15*) mkKin (mkArr 3.000000e+11 0.0 7300.0) None None;
  (*1630 C8H16 + H (+ M) <=> PXC8H17 (+ M)*) mkKin (mkArr 1.330000e+13 0.0 3260.7) (Some (mkArr 6.260000e+38 (-6.66) 7000.0)) (Some (mkTroe 1.0 1000.0 1310.0 (Some 48097.0)));
  (*1637 C8H16 + H <=> C2H4 + PXC6H13*) mkKin (mkArr 8.000000e+21 (-2.39) 11180.0) None None;
  (*1640 C8H16 + H <=> C3H6 + PXC5H11*) mkKin (mkArr 1.600000e+22 (-2.39) 11180.0) None None;
  (*1643 C2H4 + PXC6H13 <=> PXC8H17*) mkKin (mkArr 3.000000e+11 0.0 7300.0) None None;
  (*1646 C9H18 + H (+ M) <=> PXC9H19 (+ M)*) mkKin (mkArr 1.330000e+13 0.0 3260.7) (Some (mkArr 6.260000e+38 (-6.66) 7000.0)) (Some (mkTroe 1.0 1000.0 1310.0 (Some 48097.0)));
  (*1653 C9H18 + H <=> C2H4 + PXC7H15*) mkKin (mkArr 8.000000e+21 (-2.39) 11180.0) None None;
  (*1656 C9H18 + H <=> C3H6 + PXC6H13*) mkKin (mkArr 1.600000e+22 (-2.39) 11180.0) None None;
  (*1659 C2H4 + PXC7H15 <=> PXC9H19*) mkKin (mkArr 3.000000e+11 0.0 7300.0) None None;
  (*1662 C10H20 + H (+ M) <=> PXC10H21 (+ M)*) mkKin (mkArr 1.330000e+13 0.0 3260.7) (Some (mkArr 6.260000e+38 (-6.66) 7000.0)) (Some (mkTroe 1.0 1000.0 1310.0 (Some 48097.0)));
  (*1669 C10H20 + H <=> C2H4 + PXC8H17*) mkKin (mkArr 8.000000e+21 (-2.39) 11180.0) None None;
  (*1672 C10H20 + H <=> C3H6 + PXC7H15*) mkKin (mkArr 1.600000e+22 (-2.39) 11180.0) None None;
  (*1675 C2H4 + PXC8H17 <=> PXC10H21*) mkKin (mkArr 3.000000e+11 0.0 7300.0) None None;
  (*1678 C12H24 <=> PXC7H15 + C5H9*) mkKin (mkArr 3.500000e+16 0.0 70936.9) None None;
  (*1681 C2H4 + PXC10H21 <=> PXC12H25*) mkKin (mkArr 3.000000e+11 0.0 7300.0) None None;
  (*1684 PXC12H25 <=> S3XC12H25*) mkKin (mkArr 3.670000e+12 (-0.6) 14400.0) None None;
  (*1687 C3H6 + PXC9H19 <=> SXC12H25*) mkKin (mkArr 3.000000e+11 0.0 7300.0) None None;
  (*1690 C4H81 + PXC8H17 <=> SXC12H25*) mkKin (mkArr 3.000000e+11 0.0 7300.0) None None;
  (*1693 C5H10 + PXC7H15 <=> S3XC12H25*) mkKin (mkArr 3.000000e+11 0.0 7300.0) None None;
  (*1696 C10H20 + C2H5 <=> S3XC12H25*) mkKin (mkArr 3.000000e+11 0.0 7300.0) None None;
  (*1699 C6H12 + PXC6H13 <=> S3XC12H25*) mkKin (mkArr 3.000000e+11 0.0 7300.0) None None;
  (*1702 C9H18 + nC3H7 <=> S3XC12H25*) mkKin (mkArr 3.000000e+11 0.0 7300.0) None None;
  (*1705 C7H14 + PXC5H11 <=> S3XC12H25*) mkKin (mkArr 3.000000e+11 0.0 7300.0) None None;
  (*1708 C8H16 + pC4H9 <=> S3XC12H25*) mkKin (mkArr 3.000000e+11 0.0 7300.0) None None;
  (*1712 PXC10H21 + C2H5 <=> NC12H26*) mkKin (mkArr 1.880000e+14 (-0.5) 0.0) None None;
  (*1715 PXC9H19 + nC3H7 <=> NC12H26*) mkKin (mkArr 1.880000e+14 (-0.5) 0.0) None None;
  (*1718 PXC8H17 + pC4H9 <=> NC12H26*) mkKin (mkArr 1.880000e+14 (-0.5) 0.0) None None;
  (*1721 PXC7H15 + PXC5H11 <=> NC12H26*) mkKin (mkArr 1.880000e+14 (-0.5) 0.0) None None;
  (*1724 PXC6H13 + PXC6H13 <=> NC12H26*) mkKin (mkArr 1.880000e+14 (-0.5) 0.0) None None;
  (*1727 NC12H26 + H <=> PXC12H25 + H2*) mkKin (mkArr 1.300000e+06 2.54 6756.0) None None;
  (*1730 NC12H26 + H <=> SXC12H25 + H2*) mkKin (mkArr 2.600000e+06 2.4 4471.0) None None;
  (*1733 NC12H26 + H <=> S3XC12H25 + H2*) mkKin (mkArr 3.900000e+06 2.4 4471.0) None None;
  (*1736 NC12H26 + O <=> PXC12H25 + OH*) mkKin (mkArr 1.900000e+05 2.68 3716.0) None None;
  (*1739 NC12H26 + O <=> SXC12H25 + OH*) mkKin (mkArr 9.520000e+04 2.71 2106.0) None None;
  (*1742 NC12H26 + O <=> S3XC12H25 + OH*) mkKin (mkArr 1.428000e+05 2.71 2106.0) None None;
  (*1745 NC12H26 + OH <=> PXC12H25 + H2O*) mkKin (mkArr 3.400000e+03 2.66 527.0) None None;
  (*1748 NC12H26 + OH <=> SXC12H25 + H2O*) mkKin (mkArr 7.400000e+04 2.39 393.0) None None;
  (*1751 NC12H26 + OH <=> S3XC12H25 + H2O*) mkKin (mkArr 1.010000e+05 2.39 393.0) None None;
  (*1754 NC12H26 + O2 <=> PXC12H25 + HO2*) mkKin (mkArr 4.000000e+13 0.0 50930.0) None None;
  (*1757 NC12H26 + O2 <=> SXC12H25 + HO2*) mkKin (mkArr 8.000000e+13 0.0 47590.0) None None;
  (*1760 NC12H26 + O2 <=> S3XC12H25 + HO2*) mkKin (mkArr 1.200000e+14 0.0 47590.0) None None;
  (*1763 NC12H26 + HO2 <=> PXC12H25 + H2O2*) mkKin (mkArr 6.760000e+04 2.55 16490.0) None None;
  (*1766 NC12H26 + HO2 <=> SXC12H25 + H2O2*) mkKin (mkArr 8.900000e+04 2.6 13910.0) None None;
  (*1769 NC12H26 + HO2 <=> S3XC12H25 + H2O2*) mkKin (mkArr 8.850000e+04 2.6 13910.0) None None;
  (*1772 NC12H26 + CH3 <=> PXC12H25 + CH4*) mkKin (mkArr 1.810000e+00 3.65 7153.0) None None;
  (*1775 NC12H26 + CH3 <=> SXC12H25 + CH4*) mkKin (mkArr 6.000000e+00 3.46 5480.0) None None;
  (*1778 NC12H26 + CH3 <=> S3XC12H25 + CH4*) mkKin (mkArr 9.000000e+00 3.46 5480.0) None None;
  (*1782 PXC12H25 + O2 => C12H25O2*) mkKin (mkArr 5.000000e+13 0.0 0.0) None None;
  (*1785 C12H25O2 => PXC12H25 + O2*) mkKin (mkArr 2.750000e+13 0.0 27400.0) None None;
  (*1788 SXC12H25 + O2 => C12H25O2*) mkKin (mkArr 5.000000e+13 0.0 0.0) None None;
  (*1791 C12H25O2 => SXC12H25 + O2*) mkKin (mkArr 2.750000e+13 0.0 27400.0) None None;
  (*1794 S3XC12H25 + O2 => C12H25O2*) mkKin (mkArr 5.000000e+13 0.0 0.0) None None;
  (*1797 C12H25O2 => S3XC12H25 + O2*) mkKin (mkArr 2.750000e+13 0.0 27400.0) None None;
  (*1800 C12H25O2 => C12OOH*) mkKin (mkArr 1.510000e+12 0.0 19000.0) None None;
  (*1803 C12OOH => C12H25O2*) mkKin (mkArr 1.000000e+11 0.0 11500.0) None None;
  (*1806 PXC12H25 + O2 => C12H24 + HO2*) mkKin (mkArr 3.500000e+11 0.0 6000.0) None None;
  (*1809 C12H24 + HO2 => PXC12H25 + O2*) mkKin (mkArr 3.160000e+11 0.0 19500.0) None None;
  (*1812 SXC12H25 + O2 => C12H24 + HO2*) mkKin (mkArr 3.500000e+11 0.0 6000.0) None None;
  (*1815 C12H24 + HO2 => SXC12H25 + O2*) mkKin (mkArr 3.160000e+11 0.0 19500.0) None None;
  (*1818 S3XC12H25 + O2 => C12H24 + HO2*) mkKin (mkArr 3.500000e+11 0.0 6000.0) None None;
  (*1821 C12H24 + HO2 => S3XC12H25 + O2*) mkKin (mkArr 3.160000e+11 0.0 19500.0) None None;
  (*1824 C12OOH + O2 => O2C12H24OOH*) mkKin (mkArr 4.600000e+10 0.0 0.0) None None;
  (*1827 O2C12H24OOH => C12OOH + O2*) mkKin (mkArr 2.510000e+13 0.0 27400.0) None None;
  (*1830 O2C12H24OOH <=> OC12H23OOH + OH*) mkKin (mkArr 8.900000e+10 0.0 17000.0) None None;
  (*1833 OC12H23OOH => 3 C2H4 + C2H5 + 2 CH2CHO + OH*) mkKin (mkArr 1.800000e+15 0.0 42065.0) None None
].

(** Thermo entries of a mechanism. *)
Definition nasa (m : mechanism) : list nasa7 :=
  match m with drm19 => drm19_nasa | gri30 => gri30_nasa | yao => yao_nasa end.

(** Rate data of a mechanism. *)
Definition rate_data (m : mechanism) : list kinetics :=
  match m with drm19 => drm19_kinetics | gri30 => gri30_kinetics | yao => yao_kinetics end.
