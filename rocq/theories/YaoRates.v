(** Transcription of /repo/utilities/mechanisms/yao/lib/src (C, constant pressure branch); the number
    before a statement is its line. *)
From Coq Require Import List QArith.
From Verif Require Import MechLang.
Import ListNotations.
Local Open Scope mech_scope.

(** [eval_rxn_rates], yao/lib/src/rxn_rates.c:2-3652. *)
Definition yao_eval_rxn_rates : list stmt := [
  (*3*) Do (Asn v_logT 0 ((Log $v_T)));
  (*9*) Do (Asn v_kf 0 ((Exp (#2.5303733410294132e+01 - #7.4689156187265553e+03 / $v_T))));
  (*10*) Do (Asn v_fwd_rxn_rates 0 (v_C.[1] * v_C.[8] * $v_kf));
  (*11*) If ($v_T) (#1000.0)
    [Asn v_Kc 0 (#(-2.8606087269999994e+00) + #1.0111163499999996e+00 * $v_logT + $v_T * (#(-1.7540170353526664e-03) + $v_T * (#5.5390147699932011e-07 + $v_T * (#(-1.8710896519173460e-10) + #4.6565256546386614e-14 * $v_T))) - #8.0940809800000025e+03 / $v_T)]
    [Asn v_Kc 0 (#5.8278192039999999e+00 + #(-3.4838820999999953e-01) * $v_logT + $v_T * (#(-2.5627857530785130e-04) + $v_T * (#9.0138725623967528e-08 + $v_T * (#(-1.5747205230403970e-11) + #1.0784078525901320e-15 * $v_T))) - #8.5512346600000037e+03 / $v_T)];
  (*17*) Do (Asn v_Kc 0 (#1.0000000000000000e+00 * (Exp $v_Kc)));
  (*18*) Do (Asn v_rev_rxn_rates 0 (v_C.[2] * v_C.[3] * $v_kf / $v_Kc));
  (*21*) Do (Asn v_kf 0 ((Exp (#3.8262472284067424e+00 + #2.7 * $v_logT - #3.1501544760183583e+03 / $v_T))));
  (*22*) Do (Asn v_fwd_rxn_rates 1 (v_C.[5] * v_C.[2] * $v_kf));
  (*23*) If ($v_T) (#1000.0)
    [Asn v_Kc 0 (#(-4.9847669009999986e+00) + #1.1127073899999997e+00 * $v_logT + $v_T * (#(-3.9633256496473335e-03) + $v_T * (#3.2271223246673460e-06 + $v_T * (#(-1.6523066323082654e-09) + #3.6629158445361341e-13 * $v_T))) - #6.5087399300000106e+02 / $v_T)]
    [Asn v_Kc 0 (#4.2176135959999996e+00 + #(-5.4197110999999998e-01) * $v_logT + $v_T * (#5.9594052185785141e-04 + $v_T * (#(-1.3341466312396754e-07) + $v_T * (#1.8342169713737305e-11 + #(-1.1292916385901322e-15) * $v_T))) - #9.2509746199999790e+02 / $v_T)];
  (*29*) Do (Asn v_Kc 0 (#1.0000000000000000e+00 * (Exp $v_Kc)));
  (*30*) Do (Asn v_rev_rxn_rates 1 (v_C.[1] * v_C.[3] * $v_kf / $v_Kc));
  (*33*) Do (Asn v_kf 0 ((Exp (#1.1536641991587544e+01 + #1.6 * $v_logT - #1.6597590263836792e+03 / $v_T))));
  (*34*) Do (Asn v_fwd_rxn_rates 2 (v_C.[5] * v_C.[3] * $v_kf));
  (*35*) If ($v_T) (#1000.0)
    [Asn v_Kc 0 (#(-1.5172961690000006e+00) + #2.2900383000000035e-01 * $v_logT + $v_T * (#(-3.3957527296473336e-03) + $v_T * (#3.2451510330006798e-06 + $v_T * (#(-1.6538869656415989e-09) + #3.5428609945361340e-13 * $v_T))) - #(-7.2836697470000008e+03) / $v_T)]
    [Asn v_Kc 0 (#2.6914853259999991e+00 + #(-6.6801555999999973e-01) * $v_logT + $v_T * (#5.8490800500785142e-04 + $v_T * (#(-6.7407753640634187e-08) + $v_T * (#4.3335445720706396e-12 + #(-9.3673957090132184e-17) * $v_T))) - #(-7.2993360180000009e+03) / $v_T)];
  (*41*) Do (Asn v_Kc 0 (#1.0000000000000000e+00 * (Exp $v_Kc)));
  (*42*) Do (Asn v_rev_rxn_rates 2 (v_C.[1] * v_C.[6] * $v_kf / $v_Kc));
  (*45*) Do (Asn v_kf 0 ((Exp (#3.6821065698265074e+00 + #2.4 * $v_logT - #(-1.0617932818528332e+03) / $v_T))));
  (*46*) Do (Asn v_fwd_rxn_rates 3 (v_C.[3] * v_C.[3] * $v_kf));
  (*47*) If ($v_T) (#1000.0)
    [Asn v_Kc 0 (#3.4674707319999989e+00 + #(-8.8370355999999894e-01) * $v_logT + $v_T * (#5.6757292000000036e-04 + $v_T * (#1.8028708333333334e-08 + $v_T * (#(-1.5803333333332763e-12) + #(-1.2005484999999990e-14) * $v_T))) - #(-7.9345437399999992e+03) / $v_T)]
    [Asn v_Kc 0 (#(-1.5261282700000018e+00) + #(-1.2604444999999975e-01) * $v_logT + $v_T * (#(-1.1032516849999877e-05) + $v_T * (#6.6006909483333336e-08 + $v_T * (#(-1.4008625141666667e-11) + #1.0356176815000000e-15 * $v_T))) - #(-8.2244334799999997e+03) / $v_T)];
  (*53*) Do (Asn v_Kc 0 (#1.0000000000000000e+00 * (Exp $v_Kc)));
  (*54*) Do (Asn v_rev_rxn_rates 3 (v_C.[6] * v_C.[2] * $v_kf / $v_Kc));
  (*57*) Do (Asn v_kf 0 ((Exp (#2.2355638720663009e+01 + #0.44 * $v_logT))));
  (*58*) Do (Asn v_fwd_rxn_rates 4 (v_C.[1] * v_C.[8] * $v_kf));
  (*59*) If ($v_T) (#1000.0)
    [Asn v_Kc 0 (#2.4863279230000002e+00 + #(-9.8065835000000012e-01) * $v_logT + $v_T * (#(-8.7619317535266614e-04) + $v_T * (#1.8851645153326528e-06 + $v_T * (#(-1.2162578593584016e-09) + #3.0242614354638670e-13 * $v_T))) - #(-2.4114908299999999e+04) / $v_T)]
    [Asn v_Kc 0 (#5.4388072400000009e-01 + #(-7.6532694999999951e-01) * $v_logT + $v_T * (#3.7836630654214875e-04 + $v_T * (#2.0718083807300866e-08 + $v_T * (#(-7.9353483554039681e-12) + #5.4404627009013211e-16 * $v_T))) - #(-2.4273345466999999e+04) / $v_T)];
  (*65*) Do (Asn v_Kc 0 (#8.2057360967184814e-02 * (Exp $v_Kc)));
  (*66*) Do (Asn v_rev_rxn_rates 4 (v_C.[4] * $v_kf / $v_Kc));
  (*69*) Do (Asn v_kf 0 ((Exp (#2.5038751947812049e+01 - #1.4844977163345297e+02 / $v_T))));
  (*70*) Do (Asn v_fwd_rxn_rates 5 (v_C.[1] * v_C.[4] * $v_kf));
  (*71*) If ($v_T) (#1000.0)
    [Asn v_Kc 0 (#(-6.0996587269999996e+00) + #1.4488132100000000e+00 * $v_logT + $v_T * (#(-8.5088913535266665e-04) + $v_T * (#(-1.3504992130006798e-06) + $v_T * (#1.0566097114749322e-09 + #(-2.5837518295361346e-13) * $v_T))) - #(-1.9005391699999996e+04) / $v_T)]
    [Asn v_Kc 0 (#8.8526154140000006e+00 + #(-7.8775319000000010e-01) * $v_logT + $v_T * (#(-6.3405573457851186e-05) + $v_T * (#1.9248769640634191e-08 + $v_T * (#(-4.4335525387373052e-12) + #4.0634677409013215e-16 * $v_T))) - #(-1.8147801133000001e+04) / $v_T)];
  (*77*) Do (Asn v_Kc 0 (#1.0000000000000000e+00 * (Exp $v_Kc)));
  (*78*) Do (Asn v_rev_rxn_rates 5 (v_C.[3] * v_C.[3] * $v_kf / $v_Kc));
  (*81*) Do (Asn v_kf 0 ((Exp (#6.3828307308366448e+00 + #2.433 * $v_logT - #2.6923253159094918e+04 / $v_T))));
  (*82*) Do (Asn v_fwd_rxn_rates 6 (v_C.[5] * v_C.[8] * $v_kf));
  (*83*) If ($v_T) (#1000.0)
    [Asn v_Kc 0 (#(-1.7457169009999998e+00) + #6.7501052999999978e-01 * $v_logT + $v_T * (#(-4.8664535496473326e-03) + $v_T * (#5.1315230146673465e-06 + $v_T * (#(-2.8960253089749321e-09) + #6.7123202395361351e-13 * $v_T))) - #2.7750346673000000e+04 / $v_T)]
    [Asn v_Kc 0 (#1.1928173859999998e+00 + #(-1.0260612999999941e-01) * $v_logT + $v_T * (#4.0306752000785135e-04 + $v_T * (#(-6.2524707140634212e-08) + $v_T * (#7.0285170220706399e-12 + #(-4.5723056009013232e-16) * $v_T))) - #2.7624133254999997e+04 / $v_T)];
  (*89*) Do (Asn v_Kc 0 (#1.0000000000000000e+00 * (Exp $v_Kc)));
  (*90*) Do (Asn v_rev_rxn_rates 6 (v_C.[1] * v_C.[4] * $v_kf / $v_Kc));
  (*93*) Do (Asn v_kf 0 ((Exp (#2.4087453392974666e+01 - #(-2.5257093179846231e+02) / $v_T))));
  (*94*) Do (Asn v_fwd_rxn_rates 7 (v_C.[4] * v_C.[3] * $v_kf));
  (*95*) If ($v_T) (#1000.0)
    [Asn v_Kc 0 (#2.2842073199999913e-01 + #(-4.4600669999999898e-01) * $v_logT + $v_T * (#1.4707008199999999e-03 + $v_T * (#(-1.8863719816666663e-06) + $v_T * (#1.2421383433333332e-09 + #(-3.1694592450000006e-13) * $v_T))) - #(-3.5034016420000000e+04) / $v_T)]
    [Asn v_Kc 0 (#1.4986679399999994e+00 + #(-5.6540943000000032e-01) * $v_logT + $v_T * (#1.8184048500000018e-04 + $v_T * (#(-4.8830465000000014e-09) + $v_T * (#(-2.6949724500000024e-12) + #3.6355660300000002e-16 * $v_T))) - #(-3.4923469273000002e+04) / $v_T)];
  (*101*) Do (Asn v_Kc 0 (#1.0000000000000000e+00 * (Exp $v_Kc)));
  (*102*) Do (Asn v_rev_rxn_rates 7 (v_C.[6] * v_C.[8] * $v_kf / $v_Kc));
  (*105*) Do (Asn v_kf 0 ((Exp (#2.2102031931645509e+01 - #3.3766032802049813e+02 / $v_T))));
  (*106*) Do (Asn v_fwd_rxn_rates 8 (v_C.[1] * v_C.[4] * $v_kf));
  (*107*) If ($v_T) (#1000.0)
    [Asn v_Kc 0 (#(-2.6321879950000007e+00) + #5.6510965000000102e-01 * $v_logT + $v_T * (#(-2.8331621535266629e-04) + $v_T * (#(-1.3324705046673464e-06) + $v_T * (#1.0550293781415989e-09 + #(-2.7038066795361348e-13) * $v_T))) - #(-2.6939935439999997e+04) / $v_T)]
    [Asn v_Kc 0 (#7.3264871439999988e+00 + #(-9.1379763999999986e-01) * $v_logT + $v_T * (#(-7.4438090307851063e-05) + $v_T * (#8.5255679123967526e-08 + $v_T * (#(-1.8442177680403972e-11) + #1.4419644555901321e-15 * $v_T))) - #(-2.6372234613000001e+04) / $v_T)];
  (*113*) Do (Asn v_Kc 0 (#1.0000000000000000e+00 * (Exp $v_Kc)));
  (*114*) Do (Asn v_rev_rxn_rates 8 (v_C.[6] * v_C.[2] * $v_kf / $v_Kc));
  (*117*) Do (Asn v_kf 0 (#40000000000.0));
  (*118*) Do (Asn v_fwd_rxn_rates 9 (v_C.[4] * v_C.[2] * $v_kf));
  (*119*) If ($v_T) (#1000.0)
    [Asn v_Kc 0 (#(-3.2390499999999993e+00) + #4.3769685999999952e-01 * $v_logT + $v_T * (#9.0312789999999997e-04 + $v_T * (#(-1.9044006899999999e-06) + $v_T * (#1.2437186766666667e-09 + #(-3.0494043950000005e-13) * $v_T))) - #(-2.7099472679999999e+04) / $v_T)]
    [Asn v_Kc 0 (#3.0247962100000003e+00 + #(-4.3936498000000102e-01) * $v_logT + $v_T * (#1.9287300185000011e-04 + $v_T * (#(-7.0889955983333337e-08) + $v_T * (#1.1313652691666665e-11 + #(-6.7206107849999994e-16) * $v_T))) - #(-2.6699035792999999e+04) / $v_T)];
  (*125*) Do (Asn v_Kc 0 (#1.0000000000000000e+00 * (Exp $v_Kc)));
  (*126*) Do (Asn v_rev_rxn_rates 9 (v_C.[8] * v_C.[3] * $v_kf / $v_Kc));
  (*129*) Do (Asn v_kf 0 ((Exp (#1.8683045008419857e+01 - #(-8.2024789072043507e+02) / $v_T))));
  (*130*) Do (Asn v_fwd_rxn_rates 10 (v_C.[4] * v_C.[4] * $v_kf));
  (*131*) If ($v_T) (#1000.0)
    [Asn v_Kc 0 (#2.0442853999999988e-01 + #(-5.4502697000000033e-01) * $v_logT + $v_T * (#2.9793422214999996e-03 + $v_T * (#(-2.6226176816666659e-06) + $v_T * (#1.4412002008333336e-09 + #(-3.3581152400000006e-13) * $v_T))) - #(-1.9356141739999999e+04) / $v_T)]
    [Asn v_Kc 0 (#1.3860647200000007e+00 + #(-5.8688111000000109e-01) * $v_logT + $v_T * (#9.5588210999999991e-04 + $v_T * (#(-2.3200710316666662e-07) + $v_T * (#2.9346983416666660e-11 + #(-1.4440451450000000e-15) * $v_T))) - #(-1.9173958845999998e+04) / $v_T)];
  (*137*) Do (Asn v_Kc 0 (#1.0000000000000000e+00 * (Exp $v_Kc)));
  (*138*) Do (Asn v_rev_rxn_rates 10 (v_C.[7] * v_C.[8] * $v_kf / $v_Kc));
  (*141*) Do (Asn v_kf 0 ((Exp (#2.6625352572903175e+01 - #6.0386347783099518e+03 / $v_T))));
  (*142*) Do (Asn v_fwd_rxn_rates 11 (v_C.[4] * v_C.[4] * $v_kf));
  (*143*) If ($v_T) (#1000.0)
    [Asn v_Kc 0 (#2.0442853999999988e-01 + #(-5.4502697000000033e-01) * $v_logT + $v_T * (#2.9793422214999996e-03 + $v_T * (#(-2.6226176816666659e-06) + $v_T * (#1.4412002008333336e-09 + #(-3.3581152400000006e-13) * $v_T))) - #(-1.9356141739999999e+04) / $v_T)]
    [Asn v_Kc 0 (#1.3860647200000007e+00 + #(-5.8688111000000109e-01) * $v_logT + $v_T * (#9.5588210999999991e-04 + $v_T * (#(-2.3200710316666662e-07) + $v_T * (#2.9346983416666660e-11 + #(-1.4440451450000000e-15) * $v_T))) - #(-1.9173958845999998e+04) / $v_T)];
  (*149*) Do (Asn v_Kc 0 (#1.0000000000000000e+00 * (Exp $v_Kc)));
  (*150*) Do (Asn v_rev_rxn_rates 11 (v_C.[7] * v_C.[8] * $v_kf / $v_Kc));
  (*153*) Do (Asn v_kf 0 ((Exp (#2.3905477677443020e+01 - #1.9977816724908757e+03 / $v_T))));
  (*154*) Do (Asn v_fwd_rxn_rates 12 (v_C.[1] * v_C.[7] * $v_kf));
  (*155*) If ($v_T) (#1000.0)
    [Asn v_Kc 0 (#(-6.0756665349999981e+00) + #1.5478334800000004e+00 * $v_logT + $v_T * (#(-2.3595305368526668e-03) + $v_T * (#(-6.1425351300068019e-07) + $v_T * (#8.5754785397493179e-10 + #(-2.3950958345361341e-13) * $v_T))) - #(-3.4683266380000001e+04) / $v_T)]
    [Asn v_Kc 0 (#8.9652186339999993e+00 + #(-7.6628150999999933e-01) * $v_logT + $v_T * (#(-8.3744719845785113e-04) + $v_T * (#2.4637282630730084e-07 + $v_T * (#(-3.6475508405403969e-11) + #2.2139485220901322e-15 * $v_T))) - #(-3.3897311560000002e+04) / $v_T)];
  (*161*) Do (Asn v_Kc 0 (#1.0000000000000000e+00 * (Exp $v_Kc)));
  (*162*) Do (Asn v_rev_rxn_rates 12 (v_C.[6] * v_C.[3] * $v_kf / $v_Kc));
  (*165*) Do (Asn v_kf 0 ((Exp (#8.7078135510248877e+00 + #2.0 * $v_logT - #2.6167417372676459e+03 / $v_T))));
  (*166*) Do (Asn v_fwd_rxn_rates 13 (v_C.[1] * v_C.[7] * $v_kf));
  (*167*) If ($v_T) (#1000.0)
    [Asn v_Kc 0 (#1.5412883609999999e+00 + #(-1.2998355999999944e-01) * $v_logT + $v_T * (#1.8871113281473334e-03 + $v_T * (#(-2.5089053330006806e-06) + $v_T * (#1.4548251081415985e-09 + #(-3.3542049995361335e-13) * $v_T))) - #(-8.3942049330000009e+03) / $v_T)]
    [Asn v_Kc 0 (#(-2.5788821060000005e+00) + #6.8948724000000006e-01 * $v_logT + $v_T * (#(-1.3589496300078514e-03) + $v_T * (#2.9453181030730083e-07 + $v_T * (#(-3.6375500438737303e-11) + #1.9012757050901321e-15 * $v_T))) - #(-8.4501744089999993e+03) / $v_T)];
  (*173*) Do (Asn v_Kc 0 (#1.0000000000000000e+00 * (Exp $v_Kc)));
  (*174*) Do (Asn v_rev_rxn_rates 13 (v_C.[5] * v_C.[4] * $v_kf / $v_Kc));
  (*177*) Do (Asn v_kf 0 ((Exp (#9.1726385047921717e+00 + #2.0 * $v_logT - #1.9977816724908757e+03 / $v_T))));
  (*178*) Do (Asn v_fwd_rxn_rates 14 (v_C.[7] * v_C.[2] * $v_kf));
  (*179*) If ($v_T) (#1000.0)
    [Asn v_Kc 0 (#(-3.4434785399999996e+00) + #9.8272382999999985e-01 * $v_logT + $v_T * (#(-2.0762143214999996e-03) + $v_T * (#7.1821699166666646e-07 + $v_T * (#(-1.9748152416666681e-10) + #3.0871084500000015e-14 * $v_T))) - #(-7.7433309399999998e+03) / $v_T)]
    [Asn v_Kc 0 (#1.6387314900000001e+00 + #1.4751613000000008e-01 * $v_logT + $v_T * (#(-7.6300910814999995e-04) + $v_T * (#1.6111714718333332e-07 + $v_T * (#(-1.8033330724999997e-11) + #7.7198406650000011e-16 * $v_T))) - #(-7.5250769469999977e+03) / $v_T)];
  (*185*) Do (Asn v_Kc 0 (#1.0000000000000000e+00 * (Exp $v_Kc)));
  (*186*) Do (Asn v_rev_rxn_rates 14 (v_C.[4] * v_C.[3] * $v_kf / $v_Kc));
  (*189*) Do (Asn v_kf 0 ((Exp (#2.1416413017506358e+01 - #2.1487475419486245e+02 / $v_T))));
  (*190*) Do (Asn v_fwd_rxn_rates 15 (v_C.[7] * v_C.[3] * $v_kf));
  (*191*) If ($v_T) (#1000.0)
    [Asn v_Kc 0 (#2.3992192000000578e-02 + #9.9020270000000465e-02 * $v_logT + $v_T * (#(-1.5086414014999997e-03) + $v_T * (#7.3624569999999916e-07 + $v_T * (#(-1.9906185750000009e-10) + #1.8865599500000012e-14 * $v_T))) - #(-1.5677874680000001e+04) / $v_T)]
    [Asn v_Kc 0 (#1.1260321999999867e-01 + #2.1471680000000770e-02 * $v_logT + $v_T * (#(-7.7404162499999994e-04) + $v_T * (#2.2712405666666666e-07 + $v_T * (#(-3.2041955866666658e-11) + #1.8076017479999999e-15 * $v_T))) - #(-1.5749510426999997e+04) / $v_T)];
  (*197*) Do (Asn v_Kc 0 (#1.0000000000000000e+00 * (Exp $v_Kc)));
  (*198*) Do (Asn v_rev_rxn_rates 15 (v_C.[6] * v_C.[4] * $v_kf / $v_Kc));
  (*201*) Do (Asn v_kf 0 ((Exp (#8.8480312006185898e+01 - #7.0 * $v_logT - #1.8921055638704514e+04 / $v_T))));
  (*202*) Do (Asn v_fwd_rxn_rates 16 (v_C.[7] * v_C.[3] * $v_kf));
  (*203*) If ($v_T) (#1000.0)
    [Asn v_Kc 0 (#2.3992192000000578e-02 + #9.9020270000000465e-02 * $v_logT + $v_T * (#(-1.5086414014999997e-03) + $v_T * (#7.3624569999999916e-07 + $v_T * (#(-1.9906185750000009e-10) + #1.8865599500000012e-14 * $v_T))) - #(-1.5677874680000001e+04) / $v_T)]
    [Asn v_Kc 0 (#1.1260321999999867e-01 + #2.1471680000000770e-02 * $v_logT + $v_T * (#(-7.7404162499999994e-04) + $v_T * (#2.2712405666666666e-07 + $v_T * (#(-3.2041955866666658e-11) + #1.8076017479999999e-15 * $v_T))) - #(-1.5749510426999997e+04) / $v_T)];
  (*209*) Do (Asn v_Kc 0 (#1.0000000000000000e+00 * (Exp $v_Kc)));
  (*210*) Do (Asn v_rev_rxn_rates 16 (v_C.[6] * v_C.[4] * $v_kf / $v_Kc));
  (*213*) Do (Asn v_kf 0 ((Exp (#2.5432796038258747e+01 - #0.37 * $v_logT))));
  (*214*) Do (Asn v_fwd_rxn_rates 17 (v_C.[3] * v_C.[3] * $v_kf));
  (*215*) If ($v_T) (#1000.0)
    [Asn v_Kc 0 (#8.7904151899999992e+00 + #(-2.9744985300000000e+00) * $v_logT + $v_T * (#2.9540381815000003e-03 + $v_T * (#6.1304604666666687e-07 + $v_T * (#(-8.3166736999999995e-10) + #2.2498980250000002e-13 * $v_T))) - #(-2.4465658340000002e+04) / $v_T)]
    [Asn v_Kc 0 (#(-6.9226699699999994e+00) + #(-5.6445487000000050e-01) * $v_logT + $v_T * (#1.3976539900000000e-03 + $v_T * (#(-2.3053778899999997e-07) + $v_T * (#2.5845187599999997e-11 + #(-1.3063456490000001e-15) * $v_T))) - #(-2.5299503180000000e+04) / $v_T)];
  (*221*) Do (Asn v_Kc 0 (#8.2057360967184814e-02 * (Exp $v_Kc)));
  (*222*) Do (Asn v_rev_rxn_rates 17 (v_C.[7] * $v_kf / $v_Kc));
  (*225*) Do (Asn v_kf 0 ((Exp (#2.8207634480232542e+01 - #1.0 * $v_logT))));
  (*226*) Do (Asn v_fwd_rxn_rates 18 (v_C.[1] * v_C.[1] * $v_kf));
  (*227*) If ($v_T) (#1000.0)
    [Asn v_Kc 0 (#4.2320448239999999e+00 + #(-1.6556688799999999e+00) * $v_logT + $v_T * (#3.9902603742946671e-03 + $v_T * (#(-3.2463584993346931e-06) + $v_T * (#1.6797674496165307e-09 + #(-3.6880588040722682e-13) * $v_T))) - #(-5.1865254972999996e+04) / $v_T)]
    [Asn v_Kc 0 (#(-6.4893666199999966e-01) + #(-6.6272082000000010e-01) * $v_logT + $v_T * (#(-2.4701213465702698e-05) + $v_T * (#8.3242790947935064e-08 + $v_T * (#(-1.4963865377474610e-11) + #1.0012768301802643e-15 * $v_T))) - #(-5.1897478722000000e+04) / $v_T)];
  (*233*) Do (Asn v_Kc 0 (#8.2057360967184814e-02 * (Exp $v_Kc)));
  (*234*) Do (Asn v_rev_rxn_rates 18 (v_C.[5] * $v_kf / $v_Kc));
  (*237*) Do (Asn v_kf 0 ((Exp (#3.8322966028828944e+01 - #2.0 * $v_logT))));
  (*238*) Do (Asn v_fwd_rxn_rates 19 (v_C.[1] * v_C.[3] * $v_kf));
  (*239*) If ($v_T) (#1000.0)
    [Asn v_Kc 0 (#2.7147486549999997e+00 + #(-1.4266650499999995e+00) * $v_logT + $v_T * (#5.9450764464733354e-04 + $v_T * (#(-1.2074663340133229e-09) + $v_T * (#2.5880483974931943e-11 + #(-1.4519780953613381e-14) * $v_T))) - #(-5.9148924719999995e+04) / $v_T)]
    [Asn v_Kc 0 (#2.0425486639999995e+00 + #(-1.3307363799999998e+00) * $v_logT + $v_T * (#5.6020679154214882e-04 + $v_T * (#1.5835037307300871e-08 + $v_T * (#(-1.0630320805403970e-11) + #9.0760287309013212e-16 * $v_T))) - #(-5.9196814739999994e+04) / $v_T)];
  (*245*) Do (Asn v_Kc 0 (#8.2057360967184814e-02 * (Exp $v_Kc)));
  (*246*) Do (Asn v_rev_rxn_rates 19 (v_C.[6] * $v_kf / $v_Kc));
  (*249*) Do (Asn v_kf 0 ((Exp (#2.5510757579728459e+01 - #1.0 * $v_logT))));
  (*250*) Do (Asn v_fwd_rxn_rates 20 (v_C.[2] * v_C.[2] * $v_kf));
  (*251*) If ($v_T) (#1000.0)
    [Asn v_Kc 0 (#2.1078866500000002e+00 + #(-1.5540778400000002e+00) * $v_logT + $v_T * (#1.7809517600000000e-03 + $v_T * (#(-5.7313765166666677e-07) + $v_T * (#2.1456978249999992e-10 + #(-4.9079552499999993e-14) * $v_T))) - #(-5.9308461960000001e+04) / $v_T)]
    [Asn v_Kc 0 (#(-2.2591422699999990e+00) + #(-8.5630372000000055e-01) * $v_logT + $v_T * (#8.2751788369999995e-04 + $v_T * (#(-1.4031059780000000e-07) + $v_T * (#1.9125509566666665e-11 + #(-1.2064226609999998e-15) * $v_T))) - #(-5.9523615919999997e+04) / $v_T)];
  (*257*) Do (Asn v_Kc 0 (#8.2057360967184814e-02 * (Exp $v_Kc)));
  (*258*) Do (Asn v_rev_rxn_rates 20 (v_C.[8] * $v_kf / $v_Kc));
  (*261*) Do (Asn v_kf 0 ((Exp (#2.5223075507276675e+01 - #0.6 * $v_logT))));
  (*262*) Do (Asn v_fwd_rxn_rates 21 (v_C.[5] * v_C.[1] * v_C.[1] * $v_kf));
  (*263*) If ($v_T) (#1000.0)
    [Asn v_Kc 0 (#4.2320448239999999e+00 + #(-1.6556688799999999e+00) * $v_logT + $v_T * (#3.9902603742946671e-03 + $v_T * (#(-3.2463584993346931e-06) + $v_T * (#1.6797674496165307e-09 + #(-3.6880588040722682e-13) * $v_T))) - #(-5.1865254972999996e+04) / $v_T)]
    [Asn v_Kc 0 (#(-6.4893666199999966e-01) + #(-6.6272082000000010e-01) * $v_logT + $v_T * (#(-2.4701213465702698e-05) + $v_T * (#8.3242790947935064e-08 + $v_T * (#(-1.4963865377474610e-11) + #1.0012768301802643e-15 * $v_T))) - #(-5.1897478722000000e+04) / $v_T)];
  (*269*) Do (Asn v_Kc 0 (#8.2057360967184814e-02 * (Exp $v_Kc)));
  (*270*) Do (Asn v_rev_rxn_rates 21 (v_C.[5] * v_C.[5] * $v_kf / $v_Kc));
  (*273*) Do (Asn v_kf 0 ((Exp (#3.1660649363430959e+01 - #1.25 * $v_logT))));
  (*274*) Do (Asn v_fwd_rxn_rates 22 (v_C.[1] * v_C.[1] * v_C.[6] * $v_kf));
  (*275*) If ($v_T) (#1000.0)
    [Asn v_Kc 0 (#4.2320448239999999e+00 + #(-1.6556688799999999e+00) * $v_logT + $v_T * (#3.9902603742946671e-03 + $v_T * (#(-3.2463584993346931e-06) + $v_T * (#1.6797674496165307e-09 + #(-3.6880588040722682e-13) * $v_T))) - #(-5.1865254972999996e+04) / $v_T)]
    [Asn v_Kc 0 (#(-6.4893666199999966e-01) + #(-6.6272082000000010e-01) * $v_logT + $v_T * (#(-2.4701213465702698e-05) + $v_T * (#8.3242790947935064e-08 + $v_T * (#(-1.4963865377474610e-11) + #1.0012768301802643e-15 * $v_T))) - #(-5.1897478722000000e+04) / $v_T)];
  (*281*) Do (Asn v_Kc 0 (#8.2057360967184814e-02 * (Exp $v_Kc)));
  (*282*) Do (Asn v_rev_rxn_rates 22 (v_C.[5] * v_C.[6] * $v_kf / $v_Kc));
  (*285*) Do (Asn v_kf 0 ((Exp (#3.3940939394155066e+01 - #2.0 * $v_logT))));
  (*286*) Do (Asn v_fwd_rxn_rates 23 (v_C.[1] * v_C.[1] * v_C.[17] * $v_kf));
  (*287*) If ($v_T) (#1000.0)
    [Asn v_Kc 0 (#4.2320448239999999e+00 + #(-1.6556688799999999e+00) * $v_logT + $v_T * (#3.9902603742946671e-03 + $v_T * (#(-3.2463584993346931e-06) + $v_T * (#1.6797674496165307e-09 + #(-3.6880588040722682e-13) * $v_T))) - #(-5.1865254972999996e+04) / $v_T)]
    [Asn v_Kc 0 (#(-6.4893666199999966e-01) + #(-6.6272082000000010e-01) * $v_logT + $v_T * (#(-2.4701213465702698e-05) + $v_T * (#8.3242790947935064e-08 + $v_T * (#(-1.4963865377474610e-11) + #1.0012768301802643e-15 * $v_T))) - #(-5.1897478722000000e+04) / $v_T)];
  (*293*) Do (Asn v_Kc 0 (#8.2057360967184814e-02 * (Exp $v_Kc)));
  (*294*) Do (Asn v_rev_rxn_rates 23 (v_C.[5] * v_C.[17] * $v_kf / $v_Kc));
  (*297*) Do (Asn v_kf 0 ((Exp (#2.9874705101002434e+01 - #1.0 * $v_logT))));
  (*298*) Do (Asn v_fwd_rxn_rates 24 (v_C.[1] * v_C.[2] * $v_kf));
  (*299*) If ($v_T) (#1000.0)
    [Asn v_Kc 0 (#(-7.5272207699999960e-01) + #(-5.4296149000000016e-01) * $v_logT + $v_T * (#2.6934724647333401e-05 + $v_T * (#(-1.9236174667346657e-08) + $v_T * (#2.7460817308265323e-11 + #(-2.5142959536133914e-15) * $v_T))) - #(-5.1214380980000002e+04) / $v_T)]
    [Asn v_Kc 0 (#3.5686769340000013e+00 + #(-1.2046919300000001e+00) * $v_logT + $v_T * (#5.7123930839214870e-04 + $v_T * (#(-5.0171872176032465e-08) + $v_T * (#3.3783043362626957e-12 + #(-1.2801480840986783e-16) * $v_T))) - #(-5.0972381259999995e+04) / $v_T)];
  (*305*) Do (Asn v_Kc 0 (#8.2057360967184814e-02 * (Exp $v_Kc)));
  (*306*) Do (Asn v_rev_rxn_rates 24 (v_C.[3] * $v_kf / $v_Kc));
  (*309*) Do (Asn v_kf 0 ((Exp (#4.2550451729130918e+00 + #2.053 * $v_logT - #(-1.7898010263345839e+02) / $v_T))));
  (*310*) Do (Asn v_fwd_rxn_rates 25 (v_C.[16] * v_C.[3] * $v_kf));
  (*311*) If ($v_T) (#1000.0)
    [Asn v_Kc 0 (#9.4844586070000005e+00 + #(-2.8480655599999998e+00) * $v_logT + $v_T * (#6.4101999203526674e-03 + $v_T * (#(-2.4446706553326532e-06) + $v_T * (#6.1256006402506795e-10 + #(-6.5082441996386614e-14) * $v_T))) - #(-1.1935761920000004e+04) / $v_T)]
    [Asn v_Kc 0 (#(-1.2472919134000000e+01) + #7.7754582999999977e-01 * $v_logT + $v_T * (#6.4766916345785101e-04 + $v_T * (#(-1.5948424914063418e-07) + $v_T * (#2.1909608988737308e-11 + #(-1.2755842770901321e-15) * $v_T))) - #(-1.2852491439999998e+04) / $v_T)];
  (*317*) Do (Asn v_Kc 0 (#1.0000000000000000e+00 * (Exp $v_Kc)));
  (*318*) Do (Asn v_rev_rxn_rates 25 (v_C.[1] * v_C.[17] * $v_kf / $v_Kc));
  (*321*) Do (Asn v_kf 0 ((Exp (#2.2473682342640085e+01 - #0.664 * $v_logT - #1.6698334820721593e+02 / $v_T))));
  (*322*) Do (Asn v_fwd_rxn_rates 26 (v_C.[16] * v_C.[3] * $v_kf));
  (*323*) If ($v_T) (#1000.0)
    [Asn v_Kc 0 (#9.4844586070000005e+00 + #(-2.8480655599999998e+00) * $v_logT + $v_T * (#6.4101999203526674e-03 + $v_T * (#(-2.4446706553326532e-06) + $v_T * (#6.1256006402506795e-10 + #(-6.5082441996386614e-14) * $v_T))) - #(-1.1935761920000004e+04) / $v_T)]
    [Asn v_Kc 0 (#(-1.2472919134000000e+01) + #7.7754582999999977e-01 * $v_logT + $v_T * (#6.4766916345785101e-04 + $v_T * (#(-1.5948424914063418e-07) + $v_T * (#2.1909608988737308e-11 + #(-1.2755842770901321e-15) * $v_T))) - #(-1.2852491439999998e+04) / $v_T)];
  (*329*) Do (Asn v_Kc 0 (#1.0000000000000000e+00 * (Exp $v_Kc)));
  (*330*) Do (Asn v_rev_rxn_rates 26 (v_C.[1] * v_C.[17] * $v_kf / $v_Kc));
  (*333*) Do (Asn v_kf 0 ((Exp (#5.0562458053483077e+00 + #2.18 * $v_logT - #9.0290723966376609e+03 / $v_T))));
  (*334*) Do (Asn v_fwd_rxn_rates 27 (v_C.[16] * v_C.[4] * $v_kf));
  (*335*) If ($v_T) (#1000.0)
    [Asn v_Kc 0 (#3.3847998800000005e+00 + #(-1.3992523499999998e+00) * $v_logT + $v_T * (#5.5593107850000004e-03 + $v_T * (#(-3.7951698683333329e-06) + $v_T * (#1.6691697755000001e-09 + #(-3.2345762495000006e-13) * $v_T))) - #(-3.0941153620000005e+04) / $v_T)]
    [Asn v_Kc 0 (#(-3.6203037199999999e+00) + #(-1.0207359999999888e-02) * $v_logT + $v_T * (#5.8426358999999961e-04 + $v_T * (#(-1.4023547950000000e-07) + $v_T * (#1.7476056450000004e-11 + #(-8.6923750300000011e-16) * $v_T))) - #(-3.1000292572999999e+04) / $v_T)];
  (*341*) Do (Asn v_Kc 0 (#1.0000000000000000e+00 * (Exp $v_Kc)));
  (*342*) Do (Asn v_rev_rxn_rates 27 (v_C.[17] * v_C.[3] * $v_kf / $v_Kc));
  (*345*) Do (Asn v_kf 0 ((Exp (#1.6427049858685642e+01 - #1.1996754426242437e+03 / $v_T))));
  (*346*) Do (Asn v_fwd_rxn_rates 28 (v_C.[16] * v_C.[2] * $v_kf));
  (*347*) If ($v_T) (#1000.0)
    [Asn v_Kc 0 (#8.7317365300000009e+00 + #(-3.3910270499999999e+00) * $v_logT + $v_T * (#6.4371346450000002e-03 + $v_T * (#(-2.4639068299999998e-06) + $v_T * (#6.4002088133333328e-10 + #(-6.7596737950000005e-14) * $v_T))) - #(-6.3150142900000006e+04) / $v_T)]
    [Asn v_Kc 0 (#(-8.9042422000000006e+00) + #(-4.2714609999999986e-01) * $v_logT + $v_T * (#1.2189084718499997e-03 + $v_T * (#(-2.0965612131666668e-07) + $v_T * (#2.5287913325000004e-11 + #(-1.4035990855000001e-15) * $v_T))) - #(-6.3824872699999993e+04) / $v_T)];
  (*353*) Do (Asn v_Kc 0 (#8.2057360967184814e-02 * (Exp $v_Kc)));
  (*354*) Do (Asn v_rev_rxn_rates 28 (v_C.[17] * $v_kf / $v_Kc));
  (*357*) Do (Asn v_kf 0 ((Exp (#2.0835701266276200e+01 - #2.4003573243782059e+04 / $v_T))));
  (*358*) Do (Asn v_fwd_rxn_rates 29 (v_C.[16] * v_C.[8] * $v_kf));
  (*359*) If ($v_T) (#1000.0)
    [Asn v_Kc 0 (#6.6238498800000007e+00 + #(-1.8369492099999998e+00) * $v_logT + $v_T * (#4.6561828850000004e-03 + $v_T * (#(-1.8907691783333333e-06) + $v_T * (#4.2545109883333335e-10 + #(-1.8517185450000013e-14) * $v_T))) - #(-3.8416809400000020e+03) / $v_T)]
    [Asn v_Kc 0 (#(-6.6450999300000007e+00) + #4.2915762000000068e-01 * $v_logT + $v_T * (#3.9139058814999987e-04 + $v_T * (#(-6.9345523516666680e-08) + $v_T * (#6.1624037583333416e-12 + #(-1.9717642450000007e-16) * $v_T))) - #(-4.3012567799999979e+03) / $v_T)];
  (*365*) Do (Asn v_Kc 0 (#1.0000000000000000e+00 * (Exp $v_Kc)));
  (*366*) Do (Asn v_rev_rxn_rates 29 (v_C.[17] * v_C.[2] * $v_kf / $v_Kc));
  (*369*) Do (Asn v_kf 0 ((Exp (#3.2862129732783131e+01 - #1.0 * $v_logT - #8.5547326026057654e+03 / $v_T))));
  (*370*) Do (Asn v_fwd_rxn_rates 30 (v_C.[13] * $v_kf));
  (*371*) If ($v_T) (#1000.0)
    [Asn v_Kc 0 (#(-2.1909936329999997e+00) + #8.5834762999999903e-01 * $v_logT + $v_T * (#1.3167858203526664e-03 + $v_T * (#(-2.1271883786659866e-06) + $v_T * (#1.1851179321917348e-09 + #(-2.6210565749638660e-13) * $v_T))) - #7.2900089399999997e+03 / $v_T)]
    [Asn v_Kc 0 (#(-4.8693513540000000e+00) + #1.4430112399999997e+00 * $v_logT + $v_T * (#(-1.4472139265421485e-03) + $v_T * (#2.4760506252603246e-07 + $v_T * (#(-2.9925731227929364e-11) + #1.6493049999098680e-15 * $v_T))) - #7.3098693499999990e+03 / $v_T)];
  (*377*) Do (Asn v_Kc 0 (#1.2186597134166982e+01 * (Exp $v_Kc)));
  (*378*) Do (Asn v_rev_rxn_rates 30 (v_C.[1] * v_C.[16] * $v_kf / $v_Kc));
  (*381*) Do (Asn v_kf 0 (#1.2e+11));
  (*382*) Do (Asn v_fwd_rxn_rates 31 (v_C.[1] * v_C.[13] * $v_kf));
  (*383*) If ($v_T) (#1000.0)
    [Asn v_Kc 0 (#2.0410511910000002e+00 + #(-7.9732125000000043e-01) * $v_logT + $v_T * (#5.3070461946473331e-03 + $v_T * (#(-5.3735468780006796e-06) + $v_T * (#2.8648853818082653e-09 + #(-6.3091153790361341e-13) * $v_T))) - #(-4.4575246033000003e+04) / $v_T)]
    [Asn v_Kc 0 (#(-5.5182880159999996e+00) + #7.8029042000000004e-01 * $v_logT + $v_T * (#(-1.4719151400078511e-03) + $v_T * (#3.3084785347396752e-07 + $v_T * (#(-4.4889596605403977e-11) + #2.6505818300901323e-15 * $v_T))) - #(-4.4587609371999999e+04) / $v_T)];
  (*389*) Do (Asn v_Kc 0 (#1.0000000000000000e+00 * (Exp $v_Kc)));
  (*390*) Do (Asn v_rev_rxn_rates 31 (v_C.[5] * v_C.[16] * $v_kf / $v_Kc));
  (*393*) Do (Asn v_kf 0 (#30000000000.0));
  (*394*) Do (Asn v_fwd_rxn_rates 32 (v_C.[13] * v_C.[2] * $v_kf));
  (*395*) If ($v_T) (#1000.0)
    [Asn v_Kc 0 (#(-2.9437157099999998e+00) + #3.1538613999999887e-01 * $v_logT + $v_T * (#1.3437205449999998e-03 + $v_T * (#(-2.1464245533333336e-06) + $v_T * (#1.2125787494999999e-09 + #(-2.6461995345000000e-13) * $v_T))) - #(-4.3924372040000002e+04) / $v_T)]
    [Asn v_Kc 0 (#(-1.3006744199999987e+00) + #2.3831930999999962e-01 * $v_logT + $v_T * (#(-8.7597461814999968e-04) + $v_T * (#1.9743319034999999e-07 + $v_T * (#(-2.6547426891666671e-11) + #1.5212901915000000e-15 * $v_T))) - #(-4.3662511910000001e+04) / $v_T)];
  (*401*) Do (Asn v_Kc 0 (#1.0000000000000000e+00 * (Exp $v_Kc)));
  (*402*) Do (Asn v_rev_rxn_rates 32 (v_C.[16] * v_C.[3] * $v_kf / $v_Kc));
  (*405*) Do (Asn v_kf 0 (#30000000000.0));
  (*406*) Do (Asn v_fwd_rxn_rates 33 (v_C.[13] * v_C.[2] * $v_kf));
  (*407*) If ($v_T) (#1000.0)
    [Asn v_Kc 0 (#6.5407428970000012e+00 + #(-2.5326794200000005e+00) * $v_logT + $v_T * (#7.7539204653526671e-03 + $v_T * (#(-4.5910952086659868e-06) + $v_T * (#1.8251388135250679e-09 + #(-3.2970239544638660e-13) * $v_T))) - #(-5.5860133960000006e+04) / $v_T)]
    [Asn v_Kc 0 (#(-1.3773593554000001e+01) + #1.0158651399999994e+00 * $v_logT + $v_T * (#(-2.2830545469214872e-04) + $v_T * (#3.7948941209365814e-08 + $v_T * (#(-4.6378179029293617e-12) + #2.4570591440986795e-16 * $v_T))) - #(-5.6515003349999999e+04) / $v_T)];
  (*413*) Do (Asn v_Kc 0 (#1.0000000000000000e+00 * (Exp $v_Kc)));
  (*414*) Do (Asn v_rev_rxn_rates 33 (v_C.[1] * v_C.[17] * $v_kf / $v_Kc));
  (*417*) Do (Asn v_kf 0 (#30200000000.0));
  (*418*) Do (Asn v_fwd_rxn_rates 34 (v_C.[13] * v_C.[3] * $v_kf));
  (*419*) If ($v_T) (#1000.0)
    [Asn v_Kc 0 (#5.2375502200000046e-01 + #(-5.6831741999999963e-01) * $v_logT + $v_T * (#1.9112934650000000e-03 + $v_T * (#(-2.1283958449999999e-06) + $v_T * (#1.2109984161666666e-09 + #(-2.7662543845000002e-13) * $v_T))) - #(-5.1858915779999996e+04) / $v_T)]
    [Asn v_Kc 0 (#(-2.8268026900000005e+00) + #1.1227485999999987e-01 * $v_logT + $v_T * (#(-8.8700713499999966e-04) + $v_T * (#2.6344009983333332e-07 + $v_T * (#(-4.0556052033333332e-11) + #2.5569078730000001e-15 * $v_T))) - #(-5.1886945390000001e+04) / $v_T)];
  (*425*) Do (Asn v_Kc 0 (#1.0000000000000000e+00 * (Exp $v_Kc)));
  (*426*) Do (Asn v_rev_rxn_rates 34 (v_C.[6] * v_C.[16] * $v_kf / $v_Kc));
  (*429*) Do (Asn v_kf 0 ((Exp (#1.6303744997844948e+01 + #0.807 * $v_logT - #(-3.6584062365261121e+02) / $v_T))));
  (*430*) Do (Asn v_fwd_rxn_rates 35 (v_C.[13] * v_C.[8] * $v_kf));
  (*431*) If ($v_T) (#1000.0)
    [Asn v_Kc 0 (#2.9533429000000044e-01 + #(-1.2231072000000021e-01) * $v_logT + $v_T * (#4.4059264500000009e-04 + $v_T * (#(-2.4202386333333375e-07) + $v_T * (#(-3.1139927166666888e-11) + #4.0320486050000074e-14 * $v_T))) - #(-1.6824899359999999e+04) / $v_T)]
    [Asn v_Kc 0 (#(-4.3254706299999999e+00) + #6.7768429000000019e-01 * $v_logT + $v_T * (#(-1.0688476199999996e-03) + $v_T * (#2.6832314633333334e-07 + $v_T * (#(-3.7861079583333334e-11) + #2.1933512699999998e-15 * $v_T))) - #(-1.6963476117000002e+04) / $v_T)];
  (*437*) Do (Asn v_Kc 0 (#1.0000000000000000e+00 * (Exp $v_Kc)));
  (*438*) Do (Asn v_rev_rxn_rates 35 (v_C.[16] * v_C.[4] * $v_kf / $v_Kc));
  (*441*) Do (Asn v_kf 0 ((Exp (#3.5347036382571133e+01 - #1.0 * $v_logT - #8.5547326026057654e+03 / $v_T))));
  (*442*) Do (Asn v_fwd_rxn_rates 36 (v_C.[6] * v_C.[13] * $v_kf));
  (*443*) If ($v_T) (#1000.0)
    [Asn v_Kc 0 (#(-2.1909936329999997e+00) + #8.5834762999999903e-01 * $v_logT + $v_T * (#1.3167858203526664e-03 + $v_T * (#(-2.1271883786659866e-06) + $v_T * (#1.1851179321917348e-09 + #(-2.6210565749638660e-13) * $v_T))) - #7.2900089399999997e+03 / $v_T)]
    [Asn v_Kc 0 (#(-4.8693513540000000e+00) + #1.4430112399999997e+00 * $v_logT + $v_T * (#(-1.4472139265421485e-03) + $v_T * (#2.4760506252603246e-07 + $v_T * (#(-2.9925731227929364e-11) + #1.6493049999098680e-15 * $v_T))) - #7.3098693499999990e+03 / $v_T)];
  (*449*) Do (Asn v_Kc 0 (#1.2186597134166982e+01 * (Exp $v_Kc)));
  (*450*) Do (Asn v_rev_rxn_rates 36 (v_C.[1] * v_C.[6] * v_C.[16] * $v_kf / $v_Kc));
  (*453*) Do (Asn v_kf 0 ((Exp (#1.0668955394675699e+01 + #1.5 * $v_logT - #4.0056277362789348e+04 / $v_T))));
  (*454*) Do (Asn v_fwd_rxn_rates 37 (v_C.[5] * v_C.[16] * $v_kf));
  (*455*) If ($v_T) (#1000.0)
    [Asn v_Kc 0 (#(-2.4584651780000000e+00) + #(-1.3014144000000005e-01) * $v_logT + $v_T * (#(-8.6392503799999978e-03) + $v_T * (#9.2972229116666652e-06 + $v_T * (#(-4.9160617820000005e-09) + #1.0728903654500000e-12 * $v_T))) - #9.5306447299999854e+02 / $v_T)]
    [Asn v_Kc 0 (#1.3334433319999999e+01 + #(-3.2917747299999993e+00) * $v_logT + $v_T * (#3.5934379315500000e-03 + $v_T * (#(-6.5386985616666657e-07) + $v_T * (#7.9660458833333329e-11 + #(-4.4023165000000007e-15) * $v_T))) - #1.1061990220000007e+03 / $v_T)];
  (*461*) Do (Asn v_Kc 0 (#8.2057360967184814e-02 * (Exp $v_Kc)));
  (*462*) Do (Asn v_rev_rxn_rates 37 (v_C.[14] * $v_kf / $v_Kc));
  (*465*) Do (Asn v_kf 0 ((Exp (#2.0809443533187462e+01 + #0.48 * $v_logT - #(-1.3083708686338230e+02) / $v_T))));
  (*466*) Do (Asn v_fwd_rxn_rates 38 (v_C.[1] * v_C.[13] * $v_kf));
  (*467*) If ($v_T) (#1000.0)
    [Asn v_Kc 0 (#(-4.1741398699999976e-01) + #(-9.2746269000000048e-01) * $v_logT + $v_T * (#(-3.3322041853526664e-03) + $v_T * (#3.9236760336659864e-06 + $v_T * (#(-2.0511764001917343e-09) + #4.4197882754638669e-13 * $v_T))) - #(-4.3622181560000005e+04) / $v_T)]
    [Asn v_Kc 0 (#7.8161453040000017e+00 + #(-2.5114843100000002e+00) * $v_logT + $v_T * (#2.1215227915421485e-03 + $v_T * (#(-3.2302200269269904e-07) + $v_T * (#3.4770862227929353e-11 + #(-1.7517346699098684e-15) * $v_T))) - #(-4.3481410349999998e+04) / $v_T)];
  (*473*) Do (Asn v_Kc 0 (#8.2057360967184814e-02 * (Exp $v_Kc)));
  (*474*) Do (Asn v_rev_rxn_rates 38 (v_C.[14] * $v_kf / $v_Kc));
  (*477*) Do (Asn v_kf 0 ((Exp (#3.0849896940796750e+01 - #0.8 * $v_logT))));
  (*478*) Do (Asn v_fwd_rxn_rates 39 (v_C.[1] * v_C.[9] * $v_kf));
  (*479*) If ($v_T) (#1000.0)
    [Asn v_Kc 0 (#3.0778036030000000e+00 + #(-1.5890882700000000e+00) * $v_logT + $v_T * (#5.2103980314733352e-04 + $v_T * (#4.8922002533265336e-07 + $v_T * (#(-2.5168856019173461e-10) + #4.2822007546386620e-14 * $v_T))) - #(-5.5032701199999996e+04) / $v_T)]
    [Asn v_Kc 0 (#5.8439448840000008e+00 + #(-2.0883834200000000e+00) * $v_logT + $v_T * (#1.7917537365421488e-03 + $v_T * (#(-2.6303292102603245e-07) + $v_T * (#2.7958758311262697e-11 + #(-1.3971341599098680e-15) * $v_T))) - #(-5.4961679600000003e+04) / $v_T)];
  (*485*) Do (Asn v_Kc 0 (#8.2057360967184814e-02 * (Exp $v_Kc)));
  (*486*) Do (Asn v_rev_rxn_rates 39 (v_C.[11] * $v_kf / $v_Kc));
  (*489*) Do (Asn v_kf 0 (#80000000000.0));
  (*490*) Do (Asn v_fwd_rxn_rates 40 (v_C.[9] * v_C.[2] * $v_kf));
  (*491*) If ($v_T) (#1000.0)
    [Asn v_Kc 0 (#(-4.5701580300000000e-01) + #(-2.0975992999999971e-01) * $v_logT + $v_T * (#(-4.6673931114733346e-04) + $v_T * (#7.2366370466734677e-07 + $v_T * (#(-2.7795262730826525e-10) + #2.6880587453613382e-14 * $v_T))) - #(-4.5813074439999997e+04) / $v_T)]
    [Asn v_Kc 0 (#(-1.4325223539999996e+00) + #(-1.7134752000000031e-01) * $v_logT + $v_T * (#6.9326821530785122e-04 + $v_T * (#(-1.8624310045730086e-07) + $v_T * (#2.8250000347070641e-11 + #(-1.7903225405901321e-15) * $v_T))) - #(-4.5995605049999998e+04) / $v_T)];
  (*497*) Do (Asn v_Kc 0 (#1.0000000000000000e+00 * (Exp $v_Kc)));
  (*498*) Do (Asn v_rev_rxn_rates 40 (v_C.[1] * v_C.[13] * $v_kf / $v_Kc));
  (*501*) Do (Asn v_kf 0 (#20000000000.0));
  (*502*) Do (Asn v_fwd_rxn_rates 41 (v_C.[9] * v_C.[3] * $v_kf));
  (*503*) If ($v_T) (#1000.0)
    [Asn v_Kc 0 (#(-1.2170771300000016e-01) + #(-5.9426113000000003e-01) * $v_logT + $v_T * (#(-3.8258782211473331e-03) + $v_T * (#4.6665759130006790e-06 + $v_T * (#(-2.3565898448082654e-09) + #4.7137371095361347e-13 * $v_T))) - #(-3.8220875019999999e+04) / $v_T)]
    [Asn v_Kc 0 (#2.8149460159999999e+00 + #(-1.4781399000000004e+00) * $v_logT + $v_T * (#2.2435516984578522e-03 + $v_T * (#(-4.5909323097396754e-07) + $v_T * (#5.9642558238737305e-11 + #(-3.4140424020901324e-15) * $v_T))) - #(-3.8504634140000002e+04) / $v_T)];
  (*509*) Do (Asn v_Kc 0 (#1.0000000000000000e+00 * (Exp $v_Kc)));
  (*510*) Do (Asn v_rev_rxn_rates 41 (v_C.[14] * v_C.[1] * $v_kf / $v_Kc));
  (*513*) Do (Asn v_kf 0 ((Exp (#6.2146080984221914e+00 + #2.0 * $v_logT - #3.6382774539317456e+03 / $v_T))));
  (*514*) Do (Asn v_fwd_rxn_rates 42 (v_C.[5] * v_C.[9] * $v_kf));
  (*515*) If ($v_T) (#1000.0)
    [Asn v_Kc 0 (#(-1.1542412209999999e+00) + #6.6580609999999929e-02 * $v_logT + $v_T * (#(-3.4692205711473328e-03) + $v_T * (#3.7355785246673471e-06 + $v_T * (#(-1.9314560098082654e-09) + #4.1162788795361342e-13 * $v_T))) - #(-3.1674462270000004e+03) / $v_T)]
    [Asn v_Kc 0 (#6.4928815460000013e+00 + #(-1.4256625999999999e+00) * $v_logT + $v_T * (#1.8164549500078511e-03 + $v_T * (#(-3.4627571197396756e-07) + $v_T * (#4.2922623688737307e-11 + #(-2.3984109900901322e-15) * $v_T))) - #(-3.0642008779999960e+03) / $v_T)];
  (*521*) Do (Asn v_Kc 0 (#1.0000000000000000e+00 * (Exp $v_Kc)));
  (*522*) Do (Asn v_rev_rxn_rates 42 (v_C.[1] * v_C.[11] * $v_kf / $v_Kc));
  (*525*) Do (Asn v_kf 0 ((Exp (#2.3084119838064431e+01 - #7.5482934728874397e+02 / $v_T))));
  (*526*) Do (Asn v_fwd_rxn_rates 43 (v_C.[9] * v_C.[8] * $v_kf));
  (*527*) If ($v_T) (#1000.0)
    [Asn v_Kc 0 (#(-3.3176245300000002e+00) + #8.0135642000000029e-01 * $v_logT + $v_T * (#(-2.2207563464999996e-03) + $v_T * (#1.2775651816666669e-06 + $v_T * (#(-4.6506159249999995e-10) + #7.3445843999999971e-14 * $v_T))) - #(-3.7718993459999998e+04) / $v_T)]
    [Asn v_Kc 0 (#4.3952968500000011e+00 + #(-5.1973572999999984e-01) * $v_logT + $v_T * (#4.3698963999999976e-04 + $v_T * (#(-9.6104374833333359e-08) + $v_T * (#1.2502795116666675e-11 + #(-7.1191468800000046e-16) * $v_T))) - #(-3.7444370390000004e+04) / $v_T)];
  (*533*) Do (Asn v_Kc 0 (#1.0000000000000000e+00 * (Exp $v_Kc)));
  (*534*) Do (Asn v_rev_rxn_rates 43 (v_C.[13] * v_C.[3] * $v_kf / $v_Kc));
  (*537*) Do (Asn v_kf 0 ((Exp (#2.1694044754104635e+01 - #7.5482934728874397e+02 / $v_T))));
  (*538*) Do (Asn v_fwd_rxn_rates 44 (v_C.[9] * v_C.[8] * $v_kf));
  (*539*) If ($v_T) (#1000.0)
    [Asn v_Kc 0 (#3.9758404440000006e+00 + #(-1.1883615100000000e+00) * $v_logT + $v_T * (#5.5062293942053329e-03 + $v_T * (#(-3.2942938523319731e-06) + $v_T * (#1.3326164037168029e-09 + #(-2.5374225549277323e-13) * $v_T))) - #(-4.2364746440000003e+04) / $v_T)]
    [Asn v_Kc 0 (#(-1.2946973637999999e+01) + #1.7008213400000005e+00 * $v_logT + $v_T * (#(-3.6255512308429750e-04) + $v_T * (#(-7.9835614479351063e-09) + $v_T * (#4.4866728774746158e-12 + #(-3.3819396518026434e-16) * $v_T))) - #(-4.2986992480000001e+04) / $v_T)];
  (*545*) Do (Asn v_Kc 0 (#1.2186597134166982e+01 * (Exp $v_Kc)));
  (*546*) Do (Asn v_rev_rxn_rates 44 (v_C.[1] * v_C.[1] * v_C.[17] * $v_kf / $v_Kc));
  (*549*) Do (Asn v_kf 0 (#20000000000.0));
  (*550*) Do (Asn v_fwd_rxn_rates 45 (v_C.[9] * v_C.[4] * $v_kf));
  (*551*) If ($v_T) (#1000.0)
    [Asn v_Kc 0 (#(-6.2213664399999988e+00) + #8.5455208000000038e-01 * $v_logT + $v_T * (#(-4.6767673564999997e-03) + $v_T * (#3.3160766999999997e-06 + $v_T * (#(-1.2999801333333330e-09) + #2.1299852799999996e-13 * $v_T))) - #(-5.7226266720000000e+04) / $v_T)]
    [Asn v_Kc 0 (#1.1667561430000001e+01 + #(-2.2658930900000001e+00) * $v_logT + $v_T * (#2.1801461249999999e-03 + $v_T * (#(-4.3984446133333328e-07) + $v_T * (#5.5209005699999994e-11 + #(-3.0076956280000001e-15) * $v_T))) - #(-5.6652435273000003e+04) / $v_T)];
  (*557*) Do (Asn v_Kc 0 (#1.0000000000000000e+00 * (Exp $v_Kc)));
  (*558*) Do (Asn v_rev_rxn_rates 45 (v_C.[14] * v_C.[3] * $v_kf / $v_Kc));
  (*561*) Do (Asn v_kf 0 (#32000000000.0));
  (*562*) Do (Asn v_fwd_rxn_rates 46 (v_C.[9] * v_C.[9] * $v_kf));
  (*563*) If ($v_T) (#1000.0)
    [Asn v_Kc 0 (#1.5869996764000000e+01 + #(-4.3723451259999999e+00) * $v_logT + $v_T * (#1.4702169681999999e-02 + $v_T * (#(-1.0097521553333335e-05) + $v_T * (#4.6561896800000000e-09 + #(-9.6258408649999989e-13) * $v_T))) - #(-6.6497034673000002e+04) / $v_T)]
    [Asn v_Kc 0 (#(-1.8514337579999999e+01) + #1.7366465799999995e+00 * $v_logT + $v_T * (#(-7.0026083654999970e-04) + $v_T * (#1.5740003299999998e-07 + $v_T * (#(-1.9376110083333330e-11) + #1.0723764849999999e-15 * $v_T))) - #(-6.7541367721999995e+04) / $v_T)];
  (*569*) Do (Asn v_Kc 0 (#1.0000000000000000e+00 * (Exp $v_Kc)));
  (*570*) Do (Asn v_rev_rxn_rates 46 (v_C.[5] * v_C.[18] * $v_kf / $v_Kc));
  (*573*) Do (Asn v_kf 0 ((Exp (#2.3431316038048621e+01 - #3.0193173891549759e+02 / $v_T))));
  (*574*) Do (Asn v_fwd_rxn_rates 47 (v_C.[53] * v_C.[10] * $v_kf));
  (*575*) If ($v_T) (#1000.0)
    [Asn v_Kc 0 (#2.7675762569999995e+00 + #(-4.3592543999999966e-01) * $v_logT + $v_T * (#1.6677431665000002e-03 + $v_T * (#(-9.0634396499999983e-07) + $v_T * (#2.3643735666666669e-10 + #(-1.2786509000000005e-14) * $v_T))) - #(-4.4927762000000002e+03) / $v_T)]
    [Asn v_Kc 0 (#(-3.0373711599999997e+00) + #5.8206271000000021e-01 * $v_logT + $v_T * (#(-4.9974672500000005e-04) + $v_T * (#1.0049558333333332e-07 + $v_T * (#(-1.3143870916666673e-11) + #7.5994398999999995e-16 * $v_T))) - #(-4.6623957000000009e+03) / $v_T)];
  (*581*) Do (Asn v_Kc 0 (#1.0000000000000000e+00 * (Exp $v_Kc)));
  (*582*) Do (Asn v_rev_rxn_rates 47 (v_C.[9] * v_C.[53] * $v_kf / $v_Kc));
  (*585*) Do (Asn v_kf 0 ((Exp (#2.2920490414282632e+01 - #3.0193173891549759e+02 / $v_T))));
  (*586*) Do (Asn v_fwd_rxn_rates 48 (v_C.[0] * v_C.[10] * $v_kf));
  (*587*) If ($v_T) (#1000.0)
    [Asn v_Kc 0 (#2.7675762569999995e+00 + #(-4.3592543999999966e-01) * $v_logT + $v_T * (#1.6677431665000002e-03 + $v_T * (#(-9.0634396499999983e-07) + $v_T * (#2.3643735666666669e-10 + #(-1.2786509000000005e-14) * $v_T))) - #(-4.4927762000000002e+03) / $v_T)]
    [Asn v_Kc 0 (#(-3.0373711599999997e+00) + #5.8206271000000021e-01 * $v_logT + $v_T * (#(-4.9974672500000005e-04) + $v_T * (#1.0049558333333332e-07 + $v_T * (#(-1.3143870916666673e-11) + #7.5994398999999995e-16 * $v_T))) - #(-4.6623957000000009e+03) / $v_T)];
  (*593*) Do (Asn v_Kc 0 (#1.0000000000000000e+00 * (Exp $v_Kc)));
  (*594*) Do (Asn v_rev_rxn_rates 48 (v_C.[9] * v_C.[0] * $v_kf / $v_Kc));
  (*597*) Do (Asn v_kf 0 (#15000000000.0));
  (*598*) Do (Asn v_fwd_rxn_rates 49 (v_C.[10] * v_C.[2] * $v_kf));
  (*599*) If ($v_T) (#1000.0)
    [Asn v_Kc 0 (#4.3516116450000002e+00 + #(-1.4430066199999998e+00) * $v_logT + $v_T * (#6.5080500499999994e-03 + $v_T * (#(-5.5562271383333331e-06) + $v_T * (#2.8233701111666669e-09 + #(-6.1681745945000004e-13) * $v_T))) - #(-9.4881096672999993e+04) / $v_T)]
    [Asn v_Kc 0 (#(-9.9881815299999985e+00) + #1.1910056099999999e+00 * $v_logT + $v_T * (#(-1.2783936497000000e-03) + $v_T * (#2.4510033634999999e-07 + $v_T * (#(-2.9783467175000008e-11) + #1.6202032794999998e-15 * $v_T))) - #(-9.5245610121999998e+04) / $v_T)];
  (*605*) Do (Asn v_Kc 0 (#1.0000000000000000e+00 * (Exp $v_Kc)));
  (*606*) Do (Asn v_rev_rxn_rates 49 (v_C.[5] * v_C.[16] * $v_kf / $v_Kc));
  (*609*) Do (Asn v_kf 0 (#15000000000.0));
  (*610*) Do (Asn v_fwd_rxn_rates 50 (v_C.[10] * v_C.[2] * $v_kf));
  (*611*) If ($v_T) (#1000.0)
    [Asn v_Kc 0 (#2.3105604539999995e+00 + #(-6.4568536999999937e-01) * $v_logT + $v_T * (#1.2010038553526665e-03 + $v_T * (#(-1.8268026033265306e-07) + $v_T * (#(-4.1515270641598609e-11) + #1.4094078453613377e-14 * $v_T))) - #(-5.0305850640000004e+04) / $v_T)]
    [Asn v_Kc 0 (#(-4.4698935139999989e+00) + #4.1071518999999990e-01 * $v_logT + $v_T * (#1.9352149030785112e-04 + $v_T * (#(-8.5747517123967536e-08) + $v_T * (#1.5106129430403969e-11 + #(-1.0303785505901323e-15) * $v_T))) - #(-5.0658000749999999e+04) / $v_T)];
  (*617*) Do (Asn v_Kc 0 (#1.0000000000000000e+00 * (Exp $v_Kc)));
  (*618*) Do (Asn v_rev_rxn_rates 50 (v_C.[1] * v_C.[13] * $v_kf / $v_Kc));
  (*621*) Do (Asn v_kf 0 (#30000000000.0));
  (*622*) Do (Asn v_fwd_rxn_rates 51 (v_C.[10] * v_C.[3] * $v_kf));
  (*623*) If ($v_T) (#1000.0)
    [Asn v_Kc 0 (#2.6458685439999989e+00 + #(-1.0301865699999997e+00) * $v_logT + $v_T * (#(-2.1581350546473334e-03) + $v_T * (#3.7602319480006796e-06 + $v_T * (#(-2.1201524881415986e-09) + #4.5858720195361347e-13 * $v_T))) - #(-4.2713651220000000e+04) / $v_T)]
    [Asn v_Kc 0 (#(-2.2242514400000024e-01) + #(-8.9607719000000019e-01) * $v_logT + $v_T * (#1.7438049734578517e-03 + $v_T * (#(-3.5859764764063419e-07) + $v_T * (#4.6498687322070629e-11 + #(-2.6540984120901329e-15) * $v_T))) - #(-4.3167029840000003e+04) / $v_T)];
  (*629*) Do (Asn v_Kc 0 (#1.0000000000000000e+00 * (Exp $v_Kc)));
  (*630*) Do (Asn v_rev_rxn_rates 51 (v_C.[14] * v_C.[1] * $v_kf / $v_Kc));
  (*633*) Do (Asn v_kf 0 (#70000000000.0));
  (*634*) Do (Asn v_fwd_rxn_rates 52 (v_C.[5] * v_C.[10] * $v_kf));
  (*635*) If ($v_T) (#1000.0)
    [Asn v_Kc 0 (#1.6133350359999996e+00 + #(-3.6934482999999974e-01) * $v_logT + $v_T * (#(-1.8014774046473329e-03) + $v_T * (#2.8292345596673472e-06 + $v_T * (#(-1.6950186531415987e-09) + #3.9884137895361342e-13 * $v_T))) - #(-7.6602224270000006e+03) / $v_T)]
    [Asn v_Kc 0 (#3.4555103860000012e+00 + #(-8.4359988999999969e-01) * $v_logT + $v_T * (#1.3167082250078511e-03 + $v_T * (#(-2.4578012864063421e-07) + $v_T * (#2.9778752772070631e-11 + #(-1.6384670000901324e-15) * $v_T))) - #(-7.7265965779999970e+03) / $v_T)];
  (*641*) Do (Asn v_Kc 0 (#1.0000000000000000e+00 * (Exp $v_Kc)));
  (*642*) Do (Asn v_rev_rxn_rates 52 (v_C.[1] * v_C.[11] * $v_kf / $v_Kc));
  (*645*) Do (Asn v_kf 0 (#28000000000.0));
  (*646*) Do (Asn v_fwd_rxn_rates 53 (v_C.[10] * v_C.[8] * $v_kf));
  (*647*) If ($v_T) (#1000.0)
    [Asn v_Kc 0 (#(-2.7410419060000004e+00) + #1.2237786099999997e+00 * $v_logT + $v_T * (#7.6377264035266631e-04 + $v_T * (#(-1.7559671619993197e-06) + $v_T * (#9.5649369635840147e-10 + #(-2.0144632249638663e-13) * $v_T))) - #(-3.4921760719999998e+04) / $v_T)]
    [Asn v_Kc 0 (#(-3.5114256639999999e+00) + #1.5053382199999996e+00 * $v_logT + $v_T * (#(-1.5099710115421485e-03) + $v_T * (#2.5199627102603240e-07 + $v_T * (#(-3.0566807027929368e-11) + #1.6973343019098677e-15 * $v_T))) - #(-3.4796896740000004e+04) / $v_T)];
  (*653*) Do (Asn v_Kc 0 (#1.2186597134166982e+01 * (Exp $v_Kc)));
  (*654*) Do (Asn v_rev_rxn_rates 53 (v_C.[1] * v_C.[16] * v_C.[3] * $v_kf / $v_Kc));
  (*657*) Do (Asn v_kf 0 (#12000000000.0));
  (*658*) Do (Asn v_fwd_rxn_rates 54 (v_C.[10] * v_C.[8] * $v_kf));
  (*659*) If ($v_T) (#1000.0)
    [Asn v_Kc 0 (#(-2.6293251000000240e-02) + #(-2.0288643999999900e-01) * $v_logT + $v_T * (#1.3582802849999998e-03 + $v_T * (#(-1.7571746283333330e-06) + $v_T * (#9.8237418033333331e-10 + #(-2.1596610345000000e-13) * $v_T))) - #(-9.4070685439999987e+04) / $v_T)]
    [Asn v_Kc 0 (#(-1.4688770000000000e+00) + #1.7460184000000023e-01 * $v_logT + $v_T * (#(-9.4976421999999974e-04) + $v_T * (#2.6783130833333326e-07 + $v_T * (#(-4.1197127833333337e-11) + #2.6049371749999998e-15 * $v_T))) - #(-9.3993711479999998e+04) / $v_T)];
  (*665*) Do (Asn v_Kc 0 (#1.0000000000000000e+00 * (Exp $v_Kc)));
  (*666*) Do (Asn v_rev_rxn_rates 54 (v_C.[6] * v_C.[16] * $v_kf / $v_Kc));
  (*669*) Do (Asn v_kf 0 (#30000000000.0));
  (*670*) Do (Asn v_fwd_rxn_rates 55 (v_C.[6] * v_C.[10] * $v_kf));
  (*671*) If ($v_T) (#1000.0)
    [Asn v_Kc 0 (#2.7675762569999995e+00 + #(-4.3592543999999966e-01) * $v_logT + $v_T * (#1.6677431665000002e-03 + $v_T * (#(-9.0634396499999983e-07) + $v_T * (#2.3643735666666669e-10 + #(-1.2786509000000005e-14) * $v_T))) - #(-4.4927762000000002e+03) / $v_T)]
    [Asn v_Kc 0 (#(-3.0373711599999997e+00) + #5.8206271000000021e-01 * $v_logT + $v_T * (#(-4.9974672500000005e-04) + $v_T * (#1.0049558333333332e-07 + $v_T * (#(-1.3143870916666673e-11) + #7.5994398999999995e-16 * $v_T))) - #(-4.6623957000000009e+03) / $v_T)];
  (*677*) Do (Asn v_Kc 0 (#1.0000000000000000e+00 * (Exp $v_Kc)));
  (*678*) Do (Asn v_rev_rxn_rates 55 (v_C.[9] * v_C.[6] * $v_kf / $v_Kc));
  (*681*) Do (Asn v_kf 0 (#9000000000.0));
  (*682*) Do (Asn v_fwd_rxn_rates 56 (v_C.[16] * v_C.[10] * $v_kf));
  (*683*) If ($v_T) (#1000.0)
    [Asn v_Kc 0 (#2.7675762569999995e+00 + #(-4.3592543999999966e-01) * $v_logT + $v_T * (#1.6677431665000002e-03 + $v_T * (#(-9.0634396499999983e-07) + $v_T * (#2.3643735666666669e-10 + #(-1.2786509000000005e-14) * $v_T))) - #(-4.4927762000000002e+03) / $v_T)]
    [Asn v_Kc 0 (#(-3.0373711599999997e+00) + #5.8206271000000021e-01 * $v_logT + $v_T * (#(-4.9974672500000005e-04) + $v_T * (#1.0049558333333332e-07 + $v_T * (#(-1.3143870916666673e-11) + #7.5994398999999995e-16 * $v_T))) - #(-4.6623957000000009e+03) / $v_T)];
  (*689*) Do (Asn v_Kc 0 (#1.0000000000000000e+00 * (Exp $v_Kc)));
  (*690*) Do (Asn v_rev_rxn_rates 56 (v_C.[9] * v_C.[16] * $v_kf / $v_Kc));
  (*693*) Do (Asn v_kf 0 (#7000000000.0));
  (*694*) Do (Asn v_fwd_rxn_rates 57 (v_C.[17] * v_C.[10] * $v_kf));
  (*695*) If ($v_T) (#1000.0)
    [Asn v_Kc 0 (#2.7675762569999995e+00 + #(-4.3592543999999966e-01) * $v_logT + $v_T * (#1.6677431665000002e-03 + $v_T * (#(-9.0634396499999983e-07) + $v_T * (#2.3643735666666669e-10 + #(-1.2786509000000005e-14) * $v_T))) - #(-4.4927762000000002e+03) / $v_T)]
    [Asn v_Kc 0 (#(-3.0373711599999997e+00) + #5.8206271000000021e-01 * $v_logT + $v_T * (#(-4.9974672500000005e-04) + $v_T * (#1.0049558333333332e-07 + $v_T * (#(-1.3143870916666673e-11) + #7.5994398999999995e-16 * $v_T))) - #(-4.6623957000000009e+03) / $v_T)];
  (*701*) Do (Asn v_Kc 0 (#1.0000000000000000e+00 * (Exp $v_Kc)));
  (*702*) Do (Asn v_rev_rxn_rates 57 (v_C.[9] * v_C.[17] * $v_kf / $v_Kc));
  (*705*) Do (Asn v_kf 0 (#14000000000.0));
  (*706*) Do (Asn v_fwd_rxn_rates 58 (v_C.[17] * v_C.[10] * $v_kf));
  (*707*) If ($v_T) (#1000.0)
    [Asn v_Kc 0 (#(-6.8385900630000007e+00) + #1.8178789899999996e+00 * $v_logT + $v_T * (#(-8.5683349749999995e-03) + $v_T * (#6.2049026033333328e-06 + $v_T * (#(-2.7327125521666666e-09) + #5.2366964395000012e-13 * $v_T))) - #(-3.0777889299999995e+04) / $v_T)]
    [Asn v_Kc 0 (#1.2250493990000002e+01 + #(-1.6736230200000004e+00) * $v_logT + $v_T * (#1.0961358100000005e-03 + $v_T * (#(-1.9911339850000003e-07) + $v_T * (#2.4589078333333321e-11 + #(-1.3785141350000006e-15) * $v_T))) - #(-3.0314538400000005e+04) / $v_T)];
  (*713*) Do (Asn v_Kc 0 (#1.0000000000000000e+00 * (Exp $v_Kc)));
  (*714*) Do (Asn v_rev_rxn_rates 58 (v_C.[14] * v_C.[16] * $v_kf / $v_Kc));
  (*717*) Do (Asn v_kf 0 ((Exp (#2.0107079697522593e+01 + #0.454 * $v_logT - #1.3083708686338230e+03 / $v_T))));
  (*718*) Do (Asn v_fwd_rxn_rates 59 (v_C.[14] * v_C.[1] * $v_kf));
  (*719*) If ($v_T) (#1000.0)
    [Asn v_Kc 0 (#9.9981967229999995e+00 + #(-2.5819181300000000e+00) * $v_logT + $v_T * (#3.5518503146473334e-03 + $v_T * (#5.5516050332654252e-08 + $v_T * (#(-7.8155690019173486e-10) + #2.7407884004638667e-13 * $v_T))) - #(-9.8690055999999986e+03) / $v_T)]
    [Asn v_Kc 0 (#(-1.5673542655999999e+01) + #1.4971022899999999e+00 * $v_logT + $v_T * (#(-8.7928802845785141e-04) + $v_T * (#2.8758939230730081e-07 + $v_T * (#(-4.7360134272070630e-11) + #3.1015926850901328e-15 * $v_T))) - #(-1.1099715659999998e+04) / $v_T)];
  (*725*) Do (Asn v_Kc 0 (#8.2057360967184814e-02 * (Exp $v_Kc)));
  (*726*) Do (Asn v_rev_rxn_rates 59 (v_C.[15] * $v_kf / $v_Kc));
  (*729*) Do (Asn v_kf 0 ((Exp (#1.6951004773893423e+01 + #1.05 * $v_logT - #1.6480440749137576e+03 / $v_T))));
  (*730*) Do (Asn v_fwd_rxn_rates 60 (v_C.[14] * v_C.[1] * $v_kf));
  (*731*) If ($v_T) (#1000.0)
    [Asn v_Kc 0 (#4.6494588109999997e+00 + #(-7.2820618999999986e-01) * $v_logT + $v_T * (#7.3224645596473327e-03 + $v_T * (#(-7.1700345330006791e-06) + $v_T * (#3.7309438498082653e-09 + #(-8.1078470795361340e-13) * $v_T))) - #(-8.2430734129999983e+03) / $v_T)]
    [Asn v_Kc 0 (#(-8.4650819659999996e+00) + #1.8487634900000005e+00 * $v_logT + $v_T * (#(-2.1462240050078513e-03) + $v_T * (#4.0626479364063411e-07 + $v_T * (#(-4.9734727605403966e-11) + #2.7530115000901327e-15 * $v_T))) - #(-8.4160683719999979e+03) / $v_T)];
  (*737*) Do (Asn v_Kc 0 (#1.0000000000000000e+00 * (Exp $v_Kc)));
  (*738*) Do (Asn v_rev_rxn_rates 60 (v_C.[5] * v_C.[13] * $v_kf / $v_Kc));
  (*741*) Do (Asn v_kf 0 ((Exp (#2.4386827483076058e+01 - #1.7813972596014357e+03 / $v_T))));
  (*742*) Do (Asn v_fwd_rxn_rates 61 (v_C.[14] * v_C.[2] * $v_kf));
  (*743*) If ($v_T) (#1000.0)
    [Asn v_Kc 0 (#(-3.3530809000000028e-01) + #3.8450120000000032e-01 * $v_logT + $v_T * (#3.3591389100000001e-03 + $v_T * (#(-3.9429122083333331e-06) + $v_T * (#2.0786372174999998e-09 + #(-4.4449312350000004e-13) * $v_T))) - #(-7.5921994199999972e+03) / $v_T)]
    [Asn v_Kc 0 (#(-4.2474683700000000e+00) + #1.3067923799999996e+00 * $v_logT + $v_T * (#(-1.5502834831500004e-03) + $v_T * (#2.7285013051666660e-07 + $v_T * (#(-3.1392557891666660e-11) + #1.6237198615000004e-15 * $v_T))) - #(-7.4909709100000000e+03) / $v_T)];
  (*749*) Do (Asn v_Kc 0 (#1.0000000000000000e+00 * (Exp $v_Kc)));
  (*750*) Do (Asn v_rev_rxn_rates 61 (v_C.[13] * v_C.[3] * $v_kf / $v_Kc));
  (*753*) Do (Asn v_kf 0 ((Exp (#1.5048070819142122e+01 + #1.18 * $v_logT - #(-2.2493914549204570e+02) / $v_T))));
  (*754*) Do (Asn v_fwd_rxn_rates 62 (v_C.[14] * v_C.[3] * $v_kf));
  (*755*) If ($v_T) (#1000.0)
    [Asn v_Kc 0 (#3.1321626419999999e+00 + #(-4.9920235999999907e-01) * $v_logT + $v_T * (#3.9267118300000004e-03 + $v_T * (#(-3.9248834999999993e-06) + $v_T * (#2.0770568841666663e-09 + #(-4.5649860849999996e-13) * $v_T))) - #(-1.5526743159999998e+04) / $v_T)]
    [Asn v_Kc 0 (#(-5.7735966400000009e+00) + #1.1807479300000003e+00 * $v_logT + $v_T * (#(-1.5613160000000003e-03) + $v_T * (#3.3885703999999996e-07 + $v_T * (#(-4.5401183033333321e-11) + #2.6593375430000005e-15 * $v_T))) - #(-1.5715404389999998e+04) / $v_T)];
  (*761*) Do (Asn v_Kc 0 (#1.0000000000000000e+00 * (Exp $v_Kc)));
  (*762*) Do (Asn v_rev_rxn_rates 62 (v_C.[6] * v_C.[13] * $v_kf / $v_Kc));
  (*765*) Do (Asn v_kf 0 ((Exp (#2.5328436022934504e+01 - #2.0128782594366505e+04 / $v_T))));
  (*766*) Do (Asn v_fwd_rxn_rates 63 (v_C.[14] * v_C.[8] * $v_kf));
  (*767*) If ($v_T) (#1000.0)
    [Asn v_Kc 0 (#2.9037419099999999e+00 + #(-5.3195659999999645e-02) * $v_logT + $v_T * (#2.4560110100000001e-03 + $v_T * (#(-2.0385115183333334e-06) + $v_T * (#8.3491854083333324e-10 + #(-1.3955268399999999e-13) * $v_T))) - #1.9507273260000002e+04 / $v_T)]
    [Asn v_Kc 0 (#(-7.2722645800000008e+00) + #1.7461573600000007e+00 * $v_logT + $v_T * (#(-1.7431564849999998e-03) + $v_T * (#3.4374008649999998e-07 + $v_T * (#(-4.2706210583333322e-11) + #2.2957809400000002e-15 * $v_T))) - #1.9208064882999999e+04 / $v_T)];
  (*773*) Do (Asn v_Kc 0 (#1.0000000000000000e+00 * (Exp $v_Kc)));
  (*774*) Do (Asn v_rev_rxn_rates 63 (v_C.[4] * v_C.[13] * $v_kf / $v_Kc));
  (*777*) Do (Asn v_kf 0 ((Exp (#2.0723265836946410e+01 - #4.0257565188733010e+03 / $v_T))));
  (*778*) Do (Asn v_fwd_rxn_rates 64 (v_C.[14] * v_C.[4] * $v_kf));
  (*779*) If ($v_T) (#1000.0)
    [Asn v_Kc 0 (#3.1081704499999998e+00 + #(-5.9822262999999953e-01) * $v_logT + $v_T * (#5.4353532315000001e-03 + $v_T * (#(-4.6611291999999993e-06) + $v_T * (#2.2761187416666667e-09 + #(-4.7536420800000006e-13) * $v_T))) - #1.5113152000000071e+02 / $v_T)]
    [Asn v_Kc 0 (#(-5.8861998599999996e+00) + #1.1592762499999996e+00 * $v_logT + $v_T * (#(-7.8727437499999972e-04) + $v_T * (#1.1173298333333329e-07 + $v_T * (#(-1.3359227166666668e-11) + #8.5173579500000028e-16 * $v_T))) - #3.4106036999998778e+01 / $v_T)];
  (*785*) Do (Asn v_Kc 0 (#1.0000000000000000e+00 * (Exp $v_Kc)));
  (*786*) Do (Asn v_rev_rxn_rates 64 (v_C.[7] * v_C.[13] * $v_kf / $v_Kc));
  (*789*) Do (Asn v_kf 0 ((Exp (#3.0172623109393093e+01 - #0.63 * $v_logT - #1.9273309334105929e+02 / $v_T))));
  (*790*) Do (Asn v_fwd_rxn_rates 65 (v_C.[1] * v_C.[11] * $v_kf));
  (*791*) If ($v_T) (#1000.0)
    [Asn v_Kc 0 (#(-4.7754709669999986e+00) + #(-2.3714270000000148e-02) * $v_logT + $v_T * (#(-7.8409652753526661e-03) + $v_T * (#7.2416402236659874e-06 + $v_T * (#(-3.4669273626917350e-09) + #7.0627691304638665e-13 * $v_T))) - #(-5.2165306299999997e+04) / $v_T)]
    [Asn v_Kc 0 (#1.5114795359000002e+01 + #(-3.7108662350000001e+00) * $v_logT + $v_T * (#3.0755231765421482e-03 + $v_T * (#(-4.5761910435936572e-07) + $v_T * (#5.2270059227929359e-11 + #(-2.7549895549098682e-15) * $v_T))) - #(-5.1717588789999994e+04) / $v_T)];
  (*797*) Do (Asn v_Kc 0 (#8.2057360967184814e-02 * (Exp $v_Kc)));
  (*798*) Do (Asn v_rev_rxn_rates 65 (v_C.[12] * $v_kf / $v_Kc));
  (*801*) Do (Asn v_kf 0 (#84300000000.0));
  (*802*) Do (Asn v_fwd_rxn_rates 66 (v_C.[11] * v_C.[2] * $v_kf));
  (*803*) If ($v_T) (#1000.0)
    [Asn v_Kc 0 (#(-3.9522333930000006e+00) + #4.5186564999999979e-01 * $v_logT + $v_T * (#(-4.3199832996473333e-03) + $v_T * (#4.1581197130006792e-06 + $v_T * (#(-2.0774404673082650e-09) + #4.2603740745361341e-13 * $v_T))) - #(-3.4402554800000005e+04) / $v_T)]
    [Asn v_Kc 0 (#5.3967806600000001e-01 + #(-5.9444841000000048e-01) * $v_logT + $v_T * (#1.0230372703078517e-03 + $v_T * (#(-2.4623218212396754e-07) + $v_T * (#3.5062104263737296e-11 + #(-2.1449230505901326e-15) * $v_T))) - #(-3.4515335800000001e+04) / $v_T)];
  (*809*) Do (Asn v_Kc 0 (#1.0000000000000000e+00 * (Exp $v_Kc)));
  (*810*) Do (Asn v_rev_rxn_rates 66 (v_C.[14] * v_C.[1] * $v_kf / $v_Kc));
  (*813*) Do (Asn v_kf 0 ((Exp (#1.0933106969717286e+01 + #1.6 * $v_logT - #2.7274500415366615e+03 / $v_T))));
  (*814*) Do (Asn v_fwd_rxn_rates 67 (v_C.[11] * v_C.[3] * $v_kf));
  (*815*) If ($v_T) (#1000.0)
    [Asn v_Kc 0 (#(-3.6305494800000115e-01) + #1.6242322000000087e-01 * $v_logT + $v_T * (#7.3467841500000127e-05 + $v_T * (#(-4.9042749166666669e-07) + $v_T * (#2.7756904416666650e-10 + #(-5.7341788499999989e-14) * $v_T))) - #(-4.1162235200000023e+03) / $v_T)]
    [Asn v_Kc 0 (#(-3.8013962200000004e+00) + #7.5764704000000016e-01 * $v_logT + $v_T * (#(-1.2315469449999999e-03) + $v_T * (#2.7886795833333331e-07 + $v_T * (#(-3.8589079116666663e-11) + #2.3047370330000000e-15 * $v_T))) - #(-4.2351351399999985e+03) / $v_T)];
  (*821*) Do (Asn v_Kc 0 (#1.0000000000000000e+00 * (Exp $v_Kc)));
  (*822*) Do (Asn v_rev_rxn_rates 67 (v_C.[9] * v_C.[6] * $v_kf / $v_Kc));
  (*825*) Do (Asn v_kf 0 (#25010000000.0));
  (*826*) Do (Asn v_fwd_rxn_rates 68 (v_C.[11] * v_C.[3] * $v_kf));
  (*827*) If ($v_T) (#1000.0)
    [Asn v_Kc 0 (#(-3.1306312050000011e+00) + #5.9834866000000009e-01 * $v_logT + $v_T * (#(-1.5942753250000000e-03) + $v_T * (#4.1591647333333314e-07 + $v_T * (#4.1131687499999754e-11 + #(-4.4555279499999984e-14) * $v_T))) - #3.7655267999999796e+02 / $v_T)]
    [Asn v_Kc 0 (#(-7.6402506000000114e-01) + #1.7558432999999996e-01 * $v_logT + $v_T * (#(-7.3180021999999967e-04) + $v_T * (#1.7837237500000001e-07 + $v_T * (#(-2.5445208199999997e-11) + #1.5447930430000002e-15 * $v_T))) - #4.2726056000000199e+02 / $v_T)];
  (*833*) Do (Asn v_Kc 0 (#1.0000000000000000e+00 * (Exp $v_Kc)));
  (*834*) Do (Asn v_rev_rxn_rates 68 (v_C.[6] * v_C.[10] * $v_kf / $v_Kc));
  (*837*) Do (Asn v_kf 0 ((Exp (#2.4151754078844469e+01 - #1.4492723467943884e+04 / $v_T))));
  (*838*) Do (Asn v_fwd_rxn_rates 69 (v_C.[11] * v_C.[8] * $v_kf));
  (*839*) If ($v_T) (#1000.0)
    [Asn v_Kc 0 (#3.9380766800000000e+00 + #(-5.7597464000000054e-01) * $v_logT + $v_T * (#(-2.5490847450000001e-03) + $v_T * (#4.7867734150000011e-06 + $v_T * (#(-3.0735671500000005e-09) + #7.4919579999999998e-13 * $v_T))) - #1.5036901559999998e+04 / $v_T)]
    [Asn v_Kc 0 (#(-1.2874722320000002e+01) + #1.7589575999999996e+00 * $v_logT + $v_T * (#(-6.8376864184999987e-04) + $v_T * (#1.8166780798333333e-07 + $v_T * (#(-3.1423539574999999e-11) + #2.1630922955000003e-15 * $v_T))) - #1.3908564460000000e+04 / $v_T)];
  (*845*) Do (Asn v_Kc 0 (#1.0000000000000000e+00 * (Exp $v_Kc)));
  (*846*) Do (Asn v_rev_rxn_rates 69 (v_C.[15] * v_C.[2] * $v_kf / $v_Kc));
  (*849*) Do (Asn v_kf 0 ((Exp (#1.7399029496420383e+01 - #4.4987829098409138e+03 / $v_T))));
  (*850*) Do (Asn v_fwd_rxn_rates 70 (v_C.[11] * v_C.[8] * $v_kf));
  (*851*) If ($v_T) (#1000.0)
    [Asn v_Kc 0 (#(-6.8128421199999991e+00) + #1.4629819999999998e+00 * $v_logT + $v_T * (#(-6.0740003349999995e-03) + $v_T * (#4.7120211899999999e-06 + $v_T * (#(-2.2645494324999997e-09) + #4.7260266400000000e-13 * $v_T))) - #(-2.6308473820000003e+04) / $v_T)]
    [Asn v_Kc 0 (#6.3674972699999994e+00 + #(-9.4283661999999957e-01) * $v_logT + $v_T * (#7.6675869499999991e-04 + $v_T * (#(-1.5609345649999993e-07) + $v_T * (#1.9314899033333327e-11 + #(-1.0665151980000003e-15) * $v_T))) - #(-2.5964101139999999e+04) / $v_T)];
  (*857*) Do (Asn v_Kc 0 (#1.0000000000000000e+00 * (Exp $v_Kc)));
  (*858*) Do (Asn v_rev_rxn_rates 70 (v_C.[14] * v_C.[3] * $v_kf / $v_Kc));
  (*861*) Do (Asn v_kf 0 (#1000000000.0));
  (*862*) Do (Asn v_fwd_rxn_rates 71 (v_C.[11] * v_C.[4] * $v_kf));
  (*863*) If ($v_T) (#1000.0)
    [Asn v_Kc 0 (#(-7.2617988899999997e+00) + #9.5694408000000042e-01 * $v_logT + $v_T * (#(-6.9647721000000006e-03) + $v_T * (#5.3564757083333336e-06 + $v_T * (#(-2.2506695033333343e-09) + #4.0385076950000006e-13 * $v_T))) - #(-2.8050398000000001e+04) / $v_T)]
    [Asn v_Kc 0 (#1.4570914635000003e+01 + #(-2.9455392850000006e+00) * $v_logT + $v_T * (#2.6971568700000000e-03 + $v_T * (#(-4.7833718816666649e-07) + $v_T * (#6.0205407583333335e-11 + #(-3.2990358250000004e-15) * $v_T))) - #(-2.7444243323000002e+04) / $v_T)];
  (*869*) Do (Asn v_Kc 0 (#1.0000000000000000e+00 * (Exp $v_Kc)));
  (*870*) Do (Asn v_rev_rxn_rates 71 (v_C.[12] * v_C.[8] * $v_kf / $v_Kc));
  (*873*) Do (Asn v_kf 0 (#13400000000.0));
  (*874*) Do (Asn v_fwd_rxn_rates 72 (v_C.[11] * v_C.[4] * $v_kf));
  (*875*) If ($v_T) (#1000.0)
    [Asn v_Kc 0 (#6.9902668000000023e-01 + #(-1.3827778000000013e-01) * $v_logT + $v_T * (#(-1.6459568450000002e-03) + $v_T * (#2.8823727250000010e-06 + $v_T * (#(-1.8298484733333338e-09) + #4.4425536050000008e-13 * $v_T))) - #(-1.2062571120000001e+04) / $v_T)]
    [Asn v_Kc 0 (#(-9.8499261100000002e+00) + #1.3195926199999990e+00 * $v_logT + $v_T * (#(-4.9089563999999970e-04) + $v_T * (#1.1077785200000005e-07 + $v_T * (#(-2.0109886883333336e-11) + #1.4910312170000001e-15 * $v_T))) - #(-1.2790471332999998e+04) / $v_T)];
  (*881*) Do (Asn v_Kc 0 (#1.0000000000000000e+00 * (Exp $v_Kc)));
  (*882*) Do (Asn v_rev_rxn_rates 72 (v_C.[15] * v_C.[3] * $v_kf / $v_Kc));
  (*885*) Do (Asn v_kf 0 ((Exp (#3.1986731175506815e+00 + #2.47 * $v_logT - #2.6066773459704623e+03 / $v_T))));
  (*886*) Do (Asn v_fwd_rxn_rates 73 (v_C.[11] * v_C.[7] * $v_kf));
  (*887*) If ($v_T) (#1000.0)
    [Asn v_Kc 0 (#(-7.4662274299999982e+00) + #1.5019710499999999e+00 * $v_logT + $v_T * (#(-9.9441143215000007e-03) + $v_T * (#7.9790933899999987e-06 + $v_T * (#(-3.6918697041666675e-09) + #7.3966229350000002e-13 * $v_T))) - #(-8.6942562600000019e+03) / $v_T)]
    [Asn v_Kc 0 (#1.3184849914999999e+01 + #(-2.3586581749999995e+00) * $v_logT + $v_T * (#1.7412747600000001e-03 + $v_T * (#(-2.4633008499999989e-07) + $v_T * (#3.0858424166666656e-11 + #(-1.8549906799999997e-15) * $v_T))) - #(-8.2702844770000011e+03) / $v_T)];
  (*893*) Do (Asn v_Kc 0 (#1.0000000000000000e+00 * (Exp $v_Kc)));
  (*894*) Do (Asn v_rev_rxn_rates 73 (v_C.[12] * v_C.[4] * $v_kf / $v_Kc));
  (*897*) Do (Asn v_kf 0 (#8480000000.0));
  (*898*) Do (Asn v_fwd_rxn_rates 74 (v_C.[11] * v_C.[13] * $v_kf));
  (*899*) If ($v_T) (#1000.0)
    [Asn v_Kc 0 (#(-6.9664645999999983e+00) + #8.3463335999999977e-01 * $v_logT + $v_T * (#(-6.5241794550000010e-03) + $v_T * (#5.1144518450000005e-06 + $v_T * (#(-2.2818094305000002e-09) + #4.4417125555000006e-13 * $v_T))) - #(-4.4875297360000004e+04) / $v_T)]
    [Asn v_Kc 0 (#1.0245444005000003e+01 + #(-2.2678549950000004e+00) * $v_logT + $v_T * (#1.6283092500000004e-03 + $v_T * (#(-2.1001404183333320e-07) + $v_T * (#2.2344327999999988e-11 + #(-1.1056845550000002e-15) * $v_T))) - #(-4.4407719440000001e+04) / $v_T)];
  (*905*) Do (Asn v_Kc 0 (#1.0000000000000000e+00 * (Exp $v_Kc)));
  (*906*) Do (Asn v_rev_rxn_rates 74 (v_C.[12] * v_C.[16] * $v_kf / $v_Kc));
  (*909*) Do (Asn v_kf 0 ((Exp (#1.1999647829283970e+00 + #2.81 * $v_logT - #2.9488666500746931e+03 / $v_T))));
  (*910*) Do (Asn v_fwd_rxn_rates 75 (v_C.[14] * v_C.[11] * $v_kf));
  (*911*) If ($v_T) (#1000.0)
    [Asn v_Kc 0 (#(-4.3580569799999989e+00) + #9.0374842000000033e-01 * $v_logT + $v_T * (#(-4.5087610900000005e-03) + $v_T * (#3.3179641900000010e-06 + $v_T * (#(-1.4157509625000007e-09) + #2.6429808550000006e-13 * $v_T))) - #(-8.5431247400000011e+03) / $v_T)]
    [Asn v_Kc 0 (#7.2986500549999986e+00 + #(-1.1993819250000000e+00) * $v_logT + $v_T * (#9.5400038499999975e-04 + $v_T * (#(-1.3459710166666672e-07) + $v_T * (#1.7499196999999993e-11 + #(-1.0032548849999990e-15) * $v_T))) - #(-8.2361784399999997e+03) / $v_T)];
  (*917*) Do (Asn v_Kc 0 (#1.0000000000000000e+00 * (Exp $v_Kc)));
  (*918*) Do (Asn v_rev_rxn_rates 75 (v_C.[12] * v_C.[13] * $v_kf / $v_Kc));
  (*921*) Do (Asn v_kf 0 (#40000000000.0));
  (*922*) Do (Asn v_fwd_rxn_rates 76 (v_C.[9] * v_C.[11] * $v_kf));
  (*923*) If ($v_T) (#1000.0)
    [Asn v_Kc 0 (#1.4606195170000000e+00 + #(-9.7706759000000032e-01) * $v_logT + $v_T * (#(-5.2751731811473343e-03) + $v_T * (#8.0956520380006795e-06 + $v_T * (#(-4.8697324598082650e-09) + #1.1378581384536135e-12 * $v_T))) - #(-3.1885603070000001e+04) / $v_T)]
    [Asn v_Kc 0 (#(-4.1688709639999981e+00) + #(-6.2370768000000032e-01) * $v_logT + $v_T * (#1.8745608934578519e-03 + $v_T * (#(-3.8578161397396770e-07) + $v_T * (#5.1363752688737337e-11 + #(-3.0108932200901318e-15) * $v_T))) - #(-3.2625642260000001e+04) / $v_T)];
  (*929*) Do (Asn v_Kc 0 (#1.0000000000000000e+00 * (Exp $v_Kc)));
  (*930*) Do (Asn v_rev_rxn_rates 76 (v_C.[1] * v_C.[20] * $v_kf / $v_Kc));
  (*933*) Do (Asn v_kf 0 ((Exp (#2.3208172486734412e+01 - #(-2.8683515196972269e+02) / $v_T))));
  (*934*) Do (Asn v_fwd_rxn_rates 77 (v_C.[11] * v_C.[10] * $v_kf));
  (*935*) If ($v_T) (#1000.0)
    [Asn v_Kc 0 (#4.2281957739999996e+00 + #(-1.4129930300000000e+00) * $v_logT + $v_T * (#(-3.6074300146473346e-03) + $v_T * (#7.1893080730006792e-06 + $v_T * (#(-4.6332951031415987e-09) + #1.1250716294536134e-12 * $v_T))) - #(-3.6378379270000005e+04) / $v_T)]
    [Asn v_Kc 0 (#(-7.2062421239999983e+00) + #(-4.1644970000000114e-02) * $v_logT + $v_T * (#1.3748141684578516e-03 + $v_T * (#(-2.8528603064063435e-07) + $v_T * (#3.8219881772070668e-11 + #(-2.2509492300901323e-15) * $v_T))) - #(-3.7288037960000001e+04) / $v_T)];
  (*941*) Do (Asn v_Kc 0 (#1.0000000000000000e+00 * (Exp $v_Kc)));
  (*942*) Do (Asn v_rev_rxn_rates 77 (v_C.[1] * v_C.[20] * $v_kf / $v_Kc));
  (*945*) Do (Asn v_kf 0 ((Exp (#3.0685022297606515e+01 - #0.97 * $v_logT - #3.1199613021268084e+02 / $v_T))));
  (*946*) Do (Asn v_fwd_rxn_rates 78 (v_C.[11] * v_C.[11] * $v_kf));
  (*947*) If ($v_T) (#1000.0)
    [Asn v_Kc 0 (#2.5134503800000001e+00 + #(-2.0557558800000004e+00) * $v_logT + $v_T * (#(-4.7617231000000003e-03) + $v_T * (#8.0805652800000013e-06 + $v_T * (#(-4.7586900000000002e-09) + #1.0890431210000001e-12 * $v_T))) - #(-4.4412203099999999e+04) / $v_T)]
    [Asn v_Kc 0 (#1.6550210599999993e+00 + #(-2.4995539400000002e+00) * $v_logT + $v_T * (#3.6027334800000001e-03 + $v_T * (#(-6.7521995666666668e-07) + $v_T * (#8.5229226833333329e-11 + #(-4.8286005599999995e-15) * $v_T))) - #(-4.4977561799999996e+04) / $v_T)];
  (*953*) Do (Asn v_Kc 0 (#8.2057360967184814e-02 * (Exp $v_Kc)));
  (*954*) Do (Asn v_rev_rxn_rates 78 (v_C.[22] * $v_kf / $v_Kc));
  (*957*) Do (Asn v_kf 0 ((Exp (#2.2330701746709838e+01 + #0.1 * $v_logT - #5.3341273875071238e+03 / $v_T))));
  (*958*) Do (Asn v_fwd_rxn_rates 79 (v_C.[11] * v_C.[11] * $v_kf));
  (*959*) If ($v_T) (#1000.0)
    [Asn v_Kc 0 (#1.5921128470000006e+00 + #(-5.4071512000000066e-01) * $v_logT + $v_T * (#(-4.1042462096473340e-03) + $v_T * (#6.3756405963340138e-06 + $v_T * (#(-3.8475260081415982e-09) + #8.9815928595361359e-13 * $v_T))) - #5.4252887999999948e+03 / $v_T)]
    [Asn v_Kc 0 (#(-3.8276131840000023e+00) + #(-1.1677901000000013e-01) * $v_logT + $v_T * (#1.4587357184578514e-03 + $v_T * (#(-3.3462995064063426e-07) + $v_T * (#4.6733966438737313e-11 + #(-2.8105348350901323e-15) * $v_T))) - #4.7800113000000056e+03 / $v_T)];
  (*965*) Do (Asn v_Kc 0 (#1.0000000000000000e+00 * (Exp $v_Kc)));
  (*966*) Do (Asn v_rev_rxn_rates 79 (v_C.[1] * v_C.[21] * $v_kf / $v_Kc));
  (*969*) Do (Asn v_kf 0 (#20000000000.0));
  (*970*) Do (Asn v_fwd_rxn_rates 80 (v_C.[1] * v_C.[15] * $v_kf));
  (*971*) If ($v_T) (#1000.0)
    [Asn v_Kc 0 (#(-5.7661518990000005e+00) + #9.2624924999999969e-01 * $v_logT + $v_T * (#4.3841005964733338e-04 + $v_T * (#(-3.3018745496673476e-06) + $v_T * (#2.4613243498082658e-09 + #(-6.4288472045361349e-13) * $v_T))) - #(-4.1996249372999999e+04) / $v_T)]
    [Asn v_Kc 0 (#1.5024605994000002e+01 + #(-2.1598231099999996e+00) * $v_logT + $v_T * (#8.5458681499214805e-04 + $v_T * (#(-2.0434660135936575e-07) + $v_T * (#3.2396268894596017e-11 + #(-2.1003158549098684e-15) * $v_T))) - #(-4.0797763061999998e+04) / $v_T)];
  (*977*) Do (Asn v_Kc 0 (#1.0000000000000000e+00 * (Exp $v_Kc)));
  (*978*) Do (Asn v_rev_rxn_rates 80 (v_C.[14] * v_C.[5] * $v_kf / $v_Kc));
  (*981*) Do (Asn v_kf 0 (#32000000000.0));
  (*982*) Do (Asn v_fwd_rxn_rates 81 (v_C.[1] * v_C.[15] * $v_kf));
  (*983*) If ($v_T) (#1000.0)
    [Asn v_Kc 0 (#(-6.7986854070000007e+00) + #1.5870909900000001e+00 * $v_logT + $v_T * (#7.9506770964733362e-04 + $v_T * (#(-4.2328719380006812e-06) + $v_T * (#2.8864581848082654e-09 + #(-7.0263054345361339e-13) * $v_T))) - #(-6.9428205799999960e+03) / $v_T)]
    [Asn v_Kc 0 (#1.8702541524000001e+01 + #(-2.1073458099999995e+00) * $v_logT + $v_T * (#4.2749006654214808e-04 + $v_T * (#(-9.1529082359365724e-08) + $v_T * (#1.5676334344596026e-11 + #(-1.0846844429098682e-15) * $v_T))) - #(-5.3573298000000004e+03) / $v_T)];
  (*989*) Do (Asn v_Kc 0 (#1.0000000000000000e+00 * (Exp $v_Kc)));
  (*990*) Do (Asn v_rev_rxn_rates 81 (v_C.[11] * v_C.[3] * $v_kf / $v_Kc));
  (*993*) Do (Asn v_kf 0 (#16000000000.0));
  (*994*) Do (Asn v_fwd_rxn_rates 82 (v_C.[1] * v_C.[15] * $v_kf));
  (*995*) If ($v_T) (#1000.0)
    [Asn v_Kc 0 (#(-9.9293166120000009e+00) + #2.1854396500000002e+00 * $v_logT + $v_T * (#(-7.9920761535266630e-04) + $v_T * (#(-3.8169554646673479e-06) + $v_T * (#2.9275898723082651e-09 + #(-7.4718582295361341e-13) * $v_T))) - #(-6.5662678999999989e+03) / $v_T)]
    [Asn v_Kc 0 (#1.7938516463999999e+01 + #(-1.9317614799999996e+00) * $v_logT + $v_T * (#(-3.0431015345785094e-04) + $v_T * (#8.6843292640634185e-08 + $v_T * (#(-9.7688738554039677e-12) + #4.6010860009013214e-16 * $v_T))) - #(-4.9300692399999980e+03) / $v_T)];
  (*1001*) Do (Asn v_Kc 0 (#1.0000000000000000e+00 * (Exp $v_Kc)));
  (*1002*) Do (Asn v_rev_rxn_rates 82 (v_C.[6] * v_C.[10] * $v_kf / $v_Kc));
  (*1005*) Do (Asn v_kf 0 (#10000000000.0));
  (*1006*) Do (Asn v_fwd_rxn_rates 83 (v_C.[15] * v_C.[2] * $v_kf));
  (*1007*) If ($v_T) (#1000.0)
    [Asn v_Kc 0 (#(-1.0750918799999997e+01) + #2.0389566399999999e+00 * $v_logT + $v_T * (#(-3.5249155899999994e-03) + $v_T * (#(-7.4752225000000982e-08) + $v_T * (#8.0901771750000029e-10 + #(-2.7659313600000008e-13) * $v_T))) - #(-4.1345375379999998e+04) / $v_T)]
    [Asn v_Kc 0 (#1.9242219590000001e+01 + #(-2.7017942199999996e+00) * $v_logT + $v_T * (#1.4505273368499998e-03 + $v_T * (#(-3.3776126448333326e-07) + $v_T * (#5.0738438608333322e-11 + #(-3.2296074935000004e-15) * $v_T))) - #(-3.9872665600000000e+04) / $v_T)];
  (*1013*) Do (Asn v_Kc 0 (#1.0000000000000000e+00 * (Exp $v_Kc)));
  (*1014*) Do (Asn v_rev_rxn_rates 83 (v_C.[14] * v_C.[3] * $v_kf / $v_Kc));
  (*1017*) Do (Asn v_kf 0 (#5000000000.0));
  (*1018*) Do (Asn v_fwd_rxn_rates 84 (v_C.[15] * v_C.[3] * $v_kf));
  (*1019*) If ($v_T) (#1000.0)
    [Asn v_Kc 0 (#(-7.2834480679999993e+00) + #1.1552530800000005e+00 * $v_logT + $v_T * (#(-2.9573426699999994e-03) + $v_T * (#(-5.6723516666667436e-08) + $v_T * (#8.0743738416666660e-10 + #(-2.8859862100000009e-13) * $v_T))) - #(-4.9279919119999999e+04) / $v_T)]
    [Asn v_Kc 0 (#1.7716091319999997e+01 + #(-2.8278386699999998e+00) * $v_logT + $v_T * (#1.4394948199999999e-03 + $v_T * (#(-2.7175435499999995e-07) + $v_T * (#3.6729813466666661e-11 + #(-2.1939898120000006e-15) * $v_T))) - #(-4.8097099080000000e+04) / $v_T)];
  (*1025*) Do (Asn v_Kc 0 (#1.0000000000000000e+00 * (Exp $v_Kc)));
  (*1026*) Do (Asn v_rev_rxn_rates 84 (v_C.[14] * v_C.[6] * $v_kf / $v_Kc));
  (*1029*) Do (Asn v_kf 0 ((Exp (#(-3.5387408478311023e+01) + #7.6 * $v_logT - #(-1.7763650639528441e+03) / $v_T))));
  (*1030*) Do (Asn v_fwd_rxn_rates 85 (v_C.[15] * v_C.[8] * $v_kf));
  (*1031*) If ($v_T) (#1000.0)
    [Asn v_Kc 0 (#(-7.5118687999999993e+00) + #1.6012597799999999e+00 * $v_logT + $v_T * (#(-4.4280434899999993e-03) + $v_T * (#1.8296484649999991e-06 + $v_T * (#(-4.3470095916666702e-10) + #2.8347303500000022e-14 * $v_T))) - #(-1.4245902700000001e+04) / $v_T)]
    [Asn v_Kc 0 (#1.6217423380000000e+01 + #(-2.2624292399999995e+00) * $v_logT + $v_T * (#1.2576543350000004e-03 + $v_T * (#(-2.6687130849999999e-07) + $v_T * (#3.9424785916666660e-11 + #(-2.5575464150000006e-15) * $v_T))) - #(-1.3173629807000001e+04) / $v_T)];
  (*1037*) Do (Asn v_Kc 0 (#1.0000000000000000e+00 * (Exp $v_Kc)));
  (*1038*) Do (Asn v_rev_rxn_rates 85 (v_C.[14] * v_C.[4] * $v_kf / $v_Kc));
  (*1041*) Do (Asn v_kf 0 ((Exp (#1.3399995114002609e+01 + #1.62 * $v_logT - #5.4549000830733230e+03 / $v_T))));
  (*1042*) Do (Asn v_fwd_rxn_rates 86 (v_C.[1] * v_C.[12] * $v_kf));
  (*1043*) If ($v_T) (#1000.0)
    [Asn v_Kc 0 (#9.0075157909999994e+00 + #(-1.6319546100000002e+00) * $v_logT + $v_T * (#1.1831225649647333e-02 + $v_T * (#(-1.0487998723000681e-05) + $v_T * (#5.1466948123082656e-09 + #(-1.0750827934536134e-12) * $v_T))) - #3.0005132700000286e+02 / $v_T)]
    [Asn v_Kc 0 (#(-1.5763732020999999e+01) + #3.0481454150000000e+00 * $v_logT + $v_T * (#(-3.1002243900078510e-03) + $v_T * (#5.4086189530730073e-07 + $v_T * (#(-6.7233924605403965e-11) + #3.7562663850901325e-15 * $v_T))) - #(-1.7988993200000004e+02) / $v_T)];
  (*1049*) Do (Asn v_Kc 0 (#1.0000000000000000e+00 * (Exp $v_Kc)));
  (*1050*) Do (Asn v_rev_rxn_rates 86 (v_C.[5] * v_C.[11] * $v_kf / $v_Kc));
  (*1053*) Do (Asn v_kf 0 ((Exp (#1.3835313185260453e+01 + #1.5 * $v_logT - #4.3276882577887991e+03 / $v_T))));
  (*1054*) Do (Asn v_fwd_rxn_rates 87 (v_C.[12] * v_C.[2] * $v_kf));
  (*1055*) If ($v_T) (#1000.0)
    [Asn v_Kc 0 (#4.0227488899999990e+00 + #(-5.1924722000000001e-01) * $v_logT + $v_T * (#7.8679000000000006e-03 + $v_T * (#(-7.2608763983333341e-06) + $v_T * (#3.4943881800000005e-09 + #(-7.0879120900000006e-13) * $v_T))) - #9.5092532000000210e+02 / $v_T)]
    [Asn v_Kc 0 (#(-1.1546118425000000e+01) + #2.5061743049999996e+00 * $v_logT + $v_T * (#(-2.5042838681500002e-03) + $v_T * (#4.0744723218333332e-07 + $v_T * (#(-4.8891754891666666e-11) + #2.6269747465000002e-15 * $v_T))) - #7.4520752999999968e+02 / $v_T)];
  (*1061*) Do (Asn v_Kc 0 (#1.0000000000000000e+00 * (Exp $v_Kc)));
  (*1062*) Do (Asn v_rev_rxn_rates 87 (v_C.[11] * v_C.[3] * $v_kf / $v_Kc));
  (*1065*) Do (Asn v_kf 0 ((Exp (#1.1512925464970229e+01 + #1.6 * $v_logT - #1.5700450423605873e+03 / $v_T))));
  (*1066*) Do (Asn v_fwd_rxn_rates 88 (v_C.[12] * v_C.[3] * $v_kf));
  (*1067*) If ($v_T) (#1000.0)
    [Asn v_Kc 0 (#7.4902196219999988e+00 + #(-1.4029507799999994e+00) * $v_logT + $v_T * (#8.4354729200000009e-03 + $v_T * (#(-7.2428476900000003e-06) + $v_T * (#3.4928078466666671e-09 + #(-7.2079669399999992e-13) * $v_T))) - #(-6.9836184199999980e+03) / $v_T)]
    [Asn v_Kc 0 (#(-1.3072246695000000e+01) + #2.3801298550000003e+00 * $v_logT + $v_T * (#(-2.5153163849999998e-03) + $v_T * (#4.7345414166666663e-07 + $v_T * (#(-6.2900380033333334e-11) + #3.6625924279999999e-15 * $v_T))) - #(-7.4792259500000000e+03) / $v_T)];
  (*1073*) Do (Asn v_Kc 0 (#1.0000000000000000e+00 * (Exp $v_Kc)));
  (*1074*) Do (Asn v_rev_rxn_rates 88 (v_C.[6] * v_C.[11] * $v_kf / $v_Kc));
  (*1077*) Do (Asn v_kf 0 ((Exp (#7.8079166289264084e+00 + #2.0 * $v_logT - #4.1616258013852748e+03 / $v_T))));
  (*1078*) Do (Asn v_fwd_rxn_rates 89 (v_C.[9] * v_C.[12] * $v_kf));
  (*1079*) If ($v_T) (#1000.0)
    [Asn v_Kc 0 (#7.8532745699999982e+00 + #(-1.5653739999999998e+00) * $v_logT + $v_T * (#8.3620050785000004e-03 + $v_T * (#(-6.7524201983333334e-06) + $v_T * (#3.2152388025000006e-09 + #(-6.6345490549999999e-13) * $v_T))) - #(-2.8673948999999957e+03) / $v_T)]
    [Asn v_Kc 0 (#(-9.2708504749999996e+00) + #1.6224828150000001e+00 * $v_logT + $v_T * (#(-1.2837694399999997e-03) + $v_T * (#1.9458618333333327e-07 + $v_T * (#(-2.4311300916666658e-11) + #1.3578553950000004e-15 * $v_T))) - #(-3.2440908100000015e+03) / $v_T)];
  (*1085*) Do (Asn v_Kc 0 (#1.0000000000000000e+00 * (Exp $v_Kc)));
  (*1086*) Do (Asn v_rev_rxn_rates 89 (v_C.[11] * v_C.[11] * $v_kf / $v_Kc));
  (*1089*) Do (Asn v_kf 0 ((Exp (#2.3495854559186192e+01 - #(-2.8683515196972269e+02) / $v_T))));
  (*1090*) Do (Asn v_fwd_rxn_rates 90 (v_C.[12] * v_C.[10] * $v_kf));
  (*1091*) If ($v_T) (#1000.0)
    [Asn v_Kc 0 (#1.0620850826999998e+01 + #(-2.0012994399999995e+00) * $v_logT + $v_T * (#1.0029748245000001e-02 + $v_T * (#(-7.6587641633333345e-06) + $v_T * (#3.4516761591666669e-09 + #(-6.7624141450000000e-13) * $v_T))) - #(-7.3601710999999996e+03) / $v_T)]
    [Asn v_Kc 0 (#(-1.2308221634999999e+01) + #2.2045455250000003e+00 * $v_logT + $v_T * (#(-1.7835161650000000e-03) + $v_T * (#2.9508176666666662e-07 + $v_T * (#(-3.7455171833333334e-11) + #2.1177993849999999e-15 * $v_T))) - #(-7.9064865100000025e+03) / $v_T)];
  (*1097*) Do (Asn v_Kc 0 (#1.0000000000000000e+00 * (Exp $v_Kc)));
  (*1098*) Do (Asn v_rev_rxn_rates 90 (v_C.[11] * v_C.[11] * $v_kf / $v_Kc));
  (*1101*) Do (Asn v_kf 0 ((Exp (#1.7468762834435058e+01 + #1.62 * $v_logT - #1.8643379082815227e+04 / $v_T))));
  (*1102*) Do (Asn v_fwd_rxn_rates 91 (v_C.[19] * $v_kf));
  (*1103*) If ($v_T) (#1000.0)
    [Asn v_Kc 0 (#4.8862673529999983e+00 + #(-9.0378535599999998e-01) * $v_logT + $v_T * (#1.0923385640352666e-02 + $v_T * (#(-1.0239687116999320e-05) + $v_T * (#5.3150857001917346e-09 + #(-1.1607908520463867e-12) * $v_T))) - #1.7042793799999999e+04 / $v_T)]
    [Asn v_Kc 0 (#(-1.3095133554000000e+01) + #2.6308456500000004e+00 * $v_logT + $v_T * (#(-2.1842812915421491e-03) + $v_T * (#3.8464583102603240e-07 + $v_T * (#(-4.5851726144596027e-11) + #2.5068591649098675e-15 * $v_T))) - #1.6796785199999998e+04 / $v_T)];
  (*1109*) Do (Asn v_Kc 0 (#1.2186597134166982e+01 * (Exp $v_Kc)));
  (*1110*) Do (Asn v_rev_rxn_rates 91 (v_C.[1] * v_C.[18] * $v_kf / $v_Kc));
  (*1113*) Do (Asn v_kf 0 ((Exp (#8.3138522673982074e+00 + #2.0 * $v_logT - #9.5611717323240896e+02 / $v_T))));
  (*1114*) Do (Asn v_fwd_rxn_rates 92 (v_C.[18] * v_C.[2] * $v_kf));
  (*1115*) If ($v_T) (#1000.0)
    [Asn v_Kc 0 (#(-1.4285961375999998e+01) + #3.3652639460000002e+00 * $v_logT + $v_T * (#(-9.8618627984999995e-03) + $v_T * (#5.4476383800000000e-06 + $v_T * (#(-2.0692569254999999e-09) + #3.5855313604999996e-13 * $v_T))) - #(-2.3891285800000001e+04) / $v_T)]
    [Asn v_Kc 0 (#1.1563527210000000e+01 + #(-1.1277036800000007e+00) * $v_logT + $v_T * (#(-7.8386088149999999e-05) + $v_T * (#(-1.2795279983333339e-08) + $v_T * (#2.7365138249999962e-12 + #(-2.1211719550000020e-16) * $v_T))) - #(-2.3041846699999998e+04) / $v_T)];
  (*1121*) Do (Asn v_Kc 0 (#1.0000000000000000e+00 * (Exp $v_Kc)));
  (*1122*) Do (Asn v_rev_rxn_rates 92 (v_C.[9] * v_C.[16] * $v_kf / $v_Kc));
  (*1125*) Do (Asn v_kf 0 ((Exp (#(-1.4543249183293838e+01) + #4.0 * $v_logT - #(-1.0064391297183253e+03) / $v_T))));
  (*1126*) Do (Asn v_fwd_rxn_rates 93 (v_C.[18] * v_C.[3] * $v_kf));
  (*1127*) If ($v_T) (#1000.0)
    [Asn v_Kc 0 (#(-1.0455435695999999e+01) + #2.3191371660000000e+00 * $v_logT + $v_T * (#(-9.3677577199999997e-03) + $v_T * (#5.9560945799999999e-06 + $v_T * (#(-2.3484063030000003e-09) + #4.0388943954999997e-13 * $v_T))) - #(-2.7709606019999999e+04) / $v_T)]
    [Asn v_Kc 0 (#1.3838795160000002e+01 + #(-2.0113951700000006e+00) * $v_logT + $v_T * (#1.1421283400000002e-03 + $v_T * (#(-2.2565632883333335e-07) + $v_T * (#2.7316967799999994e-11 + #(-1.4812365470000001e-15) * $v_T))) - #(-2.7031145039999999e+04) / $v_T)];
  (*1133*) Do (Asn v_Kc 0 (#1.0000000000000000e+00 * (Exp $v_Kc)));
  (*1134*) Do (Asn v_rev_rxn_rates 93 (v_C.[11] * v_C.[16] * $v_kf / $v_Kc));
  (*1137*) Do (Asn v_kf 0 ((Exp (#9.2103403719761836e+00 + #2.0 * $v_logT - #3.0193173891549759e+03 / $v_T))));
  (*1138*) Do (Asn v_fwd_rxn_rates 94 (v_C.[18] * v_C.[13] * $v_kf));
  (*1139*) If ($v_T) (#1000.0)
    [Asn v_Kc 0 (#(-7.0772609859999989e+00) + #1.7621329860000001e+00 * $v_logT + $v_T * (#(-9.6065998200000006e-03) + $v_T * (#8.1124987383333330e-06 + $v_T * (#(-4.1299677679999994e-09) + #8.9868519455000001e-13 * $v_T))) - #(-9.7527848599999998e+03) / $v_T)]
    [Asn v_Kc 0 (#8.2257822000000012e+00 + #(-1.1878344100000007e+00) * $v_logT + $v_T * (#7.3706736500000081e-04 + $v_T * (#(-1.3704076850000000e-07) + $v_T * (#1.5925994916666657e-11 + #(-8.5755416499999955e-16) * $v_T))) - #(-9.4869158499999994e+03) / $v_T)];
  (*1145*) Do (Asn v_Kc 0 (#1.0000000000000000e+00 * (Exp $v_Kc)));
  (*1146*) Do (Asn v_rev_rxn_rates 94 (v_C.[19] * v_C.[16] * $v_kf / $v_Kc));
  (*1149*) Do (Asn v_kf 0 ((Exp (#1.1611507144422505e+02 - #12.82 * $v_logT - #1.7980035052417879e+04 / $v_T))));
  (*1150*) Do (Asn v_fwd_rxn_rates 95 (v_C.[11] * v_C.[18] * $v_kf));
  (*1151*) If ($v_T) (#1000.0)
    [Asn v_Kc 0 (#4.7480325640000043e+00 + #(-2.1190879940000000e+00) * $v_logT + $v_T * (#(-2.7793468250000009e-03) + $v_T * (#7.0473371566666666e-06 + $v_T * (#(-4.5416353708333335e-09) + #1.0901721700000000e-12 * $v_T))) - #(-2.3628350500000000e+04) / $v_T)]
    [Asn v_Kc 0 (#(-1.8560340919999998e+01) + #1.0675003399999996e+00 * $v_logT + $v_T * (#5.6158199500000016e-04 + $v_T * (#(-5.3011866666666561e-08) + $v_T * (#3.7486070833333322e-12 + #(-3.7624631499999923e-16) * $v_T))) - #(-2.5229134499999996e+04) / $v_T)];
  (*1157*) Do (Asn v_Kc 0 (#8.2057360967184814e-02 * (Exp $v_Kc)));
  (*1158*) Do (Asn v_rev_rxn_rates 95 (v_C.[24] * $v_kf / $v_Kc));
  (*1161*) Do (Asn v_kf 0 ((Exp (#2.2528270532924488e+01 + #0.27 * $v_logT - #1.4090147816056555e+02 / $v_T))));
  (*1162*) Do (Asn v_fwd_rxn_rates 96 (v_C.[1] * v_C.[19] * $v_kf));
  (*1163*) If ($v_T) (#1000.0)
    [Asn v_Kc 0 (#(-2.2132614670000001e+00) + #(-7.5326497000000003e-01) * $v_logT + $v_T * (#(-4.5426570453526664e-03) + $v_T * (#5.1963480003326537e-06 + $v_T * (#(-2.7827575501917343e-09) + #6.1366750004638666e-13 * $v_T))) - #(-5.5243730769999995e+04) / $v_T)]
    [Asn v_Kc 0 (#6.4453412840000022e+00 + #(-2.4806128500000000e+00) * $v_logT + $v_T * (#2.1575929615421478e-03 + $v_T * (#(-3.3832594602603260e-07) + $v_T * (#3.7883029561262699e-11 + #(-1.9722678699098683e-15) * $v_T))) - #(-5.5146647660000002e+04) / $v_T)];
  (*1169*) Do (Asn v_Kc 0 (#8.2057360967184814e-02 * (Exp $v_Kc)));
  (*1170*) Do (Asn v_rev_rxn_rates 96 (v_C.[20] * $v_kf / $v_Kc));
  (*1173*) Do (Asn v_kf 0 (#90000000000.0));
  (*1174*) Do (Asn v_fwd_rxn_rates 97 (v_C.[1] * v_C.[19] * $v_kf));
  (*1175*) If ($v_T) (#1000.0)
    [Asn v_Kc 0 (#9.1183121770000000e+00 + #(-2.5594542359999997e+00) * $v_logT + $v_T * (#1.4913646014647333e-02 + $v_T * (#(-1.3486045616334013e-05) + $v_T * (#6.9948531498082656e-09 + #(-1.5295967324536134e-12) * $v_T))) - #(-3.4822461173000003e+04) / $v_T)]
    [Asn v_Kc 0 (#(-1.3744070216000001e+01) + #1.9681248299999998e+00 * $v_logT + $v_T * (#(-2.2089825050078515e-03) + $v_T * (#4.6788862197396742e-07 + $v_T * (#(-6.0815591522070634e-11) + #3.5081359950901319e-15 * $v_T))) - #(-3.5100693522000001e+04) / $v_T)];
  (*1181*) Do (Asn v_Kc 0 (#1.0000000000000000e+00 * (Exp $v_Kc)));
  (*1182*) Do (Asn v_rev_rxn_rates 97 (v_C.[5] * v_C.[18] * $v_kf / $v_Kc));
  (*1185*) Do (Asn v_kf 0 (#48000000000.0));
  (*1186*) Do (Asn v_fwd_rxn_rates 98 (v_C.[19] * v_C.[2] * $v_kf));
  (*1187*) If ($v_T) (#1000.0)
    [Asn v_Kc 0 (#(-6.3218904199999990e+00) + #8.7239031999999961e-01 * $v_logT + $v_T * (#1.5825626450000001e-03 + $v_T * (#(-4.3028287116666659e-06) + $v_T * (#2.9941402144999999e-09 + #(-7.5941570844999999e-13) * $v_T))) - #(-6.1881193199999994e+04) / $v_T)]
    [Asn v_Kc 0 (#4.3123385400000007e+00 + #(-5.8524145000000027e-01) * $v_logT + $v_T * (#(-4.7091364315000010e-04) + $v_T * (#1.0881763001666656e-07 + $v_T * (#(-1.5156454008333338e-11) + #8.9760780949999945e-16 * $v_T))) - #(-6.1206741099999999e+04) / $v_T)];
  (*1193*) Do (Asn v_Kc 0 (#1.0000000000000000e+00 * (Exp $v_Kc)));
  (*1194*) Do (Asn v_rev_rxn_rates 98 (v_C.[11] * v_C.[16] * $v_kf / $v_Kc));
  (*1197*) Do (Asn v_kf 0 (#30110000000.0));
  (*1198*) Do (Asn v_fwd_rxn_rates 99 (v_C.[19] * v_C.[3] * $v_kf));
  (*1199*) If ($v_T) (#1000.0)
    [Asn v_Kc 0 (#7.6010160079999984e+00 + #(-2.3304504059999998e+00) * $v_logT + $v_T * (#1.1517893284999999e-02 + $v_T * (#(-1.0240894583333331e-05) + $v_T * (#5.3409661841666667e-09 + #(-1.1753106330000001e-12) * $v_T))) - #(-4.2106130919999996e+04) / $v_T)]
    [Asn v_Kc 0 (#(-1.1052584890000000e+01) + #1.3001092700000005e+00 * $v_logT + $v_T * (#(-1.6240745000000005e-03) + $v_T * (#4.0048086833333327e-07 + $v_T * (#(-5.6482046949999996e-11) + #3.4144620379999997e-15 * $v_T))) - #(-4.2400029539999996e+04) / $v_T)];
  (*1205*) Do (Asn v_Kc 0 (#1.0000000000000000e+00 * (Exp $v_Kc)));
  (*1206*) Do (Asn v_rev_rxn_rates 99 (v_C.[6] * v_C.[18] * $v_kf / $v_Kc));
  (*1209*) Do (Asn v_kf 0 ((Exp (#7.2004248929449570e+00 + #1.61 * $v_logT - #(-1.9293438116700293e+02) / $v_T))));
  (*1210*) Do (Asn v_fwd_rxn_rates 100 (v_C.[19] * v_C.[8] * $v_kf));
  (*1211*) If ($v_T) (#1000.0)
    [Asn v_Kc 0 (#7.3725952759999993e+00 + #(-1.8844437060000003e+00) * $v_logT + $v_T * (#1.0047192465000000e-02 + $v_T * (#(-8.3545226016666670e-06) + $v_T * (#4.0988278408333331e-09 + #(-8.5836470849999991e-13) * $v_T))) - #(-7.0721144999999997e+03) / $v_T)]
    [Asn v_Kc 0 (#(-1.2551252830000001e+01) + #1.8655187000000009e+00 * $v_logT + $v_T * (#(-1.8059149850000000e-03) + $v_T * (#4.0536391483333328e-07 + $v_T * (#(-5.3787074499999991e-11) + #3.0509054349999997e-15 * $v_T))) - #(-7.4765602669999989e+03) / $v_T)];
  (*1217*) Do (Asn v_Kc 0 (#1.0000000000000000e+00 * (Exp $v_Kc)));
  (*1218*) Do (Asn v_rev_rxn_rates 100 (v_C.[4] * v_C.[18] * $v_kf / $v_Kc));
  (*1221*) Do (Asn v_kf 0 ((Exp (#1.9519293032620475e+01 + #0.29 * $v_logT - #5.5354152134507890e+00 / $v_T))));
  (*1222*) Do (Asn v_fwd_rxn_rates 101 (v_C.[19] * v_C.[8] * $v_kf));
  (*1223*) If ($v_T) (#1000.0)
    [Asn v_Kc 0 (#(-1.2723570999999989e-01) + #(-4.1759331000000044e-01) * $v_logT + $v_T * (#4.4705988500000002e-03 + $v_T * (#(-4.5389477916666659e-06) + $v_T * (#2.6800358708333334e-09 + #(-6.4893854299999995e-13) * $v_T))) - #(-4.6116440399999992e+03) / $v_T)]
    [Asn v_Kc 0 (#(-1.5734133170000002e+01) + #2.2458288399999997e+00 * $v_logT + $v_T * (#(-1.8843497268500003e-03) + $v_T * (#4.5618568631666658e-07 + $v_T * (#(-6.9174233741666667e-11) + #4.3700324704999998e-15 * $v_T))) - #(-5.2763370799999993e+03) / $v_T)];
  (*1229*) Do (Asn v_Kc 0 (#1.0000000000000000e+00 * (Exp $v_Kc)));
  (*1230*) Do (Asn v_rev_rxn_rates 101 (v_C.[23] * v_C.[2] * $v_kf / $v_Kc));
  (*1233*) Do (Asn v_kf 0 ((Exp (#3.1459662512417644e+01 - #1.39 * $v_logT - #5.0825176050775428e+02 / $v_T))));
  (*1234*) Do (Asn v_fwd_rxn_rates 102 (v_C.[19] * v_C.[8] * $v_kf));
  (*1235*) If ($v_T) (#1000.0)
    [Asn v_Kc 0 (#(-1.0191016829999999e+01) + #2.0199861800000005e+00 * $v_logT + $v_T * (#(-5.8351582350000004e-03) + $v_T * (#2.5556170316666676e-06 + $v_T * (#(-4.8298796750000000e-10) + #(-2.2193090999999984e-14) * $v_T))) - #(-4.4265294979999999e+04) / $v_T)]
    [Asn v_Kc 0 (#1.1980510229999998e+01 + #(-1.7663973799999999e+00) * $v_logT + $v_T * (#1.1718196699999997e-03 + $v_T * (#(-2.4470901683333341e-07) + $v_T * (#3.0705871916666657e-11 + #(-1.6901975800000012e-15) * $v_T))) - #(-4.3508330330000004e+04) / $v_T)];
  (*1241*) Do (Asn v_Kc 0 (#1.0000000000000000e+00 * (Exp $v_Kc)));
  (*1242*) Do (Asn v_rev_rxn_rates 102 (v_C.[14] * v_C.[13] * $v_kf / $v_Kc));
  (*1245*) Do (Asn v_kf 0 (#10000000000.0));
  (*1246*) Do (Asn v_fwd_rxn_rates 103 (v_C.[19] * v_C.[4] * $v_kf));
  (*1247*) If ($v_T) (#1000.0)
    [Asn v_Kc 0 (#(-3.3662857099999992e+00) + #2.0103549999999970e-02 * $v_logT + $v_T * (#5.3737267500000001e-03 + $v_T * (#(-6.4433484816666655e-06) + $v_T * (#3.9237545475000001e-09 + #(-9.5387898249999995e-13) * $v_T))) - #(-3.1711116719999998e+04) / $v_T)]
    [Asn v_Kc 0 (#(-1.2709336960000000e+01) + #1.8064638599999991e+00 * $v_logT + $v_T * (#(-1.6914767250000007e-03) + $v_T * (#3.8529573033333326e-07 + $v_T * (#(-5.7860581050000005e-11) + #3.6979713919999992e-15 * $v_T))) - #(-3.1975372873000000e+04) / $v_T)];
  (*1253*) Do (Asn v_Kc 0 (#1.0000000000000000e+00 * (Exp $v_Kc)));
  (*1254*) Do (Asn v_rev_rxn_rates 103 (v_C.[23] * v_C.[3] * $v_kf / $v_Kc));
  (*1257*) Do (Asn v_kf 0 ((Exp (#1.6308716010566968e+01 - #(-2.9991886065606093e+02) / $v_T))));
  (*1258*) Do (Asn v_fwd_rxn_rates 104 (v_C.[19] * v_C.[7] * $v_kf));
  (*1259*) If ($v_T) (#1000.0)
    [Asn v_Kc 0 (#(-4.9040179300000002e+00) + #7.7242034999999998e-01 * $v_logT + $v_T * (#(-6.6458060915000000e-03) + $v_T * (#5.9338011666666649e-06 + $v_T * (#(-3.0076998916666664e-09) + #6.4705288050000023e-13 * $v_T))) - #(-1.1772680730000000e+04) / $v_T)]
    [Asn v_Kc 0 (#4.5153958400000000e+00 + #(-1.1284047899999994e+00) * $v_logT + $v_T * (#8.2334454499999972e-04 + $v_T * (#(-1.2703692666666678e-07) + $v_T * (#1.6471394500000016e-11 + #(-1.0722689950000007e-15) * $v_T))) - #(-1.1699343346999998e+04) / $v_T)];
  (*1265*) Do (Asn v_Kc 0 (#1.0000000000000000e+00 * (Exp $v_Kc)));
  (*1266*) Do (Asn v_rev_rxn_rates 104 (v_C.[20] * v_C.[4] * $v_kf / $v_Kc));
  (*1269*) Do (Asn v_kf 0 (#90330000000.0));
  (*1270*) Do (Asn v_fwd_rxn_rates 105 (v_C.[19] * v_C.[13] * $v_kf));
  (*1271*) If ($v_T) (#1000.0)
    [Asn v_Kc 0 (#(-4.4042551000000003e+00) + #1.0508265999999988e-01 * $v_logT + $v_T * (#(-3.2258712250000003e-03) + $v_T * (#3.0691596216666667e-06 + $v_T * (#(-1.5976396179999993e-09) + #3.5156184255000016e-13 * $v_T))) - #(-4.7953721830000002e+04) / $v_T)]
    [Asn v_Kc 0 (#1.5759899300000013e+00 + #(-1.0376016100000003e+00) * $v_logT + $v_T * (#7.1037903499999912e-04 + $v_T * (#(-9.0720883500000089e-08) + $v_T * (#7.9572983333333482e-12 + #(-3.2296286999999951e-16) * $v_T))) - #(-4.7836778309999994e+04) / $v_T)];
  (*1277*) Do (Asn v_Kc 0 (#1.0000000000000000e+00 * (Exp $v_Kc)));
  (*1278*) Do (Asn v_rev_rxn_rates 105 (v_C.[20] * v_C.[16] * $v_kf / $v_Kc));
  (*1281*) Do (Asn v_kf 0 (#18000000000.0));
  (*1282*) Do (Asn v_fwd_rxn_rates 106 (v_C.[19] * v_C.[13] * $v_kf));
  (*1283*) If ($v_T) (#1000.0)
    [Asn v_Kc 0 (#1.3755466809999998e+01 + #(-5.1623024900000001e+00) * $v_logT + $v_T * (#1.3980093850000000e-02 + $v_T * (#(-8.1653527166666655e-06) + $v_T * (#3.6913722333333332e-09 + #(-7.8523608250000001e-13) * $v_T))) - #(-4.8035146160000004e+04) / $v_T)]
    [Asn v_Kc 0 (#(-2.2466757519999998e+01) + #1.0222884199999998e+00 * $v_logT + $v_T * (#9.1353577000000043e-04 + $v_T * (#(-5.3022746666666747e-08) + $v_T * (#(-1.5130813166666671e-11) + #2.3932367100000000e-15 * $v_T))) - #(-4.9408846049999993e+04) / $v_T)];
  (*1289*) Do (Asn v_Kc 0 (#8.2057360967184814e-02 * (Exp $v_Kc)));
  (*1290*) Do (Asn v_rev_rxn_rates 106 (v_C.[27] * $v_kf / $v_Kc));
  (*1293*) Do (Asn v_kf 0 (#392000000.0));
  (*1294*) Do (Asn v_fwd_rxn_rates 107 (v_C.[11] * v_C.[19] * $v_kf));
  (*1295*) If ($v_T) (#1000.0)
    [Asn v_Kc 0 (#1.1079638599999964e-01 + #(-9.2749962600000035e-01) * $v_logT + $v_T * (#3.0824203650000001e-03 + $v_T * (#(-2.9980468933333325e-06) + $v_T * (#1.8481583374999996e-09 + #(-4.5451393899999995e-13) * $v_T))) - #(-3.5122512499999997e+04) / $v_T)]
    [Asn v_Kc 0 (#2.0196618049999984e+00 + #(-1.0800205849999998e+00) * $v_logT + $v_T * (#8.9124188499999871e-04 + $v_T * (#(-7.2973273333333417e-08) + $v_T * (#6.4183330833333442e-12 + #(-2.4813039000000106e-16) * $v_T))) - #(-3.4920803589999996e+04) / $v_T)];
  (*1301*) Do (Asn v_Kc 0 (#1.0000000000000000e+00 * (Exp $v_Kc)));
  (*1302*) Do (Asn v_rev_rxn_rates 107 (v_C.[12] * v_C.[18] * $v_kf / $v_Kc));
  (*1305*) Do (Asn v_kf 0 (#25000000000.0));
  (*1306*) Do (Asn v_fwd_rxn_rates 108 (v_C.[11] * v_C.[19] * $v_kf));
  (*1307*) If ($v_T) (#1000.0)
    [Asn v_Kc 0 (#1.1422985270000002e+01 + #(-4.3927498500000004e+00) * $v_logT + $v_T * (#8.6997183150000004e-03 + $v_T * (#(-4.5273942933333333e-06) + $v_T * (#2.1623199124999998e-09 + #(-5.0503993199999997e-13) * $v_T))) - #(-5.0230019600000000e+04) / $v_T)]
    [Asn v_Kc 0 (#(-3.1010560850000001e+01) + #2.4298152799999997e+00 * $v_logT + $v_T * (#(-1.3308947849999999e-03) + $v_T * (#4.5301132833333336e-07 + $v_T * (#(-7.4342943666666652e-11) + #4.7657051750000000e-15 * $v_T))) - #(-5.2312028500000000e+04) / $v_T)];
  (*1313*) Do (Asn v_Kc 0 (#8.2057360967184814e-02 * (Exp $v_Kc)));
  (*1314*) Do (Asn v_rev_rxn_rates 108 (v_C.[25] * $v_kf / $v_Kc));
  (*1317*) Do (Asn v_kf 0 ((Exp (#4.8759752060983125e+01 - #2.83 * $v_logT - #9.3689418585478907e+03 / $v_T))));
  (*1318*) Do (Asn v_fwd_rxn_rates 109 (v_C.[11] * v_C.[19] * $v_kf));
  (*1319*) If ($v_T) (#1000.0)
    [Asn v_Kc 0 (#9.6342999169999999e+00 + #(-3.0228733500000002e+00) * $v_logT + $v_T * (#8.1440388153526649e-03 + $v_T * (#(-3.1923499603326526e-06) + $v_T * (#7.7345032935840157e-10 + #(-7.0618682046386615e-14) * $v_T))) - #(-6.5855567000000010e+03) / $v_T)]
    [Asn v_Kc 0 (#(-3.1655474474000002e+01) + #3.6983459900000000e+00 * $v_logT + $v_T * (#(-1.6226992965421485e-03) + $v_T * (#3.3163396435936579e-07 + $v_T * (#(-4.2103119061262695e-11) + #2.1306128499098683e-15 * $v_T))) - #(-8.4323492999999980e+03) / $v_T)];
  (*1325*) Do (Asn v_Kc 0 (#1.0000000000000000e+00 * (Exp $v_Kc)));
  (*1326*) Do (Asn v_rev_rxn_rates 109 (v_C.[1] * v_C.[24] * $v_kf / $v_Kc));
  (*1329*) Do (Asn v_kf 0 (#960000000.0));
  (*1330*) Do (Asn v_fwd_rxn_rates 110 (v_C.[19] * v_C.[19] * $v_kf));
  (*1331*) If ($v_T) (#1000.0)
    [Asn v_Kc 0 (#2.6730058859999986e+00 + #(-1.6570503260000002e+00) * $v_logT + $v_T * (#6.3807285950000002e-03 + $v_T * (#(-5.0433391166666663e-06) + $v_T * (#2.5323281500000003e-09 + #(-5.4712335199999985e-13) * $v_T))) - #(-3.8200936969999995e+04) / $v_T)]
    [Asn v_Kc 0 (#(-6.6497922699999998e+00) + #1.5023280000000039e-01 * $v_logT + $v_T * (#(-2.6688330000001689e-05) + $v_T * (#4.6319884999999696e-08 + $v_T * (#(-7.9686965833333218e-12) + #5.3459129499999964e-16 * $v_T))) - #(-3.8349862460000004e+04) / $v_T)];
  (*1337*) Do (Asn v_Kc 0 (#1.0000000000000000e+00 * (Exp $v_Kc)));
  (*1338*) Do (Asn v_rev_rxn_rates 110 (v_C.[20] * v_C.[18] * $v_kf / $v_Kc));
  (*1341*) Do (Asn v_kf 0 ((Exp (#9.6460112546451413e+01 - #9.147 * $v_logT - #2.3600997591894728e+04 / $v_T))));
  (*1342*) Do (Asn v_fwd_rxn_rates 111 (v_C.[23] * $v_kf));
  (*1343*) If ($v_T) (#1000.0)
    [Asn v_Kc 0 (#(-8.3025413600000011e+00) + #2.8440614699999998e+00 * $v_logT + $v_T * (#(-4.6689879650000004e-03) + $v_T * (#8.0925673166666690e-07 + $v_T * (#9.9534561166666716e-11 + #(-6.1397612949999979e-14) * $v_T))) - #2.0389128000000019e+03 / $v_T)]
    [Asn v_Kc 0 (#2.2305613980000000e+01 + #(-1.9747665699999999e+00) * $v_logT + $v_T * (#5.8591820000000044e-04 + $v_T * (#(-2.0705745850000005e-07) + $v_T * (#3.4892270166666664e-11 + #(-2.2660020000000002e-15) * $v_T))) - #3.5932118999999984e+03 / $v_T)];
  (*1349*) Do (Asn v_Kc 0 (#1.2186597134166982e+01 * (Exp $v_Kc)));
  (*1350*) Do (Asn v_rev_rxn_rates 111 (v_C.[11] * v_C.[16] * $v_kf / $v_Kc));
  (*1353*) Do (Asn v_kf 0 (#90000000000.0));
  (*1354*) Do (Asn v_fwd_rxn_rates 112 (v_C.[23] * v_C.[1] * $v_kf));
  (*1355*) If ($v_T) (#1000.0)
    [Asn v_Kc 0 (#(-6.1115477269999996e+00) + #1.9857138400000007e+00 * $v_logT + $v_T * (#(-5.9857737853526672e-03) + $v_T * (#2.9364451103326530e-06 + $v_T * (#(-1.0855833710250679e-09) + #2.0070804454638663e-13 * $v_T))) - #(-5.2510961399999978e+03) / $v_T)]
    [Asn v_Kc 0 (#2.7174965333999999e+01 + #(-3.4177778099999996e+00) * $v_logT + $v_T * (#2.0331321265421487e-03 + $v_T * (#(-4.5466252102603256e-07) + $v_T * (#6.4818001394596021e-11 + #(-3.9153069999098686e-15) * $v_T))) - #(-3.7166574499999988e+03) / $v_T)];
  (*1361*) Do (Asn v_Kc 0 (#1.0000000000000000e+00 * (Exp $v_Kc)));
  (*1362*) Do (Asn v_rev_rxn_rates 112 (v_C.[11] * v_C.[13] * $v_kf / $v_Kc));
  (*1365*) Do (Asn v_kf 0 (#18000000.0));
  (*1366*) Do (Asn v_fwd_rxn_rates 113 (v_C.[23] * v_C.[8] * $v_kf));
  (*1367*) If ($v_T) (#1000.0)
    [Asn v_Kc 0 (#(-1.5115383480000000e+01) + #4.3070434700000000e+00 * $v_logT + $v_T * (#(-1.0742988300000001e-02) + $v_T * (#5.5212779216666664e-06 + $v_T * (#(-2.1650148713333330e-09) + #4.1120505105000006e-13 * $v_T))) - #(-2.4269561019999997e+04) / $v_T)]
    [Asn v_Kc 0 (#2.8673111250000005e+01 + #(-2.9176031899999995e+00) * $v_logT + $v_T * (#1.3526768950000005e-03 + $v_T * (#(-3.6315091500000000e-07) + $v_T * (#5.4207169200000007e-11 + #(-3.3325171979999998e-15) * $v_T))) - #(-2.2370889240000004e+04) / $v_T)];
  (*1373*) Do (Asn v_Kc 0 (#1.2186597134166982e+01 * (Exp $v_Kc)));
  (*1374*) Do (Asn v_rev_rxn_rates 113 (v_C.[14] * v_C.[16] * v_C.[3] * $v_kf / $v_Kc));
  (*1377*) Do (Asn v_kf 0 ((Exp (#1.5195535306070569e+01 + #1.28 * $v_logT - #6.4947026699418120e+02 / $v_T))));
  (*1378*) Do (Asn v_fwd_rxn_rates 114 (v_C.[1] * v_C.[20] * $v_kf));
  (*1379*) If ($v_T) (#1000.0)
    [Asn v_Kc 0 (#3.2092969330000005e+00 + #(-1.1527358000000003e+00) * $v_logT + $v_T * (#1.6919667746473337e-03 + $v_T * (#(-1.2307914163340125e-06) + $v_T * (#7.7051789147493195e-10 + #(-1.9687684495361349e-13) * $v_T))) - #(-1.7721809329999996e+04) / $v_T)]
    [Asn v_Kc 0 (#6.1852026639999984e+00 + #(-1.5814547499999998e+00) * $v_logT + $v_T * (#1.3759285615421498e-03 + $v_T * (#(-2.1188125769269901e-07) + $v_T * (#2.3328972061262663e-11 + #(-1.1967757749098668e-15) * $v_T))) - #(-1.7556026039999997e+04) / $v_T)];
  (*1385*) Do (Asn v_Kc 0 (#8.2057360967184814e-02 * (Exp $v_Kc)));
  (*1386*) Do (Asn v_rev_rxn_rates 114 (v_C.[21] * $v_kf / $v_Kc));
  (*1389*) Do (Asn v_kf 0 ((Exp (#1.0833681189579275e+01 + #1.9 * $v_logT - #6.5166933649261564e+03 / $v_T))));
  (*1390*) Do (Asn v_fwd_rxn_rates 115 (v_C.[1] * v_C.[20] * $v_kf));
  (*1391*) If ($v_T) (#1000.0)
    [Asn v_Kc 0 (#6.4453062909999996e+00 + #(-9.0240390999999986e-01) * $v_logT + $v_T * (#8.5329174196473335e-03 + $v_T * (#(-8.4427064996673472e-06) + $v_T * (#4.4625249998082653e-09 + #(-9.8247338045361357e-13) * $v_T))) - #3.3784757970000028e+03 / $v_T)]
    [Asn v_Kc 0 (#(-7.0942779460000009e+00) + #1.8178920299999994e+00 * $v_logT + $v_T * (#(-2.1822941750078515e-03) + $v_T * (#4.2156873697396772e-07 + $v_T * (#(-5.2846894938737325e-11) + #2.9735447000901326e-15 * $v_T))) - #3.2491689379999980e+03 / $v_T)];
  (*1397*) Do (Asn v_Kc 0 (#1.0000000000000000e+00 * (Exp $v_Kc)));
  (*1398*) Do (Asn v_rev_rxn_rates 115 (v_C.[5] * v_C.[19] * $v_kf / $v_Kc));
  (*1401*) Do (Asn v_kf 0 ((Exp (#9.6224500228030152e+00 + #1.9 * $v_logT - #1.8820411725732683e+03 / $v_T))));
  (*1402*) Do (Asn v_fwd_rxn_rates 116 (v_C.[20] * v_C.[2] * $v_kf));
  (*1403*) If ($v_T) (#1000.0)
    [Asn v_Kc 0 (#1.4605393900000005e+00 + #2.1030347999999988e-01 * $v_logT + $v_T * (#4.5695917700000000e-03 + $v_T * (#(-5.2155841750000004e-06) + $v_T * (#2.8102183674999999e-09 + #(-6.1618179600000016e-13) * $v_T))) - #4.0293497899999929e+03 / $v_T)]
    [Asn v_Kc 0 (#(-2.8766643500000000e+00) + #1.2759209199999999e+00 * $v_logT + $v_T * (#(-1.5863536531499998e-03) + $v_T * (#2.8815407385000021e-07 + $v_T * (#(-3.4504725225000020e-11) + #1.8442530615000007e-15 * $v_T))) - #4.1742663999999968e+03 / $v_T)];
  (*1409*) Do (Asn v_Kc 0 (#1.0000000000000000e+00 * (Exp $v_Kc)));
  (*1410*) Do (Asn v_rev_rxn_rates 116 (v_C.[19] * v_C.[3] * $v_kf / $v_Kc));
  (*1413*) Do (Asn v_kf 0 ((Exp (#9.8626655580158733e+00 + #1.83 * $v_logT - #1.1070830426901578e+02 / $v_T))));
  (*1414*) Do (Asn v_fwd_rxn_rates 117 (v_C.[20] * v_C.[2] * $v_kf));
  (*1415*) If ($v_T) (#1000.0)
    [Asn v_Kc 0 (#(-1.9176353200000000e+00) + #7.6730766000000061e-01 * $v_logT + $v_T * (#4.8084338700000000e-03 + $v_T * (#(-7.3719883333333335e-06) + $v_T * (#4.5917798324999999e-09 + #(-1.1109775510000001e-12) * $v_T))) - #(-1.3927471369999999e+04) / $v_T)]
    [Asn v_Kc 0 (#2.7363486099999990e+00 + #4.5236016000000001e-01 * $v_logT + $v_T * (#(-1.1812926781500001e-03) + $v_T * (#1.9953851351666670e-07 + $v_T * (#(-2.3113752341666686e-11) + #1.2205706794999998e-15 * $v_T))) - #(-1.3369962789999998e+04) / $v_T)];
  (*1421*) Do (Asn v_Kc 0 (#1.0000000000000000e+00 * (Exp $v_Kc)));
  (*1422*) Do (Asn v_rev_rxn_rates 117 (v_C.[11] * v_C.[13] * $v_kf / $v_Kc));
  (*1425*) Do (Asn v_kf 0 ((Exp (#5.9506425525877269e+00 + #1.83 * $v_logT - #1.1070830426901578e+02 / $v_T))));
  (*1426*) Do (Asn v_fwd_rxn_rates 118 (v_C.[20] * v_C.[2] * $v_kf));
  (*1427*) If ($v_T) (#1000.0)
    [Asn v_Kc 0 (#(-5.4128529099999998e+00) + #1.4289332399999997e+00 * $v_logT + $v_T * (#9.5518988150000012e-04 + $v_T * (#(-3.9375323250000003e-06) + $v_T * (#2.7922919925000000e-09 + #(-7.1182073100000012e-13) * $v_T))) - #(-2.5169517300000043e+03) / $v_T)]
    [Asn v_Kc 0 (#4.7085490299999986e+00 + #2.9259270000000281e-02 * $v_logT + $v_T * (#(-8.5152362315000011e-04) + $v_T * (#1.3954943185000016e-07 + $v_T * (#(-1.6301648425000028e-11) + #8.6597016949999927e-16 * $v_T))) - #(-1.8896935400000002e+03) / $v_T)];
  (*1433*) Do (Asn v_Kc 0 (#1.0000000000000000e+00 * (Exp $v_Kc)));
  (*1434*) Do (Asn v_rev_rxn_rates 118 (v_C.[14] * v_C.[9] * $v_kf / $v_Kc));
  (*1437*) Do (Asn v_kf 0 ((Exp (#8.1886891244442008e+00 + #2.0 * $v_logT - #1.2580489121479065e+03 / $v_T))));
  (*1438*) Do (Asn v_fwd_rxn_rates 119 (v_C.[20] * v_C.[3] * $v_kf));
  (*1439*) If ($v_T) (#1000.0)
    [Asn v_Kc 0 (#4.9280101219999999e+00 + #(-6.7340007999999951e-01) * $v_logT + $v_T * (#5.1371646900000003e-03 + $v_T * (#(-5.1975554666666666e-06) + $v_T * (#2.8086380341666660e-09 + #(-6.2818728100000013e-13) * $v_T))) - #(-3.9051939499999999e+03) / $v_T)]
    [Asn v_Kc 0 (#(-4.4027926200000014e+00) + #1.1498764700000002e+00 * $v_logT + $v_T * (#(-1.5973861699999997e-03) + $v_T * (#3.5416098333333352e-07 + $v_T * (#(-4.8513350366666680e-11) + #2.8798707430000004e-15 * $v_T))) - #(-4.0501670800000006e+03) / $v_T)];
  (*1445*) Do (Asn v_Kc 0 (#1.0000000000000000e+00 * (Exp $v_Kc)));
  (*1446*) Do (Asn v_rev_rxn_rates 119 (v_C.[6] * v_C.[19] * $v_kf / $v_Kc));
  (*1449*) Do (Asn v_kf 0 ((Exp (#9.2103403719761836e+00 + #2.0 * $v_logT - #4.0257565188733010e+03 / $v_T))));
  (*1450*) Do (Asn v_fwd_rxn_rates 120 (v_C.[20] * v_C.[13] * $v_kf));
  (*1451*) If ($v_T) (#1000.0)
    [Asn v_Kc 0 (#1.0183033000000008e+00 + #(-2.9438817000000039e-01) * $v_logT + $v_T * (#3.0087525949999997e-03 + $v_T * (#(-3.3579797949999995e-06) + $v_T * (#1.9556358236666672e-09 + #(-4.5898250244999998e-13) * $v_T))) - #(-1.0431800389999999e+04) / $v_T)]
    [Asn v_Kc 0 (#1.3158513099999984e+00 + #(-1.3844351000000010e-01) * $v_logT + $v_T * (#(-7.1285364999999767e-05) + $v_T * (#3.5723804833333499e-08 + $v_T * (#(-6.5967591666666878e-12) + #4.5252922500000041e-16 * $v_T))) - #(-1.0246156690000000e+04) / $v_T)];
  (*1457*) Do (Asn v_Kc 0 (#1.0000000000000000e+00 * (Exp $v_Kc)));
  (*1458*) Do (Asn v_rev_rxn_rates 120 (v_C.[21] * v_C.[16] * $v_kf / $v_Kc));
  (*1461*) Do (Asn v_kf 0 ((Exp (#2.3718998110500401e+01 - #3.0193173891549759e+03 / $v_T))));
  (*1462*) Do (Asn v_fwd_rxn_rates 121 (v_C.[9] * v_C.[20] * $v_kf));
  (*1463*) If ($v_T) (#1000.0)
    [Asn v_Kc 0 (#1.4925364987000002e+01 + #(-3.8586966499999997e+00) * $v_logT + $v_T * (#1.3207735663852666e-02 + $v_T * (#(-7.8994779353326523e-06) + $v_T * (#3.3045193193584010e-09 + #(-6.4146417454638672e-13) * $v_T))) - #(-6.3745271299999986e+03) / $v_T)]
    [Asn v_Kc 0 (#(-3.2256870874000001e+01) + #4.0905754199999995e+00 * $v_logT + $v_T * (#(-1.9885385215421478e-03) + $v_T * (#4.0692698935936594e-07 + $v_T * (#(-5.2027390311262707e-11) + #2.7057465599098688e-15 * $v_T))) - #(-8.2473812399999988e+03) / $v_T)];
  (*1469*) Do (Asn v_Kc 0 (#1.0000000000000000e+00 * (Exp $v_Kc)));
  (*1470*) Do (Asn v_rev_rxn_rates 121 (v_C.[1] * v_C.[24] * $v_kf / $v_Kc));
  (*1473*) Do (Asn v_kf 0 (#50000000000.0));
  (*1474*) Do (Asn v_fwd_rxn_rates 122 (v_C.[20] * v_C.[10] * $v_kf));
  (*1475*) If ($v_T) (#1000.0)
    [Asn v_Kc 0 (#1.7692941244000000e+01 + #(-4.2946220899999998e+00) * $v_logT + $v_T * (#1.4875478830352666e-02 + $v_T * (#(-8.8058219003326534e-06) + $v_T * (#3.5409566760250678e-09 + #(-6.5425068354638672e-13) * $v_T))) - #(-1.0867303330000002e+04) / $v_T)]
    [Asn v_Kc 0 (#(-3.5294242034000000e+01) + #4.6726381300000002e+00 * $v_logT + $v_T * (#(-2.4882852465421480e-03) + $v_T * (#5.0742257269269924e-07 + $v_T * (#(-6.5171261227929376e-11) + #3.4656905499098683e-15 * $v_T))) - #(-1.2909776940000003e+04) / $v_T)];
  (*1481*) Do (Asn v_Kc 0 (#1.0000000000000000e+00 * (Exp $v_Kc)));
  (*1482*) Do (Asn v_rev_rxn_rates 122 (v_C.[1] * v_C.[24] * $v_kf / $v_Kc));
  (*1485*) Do (Asn v_kf 0 ((Exp (#5.4249500174814029e+00 + #2.0 * $v_logT - #4.6296199967042967e+03 / $v_T))));
  (*1486*) Do (Asn v_fwd_rxn_rates 123 (v_C.[11] * v_C.[20] * $v_kf));
  (*1487*) If ($v_T) (#1000.0)
    [Asn v_Kc 0 (#(-2.5622094999999985e+00) + #7.2955069999999989e-01 * $v_logT + $v_T * (#(-3.2983082299999997e-03) + $v_T * (#2.0452922233333337e-06 + $v_T * (#(-6.8416981250000110e-10) + #9.2609412999999793e-14 * $v_T))) - #3.0784244699999981e+03 / $v_T)]
    [Asn v_Kc 0 (#8.6694540750000009e+00 + #(-1.2302533850000001e+00) * $v_logT + $v_T * (#9.1793021500000127e-04 + $v_T * (#(-1.1929315833333311e-07) + $v_T * (#1.4387029666666653e-11 + #(-7.8272168499999992e-16) * $v_T))) - #3.4290588699999998e+03 / $v_T)];
  (*1493*) Do (Asn v_Kc 0 (#1.0000000000000000e+00 * (Exp $v_Kc)));
  (*1494*) Do (Asn v_rev_rxn_rates 123 (v_C.[19] * v_C.[12] * $v_kf / $v_Kc));
  (*1497*) Do (Asn v_kf 0 ((Exp (#3.2195369307396383e+01 - #1.5611350367451911e+04 / $v_T))));
  (*1498*) Do (Asn v_fwd_rxn_rates 124 (v_C.[26] * $v_kf));
  (*1499*) If ($v_T) (#1000.0)
    [Asn v_Kc 0 (#(-2.2017813289999999e+01) + #5.5836745800000003e+00 * $v_logT + $v_T * (#(-1.5784271860000001e-02) + $v_T * (#1.0079166026666668e-05 + $v_T * (#(-4.7029097958333326e-09) + #1.0080136970000001e-12 * $v_T))) - #1.1222428730000001e+04 / $v_T)]
    [Asn v_Kc 0 (#3.7688657110000001e+01 + #(-4.3879190200000000e+00) * $v_logT + $v_T * (#2.9269152349999990e-03 + $v_T * (#(-7.3764980500000018e-07) + $v_T * (#1.0908586283333333e-10 + #(-6.6779390700000008e-15) * $v_T))) - #1.3739246839999996e+04 / $v_T)];
  (*1505*) Do (Asn v_Kc 0 (#1.2186597134166982e+01 * (Exp $v_Kc)));
  (*1506*) Do (Asn v_rev_rxn_rates 124 (v_C.[11] * v_C.[20] * $v_kf / $v_Kc));
  (*1509*) Do (Asn v_kf 0 ((Exp (#2.4465686057988378e+01 - #3.0595749543437087e+04 / $v_T))));
  (*1510*) Do (Asn v_fwd_rxn_rates 125 (v_C.[20] * v_C.[8] * $v_kf));
  (*1511*) If ($v_T) (#1000.0)
    [Asn v_Kc 0 (#4.6995893899999999e+00 + #(-2.2739338000000009e-01) * $v_logT + $v_T * (#3.6664638700000000e-03 + $v_T * (#(-3.3111834849999999e-06) + $v_T * (#1.5664996908333323e-09 + #(-3.1124135650000006e-13) * $v_T))) - #3.1128822470000003e+04 / $v_T)]
    [Asn v_Kc 0 (#(-5.9014605600000012e+00) + #1.7152859000000005e+00 * $v_logT + $v_T * (#(-1.7792266549999992e-03) + $v_T * (#3.5904402983333348e-07 + $v_T * (#(-4.5818377916666682e-11) + #2.5163141400000009e-15 * $v_T))) - #3.0873302193000000e+04 / $v_T)];
  (*1517*) Do (Asn v_Kc 0 (#1.0000000000000000e+00 * (Exp $v_Kc)));
  (*1518*) Do (Asn v_rev_rxn_rates 125 (v_C.[19] * v_C.[4] * $v_kf / $v_Kc));
  (*1521*) Do (Asn v_kf 0 ((Exp (#8.2661131290438362e+01 - #8.47 * $v_logT - #7.1557822122972930e+03 / $v_T))));
  (*1522*) Do (Asn v_fwd_rxn_rates 126 (v_C.[20] * v_C.[19] * $v_kf));
  (*1523*) If ($v_T) (#1000.0)
    [Asn v_Kc 0 (#1.7257180399999999e+01 + #(-5.4271736099999996e+00) * $v_logT + $v_T * (#2.2867293925000001e-02 + $v_T * (#(-1.7653009400000000e-05) + $v_T * (#8.9216631083333340e-09 + #(-1.9696943550000002e-12) * $v_T))) - #(-1.7296294729999998e+04) / $v_T)]
    [Asn v_Kc 0 (#(-2.8942649420000002e+01) + #2.9606483400000005e+00 * $v_logT + $v_T * (#(-1.1705431500000007e-03) + $v_T * (#3.5617594000000005e-07 + $v_T * (#(-6.7422450833333341e-11) + #5.3940297549999999e-15 * $v_T))) - #(-1.8597752039999996e+04) / $v_T)];
  (*1529*) Do (Asn v_Kc 0 (#8.2057360967184814e-02 * (Exp $v_Kc)));
  (*1530*) Do (Asn v_rev_rxn_rates 126 (v_C.[28] * $v_kf / $v_Kc));
  (*1533*) Do (Asn v_kf 0 ((Exp (#3.3886771157681913e+01 - #0.99 * $v_logT - #7.9508691247747697e+02 / $v_T))));
  (*1534*) Do (Asn v_fwd_rxn_rates 127 (v_C.[1] * v_C.[21] * $v_kf));
  (*1535*) If ($v_T) (#1000.0)
    [Asn v_Kc 0 (#9.2133753299999954e-01 + #(-1.5150407599999998e+00) * $v_logT + $v_T * (#(-6.5747689035266588e-04) + $v_T * (#1.7049246836659875e-06 + $v_T * (#(-9.1116399185840205e-10) + #1.9088383504638650e-13 * $v_T))) - #(-4.9837491899999994e+04) / $v_T)]
    [Asn v_Kc 0 (#5.4826342439999998e+00 + #(-2.3827749300000001e+00) * $v_logT + $v_T * (#2.1439977615421487e-03 + $v_T * (#(-3.4059000602603242e-07) + $v_T * (#3.8495260394596016e-11 + #(-2.0180657249098672e-15) * $v_T))) - #(-4.9757573099999994e+04) / $v_T)];
  (*1541*) Do (Asn v_Kc 0 (#8.2057360967184814e-02 * (Exp $v_Kc)));
  (*1542*) Do (Asn v_rev_rxn_rates 127 (v_C.[22] * $v_kf / $v_Kc));
  (*1545*) Do (Asn v_kf 0 (#2000000000.0));
  (*1546*) Do (Asn v_fwd_rxn_rates 128 (v_C.[1] * v_C.[21] * $v_kf));
  (*1547*) If ($v_T) (#1000.0)
    [Asn v_Kc 0 (#1.0227478909999994e+00 + #(-5.0293307999999914e-01) * $v_logT + $v_T * (#2.2982935996473334e-03 + $v_T * (#(-2.0155670830006801e-06) + $v_T * (#9.0924955814159900e-10 + #(-1.7192903545361343e-13) * $v_T))) - #(-3.4143445642999999e+04) / $v_T)]
    [Asn v_Kc 0 (#(-6.8341393259999972e+00) + #9.1873392999999970e-01 * $v_logT + $v_T * (#(-1.4006297750078526e-03) + $v_T * (#2.9512404864063403e-07 + $v_T * (#(-3.8292837438737289e-11) + #2.1980526050901319e-15 * $v_T))) - #(-3.4341452682000003e+04) / $v_T)];
  (*1553*) Do (Asn v_Kc 0 (#1.0000000000000000e+00 * (Exp $v_Kc)));
  (*1554*) Do (Asn v_rev_rxn_rates 128 (v_C.[5] * v_C.[20] * $v_kf / $v_Kc));
  (*1557*) Do (Asn v_kf 0 (#16040000000.0));
  (*1558*) Do (Asn v_fwd_rxn_rates 129 (v_C.[21] * v_C.[2] * $v_kf));
  (*1559*) If ($v_T) (#1000.0)
    [Asn v_Kc 0 (#(-5.5443462399999994e+00) + #9.9258077000000045e-01 * $v_logT + $v_T * (#(-2.1573708999999977e-04) + $v_T * (#(-2.2175208833333346e-06) + $v_T * (#1.7700855408333336e-09 + #(-4.7212187850000007e-13) * $v_T))) - #(-3.9827843600000000e+04) / $v_T)]
    [Asn v_Kc 0 (#4.3672912500000010e+00 + #(-4.7766940000000035e-01) * $v_logT + $v_T * (#(-4.3569844814999968e-04) + $v_T * (#8.8397768516666726e-08 + $v_T * (#(-1.1671862174999995e-11) + #6.6561178449999901e-16 * $v_T))) - #(-3.9295347099999999e+04) / $v_T)];
  (*1565*) Do (Asn v_Kc 0 (#1.0000000000000000e+00 * (Exp $v_Kc)));
  (*1566*) Do (Asn v_rev_rxn_rates 129 (v_C.[14] * v_C.[11] * $v_kf / $v_Kc));
  (*1569*) Do (Asn v_kf 0 (#20000000.0));
  (*1570*) Do (Asn v_fwd_rxn_rates 130 (v_C.[21] * v_C.[8] * $v_kf));
  (*1571*) If ($v_T) (#1000.0)
    [Asn v_Kc 0 (#(-7.2296901000000036e-01) + #1.7207745000000019e-01 * $v_logT + $v_T * (#(-2.5681599499999992e-03) + $v_T * (#3.1159559316666656e-06 + $v_T * (#(-1.9867757508333331e-09) + #4.9930298850000008e-13 * $v_T))) - #(-6.3930989700000009e+03) / $v_T)]
    [Asn v_Kc 0 (#(-5.6413219399999974e+00) + #8.1612780000000029e-01 * $v_logT + $v_T * (#(-9.9756225500000030e-04) + $v_T * (#2.3259934149999997e-07 + $v_T * (#(-3.1264320416666646e-11) + #1.7408220449999992e-15 * $v_T))) - #(-6.7173194270000004e+03) / $v_T)];
  (*1577*) Do (Asn v_Kc 0 (#1.0000000000000000e+00 * (Exp $v_Kc)));
  (*1578*) Do (Asn v_rev_rxn_rates 130 (v_C.[20] * v_C.[4] * $v_kf / $v_Kc));
  (*1581*) Do (Asn v_kf 0 (#300000000.0));
  (*1582*) Do (Asn v_fwd_rxn_rates 131 (v_C.[21] * v_C.[4] * $v_kf));
  (*1583*) If ($v_T) (#1000.0)
    [Asn v_Kc 0 (#(-1.5649903900000006e+00) + #(-5.3438240999999920e-01) * $v_logT + $v_T * (#2.1871628500000047e-04 + $v_T * (#(-1.8023983166666591e-07) + $v_T * (#3.0509386749999911e-10 + #(-1.1154230850000020e-13) * $v_T))) - #(-2.5722583600000002e+04) / $v_T)]
    [Asn v_Kc 0 (#4.9387535200000006e+00 + #(-1.6174479800000006e+00) * $v_logT + $v_T * (#1.7656314549999998e-03 + $v_T * (#(-3.6130808983333325e-07) + $v_T * (#4.6430608750000006e-11 + #(-2.5621119949999994e-15) * $v_T))) - #(-2.5484227633000002e+04) / $v_T)];
  (*1589*) Do (Asn v_Kc 0 (#1.0000000000000000e+00 * (Exp $v_Kc)));
  (*1590*) Do (Asn v_rev_rxn_rates 131 (v_C.[22] * v_C.[8] * $v_kf / $v_Kc));
  (*1593*) Do (Asn v_kf 0 (#300000000.0));
  (*1594*) Do (Asn v_fwd_rxn_rates 132 (v_C.[21] * v_C.[4] * $v_kf));
  (*1595*) If ($v_T) (#1000.0)
    [Asn v_Kc 0 (#(-5.1854047000000048e-01) + #(-3.7294951999999970e-01) * $v_logT + $v_T * (#4.1118227149999952e-04 + $v_T * (#4.9333825000000005e-07 + $v_T * (#(-5.4557555000000033e-10) + #1.6349146449999992e-13 * $v_T))) - #(-2.5749240710000002e+04) / $v_T)]
    [Asn v_Kc 0 (#(-4.2552572199999972e+00) + #2.2924668999999920e-01 * $v_logT + $v_T * (#(-4.1680145000000174e-05) + $v_T * (#5.9223833333320598e-10 + $v_T * (#(-1.9173369999999910e-12) + #2.9677689999999944e-16 * $v_T))) - #(-2.5891278273000004e+04) / $v_T)];
  (*1601*) Do (Asn v_Kc 0 (#1.0000000000000000e+00 * (Exp $v_Kc)));
  (*1602*) Do (Asn v_rev_rxn_rates 132 (v_C.[20] * v_C.[7] * $v_kf / $v_Kc));
  (*1605*) Do (Asn v_kf 0 (#24000000000.0));
  (*1606*) Do (Asn v_fwd_rxn_rates 133 (v_C.[21] * v_C.[4] * $v_kf));
  (*1607*) If ($v_T) (#1000.0)
    [Asn v_Kc 0 (#(-1.0891282889999999e+01) + #2.9843554700000006e+00 * $v_logT + $v_T * (#(-1.0935609499999996e-03) + $v_T * (#(-3.5487839216666664e-06) + $v_T * (#2.7992344350000001e-09 + #(-7.2798276550000018e-13) * $v_T))) - #(-7.6188543199999995e+03) / $v_T)]
    [Asn v_Kc 0 (#9.6512297300000025e+00 + #(-6.0730660000000380e-02) * $v_logT + $v_T * (#(-1.0703433299999990e-03) + $v_T * (#1.5781841033333343e-07 + $v_T * (#(-1.9483719050000000e-11) + #1.1999733669999993e-15 * $v_T))) - #(-6.4707669730000025e+03) / $v_T)];
  (*1613*) Do (Asn v_Kc 0 (#1.2186597134166982e+01 * (Exp $v_Kc)));
  (*1614*) Do (Asn v_rev_rxn_rates 133 (v_C.[14] * v_C.[11] * v_C.[3] * $v_kf / $v_Kc));
  (*1617*) Do (Asn v_kf 0 ((Exp (#1.5978833583624812e+01 - #4.9013585617282439e+02 / $v_T))));
  (*1618*) Do (Asn v_fwd_rxn_rates 134 (v_C.[21] * v_C.[7] * $v_kf));
  (*1619*) If ($v_T) (#1000.0)
    [Asn v_Kc 0 (#(-1.7694189300000005e+00) + #1.0644560000000247e-02 * $v_logT + $v_T * (#(-2.7606259365000000e-03) + $v_T * (#2.4423778499999996e-06 + $v_T * (#(-1.1361063333333339e-09) + #2.2426921550000002e-13 * $v_T))) - #(-6.3664418599999990e+03) / $v_T)]
    [Asn v_Kc 0 (#3.5526887999999999e+00 + #(-1.0305668699999995e+00) * $v_logT + $v_T * (#8.0974934499999972e-04 + $v_T * (#(-1.2930098666666660e-07) + $v_T * (#1.7083625333333333e-11 + #(-1.1180668499999996e-15) * $v_T))) - #(-6.3102687870000009e+03) / $v_T)];
  (*1625*) Do (Asn v_Kc 0 (#1.0000000000000000e+00 * (Exp $v_Kc)));
  (*1626*) Do (Asn v_rev_rxn_rates 134 (v_C.[22] * v_C.[4] * $v_kf / $v_Kc));
  (*1629*) Do (Asn v_kf 0 (#15000000000.0));
  (*1630*) Do (Asn v_fwd_rxn_rates 135 (v_C.[21] * v_C.[19] * $v_kf));
  (*1631*) If ($v_T) (#1000.0)
    [Asn v_Kc 0 (#1.4182513640000000e+01 + #(-5.3377941299999998e+00) * $v_logT + $v_T * (#1.6762588650000000e-02 + $v_T * (#(-1.1758116200000000e-05) + $v_T * (#5.9186297749999998e-09 + #(-1.3327897350000001e-12) * $v_T))) - #(-4.9491873699999996e+04) / $v_T)]
    [Asn v_Kc 0 (#(-2.7887607599999997e+00) + #(-1.9177963199999999e+00) * $v_logT + $v_T * (#3.3115028000000003e-03 + $v_T * (#(-5.3671780499999977e-07) + $v_T * (#4.4929702500000026e-11 + #(-8.8540849500000217e-16) * $v_T))) - #(-4.9610116999999998e+04) / $v_T)];
  (*1637*) Do (Asn v_Kc 0 (#8.2057360967184814e-02 * (Exp $v_Kc)));
  (*1638*) Do (Asn v_rev_rxn_rates 135 (v_C.[29] * $v_kf / $v_Kc));
  (*1641*) Do (Asn v_kf 0 ((Exp (#6.8135944249962932e+01 - #5.22 * $v_logT - #9.9370767472738844e+03 / $v_T))));
  (*1642*) Do (Asn v_fwd_rxn_rates 136 (v_C.[21] * v_C.[19] * $v_kf));
  (*1643*) If ($v_T) (#1000.0)
    [Asn v_Kc 0 (#8.0421870700000007e+00 + #(-2.4821582299999996e+00) * $v_logT + $v_T * (#1.2248285025000000e-02 + $v_T * (#(-9.5679905566666663e-06) + $v_T * (#4.6209763374999994e-09 + #(-9.6877796800000010e-13) * $v_T))) - #(-1.2010845499999996e+04) / $v_T)]
    [Asn v_Kc 0 (#(-2.7827861290000001e+01) + #3.8151250000000001e+00 * $v_logT + $v_T * (#(-3.0814350150000008e-03) + $v_T * (#6.6626391500000016e-07 + $v_T * (#(-8.8837085500000001e-11) + #4.9411476849999999e-15 * $v_T))) - #(-1.3212360600000004e+04) / $v_T)];
  (*1649*) Do (Asn v_Kc 0 (#1.0000000000000000e+00 * (Exp $v_Kc)));
  (*1650*) Do (Asn v_rev_rxn_rates 136 (v_C.[11] * v_C.[24] * $v_kf / $v_Kc));
  (*1653*) Do (Asn v_kf 0 ((Exp (#1.1652687407345388e+01 + #1.9 * $v_logT - #3.7892433233894944e+03 / $v_T))));
  (*1654*) Do (Asn v_fwd_rxn_rates 137 (v_C.[22] * v_C.[1] * $v_kf));
  (*1655*) If ($v_T) (#1000.0)
    [Asn v_Kc 0 (#3.3107072910000004e+00 + #(-1.4062811999999969e-01) * $v_logT + $v_T * (#4.6477372646473326e-03 + $v_T * (#(-4.9512831830006802e-06) + $v_T * (#2.5909314414749330e-09 + #(-5.5968971545361332e-13) * $v_T))) - #(-2.0277630729999983e+03) / $v_T)]
    [Asn v_Kc 0 (#(-6.1315709060000012e+00) + #1.7200541100000000e+00 * $v_logT + $v_T * (#(-2.1686989750078511e-03) + $v_T * (#4.2383279697396738e-07 + $v_T * (#(-5.3459125772070642e-11) + #3.0193425550901323e-15 * $v_T))) - #(-2.1399056219999984e+03) / $v_T)];
  (*1661*) Do (Asn v_Kc 0 (#1.0000000000000000e+00 * (Exp $v_Kc)));
  (*1662*) Do (Asn v_rev_rxn_rates 137 (v_C.[5] * v_C.[21] * $v_kf / $v_Kc));
  (*1665*) Do (Asn v_kf 0 ((Exp (#1.1405340254290291e+01 + #1.92 * $v_logT - #2.8633193240486353e+03 / $v_T))));
  (*1666*) Do (Asn v_fwd_rxn_rates 138 (v_C.[22] * v_C.[2] * $v_kf));
  (*1667*) If ($v_T) (#1000.0)
    [Asn v_Kc 0 (#(-1.6740596099999991e+00) + #9.7207926999999961e-01 * $v_logT + $v_T * (#6.8441161499999950e-04 + $v_T * (#(-1.7241608583333331e-06) + $v_T * (#9.3862480916666716e-10 + #(-1.9339813099999990e-13) * $v_T))) - #(-1.3768890800000008e+03) / $v_T)]
    [Asn v_Kc 0 (#(-1.9139573100000002e+00) + #1.1780830000000000e+00 * $v_logT + $v_T * (#(-1.5727584531499989e-03) + $v_T * (#2.9041813385000003e-07 + $v_T * (#(-3.5116956058333337e-11) + #1.8900509165000003e-15 * $v_T))) - #(-1.2148081599999969e+03) / $v_T)];
  (*1673*) Do (Asn v_Kc 0 (#1.0000000000000000e+00 * (Exp $v_Kc)));
  (*1674*) Do (Asn v_rev_rxn_rates 138 (v_C.[21] * v_C.[3] * $v_kf / $v_Kc));
  (*1677*) Do (Asn v_kf 0 ((Exp (#8.1718820061278201e+00 + #2.12 * $v_logT - #4.3780102142747148e+02 / $v_T))));
  (*1678*) Do (Asn v_fwd_rxn_rates 139 (v_C.[22] * v_C.[3] * $v_kf));
  (*1679*) If ($v_T) (#1000.0)
    [Asn v_Kc 0 (#1.7934111220000002e+00 + #8.8375710000000218e-02 * $v_logT + $v_T * (#1.2519845349999994e-03 + $v_T * (#(-1.7061321500000013e-06) + $v_T * (#9.3704447583333368e-10 + #(-2.0540361600000002e-13) * $v_T))) - #(-9.3114328200000018e+03) / $v_T)]
    [Asn v_Kc 0 (#(-3.4400855800000021e+00) + #1.0520385500000002e+00 * $v_logT + $v_T * (#(-1.5837909699999997e-03) + $v_T * (#3.5642504333333334e-07 + $v_T * (#(-4.9125581200000011e-11) + #2.9256685980000001e-15 * $v_T))) - #(-9.4392416399999984e+03) / $v_T)];
  (*1685*) Do (Asn v_Kc 0 (#1.0000000000000000e+00 * (Exp $v_Kc)));
  (*1686*) Do (Asn v_rev_rxn_rates 139 (v_C.[21] * v_C.[6] * $v_kf / $v_Kc));
  (*1689*) Do (Asn v_kf 0 ((Exp (#2.4412145291060348e+01 - #(-2.7677076067253944e+02) / $v_T))));
  (*1690*) Do (Asn v_fwd_rxn_rates 140 (v_C.[22] * v_C.[10] * $v_kf));
  (*1691*) If ($v_T) (#1000.0)
    [Asn v_Kc 0 (#4.9240423270000004e+00 + #(-5.0997294999999987e-01) * $v_logT + $v_T * (#2.8462598599999995e-03 + $v_T * (#(-2.1220486233333329e-06) + $v_T * (#8.9591278833333444e-10 + #(-1.6084833649999990e-13) * $v_T))) - #(-9.6879855000000025e+03) / $v_T)]
    [Asn v_Kc 0 (#(-2.6760605200000009e+00) + #8.7645422000000028e-01 * $v_logT + $v_T * (#(-8.5199074999999956e-04) + $v_T * (#1.7805266833333333e-07 + $v_T * (#(-2.3680373000000011e-11) + #1.3808755549999999e-15 * $v_T))) - #(-9.8665022000000026e+03) / $v_T)];
  (*1697*) Do (Asn v_Kc 0 (#1.0000000000000000e+00 * (Exp $v_Kc)));
  (*1698*) Do (Asn v_rev_rxn_rates 140 (v_C.[21] * v_C.[11] * $v_kf / $v_Kc));
  (*1701*) Do (Asn v_kf 0 ((Exp (#8.7225800211411890e+00 + #1.74 * $v_logT - #5.2586444527782496e+03 / $v_T))));
  (*1702*) Do (Asn v_fwd_rxn_rates 141 (v_C.[22] * v_C.[11] * $v_kf));
  (*1703*) If ($v_T) (#1000.0)
    [Asn v_Kc 0 (#(-5.6968084999999977e+00) + #1.4913264899999996e+00 * $v_logT + $v_T * (#(-7.1834883850000007e-03) + $v_T * (#5.5367155399999999e-06 + $v_T * (#(-2.5557633708333321e-09) + #5.1539307800000025e-13 * $v_T))) - #(-2.3278144000000011e+03) / $v_T)]
    [Asn v_Kc 0 (#9.6321611149999988e+00 + #(-1.3280913050000001e+00) * $v_logT + $v_T * (#9.3152541500000040e-04 + $v_T * (#(-1.1702909833333329e-07) + $v_T * (#1.3774798833333342e-11 + #(-7.3692383000000025e-16) * $v_T))) - #(-1.9600156899999984e+03) / $v_T)];
  (*1709*) Do (Asn v_Kc 0 (#1.0000000000000000e+00 * (Exp $v_Kc)));
  (*1710*) Do (Asn v_rev_rxn_rates 141 (v_C.[21] * v_C.[12] * $v_kf / $v_Kc));
  (*1713*) Do (Asn v_kf 0 (#2e+11));
  (*1714*) Do (Asn v_fwd_rxn_rates 142 (v_C.[1] * v_C.[24] * $v_kf));
  (*1715*) If ($v_T) (#1000.0)
    [Asn v_Kc 0 (#1.7886853530000000e+00 + #(-1.3698765000000002e+00) * $v_logT + $v_T * (#5.5567949964733555e-04 + $v_T * (#(-1.3350443330006803e-06) + $v_T * (#1.3888695831415984e-09 + #(-4.3442124995361336e-13) * $v_T))) - #(-4.3644462899999999e+04) / $v_T)]
    [Asn v_Kc 0 (#6.4491362400000085e-01 + #(-1.2685307100000003e+00) * $v_logT + $v_T * (#2.9180451154214859e-04 + $v_T * (#1.2137736397396757e-07 + $v_T * (#(-3.2239824605403963e-11) + #2.6350923250901317e-15 * $v_T))) - #(-4.3879679199999999e+04) / $v_T)];
  (*1721*) Do (Asn v_Kc 0 (#8.2057360967184814e-02 * (Exp $v_Kc)));
  (*1722*) Do (Asn v_rev_rxn_rates 142 (v_C.[25] * $v_kf / $v_Kc));
  (*1725*) Do (Asn v_kf 0 (#60000000000.0));
  (*1726*) Do (Asn v_fwd_rxn_rates 143 (v_C.[24] * v_C.[2] * $v_kf));
  (*1727*) If ($v_T) (#1000.0)
    [Asn v_Kc 0 (#5.8634748699999717e-01 + #(-7.6010080000000002e-01) * $v_logT + $v_T * (#4.8482759203526665e-03 + $v_T * (#(-4.7385590769993202e-06) + $v_T * (#2.8916578368584013e-09 + #(-7.3055882054638657e-13) * $v_T))) - #(-3.2229962700000004e+04) / $v_T)]
    [Asn v_Kc 0 (#1.9122497160000020e+00 + #(-7.5902167000000054e-01) * $v_logT + $v_T * (#1.4377495453078513e-03 + $v_T * (#(-3.0786689045730103e-07) + $v_T * (#2.7263547930403981e-11 + #(-1.3056452059013247e-16) * $v_T))) - #(-3.2010422200000001e+04) / $v_T)];
  (*1733*) Do (Asn v_Kc 0 (#1.0000000000000000e+00 * (Exp $v_Kc)));
  (*1734*) Do (Asn v_rev_rxn_rates 143 (v_C.[1] * v_C.[27] * $v_kf / $v_Kc));
  (*1737*) Do (Asn v_kf 0 ((Exp (#6.8210052222116644e+01 - #5.16 * $v_logT - #1.5159992610947134e+04 / $v_T))));
  (*1738*) Do (Asn v_fwd_rxn_rates 144 (v_C.[24] * v_C.[3] * $v_kf));
  (*1739*) If ($v_T) (#1000.0)
    [Asn v_Kc 0 (#1.3390695639999963e+00 + #(-2.1713930999999942e-01) * $v_logT + $v_T * (#4.8213411957053337e-03 + $v_T * (#(-4.7193229023319735e-06) + $v_T * (#2.8641970195501358e-09 + #(-7.2804452459277317e-13) * $v_T))) - #1.8984418279999994e+04 / $v_T)]
    [Asn v_Kc 0 (#(-1.6564272179999997e+00) + #4.4567025999999954e-01 * $v_logT + $v_T * (#8.6651023691570388e-04 + $v_T * (#(-2.5769501828126858e-07) + $v_T * (#2.3885243594141272e-11 + #(-2.5497121802645575e-18) * $v_T))) - #1.8961959059999994e+04 / $v_T)];
  (*1745*) Do (Asn v_Kc 0 (#1.2186597134166982e+01 * (Exp $v_Kc)));
  (*1746*) Do (Asn v_rev_rxn_rates 144 (v_C.[1] * v_C.[1] * v_C.[27] * $v_kf / $v_Kc));
  (*1749*) Do (Asn v_kf 0 ((Exp (#2.3624687431029162e+01 - #0.41 * $v_logT - #1.1503096033115598e+04 / $v_T))));
  (*1750*) Do (Asn v_fwd_rxn_rates 145 (v_C.[24] * v_C.[8] * $v_kf));
  (*1751*) If ($v_T) (#1000.0)
    [Asn v_Kc 0 (#(-2.2742612400000031e+00) + #2.5101555000000042e-01 * $v_logT + $v_T * (#3.0942588850000011e-03 + $v_T * (#(-4.1846576000000003e-06) + $v_T * (#2.7045488716666666e-09 + #(-6.8399356399999999e-13) * $v_T))) - #(-2.4135881720000001e+04) / $v_T)]
    [Asn v_Kc 0 (#7.7400689200000006e+00 + #(-1.1074098800000005e+00) * $v_logT + $v_T * (#1.1814709700000013e-03 + $v_T * (#(-2.1772816483333342e-07) + $v_T * (#1.1516342699999998e-11 + #9.4784333199999987e-16 * $v_T))) - #(-2.3459187540000003e+04) / $v_T)];
  (*1757*) Do (Asn v_Kc 0 (#1.0000000000000000e+00 * (Exp $v_Kc)));
  (*1758*) Do (Asn v_rev_rxn_rates 145 (v_C.[27] * v_C.[3] * $v_kf / $v_Kc));
  (*1761*) Do (Asn v_kf 0 (#2660000000.0));
  (*1762*) Do (Asn v_fwd_rxn_rates 146 (v_C.[24] * v_C.[4] * $v_kf));
  (*1763*) If ($v_T) (#1000.0)
    [Asn v_Kc 0 (#(-6.9764257000000063e-01) + #(-3.8921814999999960e-01) * $v_logT + $v_T * (#1.4318726750000010e-03 + $v_T * (#(-3.2202088483333329e-06) + $v_T * (#2.6051274424999998e-09 + #(-7.3684739350000005e-13) * $v_T))) - #(-1.9529554599999999e+04) / $v_T)]
    [Asn v_Kc 0 (#1.0103289999999809e-01 + #(-5.0320375999999989e-01) * $v_logT + $v_T * (#(-8.6561795000000266e-05) + $v_T * (#1.0065928016666665e-07 + $v_T * (#(-2.4304476250000000e-11) + #2.0910460549999995e-15 * $v_T))) - #(-1.9606333733000003e+04) / $v_T)];
  (*1769*) Do (Asn v_Kc 0 (#1.0000000000000000e+00 * (Exp $v_Kc)));
  (*1770*) Do (Asn v_rev_rxn_rates 146 (v_C.[25] * v_C.[8] * $v_kf / $v_Kc));
  (*1773*) Do (Asn v_kf 0 (#6600000000.0));
  (*1774*) Do (Asn v_fwd_rxn_rates 147 (v_C.[24] * v_C.[4] * $v_kf));
  (*1775*) If ($v_T) (#1000.0)
    [Asn v_Kc 0 (#(-1.8933469960000000e+01) + #5.4665137000000010e+00 * $v_logT + $v_T * (#(-1.3341845975000001e-02) + $v_T * (#6.0192066350000004e-06 + $v_T * (#(-1.8217419025000001e-09) + #2.4079520250000002e-13 * $v_T))) - #4.3919911799999973e+03 / $v_T)]
    [Asn v_Kc 0 (#3.7479091020000006e+01 + #(-3.8758556600000009e+00) * $v_logT + $v_T * (#2.0110916850000007e-03 + $v_T * (#(-5.0844550466666657e-07) + $v_T * (#6.9353366449999995e-11 + #(-3.7411743180000010e-15) * $v_T))) - #6.7415936269999956e+03 / $v_T)];
  (*1781*) Do (Asn v_Kc 0 (#1.2186597134166982e+01 * (Exp $v_Kc)));
  (*1782*) Do (Asn v_rev_rxn_rates 147 (v_C.[14] * v_C.[19] * v_C.[3] * $v_kf / $v_Kc));
  (*1785*) Do (Asn v_kf 0 (#60000000000.0));
  (*1786*) Do (Asn v_fwd_rxn_rates 148 (v_C.[24] * v_C.[13] * $v_kf));
  (*1787*) If ($v_T) (#1000.0)
    [Asn v_Kc 0 (#(-4.0230828000000107e-01) + #(-5.1152887000000025e-01) * $v_logT + $v_T * (#1.8724653200000005e-03 + $v_T * (#(-3.4622327116666669e-06) + $v_T * (#2.5739875153333330e-09 + #(-6.9652690744999995e-13) * $v_T))) - #(-3.6354453959999999e+04) / $v_T)]
    [Asn v_Kc 0 (#(-4.2244377299999991e+00) + #1.7448052999999941e-01 * $v_logT + $v_T * (#(-1.1554094149999992e-03) + $v_T * (#3.6898242649999997e-07 + $v_T * (#(-6.2165555833333327e-11) + #4.2843973249999997e-15 * $v_T))) - #(-3.6569809849999998e+04) / $v_T)];
  (*1793*) Do (Asn v_Kc 0 (#1.0000000000000000e+00 * (Exp $v_Kc)));
  (*1794*) Do (Asn v_rev_rxn_rates 148 (v_C.[25] * v_C.[16] * $v_kf / $v_Kc));
  (*1797*) Do (Asn v_kf 0 ((Exp (#2.5328436022934504e+01 - #0.32 * $v_logT - #(-1.3199449186255836e+02) / $v_T))));
  (*1798*) Do (Asn v_fwd_rxn_rates 149 (v_C.[11] * v_C.[24] * $v_kf));
  (*1799*) If ($v_T) (#1000.0)
    [Asn v_Kc 0 (#6.1403265699999974e+00 + #(-2.8556359000000002e+00) * $v_logT + $v_T * (#4.5143036250000004e-03 + $v_T * (#(-2.1901256433333337e-06) + $v_T * (#1.2976534375000000e-09 + #(-3.6401176700000005e-13) * $v_T))) - #(-3.7481028200000001e+04) / $v_T)]
    [Asn v_Kc 0 (#2.5039100529999999e+01 + #(-5.7329213200000000e+00) * $v_logT + $v_T * (#6.3929378150000011e-03 + $v_T * (#(-1.2029817199999999e-06) + $v_T * (#1.3376678800000003e-10 + #(-5.8265561800000020e-15) * $v_T))) - #(-3.6397756399999998e+04) / $v_T)];
  (*1805*) Do (Asn v_Kc 0 (#8.2057360967184814e-02 * (Exp $v_Kc)));
  (*1806*) Do (Asn v_rev_rxn_rates 149 (v_C.[29] * $v_kf / $v_Kc));
  (*1809*) Do (Asn v_kf 0 ((Exp (#2.3311029872174121e+01 - #1.6408480351362714e+03 / $v_T))));
  (*1810*) Do (Asn v_fwd_rxn_rates 150 (v_C.[25] * v_C.[1] * $v_kf));
  (*1811*) If ($v_T) (#1000.0)
    [Asn v_Kc 0 (#8.3815665529999990e+00 + #(-1.9441896999999999e+00) * $v_logT + $v_T * (#2.5418964996473336e-03 + $v_T * (#(-3.5542373300068009e-07) + $v_T * (#(-2.4216766685840129e-10) + #1.1069373504638663e-13 * $v_T))) - #(-1.6236139899999998e+04) / $v_T)]
    [Asn v_Kc 0 (#(-2.3275497599999984e-01) + #(-5.2250910999999967e-01) * $v_logT + $v_T * (#5.6157251154214901e-04 + $v_T * (#(-5.3687469359365802e-08) + $v_T * (#3.1401103945960297e-12 + #(-6.0033974909868239e-17) * $v_T))) - #(-1.6573865999999998e+04) / $v_T)];
  (*1817*) Do (Asn v_Kc 0 (#8.2057360967184814e-02 * (Exp $v_Kc)));
  (*1818*) Do (Asn v_rev_rxn_rates 150 (v_C.[26] * $v_kf / $v_Kc));
  (*1821*) Do (Asn v_kf 0 ((Exp (#4.3525973215572655e+01 - #2.39 * $v_logT - #5.6259947351254386e+03 / $v_T))));
  (*1822*) Do (Asn v_fwd_rxn_rates 151 (v_C.[25] * v_C.[1] * $v_kf));
  (*1823*) If ($v_T) (#1000.0)
    [Asn v_Kc 0 (#(-1.3636246737000002e+01) + #3.6394848800000004e+00 * $v_logT + $v_T * (#(-1.3242375360352667e-02) + $v_T * (#9.7237422936659870e-06 + $v_T * (#(-4.9450774626917337e-09) + #1.1187074320463866e-12 * $v_T))) - #(-5.0137111699999987e+03) / $v_T)]
    [Asn v_Kc 0 (#3.7455902133999999e+01 + #(-4.9104281299999997e+00) * $v_logT + $v_T * (#3.4884877465421482e-03 + $v_T * (#(-7.9133727435936596e-07) + $v_T * (#1.1222597322792936e-10 + #(-6.7379730449098690e-15) * $v_T))) - #(-2.8346191600000020e+03) / $v_T)];
  (*1829*) Do (Asn v_Kc 0 (#1.0000000000000000e+00 * (Exp $v_Kc)));
  (*1830*) Do (Asn v_rev_rxn_rates 151 (v_C.[11] * v_C.[20] * $v_kf / $v_Kc));
  (*1833*) Do (Asn v_kf 0 ((Exp (#5.1532915944977793e+00 + #2.5 * $v_logT - #1.2530167164993150e+03 / $v_T))));
  (*1834*) Do (Asn v_fwd_rxn_rates 152 (v_C.[25] * v_C.[1] * $v_kf));
  (*1835*) If ($v_T) (#1000.0)
    [Asn v_Kc 0 (#2.4433594710000004e+00 + #(-2.8579237999999973e-01) * $v_logT + $v_T * (#3.4345808746473329e-03 + $v_T * (#(-1.9113141663340132e-06) + $v_T * (#2.9089786647493231e-10 + #6.5615369546386567e-14 * $v_T))) - #(-8.2207920730000005e+03) / $v_T)]
    [Asn v_Kc 0 (#(-1.2938502859999987e+00) + #6.0580988999999974e-01 * $v_logT + $v_T * (#(-3.1650572500785195e-04) + $v_T * (#(-3.8134573026032476e-08) + $v_T * (#1.7275959227929350e-11 + #(-1.6338154949098673e-15) * $v_T))) - #(-8.0177995219999975e+03) / $v_T)];
  (*1841*) Do (Asn v_Kc 0 (#1.0000000000000000e+00 * (Exp $v_Kc)));
  (*1842*) Do (Asn v_rev_rxn_rates 152 (v_C.[5] * v_C.[24] * $v_kf / $v_Kc));
  (*1845*) Do (Asn v_kf 0 ((Exp (#1.0596634733096073e+01 + #1.65 * $v_logT - #1.6455279770894617e+02 / $v_T))));
  (*1846*) Do (Asn v_fwd_rxn_rates 153 (v_C.[25] * v_C.[2] * $v_kf));
  (*1847*) If ($v_T) (#1000.0)
    [Asn v_Kc 0 (#(-1.2023378660000028e+00) + #6.0977570000000059e-01 * $v_logT + $v_T * (#4.2925964207053326e-03 + $v_T * (#(-3.4035147439986403e-06) + $v_T * (#1.5027882537168027e-09 + #(-2.9613757059277322e-13) * $v_T))) - #1.1414500199999995e+04 / $v_T)]
    [Asn v_Kc 0 (#1.2673360920000012e+00 + #5.0950903999999975e-01 * $v_logT + $v_T * (#1.1459450337657036e-03 + $v_T * (#(-4.2924425443126860e-07) + $v_T * (#5.9503372535807931e-11 + #(-2.7656568456802642e-15) * $v_T))) - #1.1869256999999994e+04 / $v_T)];
  (*1853*) Do (Asn v_Kc 0 (#1.2186597134166982e+01 * (Exp $v_Kc)));
  (*1854*) Do (Asn v_rev_rxn_rates 153 (v_C.[1] * v_C.[1] * v_C.[27] * $v_kf / $v_Kc));
  (*1857*) Do (Asn v_kf 0 ((Exp (#1.0463103340471550e+01 + #1.65 * $v_logT - #(-4.8912941704310606e+02) / $v_T))));
  (*1858*) Do (Asn v_fwd_rxn_rates 154 (v_C.[25] * v_C.[2] * $v_kf));
  (*1859*) If ($v_T) (#1000.0)
    [Asn v_Kc 0 (#(-1.3961769210000000e+01) + #3.8660774200000003e+00 * $v_logT + $v_T * (#(-1.2538187700000000e-02) + $v_T * (#8.7273945566666673e-06 + $v_T * (#(-4.2008236383333329e-09) + #9.0588916700000007e-13 * $v_T))) - #(-1.3515893740000000e+04) / $v_T)]
    [Asn v_Kc 0 (#3.6364637559999998e+01 + #(-4.5748469800000002e+00) * $v_logT + $v_T * (#3.7659307868499999e-03 + $v_T * (#(-9.2642871148333352e-07) + $v_T * (#1.3584618732500002e-10 + #(-8.3279372004999989e-15) * $v_T))) - #(-1.1424570649999998e+04) / $v_T)];
  (*1865*) Do (Asn v_Kc 0 (#1.0000000000000000e+00 * (Exp $v_Kc)));
  (*1866*) Do (Asn v_rev_rxn_rates 154 (v_C.[21] * v_C.[13] * $v_kf / $v_Kc));
  (*1869*) Do (Asn v_kf 0 ((Exp (#1.9008467408854486e+01 + #0.7 * $v_logT - #2.9589310413718763e+03 / $v_T))));
  (*1870*) Do (Asn v_fwd_rxn_rates 155 (v_C.[25] * v_C.[2] * $v_kf));
  (*1871*) If ($v_T) (#1000.0)
    [Asn v_Kc 0 (#(-2.5414074299999982e+00) + #8.2691501000000001e-01 * $v_logT + $v_T * (#(-5.2874477500000107e-04) + $v_T * (#1.3158081583333334e-06 + $v_T * (#(-1.3614087658333331e-09) + #4.3190695399999995e-13 * $v_T))) - #(-7.5699180799999995e+03) / $v_T)]
    [Asn v_Kc 0 (#2.9237633100000004e+00 + #6.3838779999999762e-02 * $v_logT + $v_T * (#2.7943479684999951e-04 + $v_T * (#(-1.7154923615000006e-07) + $v_T * (#3.5618128941666656e-11 + #(-2.7631071334999993e-15) * $v_T))) - #(-7.0927020599999996e+03) / $v_T)];
  (*1877*) Do (Asn v_Kc 0 (#1.0000000000000000e+00 * (Exp $v_Kc)));
  (*1878*) Do (Asn v_rev_rxn_rates 155 (v_C.[24] * v_C.[3] * $v_kf / $v_Kc));
  (*1881*) Do (Asn v_kf 0 ((Exp (#8.0391573904732372e+00 + #2.0 * $v_logT - #(-1.4995943032803046e+02) / $v_T))));
  (*1882*) Do (Asn v_fwd_rxn_rates 156 (v_C.[25] * v_C.[3] * $v_kf));
  (*1883*) If ($v_T) (#1000.0)
    [Asn v_Kc 0 (#9.2606330200000020e-01 + #(-5.6788549999999383e-02) * $v_logT + $v_T * (#3.8828144999997986e-05 + $v_T * (#1.3338368666666665e-06 + $v_T * (#(-1.3629890991666666e-09) + #4.1990146900000004e-13 * $v_T))) - #(-1.5504461820000000e+04) / $v_T)]
    [Asn v_Kc 0 (#1.3976350399999986e+00 + #(-6.2205669999999547e-02) * $v_logT + $v_T * (#2.6840227999999958e-04 + $v_T * (#(-1.0554232666666676e-07) + $v_T * (#2.1609503799999992e-11 + #(-1.7274894519999995e-15) * $v_T))) - #(-1.5317135539999999e+04) / $v_T)];
  (*1889*) Do (Asn v_Kc 0 (#1.0000000000000000e+00 * (Exp $v_Kc)));
  (*1890*) Do (Asn v_rev_rxn_rates 156 (v_C.[6] * v_C.[24] * $v_kf / $v_Kc));
  (*1893*) Do (Asn v_kf 0 ((Exp (#2.2617630984737906e+00 + #2.6 * $v_logT - #6.9997841471909524e+03 / $v_T))));
  (*1894*) Do (Asn v_fwd_rxn_rates 157 (v_C.[25] * v_C.[4] * $v_kf));
  (*1895*) If ($v_T) (#1000.0)
    [Asn v_Kc 0 (#9.0207111000000006e-01 + #(-1.5580881999999985e-01) * $v_logT + $v_T * (#1.5474695464999990e-03 + $v_T * (#5.9759116666666738e-07 + $v_T * (#(-1.1639272416666658e-09) + #4.0103586949999999e-13 * $v_T))) - #1.7341286000000116e+02 / $v_T)]
    [Asn v_Kc 0 (#1.2850318200000022e+00 + #(-8.3677349999999429e-02) * $v_logT + $v_T * (#1.0424439050000002e-03 + $v_T * (#(-3.3266638333333328e-07) + $v_T * (#5.3651459666666647e-11 + #(-3.5350911999999998e-15) * $v_T))) - #4.3237488699999972e+02 / $v_T)];
  (*1901*) Do (Asn v_Kc 0 (#1.0000000000000000e+00 * (Exp $v_Kc)));
  (*1902*) Do (Asn v_rev_rxn_rates 157 (v_C.[24] * v_C.[7] * $v_kf / $v_Kc));
  (*1905*) Do (Asn v_kf 0 ((Exp (#(-6.1192979186178666e+00) + #3.5 * $v_logT - #2.8557710305757478e+03 / $v_T))));
  (*1906*) Do (Asn v_fwd_rxn_rates 158 (v_C.[25] * v_C.[11] * $v_kf));
  (*1907*) If ($v_T) (#1000.0)
    [Asn v_Kc 0 (#(-6.5641563199999986e+00) + #1.3461622300000000e+00 * $v_logT + $v_T * (#(-8.3966447750000017e-03) + $v_T * (#8.5766845566666665e-06 + $v_T * (#(-4.8557969458333337e-09) + #1.1406981629999997e-12 * $v_T))) - #(-8.5208434000000016e+03) / $v_T)]
    [Asn v_Kc 0 (#1.4469881735000001e+01 + #(-2.4423355249999998e+00) * $v_logT + $v_T * (#2.7837186649999996e-03 + $v_T * (#(-5.7899646833333349e-07) + $v_T * (#8.4509883833333303e-11 + #(-5.3900818799999991e-15) * $v_T))) - #(-7.8379095899999993e+03) / $v_T)];
  (*1913*) Do (Asn v_Kc 0 (#1.0000000000000000e+00 * (Exp $v_Kc)));
  (*1914*) Do (Asn v_rev_rxn_rates 158 (v_C.[24] * v_C.[12] * $v_kf / $v_Kc));
  (*1917*) Do (Asn v_kf 0 ((Exp (#1.8497641785088494e+01 + #0.454 * $v_logT - #2.9287378674803267e+03 / $v_T))));
  (*1918*) Do (Asn v_fwd_rxn_rates 159 (v_C.[1] * v_C.[27] * $v_kf));
  (*1919*) If ($v_T) (#1000.0)
    [Asn v_Kc 0 (#(-1.5968728277000000e+01) + #4.4090375200000000e+00 * $v_logT + $v_T * (#(-1.8522750895352668e-02) + $v_T * (#1.3361700716999320e-05 + $v_T * (#(-6.4741297835250675e-09) + #1.3989035825463868e-12 * $v_T))) - #(-7.2085846099999999e+03) / $v_T)]
    [Asn v_Kc 0 (#2.8912098804000003e+01 + #(-3.5029012699999997e+00) * $v_logT + $v_T * (#1.2440571915421483e-03 + $v_T * (#(-2.8530319935936591e-07) + $v_T * (#5.3013842727929370e-11 + #(-4.3655045799098675e-15) * $v_T))) - #(-5.7378016099999986e+03) / $v_T)];
  (*1925*) Do (Asn v_Kc 0 (#1.0000000000000000e+00 * (Exp $v_Kc)));
  (*1926*) Do (Asn v_rev_rxn_rates 159 (v_C.[20] * v_C.[13] * $v_kf / $v_Kc));
  (*1929*) Do (Asn v_kf 0 ((Exp (#2.4124463218608568e+01 - #1.7813972596014357e+03 / $v_T))));
  (*1930*) Do (Asn v_fwd_rxn_rates 160 (v_C.[27] * v_C.[2] * $v_kf));
  (*1931*) If ($v_T) (#1000.0)
    [Asn v_Kc 0 (#(-1.6699182519999997e+01) + #5.4776886299999994e+00 * $v_logT + $v_T * (#(-1.2636373305000000e-02) + $v_T * (#6.0189281633333327e-06 + $v_T * (#(-2.4787934838333333e-09) + #5.2061612904999991e-13 * $v_T))) - #4.1107741200000019e+03 / $v_T)]
    [Asn v_Kc 0 (#2.1166083100000002e+01 + #(-7.8396910999999969e-01) * $v_logT + $v_T * (#(-1.7895103881500002e-03) + $v_T * (#2.5045593701666666e-07 + $v_T * (#(-1.1416613724999999e-11) + #(-8.7194651849999956e-16) * $v_T))) - #5.7463341399999954e+03 / $v_T)];
  (*1937*) Do (Asn v_Kc 0 (#1.2186597134166982e+01 * (Exp $v_Kc)));
  (*1938*) Do (Asn v_rev_rxn_rates 160 (v_C.[19] * v_C.[16] * v_C.[3] * $v_kf / $v_Kc));
  (*1941*) Do (Asn v_kf 0 ((Exp (#1.5048070819142122e+01 + #1.18 * $v_logT - #(-2.2493914549204570e+02) / $v_T))));
  (*1942*) Do (Asn v_fwd_rxn_rates 161 (v_C.[27] * v_C.[3] * $v_kf));
  (*1943*) If ($v_T) (#1000.0)
    [Asn v_Kc 0 (#(-1.3231711787999998e+01) + #4.5939850699999996e+00 * $v_logT + $v_T * (#(-1.2068800385000000e-02) + $v_T * (#6.0369568716666665e-06 + $v_T * (#(-2.4803738171666672e-09) + #5.0861064405000005e-13 * $v_T))) - #(-3.8237696200000000e+03) / $v_T)]
    [Asn v_Kc 0 (#1.9639954830000001e+01 + #(-9.1001355999999989e-01) * $v_logT + $v_T * (#(-1.8005429050000001e-03) + $v_T * (#3.1646284650000018e-07 + $v_T * (#(-2.5425238866666664e-11) + #1.6367116300000003e-16 * $v_T))) - #(-2.4780993400000011e+03) / $v_T)];
  (*1949*) Do (Asn v_Kc 0 (#1.2186597134166982e+01 * (Exp $v_Kc)));
  (*1950*) Do (Asn v_rev_rxn_rates 161 (v_C.[19] * v_C.[6] * v_C.[16] * $v_kf / $v_Kc));
  (*1953*) Do (Asn v_kf 0 ((Exp (#4.9662619772525140e+01 - #2.92 * $v_logT - #6.2927606585638287e+03 / $v_T))));
  (*1954*) Do (Asn v_fwd_rxn_rates 162 (v_C.[1] * v_C.[26] * $v_kf));
  (*1955*) If ($v_T) (#1000.0)
    [Asn v_Kc 0 (#(-1.8808516356999998e+01) + #4.4309387800000000e+00 * $v_logT + $v_T * (#(-1.4092305085352667e-02) + $v_T * (#8.8483746103326551e-06 + $v_T * (#(-3.9323919043584007e-09) + #8.1113685204638669e-13 * $v_T))) - #(-6.4993805999999986e+03) / $v_T)]
    [Asn v_Kc 0 (#4.3873859773999996e+01 + #(-5.9693737699999998e+00) * $v_logT + $v_T * (#4.3028437965421489e-03 + $v_T * (#(-9.4953106269269920e-07) + $v_T * (#1.3241483489459598e-10 + #(-7.8747148449098660e-15) * $v_T))) - #(-3.8167791999999999e+03) / $v_T)];
  (*1961*) Do (Asn v_Kc 0 (#1.0000000000000000e+00 * (Exp $v_Kc)));
  (*1962*) Do (Asn v_rev_rxn_rates 162 (v_C.[21] * v_C.[11] * $v_kf / $v_Kc));
  (*1965*) Do (Asn v_kf 0 (#1800000000.0));
  (*1966*) Do (Asn v_fwd_rxn_rates 163 (v_C.[1] * v_C.[26] * $v_kf));
  (*1967*) If ($v_T) (#1000.0)
    [Asn v_Kc 0 (#(-4.1495217289999982e+00) + #2.8852082000000001e-01 * $v_logT + $v_T * (#1.4483638746473331e-03 + $v_T * (#(-2.8909347663340133e-06) + $v_T * (#1.9219351164749320e-09 + #(-4.7949961545361347e-13) * $v_T))) - #(-3.5629115073000001e+04) / $v_T)]
    [Asn v_Kc 0 (#(-4.1618168599999805e-01) + #(-1.4021170999999999e-01) * $v_logT + $v_T * (#(-5.8627372500785237e-04) + $v_T * (#1.3693026030730089e-07 + $v_T * (#(-1.8103975772070643e-11) + #1.0613108050901326e-15 * $v_T))) - #(-3.5323612721999998e+04) / $v_T)];
  (*1973*) Do (Asn v_Kc 0 (#1.0000000000000000e+00 * (Exp $v_Kc)));
  (*1974*) Do (Asn v_rev_rxn_rates 163 (v_C.[25] * v_C.[5] * $v_kf / $v_Kc));
  (*1977*) Do (Asn v_kf 0 (#96000000000.0));
  (*1978*) Do (Asn v_fwd_rxn_rates 164 (v_C.[26] * v_C.[2] * $v_kf));
  (*1979*) If ($v_T) (#1000.0)
    [Asn v_Kc 0 (#(-2.2760749749999999e+01) + #4.8828044300000002e+00 * $v_logT + $v_T * (#(-1.8412288385000003e-02) + $v_T * (#1.3006494323333335e-05 + $v_T * (#(-6.0098323716666661e-09) + #1.2371742595000002e-12 * $v_T))) - #(-4.0901935400000002e+04) / $v_T)]
    [Asn v_Kc 0 (#4.4413537840000004e+01 + #(-6.5638221800000007e+00) * $v_logT + $v_T * (#5.3258810668499988e-03 + $v_T * (#(-1.1957632448166665e-06) + $v_T * (#1.6747693915833335e-10 + #(-1.0019637895500000e-14) * $v_T))) - #(-3.8332114999999998e+04) / $v_T)];
  (*1985*) Do (Asn v_Kc 0 (#1.0000000000000000e+00 * (Exp $v_Kc)));
  (*1986*) Do (Asn v_rev_rxn_rates 164 (v_C.[14] * v_C.[21] * $v_kf / $v_Kc));
  (*1989*) Do (Asn v_kf 0 (#24000000000.0));
  (*1990*) Do (Asn v_fwd_rxn_rates 165 (v_C.[26] * v_C.[3] * $v_kf));
  (*1991*) If ($v_T) (#1000.0)
    [Asn v_Kc 0 (#(-5.6668178979999988e+00) + #5.1752465000000036e-01 * $v_logT + $v_T * (#(-1.9473888550000005e-03) + $v_T * (#3.5421626666666666e-07 + $v_T * (#2.6804815083333323e-10 + #(-1.2521351600000003e-13) * $v_T))) - #(-4.2912784819999993e+04) / $v_T)]
    [Asn v_Kc 0 (#2.2753036399999984e+00 + #(-8.0822727000000016e-01) * $v_logT + $v_T * (#(-1.3657199999996417e-06) + $v_T * (#6.9522506666666692e-08 + $v_T * (#(-1.3770431200000000e-11) + #9.6763684800000041e-16 * $v_T))) - #(-4.2622948740000000e+04) / $v_T)];
  (*1997*) Do (Asn v_Kc 0 (#1.0000000000000000e+00 * (Exp $v_Kc)));
  (*1998*) Do (Asn v_rev_rxn_rates 165 (v_C.[25] * v_C.[6] * $v_kf / $v_Kc));
  (*2001*) Do (Asn v_kf 0 (#90000000.0));
  (*2002*) Do (Asn v_fwd_rxn_rates 166 (v_C.[26] * v_C.[8] * $v_kf));
  (*2003*) If ($v_T) (#1000.0)
    [Asn v_Kc 0 (#(-5.8952386299999979e+00) + #9.6353134999999979e-01 * $v_logT + $v_T * (#(-3.4180896749999995e-03) + $v_T * (#2.2405882483333336e-06 + $v_T * (#(-9.7409019250000008e-10) + #1.9173240850000004e-13 * $v_T))) - #(-7.8787684000000008e+03) / $v_T)]
    [Asn v_Kc 0 (#7.7663570000000171e-01 + #(-2.4281784000000073e-01) * $v_logT + $v_T * (#(-1.8320620500000102e-04) + $v_T * (#7.4405553166666628e-08 + $v_T * (#(-1.1075458750000003e-11) + #6.0408024500000030e-16 * $v_T))) - #(-7.6994794669999992e+03) / $v_T)];
  (*2009*) Do (Asn v_Kc 0 (#1.0000000000000000e+00 * (Exp $v_Kc)));
  (*2010*) Do (Asn v_rev_rxn_rates 166 (v_C.[25] * v_C.[4] * $v_kf / $v_Kc));
  (*2013*) Do (Asn v_kf 0 (#24000000000.0));
  (*2014*) Do (Asn v_fwd_rxn_rates 167 (v_C.[26] * v_C.[4] * $v_kf));
  (*2015*) If ($v_T) (#1000.0)
    [Asn v_Kc 0 (#(-2.8107686399999999e+01) + #6.8745791299999981e+00 * $v_logT + $v_T * (#(-1.9290112245000005e-02) + $v_T * (#1.1675231285000001e-05 + $v_T * (#(-4.9806834774999992e-09) + #9.8131337249999979e-13 * $v_T))) - #(-8.6929461200000005e+03) / $v_T)]
    [Asn v_Kc 0 (#4.9697476320000000e+01 + #(-6.1468834399999999e+00) * $v_logT + $v_T * (#4.6912361849999994e-03 + $v_T * (#(-1.1263426030000002e-06) + $v_T * (#1.5966508228333334e-10 + #(-9.4852763130000010e-15) * $v_T))) - #(-5.5075348729999996e+03) / $v_T)];
  (*2021*) Do (Asn v_Kc 0 (#1.2186597134166982e+01 * (Exp $v_Kc)));
  (*2022*) Do (Asn v_rev_rxn_rates 167 (v_C.[14] * v_C.[21] * v_C.[3] * $v_kf / $v_Kc));
  (*2025*) Do (Asn v_kf 0 (#11000000000.0));
  (*2026*) Do (Asn v_fwd_rxn_rates 168 (v_C.[26] * v_C.[11] * $v_kf));
  (*2027*) If ($v_T) (#1000.0)
    [Asn v_Kc 0 (#(-1.3157037519999998e+01) + #1.9204754299999998e+00 * $v_logT + $v_T * (#(-1.0382861775000000e-02) + $v_T * (#7.5970639566666681e-06 + $v_T * (#(-3.2247596958333339e-09) + #5.9558317799999989e-13 * $v_T))) - #(-3.5929166400000002e+04) / $v_T)]
    [Asn v_Kc 0 (#1.5347550335000001e+01 + #(-3.1883571250000005e+00) * $v_logT + $v_T * (#2.5139506650000004e-03 + $v_T * (#(-4.0393163500000005e-07) + $v_T * (#4.9129948833333329e-11 + #(-2.6949555799999999e-15) * $v_T))) - #(-3.5143722790000000e+04) / $v_T)];
  (*2033*) Do (Asn v_Kc 0 (#1.0000000000000000e+00 * (Exp $v_Kc)));
  (*2034*) Do (Asn v_rev_rxn_rates 168 (v_C.[25] * v_C.[12] * $v_kf / $v_Kc));
  (*2037*) Do (Asn v_kf 0 (#36000000000.0));
  (*2038*) Do (Asn v_fwd_rxn_rates 169 (v_C.[1] * v_C.[28] * $v_kf));
  (*2039*) If ($v_T) (#1000.0)
    [Asn v_Kc 0 (#1.3463017299999791e-01 + #(-1.0633563200000000e+00) * $v_logT + $v_T * (#(-4.4127385003526649e-03) + $v_T * (#4.6641017836659866e-06 + $v_T * (#(-2.2325154418584011e-09) + #4.4002777504638656e-13 * $v_T))) - #(-4.9917388299999999e+04) / $v_T)]
    [Asn v_Kc 0 (#3.2339091323999995e+01 + #(-6.4598994100000002e+00) * $v_logT + $v_T * (#5.8579745115421508e-03 + $v_T * (#(-1.1047750026926988e-06) + $v_T * (#1.3568112539459603e-10 + #(-7.4762140249098688e-15) * $v_T))) - #(-4.8568391000000003e+04) / $v_T)];
  (*2045*) Do (Asn v_Kc 0 (#8.2057360967184814e-02 * (Exp $v_Kc)));
  (*2046*) Do (Asn v_rev_rxn_rates 169 (v_C.[29] * $v_kf / $v_Kc));
  (*2049*) Do (Asn v_kf 0 ((Exp (#4.2139678854452768e+01 - #2.0 * $v_logT - #5.5354152134507885e+03 / $v_T))));
  (*2050*) Do (Asn v_fwd_rxn_rates 170 (v_C.[1] * v_C.[28] * $v_kf));
  (*2051*) If ($v_T) (#1000.0)
    [Asn v_Kc 0 (#(-6.0056963969999977e+00) + #1.7922795800000000e+00 * $v_logT + $v_T * (#(-8.9270421253526654e-03) + $v_T * (#6.8542274269993207e-06 + $v_T * (#(-3.5301688793584011e-09) + #8.0403954204638650e-13 * $v_T))) - #(-1.2436360099999998e+04) / $v_T)]
    [Asn v_Kc 0 (#7.2999907939999993e+00 + #(-7.2697809000000024e-01) * $v_logT + $v_T * (#(-5.3496330345785027e-04) + $v_T * (#9.8206717307301098e-08 + $v_T * (#1.9143373945960026e-12 + #(-1.6496578449098676e-15) * $v_T))) - #(-1.2170634600000005e+04) / $v_T)];
  (*2057*) Do (Asn v_Kc 0 (#1.0000000000000000e+00 * (Exp $v_Kc)));
  (*2058*) Do (Asn v_rev_rxn_rates 170 (v_C.[11] * v_C.[24] * $v_kf / $v_Kc));
  (*2061*) Do (Asn v_kf 0 (#24000000000.0));
  (*2062*) Do (Asn v_fwd_rxn_rates 171 (v_C.[4] * v_C.[28] * $v_kf));
  (*2063*) If ($v_T) (#1000.0)
    [Asn v_Kc 0 (#(-1.5304866439999998e+01) + #4.2359199299999997e+00 * $v_logT + $v_T * (#(-1.4124849284999999e-02) + $v_T * (#9.6810841016666651e-06 + $v_T * (#(-4.5784604524999996e-09) + #9.7421606250000001e-13 * $v_T))) - #(-1.4629925620000002e+04) / $v_T)]
    [Asn v_Kc 0 (#1.3123607340000000e+01 + #(-9.0448776000000120e-01) * $v_logT + $v_T * (#(-1.4657091499999976e-04) + $v_T * (#(-7.8604822999999789e-08) + $v_T * (#2.9164584783333309e-11 + #(-3.2602193130000002e-15) * $v_T))) - #(-1.3861390273000001e+04) / $v_T)];
  (*2069*) Do (Asn v_Kc 0 (#1.2186597134166982e+01 * (Exp $v_Kc)));
  (*2070*) Do (Asn v_rev_rxn_rates 171 (v_C.[14] * v_C.[24] * v_C.[3] * $v_kf / $v_Kc));
  (*2073*) Do (Asn v_kf 0 (#60000000000.0));
  (*2074*) Do (Asn v_fwd_rxn_rates 172 (v_C.[13] * v_C.[28] * $v_kf));
  (*2075*) If ($v_T) (#1000.0)
    [Asn v_Kc 0 (#(-2.0563634600000000e+00) + #(-2.0500869000000033e-01) * $v_logT + $v_T * (#(-3.0959526799999998e-03) + $v_T * (#2.5369134050000000e-06 + $v_T * (#(-1.0473975096666667e-09) + #1.7792211754999996e-13 * $v_T))) - #(-4.2627379360000006e+04) / $v_T)]
    [Asn v_Kc 0 (#2.7469739969999999e+01 + #(-5.0168881700000005e+00) * $v_logT + $v_T * (#4.4107605850000030e-03 + $v_T * (#(-8.5716994016666648e-07) + $v_T * (#1.0575539416666665e-10 + #(-5.8269090250000024e-15) * $v_T))) - #(-4.1258521650000002e+04) / $v_T)];
  (*2081*) Do (Asn v_Kc 0 (#1.0000000000000000e+00 * (Exp $v_Kc)));
  (*2082*) Do (Asn v_rev_rxn_rates 172 (v_C.[29] * v_C.[16] * $v_kf / $v_Kc));
  (*2085*) Do (Asn v_kf 0 ((Exp (#2.3311029872174121e+01 - #1.6408480351362714e+03 / $v_T))));
  (*2086*) Do (Asn v_fwd_rxn_rates 173 (v_C.[1] * v_C.[29] * $v_kf));
  (*2087*) If ($v_T) (#1000.0)
    [Asn v_Kc 0 (#4.0259156529999984e+00 + #(-1.4724338000000001e+00) * $v_logT + $v_T * (#3.7220584996473342e-03 + $v_T * (#(-2.0587625996673468e-06) + $v_T * (#7.6886174980826523e-10 + #(-1.2121247495361327e-13) * $v_T))) - #(-1.6361155499999999e+04) / $v_T)]
    [Asn v_Kc 0 (#(-3.7116920475999997e+01) + #5.1286553899999996e+00 * $v_logT + $v_T * (#(-5.3297179884578515e-03) + $v_T * (#1.3813850806406340e-06 + $v_T * (#(-2.2039123627207065e-10) + #1.5422779275090133e-14 * $v_T))) - #(-1.8369530999999999e+04) / $v_T)];
  (*2093*) Do (Asn v_Kc 0 (#8.2057360967184814e-02 * (Exp $v_Kc)));
  (*2094*) Do (Asn v_rev_rxn_rates 173 (v_C.[30] * $v_kf / $v_Kc));
  (*2097*) Do (Asn v_kf 0 ((Exp (#4.4219120396132602e+01 - #2.39 * $v_logT - #5.6259947351254386e+03 / $v_T))));
  (*2098*) Do (Asn v_fwd_rxn_rates 174 (v_C.[1] * v_C.[29] * $v_kf));
  (*2099*) If ($v_T) (#1000.0)
    [Asn v_Kc 0 (#(-1.6395775106999999e+01) + #4.5845291599999998e+00 * $v_logT + $v_T * (#(-2.1305245695352668e-02) + $v_T * (#1.6954464200332657e-05 + $v_T * (#(-8.7013873251917349e-09) + #1.9464572350463870e-12 * $v_T))) - #(-5.7518570699999964e+03) / $v_T)]
    [Asn v_Kc 0 (#9.2341020440000019e+00 + #(-5.6281653000000009e-01) * $v_logT + $v_T * (#(-1.1539098384578533e-03) + $v_T * (#1.9839185897396717e-07 + $v_T * (#(-7.0466729387373265e-12) + #(-1.0868593749098661e-15) * $v_T))) - #(-5.5365306599999994e+03) / $v_T)];
  (*2105*) Do (Asn v_Kc 0 (#1.0000000000000000e+00 * (Exp $v_Kc)));
  (*2106*) Do (Asn v_rev_rxn_rates 174 (v_C.[21] * v_C.[20] * $v_kf / $v_Kc));
  (*2109*) Do (Asn v_kf 0 ((Exp (#4.4912267576692550e+01 - #2.39 * $v_logT - #5.6259947351254386e+03 / $v_T))));
  (*2110*) Do (Asn v_fwd_rxn_rates 175 (v_C.[1] * v_C.[29] * $v_kf));
  (*2111*) If ($v_T) (#1000.0)
    [Asn v_Kc 0 (#(-4.3516412169999974e+00) + #1.4857593999999998e+00 * $v_logT + $v_T * (#(-3.9586241253526649e-03) + $v_T * (#8.5508131033265349e-07 + $v_T * (#9.1216145641598623e-11 + #(-7.0409482953613311e-14) * $v_T))) - #(-6.1634346999999962e+03) / $v_T)]
    [Asn v_Kc 0 (#(-2.4394186906000002e+01) + #4.4643906099999997e+00 * $v_logT + $v_T * (#(-6.1011333034578508e-03) + $v_T * (#1.3243590839739675e-06 + $v_T * (#(-1.6600661260540399e-10) + #8.4616485050901337e-15 * $v_T))) - #(-7.4819227999999994e+03) / $v_T)];
  (*2117*) Do (Asn v_Kc 0 (#1.0000000000000000e+00 * (Exp $v_Kc)));
  (*2118*) Do (Asn v_rev_rxn_rates 175 (v_C.[25] * v_C.[11] * $v_kf / $v_Kc));
  (*2121*) Do (Asn v_kf 0 ((Exp (#6.4769723628896827e+00 + #2.54 * $v_logT - #3.3997513801885029e+03 / $v_T))));
  (*2122*) Do (Asn v_fwd_rxn_rates 176 (v_C.[1] * v_C.[29] * $v_kf));
  (*2123*) If ($v_T) (#1000.0)
    [Asn v_Kc 0 (#4.0974146509999976e+00 + #(-5.9231255999999988e-01) * $v_logT + $v_T * (#8.4029988746473321e-03 + $v_T * (#(-7.9104602830006793e-06) + $v_T * (#3.9122828914749324e-09 + #(-8.0883365545361327e-13) * $v_T))) - #(-1.9478666729999991e+03) / $v_T)]
    [Asn v_Kc 0 (#(-3.2988027985999999e+01) + #5.7971785900000006e+00 * $v_logT + $v_T * (#(-5.8826757250078528e-03) + $v_T * (#1.1880177936406338e-06 + $v_T * (#(-1.5064499077207067e-10) + #8.4774908550901339e-15 * $v_T))) - #(-3.3290877219999957e+03) / $v_T)];
  (*2129*) Do (Asn v_Kc 0 (#1.0000000000000000e+00 * (Exp $v_Kc)));
  (*2130*) Do (Asn v_rev_rxn_rates 176 (v_C.[5] * v_C.[28] * $v_kf / $v_Kc));
  (*2133*) Do (Asn v_kf 0 ((Exp (#1.2706847933442663e+01 + #1.45 * $v_logT - #(-2.0229426507338337e+02) / $v_T))));
  (*2134*) Do (Asn v_fwd_rxn_rates 177 (v_C.[29] * v_C.[2] * $v_kf));
  (*2135*) If ($v_T) (#1000.0)
    [Asn v_Kc 0 (#4.9510593000000069e-01 + #9.2089804000000042e-01 * $v_logT + $v_T * (#(-2.4045067399999995e-03) + $v_T * (#7.3410125666666659e-07 + $v_T * (#(-1.7721558833333367e-10) + #2.4342832000000071e-14 * $v_T))) - #(-1.3179947840000001e+04) / $v_T)]
    [Asn v_Kc 0 (#(-3.1903409119999999e+01) + #5.8589173999999993e+00 * $v_logT + $v_T * (#(-6.6380463131500006e-03) + $v_T * (#1.3474614351833333e-06 + $v_T * (#(-1.6257526017500001e-10) + #8.0084261495000008e-15 * $v_T))) - #(-1.5089714249999997e+04) / $v_T)];
  (*2141*) Do (Asn v_Kc 0 (#1.0000000000000000e+00 * (Exp $v_Kc)));
  (*2142*) Do (Asn v_rev_rxn_rates 177 (v_C.[26] * v_C.[13] * $v_kf / $v_Kc));
  (*2145*) Do (Asn v_kf 0 ((Exp (#2.3431316038048621e+01 - #2.8985446935887767e+03 / $v_T))));
  (*2146*) Do (Asn v_fwd_rxn_rates 178 (v_C.[29] * v_C.[2] * $v_kf));
  (*2147*) If ($v_T) (#1000.0)
    [Asn v_Kc 0 (#(-8.8735224999999973e-01) + #5.2039483000000031e-01 * $v_logT + $v_T * (#4.4396732249999977e-03 + $v_T * (#(-4.6833379583333333e-06) + $v_T * (#2.2599762591666666e-09 + #(-4.4254207099999991e-13) * $v_T))) - #(-1.2969926799999994e+03) / $v_T)]
    [Asn v_Kc 0 (#(-2.8770414389999999e+01) + #5.2552074800000010e+00 * $v_logT + $v_T * (#(-5.2867352031500010e-03) + $v_T * (#1.0546031305166665e-06 + $v_T * (#(-1.3230282105833334e-10) + #7.3481992165000016e-15 * $v_T))) - #(-2.4039902599999987e+03) / $v_T)];
  (*2153*) Do (Asn v_Kc 0 (#1.0000000000000000e+00 * (Exp $v_Kc)));
  (*2154*) Do (Asn v_rev_rxn_rates 178 (v_C.[28] * v_C.[3] * $v_kf / $v_Kc));
  (*2157*) Do (Asn v_kf 0 ((Exp (#2.3981362374967894e+01 - #2.2493914549204569e+03 / $v_T))));
  (*2158*) Do (Asn v_fwd_rxn_rates 179 (v_C.[29] * v_C.[2] * $v_kf));
  (*2159*) If ($v_T) (#1000.0)
    [Asn v_Kc 0 (#(-8.8735224999999973e-01) + #5.2039483000000031e-01 * $v_logT + $v_T * (#4.4396732249999977e-03 + $v_T * (#(-4.6833379583333333e-06) + $v_T * (#2.2599762591666666e-09 + #(-4.4254207099999991e-13) * $v_T))) - #(-1.2969926799999994e+03) / $v_T)]
    [Asn v_Kc 0 (#(-2.8770414389999999e+01) + #5.2552074800000010e+00 * $v_logT + $v_T * (#(-5.2867352031500010e-03) + $v_T * (#1.0546031305166665e-06 + $v_T * (#(-1.3230282105833334e-10) + #7.3481992165000016e-15 * $v_T))) - #(-2.4039902599999987e+03) / $v_T)];
  (*2165*) Do (Asn v_Kc 0 (#1.0000000000000000e+00 * (Exp $v_Kc)));
  (*2166*) Do (Asn v_rev_rxn_rates 179 (v_C.[28] * v_C.[3] * $v_kf / $v_Kc));
  (*2169*) Do (Asn v_kf 0 ((Exp (#(-3.5667494393873245e-01) + #2.66 * $v_logT - #2.6519671068077872e+02 / $v_T))));
  (*2170*) Do (Asn v_fwd_rxn_rates 180 (v_C.[29] * v_C.[3] * $v_kf));
  (*2171*) If ($v_T) (#1000.0)
    [Asn v_Kc 0 (#2.5801184819999987e+00 + #(-3.6330872999999908e-01) * $v_logT + $v_T * (#5.0072461449999998e-03 + $v_T * (#(-4.6653092499999995e-06) + $v_T * (#2.2583959258333331e-09 + #(-4.5454755599999993e-13) * $v_T))) - #(-9.2315364199999967e+03) / $v_T)]
    [Asn v_Kc 0 (#(-3.0296542660000000e+01) + #5.1291630300000008e+00 * $v_logT + $v_T * (#(-5.2977677200000016e-03) + $v_T * (#1.1206100399999997e-06 + $v_T * (#(-1.4631144620000002e-10) + #8.3838168980000013e-15 * $v_T))) - #(-1.0628423739999998e+04) / $v_T)];
  (*2177*) Do (Asn v_Kc 0 (#1.0000000000000000e+00 * (Exp $v_Kc)));
  (*2178*) Do (Asn v_rev_rxn_rates 180 (v_C.[6] * v_C.[28] * $v_kf / $v_Kc));
  (*2181*) Do (Asn v_kf 0 ((Exp (#2.3718998110500401e+01 - #2.5628972438277153e+04 / $v_T))));
  (*2182*) Do (Asn v_fwd_rxn_rates 181 (v_C.[29] * v_C.[8] * $v_kf));
  (*2183*) If ($v_T) (#1000.0)
    [Asn v_Kc 0 (#2.3516977499999996e+00 + #8.2697970000000343e-02 * $v_logT + $v_T * (#3.5365453250000012e-03 + $v_T * (#(-2.7789372683333336e-06) + $v_T * (#1.0162575824999999e-09 + #(-1.3760163149999986e-13) * $v_T))) - #2.5802480000000000e+04 / $v_T)]
    [Asn v_Kc 0 (#(-3.1795210600000004e+01) + #5.6945724600000016e+00 * $v_logT + $v_T * (#(-5.4796082050000017e-03) + $v_T * (#1.1254930864999997e-06 + $v_T * (#(-1.4361647375000003e-10) + #8.0202602950000014e-15 * $v_T))) - #2.4295045533000000e+04 / $v_T)];
  (*2189*) Do (Asn v_Kc 0 (#1.0000000000000000e+00 * (Exp $v_Kc)));
  (*2190*) Do (Asn v_rev_rxn_rates 181 (v_C.[4] * v_C.[28] * $v_kf / $v_Kc));
  (*2193*) Do (Asn v_kf 0 ((Exp (#2.0723265836946410e+01 - #7.2161685600803921e+03 / $v_T))));
  (*2194*) Do (Asn v_fwd_rxn_rates 182 (v_C.[29] * v_C.[4] * $v_kf));
  (*2195*) If ($v_T) (#1000.0)
    [Asn v_Kc 0 (#2.5561262900000004e+00 + #(-4.6232899999999955e-01) * $v_logT + $v_T * (#6.5158875464999978e-03 + $v_T * (#(-5.4015549499999995e-06) + $v_T * (#2.4574577833333335e-09 + #(-4.7341315549999993e-13) * $v_T))) - #6.4463382600000023e+03 / $v_T)]
    [Asn v_Kc 0 (#(-3.0409145879999997e+01) + #5.1076913499999996e+00 * $v_logT + $v_T * (#(-4.5237260950000014e-03) + $v_T * (#8.9348598333333306e-07 + $v_T * (#(-1.1426949033333335e-10) + #6.5762151500000019e-15 * $v_T))) - #5.1210866870000009e+03 / $v_T)];
  (*2201*) Do (Asn v_Kc 0 (#1.0000000000000000e+00 * (Exp $v_Kc)));
  (*2202*) Do (Asn v_rev_rxn_rates 182 (v_C.[7] * v_C.[28] * $v_kf / $v_Kc));
  (*2205*) Do (Asn v_kf 0 ((Exp (#(-7.7062629751999090e+00) + #3.65 * $v_logT - #3.5995295474375903e+03 / $v_T))));
  (*2206*) Do (Asn v_fwd_rxn_rates 183 (v_C.[11] * v_C.[29] * $v_kf));
  (*2207*) If ($v_T) (#1000.0)
    [Asn v_Kc 0 (#(-4.9101011399999983e+00) + #1.0396420500000001e+00 * $v_logT + $v_T * (#(-3.4282267750000012e-03) + $v_T * (#2.5775384400000004e-06 + $v_T * (#(-1.2344119208333335e-09) + #2.6624913799999999e-13 * $v_T))) - #(-2.2479180000000001e+03) / $v_T)]
    [Asn v_Kc 0 (#(-1.7224295965000000e+01) + #2.7490331750000001e+00 * $v_logT + $v_T * (#(-2.7824513350000000e-03) + $v_T * (#6.4715589833333312e-07 + $v_T * (#(-8.3411066166666664e-11) + #4.7212244700000014e-15 * $v_T))) - #(-3.1491977899999974e+03) / $v_T)];
  (*2213*) Do (Asn v_Kc 0 (#1.0000000000000000e+00 * (Exp $v_Kc)));
  (*2214*) Do (Asn v_rev_rxn_rates 183 (v_C.[12] * v_C.[28] * $v_kf / $v_Kc));
  (*2217*) Do (Asn v_kf 0 ((Exp (#4.9662619772525140e+01 - #2.92 * $v_logT - #6.2927606585638287e+03 / $v_T))));
  (*2218*) Do (Asn v_fwd_rxn_rates 184 (v_C.[1] * v_C.[30] * $v_kf));
  (*2219*) If ($v_T) (#1000.0)
    [Asn v_Kc 0 (#(-1.7212393827000000e+01) + #4.9042271599999996e+00 * $v_logT + $v_T * (#(-2.3335337420352667e-02) + $v_T * (#1.7782435383665989e-05 + $v_T * (#(-8.6997311835250690e-09) + #1.8707928650463870e-12 * $v_T))) - #(-7.1125108999999984e+03) / $v_T)]
    [Asn v_Kc 0 (#5.2536225183999996e+01 + #(-7.2729266699999995e+00) * $v_logT + $v_T * (#5.5517367115421497e-03 + $v_T * (#(-1.3948744793593658e-06) + $v_T * (#2.3667353539459602e-10 + #(-1.7706414424909867e-14) * $v_T))) - #(-4.7230256999999983e+03) / $v_T)];
  (*2225*) Do (Asn v_Kc 0 (#1.0000000000000000e+00 * (Exp $v_Kc)));
  (*2226*) Do (Asn v_rev_rxn_rates 184 (v_C.[21] * v_C.[21] * $v_kf / $v_Kc));
  (*2229*) Do (Asn v_kf 0 (#1800000000.0));
  (*2230*) Do (Asn v_fwd_rxn_rates 185 (v_C.[1] * v_C.[30] * $v_kf));
  (*2231*) If ($v_T) (#1000.0)
    [Asn v_Kc 0 (#2.0612917099999706e-01 + #(-1.8323507999999977e-01) * $v_logT + $v_T * (#2.6820187464733289e-04 + $v_T * (#(-1.1875958996673465e-06) + $v_T * (#9.1090569980826552e-10 + #(-2.4759340545361349e-13) * $v_T))) - #(-3.5504099473000002e+04) / $v_T)]
    [Asn v_Kc 0 (#3.6467983813999993e+01 + #(-5.7913762099999992e+00) * $v_logT + $v_T * (#5.3050167749921495e-03 + $v_T * (#(-1.2981422896926988e-06) + $v_T * (#2.0542737089459604e-10 + #(-1.4421502444909868e-14) * $v_T))) - #(-3.3527947721999997e+04) / $v_T)];
  (*2237*) Do (Asn v_Kc 0 (#1.0000000000000000e+00 * (Exp $v_Kc)));
  (*2238*) Do (Asn v_rev_rxn_rates 185 (v_C.[5] * v_C.[29] * $v_kf / $v_Kc));
  (*2241*) Do (Asn v_kf 0 (#96000000000.0));
  (*2242*) Do (Asn v_fwd_rxn_rates 186 (v_C.[30] * v_C.[2] * $v_kf));
  (*2243*) If ($v_T) (#1000.0)
    [Asn v_Kc 0 (#(-3.9482237099999993e+00) + #1.4658691500000001e+00 * $v_logT + $v_T * (#(-9.4587694249999993e-03) + $v_T * (#6.7165398899999996e-06 + $v_T * (#(-2.9972537383333331e-09) + #5.8753413449999988e-13 * $v_T))) - #(-4.0440973899999997e+04) / $v_T)]
    [Asn v_Kc 0 (#1.3029656659999997e+01 + #(-1.7812223000000000e+00) * $v_logT + $v_T * (#8.1319446685000120e-04 + $v_T * (#(-3.5694564814999981e-07) + $v_T * (#9.2586838325000010e-11 + #(-9.1660877955000008e-15) * $v_T))) - #(-4.0201593600000000e+04) / $v_T)];
  (*2249*) Do (Asn v_Kc 0 (#1.0000000000000000e+00 * (Exp $v_Kc)));
  (*2250*) Do (Asn v_rev_rxn_rates 186 (v_C.[14] * v_C.[26] * $v_kf / $v_Kc));
  (*2253*) Do (Asn v_kf 0 (#24000000000.0));
  (*2254*) Do (Asn v_fwd_rxn_rates 187 (v_C.[30] * v_C.[3] * $v_kf));
  (*2255*) If ($v_T) (#1000.0)
    [Asn v_Kc 0 (#(-1.3111669980000000e+00) + #4.5768750000000580e-02 * $v_logT + $v_T * (#(-3.1275508550000007e-03) + $v_T * (#2.0575551333333331e-06 + $v_T * (#(-7.4298126583333349e-10) + #1.0669269399999987e-13 * $v_T))) - #(-4.2787769219999995e+04) / $v_T)]
    [Asn v_Kc 0 (#3.9159469139999992e+01 + #(-6.4593917699999999e+00) * $v_logT + $v_T * (#5.8899247800000025e-03 + $v_T * (#(-1.3655500433333333e-06) + $v_T * (#2.0976091546666671e-10 + #(-1.4515176402000001e-14) * $v_T))) - #(-4.0827283739999999e+04) / $v_T)];
  (*2261*) Do (Asn v_Kc 0 (#1.0000000000000000e+00 * (Exp $v_Kc)));
  (*2262*) Do (Asn v_rev_rxn_rates 187 (v_C.[6] * v_C.[29] * $v_kf / $v_Kc));
  (*2265*) Do (Asn v_kf 0 (#270000000.0));
  (*2266*) Do (Asn v_fwd_rxn_rates 188 (v_C.[30] * v_C.[8] * $v_kf));
  (*2267*) If ($v_T) (#1000.0)
    [Asn v_Kc 0 (#(-1.5395877300000009e+00) + #4.9177545000000000e-01 * $v_logT + $v_T * (#(-4.5982516749999997e-03) + $v_T * (#3.9439271149999998e-06 + $v_T * (#(-1.9851196091666664e-09) + #4.2363861849999992e-13 * $v_T))) - #(-7.7537528000000002e+03) / $v_T)]
    [Asn v_Kc 0 (#3.7660801199999995e+01 + #(-5.8939823399999991e+00) * $v_logT + $v_T * (#5.7080842950000005e-03 + $v_T * (#(-1.3606669968333331e-06) + $v_T * (#2.1245588791666671e-10 + #(-1.4878733005000002e-14) * $v_T))) - #(-5.9038144670000001e+03) / $v_T)];
  (*2273*) Do (Asn v_Kc 0 (#1.0000000000000000e+00 * (Exp $v_Kc)));
  (*2274*) Do (Asn v_rev_rxn_rates 188 (v_C.[29] * v_C.[4] * $v_kf / $v_Kc));
  (*2277*) Do (Asn v_kf 0 (#24000000000.0));
  (*2278*) Do (Asn v_fwd_rxn_rates 189 (v_C.[30] * v_C.[4] * $v_kf));
  (*2279*) If ($v_T) (#1000.0)
    [Asn v_Kc 0 (#(-9.2951603599999988e+00) + #3.4576438500000002e+00 * $v_logT + $v_T * (#(-1.0336593284999999e-02) + $v_T * (#5.3852768516666665e-06 + $v_T * (#(-1.9681048441666666e-09) + #3.3167324749999987e-13 * $v_T))) - #(-8.2319846200000011e+03) / $v_T)]
    [Asn v_Kc 0 (#1.8313595139999997e+01 + #(-1.3642835600000005e+00) * $v_logT + $v_T * (#1.7854958500000185e-04 + $v_T * (#(-2.8752500633333311e-07) + $v_T * (#8.4774981450000013e-11 + #(-8.6317262130000004e-15) * $v_T))) - #(-7.3770134730000000e+03) / $v_T)];
  (*2285*) Do (Asn v_Kc 0 (#1.2186597134166982e+01 * (Exp $v_Kc)));
  (*2286*) Do (Asn v_rev_rxn_rates 189 (v_C.[14] * v_C.[26] * v_C.[3] * $v_kf / $v_Kc));
  (*2289*) Do (Asn v_kf 0 (#11000000000.0));
  (*2290*) Do (Asn v_fwd_rxn_rates 190 (v_C.[30] * v_C.[11] * $v_kf));
  (*2291*) If ($v_T) (#1000.0)
    [Asn v_Kc 0 (#(-8.8013866199999988e+00) + #1.4487195300000000e+00 * $v_logT + $v_T * (#(-1.1563023775000000e-02) + $v_T * (#9.3004028233333334e-06 + $v_T * (#(-4.2357891125000007e-09) + #8.2748938799999987e-13 * $v_T))) - #(-3.5804150800000003e+04) / $v_T)]
    [Asn v_Kc 0 (#5.2231715834999996e+01 + #(-8.8395216249999997e+00) * $v_logT + $v_T * (#8.4052411650000023e-03 + $v_T * (#(-1.8390041849999995e-06) + $v_T * (#2.7266129550000002e-10 + #(-1.8177768830000004e-14) * $v_T))) - #(-3.3348057789999999e+04) / $v_T)];
  (*2297*) Do (Asn v_Kc 0 (#1.0000000000000000e+00 * (Exp $v_Kc)));
  (*2298*) Do (Asn v_rev_rxn_rates 190 (v_C.[29] * v_C.[12] * $v_kf / $v_Kc));
  (*2301*) Do (Asn v_fwd_rxn_rates 191 (v_C.[31] * (Exp (#3.0849896940796750e+01 - #1.5106208503854987e+04 / $v_T))));
  (*2303*) Do (Asn v_fwd_rxn_rates 192 (v_C.[31] * (Exp (#3.0849896940796750e+01 - #1.5106208503854987e+04 / $v_T))));
  (*2305*) Do (Asn v_kf 0 ((Exp (#2.3311029872174121e+01 - #1.6408480351362714e+03 / $v_T))));
  (*2306*) Do (Asn v_fwd_rxn_rates 193 (v_C.[1] * v_C.[32] * $v_kf));
  (*2307*) If ($v_T) (#1000.0)
    [Asn v_Kc 0 (#2.9466828530000000e+00 + #(-1.5000000000000000e+00) * $v_logT + $v_T * (#(-3.5266640949999999e-13) + $v_T * (#3.3265327333333333e-16 + $v_T * (#(-1.9173469333333331e-19) + #4.6386616600000003e-23 * $v_T))) - #(-2.5473659899999999e+04) / $v_T)]
    [Asn v_Kc 0 (#2.9466829240000001e+00 + #(-1.5000000099999999e+00) * $v_logT + $v_T * (#1.1542148649999999e-11 + $v_T * (#(-2.6926991333333336e-15) + $v_T * (#3.9459602916666671e-19 + #(-2.4909867850000001e-23) * $v_T))) - #(-2.5473659899999999e+04) / $v_T)];
  (*2313*) If ($v_T) (#1392.0)
    [AddA v_Kc 0 (#(-3.3336213809999997e+01) + #2.0622348100000001e+00 * $v_logT + $v_T * (#(-2.8710914700000000e-02) + $v_T * (#6.2414481666666671e-06 + $v_T * (#(-1.0613749083333332e-09) + #8.9804894499999993e-14 * $v_T))) - #4.4654666600000000e+03 / $v_T)]
    [AddA v_Kc 0 (#6.6953547499999999e+01 + #(-1.3585153900000000e+01) * $v_logT + $v_T * (#(-1.1203623550000000e-02) + $v_T * (#1.2722467083333334e-06 + $v_T * (#(-9.8490805000000006e-11) + #3.4219256950000000e-15 * $v_T))) - #1.0089820500000000e+04 / $v_T)];
  (*2319*) If ($v_T) (#1390.0)
    [AddA v_Kc 0 (#2.8671428191900002e+01 + #(-9.4756159190000000e-01) * $v_logT + $v_T * (#2.8039847900000001e-02 + $v_T * (#(-5.5257633833333341e-06) + $v_T * (#8.1461148416666665e-10 + #(-5.7004829999999998e-14) * $v_T))) - #4.7161145999999999e+03 / $v_T)]
    [AddA v_Kc 0 (#(-6.9780673899999996e+01) + #1.4297744600000000e+01 * $v_logT + $v_T * (#1.1986765500000000e-02 + $v_T * (#(-1.3639882466666667e-06) + $v_T * (#1.0573589666666666e-10 + #(-3.6770452750000001e-15) * $v_T))) - #(-9.8071230700000001e+02) / $v_T)];
  (*2325*) Do (Asn v_Kc 0 (#8.2057360967184814e-02 * (Exp $v_Kc)));
  (*2326*) Do (Asn v_rev_rxn_rates 191 (v_C.[33] * $v_kf / $v_Kc));
  (*2329*) Do (Asn v_kf 0 ((Exp (#4.3525973215572655e+01 - #2.39 * $v_logT - #5.6259947351254386e+03 / $v_T))));
  (*2330*) Do (Asn v_fwd_rxn_rates 194 (v_C.[1] * v_C.[32] * $v_kf));
  (*2331*) If ($v_T) (#1000.0)
    [Asn v_Kc 0 (#2.3171729032999998e+01 + #1.5083187799999997e+00 * $v_logT + $v_T * (#9.2192252646473346e-03 + $v_T * (#9.9088801336659864e-06 + $v_T * (#(-7.3961672751917343e-09) + #1.8180229000463866e-12 * $v_T))) - #(-1.0071537969999999e+04) / $v_T)]
    [Asn v_Kc 0 (#(-1.2009103835999998e+01) + #6.2458590500000000e+00 * $v_logT + $v_T * (#1.5338450061542150e-02 + $v_T * (#(-1.9971338276926992e-06) + $v_T * (#1.8592606289459605e-10 + #(-8.2284390249098673e-15) * $v_T))) - #(-1.2557550159999999e+04) / $v_T)];
  (*2337*) If ($v_T) (#1392.0)
    [AddA v_Kc 0 (#(-3.3336213809999997e+01) + #2.0622348100000001e+00 * $v_logT + $v_T * (#(-2.8710914700000000e-02) + $v_T * (#6.2414481666666671e-06 + $v_T * (#(-1.0613749083333332e-09) + #8.9804894499999993e-14 * $v_T))) - #4.4654666600000000e+03 / $v_T)]
    [AddA v_Kc 0 (#6.6953547499999999e+01 + #(-1.3585153900000000e+01) * $v_logT + $v_T * (#(-1.1203623550000000e-02) + $v_T * (#1.2722467083333334e-06 + $v_T * (#(-9.8490805000000006e-11) + #3.4219256950000000e-15 * $v_T))) - #1.0089820500000000e+04 / $v_T)];
  (*2343*) Do (Asn v_Kc 0 (#1.0000000000000000e+00 * (Exp $v_Kc)));
  (*2344*) Do (Asn v_rev_rxn_rates 192 (v_C.[26] * v_C.[20] * $v_kf / $v_Kc));
  (*2347*) Do (Asn v_kf 0 ((Exp (#4.4219120396132602e+01 - #2.39 * $v_logT - #5.6259947351254386e+03 / $v_T))));
  (*2348*) Do (Asn v_fwd_rxn_rates 195 (v_C.[1] * v_C.[32] * $v_kf));
  (*2349*) If ($v_T) (#1000.0)
    [Asn v_Kc 0 (#1.7999459413000000e+01 + #2.2997726799999993e+00 * $v_logT + $v_T * (#8.3692955396473343e-03 + $v_T * (#9.0335124503326545e-06 + $v_T * (#(-6.3834817168584013e-09) + #1.5104523200463867e-12 * $v_T))) - #(-1.1557207399999999e+04) / $v_T)]
    [Asn v_Kc 0 (#(-5.5911461960000013e+00) + #5.1869134099999998e+00 * $v_logT + $v_T * (#1.6152806111542149e-02 + $v_T * (#(-2.1553276160260324e-06) + $v_T * (#2.0611492456126267e-10 + #(-9.3651808249098658e-15) * $v_T))) - #(-1.3539710199999998e+04) / $v_T)];
  (*2355*) If ($v_T) (#1392.0)
    [AddA v_Kc 0 (#(-3.3336213809999997e+01) + #2.0622348100000001e+00 * $v_logT + $v_T * (#(-2.8710914700000000e-02) + $v_T * (#6.2414481666666671e-06 + $v_T * (#(-1.0613749083333332e-09) + #8.9804894499999993e-14 * $v_T))) - #4.4654666600000000e+03 / $v_T)]
    [AddA v_Kc 0 (#6.6953547499999999e+01 + #(-1.3585153900000000e+01) * $v_logT + $v_T * (#(-1.1203623550000000e-02) + $v_T * (#1.2722467083333334e-06 + $v_T * (#(-9.8490805000000006e-11) + #3.4219256950000000e-15 * $v_T))) - #1.0089820500000000e+04 / $v_T)];
  (*2361*) Do (Asn v_Kc 0 (#1.0000000000000000e+00 * (Exp $v_Kc)));
  (*2362*) Do (Asn v_rev_rxn_rates 193 (v_C.[25] * v_C.[21] * $v_kf / $v_Kc));
  (*2365*) Do (Asn v_kf 0 ((Exp (#1.9519293032620475e+01 - #3.6735028234718870e+03 / $v_T))));
  (*2366*) Do (Asn v_fwd_rxn_rates 196 (v_C.[26] * v_C.[20] * $v_kf));
  (*2367*) If ($v_T) (#1000.0)
    [Asn v_Kc 0 (#(-2.0225046180000000e+01) + #(-3.0083187799999997e+00) * $v_logT + $v_T * (#(-9.2192252650000004e-03) + $v_T * (#(-9.9088801333333328e-06) + $v_T * (#7.3961672749999997e-09 + #(-1.8180229000000000e-12) * $v_T))) - #(-1.5402121929999999e+04) / $v_T)]
    [Asn v_Kc 0 (#1.4955786759999999e+01 + #(-7.7458590599999999e+00) * $v_logT + $v_T * (#(-1.5338450050000001e-02) + $v_T * (#1.9971338250000001e-06 + $v_T * (#(-1.8592606250000004e-10) + #8.2284390000000002e-15 * $v_T))) - #(-1.2916109740000000e+04) / $v_T)];
  (*2373*) If ($v_T) (#1390.0)
    [AddA v_Kc 0 (#2.8671428191900002e+01 + #(-9.4756159190000000e-01) * $v_logT + $v_T * (#2.8039847900000001e-02 + $v_T * (#(-5.5257633833333341e-06) + $v_T * (#8.1461148416666665e-10 + #(-5.7004829999999998e-14) * $v_T))) - #4.7161145999999999e+03 / $v_T)]
    [AddA v_Kc 0 (#(-6.9780673899999996e+01) + #1.4297744600000000e+01 * $v_logT + $v_T * (#1.1986765500000000e-02 + $v_T * (#(-1.3639882466666667e-06) + $v_T * (#1.0573589666666666e-10 + #(-3.6770452750000001e-15) * $v_T))) - #(-9.8071230700000001e+02) / $v_T)];
  (*2379*) Do (Asn v_Kc 0 (#8.2057360967184814e-02 * (Exp $v_Kc)));
  (*2380*) Do (Asn v_rev_rxn_rates 194 (v_C.[33] * $v_kf / $v_Kc));
  (*2383*) Do (Asn v_kf 0 ((Exp (#2.3311029872174121e+01 - #1.6408480351362714e+03 / $v_T))));
  (*2384*) Do (Asn v_fwd_rxn_rates 197 (v_C.[1] * v_C.[34] * $v_kf));
  (*2385*) If ($v_T) (#1000.0)
    [Asn v_Kc 0 (#2.9466828530000000e+00 + #(-1.5000000000000000e+00) * $v_logT + $v_T * (#(-3.5266640949999999e-13) + $v_T * (#3.3265327333333333e-16 + $v_T * (#(-1.9173469333333331e-19) + #4.6386616600000003e-23 * $v_T))) - #(-2.5473659899999999e+04) / $v_T)]
    [Asn v_Kc 0 (#2.9466829240000001e+00 + #(-1.5000000099999999e+00) * $v_logT + $v_T * (#1.1542148649999999e-11 + $v_T * (#(-2.6926991333333336e-15) + $v_T * (#3.9459602916666671e-19 + #(-2.4909867850000001e-23) * $v_T))) - #(-2.5473659899999999e+04) / $v_T)];
  (*2391*) If ($v_T) (#1392.0)
    [AddA v_Kc 0 (#(-3.6664821150000002e+01) + #2.3527520500000003e+00 * $v_logT + $v_T * (#(-3.4932771299999998e-02) + $v_T * (#7.6568003666666674e-06 + $v_T * (#(-1.3080611916666668e-09) + #1.1064808750000001e-13 * $v_T))) - #7.3436861699999999e+03 / $v_T)]
    [AddA v_Kc 0 (#8.6215638000000013e+01 + #(-1.6833752900000000e+01) * $v_logT + $v_T * (#(-1.3368882900000000e-02) + $v_T * (#1.5167279550000001e-06 + $v_T * (#(-1.1734980666666667e-10) + #4.0756212200000003e-15 * $v_T))) - #1.4206286000000000e+04 / $v_T)];
  (*2397*) If ($v_T) (#1390.0)
    [AddA v_Kc 0 (#3.1812380765000000e+01 + #(-1.2048714650000001e+00) * $v_logT + $v_T * (#3.4190063600000001e-02 + $v_T * (#(-6.9074651999999995e-06) + $v_T * (#1.0512983500000000e-09 + #(-7.6560028999999992e-14) * $v_T))) - #1.8328039300000000e+03 / $v_T)]
    [AddA v_Kc 0 (#(-8.8987641300000007e+01) + #1.7538547000000001e+01 * $v_logT + $v_T * (#1.4155398099999999e-02 + $v_T * (#(-1.6088454099999999e-06) + $v_T * (#1.2462298750000000e-10 + #(-4.3316803200000002e-15) * $v_T))) - #(-5.0929904100000003e+03) / $v_T)];
  (*2403*) Do (Asn v_Kc 0 (#8.2057360967184814e-02 * (Exp $v_Kc)));
  (*2404*) Do (Asn v_rev_rxn_rates 195 (v_C.[35] * $v_kf / $v_Kc));
  (*2407*) Do (Asn v_kf 0 ((Exp (#4.3525973215572655e+01 - #2.39 * $v_logT - #5.6259947351254386e+03 / $v_T))));
  (*2408*) Do (Asn v_fwd_rxn_rates 198 (v_C.[1] * v_C.[34] * $v_kf));
  (*2409*) If ($v_T) (#1000.0)
    [Asn v_Kc 0 (#2.4045376132999998e+01 + #1.6679056799999996e+00 * $v_logT + $v_T * (#1.5363487264647334e-02 + $v_T * (#8.3054963836659869e-06 + $v_T * (#(-7.0489518585250676e-09) + #1.7837190400463867e-12 * $v_T))) - #(-1.3061779970000000e+04) / $v_T)]
    [Asn v_Kc 0 (#(-1.5358045435999994e+01) + #7.2183506499999988e+00 * $v_logT + $v_T * (#1.9168243061542148e-02 + $v_T * (#(-2.3842776110260323e-06) + $v_T * (#1.7804171622792935e-10 + #(-3.5430462749098680e-15) * $v_T))) - #(-1.5569367960000000e+04) / $v_T)];
  (*2415*) If ($v_T) (#1392.0)
    [AddA v_Kc 0 (#(-3.6664821150000002e+01) + #2.3527520500000003e+00 * $v_logT + $v_T * (#(-3.4932771299999998e-02) + $v_T * (#7.6568003666666674e-06 + $v_T * (#(-1.3080611916666668e-09) + #1.1064808750000001e-13 * $v_T))) - #7.3436861699999999e+03 / $v_T)]
    [AddA v_Kc 0 (#8.6215638000000013e+01 + #(-1.6833752900000000e+01) * $v_logT + $v_T * (#(-1.3368882900000000e-02) + $v_T * (#1.5167279550000001e-06 + $v_T * (#(-1.1734980666666667e-10) + #4.0756212200000003e-15 * $v_T))) - #1.4206286000000000e+04 / $v_T)];
  (*2421*) Do (Asn v_Kc 0 (#1.0000000000000000e+00 * (Exp $v_Kc)));
  (*2422*) Do (Asn v_rev_rxn_rates 196 (v_C.[30] * v_C.[20] * $v_kf / $v_Kc));
  (*2425*) Do (Asn v_kf 0 ((Exp (#4.4219120396132602e+01 - #2.39 * $v_logT - #5.6259947351254386e+03 / $v_T))));
  (*2426*) Do (Asn v_fwd_rxn_rates 199 (v_C.[1] * v_C.[34] * $v_kf));
  (*2427*) If ($v_T) (#1000.0)
    [Asn v_Kc 0 (#3.7685632552999998e+01 + #(-9.5757570000000003e-01) * $v_logT + $v_T * (#2.3467076499647337e-02 + $v_T * (#1.1401742669993201e-06 + $v_T * (#(-3.0236876668584016e-09) + #8.2650833504638664e-13 * $v_T))) - #(-1.4086487900000000e+04) / $v_T)]
    [Asn v_Kc 0 (#(-4.0323968976000003e+01) + #1.0942004890000000e+01 * $v_logT + $v_T * (#1.5469912511542151e-02 + $v_T * (#(-1.7036538026926989e-06) + $v_T * (#1.2334047706126270e-10 + #(-3.8262379749098679e-15) * $v_T))) - #(-1.8421006600000001e+04) / $v_T)];
  (*2433*) If ($v_T) (#1392.0)
    [AddA v_Kc 0 (#(-3.6664821150000002e+01) + #2.3527520500000003e+00 * $v_logT + $v_T * (#(-3.4932771299999998e-02) + $v_T * (#7.6568003666666674e-06 + $v_T * (#(-1.3080611916666668e-09) + #1.1064808750000001e-13 * $v_T))) - #7.3436861699999999e+03 / $v_T)]
    [AddA v_Kc 0 (#8.6215638000000013e+01 + #(-1.6833752900000000e+01) * $v_logT + $v_T * (#(-1.3368882900000000e-02) + $v_T * (#1.5167279550000001e-06 + $v_T * (#(-1.1734980666666667e-10) + #4.0756212200000003e-15 * $v_T))) - #1.4206286000000000e+04 / $v_T)];
  (*2439*) Do (Asn v_Kc 0 (#1.0000000000000000e+00 * (Exp $v_Kc)));
  (*2440*) Do (Asn v_rev_rxn_rates 197 (v_C.[25] * v_C.[26] * $v_kf / $v_Kc));
  (*2443*) Do (Asn v_kf 0 ((Exp (#1.9519293032620475e+01 - #3.6735028234718870e+03 / $v_T))));
  (*2444*) Do (Asn v_fwd_rxn_rates 200 (v_C.[30] * v_C.[20] * $v_kf));
  (*2445*) If ($v_T) (#1000.0)
    [Asn v_Kc 0 (#(-2.1098693279999999e+01) + #(-3.1679056799999996e+00) * $v_logT + $v_T * (#(-1.5363487265000000e-02) + $v_T * (#(-8.3054963833333333e-06) + $v_T * (#7.0489518583333330e-09 + #(-1.7837190400000002e-12) * $v_T))) - #(-1.2411879929999999e+04) / $v_T)]
    [Asn v_Kc 0 (#1.8304728359999995e+01 + #(-8.7183506599999987e+00) * $v_logT + $v_T * (#(-1.9168243049999999e-02) + $v_T * (#2.3842776083333332e-06 + $v_T * (#(-1.7804171583333334e-10) + #3.5430462500000001e-15 * $v_T))) - #(-9.9042919399999992e+03) / $v_T)];
  (*2451*) If ($v_T) (#1390.0)
    [AddA v_Kc 0 (#3.1812380765000000e+01 + #(-1.2048714650000001e+00) * $v_logT + $v_T * (#3.4190063600000001e-02 + $v_T * (#(-6.9074651999999995e-06) + $v_T * (#1.0512983500000000e-09 + #(-7.6560028999999992e-14) * $v_T))) - #1.8328039300000000e+03 / $v_T)]
    [AddA v_Kc 0 (#(-8.8987641300000007e+01) + #1.7538547000000001e+01 * $v_logT + $v_T * (#1.4155398099999999e-02 + $v_T * (#(-1.6088454099999999e-06) + $v_T * (#1.2462298750000000e-10 + #(-4.3316803200000002e-15) * $v_T))) - #(-5.0929904100000003e+03) / $v_T)];
  (*2457*) Do (Asn v_Kc 0 (#8.2057360967184814e-02 * (Exp $v_Kc)));
  (*2458*) Do (Asn v_rev_rxn_rates 198 (v_C.[35] * $v_kf / $v_Kc));
  (*2461*) Do (Asn v_kf 0 ((Exp (#2.3311029872174121e+01 - #1.6408480351362714e+03 / $v_T))));
  (*2462*) Do (Asn v_fwd_rxn_rates 201 (v_C.[1] * v_C.[36] * $v_kf));
  (*2463*) If ($v_T) (#1000.0)
    [Asn v_Kc 0 (#2.9466828530000000e+00 + #(-1.5000000000000000e+00) * $v_logT + $v_T * (#(-3.5266640949999999e-13) + $v_T * (#3.3265327333333333e-16 + $v_T * (#(-1.9173469333333331e-19) + #4.6386616600000003e-23 * $v_T))) - #(-2.5473659899999999e+04) / $v_T)]
    [Asn v_Kc 0 (#2.9466829240000001e+00 + #(-1.5000000099999999e+00) * $v_logT + $v_T * (#1.1542148649999999e-11 + $v_T * (#(-2.6926991333333336e-15) + $v_T * (#3.9459602916666671e-19 + #(-2.4909867850000001e-23) * $v_T))) - #(-2.5473659899999999e+04) / $v_T)];
  (*2469*) If ($v_T) (#1392.0)
    [AddA v_Kc 0 (#(-4.0184008689999999e+01) + #2.6772054900000000e+00 * $v_logT + $v_T * (#(-4.1230580050000000e-02) + $v_T * (#9.1084017999999997e-06 + $v_T * (#(-1.5655191916666667e-09) + #1.3286899149999999e-13 * $v_T))) - #1.0216860100000000e+04 / $v_T)]
    [AddA v_Kc 0 (#1.0552891470000000e+02 + #(-2.0089803900000000e+01) * $v_logT + $v_T * (#(-1.5530393900000000e-02) + $v_T * (#1.7607465499999998e-06 + $v_T * (#(-1.3617148333333333e-10) + #4.7279910950000003e-15 * $v_T))) - #1.8326006500000000e+04 / $v_T)];
  (*2475*) If ($v_T) (#1390.0)
    [AddA v_Kc 0 (#3.5155971505999993e+01 + #(-1.4995704060000001e+00) * $v_logT + $v_T * (#4.0441323350000002e-02 + $v_T * (#(-8.3422125666666670e-06) + $v_T * (#1.3045775666666668e-09 + #(-9.8308113500000002e-14) * $v_T))) - #(-1.0459022299999999e+03) / $v_T)]
    [AddA v_Kc 0 (#(-1.0828950200000000e+02) + #2.0794070900000001e+01 * $v_logT + $v_T * (#1.6314012150000001e-02 + $v_T * (#(-1.8523040666666668e-06) + $v_T * (#1.4338929000000000e-10 + #(-4.9818349949999998e-15) * $v_T))) - #(-9.2093822099999998e+03) / $v_T)];
  (*2481*) Do (Asn v_Kc 0 (#8.2057360967184814e-02 * (Exp $v_Kc)));
  (*2482*) Do (Asn v_rev_rxn_rates 199 (v_C.[37] * $v_kf / $v_Kc));
  (*2485*) Do (Asn v_kf 0 ((Exp (#4.3525973215572655e+01 - #2.39 * $v_logT - #5.6259947351254386e+03 / $v_T))));
  (*2486*) Do (Asn v_fwd_rxn_rates 202 (v_C.[1] * v_C.[36] * $v_kf));
  (*2487*) If ($v_T) (#1000.0)
    [Asn v_Kc 0 (#3.0848123329999999e+00 + #1.4592014799999999e+00 * $v_logT + $v_T * (#(-3.7852612353526664e-03) + $v_T * (#9.5165048669993201e-06 + $v_T * (#(-5.7632396085250677e-09) + #1.3494218650463866e-12 * $v_T))) - #(-2.0383883969999999e+04) / $v_T)]
    [Asn v_Kc 0 (#1.1215941064000003e+01 + #(-4.6388885000000002e-01) * $v_logT + $v_T * (#7.3227075615421482e-03 + $v_T * (#(-1.1184631943593659e-06) + $v_T * (#1.2268576956126270e-10 + #(-6.2853030749098679e-15) * $v_T))) - #(-2.0533773760000000e+04) / $v_T)];
  (*2493*) If ($v_T) (#1392.0)
    [AddA v_Kc 0 (#(-4.0184008689999999e+01) + #2.6772054900000000e+00 * $v_logT + $v_T * (#(-4.1230580050000000e-02) + $v_T * (#9.1084017999999997e-06 + $v_T * (#(-1.5655191916666667e-09) + #1.3286899149999999e-13 * $v_T))) - #1.0216860100000000e+04 / $v_T)]
    [AddA v_Kc 0 (#1.0552891470000000e+02 + #(-2.0089803900000000e+01) * $v_logT + $v_T * (#(-1.5530393900000000e-02) + $v_T * (#1.7607465499999998e-06 + $v_T * (#(-1.3617148333333333e-10) + #4.7279910950000003e-15 * $v_T))) - #1.8326006500000000e+04 / $v_T)];
  (*2499*) If ($v_T) (#1390.0)
    [AddA v_Kc 0 (#2.8671428191900002e+01 + #(-9.4756159190000000e-01) * $v_logT + $v_T * (#2.8039847900000001e-02 + $v_T * (#(-5.5257633833333341e-06) + $v_T * (#8.1461148416666665e-10 + #(-5.7004829999999998e-14) * $v_T))) - #4.7161145999999999e+03 / $v_T)]
    [AddA v_Kc 0 (#(-6.9780673899999996e+01) + #1.4297744600000000e+01 * $v_logT + $v_T * (#1.1986765500000000e-02 + $v_T * (#(-1.3639882466666667e-06) + $v_T * (#1.0573589666666666e-10 + #(-3.6770452750000001e-15) * $v_T))) - #(-9.8071230700000001e+02) / $v_T)];
  (*2505*) Do (Asn v_Kc 0 (#1.0000000000000000e+00 * (Exp $v_Kc)));
  (*2506*) Do (Asn v_rev_rxn_rates 200 (v_C.[33] * v_C.[20] * $v_kf / $v_Kc));
  (*2509*) Do (Asn v_kf 0 ((Exp (#4.4219120396132602e+01 - #2.39 * $v_logT - #5.6259947351254386e+03 / $v_T))));
  (*2510*) Do (Asn v_fwd_rxn_rates 203 (v_C.[1] * v_C.[36] * $v_kf));
  (*2511*) If ($v_T) (#1000.0)
    [Asn v_Kc 0 (#3.8559279652999997e+01 + #(-7.9798880000000016e-01) * $v_logT + $v_T * (#2.9611338499647335e-02 + $v_T * (#(-4.6320948300068007e-07) + $v_T * (#(-2.6764722501917349e-09) + #7.9220447504638659e-13 * $v_T))) - #(-1.7076729899999998e+04) / $v_T)]
    [Asn v_Kc 0 (#(-4.3672910575999992e+01) + #1.1914496489999998e+01 * $v_logT + $v_T * (#1.9299705511542149e-02 + $v_T * (#(-2.0907975860260322e-06) + $v_T * (#1.1545613039459604e-10 + #8.5915477509013228e-16 * $v_T))) - #(-2.1432824399999998e+04) / $v_T)];
  (*2517*) If ($v_T) (#1392.0)
    [AddA v_Kc 0 (#(-4.0184008689999999e+01) + #2.6772054900000000e+00 * $v_logT + $v_T * (#(-4.1230580050000000e-02) + $v_T * (#9.1084017999999997e-06 + $v_T * (#(-1.5655191916666667e-09) + #1.3286899149999999e-13 * $v_T))) - #1.0216860100000000e+04 / $v_T)]
    [AddA v_Kc 0 (#1.0552891470000000e+02 + #(-2.0089803900000000e+01) * $v_logT + $v_T * (#(-1.5530393900000000e-02) + $v_T * (#1.7607465499999998e-06 + $v_T * (#(-1.3617148333333333e-10) + #4.7279910950000003e-15 * $v_T))) - #1.8326006500000000e+04 / $v_T)];
  (*2523*) Do (Asn v_Kc 0 (#1.0000000000000000e+00 * (Exp $v_Kc)));
  (*2524*) Do (Asn v_rev_rxn_rates 201 (v_C.[25] * v_C.[30] * $v_kf / $v_Kc));
  (*2527*) Do (Asn v_kf 0 ((Exp (#1.9519293032620475e+01 - #3.6735028234718870e+03 / $v_T))));
  (*2528*) Do (Asn v_fwd_rxn_rates 204 (v_C.[33] * v_C.[20] * $v_kf));
  (*2529*) If ($v_T) (#1000.0)
    [Asn v_Kc 0 (#(-1.3812947999999992e-01) + #(-2.9592014799999999e+00) * $v_logT + $v_T * (#3.7852612350000002e-03 + $v_T * (#(-9.5165048666666665e-06) + $v_T * (#5.7632396083333330e-09 + #(-1.3494218650000001e-12) * $v_T))) - #(-5.0897759299999998e+03) / $v_T)]
    [Asn v_Kc 0 (#(-8.2692581400000016e+00) + #(-1.0361111599999999e+00) * $v_logT + $v_T * (#(-7.3227075499999999e-03) + $v_T * (#1.1184631916666668e-06 + $v_T * (#(-1.2268576916666668e-10) + #6.2853030500000000e-15 * $v_T))) - #(-4.9398861399999996e+03) / $v_T)];
  (*2535*) If ($v_T) (#1390.0)
    [AddA v_Kc 0 (#6.4845433140999909e+00 + #(-5.5200881410000013e-01) * $v_logT + $v_T * (#1.2401475450000001e-02 + $v_T * (#(-2.8164491833333329e-06) + $v_T * (#4.8996608250000019e-10 + #(-4.1303283500000003e-14) * $v_T))) - #(-5.7620168299999996e+03) / $v_T)]
    [AddA v_Kc 0 (#(-3.8508828100000002e+01) + #6.4963263000000016e+00 * $v_logT + $v_T * (#4.3272466500000016e-03 + $v_T * (#(-4.8831582000000005e-07) + $v_T * (#3.7653393333333335e-11 + #(-1.3047897199999997e-15) * $v_T))) - #(-8.2286699030000000e+03) / $v_T)];
  (*2541*) Do (Asn v_Kc 0 (#8.2057360967184814e-02 * (Exp $v_Kc)));
  (*2542*) Do (Asn v_rev_rxn_rates 202 (v_C.[37] * $v_kf / $v_Kc));
  (*2545*) Do (Asn v_kf 0 ((Exp (#2.3311029872174121e+01 - #1.6408480351362714e+03 / $v_T))));
  (*2546*) Do (Asn v_fwd_rxn_rates 205 (v_C.[1] * v_C.[38] * $v_kf));
  (*2547*) If ($v_T) (#1000.0)
    [Asn v_Kc 0 (#2.9466828530000000e+00 + #(-1.5000000000000000e+00) * $v_logT + $v_T * (#(-3.5266640949999999e-13) + $v_T * (#3.3265327333333333e-16 + $v_T * (#(-1.9173469333333331e-19) + #4.6386616600000003e-23 * $v_T))) - #(-2.5473659899999999e+04) / $v_T)]
    [Asn v_Kc 0 (#2.9466829240000001e+00 + #(-1.5000000099999999e+00) * $v_logT + $v_T * (#1.1542148649999999e-11 + $v_T * (#(-2.6926991333333336e-15) + $v_T * (#3.9459602916666671e-19 + #(-2.4909867850000001e-23) * $v_T))) - #(-2.5473659899999999e+04) / $v_T)];
  (*2553*) If ($v_T) (#1392.0)
    [AddA v_Kc 0 (#(-4.3080167249999995e+01) + #2.8922691499999997e+00 * $v_logT + $v_T * (#(-4.7303317849999998e-02) + $v_T * (#1.0456425350000001e-05 + $v_T * (#(-1.7929859083333332e-09) + #1.5135934150000002e-13 * $v_T))) - #1.3107455900000001e+04 / $v_T)]
    [AddA v_Kc 0 (#1.2489172850000000e+02 + #(-2.3354012500000000e+01) * $v_logT + $v_T * (#(-1.7683323099999999e-02) + $v_T * (#2.0034731333333335e-06 + $v_T * (#(-1.5487921083333335e-10) + #5.3761130999999999e-15 * $v_T))) - #2.2448567400000000e+04 / $v_T)];
  (*2559*) If ($v_T) (#1390.0)
    [AddA v_Kc 0 (#3.8385822537999999e+01 + #(-1.7727594380000000e+00) * $v_logT + $v_T * (#4.6627485250000003e-02 + $v_T * (#(-9.7407874166666667e-06) + $v_T * (#1.5464184499999998e-09 + #(-1.1856374150000001e-13) * $v_T))) - #(-3.9268951099999999e+03) / $v_T)]
    [AddA v_Kc 0 (#(-1.2760841959999999e+02) + #2.4051035599999999e+01 * $v_logT + $v_T * (#1.8474008100000001e-02 + $v_T * (#(-2.0960877333333333e-06) + $v_T * (#1.6219034083333331e-10 + #(-5.6334449000000002e-15) * $v_T))) - #(-1.3330053500000000e+04) / $v_T)];
  (*2565*) Do (Asn v_Kc 0 (#8.2057360967184814e-02 * (Exp $v_Kc)));
  (*2566*) Do (Asn v_rev_rxn_rates 203 (v_C.[39] * $v_kf / $v_Kc));
  (*2569*) Do (Asn v_kf 0 ((Exp (#4.3525973215572655e+01 - #2.39 * $v_logT - #5.6259947351254386e+03 / $v_T))));
  (*2570*) Do (Asn v_fwd_rxn_rates 206 (v_C.[1] * v_C.[38] * $v_kf));
  (*2571*) If ($v_T) (#1000.0)
    [Asn v_Kc 0 (#3.0848123329999999e+00 + #1.4592014799999999e+00 * $v_logT + $v_T * (#(-3.7852612353526664e-03) + $v_T * (#9.5165048669993201e-06 + $v_T * (#(-5.7632396085250677e-09) + #1.3494218650463866e-12 * $v_T))) - #(-2.0383883969999999e+04) / $v_T)]
    [Asn v_Kc 0 (#1.1215941064000003e+01 + #(-4.6388885000000002e-01) * $v_logT + $v_T * (#7.3227075615421482e-03 + $v_T * (#(-1.1184631943593659e-06) + $v_T * (#1.2268576956126270e-10 + #(-6.2853030749098679e-15) * $v_T))) - #(-2.0533773760000000e+04) / $v_T)];
  (*2577*) If ($v_T) (#1392.0)
    [AddA v_Kc 0 (#(-4.3080167249999995e+01) + #2.8922691499999997e+00 * $v_logT + $v_T * (#(-4.7303317849999998e-02) + $v_T * (#1.0456425350000001e-05 + $v_T * (#(-1.7929859083333332e-09) + #1.5135934150000002e-13 * $v_T))) - #1.3107455900000001e+04 / $v_T)]
    [AddA v_Kc 0 (#1.2489172850000000e+02 + #(-2.3354012500000000e+01) * $v_logT + $v_T * (#(-1.7683323099999999e-02) + $v_T * (#2.0034731333333335e-06 + $v_T * (#(-1.5487921083333335e-10) + #5.3761130999999999e-15 * $v_T))) - #2.2448567400000000e+04 / $v_T)];
  (*2583*) If ($v_T) (#1390.0)
    [AddA v_Kc 0 (#3.1812380765000000e+01 + #(-1.2048714650000001e+00) * $v_logT + $v_T * (#3.4190063600000001e-02 + $v_T * (#(-6.9074651999999995e-06) + $v_T * (#1.0512983500000000e-09 + #(-7.6560028999999992e-14) * $v_T))) - #1.8328039300000000e+03 / $v_T)]
    [AddA v_Kc 0 (#(-8.8987641300000007e+01) + #1.7538547000000001e+01 * $v_logT + $v_T * (#1.4155398099999999e-02 + $v_T * (#(-1.6088454099999999e-06) + $v_T * (#1.2462298750000000e-10 + #(-4.3316803200000002e-15) * $v_T))) - #(-5.0929904100000003e+03) / $v_T)];
  (*2589*) Do (Asn v_Kc 0 (#1.0000000000000000e+00 * (Exp $v_Kc)));
  (*2590*) Do (Asn v_rev_rxn_rates 204 (v_C.[20] * v_C.[35] * $v_kf / $v_Kc));
  (*2593*) Do (Asn v_kf 0 ((Exp (#4.4219120396132602e+01 - #2.39 * $v_logT - #5.6259947351254386e+03 / $v_T))));
  (*2594*) Do (Asn v_fwd_rxn_rates 207 (v_C.[1] * v_C.[38] * $v_kf));
  (*2595*) If ($v_T) (#1000.0)
    [Asn v_Kc 0 (#1.7598715853000002e+01 + #(-1.0066930000000001e+00) * $v_logT + $v_T * (#1.0462589999647335e-02 + $v_T * (#7.4779900033265328e-07 + $v_T * (#(-1.3907600001917347e-09) + #3.5790730004638663e-13 * $v_T))) - #(-2.4398833899999998e+04) / $v_T)]
    [Asn v_Kc 0 (#(-1.7098924075999999e+01) + #4.2322569899999998e+00 * $v_logT + $v_T * (#7.4541700115421487e-03 + $v_T * (#(-8.2498316935936567e-07) + $v_T * (#6.0100183727929369e-11 + #(-1.8831020249098677e-15) * $v_T))) - #(-2.6397230199999998e+04) / $v_T)];
  (*2601*) If ($v_T) (#1392.0)
    [AddA v_Kc 0 (#(-4.3080167249999995e+01) + #2.8922691499999997e+00 * $v_logT + $v_T * (#(-4.7303317849999998e-02) + $v_T * (#1.0456425350000001e-05 + $v_T * (#(-1.7929859083333332e-09) + #1.5135934150000002e-13 * $v_T))) - #1.3107455900000001e+04 / $v_T)]
    [AddA v_Kc 0 (#1.2489172850000000e+02 + #(-2.3354012500000000e+01) * $v_logT + $v_T * (#(-1.7683323099999999e-02) + $v_T * (#2.0034731333333335e-06 + $v_T * (#(-1.5487921083333335e-10) + #5.3761130999999999e-15 * $v_T))) - #2.2448567400000000e+04 / $v_T)];
  (*2607*) If ($v_T) (#1390.0)
    [AddA v_Kc 0 (#2.8671428191900002e+01 + #(-9.4756159190000000e-01) * $v_logT + $v_T * (#2.8039847900000001e-02 + $v_T * (#(-5.5257633833333341e-06) + $v_T * (#8.1461148416666665e-10 + #(-5.7004829999999998e-14) * $v_T))) - #4.7161145999999999e+03 / $v_T)]
    [AddA v_Kc 0 (#(-6.9780673899999996e+01) + #1.4297744600000000e+01 * $v_logT + $v_T * (#1.1986765500000000e-02 + $v_T * (#(-1.3639882466666667e-06) + $v_T * (#1.0573589666666666e-10 + #(-3.6770452750000001e-15) * $v_T))) - #(-9.8071230700000001e+02) / $v_T)];
  (*2613*) Do (Asn v_Kc 0 (#1.0000000000000000e+00 * (Exp $v_Kc)));
  (*2614*) Do (Asn v_rev_rxn_rates 205 (v_C.[25] * v_C.[33] * $v_kf / $v_Kc));
  (*2617*) Do (Asn v_kf 0 ((Exp (#1.9519293032620475e+01 - #3.6735028234718870e+03 / $v_T))));
  (*2618*) Do (Asn v_fwd_rxn_rates 208 (v_C.[20] * v_C.[35] * $v_kf));
  (*2619*) If ($v_T) (#1000.0)
    [Asn v_Kc 0 (#(-1.3812947999999992e-01) + #(-2.9592014799999999e+00) * $v_logT + $v_T * (#3.7852612350000002e-03 + $v_T * (#(-9.5165048666666665e-06) + $v_T * (#5.7632396083333330e-09 + #(-1.3494218650000001e-12) * $v_T))) - #(-5.0897759299999998e+03) / $v_T)]
    [Asn v_Kc 0 (#(-8.2692581400000016e+00) + #(-1.0361111599999999e+00) * $v_logT + $v_T * (#(-7.3227075499999999e-03) + $v_T * (#1.1184631916666668e-06 + $v_T * (#(-1.2268576916666668e-10) + #6.2853030500000000e-15 * $v_T))) - #(-4.9398861399999996e+03) / $v_T)];
  (*2625*) If ($v_T) (#1390.0)
    [AddA v_Kc 0 (#6.5734417729999990e+00 + #(-5.6788797299999993e-01) * $v_logT + $v_T * (#1.2437421650000002e-02 + $v_T * (#(-2.8333222166666672e-06) + $v_T * (#4.9512009999999987e-10 + #(-4.2003712500000020e-14) * $v_T))) - #(-5.7596990399999995e+03) / $v_T)]
    [AddA v_Kc 0 (#(-3.8620778299999984e+01) + #6.5124885999999975e+00 * $v_logT + $v_T * (#4.3186100000000022e-03 + $v_T * (#(-4.8724232333333338e-07) + $v_T * (#3.7567353333333310e-11 + #(-1.3017645800000000e-15) * $v_T))) - #(-8.2370630899999996e+03) / $v_T)];
  (*2631*) Do (Asn v_Kc 0 (#8.2057360967184814e-02 * (Exp $v_Kc)));
  (*2632*) Do (Asn v_rev_rxn_rates 206 (v_C.[39] * $v_kf / $v_Kc));
  (*2635*) Do (Asn v_kf 0 ((Exp (#2.3311029872174121e+01 - #1.6408480351362714e+03 / $v_T))));
  (*2636*) Do (Asn v_fwd_rxn_rates 209 (v_C.[1] * v_C.[40] * $v_kf));
  (*2637*) If ($v_T) (#1000.0)
    [Asn v_Kc 0 (#2.9466828530000000e+00 + #(-1.5000000000000000e+00) * $v_logT + $v_T * (#(-3.5266640949999999e-13) + $v_T * (#3.3265327333333333e-16 + $v_T * (#(-1.9173469333333331e-19) + #4.6386616600000003e-23 * $v_T))) - #(-2.5473659899999999e+04) / $v_T)]
    [Asn v_Kc 0 (#2.9466829240000001e+00 + #(-1.5000000099999999e+00) * $v_logT + $v_T * (#1.1542148649999999e-11 + $v_T * (#(-2.6926991333333336e-15) + $v_T * (#3.9459602916666671e-19 + #(-2.4909867850000001e-23) * $v_T))) - #(-2.5473659899999999e+04) / $v_T)];
  (*2643*) If ($v_T) (#1392.0)
    [AddA v_Kc 0 (#(-4.6285595430000001e+01) + #3.1610826300000001e+00 * $v_logT + $v_T * (#(-5.3479148499999997e-02) + $v_T * (#1.1849554066666667e-05 + $v_T * (#(-2.0330923083333334e-09) + #1.7138577350000000e-13 * $v_T))) - #1.5989084699999999e+04 / $v_T)]
    [AddA v_Kc 0 (#1.4423284060000000e+02 + #(-2.6614217600000000e+01) * $v_logT + $v_T * (#(-1.9841264349999999e-02) + $v_T * (#2.2469907666666666e-06 + $v_T * (#(-1.7365871000000002e-10) + #6.0269646999999996e-15 * $v_T))) - #2.6570906100000000e+04 / $v_T)];
  (*2649*) If ($v_T) (#1390.0)
    [AddA v_Kc 0 (#4.3395772119999997e+01 + #(-2.0438729200000001e+00) * $v_logT + $v_T * (#5.2808641500000003e-02 + $v_T * (#(-1.1136666183333334e-05) + $v_T * (#1.7873847166666667e-09 + #(-1.3870213750000000e-13) * $v_T))) - #(-6.8081851200000001e+03) / $v_T)]
    [AddA v_Kc 0 (#(-1.4514764840000001e+02) + #2.7309751400000000e+01 * $v_logT + $v_T * (#2.0632867199999998e-02 + $v_T * (#(-2.3397214833333332e-06) + $v_T * (#1.8097905916666667e-10 + #(-6.2846153499999992e-15) * $v_T))) - #(-1.7451602999999999e+04) / $v_T)];
  (*2655*) Do (Asn v_Kc 0 (#8.2057360967184814e-02 * (Exp $v_Kc)));
  (*2656*) Do (Asn v_rev_rxn_rates 207 (v_C.[41] * $v_kf / $v_Kc));
  (*2659*) Do (Asn v_kf 0 ((Exp (#4.3525973215572655e+01 - #2.39 * $v_logT - #5.6259947351254386e+03 / $v_T))));
  (*2660*) Do (Asn v_fwd_rxn_rates 210 (v_C.[1] * v_C.[40] * $v_kf));
  (*2661*) If ($v_T) (#1000.0)
    [Asn v_Kc 0 (#3.0848123329999999e+00 + #1.4592014799999999e+00 * $v_logT + $v_T * (#(-3.7852612353526664e-03) + $v_T * (#9.5165048669993201e-06 + $v_T * (#(-5.7632396085250677e-09) + #1.3494218650463866e-12 * $v_T))) - #(-2.0383883969999999e+04) / $v_T)]
    [Asn v_Kc 0 (#1.1215941064000003e+01 + #(-4.6388885000000002e-01) * $v_logT + $v_T * (#7.3227075615421482e-03 + $v_T * (#(-1.1184631943593659e-06) + $v_T * (#1.2268576956126270e-10 + #(-6.2853030749098679e-15) * $v_T))) - #(-2.0533773760000000e+04) / $v_T)];
  (*2667*) If ($v_T) (#1392.0)
    [AddA v_Kc 0 (#(-4.6285595430000001e+01) + #3.1610826300000001e+00 * $v_logT + $v_T * (#(-5.3479148499999997e-02) + $v_T * (#1.1849554066666667e-05 + $v_T * (#(-2.0330923083333334e-09) + #1.7138577350000000e-13 * $v_T))) - #1.5989084699999999e+04 / $v_T)]
    [AddA v_Kc 0 (#1.4423284060000000e+02 + #(-2.6614217600000000e+01) * $v_logT + $v_T * (#(-1.9841264349999999e-02) + $v_T * (#2.2469907666666666e-06 + $v_T * (#(-1.7365871000000002e-10) + #6.0269646999999996e-15 * $v_T))) - #2.6570906100000000e+04 / $v_T)];
  (*2673*) If ($v_T) (#1390.0)
    [AddA v_Kc 0 (#3.5155971505999993e+01 + #(-1.4995704060000001e+00) * $v_logT + $v_T * (#4.0441323350000002e-02 + $v_T * (#(-8.3422125666666670e-06) + $v_T * (#1.3045775666666668e-09 + #(-9.8308113500000002e-14) * $v_T))) - #(-1.0459022299999999e+03) / $v_T)]
    [AddA v_Kc 0 (#(-1.0828950200000000e+02) + #2.0794070900000001e+01 * $v_logT + $v_T * (#1.6314012150000001e-02 + $v_T * (#(-1.8523040666666668e-06) + $v_T * (#1.4338929000000000e-10 + #(-4.9818349949999998e-15) * $v_T))) - #(-9.2093822099999998e+03) / $v_T)];
  (*2679*) Do (Asn v_Kc 0 (#1.0000000000000000e+00 * (Exp $v_Kc)));
  (*2680*) Do (Asn v_rev_rxn_rates 208 (v_C.[20] * v_C.[37] * $v_kf / $v_Kc));
  (*2683*) Do (Asn v_kf 0 ((Exp (#4.4219120396132602e+01 - #2.39 * $v_logT - #5.6259947351254386e+03 / $v_T))));
  (*2684*) Do (Asn v_fwd_rxn_rates 211 (v_C.[1] * v_C.[40] * $v_kf));
  (*2685*) If ($v_T) (#1000.0)
    [Asn v_Kc 0 (#1.7598715853000002e+01 + #(-1.0066930000000001e+00) * $v_logT + $v_T * (#1.0462589999647335e-02 + $v_T * (#7.4779900033265328e-07 + $v_T * (#(-1.3907600001917347e-09) + #3.5790730004638663e-13 * $v_T))) - #(-2.4398833899999998e+04) / $v_T)]
    [Asn v_Kc 0 (#(-1.7098924075999999e+01) + #4.2322569899999998e+00 * $v_logT + $v_T * (#7.4541700115421487e-03 + $v_T * (#(-8.2498316935936567e-07) + $v_T * (#6.0100183727929369e-11 + #(-1.8831020249098677e-15) * $v_T))) - #(-2.6397230199999998e+04) / $v_T)];
  (*2691*) If ($v_T) (#1392.0)
    [AddA v_Kc 0 (#(-4.6285595430000001e+01) + #3.1610826300000001e+00 * $v_logT + $v_T * (#(-5.3479148499999997e-02) + $v_T * (#1.1849554066666667e-05 + $v_T * (#(-2.0330923083333334e-09) + #1.7138577350000000e-13 * $v_T))) - #1.5989084699999999e+04 / $v_T)]
    [AddA v_Kc 0 (#1.4423284060000000e+02 + #(-2.6614217600000000e+01) * $v_logT + $v_T * (#(-1.9841264349999999e-02) + $v_T * (#2.2469907666666666e-06 + $v_T * (#(-1.7365871000000002e-10) + #6.0269646999999996e-15 * $v_T))) - #2.6570906100000000e+04 / $v_T)];
  (*2697*) If ($v_T) (#1390.0)
    [AddA v_Kc 0 (#3.1812380765000000e+01 + #(-1.2048714650000001e+00) * $v_logT + $v_T * (#3.4190063600000001e-02 + $v_T * (#(-6.9074651999999995e-06) + $v_T * (#1.0512983500000000e-09 + #(-7.6560028999999992e-14) * $v_T))) - #1.8328039300000000e+03 / $v_T)]
    [AddA v_Kc 0 (#(-8.8987641300000007e+01) + #1.7538547000000001e+01 * $v_logT + $v_T * (#1.4155398099999999e-02 + $v_T * (#(-1.6088454099999999e-06) + $v_T * (#1.2462298750000000e-10 + #(-4.3316803200000002e-15) * $v_T))) - #(-5.0929904100000003e+03) / $v_T)];
  (*2703*) Do (Asn v_Kc 0 (#1.0000000000000000e+00 * (Exp $v_Kc)));
  (*2704*) Do (Asn v_rev_rxn_rates 209 (v_C.[25] * v_C.[35] * $v_kf / $v_Kc));
  (*2707*) Do (Asn v_kf 0 ((Exp (#1.9519293032620475e+01 - #3.6735028234718870e+03 / $v_T))));
  (*2708*) Do (Asn v_fwd_rxn_rates 212 (v_C.[20] * v_C.[37] * $v_kf));
  (*2709*) If ($v_T) (#1000.0)
    [Asn v_Kc 0 (#(-1.3812947999999992e-01) + #(-2.9592014799999999e+00) * $v_logT + $v_T * (#3.7852612350000002e-03 + $v_T * (#(-9.5165048666666665e-06) + $v_T * (#5.7632396083333330e-09 + #(-1.3494218650000001e-12) * $v_T))) - #(-5.0897759299999998e+03) / $v_T)]
    [Asn v_Kc 0 (#(-8.2692581400000016e+00) + #(-1.0361111599999999e+00) * $v_logT + $v_T * (#(-7.3227075499999999e-03) + $v_T * (#1.1184631916666668e-06 + $v_T * (#(-1.2268576916666668e-10) + #6.2853030500000000e-15 * $v_T))) - #(-4.9398861399999996e+03) / $v_T)];
  (*2715*) If ($v_T) (#1390.0)
    [AddA v_Kc 0 (#8.2398006140000035e+00 + #(-5.4430251399999996e-01) * $v_logT + $v_T * (#1.2367318150000001e-02 + $v_T * (#(-2.7944536166666670e-06) + $v_T * (#4.8280714999999983e-10 + #(-4.0394024000000000e-14) * $v_T))) - #(-5.7622828900000004e+03) / $v_T)]
    [AddA v_Kc 0 (#(-3.6858146400000010e+01) + #6.5156804999999984e+00 * $v_logT + $v_T * (#4.3188550499999971e-03 + $v_T * (#(-4.8741741666666644e-07) + $v_T * (#3.7589769166666669e-11 + #(-1.3027803549999994e-15) * $v_T))) - #(-8.2422207899999994e+03) / $v_T)];
  (*2721*) Do (Asn v_Kc 0 (#8.2057360967184814e-02 * (Exp $v_Kc)));
  (*2722*) Do (Asn v_rev_rxn_rates 210 (v_C.[41] * $v_kf / $v_Kc));
  (*2725*) Do (Asn v_kf 0 ((Exp (#2.3311029872174121e+01 - #1.6408480351362714e+03 / $v_T))));
  (*2726*) Do (Asn v_fwd_rxn_rates 213 (v_C.[42] * v_C.[1] * $v_kf));
  (*2727*) If ($v_T) (#1392.0)
    [Asn v_Kc 0 (#(-4.9486155179999997e+01) + #3.4290168799999998e+00 * $v_logT + $v_T * (#(-5.9652798999999999e-02) + $v_T * (#1.3241483750000001e-05 + $v_T * (#(-2.2728049666666667e-09) + #1.9135918650000000e-13 * $v_T))) - #1.8870836500000001e+04 / $v_T)]
    [Asn v_Kc 0 (#1.6358056230000000e+02 + #(-2.9875390299999999e+01) * $v_logT + $v_T * (#(-2.1998576299999999e-02) + $v_T * (#2.4904255000000001e-06 + $v_T * (#(-1.9243139833333331e-10) + #6.6775738500000002e-15 * $v_T))) - #3.0693730700000000e+04 / $v_T)];
  (*2733*) If ($v_T) (#1000.0)
    [AddA v_Kc 0 (#2.9466828530000000e+00 + #(-1.5000000000000000e+00) * $v_logT + $v_T * (#(-3.5266640949999999e-13) + $v_T * (#3.3265327333333333e-16 + $v_T * (#(-1.9173469333333331e-19) + #4.6386616600000003e-23 * $v_T))) - #(-2.5473659899999999e+04) / $v_T)]
    [AddA v_Kc 0 (#2.9466829240000001e+00 + #(-1.5000000099999999e+00) * $v_logT + $v_T * (#1.1542148649999999e-11 + $v_T * (#(-2.6926991333333336e-15) + $v_T * (#3.9459602916666671e-19 + #(-2.4909867850000001e-23) * $v_T))) - #(-2.5473659899999999e+04) / $v_T)];
  (*2739*) If ($v_T) (#1390.0)
    [AddA v_Kc 0 (#4.4814628679999998e+01 + #(-2.3135834800000001e+00) * $v_logT + $v_T * (#5.8986406499999998e-02 + $v_T * (#(-1.2530717983333334e-05) + $v_T * (#2.0277592166666667e-09 + #(-1.5876142600000001e-13) * $v_T))) - #(-9.6896754999999994e+03) / $v_T)]
    [AddA v_Kc 0 (#(-1.6627870200000001e+02) + #3.0569716000000000e+01 * $v_logT + $v_T * (#2.2790920150000001e-02 + $v_T * (#(-2.5832494166666668e-06) + $v_T * (#1.9975911083333332e-10 + #(-6.9354779500000000e-15) * $v_T))) - #(-2.1573783200000002e+04) / $v_T)];
  (*2745*) Do (Asn v_Kc 0 (#8.2057360967184814e-02 * (Exp $v_Kc)));
  (*2746*) Do (Asn v_rev_rxn_rates 211 (v_C.[43] * $v_kf / $v_Kc));
  (*2749*) Do (Asn v_kf 0 ((Exp (#4.3525973215572655e+01 - #2.39 * $v_logT - #5.6259947351254386e+03 / $v_T))));
  (*2750*) Do (Asn v_fwd_rxn_rates 214 (v_C.[42] * v_C.[1] * $v_kf));
  (*2751*) If ($v_T) (#1000.0)
    [Asn v_Kc 0 (#3.0848123329999999e+00 + #1.4592014799999999e+00 * $v_logT + $v_T * (#(-3.7852612353526664e-03) + $v_T * (#9.5165048669993201e-06 + $v_T * (#(-5.7632396085250677e-09) + #1.3494218650463866e-12 * $v_T))) - #(-2.0383883969999999e+04) / $v_T)]
    [Asn v_Kc 0 (#1.1215941064000003e+01 + #(-4.6388885000000002e-01) * $v_logT + $v_T * (#7.3227075615421482e-03 + $v_T * (#(-1.1184631943593659e-06) + $v_T * (#1.2268576956126270e-10 + #(-6.2853030749098679e-15) * $v_T))) - #(-2.0533773760000000e+04) / $v_T)];
  (*2757*) If ($v_T) (#1392.0)
    [AddA v_Kc 0 (#(-4.9486155179999997e+01) + #3.4290168799999998e+00 * $v_logT + $v_T * (#(-5.9652798999999999e-02) + $v_T * (#1.3241483750000001e-05 + $v_T * (#(-2.2728049666666667e-09) + #1.9135918650000000e-13 * $v_T))) - #1.8870836500000001e+04 / $v_T)]
    [AddA v_Kc 0 (#1.6358056230000000e+02 + #(-2.9875390299999999e+01) * $v_logT + $v_T * (#(-2.1998576299999999e-02) + $v_T * (#2.4904255000000001e-06 + $v_T * (#(-1.9243139833333331e-10) + #6.6775738500000002e-15 * $v_T))) - #3.0693730700000000e+04 / $v_T)];
  (*2763*) If ($v_T) (#1390.0)
    [AddA v_Kc 0 (#3.8385822537999999e+01 + #(-1.7727594380000000e+00) * $v_logT + $v_T * (#4.6627485250000003e-02 + $v_T * (#(-9.7407874166666667e-06) + $v_T * (#1.5464184499999998e-09 + #(-1.1856374150000001e-13) * $v_T))) - #(-3.9268951099999999e+03) / $v_T)]
    [AddA v_Kc 0 (#(-1.2760841959999999e+02) + #2.4051035599999999e+01 * $v_logT + $v_T * (#1.8474008100000001e-02 + $v_T * (#(-2.0960877333333333e-06) + $v_T * (#1.6219034083333331e-10 + #(-5.6334449000000002e-15) * $v_T))) - #(-1.3330053500000000e+04) / $v_T)];
  (*2769*) Do (Asn v_Kc 0 (#1.0000000000000000e+00 * (Exp $v_Kc)));
  (*2770*) Do (Asn v_rev_rxn_rates 212 (v_C.[39] * v_C.[20] * $v_kf / $v_Kc));
  (*2773*) Do (Asn v_kf 0 ((Exp (#4.4219120396132602e+01 - #2.39 * $v_logT - #5.6259947351254386e+03 / $v_T))));
  (*2774*) Do (Asn v_fwd_rxn_rates 215 (v_C.[42] * v_C.[1] * $v_kf));
  (*2775*) If ($v_T) (#1000.0)
    [Asn v_Kc 0 (#1.7598715853000002e+01 + #(-1.0066930000000001e+00) * $v_logT + $v_T * (#1.0462589999647335e-02 + $v_T * (#7.4779900033265328e-07 + $v_T * (#(-1.3907600001917347e-09) + #3.5790730004638663e-13 * $v_T))) - #(-2.4398833899999998e+04) / $v_T)]
    [Asn v_Kc 0 (#(-1.7098924075999999e+01) + #4.2322569899999998e+00 * $v_logT + $v_T * (#7.4541700115421487e-03 + $v_T * (#(-8.2498316935936567e-07) + $v_T * (#6.0100183727929369e-11 + #(-1.8831020249098677e-15) * $v_T))) - #(-2.6397230199999998e+04) / $v_T)];
  (*2781*) If ($v_T) (#1392.0)
    [AddA v_Kc 0 (#(-4.9486155179999997e+01) + #3.4290168799999998e+00 * $v_logT + $v_T * (#(-5.9652798999999999e-02) + $v_T * (#1.3241483750000001e-05 + $v_T * (#(-2.2728049666666667e-09) + #1.9135918650000000e-13 * $v_T))) - #1.8870836500000001e+04 / $v_T)]
    [AddA v_Kc 0 (#1.6358056230000000e+02 + #(-2.9875390299999999e+01) * $v_logT + $v_T * (#(-2.1998576299999999e-02) + $v_T * (#2.4904255000000001e-06 + $v_T * (#(-1.9243139833333331e-10) + #6.6775738500000002e-15 * $v_T))) - #3.0693730700000000e+04 / $v_T)];
  (*2787*) If ($v_T) (#1390.0)
    [AddA v_Kc 0 (#3.5155971505999993e+01 + #(-1.4995704060000001e+00) * $v_logT + $v_T * (#4.0441323350000002e-02 + $v_T * (#(-8.3422125666666670e-06) + $v_T * (#1.3045775666666668e-09 + #(-9.8308113500000002e-14) * $v_T))) - #(-1.0459022299999999e+03) / $v_T)]
    [AddA v_Kc 0 (#(-1.0828950200000000e+02) + #2.0794070900000001e+01 * $v_logT + $v_T * (#1.6314012150000001e-02 + $v_T * (#(-1.8523040666666668e-06) + $v_T * (#1.4338929000000000e-10 + #(-4.9818349949999998e-15) * $v_T))) - #(-9.2093822099999998e+03) / $v_T)];
  (*2793*) Do (Asn v_Kc 0 (#1.0000000000000000e+00 * (Exp $v_Kc)));
  (*2794*) Do (Asn v_rev_rxn_rates 213 (v_C.[25] * v_C.[37] * $v_kf / $v_Kc));
  (*2797*) Do (Asn v_kf 0 ((Exp (#1.9519293032620475e+01 - #3.6735028234718870e+03 / $v_T))));
  (*2798*) Do (Asn v_fwd_rxn_rates 216 (v_C.[39] * v_C.[20] * $v_kf));
  (*2799*) If ($v_T) (#1000.0)
    [Asn v_Kc 0 (#(-1.3812947999999992e-01) + #(-2.9592014799999999e+00) * $v_logT + $v_T * (#3.7852612350000002e-03 + $v_T * (#(-9.5165048666666665e-06) + $v_T * (#5.7632396083333330e-09 + #(-1.3494218650000001e-12) * $v_T))) - #(-5.0897759299999998e+03) / $v_T)]
    [Asn v_Kc 0 (#(-8.2692581400000016e+00) + #(-1.0361111599999999e+00) * $v_logT + $v_T * (#(-7.3227075499999999e-03) + $v_T * (#1.1184631916666668e-06 + $v_T * (#(-1.2268576916666668e-10) + #6.2853030500000000e-15 * $v_T))) - #(-4.9398861399999996e+03) / $v_T)];
  (*2805*) If ($v_T) (#1390.0)
    [AddA v_Kc 0 (#6.4288061419999991e+00 + #(-5.4082404200000012e-01) * $v_logT + $v_T * (#1.2358921249999995e-02 + $v_T * (#(-2.7899305666666669e-06) + $v_T * (#4.8134076666666689e-10 + #(-4.0197684499999993e-14) * $v_T))) - #(-5.7627803899999999e+03) / $v_T)]
    [AddA v_Kc 0 (#(-3.8670282400000019e+01) + #6.5186804000000009e+00 * $v_logT + $v_T * (#4.3169120499999998e-03 + $v_T * (#(-4.8716168333333350e-07) + $v_T * (#3.7568770000000007e-11 + #(-1.3020330499999998e-15) * $v_T))) - #(-8.2437297000000017e+03) / $v_T)];
  (*2811*) Do (Asn v_Kc 0 (#8.2057360967184814e-02 * (Exp $v_Kc)));
  (*2812*) Do (Asn v_rev_rxn_rates 214 (v_C.[43] * $v_kf / $v_Kc));
  (*2815*) Do (Asn v_kf 0 ((Exp (#3.8094124456400102e+01 - #3.5696835950457928e+04 / $v_T))));
  (*2816*) Do (Asn v_fwd_rxn_rates 217 (v_C.[48] * $v_kf));
  (*2817*) If ($v_T) (#1000.0)
    [Asn v_Kc 0 (#3.8878255099999997e+01 + #(-3.4190111000000001e+00) * $v_logT + $v_T * (#2.0215194499999999e-02 + $v_T * (#1.1300389833333333e-06 + $v_T * (#(-2.8103951666666668e-09) + #7.5583565000000005e-13 * $v_T))) - #2.8121887000000002e+03 / $v_T)]
    [Asn v_Kc 0 (#(-4.3264524999999999e+01) + #9.1386400000000005e+00 * $v_logT + $v_T * (#1.1357068999999999e-02 + $v_T * (#(-1.2985077166666666e-06) + $v_T * (#9.8971016666666667e-11 + #(-3.2966224000000003e-15) * $v_T))) - #(-1.7218359000000000e+03) / $v_T)];
  (*2823*) If ($v_T) (#1390.0)
    [AddA v_Kc 0 (#3.5155971505999993e+01 + #(-1.4995704060000001e+00) * $v_logT + $v_T * (#4.0441323350000002e-02 + $v_T * (#(-8.3422125666666670e-06) + $v_T * (#1.3045775666666668e-09 + #(-9.8308113500000002e-14) * $v_T))) - #(-1.0459022299999999e+03) / $v_T)]
    [AddA v_Kc 0 (#(-1.0828950200000000e+02) + #2.0794070900000001e+01 * $v_logT + $v_T * (#1.6314012150000001e-02 + $v_T * (#(-1.8523040666666668e-06) + $v_T * (#1.4338929000000000e-10 + #(-4.9818349949999998e-15) * $v_T))) - #(-9.2093822099999998e+03) / $v_T)];
  (*2829*) If ($v_T) (#1391.0)
    [AddA v_Kc 0 (#(-5.5879313809999999e+01) + #3.9634268100000001e+00 * $v_logT + $v_T * (#(-7.1996180000000007e-02) + $v_T * (#1.6023066916666668e-05 + $v_T * (#(-2.7514539416666670e-09) + #2.3119909500000001e-13 * $v_T))) - #2.4634529900000001e+04 / $v_T)]
    [AddA v_Kc 0 (#2.0229287410000001e+02 + #(-3.6400211100000000e+01) * $v_logT + $v_T * (#(-2.6311537650000001e-02) + $v_T * (#2.9770719833333333e-06 + $v_T * (#(-2.2995821916666667e-10) + #7.9781249499999995e-15 * $v_T))) - #3.8940596200000000e+04 / $v_T)];
  (*2835*) Do (Asn v_Kc 0 (#1.2186597134166982e+01 * (Exp $v_Kc)));
  (*2836*) Do (Asn v_rev_rxn_rates 215 (v_C.[31] * v_C.[37] * $v_kf / $v_Kc));
  (*2839*) Do (Asn v_kf 0 ((Exp (#1.9519293032620475e+01 - #3.6735028234718870e+03 / $v_T))));
  (*2840*) Do (Asn v_fwd_rxn_rates 218 (v_C.[20] * v_C.[43] * $v_kf));
  (*2841*) If ($v_T) (#1000.0)
    [Asn v_Kc 0 (#(-1.3812947999999992e-01) + #(-2.9592014799999999e+00) * $v_logT + $v_T * (#3.7852612350000002e-03 + $v_T * (#(-9.5165048666666665e-06) + $v_T * (#5.7632396083333330e-09 + #(-1.3494218650000001e-12) * $v_T))) - #(-5.0897759299999998e+03) / $v_T)]
    [Asn v_Kc 0 (#(-8.2692581400000016e+00) + #(-1.0361111599999999e+00) * $v_logT + $v_T * (#(-7.3227075499999999e-03) + $v_T * (#1.1184631916666668e-06 + $v_T * (#(-1.2268576916666668e-10) + #6.2853030500000000e-15 * $v_T))) - #(-4.9398861399999996e+03) / $v_T)];
  (*2847*) If ($v_T) (#1390.0)
    [AddA v_Kc 0 (#6.4059008300000002e+00 + #(-5.3670392999999983e-01) * $v_logT + $v_T * (#1.2348947500000006e-02 + $v_T * (#(-2.7845579333333322e-06) + $v_T * (#4.7960238333333328e-10 + #(-3.9965723999999993e-14) * $v_T))) - #(-5.7633680000000004e+03) / $v_T)]
    [AddA v_Kc 0 (#(-3.8696220499999981e+01) + #6.5224724999999992e+00 * $v_logT + $v_T * (#4.3144722499999996e-03 + $v_T * (#(-4.8684253333333347e-07) + $v_T * (#3.7542700000000015e-11 + #(-1.3011094500000004e-15) * $v_T))) - #(-8.2456542999999983e+03) / $v_T)];
  (*2853*) Do (Asn v_Kc 0 (#8.2057360967184814e-02 * (Exp $v_Kc)));
  (*2854*) Do (Asn v_rev_rxn_rates 216 (v_C.[45] * $v_kf / $v_Kc));
  (*2857*) Do (Asn v_kf 0 ((Exp (#2.8931212777995029e+01 - #0.6 * $v_logT - #7.2463617339719422e+03 / $v_T))));
  (*2858*) Do (Asn v_fwd_rxn_rates 219 (v_C.[45] * $v_kf));
  (*2859*) If ($v_T) (#1385.0)
    [Asn v_Kc 0 (#4.9720060390000000e+01 + #(-2.3678708899999998e+00) * $v_logT + $v_T * (#6.8677673999999994e-02 + $v_T * (#(-1.3734602633333332e-05) + $v_T * (#1.9701796833333333e-09 + #(-1.2371796600000000e-13) * $v_T))) - #(-1.6766053899999999e+04) / $v_T)]
    [Asn v_Kc 0 (#(-2.0377475980000003e+02) + #3.6968826800000002e+01 * $v_logT + $v_T * (#2.6935973200000001e-02 + $v_T * (#(-3.0361877166666668e-06) + $v_T * (#2.3397875249999998e-10 + #(-8.1054210000000005e-15) * $v_T))) - #(-3.1214498800000001e+04) / $v_T)];
  (*2865*) If ($v_T) (#1390.0)
    [AddA v_Kc 0 (#(-5.1220529509999999e+01) + #2.8502874100000000e+00 * $v_logT + $v_T * (#(-7.1335354000000004e-02) + $v_T * (#1.5315275916666666e-05 + $v_T * (#(-2.5073616000000000e-09) + #1.9872715000000000e-13 * $v_T))) - #1.5453043500000000e+04 / $v_T)]
    [AddA v_Kc 0 (#2.0497492249999999e+02 + #(-3.7092188499999999e+01) * $v_logT + $v_T * (#(-2.7105392400000001e-02) + $v_T * (#3.0700919500000003e-06 + $v_T * (#(-2.3730181083333333e-10) + #8.2365874000000005e-15 * $v_T))) - #2.9819437500000000e+04 / $v_T)];
  (*2871*) Do (Asn v_Kc 0 (#1.0000000000000000e+00 * (Exp $v_Kc)));
  (*2872*) Do (Asn v_rev_rxn_rates 217 (v_C.[47] * $v_kf / $v_Kc));
  (*2875*) Do (Asn v_kf 0 ((Exp (#1.9519293032620475e+01 - #3.6735028234718870e+03 / $v_T))));
  (*2876*) Do (Asn v_fwd_rxn_rates 220 (v_C.[25] * v_C.[41] * $v_kf));
  (*2877*) If ($v_T) (#1000.0)
    [Asn v_Kc 0 (#(-1.4652033000000001e+01) + #(-4.9330699999999994e-01) * $v_logT + $v_T * (#(-1.0462590000000001e-02) + $v_T * (#(-7.4779900000000004e-07) + $v_T * (#1.3907600000000001e-09 + #(-3.5790729999999999e-13) * $v_T))) - #(-1.0748260000000000e+03) / $v_T)]
    [Asn v_Kc 0 (#2.0045607000000000e+01 + #(-5.7322569999999997e+00) * $v_logT + $v_T * (#(-7.4541700000000004e-03) + $v_T * (#8.2498316666666656e-07 + $v_T * (#(-6.0100183333333340e-11) + #1.8831019999999998e-15 * $v_T))) - #9.2357029999999997e+02 / $v_T)];
  (*2883*) If ($v_T) (#1385.0)
    [AddA v_Kc 0 (#4.9720060390000000e+01 + #(-2.3678708899999998e+00) * $v_logT + $v_T * (#6.8677673999999994e-02 + $v_T * (#(-1.3734602633333332e-05) + $v_T * (#1.9701796833333333e-09 + #(-1.2371796600000000e-13) * $v_T))) - #(-1.6766053899999999e+04) / $v_T)]
    [AddA v_Kc 0 (#(-2.0377475980000003e+02) + #3.6968826800000002e+01 * $v_logT + $v_T * (#2.6935973200000001e-02 + $v_T * (#(-3.0361877166666668e-06) + $v_T * (#2.3397875249999998e-10 + #(-8.1054210000000005e-15) * $v_T))) - #(-3.1214498800000001e+04) / $v_T)];
  (*2889*) If ($v_T) (#1390.0)
    [AddA v_Kc 0 (#(-4.3395772119999997e+01) + #2.0438729200000001e+00 * $v_logT + $v_T * (#(-5.2808641500000003e-02) + $v_T * (#1.1136666183333334e-05 + $v_T * (#(-1.7873847166666667e-09) + #1.3870213750000000e-13 * $v_T))) - #6.8081851200000001e+03 / $v_T)]
    [AddA v_Kc 0 (#1.4514764840000001e+02 + #(-2.7309751400000000e+01) * $v_logT + $v_T * (#(-2.0632867199999998e-02) + $v_T * (#2.3397214833333332e-06 + $v_T * (#(-1.8097905916666667e-10) + #6.2846153499999992e-15 * $v_T))) - #1.7451602999999999e+04 / $v_T)];
  (*2895*) Do (Asn v_Kc 0 (#8.2057360967184814e-02 * (Exp $v_Kc)));
  (*2896*) Do (Asn v_rev_rxn_rates 218 (v_C.[46] * $v_kf / $v_Kc));
  (*2899*) Do (Asn v_kf 0 ((Exp (#1.9519293032620475e+01 - #3.6735028234718870e+03 / $v_T))));
  (*2900*) Do (Asn v_fwd_rxn_rates 221 (v_C.[39] * v_C.[29] * $v_kf));
  (*2901*) If ($v_T) (#1000.0)
    [Asn v_Kc 0 (#(-1.9881330999999999e+01) + #(-1.8113800000000002e-01) * $v_logT + $v_T * (#(-1.5426690000000000e-02) + $v_T * (#(-8.4775411666666666e-07) + $v_T * (#2.0545739999999999e-09 + #(-5.5550964999999992e-13) * $v_T))) - #1.7904004000000000e+03 / $v_T)]
    [Asn v_Kc 0 (#(-1.3489616900000000e+01) + #(-1.0535841000000001e+00) * $v_logT + $v_T * (#(-1.7175253500000001e-02) + $v_T * (#2.6471994999999997e-06 + $v_T * (#(-2.7574718333333335e-10) + #1.2680522500000002e-14 * $v_T))) - #2.1397231000000002e+03 / $v_T)];
  (*2907*) If ($v_T) (#1385.0)
    [AddA v_Kc 0 (#4.9720060390000000e+01 + #(-2.3678708899999998e+00) * $v_logT + $v_T * (#6.8677673999999994e-02 + $v_T * (#(-1.3734602633333332e-05) + $v_T * (#1.9701796833333333e-09 + #(-1.2371796600000000e-13) * $v_T))) - #(-1.6766053899999999e+04) / $v_T)]
    [AddA v_Kc 0 (#(-2.0377475980000003e+02) + #3.6968826800000002e+01 * $v_logT + $v_T * (#2.6935973200000001e-02 + $v_T * (#(-3.0361877166666668e-06) + $v_T * (#2.3397875249999998e-10 + #(-8.1054210000000005e-15) * $v_T))) - #(-3.1214498800000001e+04) / $v_T)];
  (*2913*) If ($v_T) (#1390.0)
    [AddA v_Kc 0 (#(-3.8385822537999999e+01) + #1.7727594380000000e+00 * $v_logT + $v_T * (#(-4.6627485250000003e-02) + $v_T * (#9.7407874166666667e-06 + $v_T * (#(-1.5464184499999998e-09) + #1.1856374150000001e-13 * $v_T))) - #3.9268951099999999e+03 / $v_T)]
    [AddA v_Kc 0 (#1.2760841959999999e+02 + #(-2.4051035599999999e+01) * $v_logT + $v_T * (#(-1.8474008100000001e-02) + $v_T * (#2.0960877333333333e-06 + $v_T * (#(-1.6219034083333331e-10) + #5.6334449000000002e-15 * $v_T))) - #1.3330053500000000e+04 / $v_T)];
  (*2919*) Do (Asn v_Kc 0 (#8.2057360967184814e-02 * (Exp $v_Kc)));
  (*2920*) Do (Asn v_rev_rxn_rates 219 (v_C.[46] * $v_kf / $v_Kc));
  (*2923*) Do (Asn v_kf 0 ((Exp (#1.9519293032620475e+01 - #3.6735028234718870e+03 / $v_T))));
  (*2924*) Do (Asn v_fwd_rxn_rates 222 (v_C.[32] * v_C.[37] * $v_kf));
  (*2925*) If ($v_T) (#1392.0)
    [Asn v_Kc 0 (#(-3.3336213809999997e+01) + #2.0622348100000001e+00 * $v_logT + $v_T * (#(-2.8710914700000000e-02) + $v_T * (#6.2414481666666671e-06 + $v_T * (#(-1.0613749083333332e-09) + #8.9804894499999993e-14 * $v_T))) - #4.4654666600000000e+03 / $v_T)]
    [Asn v_Kc 0 (#6.6953547499999999e+01 + #(-1.3585153900000000e+01) * $v_logT + $v_T * (#(-1.1203623550000000e-02) + $v_T * (#1.2722467083333334e-06 + $v_T * (#(-9.8490805000000006e-11) + #3.4219256950000000e-15 * $v_T))) - #1.0089820500000000e+04 / $v_T)];
  (*2931*) If ($v_T) (#1385.0)
    [AddA v_Kc 0 (#4.9720060390000000e+01 + #(-2.3678708899999998e+00) * $v_logT + $v_T * (#6.8677673999999994e-02 + $v_T * (#(-1.3734602633333332e-05) + $v_T * (#1.9701796833333333e-09 + #(-1.2371796600000000e-13) * $v_T))) - #(-1.6766053899999999e+04) / $v_T)]
    [AddA v_Kc 0 (#(-2.0377475980000003e+02) + #3.6968826800000002e+01 * $v_logT + $v_T * (#2.6935973200000001e-02 + $v_T * (#(-3.0361877166666668e-06) + $v_T * (#2.3397875249999998e-10 + #(-8.1054210000000005e-15) * $v_T))) - #(-3.1214498800000001e+04) / $v_T)];
  (*2937*) If ($v_T) (#1390.0)
    [AddA v_Kc 0 (#(-3.5155971505999993e+01) + #1.4995704060000001e+00 * $v_logT + $v_T * (#(-4.0441323350000002e-02) + $v_T * (#8.3422125666666670e-06 + $v_T * (#(-1.3045775666666668e-09) + #9.8308113500000002e-14 * $v_T))) - #1.0459022299999999e+03 / $v_T)]
    [AddA v_Kc 0 (#1.0828950200000000e+02 + #(-2.0794070900000001e+01) * $v_logT + $v_T * (#(-1.6314012150000001e-02) + $v_T * (#1.8523040666666668e-06 + $v_T * (#(-1.4338929000000000e-10) + #4.9818349949999998e-15 * $v_T))) - #9.2093822099999998e+03 / $v_T)];
  (*2943*) Do (Asn v_Kc 0 (#8.2057360967184814e-02 * (Exp $v_Kc)));
  (*2944*) Do (Asn v_rev_rxn_rates 220 (v_C.[47] * $v_kf / $v_Kc));
  (*2947*) Do (Asn v_kf 0 ((Exp (#1.9519293032620475e+01 - #3.6735028234718870e+03 / $v_T))));
  (*2948*) Do (Asn v_fwd_rxn_rates 223 (v_C.[42] * v_C.[21] * $v_kf));
  (*2949*) If ($v_T) (#1392.0)
    [Asn v_Kc 0 (#(-4.9486155179999997e+01) + #3.4290168799999998e+00 * $v_logT + $v_T * (#(-5.9652798999999999e-02) + $v_T * (#1.3241483750000001e-05 + $v_T * (#(-2.2728049666666667e-09) + #1.9135918650000000e-13 * $v_T))) - #1.8870836500000001e+04 / $v_T)]
    [Asn v_Kc 0 (#1.6358056230000000e+02 + #(-2.9875390299999999e+01) * $v_logT + $v_T * (#(-2.1998576299999999e-02) + $v_T * (#2.4904255000000001e-06 + $v_T * (#(-1.9243139833333331e-10) + #6.6775738500000002e-15 * $v_T))) - #3.0693730700000000e+04 / $v_T)];
  (*2955*) If ($v_T) (#1385.0)
    [AddA v_Kc 0 (#4.9720060390000000e+01 + #(-2.3678708899999998e+00) * $v_logT + $v_T * (#6.8677673999999994e-02 + $v_T * (#(-1.3734602633333332e-05) + $v_T * (#1.9701796833333333e-09 + #(-1.2371796600000000e-13) * $v_T))) - #(-1.6766053899999999e+04) / $v_T)]
    [AddA v_Kc 0 (#(-2.0377475980000003e+02) + #3.6968826800000002e+01 * $v_logT + $v_T * (#2.6935973200000001e-02 + $v_T * (#(-3.0361877166666668e-06) + $v_T * (#2.3397875249999998e-10 + #(-8.1054210000000005e-15) * $v_T))) - #(-3.1214498800000001e+04) / $v_T)];
  (*2961*) If ($v_T) (#1000.0)
    [AddA v_Kc 0 (#(-4.0074356000000044e-01) + #(-3.3064656799999996e+00) * $v_logT + $v_T * (#2.0932944600000002e-03 + $v_T * (#(-8.2857134500000004e-06) + $v_T * (#4.9927217166666664e-09 + #(-1.1525450200000001e-12) * $v_T))) - #(-1.2841626500000000e+04) / $v_T)]
    [AddA v_Kc 0 (#(-1.1507777879999999e+01) + #(-9.5465642000000006e-01) * $v_logT + $v_T * (#(-8.6986361000000005e-03) + $v_T * (#1.3303444466666667e-06 + $v_T * (#(-1.4601474083333333e-10) + #7.4820787999999997e-15 * $v_T))) - #(-1.2857520000000000e+04) / $v_T)];
  (*2967*) Do (Asn v_Kc 0 (#8.2057360967184814e-02 * (Exp $v_Kc)));
  (*2968*) Do (Asn v_rev_rxn_rates 221 (v_C.[47] * $v_kf / $v_Kc));
  (*2971*) Do (Asn v_kf 0 ((Exp (#1.9519293032620475e+01 - #3.6735028234718870e+03 / $v_T))));
  (*2972*) Do (Asn v_fwd_rxn_rates 224 (v_C.[34] * v_C.[35] * $v_kf));
  (*2973*) If ($v_T) (#1392.0)
    [Asn v_Kc 0 (#(-3.6664821150000002e+01) + #2.3527520500000003e+00 * $v_logT + $v_T * (#(-3.4932771299999998e-02) + $v_T * (#7.6568003666666674e-06 + $v_T * (#(-1.3080611916666668e-09) + #1.1064808750000001e-13 * $v_T))) - #7.3436861699999999e+03 / $v_T)]
    [Asn v_Kc 0 (#8.6215638000000013e+01 + #(-1.6833752900000000e+01) * $v_logT + $v_T * (#(-1.3368882900000000e-02) + $v_T * (#1.5167279550000001e-06 + $v_T * (#(-1.1734980666666667e-10) + #4.0756212200000003e-15 * $v_T))) - #1.4206286000000000e+04 / $v_T)];
  (*2979*) If ($v_T) (#1385.0)
    [AddA v_Kc 0 (#4.9720060390000000e+01 + #(-2.3678708899999998e+00) * $v_logT + $v_T * (#6.8677673999999994e-02 + $v_T * (#(-1.3734602633333332e-05) + $v_T * (#1.9701796833333333e-09 + #(-1.2371796600000000e-13) * $v_T))) - #(-1.6766053899999999e+04) / $v_T)]
    [AddA v_Kc 0 (#(-2.0377475980000003e+02) + #3.6968826800000002e+01 * $v_logT + $v_T * (#2.6935973200000001e-02 + $v_T * (#(-3.0361877166666668e-06) + $v_T * (#2.3397875249999998e-10 + #(-8.1054210000000005e-15) * $v_T))) - #(-3.1214498800000001e+04) / $v_T)];
  (*2985*) If ($v_T) (#1390.0)
    [AddA v_Kc 0 (#(-3.1812380765000000e+01) + #1.2048714650000001e+00 * $v_logT + $v_T * (#(-3.4190063600000001e-02) + $v_T * (#6.9074651999999995e-06 + $v_T * (#(-1.0512983500000000e-09) + #7.6560028999999992e-14 * $v_T))) - #(-1.8328039300000000e+03) / $v_T)]
    [AddA v_Kc 0 (#8.8987641300000007e+01 + #(-1.7538547000000001e+01) * $v_logT + $v_T * (#(-1.4155398099999999e-02) + $v_T * (#1.6088454099999999e-06 + $v_T * (#(-1.2462298750000000e-10) + #4.3316803200000002e-15 * $v_T))) - #5.0929904100000003e+03 / $v_T)];
  (*2991*) Do (Asn v_Kc 0 (#8.2057360967184814e-02 * (Exp $v_Kc)));
  (*2992*) Do (Asn v_rev_rxn_rates 222 (v_C.[47] * $v_kf / $v_Kc));
  (*2995*) Do (Asn v_kf 0 ((Exp (#1.9519293032620475e+01 - #3.6735028234718870e+03 / $v_T))));
  (*2996*) Do (Asn v_fwd_rxn_rates 225 (v_C.[26] * v_C.[40] * $v_kf));
  (*2997*) If ($v_T) (#1000.0)
    [Asn v_Kc 0 (#(-2.0086916700000000e+01) + #(-4.9117300000000030e-02) * $v_logT + $v_T * (#(-1.3004486500000001e-02) + $v_T * (#(-3.9237526666666665e-07) + $v_T * (#1.6329276666666667e-09 + #(-4.6860103500000001e-13) * $v_T))) - #(-1.0312346000000000e+04) / $v_T)]
    [Asn v_Kc 0 (#2.3225044900000000e+01 + #(-6.7097479000000000e+00) * $v_logT + $v_T * (#(-8.0157425000000008e-03) + $v_T * (#8.7867063333333323e-07 + $v_T * (#(-6.3240293333333341e-11) + #1.9431359500000002e-15 * $v_T))) - #(-7.9762236000000003e+03) / $v_T)];
  (*3003*) If ($v_T) (#1385.0)
    [AddA v_Kc 0 (#4.9720060390000000e+01 + #(-2.3678708899999998e+00) * $v_logT + $v_T * (#6.8677673999999994e-02 + $v_T * (#(-1.3734602633333332e-05) + $v_T * (#1.9701796833333333e-09 + #(-1.2371796600000000e-13) * $v_T))) - #(-1.6766053899999999e+04) / $v_T)]
    [AddA v_Kc 0 (#(-2.0377475980000003e+02) + #3.6968826800000002e+01 * $v_logT + $v_T * (#2.6935973200000001e-02 + $v_T * (#(-3.0361877166666668e-06) + $v_T * (#2.3397875249999998e-10 + #(-8.1054210000000005e-15) * $v_T))) - #(-3.1214498800000001e+04) / $v_T)];
  (*3009*) If ($v_T) (#1392.0)
    [AddA v_Kc 0 (#(-4.6285595430000001e+01) + #3.1610826300000001e+00 * $v_logT + $v_T * (#(-5.3479148499999997e-02) + $v_T * (#1.1849554066666667e-05 + $v_T * (#(-2.0330923083333334e-09) + #1.7138577350000000e-13 * $v_T))) - #1.5989084699999999e+04 / $v_T)]
    [AddA v_Kc 0 (#1.4423284060000000e+02 + #(-2.6614217600000000e+01) * $v_logT + $v_T * (#(-1.9841264349999999e-02) + $v_T * (#2.2469907666666666e-06 + $v_T * (#(-1.7365871000000002e-10) + #6.0269646999999996e-15 * $v_T))) - #2.6570906100000000e+04 / $v_T)];
  (*3015*) Do (Asn v_Kc 0 (#8.2057360967184814e-02 * (Exp $v_Kc)));
  (*3016*) Do (Asn v_rev_rxn_rates 223 (v_C.[47] * $v_kf / $v_Kc));
  (*3019*) Do (Asn v_kf 0 ((Exp (#1.9519293032620475e+01 - #3.6735028234718870e+03 / $v_T))));
  (*3020*) Do (Asn v_fwd_rxn_rates 226 (v_C.[33] * v_C.[36] * $v_kf));
  (*3021*) If ($v_T) (#1392.0)
    [Asn v_Kc 0 (#(-4.0184008689999999e+01) + #2.6772054900000000e+00 * $v_logT + $v_T * (#(-4.1230580050000000e-02) + $v_T * (#9.1084017999999997e-06 + $v_T * (#(-1.5655191916666667e-09) + #1.3286899149999999e-13 * $v_T))) - #1.0216860100000000e+04 / $v_T)]
    [Asn v_Kc 0 (#1.0552891470000000e+02 + #(-2.0089803900000000e+01) * $v_logT + $v_T * (#(-1.5530393900000000e-02) + $v_T * (#1.7607465499999998e-06 + $v_T * (#(-1.3617148333333333e-10) + #4.7279910950000003e-15 * $v_T))) - #1.8326006500000000e+04 / $v_T)];
  (*3027*) If ($v_T) (#1385.0)
    [AddA v_Kc 0 (#4.9720060390000000e+01 + #(-2.3678708899999998e+00) * $v_logT + $v_T * (#6.8677673999999994e-02 + $v_T * (#(-1.3734602633333332e-05) + $v_T * (#1.9701796833333333e-09 + #(-1.2371796600000000e-13) * $v_T))) - #(-1.6766053899999999e+04) / $v_T)]
    [AddA v_Kc 0 (#(-2.0377475980000003e+02) + #3.6968826800000002e+01 * $v_logT + $v_T * (#2.6935973200000001e-02 + $v_T * (#(-3.0361877166666668e-06) + $v_T * (#2.3397875249999998e-10 + #(-8.1054210000000005e-15) * $v_T))) - #(-3.1214498800000001e+04) / $v_T)];
  (*3033*) If ($v_T) (#1390.0)
    [AddA v_Kc 0 (#(-2.8671428191900002e+01) + #9.4756159190000000e-01 * $v_logT + $v_T * (#(-2.8039847900000001e-02) + $v_T * (#5.5257633833333341e-06 + $v_T * (#(-8.1461148416666665e-10) + #5.7004829999999998e-14 * $v_T))) - #(-4.7161145999999999e+03) / $v_T)]
    [AddA v_Kc 0 (#6.9780673899999996e+01 + #(-1.4297744600000000e+01) * $v_logT + $v_T * (#(-1.1986765500000000e-02) + $v_T * (#1.3639882466666667e-06 + $v_T * (#(-1.0573589666666666e-10) + #3.6770452750000001e-15 * $v_T))) - #9.8071230700000001e+02 / $v_T)];
  (*3039*) Do (Asn v_Kc 0 (#8.2057360967184814e-02 * (Exp $v_Kc)));
  (*3040*) Do (Asn v_rev_rxn_rates 224 (v_C.[47] * $v_kf / $v_Kc));
  (*3043*) Do (Asn v_kf 0 ((Exp (#1.9519293032620475e+01 - #3.6735028234718870e+03 / $v_T))));
  (*3044*) Do (Asn v_fwd_rxn_rates 227 (v_C.[30] * v_C.[38] * $v_kf));
  (*3045*) If ($v_T) (#1000.0)
    [Asn v_Kc 0 (#(-2.0960563799999999e+01) + #(-2.0870419999999990e-01) * $v_logT + $v_T * (#(-1.9148748500000000e-02) + $v_T * (#1.2110084833333334e-06 + $v_T * (#1.2857122500000000e-09 + #(-4.3429717500000001e-13) * $v_T))) - #(-7.3221040000000003e+03) / $v_T)]
    [Asn v_Kc 0 (#2.6573986499999997e+01 + #(-7.6822394999999997e+00) * $v_logT + $v_T * (#(-1.1845535500000001e-02) + $v_T * (#1.2658144166666666e-06 + $v_T * (#(-5.5355946666666663e-11) + #(-2.7422567999999999e-15) * $v_T))) - #(-4.9644058000000005e+03) / $v_T)];
  (*3051*) If ($v_T) (#1385.0)
    [AddA v_Kc 0 (#4.9720060390000000e+01 + #(-2.3678708899999998e+00) * $v_logT + $v_T * (#6.8677673999999994e-02 + $v_T * (#(-1.3734602633333332e-05) + $v_T * (#1.9701796833333333e-09 + #(-1.2371796600000000e-13) * $v_T))) - #(-1.6766053899999999e+04) / $v_T)]
    [AddA v_Kc 0 (#(-2.0377475980000003e+02) + #3.6968826800000002e+01 * $v_logT + $v_T * (#2.6935973200000001e-02 + $v_T * (#(-3.0361877166666668e-06) + $v_T * (#2.3397875249999998e-10 + #(-8.1054210000000005e-15) * $v_T))) - #(-3.1214498800000001e+04) / $v_T)];
  (*3057*) If ($v_T) (#1392.0)
    [AddA v_Kc 0 (#(-4.3080167249999995e+01) + #2.8922691499999997e+00 * $v_logT + $v_T * (#(-4.7303317849999998e-02) + $v_T * (#1.0456425350000001e-05 + $v_T * (#(-1.7929859083333332e-09) + #1.5135934150000002e-13 * $v_T))) - #1.3107455900000001e+04 / $v_T)]
    [AddA v_Kc 0 (#1.2489172850000000e+02 + #(-2.3354012500000000e+01) * $v_logT + $v_T * (#(-1.7683323099999999e-02) + $v_T * (#2.0034731333333335e-06 + $v_T * (#(-1.5487921083333335e-10) + #5.3761130999999999e-15 * $v_T))) - #2.2448567400000000e+04 / $v_T)];
  (*3063*) Do (Asn v_Kc 0 (#8.2057360967184814e-02 * (Exp $v_Kc)));
  (*3064*) Do (Asn v_rev_rxn_rates 225 (v_C.[47] * $v_kf / $v_Kc));
  (*3067*) Do (Asn v_kf 0 ((Exp (#2.5959707799776361e+01 - #0.5 * $v_logT))));
  (*3068*) Do (Asn v_fwd_rxn_rates 228 (v_C.[21] * v_C.[43] * $v_kf));
  (*3069*) If ($v_T) (#1000.0)
    [Asn v_Kc 0 (#(-4.0074356000000044e-01) + #(-3.3064656799999996e+00) * $v_logT + $v_T * (#2.0932944600000002e-03 + $v_T * (#(-8.2857134500000004e-06) + $v_T * (#4.9927217166666664e-09 + #(-1.1525450200000001e-12) * $v_T))) - #(-1.2841626500000000e+04) / $v_T)]
    [Asn v_Kc 0 (#(-1.1507777879999999e+01) + #(-9.5465642000000006e-01) * $v_logT + $v_T * (#(-8.6986361000000005e-03) + $v_T * (#1.3303444466666667e-06 + $v_T * (#(-1.4601474083333333e-10) + #7.4820787999999997e-15 * $v_T))) - #(-1.2857520000000000e+04) / $v_T)];
  (*3075*) If ($v_T) (#1390.0)
    [AddA v_Kc 0 (#(-4.4814628679999998e+01) + #2.3135834800000001e+00 * $v_logT + $v_T * (#(-5.8986406499999998e-02) + $v_T * (#1.2530717983333334e-05 + $v_T * (#(-2.0277592166666667e-09) + #1.5876142600000001e-13 * $v_T))) - #9.6896754999999994e+03 / $v_T)]
    [AddA v_Kc 0 (#1.6627870200000001e+02 + #(-3.0569716000000000e+01) * $v_logT + $v_T * (#(-2.2790920150000001e-02) + $v_T * (#2.5832494166666668e-06 + $v_T * (#(-1.9975911083333332e-10) + #6.9354779500000000e-15 * $v_T))) - #2.1573783200000002e+04 / $v_T)];
  (*3081*) If ($v_T) (#1391.0)
    [AddA v_Kc 0 (#5.2721278540000000e+01 + #(-3.6218159399999998e+00) * $v_logT + $v_T * (#7.3618855499999997e-02 + $v_T * (#(-1.5732837849999999e-05) + $v_T * (#2.5620105666666666e-09 + #(-2.0180111500000002e-13) * $v_T))) - #(-4.0065425300000003e+04) / $v_T)]
    [AddA v_Kc 0 (#(-2.1118042570000000e+02) + #3.7509503700000003e+01 * $v_logT + $v_T * (#2.8177502399999999e-02 + $v_T * (#(-3.1915533333333334e-06) + $v_T * (#2.4668738499999999e-10 + #(-8.5622075000000004e-15) * $v_T))) - #(-5.4884346500000000e+04) / $v_T)];
  (*3087*) Do (Asn v_Kc 0 (#8.2057360967184814e-02 * (Exp $v_Kc)));
  (*3088*) Do (Asn v_rev_rxn_rates 226 (v_C.[44] * $v_kf / $v_Kc));
  (*3091*) Do (Asn v_kf 0 ((Exp (#2.5959707799776361e+01 - #0.5 * $v_logT))));
  (*3092*) Do (Asn v_fwd_rxn_rates 229 (v_C.[26] * v_C.[41] * $v_kf));
  (*3093*) If ($v_T) (#1000.0)
    [Asn v_Kc 0 (#(-2.0086916700000000e+01) + #(-4.9117300000000030e-02) * $v_logT + $v_T * (#(-1.3004486500000001e-02) + $v_T * (#(-3.9237526666666665e-07) + $v_T * (#1.6329276666666667e-09 + #(-4.6860103500000001e-13) * $v_T))) - #(-1.0312346000000000e+04) / $v_T)]
    [Asn v_Kc 0 (#2.3225044900000000e+01 + #(-6.7097479000000000e+00) * $v_logT + $v_T * (#(-8.0157425000000008e-03) + $v_T * (#8.7867063333333323e-07 + $v_T * (#(-6.3240293333333341e-11) + #1.9431359500000002e-15 * $v_T))) - #(-7.9762236000000003e+03) / $v_T)];
  (*3099*) If ($v_T) (#1390.0)
    [AddA v_Kc 0 (#(-4.3395772119999997e+01) + #2.0438729200000001e+00 * $v_logT + $v_T * (#(-5.2808641500000003e-02) + $v_T * (#1.1136666183333334e-05 + $v_T * (#(-1.7873847166666667e-09) + #1.3870213750000000e-13 * $v_T))) - #6.8081851200000001e+03 / $v_T)]
    [AddA v_Kc 0 (#1.4514764840000001e+02 + #(-2.7309751400000000e+01) * $v_logT + $v_T * (#(-2.0632867199999998e-02) + $v_T * (#2.3397214833333332e-06 + $v_T * (#(-1.8097905916666667e-10) + #6.2846153499999992e-15 * $v_T))) - #1.7451602999999999e+04 / $v_T)];
  (*3105*) If ($v_T) (#1391.0)
    [AddA v_Kc 0 (#5.2721278540000000e+01 + #(-3.6218159399999998e+00) * $v_logT + $v_T * (#7.3618855499999997e-02 + $v_T * (#(-1.5732837849999999e-05) + $v_T * (#2.5620105666666666e-09 + #(-2.0180111500000002e-13) * $v_T))) - #(-4.0065425300000003e+04) / $v_T)]
    [AddA v_Kc 0 (#(-2.1118042570000000e+02) + #3.7509503700000003e+01 * $v_logT + $v_T * (#2.8177502399999999e-02 + $v_T * (#(-3.1915533333333334e-06) + $v_T * (#2.4668738499999999e-10 + #(-8.5622075000000004e-15) * $v_T))) - #(-5.4884346500000000e+04) / $v_T)];
  (*3111*) Do (Asn v_Kc 0 (#8.2057360967184814e-02 * (Exp $v_Kc)));
  (*3112*) Do (Asn v_rev_rxn_rates 227 (v_C.[44] * $v_kf / $v_Kc));
  (*3115*) Do (Asn v_kf 0 ((Exp (#2.5959707799776361e+01 - #0.5 * $v_logT))));
  (*3116*) Do (Asn v_fwd_rxn_rates 230 (v_C.[39] * v_C.[30] * $v_kf));
  (*3117*) If ($v_T) (#1000.0)
    [Asn v_Kc 0 (#(-2.0960563799999999e+01) + #(-2.0870419999999990e-01) * $v_logT + $v_T * (#(-1.9148748500000000e-02) + $v_T * (#1.2110084833333334e-06 + $v_T * (#1.2857122500000000e-09 + #(-4.3429717500000001e-13) * $v_T))) - #(-7.3221040000000003e+03) / $v_T)]
    [Asn v_Kc 0 (#2.6573986499999997e+01 + #(-7.6822394999999997e+00) * $v_logT + $v_T * (#(-1.1845535500000001e-02) + $v_T * (#1.2658144166666666e-06 + $v_T * (#(-5.5355946666666663e-11) + #(-2.7422567999999999e-15) * $v_T))) - #(-4.9644058000000005e+03) / $v_T)];
  (*3123*) If ($v_T) (#1390.0)
    [AddA v_Kc 0 (#(-3.8385822537999999e+01) + #1.7727594380000000e+00 * $v_logT + $v_T * (#(-4.6627485250000003e-02) + $v_T * (#9.7407874166666667e-06 + $v_T * (#(-1.5464184499999998e-09) + #1.1856374150000001e-13 * $v_T))) - #3.9268951099999999e+03 / $v_T)]
    [AddA v_Kc 0 (#1.2760841959999999e+02 + #(-2.4051035599999999e+01) * $v_logT + $v_T * (#(-1.8474008100000001e-02) + $v_T * (#2.0960877333333333e-06 + $v_T * (#(-1.6219034083333331e-10) + #5.6334449000000002e-15 * $v_T))) - #1.3330053500000000e+04 / $v_T)];
  (*3129*) If ($v_T) (#1391.0)
    [AddA v_Kc 0 (#5.2721278540000000e+01 + #(-3.6218159399999998e+00) * $v_logT + $v_T * (#7.3618855499999997e-02 + $v_T * (#(-1.5732837849999999e-05) + $v_T * (#2.5620105666666666e-09 + #(-2.0180111500000002e-13) * $v_T))) - #(-4.0065425300000003e+04) / $v_T)]
    [AddA v_Kc 0 (#(-2.1118042570000000e+02) + #3.7509503700000003e+01 * $v_logT + $v_T * (#2.8177502399999999e-02 + $v_T * (#(-3.1915533333333334e-06) + $v_T * (#2.4668738499999999e-10 + #(-8.5622075000000004e-15) * $v_T))) - #(-5.4884346500000000e+04) / $v_T)];
  (*3135*) Do (Asn v_Kc 0 (#8.2057360967184814e-02 * (Exp $v_Kc)));
  (*3136*) Do (Asn v_rev_rxn_rates 228 (v_C.[44] * $v_kf / $v_Kc));
  (*3139*) Do (Asn v_kf 0 ((Exp (#2.5959707799776361e+01 - #0.5 * $v_logT))));
  (*3140*) Do (Asn v_fwd_rxn_rates 231 (v_C.[33] * v_C.[37] * $v_kf));
  (*3141*) If ($v_T) (#1390.0)
    [Asn v_Kc 0 (#(-6.3827399697899992e+01) + #2.4471319979000001e+00 * $v_logT + $v_T * (#(-6.8481171250000000e-02) + $v_T * (#1.3867975950000002e-05 + $v_T * (#(-2.1191890508333337e-09) + #1.5531294350000001e-13 * $v_T))) - #(-3.6702123700000002e+03) / $v_T)]
    [Asn v_Kc 0 (#1.7807017589999998e+02 + #(-3.5091815500000003e+01) * $v_logT + $v_T * (#(-2.8300777650000001e-02) + $v_T * (#3.2162923133333333e-06 + $v_T * (#(-2.4912518666666668e-10) + #8.6588802699999992e-15 * $v_T))) - #1.0190094517000000e+04 / $v_T)];
  (*3147*) If ($v_T) (#1391.0)
    [AddA v_Kc 0 (#5.2721278540000000e+01 + #(-3.6218159399999998e+00) * $v_logT + $v_T * (#7.3618855499999997e-02 + $v_T * (#(-1.5732837849999999e-05) + $v_T * (#2.5620105666666666e-09 + #(-2.0180111500000002e-13) * $v_T))) - #(-4.0065425300000003e+04) / $v_T)]
    [AddA v_Kc 0 (#(-2.1118042570000000e+02) + #3.7509503700000003e+01 * $v_logT + $v_T * (#2.8177502399999999e-02 + $v_T * (#(-3.1915533333333334e-06) + $v_T * (#2.4668738499999999e-10 + #(-8.5622075000000004e-15) * $v_T))) - #(-5.4884346500000000e+04) / $v_T)];
  (*3153*) Do (Asn v_Kc 0 (#8.2057360967184814e-02 * (Exp $v_Kc)));
  (*3154*) Do (Asn v_rev_rxn_rates 229 (v_C.[44] * $v_kf / $v_Kc));
  (*3157*) Do (Asn v_kf 0 ((Exp (#2.5959707799776361e+01 - #0.5 * $v_logT))));
  (*3158*) Do (Asn v_fwd_rxn_rates 232 (v_C.[35] * v_C.[35] * $v_kf));
  (*3159*) If ($v_T) (#1390.0)
    [Asn v_Kc 0 (#(-6.3624761530000001e+01) + #2.4097429300000002e+00 * $v_logT + $v_T * (#(-6.8380127200000002e-02) + $v_T * (#1.3814930399999999e-05 + $v_T * (#(-2.1025966999999999e-09) + #1.5312005799999998e-13 * $v_T))) - #(-3.6656078600000001e+03) / $v_T)]
    [Asn v_Kc 0 (#1.7797528260000001e+02 + #(-3.5077094000000002e+01) * $v_logT + $v_T * (#(-2.8310796199999998e-02) + $v_T * (#3.2176908199999999e-06 + $v_T * (#(-2.4924597500000000e-10) + #8.6633606400000003e-15 * $v_T))) - #1.0185980820000001e+04 / $v_T)];
  (*3165*) If ($v_T) (#1391.0)
    [AddA v_Kc 0 (#5.2721278540000000e+01 + #(-3.6218159399999998e+00) * $v_logT + $v_T * (#7.3618855499999997e-02 + $v_T * (#(-1.5732837849999999e-05) + $v_T * (#2.5620105666666666e-09 + #(-2.0180111500000002e-13) * $v_T))) - #(-4.0065425300000003e+04) / $v_T)]
    [AddA v_Kc 0 (#(-2.1118042570000000e+02) + #3.7509503700000003e+01 * $v_logT + $v_T * (#2.8177502399999999e-02 + $v_T * (#(-3.1915533333333334e-06) + $v_T * (#2.4668738499999999e-10 + #(-8.5622075000000004e-15) * $v_T))) - #(-5.4884346500000000e+04) / $v_T)];
  (*3171*) Do (Asn v_Kc 0 (#8.2057360967184814e-02 * (Exp $v_Kc)));
  (*3172*) Do (Asn v_rev_rxn_rates 230 (v_C.[44] * $v_kf / $v_Kc));
  (*3175*) Do (Asn v_kf 0 ((Exp (#7.1701195434496281e+00 + #2.54 * $v_logT - #3.3997513801885029e+03 / $v_T))));
  (*3176*) Do (Asn v_fwd_rxn_rates 233 (v_C.[1] * v_C.[44] * $v_kf));
  (*3177*) If ($v_T) (#1000.0)
    [Asn v_Kc 0 (#1.2853619709999999e+00 + #(-1.5566887999999990e-01) * $v_logT + $v_T * (#3.9902603746473329e-03 + $v_T * (#(-3.2463584996673466e-06) + $v_T * (#1.6797674498082654e-09 + #(-3.6880588045361340e-13) * $v_T))) - #(-2.6391595073000000e+04) / $v_T)]
    [Asn v_Kc 0 (#(-3.5956195859999998e+00) + #8.3727918999999984e-01 * $v_logT + $v_T * (#(-2.4701225007851350e-05) + $v_T * (#8.3242793640634195e-08 + $v_T * (#(-1.4963865772070639e-11) + #1.0012768550901320e-15 * $v_T))) - #(-2.6423818821999997e+04) / $v_T)];
  (*3183*) If ($v_T) (#1390.0)
    [AddA v_Kc 0 (#5.1220529509999999e+01 + #(-2.8502874100000000e+00) * $v_logT + $v_T * (#7.1335354000000004e-02 + $v_T * (#(-1.5315275916666666e-05) + $v_T * (#2.5073616000000000e-09 + #(-1.9872715000000000e-13) * $v_T))) - #(-1.5453043500000000e+04) / $v_T)]
    [AddA v_Kc 0 (#(-2.0497492249999999e+02) + #3.7092188499999999e+01 * $v_logT + $v_T * (#2.7105392400000001e-02 + $v_T * (#(-3.0700919500000003e-06) + $v_T * (#2.3730181083333333e-10 + #(-8.2365874000000005e-15) * $v_T))) - #(-2.9819437500000000e+04) / $v_T)];
  (*3189*) If ($v_T) (#1391.0)
    [AddA v_Kc 0 (#(-5.2721278540000000e+01) + #3.6218159399999998e+00 * $v_logT + $v_T * (#(-7.3618855499999997e-02) + $v_T * (#1.5732837849999999e-05 + $v_T * (#(-2.5620105666666666e-09) + #2.0180111500000002e-13 * $v_T))) - #4.0065425300000003e+04 / $v_T)]
    [AddA v_Kc 0 (#2.1118042570000000e+02 + #(-3.7509503700000003e+01) * $v_logT + $v_T * (#(-2.8177502399999999e-02) + $v_T * (#3.1915533333333334e-06 + $v_T * (#(-2.4668738499999999e-10) + #8.5622075000000004e-15 * $v_T))) - #5.4884346500000000e+04 / $v_T)];
  (*3195*) Do (Asn v_Kc 0 (#1.0000000000000000e+00 * (Exp $v_Kc)));
  (*3196*) Do (Asn v_rev_rxn_rates 231 (v_C.[5] * v_C.[45] * $v_kf / $v_Kc));
  (*3199*) Do (Asn v_kf 0 ((Exp (#7.8632667240095735e+00 + #2.4 * $v_logT - #2.2498946744853160e+03 / $v_T))));
  (*3200*) Do (Asn v_fwd_rxn_rates 234 (v_C.[1] * v_C.[44] * $v_kf));
  (*3201*) If ($v_T) (#1000.0)
    [Asn v_Kc 0 (#1.2853619709999999e+00 + #(-1.5566887999999990e-01) * $v_logT + $v_T * (#3.9902603746473329e-03 + $v_T * (#(-3.2463584996673466e-06) + $v_T * (#1.6797674498082654e-09 + #(-3.6880588045361340e-13) * $v_T))) - #(-2.6391595073000000e+04) / $v_T)]
    [Asn v_Kc 0 (#(-3.5956195859999998e+00) + #8.3727918999999984e-01 * $v_logT + $v_T * (#(-2.4701225007851350e-05) + $v_T * (#8.3242793640634195e-08 + $v_T * (#(-1.4963865772070639e-11) + #1.0012768550901320e-15 * $v_T))) - #(-2.6423818821999997e+04) / $v_T)];
  (*3207*) If ($v_T) (#1385.0)
    [AddA v_Kc 0 (#4.9720060390000000e+01 + #(-2.3678708899999998e+00) * $v_logT + $v_T * (#6.8677673999999994e-02 + $v_T * (#(-1.3734602633333332e-05) + $v_T * (#1.9701796833333333e-09 + #(-1.2371796600000000e-13) * $v_T))) - #(-1.6766053899999999e+04) / $v_T)]
    [AddA v_Kc 0 (#(-2.0377475980000003e+02) + #3.6968826800000002e+01 * $v_logT + $v_T * (#2.6935973200000001e-02 + $v_T * (#(-3.0361877166666668e-06) + $v_T * (#2.3397875249999998e-10 + #(-8.1054210000000005e-15) * $v_T))) - #(-3.1214498800000001e+04) / $v_T)];
  (*3213*) If ($v_T) (#1391.0)
    [AddA v_Kc 0 (#(-5.2721278540000000e+01) + #3.6218159399999998e+00 * $v_logT + $v_T * (#(-7.3618855499999997e-02) + $v_T * (#1.5732837849999999e-05 + $v_T * (#(-2.5620105666666666e-09) + #2.0180111500000002e-13 * $v_T))) - #4.0065425300000003e+04 / $v_T)]
    [AddA v_Kc 0 (#2.1118042570000000e+02 + #(-3.7509503700000003e+01) * $v_logT + $v_T * (#(-2.8177502399999999e-02) + $v_T * (#3.1915533333333334e-06 + $v_T * (#(-2.4668738499999999e-10) + #8.5622075000000004e-15 * $v_T))) - #5.4884346500000000e+04 / $v_T)];
  (*3219*) Do (Asn v_Kc 0 (#1.0000000000000000e+00 * (Exp $v_Kc)));
  (*3220*) Do (Asn v_rev_rxn_rates 232 (v_C.[5] * v_C.[46] * $v_kf / $v_Kc));
  (*3223*) Do (Asn v_kf 0 ((Exp (#8.2687318321177372e+00 + #2.4 * $v_logT - #2.2498946744853160e+03 / $v_T))));
  (*3224*) Do (Asn v_fwd_rxn_rates 235 (v_C.[1] * v_C.[44] * $v_kf));
  (*3225*) If ($v_T) (#1000.0)
    [Asn v_Kc 0 (#1.2853619709999999e+00 + #(-1.5566887999999990e-01) * $v_logT + $v_T * (#3.9902603746473329e-03 + $v_T * (#(-3.2463584996673466e-06) + $v_T * (#1.6797674498082654e-09 + #(-3.6880588045361340e-13) * $v_T))) - #(-2.6391595073000000e+04) / $v_T)]
    [Asn v_Kc 0 (#(-3.5956195859999998e+00) + #8.3727918999999984e-01 * $v_logT + $v_T * (#(-2.4701225007851350e-05) + $v_T * (#8.3242793640634195e-08 + $v_T * (#(-1.4963865772070639e-11) + #1.0012768550901320e-15 * $v_T))) - #(-2.6423818821999997e+04) / $v_T)];
  (*3231*) If ($v_T) (#1385.0)
    [AddA v_Kc 0 (#4.9720060390000000e+01 + #(-2.3678708899999998e+00) * $v_logT + $v_T * (#6.8677673999999994e-02 + $v_T * (#(-1.3734602633333332e-05) + $v_T * (#1.9701796833333333e-09 + #(-1.2371796600000000e-13) * $v_T))) - #(-1.6766053899999999e+04) / $v_T)]
    [AddA v_Kc 0 (#(-2.0377475980000003e+02) + #3.6968826800000002e+01 * $v_logT + $v_T * (#2.6935973200000001e-02 + $v_T * (#(-3.0361877166666668e-06) + $v_T * (#2.3397875249999998e-10 + #(-8.1054210000000005e-15) * $v_T))) - #(-3.1214498800000001e+04) / $v_T)];
  (*3237*) If ($v_T) (#1391.0)
    [AddA v_Kc 0 (#(-5.2721278540000000e+01) + #3.6218159399999998e+00 * $v_logT + $v_T * (#(-7.3618855499999997e-02) + $v_T * (#1.5732837849999999e-05 + $v_T * (#(-2.5620105666666666e-09) + #2.0180111500000002e-13 * $v_T))) - #4.0065425300000003e+04 / $v_T)]
    [AddA v_Kc 0 (#2.1118042570000000e+02 + #(-3.7509503700000003e+01) * $v_logT + $v_T * (#(-2.8177502399999999e-02) + $v_T * (#3.1915533333333334e-06 + $v_T * (#(-2.4668738499999999e-10) + #8.5622075000000004e-15 * $v_T))) - #5.4884346500000000e+04 / $v_T)];
  (*3243*) Do (Asn v_Kc 0 (#1.0000000000000000e+00 * (Exp $v_Kc)));
  (*3244*) Do (Asn v_rev_rxn_rates 233 (v_C.[5] * v_C.[47] * $v_kf / $v_Kc));
  (*3247*) Do (Asn v_kf 0 ((Exp (#5.2470240721604862e+00 + #2.68 * $v_logT - #1.8699639030166484e+03 / $v_T))));
  (*3248*) Do (Asn v_fwd_rxn_rates 236 (v_C.[44] * v_C.[2] * $v_kf));
  (*3249*) If ($v_T) (#1000.0)
    [Asn v_Kc 0 (#(-3.6994049299999996e+00) + #9.5703850999999984e-01 * $v_logT + $v_T * (#2.6934724999999864e-05 + $v_T * (#(-1.9236175000000001e-08) + $v_T * (#2.7460817499999998e-11 + #(-2.5142960000000029e-15) * $v_T))) - #(-2.5740721079999999e+04) / $v_T)]
    [Asn v_Kc 0 (#6.2199401000000076e-01 + #2.9530807999999986e-01 * $v_logT + $v_T * (#5.7123929685000006e-04 + $v_T * (#(-5.0171869483333334e-08) + $v_T * (#3.3783039416666664e-12 + #(-1.2801478349999998e-16) * $v_T))) - #(-2.5498721360000000e+04) / $v_T)];
  (*3255*) If ($v_T) (#1390.0)
    [AddA v_Kc 0 (#5.1220529509999999e+01 + #(-2.8502874100000000e+00) * $v_logT + $v_T * (#7.1335354000000004e-02 + $v_T * (#(-1.5315275916666666e-05) + $v_T * (#2.5073616000000000e-09 + #(-1.9872715000000000e-13) * $v_T))) - #(-1.5453043500000000e+04) / $v_T)]
    [AddA v_Kc 0 (#(-2.0497492249999999e+02) + #3.7092188499999999e+01 * $v_logT + $v_T * (#2.7105392400000001e-02 + $v_T * (#(-3.0700919500000003e-06) + $v_T * (#2.3730181083333333e-10 + #(-8.2365874000000005e-15) * $v_T))) - #(-2.9819437500000000e+04) / $v_T)];
  (*3261*) If ($v_T) (#1391.0)
    [AddA v_Kc 0 (#(-5.2721278540000000e+01) + #3.6218159399999998e+00 * $v_logT + $v_T * (#(-7.3618855499999997e-02) + $v_T * (#1.5732837849999999e-05 + $v_T * (#(-2.5620105666666666e-09) + #2.0180111500000002e-13 * $v_T))) - #4.0065425300000003e+04 / $v_T)]
    [AddA v_Kc 0 (#2.1118042570000000e+02 + #(-3.7509503700000003e+01) * $v_logT + $v_T * (#(-2.8177502399999999e-02) + $v_T * (#3.1915533333333334e-06 + $v_T * (#(-2.4668738499999999e-10) + #8.5622075000000004e-15 * $v_T))) - #5.4884346500000000e+04 / $v_T)];
  (*3267*) Do (Asn v_Kc 0 (#1.0000000000000000e+00 * (Exp $v_Kc)));
  (*3268*) Do (Asn v_rev_rxn_rates 234 (v_C.[45] * v_C.[3] * $v_kf / $v_Kc));
  (*3271*) Do (Asn v_kf 0 ((Exp (#4.5559799417973199e+00 + #2.71 * $v_logT - #1.0597804035933966e+03 / $v_T))));
  (*3272*) Do (Asn v_fwd_rxn_rates 237 (v_C.[44] * v_C.[2] * $v_kf));
  (*3273*) If ($v_T) (#1000.0)
    [Asn v_Kc 0 (#(-3.6994049299999996e+00) + #9.5703850999999984e-01 * $v_logT + $v_T * (#2.6934724999999864e-05 + $v_T * (#(-1.9236175000000001e-08) + $v_T * (#2.7460817499999998e-11 + #(-2.5142960000000029e-15) * $v_T))) - #(-2.5740721079999999e+04) / $v_T)]
    [Asn v_Kc 0 (#6.2199401000000076e-01 + #2.9530807999999986e-01 * $v_logT + $v_T * (#5.7123929685000006e-04 + $v_T * (#(-5.0171869483333334e-08) + $v_T * (#3.3783039416666664e-12 + #(-1.2801478349999998e-16) * $v_T))) - #(-2.5498721360000000e+04) / $v_T)];
  (*3279*) If ($v_T) (#1385.0)
    [AddA v_Kc 0 (#4.9720060390000000e+01 + #(-2.3678708899999998e+00) * $v_logT + $v_T * (#6.8677673999999994e-02 + $v_T * (#(-1.3734602633333332e-05) + $v_T * (#1.9701796833333333e-09 + #(-1.2371796600000000e-13) * $v_T))) - #(-1.6766053899999999e+04) / $v_T)]
    [AddA v_Kc 0 (#(-2.0377475980000003e+02) + #3.6968826800000002e+01 * $v_logT + $v_T * (#2.6935973200000001e-02 + $v_T * (#(-3.0361877166666668e-06) + $v_T * (#2.3397875249999998e-10 + #(-8.1054210000000005e-15) * $v_T))) - #(-3.1214498800000001e+04) / $v_T)];
  (*3285*) If ($v_T) (#1391.0)
    [AddA v_Kc 0 (#(-5.2721278540000000e+01) + #3.6218159399999998e+00 * $v_logT + $v_T * (#(-7.3618855499999997e-02) + $v_T * (#1.5732837849999999e-05 + $v_T * (#(-2.5620105666666666e-09) + #2.0180111500000002e-13 * $v_T))) - #4.0065425300000003e+04 / $v_T)]
    [AddA v_Kc 0 (#2.1118042570000000e+02 + #(-3.7509503700000003e+01) * $v_logT + $v_T * (#(-2.8177502399999999e-02) + $v_T * (#3.1915533333333334e-06 + $v_T * (#(-2.4668738499999999e-10) + #8.5622075000000004e-15 * $v_T))) - #5.4884346500000000e+04 / $v_T)];
  (*3291*) Do (Asn v_Kc 0 (#1.0000000000000000e+00 * (Exp $v_Kc)));
  (*3292*) Do (Asn v_rev_rxn_rates 235 (v_C.[46] * v_C.[3] * $v_kf / $v_Kc));
  (*3295*) Do (Asn v_kf 0 ((Exp (#4.9614450499054845e+00 + #2.71 * $v_logT - #1.0597804035933966e+03 / $v_T))));
  (*3296*) Do (Asn v_fwd_rxn_rates 238 (v_C.[44] * v_C.[2] * $v_kf));
  (*3297*) If ($v_T) (#1000.0)
    [Asn v_Kc 0 (#(-3.6994049299999996e+00) + #9.5703850999999984e-01 * $v_logT + $v_T * (#2.6934724999999864e-05 + $v_T * (#(-1.9236175000000001e-08) + $v_T * (#2.7460817499999998e-11 + #(-2.5142960000000029e-15) * $v_T))) - #(-2.5740721079999999e+04) / $v_T)]
    [Asn v_Kc 0 (#6.2199401000000076e-01 + #2.9530807999999986e-01 * $v_logT + $v_T * (#5.7123929685000006e-04 + $v_T * (#(-5.0171869483333334e-08) + $v_T * (#3.3783039416666664e-12 + #(-1.2801478349999998e-16) * $v_T))) - #(-2.5498721360000000e+04) / $v_T)];
  (*3303*) If ($v_T) (#1385.0)
    [AddA v_Kc 0 (#4.9720060390000000e+01 + #(-2.3678708899999998e+00) * $v_logT + $v_T * (#6.8677673999999994e-02 + $v_T * (#(-1.3734602633333332e-05) + $v_T * (#1.9701796833333333e-09 + #(-1.2371796600000000e-13) * $v_T))) - #(-1.6766053899999999e+04) / $v_T)]
    [AddA v_Kc 0 (#(-2.0377475980000003e+02) + #3.6968826800000002e+01 * $v_logT + $v_T * (#2.6935973200000001e-02 + $v_T * (#(-3.0361877166666668e-06) + $v_T * (#2.3397875249999998e-10 + #(-8.1054210000000005e-15) * $v_T))) - #(-3.1214498800000001e+04) / $v_T)];
  (*3309*) If ($v_T) (#1391.0)
    [AddA v_Kc 0 (#(-5.2721278540000000e+01) + #3.6218159399999998e+00 * $v_logT + $v_T * (#(-7.3618855499999997e-02) + $v_T * (#1.5732837849999999e-05 + $v_T * (#(-2.5620105666666666e-09) + #2.0180111500000002e-13 * $v_T))) - #4.0065425300000003e+04 / $v_T)]
    [AddA v_Kc 0 (#2.1118042570000000e+02 + #(-3.7509503700000003e+01) * $v_logT + $v_T * (#(-2.8177502399999999e-02) + $v_T * (#3.1915533333333334e-06 + $v_T * (#(-2.4668738499999999e-10) + #8.5622075000000004e-15 * $v_T))) - #5.4884346500000000e+04 / $v_T)];
  (*3315*) Do (Asn v_Kc 0 (#1.0000000000000000e+00 * (Exp $v_Kc)));
  (*3316*) Do (Asn v_rev_rxn_rates 236 (v_C.[47] * v_C.[3] * $v_kf / $v_Kc));
  (*3319*) Do (Asn v_kf 0 ((Exp (#1.2237754316221157e+00 + #2.66 * $v_logT - #2.6519671068077872e+02 / $v_T))));
  (*3320*) Do (Asn v_fwd_rxn_rates 239 (v_C.[44] * v_C.[3] * $v_kf));
  (*3321*) If ($v_T) (#1000.0)
    [Asn v_Kc 0 (#(-2.3193419800000026e-01) + #7.3334950000000454e-02 * $v_logT + $v_T * (#5.9450764500000000e-04 + $v_T * (#(-1.2074666666666665e-09) + $v_T * (#2.5880484166666619e-11 + #(-1.4519780999999993e-14) * $v_T))) - #(-3.3675264819999997e+04) / $v_T)]
    [Asn v_Kc 0 (#(-9.0413426000000063e-01) + #1.6926363000000011e-01 * $v_logT + $v_T * (#5.6020678000000008e-04 + $v_T * (#1.5835040000000005e-08 + $v_T * (#(-1.0630321199999999e-11) + #9.0760289800000003e-16 * $v_T))) - #(-3.3723154840000003e+04) / $v_T)];
  (*3327*) If ($v_T) (#1390.0)
    [AddA v_Kc 0 (#5.1220529509999999e+01 + #(-2.8502874100000000e+00) * $v_logT + $v_T * (#7.1335354000000004e-02 + $v_T * (#(-1.5315275916666666e-05) + $v_T * (#2.5073616000000000e-09 + #(-1.9872715000000000e-13) * $v_T))) - #(-1.5453043500000000e+04) / $v_T)]
    [AddA v_Kc 0 (#(-2.0497492249999999e+02) + #3.7092188499999999e+01 * $v_logT + $v_T * (#2.7105392400000001e-02 + $v_T * (#(-3.0700919500000003e-06) + $v_T * (#2.3730181083333333e-10 + #(-8.2365874000000005e-15) * $v_T))) - #(-2.9819437500000000e+04) / $v_T)];
  (*3333*) If ($v_T) (#1391.0)
    [AddA v_Kc 0 (#(-5.2721278540000000e+01) + #3.6218159399999998e+00 * $v_logT + $v_T * (#(-7.3618855499999997e-02) + $v_T * (#1.5732837849999999e-05 + $v_T * (#(-2.5620105666666666e-09) + #2.0180111500000002e-13 * $v_T))) - #4.0065425300000003e+04 / $v_T)]
    [AddA v_Kc 0 (#2.1118042570000000e+02 + #(-3.7509503700000003e+01) * $v_logT + $v_T * (#(-2.8177502399999999e-02) + $v_T * (#3.1915533333333334e-06 + $v_T * (#(-2.4668738499999999e-10) + #8.5622075000000004e-15 * $v_T))) - #5.4884346500000000e+04 / $v_T)];
  (*3339*) Do (Asn v_Kc 0 (#1.0000000000000000e+00 * (Exp $v_Kc)));
  (*3340*) Do (Asn v_rev_rxn_rates 237 (v_C.[6] * v_C.[45] * $v_kf / $v_Kc));
  (*3343*) Do (Asn v_kf 0 ((Exp (#4.3040650932041702e+00 + #2.39 * $v_logT - #1.9776528898965091e+02 / $v_T))));
  (*3344*) Do (Asn v_fwd_rxn_rates 240 (v_C.[44] * v_C.[3] * $v_kf));
  (*3345*) If ($v_T) (#1000.0)
    [Asn v_Kc 0 (#(-2.3193419800000026e-01) + #7.3334950000000454e-02 * $v_logT + $v_T * (#5.9450764500000000e-04 + $v_T * (#(-1.2074666666666665e-09) + $v_T * (#2.5880484166666619e-11 + #(-1.4519780999999993e-14) * $v_T))) - #(-3.3675264819999997e+04) / $v_T)]
    [Asn v_Kc 0 (#(-9.0413426000000063e-01) + #1.6926363000000011e-01 * $v_logT + $v_T * (#5.6020678000000008e-04 + $v_T * (#1.5835040000000005e-08 + $v_T * (#(-1.0630321199999999e-11) + #9.0760289800000003e-16 * $v_T))) - #(-3.3723154840000003e+04) / $v_T)];
  (*3351*) If ($v_T) (#1385.0)
    [AddA v_Kc 0 (#4.9720060390000000e+01 + #(-2.3678708899999998e+00) * $v_logT + $v_T * (#6.8677673999999994e-02 + $v_T * (#(-1.3734602633333332e-05) + $v_T * (#1.9701796833333333e-09 + #(-1.2371796600000000e-13) * $v_T))) - #(-1.6766053899999999e+04) / $v_T)]
    [AddA v_Kc 0 (#(-2.0377475980000003e+02) + #3.6968826800000002e+01 * $v_logT + $v_T * (#2.6935973200000001e-02 + $v_T * (#(-3.0361877166666668e-06) + $v_T * (#2.3397875249999998e-10 + #(-8.1054210000000005e-15) * $v_T))) - #(-3.1214498800000001e+04) / $v_T)];
  (*3357*) If ($v_T) (#1391.0)
    [AddA v_Kc 0 (#(-5.2721278540000000e+01) + #3.6218159399999998e+00 * $v_logT + $v_T * (#(-7.3618855499999997e-02) + $v_T * (#1.5732837849999999e-05 + $v_T * (#(-2.5620105666666666e-09) + #2.0180111500000002e-13 * $v_T))) - #4.0065425300000003e+04 / $v_T)]
    [AddA v_Kc 0 (#2.1118042570000000e+02 + #(-3.7509503700000003e+01) * $v_logT + $v_T * (#(-2.8177502399999999e-02) + $v_T * (#3.1915533333333334e-06 + $v_T * (#(-2.4668738499999999e-10) + #8.5622075000000004e-15 * $v_T))) - #5.4884346500000000e+04 / $v_T)];
  (*3363*) Do (Asn v_Kc 0 (#1.0000000000000000e+00 * (Exp $v_Kc)));
  (*3364*) Do (Asn v_rev_rxn_rates 238 (v_C.[6] * v_C.[46] * $v_kf / $v_Kc));
  (*3367*) Do (Asn v_kf 0 ((Exp (#4.6151205168412597e+00 + #2.39 * $v_logT - #1.9776528898965091e+02 / $v_T))));
  (*3368*) Do (Asn v_fwd_rxn_rates 241 (v_C.[44] * v_C.[3] * $v_kf));
  (*3369*) If ($v_T) (#1000.0)
    [Asn v_Kc 0 (#(-2.3193419800000026e-01) + #7.3334950000000454e-02 * $v_logT + $v_T * (#5.9450764500000000e-04 + $v_T * (#(-1.2074666666666665e-09) + $v_T * (#2.5880484166666619e-11 + #(-1.4519780999999993e-14) * $v_T))) - #(-3.3675264819999997e+04) / $v_T)]
    [Asn v_Kc 0 (#(-9.0413426000000063e-01) + #1.6926363000000011e-01 * $v_logT + $v_T * (#5.6020678000000008e-04 + $v_T * (#1.5835040000000005e-08 + $v_T * (#(-1.0630321199999999e-11) + #9.0760289800000003e-16 * $v_T))) - #(-3.3723154840000003e+04) / $v_T)];
  (*3375*) If ($v_T) (#1385.0)
    [AddA v_Kc 0 (#4.9720060390000000e+01 + #(-2.3678708899999998e+00) * $v_logT + $v_T * (#6.8677673999999994e-02 + $v_T * (#(-1.3734602633333332e-05) + $v_T * (#1.9701796833333333e-09 + #(-1.2371796600000000e-13) * $v_T))) - #(-1.6766053899999999e+04) / $v_T)]
    [AddA v_Kc 0 (#(-2.0377475980000003e+02) + #3.6968826800000002e+01 * $v_logT + $v_T * (#2.6935973200000001e-02 + $v_T * (#(-3.0361877166666668e-06) + $v_T * (#2.3397875249999998e-10 + #(-8.1054210000000005e-15) * $v_T))) - #(-3.1214498800000001e+04) / $v_T)];
  (*3381*) If ($v_T) (#1391.0)
    [AddA v_Kc 0 (#(-5.2721278540000000e+01) + #3.6218159399999998e+00 * $v_logT + $v_T * (#(-7.3618855499999997e-02) + $v_T * (#1.5732837849999999e-05 + $v_T * (#(-2.5620105666666666e-09) + #2.0180111500000002e-13 * $v_T))) - #4.0065425300000003e+04 / $v_T)]
    [AddA v_Kc 0 (#2.1118042570000000e+02 + #(-3.7509503700000003e+01) * $v_logT + $v_T * (#(-2.8177502399999999e-02) + $v_T * (#3.1915533333333334e-06 + $v_T * (#(-2.4668738499999999e-10) + #8.5622075000000004e-15 * $v_T))) - #5.4884346500000000e+04 / $v_T)];
  (*3387*) Do (Asn v_Kc 0 (#1.0000000000000000e+00 * (Exp $v_Kc)));
  (*3388*) Do (Asn v_rev_rxn_rates 239 (v_C.[6] * v_C.[47] * $v_kf / $v_Kc));
  (*3391*) Do (Asn v_kf 0 ((Exp (#2.4412145291060348e+01 - #2.5628972438277153e+04 / $v_T))));
  (*3392*) Do (Asn v_fwd_rxn_rates 242 (v_C.[44] * v_C.[8] * $v_kf));
  (*3393*) If ($v_T) (#1000.0)
    [Asn v_Kc 0 (#(-4.6035492999999983e-01) + #5.1934164999999988e-01 * $v_logT + $v_T * (#(-8.7619317499999989e-04) + $v_T * (#1.8851645149999997e-06 + $v_T * (#(-1.2162578591666669e-09) + #3.0242614350000006e-13 * $v_T))) - #1.3587516000000001e+03 / $v_T)]
    [Asn v_Kc 0 (#(-2.4028022000000000e+00) + #7.3467306000000043e-01 * $v_logT + $v_T * (#3.7836629500000000e-04 + $v_T * (#2.0718086499999997e-08 + $v_T * (#(-7.9353487499999974e-12) + #5.4404629499999991e-16 * $v_T))) - #1.2003144330000000e+03 / $v_T)];
  (*3399*) If ($v_T) (#1390.0)
    [AddA v_Kc 0 (#5.1220529509999999e+01 + #(-2.8502874100000000e+00) * $v_logT + $v_T * (#7.1335354000000004e-02 + $v_T * (#(-1.5315275916666666e-05) + $v_T * (#2.5073616000000000e-09 + #(-1.9872715000000000e-13) * $v_T))) - #(-1.5453043500000000e+04) / $v_T)]
    [AddA v_Kc 0 (#(-2.0497492249999999e+02) + #3.7092188499999999e+01 * $v_logT + $v_T * (#2.7105392400000001e-02 + $v_T * (#(-3.0700919500000003e-06) + $v_T * (#2.3730181083333333e-10 + #(-8.2365874000000005e-15) * $v_T))) - #(-2.9819437500000000e+04) / $v_T)];
  (*3405*) If ($v_T) (#1391.0)
    [AddA v_Kc 0 (#(-5.2721278540000000e+01) + #3.6218159399999998e+00 * $v_logT + $v_T * (#(-7.3618855499999997e-02) + $v_T * (#1.5732837849999999e-05 + $v_T * (#(-2.5620105666666666e-09) + #2.0180111500000002e-13 * $v_T))) - #4.0065425300000003e+04 / $v_T)]
    [AddA v_Kc 0 (#2.1118042570000000e+02 + #(-3.7509503700000003e+01) * $v_logT + $v_T * (#(-2.8177502399999999e-02) + $v_T * (#3.1915533333333334e-06 + $v_T * (#(-2.4668738499999999e-10) + #8.5622075000000004e-15 * $v_T))) - #5.4884346500000000e+04 / $v_T)];
  (*3411*) Do (Asn v_Kc 0 (#1.0000000000000000e+00 * (Exp $v_Kc)));
  (*3412*) Do (Asn v_rev_rxn_rates 240 (v_C.[4] * v_C.[45] * $v_kf / $v_Kc));
  (*3415*) Do (Asn v_kf 0 ((Exp (#2.5105292471620292e+01 - #2.3948219091647548e+04 / $v_T))));
  (*3416*) Do (Asn v_fwd_rxn_rates 243 (v_C.[44] * v_C.[8] * $v_kf));
  (*3417*) If ($v_T) (#1000.0)
    [Asn v_Kc 0 (#(-4.6035492999999983e-01) + #5.1934164999999988e-01 * $v_logT + $v_T * (#(-8.7619317499999989e-04) + $v_T * (#1.8851645149999997e-06 + $v_T * (#(-1.2162578591666669e-09) + #3.0242614350000006e-13 * $v_T))) - #1.3587516000000001e+03 / $v_T)]
    [Asn v_Kc 0 (#(-2.4028022000000000e+00) + #7.3467306000000043e-01 * $v_logT + $v_T * (#3.7836629500000000e-04 + $v_T * (#2.0718086499999997e-08 + $v_T * (#(-7.9353487499999974e-12) + #5.4404629499999991e-16 * $v_T))) - #1.2003144330000000e+03 / $v_T)];
  (*3423*) If ($v_T) (#1385.0)
    [AddA v_Kc 0 (#4.9720060390000000e+01 + #(-2.3678708899999998e+00) * $v_logT + $v_T * (#6.8677673999999994e-02 + $v_T * (#(-1.3734602633333332e-05) + $v_T * (#1.9701796833333333e-09 + #(-1.2371796600000000e-13) * $v_T))) - #(-1.6766053899999999e+04) / $v_T)]
    [AddA v_Kc 0 (#(-2.0377475980000003e+02) + #3.6968826800000002e+01 * $v_logT + $v_T * (#2.6935973200000001e-02 + $v_T * (#(-3.0361877166666668e-06) + $v_T * (#2.3397875249999998e-10 + #(-8.1054210000000005e-15) * $v_T))) - #(-3.1214498800000001e+04) / $v_T)];
  (*3429*) If ($v_T) (#1391.0)
    [AddA v_Kc 0 (#(-5.2721278540000000e+01) + #3.6218159399999998e+00 * $v_logT + $v_T * (#(-7.3618855499999997e-02) + $v_T * (#1.5732837849999999e-05 + $v_T * (#(-2.5620105666666666e-09) + #2.0180111500000002e-13 * $v_T))) - #4.0065425300000003e+04 / $v_T)]
    [AddA v_Kc 0 (#2.1118042570000000e+02 + #(-3.7509503700000003e+01) * $v_logT + $v_T * (#(-2.8177502399999999e-02) + $v_T * (#3.1915533333333334e-06 + $v_T * (#(-2.4668738499999999e-10) + #8.5622075000000004e-15 * $v_T))) - #5.4884346500000000e+04 / $v_T)];
  (*3435*) Do (Asn v_Kc 0 (#1.0000000000000000e+00 * (Exp $v_Kc)));
  (*3436*) Do (Asn v_rev_rxn_rates 241 (v_C.[4] * v_C.[46] * $v_kf / $v_Kc));
  (*3439*) Do (Asn v_kf 0 ((Exp (#2.5510757579728459e+01 - #2.3948219091647548e+04 / $v_T))));
  (*3440*) Do (Asn v_fwd_rxn_rates 244 (v_C.[44] * v_C.[8] * $v_kf));
  (*3441*) If ($v_T) (#1000.0)
    [Asn v_Kc 0 (#(-4.6035492999999983e-01) + #5.1934164999999988e-01 * $v_logT + $v_T * (#(-8.7619317499999989e-04) + $v_T * (#1.8851645149999997e-06 + $v_T * (#(-1.2162578591666669e-09) + #3.0242614350000006e-13 * $v_T))) - #1.3587516000000001e+03 / $v_T)]
    [Asn v_Kc 0 (#(-2.4028022000000000e+00) + #7.3467306000000043e-01 * $v_logT + $v_T * (#3.7836629500000000e-04 + $v_T * (#2.0718086499999997e-08 + $v_T * (#(-7.9353487499999974e-12) + #5.4404629499999991e-16 * $v_T))) - #1.2003144330000000e+03 / $v_T)];
  (*3447*) If ($v_T) (#1385.0)
    [AddA v_Kc 0 (#4.9720060390000000e+01 + #(-2.3678708899999998e+00) * $v_logT + $v_T * (#6.8677673999999994e-02 + $v_T * (#(-1.3734602633333332e-05) + $v_T * (#1.9701796833333333e-09 + #(-1.2371796600000000e-13) * $v_T))) - #(-1.6766053899999999e+04) / $v_T)]
    [AddA v_Kc 0 (#(-2.0377475980000003e+02) + #3.6968826800000002e+01 * $v_logT + $v_T * (#2.6935973200000001e-02 + $v_T * (#(-3.0361877166666668e-06) + $v_T * (#2.3397875249999998e-10 + #(-8.1054210000000005e-15) * $v_T))) - #(-3.1214498800000001e+04) / $v_T)];
  (*3453*) If ($v_T) (#1391.0)
    [AddA v_Kc 0 (#(-5.2721278540000000e+01) + #3.6218159399999998e+00 * $v_logT + $v_T * (#(-7.3618855499999997e-02) + $v_T * (#1.5732837849999999e-05 + $v_T * (#(-2.5620105666666666e-09) + #2.0180111500000002e-13 * $v_T))) - #4.0065425300000003e+04 / $v_T)]
    [AddA v_Kc 0 (#2.1118042570000000e+02 + #(-3.7509503700000003e+01) * $v_logT + $v_T * (#(-2.8177502399999999e-02) + $v_T * (#3.1915533333333334e-06 + $v_T * (#(-2.4668738499999999e-10) + #8.5622075000000004e-15 * $v_T))) - #5.4884346500000000e+04 / $v_T)];
  (*3459*) Do (Asn v_Kc 0 (#1.0000000000000000e+00 * (Exp $v_Kc)));
  (*3460*) Do (Asn v_rev_rxn_rates 242 (v_C.[4] * v_C.[47] * $v_kf / $v_Kc));
  (*3463*) Do (Asn v_kf 0 ((Exp (#4.2136079830489184e+00 + #2.55 * $v_logT - #8.2980906245275910e+03 / $v_T))));
  (*3464*) Do (Asn v_fwd_rxn_rates 245 (v_C.[44] * v_C.[4] * $v_kf));
  (*3465*) If ($v_T) (#1000.0)
    [Asn v_Kc 0 (#(-2.5592638999999995e-01) + #(-2.5685320000000011e-02) * $v_logT + $v_T * (#2.1031490464999999e-03 + $v_T * (#(-7.3745316666666604e-07) + $v_T * (#2.2494234166666691e-10 + #(-3.3385380500000056e-14) * $v_T))) - #(-1.7997390140000000e+04) / $v_T)]
    [Asn v_Kc 0 (#(-1.0167374799999993e+00) + #1.4779194999999934e-01 * $v_logT + $v_T * (#1.3342484050000000e-03 + $v_T * (#(-2.1128901666666666e-07) + $v_T * (#2.1411634666666661e-11 + #(-8.9999885000000004e-16) * $v_T))) - #(-1.7973644413000002e+04) / $v_T)];
  (*3471*) If ($v_T) (#1390.0)
    [AddA v_Kc 0 (#5.1220529509999999e+01 + #(-2.8502874100000000e+00) * $v_logT + $v_T * (#7.1335354000000004e-02 + $v_T * (#(-1.5315275916666666e-05) + $v_T * (#2.5073616000000000e-09 + #(-1.9872715000000000e-13) * $v_T))) - #(-1.5453043500000000e+04) / $v_T)]
    [AddA v_Kc 0 (#(-2.0497492249999999e+02) + #3.7092188499999999e+01 * $v_logT + $v_T * (#2.7105392400000001e-02 + $v_T * (#(-3.0700919500000003e-06) + $v_T * (#2.3730181083333333e-10 + #(-8.2365874000000005e-15) * $v_T))) - #(-2.9819437500000000e+04) / $v_T)];
  (*3477*) If ($v_T) (#1391.0)
    [AddA v_Kc 0 (#(-5.2721278540000000e+01) + #3.6218159399999998e+00 * $v_logT + $v_T * (#(-7.3618855499999997e-02) + $v_T * (#1.5732837849999999e-05 + $v_T * (#(-2.5620105666666666e-09) + #2.0180111500000002e-13 * $v_T))) - #4.0065425300000003e+04 / $v_T)]
    [AddA v_Kc 0 (#2.1118042570000000e+02 + #(-3.7509503700000003e+01) * $v_logT + $v_T * (#(-2.8177502399999999e-02) + $v_T * (#3.1915533333333334e-06 + $v_T * (#(-2.4668738499999999e-10) + #8.5622075000000004e-15 * $v_T))) - #5.4884346500000000e+04 / $v_T)];
  (*3483*) Do (Asn v_Kc 0 (#1.0000000000000000e+00 * (Exp $v_Kc)));
  (*3484*) Do (Asn v_rev_rxn_rates 243 (v_C.[7] * v_C.[45] * $v_kf / $v_Kc));
  (*3487*) Do (Asn v_kf 0 ((Exp (#4.4886363697321396e+00 + #2.6 * $v_logT - #6.9997841471909524e+03 / $v_T))));
  (*3488*) Do (Asn v_fwd_rxn_rates 246 (v_C.[44] * v_C.[4] * $v_kf));
  (*3489*) If ($v_T) (#1000.0)
    [Asn v_Kc 0 (#(-2.5592638999999995e-01) + #(-2.5685320000000011e-02) * $v_logT + $v_T * (#2.1031490464999999e-03 + $v_T * (#(-7.3745316666666604e-07) + $v_T * (#2.2494234166666691e-10 + #(-3.3385380500000056e-14) * $v_T))) - #(-1.7997390140000000e+04) / $v_T)]
    [Asn v_Kc 0 (#(-1.0167374799999993e+00) + #1.4779194999999934e-01 * $v_logT + $v_T * (#1.3342484050000000e-03 + $v_T * (#(-2.1128901666666666e-07) + $v_T * (#2.1411634666666661e-11 + #(-8.9999885000000004e-16) * $v_T))) - #(-1.7973644413000002e+04) / $v_T)];
  (*3495*) If ($v_T) (#1385.0)
    [AddA v_Kc 0 (#4.9720060390000000e+01 + #(-2.3678708899999998e+00) * $v_logT + $v_T * (#6.8677673999999994e-02 + $v_T * (#(-1.3734602633333332e-05) + $v_T * (#1.9701796833333333e-09 + #(-1.2371796600000000e-13) * $v_T))) - #(-1.6766053899999999e+04) / $v_T)]
    [AddA v_Kc 0 (#(-2.0377475980000003e+02) + #3.6968826800000002e+01 * $v_logT + $v_T * (#2.6935973200000001e-02 + $v_T * (#(-3.0361877166666668e-06) + $v_T * (#2.3397875249999998e-10 + #(-8.1054210000000005e-15) * $v_T))) - #(-3.1214498800000001e+04) / $v_T)];
  (*3501*) If ($v_T) (#1391.0)
    [AddA v_Kc 0 (#(-5.2721278540000000e+01) + #3.6218159399999998e+00 * $v_logT + $v_T * (#(-7.3618855499999997e-02) + $v_T * (#1.5732837849999999e-05 + $v_T * (#(-2.5620105666666666e-09) + #2.0180111500000002e-13 * $v_T))) - #4.0065425300000003e+04 / $v_T)]
    [AddA v_Kc 0 (#2.1118042570000000e+02 + #(-3.7509503700000003e+01) * $v_logT + $v_T * (#(-2.8177502399999999e-02) + $v_T * (#3.1915533333333334e-06 + $v_T * (#(-2.4668738499999999e-10) + #8.5622075000000004e-15 * $v_T))) - #5.4884346500000000e+04 / $v_T)];
  (*3507*) Do (Asn v_Kc 0 (#1.0000000000000000e+00 * (Exp $v_Kc)));
  (*3508*) Do (Asn v_rev_rxn_rates 244 (v_C.[46] * v_C.[7] * $v_kf / $v_Kc));
  (*3511*) Do (Asn v_kf 0 ((Exp (#4.4830025520138834e+00 + #2.6 * $v_logT - #6.9997841471909524e+03 / $v_T))));
  (*3512*) Do (Asn v_fwd_rxn_rates 247 (v_C.[44] * v_C.[4] * $v_kf));
  (*3513*) If ($v_T) (#1000.0)
    [Asn v_Kc 0 (#(-2.5592638999999995e-01) + #(-2.5685320000000011e-02) * $v_logT + $v_T * (#2.1031490464999999e-03 + $v_T * (#(-7.3745316666666604e-07) + $v_T * (#2.2494234166666691e-10 + #(-3.3385380500000056e-14) * $v_T))) - #(-1.7997390140000000e+04) / $v_T)]
    [Asn v_Kc 0 (#(-1.0167374799999993e+00) + #1.4779194999999934e-01 * $v_logT + $v_T * (#1.3342484050000000e-03 + $v_T * (#(-2.1128901666666666e-07) + $v_T * (#2.1411634666666661e-11 + #(-8.9999885000000004e-16) * $v_T))) - #(-1.7973644413000002e+04) / $v_T)];
  (*3519*) If ($v_T) (#1385.0)
    [AddA v_Kc 0 (#4.9720060390000000e+01 + #(-2.3678708899999998e+00) * $v_logT + $v_T * (#6.8677673999999994e-02 + $v_T * (#(-1.3734602633333332e-05) + $v_T * (#1.9701796833333333e-09 + #(-1.2371796600000000e-13) * $v_T))) - #(-1.6766053899999999e+04) / $v_T)]
    [AddA v_Kc 0 (#(-2.0377475980000003e+02) + #3.6968826800000002e+01 * $v_logT + $v_T * (#2.6935973200000001e-02 + $v_T * (#(-3.0361877166666668e-06) + $v_T * (#2.3397875249999998e-10 + #(-8.1054210000000005e-15) * $v_T))) - #(-3.1214498800000001e+04) / $v_T)];
  (*3525*) If ($v_T) (#1391.0)
    [AddA v_Kc 0 (#(-5.2721278540000000e+01) + #3.6218159399999998e+00 * $v_logT + $v_T * (#(-7.3618855499999997e-02) + $v_T * (#1.5732837849999999e-05 + $v_T * (#(-2.5620105666666666e-09) + #2.0180111500000002e-13 * $v_T))) - #4.0065425300000003e+04 / $v_T)]
    [AddA v_Kc 0 (#2.1118042570000000e+02 + #(-3.7509503700000003e+01) * $v_logT + $v_T * (#(-2.8177502399999999e-02) + $v_T * (#3.1915533333333334e-06 + $v_T * (#(-2.4668738499999999e-10) + #8.5622075000000004e-15 * $v_T))) - #5.4884346500000000e+04 / $v_T)];
  (*3531*) Do (Asn v_Kc 0 (#1.0000000000000000e+00 * (Exp $v_Kc)));
  (*3532*) Do (Asn v_rev_rxn_rates 245 (v_C.[7] * v_C.[47] * $v_kf / $v_Kc));
  (*3535*) Do (Asn v_kf 0 ((Exp (#(-6.3144284337044025e+00) + #3.65 * $v_logT - #3.5995295474375903e+03 / $v_T))));
  (*3536*) Do (Asn v_fwd_rxn_rates 248 (v_C.[11] * v_C.[44] * $v_kf));
  (*3537*) If ($v_T) (#1000.0)
    [Asn v_Kc 0 (#(-7.7221538199999991e+00) + #1.4762857299999999e+00 * $v_logT + $v_T * (#(-7.8409652750000003e-03) + $v_T * (#7.2416402233333339e-06 + $v_T * (#(-3.4669273625000003e-09) + #7.0627691300000001e-13 * $v_T))) - #(-2.6691646400000001e+04) / $v_T)]
    [Asn v_Kc 0 (#1.2168112435000001e+01 + #(-2.2108662250000002e+00) * $v_logT + $v_T * (#3.0755231649999999e-03 + $v_T * (#(-4.5761910166666661e-07) + $v_T * (#5.2270058833333329e-11 + #(-2.7549895300000003e-15) * $v_T))) - #(-2.6243928889999999e+04) / $v_T)];
  (*3543*) If ($v_T) (#1390.0)
    [AddA v_Kc 0 (#5.1220529509999999e+01 + #(-2.8502874100000000e+00) * $v_logT + $v_T * (#7.1335354000000004e-02 + $v_T * (#(-1.5315275916666666e-05) + $v_T * (#2.5073616000000000e-09 + #(-1.9872715000000000e-13) * $v_T))) - #(-1.5453043500000000e+04) / $v_T)]
    [AddA v_Kc 0 (#(-2.0497492249999999e+02) + #3.7092188499999999e+01 * $v_logT + $v_T * (#2.7105392400000001e-02 + $v_T * (#(-3.0700919500000003e-06) + $v_T * (#2.3730181083333333e-10 + #(-8.2365874000000005e-15) * $v_T))) - #(-2.9819437500000000e+04) / $v_T)];
  (*3549*) If ($v_T) (#1391.0)
    [AddA v_Kc 0 (#(-5.2721278540000000e+01) + #3.6218159399999998e+00 * $v_logT + $v_T * (#(-7.3618855499999997e-02) + $v_T * (#1.5732837849999999e-05 + $v_T * (#(-2.5620105666666666e-09) + #2.0180111500000002e-13 * $v_T))) - #4.0065425300000003e+04 / $v_T)]
    [AddA v_Kc 0 (#2.1118042570000000e+02 + #(-3.7509503700000003e+01) * $v_logT + $v_T * (#(-2.8177502399999999e-02) + $v_T * (#3.1915533333333334e-06 + $v_T * (#(-2.4668738499999999e-10) + #8.5622075000000004e-15 * $v_T))) - #5.4884346500000000e+04 / $v_T)];
  (*3555*) Do (Asn v_Kc 0 (#1.0000000000000000e+00 * (Exp $v_Kc)));
  (*3556*) Do (Asn v_rev_rxn_rates 246 (v_C.[12] * v_C.[45] * $v_kf / $v_Kc));
  (*3559*) Do (Asn v_kf 0 ((Exp (#(-5.1159958097540823e+00) + #3.46 * $v_logT - #2.7576432154282111e+03 / $v_T))));
  (*3560*) Do (Asn v_fwd_rxn_rates 249 (v_C.[11] * v_C.[44] * $v_kf));
  (*3561*) If ($v_T) (#1000.0)
    [Asn v_Kc 0 (#(-7.7221538199999991e+00) + #1.4762857299999999e+00 * $v_logT + $v_T * (#(-7.8409652750000003e-03) + $v_T * (#7.2416402233333339e-06 + $v_T * (#(-3.4669273625000003e-09) + #7.0627691300000001e-13 * $v_T))) - #(-2.6691646400000001e+04) / $v_T)]
    [Asn v_Kc 0 (#1.2168112435000001e+01 + #(-2.2108662250000002e+00) * $v_logT + $v_T * (#3.0755231649999999e-03 + $v_T * (#(-4.5761910166666661e-07) + $v_T * (#5.2270058833333329e-11 + #(-2.7549895300000003e-15) * $v_T))) - #(-2.6243928889999999e+04) / $v_T)];
  (*3567*) If ($v_T) (#1385.0)
    [AddA v_Kc 0 (#4.9720060390000000e+01 + #(-2.3678708899999998e+00) * $v_logT + $v_T * (#6.8677673999999994e-02 + $v_T * (#(-1.3734602633333332e-05) + $v_T * (#1.9701796833333333e-09 + #(-1.2371796600000000e-13) * $v_T))) - #(-1.6766053899999999e+04) / $v_T)]
    [AddA v_Kc 0 (#(-2.0377475980000003e+02) + #3.6968826800000002e+01 * $v_logT + $v_T * (#2.6935973200000001e-02 + $v_T * (#(-3.0361877166666668e-06) + $v_T * (#2.3397875249999998e-10 + #(-8.1054210000000005e-15) * $v_T))) - #(-3.1214498800000001e+04) / $v_T)];
  (*3573*) If ($v_T) (#1391.0)
    [AddA v_Kc 0 (#(-5.2721278540000000e+01) + #3.6218159399999998e+00 * $v_logT + $v_T * (#(-7.3618855499999997e-02) + $v_T * (#1.5732837849999999e-05 + $v_T * (#(-2.5620105666666666e-09) + #2.0180111500000002e-13 * $v_T))) - #4.0065425300000003e+04 / $v_T)]
    [AddA v_Kc 0 (#2.1118042570000000e+02 + #(-3.7509503700000003e+01) * $v_logT + $v_T * (#(-2.8177502399999999e-02) + $v_T * (#3.1915533333333334e-06 + $v_T * (#(-2.4668738499999999e-10) + #8.5622075000000004e-15 * $v_T))) - #5.4884346500000000e+04 / $v_T)];
  (*3579*) Do (Asn v_Kc 0 (#1.0000000000000000e+00 * (Exp $v_Kc)));
  (*3580*) Do (Asn v_rev_rxn_rates 247 (v_C.[12] * v_C.[46] * $v_kf / $v_Kc));
  (*3583*) Do (Asn v_kf 0 ((Exp (#(-4.7105307016459177e+00) + #3.46 * $v_logT - #2.7576432154282111e+03 / $v_T))));
  (*3584*) Do (Asn v_fwd_rxn_rates 250 (v_C.[11] * v_C.[44] * $v_kf));
  (*3585*) If ($v_T) (#1000.0)
    [Asn v_Kc 0 (#(-7.7221538199999991e+00) + #1.4762857299999999e+00 * $v_logT + $v_T * (#(-7.8409652750000003e-03) + $v_T * (#7.2416402233333339e-06 + $v_T * (#(-3.4669273625000003e-09) + #7.0627691300000001e-13 * $v_T))) - #(-2.6691646400000001e+04) / $v_T)]
    [Asn v_Kc 0 (#1.2168112435000001e+01 + #(-2.2108662250000002e+00) * $v_logT + $v_T * (#3.0755231649999999e-03 + $v_T * (#(-4.5761910166666661e-07) + $v_T * (#5.2270058833333329e-11 + #(-2.7549895300000003e-15) * $v_T))) - #(-2.6243928889999999e+04) / $v_T)];
  (*3591*) If ($v_T) (#1385.0)
    [AddA v_Kc 0 (#4.9720060390000000e+01 + #(-2.3678708899999998e+00) * $v_logT + $v_T * (#6.8677673999999994e-02 + $v_T * (#(-1.3734602633333332e-05) + $v_T * (#1.9701796833333333e-09 + #(-1.2371796600000000e-13) * $v_T))) - #(-1.6766053899999999e+04) / $v_T)]
    [AddA v_Kc 0 (#(-2.0377475980000003e+02) + #3.6968826800000002e+01 * $v_logT + $v_T * (#2.6935973200000001e-02 + $v_T * (#(-3.0361877166666668e-06) + $v_T * (#2.3397875249999998e-10 + #(-8.1054210000000005e-15) * $v_T))) - #(-3.1214498800000001e+04) / $v_T)];
  (*3597*) If ($v_T) (#1391.0)
    [AddA v_Kc 0 (#(-5.2721278540000000e+01) + #3.6218159399999998e+00 * $v_logT + $v_T * (#(-7.3618855499999997e-02) + $v_T * (#1.5732837849999999e-05 + $v_T * (#(-2.5620105666666666e-09) + #2.0180111500000002e-13 * $v_T))) - #4.0065425300000003e+04 / $v_T)]
    [AddA v_Kc 0 (#2.1118042570000000e+02 + #(-3.7509503700000003e+01) * $v_logT + $v_T * (#(-2.8177502399999999e-02) + $v_T * (#3.1915533333333334e-06 + $v_T * (#(-2.4668738499999999e-10) + #8.5622075000000004e-15 * $v_T))) - #5.4884346500000000e+04 / $v_T)];
  (*3603*) Do (Asn v_Kc 0 (#1.0000000000000000e+00 * (Exp $v_Kc)));
  (*3604*) Do (Asn v_rev_rxn_rates 248 (v_C.[12] * v_C.[47] * $v_kf / $v_Kc));
  (*3607*) Do (Asn v_fwd_rxn_rates 251 (v_C.[8] * v_C.[45] * #50000000000.0));
  (*3609*) Do (Asn v_fwd_rxn_rates 252 (v_C.[49] * (Exp (#3.0945207120601072e+01 - #1.3788216077141056e+04 / $v_T))));
  (*3611*) Do (Asn v_fwd_rxn_rates 253 (v_C.[46] * v_C.[8] * #50000000000.0));
  (*3613*) Do (Asn v_fwd_rxn_rates 254 (v_C.[49] * (Exp (#3.0945207120601072e+01 - #1.3788216077141056e+04 / $v_T))));
  (*3615*) Do (Asn v_fwd_rxn_rates 255 (v_C.[8] * v_C.[47] * #50000000000.0));
  (*3617*) Do (Asn v_fwd_rxn_rates 256 (v_C.[49] * (Exp (#3.0945207120601072e+01 - #1.3788216077141056e+04 / $v_T))));
  (*3619*) Do (Asn v_fwd_rxn_rates 257 (v_C.[49] * (Exp (#2.8043130766755382e+01 - #9.5611717323240900e+03 / $v_T))));
  (*3621*) Do (Asn v_fwd_rxn_rates 258 (v_C.[50] * (Exp (#2.5328436022934504e+01 - #5.7870249958803706e+03 / $v_T))));
  (*3623*) Do (Asn v_fwd_rxn_rates 259 (v_C.[8] * v_C.[45] * (Exp (#1.9673443712447732e+01 - #3.0193173891549759e+03 / $v_T))));
  (*3625*) Do (Asn v_fwd_rxn_rates 260 (v_C.[48] * v_C.[4] * (Exp (#1.9571252771551187e+01 - #9.8127815147536712e+03 / $v_T))));
  (*3627*) Do (Asn v_fwd_rxn_rates 261 (v_C.[46] * v_C.[8] * (Exp (#1.9673443712447732e+01 - #3.0193173891549759e+03 / $v_T))));
  (*3629*) Do (Asn v_fwd_rxn_rates 262 (v_C.[48] * v_C.[4] * (Exp (#1.9571252771551187e+01 - #9.8127815147536712e+03 / $v_T))));
  (*3631*) Do (Asn v_fwd_rxn_rates 263 (v_C.[8] * v_C.[47] * (Exp (#1.9673443712447732e+01 - #3.0193173891549759e+03 / $v_T))));
  (*3633*) Do (Asn v_fwd_rxn_rates 264 (v_C.[48] * v_C.[4] * (Exp (#1.9571252771551187e+01 - #9.8127815147536712e+03 / $v_T))));
  (*3635*) Do (Asn v_fwd_rxn_rates 265 (v_C.[50] * v_C.[8] * #46000000.0));
  (*3637*) Do (Asn v_fwd_rxn_rates 266 (v_C.[51] * (Exp (#3.0853888962066286e+01 - #1.3788216077141056e+04 / $v_T))));
  (*3639*) Do (Asn v_kf 0 ((Exp (#2.5211902206678552e+01 - #8.5547326026057654e+03 / $v_T))));
  (*3640*) Do (Asn v_fwd_rxn_rates 267 (v_C.[51] * $v_kf));
  (*3641*) If ($v_T) (#1000.0)
    [Asn v_Kc 0 (#(-4.7642446570000004e+01) + #1.1450663609999999e+01 * $v_logT + $v_T * (#(-4.1591574695000008e-02) + $v_T * (#2.9327374484999999e-05 + $v_T * (#(-1.3228811369166667e-08) + #2.5983946895000004e-12 * $v_T))) - #(-2.1467061880000008e+04) / $v_T)]
    [Asn v_Kc 0 (#7.4238311869999990e+01 + #(-9.5528711399999970e+00) * $v_logT + $v_T * (#5.8183522400000014e-03 + $v_T * (#(-9.6803045966666696e-07) + $v_T * (#9.2992655616666683e-11 + #(-3.8010479379999987e-15) * $v_T))) - #(-1.6839442259999996e+04) / $v_T)];
  (*3647*) Do (Asn v_Kc 0 (#1.2186597134166982e+01 * (Exp $v_Kc)));
  (*3648*) Do (Asn v_rev_rxn_rates 249 (v_C.[52] * v_C.[3] * $v_kf / $v_Kc));
  (*3651*) Do (Asn v_fwd_rxn_rates 268 (v_C.[52] * (Exp (#3.5126563059812803e+01 - #2.1167930995800678e+04 / $v_T))))
].
