(** Transcription of /repo/utilities/mechanisms/gri30/lib/src (C, constant pressure branch); the number
    before a statement is its line. *)
From Coq Require Import List QArith.
From Verif Require Import MechLang.
Import ListNotations.
Local Open Scope mech_scope.

(** [eval_rxn_rates], gri30/lib/src/rxn_rates.c:2-3862. *)
Definition gri30_eval_rxn_rates : list stmt := [
  (*3*) Do (Asn v_logT 0 ((Log $v_T)));
  (*9*) Do (Asn v_kf 0 ((Exp (#2.5510757579728459e+01 - #1.0 * $v_logT))));
  (*10*) Do (Asn v_fwd_rxn_rates 0 (v_C.[2] * v_C.[2] * $v_kf));
  (*11*) If ($v_T) (#1000.0)
    [Asn v_Kc 0 (#2.1078866500000002e+00 + #(-1.5540778400000002e+00) * $v_logT + $v_T * (#1.7809517600000000e-03 + $v_T * (#(-5.7313765166666677e-07) + $v_T * (#2.1456978249999992e-10 + #(-4.9079552499999993e-14) * $v_T))) - #(-5.9308461960000001e+04) / $v_T)]
    [Asn v_Kc 0 (#(-2.2591422699999990e+00) + #(-8.5630372000000055e-01) * $v_logT + $v_T * (#8.2751788369999995e-04 + $v_T * (#(-1.4031059780000000e-07) + $v_T * (#1.9125509566666665e-11 + #(-1.2064226609999998e-15) * $v_T))) - #(-5.9523615919999997e+04) / $v_T)];
  (*17*) Do (Asn v_Kc 0 (#8.2057360967184814e-02 * (Exp $v_Kc)));
  (*18*) Do (Asn v_rev_rxn_rates 0 (v_C.[3] * $v_kf / $v_Kc));
  (*21*) Do (Asn v_kf 0 ((Exp (#2.6937873935368604e+01 - #1.0 * $v_logT))));
  (*22*) Do (Asn v_fwd_rxn_rates 1 (v_C.[1] * v_C.[2] * $v_kf));
  (*23*) If ($v_T) (#1000.0)
    [Asn v_Kc 0 (#(-3.2924395000000217e-02) + #(-6.7625167000000008e-01) * $v_logT + $v_T * (#4.3900065964733344e-04 + $v_T * (#(-3.3752092466734680e-07) + $v_T * (#1.8724440897493195e-10 + #(-3.7427250453613386e-14) * $v_T))) - #(-5.0980838539999997e+04) / $v_T)]
    [Asn v_Kc 0 (#2.1155734939999999e+00 + #(-9.7653312000000003e-01) * $v_logT + $v_T * (#3.1720192639214862e-04 + $v_T * (#1.4092792157300863e-08 + $v_T * (#(-6.4940309137373039e-12) + #5.2564500959013221e-16 * $v_T))) - #(-5.0832581999999995e+04) / $v_T)];
  (*29*) Do (Asn v_Kc 0 (#8.2057360967184814e-02 * (Exp $v_Kc)));
  (*30*) Do (Asn v_rev_rxn_rates 1 (v_C.[4] * $v_kf / $v_Kc));
  (*33*) Do (Asn v_kf 0 ((Exp (#3.6558396000357360e+00 + #2.7 * $v_logT - #3.1501544760183583e+03 / $v_T))));
  (*34*) Do (Asn v_fwd_rxn_rates 2 (v_C.[0] * v_C.[2] * $v_kf));
  (*35*) If ($v_T) (#1000.0)
    [Asn v_Kc 0 (#(-4.2649692189999993e+00) + #9.7941721000000026e-01 * $v_logT + $v_T * (#(-3.5512597146473337e-03) + $v_T * (#2.9088375746673461e-06 + $v_T * (#(-1.4925230406415985e-09) + #3.3137862995361342e-13 * $v_T))) - #8.8441643299999851e+02 / $v_T)]
    [Asn v_Kc 0 (#2.7645101560000005e+00 + #(-3.1381229999999993e-01) * $v_logT + $v_T * (#3.4190313985785133e-04 + $v_T * (#(-6.9149998790634198e-08) + $v_T * (#8.4698344637373057e-12 + #(-4.7563182059013212e-16) * $v_T))) - #1.0648967219999977e+03 / $v_T)];
  (*41*) Do (Asn v_Kc 0 (#1.0000000000000000e+00 * (Exp $v_Kc)));
  (*42*) Do (Asn v_rev_rxn_rates 2 (v_C.[1] * v_C.[4] * $v_kf / $v_Kc));
  (*45*) Do (Asn v_kf 0 (#20000000000.0));
  (*46*) Do (Asn v_fwd_rxn_rates 3 (v_C.[6] * v_C.[2] * $v_kf));
  (*47*) If ($v_T) (#1000.0)
    [Asn v_Kc 0 (#(-2.5192523180000004e+00) + #3.0440668000000004e-01 * $v_logT + $v_T * (#1.3151938349999998e-03 + $v_T * (#(-2.2226854399999996e-06) + $v_T * (#1.4035022683333336e-09 + #(-3.3985339400000004e-13) * $v_T))) - #(-2.6865930240000002e+04) / $v_T)]
    [Asn v_Kc 0 (#1.5716927700000003e+00 + #(-2.1120617000000097e-01) * $v_logT + $v_T * (#(-6.1164380150000020e-05) + $v_T * (#(-6.6252916499999951e-09) + $v_T * (#1.4413174416666637e-12 + #(-1.8401260499999932e-17) * $v_T))) - #(-2.6559236532999999e+04) / $v_T)];
  (*53*) Do (Asn v_Kc 0 (#1.0000000000000000e+00 * (Exp $v_Kc)));
  (*54*) Do (Asn v_rev_rxn_rates 3 (v_C.[3] * v_C.[4] * $v_kf / $v_Kc));
  (*57*) Do (Asn v_kf 0 ((Exp (#9.1726385047921717e+00 + #2.0 * $v_logT - #2.0128782594366505e+03 / $v_T))));
  (*58*) Do (Asn v_fwd_rxn_rates 4 (v_C.[7] * v_C.[2] * $v_kf));
  (*59*) If ($v_T) (#1000.0)
    [Asn v_Kc 0 (#(-2.7236808580000007e+00) + #8.4943364999999948e-01 * $v_logT + $v_T * (#(-1.6641483864999998e-03) + $v_T * (#3.9993224166666568e-07 + $v_T * (#(-3.7697932500000338e-11) + #(-4.0418699999999293e-15) * $v_T))) - #(-7.5097885000000024e+03) / $v_T)]
    [Asn v_Kc 0 (#1.8562804999999960e-01 + #3.7567494000000012e-01 * $v_logT + $v_T * (#(-1.0170464901500002e-03) + $v_T * (#2.2538181151666665e-07 + $v_T * (#(-2.7905665974999997e-11) + #1.4256438845000000e-15 * $v_T))) - #(-7.3852776869999980e+03) / $v_T)];
  (*65*) Do (Asn v_Kc 0 (#1.0000000000000000e+00 * (Exp $v_Kc)));
  (*66*) Do (Asn v_rev_rxn_rates 4 (v_C.[6] * v_C.[4] * $v_kf / $v_Kc));
  (*69*) Do (Asn v_kf 0 (#57000000000.0));
  (*70*) Do (Asn v_fwd_rxn_rates 5 (v_C.[9] * v_C.[2] * $v_kf));
  (*71*) If ($v_T) (#1000.0)
    [Asn v_Kc 0 (#(-4.9566783299999972e-01) + #(-5.7855028000000042e-01) * $v_logT + $v_T * (#1.1725648098526663e-03 + $v_T * (#(-6.5620983033265328e-07) + $v_T * (#3.2274157135840136e-10 + #(-8.0549676996386610e-14) * $v_T))) - #(-8.8789978699999992e+04) / $v_T)]
    [Asn v_Kc 0 (#(-2.6646139339999997e+00) + #(-2.3269989000000058e-01) * $v_logT + $v_T * (#5.8879391980785141e-04 + $v_T * (#(-1.9753664479063422e-07) + $v_T * (#3.0896552680403970e-11 + #(-1.9600523155901322e-15) * $v_T))) - #(-8.8908228000000003e+04) / $v_T)];
  (*77*) Do (Asn v_Kc 0 (#1.0000000000000000e+00 * (Exp $v_Kc)));
  (*78*) Do (Asn v_rev_rxn_rates 5 (v_C.[1] * v_C.[14] * $v_kf / $v_Kc));
  (*81*) Do (Asn v_kf 0 (#80000000000.0));
  (*82*) Do (Asn v_fwd_rxn_rates 6 (v_C.[10] * v_C.[2] * $v_kf));
  (*83*) If ($v_T) (#1000.0)
    [Asn v_Kc 0 (#(-4.5701580300000000e-01) + #(-2.0975992999999971e-01) * $v_logT + $v_T * (#(-4.6673931114733346e-04) + $v_T * (#7.2366370466734677e-07 + $v_T * (#(-2.7795262730826525e-10) + #2.6880587453613382e-14 * $v_T))) - #(-4.5813074439999997e+04) / $v_T)]
    [Asn v_Kc 0 (#(-1.4325223539999996e+00) + #(-1.7134752000000031e-01) * $v_logT + $v_T * (#6.9326821530785122e-04 + $v_T * (#(-1.8624310045730086e-07) + $v_T * (#2.8250000347070641e-11 + #(-1.7903225405901321e-15) * $v_T))) - #(-4.5995605049999998e+04) / $v_T)];
  (*89*) Do (Asn v_Kc 0 (#1.0000000000000000e+00 * (Exp $v_Kc)));
  (*90*) Do (Asn v_rev_rxn_rates 6 (v_C.[1] * v_C.[16] * $v_kf / $v_Kc));
  (*93*) Do (Asn v_kf 0 (#15000000000.0));
  (*94*) Do (Asn v_fwd_rxn_rates 7 (v_C.[11] * v_C.[2] * $v_kf));
  (*95*) If ($v_T) (#1000.0)
    [Asn v_Kc 0 (#4.3516116450000002e+00 + #(-1.4430066199999998e+00) * $v_logT + $v_T * (#6.5080500499999994e-03 + $v_T * (#(-5.5562271383333331e-06) + $v_T * (#2.8233701111666669e-09 + #(-6.1681745945000004e-13) * $v_T))) - #(-9.4881096672999993e+04) / $v_T)]
    [Asn v_Kc 0 (#(-9.9881815299999985e+00) + #1.1910056099999999e+00 * $v_logT + $v_T * (#(-1.2783936497000000e-03) + $v_T * (#2.4510033634999999e-07 + $v_T * (#(-2.9783467175000008e-11) + #1.6202032794999998e-15 * $v_T))) - #(-9.5245610121999998e+04) / $v_T)];
  (*101*) Do (Asn v_Kc 0 (#1.0000000000000000e+00 * (Exp $v_Kc)));
  (*102*) Do (Asn v_rev_rxn_rates 7 (v_C.[0] * v_C.[14] * $v_kf / $v_Kc));
  (*105*) Do (Asn v_kf 0 (#15000000000.0));
  (*106*) Do (Asn v_fwd_rxn_rates 8 (v_C.[11] * v_C.[2] * $v_kf));
  (*107*) If ($v_T) (#1000.0)
    [Asn v_Kc 0 (#2.3105604539999995e+00 + #(-6.4568536999999937e-01) * $v_logT + $v_T * (#1.2010038553526665e-03 + $v_T * (#(-1.8268026033265306e-07) + $v_T * (#(-4.1515270641598609e-11) + #1.4094078453613377e-14 * $v_T))) - #(-5.0305850640000004e+04) / $v_T)]
    [Asn v_Kc 0 (#(-4.4698935139999989e+00) + #4.1071518999999990e-01 * $v_logT + $v_T * (#1.9352149030785112e-04 + $v_T * (#(-8.5747517123967536e-08) + $v_T * (#1.5106129430403969e-11 + #(-1.0303785505901323e-15) * $v_T))) - #(-5.0658000749999999e+04) / $v_T)];
  (*113*) Do (Asn v_Kc 0 (#1.0000000000000000e+00 * (Exp $v_Kc)));
  (*114*) Do (Asn v_rev_rxn_rates 8 (v_C.[1] * v_C.[16] * $v_kf / $v_Kc));
  (*117*) Do (Asn v_kf 0 (#50600000000.0));
  (*118*) Do (Asn v_fwd_rxn_rates 9 (v_C.[12] * v_C.[2] * $v_kf));
  (*119*) If ($v_T) (#1000.0)
    [Asn v_Kc 0 (#(-3.9522333930000006e+00) + #4.5186564999999979e-01 * $v_logT + $v_T * (#(-4.3199832996473333e-03) + $v_T * (#4.1581197130006792e-06 + $v_T * (#(-2.0774404673082650e-09) + #4.2603740745361341e-13 * $v_T))) - #(-3.4402554800000005e+04) / $v_T)]
    [Asn v_Kc 0 (#5.3967806600000001e-01 + #(-5.9444841000000048e-01) * $v_logT + $v_T * (#1.0230372703078517e-03 + $v_T * (#(-2.4623218212396754e-07) + $v_T * (#3.5062104263737296e-11 + #(-2.1449230505901326e-15) * $v_T))) - #(-3.4515335800000001e+04) / $v_T)];
  (*125*) Do (Asn v_Kc 0 (#1.0000000000000000e+00 * (Exp $v_Kc)));
  (*126*) Do (Asn v_rev_rxn_rates 9 (v_C.[17] * v_C.[1] * $v_kf / $v_Kc));
  (*129*) Do (Asn v_kf 0 ((Exp (#1.3835313185260453e+01 + #1.5 * $v_logT - #4.3276882577887991e+03 / $v_T))));
  (*130*) Do (Asn v_fwd_rxn_rates 10 (v_C.[13] * v_C.[2] * $v_kf));
  (*131*) If ($v_T) (#1000.0)
    [Asn v_Kc 0 (#4.7425465719999984e+00 + #(-6.5253739999999949e-01) * $v_logT + $v_T * (#8.2799659350000013e-03 + $v_T * (#(-7.5791611483333340e-06) + $v_T * (#3.6541717716666670e-09 + #(-7.4370416350000000e-13) * $v_T))) - #1.1844677599999995e+03 / $v_T)]
    [Asn v_Kc 0 (#(-1.2999221865000001e+01) + #2.7343331149999996e+00 * $v_logT + $v_T * (#(-2.7583212501499999e-03) + $v_T * (#4.7171189651666662e-07 + $v_T * (#(-5.8764090141666669e-11) + #3.2806345645000004e-15 * $v_T))) - #8.8500678999999946e+02 / $v_T)];
  (*137*) Do (Asn v_Kc 0 (#1.0000000000000000e+00 * (Exp $v_Kc)));
  (*138*) Do (Asn v_rev_rxn_rates 10 (v_C.[12] * v_C.[4] * $v_kf / $v_Kc));
  (*141*) Do (Asn v_kf 0 ((Exp (#1.6705882315860439e+01 - #1.2001786621891029e+03 / $v_T))));
  (*142*) Do (Asn v_fwd_rxn_rates 11 (v_C.[14] * v_C.[2] * $v_kf));
  (*143*) If ($v_T) (#1000.0)
    [Asn v_Kc 0 (#8.7317365300000009e+00 + #(-3.3910270499999999e+00) * $v_logT + $v_T * (#6.4371346450000002e-03 + $v_T * (#(-2.4639068299999998e-06) + $v_T * (#6.4002088133333328e-10 + #(-6.7596737950000005e-14) * $v_T))) - #(-6.3150142900000006e+04) / $v_T)]
    [Asn v_Kc 0 (#(-8.9042422000000006e+00) + #(-4.2714609999999986e-01) * $v_logT + $v_T * (#1.2189084718499997e-03 + $v_T * (#(-2.0965612131666668e-07) + $v_T * (#2.5287913325000004e-11 + #(-1.4035990855000001e-15) * $v_T))) - #(-6.3824872699999993e+04) / $v_T)];
  (*149*) Do (Asn v_Kc 0 (#8.2057360967184814e-02 * (Exp $v_Kc)));
  (*150*) Do (Asn v_rev_rxn_rates 11 (v_C.[15] * $v_kf / $v_Kc));
  (*153*) Do (Asn v_kf 0 (#30000000000.0));
  (*154*) Do (Asn v_fwd_rxn_rates 12 (v_C.[16] * v_C.[2] * $v_kf));
  (*155*) If ($v_T) (#1000.0)
    [Asn v_Kc 0 (#(-2.2239180279999999e+00) + #1.8209595999999939e-01 * $v_logT + $v_T * (#1.7557864799999999e-03 + $v_T * (#(-2.4647093033333336e-06) + $v_T * (#1.3723623411666668e-09 + #(-2.9953290795000000e-13) * $v_T))) - #(-4.3690829599999997e+04) / $v_T)]
    [Asn v_Kc 0 (#(-2.7537778600000000e+00) + #4.6647811999999966e-01 * $v_logT + $v_T * (#(-1.1300120001499999e-03) + $v_T * (#2.6169785468333331e-07 + $v_T * (#(-3.6419762141666674e-11) + #2.1749500095000002e-15 * $v_T))) - #(-4.3522712650000001e+04) / $v_T)];
  (*161*) Do (Asn v_Kc 0 (#1.0000000000000000e+00 * (Exp $v_Kc)));
  (*162*) Do (Asn v_rev_rxn_rates 12 (v_C.[14] * v_C.[4] * $v_kf / $v_Kc));
  (*165*) Do (Asn v_kf 0 (#30000000000.0));
  (*166*) Do (Asn v_fwd_rxn_rates 13 (v_C.[16] * v_C.[2] * $v_kf));
  (*167*) If ($v_T) (#1000.0)
    [Asn v_Kc 0 (#6.5407428970000012e+00 + #(-2.5326794200000005e+00) * $v_logT + $v_T * (#7.7539204653526671e-03 + $v_T * (#(-4.5910952086659868e-06) + $v_T * (#1.8251388135250679e-09 + #(-3.2970239544638660e-13) * $v_T))) - #(-5.5860133960000006e+04) / $v_T)]
    [Asn v_Kc 0 (#(-1.3773593554000001e+01) + #1.0158651399999994e+00 * $v_logT + $v_T * (#(-2.2830545469214872e-04) + $v_T * (#3.7948941209365814e-08 + $v_T * (#(-4.6378179029293617e-12) + #2.4570591440986795e-16 * $v_T))) - #(-5.6515003349999999e+04) / $v_T)];
  (*173*) Do (Asn v_Kc 0 (#1.0000000000000000e+00 * (Exp $v_Kc)));
  (*174*) Do (Asn v_rev_rxn_rates 13 (v_C.[1] * v_C.[15] * $v_kf / $v_Kc));
  (*177*) Do (Asn v_kf 0 ((Exp (#2.4386827483076058e+01 - #1.7813972596014357e+03 / $v_T))));
  (*178*) Do (Asn v_fwd_rxn_rates 14 (v_C.[17] * v_C.[2] * $v_kf));
  (*179*) If ($v_T) (#1000.0)
    [Asn v_Kc 0 (#3.8448959199999910e-01 + #2.5121102000000084e-01 * $v_logT + $v_T * (#3.7712048449999999e-03 + $v_T * (#(-4.2611969583333330e-06) + $v_T * (#2.2384208091666663e-09 + #(-4.7940607800000004e-13) * $v_T))) - #(-7.3586569799999997e+03) / $v_T)]
    [Asn v_Kc 0 (#(-5.7005718100000013e+00) + #1.5349511899999997e+00 * $v_logT + $v_T * (#(-1.8043208651500001e-03) + $v_T * (#3.3711479484999995e-07 + $v_T * (#(-4.1264893141666657e-11) + #2.2773796795000006e-15 * $v_T))) - #(-7.3511716500000002e+03) / $v_T)];
  (*185*) Do (Asn v_Kc 0 (#1.0000000000000000e+00 * (Exp $v_Kc)));
  (*186*) Do (Asn v_rev_rxn_rates 14 (v_C.[16] * v_C.[4] * $v_kf / $v_Kc));
  (*189*) Do (Asn v_kf 0 (#10000000000.0));
  (*190*) Do (Asn v_fwd_rxn_rates 15 (v_C.[18] * v_C.[2] * $v_kf));
  (*191*) If ($v_T) (#1000.0)
    [Asn v_Kc 0 (#(-8.7796507479999981e+00) + #1.7535823000000001e+00 * $v_logT + $v_T * (#(-7.3135277049999996e-03) + $v_T * (#4.8940262233333329e-06 + $v_T * (#(-2.1023659991666664e-09) + #4.0295237050000001e-13 * $v_T))) - #(-3.6622221669999999e+04) / $v_T)]
    [Asn v_Kc 0 (#8.9467570300000006e+00 + #(-1.4085087199999999e+00) * $v_logT + $v_T * (#5.9431833984999974e-04 + $v_T * (#(-9.7836693483333255e-08) + $v_T * (#1.1770759024999992e-11 + #(-6.5086216050000015e-16) * $v_T))) - #(-3.6112248130000000e+04) / $v_T)];
  (*197*) Do (Asn v_Kc 0 (#1.0000000000000000e+00 * (Exp $v_Kc)));
  (*198*) Do (Asn v_rev_rxn_rates 15 (v_C.[17] * v_C.[4] * $v_kf / $v_Kc));
  (*201*) Do (Asn v_kf 0 (#10000000000.0));
  (*202*) Do (Asn v_fwd_rxn_rates 16 (v_C.[19] * v_C.[2] * $v_kf));
  (*203*) If ($v_T) (#1000.0)
    [Asn v_Kc 0 (#(-1.8216490497999999e+01) + #3.5112674800000003e+00 * $v_logT + $v_T * (#(-8.1234636850000003e-03) + $v_T * (#4.9930672083333330e-06 + $v_T * (#(-2.3586630991666664e-09) + #5.1765550950000007e-13 * $v_T))) - #(-4.0794736440000001e+04) / $v_T)]
    [Asn v_Kc 0 (#1.1905747490000001e+01 + #(-1.4866420299999996e+00) * $v_logT + $v_T * (#9.8145382485000012e-04 + $v_T * (#(-2.8027456014999993e-07) + $v_T * (#4.4503387024999995e-11 + #(-2.8373251655000005e-15) * $v_T))) - #(-3.9482586920000002e+04) / $v_T)];
  (*209*) Do (Asn v_Kc 0 (#1.0000000000000000e+00 * (Exp $v_Kc)));
  (*210*) Do (Asn v_rev_rxn_rates 16 (v_C.[17] * v_C.[4] * $v_kf / $v_Kc));
  (*213*) Do (Asn v_kf 0 ((Exp (#5.9610053396232736e+00 + #2.5 * $v_logT - #1.5599806510634041e+03 / $v_T))));
  (*214*) Do (Asn v_fwd_rxn_rates 17 (v_C.[20] * v_C.[2] * $v_kf));
  (*215*) If ($v_T) (#1000.0)
    [Asn v_Kc 0 (#5.8490200520000002e+00 + #(-1.0277583100000007e+00) * $v_logT + $v_T * (#1.0852818630000000e-02 + $v_T * (#(-1.0222753856666666e-05) + $v_T * (#5.2395350508333331e-09 + #(-1.1257071015000000e-12) * $v_T))) - #(-3.0583267100000012e+03) / $v_T)]
    [Asn v_Kc 0 (#(-1.1425997360000000e+01) + #2.4264246699999998e+00 * $v_logT + $v_T * (#(-2.4068287001499994e-03) + $v_T * (#4.4975898651666659e-07 + $v_T * (#(-5.6033715808333333e-11) + #3.1358850294999997e-15 * $v_T))) - #(-3.2265536699999975e+03) / $v_T)];
  (*221*) Do (Asn v_Kc 0 (#1.0000000000000000e+00 * (Exp $v_Kc)));
  (*222*) Do (Asn v_rev_rxn_rates 17 (v_C.[18] * v_C.[4] * $v_kf / $v_Kc));
  (*225*) Do (Asn v_kf 0 ((Exp (#4.8675344504555822e+00 + #2.5 * $v_logT - #2.5160978242958131e+03 / $v_T))));
  (*226*) Do (Asn v_fwd_rxn_rates 18 (v_C.[20] * v_C.[2] * $v_kf));
  (*227*) If ($v_T) (#1000.0)
    [Asn v_Kc 0 (#1.5285859802000001e+01 + #(-2.7854434900000000e+00) * $v_logT + $v_T * (#1.1662754610000001e-02 + $v_T * (#(-1.0321794841666667e-05) + $v_T * (#5.4958321508333335e-09 + #(-1.2404102405000000e-12) * $v_T))) - #1.1141880600000004e+03 / $v_T)]
    [Asn v_Kc 0 (#(-1.4384987819999999e+01) + #2.5045579800000000e+00 * $v_logT + $v_T * (#(-2.7939641851499998e-03) + $v_T * (#6.3219685318333327e-07 + $v_T * (#(-8.8766343808333338e-11) + #5.3223480345000000e-15 * $v_T))) - #1.4378512000000046e+02 / $v_T)];
  (*233*) Do (Asn v_Kc 0 (#1.0000000000000000e+00 * (Exp $v_Kc)));
  (*234*) Do (Asn v_rev_rxn_rates 18 (v_C.[19] * v_C.[4] * $v_kf / $v_Kc));
  (*237*) Do (Asn v_kf 0 (#50000000000.0));
  (*238*) Do (Asn v_fwd_rxn_rates 19 (v_C.[21] * v_C.[2] * $v_kf));
  (*239*) If ($v_T) (#1000.0)
    [Asn v_Kc 0 (#(-3.6939031699999991e+00) + #1.0114256899999994e+00 * $v_logT + $v_T * (#(-5.2085801994999998e-03) + $v_T * (#3.5269516366666664e-06 + $v_T * (#(-1.6068215921666667e-09) + #3.2549881104999994e-13 * $v_T))) - #(-3.9508445000000007e+04) / $v_T)]
    [Asn v_Kc 0 (#2.0270112800000004e+00 + #(-1.4357696000000031e-01) * $v_logT + $v_T * (#(-8.1640189764999981e-04) + $v_T * (#1.5692369918333330e-07 + $v_T * (#(-1.6233942758333336e-11) + #6.8690533949999995e-16 * $v_T))) - #(-3.9478080099999992e+04) / $v_T)];
  (*245*) Do (Asn v_Kc 0 (#1.0000000000000000e+00 * (Exp $v_Kc)));
  (*246*) Do (Asn v_rev_rxn_rates 19 (v_C.[9] * v_C.[14] * $v_kf / $v_Kc));
  (*249*) Do (Asn v_kf 0 ((Exp (#9.5104449644265205e+00 + #2.0 * $v_logT - #9.5611717323240896e+02 / $v_T))));
  (*250*) Do (Asn v_fwd_rxn_rates 20 (v_C.[22] * v_C.[2] * $v_kf));
  (*251*) If ($v_T) (#1000.0)
    [Asn v_Kc 0 (#(-4.7226776189999988e+00) + #7.7477320600000033e-01 * $v_logT + $v_T * (#(-1.2136115296473345e-03) + $v_T * (#8.5750275633401335e-07 + $v_T * (#(-3.8428487147493181e-10) + #6.6079446453613315e-14 * $v_T))) - #(-1.0018131000000001e+04) / $v_T)]
    [Asn v_Kc 0 (#(-9.3422152339999975e+00) + #1.4112153899999993e+00 * $v_logT + $v_T * (#(-8.9517622469214859e-04) + $v_T * (#1.2292422954269918e-07 + $v_T * (#(-1.4261156319596030e-11) + #7.7436764440986807e-16 * $v_T))) - #(-1.0352703400000002e+04) / $v_T)];
  (*257*) Do (Asn v_Kc 0 (#1.0000000000000000e+00 * (Exp $v_Kc)));
  (*258*) Do (Asn v_rev_rxn_rates 20 (v_C.[1] * v_C.[27] * $v_kf / $v_Kc));
  (*261*) Do (Asn v_kf 0 ((Exp (#3.8367417791399781e+01 - #1.41 * $v_logT - #1.4568206402672758e+04 / $v_T))));
  (*262*) Do (Asn v_fwd_rxn_rates 21 (v_C.[22] * v_C.[2] * $v_kf));
  (*263*) If ($v_T) (#1000.0)
    [Asn v_Kc 0 (#(-1.2777324203999999e+01) + #2.9047245660000001e+00 * $v_logT + $v_T * (#(-4.5368002400000005e-03) + $v_T * (#8.3585097499999984e-07 + $v_T * (#3.0923280916666680e-10 + #(-1.5904831849999996e-13) * $v_T))) - #1.4903233860000008e+04 / $v_T)]
    [Asn v_Kc 0 (#8.0148296499999994e+00 + #(-4.5629622999999997e-01) * $v_logT + $v_T * (#(-2.8752189514999986e-04) + $v_T * (#1.0327241985000004e-07 + $v_T * (#(-2.0095857891666669e-11) + #1.4456572494999999e-15 * $v_T))) - #1.5826143700000011e+04 / $v_T)];
  (*269*) Do (Asn v_Kc 0 (#1.0000000000000000e+00 * (Exp $v_Kc)));
  (*270*) Do (Asn v_rev_rxn_rates 21 (v_C.[21] * v_C.[4] * $v_kf / $v_Kc));
  (*273*) Do (Asn v_kf 0 ((Exp (#8.8450570535008506e+00 + #2.0 * $v_logT - #9.5611717323240896e+02 / $v_T))));
  (*274*) Do (Asn v_fwd_rxn_rates 22 (v_C.[22] * v_C.[2] * $v_kf));
  (*275*) If ($v_T) (#1000.0)
    [Asn v_Kc 0 (#(-1.4285961375999998e+01) + #3.3652639460000002e+00 * $v_logT + $v_T * (#(-9.8618627984999995e-03) + $v_T * (#5.4476383800000000e-06 + $v_T * (#(-2.0692569254999999e-09) + #3.5855313604999996e-13 * $v_T))) - #(-2.3891285800000001e+04) / $v_T)]
    [Asn v_Kc 0 (#1.1563527210000000e+01 + #(-1.1277036800000007e+00) * $v_logT + $v_T * (#(-7.8386088149999999e-05) + $v_T * (#(-1.2795279983333339e-08) + $v_T * (#2.7365138249999962e-12 + #(-2.1211719550000020e-16) * $v_T))) - #(-2.3041846699999998e+04) / $v_T)];
  (*281*) Do (Asn v_Kc 0 (#1.0000000000000000e+00 * (Exp $v_Kc)));
  (*282*) Do (Asn v_rev_rxn_rates 22 (v_C.[10] * v_C.[14] * $v_kf / $v_Kc));
  (*285*) Do (Asn v_kf 0 (#30000000000.0));
  (*286*) Do (Asn v_fwd_rxn_rates 23 (v_C.[23] * v_C.[2] * $v_kf));
  (*287*) If ($v_T) (#1000.0)
    [Asn v_Kc 0 (#2.9513886870000001e+00 + #(-1.7448972500000002e+00) * $v_logT + $v_T * (#9.9416996603526649e-03 + $v_T * (#(-8.3264587603326529e-06) + $v_T * (#4.2698188851917346e-09 + #(-9.4211615804638671e-13) * $v_T))) - #(-4.5551364140000005e+04) / $v_T)]
    [Asn v_Kc 0 (#(-1.3811250679000000e+01) + #1.4251525499999995e+00 * $v_logT + $v_T * (#(-6.2032882969214893e-04) + $v_T * (#7.8246449542699077e-08 + $v_T * (#(-7.0224352362626939e-12) + #2.7742737940986773e-16 * $v_T))) - #(-4.5907846210000003e+04) / $v_T)];
  (*293*) Do (Asn v_Kc 0 (#1.0000000000000000e+00 * (Exp $v_Kc)));
  (*294*) Do (Asn v_rev_rxn_rates 23 (v_C.[1] * v_C.[28] * $v_kf / $v_Kc));
  (*297*) Do (Asn v_kf 0 ((Exp (#9.4334839232903924e+00 + #1.83 * $v_logT - #1.1070830426901578e+02 / $v_T))));
  (*298*) Do (Asn v_fwd_rxn_rates 24 (v_C.[24] * v_C.[2] * $v_kf));
  (*299*) If ($v_T) (#1000.0)
    [Asn v_Kc 0 (#(-1.9176353200000000e+00) + #7.6730766000000061e-01 * $v_logT + $v_T * (#4.8084338700000000e-03 + $v_T * (#(-7.3719883333333335e-06) + $v_T * (#4.5917798324999999e-09 + #(-1.1109775510000001e-12) * $v_T))) - #(-1.3927471369999999e+04) / $v_T)]
    [Asn v_Kc 0 (#2.7363486099999990e+00 + #4.5236016000000001e-01 * $v_logT + $v_T * (#(-1.1812926781500001e-03) + $v_T * (#1.9953851351666670e-07 + $v_T * (#(-2.3113752341666686e-11) + #1.2205706794999998e-15 * $v_T))) - #(-1.3369962789999998e+04) / $v_T)];
  (*305*) Do (Asn v_Kc 0 (#1.0000000000000000e+00 * (Exp $v_Kc)));
  (*306*) Do (Asn v_rev_rxn_rates 24 (v_C.[12] * v_C.[16] * $v_kf / $v_Kc));
  (*309*) Do (Asn v_kf 0 (#22400000000.0));
  (*310*) Do (Asn v_fwd_rxn_rates 25 (v_C.[25] * v_C.[2] * $v_kf));
  (*311*) If ($v_T) (#1000.0)
    [Asn v_Kc 0 (#(-5.5443462399999994e+00) + #9.9258077000000045e-01 * $v_logT + $v_T * (#(-2.1573708999999977e-04) + $v_T * (#(-2.2175208833333346e-06) + $v_T * (#1.7700855408333336e-09 + #(-4.7212187850000007e-13) * $v_T))) - #(-3.9827843600000000e+04) / $v_T)]
    [Asn v_Kc 0 (#4.3672912500000010e+00 + #(-4.7766940000000035e-01) * $v_logT + $v_T * (#(-4.3569844814999968e-04) + $v_T * (#8.8397768516666726e-08 + $v_T * (#(-1.1671862174999995e-11) + #6.6561178449999901e-16 * $v_T))) - #(-3.9295347099999999e+04) / $v_T)];
  (*317*) Do (Asn v_Kc 0 (#1.0000000000000000e+00 * (Exp $v_Kc)));
  (*318*) Do (Asn v_rev_rxn_rates 25 (v_C.[17] * v_C.[12] * $v_kf / $v_Kc));
  (*321*) Do (Asn v_kf 0 ((Exp (#1.1405340254290291e+01 + #1.92 * $v_logT - #2.8633193240486353e+03 / $v_T))));
  (*322*) Do (Asn v_fwd_rxn_rates 26 (v_C.[26] * v_C.[2] * $v_kf));
  (*323*) If ($v_T) (#1000.0)
    [Asn v_Kc 0 (#(-9.5426192799999976e-01) + #8.3878908999999924e-01 * $v_logT + $v_T * (#1.0964775499999993e-03 + $v_T * (#(-2.0424456083333350e-06) + $v_T * (#1.0984084008333345e-09 + #(-2.2831108549999995e-13) * $v_T))) - #(-1.1433466399999998e+03) / $v_T)]
    [Asn v_Kc 0 (#(-3.3670607499999998e+00) + #1.4062418100000000e+00 * $v_logT + $v_T * (#(-1.8267958351500004e-03) + $v_T * (#3.5468279818333322e-07 + $v_T * (#(-4.4989291308333346e-11) + #2.5437107345000002e-15 * $v_T))) - #(-1.0750088999999971e+03) / $v_T)];
  (*329*) Do (Asn v_Kc 0 (#1.0000000000000000e+00 * (Exp $v_Kc)));
  (*330*) Do (Asn v_rev_rxn_rates 26 (v_C.[25] * v_C.[4] * $v_kf / $v_Kc));
  (*333*) Do (Asn v_kf 0 (#1e+11));
  (*334*) Do (Asn v_fwd_rxn_rates 27 (v_C.[27] * v_C.[2] * $v_kf));
  (*335*) If ($v_T) (#1000.0)
    [Asn v_Kc 0 (#(-1.2211293192999999e+01) + #3.2390784399999997e+00 * $v_logT + $v_T * (#(-7.7982047596473342e-03) + $v_T * (#3.1866109496673467e-06 + $v_T * (#(-7.7780674914159882e-10) + #5.7248619553613431e-14 * $v_T))) - #(-5.2396220300000001e+04) / $v_T)]
    [Asn v_Kc 0 (#1.4603868735999999e+01 + #(-1.2672553500000006e+00) * $v_logT + $v_T * (#6.2844425307851325e-05 + $v_T * (#(-7.4357547457300893e-08) + $v_T * (#1.5321939263737300e-11 + #(-1.1275023805901323e-15) * $v_T))) - #(-5.1374879000000001e+04) / $v_T)];
  (*341*) Do (Asn v_Kc 0 (#1.2186597134166982e+01 * (Exp $v_Kc)));
  (*342*) Do (Asn v_rev_rxn_rates 27 (v_C.[1] * v_C.[14] * v_C.[14] * $v_kf / $v_Kc));
  (*345*) Do (Asn v_kf 0 ((Exp (#2.3025850929940457e+01 - #4.0257565188733010e+03 / $v_T))));
  (*346*) Do (Asn v_fwd_rxn_rates 28 (v_C.[28] * v_C.[2] * $v_kf));
  (*347*) If ($v_T) (#1000.0)
    [Asn v_Kc 0 (#(-2.8207233480000009e+00) + #9.3963342999999977e-01 * $v_logT + $v_T * (#2.0707511000000057e-04 + $v_T * (#(-1.3932465250000000e-06) + $v_T * (#8.4822635250000012e-10 + #(-1.9002249800000002e-13) * $v_T))) - #1.5951883999999991e+03 / $v_T)]
    [Asn v_Kc 0 (#(-6.5105246149999996e+00) + #1.6403753699999997e+00 * $v_logT + $v_T * (#(-2.1419267601499995e-03) + $v_T * (#4.4341640318333330e-07 + $v_T * (#(-5.9584478141666664e-11) + #3.5294444394999998e-15 * $v_T))) - #1.5193460100000011e+03 / $v_T)];
  (*353*) Do (Asn v_Kc 0 (#1.0000000000000000e+00 * (Exp $v_Kc)));
  (*354*) Do (Asn v_rev_rxn_rates 28 (v_C.[27] * v_C.[4] * $v_kf / $v_Kc));
  (*357*) Do (Asn v_kf 0 ((Exp (#2.1282881624881835e+01 - #6.7934641255986958e+02 / $v_T))));
  (*358*) Do (Asn v_fwd_rxn_rates 29 (v_C.[28] * v_C.[2] * $v_kf));
  (*359*) If ($v_T) (#1000.0)
    [Asn v_Kc 0 (#(-3.6193461799999995e+00) + #8.1534879000000071e-01 * $v_logT + $v_T * (#(-2.4430421734999994e-03) + $v_T * (#1.0705031933333333e-06 + $v_T * (#(-3.8396922916666666e-10) + #7.2281704100000014e-14 * $v_T))) - #(-2.4447270760000003e+04) / $v_T)]
    [Asn v_Kc 0 (#3.3754021350000003e+00 + #(-3.4915667999999966e-01) * $v_logT + $v_T * (#(-4.2343007815000012e-04) + $v_T * (#8.3947980183333226e-08 + $v_T * (#(-1.0804863758333335e-11) + #6.1371550450000000e-16 * $v_T))) - #(-2.4162087989999996e+04) / $v_T)];
  (*365*) Do (Asn v_Kc 0 (#1.0000000000000000e+00 * (Exp $v_Kc)));
  (*366*) Do (Asn v_rev_rxn_rates 29 (v_C.[10] * v_C.[15] * $v_kf / $v_Kc));
  (*369*) Do (Asn v_kf 0 ((Exp (#2.1639556568820566e+01 - #2.4053895200267973e+04 / $v_T))));
  (*370*) Do (Asn v_fwd_rxn_rates 30 (v_C.[14] * v_C.[3] * $v_kf));
  (*371*) If ($v_T) (#1000.0)
    [Asn v_Kc 0 (#6.6238498800000007e+00 + #(-1.8369492099999998e+00) * $v_logT + $v_T * (#4.6561828850000004e-03 + $v_T * (#(-1.8907691783333333e-06) + $v_T * (#4.2545109883333335e-10 + #(-1.8517185450000013e-14) * $v_T))) - #(-3.8416809400000020e+03) / $v_T)]
    [Asn v_Kc 0 (#(-6.6450999300000007e+00) + #4.2915762000000068e-01 * $v_logT + $v_T * (#3.9139058814999987e-04 + $v_T * (#(-6.9345523516666680e-08) + $v_T * (#6.1624037583333416e-12 + #(-1.9717642450000007e-16) * $v_T))) - #(-4.3012567799999979e+03) / $v_T)];
  (*377*) Do (Asn v_Kc 0 (#1.0000000000000000e+00 * (Exp $v_Kc)));
  (*378*) Do (Asn v_rev_rxn_rates 30 (v_C.[15] * v_C.[2] * $v_kf / $v_Kc));
  (*381*) Do (Asn v_kf 0 ((Exp (#2.5328436022934504e+01 - #2.0128782594366505e+04 / $v_T))));
  (*382*) Do (Asn v_fwd_rxn_rates 31 (v_C.[17] * v_C.[3] * $v_kf));
  (*383*) If ($v_T) (#1000.0)
    [Asn v_Kc 0 (#2.9037419099999999e+00 + #(-5.3195659999999645e-02) * $v_logT + $v_T * (#2.4560110100000001e-03 + $v_T * (#(-2.0385115183333334e-06) + $v_T * (#8.3491854083333324e-10 + #(-1.3955268399999999e-13) * $v_T))) - #1.9507273260000002e+04 / $v_T)]
    [Asn v_Kc 0 (#(-7.2722645800000008e+00) + #1.7461573600000007e+00 * $v_logT + $v_T * (#(-1.7431564849999998e-03) + $v_T * (#3.4374008649999998e-07 + $v_T * (#(-4.2706210583333322e-11) + #2.2957809400000002e-15 * $v_T))) - #1.9208064882999999e+04 / $v_T)];
  (*389*) Do (Asn v_Kc 0 (#1.0000000000000000e+00 * (Exp $v_Kc)));
  (*390*) Do (Asn v_rev_rxn_rates 31 (v_C.[6] * v_C.[16] * $v_kf / $v_Kc));
  (*393*) Do (Asn v_kf 0 ((Exp (#2.8660640533109706e+01 - #0.86 * $v_logT))));
  (*394*) Do (Asn v_fwd_rxn_rates 32 (v_C.[1] * v_C.[3] * $v_kf));
  (*395*) If ($v_T) (#1000.0)
    [Asn v_Kc 0 (#2.4863279230000002e+00 + #(-9.8065835000000012e-01) * $v_logT + $v_T * (#(-8.7619317535266614e-04) + $v_T * (#1.8851645153326528e-06 + $v_T * (#(-1.2162578593584016e-09) + #3.0242614354638670e-13 * $v_T))) - #(-2.4114908299999999e+04) / $v_T)]
    [Asn v_Kc 0 (#5.4388072400000009e-01 + #(-7.6532694999999951e-01) * $v_logT + $v_T * (#3.7836630654214875e-04 + $v_T * (#2.0718083807300866e-08 + $v_T * (#(-7.9353483554039681e-12) + #5.4404627009013211e-16 * $v_T))) - #(-2.4273345466999999e+04) / $v_T)];
  (*401*) Do (Asn v_Kc 0 (#8.2057360967184814e-02 * (Exp $v_Kc)));
  (*402*) Do (Asn v_rev_rxn_rates 32 (v_C.[6] * $v_kf / $v_Kc));
  (*405*) Do (Asn v_kf 0 ((Exp (#3.0665974102635822e+01 - #1.24 * $v_logT))));
  (*406*) Do (Asn v_fwd_rxn_rates 33 (v_C.[1] * v_C.[3] * v_C.[3] * $v_kf));
  (*407*) If ($v_T) (#1000.0)
    [Asn v_Kc 0 (#2.4863279230000002e+00 + #(-9.8065835000000012e-01) * $v_logT + $v_T * (#(-8.7619317535266624e-04) + $v_T * (#1.8851645153326530e-06 + $v_T * (#(-1.2162578593584016e-09) + #3.0242614354638670e-13 * $v_T))) - #(-2.4114908299999999e+04) / $v_T)]
    [Asn v_Kc 0 (#5.4388072400000009e-01 + #(-7.6532694999999951e-01) * $v_logT + $v_T * (#3.7836630654214864e-04 + $v_T * (#2.0718083807300862e-08 + $v_T * (#(-7.9353483554039681e-12) + #5.4404627009013211e-16 * $v_T))) - #(-2.4273345466999999e+04) / $v_T)];
  (*413*) Do (Asn v_Kc 0 (#8.2057360967184814e-02 * (Exp $v_Kc)));
  (*414*) Do (Asn v_rev_rxn_rates 33 (v_C.[6] * v_C.[3] * $v_kf / $v_Kc));
  (*417*) Do (Asn v_kf 0 ((Exp (#3.0052277738640093e+01 - #0.76 * $v_logT))));
  (*418*) Do (Asn v_fwd_rxn_rates 34 (v_C.[1] * v_C.[5] * v_C.[3] * $v_kf));
  (*419*) If ($v_T) (#1000.0)
    [Asn v_Kc 0 (#2.4863279230000002e+00 + #(-9.8065835000000012e-01) * $v_logT + $v_T * (#(-8.7619317535266614e-04) + $v_T * (#1.8851645153326528e-06 + $v_T * (#(-1.2162578593584016e-09) + #3.0242614354638670e-13 * $v_T))) - #(-2.4114908299999999e+04) / $v_T)]
    [Asn v_Kc 0 (#5.4388072400000009e-01 + #(-7.6532694999999951e-01) * $v_logT + $v_T * (#3.7836630654214875e-04 + $v_T * (#2.0718083807300866e-08 + $v_T * (#(-7.9353483554039681e-12) + #5.4404627009013211e-16 * $v_T))) - #(-2.4273345466999999e+04) / $v_T)];
  (*425*) Do (Asn v_Kc 0 (#8.2057360967184814e-02 * (Exp $v_Kc)));
  (*426*) Do (Asn v_rev_rxn_rates 34 (v_C.[5] * v_C.[6] * $v_kf / $v_Kc));
  (*429*) Do (Asn v_kf 0 ((Exp (#3.0889117653950031e+01 - #1.24 * $v_logT))));
  (*430*) Do (Asn v_fwd_rxn_rates 35 (v_C.[1] * v_C.[52] * v_C.[3] * $v_kf));
  (*431*) If ($v_T) (#1000.0)
    [Asn v_Kc 0 (#2.4863279230000002e+00 + #(-9.8065835000000012e-01) * $v_logT + $v_T * (#(-8.7619317535266614e-04) + $v_T * (#1.8851645153326528e-06 + $v_T * (#(-1.2162578593584016e-09) + #3.0242614354638670e-13 * $v_T))) - #(-2.4114908299999999e+04) / $v_T)]
    [Asn v_Kc 0 (#5.4388072400000009e-01 + #(-7.6532694999999951e-01) * $v_logT + $v_T * (#3.7836630654214875e-04 + $v_T * (#2.0718083807300866e-08 + $v_T * (#(-7.9353483554039681e-12) + #5.4404627009013211e-16 * $v_T))) - #(-2.4273345466999999e+04) / $v_T)];
  (*437*) Do (Asn v_Kc 0 (#8.2057360967184814e-02 * (Exp $v_Kc)));
  (*438*) Do (Asn v_rev_rxn_rates 35 (v_C.[52] * v_C.[6] * $v_kf / $v_Kc));
  (*441*) Do (Asn v_kf 0 ((Exp (#2.7274346171989816e+01 - #0.8 * $v_logT))));
  (*442*) Do (Asn v_fwd_rxn_rates 36 (v_C.[1] * v_C.[47] * v_C.[3] * $v_kf));
  (*443*) If ($v_T) (#1000.0)
    [Asn v_Kc 0 (#2.4863279230000002e+00 + #(-9.8065835000000012e-01) * $v_logT + $v_T * (#(-8.7619317535266614e-04) + $v_T * (#1.8851645153326528e-06 + $v_T * (#(-1.2162578593584016e-09) + #3.0242614354638670e-13 * $v_T))) - #(-2.4114908299999999e+04) / $v_T)]
    [Asn v_Kc 0 (#5.4388072400000009e-01 + #(-7.6532694999999951e-01) * $v_logT + $v_T * (#3.7836630654214875e-04 + $v_T * (#2.0718083807300866e-08 + $v_T * (#(-7.9353483554039681e-12) + #5.4404627009013211e-16 * $v_T))) - #(-2.4273345466999999e+04) / $v_T)];
  (*449*) Do (Asn v_Kc 0 (#8.2057360967184814e-02 * (Exp $v_Kc)));
  (*450*) Do (Asn v_rev_rxn_rates 36 (v_C.[47] * v_C.[6] * $v_kf / $v_Kc));
  (*453*) Do (Asn v_kf 0 ((Exp (#3.0908165848920724e+01 - #0.6707 * $v_logT - #8.5753646047649909e+03 / $v_T))));
  (*454*) Do (Asn v_fwd_rxn_rates 37 (v_C.[1] * v_C.[3] * $v_kf));
  (*455*) If ($v_T) (#1000.0)
    [Asn v_Kc 0 (#(-2.1408110450000000e+00) + #8.7782617000000007e-01 * $v_logT + $v_T * (#(-1.3419511003526661e-03) + $v_T * (#2.3561672699931997e-07 + $v_T * (#(-2.7325373525067921e-11) + #1.1652302046386620e-14 * $v_T))) - #8.3276234199999999e+03 / $v_T)]
    [Asn v_Kc 0 (#4.3747157639999994e+00 + #(-1.2022939999999949e-01) * $v_logT + $v_T * (#(-5.1031595730785138e-04) + $v_T * (#1.5440338995730085e-07 + $v_T * (#(-2.5619540480403969e-11) + #1.7320676705901320e-15 * $v_T))) - #8.6910339200000035e+03 / $v_T)];
  (*461*) Do (Asn v_Kc 0 (#1.0000000000000000e+00 * (Exp $v_Kc)));
  (*462*) Do (Asn v_rev_rxn_rates 37 (v_C.[2] * v_C.[4] * $v_kf / $v_Kc));
  (*465*) Do (Asn v_kf 0 ((Exp (#2.7631021115928547e+01 - #1.0 * $v_logT))));
  (*466*) Do (Asn v_fwd_rxn_rates 38 (v_C.[1] * v_C.[1] * $v_kf));
  (*467*) If ($v_T) (#1000.0)
    [Asn v_Kc 0 (#4.2320448239999999e+00 + #(-1.6556688799999999e+00) * $v_logT + $v_T * (#3.9902603742946671e-03 + $v_T * (#(-3.2463584993346931e-06) + $v_T * (#1.6797674496165307e-09 + #(-3.6880588040722682e-13) * $v_T))) - #(-5.1865254972999996e+04) / $v_T)]
    [Asn v_Kc 0 (#(-6.4893666199999966e-01) + #(-6.6272082000000010e-01) * $v_logT + $v_T * (#(-2.4701213465702698e-05) + $v_T * (#8.3242790947935064e-08 + $v_T * (#(-1.4963865377474610e-11) + #1.0012768301802643e-15 * $v_T))) - #(-5.1897478722000000e+04) / $v_T)];
  (*473*) Do (Asn v_Kc 0 (#8.2057360967184814e-02 * (Exp $v_Kc)));
  (*474*) Do (Asn v_rev_rxn_rates 38 (v_C.[0] * $v_kf / $v_Kc));
  (*477*) Do (Asn v_kf 0 ((Exp (#2.5223075507276675e+01 - #0.6 * $v_logT))));
  (*478*) Do (Asn v_fwd_rxn_rates 39 (v_C.[0] * v_C.[1] * v_C.[1] * $v_kf));
  (*479*) If ($v_T) (#1000.0)
    [Asn v_Kc 0 (#4.2320448239999999e+00 + #(-1.6556688799999999e+00) * $v_logT + $v_T * (#3.9902603742946671e-03 + $v_T * (#(-3.2463584993346931e-06) + $v_T * (#1.6797674496165307e-09 + #(-3.6880588040722682e-13) * $v_T))) - #(-5.1865254972999996e+04) / $v_T)]
    [Asn v_Kc 0 (#(-6.4893666199999966e-01) + #(-6.6272082000000010e-01) * $v_logT + $v_T * (#(-2.4701213465702698e-05) + $v_T * (#8.3242790947935064e-08 + $v_T * (#(-1.4963865377474610e-11) + #1.0012768301802643e-15 * $v_T))) - #(-5.1897478722000000e+04) / $v_T)];
  (*485*) Do (Asn v_Kc 0 (#8.2057360967184814e-02 * (Exp $v_Kc)));
  (*486*) Do (Asn v_rev_rxn_rates 39 (v_C.[0] * v_C.[0] * $v_kf / $v_Kc));
  (*489*) Do (Asn v_kf 0 ((Exp (#3.1725365678150649e+01 - #1.25 * $v_logT))));
  (*490*) Do (Asn v_fwd_rxn_rates 40 (v_C.[1] * v_C.[1] * v_C.[5] * $v_kf));
  (*491*) If ($v_T) (#1000.0)
    [Asn v_Kc 0 (#4.2320448239999999e+00 + #(-1.6556688799999999e+00) * $v_logT + $v_T * (#3.9902603742946671e-03 + $v_T * (#(-3.2463584993346931e-06) + $v_T * (#1.6797674496165307e-09 + #(-3.6880588040722682e-13) * $v_T))) - #(-5.1865254972999996e+04) / $v_T)]
    [Asn v_Kc 0 (#(-6.4893666199999966e-01) + #(-6.6272082000000010e-01) * $v_logT + $v_T * (#(-2.4701213465702698e-05) + $v_T * (#8.3242790947935064e-08 + $v_T * (#(-1.4963865377474610e-11) + #1.0012768301802643e-15 * $v_T))) - #(-5.1897478722000000e+04) / $v_T)];
  (*497*) Do (Asn v_Kc 0 (#8.2057360967184814e-02 * (Exp $v_Kc)));
  (*498*) Do (Asn v_rev_rxn_rates 40 (v_C.[0] * v_C.[5] * $v_kf / $v_Kc));
  (*501*) Do (Asn v_kf 0 ((Exp (#3.3940939394155066e+01 - #2.0 * $v_logT))));
  (*502*) Do (Asn v_fwd_rxn_rates 41 (v_C.[1] * v_C.[1] * v_C.[15] * $v_kf));
  (*503*) If ($v_T) (#1000.0)
    [Asn v_Kc 0 (#4.2320448239999999e+00 + #(-1.6556688799999999e+00) * $v_logT + $v_T * (#3.9902603742946671e-03 + $v_T * (#(-3.2463584993346931e-06) + $v_T * (#1.6797674496165307e-09 + #(-3.6880588040722682e-13) * $v_T))) - #(-5.1865254972999996e+04) / $v_T)]
    [Asn v_Kc 0 (#(-6.4893666199999966e-01) + #(-6.6272082000000010e-01) * $v_logT + $v_T * (#(-2.4701213465702698e-05) + $v_T * (#8.3242790947935064e-08 + $v_T * (#(-1.4963865377474610e-11) + #1.0012768301802643e-15 * $v_T))) - #(-5.1897478722000000e+04) / $v_T)];
  (*509*) Do (Asn v_Kc 0 (#8.2057360967184814e-02 * (Exp $v_Kc)));
  (*510*) Do (Asn v_rev_rxn_rates 41 (v_C.[0] * v_C.[15] * $v_kf / $v_Kc));
  (*513*) Do (Asn v_kf 0 ((Exp (#3.7629818848269004e+01 - #2.0 * $v_logT))));
  (*514*) Do (Asn v_fwd_rxn_rates 42 (v_C.[1] * v_C.[4] * $v_kf));
  (*515*) If ($v_T) (#1000.0)
    [Asn v_Kc 0 (#1.9949509730000003e+00 + #(-1.2933748699999996e+00) * $v_logT + $v_T * (#1.8244170964733350e-04 + $v_T * (#3.1707728366598672e-07 + $v_T * (#(-1.3390310769173469e-10) + #2.0393173546386613e-14 * $v_T))) - #(-5.9382467160000000e+04) / $v_T)]
    [Asn v_Kc 0 (#3.4956521039999999e+00 + #(-1.5588951899999999e+00) * $v_logT + $v_T * (#8.1424417354214885e-04 + $v_T * (#(-4.8429627026032460e-08) + $v_T * (#(-7.5798555540397048e-13) + #2.5394305509013217e-16 * $v_T))) - #(-5.9336613999999994e+04) / $v_T)];
  (*521*) Do (Asn v_Kc 0 (#8.2057360967184814e-02 * (Exp $v_Kc)));
  (*522*) Do (Asn v_rev_rxn_rates 42 (v_C.[5] * $v_kf / $v_Kc));
  (*525*) Do (Asn v_kf 0 ((Exp (#2.2102031931645509e+01 - #3.3766032802049813e+02 / $v_T))));
  (*526*) Do (Asn v_fwd_rxn_rates 43 (v_C.[1] * v_C.[6] * $v_kf));
  (*527*) If ($v_T) (#1000.0)
    [Asn v_Kc 0 (#(-2.6321879950000007e+00) + #5.6510965000000102e-01 * $v_logT + $v_T * (#(-2.8331621535266629e-04) + $v_T * (#(-1.3324705046673464e-06) + $v_T * (#1.0550293781415989e-09 + #(-2.7038066795361348e-13) * $v_T))) - #(-2.6939935439999997e+04) / $v_T)]
    [Asn v_Kc 0 (#7.3264871439999988e+00 + #(-9.1379763999999986e-01) * $v_logT + $v_T * (#(-7.4438090307851063e-05) + $v_T * (#8.5255679123967526e-08 + $v_T * (#(-1.8442177680403972e-11) + #1.4419644555901321e-15 * $v_T))) - #(-2.6372234613000001e+04) / $v_T)];
  (*533*) Do (Asn v_Kc 0 (#1.0000000000000000e+00 * (Exp $v_Kc)));
  (*534*) Do (Asn v_rev_rxn_rates 43 (v_C.[5] * v_C.[2] * $v_kf / $v_Kc));
  (*537*) Do (Asn v_kf 0 ((Exp (#2.4525473976367351e+01 - #5.3743849526958570e+02 / $v_T))));
  (*538*) Do (Asn v_fwd_rxn_rates 44 (v_C.[1] * v_C.[6] * $v_kf));
  (*539*) If ($v_T) (#1000.0)
    [Asn v_Kc 0 (#1.7457169009999998e+00 + #(-6.7501052999999978e-01) * $v_logT + $v_T * (#4.8664535496473326e-03 + $v_T * (#(-5.1315230146673457e-06) + $v_T * (#2.8960253089749321e-09 + #(-6.7123202395361351e-13) * $v_T))) - #(-2.7750346673000000e+04) / $v_T)]
    [Asn v_Kc 0 (#(-1.1928173859999998e+00) + #1.0260612999999896e-01 * $v_logT + $v_T * (#(-4.0306752000785135e-04) + $v_T * (#6.2524707140634199e-08 + $v_T * (#(-7.0285170220706416e-12) + #4.5723056009013213e-16 * $v_T))) - #(-2.7624133255000001e+04) / $v_T)];
  (*545*) Do (Asn v_Kc 0 (#1.0000000000000000e+00 * (Exp $v_Kc)));
  (*546*) Do (Asn v_rev_rxn_rates 44 (v_C.[0] * v_C.[3] * $v_kf / $v_Kc));
  (*549*) Do (Asn v_kf 0 ((Exp (#2.5154082635789724e+01 - #3.1954442368556829e+02 / $v_T))));
  (*550*) Do (Asn v_fwd_rxn_rates 45 (v_C.[1] * v_C.[6] * $v_kf));
  (*551*) If ($v_T) (#1000.0)
    [Asn v_Kc 0 (#(-4.6600633630000008e+00) + #1.1822328500000001e+00 * $v_logT + $v_T * (#(-2.6757265352666572e-05) + $v_T * (#(-1.9870687130006796e-06) + $v_T * (#1.3761768948082653e-09 + #(-3.2820109195361345e-13) * $v_T))) - #(-1.8538306819999998e+04) / $v_T)]
    [Asn v_Kc 0 (#5.9464085339999997e+00 + #(-3.3143557000000001e-01) * $v_logT + $v_T * (#(-5.7148033745785135e-04) + $v_T * (#1.4777809830730085e-07 + $v_T * (#(-2.4178223038737304e-11) + #1.7136664100901320e-15 * $v_T))) - #(-1.7868202613000001e+04) / $v_T)];
  (*557*) Do (Asn v_Kc 0 (#1.0000000000000000e+00 * (Exp $v_Kc)));
  (*558*) Do (Asn v_rev_rxn_rates 45 (v_C.[4] * v_C.[4] * $v_kf / $v_Kc));
  (*561*) Do (Asn v_kf 0 ((Exp (#9.4009607315848331e+00 + #2.0 * $v_logT - #2.6167417372676459e+03 / $v_T))));
  (*562*) Do (Asn v_fwd_rxn_rates 46 (v_C.[1] * v_C.[7] * $v_kf));
  (*563*) If ($v_T) (#1000.0)
    [Asn v_Kc 0 (#1.5412883609999999e+00 + #(-1.2998355999999944e-01) * $v_logT + $v_T * (#1.8871113281473334e-03 + $v_T * (#(-2.5089053330006806e-06) + $v_T * (#1.4548251081415985e-09 + #(-3.3542049995361335e-13) * $v_T))) - #(-8.3942049330000009e+03) / $v_T)]
    [Asn v_Kc 0 (#(-2.5788821060000005e+00) + #6.8948724000000006e-01 * $v_logT + $v_T * (#(-1.3589496300078514e-03) + $v_T * (#2.9453181030730083e-07 + $v_T * (#(-3.6375500438737303e-11) + #1.9012757050901321e-15 * $v_T))) - #(-8.4501744089999993e+03) / $v_T)];
  (*569*) Do (Asn v_Kc 0 (#1.0000000000000000e+00 * (Exp $v_Kc)));
  (*570*) Do (Asn v_rev_rxn_rates 46 (v_C.[0] * v_C.[6] * $v_kf / $v_Kc));
  (*573*) Do (Asn v_kf 0 ((Exp (#2.3025850929940457e+01 - #1.8115904334929855e+03 / $v_T))));
  (*574*) Do (Asn v_fwd_rxn_rates 47 (v_C.[1] * v_C.[7] * $v_kf));
  (*575*) If ($v_T) (#1000.0)
    [Asn v_Kc 0 (#(-5.3558688529999987e+00) + #1.4145433000000001e+00 * $v_logT + $v_T * (#(-1.9474646018526665e-03) + $v_T * (#(-9.3253826300068034e-07) + $v_T * (#1.0173314456415985e-09 + #(-2.7442253795361335e-13) * $v_T))) - #(-3.4449723939999996e+04) / $v_T)]
    [Asn v_Kc 0 (#7.5121151939999997e+00 + #(-5.3812269999999884e-01) * $v_logT + $v_T * (#(-1.0914845804578513e-03) + $v_T * (#3.1063749064063419e-07 + $v_T * (#(-4.6347843655403966e-11) + #2.8676083400901321e-15 * $v_T))) - #(-3.3757512300000002e+04) / $v_T)];
  (*581*) Do (Asn v_Kc 0 (#1.0000000000000000e+00 * (Exp $v_Kc)));
  (*582*) Do (Asn v_rev_rxn_rates 47 (v_C.[5] * v_C.[4] * $v_kf / $v_Kc));
  (*585*) Do (Asn v_kf 0 (#1.65e+11));
  (*586*) Do (Asn v_fwd_rxn_rates 48 (v_C.[1] * v_C.[9] * $v_kf));
  (*587*) If ($v_T) (#1000.0)
    [Asn v_Kc 0 (#4.6682364710000002e+00 + #(-1.0912459799999996e+00) * $v_logT + $v_T * (#3.6675737421473335e-03 + $v_T * (#(-2.8425613505006802e-06) + $v_T * (#1.3552334365582656e-09 + #(-2.8517527465361337e-13) * $v_T))) - #(-1.1745005273000002e+04) / $v_T)]
    [Asn v_Kc 0 (#(-3.8932999959999997e+00) + #4.5148333999999979e-01 * $v_logT + $v_T * (#(-4.8616360130785134e-04) + $v_T * (#4.7096267473967532e-08 + $v_T * (#(-9.5411978040397240e-13) + #(-1.2275900640986782e-16) * $v_T))) - #(-1.1984959922000009e+04) / $v_T)];
  (*593*) Do (Asn v_Kc 0 (#1.0000000000000000e+00 * (Exp $v_Kc)));
  (*594*) Do (Asn v_rev_rxn_rates 48 (v_C.[0] * v_C.[8] * $v_kf / $v_Kc));
  (*597*) Do (Asn v_kf 0 (#6e+11));
  (*598*) Do (Asn v_fwd_rxn_rates 49 (v_C.[1] * v_C.[10] * $v_kf));
  (*599*) If ($v_T) (#1000.0)
    [Asn v_Kc 0 (#3.0778036030000000e+00 + #(-1.5890882700000000e+00) * $v_logT + $v_T * (#5.2103980314733352e-04 + $v_T * (#4.8922002533265336e-07 + $v_T * (#(-2.5168856019173461e-10) + #4.2822007546386620e-14 * $v_T))) - #(-5.5032701199999996e+04) / $v_T)]
    [Asn v_Kc 0 (#5.8439448840000008e+00 + #(-2.0883834200000000e+00) * $v_logT + $v_T * (#1.7917537365421488e-03 + $v_T * (#(-2.6303292102603245e-07) + $v_T * (#2.7958758311262697e-11 + #(-1.3971341599098680e-15) * $v_T))) - #(-5.4961679600000003e+04) / $v_T)];
  (*605*) Do (Asn v_Kc 0 (#8.2057360967184814e-02 * (Exp $v_Kc)));
  (*606*) Do (Asn v_rev_rxn_rates 49 (v_C.[12] * $v_kf / $v_Kc));
  (*609*) Do (Asn v_kf 0 (#30000000000.0));
  (*610*) Do (Asn v_fwd_rxn_rates 50 (v_C.[11] * v_C.[1] * $v_kf));
  (*611*) If ($v_T) (#1000.0)
    [Asn v_Kc 0 (#4.8472794779999990e+00 + #(-8.6445633999999982e-01) * $v_logT + $v_T * (#5.3354852401473326e-03 + $v_T * (#(-4.9000173080006795e-06) + $v_T * (#2.5006285398082653e-09 + #(-5.3626778245361335e-13) * $v_T))) - #(-6.0911179730000076e+03) / $v_T)]
    [Asn v_Kc 0 (#(-7.3235675959999993e+00) + #1.4237055000000005e+00 * $v_logT + $v_T * (#(-1.8671875695078512e-03) + $v_T * (#4.4263698114063416e-07 + $v_T * (#(-6.0680019855403985e-11) + #3.5802555950901316e-15 * $v_T))) - #(-6.3373821219999954e+03) / $v_T)];
  (*617*) Do (Asn v_Kc 0 (#1.0000000000000000e+00 * (Exp $v_Kc)));
  (*618*) Do (Asn v_rev_rxn_rates 50 (v_C.[0] * v_C.[9] * $v_kf / $v_Kc));
  (*621*) Do (Asn v_kf 0 ((Exp (#3.0262909956065194e+01 - #0.534 * $v_logT - #2.6972568676451118e+02 / $v_T))));
  (*622*) Do (Asn v_fwd_rxn_rates 51 (v_C.[1] * v_C.[12] * $v_kf));
  (*623*) If ($v_T) (#1000.0)
    [Asn v_Kc 0 (#(-4.7754709669999986e+00) + #(-2.3714270000000148e-02) * $v_logT + $v_T * (#(-7.8409652753526661e-03) + $v_T * (#7.2416402236659874e-06 + $v_T * (#(-3.4669273626917350e-09) + #7.0627691304638665e-13 * $v_T))) - #(-5.2165306299999997e+04) / $v_T)]
    [Asn v_Kc 0 (#1.5114795359000002e+01 + #(-3.7108662350000001e+00) * $v_logT + $v_T * (#3.0755231765421482e-03 + $v_T * (#(-4.5761910435936572e-07) + $v_T * (#5.2270059227929359e-11 + #(-2.7549895549098682e-15) * $v_T))) - #(-5.1717588789999994e+04) / $v_T)];
  (*629*) Do (Asn v_Kc 0 (#8.2057360967184814e-02 * (Exp $v_Kc)));
  (*630*) Do (Asn v_rev_rxn_rates 51 (v_C.[13] * $v_kf / $v_Kc));
  (*633*) Do (Asn v_kf 0 ((Exp (#1.3399995114002609e+01 + #1.62 * $v_logT - #5.4549000830733230e+03 / $v_T))));
  (*634*) Do (Asn v_fwd_rxn_rates 52 (v_C.[1] * v_C.[13] * $v_kf));
  (*635*) If ($v_T) (#1000.0)
    [Asn v_Kc 0 (#9.0075157909999994e+00 + #(-1.6319546100000002e+00) * $v_logT + $v_T * (#1.1831225649647333e-02 + $v_T * (#(-1.0487998723000681e-05) + $v_T * (#5.1466948123082656e-09 + #(-1.0750827934536134e-12) * $v_T))) - #3.0005132700000286e+02 / $v_T)]
    [Asn v_Kc 0 (#(-1.5763732020999999e+01) + #3.0481454150000000e+00 * $v_logT + $v_T * (#(-3.1002243900078510e-03) + $v_T * (#5.4086189530730073e-07 + $v_T * (#(-6.7233924605403965e-11) + #3.7562663850901325e-15 * $v_T))) - #(-1.7988993200000004e+02) / $v_T)];
  (*641*) Do (Asn v_Kc 0 (#1.0000000000000000e+00 * (Exp $v_Kc)));
  (*642*) Do (Asn v_rev_rxn_rates 52 (v_C.[0] * v_C.[12] * $v_kf / $v_Kc));
  (*645*) Do (Asn v_kf 0 ((Exp (#2.0809443533187462e+01 + #0.48 * $v_logT - #(-1.3083708686338230e+02) / $v_T))));
  (*646*) Do (Asn v_fwd_rxn_rates 53 (v_C.[1] * v_C.[16] * $v_kf));
  (*647*) If ($v_T) (#1000.0)
    [Asn v_Kc 0 (#(-4.1741398699999976e-01) + #(-9.2746269000000048e-01) * $v_logT + $v_T * (#(-3.3322041853526664e-03) + $v_T * (#3.9236760336659864e-06 + $v_T * (#(-2.0511764001917343e-09) + #4.4197882754638669e-13 * $v_T))) - #(-4.3622181560000005e+04) / $v_T)]
    [Asn v_Kc 0 (#7.8161453040000017e+00 + #(-2.5114843100000002e+00) * $v_logT + $v_T * (#2.1215227915421485e-03 + $v_T * (#(-3.2302200269269904e-07) + $v_T * (#3.4770862227929353e-11 + #(-1.7517346699098684e-15) * $v_T))) - #(-4.3481410349999998e+04) / $v_T)];
  (*653*) Do (Asn v_Kc 0 (#8.2057360967184814e-02 * (Exp $v_Kc)));
  (*654*) Do (Asn v_rev_rxn_rates 53 (v_C.[17] * $v_kf / $v_Kc));
  (*657*) Do (Asn v_kf 0 (#73400000000.0));
  (*658*) Do (Asn v_fwd_rxn_rates 54 (v_C.[1] * v_C.[16] * $v_kf));
  (*659*) If ($v_T) (#1000.0)
    [Asn v_Kc 0 (#2.0410511910000002e+00 + #(-7.9732125000000043e-01) * $v_logT + $v_T * (#5.3070461946473331e-03 + $v_T * (#(-5.3735468780006796e-06) + $v_T * (#2.8648853818082653e-09 + #(-6.3091153790361341e-13) * $v_T))) - #(-4.4575246033000003e+04) / $v_T)]
    [Asn v_Kc 0 (#(-5.5182880159999996e+00) + #7.8029042000000004e-01 * $v_logT + $v_T * (#(-1.4719151400078511e-03) + $v_T * (#3.3084785347396752e-07 + $v_T * (#(-4.4889596605403977e-11) + #2.6505818300901323e-15 * $v_T))) - #(-4.4587609371999999e+04) / $v_T)];
  (*665*) Do (Asn v_Kc 0 (#1.0000000000000000e+00 * (Exp $v_Kc)));
  (*666*) Do (Asn v_rev_rxn_rates 54 (v_C.[0] * v_C.[14] * $v_kf / $v_Kc));
  (*669*) Do (Asn v_kf 0 ((Exp (#2.0107079697522593e+01 + #0.454 * $v_logT - #1.8115904334929855e+03 / $v_T))));
  (*670*) Do (Asn v_fwd_rxn_rates 55 (v_C.[17] * v_C.[1] * $v_kf));
  (*671*) If ($v_T) (#1000.0)
    [Asn v_Kc 0 (#8.7467263529999997e+00 + #(-2.4298339699999998e+00) * $v_logT + $v_T * (#7.7525283646473339e-03 + $v_T * (#(-5.2315471480006795e-06) + $v_T * (#2.2896104081415984e-09 + #(-4.4037962095361336e-13) * $v_T))) - #(-1.4358616869999998e+04) / $v_T)]
    [Asn v_Kc 0 (#(-6.8311835360000019e+00) + #4.3197560000000013e-01 * $v_logT + $v_T * (#(-2.7711641345785096e-04) + $v_T * (#1.1192948564063413e-07 + $v_T * (#(-1.8264789938737294e-11) + #1.1765071700901325e-15 * $v_T))) - #(-1.4720333869999999e+04) / $v_T)];
  (*677*) Do (Asn v_Kc 0 (#8.2057360967184814e-02 * (Exp $v_Kc)));
  (*678*) Do (Asn v_rev_rxn_rates 55 (v_C.[18] * $v_kf / $v_Kc));
  (*681*) Do (Asn v_kf 0 ((Exp (#2.0107079697522593e+01 + #0.454 * $v_logT - #1.3083708686338230e+03 / $v_T))));
  (*682*) Do (Asn v_fwd_rxn_rates 56 (v_C.[17] * v_C.[1] * $v_kf));
  (*683*) If ($v_T) (#1000.0)
    [Asn v_Kc 0 (#1.8183566103000000e+01 + #(-4.1875191500000000e+00) * $v_logT + $v_T * (#8.5624643446473338e-03 + $v_T * (#(-5.3305881330006796e-06) + $v_T * (#2.5459075081415984e-09 + #(-5.5508275995361342e-13) * $v_T))) - #(-1.0186102099999998e+04) / $v_T)]
    [Asn v_Kc 0 (#(-9.7901739960000000e+00) + #5.1010890999999958e-01 * $v_logT + $v_T * (#(-6.6425189845785145e-04) + $v_T * (#2.9436735230730079e-07 + $v_T * (#(-5.0997417938737298e-11) + #3.3629701750901327e-15 * $v_T))) - #(-1.1349995079999999e+04) / $v_T)];
  (*689*) Do (Asn v_Kc 0 (#8.2057360967184814e-02 * (Exp $v_Kc)));
  (*690*) Do (Asn v_rev_rxn_rates 56 (v_C.[19] * $v_kf / $v_Kc));
  (*693*) Do (Asn v_kf 0 ((Exp (#1.0957799582307658e+01 + #1.9 * $v_logT - #1.3798280468438240e+03 / $v_T))));
  (*694*) Do (Asn v_fwd_rxn_rates 57 (v_C.[17] * v_C.[1] * $v_kf));
  (*695*) If ($v_T) (#1000.0)
    [Asn v_Kc 0 (#4.6494588109999997e+00 + #(-7.2820618999999986e-01) * $v_logT + $v_T * (#7.3224645596473327e-03 + $v_T * (#(-7.1700345330006791e-06) + $v_T * (#3.7309438498082653e-09 + #(-8.1078470795361340e-13) * $v_T))) - #(-8.2430734129999983e+03) / $v_T)]
    [Asn v_Kc 0 (#(-8.4650819659999996e+00) + #1.8487634900000005e+00 * $v_logT + $v_T * (#(-2.1462240050078513e-03) + $v_T * (#4.0626479364063411e-07 + $v_T * (#(-4.9734727605403966e-11) + #2.7530115000901327e-15 * $v_T))) - #(-8.4160683719999979e+03) / $v_T)];
  (*701*) Do (Asn v_Kc 0 (#1.0000000000000000e+00 * (Exp $v_Kc)));
  (*702*) Do (Asn v_rev_rxn_rates 57 (v_C.[0] * v_C.[16] * $v_kf / $v_Kc));
  (*705*) Do (Asn v_kf 0 ((Exp (#2.0776806603874441e+01 + #0.5 * $v_logT - #4.3276882577887989e+01 / $v_T))));
  (*706*) Do (Asn v_fwd_rxn_rates 58 (v_C.[18] * v_C.[1] * $v_kf));
  (*707*) If ($v_T) (#1000.0)
    [Asn v_Kc 0 (#(-5.8819444470000004e+00) + #3.5150664000000020e-01 * $v_logT + $v_T * (#(-1.0413817970352667e-02) + $v_T * (#9.8852329319993209e-06 + $v_T * (#(-5.0522906418584015e-09) + #1.0882798510463865e-12 * $v_T))) - #(-4.7922511829999996e+04) / $v_T)]
    [Asn v_Kc 0 (#1.3541570854000000e+01 + #(-3.4029577900000003e+00) * $v_logT + $v_T * (#2.7240306265421481e-03 + $v_T * (#(-4.3566619435936574e-07) + $v_T * (#4.9539684894596029e-11 + #(-2.6102400199098675e-15) * $v_T))) - #(-4.7606028330000001e+04) / $v_T)];
  (*713*) Do (Asn v_Kc 0 (#8.2057360967184814e-02 * (Exp $v_Kc)));
  (*714*) Do (Asn v_rev_rxn_rates 58 (v_C.[20] * $v_kf / $v_Kc));
  (*717*) Do (Asn v_kf 0 (#20000000000.0));
  (*718*) Do (Asn v_fwd_rxn_rates 59 (v_C.[18] * v_C.[1] * $v_kf));
  (*719*) If ($v_T) (#1000.0)
    [Asn v_Kc 0 (#(-4.5146815290000006e+00) + #7.7416508999999945e-01 * $v_logT + $v_T * (#(-3.7622679903526668e-03) + $v_T * (#1.9851886486659864e-06 + $v_T * (#(-6.0984295852506768e-10) + #7.1573740546386596e-14 * $v_T))) - #(-3.7506638102999997e+04) / $v_T)]
    [Asn v_Kc 0 (#6.1822468740000014e+00 + #(-1.0946964200000000e+00) * $v_logT + $v_T * (#2.5241519999214793e-04 + $v_T * (#(-2.8686694692699073e-08) + $v_T * (#3.3009245612626810e-12 + #(-1.7523033990986808e-16) * $v_T))) - #(-3.7177144851999998e+04) / $v_T)];
  (*725*) Do (Asn v_Kc 0 (#1.0000000000000000e+00 * (Exp $v_Kc)));
  (*726*) Do (Asn v_rev_rxn_rates 59 (v_C.[17] * v_C.[0] * $v_kf / $v_Kc));
  (*729*) Do (Asn v_kf 0 ((Exp (#1.8921456031864853e+01 + #0.65 * $v_logT - #(-1.4291435642000218e+02) / $v_T))));
  (*730*) Do (Asn v_fwd_rxn_rates 60 (v_C.[18] * v_C.[1] * $v_kf));
  (*731*) If ($v_T) (#1000.0)
    [Asn v_Kc 0 (#(-4.8274173550000015e+00) + #1.3017166500000004e+00 * $v_logT + $v_T * (#(-2.9935444053526667e-03) + $v_T * (#7.3590651033265315e-07 + $v_T * (#(-2.4925531858401239e-11) + #(-2.3085036953613391e-14) * $v_T))) - #(-2.2196668700000009e+03) / $v_T)]
    [Asn v_Kc 0 (#8.4070789640000001e+00 + #(-8.1406030999999990e-01) * $v_logT + $v_T * (#(-4.2871893045785174e-04) + $v_T * (#1.4839548864063425e-07 + $v_T * (#(-2.3291345238737306e-11) + #1.4940608900901322e-15 * $v_T))) - #(-1.5969123299999992e+03) / $v_T)];
  (*737*) Do (Asn v_Kc 0 (#1.0000000000000000e+00 * (Exp $v_Kc)));
  (*738*) Do (Asn v_rev_rxn_rates 60 (v_C.[12] * v_C.[4] * $v_kf / $v_Kc));
  (*741*) Do (Asn v_kf 0 ((Exp (#2.4213694352336510e+01 - #0.09 * $v_logT - #3.0696393456408919e+02 / $v_T))));
  (*742*) Do (Asn v_fwd_rxn_rates 61 (v_C.[18] * v_C.[1] * $v_kf));
  (*743*) If ($v_T) (#1000.0)
    [Asn v_Kc 0 (#(-8.6778462419999993e+00) + #2.0333554899999999e+00 * $v_logT + $v_T * (#(-4.9998856653526670e-03) + $v_T * (#1.4701077336659865e-06 + $v_T * (#(-1.4357743602506818e-10) + #(-3.2727361953613368e-14) * $v_T))) - #(-2.0766566299999977e+03) / $v_T)]
    [Asn v_Kc 0 (#9.0961573439999999e+00 + #(-8.6663478999999999e-01) * $v_logT + $v_T * (#(-9.0648176845785149e-04) + $v_T * (#2.6250319930730089e-07 + $v_T * (#(-3.8864218188737303e-11) + #2.3851941150901325e-15 * $v_T))) - #(-1.3094510299999965e+03) / $v_T)];
  (*749*) Do (Asn v_Kc 0 (#1.0000000000000000e+00 * (Exp $v_Kc)));
  (*750*) Do (Asn v_rev_rxn_rates 61 (v_C.[11] * v_C.[5] * $v_kf / $v_Kc));
  (*753*) Do (Asn v_kf 0 ((Exp (#2.1611157094298868e+01 + #0.515 * $v_logT - #2.5160978242958130e+01 / $v_T))));
  (*754*) Do (Asn v_fwd_rxn_rates 62 (v_C.[1] * v_C.[19] * $v_kf));
  (*755*) If ($v_T) (#1000.0)
    [Asn v_Kc 0 (#(-1.5318784197000001e+01) + #2.1091918200000004e+00 * $v_logT + $v_T * (#(-1.1223753950352668e-02) + $v_T * (#9.9842739169993203e-06 + $v_T * (#(-5.3085877418584011e-09) + #1.2029829900463864e-12 * $v_T))) - #(-5.2095026599999997e+04) / $v_T)]
    [Asn v_Kc 0 (#1.6500561313999999e+01 + #(-3.4810910999999995e+00) * $v_logT + $v_T * (#3.1111661115421482e-03 + $v_T * (#(-6.1810406102603236e-07) + $v_T * (#8.2272312894596034e-11 + #(-4.7967030249098682e-15) * $v_T))) - #(-5.0976367120000003e+04) / $v_T)];
  (*761*) Do (Asn v_Kc 0 (#8.2057360967184814e-02 * (Exp $v_Kc)));
  (*762*) Do (Asn v_rev_rxn_rates 62 (v_C.[20] * $v_kf / $v_Kc));
  (*765*) Do (Asn v_kf 0 ((Exp (#1.0633448706218790e+01 + #1.63 * $v_logT - #9.6819444278902893e+02 / $v_T))));
  (*766*) Do (Asn v_fwd_rxn_rates 63 (v_C.[1] * v_C.[19] * $v_kf));
  (*767*) If ($v_T) (#1000.0)
    [Asn v_Kc 0 (#(-9.4368397500000007e+00) + #1.7576851800000002e+00 * $v_logT + $v_T * (#(-8.0993597999999990e-04) + $v_T * (#9.9040985000000045e-08 + $v_T * (#(-2.5629710000000004e-10) + #1.1470313900000000e-13 * $v_T))) - #(-4.1725147699999998e+03) / $v_T)]
    [Asn v_Kc 0 (#2.9589904599999994e+00 + #(-7.8133309999999678e-02) * $v_logT + $v_T * (#3.8713548500000049e-04 + $v_T * (#(-1.8243786666666668e-07) + $v_T * (#3.2732628000000005e-11 + #(-2.1864630050000003e-15) * $v_T))) - #(-3.3703387899999998e+03) / $v_T)];
  (*773*) Do (Asn v_Kc 0 (#1.0000000000000000e+00 * (Exp $v_Kc)));
  (*774*) Do (Asn v_rev_rxn_rates 63 (v_C.[18] * v_C.[1] * $v_kf / $v_Kc));
  (*777*) Do (Asn v_kf 0 (#20000000000.0));
  (*778*) Do (Asn v_fwd_rxn_rates 64 (v_C.[1] * v_C.[19] * $v_kf));
  (*779*) If ($v_T) (#1000.0)
    [Asn v_Kc 0 (#(-1.3951521279000000e+01) + #2.5318502699999996e+00 * $v_logT + $v_T * (#(-4.5722039703526667e-03) + $v_T * (#2.0842296336659861e-06 + $v_T * (#(-8.6614005852506772e-10) + #1.8627687954638662e-13 * $v_T))) - #(-4.1679152872999999e+04) / $v_T)]
    [Asn v_Kc 0 (#9.1412373340000013e+00 + #(-1.1728297299999997e+00) * $v_logT + $v_T * (#6.3955068499214809e-04 + $v_T * (#(-2.1112456135936572e-07) + $v_T * (#3.6033552561262686e-11 + #(-2.3616933449098684e-15) * $v_T))) - #(-4.0547483641999999e+04) / $v_T)];
  (*785*) Do (Asn v_Kc 0 (#1.0000000000000000e+00 * (Exp $v_Kc)));
  (*786*) Do (Asn v_rev_rxn_rates 64 (v_C.[17] * v_C.[0] * $v_kf / $v_Kc));
  (*789*) Do (Asn v_kf 0 ((Exp (#2.1128730945054574e+01 + #0.5 * $v_logT - #(-5.5354152134507892e+01) / $v_T))));
  (*790*) Do (Asn v_fwd_rxn_rates 65 (v_C.[1] * v_C.[19] * $v_kf));
  (*791*) If ($v_T) (#1000.0)
    [Asn v_Kc 0 (#(-1.4264257105000000e+01) + #3.0594018300000005e+00 * $v_logT + $v_T * (#(-3.8034803853526666e-03) + $v_T * (#8.3494749533265330e-07 + $v_T * (#(-2.8122263185840126e-10) + #9.1618102046386605e-14 * $v_T))) - #(-6.3921816399999989e+03) / $v_T)]
    [Asn v_Kc 0 (#1.1366069423999999e+01 + #(-8.9219361999999958e-01) * $v_logT + $v_T * (#(-4.1583445457851146e-05) + $v_T * (#(-3.4042378026032449e-08) + $v_T * (#9.4412827612626981e-12 + #(-6.9240211490986809e-16) * $v_T))) - #(-4.9672511200000008e+03) / $v_T)];
  (*797*) Do (Asn v_Kc 0 (#1.0000000000000000e+00 * (Exp $v_Kc)));
  (*798*) Do (Asn v_rev_rxn_rates 65 (v_C.[12] * v_C.[4] * $v_kf / $v_Kc));
  (*801*) Do (Asn v_kf 0 ((Exp (#2.6291610340707507e+01 - #0.23 * $v_logT - #5.3844493439930397e+02 / $v_T))));
  (*802*) Do (Asn v_fwd_rxn_rates 66 (v_C.[1] * v_C.[19] * $v_kf));
  (*803*) If ($v_T) (#1000.0)
    [Asn v_Kc 0 (#(-1.8114685991999998e+01) + #3.7910406700000001e+00 * $v_logT + $v_T * (#(-5.8098216453526669e-03) + $v_T * (#1.5691487186659863e-06 + $v_T * (#(-3.9987453602506819e-10) + #8.1975777046386629e-14 * $v_T))) - #(-6.2491713999999993e+03) / $v_T)]
    [Asn v_Kc 0 (#1.2055147804000001e+01 + #(-9.4476809999999967e-01) * $v_logT + $v_T * (#(-5.1934628345785090e-04) + $v_T * (#8.0065332640634215e-08 + $v_T * (#(-6.1315901887372989e-12) + #1.9873111009013216e-16 * $v_T))) - #(-4.6797898199999981e+03) / $v_T)];
  (*809*) Do (Asn v_Kc 0 (#1.0000000000000000e+00 * (Exp $v_Kc)));
  (*810*) Do (Asn v_rev_rxn_rates 66 (v_C.[11] * v_C.[5] * $v_kf / $v_Kc));
  (*813*) Do (Asn v_kf 0 ((Exp (#9.7409686230383539e+00 + #2.1 * $v_logT - #2.4506792808641221e+03 / $v_T))));
  (*814*) Do (Asn v_fwd_rxn_rates 67 (v_C.[20] * v_C.[1] * $v_kf));
  (*815*) If ($v_T) (#1000.0)
    [Asn v_Kc 0 (#1.0113989271000001e+01 + #(-2.0071755199999997e+00) * $v_logT + $v_T * (#1.4404078344647334e-02 + $v_T * (#(-1.3131591431334014e-05) + $v_T * (#6.7320580914749317e-09 + #(-1.4570857314536134e-12) * $v_T))) - #(-3.9427431429999997e+03) / $v_T)]
    [Asn v_Kc 0 (#(-1.4190507515999997e+01) + #2.7402369699999998e+00 * $v_logT + $v_T * (#(-2.7487318400078510e-03) + $v_T * (#5.1890898530730080e-07 + $v_T * (#(-6.4503550272070642e-11) + #3.6115168500901318e-15 * $v_T))) - #(-4.2914503919999988e+03) / $v_T)];
  (*821*) Do (Asn v_Kc 0 (#1.0000000000000000e+00 * (Exp $v_Kc)));
  (*822*) Do (Asn v_rev_rxn_rates 67 (v_C.[0] * v_C.[18] * $v_kf / $v_Kc));
  (*825*) Do (Asn v_kf 0 ((Exp (#8.3428398042714598e+00 + #2.1 * $v_logT - #2.4506792808641221e+03 / $v_T))));
  (*826*) Do (Asn v_fwd_rxn_rates 68 (v_C.[20] * v_C.[1] * $v_kf));
  (*827*) If ($v_T) (#1000.0)
    [Asn v_Kc 0 (#1.9550829020999998e+01 + #(-3.7648607000000003e+00) * $v_logT + $v_T * (#1.5214014324647335e-02 + $v_T * (#(-1.3230632416334013e-05) + $v_T * (#6.9883551914749320e-09 + #(-1.5717888704536135e-12) * $v_T))) - #2.2977162700000190e+02 / $v_T)]
    [Asn v_Kc 0 (#(-1.7149497975999999e+01) + #2.8183702799999999e+00 * $v_logT + $v_T * (#(-3.1358673250078514e-03) + $v_T * (#7.0134685197396748e-07 + $v_T * (#(-9.7236178272070646e-11) + #5.7979798550901317e-15 * $v_T))) - #(-9.2111160199999722e+02) / $v_T)];
  (*833*) Do (Asn v_Kc 0 (#1.0000000000000000e+00 * (Exp $v_Kc)));
  (*834*) Do (Asn v_rev_rxn_rates 68 (v_C.[0] * v_C.[19] * $v_kf / $v_Kc));
  (*837*) Do (Asn v_kf 0 ((Exp (#3.2236191301916641e+01 - #1.0 * $v_logT))));
  (*838*) Do (Asn v_fwd_rxn_rates 69 (v_C.[1] * v_C.[21] * $v_kf));
  (*839*) If ($v_T) (#1000.0)
    [Asn v_Kc 0 (#1.2744399808999999e+01 + #(-3.5809762359999997e+00) * $v_logT + $v_T * (#4.9758008996473348e-03 + $v_T * (#(-1.1733718996673462e-06) + $v_T * (#(-1.2198840019173490e-10) + #1.2162106804638661e-13 * $v_T))) - #(-6.5884072400000005e+04) / $v_T)]
    [Asn v_Kc 0 (#(-5.8992561560000008e+00) + #(-5.2023688999999962e-01) * $v_logT + $v_T * (#6.0472382154214870e-04 + $v_T * (#(-8.9179627692699182e-08) + $v_T * (#1.3601826977929366e-11 + #(-9.2001223990986803e-16) * $v_T))) - #(-6.6658725700000010e+04) / $v_T)];
  (*845*) Do (Asn v_Kc 0 (#8.2057360967184814e-02 * (Exp $v_Kc)));
  (*846*) Do (Asn v_rev_rxn_rates 69 (v_C.[22] * $v_kf / $v_Kc));
  (*849*) Do (Asn v_kf 0 ((Exp (#2.2446032434687513e+01 - #1.2077269556619904e+03 / $v_T))));
  (*850*) Do (Asn v_fwd_rxn_rates 70 (v_C.[1] * v_C.[22] * $v_kf));
  (*851*) If ($v_T) (#1000.0)
    [Asn v_Kc 0 (#(-4.8862673529999991e+00) + #9.0378535599999998e-01 * $v_logT + $v_T * (#(-1.0923385640352667e-02) + $v_T * (#1.0239687116999320e-05 + $v_T * (#(-5.3150857001917346e-09) + #1.1607908520463867e-12 * $v_T))) - #(-1.7042793799999999e+04) / $v_T)]
    [Asn v_Kc 0 (#1.3095133554000000e+01 + #(-2.6308456500000004e+00) * $v_logT + $v_T * (#2.1842812915421487e-03 + $v_T * (#(-3.8464583102603235e-07) + $v_T * (#4.5851726144596027e-11 + #(-2.5068591649098675e-15) * $v_T))) - #(-1.6796785199999998e+04) / $v_T)];
  (*857*) Do (Asn v_Kc 0 (#8.2057360967184814e-02 * (Exp $v_Kc)));
  (*858*) Do (Asn v_rev_rxn_rates 70 (v_C.[23] * $v_kf / $v_Kc));
  (*861*) Do (Asn v_kf 0 ((Exp (#2.2528270532924488e+01 + #0.27 * $v_logT - #1.4090147816056555e+02 / $v_T))));
  (*862*) Do (Asn v_fwd_rxn_rates 71 (v_C.[1] * v_C.[23] * $v_kf));
  (*863*) If ($v_T) (#1000.0)
    [Asn v_Kc 0 (#(-2.2132614670000001e+00) + #(-7.5326497000000003e-01) * $v_logT + $v_T * (#(-4.5426570453526664e-03) + $v_T * (#5.1963480003326537e-06 + $v_T * (#(-2.7827575501917343e-09) + #6.1366750004638666e-13 * $v_T))) - #(-5.5243730769999995e+04) / $v_T)]
    [Asn v_Kc 0 (#6.4453412840000022e+00 + #(-2.4806128500000000e+00) * $v_logT + $v_T * (#2.1575929615421478e-03 + $v_T * (#(-3.3832594602603260e-07) + $v_T * (#3.7883029561262699e-11 + #(-1.9722678699098683e-15) * $v_T))) - #(-5.5146647660000002e+04) / $v_T)];
  (*869*) Do (Asn v_Kc 0 (#8.2057360967184814e-02 * (Exp $v_Kc)));
  (*870*) Do (Asn v_rev_rxn_rates 71 (v_C.[24] * $v_kf / $v_Kc));
  (*873*) Do (Asn v_kf 0 (#30000000000.0));
  (*874*) Do (Asn v_fwd_rxn_rates 72 (v_C.[1] * v_C.[23] * $v_kf));
  (*875*) If ($v_T) (#1000.0)
    [Asn v_Kc 0 (#9.1183121770000000e+00 + #(-2.5594542359999997e+00) * $v_logT + $v_T * (#1.4913646014647333e-02 + $v_T * (#(-1.3486045616334013e-05) + $v_T * (#6.9948531498082656e-09 + #(-1.5295967324536134e-12) * $v_T))) - #(-3.4822461173000003e+04) / $v_T)]
    [Asn v_Kc 0 (#(-1.3744070216000001e+01) + #1.9681248299999998e+00 * $v_logT + $v_T * (#(-2.2089825050078515e-03) + $v_T * (#4.6788862197396742e-07 + $v_T * (#(-6.0815591522070634e-11) + #3.5081359950901319e-15 * $v_T))) - #(-3.5100693522000001e+04) / $v_T)];
  (*881*) Do (Asn v_Kc 0 (#1.0000000000000000e+00 * (Exp $v_Kc)));
  (*882*) Do (Asn v_rev_rxn_rates 72 (v_C.[0] * v_C.[22] * $v_kf / $v_Kc));
  (*885*) Do (Asn v_kf 0 ((Exp (#2.0107079697522593e+01 + #0.454 * $v_logT - #9.1585960804367608e+02 / $v_T))));
  (*886*) Do (Asn v_fwd_rxn_rates 73 (v_C.[1] * v_C.[24] * $v_kf));
  (*887*) If ($v_T) (#1000.0)
    [Asn v_Kc 0 (#3.2092969330000005e+00 + #(-1.1527358000000003e+00) * $v_logT + $v_T * (#1.6919667746473337e-03 + $v_T * (#(-1.2307914163340125e-06) + $v_T * (#7.7051789147493195e-10 + #(-1.9687684495361349e-13) * $v_T))) - #(-1.7721809329999996e+04) / $v_T)]
    [Asn v_Kc 0 (#6.1852026639999984e+00 + #(-1.5814547499999998e+00) * $v_logT + $v_T * (#1.3759285615421498e-03 + $v_T * (#(-2.1188125769269901e-07) + $v_T * (#2.3328972061262663e-11 + #(-1.1967757749098668e-15) * $v_T))) - #(-1.7556026039999997e+04) / $v_T)];
  (*893*) Do (Asn v_Kc 0 (#8.2057360967184814e-02 * (Exp $v_Kc)));
  (*894*) Do (Asn v_rev_rxn_rates 73 (v_C.[25] * $v_kf / $v_Kc));
  (*897*) Do (Asn v_kf 0 ((Exp (#7.1891677384203225e+00 + #2.53 * $v_logT - #6.1594074738761510e+03 / $v_T))));
  (*898*) Do (Asn v_fwd_rxn_rates 74 (v_C.[1] * v_C.[24] * $v_kf));
  (*899*) If ($v_T) (#1000.0)
    [Asn v_Kc 0 (#6.4453062909999996e+00 + #(-9.0240390999999986e-01) * $v_logT + $v_T * (#8.5329174196473335e-03 + $v_T * (#(-8.4427064996673472e-06) + $v_T * (#4.4625249998082653e-09 + #(-9.8247338045361357e-13) * $v_T))) - #3.3784757970000028e+03 / $v_T)]
    [Asn v_Kc 0 (#(-7.0942779460000009e+00) + #1.8178920299999994e+00 * $v_logT + $v_T * (#(-2.1822941750078515e-03) + $v_T * (#4.2156873697396772e-07 + $v_T * (#(-5.2846894938737325e-11) + #2.9735447000901326e-15 * $v_T))) - #3.2491689379999980e+03 / $v_T)];
  (*905*) Do (Asn v_Kc 0 (#1.0000000000000000e+00 * (Exp $v_Kc)));
  (*906*) Do (Asn v_rev_rxn_rates 74 (v_C.[0] * v_C.[23] * $v_kf / $v_Kc));
  (*909*) Do (Asn v_kf 0 ((Exp (#3.3886771157681913e+01 - #0.99 * $v_logT - #7.9508691247747697e+02 / $v_T))));
  (*910*) Do (Asn v_fwd_rxn_rates 75 (v_C.[1] * v_C.[25] * $v_kf));
  (*911*) If ($v_T) (#1000.0)
    [Asn v_Kc 0 (#9.2133753299999954e-01 + #(-1.5150407599999998e+00) * $v_logT + $v_T * (#(-6.5747689035266588e-04) + $v_T * (#1.7049246836659875e-06 + $v_T * (#(-9.1116399185840205e-10) + #1.9088383504638650e-13 * $v_T))) - #(-4.9837491899999994e+04) / $v_T)]
    [Asn v_Kc 0 (#5.4826342439999998e+00 + #(-2.3827749300000001e+00) * $v_logT + $v_T * (#2.1439977615421487e-03 + $v_T * (#(-3.4059000602603242e-07) + $v_T * (#3.8495260394596016e-11 + #(-2.0180657249098672e-15) * $v_T))) - #(-4.9757573099999994e+04) / $v_T)];
  (*917*) Do (Asn v_Kc 0 (#8.2057360967184814e-02 * (Exp $v_Kc)));
  (*918*) Do (Asn v_rev_rxn_rates 75 (v_C.[26] * $v_kf / $v_Kc));
  (*921*) Do (Asn v_kf 0 (#2000000000.0));
  (*922*) Do (Asn v_fwd_rxn_rates 76 (v_C.[1] * v_C.[25] * $v_kf));
  (*923*) If ($v_T) (#1000.0)
    [Asn v_Kc 0 (#1.0227478909999994e+00 + #(-5.0293307999999914e-01) * $v_logT + $v_T * (#2.2982935996473334e-03 + $v_T * (#(-2.0155670830006801e-06) + $v_T * (#9.0924955814159900e-10 + #(-1.7192903545361343e-13) * $v_T))) - #(-3.4143445642999999e+04) / $v_T)]
    [Asn v_Kc 0 (#(-6.8341393259999972e+00) + #9.1873392999999970e-01 * $v_logT + $v_T * (#(-1.4006297750078526e-03) + $v_T * (#2.9512404864063403e-07 + $v_T * (#(-3.8292837438737289e-11) + #2.1980526050901319e-15 * $v_T))) - #(-3.4341452682000003e+04) / $v_T)];
  (*929*) Do (Asn v_Kc 0 (#1.0000000000000000e+00 * (Exp $v_Kc)));
  (*930*) Do (Asn v_rev_rxn_rates 76 (v_C.[0] * v_C.[24] * $v_kf / $v_Kc));
  (*933*) Do (Asn v_kf 0 ((Exp (#1.1652687407345388e+01 + #1.9 * $v_logT - #3.7892433233894944e+03 / $v_T))));
  (*934*) Do (Asn v_fwd_rxn_rates 77 (v_C.[26] * v_C.[1] * $v_kf));
  (*935*) If ($v_T) (#1000.0)
    [Asn v_Kc 0 (#3.3107072910000004e+00 + #(-1.4062811999999969e-01) * $v_logT + $v_T * (#4.6477372646473326e-03 + $v_T * (#(-4.9512831830006802e-06) + $v_T * (#2.5909314414749330e-09 + #(-5.5968971545361332e-13) * $v_T))) - #(-2.0277630729999983e+03) / $v_T)]
    [Asn v_Kc 0 (#(-6.1315709060000012e+00) + #1.7200541100000000e+00 * $v_logT + $v_T * (#(-2.1686989750078511e-03) + $v_T * (#4.2383279697396738e-07 + $v_T * (#(-5.3459125772070642e-11) + #3.0193425550901323e-15 * $v_T))) - #(-2.1399056219999984e+03) / $v_T)];
  (*941*) Do (Asn v_Kc 0 (#1.0000000000000000e+00 * (Exp $v_Kc)));
  (*942*) Do (Asn v_rev_rxn_rates 77 (v_C.[0] * v_C.[25] * $v_kf / $v_Kc));
  (*945*) Do (Asn v_kf 0 (#1e+11));
  (*946*) Do (Asn v_fwd_rxn_rates 78 (v_C.[1] * v_C.[27] * $v_kf));
  (*947*) If ($v_T) (#1000.0)
    [Asn v_Kc 0 (#(-1.2330860013999999e+01) + #3.0264161799999991e+00 * $v_logT + $v_T * (#(-1.0315994435352666e-02) + $v_T * (#5.4964795886659863e-06 + $v_T * (#(-1.9214094106917347e-09) + #3.0526019859638665e-13 * $v_T))) - #(-9.3803786000000036e+03) / $v_T)]
    [Asn v_Kc 0 (#2.3943113603999997e+01 + #(-3.1209817800000001e+00) * $v_logT + $v_T * (#1.3165368615421485e-03 + $v_T * (#(-2.3621509285936576e-07) + $v_T * (#3.0141541061262692e-11 + #(-1.7464288299098678e-15) * $v_T))) - #(-8.0267475999999988e+03) / $v_T)];
  (*953*) Do (Asn v_Kc 0 (#1.0000000000000000e+00 * (Exp $v_Kc)));
  (*954*) Do (Asn v_rev_rxn_rates 78 (v_C.[11] * v_C.[14] * $v_kf / $v_Kc));
  (*957*) Do (Asn v_kf 0 ((Exp (#2.4635288842374557e+01 - #4.0257565188733010e+03 / $v_T))));
  (*958*) Do (Asn v_fwd_rxn_rates 79 (v_C.[1] * v_C.[28] * $v_kf));
  (*959*) If ($v_T) (#1000.0)
    [Asn v_Kc 0 (#1.4442458709999997e+00 + #(-3.9783779999999602e-02) * $v_logT + $v_T * (#3.7583348246473334e-03 + $v_T * (#(-4.3020840996673466e-06) + $v_T * (#2.3407493931415991e-09 + #(-5.2140112795361349e-13) * $v_T))) - #7.1077196699999968e+02 / $v_T)]
    [Asn v_Kc 0 (#(-9.2750347709999996e+00) + #1.9541876699999996e+00 * $v_logT + $v_T * (#(-2.4838299000078507e-03) + $v_T * (#5.1256640197396746e-07 + $v_T * (#(-6.8054312605403973e-11) + #4.0050762600901320e-15 * $v_T))) - #4.5444928800000253e+02 / $v_T)];
  (*965*) Do (Asn v_Kc 0 (#1.0000000000000000e+00 * (Exp $v_Kc)));
  (*966*) Do (Asn v_rev_rxn_rates 79 (v_C.[0] * v_C.[27] * $v_kf / $v_Kc));
  (*969*) Do (Asn v_kf 0 ((Exp (#2.3148068562664704e+01 - #1.7250366683372094e+03 / $v_T))));
  (*970*) Do (Asn v_fwd_rxn_rates 80 (v_C.[1] * v_C.[28] * $v_kf));
  (*971*) If ($v_T) (#1000.0)
    [Asn v_Kc 0 (#(-9.2732791070000005e+00) + #2.6172875699999998e+00 * $v_logT + $v_T * (#(-8.3591370153526662e-03) + $v_T * (#4.0236300486659869e-06 + $v_T * (#(-1.2756786706917347e-09) + #1.8270044959638663e-13 * $v_T))) - #(-1.6329829059999996e+04) / $v_T)]
    [Asn v_Kc 0 (#1.8123589218999999e+01 + #(-2.0103939999999998e+00) * $v_logT + $v_T * (#1.4941518654214888e-04 + $v_T * (#3.0571180473967484e-08 + $v_T * (#(-8.1340187720706427e-12) + #6.2018043009013177e-16 * $v_T))) - #(-1.5298894890000000e+04) / $v_T)];
  (*977*) Do (Asn v_Kc 0 (#1.0000000000000000e+00 * (Exp $v_Kc)));
  (*978*) Do (Asn v_rev_rxn_rates 80 (v_C.[12] * v_C.[14] * $v_kf / $v_Kc));
  (*981*) Do (Asn v_kf 0 (#10000000000.0));
  (*982*) Do (Asn v_fwd_rxn_rates 81 (v_C.[1] * v_C.[29] * $v_kf));
  (*983*) If ($v_T) (#1000.0)
    [Asn v_Kc 0 (#(-2.5521339999999988e+00) + #8.9346299999999990e-01 * $v_logT + $v_T * (#(-6.4766644500000008e-03) + $v_T * (#5.5786861000000013e-06 + $v_T * (#(-2.8160962766666671e-09) + #6.0000089250000002e-13 * $v_T))) - #(-1.5074532340000000e+04) / $v_T)]
    [Asn v_Kc 0 (#9.6465531850000001e+00 + #(-1.4125317800000001e+00) * $v_logT + $v_T * (#1.1056187249999998e-03 + $v_T * (#(-2.6725665833333327e-07) + $v_T * (#3.9455622666666665e-11 + #(-2.4771859549999999e-15) * $v_T))) - #(-1.4815679110000001e+04) / $v_T)];
  (*989*) Do (Asn v_Kc 0 (#1.0000000000000000e+00 * (Exp $v_Kc)));
  (*990*) Do (Asn v_rev_rxn_rates 81 (v_C.[1] * v_C.[28] * $v_kf / $v_Kc));
  (*993*) Do (Asn v_kf 0 ((Exp (#1.0668955394675699e+01 + #1.5 * $v_logT - #4.0056277362789348e+04 / $v_T))));
  (*994*) Do (Asn v_fwd_rxn_rates 82 (v_C.[0] * v_C.[14] * $v_kf));
  (*995*) If ($v_T) (#1000.0)
    [Asn v_Kc 0 (#(-2.4584651780000000e+00) + #(-1.3014144000000005e-01) * $v_logT + $v_T * (#(-8.6392503799999978e-03) + $v_T * (#9.2972229116666652e-06 + $v_T * (#(-4.9160617820000005e-09) + #1.0728903654500000e-12 * $v_T))) - #9.5306447299999854e+02 / $v_T)]
    [Asn v_Kc 0 (#1.3334433319999999e+01 + #(-3.2917747299999993e+00) * $v_logT + $v_T * (#3.5934379315500000e-03 + $v_T * (#(-6.5386985616666657e-07) + $v_T * (#7.9660458833333329e-11 + #(-4.4023165000000007e-15) * $v_T))) - #1.1061990220000007e+03 / $v_T)];
  (*1001*) Do (Asn v_Kc 0 (#8.2057360967184814e-02 * (Exp $v_Kc)));
  (*1002*) Do (Asn v_rev_rxn_rates 82 (v_C.[17] * $v_kf / $v_Kc));
  (*1005*) Do (Asn v_kf 0 ((Exp (#1.2283033686666302e+01 + #1.51 * $v_logT - #1.7260431074669279e+03 / $v_T))));
  (*1006*) Do (Asn v_fwd_rxn_rates 83 (v_C.[0] * v_C.[4] * $v_kf));
  (*1007*) If ($v_T) (#1000.0)
    [Asn v_Kc 0 (#(-2.2370938510000000e+00) + #3.6229401000000028e-01 * $v_logT + $v_T * (#(-3.8078186646473338e-03) + $v_T * (#3.5634357830006797e-06 + $v_T * (#(-1.8136705573082654e-09) + #3.8919905395361339e-13 * $v_T))) - #(-7.5172121870000010e+03) / $v_T)]
    [Asn v_Kc 0 (#4.1445887660000000e+00 + #(-8.9617436999999978e-01) * $v_logT + $v_T * (#8.3894538700785145e-04 + $v_T * (#(-1.3167241797396752e-07) + $v_T * (#1.4205879822070639e-11 + #(-7.4733377509013216e-16) * $v_T))) - #(-7.4391352780000016e+03) / $v_T)];
  (*1013*) Do (Asn v_Kc 0 (#1.0000000000000000e+00 * (Exp $v_Kc)));
  (*1014*) Do (Asn v_rev_rxn_rates 83 (v_C.[1] * v_C.[5] * $v_kf / $v_Kc));
  (*1017*) Do (Asn v_kf 0 ((Exp (#2.5027330930150580e+01 - #0.37 * $v_logT))));
  (*1018*) Do (Asn v_fwd_rxn_rates 84 (v_C.[4] * v_C.[4] * $v_kf));
  (*1019*) If ($v_T) (#1000.0)
    [Asn v_Kc 0 (#7.3508198260000004e+00 + #(-2.7079181700000001e+00) * $v_logT + $v_T * (#2.1299063115000003e-03 + $v_T * (#1.2496155466666669e-06 + $v_T * (#(-1.1512345533333333e-09) + #2.9481571150000003e-13 * $v_T))) - #(-2.4932743220000000e+04) / $v_T)]
    [Asn v_Kc 0 (#(-4.0164630899999985e+00) + #(-1.0207724900000006e+00) * $v_logT + $v_T * (#1.9057287540000000e-03 + $v_T * (#(-3.5906711766666662e-07) + $v_T * (#4.5589858100000000e-11 + #(-2.6136652849999998e-15) * $v_T))) - #(-2.5579101699999999e+04) / $v_T)];
  (*1025*) Do (Asn v_Kc 0 (#8.2057360967184814e-02 * (Exp $v_Kc)));
  (*1026*) Do (Asn v_rev_rxn_rates 84 (v_C.[7] * $v_kf / $v_Kc));
  (*1029*) Do (Asn v_kf 0 ((Exp (#3.5751506887855933e+00 + #2.4 * $v_logT - #(-1.0617932818528332e+03) / $v_T))));
  (*1030*) Do (Asn v_fwd_rxn_rates 85 (v_C.[4] * v_C.[4] * $v_kf));
  (*1031*) If ($v_T) (#1000.0)
    [Asn v_Kc 0 (#2.0278753680000001e+00 + #(-6.1712319999999909e-01) * $v_logT + $v_T * (#(-2.5655894999999972e-04) + $v_T * (#6.5459820833333341e-07 + $v_T * (#(-3.2114751666666654e-10) + #5.7820423999999999e-14 * $v_T))) - #(-8.4016286199999995e+03) / $v_T)]
    [Asn v_Kc 0 (#1.3800786099999991e+00 + #(-5.8236206999999984e-01) * $v_logT + $v_T * (#4.9704224715000018e-04 + $v_T * (#(-6.2522419183333327e-08) + $v_T * (#5.7360453583333335e-12 + #(-2.7170195449999994e-16) * $v_T))) - #(-8.5040320000000011e+03) / $v_T)];
  (*1037*) Do (Asn v_Kc 0 (#1.0000000000000000e+00 * (Exp $v_Kc)));
  (*1038*) Do (Asn v_rev_rxn_rates 85 (v_C.[5] * v_C.[2] * $v_kf / $v_Kc));
  (*1041*) Do (Asn v_kf 0 ((Exp (#2.3397414486372941e+01 - #(-2.5160978242958132e+02) / $v_T))));
  (*1042*) Do (Asn v_fwd_rxn_rates 86 (v_C.[6] * v_C.[4] * $v_kf));
  (*1043*) If ($v_T) (#1000.0)
    [Asn v_Kc 0 (#(-4.9137695000000026e-01) + #(-3.1271651999999905e-01) * $v_logT + $v_T * (#1.0586348849999999e-03 + $v_T * (#(-1.5680872316666664e-06) + $v_T * (#1.0823547516666667e-09 + #(-2.8203297000000007e-13) * $v_T))) - #(-3.5267558859999997e+04) / $v_T)]
    [Asn v_Kc 0 (#2.9517713799999998e+00 + #(-7.9356824000000037e-01) * $v_logT + $v_T * (#4.3587786700000021e-04 + $v_T * (#(-6.9147710833333339e-08) + $v_T * (#7.1773627999999976e-12 + #(-2.9010321499999993e-16) * $v_T))) - #(-3.5063268533000002e+04) / $v_T)];
  (*1049*) Do (Asn v_Kc 0 (#1.0000000000000000e+00 * (Exp $v_Kc)));
  (*1050*) Do (Asn v_rev_rxn_rates 86 (v_C.[5] * v_C.[3] * $v_kf / $v_Kc));
  (*1053*) Do (Asn v_kf 0 ((Exp (#2.1416413017506358e+01 - #2.1487475419486245e+02 / $v_T))));
  (*1054*) Do (Asn v_fwd_rxn_rates 87 (v_C.[7] * v_C.[4] * $v_kf));
  (*1055*) If ($v_T) (#1000.0)
    [Asn v_Kc 0 (#(-6.9580548999999881e-01) + #2.3231045000000039e-01 * $v_logT + $v_T * (#(-1.9207073364999998e-03) + $v_T * (#1.0545304499999991e-06 + $v_T * (#(-3.5884544916666672e-10) + #5.3778554000000007e-14 * $v_T))) - #(-1.5911417120000000e+04) / $v_T)]
    [Asn v_Kc 0 (#1.5657066599999991e+00 + #(-2.0668712999999928e-01) * $v_logT + $v_T * (#(-5.2000424299999991e-04) + $v_T * (#1.6285939233333333e-07 + $v_T * (#(-2.2169620616666662e-11) + #1.1539419300000000e-15 * $v_T))) - #(-1.5889309686999997e+04) / $v_T)];
  (*1061*) Do (Asn v_Kc 0 (#1.0000000000000000e+00 * (Exp $v_Kc)));
  (*1062*) Do (Asn v_rev_rxn_rates 87 (v_C.[5] * v_C.[6] * $v_kf / $v_Kc));
  (*1065*) Do (Asn v_kf 0 ((Exp (#3.5069404645972853e+01 - #1.4799687402507972e+04 / $v_T))));
  (*1066*) Do (Asn v_fwd_rxn_rates 88 (v_C.[7] * v_C.[4] * $v_kf));
  (*1067*) If ($v_T) (#1000.0)
    [Asn v_Kc 0 (#(-6.9580548999999881e-01) + #2.3231045000000039e-01 * $v_logT + $v_T * (#(-1.9207073364999998e-03) + $v_T * (#1.0545304499999991e-06 + $v_T * (#(-3.5884544916666672e-10) + #5.3778554000000007e-14 * $v_T))) - #(-1.5911417120000000e+04) / $v_T)]
    [Asn v_Kc 0 (#1.5657066599999991e+00 + #(-2.0668712999999928e-01) * $v_logT + $v_T * (#(-5.2000424299999991e-04) + $v_T * (#1.6285939233333333e-07 + $v_T * (#(-2.2169620616666662e-11) + #1.1539419300000000e-15 * $v_T))) - #(-1.5889309686999997e+04) / $v_T)];
  (*1073*) Do (Asn v_Kc 0 (#1.0000000000000000e+00 * (Exp $v_Kc)));
  (*1074*) Do (Asn v_rev_rxn_rates 88 (v_C.[5] * v_C.[6] * $v_kf / $v_Kc));
  (*1077*) Do (Asn v_kf 0 (#50000000000.0));
  (*1078*) Do (Asn v_fwd_rxn_rates 89 (v_C.[8] * v_C.[4] * $v_kf));
  (*1079*) If ($v_T) (#1000.0)
    [Asn v_Kc 0 (#(-8.9893508499999886e-01) + #(-4.6672151000000062e-01) * $v_logT + $v_T * (#1.0562507823526665e-03 + $v_T * (#(-7.2248605449931987e-07) + $v_T * (#4.6003117544173469e-10 + #(-1.2675303229638663e-13) * $v_T))) - #(-7.7929389859999996e+04) / $v_T)]
    [Asn v_Kc 0 (#(-1.5358240940000001e+00) + #(-3.7037093000000043e-01) * $v_logT + $v_T * (#7.3305438125785126e-04 + $v_T * (#(-1.7548291347396754e-07) + $v_T * (#2.3380837997070637e-11 + #(-1.3616614885901321e-15) * $v_T))) - #(-7.7988164799999999e+04) / $v_T)];
  (*1085*) Do (Asn v_Kc 0 (#1.0000000000000000e+00 * (Exp $v_Kc)));
  (*1086*) Do (Asn v_rev_rxn_rates 89 (v_C.[1] * v_C.[14] * $v_kf / $v_Kc));
  (*1089*) Do (Asn v_kf 0 (#30000000000.0));
  (*1090*) Do (Asn v_fwd_rxn_rates 90 (v_C.[9] * v_C.[4] * $v_kf));
  (*1091*) If ($v_T) (#1000.0)
    [Asn v_Kc 0 (#1.7282501950000002e+00 + #(-7.6064623999999936e-01) * $v_logT + $v_T * (#(-5.8322167014733355e-04) + $v_T * (#1.8084994730006800e-06 + $v_T * (#(-1.0496207698082652e-09) + #2.1898323095361336e-13 * $v_T))) - #(-4.5099149099999995e+04) / $v_T)]
    [Asn v_Kc 0 (#8.9163925999999893e-02 + #(-6.9917801000000024e-01) * $v_logT + $v_T * (#1.7188059199578511e-03 + $v_T * (#(-4.5923449947396753e-07) + $v_T * (#6.7316314822070638e-11 + #(-4.1350023250901320e-15) * $v_T))) - #(-4.5385515350000009e+04) / $v_T)];
  (*1097*) Do (Asn v_Kc 0 (#1.0000000000000000e+00 * (Exp $v_Kc)));
  (*1098*) Do (Asn v_rev_rxn_rates 90 (v_C.[1] * v_C.[16] * $v_kf / $v_Kc));
  (*1101*) Do (Asn v_kf 0 (#20000000000.0));
  (*1102*) Do (Asn v_fwd_rxn_rates 91 (v_C.[10] * v_C.[4] * $v_kf));
  (*1103*) If ($v_T) (#1000.0)
    [Asn v_Kc 0 (#(-8.4150539499999955e-01) + #(-4.6097095000000010e-01) * $v_logT + $v_T * (#(-4.2379441561473333e-03) + $v_T * (#4.9848606630006789e-06 + $v_T * (#(-2.5163734364749319e-09) + #5.0628666545361342e-13 * $v_T))) - #(-3.8454417460000004e+04) / $v_T)]
    [Asn v_Kc 0 (#4.2680494560000000e+00 + #(-1.7062987100000004e+00) * $v_logT + $v_T * (#2.4975890804578519e-03 + $v_T * (#(-5.2335789530730089e-07) + $v_T * (#6.9514893488737301e-11 + #(-4.0677022200901327e-15) * $v_T))) - #(-3.8644433400000002e+04) / $v_T)];
  (*1109*) Do (Asn v_Kc 0 (#1.0000000000000000e+00 * (Exp $v_Kc)));
  (*1110*) Do (Asn v_rev_rxn_rates 91 (v_C.[17] * v_C.[1] * $v_kf / $v_Kc));
  (*1113*) Do (Asn v_kf 0 ((Exp (#9.3325580047004326e+00 + #2.0 * $v_logT - #1.5096586945774879e+03 / $v_T))));
  (*1114*) Do (Asn v_fwd_rxn_rates 92 (v_C.[10] * v_C.[4] * $v_kf));
  (*1115*) If ($v_T) (#1000.0)
    [Asn v_Kc 0 (#(-1.5739062999999920e-01) + #(-6.6236889999999882e-02) * $v_logT + $v_T * (#(-1.4007659100000007e-04) + $v_T * (#(-4.3023756000000006e-07) + $v_T * (#4.5052062583333334e-10 + #(-1.3428221950000000e-13) * $v_T))) - #(-9.1155539600000029e+03) / $v_T)]
    [Asn v_Kc 0 (#(-1.4160766999999996e-01) + #(-5.4531579999999913e-02) * $v_logT + $v_T * (#(-5.2849545749999972e-04) + $v_T * (#2.1046897983333333e-07 + $v_T * (#(-3.3330269116666662e-11) + #2.0729778299999996e-15 * $v_T))) - #(-9.1141216999999888e+03) / $v_T)];
  (*1121*) Do (Asn v_Kc 0 (#1.0000000000000000e+00 * (Exp $v_Kc)));
  (*1122*) Do (Asn v_rev_rxn_rates 92 (v_C.[5] * v_C.[9] * $v_kf / $v_Kc));
  (*1125*) Do (Asn v_kf 0 (#30000000000.0));
  (*1126*) Do (Asn v_fwd_rxn_rates 93 (v_C.[11] * v_C.[4] * $v_kf));
  (*1127*) If ($v_T) (#1000.0)
    [Asn v_Kc 0 (#1.9260708619999996e+00 + #(-8.9689638999999977e-01) * $v_logT + $v_T * (#(-2.5702009896473336e-03) + $v_T * (#4.0785166980006795e-06 + $v_T * (#(-2.2799360798082651e-09) + #4.9350015645361341e-13 * $v_T))) - #(-4.2947193660000004e+04) / $v_T)]
    [Asn v_Kc 0 (#1.2306782960000002e+00 + #(-1.1242360000000002e+00) * $v_logT + $v_T * (#1.9978423554578516e-03 + $v_T * (#(-4.2286231197396754e-07) + $v_T * (#5.6371022572070625e-11 + #(-3.3077582300901331e-15) * $v_T))) - #(-4.3306829100000003e+04) / $v_T)];
  (*1133*) Do (Asn v_Kc 0 (#1.0000000000000000e+00 * (Exp $v_Kc)));
  (*1134*) Do (Asn v_rev_rxn_rates 93 (v_C.[17] * v_C.[1] * $v_kf / $v_Kc));
  (*1137*) Do (Asn v_kf 0 ((Exp (#3.5564817990743961e+01 - #1.43 * $v_logT - #6.6928202126268627e+02 / $v_T))));
  (*1138*) Do (Asn v_fwd_rxn_rates 94 (v_C.[12] * v_C.[4] * $v_kf));
  (*1139*) If ($v_T) (#1000.0)
    [Asn v_Kc 0 (#(-1.0545270919999998e+00) + #(-9.5021000999999972e-01) * $v_logT + $v_T * (#(-7.4202735650000006e-03) + $v_T * (#9.1493264216666673e-06 + $v_T * (#(-5.0273651100000005e-09) + #1.1113648879999998e-12 * $v_T))) - #(-4.5702844960000002e+04) / $v_T)]
    [Asn v_Kc 0 (#5.1344918899999996e+00 + #(-2.5888974800000000e+00) * $v_logT + $v_T * (#3.1527495569999998e-03 + $v_T * (#(-5.8406168299999997e-07) + $v_T * (#7.2831030133333342e-11 + #(-4.1043009099999999e-15) * $v_T))) - #(-4.6009116000000002e+04) / $v_T)];
  (*1145*) Do (Asn v_Kc 0 (#8.2057360967184814e-02 * (Exp $v_Kc)));
  (*1146*) Do (Asn v_rev_rxn_rates 94 (v_C.[20] * $v_kf / $v_Kc));
  (*1149*) Do (Asn v_kf 0 ((Exp (#1.0933106969717286e+01 + #1.6 * $v_logT - #2.7274500415366615e+03 / $v_T))));
  (*1150*) Do (Asn v_fwd_rxn_rates 95 (v_C.[12] * v_C.[4] * $v_kf));
  (*1151*) If ($v_T) (#1000.0)
    [Asn v_Kc 0 (#(-1.0828526300000005e+00) + #2.9571340000000079e-01 * $v_logT + $v_T * (#(-3.3859809349999991e-04) + $v_T * (#(-1.7214274166666665e-07) + $v_T * (#1.1778545249999987e-10 + #(-2.2428833999999994e-14) * $v_T))) - #(-4.3497659600000025e+03) / $v_T)]
    [Asn v_Kc 0 (#(-2.3482927800000000e+00) + #5.2948823000000012e-01 * $v_logT + $v_T * (#(-9.7750956300000002e-04) + $v_T * (#2.1460329399999999e-07 + $v_T * (#(-2.8716743866666666e-11) + #1.6510772149999999e-15 * $v_T))) - #(-4.3749343999999992e+03) / $v_T)];
  (*1157*) Do (Asn v_Kc 0 (#1.0000000000000000e+00 * (Exp $v_Kc)));
  (*1158*) Do (Asn v_rev_rxn_rates 95 (v_C.[10] * v_C.[5] * $v_kf / $v_Kc));
  (*1161*) Do (Asn v_kf 0 ((Exp (#3.4098719842032899e+01 - #1.34 * $v_logT - #7.1306212340543345e+02 / $v_T))));
  (*1162*) Do (Asn v_fwd_rxn_rates 96 (v_C.[12] * v_C.[4] * $v_kf));
  (*1163*) If ($v_T) (#1000.0)
    [Asn v_Kc 0 (#(-3.8504288870000005e+00) + #7.3163884000000001e-01 * $v_logT + $v_T * (#(-2.0063412599999999e-03) + $v_T * (#7.3420122333333318e-07 + $v_T * (#(-1.1865190416666688e-10) + #(-9.6423249999999889e-15) * $v_T))) - #1.4301023999999825e+02 / $v_T)]
    [Asn v_Kc 0 (#6.8907837999999932e-01 + #(-5.2574480000000090e-02) * $v_logT + $v_T * (#(-4.7776283799999964e-04) + $v_T * (#1.1410771066666668e-07 + $v_T * (#(-1.5572872949999997e-11) + #8.9113322500000016e-16 * $v_T))) - #2.8746130000000176e+02 / $v_T)];
  (*1169*) Do (Asn v_Kc 0 (#1.0000000000000000e+00 * (Exp $v_Kc)));
  (*1170*) Do (Asn v_rev_rxn_rates 96 (v_C.[11] * v_C.[5] * $v_kf / $v_Kc));
  (*1173*) Do (Asn v_kf 0 ((Exp (#1.1512925464970229e+01 + #1.6 * $v_logT - #1.5700450423605873e+03 / $v_T))));
  (*1174*) Do (Asn v_fwd_rxn_rates 97 (v_C.[13] * v_C.[4] * $v_kf));
  (*1175*) If ($v_T) (#1000.0)
    [Asn v_Kc 0 (#6.7704219399999994e+00 + #(-1.2696605999999995e+00) * $v_logT + $v_T * (#8.0234069850000003e-03 + $v_T * (#(-6.9245629400000004e-06) + $v_T * (#3.3330242550000006e-09 + #(-6.8588373949999998e-13) * $v_T))) - #(-7.2171608599999981e+03) / $v_T)]
    [Asn v_Kc 0 (#(-1.1619143255000001e+01) + #2.1519710450000002e+00 * $v_logT + $v_T * (#(-2.2612790030000001e-03) + $v_T * (#4.0918947733333328e-07 + $v_T * (#(-5.3028044783333337e-11) + #3.0089326100000001e-15 * $v_T))) - #(-7.6190252100000007e+03) / $v_T)];
  (*1181*) Do (Asn v_Kc 0 (#1.0000000000000000e+00 * (Exp $v_Kc)));
  (*1182*) Do (Asn v_rev_rxn_rates 97 (v_C.[5] * v_C.[12] * $v_kf / $v_Kc));
  (*1185*) Do (Asn v_kf 0 ((Exp (#1.0770588040219511e+01 + #1.228 * $v_logT - #3.5225369540141386e+01 / $v_T))));
  (*1186*) Do (Asn v_fwd_rxn_rates 98 (v_C.[14] * v_C.[4] * $v_kf));
  (*1187*) If ($v_T) (#1000.0)
    [Asn v_Kc 0 (#8.7646609250000012e+00 + #(-2.7147753799999998e+00) * $v_logT + $v_T * (#5.9981339853526668e-03 + $v_T * (#(-2.1263859053326532e-06) + $v_T * (#4.5277647235840138e-10 + #(-3.0169487496386619e-14) * $v_T))) - #(-1.2169304360000004e+04) / $v_T)]
    [Asn v_Kc 0 (#(-1.1019815694000000e+01) + #5.4938701999999973e-01 * $v_logT + $v_T * (#9.0170654545785104e-04 + $v_T * (#(-2.2374891347396751e-07) + $v_T * (#3.1781944238737311e-11 + #(-1.9292440950901319e-15) * $v_T))) - #(-1.2992290699999998e+04) / $v_T)];
  (*1193*) Do (Asn v_Kc 0 (#1.0000000000000000e+00 * (Exp $v_Kc)));
  (*1194*) Do (Asn v_rev_rxn_rates 98 (v_C.[1] * v_C.[15] * $v_kf / $v_Kc));
  (*1197*) Do (Asn v_kf 0 (#50000000000.0));
  (*1198*) Do (Asn v_fwd_rxn_rates 99 (v_C.[16] * v_C.[4] * $v_kf));
  (*1199*) If ($v_T) (#1000.0)
    [Asn v_Kc 0 (#(-1.9604265999999893e-01) + #(-4.3502723999999970e-01) * $v_logT + $v_T * (#1.4992275299999999e-03 + $v_T * (#(-1.8101110949999999e-06) + $v_T * (#1.0512148244999999e-09 + #(-2.4171248395000002e-13) * $v_T))) - #(-5.2092458220000000e+04) / $v_T)]
    [Asn v_Kc 0 (#(-1.3736992500000000e+00) + #(-1.1588395000000018e-01) * $v_logT + $v_T * (#(-6.3296975299999964e-04) + $v_T * (#1.9917543550000000e-07 + $v_T * (#(-3.0683716783333336e-11) + #1.9032480549999999e-15 * $v_T))) - #(-5.2026744650000001e+04) / $v_T)];
  (*1205*) Do (Asn v_Kc 0 (#1.0000000000000000e+00 * (Exp $v_Kc)));
  (*1206*) Do (Asn v_rev_rxn_rates 99 (v_C.[5] * v_C.[14] * $v_kf / $v_Kc));
  (*1209*) Do (Asn v_kf 0 ((Exp (#1.5048070819142122e+01 + #1.18 * $v_logT - #(-2.2493914549204570e+02) / $v_T))));
  (*1210*) Do (Asn v_fwd_rxn_rates 100 (v_C.[17] * v_C.[4] * $v_kf));
  (*1211*) If ($v_T) (#1000.0)
    [Asn v_Kc 0 (#2.4123649600000006e+00 + #(-3.6591217999999914e-01) * $v_logT + $v_T * (#3.5146458949999997e-03 + $v_T * (#(-3.6065987499999994e-06) + $v_T * (#1.9172732924999999e-09 + #(-4.2158565400000001e-13) * $v_T))) - #(-1.5760285599999999e+04) / $v_T)]
    [Asn v_Kc 0 (#(-4.3204932000000014e+00) + #9.5258912000000029e-01 * $v_logT + $v_T * (#(-1.3072786180000004e-03) + $v_T * (#2.7459237566666661e-07 + $v_T * (#(-3.5528847783333325e-11) + #2.0056777250000003e-15 * $v_T))) - #(-1.5855203649999999e+04) / $v_T)];
  (*1217*) Do (Asn v_Kc 0 (#1.0000000000000000e+00 * (Exp $v_Kc)));
  (*1218*) Do (Asn v_rev_rxn_rates 100 (v_C.[5] * v_C.[16] * $v_kf / $v_Kc));
  (*1221*) Do (Asn v_kf 0 (#5000000000.0));
  (*1222*) Do (Asn v_fwd_rxn_rates 101 (v_C.[18] * v_C.[4] * $v_kf));
  (*1223*) If ($v_T) (#1000.0)
    [Asn v_Kc 0 (#(-6.7517753799999989e+00) + #1.1364591000000002e+00 * $v_logT + $v_T * (#(-7.5700866549999997e-03) + $v_T * (#5.5486244316666665e-06 + $v_T * (#(-2.4235135158333333e-09) + #4.6077279449999994e-13 * $v_T))) - #(-4.5023850290000002e+04) / $v_T)]
    [Asn v_Kc 0 (#1.0326835640000001e+01 + #(-1.9908707900000002e+00) * $v_logT + $v_T * (#1.0913605869999994e-03 + $v_T * (#(-1.6035911266666657e-07) + $v_T * (#1.7506804383333322e-11 + #(-9.2256411500000039e-16) * $v_T))) - #(-4.4616280129999999e+04) / $v_T)];
  (*1229*) Do (Asn v_Kc 0 (#1.0000000000000000e+00 * (Exp $v_Kc)));
  (*1230*) Do (Asn v_rev_rxn_rates 101 (v_C.[17] * v_C.[5] * $v_kf / $v_Kc));
  (*1233*) Do (Asn v_kf 0 (#5000000000.0));
  (*1234*) Do (Asn v_fwd_rxn_rates 102 (v_C.[19] * v_C.[4] * $v_kf));
  (*1235*) If ($v_T) (#1000.0)
    [Asn v_Kc 0 (#(-1.6188615129999999e+01) + #2.8941442800000003e+00 * $v_logT + $v_T * (#(-8.3800226349999996e-03) + $v_T * (#5.6476654166666667e-06 + $v_T * (#(-2.6798106158333332e-09) + #5.7547593349999999e-13 * $v_T))) - #(-4.9196365060000004e+04) / $v_T)]
    [Asn v_Kc 0 (#1.3285826100000000e+01 + #(-2.0690040999999999e+00) * $v_logT + $v_T * (#1.4784960719999999e-03 + $v_T * (#(-3.4279697933333327e-07) + $v_T * (#5.0239432383333326e-11 + #(-3.1090271200000005e-15) * $v_T))) - #(-4.7986618920000001e+04) / $v_T)];
  (*1241*) Do (Asn v_Kc 0 (#1.0000000000000000e+00 * (Exp $v_Kc)));
  (*1242*) Do (Asn v_rev_rxn_rates 102 (v_C.[17] * v_C.[5] * $v_kf / $v_Kc));
  (*1245*) Do (Asn v_kf 0 ((Exp (#7.2723983925700466e+00 + #2.0 * $v_logT - #(-4.2270443448169664e+02) / $v_T))));
  (*1246*) Do (Asn v_fwd_rxn_rates 103 (v_C.[20] * v_C.[4] * $v_kf));
  (*1247*) If ($v_T) (#1000.0)
    [Asn v_Kc 0 (#7.8768954200000012e+00 + #(-1.6448815099999998e+00) * $v_logT + $v_T * (#1.0596259680000001e-02 + $v_T * (#(-9.5681556483333339e-06) + $v_T * (#4.9183875341666663e-09 + #(-1.0678866775000000e-12) * $v_T))) - #(-1.1459955330000003e+04) / $v_T)]
    [Asn v_Kc 0 (#(-1.0045918750000000e+01) + #1.8440626000000004e+00 * $v_logT + $v_T * (#(-1.9097864529999996e-03) + $v_T * (#3.8723656733333325e-07 + $v_T * (#(-5.0297670450000001e-11) + #2.8641830749999994e-15 * $v_T))) - #(-1.1730585670000000e+04) / $v_T)];
  (*1253*) Do (Asn v_Kc 0 (#1.0000000000000000e+00 * (Exp $v_Kc)));
  (*1254*) Do (Asn v_rev_rxn_rates 103 (v_C.[18] * v_C.[5] * $v_kf / $v_Kc));
  (*1257*) Do (Asn v_kf 0 ((Exp (#8.7483049123796235e+00 + #2.0 * $v_logT - #7.5482934728874397e+02 / $v_T))));
  (*1258*) Do (Asn v_fwd_rxn_rates 104 (v_C.[20] * v_C.[4] * $v_kf));
  (*1259*) If ($v_T) (#1000.0)
    [Asn v_Kc 0 (#1.7313735170000001e+01 + #(-3.4025666900000000e+00) * $v_logT + $v_T * (#1.1406195660000000e-02 + $v_T * (#(-9.6671966333333332e-06) + $v_T * (#5.1746846341666666e-09 + #(-1.1825898164999999e-12) * $v_T))) - #(-7.2874405600000009e+03) / $v_T)]
    [Asn v_Kc 0 (#(-1.3004909209999999e+01) + #1.9221959099999997e+00 * $v_logT + $v_T * (#(-2.2969219380000001e-03) + $v_T * (#5.6967443399999993e-07 + $v_T * (#(-8.3030298450000006e-11) + #5.0506460799999993e-15 * $v_T))) - #(-8.3602468799999988e+03) / $v_T)];
  (*1265*) Do (Asn v_Kc 0 (#1.0000000000000000e+00 * (Exp $v_Kc)));
  (*1266*) Do (Asn v_rev_rxn_rates 104 (v_C.[5] * v_C.[19] * $v_kf / $v_Kc));
  (*1269*) Do (Asn v_kf 0 (#20000000000.0));
  (*1270*) Do (Asn v_fwd_rxn_rates 105 (v_C.[21] * v_C.[4] * $v_kf));
  (*1271*) If ($v_T) (#1000.0)
    [Asn v_Kc 0 (#8.0546465850000004e+00 + #(-2.1299513599999997e+00) * $v_logT + $v_T * (#3.3231887103526659e-03 + $v_T * (#2.1651781334013613e-08 + $v_T * (#(-6.9351768064159861e-10) + #2.2512776495361328e-13 * $v_T))) - #(-2.4921364860000005e+04) / $v_T)]
    [Asn v_Kc 0 (#(-1.7357044883999997e+01) + #1.8675116199999997e+00 * $v_logT + $v_T * (#(-6.0765432954214868e-04) + $v_T * (#1.9651809692699158e-08 + $v_T * (#5.8347015720706399e-12 + #(-6.7128960509013197e-16) * $v_T))) - #(-2.6178847100000006e+04) / $v_T)];
  (*1277*) Do (Asn v_Kc 0 (#1.0000000000000000e+00 * (Exp $v_Kc)));
  (*1278*) Do (Asn v_rev_rxn_rates 105 (v_C.[1] * v_C.[27] * $v_kf / $v_Kc));
  (*1281*) Do (Asn v_kf 0 ((Exp (#(-1.5338770774157322e+01) + #4.5 * $v_logT - #(-5.0321956485916263e+02) / $v_T))));
  (*1282*) Do (Asn v_fwd_rxn_rates 106 (v_C.[22] * v_C.[4] * $v_kf));
  (*1283*) If ($v_T) (#1000.0)
    [Asn v_Kc 0 (#(-1.9019542709999984e+00) + #(-1.6486022400000033e-01) * $v_logT + $v_T * (#(-1.4206866396473349e-03) + $v_T * (#2.2507492813340137e-06 + $v_T * (#(-1.2325112239749320e-09) + #2.5610194445361334e-13 * $v_T))) - #(-1.1613319400000002e+04) / $v_T)]
    [Asn v_Kc 0 (#(-2.8316906189999984e+00) + #(-2.2915998000000082e-01) * $v_logT + $v_T * (#1.2467505354578513e-03 + $v_T * (#(-3.2049217364063418e-07) + $v_T * (#4.5323321822070636e-11 + #(-2.7550767950901317e-15) * $v_T))) - #(-1.1872049410000000e+04) / $v_T)];
  (*1289*) Do (Asn v_Kc 0 (#1.0000000000000000e+00 * (Exp $v_Kc)));
  (*1290*) Do (Asn v_rev_rxn_rates 106 (v_C.[1] * v_C.[28] * $v_kf / $v_Kc));
  (*1293*) Do (Asn v_kf 0 ((Exp (#6.2225762680713688e+00 + #2.3 * $v_logT - #6.7934641255986953e+03 / $v_T))));
  (*1294*) Do (Asn v_fwd_rxn_rates 107 (v_C.[22] * v_C.[4] * $v_kf));
  (*1295*) If ($v_T) (#1000.0)
    [Asn v_Kc 0 (#6.5017972900000043e-01 + #(-1.0583232240000000e+00) * $v_logT + $v_T * (#5.0559778103526657e-03 + $v_T * (#(-3.3279368186659876e-06) + $v_T * (#1.5835850526917350e-09 + #(-3.4389894804638668e-13) * $v_T))) - #3.4612129399999999e+03 / $v_T)]
    [Asn v_Kc 0 (#(-1.2478243804000000e+01) + #1.1833717999999993e+00 * $v_logT + $v_T * (#1.4113181045785118e-04 + $v_T * (#(-5.3235515307300842e-08) + $v_T * (#5.8676991554039722e-12 + #(-2.7789084009013200e-16) * $v_T))) - #2.9436297000000004e+03 / $v_T)];
  (*1301*) Do (Asn v_Kc 0 (#1.0000000000000000e+00 * (Exp $v_Kc)));
  (*1302*) Do (Asn v_rev_rxn_rates 107 (v_C.[1] * v_C.[29] * $v_kf / $v_Kc));
  (*1305*) Do (Asn v_kf 0 ((Exp (#1.0425253116340453e+01 + #2.0 * $v_logT - #7.0450739080282765e+03 / $v_T))));
  (*1306*) Do (Asn v_fwd_rxn_rates 108 (v_C.[22] * v_C.[4] * $v_kf));
  (*1307*) If ($v_T) (#1000.0)
    [Asn v_Kc 0 (#(-1.0749448835999999e+01) + #2.2876013660000001e+00 * $v_logT + $v_T * (#(-4.7933591900000006e-03) + $v_T * (#1.4904491833333333e-06 + $v_T * (#(-1.1914707499999581e-11) + #(-1.0122789449999992e-13) * $v_T))) - #6.5016052400000062e+03 / $v_T)]
    [Asn v_Kc 0 (#9.3949082599999993e+00 + #(-1.0386583000000003e+00) * $v_logT + $v_T * (#2.0952035199999993e-04 + $v_T * (#4.0750000666666709e-08 + $v_T * (#(-1.4359812533333336e-11) + #1.1739552950000001e-15 * $v_T))) - #7.3221117000000077e+03 / $v_T)];
  (*1313*) Do (Asn v_Kc 0 (#1.0000000000000000e+00 * (Exp $v_Kc)));
  (*1314*) Do (Asn v_rev_rxn_rates 108 (v_C.[21] * v_C.[5] * $v_kf / $v_Kc));
  (*1317*) Do (Asn v_kf 0 ((Exp (#(-1.4543249183293838e+01) + #4.0 * $v_logT - #(-1.0064391297183253e+03) / $v_T))));
  (*1318*) Do (Asn v_fwd_rxn_rates 109 (v_C.[22] * v_C.[4] * $v_kf));
  (*1319*) If ($v_T) (#1000.0)
    [Asn v_Kc 0 (#(-1.1175233377999998e+01) + #2.4524273459999999e+00 * $v_logT + $v_T * (#(-9.7798236549999987e-03) + $v_T * (#6.2743793299999998e-06 + $v_T * (#(-2.5081898946666667e-09) + #4.3880239404999997e-13 * $v_T))) - #(-2.7943148459999997e+04) / $v_T)]
    [Asn v_Kc 0 (#1.5291898600000001e+01 + #(-2.2395539800000006e+00) * $v_logT + $v_T * (#1.3961657220000001e-03 + $v_T * (#(-2.8992099316666670e-07) + $v_T * (#3.7189303049999993e-11 + #(-2.1348963649999999e-15) * $v_T))) - #(-2.7170944299999999e+04) / $v_T)];
  (*1325*) Do (Asn v_Kc 0 (#1.0000000000000000e+00 * (Exp $v_Kc)));
  (*1326*) Do (Asn v_rev_rxn_rates 109 (v_C.[12] * v_C.[14] * $v_kf / $v_Kc));
  (*1329*) Do (Asn v_kf 0 (#5000000000.0));
  (*1330*) Do (Asn v_fwd_rxn_rates 110 (v_C.[23] * v_C.[4] * $v_kf));
  (*1331*) If ($v_T) (#1000.0)
    [Asn v_Kc 0 (#6.8812183259999991e+00 + #(-2.1971602259999998e+00) * $v_logT + $v_T * (#1.1105827350000000e-02 + $v_T * (#(-9.9226098333333313e-06) + $v_T * (#5.1811825924999994e-09 + #(-1.1403976785000000e-12) * $v_T))) - #(-4.2339673360000001e+04) / $v_T)]
    [Asn v_Kc 0 (#(-9.5994814500000007e+00) + #1.0719504600000005e+00 * $v_logT + $v_T * (#(-1.3700371180000006e-03) + $v_T * (#3.3621620399999992e-07 + $v_T * (#(-4.6609711699999999e-11) + #2.7608022199999998e-15 * $v_T))) - #(-4.2539828799999996e+04) / $v_T)];
  (*1337*) Do (Asn v_Kc 0 (#1.0000000000000000e+00 * (Exp $v_Kc)));
  (*1338*) Do (Asn v_rev_rxn_rates 110 (v_C.[5] * v_C.[22] * $v_kf / $v_Kc));
  (*1341*) Do (Asn v_kf 0 ((Exp (#8.1886891244442008e+00 + #2.0 * $v_logT - #1.2580489121479065e+03 / $v_T))));
  (*1342*) Do (Asn v_fwd_rxn_rates 111 (v_C.[24] * v_C.[4] * $v_kf));
  (*1343*) If ($v_T) (#1000.0)
    [Asn v_Kc 0 (#4.2082124400000005e+00 + #(-5.4010989999999959e-01) * $v_logT + $v_T * (#4.7250987550000005e-03 + $v_T * (#(-4.8792707166666667e-06) + $v_T * (#2.6488544424999995e-09 + #(-5.9327432650000018e-13) * $v_T))) - #(-4.1387363900000000e+03) / $v_T)]
    [Asn v_Kc 0 (#(-2.9496891800000014e+00) + #9.2171766000000011e-01 * $v_logT + $v_T * (#(-1.3433487879999997e-03) + $v_T * (#2.8989631900000017e-07 + $v_T * (#(-3.8641015116666684e-11) + #2.2262109250000002e-15 * $v_T))) - #(-4.1899663400000009e+03) / $v_T)];
  (*1349*) Do (Asn v_Kc 0 (#1.0000000000000000e+00 * (Exp $v_Kc)));
  (*1350*) Do (Asn v_rev_rxn_rates 111 (v_C.[5] * v_C.[23] * $v_kf / $v_Kc));
  (*1353*) Do (Asn v_kf 0 ((Exp (#8.1718820061278201e+00 + #2.12 * $v_logT - #4.3780102142747148e+02 / $v_T))));
  (*1354*) Do (Asn v_fwd_rxn_rates 112 (v_C.[26] * v_C.[4] * $v_kf));
  (*1355*) If ($v_T) (#1000.0)
    [Asn v_Kc 0 (#1.0736134400000008e+00 + #2.2166589000000014e-01 * $v_logT + $v_T * (#8.3991859999999938e-04 + $v_T * (#(-1.3878474000000013e-06) + $v_T * (#7.7726088416666721e-10 + #(-1.7049066150000002e-13) * $v_T))) - #(-9.5449752600000011e+03) / $v_T)]
    [Asn v_Kc 0 (#(-1.9869821400000016e+00) + #8.2387974000000019e-01 * $v_logT + $v_T * (#(-1.3297535879999997e-03) + $v_T * (#2.9216037899999999e-07 + $v_T * (#(-3.9253245950000014e-11) + #2.2720087799999998e-15 * $v_T))) - #(-9.5790409000000000e+03) / $v_T)];
  (*1361*) Do (Asn v_Kc 0 (#1.0000000000000000e+00 * (Exp $v_Kc)));
  (*1362*) Do (Asn v_rev_rxn_rates 112 (v_C.[25] * v_C.[5] * $v_kf / $v_Kc));
  (*1365*) Do (Asn v_kf 0 ((Exp (#2.2738168857488677e+01 - #1.0064391297183253e+03 / $v_T))));
  (*1366*) Do (Asn v_fwd_rxn_rates 113 (v_C.[28] * v_C.[4] * $v_kf));
  (*1367*) If ($v_T) (#1000.0)
    [Asn v_Kc 0 (#(-7.9284798000000034e-01) + #3.2251023000000067e-01 * $v_logT + $v_T * (#(-4.9483839999999368e-05) + $v_T * (#(-7.3864831666666643e-07) + $v_T * (#5.2707883583333348e-10 + #(-1.3220207400000005e-13) * $v_T))) - #(-6.8064402199999986e+03) / $v_T)]
    [Asn v_Kc 0 (#(-5.1304460050000005e+00) + #1.0580133000000003e+00 * $v_logT + $v_T * (#(-1.6448845129999994e-03) + $v_T * (#3.8089398399999996e-07 + $v_T * (#(-5.3848432783333332e-11) + #3.2577424849999995e-15 * $v_T))) - #(-6.9846859899999999e+03) / $v_T)];
  (*1373*) Do (Asn v_Kc 0 (#1.0000000000000000e+00 * (Exp $v_Kc)));
  (*1374*) Do (Asn v_rev_rxn_rates 113 (v_C.[5] * v_C.[27] * $v_kf / $v_Kc));
  (*1377*) Do (Asn v_kf 0 ((Exp (#1.8683045008419857e+01 - #(-8.2024789072043507e+02) / $v_T))));
  (*1378*) Do (Asn v_fwd_rxn_rates 114 (v_C.[6] * v_C.[6] * $v_kf));
  (*1379*) If ($v_T) (#1000.0)
    [Asn v_Kc 0 (#2.0442853999999988e-01 + #(-5.4502697000000033e-01) * $v_logT + $v_T * (#2.9793422214999996e-03 + $v_T * (#(-2.6226176816666659e-06) + $v_T * (#1.4412002008333336e-09 + #(-3.3581152400000006e-13) * $v_T))) - #(-1.9356141739999999e+04) / $v_T)]
    [Asn v_Kc 0 (#1.3860647200000007e+00 + #(-5.8688111000000109e-01) * $v_logT + $v_T * (#9.5588210999999991e-04 + $v_T * (#(-2.3200710316666662e-07) + $v_T * (#2.9346983416666660e-11 + #(-1.4440451450000000e-15) * $v_T))) - #(-1.9173958845999998e+04) / $v_T)];
  (*1385*) Do (Asn v_Kc 0 (#1.0000000000000000e+00 * (Exp $v_Kc)));
  (*1386*) Do (Asn v_rev_rxn_rates 114 (v_C.[7] * v_C.[3] * $v_kf / $v_Kc));
  (*1389*) Do (Asn v_kf 0 ((Exp (#2.6763520548223823e+01 - #6.0386347783099518e+03 / $v_T))));
  (*1390*) Do (Asn v_fwd_rxn_rates 115 (v_C.[6] * v_C.[6] * $v_kf));
  (*1391*) If ($v_T) (#1000.0)
    [Asn v_Kc 0 (#2.0442853999999988e-01 + #(-5.4502697000000033e-01) * $v_logT + $v_T * (#2.9793422214999996e-03 + $v_T * (#(-2.6226176816666659e-06) + $v_T * (#1.4412002008333336e-09 + #(-3.3581152400000006e-13) * $v_T))) - #(-1.9356141739999999e+04) / $v_T)]
    [Asn v_Kc 0 (#1.3860647200000007e+00 + #(-5.8688111000000109e-01) * $v_logT + $v_T * (#9.5588210999999991e-04 + $v_T * (#(-2.3200710316666662e-07) + $v_T * (#2.9346983416666660e-11 + #(-1.4440451450000000e-15) * $v_T))) - #(-1.9173958845999998e+04) / $v_T)];
  (*1397*) Do (Asn v_Kc 0 (#1.0000000000000000e+00 * (Exp $v_Kc)));
  (*1398*) Do (Asn v_rev_rxn_rates 115 (v_C.[7] * v_C.[3] * $v_kf / $v_Kc));
  (*1401*) Do (Asn v_kf 0 (#20000000000.0));
  (*1402*) Do (Asn v_fwd_rxn_rates 116 (v_C.[10] * v_C.[6] * $v_kf));
  (*1403*) If ($v_T) (#1000.0)
    [Asn v_Kc 0 (#(-5.5015687579999994e+00) + #7.2126190000000090e-01 * $v_logT + $v_T * (#(-4.2647014214999999e-03) + $v_T * (#2.9977919499999997e-06 + $v_T * (#(-1.1401965416666665e-09) + #1.7808557350000002e-13 * $v_T))) - #(-5.6992724280000002e+04) / $v_T)]
    [Asn v_Kc 0 (#1.0214457990000001e+01 + #(-2.0377342800000000e+00) * $v_logT + $v_T * (#1.9261087430000004e-03 + $v_T * (#(-3.7557979699999998e-07) + $v_T * (#4.5336670449999998e-11 + #(-2.3540358100000002e-15) * $v_T))) - #(-5.6512636012999996e+04) / $v_T)];
  (*1409*) Do (Asn v_Kc 0 (#1.0000000000000000e+00 * (Exp $v_Kc)));
  (*1410*) Do (Asn v_rev_rxn_rates 116 (v_C.[17] * v_C.[4] * $v_kf / $v_Kc));
  (*1413*) Do (Asn v_kf 0 (#1000000000.0));
  (*1414*) Do (Asn v_fwd_rxn_rates 117 (v_C.[12] * v_C.[6] * $v_kf));
  (*1415*) If ($v_T) (#1000.0)
    [Asn v_Kc 0 (#(-7.2617988899999997e+00) + #9.5694408000000042e-01 * $v_logT + $v_T * (#(-6.9647721000000006e-03) + $v_T * (#5.3564757083333336e-06 + $v_T * (#(-2.2506695033333343e-09) + #4.0385076950000006e-13 * $v_T))) - #(-2.8050398000000001e+04) / $v_T)]
    [Asn v_Kc 0 (#1.4570914635000003e+01 + #(-2.9455392850000006e+00) * $v_logT + $v_T * (#2.6971568700000000e-03 + $v_T * (#(-4.7833718816666649e-07) + $v_T * (#6.0205407583333335e-11 + #(-3.2990358250000004e-15) * $v_T))) - #(-2.7444243323000002e+04) / $v_T)];
  (*1421*) Do (Asn v_Kc 0 (#1.0000000000000000e+00 * (Exp $v_Kc)));
  (*1422*) Do (Asn v_rev_rxn_rates 117 (v_C.[13] * v_C.[3] * $v_kf / $v_Kc));
  (*1425*) Do (Asn v_kf 0 (#37800000000.0));
  (*1426*) Do (Asn v_fwd_rxn_rates 118 (v_C.[12] * v_C.[6] * $v_kf));
  (*1427*) If ($v_T) (#1000.0)
    [Asn v_Kc 0 (#9.6041937419999996e+00 + #(-1.8771689799999995e+00) * $v_logT + $v_T * (#3.7767231199999996e-03 + $v_T * (#(-2.8220162083333331e-06) + $v_T * (#1.6573995266666667e-09 + #(-4.1981919400000005e-13) * $v_T))) - #(-1.2146125180000001e+04) / $v_T)]
    [Asn v_Kc 0 (#(-5.4196608900000003e+00) + #5.6075804999999956e-01 * $v_logT + $v_T * (#(-5.2989689199999987e-04) + $v_T * (#1.8182047633333330e-07 + $v_T * (#(-3.3619505800000002e-11) + #2.4060685249999999e-15 * $v_T))) - #(-1.2900951492999999e+04) / $v_T)];
  (*1433*) Do (Asn v_Kc 0 (#1.0000000000000000e+00 * (Exp $v_Kc)));
  (*1434*) Do (Asn v_rev_rxn_rates 118 (v_C.[19] * v_C.[4] * $v_kf / $v_Kc));
  (*1437*) Do (Asn v_kf 0 ((Exp (#2.5733901131042668e+01 - #1.1875981730676238e+04 / $v_T))));
  (*1438*) Do (Asn v_fwd_rxn_rates 119 (v_C.[14] * v_C.[6] * $v_kf));
  (*1439*) If ($v_T) (#1000.0)
    [Asn v_Kc 0 (#4.1045975620000004e+00 + #(-1.5325425300000002e+00) * $v_logT + $v_T * (#5.9713767200000002e-03 + $v_T * (#(-4.1134546183333329e-06) + $v_T * (#1.8289533671666668e-09 + #(-3.5837057945000006e-13) * $v_T))) - #(-3.0707611180000000e+04) / $v_T)]
    [Asn v_Kc 0 (#(-5.0734071600000004e+00) + #2.1795145000000016e-01 * $v_logT + $v_T * (#3.3022620799999991e-04 + $v_T * (#(-7.5970815166666666e-08) + $v_T * (#7.6037212000000058e-12 + #(-2.1557768500000007e-16) * $v_T))) - #(-3.0860493312999999e+04) / $v_T)];
  (*1445*) Do (Asn v_Kc 0 (#1.0000000000000000e+00 * (Exp $v_Kc)));
  (*1446*) Do (Asn v_rev_rxn_rates 119 (v_C.[15] * v_C.[4] * $v_kf / $v_Kc));
  (*1449*) Do (Asn v_kf 0 ((Exp (#8.6305218767232414e+00 + #2.0 * $v_logT - #6.0386347783099518e+03 / $v_T))));
  (*1450*) Do (Asn v_fwd_rxn_rates 120 (v_C.[17] * v_C.[6] * $v_kf));
  (*1451*) If ($v_T) (#1000.0)
    [Asn v_Kc 0 (#3.1081704499999998e+00 + #(-5.9822262999999953e-01) * $v_logT + $v_T * (#5.4353532315000001e-03 + $v_T * (#(-4.6611291999999993e-06) + $v_T * (#2.2761187416666667e-09 + #(-4.7536420800000006e-13) * $v_T))) - #1.5113152000000071e+02 / $v_T)]
    [Asn v_Kc 0 (#(-5.8861998599999996e+00) + #1.1592762499999996e+00 * $v_logT + $v_T * (#(-7.8727437499999972e-04) + $v_T * (#1.1173298333333329e-07 + $v_T * (#(-1.3359227166666668e-11) + #8.5173579500000028e-16 * $v_T))) - #3.4106036999998778e+01 / $v_T)];
  (*1457*) Do (Asn v_Kc 0 (#1.0000000000000000e+00 * (Exp $v_Kc)));
  (*1458*) Do (Asn v_rev_rxn_rates 120 (v_C.[7] * v_C.[16] * $v_kf / $v_Kc));
  (*1461*) Do (Asn v_kf 0 ((Exp (#2.4783708847492832e+01 - #2.8985446935887768e+02 / $v_T))));
  (*1462*) Do (Asn v_fwd_rxn_rates 121 (v_C.[8] * v_C.[3] * $v_kf));
  (*1463*) If ($v_T) (#1000.0)
    [Asn v_Kc 0 (#(-3.0397461299999997e+00) + #4.1110465999999990e-01 * $v_logT + $v_T * (#(-2.8570031800000009e-04) + $v_T * (#(-4.8686932749999970e-07) + $v_T * (#4.3270580191666671e-10 + #(-1.1510073025000001e-13) * $v_T))) - #(-6.9601766439999992e+04) / $v_T)]
    [Asn v_Kc 0 (#2.8388916699999989e+00 + #(-4.9060032999999992e-01) * $v_logT + $v_T * (#2.2273842395000021e-04 + $v_T * (#(-2.1079523516666690e-08) + $v_T * (#(-2.2387024833333325e-12) + #3.7040618199999998e-16 * $v_T))) - #(-6.9297130879999997e+04) / $v_T)];
  (*1469*) Do (Asn v_Kc 0 (#1.0000000000000000e+00 * (Exp $v_Kc)));
  (*1470*) Do (Asn v_rev_rxn_rates 121 (v_C.[14] * v_C.[2] * $v_kf / $v_Kc));
  (*1473*) Do (Asn v_kf 0 (#50000000000.0));
  (*1474*) Do (Asn v_fwd_rxn_rates 122 (v_C.[8] * v_C.[10] * $v_kf));
  (*1475*) If ($v_T) (#1000.0)
    [Asn v_Kc 0 (#6.0970208700000006e-01 + #(-9.2726089000000034e-01) * $v_logT + $v_T * (#6.3813133408526668e-03 + $v_T * (#(-5.3342734594993211e-06) + $v_T * (#2.8385209101084016e-09 + #(-6.4435448684638660e-13) * $v_T))) - #(-3.9134870199999990e+04) / $v_T)]
    [Asn v_Kc 0 (#(-5.0845216539999996e+00) + #3.0103651999999981e-01 * $v_logT + $v_T * (#5.2391857425785151e-04 + $v_T * (#(-5.9415213640634164e-08) + $v_T * (#5.4846628040396918e-13 + #2.9611295640986784e-16 * $v_T))) - #(-3.9120174399999996e+04) / $v_T)];
  (*1481*) Do (Asn v_Kc 0 (#1.0000000000000000e+00 * (Exp $v_Kc)));
  (*1482*) Do (Asn v_rev_rxn_rates 122 (v_C.[1] * v_C.[21] * $v_kf / $v_Kc));
  (*1485*) Do (Asn v_kf 0 (#50000000000.0));
  (*1486*) Do (Asn v_fwd_rxn_rates 123 (v_C.[8] * v_C.[12] * $v_kf));
  (*1487*) If ($v_T) (#1000.0)
    [Asn v_Kc 0 (#1.0276298292999998e+01 + #(-2.9191488560000005e+00) * $v_logT + $v_T * (#1.0836074437352666e-02 + $v_T * (#(-6.9968653844993205e-06) + $v_T * (#2.9682210701084015e-09 + #(-5.6555542634638665e-13) * $v_T))) - #(-4.9986241399999999e+04) / $v_T)]
    [Asn v_Kc 0 (#(-1.6827722694000002e+01) + #1.8691830500000002e+00 * $v_logT + $v_T * (#(-6.6311134074214855e-04) + $v_T * (#1.1443807969269913e-07 + $v_T * (#(-1.3808465052929363e-11) + #7.7323487640986804e-16 * $v_T))) - #(-5.0817220499999996e+04) / $v_T)];
  (*1493*) Do (Asn v_Kc 0 (#1.0000000000000000e+00 * (Exp $v_Kc)));
  (*1494*) Do (Asn v_rev_rxn_rates 123 (v_C.[1] * v_C.[22] * $v_kf / $v_Kc));
  (*1497*) Do (Asn v_kf 0 (#67100000000.0));
  (*1498*) Do (Asn v_fwd_rxn_rates 124 (v_C.[9] * v_C.[3] * $v_kf));
  (*1499*) If ($v_T) (#1000.0)
    [Asn v_Kc 0 (#(-4.1256085000000020e-01) + #1.1717993000000027e-01 * $v_logT + $v_T * (#(-1.9251727705000001e-03) + $v_T * (#2.0441161999999999e-06 + $v_T * (#(-1.0769461433333334e-09) + #2.3063553300000001e-13 * $v_T))) - #(-3.6771525679999992e+04) / $v_T)]
    [Asn v_Kc 0 (#4.4638796899999988e+00 + #(-8.1940740999999973e-01) * $v_logT + $v_T * (#1.2084899626500002e-03 + $v_T * (#(-3.0483110951666671e-07) + $v_T * (#4.1696774341666675e-11 + #(-2.4029346545000000e-15) * $v_T))) - #(-3.6694481430000007e+04) / $v_T)];
  (*1505*) Do (Asn v_Kc 0 (#1.0000000000000000e+00 * (Exp $v_Kc)));
  (*1506*) Do (Asn v_rev_rxn_rates 124 (v_C.[16] * v_C.[2] * $v_kf / $v_Kc));
  (*1509*) Do (Asn v_kf 0 ((Exp (#2.5405397064070630e+01 - #1.5650128467119957e+03 / $v_T))));
  (*1510*) Do (Asn v_fwd_rxn_rates 125 (v_C.[0] * v_C.[9] * $v_kf));
  (*1511*) If ($v_T) (#1000.0)
    [Asn v_Kc 0 (#(-2.0797032209999999e+00) + #4.2853089999999971e-01 * $v_logT + $v_T * (#(-3.6677420736473329e-03) + $v_T * (#3.9936733430006801e-06 + $v_T * (#(-2.2641911831415990e-09) + #5.2348127345361345e-13 * $v_T))) - #1.5983417730000074e+03 / $v_T)]
    [Asn v_Kc 0 (#4.2861964359999991e+00 + #(-8.4164278999999986e-01) * $v_logT + $v_T * (#1.3674408445078514e-03 + $v_T * (#(-3.4214139780730086e-07) + $v_T * (#4.7536148938737302e-11 + #(-2.8203116050901321e-15) * $v_T))) - #1.6749864219999872e+03 / $v_T)];
  (*1517*) Do (Asn v_Kc 0 (#1.0000000000000000e+00 * (Exp $v_Kc)));
  (*1518*) Do (Asn v_rev_rxn_rates 125 (v_C.[1] * v_C.[10] * $v_kf / $v_Kc));
  (*1521*) Do (Asn v_kf 0 ((Exp (#2.2465484860614328e+01 - #(-3.7993077146866779e+02) / $v_T))));
  (*1522*) Do (Asn v_fwd_rxn_rates 126 (v_C.[5] * v_C.[9] * $v_kf));
  (*1523*) If ($v_T) (#1000.0)
    [Asn v_Kc 0 (#(-6.8411476500000035e-01) + #(-3.9473406000000022e-01) * $v_logT + $v_T * (#(-4.0978675651473333e-03) + $v_T * (#5.4150982230006794e-06 + $v_T * (#(-2.9668940623082650e-09) + #6.4056888495361337e-13 * $v_T))) - #(-2.9338863499999999e+04) / $v_T)]
    [Asn v_Kc 0 (#4.4096571259999999e+00 + #(-1.6517671300000005e+00) * $v_logT + $v_T * (#3.0260845379578519e-03 + $v_T * (#(-7.3382687514063420e-07) + $v_T * (#1.0284516260540396e-10 + #(-6.1406800500901323e-15) * $v_T))) - #(-2.9530311700000006e+04) / $v_T)];
  (*1529*) Do (Asn v_Kc 0 (#1.0000000000000000e+00 * (Exp $v_Kc)));
  (*1530*) Do (Asn v_rev_rxn_rates 126 (v_C.[17] * v_C.[1] * $v_kf / $v_Kc));
  (*1533*) Do (Asn v_kf 0 (#40000000000.0));
  (*1534*) Do (Asn v_fwd_rxn_rates 127 (v_C.[10] * v_C.[9] * $v_kf));
  (*1535*) If ($v_T) (#1000.0)
    [Asn v_Kc 0 (#1.3790293542999999e+01 + #(-3.9438142259999998e+00) * $v_logT + $v_T * (#1.1034427608352666e-02 + $v_T * (#(-6.1038482103326536e-06) + $v_T * (#2.3919984968584011e-09 + #(-4.3910281304638655e-13) * $v_T))) - #(-6.4898692899999995e+04) / $v_T)]
    [Asn v_Kc 0 (#(-1.4228141144000000e+01) + #8.9500379000000008e-01 * $v_logT + $v_T * (#6.6718000795785136e-04 + $v_T * (#(-1.8474136480730085e-07) + $v_T * (#2.8160038855403975e-11 + #(-1.7479351200901319e-15) * $v_T))) - #(-6.5866381300000008e+04) / $v_T)];
  (*1541*) Do (Asn v_Kc 0 (#1.0000000000000000e+00 * (Exp $v_Kc)));
  (*1542*) Do (Asn v_rev_rxn_rates 127 (v_C.[1] * v_C.[22] * $v_kf / $v_Kc));
  (*1545*) Do (Asn v_kf 0 (#30000000000.0));
  (*1546*) Do (Asn v_fwd_rxn_rates 128 (v_C.[9] * v_C.[12] * $v_kf));
  (*1547*) If ($v_T) (#1000.0)
    [Asn v_Kc 0 (#5.8262225870000002e+00 + #(-1.4509406000000000e+00) * $v_logT + $v_T * (#(-4.0999783514733361e-04) + $v_T * (#3.6466188813340132e-06 + $v_T * (#(-2.6713986431415987e-09) + #6.7886603145361340e-13 * $v_T))) - #(-2.6908785499999998e+04) / $v_T)]
    [Asn v_Kc 0 (#(-6.9769524740000000e+00) + #3.5254155999999970e-01 * $v_logT + $v_T * (#1.0597075629578522e-03 + $v_T * (#(-3.0635427480730083e-07) + $v_T * (#4.6053006688737302e-11 + #(-2.8576601250901313e-15) * $v_T))) - #(-2.7701486900000007e+04) / $v_T)];
  (*1553*) Do (Asn v_Kc 0 (#1.0000000000000000e+00 * (Exp $v_Kc)));
  (*1554*) Do (Asn v_rev_rxn_rates 128 (v_C.[1] * v_C.[23] * $v_kf / $v_Kc));
  (*1557*) Do (Asn v_kf 0 (#60000000000.0));
  (*1558*) Do (Asn v_fwd_rxn_rates 129 (v_C.[9] * v_C.[13] * $v_kf));
  (*1559*) If ($v_T) (#1000.0)
    [Asn v_Kc 0 (#8.3884320869999982e+00 + #(-2.1804912999999999e+00) * $v_logT + $v_T * (#2.8883103948526660e-03 + $v_T * (#1.6013266580006795e-06 + $v_T * (#(-1.9872288306415980e-09) + #5.8625661845361351e-13 * $v_T))) - #(-2.9987209969999993e+04) / $v_T)]
    [Asn v_Kc 0 (#(-1.5646406548999998e+01) + #1.5827949449999998e+00 * $v_logT + $v_T * (#1.4177734795785182e-04 + $v_T * (#(-1.8706111647396772e-07) + $v_T * (#3.1665977022070668e-11 + #(-2.0749384400901321e-15) * $v_T))) - #(-3.1130545770000004e+04) / $v_T)];
  (*1565*) Do (Asn v_Kc 0 (#1.0000000000000000e+00 * (Exp $v_Kc)));
  (*1566*) Do (Asn v_rev_rxn_rates 129 (v_C.[1] * v_C.[24] * $v_kf / $v_Kc));
  (*1569*) Do (Asn v_kf 0 (#50000000000.0));
  (*1570*) Do (Asn v_fwd_rxn_rates 130 (v_C.[9] * v_C.[14] * $v_kf));
  (*1571*) If ($v_T) (#1000.0)
    [Asn v_Kc 0 (#1.1715625360000001e+01 + #(-3.8176287199999996e+00) * $v_logT + $v_T * (#8.9707695694999992e-03 + $v_T * (#(-3.8428207800000003e-06) + $v_T * (#1.1005483205000003e-09 + #(-1.3779829655000002e-13) * $v_T))) - #(-3.6393758399999992e+04) / $v_T)]
    [Asn v_Kc 0 (#(-1.7268482670000001e+01) + #1.0345554600000000e+00 * $v_logT + $v_T * (#5.2594949450000014e-04 + $v_T * (#(-1.2317909733333330e-07) + $v_T * (#1.5574613416666670e-11 + #(-8.3254993499999971e-16) * $v_T))) - #(-3.7533349000000009e+04) / $v_T)];
  (*1577*) Do (Asn v_Kc 0 (#8.2057360967184814e-02 * (Exp $v_Kc)));
  (*1578*) Do (Asn v_rev_rxn_rates 130 (v_C.[27] * $v_kf / $v_Kc));
  (*1581*) Do (Asn v_kf 0 ((Exp (#2.5970289909106896e+01 - #7.9468433682558962e+03 / $v_T))));
  (*1582*) Do (Asn v_fwd_rxn_rates 131 (v_C.[9] * v_C.[15] * $v_kf));
  (*1583*) If ($v_T) (#1000.0)
    [Asn v_Kc 0 (#(-7.0364107300000001e+00) + #1.9541291400000000e+00 * $v_logT + $v_T * (#(-6.5813556555000003e-03) + $v_T * (#3.9348853783333332e-06 + $v_T * (#(-1.5023972421666667e-09) + #2.4915271845000002e-13 * $v_T))) - #(-3.2929844739999986e+04) / $v_T)]
    [Asn v_Kc 0 (#1.1108979619999999e+01 + #(-1.2485650300000004e+00) * $v_logT + $v_T * (#8.1709937450000041e-04 + $v_T * (#(-2.3548558599999998e-07) + $v_T * (#3.5534370583333333e-11 + #(-2.2057582299999997e-15) * $v_T))) - #(-3.2393224650000004e+04) / $v_T)];
  (*1589*) Do (Asn v_Kc 0 (#1.0000000000000000e+00 * (Exp $v_Kc)));
  (*1590*) Do (Asn v_rev_rxn_rates 131 (v_C.[14] * v_C.[16] * $v_kf / $v_Kc));
  (*1593*) Do (Asn v_kf 0 ((Exp (#2.5272923313004245e+01 - #(-2.5915807590246874e+02) / $v_T))));
  (*1594*) Do (Asn v_fwd_rxn_rates 132 (v_C.[17] * v_C.[9] * $v_kf));
  (*1595*) If ($v_T) (#1000.0)
    [Asn v_Kc 0 (#1.2729844667000000e+01 + #(-3.6477035000000000e+00) * $v_logT + $v_T * (#1.3851685124852665e-02 + $v_T * (#(-8.8379595919993197e-06) + $v_T * (#3.6758607093584009e-09 + #(-6.8928753404638662e-13) * $v_T))) - #(-3.8057594839999998e+04) / $v_T)]
    [Asn v_Kc 0 (#(-2.1327881218999998e+01) + #2.3721425199999997e+00 * $v_logT + $v_T * (#(-5.8365853704214863e-04) + $v_T * (#1.8124356859365775e-08 + $v_T * (#3.9684671887373115e-12 + #(-4.3530969509013123e-16) * $v_T))) - #(-3.9093997310000006e+04) / $v_T)];
  (*1601*) Do (Asn v_Kc 0 (#1.0000000000000000e+00 * (Exp $v_Kc)));
  (*1602*) Do (Asn v_rev_rxn_rates 132 (v_C.[1] * v_C.[28] * $v_kf / $v_Kc));
  (*1605*) Do (Asn v_kf 0 (#50000000000.0));
  (*1606*) Do (Asn v_fwd_rxn_rates 133 (v_C.[9] * v_C.[27] * $v_kf));
  (*1607*) If ($v_T) (#1000.0)
    [Asn v_Kc 0 (#4.2270097859999982e+00 + #(-1.3533234859999999e+00) * $v_logT + $v_T * (#2.3861763394999996e-03 + $v_T * (#(-1.5137125866666667e-06) + $v_T * (#7.0702644283333291e-10 + #(-1.4662912344999990e-13) * $v_T))) - #(-7.8771847699999984e+04) / $v_T)]
    [Asn v_Kc 0 (#6.6776012999999992e+00 + #(-1.6439152799999999e+00) * $v_logT + $v_T * (#1.4839701445000003e-03 + $v_T * (#(-3.2046087433333335e-07) + $v_T * (#4.5157708999999992e-11 + #(-2.7344199600000000e-15) * $v_T))) - #(-7.8555524600000004e+04) / $v_T)];
  (*1613*) Do (Asn v_Kc 0 (#1.0000000000000000e+00 * (Exp $v_Kc)));
  (*1614*) Do (Asn v_rev_rxn_rates 133 (v_C.[14] * v_C.[22] * $v_kf / $v_Kc));
  (*1617*) Do (Asn v_fwd_rxn_rates 134 (v_C.[10] * v_C.[3] * (Exp (#2.2332703749380510e+01 - #7.5482934728874397e+02 / $v_T))));
  (*1619*) Do (Asn v_kf 0 ((Exp (#6.2146080984221914e+00 + #2.0 * $v_logT - #3.6382774539317456e+03 / $v_T))));
  (*1620*) Do (Asn v_fwd_rxn_rates 135 (v_C.[0] * v_C.[10] * $v_kf));
  (*1621*) If ($v_T) (#1000.0)
    [Asn v_Kc 0 (#(-1.1542412209999999e+00) + #6.6580609999999929e-02 * $v_logT + $v_T * (#(-3.4692205711473328e-03) + $v_T * (#3.7355785246673471e-06 + $v_T * (#(-1.9314560098082654e-09) + #4.1162788795361342e-13 * $v_T))) - #(-3.1674462270000004e+03) / $v_T)]
    [Asn v_Kc 0 (#6.4928815460000013e+00 + #(-1.4256625999999999e+00) * $v_logT + $v_T * (#1.8164549500078511e-03 + $v_T * (#(-3.4627571197396756e-07) + $v_T * (#4.2922623688737307e-11 + #(-2.3984109900901322e-15) * $v_T))) - #(-3.0642008779999960e+03) / $v_T)];
  (*1627*) Do (Asn v_Kc 0 (#1.0000000000000000e+00 * (Exp $v_Kc)));
  (*1628*) Do (Asn v_rev_rxn_rates 134 (v_C.[1] * v_C.[12] * $v_kf / $v_Kc));
  (*1631*) Do (Asn v_kf 0 ((Exp (#2.8101024745174282e+01 - #6.0104544826778383e+03 / $v_T))));
  (*1632*) Do (Asn v_fwd_rxn_rates 136 (v_C.[10] * v_C.[10] * $v_kf));
  (*1633*) If ($v_T) (#1000.0)
    [Asn v_Kc 0 (#1.5869996764000000e+01 + #(-4.3723451259999999e+00) * $v_logT + $v_T * (#1.4702169681999999e-02 + $v_T * (#(-1.0097521553333335e-05) + $v_T * (#4.6561896800000000e-09 + #(-9.6258408649999989e-13) * $v_T))) - #(-6.6497034673000002e+04) / $v_T)]
    [Asn v_Kc 0 (#(-1.8514337579999999e+01) + #1.7366465799999995e+00 * $v_logT + $v_T * (#(-7.0026083654999970e-04) + $v_T * (#1.5740003299999998e-07 + $v_T * (#(-1.9376110083333330e-11) + #1.0723764849999999e-15 * $v_T))) - #(-6.7541367721999995e+04) / $v_T)];
  (*1639*) Do (Asn v_Kc 0 (#1.0000000000000000e+00 * (Exp $v_Kc)));
  (*1640*) Do (Asn v_rev_rxn_rates 135 (v_C.[0] * v_C.[22] * $v_kf / $v_Kc));
  (*1643*) Do (Asn v_kf 0 (#40000000000.0));
  (*1644*) Do (Asn v_fwd_rxn_rates 137 (v_C.[10] * v_C.[12] * $v_kf));
  (*1645*) If ($v_T) (#1000.0)
    [Asn v_Kc 0 (#1.4606195170000000e+00 + #(-9.7706759000000032e-01) * $v_logT + $v_T * (#(-5.2751731811473343e-03) + $v_T * (#8.0956520380006795e-06 + $v_T * (#(-4.8697324598082650e-09) + #1.1378581384536135e-12 * $v_T))) - #(-3.1885603070000001e+04) / $v_T)]
    [Asn v_Kc 0 (#(-4.1688709639999981e+00) + #(-6.2370768000000032e-01) * $v_logT + $v_T * (#1.8745608934578519e-03 + $v_T * (#(-3.8578161397396770e-07) + $v_T * (#5.1363752688737337e-11 + #(-3.0108932200901318e-15) * $v_T))) - #(-3.2625642260000001e+04) / $v_T)];
  (*1651*) Do (Asn v_Kc 0 (#1.0000000000000000e+00 * (Exp $v_Kc)));
  (*1652*) Do (Asn v_rev_rxn_rates 136 (v_C.[1] * v_C.[24] * $v_kf / $v_Kc));
  (*1655*) Do (Asn v_kf 0 ((Exp (#7.8079166289264084e+00 + #2.0 * $v_logT - #4.1616258013852748e+03 / $v_T))));
  (*1656*) Do (Asn v_fwd_rxn_rates 138 (v_C.[10] * v_C.[13] * $v_kf));
  (*1657*) If ($v_T) (#1000.0)
    [Asn v_Kc 0 (#7.8532745699999982e+00 + #(-1.5653739999999998e+00) * $v_logT + $v_T * (#8.3620050785000004e-03 + $v_T * (#(-6.7524201983333334e-06) + $v_T * (#3.2152388025000006e-09 + #(-6.6345490549999999e-13) * $v_T))) - #(-2.8673948999999957e+03) / $v_T)]
    [Asn v_Kc 0 (#(-9.2708504749999996e+00) + #1.6224828150000001e+00 * $v_logT + $v_T * (#(-1.2837694399999997e-03) + $v_T * (#1.9458618333333327e-07 + $v_T * (#(-2.4311300916666658e-11) + #1.3578553950000004e-15 * $v_T))) - #(-3.2440908100000015e+03) / $v_T)];
  (*1663*) Do (Asn v_Kc 0 (#1.0000000000000000e+00 * (Exp $v_Kc)));
  (*1664*) Do (Asn v_rev_rxn_rates 137 (v_C.[12] * v_C.[12] * $v_kf / $v_Kc));
  (*1667*) Do (Asn v_kf 0 ((Exp (#2.0512544805630757e+01 + #0.5 * $v_logT - #2.2695202375148233e+03 / $v_T))));
  (*1668*) Do (Asn v_fwd_rxn_rates 139 (v_C.[10] * v_C.[14] * $v_kf));
  (*1669*) If ($v_T) (#1000.0)
    [Asn v_Kc 0 (#1.2351082710000000e+01 + #(-4.2063758399999998e+00) * $v_logT + $v_T * (#8.8801768185000005e-03 + $v_T * (#(-3.5344100233333329e-06) + $v_T * (#1.0239901105000000e-09 + #(-1.3987844205000002e-13) * $v_T))) - #(-3.8702872139999992e+04) / $v_T)]
    [Asn v_Kc 0 (#(-1.2279644335000000e+01) + #(-7.7989420000000198e-02) * $v_logT + $v_T * (#1.6423385499999999e-03 + $v_T * (#(-2.9360410149999993e-07) + $v_T * (#3.6092777083333337e-11 + #(-2.0173145899999996e-15) * $v_T))) - #(-3.9662784710000000e+04) / $v_T)];
  (*1675*) Do (Asn v_Kc 0 (#8.2057360967184814e-02 * (Exp $v_Kc)));
  (*1676*) Do (Asn v_rev_rxn_rates 138 (v_C.[28] * $v_kf / $v_Kc));
  (*1679*) Do (Asn v_kf 0 (#30000000000.0));
  (*1680*) Do (Asn v_fwd_rxn_rates 140 (v_C.[10] * v_C.[27] * $v_kf));
  (*1681*) If ($v_T) (#1000.0)
    [Asn v_Kc 0 (#(-2.8115991699999991e+00) + #7.7759985000000009e-01 * $v_logT + $v_T * (#(-8.8597276015000004e-03) + $v_T * (#7.9786596866666658e-06 + $v_T * (#(-4.0236355238333339e-09) + #8.5948633555000007e-13 * $v_T))) - #(-4.5547728300000002e+04) / $v_T)]
    [Asn v_Kc 0 (#1.6135475079999999e+01 + #(-2.7703973200000003e+00) * $v_logT + $v_T * (#2.3255118050000008e-03 + $v_T * (#(-4.4620809850000001e-07) + $v_T * (#5.8437151583333336e-11 + #(-3.4222443499999994e-15) * $v_T))) - #(-4.5129817500000005e+04) / $v_T)];
  (*1687*) Do (Asn v_Kc 0 (#1.0000000000000000e+00 * (Exp $v_Kc)));
  (*1688*) Do (Asn v_rev_rxn_rates 139 (v_C.[23] * v_C.[14] * $v_kf / $v_Kc));
  (*1691*) Do (Asn v_kf 0 ((Exp (#2.3431316038048621e+01 - #3.0193173891549759e+02 / $v_T))));
  (*1692*) Do (Asn v_fwd_rxn_rates 141 (v_C.[11] * v_C.[52] * $v_kf));
  (*1693*) If ($v_T) (#1000.0)
    [Asn v_Kc 0 (#2.7675762569999995e+00 + #(-4.3592543999999966e-01) * $v_logT + $v_T * (#1.6677431665000002e-03 + $v_T * (#(-9.0634396499999983e-07) + $v_T * (#2.3643735666666669e-10 + #(-1.2786509000000005e-14) * $v_T))) - #(-4.4927762000000002e+03) / $v_T)]
    [Asn v_Kc 0 (#(-3.0373711599999997e+00) + #5.8206271000000021e-01 * $v_logT + $v_T * (#(-4.9974672500000005e-04) + $v_T * (#1.0049558333333332e-07 + $v_T * (#(-1.3143870916666673e-11) + #7.5994398999999995e-16 * $v_T))) - #(-4.6623957000000009e+03) / $v_T)];
  (*1699*) Do (Asn v_Kc 0 (#1.0000000000000000e+00 * (Exp $v_Kc)));
  (*1700*) Do (Asn v_rev_rxn_rates 140 (v_C.[10] * v_C.[52] * $v_kf / $v_Kc));
  (*1703*) Do (Asn v_kf 0 ((Exp (#2.2920490414282632e+01 - #3.0193173891549759e+02 / $v_T))));
  (*1704*) Do (Asn v_fwd_rxn_rates 142 (v_C.[11] * v_C.[47] * $v_kf));
  (*1705*) If ($v_T) (#1000.0)
    [Asn v_Kc 0 (#2.7675762569999995e+00 + #(-4.3592543999999966e-01) * $v_logT + $v_T * (#1.6677431665000002e-03 + $v_T * (#(-9.0634396499999983e-07) + $v_T * (#2.3643735666666669e-10 + #(-1.2786509000000005e-14) * $v_T))) - #(-4.4927762000000002e+03) / $v_T)]
    [Asn v_Kc 0 (#(-3.0373711599999997e+00) + #5.8206271000000021e-01 * $v_logT + $v_T * (#(-4.9974672500000005e-04) + $v_T * (#1.0049558333333332e-07 + $v_T * (#(-1.3143870916666673e-11) + #7.5994398999999995e-16 * $v_T))) - #(-4.6623957000000009e+03) / $v_T)];
  (*1711*) Do (Asn v_Kc 0 (#1.0000000000000000e+00 * (Exp $v_Kc)));
  (*1712*) Do (Asn v_rev_rxn_rates 141 (v_C.[10] * v_C.[47] * $v_kf / $v_Kc));
  (*1715*) Do (Asn v_kf 0 (#28000000000.0));
  (*1716*) Do (Asn v_fwd_rxn_rates 143 (v_C.[11] * v_C.[3] * $v_kf));
  (*1717*) If ($v_T) (#1000.0)
    [Asn v_Kc 0 (#(-2.0212442240000010e+00) + #1.0904884300000002e+00 * $v_logT + $v_T * (#1.1758385753526663e-03 + $v_T * (#(-2.0742519119993197e-06) + $v_T * (#1.1162772880250682e-09 + #(-2.3635927699638663e-13) * $v_T))) - #(-3.4688218280000001e+04) / $v_T)]
    [Asn v_Kc 0 (#(-4.9645291040000004e+00) + #1.7334970299999997e+00 * $v_logT + $v_T * (#(-1.7640083935421486e-03) + $v_T * (#3.1626093535936575e-07 + $v_T * (#(-4.0439142277929365e-11) + #2.3509941199098679e-15 * $v_T))) - #(-3.4657097480000004e+04) / $v_T)];
  (*1723*) Do (Asn v_Kc 0 (#1.2186597134166982e+01 * (Exp $v_Kc)));
  (*1724*) Do (Asn v_rev_rxn_rates 142 (v_C.[1] * v_C.[14] * v_C.[4] * $v_kf / $v_Kc));
  (*1727*) Do (Asn v_kf 0 (#12000000000.0));
  (*1728*) Do (Asn v_fwd_rxn_rates 144 (v_C.[11] * v_C.[3] * $v_kf));
  (*1729*) If ($v_T) (#1000.0)
    [Asn v_Kc 0 (#(-2.6293251000000240e-02) + #(-2.0288643999999900e-01) * $v_logT + $v_T * (#1.3582802849999998e-03 + $v_T * (#(-1.7571746283333330e-06) + $v_T * (#9.8237418033333331e-10 + #(-2.1596610345000000e-13) * $v_T))) - #(-9.4070685439999987e+04) / $v_T)]
    [Asn v_Kc 0 (#(-1.4688770000000000e+00) + #1.7460184000000023e-01 * $v_logT + $v_T * (#(-9.4976421999999974e-04) + $v_T * (#2.6783130833333326e-07 + $v_T * (#(-4.1197127833333337e-11) + #2.6049371749999998e-15 * $v_T))) - #(-9.3993711479999998e+04) / $v_T)];
  (*1735*) Do (Asn v_Kc 0 (#1.0000000000000000e+00 * (Exp $v_Kc)));
  (*1736*) Do (Asn v_rev_rxn_rates 143 (v_C.[5] * v_C.[14] * $v_kf / $v_Kc));
  (*1739*) Do (Asn v_kf 0 (#70000000000.0));
  (*1740*) Do (Asn v_fwd_rxn_rates 145 (v_C.[0] * v_C.[11] * $v_kf));
  (*1741*) If ($v_T) (#1000.0)
    [Asn v_Kc 0 (#1.6133350359999996e+00 + #(-3.6934482999999974e-01) * $v_logT + $v_T * (#(-1.8014774046473329e-03) + $v_T * (#2.8292345596673472e-06 + $v_T * (#(-1.6950186531415987e-09) + #3.9884137895361342e-13 * $v_T))) - #(-7.6602224270000006e+03) / $v_T)]
    [Asn v_Kc 0 (#3.4555103860000012e+00 + #(-8.4359988999999969e-01) * $v_logT + $v_T * (#1.3167082250078511e-03 + $v_T * (#(-2.4578012864063421e-07) + $v_T * (#2.9778752772070631e-11 + #(-1.6384670000901324e-15) * $v_T))) - #(-7.7265965779999970e+03) / $v_T)];
  (*1747*) Do (Asn v_Kc 0 (#1.0000000000000000e+00 * (Exp $v_Kc)));
  (*1748*) Do (Asn v_rev_rxn_rates 144 (v_C.[1] * v_C.[12] * $v_kf / $v_Kc));
  (*1751*) Do (Asn v_kf 0 ((Exp (#3.3808965229979151e+01 - #1.16 * $v_logT - #5.7618640176374117e+02 / $v_T))));
  (*1752*) Do (Asn v_fwd_rxn_rates 146 (v_C.[11] * v_C.[5] * $v_kf));
  (*1753*) If ($v_T) (#1000.0)
    [Asn v_Kc 0 (#2.7959017949999989e+00 + #(-1.6818488499999997e+00) * $v_logT + $v_T * (#(-5.4139323050000007e-03) + $v_T * (#8.4151251983333340e-06 + $v_T * (#(-4.9087132058333330e-09) + #1.1210072129999999e-12 * $v_T))) - #(-4.5845855199999991e+04) / $v_T)]
    [Asn v_Kc 0 (#4.4454135099999998e+00 + #(-2.5363230000000003e+00) * $v_logT + $v_T * (#3.6305123950000004e-03 + $v_T * (#(-6.9816939366666658e-07) + $v_T * (#8.8403903083333326e-11 + #(-4.9954341350000000e-15) * $v_T))) - #(-4.6296577300000004e+04) / $v_T)];
  (*1759*) Do (Asn v_Kc 0 (#8.2057360967184814e-02 * (Exp $v_Kc)));
  (*1760*) Do (Asn v_rev_rxn_rates 145 (v_C.[20] * $v_kf / $v_Kc));
  (*1763*) Do (Asn v_kf 0 (#30000000000.0));
  (*1764*) Do (Asn v_fwd_rxn_rates 147 (v_C.[11] * v_C.[5] * $v_kf));
  (*1765*) If ($v_T) (#1000.0)
    [Asn v_Kc 0 (#2.7675762569999995e+00 + #(-4.3592543999999966e-01) * $v_logT + $v_T * (#1.6677431665000002e-03 + $v_T * (#(-9.0634396499999983e-07) + $v_T * (#2.3643735666666669e-10 + #(-1.2786509000000005e-14) * $v_T))) - #(-4.4927762000000002e+03) / $v_T)]
    [Asn v_Kc 0 (#(-3.0373711599999997e+00) + #5.8206271000000021e-01 * $v_logT + $v_T * (#(-4.9974672500000005e-04) + $v_T * (#1.0049558333333332e-07 + $v_T * (#(-1.3143870916666673e-11) + #7.5994398999999995e-16 * $v_T))) - #(-4.6623957000000009e+03) / $v_T)];
  (*1771*) Do (Asn v_Kc 0 (#1.0000000000000000e+00 * (Exp $v_Kc)));
  (*1772*) Do (Asn v_rev_rxn_rates 146 (v_C.[10] * v_C.[5] * $v_kf / $v_Kc));
  (*1775*) Do (Asn v_kf 0 ((Exp (#2.3208172486734412e+01 - #(-2.8683515196972269e+02) / $v_T))));
  (*1776*) Do (Asn v_fwd_rxn_rates 148 (v_C.[11] * v_C.[12] * $v_kf));
  (*1777*) If ($v_T) (#1000.0)
    [Asn v_Kc 0 (#4.2281957739999996e+00 + #(-1.4129930300000000e+00) * $v_logT + $v_T * (#(-3.6074300146473337e-03) + $v_T * (#7.1893080730006792e-06 + $v_T * (#(-4.6332951031415987e-09) + #1.1250716294536134e-12 * $v_T))) - #(-3.6378379270000005e+04) / $v_T)]
    [Asn v_Kc 0 (#(-7.2062421239999983e+00) + #(-4.1644970000000114e-02) * $v_logT + $v_T * (#1.3748141684578521e-03 + $v_T * (#(-2.8528603064063429e-07) + $v_T * (#3.8219881772070655e-11 + #(-2.2509492300901323e-15) * $v_T))) - #(-3.7288037960000001e+04) / $v_T)];
  (*1783*) Do (Asn v_Kc 0 (#1.0000000000000000e+00 * (Exp $v_Kc)));
  (*1784*) Do (Asn v_rev_rxn_rates 147 (v_C.[1] * v_C.[24] * $v_kf / $v_Kc));
  (*1787*) Do (Asn v_kf 0 ((Exp (#2.3495854559186192e+01 - #(-2.8683515196972269e+02) / $v_T))));
  (*1788*) Do (Asn v_fwd_rxn_rates 149 (v_C.[11] * v_C.[13] * $v_kf));
  (*1789*) If ($v_T) (#1000.0)
    [Asn v_Kc 0 (#1.0620850826999998e+01 + #(-2.0012994399999995e+00) * $v_logT + $v_T * (#1.0029748245000001e-02 + $v_T * (#(-7.6587641633333328e-06) + $v_T * (#3.4516761591666673e-09 + #(-6.7624141450000000e-13) * $v_T))) - #(-7.3601710999999959e+03) / $v_T)]
    [Asn v_Kc 0 (#(-1.2308221634999999e+01) + #2.2045455250000003e+00 * $v_logT + $v_T * (#(-1.7835161650000004e-03) + $v_T * (#2.9508176666666667e-07 + $v_T * (#(-3.7455171833333327e-11) + #2.1177993849999999e-15 * $v_T))) - #(-7.9064865100000025e+03) / $v_T)];
  (*1795*) Do (Asn v_Kc 0 (#1.0000000000000000e+00 * (Exp $v_Kc)));
  (*1796*) Do (Asn v_rev_rxn_rates 148 (v_C.[12] * v_C.[12] * $v_kf / $v_Kc));
  (*1799*) Do (Asn v_kf 0 (#9000000000.0));
  (*1800*) Do (Asn v_fwd_rxn_rates 150 (v_C.[11] * v_C.[14] * $v_kf));
  (*1801*) If ($v_T) (#1000.0)
    [Asn v_Kc 0 (#2.7675762569999995e+00 + #(-4.3592543999999966e-01) * $v_logT + $v_T * (#1.6677431665000002e-03 + $v_T * (#(-9.0634396499999983e-07) + $v_T * (#2.3643735666666669e-10 + #(-1.2786509000000005e-14) * $v_T))) - #(-4.4927762000000002e+03) / $v_T)]
    [Asn v_Kc 0 (#(-3.0373711599999997e+00) + #5.8206271000000021e-01 * $v_logT + $v_T * (#(-4.9974672500000005e-04) + $v_T * (#1.0049558333333332e-07 + $v_T * (#(-1.3143870916666673e-11) + #7.5994398999999995e-16 * $v_T))) - #(-4.6623957000000009e+03) / $v_T)];
  (*1807*) Do (Asn v_Kc 0 (#1.0000000000000000e+00 * (Exp $v_Kc)));
  (*1808*) Do (Asn v_rev_rxn_rates 149 (v_C.[10] * v_C.[14] * $v_kf / $v_Kc));
  (*1811*) Do (Asn v_kf 0 (#7000000000.0));
  (*1812*) Do (Asn v_fwd_rxn_rates 151 (v_C.[11] * v_C.[15] * $v_kf));
  (*1813*) If ($v_T) (#1000.0)
    [Asn v_Kc 0 (#2.7675762569999995e+00 + #(-4.3592543999999966e-01) * $v_logT + $v_T * (#1.6677431665000002e-03 + $v_T * (#(-9.0634396499999983e-07) + $v_T * (#2.3643735666666669e-10 + #(-1.2786509000000005e-14) * $v_T))) - #(-4.4927762000000002e+03) / $v_T)]
    [Asn v_Kc 0 (#(-3.0373711599999997e+00) + #5.8206271000000021e-01 * $v_logT + $v_T * (#(-4.9974672500000005e-04) + $v_T * (#1.0049558333333332e-07 + $v_T * (#(-1.3143870916666673e-11) + #7.5994398999999995e-16 * $v_T))) - #(-4.6623957000000009e+03) / $v_T)];
  (*1819*) Do (Asn v_Kc 0 (#1.0000000000000000e+00 * (Exp $v_Kc)));
  (*1820*) Do (Asn v_rev_rxn_rates 150 (v_C.[10] * v_C.[15] * $v_kf / $v_Kc));
  (*1823*) Do (Asn v_kf 0 (#14000000000.0));
  (*1824*) Do (Asn v_fwd_rxn_rates 152 (v_C.[11] * v_C.[15] * $v_kf));
  (*1825*) If ($v_T) (#1000.0)
    [Asn v_Kc 0 (#(-6.8385900630000007e+00) + #1.8178789899999996e+00 * $v_logT + $v_T * (#(-8.5683349750000012e-03) + $v_T * (#6.2049026033333328e-06 + $v_T * (#(-2.7327125521666666e-09) + #5.2366964395000012e-13 * $v_T))) - #(-3.0777889299999995e+04) / $v_T)]
    [Asn v_Kc 0 (#1.2250493990000001e+01 + #(-1.6736230200000004e+00) * $v_logT + $v_T * (#1.0961358100000005e-03 + $v_T * (#(-1.9911339850000003e-07) + $v_T * (#2.4589078333333327e-11 + #(-1.3785141350000008e-15) * $v_T))) - #(-3.0314538400000005e+04) / $v_T)];
  (*1831*) Do (Asn v_Kc 0 (#1.0000000000000000e+00 * (Exp $v_Kc)));
  (*1832*) Do (Asn v_rev_rxn_rates 151 (v_C.[17] * v_C.[14] * $v_kf / $v_Kc));
  (*1835*) Do (Asn v_kf 0 ((Exp (#2.4412145291060348e+01 - #(-2.7677076067253944e+02) / $v_T))));
  (*1836*) Do (Asn v_fwd_rxn_rates 153 (v_C.[26] * v_C.[11] * $v_kf));
  (*1837*) If ($v_T) (#1000.0)
    [Asn v_Kc 0 (#4.9240423270000004e+00 + #(-5.0997294999999987e-01) * $v_logT + $v_T * (#2.8462598599999995e-03 + $v_T * (#(-2.1220486233333329e-06) + $v_T * (#8.9591278833333444e-10 + #(-1.6084833649999990e-13) * $v_T))) - #(-9.6879855000000025e+03) / $v_T)]
    [Asn v_Kc 0 (#(-2.6760605200000009e+00) + #8.7645422000000028e-01 * $v_logT + $v_T * (#(-8.5199074999999956e-04) + $v_T * (#1.7805266833333333e-07 + $v_T * (#(-2.3680373000000011e-11) + #1.3808755549999999e-15 * $v_T))) - #(-9.8665022000000026e+03) / $v_T)];
  (*1843*) Do (Asn v_Kc 0 (#1.0000000000000000e+00 * (Exp $v_Kc)));
  (*1844*) Do (Asn v_rev_rxn_rates 152 (v_C.[25] * v_C.[12] * $v_kf / $v_Kc));
  (*1847*) Do (Asn v_kf 0 ((Exp (#2.4295611474804396e+01 - #1.5338132336907278e+04 / $v_T))));
  (*1848*) Do (Asn v_fwd_rxn_rates 154 (v_C.[12] * v_C.[3] * $v_kf));
  (*1849*) If ($v_T) (#1000.0)
    [Asn v_Kc 0 (#1.2123446059999999e+01 + #(-2.1815756600000000e+00) * $v_logT + $v_T * (#2.4615292849999998e-03 + $v_T * (#(-5.9933076833333345e-07) + $v_T * (#2.5389725833333334e-10 + #(-7.9965800000000011e-14) * $v_T))) - #1.4719805059999999e+04 / $v_T)]
    [Asn v_Kc 0 (#(-6.9913536600000006e+00) + #7.7196422000000009e-01 * $v_logT + $v_T * (#(-4.6873251184999991e-04) + $v_T * (#1.8844576798333330e-07 + $v_T * (#(-3.5060823241666667e-11) + #2.4244697855000003e-15 * $v_T))) - #1.3658285040000001e+04 / $v_T)];
  (*1855*) Do (Asn v_Kc 0 (#1.0000000000000000e+00 * (Exp $v_Kc)));
  (*1856*) Do (Asn v_rev_rxn_rates 153 (v_C.[19] * v_C.[2] * $v_kf / $v_Kc));
  (*1859*) Do (Asn v_kf 0 ((Exp (#2.1560513361480112e+01 - #1.0222905460113889e+04 / $v_T))));
  (*1860*) Do (Asn v_fwd_rxn_rates 155 (v_C.[12] * v_C.[3] * $v_kf));
  (*1861*) If ($v_T) (#1000.0)
    [Asn v_Kc 0 (#(-6.0930444379999997e+00) + #1.3296918200000003e+00 * $v_logT + $v_T * (#(-5.6619343999999997e-03) + $v_T * (#4.3937364400000000e-06 + $v_T * (#(-2.1047658408333332e-09) + #4.3768970950000006e-13 * $v_T))) - #(-2.6074931380000002e+04) / $v_T)]
    [Asn v_Kc 0 (#4.9143938300000007e+00 + #(-7.1467780999999952e-01) * $v_logT + $v_T * (#5.1272131300000021e-04 + $v_T * (#(-9.1828792166666631e-08) + $v_T * (#9.4425637833333304e-12 + #(-4.1285538000000041e-16) * $v_T))) - #(-2.5824301879999999e+04) / $v_T)];
  (*1867*) Do (Asn v_Kc 0 (#1.0000000000000000e+00 * (Exp $v_Kc)));
  (*1868*) Do (Asn v_rev_rxn_rates 154 (v_C.[17] * v_C.[4] * $v_kf / $v_Kc));
  (*1871*) Do (Asn v_kf 0 ((Exp (#3.1986731175506815e+00 + #2.47 * $v_logT - #2.6066773459704623e+03 / $v_T))));
  (*1872*) Do (Asn v_fwd_rxn_rates 156 (v_C.[12] * v_C.[7] * $v_kf));
  (*1873*) If ($v_T) (#1000.0)
    [Asn v_Kc 0 (#(-7.4662274299999982e+00) + #1.5019710499999999e+00 * $v_logT + $v_T * (#(-9.9441143215000007e-03) + $v_T * (#7.9790933899999987e-06 + $v_T * (#(-3.6918697041666675e-09) + #7.3966229350000002e-13 * $v_T))) - #(-8.6942562600000019e+03) / $v_T)]
    [Asn v_Kc 0 (#1.3184849914999999e+01 + #(-2.3586581749999995e+00) * $v_logT + $v_T * (#1.7412747600000001e-03 + $v_T * (#(-2.4633008499999989e-07) + $v_T * (#3.0858424166666656e-11 + #(-1.8549906799999997e-15) * $v_T))) - #(-8.2702844770000011e+03) / $v_T)];
  (*1879*) Do (Asn v_Kc 0 (#1.0000000000000000e+00 * (Exp $v_Kc)));
  (*1880*) Do (Asn v_rev_rxn_rates 155 (v_C.[13] * v_C.[6] * $v_kf / $v_Kc));
  (*1883*) Do (Asn v_kf 0 ((Exp (#3.1846107295846778e+01 - #1.18 * $v_logT - #3.2910559541789235e+02 / $v_T))));
  (*1884*) Do (Asn v_fwd_rxn_rates 157 (v_C.[12] * v_C.[12] * $v_kf));
  (*1885*) If ($v_T) (#1000.0)
    [Asn v_Kc 0 (#2.5134503800000001e+00 + #(-2.0557558800000004e+00) * $v_logT + $v_T * (#(-4.7617231000000003e-03) + $v_T * (#8.0805652800000013e-06 + $v_T * (#(-4.7586900000000002e-09) + #1.0890431210000001e-12 * $v_T))) - #(-4.4412203099999999e+04) / $v_T)]
    [Asn v_Kc 0 (#1.6550210599999993e+00 + #(-2.4995539400000002e+00) * $v_logT + $v_T * (#3.6027334800000001e-03 + $v_T * (#(-6.7521995666666668e-07) + $v_T * (#8.5229226833333329e-11 + #(-4.8286005599999995e-15) * $v_T))) - #(-4.4977561799999996e+04) / $v_T)];
  (*1891*) Do (Asn v_Kc 0 (#8.2057360967184814e-02 * (Exp $v_Kc)));
  (*1892*) Do (Asn v_rev_rxn_rates 156 (v_C.[26] * $v_kf / $v_Kc));
  (*1895*) Do (Asn v_kf 0 ((Exp (#2.2646053568580871e+01 + #0.1 * $v_logT - #5.3341273875071238e+03 / $v_T))));
  (*1896*) Do (Asn v_fwd_rxn_rates 158 (v_C.[12] * v_C.[12] * $v_kf));
  (*1897*) If ($v_T) (#1000.0)
    [Asn v_Kc 0 (#1.5921128470000006e+00 + #(-5.4071512000000066e-01) * $v_logT + $v_T * (#(-4.1042462096473340e-03) + $v_T * (#6.3756405963340138e-06 + $v_T * (#(-3.8475260081415982e-09) + #8.9815928595361359e-13 * $v_T))) - #5.4252887999999948e+03 / $v_T)]
    [Asn v_Kc 0 (#(-3.8276131840000023e+00) + #(-1.1677901000000013e-01) * $v_logT + $v_T * (#1.4587357184578514e-03 + $v_T * (#(-3.3462995064063426e-07) + $v_T * (#4.6733966438737313e-11 + #(-2.8105348350901323e-15) * $v_T))) - #4.7800113000000056e+03 / $v_T)];
  (*1903*) Do (Asn v_Kc 0 (#1.0000000000000000e+00 * (Exp $v_Kc)));
  (*1904*) Do (Asn v_rev_rxn_rates 157 (v_C.[1] * v_C.[25] * $v_kf / $v_Kc));
  (*1907*) Do (Asn v_kf 0 (#26480000000.0));
  (*1908*) Do (Asn v_fwd_rxn_rates 159 (v_C.[12] * v_C.[16] * $v_kf));
  (*1909*) If ($v_T) (#1000.0)
    [Asn v_Kc 0 (#(-6.9664645999999983e+00) + #8.3463335999999977e-01 * $v_logT + $v_T * (#(-6.5241794550000010e-03) + $v_T * (#5.1144518450000005e-06 + $v_T * (#(-2.2818094305000002e-09) + #4.4417125555000006e-13 * $v_T))) - #(-4.4875297360000004e+04) / $v_T)]
    [Asn v_Kc 0 (#1.0245444005000003e+01 + #(-2.2678549950000004e+00) * $v_logT + $v_T * (#1.6283092500000004e-03 + $v_T * (#(-2.1001404183333320e-07) + $v_T * (#2.2344327999999988e-11 + #(-1.1056845550000002e-15) * $v_T))) - #(-4.4407719440000001e+04) / $v_T)];
  (*1915*) Do (Asn v_Kc 0 (#1.0000000000000000e+00 * (Exp $v_Kc)));
  (*1916*) Do (Asn v_rev_rxn_rates 158 (v_C.[13] * v_C.[14] * $v_kf / $v_Kc));
  (*1919*) Do (Asn v_kf 0 ((Exp (#1.1999647829283970e+00 + #2.81 * $v_logT - #2.9488666500746931e+03 / $v_T))));
  (*1920*) Do (Asn v_fwd_rxn_rates 160 (v_C.[17] * v_C.[12] * $v_kf));
  (*1921*) If ($v_T) (#1000.0)
    [Asn v_Kc 0 (#(-4.3580569799999989e+00) + #9.0374842000000033e-01 * $v_logT + $v_T * (#(-4.5087610900000005e-03) + $v_T * (#3.3179641900000010e-06 + $v_T * (#(-1.4157509625000007e-09) + #2.6429808550000006e-13 * $v_T))) - #(-8.5431247400000011e+03) / $v_T)]
    [Asn v_Kc 0 (#7.2986500549999986e+00 + #(-1.1993819250000000e+00) * $v_logT + $v_T * (#9.5400038499999975e-04 + $v_T * (#(-1.3459710166666672e-07) + $v_T * (#1.7499196999999993e-11 + #(-1.0032548849999990e-15) * $v_T))) - #(-8.2361784399999997e+03) / $v_T)];
  (*1927*) Do (Asn v_Kc 0 (#1.0000000000000000e+00 * (Exp $v_Kc)));
  (*1928*) Do (Asn v_rev_rxn_rates 159 (v_C.[13] * v_C.[16] * $v_kf / $v_Kc));
  (*1931*) Do (Asn v_kf 0 ((Exp (#1.0308952660644293e+01 + #1.5 * $v_logT - #5.0020024747000762e+03 / $v_T))));
  (*1932*) Do (Asn v_fwd_rxn_rates 161 (v_C.[20] * v_C.[12] * $v_kf));
  (*1933*) If ($v_T) (#1000.0)
    [Asn v_Kc 0 (#1.1064734800000013e+00 + #(-3.7522091000000035e-01) * $v_logT + $v_T * (#2.5728526950000007e-03 + $v_T * (#(-2.6435927083333335e-06) + $v_T * (#1.5853632791666665e-09 + #(-3.8200293799999995e-13) * $v_T))) - #(-4.2427944700000025e+03) / $v_T)]
    [Asn v_Kc 0 (#1.5732245049999998e+00 + #(-3.0790844500000003e-01) * $v_logT + $v_T * (#3.5149254999999966e-04 + $v_T * (#(-2.1952910000000029e-08) + $v_T * (#2.7303743333333296e-12 + #(-1.4474953500000150e-16) * $v_T))) - #(-4.1115604599999988e+03) / $v_T)];
  (*1939*) Do (Asn v_Kc 0 (#1.0000000000000000e+00 * (Exp $v_Kc)));
  (*1940*) Do (Asn v_rev_rxn_rates 160 (v_C.[18] * v_C.[13] * $v_kf / $v_Kc));
  (*1943*) Do (Asn v_kf 0 ((Exp (#9.2103403719761836e+00 + #1.5 * $v_logT - #5.0020024747000762e+03 / $v_T))));
  (*1944*) Do (Asn v_fwd_rxn_rates 162 (v_C.[20] * v_C.[12] * $v_kf));
  (*1945*) If ($v_T) (#1000.0)
    [Asn v_Kc 0 (#1.0543313230000003e+01 + #(-2.1329060900000005e+00) * $v_logT + $v_T * (#3.3827886749999998e-03 + $v_T * (#(-2.7426336933333328e-06) + $v_T * (#1.8416603791666661e-09 + #(-4.9670607699999980e-13) * $v_T))) - #(-7.0279700000002777e+01) / $v_T)]
    [Asn v_Kc 0 (#(-1.3857659549999992e+00) + #(-2.2977513500000035e-01) * $v_logT + $v_T * (#(-3.5642934999999092e-05) + $v_T * (#1.6048495666666665e-07 + $v_T * (#(-3.0002253666666662e-11) + #2.0417134700000000e-15 * $v_T))) - #(-7.4122166999999899e+02) / $v_T)];
  (*1951*) Do (Asn v_Kc 0 (#1.0000000000000000e+00 * (Exp $v_Kc)));
  (*1952*) Do (Asn v_rev_rxn_rates 161 (v_C.[19] * v_C.[13] * $v_kf / $v_Kc));
  (*1955*) Do (Asn v_kf 0 ((Exp (#5.4249500174814029e+00 + #2.0 * $v_logT - #4.6296199967042967e+03 / $v_T))));
  (*1956*) Do (Asn v_fwd_rxn_rates 163 (v_C.[12] * v_C.[24] * $v_kf));
  (*1957*) If ($v_T) (#1000.0)
    [Asn v_Kc 0 (#(-2.5622094999999985e+00) + #7.2955069999999989e-01 * $v_logT + $v_T * (#(-3.2983082299999997e-03) + $v_T * (#2.0452922233333337e-06 + $v_T * (#(-6.8416981250000110e-10) + #9.2609412999999793e-14 * $v_T))) - #3.0784244699999981e+03 / $v_T)]
    [Asn v_Kc 0 (#8.6694540750000009e+00 + #(-1.2302533850000001e+00) * $v_logT + $v_T * (#9.1793021500000127e-04 + $v_T * (#(-1.1929315833333311e-07) + $v_T * (#1.4387029666666653e-11 + #(-7.8272168499999992e-16) * $v_T))) - #3.4290588699999998e+03 / $v_T)];
  (*1963*) Do (Asn v_Kc 0 (#1.0000000000000000e+00 * (Exp $v_Kc)));
  (*1964*) Do (Asn v_rev_rxn_rates 162 (v_C.[23] * v_C.[13] * $v_kf / $v_Kc));
  (*1967*) Do (Asn v_kf 0 ((Exp (#8.7225800211411890e+00 + #1.74 * $v_logT - #5.2586444527782496e+03 / $v_T))));
  (*1968*) Do (Asn v_fwd_rxn_rates 164 (v_C.[26] * v_C.[12] * $v_kf));
  (*1969*) If ($v_T) (#1000.0)
    [Asn v_Kc 0 (#(-5.6968084999999977e+00) + #1.4913264899999996e+00 * $v_logT + $v_T * (#(-7.1834883850000007e-03) + $v_T * (#5.5367155399999999e-06 + $v_T * (#(-2.5557633708333321e-09) + #5.1539307800000025e-13 * $v_T))) - #(-2.3278144000000011e+03) / $v_T)]
    [Asn v_Kc 0 (#9.6321611149999988e+00 + #(-1.3280913050000001e+00) * $v_logT + $v_T * (#9.3152541500000040e-04 + $v_T * (#(-1.1702909833333329e-07) + $v_T * (#1.3774798833333342e-11 + #(-7.3692383000000025e-16) * $v_T))) - #(-1.9600156899999984e+03) / $v_T)];
  (*1975*) Do (Asn v_Kc 0 (#1.0000000000000000e+00 * (Exp $v_Kc)));
  (*1976*) Do (Asn v_rev_rxn_rates 163 (v_C.[25] * v_C.[13] * $v_kf / $v_Kc));
  (*1979*) Do (Asn v_kf 0 ((Exp (#3.4944241503018851e+01 - #1.0 * $v_logT - #8.5547326026057654e+03 / $v_T))));
  (*1980*) Do (Asn v_fwd_rxn_rates 165 (v_C.[5] * v_C.[16] * $v_kf));
  (*1981*) If ($v_T) (#1000.0)
    [Asn v_Kc 0 (#(-2.1909936329999997e+00) + #8.5834762999999903e-01 * $v_logT + $v_T * (#1.3167858203526664e-03 + $v_T * (#(-2.1271883786659866e-06) + $v_T * (#1.1851179321917348e-09 + #(-2.6210565749638660e-13) * $v_T))) - #7.2900089399999997e+03 / $v_T)]
    [Asn v_Kc 0 (#(-4.8693513540000000e+00) + #1.4430112399999997e+00 * $v_logT + $v_T * (#(-1.4472139265421485e-03) + $v_T * (#2.4760506252603246e-07 + $v_T * (#(-2.9925731227929364e-11) + #1.6493049999098680e-15 * $v_T))) - #7.3098693499999990e+03 / $v_T)];
  (*1987*) Do (Asn v_Kc 0 (#1.2186597134166982e+01 * (Exp $v_Kc)));
  (*1988*) Do (Asn v_rev_rxn_rates 164 (v_C.[1] * v_C.[5] * v_C.[14] * $v_kf / $v_Kc));
  (*1991*) Do (Asn v_kf 0 ((Exp (#3.2862129732783131e+01 - #1.0 * $v_logT - #8.5547326026057654e+03 / $v_T))));
  (*1992*) Do (Asn v_fwd_rxn_rates 166 (v_C.[16] * $v_kf));
  (*1993*) If ($v_T) (#1000.0)
    [Asn v_Kc 0 (#(-2.1909936329999997e+00) + #8.5834762999999903e-01 * $v_logT + $v_T * (#1.3167858203526664e-03 + $v_T * (#(-2.1271883786659866e-06) + $v_T * (#1.1851179321917348e-09 + #(-2.6210565749638660e-13) * $v_T))) - #7.2900089399999997e+03 / $v_T)]
    [Asn v_Kc 0 (#(-4.8693513540000000e+00) + #1.4430112399999997e+00 * $v_logT + $v_T * (#(-1.4472139265421485e-03) + $v_T * (#2.4760506252603246e-07 + $v_T * (#(-2.9925731227929364e-11) + #1.6493049999098680e-15 * $v_T))) - #7.3098693499999990e+03 / $v_T)];
  (*1999*) Do (Asn v_Kc 0 (#1.2186597134166982e+01 * (Exp $v_Kc)));
  (*2000*) Do (Asn v_rev_rxn_rates 165 (v_C.[1] * v_C.[14] * $v_kf / $v_Kc));
  (*2003*) Do (Asn v_kf 0 ((Exp (#2.3322244942994260e+01 - #2.0128782594366504e+02 / $v_T))));
  (*2004*) Do (Asn v_fwd_rxn_rates 167 (v_C.[16] * v_C.[3] * $v_kf));
  (*2005*) If ($v_T) (#1000.0)
    [Asn v_Kc 0 (#2.9533429000000044e-01 + #(-1.2231072000000021e-01) * $v_logT + $v_T * (#4.4059264500000009e-04 + $v_T * (#(-2.4202386333333375e-07) + $v_T * (#(-3.1139927166666888e-11) + #4.0320486050000074e-14 * $v_T))) - #(-1.6824899359999999e+04) / $v_T)]
    [Asn v_Kc 0 (#(-4.3254706299999999e+00) + #6.7768429000000019e-01 * $v_logT + $v_T * (#(-1.0688476199999996e-03) + $v_T * (#2.6832314633333334e-07 + $v_T * (#(-3.7861079583333334e-11) + #2.1933512699999998e-15 * $v_T))) - #(-1.6963476117000002e+04) / $v_T)];
  (*2011*) Do (Asn v_Kc 0 (#1.0000000000000000e+00 * (Exp $v_Kc)));
  (*2012*) Do (Asn v_rev_rxn_rates 166 (v_C.[14] * v_C.[6] * $v_kf / $v_Kc));
  (*2015*) Do (Asn v_kf 0 ((Exp (#2.3613637594842576e+01 - #4.5289760837324638e+02 / $v_T))));
  (*2016*) Do (Asn v_fwd_rxn_rates 168 (v_C.[18] * v_C.[3] * $v_kf));
  (*2017*) If ($v_T) (#1000.0)
    [Asn v_Kc 0 (#(-6.2603984299999995e+00) + #1.4491756199999997e+00 * $v_logT + $v_T * (#(-8.6287215400000002e-03) + $v_T * (#7.1167116633333333e-06 + $v_T * (#(-3.5058682675000000e-09) + #7.4280576450000006e-13 * $v_T))) - #(-9.7562914300000011e+03) / $v_T)]
    [Asn v_Kc 0 (#7.3750642600000003e+00 + #(-1.1973025499999999e+00) * $v_logT + $v_T * (#6.5548271999999982e-04 + $v_T * (#(-9.1211401833333308e-08) + $v_T * (#1.0329441583333321e-11 + #(-6.3246090000000006e-16) * $v_T))) - #(-9.5530115970000006e+03) / $v_T)];
  (*2023*) Do (Asn v_Kc 0 (#1.0000000000000000e+00 * (Exp $v_Kc)));
  (*2024*) Do (Asn v_rev_rxn_rates 167 (v_C.[17] * v_C.[6] * $v_kf / $v_Kc));
  (*2027*) Do (Asn v_kf 0 ((Exp (#(-3.5387408478311023e+01) + #7.6 * $v_logT - #(-1.7763650639528441e+03) / $v_T))));
  (*2028*) Do (Asn v_fwd_rxn_rates 169 (v_C.[19] * v_C.[3] * $v_kf));
  (*2029*) If ($v_T) (#1000.0)
    [Asn v_Kc 0 (#(-1.5697238179999999e+01) + #3.2068607999999998e+00 * $v_logT + $v_T * (#(-9.4386575199999993e-03) + $v_T * (#7.2157526483333326e-06 + $v_T * (#(-3.7621653674999999e-09) + #8.5750890350000001e-13 * $v_T))) - #(-1.3928806200000001e+04) / $v_T)]
    [Asn v_Kc 0 (#1.0334054720000001e+01 + #(-1.2754358599999995e+00) * $v_logT + $v_T * (#1.0426182050000004e-03 + $v_T * (#(-2.7364926849999996e-07) + $v_T * (#4.3062069583333329e-11 + #(-2.8189239050000005e-15) * $v_T))) - #(-1.2923350387000000e+04) / $v_T)];
  (*2035*) Do (Asn v_Kc 0 (#1.0000000000000000e+00 * (Exp $v_Kc)));
  (*2036*) Do (Asn v_rev_rxn_rates 168 (v_C.[17] * v_C.[6] * $v_kf / $v_Kc));
  (*2039*) Do (Asn v_kf 0 ((Exp (#2.3025850929940457e+01 - #(-3.7993077146866779e+02) / $v_T))));
  (*2040*) Do (Asn v_fwd_rxn_rates 170 (v_C.[21] * v_C.[3] * $v_kf));
  (*2041*) If ($v_T) (#1000.0)
    [Asn v_Kc 0 (#(-4.1064640199999998e+00) + #1.1286056200000001e+00 * $v_logT + $v_T * (#(-7.1337529699999989e-03) + $v_T * (#5.5710678366666671e-06 + $v_T * (#(-2.6837677355000006e-09) + #5.5613434404999995e-13 * $v_T))) - #(-7.6279970680000013e+04) / $v_T)]
    [Asn v_Kc 0 (#6.4908909700000006e+00 + #(-9.6298437000000003e-01) * $v_logT + $v_T * (#3.9208806500000014e-04 + $v_T * (#(-1.4790741033333336e-07) + $v_T * (#2.5462831583333343e-11 + #(-1.7160293150000003e-15) * $v_T))) - #(-7.6172561529999992e+04) / $v_T)];
  (*2047*) Do (Asn v_Kc 0 (#1.0000000000000000e+00 * (Exp $v_Kc)));
  (*2048*) Do (Asn v_rev_rxn_rates 169 (v_C.[14] * v_C.[16] * $v_kf / $v_Kc));
  (*2051*) Do (Asn v_kf 0 ((Exp (#1.7855046883691379e+01 + #0.9 * $v_logT - #1.0029165927643112e+03 / $v_T))));
  (*2052*) Do (Asn v_fwd_rxn_rates 171 (v_C.[0] * v_C.[21] * $v_kf));
  (*2053*) If ($v_T) (#1000.0)
    [Asn v_Kc 0 (#8.5123549849999982e+00 + #(-1.9253073560000000e+00) * $v_logT + $v_T * (#9.8554052535266678e-04 + $v_T * (#2.0729865996673464e-06 + $v_T * (#(-1.8017558498082656e-09) + #4.9042694845361333e-13 * $v_T))) - #(-1.4018817427000009e+04) / $v_T)]
    [Asn v_Kc 0 (#(-5.2503194940000011e+00) + #1.4248393000000048e-01 * $v_logT + $v_T * (#6.2942503500785108e-04 + $v_T * (#(-1.7242241864063419e-07) + $v_T * (#2.8565692355403972e-11 + #(-1.9212890700901320e-15) * $v_T))) - #(-1.4761246978000003e+04) / $v_T)];
  (*2059*) Do (Asn v_Kc 0 (#1.0000000000000000e+00 * (Exp $v_Kc)));
  (*2060*) Do (Asn v_rev_rxn_rates 170 (v_C.[1] * v_C.[22] * $v_kf / $v_Kc));
  (*2063*) Do (Asn v_kf 0 ((Exp (#3.1455305207048688e+01 - #1.39 * $v_logT - #5.1076785833205008e+02 / $v_T))));
  (*2064*) Do (Asn v_fwd_rxn_rates 172 (v_C.[23] * v_C.[3] * $v_kf));
  (*2065*) If ($v_T) (#1000.0)
    [Asn v_Kc 0 (#(-1.0191016829999999e+01) + #2.0199861800000005e+00 * $v_logT + $v_T * (#(-5.8351582350000004e-03) + $v_T * (#2.5556170316666676e-06 + $v_T * (#(-4.8298796750000000e-10) + #(-2.2193090999999984e-14) * $v_T))) - #(-4.4265294979999999e+04) / $v_T)]
    [Asn v_Kc 0 (#1.1980510229999998e+01 + #(-1.7663973799999999e+00) * $v_logT + $v_T * (#1.1718196699999997e-03 + $v_T * (#(-2.4470901683333341e-07) + $v_T * (#3.0705871916666657e-11 + #(-1.6901975800000012e-15) * $v_T))) - #(-4.3508330330000004e+04) / $v_T)];
  (*2071*) Do (Asn v_Kc 0 (#1.0000000000000000e+00 * (Exp $v_Kc)));
  (*2072*) Do (Asn v_rev_rxn_rates 171 (v_C.[17] * v_C.[16] * $v_kf / $v_Kc));
  (*2075*) Do (Asn v_kf 0 ((Exp (#2.9710462657608385e+01 + #0.44 * $v_logT - #4.3664361642829543e+04 / $v_T))));
  (*2076*) Do (Asn v_fwd_rxn_rates 173 (v_C.[24] * $v_kf));
  (*2077*) If ($v_T) (#1000.0)
    [Asn v_Kc 0 (#1.1331573643999999e+01 + #(-1.8061892659999998e+00) * $v_logT + $v_T * (#1.9456303059999999e-02 + $v_T * (#(-1.8682393616666667e-05) + $v_T * (#9.7776106999999999e-09 + #(-2.1432642325000001e-12) * $v_T))) - #2.0421269596999999e+04 / $v_T)]
    [Asn v_Kc 0 (#(-2.0189411500000002e+01) + #4.4487376799999998e+00 * $v_logT + $v_T * (#(-4.3665754665499993e-03) + $v_T * (#8.0621456800000012e-07 + $v_T * (#(-9.8698621083333346e-11) + #5.4804038649999998e-15 * $v_T))) - #2.0045954138000001e+04 / $v_T)];
  (*2083*) Do (Asn v_Kc 0 (#1.2186597134166982e+01 * (Exp $v_Kc)));
  (*2084*) Do (Asn v_rev_rxn_rates 172 (v_C.[0] * v_C.[22] * $v_kf / $v_Kc));
  (*2087*) Do (Asn v_kf 0 ((Exp (#2.0548912449801634e+01 - #1.9499758138292552e+03 / $v_T))));
  (*2088*) Do (Asn v_fwd_rxn_rates 174 (v_C.[25] * v_C.[3] * $v_kf));
  (*2089*) If ($v_T) (#1000.0)
    [Asn v_Kc 0 (#(-7.2296901000000036e-01) + #1.7207745000000019e-01 * $v_logT + $v_T * (#(-2.5681599499999992e-03) + $v_T * (#3.1159559316666656e-06 + $v_T * (#(-1.9867757508333331e-09) + #4.9930298850000008e-13 * $v_T))) - #(-6.3930989700000009e+03) / $v_T)]
    [Asn v_Kc 0 (#(-5.6413219399999974e+00) + #8.1612780000000029e-01 * $v_logT + $v_T * (#(-9.9756225500000030e-04) + $v_T * (#2.3259934149999997e-07 + $v_T * (#(-3.1264320416666646e-11) + #1.7408220449999992e-15 * $v_T))) - #(-6.7173194270000004e+03) / $v_T)];
  (*2095*) Do (Asn v_Kc 0 (#1.0000000000000000e+00 * (Exp $v_Kc)));
  (*2096*) Do (Asn v_rev_rxn_rates 173 (v_C.[24] * v_C.[6] * $v_kf / $v_Kc));
  (*2099*) Do (Asn v_kf 0 ((Exp (#2.1886416646752092e+01 - #4.2974950838972489e+02 / $v_T))));
  (*2100*) Do (Asn v_fwd_rxn_rates 175 (v_C.[27] * v_C.[3] * $v_kf));
  (*2101*) If ($v_T) (#1000.0)
    [Asn v_Kc 0 (#(-1.4352104237999999e+01) + #4.1169046099999989e+00 * $v_logT + $v_T * (#(-9.1401558600000005e-03) + $v_T * (#3.4222276766666667e-06 + $v_T * (#(-8.0513212266666685e-10) + #6.8900921600000025e-14 * $v_T))) - #(-4.4068596879999997e+04) / $v_T)]
    [Asn v_Kc 0 (#1.8978584499999997e+01 + #(-1.3874847500000005e+00) * $v_logT + $v_T * (#(-4.4747153199999978e-04) + $v_T * (#8.0045842499999959e-08 + $v_T * (#(-1.0297601216666666e-11) + #6.0456528999999974e-16 * $v_T))) - #(-4.2683845080000006e+04) / $v_T)];
  (*2107*) Do (Asn v_Kc 0 (#1.2186597134166982e+01 * (Exp $v_Kc)));
  (*2108*) Do (Asn v_rev_rxn_rates 174 (v_C.[14] * v_C.[14] * v_C.[4] * $v_kf / $v_Kc));
  (*2111*) Do (Asn v_kf 0 (#10000000000.0));
  (*2112*) Do (Asn v_fwd_rxn_rates 176 (v_C.[27] * v_C.[27] * $v_kf));
  (*2113*) If ($v_T) (#1000.0)
    [Asn v_Kc 0 (#(-7.4886155740000007e+00) + #2.4643052339999993e+00 * $v_logT + $v_T * (#(-6.5845932299999996e-03) + $v_T * (#2.3291081933333327e-06 + $v_T * (#(-3.9352187766666722e-10) + #(-8.8308268999998846e-15) * $v_T))) - #(-4.2378089300000000e+04) / $v_T)]
    [Asn v_Kc 0 (#2.3946083970000000e+01 + #(-2.6784707399999999e+00) * $v_logT + $v_T * (#9.5802064999999954e-04 + $v_T * (#(-1.9728177700000007e-07) + $v_T * (#2.9583095583333331e-11 + #(-1.9018700250000007e-15) * $v_T))) - #(-4.1022175600000002e+04) / $v_T)];
  (*2119*) Do (Asn v_Kc 0 (#1.2186597134166982e+01 * (Exp $v_Kc)));
  (*2120*) Do (Asn v_rev_rxn_rates 175 (v_C.[14] * v_C.[14] * v_C.[22] * $v_kf / $v_Kc));
  (*2123*) Do (Asn v_kf 0 ((Exp (#2.4019102702950740e+01 - #1.7864294552500274e+02 / $v_T))));
  (*2124*) Do (Asn v_fwd_rxn_rates 177 (v_C.[30] * v_C.[35] * $v_kf));
  (*2125*) If ($v_T) (#1000.0)
    [Asn v_Kc 0 (#(-2.2091744000000002e-01) + #(-2.5153219999999976e-01) * $v_logT + $v_T * (#1.3839487800000002e-03 + $v_T * (#(-1.3935300066666667e-06) + $v_T * (#7.3746534666666676e-10 + #(-1.5678856450000000e-13) * $v_T))) - #(-3.7847900699999998e+04) / $v_T)]
    [Asn v_Kc 0 (#(-7.3557940000001487e-02) + #(-1.8048771999999991e-01) * $v_logT + $v_T * (#1.8003868149999965e-05 + $v_T * (#3.6111048166666690e-09 + $v_T * (#(-7.2760949166666755e-13) + #2.7234700500000027e-17 * $v_T))) - #(-3.7759966200000003e+04) / $v_T)];
  (*2131*) Do (Asn v_Kc 0 (#1.0000000000000000e+00 * (Exp $v_Kc)));
  (*2132*) Do (Asn v_rev_rxn_rates 176 (v_C.[52] * v_C.[2] * $v_kf / $v_Kc));
  (*2135*) Do (Asn v_kf 0 ((Exp (#1.6012735135300492e+01 + #1.0 * $v_logT - #3.2709271715845571e+03 / $v_T))));
  (*2136*) Do (Asn v_fwd_rxn_rates 178 (v_C.[3] * v_C.[30] * $v_kf));
  (*2137*) If ($v_T) (#1000.0)
    [Asn v_Kc 0 (#(-4.6230916099999995e+00) + #1.1042870400000004e+00 * $v_logT + $v_T * (#(-2.4607803399999996e-03) + $v_T * (#1.3061306583333336e-06 + $v_T * (#(-4.8190887916666673e-10) + #8.3625417000000004e-14 * $v_T))) - #(-1.6073811240000003e+04) / $v_T)]
    [Asn v_Kc 0 (#9.1925481000000087e-01 + #1.3154564000000013e-01 * $v_logT + $v_T * (#(-2.7642400185000002e-04) + $v_T * (#8.1628056316666668e-08 + $v_T * (#(-1.5021409241666664e-11) + #1.0451302304999998e-15 * $v_T))) - #(-1.5906761580000006e+04) / $v_T)];
  (*2143*) Do (Asn v_Kc 0 (#1.0000000000000000e+00 * (Exp $v_Kc)));
  (*2144*) Do (Asn v_rev_rxn_rates 177 (v_C.[2] * v_C.[35] * $v_kf / $v_Kc));
  (*2147*) Do (Asn v_kf 0 ((Exp (#2.4237791903915571e+01 - #1.9373953247077762e+02 / $v_T))));
  (*2148*) Do (Asn v_fwd_rxn_rates 179 (v_C.[30] * v_C.[4] * $v_kf));
  (*2149*) If ($v_T) (#1000.0)
    [Asn v_Kc 0 (#(-2.4822805649999991e+00) + #2.2646086999999993e-01 * $v_logT + $v_T * (#(-1.1188292396473339e-03) + $v_T * (#1.0705139313340135e-06 + $v_T * (#(-4.5458350564159866e-10) + #7.1973114953613397e-14 * $v_T))) - #(-2.4401434660000003e+04) / $v_T)]
    [Asn v_Kc 0 (#(-3.4554609539999990e+00) + #2.5177503999999962e-01 * $v_logT + $v_T * (#2.3389195545785136e-04 + $v_T * (#(-7.2775333640634197e-08) + $v_T * (#1.0598131238737304e-11 + #(-6.8693744009013213e-16) * $v_T))) - #(-2.4597795500000000e+04) / $v_T)];
  (*2155*) Do (Asn v_Kc 0 (#1.0000000000000000e+00 * (Exp $v_Kc)));
  (*2156*) Do (Asn v_rev_rxn_rates 178 (v_C.[1] * v_C.[35] * $v_kf / $v_Kc));
  (*2159*) Do (Asn v_kf 0 ((Exp (#2.1059738073567623e+01 - #5.4398034961275480e+03 / $v_T))));
  (*2160*) Do (Asn v_fwd_rxn_rates 180 (v_C.[37] * v_C.[2] * $v_kf));
  (*2161*) If ($v_T) (#1000.0)
    [Asn v_Kc 0 (#(-6.8575937899999992e+00) + #1.6557160600000000e+00 * $v_logT + $v_T * (#(-4.8069514600000002e-03) + $v_T * (#2.1520558416666661e-06 + $v_T * (#(-6.3280787083333353e-10) + #8.0846643000000009e-14 * $v_T))) - #(-3.9948877059999999e+04) / $v_T)]
    [Asn v_Kc 0 (#1.0034457189999999e+01 + #(-1.1833158400000001e+00) * $v_logT + $v_T * (#2.1500667685000015e-04 + $v_T * (#(-6.8313731316666671e-08) + $v_T * (#1.3370966241666666e-11 + #(-9.9391185050000003e-16) * $v_T))) - #(-3.9302239320000001e+04) / $v_T)];
  (*2167*) Do (Asn v_Kc 0 (#1.0000000000000000e+00 * (Exp $v_Kc)));
  (*2168*) Do (Asn v_rev_rxn_rates 179 (v_C.[52] * v_C.[3] * $v_kf / $v_Kc));
  (*2171*) Do (Asn v_kf 0 ((Exp (#2.4090561666932885e+01 - #1.1649532926489615e+04 / $v_T))));
  (*2172*) Do (Asn v_fwd_rxn_rates 181 (v_C.[37] * v_C.[2] * $v_kf));
  (*2173*) If ($v_T) (#1000.0)
    [Asn v_Kc 0 (#(-1.1259767959999998e+01) + #3.0115352999999998e+00 * $v_logT + $v_T * (#(-8.6516805799999996e-03) + $v_T * (#4.8517165066666666e-06 + $v_T * (#(-1.8521820966666668e-09) + #3.2126062450000001e-13 * $v_T))) - #(-1.8174787600000003e+04) / $v_T)]
    [Asn v_Kc 0 (#1.1027269940000000e+01 + #(-8.7128248000000008e-01) * $v_logT + $v_T * (#(-7.9421193149999938e-05) + $v_T * (#9.7032201833333181e-09 + $v_T * (#(-9.2283350833333214e-13) + #2.3983679500000027e-17 * $v_T))) - #(-1.7449034700000000e+04) / $v_T)];
  (*2179*) Do (Asn v_Kc 0 (#1.0000000000000000e+00 * (Exp $v_Kc)));
  (*2180*) Do (Asn v_rev_rxn_rates 180 (v_C.[35] * v_C.[35] * $v_kf / $v_Kc));
  (*2183*) Do (Asn v_kf 0 ((Exp (#2.6681690529976194e+01 - #9.5007853845409900e+03 / $v_T))));
  (*2184*) Do (Asn v_fwd_rxn_rates 182 (v_C.[1] * v_C.[37] * $v_kf));
  (*2185*) If ($v_T) (#1000.0)
    [Asn v_Kc 0 (#(-8.9984048350000005e+00) + #2.5335422300000001e+00 * $v_logT + $v_T * (#(-6.1489025603526665e-03) + $v_T * (#2.3876725686659865e-06 + $v_T * (#(-6.6013324435840145e-10) + #9.2498945046386628e-14 * $v_T))) - #(-3.1621253640000003e+04) / $v_T)]
    [Asn v_Kc 0 (#1.4409172953999999e+01 + #(-1.3035452399999992e+00) * $v_logT + $v_T * (#(-2.9530928045785128e-04) + $v_T * (#8.6089658640634181e-08 + $v_T * (#(-1.2248574238737303e-11) + #7.3815582009013220e-16 * $v_T))) - #(-3.0611205399999999e+04) / $v_T)];
  (*2191*) Do (Asn v_Kc 0 (#1.0000000000000000e+00 * (Exp $v_Kc)));
  (*2192*) Do (Asn v_rev_rxn_rates 181 (v_C.[52] * v_C.[4] * $v_kf / $v_Kc));
  (*2195*) Do (Asn v_kf 0 ((Exp (#2.1416413017506358e+01 - #1.0597804035933965e+04 / $v_T))));
  (*2196*) Do (Asn v_fwd_rxn_rates 183 (v_C.[37] * v_C.[4] * $v_kf));
  (*2197*) If ($v_T) (#1000.0)
    [Asn v_Kc 0 (#(-4.3383414719999989e+00) + #1.3513093800000004e+00 * $v_logT + $v_T * (#(-6.1221452950000000e-03) + $v_T * (#4.3747412816666665e-06 + $v_T * (#(-2.0363101391666670e-09) + #4.2070003700000005e-13 * $v_T))) - #(-1.3082946820000001e+04) / $v_T)]
    [Asn v_Kc 0 (#8.4627644199999992e+00 + #(-9.7210966999999959e-01) * $v_logT + $v_T * (#2.7617105700000007e-04 + $v_T * (#(-6.1688439666666685e-08) + $v_T * (#1.1929648800000004e-11 + #(-9.7551058999999984e-16) * $v_T))) - #(-1.2743002787000001e+04) / $v_T)];
  (*2203*) Do (Asn v_Kc 0 (#1.0000000000000000e+00 * (Exp $v_Kc)));
  (*2204*) Do (Asn v_rev_rxn_rates 182 (v_C.[52] * v_C.[6] * $v_kf / $v_Kc));
  (*2207*) Do (Asn v_kf 0 ((Exp (#2.5093978711720020e+01 - #2.8190360023410292e+04 / $v_T))));
  (*2208*) Do (Asn v_fwd_rxn_rates 184 (v_C.[37] * $v_kf));
  (*2209*) If ($v_T) (#1000.0)
    [Asn v_Kc 0 (#(-8.9654804400000003e+00) + #3.2097939000000002e+00 * $v_logT + $v_T * (#(-6.5879032200000000e-03) + $v_T * (#2.7251934933333331e-06 + $v_T * (#(-8.4737765333333335e-10) + #1.2992619550000000e-13 * $v_T))) - #1.9359584900000002e+04 / $v_T)]
    [Asn v_Kc 0 (#1.2293599459999999e+01 + #(-3.2701211999999957e-01) * $v_logT + $v_T * (#(-6.1251120684999996e-04) + $v_T * (#7.1996866483333315e-08 + $v_T * (#(-5.7545433249999993e-12) + #2.1251081050000004e-16 * $v_T))) - #2.0221376600000000e+04 / $v_T)];
  (*2215*) Do (Asn v_Kc 0 (#1.2186597134166982e+01 * (Exp $v_Kc)));
  (*2216*) Do (Asn v_rev_rxn_rates 183 (v_C.[52] * v_C.[2] * $v_kf / $v_Kc));
  (*2219*) Do (Asn v_kf 0 ((Exp (#2.1469953784434388e+01 - #(-2.4154539113239807e+02) / $v_T))));
  (*2220*) Do (Asn v_fwd_rxn_rates 185 (v_C.[6] * v_C.[35] * $v_kf));
  (*2221*) If ($v_T) (#1000.0)
    [Asn v_Kc 0 (#7.9478507199999937e-01 + #(-5.8422767999999969e-01) * $v_logT + $v_T * (#2.7006749950000001e-03 + $v_T * (#(-1.8205934483333328e-06) + $v_T * (#7.7133045583333372e-10 + #(-1.4483285700000006e-13) * $v_T))) - #(-3.6277325799999999e+03) / $v_T)]
    [Asn v_Kc 0 (#(-6.4949510700000008e+00) + #6.9982536999999923e-01 * $v_logT + $v_T * (#(-3.5504955699999991e-04) + $v_T * (#6.0210799666666659e-08 + $v_T * (#(-9.5145912166666687e-12) + #8.0274029999999995e-16 * $v_T))) - #(-3.8576760129999993e+03) / $v_T)];
  (*2227*) Do (Asn v_Kc 0 (#1.0000000000000000e+00 * (Exp $v_Kc)));
  (*2228*) Do (Asn v_rev_rxn_rates 184 (v_C.[36] * v_C.[4] * $v_kf / $v_Kc));
  (*2231*) Do (Asn v_kf 0 ((Exp (#3.2294460210040619e+01 - #1.41 * $v_logT))));
  (*2232*) Do (Asn v_fwd_rxn_rates 186 (v_C.[2] * v_C.[35] * $v_kf));
  (*2233*) If ($v_T) (#1000.0)
    [Asn v_Kc 0 (#5.4219240400000004e+00 + #(-2.4427121999999999e+00) * $v_logT + $v_T * (#3.1664329200000001e-03 + $v_T * (#(-1.7104565999999997e-07) + $v_T * (#(-4.1760203000000003e-10) + #1.4594098449999999e-13 * $v_T))) - #(-3.6070264299999995e+04) / $v_T)]
    [Asn v_Kc 0 (#(-1.0325786109999999e+01) + #5.4727819999999650e-02 * $v_logT + $v_T * (#5.3363270684999989e-04 + $v_T * (#(-7.3474506483333341e-08) + $v_T * (#8.1696009083333325e-12 + #(-3.8528110049999998e-16) * $v_T))) - #(-3.6822055399999997e+04) / $v_T)];
  (*2239*) Do (Asn v_Kc 0 (#8.2057360967184814e-02 * (Exp $v_Kc)));
  (*2240*) Do (Asn v_rev_rxn_rates 185 (v_C.[36] * $v_kf / $v_Kc));
  (*2243*) Do (Asn v_kf 0 ((Exp (#2.2084242390082011e+01 - #(-1.2077269556619903e+02) / $v_T))));
  (*2244*) Do (Asn v_fwd_rxn_rates 187 (v_C.[36] * v_C.[2] * $v_kf));
  (*2245*) If ($v_T) (#1000.0)
    [Asn v_Kc 0 (#(-3.3140373899999997e+00) + #8.8863436000000018e-01 * $v_logT + $v_T * (#(-1.3854811599999998e-03) + $v_T * (#(-4.0209199166666701e-07) + $v_T * (#6.3217181249999996e-10 + #(-1.9502053699999998e-13) * $v_T))) - #(-2.3238197660000002e+04) / $v_T)]
    [Asn v_Kc 0 (#8.0666438400000011e+00 + #(-9.1103154000000020e-01) * $v_logT + $v_T * (#2.9388517685000000e-04 + $v_T * (#(-6.6836091316666672e-08) + $v_T * (#1.0955908658333333e-11 + #(-8.2114156049999994e-16) * $v_T))) - #(-2.2701560519999999e+04) / $v_T)];
  (*2251*) Do (Asn v_Kc 0 (#1.0000000000000000e+00 * (Exp $v_Kc)));
  (*2252*) Do (Asn v_rev_rxn_rates 186 (v_C.[3] * v_C.[35] * $v_kf / $v_Kc));
  (*2255*) Do (Asn v_kf 0 ((Exp (#2.5606067759532781e+01 - #1.8115904334929854e+02 / $v_T))));
  (*2256*) Do (Asn v_fwd_rxn_rates 188 (v_C.[1] * v_C.[36] * $v_kf));
  (*2257*) If ($v_T) (#1000.0)
    [Asn v_Kc 0 (#(-5.4548484350000006e+00) + #1.7664605299999994e+00 * $v_logT + $v_T * (#(-2.7274322603526666e-03) + $v_T * (#(-1.6647526466734684e-07) + $v_T * (#6.0484643897493183e-10 + #(-1.8336823495361336e-13) * $v_T))) - #(-1.4910574239999998e+04) / $v_T)]
    [Asn v_Kc 0 (#1.2441359604000001e+01 + #(-1.0312609400000001e+00) * $v_logT + $v_T * (#(-2.1643078045785133e-04) + $v_T * (#8.7567298640634207e-08 + $v_T * (#(-1.4663631822070636e-11) + #9.1092611009013219e-16 * $v_T))) - #(-1.4010526599999997e+04) / $v_T)];
  (*2263*) Do (Asn v_Kc 0 (#1.0000000000000000e+00 * (Exp $v_Kc)));
  (*2264*) Do (Asn v_rev_rxn_rates 187 (v_C.[35] * v_C.[4] * $v_kf / $v_Kc));
  (*2267*) Do (Asn v_kf 0 (#40000000000.0));
  (*2268*) Do (Asn v_fwd_rxn_rates 189 (v_C.[31] * v_C.[2] * $v_kf));
  (*2269*) If ($v_T) (#1000.0)
    [Asn v_Kc 0 (#(-2.1233984129999999e+00) + #5.7300699999999871e-02 * $v_logT + $v_T * (#(-8.3572456964733401e-04) + $v_T * (#9.8116773966734655e-07 + $v_T * (#(-4.7414277980826538e-10) + #8.6330699453613401e-14 * $v_T))) - #(-3.5684605300000003e+04) / $v_T)]
    [Asn v_Kc 0 (#(-5.0099907839999993e+00) + #4.0749202999999978e-01 * $v_logT + $v_T * (#(-2.6382304692148654e-05) + $v_T * (#(-7.7230754573008722e-09) + $v_T * (#9.3911930403970893e-14 + #1.2125034409867904e-17 * $v_T))) - #(-3.5943792600000001e+04) / $v_T)];
  (*2275*) Do (Asn v_Kc 0 (#1.0000000000000000e+00 * (Exp $v_Kc)));
  (*2276*) Do (Asn v_rev_rxn_rates 188 (v_C.[1] * v_C.[35] * $v_kf / $v_Kc));
  (*2279*) Do (Asn v_kf 0 ((Exp (#2.4189001739746139e+01 - #1.6606245640352367e+02 / $v_T))));
  (*2280*) Do (Asn v_fwd_rxn_rates 190 (v_C.[31] * v_C.[1] * $v_kf));
  (*2281*) If ($v_T) (#1000.0)
    [Asn v_Kc 0 (#4.6238513709999998e+00 + #(-1.1485773799999999e+00) * $v_logT + $v_T * (#3.8343643846473333e-03 + $v_T * (#(-2.9981837663340132e-06) + $v_T * (#1.4729637664749321e-09 + #(-3.1702104545361340e-13) * $v_T))) - #(-1.2167587072999995e+04) / $v_T)]
    [Asn v_Kc 0 (#(-4.3190399859999999e+00) + #4.6952929000000010e-01 * $v_logT + $v_T * (#(-6.0217740000785135e-04) + $v_T * (#1.3420225697396753e-07 + $v_T * (#(-1.8974053772070638e-11) + #1.1746942950901323e-15 * $v_T))) - #(-1.2410893821999998e+04) / $v_T)];
  (*2287*) Do (Asn v_Kc 0 (#1.0000000000000000e+00 * (Exp $v_Kc)));
  (*2288*) Do (Asn v_rev_rxn_rates 189 (v_C.[0] * v_C.[30] * $v_kf / $v_Kc));
  (*2291*) Do (Asn v_kf 0 (#20000000000.0));
  (*2292*) Do (Asn v_fwd_rxn_rates 191 (v_C.[31] * v_C.[4] * $v_kf));
  (*2293*) If ($v_T) (#1000.0)
    [Asn v_Kc 0 (#1.0188835000001006e-02 + #(-4.5143233000000027e-01) * $v_logT + $v_T * (#(-1.7900457796473335e-03) + $v_T * (#2.5573861646673468e-06 + $v_T * (#(-1.3114670723082653e-09) + #2.6085196495361335e-13 * $v_T))) - #(-8.4737526600000037e+03) / $v_T)]
    [Asn v_Kc 0 (#(-1.6604565539999991e+00) + #(-3.9732956000000019e-01) * $v_logT + $v_T * (#8.0806658045785124e-04 + $v_T * (#(-8.1203753640634213e-08) + $v_T * (#5.5897703220706377e-12 + #(-3.2150746309013209e-16) * $v_T))) - #(-8.7552630999999965e+03) / $v_T)];
  (*2299*) Do (Asn v_Kc 0 (#1.0000000000000000e+00 * (Exp $v_Kc)));
  (*2300*) Do (Asn v_rev_rxn_rates 190 (v_C.[1] * v_C.[38] * $v_kf / $v_Kc));
  (*2303*) Do (Asn v_kf 0 ((Exp (#1.4508657738524219e+01 + #1.2 * $v_logT))));
  (*2304*) Do (Asn v_fwd_rxn_rates 192 (v_C.[31] * v_C.[4] * $v_kf));
  (*2305*) If ($v_T) (#1000.0)
    [Asn v_Kc 0 (#2.3867575199999997e+00 + #(-7.8628336999999959e-01) * $v_logT + $v_T * (#2.6545719999999939e-05 + $v_T * (#5.6525201666666661e-07 + $v_T * (#(-3.4070679083333336e-10) + #7.2178008500000003e-14 * $v_T))) - #(-1.9684799259999996e+04) / $v_T)]
    [Asn v_Kc 0 (#(-1.7445122000000035e-01) + #(-4.2664507999999968e-01) * $v_logT + $v_T * (#2.3676798700000010e-04 + $v_T * (#2.5298389999999985e-09 + $v_T * (#(-4.7681739499999993e-12) + #4.2736052000000001e-16 * $v_T))) - #(-1.9850029099999996e+04) / $v_T)];
  (*2311*) Do (Asn v_Kc 0 (#1.0000000000000000e+00 * (Exp $v_Kc)));
  (*2312*) Do (Asn v_rev_rxn_rates 191 (v_C.[5] * v_C.[30] * $v_kf / $v_Kc));
  (*2315*) Do (Asn v_kf 0 ((Exp (#6.1333980429966486e+00 + #2.0 * $v_logT - #3.2709271715845571e+03 / $v_T))));
  (*2316*) Do (Asn v_fwd_rxn_rates 193 (v_C.[31] * v_C.[3] * $v_kf));
  (*2317*) If ($v_T) (#1000.0)
    [Asn v_Kc 0 (#(-2.1306222099999994e+00) + #4.2639383999999936e-01 * $v_logT + $v_T * (#(-3.1319968799999997e-03) + $v_T * (#2.7930028916666664e-06 + $v_T * (#(-1.3387924458333333e-09) + #2.7250426700000000e-13 * $v_T))) - #(-1.4612924000000180e+02) / $v_T)]
    [Asn v_Kc 0 (#2.7142592100000007e+00 + #(-5.1755895999999968e-01) * $v_logT + $v_T * (#2.9775062315000008e-04 + $v_T * (#7.3199636316666652e-08 + $v_T * (#(-2.0029770158333333e-11) + #1.4105602075000000e-15 * $v_T))) - #(-6.4229180000000497e+01) / $v_T)];
  (*2323*) Do (Asn v_Kc 0 (#1.0000000000000000e+00 * (Exp $v_Kc)));
  (*2324*) Do (Asn v_rev_rxn_rates 192 (v_C.[38] * v_C.[2] * $v_kf / $v_Kc));
  (*2327*) Do (Asn v_kf 0 ((Exp (#7.1546153569136628e+00 + #1.5 * $v_logT - #5.0321956485916260e+01 / $v_T))));
  (*2328*) Do (Asn v_fwd_rxn_rates 194 (v_C.[31] * v_C.[3] * $v_kf));
  (*2329*) If ($v_T) (#1000.0)
    [Asn v_Kc 0 (#(-4.2642094580000007e+00) + #9.3512686999999950e-01 * $v_logT + $v_T * (#(-2.1776756700000004e-03) + $v_T * (#1.2167844666666669e-06 + $v_T * (#(-5.0146815333333341e-10) + #9.7983001500000021e-14 * $v_T))) - #(-2.7356981879999999e+04) / $v_T)]
    [Asn v_Kc 0 (#(-6.3527501999999902e-01) + #2.8726262999999985e-01 * $v_logT + $v_T * (#(-5.3669826199999999e-04) + $v_T * (#1.4668031449999999e-07 + $v_T * (#(-2.5525628550000000e-11) + #1.7441927050000000e-15 * $v_T))) - #(-2.7252758679999999e+04) / $v_T)];
  (*2335*) Do (Asn v_Kc 0 (#1.0000000000000000e+00 * (Exp $v_Kc)));
  (*2336*) Do (Asn v_rev_rxn_rates 193 (v_C.[35] * v_C.[4] * $v_kf / $v_Kc));
  (*2339*) Do (Asn v_kf 0 (#15000000000.0));
  (*2340*) Do (Asn v_fwd_rxn_rates 195 (v_C.[31] * v_C.[30] * $v_kf));
  (*2341*) If ($v_T) (#1000.0)
    [Asn v_Kc 0 (#(-2.3443158529999994e+00) + #(-1.9423149999999989e-01) * $v_logT + $v_T * (#5.4822421035266632e-04 + $v_T * (#(-4.1236226699931982e-07) + $v_T * (#2.6332256685840138e-10 + #(-7.0457865046386596e-14) * $v_T))) - #(-7.3532506000000008e+04) / $v_T)]
    [Asn v_Kc 0 (#(-5.0835487239999999e+00) + #2.2700430999999988e-01 * $v_logT + $v_T * (#(-8.3784365421486279e-06) + $v_T * (#(-4.1119706406342132e-09) + $v_T * (#(-6.3369756126269595e-13) + #3.9359734909867919e-17 * $v_T))) - #(-7.3703758799999996e+04) / $v_T)];
  (*2347*) Do (Asn v_Kc 0 (#1.0000000000000000e+00 * (Exp $v_Kc)));
  (*2348*) Do (Asn v_rev_rxn_rates 194 (v_C.[1] * v_C.[52] * $v_kf / $v_Kc));
  (*2351*) Do (Asn v_kf 0 ((Exp (#2.3718998110500401e+01 - #6.9695909732994023e+03 / $v_T))));
  (*2352*) Do (Asn v_fwd_rxn_rates 196 (v_C.[31] * v_C.[5] * $v_kf));
  (*2353*) If ($v_T) (#1000.0)
    [Asn v_Kc 0 (#2.2472826860000001e+00 + #(-8.1372634000000099e-01) * $v_logT + $v_T * (#2.0177728849999996e-03 + $v_T * (#(-1.0060496183333333e-06) + $v_T * (#5.0220348500000010e-10 + #(-1.2834708900000004e-13) * $v_T))) - #(-9.5654047300000093e+02) / $v_T)]
    [Asn v_Kc 0 (#(-5.8050453199999987e+00) + #4.9884480999999958e-01 * $v_logT + $v_T * (#(-3.0878806549999990e-05) + $v_T * (#5.0468664333333311e-08 + $v_T * (#(-8.6161095000000015e-12) + #4.2582631200000017e-16 * $v_T))) - #(-1.3161278219999986e+03) / $v_T)];
  (*2359*) Do (Asn v_Kc 0 (#1.0000000000000000e+00 * (Exp $v_Kc)));
  (*2360*) Do (Asn v_rev_rxn_rates 195 (v_C.[0] * v_C.[38] * $v_kf / $v_Kc));
  (*2363*) Do (Asn v_kf 0 ((Exp (#2.3795959151636531e+01 - #0.23 * $v_logT))));
  (*2364*) Do (Asn v_fwd_rxn_rates 197 (v_C.[31] * v_C.[35] * $v_kf));
  (*2365*) If ($v_T) (#1000.0)
    [Asn v_Kc 0 (#1.3796471199999938e-01 + #(-4.2069236999999982e-01) * $v_logT + $v_T * (#1.6670534500000001e-03 + $v_T * (#(-1.4828761983333334e-06) + $v_T * (#7.1790607250000009e-10 + #(-1.4243097999999998e-13) * $v_T))) - #(-4.9131071340000002e+04) / $v_T)]
    [Asn v_Kc 0 (#(-1.6280877700000014e+00) + #(-2.4770729999999297e-02) * $v_logT + $v_T * (#(-2.4227039200000011e-04) + $v_T * (#6.8663362999999991e-08 + $v_T * (#(-1.1231828800000000e-11) + #7.2629717500000000e-16 * $v_T))) - #(-4.9105963300000003e+04) / $v_T)];
  (*2371*) Do (Asn v_Kc 0 (#1.0000000000000000e+00 * (Exp $v_Kc)));
  (*2372*) Do (Asn v_rev_rxn_rates 196 (v_C.[52] * v_C.[4] * $v_kf / $v_Kc));
  (*2375*) Do (Asn v_kf 0 ((Exp (#2.6623163190528903e+01 - #0.45 * $v_logT))));
  (*2376*) Do (Asn v_fwd_rxn_rates 198 (v_C.[31] * v_C.[35] * $v_kf));
  (*2377*) If ($v_T) (#1000.0)
    [Asn v_Kc 0 (#9.1363695469999993e+00 + #(-2.9542345999999999e+00) * $v_logT + $v_T * (#7.8159560103526673e-03 + $v_T * (#(-3.8705487669993190e-06) + $v_T * (#1.3780393168584013e-09 + #(-2.3492992504638658e-13) * $v_T))) - #(-1.7509817700000000e+04) / $v_T)]
    [Asn v_Kc 0 (#(-1.6037260723999999e+01) + #1.2787745099999999e+00 * $v_logT + $v_T * (#5.3038888457851169e-05 + $v_T * (#(-1.7426295640634190e-08) + $v_T * (#1.0167454387373029e-12 + #(-1.1858645090132172e-17) * $v_T))) - #(-1.8494757899999997e+04) / $v_T)];
  (*2383*) Do (Asn v_Kc 0 (#1.0000000000000000e+00 * (Exp $v_Kc)));
  (*2384*) Do (Asn v_rev_rxn_rates 197 (v_C.[1] * v_C.[37] * $v_kf / $v_Kc));
  (*2387*) Do (Asn v_kf 0 (#3000000000.0));
  (*2388*) Do (Asn v_fwd_rxn_rates 199 (v_C.[2] * v_C.[32] * $v_kf));
  (*2389*) If ($v_T) (#1000.0)
    [Asn v_Kc 0 (#(-2.7834256799999935e-01) + #1.1265393000000001e-01 * $v_logT + $v_T * (#1.6479659000000000e-03 + $v_T * (#(-1.7701681250000001e-06) + $v_T * (#8.6167473416666659e-10 + #(-1.7141567050000001e-13) * $v_T))) - #(-5.5124596399999973e+03) / $v_T)]
    [Asn v_Kc 0 (#(-1.5596965300000001e+00) + #4.7241758999999961e-01 * $v_logT + $v_T * (#(-6.2153068515000002e-04) + $v_T * (#9.8947389850000025e-08 + $v_T * (#(-1.1384117058333333e-11) + #6.4645340449999990e-16 * $v_T))) - #(-5.4100311000000002e+03) / $v_T)];
  (*2395*) Do (Asn v_Kc 0 (#1.0000000000000000e+00 * (Exp $v_Kc)));
  (*2396*) Do (Asn v_rev_rxn_rates 198 (v_C.[31] * v_C.[4] * $v_kf / $v_Kc));
  (*2399*) Do (Asn v_kf 0 (#39000000000.0));
  (*2400*) Do (Asn v_fwd_rxn_rates 200 (v_C.[2] * v_C.[32] * $v_kf));
  (*2401*) If ($v_T) (#1000.0)
    [Asn v_Kc 0 (#(-2.6815373299999834e-01) + #(-3.3877840000000026e-01) * $v_logT + $v_T * (#(-1.4207987964733352e-04) + $v_T * (#7.8721803966734651e-07 + $v_T * (#(-4.4979233814159869e-10) + #8.9436294453613366e-14 * $v_T))) - #(-1.3986212300000003e+04) / $v_T)]
    [Asn v_Kc 0 (#(-3.2201530839999988e+00) + #7.5088029999999417e-02 * $v_logT + $v_T * (#1.8653589530785134e-04 + $v_T * (#1.7743636209365799e-08 + $v_T * (#(-5.7943467362626953e-12) + #3.2494594140986786e-16 * $v_T))) - #(-1.4165294199999997e+04) / $v_T)];
  (*2407*) Do (Asn v_Kc 0 (#1.0000000000000000e+00 * (Exp $v_Kc)));
  (*2408*) Do (Asn v_rev_rxn_rates 199 (v_C.[1] * v_C.[38] * $v_kf / $v_Kc));
  (*2411*) Do (Asn v_kf 0 ((Exp (#2.4412145291060348e+01 - #1.8367514117359435e+03 / $v_T))));
  (*2412*) Do (Asn v_fwd_rxn_rates 201 (v_C.[1] * v_C.[32] * $v_kf));
  (*2413*) If ($v_T) (#1000.0)
    [Asn v_Kc 0 (#3.9866266510000004e+00 + #(-8.6676327999999980e-01) * $v_logT + $v_T * (#5.1992256146473331e-03 + $v_T * (#(-4.6790056996673468e-06) + $v_T * (#2.3541977748082654e-09 + #(-5.0279430045361343e-13) * $v_T))) - #(-6.3968760729999958e+03) / $v_T)]
    [Asn v_Kc 0 (#(-4.3242066860000001e+00) + #7.8622988999999999e-01 * $v_logT + $v_T * (#(-9.6343382500785129e-04) + $v_T * (#1.6809738864063421e-07 + $v_T * (#(-1.9853951522070637e-11) + #1.1220852250901322e-15 * $v_T))) - #(-6.4749278220000015e+03) / $v_T)];
  (*2419*) Do (Asn v_Kc 0 (#1.0000000000000000e+00 * (Exp $v_Kc)));
  (*2420*) Do (Asn v_rev_rxn_rates 200 (v_C.[0] * v_C.[31] * $v_kf / $v_Kc));
  (*2423*) Do (Asn v_kf 0 ((Exp (#1.1407564949312402e+01 + #1.5 * $v_logT - #(-2.3148099983521482e+02) / $v_T))));
  (*2424*) Do (Asn v_fwd_rxn_rates 202 (v_C.[32] * v_C.[4] * $v_kf));
  (*2425*) If ($v_T) (#1000.0)
    [Asn v_Kc 0 (#1.7495328000000008e+00 + #(-5.0446926999999997e-01) * $v_logT + $v_T * (#1.3914069500000001e-03 + $v_T * (#(-1.1155699166666667e-06) + $v_T * (#5.4052721750000006e-10 + #(-1.1359524650000000e-13) * $v_T))) - #(-1.3914088259999999e+04) / $v_T)]
    [Asn v_Kc 0 (#(-1.7961792000000010e-01) + #(-1.0994448000000023e-01) * $v_logT + $v_T * (#(-1.2448843799999973e-04) + $v_T * (#3.6424970666666685e-08 + $v_T * (#(-5.6480716999999996e-12) + #3.7475144999999996e-16 * $v_T))) - #(-1.3914063099999999e+04) / $v_T)];
  (*2431*) Do (Asn v_Kc 0 (#1.0000000000000000e+00 * (Exp $v_Kc)));
  (*2432*) Do (Asn v_rev_rxn_rates 201 (v_C.[31] * v_C.[5] * $v_kf / $v_Kc));
  (*2435*) Do (Asn v_kf 0 (#330000000.0));
  (*2436*) Do (Asn v_fwd_rxn_rates 203 (v_C.[34] * $v_kf));
  (*2437*) If ($v_T) (#1000.0)
    [Asn v_Kc 0 (#(-9.2823615299999940e-01) + #4.5398429999999967e-01 * $v_logT + $v_T * (#3.1289738003526663e-03 + $v_T * (#(-4.0037801669993201e-06) + $v_T * (#2.2806649168584014e-09 + #(-5.1959039504638663e-13) * $v_T))) - #(-4.3392130000000034e+03) / $v_T)]
    [Asn v_Kc 0 (#(-5.9654722400000004e-01) + #6.5988560999999990e-01 * $v_logT + $v_T * (#(-7.0176571154214869e-04) + $v_T * (#7.8864336026032444e-08 + $v_T * (#(-5.6212970612626955e-12) + #1.6692727490986789e-16 * $v_T))) - #(-4.0998348000000005e+03) / $v_T)];
  (*2443*) Do (Asn v_Kc 0 (#1.2186597134166982e+01 * (Exp $v_Kc)));
  (*2444*) Do (Asn v_rev_rxn_rates 202 (v_C.[1] * v_C.[52] * $v_kf / $v_Kc));
  (*2447*) Do (Asn v_kf 0 ((Exp (#2.5590800287401994e+01 - #0.11 * $v_logT - #2.5060334329986299e+03 / $v_T))));
  (*2448*) Do (Asn v_fwd_rxn_rates 204 (v_C.[34] * $v_kf));
  (*2449*) If ($v_T) (#1000.0)
    [Asn v_Kc 0 (#(-9.2823615299999940e-01) + #4.5398429999999967e-01 * $v_logT + $v_T * (#3.1289738003526663e-03 + $v_T * (#(-4.0037801669993201e-06) + $v_T * (#2.2806649168584014e-09 + #(-5.1959039504638663e-13) * $v_T))) - #(-4.3392130000000034e+03) / $v_T)]
    [Asn v_Kc 0 (#(-5.9654722400000004e-01) + #6.5988560999999990e-01 * $v_logT + $v_T * (#(-7.0176571154214869e-04) + $v_T * (#7.8864336026032444e-08 + $v_T * (#(-5.6212970612626955e-12) + #1.6692727490986789e-16 * $v_T))) - #(-4.0998348000000005e+03) / $v_T)];
  (*2455*) Do (Asn v_Kc 0 (#1.2186597134166982e+01 * (Exp $v_Kc)));
  (*2456*) Do (Asn v_rev_rxn_rates 203 (v_C.[1] * v_C.[52] * $v_kf / $v_Kc));
  (*2459*) Do (Asn v_kf 0 (#5000000000.0));
  (*2460*) Do (Asn v_fwd_rxn_rates 205 (v_C.[3] * v_C.[34] * $v_kf));
  (*2461*) If ($v_T) (#1000.0)
    [Asn v_Kc 0 (#1.5580917700000008e+00 + #(-5.2667405000000000e-01) * $v_logT + $v_T * (#2.2527806249999999e-03 + $v_T * (#(-2.1186156516666671e-06) + $v_T * (#1.0644070574999998e-09 + #(-2.1716425149999994e-13) * $v_T))) - #(-2.8454121300000003e+04) / $v_T)]
    [Asn v_Kc 0 (#(-5.2666499999999949e-02) + #(-1.0544133999999961e-01) * $v_logT + $v_T * (#(-3.2339940499999994e-04) + $v_T * (#9.9582419833333310e-08 + $v_T * (#(-1.3556645416666662e-11) + #7.1097354499999995e-16 * $v_T))) - #(-2.8373180267000000e+04) / $v_T)];
  (*2467*) Do (Asn v_Kc 0 (#1.0000000000000000e+00 * (Exp $v_Kc)));
  (*2468*) Do (Asn v_rev_rxn_rates 204 (v_C.[52] * v_C.[6] * $v_kf / $v_Kc));
  (*2471*) Do (Asn v_kf 0 (#25000000000.0));
  (*2472*) Do (Asn v_fwd_rxn_rates 206 (v_C.[2] * v_C.[34] * $v_kf));
  (*2473*) If ($v_T) (#1000.0)
    [Asn v_Kc 0 (#(-9.6116054799999961e-01) + #(-2.2226737000000041e-01) * $v_logT + $v_T * (#3.5679744599999997e-03 + $v_T * (#(-4.3413010916666667e-06) + $v_T * (#2.4679093258333334e-09 + #(-5.5701764549999998e-13) * $v_T))) - #(-5.5320051540000000e+04) / $v_T)]
    [Asn v_Kc 0 (#1.5190262699999999e+00 + #(-3.1664750999999969e-01) * $v_logT + $v_T * (#(-3.8456378515000023e-04) + $v_T * (#9.2957128183333311e-08 + $v_T * (#(-1.2115327974999999e-11) + #6.9257228449999995e-16 * $v_T))) - #(-5.4932416799999999e+04) / $v_T)];
  (*2479*) Do (Asn v_Kc 0 (#1.0000000000000000e+00 * (Exp $v_Kc)));
  (*2480*) Do (Asn v_rev_rxn_rates 205 (v_C.[52] * v_C.[4] * $v_kf / $v_Kc));
  (*2483*) Do (Asn v_kf 0 (#70000000000.0));
  (*2484*) Do (Asn v_fwd_rxn_rates 207 (v_C.[2] * v_C.[34] * $v_kf));
  (*2485*) If ($v_T) (#1000.0)
    [Asn v_Kc 0 (#(-1.0991252599999992e+00) + #1.9842499999999896e-01 * $v_logT + $v_T * (#1.9009210099999998e-03 + $v_T * (#(-2.8584248933333337e-06) + $v_T * (#1.7500032533333333e-09 + #(-4.1458666550000000e-13) * $v_T))) - #(-6.1889802000000018e+03) / $v_T)]
    [Asn v_Kc 0 (#3.1471140400000013e+00 + #(-2.9187678000000039e-01) * $v_logT + $v_T * (#(-1.4229339315000012e-04) + $v_T * (#2.4293765183333307e-08 + $v_T * (#(-8.8349917499999914e-13) + #(-3.3724890499999951e-17) * $v_T))) - #(-5.8264534999999996e+03) / $v_T)];
  (*2491*) Do (Asn v_Kc 0 (#1.0000000000000000e+00 * (Exp $v_Kc)));
  (*2492*) Do (Asn v_rev_rxn_rates 206 (v_C.[31] * v_C.[35] * $v_kf / $v_Kc));
  (*2495*) Do (Asn v_kf 0 (#50000000000.0));
  (*2496*) Do (Asn v_fwd_rxn_rates 208 (v_C.[1] * v_C.[34] * $v_kf));
  (*2497*) If ($v_T) (#1000.0)
    [Asn v_Kc 0 (#3.3038086710000005e+00 + #(-1.2016845800000002e+00) * $v_logT + $v_T * (#7.1192341746473334e-03 + $v_T * (#(-7.2501386663340136e-06) + $v_T * (#3.9604323664749323e-09 + #(-8.8839627545361345e-13) * $v_T))) - #(-5.6204467972999999e+04) / $v_T)]
    [Asn v_Kc 0 (#(-1.2454838859999997e+00) + #(-2.8352099999997549e-03) * $v_logT + $v_T * (#(-7.2646692500785140e-04) + $v_T * (#1.6210712697396750e-07 + $v_T * (#(-2.0585162438737304e-11) + #1.1682041050901321e-15 * $v_T))) - #(-5.5997313521999997e+04) / $v_T)];
  (*2503*) Do (Asn v_Kc 0 (#1.0000000000000000e+00 * (Exp $v_Kc)));
  (*2504*) Do (Asn v_rev_rxn_rates 207 (v_C.[0] * v_C.[52] * $v_kf / $v_Kc));
  (*2507*) Do (Asn v_kf 0 (#20000000000.0));
  (*2508*) Do (Asn v_fwd_rxn_rates 209 (v_C.[34] * v_C.[4] * $v_kf));
  (*2509*) If ($v_T) (#1000.0)
    [Asn v_Kc 0 (#1.0667148200000010e+00 + #(-8.3939056999999950e-01) * $v_logT + $v_T * (#3.3114155099999995e-03 + $v_T * (#(-3.6867028833333335e-06) + $v_T * (#2.1467618091666670e-09 + #(-4.9919722149999996e-13) * $v_T))) - #(-6.3721680160000004e+04) / $v_T)]
    [Asn v_Kc 0 (#2.8991048799999999e+00 + #(-8.9900957999999997e-01) * $v_logT + $v_T * (#1.1247846200000005e-04 + $v_T * (#3.0434708999999984e-08 + $v_T * (#(-6.3792826166666660e-12) + #4.2087033000000001e-16 * $v_T))) - #(-6.3436448799999998e+04) / $v_T)];
  (*2515*) Do (Asn v_Kc 0 (#1.0000000000000000e+00 * (Exp $v_Kc)));
  (*2516*) Do (Asn v_rev_rxn_rates 208 (v_C.[5] * v_C.[52] * $v_kf / $v_Kc));
  (*2519*) Do (Asn v_kf 0 (#25000000000.0));
  (*2520*) Do (Asn v_fwd_rxn_rates 210 (v_C.[12] * v_C.[34] * $v_kf));
  (*2521*) If ($v_T) (#1000.0)
    [Asn v_Kc 0 (#(-5.7037071199999989e+00) + #4.3027002999999997e-01 * $v_logT + $v_T * (#(-4.7119914749999998e-03) + $v_T * (#3.2378600566666669e-06 + $v_T * (#(-1.1862624458333336e-09) + #1.8668651799999997e-13 * $v_T))) - #(-5.6504519300000000e+04) / $v_T)]
    [Asn v_Kc 0 (#1.4518248135000002e+01 + #(-3.0509806250000002e+00) * $v_logT + $v_T * (#2.3737574650000001e-03 + $v_T * (#(-3.7875476833333320e-07) + $v_T * (#4.6648762166666668e-11 + #(-2.5880622800000005e-15) * $v_T))) - #(-5.5817423589999999e+04) / $v_T)];
  (*2527*) Do (Asn v_Kc 0 (#1.0000000000000000e+00 * (Exp $v_Kc)));
  (*2528*) Do (Asn v_rev_rxn_rates 209 (v_C.[52] * v_C.[13] * $v_kf / $v_Kc));
  (*2531*) Do (Asn v_kf 0 ((Exp (#3.1433229255349488e+01 - #1.32 * $v_logT - #3.7238247799578033e+02 / $v_T))));
  (*2532*) Do (Asn v_fwd_rxn_rates 211 (v_C.[1] * v_C.[35] * $v_kf));
  (*2533*) If ($v_T) (#1000.0)
    [Asn v_Kc 0 (#2.1006628530000002e+00 + #(-1.1849847000000002e+00) * $v_logT + $v_T * (#(-5.1532055035266588e-04) + $v_T * (#1.2386975003326531e-06 + $v_T * (#(-6.5007988352506800e-10) + #1.3709401504638663e-13 * $v_T))) - #(-2.3769985900000000e+04) / $v_T)]
    [Asn v_Kc 0 (#5.4651077239999992e+00 + #(-1.7813547100000000e+00) * $v_logT + $v_T * (#1.1516508115421487e-03 + $v_T * (#(-5.9387886026032471e-08) + $v_T * (#(-9.9817252207063742e-13) + #1.9201251209013214e-16 * $v_T))) - #(-2.3644052499999998e+04) / $v_T)];
  (*2539*) Do (Asn v_Kc 0 (#8.2057360967184814e-02 * (Exp $v_Kc)));
  (*2540*) Do (Asn v_rev_rxn_rates 210 (v_C.[38] * $v_kf / $v_Kc));
  (*2543*) Do (Asn v_kf 0 (#25000000000.0));
  (*2544*) Do (Asn v_fwd_rxn_rates 212 (v_C.[38] * v_C.[2] * $v_kf));
  (*2545*) If ($v_T) (#1000.0)
    [Asn v_Kc 0 (#(-2.1335872480000009e+00) + #5.0873302999999970e-01 * $v_logT + $v_T * (#9.5432120999999932e-04 + $v_T * (#(-1.5762184249999999e-06) + $v_T * (#8.3732429249999990e-10 + #(-1.7452126549999997e-13) * $v_T))) - #(-2.7210852640000001e+04) / $v_T)]
    [Asn v_Kc 0 (#(-3.3495342299999993e+00) + #8.0482158999999953e-01 * $v_logT + $v_T * (#(-8.3444888515000007e-04) + $v_T * (#7.3480678183333338e-08 + $v_T * (#(-5.4958583916666665e-12) + #3.3363249750000000e-16 * $v_T))) - #(-2.7188529499999997e+04) / $v_T)];
  (*2551*) Do (Asn v_Kc 0 (#1.0000000000000000e+00 * (Exp $v_Kc)));
  (*2552*) Do (Asn v_rev_rxn_rates 211 (v_C.[35] * v_C.[4] * $v_kf / $v_Kc));
  (*2555*) Do (Asn v_kf 0 ((Exp (#2.0617905321288585e+01 + #0.72 * $v_logT - #3.3212491280704734e+02 / $v_T))));
  (*2556*) Do (Asn v_fwd_rxn_rates 213 (v_C.[1] * v_C.[38] * $v_kf));
  (*2557*) If ($v_T) (#1000.0)
    [Asn v_Kc 0 (#2.1313819709999997e+00 + #(-4.7068417999999923e-01) * $v_logT + $v_T * (#4.5055809246473330e-03 + $v_T * (#(-4.4850559996673466e-06) + $v_T * (#2.3298473331415985e-09 + #(-5.0589989545361344e-13) * $v_T))) - #(-2.8095269072999996e+04) / $v_T)]
    [Asn v_Kc 0 (#(-6.1140443859999998e+00) + #1.1186338899999995e+00 * $v_logT + $v_T * (#(-1.1763520250078516e-03) + $v_T * (#1.4263067697396752e-07 + $v_T * (#(-1.3965692855403972e-11) + #8.0926431809013212e-16 * $v_T))) - #(-2.8253426222000002e+04) / $v_T)];
  (*2563*) Do (Asn v_Kc 0 (#1.0000000000000000e+00 * (Exp $v_Kc)));
  (*2564*) Do (Asn v_rev_rxn_rates 212 (v_C.[0] * v_C.[35] * $v_kf / $v_Kc));
  (*2567*) Do (Asn v_kf 0 ((Exp (#9.4727046364436731e+00 + #1.9 * $v_logT - #(-4.7805858661620448e+02) / $v_T))));
  (*2568*) Do (Asn v_fwd_rxn_rates 214 (v_C.[38] * v_C.[4] * $v_kf));
  (*2569*) If ($v_T) (#1000.0)
    [Asn v_Kc 0 (#(-1.0571187999999943e-01) + #(-1.0839016999999940e-01) * $v_logT + $v_T * (#6.9776225999999939e-04 + $v_T * (#(-9.2162021666666634e-07) + $v_T * (#5.1617677583333336e-10 + #(-1.1670084150000000e-13) * $v_T))) - #(-3.5612481260000000e+04) / $v_T)]
    [Asn v_Kc 0 (#(-1.9694556200000002e+00) + #2.2245952000000013e-01 * $v_logT + $v_T * (#(-3.3740663799999989e-04) + $v_T * (#1.0958259000000014e-08 + $v_T * (#2.4018696666666694e-13 + #6.1930543000000063e-17 * $v_T))) - #(-3.5692561500000003e+04) / $v_T)];
  (*2575*) Do (Asn v_Kc 0 (#1.0000000000000000e+00 * (Exp $v_Kc)));
  (*2576*) Do (Asn v_rev_rxn_rates 213 (v_C.[5] * v_C.[35] * $v_kf / $v_Kc));
  (*2579*) Do (Asn v_kf 0 ((Exp (#2.3025850929940457e+01 - #6.5418543431691141e+03 / $v_T))));
  (*2580*) Do (Asn v_fwd_rxn_rates 215 (v_C.[3] * v_C.[38] * $v_kf));
  (*2581*) If ($v_T) (#1000.0)
    [Asn v_Kc 0 (#3.8566506999999994e-01 + #2.0432635000000010e-01 * $v_logT + $v_T * (#(-3.6087262499999960e-04) + $v_T * (#6.4646701500000039e-07 + $v_T * (#(-5.6617797583333357e-10) + #1.6533212850000012e-13 * $v_T))) - #(-3.4492240000000129e+02) / $v_T)]
    [Asn v_Kc 0 (#(-4.9212270000000000e+00) + #1.0160277600000005e+00 * $v_logT + $v_T * (#(-7.7328450499999999e-04) + $v_T * (#8.0105969833333337e-08 + $v_T * (#(-6.9371758333333290e-12) + #3.5203375799999995e-16 * $v_T))) - #(-6.2929296700000123e+02) / $v_T)];
  (*2587*) Do (Asn v_Kc 0 (#1.0000000000000000e+00 * (Exp $v_Kc)));
  (*2588*) Do (Asn v_rev_rxn_rates 214 (v_C.[6] * v_C.[35] * $v_kf / $v_Kc));
  (*2591*) Do (Asn v_kf 0 (#77000000000.0));
  (*2592*) Do (Asn v_fwd_rxn_rates 216 (v_C.[39] * v_C.[2] * $v_kf));
  (*2593*) If ($v_T) (#1000.0)
    [Asn v_Kc 0 (#2.3715537499999999e+00 + #(-7.0166873000000063e-01) * $v_logT + $v_T * (#1.8122392150000000e-03 + $v_T * (#(-1.2950912216666667e-06) + $v_T * (#6.1251961283333326e-10 + #(-1.2763903245000001e-13) * $v_T))) - #(-3.9070048199999990e+04) / $v_T)]
    [Asn v_Kc 0 (#6.0814713499999993e+00 + #(-1.1842727700000002e+00) * $v_logT + $v_T * (#1.1399707093500001e-03 + $v_T * (#(-2.4280962665000002e-07) + $v_T * (#2.8245736574999998e-11 + #(-1.4021312005000001e-15) * $v_T))) - #(-3.8771866500000004e+04) / $v_T)];
  (*2599*) Do (Asn v_Kc 0 (#1.0000000000000000e+00 * (Exp $v_Kc)));
  (*2600*) Do (Asn v_rev_rxn_rates 215 (v_C.[14] * v_C.[30] * $v_kf / $v_Kc));
  (*2603*) Do (Asn v_kf 0 (#40000000000.0));
  (*2604*) Do (Asn v_fwd_rxn_rates 217 (v_C.[39] * v_C.[4] * $v_kf));
  (*2605*) If ($v_T) (#1000.0)
    [Asn v_Kc 0 (#7.5052274350000001e+00 + #(-2.2780197300000000e+00) * $v_logT + $v_T * (#6.0809997953526667e-03 + $v_T * (#(-2.5248082519993201e-06) + $v_T * (#7.4983274685840126e-10 + #(-1.1155853204638662e-13) * $v_T))) - #(-1.5167283659999999e+04) / $v_T)]
    [Asn v_Kc 0 (#(-1.1067721453999999e+01) + #8.1331633999999964e-01 * $v_logT + $v_T * (#8.5664779295785128e-04 + $v_T * (#(-2.1731609697396752e-07) + $v_T * (#2.5374078072070638e-11 + #(-1.2626227000901322e-15) * $v_T))) - #(-1.5917062100000003e+04) / $v_T)];
  (*2611*) Do (Asn v_Kc 0 (#1.0000000000000000e+00 * (Exp $v_Kc)));
  (*2612*) Do (Asn v_rev_rxn_rates 216 (v_C.[1] * v_C.[46] * $v_kf / $v_Kc));
  (*2615*) Do (Asn v_kf 0 ((Exp (#2.2802707378626248e+01 - #3.7540179538493535e+03 / $v_T))));
  (*2616*) Do (Asn v_fwd_rxn_rates 218 (v_C.[5] * v_C.[39] * $v_kf));
  (*2617*) If ($v_T) (#1000.0)
    [Asn v_Kc 0 (#7.2416207799999999e+00 + #(-1.5605716300000005e+00) * $v_logT + $v_T * (#5.3208999249999998e-03 + $v_T * (#(-2.8997540666666668e-06) + $v_T * (#1.0011957933333334e-09 + #(-1.4762313550000001e-13) * $v_T))) - #(-3.0868997399999935e+03) / $v_T)]
    [Asn v_Kc 0 (#(-1.8165278799999998e+00) + #1.1515388000000026e-01 * $v_logT + $v_T * (#7.3724185049999988e-04 + $v_T * (#(-1.7828343233333334e-07) + $v_T * (#2.0328767283333333e-11 + #(-9.6460179500000001e-16) * $v_T))) - #(-3.2659418999999980e+03) / $v_T)];
  (*2623*) Do (Asn v_Kc 0 (#1.0000000000000000e+00 * (Exp $v_Kc)));
  (*2624*) Do (Asn v_rev_rxn_rates 217 (v_C.[40] * v_C.[4] * $v_kf / $v_Kc));
  (*2627*) Do (Asn v_kf 0 ((Exp (#2.2538090579105461e+01 - #(-2.2141660853803157e+02) / $v_T))));
  (*2628*) Do (Asn v_fwd_rxn_rates 219 (v_C.[39] * v_C.[3] * $v_kf));
  (*2629*) If ($v_T) (#1000.0)
    [Asn v_Kc 0 (#5.3644163899999997e+00 + #(-1.4001935599999999e+00) * $v_logT + $v_T * (#4.7390486950000003e-03 + $v_T * (#(-2.2891915249999997e-06) + $v_T * (#7.2250737333333334e-10 + #(-9.9906230000000010e-14) * $v_T))) - #(-6.8396602399999974e+03) / $v_T)]
    [Asn v_Kc 0 (#(-6.6930056899999997e+00) + #6.9308694000000060e-01 * $v_logT + $v_T * (#3.4633183565000011e-04 + $v_T * (#(-6.2912707016666668e-08) + $v_T * (#(-2.4546240833333437e-13) + #4.6944497049999995e-16 * $v_T))) - #(-7.2260281800000066e+03) / $v_T)];
  (*2635*) Do (Asn v_Kc 0 (#1.0000000000000000e+00 * (Exp $v_Kc)));
  (*2636*) Do (Asn v_rev_rxn_rates 218 (v_C.[2] * v_C.[46] * $v_kf / $v_Kc));
  (*2639*) Do (Asn v_kf 0 ((Exp (#5.6869753563398202e+00 + #2.45 * $v_logT - #1.1272118252845244e+03 / $v_T))));
  (*2640*) Do (Asn v_fwd_rxn_rates 220 (v_C.[0] * v_C.[39] * $v_kf));
  (*2641*) If ($v_T) (#1000.0)
    [Asn v_Kc 0 (#5.0045269289999998e+00 + #(-1.1982776200000003e+00) * $v_logT + $v_T * (#1.5130812603526670e-03 + $v_T * (#6.6368171633401331e-07 + $v_T * (#(-8.1247476397493195e-10) + #2.4157591845361340e-13 * $v_T))) - #(-1.0604111926999998e+04) / $v_T)]
    [Asn v_Kc 0 (#2.3280608859999998e+00 + #(-7.8102048999999996e-01) * $v_logT + $v_T * (#1.5761872375078514e-03 + $v_T * (#(-3.0995585030730089e-07) + $v_T * (#3.4534647105403977e-11 + #(-1.7119355700901321e-15) * $v_T))) - #(-1.0705077178000000e+04) / $v_T)];
  (*2647*) Do (Asn v_Kc 0 (#1.0000000000000000e+00 * (Exp $v_Kc)));
  (*2648*) Do (Asn v_rev_rxn_rates 219 (v_C.[1] * v_C.[40] * $v_kf / $v_Kc));
  (*2651*) Do (Asn v_kf 0 (#23500000000.0));
  (*2652*) Do (Asn v_fwd_rxn_rates 221 (v_C.[2] * v_C.[46] * $v_kf));
  (*2653*) If ($v_T) (#1000.0)
    [Asn v_Kc 0 (#(-7.6159542499999997e+00) + #1.8028118700000002e+00 * $v_logT + $v_T * (#(-5.3875898200000001e-03) + $v_T * (#2.3002309616666666e-06 + $v_T * (#(-5.9189663966666660e-10) + #5.5892614550000019e-14 * $v_T))) - #(-4.8304199200000003e+04) / $v_T)]
    [Asn v_Kc 0 (#1.3693731850000001e+01 + #(-1.7458140700000002e+00) * $v_logT + $v_T * (#5.1721487185000018e-04 + $v_T * (#(-9.8268863316666706e-08) + $v_T * (#1.3469789741666665e-11 + #(-8.2644594050000015e-16) * $v_T))) - #(-4.7452599900000001e+04) / $v_T)];
  (*2659*) Do (Asn v_Kc 0 (#1.0000000000000000e+00 * (Exp $v_Kc)));
  (*2660*) Do (Asn v_rev_rxn_rates 220 (v_C.[14] * v_C.[35] * $v_kf / $v_Kc));
  (*2663*) Do (Asn v_kf 0 (#54000000000.0));
  (*2664*) Do (Asn v_fwd_rxn_rates 222 (v_C.[1] * v_C.[46] * $v_kf));
  (*2665*) If ($v_T) (#1000.0)
    [Asn v_Kc 0 (#(-5.4925558370000003e+00) + #1.7455111699999999e+00 * $v_logT + $v_T * (#(-4.5518652503526670e-03) + $v_T * (#1.3190632219993200e-06 + $v_T * (#(-1.1775385985840132e-10) + #(-3.0438084903613382e-14) * $v_T))) - #(-1.2619593899999998e+04) / $v_T)]
    [Asn v_Kc 0 (#1.8703722634000002e+01 + #(-2.1533061000000000e+00) * $v_logT + $v_T * (#5.4359717654214900e-04 + $v_T * (#(-9.0545787859365817e-08) + $v_T * (#1.3375877811262696e-11 + #(-8.3857097490986806e-16) * $v_T))) - #(-1.1508807300000000e+04) / $v_T)];
  (*2671*) Do (Asn v_Kc 0 (#1.0000000000000000e+00 * (Exp $v_Kc)));
  (*2672*) Do (Asn v_rev_rxn_rates 221 (v_C.[31] * v_C.[14] * $v_kf / $v_Kc));
  (*2675*) Do (Asn v_kf 0 (#2500000000.0));
  (*2676*) Do (Asn v_fwd_rxn_rates 223 (v_C.[46] * v_C.[4] * $v_kf));
  (*2677*) If ($v_T) (#1000.0)
    [Asn v_Kc 0 (#(-7.5830298550000004e+00) + #2.4790635399999990e+00 * $v_logT + $v_T * (#(-5.8265904796473344e-03) + $v_T * (#2.6377518863340136e-06 + $v_T * (#(-7.7914104864159860e-10) + #9.3319865003613392e-14 * $v_T))) - #2.6766393399999984e+03 / $v_T)]
    [Asn v_Kc 0 (#1.1578158355999999e+01 + #(-7.6928095000000019e-01) * $v_logT + $v_T * (#2.0001294545785150e-04 + $v_T * (#(-1.1236165547396755e-07) + $v_T * (#1.9963820655403973e-11 + #(-1.3520909500901322e-15) * $v_T))) - #3.3799821000000002e+03 / $v_T)];
  (*2683*) Do (Asn v_Kc 0 (#1.2186597134166982e+01 * (Exp $v_Kc)));
  (*2684*) Do (Asn v_rev_rxn_rates 222 (v_C.[1] * v_C.[14] * v_C.[35] * $v_kf / $v_Kc));
  (*2687*) Do (Asn v_kf 0 (#20000000000.0));
  (*2688*) Do (Asn v_fwd_rxn_rates 224 (v_C.[30] * v_C.[46] * $v_kf));
  (*2689*) If ($v_T) (#1000.0)
    [Asn v_Kc 0 (#(-7.8368716899999997e+00) + #1.5512796700000000e+00 * $v_logT + $v_T * (#(-4.0036410400000003e-03) + $v_T * (#9.0670095500000012e-07 + $v_T * (#1.4556870700000011e-10 + #(-1.0089594994999997e-13) * $v_T))) - #(-8.6152099900000001e+04) / $v_T)]
    [Asn v_Kc 0 (#1.3620173909999998e+01 + #(-1.9263017900000001e+00) * $v_logT + $v_T * (#5.3521874000000014e-04 + $v_T * (#(-9.4657758499999997e-08) + $v_T * (#1.2742180249999999e-11 + #(-7.9921123999999980e-16) * $v_T))) - #(-8.5212566099999996e+04) / $v_T)];
  (*2695*) Do (Asn v_Kc 0 (#1.0000000000000000e+00 * (Exp $v_Kc)));
  (*2696*) Do (Asn v_rev_rxn_rates 223 (v_C.[52] * v_C.[14] * $v_kf / $v_Kc));
  (*2699*) Do (Asn v_kf 0 ((Exp (#2.1416413017506358e+01 - #1.0064391297183252e+04 / $v_T))));
  (*2700*) Do (Asn v_fwd_rxn_rates 225 (v_C.[3] * v_C.[46] * $v_kf));
  (*2701*) If ($v_T) (#1000.0)
    [Asn v_Kc 0 (#(-9.9210436999999985e-01) + #(-3.4137340000000016e-02) * $v_logT + $v_T * (#(-7.3140693500000058e-04) + $v_T * (#4.0946178333333354e-07 + $v_T * (#(-1.6644554083333330e-10) + #3.7375429100000019e-14 * $v_T))) - #(-5.2145880140000001e+04) / $v_T)]
    [Asn v_Kc 0 (#7.0486319200000001e+00 + #(-1.3166564499999991e+00) * $v_logT + $v_T * (#9.0860545999999994e-04 + $v_T * (#(-1.6761438683333339e-07) + $v_T * (#1.9632193500000010e-11 + #(-1.0236223650000002e-15) * $v_T))) - #(-5.1753856679999997e+04) / $v_T)];
  (*2707*) Do (Asn v_Kc 0 (#1.0000000000000000e+00 * (Exp $v_Kc)));
  (*2708*) Do (Asn v_rev_rxn_rates 224 (v_C.[15] * v_C.[35] * $v_kf / $v_Kc));
  (*2711*) Do (Asn v_kf 0 ((Exp (#2.6459838134425603e+01 - #2.7199017480637740e+04 / $v_T))));
  (*2712*) Do (Asn v_fwd_rxn_rates 226 (v_C.[46] * $v_kf));
  (*2713*) If ($v_T) (#1000.0)
    [Asn v_Kc 0 (#(-5.1007492900000004e+00) + #2.2526026699999995e+00 * $v_logT + $v_T * (#(-4.7077612400000003e-03) + $v_T * (#1.5672379550000001e-06 + $v_T * (#(-3.2455754299999995e-10) + #2.1346750050000008e-14 * $v_T))) - #2.7078074000000008e+04 / $v_T)]
    [Asn v_Kc 0 (#1.5033619309999999e+01 + #(-1.0210559899999998e+00) * $v_logT + $v_T * (#(-3.3879009999999857e-05) + $v_T * (#(-3.9586321833333348e-08) + $v_T * (#9.3656894166666670e-12 + #(-6.6515351000000013e-16) * $v_T))) - #2.7977777600000001e+04 / $v_T)];
  (*2719*) Do (Asn v_Kc 0 (#1.2186597134166982e+01 * (Exp $v_Kc)));
  (*2720*) Do (Asn v_rev_rxn_rates 225 (v_C.[14] * v_C.[30] * $v_kf / $v_Kc));
  (*2723*) Do (Asn v_kf 0 ((Exp (#3.2878045188089033e+01 - #1.52 * $v_logT - #3.7238247799578033e+02 / $v_T))));
  (*2724*) Do (Asn v_fwd_rxn_rates 227 (v_C.[46] * v_C.[35] * $v_kf));
  (*2725*) If ($v_T) (#1000.0)
    [Asn v_Kc 0 (#3.6438137100000003e+00 + #(-1.2087234300000000e+00) * $v_logT + $v_T * (#3.2640907599999999e-03 + $v_T * (#(-2.5514855449999996e-06) + $v_T * (#1.2602854570000002e-09 + #(-2.6536800994999995e-13) * $v_T))) - #(-3.0129411599999999e+04) / $v_T)]
    [Asn v_Kc 0 (#2.6664619099999989e+00 + #(-8.7453159000000014e-01) * $v_logT + $v_T * (#5.9663606500000006e-04 + $v_T * (#(-1.0797208350000001e-07) + $v_T * (#1.4392623250000002e-11 + #(-8.5042962000000006e-16) * $v_T))) - #(-3.0003565199999997e+04) / $v_T)];
  (*2731*) Do (Asn v_Kc 0 (#1.0000000000000000e+00 * (Exp $v_Kc)));
  (*2732*) Do (Asn v_rev_rxn_rates 226 (v_C.[14] * v_C.[37] * $v_kf / $v_Kc));
  (*2735*) Do (Asn v_kf 0 ((Exp (#3.5873777461643023e+01 - #2.0 * $v_logT - #4.0257565188733008e+02 / $v_T))));
  (*2736*) Do (Asn v_fwd_rxn_rates 228 (v_C.[46] * v_C.[35] * $v_kf));
  (*2737*) If ($v_T) (#1000.0)
    [Asn v_Kc 0 (#3.4100697999999992e+00 + #(-1.3899565799999998e+00) * $v_logT + $v_T * (#3.1133221850000001e-03 + $v_T * (#(-2.2901988816666668e-06) + $v_T * (#1.0529286850000000e-09 + #(-2.0303855239999998e-13) * $v_T))) - #(-7.3919969599999997e+04) / $v_T)]
    [Asn v_Kc 0 (#6.0558191699999977e+00 + #(-1.6286898100000000e+00) * $v_logT + $v_T * (#1.2030333300000000e-03 + $v_T * (#(-2.4563133833333340e-07) + $v_T * (#3.3925993250000005e-11 + #(-2.0415178950000001e-15) * $v_T))) - #(-7.3607061300000001e+04) / $v_T)];
  (*2743*) Do (Asn v_Kc 0 (#1.0000000000000000e+00 * (Exp $v_Kc)));
  (*2744*) Do (Asn v_rev_rxn_rates 227 (v_C.[52] * v_C.[15] * $v_kf / $v_Kc));
  (*2747*) Do (Asn v_kf 0 ((Exp (#5.9906433130998472e+01 - #3.3 * $v_logT - #6.3707596911169989e+04 / $v_T))));
  (*2748*) Do (Asn v_fwd_rxn_rates 229 (v_C.[40] * $v_kf));
  (*2749*) If ($v_T) (#1000.0)
    [Asn v_Kc 0 (#(-9.2365717529999998e+00) + #2.8539464999999997e+00 * $v_logT + $v_T * (#(-5.5033416346473331e-03) + $v_T * (#2.5826767830006802e-06 + $v_T * (#(-8.6729268564159869e-10) + #1.2722996195361339e-13 * $v_T))) - #6.2469366899999994e+04 / $v_T)]
    [Asn v_Kc 0 (#(-1.6791242240000002e+00) + #1.4437413100000001e+00 * $v_logT + $v_T * (#(-1.5514860240421486e-03) + $v_T * (#2.2671305935936580e-07 + $v_T * (#(-1.9570781727929365e-11) + #7.1065873990986783e-16 * $v_T))) - #6.2602555899999992e+04 / $v_T)];
  (*2755*) Do (Asn v_Kc 0 (#1.2186597134166982e+01 * (Exp $v_Kc)));
  (*2756*) Do (Asn v_rev_rxn_rates 228 (v_C.[1] * v_C.[39] * $v_kf / $v_Kc));
  (*2759*) Do (Asn v_kf 0 ((Exp (#3.0106208860477417e+00 + #2.64 * $v_logT - #2.5060334329986299e+03 / $v_T))));
  (*2760*) Do (Asn v_fwd_rxn_rates 230 (v_C.[40] * v_C.[2] * $v_kf));
  (*2761*) If ($v_T) (#1000.0)
    [Asn v_Kc 0 (#(-1.7642687129999999e+00) + #(-1.0032489999999994e-01) * $v_logT + $v_T * (#1.0166588203526670e-03 + $v_T * (#(-2.7965239366598669e-07) + $v_T * (#6.9784470191734520e-11 + #(-2.1755820546386616e-14) * $v_T))) - #(-3.6787553000000044e+03) / $v_T)]
    [Asn v_Kc 0 (#(-1.0631272183999998e+01) + #1.2805245299999997e+00 * $v_logT + $v_T * (#(-3.7763630469214883e-04) + $v_T * (#2.3489754542699136e-08 + $v_T * (#(-6.9073456959603061e-13) + #(-2.6318950590132181e-17) * $v_T))) - #(-4.1470882000000020e+03) / $v_T)];
  (*2767*) Do (Asn v_Kc 0 (#1.0000000000000000e+00 * (Exp $v_Kc)));
  (*2768*) Do (Asn v_rev_rxn_rates 229 (v_C.[1] * v_C.[46] * $v_kf / $v_Kc));
  (*2771*) Do (Asn v_kf 0 ((Exp (#1.6233408176030919e+00 + #2.64 * $v_logT - #2.5060334329986299e+03 / $v_T))));
  (*2772*) Do (Asn v_fwd_rxn_rates 231 (v_C.[40] * v_C.[2] * $v_kf));
  (*2773*) If ($v_T) (#1000.0)
    [Asn v_Kc 0 (#(-7.2568245499999993e+00) + #1.6451862700000000e+00 * $v_logT + $v_T * (#(-3.5352064300000000e-03) + $v_T * (#1.0394108283333336e-06 + $v_T * (#(-4.7969389666666751e-11) + #(-5.2193905449999999e-14) * $v_T))) - #(-1.6298349199999999e+04) / $v_T)]
    [Asn v_Kc 0 (#8.0724504499999998e+00 + #(-8.7278157000000034e-01) * $v_logT + $v_T * (#1.6596087185000017e-04 + $v_T * (#(-6.7056033316666684e-08) + $v_T * (#1.2685143241666666e-11 + #(-8.6488992550000011e-16) * $v_T))) - #(-1.5655895500000001e+04) / $v_T)];
  (*2779*) Do (Asn v_Kc 0 (#1.0000000000000000e+00 * (Exp $v_Kc)));
  (*2780*) Do (Asn v_rev_rxn_rates 230 (v_C.[31] * v_C.[14] * $v_kf / $v_Kc));
  (*2783*) Do (Asn v_kf 0 ((Exp (#1.5179047931961549e+01 + #1.58 * $v_logT - #1.3385640425253727e+04 / $v_T))));
  (*2784*) Do (Asn v_fwd_rxn_rates 232 (v_C.[40] * v_C.[2] * $v_kf));
  (*2785*) If ($v_T) (#1000.0)
    [Asn v_Kc 0 (#(-9.2694961480000000e+00) + #2.1776948299999996e+00 * $v_logT + $v_T * (#(-5.0643409749999996e-03) + $v_T * (#2.2451558583333336e-06 + $v_T * (#(-6.8004827666666669e-10) + #8.9802711500000013e-14 * $v_T))) - #1.1488528359999997e+04 / $v_T)]
    [Asn v_Kc 0 (#4.3644927000000022e-01 + #4.6720818999999958e-01 * $v_logT + $v_T * (#(-1.2342840976500001e-03) + $v_T * (#2.4080585151666668e-07 + $v_T * (#(-2.6064812641666668e-11) + #1.2363037494999999e-15 * $v_T))) - #1.1769973900000001e+04 / $v_T)];
  (*2791*) Do (Asn v_Kc 0 (#1.0000000000000000e+00 * (Exp $v_Kc)));
  (*2792*) Do (Asn v_rev_rxn_rates 231 (v_C.[39] * v_C.[4] * $v_kf / $v_Kc));
  (*2795*) Do (Asn v_kf 0 ((Exp (#7.0030654587864616e+00 + #2.03 * $v_logT - #6.7280455821670048e+03 / $v_T))));
  (*2796*) Do (Asn v_fwd_rxn_rates 233 (v_C.[40] * v_C.[4] * $v_kf));
  (*2797*) If ($v_T) (#1368.0)
    [Asn v_Kc 0 (#1.8468721000000001e+00 + #2.7860495200000002e+00 * $v_logT + $v_T * (#3.4433396099999999e-03 + $v_T * (#(-5.3581310666666662e-07) + $v_T * (#4.3099647250000000e-11 + #5.9680394000000003e-16 * $v_T))) - #(-2.8269839999999999e+03) / $v_T)]
    [Asn v_Kc 0 (#(-1.2079527100000000e+01) + #4.8978488499999999e+00 * $v_logT + $v_T * (#1.5839469650000000e-03 + $v_T * (#(-1.8633510666666667e-07) + $v_T * (#1.4770262000000000e-11 + #(-5.2169588499999993e-16) * $v_T))) - #(-3.7065333099999998e+03) / $v_T)];
  (*2803*) If ($v_T) (#1000.0)
    [AddA v_Kc 0 (#(-5.5081952650000003e+00) + #(-2.7510040299999998e+00) * $v_logT + $v_T * (#(-3.8249262396473334e-03) + $v_T * (#1.4556374313340135e-06 + $v_T * (#(-5.1760130564159879e-10) + #8.2239404953613387e-14 * $v_T))) - #7.1459463399999986e+03 / $v_T)]
    [AddA v_Kc 0 (#(-2.1037122539999999e+00) + #(-3.3951268600000000e+00) * $v_logT + $v_T * (#(-1.8474262695421487e-03) + $v_T * (#1.5611888135936581e-07 + $v_T * (#(-6.5209515945960296e-12) + #(-9.7074005090132177e-17) * $v_T))) - #7.2077108999999991e+03 / $v_T)];
  (*2809*) Do (Asn v_Kc 0 (#1.0000000000000000e+00 * (Exp $v_Kc)));
  (*2810*) Do (Asn v_rev_rxn_rates 232 (v_C.[44] * v_C.[1] * $v_kf / $v_Kc));
  (*2813*) Do (Asn v_kf 0 ((Exp (#1.4816045409242156e+00 + #2.26 * $v_logT - #3.2206052150986407e+03 / $v_T))));
  (*2814*) Do (Asn v_fwd_rxn_rates 234 (v_C.[40] * v_C.[4] * $v_kf));
  (*2815*) If ($v_T) (#1000.0)
    [Asn v_Kc 0 (#(-5.5081952650000003e+00) + #(-2.7510040299999998e+00) * $v_logT + $v_T * (#(-3.8249262396473334e-03) + $v_T * (#1.4556374313340135e-06 + $v_T * (#(-5.1760130564159879e-10) + #8.2239404953613387e-14 * $v_T))) - #7.1459463399999986e+03 / $v_T)]
    [Asn v_Kc 0 (#(-2.1037122539999999e+00) + #(-3.3951268600000000e+00) * $v_logT + $v_T * (#(-1.8474262695421487e-03) + $v_T * (#1.5611888135936581e-07 + $v_T * (#(-6.5209515945960296e-12) + #(-9.7074005090132177e-17) * $v_T))) - #7.2077108999999991e+03 / $v_T)];
  (*2821*) If ($v_T) (#1478.0)
    [AddA v_Kc 0 (#2.5636141000000001e+00 + #2.6309631699999998e+00 * $v_logT + $v_T * (#3.6514117850000001e-03 + $v_T * (#(-3.8008333833333334e-07) + $v_T * (#(-5.5105941500000004e-11) + #1.8111787599999998e-14 * $v_T))) - #(-1.5587363600000001e+04) / $v_T)]
    [AddA v_Kc 0 (#(-1.4606198750000001e+01) + #5.2239513400000002e+00 * $v_logT + $v_T * (#1.5893200200000001e-03 + $v_T * (#(-1.8229792500000000e-07) + $v_T * (#1.4227930250000000e-11 + #(-4.9751097749999999e-16) * $v_T))) - #(-1.6659934399999998e+04) / $v_T)];
  (*2827*) Do (Asn v_Kc 0 (#1.0000000000000000e+00 * (Exp $v_Kc)));
  (*2828*) Do (Asn v_rev_rxn_rates 233 (v_C.[45] * v_C.[1] * $v_kf / $v_Kc));
  (*2831*) Do (Asn v_kf 0 ((Exp (#(-1.8325814637483102e+00) + #2.56 * $v_logT - #4.5289760837324638e+03 / $v_T))));
  (*2832*) Do (Asn v_fwd_rxn_rates 235 (v_C.[40] * v_C.[4] * $v_kf));
  (*2833*) If ($v_T) (#1000.0)
    [Asn v_Kc 0 (#(-6.9784819819999990e+00) + #1.5325323399999999e+00 * $v_logT + $v_T * (#(-5.1831723300000002e-03) + $v_T * (#2.8095789533333332e-06 + $v_T * (#(-9.0964412383333334e-10) + #1.1922176505000000e-13 * $v_T))) - #(-1.0785889560000000e+04) / $v_T)]
    [Asn v_Kc 0 (#9.6321469799999999e+00 + #(-1.3451991599999999e+00) * $v_logT + $v_T * (#7.8749155700000024e-04 + $v_T * (#(-1.6600342316666668e-07) + $v_T * (#2.4069260299999997e-11 + #(-1.5113433300000002e-15) * $v_T))) - #(-1.0245864400000002e+04) / $v_T)];
  (*2839*) Do (Asn v_Kc 0 (#1.0000000000000000e+00 * (Exp $v_Kc)));
  (*2840*) Do (Asn v_rev_rxn_rates 234 (v_C.[14] * v_C.[32] * $v_kf / $v_Kc));
  (*2843*) Do (Asn v_kf 0 (#33000000000.0));
  (*2844*) Do (Asn v_fwd_rxn_rates 236 (v_C.[1] * v_C.[40] * $v_kf));
  (*2845*) If ($v_T) (#1000.0)
    [Asn v_Kc 0 (#2.4303196529999997e+00 + #(-9.0732759999999990e-01) * $v_logT + $v_T * (#(-2.1779684503526664e-03) + $v_T * (#2.4038171669993201e-06 + $v_T * (#(-9.7624675019173469e-10) + #1.3868959954638661e-13 * $v_T))) - #(-1.1548472899999999e+04) / $v_T)]
    [Asn v_Kc 0 (#(-4.4807189760000012e+00) + #(-9.2536209999999564e-02) * $v_logT + $v_T * (#(-8.8565838457851410e-05) + $v_T * (#1.2960992897396754e-07 + $v_T * (#(-2.7479380438737304e-11) + #2.0116172750901319e-15 * $v_T))) - #(-1.2203842899999998e+04) / $v_T)];
  (*2851*) Do (Asn v_Kc 0 (#8.2057360967184814e-02 * (Exp $v_Kc)));
  (*2852*) Do (Asn v_rev_rxn_rates 235 (v_C.[41] * $v_kf / $v_Kc));
  (*2855*) Do (Asn v_kf 0 ((Exp (#2.4817610399168512e+01 - #2.0128782594366504e+02 / $v_T))));
  (*2856*) Do (Asn v_fwd_rxn_rates 237 (v_C.[41] * v_C.[30] * $v_kf));
  (*2857*) If ($v_T) (#1000.0)
    [Asn v_Kc 0 (#(-9.3834506199999996e+00) + #1.7096946700000002e+00 * $v_logT + $v_T * (#(-1.6590602784999999e-03) + $v_T * (#(-3.7324393166666659e-07) + $v_T * (#2.8443462249999998e-10 + #(-2.6116299999999988e-14) * $v_T))) - #(-3.9759316800000001e+04) / $v_T)]
    [Asn v_Kc 0 (#1.3771494410000003e+01 + #(-1.8249047700000003e+00) * $v_logT + $v_T * (#1.0000939850000000e-03 + $v_T * (#(-2.6213989499999998e-07) + $v_T * (#4.1206556999999996e-11 + #(-2.6961299249999999e-15) * $v_T))) - #(-3.8470075700000001e+04) / $v_T)];
  (*2863*) Do (Asn v_Kc 0 (#1.0000000000000000e+00 * (Exp $v_Kc)));
  (*2864*) Do (Asn v_rev_rxn_rates 236 (v_C.[10] * v_C.[52] * $v_kf / $v_Kc));
  (*2867*) Do (Asn v_kf 0 ((Exp (#2.4866400563337944e+01 - #2.3158164374818665e+04 / $v_T))));
  (*2868*) Do (Asn v_fwd_rxn_rates 238 (v_C.[8] * v_C.[52] * $v_kf));
  (*2869*) If ($v_T) (#1000.0)
    [Asn v_Kc 0 (#(-5.6729083000000013e-01) + #2.6001854999999940e-01 * $v_logT + $v_T * (#(-1.0211079729999998e-03) + $v_T * (#8.9562124249999987e-07 + $v_T * (#(-4.3537027841666673e-10) + #8.5701449699999992e-14 * $v_T))) - #2.3389993700000003e+04 / $v_T)]
    [Asn v_Kc 0 (#(-4.0882765499999998e+00) + #7.4261452000000006e-01 * $v_logT + $v_T * (#(-6.5881215170000005e-04) + $v_T * (#1.3649094200000000e-07 + $v_T * (#(-1.4735420325000001e-11) + #7.0017245149999993e-16 * $v_T))) - #2.3141463400000011e+04 / $v_T)];
  (*2875*) Do (Asn v_Kc 0 (#1.0000000000000000e+00 * (Exp $v_Kc)));
  (*2876*) Do (Asn v_rev_rxn_rates 237 (v_C.[39] * v_C.[30] * $v_kf / $v_Kc));
  (*2879*) Do (Asn v_kf 0 ((Exp (#1.4953343559785665e+01 + #0.88 * $v_logT - #1.0129809840614944e+04 / $v_T))));
  (*2880*) Do (Asn v_fwd_rxn_rates 239 (v_C.[52] * v_C.[9] * $v_kf));
  (*2881*) If ($v_T) (#1000.0)
    [Asn v_Kc 0 (#9.1054725699999999e+00 + #(-2.0295050500000000e+00) * $v_logT + $v_T * (#4.1595470295000001e-03 + $v_T * (#(-1.2832583916666668e-06) + $v_T * (#1.0738839416666673e-10 + #4.2102093499999997e-14 * $v_T))) - #1.0408765000000130e+03 / $v_T)]
    [Asn v_Kc 0 (#(-5.6535156600000001e+00) + #4.1307736999999989e-01 * $v_logT + $v_T * (#4.3121148450000004e-04 + $v_T * (#(-1.2636864083333333e-07) + $v_T * (#1.8845106999999998e-11 + #(-1.1345221250000000e-15) * $v_T))) - #4.5142629999999190e+02 / $v_T)];
  (*2887*) Do (Asn v_Kc 0 (#1.0000000000000000e+00 * (Exp $v_Kc)));
  (*2888*) Do (Asn v_rev_rxn_rates 238 (v_C.[40] * v_C.[30] * $v_kf / $v_Kc));
  (*2891*) Do (Asn v_kf 0 ((Exp (#2.1854667948437513e+01 + #0.15 * $v_logT))));
  (*2892*) Do (Asn v_fwd_rxn_rates 240 (v_C.[52] * v_C.[9] * $v_kf));
  (*2893*) If ($v_T) (#1000.0)
    [Asn v_Kc 0 (#9.9056611700000001e+00 + #(-3.2641742499999999e+00) * $v_logT + $v_T * (#7.1142715294999995e-03 + $v_T * (#(-2.1940235583333335e-06) + $v_T * (#2.7682097749999999e-10 + #3.0760343499999991e-14 * $v_T))) - #(-1.5514409500000002e+04) / $v_T)]
    [Asn v_Kc 0 (#(-1.6658089660000002e+01) + #1.0895314699999998e+00 * $v_logT + $v_T * (#7.6535270950000005e-04 + $v_T * (#(-1.9570127583333331e-07) + $v_T * (#2.6850951583333335e-11 + #(-1.5474636650000000e-15) * $v_T))) - #(-1.6636697700000004e+04) / $v_T)];
  (*2899*) Do (Asn v_Kc 0 (#8.2057360967184814e-02 * (Exp $v_Kc)));
  (*2900*) Do (Asn v_rev_rxn_rates 239 (v_C.[42] * $v_kf / $v_Kc));
  (*2903*) Do (Asn v_kf 0 ((Exp (#2.3025850929940457e+01 - #3.7238247799578035e+04 / $v_T))));
  (*2904*) Do (Asn v_fwd_rxn_rates 241 (v_C.[10] * v_C.[52] * $v_kf));
  (*2905*) If ($v_T) (#1000.0)
    [Asn v_Kc 0 (#6.5613244200000000e+00 + #(-1.3094585700000003e+00) * $v_logT + $v_T * (#3.9929247185000001e-03 + $v_T * (#(-2.2787479683333335e-06) + $v_T * (#8.9861581083333338e-10 + #(-1.6435813450000000e-13) * $v_T))) - #1.1610121800000004e+04 / $v_T)]
    [Asn v_Kc 0 (#(-5.6206721099999992e+00) + #7.8519086999999965e-01 * $v_logT + $v_T * (#(-3.3405195999999977e-04) + $v_T * (#8.1570500000000035e-08 + $v_T * (#(-9.7169881666666662e-12) + #5.1109518499999994e-16 * $v_T))) - #1.1187333699999999e+04 / $v_T)];
  (*2911*) Do (Asn v_Kc 0 (#1.0000000000000000e+00 * (Exp $v_Kc)));
  (*2912*) Do (Asn v_rev_rxn_rates 240 (v_C.[31] * v_C.[40] * $v_kf / $v_Kc));
  (*2915*) Do (Asn v_kf 0 ((Exp (#1.8420680743952367e+01 - #3.2709271715845571e+04 / $v_T))));
  (*2916*) Do (Asn v_fwd_rxn_rates 242 (v_C.[11] * v_C.[52] * $v_kf));
  (*2917*) If ($v_T) (#1000.0)
    [Asn v_Kc 0 (#9.3289006770000000e+00 + #(-1.7453840100000000e+00) * $v_logT + $v_T * (#5.6606678849999998e-03 + $v_T * (#(-3.1850919333333338e-06) + $v_T * (#1.1350531675000000e-09 + #(-1.7714464350000000e-13) * $v_T))) - #7.1173456000000042e+03 / $v_T)]
    [Asn v_Kc 0 (#(-8.6580432700000003e+00) + #1.3672535799999999e+00 * $v_logT + $v_T * (#(-8.3379868499999983e-04) + $v_T * (#1.8206608333333337e-07 + $v_T * (#(-2.2860859083333339e-11) + #1.2710391750000000e-15 * $v_T))) - #6.5249379999999992e+03 / $v_T)];
  (*2923*) Do (Asn v_Kc 0 (#1.0000000000000000e+00 * (Exp $v_Kc)));
  (*2924*) Do (Asn v_rev_rxn_rates 241 (v_C.[31] * v_C.[40] * $v_kf / $v_Kc));
  (*2927*) Do (Asn v_kf 0 (#19000000000.0));
  (*2928*) Do (Asn v_fwd_rxn_rates 243 (v_C.[8] * v_C.[35] * $v_kf));
  (*2929*) If ($v_T) (#1000.0)
    [Asn v_Kc 0 (#(-7.8820827000000016e-01) + #8.4863500000000869e-03 * $v_logT + $v_T * (#3.6284080700000037e-04 + $v_T * (#(-4.9790876416666681e-07) + $v_T * (#3.0209506825000003e-10 + #(-7.1087114800000005e-14) * $v_T))) - #(-1.4457906999999999e+04) / $v_T)]
    [Asn v_Kc 0 (#(-4.1618344900000013e+00) + #5.6212679999999970e-01 * $v_logT + $v_T * (#(-6.4080828354999998e-04) + $v_T * (#1.4010204681666666e-07 + $v_T * (#(-1.5463029816666667e-11) + #7.2740715199999998e-16 * $v_T))) - #(-1.4618502800000000e+04) / $v_T)];
  (*2935*) Do (Asn v_Kc 0 (#1.0000000000000000e+00 * (Exp $v_Kc)));
  (*2936*) Do (Asn v_rev_rxn_rates 242 (v_C.[39] * v_C.[2] * $v_kf / $v_Kc));
  (*2939*) Do (Asn v_kf 0 (#29000000000.0));
  (*2940*) Do (Asn v_fwd_rxn_rates 244 (v_C.[8] * v_C.[35] * $v_kf));
  (*2941*) If ($v_T) (#1000.0)
    [Asn v_Kc 0 (#1.5833454799999997e+00 + #(-6.9318238000000054e-01) * $v_logT + $v_T * (#2.1750800220000002e-03 + $v_T * (#(-1.7929999858333333e-06) + $v_T * (#9.1461468108333340e-10 + #(-1.9872614724999999e-13) * $v_T))) - #(-5.3527955199999989e+04) / $v_T)]
    [Asn v_Kc 0 (#1.9196368599999989e+00 + #(-6.2214597000000005e-01) * $v_logT + $v_T * (#4.9916242580000023e-04 + $v_T * (#(-1.0270757983333334e-07) + $v_T * (#1.2782706758333331e-11 + #(-6.7472404850000013e-16) * $v_T))) - #(-5.3390369299999998e+04) / $v_T)];
  (*2947*) Do (Asn v_Kc 0 (#1.0000000000000000e+00 * (Exp $v_Kc)));
  (*2948*) Do (Asn v_rev_rxn_rates 243 (v_C.[14] * v_C.[30] * $v_kf / $v_Kc));
  (*2951*) Do (Asn v_kf 0 (#41000000000.0));
  (*2952*) Do (Asn v_fwd_rxn_rates 245 (v_C.[9] * v_C.[35] * $v_kf));
  (*2953*) If ($v_T) (#1000.0)
    [Asn v_Kc 0 (#8.8845551299999990e+00 + #(-2.2810372499999998e+00) * $v_logT + $v_T * (#5.5434958095000007e-03 + $v_T * (#(-2.6767883983333333e-06) + $v_T * (#8.4485374083333354e-10 + #(-1.1468647100000000e-13) * $v_T))) - #(-3.6807024199999993e+04) / $v_T)]
    [Asn v_Kc 0 (#(-5.7270736000000007e+00) + #2.3258965000000043e-01 * $v_logT + $v_T * (#4.4921535265000001e-04 + $v_T * (#(-1.2275753601666667e-07) + $v_T * (#1.8117497508333332e-11 + #(-1.1072874244999998e-15) * $v_T))) - #(-3.7308539900000011e+04) / $v_T)];
  (*2959*) Do (Asn v_Kc 0 (#1.0000000000000000e+00 * (Exp $v_Kc)));
  (*2960*) Do (Asn v_rev_rxn_rates 244 (v_C.[40] * v_C.[2] * $v_kf / $v_Kc));
  (*2963*) Do (Asn v_kf 0 (#16200000000.0));
  (*2964*) Do (Asn v_fwd_rxn_rates 246 (v_C.[9] * v_C.[35] * $v_kf));
  (*2965*) If ($v_T) (#1000.0)
    [Asn v_Kc 0 (#7.1202864169999991e+00 + #(-2.3813621499999997e+00) * $v_logT + $v_T * (#6.5601546298526669e-03 + $v_T * (#(-2.9564407919993198e-06) + $v_T * (#9.1463821102506801e-10 + #(-1.3644229154638662e-13) * $v_T))) - #(-4.0485779499999997e+04) / $v_T)]
    [Asn v_Kc 0 (#(-1.6358345784000001e+01) + #1.5131141799999996e+00 * $v_logT + $v_T * (#7.1579047957851232e-05 + $v_T * (#(-9.9267781473967528e-08) + $v_T * (#1.7426762938737301e-11 + #(-1.1336063750901320e-15) * $v_T))) - #(-4.1455628100000009e+04) / $v_T)];
  (*2971*) Do (Asn v_Kc 0 (#1.0000000000000000e+00 * (Exp $v_Kc)));
  (*2972*) Do (Asn v_rev_rxn_rates 245 (v_C.[1] * v_C.[46] * $v_kf / $v_Kc));
  (*2975*) Do (Asn v_kf 0 (#24600000000.0));
  (*2976*) Do (Asn v_fwd_rxn_rates 247 (v_C.[9] * v_C.[35] * $v_kf));
  (*2977*) If ($v_T) (#1000.0)
    [Asn v_Kc 0 (#4.2105307599999993e+00 + #(-9.8710710999999929e-01) * $v_logT + $v_T * (#5.3560756950000012e-04 + $v_T * (#7.3798554166666652e-07 + $v_T * (#(-5.9503726416666657e-10) + #1.4701011600000000e-13 * $v_T))) - #(-2.0697714439999989e+04) / $v_T)]
    [Asn v_Kc 0 (#3.5446248799999989e+00 + #(-9.5095304999999986e-01) * $v_logT + $v_T * (#1.4849139644999999e-03 + $v_T * (#(-3.8645916583333338e-07) + $v_T * (#5.6718183583333342e-11 + #(-3.4480648849999998e-15) * $v_T))) - #(-2.0787719850000009e+04) / $v_T)];
  (*2983*) Do (Asn v_Kc 0 (#1.0000000000000000e+00 * (Exp $v_Kc)));
  (*2984*) Do (Asn v_rev_rxn_rates 246 (v_C.[16] * v_C.[30] * $v_kf / $v_Kc));
  (*2987*) Do (Asn v_kf 0 ((Exp (#3.3367593413407739e+01 - #1.38 * $v_logT - #6.3908884737113658e+02 / $v_T))));
  (*2988*) Do (Asn v_fwd_rxn_rates 248 (v_C.[10] * v_C.[35] * $v_kf));
  (*2989*) If ($v_T) (#1000.0)
    [Asn v_Kc 0 (#1.1910938669999998e+00 + #(-4.4811549700000004e+00) * $v_logT + $v_T * (#1.8350519288526665e-03 + $v_T * (#(-2.3059867353326534e-06) + $v_T * (#1.0989205776917348e-09 + #(-2.2454970954638660e-13) * $v_T))) - #(-3.0375003199999999e+04) / $v_T)]
    [Asn v_Kc 0 (#(-9.3524721340000010e+00) + #(-2.6347067200000001e+00) * $v_logT + $v_T * (#(-2.4237486215421488e-03) + $v_T * (#3.0635274435936579e-07 + $v_T * (#(-2.7469768561262694e-11) + #1.1403183549098680e-15 * $v_T))) - #(-3.0710918700000002e+04) / $v_T)];
  (*2995*) If ($v_T) (#1478.0)
    [AddA v_Kc 0 (#2.5636141000000001e+00 + #2.6309631699999998e+00 * $v_logT + $v_T * (#3.6514117850000001e-03 + $v_T * (#(-3.8008333833333334e-07) + $v_T * (#(-5.5105941500000004e-11) + #1.8111787599999998e-14 * $v_T))) - #(-1.5587363600000001e+04) / $v_T)]
    [AddA v_Kc 0 (#(-1.4606198750000001e+01) + #5.2239513400000002e+00 * $v_logT + $v_T * (#1.5893200200000001e-03 + $v_T * (#(-1.8229792500000000e-07) + $v_T * (#1.4227930250000000e-11 + #(-4.9751097749999999e-16) * $v_T))) - #(-1.6659934399999998e+04) / $v_T)];
  (*3001*) Do (Asn v_Kc 0 (#1.0000000000000000e+00 * (Exp $v_Kc)));
  (*3002*) Do (Asn v_rev_rxn_rates 247 (v_C.[45] * v_C.[1] * $v_kf / $v_Kc));
  (*3005*) Do (Asn v_kf 0 ((Exp (#2.6393146759926932e+01 - #0.69 * $v_logT - #3.8244686929296358e+02 / $v_T))));
  (*3006*) Do (Asn v_fwd_rxn_rates 249 (v_C.[10] * v_C.[35] * $v_kf));
  (*3007*) If ($v_T) (#1000.0)
    [Asn v_Kc 0 (#6.6992891319999988e+00 + #(-1.7301509400000001e+00) * $v_logT + $v_T * (#5.6599781684999999e-03 + $v_T * (#(-3.7616241666666665e-06) + $v_T * (#1.6165218833333336e-09 + #(-3.0678911449999998e-13) * $v_T))) - #(-3.7520949540000001e+04) / $v_T)]
    [Asn v_Kc 0 (#(-7.2487598800000006e+00) + #7.6042014000000036e-01 * $v_logT + $v_T * (#(-5.7632235199999999e-04) + $v_T * (#1.5023386299999997e-07 + $v_T * (#(-2.0948816966666665e-11) + #1.2373923600000001e-15 * $v_T))) - #(-3.7918629600000000e+04) / $v_T)];
  (*3013*) Do (Asn v_Kc 0 (#1.0000000000000000e+00 * (Exp $v_Kc)));
  (*3014*) Do (Asn v_rev_rxn_rates 248 (v_C.[40] * v_C.[4] * $v_kf / $v_Kc));
  (*3017*) Do (Asn v_kf 0 ((Exp (#2.4360851996672796e+01 - #0.36 * $v_logT - #2.9186734761831434e+02 / $v_T))));
  (*3018*) Do (Asn v_fwd_rxn_rates 250 (v_C.[10] * v_C.[35] * $v_kf));
  (*3019*) If ($v_T) (#1000.0)
    [Asn v_Kc 0 (#1.1910938669999998e+00 + #(-4.4811549700000004e+00) * $v_logT + $v_T * (#1.8350519288526665e-03 + $v_T * (#(-2.3059867353326534e-06) + $v_T * (#1.0989205776917348e-09 + #(-2.2454970954638660e-13) * $v_T))) - #(-3.0375003199999999e+04) / $v_T)]
    [Asn v_Kc 0 (#(-9.3524721340000010e+00) + #(-2.6347067200000001e+00) * $v_logT + $v_T * (#(-2.4237486215421488e-03) + $v_T * (#3.0635274435936579e-07 + $v_T * (#(-2.7469768561262694e-11) + #1.1403183549098680e-15 * $v_T))) - #(-3.0710918700000002e+04) / $v_T)];
  (*3025*) If ($v_T) (#1382.0)
    [AddA v_Kc 0 (#8.0860173100000008e+00 + #1.6472798900000001e+00 * $v_logT + $v_T * (#6.3752671000000000e-03 + $v_T * (#(-1.7465705999999998e-06) + $v_T * (#3.6786069666666668e-10 + #(-3.7876073300000002e-14) * $v_T))) - #1.9299025200000000e+04 / $v_T)]
    [AddA v_Kc 0 (#(-1.6929264459999999e+01) + #5.5986045600000001e+00 * $v_logT + $v_T * (#1.5138931300000000e-03 + $v_T * (#(-1.7950724333333333e-07) + $v_T * (#1.4305544000000000e-11 + #(-5.0719695499999999e-16) * $v_T))) - #1.7966133900000001e+04 / $v_T)];
  (*3031*) Do (Asn v_Kc 0 (#1.0000000000000000e+00 * (Exp $v_Kc)));
  (*3032*) Do (Asn v_rev_rxn_rates 249 (v_C.[1] * v_C.[43] * $v_kf / $v_Kc));
  (*3035*) Do (Asn v_kf 0 ((Exp (#3.3367593413407739e+01 - #1.38 * $v_logT - #6.3908884737113658e+02 / $v_T))));
  (*3036*) Do (Asn v_fwd_rxn_rates 251 (v_C.[11] * v_C.[35] * $v_kf));
  (*3037*) If ($v_T) (#1000.0)
    [Asn v_Kc 0 (#3.9586701239999993e+00 + #(-4.9170804099999996e+00) * $v_logT + $v_T * (#3.5027950953526667e-03 + $v_T * (#(-3.2123307003326533e-06) + $v_T * (#1.3353579343584013e-09 + #(-2.3733621854638661e-13) * $v_T))) - #(-3.4867779399999999e+04) / $v_T)]
    [Asn v_Kc 0 (#(-1.2389843294000000e+01) + #(-2.0526440099999999e+00) * $v_logT + $v_T * (#(-2.9234953465421486e-03) + $v_T * (#4.0684832769269914e-07 + $v_T * (#(-4.0613639477929367e-11) + #1.9002623449098677e-15 * $v_T))) - #(-3.5373314400000003e+04) / $v_T)];
  (*3043*) If ($v_T) (#1478.0)
    [AddA v_Kc 0 (#2.5636141000000001e+00 + #2.6309631699999998e+00 * $v_logT + $v_T * (#3.6514117850000001e-03 + $v_T * (#(-3.8008333833333334e-07) + $v_T * (#(-5.5105941500000004e-11) + #1.8111787599999998e-14 * $v_T))) - #(-1.5587363600000001e+04) / $v_T)]
    [AddA v_Kc 0 (#(-1.4606198750000001e+01) + #5.2239513400000002e+00 * $v_logT + $v_T * (#1.5893200200000001e-03 + $v_T * (#(-1.8229792500000000e-07) + $v_T * (#1.4227930250000000e-11 + #(-4.9751097749999999e-16) * $v_T))) - #(-1.6659934399999998e+04) / $v_T)];
  (*3049*) Do (Asn v_Kc 0 (#1.0000000000000000e+00 * (Exp $v_Kc)));
  (*3050*) Do (Asn v_rev_rxn_rates 250 (v_C.[45] * v_C.[1] * $v_kf / $v_Kc));
  (*3053*) Do (Asn v_kf 0 ((Exp (#2.6393146759926932e+01 - #0.69 * $v_logT - #3.8244686929296358e+02 / $v_T))));
  (*3054*) Do (Asn v_fwd_rxn_rates 252 (v_C.[11] * v_C.[35] * $v_kf));
  (*3055*) If ($v_T) (#1000.0)
    [Asn v_Kc 0 (#9.4668653889999987e+00 + #(-2.1660763799999998e+00) * $v_logT + $v_T * (#7.3277213350000005e-03 + $v_T * (#(-4.6679681316666663e-06) + $v_T * (#1.8529592400000001e-09 + #(-3.1957562349999998e-13) * $v_T))) - #(-4.2013725739999994e+04) / $v_T)]
    [Asn v_Kc 0 (#(-1.0286131040000001e+01) + #1.3424828500000006e+00 * $v_logT + $v_T * (#(-1.0760690769999999e-03) + $v_T * (#2.5072944633333332e-07 + $v_T * (#(-3.4092687883333338e-11) + #1.9973363500000001e-15 * $v_T))) - #(-4.2581025300000001e+04) / $v_T)];
  (*3061*) Do (Asn v_Kc 0 (#1.0000000000000000e+00 * (Exp $v_Kc)));
  (*3062*) Do (Asn v_rev_rxn_rates 251 (v_C.[40] * v_C.[4] * $v_kf / $v_Kc));
  (*3065*) Do (Asn v_kf 0 ((Exp (#2.4360851996672796e+01 - #0.36 * $v_logT - #2.9186734761831434e+02 / $v_T))));
  (*3066*) Do (Asn v_fwd_rxn_rates 253 (v_C.[11] * v_C.[35] * $v_kf));
  (*3067*) If ($v_T) (#1000.0)
    [Asn v_Kc 0 (#3.9586701239999993e+00 + #(-4.9170804099999996e+00) * $v_logT + $v_T * (#3.5027950953526667e-03 + $v_T * (#(-3.2123307003326533e-06) + $v_T * (#1.3353579343584013e-09 + #(-2.3733621854638661e-13) * $v_T))) - #(-3.4867779399999999e+04) / $v_T)]
    [Asn v_Kc 0 (#(-1.2389843294000000e+01) + #(-2.0526440099999999e+00) * $v_logT + $v_T * (#(-2.9234953465421486e-03) + $v_T * (#4.0684832769269914e-07 + $v_T * (#(-4.0613639477929367e-11) + #1.9002623449098677e-15 * $v_T))) - #(-3.5373314400000003e+04) / $v_T)];
  (*3073*) If ($v_T) (#1382.0)
    [AddA v_Kc 0 (#8.0860173100000008e+00 + #1.6472798900000001e+00 * $v_logT + $v_T * (#6.3752671000000000e-03 + $v_T * (#(-1.7465705999999998e-06) + $v_T * (#3.6786069666666668e-10 + #(-3.7876073300000002e-14) * $v_T))) - #1.9299025200000000e+04 / $v_T)]
    [AddA v_Kc 0 (#(-1.6929264459999999e+01) + #5.5986045600000001e+00 * $v_logT + $v_T * (#1.5138931300000000e-03 + $v_T * (#(-1.7950724333333333e-07) + $v_T * (#1.4305544000000000e-11 + #(-5.0719695499999999e-16) * $v_T))) - #1.7966133900000001e+04 / $v_T)];
  (*3079*) Do (Asn v_Kc 0 (#1.0000000000000000e+00 * (Exp $v_Kc)));
  (*3080*) Do (Asn v_rev_rxn_rates 252 (v_C.[1] * v_C.[43] * $v_kf / $v_Kc));
  (*3083*) Do (Asn v_kf 0 ((Exp (#2.5287614028414247e+01 - #1.4492723467943884e+04 / $v_T))));
  (*3084*) Do (Asn v_fwd_rxn_rates 254 (v_C.[12] * v_C.[35] * $v_kf));
  (*3085*) If ($v_T) (#1000.0)
    [Asn v_Kc 0 (#5.6164365020000000e+00 + #(-1.4344375400000002e+00) * $v_logT + $v_T * (#5.3213800749999998e-03 + $v_T * (#(-3.9337669083333330e-06) + $v_T * (#1.7343073358333334e-09 + #(-3.2921794850000001e-13) * $v_T))) - #(-4.1870715499999998e+04) / $v_T)]
    [Asn v_Kc 0 (#(-9.5970526600000010e+00) + #1.2899083700000000e+00 * $v_logT + $v_T * (#(-1.5538319149999997e-03) + $v_T * (#3.6483715699999999e-07 + $v_T * (#(-4.9665560833333334e-11) + #2.8884695750000003e-15 * $v_T))) - #(-4.2293563999999998e+04) / $v_T)];
  (*3091*) Do (Asn v_Kc 0 (#1.0000000000000000e+00 * (Exp $v_Kc)));
  (*3092*) Do (Asn v_rev_rxn_rates 253 (v_C.[5] * v_C.[40] * $v_kf / $v_Kc));
  (*3095*) Do (Asn v_kf 0 ((Exp (#2.0723265836946410e+01 - #1.0945025535686787e+04 / $v_T))));
  (*3096*) Do (Asn v_fwd_rxn_rates 255 (v_C.[12] * v_C.[35] * $v_kf));
  (*3097*) If ($v_T) (#1000.0)
    [Asn v_Kc 0 (#6.0518051819999990e+00 + #(-1.0483902699999996e+00) * $v_logT + $v_T * (#2.9609699150000002e-03 + $v_T * (#(-1.8470270250000002e-06) + $v_T * (#8.9196369333333333e-10 + #(-2.1092152250000002e-13) * $v_T))) - #5.9632787599999974e+03 / $v_T)]
    [Asn v_Kc 0 (#(-1.7573423740000003e+01) + #2.7562673500000008e+00 * $v_logT + $v_T * (#(-2.4566419270000001e-03) + $v_T * (#5.4287671300000004e-07 + $v_T * (#(-7.6386955716666660e-11) + #4.6461437949999995e-15 * $v_T))) - #4.8392071000000014e+03 / $v_T)];
  (*3103*) Do (Asn v_Kc 0 (#1.0000000000000000e+00 * (Exp $v_Kc)));
  (*3104*) Do (Asn v_rev_rxn_rates 254 (v_C.[41] * v_C.[4] * $v_kf / $v_Kc));
  (*3107*) Do (Asn v_kf 0 (#22000000000.0));
  (*3108*) Do (Asn v_fwd_rxn_rates 256 (v_C.[2] * v_C.[42] * $v_kf));
  (*3109*) If ($v_T) (#1000.0)
    [Asn v_Kc 0 (#(-1.0401329003000001e+01) + #2.6856239699999995e+00 * $v_logT + $v_T * (#(-5.9417067196473328e-03) + $v_T * (#1.5378137280006799e-06 + $v_T * (#4.5920593858401260e-11 + #(-1.1131002049638660e-13) * $v_T))) - #(-7.3275569199999998e+04) / $v_T)]
    [Asn v_Kc 0 (#1.3993475726000000e+01 + #(-1.3222313600000004e+00) * $v_logT + $v_T * (#(-1.7655878969214875e-04) + $v_T * (#(-1.8353689573009150e-09) + $v_T * (#4.0456010970706355e-12 + #(-4.1258865059013216e-16) * $v_T))) - #(-7.2271530299999999e+04) / $v_T)];
  (*3115*) Do (Asn v_Kc 0 (#1.2186597134166982e+01 * (Exp $v_Kc)));
  (*3116*) Do (Asn v_rev_rxn_rates 255 (v_C.[1] * v_C.[52] * v_C.[14] * $v_kf / $v_Kc));
  (*3119*) Do (Asn v_kf 0 (#2000000000.0));
  (*3120*) Do (Asn v_fwd_rxn_rates 257 (v_C.[2] * v_C.[42] * $v_kf));
  (*3121*) If ($v_T) (#1000.0)
    [Asn v_Kc 0 (#(-3.3153935599999986e+00) + #7.8487839999999931e-01 * $v_logT + $v_T * (#(-3.6345530800000001e-03) + $v_T * (#1.6437581733333331e-06 + $v_T * (#(-4.3677167999999997e-10) + #4.5887614500000017e-14 * $v_T))) - #(-5.8826987199999996e+04) / $v_T)]
    [Asn v_Kc 0 (#9.6646865399999999e+00 + #(-1.4012121800000004e+00) * $v_logT + $v_T * (#2.1695265685000003e-04 + $v_T * (#1.0650093516666671e-08 + $v_T * (#(-3.9017442583333353e-12) + #2.5164910950000016e-16 * $v_T))) - #(-5.8342253499999999e+04) / $v_T)];
  (*3127*) Do (Asn v_Kc 0 (#1.0000000000000000e+00 * (Exp $v_Kc)));
  (*3128*) Do (Asn v_rev_rxn_rates 256 (v_C.[40] * v_C.[35] * $v_kf / $v_Kc));
  (*3131*) Do (Asn v_kf 0 (#12000000000.0));
  (*3132*) Do (Asn v_fwd_rxn_rates 258 (v_C.[3] * v_C.[42] * $v_kf));
  (*3133*) If ($v_T) (#1000.0)
    [Asn v_Kc 0 (#(-1.0318222020000000e+01) + #3.3813541800000002e+00 * $v_logT + $v_T * (#(-9.0394442999999994e-03) + $v_T * (#4.2381397583333334e-06 + $v_T * (#(-1.3537671208333331e-09) + #1.9987518950000001e-13 * $v_T))) - #(-2.1257116179999997e+04) / $v_T)]
    [Asn v_Kc 0 (#2.1121969350000001e+01 + #(-1.9089388800000000e+00) * $v_logT + $v_T * (#4.4313725315000023e-04 + $v_T * (#(-1.0912983368333330e-07) + $v_T * (#1.4845822758333344e-11 + #(-8.5547098949999974e-16) * $v_T))) - #(-2.0057783730000003e+04) / $v_T)];
  (*3139*) Do (Asn v_Kc 0 (#1.2186597134166982e+01 * (Exp $v_Kc)));
  (*3140*) Do (Asn v_rev_rxn_rates 257 (v_C.[52] * v_C.[16] * v_C.[2] * $v_kf / $v_Kc));
  (*3143*) Do (Asn v_kf 0 (#12000000000.0));
  (*3144*) Do (Asn v_fwd_rxn_rates 259 (v_C.[42] * v_C.[4] * $v_kf));
  (*3145*) If ($v_T) (#1000.0)
    [Asn v_Kc 0 (#(-8.1774109750000008e+00) + #2.5035280100000006e+00 * $v_logT + $v_T * (#(-7.6974931996473340e-03) + $v_T * (#4.0025230313340135e-06 + $v_T * (#(-1.3264417473082653e-09) + #1.8822288745361339e-13 * $v_T))) - #(-2.9584739599999997e+04) / $v_T)]
    [Asn v_Kc 0 (#1.6747253585999999e+01 + #(-1.7887094800000001e+00) * $v_logT + $v_T * (#9.5345321045785128e-04 + $v_T * (#(-2.6353322364063423e-07) + $v_T * (#4.0465363238737310e-11 + #(-2.5875386600901318e-15) * $v_T))) - #(-2.8748817649999997e+04) / $v_T)];
  (*3151*) Do (Asn v_Kc 0 (#1.2186597134166982e+01 * (Exp $v_Kc)));
  (*3152*) Do (Asn v_rev_rxn_rates 258 (v_C.[1] * v_C.[52] * v_C.[16] * $v_kf / $v_Kc));
  (*3155*) Do (Asn v_kf 0 (#1e+11));
  (*3156*) Do (Asn v_fwd_rxn_rates 260 (v_C.[1] * v_C.[42] * $v_kf));
  (*3157*) If ($v_T) (#1000.0)
    [Asn v_Kc 0 (#(-7.7533195670000001e+00) + #2.0370362700000002e+00 * $v_logT + $v_T * (#(-6.7917532288526662e-03) + $v_T * (#2.9413384019993197e-06 + $v_T * (#(-8.6124471102506807e-10) + #1.2391504954638664e-13 * $v_T))) - #(-3.4752503699999994e+04) / $v_T)]
    [Asn v_Kc 0 (#2.0295349433999998e+01 + #(-2.5938950799999998e+00) * $v_logT + $v_T * (#5.7738692154214863e-04 + $v_T * (#(-6.3197331026032489e-08) + $v_T * (#5.7213319779293581e-12 + #(-2.7157110990986790e-16) * $v_T))) - #(-3.3585794600000001e+04) / $v_T)];
  (*3163*) Do (Asn v_Kc 0 (#1.0000000000000000e+00 * (Exp $v_Kc)));
  (*3164*) Do (Asn v_rev_rxn_rates 259 (v_C.[10] * v_C.[52] * $v_kf / $v_Kc));
  (*3167*) Do (Asn v_kf 0 ((Exp (#1.1492722757652709e+01 + #1.41 * $v_logT - #4.2773663013028827e+03 / $v_T))));
  (*3168*) Do (Asn v_fwd_rxn_rates 261 (v_C.[45] * v_C.[2] * $v_kf));
  (*3169*) If ($v_T) (#1000.0)
    [Asn v_Kc 0 (#7.0160316400000013e+00 + #1.6814149199999999e+00 * $v_logT + $v_T * (#6.2878537950000002e-03 + $v_T * (#(-2.5426125083333329e-06) + $v_T * (#9.2240838833333331e-10 + #(-1.6460279789999999e-13) * $v_T))) - #(-3.5613599900000001e+04) / $v_T)]
    [Asn v_Kc 0 (#(-8.4365298999999982e-01) + #3.0717323099999994e+00 * $v_logT + $v_T * (#2.9150936868499997e-03 + $v_T * (#(-4.4692382815000006e-07) + $v_T * (#5.0988039075000003e-11 + #(-2.6970600155000002e-15) * $v_T))) - #(-3.5855897100000002e+04) / $v_T)];
  (*3175*) If ($v_T) (#1478.0)
    [AddA v_Kc 0 (#(-2.5636141000000001e+00) + #(-2.6309631699999998e+00) * $v_logT + $v_T * (#(-3.6514117850000001e-03) + $v_T * (#3.8008333833333334e-07 + $v_T * (#5.5105941500000004e-11 + #(-1.8111787599999998e-14) * $v_T))) - #1.5587363600000001e+04 / $v_T)]
    [AddA v_Kc 0 (#1.4606198750000001e+01 + #(-5.2239513400000002e+00) * $v_logT + $v_T * (#(-1.5893200200000001e-03) + $v_T * (#1.8229792500000000e-07 + $v_T * (#(-1.4227930250000000e-11) + #4.9751097749999999e-16 * $v_T))) - #1.6659934399999998e+04 / $v_T)];
  (*3181*) Do (Asn v_Kc 0 (#1.0000000000000000e+00 * (Exp $v_Kc)));
  (*3182*) Do (Asn v_rev_rxn_rates 260 (v_C.[31] * v_C.[15] * $v_kf / $v_Kc));
  (*3185*) Do (Asn v_kf 0 ((Exp (#1.1918390573078392e+01 + #1.57 * $v_logT - #2.2141660853803154e+04 / $v_T))));
  (*3186*) Do (Asn v_fwd_rxn_rates 262 (v_C.[45] * v_C.[2] * $v_kf));
  (*3187*) If ($v_T) (#1000.0)
    [Asn v_Kc 0 (#(-1.7384404499999992e+00) + #3.9447579699999991e+00 * $v_logT + $v_T * (#(-1.5003259699999999e-03) + $v_T * (#2.1411595616666667e-06 + $v_T * (#(-8.4183515633333345e-10) + #1.2641865455000002e-13 * $v_T))) - #(-3.1918048199999997e+04) / $v_T)]
    [Asn v_Kc 0 (#8.5157061499999998e+00 + #2.1250157299999994e+00 * $v_logT + $v_T * (#2.8214537218500002e-03 + $v_T * (#(-3.0437866831666667e-07) + $v_T * (#2.4795865158333331e-11 + #(-1.0893233835000000e-15) * $v_T))) - #(-3.1618869500000001e+04) / $v_T)];
  (*3193*) If ($v_T) (#1478.0)
    [AddA v_Kc 0 (#(-2.5636141000000001e+00) + #(-2.6309631699999998e+00) * $v_logT + $v_T * (#(-3.6514117850000001e-03) + $v_T * (#3.8008333833333334e-07 + $v_T * (#5.5105941500000004e-11 + #(-1.8111787599999998e-14) * $v_T))) - #1.5587363600000001e+04 / $v_T)]
    [AddA v_Kc 0 (#1.4606198750000001e+01 + #(-5.2239513400000002e+00) * $v_logT + $v_T * (#(-1.5893200200000001e-03) + $v_T * (#1.8229792500000000e-07 + $v_T * (#(-1.4227930250000000e-11) + #4.9751097749999999e-16 * $v_T))) - #1.6659934399999998e+04 / $v_T)];
  (*3199*) Do (Asn v_Kc 0 (#1.0000000000000000e+00 * (Exp $v_Kc)));
  (*3200*) Do (Asn v_rev_rxn_rates 261 (v_C.[14] * v_C.[38] * $v_kf / $v_Kc));
  (*3203*) Do (Asn v_kf 0 ((Exp (#7.6962126393464070e+00 + #2.11 * $v_logT - #5.7367030393944542e+03 / $v_T))));
  (*3204*) Do (Asn v_fwd_rxn_rates 263 (v_C.[45] * v_C.[2] * $v_kf));
  (*3205*) If ($v_T) (#1000.0)
    [Asn v_Kc 0 (#3.7439265520000000e+00 + #2.6506791299999999e+00 * $v_logT + $v_T * (#4.8415850600000004e-03 + $v_T * (#(-1.7352898250000000e-06) + $v_T * (#5.8738577583333326e-10 + #(-1.0399522550000000e-13) * $v_T))) - #(-1.0824701639999999e+04) / $v_T)]
    [Asn v_Kc 0 (#(-8.5275599299999989e+00) + #4.6756513900000005e+00 * $v_logT + $v_T * (#1.4697899648499998e-03 + $v_T * (#(-1.3262912681666668e-07) + $v_T * (#5.8302170249999993e-12 + #7.0755054499999996e-17 * $v_T))) - #(-1.1354799100000000e+04) / $v_T)];
  (*3211*) If ($v_T) (#1478.0)
    [AddA v_Kc 0 (#(-2.5636141000000001e+00) + #(-2.6309631699999998e+00) * $v_logT + $v_T * (#(-3.6514117850000001e-03) + $v_T * (#3.8008333833333334e-07 + $v_T * (#5.5105941500000004e-11 + #(-1.8111787599999998e-14) * $v_T))) - #1.5587363600000001e+04 / $v_T)]
    [AddA v_Kc 0 (#1.4606198750000001e+01 + #(-5.2239513400000002e+00) * $v_logT + $v_T * (#(-1.5893200200000001e-03) + $v_T * (#1.8229792500000000e-07 + $v_T * (#(-1.4227930250000000e-11) + #4.9751097749999999e-16 * $v_T))) - #1.6659934399999998e+04 / $v_T)];
  (*3217*) Do (Asn v_Kc 0 (#1.0000000000000000e+00 * (Exp $v_Kc)));
  (*3218*) Do (Asn v_rev_rxn_rates 262 (v_C.[46] * v_C.[4] * $v_kf / $v_Kc));
  (*3221*) Do (Asn v_kf 0 ((Exp (#1.0021270588192511e+01 + #1.7 * $v_logT - #1.9122343464648179e+03 / $v_T))));
  (*3222*) Do (Asn v_fwd_rxn_rates 264 (v_C.[45] * v_C.[1] * $v_kf));
  (*3223*) If ($v_T) (#1000.0)
    [Asn v_Kc 0 (#(-1.4702867170000000e+00) + #4.2835363700000002e+00 * $v_logT + $v_T * (#(-1.3582460903526666e-03) + $v_T * (#1.3539415219993200e-06 + $v_T * (#(-3.9204281819173466e-10) + #3.6982360096386618e-14 * $v_T))) - #(-1.7931835899999998e+04) / $v_T)]
    [Asn v_Kc 0 (#1.1735859233999999e+01 + #2.0499277000000000e+00 * $v_logT + $v_T * (#2.6349178265421490e-03 + $v_T * (#(-3.2212230452603252e-07) + $v_T * (#3.0590211894596026e-11 + #(-1.4142693249098680e-15) * $v_T))) - #(-1.7453575300000000e+04) / $v_T)];
  (*3229*) If ($v_T) (#1478.0)
    [AddA v_Kc 0 (#(-2.5636141000000001e+00) + #(-2.6309631699999998e+00) * $v_logT + $v_T * (#(-3.6514117850000001e-03) + $v_T * (#3.8008333833333334e-07 + $v_T * (#5.5105941500000004e-11 + #(-1.8111787599999998e-14) * $v_T))) - #1.5587363600000001e+04 / $v_T)]
    [AddA v_Kc 0 (#1.4606198750000001e+01 + #(-5.2239513400000002e+00) * $v_logT + $v_T * (#(-1.5893200200000001e-03) + $v_T * (#1.8229792500000000e-07 + $v_T * (#(-1.4227930250000000e-11) + #4.9751097749999999e-16 * $v_T))) - #1.6659934399999998e+04 / $v_T)];
  (*3235*) Do (Asn v_Kc 0 (#1.0000000000000000e+00 * (Exp $v_Kc)));
  (*3236*) Do (Asn v_rev_rxn_rates 263 (v_C.[14] * v_C.[32] * $v_kf / $v_Kc));
  (*3239*) Do (Asn v_kf 0 ((Exp (#4.6539603501575231e+00 + #2.5 * $v_logT - #6.6928202126268634e+03 / $v_T))));
  (*3240*) Do (Asn v_fwd_rxn_rates 265 (v_C.[45] * v_C.[1] * $v_kf));
  (*3241*) If ($v_T) (#1000.0)
    [Asn v_Kc 0 (#8.0088957710000006e+00 + #1.6712619200000001e+00 * $v_logT + $v_T * (#8.3928447746473341e-03 + $v_T * (#(-4.6441273996673460e-06) + $v_T * (#2.0799088164749320e-09 + #(-4.3537385545361338e-13) * $v_T))) - #(-1.1709118072999998e+04) / $v_T)]
    [Asn v_Kc 0 (#(-1.1292070085999999e+01) + #4.9894636900000000e+00 * $v_logT + $v_T * (#1.1278868249921486e-03 + $v_T * (#(-6.3479128026032469e-08) + $v_T * (#(-2.6396174387373064e-12) + #5.4638687509013215e-16 * $v_T))) - #(-1.2419695822000000e+04) / $v_T)];
  (*3247*) If ($v_T) (#1478.0)
    [AddA v_Kc 0 (#(-2.5636141000000001e+00) + #(-2.6309631699999998e+00) * $v_logT + $v_T * (#(-3.6514117850000001e-03) + $v_T * (#3.8008333833333334e-07 + $v_T * (#5.5105941500000004e-11 + #(-1.8111787599999998e-14) * $v_T))) - #1.5587363600000001e+04 / $v_T)]
    [AddA v_Kc 0 (#1.4606198750000001e+01 + #(-5.2239513400000002e+00) * $v_logT + $v_T * (#(-1.5893200200000001e-03) + $v_T * (#1.8229792500000000e-07 + $v_T * (#(-1.4227930250000000e-11) + #4.9751097749999999e-16 * $v_T))) - #1.6659934399999998e+04 / $v_T)];
  (*3253*) Do (Asn v_Kc 0 (#1.0000000000000000e+00 * (Exp $v_Kc)));
  (*3254*) Do (Asn v_rev_rxn_rates 264 (v_C.[0] * v_C.[46] * $v_kf / $v_Kc));
  (*3257*) Do (Asn v_kf 0 ((Exp (#1.0404262840448617e+01 + #1.5 * $v_logT - #1.8115904334929855e+03 / $v_T))));
  (*3258*) Do (Asn v_fwd_rxn_rates 266 (v_C.[45] * v_C.[4] * $v_kf));
  (*3259*) If ($v_T) (#1000.0)
    [Asn v_Kc 0 (#5.7718019200000006e+00 + #2.0335559300000008e+00 * $v_logT + $v_T * (#4.5850261100000003e-03 + $v_T * (#(-1.0806916166666668e-06) + $v_T * (#2.6623825916666662e-10 + #(-4.6174801500000004e-14) * $v_T))) - #(-1.9226330259999999e+04) / $v_T)]
    [Asn v_Kc 0 (#(-7.1474813199999989e+00) + #4.0932893200000002e+00 * $v_logT + $v_T * (#1.9668322120000000e-03 + $v_T * (#(-1.9515154599999999e-07) + $v_T * (#1.1566262383333333e-11 + #(-2.0094690000000001e-16) * $v_T))) - #(-1.9858831099999999e+04) / $v_T)];
  (*3265*) If ($v_T) (#1478.0)
    [AddA v_Kc 0 (#(-2.5636141000000001e+00) + #(-2.6309631699999998e+00) * $v_logT + $v_T * (#(-3.6514117850000001e-03) + $v_T * (#3.8008333833333334e-07 + $v_T * (#5.5105941500000004e-11 + #(-1.8111787599999998e-14) * $v_T))) - #1.5587363600000001e+04 / $v_T)]
    [AddA v_Kc 0 (#1.4606198750000001e+01 + #(-5.2239513400000002e+00) * $v_logT + $v_T * (#(-1.5893200200000001e-03) + $v_T * (#1.8229792500000000e-07 + $v_T * (#(-1.4227930250000000e-11) + #4.9751097749999999e-16 * $v_T))) - #1.6659934399999998e+04 / $v_T)];
  (*3271*) Do (Asn v_Kc 0 (#1.0000000000000000e+00 * (Exp $v_Kc)));
  (*3272*) Do (Asn v_rev_rxn_rates 265 (v_C.[5] * v_C.[46] * $v_kf / $v_Kc));
  (*3275*) Do (Asn v_kf 0 ((Exp (#8.1016777474545716e+00 + #1.5 * $v_logT - #1.8115904334929855e+03 / $v_T))));
  (*3276*) Do (Asn v_fwd_rxn_rates 267 (v_C.[45] * v_C.[4] * $v_kf));
  (*3277*) If ($v_T) (#1000.0)
    [Asn v_Kc 0 (#7.2943742080000007e+00 + #1.5687609899999999e+00 * $v_logT + $v_T * (#4.6398878950000000e-03 + $v_T * (#(-7.7244438333333316e-07) + $v_T * (#6.0733654166666666e-11 + #6.8128726000000049e-15 * $v_T))) - #(-3.0101140260000000e+04) / $v_T)]
    [Asn v_Kc 0 (#7.1604353999999981e-01 + #2.5993147200000002e+00 * $v_logT + $v_T * (#3.5366243719999997e-03 + $v_T * (#(-5.4587121800000003e-07) + $v_T * (#6.2372156133333337e-11 + #(-3.3435134199999999e-15) * $v_T))) - #(-3.0445865999999998e+04) / $v_T)];
  (*3283*) If ($v_T) (#1478.0)
    [AddA v_Kc 0 (#(-2.5636141000000001e+00) + #(-2.6309631699999998e+00) * $v_logT + $v_T * (#(-3.6514117850000001e-03) + $v_T * (#3.8008333833333334e-07 + $v_T * (#5.5105941500000004e-11 + #(-1.8111787599999998e-14) * $v_T))) - #1.5587363600000001e+04 / $v_T)]
    [AddA v_Kc 0 (#1.4606198750000001e+01 + #(-5.2239513400000002e+00) * $v_logT + $v_T * (#(-1.5893200200000001e-03) + $v_T * (#1.8229792500000000e-07 + $v_T * (#(-1.4227930250000000e-11) + #4.9751097749999999e-16 * $v_T))) - #1.6659934399999998e+04 / $v_T)];
  (*3289*) Do (Asn v_Kc 0 (#1.0000000000000000e+00 * (Exp $v_Kc)));
  (*3290*) Do (Asn v_rev_rxn_rates 266 (v_C.[15] * v_C.[32] * $v_kf / $v_Kc));
  (*3293*) Do (Asn v_kf 0 ((Exp (#3.0099120647400166e+01 - #4.2632761534868259e+04 / $v_T))));
  (*3294*) Do (Asn v_fwd_rxn_rates 268 (v_C.[45] * $v_kf));
  (*3295*) If ($v_T) (#1000.0)
    [Asn v_Kc 0 (#(-1.7157048899999998e+00) + #5.0724419699999999e+00 * $v_logT + $v_T * (#(-1.4928085000000000e-04) + $v_T * (#(-7.8705678333333339e-08) + $v_T * (#2.8238750699999998e-10 + #(-9.7006059949999999e-14) * $v_T))) - #2.7536543000000001e+04 / $v_T)]
    [Asn v_Kc 0 (#8.0605892099999998e+00 + #3.4988784099999997e+00 * $v_logT + $v_T * (#1.6961852150000002e-03 + $v_T * (#(-2.3726770683333335e-07) + $v_T * (#2.5700125749999999e-11 + #(-1.2934609300000001e-15) * $v_T))) - #2.7968975599999998e+04 / $v_T)];
  (*3301*) If ($v_T) (#1478.0)
    [AddA v_Kc 0 (#(-2.5636141000000001e+00) + #(-2.6309631699999998e+00) * $v_logT + $v_T * (#(-3.6514117850000001e-03) + $v_T * (#3.8008333833333334e-07 + $v_T * (#5.5105941500000004e-11 + #(-1.8111787599999998e-14) * $v_T))) - #1.5587363600000001e+04 / $v_T)]
    [AddA v_Kc 0 (#1.4606198750000001e+01 + #(-5.2239513400000002e+00) * $v_logT + $v_T * (#(-1.5893200200000001e-03) + $v_T * (#1.8229792500000000e-07 + $v_T * (#(-1.4227930250000000e-11) + #4.9751097749999999e-16 * $v_T))) - #1.6659934399999998e+04 / $v_T)];
  (*3307*) Do (Asn v_Kc 0 (#1.2186597134166982e+01 * (Exp $v_Kc)));
  (*3308*) Do (Asn v_rev_rxn_rates 267 (v_C.[31] * v_C.[14] * $v_kf / $v_Kc));
  (*3311*) Do (Asn v_kf 0 ((Exp (#2.8372958460657927e+01 - #0.69 * $v_logT - #1.4341757598486136e+03 / $v_T))));
  (*3312*) Do (Asn v_fwd_rxn_rates 269 (v_C.[1] * v_C.[43] * $v_kf));
  (*3313*) If ($v_T) (#1382.0)
    [Asn v_Kc 0 (#(-8.0860173100000008e+00) + #(-1.6472798900000001e+00) * $v_logT + $v_T * (#(-6.3752671000000000e-03) + $v_T * (#1.7465705999999998e-06 + $v_T * (#(-3.6786069666666668e-10) + #3.7876073300000002e-14 * $v_T))) - #(-1.9299025200000000e+04) / $v_T)]
    [Asn v_Kc 0 (#1.6929264459999999e+01 + #(-5.5986045600000001e+00) * $v_logT + $v_T * (#(-1.5138931300000000e-03) + $v_T * (#1.7950724333333333e-07 + $v_T * (#(-1.4305544000000000e-11) + #5.0719695499999999e-16 * $v_T))) - #(-1.7966133900000001e+04) / $v_T)];
  (*3319*) If ($v_T) (#1478.0)
    [AddA v_Kc 0 (#2.5636141000000001e+00 + #2.6309631699999998e+00 * $v_logT + $v_T * (#3.6514117850000001e-03 + $v_T * (#(-3.8008333833333334e-07) + $v_T * (#(-5.5105941500000004e-11) + #1.8111787599999998e-14 * $v_T))) - #(-1.5587363600000001e+04) / $v_T)]
    [AddA v_Kc 0 (#(-1.4606198750000001e+01) + #5.2239513400000002e+00 * $v_logT + $v_T * (#1.5893200200000001e-03 + $v_T * (#(-1.8229792500000000e-07) + $v_T * (#1.4227930250000000e-11 + #(-4.9751097749999999e-16) * $v_T))) - #(-1.6659934399999998e+04) / $v_T)];
  (*3325*) Do (Asn v_Kc 0 (#1.0000000000000000e+00 * (Exp $v_Kc)));
  (*3326*) Do (Asn v_rev_rxn_rates 268 (v_C.[45] * v_C.[1] * $v_kf / $v_Kc));
  (*3329*) Do (Asn v_kf 0 ((Exp (#1.9413932516962650e+01 + #0.18 * $v_logT - #1.0668254775014248e+03 / $v_T))));
  (*3330*) Do (Asn v_fwd_rxn_rates 270 (v_C.[1] * v_C.[43] * $v_kf));
  (*3331*) If ($v_T) (#1000.0)
    [Asn v_Kc 0 (#5.5081952649999995e+00 + #2.7510040299999998e+00 * $v_logT + $v_T * (#3.8249262396473339e-03 + $v_T * (#(-1.4556374313340133e-06) + $v_T * (#5.1760130564159879e-10 + #(-8.2239404953613387e-14) * $v_T))) - #(-7.1459463399999986e+03) / $v_T)]
    [Asn v_Kc 0 (#2.1037122539999999e+00 + #3.3951268600000004e+00 * $v_logT + $v_T * (#1.8474262695421487e-03 + $v_T * (#(-1.5611888135936581e-07) + $v_T * (#6.5209515945960296e-12 + #9.7074005090132127e-17 * $v_T))) - #(-7.2077108999999982e+03) / $v_T)];
  (*3337*) If ($v_T) (#1382.0)
    [AddA v_Kc 0 (#(-8.0860173100000008e+00) + #(-1.6472798900000001e+00) * $v_logT + $v_T * (#(-6.3752671000000000e-03) + $v_T * (#1.7465705999999998e-06 + $v_T * (#(-3.6786069666666668e-10) + #3.7876073300000002e-14 * $v_T))) - #(-1.9299025200000000e+04) / $v_T)]
    [AddA v_Kc 0 (#1.6929264459999999e+01 + #(-5.5986045600000001e+00) * $v_logT + $v_T * (#(-1.5138931300000000e-03) + $v_T * (#1.7950724333333333e-07 + $v_T * (#(-1.4305544000000000e-11) + #5.0719695499999999e-16 * $v_T))) - #(-1.7966133900000001e+04) / $v_T)];
  (*3343*) Do (Asn v_Kc 0 (#1.0000000000000000e+00 * (Exp $v_Kc)));
  (*3344*) Do (Asn v_rev_rxn_rates 269 (v_C.[40] * v_C.[4] * $v_kf / $v_Kc));
  (*3347*) Do (Asn v_kf 0 ((Exp (#2.5859064273996673e+01 - #0.75 * $v_logT - #1.4543045424429799e+03 / $v_T))));
  (*3348*) Do (Asn v_fwd_rxn_rates 271 (v_C.[1] * v_C.[43] * $v_kf));
  (*3349*) If ($v_T) (#1000.0)
    [Asn v_Kc 0 (#(-1.4702867170000000e+00) + #4.2835363700000002e+00 * $v_logT + $v_T * (#(-1.3582460903526666e-03) + $v_T * (#1.3539415219993200e-06 + $v_T * (#(-3.9204281819173466e-10) + #3.6982360096386618e-14 * $v_T))) - #(-1.7931835899999998e+04) / $v_T)]
    [Asn v_Kc 0 (#1.1735859233999999e+01 + #2.0499277000000000e+00 * $v_logT + $v_T * (#2.6349178265421490e-03 + $v_T * (#(-3.2212230452603252e-07) + $v_T * (#3.0590211894596026e-11 + #(-1.4142693249098680e-15) * $v_T))) - #(-1.7453575300000000e+04) / $v_T)];
  (*3355*) If ($v_T) (#1382.0)
    [AddA v_Kc 0 (#(-8.0860173100000008e+00) + #(-1.6472798900000001e+00) * $v_logT + $v_T * (#(-6.3752671000000000e-03) + $v_T * (#1.7465705999999998e-06 + $v_T * (#(-3.6786069666666668e-10) + #3.7876073300000002e-14 * $v_T))) - #(-1.9299025200000000e+04) / $v_T)]
    [AddA v_Kc 0 (#1.6929264459999999e+01 + #(-5.5986045600000001e+00) * $v_logT + $v_T * (#(-1.5138931300000000e-03) + $v_T * (#1.7950724333333333e-07 + $v_T * (#(-1.4305544000000000e-11) + #5.0719695499999999e-16 * $v_T))) - #(-1.7966133900000001e+04) / $v_T)];
  (*3361*) Do (Asn v_Kc 0 (#1.0000000000000000e+00 * (Exp $v_Kc)));
  (*3362*) Do (Asn v_rev_rxn_rates 270 (v_C.[14] * v_C.[32] * $v_kf / $v_Kc));
  (*3365*) Do (Asn v_kf 0 ((Exp (#9.9034875525361272e+00 + #2.0 * $v_logT - #1.0064391297183253e+03 / $v_T))));
  (*3366*) Do (Asn v_fwd_rxn_rates 272 (v_C.[44] * v_C.[1] * $v_kf));
  (*3367*) If ($v_T) (#1368.0)
    [Asn v_Kc 0 (#(-1.8468721000000001e+00) + #(-2.7860495200000002e+00) * $v_logT + $v_T * (#(-3.4433396099999999e-03) + $v_T * (#5.3581310666666662e-07 + $v_T * (#(-4.3099647250000000e-11) + #(-5.9680394000000003e-16) * $v_T))) - #2.8269839999999999e+03 / $v_T)]
    [Asn v_Kc 0 (#1.2079527100000000e+01 + #(-4.8978488499999999e+00) * $v_logT + $v_T * (#(-1.5839469650000000e-03) + $v_T * (#1.8633510666666667e-07 + $v_T * (#(-1.4770262000000000e-11) + #5.2169588499999993e-16 * $v_T))) - #3.7065333099999998e+03 / $v_T)];
  (*3373*) If ($v_T) (#1478.0)
    [AddA v_Kc 0 (#2.5636141000000001e+00 + #2.6309631699999998e+00 * $v_logT + $v_T * (#3.6514117850000001e-03 + $v_T * (#(-3.8008333833333334e-07) + $v_T * (#(-5.5105941500000004e-11) + #1.8111787599999998e-14 * $v_T))) - #(-1.5587363600000001e+04) / $v_T)]
    [AddA v_Kc 0 (#(-1.4606198750000001e+01) + #5.2239513400000002e+00 * $v_logT + $v_T * (#1.5893200200000001e-03 + $v_T * (#(-1.8229792500000000e-07) + $v_T * (#1.4227930250000000e-11 + #(-4.9751097749999999e-16) * $v_T))) - #(-1.6659934399999998e+04) / $v_T)];
  (*3379*) Do (Asn v_Kc 0 (#1.0000000000000000e+00 * (Exp $v_Kc)));
  (*3380*) Do (Asn v_rev_rxn_rates 271 (v_C.[45] * v_C.[1] * $v_kf / $v_Kc));
  (*3383*) Do (Asn v_kf 0 (#9000000000.0));
  (*3384*) Do (Asn v_fwd_rxn_rates 273 (v_C.[27] * v_C.[35] * $v_kf));
  (*3385*) If ($v_T) (#1000.0)
    [Asn v_Kc 0 (#(-8.3721898899999996e+00) + #(-1.8906642300000001e+00) * $v_logT + $v_T * (#(-6.8131993400000011e-03) + $v_T * (#2.2841488883333331e-06 + $v_T * (#(-5.8605147633333358e-10) + #6.7923980050000042e-14 * $v_T))) - #(-4.4248158000000003e+04) / $v_T)]
    [Asn v_Kc 0 (#1.1553270309999998e+01 + #(-5.1736257900000000e+00) * $v_logT + $v_T * (#(-1.6069584850000001e-03) + $v_T * (#1.7063323483333332e-07 + $v_T * (#(-1.0472098416666668e-11) + #1.5383351499999986e-16 * $v_T))) - #(-4.3400062000000005e+04) / $v_T)];
  (*3391*) If ($v_T) (#1382.0)
    [AddA v_Kc 0 (#8.0860173100000008e+00 + #1.6472798900000001e+00 * $v_logT + $v_T * (#6.3752671000000000e-03 + $v_T * (#(-1.7465705999999998e-06) + $v_T * (#3.6786069666666668e-10 + #(-3.7876073300000002e-14) * $v_T))) - #1.9299025200000000e+04 / $v_T)]
    [AddA v_Kc 0 (#(-1.6929264459999999e+01) + #5.5986045600000001e+00 * $v_logT + $v_T * (#1.5138931300000000e-03 + $v_T * (#(-1.7950724333333333e-07) + $v_T * (#1.4305544000000000e-11 + #(-5.0719695499999999e-16) * $v_T))) - #1.7966133900000001e+04 / $v_T)];
  (*3397*) Do (Asn v_Kc 0 (#1.0000000000000000e+00 * (Exp $v_Kc)));
  (*3398*) Do (Asn v_rev_rxn_rates 272 (v_C.[14] * v_C.[43] * $v_kf / $v_Kc));
  (*3401*) Do (Asn v_kf 0 ((Exp (#2.7136724794113768e+01 - #0.31 * $v_logT - #1.4593367380915717e+02 / $v_T))));
  (*3402*) Do (Asn v_fwd_rxn_rates 274 (v_C.[12] * v_C.[30] * $v_kf));
  (*3403*) If ($v_T) (#1000.0)
    [Asn v_Kc 0 (#3.5695246169999999e+00 + #(-8.2192940000000014e-01) * $v_logT + $v_T * (#1.8421406753526661e-03 + $v_T * (#(-7.7651309366598670e-07) + $v_T * (#4.3738018769173468e-10 + #(-1.3894840754638661e-13) * $v_T))) - #(-1.8438155900000005e+04) / $v_T)]
    [Asn v_Kc 0 (#(-2.1028884694000002e+01) + #3.0080423900000000e+00 * $v_logT + $v_T * (#(-2.2227499715421488e-03) + $v_T * (#4.7010137935936583e-07 + $v_T * (#(-6.5788824477929351e-11) + #3.9592063549098685e-15 * $v_T))) - #(-1.9758588400000008e+04) / $v_T)];
  (*3409*) Do (Asn v_Kc 0 (#1.0000000000000000e+00 * (Exp $v_Kc)));
  (*3410*) Do (Asn v_rev_rxn_rates 273 (v_C.[1] * v_C.[41] * $v_kf / $v_Kc));
  (*3413*) Do (Asn v_kf 0 ((Exp (#2.2031598656596589e+01 + #0.15 * $v_logT - #(-4.5289760837324636e+01) / $v_T))));
  (*3414*) Do (Asn v_fwd_rxn_rates 275 (v_C.[12] * v_C.[30] * $v_kf));
  (*3415*) If ($v_T) (#1000.0)
    [Asn v_Kc 0 (#5.3712497880000001e+00 + #(-1.5702706800000001e+00) * $v_logT + $v_T * (#8.0103694999999996e-03 + $v_T * (#(-6.4266887599999997e-06) + $v_T * (#3.0933943875000002e-09 + #(-6.4644388750000004e-13) * $v_T))) - #(-5.8754937973000007e+04) / $v_T)]
    [Asn v_Kc 0 (#(-1.7197102380000000e+01) + #2.4378577799999999e+00 * $v_logT + $v_T * (#(-2.1588853465499998e-03) + $v_T * (#4.2373424133333333e-07 + $v_T * (#(-5.3273309416666666e-11) + #2.9488659100000001e-15 * $v_T))) - #(-5.9452224222000004e+04) / $v_T)];
  (*3421*) Do (Asn v_Kc 0 (#1.0000000000000000e+00 * (Exp $v_Kc)));
  (*3422*) Do (Asn v_rev_rxn_rates 274 (v_C.[0] * v_C.[40] * $v_kf / $v_Kc));
  (*3425*) Do (Asn v_kf 0 ((Exp (#6.2915691395583204e+00 + #2.4 * $v_logT - #4.9894219855785977e+03 / $v_T))));
  (*3426*) Do (Asn v_fwd_rxn_rates 276 (v_C.[1] * v_C.[33] * $v_kf));
  (*3427*) If ($v_T) (#1000.0)
    [Asn v_Kc 0 (#1.8509167610000001e+00 + #(-2.3769337999999962e-01) * $v_logT + $v_T * (#5.2674526246473327e-03 + $v_T * (#(-5.6816381996673469e-06) + $v_T * (#3.1128813914749324e-09 + #(-6.9979252545361348e-13) * $v_T))) - #2.2360434269999996e+03 / $v_T)]
    [Asn v_Kc 0 (#(-3.8417860860000004e+00) + #1.0375691900000001e+00 * $v_logT + $v_T * (#(-1.2541751250078512e-03) + $v_T * (#2.1556938697396752e-07 + $v_T * (#(-2.3434039105403970e-11) + #1.2341854350901322e-15 * $v_T))) - #2.2928339780000015e+03 / $v_T)];
  (*3433*) Do (Asn v_Kc 0 (#1.0000000000000000e+00 * (Exp $v_Kc)));
  (*3434*) Do (Asn v_rev_rxn_rates 275 (v_C.[0] * v_C.[32] * $v_kf / $v_Kc));
  (*3437*) Do (Asn v_kf 0 ((Exp (#1.0819778284410283e+01 + #1.6 * $v_logT - #4.8057468444050033e+02 / $v_T))));
  (*3438*) Do (Asn v_fwd_rxn_rates 277 (v_C.[33] * v_C.[4] * $v_kf));
  (*3439*) If ($v_T) (#1000.0)
    [Asn v_Kc 0 (#(-3.8617708999999945e-01) + #1.2460063000000021e-01 * $v_logT + $v_T * (#1.4596339600000000e-03 + $v_T * (#(-2.1182024166666668e-06) + $v_T * (#1.2992108341666668e-09 + #(-3.1059347149999999e-13) * $v_T))) - #(-5.2811687599999987e+03) / $v_T)]
    [Asn v_Kc 0 (#3.0280267999999966e-01 + #1.4139482000000037e-01 * $v_logT + $v_T * (#(-4.1522973800000001e-04) + $v_T * (#8.3896968999999980e-08 + $v_T * (#(-9.2281592833333339e-12) + #4.8685165999999991e-16 * $v_T))) - #(-5.1463013000000010e+03) / $v_T)];
  (*3445*) Do (Asn v_Kc 0 (#1.0000000000000000e+00 * (Exp $v_Kc)));
  (*3446*) Do (Asn v_rev_rxn_rates 276 (v_C.[5] * v_C.[32] * $v_kf / $v_Kc));
  (*3449*) Do (Asn v_kf 0 ((Exp (#9.1484649682580947e+00 + #1.94 * $v_logT - #3.2507983889901907e+03 / $v_T))));
  (*3450*) Do (Asn v_fwd_rxn_rates 278 (v_C.[33] * v_C.[2] * $v_kf));
  (*3451*) If ($v_T) (#1000.0)
    [Asn v_Kc 0 (#(-2.4140524580000009e+00) + #7.4172382999999931e-01 * $v_logT + $v_T * (#1.7161929099999999e-03 + $v_T * (#(-2.7728006250000000e-06) + $v_T * (#1.6203583508333335e-09 + #(-3.6841389550000001e-13) * $v_T))) - #3.1204598599999990e+03 / $v_T)]
    [Asn v_Kc 0 (#(-1.0772759300000003e+00) + #7.2375689000000021e-01 * $v_logT + $v_T * (#(-9.1227198514999975e-04) + $v_T * (#1.4641938818333331e-07 + $v_T * (#(-1.4964204641666667e-11) + #7.5855361449999995e-16 * $v_T))) - #3.3577307000000001e+03 / $v_T)];
  (*3457*) Do (Asn v_Kc 0 (#1.0000000000000000e+00 * (Exp $v_Kc)));
  (*3458*) Do (Asn v_rev_rxn_rates 277 (v_C.[32] * v_C.[4] * $v_kf / $v_Kc));
  (*3461*) Do (Asn v_kf 0 ((Exp (#2.3025850929940457e+01 - #7.2212007557289835e+03 / $v_T))));
  (*3462*) Do (Asn v_fwd_rxn_rates 279 (v_C.[31] * v_C.[15] * $v_kf));
  (*3463*) If ($v_T) (#1000.0)
    [Asn v_Kc 0 (#(-8.7544720900000002e+00) + #2.2633430499999991e+00 * $v_logT + $v_T * (#(-7.7881797650000001e-03) + $v_T * (#4.6837720699999996e-06 + $v_T * (#(-1.7642435446666668e-09) + #2.9102145245000001e-13 * $v_T))) - #3.6955517000000036e+03 / $v_T)]
    [Asn v_Kc 0 (#9.3593591400000005e+00 + #(-9.4671658000000036e-01) * $v_logT + $v_T * (#(-9.3639964999999575e-05) + $v_T * (#1.4254515983333336e-07 + $v_T * (#(-2.6192173916666672e-11) + #1.6077366320000000e-15 * $v_T))) - #4.2370276000000013e+03 / $v_T)];
  (*3469*) Do (Asn v_Kc 0 (#1.0000000000000000e+00 * (Exp $v_Kc)));
  (*3470*) Do (Asn v_rev_rxn_rates 278 (v_C.[14] * v_C.[38] * $v_kf / $v_Kc));
  (*3473*) Do (Asn v_kf 0 ((Exp (#2.9449097893473976e+01 - #0.752 * $v_logT - #1.7361074987641112e+02 / $v_T))));
  (*3474*) Do (Asn v_fwd_rxn_rates 280 (v_C.[39] * v_C.[36] * $v_kf));
  (*3475*) If ($v_T) (#1000.0)
    [Asn v_Kc 0 (#2.0503790000000008e+00 + #(-5.1155919999999977e-01) * $v_logT + $v_T * (#3.3535675350000000e-03 + $v_T * (#(-2.6912835166666669e-06) + $v_T * (#1.3546791858333333e-09 + #(-2.9492676699999999e-13) * $v_T))) - #(-3.0077857899999999e+04) / $v_T)]
    [Asn v_Kc 0 (#1.3736381500000010e+00 + #(-2.1794460000000004e-01) * $v_logT + $v_T * (#6.4021701250000017e-04 + $v_T * (#(-1.2974879833333331e-07) + $v_T * (#1.0710446250000000e-11 + #(-3.5169659000000000e-16) * $v_T))) - #(-2.9927588700000000e+04) / $v_T)];
  (*3481*) Do (Asn v_Kc 0 (#1.0000000000000000e+00 * (Exp $v_Kc)));
  (*3482*) Do (Asn v_rev_rxn_rates 279 (v_C.[46] * v_C.[35] * $v_kf / $v_Kc));
  (*3485*) Do (Asn v_kf 0 ((Exp (#2.1901920833288056e+01 - #(-3.5476979322570963e+02) / $v_T))));
  (*3486*) Do (Asn v_fwd_rxn_rates 281 (v_C.[36] * v_C.[46] * $v_kf));
  (*3487*) If ($v_T) (#1000.0)
    [Asn v_Kc 0 (#6.9536261999999986e+00 + #(-2.1570382800000001e+00) * $v_logT + $v_T * (#6.5347924849999987e-03 + $v_T * (#(-4.8443467149999997e-06) + $v_T * (#2.3179083683333335e-09 + #(-4.7890573239999995e-13) * $v_T))) - #(-5.7209290199999996e+04) / $v_T)]
    [Asn v_Kc 0 (#4.0880058199999985e+00 + #(-1.3564055099999992e+00) * $v_logT + $v_T * (#1.2819118299999997e-03 + $v_T * (#(-2.4415369833333335e-07) + $v_T * (#3.1510935666666673e-11 + #(-1.8687476049999999e-15) * $v_T))) - #(-5.7006382499999992e+04) / $v_T)];
  (*3493*) Do (Asn v_Kc 0 (#1.0000000000000000e+00 * (Exp $v_Kc)));
  (*3494*) Do (Asn v_rev_rxn_rates 280 (v_C.[15] * v_C.[37] * $v_kf / $v_Kc));
  (*3497*) Do (Asn v_kf 0 ((Exp (#2.1821878125614521e+01 - #5.6863810829085378e+03 / $v_T))));
  (*3498*) Do (Asn v_fwd_rxn_rates 282 (v_C.[15] * v_C.[30] * $v_kf));
  (*3499*) If ($v_T) (#1000.0)
    [Asn v_Kc 0 (#(-1.1246941489999999e+01) + #2.9412362500000002e+00 * $v_logT + $v_T * (#(-7.1169632250000000e-03) + $v_T * (#3.1968998366666663e-06 + $v_T * (#(-9.0735997799999998e-10) + #1.0214260245000000e-13 * $v_T))) - #(-1.2232130300000004e+04) / $v_T)]
    [Asn v_Kc 0 (#7.5643547400000015e+00 + #(-2.9761198000000055e-01) * $v_logT + $v_T * (#(-6.6781458999999968e-04) + $v_T * (#1.5097357983333332e-07 + $v_T * (#(-2.1183813000000005e-11) + #1.2423066550000001e-15 * $v_T))) - #(-1.1605504800000002e+04) / $v_T)];
  (*3505*) Do (Asn v_Kc 0 (#1.0000000000000000e+00 * (Exp $v_Kc)));
  (*3506*) Do (Asn v_rev_rxn_rates 281 (v_C.[14] * v_C.[35] * $v_kf / $v_Kc));
  (*3509*) Do (Asn v_fwd_rxn_rates 283 (v_C.[12] * v_C.[2] * #33700000000.0));
  (*3511*) Do (Asn v_kf 0 ((Exp (#8.8098628053790566e+00 + #1.83 * $v_logT - #1.1070830426901578e+02 / $v_T))));
  (*3512*) Do (Asn v_fwd_rxn_rates 284 (v_C.[24] * v_C.[2] * $v_kf));
  (*3513*) If ($v_T) (#1000.0)
    [Asn v_Kc 0 (#4.1807493069999992e+00 + #(-1.2184065799999999e+00) * $v_logT + $v_T * (#1.0794207655352666e-02 + $v_T * (#(-1.0308433526999319e-05) + $v_T * (#5.6773632118584010e-09 + #(-1.3116856005463866e-12) * $v_T))) - #(-7.2168986299999997e+03) / $v_T)]
    [Asn v_Kc 0 (#(-2.4451779924000004e+01) + #3.8701380699999999e+00 * $v_logT + $v_T * (#(-3.2144250046921485e-03) + $v_T * (#6.5420111787603255e-07 + $v_T * (#(-8.7931754569596045e-11) + #5.1358777294098679e-15 * $v_T))) - #(-8.1934835399999974e+03) / $v_T)];
  (*3519*) Do (Asn v_Kc 0 (#1.0000000000000000e+00 * (Exp $v_Kc)));
  (*3520*) Do (Asn v_rev_rxn_rates 282 (v_C.[50] * v_C.[1] * $v_kf / $v_Kc));
  (*3523*) Do (Asn v_kf 0 (#1.096e+11));
  (*3524*) Do (Asn v_fwd_rxn_rates 285 (v_C.[25] * v_C.[2] * $v_kf));
  (*3525*) If ($v_T) (#1000.0)
    [Asn v_Kc 0 (#(-2.8575363730000003e+00) + #(-2.4527327999999970e-01) * $v_logT + $v_T * (#2.1363109803526669e-03 + $v_T * (#(-1.4704039436659870e-06) + $v_T * (#7.1517632019173431e-10 + #(-1.6162240554638661e-13) * $v_T))) - #(-3.8063103800000004e+04) / $v_T)]
    [Asn v_Kc 0 (#(-2.5554281163999999e+01) + #3.3800336099999995e+00 * $v_logT + $v_T * (#(-2.7941195546921493e-03) + $v_T * (#6.1896742287603251e-07 + $v_T * (#(-8.8202883736262691e-11) + #5.3714188294098684e-15 * $v_T))) - #(-3.9194561199999996e+04) / $v_T)];
  (*3531*) Do (Asn v_Kc 0 (#1.0000000000000000e+00 * (Exp $v_Kc)));
  (*3532*) Do (Asn v_rev_rxn_rates 283 (v_C.[1] * v_C.[51] * $v_kf / $v_Kc));
  (*3535*) Do (Asn v_kf 0 ((Exp (#2.9240459028362647e+01 - #8.7207950590092878e+03 / $v_T))));
  (*3536*) Do (Asn v_fwd_rxn_rates 286 (v_C.[6] * v_C.[4] * $v_kf));
  (*3537*) If ($v_T) (#1000.0)
    [Asn v_Kc 0 (#(-4.9137695000000026e-01) + #(-3.1271651999999905e-01) * $v_logT + $v_T * (#1.0586348849999999e-03 + $v_T * (#(-1.5680872316666664e-06) + $v_T * (#1.0823547516666667e-09 + #(-2.8203297000000007e-13) * $v_T))) - #(-3.5267558859999997e+04) / $v_T)]
    [Asn v_Kc 0 (#2.9517713799999998e+00 + #(-7.9356824000000037e-01) * $v_logT + $v_T * (#4.3587786700000021e-04 + $v_T * (#(-6.9147710833333339e-08) + $v_T * (#7.1773627999999976e-12 + #(-2.9010321499999993e-16) * $v_T))) - #(-3.5063268533000002e+04) / $v_T)];
  (*3543*) Do (Asn v_Kc 0 (#1.0000000000000000e+00 * (Exp $v_Kc)));
  (*3544*) Do (Asn v_rev_rxn_rates 284 (v_C.[5] * v_C.[3] * $v_kf / $v_Kc));
  (*3547*) Do (Asn v_fwd_rxn_rates 287 (v_C.[12] * v_C.[4] * (Exp (#1.5894952099644110e+01 + #0.5 * $v_logT - #(-8.8315033632783047e+02) / $v_T))));
  (*3549*) Do (Asn v_kf 0 ((Exp (#2.1401299379696308e+01 + #0.43 * $v_logT - #(-1.8619123899789017e+02) / $v_T))));
  (*3550*) Do (Asn v_fwd_rxn_rates 288 (v_C.[0] * v_C.[9] * $v_kf));
  (*3551*) If ($v_T) (#1000.0)
    [Asn v_Kc 0 (#9.9810038200000006e-01 + #(-1.1605573699999998e+00) * $v_logT + $v_T * (#(-3.1467022704999995e-03) + $v_T * (#4.4828933683333333e-06 + $v_T * (#(-2.5158797433333334e-09) + #5.6630328100000011e-13 * $v_T))) - #(-5.3434359426999989e+04) / $v_T)]
    [Asn v_Kc 0 (#1.0130141320000000e+01 + #(-2.9300262099999999e+00) * $v_logT + $v_T * (#3.1591945810499999e-03 + $v_T * (#(-6.0517431883333331e-07) + $v_T * (#7.5494907249999997e-11 + #(-4.2174457649999999e-15) * $v_T))) - #(-5.3286693178000009e+04) / $v_T)];
  (*3557*) Do (Asn v_Kc 0 (#8.2057360967184814e-02 * (Exp $v_Kc)));
  (*3558*) Do (Asn v_rev_rxn_rates 285 (v_C.[12] * $v_kf / $v_Kc));
  (*3561*) Do (Asn v_fwd_rxn_rates 289 (v_C.[10] * v_C.[3] * (Exp (#2.2481123754498785e+01 - #7.5482934728874397e+02 / $v_T))));
  (*3563*) Do (Asn v_kf 0 ((Exp (#2.1598734574300313e+01 - #7.5482934728874397e+02 / $v_T))));
  (*3564*) Do (Asn v_fwd_rxn_rates 290 (v_C.[10] * v_C.[3] * $v_kf));
  (*3565*) If ($v_T) (#1000.0)
    [Asn v_Kc 0 (#(-2.9823164400000004e+00) + #4.1685521999999953e-01 * $v_logT + $v_T * (#(-5.5798952564999997e-03) + $v_T * (#5.2204773899999998e-06 + $v_T * (#(-2.5436988100000001e-09) + #5.1793896750000006e-13 * $v_T))) - #(-3.0126794040000001e+04) / $v_T)]
    [Asn v_Kc 0 (#8.6427652200000011e+00 + #(-1.8265281099999995e+00) * $v_logT + $v_T * (#1.9872731231500005e-03 + $v_T * (#(-3.6895450534999996e-07) + $v_T * (#4.3895353008333338e-11 + #(-2.3356345495000007e-15) * $v_T))) - #(-2.9953399480000000e+04) / $v_T)];
  (*3571*) Do (Asn v_Kc 0 (#1.0000000000000000e+00 * (Exp $v_Kc)));
  (*3572*) Do (Asn v_rev_rxn_rates 286 (v_C.[17] * v_C.[2] * $v_kf / $v_Kc));
  (*3575*) Do (Asn v_fwd_rxn_rates 291 (v_C.[10] * v_C.[10] * (Exp (#2.6021583203494448e+01 - #5.5298797982373380e+03 / $v_T))));
  (*3577*) Do (Asn v_fwd_rxn_rates 292 (v_C.[11] * v_C.[5] * (Exp (#1.8037955122813692e+01 + #0.25 * $v_logT - #(-4.7051029314331709e+02) / $v_T))));
  (*3579*) Do (Asn v_kf 0 ((Exp (#1.9529243363473643e+01 + #0.29 * $v_logT - #5.5354152134507890e+00 / $v_T))));
  (*3580*) Do (Asn v_fwd_rxn_rates 293 (v_C.[23] * v_C.[3] * $v_kf));
  (*3581*) If ($v_T) (#1000.0)
    [Asn v_Kc 0 (#(-1.4039881000000154e-01) + #(-4.1759370999999978e-01) * $v_logT + $v_T * (#4.4705988500000002e-03 + $v_T * (#(-4.5389478749999991e-06) + $v_T * (#2.6800358791666664e-09 + #(-6.4893854799999999e-13) * $v_T))) - #(-3.1521674399999974e+03) / $v_T)]
    [Asn v_Kc 0 (#(-1.5747296370000003e+01) + #2.2458289400000009e+00 * $v_logT + $v_T * (#(-1.8843499268500004e-03) + $v_T * (#4.5618576964999986e-07 + $v_T * (#(-6.9174234574999992e-11) + #4.3700325204999998e-15 * $v_T))) - #(-3.8165152799999978e+03) / $v_T)];
  (*3587*) Do (Asn v_Kc 0 (#1.0000000000000000e+00 * (Exp $v_Kc)));
  (*3588*) Do (Asn v_rev_rxn_rates 287 (v_C.[50] * v_C.[2] * $v_kf / $v_Kc));
  (*3591*) Do (Asn v_kf 0 ((Exp (#7.1981835771019433e+00 + #1.61 * $v_logT - #(-1.9323631290591845e+02) / $v_T))));
  (*3592*) Do (Asn v_fwd_rxn_rates 294 (v_C.[23] * v_C.[3] * $v_kf));
  (*3593*) If ($v_T) (#1000.0)
    [Asn v_Kc 0 (#7.3725952759999993e+00 + #(-1.8844437060000003e+00) * $v_logT + $v_T * (#1.0047192465000000e-02 + $v_T * (#(-8.3545226016666670e-06) + $v_T * (#4.0988278408333331e-09 + #(-8.5836470849999991e-13) * $v_T))) - #(-7.0721144999999997e+03) / $v_T)]
    [Asn v_Kc 0 (#(-1.2551252830000001e+01) + #1.8655187000000009e+00 * $v_logT + $v_T * (#(-1.8059149850000000e-03) + $v_T * (#4.0536391483333328e-07 + $v_T * (#(-5.3787074499999991e-11) + #3.0509054349999997e-15 * $v_T))) - #(-7.4765602669999989e+03) / $v_T)];
  (*3599*) Do (Asn v_Kc 0 (#1.0000000000000000e+00 * (Exp $v_Kc)));
  (*3600*) Do (Asn v_rev_rxn_rates 288 (v_C.[6] * v_C.[22] * $v_kf / $v_Kc));
  (*3603*) Do (Asn v_kf 0 ((Exp (#2.1794849453226600e+01 - #9.0982097326536609e+02 / $v_T))));
  (*3604*) Do (Asn v_fwd_rxn_rates 295 (v_C.[51] * v_C.[2] * $v_kf));
  (*3605*) If ($v_T) (#1000.0)
    [Asn v_Kc 0 (#3.7960643519999988e+00 + #(-4.9664916999999997e-01) * $v_logT + $v_T * (#7.4049305600000000e-03 + $v_T * (#(-7.9447590916666663e-06) + $v_T * (#4.3789134091666670e-09 + #(-9.9061360050000000e-13) * $v_T))) - #(-2.4128240399999995e+03) / $v_T)]
    [Asn v_Kc 0 (#(-2.9671279300000015e+00) + #1.0950260900000006e+00 * $v_logT + $v_T * (#(-1.4790320851499998e-03) + $v_T * (#2.6120774484999991e-07 + $v_T * (#(-2.9551873808333334e-11) + #1.4868796844999999e-15 * $v_T))) - #(-2.2754782999999989e+03) / $v_T)];
  (*3611*) Do (Asn v_Kc 0 (#1.0000000000000000e+00 * (Exp $v_Kc)));
  (*3612*) Do (Asn v_rev_rxn_rates 289 (v_C.[50] * v_C.[4] * $v_kf / $v_Kc));
  (*3615*) Do (Asn v_fwd_rxn_rates 296 (v_C.[51] * v_C.[2] * (Exp (#2.1794849453226600e+01 - #9.0982097326536609e+02 / $v_T))));
  (*3617*) Do (Asn v_fwd_rxn_rates 297 (v_C.[51] * v_C.[3] * (Exp (#2.4127791008701241e+01 - #1.9701045964236218e+04 / $v_T))));
  (*3619*) Do (Asn v_kf 0 ((Exp (#1.4533350351114590e+01 + #1.16 * $v_logT - #1.2102430534862860e+03 / $v_T))));
  (*3620*) Do (Asn v_fwd_rxn_rates 298 (v_C.[1] * v_C.[51] * $v_kf));
  (*3621*) If ($v_T) (#1000.0)
    [Asn v_Kc 0 (#8.0610335709999994e+00 + #(-1.4760663799999998e+00) * $v_logT + $v_T * (#1.0956190274647334e-02 + $v_T * (#(-1.0853596666334014e-05) + $v_T * (#5.8714364498082656e-09 + #(-1.3219922304536135e-12) * $v_T))) - #(-3.2972404729999980e+03) / $v_T)]
    [Asn v_Kc 0 (#(-5.7316380860000002e+00) + #1.4088383900000006e+00 * $v_logT + $v_T * (#(-1.8209352250078518e-03) + $v_T * (#3.3035774364063407e-07 + $v_T * (#(-3.8021708272070643e-11) + #1.9625115050901322e-15 * $v_T))) - #(-3.3403750220000002e+03) / $v_T)];
  (*3627*) Do (Asn v_Kc 0 (#1.0000000000000000e+00 * (Exp $v_Kc)));
  (*3628*) Do (Asn v_rev_rxn_rates 290 (v_C.[0] * v_C.[50] * $v_kf / $v_Kc));
  (*3631*) Do (Asn v_fwd_rxn_rates 299 (v_C.[1] * v_C.[51] * (Exp (#1.4533350351114590e+01 + #1.16 * $v_logT - #1.2102430534862860e+03 / $v_T))));
  (*3633*) Do (Asn v_fwd_rxn_rates 300 (v_C.[51] * v_C.[4] * (Exp (#1.6969527810483978e+01 + #0.73 * $v_logT - #(-5.6008337568824800e+02) / $v_T))));
  (*3635*) Do (Asn v_fwd_rxn_rates 301 (v_C.[51] * v_C.[6] * (Exp (#2.1825205915707194e+01 - #5.9998868718157964e+03 / $v_T))));
  (*3637*) Do (Asn v_fwd_rxn_rates 302 (v_C.[51] * v_C.[12] * (Exp (#7.9083871592900428e+00 + #1.77 * $v_logT - #2.9790598239662427e+03 / $v_T))));
  (*3639*) Do (Asn v_kf 0 ((Exp (#2.0002747459590335e+01 + #0.422 * $v_logT - #(-8.8315033632783047e+02) / $v_T))));
  (*3640*) Do (Asn v_fwd_rxn_rates 303 (v_C.[1] * v_C.[28] * $v_kf));
  (*3641*) If ($v_T) (#1000.0)
    [Asn v_Kc 0 (#(-9.8390084700000102e-01) + #(-2.2677429999999976e-01) * $v_logT + $v_T * (#(-3.6901490503526658e-03) + $v_T * (#3.2143732336659863e-06 + $v_T * (#(-1.3752132235250679e-09) + #2.4409805754638663e-13 * $v_T))) - #(-1.6909265259999996e+04) / $v_T)]
    [Asn v_Kc 0 (#(-4.1951879610000002e+00) + #(-3.5627329999999624e-02) * $v_logT + $v_T * (#(-4.3650321345785163e-04) + $v_T * (#2.3762872230730076e-07 + $v_T * (#(-4.3026289772070637e-11) + #2.8861824800901319e-15 * $v_T))) - #(-1.7432284989999996e+04) / $v_T)];
  (*3647*) Do (Asn v_Kc 0 (#8.2057360967184814e-02 * (Exp $v_Kc)));
  (*3648*) Do (Asn v_rev_rxn_rates 291 (v_C.[50] * $v_kf / $v_Kc));
  (*3651*) Do (Asn v_fwd_rxn_rates 304 (v_C.[50] * v_C.[2] * #1.5e+11));
  (*3653*) Do (Asn v_fwd_rxn_rates 305 (v_C.[50] * v_C.[3] * #18100000.0));
  (*3655*) Do (Asn v_fwd_rxn_rates 306 (v_C.[50] * v_C.[3] * #23500000.0));
  (*3657*) Do (Asn v_kf 0 (#22000000000.0));
  (*3658*) Do (Asn v_fwd_rxn_rates 307 (v_C.[50] * v_C.[1] * $v_kf));
  (*3659*) If ($v_T) (#1000.0)
    [Asn v_Kc 0 (#(-6.0983846269999997e+00) + #1.9857142400000005e+00 * $v_logT + $v_T * (#(-5.9857737853526672e-03) + $v_T * (#2.9364451936659863e-06 + $v_T * (#(-1.0855833793584011e-09) + #2.0070804954638662e-13 * $v_T))) - #(-6.7105727399999960e+03) / $v_T)]
    [Asn v_Kc 0 (#2.7188128534000001e+01 + #(-3.4177779099999999e+00) * $v_logT + $v_T * (#2.0331323265421488e-03 + $v_T * (#(-4.5466260435936584e-07) + $v_T * (#6.4818002227929358e-11 + #(-3.9153070499098686e-15) * $v_T))) - #(-5.1764792500000003e+03) / $v_T)];
  (*3665*) Do (Asn v_Kc 0 (#1.0000000000000000e+00 * (Exp $v_Kc)));
  (*3666*) Do (Asn v_rev_rxn_rates 292 (v_C.[12] * v_C.[16] * $v_kf / $v_Kc));
  (*3669*) Do (Asn v_kf 0 (#11000000000.0));
  (*3670*) Do (Asn v_fwd_rxn_rates 308 (v_C.[50] * v_C.[1] * $v_kf));
  (*3671*) If ($v_T) (#1000.0)
    [Asn v_Kc 0 (#5.2159456710000018e+00 + #(-1.4288945800000001e+00) * $v_logT + $v_T * (#7.6804094246473329e-03 + $v_T * (#(-6.4607317330006790e-06) + $v_T * (#3.0549806731415989e-09 + #(-6.1290393795361334e-13) * $v_T))) - #(-3.4955989713000003e+04) / $v_T)]
    [Asn v_Kc 0 (#3.5462512990000024e+00 + #(-6.2709349000000003e-01) * $v_logT + $v_T * (#4.1180199999214827e-04 + $v_T * (#(-1.5438593135936572e-07) + $v_T * (#2.8062424394596024e-11 + #(-1.8849056499098676e-15) * $v_T))) - #(-3.4465193732000000e+04) / $v_T)];
  (*3677*) Do (Asn v_Kc 0 (#1.0000000000000000e+00 * (Exp $v_Kc)));
  (*3678*) Do (Asn v_rev_rxn_rates 293 (v_C.[0] * v_C.[28] * $v_kf / $v_Kc));
  (*3681*) Do (Asn v_kf 0 (#12000000000.0));
  (*3682*) Do (Asn v_fwd_rxn_rates 309 (v_C.[50] * v_C.[4] * $v_kf));
  (*3683*) If ($v_T) (#1000.0)
    [Asn v_Kc 0 (#2.9788518200000018e+00 + #(-1.0666005699999994e+00) * $v_logT + $v_T * (#3.8725907599999982e-03 + $v_T * (#(-2.8972959499999997e-06) + $v_T * (#1.2413101158333333e-09 + #(-2.2370488400000000e-13) * $v_T))) - #(-4.2473201900000000e+04) / $v_T)]
    [Asn v_Kc 0 (#7.6908400650000015e+00 + #(-1.5232678600000003e+00) * $v_logT + $v_T * (#1.2507473869999997e-03 + $v_T * (#(-2.8605834933333325e-07) + $v_T * (#4.2268304216666665e-11 + #(-2.6322394249999997e-15) * $v_T))) - #(-4.1904329009999994e+04) / $v_T)];
  (*3689*) Do (Asn v_Kc 0 (#1.0000000000000000e+00 * (Exp $v_Kc)));
  (*3690*) Do (Asn v_rev_rxn_rates 294 (v_C.[28] * v_C.[5] * $v_kf / $v_Kc));
  (*3693*) Do (Asn v_kf 0 (#30100000000.0));
  (*3694*) Do (Asn v_fwd_rxn_rates 310 (v_C.[50] * v_C.[4] * $v_kf));
  (*3695*) If ($v_T) (#1000.0)
    [Asn v_Kc 0 (#(-1.2709672719999991e+00) + #6.8399759000000060e-01 * $v_logT + $v_T * (#(-2.9922293800000001e-03) + $v_T * (#2.2005386833333331e-06 + $v_T * (#(-1.0606578474999997e-09) + #2.2379308650000000e-13 * $v_T))) - #(-4.4909058699999996e+03) / $v_T)]
    [Asn v_Kc 0 (#1.8781049570000004e+01 + #(-2.6037176000000000e+00) * $v_logT + $v_T * (#2.4618512570000004e-03 + $v_T * (#(-6.0305809300000002e-07) + $v_T * (#8.8109347466666671e-11 + #(-5.4093679400000002e-15) * $v_T))) - #(-3.5795669200000002e+03) / $v_T)];
  (*3701*) Do (Asn v_Kc 0 (#1.0000000000000000e+00 * (Exp $v_Kc)));
  (*3702*) Do (Asn v_rev_rxn_rates 295 (v_C.[18] * v_C.[16] * $v_kf / $v_Kc));
  (*3705*) Do (Asn v_kf 0 (#9430000000.0));
  (*3706*) Do (Asn v_fwd_rxn_rates 311 (v_C.[25] * v_C.[12] * $v_kf));
  (*3707*) If ($v_T) (#1000.0)
    [Asn v_Kc 0 (#1.9936419700000002e+01 + #(-6.0465022699999995e+00) * $v_logT + $v_T * (#1.4300108085000001e-02 + $v_T * (#(-8.2230877600000006e-06) + $v_T * (#3.7338613208333330e-09 + #(-8.0399162200000011e-13) * $v_T))) - #(-4.3245145300000004e+04) / $v_T)]
    [Asn v_Kc 0 (#(-4.3128617750000004e+01) + #4.2937626599999996e+00 * $v_logT + $v_T * (#(-2.8824667850000010e-03) + $v_T * (#7.8289351000000012e-07 + $v_T * (#(-1.1942542033333333e-10) + #7.4259473200000004e-15 * $v_T))) - #(-4.6100620299999995e+04) / $v_T)];
  (*3713*) Do (Asn v_Kc 0 (#8.2057360967184814e-02 * (Exp $v_Kc)));
  (*3714*) Do (Asn v_rev_rxn_rates 296 (v_C.[49] * $v_kf / $v_Kc));
  (*3717*) Do (Asn v_kf 0 ((Exp (#5.2626901889048856e+00 + #2.68 * $v_logT - #1.8699639030166484e+03 / $v_T))));
  (*3718*) Do (Asn v_fwd_rxn_rates 312 (v_C.[49] * v_C.[2] * $v_kf));
  (*3719*) If ($v_T) (#1000.0)
    [Asn v_Kc 0 (#(-1.1767372380000016e+00) + #9.4174631999999958e-01 * $v_logT + $v_T * (#2.2270115999999986e-04 + $v_T * (#(-9.5850737499999998e-07) + $v_T * (#3.8457190916666659e-10 + #(-4.4511165499999949e-14) * $v_T))) - #(-9.1679564000000028e+02) / $v_T)]
    [Asn v_Kc 0 (#1.4124976699999974e+00 + #6.9202879000000062e-01 * $v_logT + $v_T * (#(-1.0968160851500004e-03) + $v_T * (#1.7884731151666657e-07 + $v_T * (#(-1.9141580475000006e-11) + #9.4793428450000006e-16 * $v_T))) - #(-5.9297249999999985e+02) / $v_T)];
  (*3725*) Do (Asn v_Kc 0 (#1.0000000000000000e+00 * (Exp $v_Kc)));
  (*3726*) Do (Asn v_rev_rxn_rates 297 (v_C.[48] * v_C.[4] * $v_kf / $v_Kc));
  (*3729*) Do (Asn v_kf 0 ((Exp (#7.1853870155804165e+00 + #2.54 * $v_logT - #3.3997513801885029e+03 / $v_T))));
  (*3730*) Do (Asn v_fwd_rxn_rates 313 (v_C.[1] * v_C.[49] * $v_kf));
  (*3731*) If ($v_T) (#1000.0)
    [Asn v_Kc 0 (#3.0882319809999963e+00 + #(-3.7670890000000012e-02) * $v_logT + $v_T * (#3.7739608746473353e-03 + $v_T * (#(-3.8673449496673465e-06) + $v_T * (#1.8770949498082650e-09 + #(-3.7588979545361342e-13) * $v_T))) - #(-1.8012120729999988e+03) / $v_T)]
    [Asn v_Kc 0 (#(-1.3520124859999996e+00) + #1.0058410900000005e+00 * $v_logT + $v_T * (#(-1.4387192250078507e-03) + $v_T * (#2.4799731030730078e-07 + $v_T * (#(-2.7611414938737315e-11) + #1.4235661050901322e-15 * $v_T))) - #(-1.6578692219999975e+03) / $v_T)];
  (*3737*) Do (Asn v_Kc 0 (#1.0000000000000000e+00 * (Exp $v_Kc)));
  (*3738*) Do (Asn v_rev_rxn_rates 298 (v_C.[0] * v_C.[48] * $v_kf / $v_Kc));
  (*3741*) Do (Asn v_kf 0 ((Exp (#1.0360912399575003e+01 + #1.8 * $v_logT - #4.7000707357845789e+02 / $v_T))));
  (*3742*) Do (Asn v_fwd_rxn_rates 314 (v_C.[49] * v_C.[4] * $v_kf));
  (*3743*) If ($v_T) (#1000.0)
    [Asn v_Kc 0 (#8.5113812999999983e-01 + #3.2462312000000049e-01 * $v_logT + $v_T * (#(-3.3857790000000080e-05) + $v_T * (#(-3.0390916666666667e-07) + $v_T * (#6.3424392499999792e-11 + #1.3309258500000088e-14 * $v_T))) - #(-9.3184242600000016e+03) / $v_T)]
    [Asn v_Kc 0 (#2.7925762799999974e+00 + #1.0966672000000033e-01 * $v_logT + $v_T * (#(-5.9977383799999964e-04) + $v_T * (#1.1632489233333324e-07 + $v_T * (#(-1.3405535116666673e-11) + #6.7623233000000012e-16 * $v_T))) - #(-9.0970044999999991e+03) / $v_T)];
  (*3749*) Do (Asn v_Kc 0 (#1.0000000000000000e+00 * (Exp $v_Kc)));
  (*3750*) Do (Asn v_rev_rxn_rates 299 (v_C.[48] * v_C.[5] * $v_kf / $v_Kc));
  (*3753*) Do (Asn v_kf 0 ((Exp (#(-9.7286108336254939e-01) + #2.72 * $v_logT - #7.5482934728874397e+02 / $v_T))));
  (*3754*) Do (Asn v_fwd_rxn_rates 315 (v_C.[48] * v_C.[7] * $v_kf));
  (*3755*) If ($v_T) (#1000.0)
    [Asn v_Kc 0 (#(-1.5469436200000009e+00) + #(-9.2312669999999653e-02) * $v_logT + $v_T * (#(-1.8868495465000005e-03) + $v_T * (#1.3584396166666659e-06 + $v_T * (#(-4.2226984166666672e-10) + #4.0469295499999919e-14 * $v_T))) - #(-6.5929928599999985e+03) / $v_T)]
    [Asn v_Kc 0 (#(-1.2268696199999973e+00) + #(-3.1635384999999872e-01) * $v_logT + $v_T * (#7.9769594999999725e-05 + $v_T * (#4.6534500000000158e-08 + $v_T * (#(-8.7640854999999938e-12) + #4.7770959999999990e-16 * $v_T))) - #(-6.7923051869999981e+03) / $v_T)];
  (*3761*) Do (Asn v_Kc 0 (#1.0000000000000000e+00 * (Exp $v_Kc)));
  (*3762*) Do (Asn v_rev_rxn_rates 300 (v_C.[6] * v_C.[49] * $v_kf / $v_Kc));
  (*3765*) Do (Asn v_kf 0 ((Exp (#(-7.0097880045472882e+00) + #3.65 * $v_logT - #3.6000327670024494e+03 / $v_T))));
  (*3766*) Do (Asn v_fwd_rxn_rates 316 (v_C.[12] * v_C.[49] * $v_kf));
  (*3767*) If ($v_T) (#1000.0)
    [Asn v_Kc 0 (#(-5.9192838099999996e+00) + #1.5942837199999993e+00 * $v_logT + $v_T * (#(-8.0572647749999997e-03) + $v_T * (#6.6206537733333336e-06 + $v_T * (#(-3.2695998625000014e-09) + #6.9919299800000005e-13 * $v_T))) - #(-2.1012634000000016e+03) / $v_T)]
    [Asn v_Kc 0 (#1.4411719535000000e+01 + #(-2.0423043249999999e+00) * $v_logT + $v_T * (#1.6615051650000004e-03 + $v_T * (#(-2.9286458500000016e-07) + $v_T * (#3.9622509666666650e-11 + #(-2.3327002800000002e-15) * $v_T))) - #(-1.4779792899999993e+03) / $v_T)];
  (*3773*) Do (Asn v_Kc 0 (#1.0000000000000000e+00 * (Exp $v_Kc)));
  (*3774*) Do (Asn v_rev_rxn_rates 301 (v_C.[48] * v_C.[13] * $v_kf / $v_Kc));
  (*3777*) Do (Asn v_kf 0 ((Exp (#7.8438486381524717e+00 + #1.6 * $v_logT - #2.8683515196972271e+03 / $v_T))));
  (*3778*) Do (Asn v_fwd_rxn_rates 317 (v_C.[12] * v_C.[24] * $v_kf));
  (*3779*) If ($v_T) (#1000.0)
    [Asn v_Kc 0 (#2.2001903790000000e+01 + #(-5.5812400800000006e+00) * $v_logT + $v_T * (#1.5775775360000001e-02 + $v_T * (#(-1.0074865626666667e-05) + $v_T * (#4.7017067124999999e-09 + #(-1.0079523820000001e-12) * $v_T))) - #(-1.0902911730000002e+04) / $v_T)]
    [Asn v_Kc 0 (#(-3.7646490909999997e+01) + #4.3808698200000000e+00 * $v_logT + $v_T * (#(-2.9205562349999999e-03) + $v_T * (#7.3576677166666677e-07 + $v_T * (#(-1.0874399783333334e-10) + #6.6514608200000001e-15 * $v_T))) - #(-1.3417036839999997e+04) / $v_T)];
  (*3785*) Do (Asn v_Kc 0 (#8.2057360967184814e-02 * (Exp $v_Kc)));
  (*3786*) Do (Asn v_rev_rxn_rates 302 (v_C.[48] * $v_kf / $v_Kc));
  (*3789*) Do (Asn v_kf 0 (#96400000000.0));
  (*3790*) Do (Asn v_fwd_rxn_rates 318 (v_C.[48] * v_C.[2] * $v_kf));
  (*3791*) If ($v_T) (#1000.0)
    [Asn v_Kc 0 (#(-2.2744840249999999e+01) + #4.8803699300000005e+00 * $v_logT + $v_T * (#(-1.8403791885000000e-02) + $v_T * (#1.3002193923333334e-05 + $v_T * (#(-6.0086292883333325e-09) + #1.2371129445000000e-12 * $v_T))) - #(-4.1221452400000002e+04) / $v_T)]
    [Asn v_Kc 0 (#4.4371371640000000e+01 + #(-6.5567729799999999e+00) * $v_logT + $v_T * (#5.3195220668499996e-03 + $v_T * (#(-1.1938802114833331e-06) + $v_T * (#1.6713507415833335e-10 + #(-9.9931596455000007e-15) * $v_T))) - #(-3.8654324999999997e+04) / $v_T)];
  (*3797*) Do (Asn v_Kc 0 (#1.0000000000000000e+00 * (Exp $v_Kc)));
  (*3798*) Do (Asn v_rev_rxn_rates 303 (v_C.[17] * v_C.[25] * $v_kf / $v_Kc));
  (*3801*) Do (Asn v_kf 0 (#36130000000.0));
  (*3802*) Do (Asn v_fwd_rxn_rates 319 (v_C.[48] * v_C.[1] * $v_kf));
  (*3803*) If ($v_T) (#1000.0)
    [Asn v_Kc 0 (#1.1438128430000005e+00 + #(-1.6179979899999999e+00) * $v_logT + $v_T * (#2.1629949964733299e-04 + $v_T * (#6.2098645033265328e-07 + $v_T * (#(-1.9732750019173450e-10) + #7.0839150463865803e-15 * $v_T))) - #(-5.0064042900000000e+04) / $v_T)]
    [Asn v_Kc 0 (#7.0307582400000168e-01 + #(-1.6685619100000002e+00) * $v_logT + $v_T * (#1.4140180115421483e-03 + $v_T * (#(-1.6475451935936569e-07) + $v_T * (#1.2647549561262703e-11 + #(-4.2228927490986799e-16) * $v_T))) - #(-5.0239609499999999e+04) / $v_T)];
  (*3809*) Do (Asn v_Kc 0 (#8.2057360967184814e-02 * (Exp $v_Kc)));
  (*3810*) Do (Asn v_rev_rxn_rates 304 (v_C.[49] * $v_kf / $v_Kc));
  (*3813*) Do (Asn v_kf 0 ((Exp (#8.3089382525957785e+00 + #2.19 * $v_logT - #4.4786541272465473e+02 / $v_T))));
  (*3814*) Do (Asn v_fwd_rxn_rates 320 (v_C.[48] * v_C.[1] * $v_kf));
  (*3815*) If ($v_T) (#1000.0)
    [Asn v_Kc 0 (#(-1.8792606857000003e+01) + #4.4285042800000003e+00 * $v_logT + $v_T * (#(-1.4083808585352667e-02) + $v_T * (#8.8440742103326544e-06 + $v_T * (#(-3.9311888210250671e-09) + #8.1107553704638682e-13 * $v_T))) - #(-6.8188975999999966e+03) / $v_T)]
    [Asn v_Kc 0 (#4.3831693573999999e+01 + #(-5.9623245699999998e+00) * $v_logT + $v_T * (#4.2964847965421488e-03 + $v_T * (#(-9.4764802935936579e-07) + $v_T * (#1.3207296989459600e-10 + #(-7.8482365949098669e-15) * $v_T))) - #(-4.1389892000000000e+03) / $v_T)];
  (*3821*) Do (Asn v_Kc 0 (#1.0000000000000000e+00 * (Exp $v_Kc)));
  (*3822*) Do (Asn v_rev_rxn_rates 305 (v_C.[25] * v_C.[12] * $v_kf / $v_Kc));
  (*3825*) Do (Asn v_kf 0 (#24100000000.0));
  (*3826*) Do (Asn v_fwd_rxn_rates 321 (v_C.[48] * v_C.[4] * $v_kf));
  (*3827*) If ($v_T) (#1000.0)
    [Asn v_Kc 0 (#(-1.3965189501999998e+01) + #3.1267876299999995e+00 * $v_logT + $v_T * (#(-1.1090264180000000e-02) + $v_T * (#8.1081677000000007e-06 + $v_T * (#(-3.9062632891666669e-09) + #8.3416057400000001e-13 * $v_T))) - #(-4.5992307299999993e+03) / $v_T)]
    [Asn v_Kc 0 (#3.5424614609999992e+01 + #(-5.1482642599999995e+00) * $v_logT + $v_T * (#4.7252037270000017e-03 + $v_T * (#(-1.0960435180000003e-06) + $v_T * (#1.5536431513333333e-10 + #(-9.3422974850000000e-15) * $v_T))) - #(-2.5420768699999999e+03) / $v_T)];
  (*3833*) Do (Asn v_Kc 0 (#1.0000000000000000e+00 * (Exp $v_Kc)));
  (*3834*) Do (Asn v_rev_rxn_rates 306 (v_C.[18] * v_C.[25] * $v_kf / $v_Kc));
  (*3837*) Do (Asn v_kf 0 ((Exp (#1.7054189010128656e+01 + #0.255 * $v_logT - #(-4.7453604966219035e+02) / $v_T))));
  (*3838*) Do (Asn v_fwd_rxn_rates 322 (v_C.[48] * v_C.[6] * $v_kf));
  (*3839*) If ($v_T) (#1000.0)
    [Asn v_Kc 0 (#(-1.3425150799999996e+00) + #(-6.3733963999999999e-01) * $v_logT + $v_T * (#1.0924926749999991e-03 + $v_T * (#(-1.2641780649999996e-06) + $v_T * (#1.0189303591666669e-09 + #(-2.9534222850000009e-13) * $v_T))) - #(-2.5949134600000001e+04) / $v_T)]
    [Asn v_Kc 0 (#1.5919509999999981e-01 + #(-9.0323496000000159e-01) * $v_logT + $v_T * (#1.0356517049999998e-03 + $v_T * (#(-1.8547260316666649e-07) + $v_T * (#2.0582897916666666e-11 + #(-9.6633554500000025e-16) * $v_T))) - #(-2.5966264032999999e+04) / $v_T)];
  (*3845*) Do (Asn v_Kc 0 (#1.0000000000000000e+00 * (Exp $v_Kc)));
  (*3846*) Do (Asn v_rev_rxn_rates 307 (v_C.[3] * v_C.[49] * $v_kf / $v_Kc));
  (*3849*) Do (Asn v_fwd_rxn_rates 323 (v_C.[48] * v_C.[6] * #24100000000.0));
  (*3851*) Do (Asn v_kf 0 ((Exp (#2.3681815319372685e+01 - #0.32 * $v_logT))));
  (*3852*) Do (Asn v_fwd_rxn_rates 324 (v_C.[48] * v_C.[12] * $v_kf));
  (*3853*) If ($v_T) (#1000.0)
    [Asn v_Kc 0 (#(-1.7200494010000000e+01) + #3.8877891599999987e+00 * $v_logT + $v_T * (#(-1.8188054794999998e-02) + $v_T * (#1.5219714806666666e-05 + $v_T * (#(-7.7787148291666661e-09) + #1.7092348230000002e-12 * $v_T))) - #(-1.3936088000000000e+03) / $v_T)]
    [Asn v_Kc 0 (#4.0004080389999999e+01 + #(-6.0791035800000000e+00) * $v_logT + $v_T * (#5.7552205150000011e-03 + $v_T * (#(-1.2822779800000002e-06) + $v_T * (#1.7880693633333333e-10 + #(-1.0658771429999999e-14) * $v_T))) - #6.4102210000000196e+02 / $v_T)];
  (*3859*) Do (Asn v_Kc 0 (#1.0000000000000000e+00 * (Exp $v_Kc)));
  (*3860*) Do (Asn v_rev_rxn_rates 308 (v_C.[25] * v_C.[25] * $v_kf / $v_Kc))
].
