(** Transcription of /repo/utilities/mechanisms/drm19/lib/src (C, constant pressure branch); the number
    before a statement is its line. *)
From Coq Require Import List QArith.
From Verif Require Import MechLang.
Import ListNotations.
Local Open Scope mech_scope.

(** [eval_rxn_rates], drm19/lib/src/rxn_rates.c:2-1016. *)
Definition drm19_eval_rxn_rates : list stmt := [
  (*3*) Do (Asn v_logT 0 ((Log $v_T)));
  (*9*) Do (Asn v_kf 0 ((Exp (#2.6937873935368604e+01 - #1.0 * $v_logT))));
  (*10*) Do (Asn v_fwd_rxn_rates 0 (v_C.[1] * v_C.[2] * $v_kf));
  (*11*) If ($v_T) (#1000.0)
    [Asn v_Kc 0 (#(-3.2924395000000217e-02) + #(-6.7625167000000008e-01) * $v_logT + $v_T * (#4.3900065964733344e-04 + $v_T * (#(-3.3752092466734680e-07) + $v_T * (#1.8724440897493195e-10 + #(-3.7427250453613386e-14) * $v_T))) - #(-5.0980838539999997e+04) / $v_T)]
    [Asn v_Kc 0 (#2.1155734939999999e+00 + #(-9.7653312000000003e-01) * $v_logT + $v_T * (#3.1720192639214862e-04 + $v_T * (#1.4092792157300863e-08 + $v_T * (#(-6.4940309137373039e-12) + #5.2564500959013221e-16 * $v_T))) - #(-5.0832581999999995e+04) / $v_T)];
  (*17*) Do (Asn v_Kc 0 (#8.2057360967184814e-02 * (Exp $v_Kc)));
  (*18*) Do (Asn v_rev_rxn_rates 0 (v_C.[4] * $v_kf / $v_Kc));
  (*21*) Do (Asn v_kf 0 ((Exp (#3.9120230054281460e+00 + #2.67 * $v_logT - #3.1652510629641329e+03 / $v_T))));
  (*22*) Do (Asn v_fwd_rxn_rates 1 (v_C.[0] * v_C.[2] * $v_kf));
  (*23*) If ($v_T) (#1000.0)
    [Asn v_Kc 0 (#(-4.2649692189999993e+00) + #9.7941721000000026e-01 * $v_logT + $v_T * (#(-3.5512597146473337e-03) + $v_T * (#2.9088375746673461e-06 + $v_T * (#(-1.4925230406415985e-09) + #3.3137862995361342e-13 * $v_T))) - #8.8441643299999851e+02 / $v_T)]
    [Asn v_Kc 0 (#2.7645101560000005e+00 + #(-3.1381229999999993e-01) * $v_logT + $v_T * (#3.4190313985785133e-04 + $v_T * (#(-6.9149998790634198e-08) + $v_T * (#8.4698344637373057e-12 + #(-4.7563182059013212e-16) * $v_T))) - #1.0648967219999977e+03 / $v_T)];
  (*29*) Do (Asn v_Kc 0 (#1.0000000000000000e+00 * (Exp $v_Kc)));
  (*30*) Do (Asn v_rev_rxn_rates 1 (v_C.[1] * v_C.[4] * $v_kf / $v_Kc));
  (*33*) Do (Asn v_kf 0 (#20000000000.0));
  (*34*) Do (Asn v_fwd_rxn_rates 2 (v_C.[6] * v_C.[2] * $v_kf));
  (*35*) If ($v_T) (#1000.0)
    [Asn v_Kc 0 (#(-2.5192523180000004e+00) + #3.0440668000000004e-01 * $v_logT + $v_T * (#1.3151938349999998e-03 + $v_T * (#(-2.2226854399999996e-06) + $v_T * (#1.4035022683333336e-09 + #(-3.3985339400000004e-13) * $v_T))) - #(-2.6865930240000002e+04) / $v_T)]
    [Asn v_Kc 0 (#1.5716927700000003e+00 + #(-2.1120617000000097e-01) * $v_logT + $v_T * (#(-6.1164380150000020e-05) + $v_T * (#(-6.6252916499999951e-09) + $v_T * (#1.4413174416666637e-12 + #(-1.8401260499999932e-17) * $v_T))) - #(-2.6559236532999999e+04) / $v_T)];
  (*41*) Do (Asn v_Kc 0 (#1.0000000000000000e+00 * (Exp $v_Kc)));
  (*42*) Do (Asn v_rev_rxn_rates 2 (v_C.[3] * v_C.[4] * $v_kf / $v_Kc));
  (*45*) Do (Asn v_kf 0 (#80000000000.0));
  (*46*) Do (Asn v_fwd_rxn_rates 3 (v_C.[7] * v_C.[2] * $v_kf));
  (*47*) If ($v_T) (#1000.0)
    [Asn v_Kc 0 (#(-4.5701580300000000e-01) + #(-2.0975992999999971e-01) * $v_logT + $v_T * (#(-4.6673931114733346e-04) + $v_T * (#7.2366370466734677e-07 + $v_T * (#(-2.7795262730826525e-10) + #2.6880587453613382e-14 * $v_T))) - #(-4.5813074439999997e+04) / $v_T)]
    [Asn v_Kc 0 (#(-1.4325223539999996e+00) + #(-1.7134752000000031e-01) * $v_logT + $v_T * (#6.9326821530785122e-04 + $v_T * (#(-1.8624310045730086e-07) + $v_T * (#2.8250000347070641e-11 + #(-1.7903225405901321e-15) * $v_T))) - #(-4.5995605049999998e+04) / $v_T)];
  (*53*) Do (Asn v_Kc 0 (#1.0000000000000000e+00 * (Exp $v_Kc)));
  (*54*) Do (Asn v_rev_rxn_rates 3 (v_C.[1] * v_C.[13] * $v_kf / $v_Kc));
  (*57*) Do (Asn v_kf 0 (#15000000000.0));
  (*58*) Do (Asn v_fwd_rxn_rates 4 (v_C.[8] * v_C.[2] * $v_kf));
  (*59*) If ($v_T) (#1000.0)
    [Asn v_Kc 0 (#2.3105604539999995e+00 + #(-6.4568536999999937e-01) * $v_logT + $v_T * (#1.2010038553526665e-03 + $v_T * (#(-1.8268026033265306e-07) + $v_T * (#(-4.1515270641598609e-11) + #1.4094078453613377e-14 * $v_T))) - #(-5.0305850640000004e+04) / $v_T)]
    [Asn v_Kc 0 (#(-4.4698935139999989e+00) + #4.1071518999999990e-01 * $v_logT + $v_T * (#1.9352149030785112e-04 + $v_T * (#(-8.5747517123967536e-08) + $v_T * (#1.5106129430403969e-11 + #(-1.0303785505901323e-15) * $v_T))) - #(-5.0658000749999999e+04) / $v_T)];
  (*65*) Do (Asn v_Kc 0 (#1.0000000000000000e+00 * (Exp $v_Kc)));
  (*66*) Do (Asn v_rev_rxn_rates 4 (v_C.[1] * v_C.[13] * $v_kf / $v_Kc));
  (*69*) Do (Asn v_kf 0 (#84300000000.0));
  (*70*) Do (Asn v_fwd_rxn_rates 5 (v_C.[9] * v_C.[2] * $v_kf));
  (*71*) If ($v_T) (#1000.0)
    [Asn v_Kc 0 (#(-3.9522333930000006e+00) + #4.5186564999999979e-01 * $v_logT + $v_T * (#(-4.3199832996473333e-03) + $v_T * (#4.1581197130006792e-06 + $v_T * (#(-2.0774404673082650e-09) + #4.2603740745361341e-13 * $v_T))) - #(-3.4402554800000005e+04) / $v_T)]
    [Asn v_Kc 0 (#5.3967806600000001e-01 + #(-5.9444841000000048e-01) * $v_logT + $v_T * (#1.0230372703078517e-03 + $v_T * (#(-2.4623218212396754e-07) + $v_T * (#3.5062104263737296e-11 + #(-2.1449230505901326e-15) * $v_T))) - #(-3.4515335800000001e+04) / $v_T)];
  (*77*) Do (Asn v_Kc 0 (#1.0000000000000000e+00 * (Exp $v_Kc)));
  (*78*) Do (Asn v_rev_rxn_rates 5 (v_C.[14] * v_C.[1] * $v_kf / $v_Kc));
  (*81*) Do (Asn v_kf 0 ((Exp (#1.3835313185260453e+01 + #1.5 * $v_logT - #4.3276882577887991e+03 / $v_T))));
  (*82*) Do (Asn v_fwd_rxn_rates 6 (v_C.[10] * v_C.[2] * $v_kf));
  (*83*) If ($v_T) (#1000.0)
    [Asn v_Kc 0 (#4.7425465719999984e+00 + #(-6.5253739999999949e-01) * $v_logT + $v_T * (#8.2799659350000013e-03 + $v_T * (#(-7.5791611483333340e-06) + $v_T * (#3.6541717716666670e-09 + #(-7.4370416350000000e-13) * $v_T))) - #1.1844677599999995e+03 / $v_T)]
    [Asn v_Kc 0 (#(-1.2999221865000001e+01) + #2.7343331149999996e+00 * $v_logT + $v_T * (#(-2.7583212501499999e-03) + $v_T * (#4.7171189651666662e-07 + $v_T * (#(-5.8764090141666669e-11) + #3.2806345645000004e-15 * $v_T))) - #8.8500678999999946e+02 / $v_T)];
  (*89*) Do (Asn v_Kc 0 (#1.0000000000000000e+00 * (Exp $v_Kc)));
  (*90*) Do (Asn v_rev_rxn_rates 6 (v_C.[9] * v_C.[4] * $v_kf / $v_Kc));
  (*93*) Do (Asn v_kf 0 ((Exp (#2.0215768003273094e+01 - #1.5096586945774879e+03 / $v_T))));
  (*94*) Do (Asn v_fwd_rxn_rates 7 (v_C.[11] * v_C.[2] * $v_kf));
  (*95*) If ($v_T) (#1000.0)
    [Asn v_Kc 0 (#8.7317365300000009e+00 + #(-3.3910270499999999e+00) * $v_logT + $v_T * (#6.4371346450000002e-03 + $v_T * (#(-2.4639068299999998e-06) + $v_T * (#6.4002088133333328e-10 + #(-6.7596737950000005e-14) * $v_T))) - #(-6.3150142900000006e+04) / $v_T)]
    [Asn v_Kc 0 (#(-8.9042422000000006e+00) + #(-4.2714609999999986e-01) * $v_logT + $v_T * (#1.2189084718499997e-03 + $v_T * (#(-2.0965612131666668e-07) + $v_T * (#2.5287913325000004e-11 + #(-1.4035990855000001e-15) * $v_T))) - #(-6.3824872699999993e+04) / $v_T)];
  (*101*) Do (Asn v_Kc 0 (#8.2057360967184814e-02 * (Exp $v_Kc)));
  (*102*) Do (Asn v_rev_rxn_rates 7 (v_C.[12] * $v_kf / $v_Kc));
  (*105*) Do (Asn v_kf 0 (#30000000000.0));
  (*106*) Do (Asn v_fwd_rxn_rates 8 (v_C.[13] * v_C.[2] * $v_kf));
  (*107*) If ($v_T) (#1000.0)
    [Asn v_Kc 0 (#(-2.2239180279999999e+00) + #1.8209595999999939e-01 * $v_logT + $v_T * (#1.7557864799999999e-03 + $v_T * (#(-2.4647093033333336e-06) + $v_T * (#1.3723623411666668e-09 + #(-2.9953290795000000e-13) * $v_T))) - #(-4.3690829599999997e+04) / $v_T)]
    [Asn v_Kc 0 (#(-2.7537778600000000e+00) + #4.6647811999999966e-01 * $v_logT + $v_T * (#(-1.1300120001499999e-03) + $v_T * (#2.6169785468333331e-07 + $v_T * (#(-3.6419762141666674e-11) + #2.1749500095000002e-15 * $v_T))) - #(-4.3522712650000001e+04) / $v_T)];
  (*113*) Do (Asn v_Kc 0 (#1.0000000000000000e+00 * (Exp $v_Kc)));
  (*114*) Do (Asn v_rev_rxn_rates 8 (v_C.[11] * v_C.[4] * $v_kf / $v_Kc));
  (*117*) Do (Asn v_kf 0 (#30000000000.0));
  (*118*) Do (Asn v_fwd_rxn_rates 9 (v_C.[13] * v_C.[2] * $v_kf));
  (*119*) If ($v_T) (#1000.0)
    [Asn v_Kc 0 (#6.5407428970000012e+00 + #(-2.5326794200000005e+00) * $v_logT + $v_T * (#7.7539204653526671e-03 + $v_T * (#(-4.5910952086659868e-06) + $v_T * (#1.8251388135250679e-09 + #(-3.2970239544638660e-13) * $v_T))) - #(-5.5860133960000006e+04) / $v_T)]
    [Asn v_Kc 0 (#(-1.3773593554000001e+01) + #1.0158651399999994e+00 * $v_logT + $v_T * (#(-2.2830545469214872e-04) + $v_T * (#3.7948941209365814e-08 + $v_T * (#(-4.6378179029293617e-12) + #2.4570591440986795e-16 * $v_T))) - #(-5.6515003349999999e+04) / $v_T)];
  (*125*) Do (Asn v_Kc 0 (#1.0000000000000000e+00 * (Exp $v_Kc)));
  (*126*) Do (Asn v_rev_rxn_rates 9 (v_C.[1] * v_C.[12] * $v_kf / $v_Kc));
  (*129*) Do (Asn v_kf 0 ((Exp (#2.4386827483076058e+01 - #1.7813972596014357e+03 / $v_T))));
  (*130*) Do (Asn v_fwd_rxn_rates 10 (v_C.[14] * v_C.[2] * $v_kf));
  (*131*) If ($v_T) (#1000.0)
    [Asn v_Kc 0 (#3.8448959199999910e-01 + #2.5121102000000084e-01 * $v_logT + $v_T * (#3.7712048449999999e-03 + $v_T * (#(-4.2611969583333330e-06) + $v_T * (#2.2384208091666663e-09 + #(-4.7940607800000004e-13) * $v_T))) - #(-7.3586569799999997e+03) / $v_T)]
    [Asn v_Kc 0 (#(-5.7005718100000013e+00) + #1.5349511899999997e+00 * $v_logT + $v_T * (#(-1.8043208651500001e-03) + $v_T * (#3.3711479484999995e-07 + $v_T * (#(-4.1264893141666657e-11) + #2.2773796795000006e-15 * $v_T))) - #(-7.3511716500000002e+03) / $v_T)];
  (*137*) Do (Asn v_Kc 0 (#1.0000000000000000e+00 * (Exp $v_Kc)));
  (*138*) Do (Asn v_rev_rxn_rates 10 (v_C.[13] * v_C.[4] * $v_kf / $v_Kc));
  (*141*) Do (Asn v_kf 0 ((Exp (#9.8626655580158733e+00 + #1.83 * $v_logT - #1.1070830426901578e+02 / $v_T))));
  (*142*) Do (Asn v_fwd_rxn_rates 11 (v_C.[16] * v_C.[2] * $v_kf));
  (*143*) If ($v_T) (#1000.0)
    [Asn v_Kc 0 (#(-1.9176353200000000e+00) + #7.6730766000000061e-01 * $v_logT + $v_T * (#4.8084338700000000e-03 + $v_T * (#(-7.3719883333333335e-06) + $v_T * (#4.5917798324999999e-09 + #(-1.1109775510000001e-12) * $v_T))) - #(-1.3927471369999999e+04) / $v_T)]
    [Asn v_Kc 0 (#2.7363486099999990e+00 + #4.5236016000000001e-01 * $v_logT + $v_T * (#(-1.1812926781500001e-03) + $v_T * (#1.9953851351666670e-07 + $v_T * (#(-2.3113752341666686e-11) + #1.2205706794999998e-15 * $v_T))) - #(-1.3369962789999998e+04) / $v_T)];
  (*149*) Do (Asn v_Kc 0 (#1.0000000000000000e+00 * (Exp $v_Kc)));
  (*150*) Do (Asn v_rev_rxn_rates 11 (v_C.[9] * v_C.[13] * $v_kf / $v_Kc));
  (*153*) Do (Asn v_kf 0 (#1.32e+11));
  (*154*) Do (Asn v_fwd_rxn_rates 12 (v_C.[17] * v_C.[2] * $v_kf));
  (*155*) If ($v_T) (#1000.0)
    [Asn v_Kc 0 (#(-5.5443462399999994e+00) + #9.9258077000000045e-01 * $v_logT + $v_T * (#(-2.1573708999999977e-04) + $v_T * (#(-2.2175208833333346e-06) + $v_T * (#1.7700855408333336e-09 + #(-4.7212187850000007e-13) * $v_T))) - #(-3.9827843600000000e+04) / $v_T)]
    [Asn v_Kc 0 (#4.3672912500000010e+00 + #(-4.7766940000000035e-01) * $v_logT + $v_T * (#(-4.3569844814999968e-04) + $v_T * (#8.8397768516666726e-08 + $v_T * (#(-1.1671862174999995e-11) + #6.6561178449999901e-16 * $v_T))) - #(-3.9295347099999999e+04) / $v_T)];
  (*161*) Do (Asn v_Kc 0 (#1.0000000000000000e+00 * (Exp $v_Kc)));
  (*162*) Do (Asn v_rev_rxn_rates 12 (v_C.[14] * v_C.[9] * $v_kf / $v_Kc));
  (*165*) Do (Asn v_kf 0 ((Exp (#1.1405340254290291e+01 + #1.92 * $v_logT - #2.8633193240486353e+03 / $v_T))));
  (*166*) Do (Asn v_fwd_rxn_rates 13 (v_C.[18] * v_C.[2] * $v_kf));
  (*167*) If ($v_T) (#1000.0)
    [Asn v_Kc 0 (#(-9.5426192799999976e-01) + #8.3878908999999924e-01 * $v_logT + $v_T * (#1.0964775499999993e-03 + $v_T * (#(-2.0424456083333350e-06) + $v_T * (#1.0984084008333345e-09 + #(-2.2831108549999995e-13) * $v_T))) - #(-1.1433466399999998e+03) / $v_T)]
    [Asn v_Kc 0 (#(-3.3670607499999998e+00) + #1.4062418100000000e+00 * $v_logT + $v_T * (#(-1.8267958351500004e-03) + $v_T * (#3.5468279818333322e-07 + $v_T * (#(-4.4989291308333346e-11) + #2.5437107345000002e-15 * $v_T))) - #(-1.0750088999999971e+03) / $v_T)];
  (*173*) Do (Asn v_Kc 0 (#1.0000000000000000e+00 * (Exp $v_Kc)));
  (*174*) Do (Asn v_rev_rxn_rates 13 (v_C.[17] * v_C.[4] * $v_kf / $v_Kc));
  (*177*) Do (Asn v_kf 0 ((Exp (#2.1639556568820566e+01 - #2.4053895200267973e+04 / $v_T))));
  (*178*) Do (Asn v_fwd_rxn_rates 14 (v_C.[11] * v_C.[3] * $v_kf));
  (*179*) If ($v_T) (#1000.0)
    [Asn v_Kc 0 (#6.6238498800000007e+00 + #(-1.8369492099999998e+00) * $v_logT + $v_T * (#4.6561828850000004e-03 + $v_T * (#(-1.8907691783333333e-06) + $v_T * (#4.2545109883333335e-10 + #(-1.8517185450000013e-14) * $v_T))) - #(-3.8416809400000020e+03) / $v_T)]
    [Asn v_Kc 0 (#(-6.6450999300000007e+00) + #4.2915762000000068e-01 * $v_logT + $v_T * (#3.9139058814999987e-04 + $v_T * (#(-6.9345523516666680e-08) + $v_T * (#6.1624037583333416e-12 + #(-1.9717642450000007e-16) * $v_T))) - #(-4.3012567799999979e+03) / $v_T)];
  (*185*) Do (Asn v_Kc 0 (#1.0000000000000000e+00 * (Exp $v_Kc)));
  (*186*) Do (Asn v_rev_rxn_rates 14 (v_C.[12] * v_C.[2] * $v_kf / $v_Kc));
  (*189*) Do (Asn v_kf 0 ((Exp (#2.5328436022934504e+01 - #2.0128782594366505e+04 / $v_T))));
  (*190*) Do (Asn v_fwd_rxn_rates 15 (v_C.[14] * v_C.[3] * $v_kf));
  (*191*) If ($v_T) (#1000.0)
    [Asn v_Kc 0 (#2.9037419099999999e+00 + #(-5.3195659999999645e-02) * $v_logT + $v_T * (#2.4560110100000001e-03 + $v_T * (#(-2.0385115183333334e-06) + $v_T * (#8.3491854083333324e-10 + #(-1.3955268399999999e-13) * $v_T))) - #1.9507273260000002e+04 / $v_T)]
    [Asn v_Kc 0 (#(-7.2722645800000008e+00) + #1.7461573600000007e+00 * $v_logT + $v_T * (#(-1.7431564849999998e-03) + $v_T * (#3.4374008649999998e-07 + $v_T * (#(-4.2706210583333322e-11) + #2.2957809400000002e-15 * $v_T))) - #1.9208064882999999e+04 / $v_T)];
  (*197*) Do (Asn v_Kc 0 (#1.0000000000000000e+00 * (Exp $v_Kc)));
  (*198*) Do (Asn v_rev_rxn_rates 15 (v_C.[6] * v_C.[13] * $v_kf / $v_Kc));
  (*201*) Do (Asn v_kf 0 ((Exp (#2.8660640533109706e+01 - #0.86 * $v_logT))));
  (*202*) Do (Asn v_fwd_rxn_rates 16 (v_C.[1] * v_C.[3] * $v_kf));
  (*203*) If ($v_T) (#1000.0)
    [Asn v_Kc 0 (#2.4863279230000002e+00 + #(-9.8065835000000012e-01) * $v_logT + $v_T * (#(-8.7619317535266614e-04) + $v_T * (#1.8851645153326528e-06 + $v_T * (#(-1.2162578593584016e-09) + #3.0242614354638670e-13 * $v_T))) - #(-2.4114908299999999e+04) / $v_T)]
    [Asn v_Kc 0 (#5.4388072400000009e-01 + #(-7.6532694999999951e-01) * $v_logT + $v_T * (#3.7836630654214875e-04 + $v_T * (#2.0718083807300866e-08 + $v_T * (#(-7.9353483554039681e-12) + #5.4404627009013211e-16 * $v_T))) - #(-2.4273345466999999e+04) / $v_T)];
  (*209*) Do (Asn v_Kc 0 (#8.2057360967184814e-02 * (Exp $v_Kc)));
  (*210*) Do (Asn v_rev_rxn_rates 16 (v_C.[6] * $v_kf / $v_Kc));
  (*213*) Do (Asn v_kf 0 ((Exp (#3.3334803590584748e+01 - #1.72 * $v_logT))));
  (*214*) Do (Asn v_fwd_rxn_rates 17 (v_C.[1] * v_C.[3] * v_C.[3] * $v_kf));
  (*215*) If ($v_T) (#1000.0)
    [Asn v_Kc 0 (#2.4863279230000002e+00 + #(-9.8065835000000012e-01) * $v_logT + $v_T * (#(-8.7619317535266624e-04) + $v_T * (#1.8851645153326530e-06 + $v_T * (#(-1.2162578593584016e-09) + #3.0242614354638670e-13 * $v_T))) - #(-2.4114908299999999e+04) / $v_T)]
    [Asn v_Kc 0 (#5.4388072400000009e-01 + #(-7.6532694999999951e-01) * $v_logT + $v_T * (#3.7836630654214864e-04 + $v_T * (#2.0718083807300862e-08 + $v_T * (#(-7.9353483554039681e-12) + #5.4404627009013211e-16 * $v_T))) - #(-2.4273345466999999e+04) / $v_T)];
  (*221*) Do (Asn v_Kc 0 (#8.2057360967184814e-02 * (Exp $v_Kc)));
  (*222*) Do (Asn v_rev_rxn_rates 17 (v_C.[6] * v_C.[3] * $v_kf / $v_Kc));
  (*225*) Do (Asn v_kf 0 ((Exp (#2.9869600878946681e+01 - #0.76 * $v_logT))));
  (*226*) Do (Asn v_fwd_rxn_rates 18 (v_C.[1] * v_C.[5] * v_C.[3] * $v_kf));
  (*227*) If ($v_T) (#1000.0)
    [Asn v_Kc 0 (#2.4863279230000002e+00 + #(-9.8065835000000012e-01) * $v_logT + $v_T * (#(-8.7619317535266614e-04) + $v_T * (#1.8851645153326528e-06 + $v_T * (#(-1.2162578593584016e-09) + #3.0242614354638670e-13 * $v_T))) - #(-2.4114908299999999e+04) / $v_T)]
    [Asn v_Kc 0 (#5.4388072400000009e-01 + #(-7.6532694999999951e-01) * $v_logT + $v_T * (#3.7836630654214875e-04 + $v_T * (#2.0718083807300866e-08 + $v_T * (#(-7.9353483554039681e-12) + #5.4404627009013211e-16 * $v_T))) - #(-2.4273345466999999e+04) / $v_T)];
  (*233*) Do (Asn v_Kc 0 (#8.2057360967184814e-02 * (Exp $v_Kc)));
  (*234*) Do (Asn v_rev_rxn_rates 18 (v_C.[5] * v_C.[6] * $v_kf / $v_Kc));
  (*237*) Do (Asn v_kf 0 ((Exp (#3.3557947141898957e+01 - #1.72 * $v_logT))));
  (*238*) Do (Asn v_fwd_rxn_rates 19 (v_C.[1] * v_C.[20] * v_C.[3] * $v_kf));
  (*239*) If ($v_T) (#1000.0)
    [Asn v_Kc 0 (#2.4863279230000002e+00 + #(-9.8065835000000012e-01) * $v_logT + $v_T * (#(-8.7619317535266614e-04) + $v_T * (#1.8851645153326528e-06 + $v_T * (#(-1.2162578593584016e-09) + #3.0242614354638670e-13 * $v_T))) - #(-2.4114908299999999e+04) / $v_T)]
    [Asn v_Kc 0 (#5.4388072400000009e-01 + #(-7.6532694999999951e-01) * $v_logT + $v_T * (#3.7836630654214875e-04 + $v_T * (#2.0718083807300866e-08 + $v_T * (#(-7.9353483554039681e-12) + #5.4404627009013211e-16 * $v_T))) - #(-2.4273345466999999e+04) / $v_T)];
  (*245*) Do (Asn v_Kc 0 (#8.2057360967184814e-02 * (Exp $v_Kc)));
  (*246*) Do (Asn v_rev_rxn_rates 19 (v_C.[20] * v_C.[6] * $v_kf / $v_Kc));
  (*249*) Do (Asn v_kf 0 ((Exp (#2.7274346171989816e+01 - #0.8 * $v_logT))));
  (*250*) Do (Asn v_fwd_rxn_rates 20 (v_C.[1] * v_C.[19] * v_C.[3] * $v_kf));
  (*251*) If ($v_T) (#1000.0)
    [Asn v_Kc 0 (#2.4863279230000002e+00 + #(-9.8065835000000012e-01) * $v_logT + $v_T * (#(-8.7619317535266614e-04) + $v_T * (#1.8851645153326528e-06 + $v_T * (#(-1.2162578593584016e-09) + #3.0242614354638670e-13 * $v_T))) - #(-2.4114908299999999e+04) / $v_T)]
    [Asn v_Kc 0 (#5.4388072400000009e-01 + #(-7.6532694999999951e-01) * $v_logT + $v_T * (#3.7836630654214875e-04 + $v_T * (#2.0718083807300866e-08 + $v_T * (#(-7.9353483554039681e-12) + #5.4404627009013211e-16 * $v_T))) - #(-2.4273345466999999e+04) / $v_T)];
  (*257*) Do (Asn v_Kc 0 (#8.2057360967184814e-02 * (Exp $v_Kc)));
  (*258*) Do (Asn v_rev_rxn_rates 20 (v_C.[19] * v_C.[6] * $v_kf / $v_Kc));
  (*261*) Do (Asn v_kf 0 ((Exp (#2.5142106444743010e+01 - #7.2529035883151109e+03 / $v_T))));
  (*262*) Do (Asn v_fwd_rxn_rates 21 (v_C.[1] * v_C.[3] * $v_kf));
  (*263*) If ($v_T) (#1000.0)
    [Asn v_Kc 0 (#(-2.1408110450000000e+00) + #8.7782617000000007e-01 * $v_logT + $v_T * (#(-1.3419511003526661e-03) + $v_T * (#2.3561672699931997e-07 + $v_T * (#(-2.7325373525067921e-11) + #1.1652302046386620e-14 * $v_T))) - #8.3276234199999999e+03 / $v_T)]
    [Asn v_Kc 0 (#4.3747157639999994e+00 + #(-1.2022939999999949e-01) * $v_logT + $v_T * (#(-5.1031595730785138e-04) + $v_T * (#1.5440338995730085e-07 + $v_T * (#(-2.5619540480403969e-11) + #1.7320676705901320e-15 * $v_T))) - #8.6910339200000035e+03 / $v_T)];
  (*269*) Do (Asn v_Kc 0 (#1.0000000000000000e+00 * (Exp $v_Kc)));
  (*270*) Do (Asn v_rev_rxn_rates 21 (v_C.[2] * v_C.[4] * $v_kf / $v_Kc));
  (*273*) Do (Asn v_kf 0 ((Exp (#2.7631021115928547e+01 - #1.0 * $v_logT))));
  (*274*) Do (Asn v_fwd_rxn_rates 22 (v_C.[1] * v_C.[1] * $v_kf));
  (*275*) If ($v_T) (#1000.0)
    [Asn v_Kc 0 (#4.2320448239999999e+00 + #(-1.6556688799999999e+00) * $v_logT + $v_T * (#3.9902603742946671e-03 + $v_T * (#(-3.2463584993346931e-06) + $v_T * (#1.6797674496165307e-09 + #(-3.6880588040722682e-13) * $v_T))) - #(-5.1865254972999996e+04) / $v_T)]
    [Asn v_Kc 0 (#(-6.4893666199999966e-01) + #(-6.6272082000000010e-01) * $v_logT + $v_T * (#(-2.4701213465702698e-05) + $v_T * (#8.3242790947935064e-08 + $v_T * (#(-1.4963865377474610e-11) + #1.0012768301802643e-15 * $v_T))) - #(-5.1897478722000000e+04) / $v_T)];
  (*281*) Do (Asn v_Kc 0 (#8.2057360967184814e-02 * (Exp $v_Kc)));
  (*282*) Do (Asn v_rev_rxn_rates 22 (v_C.[0] * $v_kf / $v_Kc));
  (*285*) Do (Asn v_kf 0 ((Exp (#2.5223075507276675e+01 - #0.6 * $v_logT))));
  (*286*) Do (Asn v_fwd_rxn_rates 23 (v_C.[0] * v_C.[1] * v_C.[1] * $v_kf));
  (*287*) If ($v_T) (#1000.0)
    [Asn v_Kc 0 (#4.2320448239999999e+00 + #(-1.6556688799999999e+00) * $v_logT + $v_T * (#3.9902603742946671e-03 + $v_T * (#(-3.2463584993346931e-06) + $v_T * (#1.6797674496165307e-09 + #(-3.6880588040722682e-13) * $v_T))) - #(-5.1865254972999996e+04) / $v_T)]
    [Asn v_Kc 0 (#(-6.4893666199999966e-01) + #(-6.6272082000000010e-01) * $v_logT + $v_T * (#(-2.4701213465702698e-05) + $v_T * (#8.3242790947935064e-08 + $v_T * (#(-1.4963865377474610e-11) + #1.0012768301802643e-15 * $v_T))) - #(-5.1897478722000000e+04) / $v_T)];
  (*293*) Do (Asn v_Kc 0 (#8.2057360967184814e-02 * (Exp $v_Kc)));
  (*294*) Do (Asn v_rev_rxn_rates 23 (v_C.[0] * v_C.[0] * $v_kf / $v_Kc));
  (*297*) Do (Asn v_kf 0 ((Exp (#3.1725365678150649e+01 - #1.25 * $v_logT))));
  (*298*) Do (Asn v_fwd_rxn_rates 24 (v_C.[1] * v_C.[1] * v_C.[5] * $v_kf));
  (*299*) If ($v_T) (#1000.0)
    [Asn v_Kc 0 (#4.2320448239999999e+00 + #(-1.6556688799999999e+00) * $v_logT + $v_T * (#3.9902603742946671e-03 + $v_T * (#(-3.2463584993346931e-06) + $v_T * (#1.6797674496165307e-09 + #(-3.6880588040722682e-13) * $v_T))) - #(-5.1865254972999996e+04) / $v_T)]
    [Asn v_Kc 0 (#(-6.4893666199999966e-01) + #(-6.6272082000000010e-01) * $v_logT + $v_T * (#(-2.4701213465702698e-05) + $v_T * (#8.3242790947935064e-08 + $v_T * (#(-1.4963865377474610e-11) + #1.0012768301802643e-15 * $v_T))) - #(-5.1897478722000000e+04) / $v_T)];
  (*305*) Do (Asn v_Kc 0 (#8.2057360967184814e-02 * (Exp $v_Kc)));
  (*306*) Do (Asn v_rev_rxn_rates 24 (v_C.[0] * v_C.[5] * $v_kf / $v_Kc));
  (*309*) Do (Asn v_kf 0 ((Exp (#3.3940939394155066e+01 - #2.0 * $v_logT))));
  (*310*) Do (Asn v_fwd_rxn_rates 25 (v_C.[1] * v_C.[1] * v_C.[12] * $v_kf));
  (*311*) If ($v_T) (#1000.0)
    [Asn v_Kc 0 (#4.2320448239999999e+00 + #(-1.6556688799999999e+00) * $v_logT + $v_T * (#3.9902603742946671e-03 + $v_T * (#(-3.2463584993346931e-06) + $v_T * (#1.6797674496165307e-09 + #(-3.6880588040722682e-13) * $v_T))) - #(-5.1865254972999996e+04) / $v_T)]
    [Asn v_Kc 0 (#(-6.4893666199999966e-01) + #(-6.6272082000000010e-01) * $v_logT + $v_T * (#(-2.4701213465702698e-05) + $v_T * (#8.3242790947935064e-08 + $v_T * (#(-1.4963865377474610e-11) + #1.0012768301802643e-15 * $v_T))) - #(-5.1897478722000000e+04) / $v_T)];
  (*317*) Do (Asn v_Kc 0 (#8.2057360967184814e-02 * (Exp $v_Kc)));
  (*318*) Do (Asn v_rev_rxn_rates 25 (v_C.[0] * v_C.[12] * $v_kf / $v_Kc));
  (*321*) Do (Asn v_kf 0 ((Exp (#3.7629818848269004e+01 - #2.0 * $v_logT))));
  (*322*) Do (Asn v_fwd_rxn_rates 26 (v_C.[1] * v_C.[4] * $v_kf));
  (*323*) If ($v_T) (#1000.0)
    [Asn v_Kc 0 (#1.9949509730000003e+00 + #(-1.2933748699999996e+00) * $v_logT + $v_T * (#1.8244170964733350e-04 + $v_T * (#3.1707728366598672e-07 + $v_T * (#(-1.3390310769173469e-10) + #2.0393173546386613e-14 * $v_T))) - #(-5.9382467160000000e+04) / $v_T)]
    [Asn v_Kc 0 (#3.4956521039999999e+00 + #(-1.5588951899999999e+00) * $v_logT + $v_T * (#8.1424417354214885e-04 + $v_T * (#(-4.8429627026032460e-08) + $v_T * (#(-7.5798555540397048e-13) + #2.5394305509013217e-16 * $v_T))) - #(-5.9336613999999994e+04) / $v_T)];
  (*329*) Do (Asn v_Kc 0 (#8.2057360967184814e-02 * (Exp $v_Kc)));
  (*330*) Do (Asn v_rev_rxn_rates 26 (v_C.[5] * $v_kf / $v_Kc));
  (*333*) Do (Asn v_kf 0 ((Exp (#2.4055470347121616e+01 - #5.3743849526958570e+02 / $v_T))));
  (*334*) Do (Asn v_fwd_rxn_rates 27 (v_C.[1] * v_C.[6] * $v_kf));
  (*335*) If ($v_T) (#1000.0)
    [Asn v_Kc 0 (#1.7457169009999998e+00 + #(-6.7501052999999978e-01) * $v_logT + $v_T * (#4.8664535496473326e-03 + $v_T * (#(-5.1315230146673457e-06) + $v_T * (#2.8960253089749321e-09 + #(-6.7123202395361351e-13) * $v_T))) - #(-2.7750346673000000e+04) / $v_T)]
    [Asn v_Kc 0 (#(-1.1928173859999998e+00) + #1.0260612999999896e-01 * $v_logT + $v_T * (#(-4.0306752000785135e-04) + $v_T * (#6.2524707140634199e-08 + $v_T * (#(-7.0285170220706416e-12) + #4.5723056009013213e-16 * $v_T))) - #(-2.7624133255000001e+04) / $v_T)];
  (*341*) Do (Asn v_Kc 0 (#1.0000000000000000e+00 * (Exp $v_Kc)));
  (*342*) Do (Asn v_rev_rxn_rates 27 (v_C.[0] * v_C.[3] * $v_kf / $v_Kc));
  (*345*) Do (Asn v_kf 0 ((Exp (#2.5621105636897322e+01 - #3.1954442368556829e+02 / $v_T))));
  (*346*) Do (Asn v_fwd_rxn_rates 28 (v_C.[1] * v_C.[6] * $v_kf));
  (*347*) If ($v_T) (#1000.0)
    [Asn v_Kc 0 (#(-4.6600633630000008e+00) + #1.1822328500000001e+00 * $v_logT + $v_T * (#(-2.6757265352666572e-05) + $v_T * (#(-1.9870687130006796e-06) + $v_T * (#1.3761768948082653e-09 + #(-3.2820109195361345e-13) * $v_T))) - #(-1.8538306819999998e+04) / $v_T)]
    [Asn v_Kc 0 (#5.9464085339999997e+00 + #(-3.3143557000000001e-01) * $v_logT + $v_T * (#(-5.7148033745785135e-04) + $v_T * (#1.4777809830730085e-07 + $v_T * (#(-2.4178223038737304e-11) + #1.7136664100901320e-15 * $v_T))) - #(-1.7868202613000001e+04) / $v_T)];
  (*353*) Do (Asn v_Kc 0 (#1.0000000000000000e+00 * (Exp $v_Kc)));
  (*354*) Do (Asn v_rev_rxn_rates 28 (v_C.[4] * v_C.[4] * $v_kf / $v_Kc));
  (*357*) Do (Asn v_kf 0 ((Exp (#3.0849896940796750e+01 - #0.8 * $v_logT))));
  (*358*) Do (Asn v_fwd_rxn_rates 29 (v_C.[1] * v_C.[7] * $v_kf));
  (*359*) If ($v_T) (#1000.0)
    [Asn v_Kc 0 (#3.0778036030000000e+00 + #(-1.5890882700000000e+00) * $v_logT + $v_T * (#5.2103980314733352e-04 + $v_T * (#4.8922002533265336e-07 + $v_T * (#(-2.5168856019173461e-10) + #4.2822007546386620e-14 * $v_T))) - #(-5.5032701199999996e+04) / $v_T)]
    [Asn v_Kc 0 (#5.8439448840000008e+00 + #(-2.0883834200000000e+00) * $v_logT + $v_T * (#1.7917537365421488e-03 + $v_T * (#(-2.6303292102603245e-07) + $v_T * (#2.7958758311262697e-11 + #(-1.3971341599098680e-15) * $v_T))) - #(-5.4961679600000003e+04) / $v_T)];
  (*365*) Do (Asn v_Kc 0 (#8.2057360967184814e-02 * (Exp $v_Kc)));
  (*366*) Do (Asn v_rev_rxn_rates 29 (v_C.[9] * $v_kf / $v_Kc));
  (*369*) Do (Asn v_kf 0 ((Exp (#3.0172623109393093e+01 - #0.63 * $v_logT - #1.9273309334105929e+02 / $v_T))));
  (*370*) Do (Asn v_fwd_rxn_rates 30 (v_C.[1] * v_C.[9] * $v_kf));
  (*371*) If ($v_T) (#1000.0)
    [Asn v_Kc 0 (#(-4.7754709669999986e+00) + #(-2.3714270000000148e-02) * $v_logT + $v_T * (#(-7.8409652753526661e-03) + $v_T * (#7.2416402236659874e-06 + $v_T * (#(-3.4669273626917350e-09) + #7.0627691304638665e-13 * $v_T))) - #(-5.2165306299999997e+04) / $v_T)]
    [Asn v_Kc 0 (#1.5114795359000002e+01 + #(-3.7108662350000001e+00) * $v_logT + $v_T * (#3.0755231765421482e-03 + $v_T * (#(-4.5761910435936572e-07) + $v_T * (#5.2270059227929359e-11 + #(-2.7549895549098682e-15) * $v_T))) - #(-5.1717588789999994e+04) / $v_T)];
  (*377*) Do (Asn v_Kc 0 (#8.2057360967184814e-02 * (Exp $v_Kc)));
  (*378*) Do (Asn v_rev_rxn_rates 30 (v_C.[10] * $v_kf / $v_Kc));
  (*381*) Do (Asn v_kf 0 ((Exp (#1.3399995114002609e+01 + #1.62 * $v_logT - #5.4549000830733230e+03 / $v_T))));
  (*382*) Do (Asn v_fwd_rxn_rates 31 (v_C.[1] * v_C.[10] * $v_kf));
  (*383*) If ($v_T) (#1000.0)
    [Asn v_Kc 0 (#9.0075157909999994e+00 + #(-1.6319546100000002e+00) * $v_logT + $v_T * (#1.1831225649647333e-02 + $v_T * (#(-1.0487998723000681e-05) + $v_T * (#5.1466948123082656e-09 + #(-1.0750827934536134e-12) * $v_T))) - #3.0005132700000286e+02 / $v_T)]
    [Asn v_Kc 0 (#(-1.5763732020999999e+01) + #3.0481454150000000e+00 * $v_logT + $v_T * (#(-3.1002243900078510e-03) + $v_T * (#5.4086189530730073e-07 + $v_T * (#(-6.7233924605403965e-11) + #3.7562663850901325e-15 * $v_T))) - #(-1.7988993200000004e+02) / $v_T)];
  (*389*) Do (Asn v_Kc 0 (#1.0000000000000000e+00 * (Exp $v_Kc)));
  (*390*) Do (Asn v_rev_rxn_rates 31 (v_C.[0] * v_C.[9] * $v_kf / $v_Kc));
  (*393*) Do (Asn v_kf 0 ((Exp (#2.0809443533187462e+01 + #0.48 * $v_logT - #(-1.3083708686338230e+02) / $v_T))));
  (*394*) Do (Asn v_fwd_rxn_rates 32 (v_C.[1] * v_C.[13] * $v_kf));
  (*395*) If ($v_T) (#1000.0)
    [Asn v_Kc 0 (#(-4.1741398699999976e-01) + #(-9.2746269000000048e-01) * $v_logT + $v_T * (#(-3.3322041853526664e-03) + $v_T * (#3.9236760336659864e-06 + $v_T * (#(-2.0511764001917343e-09) + #4.4197882754638669e-13 * $v_T))) - #(-4.3622181560000005e+04) / $v_T)]
    [Asn v_Kc 0 (#7.8161453040000017e+00 + #(-2.5114843100000002e+00) * $v_logT + $v_T * (#2.1215227915421485e-03 + $v_T * (#(-3.2302200269269904e-07) + $v_T * (#3.4770862227929353e-11 + #(-1.7517346699098684e-15) * $v_T))) - #(-4.3481410349999998e+04) / $v_T)];
  (*401*) Do (Asn v_Kc 0 (#8.2057360967184814e-02 * (Exp $v_Kc)));
  (*402*) Do (Asn v_rev_rxn_rates 32 (v_C.[14] * $v_kf / $v_Kc));
  (*405*) Do (Asn v_kf 0 (#73400000000.0));
  (*406*) Do (Asn v_fwd_rxn_rates 33 (v_C.[1] * v_C.[13] * $v_kf));
  (*407*) If ($v_T) (#1000.0)
    [Asn v_Kc 0 (#2.0410511910000002e+00 + #(-7.9732125000000043e-01) * $v_logT + $v_T * (#5.3070461946473331e-03 + $v_T * (#(-5.3735468780006796e-06) + $v_T * (#2.8648853818082653e-09 + #(-6.3091153790361341e-13) * $v_T))) - #(-4.4575246033000003e+04) / $v_T)]
    [Asn v_Kc 0 (#(-5.5182880159999996e+00) + #7.8029042000000004e-01 * $v_logT + $v_T * (#(-1.4719151400078511e-03) + $v_T * (#3.3084785347396752e-07 + $v_T * (#(-4.4889596605403977e-11) + #2.6505818300901323e-15 * $v_T))) - #(-4.4587609371999999e+04) / $v_T)];
  (*413*) Do (Asn v_Kc 0 (#1.0000000000000000e+00 * (Exp $v_Kc)));
  (*414*) Do (Asn v_rev_rxn_rates 33 (v_C.[0] * v_C.[11] * $v_kf / $v_Kc));
  (*417*) Do (Asn v_kf 0 ((Exp (#2.0107079697522593e+01 + #0.454 * $v_logT - #1.3083708686338230e+03 / $v_T))));
  (*418*) Do (Asn v_fwd_rxn_rates 34 (v_C.[14] * v_C.[1] * $v_kf));
  (*419*) If ($v_T) (#1000.0)
    [Asn v_Kc 0 (#1.8183566103000000e+01 + #(-4.1875191500000000e+00) * $v_logT + $v_T * (#8.5624643446473338e-03 + $v_T * (#(-5.3305881330006796e-06) + $v_T * (#2.5459075081415984e-09 + #(-5.5508275995361342e-13) * $v_T))) - #(-1.0186102099999998e+04) / $v_T)]
    [Asn v_Kc 0 (#(-9.7901739960000000e+00) + #5.1010890999999958e-01 * $v_logT + $v_T * (#(-6.6425189845785145e-04) + $v_T * (#2.9436735230730079e-07 + $v_T * (#(-5.0997417938737298e-11) + #3.3629701750901327e-15 * $v_T))) - #(-1.1349995079999999e+04) / $v_T)];
  (*425*) Do (Asn v_Kc 0 (#8.2057360967184814e-02 * (Exp $v_Kc)));
  (*426*) Do (Asn v_rev_rxn_rates 34 (v_C.[15] * $v_kf / $v_Kc));
  (*429*) Do (Asn v_kf 0 ((Exp (#1.6951004773893423e+01 + #1.05 * $v_logT - #1.6480440749137576e+03 / $v_T))));
  (*430*) Do (Asn v_fwd_rxn_rates 35 (v_C.[14] * v_C.[1] * $v_kf));
  (*431*) If ($v_T) (#1000.0)
    [Asn v_Kc 0 (#4.6494588109999997e+00 + #(-7.2820618999999986e-01) * $v_logT + $v_T * (#7.3224645596473327e-03 + $v_T * (#(-7.1700345330006791e-06) + $v_T * (#3.7309438498082653e-09 + #(-8.1078470795361340e-13) * $v_T))) - #(-8.2430734129999983e+03) / $v_T)]
    [Asn v_Kc 0 (#(-8.4650819659999996e+00) + #1.8487634900000005e+00 * $v_logT + $v_T * (#(-2.1462240050078513e-03) + $v_T * (#4.0626479364063411e-07 + $v_T * (#(-4.9734727605403966e-11) + #2.7530115000901327e-15 * $v_T))) - #(-8.4160683719999979e+03) / $v_T)];
  (*437*) Do (Asn v_Kc 0 (#1.0000000000000000e+00 * (Exp $v_Kc)));
  (*438*) Do (Asn v_rev_rxn_rates 35 (v_C.[0] * v_C.[13] * $v_kf / $v_Kc));
  (*441*) Do (Asn v_kf 0 (#32000000000.0));
  (*442*) Do (Asn v_fwd_rxn_rates 36 (v_C.[1] * v_C.[15] * $v_kf));
  (*443*) If ($v_T) (#1000.0)
    [Asn v_Kc 0 (#(-1.4264257105000000e+01) + #3.0594018300000005e+00 * $v_logT + $v_T * (#(-3.8034803853526666e-03) + $v_T * (#8.3494749533265330e-07 + $v_T * (#(-2.8122263185840126e-10) + #9.1618102046386605e-14 * $v_T))) - #(-6.3921816399999989e+03) / $v_T)]
    [Asn v_Kc 0 (#1.1366069423999999e+01 + #(-8.9219361999999958e-01) * $v_logT + $v_T * (#(-4.1583445457851146e-05) + $v_T * (#(-3.4042378026032449e-08) + $v_T * (#9.4412827612626981e-12 + #(-6.9240211490986809e-16) * $v_T))) - #(-4.9672511200000008e+03) / $v_T)];
  (*449*) Do (Asn v_Kc 0 (#1.0000000000000000e+00 * (Exp $v_Kc)));
  (*450*) Do (Asn v_rev_rxn_rates 36 (v_C.[9] * v_C.[4] * $v_kf / $v_Kc));
  (*453*) Do (Asn v_kf 0 ((Exp (#2.0800226878082540e+01 + #0.454 * $v_logT - #9.1585960804367608e+02 / $v_T))));
  (*454*) Do (Asn v_fwd_rxn_rates 37 (v_C.[1] * v_C.[16] * $v_kf));
  (*455*) If ($v_T) (#1000.0)
    [Asn v_Kc 0 (#3.2092969330000005e+00 + #(-1.1527358000000003e+00) * $v_logT + $v_T * (#1.6919667746473337e-03 + $v_T * (#(-1.2307914163340125e-06) + $v_T * (#7.7051789147493195e-10 + #(-1.9687684495361349e-13) * $v_T))) - #(-1.7721809329999996e+04) / $v_T)]
    [Asn v_Kc 0 (#6.1852026639999984e+00 + #(-1.5814547499999998e+00) * $v_logT + $v_T * (#1.3759285615421498e-03 + $v_T * (#(-2.1188125769269901e-07) + $v_T * (#2.3328972061262663e-11 + #(-1.1967757749098668e-15) * $v_T))) - #(-1.7556026039999997e+04) / $v_T)];
  (*461*) Do (Asn v_Kc 0 (#8.2057360967184814e-02 * (Exp $v_Kc)));
  (*462*) Do (Asn v_rev_rxn_rates 37 (v_C.[17] * $v_kf / $v_Kc));
  (*465*) Do (Asn v_kf 0 ((Exp (#3.3886771157681913e+01 - #0.99 * $v_logT - #7.9508691247747697e+02 / $v_T))));
  (*466*) Do (Asn v_fwd_rxn_rates 38 (v_C.[1] * v_C.[17] * $v_kf));
  (*467*) If ($v_T) (#1000.0)
    [Asn v_Kc 0 (#9.2133753299999954e-01 + #(-1.5150407599999998e+00) * $v_logT + $v_T * (#(-6.5747689035266588e-04) + $v_T * (#1.7049246836659875e-06 + $v_T * (#(-9.1116399185840205e-10) + #1.9088383504638650e-13 * $v_T))) - #(-4.9837491899999994e+04) / $v_T)]
    [Asn v_Kc 0 (#5.4826342439999998e+00 + #(-2.3827749300000001e+00) * $v_logT + $v_T * (#2.1439977615421487e-03 + $v_T * (#(-3.4059000602603242e-07) + $v_T * (#3.8495260394596016e-11 + #(-2.0180657249098672e-15) * $v_T))) - #(-4.9757573099999994e+04) / $v_T)];
  (*473*) Do (Asn v_Kc 0 (#8.2057360967184814e-02 * (Exp $v_Kc)));
  (*474*) Do (Asn v_rev_rxn_rates 38 (v_C.[18] * $v_kf / $v_Kc));
  (*477*) Do (Asn v_kf 0 ((Exp (#1.1652687407345388e+01 + #1.9 * $v_logT - #3.7892433233894944e+03 / $v_T))));
  (*478*) Do (Asn v_fwd_rxn_rates 39 (v_C.[18] * v_C.[1] * $v_kf));
  (*479*) If ($v_T) (#1000.0)
    [Asn v_Kc 0 (#3.3107072910000004e+00 + #(-1.4062811999999969e-01) * $v_logT + $v_T * (#4.6477372646473326e-03 + $v_T * (#(-4.9512831830006802e-06) + $v_T * (#2.5909314414749330e-09 + #(-5.5968971545361332e-13) * $v_T))) - #(-2.0277630729999983e+03) / $v_T)]
    [Asn v_Kc 0 (#(-6.1315709060000012e+00) + #1.7200541100000000e+00 * $v_logT + $v_T * (#(-2.1686989750078511e-03) + $v_T * (#4.2383279697396738e-07 + $v_T * (#(-5.3459125772070642e-11) + #3.0193425550901323e-15 * $v_T))) - #(-2.1399056219999984e+03) / $v_T)];
  (*485*) Do (Asn v_Kc 0 (#1.0000000000000000e+00 * (Exp $v_Kc)));
  (*486*) Do (Asn v_rev_rxn_rates 39 (v_C.[0] * v_C.[17] * $v_kf / $v_Kc));
  (*489*) Do (Asn v_kf 0 ((Exp (#1.0668955394675699e+01 + #1.5 * $v_logT - #4.0056277362789348e+04 / $v_T))));
  (*490*) Do (Asn v_fwd_rxn_rates 40 (v_C.[0] * v_C.[11] * $v_kf));
  (*491*) If ($v_T) (#1000.0)
    [Asn v_Kc 0 (#(-2.4584651780000000e+00) + #(-1.3014144000000005e-01) * $v_logT + $v_T * (#(-8.6392503799999978e-03) + $v_T * (#9.2972229116666652e-06 + $v_T * (#(-4.9160617820000005e-09) + #1.0728903654500000e-12 * $v_T))) - #9.5306447299999854e+02 / $v_T)]
    [Asn v_Kc 0 (#1.3334433319999999e+01 + #(-3.2917747299999993e+00) * $v_logT + $v_T * (#3.5934379315500000e-03 + $v_T * (#(-6.5386985616666657e-07) + $v_T * (#7.9660458833333329e-11 + #(-4.4023165000000007e-15) * $v_T))) - #1.1061990220000007e+03 / $v_T)];
  (*497*) Do (Asn v_Kc 0 (#8.2057360967184814e-02 * (Exp $v_Kc)));
  (*498*) Do (Asn v_rev_rxn_rates 40 (v_C.[14] * $v_kf / $v_Kc));
  (*501*) Do (Asn v_kf 0 ((Exp (#1.2283033686666302e+01 + #1.51 * $v_logT - #1.7260431074669279e+03 / $v_T))));
  (*502*) Do (Asn v_fwd_rxn_rates 41 (v_C.[0] * v_C.[4] * $v_kf));
  (*503*) If ($v_T) (#1000.0)
    [Asn v_Kc 0 (#(-2.2370938510000000e+00) + #3.6229401000000028e-01 * $v_logT + $v_T * (#(-3.8078186646473338e-03) + $v_T * (#3.5634357830006797e-06 + $v_T * (#(-1.8136705573082654e-09) + #3.8919905395361339e-13 * $v_T))) - #(-7.5172121870000010e+03) / $v_T)]
    [Asn v_Kc 0 (#4.1445887660000000e+00 + #(-8.9617436999999978e-01) * $v_logT + $v_T * (#8.3894538700785145e-04 + $v_T * (#(-1.3167241797396752e-07) + $v_T * (#1.4205879822070639e-11 + #(-7.4733377509013216e-16) * $v_T))) - #(-7.4391352780000016e+03) / $v_T)];
  (*509*) Do (Asn v_Kc 0 (#1.0000000000000000e+00 * (Exp $v_Kc)));
  (*510*) Do (Asn v_rev_rxn_rates 41 (v_C.[1] * v_C.[5] * $v_kf / $v_Kc));
  (*513*) Do (Asn v_kf 0 ((Exp (#3.5751506887855933e+00 + #2.4 * $v_logT - #(-1.0617932818528332e+03) / $v_T))));
  (*514*) Do (Asn v_fwd_rxn_rates 42 (v_C.[4] * v_C.[4] * $v_kf));
  (*515*) If ($v_T) (#1000.0)
    [Asn v_Kc 0 (#2.0278753680000001e+00 + #(-6.1712319999999909e-01) * $v_logT + $v_T * (#(-2.5655894999999972e-04) + $v_T * (#6.5459820833333341e-07 + $v_T * (#(-3.2114751666666654e-10) + #5.7820423999999999e-14 * $v_T))) - #(-8.4016286199999995e+03) / $v_T)]
    [Asn v_Kc 0 (#1.3800786099999991e+00 + #(-5.8236206999999984e-01) * $v_logT + $v_T * (#4.9704224715000018e-04 + $v_T * (#(-6.2522419183333327e-08) + $v_T * (#5.7360453583333335e-12 + #(-2.7170195449999994e-16) * $v_T))) - #(-8.5040320000000011e+03) / $v_T)];
  (*521*) Do (Asn v_Kc 0 (#1.0000000000000000e+00 * (Exp $v_Kc)));
  (*522*) Do (Asn v_rev_rxn_rates 42 (v_C.[5] * v_C.[2] * $v_kf / $v_Kc));
  (*525*) Do (Asn v_kf 0 ((Exp (#2.4090561666932885e+01 - #(-2.5160978242958132e+02) / $v_T))));
  (*526*) Do (Asn v_fwd_rxn_rates 43 (v_C.[6] * v_C.[4] * $v_kf));
  (*527*) If ($v_T) (#1000.0)
    [Asn v_Kc 0 (#(-4.9137695000000026e-01) + #(-3.1271651999999905e-01) * $v_logT + $v_T * (#1.0586348849999999e-03 + $v_T * (#(-1.5680872316666664e-06) + $v_T * (#1.0823547516666667e-09 + #(-2.8203297000000007e-13) * $v_T))) - #(-3.5267558859999997e+04) / $v_T)]
    [Asn v_Kc 0 (#2.9517713799999998e+00 + #(-7.9356824000000037e-01) * $v_logT + $v_T * (#4.3587786700000021e-04 + $v_T * (#(-6.9147710833333339e-08) + $v_T * (#7.1773627999999976e-12 + #(-2.9010321499999993e-16) * $v_T))) - #(-3.5063268533000002e+04) / $v_T)];
  (*533*) Do (Asn v_Kc 0 (#1.0000000000000000e+00 * (Exp $v_Kc)));
  (*534*) Do (Asn v_rev_rxn_rates 43 (v_C.[5] * v_C.[3] * $v_kf / $v_Kc));
  (*537*) Do (Asn v_kf 0 (#20000000000.0));
  (*538*) Do (Asn v_fwd_rxn_rates 44 (v_C.[7] * v_C.[4] * $v_kf));
  (*539*) If ($v_T) (#1000.0)
    [Asn v_Kc 0 (#(-8.4150539499999955e-01) + #(-4.6097095000000010e-01) * $v_logT + $v_T * (#(-4.2379441561473333e-03) + $v_T * (#4.9848606630006789e-06 + $v_T * (#(-2.5163734364749319e-09) + #5.0628666545361342e-13 * $v_T))) - #(-3.8454417460000004e+04) / $v_T)]
    [Asn v_Kc 0 (#4.2680494560000000e+00 + #(-1.7062987100000004e+00) * $v_logT + $v_T * (#2.4975890804578519e-03 + $v_T * (#(-5.2335789530730089e-07) + $v_T * (#6.9514893488737301e-11 + #(-4.0677022200901327e-15) * $v_T))) - #(-3.8644433400000002e+04) / $v_T)];
  (*545*) Do (Asn v_Kc 0 (#1.0000000000000000e+00 * (Exp $v_Kc)));
  (*546*) Do (Asn v_rev_rxn_rates 44 (v_C.[14] * v_C.[1] * $v_kf / $v_Kc));
  (*549*) Do (Asn v_kf 0 (#30000000000.0));
  (*550*) Do (Asn v_fwd_rxn_rates 45 (v_C.[8] * v_C.[4] * $v_kf));
  (*551*) If ($v_T) (#1000.0)
    [Asn v_Kc 0 (#1.9260708619999996e+00 + #(-8.9689638999999977e-01) * $v_logT + $v_T * (#(-2.5702009896473336e-03) + $v_T * (#4.0785166980006795e-06 + $v_T * (#(-2.2799360798082651e-09) + #4.9350015645361341e-13 * $v_T))) - #(-4.2947193660000004e+04) / $v_T)]
    [Asn v_Kc 0 (#1.2306782960000002e+00 + #(-1.1242360000000002e+00) * $v_logT + $v_T * (#1.9978423554578516e-03 + $v_T * (#(-4.2286231197396754e-07) + $v_T * (#5.6371022572070625e-11 + #(-3.3077582300901331e-15) * $v_T))) - #(-4.3306829100000003e+04) / $v_T)];
  (*557*) Do (Asn v_Kc 0 (#1.0000000000000000e+00 * (Exp $v_Kc)));
  (*558*) Do (Asn v_rev_rxn_rates 45 (v_C.[14] * v_C.[1] * $v_kf / $v_Kc));
  (*561*) Do (Asn v_kf 0 ((Exp (#1.0933106969717286e+01 + #1.6 * $v_logT - #2.7274500415366615e+03 / $v_T))));
  (*562*) Do (Asn v_fwd_rxn_rates 46 (v_C.[9] * v_C.[4] * $v_kf));
  (*563*) If ($v_T) (#1000.0)
    [Asn v_Kc 0 (#(-1.0828526300000005e+00) + #2.9571340000000079e-01 * $v_logT + $v_T * (#(-3.3859809349999991e-04) + $v_T * (#(-1.7214274166666665e-07) + $v_T * (#1.1778545249999987e-10 + #(-2.2428833999999994e-14) * $v_T))) - #(-4.3497659600000025e+03) / $v_T)]
    [Asn v_Kc 0 (#(-2.3482927800000000e+00) + #5.2948823000000012e-01 * $v_logT + $v_T * (#(-9.7750956300000002e-04) + $v_T * (#2.1460329399999999e-07 + $v_T * (#(-2.8716743866666666e-11) + #1.6510772149999999e-15 * $v_T))) - #(-4.3749343999999992e+03) / $v_T)];
  (*569*) Do (Asn v_Kc 0 (#1.0000000000000000e+00 * (Exp $v_Kc)));
  (*570*) Do (Asn v_rev_rxn_rates 46 (v_C.[7] * v_C.[5] * $v_kf / $v_Kc));
  (*573*) Do (Asn v_kf 0 (#25010000000.0));
  (*574*) Do (Asn v_fwd_rxn_rates 47 (v_C.[9] * v_C.[4] * $v_kf));
  (*575*) If ($v_T) (#1000.0)
    [Asn v_Kc 0 (#(-3.8504288870000005e+00) + #7.3163884000000001e-01 * $v_logT + $v_T * (#(-2.0063412599999999e-03) + $v_T * (#7.3420122333333318e-07 + $v_T * (#(-1.1865190416666688e-10) + #(-9.6423249999999889e-15) * $v_T))) - #1.4301023999999825e+02 / $v_T)]
    [Asn v_Kc 0 (#6.8907837999999932e-01 + #(-5.2574480000000090e-02) * $v_logT + $v_T * (#(-4.7776283799999964e-04) + $v_T * (#1.1410771066666668e-07 + $v_T * (#(-1.5572872949999997e-11) + #8.9113322500000016e-16 * $v_T))) - #2.8746130000000176e+02 / $v_T)];
  (*581*) Do (Asn v_Kc 0 (#1.0000000000000000e+00 * (Exp $v_Kc)));
  (*582*) Do (Asn v_rev_rxn_rates 47 (v_C.[8] * v_C.[5] * $v_kf / $v_Kc));
  (*585*) Do (Asn v_kf 0 ((Exp (#1.1512925464970229e+01 + #1.6 * $v_logT - #1.5700450423605873e+03 / $v_T))));
  (*586*) Do (Asn v_fwd_rxn_rates 48 (v_C.[10] * v_C.[4] * $v_kf));
  (*587*) If ($v_T) (#1000.0)
    [Asn v_Kc 0 (#6.7704219399999994e+00 + #(-1.2696605999999995e+00) * $v_logT + $v_T * (#8.0234069850000003e-03 + $v_T * (#(-6.9245629400000004e-06) + $v_T * (#3.3330242550000006e-09 + #(-6.8588373949999998e-13) * $v_T))) - #(-7.2171608599999981e+03) / $v_T)]
    [Asn v_Kc 0 (#(-1.1619143255000001e+01) + #2.1519710450000002e+00 * $v_logT + $v_T * (#(-2.2612790030000001e-03) + $v_T * (#4.0918947733333328e-07 + $v_T * (#(-5.3028044783333337e-11) + #3.0089326100000001e-15 * $v_T))) - #(-7.6190252100000007e+03) / $v_T)];
  (*593*) Do (Asn v_Kc 0 (#1.0000000000000000e+00 * (Exp $v_Kc)));
  (*594*) Do (Asn v_rev_rxn_rates 48 (v_C.[5] * v_C.[9] * $v_kf / $v_Kc));
  (*597*) Do (Asn v_kf 0 ((Exp (#1.0770588040219511e+01 + #1.228 * $v_logT - #3.5225369540141386e+01 / $v_T))));
  (*598*) Do (Asn v_fwd_rxn_rates 49 (v_C.[11] * v_C.[4] * $v_kf));
  (*599*) If ($v_T) (#1000.0)
    [Asn v_Kc 0 (#8.7646609250000012e+00 + #(-2.7147753799999998e+00) * $v_logT + $v_T * (#5.9981339853526668e-03 + $v_T * (#(-2.1263859053326532e-06) + $v_T * (#4.5277647235840138e-10 + #(-3.0169487496386619e-14) * $v_T))) - #(-1.2169304360000004e+04) / $v_T)]
    [Asn v_Kc 0 (#(-1.1019815694000000e+01) + #5.4938701999999973e-01 * $v_logT + $v_T * (#9.0170654545785104e-04 + $v_T * (#(-2.2374891347396751e-07) + $v_T * (#3.1781944238737311e-11 + #(-1.9292440950901319e-15) * $v_T))) - #(-1.2992290699999998e+04) / $v_T)];
  (*605*) Do (Asn v_Kc 0 (#1.0000000000000000e+00 * (Exp $v_Kc)));
  (*606*) Do (Asn v_rev_rxn_rates 49 (v_C.[1] * v_C.[12] * $v_kf / $v_Kc));
  (*609*) Do (Asn v_kf 0 (#50000000000.0));
  (*610*) Do (Asn v_fwd_rxn_rates 50 (v_C.[13] * v_C.[4] * $v_kf));
  (*611*) If ($v_T) (#1000.0)
    [Asn v_Kc 0 (#(-1.9604265999999893e-01) + #(-4.3502723999999970e-01) * $v_logT + $v_T * (#1.4992275299999999e-03 + $v_T * (#(-1.8101110949999999e-06) + $v_T * (#1.0512148244999999e-09 + #(-2.4171248395000002e-13) * $v_T))) - #(-5.2092458220000000e+04) / $v_T)]
    [Asn v_Kc 0 (#(-1.3736992500000000e+00) + #(-1.1588395000000018e-01) * $v_logT + $v_T * (#(-6.3296975299999964e-04) + $v_T * (#1.9917543550000000e-07 + $v_T * (#(-3.0683716783333336e-11) + #1.9032480549999999e-15 * $v_T))) - #(-5.2026744650000001e+04) / $v_T)];
  (*617*) Do (Asn v_Kc 0 (#1.0000000000000000e+00 * (Exp $v_Kc)));
  (*618*) Do (Asn v_rev_rxn_rates 50 (v_C.[5] * v_C.[11] * $v_kf / $v_Kc));
  (*621*) Do (Asn v_kf 0 ((Exp (#1.5048070819142122e+01 + #1.18 * $v_logT - #(-2.2493914549204570e+02) / $v_T))));
  (*622*) Do (Asn v_fwd_rxn_rates 51 (v_C.[14] * v_C.[4] * $v_kf));
  (*623*) If ($v_T) (#1000.0)
    [Asn v_Kc 0 (#2.4123649600000006e+00 + #(-3.6591217999999914e-01) * $v_logT + $v_T * (#3.5146458949999997e-03 + $v_T * (#(-3.6065987499999994e-06) + $v_T * (#1.9172732924999999e-09 + #(-4.2158565400000001e-13) * $v_T))) - #(-1.5760285599999999e+04) / $v_T)]
    [Asn v_Kc 0 (#(-4.3204932000000014e+00) + #9.5258912000000029e-01 * $v_logT + $v_T * (#(-1.3072786180000004e-03) + $v_T * (#2.7459237566666661e-07 + $v_T * (#(-3.5528847783333325e-11) + #2.0056777250000003e-15 * $v_T))) - #(-1.5855203649999999e+04) / $v_T)];
  (*629*) Do (Asn v_Kc 0 (#1.0000000000000000e+00 * (Exp $v_Kc)));
  (*630*) Do (Asn v_rev_rxn_rates 51 (v_C.[5] * v_C.[13] * $v_kf / $v_Kc));
  (*633*) Do (Asn v_kf 0 ((Exp (#8.1718820061278201e+00 + #2.12 * $v_logT - #4.3780102142747148e+02 / $v_T))));
  (*634*) Do (Asn v_fwd_rxn_rates 52 (v_C.[18] * v_C.[4] * $v_kf));
  (*635*) If ($v_T) (#1000.0)
    [Asn v_Kc 0 (#1.0736134400000008e+00 + #2.2166589000000014e-01 * $v_logT + $v_T * (#8.3991859999999938e-04 + $v_T * (#(-1.3878474000000013e-06) + $v_T * (#7.7726088416666721e-10 + #(-1.7049066150000002e-13) * $v_T))) - #(-9.5449752600000011e+03) / $v_T)]
    [Asn v_Kc 0 (#(-1.9869821400000016e+00) + #8.2387974000000019e-01 * $v_logT + $v_T * (#(-1.3297535879999997e-03) + $v_T * (#2.9216037899999999e-07 + $v_T * (#(-3.9253245950000014e-11) + #2.2720087799999998e-15 * $v_T))) - #(-9.5790409000000000e+03) / $v_T)];
  (*641*) Do (Asn v_Kc 0 (#1.0000000000000000e+00 * (Exp $v_Kc)));
  (*642*) Do (Asn v_rev_rxn_rates 52 (v_C.[17] * v_C.[5] * $v_kf / $v_Kc));
  (*645*) Do (Asn v_kf 0 (#20000000000.0));
  (*646*) Do (Asn v_fwd_rxn_rates 53 (v_C.[7] * v_C.[6] * $v_kf));
  (*647*) If ($v_T) (#1000.0)
    [Asn v_Kc 0 (#(-5.5015687579999994e+00) + #7.2126190000000090e-01 * $v_logT + $v_T * (#(-4.2647014214999999e-03) + $v_T * (#2.9977919499999997e-06 + $v_T * (#(-1.1401965416666665e-09) + #1.7808557350000002e-13 * $v_T))) - #(-5.6992724280000002e+04) / $v_T)]
    [Asn v_Kc 0 (#1.0214457990000001e+01 + #(-2.0377342800000000e+00) * $v_logT + $v_T * (#1.9261087430000004e-03 + $v_T * (#(-3.7557979699999998e-07) + $v_T * (#4.5336670449999998e-11 + #(-2.3540358100000002e-15) * $v_T))) - #(-5.6512636012999996e+04) / $v_T)];
  (*653*) Do (Asn v_Kc 0 (#1.0000000000000000e+00 * (Exp $v_Kc)));
  (*654*) Do (Asn v_rev_rxn_rates 53 (v_C.[14] * v_C.[4] * $v_kf / $v_Kc));
  (*657*) Do (Asn v_kf 0 (#1000000000.0));
  (*658*) Do (Asn v_fwd_rxn_rates 54 (v_C.[9] * v_C.[6] * $v_kf));
  (*659*) If ($v_T) (#1000.0)
    [Asn v_Kc 0 (#(-7.2617988899999997e+00) + #9.5694408000000042e-01 * $v_logT + $v_T * (#(-6.9647721000000006e-03) + $v_T * (#5.3564757083333336e-06 + $v_T * (#(-2.2506695033333343e-09) + #4.0385076950000006e-13 * $v_T))) - #(-2.8050398000000001e+04) / $v_T)]
    [Asn v_Kc 0 (#1.4570914635000003e+01 + #(-2.9455392850000006e+00) * $v_logT + $v_T * (#2.6971568700000000e-03 + $v_T * (#(-4.7833718816666649e-07) + $v_T * (#6.0205407583333335e-11 + #(-3.2990358250000004e-15) * $v_T))) - #(-2.7444243323000002e+04) / $v_T)];
  (*665*) Do (Asn v_Kc 0 (#1.0000000000000000e+00 * (Exp $v_Kc)));
  (*666*) Do (Asn v_rev_rxn_rates 54 (v_C.[10] * v_C.[3] * $v_kf / $v_Kc));
  (*669*) Do (Asn v_kf 0 (#20000000000.0));
  (*670*) Do (Asn v_fwd_rxn_rates 55 (v_C.[9] * v_C.[6] * $v_kf));
  (*671*) If ($v_T) (#1000.0)
    [Asn v_Kc 0 (#9.6041937419999996e+00 + #(-1.8771689799999995e+00) * $v_logT + $v_T * (#3.7767231199999996e-03 + $v_T * (#(-2.8220162083333331e-06) + $v_T * (#1.6573995266666667e-09 + #(-4.1981919400000005e-13) * $v_T))) - #(-1.2146125180000001e+04) / $v_T)]
    [Asn v_Kc 0 (#(-5.4196608900000003e+00) + #5.6075804999999956e-01 * $v_logT + $v_T * (#(-5.2989689199999987e-04) + $v_T * (#1.8182047633333330e-07 + $v_T * (#(-3.3619505800000002e-11) + #2.4060685249999999e-15 * $v_T))) - #(-1.2900951492999999e+04) / $v_T)];
  (*677*) Do (Asn v_Kc 0 (#1.0000000000000000e+00 * (Exp $v_Kc)));
  (*678*) Do (Asn v_rev_rxn_rates 55 (v_C.[15] * v_C.[4] * $v_kf / $v_Kc));
  (*681*) Do (Asn v_kf 0 ((Exp (#2.5733901131042668e+01 - #1.1875981730676238e+04 / $v_T))));
  (*682*) Do (Asn v_fwd_rxn_rates 56 (v_C.[11] * v_C.[6] * $v_kf));
  (*683*) If ($v_T) (#1000.0)
    [Asn v_Kc 0 (#4.1045975620000004e+00 + #(-1.5325425300000002e+00) * $v_logT + $v_T * (#5.9713767200000002e-03 + $v_T * (#(-4.1134546183333329e-06) + $v_T * (#1.8289533671666668e-09 + #(-3.5837057945000006e-13) * $v_T))) - #(-3.0707611180000000e+04) / $v_T)]
    [Asn v_Kc 0 (#(-5.0734071600000004e+00) + #2.1795145000000016e-01 * $v_logT + $v_T * (#3.3022620799999991e-04 + $v_T * (#(-7.5970815166666666e-08) + $v_T * (#7.6037212000000058e-12 + #(-2.1557768500000007e-16) * $v_T))) - #(-3.0860493312999999e+04) / $v_T)];
  (*689*) Do (Asn v_Kc 0 (#1.0000000000000000e+00 * (Exp $v_Kc)));
  (*690*) Do (Asn v_rev_rxn_rates 56 (v_C.[12] * v_C.[4] * $v_kf / $v_Kc));
  (*693*) Do (Asn v_kf 0 ((Exp (#2.3303482666538738e+01 - #7.5482934728874397e+02 / $v_T))));
  (*694*) Do (Asn v_fwd_rxn_rates 57 (v_C.[7] * v_C.[3] * $v_kf));
  (*695*) If ($v_T) (#1000.0)
    [Asn v_Kc 0 (#(-2.5978268480000009e+00) + #6.6806624000000081e-01 * $v_logT + $v_T * (#(-1.8086904115000000e-03) + $v_T * (#9.5928043166666694e-07 + $v_T * (#(-3.0527800083333327e-10) + #3.8532889499999976e-14 * $v_T))) - #(-3.7485451020000000e+04) / $v_T)]
    [Asn v_Kc 0 (#2.9421934099999998e+00 + #(-2.9157691999999980e-01) * $v_logT + $v_T * (#1.8295225800000006e-04 + $v_T * (#(-3.1839710500000008e-08) + $v_T * (#2.6304598666666752e-12 + #(-5.8254870000000020e-17) * $v_T))) - #(-3.7304571130000004e+04) / $v_T)];
  (*701*) Do (Asn v_Kc 0 (#1.0000000000000000e+00 * (Exp $v_Kc)));
  (*702*) Do (Asn v_rev_rxn_rates 57 (v_C.[13] * v_C.[4] * $v_kf / $v_Kc));
  (*705*) Do (Asn v_kf 0 ((Exp (#6.2146080984221914e+00 + #2.0 * $v_logT - #3.6382774539317456e+03 / $v_T))));
  (*706*) Do (Asn v_fwd_rxn_rates 58 (v_C.[0] * v_C.[7] * $v_kf));
  (*707*) If ($v_T) (#1000.0)
    [Asn v_Kc 0 (#(-1.1542412209999999e+00) + #6.6580609999999929e-02 * $v_logT + $v_T * (#(-3.4692205711473328e-03) + $v_T * (#3.7355785246673471e-06 + $v_T * (#(-1.9314560098082654e-09) + #4.1162788795361342e-13 * $v_T))) - #(-3.1674462270000004e+03) / $v_T)]
    [Asn v_Kc 0 (#6.4928815460000013e+00 + #(-1.4256625999999999e+00) * $v_logT + $v_T * (#1.8164549500078511e-03 + $v_T * (#(-3.4627571197396756e-07) + $v_T * (#4.2922623688737307e-11 + #(-2.3984109900901322e-15) * $v_T))) - #(-3.0642008779999960e+03) / $v_T)];
  (*713*) Do (Asn v_Kc 0 (#1.0000000000000000e+00 * (Exp $v_Kc)));
  (*714*) Do (Asn v_rev_rxn_rates 58 (v_C.[1] * v_C.[9] * $v_kf / $v_Kc));
  (*717*) Do (Asn v_kf 0 (#40000000000.0));
  (*718*) Do (Asn v_fwd_rxn_rates 59 (v_C.[7] * v_C.[9] * $v_kf));
  (*719*) If ($v_T) (#1000.0)
    [Asn v_Kc 0 (#1.4606195170000000e+00 + #(-9.7706759000000032e-01) * $v_logT + $v_T * (#(-5.2751731811473343e-03) + $v_T * (#8.0956520380006795e-06 + $v_T * (#(-4.8697324598082650e-09) + #1.1378581384536135e-12 * $v_T))) - #(-3.1885603070000001e+04) / $v_T)]
    [Asn v_Kc 0 (#(-4.1688709639999981e+00) + #(-6.2370768000000032e-01) * $v_logT + $v_T * (#1.8745608934578519e-03 + $v_T * (#(-3.8578161397396770e-07) + $v_T * (#5.1363752688737337e-11 + #(-3.0108932200901318e-15) * $v_T))) - #(-3.2625642260000001e+04) / $v_T)];
  (*725*) Do (Asn v_Kc 0 (#1.0000000000000000e+00 * (Exp $v_Kc)));
  (*726*) Do (Asn v_rev_rxn_rates 59 (v_C.[1] * v_C.[16] * $v_kf / $v_Kc));
  (*729*) Do (Asn v_kf 0 ((Exp (#7.8079166289264084e+00 + #2.0 * $v_logT - #4.1616258013852748e+03 / $v_T))));
  (*730*) Do (Asn v_fwd_rxn_rates 60 (v_C.[7] * v_C.[10] * $v_kf));
  (*731*) If ($v_T) (#1000.0)
    [Asn v_Kc 0 (#7.8532745699999982e+00 + #(-1.5653739999999998e+00) * $v_logT + $v_T * (#8.3620050785000004e-03 + $v_T * (#(-6.7524201983333334e-06) + $v_T * (#3.2152388025000006e-09 + #(-6.6345490549999999e-13) * $v_T))) - #(-2.8673948999999957e+03) / $v_T)]
    [Asn v_Kc 0 (#(-9.2708504749999996e+00) + #1.6224828150000001e+00 * $v_logT + $v_T * (#(-1.2837694399999997e-03) + $v_T * (#1.9458618333333327e-07 + $v_T * (#(-2.4311300916666658e-11) + #1.3578553950000004e-15 * $v_T))) - #(-3.2440908100000015e+03) / $v_T)];
  (*737*) Do (Asn v_Kc 0 (#1.0000000000000000e+00 * (Exp $v_Kc)));
  (*738*) Do (Asn v_rev_rxn_rates 60 (v_C.[9] * v_C.[9] * $v_kf / $v_Kc));
  (*741*) Do (Asn v_kf 0 ((Exp (#2.3431316038048621e+01 - #3.0193173891549759e+02 / $v_T))));
  (*742*) Do (Asn v_fwd_rxn_rates 61 (v_C.[8] * v_C.[20] * $v_kf));
  (*743*) If ($v_T) (#1000.0)
    [Asn v_Kc 0 (#2.7675762569999995e+00 + #(-4.3592543999999966e-01) * $v_logT + $v_T * (#1.6677431665000002e-03 + $v_T * (#(-9.0634396499999983e-07) + $v_T * (#2.3643735666666669e-10 + #(-1.2786509000000005e-14) * $v_T))) - #(-4.4927762000000002e+03) / $v_T)]
    [Asn v_Kc 0 (#(-3.0373711599999997e+00) + #5.8206271000000021e-01 * $v_logT + $v_T * (#(-4.9974672500000005e-04) + $v_T * (#1.0049558333333332e-07 + $v_T * (#(-1.3143870916666673e-11) + #7.5994398999999995e-16 * $v_T))) - #(-4.6623957000000009e+03) / $v_T)];
  (*749*) Do (Asn v_Kc 0 (#1.0000000000000000e+00 * (Exp $v_Kc)));
  (*750*) Do (Asn v_rev_rxn_rates 61 (v_C.[7] * v_C.[20] * $v_kf / $v_Kc));
  (*753*) Do (Asn v_kf 0 ((Exp (#2.2920490414282632e+01 - #3.0193173891549759e+02 / $v_T))));
  (*754*) Do (Asn v_fwd_rxn_rates 62 (v_C.[8] * v_C.[19] * $v_kf));
  (*755*) If ($v_T) (#1000.0)
    [Asn v_Kc 0 (#2.7675762569999995e+00 + #(-4.3592543999999966e-01) * $v_logT + $v_T * (#1.6677431665000002e-03 + $v_T * (#(-9.0634396499999983e-07) + $v_T * (#2.3643735666666669e-10 + #(-1.2786509000000005e-14) * $v_T))) - #(-4.4927762000000002e+03) / $v_T)]
    [Asn v_Kc 0 (#(-3.0373711599999997e+00) + #5.8206271000000021e-01 * $v_logT + $v_T * (#(-4.9974672500000005e-04) + $v_T * (#1.0049558333333332e-07 + $v_T * (#(-1.3143870916666673e-11) + #7.5994398999999995e-16 * $v_T))) - #(-4.6623957000000009e+03) / $v_T)];
  (*761*) Do (Asn v_Kc 0 (#1.0000000000000000e+00 * (Exp $v_Kc)));
  (*762*) Do (Asn v_rev_rxn_rates 62 (v_C.[7] * v_C.[19] * $v_kf / $v_Kc));
  (*765*) Do (Asn v_kf 0 (#28000000000.0));
  (*766*) Do (Asn v_fwd_rxn_rates 63 (v_C.[8] * v_C.[3] * $v_kf));
  (*767*) If ($v_T) (#1000.0)
    [Asn v_Kc 0 (#(-2.0212442240000010e+00) + #1.0904884300000002e+00 * $v_logT + $v_T * (#1.1758385753526663e-03 + $v_T * (#(-2.0742519119993197e-06) + $v_T * (#1.1162772880250682e-09 + #(-2.3635927699638663e-13) * $v_T))) - #(-3.4688218280000001e+04) / $v_T)]
    [Asn v_Kc 0 (#(-4.9645291040000004e+00) + #1.7334970299999997e+00 * $v_logT + $v_T * (#(-1.7640083935421486e-03) + $v_T * (#3.1626093535936575e-07 + $v_T * (#(-4.0439142277929365e-11) + #2.3509941199098679e-15 * $v_T))) - #(-3.4657097480000004e+04) / $v_T)];
  (*773*) Do (Asn v_Kc 0 (#1.2186597134166982e+01 * (Exp $v_Kc)));
  (*774*) Do (Asn v_rev_rxn_rates 63 (v_C.[1] * v_C.[11] * v_C.[4] * $v_kf / $v_Kc));
  (*777*) Do (Asn v_kf 0 (#12000000000.0));
  (*778*) Do (Asn v_fwd_rxn_rates 64 (v_C.[8] * v_C.[3] * $v_kf));
  (*779*) If ($v_T) (#1000.0)
    [Asn v_Kc 0 (#(-2.6293251000000240e-02) + #(-2.0288643999999900e-01) * $v_logT + $v_T * (#1.3582802849999998e-03 + $v_T * (#(-1.7571746283333330e-06) + $v_T * (#9.8237418033333331e-10 + #(-2.1596610345000000e-13) * $v_T))) - #(-9.4070685439999987e+04) / $v_T)]
    [Asn v_Kc 0 (#(-1.4688770000000000e+00) + #1.7460184000000023e-01 * $v_logT + $v_T * (#(-9.4976421999999974e-04) + $v_T * (#2.6783130833333326e-07 + $v_T * (#(-4.1197127833333337e-11) + #2.6049371749999998e-15 * $v_T))) - #(-9.3993711479999998e+04) / $v_T)];
  (*785*) Do (Asn v_Kc 0 (#1.0000000000000000e+00 * (Exp $v_Kc)));
  (*786*) Do (Asn v_rev_rxn_rates 64 (v_C.[5] * v_C.[11] * $v_kf / $v_Kc));
  (*789*) Do (Asn v_kf 0 (#70000000000.0));
  (*790*) Do (Asn v_fwd_rxn_rates 65 (v_C.[0] * v_C.[8] * $v_kf));
  (*791*) If ($v_T) (#1000.0)
    [Asn v_Kc 0 (#1.6133350359999996e+00 + #(-3.6934482999999974e-01) * $v_logT + $v_T * (#(-1.8014774046473329e-03) + $v_T * (#2.8292345596673472e-06 + $v_T * (#(-1.6950186531415987e-09) + #3.9884137895361342e-13 * $v_T))) - #(-7.6602224270000006e+03) / $v_T)]
    [Asn v_Kc 0 (#3.4555103860000012e+00 + #(-8.4359988999999969e-01) * $v_logT + $v_T * (#1.3167082250078511e-03 + $v_T * (#(-2.4578012864063421e-07) + $v_T * (#2.9778752772070631e-11 + #(-1.6384670000901324e-15) * $v_T))) - #(-7.7265965779999970e+03) / $v_T)];
  (*797*) Do (Asn v_Kc 0 (#1.0000000000000000e+00 * (Exp $v_Kc)));
  (*798*) Do (Asn v_rev_rxn_rates 65 (v_C.[1] * v_C.[9] * $v_kf / $v_Kc));
  (*801*) Do (Asn v_kf 0 (#30000000000.0));
  (*802*) Do (Asn v_fwd_rxn_rates 66 (v_C.[8] * v_C.[5] * $v_kf));
  (*803*) If ($v_T) (#1000.0)
    [Asn v_Kc 0 (#2.7675762569999995e+00 + #(-4.3592543999999966e-01) * $v_logT + $v_T * (#1.6677431665000002e-03 + $v_T * (#(-9.0634396499999983e-07) + $v_T * (#2.3643735666666669e-10 + #(-1.2786509000000005e-14) * $v_T))) - #(-4.4927762000000002e+03) / $v_T)]
    [Asn v_Kc 0 (#(-3.0373711599999997e+00) + #5.8206271000000021e-01 * $v_logT + $v_T * (#(-4.9974672500000005e-04) + $v_T * (#1.0049558333333332e-07 + $v_T * (#(-1.3143870916666673e-11) + #7.5994398999999995e-16 * $v_T))) - #(-4.6623957000000009e+03) / $v_T)];
  (*809*) Do (Asn v_Kc 0 (#1.0000000000000000e+00 * (Exp $v_Kc)));
  (*810*) Do (Asn v_rev_rxn_rates 66 (v_C.[7] * v_C.[5] * $v_kf / $v_Kc));
  (*813*) Do (Asn v_kf 0 ((Exp (#2.3208172486734412e+01 - #(-2.8683515196972269e+02) / $v_T))));
  (*814*) Do (Asn v_fwd_rxn_rates 67 (v_C.[8] * v_C.[9] * $v_kf));
  (*815*) If ($v_T) (#1000.0)
    [Asn v_Kc 0 (#4.2281957739999996e+00 + #(-1.4129930300000000e+00) * $v_logT + $v_T * (#(-3.6074300146473337e-03) + $v_T * (#7.1893080730006792e-06 + $v_T * (#(-4.6332951031415987e-09) + #1.1250716294536134e-12 * $v_T))) - #(-3.6378379270000005e+04) / $v_T)]
    [Asn v_Kc 0 (#(-7.2062421239999983e+00) + #(-4.1644970000000114e-02) * $v_logT + $v_T * (#1.3748141684578521e-03 + $v_T * (#(-2.8528603064063429e-07) + $v_T * (#3.8219881772070655e-11 + #(-2.2509492300901323e-15) * $v_T))) - #(-3.7288037960000001e+04) / $v_T)];
  (*821*) Do (Asn v_Kc 0 (#1.0000000000000000e+00 * (Exp $v_Kc)));
  (*822*) Do (Asn v_rev_rxn_rates 67 (v_C.[1] * v_C.[16] * $v_kf / $v_Kc));
  (*825*) Do (Asn v_kf 0 ((Exp (#2.3495854559186192e+01 - #(-2.8683515196972269e+02) / $v_T))));
  (*826*) Do (Asn v_fwd_rxn_rates 68 (v_C.[8] * v_C.[10] * $v_kf));
  (*827*) If ($v_T) (#1000.0)
    [Asn v_Kc 0 (#1.0620850826999998e+01 + #(-2.0012994399999995e+00) * $v_logT + $v_T * (#1.0029748245000001e-02 + $v_T * (#(-7.6587641633333328e-06) + $v_T * (#3.4516761591666673e-09 + #(-6.7624141450000000e-13) * $v_T))) - #(-7.3601710999999959e+03) / $v_T)]
    [Asn v_Kc 0 (#(-1.2308221634999999e+01) + #2.2045455250000003e+00 * $v_logT + $v_T * (#(-1.7835161650000004e-03) + $v_T * (#2.9508176666666667e-07 + $v_T * (#(-3.7455171833333327e-11) + #2.1177993849999999e-15 * $v_T))) - #(-7.9064865100000025e+03) / $v_T)];
  (*833*) Do (Asn v_Kc 0 (#1.0000000000000000e+00 * (Exp $v_Kc)));
  (*834*) Do (Asn v_rev_rxn_rates 68 (v_C.[9] * v_C.[9] * $v_kf / $v_Kc));
  (*837*) Do (Asn v_kf 0 (#9000000000.0));
  (*838*) Do (Asn v_fwd_rxn_rates 69 (v_C.[8] * v_C.[11] * $v_kf));
  (*839*) If ($v_T) (#1000.0)
    [Asn v_Kc 0 (#2.7675762569999995e+00 + #(-4.3592543999999966e-01) * $v_logT + $v_T * (#1.6677431665000002e-03 + $v_T * (#(-9.0634396499999983e-07) + $v_T * (#2.3643735666666669e-10 + #(-1.2786509000000005e-14) * $v_T))) - #(-4.4927762000000002e+03) / $v_T)]
    [Asn v_Kc 0 (#(-3.0373711599999997e+00) + #5.8206271000000021e-01 * $v_logT + $v_T * (#(-4.9974672500000005e-04) + $v_T * (#1.0049558333333332e-07 + $v_T * (#(-1.3143870916666673e-11) + #7.5994398999999995e-16 * $v_T))) - #(-4.6623957000000009e+03) / $v_T)];
  (*845*) Do (Asn v_Kc 0 (#1.0000000000000000e+00 * (Exp $v_Kc)));
  (*846*) Do (Asn v_rev_rxn_rates 69 (v_C.[7] * v_C.[11] * $v_kf / $v_Kc));
  (*849*) Do (Asn v_kf 0 (#7000000000.0));
  (*850*) Do (Asn v_fwd_rxn_rates 70 (v_C.[8] * v_C.[12] * $v_kf));
  (*851*) If ($v_T) (#1000.0)
    [Asn v_Kc 0 (#2.7675762569999995e+00 + #(-4.3592543999999966e-01) * $v_logT + $v_T * (#1.6677431665000002e-03 + $v_T * (#(-9.0634396499999983e-07) + $v_T * (#2.3643735666666669e-10 + #(-1.2786509000000005e-14) * $v_T))) - #(-4.4927762000000002e+03) / $v_T)]
    [Asn v_Kc 0 (#(-3.0373711599999997e+00) + #5.8206271000000021e-01 * $v_logT + $v_T * (#(-4.9974672500000005e-04) + $v_T * (#1.0049558333333332e-07 + $v_T * (#(-1.3143870916666673e-11) + #7.5994398999999995e-16 * $v_T))) - #(-4.6623957000000009e+03) / $v_T)];
  (*857*) Do (Asn v_Kc 0 (#1.0000000000000000e+00 * (Exp $v_Kc)));
  (*858*) Do (Asn v_rev_rxn_rates 70 (v_C.[7] * v_C.[12] * $v_kf / $v_Kc));
  (*861*) Do (Asn v_kf 0 (#14000000000.0));
  (*862*) Do (Asn v_fwd_rxn_rates 71 (v_C.[8] * v_C.[12] * $v_kf));
  (*863*) If ($v_T) (#1000.0)
    [Asn v_Kc 0 (#(-6.8385900630000007e+00) + #1.8178789899999996e+00 * $v_logT + $v_T * (#(-8.5683349750000012e-03) + $v_T * (#6.2049026033333328e-06 + $v_T * (#(-2.7327125521666666e-09) + #5.2366964395000012e-13 * $v_T))) - #(-3.0777889299999995e+04) / $v_T)]
    [Asn v_Kc 0 (#1.2250493990000001e+01 + #(-1.6736230200000004e+00) * $v_logT + $v_T * (#1.0961358100000005e-03 + $v_T * (#(-1.9911339850000003e-07) + $v_T * (#2.4589078333333327e-11 + #(-1.3785141350000008e-15) * $v_T))) - #(-3.0314538400000005e+04) / $v_T)];
  (*869*) Do (Asn v_Kc 0 (#1.0000000000000000e+00 * (Exp $v_Kc)));
  (*870*) Do (Asn v_rev_rxn_rates 71 (v_C.[14] * v_C.[11] * $v_kf / $v_Kc));
  (*873*) Do (Asn v_kf 0 ((Exp (#2.4009800310288426e+01 - #1.4492723467943884e+04 / $v_T))));
  (*874*) Do (Asn v_fwd_rxn_rates 72 (v_C.[9] * v_C.[3] * $v_kf));
  (*875*) If ($v_T) (#1000.0)
    [Asn v_Kc 0 (#1.2123446059999999e+01 + #(-2.1815756600000000e+00) * $v_logT + $v_T * (#2.4615292849999998e-03 + $v_T * (#(-5.9933076833333345e-07) + $v_T * (#2.5389725833333334e-10 + #(-7.9965800000000011e-14) * $v_T))) - #1.4719805059999999e+04 / $v_T)]
    [Asn v_Kc 0 (#(-6.9913536600000006e+00) + #7.7196422000000009e-01 * $v_logT + $v_T * (#(-4.6873251184999991e-04) + $v_T * (#1.8844576798333330e-07 + $v_T * (#(-3.5060823241666667e-11) + #2.4244697855000003e-15 * $v_T))) - #1.3658285040000001e+04 / $v_T)];
  (*881*) Do (Asn v_Kc 0 (#1.0000000000000000e+00 * (Exp $v_Kc)));
  (*882*) Do (Asn v_rev_rxn_rates 72 (v_C.[15] * v_C.[2] * $v_kf / $v_Kc));
  (*885*) Do (Asn v_kf 0 ((Exp (#1.7399029496420383e+01 - #4.4987829098409138e+03 / $v_T))));
  (*886*) Do (Asn v_fwd_rxn_rates 73 (v_C.[9] * v_C.[3] * $v_kf));
  (*887*) If ($v_T) (#1000.0)
    [Asn v_Kc 0 (#(-6.0930444379999997e+00) + #1.3296918200000003e+00 * $v_logT + $v_T * (#(-5.6619343999999997e-03) + $v_T * (#4.3937364400000000e-06 + $v_T * (#(-2.1047658408333332e-09) + #4.3768970950000006e-13 * $v_T))) - #(-2.6074931380000002e+04) / $v_T)]
    [Asn v_Kc 0 (#4.9143938300000007e+00 + #(-7.1467780999999952e-01) * $v_logT + $v_T * (#5.1272131300000021e-04 + $v_T * (#(-9.1828792166666631e-08) + $v_T * (#9.4425637833333304e-12 + #(-4.1285538000000041e-16) * $v_T))) - #(-2.5824301879999999e+04) / $v_T)];
  (*893*) Do (Asn v_Kc 0 (#1.0000000000000000e+00 * (Exp $v_Kc)));
  (*894*) Do (Asn v_rev_rxn_rates 73 (v_C.[14] * v_C.[4] * $v_kf / $v_Kc));
  (*897*) Do (Asn v_kf 0 ((Exp (#3.0685022297606515e+01 - #0.97 * $v_logT - #3.1199613021268084e+02 / $v_T))));
  (*898*) Do (Asn v_fwd_rxn_rates 74 (v_C.[9] * v_C.[9] * $v_kf));
  (*899*) If ($v_T) (#1000.0)
    [Asn v_Kc 0 (#2.5134503800000001e+00 + #(-2.0557558800000004e+00) * $v_logT + $v_T * (#(-4.7617231000000003e-03) + $v_T * (#8.0805652800000013e-06 + $v_T * (#(-4.7586900000000002e-09) + #1.0890431210000001e-12 * $v_T))) - #(-4.4412203099999999e+04) / $v_T)]
    [Asn v_Kc 0 (#1.6550210599999993e+00 + #(-2.4995539400000002e+00) * $v_logT + $v_T * (#3.6027334800000001e-03 + $v_T * (#(-6.7521995666666668e-07) + $v_T * (#8.5229226833333329e-11 + #(-4.8286005599999995e-15) * $v_T))) - #(-4.4977561799999996e+04) / $v_T)];
  (*905*) Do (Asn v_Kc 0 (#8.2057360967184814e-02 * (Exp $v_Kc)));
  (*906*) Do (Asn v_rev_rxn_rates 74 (v_C.[18] * $v_kf / $v_Kc));
  (*909*) Do (Asn v_kf 0 ((Exp (#2.2330701746709838e+01 + #0.1 * $v_logT - #5.3341273875071238e+03 / $v_T))));
  (*910*) Do (Asn v_fwd_rxn_rates 75 (v_C.[9] * v_C.[9] * $v_kf));
  (*911*) If ($v_T) (#1000.0)
    [Asn v_Kc 0 (#1.5921128470000006e+00 + #(-5.4071512000000066e-01) * $v_logT + $v_T * (#(-4.1042462096473340e-03) + $v_T * (#6.3756405963340138e-06 + $v_T * (#(-3.8475260081415982e-09) + #8.9815928595361359e-13 * $v_T))) - #5.4252887999999948e+03 / $v_T)]
    [Asn v_Kc 0 (#(-3.8276131840000023e+00) + #(-1.1677901000000013e-01) * $v_logT + $v_T * (#1.4587357184578514e-03 + $v_T * (#(-3.3462995064063426e-07) + $v_T * (#4.6733966438737313e-11 + #(-2.8105348350901323e-15) * $v_T))) - #4.7800113000000056e+03 / $v_T)];
  (*917*) Do (Asn v_Kc 0 (#1.0000000000000000e+00 * (Exp $v_Kc)));
  (*918*) Do (Asn v_rev_rxn_rates 75 (v_C.[1] * v_C.[17] * $v_kf / $v_Kc));
  (*921*) Do (Asn v_kf 0 (#26480000000.0));
  (*922*) Do (Asn v_fwd_rxn_rates 76 (v_C.[9] * v_C.[13] * $v_kf));
  (*923*) If ($v_T) (#1000.0)
    [Asn v_Kc 0 (#(-6.9664645999999983e+00) + #8.3463335999999977e-01 * $v_logT + $v_T * (#(-6.5241794550000010e-03) + $v_T * (#5.1144518450000005e-06 + $v_T * (#(-2.2818094305000002e-09) + #4.4417125555000006e-13 * $v_T))) - #(-4.4875297360000004e+04) / $v_T)]
    [Asn v_Kc 0 (#1.0245444005000003e+01 + #(-2.2678549950000004e+00) * $v_logT + $v_T * (#1.6283092500000004e-03 + $v_T * (#(-2.1001404183333320e-07) + $v_T * (#2.2344327999999988e-11 + #(-1.1056845550000002e-15) * $v_T))) - #(-4.4407719440000001e+04) / $v_T)];
  (*929*) Do (Asn v_Kc 0 (#1.0000000000000000e+00 * (Exp $v_Kc)));
  (*930*) Do (Asn v_rev_rxn_rates 76 (v_C.[10] * v_C.[11] * $v_kf / $v_Kc));
  (*933*) Do (Asn v_kf 0 ((Exp (#1.1999647829283970e+00 + #2.81 * $v_logT - #2.9488666500746931e+03 / $v_T))));
  (*934*) Do (Asn v_fwd_rxn_rates 77 (v_C.[14] * v_C.[9] * $v_kf));
  (*935*) If ($v_T) (#1000.0)
    [Asn v_Kc 0 (#(-4.3580569799999989e+00) + #9.0374842000000033e-01 * $v_logT + $v_T * (#(-4.5087610900000005e-03) + $v_T * (#3.3179641900000010e-06 + $v_T * (#(-1.4157509625000007e-09) + #2.6429808550000006e-13 * $v_T))) - #(-8.5431247400000011e+03) / $v_T)]
    [Asn v_Kc 0 (#7.2986500549999986e+00 + #(-1.1993819250000000e+00) * $v_logT + $v_T * (#9.5400038499999975e-04 + $v_T * (#(-1.3459710166666672e-07) + $v_T * (#1.7499196999999993e-11 + #(-1.0032548849999990e-15) * $v_T))) - #(-8.2361784399999997e+03) / $v_T)];
  (*941*) Do (Asn v_Kc 0 (#1.0000000000000000e+00 * (Exp $v_Kc)));
  (*942*) Do (Asn v_rev_rxn_rates 77 (v_C.[10] * v_C.[13] * $v_kf / $v_Kc));
  (*945*) Do (Asn v_kf 0 ((Exp (#8.7225800211411890e+00 + #1.74 * $v_logT - #5.2586444527782496e+03 / $v_T))));
  (*946*) Do (Asn v_fwd_rxn_rates 78 (v_C.[18] * v_C.[9] * $v_kf));
  (*947*) If ($v_T) (#1000.0)
    [Asn v_Kc 0 (#(-5.6968084999999977e+00) + #1.4913264899999996e+00 * $v_logT + $v_T * (#(-7.1834883850000007e-03) + $v_T * (#5.5367155399999999e-06 + $v_T * (#(-2.5557633708333321e-09) + #5.1539307800000025e-13 * $v_T))) - #(-2.3278144000000011e+03) / $v_T)]
    [Asn v_Kc 0 (#9.6321611149999988e+00 + #(-1.3280913050000001e+00) * $v_logT + $v_T * (#9.3152541500000040e-04 + $v_T * (#(-1.1702909833333329e-07) + $v_T * (#1.3774798833333342e-11 + #(-7.3692383000000025e-16) * $v_T))) - #(-1.9600156899999984e+03) / $v_T)];
  (*953*) Do (Asn v_Kc 0 (#1.0000000000000000e+00 * (Exp $v_Kc)));
  (*954*) Do (Asn v_rev_rxn_rates 78 (v_C.[17] * v_C.[10] * $v_kf / $v_Kc));
  (*957*) Do (Asn v_kf 0 ((Exp (#3.5347036382571133e+01 - #1.0 * $v_logT - #8.5547326026057654e+03 / $v_T))));
  (*958*) Do (Asn v_fwd_rxn_rates 79 (v_C.[5] * v_C.[13] * $v_kf));
  (*959*) If ($v_T) (#1000.0)
    [Asn v_Kc 0 (#(-2.1909936329999997e+00) + #8.5834762999999903e-01 * $v_logT + $v_T * (#1.3167858203526664e-03 + $v_T * (#(-2.1271883786659866e-06) + $v_T * (#1.1851179321917348e-09 + #(-2.6210565749638660e-13) * $v_T))) - #7.2900089399999997e+03 / $v_T)]
    [Asn v_Kc 0 (#(-4.8693513540000000e+00) + #1.4430112399999997e+00 * $v_logT + $v_T * (#(-1.4472139265421485e-03) + $v_T * (#2.4760506252603246e-07 + $v_T * (#(-2.9925731227929364e-11) + #1.6493049999098680e-15 * $v_T))) - #7.3098693499999990e+03 / $v_T)];
  (*965*) Do (Asn v_Kc 0 (#1.2186597134166982e+01 * (Exp $v_Kc)));
  (*966*) Do (Asn v_rev_rxn_rates 79 (v_C.[1] * v_C.[5] * v_C.[11] * $v_kf / $v_Kc));
  (*969*) Do (Asn v_kf 0 ((Exp (#3.2862129732783131e+01 - #1.0 * $v_logT - #8.5547326026057654e+03 / $v_T))));
  (*970*) Do (Asn v_fwd_rxn_rates 80 (v_C.[13] * $v_kf));
  (*971*) If ($v_T) (#1000.0)
    [Asn v_Kc 0 (#(-2.1909936329999997e+00) + #8.5834762999999903e-01 * $v_logT + $v_T * (#1.3167858203526664e-03 + $v_T * (#(-2.1271883786659866e-06) + $v_T * (#1.1851179321917348e-09 + #(-2.6210565749638660e-13) * $v_T))) - #7.2900089399999997e+03 / $v_T)]
    [Asn v_Kc 0 (#(-4.8693513540000000e+00) + #1.4430112399999997e+00 * $v_logT + $v_T * (#(-1.4472139265421485e-03) + $v_T * (#2.4760506252603246e-07 + $v_T * (#(-2.9925731227929364e-11) + #1.6493049999098680e-15 * $v_T))) - #7.3098693499999990e+03 / $v_T)];
  (*977*) Do (Asn v_Kc 0 (#1.2186597134166982e+01 * (Exp $v_Kc)));
  (*978*) Do (Asn v_rev_rxn_rates 80 (v_C.[1] * v_C.[11] * $v_kf / $v_Kc));
  (*981*) Do (Asn v_kf 0 ((Exp (#2.2751414084238696e+01 - #2.0128782594366504e+02 / $v_T))));
  (*982*) Do (Asn v_fwd_rxn_rates 81 (v_C.[13] * v_C.[3] * $v_kf));
  (*983*) If ($v_T) (#1000.0)
    [Asn v_Kc 0 (#2.9533429000000044e-01 + #(-1.2231072000000021e-01) * $v_logT + $v_T * (#4.4059264500000009e-04 + $v_T * (#(-2.4202386333333375e-07) + $v_T * (#(-3.1139927166666888e-11) + #4.0320486050000074e-14 * $v_T))) - #(-1.6824899359999999e+04) / $v_T)]
    [Asn v_Kc 0 (#(-4.3254706299999999e+00) + #6.7768429000000019e-01 * $v_logT + $v_T * (#(-1.0688476199999996e-03) + $v_T * (#2.6832314633333334e-07 + $v_T * (#(-3.7861079583333334e-11) + #2.1933512699999998e-15 * $v_T))) - #(-1.6963476117000002e+04) / $v_T)];
  (*989*) Do (Asn v_Kc 0 (#1.0000000000000000e+00 * (Exp $v_Kc)));
  (*990*) Do (Asn v_rev_rxn_rates 81 (v_C.[11] * v_C.[6] * $v_kf / $v_Kc));
  (*993*) Do (Asn v_kf 0 ((Exp (#(-3.5387408478311023e+01) + #7.6 * $v_logT - #(-1.7763650639528441e+03) / $v_T))));
  (*994*) Do (Asn v_fwd_rxn_rates 82 (v_C.[15] * v_C.[3] * $v_kf));
  (*995*) If ($v_T) (#1000.0)
    [Asn v_Kc 0 (#(-1.5697238179999999e+01) + #3.2068607999999998e+00 * $v_logT + $v_T * (#(-9.4386575199999993e-03) + $v_T * (#7.2157526483333326e-06 + $v_T * (#(-3.7621653674999999e-09) + #8.5750890350000001e-13 * $v_T))) - #(-1.3928806200000001e+04) / $v_T)]
    [Asn v_Kc 0 (#1.0334054720000001e+01 + #(-1.2754358599999995e+00) * $v_logT + $v_T * (#1.0426182050000004e-03 + $v_T * (#(-2.7364926849999996e-07) + $v_T * (#4.3062069583333329e-11 + #(-2.8189239050000005e-15) * $v_T))) - #(-1.2923350387000000e+04) / $v_T)];
  (*1001*) Do (Asn v_Kc 0 (#1.0000000000000000e+00 * (Exp $v_Kc)));
  (*1002*) Do (Asn v_rev_rxn_rates 82 (v_C.[14] * v_C.[6] * $v_kf / $v_Kc));
  (*1005*) Do (Asn v_kf 0 ((Exp (#2.0548912449801634e+01 - #1.9499758138292552e+03 / $v_T))));
  (*1006*) Do (Asn v_fwd_rxn_rates 83 (v_C.[17] * v_C.[3] * $v_kf));
  (*1007*) If ($v_T) (#1000.0)
    [Asn v_Kc 0 (#(-7.2296901000000036e-01) + #1.7207745000000019e-01 * $v_logT + $v_T * (#(-2.5681599499999992e-03) + $v_T * (#3.1159559316666656e-06 + $v_T * (#(-1.9867757508333331e-09) + #4.9930298850000008e-13 * $v_T))) - #(-6.3930989700000009e+03) / $v_T)]
    [Asn v_Kc 0 (#(-5.6413219399999974e+00) + #8.1612780000000029e-01 * $v_logT + $v_T * (#(-9.9756225500000030e-04) + $v_T * (#2.3259934149999997e-07 + $v_T * (#(-3.1264320416666646e-11) + #1.7408220449999992e-15 * $v_T))) - #(-6.7173194270000004e+03) / $v_T)];
  (*1013*) Do (Asn v_Kc 0 (#1.0000000000000000e+00 * (Exp $v_Kc)));
  (*1014*) Do (Asn v_rev_rxn_rates 83 (v_C.[16] * v_C.[6] * $v_kf / $v_Kc))
].
