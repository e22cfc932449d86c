(** Transcription of /repo/utilities/mechanisms/yao/lib/src (C, constant pressure branch); the number
    before a statement is its line. *)
From Coq Require Import List QArith.
From Verif Require Import MechLang.
Import ListNotations.
Local Open Scope mech_scope.

(** [eval_conc], yao/lib/src/chem_utils.c:12-108. *)
Definition yao_eval_conc : list stmt := [
  (*15*) Do (Asn v_y_N 0 (#1.0 - (v_y.[0] + v_y.[1] + v_y.[2] + v_y.[3] + v_y.[4] + v_y.[5] + v_y.[6] + v_y.[7] + v_y.[8] + v_y.[9] + v_y.[10] + v_y.[11] + v_y.[12] + v_y.[13] + v_y.[14] + v_y.[15] + v_y.[16] + v_y.[17] + v_y.[18] + v_y.[19] + v_y.[20] + v_y.[21] + v_y.[22] + v_y.[23] + v_y.[24] + v_y.[25] + v_y.[26] + v_y.[27] + v_y.[28] + v_y.[29] + v_y.[30] + v_y.[31] + v_y.[32] + v_y.[33] + v_y.[34] + v_y.[35] + v_y.[36] + v_y.[37] + v_y.[38] + v_y.[39] + v_y.[40] + v_y.[41] + v_y.[42] + v_y.[43] + v_y.[44] + v_y.[45] + v_y.[46] + v_y.[47] + v_y.[48] + v_y.[49] + v_y.[50] + v_y.[51] + v_y.[52])));
  (*23*) Do (Asn v_mw_avg 0 (v_y.[0] * #2.5032542304996495e-02 + v_y.[1] * #9.9212254697700253e-01 + v_y.[2] * #6.2502343837893923e-02 + v_y.[3] * #5.8798142449083754e-02 + v_y.[4] * #3.0296842402491128e-02 + v_y.[5] * #4.9606127348850126e-01 + v_y.[6] * #5.5508435061791990e-02 + v_y.[7] * #2.9399071224541877e-02 + v_y.[8] * #3.1251171918946961e-02 + v_y.[9] * #7.1291691381119682e-02 + v_y.[10] * #7.1291691381119682e-02 + v_y.[11] * #6.6512269518358050e-02 + v_y.[12] * #6.2333413951215375e-02 + v_y.[13] * #3.4460965031080343e-02 + v_y.[14] * #3.3304158890145569e-02 + v_y.[15] * #3.2222495039346891e-02 + v_y.[16] * #3.5701025333447579e-02 + v_y.[17] * #2.2722211870992371e-02 + v_y.[18] * #3.8405584479227962e-02 + v_y.[19] * #3.6974290296984895e-02 + v_y.[20] * #3.5645845690559841e-02 + v_y.[21] * #3.4409549338132318e-02 + v_y.[22] * #3.3256134759179025e-02 + v_y.[23] * #2.3231383182615861e-02 + v_y.[24] * #2.4347072386280914e-02 + v_y.[25] * #2.3763897127039892e-02 + v_y.[26] * #2.3208005462236166e-02 + v_y.[27] * #1.7836707087023153e-02 + v_y.[28] * #1.8148958667198553e-02 + v_y.[29] * #1.7822922845279920e-02 + v_y.[30] * #1.7508394399694933e-02 + v_y.[31] * #1.4466240568372807e-02 + v_y.[32] * #1.4258338276223937e-02 + v_y.[33] * #1.4056327076112483e-02 + v_y.[34] * #1.1881948563519946e-02 + v_y.[35] * #1.1741330964402398e-02 + v_y.[36] * #1.0184527340159955e-02 + v_y.[37] * #1.0081041492558679e-02 + v_y.[38] * #8.9114614226399602e-03 + v_y.[39] * #8.8321293080256321e-03 + v_y.[40] * #7.9212990423466311e-03 + v_y.[41] * #7.8585548149129603e-03 + v_y.[42] * #7.1291691381119683e-03 + v_y.[43] * #7.0783060254646308e-03 + v_y.[44] * #5.8706654822011988e-03 + v_y.[45] * #5.9056106253746370e-03 + v_y.[46] * #5.9056106253746370e-03 + v_y.[47] * #5.9056106253746370e-03 + v_y.[48] * #5.9409742817599729e-03 + v_y.[49] * #4.9669869214267375e-03 + v_y.[50] * #4.9669869214267375e-03 + v_y.[51] * #4.2858104103192024e-03 + v_y.[52] * #4.6227648238661885e-03 + $v_y_N * #3.5697100110375433e-02));
  (*50*) Do (Asn v_mw_avg 0 (#1.0 / $v_mw_avg));
  (*52*) Do (Asn v_rho 0 ($v_pres * $v_mw_avg / (#8.31446210e+03 * $v_T)));
  (*53*) Do (Asn v_conc 0 ($v_rho * v_y.[0] * #2.5032542304996495e-02));
  (*54*) Do (Asn v_conc 1 ($v_rho * v_y.[1] * #9.9212254697700253e-01));
  (*55*) Do (Asn v_conc 2 ($v_rho * v_y.[2] * #6.2502343837893923e-02));
  (*56*) Do (Asn v_conc 3 ($v_rho * v_y.[3] * #5.8798142449083754e-02));
  (*57*) Do (Asn v_conc 4 ($v_rho * v_y.[4] * #3.0296842402491128e-02));
  (*58*) Do (Asn v_conc 5 ($v_rho * v_y.[5] * #4.9606127348850126e-01));
  (*59*) Do (Asn v_conc 6 ($v_rho * v_y.[6] * #5.5508435061791990e-02));
  (*60*) Do (Asn v_conc 7 ($v_rho * v_y.[7] * #2.9399071224541877e-02));
  (*61*) Do (Asn v_conc 8 ($v_rho * v_y.[8] * #3.1251171918946961e-02));
  (*62*) Do (Asn v_conc 9 ($v_rho * v_y.[9] * #7.1291691381119682e-02));
  (*63*) Do (Asn v_conc 10 ($v_rho * v_y.[10] * #7.1291691381119682e-02));
  (*64*) Do (Asn v_conc 11 ($v_rho * v_y.[11] * #6.6512269518358050e-02));
  (*65*) Do (Asn v_conc 12 ($v_rho * v_y.[12] * #6.2333413951215375e-02));
  (*66*) Do (Asn v_conc 13 ($v_rho * v_y.[13] * #3.4460965031080343e-02));
  (*67*) Do (Asn v_conc 14 ($v_rho * v_y.[14] * #3.3304158890145569e-02));
  (*68*) Do (Asn v_conc 15 ($v_rho * v_y.[15] * #3.2222495039346891e-02));
  (*69*) Do (Asn v_conc 16 ($v_rho * v_y.[16] * #3.5701025333447579e-02));
  (*70*) Do (Asn v_conc 17 ($v_rho * v_y.[17] * #2.2722211870992371e-02));
  (*71*) Do (Asn v_conc 18 ($v_rho * v_y.[18] * #3.8405584479227962e-02));
  (*72*) Do (Asn v_conc 19 ($v_rho * v_y.[19] * #3.6974290296984895e-02));
  (*73*) Do (Asn v_conc 20 ($v_rho * v_y.[20] * #3.5645845690559841e-02));
  (*74*) Do (Asn v_conc 21 ($v_rho * v_y.[21] * #3.4409549338132318e-02));
  (*75*) Do (Asn v_conc 22 ($v_rho * v_y.[22] * #3.3256134759179025e-02));
  (*76*) Do (Asn v_conc 23 ($v_rho * v_y.[23] * #2.3231383182615861e-02));
  (*77*) Do (Asn v_conc 24 ($v_rho * v_y.[24] * #2.4347072386280914e-02));
  (*78*) Do (Asn v_conc 25 ($v_rho * v_y.[25] * #2.3763897127039892e-02));
  (*79*) Do (Asn v_conc 26 ($v_rho * v_y.[26] * #2.3208005462236166e-02));
  (*80*) Do (Asn v_conc 27 ($v_rho * v_y.[27] * #1.7836707087023153e-02));
  (*81*) Do (Asn v_conc 28 ($v_rho * v_y.[28] * #1.8148958667198553e-02));
  (*82*) Do (Asn v_conc 29 ($v_rho * v_y.[29] * #1.7822922845279920e-02));
  (*83*) Do (Asn v_conc 30 ($v_rho * v_y.[30] * #1.7508394399694933e-02));
  (*84*) Do (Asn v_conc 31 ($v_rho * v_y.[31] * #1.4466240568372807e-02));
  (*85*) Do (Asn v_conc 32 ($v_rho * v_y.[32] * #1.4258338276223937e-02));
  (*86*) Do (Asn v_conc 33 ($v_rho * v_y.[33] * #1.4056327076112483e-02));
  (*87*) Do (Asn v_conc 34 ($v_rho * v_y.[34] * #1.1881948563519946e-02));
  (*88*) Do (Asn v_conc 35 ($v_rho * v_y.[35] * #1.1741330964402398e-02));
  (*89*) Do (Asn v_conc 36 ($v_rho * v_y.[36] * #1.0184527340159955e-02));
  (*90*) Do (Asn v_conc 37 ($v_rho * v_y.[37] * #1.0081041492558679e-02));
  (*91*) Do (Asn v_conc 38 ($v_rho * v_y.[38] * #8.9114614226399602e-03));
  (*92*) Do (Asn v_conc 39 ($v_rho * v_y.[39] * #8.8321293080256321e-03));
  (*93*) Do (Asn v_conc 40 ($v_rho * v_y.[40] * #7.9212990423466311e-03));
  (*94*) Do (Asn v_conc 41 ($v_rho * v_y.[41] * #7.8585548149129603e-03));
  (*95*) Do (Asn v_conc 42 ($v_rho * v_y.[42] * #7.1291691381119683e-03));
  (*96*) Do (Asn v_conc 43 ($v_rho * v_y.[43] * #7.0783060254646308e-03));
  (*97*) Do (Asn v_conc 44 ($v_rho * v_y.[44] * #5.8706654822011988e-03));
  (*98*) Do (Asn v_conc 45 ($v_rho * v_y.[45] * #5.9056106253746370e-03));
  (*99*) Do (Asn v_conc 46 ($v_rho * v_y.[46] * #5.9056106253746370e-03));
  (*100*) Do (Asn v_conc 47 ($v_rho * v_y.[47] * #5.9056106253746370e-03));
  (*101*) Do (Asn v_conc 48 ($v_rho * v_y.[48] * #5.9409742817599729e-03));
  (*102*) Do (Asn v_conc 49 ($v_rho * v_y.[49] * #4.9669869214267375e-03));
  (*103*) Do (Asn v_conc 50 ($v_rho * v_y.[50] * #4.9669869214267375e-03));
  (*104*) Do (Asn v_conc 51 ($v_rho * v_y.[51] * #4.2858104103192024e-03));
  (*105*) Do (Asn v_conc 52 ($v_rho * v_y.[52] * #4.6227648238661885e-03));
  (*106*) Do (Asn v_conc 53 ($v_rho * $v_y_N * #3.5697100110375433e-02))
].

(** [eval_h], yao/lib/src/chem_utils.c:208-534. *)
Definition yao_eval_h : list stmt := [
  (*210*) If ($v_T) (#1000.0)
    [Asn v_h 0 (#2.0813212426154001e+02 * (#(-7.4537500000000000e+02) + $v_T * (#2.5000000000000000e+00 + $v_T * (#0.0000000000000000e+00 + $v_T * (#0.0000000000000000e+00 + $v_T * (#0.0000000000000000e+00 + #0.0000000000000000e+00 * $v_T))))))]
    [Asn v_h 0 (#2.0813212426154001e+02 * (#(-7.4537500000000000e+02) + $v_T * (#2.5000000000000000e+00 + $v_T * (#0.0000000000000000e+00 + $v_T * (#0.0000000000000000e+00 + $v_T * (#0.0000000000000000e+00 + #0.0000000000000000e+00 * $v_T))))))];
  (*216*) If ($v_T) (#1000.0)
    [Asn v_h 1 (#8.2489653153957570e+03 * (#2.5473659899999999e+04 + $v_T * (#2.5000000000000000e+00 + $v_T * (#3.5266640949999999e-13 + $v_T * (#(-6.6530654666666665e-16) + $v_T * (#5.7520407999999997e-19 + #(-1.8554646640000001e-22) * $v_T))))))]
    [Asn v_h 1 (#8.2489653153957570e+03 * (#2.5473659899999999e+04 + $v_T * (#2.5000000099999999e+00 + $v_T * (#(-1.1542148649999999e-11) + $v_T * (#5.3853982666666673e-15 + $v_T * (#(-1.1837880875000001e-18) + #9.9639471400000006e-23 * $v_T))))))];
  (*222*) If ($v_T) (#1000.0)
    [Asn v_h 2 (#5.1967336900133762e+02 * (#2.9122259200000000e+04 + $v_T * (#3.1682671000000000e+00 + $v_T * (#(-1.6396594200000000e-03) + $v_T * (#2.2143546533333334e-06 + $v_T * (#(-1.5320165600000000e-09) + #4.2253194199999998e-13 * $v_T))))))]
    [Asn v_h 2 (#5.1967336900133762e+02 * (#2.9217579099999999e+04 + $v_T * (#2.5694207800000002e+00 + $v_T * (#(-4.2987056850000002e-05) + $v_T * (#1.3982819633333334e-08 + $v_T * (#(-2.5044449749999998e-12) + #2.4566738199999997e-16 * $v_T))))))];
  (*228*) If ($v_T) (#1000.0)
    [Asn v_h 3 (#4.8887492694330808e+02 * (#3.3815381200000002e+03 + $v_T * (#4.1253056099999998e+00 + $v_T * (#(-1.6127246950000001e-03) + $v_T * (#2.1758823033333334e-06 + $v_T * (#(-1.4496341075000000e-09) + #4.1247475799999997e-13 * $v_T))))))]
    [Asn v_h 3 (#4.8887492694330808e+02 * (#3.7188577399999999e+03 + $v_T * (#2.8647288600000000e+00 + $v_T * (#5.2825224000000001e-04 + $v_T * (#(-8.6360919333333338e-08) + $v_T * (#7.6304668500000001e-12 + #(-2.6639175200000000e-16) * $v_T))))))];
  (*234*) If ($v_T) (#1000.0)
    [Asn v_h 4 (#2.5190194790518544e+02 * (#2.9480804000000001e+02 + $v_T * (#4.3017980099999997e+00 + $v_T * (#(-2.3745602549999998e-03) + $v_T * (#7.0527630333333326e-06 + $v_T * (#(-6.0690973500000000e-09) + #1.8584502480000002e-12 * $v_T))))))]
    [Asn v_h 4 (#2.5190194790518544e+02 * (#1.1185671300000000e+02 + $v_T * (#4.0172109000000003e+00 + $v_T * (#1.1199100650000000e-03 + $v_T * (#(-2.1121938333333332e-07) + $v_T * (#2.8561592500000001e-11 + #(-2.1581707000000000e-15) * $v_T))))))];
  (*240*) If ($v_T) (#1000.0)
    [Asn v_h 5 (#4.1244826576978785e+03 * (#(-9.1793517299999996e+02) + $v_T * (#2.3443311200000001e+00 + $v_T * (#3.9902603749999996e-03 + $v_T * (#(-6.4927169999999995e-06) + $v_T * (#5.0393023500000001e-09 + #(-1.4752235220000002e-12) * $v_T))))))]
    [Asn v_h 5 (#4.1244826576978785e+03 * (#(-9.5015892199999996e+02) + $v_T * (#3.3372791999999998e+00 + $v_T * (#(-2.4701236549999999e-05) + $v_T * (#1.6648559266666665e-07 + $v_T * (#(-4.4891598500000001e-11) + #4.0051075199999998e-15 * $v_T))))))];
  (*246*) If ($v_T) (#1000.0)
    [Asn v_h 6 (#4.6152277955158070e+02 * (#(-3.0293726699999999e+04) + $v_T * (#4.1986405600000003e+00 + $v_T * (#(-1.0182170500000001e-03) + $v_T * (#2.1734673700000000e-06 + $v_T * (#(-1.3719926550000001e-09) + #3.5439563400000000e-13 * $v_T))))))]
    [Asn v_h 6 (#4.6152277955158070e+02 * (#(-3.0004297100000000e+04) + $v_T * (#3.0339924900000002e+00 + $v_T * (#1.0884590200000001e-03 + $v_T * (#(-5.4690839333333327e-08) + $v_T * (#(-2.4260496750000000e-11) + #3.3640198399999998e-15 * $v_T))))))];
  (*252*) If ($v_T) (#1000.0)
    [Asn v_h 7 (#2.4443746347165404e+02 * (#(-1.7702582100000000e+04) + $v_T * (#4.2761126899999997e+00 + $v_T * (#(-2.7141120849999997e-04) + $v_T * (#5.5778567000000005e-06 + $v_T * (#(-5.3942703249999999e-09) + #1.7249087260000000e-12 * $v_T))))))]
    [Asn v_h 7 (#2.4443746347165404e+02 * (#(-1.7861787700000001e+04) + $v_T * (#4.1650028499999996e+00 + $v_T * (#2.4541584700000000e-03 + $v_T * (#(-6.3379741666666662e-07) + $v_T * (#9.2796496499999996e-11 + #(-5.7581661000000002e-15) * $v_T))))))];
  (*258*) If ($v_T) (#1000.0)
    [Asn v_h 8 (#2.5983668450066881e+02 * (#(-1.0639435599999999e+03) + $v_T * (#3.7824563599999999e+00 + $v_T * (#(-1.4983670799999999e-03) + $v_T * (#3.2824340033333332e-06 + $v_T * (#(-2.4203237725000002e-09) + #6.4874567400000000e-13 * $v_T))))))]
    [Asn v_h 8 (#2.5983668450066881e+02 * (#(-1.0884577200000001e+03) + $v_T * (#3.2825378399999998e+00 + $v_T * (#7.4154376999999996e-04 + $v_T * (#(-2.5265555633333331e-07) + $v_T * (#5.2367638749999998e-11 + #(-4.3343558799999996e-15) * $v_T))))))];
  (*264*) If ($v_T) (#1000.0)
    [Asn v_h 9 (#5.9275206603321635e+02 * (#4.6004040099999998e+04 + $v_T * (#3.7626786700000001e+00 + $v_T * (#4.8443607150000002e-04 + $v_T * (#9.3163280333333339e-07 + $v_T * (#(-9.6272788250000007e-10) + #3.3748343799999999e-13 * $v_T))))))]
    [Asn v_h 9 (#5.9275206603321635e+02 * (#4.6263603999999999e+04 + $v_T * (#2.8741011300000001e+00 + $v_T * (#1.8281964599999999e-03 + $v_T * (#(-4.6964865666666667e-07) + $v_T * (#6.5044887249999998e-11 + #(-3.7545513400000000e-15) * $v_T))))))];
  (*270*) If ($v_T) (#1000.0)
    [Asn v_h 10 (#5.9275206603321635e+02 * (#5.0496816299999999e+04 + $v_T * (#4.1986041099999998e+00 + $v_T * (#(-1.1833070950000000e-03) + $v_T * (#2.7443207333333332e-06 + $v_T * (#(-1.6720399525000001e-09) + #3.8862947400000001e-13 * $v_T))))))]
    [Asn v_h 10 (#5.9275206603321635e+02 * (#5.0925999700000000e+04 + $v_T * (#2.2920384199999999e+00 + $v_T * (#2.3279431850000000e-03 + $v_T * (#(-6.7063982333333332e-07) + $v_T * (#1.0447650000000001e-10 + #(-6.7943272999999998e-15) * $v_T))))))];
  (*276*) If ($v_T) (#1000.0)
    [Asn v_h 11 (#5.5301374409537334e+02 * (#1.6444998800000001e+04 + $v_T * (#3.6735904000000001e+00 + $v_T * (#1.0054758750000000e-03 + $v_T * (#1.9100728533333335e-06 + $v_T * (#(-1.7177935625000000e-09) + #5.0877146800000003e-13 * $v_T))))))]
    [Asn v_h 11 (#5.5301374409537334e+02 * (#1.6775584299999999e+04 + $v_T * (#2.2857177200000001e+00 + $v_T * (#3.6199501849999999e-03 + $v_T * (#(-9.9571449333333331e-07) + $v_T * (#1.4892116100000001e-10 + #(-9.3430878800000005e-15) * $v_T))))))];
  (*282*) If ($v_T) (#1000.0)
    [Asn v_h 12 (#5.1826880786099150e+02 * (#(-1.0246647600000000e+04) + $v_T * (#5.1498761300000000e+00 + $v_T * (#(-6.8354894000000003e-03) + $v_T * (#1.6393353300000001e-05 + $v_T * (#(-1.2118575650000000e-08) + #3.3338791200000000e-12 * $v_T))))))]
    [Asn v_h 12 (#5.1826880786099150e+02 * (#(-9.4683445900000006e+03) + $v_T * (#7.4851495000000004e-02 + $v_T * (#6.6954733499999999e-03 + $v_T * (#(-1.9109526966666665e-06) + $v_T * (#3.0573133750000000e-10 + #(-2.0363046000000002e-14) * $v_T))))))];
  (*288*) If ($v_T) (#1000.0)
    [Asn v_h 13 (#2.8652438768034290e+02 * (#3.8395649600000002e+03 + $v_T * (#4.2211858400000004e+00 + $v_T * (#(-1.6219626600000000e-03) + $v_T * (#4.5933148666666667e-06 + $v_T * (#(-3.3286023250000002e-09) + #8.6753773000000000e-13 * $v_T))))))]
    [Asn v_h 13 (#2.8652438768034290e+02 * (#4.0119181500000000e+03 + $v_T * (#2.7721743800000000e+00 + $v_T * (#2.4784776299999998e-03 + $v_T * (#(-8.2815204333333337e-07) + $v_T * (#1.4729044450000001e-10 + #(-1.0670174220000000e-14) * $v_T))))))];
  (*294*) If ($v_T) (#1000.0)
    [Asn v_h 14 (#2.7690616686449340e+02 * (#(-1.4308956700000001e+04) + $v_T * (#4.7937231499999999e+00 + $v_T * (#(-4.9541668450000000e-03) + $v_T * (#1.2440666933333332e-05 + $v_T * (#(-9.4821315249999995e-09) + #2.6354530400000001e-12 * $v_T))))))]
    [Asn v_h 14 (#2.7690616686449340e+02 * (#(-1.3995832300000000e+04) + $v_T * (#1.7606900800000000e+00 + $v_T * (#4.6000004100000000e-03 + $v_T * (#(-1.4741960433333332e-06) + $v_T * (#2.5160302999999999e-10 + #(-1.7677112800000002e-14) * $v_T))))))];
  (*300*) If ($v_T) (#1000.0)
    [Asn v_h 15 (#2.6791271377208773e+02 * (#1.2956976000000000e+03 + $v_T * (#3.7118050199999999e+00 + $v_T * (#(-1.4023165300000001e-03) + $v_T * (#1.2551699033333334e-05 + $v_T * (#(-1.1826802224999999e-08) + #3.7317684000000002e-12 * $v_T))))))]
    [Asn v_h 15 (#2.6791271377208773e+02 * (#3.7811194000000000e+02 + $v_T * (#4.7577923799999997e+00 + $v_T * (#3.7207123700000000e-03 + $v_T * (#(-8.9901725333333330e-07) + $v_T * (#1.0952262600000000e-10 + #(-5.2707419599999998e-15) * $v_T))))))];
  (*306*) If ($v_T) (#1000.0)
    [Asn v_h 16 (#2.9683482206608977e+02 * (#(-1.4344085999999999e+04) + $v_T * (#3.5795334699999999e+00 + $v_T * (#(-3.0517684000000000e-04) + $v_T * (#3.3893811000000002e-07 + $v_T * (#2.2675147100000000e-10 + #(-1.8088489979999999e-13) * $v_T))))))]
    [Asn v_h 16 (#2.9683482206608977e+02 * (#(-1.4151872400000000e+04) + $v_T * (#2.7151856099999998e+00 + $v_T * (#1.0312637150000001e-03 + $v_T * (#(-3.3294192366666671e-07) + $v_T * (#5.7513252000000000e-11 + #(-4.0729543200000001e-15) * $v_T))))))];
  (*312*) If ($v_T) (#1000.0)
    [Asn v_h 17 (#1.8892296942953618e+02 * (#(-4.8371969700000001e+04) + $v_T * (#2.3567735200000000e+00 + $v_T * (#4.4922983850000002e-03 + $v_T * (#(-2.3745208966666665e-06) + $v_T * (#6.1479755499999995e-10 + #(-2.8739909599999997e-14) * $v_T))))))]
    [Asn v_h 17 (#1.8892296942953618e+02 * (#(-4.8759165999999997e+04) + $v_T * (#3.8574602900000001e+00 + $v_T * (#2.2071851299999999e-03 + $v_T * (#(-7.3827134666666672e-07) + $v_T * (#1.3087254700000001e-10 + #(-9.4416832800000002e-15) * $v_T))))))];
  (*318*) If ($v_T) (#1000.0)
    [Asn v_h 18 (#3.1932177658088915e+02 * (#2.6428980700000000e+04 + $v_T * (#8.0868109399999999e-01 + $v_T * (#1.1680781450000000e-02 + $v_T * (#(-1.1839060500000000e-05) + $v_T * (#7.0038109249999999e-09 + #(-1.7001459479999999e-12) * $v_T))))))]
    [Asn v_h 18 (#3.1932177658088915e+02 * (#2.5935999199999998e+04 + $v_T * (#4.1475696400000004e+00 + $v_T * (#2.9808333200000000e-03 + $v_T * (#(-7.9098284000000004e-07) + $v_T * (#1.1685304275000001e-10 + #(-7.2247042600000001e-15) * $v_T))))))];
  (*324*) If ($v_T) (#1000.0)
    [Asn v_h 19 (#3.0742133534867867e+02 * (#3.4859846799999999e+04 + $v_T * (#3.2124664500000000e+00 + $v_T * (#7.5739581000000002e-04 + $v_T * (#8.6403137333333327e-06 + $v_T * (#(-8.9414461750000000e-09) + #2.9430174599999999e-12 * $v_T))))))]
    [Asn v_h 19 (#3.0742133534867867e+02 * (#3.4612873899999999e+04 + $v_T * (#3.0167240000000000e+00 + $v_T * (#5.1651146000000004e-03 + $v_T * (#(-1.5602744966666665e-06) + $v_T * (#2.5440821999999998e-10 + #(-1.7252140819999999e-14) * $v_T))))))];
  (*330*) If ($v_T) (#1000.0)
    [Asn v_h 20 (#2.9637603301660818e+02 * (#5.0897759299999998e+03 + $v_T * (#3.9592014799999999e+00 + $v_T * (#(-3.7852612350000002e-03) + $v_T * (#1.9033009733333333e-05 + $v_T * (#(-1.7289718825000000e-08) + #5.3976874600000004e-12 * $v_T))))))]
    [Asn v_h 20 (#2.9637603301660818e+02 * (#4.9398861399999996e+03 + $v_T * (#2.0361111599999999e+00 + $v_T * (#7.3227075499999999e-03 + $v_T * (#(-2.2369263833333335e-06) + $v_T * (#3.6805730750000002e-10 + #(-2.5141212200000000e-14) * $v_T))))))];
  (*336*) If ($v_T) (#1000.0)
    [Asn v_h 21 (#2.8609689384998131e+02 * (#1.2841626500000000e+04 + $v_T * (#4.3064656799999996e+00 + $v_T * (#(-2.0932944600000002e-03) + $v_T * (#1.6571426900000001e-05 + $v_T * (#(-1.4978165149999999e-08) + #4.6101800800000003e-12 * $v_T))))))]
    [Asn v_h 21 (#2.8609689384998131e+02 * (#1.2857520000000000e+04 + $v_T * (#1.9546564200000001e+00 + $v_T * (#8.6986361000000005e-03 + $v_T * (#(-2.6606888933333333e-06) + $v_T * (#4.3804422250000001e-10 + #(-2.9928315199999999e-14) * $v_T))))))];
  (*342*) If ($v_T) (#1000.0)
    [Asn v_h 22 (#2.7650687204768667e+02 * (#(-1.1522205500000000e+04) + $v_T * (#4.2914249199999999e+00 + $v_T * (#(-2.7507713499999998e-03) + $v_T * (#1.9981276266666669e-05 + $v_T * (#(-1.7711657125000000e-08) + #5.3737154200000002e-12 * $v_T))))))]
    [Asn v_h 22 (#2.7650687204768667e+02 * (#(-1.1426393200000000e+04) + $v_T * (#1.0718814999999999e+00 + $v_T * (#1.0842633850000000e-02 + $v_T * (#(-3.3418689000000000e-06) + $v_T * (#5.5353000250000001e-10 + #(-3.8000577999999999e-14) * $v_T))))))];
  (*348*) If ($v_T) (#1000.0)
    [Asn v_h 23 (#1.9315645500243699e+02 * (#6.2000000000000000e+01 + $v_T * (#3.4090623999999998e+00 + $v_T * (#5.3692870000000004e-03 + $v_T * (#6.3049749999999997e-07 + $v_T * (#(-1.7896457750000000e-09) + #5.7347701999999995e-13 * $v_T))))))]
    [Asn v_h 23 (#1.9315645500243699e+02 * (#(-9.6950000000000000e+02) + $v_T * (#5.9756698999999998e+00 + $v_T * (#4.0652956999999998e-03 + $v_T * (#(-9.1454149999999997e-07) + $v_T * (#1.0175760250000000e-10 + #(-4.3520341999999999e-15) * $v_T))))))];
  (*354*) If ($v_T) (#1000.0)
    [Asn v_h 24 (#2.0243281060168923e+02 * (#1.9245629000000001e+04 + $v_T * (#1.3631835000000001e+00 + $v_T * (#9.9069104999999994e-03 + $v_T * (#4.1656866666666669e-06 + $v_T * (#(-8.3388887499999995e-09) + #3.1693142000000000e-12 * $v_T))))))]
    [Asn v_h 24 (#2.0243281060168923e+02 * (#1.7482449000000001e+04 + $v_T * (#6.5007877000000001e+00 + $v_T * (#7.1623655000000001e-03 + $v_T * (#(-1.8927210666666665e-06) + $v_T * (#2.7702002500000000e-10 + #(-1.8072777399999997e-14) * $v_T))))))];
  (*360*) If ($v_T) (#1000.0)
    [Asn v_h 25 (#1.9758402201107208e+02 * (#1.0748260000000000e+03 + $v_T * (#1.4933069999999999e+00 + $v_T * (#1.0462590000000001e-02 + $v_T * (#1.4955980000000001e-06 + $v_T * (#(-4.1722800000000000e-09) + #1.4316292000000000e-12 * $v_T))))))]
    [Asn v_h 25 (#1.9758402201107208e+02 * (#(-9.2357029999999997e+02) + $v_T * (#6.7322569999999997e+00 + $v_T * (#7.4541700000000004e-03 + $v_T * (#(-1.6499663333333331e-06) + $v_T * (#1.8030055000000001e-10 + #(-7.5324079999999992e-15) * $v_T))))))];
  (*366*) If ($v_T) (#1000.0)
    [Asn v_h 26 (#1.9296208183235558e+02 * (#1.0312346000000000e+04 + $v_T * (#1.0491173000000000e+00 + $v_T * (#1.3004486500000001e-02 + $v_T * (#7.8475053333333331e-07 + $v_T * (#(-4.8987830000000000e-09) + #1.8744041400000001e-12 * $v_T))))))]
    [Asn v_h 26 (#1.9296208183235558e+02 * (#7.9762236000000003e+03 + $v_T * (#7.7097479000000000e+00 + $v_T * (#8.0157425000000008e-03 + $v_T * (#(-1.7573412666666665e-06) + $v_T * (#1.8972088000000001e-10 + #(-7.7725438000000008e-15) * $v_T))))))];
  (*372*) If ($v_T) (#1000.0)
    [Asn v_h 27 (#1.4830262506385543e+02 * (#(-9.3357343999999994e+03) + $v_T * (#1.2713498000000001e+00 + $v_T * (#1.3115527000000000e-02 + $v_T * (#(-3.0970768333333334e-06) + $v_T * (#(-1.1959318000000000e-09) + #6.6961085999999998e-13 * $v_T))))))]
    [Asn v_h 27 (#1.4830262506385543e+02 * (#(-1.0784054000000000e+04) + $v_T * (#5.8111867999999998e+00 + $v_T * (#8.5571280000000007e-03 + $v_T * (#(-2.4944720333333334e-06) + $v_T * (#3.5630622500000002e-10 + #(-1.8349368199999999e-14) * $v_T))))))];
  (*378*) If ($v_T) (#1000.0)
    [Asn v_h 28 (#1.5089882899288889e+02 * (#2.2653328000000001e+04 + $v_T * (#7.4449432000000004e-01 + $v_T * (#1.9839428499999999e-02 + $v_T * (#(-7.6326953333333334e-06) + $v_T * (#5.3382432499999996e-10 + #4.6192750000000000e-13 * $v_T))))))]
    [Asn v_h 28 (#1.5089882899288889e+02 * (#2.0955008000000002e+04 + $v_T * (#7.0134835000000004e+00 + $v_T * (#1.1317279000000000e-02 + $v_T * (#(-3.0848490000000000e-06) + $v_T * (#4.2019817499999999e-10 + #(-2.0817233999999999e-14) * $v_T))))))];
  (*384*) If ($v_T) (#1000.0)
    [Asn v_h 29 (#1.4818801650830409e+02 * (#(-1.7904004000000000e+03) + $v_T * (#1.1811380000000000e+00 + $v_T * (#1.5426690000000000e-02 + $v_T * (#1.6955082333333333e-06 + $v_T * (#(-6.1637219999999997e-09) + #2.2220385999999997e-12 * $v_T))))))]
    [Asn v_h 29 (#1.4818801650830409e+02 * (#(-2.1397231000000002e+03) + $v_T * (#2.0535841000000001e+00 + $v_T * (#1.7175253500000001e-02 + $v_T * (#(-5.2943989999999994e-06) + $v_T * (#8.2724155000000001e-10 + #(-5.0722090000000006e-14) * $v_T))))))];
  (*390*) If ($v_T) (#1000.0)
    [Asn v_h 30 (#1.4557288166811580e+02 * (#7.3221040000000003e+03 + $v_T * (#1.2087041999999999e+00 + $v_T * (#1.9148748500000000e-02 + $v_T * (#(-2.4220169666666668e-06) + $v_T * (#(-3.8571367500000000e-09) + #1.7371887000000000e-12 * $v_T))))))]
    [Asn v_h 30 (#1.4557288166811580e+02 * (#4.9644058000000005e+03 + $v_T * (#8.6822394999999997e+00 + $v_T * (#1.1845535500000001e-02 + $v_T * (#(-2.5316288333333332e-06) + $v_T * (#1.6606784000000000e-10 + #1.0969027200000000e-14 * $v_T))))))];
  (*396*) If ($v_T) (#1000.0)
    [Asn v_h 31 (#1.2027900893521817e+02 * (#2.8121887000000002e+03 + $v_T * (#(-2.4190111000000001e+00) + $v_T * (#2.0215194499999999e-02 + $v_T * (#2.2600779666666667e-06 + $v_T * (#(-8.4311855000000008e-09) + #3.0233426000000002e-12 * $v_T))))))]
    [Asn v_h 31 (#1.2027900893521817e+02 * (#(-1.7218359000000000e+03) + $v_T * (#1.0138640000000001e+01 + $v_T * (#1.1357068999999999e-02 + $v_T * (#(-2.5970154333333331e-06) + $v_T * (#2.9691305000000000e-10 + #(-1.3186489600000001e-14) * $v_T))))))];
  (*402*) If ($v_T) (#1392.0)
    [Asn v_h 32 (#1.1855041320664326e+02 * (#(-4.4654666600000000e+03) + $v_T * (#(-1.0622348100000001e+00) + $v_T * (#2.8710914700000000e-02 + $v_T * (#(-1.2482896333333334e-05) + $v_T * (#3.1841247249999998e-09 + #(-3.5921957799999997e-13) * $v_T))))))]
    [Asn v_h 32 (#1.1855041320664326e+02 * (#(-1.0089820500000000e+04) + $v_T * (#1.4585153900000000e+01 + $v_T * (#1.1203623550000000e-02 + $v_T * (#(-2.5444934166666668e-06) + $v_T * (#2.9547241500000002e-10 + #(-1.3687702780000000e-14) * $v_T))))))];
  (*408*) If ($v_T) (#1390.0)
    [Asn v_h 33 (#1.1687079873954106e+02 * (#4.7161145999999999e+03 + $v_T * (#5.2438408100000000e-02 + $v_T * (#2.8039847900000001e-02 + $v_T * (#(-1.1051526766666668e-05) + $v_T * (#2.4438344525000000e-09 + #(-2.2801931999999999e-13) * $v_T))))))]
    [Asn v_h 33 (#1.1687079873954106e+02 * (#(-9.8071230700000001e+02) + $v_T * (#1.5297744600000000e+01 + $v_T * (#1.1986765500000000e-02 + $v_T * (#(-2.7279764933333334e-06) + $v_T * (#3.1720768999999998e-10 + #(-1.4708181100000000e-14) * $v_T))))))];
  (*414*) If ($v_T) (#1392.0)
    [Asn v_h 34 (#9.8792011005536040e+01 * (#(-7.3436861699999999e+03) + $v_T * (#(-1.3527520500000001e+00) + $v_T * (#3.4932771299999998e-02 + $v_T * (#(-1.5313600733333335e-05) + $v_T * (#3.9241835750000003e-09 + #(-4.4259235000000003e-13) * $v_T))))))]
    [Asn v_h 34 (#9.8792011005536040e+01 * (#(-1.4206286000000000e+04) + $v_T * (#1.7833752900000000e+01 + $v_T * (#1.3368882900000000e-02 + $v_T * (#(-3.0334559100000002e-06) + $v_T * (#3.5204941999999999e-10 + #(-1.6302484880000001e-14) * $v_T))))))];
  (*420*) If ($v_T) (#1390.0)
    [Asn v_h 35 (#9.7622851307080197e+01 * (#1.8328039300000000e+03 + $v_T * (#(-2.0487146500000000e-01) + $v_T * (#3.4190063600000001e-02 + $v_T * (#(-1.3814930399999999e-05) + $v_T * (#3.1538950500000001e-09 + #(-3.0624011599999997e-13) * $v_T))))))]
    [Asn v_h 35 (#9.7622851307080197e+01 * (#(-5.0929904100000003e+03) + $v_T * (#1.8538547000000001e+01 + $v_T * (#1.4155398099999999e-02 + $v_T * (#(-3.2176908199999999e-06) + $v_T * (#3.7386896250000000e-10 + #(-1.7326721280000001e-14) * $v_T))))))];
  (*426*) If ($v_T) (#1392.0)
    [Asn v_h 36 (#8.4678866576173760e+01 * (#(-1.0216860100000000e+04) + $v_T * (#(-1.6772054900000000e+00) + $v_T * (#4.1230580050000000e-02 + $v_T * (#(-1.8216803599999999e-05) + $v_T * (#4.6965575749999998e-09 + #(-5.3147596599999995e-13) * $v_T))))))]
    [Asn v_h 36 (#8.4678866576173760e+01 * (#(-1.8326006500000000e+04) + $v_T * (#2.1089803900000000e+01 + $v_T * (#1.5530393900000000e-02 + $v_T * (#(-3.5214930999999996e-06) + $v_T * (#4.0851444999999999e-10 + #(-1.8911964380000001e-14) * $v_T))))))];
  (*432*) If ($v_T) (#1390.0)
    [Asn v_h 37 (#8.3818437418406575e+01 * (#(-1.0459022299999999e+03) + $v_T * (#(-4.9957040600000002e-01) + $v_T * (#4.0441323350000002e-02 + $v_T * (#(-1.6684425133333334e-05) + $v_T * (#3.9137327000000003e-09 + #(-3.9323245400000001e-13) * $v_T))))))]
    [Asn v_h 37 (#8.3818437418406575e+01 * (#(-9.2093822099999998e+03) + $v_T * (#2.1794070900000001e+01 + $v_T * (#1.6314012150000001e-02 + $v_T * (#(-3.7046081333333335e-06) + $v_T * (#4.3016787000000000e-10 + #(-1.9927339979999999e-14) * $v_T))))))];
  (*438*) If ($v_T) (#1392.0)
    [Asn v_h 38 (#7.4094008254152044e+01 * (#(-1.3107455900000001e+04) + $v_T * (#(-1.8922691500000000e+00) + $v_T * (#4.7303317849999998e-02 + $v_T * (#(-2.0912850700000002e-05) + $v_T * (#5.3789577249999999e-09 + #(-6.0543736600000008e-13) * $v_T))))))]
    [Asn v_h 38 (#7.4094008254152044e+01 * (#(-2.2448567400000000e+04) + $v_T * (#2.4354012500000000e+01 + $v_T * (#1.7683323099999999e-02 + $v_T * (#(-4.0069462666666671e-06) + $v_T * (#4.6463763250000001e-10 + #(-2.1504452400000000e-14) * $v_T))))))];
  (*444*) If ($v_T) (#1390.0)
    [Asn v_h 39 (#7.3434404393878353e+01 * (#(-3.9268951099999999e+03) + $v_T * (#(-7.7275943800000002e-01) + $v_T * (#4.6627485250000003e-02 + $v_T * (#(-1.9481574833333333e-05) + $v_T * (#4.6392553499999997e-09 + #(-4.7425496600000005e-13) * $v_T))))))]
    [Asn v_h 39 (#7.3434404393878353e+01 * (#(-1.3330053500000000e+04) + $v_T * (#2.5051035599999999e+01 + $v_T * (#1.8474008100000001e-02 + $v_T * (#(-4.1921754666666666e-06) + $v_T * (#4.8657102249999996e-10 + #(-2.2533779600000001e-14) * $v_T))))))];
  (*450*) If ($v_T) (#1392.0)
    [Asn v_h 40 (#6.5861340670357365e+01 * (#(-1.5989084699999999e+04) + $v_T * (#(-2.1610826300000001e+00) + $v_T * (#5.3479148499999997e-02 + $v_T * (#(-2.3699108133333333e-05) + $v_T * (#6.0992769249999999e-09 + #(-6.8554309399999999e-13) * $v_T))))))]
    [Asn v_h 40 (#6.5861340670357365e+01 * (#(-2.6570906100000000e+04) + $v_T * (#2.7614217600000000e+01 + $v_T * (#1.9841264349999999e-02 + $v_T * (#(-4.4939815333333332e-06) + $v_T * (#5.2097613000000002e-10 + #(-2.4107858799999998e-14) * $v_T))))))];
  (*456*) If ($v_T) (#1390.0)
    [Asn v_h 41 (#6.5339656169366336e+01 * (#(-6.8081851200000001e+03) + $v_T * (#(-1.0438729200000001e+00) + $v_T * (#5.2808641500000003e-02 + $v_T * (#(-2.2273332366666668e-05) + $v_T * (#5.3621541499999998e-09 + #(-5.5480855000000001e-13) * $v_T))))))]
    [Asn v_h 41 (#6.5339656169366336e+01 * (#(-1.7451602999999999e+04) + $v_T * (#2.8309751400000000e+01 + $v_T * (#2.0632867199999998e-02 + $v_T * (#(-4.6794429666666664e-06) + $v_T * (#5.4293717749999998e-10 + #(-2.5138461399999997e-14) * $v_T))))))];
  (*462*) If ($v_T) (#1392.0)
    [Asn v_h 42 (#5.9275206603321628e+01 * (#(-1.8870836500000001e+04) + $v_T * (#(-2.4290168799999998e+00) + $v_T * (#5.9652798999999999e-02 + $v_T * (#(-2.6482967500000001e-05) + $v_T * (#6.8184149000000001e-09 + #(-7.6543674599999999e-13) * $v_T))))))]
    [Asn v_h 42 (#5.9275206603321628e+01 * (#(-3.0693730700000000e+04) + $v_T * (#3.0875390299999999e+01 + $v_T * (#2.1998576299999999e-02 + $v_T * (#(-4.9808510000000002e-06) + $v_T * (#5.7729419499999995e-10 + #(-2.6710295400000001e-14) * $v_T))))))];
  (*468*) If ($v_T) (#1390.0)
    [Asn v_h 43 (#5.8852307180927312e+01 * (#(-9.6896754999999994e+03) + $v_T * (#(-1.3135834799999999e+00) + $v_T * (#5.8986406499999998e-02 + $v_T * (#(-2.5061435966666667e-05) + $v_T * (#6.0832776499999998e-09 + #(-6.3504570400000002e-13) * $v_T))))))]
    [Asn v_h 43 (#5.8852307180927312e+01 * (#(-2.1573783200000002e+04) + $v_T * (#3.1569716000000000e+01 + $v_T * (#2.2790920150000001e-02 + $v_T * (#(-5.1664988333333336e-06) + $v_T * (#5.9927733249999998e-10 + #(-2.7741911800000000e-14) * $v_T))))))];
  (*474*) If ($v_T) (#1391.0)
    [Asn v_h 44 (#4.8811425653540098e+01 * (#(-4.0065425300000003e+04) + $v_T * (#(-2.6218159399999998e+00) + $v_T * (#7.3618855499999997e-02 + $v_T * (#(-3.1465675699999999e-05) + $v_T * (#7.6860317000000003e-09 + #(-8.0720446000000006e-13) * $v_T))))))]
    [Asn v_h 44 (#4.8811425653540098e+01 * (#(-5.4884346500000000e+04) + $v_T * (#3.8509503700000003e+01 + $v_T * (#2.8177502399999999e-02 + $v_T * (#(-6.3831066666666668e-06) + $v_T * (#7.4006215500000001e-10 + #(-3.4248830000000002e-14) * $v_T))))))];
  (*480*) If ($v_T) (#1390.0)
    [Asn v_h 45 (#4.9101975722034723e+01 * (#(-1.5453043500000000e+04) + $v_T * (#(-1.8502874100000000e+00) + $v_T * (#7.1335354000000004e-02 + $v_T * (#(-3.0630551833333332e-05) + $v_T * (#7.5220848000000000e-09 + #(-7.9490859999999999e-13) * $v_T))))))]
    [Asn v_h 45 (#4.9101975722034723e+01 * (#(-2.9819437500000000e+04) + $v_T * (#3.8092188499999999e+01 + $v_T * (#2.7105392400000001e-02 + $v_T * (#(-6.1401839000000006e-06) + $v_T * (#7.1190543250000005e-10 + #(-3.2946349600000002e-14) * $v_T))))))];
  (*486*) If ($v_T) (#1385.0)
    [Asn v_h 46 (#4.9101975722034723e+01 * (#(-1.6766053899999999e+04) + $v_T * (#(-1.3678708900000001e+00) + $v_T * (#6.8677673999999994e-02 + $v_T * (#(-2.7469205266666665e-05) + $v_T * (#5.9105390500000003e-09 + #(-4.9487186400000001e-13) * $v_T))))))]
    [Asn v_h 46 (#4.9101975722034723e+01 * (#(-3.1214498800000001e+04) + $v_T * (#3.7968826800000002e+01 + $v_T * (#2.6935973200000001e-02 + $v_T * (#(-6.0723754333333335e-06) + $v_T * (#7.0193625749999998e-10 + #(-3.2421684000000002e-14) * $v_T))))))];
  (*492*) If ($v_T) (#1385.0)
    [Asn v_h 47 (#4.9101975722034723e+01 * (#(-1.6766053899999999e+04) + $v_T * (#(-1.3678708900000001e+00) + $v_T * (#6.8677673999999994e-02 + $v_T * (#(-2.7469205266666665e-05) + $v_T * (#5.9105390500000003e-09 + #(-4.9487186400000001e-13) * $v_T))))))]
    [Asn v_h 47 (#4.9101975722034723e+01 * (#(-3.1214498800000001e+04) + $v_T * (#3.7968826800000002e+01 + $v_T * (#2.6935973200000001e-02 + $v_T * (#(-6.0723754333333335e-06) + $v_T * (#7.0193625749999998e-10 + #(-3.2421684000000002e-14) * $v_T))))))];
  (*498*) If ($v_T) (#1391.0)
    [Asn v_h 48 (#4.9396005502768020e+01 * (#(-2.4634529900000001e+04) + $v_T * (#(-2.9634268100000001e+00) + $v_T * (#7.1996180000000007e-02 + $v_T * (#(-3.2046133833333336e-05) + $v_T * (#8.2543618250000006e-09 + #(-9.2479638000000003e-13) * $v_T))))))]
    [Asn v_h 48 (#4.9396005502768020e+01 * (#(-3.8940596200000000e+04) + $v_T * (#3.7400211100000000e+01 + $v_T * (#2.6311537650000001e-02 + $v_T * (#(-5.9541439666666665e-06) + $v_T * (#6.8987465750000003e-10 + #(-3.1912499799999998e-14) * $v_T))))))];
  (*504*) If ($v_T) (#1000.0)
    [Asn v_h 49 (#4.1297824509398289e+01 * (#(-2.9891799999999999e+04) + $v_T * (#5.3140400000000003e+00 + $v_T * (#4.4693650000000001e-02 + $v_T * (#4.8450333333333336e-06 + $v_T * (#(-1.8731250000000001e-08) + #6.7065000000000002e-12 * $v_T))))))]
    [Asn v_h 49 (#4.1297824509398289e+01 * (#(-3.7411800000000003e+04) + $v_T * (#2.8478200000000001e+01 + $v_T * (#2.6876950000000000e-02 + $v_T * (#(-5.6061999999999998e-06) + $v_T * (#6.2841750000000002e-10 + #(-2.9441600000000001e-14) * $v_T))))))];
  (*510*) If ($v_T) (#1000.0)
    [Asn v_h 50 (#4.1297824509398289e+01 * (#(-2.3838000000000000e+04) + $v_T * (#5.1523099999999999e+00 + $v_T * (#4.9895650000000000e-02 + $v_T * (#(-6.0211666666666666e-06) + $v_T * (#(-1.0460875000000000e-08) + #4.4557199999999995e-12 * $v_T))))))]
    [Asn v_h 50 (#4.1297824509398289e+01 * (#(-3.1119200000000001e+04) + $v_T * (#2.9201899999999998e+01 + $v_T * (#2.5795849999999999e-02 + $v_T * (#(-5.2442333333333331e-06) + $v_T * (#5.7576500000000003e-10 + #(-2.6528000000000002e-14) * $v_T))))))];
  (*516*) If ($v_T) (#1000.0)
    [Asn v_h 51 (#3.5634208224384466e+01 * (#(-4.1687500000000000e+04) + $v_T * (#4.8197200000000001e-01 + $v_T * (#7.2510000000000005e-02 + $v_T * (#(-3.3310266666666665e-05) + $v_T * (#6.5105500000000000e-09 + #2.3871600000000003e-13 * $v_T))))))]
    [Asn v_h 51 (#3.5634208224384466e+01 * (#(-5.1267500000000000e+04) + $v_T * (#3.5090699999999998e+01 + $v_T * (#2.5529500000000000e-02 + $v_T * (#(-5.1448333333333328e-06) + $v_T * (#5.6156749999999998e-10 + #(-2.5780200000000000e-14) * $v_T))))))];
  (*522*) If ($v_T) (#1000.0)
    [Asn v_h 52 (#3.8435802925248602e+01 * (#(-6.6536100000000006e+04) + $v_T * (#8.8073300000000003e+00 + $v_T * (#3.2531150000000002e-02 + $v_T * (#2.3168599999999997e-05 + $v_T * (#(-3.1726250000000003e-08) + #1.0219820000000001e-11 * $v_T))))))]
    [Asn v_h 52 (#3.8435802925248602e+01 * (#(-7.1825800000000003e+04) + $v_T * (#2.3673100000000002e+01 + $v_T * (#3.0819599999999999e-02 + $v_T * (#(-6.9945333333333331e-06) + $v_T * (#8.3291500000000001e-10 + #(-4.0717999999999996e-14) * $v_T))))))];
  (*528*) If ($v_T) (#1000.0)
    [Asn v_h 53 (#2.9680218594762238e+02 * (#(-1.0208999000000000e+03) + $v_T * (#3.2986770000000001e+00 + $v_T * (#7.0412019999999999e-04 + $v_T * (#(-1.3210739999999999e-06) + $v_T * (#1.4103787500000001e-09 + #(-4.8897079999999994e-13) * $v_T))))))]
    [Asn v_h 53 (#2.9680218594762238e+02 * (#(-9.2279769999999996e+02) + $v_T * (#2.9266399999999999e+00 + $v_T * (#7.4398840000000003e-04 + $v_T * (#(-1.8949200000000001e-07) + $v_T * (#2.5242595000000000e-11 + #(-1.3506701999999999e-15) * $v_T))))))]
].

(** [eval_cp], yao/lib/src/chem_utils.c:1192-1518. *)
Definition yao_eval_cp : list stmt := [
  (*1194*) If ($v_T) (#1000.0)
    [Asn v_cp 0 (#2.0813212426154001e+02 * (#2.5000000000000000e+00 + $v_T * (#0.0000000000000000e+00 + $v_T * (#0.0000000000000000e+00 + $v_T * (#0.0000000000000000e+00 + #0.0000000000000000e+00 * $v_T)))))]
    [Asn v_cp 0 (#2.0813212426154001e+02 * (#2.5000000000000000e+00 + $v_T * (#0.0000000000000000e+00 + $v_T * (#0.0000000000000000e+00 + $v_T * (#0.0000000000000000e+00 + #0.0000000000000000e+00 * $v_T)))))];
  (*1200*) If ($v_T) (#1000.0)
    [Asn v_cp 1 (#8.2489653153957570e+03 * (#2.5000000000000000e+00 + $v_T * (#7.0533281899999999e-13 + $v_T * (#(-1.9959196400000000e-15) + $v_T * (#2.3008163199999999e-18 + #(-9.2773233200000006e-22) * $v_T)))))]
    [Asn v_cp 1 (#8.2489653153957570e+03 * (#2.5000000099999999e+00 + $v_T * (#(-2.3084297299999999e-11) + $v_T * (#1.6156194800000001e-14 + $v_T * (#(-4.7351523500000003e-18) + #4.9819735700000002e-22 * $v_T)))))];
  (*1206*) If ($v_T) (#1000.0)
    [Asn v_cp 2 (#5.1967336900133762e+02 * (#3.1682671000000000e+00 + $v_T * (#(-3.2793188399999999e-03) + $v_T * (#6.6430639599999997e-06 + $v_T * (#(-6.1280662400000001e-09) + #2.1126597099999999e-12 * $v_T)))))]
    [Asn v_cp 2 (#5.1967336900133762e+02 * (#2.5694207800000002e+00 + $v_T * (#(-8.5974113700000004e-05) + $v_T * (#4.1948458900000002e-08 + $v_T * (#(-1.0017779899999999e-11) + #1.2283369099999999e-15 * $v_T)))))];
  (*1212*) If ($v_T) (#1000.0)
    [Asn v_cp 3 (#4.8887492694330808e+02 * (#4.1253056099999998e+00 + $v_T * (#(-3.2254493900000002e-03) + $v_T * (#6.5276469100000001e-06 + $v_T * (#(-5.7985364300000001e-09) + #2.0623737899999999e-12 * $v_T)))))]
    [Asn v_cp 3 (#4.8887492694330808e+02 * (#2.8647288600000000e+00 + $v_T * (#1.0565044800000000e-03 + $v_T * (#(-2.5908275800000001e-07) + $v_T * (#3.0521867400000000e-11 + #(-1.3319587600000001e-15) * $v_T)))))];
  (*1218*) If ($v_T) (#1000.0)
    [Asn v_cp 4 (#2.5190194790518544e+02 * (#4.3017980099999997e+00 + $v_T * (#(-4.7491205099999996e-03) + $v_T * (#2.1158289099999999e-05 + $v_T * (#(-2.4276389400000000e-08) + #9.2922512400000003e-12 * $v_T)))))]
    [Asn v_cp 4 (#2.5190194790518544e+02 * (#4.0172109000000003e+00 + $v_T * (#2.2398201299999999e-03 + $v_T * (#(-6.3365814999999998e-07) + $v_T * (#1.1424637000000000e-10 + #(-1.0790853500000000e-14) * $v_T)))))];
  (*1224*) If ($v_T) (#1000.0)
    [Asn v_cp 5 (#4.1244826576978785e+03 * (#2.3443311200000001e+00 + $v_T * (#7.9805207499999992e-03 + $v_T * (#(-1.9478150999999999e-05) + $v_T * (#2.0157209400000000e-08 + #(-7.3761176100000006e-12) * $v_T)))))]
    [Asn v_cp 5 (#4.1244826576978785e+03 * (#3.3372791999999998e+00 + $v_T * (#(-4.9402473099999998e-05) + $v_T * (#4.9945677799999996e-07 + $v_T * (#(-1.7956639400000001e-10) + #2.0025537600000000e-14 * $v_T)))))];
  (*1230*) If ($v_T) (#1000.0)
    [Asn v_cp 6 (#4.6152277955158070e+02 * (#4.1986405600000003e+00 + $v_T * (#(-2.0364341000000002e-03) + $v_T * (#6.5204021099999997e-06 + $v_T * (#(-5.4879706200000003e-09) + #1.7719781700000000e-12 * $v_T)))))]
    [Asn v_cp 6 (#4.6152277955158070e+02 * (#3.0339924900000002e+00 + $v_T * (#2.1769180400000002e-03 + $v_T * (#(-1.6407251799999999e-07) + $v_T * (#(-9.7041986999999998e-11) + #1.6820099199999999e-14 * $v_T)))))];
  (*1236*) If ($v_T) (#1000.0)
    [Asn v_cp 7 (#2.4443746347165404e+02 * (#4.2761126899999997e+00 + $v_T * (#(-5.4282241699999995e-04) + $v_T * (#1.6733570100000001e-05 + $v_T * (#(-2.1577081300000000e-08) + #8.6245436299999998e-12 * $v_T)))))]
    [Asn v_cp 7 (#2.4443746347165404e+02 * (#4.1650028499999996e+00 + $v_T * (#4.9083169400000000e-03 + $v_T * (#(-1.9013922500000000e-06) + $v_T * (#3.7118598599999998e-10 + #(-2.8790830500000002e-14) * $v_T)))))];
  (*1242*) If ($v_T) (#1000.0)
    [Asn v_cp 8 (#2.5983668450066881e+02 * (#3.7824563599999999e+00 + $v_T * (#(-2.9967341599999998e-03) + $v_T * (#9.8473020100000000e-06 + $v_T * (#(-9.6812950900000007e-09) + #3.2437283700000000e-12 * $v_T)))))]
    [Asn v_cp 8 (#2.5983668450066881e+02 * (#3.2825378399999998e+00 + $v_T * (#1.4830875399999999e-03 + $v_T * (#(-7.5796666899999999e-07) + $v_T * (#2.0947055499999999e-10 + #(-2.1671779399999999e-14) * $v_T)))))];
  (*1248*) If ($v_T) (#1000.0)
    [Asn v_cp 9 (#5.9275206603321635e+02 * (#3.7626786700000001e+00 + $v_T * (#9.6887214300000004e-04 + $v_T * (#2.7948984100000001e-06 + $v_T * (#(-3.8509115300000003e-09) + #1.6874171900000000e-12 * $v_T)))))]
    [Asn v_cp 9 (#5.9275206603321635e+02 * (#2.8741011300000001e+00 + $v_T * (#3.6563929199999999e-03 + $v_T * (#(-1.4089459700000001e-06) + $v_T * (#2.6017954899999999e-10 + #(-1.8772756700000001e-14) * $v_T)))))];
  (*1254*) If ($v_T) (#1000.0)
    [Asn v_cp 10 (#5.9275206603321635e+02 * (#4.1986041099999998e+00 + $v_T * (#(-2.3666141900000001e-03) + $v_T * (#8.2329621999999999e-06 + $v_T * (#(-6.6881598100000004e-09) + #1.9431473700000001e-12 * $v_T)))))]
    [Asn v_cp 10 (#5.9275206603321635e+02 * (#2.2920384199999999e+00 + $v_T * (#4.6558863700000000e-03 + $v_T * (#(-2.0119194699999999e-06) + $v_T * (#4.1790600000000002e-10 + #(-3.3971636499999998e-14) * $v_T)))))];
  (*1260*) If ($v_T) (#1000.0)
    [Asn v_cp 11 (#5.5301374409537334e+02 * (#3.6735904000000001e+00 + $v_T * (#2.0109517500000000e-03 + $v_T * (#5.7302185600000002e-06 + $v_T * (#(-6.8711742500000001e-09) + #2.5438573400000000e-12 * $v_T)))))]
    [Asn v_cp 11 (#5.5301374409537334e+02 * (#2.2857177200000001e+00 + $v_T * (#7.2399003699999999e-03 + $v_T * (#(-2.9871434799999999e-06) + $v_T * (#5.9568464400000002e-10 + #(-4.6715439400000003e-14) * $v_T)))))];
  (*1266*) If ($v_T) (#1000.0)
    [Asn v_cp 12 (#5.1826880786099150e+02 * (#5.1498761300000000e+00 + $v_T * (#(-1.3670978800000001e-02) + $v_T * (#4.9180059899999999e-05 + $v_T * (#(-4.8474302600000002e-08) + #1.6669395599999999e-11 * $v_T)))))]
    [Asn v_cp 12 (#5.1826880786099150e+02 * (#7.4851495000000004e-02 + $v_T * (#1.3390946700000000e-02 + $v_T * (#(-5.7328580900000000e-06) + $v_T * (#1.2229253500000000e-09 + #(-1.0181523000000000e-13) * $v_T)))))];
  (*1272*) If ($v_T) (#1000.0)
    [Asn v_cp 13 (#2.8652438768034290e+02 * (#4.2211858400000004e+00 + $v_T * (#(-3.2439253200000000e-03) + $v_T * (#1.3779944600000000e-05 + $v_T * (#(-1.3314409300000001e-08) + #4.3376886499999999e-12 * $v_T)))))]
    [Asn v_cp 13 (#2.8652438768034290e+02 * (#2.7721743800000000e+00 + $v_T * (#4.9569552599999997e-03 + $v_T * (#(-2.4844561300000000e-06) + $v_T * (#5.8916177800000004e-10 + #(-5.3350871099999999e-14) * $v_T)))))];
  (*1278*) If ($v_T) (#1000.0)
    [Asn v_cp 14 (#2.7690616686449340e+02 * (#4.7937231499999999e+00 + $v_T * (#(-9.9083336899999999e-03) + $v_T * (#3.7322000799999999e-05 + $v_T * (#(-3.7928526099999998e-08) + #1.3177265200000000e-11 * $v_T)))))]
    [Asn v_cp 14 (#2.7690616686449340e+02 * (#1.7606900800000000e+00 + $v_T * (#9.2000008200000000e-03 + $v_T * (#(-4.4225881299999997e-06) + $v_T * (#1.0064121200000000e-09 + #(-8.8385564000000006e-14) * $v_T)))))];
  (*1284*) If ($v_T) (#1000.0)
    [Asn v_cp 15 (#2.6791271377208773e+02 * (#3.7118050199999999e+00 + $v_T * (#(-2.8046330600000001e-03) + $v_T * (#3.7655097100000001e-05 + $v_T * (#(-4.7307208899999997e-08) + #1.8658842000000000e-11 * $v_T)))))]
    [Asn v_cp 15 (#2.6791271377208773e+02 * (#4.7577923799999997e+00 + $v_T * (#7.4414247399999999e-03 + $v_T * (#(-2.6970517599999999e-06) + $v_T * (#4.3809050400000002e-10 + #(-2.6353709800000000e-14) * $v_T)))))];
  (*1290*) If ($v_T) (#1000.0)
    [Asn v_cp 16 (#2.9683482206608977e+02 * (#3.5795334699999999e+00 + $v_T * (#(-6.1035368000000000e-04) + $v_T * (#1.0168143300000000e-06 + $v_T * (#9.0700588399999998e-10 + #(-9.0442449900000000e-13) * $v_T)))))]
    [Asn v_cp 16 (#2.9683482206608977e+02 * (#2.7151856099999998e+00 + $v_T * (#2.0625274300000002e-03 + $v_T * (#(-9.9882577100000007e-07) + $v_T * (#2.3005300800000000e-10 + #(-2.0364771600000000e-14) * $v_T)))))];
  (*1296*) If ($v_T) (#1000.0)
    [Asn v_cp 17 (#1.8892296942953618e+02 * (#2.3567735200000000e+00 + $v_T * (#8.9845967700000005e-03 + $v_T * (#(-7.1235626899999998e-06) + $v_T * (#2.4591902199999998e-09 + #(-1.4369954799999999e-13) * $v_T)))))]
    [Asn v_cp 17 (#1.8892296942953618e+02 * (#3.8574602900000001e+00 + $v_T * (#4.4143702599999998e-03 + $v_T * (#(-2.2148140400000001e-06) + $v_T * (#5.2349018800000005e-10 + #(-4.7208416400000003e-14) * $v_T)))))];
  (*1302*) If ($v_T) (#1000.0)
    [Asn v_cp 18 (#3.1932177658088915e+02 * (#8.0868109399999999e-01 + $v_T * (#2.3361562900000001e-02 + $v_T * (#(-3.5517181499999999e-05) + $v_T * (#2.8015243700000000e-08 + #(-8.5007297399999996e-12) * $v_T)))))]
    [Asn v_cp 18 (#3.1932177658088915e+02 * (#4.1475696400000004e+00 + $v_T * (#5.9616666400000001e-03 + $v_T * (#(-2.3729485200000000e-06) + $v_T * (#4.6741217100000004e-10 + #(-3.6123521300000002e-14) * $v_T)))))];
  (*1308*) If ($v_T) (#1000.0)
    [Asn v_cp 19 (#3.0742133534867867e+02 * (#3.2124664500000000e+00 + $v_T * (#1.5147916200000000e-03 + $v_T * (#2.5920941200000000e-05 + $v_T * (#(-3.5765784700000000e-08) + #1.4715087300000000e-11 * $v_T)))))]
    [Asn v_cp 19 (#3.0742133534867867e+02 * (#3.0167240000000000e+00 + $v_T * (#1.0330229200000001e-02 + $v_T * (#(-4.6808234899999996e-06) + $v_T * (#1.0176328799999999e-09 + #(-8.6260704099999999e-14) * $v_T)))))];
  (*1314*) If ($v_T) (#1000.0)
    [Asn v_cp 20 (#2.9637603301660818e+02 * (#3.9592014799999999e+00 + $v_T * (#(-7.5705224700000004e-03) + $v_T * (#5.7099029199999999e-05 + $v_T * (#(-6.9158875299999999e-08) + #2.6988437300000001e-11 * $v_T)))))]
    [Asn v_cp 20 (#2.9637603301660818e+02 * (#2.0361111599999999e+00 + $v_T * (#1.4645415100000000e-02 + $v_T * (#(-6.7107791500000002e-06) + $v_T * (#1.4722292300000001e-09 + #(-1.2570606100000000e-13) * $v_T)))))];
  (*1320*) If ($v_T) (#1000.0)
    [Asn v_cp 21 (#2.8609689384998131e+02 * (#4.3064656799999996e+00 + $v_T * (#(-4.1865889200000004e-03) + $v_T * (#4.9714280699999999e-05 + $v_T * (#(-5.9912660599999996e-08) + #2.3050900400000000e-11 * $v_T)))))]
    [Asn v_cp 21 (#2.8609689384998131e+02 * (#1.9546564200000001e+00 + $v_T * (#1.7397272200000001e-02 + $v_T * (#(-7.9820666799999996e-06) + $v_T * (#1.7521768900000000e-09 + #(-1.4964157600000000e-13) * $v_T)))))];
  (*1326*) If ($v_T) (#1000.0)
    [Asn v_cp 22 (#2.7650687204768667e+02 * (#4.2914249199999999e+00 + $v_T * (#(-5.5015426999999997e-03) + $v_T * (#5.9943828800000003e-05 + $v_T * (#(-7.0846628500000001e-08) + #2.6868577099999999e-11 * $v_T)))))]
    [Asn v_cp 22 (#2.7650687204768667e+02 * (#1.0718814999999999e+00 + $v_T * (#2.1685267700000000e-02 + $v_T * (#(-1.0025606700000000e-05) + $v_T * (#2.2141200100000000e-09 + #(-1.9000289000000000e-13) * $v_T)))))];
  (*1332*) If ($v_T) (#1000.0)
    [Asn v_cp 23 (#1.9315645500243699e+02 * (#3.4090623999999998e+00 + $v_T * (#1.0738574000000001e-02 + $v_T * (#1.8914924999999999e-06 + $v_T * (#(-7.1585831000000001e-09) + #2.8673851000000000e-12 * $v_T)))))]
    [Asn v_cp 23 (#1.9315645500243699e+02 * (#5.9756698999999998e+00 + $v_T * (#8.1305913999999996e-03 + $v_T * (#(-2.7436244999999998e-06) + $v_T * (#4.0703041000000001e-10 + #(-2.1760171000000001e-14) * $v_T)))))];
  (*1338*) If ($v_T) (#1000.0)
    [Asn v_cp 24 (#2.0243281060168923e+02 * (#1.3631835000000001e+00 + $v_T * (#1.9813820999999999e-02 + $v_T * (#1.2497060000000000e-05 + $v_T * (#(-3.3355554999999998e-08) + #1.5846571000000000e-11 * $v_T)))))]
    [Asn v_cp 24 (#2.0243281060168923e+02 * (#6.5007877000000001e+00 + $v_T * (#1.4324731000000000e-02 + $v_T * (#(-5.6781631999999996e-06) + $v_T * (#1.1080801000000000e-09 + #(-9.0363886999999994e-14) * $v_T)))))];
  (*1344*) If ($v_T) (#1000.0)
    [Asn v_cp 25 (#1.9758402201107208e+02 * (#1.4933069999999999e+00 + $v_T * (#2.0925180000000002e-02 + $v_T * (#4.4867940000000002e-06 + $v_T * (#(-1.6689120000000000e-08) + #7.1581460000000003e-12 * $v_T)))))]
    [Asn v_cp 25 (#1.9758402201107208e+02 * (#6.7322569999999997e+00 + $v_T * (#1.4908340000000001e-02 + $v_T * (#(-4.9498989999999996e-06) + $v_T * (#7.2120220000000003e-10 + #(-3.7662039999999999e-14) * $v_T)))))];
  (*1350*) If ($v_T) (#1000.0)
    [Asn v_cp 26 (#1.9296208183235558e+02 * (#1.0491173000000000e+00 + $v_T * (#2.6008973000000001e-02 + $v_T * (#2.3542515999999998e-06 + $v_T * (#(-1.9595132000000000e-08) + #9.3720207000000007e-12 * $v_T)))))]
    [Asn v_cp 26 (#1.9296208183235558e+02 * (#7.7097479000000000e+00 + $v_T * (#1.6031485000000002e-02 + $v_T * (#(-5.2720237999999996e-06) + $v_T * (#7.5888352000000004e-10 + #(-3.8862719000000001e-14) * $v_T)))))];
  (*1356*) If ($v_T) (#1000.0)
    [Asn v_cp 27 (#1.4830262506385543e+02 * (#1.2713498000000001e+00 + $v_T * (#2.6231054000000000e-02 + $v_T * (#(-9.2912305000000002e-06) + $v_T * (#(-4.7837271999999999e-09) + #3.3480543000000001e-12 * $v_T)))))]
    [Asn v_cp 27 (#1.4830262506385543e+02 * (#5.8111867999999998e+00 + $v_T * (#1.7114256000000001e-02 + $v_T * (#(-7.4834160999999997e-06) + $v_T * (#1.4252249000000001e-09 + #(-9.1746840999999995e-14) * $v_T)))))];
  (*1362*) If ($v_T) (#1000.0)
    [Asn v_cp 28 (#1.5089882899288889e+02 * (#7.4449432000000004e-01 + $v_T * (#3.9678856999999998e-02 + $v_T * (#(-2.2898085999999999e-05) + $v_T * (#2.1352972999999998e-09 + #2.3096375000000000e-12 * $v_T)))))]
    [Asn v_cp 28 (#1.5089882899288889e+02 * (#7.0134835000000004e+00 + $v_T * (#2.2634557999999999e-02 + $v_T * (#(-9.2545469999999995e-06) + $v_T * (#1.6807927000000000e-09 + #(-1.0408617000000000e-13) * $v_T)))))];
  (*1368*) If ($v_T) (#1000.0)
    [Asn v_cp 29 (#1.4818801650830409e+02 * (#1.1811380000000000e+00 + $v_T * (#3.0853380000000000e-02 + $v_T * (#5.0865246999999997e-06 + $v_T * (#(-2.4654887999999999e-08) + #1.1110192999999999e-11 * $v_T)))))]
    [Asn v_cp 29 (#1.4818801650830409e+02 * (#2.0535841000000001e+00 + $v_T * (#3.4350507000000002e-02 + $v_T * (#(-1.5883196999999999e-05) + $v_T * (#3.3089662000000000e-09 + #(-2.5361045000000002e-13) * $v_T)))))];
  (*1374*) If ($v_T) (#1000.0)
    [Asn v_cp 30 (#1.4557288166811580e+02 * (#1.2087041999999999e+00 + $v_T * (#3.8297497000000000e-02 + $v_T * (#(-7.2660509000000000e-06) + $v_T * (#(-1.5428547000000000e-08) + #8.6859435000000004e-12 * $v_T)))))]
    [Asn v_cp 30 (#1.4557288166811580e+02 * (#8.6822394999999997e+00 + $v_T * (#2.3691071000000001e-02 + $v_T * (#(-7.5948864999999996e-06) + $v_T * (#6.6427135999999998e-10 + #5.4845136000000000e-14 * $v_T)))))];
  (*1380*) If ($v_T) (#1000.0)
    [Asn v_cp 31 (#1.2027900893521817e+02 * (#(-2.4190111000000001e+00) + $v_T * (#4.0430388999999997e-02 + $v_T * (#6.7802338999999996e-06 + $v_T * (#(-3.3724742000000003e-08) + #1.5116713000000001e-11 * $v_T)))))]
    [Asn v_cp 31 (#1.2027900893521817e+02 * (#1.0138640000000001e+01 + $v_T * (#2.2714137999999998e-02 + $v_T * (#(-7.7910462999999994e-06) + $v_T * (#1.1876522000000000e-09 + #(-6.5932448000000004e-14) * $v_T)))))];
  (*1386*) If ($v_T) (#1392.0)
    [Asn v_cp 32 (#1.1855041320664326e+02 * (#(-1.0622348100000001e+00) + $v_T * (#5.7421829399999999e-02 + $v_T * (#(-3.7448689000000003e-05) + $v_T * (#1.2736498899999999e-08 + #(-1.7960978899999999e-12) * $v_T)))))]
    [Asn v_cp 32 (#1.1855041320664326e+02 * (#1.4585153900000000e+01 + $v_T * (#2.2407247100000000e-02 + $v_T * (#(-7.6334802500000000e-06) + $v_T * (#1.1818896600000001e-09 + #(-6.8438513900000002e-14) * $v_T)))))];
  (*1392*) If ($v_T) (#1390.0)
    [Asn v_cp 33 (#1.1687079873954106e+02 * (#5.2438408100000000e-02 + $v_T * (#5.6079695800000003e-02 + $v_T * (#(-3.3154580300000003e-05) + $v_T * (#9.7753378099999998e-09 + #(-1.1400966000000000e-12) * $v_T)))))]
    [Asn v_cp 33 (#1.1687079873954106e+02 * (#1.5297744600000000e+01 + $v_T * (#2.3973530999999999e-02 + $v_T * (#(-8.1839294800000007e-06) + $v_T * (#1.2688307599999999e-09 + #(-7.3540905499999999e-14) * $v_T)))))];
  (*1398*) If ($v_T) (#1392.0)
    [Asn v_cp 34 (#9.8792011005536040e+01 * (#(-1.3527520500000001e+00) + $v_T * (#6.9865542599999997e-02 + $v_T * (#(-4.5940802200000001e-05) + $v_T * (#1.5696734300000001e-08 + #(-2.2129617500000001e-12) * $v_T)))))]
    [Asn v_cp 34 (#9.8792011005536040e+01 * (#1.7833752900000000e+01 + $v_T * (#2.6737765800000000e-02 + $v_T * (#(-9.1003677300000006e-06) + $v_T * (#1.4081976800000000e-09 + #(-8.1512424400000003e-14) * $v_T)))))];
  (*1404*) If ($v_T) (#1390.0)
    [Asn v_cp 35 (#9.7622851307080197e+01 * (#(-2.0487146500000000e-01) + $v_T * (#6.8380127200000002e-02 + $v_T * (#(-4.1444791199999999e-05) + $v_T * (#1.2615580200000000e-08 + #(-1.5312005799999999e-12) * $v_T)))))]
    [Asn v_cp 35 (#9.7622851307080197e+01 * (#1.8538547000000001e+01 + $v_T * (#2.8310796199999998e-02 + $v_T * (#(-9.6530724599999996e-06) + $v_T * (#1.4954758500000000e-09 + #(-8.6633606400000000e-14) * $v_T)))))];
  (*1410*) If ($v_T) (#1392.0)
    [Asn v_cp 36 (#8.4678866576173760e+01 * (#(-1.6772054900000000e+00) + $v_T * (#8.2461160100000000e-02 + $v_T * (#(-5.4650410800000001e-05) + $v_T * (#1.8786230299999999e-08 + #(-2.6573798299999999e-12) * $v_T)))))]
    [Asn v_cp 36 (#8.4678866576173760e+01 * (#2.1089803900000000e+01 + $v_T * (#3.1060787800000000e-02 + $v_T * (#(-1.0564479299999999e-05) + $v_T * (#1.6340578000000000e-09 + #(-9.4559821900000000e-14) * $v_T)))))];
  (*1416*) If ($v_T) (#1390.0)
    [Asn v_cp 37 (#8.3818437418406575e+01 * (#(-4.9957040600000002e-01) + $v_T * (#8.0882646700000005e-02 + $v_T * (#(-5.0053275400000002e-05) + $v_T * (#1.5654930800000001e-08 + #(-1.9661622700000000e-12) * $v_T)))))]
    [Asn v_cp 37 (#8.3818437418406575e+01 * (#2.1794070900000001e+01 + $v_T * (#3.2628024300000003e-02 + $v_T * (#(-1.1113824400000001e-05) + $v_T * (#1.7206714800000000e-09 + #(-9.9636699899999997e-14) * $v_T)))))];
  (*1422*) If ($v_T) (#1392.0)
    [Asn v_cp 38 (#7.4094008254152044e+01 * (#(-1.8922691500000000e+00) + $v_T * (#9.4606635699999997e-02 + $v_T * (#(-6.2738552100000003e-05) + $v_T * (#2.1515830900000000e-08 + #(-3.0271868300000002e-12) * $v_T)))))]
    [Asn v_cp 38 (#7.4094008254152044e+01 * (#2.4354012500000000e+01 + $v_T * (#3.5366646199999997e-02 + $v_T * (#(-1.2020838800000000e-05) + $v_T * (#1.8585505300000000e-09 + #(-1.0752226200000000e-13) * $v_T)))))];
  (*1428*) If ($v_T) (#1390.0)
    [Asn v_cp 39 (#7.3434404393878353e+01 * (#(-7.7275943800000002e-01) + $v_T * (#9.3254970500000006e-02 + $v_T * (#(-5.8444724499999997e-05) + $v_T * (#1.8557021399999999e-08 + #(-2.3712748300000001e-12) * $v_T)))))]
    [Asn v_cp 39 (#7.3434404393878353e+01 * (#2.5051035599999999e+01 + $v_T * (#3.6948016200000003e-02 + $v_T * (#(-1.2576526400000000e-05) + $v_T * (#1.9462840899999998e-09 + #(-1.1266889800000000e-13) * $v_T)))))];
  (*1434*) If ($v_T) (#1392.0)
    [Asn v_cp 40 (#6.5861340670357365e+01 * (#(-2.1610826300000001e+00) + $v_T * (#1.0695829699999999e-01 + $v_T * (#(-7.1097324400000000e-05) + $v_T * (#2.4397107700000000e-08 + #(-3.4277154699999998e-12) * $v_T)))))]
    [Asn v_cp 40 (#6.5861340670357365e+01 * (#2.7614217600000000e+01 + $v_T * (#3.9682528699999997e-02 + $v_T * (#(-1.3481944600000000e-05) + $v_T * (#2.0839045200000001e-09 + #(-1.2053929400000000e-13) * $v_T)))))];
  (*1440*) If ($v_T) (#1390.0)
    [Asn v_cp 41 (#6.5339656169366336e+01 * (#(-1.0438729200000001e+00) + $v_T * (#1.0561728300000001e-01 + $v_T * (#(-6.6819997100000004e-05) + $v_T * (#2.1448616599999999e-08 + #(-2.7740427500000001e-12) * $v_T)))))]
    [Asn v_cp 41 (#6.5339656169366336e+01 * (#2.8309751400000000e+01 + $v_T * (#4.1265734399999997e-02 + $v_T * (#(-1.4038328900000000e-05) + $v_T * (#2.1717487099999999e-09 + #(-1.2569230699999999e-13) * $v_T)))))];
  (*1446*) If ($v_T) (#1392.0)
    [Asn v_cp 42 (#5.9275206603321628e+01 * (#(-2.4290168799999998e+00) + $v_T * (#1.1930559800000000e-01 + $v_T * (#(-7.9448902500000001e-05) + $v_T * (#2.7273659600000001e-08 + #(-3.8271837299999998e-12) * $v_T)))))]
    [Asn v_cp 42 (#5.9275206603321628e+01 * (#3.0875390299999999e+01 + $v_T * (#4.3997152599999999e-02 + $v_T * (#(-1.4942553000000000e-05) + $v_T * (#2.3091767799999998e-09 + #(-1.3355147700000000e-13) * $v_T)))))];
  (*1452*) If ($v_T) (#1390.0)
    [Asn v_cp 43 (#5.8852307180927312e+01 * (#(-1.3135834799999999e+00) + $v_T * (#1.1797281300000000e-01 + $v_T * (#(-7.5184307900000001e-05) + $v_T * (#2.4333110599999999e-08 + #(-3.1752285200000001e-12) * $v_T)))))]
    [Asn v_cp 43 (#5.8852307180927312e+01 * (#3.1569716000000000e+01 + $v_T * (#4.5581840300000002e-02 + $v_T * (#(-1.5499496500000000e-05) + $v_T * (#2.3971093299999999e-09 + #(-1.3870955900000001e-13) * $v_T)))))];
  (*1458*) If ($v_T) (#1391.0)
    [Asn v_cp 44 (#4.8811425653540098e+01 * (#(-2.6218159399999998e+00) + $v_T * (#1.4723771099999999e-01 + $v_T * (#(-9.4397027100000003e-05) + $v_T * (#3.0744126800000001e-08 + #(-4.0360223000000001e-12) * $v_T)))))]
    [Asn v_cp 44 (#4.8811425653540098e+01 * (#3.8509503700000003e+01 + $v_T * (#5.6355004799999997e-02 + $v_T * (#(-1.9149320000000001e-05) + $v_T * (#2.9602486200000000e-09 + #(-1.7124415000000001e-13) * $v_T)))))];
  (*1464*) If ($v_T) (#1390.0)
    [Asn v_cp 45 (#4.9101975722034723e+01 * (#(-1.8502874100000000e+00) + $v_T * (#1.4267070800000001e-01 + $v_T * (#(-9.1891655500000001e-05) + $v_T * (#3.0088339200000000e-08 + #(-3.9745429999999999e-12) * $v_T)))))]
    [Asn v_cp 45 (#4.9101975722034723e+01 * (#3.8092188499999999e+01 + $v_T * (#5.4210784800000002e-02 + $v_T * (#(-1.8420551700000002e-05) + $v_T * (#2.8476217300000002e-09 + #(-1.6473174800000001e-13) * $v_T)))))];
  (*1470*) If ($v_T) (#1385.0)
    [Asn v_cp 46 (#4.9101975722034723e+01 * (#(-1.3678708900000001e+00) + $v_T * (#1.3735534799999999e-01 + $v_T * (#(-8.2407615799999994e-05) + $v_T * (#2.3642156200000001e-08 + #(-2.4743593200000001e-12) * $v_T)))))]
    [Asn v_cp 46 (#4.9101975722034723e+01 * (#3.7968826800000002e+01 + $v_T * (#5.3871946400000002e-02 + $v_T * (#(-1.8217126300000001e-05) + $v_T * (#2.8077450299999999e-09 + #(-1.6210842000000001e-13) * $v_T)))))];
  (*1476*) If ($v_T) (#1385.0)
    [Asn v_cp 47 (#4.9101975722034723e+01 * (#(-1.3678708900000001e+00) + $v_T * (#1.3735534799999999e-01 + $v_T * (#(-8.2407615799999994e-05) + $v_T * (#2.3642156200000001e-08 + #(-2.4743593200000001e-12) * $v_T)))))]
    [Asn v_cp 47 (#4.9101975722034723e+01 * (#3.7968826800000002e+01 + $v_T * (#5.3871946400000002e-02 + $v_T * (#(-1.8217126300000001e-05) + $v_T * (#2.8077450299999999e-09 + #(-1.6210842000000001e-13) * $v_T)))))];
  (*1482*) If ($v_T) (#1391.0)
    [Asn v_cp 48 (#4.9396005502768020e+01 * (#(-2.9634268100000001e+00) + $v_T * (#1.4399236000000001e-01 + $v_T * (#(-9.6138401500000002e-05) + $v_T * (#3.3017447300000002e-08 + #(-4.6239818999999997e-12) * $v_T)))))]
    [Asn v_cp 48 (#4.9396005502768020e+01 * (#3.7400211100000000e+01 + $v_T * (#5.2623075300000002e-02 + $v_T * (#(-1.7862431900000000e-05) + $v_T * (#2.7594986300000001e-09 + #(-1.5956249899999999e-13) * $v_T)))))];
  (*1488*) If ($v_T) (#1000.0)
    [Asn v_cp 49 (#4.1297824509398289e+01 * (#5.3140400000000003e+00 + $v_T * (#8.9387300000000003e-02 + $v_T * (#1.4535100000000001e-05 + $v_T * (#(-7.4925000000000004e-08) + #3.3532500000000002e-11 * $v_T)))))]
    [Asn v_cp 49 (#4.1297824509398289e+01 * (#2.8478200000000001e+01 + $v_T * (#5.3753900000000000e-02 + $v_T * (#(-1.6818599999999999e-05) + $v_T * (#2.5136700000000001e-09 + #(-1.4720799999999999e-13) * $v_T)))))];
  (*1494*) If ($v_T) (#1000.0)
    [Asn v_cp 50 (#4.1297824509398289e+01 * (#5.1523099999999999e+00 + $v_T * (#9.9791299999999999e-02 + $v_T * (#(-1.8063500000000001e-05) + $v_T * (#(-4.1843500000000000e-08) + #2.2278599999999999e-11 * $v_T)))))]
    [Asn v_cp 50 (#4.1297824509398289e+01 * (#2.9201899999999998e+01 + $v_T * (#5.1591699999999997e-02 + $v_T * (#(-1.5732699999999999e-05) + $v_T * (#2.3030600000000001e-09 + #(-1.3264000000000000e-13) * $v_T)))))];
  (*1500*) If ($v_T) (#1000.0)
    [Asn v_cp 51 (#3.5634208224384466e+01 * (#4.8197200000000001e-01 + $v_T * (#1.4502000000000001e-01 + $v_T * (#(-9.9930800000000002e-05) + $v_T * (#2.6042200000000000e-08 + #1.1935800000000000e-12 * $v_T)))))]
    [Asn v_cp 51 (#3.5634208224384466e+01 * (#3.5090699999999998e+01 + $v_T * (#5.1059000000000000e-02 + $v_T * (#(-1.5434499999999999e-05) + $v_T * (#2.2462699999999999e-09 + #(-1.2890100000000001e-13) * $v_T)))))];
  (*1506*) If ($v_T) (#1000.0)
    [Asn v_cp 52 (#3.8435802925248602e+01 * (#8.8073300000000003e+00 + $v_T * (#6.5062300000000003e-02 + $v_T * (#6.9505799999999994e-05 + $v_T * (#(-1.2690500000000001e-07) + #5.1099100000000001e-11 * $v_T)))))]
    [Asn v_cp 52 (#3.8435802925248602e+01 * (#2.3673100000000002e+01 + $v_T * (#6.1639199999999998e-02 + $v_T * (#(-2.0983600000000000e-05) + $v_T * (#3.3316600000000001e-09 + #(-2.0358999999999999e-13) * $v_T)))))];
  (*1512*) If ($v_T) (#1000.0)
    [Asn v_cp 53 (#2.9680218594762238e+02 * (#3.2986770000000001e+00 + $v_T * (#1.4082404000000000e-03 + $v_T * (#(-3.9632219999999998e-06) + $v_T * (#5.6415150000000002e-09 + #(-2.4448539999999999e-12) * $v_T)))))]
    [Asn v_cp 53 (#2.9680218594762238e+02 * (#2.9266399999999999e+00 + $v_T * (#1.4879768000000001e-03 + $v_T * (#(-5.6847600000000001e-07) + $v_T * (#1.0097038000000000e-10 + #(-6.7533509999999998e-15) * $v_T)))))]
].

(** [eval_spec_rates], yao/lib/src/spec_rates.c:4-2507. *)
Definition yao_eval_spec_rates : list stmt := [
  (*7*) Do (Asn v_sp_rates 8 ((- (v_fwd_rates.[0] - v_rev_rates.[0]))));
  (*9*) Do (Asn v_sp_rates 1 ((- (v_fwd_rates.[0] - v_rev_rates.[0]))));
  (*11*) Do (Asn v_sp_rates 2 (v_fwd_rates.[0] - v_rev_rates.[0]));
  (*13*) Do (Asn v_sp_rates 3 (v_fwd_rates.[0] - v_rev_rates.[0]));
  (*17*) Do (AddA v_sp_rates 1 (v_fwd_rates.[1] - v_rev_rates.[1]));
  (*19*) Do (SubA v_sp_rates 2 (v_fwd_rates.[1] - v_rev_rates.[1]));
  (*21*) Do (AddA v_sp_rates 3 (v_fwd_rates.[1] - v_rev_rates.[1]));
  (*23*) Do (Asn v_sp_rates 5 ((- (v_fwd_rates.[1] - v_rev_rates.[1]))));
  (*27*) Do (AddA v_sp_rates 1 (v_fwd_rates.[2] - v_rev_rates.[2]));
  (*29*) Do (SubA v_sp_rates 3 (v_fwd_rates.[2] - v_rev_rates.[2]));
  (*31*) Do (SubA v_sp_rates 5 (v_fwd_rates.[2] - v_rev_rates.[2]));
  (*33*) Do (Asn v_sp_rates 6 (v_fwd_rates.[2] - v_rev_rates.[2]));
  (*37*) Do (AddA v_sp_rates 2 (v_fwd_rates.[3] - v_rev_rates.[3]));
  (*39*) Do (SubA v_sp_rates 3 (#2.0 * (v_fwd_rates.[3] - v_rev_rates.[3])));
  (*41*) Do (AddA v_sp_rates 6 (v_fwd_rates.[3] - v_rev_rates.[3]));
  (*45*) Do (SubA v_sp_rates 8 ((v_fwd_rates.[4] - v_rev_rates.[4]) * v_pres_mod.[0]));
  (*47*) Do (SubA v_sp_rates 1 ((v_fwd_rates.[4] - v_rev_rates.[4]) * v_pres_mod.[0]));
  (*49*) Do (Asn v_sp_rates 4 ((v_fwd_rates.[4] - v_rev_rates.[4]) * v_pres_mod.[0]));
  (*53*) Do (SubA v_sp_rates 1 (v_fwd_rates.[5] - v_rev_rates.[5]));
  (*55*) Do (AddA v_sp_rates 3 (#2.0 * (v_fwd_rates.[5] - v_rev_rates.[5])));
  (*57*) Do (SubA v_sp_rates 4 (v_fwd_rates.[5] - v_rev_rates.[5]));
  (*61*) Do (SubA v_sp_rates 8 (v_fwd_rates.[6] - v_rev_rates.[6]));
  (*63*) Do (AddA v_sp_rates 1 (v_fwd_rates.[6] - v_rev_rates.[6]));
  (*65*) Do (AddA v_sp_rates 4 (v_fwd_rates.[6] - v_rev_rates.[6]));
  (*67*) Do (SubA v_sp_rates 5 (v_fwd_rates.[6] - v_rev_rates.[6]));
  (*71*) Do (AddA v_sp_rates 8 (v_fwd_rates.[7] - v_rev_rates.[7]));
  (*73*) Do (SubA v_sp_rates 3 (v_fwd_rates.[7] - v_rev_rates.[7]));
  (*75*) Do (SubA v_sp_rates 4 (v_fwd_rates.[7] - v_rev_rates.[7]));
  (*77*) Do (AddA v_sp_rates 6 (v_fwd_rates.[7] - v_rev_rates.[7]));
  (*81*) Do (SubA v_sp_rates 1 (v_fwd_rates.[8] - v_rev_rates.[8]));
  (*83*) Do (AddA v_sp_rates 2 (v_fwd_rates.[8] - v_rev_rates.[8]));
  (*85*) Do (SubA v_sp_rates 4 (v_fwd_rates.[8] - v_rev_rates.[8]));
  (*87*) Do (AddA v_sp_rates 6 (v_fwd_rates.[8] - v_rev_rates.[8]));
  (*91*) Do (AddA v_sp_rates 8 (v_fwd_rates.[9] - v_rev_rates.[9]));
  (*93*) Do (SubA v_sp_rates 2 (v_fwd_rates.[9] - v_rev_rates.[9]));
  (*95*) Do (AddA v_sp_rates 3 (v_fwd_rates.[9] - v_rev_rates.[9]));
  (*97*) Do (SubA v_sp_rates 4 (v_fwd_rates.[9] - v_rev_rates.[9]));
  (*101*) Do (AddA v_sp_rates 8 (v_fwd_rates.[10] - v_rev_rates.[10]));
  (*103*) Do (SubA v_sp_rates 4 (#2.0 * (v_fwd_rates.[10] - v_rev_rates.[10])));
  (*105*) Do (Asn v_sp_rates 7 (v_fwd_rates.[10] - v_rev_rates.[10]));
  (*109*) Do (AddA v_sp_rates 8 (v_fwd_rates.[11] - v_rev_rates.[11]));
  (*111*) Do (SubA v_sp_rates 4 (#2.0 * (v_fwd_rates.[11] - v_rev_rates.[11])));
  (*113*) Do (AddA v_sp_rates 7 (v_fwd_rates.[11] - v_rev_rates.[11]));
  (*117*) Do (SubA v_sp_rates 1 (v_fwd_rates.[12] - v_rev_rates.[12]));
  (*119*) Do (AddA v_sp_rates 3 (v_fwd_rates.[12] - v_rev_rates.[12]));
  (*121*) Do (AddA v_sp_rates 6 (v_fwd_rates.[12] - v_rev_rates.[12]));
  (*123*) Do (SubA v_sp_rates 7 (v_fwd_rates.[12] - v_rev_rates.[12]));
  (*127*) Do (SubA v_sp_rates 1 (v_fwd_rates.[13] - v_rev_rates.[13]));
  (*129*) Do (AddA v_sp_rates 4 (v_fwd_rates.[13] - v_rev_rates.[13]));
  (*131*) Do (AddA v_sp_rates 5 (v_fwd_rates.[13] - v_rev_rates.[13]));
  (*133*) Do (SubA v_sp_rates 7 (v_fwd_rates.[13] - v_rev_rates.[13]));
  (*137*) Do (SubA v_sp_rates 2 (v_fwd_rates.[14] - v_rev_rates.[14]));
  (*139*) Do (AddA v_sp_rates 3 (v_fwd_rates.[14] - v_rev_rates.[14]));
  (*141*) Do (AddA v_sp_rates 4 (v_fwd_rates.[14] - v_rev_rates.[14]));
  (*143*) Do (SubA v_sp_rates 7 (v_fwd_rates.[14] - v_rev_rates.[14]));
  (*147*) Do (SubA v_sp_rates 3 (v_fwd_rates.[15] - v_rev_rates.[15]));
  (*149*) Do (AddA v_sp_rates 4 (v_fwd_rates.[15] - v_rev_rates.[15]));
  (*151*) Do (AddA v_sp_rates 6 (v_fwd_rates.[15] - v_rev_rates.[15]));
  (*153*) Do (SubA v_sp_rates 7 (v_fwd_rates.[15] - v_rev_rates.[15]));
  (*157*) Do (SubA v_sp_rates 3 (v_fwd_rates.[16] - v_rev_rates.[16]));
  (*159*) Do (AddA v_sp_rates 4 (v_fwd_rates.[16] - v_rev_rates.[16]));
  (*161*) Do (AddA v_sp_rates 6 (v_fwd_rates.[16] - v_rev_rates.[16]));
  (*163*) Do (SubA v_sp_rates 7 (v_fwd_rates.[16] - v_rev_rates.[16]));
  (*167*) Do (SubA v_sp_rates 3 (#2.0 * (v_fwd_rates.[17] - v_rev_rates.[17]) * v_pres_mod.[1]));
  (*169*) Do (AddA v_sp_rates 7 ((v_fwd_rates.[17] - v_rev_rates.[17]) * v_pres_mod.[1]));
  (*173*) Do (SubA v_sp_rates 1 (#2.0 * (v_fwd_rates.[18] - v_rev_rates.[18]) * v_pres_mod.[2]));
  (*175*) Do (AddA v_sp_rates 5 ((v_fwd_rates.[18] - v_rev_rates.[18]) * v_pres_mod.[2]));
  (*179*) Do (SubA v_sp_rates 1 ((v_fwd_rates.[19] - v_rev_rates.[19]) * v_pres_mod.[3]));
  (*181*) Do (SubA v_sp_rates 3 ((v_fwd_rates.[19] - v_rev_rates.[19]) * v_pres_mod.[3]));
  (*183*) Do (AddA v_sp_rates 6 ((v_fwd_rates.[19] - v_rev_rates.[19]) * v_pres_mod.[3]));
  (*187*) Do (AddA v_sp_rates 8 ((v_fwd_rates.[20] - v_rev_rates.[20]) * v_pres_mod.[4]));
  (*189*) Do (SubA v_sp_rates 2 (#2.0 * (v_fwd_rates.[20] - v_rev_rates.[20]) * v_pres_mod.[4]));
  (*193*) Do (SubA v_sp_rates 1 (#2.0 * (v_fwd_rates.[21] - v_rev_rates.[21])));
  (*195*) Do (AddA v_sp_rates 5 (v_fwd_rates.[21] - v_rev_rates.[21]));
  (*199*) Do (SubA v_sp_rates 1 (#2.0 * (v_fwd_rates.[22] - v_rev_rates.[22])));
  (*201*) Do (AddA v_sp_rates 5 (v_fwd_rates.[22] - v_rev_rates.[22]));
  (*205*) Do (SubA v_sp_rates 1 (#2.0 * (v_fwd_rates.[23] - v_rev_rates.[23])));
  (*207*) Do (AddA v_sp_rates 5 (v_fwd_rates.[23] - v_rev_rates.[23]));
  (*211*) Do (SubA v_sp_rates 1 ((v_fwd_rates.[24] - v_rev_rates.[24]) * v_pres_mod.[5]));
  (*213*) Do (SubA v_sp_rates 2 ((v_fwd_rates.[24] - v_rev_rates.[24]) * v_pres_mod.[5]));
  (*215*) Do (AddA v_sp_rates 3 ((v_fwd_rates.[24] - v_rev_rates.[24]) * v_pres_mod.[5]));
  (*219*) Do (Asn v_sp_rates 16 ((- (v_fwd_rates.[25] - v_rev_rates.[25]))));
  (*221*) Do (AddA v_sp_rates 1 (v_fwd_rates.[25] - v_rev_rates.[25]));
  (*223*) Do (SubA v_sp_rates 3 (v_fwd_rates.[25] - v_rev_rates.[25]));
  (*225*) Do (Asn v_sp_rates 17 (v_fwd_rates.[25] - v_rev_rates.[25]));
  (*229*) Do (SubA v_sp_rates 16 (v_fwd_rates.[26] - v_rev_rates.[26]));
  (*231*) Do (AddA v_sp_rates 1 (v_fwd_rates.[26] - v_rev_rates.[26]));
  (*233*) Do (SubA v_sp_rates 3 (v_fwd_rates.[26] - v_rev_rates.[26]));
  (*235*) Do (AddA v_sp_rates 17 (v_fwd_rates.[26] - v_rev_rates.[26]));
  (*239*) Do (SubA v_sp_rates 16 (v_fwd_rates.[27] - v_rev_rates.[27]));
  (*241*) Do (AddA v_sp_rates 17 (v_fwd_rates.[27] - v_rev_rates.[27]));
  (*243*) Do (AddA v_sp_rates 3 (v_fwd_rates.[27] - v_rev_rates.[27]));
  (*245*) Do (SubA v_sp_rates 4 (v_fwd_rates.[27] - v_rev_rates.[27]));
  (*249*) Do (SubA v_sp_rates 16 ((v_fwd_rates.[28] - v_rev_rates.[28]) * v_pres_mod.[6]));
  (*251*) Do (AddA v_sp_rates 17 ((v_fwd_rates.[28] - v_rev_rates.[28]) * v_pres_mod.[6]));
  (*253*) Do (SubA v_sp_rates 2 ((v_fwd_rates.[28] - v_rev_rates.[28]) * v_pres_mod.[6]));
  (*257*) Do (SubA v_sp_rates 16 (v_fwd_rates.[29] - v_rev_rates.[29]));
  (*259*) Do (SubA v_sp_rates 8 (v_fwd_rates.[29] - v_rev_rates.[29]));
  (*261*) Do (AddA v_sp_rates 2 (v_fwd_rates.[29] - v_rev_rates.[29]));
  (*263*) Do (AddA v_sp_rates 17 (v_fwd_rates.[29] - v_rev_rates.[29]));
  (*267*) Do (AddA v_sp_rates 16 ((v_fwd_rates.[30] - v_rev_rates.[30]) * v_pres_mod.[7]));
  (*269*) Do (AddA v_sp_rates 1 ((v_fwd_rates.[30] - v_rev_rates.[30]) * v_pres_mod.[7]));
  (*271*) Do (Asn v_sp_rates 13 ((- (v_fwd_rates.[30] - v_rev_rates.[30])) * v_pres_mod.[7]));
  (*275*) Do (AddA v_sp_rates 16 (v_fwd_rates.[31] - v_rev_rates.[31]));
  (*277*) Do (SubA v_sp_rates 1 (v_fwd_rates.[31] - v_rev_rates.[31]));
  (*279*) Do (SubA v_sp_rates 13 (v_fwd_rates.[31] - v_rev_rates.[31]));
  (*281*) Do (AddA v_sp_rates 5 (v_fwd_rates.[31] - v_rev_rates.[31]));
  (*285*) Do (AddA v_sp_rates 16 (v_fwd_rates.[32] - v_rev_rates.[32]));
  (*287*) Do (SubA v_sp_rates 2 (v_fwd_rates.[32] - v_rev_rates.[32]));
  (*289*) Do (AddA v_sp_rates 3 (v_fwd_rates.[32] - v_rev_rates.[32]));
  (*291*) Do (SubA v_sp_rates 13 (v_fwd_rates.[32] - v_rev_rates.[32]));
  (*295*) Do (AddA v_sp_rates 1 (v_fwd_rates.[33] - v_rev_rates.[33]));
  (*297*) Do (SubA v_sp_rates 2 (v_fwd_rates.[33] - v_rev_rates.[33]));
  (*299*) Do (SubA v_sp_rates 13 (v_fwd_rates.[33] - v_rev_rates.[33]));
  (*301*) Do (AddA v_sp_rates 17 (v_fwd_rates.[33] - v_rev_rates.[33]));
  (*305*) Do (AddA v_sp_rates 16 (v_fwd_rates.[34] - v_rev_rates.[34]));
  (*307*) Do (SubA v_sp_rates 3 (v_fwd_rates.[34] - v_rev_rates.[34]));
  (*309*) Do (SubA v_sp_rates 13 (v_fwd_rates.[34] - v_rev_rates.[34]));
  (*311*) Do (AddA v_sp_rates 6 (v_fwd_rates.[34] - v_rev_rates.[34]));
  (*315*) Do (SubA v_sp_rates 8 (v_fwd_rates.[35] - v_rev_rates.[35]));
  (*317*) Do (AddA v_sp_rates 16 (v_fwd_rates.[35] - v_rev_rates.[35]));
  (*319*) Do (AddA v_sp_rates 4 (v_fwd_rates.[35] - v_rev_rates.[35]));
  (*321*) Do (SubA v_sp_rates 13 (v_fwd_rates.[35] - v_rev_rates.[35]));
  (*325*) Do (AddA v_sp_rates 16 (v_fwd_rates.[36] - v_rev_rates.[36]));
  (*327*) Do (AddA v_sp_rates 1 (v_fwd_rates.[36] - v_rev_rates.[36]));
  (*329*) Do (SubA v_sp_rates 13 (v_fwd_rates.[36] - v_rev_rates.[36]));
  (*333*) Do (SubA v_sp_rates 16 ((v_fwd_rates.[37] - v_rev_rates.[37]) * v_pres_mod.[8]));
  (*335*) Do (SubA v_sp_rates 5 ((v_fwd_rates.[37] - v_rev_rates.[37]) * v_pres_mod.[8]));
  (*337*) Do (Asn v_sp_rates 14 ((v_fwd_rates.[37] - v_rev_rates.[37]) * v_pres_mod.[8]));
  (*341*) Do (SubA v_sp_rates 1 ((v_fwd_rates.[38] - v_rev_rates.[38]) * v_pres_mod.[9]));
  (*343*) Do (SubA v_sp_rates 13 ((v_fwd_rates.[38] - v_rev_rates.[38]) * v_pres_mod.[9]));
  (*345*) Do (AddA v_sp_rates 14 ((v_fwd_rates.[38] - v_rev_rates.[38]) * v_pres_mod.[9]));
  (*349*) Do (SubA v_sp_rates 1 ((v_fwd_rates.[39] - v_rev_rates.[39]) * v_pres_mod.[10]));
  (*351*) Do (Asn v_sp_rates 11 ((v_fwd_rates.[39] - v_rev_rates.[39]) * v_pres_mod.[10]));
  (*353*) Do (Asn v_sp_rates 9 ((- (v_fwd_rates.[39] - v_rev_rates.[39])) * v_pres_mod.[10]));
  (*357*) Do (SubA v_sp_rates 9 (v_fwd_rates.[40] - v_rev_rates.[40]));
  (*359*) Do (SubA v_sp_rates 2 (v_fwd_rates.[40] - v_rev_rates.[40]));
  (*361*) Do (AddA v_sp_rates 13 (v_fwd_rates.[40] - v_rev_rates.[40]));
  (*363*) Do (AddA v_sp_rates 1 (v_fwd_rates.[40] - v_rev_rates.[40]));
  (*367*) Do (SubA v_sp_rates 9 (v_fwd_rates.[41] - v_rev_rates.[41]));
  (*369*) Do (SubA v_sp_rates 3 (v_fwd_rates.[41] - v_rev_rates.[41]));
  (*371*) Do (AddA v_sp_rates 14 (v_fwd_rates.[41] - v_rev_rates.[41]));
  (*373*) Do (AddA v_sp_rates 1 (v_fwd_rates.[41] - v_rev_rates.[41]));
  (*377*) Do (SubA v_sp_rates 9 (v_fwd_rates.[42] - v_rev_rates.[42]));
  (*379*) Do (AddA v_sp_rates 11 (v_fwd_rates.[42] - v_rev_rates.[42]));
  (*381*) Do (SubA v_sp_rates 5 (v_fwd_rates.[42] - v_rev_rates.[42]));
  (*383*) Do (AddA v_sp_rates 1 (v_fwd_rates.[42] - v_rev_rates.[42]));
  (*387*) Do (SubA v_sp_rates 8 (v_fwd_rates.[43] - v_rev_rates.[43]));
  (*389*) Do (SubA v_sp_rates 9 (v_fwd_rates.[43] - v_rev_rates.[43]));
  (*391*) Do (AddA v_sp_rates 3 (v_fwd_rates.[43] - v_rev_rates.[43]));
  (*393*) Do (AddA v_sp_rates 13 (v_fwd_rates.[43] - v_rev_rates.[43]));
  (*397*) Do (SubA v_sp_rates 8 (v_fwd_rates.[44] - v_rev_rates.[44]));
  (*399*) Do (SubA v_sp_rates 9 (v_fwd_rates.[44] - v_rev_rates.[44]));
  (*401*) Do (AddA v_sp_rates 17 (v_fwd_rates.[44] - v_rev_rates.[44]));
  (*403*) Do (AddA v_sp_rates 1 (#2.0 * (v_fwd_rates.[44] - v_rev_rates.[44])));
  (*407*) Do (SubA v_sp_rates 9 (v_fwd_rates.[45] - v_rev_rates.[45]));
  (*409*) Do (AddA v_sp_rates 3 (v_fwd_rates.[45] - v_rev_rates.[45]));
  (*411*) Do (SubA v_sp_rates 4 (v_fwd_rates.[45] - v_rev_rates.[45]));
  (*413*) Do (AddA v_sp_rates 14 (v_fwd_rates.[45] - v_rev_rates.[45]));
  (*417*) Do (SubA v_sp_rates 9 (#2.0 * (v_fwd_rates.[46] - v_rev_rates.[46])));
  (*419*) Do (Asn v_sp_rates 18 (v_fwd_rates.[46] - v_rev_rates.[46]));
  (*421*) Do (AddA v_sp_rates 5 (v_fwd_rates.[46] - v_rev_rates.[46]));
  (*425*) Do (AddA v_sp_rates 9 (v_fwd_rates.[47] - v_rev_rates.[47]));
  (*427*) Do (Asn v_sp_rates 10 ((- (v_fwd_rates.[47] - v_rev_rates.[47]))));
  (*431*) Do (AddA v_sp_rates 9 (v_fwd_rates.[48] - v_rev_rates.[48]));
  (*433*) Do (SubA v_sp_rates 10 (v_fwd_rates.[48] - v_rev_rates.[48]));
  (*437*) Do (AddA v_sp_rates 16 (v_fwd_rates.[49] - v_rev_rates.[49]));
  (*439*) Do (SubA v_sp_rates 10 (v_fwd_rates.[49] - v_rev_rates.[49]));
  (*441*) Do (SubA v_sp_rates 2 (v_fwd_rates.[49] - v_rev_rates.[49]));
  (*443*) Do (AddA v_sp_rates 5 (v_fwd_rates.[49] - v_rev_rates.[49]));
  (*447*) Do (AddA v_sp_rates 1 (v_fwd_rates.[50] - v_rev_rates.[50]));
  (*449*) Do (SubA v_sp_rates 10 (v_fwd_rates.[50] - v_rev_rates.[50]));
  (*451*) Do (SubA v_sp_rates 2 (v_fwd_rates.[50] - v_rev_rates.[50]));
  (*453*) Do (AddA v_sp_rates 13 (v_fwd_rates.[50] - v_rev_rates.[50]));
  (*457*) Do (AddA v_sp_rates 1 (v_fwd_rates.[51] - v_rev_rates.[51]));
  (*459*) Do (SubA v_sp_rates 10 (v_fwd_rates.[51] - v_rev_rates.[51]));
  (*461*) Do (SubA v_sp_rates 3 (v_fwd_rates.[51] - v_rev_rates.[51]));
  (*463*) Do (AddA v_sp_rates 14 (v_fwd_rates.[51] - v_rev_rates.[51]));
  (*467*) Do (AddA v_sp_rates 1 (v_fwd_rates.[52] - v_rev_rates.[52]));
  (*469*) Do (SubA v_sp_rates 10 (v_fwd_rates.[52] - v_rev_rates.[52]));
  (*471*) Do (AddA v_sp_rates 11 (v_fwd_rates.[52] - v_rev_rates.[52]));
  (*473*) Do (SubA v_sp_rates 5 (v_fwd_rates.[52] - v_rev_rates.[52]));
  (*477*) Do (SubA v_sp_rates 8 (v_fwd_rates.[53] - v_rev_rates.[53]));
  (*479*) Do (AddA v_sp_rates 1 (v_fwd_rates.[53] - v_rev_rates.[53]));
  (*481*) Do (SubA v_sp_rates 10 (v_fwd_rates.[53] - v_rev_rates.[53]));
  (*483*) Do (AddA v_sp_rates 3 (v_fwd_rates.[53] - v_rev_rates.[53]));
  (*485*) Do (AddA v_sp_rates 16 (v_fwd_rates.[53] - v_rev_rates.[53]));
  (*489*) Do (SubA v_sp_rates 8 (v_fwd_rates.[54] - v_rev_rates.[54]));
  (*491*) Do (AddA v_sp_rates 16 (v_fwd_rates.[54] - v_rev_rates.[54]));
  (*493*) Do (SubA v_sp_rates 10 (v_fwd_rates.[54] - v_rev_rates.[54]));
  (*495*) Do (AddA v_sp_rates 6 (v_fwd_rates.[54] - v_rev_rates.[54]));
  (*499*) Do (AddA v_sp_rates 9 (v_fwd_rates.[55] - v_rev_rates.[55]));
  (*501*) Do (SubA v_sp_rates 10 (v_fwd_rates.[55] - v_rev_rates.[55]));
  (*505*) Do (AddA v_sp_rates 9 (v_fwd_rates.[56] - v_rev_rates.[56]));
  (*507*) Do (SubA v_sp_rates 10 (v_fwd_rates.[56] - v_rev_rates.[56]));
  (*511*) Do (SubA v_sp_rates 10 (v_fwd_rates.[57] - v_rev_rates.[57]));
  (*513*) Do (AddA v_sp_rates 9 (v_fwd_rates.[57] - v_rev_rates.[57]));
  (*517*) Do (AddA v_sp_rates 16 (v_fwd_rates.[58] - v_rev_rates.[58]));
  (*519*) Do (SubA v_sp_rates 17 (v_fwd_rates.[58] - v_rev_rates.[58]));
  (*521*) Do (SubA v_sp_rates 10 (v_fwd_rates.[58] - v_rev_rates.[58]));
  (*523*) Do (AddA v_sp_rates 14 (v_fwd_rates.[58] - v_rev_rates.[58]));
  (*527*) Do (SubA v_sp_rates 1 ((v_fwd_rates.[59] - v_rev_rates.[59]) * v_pres_mod.[11]));
  (*529*) Do (SubA v_sp_rates 14 ((v_fwd_rates.[59] - v_rev_rates.[59]) * v_pres_mod.[11]));
  (*531*) Do (Asn v_sp_rates 15 ((v_fwd_rates.[59] - v_rev_rates.[59]) * v_pres_mod.[11]));
  (*535*) Do (SubA v_sp_rates 1 (v_fwd_rates.[60] - v_rev_rates.[60]));
  (*537*) Do (AddA v_sp_rates 5 (v_fwd_rates.[60] - v_rev_rates.[60]));
  (*539*) Do (SubA v_sp_rates 14 (v_fwd_rates.[60] - v_rev_rates.[60]));
  (*541*) Do (AddA v_sp_rates 13 (v_fwd_rates.[60] - v_rev_rates.[60]));
  (*545*) Do (SubA v_sp_rates 2 (v_fwd_rates.[61] - v_rev_rates.[61]));
  (*547*) Do (AddA v_sp_rates 3 (v_fwd_rates.[61] - v_rev_rates.[61]));
  (*549*) Do (AddA v_sp_rates 13 (v_fwd_rates.[61] - v_rev_rates.[61]));
  (*551*) Do (SubA v_sp_rates 14 (v_fwd_rates.[61] - v_rev_rates.[61]));
  (*555*) Do (SubA v_sp_rates 3 (v_fwd_rates.[62] - v_rev_rates.[62]));
  (*557*) Do (AddA v_sp_rates 6 (v_fwd_rates.[62] - v_rev_rates.[62]));
  (*559*) Do (SubA v_sp_rates 14 (v_fwd_rates.[62] - v_rev_rates.[62]));
  (*561*) Do (AddA v_sp_rates 13 (v_fwd_rates.[62] - v_rev_rates.[62]));
  (*565*) Do (SubA v_sp_rates 8 (v_fwd_rates.[63] - v_rev_rates.[63]));
  (*567*) Do (AddA v_sp_rates 4 (v_fwd_rates.[63] - v_rev_rates.[63]));
  (*569*) Do (AddA v_sp_rates 13 (v_fwd_rates.[63] - v_rev_rates.[63]));
  (*571*) Do (SubA v_sp_rates 14 (v_fwd_rates.[63] - v_rev_rates.[63]));
  (*575*) Do (SubA v_sp_rates 4 (v_fwd_rates.[64] - v_rev_rates.[64]));
  (*577*) Do (AddA v_sp_rates 13 (v_fwd_rates.[64] - v_rev_rates.[64]));
  (*579*) Do (SubA v_sp_rates 14 (v_fwd_rates.[64] - v_rev_rates.[64]));
  (*581*) Do (AddA v_sp_rates 7 (v_fwd_rates.[64] - v_rev_rates.[64]));
  (*585*) Do (SubA v_sp_rates 1 ((v_fwd_rates.[65] - v_rev_rates.[65]) * v_pres_mod.[12]));
  (*587*) Do (SubA v_sp_rates 11 ((v_fwd_rates.[65] - v_rev_rates.[65]) * v_pres_mod.[12]));
  (*589*) Do (Asn v_sp_rates 12 ((v_fwd_rates.[65] - v_rev_rates.[65]) * v_pres_mod.[12]));
  (*593*) Do (AddA v_sp_rates 1 (v_fwd_rates.[66] - v_rev_rates.[66]));
  (*595*) Do (SubA v_sp_rates 2 (v_fwd_rates.[66] - v_rev_rates.[66]));
  (*597*) Do (SubA v_sp_rates 11 (v_fwd_rates.[66] - v_rev_rates.[66]));
  (*599*) Do (AddA v_sp_rates 14 (v_fwd_rates.[66] - v_rev_rates.[66]));
  (*603*) Do (SubA v_sp_rates 3 (v_fwd_rates.[67] - v_rev_rates.[67]));
  (*605*) Do (AddA v_sp_rates 9 (v_fwd_rates.[67] - v_rev_rates.[67]));
  (*607*) Do (SubA v_sp_rates 11 (v_fwd_rates.[67] - v_rev_rates.[67]));
  (*609*) Do (AddA v_sp_rates 6 (v_fwd_rates.[67] - v_rev_rates.[67]));
  (*613*) Do (SubA v_sp_rates 3 (v_fwd_rates.[68] - v_rev_rates.[68]));
  (*615*) Do (AddA v_sp_rates 10 (v_fwd_rates.[68] - v_rev_rates.[68]));
  (*617*) Do (SubA v_sp_rates 11 (v_fwd_rates.[68] - v_rev_rates.[68]));
  (*619*) Do (AddA v_sp_rates 6 (v_fwd_rates.[68] - v_rev_rates.[68]));
  (*623*) Do (SubA v_sp_rates 8 (v_fwd_rates.[69] - v_rev_rates.[69]));
  (*625*) Do (AddA v_sp_rates 2 (v_fwd_rates.[69] - v_rev_rates.[69]));
  (*627*) Do (SubA v_sp_rates 11 (v_fwd_rates.[69] - v_rev_rates.[69]));
  (*629*) Do (AddA v_sp_rates 15 (v_fwd_rates.[69] - v_rev_rates.[69]));
  (*633*) Do (SubA v_sp_rates 8 (v_fwd_rates.[70] - v_rev_rates.[70]));
  (*635*) Do (AddA v_sp_rates 3 (v_fwd_rates.[70] - v_rev_rates.[70]));
  (*637*) Do (SubA v_sp_rates 11 (v_fwd_rates.[70] - v_rev_rates.[70]));
  (*639*) Do (AddA v_sp_rates 14 (v_fwd_rates.[70] - v_rev_rates.[70]));
  (*643*) Do (AddA v_sp_rates 8 (v_fwd_rates.[71] - v_rev_rates.[71]));
  (*645*) Do (AddA v_sp_rates 12 (v_fwd_rates.[71] - v_rev_rates.[71]));
  (*647*) Do (SubA v_sp_rates 11 (v_fwd_rates.[71] - v_rev_rates.[71]));
  (*649*) Do (SubA v_sp_rates 4 (v_fwd_rates.[71] - v_rev_rates.[71]));
  (*653*) Do (AddA v_sp_rates 3 (v_fwd_rates.[72] - v_rev_rates.[72]));
  (*655*) Do (SubA v_sp_rates 11 (v_fwd_rates.[72] - v_rev_rates.[72]));
  (*657*) Do (SubA v_sp_rates 4 (v_fwd_rates.[72] - v_rev_rates.[72]));
  (*659*) Do (AddA v_sp_rates 15 (v_fwd_rates.[72] - v_rev_rates.[72]));
  (*663*) Do (AddA v_sp_rates 4 (v_fwd_rates.[73] - v_rev_rates.[73]));
  (*665*) Do (SubA v_sp_rates 11 (v_fwd_rates.[73] - v_rev_rates.[73]));
  (*667*) Do (AddA v_sp_rates 12 (v_fwd_rates.[73] - v_rev_rates.[73]));
  (*669*) Do (SubA v_sp_rates 7 (v_fwd_rates.[73] - v_rev_rates.[73]));
  (*673*) Do (AddA v_sp_rates 16 (v_fwd_rates.[74] - v_rev_rates.[74]));
  (*675*) Do (SubA v_sp_rates 11 (v_fwd_rates.[74] - v_rev_rates.[74]));
  (*677*) Do (AddA v_sp_rates 12 (v_fwd_rates.[74] - v_rev_rates.[74]));
  (*679*) Do (SubA v_sp_rates 13 (v_fwd_rates.[74] - v_rev_rates.[74]));
  (*683*) Do (SubA v_sp_rates 11 (v_fwd_rates.[75] - v_rev_rates.[75]));
  (*685*) Do (AddA v_sp_rates 12 (v_fwd_rates.[75] - v_rev_rates.[75]));
  (*687*) Do (AddA v_sp_rates 13 (v_fwd_rates.[75] - v_rev_rates.[75]));
  (*689*) Do (SubA v_sp_rates 14 (v_fwd_rates.[75] - v_rev_rates.[75]));
  (*693*) Do (SubA v_sp_rates 9 (v_fwd_rates.[76] - v_rev_rates.[76]));
  (*695*) Do (SubA v_sp_rates 11 (v_fwd_rates.[76] - v_rev_rates.[76]));
  (*697*) Do (Asn v_sp_rates 20 (v_fwd_rates.[76] - v_rev_rates.[76]));
  (*699*) Do (AddA v_sp_rates 1 (v_fwd_rates.[76] - v_rev_rates.[76]));
  (*703*) Do (AddA v_sp_rates 1 (v_fwd_rates.[77] - v_rev_rates.[77]));
  (*705*) Do (SubA v_sp_rates 10 (v_fwd_rates.[77] - v_rev_rates.[77]));
  (*707*) Do (SubA v_sp_rates 11 (v_fwd_rates.[77] - v_rev_rates.[77]));
  (*709*) Do (AddA v_sp_rates 20 (v_fwd_rates.[77] - v_rev_rates.[77]));
  (*713*) Do (SubA v_sp_rates 11 (#2.0 * (v_fwd_rates.[78] - v_rev_rates.[78]) * v_pres_mod.[13]));
  (*715*) Do (Asn v_sp_rates 22 ((v_fwd_rates.[78] - v_rev_rates.[78]) * v_pres_mod.[13]));
  (*719*) Do (AddA v_sp_rates 1 (v_fwd_rates.[79] - v_rev_rates.[79]));
  (*721*) Do (SubA v_sp_rates 11 (#2.0 * (v_fwd_rates.[79] - v_rev_rates.[79])));
  (*723*) Do (Asn v_sp_rates 21 (v_fwd_rates.[79] - v_rev_rates.[79]));
  (*727*) Do (SubA v_sp_rates 1 (v_fwd_rates.[80] - v_rev_rates.[80]));
  (*729*) Do (AddA v_sp_rates 5 (v_fwd_rates.[80] - v_rev_rates.[80]));
  (*731*) Do (AddA v_sp_rates 14 (v_fwd_rates.[80] - v_rev_rates.[80]));
  (*733*) Do (SubA v_sp_rates 15 (v_fwd_rates.[80] - v_rev_rates.[80]));
  (*737*) Do (AddA v_sp_rates 3 (v_fwd_rates.[81] - v_rev_rates.[81]));
  (*739*) Do (SubA v_sp_rates 1 (v_fwd_rates.[81] - v_rev_rates.[81]));
  (*741*) Do (AddA v_sp_rates 11 (v_fwd_rates.[81] - v_rev_rates.[81]));
  (*743*) Do (SubA v_sp_rates 15 (v_fwd_rates.[81] - v_rev_rates.[81]));
  (*747*) Do (SubA v_sp_rates 1 (v_fwd_rates.[82] - v_rev_rates.[82]));
  (*749*) Do (AddA v_sp_rates 10 (v_fwd_rates.[82] - v_rev_rates.[82]));
  (*751*) Do (AddA v_sp_rates 6 (v_fwd_rates.[82] - v_rev_rates.[82]));
  (*753*) Do (SubA v_sp_rates 15 (v_fwd_rates.[82] - v_rev_rates.[82]));
  (*757*) Do (SubA v_sp_rates 2 (v_fwd_rates.[83] - v_rev_rates.[83]));
  (*759*) Do (AddA v_sp_rates 3 (v_fwd_rates.[83] - v_rev_rates.[83]));
  (*761*) Do (AddA v_sp_rates 14 (v_fwd_rates.[83] - v_rev_rates.[83]));
  (*763*) Do (SubA v_sp_rates 15 (v_fwd_rates.[83] - v_rev_rates.[83]));
  (*767*) Do (SubA v_sp_rates 3 (v_fwd_rates.[84] - v_rev_rates.[84]));
  (*769*) Do (AddA v_sp_rates 6 (v_fwd_rates.[84] - v_rev_rates.[84]));
  (*771*) Do (AddA v_sp_rates 14 (v_fwd_rates.[84] - v_rev_rates.[84]));
  (*773*) Do (SubA v_sp_rates 15 (v_fwd_rates.[84] - v_rev_rates.[84]));
  (*777*) Do (SubA v_sp_rates 8 (v_fwd_rates.[85] - v_rev_rates.[85]));
  (*779*) Do (AddA v_sp_rates 4 (v_fwd_rates.[85] - v_rev_rates.[85]));
  (*781*) Do (AddA v_sp_rates 14 (v_fwd_rates.[85] - v_rev_rates.[85]));
  (*783*) Do (SubA v_sp_rates 15 (v_fwd_rates.[85] - v_rev_rates.[85]));
  (*787*) Do (SubA v_sp_rates 1 (v_fwd_rates.[86] - v_rev_rates.[86]));
  (*789*) Do (AddA v_sp_rates 11 (v_fwd_rates.[86] - v_rev_rates.[86]));
  (*791*) Do (SubA v_sp_rates 12 (v_fwd_rates.[86] - v_rev_rates.[86]));
  (*793*) Do (AddA v_sp_rates 5 (v_fwd_rates.[86] - v_rev_rates.[86]));
  (*797*) Do (AddA v_sp_rates 3 (v_fwd_rates.[87] - v_rev_rates.[87]));
  (*799*) Do (SubA v_sp_rates 2 (v_fwd_rates.[87] - v_rev_rates.[87]));
  (*801*) Do (AddA v_sp_rates 11 (v_fwd_rates.[87] - v_rev_rates.[87]));
  (*803*) Do (SubA v_sp_rates 12 (v_fwd_rates.[87] - v_rev_rates.[87]));
  (*807*) Do (AddA v_sp_rates 11 (v_fwd_rates.[88] - v_rev_rates.[88]));
  (*809*) Do (SubA v_sp_rates 3 (v_fwd_rates.[88] - v_rev_rates.[88]));
  (*811*) Do (SubA v_sp_rates 12 (v_fwd_rates.[88] - v_rev_rates.[88]));
  (*813*) Do (AddA v_sp_rates 6 (v_fwd_rates.[88] - v_rev_rates.[88]));
  (*817*) Do (SubA v_sp_rates 9 (v_fwd_rates.[89] - v_rev_rates.[89]));
  (*819*) Do (AddA v_sp_rates 11 (#2.0 * (v_fwd_rates.[89] - v_rev_rates.[89])));
  (*821*) Do (SubA v_sp_rates 12 (v_fwd_rates.[89] - v_rev_rates.[89]));
  (*825*) Do (SubA v_sp_rates 10 (v_fwd_rates.[90] - v_rev_rates.[90]));
  (*827*) Do (AddA v_sp_rates 11 (#2.0 * (v_fwd_rates.[90] - v_rev_rates.[90])));
  (*829*) Do (SubA v_sp_rates 12 (v_fwd_rates.[90] - v_rev_rates.[90]));
  (*833*) Do (AddA v_sp_rates 1 ((v_fwd_rates.[91] - v_rev_rates.[91]) * v_pres_mod.[14]));
  (*835*) Do (AddA v_sp_rates 18 ((v_fwd_rates.[91] - v_rev_rates.[91]) * v_pres_mod.[14]));
  (*837*) Do (Asn v_sp_rates 19 ((- (v_fwd_rates.[91] - v_rev_rates.[91])) * v_pres_mod.[14]));
  (*841*) Do (AddA v_sp_rates 16 (v_fwd_rates.[92] - v_rev_rates.[92]));
  (*843*) Do (AddA v_sp_rates 9 (v_fwd_rates.[92] - v_rev_rates.[92]));
  (*845*) Do (SubA v_sp_rates 18 (v_fwd_rates.[92] - v_rev_rates.[92]));
  (*847*) Do (SubA v_sp_rates 2 (v_fwd_rates.[92] - v_rev_rates.[92]));
  (*851*) Do (AddA v_sp_rates 11 (v_fwd_rates.[93] - v_rev_rates.[93]));
  (*853*) Do (AddA v_sp_rates 16 (v_fwd_rates.[93] - v_rev_rates.[93]));
  (*855*) Do (SubA v_sp_rates 18 (v_fwd_rates.[93] - v_rev_rates.[93]));
  (*857*) Do (SubA v_sp_rates 3 (v_fwd_rates.[93] - v_rev_rates.[93]));
  (*861*) Do (AddA v_sp_rates 16 (v_fwd_rates.[94] - v_rev_rates.[94]));
  (*863*) Do (SubA v_sp_rates 18 (v_fwd_rates.[94] - v_rev_rates.[94]));
  (*865*) Do (AddA v_sp_rates 19 (v_fwd_rates.[94] - v_rev_rates.[94]));
  (*867*) Do (SubA v_sp_rates 13 (v_fwd_rates.[94] - v_rev_rates.[94]));
  (*871*) Do (Asn v_sp_rates 24 (v_fwd_rates.[95] - v_rev_rates.[95]));
  (*873*) Do (SubA v_sp_rates 18 (v_fwd_rates.[95] - v_rev_rates.[95]));
  (*875*) Do (SubA v_sp_rates 11 (v_fwd_rates.[95] - v_rev_rates.[95]));
  (*879*) Do (SubA v_sp_rates 1 ((v_fwd_rates.[96] - v_rev_rates.[96]) * v_pres_mod.[15]));
  (*881*) Do (SubA v_sp_rates 19 ((v_fwd_rates.[96] - v_rev_rates.[96]) * v_pres_mod.[15]));
  (*883*) Do (AddA v_sp_rates 20 ((v_fwd_rates.[96] - v_rev_rates.[96]) * v_pres_mod.[15]));
  (*887*) Do (SubA v_sp_rates 1 (v_fwd_rates.[97] - v_rev_rates.[97]));
  (*889*) Do (AddA v_sp_rates 18 (v_fwd_rates.[97] - v_rev_rates.[97]));
  (*891*) Do (SubA v_sp_rates 19 (v_fwd_rates.[97] - v_rev_rates.[97]));
  (*893*) Do (AddA v_sp_rates 5 (v_fwd_rates.[97] - v_rev_rates.[97]));
  (*897*) Do (AddA v_sp_rates 11 (v_fwd_rates.[98] - v_rev_rates.[98]));
  (*899*) Do (AddA v_sp_rates 16 (v_fwd_rates.[98] - v_rev_rates.[98]));
  (*901*) Do (SubA v_sp_rates 2 (v_fwd_rates.[98] - v_rev_rates.[98]));
  (*903*) Do (SubA v_sp_rates 19 (v_fwd_rates.[98] - v_rev_rates.[98]));
  (*907*) Do (SubA v_sp_rates 3 (v_fwd_rates.[99] - v_rev_rates.[99]));
  (*909*) Do (AddA v_sp_rates 18 (v_fwd_rates.[99] - v_rev_rates.[99]));
  (*911*) Do (SubA v_sp_rates 19 (v_fwd_rates.[99] - v_rev_rates.[99]));
  (*913*) Do (AddA v_sp_rates 6 (v_fwd_rates.[99] - v_rev_rates.[99]));
  (*917*) Do (SubA v_sp_rates 8 (v_fwd_rates.[100] - v_rev_rates.[100]));
  (*919*) Do (AddA v_sp_rates 18 (v_fwd_rates.[100] - v_rev_rates.[100]));
  (*921*) Do (SubA v_sp_rates 19 (v_fwd_rates.[100] - v_rev_rates.[100]));
  (*923*) Do (AddA v_sp_rates 4 (v_fwd_rates.[100] - v_rev_rates.[100]));
  (*927*) Do (SubA v_sp_rates 8 (v_fwd_rates.[101] - v_rev_rates.[101]));
  (*929*) Do (AddA v_sp_rates 2 (v_fwd_rates.[101] - v_rev_rates.[101]));
  (*931*) Do (SubA v_sp_rates 19 (v_fwd_rates.[101] - v_rev_rates.[101]));
  (*933*) Do (Asn v_sp_rates 23 (v_fwd_rates.[101] - v_rev_rates.[101]));
  (*937*) Do (SubA v_sp_rates 8 (v_fwd_rates.[102] - v_rev_rates.[102]));
  (*939*) Do (SubA v_sp_rates 19 (v_fwd_rates.[102] - v_rev_rates.[102]));
  (*941*) Do (AddA v_sp_rates 13 (v_fwd_rates.[102] - v_rev_rates.[102]));
  (*943*) Do (AddA v_sp_rates 14 (v_fwd_rates.[102] - v_rev_rates.[102]));
  (*947*) Do (AddA v_sp_rates 3 (v_fwd_rates.[103] - v_rev_rates.[103]));
  (*949*) Do (SubA v_sp_rates 19 (v_fwd_rates.[103] - v_rev_rates.[103]));
  (*951*) Do (SubA v_sp_rates 4 (v_fwd_rates.[103] - v_rev_rates.[103]));
  (*953*) Do (AddA v_sp_rates 23 (v_fwd_rates.[103] - v_rev_rates.[103]));
  (*957*) Do (AddA v_sp_rates 4 (v_fwd_rates.[104] - v_rev_rates.[104]));
  (*959*) Do (SubA v_sp_rates 19 (v_fwd_rates.[104] - v_rev_rates.[104]));
  (*961*) Do (AddA v_sp_rates 20 (v_fwd_rates.[104] - v_rev_rates.[104]));
  (*963*) Do (SubA v_sp_rates 7 (v_fwd_rates.[104] - v_rev_rates.[104]));
  (*967*) Do (AddA v_sp_rates 16 (v_fwd_rates.[105] - v_rev_rates.[105]));
  (*969*) Do (SubA v_sp_rates 19 (v_fwd_rates.[105] - v_rev_rates.[105]));
  (*971*) Do (AddA v_sp_rates 20 (v_fwd_rates.[105] - v_rev_rates.[105]));
  (*973*) Do (SubA v_sp_rates 13 (v_fwd_rates.[105] - v_rev_rates.[105]));
  (*977*) Do (Asn v_sp_rates 27 (v_fwd_rates.[106] - v_rev_rates.[106]));
  (*979*) Do (SubA v_sp_rates 19 (v_fwd_rates.[106] - v_rev_rates.[106]));
  (*981*) Do (SubA v_sp_rates 13 (v_fwd_rates.[106] - v_rev_rates.[106]));
  (*985*) Do (SubA v_sp_rates 19 (v_fwd_rates.[107] - v_rev_rates.[107]));
  (*987*) Do (AddA v_sp_rates 18 (v_fwd_rates.[107] - v_rev_rates.[107]));
  (*989*) Do (SubA v_sp_rates 11 (v_fwd_rates.[107] - v_rev_rates.[107]));
  (*991*) Do (AddA v_sp_rates 12 (v_fwd_rates.[107] - v_rev_rates.[107]));
  (*995*) Do (SubA v_sp_rates 19 ((v_fwd_rates.[108] - v_rev_rates.[108]) * v_pres_mod.[16]));
  (*997*) Do (Asn v_sp_rates 25 ((v_fwd_rates.[108] - v_rev_rates.[108]) * v_pres_mod.[16]));
  (*999*) Do (SubA v_sp_rates 11 ((v_fwd_rates.[108] - v_rev_rates.[108]) * v_pres_mod.[16]));
  (*1003*) Do (SubA v_sp_rates 19 (v_fwd_rates.[109] - v_rev_rates.[109]));
  (*1005*) Do (AddA v_sp_rates 1 (v_fwd_rates.[109] - v_rev_rates.[109]));
  (*1007*) Do (SubA v_sp_rates 11 (v_fwd_rates.[109] - v_rev_rates.[109]));
  (*1009*) Do (AddA v_sp_rates 24 (v_fwd_rates.[109] - v_rev_rates.[109]));
  (*1013*) Do (AddA v_sp_rates 18 (v_fwd_rates.[110] - v_rev_rates.[110]));
  (*1015*) Do (SubA v_sp_rates 19 (#2.0 * (v_fwd_rates.[110] - v_rev_rates.[110])));
  (*1017*) Do (AddA v_sp_rates 20 (v_fwd_rates.[110] - v_rev_rates.[110]));
  (*1021*) Do (AddA v_sp_rates 16 (v_fwd_rates.[111] - v_rev_rates.[111]));
  (*1023*) Do (AddA v_sp_rates 11 (v_fwd_rates.[111] - v_rev_rates.[111]));
  (*1025*) Do (SubA v_sp_rates 23 (v_fwd_rates.[111] - v_rev_rates.[111]));
  (*1029*) Do (SubA v_sp_rates 1 (v_fwd_rates.[112] - v_rev_rates.[112]));
  (*1031*) Do (AddA v_sp_rates 11 (v_fwd_rates.[112] - v_rev_rates.[112]));
  (*1033*) Do (AddA v_sp_rates 13 (v_fwd_rates.[112] - v_rev_rates.[112]));
  (*1035*) Do (SubA v_sp_rates 23 (v_fwd_rates.[112] - v_rev_rates.[112]));
  (*1039*) Do (SubA v_sp_rates 8 (v_fwd_rates.[113] - v_rev_rates.[113]));
  (*1041*) Do (AddA v_sp_rates 16 (v_fwd_rates.[113] - v_rev_rates.[113]));
  (*1043*) Do (AddA v_sp_rates 3 (v_fwd_rates.[113] - v_rev_rates.[113]));
  (*1045*) Do (AddA v_sp_rates 14 (v_fwd_rates.[113] - v_rev_rates.[113]));
  (*1047*) Do (SubA v_sp_rates 23 (v_fwd_rates.[113] - v_rev_rates.[113]));
  (*1051*) Do (SubA v_sp_rates 1 ((v_fwd_rates.[114] - v_rev_rates.[114]) * v_pres_mod.[17]));
  (*1053*) Do (SubA v_sp_rates 20 ((v_fwd_rates.[114] - v_rev_rates.[114]) * v_pres_mod.[17]));
  (*1055*) Do (AddA v_sp_rates 21 ((v_fwd_rates.[114] - v_rev_rates.[114]) * v_pres_mod.[17]));
  (*1059*) Do (SubA v_sp_rates 1 (v_fwd_rates.[115] - v_rev_rates.[115]));
  (*1061*) Do (AddA v_sp_rates 19 (v_fwd_rates.[115] - v_rev_rates.[115]));
  (*1063*) Do (SubA v_sp_rates 20 (v_fwd_rates.[115] - v_rev_rates.[115]));
  (*1065*) Do (AddA v_sp_rates 5 (v_fwd_rates.[115] - v_rev_rates.[115]));
  (*1069*) Do (AddA v_sp_rates 3 (v_fwd_rates.[116] - v_rev_rates.[116]));
  (*1071*) Do (SubA v_sp_rates 2 (v_fwd_rates.[116] - v_rev_rates.[116]));
  (*1073*) Do (AddA v_sp_rates 19 (v_fwd_rates.[116] - v_rev_rates.[116]));
  (*1075*) Do (SubA v_sp_rates 20 (v_fwd_rates.[116] - v_rev_rates.[116]));
  (*1079*) Do (SubA v_sp_rates 2 (v_fwd_rates.[117] - v_rev_rates.[117]));
  (*1081*) Do (AddA v_sp_rates 11 (v_fwd_rates.[117] - v_rev_rates.[117]));
  (*1083*) Do (SubA v_sp_rates 20 (v_fwd_rates.[117] - v_rev_rates.[117]));
  (*1085*) Do (AddA v_sp_rates 13 (v_fwd_rates.[117] - v_rev_rates.[117]));
  (*1089*) Do (AddA v_sp_rates 9 (v_fwd_rates.[118] - v_rev_rates.[118]));
  (*1091*) Do (SubA v_sp_rates 2 (v_fwd_rates.[118] - v_rev_rates.[118]));
  (*1093*) Do (SubA v_sp_rates 20 (v_fwd_rates.[118] - v_rev_rates.[118]));
  (*1095*) Do (AddA v_sp_rates 14 (v_fwd_rates.[118] - v_rev_rates.[118]));
  (*1099*) Do (AddA v_sp_rates 19 (v_fwd_rates.[119] - v_rev_rates.[119]));
  (*1101*) Do (SubA v_sp_rates 3 (v_fwd_rates.[119] - v_rev_rates.[119]));
  (*1103*) Do (SubA v_sp_rates 20 (v_fwd_rates.[119] - v_rev_rates.[119]));
  (*1105*) Do (AddA v_sp_rates 6 (v_fwd_rates.[119] - v_rev_rates.[119]));
  (*1109*) Do (AddA v_sp_rates 16 (v_fwd_rates.[120] - v_rev_rates.[120]));
  (*1111*) Do (SubA v_sp_rates 20 (v_fwd_rates.[120] - v_rev_rates.[120]));
  (*1113*) Do (SubA v_sp_rates 13 (v_fwd_rates.[120] - v_rev_rates.[120]));
  (*1115*) Do (AddA v_sp_rates 21 (v_fwd_rates.[120] - v_rev_rates.[120]));
  (*1119*) Do (AddA v_sp_rates 24 (v_fwd_rates.[121] - v_rev_rates.[121]));
  (*1121*) Do (SubA v_sp_rates 9 (v_fwd_rates.[121] - v_rev_rates.[121]));
  (*1123*) Do (SubA v_sp_rates 20 (v_fwd_rates.[121] - v_rev_rates.[121]));
  (*1125*) Do (AddA v_sp_rates 1 (v_fwd_rates.[121] - v_rev_rates.[121]));
  (*1129*) Do (AddA v_sp_rates 24 (v_fwd_rates.[122] - v_rev_rates.[122]));
  (*1131*) Do (AddA v_sp_rates 1 (v_fwd_rates.[122] - v_rev_rates.[122]));
  (*1133*) Do (SubA v_sp_rates 10 (v_fwd_rates.[122] - v_rev_rates.[122]));
  (*1135*) Do (SubA v_sp_rates 20 (v_fwd_rates.[122] - v_rev_rates.[122]));
  (*1139*) Do (AddA v_sp_rates 19 (v_fwd_rates.[123] - v_rev_rates.[123]));
  (*1141*) Do (AddA v_sp_rates 12 (v_fwd_rates.[123] - v_rev_rates.[123]));
  (*1143*) Do (SubA v_sp_rates 11 (v_fwd_rates.[123] - v_rev_rates.[123]));
  (*1145*) Do (SubA v_sp_rates 20 (v_fwd_rates.[123] - v_rev_rates.[123]));
  (*1149*) Do (Asn v_sp_rates 26 ((- (v_fwd_rates.[124] - v_rev_rates.[124]))));
  (*1151*) Do (AddA v_sp_rates 11 (v_fwd_rates.[124] - v_rev_rates.[124]));
  (*1153*) Do (AddA v_sp_rates 20 (v_fwd_rates.[124] - v_rev_rates.[124]));
  (*1157*) Do (SubA v_sp_rates 8 (v_fwd_rates.[125] - v_rev_rates.[125]));
  (*1159*) Do (AddA v_sp_rates 4 (v_fwd_rates.[125] - v_rev_rates.[125]));
  (*1161*) Do (AddA v_sp_rates 19 (v_fwd_rates.[125] - v_rev_rates.[125]));
  (*1163*) Do (SubA v_sp_rates 20 (v_fwd_rates.[125] - v_rev_rates.[125]));
  (*1167*) Do (Asn v_sp_rates 28 (v_fwd_rates.[126] - v_rev_rates.[126]));
  (*1169*) Do (SubA v_sp_rates 19 (v_fwd_rates.[126] - v_rev_rates.[126]));
  (*1171*) Do (SubA v_sp_rates 20 (v_fwd_rates.[126] - v_rev_rates.[126]));
  (*1175*) Do (SubA v_sp_rates 1 ((v_fwd_rates.[127] - v_rev_rates.[127]) * v_pres_mod.[18]));
  (*1177*) Do (SubA v_sp_rates 21 ((v_fwd_rates.[127] - v_rev_rates.[127]) * v_pres_mod.[18]));
  (*1179*) Do (AddA v_sp_rates 22 ((v_fwd_rates.[127] - v_rev_rates.[127]) * v_pres_mod.[18]));
  (*1183*) Do (SubA v_sp_rates 1 (v_fwd_rates.[128] - v_rev_rates.[128]));
  (*1185*) Do (AddA v_sp_rates 20 (v_fwd_rates.[128] - v_rev_rates.[128]));
  (*1187*) Do (SubA v_sp_rates 21 (v_fwd_rates.[128] - v_rev_rates.[128]));
  (*1189*) Do (AddA v_sp_rates 5 (v_fwd_rates.[128] - v_rev_rates.[128]));
  (*1193*) Do (SubA v_sp_rates 2 (v_fwd_rates.[129] - v_rev_rates.[129]));
  (*1195*) Do (AddA v_sp_rates 11 (v_fwd_rates.[129] - v_rev_rates.[129]));
  (*1197*) Do (SubA v_sp_rates 21 (v_fwd_rates.[129] - v_rev_rates.[129]));
  (*1199*) Do (AddA v_sp_rates 14 (v_fwd_rates.[129] - v_rev_rates.[129]));
  (*1203*) Do (SubA v_sp_rates 8 (v_fwd_rates.[130] - v_rev_rates.[130]));
  (*1205*) Do (AddA v_sp_rates 4 (v_fwd_rates.[130] - v_rev_rates.[130]));
  (*1207*) Do (AddA v_sp_rates 20 (v_fwd_rates.[130] - v_rev_rates.[130]));
  (*1209*) Do (SubA v_sp_rates 21 (v_fwd_rates.[130] - v_rev_rates.[130]));
  (*1213*) Do (AddA v_sp_rates 8 (v_fwd_rates.[131] - v_rev_rates.[131]));
  (*1215*) Do (SubA v_sp_rates 4 (v_fwd_rates.[131] - v_rev_rates.[131]));
  (*1217*) Do (SubA v_sp_rates 21 (v_fwd_rates.[131] - v_rev_rates.[131]));
  (*1219*) Do (AddA v_sp_rates 22 (v_fwd_rates.[131] - v_rev_rates.[131]));
  (*1223*) Do (AddA v_sp_rates 20 (v_fwd_rates.[132] - v_rev_rates.[132]));
  (*1225*) Do (SubA v_sp_rates 4 (v_fwd_rates.[132] - v_rev_rates.[132]));
  (*1227*) Do (SubA v_sp_rates 21 (v_fwd_rates.[132] - v_rev_rates.[132]));
  (*1229*) Do (AddA v_sp_rates 7 (v_fwd_rates.[132] - v_rev_rates.[132]));
  (*1233*) Do (AddA v_sp_rates 3 (v_fwd_rates.[133] - v_rev_rates.[133]));
  (*1235*) Do (AddA v_sp_rates 11 (v_fwd_rates.[133] - v_rev_rates.[133]));
  (*1237*) Do (SubA v_sp_rates 4 (v_fwd_rates.[133] - v_rev_rates.[133]));
  (*1239*) Do (SubA v_sp_rates 21 (v_fwd_rates.[133] - v_rev_rates.[133]));
  (*1241*) Do (AddA v_sp_rates 14 (v_fwd_rates.[133] - v_rev_rates.[133]));
  (*1245*) Do (AddA v_sp_rates 4 (v_fwd_rates.[134] - v_rev_rates.[134]));
  (*1247*) Do (SubA v_sp_rates 21 (v_fwd_rates.[134] - v_rev_rates.[134]));
  (*1249*) Do (AddA v_sp_rates 22 (v_fwd_rates.[134] - v_rev_rates.[134]));
  (*1251*) Do (SubA v_sp_rates 7 (v_fwd_rates.[134] - v_rev_rates.[134]));
  (*1255*) Do (SubA v_sp_rates 19 ((v_fwd_rates.[135] - v_rev_rates.[135]) * v_pres_mod.[19]));
  (*1257*) Do (SubA v_sp_rates 21 ((v_fwd_rates.[135] - v_rev_rates.[135]) * v_pres_mod.[19]));
  (*1259*) Do (Asn v_sp_rates 29 ((v_fwd_rates.[135] - v_rev_rates.[135]) * v_pres_mod.[19]));
  (*1263*) Do (AddA v_sp_rates 11 (v_fwd_rates.[136] - v_rev_rates.[136]));
  (*1265*) Do (AddA v_sp_rates 24 (v_fwd_rates.[136] - v_rev_rates.[136]));
  (*1267*) Do (SubA v_sp_rates 19 (v_fwd_rates.[136] - v_rev_rates.[136]));
  (*1269*) Do (SubA v_sp_rates 21 (v_fwd_rates.[136] - v_rev_rates.[136]));
  (*1273*) Do (SubA v_sp_rates 1 (v_fwd_rates.[137] - v_rev_rates.[137]));
  (*1275*) Do (AddA v_sp_rates 5 (v_fwd_rates.[137] - v_rev_rates.[137]));
  (*1277*) Do (SubA v_sp_rates 22 (v_fwd_rates.[137] - v_rev_rates.[137]));
  (*1279*) Do (AddA v_sp_rates 21 (v_fwd_rates.[137] - v_rev_rates.[137]));
  (*1283*) Do (SubA v_sp_rates 2 (v_fwd_rates.[138] - v_rev_rates.[138]));
  (*1285*) Do (AddA v_sp_rates 3 (v_fwd_rates.[138] - v_rev_rates.[138]));
  (*1287*) Do (AddA v_sp_rates 21 (v_fwd_rates.[138] - v_rev_rates.[138]));
  (*1289*) Do (SubA v_sp_rates 22 (v_fwd_rates.[138] - v_rev_rates.[138]));
  (*1293*) Do (AddA v_sp_rates 6 (v_fwd_rates.[139] - v_rev_rates.[139]));
  (*1295*) Do (SubA v_sp_rates 3 (v_fwd_rates.[139] - v_rev_rates.[139]));
  (*1297*) Do (AddA v_sp_rates 21 (v_fwd_rates.[139] - v_rev_rates.[139]));
  (*1299*) Do (SubA v_sp_rates 22 (v_fwd_rates.[139] - v_rev_rates.[139]));
  (*1303*) Do (SubA v_sp_rates 10 (v_fwd_rates.[140] - v_rev_rates.[140]));
  (*1305*) Do (AddA v_sp_rates 11 (v_fwd_rates.[140] - v_rev_rates.[140]));
  (*1307*) Do (AddA v_sp_rates 21 (v_fwd_rates.[140] - v_rev_rates.[140]));
  (*1309*) Do (SubA v_sp_rates 22 (v_fwd_rates.[140] - v_rev_rates.[140]));
  (*1313*) Do (SubA v_sp_rates 11 (v_fwd_rates.[141] - v_rev_rates.[141]));
  (*1315*) Do (AddA v_sp_rates 12 (v_fwd_rates.[141] - v_rev_rates.[141]));
  (*1317*) Do (AddA v_sp_rates 21 (v_fwd_rates.[141] - v_rev_rates.[141]));
  (*1319*) Do (SubA v_sp_rates 22 (v_fwd_rates.[141] - v_rev_rates.[141]));
  (*1323*) Do (SubA v_sp_rates 24 ((v_fwd_rates.[142] - v_rev_rates.[142]) * v_pres_mod.[20]));
  (*1325*) Do (SubA v_sp_rates 1 ((v_fwd_rates.[142] - v_rev_rates.[142]) * v_pres_mod.[20]));
  (*1327*) Do (AddA v_sp_rates 25 ((v_fwd_rates.[142] - v_rev_rates.[142]) * v_pres_mod.[20]));
  (*1331*) Do (SubA v_sp_rates 24 (v_fwd_rates.[143] - v_rev_rates.[143]));
  (*1333*) Do (AddA v_sp_rates 1 (v_fwd_rates.[143] - v_rev_rates.[143]));
  (*1335*) Do (SubA v_sp_rates 2 (v_fwd_rates.[143] - v_rev_rates.[143]));
  (*1337*) Do (AddA v_sp_rates 27 (v_fwd_rates.[143] - v_rev_rates.[143]));
  (*1341*) Do (SubA v_sp_rates 24 (v_fwd_rates.[144] - v_rev_rates.[144]));
  (*1343*) Do (AddA v_sp_rates 1 (#2.0 * (v_fwd_rates.[144] - v_rev_rates.[144])));
  (*1345*) Do (SubA v_sp_rates 3 (v_fwd_rates.[144] - v_rev_rates.[144]));
  (*1347*) Do (AddA v_sp_rates 27 (v_fwd_rates.[144] - v_rev_rates.[144]));
  (*1351*) Do (SubA v_sp_rates 24 (v_fwd_rates.[145] - v_rev_rates.[145]));
  (*1353*) Do (SubA v_sp_rates 8 (v_fwd_rates.[145] - v_rev_rates.[145]));
  (*1355*) Do (AddA v_sp_rates 27 (v_fwd_rates.[145] - v_rev_rates.[145]));
  (*1357*) Do (AddA v_sp_rates 3 (v_fwd_rates.[145] - v_rev_rates.[145]));
  (*1361*) Do (SubA v_sp_rates 24 (v_fwd_rates.[146] - v_rev_rates.[146]));
  (*1363*) Do (AddA v_sp_rates 25 (v_fwd_rates.[146] - v_rev_rates.[146]));
  (*1365*) Do (SubA v_sp_rates 4 (v_fwd_rates.[146] - v_rev_rates.[146]));
  (*1367*) Do (AddA v_sp_rates 8 (v_fwd_rates.[146] - v_rev_rates.[146]));
  (*1371*) Do (SubA v_sp_rates 24 (v_fwd_rates.[147] - v_rev_rates.[147]));
  (*1373*) Do (AddA v_sp_rates 3 (v_fwd_rates.[147] - v_rev_rates.[147]));
  (*1375*) Do (AddA v_sp_rates 19 (v_fwd_rates.[147] - v_rev_rates.[147]));
  (*1377*) Do (SubA v_sp_rates 4 (v_fwd_rates.[147] - v_rev_rates.[147]));
  (*1379*) Do (AddA v_sp_rates 14 (v_fwd_rates.[147] - v_rev_rates.[147]));
  (*1383*) Do (SubA v_sp_rates 24 (v_fwd_rates.[148] - v_rev_rates.[148]));
  (*1385*) Do (AddA v_sp_rates 25 (v_fwd_rates.[148] - v_rev_rates.[148]));
  (*1387*) Do (SubA v_sp_rates 13 (v_fwd_rates.[148] - v_rev_rates.[148]));
  (*1389*) Do (AddA v_sp_rates 16 (v_fwd_rates.[148] - v_rev_rates.[148]));
  (*1393*) Do (SubA v_sp_rates 24 ((v_fwd_rates.[149] - v_rev_rates.[149]) * v_pres_mod.[21]));
  (*1395*) Do (SubA v_sp_rates 11 ((v_fwd_rates.[149] - v_rev_rates.[149]) * v_pres_mod.[21]));
  (*1397*) Do (AddA v_sp_rates 29 ((v_fwd_rates.[149] - v_rev_rates.[149]) * v_pres_mod.[21]));
  (*1401*) Do (SubA v_sp_rates 25 ((v_fwd_rates.[150] - v_rev_rates.[150]) * v_pres_mod.[22]));
  (*1403*) Do (AddA v_sp_rates 26 ((v_fwd_rates.[150] - v_rev_rates.[150]) * v_pres_mod.[22]));
  (*1405*) Do (SubA v_sp_rates 1 ((v_fwd_rates.[150] - v_rev_rates.[150]) * v_pres_mod.[22]));
  (*1409*) Do (SubA v_sp_rates 25 (v_fwd_rates.[151] - v_rev_rates.[151]));
  (*1411*) Do (AddA v_sp_rates 11 (v_fwd_rates.[151] - v_rev_rates.[151]));
  (*1413*) Do (AddA v_sp_rates 20 (v_fwd_rates.[151] - v_rev_rates.[151]));
  (*1415*) Do (SubA v_sp_rates 1 (v_fwd_rates.[151] - v_rev_rates.[151]));
  (*1419*) Do (AddA v_sp_rates 24 (v_fwd_rates.[152] - v_rev_rates.[152]));
  (*1421*) Do (SubA v_sp_rates 25 (v_fwd_rates.[152] - v_rev_rates.[152]));
  (*1423*) Do (AddA v_sp_rates 5 (v_fwd_rates.[152] - v_rev_rates.[152]));
  (*1425*) Do (SubA v_sp_rates 1 (v_fwd_rates.[152] - v_rev_rates.[152]));
  (*1429*) Do (SubA v_sp_rates 25 (v_fwd_rates.[153] - v_rev_rates.[153]));
  (*1431*) Do (SubA v_sp_rates 2 (v_fwd_rates.[153] - v_rev_rates.[153]));
  (*1433*) Do (AddA v_sp_rates 27 (v_fwd_rates.[153] - v_rev_rates.[153]));
  (*1435*) Do (AddA v_sp_rates 1 (#2.0 * (v_fwd_rates.[153] - v_rev_rates.[153])));
  (*1439*) Do (SubA v_sp_rates 25 (v_fwd_rates.[154] - v_rev_rates.[154]));
  (*1441*) Do (SubA v_sp_rates 2 (v_fwd_rates.[154] - v_rev_rates.[154]));
  (*1443*) Do (AddA v_sp_rates 21 (v_fwd_rates.[154] - v_rev_rates.[154]));
  (*1445*) Do (AddA v_sp_rates 13 (v_fwd_rates.[154] - v_rev_rates.[154]));
  (*1449*) Do (AddA v_sp_rates 24 (v_fwd_rates.[155] - v_rev_rates.[155]));
  (*1451*) Do (SubA v_sp_rates 25 (v_fwd_rates.[155] - v_rev_rates.[155]));
  (*1453*) Do (SubA v_sp_rates 2 (v_fwd_rates.[155] - v_rev_rates.[155]));
  (*1455*) Do (AddA v_sp_rates 3 (v_fwd_rates.[155] - v_rev_rates.[155]));
  (*1459*) Do (AddA v_sp_rates 24 (v_fwd_rates.[156] - v_rev_rates.[156]));
  (*1461*) Do (SubA v_sp_rates 25 (v_fwd_rates.[156] - v_rev_rates.[156]));
  (*1463*) Do (SubA v_sp_rates 3 (v_fwd_rates.[156] - v_rev_rates.[156]));
  (*1465*) Do (AddA v_sp_rates 6 (v_fwd_rates.[156] - v_rev_rates.[156]));
  (*1469*) Do (AddA v_sp_rates 24 (v_fwd_rates.[157] - v_rev_rates.[157]));
  (*1471*) Do (SubA v_sp_rates 25 (v_fwd_rates.[157] - v_rev_rates.[157]));
  (*1473*) Do (SubA v_sp_rates 4 (v_fwd_rates.[157] - v_rev_rates.[157]));
  (*1475*) Do (AddA v_sp_rates 7 (v_fwd_rates.[157] - v_rev_rates.[157]));
  (*1479*) Do (AddA v_sp_rates 24 (v_fwd_rates.[158] - v_rev_rates.[158]));
  (*1481*) Do (SubA v_sp_rates 25 (v_fwd_rates.[158] - v_rev_rates.[158]));
  (*1483*) Do (SubA v_sp_rates 11 (v_fwd_rates.[158] - v_rev_rates.[158]));
  (*1485*) Do (AddA v_sp_rates 12 (v_fwd_rates.[158] - v_rev_rates.[158]));
  (*1489*) Do (SubA v_sp_rates 1 (v_fwd_rates.[159] - v_rev_rates.[159]));
  (*1491*) Do (SubA v_sp_rates 27 (v_fwd_rates.[159] - v_rev_rates.[159]));
  (*1493*) Do (AddA v_sp_rates 20 (v_fwd_rates.[159] - v_rev_rates.[159]));
  (*1495*) Do (AddA v_sp_rates 13 (v_fwd_rates.[159] - v_rev_rates.[159]));
  (*1499*) Do (AddA v_sp_rates 19 (v_fwd_rates.[160] - v_rev_rates.[160]));
  (*1501*) Do (AddA v_sp_rates 16 (v_fwd_rates.[160] - v_rev_rates.[160]));
  (*1503*) Do (SubA v_sp_rates 2 (v_fwd_rates.[160] - v_rev_rates.[160]));
  (*1505*) Do (SubA v_sp_rates 27 (v_fwd_rates.[160] - v_rev_rates.[160]));
  (*1507*) Do (AddA v_sp_rates 3 (v_fwd_rates.[160] - v_rev_rates.[160]));
  (*1511*) Do (SubA v_sp_rates 3 (v_fwd_rates.[161] - v_rev_rates.[161]));
  (*1513*) Do (AddA v_sp_rates 19 (v_fwd_rates.[161] - v_rev_rates.[161]));
  (*1515*) Do (SubA v_sp_rates 27 (v_fwd_rates.[161] - v_rev_rates.[161]));
  (*1517*) Do (AddA v_sp_rates 6 (v_fwd_rates.[161] - v_rev_rates.[161]));
  (*1519*) Do (AddA v_sp_rates 16 (v_fwd_rates.[161] - v_rev_rates.[161]));
  (*1523*) Do (SubA v_sp_rates 1 (v_fwd_rates.[162] - v_rev_rates.[162]));
  (*1525*) Do (SubA v_sp_rates 26 (v_fwd_rates.[162] - v_rev_rates.[162]));
  (*1527*) Do (AddA v_sp_rates 11 (v_fwd_rates.[162] - v_rev_rates.[162]));
  (*1529*) Do (AddA v_sp_rates 21 (v_fwd_rates.[162] - v_rev_rates.[162]));
  (*1533*) Do (SubA v_sp_rates 1 (v_fwd_rates.[163] - v_rev_rates.[163]));
  (*1535*) Do (SubA v_sp_rates 26 (v_fwd_rates.[163] - v_rev_rates.[163]));
  (*1537*) Do (AddA v_sp_rates 5 (v_fwd_rates.[163] - v_rev_rates.[163]));
  (*1539*) Do (AddA v_sp_rates 25 (v_fwd_rates.[163] - v_rev_rates.[163]));
  (*1543*) Do (SubA v_sp_rates 26 (v_fwd_rates.[164] - v_rev_rates.[164]));
  (*1545*) Do (SubA v_sp_rates 2 (v_fwd_rates.[164] - v_rev_rates.[164]));
  (*1547*) Do (AddA v_sp_rates 14 (v_fwd_rates.[164] - v_rev_rates.[164]));
  (*1549*) Do (AddA v_sp_rates 21 (v_fwd_rates.[164] - v_rev_rates.[164]));
  (*1553*) Do (AddA v_sp_rates 25 (v_fwd_rates.[165] - v_rev_rates.[165]));
  (*1555*) Do (SubA v_sp_rates 26 (v_fwd_rates.[165] - v_rev_rates.[165]));
  (*1557*) Do (SubA v_sp_rates 3 (v_fwd_rates.[165] - v_rev_rates.[165]));
  (*1559*) Do (AddA v_sp_rates 6 (v_fwd_rates.[165] - v_rev_rates.[165]));
  (*1563*) Do (SubA v_sp_rates 8 (v_fwd_rates.[166] - v_rev_rates.[166]));
  (*1565*) Do (AddA v_sp_rates 25 (v_fwd_rates.[166] - v_rev_rates.[166]));
  (*1567*) Do (SubA v_sp_rates 26 (v_fwd_rates.[166] - v_rev_rates.[166]));
  (*1569*) Do (AddA v_sp_rates 4 (v_fwd_rates.[166] - v_rev_rates.[166]));
  (*1573*) Do (SubA v_sp_rates 26 (v_fwd_rates.[167] - v_rev_rates.[167]));
  (*1575*) Do (AddA v_sp_rates 3 (v_fwd_rates.[167] - v_rev_rates.[167]));
  (*1577*) Do (SubA v_sp_rates 4 (v_fwd_rates.[167] - v_rev_rates.[167]));
  (*1579*) Do (AddA v_sp_rates 21 (v_fwd_rates.[167] - v_rev_rates.[167]));
  (*1581*) Do (AddA v_sp_rates 14 (v_fwd_rates.[167] - v_rev_rates.[167]));
  (*1585*) Do (AddA v_sp_rates 25 (v_fwd_rates.[168] - v_rev_rates.[168]));
  (*1587*) Do (SubA v_sp_rates 26 (v_fwd_rates.[168] - v_rev_rates.[168]));
  (*1589*) Do (SubA v_sp_rates 11 (v_fwd_rates.[168] - v_rev_rates.[168]));
  (*1591*) Do (AddA v_sp_rates 12 (v_fwd_rates.[168] - v_rev_rates.[168]));
  (*1595*) Do (SubA v_sp_rates 1 ((v_fwd_rates.[169] - v_rev_rates.[169]) * v_pres_mod.[23]));
  (*1597*) Do (SubA v_sp_rates 28 ((v_fwd_rates.[169] - v_rev_rates.[169]) * v_pres_mod.[23]));
  (*1599*) Do (AddA v_sp_rates 29 ((v_fwd_rates.[169] - v_rev_rates.[169]) * v_pres_mod.[23]));
  (*1603*) Do (AddA v_sp_rates 24 (v_fwd_rates.[170] - v_rev_rates.[170]));
  (*1605*) Do (SubA v_sp_rates 1 (v_fwd_rates.[170] - v_rev_rates.[170]));
  (*1607*) Do (AddA v_sp_rates 11 (v_fwd_rates.[170] - v_rev_rates.[170]));
  (*1609*) Do (SubA v_sp_rates 28 (v_fwd_rates.[170] - v_rev_rates.[170]));
  (*1613*) Do (AddA v_sp_rates 24 (v_fwd_rates.[171] - v_rev_rates.[171]));
  (*1615*) Do (SubA v_sp_rates 28 (v_fwd_rates.[171] - v_rev_rates.[171]));
  (*1617*) Do (AddA v_sp_rates 3 (v_fwd_rates.[171] - v_rev_rates.[171]));
  (*1619*) Do (SubA v_sp_rates 4 (v_fwd_rates.[171] - v_rev_rates.[171]));
  (*1621*) Do (AddA v_sp_rates 14 (v_fwd_rates.[171] - v_rev_rates.[171]));
  (*1625*) Do (AddA v_sp_rates 16 (v_fwd_rates.[172] - v_rev_rates.[172]));
  (*1627*) Do (SubA v_sp_rates 28 (v_fwd_rates.[172] - v_rev_rates.[172]));
  (*1629*) Do (SubA v_sp_rates 13 (v_fwd_rates.[172] - v_rev_rates.[172]));
  (*1631*) Do (AddA v_sp_rates 29 (v_fwd_rates.[172] - v_rev_rates.[172]));
  (*1635*) Do (SubA v_sp_rates 1 ((v_fwd_rates.[173] - v_rev_rates.[173]) * v_pres_mod.[24]));
  (*1637*) Do (SubA v_sp_rates 29 ((v_fwd_rates.[173] - v_rev_rates.[173]) * v_pres_mod.[24]));
  (*1639*) Do (Asn v_sp_rates 30 ((v_fwd_rates.[173] - v_rev_rates.[173]) * v_pres_mod.[24]));
  (*1643*) Do (SubA v_sp_rates 1 (v_fwd_rates.[174] - v_rev_rates.[174]));
  (*1645*) Do (AddA v_sp_rates 20 (v_fwd_rates.[174] - v_rev_rates.[174]));
  (*1647*) Do (SubA v_sp_rates 29 (v_fwd_rates.[174] - v_rev_rates.[174]));
  (*1649*) Do (AddA v_sp_rates 21 (v_fwd_rates.[174] - v_rev_rates.[174]));
  (*1653*) Do (SubA v_sp_rates 1 (v_fwd_rates.[175] - v_rev_rates.[175]));
  (*1655*) Do (AddA v_sp_rates 11 (v_fwd_rates.[175] - v_rev_rates.[175]));
  (*1657*) Do (SubA v_sp_rates 29 (v_fwd_rates.[175] - v_rev_rates.[175]));
  (*1659*) Do (AddA v_sp_rates 25 (v_fwd_rates.[175] - v_rev_rates.[175]));
  (*1663*) Do (SubA v_sp_rates 1 (v_fwd_rates.[176] - v_rev_rates.[176]));
  (*1665*) Do (AddA v_sp_rates 28 (v_fwd_rates.[176] - v_rev_rates.[176]));
  (*1667*) Do (SubA v_sp_rates 29 (v_fwd_rates.[176] - v_rev_rates.[176]));
  (*1669*) Do (AddA v_sp_rates 5 (v_fwd_rates.[176] - v_rev_rates.[176]));
  (*1673*) Do (SubA v_sp_rates 2 (v_fwd_rates.[177] - v_rev_rates.[177]));
  (*1675*) Do (AddA v_sp_rates 26 (v_fwd_rates.[177] - v_rev_rates.[177]));
  (*1677*) Do (SubA v_sp_rates 29 (v_fwd_rates.[177] - v_rev_rates.[177]));
  (*1679*) Do (AddA v_sp_rates 13 (v_fwd_rates.[177] - v_rev_rates.[177]));
  (*1683*) Do (SubA v_sp_rates 2 (v_fwd_rates.[178] - v_rev_rates.[178]));
  (*1685*) Do (AddA v_sp_rates 3 (v_fwd_rates.[178] - v_rev_rates.[178]));
  (*1687*) Do (AddA v_sp_rates 28 (v_fwd_rates.[178] - v_rev_rates.[178]));
  (*1689*) Do (SubA v_sp_rates 29 (v_fwd_rates.[178] - v_rev_rates.[178]));
  (*1693*) Do (SubA v_sp_rates 2 (v_fwd_rates.[179] - v_rev_rates.[179]));
  (*1695*) Do (AddA v_sp_rates 3 (v_fwd_rates.[179] - v_rev_rates.[179]));
  (*1697*) Do (AddA v_sp_rates 28 (v_fwd_rates.[179] - v_rev_rates.[179]));
  (*1699*) Do (SubA v_sp_rates 29 (v_fwd_rates.[179] - v_rev_rates.[179]));
  (*1703*) Do (SubA v_sp_rates 3 (v_fwd_rates.[180] - v_rev_rates.[180]));
  (*1705*) Do (AddA v_sp_rates 28 (v_fwd_rates.[180] - v_rev_rates.[180]));
  (*1707*) Do (SubA v_sp_rates 29 (v_fwd_rates.[180] - v_rev_rates.[180]));
  (*1709*) Do (AddA v_sp_rates 6 (v_fwd_rates.[180] - v_rev_rates.[180]));
  (*1713*) Do (SubA v_sp_rates 8 (v_fwd_rates.[181] - v_rev_rates.[181]));
  (*1715*) Do (AddA v_sp_rates 28 (v_fwd_rates.[181] - v_rev_rates.[181]));
  (*1717*) Do (AddA v_sp_rates 4 (v_fwd_rates.[181] - v_rev_rates.[181]));
  (*1719*) Do (SubA v_sp_rates 29 (v_fwd_rates.[181] - v_rev_rates.[181]));
  (*1723*) Do (AddA v_sp_rates 28 (v_fwd_rates.[182] - v_rev_rates.[182]));
  (*1725*) Do (SubA v_sp_rates 4 (v_fwd_rates.[182] - v_rev_rates.[182]));
  (*1727*) Do (SubA v_sp_rates 29 (v_fwd_rates.[182] - v_rev_rates.[182]));
  (*1729*) Do (AddA v_sp_rates 7 (v_fwd_rates.[182] - v_rev_rates.[182]));
  (*1733*) Do (AddA v_sp_rates 28 (v_fwd_rates.[183] - v_rev_rates.[183]));
  (*1735*) Do (SubA v_sp_rates 11 (v_fwd_rates.[183] - v_rev_rates.[183]));
  (*1737*) Do (AddA v_sp_rates 12 (v_fwd_rates.[183] - v_rev_rates.[183]));
  (*1739*) Do (SubA v_sp_rates 29 (v_fwd_rates.[183] - v_rev_rates.[183]));
  (*1743*) Do (SubA v_sp_rates 1 (v_fwd_rates.[184] - v_rev_rates.[184]));
  (*1745*) Do (AddA v_sp_rates 21 (#2.0 * (v_fwd_rates.[184] - v_rev_rates.[184])));
  (*1747*) Do (SubA v_sp_rates 30 (v_fwd_rates.[184] - v_rev_rates.[184]));
  (*1751*) Do (SubA v_sp_rates 1 (v_fwd_rates.[185] - v_rev_rates.[185]));
  (*1753*) Do (AddA v_sp_rates 5 (v_fwd_rates.[185] - v_rev_rates.[185]));
  (*1755*) Do (SubA v_sp_rates 30 (v_fwd_rates.[185] - v_rev_rates.[185]));
  (*1757*) Do (AddA v_sp_rates 29 (v_fwd_rates.[185] - v_rev_rates.[185]));
  (*1761*) Do (SubA v_sp_rates 2 (v_fwd_rates.[186] - v_rev_rates.[186]));
  (*1763*) Do (AddA v_sp_rates 26 (v_fwd_rates.[186] - v_rev_rates.[186]));
  (*1765*) Do (AddA v_sp_rates 14 (v_fwd_rates.[186] - v_rev_rates.[186]));
  (*1767*) Do (SubA v_sp_rates 30 (v_fwd_rates.[186] - v_rev_rates.[186]));
  (*1771*) Do (SubA v_sp_rates 3 (v_fwd_rates.[187] - v_rev_rates.[187]));
  (*1773*) Do (AddA v_sp_rates 6 (v_fwd_rates.[187] - v_rev_rates.[187]));
  (*1775*) Do (SubA v_sp_rates 30 (v_fwd_rates.[187] - v_rev_rates.[187]));
  (*1777*) Do (AddA v_sp_rates 29 (v_fwd_rates.[187] - v_rev_rates.[187]));
  (*1781*) Do (SubA v_sp_rates 8 (v_fwd_rates.[188] - v_rev_rates.[188]));
  (*1783*) Do (AddA v_sp_rates 4 (v_fwd_rates.[188] - v_rev_rates.[188]));
  (*1785*) Do (AddA v_sp_rates 29 (v_fwd_rates.[188] - v_rev_rates.[188]));
  (*1787*) Do (SubA v_sp_rates 30 (v_fwd_rates.[188] - v_rev_rates.[188]));
  (*1791*) Do (AddA v_sp_rates 26 (v_fwd_rates.[189] - v_rev_rates.[189]));
  (*1793*) Do (AddA v_sp_rates 3 (v_fwd_rates.[189] - v_rev_rates.[189]));
  (*1795*) Do (SubA v_sp_rates 4 (v_fwd_rates.[189] - v_rev_rates.[189]));
  (*1797*) Do (AddA v_sp_rates 14 (v_fwd_rates.[189] - v_rev_rates.[189]));
  (*1799*) Do (SubA v_sp_rates 30 (v_fwd_rates.[189] - v_rev_rates.[189]));
  (*1803*) Do (SubA v_sp_rates 11 (v_fwd_rates.[190] - v_rev_rates.[190]));
  (*1805*) Do (AddA v_sp_rates 12 (v_fwd_rates.[190] - v_rev_rates.[190]));
  (*1807*) Do (AddA v_sp_rates 29 (v_fwd_rates.[190] - v_rev_rates.[190]));
  (*1809*) Do (SubA v_sp_rates 30 (v_fwd_rates.[190] - v_rev_rates.[190]));
  (*1813*) Do (AddA v_sp_rates 24 (v_fwd_rates.[191]));
  (*1815*) Do (AddA v_sp_rates 20 (v_fwd_rates.[191]));
  (*1817*) Do (Asn v_sp_rates 31 ((- v_fwd_rates.[191])));
  (*1821*) Do (AddA v_sp_rates 25 (v_fwd_rates.[192]));
  (*1823*) Do (AddA v_sp_rates 19 (v_fwd_rates.[192]));
  (*1825*) Do (SubA v_sp_rates 31 (v_fwd_rates.[192]));
  (*1829*) Do (Asn v_sp_rates 32 ((- (v_fwd_rates.[193] - v_rev_rates.[191])) * v_pres_mod.[25]));
  (*1831*) Do (SubA v_sp_rates 1 ((v_fwd_rates.[193] - v_rev_rates.[191]) * v_pres_mod.[25]));
  (*1833*) Do (Asn v_sp_rates 33 ((v_fwd_rates.[193] - v_rev_rates.[191]) * v_pres_mod.[25]));
  (*1837*) Do (SubA v_sp_rates 32 (v_fwd_rates.[194] - v_rev_rates.[192]));
  (*1839*) Do (SubA v_sp_rates 1 (v_fwd_rates.[194] - v_rev_rates.[192]));
  (*1841*) Do (AddA v_sp_rates 26 (v_fwd_rates.[194] - v_rev_rates.[192]));
  (*1843*) Do (AddA v_sp_rates 20 (v_fwd_rates.[194] - v_rev_rates.[192]));
  (*1847*) Do (SubA v_sp_rates 32 (v_fwd_rates.[195] - v_rev_rates.[193]));
  (*1849*) Do (SubA v_sp_rates 1 (v_fwd_rates.[195] - v_rev_rates.[193]));
  (*1851*) Do (AddA v_sp_rates 21 (v_fwd_rates.[195] - v_rev_rates.[193]));
  (*1853*) Do (AddA v_sp_rates 25 (v_fwd_rates.[195] - v_rev_rates.[193]));
  (*1857*) Do (AddA v_sp_rates 33 (v_fwd_rates.[196] - v_rev_rates.[194]));
  (*1859*) Do (SubA v_sp_rates 26 (v_fwd_rates.[196] - v_rev_rates.[194]));
  (*1861*) Do (SubA v_sp_rates 20 (v_fwd_rates.[196] - v_rev_rates.[194]));
  (*1865*) Do (SubA v_sp_rates 1 ((v_fwd_rates.[197] - v_rev_rates.[195]) * v_pres_mod.[26]));
  (*1867*) Do (Asn v_sp_rates 34 ((- (v_fwd_rates.[197] - v_rev_rates.[195])) * v_pres_mod.[26]));
  (*1869*) Do (Asn v_sp_rates 35 ((v_fwd_rates.[197] - v_rev_rates.[195]) * v_pres_mod.[26]));
  (*1873*) Do (SubA v_sp_rates 1 (v_fwd_rates.[198] - v_rev_rates.[196]));
  (*1875*) Do (SubA v_sp_rates 34 (v_fwd_rates.[198] - v_rev_rates.[196]));
  (*1877*) Do (AddA v_sp_rates 20 (v_fwd_rates.[198] - v_rev_rates.[196]));
  (*1879*) Do (AddA v_sp_rates 30 (v_fwd_rates.[198] - v_rev_rates.[196]));
  (*1883*) Do (SubA v_sp_rates 1 (v_fwd_rates.[199] - v_rev_rates.[197]));
  (*1885*) Do (SubA v_sp_rates 34 (v_fwd_rates.[199] - v_rev_rates.[197]));
  (*1887*) Do (AddA v_sp_rates 26 (v_fwd_rates.[199] - v_rev_rates.[197]));
  (*1889*) Do (AddA v_sp_rates 25 (v_fwd_rates.[199] - v_rev_rates.[197]));
  (*1893*) Do (AddA v_sp_rates 35 (v_fwd_rates.[200] - v_rev_rates.[198]));
  (*1895*) Do (SubA v_sp_rates 20 (v_fwd_rates.[200] - v_rev_rates.[198]));
  (*1897*) Do (SubA v_sp_rates 30 (v_fwd_rates.[200] - v_rev_rates.[198]));
  (*1901*) Do (SubA v_sp_rates 1 ((v_fwd_rates.[201] - v_rev_rates.[199]) * v_pres_mod.[27]));
  (*1903*) Do (Asn v_sp_rates 36 ((- (v_fwd_rates.[201] - v_rev_rates.[199])) * v_pres_mod.[27]));
  (*1905*) Do (Asn v_sp_rates 37 ((v_fwd_rates.[201] - v_rev_rates.[199]) * v_pres_mod.[27]));
  (*1909*) Do (SubA v_sp_rates 1 (v_fwd_rates.[202] - v_rev_rates.[200]));
  (*1911*) Do (SubA v_sp_rates 36 (v_fwd_rates.[202] - v_rev_rates.[200]));
  (*1913*) Do (AddA v_sp_rates 20 (v_fwd_rates.[202] - v_rev_rates.[200]));
  (*1915*) Do (AddA v_sp_rates 33 (v_fwd_rates.[202] - v_rev_rates.[200]));
  (*1919*) Do (SubA v_sp_rates 1 (v_fwd_rates.[203] - v_rev_rates.[201]));
  (*1921*) Do (SubA v_sp_rates 36 (v_fwd_rates.[203] - v_rev_rates.[201]));
  (*1923*) Do (AddA v_sp_rates 30 (v_fwd_rates.[203] - v_rev_rates.[201]));
  (*1925*) Do (AddA v_sp_rates 25 (v_fwd_rates.[203] - v_rev_rates.[201]));
  (*1929*) Do (SubA v_sp_rates 33 (v_fwd_rates.[204] - v_rev_rates.[202]));
  (*1931*) Do (SubA v_sp_rates 20 (v_fwd_rates.[204] - v_rev_rates.[202]));
  (*1933*) Do (AddA v_sp_rates 37 (v_fwd_rates.[204] - v_rev_rates.[202]));
  (*1937*) Do (SubA v_sp_rates 1 ((v_fwd_rates.[205] - v_rev_rates.[203]) * v_pres_mod.[28]));
  (*1939*) Do (Asn v_sp_rates 38 ((- (v_fwd_rates.[205] - v_rev_rates.[203])) * v_pres_mod.[28]));
  (*1941*) Do (Asn v_sp_rates 39 ((v_fwd_rates.[205] - v_rev_rates.[203]) * v_pres_mod.[28]));
  (*1945*) Do (SubA v_sp_rates 1 (v_fwd_rates.[206] - v_rev_rates.[204]));
  (*1947*) Do (AddA v_sp_rates 35 (v_fwd_rates.[206] - v_rev_rates.[204]));
  (*1949*) Do (AddA v_sp_rates 20 (v_fwd_rates.[206] - v_rev_rates.[204]));
  (*1951*) Do (SubA v_sp_rates 38 (v_fwd_rates.[206] - v_rev_rates.[204]));
  (*1955*) Do (SubA v_sp_rates 1 (v_fwd_rates.[207] - v_rev_rates.[205]));
  (*1957*) Do (AddA v_sp_rates 33 (v_fwd_rates.[207] - v_rev_rates.[205]));
  (*1959*) Do (SubA v_sp_rates 38 (v_fwd_rates.[207] - v_rev_rates.[205]));
  (*1961*) Do (AddA v_sp_rates 25 (v_fwd_rates.[207] - v_rev_rates.[205]));
  (*1965*) Do (SubA v_sp_rates 35 (v_fwd_rates.[208] - v_rev_rates.[206]));
  (*1967*) Do (SubA v_sp_rates 20 (v_fwd_rates.[208] - v_rev_rates.[206]));
  (*1969*) Do (AddA v_sp_rates 39 (v_fwd_rates.[208] - v_rev_rates.[206]));
  (*1973*) Do (Asn v_sp_rates 40 ((- (v_fwd_rates.[209] - v_rev_rates.[207])) * v_pres_mod.[29]));
  (*1975*) Do (SubA v_sp_rates 1 ((v_fwd_rates.[209] - v_rev_rates.[207]) * v_pres_mod.[29]));
  (*1977*) Do (Asn v_sp_rates 41 ((v_fwd_rates.[209] - v_rev_rates.[207]) * v_pres_mod.[29]));
  (*1981*) Do (SubA v_sp_rates 40 (v_fwd_rates.[210] - v_rev_rates.[208]));
  (*1983*) Do (SubA v_sp_rates 1 (v_fwd_rates.[210] - v_rev_rates.[208]));
  (*1985*) Do (AddA v_sp_rates 20 (v_fwd_rates.[210] - v_rev_rates.[208]));
  (*1987*) Do (AddA v_sp_rates 37 (v_fwd_rates.[210] - v_rev_rates.[208]));
  (*1991*) Do (SubA v_sp_rates 40 (v_fwd_rates.[211] - v_rev_rates.[209]));
  (*1993*) Do (SubA v_sp_rates 1 (v_fwd_rates.[211] - v_rev_rates.[209]));
  (*1995*) Do (AddA v_sp_rates 35 (v_fwd_rates.[211] - v_rev_rates.[209]));
  (*1997*) Do (AddA v_sp_rates 25 (v_fwd_rates.[211] - v_rev_rates.[209]));
  (*2001*) Do (AddA v_sp_rates 41 (v_fwd_rates.[212] - v_rev_rates.[210]));
  (*2003*) Do (SubA v_sp_rates 20 (v_fwd_rates.[212] - v_rev_rates.[210]));
  (*2005*) Do (SubA v_sp_rates 37 (v_fwd_rates.[212] - v_rev_rates.[210]));
  (*2009*) Do (SubA v_sp_rates 1 ((v_fwd_rates.[213] - v_rev_rates.[211]) * v_pres_mod.[30]));
  (*2011*) Do (Asn v_sp_rates 42 ((- (v_fwd_rates.[213] - v_rev_rates.[211])) * v_pres_mod.[30]));
  (*2013*) Do (Asn v_sp_rates 43 ((v_fwd_rates.[213] - v_rev_rates.[211]) * v_pres_mod.[30]));
  (*2017*) Do (SubA v_sp_rates 1 (v_fwd_rates.[214] - v_rev_rates.[212]));
  (*2019*) Do (SubA v_sp_rates 42 (v_fwd_rates.[214] - v_rev_rates.[212]));
  (*2021*) Do (AddA v_sp_rates 20 (v_fwd_rates.[214] - v_rev_rates.[212]));
  (*2023*) Do (AddA v_sp_rates 39 (v_fwd_rates.[214] - v_rev_rates.[212]));
  (*2027*) Do (SubA v_sp_rates 1 (v_fwd_rates.[215] - v_rev_rates.[213]));
  (*2029*) Do (SubA v_sp_rates 42 (v_fwd_rates.[215] - v_rev_rates.[213]));
  (*2031*) Do (AddA v_sp_rates 37 (v_fwd_rates.[215] - v_rev_rates.[213]));
  (*2033*) Do (AddA v_sp_rates 25 (v_fwd_rates.[215] - v_rev_rates.[213]));
  (*2037*) Do (AddA v_sp_rates 43 (v_fwd_rates.[216] - v_rev_rates.[214]));
  (*2039*) Do (SubA v_sp_rates 20 (v_fwd_rates.[216] - v_rev_rates.[214]));
  (*2041*) Do (SubA v_sp_rates 39 (v_fwd_rates.[216] - v_rev_rates.[214]));
  (*2045*) Do (Asn v_sp_rates 48 ((- (v_fwd_rates.[217] - v_rev_rates.[215]))));
  (*2047*) Do (AddA v_sp_rates 37 (v_fwd_rates.[217] - v_rev_rates.[215]));
  (*2049*) Do (AddA v_sp_rates 31 (v_fwd_rates.[217] - v_rev_rates.[215]));
  (*2053*) Do (SubA v_sp_rates 43 (v_fwd_rates.[218] - v_rev_rates.[216]));
  (*2055*) Do (SubA v_sp_rates 20 (v_fwd_rates.[218] - v_rev_rates.[216]));
  (*2057*) Do (Asn v_sp_rates 45 (v_fwd_rates.[218] - v_rev_rates.[216]));
  (*2061*) Do (SubA v_sp_rates 45 (v_fwd_rates.[219] - v_rev_rates.[217]));
  (*2063*) Do (Asn v_sp_rates 47 (v_fwd_rates.[219] - v_rev_rates.[217]));
  (*2067*) Do (SubA v_sp_rates 25 (v_fwd_rates.[220] - v_rev_rates.[218]));
  (*2069*) Do (Asn v_sp_rates 46 (v_fwd_rates.[220] - v_rev_rates.[218]));
  (*2071*) Do (SubA v_sp_rates 41 (v_fwd_rates.[220] - v_rev_rates.[218]));
  (*2075*) Do (SubA v_sp_rates 29 (v_fwd_rates.[221] - v_rev_rates.[219]));
  (*2077*) Do (AddA v_sp_rates 46 (v_fwd_rates.[221] - v_rev_rates.[219]));
  (*2079*) Do (SubA v_sp_rates 39 (v_fwd_rates.[221] - v_rev_rates.[219]));
  (*2083*) Do (SubA v_sp_rates 32 (v_fwd_rates.[222] - v_rev_rates.[220]));
  (*2085*) Do (SubA v_sp_rates 37 (v_fwd_rates.[222] - v_rev_rates.[220]));
  (*2087*) Do (AddA v_sp_rates 47 (v_fwd_rates.[222] - v_rev_rates.[220]));
  (*2091*) Do (SubA v_sp_rates 42 (v_fwd_rates.[223] - v_rev_rates.[221]));
  (*2093*) Do (SubA v_sp_rates 21 (v_fwd_rates.[223] - v_rev_rates.[221]));
  (*2095*) Do (AddA v_sp_rates 47 (v_fwd_rates.[223] - v_rev_rates.[221]));
  (*2099*) Do (SubA v_sp_rates 34 (v_fwd_rates.[224] - v_rev_rates.[222]));
  (*2101*) Do (SubA v_sp_rates 35 (v_fwd_rates.[224] - v_rev_rates.[222]));
  (*2103*) Do (AddA v_sp_rates 47 (v_fwd_rates.[224] - v_rev_rates.[222]));
  (*2107*) Do (SubA v_sp_rates 40 (v_fwd_rates.[225] - v_rev_rates.[223]));
  (*2109*) Do (SubA v_sp_rates 26 (v_fwd_rates.[225] - v_rev_rates.[223]));
  (*2111*) Do (AddA v_sp_rates 47 (v_fwd_rates.[225] - v_rev_rates.[223]));
  (*2115*) Do (SubA v_sp_rates 33 (v_fwd_rates.[226] - v_rev_rates.[224]));
  (*2117*) Do (SubA v_sp_rates 36 (v_fwd_rates.[226] - v_rev_rates.[224]));
  (*2119*) Do (AddA v_sp_rates 47 (v_fwd_rates.[226] - v_rev_rates.[224]));
  (*2123*) Do (SubA v_sp_rates 38 (v_fwd_rates.[227] - v_rev_rates.[225]));
  (*2125*) Do (SubA v_sp_rates 30 (v_fwd_rates.[227] - v_rev_rates.[225]));
  (*2127*) Do (AddA v_sp_rates 47 (v_fwd_rates.[227] - v_rev_rates.[225]));
  (*2131*) Do (SubA v_sp_rates 43 (v_fwd_rates.[228] - v_rev_rates.[226]));
  (*2133*) Do (Asn v_sp_rates 44 (v_fwd_rates.[228] - v_rev_rates.[226]));
  (*2135*) Do (SubA v_sp_rates 21 (v_fwd_rates.[228] - v_rev_rates.[226]));
  (*2139*) Do (SubA v_sp_rates 41 (v_fwd_rates.[229] - v_rev_rates.[227]));
  (*2141*) Do (SubA v_sp_rates 26 (v_fwd_rates.[229] - v_rev_rates.[227]));
  (*2143*) Do (AddA v_sp_rates 44 (v_fwd_rates.[229] - v_rev_rates.[227]));
  (*2147*) Do (AddA v_sp_rates 44 (v_fwd_rates.[230] - v_rev_rates.[228]));
  (*2149*) Do (SubA v_sp_rates 30 (v_fwd_rates.[230] - v_rev_rates.[228]));
  (*2151*) Do (SubA v_sp_rates 39 (v_fwd_rates.[230] - v_rev_rates.[228]));
  (*2155*) Do (SubA v_sp_rates 33 (v_fwd_rates.[231] - v_rev_rates.[229]));
  (*2157*) Do (AddA v_sp_rates 44 (v_fwd_rates.[231] - v_rev_rates.[229]));
  (*2159*) Do (SubA v_sp_rates 37 (v_fwd_rates.[231] - v_rev_rates.[229]));
  (*2163*) Do (SubA v_sp_rates 35 (#2.0 * (v_fwd_rates.[232] - v_rev_rates.[230])));
  (*2165*) Do (AddA v_sp_rates 44 (v_fwd_rates.[232] - v_rev_rates.[230]));
  (*2169*) Do (SubA v_sp_rates 1 (v_fwd_rates.[233] - v_rev_rates.[231]));
  (*2171*) Do (SubA v_sp_rates 44 (v_fwd_rates.[233] - v_rev_rates.[231]));
  (*2173*) Do (AddA v_sp_rates 5 (v_fwd_rates.[233] - v_rev_rates.[231]));
  (*2175*) Do (AddA v_sp_rates 45 (v_fwd_rates.[233] - v_rev_rates.[231]));
  (*2179*) Do (SubA v_sp_rates 1 (v_fwd_rates.[234] - v_rev_rates.[232]));
  (*2181*) Do (SubA v_sp_rates 44 (v_fwd_rates.[234] - v_rev_rates.[232]));
  (*2183*) Do (AddA v_sp_rates 5 (v_fwd_rates.[234] - v_rev_rates.[232]));
  (*2185*) Do (AddA v_sp_rates 46 (v_fwd_rates.[234] - v_rev_rates.[232]));
  (*2189*) Do (SubA v_sp_rates 1 (v_fwd_rates.[235] - v_rev_rates.[233]));
  (*2191*) Do (SubA v_sp_rates 44 (v_fwd_rates.[235] - v_rev_rates.[233]));
  (*2193*) Do (AddA v_sp_rates 5 (v_fwd_rates.[235] - v_rev_rates.[233]));
  (*2195*) Do (AddA v_sp_rates 47 (v_fwd_rates.[235] - v_rev_rates.[233]));
  (*2199*) Do (SubA v_sp_rates 2 (v_fwd_rates.[236] - v_rev_rates.[234]));
  (*2201*) Do (AddA v_sp_rates 3 (v_fwd_rates.[236] - v_rev_rates.[234]));
  (*2203*) Do (SubA v_sp_rates 44 (v_fwd_rates.[236] - v_rev_rates.[234]));
  (*2205*) Do (AddA v_sp_rates 45 (v_fwd_rates.[236] - v_rev_rates.[234]));
  (*2209*) Do (SubA v_sp_rates 2 (v_fwd_rates.[237] - v_rev_rates.[235]));
  (*2211*) Do (AddA v_sp_rates 3 (v_fwd_rates.[237] - v_rev_rates.[235]));
  (*2213*) Do (SubA v_sp_rates 44 (v_fwd_rates.[237] - v_rev_rates.[235]));
  (*2215*) Do (AddA v_sp_rates 46 (v_fwd_rates.[237] - v_rev_rates.[235]));
  (*2219*) Do (SubA v_sp_rates 2 (v_fwd_rates.[238] - v_rev_rates.[236]));
  (*2221*) Do (AddA v_sp_rates 3 (v_fwd_rates.[238] - v_rev_rates.[236]));
  (*2223*) Do (SubA v_sp_rates 44 (v_fwd_rates.[238] - v_rev_rates.[236]));
  (*2225*) Do (AddA v_sp_rates 47 (v_fwd_rates.[238] - v_rev_rates.[236]));
  (*2229*) Do (SubA v_sp_rates 3 (v_fwd_rates.[239] - v_rev_rates.[237]));
  (*2231*) Do (SubA v_sp_rates 44 (v_fwd_rates.[239] - v_rev_rates.[237]));
  (*2233*) Do (AddA v_sp_rates 45 (v_fwd_rates.[239] - v_rev_rates.[237]));
  (*2235*) Do (AddA v_sp_rates 6 (v_fwd_rates.[239] - v_rev_rates.[237]));
  (*2239*) Do (SubA v_sp_rates 3 (v_fwd_rates.[240] - v_rev_rates.[238]));
  (*2241*) Do (SubA v_sp_rates 44 (v_fwd_rates.[240] - v_rev_rates.[238]));
  (*2243*) Do (AddA v_sp_rates 46 (v_fwd_rates.[240] - v_rev_rates.[238]));
  (*2245*) Do (AddA v_sp_rates 6 (v_fwd_rates.[240] - v_rev_rates.[238]));
  (*2249*) Do (SubA v_sp_rates 3 (v_fwd_rates.[241] - v_rev_rates.[239]));
  (*2251*) Do (SubA v_sp_rates 44 (v_fwd_rates.[241] - v_rev_rates.[239]));
  (*2253*) Do (AddA v_sp_rates 6 (v_fwd_rates.[241] - v_rev_rates.[239]));
  (*2255*) Do (AddA v_sp_rates 47 (v_fwd_rates.[241] - v_rev_rates.[239]));
  (*2259*) Do (SubA v_sp_rates 8 (v_fwd_rates.[242] - v_rev_rates.[240]));
  (*2261*) Do (AddA v_sp_rates 4 (v_fwd_rates.[242] - v_rev_rates.[240]));
  (*2263*) Do (SubA v_sp_rates 44 (v_fwd_rates.[242] - v_rev_rates.[240]));
  (*2265*) Do (AddA v_sp_rates 45 (v_fwd_rates.[242] - v_rev_rates.[240]));
  (*2269*) Do (SubA v_sp_rates 8 (v_fwd_rates.[243] - v_rev_rates.[241]));
  (*2271*) Do (AddA v_sp_rates 4 (v_fwd_rates.[243] - v_rev_rates.[241]));
  (*2273*) Do (SubA v_sp_rates 44 (v_fwd_rates.[243] - v_rev_rates.[241]));
  (*2275*) Do (AddA v_sp_rates 46 (v_fwd_rates.[243] - v_rev_rates.[241]));
  (*2279*) Do (SubA v_sp_rates 8 (v_fwd_rates.[244] - v_rev_rates.[242]));
  (*2281*) Do (AddA v_sp_rates 4 (v_fwd_rates.[244] - v_rev_rates.[242]));
  (*2283*) Do (SubA v_sp_rates 44 (v_fwd_rates.[244] - v_rev_rates.[242]));
  (*2285*) Do (AddA v_sp_rates 47 (v_fwd_rates.[244] - v_rev_rates.[242]));
  (*2289*) Do (SubA v_sp_rates 4 (v_fwd_rates.[245] - v_rev_rates.[243]));
  (*2291*) Do (SubA v_sp_rates 44 (v_fwd_rates.[245] - v_rev_rates.[243]));
  (*2293*) Do (AddA v_sp_rates 45 (v_fwd_rates.[245] - v_rev_rates.[243]));
  (*2295*) Do (AddA v_sp_rates 7 (v_fwd_rates.[245] - v_rev_rates.[243]));
  (*2299*) Do (SubA v_sp_rates 4 (v_fwd_rates.[246] - v_rev_rates.[244]));
  (*2301*) Do (SubA v_sp_rates 44 (v_fwd_rates.[246] - v_rev_rates.[244]));
  (*2303*) Do (AddA v_sp_rates 46 (v_fwd_rates.[246] - v_rev_rates.[244]));
  (*2305*) Do (AddA v_sp_rates 7 (v_fwd_rates.[246] - v_rev_rates.[244]));
  (*2309*) Do (SubA v_sp_rates 4 (v_fwd_rates.[247] - v_rev_rates.[245]));
  (*2311*) Do (AddA v_sp_rates 47 (v_fwd_rates.[247] - v_rev_rates.[245]));
  (*2313*) Do (SubA v_sp_rates 44 (v_fwd_rates.[247] - v_rev_rates.[245]));
  (*2315*) Do (AddA v_sp_rates 7 (v_fwd_rates.[247] - v_rev_rates.[245]));
  (*2319*) Do (AddA v_sp_rates 12 (v_fwd_rates.[248] - v_rev_rates.[246]));
  (*2321*) Do (SubA v_sp_rates 11 (v_fwd_rates.[248] - v_rev_rates.[246]));
  (*2323*) Do (SubA v_sp_rates 44 (v_fwd_rates.[248] - v_rev_rates.[246]));
  (*2325*) Do (AddA v_sp_rates 45 (v_fwd_rates.[248] - v_rev_rates.[246]));
  (*2329*) Do (AddA v_sp_rates 12 (v_fwd_rates.[249] - v_rev_rates.[247]));
  (*2331*) Do (SubA v_sp_rates 11 (v_fwd_rates.[249] - v_rev_rates.[247]));
  (*2333*) Do (SubA v_sp_rates 44 (v_fwd_rates.[249] - v_rev_rates.[247]));
  (*2335*) Do (AddA v_sp_rates 46 (v_fwd_rates.[249] - v_rev_rates.[247]));
  (*2339*) Do (AddA v_sp_rates 12 (v_fwd_rates.[250] - v_rev_rates.[248]));
  (*2341*) Do (SubA v_sp_rates 11 (v_fwd_rates.[250] - v_rev_rates.[248]));
  (*2343*) Do (SubA v_sp_rates 44 (v_fwd_rates.[250] - v_rev_rates.[248]));
  (*2345*) Do (AddA v_sp_rates 47 (v_fwd_rates.[250] - v_rev_rates.[248]));
  (*2349*) Do (SubA v_sp_rates 8 (v_fwd_rates.[251]));
  (*2351*) Do (Asn v_sp_rates 49 (v_fwd_rates.[251]));
  (*2353*) Do (SubA v_sp_rates 45 (v_fwd_rates.[251]));
  (*2357*) Do (AddA v_sp_rates 8 (v_fwd_rates.[252]));
  (*2359*) Do (SubA v_sp_rates 49 (v_fwd_rates.[252]));
  (*2361*) Do (AddA v_sp_rates 45 (v_fwd_rates.[252]));
  (*2365*) Do (SubA v_sp_rates 8 (v_fwd_rates.[253]));
  (*2367*) Do (AddA v_sp_rates 49 (v_fwd_rates.[253]));
  (*2369*) Do (SubA v_sp_rates 46 (v_fwd_rates.[253]));
  (*2373*) Do (AddA v_sp_rates 8 (v_fwd_rates.[254]));
  (*2375*) Do (SubA v_sp_rates 49 (v_fwd_rates.[254]));
  (*2377*) Do (AddA v_sp_rates 46 (v_fwd_rates.[254]));
  (*2381*) Do (SubA v_sp_rates 8 (v_fwd_rates.[255]));
  (*2383*) Do (AddA v_sp_rates 49 (v_fwd_rates.[255]));
  (*2385*) Do (SubA v_sp_rates 47 (v_fwd_rates.[255]));
  (*2389*) Do (AddA v_sp_rates 8 (v_fwd_rates.[256]));
  (*2391*) Do (SubA v_sp_rates 49 (v_fwd_rates.[256]));
  (*2393*) Do (AddA v_sp_rates 47 (v_fwd_rates.[256]));
  (*2397*) Do (SubA v_sp_rates 49 (v_fwd_rates.[257]));
  (*2399*) Do (Asn v_sp_rates 50 (v_fwd_rates.[257]));
  (*2403*) Do (AddA v_sp_rates 49 (v_fwd_rates.[258]));
  (*2405*) Do (SubA v_sp_rates 50 (v_fwd_rates.[258]));
  (*2409*) Do (SubA v_sp_rates 8 (v_fwd_rates.[259]));
  (*2411*) Do (AddA v_sp_rates 48 (v_fwd_rates.[259]));
  (*2413*) Do (AddA v_sp_rates 4 (v_fwd_rates.[259]));
  (*2415*) Do (SubA v_sp_rates 45 (v_fwd_rates.[259]));
  (*2419*) Do (SubA v_sp_rates 48 (v_fwd_rates.[260]));
  (*2421*) Do (AddA v_sp_rates 8 (v_fwd_rates.[260]));
  (*2423*) Do (SubA v_sp_rates 4 (v_fwd_rates.[260]));
  (*2425*) Do (AddA v_sp_rates 45 (v_fwd_rates.[260]));
  (*2429*) Do (SubA v_sp_rates 8 (v_fwd_rates.[261]));
  (*2431*) Do (AddA v_sp_rates 48 (v_fwd_rates.[261]));
  (*2433*) Do (AddA v_sp_rates 4 (v_fwd_rates.[261]));
  (*2435*) Do (SubA v_sp_rates 46 (v_fwd_rates.[261]));
  (*2439*) Do (SubA v_sp_rates 48 (v_fwd_rates.[262]));
  (*2441*) Do (AddA v_sp_rates 8 (v_fwd_rates.[262]));
  (*2443*) Do (SubA v_sp_rates 4 (v_fwd_rates.[262]));
  (*2445*) Do (AddA v_sp_rates 46 (v_fwd_rates.[262]));
  (*2449*) Do (SubA v_sp_rates 8 (v_fwd_rates.[263]));
  (*2451*) Do (AddA v_sp_rates 48 (v_fwd_rates.[263]));
  (*2453*) Do (AddA v_sp_rates 4 (v_fwd_rates.[263]));
  (*2455*) Do (SubA v_sp_rates 47 (v_fwd_rates.[263]));
  (*2459*) Do (SubA v_sp_rates 48 (v_fwd_rates.[264]));
  (*2461*) Do (AddA v_sp_rates 8 (v_fwd_rates.[264]));
  (*2463*) Do (SubA v_sp_rates 4 (v_fwd_rates.[264]));
  (*2465*) Do (AddA v_sp_rates 47 (v_fwd_rates.[264]));
  (*2469*) Do (SubA v_sp_rates 8 (v_fwd_rates.[265]));
  (*2471*) Do (SubA v_sp_rates 50 (v_fwd_rates.[265]));
  (*2473*) Do (Asn v_sp_rates 51 (v_fwd_rates.[265]));
  (*2477*) Do (AddA v_sp_rates 8 (v_fwd_rates.[266]));
  (*2479*) Do (AddA v_sp_rates 50 (v_fwd_rates.[266]));
  (*2481*) Do (SubA v_sp_rates 51 (v_fwd_rates.[266]));
  (*2485*) Do (AddA v_sp_rates 3 (v_fwd_rates.[267] - v_rev_rates.[249]));
  (*2487*) Do (SubA v_sp_rates 51 (v_fwd_rates.[267] - v_rev_rates.[249]));
  (*2489*) Do (Asn v_sp_rates 52 (v_fwd_rates.[267] - v_rev_rates.[249]));
  (*2493*) Do (AddA v_sp_rates 20 (#3.0 * v_fwd_rates.[268]));
  (*2495*) Do (AddA v_sp_rates 3 (v_fwd_rates.[268]));
  (*2497*) Do (SubA v_sp_rates 52 (v_fwd_rates.[268]));
  (*2499*) Do (AddA v_sp_rates 21 (v_fwd_rates.[268]));
  (*2501*) Do (AddA v_sp_rates 23 (#2.0 * v_fwd_rates.[268]));
  (*2504*) Do (Asn v_sp_rates 0 (#0.0));
  (*2506*) Do (Asn v_dy_N 0 (#0.0))
].

(** [get_rxn_pres_mod], yao/lib/src/rxn_rates_pres_mod.c:5-294. *)
Definition yao_get_rxn_pres_mod : list stmt := [
  (*19*) Do (Asn v_logT 0 ((Log $v_T)));
  (*20*) Do (Asn v_m 0 ($v_pres / (#8.31446210e+03 * $v_T)));
  (*23*) Do (Asn v_thd 0 ($v_m - #0.6 * v_C.[0] + #10.89 * v_C.[6] - #0.15 * v_C.[8] + #0.09 * v_C.[16] + #1.18 * v_C.[17]));
  (*24*) Do (Asn v_k0 0 ((Exp (#3.1778590439387948e+01 - #1.4 * $v_logT))));
  (*25*) Do (Asn v_kinf 0 ((Exp (#2.2355638720663009e+01 + #0.44 * $v_logT))));
  (*26*) Do (Asn v_Pr 0 ($v_k0 * $v_thd / $v_kinf));
  (*27*) Do (Asn v_logFcent 0 ((Log10 (Fmax (#5.00000000e-01 * (Exp ((- $v_T) / #1.00000000e-30)) + #5.00000000e-01 * (Exp ((- $v_T) / #1.00000000e+30))) #1.0e-300))));
  (*28*) Do (Asn v_A 0 ((Log10 (Fmax $v_Pr #1.0e-300)) - #0.67 * $v_logFcent - #0.4));
  (*29*) Do (Asn v_B 0 (#0.806 - #1.1762 * $v_logFcent - #0.14 * (Log10 (Fmax $v_Pr #1.0e-300))));
  (*30*) Do (Asn v_pres_mod 0 ((Pow #10.0 ($v_logFcent / (#1.0 + $v_A * $v_A / ($v_B * $v_B)))) * $v_Pr / (#1.0 + $v_Pr)));
  (*33*) Do (Asn v_thd 0 ($v_m - #0.3 * v_C.[0] + #1.0 * v_C.[5] + #5.0 * v_C.[6] + #0.75 * v_C.[16] + #2.6 * v_C.[17]));
  (*34*) Do (Asn v_k0 0 ((Exp (#2.6026570745005486e+01 - #0.584 * $v_logT - #(-1.1538824622220600e+03) / $v_T))));
  (*35*) Do (Asn v_kinf 0 ((Exp (#2.5432796038258747e+01 - #0.37 * $v_logT))));
  (*36*) Do (Asn v_Pr 0 ($v_k0 * $v_thd / $v_kinf));
  (*37*) Do (Asn v_logFcent 0 ((Log10 (Fmax (#2.65400000e-01 * (Exp ((- $v_T) / #9.40000000e+01)) + #7.34600000e-01 * (Exp ((- $v_T) / #1.75600000e+03)) + (Exp (#(-5.18200000e+03) / $v_T))) #1.0e-300))));
  (*38*) Do (Asn v_A 0 ((Log10 (Fmax $v_Pr #1.0e-300)) - #0.67 * $v_logFcent - #0.4));
  (*39*) Do (Asn v_B 0 (#0.806 - #1.1762 * $v_logFcent - #0.14 * (Log10 (Fmax $v_Pr #1.0e-300))));
  (*40*) Do (Asn v_pres_mod 1 ((Pow #10.0 ($v_logFcent / (#1.0 + $v_A * $v_A / ($v_B * $v_B)))) * $v_Pr / (#1.0 + $v_Pr)));
  (*43*) Do (Asn v_pres_mod 2 ($v_m - #0.37 * v_C.[0] - #1.0 * v_C.[5] - #1.0 * v_C.[6] - #1.0 * v_C.[17]));
  (*46*) Do (Asn v_pres_mod 3 ($v_m - #0.62 * v_C.[0] + #1.0 * v_C.[5] + #5.3 * v_C.[6] + #0.75 * v_C.[16] + #2.6 * v_C.[17]));
  (*49*) Do (Asn v_pres_mod 4 ($v_m - #0.17 * v_C.[0] + #1.4 * v_C.[5] + #14.4 * v_C.[6] + #0.75 * v_C.[16] + #2.6 * v_C.[17]));
  (*52*) Do (Asn v_pres_mod 5 ($v_m - #0.3 * v_C.[0] + #1.0 * v_C.[5] + #11.0 * v_C.[6] + #0.75 * v_C.[16] + #2.6 * v_C.[17]));
  (*55*) Do (Asn v_thd 0 ($v_m - #0.3 * v_C.[0] + #1.0 * v_C.[5] + #11.0 * v_C.[6] + #0.75 * v_C.[16] + #2.6 * v_C.[17]));
  (*56*) Do (Asn v_k0 0 ((Exp (#4.1606096243564160e+01 - #2.79 * $v_logT - #2.1089931963247504e+03 / $v_T))));
  (*57*) Do (Asn v_kinf 0 ((Exp (#1.6427049858685642e+01 - #1.1996754426242437e+03 / $v_T))));
  (*58*) Do (Asn v_Pr 0 ($v_k0 * $v_thd / $v_kinf));
  (*59*) Do (Asn v_pres_mod 6 ($v_Pr / (#1.0 + $v_Pr)));
  (*62*) Do (Asn v_pres_mod 7 ($v_m + #1.0 * v_C.[5] - #1.0 * v_C.[6] + #0.75 * v_C.[16] + #2.6 * v_C.[17]));
  (*65*) Do (Asn v_thd 0 ($v_m - #0.3 * v_C.[0] + #1.0 * v_C.[5] + #5.0 * v_C.[6] + #1.0 * v_C.[12] + #0.5 * v_C.[16] + #1.0 * v_C.[17] + #2.0 * v_C.[22]));
  (*66*) Do (Asn v_k0 0 ((Exp (#4.9977627770478051e+01 - #3.42 * $v_logT - #4.2446570295870370e+04 / $v_T))));
  (*67*) Do (Asn v_kinf 0 ((Exp (#1.0668955394675699e+01 + #1.5 * $v_logT - #4.0056277362789348e+04 / $v_T))));
  (*68*) Do (Asn v_Pr 0 ($v_k0 * $v_thd / $v_kinf));
  (*69*) Do (Asn v_logFcent 0 ((Log10 (Fmax (#6.80000000e-02 * (Exp ((- $v_T) / #1.97000000e+02)) + #9.32000000e-01 * (Exp ((- $v_T) / #1.54000000e+03)) + (Exp (#(-1.03000000e+04) / $v_T))) #1.0e-300))));
  (*70*) Do (Asn v_A 0 ((Log10 (Fmax $v_Pr #1.0e-300)) - #0.67 * $v_logFcent - #0.4));
  (*71*) Do (Asn v_B 0 (#0.806 - #1.1762 * $v_logFcent - #0.14 * (Log10 (Fmax $v_Pr #1.0e-300))));
  (*72*) Do (Asn v_pres_mod 8 ((Pow #10.0 ($v_logFcent / (#1.0 + $v_A * $v_A / ($v_B * $v_B)))) * $v_Pr / (#1.0 + $v_Pr)));
  (*75*) Do (Asn v_thd 0 ($v_m - #0.3 * v_C.[0] + #1.0 * v_C.[5] + #5.0 * v_C.[6] + #1.0 * v_C.[12] + #0.5 * v_C.[16] + #1.0 * v_C.[17] + #2.0 * v_C.[22]));
  (*76*) Do (Asn v_k0 0 ((Exp (#4.1746636266343160e+01 - #2.57 * $v_logT - #7.1708787992430678e+02 / $v_T))));
  (*77*) Do (Asn v_kinf 0 ((Exp (#2.0809443533187462e+01 + #0.48 * $v_logT - #(-1.3083708686338230e+02) / $v_T))));
  (*78*) Do (Asn v_Pr 0 ($v_k0 * $v_thd / $v_kinf));
  (*79*) Do (Asn v_logFcent 0 ((Log10 (Fmax (#2.17600000e-01 * (Exp ((- $v_T) / #2.71000000e+02)) + #7.82400000e-01 * (Exp ((- $v_T) / #2.75500000e+03)) + (Exp (#(-6.57000000e+03) / $v_T))) #1.0e-300))));
  (*80*) Do (Asn v_A 0 ((Log10 (Fmax $v_Pr #1.0e-300)) - #0.67 * $v_logFcent - #0.4));
  (*81*) Do (Asn v_B 0 (#0.806 - #1.1762 * $v_logFcent - #0.14 * (Log10 (Fmax $v_Pr #1.0e-300))));
  (*82*) Do (Asn v_pres_mod 9 ((Pow #10.0 ($v_logFcent / (#1.0 + $v_A * $v_A / ($v_B * $v_B)))) * $v_Pr / (#1.0 + $v_Pr)));
  (*85*) Do (Asn v_thd 0 ($v_m - #0.3 * v_C.[0] + #1.0 * v_C.[5] + #5.0 * v_C.[6] + #1.0 * v_C.[12] + #0.5 * v_C.[16] + #1.0 * v_C.[17] + #2.0 * v_C.[22]));
  (*86*) Do (Asn v_k0 0 ((Exp (#4.9517437762680643e+01 - #3.14 * $v_logT - #6.1896006477677008e+02 / $v_T))));
  (*87*) Do (Asn v_kinf 0 ((Exp (#3.0849896940796750e+01 - #0.8 * $v_logT))));
  (*88*) Do (Asn v_Pr 0 ($v_k0 * $v_thd / $v_kinf));
  (*89*) Do (Asn v_logFcent 0 ((Log10 (Fmax (#3.20000000e-01 * (Exp ((- $v_T) / #7.80000000e+01)) + #6.80000000e-01 * (Exp ((- $v_T) / #1.99500000e+03)) + (Exp (#(-5.59000000e+03) / $v_T))) #1.0e-300))));
  (*90*) Do (Asn v_A 0 ((Log10 (Fmax $v_Pr #1.0e-300)) - #0.67 * $v_logFcent - #0.4));
  (*91*) Do (Asn v_B 0 (#0.806 - #1.1762 * $v_logFcent - #0.14 * (Log10 (Fmax $v_Pr #1.0e-300))));
  (*92*) Do (Asn v_pres_mod 10 ((Pow #10.0 ($v_logFcent / (#1.0 + $v_A * $v_A / ($v_B * $v_B)))) * $v_Pr / (#1.0 + $v_Pr)));
  (*95*) Do (Asn v_thd 0 ($v_m + #1.0 * v_C.[5] + #5.0 * v_C.[6] + #1.0 * v_C.[12] + #0.5 * v_C.[16] + #1.0 * v_C.[17] + #2.0 * v_C.[22]));
  (*96*) Do (Asn v_k0 0 ((Exp (#5.6050499592221364e+01 - #4.8 * $v_logT - #2.7979007806169443e+03 / $v_T))));
  (*97*) Do (Asn v_kinf 0 ((Exp (#2.0107079697522593e+01 + #0.454 * $v_logT - #1.3083708686338230e+03 / $v_T))));
  (*98*) Do (Asn v_Pr 0 ($v_k0 * $v_thd / $v_kinf));
  (*99*) Do (Asn v_logFcent 0 ((Log10 (Fmax (#2.42000000e-01 * (Exp ((- $v_T) / #9.40000000e+01)) + #7.58000000e-01 * (Exp ((- $v_T) / #1.55500000e+03)) + (Exp (#(-4.20000000e+03) / $v_T))) #1.0e-300))));
  (*100*) Do (Asn v_A 0 ((Log10 (Fmax $v_Pr #1.0e-300)) - #0.67 * $v_logFcent - #0.4));
  (*101*) Do (Asn v_B 0 (#0.806 - #1.1762 * $v_logFcent - #0.14 * (Log10 (Fmax $v_Pr #1.0e-300))));
  (*102*) Do (Asn v_pres_mod 11 ((Pow #10.0 ($v_logFcent / (#1.0 + $v_A * $v_A / ($v_B * $v_B)))) * $v_Pr / (#1.0 + $v_Pr)));
  (*105*) Do (Asn v_thd 0 ($v_m - #0.3 * v_C.[0] + #1.0 * v_C.[5] + #5.0 * v_C.[6] + #1.0 * v_C.[12] + #0.5 * v_C.[16] + #1.0 * v_C.[17] + #2.0 * v_C.[22]));
  (*106*) Do (Asn v_k0 0 ((Exp (#6.3076845661346454e+01 - #4.76 * $v_logT - #1.2278557382563567e+03 / $v_T))));
  (*107*) Do (Asn v_kinf 0 ((Exp (#3.0172623109393093e+01 - #0.63 * $v_logT - #1.9273309334105929e+02 / $v_T))));
  (*108*) Do (Asn v_Pr 0 ($v_k0 * $v_thd / $v_kinf));
  (*109*) Do (Asn v_logFcent 0 ((Log10 (Fmax (#2.17000000e-01 * (Exp ((- $v_T) / #7.40000000e+01)) + #7.83000000e-01 * (Exp ((- $v_T) / #2.94100000e+03)) + (Exp (#(-6.96400000e+03) / $v_T))) #1.0e-300))));
  (*110*) Do (Asn v_A 0 ((Log10 (Fmax $v_Pr #1.0e-300)) - #0.67 * $v_logFcent - #0.4));
  (*111*) Do (Asn v_B 0 (#0.806 - #1.1762 * $v_logFcent - #0.14 * (Log10 (Fmax $v_Pr #1.0e-300))));
  (*112*) Do (Asn v_pres_mod 12 ((Pow #10.0 ($v_logFcent / (#1.0 + $v_A * $v_A / ($v_B * $v_B)))) * $v_Pr / (#1.0 + $v_Pr)));
  (*115*) Do (Asn v_thd 0 ($v_m - #0.3 * v_C.[0] + #1.0 * v_C.[5] + #5.0 * v_C.[6] + #1.0 * v_C.[12] + #0.5 * v_C.[16] + #1.0 * v_C.[17] + #2.0 * v_C.[22]));
  (*116*) Do (Asn v_k0 0 ((Exp (#1.0188472363832375e+02 - #9.67 * $v_logT - #3.1300256934239915e+03 / $v_T))));
  (*117*) Do (Asn v_kinf 0 ((Exp (#3.0685022297606515e+01 - #0.97 * $v_logT - #3.1199613021268084e+02 / $v_T))));
  (*118*) Do (Asn v_Pr 0 ($v_k0 * $v_thd / $v_kinf));
  (*119*) Do (Asn v_logFcent 0 ((Log10 (Fmax (#4.67500000e-01 * (Exp ((- $v_T) / #1.51000000e+02)) + #5.32500000e-01 * (Exp ((- $v_T) / #1.03800000e+03)) + (Exp (#(-4.97000000e+03) / $v_T))) #1.0e-300))));
  (*120*) Do (Asn v_A 0 ((Log10 (Fmax $v_Pr #1.0e-300)) - #0.67 * $v_logFcent - #0.4));
  (*121*) Do (Asn v_B 0 (#0.806 - #1.1762 * $v_logFcent - #0.14 * (Log10 (Fmax $v_Pr #1.0e-300))));
  (*122*) Do (Asn v_pres_mod 13 ((Pow #10.0 ($v_logFcent / (#1.0 + $v_A * $v_A / ($v_B * $v_B)))) * $v_Pr / (#1.0 + $v_Pr)));
  (*125*) Do (Asn v_thd 0 ($v_m - #0.3 * v_C.[0] + #1.0 * v_C.[5] + #5.0 * v_C.[6] + #1.0 * v_C.[12] + #0.5 * v_C.[16] + #1.0 * v_C.[17] + #2.0 * v_C.[18] + #2.0 * v_C.[20] + #2.0 * v_C.[22]));
  (*126*) Do (Asn v_k0 0 ((Exp (#5.6204000710479832e+01 - #3.4 * $v_logT - #1.8014616300915004e+04 / $v_T))));
  (*127*) Do (Asn v_kinf 0 ((Exp (#1.7468762834435058e+01 + #1.62 * $v_logT - #1.8643379082815227e+04 / $v_T))));
  (*128*) Do (Asn v_Pr 0 ($v_k0 * $v_thd / $v_kinf));
  (*129*) Do (Asn v_logFcent 0 ((Log10 (Fmax (#(-9.81600000e-01) * (Exp ((- $v_T) / #5.38370000e+03)) + #1.98160000e+00 * (Exp ((- $v_T) / #4.29320000e+00)) + (Exp (#7.95000000e-02 / $v_T))) #1.0e-300))));
  (*130*) Do (Asn v_A 0 ((Log10 (Fmax $v_Pr #1.0e-300)) - #0.67 * $v_logFcent - #0.4));
  (*131*) Do (Asn v_B 0 (#0.806 - #1.1762 * $v_logFcent - #0.14 * (Log10 (Fmax $v_Pr #1.0e-300))));
  (*132*) Do (Asn v_pres_mod 14 ((Pow #10.0 ($v_logFcent / (#1.0 + $v_A * $v_A / ($v_B * $v_B)))) * $v_Pr / (#1.0 + $v_Pr)));
  (*135*) Do (Asn v_thd 0 ($v_m - #0.3 * v_C.[0] + #1.0 * v_C.[5] + #5.0 * v_C.[6] + #1.0 * v_C.[12] + #0.5 * v_C.[16] + #1.0 * v_C.[17] + #2.0 * v_C.[18] + #2.0 * v_C.[20] + #2.0 * v_C.[22]));
  (*136*) Do (Asn v_k0 0 ((Exp (#5.5598514468478307e+01 - #3.86 * $v_logT - #1.6706889553324199e+03 / $v_T))));
  (*137*) Do (Asn v_kinf 0 ((Exp (#2.2528270532924488e+01 + #0.27 * $v_logT - #1.4090147816056555e+02 / $v_T))));
  (*138*) Do (Asn v_Pr 0 ($v_k0 * $v_thd / $v_kinf));
  (*139*) Do (Asn v_logFcent 0 ((Log10 (Fmax (#2.18000000e-01 * (Exp ((- $v_T) / #2.07500000e+02)) + #7.82000000e-01 * (Exp ((- $v_T) / #2.66300000e+03)) + (Exp (#(-6.09500000e+03) / $v_T))) #1.0e-300))));
  (*140*) Do (Asn v_A 0 ((Log10 (Fmax $v_Pr #1.0e-300)) - #0.67 * $v_logFcent - #0.4));
  (*141*) Do (Asn v_B 0 (#0.806 - #1.1762 * $v_logFcent - #0.14 * (Log10 (Fmax $v_Pr #1.0e-300))));
  (*142*) Do (Asn v_pres_mod 15 ((Pow #10.0 ($v_logFcent / (#1.0 + $v_A * $v_A / ($v_B * $v_B)))) * $v_Pr / (#1.0 + $v_Pr)));
  (*145*) Do (Asn v_thd 0 ($v_m - #0.3 * v_C.[0] + #1.0 * v_C.[5] + #5.0 * v_C.[6] + #1.0 * v_C.[12] + #0.5 * v_C.[16] + #1.0 * v_C.[17] + #2.0 * v_C.[18] + #2.0 * v_C.[20] + #2.0 * v_C.[22]));
  (*146*) Do (Asn v_k0 0 ((Exp (#1.2118603866293091e+02 - #11.94 * $v_logT - #4.9163545047610469e+03 / $v_T))));
  (*147*) Do (Asn v_kinf 0 (#25000000000.0));
  (*148*) Do (Asn v_Pr 0 ($v_k0 * $v_thd / $v_kinf));
  (*149*) Do (Asn v_logFcent 0 ((Log10 (Fmax (#8.25000000e-01 * (Exp ((- $v_T) / #1.34060000e+03)) + #1.75000000e-01 * (Exp ((- $v_T) / #6.00000000e+04)) + (Exp (#(-1.01398000e+04) / $v_T))) #1.0e-300))));
  (*150*) Do (Asn v_A 0 ((Log10 (Fmax $v_Pr #1.0e-300)) - #0.67 * $v_logFcent - #0.4));
  (*151*) Do (Asn v_B 0 (#0.806 - #1.1762 * $v_logFcent - #0.14 * (Log10 (Fmax $v_Pr #1.0e-300))));
  (*152*) Do (Asn v_pres_mod 16 ((Pow #10.0 ($v_logFcent / (#1.0 + $v_A * $v_A / ($v_B * $v_B)))) * $v_Pr / (#1.0 + $v_Pr)));
  (*155*) Do (Asn v_thd 0 ($v_m - #0.3 * v_C.[0] + #1.0 * v_C.[5] + #5.0 * v_C.[6] + #1.0 * v_C.[12] + #0.5 * v_C.[16] + #1.0 * v_C.[17] + #2.0 * v_C.[22]));
  (*156*) Do (Asn v_k0 0 ((Exp (#2.9181770032013969e+01 - #3.8006160855553117e+02 / $v_T))));
  (*157*) Do (Asn v_kinf 0 ((Exp (#1.5195535306070569e+01 + #1.28 * $v_logT - #6.4947026699418120e+02 / $v_T))));
  (*158*) Do (Asn v_Pr 0 ($v_k0 * $v_thd / $v_kinf));
  (*159*) Do (Asn v_logFcent 0 ((Log10 (Fmax (#2.40000000e-01 * (Exp ((- $v_T) / #4.00000000e+01)) + #7.60000000e-01 * (Exp ((- $v_T) / #1.02500000e+03))) #1.0e-300))));
  (*160*) Do (Asn v_A 0 ((Log10 (Fmax $v_Pr #1.0e-300)) - #0.67 * $v_logFcent - #0.4));
  (*161*) Do (Asn v_B 0 (#0.806 - #1.1762 * $v_logFcent - #0.14 * (Log10 (Fmax $v_Pr #1.0e-300))));
  (*162*) Do (Asn v_pres_mod 17 ((Pow #10.0 ($v_logFcent / (#1.0 + $v_A * $v_A / ($v_B * $v_B)))) * $v_Pr / (#1.0 + $v_Pr)));
  (*165*) Do (Asn v_thd 0 ($v_m - #0.3 * v_C.[0] + #1.0 * v_C.[5] + #5.0 * v_C.[6] + #1.0 * v_C.[12] + #0.5 * v_C.[16] + #1.0 * v_C.[17] + #2.0 * v_C.[22]));
  (*166*) Do (Asn v_k0 0 ((Exp (#8.1278612893528006e+01 - #7.08 * $v_logT - #3.3640227910835024e+03 / $v_T))));
  (*167*) Do (Asn v_kinf 0 ((Exp (#3.3886771157681913e+01 - #0.99 * $v_logT - #7.9508691247747697e+02 / $v_T))));
  (*168*) Do (Asn v_Pr 0 ($v_k0 * $v_thd / $v_kinf));
  (*169*) Do (Asn v_logFcent 0 ((Log10 (Fmax (#1.57800000e-01 * (Exp ((- $v_T) / #1.25000000e+02)) + #8.42200000e-01 * (Exp ((- $v_T) / #2.21900000e+03)) + (Exp (#(-6.88200000e+03) / $v_T))) #1.0e-300))));
  (*170*) Do (Asn v_A 0 ((Log10 (Fmax $v_Pr #1.0e-300)) - #0.67 * $v_logFcent - #0.4));
  (*171*) Do (Asn v_B 0 (#0.806 - #1.1762 * $v_logFcent - #0.14 * (Log10 (Fmax $v_Pr #1.0e-300))));
  (*172*) Do (Asn v_pres_mod 18 ((Pow #10.0 ($v_logFcent / (#1.0 + $v_A * $v_A / ($v_B * $v_B)))) * $v_Pr / (#1.0 + $v_Pr)));
  (*175*) Do (Asn v_thd 0 ($v_m - #0.3 * v_C.[0] + #1.0 * v_C.[5] + #5.0 * v_C.[6] + #1.0 * v_C.[12] + #0.5 * v_C.[16] + #1.0 * v_C.[17] + #2.0 * v_C.[22]));
  (*176*) Do (Asn v_k0 0 ((Exp (#1.1556750958063344e+02 - #11.79 * $v_logT - #4.5211761804771468e+03 / $v_T))));
  (*177*) Do (Asn v_kinf 0 (#15000000000.0));
  (*178*) Do (Asn v_Pr 0 ($v_k0 * $v_thd / $v_kinf));
  (*179*) Do (Asn v_logFcent 0 ((Log10 (Fmax (#8.02000000e-01 * (Exp ((- $v_T) / #2.27790000e+03)) + #1.98000000e-01 * (Exp ((- $v_T) / #6.00000000e+04)) + (Exp (#(-5.72320000e+03) / $v_T))) #1.0e-300))));
  (*180*) Do (Asn v_A 0 ((Log10 (Fmax $v_Pr #1.0e-300)) - #0.67 * $v_logFcent - #0.4));
  (*181*) Do (Asn v_B 0 (#0.806 - #1.1762 * $v_logFcent - #0.14 * (Log10 (Fmax $v_Pr #1.0e-300))));
  (*182*) Do (Asn v_pres_mod 19 ((Pow #10.0 ($v_logFcent / (#1.0 + $v_A * $v_A / ($v_B * $v_B)))) * $v_Pr / (#1.0 + $v_Pr)));
  (*185*) Do (Asn v_thd 0 ($v_m - #0.3 * v_C.[0] + #1.0 * v_C.[5] + #5.0 * v_C.[6] + #1.0 * v_C.[12] + #0.5 * v_C.[16] + #1.0 * v_C.[17] + #2.0 * v_C.[22]));
  (*186*) Do (Asn v_k0 0 ((Exp (#1.2462477396391213e+02 - #12.0 * $v_logT - #3.0031137191665107e+03 / $v_T))));
  (*187*) Do (Asn v_kinf 0 (#2e+11));
  (*188*) Do (Asn v_Pr 0 ($v_k0 * $v_thd / $v_kinf));
  (*189*) Do (Asn v_logFcent 0 ((Log10 (Fmax (#9.80000000e-01 * (Exp ((- $v_T) / #1.09660000e+03)) + #2.00000000e-02 * (Exp ((- $v_T) / #1.09660000e+03)) + (Exp (#(-6.85950000e+03) / $v_T))) #1.0e-300))));
  (*190*) Do (Asn v_A 0 ((Log10 (Fmax $v_Pr #1.0e-300)) - #0.67 * $v_logFcent - #0.4));
  (*191*) Do (Asn v_B 0 (#0.806 - #1.1762 * $v_logFcent - #0.14 * (Log10 (Fmax $v_Pr #1.0e-300))));
  (*192*) Do (Asn v_pres_mod 20 ((Pow #10.0 ($v_logFcent / (#1.0 + $v_A * $v_A / ($v_B * $v_B)))) * $v_Pr / (#1.0 + $v_Pr)));
  (*195*) Do (Asn v_thd 0 ($v_m - #0.3 * v_C.[0] + #1.0 * v_C.[5] + #5.0 * v_C.[6] + #1.0 * v_C.[12] + #0.5 * v_C.[16] + #1.0 * v_C.[17] + #2.0 * v_C.[22]));
  (*196*) Do (Asn v_k0 0 ((Exp (#1.2570313239567574e+02 - #12.81 * $v_logT - #3.1451222803697665e+03 / $v_T))));
  (*197*) Do (Asn v_kinf 0 ((Exp (#2.5328436022934504e+01 - #0.32 * $v_logT - #(-1.3199449186255836e+02) / $v_T))));
  (*198*) Do (Asn v_Pr 0 ($v_k0 * $v_thd / $v_kinf));
  (*199*) Do (Asn v_logFcent 0 ((Log10 (Fmax (#8.96000000e-01 * (Exp ((- $v_T) / #1.60600000e+03)) + #1.04000000e-01 * (Exp ((- $v_T) / #6.00000000e+04)) + (Exp (#(-6.11840000e+03) / $v_T))) #1.0e-300))));
  (*200*) Do (Asn v_A 0 ((Log10 (Fmax $v_Pr #1.0e-300)) - #0.67 * $v_logFcent - #0.4));
  (*201*) Do (Asn v_B 0 (#0.806 - #1.1762 * $v_logFcent - #0.14 * (Log10 (Fmax $v_Pr #1.0e-300))));
  (*202*) Do (Asn v_pres_mod 21 ((Pow #10.0 ($v_logFcent / (#1.0 + $v_A * $v_A / ($v_B * $v_B)))) * $v_Pr / (#1.0 + $v_Pr)));
  (*205*) Do (Asn v_thd 0 ($v_m - #0.3 * v_C.[0] + #1.0 * v_C.[5] + #5.0 * v_C.[6] + #1.0 * v_C.[12] + #0.5 * v_C.[16] + #1.0 * v_C.[17] + #2.0 * v_C.[22]));
  (*206*) Do (Asn v_k0 0 ((Exp (#7.5516903160921473e+01 - #6.66 * $v_logT - #3.5225369540141382e+03 / $v_T))));
  (*207*) Do (Asn v_kinf 0 ((Exp (#2.3311029872174121e+01 - #1.6408480351362714e+03 / $v_T))));
  (*208*) Do (Asn v_Pr 0 ($v_k0 * $v_thd / $v_kinf));
  (*209*) Do (Asn v_logFcent 0 ((Log10 (Fmax (#0.00000000e+00 * (Exp ((- $v_T) / #1.00000000e+03)) + #1.00000000e+00 * (Exp ((- $v_T) / #1.31000000e+03)) + (Exp (#(-4.80970000e+04) / $v_T))) #1.0e-300))));
  (*210*) Do (Asn v_A 0 ((Log10 (Fmax $v_Pr #1.0e-300)) - #0.67 * $v_logFcent - #0.4));
  (*211*) Do (Asn v_B 0 (#0.806 - #1.1762 * $v_logFcent - #0.14 * (Log10 (Fmax $v_Pr #1.0e-300))));
  (*212*) Do (Asn v_pres_mod 22 ((Pow #10.0 ($v_logFcent / (#1.0 + $v_A * $v_A / ($v_B * $v_B)))) * $v_Pr / (#1.0 + $v_Pr)));
  (*215*) Do (Asn v_thd 0 ($v_m - #0.3 * v_C.[0] + #1.0 * v_C.[5] + #5.0 * v_C.[6] + #1.0 * v_C.[12] + #0.5 * v_C.[16] + #1.0 * v_C.[17] + #2.0 * v_C.[22]));
  (*216*) Do (Asn v_k0 0 ((Exp (#9.7810513984510706e+01 - #9.32 * $v_logT - #2.9355816535624112e+03 / $v_T))));
  (*217*) Do (Asn v_kinf 0 (#36000000000.0));
  (*218*) Do (Asn v_Pr 0 ($v_k0 * $v_thd / $v_kinf));
  (*219*) Do (Asn v_logFcent 0 ((Log10 (Fmax (#5.02000000e-01 * (Exp ((- $v_T) / #1.31400000e+03)) + #4.98000000e-01 * (Exp ((- $v_T) / #1.31400000e+03)) + (Exp (#(-5.00000000e+04) / $v_T))) #1.0e-300))));
  (*220*) Do (Asn v_A 0 ((Log10 (Fmax $v_Pr #1.0e-300)) - #0.67 * $v_logFcent - #0.4));
  (*221*) Do (Asn v_B 0 (#0.806 - #1.1762 * $v_logFcent - #0.14 * (Log10 (Fmax $v_Pr #1.0e-300))));
  (*222*) Do (Asn v_pres_mod 23 ((Pow #10.0 ($v_logFcent / (#1.0 + $v_A * $v_A / ($v_B * $v_B)))) * $v_Pr / (#1.0 + $v_Pr)));
  (*225*) Do (Asn v_thd 0 ($v_m - #0.3 * v_C.[0] + #1.0 * v_C.[5] + #5.0 * v_C.[6] + #1.0 * v_C.[12] + #0.5 * v_C.[16] + #1.0 * v_C.[17] + #2.0 * v_C.[22]));
  (*226*) Do (Asn v_k0 0 ((Exp (#7.5516903160921473e+01 - #6.66 * $v_logT - #3.5225369540141382e+03 / $v_T))));
  (*227*) Do (Asn v_kinf 0 ((Exp (#2.3311029872174121e+01 - #1.6408480351362714e+03 / $v_T))));
  (*228*) Do (Asn v_Pr 0 ($v_k0 * $v_thd / $v_kinf));
  (*229*) Do (Asn v_logFcent 0 ((Log10 (Fmax (#0.00000000e+00 * (Exp ((- $v_T) / #1.00000000e+03)) + #1.00000000e+00 * (Exp ((- $v_T) / #1.31000000e+03)) + (Exp (#(-4.80970000e+04) / $v_T))) #1.0e-300))));
  (*230*) Do (Asn v_A 0 ((Log10 (Fmax $v_Pr #1.0e-300)) - #0.67 * $v_logFcent - #0.4));
  (*231*) Do (Asn v_B 0 (#0.806 - #1.1762 * $v_logFcent - #0.14 * (Log10 (Fmax $v_Pr #1.0e-300))));
  (*232*) Do (Asn v_pres_mod 24 ((Pow #10.0 ($v_logFcent / (#1.0 + $v_A * $v_A / ($v_B * $v_B)))) * $v_Pr / (#1.0 + $v_Pr)));
  (*235*) Do (Asn v_thd 0 ($v_m - #0.3 * v_C.[0] + #1.0 * v_C.[5] + #5.0 * v_C.[6] + #1.0 * v_C.[12] + #0.5 * v_C.[16] + #1.0 * v_C.[17] + #2.0 * v_C.[22]));
  (*236*) Do (Asn v_k0 0 ((Exp (#7.5516903160921473e+01 - #6.66 * $v_logT - #3.5225369540141382e+03 / $v_T))));
  (*237*) Do (Asn v_kinf 0 ((Exp (#2.3311029872174121e+01 - #1.6408480351362714e+03 / $v_T))));
  (*238*) Do (Asn v_Pr 0 ($v_k0 * $v_thd / $v_kinf));
  (*239*) Do (Asn v_logFcent 0 ((Log10 (Fmax (#0.00000000e+00 * (Exp ((- $v_T) / #1.00000000e+03)) + #1.00000000e+00 * (Exp ((- $v_T) / #1.31000000e+03)) + (Exp (#(-4.80970000e+04) / $v_T))) #1.0e-300))));
  (*240*) Do (Asn v_A 0 ((Log10 (Fmax $v_Pr #1.0e-300)) - #0.67 * $v_logFcent - #0.4));
  (*241*) Do (Asn v_B 0 (#0.806 - #1.1762 * $v_logFcent - #0.14 * (Log10 (Fmax $v_Pr #1.0e-300))));
  (*242*) Do (Asn v_pres_mod 25 ((Pow #10.0 ($v_logFcent / (#1.0 + $v_A * $v_A / ($v_B * $v_B)))) * $v_Pr / (#1.0 + $v_Pr)));
  (*245*) Do (Asn v_thd 0 ($v_m - #0.3 * v_C.[0] + #1.0 * v_C.[5] + #5.0 * v_C.[6] + #1.0 * v_C.[12] + #0.5 * v_C.[16] + #1.0 * v_C.[17] + #2.0 * v_C.[22]));
  (*246*) Do (Asn v_k0 0 ((Exp (#7.5516903160921473e+01 - #6.66 * $v_logT - #3.5225369540141382e+03 / $v_T))));
  (*247*) Do (Asn v_kinf 0 ((Exp (#2.3311029872174121e+01 - #1.6408480351362714e+03 / $v_T))));
  (*248*) Do (Asn v_Pr 0 ($v_k0 * $v_thd / $v_kinf));
  (*249*) Do (Asn v_logFcent 0 ((Log10 (Fmax (#0.00000000e+00 * (Exp ((- $v_T) / #1.00000000e+03)) + #1.00000000e+00 * (Exp ((- $v_T) / #1.31000000e+03)) + (Exp (#(-4.80970000e+04) / $v_T))) #1.0e-300))));
  (*250*) Do (Asn v_A 0 ((Log10 (Fmax $v_Pr #1.0e-300)) - #0.67 * $v_logFcent - #0.4));
  (*251*) Do (Asn v_B 0 (#0.806 - #1.1762 * $v_logFcent - #0.14 * (Log10 (Fmax $v_Pr #1.0e-300))));
  (*252*) Do (Asn v_pres_mod 26 ((Pow #10.0 ($v_logFcent / (#1.0 + $v_A * $v_A / ($v_B * $v_B)))) * $v_Pr / (#1.0 + $v_Pr)));
  (*255*) Do (Asn v_thd 0 ($v_m - #0.3 * v_C.[0] + #1.0 * v_C.[5] + #5.0 * v_C.[6] + #1.0 * v_C.[12] + #0.5 * v_C.[16] + #1.0 * v_C.[17] + #2.0 * v_C.[22]));
  (*256*) Do (Asn v_k0 0 ((Exp (#7.5516903160921473e+01 - #6.66 * $v_logT - #3.5225369540141382e+03 / $v_T))));
  (*257*) Do (Asn v_kinf 0 ((Exp (#2.3311029872174121e+01 - #1.6408480351362714e+03 / $v_T))));
  (*258*) Do (Asn v_Pr 0 ($v_k0 * $v_thd / $v_kinf));
  (*259*) Do (Asn v_logFcent 0 ((Log10 (Fmax (#0.00000000e+00 * (Exp ((- $v_T) / #1.00000000e+03)) + #1.00000000e+00 * (Exp ((- $v_T) / #1.31000000e+03)) + (Exp (#(-4.80970000e+04) / $v_T))) #1.0e-300))));
  (*260*) Do (Asn v_A 0 ((Log10 (Fmax $v_Pr #1.0e-300)) - #0.67 * $v_logFcent - #0.4));
  (*261*) Do (Asn v_B 0 (#0.806 - #1.1762 * $v_logFcent - #0.14 * (Log10 (Fmax $v_Pr #1.0e-300))));
  (*262*) Do (Asn v_pres_mod 27 ((Pow #10.0 ($v_logFcent / (#1.0 + $v_A * $v_A / ($v_B * $v_B)))) * $v_Pr / (#1.0 + $v_Pr)));
  (*265*) Do (Asn v_thd 0 ($v_m - #0.3 * v_C.[0] + #1.0 * v_C.[5] + #5.0 * v_C.[6] + #1.0 * v_C.[12] + #0.5 * v_C.[16] + #1.0 * v_C.[17] + #2.0 * v_C.[22]));
  (*266*) Do (Asn v_k0 0 ((Exp (#7.5516903160921473e+01 - #6.66 * $v_logT - #3.5225369540141382e+03 / $v_T))));
  (*267*) Do (Asn v_kinf 0 ((Exp (#2.3311029872174121e+01 - #1.6408480351362714e+03 / $v_T))));
  (*268*) Do (Asn v_Pr 0 ($v_k0 * $v_thd / $v_kinf));
  (*269*) Do (Asn v_logFcent 0 ((Log10 (Fmax (#0.00000000e+00 * (Exp ((- $v_T) / #1.00000000e+03)) + #1.00000000e+00 * (Exp ((- $v_T) / #1.31000000e+03)) + (Exp (#(-4.80970000e+04) / $v_T))) #1.0e-300))));
  (*270*) Do (Asn v_A 0 ((Log10 (Fmax $v_Pr #1.0e-300)) - #0.67 * $v_logFcent - #0.4));
  (*271*) Do (Asn v_B 0 (#0.806 - #1.1762 * $v_logFcent - #0.14 * (Log10 (Fmax $v_Pr #1.0e-300))));
  (*272*) Do (Asn v_pres_mod 28 ((Pow #10.0 ($v_logFcent / (#1.0 + $v_A * $v_A / ($v_B * $v_B)))) * $v_Pr / (#1.0 + $v_Pr)));
  (*275*) Do (Asn v_thd 0 ($v_m - #0.3 * v_C.[0] + #1.0 * v_C.[5] + #5.0 * v_C.[6] + #1.0 * v_C.[12] + #0.5 * v_C.[16] + #1.0 * v_C.[17] + #2.0 * v_C.[22]));
  (*276*) Do (Asn v_k0 0 ((Exp (#7.5516903160921473e+01 - #6.66 * $v_logT - #3.5225369540141382e+03 / $v_T))));
  (*277*) Do (Asn v_kinf 0 ((Exp (#2.3311029872174121e+01 - #1.6408480351362714e+03 / $v_T))));
  (*278*) Do (Asn v_Pr 0 ($v_k0 * $v_thd / $v_kinf));
  (*279*) Do (Asn v_logFcent 0 ((Log10 (Fmax (#0.00000000e+00 * (Exp ((- $v_T) / #1.00000000e+03)) + #1.00000000e+00 * (Exp ((- $v_T) / #1.31000000e+03)) + (Exp (#(-4.80970000e+04) / $v_T))) #1.0e-300))));
  (*280*) Do (Asn v_A 0 ((Log10 (Fmax $v_Pr #1.0e-300)) - #0.67 * $v_logFcent - #0.4));
  (*281*) Do (Asn v_B 0 (#0.806 - #1.1762 * $v_logFcent - #0.14 * (Log10 (Fmax $v_Pr #1.0e-300))));
  (*282*) Do (Asn v_pres_mod 29 ((Pow #10.0 ($v_logFcent / (#1.0 + $v_A * $v_A / ($v_B * $v_B)))) * $v_Pr / (#1.0 + $v_Pr)));
  (*285*) Do (Asn v_thd 0 ($v_m - #0.3 * v_C.[0] + #1.0 * v_C.[5] + #5.0 * v_C.[6] + #1.0 * v_C.[12] + #0.5 * v_C.[16] + #1.0 * v_C.[17] + #2.0 * v_C.[22]));
  (*286*) Do (Asn v_k0 0 ((Exp (#7.5516903160921473e+01 - #6.66 * $v_logT - #3.5225369540141382e+03 / $v_T))));
  (*287*) Do (Asn v_kinf 0 ((Exp (#2.3311029872174121e+01 - #1.6408480351362714e+03 / $v_T))));
  (*288*) Do (Asn v_Pr 0 ($v_k0 * $v_thd / $v_kinf));
  (*289*) Do (Asn v_logFcent 0 ((Log10 (Fmax (#0.00000000e+00 * (Exp ((- $v_T) / #1.00000000e+03)) + #1.00000000e+00 * (Exp ((- $v_T) / #1.31000000e+03)) + (Exp (#(-4.80970000e+04) / $v_T))) #1.0e-300))));
  (*290*) Do (Asn v_A 0 ((Log10 (Fmax $v_Pr #1.0e-300)) - #0.67 * $v_logFcent - #0.4));
  (*291*) Do (Asn v_B 0 (#0.806 - #1.1762 * $v_logFcent - #0.14 * (Log10 (Fmax $v_Pr #1.0e-300))));
  (*292*) Do (Asn v_pres_mod 30 ((Pow #10.0 ($v_logFcent / (#1.0 + $v_A * $v_A / ($v_B * $v_B)))) * $v_Pr / (#1.0 + $v_Pr)))
].

(** [dydt], yao/lib/src/dydt.c:7-135 without the calls of the other functions, whose place
    is shown by [lib_dydt]. *)
Definition yao_dydt : list stmt := [
  (*33*) Do (Asn v_cp_avg 0 (v_cp.[0] * v_y.[1] + v_cp.[1] * v_y.[2] + v_cp.[2] * v_y.[3] + v_cp.[3] * v_y.[4] + v_cp.[4] * v_y.[5] + v_cp.[5] * v_y.[6] + v_cp.[6] * v_y.[7] + v_cp.[7] * v_y.[8] + v_cp.[8] * v_y.[9] + v_cp.[9] * v_y.[10] + v_cp.[10] * v_y.[11] + v_cp.[11] * v_y.[12] + v_cp.[12] * v_y.[13] + v_cp.[13] * v_y.[14] + v_cp.[14] * v_y.[15] + v_cp.[15] * v_y.[16] + v_cp.[16] * v_y.[17] + v_cp.[17] * v_y.[18] + v_cp.[18] * v_y.[19] + v_cp.[19] * v_y.[20] + v_cp.[20] * v_y.[21] + v_cp.[21] * v_y.[22] + v_cp.[22] * v_y.[23] + v_cp.[23] * v_y.[24] + v_cp.[24] * v_y.[25] + v_cp.[25] * v_y.[26] + v_cp.[26] * v_y.[27] + v_cp.[27] * v_y.[28] + v_cp.[28] * v_y.[29] + v_cp.[29] * v_y.[30] + v_cp.[30] * v_y.[31] + v_cp.[31] * v_y.[32] + v_cp.[32] * v_y.[33] + v_cp.[33] * v_y.[34] + v_cp.[34] * v_y.[35] + v_cp.[35] * v_y.[36] + v_cp.[36] * v_y.[37] + v_cp.[37] * v_y.[38] + v_cp.[38] * v_y.[39] + v_cp.[39] * v_y.[40] + v_cp.[40] * v_y.[41] + v_cp.[41] * v_y.[42] + v_cp.[42] * v_y.[43] + v_cp.[43] * v_y.[44] + v_cp.[44] * v_y.[45] + v_cp.[45] * v_y.[46] + v_cp.[46] * v_y.[47] + v_cp.[47] * v_y.[48] + v_cp.[48] * v_y.[49] + v_cp.[49] * v_y.[50] + v_cp.[50] * v_y.[51] + v_cp.[51] * v_y.[52] + v_cp.[52] * v_y.[53] + v_cp.[53] * $v_y_N));
  (*52*) Do (Asn v_dy 0 (#(-1.0) / ($v_rho * $v_cp_avg) * (v_dy.[2] * v_h.[1] * #1.0079400000000001e+00 + v_dy.[3] * v_h.[2] * #1.5999400000000000e+01 + v_dy.[4] * v_h.[3] * #1.7007339999999999e+01 + v_dy.[5] * v_h.[4] * #3.3006740000000001e+01 + v_dy.[6] * v_h.[5] * #2.0158800000000001e+00 + v_dy.[7] * v_h.[6] * #1.8015280000000001e+01 + v_dy.[8] * v_h.[7] * #3.4014679999999998e+01 + v_dy.[9] * v_h.[8] * #3.1998799999999999e+01 + v_dy.[10] * v_h.[9] * #1.4026879999999998e+01 + v_dy.[11] * v_h.[10] * #1.4026879999999998e+01 + v_dy.[12] * v_h.[11] * #1.5034820000000000e+01 + v_dy.[13] * v_h.[12] * #1.6042760000000001e+01 + v_dy.[14] * v_h.[13] * #2.9018339999999998e+01 + v_dy.[15] * v_h.[14] * #3.0026280000000000e+01 + v_dy.[16] * v_h.[15] * #3.1034219999999998e+01 + v_dy.[17] * v_h.[16] * #2.8010399999999997e+01 + v_dy.[18] * v_h.[17] * #4.4009799999999998e+01 + v_dy.[19] * v_h.[18] * #2.6037879999999998e+01 + v_dy.[20] * v_h.[19] * #2.7045819999999999e+01 + v_dy.[21] * v_h.[20] * #2.8053759999999997e+01 + v_dy.[22] * v_h.[21] * #2.9061699999999998e+01 + v_dy.[23] * v_h.[22] * #3.0069640000000000e+01 + v_dy.[24] * v_h.[23] * #4.3045220000000000e+01 + v_dy.[25] * v_h.[24] * #4.1072699999999998e+01 + v_dy.[26] * v_h.[25] * #4.2080640000000002e+01 + v_dy.[27] * v_h.[26] * #4.3088580000000000e+01 + v_dy.[28] * v_h.[27] * #5.6064160000000001e+01 + v_dy.[29] * v_h.[28] * #5.5099579999999996e+01 + v_dy.[30] * v_h.[29] * #5.6107519999999994e+01 + v_dy.[31] * v_h.[30] * #5.7115459999999999e+01 + v_dy.[32] * v_h.[31] * #6.9126459999999994e+01 + v_dy.[33] * v_h.[32] * #7.0134399999999999e+01 + v_dy.[34] * v_h.[33] * #7.1142339999999990e+01 + v_dy.[35] * v_h.[34] * #8.4161280000000005e+01 + v_dy.[36] * v_h.[35] * #8.5169219999999996e+01 + v_dy.[37] * v_h.[36] * #9.8188159999999996e+01 + v_dy.[38] * v_h.[37] * #9.9196100000000001e+01 + v_dy.[39] * v_h.[38] * #1.1221503999999999e+02 + v_dy.[40] * v_h.[39] * #1.1322297999999999e+02 + v_dy.[41] * v_h.[40] * #1.2624191999999999e+02 + v_dy.[42] * v_h.[41] * #1.2724985999999998e+02 + v_dy.[43] * v_h.[42] * #1.4026880000000000e+02 + v_dy.[44] * v_h.[43] * #1.4127673999999999e+02 + v_dy.[45] * v_h.[44] * #1.7033843999999999e+02 + v_dy.[46] * v_h.[45] * #1.6933050000000000e+02 + v_dy.[47] * v_h.[46] * #1.6933050000000000e+02 + v_dy.[48] * v_h.[47] * #1.6933050000000000e+02 + v_dy.[49] * v_h.[48] * #1.6832256000000001e+02 + v_dy.[50] * v_h.[49] * #2.0132929999999999e+02 + v_dy.[51] * v_h.[50] * #2.0132929999999999e+02 + v_dy.[52] * v_h.[51] * #2.3332810000000001e+02 + v_dy.[53] * v_h.[52] * #2.1632076000000001e+02)));
  (*81*) Do (MulA v_dy 1 (#3.9948000000000000e+01 / $v_rho));
  (*82*) Do (MulA v_dy 2 (#1.0079400000000001e+00 / $v_rho));
  (*83*) Do (MulA v_dy 3 (#1.5999400000000000e+01 / $v_rho));
  (*84*) Do (MulA v_dy 4 (#1.7007339999999999e+01 / $v_rho));
  (*85*) Do (MulA v_dy 5 (#3.3006740000000001e+01 / $v_rho));
  (*86*) Do (MulA v_dy 6 (#2.0158800000000001e+00 / $v_rho));
  (*87*) Do (MulA v_dy 7 (#1.8015280000000001e+01 / $v_rho));
  (*88*) Do (MulA v_dy 8 (#3.4014679999999998e+01 / $v_rho));
  (*89*) Do (MulA v_dy 9 (#3.1998799999999999e+01 / $v_rho));
  (*90*) Do (MulA v_dy 10 (#1.4026879999999998e+01 / $v_rho));
  (*91*) Do (MulA v_dy 11 (#1.4026879999999998e+01 / $v_rho));
  (*92*) Do (MulA v_dy 12 (#1.5034820000000000e+01 / $v_rho));
  (*93*) Do (MulA v_dy 13 (#1.6042760000000001e+01 / $v_rho));
  (*94*) Do (MulA v_dy 14 (#2.9018339999999998e+01 / $v_rho));
  (*95*) Do (MulA v_dy 15 (#3.0026280000000000e+01 / $v_rho));
  (*96*) Do (MulA v_dy 16 (#3.1034219999999998e+01 / $v_rho));
  (*97*) Do (MulA v_dy 17 (#2.8010399999999997e+01 / $v_rho));
  (*98*) Do (MulA v_dy 18 (#4.4009799999999998e+01 / $v_rho));
  (*99*) Do (MulA v_dy 19 (#2.6037879999999998e+01 / $v_rho));
  (*100*) Do (MulA v_dy 20 (#2.7045819999999999e+01 / $v_rho));
  (*101*) Do (MulA v_dy 21 (#2.8053759999999997e+01 / $v_rho));
  (*102*) Do (MulA v_dy 22 (#2.9061699999999998e+01 / $v_rho));
  (*103*) Do (MulA v_dy 23 (#3.0069640000000000e+01 / $v_rho));
  (*104*) Do (MulA v_dy 24 (#4.3045220000000000e+01 / $v_rho));
  (*105*) Do (MulA v_dy 25 (#4.1072699999999998e+01 / $v_rho));
  (*106*) Do (MulA v_dy 26 (#4.2080640000000002e+01 / $v_rho));
  (*107*) Do (MulA v_dy 27 (#4.3088580000000000e+01 / $v_rho));
  (*108*) Do (MulA v_dy 28 (#5.6064160000000001e+01 / $v_rho));
  (*109*) Do (MulA v_dy 29 (#5.5099579999999996e+01 / $v_rho));
  (*110*) Do (MulA v_dy 30 (#5.6107519999999994e+01 / $v_rho));
  (*111*) Do (MulA v_dy 31 (#5.7115459999999999e+01 / $v_rho));
  (*112*) Do (MulA v_dy 32 (#6.9126459999999994e+01 / $v_rho));
  (*113*) Do (MulA v_dy 33 (#7.0134399999999999e+01 / $v_rho));
  (*114*) Do (MulA v_dy 34 (#7.1142339999999990e+01 / $v_rho));
  (*115*) Do (MulA v_dy 35 (#8.4161280000000005e+01 / $v_rho));
  (*116*) Do (MulA v_dy 36 (#8.5169219999999996e+01 / $v_rho));
  (*117*) Do (MulA v_dy 37 (#9.8188159999999996e+01 / $v_rho));
  (*118*) Do (MulA v_dy 38 (#9.9196100000000001e+01 / $v_rho));
  (*119*) Do (MulA v_dy 39 (#1.1221503999999999e+02 / $v_rho));
  (*120*) Do (MulA v_dy 40 (#1.1322297999999999e+02 / $v_rho));
  (*121*) Do (MulA v_dy 41 (#1.2624191999999999e+02 / $v_rho));
  (*122*) Do (MulA v_dy 42 (#1.2724985999999998e+02 / $v_rho));
  (*123*) Do (MulA v_dy 43 (#1.4026880000000000e+02 / $v_rho));
  (*124*) Do (MulA v_dy 44 (#1.4127673999999999e+02 / $v_rho));
  (*125*) Do (MulA v_dy 45 (#1.7033843999999999e+02 / $v_rho));
  (*126*) Do (MulA v_dy 46 (#1.6933050000000000e+02 / $v_rho));
  (*127*) Do (MulA v_dy 47 (#1.6933050000000000e+02 / $v_rho));
  (*128*) Do (MulA v_dy 48 (#1.6933050000000000e+02 / $v_rho));
  (*129*) Do (MulA v_dy 49 (#1.6832256000000001e+02 / $v_rho));
  (*130*) Do (MulA v_dy 50 (#2.0132929999999999e+02 / $v_rho));
  (*131*) Do (MulA v_dy 51 (#2.0132929999999999e+02 / $v_rho));
  (*132*) Do (MulA v_dy 52 (#2.3332810000000001e+02 / $v_rho));
  (*133*) Do (MulA v_dy 53 (#2.1632076000000001e+02 / $v_rho))
].

(** [mole2mass], yao/lib/src/mass_mole.c:8-132. *)
Definition yao_mole2mass : list stmt := [
  (*12*) Do (Asn v_X_N 0 (#1.0 - (v_X.[0] + v_X.[1] + v_X.[2] + v_X.[3] + v_X.[4] + v_X.[5] + v_X.[6] + v_X.[7] + v_X.[8] + v_X.[9] + v_X.[10] + v_X.[11] + v_X.[12] + v_X.[13] + v_X.[14] + v_X.[15] + v_X.[16] + v_X.[17] + v_X.[18] + v_X.[19] + v_X.[20] + v_X.[21] + v_X.[22] + v_X.[23] + v_X.[24] + v_X.[25] + v_X.[26] + v_X.[27] + v_X.[28] + v_X.[29] + v_X.[30] + v_X.[31] + v_X.[32] + v_X.[33] + v_X.[34] + v_X.[35] + v_X.[36] + v_X.[37] + v_X.[38] + v_X.[39] + v_X.[40] + v_X.[41] + v_X.[42] + v_X.[43] + v_X.[44] + v_X.[45] + v_X.[46] + v_X.[47] + v_X.[48] + v_X.[49] + v_X.[50] + v_X.[51] + v_X.[52])));
  (*21*) Do (Asn v_mw_avg 0 (#0.0));
  (*22*) Do (AddA v_mw_avg 0 (v_X.[0] * #3.9948000000000000e+01));
  (*23*) Do (AddA v_mw_avg 0 (v_X.[1] * #1.0079400000000001e+00));
  (*24*) Do (AddA v_mw_avg 0 (v_X.[2] * #1.5999400000000000e+01));
  (*25*) Do (AddA v_mw_avg 0 (v_X.[3] * #1.7007339999999999e+01));
  (*26*) Do (AddA v_mw_avg 0 (v_X.[4] * #3.3006740000000001e+01));
  (*27*) Do (AddA v_mw_avg 0 (v_X.[5] * #2.0158800000000001e+00));
  (*28*) Do (AddA v_mw_avg 0 (v_X.[6] * #1.8015280000000001e+01));
  (*29*) Do (AddA v_mw_avg 0 (v_X.[7] * #3.4014679999999998e+01));
  (*30*) Do (AddA v_mw_avg 0 (v_X.[8] * #3.1998799999999999e+01));
  (*31*) Do (AddA v_mw_avg 0 (v_X.[9] * #1.4026879999999998e+01));
  (*32*) Do (AddA v_mw_avg 0 (v_X.[10] * #1.4026879999999998e+01));
  (*33*) Do (AddA v_mw_avg 0 (v_X.[11] * #1.5034820000000000e+01));
  (*34*) Do (AddA v_mw_avg 0 (v_X.[12] * #1.6042760000000001e+01));
  (*35*) Do (AddA v_mw_avg 0 (v_X.[13] * #2.9018339999999998e+01));
  (*36*) Do (AddA v_mw_avg 0 (v_X.[14] * #3.0026280000000000e+01));
  (*37*) Do (AddA v_mw_avg 0 (v_X.[15] * #3.1034219999999998e+01));
  (*38*) Do (AddA v_mw_avg 0 (v_X.[16] * #2.8010399999999997e+01));
  (*39*) Do (AddA v_mw_avg 0 (v_X.[17] * #4.4009799999999998e+01));
  (*40*) Do (AddA v_mw_avg 0 (v_X.[18] * #2.6037879999999998e+01));
  (*41*) Do (AddA v_mw_avg 0 (v_X.[19] * #2.7045819999999999e+01));
  (*42*) Do (AddA v_mw_avg 0 (v_X.[20] * #2.8053759999999997e+01));
  (*43*) Do (AddA v_mw_avg 0 (v_X.[21] * #2.9061699999999998e+01));
  (*44*) Do (AddA v_mw_avg 0 (v_X.[22] * #3.0069640000000000e+01));
  (*45*) Do (AddA v_mw_avg 0 (v_X.[23] * #4.3045220000000000e+01));
  (*46*) Do (AddA v_mw_avg 0 (v_X.[24] * #4.1072699999999998e+01));
  (*47*) Do (AddA v_mw_avg 0 (v_X.[25] * #4.2080640000000002e+01));
  (*48*) Do (AddA v_mw_avg 0 (v_X.[26] * #4.3088580000000000e+01));
  (*49*) Do (AddA v_mw_avg 0 (v_X.[27] * #5.6064160000000001e+01));
  (*50*) Do (AddA v_mw_avg 0 (v_X.[28] * #5.5099579999999996e+01));
  (*51*) Do (AddA v_mw_avg 0 (v_X.[29] * #5.6107519999999994e+01));
  (*52*) Do (AddA v_mw_avg 0 (v_X.[30] * #5.7115459999999999e+01));
  (*53*) Do (AddA v_mw_avg 0 (v_X.[31] * #6.9126459999999994e+01));
  (*54*) Do (AddA v_mw_avg 0 (v_X.[32] * #7.0134399999999999e+01));
  (*55*) Do (AddA v_mw_avg 0 (v_X.[33] * #7.1142339999999990e+01));
  (*56*) Do (AddA v_mw_avg 0 (v_X.[34] * #8.4161280000000005e+01));
  (*57*) Do (AddA v_mw_avg 0 (v_X.[35] * #8.5169219999999996e+01));
  (*58*) Do (AddA v_mw_avg 0 (v_X.[36] * #9.8188159999999996e+01));
  (*59*) Do (AddA v_mw_avg 0 (v_X.[37] * #9.9196100000000001e+01));
  (*60*) Do (AddA v_mw_avg 0 (v_X.[38] * #1.1221503999999999e+02));
  (*61*) Do (AddA v_mw_avg 0 (v_X.[39] * #1.1322297999999999e+02));
  (*62*) Do (AddA v_mw_avg 0 (v_X.[40] * #1.2624191999999999e+02));
  (*63*) Do (AddA v_mw_avg 0 (v_X.[41] * #1.2724985999999998e+02));
  (*64*) Do (AddA v_mw_avg 0 (v_X.[42] * #1.4026880000000000e+02));
  (*65*) Do (AddA v_mw_avg 0 (v_X.[43] * #1.4127673999999999e+02));
  (*66*) Do (AddA v_mw_avg 0 (v_X.[44] * #1.7033843999999999e+02));
  (*67*) Do (AddA v_mw_avg 0 (v_X.[45] * #1.6933050000000000e+02));
  (*68*) Do (AddA v_mw_avg 0 (v_X.[46] * #1.6933050000000000e+02));
  (*69*) Do (AddA v_mw_avg 0 (v_X.[47] * #1.6933050000000000e+02));
  (*70*) Do (AddA v_mw_avg 0 (v_X.[48] * #1.6832256000000001e+02));
  (*71*) Do (AddA v_mw_avg 0 (v_X.[49] * #2.0132929999999999e+02));
  (*72*) Do (AddA v_mw_avg 0 (v_X.[50] * #2.0132929999999999e+02));
  (*73*) Do (AddA v_mw_avg 0 (v_X.[51] * #2.3332810000000001e+02));
  (*74*) Do (AddA v_mw_avg 0 (v_X.[52] * #2.1632076000000001e+02));
  (*75*) Do (AddA v_mw_avg 0 ($v_X_N * #2.8013480000000001e+01));
  (*78*) Do (Asn v_Y 0 (v_X.[0] * #3.9948000000000000e+01 / $v_mw_avg));
  (*79*) Do (Asn v_Y 1 (v_X.[1] * #1.0079400000000001e+00 / $v_mw_avg));
  (*80*) Do (Asn v_Y 2 (v_X.[2] * #1.5999400000000000e+01 / $v_mw_avg));
  (*81*) Do (Asn v_Y 3 (v_X.[3] * #1.7007339999999999e+01 / $v_mw_avg));
  (*82*) Do (Asn v_Y 4 (v_X.[4] * #3.3006740000000001e+01 / $v_mw_avg));
  (*83*) Do (Asn v_Y 5 (v_X.[5] * #2.0158800000000001e+00 / $v_mw_avg));
  (*84*) Do (Asn v_Y 6 (v_X.[6] * #1.8015280000000001e+01 / $v_mw_avg));
  (*85*) Do (Asn v_Y 7 (v_X.[7] * #3.4014679999999998e+01 / $v_mw_avg));
  (*86*) Do (Asn v_Y 8 (v_X.[8] * #3.1998799999999999e+01 / $v_mw_avg));
  (*87*) Do (Asn v_Y 9 (v_X.[9] * #1.4026879999999998e+01 / $v_mw_avg));
  (*88*) Do (Asn v_Y 10 (v_X.[10] * #1.4026879999999998e+01 / $v_mw_avg));
  (*89*) Do (Asn v_Y 11 (v_X.[11] * #1.5034820000000000e+01 / $v_mw_avg));
  (*90*) Do (Asn v_Y 12 (v_X.[12] * #1.6042760000000001e+01 / $v_mw_avg));
  (*91*) Do (Asn v_Y 13 (v_X.[13] * #2.9018339999999998e+01 / $v_mw_avg));
  (*92*) Do (Asn v_Y 14 (v_X.[14] * #3.0026280000000000e+01 / $v_mw_avg));
  (*93*) Do (Asn v_Y 15 (v_X.[15] * #3.1034219999999998e+01 / $v_mw_avg));
  (*94*) Do (Asn v_Y 16 (v_X.[16] * #2.8010399999999997e+01 / $v_mw_avg));
  (*95*) Do (Asn v_Y 17 (v_X.[17] * #4.4009799999999998e+01 / $v_mw_avg));
  (*96*) Do (Asn v_Y 18 (v_X.[18] * #2.6037879999999998e+01 / $v_mw_avg));
  (*97*) Do (Asn v_Y 19 (v_X.[19] * #2.7045819999999999e+01 / $v_mw_avg));
  (*98*) Do (Asn v_Y 20 (v_X.[20] * #2.8053759999999997e+01 / $v_mw_avg));
  (*99*) Do (Asn v_Y 21 (v_X.[21] * #2.9061699999999998e+01 / $v_mw_avg));
  (*100*) Do (Asn v_Y 22 (v_X.[22] * #3.0069640000000000e+01 / $v_mw_avg));
  (*101*) Do (Asn v_Y 23 (v_X.[23] * #4.3045220000000000e+01 / $v_mw_avg));
  (*102*) Do (Asn v_Y 24 (v_X.[24] * #4.1072699999999998e+01 / $v_mw_avg));
  (*103*) Do (Asn v_Y 25 (v_X.[25] * #4.2080640000000002e+01 / $v_mw_avg));
  (*104*) Do (Asn v_Y 26 (v_X.[26] * #4.3088580000000000e+01 / $v_mw_avg));
  (*105*) Do (Asn v_Y 27 (v_X.[27] * #5.6064160000000001e+01 / $v_mw_avg));
  (*106*) Do (Asn v_Y 28 (v_X.[28] * #5.5099579999999996e+01 / $v_mw_avg));
  (*107*) Do (Asn v_Y 29 (v_X.[29] * #5.6107519999999994e+01 / $v_mw_avg));
  (*108*) Do (Asn v_Y 30 (v_X.[30] * #5.7115459999999999e+01 / $v_mw_avg));
  (*109*) Do (Asn v_Y 31 (v_X.[31] * #6.9126459999999994e+01 / $v_mw_avg));
  (*110*) Do (Asn v_Y 32 (v_X.[32] * #7.0134399999999999e+01 / $v_mw_avg));
  (*111*) Do (Asn v_Y 33 (v_X.[33] * #7.1142339999999990e+01 / $v_mw_avg));
  (*112*) Do (Asn v_Y 34 (v_X.[34] * #8.4161280000000005e+01 / $v_mw_avg));
  (*113*) Do (Asn v_Y 35 (v_X.[35] * #8.5169219999999996e+01 / $v_mw_avg));
  (*114*) Do (Asn v_Y 36 (v_X.[36] * #9.8188159999999996e+01 / $v_mw_avg));
  (*115*) Do (Asn v_Y 37 (v_X.[37] * #9.9196100000000001e+01 / $v_mw_avg));
  (*116*) Do (Asn v_Y 38 (v_X.[38] * #1.1221503999999999e+02 / $v_mw_avg));
  (*117*) Do (Asn v_Y 39 (v_X.[39] * #1.1322297999999999e+02 / $v_mw_avg));
  (*118*) Do (Asn v_Y 40 (v_X.[40] * #1.2624191999999999e+02 / $v_mw_avg));
  (*119*) Do (Asn v_Y 41 (v_X.[41] * #1.2724985999999998e+02 / $v_mw_avg));
  (*120*) Do (Asn v_Y 42 (v_X.[42] * #1.4026880000000000e+02 / $v_mw_avg));
  (*121*) Do (Asn v_Y 43 (v_X.[43] * #1.4127673999999999e+02 / $v_mw_avg));
  (*122*) Do (Asn v_Y 44 (v_X.[44] * #1.7033843999999999e+02 / $v_mw_avg));
  (*123*) Do (Asn v_Y 45 (v_X.[45] * #1.6933050000000000e+02 / $v_mw_avg));
  (*124*) Do (Asn v_Y 46 (v_X.[46] * #1.6933050000000000e+02 / $v_mw_avg));
  (*125*) Do (Asn v_Y 47 (v_X.[47] * #1.6933050000000000e+02 / $v_mw_avg));
  (*126*) Do (Asn v_Y 48 (v_X.[48] * #1.6832256000000001e+02 / $v_mw_avg));
  (*127*) Do (Asn v_Y 49 (v_X.[49] * #2.0132929999999999e+02 / $v_mw_avg));
  (*128*) Do (Asn v_Y 50 (v_X.[50] * #2.0132929999999999e+02 / $v_mw_avg));
  (*129*) Do (Asn v_Y 51 (v_X.[51] * #2.3332810000000001e+02 / $v_mw_avg));
  (*130*) Do (Asn v_Y 52 (v_X.[52] * #2.1632076000000001e+02 / $v_mw_avg))
].

(** [mass2mole], yao/lib/src/mass_mole.c:139-264. *)
Definition yao_mass2mole : list stmt := [
  (*143*) Do (Asn v_Y_N 0 (#1.0 - (v_Y.[0] + v_Y.[1] + v_Y.[2] + v_Y.[3] + v_Y.[4] + v_Y.[5] + v_Y.[6] + v_Y.[7] + v_Y.[8] + v_Y.[9] + v_Y.[10] + v_Y.[11] + v_Y.[12] + v_Y.[13] + v_Y.[14] + v_Y.[15] + v_Y.[16] + v_Y.[17] + v_Y.[18] + v_Y.[19] + v_Y.[20] + v_Y.[21] + v_Y.[22] + v_Y.[23] + v_Y.[24] + v_Y.[25] + v_Y.[26] + v_Y.[27] + v_Y.[28] + v_Y.[29] + v_Y.[30] + v_Y.[31] + v_Y.[32] + v_Y.[33] + v_Y.[34] + v_Y.[35] + v_Y.[36] + v_Y.[37] + v_Y.[38] + v_Y.[39] + v_Y.[40] + v_Y.[41] + v_Y.[42] + v_Y.[43] + v_Y.[44] + v_Y.[45] + v_Y.[46] + v_Y.[47] + v_Y.[48] + v_Y.[49] + v_Y.[50] + v_Y.[51] + v_Y.[52])));
  (*152*) Do (Asn v_mw_avg 0 (#0.0));
  (*153*) Do (AddA v_mw_avg 0 (v_Y.[0] / #3.9948000000000000e+01));
  (*154*) Do (AddA v_mw_avg 0 (v_Y.[1] / #1.0079400000000001e+00));
  (*155*) Do (AddA v_mw_avg 0 (v_Y.[2] / #1.5999400000000000e+01));
  (*156*) Do (AddA v_mw_avg 0 (v_Y.[3] / #1.7007339999999999e+01));
  (*157*) Do (AddA v_mw_avg 0 (v_Y.[4] / #3.3006740000000001e+01));
  (*158*) Do (AddA v_mw_avg 0 (v_Y.[5] / #2.0158800000000001e+00));
  (*159*) Do (AddA v_mw_avg 0 (v_Y.[6] / #1.8015280000000001e+01));
  (*160*) Do (AddA v_mw_avg 0 (v_Y.[7] / #3.4014679999999998e+01));
  (*161*) Do (AddA v_mw_avg 0 (v_Y.[8] / #3.1998799999999999e+01));
  (*162*) Do (AddA v_mw_avg 0 (v_Y.[9] / #1.4026879999999998e+01));
  (*163*) Do (AddA v_mw_avg 0 (v_Y.[10] / #1.4026879999999998e+01));
  (*164*) Do (AddA v_mw_avg 0 (v_Y.[11] / #1.5034820000000000e+01));
  (*165*) Do (AddA v_mw_avg 0 (v_Y.[12] / #1.6042760000000001e+01));
  (*166*) Do (AddA v_mw_avg 0 (v_Y.[13] / #2.9018339999999998e+01));
  (*167*) Do (AddA v_mw_avg 0 (v_Y.[14] / #3.0026280000000000e+01));
  (*168*) Do (AddA v_mw_avg 0 (v_Y.[15] / #3.1034219999999998e+01));
  (*169*) Do (AddA v_mw_avg 0 (v_Y.[16] / #2.8010399999999997e+01));
  (*170*) Do (AddA v_mw_avg 0 (v_Y.[17] / #4.4009799999999998e+01));
  (*171*) Do (AddA v_mw_avg 0 (v_Y.[18] / #2.6037879999999998e+01));
  (*172*) Do (AddA v_mw_avg 0 (v_Y.[19] / #2.7045819999999999e+01));
  (*173*) Do (AddA v_mw_avg 0 (v_Y.[20] / #2.8053759999999997e+01));
  (*174*) Do (AddA v_mw_avg 0 (v_Y.[21] / #2.9061699999999998e+01));
  (*175*) Do (AddA v_mw_avg 0 (v_Y.[22] / #3.0069640000000000e+01));
  (*176*) Do (AddA v_mw_avg 0 (v_Y.[23] / #4.3045220000000000e+01));
  (*177*) Do (AddA v_mw_avg 0 (v_Y.[24] / #4.1072699999999998e+01));
  (*178*) Do (AddA v_mw_avg 0 (v_Y.[25] / #4.2080640000000002e+01));
  (*179*) Do (AddA v_mw_avg 0 (v_Y.[26] / #4.3088580000000000e+01));
  (*180*) Do (AddA v_mw_avg 0 (v_Y.[27] / #5.6064160000000001e+01));
  (*181*) Do (AddA v_mw_avg 0 (v_Y.[28] / #5.5099579999999996e+01));
  (*182*) Do (AddA v_mw_avg 0 (v_Y.[29] / #5.6107519999999994e+01));
  (*183*) Do (AddA v_mw_avg 0 (v_Y.[30] / #5.7115459999999999e+01));
  (*184*) Do (AddA v_mw_avg 0 (v_Y.[31] / #6.9126459999999994e+01));
  (*185*) Do (AddA v_mw_avg 0 (v_Y.[32] / #7.0134399999999999e+01));
  (*186*) Do (AddA v_mw_avg 0 (v_Y.[33] / #7.1142339999999990e+01));
  (*187*) Do (AddA v_mw_avg 0 (v_Y.[34] / #8.4161280000000005e+01));
  (*188*) Do (AddA v_mw_avg 0 (v_Y.[35] / #8.5169219999999996e+01));
  (*189*) Do (AddA v_mw_avg 0 (v_Y.[36] / #9.8188159999999996e+01));
  (*190*) Do (AddA v_mw_avg 0 (v_Y.[37] / #9.9196100000000001e+01));
  (*191*) Do (AddA v_mw_avg 0 (v_Y.[38] / #1.1221503999999999e+02));
  (*192*) Do (AddA v_mw_avg 0 (v_Y.[39] / #1.1322297999999999e+02));
  (*193*) Do (AddA v_mw_avg 0 (v_Y.[40] / #1.2624191999999999e+02));
  (*194*) Do (AddA v_mw_avg 0 (v_Y.[41] / #1.2724985999999998e+02));
  (*195*) Do (AddA v_mw_avg 0 (v_Y.[42] / #1.4026880000000000e+02));
  (*196*) Do (AddA v_mw_avg 0 (v_Y.[43] / #1.4127673999999999e+02));
  (*197*) Do (AddA v_mw_avg 0 (v_Y.[44] / #1.7033843999999999e+02));
  (*198*) Do (AddA v_mw_avg 0 (v_Y.[45] / #1.6933050000000000e+02));
  (*199*) Do (AddA v_mw_avg 0 (v_Y.[46] / #1.6933050000000000e+02));
  (*200*) Do (AddA v_mw_avg 0 (v_Y.[47] / #1.6933050000000000e+02));
  (*201*) Do (AddA v_mw_avg 0 (v_Y.[48] / #1.6832256000000001e+02));
  (*202*) Do (AddA v_mw_avg 0 (v_Y.[49] / #2.0132929999999999e+02));
  (*203*) Do (AddA v_mw_avg 0 (v_Y.[50] / #2.0132929999999999e+02));
  (*204*) Do (AddA v_mw_avg 0 (v_Y.[51] / #2.3332810000000001e+02));
  (*205*) Do (AddA v_mw_avg 0 (v_Y.[52] / #2.1632076000000001e+02));
  (*206*) Do (AddA v_mw_avg 0 ($v_Y_N / #2.8013480000000001e+01));
  (*207*) Do (Asn v_mw_avg 0 (#1.0 / $v_mw_avg));
  (*210*) Do (Asn v_X 0 (v_Y.[0] * $v_mw_avg / #3.9948000000000000e+01));
  (*211*) Do (Asn v_X 1 (v_Y.[1] * $v_mw_avg / #1.0079400000000001e+00));
  (*212*) Do (Asn v_X 2 (v_Y.[2] * $v_mw_avg / #1.5999400000000000e+01));
  (*213*) Do (Asn v_X 3 (v_Y.[3] * $v_mw_avg / #1.7007339999999999e+01));
  (*214*) Do (Asn v_X 4 (v_Y.[4] * $v_mw_avg / #3.3006740000000001e+01));
  (*215*) Do (Asn v_X 5 (v_Y.[5] * $v_mw_avg / #2.0158800000000001e+00));
  (*216*) Do (Asn v_X 6 (v_Y.[6] * $v_mw_avg / #1.8015280000000001e+01));
  (*217*) Do (Asn v_X 7 (v_Y.[7] * $v_mw_avg / #3.4014679999999998e+01));
  (*218*) Do (Asn v_X 8 (v_Y.[8] * $v_mw_avg / #3.1998799999999999e+01));
  (*219*) Do (Asn v_X 9 (v_Y.[9] * $v_mw_avg / #1.4026879999999998e+01));
  (*220*) Do (Asn v_X 10 (v_Y.[10] * $v_mw_avg / #1.4026879999999998e+01));
  (*221*) Do (Asn v_X 11 (v_Y.[11] * $v_mw_avg / #1.5034820000000000e+01));
  (*222*) Do (Asn v_X 12 (v_Y.[12] * $v_mw_avg / #1.6042760000000001e+01));
  (*223*) Do (Asn v_X 13 (v_Y.[13] * $v_mw_avg / #2.9018339999999998e+01));
  (*224*) Do (Asn v_X 14 (v_Y.[14] * $v_mw_avg / #3.0026280000000000e+01));
  (*225*) Do (Asn v_X 15 (v_Y.[15] * $v_mw_avg / #3.1034219999999998e+01));
  (*226*) Do (Asn v_X 16 (v_Y.[16] * $v_mw_avg / #2.8010399999999997e+01));
  (*227*) Do (Asn v_X 17 (v_Y.[17] * $v_mw_avg / #4.4009799999999998e+01));
  (*228*) Do (Asn v_X 18 (v_Y.[18] * $v_mw_avg / #2.6037879999999998e+01));
  (*229*) Do (Asn v_X 19 (v_Y.[19] * $v_mw_avg / #2.7045819999999999e+01));
  (*230*) Do (Asn v_X 20 (v_Y.[20] * $v_mw_avg / #2.8053759999999997e+01));
  (*231*) Do (Asn v_X 21 (v_Y.[21] * $v_mw_avg / #2.9061699999999998e+01));
  (*232*) Do (Asn v_X 22 (v_Y.[22] * $v_mw_avg / #3.0069640000000000e+01));
  (*233*) Do (Asn v_X 23 (v_Y.[23] * $v_mw_avg / #4.3045220000000000e+01));
  (*234*) Do (Asn v_X 24 (v_Y.[24] * $v_mw_avg / #4.1072699999999998e+01));
  (*235*) Do (Asn v_X 25 (v_Y.[25] * $v_mw_avg / #4.2080640000000002e+01));
  (*236*) Do (Asn v_X 26 (v_Y.[26] * $v_mw_avg / #4.3088580000000000e+01));
  (*237*) Do (Asn v_X 27 (v_Y.[27] * $v_mw_avg / #5.6064160000000001e+01));
  (*238*) Do (Asn v_X 28 (v_Y.[28] * $v_mw_avg / #5.5099579999999996e+01));
  (*239*) Do (Asn v_X 29 (v_Y.[29] * $v_mw_avg / #5.6107519999999994e+01));
  (*240*) Do (Asn v_X 30 (v_Y.[30] * $v_mw_avg / #5.7115459999999999e+01));
  (*241*) Do (Asn v_X 31 (v_Y.[31] * $v_mw_avg / #6.9126459999999994e+01));
  (*242*) Do (Asn v_X 32 (v_Y.[32] * $v_mw_avg / #7.0134399999999999e+01));
  (*243*) Do (Asn v_X 33 (v_Y.[33] * $v_mw_avg / #7.1142339999999990e+01));
  (*244*) Do (Asn v_X 34 (v_Y.[34] * $v_mw_avg / #8.4161280000000005e+01));
  (*245*) Do (Asn v_X 35 (v_Y.[35] * $v_mw_avg / #8.5169219999999996e+01));
  (*246*) Do (Asn v_X 36 (v_Y.[36] * $v_mw_avg / #9.8188159999999996e+01));
  (*247*) Do (Asn v_X 37 (v_Y.[37] * $v_mw_avg / #9.9196100000000001e+01));
  (*248*) Do (Asn v_X 38 (v_Y.[38] * $v_mw_avg / #1.1221503999999999e+02));
  (*249*) Do (Asn v_X 39 (v_Y.[39] * $v_mw_avg / #1.1322297999999999e+02));
  (*250*) Do (Asn v_X 40 (v_Y.[40] * $v_mw_avg / #1.2624191999999999e+02));
  (*251*) Do (Asn v_X 41 (v_Y.[41] * $v_mw_avg / #1.2724985999999998e+02));
  (*252*) Do (Asn v_X 42 (v_Y.[42] * $v_mw_avg / #1.4026880000000000e+02));
  (*253*) Do (Asn v_X 43 (v_Y.[43] * $v_mw_avg / #1.4127673999999999e+02));
  (*254*) Do (Asn v_X 44 (v_Y.[44] * $v_mw_avg / #1.7033843999999999e+02));
  (*255*) Do (Asn v_X 45 (v_Y.[45] * $v_mw_avg / #1.6933050000000000e+02));
  (*256*) Do (Asn v_X 46 (v_Y.[46] * $v_mw_avg / #1.6933050000000000e+02));
  (*257*) Do (Asn v_X 47 (v_Y.[47] * $v_mw_avg / #1.6933050000000000e+02));
  (*258*) Do (Asn v_X 48 (v_Y.[48] * $v_mw_avg / #1.6832256000000001e+02));
  (*259*) Do (Asn v_X 49 (v_Y.[49] * $v_mw_avg / #2.0132929999999999e+02));
  (*260*) Do (Asn v_X 50 (v_Y.[50] * $v_mw_avg / #2.0132929999999999e+02));
  (*261*) Do (Asn v_X 51 (v_Y.[51] * $v_mw_avg / #2.3332810000000001e+02));
  (*262*) Do (Asn v_X 52 (v_Y.[52] * $v_mw_avg / #2.1632076000000001e+02))
].

(** [getDensity], yao/lib/src/mass_mole.c:273-343. *)
Definition yao_getDensity : list stmt := [
  (*277*) Do (Asn v_X_N 0 (#1.0 - (v_X.[0] + v_X.[1] + v_X.[2] + v_X.[3] + v_X.[4] + v_X.[5] + v_X.[6] + v_X.[7] + v_X.[8] + v_X.[9] + v_X.[10] + v_X.[11] + v_X.[12] + v_X.[13] + v_X.[14] + v_X.[15] + v_X.[16] + v_X.[17] + v_X.[18] + v_X.[19] + v_X.[20] + v_X.[21] + v_X.[22] + v_X.[23] + v_X.[24] + v_X.[25] + v_X.[26] + v_X.[27] + v_X.[28] + v_X.[29] + v_X.[30] + v_X.[31] + v_X.[32] + v_X.[33] + v_X.[34] + v_X.[35] + v_X.[36] + v_X.[37] + v_X.[38] + v_X.[39] + v_X.[40] + v_X.[41] + v_X.[42] + v_X.[43] + v_X.[44] + v_X.[45] + v_X.[46] + v_X.[47] + v_X.[48] + v_X.[49] + v_X.[50] + v_X.[51] + v_X.[52])));
  (*286*) Do (Asn v_mw_avg 0 (#0.0));
  (*287*) Do (AddA v_mw_avg 0 (v_X.[0] * #3.9948000000000000e+01));
  (*288*) Do (AddA v_mw_avg 0 (v_X.[1] * #1.0079400000000001e+00));
  (*289*) Do (AddA v_mw_avg 0 (v_X.[2] * #1.5999400000000000e+01));
  (*290*) Do (AddA v_mw_avg 0 (v_X.[3] * #1.7007339999999999e+01));
  (*291*) Do (AddA v_mw_avg 0 (v_X.[4] * #3.3006740000000001e+01));
  (*292*) Do (AddA v_mw_avg 0 (v_X.[5] * #2.0158800000000001e+00));
  (*293*) Do (AddA v_mw_avg 0 (v_X.[6] * #1.8015280000000001e+01));
  (*294*) Do (AddA v_mw_avg 0 (v_X.[7] * #3.4014679999999998e+01));
  (*295*) Do (AddA v_mw_avg 0 (v_X.[8] * #3.1998799999999999e+01));
  (*296*) Do (AddA v_mw_avg 0 (v_X.[9] * #1.4026879999999998e+01));
  (*297*) Do (AddA v_mw_avg 0 (v_X.[10] * #1.4026879999999998e+01));
  (*298*) Do (AddA v_mw_avg 0 (v_X.[11] * #1.5034820000000000e+01));
  (*299*) Do (AddA v_mw_avg 0 (v_X.[12] * #1.6042760000000001e+01));
  (*300*) Do (AddA v_mw_avg 0 (v_X.[13] * #2.9018339999999998e+01));
  (*301*) Do (AddA v_mw_avg 0 (v_X.[14] * #3.0026280000000000e+01));
  (*302*) Do (AddA v_mw_avg 0 (v_X.[15] * #3.1034219999999998e+01));
  (*303*) Do (AddA v_mw_avg 0 (v_X.[16] * #2.8010399999999997e+01));
  (*304*) Do (AddA v_mw_avg 0 (v_X.[17] * #4.4009799999999998e+01));
  (*305*) Do (AddA v_mw_avg 0 (v_X.[18] * #2.6037879999999998e+01));
  (*306*) Do (AddA v_mw_avg 0 (v_X.[19] * #2.7045819999999999e+01));
  (*307*) Do (AddA v_mw_avg 0 (v_X.[20] * #2.8053759999999997e+01));
  (*308*) Do (AddA v_mw_avg 0 (v_X.[21] * #2.9061699999999998e+01));
  (*309*) Do (AddA v_mw_avg 0 (v_X.[22] * #3.0069640000000000e+01));
  (*310*) Do (AddA v_mw_avg 0 (v_X.[23] * #4.3045220000000000e+01));
  (*311*) Do (AddA v_mw_avg 0 (v_X.[24] * #4.1072699999999998e+01));
  (*312*) Do (AddA v_mw_avg 0 (v_X.[25] * #4.2080640000000002e+01));
  (*313*) Do (AddA v_mw_avg 0 (v_X.[26] * #4.3088580000000000e+01));
  (*314*) Do (AddA v_mw_avg 0 (v_X.[27] * #5.6064160000000001e+01));
  (*315*) Do (AddA v_mw_avg 0 (v_X.[28] * #5.5099579999999996e+01));
  (*316*) Do (AddA v_mw_avg 0 (v_X.[29] * #5.6107519999999994e+01));
  (*317*) Do (AddA v_mw_avg 0 (v_X.[30] * #5.7115459999999999e+01));
  (*318*) Do (AddA v_mw_avg 0 (v_X.[31] * #6.9126459999999994e+01));
  (*319*) Do (AddA v_mw_avg 0 (v_X.[32] * #7.0134399999999999e+01));
  (*320*) Do (AddA v_mw_avg 0 (v_X.[33] * #7.1142339999999990e+01));
  (*321*) Do (AddA v_mw_avg 0 (v_X.[34] * #8.4161280000000005e+01));
  (*322*) Do (AddA v_mw_avg 0 (v_X.[35] * #8.5169219999999996e+01));
  (*323*) Do (AddA v_mw_avg 0 (v_X.[36] * #9.8188159999999996e+01));
  (*324*) Do (AddA v_mw_avg 0 (v_X.[37] * #9.9196100000000001e+01));
  (*325*) Do (AddA v_mw_avg 0 (v_X.[38] * #1.1221503999999999e+02));
  (*326*) Do (AddA v_mw_avg 0 (v_X.[39] * #1.1322297999999999e+02));
  (*327*) Do (AddA v_mw_avg 0 (v_X.[40] * #1.2624191999999999e+02));
  (*328*) Do (AddA v_mw_avg 0 (v_X.[41] * #1.2724985999999998e+02));
  (*329*) Do (AddA v_mw_avg 0 (v_X.[42] * #1.4026880000000000e+02));
  (*330*) Do (AddA v_mw_avg 0 (v_X.[43] * #1.4127673999999999e+02));
  (*331*) Do (AddA v_mw_avg 0 (v_X.[44] * #1.7033843999999999e+02));
  (*332*) Do (AddA v_mw_avg 0 (v_X.[45] * #1.6933050000000000e+02));
  (*333*) Do (AddA v_mw_avg 0 (v_X.[46] * #1.6933050000000000e+02));
  (*334*) Do (AddA v_mw_avg 0 (v_X.[47] * #1.6933050000000000e+02));
  (*335*) Do (AddA v_mw_avg 0 (v_X.[48] * #1.6832256000000001e+02));
  (*336*) Do (AddA v_mw_avg 0 (v_X.[49] * #2.0132929999999999e+02));
  (*337*) Do (AddA v_mw_avg 0 (v_X.[50] * #2.0132929999999999e+02));
  (*338*) Do (AddA v_mw_avg 0 (v_X.[51] * #2.3332810000000001e+02));
  (*339*) Do (AddA v_mw_avg 0 (v_X.[52] * #2.1632076000000001e+02));
  (*340*) Do (AddA v_mw_avg 0 ($v_X_N * #2.8013480000000001e+01));
  (*342*) Do (Asn v_ret 0 ($v_pres * $v_mw_avg / (#8.31446210e+03 * $v_temp)))
].

