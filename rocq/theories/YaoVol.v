(** Transcription of /repo/utilities/mechanisms/yao/lib/src (C): the functions for constant volume; the number
    before a statement is its line. *)
From Coq Require Import List QArith.
From Verif Require Import MechLang.
Import ListNotations.
Local Open Scope mech_scope.

(** [eval_conc_rho], yao/lib/src/chem_utils.c:110-206. *)
Definition yao_eval_conc_rho : list stmt := [
  (*113*) Do (Asn v_y_N 0 (#1.0 - (v_y.[0] + v_y.[1] + v_y.[2] + v_y.[3] + v_y.[4] + v_y.[5] + v_y.[6] + v_y.[7] + v_y.[8] + v_y.[9] + v_y.[10] + v_y.[11] + v_y.[12] + v_y.[13] + v_y.[14] + v_y.[15] + v_y.[16] + v_y.[17] + v_y.[18] + v_y.[19] + v_y.[20] + v_y.[21] + v_y.[22] + v_y.[23] + v_y.[24] + v_y.[25] + v_y.[26] + v_y.[27] + v_y.[28] + v_y.[29] + v_y.[30] + v_y.[31] + v_y.[32] + v_y.[33] + v_y.[34] + v_y.[35] + v_y.[36] + v_y.[37] + v_y.[38] + v_y.[39] + v_y.[40] + v_y.[41] + v_y.[42] + v_y.[43] + v_y.[44] + v_y.[45] + v_y.[46] + v_y.[47] + v_y.[48] + v_y.[49] + v_y.[50] + v_y.[51] + v_y.[52])));
  (*121*) Do (Asn v_mw_avg 0 (v_y.[0] * #2.5032542304996495e-02 + v_y.[1] * #9.9212254697700253e-01 + v_y.[2] * #6.2502343837893923e-02 + v_y.[3] * #5.8798142449083754e-02 + v_y.[4] * #3.0296842402491128e-02 + v_y.[5] * #4.9606127348850126e-01 + v_y.[6] * #5.5508435061791990e-02 + v_y.[7] * #2.9399071224541877e-02 + v_y.[8] * #3.1251171918946961e-02 + v_y.[9] * #7.1291691381119682e-02 + v_y.[10] * #7.1291691381119682e-02 + v_y.[11] * #6.6512269518358050e-02 + v_y.[12] * #6.2333413951215375e-02 + v_y.[13] * #3.4460965031080343e-02 + v_y.[14] * #3.3304158890145569e-02 + v_y.[15] * #3.2222495039346891e-02 + v_y.[16] * #3.5701025333447579e-02 + v_y.[17] * #2.2722211870992371e-02 + v_y.[18] * #3.8405584479227962e-02 + v_y.[19] * #3.6974290296984895e-02 + v_y.[20] * #3.5645845690559841e-02 + v_y.[21] * #3.4409549338132318e-02 + v_y.[22] * #3.3256134759179025e-02 + v_y.[23] * #2.3231383182615861e-02 + v_y.[24] * #2.4347072386280914e-02 + v_y.[25] * #2.3763897127039892e-02 + v_y.[26] * #2.3208005462236166e-02 + v_y.[27] * #1.7836707087023153e-02 + v_y.[28] * #1.8148958667198553e-02 + v_y.[29] * #1.7822922845279920e-02 + v_y.[30] * #1.7508394399694933e-02 + v_y.[31] * #1.4466240568372807e-02 + v_y.[32] * #1.4258338276223937e-02 + v_y.[33] * #1.4056327076112483e-02 + v_y.[34] * #1.1881948563519946e-02 + v_y.[35] * #1.1741330964402398e-02 + v_y.[36] * #1.0184527340159955e-02 + v_y.[37] * #1.0081041492558679e-02 + v_y.[38] * #8.9114614226399602e-03 + v_y.[39] * #8.8321293080256321e-03 + v_y.[40] * #7.9212990423466311e-03 + v_y.[41] * #7.8585548149129603e-03 + v_y.[42] * #7.1291691381119683e-03 + v_y.[43] * #7.0783060254646308e-03 + v_y.[44] * #5.8706654822011988e-03 + v_y.[45] * #5.9056106253746370e-03 + v_y.[46] * #5.9056106253746370e-03 + v_y.[47] * #5.9056106253746370e-03 + v_y.[48] * #5.9409742817599729e-03 + v_y.[49] * #4.9669869214267375e-03 + v_y.[50] * #4.9669869214267375e-03 + v_y.[51] * #4.2858104103192024e-03 + v_y.[52] * #4.6227648238661885e-03 + $v_y_N * #3.5697100110375433e-02));
  (*148*) Do (Asn v_mw_avg 0 (#1.0 / $v_mw_avg));
  (*150*) Do (Asn v_pres 0 ($v_rho * #8.31446210e+03 * $v_T / $v_mw_avg));
  (*151*) Do (Asn v_conc 0 ($v_rho * v_y.[0] * #2.5032542304996495e-02));
  (*152*) Do (Asn v_conc 1 ($v_rho * v_y.[1] * #9.9212254697700253e-01));
  (*153*) Do (Asn v_conc 2 ($v_rho * v_y.[2] * #6.2502343837893923e-02));
  (*154*) Do (Asn v_conc 3 ($v_rho * v_y.[3] * #5.8798142449083754e-02));
  (*155*) Do (Asn v_conc 4 ($v_rho * v_y.[4] * #3.0296842402491128e-02));
  (*156*) Do (Asn v_conc 5 ($v_rho * v_y.[5] * #4.9606127348850126e-01));
  (*157*) Do (Asn v_conc 6 ($v_rho * v_y.[6] * #5.5508435061791990e-02));
  (*158*) Do (Asn v_conc 7 ($v_rho * v_y.[7] * #2.9399071224541877e-02));
  (*159*) Do (Asn v_conc 8 ($v_rho * v_y.[8] * #3.1251171918946961e-02));
  (*160*) Do (Asn v_conc 9 ($v_rho * v_y.[9] * #7.1291691381119682e-02));
  (*161*) Do (Asn v_conc 10 ($v_rho * v_y.[10] * #7.1291691381119682e-02));
  (*162*) Do (Asn v_conc 11 ($v_rho * v_y.[11] * #6.6512269518358050e-02));
  (*163*) Do (Asn v_conc 12 ($v_rho * v_y.[12] * #6.2333413951215375e-02));
  (*164*) Do (Asn v_conc 13 ($v_rho * v_y.[13] * #3.4460965031080343e-02));
  (*165*) Do (Asn v_conc 14 ($v_rho * v_y.[14] * #3.3304158890145569e-02));
  (*166*) Do (Asn v_conc 15 ($v_rho * v_y.[15] * #3.2222495039346891e-02));
  (*167*) Do (Asn v_conc 16 ($v_rho * v_y.[16] * #3.5701025333447579e-02));
  (*168*) Do (Asn v_conc 17 ($v_rho * v_y.[17] * #2.2722211870992371e-02));
  (*169*) Do (Asn v_conc 18 ($v_rho * v_y.[18] * #3.8405584479227962e-02));
  (*170*) Do (Asn v_conc 19 ($v_rho * v_y.[19] * #3.6974290296984895e-02));
  (*171*) Do (Asn v_conc 20 ($v_rho * v_y.[20] * #3.5645845690559841e-02));
  (*172*) Do (Asn v_conc 21 ($v_rho * v_y.[21] * #3.4409549338132318e-02));
  (*173*) Do (Asn v_conc 22 ($v_rho * v_y.[22] * #3.3256134759179025e-02));
  (*174*) Do (Asn v_conc 23 ($v_rho * v_y.[23] * #2.3231383182615861e-02));
  (*175*) Do (Asn v_conc 24 ($v_rho * v_y.[24] * #2.4347072386280914e-02));
  (*176*) Do (Asn v_conc 25 ($v_rho * v_y.[25] * #2.3763897127039892e-02));
  (*177*) Do (Asn v_conc 26 ($v_rho * v_y.[26] * #2.3208005462236166e-02));
  (*178*) Do (Asn v_conc 27 ($v_rho * v_y.[27] * #1.7836707087023153e-02));
  (*179*) Do (Asn v_conc 28 ($v_rho * v_y.[28] * #1.8148958667198553e-02));
  (*180*) Do (Asn v_conc 29 ($v_rho * v_y.[29] * #1.7822922845279920e-02));
  (*181*) Do (Asn v_conc 30 ($v_rho * v_y.[30] * #1.7508394399694933e-02));
  (*182*) Do (Asn v_conc 31 ($v_rho * v_y.[31] * #1.4466240568372807e-02));
  (*183*) Do (Asn v_conc 32 ($v_rho * v_y.[32] * #1.4258338276223937e-02));
  (*184*) Do (Asn v_conc 33 ($v_rho * v_y.[33] * #1.4056327076112483e-02));
  (*185*) Do (Asn v_conc 34 ($v_rho * v_y.[34] * #1.1881948563519946e-02));
  (*186*) Do (Asn v_conc 35 ($v_rho * v_y.[35] * #1.1741330964402398e-02));
  (*187*) Do (Asn v_conc 36 ($v_rho * v_y.[36] * #1.0184527340159955e-02));
  (*188*) Do (Asn v_conc 37 ($v_rho * v_y.[37] * #1.0081041492558679e-02));
  (*189*) Do (Asn v_conc 38 ($v_rho * v_y.[38] * #8.9114614226399602e-03));
  (*190*) Do (Asn v_conc 39 ($v_rho * v_y.[39] * #8.8321293080256321e-03));
  (*191*) Do (Asn v_conc 40 ($v_rho * v_y.[40] * #7.9212990423466311e-03));
  (*192*) Do (Asn v_conc 41 ($v_rho * v_y.[41] * #7.8585548149129603e-03));
  (*193*) Do (Asn v_conc 42 ($v_rho * v_y.[42] * #7.1291691381119683e-03));
  (*194*) Do (Asn v_conc 43 ($v_rho * v_y.[43] * #7.0783060254646308e-03));
  (*195*) Do (Asn v_conc 44 ($v_rho * v_y.[44] * #5.8706654822011988e-03));
  (*196*) Do (Asn v_conc 45 ($v_rho * v_y.[45] * #5.9056106253746370e-03));
  (*197*) Do (Asn v_conc 46 ($v_rho * v_y.[46] * #5.9056106253746370e-03));
  (*198*) Do (Asn v_conc 47 ($v_rho * v_y.[47] * #5.9056106253746370e-03));
  (*199*) Do (Asn v_conc 48 ($v_rho * v_y.[48] * #5.9409742817599729e-03));
  (*200*) Do (Asn v_conc 49 ($v_rho * v_y.[49] * #4.9669869214267375e-03));
  (*201*) Do (Asn v_conc 50 ($v_rho * v_y.[50] * #4.9669869214267375e-03));
  (*202*) Do (Asn v_conc 51 ($v_rho * v_y.[51] * #4.2858104103192024e-03));
  (*203*) Do (Asn v_conc 52 ($v_rho * v_y.[52] * #4.6227648238661885e-03));
  (*204*) Do (Asn v_conc 53 ($v_rho * $v_y_N * #3.5697100110375433e-02))
].

(** [eval_u], yao/lib/src/chem_utils.c:536-862. *)
Definition yao_eval_u : list stmt := [
  (*538*) If ($v_T) (#1000.0)
    [Asn v_u 0 (#2.0813212426154001e+02 * (#(-7.4537500000000000e+02) + $v_T * (#2.5000000000000000e+00 - #1.0 + $v_T * (#0.0000000000000000e+00 + $v_T * (#0.0000000000000000e+00 + $v_T * (#0.0000000000000000e+00 + #0.0000000000000000e+00 * $v_T))))))]
    [Asn v_u 0 (#2.0813212426154001e+02 * (#(-7.4537500000000000e+02) + $v_T * (#2.5000000000000000e+00 - #1.0 + $v_T * (#0.0000000000000000e+00 + $v_T * (#0.0000000000000000e+00 + $v_T * (#0.0000000000000000e+00 + #0.0000000000000000e+00 * $v_T))))))];
  (*544*) If ($v_T) (#1000.0)
    [Asn v_u 1 (#8.2489653153957570e+03 * (#2.5473659899999999e+04 + $v_T * (#2.5000000000000000e+00 - #1.0 + $v_T * (#3.5266640949999999e-13 + $v_T * (#(-6.6530654666666665e-16) + $v_T * (#5.7520407999999997e-19 + #(-1.8554646640000001e-22) * $v_T))))))]
    [Asn v_u 1 (#8.2489653153957570e+03 * (#2.5473659899999999e+04 + $v_T * (#2.5000000099999999e+00 - #1.0 + $v_T * (#(-1.1542148649999999e-11) + $v_T * (#5.3853982666666673e-15 + $v_T * (#(-1.1837880875000001e-18) + #9.9639471400000006e-23 * $v_T))))))];
  (*550*) If ($v_T) (#1000.0)
    [Asn v_u 2 (#5.1967336900133762e+02 * (#2.9122259200000000e+04 + $v_T * (#3.1682671000000000e+00 - #1.0 + $v_T * (#(-1.6396594200000000e-03) + $v_T * (#2.2143546533333334e-06 + $v_T * (#(-1.5320165600000000e-09) + #4.2253194199999998e-13 * $v_T))))))]
    [Asn v_u 2 (#5.1967336900133762e+02 * (#2.9217579099999999e+04 + $v_T * (#2.5694207800000002e+00 - #1.0 + $v_T * (#(-4.2987056850000002e-05) + $v_T * (#1.3982819633333334e-08 + $v_T * (#(-2.5044449749999998e-12) + #2.4566738199999997e-16 * $v_T))))))];
  (*556*) If ($v_T) (#1000.0)
    [Asn v_u 3 (#4.8887492694330808e+02 * (#3.3815381200000002e+03 + $v_T * (#4.1253056099999998e+00 - #1.0 + $v_T * (#(-1.6127246950000001e-03) + $v_T * (#2.1758823033333334e-06 + $v_T * (#(-1.4496341075000000e-09) + #4.1247475799999997e-13 * $v_T))))))]
    [Asn v_u 3 (#4.8887492694330808e+02 * (#3.7188577399999999e+03 + $v_T * (#2.8647288600000000e+00 - #1.0 + $v_T * (#5.2825224000000001e-04 + $v_T * (#(-8.6360919333333338e-08) + $v_T * (#7.6304668500000001e-12 + #(-2.6639175200000000e-16) * $v_T))))))];
  (*562*) If ($v_T) (#1000.0)
    [Asn v_u 4 (#2.5190194790518544e+02 * (#2.9480804000000001e+02 + $v_T * (#4.3017980099999997e+00 - #1.0 + $v_T * (#(-2.3745602549999998e-03) + $v_T * (#7.0527630333333326e-06 + $v_T * (#(-6.0690973500000000e-09) + #1.8584502480000002e-12 * $v_T))))))]
    [Asn v_u 4 (#2.5190194790518544e+02 * (#1.1185671300000000e+02 + $v_T * (#4.0172109000000003e+00 - #1.0 + $v_T * (#1.1199100650000000e-03 + $v_T * (#(-2.1121938333333332e-07) + $v_T * (#2.8561592500000001e-11 + #(-2.1581707000000000e-15) * $v_T))))))];
  (*568*) If ($v_T) (#1000.0)
    [Asn v_u 5 (#4.1244826576978785e+03 * (#(-9.1793517299999996e+02) + $v_T * (#2.3443311200000001e+00 - #1.0 + $v_T * (#3.9902603749999996e-03 + $v_T * (#(-6.4927169999999995e-06) + $v_T * (#5.0393023500000001e-09 + #(-1.4752235220000002e-12) * $v_T))))))]
    [Asn v_u 5 (#4.1244826576978785e+03 * (#(-9.5015892199999996e+02) + $v_T * (#3.3372791999999998e+00 - #1.0 + $v_T * (#(-2.4701236549999999e-05) + $v_T * (#1.6648559266666665e-07 + $v_T * (#(-4.4891598500000001e-11) + #4.0051075199999998e-15 * $v_T))))))];
  (*574*) If ($v_T) (#1000.0)
    [Asn v_u 6 (#4.6152277955158070e+02 * (#(-3.0293726699999999e+04) + $v_T * (#4.1986405600000003e+00 - #1.0 + $v_T * (#(-1.0182170500000001e-03) + $v_T * (#2.1734673700000000e-06 + $v_T * (#(-1.3719926550000001e-09) + #3.5439563400000000e-13 * $v_T))))))]
    [Asn v_u 6 (#4.6152277955158070e+02 * (#(-3.0004297100000000e+04) + $v_T * (#3.0339924900000002e+00 - #1.0 + $v_T * (#1.0884590200000001e-03 + $v_T * (#(-5.4690839333333327e-08) + $v_T * (#(-2.4260496750000000e-11) + #3.3640198399999998e-15 * $v_T))))))];
  (*580*) If ($v_T) (#1000.0)
    [Asn v_u 7 (#2.4443746347165404e+02 * (#(-1.7702582100000000e+04) + $v_T * (#4.2761126899999997e+00 - #1.0 + $v_T * (#(-2.7141120849999997e-04) + $v_T * (#5.5778567000000005e-06 + $v_T * (#(-5.3942703249999999e-09) + #1.7249087260000000e-12 * $v_T))))))]
    [Asn v_u 7 (#2.4443746347165404e+02 * (#(-1.7861787700000001e+04) + $v_T * (#4.1650028499999996e+00 - #1.0 + $v_T * (#2.4541584700000000e-03 + $v_T * (#(-6.3379741666666662e-07) + $v_T * (#9.2796496499999996e-11 + #(-5.7581661000000002e-15) * $v_T))))))];
  (*586*) If ($v_T) (#1000.0)
    [Asn v_u 8 (#2.5983668450066881e+02 * (#(-1.0639435599999999e+03) + $v_T * (#3.7824563599999999e+00 - #1.0 + $v_T * (#(-1.4983670799999999e-03) + $v_T * (#3.2824340033333332e-06 + $v_T * (#(-2.4203237725000002e-09) + #6.4874567400000000e-13 * $v_T))))))]
    [Asn v_u 8 (#2.5983668450066881e+02 * (#(-1.0884577200000001e+03) + $v_T * (#3.2825378399999998e+00 - #1.0 + $v_T * (#7.4154376999999996e-04 + $v_T * (#(-2.5265555633333331e-07) + $v_T * (#5.2367638749999998e-11 + #(-4.3343558799999996e-15) * $v_T))))))];
  (*592*) If ($v_T) (#1000.0)
    [Asn v_u 9 (#5.9275206603321635e+02 * (#4.6004040099999998e+04 + $v_T * (#3.7626786700000001e+00 - #1.0 + $v_T * (#4.8443607150000002e-04 + $v_T * (#9.3163280333333339e-07 + $v_T * (#(-9.6272788250000007e-10) + #3.3748343799999999e-13 * $v_T))))))]
    [Asn v_u 9 (#5.9275206603321635e+02 * (#4.6263603999999999e+04 + $v_T * (#2.8741011300000001e+00 - #1.0 + $v_T * (#1.8281964599999999e-03 + $v_T * (#(-4.6964865666666667e-07) + $v_T * (#6.5044887249999998e-11 + #(-3.7545513400000000e-15) * $v_T))))))];
  (*598*) If ($v_T) (#1000.0)
    [Asn v_u 10 (#5.9275206603321635e+02 * (#5.0496816299999999e+04 + $v_T * (#4.1986041099999998e+00 - #1.0 + $v_T * (#(-1.1833070950000000e-03) + $v_T * (#2.7443207333333332e-06 + $v_T * (#(-1.6720399525000001e-09) + #3.8862947400000001e-13 * $v_T))))))]
    [Asn v_u 10 (#5.9275206603321635e+02 * (#5.0925999700000000e+04 + $v_T * (#2.2920384199999999e+00 - #1.0 + $v_T * (#2.3279431850000000e-03 + $v_T * (#(-6.7063982333333332e-07) + $v_T * (#1.0447650000000001e-10 + #(-6.7943272999999998e-15) * $v_T))))))];
  (*604*) If ($v_T) (#1000.0)
    [Asn v_u 11 (#5.5301374409537334e+02 * (#1.6444998800000001e+04 + $v_T * (#3.6735904000000001e+00 - #1.0 + $v_T * (#1.0054758750000000e-03 + $v_T * (#1.9100728533333335e-06 + $v_T * (#(-1.7177935625000000e-09) + #5.0877146800000003e-13 * $v_T))))))]
    [Asn v_u 11 (#5.5301374409537334e+02 * (#1.6775584299999999e+04 + $v_T * (#2.2857177200000001e+00 - #1.0 + $v_T * (#3.6199501849999999e-03 + $v_T * (#(-9.9571449333333331e-07) + $v_T * (#1.4892116100000001e-10 + #(-9.3430878800000005e-15) * $v_T))))))];
  (*610*) If ($v_T) (#1000.0)
    [Asn v_u 12 (#5.1826880786099150e+02 * (#(-1.0246647600000000e+04) + $v_T * (#5.1498761300000000e+00 - #1.0 + $v_T * (#(-6.8354894000000003e-03) + $v_T * (#1.6393353300000001e-05 + $v_T * (#(-1.2118575650000000e-08) + #3.3338791200000000e-12 * $v_T))))))]
    [Asn v_u 12 (#5.1826880786099150e+02 * (#(-9.4683445900000006e+03) + $v_T * (#7.4851495000000004e-02 - #1.0 + $v_T * (#6.6954733499999999e-03 + $v_T * (#(-1.9109526966666665e-06) + $v_T * (#3.0573133750000000e-10 + #(-2.0363046000000002e-14) * $v_T))))))];
  (*616*) If ($v_T) (#1000.0)
    [Asn v_u 13 (#2.8652438768034290e+02 * (#3.8395649600000002e+03 + $v_T * (#4.2211858400000004e+00 - #1.0 + $v_T * (#(-1.6219626600000000e-03) + $v_T * (#4.5933148666666667e-06 + $v_T * (#(-3.3286023250000002e-09) + #8.6753773000000000e-13 * $v_T))))))]
    [Asn v_u 13 (#2.8652438768034290e+02 * (#4.0119181500000000e+03 + $v_T * (#2.7721743800000000e+00 - #1.0 + $v_T * (#2.4784776299999998e-03 + $v_T * (#(-8.2815204333333337e-07) + $v_T * (#1.4729044450000001e-10 + #(-1.0670174220000000e-14) * $v_T))))))];
  (*622*) If ($v_T) (#1000.0)
    [Asn v_u 14 (#2.7690616686449340e+02 * (#(-1.4308956700000001e+04) + $v_T * (#4.7937231499999999e+00 - #1.0 + $v_T * (#(-4.9541668450000000e-03) + $v_T * (#1.2440666933333332e-05 + $v_T * (#(-9.4821315249999995e-09) + #2.6354530400000001e-12 * $v_T))))))]
    [Asn v_u 14 (#2.7690616686449340e+02 * (#(-1.3995832300000000e+04) + $v_T * (#1.7606900800000000e+00 - #1.0 + $v_T * (#4.6000004100000000e-03 + $v_T * (#(-1.4741960433333332e-06) + $v_T * (#2.5160302999999999e-10 + #(-1.7677112800000002e-14) * $v_T))))))];
  (*628*) If ($v_T) (#1000.0)
    [Asn v_u 15 (#2.6791271377208773e+02 * (#1.2956976000000000e+03 + $v_T * (#3.7118050199999999e+00 - #1.0 + $v_T * (#(-1.4023165300000001e-03) + $v_T * (#1.2551699033333334e-05 + $v_T * (#(-1.1826802224999999e-08) + #3.7317684000000002e-12 * $v_T))))))]
    [Asn v_u 15 (#2.6791271377208773e+02 * (#3.7811194000000000e+02 + $v_T * (#4.7577923799999997e+00 - #1.0 + $v_T * (#3.7207123700000000e-03 + $v_T * (#(-8.9901725333333330e-07) + $v_T * (#1.0952262600000000e-10 + #(-5.2707419599999998e-15) * $v_T))))))];
  (*634*) If ($v_T) (#1000.0)
    [Asn v_u 16 (#2.9683482206608977e+02 * (#(-1.4344085999999999e+04) + $v_T * (#3.5795334699999999e+00 - #1.0 + $v_T * (#(-3.0517684000000000e-04) + $v_T * (#3.3893811000000002e-07 + $v_T * (#2.2675147100000000e-10 + #(-1.8088489979999999e-13) * $v_T))))))]
    [Asn v_u 16 (#2.9683482206608977e+02 * (#(-1.4151872400000000e+04) + $v_T * (#2.7151856099999998e+00 - #1.0 + $v_T * (#1.0312637150000001e-03 + $v_T * (#(-3.3294192366666671e-07) + $v_T * (#5.7513252000000000e-11 + #(-4.0729543200000001e-15) * $v_T))))))];
  (*640*) If ($v_T) (#1000.0)
    [Asn v_u 17 (#1.8892296942953618e+02 * (#(-4.8371969700000001e+04) + $v_T * (#2.3567735200000000e+00 - #1.0 + $v_T * (#4.4922983850000002e-03 + $v_T * (#(-2.3745208966666665e-06) + $v_T * (#6.1479755499999995e-10 + #(-2.8739909599999997e-14) * $v_T))))))]
    [Asn v_u 17 (#1.8892296942953618e+02 * (#(-4.8759165999999997e+04) + $v_T * (#3.8574602900000001e+00 - #1.0 + $v_T * (#2.2071851299999999e-03 + $v_T * (#(-7.3827134666666672e-07) + $v_T * (#1.3087254700000001e-10 + #(-9.4416832800000002e-15) * $v_T))))))];
  (*646*) If ($v_T) (#1000.0)
    [Asn v_u 18 (#3.1932177658088915e+02 * (#2.6428980700000000e+04 + $v_T * (#8.0868109399999999e-01 - #1.0 + $v_T * (#1.1680781450000000e-02 + $v_T * (#(-1.1839060500000000e-05) + $v_T * (#7.0038109249999999e-09 + #(-1.7001459479999999e-12) * $v_T))))))]
    [Asn v_u 18 (#3.1932177658088915e+02 * (#2.5935999199999998e+04 + $v_T * (#4.1475696400000004e+00 - #1.0 + $v_T * (#2.9808333200000000e-03 + $v_T * (#(-7.9098284000000004e-07) + $v_T * (#1.1685304275000001e-10 + #(-7.2247042600000001e-15) * $v_T))))))];
  (*652*) If ($v_T) (#1000.0)
    [Asn v_u 19 (#3.0742133534867867e+02 * (#3.4859846799999999e+04 + $v_T * (#3.2124664500000000e+00 - #1.0 + $v_T * (#7.5739581000000002e-04 + $v_T * (#8.6403137333333327e-06 + $v_T * (#(-8.9414461750000000e-09) + #2.9430174599999999e-12 * $v_T))))))]
    [Asn v_u 19 (#3.0742133534867867e+02 * (#3.4612873899999999e+04 + $v_T * (#3.0167240000000000e+00 - #1.0 + $v_T * (#5.1651146000000004e-03 + $v_T * (#(-1.5602744966666665e-06) + $v_T * (#2.5440821999999998e-10 + #(-1.7252140819999999e-14) * $v_T))))))];
  (*658*) If ($v_T) (#1000.0)
    [Asn v_u 20 (#2.9637603301660818e+02 * (#5.0897759299999998e+03 + $v_T * (#3.9592014799999999e+00 - #1.0 + $v_T * (#(-3.7852612350000002e-03) + $v_T * (#1.9033009733333333e-05 + $v_T * (#(-1.7289718825000000e-08) + #5.3976874600000004e-12 * $v_T))))))]
    [Asn v_u 20 (#2.9637603301660818e+02 * (#4.9398861399999996e+03 + $v_T * (#2.0361111599999999e+00 - #1.0 + $v_T * (#7.3227075499999999e-03 + $v_T * (#(-2.2369263833333335e-06) + $v_T * (#3.6805730750000002e-10 + #(-2.5141212200000000e-14) * $v_T))))))];
  (*664*) If ($v_T) (#1000.0)
    [Asn v_u 21 (#2.8609689384998131e+02 * (#1.2841626500000000e+04 + $v_T * (#4.3064656799999996e+00 - #1.0 + $v_T * (#(-2.0932944600000002e-03) + $v_T * (#1.6571426900000001e-05 + $v_T * (#(-1.4978165149999999e-08) + #4.6101800800000003e-12 * $v_T))))))]
    [Asn v_u 21 (#2.8609689384998131e+02 * (#1.2857520000000000e+04 + $v_T * (#1.9546564200000001e+00 - #1.0 + $v_T * (#8.6986361000000005e-03 + $v_T * (#(-2.6606888933333333e-06) + $v_T * (#4.3804422250000001e-10 + #(-2.9928315199999999e-14) * $v_T))))))];
  (*670*) If ($v_T) (#1000.0)
    [Asn v_u 22 (#2.7650687204768667e+02 * (#(-1.1522205500000000e+04) + $v_T * (#4.2914249199999999e+00 - #1.0 + $v_T * (#(-2.7507713499999998e-03) + $v_T * (#1.9981276266666669e-05 + $v_T * (#(-1.7711657125000000e-08) + #5.3737154200000002e-12 * $v_T))))))]
    [Asn v_u 22 (#2.7650687204768667e+02 * (#(-1.1426393200000000e+04) + $v_T * (#1.0718814999999999e+00 - #1.0 + $v_T * (#1.0842633850000000e-02 + $v_T * (#(-3.3418689000000000e-06) + $v_T * (#5.5353000250000001e-10 + #(-3.8000577999999999e-14) * $v_T))))))];
  (*676*) If ($v_T) (#1000.0)
    [Asn v_u 23 (#1.9315645500243699e+02 * (#6.2000000000000000e+01 + $v_T * (#3.4090623999999998e+00 - #1.0 + $v_T * (#5.3692870000000004e-03 + $v_T * (#6.3049749999999997e-07 + $v_T * (#(-1.7896457750000000e-09) + #5.7347701999999995e-13 * $v_T))))))]
    [Asn v_u 23 (#1.9315645500243699e+02 * (#(-9.6950000000000000e+02) + $v_T * (#5.9756698999999998e+00 - #1.0 + $v_T * (#4.0652956999999998e-03 + $v_T * (#(-9.1454149999999997e-07) + $v_T * (#1.0175760250000000e-10 + #(-4.3520341999999999e-15) * $v_T))))))];
  (*682*) If ($v_T) (#1000.0)
    [Asn v_u 24 (#2.0243281060168923e+02 * (#1.9245629000000001e+04 + $v_T * (#1.3631835000000001e+00 - #1.0 + $v_T * (#9.9069104999999994e-03 + $v_T * (#4.1656866666666669e-06 + $v_T * (#(-8.3388887499999995e-09) + #3.1693142000000000e-12 * $v_T))))))]
    [Asn v_u 24 (#2.0243281060168923e+02 * (#1.7482449000000001e+04 + $v_T * (#6.5007877000000001e+00 - #1.0 + $v_T * (#7.1623655000000001e-03 + $v_T * (#(-1.8927210666666665e-06) + $v_T * (#2.7702002500000000e-10 + #(-1.8072777399999997e-14) * $v_T))))))];
  (*688*) If ($v_T) (#1000.0)
    [Asn v_u 25 (#1.9758402201107208e+02 * (#1.0748260000000000e+03 + $v_T * (#1.4933069999999999e+00 - #1.0 + $v_T * (#1.0462590000000001e-02 + $v_T * (#1.4955980000000001e-06 + $v_T * (#(-4.1722800000000000e-09) + #1.4316292000000000e-12 * $v_T))))))]
    [Asn v_u 25 (#1.9758402201107208e+02 * (#(-9.2357029999999997e+02) + $v_T * (#6.7322569999999997e+00 - #1.0 + $v_T * (#7.4541700000000004e-03 + $v_T * (#(-1.6499663333333331e-06) + $v_T * (#1.8030055000000001e-10 + #(-7.5324079999999992e-15) * $v_T))))))];
  (*694*) If ($v_T) (#1000.0)
    [Asn v_u 26 (#1.9296208183235558e+02 * (#1.0312346000000000e+04 + $v_T * (#1.0491173000000000e+00 - #1.0 + $v_T * (#1.3004486500000001e-02 + $v_T * (#7.8475053333333331e-07 + $v_T * (#(-4.8987830000000000e-09) + #1.8744041400000001e-12 * $v_T))))))]
    [Asn v_u 26 (#1.9296208183235558e+02 * (#7.9762236000000003e+03 + $v_T * (#7.7097479000000000e+00 - #1.0 + $v_T * (#8.0157425000000008e-03 + $v_T * (#(-1.7573412666666665e-06) + $v_T * (#1.8972088000000001e-10 + #(-7.7725438000000008e-15) * $v_T))))))];
  (*700*) If ($v_T) (#1000.0)
    [Asn v_u 27 (#1.4830262506385543e+02 * (#(-9.3357343999999994e+03) + $v_T * (#1.2713498000000001e+00 - #1.0 + $v_T * (#1.3115527000000000e-02 + $v_T * (#(-3.0970768333333334e-06) + $v_T * (#(-1.1959318000000000e-09) + #6.6961085999999998e-13 * $v_T))))))]
    [Asn v_u 27 (#1.4830262506385543e+02 * (#(-1.0784054000000000e+04) + $v_T * (#5.8111867999999998e+00 - #1.0 + $v_T * (#8.5571280000000007e-03 + $v_T * (#(-2.4944720333333334e-06) + $v_T * (#3.5630622500000002e-10 + #(-1.8349368199999999e-14) * $v_T))))))];
  (*706*) If ($v_T) (#1000.0)
    [Asn v_u 28 (#1.5089882899288889e+02 * (#2.2653328000000001e+04 + $v_T * (#7.4449432000000004e-01 - #1.0 + $v_T * (#1.9839428499999999e-02 + $v_T * (#(-7.6326953333333334e-06) + $v_T * (#5.3382432499999996e-10 + #4.6192750000000000e-13 * $v_T))))))]
    [Asn v_u 28 (#1.5089882899288889e+02 * (#2.0955008000000002e+04 + $v_T * (#7.0134835000000004e+00 - #1.0 + $v_T * (#1.1317279000000000e-02 + $v_T * (#(-3.0848490000000000e-06) + $v_T * (#4.2019817499999999e-10 + #(-2.0817233999999999e-14) * $v_T))))))];
  (*712*) If ($v_T) (#1000.0)
    [Asn v_u 29 (#1.4818801650830409e+02 * (#(-1.7904004000000000e+03) + $v_T * (#1.1811380000000000e+00 - #1.0 + $v_T * (#1.5426690000000000e-02 + $v_T * (#1.6955082333333333e-06 + $v_T * (#(-6.1637219999999997e-09) + #2.2220385999999997e-12 * $v_T))))))]
    [Asn v_u 29 (#1.4818801650830409e+02 * (#(-2.1397231000000002e+03) + $v_T * (#2.0535841000000001e+00 - #1.0 + $v_T * (#1.7175253500000001e-02 + $v_T * (#(-5.2943989999999994e-06) + $v_T * (#8.2724155000000001e-10 + #(-5.0722090000000006e-14) * $v_T))))))];
  (*718*) If ($v_T) (#1000.0)
    [Asn v_u 30 (#1.4557288166811580e+02 * (#7.3221040000000003e+03 + $v_T * (#1.2087041999999999e+00 - #1.0 + $v_T * (#1.9148748500000000e-02 + $v_T * (#(-2.4220169666666668e-06) + $v_T * (#(-3.8571367500000000e-09) + #1.7371887000000000e-12 * $v_T))))))]
    [Asn v_u 30 (#1.4557288166811580e+02 * (#4.9644058000000005e+03 + $v_T * (#8.6822394999999997e+00 - #1.0 + $v_T * (#1.1845535500000001e-02 + $v_T * (#(-2.5316288333333332e-06) + $v_T * (#1.6606784000000000e-10 + #1.0969027200000000e-14 * $v_T))))))];
  (*724*) If ($v_T) (#1000.0)
    [Asn v_u 31 (#1.2027900893521817e+02 * (#2.8121887000000002e+03 + $v_T * (#(-2.4190111000000001e+00) - #1.0 + $v_T * (#2.0215194499999999e-02 + $v_T * (#2.2600779666666667e-06 + $v_T * (#(-8.4311855000000008e-09) + #3.0233426000000002e-12 * $v_T))))))]
    [Asn v_u 31 (#1.2027900893521817e+02 * (#(-1.7218359000000000e+03) + $v_T * (#1.0138640000000001e+01 - #1.0 + $v_T * (#1.1357068999999999e-02 + $v_T * (#(-2.5970154333333331e-06) + $v_T * (#2.9691305000000000e-10 + #(-1.3186489600000001e-14) * $v_T))))))];
  (*730*) If ($v_T) (#1392.0)
    [Asn v_u 32 (#1.1855041320664326e+02 * (#(-4.4654666600000000e+03) + $v_T * (#(-1.0622348100000001e+00) - #1.0 + $v_T * (#2.8710914700000000e-02 + $v_T * (#(-1.2482896333333334e-05) + $v_T * (#3.1841247249999998e-09 + #(-3.5921957799999997e-13) * $v_T))))))]
    [Asn v_u 32 (#1.1855041320664326e+02 * (#(-1.0089820500000000e+04) + $v_T * (#1.4585153900000000e+01 - #1.0 + $v_T * (#1.1203623550000000e-02 + $v_T * (#(-2.5444934166666668e-06) + $v_T * (#2.9547241500000002e-10 + #(-1.3687702780000000e-14) * $v_T))))))];
  (*736*) If ($v_T) (#1390.0)
    [Asn v_u 33 (#1.1687079873954106e+02 * (#4.7161145999999999e+03 + $v_T * (#5.2438408100000000e-02 - #1.0 + $v_T * (#2.8039847900000001e-02 + $v_T * (#(-1.1051526766666668e-05) + $v_T * (#2.4438344525000000e-09 + #(-2.2801931999999999e-13) * $v_T))))))]
    [Asn v_u 33 (#1.1687079873954106e+02 * (#(-9.8071230700000001e+02) + $v_T * (#1.5297744600000000e+01 - #1.0 + $v_T * (#1.1986765500000000e-02 + $v_T * (#(-2.7279764933333334e-06) + $v_T * (#3.1720768999999998e-10 + #(-1.4708181100000000e-14) * $v_T))))))];
  (*742*) If ($v_T) (#1392.0)
    [Asn v_u 34 (#9.8792011005536040e+01 * (#(-7.3436861699999999e+03) + $v_T * (#(-1.3527520500000001e+00) - #1.0 + $v_T * (#3.4932771299999998e-02 + $v_T * (#(-1.5313600733333335e-05) + $v_T * (#3.9241835750000003e-09 + #(-4.4259235000000003e-13) * $v_T))))))]
    [Asn v_u 34 (#9.8792011005536040e+01 * (#(-1.4206286000000000e+04) + $v_T * (#1.7833752900000000e+01 - #1.0 + $v_T * (#1.3368882900000000e-02 + $v_T * (#(-3.0334559100000002e-06) + $v_T * (#3.5204941999999999e-10 + #(-1.6302484880000001e-14) * $v_T))))))];
  (*748*) If ($v_T) (#1390.0)
    [Asn v_u 35 (#9.7622851307080197e+01 * (#1.8328039300000000e+03 + $v_T * (#(-2.0487146500000000e-01) - #1.0 + $v_T * (#3.4190063600000001e-02 + $v_T * (#(-1.3814930399999999e-05) + $v_T * (#3.1538950500000001e-09 + #(-3.0624011599999997e-13) * $v_T))))))]
    [Asn v_u 35 (#9.7622851307080197e+01 * (#(-5.0929904100000003e+03) + $v_T * (#1.8538547000000001e+01 - #1.0 + $v_T * (#1.4155398099999999e-02 + $v_T * (#(-3.2176908199999999e-06) + $v_T * (#3.7386896250000000e-10 + #(-1.7326721280000001e-14) * $v_T))))))];
  (*754*) If ($v_T) (#1392.0)
    [Asn v_u 36 (#8.4678866576173760e+01 * (#(-1.0216860100000000e+04) + $v_T * (#(-1.6772054900000000e+00) - #1.0 + $v_T * (#4.1230580050000000e-02 + $v_T * (#(-1.8216803599999999e-05) + $v_T * (#4.6965575749999998e-09 + #(-5.3147596599999995e-13) * $v_T))))))]
    [Asn v_u 36 (#8.4678866576173760e+01 * (#(-1.8326006500000000e+04) + $v_T * (#2.1089803900000000e+01 - #1.0 + $v_T * (#1.5530393900000000e-02 + $v_T * (#(-3.5214930999999996e-06) + $v_T * (#4.0851444999999999e-10 + #(-1.8911964380000001e-14) * $v_T))))))];
  (*760*) If ($v_T) (#1390.0)
    [Asn v_u 37 (#8.3818437418406575e+01 * (#(-1.0459022299999999e+03) + $v_T * (#(-4.9957040600000002e-01) - #1.0 + $v_T * (#4.0441323350000002e-02 + $v_T * (#(-1.6684425133333334e-05) + $v_T * (#3.9137327000000003e-09 + #(-3.9323245400000001e-13) * $v_T))))))]
    [Asn v_u 37 (#8.3818437418406575e+01 * (#(-9.2093822099999998e+03) + $v_T * (#2.1794070900000001e+01 - #1.0 + $v_T * (#1.6314012150000001e-02 + $v_T * (#(-3.7046081333333335e-06) + $v_T * (#4.3016787000000000e-10 + #(-1.9927339979999999e-14) * $v_T))))))];
  (*766*) If ($v_T) (#1392.0)
    [Asn v_u 38 (#7.4094008254152044e+01 * (#(-1.3107455900000001e+04) + $v_T * (#(-1.8922691500000000e+00) - #1.0 + $v_T * (#4.7303317849999998e-02 + $v_T * (#(-2.0912850700000002e-05) + $v_T * (#5.3789577249999999e-09 + #(-6.0543736600000008e-13) * $v_T))))))]
    [Asn v_u 38 (#7.4094008254152044e+01 * (#(-2.2448567400000000e+04) + $v_T * (#2.4354012500000000e+01 - #1.0 + $v_T * (#1.7683323099999999e-02 + $v_T * (#(-4.0069462666666671e-06) + $v_T * (#4.6463763250000001e-10 + #(-2.1504452400000000e-14) * $v_T))))))];
  (*772*) If ($v_T) (#1390.0)
    [Asn v_u 39 (#7.3434404393878353e+01 * (#(-3.9268951099999999e+03) + $v_T * (#(-7.7275943800000002e-01) - #1.0 + $v_T * (#4.6627485250000003e-02 + $v_T * (#(-1.9481574833333333e-05) + $v_T * (#4.6392553499999997e-09 + #(-4.7425496600000005e-13) * $v_T))))))]
    [Asn v_u 39 (#7.3434404393878353e+01 * (#(-1.3330053500000000e+04) + $v_T * (#2.5051035599999999e+01 - #1.0 + $v_T * (#1.8474008100000001e-02 + $v_T * (#(-4.1921754666666666e-06) + $v_T * (#4.8657102249999996e-10 + #(-2.2533779600000001e-14) * $v_T))))))];
  (*778*) If ($v_T) (#1392.0)
    [Asn v_u 40 (#6.5861340670357365e+01 * (#(-1.5989084699999999e+04) + $v_T * (#(-2.1610826300000001e+00) - #1.0 + $v_T * (#5.3479148499999997e-02 + $v_T * (#(-2.3699108133333333e-05) + $v_T * (#6.0992769249999999e-09 + #(-6.8554309399999999e-13) * $v_T))))))]
    [Asn v_u 40 (#6.5861340670357365e+01 * (#(-2.6570906100000000e+04) + $v_T * (#2.7614217600000000e+01 - #1.0 + $v_T * (#1.9841264349999999e-02 + $v_T * (#(-4.4939815333333332e-06) + $v_T * (#5.2097613000000002e-10 + #(-2.4107858799999998e-14) * $v_T))))))];
  (*784*) If ($v_T) (#1390.0)
    [Asn v_u 41 (#6.5339656169366336e+01 * (#(-6.8081851200000001e+03) + $v_T * (#(-1.0438729200000001e+00) - #1.0 + $v_T * (#5.2808641500000003e-02 + $v_T * (#(-2.2273332366666668e-05) + $v_T * (#5.3621541499999998e-09 + #(-5.5480855000000001e-13) * $v_T))))))]
    [Asn v_u 41 (#6.5339656169366336e+01 * (#(-1.7451602999999999e+04) + $v_T * (#2.8309751400000000e+01 - #1.0 + $v_T * (#2.0632867199999998e-02 + $v_T * (#(-4.6794429666666664e-06) + $v_T * (#5.4293717749999998e-10 + #(-2.5138461399999997e-14) * $v_T))))))];
  (*790*) If ($v_T) (#1392.0)
    [Asn v_u 42 (#5.9275206603321628e+01 * (#(-1.8870836500000001e+04) + $v_T * (#(-2.4290168799999998e+00) - #1.0 + $v_T * (#5.9652798999999999e-02 + $v_T * (#(-2.6482967500000001e-05) + $v_T * (#6.8184149000000001e-09 + #(-7.6543674599999999e-13) * $v_T))))))]
    [Asn v_u 42 (#5.9275206603321628e+01 * (#(-3.0693730700000000e+04) + $v_T * (#3.0875390299999999e+01 - #1.0 + $v_T * (#2.1998576299999999e-02 + $v_T * (#(-4.9808510000000002e-06) + $v_T * (#5.7729419499999995e-10 + #(-2.6710295400000001e-14) * $v_T))))))];
  (*796*) If ($v_T) (#1390.0)
    [Asn v_u 43 (#5.8852307180927312e+01 * (#(-9.6896754999999994e+03) + $v_T * (#(-1.3135834799999999e+00) - #1.0 + $v_T * (#5.8986406499999998e-02 + $v_T * (#(-2.5061435966666667e-05) + $v_T * (#6.0832776499999998e-09 + #(-6.3504570400000002e-13) * $v_T))))))]
    [Asn v_u 43 (#5.8852307180927312e+01 * (#(-2.1573783200000002e+04) + $v_T * (#3.1569716000000000e+01 - #1.0 + $v_T * (#2.2790920150000001e-02 + $v_T * (#(-5.1664988333333336e-06) + $v_T * (#5.9927733249999998e-10 + #(-2.7741911800000000e-14) * $v_T))))))];
  (*802*) If ($v_T) (#1391.0)
    [Asn v_u 44 (#4.8811425653540098e+01 * (#(-4.0065425300000003e+04) + $v_T * (#(-2.6218159399999998e+00) - #1.0 + $v_T * (#7.3618855499999997e-02 + $v_T * (#(-3.1465675699999999e-05) + $v_T * (#7.6860317000000003e-09 + #(-8.0720446000000006e-13) * $v_T))))))]
    [Asn v_u 44 (#4.8811425653540098e+01 * (#(-5.4884346500000000e+04) + $v_T * (#3.8509503700000003e+01 - #1.0 + $v_T * (#2.8177502399999999e-02 + $v_T * (#(-6.3831066666666668e-06) + $v_T * (#7.4006215500000001e-10 + #(-3.4248830000000002e-14) * $v_T))))))];
  (*808*) If ($v_T) (#1390.0)
    [Asn v_u 45 (#4.9101975722034723e+01 * (#(-1.5453043500000000e+04) + $v_T * (#(-1.8502874100000000e+00) - #1.0 + $v_T * (#7.1335354000000004e-02 + $v_T * (#(-3.0630551833333332e-05) + $v_T * (#7.5220848000000000e-09 + #(-7.9490859999999999e-13) * $v_T))))))]
    [Asn v_u 45 (#4.9101975722034723e+01 * (#(-2.9819437500000000e+04) + $v_T * (#3.8092188499999999e+01 - #1.0 + $v_T * (#2.7105392400000001e-02 + $v_T * (#(-6.1401839000000006e-06) + $v_T * (#7.1190543250000005e-10 + #(-3.2946349600000002e-14) * $v_T))))))];
  (*814*) If ($v_T) (#1385.0)
    [Asn v_u 46 (#4.9101975722034723e+01 * (#(-1.6766053899999999e+04) + $v_T * (#(-1.3678708900000001e+00) - #1.0 + $v_T * (#6.8677673999999994e-02 + $v_T * (#(-2.7469205266666665e-05) + $v_T * (#5.9105390500000003e-09 + #(-4.9487186400000001e-13) * $v_T))))))]
    [Asn v_u 46 (#4.9101975722034723e+01 * (#(-3.1214498800000001e+04) + $v_T * (#3.7968826800000002e+01 - #1.0 + $v_T * (#2.6935973200000001e-02 + $v_T * (#(-6.0723754333333335e-06) + $v_T * (#7.0193625749999998e-10 + #(-3.2421684000000002e-14) * $v_T))))))];
  (*820*) If ($v_T) (#1385.0)
    [Asn v_u 47 (#4.9101975722034723e+01 * (#(-1.6766053899999999e+04) + $v_T * (#(-1.3678708900000001e+00) - #1.0 + $v_T * (#6.8677673999999994e-02 + $v_T * (#(-2.7469205266666665e-05) + $v_T * (#5.9105390500000003e-09 + #(-4.9487186400000001e-13) * $v_T))))))]
    [Asn v_u 47 (#4.9101975722034723e+01 * (#(-3.1214498800000001e+04) + $v_T * (#3.7968826800000002e+01 - #1.0 + $v_T * (#2.6935973200000001e-02 + $v_T * (#(-6.0723754333333335e-06) + $v_T * (#7.0193625749999998e-10 + #(-3.2421684000000002e-14) * $v_T))))))];
  (*826*) If ($v_T) (#1391.0)
    [Asn v_u 48 (#4.9396005502768020e+01 * (#(-2.4634529900000001e+04) + $v_T * (#(-2.9634268100000001e+00) - #1.0 + $v_T * (#7.1996180000000007e-02 + $v_T * (#(-3.2046133833333336e-05) + $v_T * (#8.2543618250000006e-09 + #(-9.2479638000000003e-13) * $v_T))))))]
    [Asn v_u 48 (#4.9396005502768020e+01 * (#(-3.8940596200000000e+04) + $v_T * (#3.7400211100000000e+01 - #1.0 + $v_T * (#2.6311537650000001e-02 + $v_T * (#(-5.9541439666666665e-06) + $v_T * (#6.8987465750000003e-10 + #(-3.1912499799999998e-14) * $v_T))))))];
  (*832*) If ($v_T) (#1000.0)
    [Asn v_u 49 (#4.1297824509398289e+01 * (#(-2.9891799999999999e+04) + $v_T * (#5.3140400000000003e+00 - #1.0 + $v_T * (#4.4693650000000001e-02 + $v_T * (#4.8450333333333336e-06 + $v_T * (#(-1.8731250000000001e-08) + #6.7065000000000002e-12 * $v_T))))))]
    [Asn v_u 49 (#4.1297824509398289e+01 * (#(-3.7411800000000003e+04) + $v_T * (#2.8478200000000001e+01 - #1.0 + $v_T * (#2.6876950000000000e-02 + $v_T * (#(-5.6061999999999998e-06) + $v_T * (#6.2841750000000002e-10 + #(-2.9441600000000001e-14) * $v_T))))))];
  (*838*) If ($v_T) (#1000.0)
    [Asn v_u 50 (#4.1297824509398289e+01 * (#(-2.3838000000000000e+04) + $v_T * (#5.1523099999999999e+00 - #1.0 + $v_T * (#4.9895650000000000e-02 + $v_T * (#(-6.0211666666666666e-06) + $v_T * (#(-1.0460875000000000e-08) + #4.4557199999999995e-12 * $v_T))))))]
    [Asn v_u 50 (#4.1297824509398289e+01 * (#(-3.1119200000000001e+04) + $v_T * (#2.9201899999999998e+01 - #1.0 + $v_T * (#2.5795849999999999e-02 + $v_T * (#(-5.2442333333333331e-06) + $v_T * (#5.7576500000000003e-10 + #(-2.6528000000000002e-14) * $v_T))))))];
  (*844*) If ($v_T) (#1000.0)
    [Asn v_u 51 (#3.5634208224384466e+01 * (#(-4.1687500000000000e+04) + $v_T * (#4.8197200000000001e-01 - #1.0 + $v_T * (#7.2510000000000005e-02 + $v_T * (#(-3.3310266666666665e-05) + $v_T * (#6.5105500000000000e-09 + #2.3871600000000003e-13 * $v_T))))))]
    [Asn v_u 51 (#3.5634208224384466e+01 * (#(-5.1267500000000000e+04) + $v_T * (#3.5090699999999998e+01 - #1.0 + $v_T * (#2.5529500000000000e-02 + $v_T * (#(-5.1448333333333328e-06) + $v_T * (#5.6156749999999998e-10 + #(-2.5780200000000000e-14) * $v_T))))))];
  (*850*) If ($v_T) (#1000.0)
    [Asn v_u 52 (#3.8435802925248602e+01 * (#(-6.6536100000000006e+04) + $v_T * (#8.8073300000000003e+00 - #1.0 + $v_T * (#3.2531150000000002e-02 + $v_T * (#2.3168599999999997e-05 + $v_T * (#(-3.1726250000000003e-08) + #1.0219820000000001e-11 * $v_T))))))]
    [Asn v_u 52 (#3.8435802925248602e+01 * (#(-7.1825800000000003e+04) + $v_T * (#2.3673100000000002e+01 - #1.0 + $v_T * (#3.0819599999999999e-02 + $v_T * (#(-6.9945333333333331e-06) + $v_T * (#8.3291500000000001e-10 + #(-4.0717999999999996e-14) * $v_T))))))];
  (*856*) If ($v_T) (#1000.0)
    [Asn v_u 53 (#2.9680218594762238e+02 * (#(-1.0208999000000000e+03) + $v_T * (#3.2986770000000001e+00 - #1.0 + $v_T * (#7.0412019999999999e-04 + $v_T * (#(-1.3210739999999999e-06) + $v_T * (#1.4103787500000001e-09 + #(-4.8897079999999994e-13) * $v_T))))))]
    [Asn v_u 53 (#2.9680218594762238e+02 * (#(-9.2279769999999996e+02) + $v_T * (#2.9266399999999999e+00 - #1.0 + $v_T * (#7.4398840000000003e-04 + $v_T * (#(-1.8949200000000001e-07) + $v_T * (#2.5242595000000000e-11 + #(-1.3506701999999999e-15) * $v_T))))))]
].

(** [eval_cv], yao/lib/src/chem_utils.c:864-1190. *)
Definition yao_eval_cv : list stmt := [
  (*866*) If ($v_T) (#1000.0)
    [Asn v_cv 0 (#2.0813212426154001e+02 * (#2.5000000000000000e+00 - #1.0 + $v_T * (#0.0000000000000000e+00 + $v_T * (#0.0000000000000000e+00 + $v_T * (#0.0000000000000000e+00 + #0.0000000000000000e+00 * $v_T)))))]
    [Asn v_cv 0 (#2.0813212426154001e+02 * (#2.5000000000000000e+00 - #1.0 + $v_T * (#0.0000000000000000e+00 + $v_T * (#0.0000000000000000e+00 + $v_T * (#0.0000000000000000e+00 + #0.0000000000000000e+00 * $v_T)))))];
  (*872*) If ($v_T) (#1000.0)
    [Asn v_cv 1 (#8.2489653153957570e+03 * (#2.5000000000000000e+00 - #1.0 + $v_T * (#7.0533281899999999e-13 + $v_T * (#(-1.9959196400000000e-15) + $v_T * (#2.3008163199999999e-18 + #(-9.2773233200000006e-22) * $v_T)))))]
    [Asn v_cv 1 (#8.2489653153957570e+03 * (#2.5000000099999999e+00 - #1.0 + $v_T * (#(-2.3084297299999999e-11) + $v_T * (#1.6156194800000001e-14 + $v_T * (#(-4.7351523500000003e-18) + #4.9819735700000002e-22 * $v_T)))))];
  (*878*) If ($v_T) (#1000.0)
    [Asn v_cv 2 (#5.1967336900133762e+02 * (#3.1682671000000000e+00 - #1.0 + $v_T * (#(-3.2793188399999999e-03) + $v_T * (#6.6430639599999997e-06 + $v_T * (#(-6.1280662400000001e-09) + #2.1126597099999999e-12 * $v_T)))))]
    [Asn v_cv 2 (#5.1967336900133762e+02 * (#2.5694207800000002e+00 - #1.0 + $v_T * (#(-8.5974113700000004e-05) + $v_T * (#4.1948458900000002e-08 + $v_T * (#(-1.0017779899999999e-11) + #1.2283369099999999e-15 * $v_T)))))];
  (*884*) If ($v_T) (#1000.0)
    [Asn v_cv 3 (#4.8887492694330808e+02 * (#4.1253056099999998e+00 - #1.0 + $v_T * (#(-3.2254493900000002e-03) + $v_T * (#6.5276469100000001e-06 + $v_T * (#(-5.7985364300000001e-09) + #2.0623737899999999e-12 * $v_T)))))]
    [Asn v_cv 3 (#4.8887492694330808e+02 * (#2.8647288600000000e+00 - #1.0 + $v_T * (#1.0565044800000000e-03 + $v_T * (#(-2.5908275800000001e-07) + $v_T * (#3.0521867400000000e-11 + #(-1.3319587600000001e-15) * $v_T)))))];
  (*890*) If ($v_T) (#1000.0)
    [Asn v_cv 4 (#2.5190194790518544e+02 * (#4.3017980099999997e+00 - #1.0 + $v_T * (#(-4.7491205099999996e-03) + $v_T * (#2.1158289099999999e-05 + $v_T * (#(-2.4276389400000000e-08) + #9.2922512400000003e-12 * $v_T)))))]
    [Asn v_cv 4 (#2.5190194790518544e+02 * (#4.0172109000000003e+00 - #1.0 + $v_T * (#2.2398201299999999e-03 + $v_T * (#(-6.3365814999999998e-07) + $v_T * (#1.1424637000000000e-10 + #(-1.0790853500000000e-14) * $v_T)))))];
  (*896*) If ($v_T) (#1000.0)
    [Asn v_cv 5 (#4.1244826576978785e+03 * (#2.3443311200000001e+00 - #1.0 + $v_T * (#7.9805207499999992e-03 + $v_T * (#(-1.9478150999999999e-05) + $v_T * (#2.0157209400000000e-08 + #(-7.3761176100000006e-12) * $v_T)))))]
    [Asn v_cv 5 (#4.1244826576978785e+03 * (#3.3372791999999998e+00 - #1.0 + $v_T * (#(-4.9402473099999998e-05) + $v_T * (#4.9945677799999996e-07 + $v_T * (#(-1.7956639400000001e-10) + #2.0025537600000000e-14 * $v_T)))))];
  (*902*) If ($v_T) (#1000.0)
    [Asn v_cv 6 (#4.6152277955158070e+02 * (#4.1986405600000003e+00 - #1.0 + $v_T * (#(-2.0364341000000002e-03) + $v_T * (#6.5204021099999997e-06 + $v_T * (#(-5.4879706200000003e-09) + #1.7719781700000000e-12 * $v_T)))))]
    [Asn v_cv 6 (#4.6152277955158070e+02 * (#3.0339924900000002e+00 - #1.0 + $v_T * (#2.1769180400000002e-03 + $v_T * (#(-1.6407251799999999e-07) + $v_T * (#(-9.7041986999999998e-11) + #1.6820099199999999e-14 * $v_T)))))];
  (*908*) If ($v_T) (#1000.0)
    [Asn v_cv 7 (#2.4443746347165404e+02 * (#4.2761126899999997e+00 - #1.0 + $v_T * (#(-5.4282241699999995e-04) + $v_T * (#1.6733570100000001e-05 + $v_T * (#(-2.1577081300000000e-08) + #8.6245436299999998e-12 * $v_T)))))]
    [Asn v_cv 7 (#2.4443746347165404e+02 * (#4.1650028499999996e+00 - #1.0 + $v_T * (#4.9083169400000000e-03 + $v_T * (#(-1.9013922500000000e-06) + $v_T * (#3.7118598599999998e-10 + #(-2.8790830500000002e-14) * $v_T)))))];
  (*914*) If ($v_T) (#1000.0)
    [Asn v_cv 8 (#2.5983668450066881e+02 * (#3.7824563599999999e+00 - #1.0 + $v_T * (#(-2.9967341599999998e-03) + $v_T * (#9.8473020100000000e-06 + $v_T * (#(-9.6812950900000007e-09) + #3.2437283700000000e-12 * $v_T)))))]
    [Asn v_cv 8 (#2.5983668450066881e+02 * (#3.2825378399999998e+00 - #1.0 + $v_T * (#1.4830875399999999e-03 + $v_T * (#(-7.5796666899999999e-07) + $v_T * (#2.0947055499999999e-10 + #(-2.1671779399999999e-14) * $v_T)))))];
  (*920*) If ($v_T) (#1000.0)
    [Asn v_cv 9 (#5.9275206603321635e+02 * (#3.7626786700000001e+00 - #1.0 + $v_T * (#9.6887214300000004e-04 + $v_T * (#2.7948984100000001e-06 + $v_T * (#(-3.8509115300000003e-09) + #1.6874171900000000e-12 * $v_T)))))]
    [Asn v_cv 9 (#5.9275206603321635e+02 * (#2.8741011300000001e+00 - #1.0 + $v_T * (#3.6563929199999999e-03 + $v_T * (#(-1.4089459700000001e-06) + $v_T * (#2.6017954899999999e-10 + #(-1.8772756700000001e-14) * $v_T)))))];
  (*926*) If ($v_T) (#1000.0)
    [Asn v_cv 10 (#5.9275206603321635e+02 * (#4.1986041099999998e+00 - #1.0 + $v_T * (#(-2.3666141900000001e-03) + $v_T * (#8.2329621999999999e-06 + $v_T * (#(-6.6881598100000004e-09) + #1.9431473700000001e-12 * $v_T)))))]
    [Asn v_cv 10 (#5.9275206603321635e+02 * (#2.2920384199999999e+00 - #1.0 + $v_T * (#4.6558863700000000e-03 + $v_T * (#(-2.0119194699999999e-06) + $v_T * (#4.1790600000000002e-10 + #(-3.3971636499999998e-14) * $v_T)))))];
  (*932*) If ($v_T) (#1000.0)
    [Asn v_cv 11 (#5.5301374409537334e+02 * (#3.6735904000000001e+00 - #1.0 + $v_T * (#2.0109517500000000e-03 + $v_T * (#5.7302185600000002e-06 + $v_T * (#(-6.8711742500000001e-09) + #2.5438573400000000e-12 * $v_T)))))]
    [Asn v_cv 11 (#5.5301374409537334e+02 * (#2.2857177200000001e+00 - #1.0 + $v_T * (#7.2399003699999999e-03 + $v_T * (#(-2.9871434799999999e-06) + $v_T * (#5.9568464400000002e-10 + #(-4.6715439400000003e-14) * $v_T)))))];
  (*938*) If ($v_T) (#1000.0)
    [Asn v_cv 12 (#5.1826880786099150e+02 * (#5.1498761300000000e+00 - #1.0 + $v_T * (#(-1.3670978800000001e-02) + $v_T * (#4.9180059899999999e-05 + $v_T * (#(-4.8474302600000002e-08) + #1.6669395599999999e-11 * $v_T)))))]
    [Asn v_cv 12 (#5.1826880786099150e+02 * (#7.4851495000000004e-02 - #1.0 + $v_T * (#1.3390946700000000e-02 + $v_T * (#(-5.7328580900000000e-06) + $v_T * (#1.2229253500000000e-09 + #(-1.0181523000000000e-13) * $v_T)))))];
  (*944*) If ($v_T) (#1000.0)
    [Asn v_cv 13 (#2.8652438768034290e+02 * (#4.2211858400000004e+00 - #1.0 + $v_T * (#(-3.2439253200000000e-03) + $v_T * (#1.3779944600000000e-05 + $v_T * (#(-1.3314409300000001e-08) + #4.3376886499999999e-12 * $v_T)))))]
    [Asn v_cv 13 (#2.8652438768034290e+02 * (#2.7721743800000000e+00 - #1.0 + $v_T * (#4.9569552599999997e-03 + $v_T * (#(-2.4844561300000000e-06) + $v_T * (#5.8916177800000004e-10 + #(-5.3350871099999999e-14) * $v_T)))))];
  (*950*) If ($v_T) (#1000.0)
    [Asn v_cv 14 (#2.7690616686449340e+02 * (#4.7937231499999999e+00 - #1.0 + $v_T * (#(-9.9083336899999999e-03) + $v_T * (#3.7322000799999999e-05 + $v_T * (#(-3.7928526099999998e-08) + #1.3177265200000000e-11 * $v_T)))))]
    [Asn v_cv 14 (#2.7690616686449340e+02 * (#1.7606900800000000e+00 - #1.0 + $v_T * (#9.2000008200000000e-03 + $v_T * (#(-4.4225881299999997e-06) + $v_T * (#1.0064121200000000e-09 + #(-8.8385564000000006e-14) * $v_T)))))];
  (*956*) If ($v_T) (#1000.0)
    [Asn v_cv 15 (#2.6791271377208773e+02 * (#3.7118050199999999e+00 - #1.0 + $v_T * (#(-2.8046330600000001e-03) + $v_T * (#3.7655097100000001e-05 + $v_T * (#(-4.7307208899999997e-08) + #1.8658842000000000e-11 * $v_T)))))]
    [Asn v_cv 15 (#2.6791271377208773e+02 * (#4.7577923799999997e+00 - #1.0 + $v_T * (#7.4414247399999999e-03 + $v_T * (#(-2.6970517599999999e-06) + $v_T * (#4.3809050400000002e-10 + #(-2.6353709800000000e-14) * $v_T)))))];
  (*962*) If ($v_T) (#1000.0)
    [Asn v_cv 16 (#2.9683482206608977e+02 * (#3.5795334699999999e+00 - #1.0 + $v_T * (#(-6.1035368000000000e-04) + $v_T * (#1.0168143300000000e-06 + $v_T * (#9.0700588399999998e-10 + #(-9.0442449900000000e-13) * $v_T)))))]
    [Asn v_cv 16 (#2.9683482206608977e+02 * (#2.7151856099999998e+00 - #1.0 + $v_T * (#2.0625274300000002e-03 + $v_T * (#(-9.9882577100000007e-07) + $v_T * (#2.3005300800000000e-10 + #(-2.0364771600000000e-14) * $v_T)))))];
  (*968*) If ($v_T) (#1000.0)
    [Asn v_cv 17 (#1.8892296942953618e+02 * (#2.3567735200000000e+00 - #1.0 + $v_T * (#8.9845967700000005e-03 + $v_T * (#(-7.1235626899999998e-06) + $v_T * (#2.4591902199999998e-09 + #(-1.4369954799999999e-13) * $v_T)))))]
    [Asn v_cv 17 (#1.8892296942953618e+02 * (#3.8574602900000001e+00 - #1.0 + $v_T * (#4.4143702599999998e-03 + $v_T * (#(-2.2148140400000001e-06) + $v_T * (#5.2349018800000005e-10 + #(-4.7208416400000003e-14) * $v_T)))))];
  (*974*) If ($v_T) (#1000.0)
    [Asn v_cv 18 (#3.1932177658088915e+02 * (#8.0868109399999999e-01 - #1.0 + $v_T * (#2.3361562900000001e-02 + $v_T * (#(-3.5517181499999999e-05) + $v_T * (#2.8015243700000000e-08 + #(-8.5007297399999996e-12) * $v_T)))))]
    [Asn v_cv 18 (#3.1932177658088915e+02 * (#4.1475696400000004e+00 - #1.0 + $v_T * (#5.9616666400000001e-03 + $v_T * (#(-2.3729485200000000e-06) + $v_T * (#4.6741217100000004e-10 + #(-3.6123521300000002e-14) * $v_T)))))];
  (*980*) If ($v_T) (#1000.0)
    [Asn v_cv 19 (#3.0742133534867867e+02 * (#3.2124664500000000e+00 - #1.0 + $v_T * (#1.5147916200000000e-03 + $v_T * (#2.5920941200000000e-05 + $v_T * (#(-3.5765784700000000e-08) + #1.4715087300000000e-11 * $v_T)))))]
    [Asn v_cv 19 (#3.0742133534867867e+02 * (#3.0167240000000000e+00 - #1.0 + $v_T * (#1.0330229200000001e-02 + $v_T * (#(-4.6808234899999996e-06) + $v_T * (#1.0176328799999999e-09 + #(-8.6260704099999999e-14) * $v_T)))))];
  (*986*) If ($v_T) (#1000.0)
    [Asn v_cv 20 (#2.9637603301660818e+02 * (#3.9592014799999999e+00 - #1.0 + $v_T * (#(-7.5705224700000004e-03) + $v_T * (#5.7099029199999999e-05 + $v_T * (#(-6.9158875299999999e-08) + #2.6988437300000001e-11 * $v_T)))))]
    [Asn v_cv 20 (#2.9637603301660818e+02 * (#2.0361111599999999e+00 - #1.0 + $v_T * (#1.4645415100000000e-02 + $v_T * (#(-6.7107791500000002e-06) + $v_T * (#1.4722292300000001e-09 + #(-1.2570606100000000e-13) * $v_T)))))];
  (*992*) If ($v_T) (#1000.0)
    [Asn v_cv 21 (#2.8609689384998131e+02 * (#4.3064656799999996e+00 - #1.0 + $v_T * (#(-4.1865889200000004e-03) + $v_T * (#4.9714280699999999e-05 + $v_T * (#(-5.9912660599999996e-08) + #2.3050900400000000e-11 * $v_T)))))]
    [Asn v_cv 21 (#2.8609689384998131e+02 * (#1.9546564200000001e+00 - #1.0 + $v_T * (#1.7397272200000001e-02 + $v_T * (#(-7.9820666799999996e-06) + $v_T * (#1.7521768900000000e-09 + #(-1.4964157600000000e-13) * $v_T)))))];
  (*998*) If ($v_T) (#1000.0)
    [Asn v_cv 22 (#2.7650687204768667e+02 * (#4.2914249199999999e+00 - #1.0 + $v_T * (#(-5.5015426999999997e-03) + $v_T * (#5.9943828800000003e-05 + $v_T * (#(-7.0846628500000001e-08) + #2.6868577099999999e-11 * $v_T)))))]
    [Asn v_cv 22 (#2.7650687204768667e+02 * (#1.0718814999999999e+00 - #1.0 + $v_T * (#2.1685267700000000e-02 + $v_T * (#(-1.0025606700000000e-05) + $v_T * (#2.2141200100000000e-09 + #(-1.9000289000000000e-13) * $v_T)))))];
  (*1004*) If ($v_T) (#1000.0)
    [Asn v_cv 23 (#1.9315645500243699e+02 * (#3.4090623999999998e+00 - #1.0 + $v_T * (#1.0738574000000001e-02 + $v_T * (#1.8914924999999999e-06 + $v_T * (#(-7.1585831000000001e-09) + #2.8673851000000000e-12 * $v_T)))))]
    [Asn v_cv 23 (#1.9315645500243699e+02 * (#5.9756698999999998e+00 - #1.0 + $v_T * (#8.1305913999999996e-03 + $v_T * (#(-2.7436244999999998e-06) + $v_T * (#4.0703041000000001e-10 + #(-2.1760171000000001e-14) * $v_T)))))];
  (*1010*) If ($v_T) (#1000.0)
    [Asn v_cv 24 (#2.0243281060168923e+02 * (#1.3631835000000001e+00 - #1.0 + $v_T * (#1.9813820999999999e-02 + $v_T * (#1.2497060000000000e-05 + $v_T * (#(-3.3355554999999998e-08) + #1.5846571000000000e-11 * $v_T)))))]
    [Asn v_cv 24 (#2.0243281060168923e+02 * (#6.5007877000000001e+00 - #1.0 + $v_T * (#1.4324731000000000e-02 + $v_T * (#(-5.6781631999999996e-06) + $v_T * (#1.1080801000000000e-09 + #(-9.0363886999999994e-14) * $v_T)))))];
  (*1016*) If ($v_T) (#1000.0)
    [Asn v_cv 25 (#1.9758402201107208e+02 * (#1.4933069999999999e+00 - #1.0 + $v_T * (#2.0925180000000002e-02 + $v_T * (#4.4867940000000002e-06 + $v_T * (#(-1.6689120000000000e-08) + #7.1581460000000003e-12 * $v_T)))))]
    [Asn v_cv 25 (#1.9758402201107208e+02 * (#6.7322569999999997e+00 - #1.0 + $v_T * (#1.4908340000000001e-02 + $v_T * (#(-4.9498989999999996e-06) + $v_T * (#7.2120220000000003e-10 + #(-3.7662039999999999e-14) * $v_T)))))];
  (*1022*) If ($v_T) (#1000.0)
    [Asn v_cv 26 (#1.9296208183235558e+02 * (#1.0491173000000000e+00 - #1.0 + $v_T * (#2.6008973000000001e-02 + $v_T * (#2.3542515999999998e-06 + $v_T * (#(-1.9595132000000000e-08) + #9.3720207000000007e-12 * $v_T)))))]
    [Asn v_cv 26 (#1.9296208183235558e+02 * (#7.7097479000000000e+00 - #1.0 + $v_T * (#1.6031485000000002e-02 + $v_T * (#(-5.2720237999999996e-06) + $v_T * (#7.5888352000000004e-10 + #(-3.8862719000000001e-14) * $v_T)))))];
  (*1028*) If ($v_T) (#1000.0)
    [Asn v_cv 27 (#1.4830262506385543e+02 * (#1.2713498000000001e+00 - #1.0 + $v_T * (#2.6231054000000000e-02 + $v_T * (#(-9.2912305000000002e-06) + $v_T * (#(-4.7837271999999999e-09) + #3.3480543000000001e-12 * $v_T)))))]
    [Asn v_cv 27 (#1.4830262506385543e+02 * (#5.8111867999999998e+00 - #1.0 + $v_T * (#1.7114256000000001e-02 + $v_T * (#(-7.4834160999999997e-06) + $v_T * (#1.4252249000000001e-09 + #(-9.1746840999999995e-14) * $v_T)))))];
  (*1034*) If ($v_T) (#1000.0)
    [Asn v_cv 28 (#1.5089882899288889e+02 * (#7.4449432000000004e-01 - #1.0 + $v_T * (#3.9678856999999998e-02 + $v_T * (#(-2.2898085999999999e-05) + $v_T * (#2.1352972999999998e-09 + #2.3096375000000000e-12 * $v_T)))))]
    [Asn v_cv 28 (#1.5089882899288889e+02 * (#7.0134835000000004e+00 - #1.0 + $v_T * (#2.2634557999999999e-02 + $v_T * (#(-9.2545469999999995e-06) + $v_T * (#1.6807927000000000e-09 + #(-1.0408617000000000e-13) * $v_T)))))];
  (*1040*) If ($v_T) (#1000.0)
    [Asn v_cv 29 (#1.4818801650830409e+02 * (#1.1811380000000000e+00 - #1.0 + $v_T * (#3.0853380000000000e-02 + $v_T * (#5.0865246999999997e-06 + $v_T * (#(-2.4654887999999999e-08) + #1.1110192999999999e-11 * $v_T)))))]
    [Asn v_cv 29 (#1.4818801650830409e+02 * (#2.0535841000000001e+00 - #1.0 + $v_T * (#3.4350507000000002e-02 + $v_T * (#(-1.5883196999999999e-05) + $v_T * (#3.3089662000000000e-09 + #(-2.5361045000000002e-13) * $v_T)))))];
  (*1046*) If ($v_T) (#1000.0)
    [Asn v_cv 30 (#1.4557288166811580e+02 * (#1.2087041999999999e+00 - #1.0 + $v_T * (#3.8297497000000000e-02 + $v_T * (#(-7.2660509000000000e-06) + $v_T * (#(-1.5428547000000000e-08) + #8.6859435000000004e-12 * $v_T)))))]
    [Asn v_cv 30 (#1.4557288166811580e+02 * (#8.6822394999999997e+00 - #1.0 + $v_T * (#2.3691071000000001e-02 + $v_T * (#(-7.5948864999999996e-06) + $v_T * (#6.6427135999999998e-10 + #5.4845136000000000e-14 * $v_T)))))];
  (*1052*) If ($v_T) (#1000.0)
    [Asn v_cv 31 (#1.2027900893521817e+02 * (#(-2.4190111000000001e+00) - #1.0 + $v_T * (#4.0430388999999997e-02 + $v_T * (#6.7802338999999996e-06 + $v_T * (#(-3.3724742000000003e-08) + #1.5116713000000001e-11 * $v_T)))))]
    [Asn v_cv 31 (#1.2027900893521817e+02 * (#1.0138640000000001e+01 - #1.0 + $v_T * (#2.2714137999999998e-02 + $v_T * (#(-7.7910462999999994e-06) + $v_T * (#1.1876522000000000e-09 + #(-6.5932448000000004e-14) * $v_T)))))];
  (*1058*) If ($v_T) (#1392.0)
    [Asn v_cv 32 (#1.1855041320664326e+02 * (#(-1.0622348100000001e+00) - #1.0 + $v_T * (#5.7421829399999999e-02 + $v_T * (#(-3.7448689000000003e-05) + $v_T * (#1.2736498899999999e-08 + #(-1.7960978899999999e-12) * $v_T)))))]
    [Asn v_cv 32 (#1.1855041320664326e+02 * (#1.4585153900000000e+01 - #1.0 + $v_T * (#2.2407247100000000e-02 + $v_T * (#(-7.6334802500000000e-06) + $v_T * (#1.1818896600000001e-09 + #(-6.8438513900000002e-14) * $v_T)))))];
  (*1064*) If ($v_T) (#1390.0)
    [Asn v_cv 33 (#1.1687079873954106e+02 * (#5.2438408100000000e-02 - #1.0 + $v_T * (#5.6079695800000003e-02 + $v_T * (#(-3.3154580300000003e-05) + $v_T * (#9.7753378099999998e-09 + #(-1.1400966000000000e-12) * $v_T)))))]
    [Asn v_cv 33 (#1.1687079873954106e+02 * (#1.5297744600000000e+01 - #1.0 + $v_T * (#2.3973530999999999e-02 + $v_T * (#(-8.1839294800000007e-06) + $v_T * (#1.2688307599999999e-09 + #(-7.3540905499999999e-14) * $v_T)))))];
  (*1070*) If ($v_T) (#1392.0)
    [Asn v_cv 34 (#9.8792011005536040e+01 * (#(-1.3527520500000001e+00) - #1.0 + $v_T * (#6.9865542599999997e-02 + $v_T * (#(-4.5940802200000001e-05) + $v_T * (#1.5696734300000001e-08 + #(-2.2129617500000001e-12) * $v_T)))))]
    [Asn v_cv 34 (#9.8792011005536040e+01 * (#1.7833752900000000e+01 - #1.0 + $v_T * (#2.6737765800000000e-02 + $v_T * (#(-9.1003677300000006e-06) + $v_T * (#1.4081976800000000e-09 + #(-8.1512424400000003e-14) * $v_T)))))];
  (*1076*) If ($v_T) (#1390.0)
    [Asn v_cv 35 (#9.7622851307080197e+01 * (#(-2.0487146500000000e-01) - #1.0 + $v_T * (#6.8380127200000002e-02 + $v_T * (#(-4.1444791199999999e-05) + $v_T * (#1.2615580200000000e-08 + #(-1.5312005799999999e-12) * $v_T)))))]
    [Asn v_cv 35 (#9.7622851307080197e+01 * (#1.8538547000000001e+01 - #1.0 + $v_T * (#2.8310796199999998e-02 + $v_T * (#(-9.6530724599999996e-06) + $v_T * (#1.4954758500000000e-09 + #(-8.6633606400000000e-14) * $v_T)))))];
  (*1082*) If ($v_T) (#1392.0)
    [Asn v_cv 36 (#8.4678866576173760e+01 * (#(-1.6772054900000000e+00) - #1.0 + $v_T * (#8.2461160100000000e-02 + $v_T * (#(-5.4650410800000001e-05) + $v_T * (#1.8786230299999999e-08 + #(-2.6573798299999999e-12) * $v_T)))))]
    [Asn v_cv 36 (#8.4678866576173760e+01 * (#2.1089803900000000e+01 - #1.0 + $v_T * (#3.1060787800000000e-02 + $v_T * (#(-1.0564479299999999e-05) + $v_T * (#1.6340578000000000e-09 + #(-9.4559821900000000e-14) * $v_T)))))];
  (*1088*) If ($v_T) (#1390.0)
    [Asn v_cv 37 (#8.3818437418406575e+01 * (#(-4.9957040600000002e-01) - #1.0 + $v_T * (#8.0882646700000005e-02 + $v_T * (#(-5.0053275400000002e-05) + $v_T * (#1.5654930800000001e-08 + #(-1.9661622700000000e-12) * $v_T)))))]
    [Asn v_cv 37 (#8.3818437418406575e+01 * (#2.1794070900000001e+01 - #1.0 + $v_T * (#3.2628024300000003e-02 + $v_T * (#(-1.1113824400000001e-05) + $v_T * (#1.7206714800000000e-09 + #(-9.9636699899999997e-14) * $v_T)))))];
  (*1094*) If ($v_T) (#1392.0)
    [Asn v_cv 38 (#7.4094008254152044e+01 * (#(-1.8922691500000000e+00) - #1.0 + $v_T * (#9.4606635699999997e-02 + $v_T * (#(-6.2738552100000003e-05) + $v_T * (#2.1515830900000000e-08 + #(-3.0271868300000002e-12) * $v_T)))))]
    [Asn v_cv 38 (#7.4094008254152044e+01 * (#2.4354012500000000e+01 - #1.0 + $v_T * (#3.5366646199999997e-02 + $v_T * (#(-1.2020838800000000e-05) + $v_T * (#1.8585505300000000e-09 + #(-1.0752226200000000e-13) * $v_T)))))];
  (*1100*) If ($v_T) (#1390.0)
    [Asn v_cv 39 (#7.3434404393878353e+01 * (#(-7.7275943800000002e-01) - #1.0 + $v_T * (#9.3254970500000006e-02 + $v_T * (#(-5.8444724499999997e-05) + $v_T * (#1.8557021399999999e-08 + #(-2.3712748300000001e-12) * $v_T)))))]
    [Asn v_cv 39 (#7.3434404393878353e+01 * (#2.5051035599999999e+01 - #1.0 + $v_T * (#3.6948016200000003e-02 + $v_T * (#(-1.2576526400000000e-05) + $v_T * (#1.9462840899999998e-09 + #(-1.1266889800000000e-13) * $v_T)))))];
  (*1106*) If ($v_T) (#1392.0)
    [Asn v_cv 40 (#6.5861340670357365e+01 * (#(-2.1610826300000001e+00) - #1.0 + $v_T * (#1.0695829699999999e-01 + $v_T * (#(-7.1097324400000000e-05) + $v_T * (#2.4397107700000000e-08 + #(-3.4277154699999998e-12) * $v_T)))))]
    [Asn v_cv 40 (#6.5861340670357365e+01 * (#2.7614217600000000e+01 - #1.0 + $v_T * (#3.9682528699999997e-02 + $v_T * (#(-1.3481944600000000e-05) + $v_T * (#2.0839045200000001e-09 + #(-1.2053929400000000e-13) * $v_T)))))];
  (*1112*) If ($v_T) (#1390.0)
    [Asn v_cv 41 (#6.5339656169366336e+01 * (#(-1.0438729200000001e+00) - #1.0 + $v_T * (#1.0561728300000001e-01 + $v_T * (#(-6.6819997100000004e-05) + $v_T * (#2.1448616599999999e-08 + #(-2.7740427500000001e-12) * $v_T)))))]
    [Asn v_cv 41 (#6.5339656169366336e+01 * (#2.8309751400000000e+01 - #1.0 + $v_T * (#4.1265734399999997e-02 + $v_T * (#(-1.4038328900000000e-05) + $v_T * (#2.1717487099999999e-09 + #(-1.2569230699999999e-13) * $v_T)))))];
  (*1118*) If ($v_T) (#1392.0)
    [Asn v_cv 42 (#5.9275206603321628e+01 * (#(-2.4290168799999998e+00) - #1.0 + $v_T * (#1.1930559800000000e-01 + $v_T * (#(-7.9448902500000001e-05) + $v_T * (#2.7273659600000001e-08 + #(-3.8271837299999998e-12) * $v_T)))))]
    [Asn v_cv 42 (#5.9275206603321628e+01 * (#3.0875390299999999e+01 - #1.0 + $v_T * (#4.3997152599999999e-02 + $v_T * (#(-1.4942553000000000e-05) + $v_T * (#2.3091767799999998e-09 + #(-1.3355147700000000e-13) * $v_T)))))];
  (*1124*) If ($v_T) (#1390.0)
    [Asn v_cv 43 (#5.8852307180927312e+01 * (#(-1.3135834799999999e+00) - #1.0 + $v_T * (#1.1797281300000000e-01 + $v_T * (#(-7.5184307900000001e-05) + $v_T * (#2.4333110599999999e-08 + #(-3.1752285200000001e-12) * $v_T)))))]
    [Asn v_cv 43 (#5.8852307180927312e+01 * (#3.1569716000000000e+01 - #1.0 + $v_T * (#4.5581840300000002e-02 + $v_T * (#(-1.5499496500000000e-05) + $v_T * (#2.3971093299999999e-09 + #(-1.3870955900000001e-13) * $v_T)))))];
  (*1130*) If ($v_T) (#1391.0)
    [Asn v_cv 44 (#4.8811425653540098e+01 * (#(-2.6218159399999998e+00) - #1.0 + $v_T * (#1.4723771099999999e-01 + $v_T * (#(-9.4397027100000003e-05) + $v_T * (#3.0744126800000001e-08 + #(-4.0360223000000001e-12) * $v_T)))))]
    [Asn v_cv 44 (#4.8811425653540098e+01 * (#3.8509503700000003e+01 - #1.0 + $v_T * (#5.6355004799999997e-02 + $v_T * (#(-1.9149320000000001e-05) + $v_T * (#2.9602486200000000e-09 + #(-1.7124415000000001e-13) * $v_T)))))];
  (*1136*) If ($v_T) (#1390.0)
    [Asn v_cv 45 (#4.9101975722034723e+01 * (#(-1.8502874100000000e+00) - #1.0 + $v_T * (#1.4267070800000001e-01 + $v_T * (#(-9.1891655500000001e-05) + $v_T * (#3.0088339200000000e-08 + #(-3.9745429999999999e-12) * $v_T)))))]
    [Asn v_cv 45 (#4.9101975722034723e+01 * (#3.8092188499999999e+01 - #1.0 + $v_T * (#5.4210784800000002e-02 + $v_T * (#(-1.8420551700000002e-05) + $v_T * (#2.8476217300000002e-09 + #(-1.6473174800000001e-13) * $v_T)))))];
  (*1142*) If ($v_T) (#1385.0)
    [Asn v_cv 46 (#4.9101975722034723e+01 * (#(-1.3678708900000001e+00) - #1.0 + $v_T * (#1.3735534799999999e-01 + $v_T * (#(-8.2407615799999994e-05) + $v_T * (#2.3642156200000001e-08 + #(-2.4743593200000001e-12) * $v_T)))))]
    [Asn v_cv 46 (#4.9101975722034723e+01 * (#3.7968826800000002e+01 - #1.0 + $v_T * (#5.3871946400000002e-02 + $v_T * (#(-1.8217126300000001e-05) + $v_T * (#2.8077450299999999e-09 + #(-1.6210842000000001e-13) * $v_T)))))];
  (*1148*) If ($v_T) (#1385.0)
    [Asn v_cv 47 (#4.9101975722034723e+01 * (#(-1.3678708900000001e+00) - #1.0 + $v_T * (#1.3735534799999999e-01 + $v_T * (#(-8.2407615799999994e-05) + $v_T * (#2.3642156200000001e-08 + #(-2.4743593200000001e-12) * $v_T)))))]
    [Asn v_cv 47 (#4.9101975722034723e+01 * (#3.7968826800000002e+01 - #1.0 + $v_T * (#5.3871946400000002e-02 + $v_T * (#(-1.8217126300000001e-05) + $v_T * (#2.8077450299999999e-09 + #(-1.6210842000000001e-13) * $v_T)))))];
  (*1154*) If ($v_T) (#1391.0)
    [Asn v_cv 48 (#4.9396005502768020e+01 * (#(-2.9634268100000001e+00) - #1.0 + $v_T * (#1.4399236000000001e-01 + $v_T * (#(-9.6138401500000002e-05) + $v_T * (#3.3017447300000002e-08 + #(-4.6239818999999997e-12) * $v_T)))))]
    [Asn v_cv 48 (#4.9396005502768020e+01 * (#3.7400211100000000e+01 - #1.0 + $v_T * (#5.2623075300000002e-02 + $v_T * (#(-1.7862431900000000e-05) + $v_T * (#2.7594986300000001e-09 + #(-1.5956249899999999e-13) * $v_T)))))];
  (*1160*) If ($v_T) (#1000.0)
    [Asn v_cv 49 (#4.1297824509398289e+01 * (#5.3140400000000003e+00 - #1.0 + $v_T * (#8.9387300000000003e-02 + $v_T * (#1.4535100000000001e-05 + $v_T * (#(-7.4925000000000004e-08) + #3.3532500000000002e-11 * $v_T)))))]
    [Asn v_cv 49 (#4.1297824509398289e+01 * (#2.8478200000000001e+01 - #1.0 + $v_T * (#5.3753900000000000e-02 + $v_T * (#(-1.6818599999999999e-05) + $v_T * (#2.5136700000000001e-09 + #(-1.4720799999999999e-13) * $v_T)))))];
  (*1166*) If ($v_T) (#1000.0)
    [Asn v_cv 50 (#4.1297824509398289e+01 * (#5.1523099999999999e+00 - #1.0 + $v_T * (#9.9791299999999999e-02 + $v_T * (#(-1.8063500000000001e-05) + $v_T * (#(-4.1843500000000000e-08) + #2.2278599999999999e-11 * $v_T)))))]
    [Asn v_cv 50 (#4.1297824509398289e+01 * (#2.9201899999999998e+01 - #1.0 + $v_T * (#5.1591699999999997e-02 + $v_T * (#(-1.5732699999999999e-05) + $v_T * (#2.3030600000000001e-09 + #(-1.3264000000000000e-13) * $v_T)))))];
  (*1172*) If ($v_T) (#1000.0)
    [Asn v_cv 51 (#3.5634208224384466e+01 * (#4.8197200000000001e-01 - #1.0 + $v_T * (#1.4502000000000001e-01 + $v_T * (#(-9.9930800000000002e-05) + $v_T * (#2.6042200000000000e-08 + #1.1935800000000000e-12 * $v_T)))))]
    [Asn v_cv 51 (#3.5634208224384466e+01 * (#3.5090699999999998e+01 - #1.0 + $v_T * (#5.1059000000000000e-02 + $v_T * (#(-1.5434499999999999e-05) + $v_T * (#2.2462699999999999e-09 + #(-1.2890100000000001e-13) * $v_T)))))];
  (*1178*) If ($v_T) (#1000.0)
    [Asn v_cv 52 (#3.8435802925248602e+01 * (#8.8073300000000003e+00 - #1.0 + $v_T * (#6.5062300000000003e-02 + $v_T * (#6.9505799999999994e-05 + $v_T * (#(-1.2690500000000001e-07) + #5.1099100000000001e-11 * $v_T)))))]
    [Asn v_cv 52 (#3.8435802925248602e+01 * (#2.3673100000000002e+01 - #1.0 + $v_T * (#6.1639199999999998e-02 + $v_T * (#(-2.0983600000000000e-05) + $v_T * (#3.3316600000000001e-09 + #(-2.0358999999999999e-13) * $v_T)))))];
  (*1184*) If ($v_T) (#1000.0)
    [Asn v_cv 53 (#2.9680218594762238e+02 * (#3.2986770000000001e+00 - #1.0 + $v_T * (#1.4082404000000000e-03 + $v_T * (#(-3.9632219999999998e-06) + $v_T * (#5.6415150000000002e-09 + #(-2.4448539999999999e-12) * $v_T)))))]
    [Asn v_cv 53 (#2.9680218594762238e+02 * (#2.9266399999999999e+00 - #1.0 + $v_T * (#1.4879768000000001e-03 + $v_T * (#(-5.6847600000000001e-07) + $v_T * (#1.0097038000000000e-10 + #(-6.7533509999999998e-15) * $v_T)))))]
].
