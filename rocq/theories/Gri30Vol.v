(** Transcription of /repo/utilities/mechanisms/gri30/lib/src (C): the functions for constant volume; the number
    before a statement is its line. *)
From Coq Require Import List QArith.
From Verif Require Import MechLang.
Import ListNotations.
Local Open Scope mech_scope.

(** [eval_conc_rho], gri30/lib/src/chem_utils.c:107-200. *)
Definition gri30_eval_conc_rho : list stmt := [
  (*110*) Do (Asn v_y_N 0 (#1.0 - (v_y.[0] + v_y.[1] + v_y.[2] + v_y.[3] + v_y.[4] + v_y.[5] + v_y.[6] + v_y.[7] + v_y.[8] + v_y.[9] + v_y.[10] + v_y.[11] + v_y.[12] + v_y.[13] + v_y.[14] + v_y.[15] + v_y.[16] + v_y.[17] + v_y.[18] + v_y.[19] + v_y.[20] + v_y.[21] + v_y.[22] + v_y.[23] + v_y.[24] + v_y.[25] + v_y.[26] + v_y.[27] + v_y.[28] + v_y.[29] + v_y.[30] + v_y.[31] + v_y.[32] + v_y.[33] + v_y.[34] + v_y.[35] + v_y.[36] + v_y.[37] + v_y.[38] + v_y.[39] + v_y.[40] + v_y.[41] + v_y.[42] + v_y.[43] + v_y.[44] + v_y.[45] + v_y.[46] + v_y.[47] + v_y.[48] + v_y.[49] + v_y.[50] + v_y.[51])));
  (*117*) Do (Asn v_mw_avg 0 (v_y.[0] * #4.9606127348850126e-01 + v_y.[1] * #9.9212254697700253e-01 + v_y.[2] * #6.2502343837893923e-02 + v_y.[3] * #3.1251171918946961e-02 + v_y.[4] * #5.8798142449083754e-02 + v_y.[5] * #5.5508435061791990e-02 + v_y.[6] * #3.0296842402491128e-02 + v_y.[7] * #2.9399071224541877e-02 + v_y.[8] * #8.3257014403463503e-02 + v_y.[9] * #7.6811168958455925e-02 + v_y.[10] * #7.1291691381119682e-02 + v_y.[11] * #7.1291691381119682e-02 + v_y.[12] * #6.6512269518358050e-02 + v_y.[13] * #6.2333413951215375e-02 + v_y.[14] * #3.5701025333447579e-02 + v_y.[15] * #2.2722211870992371e-02 + v_y.[16] * #3.4460965031080343e-02 + v_y.[17] * #3.3304158890145569e-02 + v_y.[18] * #3.2222495039346891e-02 + v_y.[19] * #3.2222495039346891e-02 + v_y.[20] * #3.1208882297572953e-02 + v_y.[21] * #3.9952153301206474e-02 + v_y.[22] * #3.8405584479227962e-02 + v_y.[23] * #3.6974290296984895e-02 + v_y.[24] * #3.5645845690559841e-02 + v_y.[25] * #3.4409549338132318e-02 + v_y.[26] * #3.3256134759179025e-02 + v_y.[27] * #2.4372802487195748e-02 + v_y.[28] * #2.3788408764791637e-02 + v_y.[29] * #2.3788408764791637e-02 + v_y.[30] * #7.1394200220750867e-02 + v_y.[31] * #6.6601486012355909e-02 + v_y.[32] * #6.2411765366712807e-02 + v_y.[33] * #5.8717975216317018e-02 + v_y.[34] * #3.4457307740282862e-02 + v_y.[35] * #3.3326512507106880e-02 + v_y.[36] * #2.1736512602612643e-02 + v_y.[37] * #2.2720621781623922e-02 + v_y.[38] * #3.2243419762894791e-02 + v_y.[39] * #3.8435313751309687e-02 + v_y.[40] * #3.7001844171913524e-02 + v_y.[41] * #3.5671454489288219e-02 + v_y.[42] * #2.4370973001348689e-02 + v_y.[43] * #2.3242257771513730e-02 + v_y.[44] * #2.3242257771513730e-02 + v_y.[45] * #2.3242257771513730e-02 + v_y.[46] * #2.3799811219897406e-02 + v_y.[47] * #2.5032542304996495e-02 + v_y.[48] * #2.3208005462236166e-02 + v_y.[49] * #2.2677526480547671e-02 + v_y.[50] * #2.3231383182615861e-02 + v_y.[51] * #2.2699847184628755e-02 + $v_y_N * #3.5697100110375433e-02));
  (*143*) Do (Asn v_mw_avg 0 (#1.0 / $v_mw_avg));
  (*145*) Do (Asn v_pres 0 ($v_rho * #8.31446210e+03 * $v_T / $v_mw_avg));
  (*146*) Do (Asn v_conc 0 ($v_rho * v_y.[0] * #4.9606127348850126e-01));
  (*147*) Do (Asn v_conc 1 ($v_rho * v_y.[1] * #9.9212254697700253e-01));
  (*148*) Do (Asn v_conc 2 ($v_rho * v_y.[2] * #6.2502343837893923e-02));
  (*149*) Do (Asn v_conc 3 ($v_rho * v_y.[3] * #3.1251171918946961e-02));
  (*150*) Do (Asn v_conc 4 ($v_rho * v_y.[4] * #5.8798142449083754e-02));
  (*151*) Do (Asn v_conc 5 ($v_rho * v_y.[5] * #5.5508435061791990e-02));
  (*152*) Do (Asn v_conc 6 ($v_rho * v_y.[6] * #3.0296842402491128e-02));
  (*153*) Do (Asn v_conc 7 ($v_rho * v_y.[7] * #2.9399071224541877e-02));
  (*154*) Do (Asn v_conc 8 ($v_rho * v_y.[8] * #8.3257014403463503e-02));
  (*155*) Do (Asn v_conc 9 ($v_rho * v_y.[9] * #7.6811168958455925e-02));
  (*156*) Do (Asn v_conc 10 ($v_rho * v_y.[10] * #7.1291691381119682e-02));
  (*157*) Do (Asn v_conc 11 ($v_rho * v_y.[11] * #7.1291691381119682e-02));
  (*158*) Do (Asn v_conc 12 ($v_rho * v_y.[12] * #6.6512269518358050e-02));
  (*159*) Do (Asn v_conc 13 ($v_rho * v_y.[13] * #6.2333413951215375e-02));
  (*160*) Do (Asn v_conc 14 ($v_rho * v_y.[14] * #3.5701025333447579e-02));
  (*161*) Do (Asn v_conc 15 ($v_rho * v_y.[15] * #2.2722211870992371e-02));
  (*162*) Do (Asn v_conc 16 ($v_rho * v_y.[16] * #3.4460965031080343e-02));
  (*163*) Do (Asn v_conc 17 ($v_rho * v_y.[17] * #3.3304158890145569e-02));
  (*164*) Do (Asn v_conc 18 ($v_rho * v_y.[18] * #3.2222495039346891e-02));
  (*165*) Do (Asn v_conc 19 ($v_rho * v_y.[19] * #3.2222495039346891e-02));
  (*166*) Do (Asn v_conc 20 ($v_rho * v_y.[20] * #3.1208882297572953e-02));
  (*167*) Do (Asn v_conc 21 ($v_rho * v_y.[21] * #3.9952153301206474e-02));
  (*168*) Do (Asn v_conc 22 ($v_rho * v_y.[22] * #3.8405584479227962e-02));
  (*169*) Do (Asn v_conc 23 ($v_rho * v_y.[23] * #3.6974290296984895e-02));
  (*170*) Do (Asn v_conc 24 ($v_rho * v_y.[24] * #3.5645845690559841e-02));
  (*171*) Do (Asn v_conc 25 ($v_rho * v_y.[25] * #3.4409549338132318e-02));
  (*172*) Do (Asn v_conc 26 ($v_rho * v_y.[26] * #3.3256134759179025e-02));
  (*173*) Do (Asn v_conc 27 ($v_rho * v_y.[27] * #2.4372802487195748e-02));
  (*174*) Do (Asn v_conc 28 ($v_rho * v_y.[28] * #2.3788408764791637e-02));
  (*175*) Do (Asn v_conc 29 ($v_rho * v_y.[29] * #2.3788408764791637e-02));
  (*176*) Do (Asn v_conc 30 ($v_rho * v_y.[30] * #7.1394200220750867e-02));
  (*177*) Do (Asn v_conc 31 ($v_rho * v_y.[31] * #6.6601486012355909e-02));
  (*178*) Do (Asn v_conc 32 ($v_rho * v_y.[32] * #6.2411765366712807e-02));
  (*179*) Do (Asn v_conc 33 ($v_rho * v_y.[33] * #5.8717975216317018e-02));
  (*180*) Do (Asn v_conc 34 ($v_rho * v_y.[34] * #3.4457307740282862e-02));
  (*181*) Do (Asn v_conc 35 ($v_rho * v_y.[35] * #3.3326512507106880e-02));
  (*182*) Do (Asn v_conc 36 ($v_rho * v_y.[36] * #2.1736512602612643e-02));
  (*183*) Do (Asn v_conc 37 ($v_rho * v_y.[37] * #2.2720621781623922e-02));
  (*184*) Do (Asn v_conc 38 ($v_rho * v_y.[38] * #3.2243419762894791e-02));
  (*185*) Do (Asn v_conc 39 ($v_rho * v_y.[39] * #3.8435313751309687e-02));
  (*186*) Do (Asn v_conc 40 ($v_rho * v_y.[40] * #3.7001844171913524e-02));
  (*187*) Do (Asn v_conc 41 ($v_rho * v_y.[41] * #3.5671454489288219e-02));
  (*188*) Do (Asn v_conc 42 ($v_rho * v_y.[42] * #2.4370973001348689e-02));
  (*189*) Do (Asn v_conc 43 ($v_rho * v_y.[43] * #2.3242257771513730e-02));
  (*190*) Do (Asn v_conc 44 ($v_rho * v_y.[44] * #2.3242257771513730e-02));
  (*191*) Do (Asn v_conc 45 ($v_rho * v_y.[45] * #2.3242257771513730e-02));
  (*192*) Do (Asn v_conc 46 ($v_rho * v_y.[46] * #2.3799811219897406e-02));
  (*193*) Do (Asn v_conc 47 ($v_rho * v_y.[47] * #2.5032542304996495e-02));
  (*194*) Do (Asn v_conc 48 ($v_rho * v_y.[48] * #2.3208005462236166e-02));
  (*195*) Do (Asn v_conc 49 ($v_rho * v_y.[49] * #2.2677526480547671e-02));
  (*196*) Do (Asn v_conc 50 ($v_rho * v_y.[50] * #2.3231383182615861e-02));
  (*197*) Do (Asn v_conc 51 ($v_rho * v_y.[51] * #2.2699847184628755e-02));
  (*198*) Do (Asn v_conc 52 ($v_rho * $v_y_N * #3.5697100110375433e-02))
].

(** [eval_u], gri30/lib/src/chem_utils.c:524-844. *)
Definition gri30_eval_u : list stmt := [
  (*526*) If ($v_T) (#1000.0)
    [Asn v_u 0 (#4.1244826576978785e+03 * (#(-9.1793517299999996e+02) + $v_T * (#2.3443311200000001e+00 - #1.0 + $v_T * (#3.9902603749999996e-03 + $v_T * (#(-6.4927169999999995e-06) + $v_T * (#5.0393023500000001e-09 + #(-1.4752235220000002e-12) * $v_T))))))]
    [Asn v_u 0 (#4.1244826576978785e+03 * (#(-9.5015892199999996e+02) + $v_T * (#3.3372791999999998e+00 - #1.0 + $v_T * (#(-2.4701236549999999e-05) + $v_T * (#1.6648559266666665e-07 + $v_T * (#(-4.4891598500000001e-11) + #4.0051075199999998e-15 * $v_T))))))];
  (*532*) If ($v_T) (#1000.0)
    [Asn v_u 1 (#8.2489653153957570e+03 * (#2.5473659899999999e+04 + $v_T * (#2.5000000000000000e+00 - #1.0 + $v_T * (#3.5266640949999999e-13 + $v_T * (#(-6.6530654666666665e-16) + $v_T * (#5.7520407999999997e-19 + #(-1.8554646640000001e-22) * $v_T))))))]
    [Asn v_u 1 (#8.2489653153957570e+03 * (#2.5473659899999999e+04 + $v_T * (#2.5000000099999999e+00 - #1.0 + $v_T * (#(-1.1542148649999999e-11) + $v_T * (#5.3853982666666673e-15 + $v_T * (#(-1.1837880875000001e-18) + #9.9639471400000006e-23 * $v_T))))))];
  (*538*) If ($v_T) (#1000.0)
    [Asn v_u 2 (#5.1967336900133762e+02 * (#2.9122259200000000e+04 + $v_T * (#3.1682671000000000e+00 - #1.0 + $v_T * (#(-1.6396594200000000e-03) + $v_T * (#2.2143546533333334e-06 + $v_T * (#(-1.5320165600000000e-09) + #4.2253194199999998e-13 * $v_T))))))]
    [Asn v_u 2 (#5.1967336900133762e+02 * (#2.9217579099999999e+04 + $v_T * (#2.5694207800000002e+00 - #1.0 + $v_T * (#(-4.2987056850000002e-05) + $v_T * (#1.3982819633333334e-08 + $v_T * (#(-2.5044449749999998e-12) + #2.4566738199999997e-16 * $v_T))))))];
  (*544*) If ($v_T) (#1000.0)
    [Asn v_u 3 (#2.5983668450066881e+02 * (#(-1.0639435599999999e+03) + $v_T * (#3.7824563599999999e+00 - #1.0 + $v_T * (#(-1.4983670799999999e-03) + $v_T * (#3.2824340033333332e-06 + $v_T * (#(-2.4203237725000002e-09) + #6.4874567400000000e-13 * $v_T))))))]
    [Asn v_u 3 (#2.5983668450066881e+02 * (#(-1.0884577200000001e+03) + $v_T * (#3.2825378399999998e+00 - #1.0 + $v_T * (#7.4154376999999996e-04 + $v_T * (#(-2.5265555633333331e-07) + $v_T * (#5.2367638749999998e-11 + #(-4.3343558799999996e-15) * $v_T))))))];
  (*550*) If ($v_T) (#1000.0)
    [Asn v_u 4 (#4.8887492694330808e+02 * (#3.6150805599999999e+03 + $v_T * (#3.9920154299999999e+00 - #1.0 + $v_T * (#(-1.2006587600000001e-03) + $v_T * (#1.5393128033333333e-06 + $v_T * (#(-9.7028333249999999e-10) + #2.7282293999999999e-13 * $v_T))))))]
    [Asn v_u 4 (#4.8887492694330808e+02 * (#3.8586570000000002e+03 + $v_T * (#3.0928876700000001e+00 - #1.0 + $v_T * (#2.7421485799999999e-04 + $v_T * (#4.2168409333333331e-08 + $v_T * (#(-2.1986538899999999e-11) + #2.3482475199999999e-15 * $v_T))))))];
  (*556*) If ($v_T) (#1000.0)
    [Asn v_u 5 (#4.6152277955158070e+02 * (#(-3.0293726699999999e+04) + $v_T * (#4.1986405600000003e+00 - #1.0 + $v_T * (#(-1.0182170500000001e-03) + $v_T * (#2.1734673700000000e-06 + $v_T * (#(-1.3719926550000001e-09) + #3.5439563400000000e-13 * $v_T))))))]
    [Asn v_u 5 (#4.6152277955158070e+02 * (#(-3.0004297100000000e+04) + $v_T * (#3.0339924900000002e+00 - #1.0 + $v_T * (#1.0884590200000001e-03 + $v_T * (#(-5.4690839333333327e-08) + $v_T * (#(-2.4260496750000000e-11) + #3.3640198399999998e-15 * $v_T))))))];
  (*562*) If ($v_T) (#1000.0)
    [Asn v_u 6 (#2.5190194790518544e+02 * (#2.9480804000000001e+02 + $v_T * (#4.3017980099999997e+00 - #1.0 + $v_T * (#(-2.3745602549999998e-03) + $v_T * (#7.0527630333333326e-06 + $v_T * (#(-6.0690973500000000e-09) + #1.8584502480000002e-12 * $v_T))))))]
    [Asn v_u 6 (#2.5190194790518544e+02 * (#1.1185671300000000e+02 + $v_T * (#4.0172109000000003e+00 - #1.0 + $v_T * (#1.1199100650000000e-03 + $v_T * (#(-2.1121938333333332e-07) + $v_T * (#2.8561592500000001e-11 + #(-2.1581707000000000e-15) * $v_T))))))];
  (*568*) If ($v_T) (#1000.0)
    [Asn v_u 7 (#2.4443746347165404e+02 * (#(-1.7702582100000000e+04) + $v_T * (#4.2761126899999997e+00 - #1.0 + $v_T * (#(-2.7141120849999997e-04) + $v_T * (#5.5778567000000005e-06 + $v_T * (#(-5.3942703249999999e-09) + #1.7249087260000000e-12 * $v_T))))))]
    [Asn v_u 7 (#2.4443746347165404e+02 * (#(-1.7861787700000001e+04) + $v_T * (#4.1650028499999996e+00 - #1.0 + $v_T * (#2.4541584700000000e-03 + $v_T * (#(-6.3379741666666662e-07) + $v_T * (#9.2796496499999996e-11 + #(-5.7581661000000002e-15) * $v_T))))))];
  (*574*) If ($v_T) (#1000.0)
    [Asn v_u 8 (#6.9223729081675140e+02 * (#8.5443883199999997e+04 + $v_T * (#2.5542395500000001e+00 - #1.0 + $v_T * (#(-1.6076886199999999e-04) + $v_T * (#2.4459741500000000e-07 + $v_T * (#(-1.8305872225000000e-10) + #5.3304289200000002e-14 * $v_T))))))]
    [Asn v_u 8 (#6.9223729081675140e+02 * (#8.5451295299999998e+04 + $v_T * (#2.4926688800000001e+00 - #1.0 + $v_T * (#2.3994464200000000e-05 + $v_T * (#(-2.4144500666666670e-08) + $v_T * (#9.3572757250000007e-12 + #(-9.7455578599999989e-16) * $v_T))))))];
  (*580*) If ($v_T) (#1000.0)
    [Asn v_u 9 (#6.3864355316177830e+02 * (#7.0797293399999995e+04 + $v_T * (#3.4898166499999999e+00 - #1.0 + $v_T * (#1.6191777050000001e-04 + $v_T * (#(-5.6299688333333337e-07) + $v_T * (#7.9054331749999998e-10 + #(-2.8121813400000003e-13) * $v_T))))))]
    [Asn v_u 9 (#6.3864355316177830e+02 * (#7.1012436400000006e+04 + $v_T * (#2.8784647300000001e+00 - #1.0 + $v_T * (#4.8545684050000000e-04 + $v_T * (#4.8148551666666660e-08 + $v_T * (#(-3.2671962250000002e-11) + #3.5215876599999997e-15 * $v_T))))))];
  (*586*) If ($v_T) (#1000.0)
    [Asn v_u 10 (#5.9275206603321635e+02 * (#4.6004040099999998e+04 + $v_T * (#3.7626786700000001e+00 - #1.0 + $v_T * (#4.8443607150000002e-04 + $v_T * (#9.3163280333333339e-07 + $v_T * (#(-9.6272788250000007e-10) + #3.3748343799999999e-13 * $v_T))))))]
    [Asn v_u 10 (#5.9275206603321635e+02 * (#4.6263603999999999e+04 + $v_T * (#2.8741011300000001e+00 - #1.0 + $v_T * (#1.8281964599999999e-03 + $v_T * (#(-4.6964865666666667e-07) + $v_T * (#6.5044887249999998e-11 + #(-3.7545513400000000e-15) * $v_T))))))];
  (*592*) If ($v_T) (#1000.0)
    [Asn v_u 11 (#5.9275206603321635e+02 * (#5.0496816299999999e+04 + $v_T * (#4.1986041099999998e+00 - #1.0 + $v_T * (#(-1.1833070950000000e-03) + $v_T * (#2.7443207333333332e-06 + $v_T * (#(-1.6720399525000001e-09) + #3.8862947400000001e-13 * $v_T))))))]
    [Asn v_u 11 (#5.9275206603321635e+02 * (#5.0925999700000000e+04 + $v_T * (#2.2920384199999999e+00 - #1.0 + $v_T * (#2.3279431850000000e-03 + $v_T * (#(-6.7063982333333332e-07) + $v_T * (#1.0447650000000001e-10 + #(-6.7943272999999998e-15) * $v_T))))))];
  (*598*) If ($v_T) (#1000.0)
    [Asn v_u 12 (#5.5301374409537334e+02 * (#1.6444998800000001e+04 + $v_T * (#3.6735904000000001e+00 - #1.0 + $v_T * (#1.0054758750000000e-03 + $v_T * (#1.9100728533333335e-06 + $v_T * (#(-1.7177935625000000e-09) + #5.0877146800000003e-13 * $v_T))))))]
    [Asn v_u 12 (#5.5301374409537334e+02 * (#1.6775584299999999e+04 + $v_T * (#2.2857177200000001e+00 - #1.0 + $v_T * (#3.6199501849999999e-03 + $v_T * (#(-9.9571449333333331e-07) + $v_T * (#1.4892116100000001e-10 + #(-9.3430878800000005e-15) * $v_T))))))];
  (*604*) If ($v_T) (#1000.0)
    [Asn v_u 13 (#5.1826880786099150e+02 * (#(-1.0246647600000000e+04) + $v_T * (#5.1498761300000000e+00 - #1.0 + $v_T * (#(-6.8354894000000003e-03) + $v_T * (#1.6393353300000001e-05 + $v_T * (#(-1.2118575650000000e-08) + #3.3338791200000000e-12 * $v_T))))))]
    [Asn v_u 13 (#5.1826880786099150e+02 * (#(-9.4683445900000006e+03) + $v_T * (#7.4851495000000004e-02 - #1.0 + $v_T * (#6.6954733499999999e-03 + $v_T * (#(-1.9109526966666665e-06) + $v_T * (#3.0573133750000000e-10 + #(-2.0363046000000002e-14) * $v_T))))))];
  (*610*) If ($v_T) (#1000.0)
    [Asn v_u 14 (#2.9683482206608977e+02 * (#(-1.4344085999999999e+04) + $v_T * (#3.5795334699999999e+00 - #1.0 + $v_T * (#(-3.0517684000000000e-04) + $v_T * (#3.3893811000000002e-07 + $v_T * (#2.2675147100000000e-10 + #(-1.8088489979999999e-13) * $v_T))))))]
    [Asn v_u 14 (#2.9683482206608977e+02 * (#(-1.4151872400000000e+04) + $v_T * (#2.7151856099999998e+00 - #1.0 + $v_T * (#1.0312637150000001e-03 + $v_T * (#(-3.3294192366666671e-07) + $v_T * (#5.7513252000000000e-11 + #(-4.0729543200000001e-15) * $v_T))))))];
  (*616*) If ($v_T) (#1000.0)
    [Asn v_u 15 (#1.8892296942953618e+02 * (#(-4.8371969700000001e+04) + $v_T * (#2.3567735200000000e+00 - #1.0 + $v_T * (#4.4922983850000002e-03 + $v_T * (#(-2.3745208966666665e-06) + $v_T * (#6.1479755499999995e-10 + #(-2.8739909599999997e-14) * $v_T))))))]
    [Asn v_u 15 (#1.8892296942953618e+02 * (#(-4.8759165999999997e+04) + $v_T * (#3.8574602900000001e+00 - #1.0 + $v_T * (#2.2071851299999999e-03 + $v_T * (#(-7.3827134666666672e-07) + $v_T * (#1.3087254700000001e-10 + #(-9.4416832800000002e-15) * $v_T))))))];
  (*622*) If ($v_T) (#1000.0)
    [Asn v_u 16 (#2.8652438768034290e+02 * (#3.8395649600000002e+03 + $v_T * (#4.2211858400000004e+00 - #1.0 + $v_T * (#(-1.6219626600000000e-03) + $v_T * (#4.5933148666666667e-06 + $v_T * (#(-3.3286023250000002e-09) + #8.6753773000000000e-13 * $v_T))))))]
    [Asn v_u 16 (#2.8652438768034290e+02 * (#4.0119181500000000e+03 + $v_T * (#2.7721743800000000e+00 - #1.0 + $v_T * (#2.4784776299999998e-03 + $v_T * (#(-8.2815204333333337e-07) + $v_T * (#1.4729044450000001e-10 + #(-1.0670174220000000e-14) * $v_T))))))];
  (*628*) If ($v_T) (#1000.0)
    [Asn v_u 17 (#2.7690616686449340e+02 * (#(-1.4308956700000001e+04) + $v_T * (#4.7937231499999999e+00 - #1.0 + $v_T * (#(-4.9541668450000000e-03) + $v_T * (#1.2440666933333332e-05 + $v_T * (#(-9.4821315249999995e-09) + #2.6354530400000001e-12 * $v_T))))))]
    [Asn v_u 17 (#2.7690616686449340e+02 * (#(-1.3995832300000000e+04) + $v_T * (#1.7606900800000000e+00 - #1.0 + $v_T * (#4.6000004100000000e-03 + $v_T * (#(-1.4741960433333332e-06) + $v_T * (#2.5160302999999999e-10 + #(-1.7677112800000002e-14) * $v_T))))))];
  (*634*) If ($v_T) (#1000.0)
    [Asn v_u 18 (#2.6791271377208773e+02 * (#(-3.1939136699999999e+03) + $v_T * (#3.8638891800000001e+00 - #1.0 + $v_T * (#2.7983615200000002e-03 + $v_T * (#1.9775726366666668e-06 + $v_T * (#(-2.6133003000000002e-09) + #8.7393455600000001e-13 * $v_T))))))]
    [Asn v_u 18 (#2.6791271377208773e+02 * (#(-3.2425062699999999e+03) + $v_T * (#3.6926656900000001e+00 - #1.0 + $v_T * (#4.3228839850000004e-03 + $v_T * (#(-1.2503370666666667e-06) + $v_T * (#1.9680865900000000e-10 + #(-1.2971084020000001e-14) * $v_T))))))];
  (*640*) If ($v_T) (#1000.0)
    [Asn v_u 19 (#2.6791271377208773e+02 * (#9.7860109999999997e+02 + $v_T * (#2.1062040000000000e+00 - #1.0 + $v_T * (#3.6082975000000001e-03 + $v_T * (#1.7794906666666667e-06 + $v_T * (#(-1.8444089999999999e-09) + #4.1512200000000000e-13 * $v_T))))))]
    [Asn v_u 19 (#2.6791271377208773e+02 * (#1.2783252000000000e+02 + $v_T * (#3.7707989999999998e+00 - #1.0 + $v_T * (#3.9357484999999999e-03 + $v_T * (#(-8.8546133333333336e-07) + $v_T * (#9.8610774999999998e-11 + #(-4.2252319999999999e-15) * $v_T))))))];
  (*646*) If ($v_T) (#1000.0)
    [Asn v_u 20 (#2.5948506904653124e+02 * (#(-2.5642765599999999e+04) + $v_T * (#5.7153958200000003e+00 - #1.0 + $v_T * (#(-7.6154564500000004e-03) + $v_T * (#2.1748038500000001e-05 + $v_T * (#(-1.7770172225000000e-08) + #5.2270539599999996e-12 * $v_T))))))]
    [Asn v_u 20 (#2.5948506904653124e+02 * (#(-2.5374874700000000e+04) + $v_T * (#1.7897079100000000e+00 - #1.0 + $v_T * (#7.0469145999999998e-03 + $v_T * (#(-2.1216694499999999e-06) + $v_T * (#3.4542771250000001e-10 + #(-2.3412043999999999e-14) * $v_T))))))];
  (*652*) If ($v_T) (#1000.0)
    [Asn v_u 21 (#3.3218066443627117e+02 * (#6.6839393200000006e+04 + $v_T * (#2.8896573299999999e+00 - #1.0 + $v_T * (#6.7049805499999997e-03 + $v_T * (#(-9.4923167000000006e-06) + $v_T * (#7.3697761250000002e-09 + #(-2.1866302199999998e-12) * $v_T))))))]
    [Asn v_u 21 (#3.3218066443627117e+02 * (#6.7121065000000002e+04 + $v_T * (#3.1678065200000001e+00 - #1.0 + $v_T * (#2.3761095100000001e-03 + $v_T * (#(-6.1262358999999999e-07) + $v_T * (#7.6047562999999994e-11 + #(-3.5446553999999999e-15) * $v_T))))))];
  (*658*) If ($v_T) (#1000.0)
    [Asn v_u 22 (#3.1932177658088915e+02 * (#2.6428980700000000e+04 + $v_T * (#8.0868109399999999e-01 - #1.0 + $v_T * (#1.1680781450000000e-02 + $v_T * (#(-1.1839060500000000e-05) + $v_T * (#7.0038109249999999e-09 + #(-1.7001459479999999e-12) * $v_T))))))]
    [Asn v_u 22 (#3.1932177658088915e+02 * (#2.5935999199999998e+04 + $v_T * (#4.1475696400000004e+00 - #1.0 + $v_T * (#2.9808333200000000e-03 + $v_T * (#(-7.9098284000000004e-07) + $v_T * (#1.1685304275000001e-10 + #(-7.2247042600000001e-15) * $v_T))))))];
  (*664*) If ($v_T) (#1000.0)
    [Asn v_u 23 (#3.0742133534867867e+02 * (#3.4859846799999999e+04 + $v_T * (#3.2124664500000000e+00 - #1.0 + $v_T * (#7.5739581000000002e-04 + $v_T * (#8.6403137333333327e-06 + $v_T * (#(-8.9414461750000000e-09) + #2.9430174599999999e-12 * $v_T))))))]
    [Asn v_u 23 (#3.0742133534867867e+02 * (#3.4612873899999999e+04 + $v_T * (#3.0167240000000000e+00 - #1.0 + $v_T * (#5.1651146000000004e-03 + $v_T * (#(-1.5602744966666665e-06) + $v_T * (#2.5440821999999998e-10 + #(-1.7252140819999999e-14) * $v_T))))))];
  (*670*) If ($v_T) (#1000.0)
    [Asn v_u 24 (#2.9637603301660818e+02 * (#5.0897759299999998e+03 + $v_T * (#3.9592014799999999e+00 - #1.0 + $v_T * (#(-3.7852612350000002e-03) + $v_T * (#1.9033009733333333e-05 + $v_T * (#(-1.7289718825000000e-08) + #5.3976874600000004e-12 * $v_T))))))]
    [Asn v_u 24 (#2.9637603301660818e+02 * (#4.9398861399999996e+03 + $v_T * (#2.0361111599999999e+00 - #1.0 + $v_T * (#7.3227075499999999e-03 + $v_T * (#(-2.2369263833333335e-06) + $v_T * (#3.6805730750000002e-10 + #(-2.5141212200000000e-14) * $v_T))))))];
  (*676*) If ($v_T) (#1000.0)
    [Asn v_u 25 (#2.8609689384998131e+02 * (#1.2841626500000000e+04 + $v_T * (#4.3064656799999996e+00 - #1.0 + $v_T * (#(-2.0932944600000002e-03) + $v_T * (#1.6571426900000001e-05 + $v_T * (#(-1.4978165149999999e-08) + #4.6101800800000003e-12 * $v_T))))))]
    [Asn v_u 25 (#2.8609689384998131e+02 * (#1.2857520000000000e+04 + $v_T * (#1.9546564200000001e+00 - #1.0 + $v_T * (#8.6986361000000005e-03 + $v_T * (#(-2.6606888933333333e-06) + $v_T * (#4.3804422250000001e-10 + #(-2.9928315199999999e-14) * $v_T))))))];
  (*682*) If ($v_T) (#1000.0)
    [Asn v_u 26 (#2.7650687204768667e+02 * (#(-1.1522205500000000e+04) + $v_T * (#4.2914249199999999e+00 - #1.0 + $v_T * (#(-2.7507713499999998e-03) + $v_T * (#1.9981276266666669e-05 + $v_T * (#(-1.7711657125000000e-08) + #5.3737154200000002e-12 * $v_T))))))]
    [Asn v_u 26 (#2.7650687204768667e+02 * (#(-1.1426393200000000e+04) + $v_T * (#1.0718814999999999e+00 - #1.0 + $v_T * (#1.0842633850000000e-02 + $v_T * (#(-3.3418689000000000e-06) + $v_T * (#5.5353000250000001e-10 + #(-3.8000577999999999e-14) * $v_T))))))];
  (*688*) If ($v_T) (#1000.0)
    [Asn v_u 27 (#2.0264674255057480e+02 * (#2.0059449000000001e+04 + $v_T * (#2.2517214000000001e+00 - #1.0 + $v_T * (#8.8275105000000000e-03 + $v_T * (#(-7.9097003333333330e-06) + $v_T * (#4.3189397500000003e-09 + #(-1.0132962200000001e-12) * $v_T))))))]
    [Asn v_u 27 (#2.0264674255057480e+02 * (#1.9327215000000000e+04 + $v_T * (#5.6282057999999999e+00 - #1.0 + $v_T * (#2.0426700500000001e-03 + $v_T * (#(-5.3115156666666666e-07) + $v_T * (#7.1565129999999998e-11 + #(-3.8815663999999995e-15) * $v_T))))))];
  (*694*) If ($v_T) (#1000.0)
    [Asn v_u 28 (#1.9778782309416789e+02 * (#(-7.0429180399999996e+03) + $v_T * (#2.1358362999999998e+00 - #1.0 + $v_T * (#9.0594360499999995e-03 + $v_T * (#(-5.7982491333333329e-06) + $v_T * (#2.3359939200000000e-09 + #(-4.0291522999999998e-13) * $v_T))))))]
    [Asn v_u 28 (#1.9778782309416789e+02 * (#(-7.5510531099999998e+03) + $v_T * (#4.5112973199999997e+00 - #1.0 + $v_T * (#4.5017987249999997e-03 + $v_T * (#(-1.3897987833333332e-06) + $v_T * (#2.3083647049999999e-10 + #(-1.5896764019999999e-14) * $v_T))))))];
  (*700*) If ($v_T) (#1000.0)
    [Asn v_u 29 (#1.9778782309416789e+02 * (#8.0316143000000002e+03 + $v_T * (#1.2423732999999999e+00 - #1.0 + $v_T * (#1.5536100500000000e-02 + $v_T * (#(-1.6955621333333335e-05) + $v_T * (#1.0784282750000001e-08 + #(-2.8029188000000001e-12) * $v_T))))))]
    [Asn v_u 29 (#1.9778782309416789e+02 * (#7.2646260000000002e+03 + $v_T * (#5.9238290999999998e+00 - #1.0 + $v_T * (#3.3961799999999999e-03 + $v_T * (#(-8.5528546666666670e-07) + $v_T * (#1.1246960250000000e-10 + #(-5.9880201999999998e-15) * $v_T))))))];
  (*706*) If ($v_T) (#1000.0)
    [Asn v_u 30 (#5.9360437189524475e+02 * (#5.6104637000000002e+04 + $v_T * (#2.5000000000000000e+00 - #1.0 + $v_T * (#0.0000000000000000e+00 + $v_T * (#0.0000000000000000e+00 + $v_T * (#0.0000000000000000e+00 + #0.0000000000000000e+00 * $v_T))))))]
    [Asn v_u 30 (#5.9360437189524475e+02 * (#5.6133773000000001e+04 + $v_T * (#2.4159429000000001e+00 - #1.0 + $v_T * (#8.7445325000000003e-05 + $v_T * (#(-3.9674563333333332e-08) + $v_T * (#7.5565612499999998e-12 + #(-4.0721964000000000e-16) * $v_T))))))];
  (*712*) If ($v_T) (#1000.0)
    [Asn v_u 31 (#5.5375553125341332e+02 * (#4.1880629000000001e+04 + $v_T * (#3.4929085000000000e+00 - #1.0 + $v_T * (#1.5589599000000000e-04 + $v_T * (#(-4.9634946666666669e-07) + $v_T * (#6.2041104999999995e-10 + #(-2.0713934000000001e-13) * $v_T))))))]
    [Asn v_u 31 (#5.5375553125341332e+02 * (#4.2120847999999998e+04 + $v_T * (#2.7836927999999999e+00 - #1.0 + $v_T * (#6.6492150000000002e-04 + $v_T * (#(-1.4159348999999999e-07) + $v_T * (#1.9587125250000000e-11 + #(-1.1008894000000001e-15) * $v_T))))))];
  (*718*) If ($v_T) (#1000.0)
    [Asn v_u 32 (#5.1892025773562625e+02 * (#2.1885910000000000e+04 + $v_T * (#4.2040028999999999e+00 - #1.0 + $v_T * (#(-1.0530692500000001e-03) + $v_T * (#2.3689449333333334e-06 + $v_T * (#(-1.4028799250000000e-09) + #3.2881433999999999e-13 * $v_T))))))]
    [Asn v_u 32 (#5.1892025773562625e+02 * (#2.2171956999999999e+04 + $v_T * (#2.8347421000000002e+00 - #1.0 + $v_T * (#1.6036541000000000e-03 + $v_T * (#(-3.1130268000000002e-07) + $v_T * (#3.4257382499999998e-11 + #(-1.5841228800000001e-15) * $v_T))))))];
  (*724*) If ($v_T) (#1000.0)
    [Asn v_u 33 (#4.8820837952480719e+02 * (#(-6.7417285000000002e+03) + $v_T * (#4.2860274000000000e+00 - #1.0 + $v_T * (#(-2.3302614999999999e-03) + $v_T * (#7.2395043333333340e-06 + $v_T * (#(-5.7022217499999999e-09) + #1.6527609200000000e-12 * $v_T))))))]
    [Asn v_u 33 (#4.8820837952480719e+02 * (#(-6.5446958000000004e+03) + $v_T * (#2.6344520999999999e+00 - #1.0 + $v_T * (#2.8331279999999999e-03 + $v_T * (#(-5.7595586666666667e-07) + $v_T * (#5.9667902500000000e-11 + #(-2.5157571999999998e-15) * $v_T))))))];
  (*730*) If ($v_T) (#1000.0)
    [Asn v_u 34 (#2.8649397927461854e+02 * (#2.8791973000000002e+04 + $v_T * (#4.3446927000000004e+00 - #1.0 + $v_T * (#(-2.4248536000000000e-03) + $v_T * (#6.6864863333333334e-06 + $v_T * (#(-5.4316160000000003e-09) + #1.5893907800000000e-12 * $v_T))))))]
    [Asn v_u 34 (#2.8649397927461854e+02 * (#2.8650697000000000e+04 + $v_T * (#3.7667543999999999e+00 - #1.0 + $v_T * (#1.4457541000000001e-03 + $v_T * (#(-3.4722066666666664e-07) + $v_T * (#4.2106484999999997e-11 + #(-2.0183792000000000e-15) * $v_T))))))];
  (*736*) If ($v_T) (#1000.0)
    [Asn v_u 35 (#2.7709202516551613e+02 * (#9.8446229999999996e+03 + $v_T * (#4.2184762999999998e+00 - #1.0 + $v_T * (#(-2.3194880000000002e-03) + $v_T * (#3.6803406666666667e-06 + $v_T * (#(-2.3340338500000000e-09) + #5.6071540000000003e-13 * $v_T))))))]
    [Asn v_u 35 (#2.7709202516551613e+02 * (#9.9209745999999996e+03 + $v_T * (#3.2606055999999999e+00 - #1.0 + $v_T * (#5.9555215000000000e-04 + $v_T * (#(-1.4305682666666666e-07) + $v_T * (#1.7364417250000001e-11 + #(-8.0672197999999996e-16) * $v_T))))))];
  (*742*) If ($v_T) (#1000.0)
    [Asn v_u 36 (#1.8072741022059520e+02 * (#2.8966179000000002e+03 + $v_T * (#3.9440312000000000e+00 - #1.0 + $v_T * (#(-7.9271449999999998e-04) + $v_T * (#5.5526040000000001e-06 + $v_T * (#(-5.1188565000000000e-09) + #1.5670112800000000e-12 * $v_T))))))]
    [Asn v_u 36 (#1.8072741022059520e+02 * (#2.3164983000000002e+03 + $v_T * (#4.8847541999999997e+00 - #1.0 + $v_T * (#1.0861978000000000e-03 + $v_T * (#(-2.7602302000000000e-07) + $v_T * (#3.9368774999999999e-11 + #(-2.1021790000000000e-15) * $v_T))))))];
  (*748*) If ($v_T) (#1000.0)
    [Asn v_u 37 (#1.8890974869174661e+02 * (#8.7417744000000002e+03 + $v_T * (#2.2571501999999999e+00 - #1.0 + $v_T * (#5.6523640000000000e-03 + $v_T * (#(-4.5571063333333328e-06) + $v_T * (#2.4204951500000002e-09 + #(-5.8614363999999997e-13) * $v_T))))))]
    [Asn v_u 37 (#1.8890974869174661e+02 * (#8.0734048000000003e+03 + $v_T * (#4.8230728999999997e+00 - #1.0 + $v_T * (#1.3135125499999999e-03 + $v_T * (#(-3.1950291333333330e-07) + $v_T * (#4.0001779999999998e-11 + #(-1.9550460600000000e-15) * $v_T))))))];
  (*754*) If ($v_T) (#1000.0)
    [Asn v_u 38 (#2.6808669159297972e+02 * (#1.1548297000000000e+04 + $v_T * (#4.5334915999999996e+00 - #1.0 + $v_T * (#(-2.8348085499999998e-03) + $v_T * (#6.1577356666666665e-06 + $v_T * (#(-4.2842735000000000e-09) + #1.1090914600000000e-12 * $v_T))))))]
    [Asn v_u 38 (#2.6808669159297972e+02 * (#1.1750582000000000e+04 + $v_T * (#2.9792508999999998e+00 - #1.0 + $v_T * (#1.7472029500000001e-03 + $v_T * (#(-2.6183259333333334e-07) + $v_T * (#1.4369898500000001e-11 + #(-3.8671832000000001e-17) * $v_T))))))];
  (*760*) If ($v_T) (#1000.0)
    [Asn v_u 39 (#3.1956895948687321e+02 * (#5.1708339999999997e+04 + $v_T * (#3.6129351000000001e+00 - #1.0 + $v_T * (#(-4.7775663499999998e-04) + $v_T * (#7.1476589999999999e-07 + $v_T * (#(-7.8790807499999998e-11) + #(-9.2860711999999993e-14) * $v_T))))))]
    [Asn v_u 39 (#3.1956895948687321e+02 * (#5.1536188000000002e+04 + $v_T * (#3.7459804999999999e+00 - #1.0 + $v_T * (#2.1725387500000000e-05 + $v_T * (#9.9019946666666663e-08 + $v_T * (#(-1.7162951500000000e-11) + #8.8268346000000005e-16 * $v_T))))))];
  (*766*) If ($v_T) (#1000.0)
    [Asn v_u 40 (#3.0765043099748090e+02 * (#1.4712633000000000e+04 + $v_T * (#2.2589885999999999e+00 - #1.0 + $v_T * (#5.0255849999999999e-03 + $v_T * (#(-4.4505876666666668e-06) + $v_T * (#2.5230872500000002e-09 + #(-6.0178055999999999e-13) * $v_T))))))]
    [Asn v_u 40 (#3.0765043099748090e+02 * (#1.4407291999999999e+04 + $v_T * (#3.8022391999999998e+00 - #1.0 + $v_T * (#1.5732114000000001e-03 + $v_T * (#(-3.5440616666666668e-07) + $v_T * (#4.1549392500000003e-11 + #(-1.9599514000000000e-15) * $v_T))))))];
  (*772*) If ($v_T) (#1000.0)
    [Asn v_u 41 (#2.9658895640306179e+02 * (#2.8637820000000000e+04 + $v_T * (#2.8516610000000000e+00 - #1.0 + $v_T * (#2.8476165499999998e-03 + $v_T * (#3.5704666666666666e-07 + $v_T * (#(-4.0565300000000002e-10) + #(-4.7022162000000000e-14) * $v_T))))))]
    [Asn v_u 41 (#2.9658895640306179e+02 * (#2.7677109000000000e+04 + $v_T * (#5.2097030000000002e+00 - #1.0 + $v_T * (#1.4846455499999999e-03 + $v_T * (#(-9.5186303333333329e-08) + $v_T * (#(-4.0888750000000003e-11) + #6.0865177999999998e-15 * $v_T))))))];
  (*778*) If ($v_T) (#1000.0)
    [Asn v_u 42 (#2.0263153135983694e+02 * (#5.4261983999999997e+04 + $v_T * (#2.5243194000000000e+00 - #1.0 + $v_T * (#7.9803094999999994e-03 + $v_T * (#(-6.2721179999999997e-06) + $v_T * (#3.0313849999999999e-09 + #(-6.4714756000000001e-13) * $v_T))))))]
    [Asn v_u 42 (#2.0263153135983694e+02 * (#5.3452940999999999e+04 + $v_T * (#5.8946361999999999e+00 - #1.0 + $v_T * (#1.9947979500000001e-03 + $v_T * (#(-5.3274600000000000e-07) + $v_T * (#7.3123487500000002e-11 + #(-4.0189372000000003e-15) * $v_T))))))];
  (*784*) If ($v_T) (#1382.0)
    [Asn v_u 43 (#1.9324687135968139e+02 * (#1.9299025200000000e+04 + $v_T * (#2.6472798900000001e+00 - #1.0 + $v_T * (#6.3752671000000000e-03 + $v_T * (#(-3.4931411999999996e-06) + $v_T * (#1.1035820900000000e-09 + #(-1.5150429320000001e-13) * $v_T))))))]
    [Asn v_u 43 (#1.9324687135968139e+02 * (#1.7966133900000001e+04 + $v_T * (#6.5986045600000001e+00 - #1.0 + $v_T * (#1.5138931300000000e-03 + $v_T * (#(-3.5901448666666666e-07) + $v_T * (#4.2916632000000000e-11 + #(-2.0287878200000000e-15) * $v_T))))))];
  (*790*) If ($v_T) (#1368.0)
    [Asn v_u 44 (#1.9324687135968139e+02 * (#(-2.8269839999999999e+03) + $v_T * (#3.7860495200000002e+00 - #1.0 + $v_T * (#3.4433396099999999e-03 + $v_T * (#(-1.0716262133333332e-06) + $v_T * (#1.2929894174999999e-10 + #2.3872157600000001e-15 * $v_T))))))]
    [Asn v_u 44 (#1.9324687135968139e+02 * (#(-3.7065333099999998e+03) + $v_T * (#5.8978488499999999e+00 - #1.0 + $v_T * (#1.5839469650000000e-03 + $v_T * (#(-3.7267021333333335e-07) + $v_T * (#4.4310786000000001e-11 + #(-2.0867835399999997e-15) * $v_T))))))];
  (*796*) If ($v_T) (#1478.0)
    [Asn v_u 45 (#1.9324687135968139e+02 * (#(-1.5587363600000001e+04) + $v_T * (#3.6309631699999998e+00 - #1.0 + $v_T * (#3.6514117850000001e-03 + $v_T * (#(-7.6016667666666667e-07) + $v_T * (#(-1.6531782450000001e-10) + #7.2447150399999992e-14 * $v_T))))))]
    [Asn v_u 45 (#1.9324687135968139e+02 * (#(-1.6659934399999998e+04) + $v_T * (#6.2239513400000002e+00 - #1.0 + $v_T * (#1.5893200200000001e-03 + $v_T * (#(-3.6459585000000000e-07) + $v_T * (#4.2683790750000001e-11 + #(-1.9900439100000000e-15) * $v_T))))))];
  (*802*) If ($v_T) (#1000.0)
    [Asn v_u 46 (#1.9788262837499175e+02 * (#1.4682477000000001e+04 + $v_T * (#2.8269308000000000e+00 - #1.0 + $v_T * (#4.4025844000000003e-03 + $v_T * (#(-2.7955378000000001e-06) + $v_T * (#1.2004240999999999e-09 + #(-2.6627190000000002e-13) * $v_T))))))]
    [Asn v_u 46 (#1.9788262837499175e+02 * (#1.4004123000000000e+04 + $v_T * (#5.1521844999999997e+00 - #1.0 + $v_T * (#1.1525880500000000e-03 + $v_T * (#(-2.9344384333333333e-07) + $v_T * (#3.6972744999999997e-11 + #(-1.8195599199999999e-15) * $v_T))))))];
  (*808*) If ($v_T) (#1000.0)
    [Asn v_u 47 (#2.0813212426154001e+02 * (#(-7.4537500000000000e+02) + $v_T * (#2.5000000000000000e+00 - #1.0 + $v_T * (#0.0000000000000000e+00 + $v_T * (#0.0000000000000000e+00 + $v_T * (#0.0000000000000000e+00 + #0.0000000000000000e+00 * $v_T))))))]
    [Asn v_u 47 (#2.0813212426154001e+02 * (#(-7.4537500000000000e+02) + $v_T * (#2.5000000000000000e+00 - #1.0 + $v_T * (#0.0000000000000000e+00 + $v_T * (#0.0000000000000000e+00 + $v_T * (#0.0000000000000000e+00 + #0.0000000000000000e+00 * $v_T))))))];
  (*814*) If ($v_T) (#1000.0)
    [Asn v_u 48 (#1.9296208183235558e+02 * (#1.0631862999999999e+04 + $v_T * (#1.0515517999999999e+00 - #1.0 + $v_T * (#1.2995990000000001e-02 + $v_T * (#7.9335133333333326e-07 + $v_T * (#(-4.9023922500000000e-09) + #1.8746494000000000e-12 * $v_T))))))]
    [Asn v_u 48 (#1.9296208183235558e+02 * (#8.2984336000000003e+03 + $v_T * (#7.7026987000000000e+00 - #1.0 + $v_T * (#8.0221015000000000e-03 + $v_T * (#(-1.7611073333333333e-06) + $v_T * (#1.9074647500000000e-10 + #(-7.8784568000000004e-15) * $v_T))))))];
  (*820*) If ($v_T) (#1000.0)
    [Asn v_u 49 (#1.8855143444426002e+02 * (#(-1.3958520000000000e+04) + $v_T * (#9.3355381000000004e-01 - #1.0 + $v_T * (#1.3212289500000000e-02 + $v_T * (#2.0353242333333332e-06 + $v_T * (#(-5.4943747499999998e-09) + #1.9029850599999998e-12 * $v_T))))))]
    [Asn v_u 49 (#1.8855143444426002e+02 * (#(-1.6467516000000000e+04) + $v_T * (#7.5341367999999997e+00 - #1.0 + $v_T * (#9.4361194999999995e-03 + $v_T * (#(-2.0906163666666664e-06) + $v_T * (#2.2868912250000001e-10 + #(-9.5676138000000010e-15) * $v_T))))))];
  (*826*) If ($v_T) (#1000.0)
    [Asn v_u 50 (#1.9315645500243699e+02 * (#1.5214766000000000e+03 + $v_T * (#3.4090620000000000e+00 - #1.0 + $v_T * (#5.3692870000000004e-03 + $v_T * (#6.3049733333333330e-07 + $v_T * (#(-1.7896457500000000e-09) + #5.7347699999999998e-13 * $v_T))))))]
    [Asn v_u 50 (#1.9315645500243699e+02 * (#4.9032180000000000e+02 + $v_T * (#5.9756700000000000e+00 - #1.0 + $v_T * (#4.0652954999999998e-03 + $v_T * (#(-9.1454133333333341e-07) + $v_T * (#1.0175760000000000e-10 + #(-4.3520339999999999e-15) * $v_T))))))];
  (*832*) If ($v_T) (#1000.0)
    [Asn v_u 51 (#1.8873701909238750e+02 * (#(-2.1572878000000001e+04) + $v_T * (#4.7294594999999999e+00 - #1.0 + $v_T * (#(-1.5966429000000000e-03) + $v_T * (#1.5844973666666667e-05 + $v_T * (#(-1.4364652749999999e-08) + #4.3862224000000000e-12 * $v_T))))))]
    [Asn v_u 51 (#1.8873701909238750e+02 * (#(-2.2593121999999999e+04) + $v_T * (#5.4041107999999998e+00 - #1.0 + $v_T * (#5.8615294999999996e-03 + $v_T * (#(-1.4087712333333332e-06) + $v_T * (#1.7093112750000001e-10 + #(-8.1969725999999999e-15) * $v_T))))))];
  (*838*) If ($v_T) (#1000.0)
    [Asn v_u 52 (#2.9680218594762238e+02 * (#(-1.0208999000000000e+03) + $v_T * (#3.2986770000000001e+00 - #1.0 + $v_T * (#7.0412019999999999e-04 + $v_T * (#(-1.3210739999999999e-06) + $v_T * (#1.4103787500000001e-09 + #(-4.8897079999999994e-13) * $v_T))))))]
    [Asn v_u 52 (#2.9680218594762238e+02 * (#(-9.2279769999999996e+02) + $v_T * (#2.9266399999999999e+00 - #1.0 + $v_T * (#7.4398840000000003e-04 + $v_T * (#(-1.8949200000000001e-07) + $v_T * (#2.5242595000000000e-11 + #(-1.3506701999999999e-15) * $v_T))))))]
].

(** [eval_cv], gri30/lib/src/chem_utils.c:846-1166. *)
Definition gri30_eval_cv : list stmt := [
  (*848*) If ($v_T) (#1000.0)
    [Asn v_cv 0 (#4.1244826576978785e+03 * (#2.3443311200000001e+00 - #1.0 + $v_T * (#7.9805207499999992e-03 + $v_T * (#(-1.9478150999999999e-05) + $v_T * (#2.0157209400000000e-08 + #(-7.3761176100000006e-12) * $v_T)))))]
    [Asn v_cv 0 (#4.1244826576978785e+03 * (#3.3372791999999998e+00 - #1.0 + $v_T * (#(-4.9402473099999998e-05) + $v_T * (#4.9945677799999996e-07 + $v_T * (#(-1.7956639400000001e-10) + #2.0025537600000000e-14 * $v_T)))))];
  (*854*) If ($v_T) (#1000.0)
    [Asn v_cv 1 (#8.2489653153957570e+03 * (#2.5000000000000000e+00 - #1.0 + $v_T * (#7.0533281899999999e-13 + $v_T * (#(-1.9959196400000000e-15) + $v_T * (#2.3008163199999999e-18 + #(-9.2773233200000006e-22) * $v_T)))))]
    [Asn v_cv 1 (#8.2489653153957570e+03 * (#2.5000000099999999e+00 - #1.0 + $v_T * (#(-2.3084297299999999e-11) + $v_T * (#1.6156194800000001e-14 + $v_T * (#(-4.7351523500000003e-18) + #4.9819735700000002e-22 * $v_T)))))];
  (*860*) If ($v_T) (#1000.0)
    [Asn v_cv 2 (#5.1967336900133762e+02 * (#3.1682671000000000e+00 - #1.0 + $v_T * (#(-3.2793188399999999e-03) + $v_T * (#6.6430639599999997e-06 + $v_T * (#(-6.1280662400000001e-09) + #2.1126597099999999e-12 * $v_T)))))]
    [Asn v_cv 2 (#5.1967336900133762e+02 * (#2.5694207800000002e+00 - #1.0 + $v_T * (#(-8.5974113700000004e-05) + $v_T * (#4.1948458900000002e-08 + $v_T * (#(-1.0017779899999999e-11) + #1.2283369099999999e-15 * $v_T)))))];
  (*866*) If ($v_T) (#1000.0)
    [Asn v_cv 3 (#2.5983668450066881e+02 * (#3.7824563599999999e+00 - #1.0 + $v_T * (#(-2.9967341599999998e-03) + $v_T * (#9.8473020100000000e-06 + $v_T * (#(-9.6812950900000007e-09) + #3.2437283700000000e-12 * $v_T)))))]
    [Asn v_cv 3 (#2.5983668450066881e+02 * (#3.2825378399999998e+00 - #1.0 + $v_T * (#1.4830875399999999e-03 + $v_T * (#(-7.5796666899999999e-07) + $v_T * (#2.0947055499999999e-10 + #(-2.1671779399999999e-14) * $v_T)))))];
  (*872*) If ($v_T) (#1000.0)
    [Asn v_cv 4 (#4.8887492694330808e+02 * (#3.9920154299999999e+00 - #1.0 + $v_T * (#(-2.4013175200000001e-03) + $v_T * (#4.6179384099999996e-06 + $v_T * (#(-3.8811333300000000e-09) + #1.3641147000000000e-12 * $v_T)))))]
    [Asn v_cv 4 (#4.8887492694330808e+02 * (#3.0928876700000001e+00 - #1.0 + $v_T * (#5.4842971599999998e-04 + $v_T * (#1.2650522799999999e-07 + $v_T * (#(-8.7946155599999995e-11) + #1.1741237600000000e-14 * $v_T)))))];
  (*878*) If ($v_T) (#1000.0)
    [Asn v_cv 5 (#4.6152277955158070e+02 * (#4.1986405600000003e+00 - #1.0 + $v_T * (#(-2.0364341000000002e-03) + $v_T * (#6.5204021099999997e-06 + $v_T * (#(-5.4879706200000003e-09) + #1.7719781700000000e-12 * $v_T)))))]
    [Asn v_cv 5 (#4.6152277955158070e+02 * (#3.0339924900000002e+00 - #1.0 + $v_T * (#2.1769180400000002e-03 + $v_T * (#(-1.6407251799999999e-07) + $v_T * (#(-9.7041986999999998e-11) + #1.6820099199999999e-14 * $v_T)))))];
  (*884*) If ($v_T) (#1000.0)
    [Asn v_cv 6 (#2.5190194790518544e+02 * (#4.3017980099999997e+00 - #1.0 + $v_T * (#(-4.7491205099999996e-03) + $v_T * (#2.1158289099999999e-05 + $v_T * (#(-2.4276389400000000e-08) + #9.2922512400000003e-12 * $v_T)))))]
    [Asn v_cv 6 (#2.5190194790518544e+02 * (#4.0172109000000003e+00 - #1.0 + $v_T * (#2.2398201299999999e-03 + $v_T * (#(-6.3365814999999998e-07) + $v_T * (#1.1424637000000000e-10 + #(-1.0790853500000000e-14) * $v_T)))))];
  (*890*) If ($v_T) (#1000.0)
    [Asn v_cv 7 (#2.4443746347165404e+02 * (#4.2761126899999997e+00 - #1.0 + $v_T * (#(-5.4282241699999995e-04) + $v_T * (#1.6733570100000001e-05 + $v_T * (#(-2.1577081300000000e-08) + #8.6245436299999998e-12 * $v_T)))))]
    [Asn v_cv 7 (#2.4443746347165404e+02 * (#4.1650028499999996e+00 - #1.0 + $v_T * (#4.9083169400000000e-03 + $v_T * (#(-1.9013922500000000e-06) + $v_T * (#3.7118598599999998e-10 + #(-2.8790830500000002e-14) * $v_T)))))];
  (*896*) If ($v_T) (#1000.0)
    [Asn v_cv 8 (#6.9223729081675140e+02 * (#2.5542395500000001e+00 - #1.0 + $v_T * (#(-3.2153772399999997e-04) + $v_T * (#7.3379224500000000e-07 + $v_T * (#(-7.3223488899999999e-10) + #2.6652144600000001e-13 * $v_T)))))]
    [Asn v_cv 8 (#6.9223729081675140e+02 * (#2.4926688800000001e+00 - #1.0 + $v_T * (#4.7988928400000000e-05 + $v_T * (#(-7.2433502000000005e-08) + $v_T * (#3.7429102900000003e-11 + #(-4.8727789299999997e-15) * $v_T)))))];
  (*902*) If ($v_T) (#1000.0)
    [Asn v_cv 9 (#6.3864355316177830e+02 * (#3.4898166499999999e+00 - #1.0 + $v_T * (#3.2383554100000003e-04 + $v_T * (#(-1.6889906500000000e-06) + $v_T * (#3.1621732699999999e-09 + #(-1.4060906700000001e-12) * $v_T)))))]
    [Asn v_cv 9 (#6.3864355316177830e+02 * (#2.8784647300000001e+00 - #1.0 + $v_T * (#9.7091368100000000e-04 + $v_T * (#1.4444565499999999e-07 + $v_T * (#(-1.3068784900000001e-10) + #1.7607938299999999e-14 * $v_T)))))];
  (*908*) If ($v_T) (#1000.0)
    [Asn v_cv 10 (#5.9275206603321635e+02 * (#3.7626786700000001e+00 - #1.0 + $v_T * (#9.6887214300000004e-04 + $v_T * (#2.7948984100000001e-06 + $v_T * (#(-3.8509115300000003e-09) + #1.6874171900000000e-12 * $v_T)))))]
    [Asn v_cv 10 (#5.9275206603321635e+02 * (#2.8741011300000001e+00 - #1.0 + $v_T * (#3.6563929199999999e-03 + $v_T * (#(-1.4089459700000001e-06) + $v_T * (#2.6017954899999999e-10 + #(-1.8772756700000001e-14) * $v_T)))))];
  (*914*) If ($v_T) (#1000.0)
    [Asn v_cv 11 (#5.9275206603321635e+02 * (#4.1986041099999998e+00 - #1.0 + $v_T * (#(-2.3666141900000001e-03) + $v_T * (#8.2329621999999999e-06 + $v_T * (#(-6.6881598100000004e-09) + #1.9431473700000001e-12 * $v_T)))))]
    [Asn v_cv 11 (#5.9275206603321635e+02 * (#2.2920384199999999e+00 - #1.0 + $v_T * (#4.6558863700000000e-03 + $v_T * (#(-2.0119194699999999e-06) + $v_T * (#4.1790600000000002e-10 + #(-3.3971636499999998e-14) * $v_T)))))];
  (*920*) If ($v_T) (#1000.0)
    [Asn v_cv 12 (#5.5301374409537334e+02 * (#3.6735904000000001e+00 - #1.0 + $v_T * (#2.0109517500000000e-03 + $v_T * (#5.7302185600000002e-06 + $v_T * (#(-6.8711742500000001e-09) + #2.5438573400000000e-12 * $v_T)))))]
    [Asn v_cv 12 (#5.5301374409537334e+02 * (#2.2857177200000001e+00 - #1.0 + $v_T * (#7.2399003699999999e-03 + $v_T * (#(-2.9871434799999999e-06) + $v_T * (#5.9568464400000002e-10 + #(-4.6715439400000003e-14) * $v_T)))))];
  (*926*) If ($v_T) (#1000.0)
    [Asn v_cv 13 (#5.1826880786099150e+02 * (#5.1498761300000000e+00 - #1.0 + $v_T * (#(-1.3670978800000001e-02) + $v_T * (#4.9180059899999999e-05 + $v_T * (#(-4.8474302600000002e-08) + #1.6669395599999999e-11 * $v_T)))))]
    [Asn v_cv 13 (#5.1826880786099150e+02 * (#7.4851495000000004e-02 - #1.0 + $v_T * (#1.3390946700000000e-02 + $v_T * (#(-5.7328580900000000e-06) + $v_T * (#1.2229253500000000e-09 + #(-1.0181523000000000e-13) * $v_T)))))];
  (*932*) If ($v_T) (#1000.0)
    [Asn v_cv 14 (#2.9683482206608977e+02 * (#3.5795334699999999e+00 - #1.0 + $v_T * (#(-6.1035368000000000e-04) + $v_T * (#1.0168143300000000e-06 + $v_T * (#9.0700588399999998e-10 + #(-9.0442449900000000e-13) * $v_T)))))]
    [Asn v_cv 14 (#2.9683482206608977e+02 * (#2.7151856099999998e+00 - #1.0 + $v_T * (#2.0625274300000002e-03 + $v_T * (#(-9.9882577100000007e-07) + $v_T * (#2.3005300800000000e-10 + #(-2.0364771600000000e-14) * $v_T)))))];
  (*938*) If ($v_T) (#1000.0)
    [Asn v_cv 15 (#1.8892296942953618e+02 * (#2.3567735200000000e+00 - #1.0 + $v_T * (#8.9845967700000005e-03 + $v_T * (#(-7.1235626899999998e-06) + $v_T * (#2.4591902199999998e-09 + #(-1.4369954799999999e-13) * $v_T)))))]
    [Asn v_cv 15 (#1.8892296942953618e+02 * (#3.8574602900000001e+00 - #1.0 + $v_T * (#4.4143702599999998e-03 + $v_T * (#(-2.2148140400000001e-06) + $v_T * (#5.2349018800000005e-10 + #(-4.7208416400000003e-14) * $v_T)))))];
  (*944*) If ($v_T) (#1000.0)
    [Asn v_cv 16 (#2.8652438768034290e+02 * (#4.2211858400000004e+00 - #1.0 + $v_T * (#(-3.2439253200000000e-03) + $v_T * (#1.3779944600000000e-05 + $v_T * (#(-1.3314409300000001e-08) + #4.3376886499999999e-12 * $v_T)))))]
    [Asn v_cv 16 (#2.8652438768034290e+02 * (#2.7721743800000000e+00 - #1.0 + $v_T * (#4.9569552599999997e-03 + $v_T * (#(-2.4844561300000000e-06) + $v_T * (#5.8916177800000004e-10 + #(-5.3350871099999999e-14) * $v_T)))))];
  (*950*) If ($v_T) (#1000.0)
    [Asn v_cv 17 (#2.7690616686449340e+02 * (#4.7937231499999999e+00 - #1.0 + $v_T * (#(-9.9083336899999999e-03) + $v_T * (#3.7322000799999999e-05 + $v_T * (#(-3.7928526099999998e-08) + #1.3177265200000000e-11 * $v_T)))))]
    [Asn v_cv 17 (#2.7690616686449340e+02 * (#1.7606900800000000e+00 - #1.0 + $v_T * (#9.2000008200000000e-03 + $v_T * (#(-4.4225881299999997e-06) + $v_T * (#1.0064121200000000e-09 + #(-8.8385564000000006e-14) * $v_T)))))];
  (*956*) If ($v_T) (#1000.0)
    [Asn v_cv 18 (#2.6791271377208773e+02 * (#3.8638891800000001e+00 - #1.0 + $v_T * (#5.5967230400000003e-03 + $v_T * (#5.9327179099999999e-06 + $v_T * (#(-1.0453201200000001e-08) + #4.3696727800000001e-12 * $v_T)))))]
    [Asn v_cv 18 (#2.6791271377208773e+02 * (#3.6926656900000001e+00 - #1.0 + $v_T * (#8.6457679700000008e-03 + $v_T * (#(-3.7510112000000001e-06) + $v_T * (#7.8723463599999999e-10 + #(-6.4855420100000002e-14) * $v_T)))))];
  (*962*) If ($v_T) (#1000.0)
    [Asn v_cv 19 (#2.6791271377208773e+02 * (#2.1062040000000000e+00 - #1.0 + $v_T * (#7.2165950000000001e-03 + $v_T * (#5.3384719999999999e-06 + $v_T * (#(-7.3776359999999997e-09) + #2.0756099999999999e-12 * $v_T)))))]
    [Asn v_cv 19 (#2.6791271377208773e+02 * (#3.7707989999999998e+00 - #1.0 + $v_T * (#7.8714969999999999e-03 + $v_T * (#(-2.6563840000000001e-06) + $v_T * (#3.9444309999999999e-10 + #(-2.1126160000000001e-14) * $v_T)))))];
  (*968*) If ($v_T) (#1000.0)
    [Asn v_cv 20 (#2.5948506904653124e+02 * (#5.7153958200000003e+00 - #1.0 + $v_T * (#(-1.5230912900000001e-02) + $v_T * (#6.5244115500000000e-05 + $v_T * (#(-7.1080688900000001e-08) + #2.6135269799999999e-11 * $v_T)))))]
    [Asn v_cv 20 (#2.5948506904653124e+02 * (#1.7897079100000000e+00 - #1.0 + $v_T * (#1.4093829200000000e-02 + $v_T * (#(-6.3650083500000001e-06) + $v_T * (#1.3817108500000000e-09 + #(-1.1706021999999999e-13) * $v_T)))))];
  (*974*) If ($v_T) (#1000.0)
    [Asn v_cv 21 (#3.3218066443627117e+02 * (#2.8896573299999999e+00 - #1.0 + $v_T * (#1.3409961099999999e-02 + $v_T * (#(-2.8476950100000000e-05) + $v_T * (#2.9479104500000001e-08 + #(-1.0933151100000000e-11) * $v_T)))))]
    [Asn v_cv 21 (#3.3218066443627117e+02 * (#3.1678065200000001e+00 - #1.0 + $v_T * (#4.7522190200000002e-03 + $v_T * (#(-1.8378707700000001e-06) + $v_T * (#3.0419025199999998e-10 + #(-1.7723276999999999e-14) * $v_T)))))];
  (*980*) If ($v_T) (#1000.0)
    [Asn v_cv 22 (#3.1932177658088915e+02 * (#8.0868109399999999e-01 - #1.0 + $v_T * (#2.3361562900000001e-02 + $v_T * (#(-3.5517181499999999e-05) + $v_T * (#2.8015243700000000e-08 + #(-8.5007297399999996e-12) * $v_T)))))]
    [Asn v_cv 22 (#3.1932177658088915e+02 * (#4.1475696400000004e+00 - #1.0 + $v_T * (#5.9616666400000001e-03 + $v_T * (#(-2.3729485200000000e-06) + $v_T * (#4.6741217100000004e-10 + #(-3.6123521300000002e-14) * $v_T)))))];
  (*986*) If ($v_T) (#1000.0)
    [Asn v_cv 23 (#3.0742133534867867e+02 * (#3.2124664500000000e+00 - #1.0 + $v_T * (#1.5147916200000000e-03 + $v_T * (#2.5920941200000000e-05 + $v_T * (#(-3.5765784700000000e-08) + #1.4715087300000000e-11 * $v_T)))))]
    [Asn v_cv 23 (#3.0742133534867867e+02 * (#3.0167240000000000e+00 - #1.0 + $v_T * (#1.0330229200000001e-02 + $v_T * (#(-4.6808234899999996e-06) + $v_T * (#1.0176328799999999e-09 + #(-8.6260704099999999e-14) * $v_T)))))];
  (*992*) If ($v_T) (#1000.0)
    [Asn v_cv 24 (#2.9637603301660818e+02 * (#3.9592014799999999e+00 - #1.0 + $v_T * (#(-7.5705224700000004e-03) + $v_T * (#5.7099029199999999e-05 + $v_T * (#(-6.9158875299999999e-08) + #2.6988437300000001e-11 * $v_T)))))]
    [Asn v_cv 24 (#2.9637603301660818e+02 * (#2.0361111599999999e+00 - #1.0 + $v_T * (#1.4645415100000000e-02 + $v_T * (#(-6.7107791500000002e-06) + $v_T * (#1.4722292300000001e-09 + #(-1.2570606100000000e-13) * $v_T)))))];
  (*998*) If ($v_T) (#1000.0)
    [Asn v_cv 25 (#2.8609689384998131e+02 * (#4.3064656799999996e+00 - #1.0 + $v_T * (#(-4.1865889200000004e-03) + $v_T * (#4.9714280699999999e-05 + $v_T * (#(-5.9912660599999996e-08) + #2.3050900400000000e-11 * $v_T)))))]
    [Asn v_cv 25 (#2.8609689384998131e+02 * (#1.9546564200000001e+00 - #1.0 + $v_T * (#1.7397272200000001e-02 + $v_T * (#(-7.9820666799999996e-06) + $v_T * (#1.7521768900000000e-09 + #(-1.4964157600000000e-13) * $v_T)))))];
  (*1004*) If ($v_T) (#1000.0)
    [Asn v_cv 26 (#2.7650687204768667e+02 * (#4.2914249199999999e+00 - #1.0 + $v_T * (#(-5.5015426999999997e-03) + $v_T * (#5.9943828800000003e-05 + $v_T * (#(-7.0846628500000001e-08) + #2.6868577099999999e-11 * $v_T)))))]
    [Asn v_cv 26 (#2.7650687204768667e+02 * (#1.0718814999999999e+00 - #1.0 + $v_T * (#2.1685267700000000e-02 + $v_T * (#(-1.0025606700000000e-05) + $v_T * (#2.2141200100000000e-09 + #(-1.9000289000000000e-13) * $v_T)))))];
  (*1010*) If ($v_T) (#1000.0)
    [Asn v_cv 27 (#2.0264674255057480e+02 * (#2.2517214000000001e+00 - #1.0 + $v_T * (#1.7655021000000000e-02 + $v_T * (#(-2.3729100999999999e-05) + $v_T * (#1.7275759000000001e-08 + #(-5.0664811000000003e-12) * $v_T)))))]
    [Asn v_cv 27 (#2.0264674255057480e+02 * (#5.6282057999999999e+00 - #1.0 + $v_T * (#4.0853401000000003e-03 + $v_T * (#(-1.5934547000000001e-06) + $v_T * (#2.8626051999999999e-10 + #(-1.9407831999999999e-14) * $v_T)))))];
  (*1016*) If ($v_T) (#1000.0)
    [Asn v_cv 28 (#1.9778782309416789e+02 * (#2.1358362999999998e+00 - #1.0 + $v_T * (#1.8118872099999999e-02 + $v_T * (#(-1.7394747400000000e-05) + $v_T * (#9.3439756800000000e-09 + #(-2.0145761499999999e-12) * $v_T)))))]
    [Asn v_cv 28 (#1.9778782309416789e+02 * (#4.5112973199999997e+00 - #1.0 + $v_T * (#9.0035974499999994e-03 + $v_T * (#(-4.1693963499999999e-06) + $v_T * (#9.2334588199999996e-10 + #(-7.9483820099999996e-14) * $v_T)))))];
  (*1022*) If ($v_T) (#1000.0)
    [Asn v_cv 29 (#1.9778782309416789e+02 * (#1.2423732999999999e+00 - #1.0 + $v_T * (#3.1072201000000001e-02 + $v_T * (#(-5.0866864000000001e-05) + $v_T * (#4.3137131000000003e-08 + #(-1.4014593999999999e-11) * $v_T)))))]
    [Asn v_cv 29 (#1.9778782309416789e+02 * (#5.9238290999999998e+00 - #1.0 + $v_T * (#6.7923599999999999e-03 + $v_T * (#(-2.5658564000000001e-06) + $v_T * (#4.4987841000000000e-10 + #(-2.9940100999999997e-14) * $v_T)))))];
  (*1028*) If ($v_T) (#1000.0)
    [Asn v_cv 30 (#5.9360437189524475e+02 * (#2.5000000000000000e+00 - #1.0 + $v_T * (#0.0000000000000000e+00 + $v_T * (#0.0000000000000000e+00 + $v_T * (#0.0000000000000000e+00 + #0.0000000000000000e+00 * $v_T)))))]
    [Asn v_cv 30 (#5.9360437189524475e+02 * (#2.4159429000000001e+00 - #1.0 + $v_T * (#1.7489065000000001e-04 + $v_T * (#(-1.1902368999999999e-07) + $v_T * (#3.0226244999999999e-11 + #(-2.0360982000000000e-15) * $v_T)))))];
  (*1034*) If ($v_T) (#1000.0)
    [Asn v_cv 31 (#5.5375553125341332e+02 * (#3.4929085000000000e+00 - #1.0 + $v_T * (#3.1179198000000000e-04 + $v_T * (#(-1.4890484000000001e-06) + $v_T * (#2.4816441999999998e-09 + #(-1.0356967000000000e-12) * $v_T)))))]
    [Asn v_cv 31 (#5.5375553125341332e+02 * (#2.7836927999999999e+00 - #1.0 + $v_T * (#1.3298430000000000e-03 + $v_T * (#(-4.2478046999999998e-07) + $v_T * (#7.8348501000000000e-11 + #(-5.5044470000000003e-15) * $v_T)))))];
  (*1040*) If ($v_T) (#1000.0)
    [Asn v_cv 32 (#5.1892025773562625e+02 * (#4.2040028999999999e+00 - #1.0 + $v_T * (#(-2.1061385000000002e-03) + $v_T * (#7.1068348000000003e-06 + $v_T * (#(-5.6115197000000000e-09) + #1.6440717000000001e-12 * $v_T)))))]
    [Asn v_cv 32 (#5.1892025773562625e+02 * (#2.8347421000000002e+00 - #1.0 + $v_T * (#3.2073081999999999e-03 + $v_T * (#(-9.3390804000000001e-07) + $v_T * (#1.3702952999999999e-10 + #(-7.9206144000000007e-15) * $v_T)))))];
  (*1046*) If ($v_T) (#1000.0)
    [Asn v_cv 33 (#4.8820837952480719e+02 * (#4.2860274000000000e+00 - #1.0 + $v_T * (#(-4.6605229999999997e-03) + $v_T * (#2.1718513000000001e-05 + $v_T * (#(-2.2808887000000000e-08) + #8.2638045999999998e-12 * $v_T)))))]
    [Asn v_cv 33 (#4.8820837952480719e+02 * (#2.6344520999999999e+00 - #1.0 + $v_T * (#5.6662559999999997e-03 + $v_T * (#(-1.7278676000000000e-06) + $v_T * (#2.3867161000000000e-10 + #(-1.2578785999999999e-14) * $v_T)))))];
  (*1052*) If ($v_T) (#1000.0)
    [Asn v_cv 34 (#2.8649397927461854e+02 * (#4.3446927000000004e+00 - #1.0 + $v_T * (#(-4.8497072000000000e-03) + $v_T * (#2.0059459000000001e-05 + $v_T * (#(-2.1726464000000001e-08) + #7.9469539000000000e-12 * $v_T)))))]
    [Asn v_cv 34 (#2.8649397927461854e+02 * (#3.7667543999999999e+00 - #1.0 + $v_T * (#2.8915082000000002e-03 + $v_T * (#(-1.0416619999999999e-06) + $v_T * (#1.6842593999999999e-10 + #(-1.0091896000000000e-14) * $v_T)))))];
  (*1058*) If ($v_T) (#1000.0)
    [Asn v_cv 35 (#2.7709202516551613e+02 * (#4.2184762999999998e+00 - #1.0 + $v_T * (#(-4.6389760000000004e-03) + $v_T * (#1.1041022000000000e-05 + $v_T * (#(-9.3361354000000002e-09) + #2.8035769999999999e-12 * $v_T)))))]
    [Asn v_cv 35 (#2.7709202516551613e+02 * (#3.2606055999999999e+00 - #1.0 + $v_T * (#1.1911043000000000e-03 + $v_T * (#(-4.2917048000000002e-07) + $v_T * (#6.9457669000000003e-11 + #(-4.0336098999999997e-15) * $v_T)))))];
  (*1064*) If ($v_T) (#1000.0)
    [Asn v_cv 36 (#1.8072741022059520e+02 * (#3.9440312000000000e+00 - #1.0 + $v_T * (#(-1.5854290000000000e-03) + $v_T * (#1.6657812000000001e-05 + $v_T * (#(-2.0475426000000000e-08) + #7.8350563999999999e-12 * $v_T)))))]
    [Asn v_cv 36 (#1.8072741022059520e+02 * (#4.8847541999999997e+00 - #1.0 + $v_T * (#2.1723955999999999e-03 + $v_T * (#(-8.2806905999999995e-07) + $v_T * (#1.5747510000000000e-10 + #(-1.0510895000000001e-14) * $v_T)))))];
  (*1070*) If ($v_T) (#1000.0)
    [Asn v_cv 37 (#1.8890974869174661e+02 * (#2.2571501999999999e+00 - #1.0 + $v_T * (#1.1304728000000000e-02 + $v_T * (#(-1.3671318999999999e-05) + $v_T * (#9.6819806000000007e-09 + #(-2.9307182000000000e-12) * $v_T)))))]
    [Asn v_cv 37 (#1.8890974869174661e+02 * (#4.8230728999999997e+00 - #1.0 + $v_T * (#2.6270250999999999e-03 + $v_T * (#(-9.5850873999999995e-07) + $v_T * (#1.6000711999999999e-10 + #(-9.7752302999999992e-15) * $v_T)))))];
  (*1076*) If ($v_T) (#1000.0)
    [Asn v_cv 38 (#2.6808669159297972e+02 * (#4.5334915999999996e+00 - #1.0 + $v_T * (#(-5.6696170999999997e-03) + $v_T * (#1.8473207000000000e-05 + $v_T * (#(-1.7137094000000000e-08) + #5.5454573000000001e-12 * $v_T)))))]
    [Asn v_cv 38 (#2.6808669159297972e+02 * (#2.9792508999999998e+00 - #1.0 + $v_T * (#3.4944059000000002e-03 + $v_T * (#(-7.8549778000000003e-07) + $v_T * (#5.7479594000000003e-11 + #(-1.9335916000000000e-16) * $v_T)))))];
  (*1082*) If ($v_T) (#1000.0)
    [Asn v_cv 39 (#3.1956895948687321e+02 * (#3.6129351000000001e+00 - #1.0 + $v_T * (#(-9.5551326999999996e-04) + $v_T * (#2.1442977000000001e-06 + $v_T * (#(-3.1516322999999999e-10) + #(-4.6430355999999997e-13) * $v_T)))))]
    [Asn v_cv 39 (#3.1956895948687321e+02 * (#3.7459804999999999e+00 - #1.0 + $v_T * (#4.3450774999999999e-05 + $v_T * (#2.9705983999999999e-07 + $v_T * (#(-6.8651805999999999e-11) + #4.4134173000000003e-15 * $v_T)))))];
  (*1088*) If ($v_T) (#1000.0)
    [Asn v_cv 40 (#3.0765043099748090e+02 * (#2.2589885999999999e+00 - #1.0 + $v_T * (#1.0051170000000000e-02 + $v_T * (#(-1.3351763000000000e-05) + $v_T * (#1.0092349000000001e-08 + #(-3.0089027999999998e-12) * $v_T)))))]
    [Asn v_cv 40 (#3.0765043099748090e+02 * (#3.8022391999999998e+00 - #1.0 + $v_T * (#3.1464228000000001e-03 + $v_T * (#(-1.0632185000000000e-06) + $v_T * (#1.6619757000000001e-10 + #(-9.7997569999999995e-15) * $v_T)))))];
  (*1094*) If ($v_T) (#1000.0)
    [Asn v_cv 41 (#2.9658895640306179e+02 * (#2.8516610000000000e+00 - #1.0 + $v_T * (#5.6952330999999997e-03 + $v_T * (#1.0711400000000000e-06 + $v_T * (#(-1.6226120000000001e-09) + #(-2.3511080999999999e-13) * $v_T)))))]
    [Asn v_cv 41 (#2.9658895640306179e+02 * (#5.2097030000000002e+00 - #1.0 + $v_T * (#2.9692910999999998e-03 + $v_T * (#(-2.8555890999999999e-07) + $v_T * (#(-1.6355500000000001e-10) + #3.0432588999999997e-14 * $v_T)))))];
  (*1100*) If ($v_T) (#1000.0)
    [Asn v_cv 42 (#2.0263153135983694e+02 * (#2.5243194000000000e+00 - #1.0 + $v_T * (#1.5960618999999999e-02 + $v_T * (#(-1.8816353999999999e-05) + $v_T * (#1.2125539999999999e-08 + #(-3.2357378000000000e-12) * $v_T)))))]
    [Asn v_cv 42 (#2.0263153135983694e+02 * (#5.8946361999999999e+00 - #1.0 + $v_T * (#3.9895959000000002e-03 + $v_T * (#(-1.5982380000000000e-06) + $v_T * (#2.9249395000000001e-10 + #(-2.0094686000000001e-14) * $v_T)))))];
  (*1106*) If ($v_T) (#1382.0)
    [Asn v_cv 43 (#1.9324687135968139e+02 * (#2.6472798900000001e+00 - #1.0 + $v_T * (#1.2750534200000000e-02 + $v_T * (#(-1.0479423599999999e-05) + $v_T * (#4.4143283600000001e-09 + #(-7.5752146600000001e-13) * $v_T)))))]
    [Asn v_cv 43 (#1.9324687135968139e+02 * (#6.5986045600000001e+00 - #1.0 + $v_T * (#3.0277862600000000e-03 + $v_T * (#(-1.0770434599999999e-06) + $v_T * (#1.7166652800000000e-10 + #(-1.0143939100000001e-14) * $v_T)))))];
  (*1112*) If ($v_T) (#1368.0)
    [Asn v_cv 44 (#1.9324687135968139e+02 * (#3.7860495200000002e+00 - #1.0 + $v_T * (#6.8866792199999997e-03 + $v_T * (#(-3.2148786399999999e-06) + $v_T * (#5.1719576699999997e-10 + #1.1936078800000000e-14 * $v_T)))))]
    [Asn v_cv 44 (#1.9324687135968139e+02 * (#5.8978488499999999e+00 - #1.0 + $v_T * (#3.1678939299999999e-03 + $v_T * (#(-1.1180106400000000e-06) + $v_T * (#1.7724314400000001e-10 + #(-1.0433917699999999e-14) * $v_T)))))];
  (*1118*) If ($v_T) (#1478.0)
    [Asn v_cv 45 (#1.9324687135968139e+02 * (#3.6309631699999998e+00 - #1.0 + $v_T * (#7.3028235700000003e-03 + $v_T * (#(-2.2805000299999999e-06) + $v_T * (#(-6.6127129800000005e-10) + #3.6223575199999999e-13 * $v_T)))))]
    [Asn v_cv 45 (#1.9324687135968139e+02 * (#6.2239513400000002e+00 - #1.0 + $v_T * (#3.1786400400000002e-03 + $v_T * (#(-1.0937875500000000e-06) + $v_T * (#1.7073516300000000e-10 + #(-9.9502195499999995e-15) * $v_T)))))];
  (*1124*) If ($v_T) (#1000.0)
    [Asn v_cv 46 (#1.9788262837499175e+02 * (#2.8269308000000000e+00 - #1.0 + $v_T * (#8.8051688000000006e-03 + $v_T * (#(-8.3866134000000006e-06) + $v_T * (#4.8016963999999998e-09 + #(-1.3313595000000000e-12) * $v_T)))))]
    [Asn v_cv 46 (#1.9788262837499175e+02 * (#5.1521844999999997e+00 - #1.0 + $v_T * (#2.3051761000000000e-03 + $v_T * (#(-8.8033152999999999e-07) + $v_T * (#1.4789097999999999e-10 + #(-9.0977996000000005e-15) * $v_T)))))];
  (*1130*) If ($v_T) (#1000.0)
    [Asn v_cv 47 (#2.0813212426154001e+02 * (#2.5000000000000000e+00 - #1.0 + $v_T * (#0.0000000000000000e+00 + $v_T * (#0.0000000000000000e+00 + $v_T * (#0.0000000000000000e+00 + #0.0000000000000000e+00 * $v_T)))))]
    [Asn v_cv 47 (#2.0813212426154001e+02 * (#2.5000000000000000e+00 - #1.0 + $v_T * (#0.0000000000000000e+00 + $v_T * (#0.0000000000000000e+00 + $v_T * (#0.0000000000000000e+00 + #0.0000000000000000e+00 * $v_T)))))];
  (*1136*) If ($v_T) (#1000.0)
    [Asn v_cv 48 (#1.9296208183235558e+02 * (#1.0515517999999999e+00 - #1.0 + $v_T * (#2.5991980000000001e-02 + $v_T * (#2.3800539999999999e-06 + $v_T * (#(-1.9609569000000000e-08) + #9.3732469999999993e-12 * $v_T)))))]
    [Asn v_cv 48 (#1.9296208183235558e+02 * (#7.7026987000000000e+00 - #1.0 + $v_T * (#1.6044203000000000e-02 + $v_T * (#(-5.2833220000000001e-06) + $v_T * (#7.6298590000000000e-10 + #(-3.9392284000000002e-14) * $v_T)))))];
  (*1142*) If ($v_T) (#1000.0)
    [Asn v_cv 49 (#1.8855143444426002e+02 * (#9.3355381000000004e-01 - #1.0 + $v_T * (#2.6424579000000000e-02 + $v_T * (#6.1059727000000001e-06 + $v_T * (#(-2.1977498999999999e-08) + #9.5149252999999994e-12 * $v_T)))))]
    [Asn v_cv 49 (#1.8855143444426002e+02 * (#7.5341367999999997e+00 - #1.0 + $v_T * (#1.8872238999999999e-02 + $v_T * (#(-6.2718490999999996e-06) + $v_T * (#9.1475649000000003e-10 + #(-4.7838069000000002e-14) * $v_T)))))];
  (*1148*) If ($v_T) (#1000.0)
    [Asn v_cv 50 (#1.9315645500243699e+02 * (#3.4090620000000000e+00 - #1.0 + $v_T * (#1.0738574000000001e-02 + $v_T * (#1.8914920000000000e-06 + $v_T * (#(-7.1585830000000000e-09) + #2.8673849999999999e-12 * $v_T)))))]
    [Asn v_cv 50 (#1.9315645500243699e+02 * (#5.9756700000000000e+00 - #1.0 + $v_T * (#8.1305909999999995e-03 + $v_T * (#(-2.7436240000000001e-06) + $v_T * (#4.0703040000000001e-10 + #(-2.1760170000000001e-14) * $v_T)))))];
  (*1154*) If ($v_T) (#1000.0)
    [Asn v_cv 51 (#1.8873701909238750e+02 * (#4.7294594999999999e+00 - #1.0 + $v_T * (#(-3.1932858000000000e-03) + $v_T * (#4.7534921000000002e-05 + $v_T * (#(-5.7458610999999997e-08) + #2.1931112000000001e-11 * $v_T)))))]
    [Asn v_cv 51 (#1.8873701909238750e+02 * (#5.4041107999999998e+00 - #1.0 + $v_T * (#1.1723058999999999e-02 + $v_T * (#(-4.2263136999999998e-06) + $v_T * (#6.8372451000000002e-10 + #(-4.0984863000000001e-14) * $v_T)))))];
  (*1160*) If ($v_T) (#1000.0)
    [Asn v_cv 52 (#2.9680218594762238e+02 * (#3.2986770000000001e+00 - #1.0 + $v_T * (#1.4082404000000000e-03 + $v_T * (#(-3.9632219999999998e-06) + $v_T * (#5.6415150000000002e-09 + #(-2.4448539999999999e-12) * $v_T)))))]
    [Asn v_cv 52 (#2.9680218594762238e+02 * (#2.9266399999999999e+00 - #1.0 + $v_T * (#1.4879768000000001e-03 + $v_T * (#(-5.6847600000000001e-07) + $v_T * (#1.0097038000000000e-10 + #(-6.7533509999999998e-15) * $v_T)))))]
].
