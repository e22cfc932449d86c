(** Transcription of /repo/utilities/mechanisms/gri30/lib/src (C, constant pressure branch); the number
    before a statement is its line. *)
From Coq Require Import List QArith.
From Verif Require Import MechLang.
Import ListNotations.
Local Open Scope mech_scope.

(** [eval_conc], gri30/lib/src/chem_utils.c:12-105. *)
Definition gri30_eval_conc : list stmt := [
  (*15*) Do (Asn v_y_N 0 (#1.0 - (v_y.[0] + v_y.[1] + v_y.[2] + v_y.[3] + v_y.[4] + v_y.[5] + v_y.[6] + v_y.[7] + v_y.[8] + v_y.[9] + v_y.[10] + v_y.[11] + v_y.[12] + v_y.[13] + v_y.[14] + v_y.[15] + v_y.[16] + v_y.[17] + v_y.[18] + v_y.[19] + v_y.[20] + v_y.[21] + v_y.[22] + v_y.[23] + v_y.[24] + v_y.[25] + v_y.[26] + v_y.[27] + v_y.[28] + v_y.[29] + v_y.[30] + v_y.[31] + v_y.[32] + v_y.[33] + v_y.[34] + v_y.[35] + v_y.[36] + v_y.[37] + v_y.[38] + v_y.[39] + v_y.[40] + v_y.[41] + v_y.[42] + v_y.[43] + v_y.[44] + v_y.[45] + v_y.[46] + v_y.[47] + v_y.[48] + v_y.[49] + v_y.[50] + v_y.[51])));
  (*22*) Do (Asn v_mw_avg 0 (v_y.[0] * #4.9606127348850126e-01 + v_y.[1] * #9.9212254697700253e-01 + v_y.[2] * #6.2502343837893923e-02 + v_y.[3] * #3.1251171918946961e-02 + v_y.[4] * #5.8798142449083754e-02 + v_y.[5] * #5.5508435061791990e-02 + v_y.[6] * #3.0296842402491128e-02 + v_y.[7] * #2.9399071224541877e-02 + v_y.[8] * #8.3257014403463503e-02 + v_y.[9] * #7.6811168958455925e-02 + v_y.[10] * #7.1291691381119682e-02 + v_y.[11] * #7.1291691381119682e-02 + v_y.[12] * #6.6512269518358050e-02 + v_y.[13] * #6.2333413951215375e-02 + v_y.[14] * #3.5701025333447579e-02 + v_y.[15] * #2.2722211870992371e-02 + v_y.[16] * #3.4460965031080343e-02 + v_y.[17] * #3.3304158890145569e-02 + v_y.[18] * #3.2222495039346891e-02 + v_y.[19] * #3.2222495039346891e-02 + v_y.[20] * #3.1208882297572953e-02 + v_y.[21] * #3.9952153301206474e-02 + v_y.[22] * #3.8405584479227962e-02 + v_y.[23] * #3.6974290296984895e-02 + v_y.[24] * #3.5645845690559841e-02 + v_y.[25] * #3.4409549338132318e-02 + v_y.[26] * #3.3256134759179025e-02 + v_y.[27] * #2.4372802487195748e-02 + v_y.[28] * #2.3788408764791637e-02 + v_y.[29] * #2.3788408764791637e-02 + v_y.[30] * #7.1394200220750867e-02 + v_y.[31] * #6.6601486012355909e-02 + v_y.[32] * #6.2411765366712807e-02 + v_y.[33] * #5.8717975216317018e-02 + v_y.[34] * #3.4457307740282862e-02 + v_y.[35] * #3.3326512507106880e-02 + v_y.[36] * #2.1736512602612643e-02 + v_y.[37] * #2.2720621781623922e-02 + v_y.[38] * #3.2243419762894791e-02 + v_y.[39] * #3.8435313751309687e-02 + v_y.[40] * #3.7001844171913524e-02 + v_y.[41] * #3.5671454489288219e-02 + v_y.[42] * #2.4370973001348689e-02 + v_y.[43] * #2.3242257771513730e-02 + v_y.[44] * #2.3242257771513730e-02 + v_y.[45] * #2.3242257771513730e-02 + v_y.[46] * #2.3799811219897406e-02 + v_y.[47] * #2.5032542304996495e-02 + v_y.[48] * #2.3208005462236166e-02 + v_y.[49] * #2.2677526480547671e-02 + v_y.[50] * #2.3231383182615861e-02 + v_y.[51] * #2.2699847184628755e-02 + $v_y_N * #3.5697100110375433e-02));
  (*48*) Do (Asn v_mw_avg 0 (#1.0 / $v_mw_avg));
  (*50*) Do (Asn v_rho 0 ($v_pres * $v_mw_avg / (#8.31446210e+03 * $v_T)));
  (*51*) Do (Asn v_conc 0 ($v_rho * v_y.[0] * #4.9606127348850126e-01));
  (*52*) Do (Asn v_conc 1 ($v_rho * v_y.[1] * #9.9212254697700253e-01));
  (*53*) Do (Asn v_conc 2 ($v_rho * v_y.[2] * #6.2502343837893923e-02));
  (*54*) Do (Asn v_conc 3 ($v_rho * v_y.[3] * #3.1251171918946961e-02));
  (*55*) Do (Asn v_conc 4 ($v_rho * v_y.[4] * #5.8798142449083754e-02));
  (*56*) Do (Asn v_conc 5 ($v_rho * v_y.[5] * #5.5508435061791990e-02));
  (*57*) Do (Asn v_conc 6 ($v_rho * v_y.[6] * #3.0296842402491128e-02));
  (*58*) Do (Asn v_conc 7 ($v_rho * v_y.[7] * #2.9399071224541877e-02));
  (*59*) Do (Asn v_conc 8 ($v_rho * v_y.[8] * #8.3257014403463503e-02));
  (*60*) Do (Asn v_conc 9 ($v_rho * v_y.[9] * #7.6811168958455925e-02));
  (*61*) Do (Asn v_conc 10 ($v_rho * v_y.[10] * #7.1291691381119682e-02));
  (*62*) Do (Asn v_conc 11 ($v_rho * v_y.[11] * #7.1291691381119682e-02));
  (*63*) Do (Asn v_conc 12 ($v_rho * v_y.[12] * #6.6512269518358050e-02));
  (*64*) Do (Asn v_conc 13 ($v_rho * v_y.[13] * #6.2333413951215375e-02));
  (*65*) Do (Asn v_conc 14 ($v_rho * v_y.[14] * #3.5701025333447579e-02));
  (*66*) Do (Asn v_conc 15 ($v_rho * v_y.[15] * #2.2722211870992371e-02));
  (*67*) Do (Asn v_conc 16 ($v_rho * v_y.[16] * #3.4460965031080343e-02));
  (*68*) Do (Asn v_conc 17 ($v_rho * v_y.[17] * #3.3304158890145569e-02));
  (*69*) Do (Asn v_conc 18 ($v_rho * v_y.[18] * #3.2222495039346891e-02));
  (*70*) Do (Asn v_conc 19 ($v_rho * v_y.[19] * #3.2222495039346891e-02));
  (*71*) Do (Asn v_conc 20 ($v_rho * v_y.[20] * #3.1208882297572953e-02));
  (*72*) Do (Asn v_conc 21 ($v_rho * v_y.[21] * #3.9952153301206474e-02));
  (*73*) Do (Asn v_conc 22 ($v_rho * v_y.[22] * #3.8405584479227962e-02));
  (*74*) Do (Asn v_conc 23 ($v_rho * v_y.[23] * #3.6974290296984895e-02));
  (*75*) Do (Asn v_conc 24 ($v_rho * v_y.[24] * #3.5645845690559841e-02));
  (*76*) Do (Asn v_conc 25 ($v_rho * v_y.[25] * #3.4409549338132318e-02));
  (*77*) Do (Asn v_conc 26 ($v_rho * v_y.[26] * #3.3256134759179025e-02));
  (*78*) Do (Asn v_conc 27 ($v_rho * v_y.[27] * #2.4372802487195748e-02));
  (*79*) Do (Asn v_conc 28 ($v_rho * v_y.[28] * #2.3788408764791637e-02));
  (*80*) Do (Asn v_conc 29 ($v_rho * v_y.[29] * #2.3788408764791637e-02));
  (*81*) Do (Asn v_conc 30 ($v_rho * v_y.[30] * #7.1394200220750867e-02));
  (*82*) Do (Asn v_conc 31 ($v_rho * v_y.[31] * #6.6601486012355909e-02));
  (*83*) Do (Asn v_conc 32 ($v_rho * v_y.[32] * #6.2411765366712807e-02));
  (*84*) Do (Asn v_conc 33 ($v_rho * v_y.[33] * #5.8717975216317018e-02));
  (*85*) Do (Asn v_conc 34 ($v_rho * v_y.[34] * #3.4457307740282862e-02));
  (*86*) Do (Asn v_conc 35 ($v_rho * v_y.[35] * #3.3326512507106880e-02));
  (*87*) Do (Asn v_conc 36 ($v_rho * v_y.[36] * #2.1736512602612643e-02));
  (*88*) Do (Asn v_conc 37 ($v_rho * v_y.[37] * #2.2720621781623922e-02));
  (*89*) Do (Asn v_conc 38 ($v_rho * v_y.[38] * #3.2243419762894791e-02));
  (*90*) Do (Asn v_conc 39 ($v_rho * v_y.[39] * #3.8435313751309687e-02));
  (*91*) Do (Asn v_conc 40 ($v_rho * v_y.[40] * #3.7001844171913524e-02));
  (*92*) Do (Asn v_conc 41 ($v_rho * v_y.[41] * #3.5671454489288219e-02));
  (*93*) Do (Asn v_conc 42 ($v_rho * v_y.[42] * #2.4370973001348689e-02));
  (*94*) Do (Asn v_conc 43 ($v_rho * v_y.[43] * #2.3242257771513730e-02));
  (*95*) Do (Asn v_conc 44 ($v_rho * v_y.[44] * #2.3242257771513730e-02));
  (*96*) Do (Asn v_conc 45 ($v_rho * v_y.[45] * #2.3242257771513730e-02));
  (*97*) Do (Asn v_conc 46 ($v_rho * v_y.[46] * #2.3799811219897406e-02));
  (*98*) Do (Asn v_conc 47 ($v_rho * v_y.[47] * #2.5032542304996495e-02));
  (*99*) Do (Asn v_conc 48 ($v_rho * v_y.[48] * #2.3208005462236166e-02));
  (*100*) Do (Asn v_conc 49 ($v_rho * v_y.[49] * #2.2677526480547671e-02));
  (*101*) Do (Asn v_conc 50 ($v_rho * v_y.[50] * #2.3231383182615861e-02));
  (*102*) Do (Asn v_conc 51 ($v_rho * v_y.[51] * #2.2699847184628755e-02));
  (*103*) Do (Asn v_conc 52 ($v_rho * $v_y_N * #3.5697100110375433e-02))
].

(** [eval_h], gri30/lib/src/chem_utils.c:202-522. *)
Definition gri30_eval_h : list stmt := [
  (*204*) If ($v_T) (#1000.0)
    [Asn v_h 0 (#4.1244826576978785e+03 * (#(-9.1793517299999996e+02) + $v_T * (#2.3443311200000001e+00 + $v_T * (#3.9902603749999996e-03 + $v_T * (#(-6.4927169999999995e-06) + $v_T * (#5.0393023500000001e-09 + #(-1.4752235220000002e-12) * $v_T))))))]
    [Asn v_h 0 (#4.1244826576978785e+03 * (#(-9.5015892199999996e+02) + $v_T * (#3.3372791999999998e+00 + $v_T * (#(-2.4701236549999999e-05) + $v_T * (#1.6648559266666665e-07 + $v_T * (#(-4.4891598500000001e-11) + #4.0051075199999998e-15 * $v_T))))))];
  (*210*) If ($v_T) (#1000.0)
    [Asn v_h 1 (#8.2489653153957570e+03 * (#2.5473659899999999e+04 + $v_T * (#2.5000000000000000e+00 + $v_T * (#3.5266640949999999e-13 + $v_T * (#(-6.6530654666666665e-16) + $v_T * (#5.7520407999999997e-19 + #(-1.8554646640000001e-22) * $v_T))))))]
    [Asn v_h 1 (#8.2489653153957570e+03 * (#2.5473659899999999e+04 + $v_T * (#2.5000000099999999e+00 + $v_T * (#(-1.1542148649999999e-11) + $v_T * (#5.3853982666666673e-15 + $v_T * (#(-1.1837880875000001e-18) + #9.9639471400000006e-23 * $v_T))))))];
  (*216*) If ($v_T) (#1000.0)
    [Asn v_h 2 (#5.1967336900133762e+02 * (#2.9122259200000000e+04 + $v_T * (#3.1682671000000000e+00 + $v_T * (#(-1.6396594200000000e-03) + $v_T * (#2.2143546533333334e-06 + $v_T * (#(-1.5320165600000000e-09) + #4.2253194199999998e-13 * $v_T))))))]
    [Asn v_h 2 (#5.1967336900133762e+02 * (#2.9217579099999999e+04 + $v_T * (#2.5694207800000002e+00 + $v_T * (#(-4.2987056850000002e-05) + $v_T * (#1.3982819633333334e-08 + $v_T * (#(-2.5044449749999998e-12) + #2.4566738199999997e-16 * $v_T))))))];
  (*222*) If ($v_T) (#1000.0)
    [Asn v_h 3 (#2.5983668450066881e+02 * (#(-1.0639435599999999e+03) + $v_T * (#3.7824563599999999e+00 + $v_T * (#(-1.4983670799999999e-03) + $v_T * (#3.2824340033333332e-06 + $v_T * (#(-2.4203237725000002e-09) + #6.4874567400000000e-13 * $v_T))))))]
    [Asn v_h 3 (#2.5983668450066881e+02 * (#(-1.0884577200000001e+03) + $v_T * (#3.2825378399999998e+00 + $v_T * (#7.4154376999999996e-04 + $v_T * (#(-2.5265555633333331e-07) + $v_T * (#5.2367638749999998e-11 + #(-4.3343558799999996e-15) * $v_T))))))];
  (*228*) If ($v_T) (#1000.0)
    [Asn v_h 4 (#4.8887492694330808e+02 * (#3.6150805599999999e+03 + $v_T * (#3.9920154299999999e+00 + $v_T * (#(-1.2006587600000001e-03) + $v_T * (#1.5393128033333333e-06 + $v_T * (#(-9.7028333249999999e-10) + #2.7282293999999999e-13 * $v_T))))))]
    [Asn v_h 4 (#4.8887492694330808e+02 * (#3.8586570000000002e+03 + $v_T * (#3.0928876700000001e+00 + $v_T * (#2.7421485799999999e-04 + $v_T * (#4.2168409333333331e-08 + $v_T * (#(-2.1986538899999999e-11) + #2.3482475199999999e-15 * $v_T))))))];
  (*234*) If ($v_T) (#1000.0)
    [Asn v_h 5 (#4.6152277955158070e+02 * (#(-3.0293726699999999e+04) + $v_T * (#4.1986405600000003e+00 + $v_T * (#(-1.0182170500000001e-03) + $v_T * (#2.1734673700000000e-06 + $v_T * (#(-1.3719926550000001e-09) + #3.5439563400000000e-13 * $v_T))))))]
    [Asn v_h 5 (#4.6152277955158070e+02 * (#(-3.0004297100000000e+04) + $v_T * (#3.0339924900000002e+00 + $v_T * (#1.0884590200000001e-03 + $v_T * (#(-5.4690839333333327e-08) + $v_T * (#(-2.4260496750000000e-11) + #3.3640198399999998e-15 * $v_T))))))];
  (*240*) If ($v_T) (#1000.0)
    [Asn v_h 6 (#2.5190194790518544e+02 * (#2.9480804000000001e+02 + $v_T * (#4.3017980099999997e+00 + $v_T * (#(-2.3745602549999998e-03) + $v_T * (#7.0527630333333326e-06 + $v_T * (#(-6.0690973500000000e-09) + #1.8584502480000002e-12 * $v_T))))))]
    [Asn v_h 6 (#2.5190194790518544e+02 * (#1.1185671300000000e+02 + $v_T * (#4.0172109000000003e+00 + $v_T * (#1.1199100650000000e-03 + $v_T * (#(-2.1121938333333332e-07) + $v_T * (#2.8561592500000001e-11 + #(-2.1581707000000000e-15) * $v_T))))))];
  (*246*) If ($v_T) (#1000.0)
    [Asn v_h 7 (#2.4443746347165404e+02 * (#(-1.7702582100000000e+04) + $v_T * (#4.2761126899999997e+00 + $v_T * (#(-2.7141120849999997e-04) + $v_T * (#5.5778567000000005e-06 + $v_T * (#(-5.3942703249999999e-09) + #1.7249087260000000e-12 * $v_T))))))]
    [Asn v_h 7 (#2.4443746347165404e+02 * (#(-1.7861787700000001e+04) + $v_T * (#4.1650028499999996e+00 + $v_T * (#2.4541584700000000e-03 + $v_T * (#(-6.3379741666666662e-07) + $v_T * (#9.2796496499999996e-11 + #(-5.7581661000000002e-15) * $v_T))))))];
  (*252*) If ($v_T) (#1000.0)
    [Asn v_h 8 (#6.9223729081675140e+02 * (#8.5443883199999997e+04 + $v_T * (#2.5542395500000001e+00 + $v_T * (#(-1.6076886199999999e-04) + $v_T * (#2.4459741500000000e-07 + $v_T * (#(-1.8305872225000000e-10) + #5.3304289200000002e-14 * $v_T))))))]
    [Asn v_h 8 (#6.9223729081675140e+02 * (#8.5451295299999998e+04 + $v_T * (#2.4926688800000001e+00 + $v_T * (#2.3994464200000000e-05 + $v_T * (#(-2.4144500666666670e-08) + $v_T * (#9.3572757250000007e-12 + #(-9.7455578599999989e-16) * $v_T))))))];
  (*258*) If ($v_T) (#1000.0)
    [Asn v_h 9 (#6.3864355316177830e+02 * (#7.0797293399999995e+04 + $v_T * (#3.4898166499999999e+00 + $v_T * (#1.6191777050000001e-04 + $v_T * (#(-5.6299688333333337e-07) + $v_T * (#7.9054331749999998e-10 + #(-2.8121813400000003e-13) * $v_T))))))]
    [Asn v_h 9 (#6.3864355316177830e+02 * (#7.1012436400000006e+04 + $v_T * (#2.8784647300000001e+00 + $v_T * (#4.8545684050000000e-04 + $v_T * (#4.8148551666666660e-08 + $v_T * (#(-3.2671962250000002e-11) + #3.5215876599999997e-15 * $v_T))))))];
  (*264*) If ($v_T) (#1000.0)
    [Asn v_h 10 (#5.9275206603321635e+02 * (#4.6004040099999998e+04 + $v_T * (#3.7626786700000001e+00 + $v_T * (#4.8443607150000002e-04 + $v_T * (#9.3163280333333339e-07 + $v_T * (#(-9.6272788250000007e-10) + #3.3748343799999999e-13 * $v_T))))))]
    [Asn v_h 10 (#5.9275206603321635e+02 * (#4.6263603999999999e+04 + $v_T * (#2.8741011300000001e+00 + $v_T * (#1.8281964599999999e-03 + $v_T * (#(-4.6964865666666667e-07) + $v_T * (#6.5044887249999998e-11 + #(-3.7545513400000000e-15) * $v_T))))))];
  (*270*) If ($v_T) (#1000.0)
    [Asn v_h 11 (#5.9275206603321635e+02 * (#5.0496816299999999e+04 + $v_T * (#4.1986041099999998e+00 + $v_T * (#(-1.1833070950000000e-03) + $v_T * (#2.7443207333333332e-06 + $v_T * (#(-1.6720399525000001e-09) + #3.8862947400000001e-13 * $v_T))))))]
    [Asn v_h 11 (#5.9275206603321635e+02 * (#5.0925999700000000e+04 + $v_T * (#2.2920384199999999e+00 + $v_T * (#2.3279431850000000e-03 + $v_T * (#(-6.7063982333333332e-07) + $v_T * (#1.0447650000000001e-10 + #(-6.7943272999999998e-15) * $v_T))))))];
  (*276*) If ($v_T) (#1000.0)
    [Asn v_h 12 (#5.5301374409537334e+02 * (#1.6444998800000001e+04 + $v_T * (#3.6735904000000001e+00 + $v_T * (#1.0054758750000000e-03 + $v_T * (#1.9100728533333335e-06 + $v_T * (#(-1.7177935625000000e-09) + #5.0877146800000003e-13 * $v_T))))))]
    [Asn v_h 12 (#5.5301374409537334e+02 * (#1.6775584299999999e+04 + $v_T * (#2.2857177200000001e+00 + $v_T * (#3.6199501849999999e-03 + $v_T * (#(-9.9571449333333331e-07) + $v_T * (#1.4892116100000001e-10 + #(-9.3430878800000005e-15) * $v_T))))))];
  (*282*) If ($v_T) (#1000.0)
    [Asn v_h 13 (#5.1826880786099150e+02 * (#(-1.0246647600000000e+04) + $v_T * (#5.1498761300000000e+00 + $v_T * (#(-6.8354894000000003e-03) + $v_T * (#1.6393353300000001e-05 + $v_T * (#(-1.2118575650000000e-08) + #3.3338791200000000e-12 * $v_T))))))]
    [Asn v_h 13 (#5.1826880786099150e+02 * (#(-9.4683445900000006e+03) + $v_T * (#7.4851495000000004e-02 + $v_T * (#6.6954733499999999e-03 + $v_T * (#(-1.9109526966666665e-06) + $v_T * (#3.0573133750000000e-10 + #(-2.0363046000000002e-14) * $v_T))))))];
  (*288*) If ($v_T) (#1000.0)
    [Asn v_h 14 (#2.9683482206608977e+02 * (#(-1.4344085999999999e+04) + $v_T * (#3.5795334699999999e+00 + $v_T * (#(-3.0517684000000000e-04) + $v_T * (#3.3893811000000002e-07 + $v_T * (#2.2675147100000000e-10 + #(-1.8088489979999999e-13) * $v_T))))))]
    [Asn v_h 14 (#2.9683482206608977e+02 * (#(-1.4151872400000000e+04) + $v_T * (#2.7151856099999998e+00 + $v_T * (#1.0312637150000001e-03 + $v_T * (#(-3.3294192366666671e-07) + $v_T * (#5.7513252000000000e-11 + #(-4.0729543200000001e-15) * $v_T))))))];
  (*294*) If ($v_T) (#1000.0)
    [Asn v_h 15 (#1.8892296942953618e+02 * (#(-4.8371969700000001e+04) + $v_T * (#2.3567735200000000e+00 + $v_T * (#4.4922983850000002e-03 + $v_T * (#(-2.3745208966666665e-06) + $v_T * (#6.1479755499999995e-10 + #(-2.8739909599999997e-14) * $v_T))))))]
    [Asn v_h 15 (#1.8892296942953618e+02 * (#(-4.8759165999999997e+04) + $v_T * (#3.8574602900000001e+00 + $v_T * (#2.2071851299999999e-03 + $v_T * (#(-7.3827134666666672e-07) + $v_T * (#1.3087254700000001e-10 + #(-9.4416832800000002e-15) * $v_T))))))];
  (*300*) If ($v_T) (#1000.0)
    [Asn v_h 16 (#2.8652438768034290e+02 * (#3.8395649600000002e+03 + $v_T * (#4.2211858400000004e+00 + $v_T * (#(-1.6219626600000000e-03) + $v_T * (#4.5933148666666667e-06 + $v_T * (#(-3.3286023250000002e-09) + #8.6753773000000000e-13 * $v_T))))))]
    [Asn v_h 16 (#2.8652438768034290e+02 * (#4.0119181500000000e+03 + $v_T * (#2.7721743800000000e+00 + $v_T * (#2.4784776299999998e-03 + $v_T * (#(-8.2815204333333337e-07) + $v_T * (#1.4729044450000001e-10 + #(-1.0670174220000000e-14) * $v_T))))))];
  (*306*) If ($v_T) (#1000.0)
    [Asn v_h 17 (#2.7690616686449340e+02 * (#(-1.4308956700000001e+04) + $v_T * (#4.7937231499999999e+00 + $v_T * (#(-4.9541668450000000e-03) + $v_T * (#1.2440666933333332e-05 + $v_T * (#(-9.4821315249999995e-09) + #2.6354530400000001e-12 * $v_T))))))]
    [Asn v_h 17 (#2.7690616686449340e+02 * (#(-1.3995832300000000e+04) + $v_T * (#1.7606900800000000e+00 + $v_T * (#4.6000004100000000e-03 + $v_T * (#(-1.4741960433333332e-06) + $v_T * (#2.5160302999999999e-10 + #(-1.7677112800000002e-14) * $v_T))))))];
  (*312*) If ($v_T) (#1000.0)
    [Asn v_h 18 (#2.6791271377208773e+02 * (#(-3.1939136699999999e+03) + $v_T * (#3.8638891800000001e+00 + $v_T * (#2.7983615200000002e-03 + $v_T * (#1.9775726366666668e-06 + $v_T * (#(-2.6133003000000002e-09) + #8.7393455600000001e-13 * $v_T))))))]
    [Asn v_h 18 (#2.6791271377208773e+02 * (#(-3.2425062699999999e+03) + $v_T * (#3.6926656900000001e+00 + $v_T * (#4.3228839850000004e-03 + $v_T * (#(-1.2503370666666667e-06) + $v_T * (#1.9680865900000000e-10 + #(-1.2971084020000001e-14) * $v_T))))))];
  (*318*) If ($v_T) (#1000.0)
    [Asn v_h 19 (#2.6791271377208773e+02 * (#9.7860109999999997e+02 + $v_T * (#2.1062040000000000e+00 + $v_T * (#3.6082975000000001e-03 + $v_T * (#1.7794906666666667e-06 + $v_T * (#(-1.8444089999999999e-09) + #4.1512200000000000e-13 * $v_T))))))]
    [Asn v_h 19 (#2.6791271377208773e+02 * (#1.2783252000000000e+02 + $v_T * (#3.7707989999999998e+00 + $v_T * (#3.9357484999999999e-03 + $v_T * (#(-8.8546133333333336e-07) + $v_T * (#9.8610774999999998e-11 + #(-4.2252319999999999e-15) * $v_T))))))];
  (*324*) If ($v_T) (#1000.0)
    [Asn v_h 20 (#2.5948506904653124e+02 * (#(-2.5642765599999999e+04) + $v_T * (#5.7153958200000003e+00 + $v_T * (#(-7.6154564500000004e-03) + $v_T * (#2.1748038500000001e-05 + $v_T * (#(-1.7770172225000000e-08) + #5.2270539599999996e-12 * $v_T))))))]
    [Asn v_h 20 (#2.5948506904653124e+02 * (#(-2.5374874700000000e+04) + $v_T * (#1.7897079100000000e+00 + $v_T * (#7.0469145999999998e-03 + $v_T * (#(-2.1216694499999999e-06) + $v_T * (#3.4542771250000001e-10 + #(-2.3412043999999999e-14) * $v_T))))))];
  (*330*) If ($v_T) (#1000.0)
    [Asn v_h 21 (#3.3218066443627117e+02 * (#6.6839393200000006e+04 + $v_T * (#2.8896573299999999e+00 + $v_T * (#6.7049805499999997e-03 + $v_T * (#(-9.4923167000000006e-06) + $v_T * (#7.3697761250000002e-09 + #(-2.1866302199999998e-12) * $v_T))))))]
    [Asn v_h 21 (#3.3218066443627117e+02 * (#6.7121065000000002e+04 + $v_T * (#3.1678065200000001e+00 + $v_T * (#2.3761095100000001e-03 + $v_T * (#(-6.1262358999999999e-07) + $v_T * (#7.6047562999999994e-11 + #(-3.5446553999999999e-15) * $v_T))))))];
  (*336*) If ($v_T) (#1000.0)
    [Asn v_h 22 (#3.1932177658088915e+02 * (#2.6428980700000000e+04 + $v_T * (#8.0868109399999999e-01 + $v_T * (#1.1680781450000000e-02 + $v_T * (#(-1.1839060500000000e-05) + $v_T * (#7.0038109249999999e-09 + #(-1.7001459479999999e-12) * $v_T))))))]
    [Asn v_h 22 (#3.1932177658088915e+02 * (#2.5935999199999998e+04 + $v_T * (#4.1475696400000004e+00 + $v_T * (#2.9808333200000000e-03 + $v_T * (#(-7.9098284000000004e-07) + $v_T * (#1.1685304275000001e-10 + #(-7.2247042600000001e-15) * $v_T))))))];
  (*342*) If ($v_T) (#1000.0)
    [Asn v_h 23 (#3.0742133534867867e+02 * (#3.4859846799999999e+04 + $v_T * (#3.2124664500000000e+00 + $v_T * (#7.5739581000000002e-04 + $v_T * (#8.6403137333333327e-06 + $v_T * (#(-8.9414461750000000e-09) + #2.9430174599999999e-12 * $v_T))))))]
    [Asn v_h 23 (#3.0742133534867867e+02 * (#3.4612873899999999e+04 + $v_T * (#3.0167240000000000e+00 + $v_T * (#5.1651146000000004e-03 + $v_T * (#(-1.5602744966666665e-06) + $v_T * (#2.5440821999999998e-10 + #(-1.7252140819999999e-14) * $v_T))))))];
  (*348*) If ($v_T) (#1000.0)
    [Asn v_h 24 (#2.9637603301660818e+02 * (#5.0897759299999998e+03 + $v_T * (#3.9592014799999999e+00 + $v_T * (#(-3.7852612350000002e-03) + $v_T * (#1.9033009733333333e-05 + $v_T * (#(-1.7289718825000000e-08) + #5.3976874600000004e-12 * $v_T))))))]
    [Asn v_h 24 (#2.9637603301660818e+02 * (#4.9398861399999996e+03 + $v_T * (#2.0361111599999999e+00 + $v_T * (#7.3227075499999999e-03 + $v_T * (#(-2.2369263833333335e-06) + $v_T * (#3.6805730750000002e-10 + #(-2.5141212200000000e-14) * $v_T))))))];
  (*354*) If ($v_T) (#1000.0)
    [Asn v_h 25 (#2.8609689384998131e+02 * (#1.2841626500000000e+04 + $v_T * (#4.3064656799999996e+00 + $v_T * (#(-2.0932944600000002e-03) + $v_T * (#1.6571426900000001e-05 + $v_T * (#(-1.4978165149999999e-08) + #4.6101800800000003e-12 * $v_T))))))]
    [Asn v_h 25 (#2.8609689384998131e+02 * (#1.2857520000000000e+04 + $v_T * (#1.9546564200000001e+00 + $v_T * (#8.6986361000000005e-03 + $v_T * (#(-2.6606888933333333e-06) + $v_T * (#4.3804422250000001e-10 + #(-2.9928315199999999e-14) * $v_T))))))];
  (*360*) If ($v_T) (#1000.0)
    [Asn v_h 26 (#2.7650687204768667e+02 * (#(-1.1522205500000000e+04) + $v_T * (#4.2914249199999999e+00 + $v_T * (#(-2.7507713499999998e-03) + $v_T * (#1.9981276266666669e-05 + $v_T * (#(-1.7711657125000000e-08) + #5.3737154200000002e-12 * $v_T))))))]
    [Asn v_h 26 (#2.7650687204768667e+02 * (#(-1.1426393200000000e+04) + $v_T * (#1.0718814999999999e+00 + $v_T * (#1.0842633850000000e-02 + $v_T * (#(-3.3418689000000000e-06) + $v_T * (#5.5353000250000001e-10 + #(-3.8000577999999999e-14) * $v_T))))))];
  (*366*) If ($v_T) (#1000.0)
    [Asn v_h 27 (#2.0264674255057480e+02 * (#2.0059449000000001e+04 + $v_T * (#2.2517214000000001e+00 + $v_T * (#8.8275105000000000e-03 + $v_T * (#(-7.9097003333333330e-06) + $v_T * (#4.3189397500000003e-09 + #(-1.0132962200000001e-12) * $v_T))))))]
    [Asn v_h 27 (#2.0264674255057480e+02 * (#1.9327215000000000e+04 + $v_T * (#5.6282057999999999e+00 + $v_T * (#2.0426700500000001e-03 + $v_T * (#(-5.3115156666666666e-07) + $v_T * (#7.1565129999999998e-11 + #(-3.8815663999999995e-15) * $v_T))))))];
  (*372*) If ($v_T) (#1000.0)
    [Asn v_h 28 (#1.9778782309416789e+02 * (#(-7.0429180399999996e+03) + $v_T * (#2.1358362999999998e+00 + $v_T * (#9.0594360499999995e-03 + $v_T * (#(-5.7982491333333329e-06) + $v_T * (#2.3359939200000000e-09 + #(-4.0291522999999998e-13) * $v_T))))))]
    [Asn v_h 28 (#1.9778782309416789e+02 * (#(-7.5510531099999998e+03) + $v_T * (#4.5112973199999997e+00 + $v_T * (#4.5017987249999997e-03 + $v_T * (#(-1.3897987833333332e-06) + $v_T * (#2.3083647049999999e-10 + #(-1.5896764019999999e-14) * $v_T))))))];
  (*378*) If ($v_T) (#1000.0)
    [Asn v_h 29 (#1.9778782309416789e+02 * (#8.0316143000000002e+03 + $v_T * (#1.2423732999999999e+00 + $v_T * (#1.5536100500000000e-02 + $v_T * (#(-1.6955621333333335e-05) + $v_T * (#1.0784282750000001e-08 + #(-2.8029188000000001e-12) * $v_T))))))]
    [Asn v_h 29 (#1.9778782309416789e+02 * (#7.2646260000000002e+03 + $v_T * (#5.9238290999999998e+00 + $v_T * (#3.3961799999999999e-03 + $v_T * (#(-8.5528546666666670e-07) + $v_T * (#1.1246960250000000e-10 + #(-5.9880201999999998e-15) * $v_T))))))];
  (*384*) If ($v_T) (#1000.0)
    [Asn v_h 30 (#5.9360437189524475e+02 * (#5.6104637000000002e+04 + $v_T * (#2.5000000000000000e+00 + $v_T * (#0.0000000000000000e+00 + $v_T * (#0.0000000000000000e+00 + $v_T * (#0.0000000000000000e+00 + #0.0000000000000000e+00 * $v_T))))))]
    [Asn v_h 30 (#5.9360437189524475e+02 * (#5.6133773000000001e+04 + $v_T * (#2.4159429000000001e+00 + $v_T * (#8.7445325000000003e-05 + $v_T * (#(-3.9674563333333332e-08) + $v_T * (#7.5565612499999998e-12 + #(-4.0721964000000000e-16) * $v_T))))))];
  (*390*) If ($v_T) (#1000.0)
    [Asn v_h 31 (#5.5375553125341332e+02 * (#4.1880629000000001e+04 + $v_T * (#3.4929085000000000e+00 + $v_T * (#1.5589599000000000e-04 + $v_T * (#(-4.9634946666666669e-07) + $v_T * (#6.2041104999999995e-10 + #(-2.0713934000000001e-13) * $v_T))))))]
    [Asn v_h 31 (#5.5375553125341332e+02 * (#4.2120847999999998e+04 + $v_T * (#2.7836927999999999e+00 + $v_T * (#6.6492150000000002e-04 + $v_T * (#(-1.4159348999999999e-07) + $v_T * (#1.9587125250000000e-11 + #(-1.1008894000000001e-15) * $v_T))))))];
  (*396*) If ($v_T) (#1000.0)
    [Asn v_h 32 (#5.1892025773562625e+02 * (#2.1885910000000000e+04 + $v_T * (#4.2040028999999999e+00 + $v_T * (#(-1.0530692500000001e-03) + $v_T * (#2.3689449333333334e-06 + $v_T * (#(-1.4028799250000000e-09) + #3.2881433999999999e-13 * $v_T))))))]
    [Asn v_h 32 (#5.1892025773562625e+02 * (#2.2171956999999999e+04 + $v_T * (#2.8347421000000002e+00 + $v_T * (#1.6036541000000000e-03 + $v_T * (#(-3.1130268000000002e-07) + $v_T * (#3.4257382499999998e-11 + #(-1.5841228800000001e-15) * $v_T))))))];
  (*402*) If ($v_T) (#1000.0)
    [Asn v_h 33 (#4.8820837952480719e+02 * (#(-6.7417285000000002e+03) + $v_T * (#4.2860274000000000e+00 + $v_T * (#(-2.3302614999999999e-03) + $v_T * (#7.2395043333333340e-06 + $v_T * (#(-5.7022217499999999e-09) + #1.6527609200000000e-12 * $v_T))))))]
    [Asn v_h 33 (#4.8820837952480719e+02 * (#(-6.5446958000000004e+03) + $v_T * (#2.6344520999999999e+00 + $v_T * (#2.8331279999999999e-03 + $v_T * (#(-5.7595586666666667e-07) + $v_T * (#5.9667902500000000e-11 + #(-2.5157571999999998e-15) * $v_T))))))];
  (*408*) If ($v_T) (#1000.0)
    [Asn v_h 34 (#2.8649397927461854e+02 * (#2.8791973000000002e+04 + $v_T * (#4.3446927000000004e+00 + $v_T * (#(-2.4248536000000000e-03) + $v_T * (#6.6864863333333334e-06 + $v_T * (#(-5.4316160000000003e-09) + #1.5893907800000000e-12 * $v_T))))))]
    [Asn v_h 34 (#2.8649397927461854e+02 * (#2.8650697000000000e+04 + $v_T * (#3.7667543999999999e+00 + $v_T * (#1.4457541000000001e-03 + $v_T * (#(-3.4722066666666664e-07) + $v_T * (#4.2106484999999997e-11 + #(-2.0183792000000000e-15) * $v_T))))))];
  (*414*) If ($v_T) (#1000.0)
    [Asn v_h 35 (#2.7709202516551613e+02 * (#9.8446229999999996e+03 + $v_T * (#4.2184762999999998e+00 + $v_T * (#(-2.3194880000000002e-03) + $v_T * (#3.6803406666666667e-06 + $v_T * (#(-2.3340338500000000e-09) + #5.6071540000000003e-13 * $v_T))))))]
    [Asn v_h 35 (#2.7709202516551613e+02 * (#9.9209745999999996e+03 + $v_T * (#3.2606055999999999e+00 + $v_T * (#5.9555215000000000e-04 + $v_T * (#(-1.4305682666666666e-07) + $v_T * (#1.7364417250000001e-11 + #(-8.0672197999999996e-16) * $v_T))))))];
  (*420*) If ($v_T) (#1000.0)
    [Asn v_h 36 (#1.8072741022059520e+02 * (#2.8966179000000002e+03 + $v_T * (#3.9440312000000000e+00 + $v_T * (#(-7.9271449999999998e-04) + $v_T * (#5.5526040000000001e-06 + $v_T * (#(-5.1188565000000000e-09) + #1.5670112800000000e-12 * $v_T))))))]
    [Asn v_h 36 (#1.8072741022059520e+02 * (#2.3164983000000002e+03 + $v_T * (#4.8847541999999997e+00 + $v_T * (#1.0861978000000000e-03 + $v_T * (#(-2.7602302000000000e-07) + $v_T * (#3.9368774999999999e-11 + #(-2.1021790000000000e-15) * $v_T))))))];
  (*426*) If ($v_T) (#1000.0)
    [Asn v_h 37 (#1.8890974869174661e+02 * (#8.7417744000000002e+03 + $v_T * (#2.2571501999999999e+00 + $v_T * (#5.6523640000000000e-03 + $v_T * (#(-4.5571063333333328e-06) + $v_T * (#2.4204951500000002e-09 + #(-5.8614363999999997e-13) * $v_T))))))]
    [Asn v_h 37 (#1.8890974869174661e+02 * (#8.0734048000000003e+03 + $v_T * (#4.8230728999999997e+00 + $v_T * (#1.3135125499999999e-03 + $v_T * (#(-3.1950291333333330e-07) + $v_T * (#4.0001779999999998e-11 + #(-1.9550460600000000e-15) * $v_T))))))];
  (*432*) If ($v_T) (#1000.0)
    [Asn v_h 38 (#2.6808669159297972e+02 * (#1.1548297000000000e+04 + $v_T * (#4.5334915999999996e+00 + $v_T * (#(-2.8348085499999998e-03) + $v_T * (#6.1577356666666665e-06 + $v_T * (#(-4.2842735000000000e-09) + #1.1090914600000000e-12 * $v_T))))))]
    [Asn v_h 38 (#2.6808669159297972e+02 * (#1.1750582000000000e+04 + $v_T * (#2.9792508999999998e+00 + $v_T * (#1.7472029500000001e-03 + $v_T * (#(-2.6183259333333334e-07) + $v_T * (#1.4369898500000001e-11 + #(-3.8671832000000001e-17) * $v_T))))))];
  (*438*) If ($v_T) (#1000.0)
    [Asn v_h 39 (#3.1956895948687321e+02 * (#5.1708339999999997e+04 + $v_T * (#3.6129351000000001e+00 + $v_T * (#(-4.7775663499999998e-04) + $v_T * (#7.1476589999999999e-07 + $v_T * (#(-7.8790807499999998e-11) + #(-9.2860711999999993e-14) * $v_T))))))]
    [Asn v_h 39 (#3.1956895948687321e+02 * (#5.1536188000000002e+04 + $v_T * (#3.7459804999999999e+00 + $v_T * (#2.1725387500000000e-05 + $v_T * (#9.9019946666666663e-08 + $v_T * (#(-1.7162951500000000e-11) + #8.8268346000000005e-16 * $v_T))))))];
  (*444*) If ($v_T) (#1000.0)
    [Asn v_h 40 (#3.0765043099748090e+02 * (#1.4712633000000000e+04 + $v_T * (#2.2589885999999999e+00 + $v_T * (#5.0255849999999999e-03 + $v_T * (#(-4.4505876666666668e-06) + $v_T * (#2.5230872500000002e-09 + #(-6.0178055999999999e-13) * $v_T))))))]
    [Asn v_h 40 (#3.0765043099748090e+02 * (#1.4407291999999999e+04 + $v_T * (#3.8022391999999998e+00 + $v_T * (#1.5732114000000001e-03 + $v_T * (#(-3.5440616666666668e-07) + $v_T * (#4.1549392500000003e-11 + #(-1.9599514000000000e-15) * $v_T))))))];
  (*450*) If ($v_T) (#1000.0)
    [Asn v_h 41 (#2.9658895640306179e+02 * (#2.8637820000000000e+04 + $v_T * (#2.8516610000000000e+00 + $v_T * (#2.8476165499999998e-03 + $v_T * (#3.5704666666666666e-07 + $v_T * (#(-4.0565300000000002e-10) + #(-4.7022162000000000e-14) * $v_T))))))]
    [Asn v_h 41 (#2.9658895640306179e+02 * (#2.7677109000000000e+04 + $v_T * (#5.2097030000000002e+00 + $v_T * (#1.4846455499999999e-03 + $v_T * (#(-9.5186303333333329e-08) + $v_T * (#(-4.0888750000000003e-11) + #6.0865177999999998e-15 * $v_T))))))];
  (*456*) If ($v_T) (#1000.0)
    [Asn v_h 42 (#2.0263153135983694e+02 * (#5.4261983999999997e+04 + $v_T * (#2.5243194000000000e+00 + $v_T * (#7.9803094999999994e-03 + $v_T * (#(-6.2721179999999997e-06) + $v_T * (#3.0313849999999999e-09 + #(-6.4714756000000001e-13) * $v_T))))))]
    [Asn v_h 42 (#2.0263153135983694e+02 * (#5.3452940999999999e+04 + $v_T * (#5.8946361999999999e+00 + $v_T * (#1.9947979500000001e-03 + $v_T * (#(-5.3274600000000000e-07) + $v_T * (#7.3123487500000002e-11 + #(-4.0189372000000003e-15) * $v_T))))))];
  (*462*) If ($v_T) (#1382.0)
    [Asn v_h 43 (#1.9324687135968139e+02 * (#1.9299025200000000e+04 + $v_T * (#2.6472798900000001e+00 + $v_T * (#6.3752671000000000e-03 + $v_T * (#(-3.4931411999999996e-06) + $v_T * (#1.1035820900000000e-09 + #(-1.5150429320000001e-13) * $v_T))))))]
    [Asn v_h 43 (#1.9324687135968139e+02 * (#1.7966133900000001e+04 + $v_T * (#6.5986045600000001e+00 + $v_T * (#1.5138931300000000e-03 + $v_T * (#(-3.5901448666666666e-07) + $v_T * (#4.2916632000000000e-11 + #(-2.0287878200000000e-15) * $v_T))))))];
  (*468*) If ($v_T) (#1368.0)
    [Asn v_h 44 (#1.9324687135968139e+02 * (#(-2.8269839999999999e+03) + $v_T * (#3.7860495200000002e+00 + $v_T * (#3.4433396099999999e-03 + $v_T * (#(-1.0716262133333332e-06) + $v_T * (#1.2929894174999999e-10 + #2.3872157600000001e-15 * $v_T))))))]
    [Asn v_h 44 (#1.9324687135968139e+02 * (#(-3.7065333099999998e+03) + $v_T * (#5.8978488499999999e+00 + $v_T * (#1.5839469650000000e-03 + $v_T * (#(-3.7267021333333335e-07) + $v_T * (#4.4310786000000001e-11 + #(-2.0867835399999997e-15) * $v_T))))))];
  (*474*) If ($v_T) (#1478.0)
    [Asn v_h 45 (#1.9324687135968139e+02 * (#(-1.5587363600000001e+04) + $v_T * (#3.6309631699999998e+00 + $v_T * (#3.6514117850000001e-03 + $v_T * (#(-7.6016667666666667e-07) + $v_T * (#(-1.6531782450000001e-10) + #7.2447150399999992e-14 * $v_T))))))]
    [Asn v_h 45 (#1.9324687135968139e+02 * (#(-1.6659934399999998e+04) + $v_T * (#6.2239513400000002e+00 + $v_T * (#1.5893200200000001e-03 + $v_T * (#(-3.6459585000000000e-07) + $v_T * (#4.2683790750000001e-11 + #(-1.9900439100000000e-15) * $v_T))))))];
  (*480*) If ($v_T) (#1000.0)
    [Asn v_h 46 (#1.9788262837499175e+02 * (#1.4682477000000001e+04 + $v_T * (#2.8269308000000000e+00 + $v_T * (#4.4025844000000003e-03 + $v_T * (#(-2.7955378000000001e-06) + $v_T * (#1.2004240999999999e-09 + #(-2.6627190000000002e-13) * $v_T))))))]
    [Asn v_h 46 (#1.9788262837499175e+02 * (#1.4004123000000000e+04 + $v_T * (#5.1521844999999997e+00 + $v_T * (#1.1525880500000000e-03 + $v_T * (#(-2.9344384333333333e-07) + $v_T * (#3.6972744999999997e-11 + #(-1.8195599199999999e-15) * $v_T))))))];
  (*486*) If ($v_T) (#1000.0)
    [Asn v_h 47 (#2.0813212426154001e+02 * (#(-7.4537500000000000e+02) + $v_T * (#2.5000000000000000e+00 + $v_T * (#0.0000000000000000e+00 + $v_T * (#0.0000000000000000e+00 + $v_T * (#0.0000000000000000e+00 + #0.0000000000000000e+00 * $v_T))))))]
    [Asn v_h 47 (#2.0813212426154001e+02 * (#(-7.4537500000000000e+02) + $v_T * (#2.5000000000000000e+00 + $v_T * (#0.0000000000000000e+00 + $v_T * (#0.0000000000000000e+00 + $v_T * (#0.0000000000000000e+00 + #0.0000000000000000e+00 * $v_T))))))];
  (*492*) If ($v_T) (#1000.0)
    [Asn v_h 48 (#1.9296208183235558e+02 * (#1.0631862999999999e+04 + $v_T * (#1.0515517999999999e+00 + $v_T * (#1.2995990000000001e-02 + $v_T * (#7.9335133333333326e-07 + $v_T * (#(-4.9023922500000000e-09) + #1.8746494000000000e-12 * $v_T))))))]
    [Asn v_h 48 (#1.9296208183235558e+02 * (#8.2984336000000003e+03 + $v_T * (#7.7026987000000000e+00 + $v_T * (#8.0221015000000000e-03 + $v_T * (#(-1.7611073333333333e-06) + $v_T * (#1.9074647500000000e-10 + #(-7.8784568000000004e-15) * $v_T))))))];
  (*498*) If ($v_T) (#1000.0)
    [Asn v_h 49 (#1.8855143444426002e+02 * (#(-1.3958520000000000e+04) + $v_T * (#9.3355381000000004e-01 + $v_T * (#1.3212289500000000e-02 + $v_T * (#2.0353242333333332e-06 + $v_T * (#(-5.4943747499999998e-09) + #1.9029850599999998e-12 * $v_T))))))]
    [Asn v_h 49 (#1.8855143444426002e+02 * (#(-1.6467516000000000e+04) + $v_T * (#7.5341367999999997e+00 + $v_T * (#9.4361194999999995e-03 + $v_T * (#(-2.0906163666666664e-06) + $v_T * (#2.2868912250000001e-10 + #(-9.5676138000000010e-15) * $v_T))))))];
  (*504*) If ($v_T) (#1000.0)
    [Asn v_h 50 (#1.9315645500243699e+02 * (#1.5214766000000000e+03 + $v_T * (#3.4090620000000000e+00 + $v_T * (#5.3692870000000004e-03 + $v_T * (#6.3049733333333330e-07 + $v_T * (#(-1.7896457500000000e-09) + #5.7347699999999998e-13 * $v_T))))))]
    [Asn v_h 50 (#1.9315645500243699e+02 * (#4.9032180000000000e+02 + $v_T * (#5.9756700000000000e+00 + $v_T * (#4.0652954999999998e-03 + $v_T * (#(-9.1454133333333341e-07) + $v_T * (#1.0175760000000000e-10 + #(-4.3520339999999999e-15) * $v_T))))))];
  (*510*) If ($v_T) (#1000.0)
    [Asn v_h 51 (#1.8873701909238750e+02 * (#(-2.1572878000000001e+04) + $v_T * (#4.7294594999999999e+00 + $v_T * (#(-1.5966429000000000e-03) + $v_T * (#1.5844973666666667e-05 + $v_T * (#(-1.4364652749999999e-08) + #4.3862224000000000e-12 * $v_T))))))]
    [Asn v_h 51 (#1.8873701909238750e+02 * (#(-2.2593121999999999e+04) + $v_T * (#5.4041107999999998e+00 + $v_T * (#5.8615294999999996e-03 + $v_T * (#(-1.4087712333333332e-06) + $v_T * (#1.7093112750000001e-10 + #(-8.1969725999999999e-15) * $v_T))))))];
  (*516*) If ($v_T) (#1000.0)
    [Asn v_h 52 (#2.9680218594762238e+02 * (#(-1.0208999000000000e+03) + $v_T * (#3.2986770000000001e+00 + $v_T * (#7.0412019999999999e-04 + $v_T * (#(-1.3210739999999999e-06) + $v_T * (#1.4103787500000001e-09 + #(-4.8897079999999994e-13) * $v_T))))))]
    [Asn v_h 52 (#2.9680218594762238e+02 * (#(-9.2279769999999996e+02) + $v_T * (#2.9266399999999999e+00 + $v_T * (#7.4398840000000003e-04 + $v_T * (#(-1.8949200000000001e-07) + $v_T * (#2.5242595000000000e-11 + #(-1.3506701999999999e-15) * $v_T))))))]
].

(** [eval_cp], gri30/lib/src/chem_utils.c:1168-1488. *)
Definition gri30_eval_cp : list stmt := [
  (*1170*) If ($v_T) (#1000.0)
    [Asn v_cp 0 (#4.1244826576978785e+03 * (#2.3443311200000001e+00 + $v_T * (#7.9805207499999992e-03 + $v_T * (#(-1.9478150999999999e-05) + $v_T * (#2.0157209400000000e-08 + #(-7.3761176100000006e-12) * $v_T)))))]
    [Asn v_cp 0 (#4.1244826576978785e+03 * (#3.3372791999999998e+00 + $v_T * (#(-4.9402473099999998e-05) + $v_T * (#4.9945677799999996e-07 + $v_T * (#(-1.7956639400000001e-10) + #2.0025537600000000e-14 * $v_T)))))];
  (*1176*) If ($v_T) (#1000.0)
    [Asn v_cp 1 (#8.2489653153957570e+03 * (#2.5000000000000000e+00 + $v_T * (#7.0533281899999999e-13 + $v_T * (#(-1.9959196400000000e-15) + $v_T * (#2.3008163199999999e-18 + #(-9.2773233200000006e-22) * $v_T)))))]
    [Asn v_cp 1 (#8.2489653153957570e+03 * (#2.5000000099999999e+00 + $v_T * (#(-2.3084297299999999e-11) + $v_T * (#1.6156194800000001e-14 + $v_T * (#(-4.7351523500000003e-18) + #4.9819735700000002e-22 * $v_T)))))];
  (*1182*) If ($v_T) (#1000.0)
    [Asn v_cp 2 (#5.1967336900133762e+02 * (#3.1682671000000000e+00 + $v_T * (#(-3.2793188399999999e-03) + $v_T * (#6.6430639599999997e-06 + $v_T * (#(-6.1280662400000001e-09) + #2.1126597099999999e-12 * $v_T)))))]
    [Asn v_cp 2 (#5.1967336900133762e+02 * (#2.5694207800000002e+00 + $v_T * (#(-8.5974113700000004e-05) + $v_T * (#4.1948458900000002e-08 + $v_T * (#(-1.0017779899999999e-11) + #1.2283369099999999e-15 * $v_T)))))];
  (*1188*) If ($v_T) (#1000.0)
    [Asn v_cp 3 (#2.5983668450066881e+02 * (#3.7824563599999999e+00 + $v_T * (#(-2.9967341599999998e-03) + $v_T * (#9.8473020100000000e-06 + $v_T * (#(-9.6812950900000007e-09) + #3.2437283700000000e-12 * $v_T)))))]
    [Asn v_cp 3 (#2.5983668450066881e+02 * (#3.2825378399999998e+00 + $v_T * (#1.4830875399999999e-03 + $v_T * (#(-7.5796666899999999e-07) + $v_T * (#2.0947055499999999e-10 + #(-2.1671779399999999e-14) * $v_T)))))];
  (*1194*) If ($v_T) (#1000.0)
    [Asn v_cp 4 (#4.8887492694330808e+02 * (#3.9920154299999999e+00 + $v_T * (#(-2.4013175200000001e-03) + $v_T * (#4.6179384099999996e-06 + $v_T * (#(-3.8811333300000000e-09) + #1.3641147000000000e-12 * $v_T)))))]
    [Asn v_cp 4 (#4.8887492694330808e+02 * (#3.0928876700000001e+00 + $v_T * (#5.4842971599999998e-04 + $v_T * (#1.2650522799999999e-07 + $v_T * (#(-8.7946155599999995e-11) + #1.1741237600000000e-14 * $v_T)))))];
  (*1200*) If ($v_T) (#1000.0)
    [Asn v_cp 5 (#4.6152277955158070e+02 * (#4.1986405600000003e+00 + $v_T * (#(-2.0364341000000002e-03) + $v_T * (#6.5204021099999997e-06 + $v_T * (#(-5.4879706200000003e-09) + #1.7719781700000000e-12 * $v_T)))))]
    [Asn v_cp 5 (#4.6152277955158070e+02 * (#3.0339924900000002e+00 + $v_T * (#2.1769180400000002e-03 + $v_T * (#(-1.6407251799999999e-07) + $v_T * (#(-9.7041986999999998e-11) + #1.6820099199999999e-14 * $v_T)))))];
  (*1206*) If ($v_T) (#1000.0)
    [Asn v_cp 6 (#2.5190194790518544e+02 * (#4.3017980099999997e+00 + $v_T * (#(-4.7491205099999996e-03) + $v_T * (#2.1158289099999999e-05 + $v_T * (#(-2.4276389400000000e-08) + #9.2922512400000003e-12 * $v_T)))))]
    [Asn v_cp 6 (#2.5190194790518544e+02 * (#4.0172109000000003e+00 + $v_T * (#2.2398201299999999e-03 + $v_T * (#(-6.3365814999999998e-07) + $v_T * (#1.1424637000000000e-10 + #(-1.0790853500000000e-14) * $v_T)))))];
  (*1212*) If ($v_T) (#1000.0)
    [Asn v_cp 7 (#2.4443746347165404e+02 * (#4.2761126899999997e+00 + $v_T * (#(-5.4282241699999995e-04) + $v_T * (#1.6733570100000001e-05 + $v_T * (#(-2.1577081300000000e-08) + #8.6245436299999998e-12 * $v_T)))))]
    [Asn v_cp 7 (#2.4443746347165404e+02 * (#4.1650028499999996e+00 + $v_T * (#4.9083169400000000e-03 + $v_T * (#(-1.9013922500000000e-06) + $v_T * (#3.7118598599999998e-10 + #(-2.8790830500000002e-14) * $v_T)))))];
  (*1218*) If ($v_T) (#1000.0)
    [Asn v_cp 8 (#6.9223729081675140e+02 * (#2.5542395500000001e+00 + $v_T * (#(-3.2153772399999997e-04) + $v_T * (#7.3379224500000000e-07 + $v_T * (#(-7.3223488899999999e-10) + #2.6652144600000001e-13 * $v_T)))))]
    [Asn v_cp 8 (#6.9223729081675140e+02 * (#2.4926688800000001e+00 + $v_T * (#4.7988928400000000e-05 + $v_T * (#(-7.2433502000000005e-08) + $v_T * (#3.7429102900000003e-11 + #(-4.8727789299999997e-15) * $v_T)))))];
  (*1224*) If ($v_T) (#1000.0)
    [Asn v_cp 9 (#6.3864355316177830e+02 * (#3.4898166499999999e+00 + $v_T * (#3.2383554100000003e-04 + $v_T * (#(-1.6889906500000000e-06) + $v_T * (#3.1621732699999999e-09 + #(-1.4060906700000001e-12) * $v_T)))))]
    [Asn v_cp 9 (#6.3864355316177830e+02 * (#2.8784647300000001e+00 + $v_T * (#9.7091368100000000e-04 + $v_T * (#1.4444565499999999e-07 + $v_T * (#(-1.3068784900000001e-10) + #1.7607938299999999e-14 * $v_T)))))];
  (*1230*) If ($v_T) (#1000.0)
    [Asn v_cp 10 (#5.9275206603321635e+02 * (#3.7626786700000001e+00 + $v_T * (#9.6887214300000004e-04 + $v_T * (#2.7948984100000001e-06 + $v_T * (#(-3.8509115300000003e-09) + #1.6874171900000000e-12 * $v_T)))))]
    [Asn v_cp 10 (#5.9275206603321635e+02 * (#2.8741011300000001e+00 + $v_T * (#3.6563929199999999e-03 + $v_T * (#(-1.4089459700000001e-06) + $v_T * (#2.6017954899999999e-10 + #(-1.8772756700000001e-14) * $v_T)))))];
  (*1236*) If ($v_T) (#1000.0)
    [Asn v_cp 11 (#5.9275206603321635e+02 * (#4.1986041099999998e+00 + $v_T * (#(-2.3666141900000001e-03) + $v_T * (#8.2329621999999999e-06 + $v_T * (#(-6.6881598100000004e-09) + #1.9431473700000001e-12 * $v_T)))))]
    [Asn v_cp 11 (#5.9275206603321635e+02 * (#2.2920384199999999e+00 + $v_T * (#4.6558863700000000e-03 + $v_T * (#(-2.0119194699999999e-06) + $v_T * (#4.1790600000000002e-10 + #(-3.3971636499999998e-14) * $v_T)))))];
  (*1242*) If ($v_T) (#1000.0)
    [Asn v_cp 12 (#5.5301374409537334e+02 * (#3.6735904000000001e+00 + $v_T * (#2.0109517500000000e-03 + $v_T * (#5.7302185600000002e-06 + $v_T * (#(-6.8711742500000001e-09) + #2.5438573400000000e-12 * $v_T)))))]
    [Asn v_cp 12 (#5.5301374409537334e+02 * (#2.2857177200000001e+00 + $v_T * (#7.2399003699999999e-03 + $v_T * (#(-2.9871434799999999e-06) + $v_T * (#5.9568464400000002e-10 + #(-4.6715439400000003e-14) * $v_T)))))];
  (*1248*) If ($v_T) (#1000.0)
    [Asn v_cp 13 (#5.1826880786099150e+02 * (#5.1498761300000000e+00 + $v_T * (#(-1.3670978800000001e-02) + $v_T * (#4.9180059899999999e-05 + $v_T * (#(-4.8474302600000002e-08) + #1.6669395599999999e-11 * $v_T)))))]
    [Asn v_cp 13 (#5.1826880786099150e+02 * (#7.4851495000000004e-02 + $v_T * (#1.3390946700000000e-02 + $v_T * (#(-5.7328580900000000e-06) + $v_T * (#1.2229253500000000e-09 + #(-1.0181523000000000e-13) * $v_T)))))];
  (*1254*) If ($v_T) (#1000.0)
    [Asn v_cp 14 (#2.9683482206608977e+02 * (#3.5795334699999999e+00 + $v_T * (#(-6.1035368000000000e-04) + $v_T * (#1.0168143300000000e-06 + $v_T * (#9.0700588399999998e-10 + #(-9.0442449900000000e-13) * $v_T)))))]
    [Asn v_cp 14 (#2.9683482206608977e+02 * (#2.7151856099999998e+00 + $v_T * (#2.0625274300000002e-03 + $v_T * (#(-9.9882577100000007e-07) + $v_T * (#2.3005300800000000e-10 + #(-2.0364771600000000e-14) * $v_T)))))];
  (*1260*) If ($v_T) (#1000.0)
    [Asn v_cp 15 (#1.8892296942953618e+02 * (#2.3567735200000000e+00 + $v_T * (#8.9845967700000005e-03 + $v_T * (#(-7.1235626899999998e-06) + $v_T * (#2.4591902199999998e-09 + #(-1.4369954799999999e-13) * $v_T)))))]
    [Asn v_cp 15 (#1.8892296942953618e+02 * (#3.8574602900000001e+00 + $v_T * (#4.4143702599999998e-03 + $v_T * (#(-2.2148140400000001e-06) + $v_T * (#5.2349018800000005e-10 + #(-4.7208416400000003e-14) * $v_T)))))];
  (*1266*) If ($v_T) (#1000.0)
    [Asn v_cp 16 (#2.8652438768034290e+02 * (#4.2211858400000004e+00 + $v_T * (#(-3.2439253200000000e-03) + $v_T * (#1.3779944600000000e-05 + $v_T * (#(-1.3314409300000001e-08) + #4.3376886499999999e-12 * $v_T)))))]
    [Asn v_cp 16 (#2.8652438768034290e+02 * (#2.7721743800000000e+00 + $v_T * (#4.9569552599999997e-03 + $v_T * (#(-2.4844561300000000e-06) + $v_T * (#5.8916177800000004e-10 + #(-5.3350871099999999e-14) * $v_T)))))];
  (*1272*) If ($v_T) (#1000.0)
    [Asn v_cp 17 (#2.7690616686449340e+02 * (#4.7937231499999999e+00 + $v_T * (#(-9.9083336899999999e-03) + $v_T * (#3.7322000799999999e-05 + $v_T * (#(-3.7928526099999998e-08) + #1.3177265200000000e-11 * $v_T)))))]
    [Asn v_cp 17 (#2.7690616686449340e+02 * (#1.7606900800000000e+00 + $v_T * (#9.2000008200000000e-03 + $v_T * (#(-4.4225881299999997e-06) + $v_T * (#1.0064121200000000e-09 + #(-8.8385564000000006e-14) * $v_T)))))];
  (*1278*) If ($v_T) (#1000.0)
    [Asn v_cp 18 (#2.6791271377208773e+02 * (#3.8638891800000001e+00 + $v_T * (#5.5967230400000003e-03 + $v_T * (#5.9327179099999999e-06 + $v_T * (#(-1.0453201200000001e-08) + #4.3696727800000001e-12 * $v_T)))))]
    [Asn v_cp 18 (#2.6791271377208773e+02 * (#3.6926656900000001e+00 + $v_T * (#8.6457679700000008e-03 + $v_T * (#(-3.7510112000000001e-06) + $v_T * (#7.8723463599999999e-10 + #(-6.4855420100000002e-14) * $v_T)))))];
  (*1284*) If ($v_T) (#1000.0)
    [Asn v_cp 19 (#2.6791271377208773e+02 * (#2.1062040000000000e+00 + $v_T * (#7.2165950000000001e-03 + $v_T * (#5.3384719999999999e-06 + $v_T * (#(-7.3776359999999997e-09) + #2.0756099999999999e-12 * $v_T)))))]
    [Asn v_cp 19 (#2.6791271377208773e+02 * (#3.7707989999999998e+00 + $v_T * (#7.8714969999999999e-03 + $v_T * (#(-2.6563840000000001e-06) + $v_T * (#3.9444309999999999e-10 + #(-2.1126160000000001e-14) * $v_T)))))];
  (*1290*) If ($v_T) (#1000.0)
    [Asn v_cp 20 (#2.5948506904653124e+02 * (#5.7153958200000003e+00 + $v_T * (#(-1.5230912900000001e-02) + $v_T * (#6.5244115500000000e-05 + $v_T * (#(-7.1080688900000001e-08) + #2.6135269799999999e-11 * $v_T)))))]
    [Asn v_cp 20 (#2.5948506904653124e+02 * (#1.7897079100000000e+00 + $v_T * (#1.4093829200000000e-02 + $v_T * (#(-6.3650083500000001e-06) + $v_T * (#1.3817108500000000e-09 + #(-1.1706021999999999e-13) * $v_T)))))];
  (*1296*) If ($v_T) (#1000.0)
    [Asn v_cp 21 (#3.3218066443627117e+02 * (#2.8896573299999999e+00 + $v_T * (#1.3409961099999999e-02 + $v_T * (#(-2.8476950100000000e-05) + $v_T * (#2.9479104500000001e-08 + #(-1.0933151100000000e-11) * $v_T)))))]
    [Asn v_cp 21 (#3.3218066443627117e+02 * (#3.1678065200000001e+00 + $v_T * (#4.7522190200000002e-03 + $v_T * (#(-1.8378707700000001e-06) + $v_T * (#3.0419025199999998e-10 + #(-1.7723276999999999e-14) * $v_T)))))];
  (*1302*) If ($v_T) (#1000.0)
    [Asn v_cp 22 (#3.1932177658088915e+02 * (#8.0868109399999999e-01 + $v_T * (#2.3361562900000001e-02 + $v_T * (#(-3.5517181499999999e-05) + $v_T * (#2.8015243700000000e-08 + #(-8.5007297399999996e-12) * $v_T)))))]
    [Asn v_cp 22 (#3.1932177658088915e+02 * (#4.1475696400000004e+00 + $v_T * (#5.9616666400000001e-03 + $v_T * (#(-2.3729485200000000e-06) + $v_T * (#4.6741217100000004e-10 + #(-3.6123521300000002e-14) * $v_T)))))];
  (*1308*) If ($v_T) (#1000.0)
    [Asn v_cp 23 (#3.0742133534867867e+02 * (#3.2124664500000000e+00 + $v_T * (#1.5147916200000000e-03 + $v_T * (#2.5920941200000000e-05 + $v_T * (#(-3.5765784700000000e-08) + #1.4715087300000000e-11 * $v_T)))))]
    [Asn v_cp 23 (#3.0742133534867867e+02 * (#3.0167240000000000e+00 + $v_T * (#1.0330229200000001e-02 + $v_T * (#(-4.6808234899999996e-06) + $v_T * (#1.0176328799999999e-09 + #(-8.6260704099999999e-14) * $v_T)))))];
  (*1314*) If ($v_T) (#1000.0)
    [Asn v_cp 24 (#2.9637603301660818e+02 * (#3.9592014799999999e+00 + $v_T * (#(-7.5705224700000004e-03) + $v_T * (#5.7099029199999999e-05 + $v_T * (#(-6.9158875299999999e-08) + #2.6988437300000001e-11 * $v_T)))))]
    [Asn v_cp 24 (#2.9637603301660818e+02 * (#2.0361111599999999e+00 + $v_T * (#1.4645415100000000e-02 + $v_T * (#(-6.7107791500000002e-06) + $v_T * (#1.4722292300000001e-09 + #(-1.2570606100000000e-13) * $v_T)))))];
  (*1320*) If ($v_T) (#1000.0)
    [Asn v_cp 25 (#2.8609689384998131e+02 * (#4.3064656799999996e+00 + $v_T * (#(-4.1865889200000004e-03) + $v_T * (#4.9714280699999999e-05 + $v_T * (#(-5.9912660599999996e-08) + #2.3050900400000000e-11 * $v_T)))))]
    [Asn v_cp 25 (#2.8609689384998131e+02 * (#1.9546564200000001e+00 + $v_T * (#1.7397272200000001e-02 + $v_T * (#(-7.9820666799999996e-06) + $v_T * (#1.7521768900000000e-09 + #(-1.4964157600000000e-13) * $v_T)))))];
  (*1326*) If ($v_T) (#1000.0)
    [Asn v_cp 26 (#2.7650687204768667e+02 * (#4.2914249199999999e+00 + $v_T * (#(-5.5015426999999997e-03) + $v_T * (#5.9943828800000003e-05 + $v_T * (#(-7.0846628500000001e-08) + #2.6868577099999999e-11 * $v_T)))))]
    [Asn v_cp 26 (#2.7650687204768667e+02 * (#1.0718814999999999e+00 + $v_T * (#2.1685267700000000e-02 + $v_T * (#(-1.0025606700000000e-05) + $v_T * (#2.2141200100000000e-09 + #(-1.9000289000000000e-13) * $v_T)))))];
  (*1332*) If ($v_T) (#1000.0)
    [Asn v_cp 27 (#2.0264674255057480e+02 * (#2.2517214000000001e+00 + $v_T * (#1.7655021000000000e-02 + $v_T * (#(-2.3729100999999999e-05) + $v_T * (#1.7275759000000001e-08 + #(-5.0664811000000003e-12) * $v_T)))))]
    [Asn v_cp 27 (#2.0264674255057480e+02 * (#5.6282057999999999e+00 + $v_T * (#4.0853401000000003e-03 + $v_T * (#(-1.5934547000000001e-06) + $v_T * (#2.8626051999999999e-10 + #(-1.9407831999999999e-14) * $v_T)))))];
  (*1338*) If ($v_T) (#1000.0)
    [Asn v_cp 28 (#1.9778782309416789e+02 * (#2.1358362999999998e+00 + $v_T * (#1.8118872099999999e-02 + $v_T * (#(-1.7394747400000000e-05) + $v_T * (#9.3439756800000000e-09 + #(-2.0145761499999999e-12) * $v_T)))))]
    [Asn v_cp 28 (#1.9778782309416789e+02 * (#4.5112973199999997e+00 + $v_T * (#9.0035974499999994e-03 + $v_T * (#(-4.1693963499999999e-06) + $v_T * (#9.2334588199999996e-10 + #(-7.9483820099999996e-14) * $v_T)))))];
  (*1344*) If ($v_T) (#1000.0)
    [Asn v_cp 29 (#1.9778782309416789e+02 * (#1.2423732999999999e+00 + $v_T * (#3.1072201000000001e-02 + $v_T * (#(-5.0866864000000001e-05) + $v_T * (#4.3137131000000003e-08 + #(-1.4014593999999999e-11) * $v_T)))))]
    [Asn v_cp 29 (#1.9778782309416789e+02 * (#5.9238290999999998e+00 + $v_T * (#6.7923599999999999e-03 + $v_T * (#(-2.5658564000000001e-06) + $v_T * (#4.4987841000000000e-10 + #(-2.9940100999999997e-14) * $v_T)))))];
  (*1350*) If ($v_T) (#1000.0)
    [Asn v_cp 30 (#5.9360437189524475e+02 * (#2.5000000000000000e+00 + $v_T * (#0.0000000000000000e+00 + $v_T * (#0.0000000000000000e+00 + $v_T * (#0.0000000000000000e+00 + #0.0000000000000000e+00 * $v_T)))))]
    [Asn v_cp 30 (#5.9360437189524475e+02 * (#2.4159429000000001e+00 + $v_T * (#1.7489065000000001e-04 + $v_T * (#(-1.1902368999999999e-07) + $v_T * (#3.0226244999999999e-11 + #(-2.0360982000000000e-15) * $v_T)))))];
  (*1356*) If ($v_T) (#1000.0)
    [Asn v_cp 31 (#5.5375553125341332e+02 * (#3.4929085000000000e+00 + $v_T * (#3.1179198000000000e-04 + $v_T * (#(-1.4890484000000001e-06) + $v_T * (#2.4816441999999998e-09 + #(-1.0356967000000000e-12) * $v_T)))))]
    [Asn v_cp 31 (#5.5375553125341332e+02 * (#2.7836927999999999e+00 + $v_T * (#1.3298430000000000e-03 + $v_T * (#(-4.2478046999999998e-07) + $v_T * (#7.8348501000000000e-11 + #(-5.5044470000000003e-15) * $v_T)))))];
  (*1362*) If ($v_T) (#1000.0)
    [Asn v_cp 32 (#5.1892025773562625e+02 * (#4.2040028999999999e+00 + $v_T * (#(-2.1061385000000002e-03) + $v_T * (#7.1068348000000003e-06 + $v_T * (#(-5.6115197000000000e-09) + #1.6440717000000001e-12 * $v_T)))))]
    [Asn v_cp 32 (#5.1892025773562625e+02 * (#2.8347421000000002e+00 + $v_T * (#3.2073081999999999e-03 + $v_T * (#(-9.3390804000000001e-07) + $v_T * (#1.3702952999999999e-10 + #(-7.9206144000000007e-15) * $v_T)))))];
  (*1368*) If ($v_T) (#1000.0)
    [Asn v_cp 33 (#4.8820837952480719e+02 * (#4.2860274000000000e+00 + $v_T * (#(-4.6605229999999997e-03) + $v_T * (#2.1718513000000001e-05 + $v_T * (#(-2.2808887000000000e-08) + #8.2638045999999998e-12 * $v_T)))))]
    [Asn v_cp 33 (#4.8820837952480719e+02 * (#2.6344520999999999e+00 + $v_T * (#5.6662559999999997e-03 + $v_T * (#(-1.7278676000000000e-06) + $v_T * (#2.3867161000000000e-10 + #(-1.2578785999999999e-14) * $v_T)))))];
  (*1374*) If ($v_T) (#1000.0)
    [Asn v_cp 34 (#2.8649397927461854e+02 * (#4.3446927000000004e+00 + $v_T * (#(-4.8497072000000000e-03) + $v_T * (#2.0059459000000001e-05 + $v_T * (#(-2.1726464000000001e-08) + #7.9469539000000000e-12 * $v_T)))))]
    [Asn v_cp 34 (#2.8649397927461854e+02 * (#3.7667543999999999e+00 + $v_T * (#2.8915082000000002e-03 + $v_T * (#(-1.0416619999999999e-06) + $v_T * (#1.6842593999999999e-10 + #(-1.0091896000000000e-14) * $v_T)))))];
  (*1380*) If ($v_T) (#1000.0)
    [Asn v_cp 35 (#2.7709202516551613e+02 * (#4.2184762999999998e+00 + $v_T * (#(-4.6389760000000004e-03) + $v_T * (#1.1041022000000000e-05 + $v_T * (#(-9.3361354000000002e-09) + #2.8035769999999999e-12 * $v_T)))))]
    [Asn v_cp 35 (#2.7709202516551613e+02 * (#3.2606055999999999e+00 + $v_T * (#1.1911043000000000e-03 + $v_T * (#(-4.2917048000000002e-07) + $v_T * (#6.9457669000000003e-11 + #(-4.0336098999999997e-15) * $v_T)))))];
  (*1386*) If ($v_T) (#1000.0)
    [Asn v_cp 36 (#1.8072741022059520e+02 * (#3.9440312000000000e+00 + $v_T * (#(-1.5854290000000000e-03) + $v_T * (#1.6657812000000001e-05 + $v_T * (#(-2.0475426000000000e-08) + #7.8350563999999999e-12 * $v_T)))))]
    [Asn v_cp 36 (#1.8072741022059520e+02 * (#4.8847541999999997e+00 + $v_T * (#2.1723955999999999e-03 + $v_T * (#(-8.2806905999999995e-07) + $v_T * (#1.5747510000000000e-10 + #(-1.0510895000000001e-14) * $v_T)))))];
  (*1392*) If ($v_T) (#1000.0)
    [Asn v_cp 37 (#1.8890974869174661e+02 * (#2.2571501999999999e+00 + $v_T * (#1.1304728000000000e-02 + $v_T * (#(-1.3671318999999999e-05) + $v_T * (#9.6819806000000007e-09 + #(-2.9307182000000000e-12) * $v_T)))))]
    [Asn v_cp 37 (#1.8890974869174661e+02 * (#4.8230728999999997e+00 + $v_T * (#2.6270250999999999e-03 + $v_T * (#(-9.5850873999999995e-07) + $v_T * (#1.6000711999999999e-10 + #(-9.7752302999999992e-15) * $v_T)))))];
  (*1398*) If ($v_T) (#1000.0)
    [Asn v_cp 38 (#2.6808669159297972e+02 * (#4.5334915999999996e+00 + $v_T * (#(-5.6696170999999997e-03) + $v_T * (#1.8473207000000000e-05 + $v_T * (#(-1.7137094000000000e-08) + #5.5454573000000001e-12 * $v_T)))))]
    [Asn v_cp 38 (#2.6808669159297972e+02 * (#2.9792508999999998e+00 + $v_T * (#3.4944059000000002e-03 + $v_T * (#(-7.8549778000000003e-07) + $v_T * (#5.7479594000000003e-11 + #(-1.9335916000000000e-16) * $v_T)))))];
  (*1404*) If ($v_T) (#1000.0)
    [Asn v_cp 39 (#3.1956895948687321e+02 * (#3.6129351000000001e+00 + $v_T * (#(-9.5551326999999996e-04) + $v_T * (#2.1442977000000001e-06 + $v_T * (#(-3.1516322999999999e-10) + #(-4.6430355999999997e-13) * $v_T)))))]
    [Asn v_cp 39 (#3.1956895948687321e+02 * (#3.7459804999999999e+00 + $v_T * (#4.3450774999999999e-05 + $v_T * (#2.9705983999999999e-07 + $v_T * (#(-6.8651805999999999e-11) + #4.4134173000000003e-15 * $v_T)))))];
  (*1410*) If ($v_T) (#1000.0)
    [Asn v_cp 40 (#3.0765043099748090e+02 * (#2.2589885999999999e+00 + $v_T * (#1.0051170000000000e-02 + $v_T * (#(-1.3351763000000000e-05) + $v_T * (#1.0092349000000001e-08 + #(-3.0089027999999998e-12) * $v_T)))))]
    [Asn v_cp 40 (#3.0765043099748090e+02 * (#3.8022391999999998e+00 + $v_T * (#3.1464228000000001e-03 + $v_T * (#(-1.0632185000000000e-06) + $v_T * (#1.6619757000000001e-10 + #(-9.7997569999999995e-15) * $v_T)))))];
  (*1416*) If ($v_T) (#1000.0)
    [Asn v_cp 41 (#2.9658895640306179e+02 * (#2.8516610000000000e+00 + $v_T * (#5.6952330999999997e-03 + $v_T * (#1.0711400000000000e-06 + $v_T * (#(-1.6226120000000001e-09) + #(-2.3511080999999999e-13) * $v_T)))))]
    [Asn v_cp 41 (#2.9658895640306179e+02 * (#5.2097030000000002e+00 + $v_T * (#2.9692910999999998e-03 + $v_T * (#(-2.8555890999999999e-07) + $v_T * (#(-1.6355500000000001e-10) + #3.0432588999999997e-14 * $v_T)))))];
  (*1422*) If ($v_T) (#1000.0)
    [Asn v_cp 42 (#2.0263153135983694e+02 * (#2.5243194000000000e+00 + $v_T * (#1.5960618999999999e-02 + $v_T * (#(-1.8816353999999999e-05) + $v_T * (#1.2125539999999999e-08 + #(-3.2357378000000000e-12) * $v_T)))))]
    [Asn v_cp 42 (#2.0263153135983694e+02 * (#5.8946361999999999e+00 + $v_T * (#3.9895959000000002e-03 + $v_T * (#(-1.5982380000000000e-06) + $v_T * (#2.9249395000000001e-10 + #(-2.0094686000000001e-14) * $v_T)))))];
  (*1428*) If ($v_T) (#1382.0)
    [Asn v_cp 43 (#1.9324687135968139e+02 * (#2.6472798900000001e+00 + $v_T * (#1.2750534200000000e-02 + $v_T * (#(-1.0479423599999999e-05) + $v_T * (#4.4143283600000001e-09 + #(-7.5752146600000001e-13) * $v_T)))))]
    [Asn v_cp 43 (#1.9324687135968139e+02 * (#6.5986045600000001e+00 + $v_T * (#3.0277862600000000e-03 + $v_T * (#(-1.0770434599999999e-06) + $v_T * (#1.7166652800000000e-10 + #(-1.0143939100000001e-14) * $v_T)))))];
  (*1434*) If ($v_T) (#1368.0)
    [Asn v_cp 44 (#1.9324687135968139e+02 * (#3.7860495200000002e+00 + $v_T * (#6.8866792199999997e-03 + $v_T * (#(-3.2148786399999999e-06) + $v_T * (#5.1719576699999997e-10 + #1.1936078800000000e-14 * $v_T)))))]
    [Asn v_cp 44 (#1.9324687135968139e+02 * (#5.8978488499999999e+00 + $v_T * (#3.1678939299999999e-03 + $v_T * (#(-1.1180106400000000e-06) + $v_T * (#1.7724314400000001e-10 + #(-1.0433917699999999e-14) * $v_T)))))];
  (*1440*) If ($v_T) (#1478.0)
    [Asn v_cp 45 (#1.9324687135968139e+02 * (#3.6309631699999998e+00 + $v_T * (#7.3028235700000003e-03 + $v_T * (#(-2.2805000299999999e-06) + $v_T * (#(-6.6127129800000005e-10) + #3.6223575199999999e-13 * $v_T)))))]
    [Asn v_cp 45 (#1.9324687135968139e+02 * (#6.2239513400000002e+00 + $v_T * (#3.1786400400000002e-03 + $v_T * (#(-1.0937875500000000e-06) + $v_T * (#1.7073516300000000e-10 + #(-9.9502195499999995e-15) * $v_T)))))];
  (*1446*) If ($v_T) (#1000.0)
    [Asn v_cp 46 (#1.9788262837499175e+02 * (#2.8269308000000000e+00 + $v_T * (#8.8051688000000006e-03 + $v_T * (#(-8.3866134000000006e-06) + $v_T * (#4.8016963999999998e-09 + #(-1.3313595000000000e-12) * $v_T)))))]
    [Asn v_cp 46 (#1.9788262837499175e+02 * (#5.1521844999999997e+00 + $v_T * (#2.3051761000000000e-03 + $v_T * (#(-8.8033152999999999e-07) + $v_T * (#1.4789097999999999e-10 + #(-9.0977996000000005e-15) * $v_T)))))];
  (*1452*) If ($v_T) (#1000.0)
    [Asn v_cp 47 (#2.0813212426154001e+02 * (#2.5000000000000000e+00 + $v_T * (#0.0000000000000000e+00 + $v_T * (#0.0000000000000000e+00 + $v_T * (#0.0000000000000000e+00 + #0.0000000000000000e+00 * $v_T)))))]
    [Asn v_cp 47 (#2.0813212426154001e+02 * (#2.5000000000000000e+00 + $v_T * (#0.0000000000000000e+00 + $v_T * (#0.0000000000000000e+00 + $v_T * (#0.0000000000000000e+00 + #0.0000000000000000e+00 * $v_T)))))];
  (*1458*) If ($v_T) (#1000.0)
    [Asn v_cp 48 (#1.9296208183235558e+02 * (#1.0515517999999999e+00 + $v_T * (#2.5991980000000001e-02 + $v_T * (#2.3800539999999999e-06 + $v_T * (#(-1.9609569000000000e-08) + #9.3732469999999993e-12 * $v_T)))))]
    [Asn v_cp 48 (#1.9296208183235558e+02 * (#7.7026987000000000e+00 + $v_T * (#1.6044203000000000e-02 + $v_T * (#(-5.2833220000000001e-06) + $v_T * (#7.6298590000000000e-10 + #(-3.9392284000000002e-14) * $v_T)))))];
  (*1464*) If ($v_T) (#1000.0)
    [Asn v_cp 49 (#1.8855143444426002e+02 * (#9.3355381000000004e-01 + $v_T * (#2.6424579000000000e-02 + $v_T * (#6.1059727000000001e-06 + $v_T * (#(-2.1977498999999999e-08) + #9.5149252999999994e-12 * $v_T)))))]
    [Asn v_cp 49 (#1.8855143444426002e+02 * (#7.5341367999999997e+00 + $v_T * (#1.8872238999999999e-02 + $v_T * (#(-6.2718490999999996e-06) + $v_T * (#9.1475649000000003e-10 + #(-4.7838069000000002e-14) * $v_T)))))];
  (*1470*) If ($v_T) (#1000.0)
    [Asn v_cp 50 (#1.9315645500243699e+02 * (#3.4090620000000000e+00 + $v_T * (#1.0738574000000001e-02 + $v_T * (#1.8914920000000000e-06 + $v_T * (#(-7.1585830000000000e-09) + #2.8673849999999999e-12 * $v_T)))))]
    [Asn v_cp 50 (#1.9315645500243699e+02 * (#5.9756700000000000e+00 + $v_T * (#8.1305909999999995e-03 + $v_T * (#(-2.7436240000000001e-06) + $v_T * (#4.0703040000000001e-10 + #(-2.1760170000000001e-14) * $v_T)))))];
  (*1476*) If ($v_T) (#1000.0)
    [Asn v_cp 51 (#1.8873701909238750e+02 * (#4.7294594999999999e+00 + $v_T * (#(-3.1932858000000000e-03) + $v_T * (#4.7534921000000002e-05 + $v_T * (#(-5.7458610999999997e-08) + #2.1931112000000001e-11 * $v_T)))))]
    [Asn v_cp 51 (#1.8873701909238750e+02 * (#5.4041107999999998e+00 + $v_T * (#1.1723058999999999e-02 + $v_T * (#(-4.2263136999999998e-06) + $v_T * (#6.8372451000000002e-10 + #(-4.0984863000000001e-14) * $v_T)))))];
  (*1482*) If ($v_T) (#1000.0)
    [Asn v_cp 52 (#2.9680218594762238e+02 * (#3.2986770000000001e+00 + $v_T * (#1.4082404000000000e-03 + $v_T * (#(-3.9632219999999998e-06) + $v_T * (#5.6415150000000002e-09 + #(-2.4448539999999999e-12) * $v_T)))))]
    [Asn v_cp 52 (#2.9680218594762238e+02 * (#2.9266399999999999e+00 + $v_T * (#1.4879768000000001e-03 + $v_T * (#(-5.6847600000000001e-07) + $v_T * (#1.0097038000000000e-10 + #(-6.7533509999999998e-15) * $v_T)))))]
].

(** [eval_spec_rates], gri30/lib/src/spec_rates.c:4-3111. *)
Definition gri30_eval_spec_rates : list stmt := [
  (*7*) Do (Asn v_sp_rates 2 (#(-2.0) * (v_fwd_rates.[0] - v_rev_rates.[0]) * v_pres_mod.[0]));
  (*9*) Do (Asn v_sp_rates 3 ((v_fwd_rates.[0] - v_rev_rates.[0]) * v_pres_mod.[0]));
  (*13*) Do (Asn v_sp_rates 1 ((- (v_fwd_rates.[1] - v_rev_rates.[1])) * v_pres_mod.[1]));
  (*15*) Do (SubA v_sp_rates 2 ((v_fwd_rates.[1] - v_rev_rates.[1]) * v_pres_mod.[1]));
  (*17*) Do (Asn v_sp_rates 4 ((v_fwd_rates.[1] - v_rev_rates.[1]) * v_pres_mod.[1]));
  (*21*) Do (Asn v_sp_rates 0 ((- (v_fwd_rates.[2] - v_rev_rates.[2]))));
  (*23*) Do (AddA v_sp_rates 1 (v_fwd_rates.[2] - v_rev_rates.[2]));
  (*25*) Do (SubA v_sp_rates 2 (v_fwd_rates.[2] - v_rev_rates.[2]));
  (*27*) Do (AddA v_sp_rates 4 (v_fwd_rates.[2] - v_rev_rates.[2]));
  (*31*) Do (SubA v_sp_rates 2 (v_fwd_rates.[3] - v_rev_rates.[3]));
  (*33*) Do (AddA v_sp_rates 3 (v_fwd_rates.[3] - v_rev_rates.[3]));
  (*35*) Do (AddA v_sp_rates 4 (v_fwd_rates.[3] - v_rev_rates.[3]));
  (*37*) Do (Asn v_sp_rates 6 ((- (v_fwd_rates.[3] - v_rev_rates.[3]))));
  (*41*) Do (SubA v_sp_rates 2 (v_fwd_rates.[4] - v_rev_rates.[4]));
  (*43*) Do (AddA v_sp_rates 4 (v_fwd_rates.[4] - v_rev_rates.[4]));
  (*45*) Do (AddA v_sp_rates 6 (v_fwd_rates.[4] - v_rev_rates.[4]));
  (*47*) Do (Asn v_sp_rates 7 ((- (v_fwd_rates.[4] - v_rev_rates.[4]))));
  (*51*) Do (Asn v_sp_rates 9 ((- (v_fwd_rates.[5] - v_rev_rates.[5]))));
  (*53*) Do (SubA v_sp_rates 2 (v_fwd_rates.[5] - v_rev_rates.[5]));
  (*55*) Do (Asn v_sp_rates 14 (v_fwd_rates.[5] - v_rev_rates.[5]));
  (*57*) Do (AddA v_sp_rates 1 (v_fwd_rates.[5] - v_rev_rates.[5]));
  (*61*) Do (Asn v_sp_rates 16 (v_fwd_rates.[6] - v_rev_rates.[6]));
  (*63*) Do (AddA v_sp_rates 1 (v_fwd_rates.[6] - v_rev_rates.[6]));
  (*65*) Do (Asn v_sp_rates 10 ((- (v_fwd_rates.[6] - v_rev_rates.[6]))));
  (*67*) Do (SubA v_sp_rates 2 (v_fwd_rates.[6] - v_rev_rates.[6]));
  (*71*) Do (AddA v_sp_rates 0 (v_fwd_rates.[7] - v_rev_rates.[7]));
  (*73*) Do (SubA v_sp_rates 2 (v_fwd_rates.[7] - v_rev_rates.[7]));
  (*75*) Do (Asn v_sp_rates 11 ((- (v_fwd_rates.[7] - v_rev_rates.[7]))));
  (*77*) Do (AddA v_sp_rates 14 (v_fwd_rates.[7] - v_rev_rates.[7]));
  (*81*) Do (AddA v_sp_rates 16 (v_fwd_rates.[8] - v_rev_rates.[8]));
  (*83*) Do (AddA v_sp_rates 1 (v_fwd_rates.[8] - v_rev_rates.[8]));
  (*85*) Do (SubA v_sp_rates 2 (v_fwd_rates.[8] - v_rev_rates.[8]));
  (*87*) Do (SubA v_sp_rates 11 (v_fwd_rates.[8] - v_rev_rates.[8]));
  (*91*) Do (Asn v_sp_rates 17 (v_fwd_rates.[9] - v_rev_rates.[9]));
  (*93*) Do (SubA v_sp_rates 2 (v_fwd_rates.[9] - v_rev_rates.[9]));
  (*95*) Do (Asn v_sp_rates 12 ((- (v_fwd_rates.[9] - v_rev_rates.[9]))));
  (*97*) Do (AddA v_sp_rates 1 (v_fwd_rates.[9] - v_rev_rates.[9]));
  (*101*) Do (AddA v_sp_rates 4 (v_fwd_rates.[10] - v_rev_rates.[10]));
  (*103*) Do (SubA v_sp_rates 2 (v_fwd_rates.[10] - v_rev_rates.[10]));
  (*105*) Do (AddA v_sp_rates 12 (v_fwd_rates.[10] - v_rev_rates.[10]));
  (*107*) Do (Asn v_sp_rates 13 ((- (v_fwd_rates.[10] - v_rev_rates.[10]))));
  (*111*) Do (SubA v_sp_rates 2 ((v_fwd_rates.[11] - v_rev_rates.[11]) * v_pres_mod.[2]));
  (*113*) Do (SubA v_sp_rates 14 ((v_fwd_rates.[11] - v_rev_rates.[11]) * v_pres_mod.[2]));
  (*115*) Do (Asn v_sp_rates 15 ((v_fwd_rates.[11] - v_rev_rates.[11]) * v_pres_mod.[2]));
  (*119*) Do (SubA v_sp_rates 16 (v_fwd_rates.[12] - v_rev_rates.[12]));
  (*121*) Do (SubA v_sp_rates 2 (v_fwd_rates.[12] - v_rev_rates.[12]));
  (*123*) Do (AddA v_sp_rates 4 (v_fwd_rates.[12] - v_rev_rates.[12]));
  (*125*) Do (AddA v_sp_rates 14 (v_fwd_rates.[12] - v_rev_rates.[12]));
  (*129*) Do (SubA v_sp_rates 16 (v_fwd_rates.[13] - v_rev_rates.[13]));
  (*131*) Do (AddA v_sp_rates 1 (v_fwd_rates.[13] - v_rev_rates.[13]));
  (*133*) Do (SubA v_sp_rates 2 (v_fwd_rates.[13] - v_rev_rates.[13]));
  (*135*) Do (AddA v_sp_rates 15 (v_fwd_rates.[13] - v_rev_rates.[13]));
  (*139*) Do (AddA v_sp_rates 16 (v_fwd_rates.[14] - v_rev_rates.[14]));
  (*141*) Do (SubA v_sp_rates 17 (v_fwd_rates.[14] - v_rev_rates.[14]));
  (*143*) Do (SubA v_sp_rates 2 (v_fwd_rates.[14] - v_rev_rates.[14]));
  (*145*) Do (AddA v_sp_rates 4 (v_fwd_rates.[14] - v_rev_rates.[14]));
  (*149*) Do (AddA v_sp_rates 17 (v_fwd_rates.[15] - v_rev_rates.[15]));
  (*151*) Do (Asn v_sp_rates 18 ((- (v_fwd_rates.[15] - v_rev_rates.[15]))));
  (*153*) Do (AddA v_sp_rates 4 (v_fwd_rates.[15] - v_rev_rates.[15]));
  (*155*) Do (SubA v_sp_rates 2 (v_fwd_rates.[15] - v_rev_rates.[15]));
  (*159*) Do (AddA v_sp_rates 17 (v_fwd_rates.[16] - v_rev_rates.[16]));
  (*161*) Do (SubA v_sp_rates 2 (v_fwd_rates.[16] - v_rev_rates.[16]));
  (*163*) Do (Asn v_sp_rates 19 ((- (v_fwd_rates.[16] - v_rev_rates.[16]))));
  (*165*) Do (AddA v_sp_rates 4 (v_fwd_rates.[16] - v_rev_rates.[16]));
  (*169*) Do (AddA v_sp_rates 4 (v_fwd_rates.[17] - v_rev_rates.[17]));
  (*171*) Do (SubA v_sp_rates 2 (v_fwd_rates.[17] - v_rev_rates.[17]));
  (*173*) Do (Asn v_sp_rates 20 ((- (v_fwd_rates.[17] - v_rev_rates.[17]))));
  (*175*) Do (AddA v_sp_rates 18 (v_fwd_rates.[17] - v_rev_rates.[17]));
  (*179*) Do (AddA v_sp_rates 4 (v_fwd_rates.[18] - v_rev_rates.[18]));
  (*181*) Do (SubA v_sp_rates 2 (v_fwd_rates.[18] - v_rev_rates.[18]));
  (*183*) Do (AddA v_sp_rates 19 (v_fwd_rates.[18] - v_rev_rates.[18]));
  (*185*) Do (SubA v_sp_rates 20 (v_fwd_rates.[18] - v_rev_rates.[18]));
  (*189*) Do (AddA v_sp_rates 9 (v_fwd_rates.[19] - v_rev_rates.[19]));
  (*191*) Do (SubA v_sp_rates 2 (v_fwd_rates.[19] - v_rev_rates.[19]));
  (*193*) Do (Asn v_sp_rates 21 ((- (v_fwd_rates.[19] - v_rev_rates.[19]))));
  (*195*) Do (AddA v_sp_rates 14 (v_fwd_rates.[19] - v_rev_rates.[19]));
  (*199*) Do (AddA v_sp_rates 1 (v_fwd_rates.[20] - v_rev_rates.[20]));
  (*201*) Do (SubA v_sp_rates 2 (v_fwd_rates.[20] - v_rev_rates.[20]));
  (*203*) Do (Asn v_sp_rates 27 (v_fwd_rates.[20] - v_rev_rates.[20]));
  (*205*) Do (Asn v_sp_rates 22 ((- (v_fwd_rates.[20] - v_rev_rates.[20]))));
  (*209*) Do (SubA v_sp_rates 2 (v_fwd_rates.[21] - v_rev_rates.[21]));
  (*211*) Do (AddA v_sp_rates 4 (v_fwd_rates.[21] - v_rev_rates.[21]));
  (*213*) Do (AddA v_sp_rates 21 (v_fwd_rates.[21] - v_rev_rates.[21]));
  (*215*) Do (SubA v_sp_rates 22 (v_fwd_rates.[21] - v_rev_rates.[21]));
  (*219*) Do (SubA v_sp_rates 2 (v_fwd_rates.[22] - v_rev_rates.[22]));
  (*221*) Do (AddA v_sp_rates 14 (v_fwd_rates.[22] - v_rev_rates.[22]));
  (*223*) Do (AddA v_sp_rates 10 (v_fwd_rates.[22] - v_rev_rates.[22]));
  (*225*) Do (SubA v_sp_rates 22 (v_fwd_rates.[22] - v_rev_rates.[22]));
  (*229*) Do (AddA v_sp_rates 1 (v_fwd_rates.[23] - v_rev_rates.[23]));
  (*231*) Do (SubA v_sp_rates 2 (v_fwd_rates.[23] - v_rev_rates.[23]));
  (*233*) Do (Asn v_sp_rates 28 (v_fwd_rates.[23] - v_rev_rates.[23]));
  (*235*) Do (Asn v_sp_rates 23 ((- (v_fwd_rates.[23] - v_rev_rates.[23]))));
  (*239*) Do (Asn v_sp_rates 24 ((- (v_fwd_rates.[24] - v_rev_rates.[24]))));
  (*241*) Do (AddA v_sp_rates 16 (v_fwd_rates.[24] - v_rev_rates.[24]));
  (*243*) Do (SubA v_sp_rates 2 (v_fwd_rates.[24] - v_rev_rates.[24]));
  (*245*) Do (AddA v_sp_rates 12 (v_fwd_rates.[24] - v_rev_rates.[24]));
  (*249*) Do (Asn v_sp_rates 25 ((- (v_fwd_rates.[25] - v_rev_rates.[25]))));
  (*251*) Do (SubA v_sp_rates 2 (v_fwd_rates.[25] - v_rev_rates.[25]));
  (*253*) Do (AddA v_sp_rates 12 (v_fwd_rates.[25] - v_rev_rates.[25]));
  (*255*) Do (AddA v_sp_rates 17 (v_fwd_rates.[25] - v_rev_rates.[25]));
  (*259*) Do (AddA v_sp_rates 25 (v_fwd_rates.[26] - v_rev_rates.[26]));
  (*261*) Do (Asn v_sp_rates 26 ((- (v_fwd_rates.[26] - v_rev_rates.[26]))));
  (*263*) Do (AddA v_sp_rates 4 (v_fwd_rates.[26] - v_rev_rates.[26]));
  (*265*) Do (SubA v_sp_rates 2 (v_fwd_rates.[26] - v_rev_rates.[26]));
  (*269*) Do (AddA v_sp_rates 1 (v_fwd_rates.[27] - v_rev_rates.[27]));
  (*271*) Do (SubA v_sp_rates 2 (v_fwd_rates.[27] - v_rev_rates.[27]));
  (*273*) Do (SubA v_sp_rates 27 (v_fwd_rates.[27] - v_rev_rates.[27]));
  (*275*) Do (AddA v_sp_rates 14 (#2.0 * (v_fwd_rates.[27] - v_rev_rates.[27])));
  (*279*) Do (AddA v_sp_rates 4 (v_fwd_rates.[28] - v_rev_rates.[28]));
  (*281*) Do (SubA v_sp_rates 2 (v_fwd_rates.[28] - v_rev_rates.[28]));
  (*283*) Do (AddA v_sp_rates 27 (v_fwd_rates.[28] - v_rev_rates.[28]));
  (*285*) Do (SubA v_sp_rates 28 (v_fwd_rates.[28] - v_rev_rates.[28]));
  (*289*) Do (SubA v_sp_rates 2 (v_fwd_rates.[29] - v_rev_rates.[29]));
  (*291*) Do (SubA v_sp_rates 28 (v_fwd_rates.[29] - v_rev_rates.[29]));
  (*293*) Do (AddA v_sp_rates 10 (v_fwd_rates.[29] - v_rev_rates.[29]));
  (*295*) Do (AddA v_sp_rates 15 (v_fwd_rates.[29] - v_rev_rates.[29]));
  (*299*) Do (AddA v_sp_rates 2 (v_fwd_rates.[30] - v_rev_rates.[30]));
  (*301*) Do (SubA v_sp_rates 3 (v_fwd_rates.[30] - v_rev_rates.[30]));
  (*303*) Do (SubA v_sp_rates 14 (v_fwd_rates.[30] - v_rev_rates.[30]));
  (*305*) Do (AddA v_sp_rates 15 (v_fwd_rates.[30] - v_rev_rates.[30]));
  (*309*) Do (AddA v_sp_rates 16 (v_fwd_rates.[31] - v_rev_rates.[31]));
  (*311*) Do (SubA v_sp_rates 17 (v_fwd_rates.[31] - v_rev_rates.[31]));
  (*313*) Do (SubA v_sp_rates 3 (v_fwd_rates.[31] - v_rev_rates.[31]));
  (*315*) Do (AddA v_sp_rates 6 (v_fwd_rates.[31] - v_rev_rates.[31]));
  (*319*) Do (SubA v_sp_rates 1 ((v_fwd_rates.[32] - v_rev_rates.[32]) * v_pres_mod.[3]));
  (*321*) Do (SubA v_sp_rates 3 ((v_fwd_rates.[32] - v_rev_rates.[32]) * v_pres_mod.[3]));
  (*323*) Do (AddA v_sp_rates 6 ((v_fwd_rates.[32] - v_rev_rates.[32]) * v_pres_mod.[3]));
  (*327*) Do (SubA v_sp_rates 1 (v_fwd_rates.[33] - v_rev_rates.[33]));
  (*329*) Do (SubA v_sp_rates 3 (v_fwd_rates.[33] - v_rev_rates.[33]));
  (*331*) Do (AddA v_sp_rates 6 (v_fwd_rates.[33] - v_rev_rates.[33]));
  (*335*) Do (SubA v_sp_rates 1 (v_fwd_rates.[34] - v_rev_rates.[34]));
  (*337*) Do (SubA v_sp_rates 3 (v_fwd_rates.[34] - v_rev_rates.[34]));
  (*339*) Do (AddA v_sp_rates 6 (v_fwd_rates.[34] - v_rev_rates.[34]));
  (*343*) Do (SubA v_sp_rates 1 (v_fwd_rates.[35] - v_rev_rates.[35]));
  (*345*) Do (SubA v_sp_rates 3 (v_fwd_rates.[35] - v_rev_rates.[35]));
  (*347*) Do (AddA v_sp_rates 6 (v_fwd_rates.[35] - v_rev_rates.[35]));
  (*351*) Do (SubA v_sp_rates 1 (v_fwd_rates.[36] - v_rev_rates.[36]));
  (*353*) Do (SubA v_sp_rates 3 (v_fwd_rates.[36] - v_rev_rates.[36]));
  (*355*) Do (AddA v_sp_rates 6 (v_fwd_rates.[36] - v_rev_rates.[36]));
  (*359*) Do (SubA v_sp_rates 1 (v_fwd_rates.[37] - v_rev_rates.[37]));
  (*361*) Do (AddA v_sp_rates 2 (v_fwd_rates.[37] - v_rev_rates.[37]));
  (*363*) Do (SubA v_sp_rates 3 (v_fwd_rates.[37] - v_rev_rates.[37]));
  (*365*) Do (AddA v_sp_rates 4 (v_fwd_rates.[37] - v_rev_rates.[37]));
  (*369*) Do (AddA v_sp_rates 0 ((v_fwd_rates.[38] - v_rev_rates.[38]) * v_pres_mod.[4]));
  (*371*) Do (SubA v_sp_rates 1 (#2.0 * (v_fwd_rates.[38] - v_rev_rates.[38]) * v_pres_mod.[4]));
  (*375*) Do (AddA v_sp_rates 0 (v_fwd_rates.[39] - v_rev_rates.[39]));
  (*377*) Do (SubA v_sp_rates 1 (#2.0 * (v_fwd_rates.[39] - v_rev_rates.[39])));
  (*381*) Do (AddA v_sp_rates 0 (v_fwd_rates.[40] - v_rev_rates.[40]));
  (*383*) Do (SubA v_sp_rates 1 (#2.0 * (v_fwd_rates.[40] - v_rev_rates.[40])));
  (*387*) Do (AddA v_sp_rates 0 (v_fwd_rates.[41] - v_rev_rates.[41]));
  (*389*) Do (SubA v_sp_rates 1 (#2.0 * (v_fwd_rates.[41] - v_rev_rates.[41])));
  (*393*) Do (SubA v_sp_rates 1 ((v_fwd_rates.[42] - v_rev_rates.[42]) * v_pres_mod.[5]));
  (*395*) Do (SubA v_sp_rates 4 ((v_fwd_rates.[42] - v_rev_rates.[42]) * v_pres_mod.[5]));
  (*397*) Do (Asn v_sp_rates 5 ((v_fwd_rates.[42] - v_rev_rates.[42]) * v_pres_mod.[5]));
  (*401*) Do (SubA v_sp_rates 1 (v_fwd_rates.[43] - v_rev_rates.[43]));
  (*403*) Do (AddA v_sp_rates 2 (v_fwd_rates.[43] - v_rev_rates.[43]));
  (*405*) Do (AddA v_sp_rates 5 (v_fwd_rates.[43] - v_rev_rates.[43]));
  (*407*) Do (SubA v_sp_rates 6 (v_fwd_rates.[43] - v_rev_rates.[43]));
  (*411*) Do (AddA v_sp_rates 0 (v_fwd_rates.[44] - v_rev_rates.[44]));
  (*413*) Do (SubA v_sp_rates 1 (v_fwd_rates.[44] - v_rev_rates.[44]));
  (*415*) Do (AddA v_sp_rates 3 (v_fwd_rates.[44] - v_rev_rates.[44]));
  (*417*) Do (SubA v_sp_rates 6 (v_fwd_rates.[44] - v_rev_rates.[44]));
  (*421*) Do (SubA v_sp_rates 1 (v_fwd_rates.[45] - v_rev_rates.[45]));
  (*423*) Do (AddA v_sp_rates 4 (#2.0 * (v_fwd_rates.[45] - v_rev_rates.[45])));
  (*425*) Do (SubA v_sp_rates 6 (v_fwd_rates.[45] - v_rev_rates.[45]));
  (*429*) Do (AddA v_sp_rates 0 (v_fwd_rates.[46] - v_rev_rates.[46]));
  (*431*) Do (SubA v_sp_rates 1 (v_fwd_rates.[46] - v_rev_rates.[46]));
  (*433*) Do (AddA v_sp_rates 6 (v_fwd_rates.[46] - v_rev_rates.[46]));
  (*435*) Do (SubA v_sp_rates 7 (v_fwd_rates.[46] - v_rev_rates.[46]));
  (*439*) Do (SubA v_sp_rates 1 (v_fwd_rates.[47] - v_rev_rates.[47]));
  (*441*) Do (AddA v_sp_rates 4 (v_fwd_rates.[47] - v_rev_rates.[47]));
  (*443*) Do (AddA v_sp_rates 5 (v_fwd_rates.[47] - v_rev_rates.[47]));
  (*445*) Do (SubA v_sp_rates 7 (v_fwd_rates.[47] - v_rev_rates.[47]));
  (*449*) Do (AddA v_sp_rates 0 (v_fwd_rates.[48] - v_rev_rates.[48]));
  (*451*) Do (SubA v_sp_rates 1 (v_fwd_rates.[48] - v_rev_rates.[48]));
  (*453*) Do (Asn v_sp_rates 8 (v_fwd_rates.[48] - v_rev_rates.[48]));
  (*455*) Do (SubA v_sp_rates 9 (v_fwd_rates.[48] - v_rev_rates.[48]));
  (*459*) Do (SubA v_sp_rates 1 ((v_fwd_rates.[49] - v_rev_rates.[49]) * v_pres_mod.[6]));
  (*461*) Do (SubA v_sp_rates 10 ((v_fwd_rates.[49] - v_rev_rates.[49]) * v_pres_mod.[6]));
  (*463*) Do (AddA v_sp_rates 12 ((v_fwd_rates.[49] - v_rev_rates.[49]) * v_pres_mod.[6]));
  (*467*) Do (AddA v_sp_rates 0 (v_fwd_rates.[50] - v_rev_rates.[50]));
  (*469*) Do (SubA v_sp_rates 1 (v_fwd_rates.[50] - v_rev_rates.[50]));
  (*471*) Do (SubA v_sp_rates 11 (v_fwd_rates.[50] - v_rev_rates.[50]));
  (*473*) Do (AddA v_sp_rates 9 (v_fwd_rates.[50] - v_rev_rates.[50]));
  (*477*) Do (SubA v_sp_rates 1 ((v_fwd_rates.[51] - v_rev_rates.[51]) * v_pres_mod.[7]));
  (*479*) Do (SubA v_sp_rates 12 ((v_fwd_rates.[51] - v_rev_rates.[51]) * v_pres_mod.[7]));
  (*481*) Do (AddA v_sp_rates 13 ((v_fwd_rates.[51] - v_rev_rates.[51]) * v_pres_mod.[7]));
  (*485*) Do (AddA v_sp_rates 0 (v_fwd_rates.[52] - v_rev_rates.[52]));
  (*487*) Do (SubA v_sp_rates 1 (v_fwd_rates.[52] - v_rev_rates.[52]));
  (*489*) Do (AddA v_sp_rates 12 (v_fwd_rates.[52] - v_rev_rates.[52]));
  (*491*) Do (SubA v_sp_rates 13 (v_fwd_rates.[52] - v_rev_rates.[52]));
  (*495*) Do (SubA v_sp_rates 16 ((v_fwd_rates.[53] - v_rev_rates.[53]) * v_pres_mod.[8]));
  (*497*) Do (SubA v_sp_rates 1 ((v_fwd_rates.[53] - v_rev_rates.[53]) * v_pres_mod.[8]));
  (*499*) Do (AddA v_sp_rates 17 ((v_fwd_rates.[53] - v_rev_rates.[53]) * v_pres_mod.[8]));
  (*503*) Do (SubA v_sp_rates 16 (v_fwd_rates.[54] - v_rev_rates.[54]));
  (*505*) Do (SubA v_sp_rates 1 (v_fwd_rates.[54] - v_rev_rates.[54]));
  (*507*) Do (AddA v_sp_rates 14 (v_fwd_rates.[54] - v_rev_rates.[54]));
  (*509*) Do (AddA v_sp_rates 0 (v_fwd_rates.[54] - v_rev_rates.[54]));
  (*513*) Do (SubA v_sp_rates 17 ((v_fwd_rates.[55] - v_rev_rates.[55]) * v_pres_mod.[9]));
  (*515*) Do (AddA v_sp_rates 18 ((v_fwd_rates.[55] - v_rev_rates.[55]) * v_pres_mod.[9]));
  (*517*) Do (SubA v_sp_rates 1 ((v_fwd_rates.[55] - v_rev_rates.[55]) * v_pres_mod.[9]));
  (*521*) Do (SubA v_sp_rates 17 ((v_fwd_rates.[56] - v_rev_rates.[56]) * v_pres_mod.[10]));
  (*523*) Do (AddA v_sp_rates 19 ((v_fwd_rates.[56] - v_rev_rates.[56]) * v_pres_mod.[10]));
  (*525*) Do (SubA v_sp_rates 1 ((v_fwd_rates.[56] - v_rev_rates.[56]) * v_pres_mod.[10]));
  (*529*) Do (AddA v_sp_rates 0 (v_fwd_rates.[57] - v_rev_rates.[57]));
  (*531*) Do (SubA v_sp_rates 17 (v_fwd_rates.[57] - v_rev_rates.[57]));
  (*533*) Do (AddA v_sp_rates 16 (v_fwd_rates.[57] - v_rev_rates.[57]));
  (*535*) Do (SubA v_sp_rates 1 (v_fwd_rates.[57] - v_rev_rates.[57]));
  (*539*) Do (SubA v_sp_rates 1 ((v_fwd_rates.[58] - v_rev_rates.[58]) * v_pres_mod.[11]));
  (*541*) Do (SubA v_sp_rates 18 ((v_fwd_rates.[58] - v_rev_rates.[58]) * v_pres_mod.[11]));
  (*543*) Do (AddA v_sp_rates 20 ((v_fwd_rates.[58] - v_rev_rates.[58]) * v_pres_mod.[11]));
  (*547*) Do (AddA v_sp_rates 0 (v_fwd_rates.[59] - v_rev_rates.[59]));
  (*549*) Do (SubA v_sp_rates 1 (v_fwd_rates.[59] - v_rev_rates.[59]));
  (*551*) Do (SubA v_sp_rates 18 (v_fwd_rates.[59] - v_rev_rates.[59]));
  (*553*) Do (AddA v_sp_rates 17 (v_fwd_rates.[59] - v_rev_rates.[59]));
  (*557*) Do (SubA v_sp_rates 1 (v_fwd_rates.[60] - v_rev_rates.[60]));
  (*559*) Do (SubA v_sp_rates 18 (v_fwd_rates.[60] - v_rev_rates.[60]));
  (*561*) Do (AddA v_sp_rates 12 (v_fwd_rates.[60] - v_rev_rates.[60]));
  (*563*) Do (AddA v_sp_rates 4 (v_fwd_rates.[60] - v_rev_rates.[60]));
  (*567*) Do (SubA v_sp_rates 1 (v_fwd_rates.[61] - v_rev_rates.[61]));
  (*569*) Do (SubA v_sp_rates 18 (v_fwd_rates.[61] - v_rev_rates.[61]));
  (*571*) Do (AddA v_sp_rates 11 (v_fwd_rates.[61] - v_rev_rates.[61]));
  (*573*) Do (AddA v_sp_rates 5 (v_fwd_rates.[61] - v_rev_rates.[61]));
  (*577*) Do (SubA v_sp_rates 1 ((v_fwd_rates.[62] - v_rev_rates.[62]) * v_pres_mod.[12]));
  (*579*) Do (SubA v_sp_rates 19 ((v_fwd_rates.[62] - v_rev_rates.[62]) * v_pres_mod.[12]));
  (*581*) Do (AddA v_sp_rates 20 ((v_fwd_rates.[62] - v_rev_rates.[62]) * v_pres_mod.[12]));
  (*585*) Do (AddA v_sp_rates 18 (v_fwd_rates.[63] - v_rev_rates.[63]));
  (*587*) Do (SubA v_sp_rates 19 (v_fwd_rates.[63] - v_rev_rates.[63]));
  (*591*) Do (AddA v_sp_rates 0 (v_fwd_rates.[64] - v_rev_rates.[64]));
  (*593*) Do (SubA v_sp_rates 1 (v_fwd_rates.[64] - v_rev_rates.[64]));
  (*595*) Do (SubA v_sp_rates 19 (v_fwd_rates.[64] - v_rev_rates.[64]));
  (*597*) Do (AddA v_sp_rates 17 (v_fwd_rates.[64] - v_rev_rates.[64]));
  (*601*) Do (SubA v_sp_rates 1 (v_fwd_rates.[65] - v_rev_rates.[65]));
  (*603*) Do (SubA v_sp_rates 19 (v_fwd_rates.[65] - v_rev_rates.[65]));
  (*605*) Do (AddA v_sp_rates 12 (v_fwd_rates.[65] - v_rev_rates.[65]));
  (*607*) Do (AddA v_sp_rates 4 (v_fwd_rates.[65] - v_rev_rates.[65]));
  (*611*) Do (AddA v_sp_rates 11 (v_fwd_rates.[66] - v_rev_rates.[66]));
  (*613*) Do (SubA v_sp_rates 1 (v_fwd_rates.[66] - v_rev_rates.[66]));
  (*615*) Do (SubA v_sp_rates 19 (v_fwd_rates.[66] - v_rev_rates.[66]));
  (*617*) Do (AddA v_sp_rates 5 (v_fwd_rates.[66] - v_rev_rates.[66]));
  (*621*) Do (AddA v_sp_rates 0 (v_fwd_rates.[67] - v_rev_rates.[67]));
  (*623*) Do (SubA v_sp_rates 1 (v_fwd_rates.[67] - v_rev_rates.[67]));
  (*625*) Do (AddA v_sp_rates 18 (v_fwd_rates.[67] - v_rev_rates.[67]));
  (*627*) Do (SubA v_sp_rates 20 (v_fwd_rates.[67] - v_rev_rates.[67]));
  (*631*) Do (AddA v_sp_rates 0 (v_fwd_rates.[68] - v_rev_rates.[68]));
  (*633*) Do (SubA v_sp_rates 1 (v_fwd_rates.[68] - v_rev_rates.[68]));
  (*635*) Do (AddA v_sp_rates 19 (v_fwd_rates.[68] - v_rev_rates.[68]));
  (*637*) Do (SubA v_sp_rates 20 (v_fwd_rates.[68] - v_rev_rates.[68]));
  (*641*) Do (SubA v_sp_rates 1 ((v_fwd_rates.[69] - v_rev_rates.[69]) * v_pres_mod.[13]));
  (*643*) Do (SubA v_sp_rates 21 ((v_fwd_rates.[69] - v_rev_rates.[69]) * v_pres_mod.[13]));
  (*645*) Do (AddA v_sp_rates 22 ((v_fwd_rates.[69] - v_rev_rates.[69]) * v_pres_mod.[13]));
  (*649*) Do (SubA v_sp_rates 1 ((v_fwd_rates.[70] - v_rev_rates.[70]) * v_pres_mod.[14]));
  (*651*) Do (SubA v_sp_rates 22 ((v_fwd_rates.[70] - v_rev_rates.[70]) * v_pres_mod.[14]));
  (*653*) Do (AddA v_sp_rates 23 ((v_fwd_rates.[70] - v_rev_rates.[70]) * v_pres_mod.[14]));
  (*657*) Do (AddA v_sp_rates 24 ((v_fwd_rates.[71] - v_rev_rates.[71]) * v_pres_mod.[15]));
  (*659*) Do (SubA v_sp_rates 1 ((v_fwd_rates.[71] - v_rev_rates.[71]) * v_pres_mod.[15]));
  (*661*) Do (SubA v_sp_rates 23 ((v_fwd_rates.[71] - v_rev_rates.[71]) * v_pres_mod.[15]));
  (*665*) Do (AddA v_sp_rates 0 (v_fwd_rates.[72] - v_rev_rates.[72]));
  (*667*) Do (SubA v_sp_rates 1 (v_fwd_rates.[72] - v_rev_rates.[72]));
  (*669*) Do (AddA v_sp_rates 22 (v_fwd_rates.[72] - v_rev_rates.[72]));
  (*671*) Do (SubA v_sp_rates 23 (v_fwd_rates.[72] - v_rev_rates.[72]));
  (*675*) Do (SubA v_sp_rates 24 ((v_fwd_rates.[73] - v_rev_rates.[73]) * v_pres_mod.[16]));
  (*677*) Do (SubA v_sp_rates 1 ((v_fwd_rates.[73] - v_rev_rates.[73]) * v_pres_mod.[16]));
  (*679*) Do (AddA v_sp_rates 25 ((v_fwd_rates.[73] - v_rev_rates.[73]) * v_pres_mod.[16]));
  (*683*) Do (SubA v_sp_rates 24 (v_fwd_rates.[74] - v_rev_rates.[74]));
  (*685*) Do (SubA v_sp_rates 1 (v_fwd_rates.[74] - v_rev_rates.[74]));
  (*687*) Do (AddA v_sp_rates 0 (v_fwd_rates.[74] - v_rev_rates.[74]));
  (*689*) Do (AddA v_sp_rates 23 (v_fwd_rates.[74] - v_rev_rates.[74]));
  (*693*) Do (SubA v_sp_rates 1 ((v_fwd_rates.[75] - v_rev_rates.[75]) * v_pres_mod.[17]));
  (*695*) Do (AddA v_sp_rates 26 ((v_fwd_rates.[75] - v_rev_rates.[75]) * v_pres_mod.[17]));
  (*697*) Do (SubA v_sp_rates 25 ((v_fwd_rates.[75] - v_rev_rates.[75]) * v_pres_mod.[17]));
  (*701*) Do (AddA v_sp_rates 0 (v_fwd_rates.[76] - v_rev_rates.[76]));
  (*703*) Do (SubA v_sp_rates 1 (v_fwd_rates.[76] - v_rev_rates.[76]));
  (*705*) Do (AddA v_sp_rates 24 (v_fwd_rates.[76] - v_rev_rates.[76]));
  (*707*) Do (SubA v_sp_rates 25 (v_fwd_rates.[76] - v_rev_rates.[76]));
  (*711*) Do (AddA v_sp_rates 0 (v_fwd_rates.[77] - v_rev_rates.[77]));
  (*713*) Do (SubA v_sp_rates 1 (v_fwd_rates.[77] - v_rev_rates.[77]));
  (*715*) Do (SubA v_sp_rates 26 (v_fwd_rates.[77] - v_rev_rates.[77]));
  (*717*) Do (AddA v_sp_rates 25 (v_fwd_rates.[77] - v_rev_rates.[77]));
  (*721*) Do (AddA v_sp_rates 11 (v_fwd_rates.[78] - v_rev_rates.[78]));
  (*723*) Do (SubA v_sp_rates 1 (v_fwd_rates.[78] - v_rev_rates.[78]));
  (*725*) Do (SubA v_sp_rates 27 (v_fwd_rates.[78] - v_rev_rates.[78]));
  (*727*) Do (AddA v_sp_rates 14 (v_fwd_rates.[78] - v_rev_rates.[78]));
  (*731*) Do (AddA v_sp_rates 0 (v_fwd_rates.[79] - v_rev_rates.[79]));
  (*733*) Do (SubA v_sp_rates 1 (v_fwd_rates.[79] - v_rev_rates.[79]));
  (*735*) Do (AddA v_sp_rates 27 (v_fwd_rates.[79] - v_rev_rates.[79]));
  (*737*) Do (SubA v_sp_rates 28 (v_fwd_rates.[79] - v_rev_rates.[79]));
  (*741*) Do (SubA v_sp_rates 1 (v_fwd_rates.[80] - v_rev_rates.[80]));
  (*743*) Do (SubA v_sp_rates 28 (v_fwd_rates.[80] - v_rev_rates.[80]));
  (*745*) Do (AddA v_sp_rates 14 (v_fwd_rates.[80] - v_rev_rates.[80]));
  (*747*) Do (AddA v_sp_rates 12 (v_fwd_rates.[80] - v_rev_rates.[80]));
  (*751*) Do (AddA v_sp_rates 28 (v_fwd_rates.[81] - v_rev_rates.[81]));
  (*753*) Do (Asn v_sp_rates 29 ((- (v_fwd_rates.[81] - v_rev_rates.[81]))));
  (*757*) Do (SubA v_sp_rates 0 ((v_fwd_rates.[82] - v_rev_rates.[82]) * v_pres_mod.[18]));
  (*759*) Do (AddA v_sp_rates 17 ((v_fwd_rates.[82] - v_rev_rates.[82]) * v_pres_mod.[18]));
  (*761*) Do (SubA v_sp_rates 14 ((v_fwd_rates.[82] - v_rev_rates.[82]) * v_pres_mod.[18]));
  (*765*) Do (SubA v_sp_rates 0 (v_fwd_rates.[83] - v_rev_rates.[83]));
  (*767*) Do (AddA v_sp_rates 1 (v_fwd_rates.[83] - v_rev_rates.[83]));
  (*769*) Do (SubA v_sp_rates 4 (v_fwd_rates.[83] - v_rev_rates.[83]));
  (*771*) Do (AddA v_sp_rates 5 (v_fwd_rates.[83] - v_rev_rates.[83]));
  (*775*) Do (SubA v_sp_rates 4 (#2.0 * (v_fwd_rates.[84] - v_rev_rates.[84]) * v_pres_mod.[19]));
  (*777*) Do (AddA v_sp_rates 7 ((v_fwd_rates.[84] - v_rev_rates.[84]) * v_pres_mod.[19]));
  (*781*) Do (AddA v_sp_rates 2 (v_fwd_rates.[85] - v_rev_rates.[85]));
  (*783*) Do (SubA v_sp_rates 4 (#2.0 * (v_fwd_rates.[85] - v_rev_rates.[85])));
  (*785*) Do (AddA v_sp_rates 5 (v_fwd_rates.[85] - v_rev_rates.[85]));
  (*789*) Do (AddA v_sp_rates 3 (v_fwd_rates.[86] - v_rev_rates.[86]));
  (*791*) Do (SubA v_sp_rates 4 (v_fwd_rates.[86] - v_rev_rates.[86]));
  (*793*) Do (AddA v_sp_rates 5 (v_fwd_rates.[86] - v_rev_rates.[86]));
  (*795*) Do (SubA v_sp_rates 6 (v_fwd_rates.[86] - v_rev_rates.[86]));
  (*799*) Do (SubA v_sp_rates 4 (v_fwd_rates.[87] - v_rev_rates.[87]));
  (*801*) Do (AddA v_sp_rates 5 (v_fwd_rates.[87] - v_rev_rates.[87]));
  (*803*) Do (AddA v_sp_rates 6 (v_fwd_rates.[87] - v_rev_rates.[87]));
  (*805*) Do (SubA v_sp_rates 7 (v_fwd_rates.[87] - v_rev_rates.[87]));
  (*809*) Do (SubA v_sp_rates 4 (v_fwd_rates.[88] - v_rev_rates.[88]));
  (*811*) Do (AddA v_sp_rates 5 (v_fwd_rates.[88] - v_rev_rates.[88]));
  (*813*) Do (AddA v_sp_rates 6 (v_fwd_rates.[88] - v_rev_rates.[88]));
  (*815*) Do (SubA v_sp_rates 7 (v_fwd_rates.[88] - v_rev_rates.[88]));
  (*819*) Do (SubA v_sp_rates 8 (v_fwd_rates.[89] - v_rev_rates.[89]));
  (*821*) Do (AddA v_sp_rates 1 (v_fwd_rates.[89] - v_rev_rates.[89]));
  (*823*) Do (SubA v_sp_rates 4 (v_fwd_rates.[89] - v_rev_rates.[89]));
  (*825*) Do (AddA v_sp_rates 14 (v_fwd_rates.[89] - v_rev_rates.[89]));
  (*829*) Do (AddA v_sp_rates 16 (v_fwd_rates.[90] - v_rev_rates.[90]));
  (*831*) Do (SubA v_sp_rates 9 (v_fwd_rates.[90] - v_rev_rates.[90]));
  (*833*) Do (SubA v_sp_rates 4 (v_fwd_rates.[90] - v_rev_rates.[90]));
  (*835*) Do (AddA v_sp_rates 1 (v_fwd_rates.[90] - v_rev_rates.[90]));
  (*839*) Do (AddA v_sp_rates 17 (v_fwd_rates.[91] - v_rev_rates.[91]));
  (*841*) Do (SubA v_sp_rates 10 (v_fwd_rates.[91] - v_rev_rates.[91]));
  (*843*) Do (SubA v_sp_rates 4 (v_fwd_rates.[91] - v_rev_rates.[91]));
  (*845*) Do (AddA v_sp_rates 1 (v_fwd_rates.[91] - v_rev_rates.[91]));
  (*849*) Do (AddA v_sp_rates 9 (v_fwd_rates.[92] - v_rev_rates.[92]));
  (*851*) Do (SubA v_sp_rates 10 (v_fwd_rates.[92] - v_rev_rates.[92]));
  (*853*) Do (SubA v_sp_rates 4 (v_fwd_rates.[92] - v_rev_rates.[92]));
  (*855*) Do (AddA v_sp_rates 5 (v_fwd_rates.[92] - v_rev_rates.[92]));
  (*859*) Do (AddA v_sp_rates 17 (v_fwd_rates.[93] - v_rev_rates.[93]));
  (*861*) Do (SubA v_sp_rates 11 (v_fwd_rates.[93] - v_rev_rates.[93]));
  (*863*) Do (SubA v_sp_rates 4 (v_fwd_rates.[93] - v_rev_rates.[93]));
  (*865*) Do (AddA v_sp_rates 1 (v_fwd_rates.[93] - v_rev_rates.[93]));
  (*869*) Do (SubA v_sp_rates 4 ((v_fwd_rates.[94] - v_rev_rates.[94]) * v_pres_mod.[20]));
  (*871*) Do (SubA v_sp_rates 12 ((v_fwd_rates.[94] - v_rev_rates.[94]) * v_pres_mod.[20]));
  (*873*) Do (AddA v_sp_rates 20 ((v_fwd_rates.[94] - v_rev_rates.[94]) * v_pres_mod.[20]));
  (*877*) Do (SubA v_sp_rates 4 (v_fwd_rates.[95] - v_rev_rates.[95]));
  (*879*) Do (AddA v_sp_rates 10 (v_fwd_rates.[95] - v_rev_rates.[95]));
  (*881*) Do (SubA v_sp_rates 12 (v_fwd_rates.[95] - v_rev_rates.[95]));
  (*883*) Do (AddA v_sp_rates 5 (v_fwd_rates.[95] - v_rev_rates.[95]));
  (*887*) Do (SubA v_sp_rates 4 (v_fwd_rates.[96] - v_rev_rates.[96]));
  (*889*) Do (AddA v_sp_rates 11 (v_fwd_rates.[96] - v_rev_rates.[96]));
  (*891*) Do (SubA v_sp_rates 12 (v_fwd_rates.[96] - v_rev_rates.[96]));
  (*893*) Do (AddA v_sp_rates 5 (v_fwd_rates.[96] - v_rev_rates.[96]));
  (*897*) Do (AddA v_sp_rates 12 (v_fwd_rates.[97] - v_rev_rates.[97]));
  (*899*) Do (SubA v_sp_rates 4 (v_fwd_rates.[97] - v_rev_rates.[97]));
  (*901*) Do (SubA v_sp_rates 13 (v_fwd_rates.[97] - v_rev_rates.[97]));
  (*903*) Do (AddA v_sp_rates 5 (v_fwd_rates.[97] - v_rev_rates.[97]));
  (*907*) Do (AddA v_sp_rates 1 (v_fwd_rates.[98] - v_rev_rates.[98]));
  (*909*) Do (SubA v_sp_rates 4 (v_fwd_rates.[98] - v_rev_rates.[98]));
  (*911*) Do (SubA v_sp_rates 14 (v_fwd_rates.[98] - v_rev_rates.[98]));
  (*913*) Do (AddA v_sp_rates 15 (v_fwd_rates.[98] - v_rev_rates.[98]));
  (*917*) Do (SubA v_sp_rates 16 (v_fwd_rates.[99] - v_rev_rates.[99]));
  (*919*) Do (SubA v_sp_rates 4 (v_fwd_rates.[99] - v_rev_rates.[99]));
  (*921*) Do (AddA v_sp_rates 5 (v_fwd_rates.[99] - v_rev_rates.[99]));
  (*923*) Do (AddA v_sp_rates 14 (v_fwd_rates.[99] - v_rev_rates.[99]));
  (*927*) Do (AddA v_sp_rates 16 (v_fwd_rates.[100] - v_rev_rates.[100]));
  (*929*) Do (SubA v_sp_rates 17 (v_fwd_rates.[100] - v_rev_rates.[100]));
  (*931*) Do (SubA v_sp_rates 4 (v_fwd_rates.[100] - v_rev_rates.[100]));
  (*933*) Do (AddA v_sp_rates 5 (v_fwd_rates.[100] - v_rev_rates.[100]));
  (*937*) Do (AddA v_sp_rates 17 (v_fwd_rates.[101] - v_rev_rates.[101]));
  (*939*) Do (SubA v_sp_rates 18 (v_fwd_rates.[101] - v_rev_rates.[101]));
  (*941*) Do (SubA v_sp_rates 4 (v_fwd_rates.[101] - v_rev_rates.[101]));
  (*943*) Do (AddA v_sp_rates 5 (v_fwd_rates.[101] - v_rev_rates.[101]));
  (*947*) Do (AddA v_sp_rates 17 (v_fwd_rates.[102] - v_rev_rates.[102]));
  (*949*) Do (SubA v_sp_rates 19 (v_fwd_rates.[102] - v_rev_rates.[102]));
  (*951*) Do (SubA v_sp_rates 4 (v_fwd_rates.[102] - v_rev_rates.[102]));
  (*953*) Do (AddA v_sp_rates 5 (v_fwd_rates.[102] - v_rev_rates.[102]));
  (*957*) Do (SubA v_sp_rates 4 (v_fwd_rates.[103] - v_rev_rates.[103]));
  (*959*) Do (AddA v_sp_rates 18 (v_fwd_rates.[103] - v_rev_rates.[103]));
  (*961*) Do (SubA v_sp_rates 20 (v_fwd_rates.[103] - v_rev_rates.[103]));
  (*963*) Do (AddA v_sp_rates 5 (v_fwd_rates.[103] - v_rev_rates.[103]));
  (*967*) Do (SubA v_sp_rates 4 (v_fwd_rates.[104] - v_rev_rates.[104]));
  (*969*) Do (AddA v_sp_rates 19 (v_fwd_rates.[104] - v_rev_rates.[104]));
  (*971*) Do (SubA v_sp_rates 20 (v_fwd_rates.[104] - v_rev_rates.[104]));
  (*973*) Do (AddA v_sp_rates 5 (v_fwd_rates.[104] - v_rev_rates.[104]));
  (*977*) Do (AddA v_sp_rates 1 (v_fwd_rates.[105] - v_rev_rates.[105]));
  (*979*) Do (AddA v_sp_rates 27 (v_fwd_rates.[105] - v_rev_rates.[105]));
  (*981*) Do (SubA v_sp_rates 4 (v_fwd_rates.[105] - v_rev_rates.[105]));
  (*983*) Do (SubA v_sp_rates 21 (v_fwd_rates.[105] - v_rev_rates.[105]));
  (*987*) Do (AddA v_sp_rates 1 (v_fwd_rates.[106] - v_rev_rates.[106]));
  (*989*) Do (SubA v_sp_rates 4 (v_fwd_rates.[106] - v_rev_rates.[106]));
  (*991*) Do (SubA v_sp_rates 22 (v_fwd_rates.[106] - v_rev_rates.[106]));
  (*993*) Do (AddA v_sp_rates 28 (v_fwd_rates.[106] - v_rev_rates.[106]));
  (*997*) Do (AddA v_sp_rates 1 (v_fwd_rates.[107] - v_rev_rates.[107]));
  (*999*) Do (SubA v_sp_rates 4 (v_fwd_rates.[107] - v_rev_rates.[107]));
  (*1001*) Do (AddA v_sp_rates 29 (v_fwd_rates.[107] - v_rev_rates.[107]));
  (*1003*) Do (SubA v_sp_rates 22 (v_fwd_rates.[107] - v_rev_rates.[107]));
  (*1007*) Do (SubA v_sp_rates 4 (v_fwd_rates.[108] - v_rev_rates.[108]));
  (*1009*) Do (AddA v_sp_rates 21 (v_fwd_rates.[108] - v_rev_rates.[108]));
  (*1011*) Do (SubA v_sp_rates 22 (v_fwd_rates.[108] - v_rev_rates.[108]));
  (*1013*) Do (AddA v_sp_rates 5 (v_fwd_rates.[108] - v_rev_rates.[108]));
  (*1017*) Do (AddA v_sp_rates 12 (v_fwd_rates.[109] - v_rev_rates.[109]));
  (*1019*) Do (SubA v_sp_rates 4 (v_fwd_rates.[109] - v_rev_rates.[109]));
  (*1021*) Do (AddA v_sp_rates 14 (v_fwd_rates.[109] - v_rev_rates.[109]));
  (*1023*) Do (SubA v_sp_rates 22 (v_fwd_rates.[109] - v_rev_rates.[109]));
  (*1027*) Do (SubA v_sp_rates 4 (v_fwd_rates.[110] - v_rev_rates.[110]));
  (*1029*) Do (AddA v_sp_rates 5 (v_fwd_rates.[110] - v_rev_rates.[110]));
  (*1031*) Do (AddA v_sp_rates 22 (v_fwd_rates.[110] - v_rev_rates.[110]));
  (*1033*) Do (SubA v_sp_rates 23 (v_fwd_rates.[110] - v_rev_rates.[110]));
  (*1037*) Do (SubA v_sp_rates 24 (v_fwd_rates.[111] - v_rev_rates.[111]));
  (*1039*) Do (SubA v_sp_rates 4 (v_fwd_rates.[111] - v_rev_rates.[111]));
  (*1041*) Do (AddA v_sp_rates 5 (v_fwd_rates.[111] - v_rev_rates.[111]));
  (*1043*) Do (AddA v_sp_rates 23 (v_fwd_rates.[111] - v_rev_rates.[111]));
  (*1047*) Do (AddA v_sp_rates 25 (v_fwd_rates.[112] - v_rev_rates.[112]));
  (*1049*) Do (SubA v_sp_rates 26 (v_fwd_rates.[112] - v_rev_rates.[112]));
  (*1051*) Do (SubA v_sp_rates 4 (v_fwd_rates.[112] - v_rev_rates.[112]));
  (*1053*) Do (AddA v_sp_rates 5 (v_fwd_rates.[112] - v_rev_rates.[112]));
  (*1057*) Do (SubA v_sp_rates 4 (v_fwd_rates.[113] - v_rev_rates.[113]));
  (*1059*) Do (AddA v_sp_rates 27 (v_fwd_rates.[113] - v_rev_rates.[113]));
  (*1061*) Do (SubA v_sp_rates 28 (v_fwd_rates.[113] - v_rev_rates.[113]));
  (*1063*) Do (AddA v_sp_rates 5 (v_fwd_rates.[113] - v_rev_rates.[113]));
  (*1067*) Do (AddA v_sp_rates 3 (v_fwd_rates.[114] - v_rev_rates.[114]));
  (*1069*) Do (SubA v_sp_rates 6 (#2.0 * (v_fwd_rates.[114] - v_rev_rates.[114])));
  (*1071*) Do (AddA v_sp_rates 7 (v_fwd_rates.[114] - v_rev_rates.[114]));
  (*1075*) Do (AddA v_sp_rates 3 (v_fwd_rates.[115] - v_rev_rates.[115]));
  (*1077*) Do (SubA v_sp_rates 6 (#2.0 * (v_fwd_rates.[115] - v_rev_rates.[115])));
  (*1079*) Do (AddA v_sp_rates 7 (v_fwd_rates.[115] - v_rev_rates.[115]));
  (*1083*) Do (AddA v_sp_rates 17 (v_fwd_rates.[116] - v_rev_rates.[116]));
  (*1085*) Do (SubA v_sp_rates 10 (v_fwd_rates.[116] - v_rev_rates.[116]));
  (*1087*) Do (AddA v_sp_rates 4 (v_fwd_rates.[116] - v_rev_rates.[116]));
  (*1089*) Do (SubA v_sp_rates 6 (v_fwd_rates.[116] - v_rev_rates.[116]));
  (*1093*) Do (AddA v_sp_rates 3 (v_fwd_rates.[117] - v_rev_rates.[117]));
  (*1095*) Do (SubA v_sp_rates 12 (v_fwd_rates.[117] - v_rev_rates.[117]));
  (*1097*) Do (AddA v_sp_rates 13 (v_fwd_rates.[117] - v_rev_rates.[117]));
  (*1099*) Do (SubA v_sp_rates 6 (v_fwd_rates.[117] - v_rev_rates.[117]));
  (*1103*) Do (AddA v_sp_rates 4 (v_fwd_rates.[118] - v_rev_rates.[118]));
  (*1105*) Do (AddA v_sp_rates 19 (v_fwd_rates.[118] - v_rev_rates.[118]));
  (*1107*) Do (SubA v_sp_rates 12 (v_fwd_rates.[118] - v_rev_rates.[118]));
  (*1109*) Do (SubA v_sp_rates 6 (v_fwd_rates.[118] - v_rev_rates.[118]));
  (*1113*) Do (AddA v_sp_rates 4 (v_fwd_rates.[119] - v_rev_rates.[119]));
  (*1115*) Do (SubA v_sp_rates 6 (v_fwd_rates.[119] - v_rev_rates.[119]));
  (*1117*) Do (SubA v_sp_rates 14 (v_fwd_rates.[119] - v_rev_rates.[119]));
  (*1119*) Do (AddA v_sp_rates 15 (v_fwd_rates.[119] - v_rev_rates.[119]));
  (*1123*) Do (AddA v_sp_rates 16 (v_fwd_rates.[120] - v_rev_rates.[120]));
  (*1125*) Do (SubA v_sp_rates 17 (v_fwd_rates.[120] - v_rev_rates.[120]));
  (*1127*) Do (SubA v_sp_rates 6 (v_fwd_rates.[120] - v_rev_rates.[120]));
  (*1129*) Do (AddA v_sp_rates 7 (v_fwd_rates.[120] - v_rev_rates.[120]));
  (*1133*) Do (SubA v_sp_rates 8 (v_fwd_rates.[121] - v_rev_rates.[121]));
  (*1135*) Do (AddA v_sp_rates 2 (v_fwd_rates.[121] - v_rev_rates.[121]));
  (*1137*) Do (SubA v_sp_rates 3 (v_fwd_rates.[121] - v_rev_rates.[121]));
  (*1139*) Do (AddA v_sp_rates 14 (v_fwd_rates.[121] - v_rev_rates.[121]));
  (*1143*) Do (SubA v_sp_rates 8 (v_fwd_rates.[122] - v_rev_rates.[122]));
  (*1145*) Do (AddA v_sp_rates 1 (v_fwd_rates.[122] - v_rev_rates.[122]));
  (*1147*) Do (SubA v_sp_rates 10 (v_fwd_rates.[122] - v_rev_rates.[122]));
  (*1149*) Do (AddA v_sp_rates 21 (v_fwd_rates.[122] - v_rev_rates.[122]));
  (*1153*) Do (SubA v_sp_rates 8 (v_fwd_rates.[123] - v_rev_rates.[123]));
  (*1155*) Do (AddA v_sp_rates 1 (v_fwd_rates.[123] - v_rev_rates.[123]));
  (*1157*) Do (SubA v_sp_rates 12 (v_fwd_rates.[123] - v_rev_rates.[123]));
  (*1159*) Do (AddA v_sp_rates 22 (v_fwd_rates.[123] - v_rev_rates.[123]));
  (*1163*) Do (AddA v_sp_rates 16 (v_fwd_rates.[124] - v_rev_rates.[124]));
  (*1165*) Do (SubA v_sp_rates 9 (v_fwd_rates.[124] - v_rev_rates.[124]));
  (*1167*) Do (AddA v_sp_rates 2 (v_fwd_rates.[124] - v_rev_rates.[124]));
  (*1169*) Do (SubA v_sp_rates 3 (v_fwd_rates.[124] - v_rev_rates.[124]));
  (*1173*) Do (SubA v_sp_rates 0 (v_fwd_rates.[125] - v_rev_rates.[125]));
  (*1175*) Do (SubA v_sp_rates 9 (v_fwd_rates.[125] - v_rev_rates.[125]));
  (*1177*) Do (AddA v_sp_rates 10 (v_fwd_rates.[125] - v_rev_rates.[125]));
  (*1179*) Do (AddA v_sp_rates 1 (v_fwd_rates.[125] - v_rev_rates.[125]));
  (*1183*) Do (SubA v_sp_rates 9 (v_fwd_rates.[126] - v_rev_rates.[126]));
  (*1185*) Do (AddA v_sp_rates 1 (v_fwd_rates.[126] - v_rev_rates.[126]));
  (*1187*) Do (SubA v_sp_rates 5 (v_fwd_rates.[126] - v_rev_rates.[126]));
  (*1189*) Do (AddA v_sp_rates 17 (v_fwd_rates.[126] - v_rev_rates.[126]));
  (*1193*) Do (SubA v_sp_rates 9 (v_fwd_rates.[127] - v_rev_rates.[127]));
  (*1195*) Do (SubA v_sp_rates 10 (v_fwd_rates.[127] - v_rev_rates.[127]));
  (*1197*) Do (AddA v_sp_rates 22 (v_fwd_rates.[127] - v_rev_rates.[127]));
  (*1199*) Do (AddA v_sp_rates 1 (v_fwd_rates.[127] - v_rev_rates.[127]));
  (*1203*) Do (SubA v_sp_rates 9 (v_fwd_rates.[128] - v_rev_rates.[128]));
  (*1205*) Do (AddA v_sp_rates 23 (v_fwd_rates.[128] - v_rev_rates.[128]));
  (*1207*) Do (SubA v_sp_rates 12 (v_fwd_rates.[128] - v_rev_rates.[128]));
  (*1209*) Do (AddA v_sp_rates 1 (v_fwd_rates.[128] - v_rev_rates.[128]));
  (*1213*) Do (AddA v_sp_rates 24 (v_fwd_rates.[129] - v_rev_rates.[129]));
  (*1215*) Do (SubA v_sp_rates 9 (v_fwd_rates.[129] - v_rev_rates.[129]));
  (*1217*) Do (SubA v_sp_rates 13 (v_fwd_rates.[129] - v_rev_rates.[129]));
  (*1219*) Do (AddA v_sp_rates 1 (v_fwd_rates.[129] - v_rev_rates.[129]));
  (*1223*) Do (SubA v_sp_rates 9 ((v_fwd_rates.[130] - v_rev_rates.[130]) * v_pres_mod.[21]));
  (*1225*) Do (AddA v_sp_rates 27 ((v_fwd_rates.[130] - v_rev_rates.[130]) * v_pres_mod.[21]));
  (*1227*) Do (SubA v_sp_rates 14 ((v_fwd_rates.[130] - v_rev_rates.[130]) * v_pres_mod.[21]));
  (*1231*) Do (AddA v_sp_rates 16 (v_fwd_rates.[131] - v_rev_rates.[131]));
  (*1233*) Do (SubA v_sp_rates 9 (v_fwd_rates.[131] - v_rev_rates.[131]));
  (*1235*) Do (AddA v_sp_rates 14 (v_fwd_rates.[131] - v_rev_rates.[131]));
  (*1237*) Do (SubA v_sp_rates 15 (v_fwd_rates.[131] - v_rev_rates.[131]));
  (*1241*) Do (SubA v_sp_rates 17 (v_fwd_rates.[132] - v_rev_rates.[132]));
  (*1243*) Do (AddA v_sp_rates 1 (v_fwd_rates.[132] - v_rev_rates.[132]));
  (*1245*) Do (AddA v_sp_rates 28 (v_fwd_rates.[132] - v_rev_rates.[132]));
  (*1247*) Do (SubA v_sp_rates 9 (v_fwd_rates.[132] - v_rev_rates.[132]));
  (*1251*) Do (SubA v_sp_rates 9 (v_fwd_rates.[133] - v_rev_rates.[133]));
  (*1253*) Do (SubA v_sp_rates 27 (v_fwd_rates.[133] - v_rev_rates.[133]));
  (*1255*) Do (AddA v_sp_rates 22 (v_fwd_rates.[133] - v_rev_rates.[133]));
  (*1257*) Do (AddA v_sp_rates 14 (v_fwd_rates.[133] - v_rev_rates.[133]));
  (*1261*) Do (AddA v_sp_rates 1 (v_fwd_rates.[134]));
  (*1263*) Do (SubA v_sp_rates 10 (v_fwd_rates.[134]));
  (*1265*) Do (SubA v_sp_rates 3 (v_fwd_rates.[134]));
  (*1267*) Do (AddA v_sp_rates 4 (v_fwd_rates.[134]));
  (*1269*) Do (AddA v_sp_rates 14 (v_fwd_rates.[134]));
  (*1273*) Do (SubA v_sp_rates 0 (v_fwd_rates.[135] - v_rev_rates.[134]));
  (*1275*) Do (AddA v_sp_rates 1 (v_fwd_rates.[135] - v_rev_rates.[134]));
  (*1277*) Do (SubA v_sp_rates 10 (v_fwd_rates.[135] - v_rev_rates.[134]));
  (*1279*) Do (AddA v_sp_rates 12 (v_fwd_rates.[135] - v_rev_rates.[134]));
  (*1283*) Do (AddA v_sp_rates 0 (v_fwd_rates.[136] - v_rev_rates.[135]));
  (*1285*) Do (SubA v_sp_rates 10 (#2.0 * (v_fwd_rates.[136] - v_rev_rates.[135])));
  (*1287*) Do (AddA v_sp_rates 22 (v_fwd_rates.[136] - v_rev_rates.[135]));
  (*1291*) Do (AddA v_sp_rates 24 (v_fwd_rates.[137] - v_rev_rates.[136]));
  (*1293*) Do (AddA v_sp_rates 1 (v_fwd_rates.[137] - v_rev_rates.[136]));
  (*1295*) Do (SubA v_sp_rates 10 (v_fwd_rates.[137] - v_rev_rates.[136]));
  (*1297*) Do (SubA v_sp_rates 12 (v_fwd_rates.[137] - v_rev_rates.[136]));
  (*1301*) Do (SubA v_sp_rates 10 (v_fwd_rates.[138] - v_rev_rates.[137]));
  (*1303*) Do (AddA v_sp_rates 12 (#2.0 * (v_fwd_rates.[138] - v_rev_rates.[137])));
  (*1305*) Do (SubA v_sp_rates 13 (v_fwd_rates.[138] - v_rev_rates.[137]));
  (*1309*) Do (SubA v_sp_rates 10 ((v_fwd_rates.[139] - v_rev_rates.[138]) * v_pres_mod.[22]));
  (*1311*) Do (AddA v_sp_rates 28 ((v_fwd_rates.[139] - v_rev_rates.[138]) * v_pres_mod.[22]));
  (*1313*) Do (SubA v_sp_rates 14 ((v_fwd_rates.[139] - v_rev_rates.[138]) * v_pres_mod.[22]));
  (*1317*) Do (SubA v_sp_rates 10 (v_fwd_rates.[140] - v_rev_rates.[139]));
  (*1319*) Do (SubA v_sp_rates 27 (v_fwd_rates.[140] - v_rev_rates.[139]));
  (*1321*) Do (AddA v_sp_rates 14 (v_fwd_rates.[140] - v_rev_rates.[139]));
  (*1323*) Do (AddA v_sp_rates 23 (v_fwd_rates.[140] - v_rev_rates.[139]));
  (*1327*) Do (AddA v_sp_rates 10 (v_fwd_rates.[141] - v_rev_rates.[140]));
  (*1329*) Do (SubA v_sp_rates 11 (v_fwd_rates.[141] - v_rev_rates.[140]));
  (*1333*) Do (AddA v_sp_rates 10 (v_fwd_rates.[142] - v_rev_rates.[141]));
  (*1335*) Do (SubA v_sp_rates 11 (v_fwd_rates.[142] - v_rev_rates.[141]));
  (*1339*) Do (SubA v_sp_rates 3 (v_fwd_rates.[143] - v_rev_rates.[142]));
  (*1341*) Do (AddA v_sp_rates 1 (v_fwd_rates.[143] - v_rev_rates.[142]));
  (*1343*) Do (SubA v_sp_rates 11 (v_fwd_rates.[143] - v_rev_rates.[142]));
  (*1345*) Do (AddA v_sp_rates 4 (v_fwd_rates.[143] - v_rev_rates.[142]));
  (*1347*) Do (AddA v_sp_rates 14 (v_fwd_rates.[143] - v_rev_rates.[142]));
  (*1351*) Do (SubA v_sp_rates 3 (v_fwd_rates.[144] - v_rev_rates.[143]));
  (*1353*) Do (SubA v_sp_rates 11 (v_fwd_rates.[144] - v_rev_rates.[143]));
  (*1355*) Do (AddA v_sp_rates 5 (v_fwd_rates.[144] - v_rev_rates.[143]));
  (*1357*) Do (AddA v_sp_rates 14 (v_fwd_rates.[144] - v_rev_rates.[143]));
  (*1361*) Do (SubA v_sp_rates 0 (v_fwd_rates.[145] - v_rev_rates.[144]));
  (*1363*) Do (AddA v_sp_rates 1 (v_fwd_rates.[145] - v_rev_rates.[144]));
  (*1365*) Do (SubA v_sp_rates 11 (v_fwd_rates.[145] - v_rev_rates.[144]));
  (*1367*) Do (AddA v_sp_rates 12 (v_fwd_rates.[145] - v_rev_rates.[144]));
  (*1371*) Do (SubA v_sp_rates 11 ((v_fwd_rates.[146] - v_rev_rates.[145]) * v_pres_mod.[23]));
  (*1373*) Do (AddA v_sp_rates 20 ((v_fwd_rates.[146] - v_rev_rates.[145]) * v_pres_mod.[23]));
  (*1375*) Do (SubA v_sp_rates 5 ((v_fwd_rates.[146] - v_rev_rates.[145]) * v_pres_mod.[23]));
  (*1379*) Do (AddA v_sp_rates 10 (v_fwd_rates.[147] - v_rev_rates.[146]));
  (*1381*) Do (SubA v_sp_rates 11 (v_fwd_rates.[147] - v_rev_rates.[146]));
  (*1385*) Do (AddA v_sp_rates 24 (v_fwd_rates.[148] - v_rev_rates.[147]));
  (*1387*) Do (AddA v_sp_rates 1 (v_fwd_rates.[148] - v_rev_rates.[147]));
  (*1389*) Do (SubA v_sp_rates 11 (v_fwd_rates.[148] - v_rev_rates.[147]));
  (*1391*) Do (SubA v_sp_rates 12 (v_fwd_rates.[148] - v_rev_rates.[147]));
  (*1395*) Do (SubA v_sp_rates 11 (v_fwd_rates.[149] - v_rev_rates.[148]));
  (*1397*) Do (AddA v_sp_rates 12 (#2.0 * (v_fwd_rates.[149] - v_rev_rates.[148])));
  (*1399*) Do (SubA v_sp_rates 13 (v_fwd_rates.[149] - v_rev_rates.[148]));
  (*1403*) Do (AddA v_sp_rates 10 (v_fwd_rates.[150] - v_rev_rates.[149]));
  (*1405*) Do (SubA v_sp_rates 11 (v_fwd_rates.[150] - v_rev_rates.[149]));
  (*1409*) Do (AddA v_sp_rates 10 (v_fwd_rates.[151] - v_rev_rates.[150]));
  (*1411*) Do (SubA v_sp_rates 11 (v_fwd_rates.[151] - v_rev_rates.[150]));
  (*1415*) Do (AddA v_sp_rates 17 (v_fwd_rates.[152] - v_rev_rates.[151]));
  (*1417*) Do (SubA v_sp_rates 11 (v_fwd_rates.[152] - v_rev_rates.[151]));
  (*1419*) Do (AddA v_sp_rates 14 (v_fwd_rates.[152] - v_rev_rates.[151]));
  (*1421*) Do (SubA v_sp_rates 15 (v_fwd_rates.[152] - v_rev_rates.[151]));
  (*1425*) Do (AddA v_sp_rates 25 (v_fwd_rates.[153] - v_rev_rates.[152]));
  (*1427*) Do (SubA v_sp_rates 26 (v_fwd_rates.[153] - v_rev_rates.[152]));
  (*1429*) Do (SubA v_sp_rates 11 (v_fwd_rates.[153] - v_rev_rates.[152]));
  (*1431*) Do (AddA v_sp_rates 12 (v_fwd_rates.[153] - v_rev_rates.[152]));
  (*1435*) Do (AddA v_sp_rates 19 (v_fwd_rates.[154] - v_rev_rates.[153]));
  (*1437*) Do (AddA v_sp_rates 2 (v_fwd_rates.[154] - v_rev_rates.[153]));
  (*1439*) Do (SubA v_sp_rates 3 (v_fwd_rates.[154] - v_rev_rates.[153]));
  (*1441*) Do (SubA v_sp_rates 12 (v_fwd_rates.[154] - v_rev_rates.[153]));
  (*1445*) Do (AddA v_sp_rates 17 (v_fwd_rates.[155] - v_rev_rates.[154]));
  (*1447*) Do (SubA v_sp_rates 3 (v_fwd_rates.[155] - v_rev_rates.[154]));
  (*1449*) Do (SubA v_sp_rates 12 (v_fwd_rates.[155] - v_rev_rates.[154]));
  (*1451*) Do (AddA v_sp_rates 4 (v_fwd_rates.[155] - v_rev_rates.[154]));
  (*1455*) Do (SubA v_sp_rates 12 (v_fwd_rates.[156] - v_rev_rates.[155]));
  (*1457*) Do (AddA v_sp_rates 13 (v_fwd_rates.[156] - v_rev_rates.[155]));
  (*1459*) Do (AddA v_sp_rates 6 (v_fwd_rates.[156] - v_rev_rates.[155]));
  (*1461*) Do (SubA v_sp_rates 7 (v_fwd_rates.[156] - v_rev_rates.[155]));
  (*1465*) Do (AddA v_sp_rates 26 ((v_fwd_rates.[157] - v_rev_rates.[156]) * v_pres_mod.[24]));
  (*1467*) Do (SubA v_sp_rates 12 (#2.0 * (v_fwd_rates.[157] - v_rev_rates.[156]) * v_pres_mod.[24]));
  (*1471*) Do (AddA v_sp_rates 1 (v_fwd_rates.[158] - v_rev_rates.[157]));
  (*1473*) Do (SubA v_sp_rates 12 (#2.0 * (v_fwd_rates.[158] - v_rev_rates.[157])));
  (*1475*) Do (AddA v_sp_rates 25 (v_fwd_rates.[158] - v_rev_rates.[157]));
  (*1479*) Do (SubA v_sp_rates 16 (v_fwd_rates.[159] - v_rev_rates.[158]));
  (*1481*) Do (SubA v_sp_rates 12 (v_fwd_rates.[159] - v_rev_rates.[158]));
  (*1483*) Do (AddA v_sp_rates 13 (v_fwd_rates.[159] - v_rev_rates.[158]));
  (*1485*) Do (AddA v_sp_rates 14 (v_fwd_rates.[159] - v_rev_rates.[158]));
  (*1489*) Do (AddA v_sp_rates 16 (v_fwd_rates.[160] - v_rev_rates.[159]));
  (*1491*) Do (SubA v_sp_rates 17 (v_fwd_rates.[160] - v_rev_rates.[159]));
  (*1493*) Do (SubA v_sp_rates 12 (v_fwd_rates.[160] - v_rev_rates.[159]));
  (*1495*) Do (AddA v_sp_rates 13 (v_fwd_rates.[160] - v_rev_rates.[159]));
  (*1499*) Do (SubA v_sp_rates 12 (v_fwd_rates.[161] - v_rev_rates.[160]));
  (*1501*) Do (AddA v_sp_rates 18 (v_fwd_rates.[161] - v_rev_rates.[160]));
  (*1503*) Do (SubA v_sp_rates 20 (v_fwd_rates.[161] - v_rev_rates.[160]));
  (*1505*) Do (AddA v_sp_rates 13 (v_fwd_rates.[161] - v_rev_rates.[160]));
  (*1509*) Do (SubA v_sp_rates 12 (v_fwd_rates.[162] - v_rev_rates.[161]));
  (*1511*) Do (AddA v_sp_rates 19 (v_fwd_rates.[162] - v_rev_rates.[161]));
  (*1513*) Do (SubA v_sp_rates 20 (v_fwd_rates.[162] - v_rev_rates.[161]));
  (*1515*) Do (AddA v_sp_rates 13 (v_fwd_rates.[162] - v_rev_rates.[161]));
  (*1519*) Do (SubA v_sp_rates 24 (v_fwd_rates.[163] - v_rev_rates.[162]));
  (*1521*) Do (SubA v_sp_rates 12 (v_fwd_rates.[163] - v_rev_rates.[162]));
  (*1523*) Do (AddA v_sp_rates 13 (v_fwd_rates.[163] - v_rev_rates.[162]));
  (*1525*) Do (AddA v_sp_rates 23 (v_fwd_rates.[163] - v_rev_rates.[162]));
  (*1529*) Do (AddA v_sp_rates 25 (v_fwd_rates.[164] - v_rev_rates.[163]));
  (*1531*) Do (SubA v_sp_rates 26 (v_fwd_rates.[164] - v_rev_rates.[163]));
  (*1533*) Do (SubA v_sp_rates 12 (v_fwd_rates.[164] - v_rev_rates.[163]));
  (*1535*) Do (AddA v_sp_rates 13 (v_fwd_rates.[164] - v_rev_rates.[163]));
  (*1539*) Do (SubA v_sp_rates 16 (v_fwd_rates.[165] - v_rev_rates.[164]));
  (*1541*) Do (AddA v_sp_rates 1 (v_fwd_rates.[165] - v_rev_rates.[164]));
  (*1543*) Do (AddA v_sp_rates 14 (v_fwd_rates.[165] - v_rev_rates.[164]));
  (*1547*) Do (SubA v_sp_rates 16 ((v_fwd_rates.[166] - v_rev_rates.[165]) * v_pres_mod.[25]));
  (*1549*) Do (AddA v_sp_rates 1 ((v_fwd_rates.[166] - v_rev_rates.[165]) * v_pres_mod.[25]));
  (*1551*) Do (AddA v_sp_rates 14 ((v_fwd_rates.[166] - v_rev_rates.[165]) * v_pres_mod.[25]));
  (*1555*) Do (SubA v_sp_rates 16 (v_fwd_rates.[167] - v_rev_rates.[166]));
  (*1557*) Do (SubA v_sp_rates 3 (v_fwd_rates.[167] - v_rev_rates.[166]));
  (*1559*) Do (AddA v_sp_rates 6 (v_fwd_rates.[167] - v_rev_rates.[166]));
  (*1561*) Do (AddA v_sp_rates 14 (v_fwd_rates.[167] - v_rev_rates.[166]));
  (*1565*) Do (AddA v_sp_rates 17 (v_fwd_rates.[168] - v_rev_rates.[167]));
  (*1567*) Do (SubA v_sp_rates 18 (v_fwd_rates.[168] - v_rev_rates.[167]));
  (*1569*) Do (SubA v_sp_rates 3 (v_fwd_rates.[168] - v_rev_rates.[167]));
  (*1571*) Do (AddA v_sp_rates 6 (v_fwd_rates.[168] - v_rev_rates.[167]));
  (*1575*) Do (SubA v_sp_rates 3 (v_fwd_rates.[169] - v_rev_rates.[168]));
  (*1577*) Do (AddA v_sp_rates 17 (v_fwd_rates.[169] - v_rev_rates.[168]));
  (*1579*) Do (SubA v_sp_rates 19 (v_fwd_rates.[169] - v_rev_rates.[168]));
  (*1581*) Do (AddA v_sp_rates 6 (v_fwd_rates.[169] - v_rev_rates.[168]));
  (*1585*) Do (AddA v_sp_rates 16 (v_fwd_rates.[170] - v_rev_rates.[169]));
  (*1587*) Do (SubA v_sp_rates 3 (v_fwd_rates.[170] - v_rev_rates.[169]));
  (*1589*) Do (SubA v_sp_rates 21 (v_fwd_rates.[170] - v_rev_rates.[169]));
  (*1591*) Do (AddA v_sp_rates 14 (v_fwd_rates.[170] - v_rev_rates.[169]));
  (*1595*) Do (SubA v_sp_rates 0 (v_fwd_rates.[171] - v_rev_rates.[170]));
  (*1597*) Do (AddA v_sp_rates 1 (v_fwd_rates.[171] - v_rev_rates.[170]));
  (*1599*) Do (SubA v_sp_rates 21 (v_fwd_rates.[171] - v_rev_rates.[170]));
  (*1601*) Do (AddA v_sp_rates 22 (v_fwd_rates.[171] - v_rev_rates.[170]));
  (*1605*) Do (AddA v_sp_rates 16 (v_fwd_rates.[172] - v_rev_rates.[171]));
  (*1607*) Do (AddA v_sp_rates 17 (v_fwd_rates.[172] - v_rev_rates.[171]));
  (*1609*) Do (SubA v_sp_rates 3 (v_fwd_rates.[172] - v_rev_rates.[171]));
  (*1611*) Do (SubA v_sp_rates 23 (v_fwd_rates.[172] - v_rev_rates.[171]));
  (*1615*) Do (SubA v_sp_rates 24 ((v_fwd_rates.[173] - v_rev_rates.[172]) * v_pres_mod.[26]));
  (*1617*) Do (AddA v_sp_rates 0 ((v_fwd_rates.[173] - v_rev_rates.[172]) * v_pres_mod.[26]));
  (*1619*) Do (AddA v_sp_rates 22 ((v_fwd_rates.[173] - v_rev_rates.[172]) * v_pres_mod.[26]));
  (*1623*) Do (AddA v_sp_rates 24 (v_fwd_rates.[174] - v_rev_rates.[173]));
  (*1625*) Do (SubA v_sp_rates 25 (v_fwd_rates.[174] - v_rev_rates.[173]));
  (*1627*) Do (SubA v_sp_rates 3 (v_fwd_rates.[174] - v_rev_rates.[173]));
  (*1629*) Do (AddA v_sp_rates 6 (v_fwd_rates.[174] - v_rev_rates.[173]));
  (*1633*) Do (SubA v_sp_rates 3 (v_fwd_rates.[175] - v_rev_rates.[174]));
  (*1635*) Do (SubA v_sp_rates 27 (v_fwd_rates.[175] - v_rev_rates.[174]));
  (*1637*) Do (AddA v_sp_rates 4 (v_fwd_rates.[175] - v_rev_rates.[174]));
  (*1639*) Do (AddA v_sp_rates 14 (#2.0 * (v_fwd_rates.[175] - v_rev_rates.[174])));
  (*1643*) Do (SubA v_sp_rates 27 (#2.0 * (v_fwd_rates.[176] - v_rev_rates.[175])));
  (*1645*) Do (AddA v_sp_rates 22 (v_fwd_rates.[176] - v_rev_rates.[175]));
  (*1647*) Do (AddA v_sp_rates 14 (#2.0 * (v_fwd_rates.[176] - v_rev_rates.[175])));
  (*1651*) Do (AddA v_sp_rates 2 (v_fwd_rates.[177] - v_rev_rates.[176]));
  (*1653*) Do (Asn v_sp_rates 35 ((- (v_fwd_rates.[177] - v_rev_rates.[176]))));
  (*1655*) Do (Asn v_dy_N 0 (v_fwd_rates.[177] - v_rev_rates.[176]));
  (*1657*) Do (Asn v_sp_rates 30 ((- (v_fwd_rates.[177] - v_rev_rates.[176]))));
  (*1661*) Do (AddA v_sp_rates 35 (v_fwd_rates.[178] - v_rev_rates.[177]));
  (*1663*) Do (AddA v_sp_rates 2 (v_fwd_rates.[178] - v_rev_rates.[177]));
  (*1665*) Do (SubA v_sp_rates 3 (v_fwd_rates.[178] - v_rev_rates.[177]));
  (*1667*) Do (SubA v_sp_rates 30 (v_fwd_rates.[178] - v_rev_rates.[177]));
  (*1671*) Do (AddA v_sp_rates 1 (v_fwd_rates.[179] - v_rev_rates.[178]));
  (*1673*) Do (AddA v_sp_rates 35 (v_fwd_rates.[179] - v_rev_rates.[178]));
  (*1675*) Do (SubA v_sp_rates 4 (v_fwd_rates.[179] - v_rev_rates.[178]));
  (*1677*) Do (SubA v_sp_rates 30 (v_fwd_rates.[179] - v_rev_rates.[178]));
  (*1681*) Do (SubA v_sp_rates 2 (v_fwd_rates.[180] - v_rev_rates.[179]));
  (*1683*) Do (AddA v_sp_rates 3 (v_fwd_rates.[180] - v_rev_rates.[179]));
  (*1685*) Do (AddA v_dy_N 0 (v_fwd_rates.[180] - v_rev_rates.[179]));
  (*1687*) Do (Asn v_sp_rates 37 ((- (v_fwd_rates.[180] - v_rev_rates.[179]))));
  (*1691*) Do (SubA v_sp_rates 2 (v_fwd_rates.[181] - v_rev_rates.[180]));
  (*1693*) Do (AddA v_sp_rates 35 (#2.0 * (v_fwd_rates.[181] - v_rev_rates.[180])));
  (*1695*) Do (SubA v_sp_rates 37 (v_fwd_rates.[181] - v_rev_rates.[180]));
  (*1699*) Do (SubA v_sp_rates 1 (v_fwd_rates.[182] - v_rev_rates.[181]));
  (*1701*) Do (AddA v_dy_N 0 (v_fwd_rates.[182] - v_rev_rates.[181]));
  (*1703*) Do (SubA v_sp_rates 37 (v_fwd_rates.[182] - v_rev_rates.[181]));
  (*1705*) Do (AddA v_sp_rates 4 (v_fwd_rates.[182] - v_rev_rates.[181]));
  (*1709*) Do (AddA v_dy_N 0 (v_fwd_rates.[183] - v_rev_rates.[182]));
  (*1711*) Do (SubA v_sp_rates 4 (v_fwd_rates.[183] - v_rev_rates.[182]));
  (*1713*) Do (SubA v_sp_rates 37 (v_fwd_rates.[183] - v_rev_rates.[182]));
  (*1715*) Do (AddA v_sp_rates 6 (v_fwd_rates.[183] - v_rev_rates.[182]));
  (*1719*) Do (AddA v_sp_rates 2 ((v_fwd_rates.[184] - v_rev_rates.[183]) * v_pres_mod.[27]));
  (*1721*) Do (AddA v_dy_N 0 ((v_fwd_rates.[184] - v_rev_rates.[183]) * v_pres_mod.[27]));
  (*1723*) Do (SubA v_sp_rates 37 ((v_fwd_rates.[184] - v_rev_rates.[183]) * v_pres_mod.[27]));
  (*1727*) Do (AddA v_sp_rates 4 (v_fwd_rates.[185] - v_rev_rates.[184]));
  (*1729*) Do (SubA v_sp_rates 35 (v_fwd_rates.[185] - v_rev_rates.[184]));
  (*1731*) Do (Asn v_sp_rates 36 (v_fwd_rates.[185] - v_rev_rates.[184]));
  (*1733*) Do (SubA v_sp_rates 6 (v_fwd_rates.[185] - v_rev_rates.[184]));
  (*1737*) Do (SubA v_sp_rates 2 ((v_fwd_rates.[186] - v_rev_rates.[185]) * v_pres_mod.[28]));
  (*1739*) Do (SubA v_sp_rates 35 ((v_fwd_rates.[186] - v_rev_rates.[185]) * v_pres_mod.[28]));
  (*1741*) Do (AddA v_sp_rates 36 ((v_fwd_rates.[186] - v_rev_rates.[185]) * v_pres_mod.[28]));
  (*1745*) Do (AddA v_sp_rates 35 (v_fwd_rates.[187] - v_rev_rates.[186]));
  (*1747*) Do (SubA v_sp_rates 2 (v_fwd_rates.[187] - v_rev_rates.[186]));
  (*1749*) Do (AddA v_sp_rates 3 (v_fwd_rates.[187] - v_rev_rates.[186]));
  (*1751*) Do (SubA v_sp_rates 36 (v_fwd_rates.[187] - v_rev_rates.[186]));
  (*1755*) Do (SubA v_sp_rates 1 (v_fwd_rates.[188] - v_rev_rates.[187]));
  (*1757*) Do (AddA v_sp_rates 35 (v_fwd_rates.[188] - v_rev_rates.[187]));
  (*1759*) Do (SubA v_sp_rates 36 (v_fwd_rates.[188] - v_rev_rates.[187]));
  (*1761*) Do (AddA v_sp_rates 4 (v_fwd_rates.[188] - v_rev_rates.[187]));
  (*1765*) Do (AddA v_sp_rates 1 (v_fwd_rates.[189] - v_rev_rates.[188]));
  (*1767*) Do (SubA v_sp_rates 2 (v_fwd_rates.[189] - v_rev_rates.[188]));
  (*1769*) Do (AddA v_sp_rates 35 (v_fwd_rates.[189] - v_rev_rates.[188]));
  (*1771*) Do (Asn v_sp_rates 31 ((- (v_fwd_rates.[189] - v_rev_rates.[188]))));
  (*1775*) Do (AddA v_sp_rates 0 (v_fwd_rates.[190] - v_rev_rates.[189]));
  (*1777*) Do (SubA v_sp_rates 1 (v_fwd_rates.[190] - v_rev_rates.[189]));
  (*1779*) Do (AddA v_sp_rates 30 (v_fwd_rates.[190] - v_rev_rates.[189]));
  (*1781*) Do (SubA v_sp_rates 31 (v_fwd_rates.[190] - v_rev_rates.[189]));
  (*1785*) Do (AddA v_sp_rates 1 (v_fwd_rates.[191] - v_rev_rates.[190]));
  (*1787*) Do (SubA v_sp_rates 4 (v_fwd_rates.[191] - v_rev_rates.[190]));
  (*1789*) Do (Asn v_sp_rates 38 (v_fwd_rates.[191] - v_rev_rates.[190]));
  (*1791*) Do (SubA v_sp_rates 31 (v_fwd_rates.[191] - v_rev_rates.[190]));
  (*1795*) Do (SubA v_sp_rates 4 (v_fwd_rates.[192] - v_rev_rates.[191]));
  (*1797*) Do (AddA v_sp_rates 5 (v_fwd_rates.[192] - v_rev_rates.[191]));
  (*1799*) Do (AddA v_sp_rates 30 (v_fwd_rates.[192] - v_rev_rates.[191]));
  (*1801*) Do (SubA v_sp_rates 31 (v_fwd_rates.[192] - v_rev_rates.[191]));
  (*1805*) Do (AddA v_sp_rates 2 (v_fwd_rates.[193] - v_rev_rates.[192]));
  (*1807*) Do (SubA v_sp_rates 3 (v_fwd_rates.[193] - v_rev_rates.[192]));
  (*1809*) Do (AddA v_sp_rates 38 (v_fwd_rates.[193] - v_rev_rates.[192]));
  (*1811*) Do (SubA v_sp_rates 31 (v_fwd_rates.[193] - v_rev_rates.[192]));
  (*1815*) Do (AddA v_sp_rates 35 (v_fwd_rates.[194] - v_rev_rates.[193]));
  (*1817*) Do (SubA v_sp_rates 3 (v_fwd_rates.[194] - v_rev_rates.[193]));
  (*1819*) Do (AddA v_sp_rates 4 (v_fwd_rates.[194] - v_rev_rates.[193]));
  (*1821*) Do (SubA v_sp_rates 31 (v_fwd_rates.[194] - v_rev_rates.[193]));
  (*1825*) Do (AddA v_sp_rates 1 (v_fwd_rates.[195] - v_rev_rates.[194]));
  (*1827*) Do (AddA v_dy_N 0 (v_fwd_rates.[195] - v_rev_rates.[194]));
  (*1829*) Do (SubA v_sp_rates 30 (v_fwd_rates.[195] - v_rev_rates.[194]));
  (*1831*) Do (SubA v_sp_rates 31 (v_fwd_rates.[195] - v_rev_rates.[194]));
  (*1835*) Do (AddA v_sp_rates 0 (v_fwd_rates.[196] - v_rev_rates.[195]));
  (*1837*) Do (SubA v_sp_rates 5 (v_fwd_rates.[196] - v_rev_rates.[195]));
  (*1839*) Do (AddA v_sp_rates 38 (v_fwd_rates.[196] - v_rev_rates.[195]));
  (*1841*) Do (SubA v_sp_rates 31 (v_fwd_rates.[196] - v_rev_rates.[195]));
  (*1845*) Do (AddA v_sp_rates 4 (v_fwd_rates.[197] - v_rev_rates.[196]));
  (*1847*) Do (SubA v_sp_rates 35 (v_fwd_rates.[197] - v_rev_rates.[196]));
  (*1849*) Do (AddA v_dy_N 0 (v_fwd_rates.[197] - v_rev_rates.[196]));
  (*1851*) Do (SubA v_sp_rates 31 (v_fwd_rates.[197] - v_rev_rates.[196]));
  (*1855*) Do (AddA v_sp_rates 1 (v_fwd_rates.[198] - v_rev_rates.[197]));
  (*1857*) Do (SubA v_sp_rates 35 (v_fwd_rates.[198] - v_rev_rates.[197]));
  (*1859*) Do (AddA v_sp_rates 37 (v_fwd_rates.[198] - v_rev_rates.[197]));
  (*1861*) Do (SubA v_sp_rates 31 (v_fwd_rates.[198] - v_rev_rates.[197]));
  (*1865*) Do (Asn v_sp_rates 32 ((- (v_fwd_rates.[199] - v_rev_rates.[198]))));
  (*1867*) Do (SubA v_sp_rates 2 (v_fwd_rates.[199] - v_rev_rates.[198]));
  (*1869*) Do (AddA v_sp_rates 4 (v_fwd_rates.[199] - v_rev_rates.[198]));
  (*1871*) Do (AddA v_sp_rates 31 (v_fwd_rates.[199] - v_rev_rates.[198]));
  (*1875*) Do (SubA v_sp_rates 32 (v_fwd_rates.[200] - v_rev_rates.[199]));
  (*1877*) Do (AddA v_sp_rates 1 (v_fwd_rates.[200] - v_rev_rates.[199]));
  (*1879*) Do (SubA v_sp_rates 2 (v_fwd_rates.[200] - v_rev_rates.[199]));
  (*1881*) Do (AddA v_sp_rates 38 (v_fwd_rates.[200] - v_rev_rates.[199]));
  (*1885*) Do (SubA v_sp_rates 32 (v_fwd_rates.[201] - v_rev_rates.[200]));
  (*1887*) Do (SubA v_sp_rates 1 (v_fwd_rates.[201] - v_rev_rates.[200]));
  (*1889*) Do (AddA v_sp_rates 0 (v_fwd_rates.[201] - v_rev_rates.[200]));
  (*1891*) Do (AddA v_sp_rates 31 (v_fwd_rates.[201] - v_rev_rates.[200]));
  (*1895*) Do (SubA v_sp_rates 32 (v_fwd_rates.[202] - v_rev_rates.[201]));
  (*1897*) Do (SubA v_sp_rates 4 (v_fwd_rates.[202] - v_rev_rates.[201]));
  (*1899*) Do (AddA v_sp_rates 5 (v_fwd_rates.[202] - v_rev_rates.[201]));
  (*1901*) Do (AddA v_sp_rates 31 (v_fwd_rates.[202] - v_rev_rates.[201]));
  (*1905*) Do (AddA v_sp_rates 1 (v_fwd_rates.[203] - v_rev_rates.[202]));
  (*1907*) Do (Asn v_sp_rates 34 ((- (v_fwd_rates.[203] - v_rev_rates.[202]))));
  (*1909*) Do (AddA v_dy_N 0 (v_fwd_rates.[203] - v_rev_rates.[202]));
  (*1913*) Do (AddA v_sp_rates 1 ((v_fwd_rates.[204] - v_rev_rates.[203]) * v_pres_mod.[29]));
  (*1915*) Do (SubA v_sp_rates 34 ((v_fwd_rates.[204] - v_rev_rates.[203]) * v_pres_mod.[29]));
  (*1917*) Do (AddA v_dy_N 0 ((v_fwd_rates.[204] - v_rev_rates.[203]) * v_pres_mod.[29]));
  (*1921*) Do (SubA v_sp_rates 34 (v_fwd_rates.[205] - v_rev_rates.[204]));
  (*1923*) Do (SubA v_sp_rates 3 (v_fwd_rates.[205] - v_rev_rates.[204]));
  (*1925*) Do (AddA v_dy_N 0 (v_fwd_rates.[205] - v_rev_rates.[204]));
  (*1927*) Do (AddA v_sp_rates 6 (v_fwd_rates.[205] - v_rev_rates.[204]));
  (*1931*) Do (AddA v_sp_rates 4 (v_fwd_rates.[206] - v_rev_rates.[205]));
  (*1933*) Do (SubA v_sp_rates 2 (v_fwd_rates.[206] - v_rev_rates.[205]));
  (*1935*) Do (AddA v_dy_N 0 (v_fwd_rates.[206] - v_rev_rates.[205]));
  (*1937*) Do (SubA v_sp_rates 34 (v_fwd_rates.[206] - v_rev_rates.[205]));
  (*1941*) Do (SubA v_sp_rates 2 (v_fwd_rates.[207] - v_rev_rates.[206]));
  (*1943*) Do (AddA v_sp_rates 35 (v_fwd_rates.[207] - v_rev_rates.[206]));
  (*1945*) Do (SubA v_sp_rates 34 (v_fwd_rates.[207] - v_rev_rates.[206]));
  (*1947*) Do (AddA v_sp_rates 31 (v_fwd_rates.[207] - v_rev_rates.[206]));
  (*1951*) Do (AddA v_sp_rates 0 (v_fwd_rates.[208] - v_rev_rates.[207]));
  (*1953*) Do (SubA v_sp_rates 1 (v_fwd_rates.[208] - v_rev_rates.[207]));
  (*1955*) Do (SubA v_sp_rates 34 (v_fwd_rates.[208] - v_rev_rates.[207]));
  (*1957*) Do (AddA v_dy_N 0 (v_fwd_rates.[208] - v_rev_rates.[207]));
  (*1961*) Do (AddA v_dy_N 0 (v_fwd_rates.[209] - v_rev_rates.[208]));
  (*1963*) Do (SubA v_sp_rates 34 (v_fwd_rates.[209] - v_rev_rates.[208]));
  (*1965*) Do (SubA v_sp_rates 4 (v_fwd_rates.[209] - v_rev_rates.[208]));
  (*1967*) Do (AddA v_sp_rates 5 (v_fwd_rates.[209] - v_rev_rates.[208]));
  (*1971*) Do (AddA v_dy_N 0 (v_fwd_rates.[210] - v_rev_rates.[209]));
  (*1973*) Do (SubA v_sp_rates 34 (v_fwd_rates.[210] - v_rev_rates.[209]));
  (*1975*) Do (SubA v_sp_rates 12 (v_fwd_rates.[210] - v_rev_rates.[209]));
  (*1977*) Do (AddA v_sp_rates 13 (v_fwd_rates.[210] - v_rev_rates.[209]));
  (*1981*) Do (SubA v_sp_rates 1 ((v_fwd_rates.[211] - v_rev_rates.[210]) * v_pres_mod.[30]));
  (*1983*) Do (SubA v_sp_rates 35 ((v_fwd_rates.[211] - v_rev_rates.[210]) * v_pres_mod.[30]));
  (*1985*) Do (AddA v_sp_rates 38 ((v_fwd_rates.[211] - v_rev_rates.[210]) * v_pres_mod.[30]));
  (*1989*) Do (SubA v_sp_rates 2 (v_fwd_rates.[212] - v_rev_rates.[211]));
  (*1991*) Do (AddA v_sp_rates 35 (v_fwd_rates.[212] - v_rev_rates.[211]));
  (*1993*) Do (AddA v_sp_rates 4 (v_fwd_rates.[212] - v_rev_rates.[211]));
  (*1995*) Do (SubA v_sp_rates 38 (v_fwd_rates.[212] - v_rev_rates.[211]));
  (*1999*) Do (AddA v_sp_rates 0 (v_fwd_rates.[213] - v_rev_rates.[212]));
  (*2001*) Do (SubA v_sp_rates 1 (v_fwd_rates.[213] - v_rev_rates.[212]));
  (*2003*) Do (AddA v_sp_rates 35 (v_fwd_rates.[213] - v_rev_rates.[212]));
  (*2005*) Do (SubA v_sp_rates 38 (v_fwd_rates.[213] - v_rev_rates.[212]));
  (*2009*) Do (AddA v_sp_rates 35 (v_fwd_rates.[214] - v_rev_rates.[213]));
  (*2011*) Do (SubA v_sp_rates 4 (v_fwd_rates.[214] - v_rev_rates.[213]));
  (*2013*) Do (AddA v_sp_rates 5 (v_fwd_rates.[214] - v_rev_rates.[213]));
  (*2015*) Do (SubA v_sp_rates 38 (v_fwd_rates.[214] - v_rev_rates.[213]));
  (*2019*) Do (AddA v_sp_rates 35 (v_fwd_rates.[215] - v_rev_rates.[214]));
  (*2021*) Do (SubA v_sp_rates 3 (v_fwd_rates.[215] - v_rev_rates.[214]));
  (*2023*) Do (AddA v_sp_rates 6 (v_fwd_rates.[215] - v_rev_rates.[214]));
  (*2025*) Do (SubA v_sp_rates 38 (v_fwd_rates.[215] - v_rev_rates.[214]));
  (*2029*) Do (SubA v_sp_rates 2 (v_fwd_rates.[216] - v_rev_rates.[215]));
  (*2031*) Do (AddA v_sp_rates 30 (v_fwd_rates.[216] - v_rev_rates.[215]));
  (*2033*) Do (AddA v_sp_rates 14 (v_fwd_rates.[216] - v_rev_rates.[215]));
  (*2035*) Do (Asn v_sp_rates 39 ((- (v_fwd_rates.[216] - v_rev_rates.[215]))));
  (*2039*) Do (AddA v_sp_rates 1 (v_fwd_rates.[217] - v_rev_rates.[216]));
  (*2041*) Do (SubA v_sp_rates 4 (v_fwd_rates.[217] - v_rev_rates.[216]));
  (*2043*) Do (Asn v_sp_rates 46 (v_fwd_rates.[217] - v_rev_rates.[216]));
  (*2045*) Do (SubA v_sp_rates 39 (v_fwd_rates.[217] - v_rev_rates.[216]));
  (*2049*) Do (Asn v_sp_rates 40 (v_fwd_rates.[218] - v_rev_rates.[217]));
  (*2051*) Do (AddA v_sp_rates 4 (v_fwd_rates.[218] - v_rev_rates.[217]));
  (*2053*) Do (SubA v_sp_rates 5 (v_fwd_rates.[218] - v_rev_rates.[217]));
  (*2055*) Do (SubA v_sp_rates 39 (v_fwd_rates.[218] - v_rev_rates.[217]));
  (*2059*) Do (AddA v_sp_rates 2 (v_fwd_rates.[219] - v_rev_rates.[218]));
  (*2061*) Do (SubA v_sp_rates 3 (v_fwd_rates.[219] - v_rev_rates.[218]));
  (*2063*) Do (AddA v_sp_rates 46 (v_fwd_rates.[219] - v_rev_rates.[218]));
  (*2065*) Do (SubA v_sp_rates 39 (v_fwd_rates.[219] - v_rev_rates.[218]));
  (*2069*) Do (SubA v_sp_rates 0 (v_fwd_rates.[220] - v_rev_rates.[219]));
  (*2071*) Do (AddA v_sp_rates 1 (v_fwd_rates.[220] - v_rev_rates.[219]));
  (*2073*) Do (AddA v_sp_rates 40 (v_fwd_rates.[220] - v_rev_rates.[219]));
  (*2075*) Do (SubA v_sp_rates 39 (v_fwd_rates.[220] - v_rev_rates.[219]));
  (*2079*) Do (SubA v_sp_rates 2 (v_fwd_rates.[221] - v_rev_rates.[220]));
  (*2081*) Do (AddA v_sp_rates 35 (v_fwd_rates.[221] - v_rev_rates.[220]));
  (*2083*) Do (AddA v_sp_rates 14 (v_fwd_rates.[221] - v_rev_rates.[220]));
  (*2085*) Do (SubA v_sp_rates 46 (v_fwd_rates.[221] - v_rev_rates.[220]));
  (*2089*) Do (SubA v_sp_rates 1 (v_fwd_rates.[222] - v_rev_rates.[221]));
  (*2091*) Do (AddA v_sp_rates 14 (v_fwd_rates.[222] - v_rev_rates.[221]));
  (*2093*) Do (SubA v_sp_rates 46 (v_fwd_rates.[222] - v_rev_rates.[221]));
  (*2095*) Do (AddA v_sp_rates 31 (v_fwd_rates.[222] - v_rev_rates.[221]));
  (*2099*) Do (AddA v_sp_rates 1 (v_fwd_rates.[223] - v_rev_rates.[222]));
  (*2101*) Do (AddA v_sp_rates 35 (v_fwd_rates.[223] - v_rev_rates.[222]));
  (*2103*) Do (SubA v_sp_rates 4 (v_fwd_rates.[223] - v_rev_rates.[222]));
  (*2105*) Do (AddA v_sp_rates 14 (v_fwd_rates.[223] - v_rev_rates.[222]));
  (*2107*) Do (SubA v_sp_rates 46 (v_fwd_rates.[223] - v_rev_rates.[222]));
  (*2111*) Do (AddA v_sp_rates 14 (v_fwd_rates.[224] - v_rev_rates.[223]));
  (*2113*) Do (AddA v_dy_N 0 (v_fwd_rates.[224] - v_rev_rates.[223]));
  (*2115*) Do (SubA v_sp_rates 46 (v_fwd_rates.[224] - v_rev_rates.[223]));
  (*2117*) Do (SubA v_sp_rates 30 (v_fwd_rates.[224] - v_rev_rates.[223]));
  (*2121*) Do (AddA v_sp_rates 35 (v_fwd_rates.[225] - v_rev_rates.[224]));
  (*2123*) Do (SubA v_sp_rates 3 (v_fwd_rates.[225] - v_rev_rates.[224]));
  (*2125*) Do (SubA v_sp_rates 46 (v_fwd_rates.[225] - v_rev_rates.[224]));
  (*2127*) Do (AddA v_sp_rates 15 (v_fwd_rates.[225] - v_rev_rates.[224]));
  (*2131*) Do (AddA v_sp_rates 30 ((v_fwd_rates.[226] - v_rev_rates.[225]) * v_pres_mod.[31]));
  (*2133*) Do (AddA v_sp_rates 14 ((v_fwd_rates.[226] - v_rev_rates.[225]) * v_pres_mod.[31]));
  (*2135*) Do (SubA v_sp_rates 46 ((v_fwd_rates.[226] - v_rev_rates.[225]) * v_pres_mod.[31]));
  (*2139*) Do (SubA v_sp_rates 35 (v_fwd_rates.[227] - v_rev_rates.[226]));
  (*2141*) Do (AddA v_sp_rates 14 (v_fwd_rates.[227] - v_rev_rates.[226]));
  (*2143*) Do (SubA v_sp_rates 46 (v_fwd_rates.[227] - v_rev_rates.[226]));
  (*2145*) Do (AddA v_sp_rates 37 (v_fwd_rates.[227] - v_rev_rates.[226]));
  (*2149*) Do (SubA v_sp_rates 35 (v_fwd_rates.[228] - v_rev_rates.[227]));
  (*2151*) Do (AddA v_dy_N 0 (v_fwd_rates.[228] - v_rev_rates.[227]));
  (*2153*) Do (SubA v_sp_rates 46 (v_fwd_rates.[228] - v_rev_rates.[227]));
  (*2155*) Do (AddA v_sp_rates 15 (v_fwd_rates.[228] - v_rev_rates.[227]));
  (*2159*) Do (SubA v_sp_rates 40 ((v_fwd_rates.[229] - v_rev_rates.[228]) * v_pres_mod.[32]));
  (*2161*) Do (AddA v_sp_rates 1 ((v_fwd_rates.[229] - v_rev_rates.[228]) * v_pres_mod.[32]));
  (*2163*) Do (AddA v_sp_rates 39 ((v_fwd_rates.[229] - v_rev_rates.[228]) * v_pres_mod.[32]));
  (*2167*) Do (SubA v_sp_rates 40 (v_fwd_rates.[230] - v_rev_rates.[229]));
  (*2169*) Do (AddA v_sp_rates 1 (v_fwd_rates.[230] - v_rev_rates.[229]));
  (*2171*) Do (SubA v_sp_rates 2 (v_fwd_rates.[230] - v_rev_rates.[229]));
  (*2173*) Do (AddA v_sp_rates 46 (v_fwd_rates.[230] - v_rev_rates.[229]));
  (*2177*) Do (SubA v_sp_rates 40 (v_fwd_rates.[231] - v_rev_rates.[230]));
  (*2179*) Do (SubA v_sp_rates 2 (v_fwd_rates.[231] - v_rev_rates.[230]));
  (*2181*) Do (AddA v_sp_rates 14 (v_fwd_rates.[231] - v_rev_rates.[230]));
  (*2183*) Do (AddA v_sp_rates 31 (v_fwd_rates.[231] - v_rev_rates.[230]));
  (*2187*) Do (SubA v_sp_rates 40 (v_fwd_rates.[232] - v_rev_rates.[231]));
  (*2189*) Do (SubA v_sp_rates 2 (v_fwd_rates.[232] - v_rev_rates.[231]));
  (*2191*) Do (AddA v_sp_rates 4 (v_fwd_rates.[232] - v_rev_rates.[231]));
  (*2193*) Do (AddA v_sp_rates 39 (v_fwd_rates.[232] - v_rev_rates.[231]));
  (*2197*) Do (SubA v_sp_rates 40 (v_fwd_rates.[233] - v_rev_rates.[232]));
  (*2199*) Do (Asn v_sp_rates 44 (v_fwd_rates.[233] - v_rev_rates.[232]));
  (*2201*) Do (SubA v_sp_rates 4 (v_fwd_rates.[233] - v_rev_rates.[232]));
  (*2203*) Do (AddA v_sp_rates 1 (v_fwd_rates.[233] - v_rev_rates.[232]));
  (*2207*) Do (SubA v_sp_rates 40 (v_fwd_rates.[234] - v_rev_rates.[233]));
  (*2209*) Do (AddA v_sp_rates 1 (v_fwd_rates.[234] - v_rev_rates.[233]));
  (*2211*) Do (SubA v_sp_rates 4 (v_fwd_rates.[234] - v_rev_rates.[233]));
  (*2213*) Do (Asn v_sp_rates 45 (v_fwd_rates.[234] - v_rev_rates.[233]));
  (*2217*) Do (SubA v_sp_rates 40 (v_fwd_rates.[235] - v_rev_rates.[234]));
  (*2219*) Do (AddA v_sp_rates 32 (v_fwd_rates.[235] - v_rev_rates.[234]));
  (*2221*) Do (SubA v_sp_rates 4 (v_fwd_rates.[235] - v_rev_rates.[234]));
  (*2223*) Do (AddA v_sp_rates 14 (v_fwd_rates.[235] - v_rev_rates.[234]));
  (*2227*) Do (SubA v_sp_rates 40 ((v_fwd_rates.[236] - v_rev_rates.[235]) * v_pres_mod.[33]));
  (*2229*) Do (SubA v_sp_rates 1 ((v_fwd_rates.[236] - v_rev_rates.[235]) * v_pres_mod.[33]));
  (*2231*) Do (Asn v_sp_rates 41 ((v_fwd_rates.[236] - v_rev_rates.[235]) * v_pres_mod.[33]));
  (*2235*) Do (SubA v_sp_rates 41 (v_fwd_rates.[237] - v_rev_rates.[236]));
  (*2237*) Do (AddA v_sp_rates 10 (v_fwd_rates.[237] - v_rev_rates.[236]));
  (*2239*) Do (AddA v_dy_N 0 (v_fwd_rates.[237] - v_rev_rates.[236]));
  (*2241*) Do (SubA v_sp_rates 30 (v_fwd_rates.[237] - v_rev_rates.[236]));
  (*2245*) Do (SubA v_sp_rates 8 (v_fwd_rates.[238] - v_rev_rates.[237]));
  (*2247*) Do (SubA v_dy_N 0 (v_fwd_rates.[238] - v_rev_rates.[237]));
  (*2249*) Do (AddA v_sp_rates 30 (v_fwd_rates.[238] - v_rev_rates.[237]));
  (*2251*) Do (AddA v_sp_rates 39 (v_fwd_rates.[238] - v_rev_rates.[237]));
  (*2255*) Do (AddA v_sp_rates 40 (v_fwd_rates.[239] - v_rev_rates.[238]));
  (*2257*) Do (SubA v_sp_rates 9 (v_fwd_rates.[239] - v_rev_rates.[238]));
  (*2259*) Do (SubA v_dy_N 0 (v_fwd_rates.[239] - v_rev_rates.[238]));
  (*2261*) Do (AddA v_sp_rates 30 (v_fwd_rates.[239] - v_rev_rates.[238]));
  (*2265*) Do (SubA v_sp_rates 9 ((v_fwd_rates.[240] - v_rev_rates.[239]) * v_pres_mod.[34]));
  (*2267*) Do (Asn v_sp_rates 42 ((v_fwd_rates.[240] - v_rev_rates.[239]) * v_pres_mod.[34]));
  (*2269*) Do (SubA v_dy_N 0 ((v_fwd_rates.[240] - v_rev_rates.[239]) * v_pres_mod.[34]));
  (*2273*) Do (AddA v_sp_rates 40 (v_fwd_rates.[241] - v_rev_rates.[240]));
  (*2275*) Do (SubA v_sp_rates 10 (v_fwd_rates.[241] - v_rev_rates.[240]));
  (*2277*) Do (SubA v_dy_N 0 (v_fwd_rates.[241] - v_rev_rates.[240]));
  (*2279*) Do (AddA v_sp_rates 31 (v_fwd_rates.[241] - v_rev_rates.[240]));
  (*2283*) Do (AddA v_sp_rates 40 (v_fwd_rates.[242] - v_rev_rates.[241]));
  (*2285*) Do (SubA v_sp_rates 11 (v_fwd_rates.[242] - v_rev_rates.[241]));
  (*2287*) Do (SubA v_dy_N 0 (v_fwd_rates.[242] - v_rev_rates.[241]));
  (*2289*) Do (AddA v_sp_rates 31 (v_fwd_rates.[242] - v_rev_rates.[241]));
  (*2293*) Do (SubA v_sp_rates 8 (v_fwd_rates.[243] - v_rev_rates.[242]));
  (*2295*) Do (AddA v_sp_rates 2 (v_fwd_rates.[243] - v_rev_rates.[242]));
  (*2297*) Do (SubA v_sp_rates 35 (v_fwd_rates.[243] - v_rev_rates.[242]));
  (*2299*) Do (AddA v_sp_rates 39 (v_fwd_rates.[243] - v_rev_rates.[242]));
  (*2303*) Do (SubA v_sp_rates 8 (v_fwd_rates.[244] - v_rev_rates.[243]));
  (*2305*) Do (SubA v_sp_rates 35 (v_fwd_rates.[244] - v_rev_rates.[243]));
  (*2307*) Do (AddA v_sp_rates 30 (v_fwd_rates.[244] - v_rev_rates.[243]));
  (*2309*) Do (AddA v_sp_rates 14 (v_fwd_rates.[244] - v_rev_rates.[243]));
  (*2313*) Do (AddA v_sp_rates 40 (v_fwd_rates.[245] - v_rev_rates.[244]));
  (*2315*) Do (SubA v_sp_rates 9 (v_fwd_rates.[245] - v_rev_rates.[244]));
  (*2317*) Do (AddA v_sp_rates 2 (v_fwd_rates.[245] - v_rev_rates.[244]));
  (*2319*) Do (SubA v_sp_rates 35 (v_fwd_rates.[245] - v_rev_rates.[244]));
  (*2323*) Do (SubA v_sp_rates 9 (v_fwd_rates.[246] - v_rev_rates.[245]));
  (*2325*) Do (SubA v_sp_rates 35 (v_fwd_rates.[246] - v_rev_rates.[245]));
  (*2327*) Do (AddA v_sp_rates 46 (v_fwd_rates.[246] - v_rev_rates.[245]));
  (*2329*) Do (AddA v_sp_rates 1 (v_fwd_rates.[246] - v_rev_rates.[245]));
  (*2333*) Do (AddA v_sp_rates 16 (v_fwd_rates.[247] - v_rev_rates.[246]));
  (*2335*) Do (SubA v_sp_rates 9 (v_fwd_rates.[247] - v_rev_rates.[246]));
  (*2337*) Do (SubA v_sp_rates 35 (v_fwd_rates.[247] - v_rev_rates.[246]));
  (*2339*) Do (AddA v_sp_rates 30 (v_fwd_rates.[247] - v_rev_rates.[246]));
  (*2343*) Do (AddA v_sp_rates 1 (v_fwd_rates.[248] - v_rev_rates.[247]));
  (*2345*) Do (SubA v_sp_rates 10 (v_fwd_rates.[248] - v_rev_rates.[247]));
  (*2347*) Do (SubA v_sp_rates 35 (v_fwd_rates.[248] - v_rev_rates.[247]));
  (*2349*) Do (AddA v_sp_rates 45 (v_fwd_rates.[248] - v_rev_rates.[247]));
  (*2353*) Do (AddA v_sp_rates 40 (v_fwd_rates.[249] - v_rev_rates.[248]));
  (*2355*) Do (SubA v_sp_rates 10 (v_fwd_rates.[249] - v_rev_rates.[248]));
  (*2357*) Do (SubA v_sp_rates 35 (v_fwd_rates.[249] - v_rev_rates.[248]));
  (*2359*) Do (AddA v_sp_rates 4 (v_fwd_rates.[249] - v_rev_rates.[248]));
  (*2363*) Do (AddA v_sp_rates 1 (v_fwd_rates.[250] - v_rev_rates.[249]));
  (*2365*) Do (SubA v_sp_rates 10 (v_fwd_rates.[250] - v_rev_rates.[249]));
  (*2367*) Do (SubA v_sp_rates 35 (v_fwd_rates.[250] - v_rev_rates.[249]));
  (*2369*) Do (Asn v_sp_rates 43 (v_fwd_rates.[250] - v_rev_rates.[249]));
  (*2373*) Do (SubA v_sp_rates 35 (v_fwd_rates.[251] - v_rev_rates.[250]));
  (*2375*) Do (SubA v_sp_rates 11 (v_fwd_rates.[251] - v_rev_rates.[250]));
  (*2377*) Do (AddA v_sp_rates 45 (v_fwd_rates.[251] - v_rev_rates.[250]));
  (*2379*) Do (AddA v_sp_rates 1 (v_fwd_rates.[251] - v_rev_rates.[250]));
  (*2383*) Do (AddA v_sp_rates 40 (v_fwd_rates.[252] - v_rev_rates.[251]));
  (*2385*) Do (SubA v_sp_rates 35 (v_fwd_rates.[252] - v_rev_rates.[251]));
  (*2387*) Do (SubA v_sp_rates 11 (v_fwd_rates.[252] - v_rev_rates.[251]));
  (*2389*) Do (AddA v_sp_rates 4 (v_fwd_rates.[252] - v_rev_rates.[251]));
  (*2393*) Do (SubA v_sp_rates 35 (v_fwd_rates.[253] - v_rev_rates.[252]));
  (*2395*) Do (SubA v_sp_rates 11 (v_fwd_rates.[253] - v_rev_rates.[252]));
  (*2397*) Do (AddA v_sp_rates 43 (v_fwd_rates.[253] - v_rev_rates.[252]));
  (*2399*) Do (AddA v_sp_rates 1 (v_fwd_rates.[253] - v_rev_rates.[252]));
  (*2403*) Do (AddA v_sp_rates 40 (v_fwd_rates.[254] - v_rev_rates.[253]));
  (*2405*) Do (SubA v_sp_rates 35 (v_fwd_rates.[254] - v_rev_rates.[253]));
  (*2407*) Do (SubA v_sp_rates 12 (v_fwd_rates.[254] - v_rev_rates.[253]));
  (*2409*) Do (AddA v_sp_rates 5 (v_fwd_rates.[254] - v_rev_rates.[253]));
  (*2413*) Do (AddA v_sp_rates 41 (v_fwd_rates.[255] - v_rev_rates.[254]));
  (*2415*) Do (SubA v_sp_rates 35 (v_fwd_rates.[255] - v_rev_rates.[254]));
  (*2417*) Do (SubA v_sp_rates 12 (v_fwd_rates.[255] - v_rev_rates.[254]));
  (*2419*) Do (AddA v_sp_rates 4 (v_fwd_rates.[255] - v_rev_rates.[254]));
  (*2423*) Do (AddA v_sp_rates 1 (v_fwd_rates.[256] - v_rev_rates.[255]));
  (*2425*) Do (SubA v_sp_rates 2 (v_fwd_rates.[256] - v_rev_rates.[255]));
  (*2427*) Do (AddA v_dy_N 0 (v_fwd_rates.[256] - v_rev_rates.[255]));
  (*2429*) Do (SubA v_sp_rates 42 (v_fwd_rates.[256] - v_rev_rates.[255]));
  (*2431*) Do (AddA v_sp_rates 14 (v_fwd_rates.[256] - v_rev_rates.[255]));
  (*2435*) Do (AddA v_sp_rates 40 (v_fwd_rates.[257] - v_rev_rates.[256]));
  (*2437*) Do (SubA v_sp_rates 2 (v_fwd_rates.[257] - v_rev_rates.[256]));
  (*2439*) Do (AddA v_sp_rates 35 (v_fwd_rates.[257] - v_rev_rates.[256]));
  (*2441*) Do (SubA v_sp_rates 42 (v_fwd_rates.[257] - v_rev_rates.[256]));
  (*2445*) Do (AddA v_sp_rates 16 (v_fwd_rates.[258] - v_rev_rates.[257]));
  (*2447*) Do (SubA v_sp_rates 42 (v_fwd_rates.[258] - v_rev_rates.[257]));
  (*2449*) Do (SubA v_sp_rates 3 (v_fwd_rates.[258] - v_rev_rates.[257]));
  (*2451*) Do (AddA v_dy_N 0 (v_fwd_rates.[258] - v_rev_rates.[257]));
  (*2453*) Do (AddA v_sp_rates 2 (v_fwd_rates.[258] - v_rev_rates.[257]));
  (*2457*) Do (AddA v_sp_rates 16 (v_fwd_rates.[259] - v_rev_rates.[258]));
  (*2459*) Do (AddA v_sp_rates 1 (v_fwd_rates.[259] - v_rev_rates.[258]));
  (*2461*) Do (SubA v_sp_rates 42 (v_fwd_rates.[259] - v_rev_rates.[258]));
  (*2463*) Do (SubA v_sp_rates 4 (v_fwd_rates.[259] - v_rev_rates.[258]));
  (*2465*) Do (AddA v_dy_N 0 (v_fwd_rates.[259] - v_rev_rates.[258]));
  (*2469*) Do (SubA v_sp_rates 1 (v_fwd_rates.[260] - v_rev_rates.[259]));
  (*2471*) Do (SubA v_sp_rates 42 (v_fwd_rates.[260] - v_rev_rates.[259]));
  (*2473*) Do (AddA v_dy_N 0 (v_fwd_rates.[260] - v_rev_rates.[259]));
  (*2475*) Do (AddA v_sp_rates 10 (v_fwd_rates.[260] - v_rev_rates.[259]));
  (*2479*) Do (SubA v_sp_rates 2 (v_fwd_rates.[261] - v_rev_rates.[260]));
  (*2481*) Do (AddA v_sp_rates 15 (v_fwd_rates.[261] - v_rev_rates.[260]));
  (*2483*) Do (SubA v_sp_rates 45 (v_fwd_rates.[261] - v_rev_rates.[260]));
  (*2485*) Do (AddA v_sp_rates 31 (v_fwd_rates.[261] - v_rev_rates.[260]));
  (*2489*) Do (SubA v_sp_rates 2 (v_fwd_rates.[262] - v_rev_rates.[261]));
  (*2491*) Do (AddA v_sp_rates 38 (v_fwd_rates.[262] - v_rev_rates.[261]));
  (*2493*) Do (SubA v_sp_rates 45 (v_fwd_rates.[262] - v_rev_rates.[261]));
  (*2495*) Do (AddA v_sp_rates 14 (v_fwd_rates.[262] - v_rev_rates.[261]));
  (*2499*) Do (SubA v_sp_rates 2 (v_fwd_rates.[263] - v_rev_rates.[262]));
  (*2501*) Do (AddA v_sp_rates 4 (v_fwd_rates.[263] - v_rev_rates.[262]));
  (*2503*) Do (SubA v_sp_rates 45 (v_fwd_rates.[263] - v_rev_rates.[262]));
  (*2505*) Do (AddA v_sp_rates 46 (v_fwd_rates.[263] - v_rev_rates.[262]));
  (*2509*) Do (AddA v_sp_rates 32 (v_fwd_rates.[264] - v_rev_rates.[263]));
  (*2511*) Do (SubA v_sp_rates 1 (v_fwd_rates.[264] - v_rev_rates.[263]));
  (*2513*) Do (SubA v_sp_rates 45 (v_fwd_rates.[264] - v_rev_rates.[263]));
  (*2515*) Do (AddA v_sp_rates 14 (v_fwd_rates.[264] - v_rev_rates.[263]));
  (*2519*) Do (AddA v_sp_rates 0 (v_fwd_rates.[265] - v_rev_rates.[264]));
  (*2521*) Do (SubA v_sp_rates 1 (v_fwd_rates.[265] - v_rev_rates.[264]));
  (*2523*) Do (SubA v_sp_rates 45 (v_fwd_rates.[265] - v_rev_rates.[264]));
  (*2525*) Do (AddA v_sp_rates 46 (v_fwd_rates.[265] - v_rev_rates.[264]));
  (*2529*) Do (SubA v_sp_rates 4 (v_fwd_rates.[266] - v_rev_rates.[265]));
  (*2531*) Do (SubA v_sp_rates 45 (v_fwd_rates.[266] - v_rev_rates.[265]));
  (*2533*) Do (AddA v_sp_rates 46 (v_fwd_rates.[266] - v_rev_rates.[265]));
  (*2535*) Do (AddA v_sp_rates 5 (v_fwd_rates.[266] - v_rev_rates.[265]));
  (*2539*) Do (AddA v_sp_rates 32 (v_fwd_rates.[267] - v_rev_rates.[266]));
  (*2541*) Do (SubA v_sp_rates 4 (v_fwd_rates.[267] - v_rev_rates.[266]));
  (*2543*) Do (SubA v_sp_rates 45 (v_fwd_rates.[267] - v_rev_rates.[266]));
  (*2545*) Do (AddA v_sp_rates 15 (v_fwd_rates.[267] - v_rev_rates.[266]));
  (*2549*) Do (SubA v_sp_rates 45 ((v_fwd_rates.[268] - v_rev_rates.[267]) * v_pres_mod.[35]));
  (*2551*) Do (AddA v_sp_rates 14 ((v_fwd_rates.[268] - v_rev_rates.[267]) * v_pres_mod.[35]));
  (*2553*) Do (AddA v_sp_rates 31 ((v_fwd_rates.[268] - v_rev_rates.[267]) * v_pres_mod.[35]));
  (*2557*) Do (SubA v_sp_rates 43 (v_fwd_rates.[269] - v_rev_rates.[268]));
  (*2559*) Do (AddA v_sp_rates 45 (v_fwd_rates.[269] - v_rev_rates.[268]));
  (*2563*) Do (AddA v_sp_rates 40 (v_fwd_rates.[270] - v_rev_rates.[269]));
  (*2565*) Do (SubA v_sp_rates 1 (v_fwd_rates.[270] - v_rev_rates.[269]));
  (*2567*) Do (SubA v_sp_rates 43 (v_fwd_rates.[270] - v_rev_rates.[269]));
  (*2569*) Do (AddA v_sp_rates 4 (v_fwd_rates.[270] - v_rev_rates.[269]));
  (*2573*) Do (AddA v_sp_rates 32 (v_fwd_rates.[271] - v_rev_rates.[270]));
  (*2575*) Do (SubA v_sp_rates 1 (v_fwd_rates.[271] - v_rev_rates.[270]));
  (*2577*) Do (SubA v_sp_rates 43 (v_fwd_rates.[271] - v_rev_rates.[270]));
  (*2579*) Do (AddA v_sp_rates 14 (v_fwd_rates.[271] - v_rev_rates.[270]));
  (*2583*) Do (SubA v_sp_rates 44 (v_fwd_rates.[272] - v_rev_rates.[271]));
  (*2585*) Do (AddA v_sp_rates 45 (v_fwd_rates.[272] - v_rev_rates.[271]));
  (*2589*) Do (SubA v_sp_rates 35 (v_fwd_rates.[273] - v_rev_rates.[272]));
  (*2591*) Do (SubA v_sp_rates 27 (v_fwd_rates.[273] - v_rev_rates.[272]));
  (*2593*) Do (AddA v_sp_rates 14 (v_fwd_rates.[273] - v_rev_rates.[272]));
  (*2595*) Do (AddA v_sp_rates 43 (v_fwd_rates.[273] - v_rev_rates.[272]));
  (*2599*) Do (AddA v_sp_rates 1 (v_fwd_rates.[274] - v_rev_rates.[273]));
  (*2601*) Do (SubA v_sp_rates 12 (v_fwd_rates.[274] - v_rev_rates.[273]));
  (*2603*) Do (SubA v_sp_rates 30 (v_fwd_rates.[274] - v_rev_rates.[273]));
  (*2605*) Do (AddA v_sp_rates 41 (v_fwd_rates.[274] - v_rev_rates.[273]));
  (*2609*) Do (AddA v_sp_rates 0 (v_fwd_rates.[275] - v_rev_rates.[274]));
  (*2611*) Do (AddA v_sp_rates 40 (v_fwd_rates.[275] - v_rev_rates.[274]));
  (*2613*) Do (SubA v_sp_rates 12 (v_fwd_rates.[275] - v_rev_rates.[274]));
  (*2615*) Do (SubA v_sp_rates 30 (v_fwd_rates.[275] - v_rev_rates.[274]));
  (*2619*) Do (AddA v_sp_rates 0 (v_fwd_rates.[276] - v_rev_rates.[275]));
  (*2621*) Do (SubA v_sp_rates 1 (v_fwd_rates.[276] - v_rev_rates.[275]));
  (*2623*) Do (AddA v_sp_rates 32 (v_fwd_rates.[276] - v_rev_rates.[275]));
  (*2625*) Do (Asn v_sp_rates 33 ((- (v_fwd_rates.[276] - v_rev_rates.[275]))));
  (*2629*) Do (AddA v_sp_rates 32 (v_fwd_rates.[277] - v_rev_rates.[276]));
  (*2631*) Do (SubA v_sp_rates 33 (v_fwd_rates.[277] - v_rev_rates.[276]));
  (*2633*) Do (SubA v_sp_rates 4 (v_fwd_rates.[277] - v_rev_rates.[276]));
  (*2635*) Do (AddA v_sp_rates 5 (v_fwd_rates.[277] - v_rev_rates.[276]));
  (*2639*) Do (AddA v_sp_rates 32 (v_fwd_rates.[278] - v_rev_rates.[277]));
  (*2641*) Do (SubA v_sp_rates 33 (v_fwd_rates.[278] - v_rev_rates.[277]));
  (*2643*) Do (SubA v_sp_rates 2 (v_fwd_rates.[278] - v_rev_rates.[277]));
  (*2645*) Do (AddA v_sp_rates 4 (v_fwd_rates.[278] - v_rev_rates.[277]));
  (*2649*) Do (SubA v_sp_rates 15 (v_fwd_rates.[279] - v_rev_rates.[278]));
  (*2651*) Do (AddA v_sp_rates 38 (v_fwd_rates.[279] - v_rev_rates.[278]));
  (*2653*) Do (AddA v_sp_rates 14 (v_fwd_rates.[279] - v_rev_rates.[278]));
  (*2655*) Do (SubA v_sp_rates 31 (v_fwd_rates.[279] - v_rev_rates.[278]));
  (*2659*) Do (AddA v_sp_rates 35 (v_fwd_rates.[280] - v_rev_rates.[279]));
  (*2661*) Do (SubA v_sp_rates 36 (v_fwd_rates.[280] - v_rev_rates.[279]));
  (*2663*) Do (AddA v_sp_rates 46 (v_fwd_rates.[280] - v_rev_rates.[279]));
  (*2665*) Do (SubA v_sp_rates 39 (v_fwd_rates.[280] - v_rev_rates.[279]));
  (*2669*) Do (SubA v_sp_rates 36 (v_fwd_rates.[281] - v_rev_rates.[280]));
  (*2671*) Do (AddA v_sp_rates 37 (v_fwd_rates.[281] - v_rev_rates.[280]));
  (*2673*) Do (SubA v_sp_rates 46 (v_fwd_rates.[281] - v_rev_rates.[280]));
  (*2675*) Do (AddA v_sp_rates 15 (v_fwd_rates.[281] - v_rev_rates.[280]));
  (*2679*) Do (AddA v_sp_rates 35 (v_fwd_rates.[282] - v_rev_rates.[281]));
  (*2681*) Do (AddA v_sp_rates 14 (v_fwd_rates.[282] - v_rev_rates.[281]));
  (*2683*) Do (SubA v_sp_rates 30 (v_fwd_rates.[282] - v_rev_rates.[281]));
  (*2685*) Do (SubA v_sp_rates 15 (v_fwd_rates.[282] - v_rev_rates.[281]));
  (*2689*) Do (AddA v_sp_rates 0 (v_fwd_rates.[283]));
  (*2691*) Do (AddA v_sp_rates 1 (v_fwd_rates.[283]));
  (*2693*) Do (SubA v_sp_rates 2 (v_fwd_rates.[283]));
  (*2695*) Do (SubA v_sp_rates 12 (v_fwd_rates.[283]));
  (*2697*) Do (AddA v_sp_rates 14 (v_fwd_rates.[283]));
  (*2701*) Do (SubA v_sp_rates 24 (v_fwd_rates.[284] - v_rev_rates.[282]));
  (*2703*) Do (AddA v_sp_rates 1 (v_fwd_rates.[284] - v_rev_rates.[282]));
  (*2705*) Do (SubA v_sp_rates 2 (v_fwd_rates.[284] - v_rev_rates.[282]));
  (*2707*) Do (Asn v_sp_rates 50 (v_fwd_rates.[284] - v_rev_rates.[282]));
  (*2711*) Do (SubA v_sp_rates 25 (v_fwd_rates.[285] - v_rev_rates.[283]));
  (*2713*) Do (SubA v_sp_rates 2 (v_fwd_rates.[285] - v_rev_rates.[283]));
  (*2715*) Do (Asn v_sp_rates 51 (v_fwd_rates.[285] - v_rev_rates.[283]));
  (*2717*) Do (AddA v_sp_rates 1 (v_fwd_rates.[285] - v_rev_rates.[283]));
  (*2721*) Do (AddA v_sp_rates 3 (v_fwd_rates.[286] - v_rev_rates.[284]));
  (*2723*) Do (SubA v_sp_rates 4 (v_fwd_rates.[286] - v_rev_rates.[284]));
  (*2725*) Do (AddA v_sp_rates 5 (v_fwd_rates.[286] - v_rev_rates.[284]));
  (*2727*) Do (SubA v_sp_rates 6 (v_fwd_rates.[286] - v_rev_rates.[284]));
  (*2731*) Do (AddA v_sp_rates 0 (v_fwd_rates.[287]));
  (*2733*) Do (SubA v_sp_rates 4 (v_fwd_rates.[287]));
  (*2735*) Do (SubA v_sp_rates 12 (v_fwd_rates.[287]));
  (*2737*) Do (AddA v_sp_rates 17 (v_fwd_rates.[287]));
  (*2741*) Do (SubA v_sp_rates 0 ((v_fwd_rates.[288] - v_rev_rates.[285]) * v_pres_mod.[36]));
  (*2743*) Do (SubA v_sp_rates 9 ((v_fwd_rates.[288] - v_rev_rates.[285]) * v_pres_mod.[36]));
  (*2745*) Do (AddA v_sp_rates 12 ((v_fwd_rates.[288] - v_rev_rates.[285]) * v_pres_mod.[36]));
  (*2749*) Do (AddA v_sp_rates 1 (#2.0 * v_fwd_rates.[289]));
  (*2751*) Do (SubA v_sp_rates 10 (v_fwd_rates.[289]));
  (*2753*) Do (SubA v_sp_rates 3 (v_fwd_rates.[289]));
  (*2755*) Do (AddA v_sp_rates 15 (v_fwd_rates.[289]));
  (*2759*) Do (AddA v_sp_rates 17 (v_fwd_rates.[290] - v_rev_rates.[286]));
  (*2761*) Do (SubA v_sp_rates 10 (v_fwd_rates.[290] - v_rev_rates.[286]));
  (*2763*) Do (SubA v_sp_rates 3 (v_fwd_rates.[290] - v_rev_rates.[286]));
  (*2765*) Do (AddA v_sp_rates 2 (v_fwd_rates.[290] - v_rev_rates.[286]));
  (*2769*) Do (AddA v_sp_rates 1 (#2.0 * v_fwd_rates.[291]));
  (*2771*) Do (SubA v_sp_rates 10 (#2.0 * v_fwd_rates.[291]));
  (*2773*) Do (AddA v_sp_rates 22 (v_fwd_rates.[291]));
  (*2777*) Do (AddA v_sp_rates 0 (v_fwd_rates.[292]));
  (*2779*) Do (AddA v_sp_rates 17 (v_fwd_rates.[292]));
  (*2781*) Do (SubA v_sp_rates 11 (v_fwd_rates.[292]));
  (*2783*) Do (SubA v_sp_rates 5 (v_fwd_rates.[292]));
  (*2787*) Do (AddA v_sp_rates 50 (v_fwd_rates.[293] - v_rev_rates.[287]));
  (*2789*) Do (SubA v_sp_rates 3 (v_fwd_rates.[293] - v_rev_rates.[287]));
  (*2791*) Do (AddA v_sp_rates 2 (v_fwd_rates.[293] - v_rev_rates.[287]));
  (*2793*) Do (SubA v_sp_rates 23 (v_fwd_rates.[293] - v_rev_rates.[287]));
  (*2797*) Do (SubA v_sp_rates 3 (v_fwd_rates.[294] - v_rev_rates.[288]));
  (*2799*) Do (AddA v_sp_rates 22 (v_fwd_rates.[294] - v_rev_rates.[288]));
  (*2801*) Do (AddA v_sp_rates 6 (v_fwd_rates.[294] - v_rev_rates.[288]));
  (*2803*) Do (SubA v_sp_rates 23 (v_fwd_rates.[294] - v_rev_rates.[288]));
  (*2807*) Do (SubA v_sp_rates 2 (v_fwd_rates.[295] - v_rev_rates.[289]));
  (*2809*) Do (SubA v_sp_rates 51 (v_fwd_rates.[295] - v_rev_rates.[289]));
  (*2811*) Do (AddA v_sp_rates 4 (v_fwd_rates.[295] - v_rev_rates.[289]));
  (*2813*) Do (AddA v_sp_rates 50 (v_fwd_rates.[295] - v_rev_rates.[289]));
  (*2817*) Do (AddA v_sp_rates 4 (v_fwd_rates.[296]));
  (*2819*) Do (SubA v_sp_rates 2 (v_fwd_rates.[296]));
  (*2821*) Do (SubA v_sp_rates 51 (v_fwd_rates.[296]));
  (*2823*) Do (AddA v_sp_rates 12 (v_fwd_rates.[296]));
  (*2825*) Do (AddA v_sp_rates 14 (v_fwd_rates.[296]));
  (*2829*) Do (SubA v_sp_rates 3 (v_fwd_rates.[297]));
  (*2831*) Do (SubA v_sp_rates 51 (v_fwd_rates.[297]));
  (*2833*) Do (AddA v_sp_rates 12 (v_fwd_rates.[297]));
  (*2835*) Do (AddA v_sp_rates 6 (v_fwd_rates.[297]));
  (*2837*) Do (AddA v_sp_rates 14 (v_fwd_rates.[297]));
  (*2841*) Do (AddA v_sp_rates 0 (v_fwd_rates.[298] - v_rev_rates.[290]));
  (*2843*) Do (SubA v_sp_rates 1 (v_fwd_rates.[298] - v_rev_rates.[290]));
  (*2845*) Do (AddA v_sp_rates 50 (v_fwd_rates.[298] - v_rev_rates.[290]));
  (*2847*) Do (SubA v_sp_rates 51 (v_fwd_rates.[298] - v_rev_rates.[290]));
  (*2851*) Do (AddA v_sp_rates 0 (v_fwd_rates.[299]));
  (*2853*) Do (SubA v_sp_rates 1 (v_fwd_rates.[299]));
  (*2855*) Do (SubA v_sp_rates 51 (v_fwd_rates.[299]));
  (*2857*) Do (AddA v_sp_rates 12 (v_fwd_rates.[299]));
  (*2859*) Do (AddA v_sp_rates 14 (v_fwd_rates.[299]));
  (*2863*) Do (AddA v_sp_rates 12 (v_fwd_rates.[300]));
  (*2865*) Do (SubA v_sp_rates 51 (v_fwd_rates.[300]));
  (*2867*) Do (SubA v_sp_rates 4 (v_fwd_rates.[300]));
  (*2869*) Do (AddA v_sp_rates 5 (v_fwd_rates.[300]));
  (*2871*) Do (AddA v_sp_rates 14 (v_fwd_rates.[300]));
  (*2875*) Do (SubA v_sp_rates 51 (v_fwd_rates.[301]));
  (*2877*) Do (AddA v_sp_rates 12 (v_fwd_rates.[301]));
  (*2879*) Do (AddA v_sp_rates 14 (v_fwd_rates.[301]));
  (*2881*) Do (SubA v_sp_rates 6 (v_fwd_rates.[301]));
  (*2883*) Do (AddA v_sp_rates 7 (v_fwd_rates.[301]));
  (*2887*) Do (SubA v_sp_rates 51 (v_fwd_rates.[302]));
  (*2889*) Do (AddA v_sp_rates 13 (v_fwd_rates.[302]));
  (*2891*) Do (AddA v_sp_rates 14 (v_fwd_rates.[302]));
  (*2895*) Do (SubA v_sp_rates 1 ((v_fwd_rates.[303] - v_rev_rates.[291]) * v_pres_mod.[37]));
  (*2897*) Do (AddA v_sp_rates 50 ((v_fwd_rates.[303] - v_rev_rates.[291]) * v_pres_mod.[37]));
  (*2899*) Do (SubA v_sp_rates 28 ((v_fwd_rates.[303] - v_rev_rates.[291]) * v_pres_mod.[37]));
  (*2903*) Do (AddA v_sp_rates 1 (v_fwd_rates.[304]));
  (*2905*) Do (SubA v_sp_rates 50 (v_fwd_rates.[304]));
  (*2907*) Do (AddA v_sp_rates 10 (v_fwd_rates.[304]));
  (*2909*) Do (SubA v_sp_rates 2 (v_fwd_rates.[304]));
  (*2911*) Do (AddA v_sp_rates 15 (v_fwd_rates.[304]));
  (*2915*) Do (AddA v_sp_rates 17 (v_fwd_rates.[305]));
  (*2917*) Do (SubA v_sp_rates 50 (v_fwd_rates.[305]));
  (*2919*) Do (SubA v_sp_rates 3 (v_fwd_rates.[305]));
  (*2921*) Do (AddA v_sp_rates 4 (v_fwd_rates.[305]));
  (*2923*) Do (AddA v_sp_rates 14 (v_fwd_rates.[305]));
  (*2927*) Do (AddA v_sp_rates 16 (#2.0 * v_fwd_rates.[306]));
  (*2929*) Do (SubA v_sp_rates 50 (v_fwd_rates.[306]));
  (*2931*) Do (SubA v_sp_rates 3 (v_fwd_rates.[306]));
  (*2933*) Do (AddA v_sp_rates 4 (v_fwd_rates.[306]));
  (*2937*) Do (AddA v_sp_rates 16 (v_fwd_rates.[307] - v_rev_rates.[292]));
  (*2939*) Do (SubA v_sp_rates 1 (v_fwd_rates.[307] - v_rev_rates.[292]));
  (*2941*) Do (SubA v_sp_rates 50 (v_fwd_rates.[307] - v_rev_rates.[292]));
  (*2943*) Do (AddA v_sp_rates 12 (v_fwd_rates.[307] - v_rev_rates.[292]));
  (*2947*) Do (AddA v_sp_rates 0 (v_fwd_rates.[308] - v_rev_rates.[293]));
  (*2949*) Do (SubA v_sp_rates 1 (v_fwd_rates.[308] - v_rev_rates.[293]));
  (*2951*) Do (SubA v_sp_rates 50 (v_fwd_rates.[308] - v_rev_rates.[293]));
  (*2953*) Do (AddA v_sp_rates 28 (v_fwd_rates.[308] - v_rev_rates.[293]));
  (*2957*) Do (AddA v_sp_rates 28 (v_fwd_rates.[309] - v_rev_rates.[294]));
  (*2959*) Do (SubA v_sp_rates 50 (v_fwd_rates.[309] - v_rev_rates.[294]));
  (*2961*) Do (SubA v_sp_rates 4 (v_fwd_rates.[309] - v_rev_rates.[294]));
  (*2963*) Do (AddA v_sp_rates 5 (v_fwd_rates.[309] - v_rev_rates.[294]));
  (*2967*) Do (AddA v_sp_rates 16 (v_fwd_rates.[310] - v_rev_rates.[295]));
  (*2969*) Do (SubA v_sp_rates 50 (v_fwd_rates.[310] - v_rev_rates.[295]));
  (*2971*) Do (SubA v_sp_rates 4 (v_fwd_rates.[310] - v_rev_rates.[295]));
  (*2973*) Do (AddA v_sp_rates 18 (v_fwd_rates.[310] - v_rev_rates.[295]));
  (*2977*) Do (SubA v_sp_rates 25 ((v_fwd_rates.[311] - v_rev_rates.[296]) * v_pres_mod.[38]));
  (*2979*) Do (SubA v_sp_rates 12 ((v_fwd_rates.[311] - v_rev_rates.[296]) * v_pres_mod.[38]));
  (*2981*) Do (Asn v_sp_rates 49 ((v_fwd_rates.[311] - v_rev_rates.[296]) * v_pres_mod.[38]));
  (*2985*) Do (Asn v_sp_rates 48 (v_fwd_rates.[312] - v_rev_rates.[297]));
  (*2987*) Do (SubA v_sp_rates 49 (v_fwd_rates.[312] - v_rev_rates.[297]));
  (*2989*) Do (SubA v_sp_rates 2 (v_fwd_rates.[312] - v_rev_rates.[297]));
  (*2991*) Do (AddA v_sp_rates 4 (v_fwd_rates.[312] - v_rev_rates.[297]));
  (*2995*) Do (AddA v_sp_rates 0 (v_fwd_rates.[313] - v_rev_rates.[298]));
  (*2997*) Do (SubA v_sp_rates 1 (v_fwd_rates.[313] - v_rev_rates.[298]));
  (*2999*) Do (AddA v_sp_rates 48 (v_fwd_rates.[313] - v_rev_rates.[298]));
  (*3001*) Do (SubA v_sp_rates 49 (v_fwd_rates.[313] - v_rev_rates.[298]));
  (*3005*) Do (AddA v_sp_rates 48 (v_fwd_rates.[314] - v_rev_rates.[299]));
  (*3007*) Do (SubA v_sp_rates 49 (v_fwd_rates.[314] - v_rev_rates.[299]));
  (*3009*) Do (SubA v_sp_rates 4 (v_fwd_rates.[314] - v_rev_rates.[299]));
  (*3011*) Do (AddA v_sp_rates 5 (v_fwd_rates.[314] - v_rev_rates.[299]));
  (*3015*) Do (SubA v_sp_rates 48 (v_fwd_rates.[315] - v_rev_rates.[300]));
  (*3017*) Do (AddA v_sp_rates 49 (v_fwd_rates.[315] - v_rev_rates.[300]));
  (*3019*) Do (AddA v_sp_rates 6 (v_fwd_rates.[315] - v_rev_rates.[300]));
  (*3021*) Do (SubA v_sp_rates 7 (v_fwd_rates.[315] - v_rev_rates.[300]));
  (*3025*) Do (AddA v_sp_rates 48 (v_fwd_rates.[316] - v_rev_rates.[301]));
  (*3027*) Do (SubA v_sp_rates 49 (v_fwd_rates.[316] - v_rev_rates.[301]));
  (*3029*) Do (SubA v_sp_rates 12 (v_fwd_rates.[316] - v_rev_rates.[301]));
  (*3031*) Do (AddA v_sp_rates 13 (v_fwd_rates.[316] - v_rev_rates.[301]));
  (*3035*) Do (SubA v_sp_rates 24 ((v_fwd_rates.[317] - v_rev_rates.[302]) * v_pres_mod.[39]));
  (*3037*) Do (AddA v_sp_rates 48 ((v_fwd_rates.[317] - v_rev_rates.[302]) * v_pres_mod.[39]));
  (*3039*) Do (SubA v_sp_rates 12 ((v_fwd_rates.[317] - v_rev_rates.[302]) * v_pres_mod.[39]));
  (*3043*) Do (SubA v_sp_rates 48 (v_fwd_rates.[318] - v_rev_rates.[303]));
  (*3045*) Do (AddA v_sp_rates 17 (v_fwd_rates.[318] - v_rev_rates.[303]));
  (*3047*) Do (SubA v_sp_rates 2 (v_fwd_rates.[318] - v_rev_rates.[303]));
  (*3049*) Do (AddA v_sp_rates 25 (v_fwd_rates.[318] - v_rev_rates.[303]));
  (*3053*) Do (SubA v_sp_rates 48 ((v_fwd_rates.[319] - v_rev_rates.[304]) * v_pres_mod.[40]));
  (*3055*) Do (SubA v_sp_rates 1 ((v_fwd_rates.[319] - v_rev_rates.[304]) * v_pres_mod.[40]));
  (*3057*) Do (AddA v_sp_rates 49 ((v_fwd_rates.[319] - v_rev_rates.[304]) * v_pres_mod.[40]));
  (*3061*) Do (SubA v_sp_rates 48 (v_fwd_rates.[320] - v_rev_rates.[305]));
  (*3063*) Do (SubA v_sp_rates 1 (v_fwd_rates.[320] - v_rev_rates.[305]));
  (*3065*) Do (AddA v_sp_rates 12 (v_fwd_rates.[320] - v_rev_rates.[305]));
  (*3067*) Do (AddA v_sp_rates 25 (v_fwd_rates.[320] - v_rev_rates.[305]));
  (*3071*) Do (SubA v_sp_rates 48 (v_fwd_rates.[321] - v_rev_rates.[306]));
  (*3073*) Do (AddA v_sp_rates 25 (v_fwd_rates.[321] - v_rev_rates.[306]));
  (*3075*) Do (AddA v_sp_rates 18 (v_fwd_rates.[321] - v_rev_rates.[306]));
  (*3077*) Do (SubA v_sp_rates 4 (v_fwd_rates.[321] - v_rev_rates.[306]));
  (*3081*) Do (SubA v_sp_rates 48 (v_fwd_rates.[322] - v_rev_rates.[307]));
  (*3083*) Do (AddA v_sp_rates 49 (v_fwd_rates.[322] - v_rev_rates.[307]));
  (*3085*) Do (AddA v_sp_rates 3 (v_fwd_rates.[322] - v_rev_rates.[307]));
  (*3087*) Do (SubA v_sp_rates 6 (v_fwd_rates.[322] - v_rev_rates.[307]));
  (*3091*) Do (SubA v_sp_rates 48 (v_fwd_rates.[323]));
  (*3093*) Do (AddA v_sp_rates 17 (v_fwd_rates.[323]));
  (*3095*) Do (AddA v_sp_rates 4 (v_fwd_rates.[323]));
  (*3097*) Do (SubA v_sp_rates 6 (v_fwd_rates.[323]));
  (*3099*) Do (AddA v_sp_rates 25 (v_fwd_rates.[323]));
  (*3103*) Do (SubA v_sp_rates 48 (v_fwd_rates.[324] - v_rev_rates.[308]));
  (*3105*) Do (AddA v_sp_rates 25 (#2.0 * (v_fwd_rates.[324] - v_rev_rates.[308])));
  (*3107*) Do (SubA v_sp_rates 12 (v_fwd_rates.[324] - v_rev_rates.[308]));
  (*3110*) Do (Asn v_sp_rates 47 (#0.0))
].

(** [get_rxn_pres_mod], gri30/lib/src/rxn_rates_pres_mod.c:5-339. *)
Definition gri30_get_rxn_pres_mod : list stmt := [
  (*19*) Do (Asn v_logT 0 ((Log $v_T)));
  (*20*) Do (Asn v_m 0 ($v_pres / (#8.31446210e+03 * $v_T)));
  (*23*) Do (Asn v_pres_mod 0 ($v_m + #1.4 * v_C.[0] + #14.4 * v_C.[5] + #1.0 * v_C.[13] + #0.75 * v_C.[14] + #2.6 * v_C.[15] + #2.0 * v_C.[26] - #0.17 * v_C.[47]));
  (*26*) Do (Asn v_pres_mod 1 ($v_m + #1.0 * v_C.[0] + #5.0 * v_C.[5] + #1.0 * v_C.[13] + #0.5 * v_C.[14] + #1.0 * v_C.[15] + #2.0 * v_C.[26] - #0.3 * v_C.[47]));
  (*29*) Do (Asn v_thd 0 ($v_m + #1.0 * v_C.[0] + #5.0 * v_C.[3] + #5.0 * v_C.[5] + #1.0 * v_C.[13] + #0.5 * v_C.[14] + #2.5 * v_C.[15] + #2.0 * v_C.[26] - #0.5 * v_C.[47]));
  (*30*) Do (Asn v_k0 0 ((Exp (#2.0215768003273094e+01 - #1.5096586945774879e+03 / $v_T))));
  (*31*) Do (Asn v_kinf 0 ((Exp (#1.6705882315860439e+01 - #1.2001786621891029e+03 / $v_T))));
  (*32*) Do (Asn v_Pr 0 ($v_k0 * $v_thd / $v_kinf));
  (*33*) Do (Asn v_pres_mod 2 ($v_Pr / (#1.0 + $v_Pr)));
  (*36*) Do (Asn v_pres_mod 3 ($v_m - #1.0 * v_C.[3] - #1.0 * v_C.[5] - #0.25 * v_C.[14] + #0.5 * v_C.[15] + #0.5 * v_C.[26] - #1.0 * v_C.[52] - #1.0 * v_C.[47]));
  (*39*) Do (Asn v_pres_mod 4 ($v_m - #1.0 * v_C.[0] - #1.0 * v_C.[5] + #1.0 * v_C.[13] - #1.0 * v_C.[15] + #2.0 * v_C.[26] - #0.37 * v_C.[47]));
  (*42*) Do (Asn v_pres_mod 5 ($v_m - #0.27 * v_C.[0] + #2.65 * v_C.[5] + #1.0 * v_C.[13] + #2.0 * v_C.[26] - #0.62 * v_C.[47]));
  (*45*) Do (Asn v_thd 0 ($v_m + #1.0 * v_C.[0] + #5.0 * v_C.[5] + #1.0 * v_C.[13] + #0.5 * v_C.[14] + #1.0 * v_C.[15] + #2.0 * v_C.[26] - #0.3 * v_C.[47]));
  (*46*) Do (Asn v_k0 0 ((Exp (#4.6090922573034192e+01 - #2.76 * $v_logT - #8.0515130377466016e+02 / $v_T))));
  (*47*) Do (Asn v_kinf 0 (#6e+11));
  (*48*) Do (Asn v_Pr 0 ($v_k0 * $v_thd / $v_kinf));
  (*49*) Do (Asn v_logFcent 0 ((Log10 (Fmax (#4.38000000e-01 * (Exp ((- $v_T) / #9.10000000e+01)) + #5.62000000e-01 * (Exp ((- $v_T) / #5.83600000e+03)) + (Exp (#(-8.55200000e+03) / $v_T))) #1.0e-300))));
  (*50*) Do (Asn v_A 0 ((Log10 (Fmax $v_Pr #1.0e-300)) - #0.67 * $v_logFcent - #0.4));
  (*51*) Do (Asn v_B 0 (#0.806 - #1.1762 * $v_logFcent - #0.14 * (Log10 (Fmax $v_Pr #1.0e-300))));
  (*52*) Do (Asn v_pres_mod 6 ((Pow #10.0 ($v_logFcent / (#1.0 + $v_A * $v_A / ($v_B * $v_B)))) * $v_Pr / (#1.0 + $v_Pr)));
  (*55*) Do (Asn v_thd 0 ($v_m + #1.0 * v_C.[0] + #5.0 * v_C.[5] + #2.0 * v_C.[13] + #0.5 * v_C.[14] + #1.0 * v_C.[15] + #2.0 * v_C.[26] - #0.3 * v_C.[47]));
  (*56*) Do (Asn v_k0 0 ((Exp (#6.3132971828612241e+01 - #4.76 * $v_logT - #1.2278557382563567e+03 / $v_T))));
  (*57*) Do (Asn v_kinf 0 ((Exp (#3.0262909956065194e+01 - #0.534 * $v_logT - #2.6972568676451118e+02 / $v_T))));
  (*58*) Do (Asn v_Pr 0 ($v_k0 * $v_thd / $v_kinf));
  (*59*) Do (Asn v_logFcent 0 ((Log10 (Fmax (#2.17000000e-01 * (Exp ((- $v_T) / #7.40000000e+01)) + #7.83000000e-01 * (Exp ((- $v_T) / #2.94100000e+03)) + (Exp (#(-6.96400000e+03) / $v_T))) #1.0e-300))));
  (*60*) Do (Asn v_A 0 ((Log10 (Fmax $v_Pr #1.0e-300)) - #0.67 * $v_logFcent - #0.4));
  (*61*) Do (Asn v_B 0 (#0.806 - #1.1762 * $v_logFcent - #0.14 * (Log10 (Fmax $v_Pr #1.0e-300))));
  (*62*) Do (Asn v_pres_mod 7 ((Pow #10.0 ($v_logFcent / (#1.0 + $v_A * $v_A / ($v_B * $v_B)))) * $v_Pr / (#1.0 + $v_Pr)));
  (*65*) Do (Asn v_thd 0 ($v_m + #1.0 * v_C.[0] + #5.0 * v_C.[5] + #1.0 * v_C.[13] + #0.5 * v_C.[14] + #1.0 * v_C.[15] + #2.0 * v_C.[26] - #0.3 * v_C.[47]));
  (*66*) Do (Asn v_k0 0 ((Exp (#4.2350749824532706e+01 - #2.57 * $v_logT - #2.1386831506514412e+02 / $v_T))));
  (*67*) Do (Asn v_kinf 0 ((Exp (#2.0809443533187462e+01 + #0.48 * $v_logT - #(-1.3083708686338230e+02) / $v_T))));
  (*68*) Do (Asn v_Pr 0 ($v_k0 * $v_thd / $v_kinf));
  (*69*) Do (Asn v_logFcent 0 ((Log10 (Fmax (#2.17600000e-01 * (Exp ((- $v_T) / #2.71000000e+02)) + #7.82400000e-01 * (Exp ((- $v_T) / #2.75500000e+03)) + (Exp (#(-6.57000000e+03) / $v_T))) #1.0e-300))));
  (*70*) Do (Asn v_A 0 ((Log10 (Fmax $v_Pr #1.0e-300)) - #0.67 * $v_logFcent - #0.4));
  (*71*) Do (Asn v_B 0 (#0.806 - #1.1762 * $v_logFcent - #0.14 * (Log10 (Fmax $v_Pr #1.0e-300))));
  (*72*) Do (Asn v_pres_mod 8 ((Pow #10.0 ($v_logFcent / (#1.0 + $v_A * $v_A / ($v_B * $v_B)))) * $v_Pr / (#1.0 + $v_Pr)));
  (*75*) Do (Asn v_thd 0 ($v_m + #1.0 * v_C.[0] + #5.0 * v_C.[5] + #1.0 * v_C.[13] + #0.5 * v_C.[14] + #1.0 * v_C.[15] + #2.0 * v_C.[26]));
  (*76*) Do (Asn v_k0 0 ((Exp (#6.0106229318315691e+01 - #4.82 * $v_logT - #3.2860237585303321e+03 / $v_T))));
  (*77*) Do (Asn v_kinf 0 ((Exp (#2.0107079697522593e+01 + #0.454 * $v_logT - #1.8115904334929855e+03 / $v_T))));
  (*78*) Do (Asn v_Pr 0 ($v_k0 * $v_thd / $v_kinf));
  (*79*) Do (Asn v_logFcent 0 ((Log10 (Fmax (#2.81300000e-01 * (Exp ((- $v_T) / #1.03000000e+02)) + #7.18700000e-01 * (Exp ((- $v_T) / #1.29100000e+03)) + (Exp (#(-4.16000000e+03) / $v_T))) #1.0e-300))));
  (*80*) Do (Asn v_A 0 ((Log10 (Fmax $v_Pr #1.0e-300)) - #0.67 * $v_logFcent - #0.4));
  (*81*) Do (Asn v_B 0 (#0.806 - #1.1762 * $v_logFcent - #0.14 * (Log10 (Fmax $v_Pr #1.0e-300))));
  (*82*) Do (Asn v_pres_mod 9 ((Pow #10.0 ($v_logFcent / (#1.0 + $v_A * $v_A / ($v_B * $v_B)))) * $v_Pr / (#1.0 + $v_Pr)));
  (*85*) Do (Asn v_thd 0 ($v_m + #1.0 * v_C.[0] + #5.0 * v_C.[5] + #1.0 * v_C.[13] + #0.5 * v_C.[14] + #1.0 * v_C.[15] + #2.0 * v_C.[26]));
  (*86*) Do (Asn v_k0 0 ((Exp (#5.6050499592221364e+01 - #4.8 * $v_logT - #2.7979007806169443e+03 / $v_T))));
  (*87*) Do (Asn v_kinf 0 ((Exp (#2.0107079697522593e+01 + #0.454 * $v_logT - #1.3083708686338230e+03 / $v_T))));
  (*88*) Do (Asn v_Pr 0 ($v_k0 * $v_thd / $v_kinf));
  (*89*) Do (Asn v_logFcent 0 ((Log10 (Fmax (#2.42000000e-01 * (Exp ((- $v_T) / #9.40000000e+01)) + #7.58000000e-01 * (Exp ((- $v_T) / #1.55500000e+03)) + (Exp (#(-4.20000000e+03) / $v_T))) #1.0e-300))));
  (*90*) Do (Asn v_A 0 ((Log10 (Fmax $v_Pr #1.0e-300)) - #0.67 * $v_logFcent - #0.4));
  (*91*) Do (Asn v_B 0 (#0.806 - #1.1762 * $v_logFcent - #0.14 * (Log10 (Fmax $v_Pr #1.0e-300))));
  (*92*) Do (Asn v_pres_mod 10 ((Pow #10.0 ($v_logFcent / (#1.0 + $v_A * $v_A / ($v_B * $v_B)))) * $v_Pr / (#1.0 + $v_Pr)));
  (*95*) Do (Asn v_thd 0 ($v_m + #1.0 * v_C.[0] + #5.0 * v_C.[5] + #1.0 * v_C.[13] + #0.5 * v_C.[14] + #1.0 * v_C.[15] + #2.0 * v_C.[26]));
  (*96*) Do (Asn v_k0 0 ((Exp (#5.9037099382212084e+01 - #4.65 * $v_logT - #2.5563553894845463e+03 / $v_T))));
  (*97*) Do (Asn v_kinf 0 ((Exp (#2.0776806603874441e+01 + #0.5 * $v_logT - #4.3276882577887989e+01 / $v_T))));
  (*98*) Do (Asn v_Pr 0 ($v_k0 * $v_thd / $v_kinf));
  (*99*) Do (Asn v_logFcent 0 ((Log10 (Fmax (#4.00000000e-01 * (Exp ((- $v_T) / #1.00000000e+02)) + #6.00000000e-01 * (Exp ((- $v_T) / #9.00000000e+04)) + (Exp (#(-1.00000000e+04) / $v_T))) #1.0e-300))));
  (*100*) Do (Asn v_A 0 ((Log10 (Fmax $v_Pr #1.0e-300)) - #0.67 * $v_logFcent - #0.4));
  (*101*) Do (Asn v_B 0 (#0.806 - #1.1762 * $v_logFcent - #0.14 * (Log10 (Fmax $v_Pr #1.0e-300))));
  (*102*) Do (Asn v_pres_mod 11 ((Pow #10.0 ($v_logFcent / (#1.0 + $v_A * $v_A / ($v_B * $v_B)))) * $v_Pr / (#1.0 + $v_Pr)));
  (*105*) Do (Asn v_thd 0 ($v_m + #1.0 * v_C.[0] + #5.0 * v_C.[5] + #1.0 * v_C.[13] + #0.5 * v_C.[14] + #1.0 * v_C.[15] + #2.0 * v_C.[26]));
  (*106*) Do (Asn v_k0 0 ((Exp (#8.2129493702929153e+01 - #7.44 * $v_logT - #7.0853314732170102e+03 / $v_T))));
  (*107*) Do (Asn v_kinf 0 ((Exp (#2.1611157094298868e+01 + #0.515 * $v_logT - #2.5160978242958130e+01 / $v_T))));
  (*108*) Do (Asn v_Pr 0 ($v_k0 * $v_thd / $v_kinf));
  (*109*) Do (Asn v_logFcent 0 ((Log10 (Fmax (#3.00000000e-01 * (Exp ((- $v_T) / #1.00000000e+02)) + #7.00000000e-01 * (Exp ((- $v_T) / #9.00000000e+04)) + (Exp (#(-1.00000000e+04) / $v_T))) #1.0e-300))));
  (*110*) Do (Asn v_A 0 ((Log10 (Fmax $v_Pr #1.0e-300)) - #0.67 * $v_logFcent - #0.4));
  (*111*) Do (Asn v_B 0 (#0.806 - #1.1762 * $v_logFcent - #0.14 * (Log10 (Fmax $v_Pr #1.0e-300))));
  (*112*) Do (Asn v_pres_mod 12 ((Pow #10.0 ($v_logFcent / (#1.0 + $v_A * $v_A / ($v_B * $v_B)))) * $v_Pr / (#1.0 + $v_Pr)));
  (*115*) Do (Asn v_thd 0 ($v_m + #1.0 * v_C.[0] + #5.0 * v_C.[5] + #1.0 * v_C.[13] + #0.5 * v_C.[14] + #1.0 * v_C.[15] + #2.0 * v_C.[26] - #0.3 * v_C.[47]));
  (*116*) Do (Asn v_k0 0 ((Exp (#6.3491553350821555e+01 - #4.8 * $v_logT - #9.5611717323240896e+02 / $v_T))));
  (*117*) Do (Asn v_kinf 0 ((Exp (#3.2236191301916641e+01 - #1.0 * $v_logT))));
  (*118*) Do (Asn v_Pr 0 ($v_k0 * $v_thd / $v_kinf));
  (*119*) Do (Asn v_logFcent 0 ((Log10 (Fmax (#3.53600000e-01 * (Exp ((- $v_T) / #1.32000000e+02)) + #6.46400000e-01 * (Exp ((- $v_T) / #1.31500000e+03)) + (Exp (#(-5.56600000e+03) / $v_T))) #1.0e-300))));
  (*120*) Do (Asn v_A 0 ((Log10 (Fmax $v_Pr #1.0e-300)) - #0.67 * $v_logFcent - #0.4));
  (*121*) Do (Asn v_B 0 (#0.806 - #1.1762 * $v_logFcent - #0.14 * (Log10 (Fmax $v_Pr #1.0e-300))));
  (*122*) Do (Asn v_pres_mod 13 ((Pow #10.0 ($v_logFcent / (#1.0 + $v_A * $v_A / ($v_B * $v_B)))) * $v_Pr / (#1.0 + $v_Pr)));
  (*125*) Do (Asn v_thd 0 ($v_m + #1.0 * v_C.[0] + #5.0 * v_C.[5] + #1.0 * v_C.[13] + #0.5 * v_C.[14] + #1.0 * v_C.[15] + #2.0 * v_C.[26] - #0.3 * v_C.[47]));
  (*126*) Do (Asn v_k0 0 ((Exp (#7.9622894228529887e+01 - #7.27 * $v_logT - #3.6332452582831543e+03 / $v_T))));
  (*127*) Do (Asn v_kinf 0 ((Exp (#2.2446032434687513e+01 - #1.2077269556619904e+03 / $v_T))));
  (*128*) Do (Asn v_Pr 0 ($v_k0 * $v_thd / $v_kinf));
  (*129*) Do (Asn v_logFcent 0 ((Log10 (Fmax (#2.49300000e-01 * (Exp ((- $v_T) / #9.85000000e+01)) + #7.50700000e-01 * (Exp ((- $v_T) / #1.30200000e+03)) + (Exp (#(-4.16700000e+03) / $v_T))) #1.0e-300))));
  (*130*) Do (Asn v_A 0 ((Log10 (Fmax $v_Pr #1.0e-300)) - #0.67 * $v_logFcent - #0.4));
  (*131*) Do (Asn v_B 0 (#0.806 - #1.1762 * $v_logFcent - #0.14 * (Log10 (Fmax $v_Pr #1.0e-300))));
  (*132*) Do (Asn v_pres_mod 14 ((Pow #10.0 ($v_logFcent / (#1.0 + $v_A * $v_A / ($v_B * $v_B)))) * $v_Pr / (#1.0 + $v_Pr)));
  (*135*) Do (Asn v_thd 0 ($v_m + #1.0 * v_C.[0] + #5.0 * v_C.[5] + #1.0 * v_C.[13] + #0.5 * v_C.[14] + #1.0 * v_C.[15] + #2.0 * v_C.[26] - #0.3 * v_C.[47]));
  (*136*) Do (Asn v_k0 0 ((Exp (#5.5598514468478307e+01 - #3.86 * $v_logT - #1.6706889553324199e+03 / $v_T))));
  (*137*) Do (Asn v_kinf 0 ((Exp (#2.2528270532924488e+01 + #0.27 * $v_logT - #1.4090147816056555e+02 / $v_T))));
  (*138*) Do (Asn v_Pr 0 ($v_k0 * $v_thd / $v_kinf));
  (*139*) Do (Asn v_logFcent 0 ((Log10 (Fmax (#2.18000000e-01 * (Exp ((- $v_T) / #2.07500000e+02)) + #7.82000000e-01 * (Exp ((- $v_T) / #2.66300000e+03)) + (Exp (#(-6.09500000e+03) / $v_T))) #1.0e-300))));
  (*140*) Do (Asn v_A 0 ((Log10 (Fmax $v_Pr #1.0e-300)) - #0.67 * $v_logFcent - #0.4));
  (*141*) Do (Asn v_B 0 (#0.806 - #1.1762 * $v_logFcent - #0.14 * (Log10 (Fmax $v_Pr #1.0e-300))));
  (*142*) Do (Asn v_pres_mod 15 ((Pow #10.0 ($v_logFcent / (#1.0 + $v_A * $v_A / ($v_B * $v_B)))) * $v_Pr / (#1.0 + $v_Pr)));
  (*145*) Do (Asn v_thd 0 ($v_m + #1.0 * v_C.[0] + #5.0 * v_C.[5] + #1.0 * v_C.[13] + #0.5 * v_C.[14] + #1.0 * v_C.[15] + #2.0 * v_C.[26] - #0.3 * v_C.[47]));
  (*146*) Do (Asn v_k0 0 ((Exp (#8.2382237724019660e+01 - #7.62 * $v_logT - #3.5074403670683637e+03 / $v_T))));
  (*147*) Do (Asn v_kinf 0 ((Exp (#2.0107079697522593e+01 + #0.454 * $v_logT - #9.1585960804367608e+02 / $v_T))));
  (*148*) Do (Asn v_Pr 0 ($v_k0 * $v_thd / $v_kinf));
  (*149*) Do (Asn v_logFcent 0 ((Log10 (Fmax (#2.47000000e-02 * (Exp ((- $v_T) / #2.10000000e+02)) + #9.75300000e-01 * (Exp ((- $v_T) / #9.84000000e+02)) + (Exp (#(-4.37400000e+03) / $v_T))) #1.0e-300))));
  (*150*) Do (Asn v_A 0 ((Log10 (Fmax $v_Pr #1.0e-300)) - #0.67 * $v_logFcent - #0.4));
  (*151*) Do (Asn v_B 0 (#0.806 - #1.1762 * $v_logFcent - #0.14 * (Log10 (Fmax $v_Pr #1.0e-300))));
  (*152*) Do (Asn v_pres_mod 16 ((Pow #10.0 ($v_logFcent / (#1.0 + $v_A * $v_A / ($v_B * $v_B)))) * $v_Pr / (#1.0 + $v_Pr)));
  (*155*) Do (Asn v_thd 0 ($v_m + #1.0 * v_C.[0] + #5.0 * v_C.[5] + #1.0 * v_C.[13] + #0.5 * v_C.[14] + #1.0 * v_C.[15] + #2.0 * v_C.[26] - #0.3 * v_C.[47]));
  (*156*) Do (Asn v_k0 0 ((Exp (#8.1278612893528006e+01 - #7.08 * $v_logT - #3.3640227910835024e+03 / $v_T))));
  (*157*) Do (Asn v_kinf 0 ((Exp (#3.3886771157681913e+01 - #0.99 * $v_logT - #7.9508691247747697e+02 / $v_T))));
  (*158*) Do (Asn v_Pr 0 ($v_k0 * $v_thd / $v_kinf));
  (*159*) Do (Asn v_logFcent 0 ((Log10 (Fmax (#1.57800000e-01 * (Exp ((- $v_T) / #1.25000000e+02)) + #8.42200000e-01 * (Exp ((- $v_T) / #2.21900000e+03)) + (Exp (#(-6.88200000e+03) / $v_T))) #1.0e-300))));
  (*160*) Do (Asn v_A 0 ((Log10 (Fmax $v_Pr #1.0e-300)) - #0.67 * $v_logFcent - #0.4));
  (*161*) Do (Asn v_B 0 (#0.806 - #1.1762 * $v_logFcent - #0.14 * (Log10 (Fmax $v_Pr #1.0e-300))));
  (*162*) Do (Asn v_pres_mod 17 ((Pow #10.0 ($v_logFcent / (#1.0 + $v_A * $v_A / ($v_B * $v_B)))) * $v_Pr / (#1.0 + $v_Pr)));
  (*165*) Do (Asn v_thd 0 ($v_m + #1.0 * v_C.[0] + #5.0 * v_C.[5] + #1.0 * v_C.[13] + #0.5 * v_C.[14] + #1.0 * v_C.[15] + #2.0 * v_C.[26] - #0.3 * v_C.[47]));
  (*166*) Do (Asn v_k0 0 ((Exp (#4.9977627770478051e+01 - #3.42 * $v_logT - #4.2446570295870370e+04 / $v_T))));
  (*167*) Do (Asn v_kinf 0 ((Exp (#1.0668955394675699e+01 + #1.5 * $v_logT - #4.0056277362789348e+04 / $v_T))));
  (*168*) Do (Asn v_Pr 0 ($v_k0 * $v_thd / $v_kinf));
  (*169*) Do (Asn v_logFcent 0 ((Log10 (Fmax (#6.80000000e-02 * (Exp ((- $v_T) / #1.97000000e+02)) + #9.32000000e-01 * (Exp ((- $v_T) / #1.54000000e+03)) + (Exp (#(-1.03000000e+04) / $v_T))) #1.0e-300))));
  (*170*) Do (Asn v_A 0 ((Log10 (Fmax $v_Pr #1.0e-300)) - #0.67 * $v_logFcent - #0.4));
  (*171*) Do (Asn v_B 0 (#0.806 - #1.1762 * $v_logFcent - #0.14 * (Log10 (Fmax $v_Pr #1.0e-300))));
  (*172*) Do (Asn v_pres_mod 18 ((Pow #10.0 ($v_logFcent / (#1.0 + $v_A * $v_A / ($v_B * $v_B)))) * $v_Pr / (#1.0 + $v_Pr)));
  (*175*) Do (Asn v_thd 0 ($v_m + #1.0 * v_C.[0] + #5.0 * v_C.[5] + #1.0 * v_C.[13] + #0.5 * v_C.[14] + #1.0 * v_C.[15] + #2.0 * v_C.[26] - #0.3 * v_C.[47]));
  (*176*) Do (Asn v_k0 0 ((Exp (#2.8463930238863654e+01 - #0.9 * $v_logT - #(-8.5547326026057647e+02) / $v_T))));
  (*177*) Do (Asn v_kinf 0 ((Exp (#2.5027330930150580e+01 - #0.37 * $v_logT))));
  (*178*) Do (Asn v_Pr 0 ($v_k0 * $v_thd / $v_kinf));
  (*179*) Do (Asn v_logFcent 0 ((Log10 (Fmax (#2.65400000e-01 * (Exp ((- $v_T) / #9.40000000e+01)) + #7.34600000e-01 * (Exp ((- $v_T) / #1.75600000e+03)) + (Exp (#(-5.18200000e+03) / $v_T))) #1.0e-300))));
  (*180*) Do (Asn v_A 0 ((Log10 (Fmax $v_Pr #1.0e-300)) - #0.67 * $v_logFcent - #0.4));
  (*181*) Do (Asn v_B 0 (#0.806 - #1.1762 * $v_logFcent - #0.14 * (Log10 (Fmax $v_Pr #1.0e-300))));
  (*182*) Do (Asn v_pres_mod 19 ((Pow #10.0 ($v_logFcent / (#1.0 + $v_A * $v_A / ($v_B * $v_B)))) * $v_Pr / (#1.0 + $v_Pr)));
  (*185*) Do (Asn v_thd 0 ($v_m + #1.0 * v_C.[0] + #5.0 * v_C.[5] + #1.0 * v_C.[13] + #0.5 * v_C.[14] + #1.0 * v_C.[15] + #2.0 * v_C.[26]));
  (*186*) Do (Asn v_k0 0 ((Exp (#7.0463847150941262e+01 - #5.92 * $v_logT - #1.5801094336577708e+03 / $v_T))));
  (*187*) Do (Asn v_kinf 0 ((Exp (#3.5564817990743961e+01 - #1.43 * $v_logT - #6.6928202126268627e+02 / $v_T))));
  (*188*) Do (Asn v_Pr 0 ($v_k0 * $v_thd / $v_kinf));
  (*189*) Do (Asn v_logFcent 0 ((Log10 (Fmax (#5.88000000e-01 * (Exp ((- $v_T) / #1.95000000e+02)) + #4.12000000e-01 * (Exp ((- $v_T) / #5.90000000e+03)) + (Exp (#(-6.39400000e+03) / $v_T))) #1.0e-300))));
  (*190*) Do (Asn v_A 0 ((Log10 (Fmax $v_Pr #1.0e-300)) - #0.67 * $v_logFcent - #0.4));
  (*191*) Do (Asn v_B 0 (#0.806 - #1.1762 * $v_logFcent - #0.14 * (Log10 (Fmax $v_Pr #1.0e-300))));
  (*192*) Do (Asn v_pres_mod 20 ((Pow #10.0 ($v_logFcent / (#1.0 + $v_A * $v_A / ($v_B * $v_B)))) * $v_Pr / (#1.0 + $v_Pr)));
  (*195*) Do (Asn v_thd 0 ($v_m + #1.0 * v_C.[0] + #5.0 * v_C.[5] + #1.0 * v_C.[13] + #0.5 * v_C.[14] + #1.0 * v_C.[15] + #2.0 * v_C.[26] - #0.3 * v_C.[47]));
  (*196*) Do (Asn v_k0 0 ((Exp (#5.1646413239482754e+01 - #3.74 * $v_logT - #9.7423307756733891e+02 / $v_T))));
  (*197*) Do (Asn v_kinf 0 (#50000000000.0));
  (*198*) Do (Asn v_Pr 0 ($v_k0 * $v_thd / $v_kinf));
  (*199*) Do (Asn v_logFcent 0 ((Log10 (Fmax (#4.24300000e-01 * (Exp ((- $v_T) / #2.37000000e+02)) + #5.75700000e-01 * (Exp ((- $v_T) / #1.65200000e+03)) + (Exp (#(-5.06900000e+03) / $v_T))) #1.0e-300))));
  (*200*) Do (Asn v_A 0 ((Log10 (Fmax $v_Pr #1.0e-300)) - #0.67 * $v_logFcent - #0.4));
  (*201*) Do (Asn v_B 0 (#0.806 - #1.1762 * $v_logFcent - #0.14 * (Log10 (Fmax $v_Pr #1.0e-300))));
  (*202*) Do (Asn v_pres_mod 21 ((Pow #10.0 ($v_logFcent / (#1.0 + $v_A * $v_A / ($v_B * $v_B)))) * $v_Pr / (#1.0 + $v_Pr)));
  (*205*) Do (Asn v_thd 0 ($v_m + #1.0 * v_C.[0] + #5.0 * v_C.[5] + #1.0 * v_C.[13] + #0.5 * v_C.[14] + #1.0 * v_C.[15] + #2.0 * v_C.[26] - #0.3 * v_C.[47]));
  (*206*) Do (Asn v_k0 0 ((Exp (#6.3159338704452978e+01 - #5.11 * $v_logT - #3.5703428126757590e+03 / $v_T))));
  (*207*) Do (Asn v_kinf 0 ((Exp (#2.0512544805630757e+01 + #0.5 * $v_logT - #2.2695202375148233e+03 / $v_T))));
  (*208*) Do (Asn v_Pr 0 ($v_k0 * $v_thd / $v_kinf));
  (*209*) Do (Asn v_logFcent 0 ((Log10 (Fmax (#4.09300000e-01 * (Exp ((- $v_T) / #2.75000000e+02)) + #5.90700000e-01 * (Exp ((- $v_T) / #1.22600000e+03)) + (Exp (#(-5.18500000e+03) / $v_T))) #1.0e-300))));
  (*210*) Do (Asn v_A 0 ((Log10 (Fmax $v_Pr #1.0e-300)) - #0.67 * $v_logFcent - #0.4));
  (*211*) Do (Asn v_B 0 (#0.806 - #1.1762 * $v_logFcent - #0.14 * (Log10 (Fmax $v_Pr #1.0e-300))));
  (*212*) Do (Asn v_pres_mod 22 ((Pow #10.0 ($v_logFcent / (#1.0 + $v_A * $v_A / ($v_B * $v_B)))) * $v_Pr / (#1.0 + $v_Pr)));
  (*215*) Do (Asn v_thd 0 ($v_m + #1.0 * v_C.[0] + #5.0 * v_C.[5] + #1.0 * v_C.[13] + #0.5 * v_C.[14] + #1.0 * v_C.[15] + #2.0 * v_C.[26]));
  (*216*) Do (Asn v_k0 0 ((Exp (#7.4313994752651325e+01 - #6.36 * $v_logT - #2.5362266068901795e+03 / $v_T))));
  (*217*) Do (Asn v_kinf 0 ((Exp (#3.3808965229979151e+01 - #1.16 * $v_logT - #5.7618640176374117e+02 / $v_T))));
  (*218*) Do (Asn v_Pr 0 ($v_k0 * $v_thd / $v_kinf));
  (*219*) Do (Asn v_logFcent 0 ((Log10 (Fmax (#3.97300000e-01 * (Exp ((- $v_T) / #2.08000000e+02)) + #6.02700000e-01 * (Exp ((- $v_T) / #3.92200000e+03)) + (Exp (#(-1.01800000e+04) / $v_T))) #1.0e-300))));
  (*220*) Do (Asn v_A 0 ((Log10 (Fmax $v_Pr #1.0e-300)) - #0.67 * $v_logFcent - #0.4));
  (*221*) Do (Asn v_B 0 (#0.806 - #1.1762 * $v_logFcent - #0.14 * (Log10 (Fmax $v_Pr #1.0e-300))));
  (*222*) Do (Asn v_pres_mod 23 ((Pow #10.0 ($v_logFcent / (#1.0 + $v_A * $v_A / ($v_B * $v_B)))) * $v_Pr / (#1.0 + $v_Pr)));
  (*225*) Do (Asn v_thd 0 ($v_m + #1.0 * v_C.[0] + #5.0 * v_C.[5] + #1.0 * v_C.[13] + #0.5 * v_C.[14] + #1.0 * v_C.[15] + #2.0 * v_C.[26] - #0.3 * v_C.[47]));
  (*226*) Do (Asn v_k0 0 ((Exp (#8.1814253686413721e+01 - #7.03 * $v_logT - #1.3898924381410072e+03 / $v_T))));
  (*227*) Do (Asn v_kinf 0 ((Exp (#3.1846107295846778e+01 - #1.18 * $v_logT - #3.2910559541789235e+02 / $v_T))));
  (*228*) Do (Asn v_Pr 0 ($v_k0 * $v_thd / $v_kinf));
  (*229*) Do (Asn v_logFcent 0 ((Log10 (Fmax (#3.81000000e-01 * (Exp ((- $v_T) / #7.32000000e+01)) + #6.19000000e-01 * (Exp ((- $v_T) / #1.18000000e+03)) + (Exp (#(-9.99900000e+03) / $v_T))) #1.0e-300))));
  (*230*) Do (Asn v_A 0 ((Log10 (Fmax $v_Pr #1.0e-300)) - #0.67 * $v_logFcent - #0.4));
  (*231*) Do (Asn v_B 0 (#0.806 - #1.1762 * $v_logFcent - #0.14 * (Log10 (Fmax $v_Pr #1.0e-300))));
  (*232*) Do (Asn v_pres_mod 24 ((Pow #10.0 ($v_logFcent / (#1.0 + $v_A * $v_A / ($v_B * $v_B)))) * $v_Pr / (#1.0 + $v_Pr)));
  (*235*) Do (Asn v_pres_mod 25 ($v_m + #1.0 * v_C.[0] - #1.0 * v_C.[5] + #1.0 * v_C.[13] + #0.5 * v_C.[14] + #1.0 * v_C.[15] + #2.0 * v_C.[26]));
  (*238*) Do (Asn v_thd 0 ($v_m + #1.0 * v_C.[0] + #5.0 * v_C.[5] + #1.0 * v_C.[13] + #0.5 * v_C.[14] + #1.0 * v_C.[15] + #2.0 * v_C.[26] - #0.3 * v_C.[47]));
  (*239*) Do (Asn v_k0 0 ((Exp (#1.1098150931075307e+02 - #9.3 * $v_logT - #4.9214873443226104e+04 / $v_T))));
  (*240*) Do (Asn v_kinf 0 ((Exp (#2.9710462657608385e+01 + #0.44 * $v_logT - #4.3664361642829543e+04 / $v_T))));
  (*241*) Do (Asn v_Pr 0 ($v_k0 * $v_thd / $v_kinf));
  (*242*) Do (Asn v_logFcent 0 ((Log10 (Fmax (#2.65500000e-01 * (Exp ((- $v_T) / #1.80000000e+02)) + #7.34500000e-01 * (Exp ((- $v_T) / #1.03500000e+03)) + (Exp (#(-5.41700000e+03) / $v_T))) #1.0e-300))));
  (*243*) Do (Asn v_A 0 ((Log10 (Fmax $v_Pr #1.0e-300)) - #0.67 * $v_logFcent - #0.4));
  (*244*) Do (Asn v_B 0 (#0.806 - #1.1762 * $v_logFcent - #0.14 * (Log10 (Fmax $v_Pr #1.0e-300))));
  (*245*) Do (Asn v_pres_mod 26 ((Pow #10.0 ($v_logFcent / (#1.0 + $v_A * $v_A / ($v_B * $v_B)))) * $v_Pr / (#1.0 + $v_Pr)));
  (*248*) Do (Asn v_thd 0 ($v_m + #1.0 * v_C.[0] + #5.0 * v_C.[5] + #1.0 * v_C.[13] + #0.5 * v_C.[14] + #1.0 * v_C.[15] + #2.0 * v_C.[26] - #0.375 * v_C.[47]));
  (*249*) Do (Asn v_k0 0 ((Exp (#2.7180035492518574e+01 - #2.8502356153622972e+04 / $v_T))));
  (*250*) Do (Asn v_kinf 0 ((Exp (#2.5093978711720020e+01 - #2.8190360023410292e+04 / $v_T))));
  (*251*) Do (Asn v_Pr 0 ($v_k0 * $v_thd / $v_kinf));
  (*252*) Do (Asn v_pres_mod 27 ($v_Pr / (#1.0 + $v_Pr)));
  (*255*) Do (Asn v_pres_mod 28 ($v_m + #1.0 * v_C.[0] + #5.0 * v_C.[5] + #1.0 * v_C.[13] + #0.5 * v_C.[14] + #1.0 * v_C.[15] + #2.0 * v_C.[26] - #0.3 * v_C.[47]));
  (*258*) Do (Asn v_pres_mod 29 ($v_m + #1.0 * v_C.[0] + #5.0 * v_C.[5] + #1.0 * v_C.[13] + #0.5 * v_C.[14] + #1.0 * v_C.[15] + #2.0 * v_C.[26] - #0.3 * v_C.[47]));
  (*261*) Do (Asn v_pres_mod 30 ($v_m + #1.0 * v_C.[0] + #5.0 * v_C.[5] + #1.0 * v_C.[13] + #0.5 * v_C.[14] + #1.0 * v_C.[15] + #2.0 * v_C.[26] - #0.3 * v_C.[47]));
  (*264*) Do (Asn v_pres_mod 31 ($v_m + #1.0 * v_C.[0] + #5.0 * v_C.[5] + #1.0 * v_C.[13] + #0.5 * v_C.[14] + #1.0 * v_C.[15] + #2.0 * v_C.[26] - #0.3 * v_C.[47]));
  (*267*) Do (Asn v_pres_mod 32 ($v_m + #1.0 * v_C.[0] + #5.0 * v_C.[5] + #1.0 * v_C.[13] + #0.5 * v_C.[14] + #1.0 * v_C.[15] + #2.0 * v_C.[26] - #0.3 * v_C.[47]));
  (*270*) Do (Asn v_thd 0 ($v_m + #1.0 * v_C.[0] + #5.0 * v_C.[5] + #1.0 * v_C.[13] + #0.5 * v_C.[14] + #1.0 * v_C.[15] + #2.0 * v_C.[26] - #0.3 * v_C.[47]));
  (*271*) Do (Asn v_k0 0 ((Exp (#4.6388174096502127e+01 - #3.4 * $v_logT - #9.5611717323240896e+02 / $v_T))));
  (*272*) Do (Asn v_kinf 0 (#33000000000.0));
  (*273*) Do (Asn v_Pr 0 ($v_k0 * $v_thd / $v_kinf));
  (*274*) Do (Asn v_pres_mod 33 ($v_Pr / (#1.0 + $v_Pr)));
  (*277*) Do (Asn v_thd 0 ($v_m + #1.0 * v_C.[0] + #5.0 * v_C.[5] + #1.0 * v_C.[13] + #0.5 * v_C.[14] + #1.0 * v_C.[15] + #2.0 * v_C.[26]));
  (*278*) Do (Asn v_k0 0 ((Exp (#4.4011481031354357e+01 - #3.16 * $v_logT - #3.7238247799578033e+02 / $v_T))));
  (*279*) Do (Asn v_kinf 0 ((Exp (#2.1854667948437513e+01 + #0.15 * $v_logT))));
  (*280*) Do (Asn v_Pr 0 ($v_k0 * $v_thd / $v_kinf));
  (*281*) Do (Asn v_logFcent 0 ((Log10 (Fmax (#3.33000000e-01 * (Exp ((- $v_T) / #2.35000000e+02)) + #6.67000000e-01 * (Exp ((- $v_T) / #2.11700000e+03)) + (Exp (#(-4.53600000e+03) / $v_T))) #1.0e-300))));
  (*282*) Do (Asn v_A 0 ((Log10 (Fmax $v_Pr #1.0e-300)) - #0.67 * $v_logFcent - #0.4));
  (*283*) Do (Asn v_B 0 (#0.806 - #1.1762 * $v_logFcent - #0.14 * (Log10 (Fmax $v_Pr #1.0e-300))));
  (*284*) Do (Asn v_pres_mod 34 ((Pow #10.0 ($v_logFcent / (#1.0 + $v_A * $v_A / ($v_B * $v_B)))) * $v_Pr / (#1.0 + $v_Pr)));
  (*287*) Do (Asn v_pres_mod 35 ($v_m + #1.0 * v_C.[0] + #5.0 * v_C.[5] + #1.0 * v_C.[13] + #0.5 * v_C.[14] + #1.0 * v_C.[15] + #2.0 * v_C.[26] - #0.3 * v_C.[47]));
  (*290*) Do (Asn v_thd 0 ($v_m + #1.0 * v_C.[0] + #5.0 * v_C.[5] + #1.0 * v_C.[13] + #0.5 * v_C.[14] + #1.0 * v_C.[15] + #2.0 * v_C.[26] - #0.3 * v_C.[47]));
  (*291*) Do (Asn v_k0 0 ((Exp (#4.5321890694949374e+01 - #2.8 * $v_logT - #2.9689954326690594e+02 / $v_T))));
  (*292*) Do (Asn v_kinf 0 ((Exp (#2.1401299379696308e+01 + #0.43 * $v_logT - #(-1.8619123899789017e+02) / $v_T))));
  (*293*) Do (Asn v_Pr 0 ($v_k0 * $v_thd / $v_kinf));
  (*294*) Do (Asn v_logFcent 0 ((Log10 (Fmax (#4.22000000e-01 * (Exp ((- $v_T) / #1.22000000e+02)) + #5.78000000e-01 * (Exp ((- $v_T) / #2.53500000e+03)) + (Exp (#(-9.36500000e+03) / $v_T))) #1.0e-300))));
  (*295*) Do (Asn v_A 0 ((Log10 (Fmax $v_Pr #1.0e-300)) - #0.67 * $v_logFcent - #0.4));
  (*296*) Do (Asn v_B 0 (#0.806 - #1.1762 * $v_logFcent - #0.14 * (Log10 (Fmax $v_Pr #1.0e-300))));
  (*297*) Do (Asn v_pres_mod 36 ((Pow #10.0 ($v_logFcent / (#1.0 + $v_A * $v_A / ($v_B * $v_B)))) * $v_Pr / (#1.0 + $v_Pr)));
  (*300*) Do (Asn v_thd 0 ($v_m + #1.0 * v_C.[0] + #5.0 * v_C.[5] + #1.0 * v_C.[13] + #0.5 * v_C.[14] + #1.0 * v_C.[15] + #2.0 * v_C.[26] - #0.3 * v_C.[47]));
  (*301*) Do (Asn v_k0 0 ((Exp (#8.2904991918650921e+01 - #7.63 * $v_logT - #1.9394082029672129e+03 / $v_T))));
  (*302*) Do (Asn v_kinf 0 ((Exp (#2.0002747459590335e+01 + #0.422 * $v_logT - #(-8.8315033632783047e+02) / $v_T))));
  (*303*) Do (Asn v_Pr 0 ($v_k0 * $v_thd / $v_kinf));
  (*304*) Do (Asn v_logFcent 0 ((Log10 (Fmax (#5.35000000e-01 * (Exp ((- $v_T) / #2.01000000e+02)) + #4.65000000e-01 * (Exp ((- $v_T) / #1.77300000e+03)) + (Exp (#(-5.33300000e+03) / $v_T))) #1.0e-300))));
  (*305*) Do (Asn v_A 0 ((Log10 (Fmax $v_Pr #1.0e-300)) - #0.67 * $v_logFcent - #0.4));
  (*306*) Do (Asn v_B 0 (#0.806 - #1.1762 * $v_logFcent - #0.14 * (Log10 (Fmax $v_Pr #1.0e-300))));
  (*307*) Do (Asn v_pres_mod 37 ((Pow #10.0 ($v_logFcent / (#1.0 + $v_A * $v_A / ($v_B * $v_B)))) * $v_Pr / (#1.0 + $v_Pr)));
  (*310*) Do (Asn v_thd 0 ($v_m + #1.0 * v_C.[0] + #5.0 * v_C.[5] + #1.0 * v_C.[13] + #0.5 * v_C.[14] + #1.0 * v_C.[15] + #2.0 * v_C.[26] - #0.3 * v_C.[47]));
  (*311*) Do (Asn v_k0 0 ((Exp (#1.5757273495848671e+02 - #16.82 * $v_logT - #6.5745636148849599e+03 / $v_T))));
  (*312*) Do (Asn v_kinf 0 (#9430000000.0));
  (*313*) Do (Asn v_Pr 0 ($v_k0 * $v_thd / $v_kinf));
  (*314*) Do (Asn v_logFcent 0 ((Log10 (Fmax (#8.47300000e-01 * (Exp ((- $v_T) / #2.91000000e+02)) + #1.52700000e-01 * (Exp ((- $v_T) / #2.74200000e+03)) + (Exp (#(-7.74800000e+03) / $v_T))) #1.0e-300))));
  (*315*) Do (Asn v_A 0 ((Log10 (Fmax $v_Pr #1.0e-300)) - #0.67 * $v_logFcent - #0.4));
  (*316*) Do (Asn v_B 0 (#0.806 - #1.1762 * $v_logFcent - #0.14 * (Log10 (Fmax $v_Pr #1.0e-300))));
  (*317*) Do (Asn v_pres_mod 38 ((Pow #10.0 ($v_logFcent / (#1.0 + $v_A * $v_A / ($v_B * $v_B)))) * $v_Pr / (#1.0 + $v_Pr)));
  (*320*) Do (Asn v_thd 0 ($v_m + #1.0 * v_C.[0] + #5.0 * v_C.[5] + #1.0 * v_C.[13] + #0.5 * v_C.[14] + #1.0 * v_C.[15] + #2.0 * v_C.[26] - #0.3 * v_C.[47]));
  (*321*) Do (Asn v_k0 0 ((Exp (#1.3234596258932871e+02 - #14.6 * $v_logT - #9.1434994934909846e+03 / $v_T))));
  (*322*) Do (Asn v_kinf 0 ((Exp (#7.8438486381524717e+00 + #1.6 * $v_logT - #2.8683515196972271e+03 / $v_T))));
  (*323*) Do (Asn v_Pr 0 ($v_k0 * $v_thd / $v_kinf));
  (*324*) Do (Asn v_logFcent 0 ((Log10 (Fmax (#8.10600000e-01 * (Exp ((- $v_T) / #2.77000000e+02)) + #1.89400000e-01 * (Exp ((- $v_T) / #8.74800000e+03)) + (Exp (#(-7.89100000e+03) / $v_T))) #1.0e-300))));
  (*325*) Do (Asn v_A 0 ((Log10 (Fmax $v_Pr #1.0e-300)) - #0.67 * $v_logFcent - #0.4));
  (*326*) Do (Asn v_B 0 (#0.806 - #1.1762 * $v_logFcent - #0.14 * (Log10 (Fmax $v_Pr #1.0e-300))));
  (*327*) Do (Asn v_pres_mod 39 ((Pow #10.0 ($v_logFcent / (#1.0 + $v_A * $v_A / ($v_B * $v_B)))) * $v_Pr / (#1.0 + $v_Pr)));
  (*330*) Do (Asn v_thd 0 ($v_m + #1.0 * v_C.[0] + #5.0 * v_C.[5] + #1.0 * v_C.[13] + #0.5 * v_C.[14] + #1.0 * v_C.[15] + #2.0 * v_C.[26] - #0.3 * v_C.[47]));
  (*331*) Do (Asn v_k0 0 ((Exp (#1.2812831981076212e+02 - #13.545 * $v_logT - #5.7150645981055104e+03 / $v_T))));
  (*332*) Do (Asn v_kinf 0 (#36130000000.0));
  (*333*) Do (Asn v_Pr 0 ($v_k0 * $v_thd / $v_kinf));
  (*334*) Do (Asn v_logFcent 0 ((Log10 (Fmax (#6.85000000e-01 * (Exp ((- $v_T) / #3.69000000e+02)) + #3.15000000e-01 * (Exp ((- $v_T) / #3.28500000e+03)) + (Exp (#(-6.66700000e+03) / $v_T))) #1.0e-300))));
  (*335*) Do (Asn v_A 0 ((Log10 (Fmax $v_Pr #1.0e-300)) - #0.67 * $v_logFcent - #0.4));
  (*336*) Do (Asn v_B 0 (#0.806 - #1.1762 * $v_logFcent - #0.14 * (Log10 (Fmax $v_Pr #1.0e-300))));
  (*337*) Do (Asn v_pres_mod 40 ((Pow #10.0 ($v_logFcent / (#1.0 + $v_A * $v_A / ($v_B * $v_B)))) * $v_Pr / (#1.0 + $v_Pr)))
].

(** [dydt], gri30/lib/src/dydt.c:7-133 without the calls of the other functions, whose place
    is shown by [lib_dydt]. *)
Definition gri30_dydt : list stmt := [
  (*33*) Do (Asn v_cp_avg 0 (v_cp.[0] * v_y.[1] + v_cp.[1] * v_y.[2] + v_cp.[2] * v_y.[3] + v_cp.[3] * v_y.[4] + v_cp.[4] * v_y.[5] + v_cp.[5] * v_y.[6] + v_cp.[6] * v_y.[7] + v_cp.[7] * v_y.[8] + v_cp.[8] * v_y.[9] + v_cp.[9] * v_y.[10] + v_cp.[10] * v_y.[11] + v_cp.[11] * v_y.[12] + v_cp.[12] * v_y.[13] + v_cp.[13] * v_y.[14] + v_cp.[14] * v_y.[15] + v_cp.[15] * v_y.[16] + v_cp.[16] * v_y.[17] + v_cp.[17] * v_y.[18] + v_cp.[18] * v_y.[19] + v_cp.[19] * v_y.[20] + v_cp.[20] * v_y.[21] + v_cp.[21] * v_y.[22] + v_cp.[22] * v_y.[23] + v_cp.[23] * v_y.[24] + v_cp.[24] * v_y.[25] + v_cp.[25] * v_y.[26] + v_cp.[26] * v_y.[27] + v_cp.[27] * v_y.[28] + v_cp.[28] * v_y.[29] + v_cp.[29] * v_y.[30] + v_cp.[30] * v_y.[31] + v_cp.[31] * v_y.[32] + v_cp.[32] * v_y.[33] + v_cp.[33] * v_y.[34] + v_cp.[34] * v_y.[35] + v_cp.[35] * v_y.[36] + v_cp.[36] * v_y.[37] + v_cp.[37] * v_y.[38] + v_cp.[38] * v_y.[39] + v_cp.[39] * v_y.[40] + v_cp.[40] * v_y.[41] + v_cp.[41] * v_y.[42] + v_cp.[42] * v_y.[43] + v_cp.[43] * v_y.[44] + v_cp.[44] * v_y.[45] + v_cp.[45] * v_y.[46] + v_cp.[46] * v_y.[47] + v_cp.[47] * v_y.[48] + v_cp.[48] * v_y.[49] + v_cp.[49] * v_y.[50] + v_cp.[50] * v_y.[51] + v_cp.[51] * v_y.[52] + v_cp.[52] * $v_y_N));
  (*51*) Do (Asn v_dy 0 (#(-1.0) / ($v_rho * $v_cp_avg) * (v_dy.[1] * v_h.[0] * #2.0158800000000001e+00 + v_dy.[2] * v_h.[1] * #1.0079400000000001e+00 + v_dy.[3] * v_h.[2] * #1.5999400000000000e+01 + v_dy.[4] * v_h.[3] * #3.1998799999999999e+01 + v_dy.[5] * v_h.[4] * #1.7007339999999999e+01 + v_dy.[6] * v_h.[5] * #1.8015280000000001e+01 + v_dy.[7] * v_h.[6] * #3.3006740000000001e+01 + v_dy.[8] * v_h.[7] * #3.4014679999999998e+01 + v_dy.[9] * v_h.[8] * #1.2010999999999999e+01 + v_dy.[10] * v_h.[9] * #1.3018939999999999e+01 + v_dy.[11] * v_h.[10] * #1.4026879999999998e+01 + v_dy.[12] * v_h.[11] * #1.4026879999999998e+01 + v_dy.[13] * v_h.[12] * #1.5034820000000000e+01 + v_dy.[14] * v_h.[13] * #1.6042760000000001e+01 + v_dy.[15] * v_h.[14] * #2.8010399999999997e+01 + v_dy.[16] * v_h.[15] * #4.4009799999999998e+01 + v_dy.[17] * v_h.[16] * #2.9018339999999998e+01 + v_dy.[18] * v_h.[17] * #3.0026280000000000e+01 + v_dy.[19] * v_h.[18] * #3.1034219999999998e+01 + v_dy.[20] * v_h.[19] * #3.1034219999999998e+01 + v_dy.[21] * v_h.[20] * #3.2042159999999996e+01 + v_dy.[22] * v_h.[21] * #2.5029940000000000e+01 + v_dy.[23] * v_h.[22] * #2.6037879999999998e+01 + v_dy.[24] * v_h.[23] * #2.7045819999999999e+01 + v_dy.[25] * v_h.[24] * #2.8053759999999997e+01 + v_dy.[26] * v_h.[25] * #2.9061699999999998e+01 + v_dy.[27] * v_h.[26] * #3.0069640000000000e+01 + v_dy.[28] * v_h.[27] * #4.1029339999999998e+01 + v_dy.[29] * v_h.[28] * #4.2037279999999996e+01 + v_dy.[30] * v_h.[29] * #4.2037279999999996e+01 + v_dy.[31] * v_h.[30] * #1.4006740000000001e+01 + v_dy.[32] * v_h.[31] * #1.5014680000000000e+01 + v_dy.[33] * v_h.[32] * #1.6022620000000000e+01 + v_dy.[34] * v_h.[33] * #1.7030560000000001e+01 + v_dy.[35] * v_h.[34] * #2.9021420000000003e+01 + v_dy.[36] * v_h.[35] * #3.0006140000000002e+01 + v_dy.[37] * v_h.[36] * #4.6005539999999996e+01 + v_dy.[38] * v_h.[37] * #4.4012880000000003e+01 + v_dy.[39] * v_h.[38] * #3.1014080000000000e+01 + v_dy.[40] * v_h.[39] * #2.6017740000000000e+01 + v_dy.[41] * v_h.[40] * #2.7025680000000001e+01 + v_dy.[42] * v_h.[41] * #2.8033619999999999e+01 + v_dy.[43] * v_h.[42] * #4.1032420000000002e+01 + v_dy.[44] * v_h.[43] * #4.3025080000000003e+01 + v_dy.[45] * v_h.[44] * #4.3025080000000003e+01 + v_dy.[46] * v_h.[45] * #4.3025080000000003e+01 + v_dy.[47] * v_h.[46] * #4.2017139999999998e+01 + v_dy.[49] * v_h.[48] * #4.3088580000000000e+01 + v_dy.[50] * v_h.[49] * #4.4096519999999998e+01 + v_dy.[51] * v_h.[50] * #4.3045220000000000e+01 + v_dy.[52] * v_h.[51] * #4.4053159999999998e+01 + $v_dy_N * v_h.[52] * #2.8013480000000001e+01)));
  (*80*) Do (MulA v_dy 1 (#2.0158800000000001e+00 / $v_rho));
  (*81*) Do (MulA v_dy 2 (#1.0079400000000001e+00 / $v_rho));
  (*82*) Do (MulA v_dy 3 (#1.5999400000000000e+01 / $v_rho));
  (*83*) Do (MulA v_dy 4 (#3.1998799999999999e+01 / $v_rho));
  (*84*) Do (MulA v_dy 5 (#1.7007339999999999e+01 / $v_rho));
  (*85*) Do (MulA v_dy 6 (#1.8015280000000001e+01 / $v_rho));
  (*86*) Do (MulA v_dy 7 (#3.3006740000000001e+01 / $v_rho));
  (*87*) Do (MulA v_dy 8 (#3.4014679999999998e+01 / $v_rho));
  (*88*) Do (MulA v_dy 9 (#1.2010999999999999e+01 / $v_rho));
  (*89*) Do (MulA v_dy 10 (#1.3018939999999999e+01 / $v_rho));
  (*90*) Do (MulA v_dy 11 (#1.4026879999999998e+01 / $v_rho));
  (*91*) Do (MulA v_dy 12 (#1.4026879999999998e+01 / $v_rho));
  (*92*) Do (MulA v_dy 13 (#1.5034820000000000e+01 / $v_rho));
  (*93*) Do (MulA v_dy 14 (#1.6042760000000001e+01 / $v_rho));
  (*94*) Do (MulA v_dy 15 (#2.8010399999999997e+01 / $v_rho));
  (*95*) Do (MulA v_dy 16 (#4.4009799999999998e+01 / $v_rho));
  (*96*) Do (MulA v_dy 17 (#2.9018339999999998e+01 / $v_rho));
  (*97*) Do (MulA v_dy 18 (#3.0026280000000000e+01 / $v_rho));
  (*98*) Do (MulA v_dy 19 (#3.1034219999999998e+01 / $v_rho));
  (*99*) Do (MulA v_dy 20 (#3.1034219999999998e+01 / $v_rho));
  (*100*) Do (MulA v_dy 21 (#3.2042159999999996e+01 / $v_rho));
  (*101*) Do (MulA v_dy 22 (#2.5029940000000000e+01 / $v_rho));
  (*102*) Do (MulA v_dy 23 (#2.6037879999999998e+01 / $v_rho));
  (*103*) Do (MulA v_dy 24 (#2.7045819999999999e+01 / $v_rho));
  (*104*) Do (MulA v_dy 25 (#2.8053759999999997e+01 / $v_rho));
  (*105*) Do (MulA v_dy 26 (#2.9061699999999998e+01 / $v_rho));
  (*106*) Do (MulA v_dy 27 (#3.0069640000000000e+01 / $v_rho));
  (*107*) Do (MulA v_dy 28 (#4.1029339999999998e+01 / $v_rho));
  (*108*) Do (MulA v_dy 29 (#4.2037279999999996e+01 / $v_rho));
  (*109*) Do (MulA v_dy 30 (#4.2037279999999996e+01 / $v_rho));
  (*110*) Do (MulA v_dy 31 (#1.4006740000000001e+01 / $v_rho));
  (*111*) Do (MulA v_dy 32 (#1.5014680000000000e+01 / $v_rho));
  (*112*) Do (MulA v_dy 33 (#1.6022620000000000e+01 / $v_rho));
  (*113*) Do (MulA v_dy 34 (#1.7030560000000001e+01 / $v_rho));
  (*114*) Do (MulA v_dy 35 (#2.9021420000000003e+01 / $v_rho));
  (*115*) Do (MulA v_dy 36 (#3.0006140000000002e+01 / $v_rho));
  (*116*) Do (MulA v_dy 37 (#4.6005539999999996e+01 / $v_rho));
  (*117*) Do (MulA v_dy 38 (#4.4012880000000003e+01 / $v_rho));
  (*118*) Do (MulA v_dy 39 (#3.1014080000000000e+01 / $v_rho));
  (*119*) Do (MulA v_dy 40 (#2.6017740000000000e+01 / $v_rho));
  (*120*) Do (MulA v_dy 41 (#2.7025680000000001e+01 / $v_rho));
  (*121*) Do (MulA v_dy 42 (#2.8033619999999999e+01 / $v_rho));
  (*122*) Do (MulA v_dy 43 (#4.1032420000000002e+01 / $v_rho));
  (*123*) Do (MulA v_dy 44 (#4.3025080000000003e+01 / $v_rho));
  (*124*) Do (MulA v_dy 45 (#4.3025080000000003e+01 / $v_rho));
  (*125*) Do (MulA v_dy 46 (#4.3025080000000003e+01 / $v_rho));
  (*126*) Do (MulA v_dy 47 (#4.2017139999999998e+01 / $v_rho));
  (*127*) Do (MulA v_dy 48 (#3.9948000000000000e+01 / $v_rho));
  (*128*) Do (MulA v_dy 49 (#4.3088580000000000e+01 / $v_rho));
  (*129*) Do (MulA v_dy 50 (#4.4096519999999998e+01 / $v_rho));
  (*130*) Do (MulA v_dy 51 (#4.3045220000000000e+01 / $v_rho));
  (*131*) Do (MulA v_dy 52 (#4.4053159999999998e+01 / $v_rho))
].

(** [mole2mass], gri30/lib/src/mass_mole.c:8-129. *)
Definition gri30_mole2mass : list stmt := [
  (*12*) Do (Asn v_X_N 0 (#1.0 - (v_X.[0] + v_X.[1] + v_X.[2] + v_X.[3] + v_X.[4] + v_X.[5] + v_X.[6] + v_X.[7] + v_X.[8] + v_X.[9] + v_X.[10] + v_X.[11] + v_X.[12] + v_X.[13] + v_X.[14] + v_X.[15] + v_X.[16] + v_X.[17] + v_X.[18] + v_X.[19] + v_X.[20] + v_X.[21] + v_X.[22] + v_X.[23] + v_X.[24] + v_X.[25] + v_X.[26] + v_X.[27] + v_X.[28] + v_X.[29] + v_X.[30] + v_X.[31] + v_X.[32] + v_X.[33] + v_X.[34] + v_X.[35] + v_X.[36] + v_X.[37] + v_X.[38] + v_X.[39] + v_X.[40] + v_X.[41] + v_X.[42] + v_X.[43] + v_X.[44] + v_X.[45] + v_X.[46] + v_X.[47] + v_X.[48] + v_X.[49] + v_X.[50] + v_X.[51])));
  (*20*) Do (Asn v_mw_avg 0 (#0.0));
  (*21*) Do (AddA v_mw_avg 0 (v_X.[0] * #2.0158800000000001e+00));
  (*22*) Do (AddA v_mw_avg 0 (v_X.[1] * #1.0079400000000001e+00));
  (*23*) Do (AddA v_mw_avg 0 (v_X.[2] * #1.5999400000000000e+01));
  (*24*) Do (AddA v_mw_avg 0 (v_X.[3] * #3.1998799999999999e+01));
  (*25*) Do (AddA v_mw_avg 0 (v_X.[4] * #1.7007339999999999e+01));
  (*26*) Do (AddA v_mw_avg 0 (v_X.[5] * #1.8015280000000001e+01));
  (*27*) Do (AddA v_mw_avg 0 (v_X.[6] * #3.3006740000000001e+01));
  (*28*) Do (AddA v_mw_avg 0 (v_X.[7] * #3.4014679999999998e+01));
  (*29*) Do (AddA v_mw_avg 0 (v_X.[8] * #1.2010999999999999e+01));
  (*30*) Do (AddA v_mw_avg 0 (v_X.[9] * #1.3018939999999999e+01));
  (*31*) Do (AddA v_mw_avg 0 (v_X.[10] * #1.4026879999999998e+01));
  (*32*) Do (AddA v_mw_avg 0 (v_X.[11] * #1.4026879999999998e+01));
  (*33*) Do (AddA v_mw_avg 0 (v_X.[12] * #1.5034820000000000e+01));
  (*34*) Do (AddA v_mw_avg 0 (v_X.[13] * #1.6042760000000001e+01));
  (*35*) Do (AddA v_mw_avg 0 (v_X.[14] * #2.8010399999999997e+01));
  (*36*) Do (AddA v_mw_avg 0 (v_X.[15] * #4.4009799999999998e+01));
  (*37*) Do (AddA v_mw_avg 0 (v_X.[16] * #2.9018339999999998e+01));
  (*38*) Do (AddA v_mw_avg 0 (v_X.[17] * #3.0026280000000000e+01));
  (*39*) Do (AddA v_mw_avg 0 (v_X.[18] * #3.1034219999999998e+01));
  (*40*) Do (AddA v_mw_avg 0 (v_X.[19] * #3.1034219999999998e+01));
  (*41*) Do (AddA v_mw_avg 0 (v_X.[20] * #3.2042159999999996e+01));
  (*42*) Do (AddA v_mw_avg 0 (v_X.[21] * #2.5029940000000000e+01));
  (*43*) Do (AddA v_mw_avg 0 (v_X.[22] * #2.6037879999999998e+01));
  (*44*) Do (AddA v_mw_avg 0 (v_X.[23] * #2.7045819999999999e+01));
  (*45*) Do (AddA v_mw_avg 0 (v_X.[24] * #2.8053759999999997e+01));
  (*46*) Do (AddA v_mw_avg 0 (v_X.[25] * #2.9061699999999998e+01));
  (*47*) Do (AddA v_mw_avg 0 (v_X.[26] * #3.0069640000000000e+01));
  (*48*) Do (AddA v_mw_avg 0 (v_X.[27] * #4.1029339999999998e+01));
  (*49*) Do (AddA v_mw_avg 0 (v_X.[28] * #4.2037279999999996e+01));
  (*50*) Do (AddA v_mw_avg 0 (v_X.[29] * #4.2037279999999996e+01));
  (*51*) Do (AddA v_mw_avg 0 (v_X.[30] * #1.4006740000000001e+01));
  (*52*) Do (AddA v_mw_avg 0 (v_X.[31] * #1.5014680000000000e+01));
  (*53*) Do (AddA v_mw_avg 0 (v_X.[32] * #1.6022620000000000e+01));
  (*54*) Do (AddA v_mw_avg 0 (v_X.[33] * #1.7030560000000001e+01));
  (*55*) Do (AddA v_mw_avg 0 (v_X.[34] * #2.9021420000000003e+01));
  (*56*) Do (AddA v_mw_avg 0 (v_X.[35] * #3.0006140000000002e+01));
  (*57*) Do (AddA v_mw_avg 0 (v_X.[36] * #4.6005539999999996e+01));
  (*58*) Do (AddA v_mw_avg 0 (v_X.[37] * #4.4012880000000003e+01));
  (*59*) Do (AddA v_mw_avg 0 (v_X.[38] * #3.1014080000000000e+01));
  (*60*) Do (AddA v_mw_avg 0 (v_X.[39] * #2.6017740000000000e+01));
  (*61*) Do (AddA v_mw_avg 0 (v_X.[40] * #2.7025680000000001e+01));
  (*62*) Do (AddA v_mw_avg 0 (v_X.[41] * #2.8033619999999999e+01));
  (*63*) Do (AddA v_mw_avg 0 (v_X.[42] * #4.1032420000000002e+01));
  (*64*) Do (AddA v_mw_avg 0 (v_X.[43] * #4.3025080000000003e+01));
  (*65*) Do (AddA v_mw_avg 0 (v_X.[44] * #4.3025080000000003e+01));
  (*66*) Do (AddA v_mw_avg 0 (v_X.[45] * #4.3025080000000003e+01));
  (*67*) Do (AddA v_mw_avg 0 (v_X.[46] * #4.2017139999999998e+01));
  (*68*) Do (AddA v_mw_avg 0 (v_X.[47] * #3.9948000000000000e+01));
  (*69*) Do (AddA v_mw_avg 0 (v_X.[48] * #4.3088580000000000e+01));
  (*70*) Do (AddA v_mw_avg 0 (v_X.[49] * #4.4096519999999998e+01));
  (*71*) Do (AddA v_mw_avg 0 (v_X.[50] * #4.3045220000000000e+01));
  (*72*) Do (AddA v_mw_avg 0 (v_X.[51] * #4.4053159999999998e+01));
  (*73*) Do (AddA v_mw_avg 0 ($v_X_N * #2.8013480000000001e+01));
  (*76*) Do (Asn v_Y 0 (v_X.[0] * #2.0158800000000001e+00 / $v_mw_avg));
  (*77*) Do (Asn v_Y 1 (v_X.[1] * #1.0079400000000001e+00 / $v_mw_avg));
  (*78*) Do (Asn v_Y 2 (v_X.[2] * #1.5999400000000000e+01 / $v_mw_avg));
  (*79*) Do (Asn v_Y 3 (v_X.[3] * #3.1998799999999999e+01 / $v_mw_avg));
  (*80*) Do (Asn v_Y 4 (v_X.[4] * #1.7007339999999999e+01 / $v_mw_avg));
  (*81*) Do (Asn v_Y 5 (v_X.[5] * #1.8015280000000001e+01 / $v_mw_avg));
  (*82*) Do (Asn v_Y 6 (v_X.[6] * #3.3006740000000001e+01 / $v_mw_avg));
  (*83*) Do (Asn v_Y 7 (v_X.[7] * #3.4014679999999998e+01 / $v_mw_avg));
  (*84*) Do (Asn v_Y 8 (v_X.[8] * #1.2010999999999999e+01 / $v_mw_avg));
  (*85*) Do (Asn v_Y 9 (v_X.[9] * #1.3018939999999999e+01 / $v_mw_avg));
  (*86*) Do (Asn v_Y 10 (v_X.[10] * #1.4026879999999998e+01 / $v_mw_avg));
  (*87*) Do (Asn v_Y 11 (v_X.[11] * #1.4026879999999998e+01 / $v_mw_avg));
  (*88*) Do (Asn v_Y 12 (v_X.[12] * #1.5034820000000000e+01 / $v_mw_avg));
  (*89*) Do (Asn v_Y 13 (v_X.[13] * #1.6042760000000001e+01 / $v_mw_avg));
  (*90*) Do (Asn v_Y 14 (v_X.[14] * #2.8010399999999997e+01 / $v_mw_avg));
  (*91*) Do (Asn v_Y 15 (v_X.[15] * #4.4009799999999998e+01 / $v_mw_avg));
  (*92*) Do (Asn v_Y 16 (v_X.[16] * #2.9018339999999998e+01 / $v_mw_avg));
  (*93*) Do (Asn v_Y 17 (v_X.[17] * #3.0026280000000000e+01 / $v_mw_avg));
  (*94*) Do (Asn v_Y 18 (v_X.[18] * #3.1034219999999998e+01 / $v_mw_avg));
  (*95*) Do (Asn v_Y 19 (v_X.[19] * #3.1034219999999998e+01 / $v_mw_avg));
  (*96*) Do (Asn v_Y 20 (v_X.[20] * #3.2042159999999996e+01 / $v_mw_avg));
  (*97*) Do (Asn v_Y 21 (v_X.[21] * #2.5029940000000000e+01 / $v_mw_avg));
  (*98*) Do (Asn v_Y 22 (v_X.[22] * #2.6037879999999998e+01 / $v_mw_avg));
  (*99*) Do (Asn v_Y 23 (v_X.[23] * #2.7045819999999999e+01 / $v_mw_avg));
  (*100*) Do (Asn v_Y 24 (v_X.[24] * #2.8053759999999997e+01 / $v_mw_avg));
  (*101*) Do (Asn v_Y 25 (v_X.[25] * #2.9061699999999998e+01 / $v_mw_avg));
  (*102*) Do (Asn v_Y 26 (v_X.[26] * #3.0069640000000000e+01 / $v_mw_avg));
  (*103*) Do (Asn v_Y 27 (v_X.[27] * #4.1029339999999998e+01 / $v_mw_avg));
  (*104*) Do (Asn v_Y 28 (v_X.[28] * #4.2037279999999996e+01 / $v_mw_avg));
  (*105*) Do (Asn v_Y 29 (v_X.[29] * #4.2037279999999996e+01 / $v_mw_avg));
  (*106*) Do (Asn v_Y 30 (v_X.[30] * #1.4006740000000001e+01 / $v_mw_avg));
  (*107*) Do (Asn v_Y 31 (v_X.[31] * #1.5014680000000000e+01 / $v_mw_avg));
  (*108*) Do (Asn v_Y 32 (v_X.[32] * #1.6022620000000000e+01 / $v_mw_avg));
  (*109*) Do (Asn v_Y 33 (v_X.[33] * #1.7030560000000001e+01 / $v_mw_avg));
  (*110*) Do (Asn v_Y 34 (v_X.[34] * #2.9021420000000003e+01 / $v_mw_avg));
  (*111*) Do (Asn v_Y 35 (v_X.[35] * #3.0006140000000002e+01 / $v_mw_avg));
  (*112*) Do (Asn v_Y 36 (v_X.[36] * #4.6005539999999996e+01 / $v_mw_avg));
  (*113*) Do (Asn v_Y 37 (v_X.[37] * #4.4012880000000003e+01 / $v_mw_avg));
  (*114*) Do (Asn v_Y 38 (v_X.[38] * #3.1014080000000000e+01 / $v_mw_avg));
  (*115*) Do (Asn v_Y 39 (v_X.[39] * #2.6017740000000000e+01 / $v_mw_avg));
  (*116*) Do (Asn v_Y 40 (v_X.[40] * #2.7025680000000001e+01 / $v_mw_avg));
  (*117*) Do (Asn v_Y 41 (v_X.[41] * #2.8033619999999999e+01 / $v_mw_avg));
  (*118*) Do (Asn v_Y 42 (v_X.[42] * #4.1032420000000002e+01 / $v_mw_avg));
  (*119*) Do (Asn v_Y 43 (v_X.[43] * #4.3025080000000003e+01 / $v_mw_avg));
  (*120*) Do (Asn v_Y 44 (v_X.[44] * #4.3025080000000003e+01 / $v_mw_avg));
  (*121*) Do (Asn v_Y 45 (v_X.[45] * #4.3025080000000003e+01 / $v_mw_avg));
  (*122*) Do (Asn v_Y 46 (v_X.[46] * #4.2017139999999998e+01 / $v_mw_avg));
  (*123*) Do (Asn v_Y 47 (v_X.[47] * #3.9948000000000000e+01 / $v_mw_avg));
  (*124*) Do (Asn v_Y 48 (v_X.[48] * #4.3088580000000000e+01 / $v_mw_avg));
  (*125*) Do (Asn v_Y 49 (v_X.[49] * #4.4096519999999998e+01 / $v_mw_avg));
  (*126*) Do (Asn v_Y 50 (v_X.[50] * #4.3045220000000000e+01 / $v_mw_avg));
  (*127*) Do (Asn v_Y 51 (v_X.[51] * #4.4053159999999998e+01 / $v_mw_avg))
].

(** [mass2mole], gri30/lib/src/mass_mole.c:136-258. *)
Definition gri30_mass2mole : list stmt := [
  (*140*) Do (Asn v_Y_N 0 (#1.0 - (v_Y.[0] + v_Y.[1] + v_Y.[2] + v_Y.[3] + v_Y.[4] + v_Y.[5] + v_Y.[6] + v_Y.[7] + v_Y.[8] + v_Y.[9] + v_Y.[10] + v_Y.[11] + v_Y.[12] + v_Y.[13] + v_Y.[14] + v_Y.[15] + v_Y.[16] + v_Y.[17] + v_Y.[18] + v_Y.[19] + v_Y.[20] + v_Y.[21] + v_Y.[22] + v_Y.[23] + v_Y.[24] + v_Y.[25] + v_Y.[26] + v_Y.[27] + v_Y.[28] + v_Y.[29] + v_Y.[30] + v_Y.[31] + v_Y.[32] + v_Y.[33] + v_Y.[34] + v_Y.[35] + v_Y.[36] + v_Y.[37] + v_Y.[38] + v_Y.[39] + v_Y.[40] + v_Y.[41] + v_Y.[42] + v_Y.[43] + v_Y.[44] + v_Y.[45] + v_Y.[46] + v_Y.[47] + v_Y.[48] + v_Y.[49] + v_Y.[50] + v_Y.[51])));
  (*148*) Do (Asn v_mw_avg 0 (#0.0));
  (*149*) Do (AddA v_mw_avg 0 (v_Y.[0] / #2.0158800000000001e+00));
  (*150*) Do (AddA v_mw_avg 0 (v_Y.[1] / #1.0079400000000001e+00));
  (*151*) Do (AddA v_mw_avg 0 (v_Y.[2] / #1.5999400000000000e+01));
  (*152*) Do (AddA v_mw_avg 0 (v_Y.[3] / #3.1998799999999999e+01));
  (*153*) Do (AddA v_mw_avg 0 (v_Y.[4] / #1.7007339999999999e+01));
  (*154*) Do (AddA v_mw_avg 0 (v_Y.[5] / #1.8015280000000001e+01));
  (*155*) Do (AddA v_mw_avg 0 (v_Y.[6] / #3.3006740000000001e+01));
  (*156*) Do (AddA v_mw_avg 0 (v_Y.[7] / #3.4014679999999998e+01));
  (*157*) Do (AddA v_mw_avg 0 (v_Y.[8] / #1.2010999999999999e+01));
  (*158*) Do (AddA v_mw_avg 0 (v_Y.[9] / #1.3018939999999999e+01));
  (*159*) Do (AddA v_mw_avg 0 (v_Y.[10] / #1.4026879999999998e+01));
  (*160*) Do (AddA v_mw_avg 0 (v_Y.[11] / #1.4026879999999998e+01));
  (*161*) Do (AddA v_mw_avg 0 (v_Y.[12] / #1.5034820000000000e+01));
  (*162*) Do (AddA v_mw_avg 0 (v_Y.[13] / #1.6042760000000001e+01));
  (*163*) Do (AddA v_mw_avg 0 (v_Y.[14] / #2.8010399999999997e+01));
  (*164*) Do (AddA v_mw_avg 0 (v_Y.[15] / #4.4009799999999998e+01));
  (*165*) Do (AddA v_mw_avg 0 (v_Y.[16] / #2.9018339999999998e+01));
  (*166*) Do (AddA v_mw_avg 0 (v_Y.[17] / #3.0026280000000000e+01));
  (*167*) Do (AddA v_mw_avg 0 (v_Y.[18] / #3.1034219999999998e+01));
  (*168*) Do (AddA v_mw_avg 0 (v_Y.[19] / #3.1034219999999998e+01));
  (*169*) Do (AddA v_mw_avg 0 (v_Y.[20] / #3.2042159999999996e+01));
  (*170*) Do (AddA v_mw_avg 0 (v_Y.[21] / #2.5029940000000000e+01));
  (*171*) Do (AddA v_mw_avg 0 (v_Y.[22] / #2.6037879999999998e+01));
  (*172*) Do (AddA v_mw_avg 0 (v_Y.[23] / #2.7045819999999999e+01));
  (*173*) Do (AddA v_mw_avg 0 (v_Y.[24] / #2.8053759999999997e+01));
  (*174*) Do (AddA v_mw_avg 0 (v_Y.[25] / #2.9061699999999998e+01));
  (*175*) Do (AddA v_mw_avg 0 (v_Y.[26] / #3.0069640000000000e+01));
  (*176*) Do (AddA v_mw_avg 0 (v_Y.[27] / #4.1029339999999998e+01));
  (*177*) Do (AddA v_mw_avg 0 (v_Y.[28] / #4.2037279999999996e+01));
  (*178*) Do (AddA v_mw_avg 0 (v_Y.[29] / #4.2037279999999996e+01));
  (*179*) Do (AddA v_mw_avg 0 (v_Y.[30] / #1.4006740000000001e+01));
  (*180*) Do (AddA v_mw_avg 0 (v_Y.[31] / #1.5014680000000000e+01));
  (*181*) Do (AddA v_mw_avg 0 (v_Y.[32] / #1.6022620000000000e+01));
  (*182*) Do (AddA v_mw_avg 0 (v_Y.[33] / #1.7030560000000001e+01));
  (*183*) Do (AddA v_mw_avg 0 (v_Y.[34] / #2.9021420000000003e+01));
  (*184*) Do (AddA v_mw_avg 0 (v_Y.[35] / #3.0006140000000002e+01));
  (*185*) Do (AddA v_mw_avg 0 (v_Y.[36] / #4.6005539999999996e+01));
  (*186*) Do (AddA v_mw_avg 0 (v_Y.[37] / #4.4012880000000003e+01));
  (*187*) Do (AddA v_mw_avg 0 (v_Y.[38] / #3.1014080000000000e+01));
  (*188*) Do (AddA v_mw_avg 0 (v_Y.[39] / #2.6017740000000000e+01));
  (*189*) Do (AddA v_mw_avg 0 (v_Y.[40] / #2.7025680000000001e+01));
  (*190*) Do (AddA v_mw_avg 0 (v_Y.[41] / #2.8033619999999999e+01));
  (*191*) Do (AddA v_mw_avg 0 (v_Y.[42] / #4.1032420000000002e+01));
  (*192*) Do (AddA v_mw_avg 0 (v_Y.[43] / #4.3025080000000003e+01));
  (*193*) Do (AddA v_mw_avg 0 (v_Y.[44] / #4.3025080000000003e+01));
  (*194*) Do (AddA v_mw_avg 0 (v_Y.[45] / #4.3025080000000003e+01));
  (*195*) Do (AddA v_mw_avg 0 (v_Y.[46] / #4.2017139999999998e+01));
  (*196*) Do (AddA v_mw_avg 0 (v_Y.[47] / #3.9948000000000000e+01));
  (*197*) Do (AddA v_mw_avg 0 (v_Y.[48] / #4.3088580000000000e+01));
  (*198*) Do (AddA v_mw_avg 0 (v_Y.[49] / #4.4096519999999998e+01));
  (*199*) Do (AddA v_mw_avg 0 (v_Y.[50] / #4.3045220000000000e+01));
  (*200*) Do (AddA v_mw_avg 0 (v_Y.[51] / #4.4053159999999998e+01));
  (*201*) Do (AddA v_mw_avg 0 ($v_Y_N / #2.8013480000000001e+01));
  (*202*) Do (Asn v_mw_avg 0 (#1.0 / $v_mw_avg));
  (*205*) Do (Asn v_X 0 (v_Y.[0] * $v_mw_avg / #2.0158800000000001e+00));
  (*206*) Do (Asn v_X 1 (v_Y.[1] * $v_mw_avg / #1.0079400000000001e+00));
  (*207*) Do (Asn v_X 2 (v_Y.[2] * $v_mw_avg / #1.5999400000000000e+01));
  (*208*) Do (Asn v_X 3 (v_Y.[3] * $v_mw_avg / #3.1998799999999999e+01));
  (*209*) Do (Asn v_X 4 (v_Y.[4] * $v_mw_avg / #1.7007339999999999e+01));
  (*210*) Do (Asn v_X 5 (v_Y.[5] * $v_mw_avg / #1.8015280000000001e+01));
  (*211*) Do (Asn v_X 6 (v_Y.[6] * $v_mw_avg / #3.3006740000000001e+01));
  (*212*) Do (Asn v_X 7 (v_Y.[7] * $v_mw_avg / #3.4014679999999998e+01));
  (*213*) Do (Asn v_X 8 (v_Y.[8] * $v_mw_avg / #1.2010999999999999e+01));
  (*214*) Do (Asn v_X 9 (v_Y.[9] * $v_mw_avg / #1.3018939999999999e+01));
  (*215*) Do (Asn v_X 10 (v_Y.[10] * $v_mw_avg / #1.4026879999999998e+01));
  (*216*) Do (Asn v_X 11 (v_Y.[11] * $v_mw_avg / #1.4026879999999998e+01));
  (*217*) Do (Asn v_X 12 (v_Y.[12] * $v_mw_avg / #1.5034820000000000e+01));
  (*218*) Do (Asn v_X 13 (v_Y.[13] * $v_mw_avg / #1.6042760000000001e+01));
  (*219*) Do (Asn v_X 14 (v_Y.[14] * $v_mw_avg / #2.8010399999999997e+01));
  (*220*) Do (Asn v_X 15 (v_Y.[15] * $v_mw_avg / #4.4009799999999998e+01));
  (*221*) Do (Asn v_X 16 (v_Y.[16] * $v_mw_avg / #2.9018339999999998e+01));
  (*222*) Do (Asn v_X 17 (v_Y.[17] * $v_mw_avg / #3.0026280000000000e+01));
  (*223*) Do (Asn v_X 18 (v_Y.[18] * $v_mw_avg / #3.1034219999999998e+01));
  (*224*) Do (Asn v_X 19 (v_Y.[19] * $v_mw_avg / #3.1034219999999998e+01));
  (*225*) Do (Asn v_X 20 (v_Y.[20] * $v_mw_avg / #3.2042159999999996e+01));
  (*226*) Do (Asn v_X 21 (v_Y.[21] * $v_mw_avg / #2.5029940000000000e+01));
  (*227*) Do (Asn v_X 22 (v_Y.[22] * $v_mw_avg / #2.6037879999999998e+01));
  (*228*) Do (Asn v_X 23 (v_Y.[23] * $v_mw_avg / #2.7045819999999999e+01));
  (*229*) Do (Asn v_X 24 (v_Y.[24] * $v_mw_avg / #2.8053759999999997e+01));
  (*230*) Do (Asn v_X 25 (v_Y.[25] * $v_mw_avg / #2.9061699999999998e+01));
  (*231*) Do (Asn v_X 26 (v_Y.[26] * $v_mw_avg / #3.0069640000000000e+01));
  (*232*) Do (Asn v_X 27 (v_Y.[27] * $v_mw_avg / #4.1029339999999998e+01));
  (*233*) Do (Asn v_X 28 (v_Y.[28] * $v_mw_avg / #4.2037279999999996e+01));
  (*234*) Do (Asn v_X 29 (v_Y.[29] * $v_mw_avg / #4.2037279999999996e+01));
  (*235*) Do (Asn v_X 30 (v_Y.[30] * $v_mw_avg / #1.4006740000000001e+01));
  (*236*) Do (Asn v_X 31 (v_Y.[31] * $v_mw_avg / #1.5014680000000000e+01));
  (*237*) Do (Asn v_X 32 (v_Y.[32] * $v_mw_avg / #1.6022620000000000e+01));
  (*238*) Do (Asn v_X 33 (v_Y.[33] * $v_mw_avg / #1.7030560000000001e+01));
  (*239*) Do (Asn v_X 34 (v_Y.[34] * $v_mw_avg / #2.9021420000000003e+01));
  (*240*) Do (Asn v_X 35 (v_Y.[35] * $v_mw_avg / #3.0006140000000002e+01));
  (*241*) Do (Asn v_X 36 (v_Y.[36] * $v_mw_avg / #4.6005539999999996e+01));
  (*242*) Do (Asn v_X 37 (v_Y.[37] * $v_mw_avg / #4.4012880000000003e+01));
  (*243*) Do (Asn v_X 38 (v_Y.[38] * $v_mw_avg / #3.1014080000000000e+01));
  (*244*) Do (Asn v_X 39 (v_Y.[39] * $v_mw_avg / #2.6017740000000000e+01));
  (*245*) Do (Asn v_X 40 (v_Y.[40] * $v_mw_avg / #2.7025680000000001e+01));
  (*246*) Do (Asn v_X 41 (v_Y.[41] * $v_mw_avg / #2.8033619999999999e+01));
  (*247*) Do (Asn v_X 42 (v_Y.[42] * $v_mw_avg / #4.1032420000000002e+01));
  (*248*) Do (Asn v_X 43 (v_Y.[43] * $v_mw_avg / #4.3025080000000003e+01));
  (*249*) Do (Asn v_X 44 (v_Y.[44] * $v_mw_avg / #4.3025080000000003e+01));
  (*250*) Do (Asn v_X 45 (v_Y.[45] * $v_mw_avg / #4.3025080000000003e+01));
  (*251*) Do (Asn v_X 46 (v_Y.[46] * $v_mw_avg / #4.2017139999999998e+01));
  (*252*) Do (Asn v_X 47 (v_Y.[47] * $v_mw_avg / #3.9948000000000000e+01));
  (*253*) Do (Asn v_X 48 (v_Y.[48] * $v_mw_avg / #4.3088580000000000e+01));
  (*254*) Do (Asn v_X 49 (v_Y.[49] * $v_mw_avg / #4.4096519999999998e+01));
  (*255*) Do (Asn v_X 50 (v_Y.[50] * $v_mw_avg / #4.3045220000000000e+01));
  (*256*) Do (Asn v_X 51 (v_Y.[51] * $v_mw_avg / #4.4053159999999998e+01))
].

(** [getDensity], gri30/lib/src/mass_mole.c:267-335. *)
Definition gri30_getDensity : list stmt := [
  (*271*) Do (Asn v_X_N 0 (#1.0 - (v_X.[0] + v_X.[1] + v_X.[2] + v_X.[3] + v_X.[4] + v_X.[5] + v_X.[6] + v_X.[7] + v_X.[8] + v_X.[9] + v_X.[10] + v_X.[11] + v_X.[12] + v_X.[13] + v_X.[14] + v_X.[15] + v_X.[16] + v_X.[17] + v_X.[18] + v_X.[19] + v_X.[20] + v_X.[21] + v_X.[22] + v_X.[23] + v_X.[24] + v_X.[25] + v_X.[26] + v_X.[27] + v_X.[28] + v_X.[29] + v_X.[30] + v_X.[31] + v_X.[32] + v_X.[33] + v_X.[34] + v_X.[35] + v_X.[36] + v_X.[37] + v_X.[38] + v_X.[39] + v_X.[40] + v_X.[41] + v_X.[42] + v_X.[43] + v_X.[44] + v_X.[45] + v_X.[46] + v_X.[47] + v_X.[48] + v_X.[49] + v_X.[50] + v_X.[51])));
  (*279*) Do (Asn v_mw_avg 0 (#0.0));
  (*280*) Do (AddA v_mw_avg 0 (v_X.[0] * #2.0158800000000001e+00));
  (*281*) Do (AddA v_mw_avg 0 (v_X.[1] * #1.0079400000000001e+00));
  (*282*) Do (AddA v_mw_avg 0 (v_X.[2] * #1.5999400000000000e+01));
  (*283*) Do (AddA v_mw_avg 0 (v_X.[3] * #3.1998799999999999e+01));
  (*284*) Do (AddA v_mw_avg 0 (v_X.[4] * #1.7007339999999999e+01));
  (*285*) Do (AddA v_mw_avg 0 (v_X.[5] * #1.8015280000000001e+01));
  (*286*) Do (AddA v_mw_avg 0 (v_X.[6] * #3.3006740000000001e+01));
  (*287*) Do (AddA v_mw_avg 0 (v_X.[7] * #3.4014679999999998e+01));
  (*288*) Do (AddA v_mw_avg 0 (v_X.[8] * #1.2010999999999999e+01));
  (*289*) Do (AddA v_mw_avg 0 (v_X.[9] * #1.3018939999999999e+01));
  (*290*) Do (AddA v_mw_avg 0 (v_X.[10] * #1.4026879999999998e+01));
  (*291*) Do (AddA v_mw_avg 0 (v_X.[11] * #1.4026879999999998e+01));
  (*292*) Do (AddA v_mw_avg 0 (v_X.[12] * #1.5034820000000000e+01));
  (*293*) Do (AddA v_mw_avg 0 (v_X.[13] * #1.6042760000000001e+01));
  (*294*) Do (AddA v_mw_avg 0 (v_X.[14] * #2.8010399999999997e+01));
  (*295*) Do (AddA v_mw_avg 0 (v_X.[15] * #4.4009799999999998e+01));
  (*296*) Do (AddA v_mw_avg 0 (v_X.[16] * #2.9018339999999998e+01));
  (*297*) Do (AddA v_mw_avg 0 (v_X.[17] * #3.0026280000000000e+01));
  (*298*) Do (AddA v_mw_avg 0 (v_X.[18] * #3.1034219999999998e+01));
  (*299*) Do (AddA v_mw_avg 0 (v_X.[19] * #3.1034219999999998e+01));
  (*300*) Do (AddA v_mw_avg 0 (v_X.[20] * #3.2042159999999996e+01));
  (*301*) Do (AddA v_mw_avg 0 (v_X.[21] * #2.5029940000000000e+01));
  (*302*) Do (AddA v_mw_avg 0 (v_X.[22] * #2.6037879999999998e+01));
  (*303*) Do (AddA v_mw_avg 0 (v_X.[23] * #2.7045819999999999e+01));
  (*304*) Do (AddA v_mw_avg 0 (v_X.[24] * #2.8053759999999997e+01));
  (*305*) Do (AddA v_mw_avg 0 (v_X.[25] * #2.9061699999999998e+01));
  (*306*) Do (AddA v_mw_avg 0 (v_X.[26] * #3.0069640000000000e+01));
  (*307*) Do (AddA v_mw_avg 0 (v_X.[27] * #4.1029339999999998e+01));
  (*308*) Do (AddA v_mw_avg 0 (v_X.[28] * #4.2037279999999996e+01));
  (*309*) Do (AddA v_mw_avg 0 (v_X.[29] * #4.2037279999999996e+01));
  (*310*) Do (AddA v_mw_avg 0 (v_X.[30] * #1.4006740000000001e+01));
  (*311*) Do (AddA v_mw_avg 0 (v_X.[31] * #1.5014680000000000e+01));
  (*312*) Do (AddA v_mw_avg 0 (v_X.[32] * #1.6022620000000000e+01));
  (*313*) Do (AddA v_mw_avg 0 (v_X.[33] * #1.7030560000000001e+01));
  (*314*) Do (AddA v_mw_avg 0 (v_X.[34] * #2.9021420000000003e+01));
  (*315*) Do (AddA v_mw_avg 0 (v_X.[35] * #3.0006140000000002e+01));
  (*316*) Do (AddA v_mw_avg 0 (v_X.[36] * #4.6005539999999996e+01));
  (*317*) Do (AddA v_mw_avg 0 (v_X.[37] * #4.4012880000000003e+01));
  (*318*) Do (AddA v_mw_avg 0 (v_X.[38] * #3.1014080000000000e+01));
  (*319*) Do (AddA v_mw_avg 0 (v_X.[39] * #2.6017740000000000e+01));
  (*320*) Do (AddA v_mw_avg 0 (v_X.[40] * #2.7025680000000001e+01));
  (*321*) Do (AddA v_mw_avg 0 (v_X.[41] * #2.8033619999999999e+01));
  (*322*) Do (AddA v_mw_avg 0 (v_X.[42] * #4.1032420000000002e+01));
  (*323*) Do (AddA v_mw_avg 0 (v_X.[43] * #4.3025080000000003e+01));
  (*324*) Do (AddA v_mw_avg 0 (v_X.[44] * #4.3025080000000003e+01));
  (*325*) Do (AddA v_mw_avg 0 (v_X.[45] * #4.3025080000000003e+01));
  (*326*) Do (AddA v_mw_avg 0 (v_X.[46] * #4.2017139999999998e+01));
  (*327*) Do (AddA v_mw_avg 0 (v_X.[47] * #3.9948000000000000e+01));
  (*328*) Do (AddA v_mw_avg 0 (v_X.[48] * #4.3088580000000000e+01));
  (*329*) Do (AddA v_mw_avg 0 (v_X.[49] * #4.4096519999999998e+01));
  (*330*) Do (AddA v_mw_avg 0 (v_X.[50] * #4.3045220000000000e+01));
  (*331*) Do (AddA v_mw_avg 0 (v_X.[51] * #4.4053159999999998e+01));
  (*332*) Do (AddA v_mw_avg 0 ($v_X_N * #2.8013480000000001e+01));
  (*334*) Do (Asn v_ret 0 ($v_pres * $v_mw_avg / (#8.31446210e+03 * $v_temp)))
].

