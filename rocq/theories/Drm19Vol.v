(** Transcription of /repo/utilities/mechanisms/drm19/lib/src (C): the functions for constant volume; the number
    before a statement is its line. *)
From Coq Require Import List QArith.
From Verif Require Import MechLang.
Import ListNotations.
Local Open Scope mech_scope.

(** [eval_conc_rho], drm19/lib/src/chem_utils.c:55-96. *)
Definition drm19_eval_conc_rho : list stmt := [
  (*58*) Do (Asn v_y_N 0 (#1.0 - (v_y.[0] + v_y.[1] + v_y.[2] + v_y.[3] + v_y.[4] + v_y.[5] + v_y.[6] + v_y.[7] + v_y.[8] + v_y.[9] + v_y.[10] + v_y.[11] + v_y.[12] + v_y.[13] + v_y.[14] + v_y.[15] + v_y.[16] + v_y.[17] + v_y.[18] + v_y.[19])));
  (*61*) Do (Asn v_mw_avg 0 (v_y.[0] * #4.9606127348850126e-01 + v_y.[1] * #9.9212254697700253e-01 + v_y.[2] * #6.2502343837893923e-02 + v_y.[3] * #3.1251171918946961e-02 + v_y.[4] * #5.8798142449083754e-02 + v_y.[5] * #5.5508435061791990e-02 + v_y.[6] * #3.0296842402491128e-02 + v_y.[7] * #7.1291691381119682e-02 + v_y.[8] * #7.1291691381119682e-02 + v_y.[9] * #6.6512269518358050e-02 + v_y.[10] * #6.2333413951215375e-02 + v_y.[11] * #3.5701025333447579e-02 + v_y.[12] * #2.2722211870992371e-02 + v_y.[13] * #3.4460965031080343e-02 + v_y.[14] * #3.3304158890145569e-02 + v_y.[15] * #3.2222495039346891e-02 + v_y.[16] * #3.5645845690559841e-02 + v_y.[17] * #3.4409549338132318e-02 + v_y.[18] * #3.3256134759179025e-02 + v_y.[19] * #2.5032542304996495e-02 + $v_y_N * #3.5697100110375433e-02));
  (*71*) Do (Asn v_mw_avg 0 (#1.0 / $v_mw_avg));
  (*73*) Do (Asn v_pres 0 ($v_rho * #8.31446210e+03 * $v_T / $v_mw_avg));
  (*74*) Do (Asn v_conc 0 ($v_rho * v_y.[0] * #4.9606127348850126e-01));
  (*75*) Do (Asn v_conc 1 ($v_rho * v_y.[1] * #9.9212254697700253e-01));
  (*76*) Do (Asn v_conc 2 ($v_rho * v_y.[2] * #6.2502343837893923e-02));
  (*77*) Do (Asn v_conc 3 ($v_rho * v_y.[3] * #3.1251171918946961e-02));
  (*78*) Do (Asn v_conc 4 ($v_rho * v_y.[4] * #5.8798142449083754e-02));
  (*79*) Do (Asn v_conc 5 ($v_rho * v_y.[5] * #5.5508435061791990e-02));
  (*80*) Do (Asn v_conc 6 ($v_rho * v_y.[6] * #3.0296842402491128e-02));
  (*81*) Do (Asn v_conc 7 ($v_rho * v_y.[7] * #7.1291691381119682e-02));
  (*82*) Do (Asn v_conc 8 ($v_rho * v_y.[8] * #7.1291691381119682e-02));
  (*83*) Do (Asn v_conc 9 ($v_rho * v_y.[9] * #6.6512269518358050e-02));
  (*84*) Do (Asn v_conc 10 ($v_rho * v_y.[10] * #6.2333413951215375e-02));
  (*85*) Do (Asn v_conc 11 ($v_rho * v_y.[11] * #3.5701025333447579e-02));
  (*86*) Do (Asn v_conc 12 ($v_rho * v_y.[12] * #2.2722211870992371e-02));
  (*87*) Do (Asn v_conc 13 ($v_rho * v_y.[13] * #3.4460965031080343e-02));
  (*88*) Do (Asn v_conc 14 ($v_rho * v_y.[14] * #3.3304158890145569e-02));
  (*89*) Do (Asn v_conc 15 ($v_rho * v_y.[15] * #3.2222495039346891e-02));
  (*90*) Do (Asn v_conc 16 ($v_rho * v_y.[16] * #3.5645845690559841e-02));
  (*91*) Do (Asn v_conc 17 ($v_rho * v_y.[17] * #3.4409549338132318e-02));
  (*92*) Do (Asn v_conc 18 ($v_rho * v_y.[18] * #3.3256134759179025e-02));
  (*93*) Do (Asn v_conc 19 ($v_rho * v_y.[19] * #2.5032542304996495e-02));
  (*94*) Do (Asn v_conc 20 ($v_rho * $v_y_N * #3.5697100110375433e-02))
].

(** [eval_u], drm19/lib/src/chem_utils.c:228-356. *)
Definition drm19_eval_u : list stmt := [
  (*230*) If ($v_T) (#1000.0)
    [Asn v_u 0 (#4.1244826576978785e+03 * (#(-9.1793517299999996e+02) + $v_T * (#2.3443311200000001e+00 - #1.0 + $v_T * (#3.9902603749999996e-03 + $v_T * (#(-6.4927169999999995e-06) + $v_T * (#5.0393023500000001e-09 + #(-1.4752235220000002e-12) * $v_T))))))]
    [Asn v_u 0 (#4.1244826576978785e+03 * (#(-9.5015892199999996e+02) + $v_T * (#3.3372791999999998e+00 - #1.0 + $v_T * (#(-2.4701236549999999e-05) + $v_T * (#1.6648559266666665e-07 + $v_T * (#(-4.4891598500000001e-11) + #4.0051075199999998e-15 * $v_T))))))];
  (*236*) If ($v_T) (#1000.0)
    [Asn v_u 1 (#8.2489653153957570e+03 * (#2.5473659899999999e+04 + $v_T * (#2.5000000000000000e+00 - #1.0 + $v_T * (#3.5266640949999999e-13 + $v_T * (#(-6.6530654666666665e-16) + $v_T * (#5.7520407999999997e-19 + #(-1.8554646640000001e-22) * $v_T))))))]
    [Asn v_u 1 (#8.2489653153957570e+03 * (#2.5473659899999999e+04 + $v_T * (#2.5000000099999999e+00 - #1.0 + $v_T * (#(-1.1542148649999999e-11) + $v_T * (#5.3853982666666673e-15 + $v_T * (#(-1.1837880875000001e-18) + #9.9639471400000006e-23 * $v_T))))))];
  (*242*) If ($v_T) (#1000.0)
    [Asn v_u 2 (#5.1967336900133762e+02 * (#2.9122259200000000e+04 + $v_T * (#3.1682671000000000e+00 - #1.0 + $v_T * (#(-1.6396594200000000e-03) + $v_T * (#2.2143546533333334e-06 + $v_T * (#(-1.5320165600000000e-09) + #4.2253194199999998e-13 * $v_T))))))]
    [Asn v_u 2 (#5.1967336900133762e+02 * (#2.9217579099999999e+04 + $v_T * (#2.5694207800000002e+00 - #1.0 + $v_T * (#(-4.2987056850000002e-05) + $v_T * (#1.3982819633333334e-08 + $v_T * (#(-2.5044449749999998e-12) + #2.4566738199999997e-16 * $v_T))))))];
  (*248*) If ($v_T) (#1000.0)
    [Asn v_u 3 (#2.5983668450066881e+02 * (#(-1.0639435599999999e+03) + $v_T * (#3.7824563599999999e+00 - #1.0 + $v_T * (#(-1.4983670799999999e-03) + $v_T * (#3.2824340033333332e-06 + $v_T * (#(-2.4203237725000002e-09) + #6.4874567400000000e-13 * $v_T))))))]
    [Asn v_u 3 (#2.5983668450066881e+02 * (#(-1.0884577200000001e+03) + $v_T * (#3.2825378399999998e+00 - #1.0 + $v_T * (#7.4154376999999996e-04 + $v_T * (#(-2.5265555633333331e-07) + $v_T * (#5.2367638749999998e-11 + #(-4.3343558799999996e-15) * $v_T))))))];
  (*254*) If ($v_T) (#1000.0)
    [Asn v_u 4 (#4.8887492694330808e+02 * (#3.6150805599999999e+03 + $v_T * (#3.9920154299999999e+00 - #1.0 + $v_T * (#(-1.2006587600000001e-03) + $v_T * (#1.5393128033333333e-06 + $v_T * (#(-9.7028333249999999e-10) + #2.7282293999999999e-13 * $v_T))))))]
    [Asn v_u 4 (#4.8887492694330808e+02 * (#3.8586570000000002e+03 + $v_T * (#3.0928876700000001e+00 - #1.0 + $v_T * (#2.7421485799999999e-04 + $v_T * (#4.2168409333333331e-08 + $v_T * (#(-2.1986538899999999e-11) + #2.3482475199999999e-15 * $v_T))))))];
  (*260*) If ($v_T) (#1000.0)
    [Asn v_u 5 (#4.6152277955158070e+02 * (#(-3.0293726699999999e+04) + $v_T * (#4.1986405600000003e+00 - #1.0 + $v_T * (#(-1.0182170500000001e-03) + $v_T * (#2.1734673700000000e-06 + $v_T * (#(-1.3719926550000001e-09) + #3.5439563400000000e-13 * $v_T))))))]
    [Asn v_u 5 (#4.6152277955158070e+02 * (#(-3.0004297100000000e+04) + $v_T * (#3.0339924900000002e+00 - #1.0 + $v_T * (#1.0884590200000001e-03 + $v_T * (#(-5.4690839333333327e-08) + $v_T * (#(-2.4260496750000000e-11) + #3.3640198399999998e-15 * $v_T))))))];
  (*266*) If ($v_T) (#1000.0)
    [Asn v_u 6 (#2.5190194790518544e+02 * (#2.9480804000000001e+02 + $v_T * (#4.3017980099999997e+00 - #1.0 + $v_T * (#(-2.3745602549999998e-03) + $v_T * (#7.0527630333333326e-06 + $v_T * (#(-6.0690973500000000e-09) + #1.8584502480000002e-12 * $v_T))))))]
    [Asn v_u 6 (#2.5190194790518544e+02 * (#1.1185671300000000e+02 + $v_T * (#4.0172109000000003e+00 - #1.0 + $v_T * (#1.1199100650000000e-03 + $v_T * (#(-2.1121938333333332e-07) + $v_T * (#2.8561592500000001e-11 + #(-2.1581707000000000e-15) * $v_T))))))];
  (*272*) If ($v_T) (#1000.0)
    [Asn v_u 7 (#5.9275206603321635e+02 * (#4.6004040099999998e+04 + $v_T * (#3.7626786700000001e+00 - #1.0 + $v_T * (#4.8443607150000002e-04 + $v_T * (#9.3163280333333339e-07 + $v_T * (#(-9.6272788250000007e-10) + #3.3748343799999999e-13 * $v_T))))))]
    [Asn v_u 7 (#5.9275206603321635e+02 * (#4.6263603999999999e+04 + $v_T * (#2.8741011300000001e+00 - #1.0 + $v_T * (#1.8281964599999999e-03 + $v_T * (#(-4.6964865666666667e-07) + $v_T * (#6.5044887249999998e-11 + #(-3.7545513400000000e-15) * $v_T))))))];
  (*278*) If ($v_T) (#1000.0)
    [Asn v_u 8 (#5.9275206603321635e+02 * (#5.0496816299999999e+04 + $v_T * (#4.1986041099999998e+00 - #1.0 + $v_T * (#(-1.1833070950000000e-03) + $v_T * (#2.7443207333333332e-06 + $v_T * (#(-1.6720399525000001e-09) + #3.8862947400000001e-13 * $v_T))))))]
    [Asn v_u 8 (#5.9275206603321635e+02 * (#5.0925999700000000e+04 + $v_T * (#2.2920384199999999e+00 - #1.0 + $v_T * (#2.3279431850000000e-03 + $v_T * (#(-6.7063982333333332e-07) + $v_T * (#1.0447650000000001e-10 + #(-6.7943272999999998e-15) * $v_T))))))];
  (*284*) If ($v_T) (#1000.0)
    [Asn v_u 9 (#5.5301374409537334e+02 * (#1.6444998800000001e+04 + $v_T * (#3.6735904000000001e+00 - #1.0 + $v_T * (#1.0054758750000000e-03 + $v_T * (#1.9100728533333335e-06 + $v_T * (#(-1.7177935625000000e-09) + #5.0877146800000003e-13 * $v_T))))))]
    [Asn v_u 9 (#5.5301374409537334e+02 * (#1.6775584299999999e+04 + $v_T * (#2.2857177200000001e+00 - #1.0 + $v_T * (#3.6199501849999999e-03 + $v_T * (#(-9.9571449333333331e-07) + $v_T * (#1.4892116100000001e-10 + #(-9.3430878800000005e-15) * $v_T))))))];
  (*290*) If ($v_T) (#1000.0)
    [Asn v_u 10 (#5.1826880786099150e+02 * (#(-1.0246647600000000e+04) + $v_T * (#5.1498761300000000e+00 - #1.0 + $v_T * (#(-6.8354894000000003e-03) + $v_T * (#1.6393353300000001e-05 + $v_T * (#(-1.2118575650000000e-08) + #3.3338791200000000e-12 * $v_T))))))]
    [Asn v_u 10 (#5.1826880786099150e+02 * (#(-9.4683445900000006e+03) + $v_T * (#7.4851495000000004e-02 - #1.0 + $v_T * (#6.6954733499999999e-03 + $v_T * (#(-1.9109526966666665e-06) + $v_T * (#3.0573133750000000e-10 + #(-2.0363046000000002e-14) * $v_T))))))];
  (*296*) If ($v_T) (#1000.0)
    [Asn v_u 11 (#2.9683482206608977e+02 * (#(-1.4344085999999999e+04) + $v_T * (#3.5795334699999999e+00 - #1.0 + $v_T * (#(-3.0517684000000000e-04) + $v_T * (#3.3893811000000002e-07 + $v_T * (#2.2675147100000000e-10 + #(-1.8088489979999999e-13) * $v_T))))))]
    [Asn v_u 11 (#2.9683482206608977e+02 * (#(-1.4151872400000000e+04) + $v_T * (#2.7151856099999998e+00 - #1.0 + $v_T * (#1.0312637150000001e-03 + $v_T * (#(-3.3294192366666671e-07) + $v_T * (#5.7513252000000000e-11 + #(-4.0729543200000001e-15) * $v_T))))))];
  (*302*) If ($v_T) (#1000.0)
    [Asn v_u 12 (#1.8892296942953618e+02 * (#(-4.8371969700000001e+04) + $v_T * (#2.3567735200000000e+00 - #1.0 + $v_T * (#4.4922983850000002e-03 + $v_T * (#(-2.3745208966666665e-06) + $v_T * (#6.1479755499999995e-10 + #(-2.8739909599999997e-14) * $v_T))))))]
    [Asn v_u 12 (#1.8892296942953618e+02 * (#(-4.8759165999999997e+04) + $v_T * (#3.8574602900000001e+00 - #1.0 + $v_T * (#2.2071851299999999e-03 + $v_T * (#(-7.3827134666666672e-07) + $v_T * (#1.3087254700000001e-10 + #(-9.4416832800000002e-15) * $v_T))))))];
  (*308*) If ($v_T) (#1000.0)
    [Asn v_u 13 (#2.8652438768034290e+02 * (#3.8395649600000002e+03 + $v_T * (#4.2211858400000004e+00 - #1.0 + $v_T * (#(-1.6219626600000000e-03) + $v_T * (#4.5933148666666667e-06 + $v_T * (#(-3.3286023250000002e-09) + #8.6753773000000000e-13 * $v_T))))))]
    [Asn v_u 13 (#2.8652438768034290e+02 * (#4.0119181500000000e+03 + $v_T * (#2.7721743800000000e+00 - #1.0 + $v_T * (#2.4784776299999998e-03 + $v_T * (#(-8.2815204333333337e-07) + $v_T * (#1.4729044450000001e-10 + #(-1.0670174220000000e-14) * $v_T))))))];
  (*314*) If ($v_T) (#1000.0)
    [Asn v_u 14 (#2.7690616686449340e+02 * (#(-1.4308956700000001e+04) + $v_T * (#4.7937231499999999e+00 - #1.0 + $v_T * (#(-4.9541668450000000e-03) + $v_T * (#1.2440666933333332e-05 + $v_T * (#(-9.4821315249999995e-09) + #2.6354530400000001e-12 * $v_T))))))]
    [Asn v_u 14 (#2.7690616686449340e+02 * (#(-1.3995832300000000e+04) + $v_T * (#1.7606900800000000e+00 - #1.0 + $v_T * (#4.6000004100000000e-03 + $v_T * (#(-1.4741960433333332e-06) + $v_T * (#2.5160302999999999e-10 + #(-1.7677112800000002e-14) * $v_T))))))];
  (*320*) If ($v_T) (#1000.0)
    [Asn v_u 15 (#2.6791271377208773e+02 * (#9.7860109999999997e+02 + $v_T * (#2.1062040000000000e+00 - #1.0 + $v_T * (#3.6082975000000001e-03 + $v_T * (#1.7794906666666667e-06 + $v_T * (#(-1.8444089999999999e-09) + #4.1512200000000000e-13 * $v_T))))))]
    [Asn v_u 15 (#2.6791271377208773e+02 * (#1.2783252000000000e+02 + $v_T * (#3.7707989999999998e+00 - #1.0 + $v_T * (#3.9357484999999999e-03 + $v_T * (#(-8.8546133333333336e-07) + $v_T * (#9.8610774999999998e-11 + #(-4.2252319999999999e-15) * $v_T))))))];
  (*326*) If ($v_T) (#1000.0)
    [Asn v_u 16 (#2.9637603301660818e+02 * (#5.0897759299999998e+03 + $v_T * (#3.9592014799999999e+00 - #1.0 + $v_T * (#(-3.7852612350000002e-03) + $v_T * (#1.9033009733333333e-05 + $v_T * (#(-1.7289718825000000e-08) + #5.3976874600000004e-12 * $v_T))))))]
    [Asn v_u 16 (#2.9637603301660818e+02 * (#4.9398861399999996e+03 + $v_T * (#2.0361111599999999e+00 - #1.0 + $v_T * (#7.3227075499999999e-03 + $v_T * (#(-2.2369263833333335e-06) + $v_T * (#3.6805730750000002e-10 + #(-2.5141212200000000e-14) * $v_T))))))];
  (*332*) If ($v_T) (#1000.0)
    [Asn v_u 17 (#2.8609689384998131e+02 * (#1.2841626500000000e+04 + $v_T * (#4.3064656799999996e+00 - #1.0 + $v_T * (#(-2.0932944600000002e-03) + $v_T * (#1.6571426900000001e-05 + $v_T * (#(-1.4978165149999999e-08) + #4.6101800800000003e-12 * $v_T))))))]
    [Asn v_u 17 (#2.8609689384998131e+02 * (#1.2857520000000000e+04 + $v_T * (#1.9546564200000001e+00 - #1.0 + $v_T * (#8.6986361000000005e-03 + $v_T * (#(-2.6606888933333333e-06) + $v_T * (#4.3804422250000001e-10 + #(-2.9928315199999999e-14) * $v_T))))))];
  (*338*) If ($v_T) (#1000.0)
    [Asn v_u 18 (#2.7650687204768667e+02 * (#(-1.1522205500000000e+04) + $v_T * (#4.2914249199999999e+00 - #1.0 + $v_T * (#(-2.7507713499999998e-03) + $v_T * (#1.9981276266666669e-05 + $v_T * (#(-1.7711657125000000e-08) + #5.3737154200000002e-12 * $v_T))))))]
    [Asn v_u 18 (#2.7650687204768667e+02 * (#(-1.1426393200000000e+04) + $v_T * (#1.0718814999999999e+00 - #1.0 + $v_T * (#1.0842633850000000e-02 + $v_T * (#(-3.3418689000000000e-06) + $v_T * (#5.5353000250000001e-10 + #(-3.8000577999999999e-14) * $v_T))))))];
  (*344*) If ($v_T) (#1000.0)
    [Asn v_u 19 (#2.0813212426154001e+02 * (#(-7.4537500000000000e+02) + $v_T * (#2.5000000000000000e+00 - #1.0 + $v_T * (#0.0000000000000000e+00 + $v_T * (#0.0000000000000000e+00 + $v_T * (#0.0000000000000000e+00 + #0.0000000000000000e+00 * $v_T))))))]
    [Asn v_u 19 (#2.0813212426154001e+02 * (#(-7.4537500000000000e+02) + $v_T * (#2.5000000000000000e+00 - #1.0 + $v_T * (#0.0000000000000000e+00 + $v_T * (#0.0000000000000000e+00 + $v_T * (#0.0000000000000000e+00 + #0.0000000000000000e+00 * $v_T))))))];
  (*350*) If ($v_T) (#1000.0)
    [Asn v_u 20 (#2.9680218594762238e+02 * (#(-1.0208999000000000e+03) + $v_T * (#3.2986770000000001e+00 - #1.0 + $v_T * (#7.0412019999999999e-04 + $v_T * (#(-1.3210739999999999e-06) + $v_T * (#1.4103787500000001e-09 + #(-4.8897079999999994e-13) * $v_T))))))]
    [Asn v_u 20 (#2.9680218594762238e+02 * (#(-9.2279769999999996e+02) + $v_T * (#2.9266399999999999e+00 - #1.0 + $v_T * (#7.4398840000000003e-04 + $v_T * (#(-1.8949200000000001e-07) + $v_T * (#2.5242595000000000e-11 + #(-1.3506701999999999e-15) * $v_T))))))]
].

(** [eval_cv], drm19/lib/src/chem_utils.c:358-486. *)
Definition drm19_eval_cv : list stmt := [
  (*360*) If ($v_T) (#1000.0)
    [Asn v_cv 0 (#4.1244826576978785e+03 * (#2.3443311200000001e+00 - #1.0 + $v_T * (#7.9805207499999992e-03 + $v_T * (#(-1.9478150999999999e-05) + $v_T * (#2.0157209400000000e-08 + #(-7.3761176100000006e-12) * $v_T)))))]
    [Asn v_cv 0 (#4.1244826576978785e+03 * (#3.3372791999999998e+00 - #1.0 + $v_T * (#(-4.9402473099999998e-05) + $v_T * (#4.9945677799999996e-07 + $v_T * (#(-1.7956639400000001e-10) + #2.0025537600000000e-14 * $v_T)))))];
  (*366*) If ($v_T) (#1000.0)
    [Asn v_cv 1 (#8.2489653153957570e+03 * (#2.5000000000000000e+00 - #1.0 + $v_T * (#7.0533281899999999e-13 + $v_T * (#(-1.9959196400000000e-15) + $v_T * (#2.3008163199999999e-18 + #(-9.2773233200000006e-22) * $v_T)))))]
    [Asn v_cv 1 (#8.2489653153957570e+03 * (#2.5000000099999999e+00 - #1.0 + $v_T * (#(-2.3084297299999999e-11) + $v_T * (#1.6156194800000001e-14 + $v_T * (#(-4.7351523500000003e-18) + #4.9819735700000002e-22 * $v_T)))))];
  (*372*) If ($v_T) (#1000.0)
    [Asn v_cv 2 (#5.1967336900133762e+02 * (#3.1682671000000000e+00 - #1.0 + $v_T * (#(-3.2793188399999999e-03) + $v_T * (#6.6430639599999997e-06 + $v_T * (#(-6.1280662400000001e-09) + #2.1126597099999999e-12 * $v_T)))))]
    [Asn v_cv 2 (#5.1967336900133762e+02 * (#2.5694207800000002e+00 - #1.0 + $v_T * (#(-8.5974113700000004e-05) + $v_T * (#4.1948458900000002e-08 + $v_T * (#(-1.0017779899999999e-11) + #1.2283369099999999e-15 * $v_T)))))];
  (*378*) If ($v_T) (#1000.0)
    [Asn v_cv 3 (#2.5983668450066881e+02 * (#3.7824563599999999e+00 - #1.0 + $v_T * (#(-2.9967341599999998e-03) + $v_T * (#9.8473020100000000e-06 + $v_T * (#(-9.6812950900000007e-09) + #3.2437283700000000e-12 * $v_T)))))]
    [Asn v_cv 3 (#2.5983668450066881e+02 * (#3.2825378399999998e+00 - #1.0 + $v_T * (#1.4830875399999999e-03 + $v_T * (#(-7.5796666899999999e-07) + $v_T * (#2.0947055499999999e-10 + #(-2.1671779399999999e-14) * $v_T)))))];
  (*384*) If ($v_T) (#1000.0)
    [Asn v_cv 4 (#4.8887492694330808e+02 * (#3.9920154299999999e+00 - #1.0 + $v_T * (#(-2.4013175200000001e-03) + $v_T * (#4.6179384099999996e-06 + $v_T * (#(-3.8811333300000000e-09) + #1.3641147000000000e-12 * $v_T)))))]
    [Asn v_cv 4 (#4.8887492694330808e+02 * (#3.0928876700000001e+00 - #1.0 + $v_T * (#5.4842971599999998e-04 + $v_T * (#1.2650522799999999e-07 + $v_T * (#(-8.7946155599999995e-11) + #1.1741237600000000e-14 * $v_T)))))];
  (*390*) If ($v_T) (#1000.0)
    [Asn v_cv 5 (#4.6152277955158070e+02 * (#4.1986405600000003e+00 - #1.0 + $v_T * (#(-2.0364341000000002e-03) + $v_T * (#6.5204021099999997e-06 + $v_T * (#(-5.4879706200000003e-09) + #1.7719781700000000e-12 * $v_T)))))]
    [Asn v_cv 5 (#4.6152277955158070e+02 * (#3.0339924900000002e+00 - #1.0 + $v_T * (#2.1769180400000002e-03 + $v_T * (#(-1.6407251799999999e-07) + $v_T * (#(-9.7041986999999998e-11) + #1.6820099199999999e-14 * $v_T)))))];
  (*396*) If ($v_T) (#1000.0)
    [Asn v_cv 6 (#2.5190194790518544e+02 * (#4.3017980099999997e+00 - #1.0 + $v_T * (#(-4.7491205099999996e-03) + $v_T * (#2.1158289099999999e-05 + $v_T * (#(-2.4276389400000000e-08) + #9.2922512400000003e-12 * $v_T)))))]
    [Asn v_cv 6 (#2.5190194790518544e+02 * (#4.0172109000000003e+00 - #1.0 + $v_T * (#2.2398201299999999e-03 + $v_T * (#(-6.3365814999999998e-07) + $v_T * (#1.1424637000000000e-10 + #(-1.0790853500000000e-14) * $v_T)))))];
  (*402*) If ($v_T) (#1000.0)
    [Asn v_cv 7 (#5.9275206603321635e+02 * (#3.7626786700000001e+00 - #1.0 + $v_T * (#9.6887214300000004e-04 + $v_T * (#2.7948984100000001e-06 + $v_T * (#(-3.8509115300000003e-09) + #1.6874171900000000e-12 * $v_T)))))]
    [Asn v_cv 7 (#5.9275206603321635e+02 * (#2.8741011300000001e+00 - #1.0 + $v_T * (#3.6563929199999999e-03 + $v_T * (#(-1.4089459700000001e-06) + $v_T * (#2.6017954899999999e-10 + #(-1.8772756700000001e-14) * $v_T)))))];
  (*408*) If ($v_T) (#1000.0)
    [Asn v_cv 8 (#5.9275206603321635e+02 * (#4.1986041099999998e+00 - #1.0 + $v_T * (#(-2.3666141900000001e-03) + $v_T * (#8.2329621999999999e-06 + $v_T * (#(-6.6881598100000004e-09) + #1.9431473700000001e-12 * $v_T)))))]
    [Asn v_cv 8 (#5.9275206603321635e+02 * (#2.2920384199999999e+00 - #1.0 + $v_T * (#4.6558863700000000e-03 + $v_T * (#(-2.0119194699999999e-06) + $v_T * (#4.1790600000000002e-10 + #(-3.3971636499999998e-14) * $v_T)))))];
  (*414*) If ($v_T) (#1000.0)
    [Asn v_cv 9 (#5.5301374409537334e+02 * (#3.6735904000000001e+00 - #1.0 + $v_T * (#2.0109517500000000e-03 + $v_T * (#5.7302185600000002e-06 + $v_T * (#(-6.8711742500000001e-09) + #2.5438573400000000e-12 * $v_T)))))]
    [Asn v_cv 9 (#5.5301374409537334e+02 * (#2.2857177200000001e+00 - #1.0 + $v_T * (#7.2399003699999999e-03 + $v_T * (#(-2.9871434799999999e-06) + $v_T * (#5.9568464400000002e-10 + #(-4.6715439400000003e-14) * $v_T)))))];
  (*420*) If ($v_T) (#1000.0)
    [Asn v_cv 10 (#5.1826880786099150e+02 * (#5.1498761300000000e+00 - #1.0 + $v_T * (#(-1.3670978800000001e-02) + $v_T * (#4.9180059899999999e-05 + $v_T * (#(-4.8474302600000002e-08) + #1.6669395599999999e-11 * $v_T)))))]
    [Asn v_cv 10 (#5.1826880786099150e+02 * (#7.4851495000000004e-02 - #1.0 + $v_T * (#1.3390946700000000e-02 + $v_T * (#(-5.7328580900000000e-06) + $v_T * (#1.2229253500000000e-09 + #(-1.0181523000000000e-13) * $v_T)))))];
  (*426*) If ($v_T) (#1000.0)
    [Asn v_cv 11 (#2.9683482206608977e+02 * (#3.5795334699999999e+00 - #1.0 + $v_T * (#(-6.1035368000000000e-04) + $v_T * (#1.0168143300000000e-06 + $v_T * (#9.0700588399999998e-10 + #(-9.0442449900000000e-13) * $v_T)))))]
    [Asn v_cv 11 (#2.9683482206608977e+02 * (#2.7151856099999998e+00 - #1.0 + $v_T * (#2.0625274300000002e-03 + $v_T * (#(-9.9882577100000007e-07) + $v_T * (#2.3005300800000000e-10 + #(-2.0364771600000000e-14) * $v_T)))))];
  (*432*) If ($v_T) (#1000.0)
    [Asn v_cv 12 (#1.8892296942953618e+02 * (#2.3567735200000000e+00 - #1.0 + $v_T * (#8.9845967700000005e-03 + $v_T * (#(-7.1235626899999998e-06) + $v_T * (#2.4591902199999998e-09 + #(-1.4369954799999999e-13) * $v_T)))))]
    [Asn v_cv 12 (#1.8892296942953618e+02 * (#3.8574602900000001e+00 - #1.0 + $v_T * (#4.4143702599999998e-03 + $v_T * (#(-2.2148140400000001e-06) + $v_T * (#5.2349018800000005e-10 + #(-4.7208416400000003e-14) * $v_T)))))];
  (*438*) If ($v_T) (#1000.0)
    [Asn v_cv 13 (#2.8652438768034290e+02 * (#4.2211858400000004e+00 - #1.0 + $v_T * (#(-3.2439253200000000e-03) + $v_T * (#1.3779944600000000e-05 + $v_T * (#(-1.3314409300000001e-08) + #4.3376886499999999e-12 * $v_T)))))]
    [Asn v_cv 13 (#2.8652438768034290e+02 * (#2.7721743800000000e+00 - #1.0 + $v_T * (#4.9569552599999997e-03 + $v_T * (#(-2.4844561300000000e-06) + $v_T * (#5.8916177800000004e-10 + #(-5.3350871099999999e-14) * $v_T)))))];
  (*444*) If ($v_T) (#1000.0)
    [Asn v_cv 14 (#2.7690616686449340e+02 * (#4.7937231499999999e+00 - #1.0 + $v_T * (#(-9.9083336899999999e-03) + $v_T * (#3.7322000799999999e-05 + $v_T * (#(-3.7928526099999998e-08) + #1.3177265200000000e-11 * $v_T)))))]
    [Asn v_cv 14 (#2.7690616686449340e+02 * (#1.7606900800000000e+00 - #1.0 + $v_T * (#9.2000008200000000e-03 + $v_T * (#(-4.4225881299999997e-06) + $v_T * (#1.0064121200000000e-09 + #(-8.8385564000000006e-14) * $v_T)))))];
  (*450*) If ($v_T) (#1000.0)
    [Asn v_cv 15 (#2.6791271377208773e+02 * (#2.1062040000000000e+00 - #1.0 + $v_T * (#7.2165950000000001e-03 + $v_T * (#5.3384719999999999e-06 + $v_T * (#(-7.3776359999999997e-09) + #2.0756099999999999e-12 * $v_T)))))]
    [Asn v_cv 15 (#2.6791271377208773e+02 * (#3.7707989999999998e+00 - #1.0 + $v_T * (#7.8714969999999999e-03 + $v_T * (#(-2.6563840000000001e-06) + $v_T * (#3.9444309999999999e-10 + #(-2.1126160000000001e-14) * $v_T)))))];
  (*456*) If ($v_T) (#1000.0)
    [Asn v_cv 16 (#2.9637603301660818e+02 * (#3.9592014799999999e+00 - #1.0 + $v_T * (#(-7.5705224700000004e-03) + $v_T * (#5.7099029199999999e-05 + $v_T * (#(-6.9158875299999999e-08) + #2.6988437300000001e-11 * $v_T)))))]
    [Asn v_cv 16 (#2.9637603301660818e+02 * (#2.0361111599999999e+00 - #1.0 + $v_T * (#1.4645415100000000e-02 + $v_T * (#(-6.7107791500000002e-06) + $v_T * (#1.4722292300000001e-09 + #(-1.2570606100000000e-13) * $v_T)))))];
  (*462*) If ($v_T) (#1000.0)
    [Asn v_cv 17 (#2.8609689384998131e+02 * (#4.3064656799999996e+00 - #1.0 + $v_T * (#(-4.1865889200000004e-03) + $v_T * (#4.9714280699999999e-05 + $v_T * (#(-5.9912660599999996e-08) + #2.3050900400000000e-11 * $v_T)))))]
    [Asn v_cv 17 (#2.8609689384998131e+02 * (#1.9546564200000001e+00 - #1.0 + $v_T * (#1.7397272200000001e-02 + $v_T * (#(-7.9820666799999996e-06) + $v_T * (#1.7521768900000000e-09 + #(-1.4964157600000000e-13) * $v_T)))))];
  (*468*) If ($v_T) (#1000.0)
    [Asn v_cv 18 (#2.7650687204768667e+02 * (#4.2914249199999999e+00 - #1.0 + $v_T * (#(-5.5015426999999997e-03) + $v_T * (#5.9943828800000003e-05 + $v_T * (#(-7.0846628500000001e-08) + #2.6868577099999999e-11 * $v_T)))))]
    [Asn v_cv 18 (#2.7650687204768667e+02 * (#1.0718814999999999e+00 - #1.0 + $v_T * (#2.1685267700000000e-02 + $v_T * (#(-1.0025606700000000e-05) + $v_T * (#2.2141200100000000e-09 + #(-1.9000289000000000e-13) * $v_T)))))];
  (*474*) If ($v_T) (#1000.0)
    [Asn v_cv 19 (#2.0813212426154001e+02 * (#2.5000000000000000e+00 - #1.0 + $v_T * (#0.0000000000000000e+00 + $v_T * (#0.0000000000000000e+00 + $v_T * (#0.0000000000000000e+00 + #0.0000000000000000e+00 * $v_T)))))]
    [Asn v_cv 19 (#2.0813212426154001e+02 * (#2.5000000000000000e+00 - #1.0 + $v_T * (#0.0000000000000000e+00 + $v_T * (#0.0000000000000000e+00 + $v_T * (#0.0000000000000000e+00 + #0.0000000000000000e+00 * $v_T)))))];
  (*480*) If ($v_T) (#1000.0)
    [Asn v_cv 20 (#2.9680218594762238e+02 * (#3.2986770000000001e+00 - #1.0 + $v_T * (#1.4082404000000000e-03 + $v_T * (#(-3.9632219999999998e-06) + $v_T * (#5.6415150000000002e-09 + #(-2.4448539999999999e-12) * $v_T)))))]
    [Asn v_cv 20 (#2.9680218594762238e+02 * (#2.9266399999999999e+00 - #1.0 + $v_T * (#1.4879768000000001e-03 + $v_T * (#(-5.6847600000000001e-07) + $v_T * (#1.0097038000000000e-10 + #(-6.7533509999999998e-15) * $v_T)))))]
].
