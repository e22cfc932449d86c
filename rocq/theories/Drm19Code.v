(** Transcription of /repo/utilities/mechanisms/drm19/lib/src (C, constant pressure branch); the number
    before a statement is its line. *)
From Coq Require Import List QArith.
From Verif Require Import MechLang.
Import ListNotations.
Local Open Scope mech_scope.

(** [eval_conc], drm19/lib/src/chem_utils.c:12-53. *)
Definition drm19_eval_conc : list stmt := [
  (*15*) Do (Asn v_y_N 0 (#1.0 - (v_y.[0] + v_y.[1] + v_y.[2] + v_y.[3] + v_y.[4] + v_y.[5] + v_y.[6] + v_y.[7] + v_y.[8] + v_y.[9] + v_y.[10] + v_y.[11] + v_y.[12] + v_y.[13] + v_y.[14] + v_y.[15] + v_y.[16] + v_y.[17] + v_y.[18] + v_y.[19])));
  (*18*) Do (Asn v_mw_avg 0 (v_y.[0] * #4.9606127348850126e-01 + v_y.[1] * #9.9212254697700253e-01 + v_y.[2] * #6.2502343837893923e-02 + v_y.[3] * #3.1251171918946961e-02 + v_y.[4] * #5.8798142449083754e-02 + v_y.[5] * #5.5508435061791990e-02 + v_y.[6] * #3.0296842402491128e-02 + v_y.[7] * #7.1291691381119682e-02 + v_y.[8] * #7.1291691381119682e-02 + v_y.[9] * #6.6512269518358050e-02 + v_y.[10] * #6.2333413951215375e-02 + v_y.[11] * #3.5701025333447579e-02 + v_y.[12] * #2.2722211870992371e-02 + v_y.[13] * #3.4460965031080343e-02 + v_y.[14] * #3.3304158890145569e-02 + v_y.[15] * #3.2222495039346891e-02 + v_y.[16] * #3.5645845690559841e-02 + v_y.[17] * #3.4409549338132318e-02 + v_y.[18] * #3.3256134759179025e-02 + v_y.[19] * #2.5032542304996495e-02 + $v_y_N * #3.5697100110375433e-02));
  (*28*) Do (Asn v_mw_avg 0 (#1.0 / $v_mw_avg));
  (*30*) Do (Asn v_rho 0 ($v_pres * $v_mw_avg / (#8.31446210e+03 * $v_T)));
  (*31*) Do (Asn v_conc 0 ($v_rho * v_y.[0] * #4.9606127348850126e-01));
  (*32*) Do (Asn v_conc 1 ($v_rho * v_y.[1] * #9.9212254697700253e-01));
  (*33*) Do (Asn v_conc 2 ($v_rho * v_y.[2] * #6.2502343837893923e-02));
  (*34*) Do (Asn v_conc 3 ($v_rho * v_y.[3] * #3.1251171918946961e-02));
  (*35*) Do (Asn v_conc 4 ($v_rho * v_y.[4] * #5.8798142449083754e-02));
  (*36*) Do (Asn v_conc 5 ($v_rho * v_y.[5] * #5.5508435061791990e-02));
  (*37*) Do (Asn v_conc 6 ($v_rho * v_y.[6] * #3.0296842402491128e-02));
  (*38*) Do (Asn v_conc 7 ($v_rho * v_y.[7] * #7.1291691381119682e-02));
  (*39*) Do (Asn v_conc 8 ($v_rho * v_y.[8] * #7.1291691381119682e-02));
  (*40*) Do (Asn v_conc 9 ($v_rho * v_y.[9] * #6.6512269518358050e-02));
  (*41*) Do (Asn v_conc 10 ($v_rho * v_y.[10] * #6.2333413951215375e-02));
  (*42*) Do (Asn v_conc 11 ($v_rho * v_y.[11] * #3.5701025333447579e-02));
  (*43*) Do (Asn v_conc 12 ($v_rho * v_y.[12] * #2.2722211870992371e-02));
  (*44*) Do (Asn v_conc 13 ($v_rho * v_y.[13] * #3.4460965031080343e-02));
  (*45*) Do (Asn v_conc 14 ($v_rho * v_y.[14] * #3.3304158890145569e-02));
  (*46*) Do (Asn v_conc 15 ($v_rho * v_y.[15] * #3.2222495039346891e-02));
  (*47*) Do (Asn v_conc 16 ($v_rho * v_y.[16] * #3.5645845690559841e-02));
  (*48*) Do (Asn v_conc 17 ($v_rho * v_y.[17] * #3.4409549338132318e-02));
  (*49*) Do (Asn v_conc 18 ($v_rho * v_y.[18] * #3.3256134759179025e-02));
  (*50*) Do (Asn v_conc 19 ($v_rho * v_y.[19] * #2.5032542304996495e-02));
  (*51*) Do (Asn v_conc 20 ($v_rho * $v_y_N * #3.5697100110375433e-02))
].

(** [eval_h], drm19/lib/src/chem_utils.c:98-226. *)
Definition drm19_eval_h : list stmt := [
  (*100*) If ($v_T) (#1000.0)
    [Asn v_h 0 (#4.1244826576978785e+03 * (#(-9.1793517299999996e+02) + $v_T * (#2.3443311200000001e+00 + $v_T * (#3.9902603749999996e-03 + $v_T * (#(-6.4927169999999995e-06) + $v_T * (#5.0393023500000001e-09 + #(-1.4752235220000002e-12) * $v_T))))))]
    [Asn v_h 0 (#4.1244826576978785e+03 * (#(-9.5015892199999996e+02) + $v_T * (#3.3372791999999998e+00 + $v_T * (#(-2.4701236549999999e-05) + $v_T * (#1.6648559266666665e-07 + $v_T * (#(-4.4891598500000001e-11) + #4.0051075199999998e-15 * $v_T))))))];
  (*106*) If ($v_T) (#1000.0)
    [Asn v_h 1 (#8.2489653153957570e+03 * (#2.5473659899999999e+04 + $v_T * (#2.5000000000000000e+00 + $v_T * (#3.5266640949999999e-13 + $v_T * (#(-6.6530654666666665e-16) + $v_T * (#5.7520407999999997e-19 + #(-1.8554646640000001e-22) * $v_T))))))]
    [Asn v_h 1 (#8.2489653153957570e+03 * (#2.5473659899999999e+04 + $v_T * (#2.5000000099999999e+00 + $v_T * (#(-1.1542148649999999e-11) + $v_T * (#5.3853982666666673e-15 + $v_T * (#(-1.1837880875000001e-18) + #9.9639471400000006e-23 * $v_T))))))];
  (*112*) If ($v_T) (#1000.0)
    [Asn v_h 2 (#5.1967336900133762e+02 * (#2.9122259200000000e+04 + $v_T * (#3.1682671000000000e+00 + $v_T * (#(-1.6396594200000000e-03) + $v_T * (#2.2143546533333334e-06 + $v_T * (#(-1.5320165600000000e-09) + #4.2253194199999998e-13 * $v_T))))))]
    [Asn v_h 2 (#5.1967336900133762e+02 * (#2.9217579099999999e+04 + $v_T * (#2.5694207800000002e+00 + $v_T * (#(-4.2987056850000002e-05) + $v_T * (#1.3982819633333334e-08 + $v_T * (#(-2.5044449749999998e-12) + #2.4566738199999997e-16 * $v_T))))))];
  (*118*) If ($v_T) (#1000.0)
    [Asn v_h 3 (#2.5983668450066881e+02 * (#(-1.0639435599999999e+03) + $v_T * (#3.7824563599999999e+00 + $v_T * (#(-1.4983670799999999e-03) + $v_T * (#3.2824340033333332e-06 + $v_T * (#(-2.4203237725000002e-09) + #6.4874567400000000e-13 * $v_T))))))]
    [Asn v_h 3 (#2.5983668450066881e+02 * (#(-1.0884577200000001e+03) + $v_T * (#3.2825378399999998e+00 + $v_T * (#7.4154376999999996e-04 + $v_T * (#(-2.5265555633333331e-07) + $v_T * (#5.2367638749999998e-11 + #(-4.3343558799999996e-15) * $v_T))))))];
  (*124*) If ($v_T) (#1000.0)
    [Asn v_h 4 (#4.8887492694330808e+02 * (#3.6150805599999999e+03 + $v_T * (#3.9920154299999999e+00 + $v_T * (#(-1.2006587600000001e-03) + $v_T * (#1.5393128033333333e-06 + $v_T * (#(-9.7028333249999999e-10) + #2.7282293999999999e-13 * $v_T))))))]
    [Asn v_h 4 (#4.8887492694330808e+02 * (#3.8586570000000002e+03 + $v_T * (#3.0928876700000001e+00 + $v_T * (#2.7421485799999999e-04 + $v_T * (#4.2168409333333331e-08 + $v_T * (#(-2.1986538899999999e-11) + #2.3482475199999999e-15 * $v_T))))))];
  (*130*) If ($v_T) (#1000.0)
    [Asn v_h 5 (#4.6152277955158070e+02 * (#(-3.0293726699999999e+04) + $v_T * (#4.1986405600000003e+00 + $v_T * (#(-1.0182170500000001e-03) + $v_T * (#2.1734673700000000e-06 + $v_T * (#(-1.3719926550000001e-09) + #3.5439563400000000e-13 * $v_T))))))]
    [Asn v_h 5 (#4.6152277955158070e+02 * (#(-3.0004297100000000e+04) + $v_T * (#3.0339924900000002e+00 + $v_T * (#1.0884590200000001e-03 + $v_T * (#(-5.4690839333333327e-08) + $v_T * (#(-2.4260496750000000e-11) + #3.3640198399999998e-15 * $v_T))))))];
  (*136*) If ($v_T) (#1000.0)
    [Asn v_h 6 (#2.5190194790518544e+02 * (#2.9480804000000001e+02 + $v_T * (#4.3017980099999997e+00 + $v_T * (#(-2.3745602549999998e-03) + $v_T * (#7.0527630333333326e-06 + $v_T * (#(-6.0690973500000000e-09) + #1.8584502480000002e-12 * $v_T))))))]
    [Asn v_h 6 (#2.5190194790518544e+02 * (#1.1185671300000000e+02 + $v_T * (#4.0172109000000003e+00 + $v_T * (#1.1199100650000000e-03 + $v_T * (#(-2.1121938333333332e-07) + $v_T * (#2.8561592500000001e-11 + #(-2.1581707000000000e-15) * $v_T))))))];
  (*142*) If ($v_T) (#1000.0)
    [Asn v_h 7 (#5.9275206603321635e+02 * (#4.6004040099999998e+04 + $v_T * (#3.7626786700000001e+00 + $v_T * (#4.8443607150000002e-04 + $v_T * (#9.3163280333333339e-07 + $v_T * (#(-9.6272788250000007e-10) + #3.3748343799999999e-13 * $v_T))))))]
    [Asn v_h 7 (#5.9275206603321635e+02 * (#4.6263603999999999e+04 + $v_T * (#2.8741011300000001e+00 + $v_T * (#1.8281964599999999e-03 + $v_T * (#(-4.6964865666666667e-07) + $v_T * (#6.5044887249999998e-11 + #(-3.7545513400000000e-15) * $v_T))))))];
  (*148*) If ($v_T) (#1000.0)
    [Asn v_h 8 (#5.9275206603321635e+02 * (#5.0496816299999999e+04 + $v_T * (#4.1986041099999998e+00 + $v_T * (#(-1.1833070950000000e-03) + $v_T * (#2.7443207333333332e-06 + $v_T * (#(-1.6720399525000001e-09) + #3.8862947400000001e-13 * $v_T))))))]
    [Asn v_h 8 (#5.9275206603321635e+02 * (#5.0925999700000000e+04 + $v_T * (#2.2920384199999999e+00 + $v_T * (#2.3279431850000000e-03 + $v_T * (#(-6.7063982333333332e-07) + $v_T * (#1.0447650000000001e-10 + #(-6.7943272999999998e-15) * $v_T))))))];
  (*154*) If ($v_T) (#1000.0)
    [Asn v_h 9 (#5.5301374409537334e+02 * (#1.6444998800000001e+04 + $v_T * (#3.6735904000000001e+00 + $v_T * (#1.0054758750000000e-03 + $v_T * (#1.9100728533333335e-06 + $v_T * (#(-1.7177935625000000e-09) + #5.0877146800000003e-13 * $v_T))))))]
    [Asn v_h 9 (#5.5301374409537334e+02 * (#1.6775584299999999e+04 + $v_T * (#2.2857177200000001e+00 + $v_T * (#3.6199501849999999e-03 + $v_T * (#(-9.9571449333333331e-07) + $v_T * (#1.4892116100000001e-10 + #(-9.3430878800000005e-15) * $v_T))))))];
  (*160*) If ($v_T) (#1000.0)
    [Asn v_h 10 (#5.1826880786099150e+02 * (#(-1.0246647600000000e+04) + $v_T * (#5.1498761300000000e+00 + $v_T * (#(-6.8354894000000003e-03) + $v_T * (#1.6393353300000001e-05 + $v_T * (#(-1.2118575650000000e-08) + #3.3338791200000000e-12 * $v_T))))))]
    [Asn v_h 10 (#5.1826880786099150e+02 * (#(-9.4683445900000006e+03) + $v_T * (#7.4851495000000004e-02 + $v_T * (#6.6954733499999999e-03 + $v_T * (#(-1.9109526966666665e-06) + $v_T * (#3.0573133750000000e-10 + #(-2.0363046000000002e-14) * $v_T))))))];
  (*166*) If ($v_T) (#1000.0)
    [Asn v_h 11 (#2.9683482206608977e+02 * (#(-1.4344085999999999e+04) + $v_T * (#3.5795334699999999e+00 + $v_T * (#(-3.0517684000000000e-04) + $v_T * (#3.3893811000000002e-07 + $v_T * (#2.2675147100000000e-10 + #(-1.8088489979999999e-13) * $v_T))))))]
    [Asn v_h 11 (#2.9683482206608977e+02 * (#(-1.4151872400000000e+04) + $v_T * (#2.7151856099999998e+00 + $v_T * (#1.0312637150000001e-03 + $v_T * (#(-3.3294192366666671e-07) + $v_T * (#5.7513252000000000e-11 + #(-4.0729543200000001e-15) * $v_T))))))];
  (*172*) If ($v_T) (#1000.0)
    [Asn v_h 12 (#1.8892296942953618e+02 * (#(-4.8371969700000001e+04) + $v_T * (#2.3567735200000000e+00 + $v_T * (#4.4922983850000002e-03 + $v_T * (#(-2.3745208966666665e-06) + $v_T * (#6.1479755499999995e-10 + #(-2.8739909599999997e-14) * $v_T))))))]
    [Asn v_h 12 (#1.8892296942953618e+02 * (#(-4.8759165999999997e+04) + $v_T * (#3.8574602900000001e+00 + $v_T * (#2.2071851299999999e-03 + $v_T * (#(-7.3827134666666672e-07) + $v_T * (#1.3087254700000001e-10 + #(-9.4416832800000002e-15) * $v_T))))))];
  (*178*) If ($v_T) (#1000.0)
    [Asn v_h 13 (#2.8652438768034290e+02 * (#3.8395649600000002e+03 + $v_T * (#4.2211858400000004e+00 + $v_T * (#(-1.6219626600000000e-03) + $v_T * (#4.5933148666666667e-06 + $v_T * (#(-3.3286023250000002e-09) + #8.6753773000000000e-13 * $v_T))))))]
    [Asn v_h 13 (#2.8652438768034290e+02 * (#4.0119181500000000e+03 + $v_T * (#2.7721743800000000e+00 + $v_T * (#2.4784776299999998e-03 + $v_T * (#(-8.2815204333333337e-07) + $v_T * (#1.4729044450000001e-10 + #(-1.0670174220000000e-14) * $v_T))))))];
  (*184*) If ($v_T) (#1000.0)
    [Asn v_h 14 (#2.7690616686449340e+02 * (#(-1.4308956700000001e+04) + $v_T * (#4.7937231499999999e+00 + $v_T * (#(-4.9541668450000000e-03) + $v_T * (#1.2440666933333332e-05 + $v_T * (#(-9.4821315249999995e-09) + #2.6354530400000001e-12 * $v_T))))))]
    [Asn v_h 14 (#2.7690616686449340e+02 * (#(-1.3995832300000000e+04) + $v_T * (#1.7606900800000000e+00 + $v_T * (#4.6000004100000000e-03 + $v_T * (#(-1.4741960433333332e-06) + $v_T * (#2.5160302999999999e-10 + #(-1.7677112800000002e-14) * $v_T))))))];
  (*190*) If ($v_T) (#1000.0)
    [Asn v_h 15 (#2.6791271377208773e+02 * (#9.7860109999999997e+02 + $v_T * (#2.1062040000000000e+00 + $v_T * (#3.6082975000000001e-03 + $v_T * (#1.7794906666666667e-06 + $v_T * (#(-1.8444089999999999e-09) + #4.1512200000000000e-13 * $v_T))))))]
    [Asn v_h 15 (#2.6791271377208773e+02 * (#1.2783252000000000e+02 + $v_T * (#3.7707989999999998e+00 + $v_T * (#3.9357484999999999e-03 + $v_T * (#(-8.8546133333333336e-07) + $v_T * (#9.8610774999999998e-11 + #(-4.2252319999999999e-15) * $v_T))))))];
  (*196*) If ($v_T) (#1000.0)
    [Asn v_h 16 (#2.9637603301660818e+02 * (#5.0897759299999998e+03 + $v_T * (#3.9592014799999999e+00 + $v_T * (#(-3.7852612350000002e-03) + $v_T * (#1.9033009733333333e-05 + $v_T * (#(-1.7289718825000000e-08) + #5.3976874600000004e-12 * $v_T))))))]
    [Asn v_h 16 (#2.9637603301660818e+02 * (#4.9398861399999996e+03 + $v_T * (#2.0361111599999999e+00 + $v_T * (#7.3227075499999999e-03 + $v_T * (#(-2.2369263833333335e-06) + $v_T * (#3.6805730750000002e-10 + #(-2.5141212200000000e-14) * $v_T))))))];
  (*202*) If ($v_T) (#1000.0)
    [Asn v_h 17 (#2.8609689384998131e+02 * (#1.2841626500000000e+04 + $v_T * (#4.3064656799999996e+00 + $v_T * (#(-2.0932944600000002e-03) + $v_T * (#1.6571426900000001e-05 + $v_T * (#(-1.4978165149999999e-08) + #4.6101800800000003e-12 * $v_T))))))]
    [Asn v_h 17 (#2.8609689384998131e+02 * (#1.2857520000000000e+04 + $v_T * (#1.9546564200000001e+00 + $v_T * (#8.6986361000000005e-03 + $v_T * (#(-2.6606888933333333e-06) + $v_T * (#4.3804422250000001e-10 + #(-2.9928315199999999e-14) * $v_T))))))];
  (*208*) If ($v_T) (#1000.0)
    [Asn v_h 18 (#2.7650687204768667e+02 * (#(-1.1522205500000000e+04) + $v_T * (#4.2914249199999999e+00 + $v_T * (#(-2.7507713499999998e-03) + $v_T * (#1.9981276266666669e-05 + $v_T * (#(-1.7711657125000000e-08) + #5.3737154200000002e-12 * $v_T))))))]
    [Asn v_h 18 (#2.7650687204768667e+02 * (#(-1.1426393200000000e+04) + $v_T * (#1.0718814999999999e+00 + $v_T * (#1.0842633850000000e-02 + $v_T * (#(-3.3418689000000000e-06) + $v_T * (#5.5353000250000001e-10 + #(-3.8000577999999999e-14) * $v_T))))))];
  (*214*) If ($v_T) (#1000.0)
    [Asn v_h 19 (#2.0813212426154001e+02 * (#(-7.4537500000000000e+02) + $v_T * (#2.5000000000000000e+00 + $v_T * (#0.0000000000000000e+00 + $v_T * (#0.0000000000000000e+00 + $v_T * (#0.0000000000000000e+00 + #0.0000000000000000e+00 * $v_T))))))]
    [Asn v_h 19 (#2.0813212426154001e+02 * (#(-7.4537500000000000e+02) + $v_T * (#2.5000000000000000e+00 + $v_T * (#0.0000000000000000e+00 + $v_T * (#0.0000000000000000e+00 + $v_T * (#0.0000000000000000e+00 + #0.0000000000000000e+00 * $v_T))))))];
  (*220*) If ($v_T) (#1000.0)
    [Asn v_h 20 (#2.9680218594762238e+02 * (#(-1.0208999000000000e+03) + $v_T * (#3.2986770000000001e+00 + $v_T * (#7.0412019999999999e-04 + $v_T * (#(-1.3210739999999999e-06) + $v_T * (#1.4103787500000001e-09 + #(-4.8897079999999994e-13) * $v_T))))))]
    [Asn v_h 20 (#2.9680218594762238e+02 * (#(-9.2279769999999996e+02) + $v_T * (#2.9266399999999999e+00 + $v_T * (#7.4398840000000003e-04 + $v_T * (#(-1.8949200000000001e-07) + $v_T * (#2.5242595000000000e-11 + #(-1.3506701999999999e-15) * $v_T))))))]
].

(** [eval_cp], drm19/lib/src/chem_utils.c:488-616. *)
Definition drm19_eval_cp : list stmt := [
  (*490*) If ($v_T) (#1000.0)
    [Asn v_cp 0 (#4.1244826576978785e+03 * (#2.3443311200000001e+00 + $v_T * (#7.9805207499999992e-03 + $v_T * (#(-1.9478150999999999e-05) + $v_T * (#2.0157209400000000e-08 + #(-7.3761176100000006e-12) * $v_T)))))]
    [Asn v_cp 0 (#4.1244826576978785e+03 * (#3.3372791999999998e+00 + $v_T * (#(-4.9402473099999998e-05) + $v_T * (#4.9945677799999996e-07 + $v_T * (#(-1.7956639400000001e-10) + #2.0025537600000000e-14 * $v_T)))))];
  (*496*) If ($v_T) (#1000.0)
    [Asn v_cp 1 (#8.2489653153957570e+03 * (#2.5000000000000000e+00 + $v_T * (#7.0533281899999999e-13 + $v_T * (#(-1.9959196400000000e-15) + $v_T * (#2.3008163199999999e-18 + #(-9.2773233200000006e-22) * $v_T)))))]
    [Asn v_cp 1 (#8.2489653153957570e+03 * (#2.5000000099999999e+00 + $v_T * (#(-2.3084297299999999e-11) + $v_T * (#1.6156194800000001e-14 + $v_T * (#(-4.7351523500000003e-18) + #4.9819735700000002e-22 * $v_T)))))];
  (*502*) If ($v_T) (#1000.0)
    [Asn v_cp 2 (#5.1967336900133762e+02 * (#3.1682671000000000e+00 + $v_T * (#(-3.2793188399999999e-03) + $v_T * (#6.6430639599999997e-06 + $v_T * (#(-6.1280662400000001e-09) + #2.1126597099999999e-12 * $v_T)))))]
    [Asn v_cp 2 (#5.1967336900133762e+02 * (#2.5694207800000002e+00 + $v_T * (#(-8.5974113700000004e-05) + $v_T * (#4.1948458900000002e-08 + $v_T * (#(-1.0017779899999999e-11) + #1.2283369099999999e-15 * $v_T)))))];
  (*508*) If ($v_T) (#1000.0)
    [Asn v_cp 3 (#2.5983668450066881e+02 * (#3.7824563599999999e+00 + $v_T * (#(-2.9967341599999998e-03) + $v_T * (#9.8473020100000000e-06 + $v_T * (#(-9.6812950900000007e-09) + #3.2437283700000000e-12 * $v_T)))))]
    [Asn v_cp 3 (#2.5983668450066881e+02 * (#3.2825378399999998e+00 + $v_T * (#1.4830875399999999e-03 + $v_T * (#(-7.5796666899999999e-07) + $v_T * (#2.0947055499999999e-10 + #(-2.1671779399999999e-14) * $v_T)))))];
  (*514*) If ($v_T) (#1000.0)
    [Asn v_cp 4 (#4.8887492694330808e+02 * (#3.9920154299999999e+00 + $v_T * (#(-2.4013175200000001e-03) + $v_T * (#4.6179384099999996e-06 + $v_T * (#(-3.8811333300000000e-09) + #1.3641147000000000e-12 * $v_T)))))]
    [Asn v_cp 4 (#4.8887492694330808e+02 * (#3.0928876700000001e+00 + $v_T * (#5.4842971599999998e-04 + $v_T * (#1.2650522799999999e-07 + $v_T * (#(-8.7946155599999995e-11) + #1.1741237600000000e-14 * $v_T)))))];
  (*520*) If ($v_T) (#1000.0)
    [Asn v_cp 5 (#4.6152277955158070e+02 * (#4.1986405600000003e+00 + $v_T * (#(-2.0364341000000002e-03) + $v_T * (#6.5204021099999997e-06 + $v_T * (#(-5.4879706200000003e-09) + #1.7719781700000000e-12 * $v_T)))))]
    [Asn v_cp 5 (#4.6152277955158070e+02 * (#3.0339924900000002e+00 + $v_T * (#2.1769180400000002e-03 + $v_T * (#(-1.6407251799999999e-07) + $v_T * (#(-9.7041986999999998e-11) + #1.6820099199999999e-14 * $v_T)))))];
  (*526*) If ($v_T) (#1000.0)
    [Asn v_cp 6 (#2.5190194790518544e+02 * (#4.3017980099999997e+00 + $v_T * (#(-4.7491205099999996e-03) + $v_T * (#2.1158289099999999e-05 + $v_T * (#(-2.4276389400000000e-08) + #9.2922512400000003e-12 * $v_T)))))]
    [Asn v_cp 6 (#2.5190194790518544e+02 * (#4.0172109000000003e+00 + $v_T * (#2.2398201299999999e-03 + $v_T * (#(-6.3365814999999998e-07) + $v_T * (#1.1424637000000000e-10 + #(-1.0790853500000000e-14) * $v_T)))))];
  (*532*) If ($v_T) (#1000.0)
    [Asn v_cp 7 (#5.9275206603321635e+02 * (#3.7626786700000001e+00 + $v_T * (#9.6887214300000004e-04 + $v_T * (#2.7948984100000001e-06 + $v_T * (#(-3.8509115300000003e-09) + #1.6874171900000000e-12 * $v_T)))))]
    [Asn v_cp 7 (#5.9275206603321635e+02 * (#2.8741011300000001e+00 + $v_T * (#3.6563929199999999e-03 + $v_T * (#(-1.4089459700000001e-06) + $v_T * (#2.6017954899999999e-10 + #(-1.8772756700000001e-14) * $v_T)))))];
  (*538*) If ($v_T) (#1000.0)
    [Asn v_cp 8 (#5.9275206603321635e+02 * (#4.1986041099999998e+00 + $v_T * (#(-2.3666141900000001e-03) + $v_T * (#8.2329621999999999e-06 + $v_T * (#(-6.6881598100000004e-09) + #1.9431473700000001e-12 * $v_T)))))]
    [Asn v_cp 8 (#5.9275206603321635e+02 * (#2.2920384199999999e+00 + $v_T * (#4.6558863700000000e-03 + $v_T * (#(-2.0119194699999999e-06) + $v_T * (#4.1790600000000002e-10 + #(-3.3971636499999998e-14) * $v_T)))))];
  (*544*) If ($v_T) (#1000.0)
    [Asn v_cp 9 (#5.5301374409537334e+02 * (#3.6735904000000001e+00 + $v_T * (#2.0109517500000000e-03 + $v_T * (#5.7302185600000002e-06 + $v_T * (#(-6.8711742500000001e-09) + #2.5438573400000000e-12 * $v_T)))))]
    [Asn v_cp 9 (#5.5301374409537334e+02 * (#2.2857177200000001e+00 + $v_T * (#7.2399003699999999e-03 + $v_T * (#(-2.9871434799999999e-06) + $v_T * (#5.9568464400000002e-10 + #(-4.6715439400000003e-14) * $v_T)))))];
  (*550*) If ($v_T) (#1000.0)
    [Asn v_cp 10 (#5.1826880786099150e+02 * (#5.1498761300000000e+00 + $v_T * (#(-1.3670978800000001e-02) + $v_T * (#4.9180059899999999e-05 + $v_T * (#(-4.8474302600000002e-08) + #1.6669395599999999e-11 * $v_T)))))]
    [Asn v_cp 10 (#5.1826880786099150e+02 * (#7.4851495000000004e-02 + $v_T * (#1.3390946700000000e-02 + $v_T * (#(-5.7328580900000000e-06) + $v_T * (#1.2229253500000000e-09 + #(-1.0181523000000000e-13) * $v_T)))))];
  (*556*) If ($v_T) (#1000.0)
    [Asn v_cp 11 (#2.9683482206608977e+02 * (#3.5795334699999999e+00 + $v_T * (#(-6.1035368000000000e-04) + $v_T * (#1.0168143300000000e-06 + $v_T * (#9.0700588399999998e-10 + #(-9.0442449900000000e-13) * $v_T)))))]
    [Asn v_cp 11 (#2.9683482206608977e+02 * (#2.7151856099999998e+00 + $v_T * (#2.0625274300000002e-03 + $v_T * (#(-9.9882577100000007e-07) + $v_T * (#2.3005300800000000e-10 + #(-2.0364771600000000e-14) * $v_T)))))];
  (*562*) If ($v_T) (#1000.0)
    [Asn v_cp 12 (#1.8892296942953618e+02 * (#2.3567735200000000e+00 + $v_T * (#8.9845967700000005e-03 + $v_T * (#(-7.1235626899999998e-06) + $v_T * (#2.4591902199999998e-09 + #(-1.4369954799999999e-13) * $v_T)))))]
    [Asn v_cp 12 (#1.8892296942953618e+02 * (#3.8574602900000001e+00 + $v_T * (#4.4143702599999998e-03 + $v_T * (#(-2.2148140400000001e-06) + $v_T * (#5.2349018800000005e-10 + #(-4.7208416400000003e-14) * $v_T)))))];
  (*568*) If ($v_T) (#1000.0)
    [Asn v_cp 13 (#2.8652438768034290e+02 * (#4.2211858400000004e+00 + $v_T * (#(-3.2439253200000000e-03) + $v_T * (#1.3779944600000000e-05 + $v_T * (#(-1.3314409300000001e-08) + #4.3376886499999999e-12 * $v_T)))))]
    [Asn v_cp 13 (#2.8652438768034290e+02 * (#2.7721743800000000e+00 + $v_T * (#4.9569552599999997e-03 + $v_T * (#(-2.4844561300000000e-06) + $v_T * (#5.8916177800000004e-10 + #(-5.3350871099999999e-14) * $v_T)))))];
  (*574*) If ($v_T) (#1000.0)
    [Asn v_cp 14 (#2.7690616686449340e+02 * (#4.7937231499999999e+00 + $v_T * (#(-9.9083336899999999e-03) + $v_T * (#3.7322000799999999e-05 + $v_T * (#(-3.7928526099999998e-08) + #1.3177265200000000e-11 * $v_T)))))]
    [Asn v_cp 14 (#2.7690616686449340e+02 * (#1.7606900800000000e+00 + $v_T * (#9.2000008200000000e-03 + $v_T * (#(-4.4225881299999997e-06) + $v_T * (#1.0064121200000000e-09 + #(-8.8385564000000006e-14) * $v_T)))))];
  (*580*) If ($v_T) (#1000.0)
    [Asn v_cp 15 (#2.6791271377208773e+02 * (#2.1062040000000000e+00 + $v_T * (#7.2165950000000001e-03 + $v_T * (#5.3384719999999999e-06 + $v_T * (#(-7.3776359999999997e-09) + #2.0756099999999999e-12 * $v_T)))))]
    [Asn v_cp 15 (#2.6791271377208773e+02 * (#3.7707989999999998e+00 + $v_T * (#7.8714969999999999e-03 + $v_T * (#(-2.6563840000000001e-06) + $v_T * (#3.9444309999999999e-10 + #(-2.1126160000000001e-14) * $v_T)))))];
  (*586*) If ($v_T) (#1000.0)
    [Asn v_cp 16 (#2.9637603301660818e+02 * (#3.9592014799999999e+00 + $v_T * (#(-7.5705224700000004e-03) + $v_T * (#5.7099029199999999e-05 + $v_T * (#(-6.9158875299999999e-08) + #2.6988437300000001e-11 * $v_T)))))]
    [Asn v_cp 16 (#2.9637603301660818e+02 * (#2.0361111599999999e+00 + $v_T * (#1.4645415100000000e-02 + $v_T * (#(-6.7107791500000002e-06) + $v_T * (#1.4722292300000001e-09 + #(-1.2570606100000000e-13) * $v_T)))))];
  (*592*) If ($v_T) (#1000.0)
    [Asn v_cp 17 (#2.8609689384998131e+02 * (#4.3064656799999996e+00 + $v_T * (#(-4.1865889200000004e-03) + $v_T * (#4.9714280699999999e-05 + $v_T * (#(-5.9912660599999996e-08) + #2.3050900400000000e-11 * $v_T)))))]
    [Asn v_cp 17 (#2.8609689384998131e+02 * (#1.9546564200000001e+00 + $v_T * (#1.7397272200000001e-02 + $v_T * (#(-7.9820666799999996e-06) + $v_T * (#1.7521768900000000e-09 + #(-1.4964157600000000e-13) * $v_T)))))];
  (*598*) If ($v_T) (#1000.0)
    [Asn v_cp 18 (#2.7650687204768667e+02 * (#4.2914249199999999e+00 + $v_T * (#(-5.5015426999999997e-03) + $v_T * (#5.9943828800000003e-05 + $v_T * (#(-7.0846628500000001e-08) + #2.6868577099999999e-11 * $v_T)))))]
    [Asn v_cp 18 (#2.7650687204768667e+02 * (#1.0718814999999999e+00 + $v_T * (#2.1685267700000000e-02 + $v_T * (#(-1.0025606700000000e-05) + $v_T * (#2.2141200100000000e-09 + #(-1.9000289000000000e-13) * $v_T)))))];
  (*604*) If ($v_T) (#1000.0)
    [Asn v_cp 19 (#2.0813212426154001e+02 * (#2.5000000000000000e+00 + $v_T * (#0.0000000000000000e+00 + $v_T * (#0.0000000000000000e+00 + $v_T * (#0.0000000000000000e+00 + #0.0000000000000000e+00 * $v_T)))))]
    [Asn v_cp 19 (#2.0813212426154001e+02 * (#2.5000000000000000e+00 + $v_T * (#0.0000000000000000e+00 + $v_T * (#0.0000000000000000e+00 + $v_T * (#0.0000000000000000e+00 + #0.0000000000000000e+00 * $v_T)))))];
  (*610*) If ($v_T) (#1000.0)
    [Asn v_cp 20 (#2.9680218594762238e+02 * (#3.2986770000000001e+00 + $v_T * (#1.4082404000000000e-03 + $v_T * (#(-3.9632219999999998e-06) + $v_T * (#5.6415150000000002e-09 + #(-2.4448539999999999e-12) * $v_T)))))]
    [Asn v_cp 20 (#2.9680218594762238e+02 * (#2.9266399999999999e+00 + $v_T * (#1.4879768000000001e-03 + $v_T * (#(-5.6847600000000001e-07) + $v_T * (#1.0097038000000000e-10 + #(-6.7533509999999998e-15) * $v_T)))))]
].

(** [eval_spec_rates], drm19/lib/src/spec_rates.c:4-767. *)
Definition drm19_eval_spec_rates : list stmt := [
  (*7*) Do (Asn v_sp_rates 1 ((- (v_fwd_rates.[0] - v_rev_rates.[0])) * v_pres_mod.[0]));
  (*9*) Do (Asn v_sp_rates 2 ((- (v_fwd_rates.[0] - v_rev_rates.[0])) * v_pres_mod.[0]));
  (*11*) Do (Asn v_sp_rates 4 ((v_fwd_rates.[0] - v_rev_rates.[0]) * v_pres_mod.[0]));
  (*15*) Do (Asn v_sp_rates 0 ((- (v_fwd_rates.[1] - v_rev_rates.[1]))));
  (*17*) Do (AddA v_sp_rates 1 (v_fwd_rates.[1] - v_rev_rates.[1]));
  (*19*) Do (SubA v_sp_rates 2 (v_fwd_rates.[1] - v_rev_rates.[1]));
  (*21*) Do (AddA v_sp_rates 4 (v_fwd_rates.[1] - v_rev_rates.[1]));
  (*25*) Do (SubA v_sp_rates 2 (v_fwd_rates.[2] - v_rev_rates.[2]));
  (*27*) Do (Asn v_sp_rates 3 (v_fwd_rates.[2] - v_rev_rates.[2]));
  (*29*) Do (AddA v_sp_rates 4 (v_fwd_rates.[2] - v_rev_rates.[2]));
  (*31*) Do (Asn v_sp_rates 6 ((- (v_fwd_rates.[2] - v_rev_rates.[2]))));
  (*35*) Do (AddA v_sp_rates 1 (v_fwd_rates.[3] - v_rev_rates.[3]));
  (*37*) Do (SubA v_sp_rates 2 (v_fwd_rates.[3] - v_rev_rates.[3]));
  (*39*) Do (Asn v_sp_rates 13 (v_fwd_rates.[3] - v_rev_rates.[3]));
  (*41*) Do (Asn v_sp_rates 7 ((- (v_fwd_rates.[3] - v_rev_rates.[3]))));
  (*45*) Do (Asn v_sp_rates 8 ((- (v_fwd_rates.[4] - v_rev_rates.[4]))));
  (*47*) Do (AddA v_sp_rates 1 (v_fwd_rates.[4] - v_rev_rates.[4]));
  (*49*) Do (SubA v_sp_rates 2 (v_fwd_rates.[4] - v_rev_rates.[4]));
  (*51*) Do (AddA v_sp_rates 13 (v_fwd_rates.[4] - v_rev_rates.[4]));
  (*55*) Do (Asn v_sp_rates 9 ((- (v_fwd_rates.[5] - v_rev_rates.[5]))));
  (*57*) Do (SubA v_sp_rates 2 (v_fwd_rates.[5] - v_rev_rates.[5]));
  (*59*) Do (Asn v_sp_rates 14 (v_fwd_rates.[5] - v_rev_rates.[5]));
  (*61*) Do (AddA v_sp_rates 1 (v_fwd_rates.[5] - v_rev_rates.[5]));
  (*65*) Do (AddA v_sp_rates 9 (v_fwd_rates.[6] - v_rev_rates.[6]));
  (*67*) Do (Asn v_sp_rates 10 ((- (v_fwd_rates.[6] - v_rev_rates.[6]))));
  (*69*) Do (AddA v_sp_rates 4 (v_fwd_rates.[6] - v_rev_rates.[6]));
  (*71*) Do (SubA v_sp_rates 2 (v_fwd_rates.[6] - v_rev_rates.[6]));
  (*75*) Do (SubA v_sp_rates 2 ((v_fwd_rates.[7] - v_rev_rates.[7]) * v_pres_mod.[1]));
  (*77*) Do (Asn v_sp_rates 11 ((- (v_fwd_rates.[7] - v_rev_rates.[7])) * v_pres_mod.[1]));
  (*79*) Do (Asn v_sp_rates 12 ((v_fwd_rates.[7] - v_rev_rates.[7]) * v_pres_mod.[1]));
  (*83*) Do (SubA v_sp_rates 2 (v_fwd_rates.[8] - v_rev_rates.[8]));
  (*85*) Do (AddA v_sp_rates 11 (v_fwd_rates.[8] - v_rev_rates.[8]));
  (*87*) Do (AddA v_sp_rates 4 (v_fwd_rates.[8] - v_rev_rates.[8]));
  (*89*) Do (SubA v_sp_rates 13 (v_fwd_rates.[8] - v_rev_rates.[8]));
  (*93*) Do (AddA v_sp_rates 1 (v_fwd_rates.[9] - v_rev_rates.[9]));
  (*95*) Do (SubA v_sp_rates 2 (v_fwd_rates.[9] - v_rev_rates.[9]));
  (*97*) Do (AddA v_sp_rates 12 (v_fwd_rates.[9] - v_rev_rates.[9]));
  (*99*) Do (SubA v_sp_rates 13 (v_fwd_rates.[9] - v_rev_rates.[9]));
  (*103*) Do (SubA v_sp_rates 2 (v_fwd_rates.[10] - v_rev_rates.[10]));
  (*105*) Do (AddA v_sp_rates 4 (v_fwd_rates.[10] - v_rev_rates.[10]));
  (*107*) Do (AddA v_sp_rates 13 (v_fwd_rates.[10] - v_rev_rates.[10]));
  (*109*) Do (SubA v_sp_rates 14 (v_fwd_rates.[10] - v_rev_rates.[10]));
  (*113*) Do (Asn v_sp_rates 16 ((- (v_fwd_rates.[11] - v_rev_rates.[11]))));
  (*115*) Do (AddA v_sp_rates 9 (v_fwd_rates.[11] - v_rev_rates.[11]));
  (*117*) Do (SubA v_sp_rates 2 (v_fwd_rates.[11] - v_rev_rates.[11]));
  (*119*) Do (AddA v_sp_rates 13 (v_fwd_rates.[11] - v_rev_rates.[11]));
  (*123*) Do (Asn v_sp_rates 17 ((- (v_fwd_rates.[12] - v_rev_rates.[12]))));
  (*125*) Do (SubA v_sp_rates 2 (v_fwd_rates.[12] - v_rev_rates.[12]));
  (*127*) Do (AddA v_sp_rates 14 (v_fwd_rates.[12] - v_rev_rates.[12]));
  (*129*) Do (AddA v_sp_rates 9 (v_fwd_rates.[12] - v_rev_rates.[12]));
  (*133*) Do (AddA v_sp_rates 17 (v_fwd_rates.[13] - v_rev_rates.[13]));
  (*135*) Do (Asn v_sp_rates 18 ((- (v_fwd_rates.[13] - v_rev_rates.[13]))));
  (*137*) Do (AddA v_sp_rates 4 (v_fwd_rates.[13] - v_rev_rates.[13]));
  (*139*) Do (SubA v_sp_rates 2 (v_fwd_rates.[13] - v_rev_rates.[13]));
  (*143*) Do (SubA v_sp_rates 3 (v_fwd_rates.[14] - v_rev_rates.[14]));
  (*145*) Do (AddA v_sp_rates 2 (v_fwd_rates.[14] - v_rev_rates.[14]));
  (*147*) Do (SubA v_sp_rates 11 (v_fwd_rates.[14] - v_rev_rates.[14]));
  (*149*) Do (AddA v_sp_rates 12 (v_fwd_rates.[14] - v_rev_rates.[14]));
  (*153*) Do (SubA v_sp_rates 3 (v_fwd_rates.[15] - v_rev_rates.[15]));
  (*155*) Do (AddA v_sp_rates 6 (v_fwd_rates.[15] - v_rev_rates.[15]));
  (*157*) Do (SubA v_sp_rates 14 (v_fwd_rates.[15] - v_rev_rates.[15]));
  (*159*) Do (AddA v_sp_rates 13 (v_fwd_rates.[15] - v_rev_rates.[15]));
  (*163*) Do (SubA v_sp_rates 1 ((v_fwd_rates.[16] - v_rev_rates.[16]) * v_pres_mod.[2]));
  (*165*) Do (SubA v_sp_rates 3 ((v_fwd_rates.[16] - v_rev_rates.[16]) * v_pres_mod.[2]));
  (*167*) Do (AddA v_sp_rates 6 ((v_fwd_rates.[16] - v_rev_rates.[16]) * v_pres_mod.[2]));
  (*171*) Do (SubA v_sp_rates 1 (v_fwd_rates.[17] - v_rev_rates.[17]));
  (*173*) Do (SubA v_sp_rates 3 (v_fwd_rates.[17] - v_rev_rates.[17]));
  (*175*) Do (AddA v_sp_rates 6 (v_fwd_rates.[17] - v_rev_rates.[17]));
  (*179*) Do (SubA v_sp_rates 1 (v_fwd_rates.[18] - v_rev_rates.[18]));
  (*181*) Do (SubA v_sp_rates 3 (v_fwd_rates.[18] - v_rev_rates.[18]));
  (*183*) Do (AddA v_sp_rates 6 (v_fwd_rates.[18] - v_rev_rates.[18]));
  (*187*) Do (SubA v_sp_rates 1 (v_fwd_rates.[19] - v_rev_rates.[19]));
  (*189*) Do (SubA v_sp_rates 3 (v_fwd_rates.[19] - v_rev_rates.[19]));
  (*191*) Do (AddA v_sp_rates 6 (v_fwd_rates.[19] - v_rev_rates.[19]));
  (*195*) Do (SubA v_sp_rates 3 (v_fwd_rates.[20] - v_rev_rates.[20]));
  (*197*) Do (SubA v_sp_rates 1 (v_fwd_rates.[20] - v_rev_rates.[20]));
  (*199*) Do (AddA v_sp_rates 6 (v_fwd_rates.[20] - v_rev_rates.[20]));
  (*203*) Do (SubA v_sp_rates 1 (v_fwd_rates.[21] - v_rev_rates.[21]));
  (*205*) Do (AddA v_sp_rates 2 (v_fwd_rates.[21] - v_rev_rates.[21]));
  (*207*) Do (SubA v_sp_rates 3 (v_fwd_rates.[21] - v_rev_rates.[21]));
  (*209*) Do (AddA v_sp_rates 4 (v_fwd_rates.[21] - v_rev_rates.[21]));
  (*213*) Do (AddA v_sp_rates 0 ((v_fwd_rates.[22] - v_rev_rates.[22]) * v_pres_mod.[3]));
  (*215*) Do (SubA v_sp_rates 1 (#2.0 * (v_fwd_rates.[22] - v_rev_rates.[22]) * v_pres_mod.[3]));
  (*219*) Do (AddA v_sp_rates 0 (v_fwd_rates.[23] - v_rev_rates.[23]));
  (*221*) Do (SubA v_sp_rates 1 (#2.0 * (v_fwd_rates.[23] - v_rev_rates.[23])));
  (*225*) Do (AddA v_sp_rates 0 (v_fwd_rates.[24] - v_rev_rates.[24]));
  (*227*) Do (SubA v_sp_rates 1 (#2.0 * (v_fwd_rates.[24] - v_rev_rates.[24])));
  (*231*) Do (AddA v_sp_rates 0 (v_fwd_rates.[25] - v_rev_rates.[25]));
  (*233*) Do (SubA v_sp_rates 1 (#2.0 * (v_fwd_rates.[25] - v_rev_rates.[25])));
  (*237*) Do (SubA v_sp_rates 1 ((v_fwd_rates.[26] - v_rev_rates.[26]) * v_pres_mod.[4]));
  (*239*) Do (SubA v_sp_rates 4 ((v_fwd_rates.[26] - v_rev_rates.[26]) * v_pres_mod.[4]));
  (*241*) Do (Asn v_sp_rates 5 ((v_fwd_rates.[26] - v_rev_rates.[26]) * v_pres_mod.[4]));
  (*245*) Do (AddA v_sp_rates 0 (v_fwd_rates.[27] - v_rev_rates.[27]));
  (*247*) Do (SubA v_sp_rates 1 (v_fwd_rates.[27] - v_rev_rates.[27]));
  (*249*) Do (AddA v_sp_rates 3 (v_fwd_rates.[27] - v_rev_rates.[27]));
  (*251*) Do (SubA v_sp_rates 6 (v_fwd_rates.[27] - v_rev_rates.[27]));
  (*255*) Do (SubA v_sp_rates 1 (v_fwd_rates.[28] - v_rev_rates.[28]));
  (*257*) Do (AddA v_sp_rates 4 (#2.0 * (v_fwd_rates.[28] - v_rev_rates.[28])));
  (*259*) Do (SubA v_sp_rates 6 (v_fwd_rates.[28] - v_rev_rates.[28]));
  (*263*) Do (SubA v_sp_rates 1 ((v_fwd_rates.[29] - v_rev_rates.[29]) * v_pres_mod.[5]));
  (*265*) Do (AddA v_sp_rates 9 ((v_fwd_rates.[29] - v_rev_rates.[29]) * v_pres_mod.[5]));
  (*267*) Do (SubA v_sp_rates 7 ((v_fwd_rates.[29] - v_rev_rates.[29]) * v_pres_mod.[5]));
  (*271*) Do (SubA v_sp_rates 1 ((v_fwd_rates.[30] - v_rev_rates.[30]) * v_pres_mod.[6]));
  (*273*) Do (AddA v_sp_rates 10 ((v_fwd_rates.[30] - v_rev_rates.[30]) * v_pres_mod.[6]));
  (*275*) Do (SubA v_sp_rates 9 ((v_fwd_rates.[30] - v_rev_rates.[30]) * v_pres_mod.[6]));
  (*279*) Do (AddA v_sp_rates 0 (v_fwd_rates.[31] - v_rev_rates.[31]));
  (*281*) Do (SubA v_sp_rates 1 (v_fwd_rates.[31] - v_rev_rates.[31]));
  (*283*) Do (SubA v_sp_rates 10 (v_fwd_rates.[31] - v_rev_rates.[31]));
  (*285*) Do (AddA v_sp_rates 9 (v_fwd_rates.[31] - v_rev_rates.[31]));
  (*289*) Do (SubA v_sp_rates 1 ((v_fwd_rates.[32] - v_rev_rates.[32]) * v_pres_mod.[7]));
  (*291*) Do (SubA v_sp_rates 13 ((v_fwd_rates.[32] - v_rev_rates.[32]) * v_pres_mod.[7]));
  (*293*) Do (AddA v_sp_rates 14 ((v_fwd_rates.[32] - v_rev_rates.[32]) * v_pres_mod.[7]));
  (*297*) Do (AddA v_sp_rates 0 (v_fwd_rates.[33] - v_rev_rates.[33]));
  (*299*) Do (SubA v_sp_rates 1 (v_fwd_rates.[33] - v_rev_rates.[33]));
  (*301*) Do (AddA v_sp_rates 11 (v_fwd_rates.[33] - v_rev_rates.[33]));
  (*303*) Do (SubA v_sp_rates 13 (v_fwd_rates.[33] - v_rev_rates.[33]));
  (*307*) Do (SubA v_sp_rates 1 ((v_fwd_rates.[34] - v_rev_rates.[34]) * v_pres_mod.[8]));
  (*309*) Do (SubA v_sp_rates 14 ((v_fwd_rates.[34] - v_rev_rates.[34]) * v_pres_mod.[8]));
  (*311*) Do (Asn v_sp_rates 15 ((v_fwd_rates.[34] - v_rev_rates.[34]) * v_pres_mod.[8]));
  (*315*) Do (AddA v_sp_rates 0 (v_fwd_rates.[35] - v_rev_rates.[35]));
  (*317*) Do (SubA v_sp_rates 1 (v_fwd_rates.[35] - v_rev_rates.[35]));
  (*319*) Do (AddA v_sp_rates 13 (v_fwd_rates.[35] - v_rev_rates.[35]));
  (*321*) Do (SubA v_sp_rates 14 (v_fwd_rates.[35] - v_rev_rates.[35]));
  (*325*) Do (SubA v_sp_rates 1 (v_fwd_rates.[36] - v_rev_rates.[36]));
  (*327*) Do (AddA v_sp_rates 9 (v_fwd_rates.[36] - v_rev_rates.[36]));
  (*329*) Do (AddA v_sp_rates 4 (v_fwd_rates.[36] - v_rev_rates.[36]));
  (*331*) Do (SubA v_sp_rates 15 (v_fwd_rates.[36] - v_rev_rates.[36]));
  (*335*) Do (SubA v_sp_rates 16 ((v_fwd_rates.[37] - v_rev_rates.[37]) * v_pres_mod.[9]));
  (*337*) Do (SubA v_sp_rates 1 ((v_fwd_rates.[37] - v_rev_rates.[37]) * v_pres_mod.[9]));
  (*339*) Do (AddA v_sp_rates 17 ((v_fwd_rates.[37] - v_rev_rates.[37]) * v_pres_mod.[9]));
  (*343*) Do (SubA v_sp_rates 1 ((v_fwd_rates.[38] - v_rev_rates.[38]) * v_pres_mod.[10]));
  (*345*) Do (AddA v_sp_rates 18 ((v_fwd_rates.[38] - v_rev_rates.[38]) * v_pres_mod.[10]));
  (*347*) Do (SubA v_sp_rates 17 ((v_fwd_rates.[38] - v_rev_rates.[38]) * v_pres_mod.[10]));
  (*351*) Do (AddA v_sp_rates 0 (v_fwd_rates.[39] - v_rev_rates.[39]));
  (*353*) Do (SubA v_sp_rates 1 (v_fwd_rates.[39] - v_rev_rates.[39]));
  (*355*) Do (SubA v_sp_rates 18 (v_fwd_rates.[39] - v_rev_rates.[39]));
  (*357*) Do (AddA v_sp_rates 17 (v_fwd_rates.[39] - v_rev_rates.[39]));
  (*361*) Do (SubA v_sp_rates 0 ((v_fwd_rates.[40] - v_rev_rates.[40]) * v_pres_mod.[11]));
  (*363*) Do (SubA v_sp_rates 11 ((v_fwd_rates.[40] - v_rev_rates.[40]) * v_pres_mod.[11]));
  (*365*) Do (AddA v_sp_rates 14 ((v_fwd_rates.[40] - v_rev_rates.[40]) * v_pres_mod.[11]));
  (*369*) Do (SubA v_sp_rates 0 (v_fwd_rates.[41] - v_rev_rates.[41]));
  (*371*) Do (AddA v_sp_rates 1 (v_fwd_rates.[41] - v_rev_rates.[41]));
  (*373*) Do (SubA v_sp_rates 4 (v_fwd_rates.[41] - v_rev_rates.[41]));
  (*375*) Do (AddA v_sp_rates 5 (v_fwd_rates.[41] - v_rev_rates.[41]));
  (*379*) Do (AddA v_sp_rates 2 (v_fwd_rates.[42] - v_rev_rates.[42]));
  (*381*) Do (SubA v_sp_rates 4 (#2.0 * (v_fwd_rates.[42] - v_rev_rates.[42])));
  (*383*) Do (AddA v_sp_rates 5 (v_fwd_rates.[42] - v_rev_rates.[42]));
  (*387*) Do (AddA v_sp_rates 3 (v_fwd_rates.[43] - v_rev_rates.[43]));
  (*389*) Do (SubA v_sp_rates 4 (v_fwd_rates.[43] - v_rev_rates.[43]));
  (*391*) Do (AddA v_sp_rates 5 (v_fwd_rates.[43] - v_rev_rates.[43]));
  (*393*) Do (SubA v_sp_rates 6 (v_fwd_rates.[43] - v_rev_rates.[43]));
  (*397*) Do (AddA v_sp_rates 1 (v_fwd_rates.[44] - v_rev_rates.[44]));
  (*399*) Do (SubA v_sp_rates 4 (v_fwd_rates.[44] - v_rev_rates.[44]));
  (*401*) Do (AddA v_sp_rates 14 (v_fwd_rates.[44] - v_rev_rates.[44]));
  (*403*) Do (SubA v_sp_rates 7 (v_fwd_rates.[44] - v_rev_rates.[44]));
  (*407*) Do (SubA v_sp_rates 8 (v_fwd_rates.[45] - v_rev_rates.[45]));
  (*409*) Do (AddA v_sp_rates 1 (v_fwd_rates.[45] - v_rev_rates.[45]));
  (*411*) Do (SubA v_sp_rates 4 (v_fwd_rates.[45] - v_rev_rates.[45]));
  (*413*) Do (AddA v_sp_rates 14 (v_fwd_rates.[45] - v_rev_rates.[45]));
  (*417*) Do (SubA v_sp_rates 9 (v_fwd_rates.[46] - v_rev_rates.[46]));
  (*419*) Do (SubA v_sp_rates 4 (v_fwd_rates.[46] - v_rev_rates.[46]));
  (*421*) Do (AddA v_sp_rates 5 (v_fwd_rates.[46] - v_rev_rates.[46]));
  (*423*) Do (AddA v_sp_rates 7 (v_fwd_rates.[46] - v_rev_rates.[46]));
  (*427*) Do (AddA v_sp_rates 8 (v_fwd_rates.[47] - v_rev_rates.[47]));
  (*429*) Do (SubA v_sp_rates 9 (v_fwd_rates.[47] - v_rev_rates.[47]));
  (*431*) Do (SubA v_sp_rates 4 (v_fwd_rates.[47] - v_rev_rates.[47]));
  (*433*) Do (AddA v_sp_rates 5 (v_fwd_rates.[47] - v_rev_rates.[47]));
  (*437*) Do (AddA v_sp_rates 9 (v_fwd_rates.[48] - v_rev_rates.[48]));
  (*439*) Do (SubA v_sp_rates 10 (v_fwd_rates.[48] - v_rev_rates.[48]));
  (*441*) Do (SubA v_sp_rates 4 (v_fwd_rates.[48] - v_rev_rates.[48]));
  (*443*) Do (AddA v_sp_rates 5 (v_fwd_rates.[48] - v_rev_rates.[48]));
  (*447*) Do (AddA v_sp_rates 1 (v_fwd_rates.[49] - v_rev_rates.[49]));
  (*449*) Do (SubA v_sp_rates 11 (v_fwd_rates.[49] - v_rev_rates.[49]));
  (*451*) Do (SubA v_sp_rates 4 (v_fwd_rates.[49] - v_rev_rates.[49]));
  (*453*) Do (AddA v_sp_rates 12 (v_fwd_rates.[49] - v_rev_rates.[49]));
  (*457*) Do (AddA v_sp_rates 11 (v_fwd_rates.[50] - v_rev_rates.[50]));
  (*459*) Do (SubA v_sp_rates 4 (v_fwd_rates.[50] - v_rev_rates.[50]));
  (*461*) Do (SubA v_sp_rates 13 (v_fwd_rates.[50] - v_rev_rates.[50]));
  (*463*) Do (AddA v_sp_rates 5 (v_fwd_rates.[50] - v_rev_rates.[50]));
  (*467*) Do (SubA v_sp_rates 4 (v_fwd_rates.[51] - v_rev_rates.[51]));
  (*469*) Do (AddA v_sp_rates 5 (v_fwd_rates.[51] - v_rev_rates.[51]));
  (*471*) Do (SubA v_sp_rates 14 (v_fwd_rates.[51] - v_rev_rates.[51]));
  (*473*) Do (AddA v_sp_rates 13 (v_fwd_rates.[51] - v_rev_rates.[51]));
  (*477*) Do (AddA v_sp_rates 17 (v_fwd_rates.[52] - v_rev_rates.[52]));
  (*479*) Do (SubA v_sp_rates 18 (v_fwd_rates.[52] - v_rev_rates.[52]));
  (*481*) Do (SubA v_sp_rates 4 (v_fwd_rates.[52] - v_rev_rates.[52]));
  (*483*) Do (AddA v_sp_rates 5 (v_fwd_rates.[52] - v_rev_rates.[52]));
  (*487*) Do (AddA v_sp_rates 4 (v_fwd_rates.[53] - v_rev_rates.[53]));
  (*489*) Do (AddA v_sp_rates 14 (v_fwd_rates.[53] - v_rev_rates.[53]));
  (*491*) Do (SubA v_sp_rates 6 (v_fwd_rates.[53] - v_rev_rates.[53]));
  (*493*) Do (SubA v_sp_rates 7 (v_fwd_rates.[53] - v_rev_rates.[53]));
  (*497*) Do (SubA v_sp_rates 9 (v_fwd_rates.[54] - v_rev_rates.[54]));
  (*499*) Do (AddA v_sp_rates 10 (v_fwd_rates.[54] - v_rev_rates.[54]));
  (*501*) Do (AddA v_sp_rates 3 (v_fwd_rates.[54] - v_rev_rates.[54]));
  (*503*) Do (SubA v_sp_rates 6 (v_fwd_rates.[54] - v_rev_rates.[54]));
  (*507*) Do (SubA v_sp_rates 9 (v_fwd_rates.[55] - v_rev_rates.[55]));
  (*509*) Do (AddA v_sp_rates 4 (v_fwd_rates.[55] - v_rev_rates.[55]));
  (*511*) Do (SubA v_sp_rates 6 (v_fwd_rates.[55] - v_rev_rates.[55]));
  (*513*) Do (AddA v_sp_rates 15 (v_fwd_rates.[55] - v_rev_rates.[55]));
  (*517*) Do (AddA v_sp_rates 4 (v_fwd_rates.[56] - v_rev_rates.[56]));
  (*519*) Do (SubA v_sp_rates 11 (v_fwd_rates.[56] - v_rev_rates.[56]));
  (*521*) Do (AddA v_sp_rates 12 (v_fwd_rates.[56] - v_rev_rates.[56]));
  (*523*) Do (SubA v_sp_rates 6 (v_fwd_rates.[56] - v_rev_rates.[56]));
  (*527*) Do (SubA v_sp_rates 3 (v_fwd_rates.[57] - v_rev_rates.[57]));
  (*529*) Do (AddA v_sp_rates 4 (v_fwd_rates.[57] - v_rev_rates.[57]));
  (*531*) Do (AddA v_sp_rates 13 (v_fwd_rates.[57] - v_rev_rates.[57]));
  (*533*) Do (SubA v_sp_rates 7 (v_fwd_rates.[57] - v_rev_rates.[57]));
  (*537*) Do (SubA v_sp_rates 0 (v_fwd_rates.[58] - v_rev_rates.[58]));
  (*539*) Do (AddA v_sp_rates 1 (v_fwd_rates.[58] - v_rev_rates.[58]));
  (*541*) Do (AddA v_sp_rates 9 (v_fwd_rates.[58] - v_rev_rates.[58]));
  (*543*) Do (SubA v_sp_rates 7 (v_fwd_rates.[58] - v_rev_rates.[58]));
  (*547*) Do (AddA v_sp_rates 16 (v_fwd_rates.[59] - v_rev_rates.[59]));
  (*549*) Do (SubA v_sp_rates 9 (v_fwd_rates.[59] - v_rev_rates.[59]));
  (*551*) Do (AddA v_sp_rates 1 (v_fwd_rates.[59] - v_rev_rates.[59]));
  (*553*) Do (SubA v_sp_rates 7 (v_fwd_rates.[59] - v_rev_rates.[59]));
  (*557*) Do (AddA v_sp_rates 9 (#2.0 * (v_fwd_rates.[60] - v_rev_rates.[60])));
  (*559*) Do (SubA v_sp_rates 10 (v_fwd_rates.[60] - v_rev_rates.[60]));
  (*561*) Do (SubA v_sp_rates 7 (v_fwd_rates.[60] - v_rev_rates.[60]));
  (*565*) Do (SubA v_sp_rates 8 (v_fwd_rates.[61] - v_rev_rates.[61]));
  (*567*) Do (AddA v_sp_rates 7 (v_fwd_rates.[61] - v_rev_rates.[61]));
  (*571*) Do (SubA v_sp_rates 8 (v_fwd_rates.[62] - v_rev_rates.[62]));
  (*573*) Do (AddA v_sp_rates 7 (v_fwd_rates.[62] - v_rev_rates.[62]));
  (*577*) Do (SubA v_sp_rates 8 (v_fwd_rates.[63] - v_rev_rates.[63]));
  (*579*) Do (AddA v_sp_rates 1 (v_fwd_rates.[63] - v_rev_rates.[63]));
  (*581*) Do (SubA v_sp_rates 3 (v_fwd_rates.[63] - v_rev_rates.[63]));
  (*583*) Do (AddA v_sp_rates 4 (v_fwd_rates.[63] - v_rev_rates.[63]));
  (*585*) Do (AddA v_sp_rates 11 (v_fwd_rates.[63] - v_rev_rates.[63]));
  (*589*) Do (SubA v_sp_rates 8 (v_fwd_rates.[64] - v_rev_rates.[64]));
  (*591*) Do (AddA v_sp_rates 11 (v_fwd_rates.[64] - v_rev_rates.[64]));
  (*593*) Do (SubA v_sp_rates 3 (v_fwd_rates.[64] - v_rev_rates.[64]));
  (*595*) Do (AddA v_sp_rates 5 (v_fwd_rates.[64] - v_rev_rates.[64]));
  (*599*) Do (SubA v_sp_rates 0 (v_fwd_rates.[65] - v_rev_rates.[65]));
  (*601*) Do (SubA v_sp_rates 8 (v_fwd_rates.[65] - v_rev_rates.[65]));
  (*603*) Do (AddA v_sp_rates 9 (v_fwd_rates.[65] - v_rev_rates.[65]));
  (*605*) Do (AddA v_sp_rates 1 (v_fwd_rates.[65] - v_rev_rates.[65]));
  (*609*) Do (SubA v_sp_rates 8 (v_fwd_rates.[66] - v_rev_rates.[66]));
  (*611*) Do (AddA v_sp_rates 7 (v_fwd_rates.[66] - v_rev_rates.[66]));
  (*615*) Do (SubA v_sp_rates 8 (v_fwd_rates.[67] - v_rev_rates.[67]));
  (*617*) Do (SubA v_sp_rates 9 (v_fwd_rates.[67] - v_rev_rates.[67]));
  (*619*) Do (AddA v_sp_rates 16 (v_fwd_rates.[67] - v_rev_rates.[67]));
  (*621*) Do (AddA v_sp_rates 1 (v_fwd_rates.[67] - v_rev_rates.[67]));
  (*625*) Do (SubA v_sp_rates 8 (v_fwd_rates.[68] - v_rev_rates.[68]));
  (*627*) Do (AddA v_sp_rates 9 (#2.0 * (v_fwd_rates.[68] - v_rev_rates.[68])));
  (*629*) Do (SubA v_sp_rates 10 (v_fwd_rates.[68] - v_rev_rates.[68]));
  (*633*) Do (SubA v_sp_rates 8 (v_fwd_rates.[69] - v_rev_rates.[69]));
  (*635*) Do (AddA v_sp_rates 7 (v_fwd_rates.[69] - v_rev_rates.[69]));
  (*639*) Do (SubA v_sp_rates 8 (v_fwd_rates.[70] - v_rev_rates.[70]));
  (*641*) Do (AddA v_sp_rates 7 (v_fwd_rates.[70] - v_rev_rates.[70]));
  (*645*) Do (SubA v_sp_rates 8 (v_fwd_rates.[71] - v_rev_rates.[71]));
  (*647*) Do (AddA v_sp_rates 11 (v_fwd_rates.[71] - v_rev_rates.[71]));
  (*649*) Do (SubA v_sp_rates 12 (v_fwd_rates.[71] - v_rev_rates.[71]));
  (*651*) Do (AddA v_sp_rates 14 (v_fwd_rates.[71] - v_rev_rates.[71]));
  (*655*) Do (SubA v_sp_rates 9 (v_fwd_rates.[72] - v_rev_rates.[72]));
  (*657*) Do (AddA v_sp_rates 2 (v_fwd_rates.[72] - v_rev_rates.[72]));
  (*659*) Do (SubA v_sp_rates 3 (v_fwd_rates.[72] - v_rev_rates.[72]));
  (*661*) Do (AddA v_sp_rates 15 (v_fwd_rates.[72] - v_rev_rates.[72]));
  (*665*) Do (SubA v_sp_rates 9 (v_fwd_rates.[73] - v_rev_rates.[73]));
  (*667*) Do (SubA v_sp_rates 3 (v_fwd_rates.[73] - v_rev_rates.[73]));
  (*669*) Do (AddA v_sp_rates 4 (v_fwd_rates.[73] - v_rev_rates.[73]));
  (*671*) Do (AddA v_sp_rates 14 (v_fwd_rates.[73] - v_rev_rates.[73]));
  (*675*) Do (SubA v_sp_rates 9 (#2.0 * (v_fwd_rates.[74] - v_rev_rates.[74]) * v_pres_mod.[12]));
  (*677*) Do (AddA v_sp_rates 18 ((v_fwd_rates.[74] - v_rev_rates.[74]) * v_pres_mod.[12]));
  (*681*) Do (SubA v_sp_rates 9 (#2.0 * (v_fwd_rates.[75] - v_rev_rates.[75])));
  (*683*) Do (AddA v_sp_rates 17 (v_fwd_rates.[75] - v_rev_rates.[75]));
  (*685*) Do (AddA v_sp_rates 1 (v_fwd_rates.[75] - v_rev_rates.[75]));
  (*689*) Do (SubA v_sp_rates 9 (v_fwd_rates.[76] - v_rev_rates.[76]));
  (*691*) Do (AddA v_sp_rates 10 (v_fwd_rates.[76] - v_rev_rates.[76]));
  (*693*) Do (AddA v_sp_rates 11 (v_fwd_rates.[76] - v_rev_rates.[76]));
  (*695*) Do (SubA v_sp_rates 13 (v_fwd_rates.[76] - v_rev_rates.[76]));
  (*699*) Do (SubA v_sp_rates 9 (v_fwd_rates.[77] - v_rev_rates.[77]));
  (*701*) Do (AddA v_sp_rates 10 (v_fwd_rates.[77] - v_rev_rates.[77]));
  (*703*) Do (AddA v_sp_rates 13 (v_fwd_rates.[77] - v_rev_rates.[77]));
  (*705*) Do (SubA v_sp_rates 14 (v_fwd_rates.[77] - v_rev_rates.[77]));
  (*709*) Do (SubA v_sp_rates 9 (v_fwd_rates.[78] - v_rev_rates.[78]));
  (*711*) Do (SubA v_sp_rates 18 (v_fwd_rates.[78] - v_rev_rates.[78]));
  (*713*) Do (AddA v_sp_rates 10 (v_fwd_rates.[78] - v_rev_rates.[78]));
  (*715*) Do (AddA v_sp_rates 17 (v_fwd_rates.[78] - v_rev_rates.[78]));
  (*719*) Do (AddA v_sp_rates 1 (v_fwd_rates.[79] - v_rev_rates.[79]));
  (*721*) Do (AddA v_sp_rates 11 (v_fwd_rates.[79] - v_rev_rates.[79]));
  (*723*) Do (SubA v_sp_rates 13 (v_fwd_rates.[79] - v_rev_rates.[79]));
  (*727*) Do (AddA v_sp_rates 1 ((v_fwd_rates.[80] - v_rev_rates.[80]) * v_pres_mod.[13]));
  (*729*) Do (AddA v_sp_rates 11 ((v_fwd_rates.[80] - v_rev_rates.[80]) * v_pres_mod.[13]));
  (*731*) Do (SubA v_sp_rates 13 ((v_fwd_rates.[80] - v_rev_rates.[80]) * v_pres_mod.[13]));
  (*735*) Do (AddA v_sp_rates 11 (v_fwd_rates.[81] - v_rev_rates.[81]));
  (*737*) Do (SubA v_sp_rates 3 (v_fwd_rates.[81] - v_rev_rates.[81]));
  (*739*) Do (SubA v_sp_rates 13 (v_fwd_rates.[81] - v_rev_rates.[81]));
  (*741*) Do (AddA v_sp_rates 6 (v_fwd_rates.[81] - v_rev_rates.[81]));
  (*745*) Do (SubA v_sp_rates 3 (v_fwd_rates.[82] - v_rev_rates.[82]));
  (*747*) Do (AddA v_sp_rates 6 (v_fwd_rates.[82] - v_rev_rates.[82]));
  (*749*) Do (AddA v_sp_rates 14 (v_fwd_rates.[82] - v_rev_rates.[82]));
  (*751*) Do (SubA v_sp_rates 15 (v_fwd_rates.[82] - v_rev_rates.[82]));
  (*755*) Do (AddA v_sp_rates 16 (v_fwd_rates.[83] - v_rev_rates.[83]));
  (*757*) Do (SubA v_sp_rates 17 (v_fwd_rates.[83] - v_rev_rates.[83]));
  (*759*) Do (SubA v_sp_rates 3 (v_fwd_rates.[83] - v_rev_rates.[83]));
  (*761*) Do (AddA v_sp_rates 6 (v_fwd_rates.[83] - v_rev_rates.[83]));
  (*764*) Do (Asn v_sp_rates 19 (#0.0));
  (*766*) Do (Asn v_dy_N 0 (#0.0))
].

(** [get_rxn_pres_mod], drm19/lib/src/rxn_rates_pres_mod.c:5-120. *)
Definition drm19_get_rxn_pres_mod : list stmt := [
  (*19*) Do (Asn v_logT 0 ((Log $v_T)));
  (*20*) Do (Asn v_m 0 ($v_pres / (#8.31446210e+03 * $v_T)));
  (*23*) Do (Asn v_pres_mod 0 ($v_m + #1.0 * v_C.[0] + #5.0 * v_C.[5] + #1.0 * v_C.[10] + #0.5 * v_C.[11] + #1.0 * v_C.[12] + #2.0 * v_C.[18] - #0.3 * v_C.[19]));
  (*26*) Do (Asn v_pres_mod 1 ($v_m + #1.0 * v_C.[0] + #5.0 * v_C.[3] + #5.0 * v_C.[5] + #1.0 * v_C.[10] + #0.5 * v_C.[11] + #2.5 * v_C.[12] + #2.0 * v_C.[18] - #0.5 * v_C.[19]));
  (*29*) Do (Asn v_pres_mod 2 ($v_m - #1.0 * v_C.[3] - #1.0 * v_C.[5] - #0.25 * v_C.[11] + #0.5 * v_C.[12] + #0.5 * v_C.[18] - #1.0 * v_C.[20] - #1.0 * v_C.[19]));
  (*32*) Do (Asn v_pres_mod 3 ($v_m - #1.0 * v_C.[0] - #1.0 * v_C.[5] + #1.0 * v_C.[10] - #1.0 * v_C.[12] + #2.0 * v_C.[18] - #0.37 * v_C.[19]));
  (*35*) Do (Asn v_pres_mod 4 ($v_m - #0.27 * v_C.[0] + #2.65 * v_C.[5] + #1.0 * v_C.[10] + #2.0 * v_C.[18] - #0.62 * v_C.[19]));
  (*38*) Do (Asn v_thd 0 ($v_m + #1.0 * v_C.[0] + #5.0 * v_C.[5] + #1.0 * v_C.[10] + #0.5 * v_C.[11] + #1.0 * v_C.[12] + #2.0 * v_C.[18] - #0.3 * v_C.[19]));
  (*39*) Do (Asn v_k0 0 ((Exp (#4.9517437762680643e+01 - #3.14 * $v_logT - #6.1896006477677008e+02 / $v_T))));
  (*40*) Do (Asn v_kinf 0 ((Exp (#3.0849896940796750e+01 - #0.8 * $v_logT))));
  (*41*) Do (Asn v_Pr 0 ($v_k0 * $v_thd / $v_kinf));
  (*42*) Do (Asn v_logFcent 0 ((Log10 (Fmax (#3.20000000e-01 * (Exp ((- $v_T) / #7.80000000e+01)) + #6.80000000e-01 * (Exp ((- $v_T) / #1.99500000e+03)) + (Exp (#(-5.59000000e+03) / $v_T))) #1.0e-300))));
  (*43*) Do (Asn v_A 0 ((Log10 (Fmax $v_Pr #1.0e-300)) - #0.67 * $v_logFcent - #0.4));
  (*44*) Do (Asn v_B 0 (#0.806 - #1.1762 * $v_logFcent - #0.14 * (Log10 (Fmax $v_Pr #1.0e-300))));
  (*45*) Do (Asn v_pres_mod 5 ((Pow #10.0 ($v_logFcent / (#1.0 + $v_A * $v_A / ($v_B * $v_B)))) * $v_Pr / (#1.0 + $v_Pr)));
  (*48*) Do (Asn v_thd 0 ($v_m + #1.0 * v_C.[0] + #5.0 * v_C.[5] + #1.0 * v_C.[10] + #0.5 * v_C.[11] + #1.0 * v_C.[12] + #2.0 * v_C.[18] - #0.3 * v_C.[19]));
  (*49*) Do (Asn v_k0 0 ((Exp (#6.3076845661346454e+01 - #4.76 * $v_logT - #1.2278557382563567e+03 / $v_T))));
  (*50*) Do (Asn v_kinf 0 ((Exp (#3.0172623109393093e+01 - #0.63 * $v_logT - #1.9273309334105929e+02 / $v_T))));
  (*51*) Do (Asn v_Pr 0 ($v_k0 * $v_thd / $v_kinf));
  (*52*) Do (Asn v_logFcent 0 ((Log10 (Fmax (#2.17000000e-01 * (Exp ((- $v_T) / #7.40000000e+01)) + #7.83000000e-01 * (Exp ((- $v_T) / #2.94100000e+03)) + (Exp (#(-6.96400000e+03) / $v_T))) #1.0e-300))));
  (*53*) Do (Asn v_A 0 ((Log10 (Fmax $v_Pr #1.0e-300)) - #0.67 * $v_logFcent - #0.4));
  (*54*) Do (Asn v_B 0 (#0.806 - #1.1762 * $v_logFcent - #0.14 * (Log10 (Fmax $v_Pr #1.0e-300))));
  (*55*) Do (Asn v_pres_mod 6 ((Pow #10.0 ($v_logFcent / (#1.0 + $v_A * $v_A / ($v_B * $v_B)))) * $v_Pr / (#1.0 + $v_Pr)));
  (*58*) Do (Asn v_thd 0 ($v_m + #1.0 * v_C.[0] + #5.0 * v_C.[5] + #1.0 * v_C.[10] + #0.5 * v_C.[11] + #1.0 * v_C.[12] + #2.0 * v_C.[18] - #0.3 * v_C.[19]));
  (*59*) Do (Asn v_k0 0 ((Exp (#4.1746636266343160e+01 - #2.57 * $v_logT - #7.1708787992430678e+02 / $v_T))));
  (*60*) Do (Asn v_kinf 0 ((Exp (#2.0809443533187462e+01 + #0.48 * $v_logT - #(-1.3083708686338230e+02) / $v_T))));
  (*61*) Do (Asn v_Pr 0 ($v_k0 * $v_thd / $v_kinf));
  (*62*) Do (Asn v_logFcent 0 ((Log10 (Fmax (#2.17600000e-01 * (Exp ((- $v_T) / #2.71000000e+02)) + #7.82400000e-01 * (Exp ((- $v_T) / #2.75500000e+03)) + (Exp (#(-6.57000000e+03) / $v_T))) #1.0e-300))));
  (*63*) Do (Asn v_A 0 ((Log10 (Fmax $v_Pr #1.0e-300)) - #0.67 * $v_logFcent - #0.4));
  (*64*) Do (Asn v_B 0 (#0.806 - #1.1762 * $v_logFcent - #0.14 * (Log10 (Fmax $v_Pr #1.0e-300))));
  (*65*) Do (Asn v_pres_mod 7 ((Pow #10.0 ($v_logFcent / (#1.0 + $v_A * $v_A / ($v_B * $v_B)))) * $v_Pr / (#1.0 + $v_Pr)));
  (*68*) Do (Asn v_thd 0 ($v_m + #1.0 * v_C.[0] + #5.0 * v_C.[5] + #1.0 * v_C.[10] + #0.5 * v_C.[11] + #1.0 * v_C.[12] + #2.0 * v_C.[18]));
  (*69*) Do (Asn v_k0 0 ((Exp (#5.6050499592221364e+01 - #4.8 * $v_logT - #2.7979007806169443e+03 / $v_T))));
  (*70*) Do (Asn v_kinf 0 ((Exp (#2.0107079697522593e+01 + #0.454 * $v_logT - #1.3083708686338230e+03 / $v_T))));
  (*71*) Do (Asn v_Pr 0 ($v_k0 * $v_thd / $v_kinf));
  (*72*) Do (Asn v_logFcent 0 ((Log10 (Fmax (#2.42000000e-01 * (Exp ((- $v_T) / #9.40000000e+01)) + #7.58000000e-01 * (Exp ((- $v_T) / #1.55500000e+03)) + (Exp (#(-4.20000000e+03) / $v_T))) #1.0e-300))));
  (*73*) Do (Asn v_A 0 ((Log10 (Fmax $v_Pr #1.0e-300)) - #0.67 * $v_logFcent - #0.4));
  (*74*) Do (Asn v_B 0 (#0.806 - #1.1762 * $v_logFcent - #0.14 * (Log10 (Fmax $v_Pr #1.0e-300))));
  (*75*) Do (Asn v_pres_mod 8 ((Pow #10.0 ($v_logFcent / (#1.0 + $v_A * $v_A / ($v_B * $v_B)))) * $v_Pr / (#1.0 + $v_Pr)));
  (*78*) Do (Asn v_thd 0 ($v_m + #1.0 * v_C.[0] + #5.0 * v_C.[5] + #1.0 * v_C.[10] + #0.5 * v_C.[11] + #1.0 * v_C.[12] + #2.0 * v_C.[18] - #0.3 * v_C.[19]));
  (*79*) Do (Asn v_k0 0 ((Exp (#8.3075384904579593e+01 - #7.62 * $v_logT - #3.5074403670683637e+03 / $v_T))));
  (*80*) Do (Asn v_kinf 0 ((Exp (#2.0800226878082540e+01 + #0.454 * $v_logT - #9.1585960804367608e+02 / $v_T))));
  (*81*) Do (Asn v_Pr 0 ($v_k0 * $v_thd / $v_kinf));
  (*82*) Do (Asn v_logFcent 0 ((Log10 (Fmax (#2.47000000e-02 * (Exp ((- $v_T) / #2.10000000e+02)) + #9.75300000e-01 * (Exp ((- $v_T) / #9.84000000e+02)) + (Exp (#(-4.37400000e+03) / $v_T))) #1.0e-300))));
  (*83*) Do (Asn v_A 0 ((Log10 (Fmax $v_Pr #1.0e-300)) - #0.67 * $v_logFcent - #0.4));
  (*84*) Do (Asn v_B 0 (#0.806 - #1.1762 * $v_logFcent - #0.14 * (Log10 (Fmax $v_Pr #1.0e-300))));
  (*85*) Do (Asn v_pres_mod 9 ((Pow #10.0 ($v_logFcent / (#1.0 + $v_A * $v_A / ($v_B * $v_B)))) * $v_Pr / (#1.0 + $v_Pr)));
  (*88*) Do (Asn v_thd 0 ($v_m + #1.0 * v_C.[0] + #5.0 * v_C.[5] + #1.0 * v_C.[10] + #0.5 * v_C.[11] + #1.0 * v_C.[12] + #2.0 * v_C.[18] - #0.3 * v_C.[19]));
  (*89*) Do (Asn v_k0 0 ((Exp (#8.1278612893528006e+01 - #7.08 * $v_logT - #3.3640227910835024e+03 / $v_T))));
  (*90*) Do (Asn v_kinf 0 ((Exp (#3.3886771157681913e+01 - #0.99 * $v_logT - #7.9508691247747697e+02 / $v_T))));
  (*91*) Do (Asn v_Pr 0 ($v_k0 * $v_thd / $v_kinf));
  (*92*) Do (Asn v_logFcent 0 ((Log10 (Fmax (#1.57800000e-01 * (Exp ((- $v_T) / #1.25000000e+02)) + #8.42200000e-01 * (Exp ((- $v_T) / #2.21900000e+03)) + (Exp (#(-6.88200000e+03) / $v_T))) #1.0e-300))));
  (*93*) Do (Asn v_A 0 ((Log10 (Fmax $v_Pr #1.0e-300)) - #0.67 * $v_logFcent - #0.4));
  (*94*) Do (Asn v_B 0 (#0.806 - #1.1762 * $v_logFcent - #0.14 * (Log10 (Fmax $v_Pr #1.0e-300))));
  (*95*) Do (Asn v_pres_mod 10 ((Pow #10.0 ($v_logFcent / (#1.0 + $v_A * $v_A / ($v_B * $v_B)))) * $v_Pr / (#1.0 + $v_Pr)));
  (*98*) Do (Asn v_thd 0 ($v_m + #1.0 * v_C.[0] + #5.0 * v_C.[5] + #1.0 * v_C.[10] + #0.5 * v_C.[11] + #1.0 * v_C.[12] + #2.0 * v_C.[18] - #0.3 * v_C.[19]));
  (*99*) Do (Asn v_k0 0 ((Exp (#4.9977627770478051e+01 - #3.42 * $v_logT - #4.2446570295870370e+04 / $v_T))));
  (*100*) Do (Asn v_kinf 0 ((Exp (#1.0668955394675699e+01 + #1.5 * $v_logT - #4.0056277362789348e+04 / $v_T))));
  (*101*) Do (Asn v_Pr 0 ($v_k0 * $v_thd / $v_kinf));
  (*102*) Do (Asn v_logFcent 0 ((Log10 (Fmax (#6.80000000e-02 * (Exp ((- $v_T) / #1.97000000e+02)) + #9.32000000e-01 * (Exp ((- $v_T) / #1.54000000e+03)) + (Exp (#(-1.03000000e+04) / $v_T))) #1.0e-300))));
  (*103*) Do (Asn v_A 0 ((Log10 (Fmax $v_Pr #1.0e-300)) - #0.67 * $v_logFcent - #0.4));
  (*104*) Do (Asn v_B 0 (#0.806 - #1.1762 * $v_logFcent - #0.14 * (Log10 (Fmax $v_Pr #1.0e-300))));
  (*105*) Do (Asn v_pres_mod 11 ((Pow #10.0 ($v_logFcent / (#1.0 + $v_A * $v_A / ($v_B * $v_B)))) * $v_Pr / (#1.0 + $v_Pr)));
  (*108*) Do (Asn v_thd 0 ($v_m + #1.0 * v_C.[0] + #5.0 * v_C.[5] + #1.0 * v_C.[10] + #0.5 * v_C.[11] + #1.0 * v_C.[12] + #2.0 * v_C.[18] - #0.3 * v_C.[19]));
  (*109*) Do (Asn v_k0 0 ((Exp (#1.0188472363832375e+02 - #9.67 * $v_logT - #3.1300256934239915e+03 / $v_T))));
  (*110*) Do (Asn v_kinf 0 ((Exp (#3.0685022297606515e+01 - #0.97 * $v_logT - #3.1199613021268084e+02 / $v_T))));
  (*111*) Do (Asn v_Pr 0 ($v_k0 * $v_thd / $v_kinf));
  (*112*) Do (Asn v_logFcent 0 ((Log10 (Fmax (#4.67500000e-01 * (Exp ((- $v_T) / #1.51000000e+02)) + #5.32500000e-01 * (Exp ((- $v_T) / #1.03800000e+03)) + (Exp (#(-4.97000000e+03) / $v_T))) #1.0e-300))));
  (*113*) Do (Asn v_A 0 ((Log10 (Fmax $v_Pr #1.0e-300)) - #0.67 * $v_logFcent - #0.4));
  (*114*) Do (Asn v_B 0 (#0.806 - #1.1762 * $v_logFcent - #0.14 * (Log10 (Fmax $v_Pr #1.0e-300))));
  (*115*) Do (Asn v_pres_mod 12 ((Pow #10.0 ($v_logFcent / (#1.0 + $v_A * $v_A / ($v_B * $v_B)))) * $v_Pr / (#1.0 + $v_Pr)));
  (*118*) Do (Asn v_pres_mod 13 ($v_m + #1.0 * v_C.[0] - #1.0 * v_C.[5] + #1.0 * v_C.[10] + #0.5 * v_C.[11] + #1.0 * v_C.[12] + #2.0 * v_C.[18]))
].

(** [dydt], drm19/lib/src/dydt.c:7-76 without the calls of the other functions, whose place
    is shown by [lib_dydt]. *)
Definition drm19_dydt : list stmt := [
  (*33*) Do (Asn v_cp_avg 0 (v_cp.[0] * v_y.[1] + v_cp.[1] * v_y.[2] + v_cp.[2] * v_y.[3] + v_cp.[3] * v_y.[4] + v_cp.[4] * v_y.[5] + v_cp.[5] * v_y.[6] + v_cp.[6] * v_y.[7] + v_cp.[7] * v_y.[8] + v_cp.[8] * v_y.[9] + v_cp.[9] * v_y.[10] + v_cp.[10] * v_y.[11] + v_cp.[11] * v_y.[12] + v_cp.[12] * v_y.[13] + v_cp.[13] * v_y.[14] + v_cp.[14] * v_y.[15] + v_cp.[15] * v_y.[16] + v_cp.[16] * v_y.[17] + v_cp.[17] * v_y.[18] + v_cp.[18] * v_y.[19] + v_cp.[19] * v_y.[20] + v_cp.[20] * $v_y_N));
  (*43*) Do (Asn v_dy 0 (#(-1.0) / ($v_rho * $v_cp_avg) * (v_dy.[1] * v_h.[0] * #2.0158800000000001e+00 + v_dy.[2] * v_h.[1] * #1.0079400000000001e+00 + v_dy.[3] * v_h.[2] * #1.5999400000000000e+01 + v_dy.[4] * v_h.[3] * #3.1998799999999999e+01 + v_dy.[5] * v_h.[4] * #1.7007339999999999e+01 + v_dy.[6] * v_h.[5] * #1.8015280000000001e+01 + v_dy.[7] * v_h.[6] * #3.3006740000000001e+01 + v_dy.[8] * v_h.[7] * #1.4026879999999998e+01 + v_dy.[9] * v_h.[8] * #1.4026879999999998e+01 + v_dy.[10] * v_h.[9] * #1.5034820000000000e+01 + v_dy.[11] * v_h.[10] * #1.6042760000000001e+01 + v_dy.[12] * v_h.[11] * #2.8010399999999997e+01 + v_dy.[13] * v_h.[12] * #4.4009799999999998e+01 + v_dy.[14] * v_h.[13] * #2.9018339999999998e+01 + v_dy.[15] * v_h.[14] * #3.0026280000000000e+01 + v_dy.[16] * v_h.[15] * #3.1034219999999998e+01 + v_dy.[17] * v_h.[16] * #2.8053759999999997e+01 + v_dy.[18] * v_h.[17] * #2.9061699999999998e+01 + v_dy.[19] * v_h.[18] * #3.0069640000000000e+01)));
  (*55*) Do (MulA v_dy 1 (#2.0158800000000001e+00 / $v_rho));
  (*56*) Do (MulA v_dy 2 (#1.0079400000000001e+00 / $v_rho));
  (*57*) Do (MulA v_dy 3 (#1.5999400000000000e+01 / $v_rho));
  (*58*) Do (MulA v_dy 4 (#3.1998799999999999e+01 / $v_rho));
  (*59*) Do (MulA v_dy 5 (#1.7007339999999999e+01 / $v_rho));
  (*60*) Do (MulA v_dy 6 (#1.8015280000000001e+01 / $v_rho));
  (*61*) Do (MulA v_dy 7 (#3.3006740000000001e+01 / $v_rho));
  (*62*) Do (MulA v_dy 8 (#1.4026879999999998e+01 / $v_rho));
  (*63*) Do (MulA v_dy 9 (#1.4026879999999998e+01 / $v_rho));
  (*64*) Do (MulA v_dy 10 (#1.5034820000000000e+01 / $v_rho));
  (*65*) Do (MulA v_dy 11 (#1.6042760000000001e+01 / $v_rho));
  (*66*) Do (MulA v_dy 12 (#2.8010399999999997e+01 / $v_rho));
  (*67*) Do (MulA v_dy 13 (#4.4009799999999998e+01 / $v_rho));
  (*68*) Do (MulA v_dy 14 (#2.9018339999999998e+01 / $v_rho));
  (*69*) Do (MulA v_dy 15 (#3.0026280000000000e+01 / $v_rho));
  (*70*) Do (MulA v_dy 16 (#3.1034219999999998e+01 / $v_rho));
  (*71*) Do (MulA v_dy 17 (#2.8053759999999997e+01 / $v_rho));
  (*72*) Do (MulA v_dy 18 (#2.9061699999999998e+01 / $v_rho));
  (*73*) Do (MulA v_dy 19 (#3.0069640000000000e+01 / $v_rho));
  (*74*) Do (MulA v_dy 20 (#3.9948000000000000e+01 / $v_rho))
].

(** [mole2mass], drm19/lib/src/mass_mole.c:8-61. *)
Definition drm19_mole2mass : list stmt := [
  (*12*) Do (Asn v_X_N 0 (#1.0 - (v_X.[0] + v_X.[1] + v_X.[2] + v_X.[3] + v_X.[4] + v_X.[5] + v_X.[6] + v_X.[7] + v_X.[8] + v_X.[9] + v_X.[10] + v_X.[11] + v_X.[12] + v_X.[13] + v_X.[14] + v_X.[15] + v_X.[16] + v_X.[17] + v_X.[18] + v_X.[19])));
  (*16*) Do (Asn v_mw_avg 0 (#0.0));
  (*17*) Do (AddA v_mw_avg 0 (v_X.[0] * #2.0158800000000001e+00));
  (*18*) Do (AddA v_mw_avg 0 (v_X.[1] * #1.0079400000000001e+00));
  (*19*) Do (AddA v_mw_avg 0 (v_X.[2] * #1.5999400000000000e+01));
  (*20*) Do (AddA v_mw_avg 0 (v_X.[3] * #3.1998799999999999e+01));
  (*21*) Do (AddA v_mw_avg 0 (v_X.[4] * #1.7007339999999999e+01));
  (*22*) Do (AddA v_mw_avg 0 (v_X.[5] * #1.8015280000000001e+01));
  (*23*) Do (AddA v_mw_avg 0 (v_X.[6] * #3.3006740000000001e+01));
  (*24*) Do (AddA v_mw_avg 0 (v_X.[7] * #1.4026879999999998e+01));
  (*25*) Do (AddA v_mw_avg 0 (v_X.[8] * #1.4026879999999998e+01));
  (*26*) Do (AddA v_mw_avg 0 (v_X.[9] * #1.5034820000000000e+01));
  (*27*) Do (AddA v_mw_avg 0 (v_X.[10] * #1.6042760000000001e+01));
  (*28*) Do (AddA v_mw_avg 0 (v_X.[11] * #2.8010399999999997e+01));
  (*29*) Do (AddA v_mw_avg 0 (v_X.[12] * #4.4009799999999998e+01));
  (*30*) Do (AddA v_mw_avg 0 (v_X.[13] * #2.9018339999999998e+01));
  (*31*) Do (AddA v_mw_avg 0 (v_X.[14] * #3.0026280000000000e+01));
  (*32*) Do (AddA v_mw_avg 0 (v_X.[15] * #3.1034219999999998e+01));
  (*33*) Do (AddA v_mw_avg 0 (v_X.[16] * #2.8053759999999997e+01));
  (*34*) Do (AddA v_mw_avg 0 (v_X.[17] * #2.9061699999999998e+01));
  (*35*) Do (AddA v_mw_avg 0 (v_X.[18] * #3.0069640000000000e+01));
  (*36*) Do (AddA v_mw_avg 0 (v_X.[19] * #3.9948000000000000e+01));
  (*37*) Do (AddA v_mw_avg 0 ($v_X_N * #2.8013480000000001e+01));
  (*40*) Do (Asn v_Y 0 (v_X.[0] * #2.0158800000000001e+00 / $v_mw_avg));
  (*41*) Do (Asn v_Y 1 (v_X.[1] * #1.0079400000000001e+00 / $v_mw_avg));
  (*42*) Do (Asn v_Y 2 (v_X.[2] * #1.5999400000000000e+01 / $v_mw_avg));
  (*43*) Do (Asn v_Y 3 (v_X.[3] * #3.1998799999999999e+01 / $v_mw_avg));
  (*44*) Do (Asn v_Y 4 (v_X.[4] * #1.7007339999999999e+01 / $v_mw_avg));
  (*45*) Do (Asn v_Y 5 (v_X.[5] * #1.8015280000000001e+01 / $v_mw_avg));
  (*46*) Do (Asn v_Y 6 (v_X.[6] * #3.3006740000000001e+01 / $v_mw_avg));
  (*47*) Do (Asn v_Y 7 (v_X.[7] * #1.4026879999999998e+01 / $v_mw_avg));
  (*48*) Do (Asn v_Y 8 (v_X.[8] * #1.4026879999999998e+01 / $v_mw_avg));
  (*49*) Do (Asn v_Y 9 (v_X.[9] * #1.5034820000000000e+01 / $v_mw_avg));
  (*50*) Do (Asn v_Y 10 (v_X.[10] * #1.6042760000000001e+01 / $v_mw_avg));
  (*51*) Do (Asn v_Y 11 (v_X.[11] * #2.8010399999999997e+01 / $v_mw_avg));
  (*52*) Do (Asn v_Y 12 (v_X.[12] * #4.4009799999999998e+01 / $v_mw_avg));
  (*53*) Do (Asn v_Y 13 (v_X.[13] * #2.9018339999999998e+01 / $v_mw_avg));
  (*54*) Do (Asn v_Y 14 (v_X.[14] * #3.0026280000000000e+01 / $v_mw_avg));
  (*55*) Do (Asn v_Y 15 (v_X.[15] * #3.1034219999999998e+01 / $v_mw_avg));
  (*56*) Do (Asn v_Y 16 (v_X.[16] * #2.8053759999999997e+01 / $v_mw_avg));
  (*57*) Do (Asn v_Y 17 (v_X.[17] * #2.9061699999999998e+01 / $v_mw_avg));
  (*58*) Do (Asn v_Y 18 (v_X.[18] * #3.0069640000000000e+01 / $v_mw_avg));
  (*59*) Do (Asn v_Y 19 (v_X.[19] * #3.9948000000000000e+01 / $v_mw_avg))
].

(** [mass2mole], drm19/lib/src/mass_mole.c:68-122. *)
Definition drm19_mass2mole : list stmt := [
  (*72*) Do (Asn v_Y_N 0 (#1.0 - (v_Y.[0] + v_Y.[1] + v_Y.[2] + v_Y.[3] + v_Y.[4] + v_Y.[5] + v_Y.[6] + v_Y.[7] + v_Y.[8] + v_Y.[9] + v_Y.[10] + v_Y.[11] + v_Y.[12] + v_Y.[13] + v_Y.[14] + v_Y.[15] + v_Y.[16] + v_Y.[17] + v_Y.[18] + v_Y.[19])));
  (*76*) Do (Asn v_mw_avg 0 (#0.0));
  (*77*) Do (AddA v_mw_avg 0 (v_Y.[0] / #2.0158800000000001e+00));
  (*78*) Do (AddA v_mw_avg 0 (v_Y.[1] / #1.0079400000000001e+00));
  (*79*) Do (AddA v_mw_avg 0 (v_Y.[2] / #1.5999400000000000e+01));
  (*80*) Do (AddA v_mw_avg 0 (v_Y.[3] / #3.1998799999999999e+01));
  (*81*) Do (AddA v_mw_avg 0 (v_Y.[4] / #1.7007339999999999e+01));
  (*82*) Do (AddA v_mw_avg 0 (v_Y.[5] / #1.8015280000000001e+01));
  (*83*) Do (AddA v_mw_avg 0 (v_Y.[6] / #3.3006740000000001e+01));
  (*84*) Do (AddA v_mw_avg 0 (v_Y.[7] / #1.4026879999999998e+01));
  (*85*) Do (AddA v_mw_avg 0 (v_Y.[8] / #1.4026879999999998e+01));
  (*86*) Do (AddA v_mw_avg 0 (v_Y.[9] / #1.5034820000000000e+01));
  (*87*) Do (AddA v_mw_avg 0 (v_Y.[10] / #1.6042760000000001e+01));
  (*88*) Do (AddA v_mw_avg 0 (v_Y.[11] / #2.8010399999999997e+01));
  (*89*) Do (AddA v_mw_avg 0 (v_Y.[12] / #4.4009799999999998e+01));
  (*90*) Do (AddA v_mw_avg 0 (v_Y.[13] / #2.9018339999999998e+01));
  (*91*) Do (AddA v_mw_avg 0 (v_Y.[14] / #3.0026280000000000e+01));
  (*92*) Do (AddA v_mw_avg 0 (v_Y.[15] / #3.1034219999999998e+01));
  (*93*) Do (AddA v_mw_avg 0 (v_Y.[16] / #2.8053759999999997e+01));
  (*94*) Do (AddA v_mw_avg 0 (v_Y.[17] / #2.9061699999999998e+01));
  (*95*) Do (AddA v_mw_avg 0 (v_Y.[18] / #3.0069640000000000e+01));
  (*96*) Do (AddA v_mw_avg 0 (v_Y.[19] / #3.9948000000000000e+01));
  (*97*) Do (AddA v_mw_avg 0 ($v_Y_N / #2.8013480000000001e+01));
  (*98*) Do (Asn v_mw_avg 0 (#1.0 / $v_mw_avg));
  (*101*) Do (Asn v_X 0 (v_Y.[0] * $v_mw_avg / #2.0158800000000001e+00));
  (*102*) Do (Asn v_X 1 (v_Y.[1] * $v_mw_avg / #1.0079400000000001e+00));
  (*103*) Do (Asn v_X 2 (v_Y.[2] * $v_mw_avg / #1.5999400000000000e+01));
  (*104*) Do (Asn v_X 3 (v_Y.[3] * $v_mw_avg / #3.1998799999999999e+01));
  (*105*) Do (Asn v_X 4 (v_Y.[4] * $v_mw_avg / #1.7007339999999999e+01));
  (*106*) Do (Asn v_X 5 (v_Y.[5] * $v_mw_avg / #1.8015280000000001e+01));
  (*107*) Do (Asn v_X 6 (v_Y.[6] * $v_mw_avg / #3.3006740000000001e+01));
  (*108*) Do (Asn v_X 7 (v_Y.[7] * $v_mw_avg / #1.4026879999999998e+01));
  (*109*) Do (Asn v_X 8 (v_Y.[8] * $v_mw_avg / #1.4026879999999998e+01));
  (*110*) Do (Asn v_X 9 (v_Y.[9] * $v_mw_avg / #1.5034820000000000e+01));
  (*111*) Do (Asn v_X 10 (v_Y.[10] * $v_mw_avg / #1.6042760000000001e+01));
  (*112*) Do (Asn v_X 11 (v_Y.[11] * $v_mw_avg / #2.8010399999999997e+01));
  (*113*) Do (Asn v_X 12 (v_Y.[12] * $v_mw_avg / #4.4009799999999998e+01));
  (*114*) Do (Asn v_X 13 (v_Y.[13] * $v_mw_avg / #2.9018339999999998e+01));
  (*115*) Do (Asn v_X 14 (v_Y.[14] * $v_mw_avg / #3.0026280000000000e+01));
  (*116*) Do (Asn v_X 15 (v_Y.[15] * $v_mw_avg / #3.1034219999999998e+01));
  (*117*) Do (Asn v_X 16 (v_Y.[16] * $v_mw_avg / #2.8053759999999997e+01));
  (*118*) Do (Asn v_X 17 (v_Y.[17] * $v_mw_avg / #2.9061699999999998e+01));
  (*119*) Do (Asn v_X 18 (v_Y.[18] * $v_mw_avg / #3.0069640000000000e+01));
  (*120*) Do (Asn v_X 19 (v_Y.[19] * $v_mw_avg / #3.9948000000000000e+01))
].

(** [getDensity], drm19/lib/src/mass_mole.c:131-163. *)
Definition drm19_getDensity : list stmt := [
  (*135*) Do (Asn v_X_N 0 (#1.0 - (v_X.[0] + v_X.[1] + v_X.[2] + v_X.[3] + v_X.[4] + v_X.[5] + v_X.[6] + v_X.[7] + v_X.[8] + v_X.[9] + v_X.[10] + v_X.[11] + v_X.[12] + v_X.[13] + v_X.[14] + v_X.[15] + v_X.[16] + v_X.[17] + v_X.[18] + v_X.[19])));
  (*139*) Do (Asn v_mw_avg 0 (#0.0));
  (*140*) Do (AddA v_mw_avg 0 (v_X.[0] * #2.0158800000000001e+00));
  (*141*) Do (AddA v_mw_avg 0 (v_X.[1] * #1.0079400000000001e+00));
  (*142*) Do (AddA v_mw_avg 0 (v_X.[2] * #1.5999400000000000e+01));
  (*143*) Do (AddA v_mw_avg 0 (v_X.[3] * #3.1998799999999999e+01));
  (*144*) Do (AddA v_mw_avg 0 (v_X.[4] * #1.7007339999999999e+01));
  (*145*) Do (AddA v_mw_avg 0 (v_X.[5] * #1.8015280000000001e+01));
  (*146*) Do (AddA v_mw_avg 0 (v_X.[6] * #3.3006740000000001e+01));
  (*147*) Do (AddA v_mw_avg 0 (v_X.[7] * #1.4026879999999998e+01));
  (*148*) Do (AddA v_mw_avg 0 (v_X.[8] * #1.4026879999999998e+01));
  (*149*) Do (AddA v_mw_avg 0 (v_X.[9] * #1.5034820000000000e+01));
  (*150*) Do (AddA v_mw_avg 0 (v_X.[10] * #1.6042760000000001e+01));
  (*151*) Do (AddA v_mw_avg 0 (v_X.[11] * #2.8010399999999997e+01));
  (*152*) Do (AddA v_mw_avg 0 (v_X.[12] * #4.4009799999999998e+01));
  (*153*) Do (AddA v_mw_avg 0 (v_X.[13] * #2.9018339999999998e+01));
  (*154*) Do (AddA v_mw_avg 0 (v_X.[14] * #3.0026280000000000e+01));
  (*155*) Do (AddA v_mw_avg 0 (v_X.[15] * #3.1034219999999998e+01));
  (*156*) Do (AddA v_mw_avg 0 (v_X.[16] * #2.8053759999999997e+01));
  (*157*) Do (AddA v_mw_avg 0 (v_X.[17] * #2.9061699999999998e+01));
  (*158*) Do (AddA v_mw_avg 0 (v_X.[18] * #3.0069640000000000e+01));
  (*159*) Do (AddA v_mw_avg 0 (v_X.[19] * #3.9948000000000000e+01));
  (*160*) Do (AddA v_mw_avg 0 ($v_X_N * #2.8013480000000001e+01));
  (*162*) Do (Asn v_ret 0 ($v_pres * $v_mw_avg / (#8.31446210e+03 * $v_temp)))
].

