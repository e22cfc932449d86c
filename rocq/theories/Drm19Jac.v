(** Transcription of the Jacobian
    (/repo/utilities/mechanisms/drm19/lib/src/jacob.c, jacobs/jacob_*.c); the number before a statement is its line. *)
From Coq Require Import List QArith.
From Verif Require Import MechLang.
Import ListNotations.
Local Open Scope mech_scope.

(** [eval_jacob], drm19/lib/src/jacob.c:29-77: the statements between the calls of
    [eval_spec_rates] and [eval_jacob_0] (but for the initialisation of [J_nplusone], which
    [lib_jacob_T] does). *)
Definition drm19_jac_head : list stmt := [
  (*29*) Do (Asn v_m 0 ($v_pres / (#8.31446210e+03 * $v_T)));
  (*30*) Do (Asn v_logT 0 ((Log $v_T)));
  (*32*) If ($v_T) (#1000.0)
    [Asn v_dBdT 0 ((#1.3443311200000001e+00 + #(-9.1793517299999996e+02) / $v_T) / $v_T + #3.9902603749999996e-03 + $v_T * (#(-6.4927169999999995e-06) + $v_T * (#5.0393023500000001e-09 + #(-1.4752235220000002e-12) * $v_T)));
     Asn v_dBdT 1 ((#1.5000000000000000e+00 + #2.5473659899999999e+04 / $v_T) / $v_T + #3.5266640949999999e-13 + $v_T * (#(-6.6530654666666665e-16) + $v_T * (#5.7520407999999997e-19 + #(-1.8554646640000001e-22) * $v_T)));
     Asn v_dBdT 2 ((#2.1682671000000000e+00 + #2.9122259200000000e+04 / $v_T) / $v_T + #(-1.6396594200000000e-03) + $v_T * (#2.2143546533333334e-06 + $v_T * (#(-1.5320165600000000e-09) + #4.2253194199999998e-13 * $v_T)));
     Asn v_dBdT 3 ((#2.7824563599999999e+00 + #(-1.0639435599999999e+03) / $v_T) / $v_T + #(-1.4983670799999999e-03) + $v_T * (#3.2824340033333332e-06 + $v_T * (#(-2.4203237725000002e-09) + #6.4874567400000000e-13 * $v_T)));
     Asn v_dBdT 4 ((#2.9920154299999999e+00 + #3.6150805599999999e+03 / $v_T) / $v_T + #(-1.2006587600000001e-03) + $v_T * (#1.5393128033333333e-06 + $v_T * (#(-9.7028333249999999e-10) + #2.7282293999999999e-13 * $v_T)));
     Asn v_dBdT 5 ((#3.1986405600000003e+00 + #(-3.0293726699999999e+04) / $v_T) / $v_T + #(-1.0182170500000001e-03) + $v_T * (#2.1734673700000000e-06 + $v_T * (#(-1.3719926550000001e-09) + #3.5439563400000000e-13 * $v_T)));
     Asn v_dBdT 6 ((#3.3017980099999997e+00 + #2.9480804000000001e+02 / $v_T) / $v_T + #(-2.3745602549999998e-03) + $v_T * (#7.0527630333333326e-06 + $v_T * (#(-6.0690973500000000e-09) + #1.8584502480000002e-12 * $v_T)));
     Asn v_dBdT 7 ((#2.7626786700000001e+00 + #4.6004040099999998e+04 / $v_T) / $v_T + #4.8443607150000002e-04 + $v_T * (#9.3163280333333339e-07 + $v_T * (#(-9.6272788250000007e-10) + #3.3748343799999999e-13 * $v_T)));
     Asn v_dBdT 8 ((#3.1986041099999998e+00 + #5.0496816299999999e+04 / $v_T) / $v_T + #(-1.1833070950000000e-03) + $v_T * (#2.7443207333333332e-06 + $v_T * (#(-1.6720399525000001e-09) + #3.8862947400000001e-13 * $v_T)));
     Asn v_dBdT 9 ((#2.6735904000000001e+00 + #1.6444998800000001e+04 / $v_T) / $v_T + #1.0054758750000000e-03 + $v_T * (#1.9100728533333335e-06 + $v_T * (#(-1.7177935625000000e-09) + #5.0877146800000003e-13 * $v_T)));
     Asn v_dBdT 10 ((#4.1498761300000000e+00 + #(-1.0246647600000000e+04) / $v_T) / $v_T + #(-6.8354894000000003e-03) + $v_T * (#1.6393353300000001e-05 + $v_T * (#(-1.2118575650000000e-08) + #3.3338791200000000e-12 * $v_T)));
     Asn v_dBdT 11 ((#2.5795334699999999e+00 + #(-1.4344085999999999e+04) / $v_T) / $v_T + #(-3.0517684000000000e-04) + $v_T * (#3.3893811000000002e-07 + $v_T * (#2.2675147100000000e-10 + #(-1.8088489979999999e-13) * $v_T)));
     Asn v_dBdT 12 ((#1.3567735200000000e+00 + #(-4.8371969700000001e+04) / $v_T) / $v_T + #4.4922983850000002e-03 + $v_T * (#(-2.3745208966666665e-06) + $v_T * (#6.1479755499999995e-10 + #(-2.8739909599999997e-14) * $v_T)));
     Asn v_dBdT 13 ((#3.2211858400000004e+00 + #3.8395649600000002e+03 / $v_T) / $v_T + #(-1.6219626600000000e-03) + $v_T * (#4.5933148666666667e-06 + $v_T * (#(-3.3286023250000002e-09) + #8.6753773000000000e-13 * $v_T)));
     Asn v_dBdT 14 ((#3.7937231499999999e+00 + #(-1.4308956700000001e+04) / $v_T) / $v_T + #(-4.9541668450000000e-03) + $v_T * (#1.2440666933333332e-05 + $v_T * (#(-9.4821315249999995e-09) + #2.6354530400000001e-12 * $v_T)));
     Asn v_dBdT 15 ((#1.1062040000000000e+00 + #9.7860109999999997e+02 / $v_T) / $v_T + #3.6082975000000001e-03 + $v_T * (#1.7794906666666667e-06 + $v_T * (#(-1.8444089999999999e-09) + #4.1512200000000000e-13 * $v_T)));
     Asn v_dBdT 16 ((#2.9592014799999999e+00 + #5.0897759299999998e+03 / $v_T) / $v_T + #(-3.7852612350000002e-03) + $v_T * (#1.9033009733333333e-05 + $v_T * (#(-1.7289718825000000e-08) + #5.3976874600000004e-12 * $v_T)));
     Asn v_dBdT 17 ((#3.3064656799999996e+00 + #1.2841626500000000e+04 / $v_T) / $v_T + #(-2.0932944600000002e-03) + $v_T * (#1.6571426900000001e-05 + $v_T * (#(-1.4978165149999999e-08) + #4.6101800800000003e-12 * $v_T)));
     Asn v_dBdT 18 ((#3.2914249199999999e+00 + #(-1.1522205500000000e+04) / $v_T) / $v_T + #(-2.7507713499999998e-03) + $v_T * (#1.9981276266666669e-05 + $v_T * (#(-1.7711657125000000e-08) + #5.3737154200000002e-12 * $v_T)));
     Asn v_dBdT 19 ((#1.5000000000000000e+00 + #(-7.4537500000000000e+02) / $v_T) / $v_T + #0.0000000000000000e+00 + $v_T * (#0.0000000000000000e+00 + $v_T * (#0.0000000000000000e+00 + #0.0000000000000000e+00 * $v_T)));
     Asn v_dBdT 20 ((#2.2986770000000001e+00 + #(-1.0208999000000000e+03) / $v_T) / $v_T + #7.0412019999999999e-04 + $v_T * (#(-1.3210739999999999e-06) + $v_T * (#1.4103787500000001e-09 + #(-4.8897079999999994e-13) * $v_T)))]
    [Asn v_dBdT 0 ((#2.3372791999999998e+00 + #(-9.5015892199999996e+02) / $v_T) / $v_T + #(-2.4701236549999999e-05) + $v_T * (#1.6648559266666665e-07 + $v_T * (#(-4.4891598500000001e-11) + #4.0051075199999998e-15 * $v_T)));
     Asn v_dBdT 1 ((#1.5000000099999999e+00 + #2.5473659899999999e+04 / $v_T) / $v_T + #(-1.1542148649999999e-11) + $v_T * (#5.3853982666666673e-15 + $v_T * (#(-1.1837880875000001e-18) + #9.9639471400000006e-23 * $v_T)));
     Asn v_dBdT 2 ((#1.5694207800000002e+00 + #2.9217579099999999e+04 / $v_T) / $v_T + #(-4.2987056850000002e-05) + $v_T * (#1.3982819633333334e-08 + $v_T * (#(-2.5044449749999998e-12) + #2.4566738199999997e-16 * $v_T)));
     Asn v_dBdT 3 ((#2.2825378399999998e+00 + #(-1.0884577200000001e+03) / $v_T) / $v_T + #7.4154376999999996e-04 + $v_T * (#(-2.5265555633333331e-07) + $v_T * (#5.2367638749999998e-11 + #(-4.3343558799999996e-15) * $v_T)));
     Asn v_dBdT 4 ((#2.0928876700000001e+00 + #3.8586570000000002e+03 / $v_T) / $v_T + #2.7421485799999999e-04 + $v_T * (#4.2168409333333331e-08 + $v_T * (#(-2.1986538899999999e-11) + #2.3482475199999999e-15 * $v_T)));
     Asn v_dBdT 5 ((#2.0339924900000002e+00 + #(-3.0004297100000000e+04) / $v_T) / $v_T + #1.0884590200000001e-03 + $v_T * (#(-5.4690839333333327e-08) + $v_T * (#(-2.4260496750000000e-11) + #3.3640198399999998e-15 * $v_T)));
     Asn v_dBdT 6 ((#3.0172109000000003e+00 + #1.1185671300000000e+02 / $v_T) / $v_T + #1.1199100650000000e-03 + $v_T * (#(-2.1121938333333332e-07) + $v_T * (#2.8561592500000001e-11 + #(-2.1581707000000000e-15) * $v_T)));
     Asn v_dBdT 7 ((#1.8741011300000001e+00 + #4.6263603999999999e+04 / $v_T) / $v_T + #1.8281964599999999e-03 + $v_T * (#(-4.6964865666666667e-07) + $v_T * (#6.5044887249999998e-11 + #(-3.7545513400000000e-15) * $v_T)));
     Asn v_dBdT 8 ((#1.2920384199999999e+00 + #5.0925999700000000e+04 / $v_T) / $v_T + #2.3279431850000000e-03 + $v_T * (#(-6.7063982333333332e-07) + $v_T * (#1.0447650000000001e-10 + #(-6.7943272999999998e-15) * $v_T)));
     Asn v_dBdT 9 ((#1.2857177200000001e+00 + #1.6775584299999999e+04 / $v_T) / $v_T + #3.6199501849999999e-03 + $v_T * (#(-9.9571449333333331e-07) + $v_T * (#1.4892116100000001e-10 + #(-9.3430878800000005e-15) * $v_T)));
     Asn v_dBdT 10 ((#(-9.2514850500000001e-01) + #(-9.4683445900000006e+03) / $v_T) / $v_T + #6.6954733499999999e-03 + $v_T * (#(-1.9109526966666665e-06) + $v_T * (#3.0573133750000000e-10 + #(-2.0363046000000002e-14) * $v_T)));
     Asn v_dBdT 11 ((#1.7151856099999998e+00 + #(-1.4151872400000000e+04) / $v_T) / $v_T + #1.0312637150000001e-03 + $v_T * (#(-3.3294192366666671e-07) + $v_T * (#5.7513252000000000e-11 + #(-4.0729543200000001e-15) * $v_T)));
     Asn v_dBdT 12 ((#2.8574602900000001e+00 + #(-4.8759165999999997e+04) / $v_T) / $v_T + #2.2071851299999999e-03 + $v_T * (#(-7.3827134666666672e-07) + $v_T * (#1.3087254700000001e-10 + #(-9.4416832800000002e-15) * $v_T)));
     Asn v_dBdT 13 ((#1.7721743800000000e+00 + #4.0119181500000000e+03 / $v_T) / $v_T + #2.4784776299999998e-03 + $v_T * (#(-8.2815204333333337e-07) + $v_T * (#1.4729044450000001e-10 + #(-1.0670174220000000e-14) * $v_T)));
     Asn v_dBdT 14 ((#7.6069008000000005e-01 + #(-1.3995832300000000e+04) / $v_T) / $v_T + #4.6000004100000000e-03 + $v_T * (#(-1.4741960433333332e-06) + $v_T * (#2.5160302999999999e-10 + #(-1.7677112800000002e-14) * $v_T)));
     Asn v_dBdT 15 ((#2.7707989999999998e+00 + #1.2783252000000000e+02 / $v_T) / $v_T + #3.9357484999999999e-03 + $v_T * (#(-8.8546133333333336e-07) + $v_T * (#9.8610774999999998e-11 + #(-4.2252319999999999e-15) * $v_T)));
     Asn v_dBdT 16 ((#1.0361111599999999e+00 + #4.9398861399999996e+03 / $v_T) / $v_T + #7.3227075499999999e-03 + $v_T * (#(-2.2369263833333335e-06) + $v_T * (#3.6805730750000002e-10 + #(-2.5141212200000000e-14) * $v_T)));
     Asn v_dBdT 17 ((#9.5465642000000006e-01 + #1.2857520000000000e+04 / $v_T) / $v_T + #8.6986361000000005e-03 + $v_T * (#(-2.6606888933333333e-06) + $v_T * (#4.3804422250000001e-10 + #(-2.9928315199999999e-14) * $v_T)));
     Asn v_dBdT 18 ((#7.1881499999999932e-02 + #(-1.1426393200000000e+04) / $v_T) / $v_T + #1.0842633850000000e-02 + $v_T * (#(-3.3418689000000000e-06) + $v_T * (#5.5353000250000001e-10 + #(-3.8000577999999999e-14) * $v_T)));
     Asn v_dBdT 19 ((#1.5000000000000000e+00 + #(-7.4537500000000000e+02) / $v_T) / $v_T + #0.0000000000000000e+00 + $v_T * (#0.0000000000000000e+00 + $v_T * (#0.0000000000000000e+00 + #0.0000000000000000e+00 * $v_T)));
     Asn v_dBdT 20 ((#1.9266399999999999e+00 + #(-9.2279769999999996e+02) / $v_T) / $v_T + #7.4398840000000003e-04 + $v_T * (#(-1.8949200000000001e-07) + $v_T * (#2.5242595000000000e-11 + #(-1.3506701999999999e-15) * $v_T)))]].

(** [eval_jacob], drm19/lib/src/jacob.c:88-170: the statements after the call of [eval_cp], without
    the calls of the functions that finish the other columns. *)
Definition drm19_jac_tail : list stmt := [
  (*91*) Do (Asn v_cp_avg 0 (v_y.[1] * v_cp.[0] + v_y.[2] * v_cp.[1] + v_y.[3] * v_cp.[2] + v_y.[4] * v_cp.[3] + v_y.[5] * v_cp.[4] + v_y.[6] * v_cp.[5] + v_y.[7] * v_cp.[6] + v_y.[8] * v_cp.[7] + v_y.[9] * v_cp.[8] + v_y.[10] * v_cp.[9] + v_y.[11] * v_cp.[10] + v_y.[12] * v_cp.[11] + v_y.[13] * v_cp.[12] + v_y.[14] * v_cp.[13] + v_y.[15] * v_cp.[14] + v_y.[16] * v_cp.[15] + v_y.[17] * v_cp.[16] + v_y.[18] * v_cp.[17] + v_y.[19] * v_cp.[18] + v_y.[20] * v_cp.[19] + $v_y_N * v_cp.[20]));
  (*96*) Do (Asn v_jac 0 (#0.0));
  (*97*) Do (Asn v_working_temp 0 (#0));
  (*101*) If ($v_T) (#1000.0)
    [Asn v_working_temp 0 (v_y.[1] * #4.1244826576978785e+03 * (#7.9805207499999992e-03 + $v_T * (#(-3.8956301999999997e-05) + $v_T * (#6.0471628200000004e-08 + #(-2.9504470440000002e-11) * $v_T))) + v_y.[2] * #8.2489653153957570e+03 * (#7.0533281899999999e-13 + $v_T * (#(-3.9918392799999999e-15) + $v_T * (#6.9024489599999992e-18 + #(-3.7109293280000002e-21) * $v_T))) + v_y.[3] * #5.1967336900133762e+02 * (#(-3.2793188399999999e-03) + $v_T * (#1.3286127919999999e-05 + $v_T * (#(-1.8384198720000000e-08) + #8.4506388399999997e-12 * $v_T))) + v_y.[4] * #2.5983668450066881e+02 * (#(-2.9967341599999998e-03) + $v_T * (#1.9694604020000000e-05 + $v_T * (#(-2.9043885270000002e-08) + #1.2974913480000000e-11 * $v_T))) + v_y.[5] * #4.8887492694330808e+02 * (#(-2.4013175200000001e-03) + $v_T * (#9.2358768199999993e-06 + $v_T * (#(-1.1643399990000001e-08) + #5.4564588000000001e-12 * $v_T))) + v_y.[6] * #4.6152277955158070e+02 * (#(-2.0364341000000002e-03) + $v_T * (#1.3040804219999999e-05 + $v_T * (#(-1.6463911860000002e-08) + #7.0879126800000000e-12 * $v_T))) + v_y.[7] * #2.5190194790518544e+02 * (#(-4.7491205099999996e-03) + $v_T * (#4.2316578199999997e-05 + $v_T * (#(-7.2829168200000001e-08) + #3.7169004960000001e-11 * $v_T))) + v_y.[8] * #5.9275206603321635e+02 * (#9.6887214300000004e-04 + $v_T * (#5.5897968200000002e-06 + $v_T * (#(-1.1552734590000001e-08) + #6.7496687600000000e-12 * $v_T))) + v_y.[9] * #5.9275206603321635e+02 * (#(-2.3666141900000001e-03) + $v_T * (#1.6465924400000000e-05 + $v_T * (#(-2.0064479430000002e-08) + #7.7725894800000005e-12 * $v_T))) + v_y.[10] * #5.5301374409537334e+02 * (#2.0109517500000000e-03 + $v_T * (#1.1460437120000000e-05 + $v_T * (#(-2.0613522750000001e-08) + #1.0175429360000000e-11 * $v_T))) + v_y.[11] * #5.1826880786099150e+02 * (#(-1.3670978800000001e-02) + $v_T * (#9.8360119799999999e-05 + $v_T * (#(-1.4542290780000001e-07) + #6.6677582399999996e-11 * $v_T))) + v_y.[12] * #2.9683482206608977e+02 * (#(-6.1035368000000000e-04) + $v_T * (#2.0336286600000001e-06 + $v_T * (#2.7210176520000001e-09 + #(-3.6176979960000000e-12) * $v_T))) + v_y.[13] * #1.8892296942953618e+02 * (#8.9845967700000005e-03 + $v_T * (#(-1.4247125380000000e-05) + $v_T * (#7.3775706599999994e-09 + #(-5.7479819199999996e-13) * $v_T))) + v_y.[14] * #2.8652438768034290e+02 * (#(-3.2439253200000000e-03) + $v_T * (#2.7559889200000000e-05 + $v_T * (#(-3.9943227900000001e-08) + #1.7350754600000000e-11 * $v_T))) + v_y.[15] * #2.7690616686449340e+02 * (#(-9.9083336899999999e-03) + $v_T * (#7.4644001599999998e-05 + $v_T * (#(-1.1378557830000000e-07) + #5.2709060799999999e-11 * $v_T))) + v_y.[16] * #2.6791271377208773e+02 * (#7.2165950000000001e-03 + $v_T * (#1.0676944000000000e-05 + $v_T * (#(-2.2132908000000001e-08) + #8.3024399999999995e-12 * $v_T))) + v_y.[17] * #2.9637603301660818e+02 * (#(-7.5705224700000004e-03) + $v_T * (#1.1419805840000000e-04 + $v_T * (#(-2.0747662590000000e-07) + #1.0795374920000001e-10 * $v_T))) + v_y.[18] * #2.8609689384998131e+02 * (#(-4.1865889200000004e-03) + $v_T * (#9.9428561399999998e-05 + $v_T * (#(-1.7973798179999999e-07) + #9.2203601600000000e-11 * $v_T))) + v_y.[19] * #2.7650687204768667e+02 * (#(-5.5015426999999997e-03) + $v_T * (#1.1988765760000001e-04 + $v_T * (#(-2.1253988550000000e-07) + #1.0747430840000000e-10 * $v_T))) + v_y.[20] * #2.0813212426154001e+02 * (#0.0000000000000000e+00 + $v_T * (#0.0000000000000000e+00 + $v_T * (#0.0000000000000000e+00 + #0.0000000000000000e+00 * $v_T))) + $v_y_N * #2.9680218594762238e+02 * (#1.4082404000000000e-03 + $v_T * (#(-7.9264439999999996e-06) + $v_T * (#1.6924545000000002e-08 + #(-9.7794159999999997e-12) * $v_T))))]
    [Asn v_working_temp 0 (v_y.[1] * #4.1244826576978785e+03 * (#(-4.9402473099999998e-05) + $v_T * (#9.9891355599999992e-07 + $v_T * (#(-5.3869918199999997e-10) + #8.0102150399999999e-14 * $v_T))) + v_y.[2] * #8.2489653153957570e+03 * (#(-2.3084297299999999e-11) + $v_T * (#3.2312389600000002e-14 + $v_T * (#(-1.4205457050000002e-17) + #1.9927894280000001e-21 * $v_T))) + v_y.[3] * #5.1967336900133762e+02 * (#(-8.5974113700000004e-05) + $v_T * (#8.3896917800000004e-08 + $v_T * (#(-3.0053339700000001e-11) + #4.9133476399999997e-15 * $v_T))) + v_y.[4] * #2.5983668450066881e+02 * (#1.4830875399999999e-03 + $v_T * (#(-1.5159333380000000e-06) + $v_T * (#6.2841166499999998e-10 + #(-8.6687117599999996e-14) * $v_T))) + v_y.[5] * #4.8887492694330808e+02 * (#5.4842971599999998e-04 + $v_T * (#2.5301045599999997e-07 + $v_T * (#(-2.6383846680000000e-10) + #4.6964950400000001e-14 * $v_T))) + v_y.[6] * #4.6152277955158070e+02 * (#2.1769180400000002e-03 + $v_T * (#(-3.2814503599999998e-07) + $v_T * (#(-2.9112596100000000e-10) + #6.7280396799999996e-14 * $v_T))) + v_y.[7] * #2.5190194790518544e+02 * (#2.2398201299999999e-03 + $v_T * (#(-1.2673163000000000e-06) + $v_T * (#3.4273911000000001e-10 + #(-4.3163414000000000e-14) * $v_T))) + v_y.[8] * #5.9275206603321635e+02 * (#3.6563929199999999e-03 + $v_T * (#(-2.8178919400000001e-06) + $v_T * (#7.8053864700000003e-10 + #(-7.5091026800000003e-14) * $v_T))) + v_y.[9] * #5.9275206603321635e+02 * (#4.6558863700000000e-03 + $v_T * (#(-4.0238389399999997e-06) + $v_T * (#1.2537180000000001e-09 + #(-1.3588654599999999e-13) * $v_T))) + v_y.[10] * #5.5301374409537334e+02 * (#7.2399003699999999e-03 + $v_T * (#(-5.9742869599999998e-06) + $v_T * (#1.7870539320000002e-09 + #(-1.8686175760000001e-13) * $v_T))) + v_y.[11] * #5.1826880786099150e+02 * (#1.3390946700000000e-02 + $v_T * (#(-1.1465716180000000e-05) + $v_T * (#3.6687760500000002e-09 + #(-4.0726092000000001e-13) * $v_T))) + v_y.[12] * #2.9683482206608977e+02 * (#2.0625274300000002e-03 + $v_T * (#(-1.9976515420000001e-06) + $v_T * (#6.9015902399999998e-10 + #(-8.1459086400000001e-14) * $v_T))) + v_y.[13] * #1.8892296942953618e+02 * (#4.4143702599999998e-03 + $v_T * (#(-4.4296280800000001e-06) + $v_T * (#1.5704705640000000e-09 + #(-1.8883366560000001e-13) * $v_T))) + v_y.[14] * #2.8652438768034290e+02 * (#4.9569552599999997e-03 + $v_T * (#(-4.9689122600000000e-06) + $v_T * (#1.7674853340000001e-09 + #(-2.1340348440000000e-13) * $v_T))) + v_y.[15] * #2.7690616686449340e+02 * (#9.2000008200000000e-03 + $v_T * (#(-8.8451762599999995e-06) + $v_T * (#3.0192363599999999e-09 + #(-3.5354225600000002e-13) * $v_T))) + v_y.[16] * #2.6791271377208773e+02 * (#7.8714969999999999e-03 + $v_T * (#(-5.3127680000000002e-06) + $v_T * (#1.1833293000000001e-09 + #(-8.4504640000000004e-14) * $v_T))) + v_y.[17] * #2.9637603301660818e+02 * (#1.4645415100000000e-02 + $v_T * (#(-1.3421558300000000e-05) + $v_T * (#4.4166876900000006e-09 + #(-5.0282424399999999e-13) * $v_T))) + v_y.[18] * #2.8609689384998131e+02 * (#1.7397272200000001e-02 + $v_T * (#(-1.5964133359999999e-05) + $v_T * (#5.2565306700000001e-09 + #(-5.9856630400000000e-13) * $v_T))) + v_y.[19] * #2.7650687204768667e+02 * (#2.1685267700000000e-02 + $v_T * (#(-2.0051213400000001e-05) + $v_T * (#6.6423600300000001e-09 + #(-7.6001155999999998e-13) * $v_T))) + v_y.[20] * #2.0813212426154001e+02 * (#0.0000000000000000e+00 + $v_T * (#0.0000000000000000e+00 + $v_T * (#0.0000000000000000e+00 + #0.0000000000000000e+00 * $v_T))) + $v_y_N * #2.9680218594762238e+02 * (#1.4879768000000001e-03 + $v_T * (#(-1.1369520000000000e-06) + $v_T * (#3.0291114000000000e-10 + #(-2.7013403999999999e-14) * $v_T))))];
  (*149*) Do (Asn v_jac 0 ((- (v_spec_rates.[0] * #2.01588000e+00 * ((- $v_working_temp) * v_h.[0] / $v_cp_avg + v_cp.[0]) + v_jac.[1] * v_h.[0] * $v_rho + v_spec_rates.[1] * #1.00794000e+00 * ((- $v_working_temp) * v_h.[1] / $v_cp_avg + v_cp.[1]) + v_jac.[2] * v_h.[1] * $v_rho + v_spec_rates.[2] * #1.59994000e+01 * ((- $v_working_temp) * v_h.[2] / $v_cp_avg + v_cp.[2]) + v_jac.[3] * v_h.[2] * $v_rho + v_spec_rates.[3] * #3.19988000e+01 * ((- $v_working_temp) * v_h.[3] / $v_cp_avg + v_cp.[3]) + v_jac.[4] * v_h.[3] * $v_rho + v_spec_rates.[4] * #1.70073400e+01 * ((- $v_working_temp) * v_h.[4] / $v_cp_avg + v_cp.[4]) + v_jac.[5] * v_h.[4] * $v_rho + v_spec_rates.[5] * #1.80152800e+01 * ((- $v_working_temp) * v_h.[5] / $v_cp_avg + v_cp.[5]) + v_jac.[6] * v_h.[5] * $v_rho + v_spec_rates.[6] * #3.30067400e+01 * ((- $v_working_temp) * v_h.[6] / $v_cp_avg + v_cp.[6]) + v_jac.[7] * v_h.[6] * $v_rho + v_spec_rates.[7] * #1.40268800e+01 * ((- $v_working_temp) * v_h.[7] / $v_cp_avg + v_cp.[7]) + v_jac.[8] * v_h.[7] * $v_rho + v_spec_rates.[8] * #1.40268800e+01 * ((- $v_working_temp) * v_h.[8] / $v_cp_avg + v_cp.[8]) + v_jac.[9] * v_h.[8] * $v_rho + v_spec_rates.[9] * #1.50348200e+01 * ((- $v_working_temp) * v_h.[9] / $v_cp_avg + v_cp.[9]) + v_jac.[10] * v_h.[9] * $v_rho + v_spec_rates.[10] * #1.60427600e+01 * ((- $v_working_temp) * v_h.[10] / $v_cp_avg + v_cp.[10]) + v_jac.[11] * v_h.[10] * $v_rho + v_spec_rates.[11] * #2.80104000e+01 * ((- $v_working_temp) * v_h.[11] / $v_cp_avg + v_cp.[11]) + v_jac.[12] * v_h.[11] * $v_rho + v_spec_rates.[12] * #4.40098000e+01 * ((- $v_working_temp) * v_h.[12] / $v_cp_avg + v_cp.[12]) + v_jac.[13] * v_h.[12] * $v_rho + v_spec_rates.[13] * #2.90183400e+01 * ((- $v_working_temp) * v_h.[13] / $v_cp_avg + v_cp.[13]) + v_jac.[14] * v_h.[13] * $v_rho + v_spec_rates.[14] * #3.00262800e+01 * ((- $v_working_temp) * v_h.[14] / $v_cp_avg + v_cp.[14]) + v_jac.[15] * v_h.[14] * $v_rho + v_spec_rates.[15] * #3.10342200e+01 * ((- $v_working_temp) * v_h.[15] / $v_cp_avg + v_cp.[15]) + v_jac.[16] * v_h.[15] * $v_rho + v_spec_rates.[16] * #2.80537600e+01 * ((- $v_working_temp) * v_h.[16] / $v_cp_avg + v_cp.[16]) + v_jac.[17] * v_h.[16] * $v_rho + v_spec_rates.[17] * #2.90617000e+01 * ((- $v_working_temp) * v_h.[17] / $v_cp_avg + v_cp.[17]) + v_jac.[18] * v_h.[17] * $v_rho + v_spec_rates.[18] * #3.00696400e+01 * ((- $v_working_temp) * v_h.[18] / $v_cp_avg + v_cp.[18]) + v_jac.[19] * v_h.[18] * $v_rho + v_spec_rates.[19] * #3.99480000e+01 * ((- $v_working_temp) * v_h.[19] / $v_cp_avg + v_cp.[19]) + v_jac.[20] * v_h.[19] * $v_rho + v_spec_rates.[20] * #2.80134800e+01 * ((- $v_working_temp) * v_h.[20] / $v_cp_avg + v_cp.[20]))) / ($v_rho * $v_cp_avg)))].

(** [eval_jacob_0], drm19/lib/src/jacobs/jacob_0.c:4-18: declarations. *)
Definition drm19_jac_d0 : list stmt := [
  (*6*) Do (Asn v_logT 0 ((Log $v_T)));
  (*7*) Do (Asn v_kf 0 (#0.0));
  (*8*) Do (Asn v_j_temp 0 (#0.0));
  (*9*) Do (Asn v_pres_mod_temp 0 (#0.0));
  (*10*) Do (Asn v_Kc 0 (#0.0));
  (*11*) Do (Asn v_kr 0 (#0.0));
  (*12*) Do (Asn v_Pr 0 (#0.0));
  (*13*) Do (Asn v_Fcent 0 (#0.0));
  (*14*) Do (Asn v_A 0 (#0.0));
  (*15*) Do (Asn v_B 0 (#0.0));
  (*16*) Do (Asn v_lnF_AB 0 (#0.0));
  (*17*) Do (Asn v_rho_inv 0 (#1.0 / $v_rho))].

(** [eval_jacob_0], drm19/lib/src/jacobs/jacob_0.c:19-3545: for every reaction the blocks "wrt T" and
    "wrt species". *)
Definition drm19_jac_b0 : list (list stmt * list stmt) := [
([
  (*19*) Do (Asn v_j_temp 0 (((- v_pres_mod.[0]) * (v_fwd_rates.[0] - v_rev_rates.[0]) / $v_T + v_pres_mod.[0] / $v_T * ((v_fwd_rates.[0] - v_rev_rates.[0]) * #(-1.0000000000000000e+00) + v_fwd_rates.[0] * #(-1.0) - v_rev_rates.[0] * ((- $v_T) * (v_dBdT.[4] - v_dBdT.[1] - v_dBdT.[2])))) * $v_rho_inv));
  (*20*) Do (Asn v_jac 2 ((- $v_j_temp) * #1.0079400000000001e+00));
  (*21*) Do (Asn v_jac 3 ((- $v_j_temp) * #1.5999400000000000e+01));
  (*22*) Do (Asn v_jac 5 ($v_j_temp * #1.7007339999999999e+01))],
[
  (*25*) If ($v_T) (#1000.0)
    [Asn v_Kc 0 (#(-3.2924395000000217e-02) + #(-6.7625167000000008e-01) * $v_logT + $v_T * (#4.3900065964733344e-04 + $v_T * (#(-3.3752092466734670e-07) + $v_T * (#1.8724440897493195e-10 + #(-3.7427250453613386e-14) * $v_T))) - #(-5.0980838539999997e+04) / $v_T)]
    [Asn v_Kc 0 (#2.1155734940000004e+00 + #(-9.7653312000000003e-01) * $v_logT + $v_T * (#3.1720192639214862e-04 + $v_T * (#1.4092792157300865e-08 + $v_T * (#(-6.4940309137373039e-12) + #5.2564500959013211e-16 * $v_T))) - #(-5.0832582000000002e+04) / $v_T)];
  (*31*) Do (Asn v_Kc 0 (#8.2057360967184814e-02 * (Exp $v_Kc)));
  (*32*) Do (Asn v_pres_mod_temp 0 (v_fwd_rates.[0] - v_rev_rates.[0]));
  (*33*) Do (Asn v_j_temp 0 ((- $v_mw_avg) * $v_rho_inv * v_pres_mod.[0] * (#3.0 * v_fwd_rates.[0] - #2.0 * v_rev_rates.[0])));
  (*34*) Do (Asn v_kf 0 ((Exp (#2.6937873935368604e+01 - #1.0 * $v_logT))));
  (*35*) Do (Asn v_kr 0 ($v_kf / $v_Kc));
  (*36*) Do (Asn v_jac 23 (#(-5.0000000000000000e-01) * ($v_j_temp * #9.2803892982949643e-01 + #1.9280389298294964e+00 * $v_pres_mod_temp)));
  (*37*) Do (Asn v_jac 24 (#(-7.9366827390519274e+00) * ($v_j_temp * #9.2803892982949643e-01 + #1.9280389298294964e+00 * $v_pres_mod_temp)));
  (*38*) Do (Asn v_jac 26 (#8.4366827390519266e+00 * ($v_j_temp * #9.2803892982949643e-01 + #1.9280389298294964e+00 * $v_pres_mod_temp)));
  (*39*) Do (Asn v_jac 44 ((- ($v_j_temp * #9.6401946491474821e-01 + #9.6401946491474821e-01 * $v_pres_mod_temp + v_pres_mod.[0] * ($v_kf * v_conc.[2])))));
  (*40*) Do (Asn v_jac 45 (#(-1.5873365478103855e+01) * ($v_j_temp * #9.6401946491474821e-01 + #9.6401946491474821e-01 * $v_pres_mod_temp + v_pres_mod.[0] * ($v_kf * v_conc.[2]))));
  (*41*) Do (Asn v_jac 47 (#1.6873365478103853e+01 * ($v_j_temp * #9.6401946491474821e-01 + #9.6401946491474821e-01 * $v_pres_mod_temp + v_pres_mod.[0] * ($v_kf * v_conc.[2]))));
  (*42*) Do (Asn v_jac 65 (#(-6.2998612447966798e-02) * ($v_j_temp * #4.2886781649405936e-01 + #4.2886781649405936e-01 * $v_pres_mod_temp + v_pres_mod.[0] * ($v_kf * v_conc.[1]))));
  (*43*) Do (Asn v_jac 66 ((- ($v_j_temp * #4.2886781649405936e-01 + #4.2886781649405936e-01 * $v_pres_mod_temp + v_pres_mod.[0] * ($v_kf * v_conc.[1])))));
  (*44*) Do (Asn v_jac 68 (#1.0629986124479667e+00 * ($v_j_temp * #4.2886781649405936e-01 + #4.2886781649405936e-01 * $v_pres_mod_temp + v_pres_mod.[0] * ($v_kf * v_conc.[1]))));
  (*45*) Do (Asn v_jac 86 (#(-3.1499306223983399e-02) * ($v_j_temp * #(-1.4226436701188128e-01) + #(-1.4226436701188128e-01) * $v_pres_mod_temp)));
  (*46*) Do (Asn v_jac 87 (#(-5.0000000000000000e-01) * ($v_j_temp * #(-1.4226436701188128e-01) + #(-1.4226436701188128e-01) * $v_pres_mod_temp)));
  (*47*) Do (Asn v_jac 89 (#5.3149930622398334e-01 * ($v_j_temp * #(-1.4226436701188128e-01) + #(-1.4226436701188128e-01) * $v_pres_mod_temp)));
  (*48*) Do (Asn v_jac 107 (#(-5.9264999700129481e-02) * ($v_j_temp * #3.9288728140880758e-01 + #3.9288728140880758e-01 * $v_pres_mod_temp + v_pres_mod.[0] * (- $v_kr))));
  (*49*) Do (Asn v_jac 108 (#(-9.4073500029987056e-01) * ($v_j_temp * #3.9288728140880758e-01 + #3.9288728140880758e-01 * $v_pres_mod_temp + v_pres_mod.[0] * (- $v_kr))));
  (*50*) Do (Asn v_jac 110 ($v_j_temp * #3.9288728140880758e-01 + #3.9288728140880758e-01 * $v_pres_mod_temp + v_pres_mod.[0] * (- $v_kr)));
  (*51*) Do (Asn v_jac 128 (#(-5.5949172036182618e-02) * ($v_j_temp * #3.5690674632355568e-01 + #5.3569067463235553e+00 * $v_pres_mod_temp)));
  (*52*) Do (Asn v_jac 129 (#(-8.8810165592763468e-01) * ($v_j_temp * #3.5690674632355568e-01 + #5.3569067463235553e+00 * $v_pres_mod_temp)));
  (*53*) Do (Asn v_jac 131 (#9.4405082796381734e-01 * ($v_j_temp * #3.5690674632355568e-01 + #5.3569067463235553e+00 * $v_pres_mod_temp)));
  (*54*) Do (Asn v_jac 149 (#(-3.0537399331166910e-02) * ($v_j_temp * #(-1.7824490209713328e-01) + #(-1.7824490209713328e-01) * $v_pres_mod_temp)));
  (*55*) Do (Asn v_jac 150 (#(-4.8473130033441653e-01) * ($v_j_temp * #(-1.7824490209713328e-01) + #(-1.7824490209713328e-01) * $v_pres_mod_temp)));
  (*56*) Do (Asn v_jac 152 (#5.1526869966558342e-01 * ($v_j_temp * #(-1.7824490209713328e-01) + #(-1.7824490209713328e-01) * $v_pres_mod_temp)));
  (*57*) Do (Asn v_jac 170 (#(-7.1857747410685777e-02) * ($v_j_temp * #4.9928106040377707e-01 + #4.9928106040377707e-01 * $v_pres_mod_temp)));
  (*58*) Do (Asn v_jac 171 (#(-1.1406242870830863e+00) * ($v_j_temp * #4.9928106040377707e-01 + #4.9928106040377707e-01 * $v_pres_mod_temp)));
  (*59*) Do (Asn v_jac 173 (#1.2124820344937721e+00 * ($v_j_temp * #4.9928106040377707e-01 + #4.9928106040377707e-01 * $v_pres_mod_temp)));
  (*60*) Do (Asn v_jac 191 (#(-7.1857747410685777e-02) * ($v_j_temp * #4.9928106040377707e-01 + #4.9928106040377707e-01 * $v_pres_mod_temp)));
  (*61*) Do (Asn v_jac 192 (#(-1.1406242870830863e+00) * ($v_j_temp * #4.9928106040377707e-01 + #4.9928106040377707e-01 * $v_pres_mod_temp)));
  (*62*) Do (Asn v_jac 194 (#1.2124820344937721e+00 * ($v_j_temp * #4.9928106040377707e-01 + #4.9928106040377707e-01 * $v_pres_mod_temp)));
  (*63*) Do (Asn v_jac 212 (#(-6.7040376938333812e-02) * ($v_j_temp * #4.6330052531852528e-01 + #4.6330052531852528e-01 * $v_pres_mod_temp)));
  (*64*) Do (Asn v_jac 213 (#(-1.0641564049320178e+00) * ($v_j_temp * #4.6330052531852528e-01 + #4.6330052531852528e-01 * $v_pres_mod_temp)));
  (*65*) Do (Asn v_jac 215 (#1.1311967818703517e+00 * ($v_j_temp * #4.6330052531852528e-01 + #4.6330052531852528e-01 * $v_pres_mod_temp)));
  (*66*) Do (Asn v_jac 233 (#(-6.2828341257988030e-02) * ($v_j_temp * #4.2731999023327338e-01 + #1.4273199902332734e+00 * $v_pres_mod_temp)));
  (*67*) Do (Asn v_jac 234 (#(-9.9729722317107516e-01) * ($v_j_temp * #4.2731999023327338e-01 + #1.4273199902332734e+00 * $v_pres_mod_temp)));
  (*68*) Do (Asn v_jac 236 (#1.0601255644290632e+00 * ($v_j_temp * #4.2731999023327338e-01 + #1.4273199902332734e+00 * $v_pres_mod_temp)));
  (*69*) Do (Asn v_jac 254 (#(-3.5984491474595155e-02) * ($v_j_temp * #1.0994706834011048e-04 + #5.0010994706834011e-01 * $v_pres_mod_temp)));
  (*70*) Do (Asn v_jac 255 (#(-5.7119498471996122e-01) * ($v_j_temp * #1.0994706834011048e-04 + #5.0010994706834011e-01 * $v_pres_mod_temp)));
  (*71*) Do (Asn v_jac 257 (#6.0717947619455637e-01 * ($v_j_temp * #1.0994706834011048e-04 + #5.0010994706834011e-01 * $v_pres_mod_temp)));
  (*72*) Do (Asn v_jac 275 (#(-2.2902626233248052e-02) * ($v_j_temp * #(-5.7102223643760053e-01) + #4.2897776356239947e-01 * $v_pres_mod_temp)));
  (*73*) Do (Asn v_jac 276 (#(-3.6354175660875532e-01) * ($v_j_temp * #(-5.7102223643760053e-01) + #4.2897776356239947e-01 * $v_pres_mod_temp)));
  (*74*) Do (Asn v_jac 278 (#3.8644438284200339e-01 * ($v_j_temp * #(-5.7102223643760053e-01) + #4.2897776356239947e-01 * $v_pres_mod_temp)));
  (*75*) Do (Asn v_jac 296 (#(-3.4734585093427126e-02) * ($v_j_temp * #(-3.5870588016911675e-02) + #(-3.5870588016911675e-02) * $v_pres_mod_temp)));
  (*76*) Do (Asn v_jac 297 (#(-5.5135476391826688e-01) * ($v_j_temp * #(-3.5870588016911675e-02) + #(-3.5870588016911675e-02) * $v_pres_mod_temp)));
  (*77*) Do (Asn v_jac 299 (#5.8608934901169396e-01 * ($v_j_temp * #(-3.5870588016911675e-02) + #(-3.5870588016911675e-02) * $v_pres_mod_temp)));
  (*78*) Do (Asn v_jac 317 (#(-3.3568593911733322e-02) * ($v_j_temp * #(-7.1851123102163683e-02) + #(-7.1851123102163683e-02) * $v_pres_mod_temp)));
  (*79*) Do (Asn v_jac 318 (#(-5.3284655974699491e-01) * ($v_j_temp * #(-7.1851123102163683e-02) + #(-7.1851123102163683e-02) * $v_pres_mod_temp)));
  (*80*) Do (Asn v_jac 320 (#5.6641515365872830e-01 * ($v_j_temp * #(-7.1851123102163683e-02) + #(-7.1851123102163683e-02) * $v_pres_mod_temp)));
  (*81*) Do (Asn v_jac 338 (#(-3.2478341649959309e-02) * ($v_j_temp * #(-1.0783165818741525e-01) + #(-1.0783165818741525e-01) * $v_pres_mod_temp)));
  (*82*) Do (Asn v_jac 339 (#(-5.1554058713252660e-01) * ($v_j_temp * #(-1.0783165818741525e-01) + #(-1.0783165818741525e-01) * $v_pres_mod_temp)));
  (*83*) Do (Asn v_jac 341 (#5.4801892878248593e-01 * ($v_j_temp * #(-1.0783165818741525e-01) + #(-1.0783165818741525e-01) * $v_pres_mod_temp)));
  (*84*) Do (Asn v_jac 359 (#(-3.5928873705342888e-02) * ($v_j_temp * #(-1.4378791924458678e-03) + #(-1.4378791924458678e-03) * $v_pres_mod_temp)));
  (*85*) Do (Asn v_jac 360 (#(-5.7031214354154314e-01) * ($v_j_temp * #(-1.4378791924458678e-03) + #(-1.4378791924458678e-03) * $v_pres_mod_temp)));
  (*86*) Do (Asn v_jac 362 (#6.0624101724688606e-01 * ($v_j_temp * #(-1.4378791924458678e-03) + #(-1.4378791924458678e-03) * $v_pres_mod_temp)));
  (*87*) Do (Asn v_jac 380 (#(-3.4682761159877090e-02) * ($v_j_temp * #(-3.7418414277697654e-02) + #(-3.7418414277697654e-02) * $v_pres_mod_temp)));
  (*88*) Do (Asn v_jac 381 (#(-5.5053214368051429e-01) * ($v_j_temp * #(-3.7418414277697654e-02) + #(-3.7418414277697654e-02) * $v_pres_mod_temp)));
  (*89*) Do (Asn v_jac 383 (#5.8521490484039129e-01 * ($v_j_temp * #(-3.7418414277697654e-02) + #(-3.7418414277697654e-02) * $v_pres_mod_temp)));
  (*90*) Do (Asn v_jac 401 (#(-3.3520188469166906e-02) * ($v_j_temp * #(-7.3398949362949439e-02) + #1.9266010506370506e+00 * $v_pres_mod_temp)));
  (*91*) Do (Asn v_jac 402 (#(-5.3207820246600890e-01) * ($v_j_temp * #(-7.3398949362949439e-02) + #1.9266010506370506e+00 * $v_pres_mod_temp)));
  (*92*) Do (Asn v_jac 404 (#5.6559839093517583e-01 * ($v_j_temp * #(-7.3398949362949439e-02) + #1.9266010506370506e+00 * $v_pres_mod_temp)));
  (*93*) Do (Asn v_jac 422 (#(-2.5231300690898170e-02) * ($v_j_temp * #(-4.2602775520927771e-01) + #(-7.2602775520927776e-01) * $v_pres_mod_temp)));
  (*94*) Do (Asn v_jac 423 (#(-4.0050565735456090e-01) * ($v_j_temp * #(-4.2602775520927771e-01) + #(-7.2602775520927776e-01) * $v_pres_mod_temp)));
  (*95*) Do (Asn v_jac 425 (#4.2573695804545908e-01 * ($v_j_temp * #(-4.2602775520927771e-01) + #(-7.2602775520927776e-01) * $v_pres_mod_temp)))]);
([
  (*98*) Do (Asn v_j_temp 0 (#1.0 / $v_T * ((v_fwd_rates.[1] - v_rev_rates.[1]) * (#2.6699999999999999e+00 + #3.1652510629641329e+03 / $v_T) + v_fwd_rates.[1] * #(-1.0) - v_rev_rates.[1] * (#(-1.0) + (- $v_T) * (v_dBdT.[1] + v_dBdT.[4] - v_dBdT.[0] - v_dBdT.[2]))) * $v_rho_inv));
  (*99*) Do (Asn v_jac 1 ((- $v_j_temp) * #2.0158800000000001e+00));
  (*100*) Do (AddA v_jac 2 ($v_j_temp * #1.0079400000000001e+00));
  (*101*) Do (AddA v_jac 3 ((- $v_j_temp) * #1.5999400000000000e+01));
  (*102*) Do (AddA v_jac 5 ($v_j_temp * #1.7007339999999999e+01))],
[
  (*105*) If ($v_T) (#1000.0)
    [Asn v_Kc 0 (#(-4.2649692190000001e+00) + #9.7941720999999982e-01 * $v_logT + $v_T * (#(-3.5512597146473328e-03) + $v_T * (#2.9088375746673469e-06 + $v_T * (#(-1.4925230406415989e-09) + #3.3137862995361342e-13 * $v_T))) - #8.8441643299999987e+02 / $v_T)]
    [Asn v_Kc 0 (#2.7645101560000001e+00 + #(-3.1381229999999993e-01) * $v_logT + $v_T * (#3.4190313985785133e-04 + $v_T * (#(-6.9149998790634198e-08) + $v_T * (#8.4698344637373041e-12 + #(-4.7563182059013212e-16) * $v_T))) - #1.0648967219999986e+03 / $v_T)];
  (*111*) Do (Asn v_Kc 0 ((Exp $v_Kc)));
  (*112*) Do (Asn v_j_temp 0 ((- $v_mw_avg) * $v_rho_inv * (#2.0 * v_fwd_rates.[1] - #2.0 * v_rev_rates.[1])));
  (*113*) Do (Asn v_kf 0 ((Exp (#3.9120230054281460e+00 + #2.67 * $v_logT - #3.1652510629641329e+03 / $v_T))));
  (*114*) Do (Asn v_kr 0 ($v_kf / $v_Kc));
  (*115*) Do (Asn v_jac 22 ((- ($v_j_temp * #9.2803892982949643e-01 + $v_kf * v_conc.[2]))));
  (*116*) Do (AddA v_jac 23 (#5.0000000000000000e-01 * ($v_j_temp * #9.2803892982949643e-01 + $v_kf * v_conc.[2])));
  (*117*) Do (AddA v_jac 24 (#(-7.9366827390519274e+00) * ($v_j_temp * #9.2803892982949643e-01 + $v_kf * v_conc.[2])));
  (*118*) Do (AddA v_jac 26 (#8.4366827390519266e+00 * ($v_j_temp * #9.2803892982949643e-01 + $v_kf * v_conc.[2])));
  (*119*) Do (Asn v_jac 43 (#(-2.0000000000000000e+00) * ($v_j_temp * #9.6401946491474821e-01 - $v_kr * v_conc.[4])));
  (*120*) Do (AddA v_jac 44 ($v_j_temp * #9.6401946491474821e-01 - $v_kr * v_conc.[4]));
  (*121*) Do (AddA v_jac 45 (#(-1.5873365478103855e+01) * ($v_j_temp * #9.6401946491474821e-01 - $v_kr * v_conc.[4])));
  (*122*) Do (AddA v_jac 47 (#1.6873365478103853e+01 * ($v_j_temp * #9.6401946491474821e-01 - $v_kr * v_conc.[4])));
  (*123*) Do (Asn v_jac 64 (#(-1.2599722489593360e-01) * ($v_j_temp * #4.2886781649405936e-01 + $v_kf * v_conc.[0])));
  (*124*) Do (AddA v_jac 65 (#6.2998612447966798e-02 * ($v_j_temp * #4.2886781649405936e-01 + $v_kf * v_conc.[0])));
  (*125*) Do (AddA v_jac 66 ((- ($v_j_temp * #4.2886781649405936e-01 + $v_kf * v_conc.[0]))));
  (*126*) Do (AddA v_jac 68 (#1.0629986124479667e+00 * ($v_j_temp * #4.2886781649405936e-01 + $v_kf * v_conc.[0])));
  (*127*) Do (Asn v_jac 85 (#(-6.2998612447966798e-02) * ($v_j_temp * #(-1.4226436701188128e-01))));
  (*128*) Do (AddA v_jac 86 (#3.1499306223983399e-02 * ($v_j_temp * #(-1.4226436701188128e-01))));
  (*129*) Do (AddA v_jac 87 (#(-5.0000000000000000e-01) * ($v_j_temp * #(-1.4226436701188128e-01))));
  (*130*) Do (AddA v_jac 89 (#5.3149930622398334e-01 * ($v_j_temp * #(-1.4226436701188128e-01))));
  (*131*) Do (Asn v_jac 106 (#(-1.1852999940025896e-01) * ($v_j_temp * #3.9288728140880758e-01 - $v_kr * v_conc.[1])));
  (*132*) Do (AddA v_jac 107 (#5.9264999700129481e-02 * ($v_j_temp * #3.9288728140880758e-01 - $v_kr * v_conc.[1])));
  (*133*) Do (AddA v_jac 108 (#(-9.4073500029987056e-01) * ($v_j_temp * #3.9288728140880758e-01 - $v_kr * v_conc.[1])));
  (*134*) Do (AddA v_jac 110 ($v_j_temp * #3.9288728140880758e-01 - $v_kr * v_conc.[1]));
  (*135*) Do (Asn v_jac 127 (#(-1.1189834407236524e-01) * ($v_j_temp * #3.5690674632355568e-01)));
  (*136*) Do (AddA v_jac 128 (#5.5949172036182618e-02 * ($v_j_temp * #3.5690674632355568e-01)));
  (*137*) Do (AddA v_jac 129 (#(-8.8810165592763468e-01) * ($v_j_temp * #3.5690674632355568e-01)));
  (*138*) Do (AddA v_jac 131 (#9.4405082796381734e-01 * ($v_j_temp * #3.5690674632355568e-01)));
  (*139*) Do (Asn v_jac 148 (#(-6.1074798662333819e-02) * ($v_j_temp * #(-1.7824490209713328e-01))));
  (*140*) Do (AddA v_jac 149 (#3.0537399331166910e-02 * ($v_j_temp * #(-1.7824490209713328e-01))));
  (*141*) Do (AddA v_jac 150 (#(-4.8473130033441653e-01) * ($v_j_temp * #(-1.7824490209713328e-01))));
  (*142*) Do (AddA v_jac 152 (#5.1526869966558342e-01 * ($v_j_temp * #(-1.7824490209713328e-01))));
  (*143*) Do (Asn v_jac 169 (#(-1.4371549482137155e-01) * ($v_j_temp * #4.9928106040377707e-01)));
  (*144*) Do (AddA v_jac 170 (#7.1857747410685777e-02 * ($v_j_temp * #4.9928106040377707e-01)));
  (*145*) Do (AddA v_jac 171 (#(-1.1406242870830863e+00) * ($v_j_temp * #4.9928106040377707e-01)));
  (*146*) Do (AddA v_jac 173 (#1.2124820344937721e+00 * ($v_j_temp * #4.9928106040377707e-01)));
  (*147*) Do (Asn v_jac 190 (#(-1.4371549482137155e-01) * ($v_j_temp * #4.9928106040377707e-01)));
  (*148*) Do (AddA v_jac 191 (#7.1857747410685777e-02 * ($v_j_temp * #4.9928106040377707e-01)));
  (*149*) Do (AddA v_jac 192 (#(-1.1406242870830863e+00) * ($v_j_temp * #4.9928106040377707e-01)));
  (*150*) Do (AddA v_jac 194 (#1.2124820344937721e+00 * ($v_j_temp * #4.9928106040377707e-01)));
  (*151*) Do (Asn v_jac 211 (#(-1.3408075387666762e-01) * ($v_j_temp * #4.6330052531852528e-01)));
  (*152*) Do (AddA v_jac 212 (#6.7040376938333812e-02 * ($v_j_temp * #4.6330052531852528e-01)));
  (*153*) Do (AddA v_jac 213 (#(-1.0641564049320178e+00) * ($v_j_temp * #4.6330052531852528e-01)));
  (*154*) Do (AddA v_jac 215 (#1.1311967818703517e+00 * ($v_j_temp * #4.6330052531852528e-01)));
  (*155*) Do (Asn v_jac 232 (#(-1.2565668251597606e-01) * ($v_j_temp * #4.2731999023327338e-01)));
  (*156*) Do (AddA v_jac 233 (#6.2828341257988030e-02 * ($v_j_temp * #4.2731999023327338e-01)));
  (*157*) Do (AddA v_jac 234 (#(-9.9729722317107516e-01) * ($v_j_temp * #4.2731999023327338e-01)));
  (*158*) Do (AddA v_jac 236 (#1.0601255644290632e+00 * ($v_j_temp * #4.2731999023327338e-01)));
  (*159*) Do (Asn v_jac 253 (#(-7.1968982949190310e-02) * ($v_j_temp * #1.0994706834011048e-04)));
  (*160*) Do (AddA v_jac 254 (#3.5984491474595155e-02 * ($v_j_temp * #1.0994706834011048e-04)));
  (*161*) Do (AddA v_jac 255 (#(-5.7119498471996122e-01) * ($v_j_temp * #1.0994706834011048e-04)));
  (*162*) Do (AddA v_jac 257 (#6.0717947619455637e-01 * ($v_j_temp * #1.0994706834011048e-04)));
  (*163*) Do (Asn v_jac 274 (#(-4.5805252466496103e-02) * ($v_j_temp * #(-5.7102223643760053e-01))));
  (*164*) Do (AddA v_jac 275 (#2.2902626233248052e-02 * ($v_j_temp * #(-5.7102223643760053e-01))));
  (*165*) Do (AddA v_jac 276 (#(-3.6354175660875532e-01) * ($v_j_temp * #(-5.7102223643760053e-01))));
  (*166*) Do (AddA v_jac 278 (#3.8644438284200339e-01 * ($v_j_temp * #(-5.7102223643760053e-01))));
  (*167*) Do (Asn v_jac 295 (#(-6.9469170186854251e-02) * ($v_j_temp * #(-3.5870588016911675e-02))));
  (*168*) Do (AddA v_jac 296 (#3.4734585093427126e-02 * ($v_j_temp * #(-3.5870588016911675e-02))));
  (*169*) Do (AddA v_jac 297 (#(-5.5135476391826688e-01) * ($v_j_temp * #(-3.5870588016911675e-02))));
  (*170*) Do (AddA v_jac 299 (#5.8608934901169396e-01 * ($v_j_temp * #(-3.5870588016911675e-02))));
  (*171*) Do (Asn v_jac 316 (#(-6.7137187823466643e-02) * ($v_j_temp * #(-7.1851123102163683e-02))));
  (*172*) Do (AddA v_jac 317 (#3.3568593911733322e-02 * ($v_j_temp * #(-7.1851123102163683e-02))));
  (*173*) Do (AddA v_jac 318 (#(-5.3284655974699491e-01) * ($v_j_temp * #(-7.1851123102163683e-02))));
  (*174*) Do (AddA v_jac 320 (#5.6641515365872830e-01 * ($v_j_temp * #(-7.1851123102163683e-02))));
  (*175*) Do (Asn v_jac 337 (#(-6.4956683299918619e-02) * ($v_j_temp * #(-1.0783165818741525e-01))));
  (*176*) Do (AddA v_jac 338 (#3.2478341649959309e-02 * ($v_j_temp * #(-1.0783165818741525e-01))));
  (*177*) Do (AddA v_jac 339 (#(-5.1554058713252660e-01) * ($v_j_temp * #(-1.0783165818741525e-01))));
  (*178*) Do (AddA v_jac 341 (#5.4801892878248593e-01 * ($v_j_temp * #(-1.0783165818741525e-01))));
  (*179*) Do (Asn v_jac 358 (#(-7.1857747410685777e-02) * ($v_j_temp * #(-1.4378791924458678e-03))));
  (*180*) Do (AddA v_jac 359 (#3.5928873705342888e-02 * ($v_j_temp * #(-1.4378791924458678e-03))));
  (*181*) Do (AddA v_jac 360 (#(-5.7031214354154314e-01) * ($v_j_temp * #(-1.4378791924458678e-03))));
  (*182*) Do (AddA v_jac 362 (#6.0624101724688606e-01 * ($v_j_temp * #(-1.4378791924458678e-03))));
  (*183*) Do (Asn v_jac 379 (#(-6.9365522319754180e-02) * ($v_j_temp * #(-3.7418414277697654e-02))));
  (*184*) Do (AddA v_jac 380 (#3.4682761159877090e-02 * ($v_j_temp * #(-3.7418414277697654e-02))));
  (*185*) Do (AddA v_jac 381 (#(-5.5053214368051429e-01) * ($v_j_temp * #(-3.7418414277697654e-02))));
  (*186*) Do (AddA v_jac 383 (#5.8521490484039129e-01 * ($v_j_temp * #(-3.7418414277697654e-02))));
  (*187*) Do (Asn v_jac 400 (#(-6.7040376938333812e-02) * ($v_j_temp * #(-7.3398949362949439e-02))));
  (*188*) Do (AddA v_jac 401 (#3.3520188469166906e-02 * ($v_j_temp * #(-7.3398949362949439e-02))));
  (*189*) Do (AddA v_jac 402 (#(-5.3207820246600890e-01) * ($v_j_temp * #(-7.3398949362949439e-02))));
  (*190*) Do (AddA v_jac 404 (#5.6559839093517583e-01 * ($v_j_temp * #(-7.3398949362949439e-02))));
  (*191*) Do (Asn v_jac 421 (#(-5.0462601381796340e-02) * ($v_j_temp * #(-4.2602775520927771e-01))));
  (*192*) Do (AddA v_jac 422 (#2.5231300690898170e-02 * ($v_j_temp * #(-4.2602775520927771e-01))));
  (*193*) Do (AddA v_jac 423 (#(-4.0050565735456090e-01) * ($v_j_temp * #(-4.2602775520927771e-01))));
  (*194*) Do (AddA v_jac 425 (#4.2573695804545908e-01 * ($v_j_temp * #(-4.2602775520927771e-01))))]);
([
  (*197*) Do (Asn v_j_temp 0 (#1.0 / $v_T * (v_fwd_rates.[2] * #(-1.0) - v_rev_rates.[2] * (#(-1.0) + (- $v_T) * (v_dBdT.[3] + v_dBdT.[4] - v_dBdT.[6] - v_dBdT.[2]))) * $v_rho_inv));
  (*198*) Do (AddA v_jac 3 ((- $v_j_temp) * #1.5999400000000000e+01));
  (*199*) Do (Asn v_jac 4 ($v_j_temp * #3.1998799999999999e+01));
  (*200*) Do (AddA v_jac 5 ($v_j_temp * #1.7007339999999999e+01));
  (*201*) Do (Asn v_jac 7 ((- $v_j_temp) * #3.3006740000000001e+01))],
[
  (*204*) If ($v_T) (#1000.0)
    [Asn v_Kc 0 (#(-2.5192523180000004e+00) + #3.0440668000000004e-01 * $v_logT + $v_T * (#1.3151938349999998e-03 + $v_T * (#(-2.2226854399999996e-06) + $v_T * (#1.4035022683333334e-09 + #(-3.3985339400000004e-13) * $v_T))) - #(-2.6865930240000002e+04) / $v_T)]
    [Asn v_Kc 0 (#1.5716927700000003e+00 + #(-2.1120617000000053e-01) * $v_logT + $v_T * (#(-6.1164380150000074e-05) + $v_T * (#(-6.6252916499999993e-09) + $v_T * (#1.4413174416666625e-12 + #(-1.8401260499999993e-17) * $v_T))) - #(-2.6559236532999999e+04) / $v_T)];
  (*210*) Do (Asn v_Kc 0 ((Exp $v_Kc)));
  (*211*) Do (Asn v_j_temp 0 ((- $v_mw_avg) * $v_rho_inv * (#2.0 * v_fwd_rates.[2] - #2.0 * v_rev_rates.[2])));
  (*212*) Do (Asn v_kf 0 (#20000000000.0));
  (*213*) Do (Asn v_kr 0 ($v_kf / $v_Kc));
  (*214*) Do (AddA v_jac 24 (#(-7.9366827390519274e+00) * ($v_j_temp * #9.2803892982949643e-01)));
  (*215*) Do (Asn v_jac 25 (#1.5873365478103855e+01 * ($v_j_temp * #9.2803892982949643e-01)));
  (*216*) Do (AddA v_jac 26 (#8.4366827390519266e+00 * ($v_j_temp * #9.2803892982949643e-01)));
  (*217*) Do (Asn v_jac 28 (#(-1.6373365478103853e+01) * ($v_j_temp * #9.2803892982949643e-01)));
  (*218*) Do (AddA v_jac 45 (#(-1.5873365478103855e+01) * ($v_j_temp * #9.6401946491474821e-01)));
  (*219*) Do (Asn v_jac 46 (#3.1746730956207710e+01 * ($v_j_temp * #9.6401946491474821e-01)));
  (*220*) Do (AddA v_jac 47 (#1.6873365478103853e+01 * ($v_j_temp * #9.6401946491474821e-01)));
  (*221*) Do (Asn v_jac 49 (#(-3.2746730956207706e+01) * ($v_j_temp * #9.6401946491474821e-01)));
  (*222*) Do (AddA v_jac 66 ((- ($v_j_temp * #4.2886781649405936e-01 + $v_kf * v_conc.[6]))));
  (*223*) Do (Asn v_jac 67 (#2.0000000000000000e+00 * ($v_j_temp * #4.2886781649405936e-01 + $v_kf * v_conc.[6])));
  (*224*) Do (AddA v_jac 68 (#1.0629986124479667e+00 * ($v_j_temp * #4.2886781649405936e-01 + $v_kf * v_conc.[6])));
  (*225*) Do (Asn v_jac 70 (#(-2.0629986124479669e+00) * ($v_j_temp * #4.2886781649405936e-01 + $v_kf * v_conc.[6])));
  (*226*) Do (AddA v_jac 87 (#(-5.0000000000000000e-01) * ($v_j_temp * #(-1.4226436701188128e-01) - $v_kr * v_conc.[4])));
  (*227*) Do (Asn v_jac 88 ($v_j_temp * #(-1.4226436701188128e-01) - $v_kr * v_conc.[4]));
  (*228*) Do (AddA v_jac 89 (#5.3149930622398334e-01 * ($v_j_temp * #(-1.4226436701188128e-01) - $v_kr * v_conc.[4])));
  (*229*) Do (Asn v_jac 91 (#(-1.0314993062239834e+00) * ($v_j_temp * #(-1.4226436701188128e-01) - $v_kr * v_conc.[4])));
  (*230*) Do (AddA v_jac 108 (#(-9.4073500029987056e-01) * ($v_j_temp * #3.9288728140880758e-01 - $v_kr * v_conc.[3])));
  (*231*) Do (Asn v_jac 109 (#1.8814700005997411e+00 * ($v_j_temp * #3.9288728140880758e-01 - $v_kr * v_conc.[3])));
  (*232*) Do (AddA v_jac 110 ($v_j_temp * #3.9288728140880758e-01 - $v_kr * v_conc.[3]));
  (*233*) Do (Asn v_jac 112 (#(-1.9407350002998707e+00) * ($v_j_temp * #3.9288728140880758e-01 - $v_kr * v_conc.[3])));
  (*234*) Do (AddA v_jac 129 (#(-8.8810165592763468e-01) * ($v_j_temp * #3.5690674632355568e-01)));
  (*235*) Do (Asn v_jac 130 (#1.7762033118552694e+00 * ($v_j_temp * #3.5690674632355568e-01)));
  (*236*) Do (AddA v_jac 131 (#9.4405082796381734e-01 * ($v_j_temp * #3.5690674632355568e-01)));
  (*237*) Do (Asn v_jac 133 (#(-1.8321524838914520e+00) * ($v_j_temp * #3.5690674632355568e-01)));
  (*238*) Do (AddA v_jac 150 (#(-4.8473130033441653e-01) * ($v_j_temp * #(-1.7824490209713328e-01) + $v_kf * v_conc.[2])));
  (*239*) Do (Asn v_jac 151 (#9.6946260066883305e-01 * ($v_j_temp * #(-1.7824490209713328e-01) + $v_kf * v_conc.[2])));
  (*240*) Do (AddA v_jac 152 (#5.1526869966558342e-01 * ($v_j_temp * #(-1.7824490209713328e-01) + $v_kf * v_conc.[2])));
  (*241*) Do (Asn v_jac 154 ((- ($v_j_temp * #(-1.7824490209713328e-01) + $v_kf * v_conc.[2]))));
  (*242*) Do (AddA v_jac 171 (#(-1.1406242870830863e+00) * ($v_j_temp * #4.9928106040377707e-01)));
  (*243*) Do (Asn v_jac 172 (#2.2812485741661725e+00 * ($v_j_temp * #4.9928106040377707e-01)));
  (*244*) Do (AddA v_jac 173 (#1.2124820344937721e+00 * ($v_j_temp * #4.9928106040377707e-01)));
  (*245*) Do (Asn v_jac 175 (#(-2.3531063215768584e+00) * ($v_j_temp * #4.9928106040377707e-01)));
  (*246*) Do (AddA v_jac 192 (#(-1.1406242870830863e+00) * ($v_j_temp * #4.9928106040377707e-01)));
  (*247*) Do (Asn v_jac 193 (#2.2812485741661725e+00 * ($v_j_temp * #4.9928106040377707e-01)));
  (*248*) Do (AddA v_jac 194 (#1.2124820344937721e+00 * ($v_j_temp * #4.9928106040377707e-01)));
  (*249*) Do (Asn v_jac 196 (#(-2.3531063215768584e+00) * ($v_j_temp * #4.9928106040377707e-01)));
  (*250*) Do (AddA v_jac 213 (#(-1.0641564049320178e+00) * ($v_j_temp * #4.6330052531852528e-01)));
  (*251*) Do (Asn v_jac 214 (#2.1283128098640356e+00 * ($v_j_temp * #4.6330052531852528e-01)));
  (*252*) Do (AddA v_jac 215 (#1.1311967818703517e+00 * ($v_j_temp * #4.6330052531852528e-01)));
  (*253*) Do (Asn v_jac 217 (#(-2.1953531868023695e+00) * ($v_j_temp * #4.6330052531852528e-01)));
  (*254*) Do (AddA v_jac 234 (#(-9.9729722317107516e-01) * ($v_j_temp * #4.2731999023327338e-01)));
  (*255*) Do (Asn v_jac 235 (#1.9945944463421503e+00 * ($v_j_temp * #4.2731999023327338e-01)));
  (*256*) Do (AddA v_jac 236 (#1.0601255644290632e+00 * ($v_j_temp * #4.2731999023327338e-01)));
  (*257*) Do (Asn v_jac 238 (#(-2.0574227876001383e+00) * ($v_j_temp * #4.2731999023327338e-01)));
  (*258*) Do (AddA v_jac 255 (#(-5.7119498471996122e-01) * ($v_j_temp * #1.0994706834011048e-04)));
  (*259*) Do (Asn v_jac 256 (#1.1423899694399224e+00 * ($v_j_temp * #1.0994706834011048e-04)));
  (*260*) Do (AddA v_jac 257 (#6.0717947619455637e-01 * ($v_j_temp * #1.0994706834011048e-04)));
  (*261*) Do (Asn v_jac 259 (#(-1.1783744609145177e+00) * ($v_j_temp * #1.0994706834011048e-04)));
  (*262*) Do (AddA v_jac 276 (#(-3.6354175660875532e-01) * ($v_j_temp * #(-5.7102223643760053e-01))));
  (*263*) Do (Asn v_jac 277 (#7.2708351321751064e-01 * ($v_j_temp * #(-5.7102223643760053e-01))));
  (*264*) Do (AddA v_jac 278 (#3.8644438284200339e-01 * ($v_j_temp * #(-5.7102223643760053e-01))));
  (*265*) Do (Asn v_jac 280 (#(-7.4998613945075876e-01) * ($v_j_temp * #(-5.7102223643760053e-01))));
  (*266*) Do (AddA v_jac 297 (#(-5.5135476391826688e-01) * ($v_j_temp * #(-3.5870588016911675e-02))));
  (*267*) Do (Asn v_jac 298 (#1.1027095278365338e+00 * ($v_j_temp * #(-3.5870588016911675e-02))));
  (*268*) Do (AddA v_jac 299 (#5.8608934901169396e-01 * ($v_j_temp * #(-3.5870588016911675e-02))));
  (*269*) Do (Asn v_jac 301 (#(-1.1374441129299608e+00) * ($v_j_temp * #(-3.5870588016911675e-02))));
  (*270*) Do (AddA v_jac 318 (#(-5.3284655974699491e-01) * ($v_j_temp * #(-7.1851123102163683e-02))));
  (*271*) Do (Asn v_jac 319 (#1.0656931194939898e+00 * ($v_j_temp * #(-7.1851123102163683e-02))));
  (*272*) Do (AddA v_jac 320 (#5.6641515365872830e-01 * ($v_j_temp * #(-7.1851123102163683e-02))));
  (*273*) Do (Asn v_jac 322 (#(-1.0992617134057232e+00) * ($v_j_temp * #(-7.1851123102163683e-02))));
  (*274*) Do (AddA v_jac 339 (#(-5.1554058713252660e-01) * ($v_j_temp * #(-1.0783165818741525e-01))));
  (*275*) Do (Asn v_jac 340 (#1.0310811742650532e+00 * ($v_j_temp * #(-1.0783165818741525e-01))));
  (*276*) Do (AddA v_jac 341 (#5.4801892878248593e-01 * ($v_j_temp * #(-1.0783165818741525e-01))));
  (*277*) Do (Asn v_jac 343 (#(-1.0635595159150126e+00) * ($v_j_temp * #(-1.0783165818741525e-01))));
  (*278*) Do (AddA v_jac 360 (#(-5.7031214354154314e-01) * ($v_j_temp * #(-1.4378791924458678e-03))));
  (*279*) Do (Asn v_jac 361 (#1.1406242870830863e+00 * ($v_j_temp * #(-1.4378791924458678e-03))));
  (*280*) Do (AddA v_jac 362 (#6.0624101724688606e-01 * ($v_j_temp * #(-1.4378791924458678e-03))));
  (*281*) Do (Asn v_jac 364 (#(-1.1765531607884292e+00) * ($v_j_temp * #(-1.4378791924458678e-03))));
  (*282*) Do (AddA v_jac 381 (#(-5.5053214368051429e-01) * ($v_j_temp * #(-3.7418414277697654e-02))));
  (*283*) Do (Asn v_jac 382 (#1.1010642873610286e+00 * ($v_j_temp * #(-3.7418414277697654e-02))));
  (*284*) Do (AddA v_jac 383 (#5.8521490484039129e-01 * ($v_j_temp * #(-3.7418414277697654e-02))));
  (*285*) Do (Asn v_jac 385 (#(-1.1357470485209056e+00) * ($v_j_temp * #(-3.7418414277697654e-02))));
  (*286*) Do (AddA v_jac 402 (#(-5.3207820246600890e-01) * ($v_j_temp * #(-7.3398949362949439e-02))));
  (*287*) Do (Asn v_jac 403 (#1.0641564049320178e+00 * ($v_j_temp * #(-7.3398949362949439e-02))));
  (*288*) Do (AddA v_jac 404 (#5.6559839093517583e-01 * ($v_j_temp * #(-7.3398949362949439e-02))));
  (*289*) Do (Asn v_jac 406 (#(-1.0976765934011847e+00) * ($v_j_temp * #(-7.3398949362949439e-02))));
  (*290*) Do (AddA v_jac 423 (#(-4.0050565735456090e-01) * ($v_j_temp * #(-4.2602775520927771e-01))));
  (*291*) Do (Asn v_jac 424 (#8.0101131470912179e-01 * ($v_j_temp * #(-4.2602775520927771e-01))));
  (*292*) Do (AddA v_jac 425 (#4.2573695804545908e-01 * ($v_j_temp * #(-4.2602775520927771e-01))));
  (*293*) Do (Asn v_jac 427 (#(-8.2624261540002009e-01) * ($v_j_temp * #(-4.2602775520927771e-01))))]);
([
  (*296*) Do (Asn v_j_temp 0 (#1.0 / $v_T * (v_fwd_rates.[3] * #(-1.0) - v_rev_rates.[3] * (#(-1.0) + (- $v_T) * (v_dBdT.[1] + v_dBdT.[13] - v_dBdT.[7] - v_dBdT.[2]))) * $v_rho_inv));
  (*297*) Do (AddA v_jac 2 ($v_j_temp * #1.0079400000000001e+00));
  (*298*) Do (AddA v_jac 3 ((- $v_j_temp) * #1.5999400000000000e+01));
  (*299*) Do (Asn v_jac 14 ($v_j_temp * #2.9018339999999998e+01));
  (*300*) Do (Asn v_jac 8 ((- $v_j_temp) * #1.4026879999999998e+01))],
[
  (*303*) If ($v_T) (#1000.0)
    [Asn v_Kc 0 (#(-4.5701580300000000e-01) + #(-2.0975992999999971e-01) * $v_logT + $v_T * (#(-4.6673931114733357e-04) + $v_T * (#7.2366370466734655e-07 + $v_T * (#(-2.7795262730826530e-10) + #2.6880587453613394e-14 * $v_T))) - #(-4.5813074439999997e+04) / $v_T)]
    [Asn v_Kc 0 (#(-1.4325223539999992e+00) + #(-1.7134752000000031e-01) * $v_logT + $v_T * (#6.9326821530785111e-04 + $v_T * (#(-1.8624310045730086e-07) + $v_T * (#2.8250000347070641e-11 + #(-1.7903225405901325e-15) * $v_T))) - #(-4.5995605049999998e+04) / $v_T)];
  (*309*) Do (Asn v_Kc 0 ((Exp $v_Kc)));
  (*310*) Do (Asn v_j_temp 0 ((- $v_mw_avg) * $v_rho_inv * (#2.0 * v_fwd_rates.[3] - #2.0 * v_rev_rates.[3])));
  (*311*) Do (Asn v_kf 0 (#80000000000.0));
  (*312*) Do (Asn v_kr 0 ($v_kf / $v_Kc));
  (*313*) Do (AddA v_jac 23 (#5.0000000000000000e-01 * ($v_j_temp * #9.2803892982949643e-01)));
  (*314*) Do (AddA v_jac 24 (#(-7.9366827390519274e+00) * ($v_j_temp * #9.2803892982949643e-01)));
  (*315*) Do (Asn v_jac 35 (#1.4394874694922315e+01 * ($v_j_temp * #9.2803892982949643e-01)));
  (*316*) Do (Asn v_jac 29 (#(-6.9581919558703875e+00) * ($v_j_temp * #9.2803892982949643e-01)));
  (*317*) Do (AddA v_jac 44 ($v_j_temp * #9.6401946491474821e-01 - $v_kr * v_conc.[13]));
  (*318*) Do (AddA v_jac 45 (#(-1.5873365478103855e+01) * ($v_j_temp * #9.6401946491474821e-01 - $v_kr * v_conc.[13])));
  (*319*) Do (Asn v_jac 56 (#2.8789749389844630e+01 * ($v_j_temp * #9.6401946491474821e-01 - $v_kr * v_conc.[13])));
  (*320*) Do (Asn v_jac 50 (#(-1.3916383911740775e+01) * ($v_j_temp * #9.6401946491474821e-01 - $v_kr * v_conc.[13])));
  (*321*) Do (AddA v_jac 65 (#6.2998612447966798e-02 * ($v_j_temp * #4.2886781649405936e-01 + $v_kf * v_conc.[7])));
  (*322*) Do (AddA v_jac 66 ((- ($v_j_temp * #4.2886781649405936e-01 + $v_kf * v_conc.[7]))));
  (*323*) Do (Asn v_jac 77 (#1.8137142642849107e+00 * ($v_j_temp * #4.2886781649405936e-01 + $v_kf * v_conc.[7])));
  (*324*) Do (Asn v_jac 71 (#(-8.7671287673287746e-01) * ($v_j_temp * #4.2886781649405936e-01 + $v_kf * v_conc.[7])));
  (*325*) Do (AddA v_jac 86 (#3.1499306223983399e-02 * ($v_j_temp * #(-1.4226436701188128e-01))));
  (*326*) Do (AddA v_jac 87 (#(-5.0000000000000000e-01) * ($v_j_temp * #(-1.4226436701188128e-01))));
  (*327*) Do (Asn v_jac 98 (#9.0685713214245534e-01 * ($v_j_temp * #(-1.4226436701188128e-01))));
  (*328*) Do (Asn v_jac 92 (#(-4.3835643836643873e-01) * ($v_j_temp * #(-1.4226436701188128e-01))));
  (*329*) Do (AddA v_jac 107 (#5.9264999700129481e-02 * ($v_j_temp * #3.9288728140880758e-01)));
  (*330*) Do (AddA v_jac 108 (#(-9.4073500029987056e-01) * ($v_j_temp * #3.9288728140880758e-01)));
  (*331*) Do (Asn v_jac 119 (#1.7062244889559448e+00 * ($v_j_temp * #3.9288728140880758e-01)));
  (*332*) Do (Asn v_jac 113 (#(-8.2475448835620380e-01) * ($v_j_temp * #3.9288728140880758e-01)));
  (*333*) Do (AddA v_jac 128 (#5.5949172036182618e-02 * ($v_j_temp * #3.5690674632355568e-01)));
  (*334*) Do (AddA v_jac 129 (#(-8.8810165592763468e-01) * ($v_j_temp * #3.5690674632355568e-01)));
  (*335*) Do (Asn v_jac 140 (#1.6107626414910008e+00 * ($v_j_temp * #3.5690674632355568e-01)));
  (*336*) Do (Asn v_jac 134 (#(-7.7861015759954877e-01) * ($v_j_temp * #3.5690674632355568e-01)));
  (*337*) Do (AddA v_jac 149 (#3.0537399331166910e-02 * ($v_j_temp * #(-1.7824490209713328e-01))));
  (*338*) Do (AddA v_jac 150 (#(-4.8473130033441653e-01) * ($v_j_temp * #(-1.7824490209713328e-01))));
  (*339*) Do (Asn v_jac 161 (#8.7916407376190431e-01 * ($v_j_temp * #(-1.7824490209713328e-01))));
  (*340*) Do (Asn v_jac 155 (#(-4.2497017275865467e-01) * ($v_j_temp * #(-1.7824490209713328e-01))));
  (*341*) Do (AddA v_jac 170 (#7.1857747410685777e-02 * ($v_j_temp * #4.9928106040377707e-01 + $v_kf * v_conc.[2])));
  (*342*) Do (AddA v_jac 171 (#(-1.1406242870830863e+00) * ($v_j_temp * #4.9928106040377707e-01 + $v_kf * v_conc.[2])));
  (*343*) Do (Asn v_jac 182 (#2.0687665396724007e+00 * ($v_j_temp * #4.9928106040377707e-01 + $v_kf * v_conc.[2])));
  (*344*) Do (Asn v_jac 176 ((- ($v_j_temp * #4.9928106040377707e-01 + $v_kf * v_conc.[2]))));
  (*345*) Do (AddA v_jac 191 (#7.1857747410685777e-02 * ($v_j_temp * #4.9928106040377707e-01)));
  (*346*) Do (AddA v_jac 192 (#(-1.1406242870830863e+00) * ($v_j_temp * #4.9928106040377707e-01)));
  (*347*) Do (Asn v_jac 203 (#2.0687665396724007e+00 * ($v_j_temp * #4.9928106040377707e-01)));
  (*348*) Do (Asn v_jac 197 ((- ($v_j_temp * #4.9928106040377707e-01))));
  (*349*) Do (AddA v_jac 212 (#6.7040376938333812e-02 * ($v_j_temp * #4.6330052531852528e-01)));
  (*350*) Do (AddA v_jac 213 (#(-1.0641564049320178e+00) * ($v_j_temp * #4.6330052531852528e-01)));
  (*351*) Do (Asn v_jac 224 (#1.9300756510553501e+00 * ($v_j_temp * #4.6330052531852528e-01)));
  (*352*) Do (Asn v_jac 218 (#(-9.3295962306166613e-01) * ($v_j_temp * #4.6330052531852528e-01)));
  (*353*) Do (AddA v_jac 233 (#6.2828341257988030e-02 * ($v_j_temp * #4.2731999023327338e-01)));
  (*354*) Do (AddA v_jac 234 (#(-9.9729722317107516e-01) * ($v_j_temp * #4.2731999023327338e-01)));
  (*355*) Do (Asn v_jac 245 (#1.8088121993971109e+00 * ($v_j_temp * #4.2731999023327338e-01)));
  (*356*) Do (Asn v_jac 239 (#(-8.7434331748402383e-01) * ($v_j_temp * #4.2731999023327338e-01)));
  (*357*) Do (AddA v_jac 254 (#3.5984491474595155e-02 * ($v_j_temp * #1.0994706834011048e-04)));
  (*358*) Do (AddA v_jac 255 (#(-5.7119498471996122e-01) * ($v_j_temp * #1.0994706834011048e-04)));
  (*359*) Do (Asn v_jac 266 (#1.0359844914745953e+00 * ($v_j_temp * #1.0994706834011048e-04)));
  (*360*) Do (Asn v_jac 260 (#(-5.0077399822922919e-01) * ($v_j_temp * #1.0994706834011048e-04)));
  (*361*) Do (AddA v_jac 275 (#2.2902626233248052e-02 * ($v_j_temp * #(-5.7102223643760053e-01))));
  (*362*) Do (AddA v_jac 276 (#(-3.6354175660875532e-01) * ($v_j_temp * #(-5.7102223643760053e-01))));
  (*363*) Do (Asn v_jac 287 (#6.5936086962449270e-01 * ($v_j_temp * #(-5.7102223643760053e-01))));
  (*364*) Do (Asn v_jac 281 (#(-3.1872173924898545e-01) * ($v_j_temp * #(-5.7102223643760053e-01))));
  (*365*) Do (AddA v_jac 296 (#3.4734585093427126e-02 * ($v_j_temp * #(-3.5870588016911675e-02) - $v_kr * v_conc.[1])));
  (*366*) Do (AddA v_jac 297 (#(-5.5135476391826688e-01) * ($v_j_temp * #(-3.5870588016911675e-02) - $v_kr * v_conc.[1])));
  (*367*) Do (Asn v_jac 308 ($v_j_temp * #(-3.5870588016911675e-02) - $v_kr * v_conc.[1]));
  (*368*) Do (Asn v_jac 302 (#(-4.8337982117516021e-01) * ($v_j_temp * #(-3.5870588016911675e-02) - $v_kr * v_conc.[1])));
  (*369*) Do (AddA v_jac 317 (#3.3568593911733322e-02 * ($v_j_temp * #(-7.1851123102163683e-02))));
  (*370*) Do (AddA v_jac 318 (#(-5.3284655974699491e-01) * ($v_j_temp * #(-7.1851123102163683e-02))));
  (*371*) Do (Asn v_jac 329 (#9.6643140608826661e-01 * ($v_j_temp * #(-7.1851123102163683e-02))));
  (*372*) Do (Asn v_jac 323 (#(-4.6715344025300498e-01) * ($v_j_temp * #(-7.1851123102163683e-02))));
  (*373*) Do (AddA v_jac 338 (#3.2478341649959309e-02 * ($v_j_temp * #(-1.0783165818741525e-01))));
  (*374*) Do (AddA v_jac 339 (#(-5.1554058713252660e-01) * ($v_j_temp * #(-1.0783165818741525e-01))));
  (*375*) Do (Asn v_jac 350 (#9.3504331670008145e-01 * ($v_j_temp * #(-1.0783165818741525e-01))));
  (*376*) Do (Asn v_jac 344 (#(-4.5198107121751407e-01) * ($v_j_temp * #(-1.0783165818741525e-01))));
  (*377*) Do (AddA v_jac 359 (#3.5928873705342888e-02 * ($v_j_temp * #(-1.4378791924458678e-03))));
  (*378*) Do (AddA v_jac 360 (#(-5.7031214354154314e-01) * ($v_j_temp * #(-1.4378791924458678e-03))));
  (*379*) Do (Asn v_jac 371 (#1.0343832698362003e+00 * ($v_j_temp * #(-1.4378791924458678e-03))));
  (*380*) Do (Asn v_jac 365 (#(-5.0000000000000000e-01) * ($v_j_temp * #(-1.4378791924458678e-03))));
  (*381*) Do (AddA v_jac 380 (#3.4682761159877090e-02 * ($v_j_temp * #(-3.7418414277697654e-02))));
  (*382*) Do (AddA v_jac 381 (#(-5.5053214368051429e-01) * ($v_j_temp * #(-3.7418414277697654e-02))));
  (*383*) Do (Asn v_jac 392 (#9.9850800194069855e-01 * ($v_j_temp * #(-3.7418414277697654e-02))));
  (*384*) Do (Asn v_jac 386 (#(-4.8265861942006144e-01) * ($v_j_temp * #(-3.7418414277697654e-02))));
  (*385*) Do (AddA v_jac 401 (#3.3520188469166906e-02 * ($v_j_temp * #(-7.3398949362949439e-02))));
  (*386*) Do (AddA v_jac 402 (#(-5.3207820246600890e-01) * ($v_j_temp * #(-7.3398949362949439e-02))));
  (*387*) Do (Asn v_jac 413 (#9.6503782552767503e-01 * ($v_j_temp * #(-7.3398949362949439e-02))));
  (*388*) Do (Asn v_jac 407 (#(-4.6647981153083307e-01) * ($v_j_temp * #(-7.3398949362949439e-02))));
  (*389*) Do (AddA v_jac 422 (#2.5231300690898170e-02 * ($v_j_temp * #(-4.2602775520927771e-01))));
  (*390*) Do (AddA v_jac 423 (#(-4.0050565735456090e-01) * ($v_j_temp * #(-4.2602775520927771e-01))));
  (*391*) Do (Asn v_jac 434 (#7.2640282367077191e-01 * ($v_j_temp * #(-4.2602775520927771e-01))));
  (*392*) Do (Asn v_jac 428 (#(-3.5112846700710920e-01) * ($v_j_temp * #(-4.2602775520927771e-01))))]);
([
  (*395*) Do (Asn v_j_temp 0 (#1.0 / $v_T * (v_fwd_rates.[4] * #(-1.0) - v_rev_rates.[4] * (#(-1.0) + (- $v_T) * (v_dBdT.[1] + v_dBdT.[13] - v_dBdT.[8] - v_dBdT.[2]))) * $v_rho_inv));
  (*396*) Do (Asn v_jac 9 ((- $v_j_temp) * #1.4026879999999998e+01));
  (*397*) Do (AddA v_jac 2 ($v_j_temp * #1.0079400000000001e+00));
  (*398*) Do (AddA v_jac 3 ((- $v_j_temp) * #1.5999400000000000e+01));
  (*399*) Do (AddA v_jac 14 ($v_j_temp * #2.9018339999999998e+01))],
[
  (*402*) If ($v_T) (#1000.0)
    [Asn v_Kc 0 (#2.3105604539999995e+00 + #(-6.4568536999999937e-01) * $v_logT + $v_T * (#1.2010038553526665e-03 + $v_T * (#(-1.8268026033265348e-07) + $v_T * (#(-4.1515270641598609e-11) + #1.4094078453613402e-14 * $v_T))) - #(-5.0305850639999997e+04) / $v_T)]
    [Asn v_Kc 0 (#(-4.4698935139999998e+00) + #4.1071518999999990e-01 * $v_logT + $v_T * (#1.9352149030785106e-04 + $v_T * (#(-8.5747517123967536e-08) + $v_T * (#1.5106129430403969e-11 + #(-1.0303785505901323e-15) * $v_T))) - #(-5.0658000750000007e+04) / $v_T)];
  (*408*) Do (Asn v_Kc 0 ((Exp $v_Kc)));
  (*409*) Do (Asn v_j_temp 0 ((- $v_mw_avg) * $v_rho_inv * (#2.0 * v_fwd_rates.[4] - #2.0 * v_rev_rates.[4])));
  (*410*) Do (Asn v_kf 0 (#15000000000.0));
  (*411*) Do (Asn v_kr 0 ($v_kf / $v_Kc));
  (*412*) Do (Asn v_jac 30 (#(-6.9581919558703875e+00) * ($v_j_temp * #9.2803892982949643e-01)));
  (*413*) Do (AddA v_jac 23 (#5.0000000000000000e-01 * ($v_j_temp * #9.2803892982949643e-01)));
  (*414*) Do (AddA v_jac 24 (#(-7.9366827390519274e+00) * ($v_j_temp * #9.2803892982949643e-01)));
  (*415*) Do (AddA v_jac 35 (#1.4394874694922315e+01 * ($v_j_temp * #9.2803892982949643e-01)));
  (*416*) Do (Asn v_jac 51 (#(-1.3916383911740775e+01) * ($v_j_temp * #9.6401946491474821e-01 - $v_kr * v_conc.[13])));
  (*417*) Do (AddA v_jac 44 ($v_j_temp * #9.6401946491474821e-01 - $v_kr * v_conc.[13]));
  (*418*) Do (AddA v_jac 45 (#(-1.5873365478103855e+01) * ($v_j_temp * #9.6401946491474821e-01 - $v_kr * v_conc.[13])));
  (*419*) Do (AddA v_jac 56 (#2.8789749389844630e+01 * ($v_j_temp * #9.6401946491474821e-01 - $v_kr * v_conc.[13])));
  (*420*) Do (Asn v_jac 72 (#(-8.7671287673287746e-01) * ($v_j_temp * #4.2886781649405936e-01 + $v_kf * v_conc.[8])));
  (*421*) Do (AddA v_jac 65 (#6.2998612447966798e-02 * ($v_j_temp * #4.2886781649405936e-01 + $v_kf * v_conc.[8])));
  (*422*) Do (AddA v_jac 66 ((- ($v_j_temp * #4.2886781649405936e-01 + $v_kf * v_conc.[8]))));
  (*423*) Do (AddA v_jac 77 (#1.8137142642849107e+00 * ($v_j_temp * #4.2886781649405936e-01 + $v_kf * v_conc.[8])));
  (*424*) Do (Asn v_jac 93 (#(-4.3835643836643873e-01) * ($v_j_temp * #(-1.4226436701188128e-01))));
  (*425*) Do (AddA v_jac 86 (#3.1499306223983399e-02 * ($v_j_temp * #(-1.4226436701188128e-01))));
  (*426*) Do (AddA v_jac 87 (#(-5.0000000000000000e-01) * ($v_j_temp * #(-1.4226436701188128e-01))));
  (*427*) Do (AddA v_jac 98 (#9.0685713214245534e-01 * ($v_j_temp * #(-1.4226436701188128e-01))));
  (*428*) Do (Asn v_jac 114 (#(-8.2475448835620380e-01) * ($v_j_temp * #3.9288728140880758e-01)));
  (*429*) Do (AddA v_jac 107 (#5.9264999700129481e-02 * ($v_j_temp * #3.9288728140880758e-01)));
  (*430*) Do (AddA v_jac 108 (#(-9.4073500029987056e-01) * ($v_j_temp * #3.9288728140880758e-01)));
  (*431*) Do (AddA v_jac 119 (#1.7062244889559448e+00 * ($v_j_temp * #3.9288728140880758e-01)));
  (*432*) Do (Asn v_jac 135 (#(-7.7861015759954877e-01) * ($v_j_temp * #3.5690674632355568e-01)));
  (*433*) Do (AddA v_jac 128 (#5.5949172036182618e-02 * ($v_j_temp * #3.5690674632355568e-01)));
  (*434*) Do (AddA v_jac 129 (#(-8.8810165592763468e-01) * ($v_j_temp * #3.5690674632355568e-01)));
  (*435*) Do (AddA v_jac 140 (#1.6107626414910008e+00 * ($v_j_temp * #3.5690674632355568e-01)));
  (*436*) Do (Asn v_jac 156 (#(-4.2497017275865467e-01) * ($v_j_temp * #(-1.7824490209713328e-01))));
  (*437*) Do (AddA v_jac 149 (#3.0537399331166910e-02 * ($v_j_temp * #(-1.7824490209713328e-01))));
  (*438*) Do (AddA v_jac 150 (#(-4.8473130033441653e-01) * ($v_j_temp * #(-1.7824490209713328e-01))));
  (*439*) Do (AddA v_jac 161 (#8.7916407376190431e-01 * ($v_j_temp * #(-1.7824490209713328e-01))));
  (*440*) Do (Asn v_jac 177 ((- ($v_j_temp * #4.9928106040377707e-01))));
  (*441*) Do (AddA v_jac 170 (#7.1857747410685777e-02 * ($v_j_temp * #4.9928106040377707e-01)));
  (*442*) Do (AddA v_jac 171 (#(-1.1406242870830863e+00) * ($v_j_temp * #4.9928106040377707e-01)));
  (*443*) Do (AddA v_jac 182 (#2.0687665396724007e+00 * ($v_j_temp * #4.9928106040377707e-01)));
  (*444*) Do (Asn v_jac 198 ((- ($v_j_temp * #4.9928106040377707e-01 + $v_kf * v_conc.[2]))));
  (*445*) Do (AddA v_jac 191 (#7.1857747410685777e-02 * ($v_j_temp * #4.9928106040377707e-01 + $v_kf * v_conc.[2])));
  (*446*) Do (AddA v_jac 192 (#(-1.1406242870830863e+00) * ($v_j_temp * #4.9928106040377707e-01 + $v_kf * v_conc.[2])));
  (*447*) Do (AddA v_jac 203 (#2.0687665396724007e+00 * ($v_j_temp * #4.9928106040377707e-01 + $v_kf * v_conc.[2])));
  (*448*) Do (Asn v_jac 219 (#(-9.3295962306166613e-01) * ($v_j_temp * #4.6330052531852528e-01)));
  (*449*) Do (AddA v_jac 212 (#6.7040376938333812e-02 * ($v_j_temp * #4.6330052531852528e-01)));
  (*450*) Do (AddA v_jac 213 (#(-1.0641564049320178e+00) * ($v_j_temp * #4.6330052531852528e-01)));
  (*451*) Do (AddA v_jac 224 (#1.9300756510553501e+00 * ($v_j_temp * #4.6330052531852528e-01)));
  (*452*) Do (Asn v_jac 240 (#(-8.7434331748402383e-01) * ($v_j_temp * #4.2731999023327338e-01)));
  (*453*) Do (AddA v_jac 233 (#6.2828341257988030e-02 * ($v_j_temp * #4.2731999023327338e-01)));
  (*454*) Do (AddA v_jac 234 (#(-9.9729722317107516e-01) * ($v_j_temp * #4.2731999023327338e-01)));
  (*455*) Do (AddA v_jac 245 (#1.8088121993971109e+00 * ($v_j_temp * #4.2731999023327338e-01)));
  (*456*) Do (Asn v_jac 261 (#(-5.0077399822922919e-01) * ($v_j_temp * #1.0994706834011048e-04)));
  (*457*) Do (AddA v_jac 254 (#3.5984491474595155e-02 * ($v_j_temp * #1.0994706834011048e-04)));
  (*458*) Do (AddA v_jac 255 (#(-5.7119498471996122e-01) * ($v_j_temp * #1.0994706834011048e-04)));
  (*459*) Do (AddA v_jac 266 (#1.0359844914745953e+00 * ($v_j_temp * #1.0994706834011048e-04)));
  (*460*) Do (Asn v_jac 282 (#(-3.1872173924898545e-01) * ($v_j_temp * #(-5.7102223643760053e-01))));
  (*461*) Do (AddA v_jac 275 (#2.2902626233248052e-02 * ($v_j_temp * #(-5.7102223643760053e-01))));
  (*462*) Do (AddA v_jac 276 (#(-3.6354175660875532e-01) * ($v_j_temp * #(-5.7102223643760053e-01))));
  (*463*) Do (AddA v_jac 287 (#6.5936086962449270e-01 * ($v_j_temp * #(-5.7102223643760053e-01))));
  (*464*) Do (Asn v_jac 303 (#(-4.8337982117516021e-01) * ($v_j_temp * #(-3.5870588016911675e-02) - $v_kr * v_conc.[1])));
  (*465*) Do (AddA v_jac 296 (#3.4734585093427126e-02 * ($v_j_temp * #(-3.5870588016911675e-02) - $v_kr * v_conc.[1])));
  (*466*) Do (AddA v_jac 297 (#(-5.5135476391826688e-01) * ($v_j_temp * #(-3.5870588016911675e-02) - $v_kr * v_conc.[1])));
  (*467*) Do (AddA v_jac 308 ($v_j_temp * #(-3.5870588016911675e-02) - $v_kr * v_conc.[1]));
  (*468*) Do (Asn v_jac 324 (#(-4.6715344025300498e-01) * ($v_j_temp * #(-7.1851123102163683e-02))));
  (*469*) Do (AddA v_jac 317 (#3.3568593911733322e-02 * ($v_j_temp * #(-7.1851123102163683e-02))));
  (*470*) Do (AddA v_jac 318 (#(-5.3284655974699491e-01) * ($v_j_temp * #(-7.1851123102163683e-02))));
  (*471*) Do (AddA v_jac 329 (#9.6643140608826661e-01 * ($v_j_temp * #(-7.1851123102163683e-02))));
  (*472*) Do (Asn v_jac 345 (#(-4.5198107121751407e-01) * ($v_j_temp * #(-1.0783165818741525e-01))));
  (*473*) Do (AddA v_jac 338 (#3.2478341649959309e-02 * ($v_j_temp * #(-1.0783165818741525e-01))));
  (*474*) Do (AddA v_jac 339 (#(-5.1554058713252660e-01) * ($v_j_temp * #(-1.0783165818741525e-01))));
  (*475*) Do (AddA v_jac 350 (#9.3504331670008145e-01 * ($v_j_temp * #(-1.0783165818741525e-01))));
  (*476*) Do (Asn v_jac 366 (#(-5.0000000000000000e-01) * ($v_j_temp * #(-1.4378791924458678e-03))));
  (*477*) Do (AddA v_jac 359 (#3.5928873705342888e-02 * ($v_j_temp * #(-1.4378791924458678e-03))));
  (*478*) Do (AddA v_jac 360 (#(-5.7031214354154314e-01) * ($v_j_temp * #(-1.4378791924458678e-03))));
  (*479*) Do (AddA v_jac 371 (#1.0343832698362003e+00 * ($v_j_temp * #(-1.4378791924458678e-03))));
  (*480*) Do (Asn v_jac 387 (#(-4.8265861942006144e-01) * ($v_j_temp * #(-3.7418414277697654e-02))));
  (*481*) Do (AddA v_jac 380 (#3.4682761159877090e-02 * ($v_j_temp * #(-3.7418414277697654e-02))));
  (*482*) Do (AddA v_jac 381 (#(-5.5053214368051429e-01) * ($v_j_temp * #(-3.7418414277697654e-02))));
  (*483*) Do (AddA v_jac 392 (#9.9850800194069855e-01 * ($v_j_temp * #(-3.7418414277697654e-02))));
  (*484*) Do (Asn v_jac 408 (#(-4.6647981153083307e-01) * ($v_j_temp * #(-7.3398949362949439e-02))));
  (*485*) Do (AddA v_jac 401 (#3.3520188469166906e-02 * ($v_j_temp * #(-7.3398949362949439e-02))));
  (*486*) Do (AddA v_jac 402 (#(-5.3207820246600890e-01) * ($v_j_temp * #(-7.3398949362949439e-02))));
  (*487*) Do (AddA v_jac 413 (#9.6503782552767503e-01 * ($v_j_temp * #(-7.3398949362949439e-02))));
  (*488*) Do (Asn v_jac 429 (#(-3.5112846700710920e-01) * ($v_j_temp * #(-4.2602775520927771e-01))));
  (*489*) Do (AddA v_jac 422 (#2.5231300690898170e-02 * ($v_j_temp * #(-4.2602775520927771e-01))));
  (*490*) Do (AddA v_jac 423 (#(-4.0050565735456090e-01) * ($v_j_temp * #(-4.2602775520927771e-01))));
  (*491*) Do (AddA v_jac 434 (#7.2640282367077191e-01 * ($v_j_temp * #(-4.2602775520927771e-01))))]);
([
  (*494*) Do (Asn v_j_temp 0 (#1.0 / $v_T * (v_fwd_rates.[5] * #(-1.0) - v_rev_rates.[5] * (#(-1.0) + (- $v_T) * (v_dBdT.[14] + v_dBdT.[1] - v_dBdT.[9] - v_dBdT.[2]))) * $v_rho_inv));
  (*495*) Do (Asn v_jac 10 ((- $v_j_temp) * #1.5034820000000000e+01));
  (*496*) Do (AddA v_jac 3 ((- $v_j_temp) * #1.5999400000000000e+01));
  (*497*) Do (Asn v_jac 15 ($v_j_temp * #3.0026280000000000e+01));
  (*498*) Do (AddA v_jac 2 ($v_j_temp * #1.0079400000000001e+00))],
[
  (*501*) If ($v_T) (#1000.0)
    [Asn v_Kc 0 (#(-3.9522333929999998e+00) + #4.5186565000000023e-01 * $v_logT + $v_T * (#(-4.3199832996473333e-03) + $v_T * (#4.1581197130006792e-06 + $v_T * (#(-2.0774404673082654e-09) + #4.2603740745361341e-13 * $v_T))) - #(-3.4402554800000005e+04) / $v_T)]
    [Asn v_Kc 0 (#5.3967806600000134e-01 + #(-5.9444841000000004e-01) * $v_logT + $v_T * (#1.0230372703078513e-03 + $v_T * (#(-2.4623218212396748e-07) + $v_T * (#3.5062104263737296e-11 + #(-2.1449230505901326e-15) * $v_T))) - #(-3.4515335800000001e+04) / $v_T)];
  (*507*) Do (Asn v_Kc 0 ((Exp $v_Kc)));
  (*508*) Do (Asn v_j_temp 0 ((- $v_mw_avg) * $v_rho_inv * (#2.0 * v_fwd_rates.[5] - #2.0 * v_rev_rates.[5])));
  (*509*) Do (Asn v_kf 0 (#84300000000.0));
  (*510*) Do (Asn v_kr 0 ($v_kf / $v_Kc));
  (*511*) Do (Asn v_jac 31 (#(-7.4581919558703884e+00) * ($v_j_temp * #9.2803892982949643e-01)));
  (*512*) Do (AddA v_jac 24 (#(-7.9366827390519274e+00) * ($v_j_temp * #9.2803892982949643e-01)));
  (*513*) Do (Asn v_jac 36 (#1.4894874694922317e+01 * ($v_j_temp * #9.2803892982949643e-01)));
  (*514*) Do (AddA v_jac 23 (#5.0000000000000000e-01 * ($v_j_temp * #9.2803892982949643e-01)));
  (*515*) Do (Asn v_jac 52 (#(-1.4916383911740777e+01) * ($v_j_temp * #9.6401946491474821e-01 - $v_kr * v_conc.[14])));
  (*516*) Do (AddA v_jac 45 (#(-1.5873365478103855e+01) * ($v_j_temp * #9.6401946491474821e-01 - $v_kr * v_conc.[14])));
  (*517*) Do (Asn v_jac 57 (#2.9789749389844633e+01 * ($v_j_temp * #9.6401946491474821e-01 - $v_kr * v_conc.[14])));
  (*518*) Do (AddA v_jac 44 ($v_j_temp * #9.6401946491474821e-01 - $v_kr * v_conc.[14]));
  (*519*) Do (Asn v_jac 73 (#(-9.3971148918084424e-01) * ($v_j_temp * #4.2886781649405936e-01 + $v_kf * v_conc.[9])));
  (*520*) Do (AddA v_jac 66 ((- ($v_j_temp * #4.2886781649405936e-01 + $v_kf * v_conc.[9]))));
  (*521*) Do (Asn v_jac 78 (#1.8767128767328776e+00 * ($v_j_temp * #4.2886781649405936e-01 + $v_kf * v_conc.[9])));
  (*522*) Do (AddA v_jac 65 (#6.2998612447966798e-02 * ($v_j_temp * #4.2886781649405936e-01 + $v_kf * v_conc.[9])));
  (*523*) Do (Asn v_jac 94 (#(-4.6985574459042212e-01) * ($v_j_temp * #(-1.4226436701188128e-01))));
  (*524*) Do (AddA v_jac 87 (#(-5.0000000000000000e-01) * ($v_j_temp * #(-1.4226436701188128e-01))));
  (*525*) Do (Asn v_jac 99 (#9.3835643836643878e-01 * ($v_j_temp * #(-1.4226436701188128e-01))));
  (*526*) Do (AddA v_jac 86 (#3.1499306223983399e-02 * ($v_j_temp * #(-1.4226436701188128e-01))));
  (*527*) Do (Asn v_jac 115 (#(-8.8401948805633335e-01) * ($v_j_temp * #3.9288728140880758e-01)));
  (*528*) Do (AddA v_jac 108 (#(-9.4073500029987056e-01) * ($v_j_temp * #3.9288728140880758e-01)));
  (*529*) Do (Asn v_jac 120 (#1.7654894886560744e+00 * ($v_j_temp * #3.9288728140880758e-01)));
  (*530*) Do (AddA v_jac 107 (#5.9264999700129481e-02 * ($v_j_temp * #3.9288728140880758e-01)));
  (*531*) Do (Asn v_jac 136 (#(-8.3455932963573143e-01) * ($v_j_temp * #3.5690674632355568e-01)));
  (*532*) Do (AddA v_jac 129 (#(-8.8810165592763468e-01) * ($v_j_temp * #3.5690674632355568e-01)));
  (*533*) Do (Asn v_jac 141 (#1.6667118135271835e+00 * ($v_j_temp * #3.5690674632355568e-01)));
  (*534*) Do (AddA v_jac 128 (#5.5949172036182618e-02 * ($v_j_temp * #3.5690674632355568e-01)));
  (*535*) Do (Asn v_jac 157 (#(-4.5550757208982162e-01) * ($v_j_temp * #(-1.7824490209713328e-01))));
  (*536*) Do (AddA v_jac 150 (#(-4.8473130033441653e-01) * ($v_j_temp * #(-1.7824490209713328e-01))));
  (*537*) Do (Asn v_jac 162 (#9.0970147309307126e-01 * ($v_j_temp * #(-1.7824490209713328e-01))));
  (*538*) Do (AddA v_jac 149 (#3.0537399331166910e-02 * ($v_j_temp * #(-1.7824490209713328e-01))));
  (*539*) Do (Asn v_jac 178 (#(-1.0718577474106858e+00) * ($v_j_temp * #4.9928106040377707e-01)));
  (*540*) Do (AddA v_jac 171 (#(-1.1406242870830863e+00) * ($v_j_temp * #4.9928106040377707e-01)));
  (*541*) Do (Asn v_jac 183 (#2.1406242870830865e+00 * ($v_j_temp * #4.9928106040377707e-01)));
  (*542*) Do (AddA v_jac 170 (#7.1857747410685777e-02 * ($v_j_temp * #4.9928106040377707e-01)));
  (*543*) Do (Asn v_jac 199 (#(-1.0718577474106858e+00) * ($v_j_temp * #4.9928106040377707e-01)));
  (*544*) Do (AddA v_jac 192 (#(-1.1406242870830863e+00) * ($v_j_temp * #4.9928106040377707e-01)));
  (*545*) Do (Asn v_jac 204 (#2.1406242870830865e+00 * ($v_j_temp * #4.9928106040377707e-01)));
  (*546*) Do (AddA v_jac 191 (#7.1857747410685777e-02 * ($v_j_temp * #4.9928106040377707e-01)));
  (*547*) Do (Asn v_jac 220 ((- ($v_j_temp * #4.6330052531852528e-01 + $v_kf * v_conc.[2]))));
  (*548*) Do (AddA v_jac 213 (#(-1.0641564049320178e+00) * ($v_j_temp * #4.6330052531852528e-01 + $v_kf * v_conc.[2])));
  (*549*) Do (Asn v_jac 225 (#1.9971160279936839e+00 * ($v_j_temp * #4.6330052531852528e-01 + $v_kf * v_conc.[2])));
  (*550*) Do (AddA v_jac 212 (#6.7040376938333812e-02 * ($v_j_temp * #4.6330052531852528e-01 + $v_kf * v_conc.[2])));
  (*551*) Do (Asn v_jac 241 (#(-9.3717165874201191e-01) * ($v_j_temp * #4.2731999023327338e-01)));
  (*552*) Do (AddA v_jac 234 (#(-9.9729722317107516e-01) * ($v_j_temp * #4.2731999023327338e-01)));
  (*553*) Do (Asn v_jac 246 (#1.8716405406550991e+00 * ($v_j_temp * #4.2731999023327338e-01)));
  (*554*) Do (AddA v_jac 233 (#6.2828341257988030e-02 * ($v_j_temp * #4.2731999023327338e-01)));
  (*555*) Do (Asn v_jac 262 (#(-5.3675848970382434e-01) * ($v_j_temp * #1.0994706834011048e-04)));
  (*556*) Do (AddA v_jac 255 (#(-5.7119498471996122e-01) * ($v_j_temp * #1.0994706834011048e-04)));
  (*557*) Do (Asn v_jac 267 (#1.0719689829491903e+00 * ($v_j_temp * #1.0994706834011048e-04)));
  (*558*) Do (AddA v_jac 254 (#3.5984491474595155e-02 * ($v_j_temp * #1.0994706834011048e-04)));
  (*559*) Do (Asn v_jac 283 (#(-3.4162436548223352e-01) * ($v_j_temp * #(-5.7102223643760053e-01))));
  (*560*) Do (AddA v_jac 276 (#(-3.6354175660875532e-01) * ($v_j_temp * #(-5.7102223643760053e-01))));
  (*561*) Do (Asn v_jac 288 (#6.8226349585774082e-01 * ($v_j_temp * #(-5.7102223643760053e-01))));
  (*562*) Do (AddA v_jac 275 (#2.2902626233248052e-02 * ($v_j_temp * #(-5.7102223643760053e-01))));
  (*563*) Do (Asn v_jac 304 (#(-5.1811440626858740e-01) * ($v_j_temp * #(-3.5870588016911675e-02))));
  (*564*) Do (AddA v_jac 297 (#(-5.5135476391826688e-01) * ($v_j_temp * #(-3.5870588016911675e-02))));
  (*565*) Do (Asn v_jac 309 (#1.0347345850934271e+00 * ($v_j_temp * #(-3.5870588016911675e-02))));
  (*566*) Do (AddA v_jac 296 (#3.4734585093427126e-02 * ($v_j_temp * #(-3.5870588016911675e-02))));
  (*567*) Do (Asn v_jac 325 (#(-5.0072203416473837e-01) * ($v_j_temp * #(-7.1851123102163683e-02) - $v_kr * v_conc.[1])));
  (*568*) Do (AddA v_jac 318 (#(-5.3284655974699491e-01) * ($v_j_temp * #(-7.1851123102163683e-02) - $v_kr * v_conc.[1])));
  (*569*) Do (Asn v_jac 330 ($v_j_temp * #(-7.1851123102163683e-02) - $v_kr * v_conc.[1]));
  (*570*) Do (AddA v_jac 317 (#3.3568593911733322e-02 * ($v_j_temp * #(-7.1851123102163683e-02) - $v_kr * v_conc.[1])));
  (*571*) Do (Asn v_jac 346 (#(-4.8445941286747340e-01) * ($v_j_temp * #(-1.0783165818741525e-01))));
  (*572*) Do (AddA v_jac 339 (#(-5.1554058713252660e-01) * ($v_j_temp * #(-1.0783165818741525e-01))));
  (*573*) Do (Asn v_jac 351 (#9.6752165835004078e-01 * ($v_j_temp * #(-1.0783165818741525e-01))));
  (*574*) Do (AddA v_jac 338 (#3.2478341649959309e-02 * ($v_j_temp * #(-1.0783165818741525e-01))));
  (*575*) Do (Asn v_jac 367 (#(-5.3592887370534292e-01) * ($v_j_temp * #(-1.4378791924458678e-03))));
  (*576*) Do (AddA v_jac 360 (#(-5.7031214354154314e-01) * ($v_j_temp * #(-1.4378791924458678e-03))));
  (*577*) Do (Asn v_jac 372 (#1.0703121435415432e+00 * ($v_j_temp * #(-1.4378791924458678e-03))));
  (*578*) Do (AddA v_jac 359 (#3.5928873705342888e-02 * ($v_j_temp * #(-1.4378791924458678e-03))));
  (*579*) Do (Asn v_jac 388 (#(-5.1734138057993861e-01) * ($v_j_temp * #(-3.7418414277697654e-02))));
  (*580*) Do (AddA v_jac 381 (#(-5.5053214368051429e-01) * ($v_j_temp * #(-3.7418414277697654e-02))));
  (*581*) Do (Asn v_jac 393 (#1.0331907631005757e+00 * ($v_j_temp * #(-3.7418414277697654e-02))));
  (*582*) Do (AddA v_jac 380 (#3.4682761159877090e-02 * ($v_j_temp * #(-3.7418414277697654e-02))));
  (*583*) Do (Asn v_jac 409 (#(-5.0000000000000000e-01) * ($v_j_temp * #(-7.3398949362949439e-02))));
  (*584*) Do (AddA v_jac 402 (#(-5.3207820246600890e-01) * ($v_j_temp * #(-7.3398949362949439e-02))));
  (*585*) Do (Asn v_jac 414 (#9.9855801399684196e-01 * ($v_j_temp * #(-7.3398949362949439e-02))));
  (*586*) Do (AddA v_jac 401 (#3.3520188469166906e-02 * ($v_j_temp * #(-7.3398949362949439e-02))));
  (*587*) Do (Asn v_jac 430 (#(-3.7635976769800739e-01) * ($v_j_temp * #(-4.2602775520927771e-01))));
  (*588*) Do (AddA v_jac 423 (#(-4.0050565735456090e-01) * ($v_j_temp * #(-4.2602775520927771e-01))));
  (*589*) Do (Asn v_jac 435 (#7.5163412436167021e-01 * ($v_j_temp * #(-4.2602775520927771e-01))));
  (*590*) Do (AddA v_jac 422 (#2.5231300690898170e-02 * ($v_j_temp * #(-4.2602775520927771e-01))))]);
([
  (*593*) Do (Asn v_j_temp 0 (#1.0 / $v_T * ((v_fwd_rates.[6] - v_rev_rates.[6]) * (#1.5000000000000000e+00 + #4.3276882577887991e+03 / $v_T) + v_fwd_rates.[6] * #(-1.0) - v_rev_rates.[6] * (#(-1.0) + (- $v_T) * (v_dBdT.[9] + v_dBdT.[4] - v_dBdT.[10] - v_dBdT.[2]))) * $v_rho_inv));
  (*594*) Do (AddA v_jac 10 ($v_j_temp * #1.5034820000000000e+01));
  (*595*) Do (Asn v_jac 11 ((- $v_j_temp) * #1.6042760000000001e+01));
  (*596*) Do (AddA v_jac 5 ($v_j_temp * #1.7007339999999999e+01));
  (*597*) Do (AddA v_jac 3 ((- $v_j_temp) * #1.5999400000000000e+01))],
[
  (*600*) If ($v_T) (#1000.0)
    [Asn v_Kc 0 (#4.7425465719999984e+00 + #(-6.5253739999999993e-01) * $v_logT + $v_T * (#8.2799659350000013e-03 + $v_T * (#(-7.5791611483333340e-06) + $v_T * (#3.6541717716666670e-09 + #(-7.4370416350000000e-13) * $v_T))) - #1.1844677599999995e+03 / $v_T)]
    [Asn v_Kc 0 (#(-1.2999221865000001e+01) + #2.7343331149999996e+00 * $v_logT + $v_T * (#(-2.7583212501499999e-03) + $v_T * (#4.7171189651666662e-07 + $v_T * (#(-5.8764090141666669e-11) + #3.2806345645000004e-15 * $v_T))) - #8.8500678999999946e+02 / $v_T)];
  (*606*) Do (Asn v_Kc 0 ((Exp $v_Kc)));
  (*607*) Do (Asn v_j_temp 0 ((- $v_mw_avg) * $v_rho_inv * (#2.0 * v_fwd_rates.[6] - #2.0 * v_rev_rates.[6])));
  (*608*) Do (Asn v_kf 0 ((Exp (#1.3835313185260453e+01 + #1.5 * $v_logT - #4.3276882577887991e+03 / $v_T))));
  (*609*) Do (Asn v_kr 0 ($v_kf / $v_Kc));
  (*610*) Do (AddA v_jac 31 (#7.4581919558703884e+00 * ($v_j_temp * #9.2803892982949643e-01)));
  (*611*) Do (Asn v_jac 32 (#(-7.9581919558703893e+00) * ($v_j_temp * #9.2803892982949643e-01)));
  (*612*) Do (AddA v_jac 26 (#8.4366827390519266e+00 * ($v_j_temp * #9.2803892982949643e-01)));
  (*613*) Do (AddA v_jac 24 (#(-7.9366827390519274e+00) * ($v_j_temp * #9.2803892982949643e-01)));
  (*614*) Do (AddA v_jac 52 (#1.4916383911740777e+01 * ($v_j_temp * #9.6401946491474821e-01)));
  (*615*) Do (Asn v_jac 53 (#(-1.5916383911740779e+01) * ($v_j_temp * #9.6401946491474821e-01)));
  (*616*) Do (AddA v_jac 47 (#1.6873365478103853e+01 * ($v_j_temp * #9.6401946491474821e-01)));
  (*617*) Do (AddA v_jac 45 (#(-1.5873365478103855e+01) * ($v_j_temp * #9.6401946491474821e-01)));
  (*618*) Do (AddA v_jac 73 (#9.3971148918084424e-01 * ($v_j_temp * #4.2886781649405936e-01 + $v_kf * v_conc.[10])));
  (*619*) Do (Asn v_jac 74 (#(-1.0027101016288111e+00) * ($v_j_temp * #4.2886781649405936e-01 + $v_kf * v_conc.[10])));
  (*620*) Do (AddA v_jac 68 (#1.0629986124479667e+00 * ($v_j_temp * #4.2886781649405936e-01 + $v_kf * v_conc.[10])));
  (*621*) Do (AddA v_jac 66 ((- ($v_j_temp * #4.2886781649405936e-01 + $v_kf * v_conc.[10]))));
  (*622*) Do (AddA v_jac 94 (#4.6985574459042212e-01 * ($v_j_temp * #(-1.4226436701188128e-01))));
  (*623*) Do (Asn v_jac 95 (#(-5.0135505081440557e-01) * ($v_j_temp * #(-1.4226436701188128e-01))));
  (*624*) Do (AddA v_jac 89 (#5.3149930622398334e-01 * ($v_j_temp * #(-1.4226436701188128e-01))));
  (*625*) Do (AddA v_jac 87 (#(-5.0000000000000000e-01) * ($v_j_temp * #(-1.4226436701188128e-01))));
  (*626*) Do (AddA v_jac 115 (#8.8401948805633335e-01 * ($v_j_temp * #3.9288728140880758e-01 - $v_kr * v_conc.[9])));
  (*627*) Do (Asn v_jac 116 (#(-9.4328448775646290e-01) * ($v_j_temp * #3.9288728140880758e-01 - $v_kr * v_conc.[9])));
  (*628*) Do (AddA v_jac 110 ($v_j_temp * #3.9288728140880758e-01 - $v_kr * v_conc.[9]));
  (*629*) Do (AddA v_jac 108 (#(-9.4073500029987056e-01) * ($v_j_temp * #3.9288728140880758e-01 - $v_kr * v_conc.[9])));
  (*630*) Do (AddA v_jac 136 (#8.3455932963573143e-01 * ($v_j_temp * #3.5690674632355568e-01)));
  (*631*) Do (Asn v_jac 137 (#(-8.9050850167191409e-01) * ($v_j_temp * #3.5690674632355568e-01)));
  (*632*) Do (AddA v_jac 131 (#9.4405082796381734e-01 * ($v_j_temp * #3.5690674632355568e-01)));
  (*633*) Do (AddA v_jac 129 (#(-8.8810165592763468e-01) * ($v_j_temp * #3.5690674632355568e-01)));
  (*634*) Do (AddA v_jac 157 (#4.5550757208982162e-01 * ($v_j_temp * #(-1.7824490209713328e-01))));
  (*635*) Do (Asn v_jac 158 (#(-4.8604497142098857e-01) * ($v_j_temp * #(-1.7824490209713328e-01))));
  (*636*) Do (AddA v_jac 152 (#5.1526869966558342e-01 * ($v_j_temp * #(-1.7824490209713328e-01))));
  (*637*) Do (AddA v_jac 150 (#(-4.8473130033441653e-01) * ($v_j_temp * #(-1.7824490209713328e-01))));
  (*638*) Do (AddA v_jac 178 (#1.0718577474106858e+00 * ($v_j_temp * #4.9928106040377707e-01)));
  (*639*) Do (Asn v_jac 179 (#(-1.1437154948213717e+00) * ($v_j_temp * #4.9928106040377707e-01)));
  (*640*) Do (AddA v_jac 173 (#1.2124820344937721e+00 * ($v_j_temp * #4.9928106040377707e-01)));
  (*641*) Do (AddA v_jac 171 (#(-1.1406242870830863e+00) * ($v_j_temp * #4.9928106040377707e-01)));
  (*642*) Do (AddA v_jac 199 (#1.0718577474106858e+00 * ($v_j_temp * #4.9928106040377707e-01)));
  (*643*) Do (Asn v_jac 200 (#(-1.1437154948213717e+00) * ($v_j_temp * #4.9928106040377707e-01)));
  (*644*) Do (AddA v_jac 194 (#1.2124820344937721e+00 * ($v_j_temp * #4.9928106040377707e-01)));
  (*645*) Do (AddA v_jac 192 (#(-1.1406242870830863e+00) * ($v_j_temp * #4.9928106040377707e-01)));
  (*646*) Do (AddA v_jac 220 ($v_j_temp * #4.6330052531852528e-01 - $v_kr * v_conc.[4]));
  (*647*) Do (Asn v_jac 221 (#(-1.0670403769383339e+00) * ($v_j_temp * #4.6330052531852528e-01 - $v_kr * v_conc.[4])));
  (*648*) Do (AddA v_jac 215 (#1.1311967818703517e+00 * ($v_j_temp * #4.6330052531852528e-01 - $v_kr * v_conc.[4])));
  (*649*) Do (AddA v_jac 213 (#(-1.0641564049320178e+00) * ($v_j_temp * #4.6330052531852528e-01 - $v_kr * v_conc.[4])));
  (*650*) Do (AddA v_jac 241 (#9.3717165874201191e-01 * ($v_j_temp * #4.2731999023327338e-01 + $v_kf * v_conc.[2])));
  (*651*) Do (Asn v_jac 242 ((- ($v_j_temp * #4.2731999023327338e-01 + $v_kf * v_conc.[2]))));
  (*652*) Do (AddA v_jac 236 (#1.0601255644290632e+00 * ($v_j_temp * #4.2731999023327338e-01 + $v_kf * v_conc.[2])));
  (*653*) Do (AddA v_jac 234 (#(-9.9729722317107516e-01) * ($v_j_temp * #4.2731999023327338e-01 + $v_kf * v_conc.[2])));
  (*654*) Do (AddA v_jac 262 (#5.3675848970382434e-01 * ($v_j_temp * #1.0994706834011048e-04)));
  (*655*) Do (Asn v_jac 263 (#(-5.7274298117841960e-01) * ($v_j_temp * #1.0994706834011048e-04)));
  (*656*) Do (AddA v_jac 257 (#6.0717947619455637e-01 * ($v_j_temp * #1.0994706834011048e-04)));
  (*657*) Do (AddA v_jac 255 (#(-5.7119498471996122e-01) * ($v_j_temp * #1.0994706834011048e-04)));
  (*658*) Do (AddA v_jac 283 (#3.4162436548223352e-01 * ($v_j_temp * #(-5.7102223643760053e-01))));
  (*659*) Do (Asn v_jac 284 (#(-3.6452699171548159e-01) * ($v_j_temp * #(-5.7102223643760053e-01))));
  (*660*) Do (AddA v_jac 278 (#3.8644438284200339e-01 * ($v_j_temp * #(-5.7102223643760053e-01))));
  (*661*) Do (AddA v_jac 276 (#(-3.6354175660875532e-01) * ($v_j_temp * #(-5.7102223643760053e-01))));
  (*662*) Do (AddA v_jac 304 (#5.1811440626858740e-01 * ($v_j_temp * #(-3.5870588016911675e-02))));
  (*663*) Do (Asn v_jac 305 (#(-5.5284899136201460e-01) * ($v_j_temp * #(-3.5870588016911675e-02))));
  (*664*) Do (AddA v_jac 299 (#5.8608934901169396e-01 * ($v_j_temp * #(-3.5870588016911675e-02))));
  (*665*) Do (AddA v_jac 297 (#(-5.5135476391826688e-01) * ($v_j_temp * #(-3.5870588016911675e-02))));
  (*666*) Do (AddA v_jac 325 (#5.0072203416473837e-01 * ($v_j_temp * #(-7.1851123102163683e-02))));
  (*667*) Do (Asn v_jac 326 (#(-5.3429062807647176e-01) * ($v_j_temp * #(-7.1851123102163683e-02))));
  (*668*) Do (AddA v_jac 320 (#5.6641515365872830e-01 * ($v_j_temp * #(-7.1851123102163683e-02))));
  (*669*) Do (AddA v_jac 318 (#(-5.3284655974699491e-01) * ($v_j_temp * #(-7.1851123102163683e-02))));
  (*670*) Do (AddA v_jac 346 (#4.8445941286747340e-01 * ($v_j_temp * #(-1.0783165818741525e-01))));
  (*671*) Do (Asn v_jac 347 (#(-5.1693775451743273e-01) * ($v_j_temp * #(-1.0783165818741525e-01))));
  (*672*) Do (AddA v_jac 341 (#5.4801892878248593e-01 * ($v_j_temp * #(-1.0783165818741525e-01))));
  (*673*) Do (AddA v_jac 339 (#(-5.1554058713252660e-01) * ($v_j_temp * #(-1.0783165818741525e-01))));
  (*674*) Do (AddA v_jac 367 (#5.3592887370534292e-01 * ($v_j_temp * #(-1.4378791924458678e-03))));
  (*675*) Do (Asn v_jac 368 (#(-5.7185774741068585e-01) * ($v_j_temp * #(-1.4378791924458678e-03))));
  (*676*) Do (AddA v_jac 362 (#6.0624101724688606e-01 * ($v_j_temp * #(-1.4378791924458678e-03))));
  (*677*) Do (AddA v_jac 360 (#(-5.7031214354154314e-01) * ($v_j_temp * #(-1.4378791924458678e-03))));
  (*678*) Do (AddA v_jac 388 (#5.1734138057993861e-01 * ($v_j_temp * #(-3.7418414277697654e-02))));
  (*679*) Do (Asn v_jac 389 (#(-5.5202414173981573e-01) * ($v_j_temp * #(-3.7418414277697654e-02))));
  (*680*) Do (AddA v_jac 383 (#5.8521490484039129e-01 * ($v_j_temp * #(-3.7418414277697654e-02))));
  (*681*) Do (AddA v_jac 381 (#(-5.5053214368051429e-01) * ($v_j_temp * #(-3.7418414277697654e-02))));
  (*682*) Do (AddA v_jac 409 (#5.0000000000000000e-01 * ($v_j_temp * #(-7.3398949362949439e-02))));
  (*683*) Do (Asn v_jac 410 (#(-5.3352018846916693e-01) * ($v_j_temp * #(-7.3398949362949439e-02))));
  (*684*) Do (AddA v_jac 404 (#5.6559839093517583e-01 * ($v_j_temp * #(-7.3398949362949439e-02))));
  (*685*) Do (AddA v_jac 402 (#(-5.3207820246600890e-01) * ($v_j_temp * #(-7.3398949362949439e-02))));
  (*686*) Do (AddA v_jac 430 (#3.7635976769800739e-01 * ($v_j_temp * #(-4.2602775520927771e-01))));
  (*687*) Do (Asn v_jac 431 (#(-4.0159106838890563e-01) * ($v_j_temp * #(-4.2602775520927771e-01))));
  (*688*) Do (AddA v_jac 425 (#4.2573695804545908e-01 * ($v_j_temp * #(-4.2602775520927771e-01))));
  (*689*) Do (AddA v_jac 423 (#(-4.0050565735456090e-01) * ($v_j_temp * #(-4.2602775520927771e-01))))]);
([
  (*692*) Do (Asn v_j_temp 0 (((- v_pres_mod.[1]) * (v_fwd_rates.[7] - v_rev_rates.[7]) / $v_T + v_pres_mod.[1] / $v_T * ((v_fwd_rates.[7] - v_rev_rates.[7]) * (#1.5096586945774879e+03 / $v_T) + v_fwd_rates.[7] * #(-1.0) - v_rev_rates.[7] * ((- $v_T) * (v_dBdT.[12] - v_dBdT.[11] - v_dBdT.[2])))) * $v_rho_inv));
  (*693*) Do (AddA v_jac 3 ((- $v_j_temp) * #1.5999400000000000e+01));
  (*694*) Do (Asn v_jac 12 ((- $v_j_temp) * #2.8010399999999997e+01));
  (*695*) Do (Asn v_jac 13 ($v_j_temp * #4.4009799999999998e+01))],
[
  (*698*) If ($v_T) (#1000.0)
    [Asn v_Kc 0 (#8.7317365300000009e+00 + #(-3.3910270499999999e+00) * $v_logT + $v_T * (#6.4371346450000002e-03 + $v_T * (#(-2.4639068299999998e-06) + $v_T * (#6.4002088133333328e-10 + #(-6.7596737949999993e-14) * $v_T))) - #(-6.3150142900000006e+04) / $v_T)]
    [Asn v_Kc 0 (#(-8.9042421999999988e+00) + #(-4.2714609999999986e-01) * $v_logT + $v_T * (#1.2189084718499997e-03 + $v_T * (#(-2.0965612131666668e-07) + $v_T * (#2.5287913325000004e-11 + #(-1.4035990855000001e-15) * $v_T))) - #(-6.3824872699999993e+04) / $v_T)];
  (*704*) Do (Asn v_Kc 0 (#8.2057360967184814e-02 * (Exp $v_Kc)));
  (*705*) Do (Asn v_pres_mod_temp 0 (v_fwd_rates.[7] - v_rev_rates.[7]));
  (*706*) Do (Asn v_j_temp 0 ((- $v_mw_avg) * $v_rho_inv * v_pres_mod.[1] * (#3.0 * v_fwd_rates.[7] - #2.0 * v_rev_rates.[7])));
  (*707*) Do (Asn v_kf 0 ((Exp (#2.0215768003273094e+01 - #1.5096586945774879e+03 / $v_T))));
  (*708*) Do (Asn v_kr 0 ($v_kf / $v_Kc));
  (*709*) Do (AddA v_jac 24 (#(-7.9366827390519274e+00) * ($v_j_temp * #9.2803892982949643e-01 + #1.9280389298294964e+00 * $v_pres_mod_temp)));
  (*710*) Do (Asn v_jac 33 (#(-1.3894874694922315e+01) * ($v_j_temp * #9.2803892982949643e-01 + #1.9280389298294964e+00 * $v_pres_mod_temp)));
  (*711*) Do (Asn v_jac 34 (#2.1831557433974243e+01 * ($v_j_temp * #9.2803892982949643e-01 + #1.9280389298294964e+00 * $v_pres_mod_temp)));
  (*712*) Do (AddA v_jac 45 (#(-1.5873365478103855e+01) * ($v_j_temp * #9.6401946491474821e-01 + #9.6401946491474821e-01 * $v_pres_mod_temp)));
  (*713*) Do (Asn v_jac 54 (#(-2.7789749389844630e+01) * ($v_j_temp * #9.6401946491474821e-01 + #9.6401946491474821e-01 * $v_pres_mod_temp)));
  (*714*) Do (Asn v_jac 55 (#4.3663114867948487e+01 * ($v_j_temp * #9.6401946491474821e-01 + #9.6401946491474821e-01 * $v_pres_mod_temp)));
  (*715*) Do (AddA v_jac 66 ((- ($v_j_temp * #4.2886781649405936e-01 + #4.2886781649405936e-01 * $v_pres_mod_temp + v_pres_mod.[1] * ($v_kf * v_conc.[11])))));
  (*716*) Do (Asn v_jac 75 (#(-1.7507156518369438e+00) * ($v_j_temp * #4.2886781649405936e-01 + #4.2886781649405936e-01 * $v_pres_mod_temp + v_pres_mod.[1] * ($v_kf * v_conc.[11]))));
  (*717*) Do (Asn v_jac 76 (#2.7507156518369440e+00 * ($v_j_temp * #4.2886781649405936e-01 + #4.2886781649405936e-01 * $v_pres_mod_temp + v_pres_mod.[1] * ($v_kf * v_conc.[11]))));
  (*718*) Do (AddA v_jac 87 (#(-5.0000000000000000e-01) * ($v_j_temp * #(-1.4226436701188128e-01) + #4.8577356329881187e+00 * $v_pres_mod_temp)));
  (*719*) Do (Asn v_jac 96 (#(-8.7535782591847189e-01) * ($v_j_temp * #(-1.4226436701188128e-01) + #4.8577356329881187e+00 * $v_pres_mod_temp)));
  (*720*) Do (Asn v_jac 97 (#1.3753578259184720e+00 * ($v_j_temp * #(-1.4226436701188128e-01) + #4.8577356329881187e+00 * $v_pres_mod_temp)));
  (*721*) Do (AddA v_jac 108 (#(-9.4073500029987056e-01) * ($v_j_temp * #3.9288728140880758e-01 + #3.9288728140880758e-01 * $v_pres_mod_temp)));
  (*722*) Do (Asn v_jac 117 (#(-1.6469594892558153e+00) * ($v_j_temp * #3.9288728140880758e-01 + #3.9288728140880758e-01 * $v_pres_mod_temp)));
  (*723*) Do (Asn v_jac 118 (#2.5876944895556862e+00 * ($v_j_temp * #3.9288728140880758e-01 + #3.9288728140880758e-01 * $v_pres_mod_temp)));
  (*724*) Do (AddA v_jac 129 (#(-8.8810165592763468e-01) * ($v_j_temp * #3.5690674632355568e-01 + #5.3569067463235553e+00 * $v_pres_mod_temp)));
  (*725*) Do (Asn v_jac 138 (#(-1.5548134694548181e+00) * ($v_j_temp * #3.5690674632355568e-01 + #5.3569067463235553e+00 * $v_pres_mod_temp)));
  (*726*) Do (Asn v_jac 139 (#2.4429151253824530e+00 * ($v_j_temp * #3.5690674632355568e-01 + #5.3569067463235553e+00 * $v_pres_mod_temp)));
  (*727*) Do (AddA v_jac 150 (#(-4.8473130033441653e-01) * ($v_j_temp * #(-1.7824490209713328e-01) + #(-1.7824490209713328e-01) * $v_pres_mod_temp)));
  (*728*) Do (Asn v_jac 159 (#(-8.4862667443073736e-01) * ($v_j_temp * #(-1.7824490209713328e-01) + #(-1.7824490209713328e-01) * $v_pres_mod_temp)));
  (*729*) Do (Asn v_jac 160 (#1.3333579747651541e+00 * ($v_j_temp * #(-1.7824490209713328e-01) + #(-1.7824490209713328e-01) * $v_pres_mod_temp)));
  (*730*) Do (AddA v_jac 171 (#(-1.1406242870830863e+00) * ($v_j_temp * #4.9928106040377707e-01 + #4.9928106040377707e-01 * $v_pres_mod_temp)));
  (*731*) Do (Asn v_jac 180 (#(-1.9969087922617146e+00) * ($v_j_temp * #4.9928106040377707e-01 + #4.9928106040377707e-01 * $v_pres_mod_temp)));
  (*732*) Do (Asn v_jac 181 (#3.1375330793448009e+00 * ($v_j_temp * #4.9928106040377707e-01 + #4.9928106040377707e-01 * $v_pres_mod_temp)));
  (*733*) Do (AddA v_jac 192 (#(-1.1406242870830863e+00) * ($v_j_temp * #4.9928106040377707e-01 + #4.9928106040377707e-01 * $v_pres_mod_temp)));
  (*734*) Do (Asn v_jac 201 (#(-1.9969087922617146e+00) * ($v_j_temp * #4.9928106040377707e-01 + #4.9928106040377707e-01 * $v_pres_mod_temp)));
  (*735*) Do (Asn v_jac 202 (#3.1375330793448009e+00 * ($v_j_temp * #4.9928106040377707e-01 + #4.9928106040377707e-01 * $v_pres_mod_temp)));
  (*736*) Do (AddA v_jac 213 (#(-1.0641564049320178e+00) * ($v_j_temp * #4.6330052531852528e-01 + #4.6330052531852528e-01 * $v_pres_mod_temp)));
  (*737*) Do (Asn v_jac 222 (#(-1.8630352741170162e+00) * ($v_j_temp * #4.6330052531852528e-01 + #4.6330052531852528e-01 * $v_pres_mod_temp)));
  (*738*) Do (Asn v_jac 223 (#2.9271916790490340e+00 * ($v_j_temp * #4.6330052531852528e-01 + #4.6330052531852528e-01 * $v_pres_mod_temp)));
  (*739*) Do (AddA v_jac 234 (#(-9.9729722317107516e-01) * ($v_j_temp * #4.2731999023327338e-01 + #1.4273199902332734e+00 * $v_pres_mod_temp)));
  (*740*) Do (Asn v_jac 243 (#(-1.7459838581391229e+00) * ($v_j_temp * #4.2731999023327338e-01 + #1.4273199902332734e+00 * $v_pres_mod_temp)));
  (*741*) Do (Asn v_jac 244 (#2.7432810813101982e+00 * ($v_j_temp * #4.2731999023327338e-01 + #1.4273199902332734e+00 * $v_pres_mod_temp)));
  (*742*) Do (AddA v_jac 255 (#(-5.7119498471996122e-01) * ($v_j_temp * #1.0994706834011048e-04 + #5.0010994706834011e-01 * $v_pres_mod_temp + v_pres_mod.[1] * ($v_kf * v_conc.[2]))));
  (*743*) Do (Asn v_jac 264 ((- ($v_j_temp * #1.0994706834011048e-04 + #5.0010994706834011e-01 * $v_pres_mod_temp + v_pres_mod.[1] * ($v_kf * v_conc.[2])))));
  (*744*) Do (Asn v_jac 265 (#1.5711949847199613e+00 * ($v_j_temp * #1.0994706834011048e-04 + #5.0010994706834011e-01 * $v_pres_mod_temp + v_pres_mod.[1] * ($v_kf * v_conc.[2]))));
  (*745*) Do (AddA v_jac 276 (#(-3.6354175660875532e-01) * ($v_j_temp * #(-5.7102223643760053e-01) + #1.9289777635623995e+00 * $v_pres_mod_temp + v_pres_mod.[1] * (- $v_kr))));
  (*746*) Do (Asn v_jac 285 (#(-6.3645824339124468e-01) * ($v_j_temp * #(-5.7102223643760053e-01) + #1.9289777635623995e+00 * $v_pres_mod_temp + v_pres_mod.[1] * (- $v_kr))));
  (*747*) Do (Asn v_jac 286 ($v_j_temp * #(-5.7102223643760053e-01) + #1.9289777635623995e+00 * $v_pres_mod_temp + v_pres_mod.[1] * (- $v_kr)));
  (*748*) Do (AddA v_jac 297 (#(-5.5135476391826688e-01) * ($v_j_temp * #(-3.5870588016911675e-02) + #(-3.5870588016911675e-02) * $v_pres_mod_temp)));
  (*749*) Do (Asn v_jac 306 (#(-9.6526541490657281e-01) * ($v_j_temp * #(-3.5870588016911675e-02) + #(-3.5870588016911675e-02) * $v_pres_mod_temp)));
  (*750*) Do (Asn v_jac 307 (#1.5166201788248397e+00 * ($v_j_temp * #(-3.5870588016911675e-02) + #(-3.5870588016911675e-02) * $v_pres_mod_temp)));
  (*751*) Do (AddA v_jac 318 (#(-5.3284655974699491e-01) * ($v_j_temp * #(-7.1851123102163683e-02) + #(-7.1851123102163683e-02) * $v_pres_mod_temp)));
  (*752*) Do (Asn v_jac 327 (#(-9.3286281217653322e-01) * ($v_j_temp * #(-7.1851123102163683e-02) + #(-7.1851123102163683e-02) * $v_pres_mod_temp)));
  (*753*) Do (Asn v_jac 328 (#1.4657093719235283e+00 * ($v_j_temp * #(-7.1851123102163683e-02) + #(-7.1851123102163683e-02) * $v_pres_mod_temp)));
  (*754*) Do (AddA v_jac 339 (#(-5.1554058713252660e-01) * ($v_j_temp * #(-1.0783165818741525e-01) + #(-1.0783165818741525e-01) * $v_pres_mod_temp)));
  (*755*) Do (Asn v_jac 348 (#(-9.0256497505012201e-01) * ($v_j_temp * #(-1.0783165818741525e-01) + #(-1.0783165818741525e-01) * $v_pres_mod_temp)));
  (*756*) Do (Asn v_jac 349 (#1.4181055621826488e+00 * ($v_j_temp * #(-1.0783165818741525e-01) + #(-1.0783165818741525e-01) * $v_pres_mod_temp)));
  (*757*) Do (AddA v_jac 360 (#(-5.7031214354154314e-01) * ($v_j_temp * #(-1.4378791924458678e-03) + #(-1.4378791924458678e-03) * $v_pres_mod_temp)));
  (*758*) Do (Asn v_jac 369 (#(-9.9845439613085729e-01) * ($v_j_temp * #(-1.4378791924458678e-03) + #(-1.4378791924458678e-03) * $v_pres_mod_temp)));
  (*759*) Do (Asn v_jac 370 (#1.5687665396724004e+00 * ($v_j_temp * #(-1.4378791924458678e-03) + #(-1.4378791924458678e-03) * $v_pres_mod_temp)));
  (*760*) Do (AddA v_jac 381 (#(-5.5053214368051429e-01) * ($v_j_temp * #(-3.7418414277697654e-02) + #(-3.7418414277697654e-02) * $v_pres_mod_temp)));
  (*761*) Do (Asn v_jac 390 (#(-9.6382524078082144e-01) * ($v_j_temp * #(-3.7418414277697654e-02) + #(-3.7418414277697654e-02) * $v_pres_mod_temp)));
  (*762*) Do (Asn v_jac 391 (#1.5143573844613358e+00 * ($v_j_temp * #(-3.7418414277697654e-02) + #(-3.7418414277697654e-02) * $v_pres_mod_temp)));
  (*763*) Do (AddA v_jac 402 (#(-5.3207820246600890e-01) * ($v_j_temp * #(-7.3398949362949439e-02) + #1.9266010506370506e+00 * $v_pres_mod_temp)));
  (*764*) Do (Asn v_jac 411 (#(-9.3151763705850810e-01) * ($v_j_temp * #(-7.3398949362949439e-02) + #1.9266010506370506e+00 * $v_pres_mod_temp)));
  (*765*) Do (Asn v_jac 412 (#1.4635958395245170e+00 * ($v_j_temp * #(-7.3398949362949439e-02) + #1.9266010506370506e+00 * $v_pres_mod_temp)));
  (*766*) Do (AddA v_jac 423 (#(-4.0050565735456090e-01) * ($v_j_temp * #(-4.2602775520927771e-01) + #(-9.2602775520927771e-01) * $v_pres_mod_temp)));
  (*767*) Do (Asn v_jac 432 (#(-7.0117152297987373e-01) * ($v_j_temp * #(-4.2602775520927771e-01) + #(-9.2602775520927771e-01) * $v_pres_mod_temp)));
  (*768*) Do (Asn v_jac 433 (#1.1016771803344347e+00 * ($v_j_temp * #(-4.2602775520927771e-01) + #(-9.2602775520927771e-01) * $v_pres_mod_temp)))]);
([
  (*771*) Do (Asn v_j_temp 0 (#1.0 / $v_T * (v_fwd_rates.[8] * #(-1.0) - v_rev_rates.[8] * (#(-1.0) + (- $v_T) * (v_dBdT.[11] + v_dBdT.[4] - v_dBdT.[13] - v_dBdT.[2]))) * $v_rho_inv));
  (*772*) Do (AddA v_jac 3 ((- $v_j_temp) * #1.5999400000000000e+01));
  (*773*) Do (AddA v_jac 12 ($v_j_temp * #2.8010399999999997e+01));
  (*774*) Do (AddA v_jac 5 ($v_j_temp * #1.7007339999999999e+01));
  (*775*) Do (AddA v_jac 14 ((- $v_j_temp) * #2.9018339999999998e+01))],
[
  (*778*) If ($v_T) (#1000.0)
    [Asn v_Kc 0 (#(-2.2239180279999999e+00) + #1.8209595999999939e-01 * $v_logT + $v_T * (#1.7557864799999999e-03 + $v_T * (#(-2.4647093033333336e-06) + $v_T * (#1.3723623411666666e-09 + #(-2.9953290795000000e-13) * $v_T))) - #(-4.3690829599999997e+04) / $v_T)]
    [Asn v_Kc 0 (#(-2.7537778599999996e+00) + #4.6647811999999966e-01 * $v_logT + $v_T * (#(-1.1300120001499999e-03) + $v_T * (#2.6169785468333331e-07 + $v_T * (#(-3.6419762141666674e-11) + #2.1749500094999998e-15 * $v_T))) - #(-4.3522712649999994e+04) / $v_T)];
  (*784*) Do (Asn v_Kc 0 ((Exp $v_Kc)));
  (*785*) Do (Asn v_j_temp 0 ((- $v_mw_avg) * $v_rho_inv * (#2.0 * v_fwd_rates.[8] - #2.0 * v_rev_rates.[8])));
  (*786*) Do (Asn v_kf 0 (#30000000000.0));
  (*787*) Do (Asn v_kr 0 ($v_kf / $v_Kc));
  (*788*) Do (AddA v_jac 24 (#(-7.9366827390519274e+00) * ($v_j_temp * #9.2803892982949643e-01)));
  (*789*) Do (AddA v_jac 33 (#1.3894874694922315e+01 * ($v_j_temp * #9.2803892982949643e-01)));
  (*790*) Do (AddA v_jac 26 (#8.4366827390519266e+00 * ($v_j_temp * #9.2803892982949643e-01)));
  (*791*) Do (AddA v_jac 35 (#(-1.4394874694922315e+01) * ($v_j_temp * #9.2803892982949643e-01)));
  (*792*) Do (AddA v_jac 45 (#(-1.5873365478103855e+01) * ($v_j_temp * #9.6401946491474821e-01)));
  (*793*) Do (AddA v_jac 54 (#2.7789749389844630e+01 * ($v_j_temp * #9.6401946491474821e-01)));
  (*794*) Do (AddA v_jac 47 (#1.6873365478103853e+01 * ($v_j_temp * #9.6401946491474821e-01)));
  (*795*) Do (AddA v_jac 56 (#(-2.8789749389844630e+01) * ($v_j_temp * #9.6401946491474821e-01)));
  (*796*) Do (AddA v_jac 66 ((- ($v_j_temp * #4.2886781649405936e-01 + $v_kf * v_conc.[13]))));
  (*797*) Do (AddA v_jac 75 (#1.7507156518369438e+00 * ($v_j_temp * #4.2886781649405936e-01 + $v_kf * v_conc.[13])));
  (*798*) Do (AddA v_jac 68 (#1.0629986124479667e+00 * ($v_j_temp * #4.2886781649405936e-01 + $v_kf * v_conc.[13])));
  (*799*) Do (AddA v_jac 77 (#(-1.8137142642849107e+00) * ($v_j_temp * #4.2886781649405936e-01 + $v_kf * v_conc.[13])));
  (*800*) Do (AddA v_jac 87 (#(-5.0000000000000000e-01) * ($v_j_temp * #(-1.4226436701188128e-01))));
  (*801*) Do (AddA v_jac 96 (#8.7535782591847189e-01 * ($v_j_temp * #(-1.4226436701188128e-01))));
  (*802*) Do (AddA v_jac 89 (#5.3149930622398334e-01 * ($v_j_temp * #(-1.4226436701188128e-01))));
  (*803*) Do (AddA v_jac 98 (#(-9.0685713214245534e-01) * ($v_j_temp * #(-1.4226436701188128e-01))));
  (*804*) Do (AddA v_jac 108 (#(-9.4073500029987056e-01) * ($v_j_temp * #3.9288728140880758e-01 - $v_kr * v_conc.[11])));
  (*805*) Do (AddA v_jac 117 (#1.6469594892558153e+00 * ($v_j_temp * #3.9288728140880758e-01 - $v_kr * v_conc.[11])));
  (*806*) Do (AddA v_jac 110 ($v_j_temp * #3.9288728140880758e-01 - $v_kr * v_conc.[11]));
  (*807*) Do (AddA v_jac 119 (#(-1.7062244889559448e+00) * ($v_j_temp * #3.9288728140880758e-01 - $v_kr * v_conc.[11])));
  (*808*) Do (AddA v_jac 129 (#(-8.8810165592763468e-01) * ($v_j_temp * #3.5690674632355568e-01)));
  (*809*) Do (AddA v_jac 138 (#1.5548134694548181e+00 * ($v_j_temp * #3.5690674632355568e-01)));
  (*810*) Do (AddA v_jac 131 (#9.4405082796381734e-01 * ($v_j_temp * #3.5690674632355568e-01)));
  (*811*) Do (AddA v_jac 140 (#(-1.6107626414910008e+00) * ($v_j_temp * #3.5690674632355568e-01)));
  (*812*) Do (AddA v_jac 150 (#(-4.8473130033441653e-01) * ($v_j_temp * #(-1.7824490209713328e-01))));
  (*813*) Do (AddA v_jac 159 (#8.4862667443073736e-01 * ($v_j_temp * #(-1.7824490209713328e-01))));
  (*814*) Do (AddA v_jac 152 (#5.1526869966558342e-01 * ($v_j_temp * #(-1.7824490209713328e-01))));
  (*815*) Do (AddA v_jac 161 (#(-8.7916407376190431e-01) * ($v_j_temp * #(-1.7824490209713328e-01))));
  (*816*) Do (AddA v_jac 171 (#(-1.1406242870830863e+00) * ($v_j_temp * #4.9928106040377707e-01)));
  (*817*) Do (AddA v_jac 180 (#1.9969087922617146e+00 * ($v_j_temp * #4.9928106040377707e-01)));
  (*818*) Do (AddA v_jac 173 (#1.2124820344937721e+00 * ($v_j_temp * #4.9928106040377707e-01)));
  (*819*) Do (AddA v_jac 182 (#(-2.0687665396724007e+00) * ($v_j_temp * #4.9928106040377707e-01)));
  (*820*) Do (AddA v_jac 192 (#(-1.1406242870830863e+00) * ($v_j_temp * #4.9928106040377707e-01)));
  (*821*) Do (AddA v_jac 201 (#1.9969087922617146e+00 * ($v_j_temp * #4.9928106040377707e-01)));
  (*822*) Do (AddA v_jac 194 (#1.2124820344937721e+00 * ($v_j_temp * #4.9928106040377707e-01)));
  (*823*) Do (AddA v_jac 203 (#(-2.0687665396724007e+00) * ($v_j_temp * #4.9928106040377707e-01)));
  (*824*) Do (AddA v_jac 213 (#(-1.0641564049320178e+00) * ($v_j_temp * #4.6330052531852528e-01)));
  (*825*) Do (AddA v_jac 222 (#1.8630352741170162e+00 * ($v_j_temp * #4.6330052531852528e-01)));
  (*826*) Do (AddA v_jac 215 (#1.1311967818703517e+00 * ($v_j_temp * #4.6330052531852528e-01)));
  (*827*) Do (AddA v_jac 224 (#(-1.9300756510553501e+00) * ($v_j_temp * #4.6330052531852528e-01)));
  (*828*) Do (AddA v_jac 234 (#(-9.9729722317107516e-01) * ($v_j_temp * #4.2731999023327338e-01)));
  (*829*) Do (AddA v_jac 243 (#1.7459838581391229e+00 * ($v_j_temp * #4.2731999023327338e-01)));
  (*830*) Do (AddA v_jac 236 (#1.0601255644290632e+00 * ($v_j_temp * #4.2731999023327338e-01)));
  (*831*) Do (AddA v_jac 245 (#(-1.8088121993971109e+00) * ($v_j_temp * #4.2731999023327338e-01)));
  (*832*) Do (AddA v_jac 255 (#(-5.7119498471996122e-01) * ($v_j_temp * #1.0994706834011048e-04 - $v_kr * v_conc.[4])));
  (*833*) Do (AddA v_jac 264 ($v_j_temp * #1.0994706834011048e-04 - $v_kr * v_conc.[4]));
  (*834*) Do (AddA v_jac 257 (#6.0717947619455637e-01 * ($v_j_temp * #1.0994706834011048e-04 - $v_kr * v_conc.[4])));
  (*835*) Do (AddA v_jac 266 (#(-1.0359844914745953e+00) * ($v_j_temp * #1.0994706834011048e-04 - $v_kr * v_conc.[4])));
  (*836*) Do (AddA v_jac 276 (#(-3.6354175660875532e-01) * ($v_j_temp * #(-5.7102223643760053e-01))));
  (*837*) Do (AddA v_jac 285 (#6.3645824339124468e-01 * ($v_j_temp * #(-5.7102223643760053e-01))));
  (*838*) Do (AddA v_jac 278 (#3.8644438284200339e-01 * ($v_j_temp * #(-5.7102223643760053e-01))));
  (*839*) Do (AddA v_jac 287 (#(-6.5936086962449270e-01) * ($v_j_temp * #(-5.7102223643760053e-01))));
  (*840*) Do (AddA v_jac 297 (#(-5.5135476391826688e-01) * ($v_j_temp * #(-3.5870588016911675e-02) + $v_kf * v_conc.[2])));
  (*841*) Do (AddA v_jac 306 (#9.6526541490657281e-01 * ($v_j_temp * #(-3.5870588016911675e-02) + $v_kf * v_conc.[2])));
  (*842*) Do (AddA v_jac 299 (#5.8608934901169396e-01 * ($v_j_temp * #(-3.5870588016911675e-02) + $v_kf * v_conc.[2])));
  (*843*) Do (AddA v_jac 308 ((- ($v_j_temp * #(-3.5870588016911675e-02) + $v_kf * v_conc.[2]))));
  (*844*) Do (AddA v_jac 318 (#(-5.3284655974699491e-01) * ($v_j_temp * #(-7.1851123102163683e-02))));
  (*845*) Do (AddA v_jac 327 (#9.3286281217653322e-01 * ($v_j_temp * #(-7.1851123102163683e-02))));
  (*846*) Do (AddA v_jac 320 (#5.6641515365872830e-01 * ($v_j_temp * #(-7.1851123102163683e-02))));
  (*847*) Do (AddA v_jac 329 (#(-9.6643140608826661e-01) * ($v_j_temp * #(-7.1851123102163683e-02))));
  (*848*) Do (AddA v_jac 339 (#(-5.1554058713252660e-01) * ($v_j_temp * #(-1.0783165818741525e-01))));
  (*849*) Do (AddA v_jac 348 (#9.0256497505012201e-01 * ($v_j_temp * #(-1.0783165818741525e-01))));
  (*850*) Do (AddA v_jac 341 (#5.4801892878248593e-01 * ($v_j_temp * #(-1.0783165818741525e-01))));
  (*851*) Do (AddA v_jac 350 (#(-9.3504331670008145e-01) * ($v_j_temp * #(-1.0783165818741525e-01))));
  (*852*) Do (AddA v_jac 360 (#(-5.7031214354154314e-01) * ($v_j_temp * #(-1.4378791924458678e-03))));
  (*853*) Do (AddA v_jac 369 (#9.9845439613085729e-01 * ($v_j_temp * #(-1.4378791924458678e-03))));
  (*854*) Do (AddA v_jac 362 (#6.0624101724688606e-01 * ($v_j_temp * #(-1.4378791924458678e-03))));
  (*855*) Do (AddA v_jac 371 (#(-1.0343832698362003e+00) * ($v_j_temp * #(-1.4378791924458678e-03))));
  (*856*) Do (AddA v_jac 381 (#(-5.5053214368051429e-01) * ($v_j_temp * #(-3.7418414277697654e-02))));
  (*857*) Do (AddA v_jac 390 (#9.6382524078082144e-01 * ($v_j_temp * #(-3.7418414277697654e-02))));
  (*858*) Do (AddA v_jac 383 (#5.8521490484039129e-01 * ($v_j_temp * #(-3.7418414277697654e-02))));
  (*859*) Do (AddA v_jac 392 (#(-9.9850800194069855e-01) * ($v_j_temp * #(-3.7418414277697654e-02))));
  (*860*) Do (AddA v_jac 402 (#(-5.3207820246600890e-01) * ($v_j_temp * #(-7.3398949362949439e-02))));
  (*861*) Do (AddA v_jac 411 (#9.3151763705850810e-01 * ($v_j_temp * #(-7.3398949362949439e-02))));
  (*862*) Do (AddA v_jac 404 (#5.6559839093517583e-01 * ($v_j_temp * #(-7.3398949362949439e-02))));
  (*863*) Do (AddA v_jac 413 (#(-9.6503782552767503e-01) * ($v_j_temp * #(-7.3398949362949439e-02))));
  (*864*) Do (AddA v_jac 423 (#(-4.0050565735456090e-01) * ($v_j_temp * #(-4.2602775520927771e-01))));
  (*865*) Do (AddA v_jac 432 (#7.0117152297987373e-01 * ($v_j_temp * #(-4.2602775520927771e-01))));
  (*866*) Do (AddA v_jac 425 (#4.2573695804545908e-01 * ($v_j_temp * #(-4.2602775520927771e-01))));
  (*867*) Do (AddA v_jac 434 (#(-7.2640282367077191e-01) * ($v_j_temp * #(-4.2602775520927771e-01))))]);
([
  (*870*) Do (Asn v_j_temp 0 (#1.0 / $v_T * (v_fwd_rates.[9] * #(-1.0) - v_rev_rates.[9] * (#(-1.0) + (- $v_T) * (v_dBdT.[1] + v_dBdT.[12] - v_dBdT.[13] - v_dBdT.[2]))) * $v_rho_inv));
  (*871*) Do (AddA v_jac 2 ($v_j_temp * #1.0079400000000001e+00));
  (*872*) Do (AddA v_jac 3 ((- $v_j_temp) * #1.5999400000000000e+01));
  (*873*) Do (AddA v_jac 13 ($v_j_temp * #4.4009799999999998e+01));
  (*874*) Do (AddA v_jac 14 ((- $v_j_temp) * #2.9018339999999998e+01))],
[
  (*877*) If ($v_T) (#1000.0)
    [Asn v_Kc 0 (#6.5407428970000012e+00 + #(-2.5326794200000005e+00) * $v_logT + $v_T * (#7.7539204653526671e-03 + $v_T * (#(-4.5910952086659868e-06) + $v_T * (#1.8251388135250679e-09 + #(-3.2970239544638660e-13) * $v_T))) - #(-5.5860133960000006e+04) / $v_T)]
    [Asn v_Kc 0 (#(-1.3773593553999998e+01) + #1.0158651399999998e+00 * $v_logT + $v_T * (#(-2.2830545469214878e-04) + $v_T * (#3.7948941209365808e-08 + $v_T * (#(-4.6378179029293633e-12) + #2.4570591440986790e-16 * $v_T))) - #(-5.6515003349999999e+04) / $v_T)];
  (*883*) Do (Asn v_Kc 0 ((Exp $v_Kc)));
  (*884*) Do (Asn v_j_temp 0 ((- $v_mw_avg) * $v_rho_inv * (#2.0 * v_fwd_rates.[9] - #2.0 * v_rev_rates.[9])));
  (*885*) Do (Asn v_kf 0 (#30000000000.0));
  (*886*) Do (Asn v_kr 0 ($v_kf / $v_Kc));
  (*887*) Do (AddA v_jac 23 (#5.0000000000000000e-01 * ($v_j_temp * #9.2803892982949643e-01)));
  (*888*) Do (AddA v_jac 24 (#(-7.9366827390519274e+00) * ($v_j_temp * #9.2803892982949643e-01)));
  (*889*) Do (AddA v_jac 34 (#2.1831557433974243e+01 * ($v_j_temp * #9.2803892982949643e-01)));
  (*890*) Do (AddA v_jac 35 (#(-1.4394874694922315e+01) * ($v_j_temp * #9.2803892982949643e-01)));
  (*891*) Do (AddA v_jac 44 ($v_j_temp * #9.6401946491474821e-01 - $v_kr * v_conc.[12]));
  (*892*) Do (AddA v_jac 45 (#(-1.5873365478103855e+01) * ($v_j_temp * #9.6401946491474821e-01 - $v_kr * v_conc.[12])));
  (*893*) Do (AddA v_jac 55 (#4.3663114867948487e+01 * ($v_j_temp * #9.6401946491474821e-01 - $v_kr * v_conc.[12])));
  (*894*) Do (AddA v_jac 56 (#(-2.8789749389844630e+01) * ($v_j_temp * #9.6401946491474821e-01 - $v_kr * v_conc.[12])));
  (*895*) Do (AddA v_jac 65 (#6.2998612447966798e-02 * ($v_j_temp * #4.2886781649405936e-01 + $v_kf * v_conc.[13])));
  (*896*) Do (AddA v_jac 66 ((- ($v_j_temp * #4.2886781649405936e-01 + $v_kf * v_conc.[13]))));
  (*897*) Do (AddA v_jac 76 (#2.7507156518369440e+00 * ($v_j_temp * #4.2886781649405936e-01 + $v_kf * v_conc.[13])));
  (*898*) Do (AddA v_jac 77 (#(-1.8137142642849107e+00) * ($v_j_temp * #4.2886781649405936e-01 + $v_kf * v_conc.[13])));
  (*899*) Do (AddA v_jac 86 (#3.1499306223983399e-02 * ($v_j_temp * #(-1.4226436701188128e-01))));
  (*900*) Do (AddA v_jac 87 (#(-5.0000000000000000e-01) * ($v_j_temp * #(-1.4226436701188128e-01))));
  (*901*) Do (AddA v_jac 97 (#1.3753578259184720e+00 * ($v_j_temp * #(-1.4226436701188128e-01))));
  (*902*) Do (AddA v_jac 98 (#(-9.0685713214245534e-01) * ($v_j_temp * #(-1.4226436701188128e-01))));
  (*903*) Do (AddA v_jac 107 (#5.9264999700129481e-02 * ($v_j_temp * #3.9288728140880758e-01)));
  (*904*) Do (AddA v_jac 108 (#(-9.4073500029987056e-01) * ($v_j_temp * #3.9288728140880758e-01)));
  (*905*) Do (AddA v_jac 118 (#2.5876944895556862e+00 * ($v_j_temp * #3.9288728140880758e-01)));
  (*906*) Do (AddA v_jac 119 (#(-1.7062244889559448e+00) * ($v_j_temp * #3.9288728140880758e-01)));
  (*907*) Do (AddA v_jac 128 (#5.5949172036182618e-02 * ($v_j_temp * #3.5690674632355568e-01)));
  (*908*) Do (AddA v_jac 129 (#(-8.8810165592763468e-01) * ($v_j_temp * #3.5690674632355568e-01)));
  (*909*) Do (AddA v_jac 139 (#2.4429151253824530e+00 * ($v_j_temp * #3.5690674632355568e-01)));
  (*910*) Do (AddA v_jac 140 (#(-1.6107626414910008e+00) * ($v_j_temp * #3.5690674632355568e-01)));
  (*911*) Do (AddA v_jac 149 (#3.0537399331166910e-02 * ($v_j_temp * #(-1.7824490209713328e-01))));
  (*912*) Do (AddA v_jac 150 (#(-4.8473130033441653e-01) * ($v_j_temp * #(-1.7824490209713328e-01))));
  (*913*) Do (AddA v_jac 160 (#1.3333579747651541e+00 * ($v_j_temp * #(-1.7824490209713328e-01))));
  (*914*) Do (AddA v_jac 161 (#(-8.7916407376190431e-01) * ($v_j_temp * #(-1.7824490209713328e-01))));
  (*915*) Do (AddA v_jac 170 (#7.1857747410685777e-02 * ($v_j_temp * #4.9928106040377707e-01)));
  (*916*) Do (AddA v_jac 171 (#(-1.1406242870830863e+00) * ($v_j_temp * #4.9928106040377707e-01)));
  (*917*) Do (AddA v_jac 181 (#3.1375330793448009e+00 * ($v_j_temp * #4.9928106040377707e-01)));
  (*918*) Do (AddA v_jac 182 (#(-2.0687665396724007e+00) * ($v_j_temp * #4.9928106040377707e-01)));
  (*919*) Do (AddA v_jac 191 (#7.1857747410685777e-02 * ($v_j_temp * #4.9928106040377707e-01)));
  (*920*) Do (AddA v_jac 192 (#(-1.1406242870830863e+00) * ($v_j_temp * #4.9928106040377707e-01)));
  (*921*) Do (AddA v_jac 202 (#3.1375330793448009e+00 * ($v_j_temp * #4.9928106040377707e-01)));
  (*922*) Do (AddA v_jac 203 (#(-2.0687665396724007e+00) * ($v_j_temp * #4.9928106040377707e-01)));
  (*923*) Do (AddA v_jac 212 (#6.7040376938333812e-02 * ($v_j_temp * #4.6330052531852528e-01)));
  (*924*) Do (AddA v_jac 213 (#(-1.0641564049320178e+00) * ($v_j_temp * #4.6330052531852528e-01)));
  (*925*) Do (AddA v_jac 223 (#2.9271916790490340e+00 * ($v_j_temp * #4.6330052531852528e-01)));
  (*926*) Do (AddA v_jac 224 (#(-1.9300756510553501e+00) * ($v_j_temp * #4.6330052531852528e-01)));
  (*927*) Do (AddA v_jac 233 (#6.2828341257988030e-02 * ($v_j_temp * #4.2731999023327338e-01)));
  (*928*) Do (AddA v_jac 234 (#(-9.9729722317107516e-01) * ($v_j_temp * #4.2731999023327338e-01)));
  (*929*) Do (AddA v_jac 244 (#2.7432810813101982e+00 * ($v_j_temp * #4.2731999023327338e-01)));
  (*930*) Do (AddA v_jac 245 (#(-1.8088121993971109e+00) * ($v_j_temp * #4.2731999023327338e-01)));
  (*931*) Do (AddA v_jac 254 (#3.5984491474595155e-02 * ($v_j_temp * #1.0994706834011048e-04)));
  (*932*) Do (AddA v_jac 255 (#(-5.7119498471996122e-01) * ($v_j_temp * #1.0994706834011048e-04)));
  (*933*) Do (AddA v_jac 265 (#1.5711949847199613e+00 * ($v_j_temp * #1.0994706834011048e-04)));
  (*934*) Do (AddA v_jac 266 (#(-1.0359844914745953e+00) * ($v_j_temp * #1.0994706834011048e-04)));
  (*935*) Do (AddA v_jac 275 (#2.2902626233248052e-02 * ($v_j_temp * #(-5.7102223643760053e-01) - $v_kr * v_conc.[1])));
  (*936*) Do (AddA v_jac 276 (#(-3.6354175660875532e-01) * ($v_j_temp * #(-5.7102223643760053e-01) - $v_kr * v_conc.[1])));
  (*937*) Do (AddA v_jac 286 ($v_j_temp * #(-5.7102223643760053e-01) - $v_kr * v_conc.[1]));
  (*938*) Do (AddA v_jac 287 (#(-6.5936086962449270e-01) * ($v_j_temp * #(-5.7102223643760053e-01) - $v_kr * v_conc.[1])));
  (*939*) Do (AddA v_jac 296 (#3.4734585093427126e-02 * ($v_j_temp * #(-3.5870588016911675e-02) + $v_kf * v_conc.[2])));
  (*940*) Do (AddA v_jac 297 (#(-5.5135476391826688e-01) * ($v_j_temp * #(-3.5870588016911675e-02) + $v_kf * v_conc.[2])));
  (*941*) Do (AddA v_jac 307 (#1.5166201788248397e+00 * ($v_j_temp * #(-3.5870588016911675e-02) + $v_kf * v_conc.[2])));
  (*942*) Do (AddA v_jac 308 ((- ($v_j_temp * #(-3.5870588016911675e-02) + $v_kf * v_conc.[2]))));
  (*943*) Do (AddA v_jac 317 (#3.3568593911733322e-02 * ($v_j_temp * #(-7.1851123102163683e-02))));
  (*944*) Do (AddA v_jac 318 (#(-5.3284655974699491e-01) * ($v_j_temp * #(-7.1851123102163683e-02))));
  (*945*) Do (AddA v_jac 328 (#1.4657093719235283e+00 * ($v_j_temp * #(-7.1851123102163683e-02))));
  (*946*) Do (AddA v_jac 329 (#(-9.6643140608826661e-01) * ($v_j_temp * #(-7.1851123102163683e-02))));
  (*947*) Do (AddA v_jac 338 (#3.2478341649959309e-02 * ($v_j_temp * #(-1.0783165818741525e-01))));
  (*948*) Do (AddA v_jac 339 (#(-5.1554058713252660e-01) * ($v_j_temp * #(-1.0783165818741525e-01))));
  (*949*) Do (AddA v_jac 349 (#1.4181055621826488e+00 * ($v_j_temp * #(-1.0783165818741525e-01))));
  (*950*) Do (AddA v_jac 350 (#(-9.3504331670008145e-01) * ($v_j_temp * #(-1.0783165818741525e-01))));
  (*951*) Do (AddA v_jac 359 (#3.5928873705342888e-02 * ($v_j_temp * #(-1.4378791924458678e-03))));
  (*952*) Do (AddA v_jac 360 (#(-5.7031214354154314e-01) * ($v_j_temp * #(-1.4378791924458678e-03))));
  (*953*) Do (AddA v_jac 370 (#1.5687665396724004e+00 * ($v_j_temp * #(-1.4378791924458678e-03))));
  (*954*) Do (AddA v_jac 371 (#(-1.0343832698362003e+00) * ($v_j_temp * #(-1.4378791924458678e-03))));
  (*955*) Do (AddA v_jac 380 (#3.4682761159877090e-02 * ($v_j_temp * #(-3.7418414277697654e-02))));
  (*956*) Do (AddA v_jac 381 (#(-5.5053214368051429e-01) * ($v_j_temp * #(-3.7418414277697654e-02))));
  (*957*) Do (AddA v_jac 391 (#1.5143573844613358e+00 * ($v_j_temp * #(-3.7418414277697654e-02))));
  (*958*) Do (AddA v_jac 392 (#(-9.9850800194069855e-01) * ($v_j_temp * #(-3.7418414277697654e-02))));
  (*959*) Do (AddA v_jac 401 (#3.3520188469166906e-02 * ($v_j_temp * #(-7.3398949362949439e-02))));
  (*960*) Do (AddA v_jac 402 (#(-5.3207820246600890e-01) * ($v_j_temp * #(-7.3398949362949439e-02))));
  (*961*) Do (AddA v_jac 412 (#1.4635958395245170e+00 * ($v_j_temp * #(-7.3398949362949439e-02))));
  (*962*) Do (AddA v_jac 413 (#(-9.6503782552767503e-01) * ($v_j_temp * #(-7.3398949362949439e-02))));
  (*963*) Do (AddA v_jac 422 (#2.5231300690898170e-02 * ($v_j_temp * #(-4.2602775520927771e-01))));
  (*964*) Do (AddA v_jac 423 (#(-4.0050565735456090e-01) * ($v_j_temp * #(-4.2602775520927771e-01))));
  (*965*) Do (AddA v_jac 433 (#1.1016771803344347e+00 * ($v_j_temp * #(-4.2602775520927771e-01))));
  (*966*) Do (AddA v_jac 434 (#(-7.2640282367077191e-01) * ($v_j_temp * #(-4.2602775520927771e-01))))]);
([
  (*969*) Do (Asn v_j_temp 0 (#1.0 / $v_T * ((v_fwd_rates.[10] - v_rev_rates.[10]) * (#1.7813972596014357e+03 / $v_T) + v_fwd_rates.[10] * #(-1.0) - v_rev_rates.[10] * (#(-1.0) + (- $v_T) * (v_dBdT.[13] + v_dBdT.[4] - v_dBdT.[14] - v_dBdT.[2]))) * $v_rho_inv));
  (*970*) Do (AddA v_jac 3 ((- $v_j_temp) * #1.5999400000000000e+01));
  (*971*) Do (AddA v_jac 5 ($v_j_temp * #1.7007339999999999e+01));
  (*972*) Do (AddA v_jac 14 ($v_j_temp * #2.9018339999999998e+01));
  (*973*) Do (AddA v_jac 15 ((- $v_j_temp) * #3.0026280000000000e+01))],
[
  (*976*) If ($v_T) (#1000.0)
    [Asn v_Kc 0 (#3.8448959199999955e-01 + #2.5121102000000040e-01 * $v_logT + $v_T * (#3.7712048449999999e-03 + $v_T * (#(-4.2611969583333330e-06) + $v_T * (#2.2384208091666667e-09 + #(-4.7940607800000004e-13) * $v_T))) - #(-7.3586569800000016e+03) / $v_T)]
    [Asn v_Kc 0 (#(-5.7005718100000005e+00) + #1.5349511899999999e+00 * $v_logT + $v_T * (#(-1.8043208651500001e-03) + $v_T * (#3.3711479484999995e-07 + $v_T * (#(-4.1264893141666657e-11) + #2.2773796795000006e-15 * $v_T))) - #(-7.3511716499999984e+03) / $v_T)];
  (*982*) Do (Asn v_Kc 0 ((Exp $v_Kc)));
  (*983*) Do (Asn v_j_temp 0 ((- $v_mw_avg) * $v_rho_inv * (#2.0 * v_fwd_rates.[10] - #2.0 * v_rev_rates.[10])));
  (*984*) Do (Asn v_kf 0 ((Exp (#2.4386827483076058e+01 - #1.7813972596014357e+03 / $v_T))));
  (*985*) Do (Asn v_kr 0 ($v_kf / $v_Kc));
  (*986*) Do (AddA v_jac 24 (#(-7.9366827390519274e+00) * ($v_j_temp * #9.2803892982949643e-01)));
  (*987*) Do (AddA v_jac 26 (#8.4366827390519266e+00 * ($v_j_temp * #9.2803892982949643e-01)));
  (*988*) Do (AddA v_jac 35 (#1.4394874694922315e+01 * ($v_j_temp * #9.2803892982949643e-01)));
  (*989*) Do (AddA v_jac 36 (#(-1.4894874694922317e+01) * ($v_j_temp * #9.2803892982949643e-01)));
  (*990*) Do (AddA v_jac 45 (#(-1.5873365478103855e+01) * ($v_j_temp * #9.6401946491474821e-01)));
  (*991*) Do (AddA v_jac 47 (#1.6873365478103853e+01 * ($v_j_temp * #9.6401946491474821e-01)));
  (*992*) Do (AddA v_jac 56 (#2.8789749389844630e+01 * ($v_j_temp * #9.6401946491474821e-01)));
  (*993*) Do (AddA v_jac 57 (#(-2.9789749389844633e+01) * ($v_j_temp * #9.6401946491474821e-01)));
  (*994*) Do (AddA v_jac 66 ((- ($v_j_temp * #4.2886781649405936e-01 + $v_kf * v_conc.[14]))));
  (*995*) Do (AddA v_jac 68 (#1.0629986124479667e+00 * ($v_j_temp * #4.2886781649405936e-01 + $v_kf * v_conc.[14])));
  (*996*) Do (AddA v_jac 77 (#1.8137142642849107e+00 * ($v_j_temp * #4.2886781649405936e-01 + $v_kf * v_conc.[14])));
  (*997*) Do (AddA v_jac 78 (#(-1.8767128767328776e+00) * ($v_j_temp * #4.2886781649405936e-01 + $v_kf * v_conc.[14])));
  (*998*) Do (AddA v_jac 87 (#(-5.0000000000000000e-01) * ($v_j_temp * #(-1.4226436701188128e-01))));
  (*999*) Do (AddA v_jac 89 (#5.3149930622398334e-01 * ($v_j_temp * #(-1.4226436701188128e-01))));
  (*1000*) Do (AddA v_jac 98 (#9.0685713214245534e-01 * ($v_j_temp * #(-1.4226436701188128e-01))));
  (*1001*) Do (AddA v_jac 99 (#(-9.3835643836643878e-01) * ($v_j_temp * #(-1.4226436701188128e-01))));
  (*1002*) Do (AddA v_jac 108 (#(-9.4073500029987056e-01) * ($v_j_temp * #3.9288728140880758e-01 - $v_kr * v_conc.[13])));
  (*1003*) Do (AddA v_jac 110 ($v_j_temp * #3.9288728140880758e-01 - $v_kr * v_conc.[13]));
  (*1004*) Do (AddA v_jac 119 (#1.7062244889559448e+00 * ($v_j_temp * #3.9288728140880758e-01 - $v_kr * v_conc.[13])));
  (*1005*) Do (AddA v_jac 120 (#(-1.7654894886560744e+00) * ($v_j_temp * #3.9288728140880758e-01 - $v_kr * v_conc.[13])));
  (*1006*) Do (AddA v_jac 129 (#(-8.8810165592763468e-01) * ($v_j_temp * #3.5690674632355568e-01)));
  (*1007*) Do (AddA v_jac 131 (#9.4405082796381734e-01 * ($v_j_temp * #3.5690674632355568e-01)));
  (*1008*) Do (AddA v_jac 140 (#1.6107626414910008e+00 * ($v_j_temp * #3.5690674632355568e-01)));
  (*1009*) Do (AddA v_jac 141 (#(-1.6667118135271835e+00) * ($v_j_temp * #3.5690674632355568e-01)));
  (*1010*) Do (AddA v_jac 150 (#(-4.8473130033441653e-01) * ($v_j_temp * #(-1.7824490209713328e-01))));
  (*1011*) Do (AddA v_jac 152 (#5.1526869966558342e-01 * ($v_j_temp * #(-1.7824490209713328e-01))));
  (*1012*) Do (AddA v_jac 161 (#8.7916407376190431e-01 * ($v_j_temp * #(-1.7824490209713328e-01))));
  (*1013*) Do (AddA v_jac 162 (#(-9.0970147309307126e-01) * ($v_j_temp * #(-1.7824490209713328e-01))));
  (*1014*) Do (AddA v_jac 171 (#(-1.1406242870830863e+00) * ($v_j_temp * #4.9928106040377707e-01)));
  (*1015*) Do (AddA v_jac 173 (#1.2124820344937721e+00 * ($v_j_temp * #4.9928106040377707e-01)));
  (*1016*) Do (AddA v_jac 182 (#2.0687665396724007e+00 * ($v_j_temp * #4.9928106040377707e-01)));
  (*1017*) Do (AddA v_jac 183 (#(-2.1406242870830865e+00) * ($v_j_temp * #4.9928106040377707e-01)));
  (*1018*) Do (AddA v_jac 192 (#(-1.1406242870830863e+00) * ($v_j_temp * #4.9928106040377707e-01)));
  (*1019*) Do (AddA v_jac 194 (#1.2124820344937721e+00 * ($v_j_temp * #4.9928106040377707e-01)));
  (*1020*) Do (AddA v_jac 203 (#2.0687665396724007e+00 * ($v_j_temp * #4.9928106040377707e-01)));
  (*1021*) Do (AddA v_jac 204 (#(-2.1406242870830865e+00) * ($v_j_temp * #4.9928106040377707e-01)));
  (*1022*) Do (AddA v_jac 213 (#(-1.0641564049320178e+00) * ($v_j_temp * #4.6330052531852528e-01)));
  (*1023*) Do (AddA v_jac 215 (#1.1311967818703517e+00 * ($v_j_temp * #4.6330052531852528e-01)));
  (*1024*) Do (AddA v_jac 224 (#1.9300756510553501e+00 * ($v_j_temp * #4.6330052531852528e-01)));
  (*1025*) Do (AddA v_jac 225 (#(-1.9971160279936839e+00) * ($v_j_temp * #4.6330052531852528e-01)));
  (*1026*) Do (AddA v_jac 234 (#(-9.9729722317107516e-01) * ($v_j_temp * #4.2731999023327338e-01)));
  (*1027*) Do (AddA v_jac 236 (#1.0601255644290632e+00 * ($v_j_temp * #4.2731999023327338e-01)));
  (*1028*) Do (AddA v_jac 245 (#1.8088121993971109e+00 * ($v_j_temp * #4.2731999023327338e-01)));
  (*1029*) Do (AddA v_jac 246 (#(-1.8716405406550991e+00) * ($v_j_temp * #4.2731999023327338e-01)));
  (*1030*) Do (AddA v_jac 255 (#(-5.7119498471996122e-01) * ($v_j_temp * #1.0994706834011048e-04)));
  (*1031*) Do (AddA v_jac 257 (#6.0717947619455637e-01 * ($v_j_temp * #1.0994706834011048e-04)));
  (*1032*) Do (AddA v_jac 266 (#1.0359844914745953e+00 * ($v_j_temp * #1.0994706834011048e-04)));
  (*1033*) Do (AddA v_jac 267 (#(-1.0719689829491903e+00) * ($v_j_temp * #1.0994706834011048e-04)));
  (*1034*) Do (AddA v_jac 276 (#(-3.6354175660875532e-01) * ($v_j_temp * #(-5.7102223643760053e-01))));
  (*1035*) Do (AddA v_jac 278 (#3.8644438284200339e-01 * ($v_j_temp * #(-5.7102223643760053e-01))));
  (*1036*) Do (AddA v_jac 287 (#6.5936086962449270e-01 * ($v_j_temp * #(-5.7102223643760053e-01))));
  (*1037*) Do (AddA v_jac 288 (#(-6.8226349585774082e-01) * ($v_j_temp * #(-5.7102223643760053e-01))));
  (*1038*) Do (AddA v_jac 297 (#(-5.5135476391826688e-01) * ($v_j_temp * #(-3.5870588016911675e-02) - $v_kr * v_conc.[4])));
  (*1039*) Do (AddA v_jac 299 (#5.8608934901169396e-01 * ($v_j_temp * #(-3.5870588016911675e-02) - $v_kr * v_conc.[4])));
  (*1040*) Do (AddA v_jac 308 ($v_j_temp * #(-3.5870588016911675e-02) - $v_kr * v_conc.[4]));
  (*1041*) Do (AddA v_jac 309 (#(-1.0347345850934271e+00) * ($v_j_temp * #(-3.5870588016911675e-02) - $v_kr * v_conc.[4])));
  (*1042*) Do (AddA v_jac 318 (#(-5.3284655974699491e-01) * ($v_j_temp * #(-7.1851123102163683e-02) + $v_kf * v_conc.[2])));
  (*1043*) Do (AddA v_jac 320 (#5.6641515365872830e-01 * ($v_j_temp * #(-7.1851123102163683e-02) + $v_kf * v_conc.[2])));
  (*1044*) Do (AddA v_jac 329 (#9.6643140608826661e-01 * ($v_j_temp * #(-7.1851123102163683e-02) + $v_kf * v_conc.[2])));
  (*1045*) Do (AddA v_jac 330 ((- ($v_j_temp * #(-7.1851123102163683e-02) + $v_kf * v_conc.[2]))));
  (*1046*) Do (AddA v_jac 339 (#(-5.1554058713252660e-01) * ($v_j_temp * #(-1.0783165818741525e-01))));
  (*1047*) Do (AddA v_jac 341 (#5.4801892878248593e-01 * ($v_j_temp * #(-1.0783165818741525e-01))));
  (*1048*) Do (AddA v_jac 350 (#9.3504331670008145e-01 * ($v_j_temp * #(-1.0783165818741525e-01))));
  (*1049*) Do (AddA v_jac 351 (#(-9.6752165835004078e-01) * ($v_j_temp * #(-1.0783165818741525e-01))));
  (*1050*) Do (AddA v_jac 360 (#(-5.7031214354154314e-01) * ($v_j_temp * #(-1.4378791924458678e-03))));
  (*1051*) Do (AddA v_jac 362 (#6.0624101724688606e-01 * ($v_j_temp * #(-1.4378791924458678e-03))));
  (*1052*) Do (AddA v_jac 371 (#1.0343832698362003e+00 * ($v_j_temp * #(-1.4378791924458678e-03))));
  (*1053*) Do (AddA v_jac 372 (#(-1.0703121435415432e+00) * ($v_j_temp * #(-1.4378791924458678e-03))));
  (*1054*) Do (AddA v_jac 381 (#(-5.5053214368051429e-01) * ($v_j_temp * #(-3.7418414277697654e-02))));
  (*1055*) Do (AddA v_jac 383 (#5.8521490484039129e-01 * ($v_j_temp * #(-3.7418414277697654e-02))));
  (*1056*) Do (AddA v_jac 392 (#9.9850800194069855e-01 * ($v_j_temp * #(-3.7418414277697654e-02))));
  (*1057*) Do (AddA v_jac 393 (#(-1.0331907631005757e+00) * ($v_j_temp * #(-3.7418414277697654e-02))));
  (*1058*) Do (AddA v_jac 402 (#(-5.3207820246600890e-01) * ($v_j_temp * #(-7.3398949362949439e-02))));
  (*1059*) Do (AddA v_jac 404 (#5.6559839093517583e-01 * ($v_j_temp * #(-7.3398949362949439e-02))));
  (*1060*) Do (AddA v_jac 413 (#9.6503782552767503e-01 * ($v_j_temp * #(-7.3398949362949439e-02))));
  (*1061*) Do (AddA v_jac 414 (#(-9.9855801399684196e-01) * ($v_j_temp * #(-7.3398949362949439e-02))));
  (*1062*) Do (AddA v_jac 423 (#(-4.0050565735456090e-01) * ($v_j_temp * #(-4.2602775520927771e-01))));
  (*1063*) Do (AddA v_jac 425 (#4.2573695804545908e-01 * ($v_j_temp * #(-4.2602775520927771e-01))));
  (*1064*) Do (AddA v_jac 434 (#7.2640282367077191e-01 * ($v_j_temp * #(-4.2602775520927771e-01))));
  (*1065*) Do (AddA v_jac 435 (#(-7.5163412436167021e-01) * ($v_j_temp * #(-4.2602775520927771e-01))))]);
([
  (*1068*) Do (Asn v_j_temp 0 (#1.0 / $v_T * ((v_fwd_rates.[11] - v_rev_rates.[11]) * (#1.8300000000000001e+00 + #1.1070830426901578e+02 / $v_T) + v_fwd_rates.[11] * #(-1.0) - v_rev_rates.[11] * (#(-1.0) + (- $v_T) * (v_dBdT.[9] + v_dBdT.[13] - v_dBdT.[16] - v_dBdT.[2]))) * $v_rho_inv));
  (*1069*) Do (Asn v_jac 17 ((- $v_j_temp) * #2.8053759999999997e+01));
  (*1070*) Do (AddA v_jac 10 ($v_j_temp * #1.5034820000000000e+01));
  (*1071*) Do (AddA v_jac 3 ((- $v_j_temp) * #1.5999400000000000e+01));
  (*1072*) Do (AddA v_jac 14 ($v_j_temp * #2.9018339999999998e+01))],
[
  (*1075*) If ($v_T) (#1000.0)
    [Asn v_Kc 0 (#(-1.9176353200000000e+00) + #7.6730766000000061e-01 * $v_logT + $v_T * (#4.8084338700000000e-03 + $v_T * (#(-7.3719883333333318e-06) + $v_T * (#4.5917798324999999e-09 + #(-1.1109775509999999e-12) * $v_T))) - #(-1.3927471369999999e+04) / $v_T)]
    [Asn v_Kc 0 (#2.7363486099999994e+00 + #4.5236016000000001e-01 * $v_logT + $v_T * (#(-1.1812926781500001e-03) + $v_T * (#1.9953851351666676e-07 + $v_T * (#(-2.3113752341666686e-11) + #1.2205706795000001e-15 * $v_T))) - #(-1.3369962790000000e+04) / $v_T)];
  (*1081*) Do (Asn v_Kc 0 ((Exp $v_Kc)));
  (*1082*) Do (Asn v_j_temp 0 ((- $v_mw_avg) * $v_rho_inv * (#2.0 * v_fwd_rates.[11] - #2.0 * v_rev_rates.[11])));
  (*1083*) Do (Asn v_kf 0 ((Exp (#9.8626655580158733e+00 + #1.83 * $v_logT - #1.1070830426901578e+02 / $v_T))));
  (*1084*) Do (Asn v_kr 0 ($v_kf / $v_Kc));
  (*1085*) Do (Asn v_jac 38 (#(-1.3916383911740775e+01) * ($v_j_temp * #9.2803892982949643e-01)));
  (*1086*) Do (AddA v_jac 31 (#7.4581919558703884e+00 * ($v_j_temp * #9.2803892982949643e-01)));
  (*1087*) Do (AddA v_jac 24 (#(-7.9366827390519274e+00) * ($v_j_temp * #9.2803892982949643e-01)));
  (*1088*) Do (AddA v_jac 35 (#1.4394874694922315e+01 * ($v_j_temp * #9.2803892982949643e-01)));
  (*1089*) Do (Asn v_jac 59 (#(-2.7832767823481550e+01) * ($v_j_temp * #9.6401946491474821e-01)));
  (*1090*) Do (AddA v_jac 52 (#1.4916383911740777e+01 * ($v_j_temp * #9.6401946491474821e-01)));
  (*1091*) Do (AddA v_jac 45 (#(-1.5873365478103855e+01) * ($v_j_temp * #9.6401946491474821e-01)));
  (*1092*) Do (AddA v_jac 56 (#2.8789749389844630e+01 * ($v_j_temp * #9.6401946491474821e-01)));
  (*1093*) Do (Asn v_jac 80 (#(-1.7534257534657549e+00) * ($v_j_temp * #4.2886781649405936e-01 + $v_kf * v_conc.[16])));
  (*1094*) Do (AddA v_jac 73 (#9.3971148918084424e-01 * ($v_j_temp * #4.2886781649405936e-01 + $v_kf * v_conc.[16])));
  (*1095*) Do (AddA v_jac 66 ((- ($v_j_temp * #4.2886781649405936e-01 + $v_kf * v_conc.[16]))));
  (*1096*) Do (AddA v_jac 77 (#1.8137142642849107e+00 * ($v_j_temp * #4.2886781649405936e-01 + $v_kf * v_conc.[16])));
  (*1097*) Do (Asn v_jac 101 (#(-8.7671287673287746e-01) * ($v_j_temp * #(-1.4226436701188128e-01))));
  (*1098*) Do (AddA v_jac 94 (#4.6985574459042212e-01 * ($v_j_temp * #(-1.4226436701188128e-01))));
  (*1099*) Do (AddA v_jac 87 (#(-5.0000000000000000e-01) * ($v_j_temp * #(-1.4226436701188128e-01))));
  (*1100*) Do (AddA v_jac 98 (#9.0685713214245534e-01 * ($v_j_temp * #(-1.4226436701188128e-01))));
  (*1101*) Do (Asn v_jac 122 (#(-1.6495089767124076e+00) * ($v_j_temp * #3.9288728140880758e-01)));
  (*1102*) Do (AddA v_jac 115 (#8.8401948805633335e-01 * ($v_j_temp * #3.9288728140880758e-01)));
  (*1103*) Do (AddA v_jac 108 (#(-9.4073500029987056e-01) * ($v_j_temp * #3.9288728140880758e-01)));
  (*1104*) Do (AddA v_jac 119 (#1.7062244889559448e+00 * ($v_j_temp * #3.9288728140880758e-01)));
  (*1105*) Do (Asn v_jac 143 (#(-1.5572203151990975e+00) * ($v_j_temp * #3.5690674632355568e-01)));
  (*1106*) Do (AddA v_jac 136 (#8.3455932963573143e-01 * ($v_j_temp * #3.5690674632355568e-01)));
  (*1107*) Do (AddA v_jac 129 (#(-8.8810165592763468e-01) * ($v_j_temp * #3.5690674632355568e-01)));
  (*1108*) Do (AddA v_jac 140 (#1.6107626414910008e+00 * ($v_j_temp * #3.5690674632355568e-01)));
  (*1109*) Do (Asn v_jac 164 (#(-8.4994034551730935e-01) * ($v_j_temp * #(-1.7824490209713328e-01))));
  (*1110*) Do (AddA v_jac 157 (#4.5550757208982162e-01 * ($v_j_temp * #(-1.7824490209713328e-01))));
  (*1111*) Do (AddA v_jac 150 (#(-4.8473130033441653e-01) * ($v_j_temp * #(-1.7824490209713328e-01))));
  (*1112*) Do (AddA v_jac 161 (#8.7916407376190431e-01 * ($v_j_temp * #(-1.7824490209713328e-01))));
  (*1113*) Do (Asn v_jac 185 (#(-2.0000000000000000e+00) * ($v_j_temp * #4.9928106040377707e-01)));
  (*1114*) Do (AddA v_jac 178 (#1.0718577474106858e+00 * ($v_j_temp * #4.9928106040377707e-01)));
  (*1115*) Do (AddA v_jac 171 (#(-1.1406242870830863e+00) * ($v_j_temp * #4.9928106040377707e-01)));
  (*1116*) Do (AddA v_jac 182 (#2.0687665396724007e+00 * ($v_j_temp * #4.9928106040377707e-01)));
  (*1117*) Do (Asn v_jac 206 (#(-2.0000000000000000e+00) * ($v_j_temp * #4.9928106040377707e-01)));
  (*1118*) Do (AddA v_jac 199 (#1.0718577474106858e+00 * ($v_j_temp * #4.9928106040377707e-01)));
  (*1119*) Do (AddA v_jac 192 (#(-1.1406242870830863e+00) * ($v_j_temp * #4.9928106040377707e-01)));
  (*1120*) Do (AddA v_jac 203 (#2.0687665396724007e+00 * ($v_j_temp * #4.9928106040377707e-01)));
  (*1121*) Do (Asn v_jac 227 (#(-1.8659192461233323e+00) * ($v_j_temp * #4.6330052531852528e-01 - $v_kr * v_conc.[13])));
  (*1122*) Do (AddA v_jac 220 ($v_j_temp * #4.6330052531852528e-01 - $v_kr * v_conc.[13]));
  (*1123*) Do (AddA v_jac 213 (#(-1.0641564049320178e+00) * ($v_j_temp * #4.6330052531852528e-01 - $v_kr * v_conc.[13])));
  (*1124*) Do (AddA v_jac 224 (#1.9300756510553501e+00 * ($v_j_temp * #4.6330052531852528e-01 - $v_kr * v_conc.[13])));
  (*1125*) Do (Asn v_jac 248 (#(-1.7486866349680477e+00) * ($v_j_temp * #4.2731999023327338e-01)));
  (*1126*) Do (AddA v_jac 241 (#9.3717165874201191e-01 * ($v_j_temp * #4.2731999023327338e-01)));
  (*1127*) Do (AddA v_jac 234 (#(-9.9729722317107516e-01) * ($v_j_temp * #4.2731999023327338e-01)));
  (*1128*) Do (AddA v_jac 245 (#1.8088121993971109e+00 * ($v_j_temp * #4.2731999023327338e-01)));
  (*1129*) Do (Asn v_jac 269 (#(-1.0015479964584584e+00) * ($v_j_temp * #1.0994706834011048e-04)));
  (*1130*) Do (AddA v_jac 262 (#5.3675848970382434e-01 * ($v_j_temp * #1.0994706834011048e-04)));
  (*1131*) Do (AddA v_jac 255 (#(-5.7119498471996122e-01) * ($v_j_temp * #1.0994706834011048e-04)));
  (*1132*) Do (AddA v_jac 266 (#1.0359844914745953e+00 * ($v_j_temp * #1.0994706834011048e-04)));
  (*1133*) Do (Asn v_jac 290 (#(-6.3744347849797089e-01) * ($v_j_temp * #(-5.7102223643760053e-01))));
  (*1134*) Do (AddA v_jac 283 (#3.4162436548223352e-01 * ($v_j_temp * #(-5.7102223643760053e-01))));
  (*1135*) Do (AddA v_jac 276 (#(-3.6354175660875532e-01) * ($v_j_temp * #(-5.7102223643760053e-01))));
  (*1136*) Do (AddA v_jac 287 (#6.5936086962449270e-01 * ($v_j_temp * #(-5.7102223643760053e-01))));
  (*1137*) Do (Asn v_jac 311 (#(-9.6675964235032041e-01) * ($v_j_temp * #(-3.5870588016911675e-02) - $v_kr * v_conc.[9])));
  (*1138*) Do (AddA v_jac 304 (#5.1811440626858740e-01 * ($v_j_temp * #(-3.5870588016911675e-02) - $v_kr * v_conc.[9])));
  (*1139*) Do (AddA v_jac 297 (#(-5.5135476391826688e-01) * ($v_j_temp * #(-3.5870588016911675e-02) - $v_kr * v_conc.[9])));
  (*1140*) Do (AddA v_jac 308 ($v_j_temp * #(-3.5870588016911675e-02) - $v_kr * v_conc.[9]));
  (*1141*) Do (Asn v_jac 332 (#(-9.3430688050600996e-01) * ($v_j_temp * #(-7.1851123102163683e-02))));
  (*1142*) Do (AddA v_jac 325 (#5.0072203416473837e-01 * ($v_j_temp * #(-7.1851123102163683e-02))));
  (*1143*) Do (AddA v_jac 318 (#(-5.3284655974699491e-01) * ($v_j_temp * #(-7.1851123102163683e-02))));
  (*1144*) Do (AddA v_jac 329 (#9.6643140608826661e-01 * ($v_j_temp * #(-7.1851123102163683e-02))));
  (*1145*) Do (Asn v_jac 353 (#(-9.0396214243502815e-01) * ($v_j_temp * #(-1.0783165818741525e-01))));
  (*1146*) Do (AddA v_jac 346 (#4.8445941286747340e-01 * ($v_j_temp * #(-1.0783165818741525e-01))));
  (*1147*) Do (AddA v_jac 339 (#(-5.1554058713252660e-01) * ($v_j_temp * #(-1.0783165818741525e-01))));
  (*1148*) Do (AddA v_jac 350 (#9.3504331670008145e-01 * ($v_j_temp * #(-1.0783165818741525e-01))));
  (*1149*) Do (Asn v_jac 374 ((- ($v_j_temp * #(-1.4378791924458678e-03) + $v_kf * v_conc.[2]))));
  (*1150*) Do (AddA v_jac 367 (#5.3592887370534292e-01 * ($v_j_temp * #(-1.4378791924458678e-03) + $v_kf * v_conc.[2])));
  (*1151*) Do (AddA v_jac 360 (#(-5.7031214354154314e-01) * ($v_j_temp * #(-1.4378791924458678e-03) + $v_kf * v_conc.[2])));
  (*1152*) Do (AddA v_jac 371 (#1.0343832698362003e+00 * ($v_j_temp * #(-1.4378791924458678e-03) + $v_kf * v_conc.[2])));
  (*1153*) Do (Asn v_jac 395 (#(-9.6531723884012288e-01) * ($v_j_temp * #(-3.7418414277697654e-02))));
  (*1154*) Do (AddA v_jac 388 (#5.1734138057993861e-01 * ($v_j_temp * #(-3.7418414277697654e-02))));
  (*1155*) Do (AddA v_jac 381 (#(-5.5053214368051429e-01) * ($v_j_temp * #(-3.7418414277697654e-02))));
  (*1156*) Do (AddA v_jac 392 (#9.9850800194069855e-01 * ($v_j_temp * #(-3.7418414277697654e-02))));
  (*1157*) Do (Asn v_jac 416 (#(-9.3295962306166613e-01) * ($v_j_temp * #(-7.3398949362949439e-02))));
  (*1158*) Do (AddA v_jac 409 (#5.0000000000000000e-01 * ($v_j_temp * #(-7.3398949362949439e-02))));
  (*1159*) Do (AddA v_jac 402 (#(-5.3207820246600890e-01) * ($v_j_temp * #(-7.3398949362949439e-02))));
  (*1160*) Do (AddA v_jac 413 (#9.6503782552767503e-01 * ($v_j_temp * #(-7.3398949362949439e-02))));
  (*1161*) Do (Asn v_jac 437 (#(-7.0225693401421840e-01) * ($v_j_temp * #(-4.2602775520927771e-01))));
  (*1162*) Do (AddA v_jac 430 (#3.7635976769800739e-01 * ($v_j_temp * #(-4.2602775520927771e-01))));
  (*1163*) Do (AddA v_jac 423 (#(-4.0050565735456090e-01) * ($v_j_temp * #(-4.2602775520927771e-01))));
  (*1164*) Do (AddA v_jac 434 (#7.2640282367077191e-01 * ($v_j_temp * #(-4.2602775520927771e-01))))]);
([
  (*1167*) Do (Asn v_j_temp 0 (#1.0 / $v_T * (v_fwd_rates.[12] * #(-1.0) - v_rev_rates.[12] * (#(-1.0) + (- $v_T) * (v_dBdT.[14] + v_dBdT.[9] - v_dBdT.[17] - v_dBdT.[2]))) * $v_rho_inv));
  (*1168*) Do (Asn v_jac 18 ((- $v_j_temp) * #2.9061699999999998e+01));
  (*1169*) Do (AddA v_jac 3 ((- $v_j_temp) * #1.5999400000000000e+01));
  (*1170*) Do (AddA v_jac 15 ($v_j_temp * #3.0026280000000000e+01));
  (*1171*) Do (AddA v_jac 10 ($v_j_temp * #1.5034820000000000e+01))],
[
  (*1174*) If ($v_T) (#1000.0)
    [Asn v_Kc 0 (#(-5.5443462400000003e+00) + #9.9258077000000000e-01 * $v_logT + $v_T * (#(-2.1573708999999977e-04) + $v_T * (#(-2.2175208833333337e-06) + $v_T * (#1.7700855408333332e-09 + #(-4.7212187850000007e-13) * $v_T))) - #(-3.9827843600000000e+04) / $v_T)]
    [Asn v_Kc 0 (#4.3672912500000018e+00 + #(-4.7766940000000013e-01) * $v_logT + $v_T * (#(-4.3569844815000060e-04) + $v_T * (#8.8397768516666832e-08 + $v_T * (#(-1.1671862174999990e-11) + #6.6561178449999852e-16 * $v_T))) - #(-3.9295347099999999e+04) / $v_T)];
  (*1180*) Do (Asn v_Kc 0 ((Exp $v_Kc)));
  (*1181*) Do (Asn v_j_temp 0 ((- $v_mw_avg) * $v_rho_inv * (#2.0 * v_fwd_rates.[12] - #2.0 * v_rev_rates.[12])));
  (*1182*) Do (Asn v_kf 0 (#1.32e+11));
  (*1183*) Do (Asn v_kr 0 ($v_kf / $v_Kc));
  (*1184*) Do (Asn v_jac 39 (#(-1.4416383911740777e+01) * ($v_j_temp * #9.2803892982949643e-01)));
  (*1185*) Do (AddA v_jac 24 (#(-7.9366827390519274e+00) * ($v_j_temp * #9.2803892982949643e-01)));
  (*1186*) Do (AddA v_jac 36 (#1.4894874694922317e+01 * ($v_j_temp * #9.2803892982949643e-01)));
  (*1187*) Do (AddA v_jac 31 (#7.4581919558703884e+00 * ($v_j_temp * #9.2803892982949643e-01)));
  (*1188*) Do (Asn v_jac 60 (#(-2.8832767823481554e+01) * ($v_j_temp * #9.6401946491474821e-01)));
  (*1189*) Do (AddA v_jac 45 (#(-1.5873365478103855e+01) * ($v_j_temp * #9.6401946491474821e-01)));
  (*1190*) Do (AddA v_jac 57 (#2.9789749389844633e+01 * ($v_j_temp * #9.6401946491474821e-01)));
  (*1191*) Do (AddA v_jac 52 (#1.4916383911740777e+01 * ($v_j_temp * #9.6401946491474821e-01)));
  (*1192*) Do (Asn v_jac 81 (#(-1.8164243659137218e+00) * ($v_j_temp * #4.2886781649405936e-01 + $v_kf * v_conc.[17])));
  (*1193*) Do (AddA v_jac 66 ((- ($v_j_temp * #4.2886781649405936e-01 + $v_kf * v_conc.[17]))));
  (*1194*) Do (AddA v_jac 78 (#1.8767128767328776e+00 * ($v_j_temp * #4.2886781649405936e-01 + $v_kf * v_conc.[17])));
  (*1195*) Do (AddA v_jac 73 (#9.3971148918084424e-01 * ($v_j_temp * #4.2886781649405936e-01 + $v_kf * v_conc.[17])));
  (*1196*) Do (Asn v_jac 102 (#(-9.0821218295686090e-01) * ($v_j_temp * #(-1.4226436701188128e-01))));
  (*1197*) Do (AddA v_jac 87 (#(-5.0000000000000000e-01) * ($v_j_temp * #(-1.4226436701188128e-01))));
  (*1198*) Do (AddA v_jac 99 (#9.3835643836643878e-01 * ($v_j_temp * #(-1.4226436701188128e-01))));
  (*1199*) Do (AddA v_jac 94 (#4.6985574459042212e-01 * ($v_j_temp * #(-1.4226436701188128e-01))));
  (*1200*) Do (Asn v_jac 123 (#(-1.7087739764125371e+00) * ($v_j_temp * #3.9288728140880758e-01)));
  (*1201*) Do (AddA v_jac 108 (#(-9.4073500029987056e-01) * ($v_j_temp * #3.9288728140880758e-01)));
  (*1202*) Do (AddA v_jac 120 (#1.7654894886560744e+00 * ($v_j_temp * #3.9288728140880758e-01)));
  (*1203*) Do (AddA v_jac 115 (#8.8401948805633335e-01 * ($v_j_temp * #3.9288728140880758e-01)));
  (*1204*) Do (Asn v_jac 144 (#(-1.6131694872352802e+00) * ($v_j_temp * #3.5690674632355568e-01)));
  (*1205*) Do (AddA v_jac 129 (#(-8.8810165592763468e-01) * ($v_j_temp * #3.5690674632355568e-01)));
  (*1206*) Do (AddA v_jac 141 (#1.6667118135271835e+00 * ($v_j_temp * #3.5690674632355568e-01)));
  (*1207*) Do (AddA v_jac 136 (#8.3455932963573143e-01 * ($v_j_temp * #3.5690674632355568e-01)));
  (*1208*) Do (Asn v_jac 165 (#(-8.8047774484847630e-01) * ($v_j_temp * #(-1.7824490209713328e-01))));
  (*1209*) Do (AddA v_jac 150 (#(-4.8473130033441653e-01) * ($v_j_temp * #(-1.7824490209713328e-01))));
  (*1210*) Do (AddA v_jac 162 (#9.0970147309307126e-01 * ($v_j_temp * #(-1.7824490209713328e-01))));
  (*1211*) Do (AddA v_jac 157 (#4.5550757208982162e-01 * ($v_j_temp * #(-1.7824490209713328e-01))));
  (*1212*) Do (Asn v_jac 186 (#(-2.0718577474106858e+00) * ($v_j_temp * #4.9928106040377707e-01)));
  (*1213*) Do (AddA v_jac 171 (#(-1.1406242870830863e+00) * ($v_j_temp * #4.9928106040377707e-01)));
  (*1214*) Do (AddA v_jac 183 (#2.1406242870830865e+00 * ($v_j_temp * #4.9928106040377707e-01)));
  (*1215*) Do (AddA v_jac 178 (#1.0718577474106858e+00 * ($v_j_temp * #4.9928106040377707e-01)));
  (*1216*) Do (Asn v_jac 207 (#(-2.0718577474106858e+00) * ($v_j_temp * #4.9928106040377707e-01)));
  (*1217*) Do (AddA v_jac 192 (#(-1.1406242870830863e+00) * ($v_j_temp * #4.9928106040377707e-01)));
  (*1218*) Do (AddA v_jac 204 (#2.1406242870830865e+00 * ($v_j_temp * #4.9928106040377707e-01)));
  (*1219*) Do (AddA v_jac 199 (#1.0718577474106858e+00 * ($v_j_temp * #4.9928106040377707e-01)));
  (*1220*) Do (Asn v_jac 228 (#(-1.9329596230616661e+00) * ($v_j_temp * #4.6330052531852528e-01 - $v_kr * v_conc.[14])));
  (*1221*) Do (AddA v_jac 213 (#(-1.0641564049320178e+00) * ($v_j_temp * #4.6330052531852528e-01 - $v_kr * v_conc.[14])));
  (*1222*) Do (AddA v_jac 225 (#1.9971160279936839e+00 * ($v_j_temp * #4.6330052531852528e-01 - $v_kr * v_conc.[14])));
  (*1223*) Do (AddA v_jac 220 ($v_j_temp * #4.6330052531852528e-01 - $v_kr * v_conc.[14]));
  (*1224*) Do (Asn v_jac 249 (#(-1.8115149762260356e+00) * ($v_j_temp * #4.2731999023327338e-01)));
  (*1225*) Do (AddA v_jac 234 (#(-9.9729722317107516e-01) * ($v_j_temp * #4.2731999023327338e-01)));
  (*1226*) Do (AddA v_jac 246 (#1.8716405406550991e+00 * ($v_j_temp * #4.2731999023327338e-01)));
  (*1227*) Do (AddA v_jac 241 (#9.3717165874201191e-01 * ($v_j_temp * #4.2731999023327338e-01)));
  (*1228*) Do (Asn v_jac 270 (#(-1.0375324879330534e+00) * ($v_j_temp * #1.0994706834011048e-04)));
  (*1229*) Do (AddA v_jac 255 (#(-5.7119498471996122e-01) * ($v_j_temp * #1.0994706834011048e-04)));
  (*1230*) Do (AddA v_jac 267 (#1.0719689829491903e+00 * ($v_j_temp * #1.0994706834011048e-04)));
  (*1231*) Do (AddA v_jac 262 (#5.3675848970382434e-01 * ($v_j_temp * #1.0994706834011048e-04)));
  (*1232*) Do (Asn v_jac 291 (#(-6.6034610473121891e-01) * ($v_j_temp * #(-5.7102223643760053e-01))));
  (*1233*) Do (AddA v_jac 276 (#(-3.6354175660875532e-01) * ($v_j_temp * #(-5.7102223643760053e-01))));
  (*1234*) Do (AddA v_jac 288 (#6.8226349585774082e-01 * ($v_j_temp * #(-5.7102223643760053e-01))));
  (*1235*) Do (AddA v_jac 283 (#3.4162436548223352e-01 * ($v_j_temp * #(-5.7102223643760053e-01))));
  (*1236*) Do (Asn v_jac 312 (#(-1.0014942274437477e+00) * ($v_j_temp * #(-3.5870588016911675e-02))));
  (*1237*) Do (AddA v_jac 297 (#(-5.5135476391826688e-01) * ($v_j_temp * #(-3.5870588016911675e-02))));
  (*1238*) Do (AddA v_jac 309 (#1.0347345850934271e+00 * ($v_j_temp * #(-3.5870588016911675e-02))));
  (*1239*) Do (AddA v_jac 304 (#5.1811440626858740e-01 * ($v_j_temp * #(-3.5870588016911675e-02))));
  (*1240*) Do (Asn v_jac 333 (#(-9.6787547441774335e-01) * ($v_j_temp * #(-7.1851123102163683e-02) - $v_kr * v_conc.[9])));
  (*1241*) Do (AddA v_jac 318 (#(-5.3284655974699491e-01) * ($v_j_temp * #(-7.1851123102163683e-02) - $v_kr * v_conc.[9])));
  (*1242*) Do (AddA v_jac 330 ($v_j_temp * #(-7.1851123102163683e-02) - $v_kr * v_conc.[9]));
  (*1243*) Do (AddA v_jac 325 (#5.0072203416473837e-01 * ($v_j_temp * #(-7.1851123102163683e-02) - $v_kr * v_conc.[9])));
  (*1244*) Do (Asn v_jac 354 (#(-9.3644048408498748e-01) * ($v_j_temp * #(-1.0783165818741525e-01))));
  (*1245*) Do (AddA v_jac 339 (#(-5.1554058713252660e-01) * ($v_j_temp * #(-1.0783165818741525e-01))));
  (*1246*) Do (AddA v_jac 351 (#9.6752165835004078e-01 * ($v_j_temp * #(-1.0783165818741525e-01))));
  (*1247*) Do (AddA v_jac 346 (#4.8445941286747340e-01 * ($v_j_temp * #(-1.0783165818741525e-01))));
  (*1248*) Do (Asn v_jac 375 (#(-1.0359288737053429e+00) * ($v_j_temp * #(-1.4378791924458678e-03))));
  (*1249*) Do (AddA v_jac 360 (#(-5.7031214354154314e-01) * ($v_j_temp * #(-1.4378791924458678e-03))));
  (*1250*) Do (AddA v_jac 372 (#1.0703121435415432e+00 * ($v_j_temp * #(-1.4378791924458678e-03))));
  (*1251*) Do (AddA v_jac 367 (#5.3592887370534292e-01 * ($v_j_temp * #(-1.4378791924458678e-03))));
  (*1252*) Do (Asn v_jac 396 ((- ($v_j_temp * #(-3.7418414277697654e-02) + $v_kf * v_conc.[2]))));
  (*1253*) Do (AddA v_jac 381 (#(-5.5053214368051429e-01) * ($v_j_temp * #(-3.7418414277697654e-02) + $v_kf * v_conc.[2])));
  (*1254*) Do (AddA v_jac 393 (#1.0331907631005757e+00 * ($v_j_temp * #(-3.7418414277697654e-02) + $v_kf * v_conc.[2])));
  (*1255*) Do (AddA v_jac 388 (#5.1734138057993861e-01 * ($v_j_temp * #(-3.7418414277697654e-02) + $v_kf * v_conc.[2])));
  (*1256*) Do (Asn v_jac 417 (#(-9.6647981153083307e-01) * ($v_j_temp * #(-7.3398949362949439e-02))));
  (*1257*) Do (AddA v_jac 402 (#(-5.3207820246600890e-01) * ($v_j_temp * #(-7.3398949362949439e-02))));
  (*1258*) Do (AddA v_jac 414 (#9.9855801399684196e-01 * ($v_j_temp * #(-7.3398949362949439e-02))));
  (*1259*) Do (AddA v_jac 409 (#5.0000000000000000e-01 * ($v_j_temp * #(-7.3398949362949439e-02))));
  (*1260*) Do (Asn v_jac 438 (#(-7.2748823470511659e-01) * ($v_j_temp * #(-4.2602775520927771e-01))));
  (*1261*) Do (AddA v_jac 423 (#(-4.0050565735456090e-01) * ($v_j_temp * #(-4.2602775520927771e-01))));
  (*1262*) Do (AddA v_jac 435 (#7.5163412436167021e-01 * ($v_j_temp * #(-4.2602775520927771e-01))));
  (*1263*) Do (AddA v_jac 430 (#3.7635976769800739e-01 * ($v_j_temp * #(-4.2602775520927771e-01))))]);
([
  (*1266*) Do (Asn v_j_temp 0 (#1.0 / $v_T * ((v_fwd_rates.[13] - v_rev_rates.[13]) * (#1.9199999999999999e+00 + #2.8633193240486353e+03 / $v_T) + v_fwd_rates.[13] * #(-1.0) - v_rev_rates.[13] * (#(-1.0) + (- $v_T) * (v_dBdT.[17] + v_dBdT.[4] - v_dBdT.[18] - v_dBdT.[2]))) * $v_rho_inv));
  (*1267*) Do (AddA v_jac 18 ($v_j_temp * #2.9061699999999998e+01));
  (*1268*) Do (Asn v_jac 19 ((- $v_j_temp) * #3.0069640000000000e+01));
  (*1269*) Do (AddA v_jac 5 ($v_j_temp * #1.7007339999999999e+01));
  (*1270*) Do (AddA v_jac 3 ((- $v_j_temp) * #1.5999400000000000e+01))],
[
  (*1273*) If ($v_T) (#1000.0)
    [Asn v_Kc 0 (#(-9.5426192799999976e-01) + #8.3878908999999968e-01 * $v_logT + $v_T * (#1.0964775499999995e-03 + $v_T * (#(-2.0424456083333341e-06) + $v_T * (#1.0984084008333341e-09 + #(-2.2831108549999995e-13) * $v_T))) - #(-1.1433466399999998e+03) / $v_T)]
    [Asn v_Kc 0 (#(-3.3670607500000003e+00) + #1.4062418100000000e+00 * $v_logT + $v_T * (#(-1.8267958351499995e-03) + $v_T * (#3.5468279818333333e-07 + $v_T * (#(-4.4989291308333333e-11) + #2.5437107345000002e-15 * $v_T))) - #(-1.0750088999999971e+03) / $v_T)];
  (*1279*) Do (Asn v_Kc 0 ((Exp $v_Kc)));
  (*1280*) Do (Asn v_j_temp 0 ((- $v_mw_avg) * $v_rho_inv * (#2.0 * v_fwd_rates.[13] - #2.0 * v_rev_rates.[13])));
  (*1281*) Do (Asn v_kf 0 ((Exp (#1.1405340254290291e+01 + #1.92 * $v_logT - #2.8633193240486353e+03 / $v_T))));
  (*1282*) Do (Asn v_kr 0 ($v_kf / $v_Kc));
  (*1283*) Do (AddA v_jac 39 (#1.4416383911740777e+01 * ($v_j_temp * #9.2803892982949643e-01)));
  (*1284*) Do (Asn v_jac 40 (#(-1.4916383911740777e+01) * ($v_j_temp * #9.2803892982949643e-01)));
  (*1285*) Do (AddA v_jac 26 (#8.4366827390519266e+00 * ($v_j_temp * #9.2803892982949643e-01)));
  (*1286*) Do (AddA v_jac 24 (#(-7.9366827390519274e+00) * ($v_j_temp * #9.2803892982949643e-01)));
  (*1287*) Do (AddA v_jac 60 (#2.8832767823481554e+01 * ($v_j_temp * #9.6401946491474821e-01)));
  (*1288*) Do (Asn v_jac 61 (#(-2.9832767823481554e+01) * ($v_j_temp * #9.6401946491474821e-01)));
  (*1289*) Do (AddA v_jac 47 (#1.6873365478103853e+01 * ($v_j_temp * #9.6401946491474821e-01)));
  (*1290*) Do (AddA v_jac 45 (#(-1.5873365478103855e+01) * ($v_j_temp * #9.6401946491474821e-01)));
  (*1291*) Do (AddA v_jac 81 (#1.8164243659137218e+00 * ($v_j_temp * #4.2886781649405936e-01 + $v_kf * v_conc.[18])));
  (*1292*) Do (Asn v_jac 82 (#(-1.8794229783616885e+00) * ($v_j_temp * #4.2886781649405936e-01 + $v_kf * v_conc.[18])));
  (*1293*) Do (AddA v_jac 68 (#1.0629986124479667e+00 * ($v_j_temp * #4.2886781649405936e-01 + $v_kf * v_conc.[18])));
  (*1294*) Do (AddA v_jac 66 ((- ($v_j_temp * #4.2886781649405936e-01 + $v_kf * v_conc.[18]))));
  (*1295*) Do (AddA v_jac 102 (#9.0821218295686090e-01 * ($v_j_temp * #(-1.4226436701188128e-01))));
  (*1296*) Do (Asn v_jac 103 (#(-9.3971148918084424e-01) * ($v_j_temp * #(-1.4226436701188128e-01))));
  (*1297*) Do (AddA v_jac 89 (#5.3149930622398334e-01 * ($v_j_temp * #(-1.4226436701188128e-01))));
  (*1298*) Do (AddA v_jac 87 (#(-5.0000000000000000e-01) * ($v_j_temp * #(-1.4226436701188128e-01))));
  (*1299*) Do (AddA v_jac 123 (#1.7087739764125371e+00 * ($v_j_temp * #3.9288728140880758e-01 - $v_kr * v_conc.[17])));
  (*1300*) Do (Asn v_jac 124 (#(-1.7680389761126667e+00) * ($v_j_temp * #3.9288728140880758e-01 - $v_kr * v_conc.[17])));
  (*1301*) Do (AddA v_jac 110 ($v_j_temp * #3.9288728140880758e-01 - $v_kr * v_conc.[17]));
  (*1302*) Do (AddA v_jac 108 (#(-9.4073500029987056e-01) * ($v_j_temp * #3.9288728140880758e-01 - $v_kr * v_conc.[17])));
  (*1303*) Do (AddA v_jac 144 (#1.6131694872352802e+00 * ($v_j_temp * #3.5690674632355568e-01)));
  (*1304*) Do (Asn v_jac 145 (#(-1.6691186592714629e+00) * ($v_j_temp * #3.5690674632355568e-01)));
  (*1305*) Do (AddA v_jac 131 (#9.4405082796381734e-01 * ($v_j_temp * #3.5690674632355568e-01)));
  (*1306*) Do (AddA v_jac 129 (#(-8.8810165592763468e-01) * ($v_j_temp * #3.5690674632355568e-01)));
  (*1307*) Do (AddA v_jac 165 (#8.8047774484847630e-01 * ($v_j_temp * #(-1.7824490209713328e-01))));
  (*1308*) Do (Asn v_jac 166 (#(-9.1101514417964324e-01) * ($v_j_temp * #(-1.7824490209713328e-01))));
  (*1309*) Do (AddA v_jac 152 (#5.1526869966558342e-01 * ($v_j_temp * #(-1.7824490209713328e-01))));
  (*1310*) Do (AddA v_jac 150 (#(-4.8473130033441653e-01) * ($v_j_temp * #(-1.7824490209713328e-01))));
  (*1311*) Do (AddA v_jac 186 (#2.0718577474106858e+00 * ($v_j_temp * #4.9928106040377707e-01)));
  (*1312*) Do (Asn v_jac 187 (#(-2.1437154948213717e+00) * ($v_j_temp * #4.9928106040377707e-01)));
  (*1313*) Do (AddA v_jac 173 (#1.2124820344937721e+00 * ($v_j_temp * #4.9928106040377707e-01)));
  (*1314*) Do (AddA v_jac 171 (#(-1.1406242870830863e+00) * ($v_j_temp * #4.9928106040377707e-01)));
  (*1315*) Do (AddA v_jac 207 (#2.0718577474106858e+00 * ($v_j_temp * #4.9928106040377707e-01)));
  (*1316*) Do (Asn v_jac 208 (#(-2.1437154948213717e+00) * ($v_j_temp * #4.9928106040377707e-01)));
  (*1317*) Do (AddA v_jac 194 (#1.2124820344937721e+00 * ($v_j_temp * #4.9928106040377707e-01)));
  (*1318*) Do (AddA v_jac 192 (#(-1.1406242870830863e+00) * ($v_j_temp * #4.9928106040377707e-01)));
  (*1319*) Do (AddA v_jac 228 (#1.9329596230616661e+00 * ($v_j_temp * #4.6330052531852528e-01)));
  (*1320*) Do (Asn v_jac 229 (#(-2.0000000000000000e+00) * ($v_j_temp * #4.6330052531852528e-01)));
  (*1321*) Do (AddA v_jac 215 (#1.1311967818703517e+00 * ($v_j_temp * #4.6330052531852528e-01)));
  (*1322*) Do (AddA v_jac 213 (#(-1.0641564049320178e+00) * ($v_j_temp * #4.6330052531852528e-01)));
  (*1323*) Do (AddA v_jac 249 (#1.8115149762260356e+00 * ($v_j_temp * #4.2731999023327338e-01)));
  (*1324*) Do (Asn v_jac 250 (#(-1.8743433174840238e+00) * ($v_j_temp * #4.2731999023327338e-01)));
  (*1325*) Do (AddA v_jac 236 (#1.0601255644290632e+00 * ($v_j_temp * #4.2731999023327338e-01)));
  (*1326*) Do (AddA v_jac 234 (#(-9.9729722317107516e-01) * ($v_j_temp * #4.2731999023327338e-01)));
  (*1327*) Do (AddA v_jac 270 (#1.0375324879330534e+00 * ($v_j_temp * #1.0994706834011048e-04)));
  (*1328*) Do (Asn v_jac 271 (#(-1.0735169794076487e+00) * ($v_j_temp * #1.0994706834011048e-04)));
  (*1329*) Do (AddA v_jac 257 (#6.0717947619455637e-01 * ($v_j_temp * #1.0994706834011048e-04)));
  (*1330*) Do (AddA v_jac 255 (#(-5.7119498471996122e-01) * ($v_j_temp * #1.0994706834011048e-04)));
  (*1331*) Do (AddA v_jac 291 (#6.6034610473121891e-01 * ($v_j_temp * #(-5.7102223643760053e-01))));
  (*1332*) Do (Asn v_jac 292 (#(-6.8324873096446703e-01) * ($v_j_temp * #(-5.7102223643760053e-01))));
  (*1333*) Do (AddA v_jac 278 (#3.8644438284200339e-01 * ($v_j_temp * #(-5.7102223643760053e-01))));
  (*1334*) Do (AddA v_jac 276 (#(-3.6354175660875532e-01) * ($v_j_temp * #(-5.7102223643760053e-01))));
  (*1335*) Do (AddA v_jac 312 (#1.0014942274437477e+00 * ($v_j_temp * #(-3.5870588016911675e-02))));
  (*1336*) Do (Asn v_jac 313 (#(-1.0362288125371748e+00) * ($v_j_temp * #(-3.5870588016911675e-02))));
  (*1337*) Do (AddA v_jac 299 (#5.8608934901169396e-01 * ($v_j_temp * #(-3.5870588016911675e-02))));
  (*1338*) Do (AddA v_jac 297 (#(-5.5135476391826688e-01) * ($v_j_temp * #(-3.5870588016911675e-02))));
  (*1339*) Do (AddA v_jac 333 (#9.6787547441774335e-01 * ($v_j_temp * #(-7.1851123102163683e-02))));
  (*1340*) Do (Asn v_jac 334 (#(-1.0014440683294767e+00) * ($v_j_temp * #(-7.1851123102163683e-02))));
  (*1341*) Do (AddA v_jac 320 (#5.6641515365872830e-01 * ($v_j_temp * #(-7.1851123102163683e-02))));
  (*1342*) Do (AddA v_jac 318 (#(-5.3284655974699491e-01) * ($v_j_temp * #(-7.1851123102163683e-02))));
  (*1343*) Do (AddA v_jac 354 (#9.3644048408498748e-01 * ($v_j_temp * #(-1.0783165818741525e-01))));
  (*1344*) Do (Asn v_jac 355 (#(-9.6891882573494681e-01) * ($v_j_temp * #(-1.0783165818741525e-01))));
  (*1345*) Do (AddA v_jac 341 (#5.4801892878248593e-01 * ($v_j_temp * #(-1.0783165818741525e-01))));
  (*1346*) Do (AddA v_jac 339 (#(-5.1554058713252660e-01) * ($v_j_temp * #(-1.0783165818741525e-01))));
  (*1347*) Do (AddA v_jac 375 (#1.0359288737053429e+00 * ($v_j_temp * #(-1.4378791924458678e-03))));
  (*1348*) Do (Asn v_jac 376 (#(-1.0718577474106858e+00) * ($v_j_temp * #(-1.4378791924458678e-03))));
  (*1349*) Do (AddA v_jac 362 (#6.0624101724688606e-01 * ($v_j_temp * #(-1.4378791924458678e-03))));
  (*1350*) Do (AddA v_jac 360 (#(-5.7031214354154314e-01) * ($v_j_temp * #(-1.4378791924458678e-03))));
  (*1351*) Do (AddA v_jac 396 ($v_j_temp * #(-3.7418414277697654e-02) - $v_kr * v_conc.[4]));
  (*1352*) Do (Asn v_jac 397 (#(-1.0346827611598772e+00) * ($v_j_temp * #(-3.7418414277697654e-02) - $v_kr * v_conc.[4])));
  (*1353*) Do (AddA v_jac 383 (#5.8521490484039129e-01 * ($v_j_temp * #(-3.7418414277697654e-02) - $v_kr * v_conc.[4])));
  (*1354*) Do (AddA v_jac 381 (#(-5.5053214368051429e-01) * ($v_j_temp * #(-3.7418414277697654e-02) - $v_kr * v_conc.[4])));
  (*1355*) Do (AddA v_jac 417 (#9.6647981153083307e-01 * ($v_j_temp * #(-7.3398949362949439e-02) + $v_kf * v_conc.[2])));
  (*1356*) Do (Asn v_jac 418 ((- ($v_j_temp * #(-7.3398949362949439e-02) + $v_kf * v_conc.[2]))));
  (*1357*) Do (AddA v_jac 404 (#5.6559839093517583e-01 * ($v_j_temp * #(-7.3398949362949439e-02) + $v_kf * v_conc.[2])));
  (*1358*) Do (AddA v_jac 402 (#(-5.3207820246600890e-01) * ($v_j_temp * #(-7.3398949362949439e-02) + $v_kf * v_conc.[2])));
  (*1359*) Do (AddA v_jac 438 (#7.2748823470511659e-01 * ($v_j_temp * #(-4.2602775520927771e-01))));
  (*1360*) Do (Asn v_jac 439 (#(-7.5271953539601477e-01) * ($v_j_temp * #(-4.2602775520927771e-01))));
  (*1361*) Do (AddA v_jac 425 (#4.2573695804545908e-01 * ($v_j_temp * #(-4.2602775520927771e-01))));
  (*1362*) Do (AddA v_jac 423 (#(-4.0050565735456090e-01) * ($v_j_temp * #(-4.2602775520927771e-01))))]);
([
  (*1365*) Do (Asn v_j_temp 0 (#1.0 / $v_T * ((v_fwd_rates.[14] - v_rev_rates.[14]) * (#2.4053895200267973e+04 / $v_T) + v_fwd_rates.[14] * #(-1.0) - v_rev_rates.[14] * (#(-1.0) + (- $v_T) * (v_dBdT.[12] + v_dBdT.[2] - v_dBdT.[11] - v_dBdT.[3]))) * $v_rho_inv));
  (*1366*) Do (AddA v_jac 4 ((- $v_j_temp) * #3.1998799999999999e+01));
  (*1367*) Do (AddA v_jac 3 ($v_j_temp * #1.5999400000000000e+01));
  (*1368*) Do (AddA v_jac 12 ((- $v_j_temp) * #2.8010399999999997e+01));
  (*1369*) Do (AddA v_jac 13 ($v_j_temp * #4.4009799999999998e+01))],
[
  (*1372*) If ($v_T) (#1000.0)
    [Asn v_Kc 0 (#6.6238498799999999e+00 + #(-1.8369492099999998e+00) * $v_logT + $v_T * (#4.6561828850000004e-03 + $v_T * (#(-1.8907691783333333e-06) + $v_T * (#4.2545109883333335e-10 + #(-1.8517185450000006e-14) * $v_T))) - #(-3.8416809400000056e+03) / $v_T)]
    [Asn v_Kc 0 (#(-6.6450999300000007e+00) + #4.2915762000000068e-01 * $v_logT + $v_T * (#3.9139058814999976e-04 + $v_T * (#(-6.9345523516666680e-08) + $v_T * (#6.1624037583333416e-12 + #(-1.9717642450000027e-16) * $v_T))) - #(-4.3012567799999961e+03) / $v_T)];
  (*1378*) Do (Asn v_Kc 0 ((Exp $v_Kc)));
  (*1379*) Do (Asn v_j_temp 0 ((- $v_mw_avg) * $v_rho_inv * (#2.0 * v_fwd_rates.[14] - #2.0 * v_rev_rates.[14])));
  (*1380*) Do (Asn v_kf 0 ((Exp (#2.1639556568820566e+01 - #2.4053895200267973e+04 / $v_T))));
  (*1381*) Do (Asn v_kr 0 ($v_kf / $v_Kc));
  (*1382*) Do (AddA v_jac 25 (#(-1.5873365478103855e+01) * ($v_j_temp * #9.2803892982949643e-01)));
  (*1383*) Do (AddA v_jac 24 (#7.9366827390519274e+00 * ($v_j_temp * #9.2803892982949643e-01)));
  (*1384*) Do (AddA v_jac 33 (#(-1.3894874694922315e+01) * ($v_j_temp * #9.2803892982949643e-01)));
  (*1385*) Do (AddA v_jac 34 (#2.1831557433974243e+01 * ($v_j_temp * #9.2803892982949643e-01)));
  (*1386*) Do (AddA v_jac 46 (#(-3.1746730956207710e+01) * ($v_j_temp * #9.6401946491474821e-01)));
  (*1387*) Do (AddA v_jac 45 (#1.5873365478103855e+01 * ($v_j_temp * #9.6401946491474821e-01)));
  (*1388*) Do (AddA v_jac 54 (#(-2.7789749389844630e+01) * ($v_j_temp * #9.6401946491474821e-01)));
  (*1389*) Do (AddA v_jac 55 (#4.3663114867948487e+01 * ($v_j_temp * #9.6401946491474821e-01)));
  (*1390*) Do (AddA v_jac 67 (#(-2.0000000000000000e+00) * ($v_j_temp * #4.2886781649405936e-01 - $v_kr * v_conc.[12])));
  (*1391*) Do (AddA v_jac 66 ($v_j_temp * #4.2886781649405936e-01 - $v_kr * v_conc.[12]));
  (*1392*) Do (AddA v_jac 75 (#(-1.7507156518369438e+00) * ($v_j_temp * #4.2886781649405936e-01 - $v_kr * v_conc.[12])));
  (*1393*) Do (AddA v_jac 76 (#2.7507156518369440e+00 * ($v_j_temp * #4.2886781649405936e-01 - $v_kr * v_conc.[12])));
  (*1394*) Do (AddA v_jac 88 ((- ($v_j_temp * #(-1.4226436701188128e-01) + $v_kf * v_conc.[11]))));
  (*1395*) Do (AddA v_jac 87 (#5.0000000000000000e-01 * ($v_j_temp * #(-1.4226436701188128e-01) + $v_kf * v_conc.[11])));
  (*1396*) Do (AddA v_jac 96 (#(-8.7535782591847189e-01) * ($v_j_temp * #(-1.4226436701188128e-01) + $v_kf * v_conc.[11])));
  (*1397*) Do (AddA v_jac 97 (#1.3753578259184720e+00 * ($v_j_temp * #(-1.4226436701188128e-01) + $v_kf * v_conc.[11])));
  (*1398*) Do (AddA v_jac 109 (#(-1.8814700005997411e+00) * ($v_j_temp * #3.9288728140880758e-01)));
  (*1399*) Do (AddA v_jac 108 (#9.4073500029987056e-01 * ($v_j_temp * #3.9288728140880758e-01)));
  (*1400*) Do (AddA v_jac 117 (#(-1.6469594892558153e+00) * ($v_j_temp * #3.9288728140880758e-01)));
  (*1401*) Do (AddA v_jac 118 (#2.5876944895556862e+00 * ($v_j_temp * #3.9288728140880758e-01)));
  (*1402*) Do (AddA v_jac 130 (#(-1.7762033118552694e+00) * ($v_j_temp * #3.5690674632355568e-01)));
  (*1403*) Do (AddA v_jac 129 (#8.8810165592763468e-01 * ($v_j_temp * #3.5690674632355568e-01)));
  (*1404*) Do (AddA v_jac 138 (#(-1.5548134694548181e+00) * ($v_j_temp * #3.5690674632355568e-01)));
  (*1405*) Do (AddA v_jac 139 (#2.4429151253824530e+00 * ($v_j_temp * #3.5690674632355568e-01)));
  (*1406*) Do (AddA v_jac 151 (#(-9.6946260066883305e-01) * ($v_j_temp * #(-1.7824490209713328e-01))));
  (*1407*) Do (AddA v_jac 150 (#4.8473130033441653e-01 * ($v_j_temp * #(-1.7824490209713328e-01))));
  (*1408*) Do (AddA v_jac 159 (#(-8.4862667443073736e-01) * ($v_j_temp * #(-1.7824490209713328e-01))));
  (*1409*) Do (AddA v_jac 160 (#1.3333579747651541e+00 * ($v_j_temp * #(-1.7824490209713328e-01))));
  (*1410*) Do (AddA v_jac 172 (#(-2.2812485741661725e+00) * ($v_j_temp * #4.9928106040377707e-01)));
  (*1411*) Do (AddA v_jac 171 (#1.1406242870830863e+00 * ($v_j_temp * #4.9928106040377707e-01)));
  (*1412*) Do (AddA v_jac 180 (#(-1.9969087922617146e+00) * ($v_j_temp * #4.9928106040377707e-01)));
  (*1413*) Do (AddA v_jac 181 (#3.1375330793448009e+00 * ($v_j_temp * #4.9928106040377707e-01)));
  (*1414*) Do (AddA v_jac 193 (#(-2.2812485741661725e+00) * ($v_j_temp * #4.9928106040377707e-01)));
  (*1415*) Do (AddA v_jac 192 (#1.1406242870830863e+00 * ($v_j_temp * #4.9928106040377707e-01)));
  (*1416*) Do (AddA v_jac 201 (#(-1.9969087922617146e+00) * ($v_j_temp * #4.9928106040377707e-01)));
  (*1417*) Do (AddA v_jac 202 (#3.1375330793448009e+00 * ($v_j_temp * #4.9928106040377707e-01)));
  (*1418*) Do (AddA v_jac 214 (#(-2.1283128098640356e+00) * ($v_j_temp * #4.6330052531852528e-01)));
  (*1419*) Do (AddA v_jac 213 (#1.0641564049320178e+00 * ($v_j_temp * #4.6330052531852528e-01)));
  (*1420*) Do (AddA v_jac 222 (#(-1.8630352741170162e+00) * ($v_j_temp * #4.6330052531852528e-01)));
  (*1421*) Do (AddA v_jac 223 (#2.9271916790490340e+00 * ($v_j_temp * #4.6330052531852528e-01)));
  (*1422*) Do (AddA v_jac 235 (#(-1.9945944463421503e+00) * ($v_j_temp * #4.2731999023327338e-01)));
  (*1423*) Do (AddA v_jac 234 (#9.9729722317107516e-01 * ($v_j_temp * #4.2731999023327338e-01)));
  (*1424*) Do (AddA v_jac 243 (#(-1.7459838581391229e+00) * ($v_j_temp * #4.2731999023327338e-01)));
  (*1425*) Do (AddA v_jac 244 (#2.7432810813101982e+00 * ($v_j_temp * #4.2731999023327338e-01)));
  (*1426*) Do (AddA v_jac 256 (#(-1.1423899694399224e+00) * ($v_j_temp * #1.0994706834011048e-04 + $v_kf * v_conc.[3])));
  (*1427*) Do (AddA v_jac 255 (#5.7119498471996122e-01 * ($v_j_temp * #1.0994706834011048e-04 + $v_kf * v_conc.[3])));
  (*1428*) Do (AddA v_jac 264 ((- ($v_j_temp * #1.0994706834011048e-04 + $v_kf * v_conc.[3]))));
  (*1429*) Do (AddA v_jac 265 (#1.5711949847199613e+00 * ($v_j_temp * #1.0994706834011048e-04 + $v_kf * v_conc.[3])));
  (*1430*) Do (AddA v_jac 277 (#(-7.2708351321751064e-01) * ($v_j_temp * #(-5.7102223643760053e-01) - $v_kr * v_conc.[2])));
  (*1431*) Do (AddA v_jac 276 (#3.6354175660875532e-01 * ($v_j_temp * #(-5.7102223643760053e-01) - $v_kr * v_conc.[2])));
  (*1432*) Do (AddA v_jac 285 (#(-6.3645824339124468e-01) * ($v_j_temp * #(-5.7102223643760053e-01) - $v_kr * v_conc.[2])));
  (*1433*) Do (AddA v_jac 286 ($v_j_temp * #(-5.7102223643760053e-01) - $v_kr * v_conc.[2]));
  (*1434*) Do (AddA v_jac 298 (#(-1.1027095278365338e+00) * ($v_j_temp * #(-3.5870588016911675e-02))));
  (*1435*) Do (AddA v_jac 297 (#5.5135476391826688e-01 * ($v_j_temp * #(-3.5870588016911675e-02))));
  (*1436*) Do (AddA v_jac 306 (#(-9.6526541490657281e-01) * ($v_j_temp * #(-3.5870588016911675e-02))));
  (*1437*) Do (AddA v_jac 307 (#1.5166201788248397e+00 * ($v_j_temp * #(-3.5870588016911675e-02))));
  (*1438*) Do (AddA v_jac 319 (#(-1.0656931194939898e+00) * ($v_j_temp * #(-7.1851123102163683e-02))));
  (*1439*) Do (AddA v_jac 318 (#5.3284655974699491e-01 * ($v_j_temp * #(-7.1851123102163683e-02))));
  (*1440*) Do (AddA v_jac 327 (#(-9.3286281217653322e-01) * ($v_j_temp * #(-7.1851123102163683e-02))));
  (*1441*) Do (AddA v_jac 328 (#1.4657093719235283e+00 * ($v_j_temp * #(-7.1851123102163683e-02))));
  (*1442*) Do (AddA v_jac 340 (#(-1.0310811742650532e+00) * ($v_j_temp * #(-1.0783165818741525e-01))));
  (*1443*) Do (AddA v_jac 339 (#5.1554058713252660e-01 * ($v_j_temp * #(-1.0783165818741525e-01))));
  (*1444*) Do (AddA v_jac 348 (#(-9.0256497505012201e-01) * ($v_j_temp * #(-1.0783165818741525e-01))));
  (*1445*) Do (AddA v_jac 349 (#1.4181055621826488e+00 * ($v_j_temp * #(-1.0783165818741525e-01))));
  (*1446*) Do (AddA v_jac 361 (#(-1.1406242870830863e+00) * ($v_j_temp * #(-1.4378791924458678e-03))));
  (*1447*) Do (AddA v_jac 360 (#5.7031214354154314e-01 * ($v_j_temp * #(-1.4378791924458678e-03))));
  (*1448*) Do (AddA v_jac 369 (#(-9.9845439613085729e-01) * ($v_j_temp * #(-1.4378791924458678e-03))));
  (*1449*) Do (AddA v_jac 370 (#1.5687665396724004e+00 * ($v_j_temp * #(-1.4378791924458678e-03))));
  (*1450*) Do (AddA v_jac 382 (#(-1.1010642873610286e+00) * ($v_j_temp * #(-3.7418414277697654e-02))));
  (*1451*) Do (AddA v_jac 381 (#5.5053214368051429e-01 * ($v_j_temp * #(-3.7418414277697654e-02))));
  (*1452*) Do (AddA v_jac 390 (#(-9.6382524078082144e-01) * ($v_j_temp * #(-3.7418414277697654e-02))));
  (*1453*) Do (AddA v_jac 391 (#1.5143573844613358e+00 * ($v_j_temp * #(-3.7418414277697654e-02))));
  (*1454*) Do (AddA v_jac 403 (#(-1.0641564049320178e+00) * ($v_j_temp * #(-7.3398949362949439e-02))));
  (*1455*) Do (AddA v_jac 402 (#5.3207820246600890e-01 * ($v_j_temp * #(-7.3398949362949439e-02))));
  (*1456*) Do (AddA v_jac 411 (#(-9.3151763705850810e-01) * ($v_j_temp * #(-7.3398949362949439e-02))));
  (*1457*) Do (AddA v_jac 412 (#1.4635958395245170e+00 * ($v_j_temp * #(-7.3398949362949439e-02))));
  (*1458*) Do (AddA v_jac 424 (#(-8.0101131470912179e-01) * ($v_j_temp * #(-4.2602775520927771e-01))));
  (*1459*) Do (AddA v_jac 423 (#4.0050565735456090e-01 * ($v_j_temp * #(-4.2602775520927771e-01))));
  (*1460*) Do (AddA v_jac 432 (#(-7.0117152297987373e-01) * ($v_j_temp * #(-4.2602775520927771e-01))));
  (*1461*) Do (AddA v_jac 433 (#1.1016771803344347e+00 * ($v_j_temp * #(-4.2602775520927771e-01))))]);
([
  (*1464*) Do (Asn v_j_temp 0 (#1.0 / $v_T * ((v_fwd_rates.[15] - v_rev_rates.[15]) * (#2.0128782594366505e+04 / $v_T) + v_fwd_rates.[15] * #(-1.0) - v_rev_rates.[15] * (#(-1.0) + (- $v_T) * (v_dBdT.[6] + v_dBdT.[13] - v_dBdT.[14] - v_dBdT.[3]))) * $v_rho_inv));
  (*1465*) Do (AddA v_jac 4 ((- $v_j_temp) * #3.1998799999999999e+01));
  (*1466*) Do (AddA v_jac 7 ($v_j_temp * #3.3006740000000001e+01));
  (*1467*) Do (AddA v_jac 15 ((- $v_j_temp) * #3.0026280000000000e+01));
  (*1468*) Do (AddA v_jac 14 ($v_j_temp * #2.9018339999999998e+01))],
[
  (*1471*) If ($v_T) (#1000.0)
    [Asn v_Kc 0 (#2.9037419099999999e+00 + #(-5.3195659999999645e-02) * $v_logT + $v_T * (#2.4560110100000001e-03 + $v_T * (#(-2.0385115183333334e-06) + $v_T * (#8.3491854083333293e-10 + #(-1.3955268399999997e-13) * $v_T))) - #1.9507273260000002e+04 / $v_T)]
    [Asn v_Kc 0 (#(-7.2722645800000008e+00) + #1.7461573600000004e+00 * $v_logT + $v_T * (#(-1.7431564850000003e-03) + $v_T * (#3.4374008649999992e-07 + $v_T * (#(-4.2706210583333322e-11) + #2.2957809400000002e-15 * $v_T))) - #1.9208064882999999e+04 / $v_T)];
  (*1477*) Do (Asn v_Kc 0 ((Exp $v_Kc)));
  (*1478*) Do (Asn v_j_temp 0 ((- $v_mw_avg) * $v_rho_inv * (#2.0 * v_fwd_rates.[15] - #2.0 * v_rev_rates.[15])));
  (*1479*) Do (Asn v_kf 0 ((Exp (#2.5328436022934504e+01 - #2.0128782594366505e+04 / $v_T))));
  (*1480*) Do (Asn v_kr 0 ($v_kf / $v_Kc));
  (*1481*) Do (AddA v_jac 25 (#(-1.5873365478103855e+01) * ($v_j_temp * #9.2803892982949643e-01)));
  (*1482*) Do (AddA v_jac 28 (#1.6373365478103853e+01 * ($v_j_temp * #9.2803892982949643e-01)));
  (*1483*) Do (AddA v_jac 36 (#(-1.4894874694922317e+01) * ($v_j_temp * #9.2803892982949643e-01)));
  (*1484*) Do (AddA v_jac 35 (#1.4394874694922315e+01 * ($v_j_temp * #9.2803892982949643e-01)));
  (*1485*) Do (AddA v_jac 46 (#(-3.1746730956207710e+01) * ($v_j_temp * #9.6401946491474821e-01)));
  (*1486*) Do (AddA v_jac 49 (#3.2746730956207706e+01 * ($v_j_temp * #9.6401946491474821e-01)));
  (*1487*) Do (AddA v_jac 57 (#(-2.9789749389844633e+01) * ($v_j_temp * #9.6401946491474821e-01)));
  (*1488*) Do (AddA v_jac 56 (#2.8789749389844630e+01 * ($v_j_temp * #9.6401946491474821e-01)));
  (*1489*) Do (AddA v_jac 67 (#(-2.0000000000000000e+00) * ($v_j_temp * #4.2886781649405936e-01)));
  (*1490*) Do (AddA v_jac 70 (#2.0629986124479669e+00 * ($v_j_temp * #4.2886781649405936e-01)));
  (*1491*) Do (AddA v_jac 78 (#(-1.8767128767328776e+00) * ($v_j_temp * #4.2886781649405936e-01)));
  (*1492*) Do (AddA v_jac 77 (#1.8137142642849107e+00 * ($v_j_temp * #4.2886781649405936e-01)));
  (*1493*) Do (AddA v_jac 88 ((- ($v_j_temp * #(-1.4226436701188128e-01) + $v_kf * v_conc.[14]))));
  (*1494*) Do (AddA v_jac 91 (#1.0314993062239834e+00 * ($v_j_temp * #(-1.4226436701188128e-01) + $v_kf * v_conc.[14])));
  (*1495*) Do (AddA v_jac 99 (#(-9.3835643836643878e-01) * ($v_j_temp * #(-1.4226436701188128e-01) + $v_kf * v_conc.[14])));
  (*1496*) Do (AddA v_jac 98 (#9.0685713214245534e-01 * ($v_j_temp * #(-1.4226436701188128e-01) + $v_kf * v_conc.[14])));
  (*1497*) Do (AddA v_jac 109 (#(-1.8814700005997411e+00) * ($v_j_temp * #3.9288728140880758e-01)));
  (*1498*) Do (AddA v_jac 112 (#1.9407350002998707e+00 * ($v_j_temp * #3.9288728140880758e-01)));
  (*1499*) Do (AddA v_jac 120 (#(-1.7654894886560744e+00) * ($v_j_temp * #3.9288728140880758e-01)));
  (*1500*) Do (AddA v_jac 119 (#1.7062244889559448e+00 * ($v_j_temp * #3.9288728140880758e-01)));
  (*1501*) Do (AddA v_jac 130 (#(-1.7762033118552694e+00) * ($v_j_temp * #3.5690674632355568e-01)));
  (*1502*) Do (AddA v_jac 133 (#1.8321524838914520e+00 * ($v_j_temp * #3.5690674632355568e-01)));
  (*1503*) Do (AddA v_jac 141 (#(-1.6667118135271835e+00) * ($v_j_temp * #3.5690674632355568e-01)));
  (*1504*) Do (AddA v_jac 140 (#1.6107626414910008e+00 * ($v_j_temp * #3.5690674632355568e-01)));
  (*1505*) Do (AddA v_jac 151 (#(-9.6946260066883305e-01) * ($v_j_temp * #(-1.7824490209713328e-01) - $v_kr * v_conc.[13])));
  (*1506*) Do (AddA v_jac 154 ($v_j_temp * #(-1.7824490209713328e-01) - $v_kr * v_conc.[13]));
  (*1507*) Do (AddA v_jac 162 (#(-9.0970147309307126e-01) * ($v_j_temp * #(-1.7824490209713328e-01) - $v_kr * v_conc.[13])));
  (*1508*) Do (AddA v_jac 161 (#8.7916407376190431e-01 * ($v_j_temp * #(-1.7824490209713328e-01) - $v_kr * v_conc.[13])));
  (*1509*) Do (AddA v_jac 172 (#(-2.2812485741661725e+00) * ($v_j_temp * #4.9928106040377707e-01)));
  (*1510*) Do (AddA v_jac 175 (#2.3531063215768584e+00 * ($v_j_temp * #4.9928106040377707e-01)));
  (*1511*) Do (AddA v_jac 183 (#(-2.1406242870830865e+00) * ($v_j_temp * #4.9928106040377707e-01)));
  (*1512*) Do (AddA v_jac 182 (#2.0687665396724007e+00 * ($v_j_temp * #4.9928106040377707e-01)));
  (*1513*) Do (AddA v_jac 193 (#(-2.2812485741661725e+00) * ($v_j_temp * #4.9928106040377707e-01)));
  (*1514*) Do (AddA v_jac 196 (#2.3531063215768584e+00 * ($v_j_temp * #4.9928106040377707e-01)));
  (*1515*) Do (AddA v_jac 204 (#(-2.1406242870830865e+00) * ($v_j_temp * #4.9928106040377707e-01)));
  (*1516*) Do (AddA v_jac 203 (#2.0687665396724007e+00 * ($v_j_temp * #4.9928106040377707e-01)));
  (*1517*) Do (AddA v_jac 214 (#(-2.1283128098640356e+00) * ($v_j_temp * #4.6330052531852528e-01)));
  (*1518*) Do (AddA v_jac 217 (#2.1953531868023695e+00 * ($v_j_temp * #4.6330052531852528e-01)));
  (*1519*) Do (AddA v_jac 225 (#(-1.9971160279936839e+00) * ($v_j_temp * #4.6330052531852528e-01)));
  (*1520*) Do (AddA v_jac 224 (#1.9300756510553501e+00 * ($v_j_temp * #4.6330052531852528e-01)));
  (*1521*) Do (AddA v_jac 235 (#(-1.9945944463421503e+00) * ($v_j_temp * #4.2731999023327338e-01)));
  (*1522*) Do (AddA v_jac 238 (#2.0574227876001383e+00 * ($v_j_temp * #4.2731999023327338e-01)));
  (*1523*) Do (AddA v_jac 246 (#(-1.8716405406550991e+00) * ($v_j_temp * #4.2731999023327338e-01)));
  (*1524*) Do (AddA v_jac 245 (#1.8088121993971109e+00 * ($v_j_temp * #4.2731999023327338e-01)));
  (*1525*) Do (AddA v_jac 256 (#(-1.1423899694399224e+00) * ($v_j_temp * #1.0994706834011048e-04)));
  (*1526*) Do (AddA v_jac 259 (#1.1783744609145177e+00 * ($v_j_temp * #1.0994706834011048e-04)));
  (*1527*) Do (AddA v_jac 267 (#(-1.0719689829491903e+00) * ($v_j_temp * #1.0994706834011048e-04)));
  (*1528*) Do (AddA v_jac 266 (#1.0359844914745953e+00 * ($v_j_temp * #1.0994706834011048e-04)));
  (*1529*) Do (AddA v_jac 277 (#(-7.2708351321751064e-01) * ($v_j_temp * #(-5.7102223643760053e-01))));
  (*1530*) Do (AddA v_jac 280 (#7.4998613945075876e-01 * ($v_j_temp * #(-5.7102223643760053e-01))));
  (*1531*) Do (AddA v_jac 288 (#(-6.8226349585774082e-01) * ($v_j_temp * #(-5.7102223643760053e-01))));
  (*1532*) Do (AddA v_jac 287 (#6.5936086962449270e-01 * ($v_j_temp * #(-5.7102223643760053e-01))));
  (*1533*) Do (AddA v_jac 298 (#(-1.1027095278365338e+00) * ($v_j_temp * #(-3.5870588016911675e-02) - $v_kr * v_conc.[6])));
  (*1534*) Do (AddA v_jac 301 (#1.1374441129299608e+00 * ($v_j_temp * #(-3.5870588016911675e-02) - $v_kr * v_conc.[6])));
  (*1535*) Do (AddA v_jac 309 (#(-1.0347345850934271e+00) * ($v_j_temp * #(-3.5870588016911675e-02) - $v_kr * v_conc.[6])));
  (*1536*) Do (AddA v_jac 308 ($v_j_temp * #(-3.5870588016911675e-02) - $v_kr * v_conc.[6]));
  (*1537*) Do (AddA v_jac 319 (#(-1.0656931194939898e+00) * ($v_j_temp * #(-7.1851123102163683e-02) + $v_kf * v_conc.[3])));
  (*1538*) Do (AddA v_jac 322 (#1.0992617134057232e+00 * ($v_j_temp * #(-7.1851123102163683e-02) + $v_kf * v_conc.[3])));
  (*1539*) Do (AddA v_jac 330 ((- ($v_j_temp * #(-7.1851123102163683e-02) + $v_kf * v_conc.[3]))));
  (*1540*) Do (AddA v_jac 329 (#9.6643140608826661e-01 * ($v_j_temp * #(-7.1851123102163683e-02) + $v_kf * v_conc.[3])));
  (*1541*) Do (AddA v_jac 340 (#(-1.0310811742650532e+00) * ($v_j_temp * #(-1.0783165818741525e-01))));
  (*1542*) Do (AddA v_jac 343 (#1.0635595159150126e+00 * ($v_j_temp * #(-1.0783165818741525e-01))));
  (*1543*) Do (AddA v_jac 351 (#(-9.6752165835004078e-01) * ($v_j_temp * #(-1.0783165818741525e-01))));
  (*1544*) Do (AddA v_jac 350 (#9.3504331670008145e-01 * ($v_j_temp * #(-1.0783165818741525e-01))));
  (*1545*) Do (AddA v_jac 361 (#(-1.1406242870830863e+00) * ($v_j_temp * #(-1.4378791924458678e-03))));
  (*1546*) Do (AddA v_jac 364 (#1.1765531607884292e+00 * ($v_j_temp * #(-1.4378791924458678e-03))));
  (*1547*) Do (AddA v_jac 372 (#(-1.0703121435415432e+00) * ($v_j_temp * #(-1.4378791924458678e-03))));
  (*1548*) Do (AddA v_jac 371 (#1.0343832698362003e+00 * ($v_j_temp * #(-1.4378791924458678e-03))));
  (*1549*) Do (AddA v_jac 382 (#(-1.1010642873610286e+00) * ($v_j_temp * #(-3.7418414277697654e-02))));
  (*1550*) Do (AddA v_jac 385 (#1.1357470485209056e+00 * ($v_j_temp * #(-3.7418414277697654e-02))));
  (*1551*) Do (AddA v_jac 393 (#(-1.0331907631005757e+00) * ($v_j_temp * #(-3.7418414277697654e-02))));
  (*1552*) Do (AddA v_jac 392 (#9.9850800194069855e-01 * ($v_j_temp * #(-3.7418414277697654e-02))));
  (*1553*) Do (AddA v_jac 403 (#(-1.0641564049320178e+00) * ($v_j_temp * #(-7.3398949362949439e-02))));
  (*1554*) Do (AddA v_jac 406 (#1.0976765934011847e+00 * ($v_j_temp * #(-7.3398949362949439e-02))));
  (*1555*) Do (AddA v_jac 414 (#(-9.9855801399684196e-01) * ($v_j_temp * #(-7.3398949362949439e-02))));
  (*1556*) Do (AddA v_jac 413 (#9.6503782552767503e-01 * ($v_j_temp * #(-7.3398949362949439e-02))));
  (*1557*) Do (AddA v_jac 424 (#(-8.0101131470912179e-01) * ($v_j_temp * #(-4.2602775520927771e-01))));
  (*1558*) Do (AddA v_jac 427 (#8.2624261540002009e-01 * ($v_j_temp * #(-4.2602775520927771e-01))));
  (*1559*) Do (AddA v_jac 435 (#(-7.5163412436167021e-01) * ($v_j_temp * #(-4.2602775520927771e-01))));
  (*1560*) Do (AddA v_jac 434 (#7.2640282367077191e-01 * ($v_j_temp * #(-4.2602775520927771e-01))))]);
([
  (*1563*) Do (Asn v_j_temp 0 (((- v_pres_mod.[2]) * (v_fwd_rates.[16] - v_rev_rates.[16]) / $v_T + v_pres_mod.[2] / $v_T * ((v_fwd_rates.[16] - v_rev_rates.[16]) * #(-8.5999999999999999e-01) + v_fwd_rates.[16] * #(-1.0) - v_rev_rates.[16] * ((- $v_T) * (v_dBdT.[6] - v_dBdT.[1] - v_dBdT.[3])))) * $v_rho_inv));
  (*1564*) Do (AddA v_jac 2 ((- $v_j_temp) * #1.0079400000000001e+00));
  (*1565*) Do (AddA v_jac 4 ((- $v_j_temp) * #3.1998799999999999e+01));
  (*1566*) Do (AddA v_jac 7 ($v_j_temp * #3.3006740000000001e+01))],
[
  (*1569*) If ($v_T) (#1000.0)
    [Asn v_Kc 0 (#2.4863279230000002e+00 + #(-9.8065834999999968e-01) * $v_logT + $v_T * (#(-8.7619317535266635e-04) + $v_T * (#1.8851645153326530e-06 + $v_T * (#(-1.2162578593584016e-09) + #3.0242614354638670e-13 * $v_T))) - #(-2.4114908299999999e+04) / $v_T)]
    [Asn v_Kc 0 (#5.4388072400000009e-01 + #(-7.6532694999999951e-01) * $v_logT + $v_T * (#3.7836630654214864e-04 + $v_T * (#2.0718083807300866e-08 + $v_T * (#(-7.9353483554039681e-12) + #5.4404627009013201e-16 * $v_T))) - #(-2.4273345466999999e+04) / $v_T)];
  (*1575*) Do (Asn v_Kc 0 (#8.2057360967184814e-02 * (Exp $v_Kc)));
  (*1576*) Do (Asn v_pres_mod_temp 0 (v_fwd_rates.[16] - v_rev_rates.[16]));
  (*1577*) Do (Asn v_j_temp 0 ((- $v_mw_avg) * $v_rho_inv * v_pres_mod.[2] * (#3.0 * v_fwd_rates.[16] - #2.0 * v_rev_rates.[16])));
  (*1578*) Do (Asn v_kf 0 ((Exp (#2.8660640533109706e+01 - #0.86 * $v_logT))));
  (*1579*) Do (Asn v_kr 0 ($v_kf / $v_Kc));
  (*1580*) Do (AddA v_jac 23 (#(-5.0000000000000000e-01) * ($v_j_temp * #9.2803892982949643e-01 + $v_pres_mod_temp)));
  (*1581*) Do (AddA v_jac 25 (#(-1.5873365478103855e+01) * ($v_j_temp * #9.2803892982949643e-01 + $v_pres_mod_temp)));
  (*1582*) Do (AddA v_jac 28 (#1.6373365478103853e+01 * ($v_j_temp * #9.2803892982949643e-01 + $v_pres_mod_temp)));
  (*1583*) Do (AddA v_jac 44 ((- ($v_j_temp * #9.6401946491474821e-01 + $v_pres_mod_temp + v_pres_mod.[2] * ($v_kf * v_conc.[3])))));
  (*1584*) Do (AddA v_jac 46 (#(-3.1746730956207710e+01) * ($v_j_temp * #9.6401946491474821e-01 + $v_pres_mod_temp + v_pres_mod.[2] * ($v_kf * v_conc.[3]))));
  (*1585*) Do (AddA v_jac 49 (#3.2746730956207706e+01 * ($v_j_temp * #9.6401946491474821e-01 + $v_pres_mod_temp + v_pres_mod.[2] * ($v_kf * v_conc.[3]))));
  (*1586*) Do (AddA v_jac 65 (#(-6.2998612447966798e-02) * ($v_j_temp * #4.2886781649405936e-01 + $v_pres_mod_temp)));
  (*1587*) Do (AddA v_jac 67 (#(-2.0000000000000000e+00) * ($v_j_temp * #4.2886781649405936e-01 + $v_pres_mod_temp)));
  (*1588*) Do (AddA v_jac 70 (#2.0629986124479669e+00 * ($v_j_temp * #4.2886781649405936e-01 + $v_pres_mod_temp)));
  (*1589*) Do (AddA v_jac 86 (#(-3.1499306223983399e-02) * ($v_j_temp * #(-1.4226436701188128e-01) + v_pres_mod.[2] * ($v_kf * v_conc.[1]))));
  (*1590*) Do (AddA v_jac 88 ((- ($v_j_temp * #(-1.4226436701188128e-01) + v_pres_mod.[2] * ($v_kf * v_conc.[1])))));
  (*1591*) Do (AddA v_jac 91 (#1.0314993062239834e+00 * ($v_j_temp * #(-1.4226436701188128e-01) + v_pres_mod.[2] * ($v_kf * v_conc.[1]))));
  (*1592*) Do (AddA v_jac 107 (#(-5.9264999700129481e-02) * ($v_j_temp * #3.9288728140880758e-01 + $v_pres_mod_temp)));
  (*1593*) Do (AddA v_jac 109 (#(-1.8814700005997411e+00) * ($v_j_temp * #3.9288728140880758e-01 + $v_pres_mod_temp)));
  (*1594*) Do (AddA v_jac 112 (#1.9407350002998707e+00 * ($v_j_temp * #3.9288728140880758e-01 + $v_pres_mod_temp)));
  (*1595*) Do (AddA v_jac 128 (#(-5.5949172036182618e-02) * ($v_j_temp * #3.5690674632355568e-01)));
  (*1596*) Do (AddA v_jac 130 (#(-1.7762033118552694e+00) * ($v_j_temp * #3.5690674632355568e-01)));
  (*1597*) Do (AddA v_jac 133 (#1.8321524838914520e+00 * ($v_j_temp * #3.5690674632355568e-01)));
  (*1598*) Do (AddA v_jac 149 (#(-3.0537399331166910e-02) * ($v_j_temp * #(-1.7824490209713328e-01) + $v_pres_mod_temp + v_pres_mod.[2] * (- $v_kr))));
  (*1599*) Do (AddA v_jac 151 (#(-9.6946260066883305e-01) * ($v_j_temp * #(-1.7824490209713328e-01) + $v_pres_mod_temp + v_pres_mod.[2] * (- $v_kr))));
  (*1600*) Do (AddA v_jac 154 ($v_j_temp * #(-1.7824490209713328e-01) + $v_pres_mod_temp + v_pres_mod.[2] * (- $v_kr)));
  (*1601*) Do (AddA v_jac 170 (#(-7.1857747410685777e-02) * ($v_j_temp * #4.9928106040377707e-01 + $v_pres_mod_temp)));
  (*1602*) Do (AddA v_jac 172 (#(-2.2812485741661725e+00) * ($v_j_temp * #4.9928106040377707e-01 + $v_pres_mod_temp)));
  (*1603*) Do (AddA v_jac 175 (#2.3531063215768584e+00 * ($v_j_temp * #4.9928106040377707e-01 + $v_pres_mod_temp)));
  (*1604*) Do (AddA v_jac 191 (#(-7.1857747410685777e-02) * ($v_j_temp * #4.9928106040377707e-01 + $v_pres_mod_temp)));
  (*1605*) Do (AddA v_jac 193 (#(-2.2812485741661725e+00) * ($v_j_temp * #4.9928106040377707e-01 + $v_pres_mod_temp)));
  (*1606*) Do (AddA v_jac 196 (#2.3531063215768584e+00 * ($v_j_temp * #4.9928106040377707e-01 + $v_pres_mod_temp)));
  (*1607*) Do (AddA v_jac 212 (#(-6.7040376938333812e-02) * ($v_j_temp * #4.6330052531852528e-01 + $v_pres_mod_temp)));
  (*1608*) Do (AddA v_jac 214 (#(-2.1283128098640356e+00) * ($v_j_temp * #4.6330052531852528e-01 + $v_pres_mod_temp)));
  (*1609*) Do (AddA v_jac 217 (#2.1953531868023695e+00 * ($v_j_temp * #4.6330052531852528e-01 + $v_pres_mod_temp)));
  (*1610*) Do (AddA v_jac 233 (#(-6.2828341257988030e-02) * ($v_j_temp * #4.2731999023327338e-01 + $v_pres_mod_temp)));
  (*1611*) Do (AddA v_jac 235 (#(-1.9945944463421503e+00) * ($v_j_temp * #4.2731999023327338e-01 + $v_pres_mod_temp)));
  (*1612*) Do (AddA v_jac 238 (#2.0574227876001383e+00 * ($v_j_temp * #4.2731999023327338e-01 + $v_pres_mod_temp)));
  (*1613*) Do (AddA v_jac 254 (#(-3.5984491474595155e-02) * ($v_j_temp * #1.0994706834011048e-04 + #7.5000000000000000e-01 * $v_pres_mod_temp)));
  (*1614*) Do (AddA v_jac 256 (#(-1.1423899694399224e+00) * ($v_j_temp * #1.0994706834011048e-04 + #7.5000000000000000e-01 * $v_pres_mod_temp)));
  (*1615*) Do (AddA v_jac 259 (#1.1783744609145177e+00 * ($v_j_temp * #1.0994706834011048e-04 + #7.5000000000000000e-01 * $v_pres_mod_temp)));
  (*1616*) Do (AddA v_jac 275 (#(-2.2902626233248052e-02) * ($v_j_temp * #(-5.7102223643760053e-01) + #1.5000000000000000e+00 * $v_pres_mod_temp)));
  (*1617*) Do (AddA v_jac 277 (#(-7.2708351321751064e-01) * ($v_j_temp * #(-5.7102223643760053e-01) + #1.5000000000000000e+00 * $v_pres_mod_temp)));
  (*1618*) Do (AddA v_jac 280 (#7.4998613945075876e-01 * ($v_j_temp * #(-5.7102223643760053e-01) + #1.5000000000000000e+00 * $v_pres_mod_temp)));
  (*1619*) Do (AddA v_jac 296 (#(-3.4734585093427126e-02) * ($v_j_temp * #(-3.5870588016911675e-02) + $v_pres_mod_temp)));
  (*1620*) Do (AddA v_jac 298 (#(-1.1027095278365338e+00) * ($v_j_temp * #(-3.5870588016911675e-02) + $v_pres_mod_temp)));
  (*1621*) Do (AddA v_jac 301 (#1.1374441129299608e+00 * ($v_j_temp * #(-3.5870588016911675e-02) + $v_pres_mod_temp)));
  (*1622*) Do (AddA v_jac 317 (#(-3.3568593911733322e-02) * ($v_j_temp * #(-7.1851123102163683e-02) + $v_pres_mod_temp)));
  (*1623*) Do (AddA v_jac 319 (#(-1.0656931194939898e+00) * ($v_j_temp * #(-7.1851123102163683e-02) + $v_pres_mod_temp)));
  (*1624*) Do (AddA v_jac 322 (#1.0992617134057232e+00 * ($v_j_temp * #(-7.1851123102163683e-02) + $v_pres_mod_temp)));
  (*1625*) Do (AddA v_jac 338 (#(-3.2478341649959309e-02) * ($v_j_temp * #(-1.0783165818741525e-01) + $v_pres_mod_temp)));
  (*1626*) Do (AddA v_jac 340 (#(-1.0310811742650532e+00) * ($v_j_temp * #(-1.0783165818741525e-01) + $v_pres_mod_temp)));
  (*1627*) Do (AddA v_jac 343 (#1.0635595159150126e+00 * ($v_j_temp * #(-1.0783165818741525e-01) + $v_pres_mod_temp)));
  (*1628*) Do (AddA v_jac 359 (#(-3.5928873705342888e-02) * ($v_j_temp * #(-1.4378791924458678e-03) + $v_pres_mod_temp)));
  (*1629*) Do (AddA v_jac 361 (#(-1.1406242870830863e+00) * ($v_j_temp * #(-1.4378791924458678e-03) + $v_pres_mod_temp)));
  (*1630*) Do (AddA v_jac 364 (#1.1765531607884292e+00 * ($v_j_temp * #(-1.4378791924458678e-03) + $v_pres_mod_temp)));
  (*1631*) Do (AddA v_jac 380 (#(-3.4682761159877090e-02) * ($v_j_temp * #(-3.7418414277697654e-02) + $v_pres_mod_temp)));
  (*1632*) Do (AddA v_jac 382 (#(-1.1010642873610286e+00) * ($v_j_temp * #(-3.7418414277697654e-02) + $v_pres_mod_temp)));
  (*1633*) Do (AddA v_jac 385 (#1.1357470485209056e+00 * ($v_j_temp * #(-3.7418414277697654e-02) + $v_pres_mod_temp)));
  (*1634*) Do (AddA v_jac 401 (#(-3.3520188469166906e-02) * ($v_j_temp * #(-7.3398949362949439e-02) + #1.5000000000000000e+00 * $v_pres_mod_temp)));
  (*1635*) Do (AddA v_jac 403 (#(-1.0641564049320178e+00) * ($v_j_temp * #(-7.3398949362949439e-02) + #1.5000000000000000e+00 * $v_pres_mod_temp)));
  (*1636*) Do (AddA v_jac 406 (#1.0976765934011847e+00 * ($v_j_temp * #(-7.3398949362949439e-02) + #1.5000000000000000e+00 * $v_pres_mod_temp)));
  (*1637*) Do (AddA v_jac 422 (#(-2.5231300690898170e-02) * ($v_j_temp * #(-4.2602775520927771e-01))));
  (*1638*) Do (AddA v_jac 424 (#(-8.0101131470912179e-01) * ($v_j_temp * #(-4.2602775520927771e-01))));
  (*1639*) Do (AddA v_jac 427 (#8.2624261540002009e-01 * ($v_j_temp * #(-4.2602775520927771e-01))))]);
([
  (*1642*) Do (Asn v_j_temp 0 (#1.0 / $v_T * ((v_fwd_rates.[17] - v_rev_rates.[17]) * #(-1.7200000000000000e+00) + v_fwd_rates.[17] * #(-2.0) - v_rev_rates.[17] * (#(-1.0) + (- $v_T) * (v_dBdT.[6] - v_dBdT.[3] - v_dBdT.[1]))) * $v_rho_inv));
  (*1643*) Do (AddA v_jac 2 ((- $v_j_temp) * #1.0079400000000001e+00));
  (*1644*) Do (AddA v_jac 4 ((- $v_j_temp) * #3.1998799999999999e+01));
  (*1645*) Do (AddA v_jac 7 ($v_j_temp * #3.3006740000000001e+01))],
[
  (*1648*) If ($v_T) (#1000.0)
    [Asn v_Kc 0 (#2.4863279230000002e+00 + #(-9.8065834999999968e-01) * $v_logT + $v_T * (#(-8.7619317535266635e-04) + $v_T * (#1.8851645153326530e-06 + $v_T * (#(-1.2162578593584016e-09) + #3.0242614354638670e-13 * $v_T))) - #(-2.4114908299999999e+04) / $v_T)]
    [Asn v_Kc 0 (#5.4388072400000009e-01 + #(-7.6532694999999951e-01) * $v_logT + $v_T * (#3.7836630654214864e-04 + $v_T * (#2.0718083807300866e-08 + $v_T * (#(-7.9353483554039681e-12) + #5.4404627009013201e-16 * $v_T))) - #(-2.4273345466999999e+04) / $v_T)];
  (*1654*) Do (Asn v_Kc 0 (#8.2057360967184814e-02 * (Exp $v_Kc)));
  (*1655*) Do (Asn v_j_temp 0 ((- $v_mw_avg) * $v_rho_inv * (#3.0 * v_fwd_rates.[17] - #2.0 * v_rev_rates.[17])));
  (*1656*) Do (Asn v_kf 0 ((Exp (#3.3334803590584748e+01 - #1.72 * $v_logT))));
  (*1657*) Do (Asn v_kr 0 ($v_kf / $v_Kc));
  (*1658*) Do (AddA v_jac 23 (#(-5.0000000000000000e-01) * ($v_j_temp * #9.2803892982949643e-01)));
  (*1659*) Do (AddA v_jac 25 (#(-1.5873365478103855e+01) * ($v_j_temp * #9.2803892982949643e-01)));
  (*1660*) Do (AddA v_jac 28 (#1.6373365478103853e+01 * ($v_j_temp * #9.2803892982949643e-01)));
  (*1661*) Do (AddA v_jac 44 ((- ($v_j_temp * #9.6401946491474821e-01 + $v_kf * v_conc.[3] * v_conc.[3]))));
  (*1662*) Do (AddA v_jac 46 (#(-3.1746730956207710e+01) * ($v_j_temp * #9.6401946491474821e-01 + $v_kf * v_conc.[3] * v_conc.[3])));
  (*1663*) Do (AddA v_jac 49 (#3.2746730956207706e+01 * ($v_j_temp * #9.6401946491474821e-01 + $v_kf * v_conc.[3] * v_conc.[3])));
  (*1664*) Do (AddA v_jac 65 (#(-6.2998612447966798e-02) * ($v_j_temp * #4.2886781649405936e-01)));
  (*1665*) Do (AddA v_jac 67 (#(-2.0000000000000000e+00) * ($v_j_temp * #4.2886781649405936e-01)));
  (*1666*) Do (AddA v_jac 70 (#2.0629986124479669e+00 * ($v_j_temp * #4.2886781649405936e-01)));
  (*1667*) Do (AddA v_jac 86 (#(-3.1499306223983399e-02) * ($v_j_temp * #(-1.4226436701188128e-01) + $v_kf * #2.0 * v_conc.[3] * v_conc.[1] - $v_kr * v_conc.[6])));
  (*1668*) Do (AddA v_jac 88 ((- ($v_j_temp * #(-1.4226436701188128e-01) + $v_kf * #2.0 * v_conc.[3] * v_conc.[1] - $v_kr * v_conc.[6]))));
  (*1669*) Do (AddA v_jac 91 (#1.0314993062239834e+00 * ($v_j_temp * #(-1.4226436701188128e-01) + $v_kf * #2.0 * v_conc.[3] * v_conc.[1] - $v_kr * v_conc.[6])));
  (*1670*) Do (AddA v_jac 107 (#(-5.9264999700129481e-02) * ($v_j_temp * #3.9288728140880758e-01)));
  (*1671*) Do (AddA v_jac 109 (#(-1.8814700005997411e+00) * ($v_j_temp * #3.9288728140880758e-01)));
  (*1672*) Do (AddA v_jac 112 (#1.9407350002998707e+00 * ($v_j_temp * #3.9288728140880758e-01)));
  (*1673*) Do (AddA v_jac 128 (#(-5.5949172036182618e-02) * ($v_j_temp * #3.5690674632355568e-01)));
  (*1674*) Do (AddA v_jac 130 (#(-1.7762033118552694e+00) * ($v_j_temp * #3.5690674632355568e-01)));
  (*1675*) Do (AddA v_jac 133 (#1.8321524838914520e+00 * ($v_j_temp * #3.5690674632355568e-01)));
  (*1676*) Do (AddA v_jac 149 (#(-3.0537399331166910e-02) * ($v_j_temp * #(-1.7824490209713328e-01) - $v_kr * v_conc.[3])));
  (*1677*) Do (AddA v_jac 151 (#(-9.6946260066883305e-01) * ($v_j_temp * #(-1.7824490209713328e-01) - $v_kr * v_conc.[3])));
  (*1678*) Do (AddA v_jac 154 ($v_j_temp * #(-1.7824490209713328e-01) - $v_kr * v_conc.[3]));
  (*1679*) Do (AddA v_jac 170 (#(-7.1857747410685777e-02) * ($v_j_temp * #4.9928106040377707e-01)));
  (*1680*) Do (AddA v_jac 172 (#(-2.2812485741661725e+00) * ($v_j_temp * #4.9928106040377707e-01)));
  (*1681*) Do (AddA v_jac 175 (#2.3531063215768584e+00 * ($v_j_temp * #4.9928106040377707e-01)));
  (*1682*) Do (AddA v_jac 191 (#(-7.1857747410685777e-02) * ($v_j_temp * #4.9928106040377707e-01)));
  (*1683*) Do (AddA v_jac 193 (#(-2.2812485741661725e+00) * ($v_j_temp * #4.9928106040377707e-01)));
  (*1684*) Do (AddA v_jac 196 (#2.3531063215768584e+00 * ($v_j_temp * #4.9928106040377707e-01)));
  (*1685*) Do (AddA v_jac 212 (#(-6.7040376938333812e-02) * ($v_j_temp * #4.6330052531852528e-01)));
  (*1686*) Do (AddA v_jac 214 (#(-2.1283128098640356e+00) * ($v_j_temp * #4.6330052531852528e-01)));
  (*1687*) Do (AddA v_jac 217 (#2.1953531868023695e+00 * ($v_j_temp * #4.6330052531852528e-01)));
  (*1688*) Do (AddA v_jac 233 (#(-6.2828341257988030e-02) * ($v_j_temp * #4.2731999023327338e-01)));
  (*1689*) Do (AddA v_jac 235 (#(-1.9945944463421503e+00) * ($v_j_temp * #4.2731999023327338e-01)));
  (*1690*) Do (AddA v_jac 238 (#2.0574227876001383e+00 * ($v_j_temp * #4.2731999023327338e-01)));
  (*1691*) Do (AddA v_jac 254 (#(-3.5984491474595155e-02) * ($v_j_temp * #1.0994706834011048e-04)));
  (*1692*) Do (AddA v_jac 256 (#(-1.1423899694399224e+00) * ($v_j_temp * #1.0994706834011048e-04)));
  (*1693*) Do (AddA v_jac 259 (#1.1783744609145177e+00 * ($v_j_temp * #1.0994706834011048e-04)));
  (*1694*) Do (AddA v_jac 275 (#(-2.2902626233248052e-02) * ($v_j_temp * #(-5.7102223643760053e-01))));
  (*1695*) Do (AddA v_jac 277 (#(-7.2708351321751064e-01) * ($v_j_temp * #(-5.7102223643760053e-01))));
  (*1696*) Do (AddA v_jac 280 (#7.4998613945075876e-01 * ($v_j_temp * #(-5.7102223643760053e-01))));
  (*1697*) Do (AddA v_jac 296 (#(-3.4734585093427126e-02) * ($v_j_temp * #(-3.5870588016911675e-02))));
  (*1698*) Do (AddA v_jac 298 (#(-1.1027095278365338e+00) * ($v_j_temp * #(-3.5870588016911675e-02))));
  (*1699*) Do (AddA v_jac 301 (#1.1374441129299608e+00 * ($v_j_temp * #(-3.5870588016911675e-02))));
  (*1700*) Do (AddA v_jac 317 (#(-3.3568593911733322e-02) * ($v_j_temp * #(-7.1851123102163683e-02))));
  (*1701*) Do (AddA v_jac 319 (#(-1.0656931194939898e+00) * ($v_j_temp * #(-7.1851123102163683e-02))));
  (*1702*) Do (AddA v_jac 322 (#1.0992617134057232e+00 * ($v_j_temp * #(-7.1851123102163683e-02))));
  (*1703*) Do (AddA v_jac 338 (#(-3.2478341649959309e-02) * ($v_j_temp * #(-1.0783165818741525e-01))));
  (*1704*) Do (AddA v_jac 340 (#(-1.0310811742650532e+00) * ($v_j_temp * #(-1.0783165818741525e-01))));
  (*1705*) Do (AddA v_jac 343 (#1.0635595159150126e+00 * ($v_j_temp * #(-1.0783165818741525e-01))));
  (*1706*) Do (AddA v_jac 359 (#(-3.5928873705342888e-02) * ($v_j_temp * #(-1.4378791924458678e-03))));
  (*1707*) Do (AddA v_jac 361 (#(-1.1406242870830863e+00) * ($v_j_temp * #(-1.4378791924458678e-03))));
  (*1708*) Do (AddA v_jac 364 (#1.1765531607884292e+00 * ($v_j_temp * #(-1.4378791924458678e-03))));
  (*1709*) Do (AddA v_jac 380 (#(-3.4682761159877090e-02) * ($v_j_temp * #(-3.7418414277697654e-02))));
  (*1710*) Do (AddA v_jac 382 (#(-1.1010642873610286e+00) * ($v_j_temp * #(-3.7418414277697654e-02))));
  (*1711*) Do (AddA v_jac 385 (#1.1357470485209056e+00 * ($v_j_temp * #(-3.7418414277697654e-02))));
  (*1712*) Do (AddA v_jac 401 (#(-3.3520188469166906e-02) * ($v_j_temp * #(-7.3398949362949439e-02))));
  (*1713*) Do (AddA v_jac 403 (#(-1.0641564049320178e+00) * ($v_j_temp * #(-7.3398949362949439e-02))));
  (*1714*) Do (AddA v_jac 406 (#1.0976765934011847e+00 * ($v_j_temp * #(-7.3398949362949439e-02))));
  (*1715*) Do (AddA v_jac 422 (#(-2.5231300690898170e-02) * ($v_j_temp * #(-4.2602775520927771e-01))));
  (*1716*) Do (AddA v_jac 424 (#(-8.0101131470912179e-01) * ($v_j_temp * #(-4.2602775520927771e-01))));
  (*1717*) Do (AddA v_jac 427 (#8.2624261540002009e-01 * ($v_j_temp * #(-4.2602775520927771e-01))))]);
([
  (*1720*) Do (Asn v_j_temp 0 (#1.0 / $v_T * ((v_fwd_rates.[18] - v_rev_rates.[18]) * #(-7.6000000000000001e-01) + v_fwd_rates.[18] * #(-2.0) - v_rev_rates.[18] * (#(-1.0) + (- $v_T) * (v_dBdT.[6] - v_dBdT.[1] - v_dBdT.[3]))) * $v_rho_inv));
  (*1721*) Do (AddA v_jac 2 ((- $v_j_temp) * #1.0079400000000001e+00));
  (*1722*) Do (AddA v_jac 4 ((- $v_j_temp) * #3.1998799999999999e+01));
  (*1723*) Do (AddA v_jac 7 ($v_j_temp * #3.3006740000000001e+01))],
[
  (*1726*) If ($v_T) (#1000.0)
    [Asn v_Kc 0 (#2.4863279230000002e+00 + #(-9.8065834999999968e-01) * $v_logT + $v_T * (#(-8.7619317535266635e-04) + $v_T * (#1.8851645153326530e-06 + $v_T * (#(-1.2162578593584016e-09) + #3.0242614354638670e-13 * $v_T))) - #(-2.4114908299999999e+04) / $v_T)]
    [Asn v_Kc 0 (#5.4388072400000009e-01 + #(-7.6532694999999951e-01) * $v_logT + $v_T * (#3.7836630654214864e-04 + $v_T * (#2.0718083807300866e-08 + $v_T * (#(-7.9353483554039681e-12) + #5.4404627009013201e-16 * $v_T))) - #(-2.4273345466999999e+04) / $v_T)];
  (*1732*) Do (Asn v_Kc 0 (#8.2057360967184814e-02 * (Exp $v_Kc)));
  (*1733*) Do (Asn v_j_temp 0 ((- $v_mw_avg) * $v_rho_inv * (#3.0 * v_fwd_rates.[18] - #2.0 * v_rev_rates.[18])));
  (*1734*) Do (Asn v_kf 0 ((Exp (#2.9869600878946681e+01 - #0.76 * $v_logT))));
  (*1735*) Do (Asn v_kr 0 ($v_kf / $v_Kc));
  (*1736*) Do (AddA v_jac 23 (#(-5.0000000000000000e-01) * ($v_j_temp * #9.2803892982949643e-01)));
  (*1737*) Do (AddA v_jac 25 (#(-1.5873365478103855e+01) * ($v_j_temp * #9.2803892982949643e-01)));
  (*1738*) Do (AddA v_jac 28 (#1.6373365478103853e+01 * ($v_j_temp * #9.2803892982949643e-01)));
  (*1739*) Do (AddA v_jac 44 ((- ($v_j_temp * #9.6401946491474821e-01 + $v_kf * v_conc.[5] * v_conc.[3]))));
  (*1740*) Do (AddA v_jac 46 (#(-3.1746730956207710e+01) * ($v_j_temp * #9.6401946491474821e-01 + $v_kf * v_conc.[5] * v_conc.[3])));
  (*1741*) Do (AddA v_jac 49 (#3.2746730956207706e+01 * ($v_j_temp * #9.6401946491474821e-01 + $v_kf * v_conc.[5] * v_conc.[3])));
  (*1742*) Do (AddA v_jac 65 (#(-6.2998612447966798e-02) * ($v_j_temp * #4.2886781649405936e-01)));
  (*1743*) Do (AddA v_jac 67 (#(-2.0000000000000000e+00) * ($v_j_temp * #4.2886781649405936e-01)));
  (*1744*) Do (AddA v_jac 70 (#2.0629986124479669e+00 * ($v_j_temp * #4.2886781649405936e-01)));
  (*1745*) Do (AddA v_jac 86 (#(-3.1499306223983399e-02) * ($v_j_temp * #(-1.4226436701188128e-01) + $v_kf * v_conc.[1] * v_conc.[5])));
  (*1746*) Do (AddA v_jac 88 ((- ($v_j_temp * #(-1.4226436701188128e-01) + $v_kf * v_conc.[1] * v_conc.[5]))));
  (*1747*) Do (AddA v_jac 91 (#1.0314993062239834e+00 * ($v_j_temp * #(-1.4226436701188128e-01) + $v_kf * v_conc.[1] * v_conc.[5])));
  (*1748*) Do (AddA v_jac 107 (#(-5.9264999700129481e-02) * ($v_j_temp * #3.9288728140880758e-01)));
  (*1749*) Do (AddA v_jac 109 (#(-1.8814700005997411e+00) * ($v_j_temp * #3.9288728140880758e-01)));
  (*1750*) Do (AddA v_jac 112 (#1.9407350002998707e+00 * ($v_j_temp * #3.9288728140880758e-01)));
  (*1751*) Do (AddA v_jac 128 (#(-5.5949172036182618e-02) * ($v_j_temp * #3.5690674632355568e-01 + $v_kf * v_conc.[1] * v_conc.[3] - $v_kr * v_conc.[6])));
  (*1752*) Do (AddA v_jac 130 (#(-1.7762033118552694e+00) * ($v_j_temp * #3.5690674632355568e-01 + $v_kf * v_conc.[1] * v_conc.[3] - $v_kr * v_conc.[6])));
  (*1753*) Do (AddA v_jac 133 (#1.8321524838914520e+00 * ($v_j_temp * #3.5690674632355568e-01 + $v_kf * v_conc.[1] * v_conc.[3] - $v_kr * v_conc.[6])));
  (*1754*) Do (AddA v_jac 149 (#(-3.0537399331166910e-02) * ($v_j_temp * #(-1.7824490209713328e-01) - $v_kr * v_conc.[5])));
  (*1755*) Do (AddA v_jac 151 (#(-9.6946260066883305e-01) * ($v_j_temp * #(-1.7824490209713328e-01) - $v_kr * v_conc.[5])));
  (*1756*) Do (AddA v_jac 154 ($v_j_temp * #(-1.7824490209713328e-01) - $v_kr * v_conc.[5]));
  (*1757*) Do (AddA v_jac 170 (#(-7.1857747410685777e-02) * ($v_j_temp * #4.9928106040377707e-01)));
  (*1758*) Do (AddA v_jac 172 (#(-2.2812485741661725e+00) * ($v_j_temp * #4.9928106040377707e-01)));
  (*1759*) Do (AddA v_jac 175 (#2.3531063215768584e+00 * ($v_j_temp * #4.9928106040377707e-01)));
  (*1760*) Do (AddA v_jac 191 (#(-7.1857747410685777e-02) * ($v_j_temp * #4.9928106040377707e-01)));
  (*1761*) Do (AddA v_jac 193 (#(-2.2812485741661725e+00) * ($v_j_temp * #4.9928106040377707e-01)));
  (*1762*) Do (AddA v_jac 196 (#2.3531063215768584e+00 * ($v_j_temp * #4.9928106040377707e-01)));
  (*1763*) Do (AddA v_jac 212 (#(-6.7040376938333812e-02) * ($v_j_temp * #4.6330052531852528e-01)));
  (*1764*) Do (AddA v_jac 214 (#(-2.1283128098640356e+00) * ($v_j_temp * #4.6330052531852528e-01)));
  (*1765*) Do (AddA v_jac 217 (#2.1953531868023695e+00 * ($v_j_temp * #4.6330052531852528e-01)));
  (*1766*) Do (AddA v_jac 233 (#(-6.2828341257988030e-02) * ($v_j_temp * #4.2731999023327338e-01)));
  (*1767*) Do (AddA v_jac 235 (#(-1.9945944463421503e+00) * ($v_j_temp * #4.2731999023327338e-01)));
  (*1768*) Do (AddA v_jac 238 (#2.0574227876001383e+00 * ($v_j_temp * #4.2731999023327338e-01)));
  (*1769*) Do (AddA v_jac 254 (#(-3.5984491474595155e-02) * ($v_j_temp * #1.0994706834011048e-04)));
  (*1770*) Do (AddA v_jac 256 (#(-1.1423899694399224e+00) * ($v_j_temp * #1.0994706834011048e-04)));
  (*1771*) Do (AddA v_jac 259 (#1.1783744609145177e+00 * ($v_j_temp * #1.0994706834011048e-04)));
  (*1772*) Do (AddA v_jac 275 (#(-2.2902626233248052e-02) * ($v_j_temp * #(-5.7102223643760053e-01))));
  (*1773*) Do (AddA v_jac 277 (#(-7.2708351321751064e-01) * ($v_j_temp * #(-5.7102223643760053e-01))));
  (*1774*) Do (AddA v_jac 280 (#7.4998613945075876e-01 * ($v_j_temp * #(-5.7102223643760053e-01))));
  (*1775*) Do (AddA v_jac 296 (#(-3.4734585093427126e-02) * ($v_j_temp * #(-3.5870588016911675e-02))));
  (*1776*) Do (AddA v_jac 298 (#(-1.1027095278365338e+00) * ($v_j_temp * #(-3.5870588016911675e-02))));
  (*1777*) Do (AddA v_jac 301 (#1.1374441129299608e+00 * ($v_j_temp * #(-3.5870588016911675e-02))));
  (*1778*) Do (AddA v_jac 317 (#(-3.3568593911733322e-02) * ($v_j_temp * #(-7.1851123102163683e-02))));
  (*1779*) Do (AddA v_jac 319 (#(-1.0656931194939898e+00) * ($v_j_temp * #(-7.1851123102163683e-02))));
  (*1780*) Do (AddA v_jac 322 (#1.0992617134057232e+00 * ($v_j_temp * #(-7.1851123102163683e-02))));
  (*1781*) Do (AddA v_jac 338 (#(-3.2478341649959309e-02) * ($v_j_temp * #(-1.0783165818741525e-01))));
  (*1782*) Do (AddA v_jac 340 (#(-1.0310811742650532e+00) * ($v_j_temp * #(-1.0783165818741525e-01))));
  (*1783*) Do (AddA v_jac 343 (#1.0635595159150126e+00 * ($v_j_temp * #(-1.0783165818741525e-01))));
  (*1784*) Do (AddA v_jac 359 (#(-3.5928873705342888e-02) * ($v_j_temp * #(-1.4378791924458678e-03))));
  (*1785*) Do (AddA v_jac 361 (#(-1.1406242870830863e+00) * ($v_j_temp * #(-1.4378791924458678e-03))));
  (*1786*) Do (AddA v_jac 364 (#1.1765531607884292e+00 * ($v_j_temp * #(-1.4378791924458678e-03))));
  (*1787*) Do (AddA v_jac 380 (#(-3.4682761159877090e-02) * ($v_j_temp * #(-3.7418414277697654e-02))));
  (*1788*) Do (AddA v_jac 382 (#(-1.1010642873610286e+00) * ($v_j_temp * #(-3.7418414277697654e-02))));
  (*1789*) Do (AddA v_jac 385 (#1.1357470485209056e+00 * ($v_j_temp * #(-3.7418414277697654e-02))));
  (*1790*) Do (AddA v_jac 401 (#(-3.3520188469166906e-02) * ($v_j_temp * #(-7.3398949362949439e-02))));
  (*1791*) Do (AddA v_jac 403 (#(-1.0641564049320178e+00) * ($v_j_temp * #(-7.3398949362949439e-02))));
  (*1792*) Do (AddA v_jac 406 (#1.0976765934011847e+00 * ($v_j_temp * #(-7.3398949362949439e-02))));
  (*1793*) Do (AddA v_jac 422 (#(-2.5231300690898170e-02) * ($v_j_temp * #(-4.2602775520927771e-01))));
  (*1794*) Do (AddA v_jac 424 (#(-8.0101131470912179e-01) * ($v_j_temp * #(-4.2602775520927771e-01))));
  (*1795*) Do (AddA v_jac 427 (#8.2624261540002009e-01 * ($v_j_temp * #(-4.2602775520927771e-01))))]);
([
  (*1798*) Do (Asn v_j_temp 0 (#1.0 / $v_T * ((v_fwd_rates.[19] - v_rev_rates.[19]) * #(-1.7200000000000000e+00) + v_fwd_rates.[19] * #(-2.0) - v_rev_rates.[19] * (#(-1.0) + (- $v_T) * (v_dBdT.[6] - v_dBdT.[1] - v_dBdT.[3]))) * $v_rho_inv));
  (*1799*) Do (AddA v_jac 2 ((- $v_j_temp) * #1.0079400000000001e+00));
  (*1800*) Do (AddA v_jac 4 ((- $v_j_temp) * #3.1998799999999999e+01));
  (*1801*) Do (AddA v_jac 7 ($v_j_temp * #3.3006740000000001e+01))],
[
  (*1804*) If ($v_T) (#1000.0)
    [Asn v_Kc 0 (#2.4863279230000002e+00 + #(-9.8065834999999968e-01) * $v_logT + $v_T * (#(-8.7619317535266635e-04) + $v_T * (#1.8851645153326530e-06 + $v_T * (#(-1.2162578593584016e-09) + #3.0242614354638670e-13 * $v_T))) - #(-2.4114908299999999e+04) / $v_T)]
    [Asn v_Kc 0 (#5.4388072400000009e-01 + #(-7.6532694999999951e-01) * $v_logT + $v_T * (#3.7836630654214864e-04 + $v_T * (#2.0718083807300866e-08 + $v_T * (#(-7.9353483554039681e-12) + #5.4404627009013201e-16 * $v_T))) - #(-2.4273345466999999e+04) / $v_T)];
  (*1810*) Do (Asn v_Kc 0 (#8.2057360967184814e-02 * (Exp $v_Kc)));
  (*1811*) Do (Asn v_j_temp 0 ((- $v_mw_avg) * $v_rho_inv * (#3.0 * v_fwd_rates.[19] - #2.0 * v_rev_rates.[19])));
  (*1812*) Do (Asn v_kf 0 ((Exp (#3.3557947141898957e+01 - #1.72 * $v_logT))));
  (*1813*) Do (Asn v_kr 0 ($v_kf / $v_Kc));
  (*1814*) Do (AddA v_jac 23 (#(-5.0000000000000000e-01) * ($v_j_temp * #9.2803892982949643e-01 - #7.1961070170503627e-02 * ($v_kf * v_conc.[1] * v_conc.[3] - $v_kr * v_conc.[6]))));
  (*1815*) Do (AddA v_jac 25 (#(-1.5873365478103855e+01) * ($v_j_temp * #9.2803892982949643e-01 - #7.1961070170503627e-02 * ($v_kf * v_conc.[1] * v_conc.[3] - $v_kr * v_conc.[6]))));
  (*1816*) Do (AddA v_jac 28 (#1.6373365478103853e+01 * ($v_j_temp * #9.2803892982949643e-01 - #7.1961070170503627e-02 * ($v_kf * v_conc.[1] * v_conc.[3] - $v_kr * v_conc.[6]))));
  (*1817*) Do (AddA v_jac 44 ((- ($v_j_temp * #9.6401946491474821e-01 + $v_kf * v_conc.[20] * v_conc.[3] - #3.5980535085251814e-02 * ($v_kf * v_conc.[1] * v_conc.[3] - $v_kr * v_conc.[6])))));
  (*1818*) Do (AddA v_jac 46 (#(-3.1746730956207710e+01) * ($v_j_temp * #9.6401946491474821e-01 + $v_kf * v_conc.[20] * v_conc.[3] - #3.5980535085251814e-02 * ($v_kf * v_conc.[1] * v_conc.[3] - $v_kr * v_conc.[6]))));
  (*1819*) Do (AddA v_jac 49 (#3.2746730956207706e+01 * ($v_j_temp * #9.6401946491474821e-01 + $v_kf * v_conc.[20] * v_conc.[3] - #3.5980535085251814e-02 * ($v_kf * v_conc.[1] * v_conc.[3] - $v_kr * v_conc.[6]))));
  (*1820*) Do (AddA v_jac 65 (#(-6.2998612447966798e-02) * ($v_j_temp * #4.2886781649405936e-01 - #5.7113218350594064e-01 * ($v_kf * v_conc.[1] * v_conc.[3] - $v_kr * v_conc.[6]))));
  (*1821*) Do (AddA v_jac 67 (#(-2.0000000000000000e+00) * ($v_j_temp * #4.2886781649405936e-01 - #5.7113218350594064e-01 * ($v_kf * v_conc.[1] * v_conc.[3] - $v_kr * v_conc.[6]))));
  (*1822*) Do (AddA v_jac 70 (#2.0629986124479669e+00 * ($v_j_temp * #4.2886781649405936e-01 - #5.7113218350594064e-01 * ($v_kf * v_conc.[1] * v_conc.[3] - $v_kr * v_conc.[6]))));
  (*1823*) Do (AddA v_jac 86 (#(-3.1499306223983399e-02) * ($v_j_temp * #(-1.4226436701188128e-01) + $v_kf * v_conc.[1] * v_conc.[20] - #1.1422643670118813e+00 * ($v_kf * v_conc.[1] * v_conc.[3] - $v_kr * v_conc.[6]))));
  (*1824*) Do (AddA v_jac 88 ((- ($v_j_temp * #(-1.4226436701188128e-01) + $v_kf * v_conc.[1] * v_conc.[20] - #1.1422643670118813e+00 * ($v_kf * v_conc.[1] * v_conc.[3] - $v_kr * v_conc.[6])))));
  (*1825*) Do (AddA v_jac 91 (#1.0314993062239834e+00 * ($v_j_temp * #(-1.4226436701188128e-01) + $v_kf * v_conc.[1] * v_conc.[20] - #1.1422643670118813e+00 * ($v_kf * v_conc.[1] * v_conc.[3] - $v_kr * v_conc.[6]))));
  (*1826*) Do (AddA v_jac 107 (#(-5.9264999700129481e-02) * ($v_j_temp * #3.9288728140880758e-01 - #6.0711271859119242e-01 * ($v_kf * v_conc.[1] * v_conc.[3] - $v_kr * v_conc.[6]))));
  (*1827*) Do (AddA v_jac 109 (#(-1.8814700005997411e+00) * ($v_j_temp * #3.9288728140880758e-01 - #6.0711271859119242e-01 * ($v_kf * v_conc.[1] * v_conc.[3] - $v_kr * v_conc.[6]))));
  (*1828*) Do (AddA v_jac 112 (#1.9407350002998707e+00 * ($v_j_temp * #3.9288728140880758e-01 - #6.0711271859119242e-01 * ($v_kf * v_conc.[1] * v_conc.[3] - $v_kr * v_conc.[6]))));
  (*1829*) Do (AddA v_jac 128 (#(-5.5949172036182618e-02) * ($v_j_temp * #3.5690674632355568e-01 - #6.4309325367644432e-01 * ($v_kf * v_conc.[1] * v_conc.[3] - $v_kr * v_conc.[6]))));
  (*1830*) Do (AddA v_jac 130 (#(-1.7762033118552694e+00) * ($v_j_temp * #3.5690674632355568e-01 - #6.4309325367644432e-01 * ($v_kf * v_conc.[1] * v_conc.[3] - $v_kr * v_conc.[6]))));
  (*1831*) Do (AddA v_jac 133 (#1.8321524838914520e+00 * ($v_j_temp * #3.5690674632355568e-01 - #6.4309325367644432e-01 * ($v_kf * v_conc.[1] * v_conc.[3] - $v_kr * v_conc.[6]))));
  (*1832*) Do (AddA v_jac 149 (#(-3.0537399331166910e-02) * ($v_j_temp * #(-1.7824490209713328e-01) - $v_kr * v_conc.[20] - #1.1782449020971333e+00 * ($v_kf * v_conc.[1] * v_conc.[3] - $v_kr * v_conc.[6]))));
  (*1833*) Do (AddA v_jac 151 (#(-9.6946260066883305e-01) * ($v_j_temp * #(-1.7824490209713328e-01) - $v_kr * v_conc.[20] - #1.1782449020971333e+00 * ($v_kf * v_conc.[1] * v_conc.[3] - $v_kr * v_conc.[6]))));
  (*1834*) Do (AddA v_jac 154 ($v_j_temp * #(-1.7824490209713328e-01) - $v_kr * v_conc.[20] - #1.1782449020971333e+00 * ($v_kf * v_conc.[1] * v_conc.[3] - $v_kr * v_conc.[6])));
  (*1835*) Do (AddA v_jac 170 (#(-7.1857747410685777e-02) * ($v_j_temp * #4.9928106040377707e-01 - #5.0071893959622293e-01 * ($v_kf * v_conc.[1] * v_conc.[3] - $v_kr * v_conc.[6]))));
  (*1836*) Do (AddA v_jac 172 (#(-2.2812485741661725e+00) * ($v_j_temp * #4.9928106040377707e-01 - #5.0071893959622293e-01 * ($v_kf * v_conc.[1] * v_conc.[3] - $v_kr * v_conc.[6]))));
  (*1837*) Do (AddA v_jac 175 (#2.3531063215768584e+00 * ($v_j_temp * #4.9928106040377707e-01 - #5.0071893959622293e-01 * ($v_kf * v_conc.[1] * v_conc.[3] - $v_kr * v_conc.[6]))));
  (*1838*) Do (AddA v_jac 191 (#(-7.1857747410685777e-02) * ($v_j_temp * #4.9928106040377707e-01 - #5.0071893959622293e-01 * ($v_kf * v_conc.[1] * v_conc.[3] - $v_kr * v_conc.[6]))));
  (*1839*) Do (AddA v_jac 193 (#(-2.2812485741661725e+00) * ($v_j_temp * #4.9928106040377707e-01 - #5.0071893959622293e-01 * ($v_kf * v_conc.[1] * v_conc.[3] - $v_kr * v_conc.[6]))));
  (*1840*) Do (AddA v_jac 196 (#2.3531063215768584e+00 * ($v_j_temp * #4.9928106040377707e-01 - #5.0071893959622293e-01 * ($v_kf * v_conc.[1] * v_conc.[3] - $v_kr * v_conc.[6]))));
  (*1841*) Do (AddA v_jac 212 (#(-6.7040376938333812e-02) * ($v_j_temp * #4.6330052531852528e-01 - #5.3669947468147472e-01 * ($v_kf * v_conc.[1] * v_conc.[3] - $v_kr * v_conc.[6]))));
  (*1842*) Do (AddA v_jac 214 (#(-2.1283128098640356e+00) * ($v_j_temp * #4.6330052531852528e-01 - #5.3669947468147472e-01 * ($v_kf * v_conc.[1] * v_conc.[3] - $v_kr * v_conc.[6]))));
  (*1843*) Do (AddA v_jac 217 (#2.1953531868023695e+00 * ($v_j_temp * #4.6330052531852528e-01 - #5.3669947468147472e-01 * ($v_kf * v_conc.[1] * v_conc.[3] - $v_kr * v_conc.[6]))));
  (*1844*) Do (AddA v_jac 233 (#(-6.2828341257988030e-02) * ($v_j_temp * #4.2731999023327338e-01 - #5.7268000976672662e-01 * ($v_kf * v_conc.[1] * v_conc.[3] - $v_kr * v_conc.[6]))));
  (*1845*) Do (AddA v_jac 235 (#(-1.9945944463421503e+00) * ($v_j_temp * #4.2731999023327338e-01 - #5.7268000976672662e-01 * ($v_kf * v_conc.[1] * v_conc.[3] - $v_kr * v_conc.[6]))));
  (*1846*) Do (AddA v_jac 238 (#2.0574227876001383e+00 * ($v_j_temp * #4.2731999023327338e-01 - #5.7268000976672662e-01 * ($v_kf * v_conc.[1] * v_conc.[3] - $v_kr * v_conc.[6]))));
  (*1847*) Do (AddA v_jac 254 (#(-3.5984491474595155e-02) * ($v_j_temp * #1.0994706834011048e-04 - #9.9989005293165989e-01 * ($v_kf * v_conc.[1] * v_conc.[3] - $v_kr * v_conc.[6]))));
  (*1848*) Do (AddA v_jac 256 (#(-1.1423899694399224e+00) * ($v_j_temp * #1.0994706834011048e-04 - #9.9989005293165989e-01 * ($v_kf * v_conc.[1] * v_conc.[3] - $v_kr * v_conc.[6]))));
  (*1849*) Do (AddA v_jac 259 (#1.1783744609145177e+00 * ($v_j_temp * #1.0994706834011048e-04 - #9.9989005293165989e-01 * ($v_kf * v_conc.[1] * v_conc.[3] - $v_kr * v_conc.[6]))));
  (*1850*) Do (AddA v_jac 275 (#(-2.2902626233248052e-02) * ($v_j_temp * #(-5.7102223643760053e-01) - #1.5710222364376005e+00 * ($v_kf * v_conc.[1] * v_conc.[3] - $v_kr * v_conc.[6]))));
  (*1851*) Do (AddA v_jac 277 (#(-7.2708351321751064e-01) * ($v_j_temp * #(-5.7102223643760053e-01) - #1.5710222364376005e+00 * ($v_kf * v_conc.[1] * v_conc.[3] - $v_kr * v_conc.[6]))));
  (*1852*) Do (AddA v_jac 280 (#7.4998613945075876e-01 * ($v_j_temp * #(-5.7102223643760053e-01) - #1.5710222364376005e+00 * ($v_kf * v_conc.[1] * v_conc.[3] - $v_kr * v_conc.[6]))));
  (*1853*) Do (AddA v_jac 296 (#(-3.4734585093427126e-02) * ($v_j_temp * #(-3.5870588016911675e-02) - #1.0358705880169117e+00 * ($v_kf * v_conc.[1] * v_conc.[3] - $v_kr * v_conc.[6]))));
  (*1854*) Do (AddA v_jac 298 (#(-1.1027095278365338e+00) * ($v_j_temp * #(-3.5870588016911675e-02) - #1.0358705880169117e+00 * ($v_kf * v_conc.[1] * v_conc.[3] - $v_kr * v_conc.[6]))));
  (*1855*) Do (AddA v_jac 301 (#1.1374441129299608e+00 * ($v_j_temp * #(-3.5870588016911675e-02) - #1.0358705880169117e+00 * ($v_kf * v_conc.[1] * v_conc.[3] - $v_kr * v_conc.[6]))));
  (*1856*) Do (AddA v_jac 317 (#(-3.3568593911733322e-02) * ($v_j_temp * #(-7.1851123102163683e-02) - #1.0718511231021637e+00 * ($v_kf * v_conc.[1] * v_conc.[3] - $v_kr * v_conc.[6]))));
  (*1857*) Do (AddA v_jac 319 (#(-1.0656931194939898e+00) * ($v_j_temp * #(-7.1851123102163683e-02) - #1.0718511231021637e+00 * ($v_kf * v_conc.[1] * v_conc.[3] - $v_kr * v_conc.[6]))));
  (*1858*) Do (AddA v_jac 322 (#1.0992617134057232e+00 * ($v_j_temp * #(-7.1851123102163683e-02) - #1.0718511231021637e+00 * ($v_kf * v_conc.[1] * v_conc.[3] - $v_kr * v_conc.[6]))));
  (*1859*) Do (AddA v_jac 338 (#(-3.2478341649959309e-02) * ($v_j_temp * #(-1.0783165818741525e-01) - #1.1078316581874152e+00 * ($v_kf * v_conc.[1] * v_conc.[3] - $v_kr * v_conc.[6]))));
  (*1860*) Do (AddA v_jac 340 (#(-1.0310811742650532e+00) * ($v_j_temp * #(-1.0783165818741525e-01) - #1.1078316581874152e+00 * ($v_kf * v_conc.[1] * v_conc.[3] - $v_kr * v_conc.[6]))));
  (*1861*) Do (AddA v_jac 343 (#1.0635595159150126e+00 * ($v_j_temp * #(-1.0783165818741525e-01) - #1.1078316581874152e+00 * ($v_kf * v_conc.[1] * v_conc.[3] - $v_kr * v_conc.[6]))));
  (*1862*) Do (AddA v_jac 359 (#(-3.5928873705342888e-02) * ($v_j_temp * #(-1.4378791924458678e-03) - #1.0014378791924459e+00 * ($v_kf * v_conc.[1] * v_conc.[3] - $v_kr * v_conc.[6]))));
  (*1863*) Do (AddA v_jac 361 (#(-1.1406242870830863e+00) * ($v_j_temp * #(-1.4378791924458678e-03) - #1.0014378791924459e+00 * ($v_kf * v_conc.[1] * v_conc.[3] - $v_kr * v_conc.[6]))));
  (*1864*) Do (AddA v_jac 364 (#1.1765531607884292e+00 * ($v_j_temp * #(-1.4378791924458678e-03) - #1.0014378791924459e+00 * ($v_kf * v_conc.[1] * v_conc.[3] - $v_kr * v_conc.[6]))));
  (*1865*) Do (AddA v_jac 380 (#(-3.4682761159877090e-02) * ($v_j_temp * #(-3.7418414277697654e-02) - #1.0374184142776977e+00 * ($v_kf * v_conc.[1] * v_conc.[3] - $v_kr * v_conc.[6]))));
  (*1866*) Do (AddA v_jac 382 (#(-1.1010642873610286e+00) * ($v_j_temp * #(-3.7418414277697654e-02) - #1.0374184142776977e+00 * ($v_kf * v_conc.[1] * v_conc.[3] - $v_kr * v_conc.[6]))));
  (*1867*) Do (AddA v_jac 385 (#1.1357470485209056e+00 * ($v_j_temp * #(-3.7418414277697654e-02) - #1.0374184142776977e+00 * ($v_kf * v_conc.[1] * v_conc.[3] - $v_kr * v_conc.[6]))));
  (*1868*) Do (AddA v_jac 401 (#(-3.3520188469166906e-02) * ($v_j_temp * #(-7.3398949362949439e-02) - #1.0733989493629494e+00 * ($v_kf * v_conc.[1] * v_conc.[3] - $v_kr * v_conc.[6]))));
  (*1869*) Do (AddA v_jac 403 (#(-1.0641564049320178e+00) * ($v_j_temp * #(-7.3398949362949439e-02) - #1.0733989493629494e+00 * ($v_kf * v_conc.[1] * v_conc.[3] - $v_kr * v_conc.[6]))));
  (*1870*) Do (AddA v_jac 406 (#1.0976765934011847e+00 * ($v_j_temp * #(-7.3398949362949439e-02) - #1.0733989493629494e+00 * ($v_kf * v_conc.[1] * v_conc.[3] - $v_kr * v_conc.[6]))));
  (*1871*) Do (AddA v_jac 422 (#(-2.5231300690898170e-02) * ($v_j_temp * #(-4.2602775520927771e-01) - #1.4260277552092777e+00 * ($v_kf * v_conc.[1] * v_conc.[3] - $v_kr * v_conc.[6]))));
  (*1872*) Do (AddA v_jac 424 (#(-8.0101131470912179e-01) * ($v_j_temp * #(-4.2602775520927771e-01) - #1.4260277552092777e+00 * ($v_kf * v_conc.[1] * v_conc.[3] - $v_kr * v_conc.[6]))));
  (*1873*) Do (AddA v_jac 427 (#8.2624261540002009e-01 * ($v_j_temp * #(-4.2602775520927771e-01) - #1.4260277552092777e+00 * ($v_kf * v_conc.[1] * v_conc.[3] - $v_kr * v_conc.[6]))))]);
([
  (*1876*) Do (Asn v_j_temp 0 (#1.0 / $v_T * ((v_fwd_rates.[20] - v_rev_rates.[20]) * #(-8.0000000000000004e-01) + v_fwd_rates.[20] * #(-2.0) - v_rev_rates.[20] * (#(-1.0) + (- $v_T) * (v_dBdT.[6] - v_dBdT.[1] - v_dBdT.[3]))) * $v_rho_inv));
  (*1877*) Do (AddA v_jac 4 ((- $v_j_temp) * #3.1998799999999999e+01));
  (*1878*) Do (AddA v_jac 2 ((- $v_j_temp) * #1.0079400000000001e+00));
  (*1879*) Do (AddA v_jac 7 ($v_j_temp * #3.3006740000000001e+01))],
[
  (*1882*) If ($v_T) (#1000.0)
    [Asn v_Kc 0 (#2.4863279230000002e+00 + #(-9.8065834999999968e-01) * $v_logT + $v_T * (#(-8.7619317535266635e-04) + $v_T * (#1.8851645153326530e-06 + $v_T * (#(-1.2162578593584016e-09) + #3.0242614354638670e-13 * $v_T))) - #(-2.4114908299999999e+04) / $v_T)]
    [Asn v_Kc 0 (#5.4388072400000009e-01 + #(-7.6532694999999951e-01) * $v_logT + $v_T * (#3.7836630654214864e-04 + $v_T * (#2.0718083807300866e-08 + $v_T * (#(-7.9353483554039681e-12) + #5.4404627009013201e-16 * $v_T))) - #(-2.4273345466999999e+04) / $v_T)];
  (*1888*) Do (Asn v_Kc 0 (#8.2057360967184814e-02 * (Exp $v_Kc)));
  (*1889*) Do (Asn v_j_temp 0 ((- $v_mw_avg) * $v_rho_inv * (#3.0 * v_fwd_rates.[20] - #2.0 * v_rev_rates.[20])));
  (*1890*) Do (Asn v_kf 0 ((Exp (#2.7274346171989816e+01 - #0.8 * $v_logT))));
  (*1891*) Do (Asn v_kr 0 ($v_kf / $v_Kc));
  (*1892*) Do (AddA v_jac 25 (#(-1.5873365478103855e+01) * ($v_j_temp * #9.2803892982949643e-01)));
  (*1893*) Do (AddA v_jac 23 (#(-5.0000000000000000e-01) * ($v_j_temp * #9.2803892982949643e-01)));
  (*1894*) Do (AddA v_jac 28 (#1.6373365478103853e+01 * ($v_j_temp * #9.2803892982949643e-01)));
  (*1895*) Do (AddA v_jac 46 (#(-3.1746730956207710e+01) * ($v_j_temp * #9.6401946491474821e-01 + $v_kf * v_conc.[19] * v_conc.[3])));
  (*1896*) Do (AddA v_jac 44 ((- ($v_j_temp * #9.6401946491474821e-01 + $v_kf * v_conc.[19] * v_conc.[3]))));
  (*1897*) Do (AddA v_jac 49 (#3.2746730956207706e+01 * ($v_j_temp * #9.6401946491474821e-01 + $v_kf * v_conc.[19] * v_conc.[3])));
  (*1898*) Do (AddA v_jac 67 (#(-2.0000000000000000e+00) * ($v_j_temp * #4.2886781649405936e-01)));
  (*1899*) Do (AddA v_jac 65 (#(-6.2998612447966798e-02) * ($v_j_temp * #4.2886781649405936e-01)));
  (*1900*) Do (AddA v_jac 70 (#2.0629986124479669e+00 * ($v_j_temp * #4.2886781649405936e-01)));
  (*1901*) Do (AddA v_jac 88 ((- ($v_j_temp * #(-1.4226436701188128e-01) + $v_kf * v_conc.[1] * v_conc.[19]))));
  (*1902*) Do (AddA v_jac 86 (#(-3.1499306223983399e-02) * ($v_j_temp * #(-1.4226436701188128e-01) + $v_kf * v_conc.[1] * v_conc.[19])));
  (*1903*) Do (AddA v_jac 91 (#1.0314993062239834e+00 * ($v_j_temp * #(-1.4226436701188128e-01) + $v_kf * v_conc.[1] * v_conc.[19])));
  (*1904*) Do (AddA v_jac 109 (#(-1.8814700005997411e+00) * ($v_j_temp * #3.9288728140880758e-01)));
  (*1905*) Do (AddA v_jac 107 (#(-5.9264999700129481e-02) * ($v_j_temp * #3.9288728140880758e-01)));
  (*1906*) Do (AddA v_jac 112 (#1.9407350002998707e+00 * ($v_j_temp * #3.9288728140880758e-01)));
  (*1907*) Do (AddA v_jac 130 (#(-1.7762033118552694e+00) * ($v_j_temp * #3.5690674632355568e-01)));
  (*1908*) Do (AddA v_jac 128 (#(-5.5949172036182618e-02) * ($v_j_temp * #3.5690674632355568e-01)));
  (*1909*) Do (AddA v_jac 133 (#1.8321524838914520e+00 * ($v_j_temp * #3.5690674632355568e-01)));
  (*1910*) Do (AddA v_jac 151 (#(-9.6946260066883305e-01) * ($v_j_temp * #(-1.7824490209713328e-01) - $v_kr * v_conc.[19])));
  (*1911*) Do (AddA v_jac 149 (#(-3.0537399331166910e-02) * ($v_j_temp * #(-1.7824490209713328e-01) - $v_kr * v_conc.[19])));
  (*1912*) Do (AddA v_jac 154 ($v_j_temp * #(-1.7824490209713328e-01) - $v_kr * v_conc.[19]));
  (*1913*) Do (AddA v_jac 172 (#(-2.2812485741661725e+00) * ($v_j_temp * #4.9928106040377707e-01)));
  (*1914*) Do (AddA v_jac 170 (#(-7.1857747410685777e-02) * ($v_j_temp * #4.9928106040377707e-01)));
  (*1915*) Do (AddA v_jac 175 (#2.3531063215768584e+00 * ($v_j_temp * #4.9928106040377707e-01)));
  (*1916*) Do (AddA v_jac 193 (#(-2.2812485741661725e+00) * ($v_j_temp * #4.9928106040377707e-01)));
  (*1917*) Do (AddA v_jac 191 (#(-7.1857747410685777e-02) * ($v_j_temp * #4.9928106040377707e-01)));
  (*1918*) Do (AddA v_jac 196 (#2.3531063215768584e+00 * ($v_j_temp * #4.9928106040377707e-01)));
  (*1919*) Do (AddA v_jac 214 (#(-2.1283128098640356e+00) * ($v_j_temp * #4.6330052531852528e-01)));
  (*1920*) Do (AddA v_jac 212 (#(-6.7040376938333812e-02) * ($v_j_temp * #4.6330052531852528e-01)));
  (*1921*) Do (AddA v_jac 217 (#2.1953531868023695e+00 * ($v_j_temp * #4.6330052531852528e-01)));
  (*1922*) Do (AddA v_jac 235 (#(-1.9945944463421503e+00) * ($v_j_temp * #4.2731999023327338e-01)));
  (*1923*) Do (AddA v_jac 233 (#(-6.2828341257988030e-02) * ($v_j_temp * #4.2731999023327338e-01)));
  (*1924*) Do (AddA v_jac 238 (#2.0574227876001383e+00 * ($v_j_temp * #4.2731999023327338e-01)));
  (*1925*) Do (AddA v_jac 256 (#(-1.1423899694399224e+00) * ($v_j_temp * #1.0994706834011048e-04)));
  (*1926*) Do (AddA v_jac 254 (#(-3.5984491474595155e-02) * ($v_j_temp * #1.0994706834011048e-04)));
  (*1927*) Do (AddA v_jac 259 (#1.1783744609145177e+00 * ($v_j_temp * #1.0994706834011048e-04)));
  (*1928*) Do (AddA v_jac 277 (#(-7.2708351321751064e-01) * ($v_j_temp * #(-5.7102223643760053e-01))));
  (*1929*) Do (AddA v_jac 275 (#(-2.2902626233248052e-02) * ($v_j_temp * #(-5.7102223643760053e-01))));
  (*1930*) Do (AddA v_jac 280 (#7.4998613945075876e-01 * ($v_j_temp * #(-5.7102223643760053e-01))));
  (*1931*) Do (AddA v_jac 298 (#(-1.1027095278365338e+00) * ($v_j_temp * #(-3.5870588016911675e-02))));
  (*1932*) Do (AddA v_jac 296 (#(-3.4734585093427126e-02) * ($v_j_temp * #(-3.5870588016911675e-02))));
  (*1933*) Do (AddA v_jac 301 (#1.1374441129299608e+00 * ($v_j_temp * #(-3.5870588016911675e-02))));
  (*1934*) Do (AddA v_jac 319 (#(-1.0656931194939898e+00) * ($v_j_temp * #(-7.1851123102163683e-02))));
  (*1935*) Do (AddA v_jac 317 (#(-3.3568593911733322e-02) * ($v_j_temp * #(-7.1851123102163683e-02))));
  (*1936*) Do (AddA v_jac 322 (#1.0992617134057232e+00 * ($v_j_temp * #(-7.1851123102163683e-02))));
  (*1937*) Do (AddA v_jac 340 (#(-1.0310811742650532e+00) * ($v_j_temp * #(-1.0783165818741525e-01))));
  (*1938*) Do (AddA v_jac 338 (#(-3.2478341649959309e-02) * ($v_j_temp * #(-1.0783165818741525e-01))));
  (*1939*) Do (AddA v_jac 343 (#1.0635595159150126e+00 * ($v_j_temp * #(-1.0783165818741525e-01))));
  (*1940*) Do (AddA v_jac 361 (#(-1.1406242870830863e+00) * ($v_j_temp * #(-1.4378791924458678e-03))));
  (*1941*) Do (AddA v_jac 359 (#(-3.5928873705342888e-02) * ($v_j_temp * #(-1.4378791924458678e-03))));
  (*1942*) Do (AddA v_jac 364 (#1.1765531607884292e+00 * ($v_j_temp * #(-1.4378791924458678e-03))));
  (*1943*) Do (AddA v_jac 382 (#(-1.1010642873610286e+00) * ($v_j_temp * #(-3.7418414277697654e-02))));
  (*1944*) Do (AddA v_jac 380 (#(-3.4682761159877090e-02) * ($v_j_temp * #(-3.7418414277697654e-02))));
  (*1945*) Do (AddA v_jac 385 (#1.1357470485209056e+00 * ($v_j_temp * #(-3.7418414277697654e-02))));
  (*1946*) Do (AddA v_jac 403 (#(-1.0641564049320178e+00) * ($v_j_temp * #(-7.3398949362949439e-02))));
  (*1947*) Do (AddA v_jac 401 (#(-3.3520188469166906e-02) * ($v_j_temp * #(-7.3398949362949439e-02))));
  (*1948*) Do (AddA v_jac 406 (#1.0976765934011847e+00 * ($v_j_temp * #(-7.3398949362949439e-02))));
  (*1949*) Do (AddA v_jac 424 (#(-8.0101131470912179e-01) * ($v_j_temp * #(-4.2602775520927771e-01) + $v_kf * v_conc.[1] * v_conc.[3] - $v_kr * v_conc.[6])));
  (*1950*) Do (AddA v_jac 422 (#(-2.5231300690898170e-02) * ($v_j_temp * #(-4.2602775520927771e-01) + $v_kf * v_conc.[1] * v_conc.[3] - $v_kr * v_conc.[6])));
  (*1951*) Do (AddA v_jac 427 (#8.2624261540002009e-01 * ($v_j_temp * #(-4.2602775520927771e-01) + $v_kf * v_conc.[1] * v_conc.[3] - $v_kr * v_conc.[6])))]);
([
  (*1954*) Do (Asn v_j_temp 0 (#1.0 / $v_T * ((v_fwd_rates.[21] - v_rev_rates.[21]) * (#7.2529035883151109e+03 / $v_T) + v_fwd_rates.[21] * #(-1.0) - v_rev_rates.[21] * (#(-1.0) + (- $v_T) * (v_dBdT.[2] + v_dBdT.[4] - v_dBdT.[1] - v_dBdT.[3]))) * $v_rho_inv));
  (*1955*) Do (AddA v_jac 2 ((- $v_j_temp) * #1.0079400000000001e+00));
  (*1956*) Do (AddA v_jac 3 ($v_j_temp * #1.5999400000000000e+01));
  (*1957*) Do (AddA v_jac 4 ((- $v_j_temp) * #3.1998799999999999e+01));
  (*1958*) Do (AddA v_jac 5 ($v_j_temp * #1.7007339999999999e+01))],
[
  (*1961*) If ($v_T) (#1000.0)
    [Asn v_Kc 0 (#(-2.1408110450000004e+00) + #8.7782617000000007e-01 * $v_logT + $v_T * (#(-1.3419511003526666e-03) + $v_T * (#2.3561672699932007e-07 + $v_T * (#(-2.7325373525067973e-11) + #1.1652302046386607e-14 * $v_T))) - #8.3276234200000017e+03 / $v_T)]
    [Asn v_Kc 0 (#4.3747157639999994e+00 + #(-1.2022939999999949e-01) * $v_logT + $v_T * (#(-5.1031595730785127e-04) + $v_T * (#1.5440338995730085e-07 + $v_T * (#(-2.5619540480403969e-11) + #1.7320676705901320e-15 * $v_T))) - #8.6910339200000017e+03 / $v_T)];
  (*1967*) Do (Asn v_Kc 0 ((Exp $v_Kc)));
  (*1968*) Do (Asn v_j_temp 0 ((- $v_mw_avg) * $v_rho_inv * (#2.0 * v_fwd_rates.[21] - #2.0 * v_rev_rates.[21])));
  (*1969*) Do (Asn v_kf 0 ((Exp (#2.5142106444743010e+01 - #7.2529035883151109e+03 / $v_T))));
  (*1970*) Do (Asn v_kr 0 ($v_kf / $v_Kc));
  (*1971*) Do (AddA v_jac 23 (#(-5.0000000000000000e-01) * ($v_j_temp * #9.2803892982949643e-01)));
  (*1972*) Do (AddA v_jac 24 (#7.9366827390519274e+00 * ($v_j_temp * #9.2803892982949643e-01)));
  (*1973*) Do (AddA v_jac 25 (#(-1.5873365478103855e+01) * ($v_j_temp * #9.2803892982949643e-01)));
  (*1974*) Do (AddA v_jac 26 (#8.4366827390519266e+00 * ($v_j_temp * #9.2803892982949643e-01)));
  (*1975*) Do (AddA v_jac 44 ((- ($v_j_temp * #9.6401946491474821e-01 + $v_kf * v_conc.[3]))));
  (*1976*) Do (AddA v_jac 45 (#1.5873365478103855e+01 * ($v_j_temp * #9.6401946491474821e-01 + $v_kf * v_conc.[3])));
  (*1977*) Do (AddA v_jac 46 (#(-3.1746730956207710e+01) * ($v_j_temp * #9.6401946491474821e-01 + $v_kf * v_conc.[3])));
  (*1978*) Do (AddA v_jac 47 (#1.6873365478103853e+01 * ($v_j_temp * #9.6401946491474821e-01 + $v_kf * v_conc.[3])));
  (*1979*) Do (AddA v_jac 65 (#(-6.2998612447966798e-02) * ($v_j_temp * #4.2886781649405936e-01 - $v_kr * v_conc.[4])));
  (*1980*) Do (AddA v_jac 66 ($v_j_temp * #4.2886781649405936e-01 - $v_kr * v_conc.[4]));
  (*1981*) Do (AddA v_jac 67 (#(-2.0000000000000000e+00) * ($v_j_temp * #4.2886781649405936e-01 - $v_kr * v_conc.[4])));
  (*1982*) Do (AddA v_jac 68 (#1.0629986124479667e+00 * ($v_j_temp * #4.2886781649405936e-01 - $v_kr * v_conc.[4])));
  (*1983*) Do (AddA v_jac 86 (#(-3.1499306223983399e-02) * ($v_j_temp * #(-1.4226436701188128e-01) + $v_kf * v_conc.[1])));
  (*1984*) Do (AddA v_jac 87 (#5.0000000000000000e-01 * ($v_j_temp * #(-1.4226436701188128e-01) + $v_kf * v_conc.[1])));
  (*1985*) Do (AddA v_jac 88 ((- ($v_j_temp * #(-1.4226436701188128e-01) + $v_kf * v_conc.[1]))));
  (*1986*) Do (AddA v_jac 89 (#5.3149930622398334e-01 * ($v_j_temp * #(-1.4226436701188128e-01) + $v_kf * v_conc.[1])));
  (*1987*) Do (AddA v_jac 107 (#(-5.9264999700129481e-02) * ($v_j_temp * #3.9288728140880758e-01 - $v_kr * v_conc.[2])));
  (*1988*) Do (AddA v_jac 108 (#9.4073500029987056e-01 * ($v_j_temp * #3.9288728140880758e-01 - $v_kr * v_conc.[2])));
  (*1989*) Do (AddA v_jac 109 (#(-1.8814700005997411e+00) * ($v_j_temp * #3.9288728140880758e-01 - $v_kr * v_conc.[2])));
  (*1990*) Do (AddA v_jac 110 ($v_j_temp * #3.9288728140880758e-01 - $v_kr * v_conc.[2]));
  (*1991*) Do (AddA v_jac 128 (#(-5.5949172036182618e-02) * ($v_j_temp * #3.5690674632355568e-01)));
  (*1992*) Do (AddA v_jac 129 (#8.8810165592763468e-01 * ($v_j_temp * #3.5690674632355568e-01)));
  (*1993*) Do (AddA v_jac 130 (#(-1.7762033118552694e+00) * ($v_j_temp * #3.5690674632355568e-01)));
  (*1994*) Do (AddA v_jac 131 (#9.4405082796381734e-01 * ($v_j_temp * #3.5690674632355568e-01)));
  (*1995*) Do (AddA v_jac 149 (#(-3.0537399331166910e-02) * ($v_j_temp * #(-1.7824490209713328e-01))));
  (*1996*) Do (AddA v_jac 150 (#4.8473130033441653e-01 * ($v_j_temp * #(-1.7824490209713328e-01))));
  (*1997*) Do (AddA v_jac 151 (#(-9.6946260066883305e-01) * ($v_j_temp * #(-1.7824490209713328e-01))));
  (*1998*) Do (AddA v_jac 152 (#5.1526869966558342e-01 * ($v_j_temp * #(-1.7824490209713328e-01))));
  (*1999*) Do (AddA v_jac 170 (#(-7.1857747410685777e-02) * ($v_j_temp * #4.9928106040377707e-01)));
  (*2000*) Do (AddA v_jac 171 (#1.1406242870830863e+00 * ($v_j_temp * #4.9928106040377707e-01)));
  (*2001*) Do (AddA v_jac 172 (#(-2.2812485741661725e+00) * ($v_j_temp * #4.9928106040377707e-01)));
  (*2002*) Do (AddA v_jac 173 (#1.2124820344937721e+00 * ($v_j_temp * #4.9928106040377707e-01)));
  (*2003*) Do (AddA v_jac 191 (#(-7.1857747410685777e-02) * ($v_j_temp * #4.9928106040377707e-01)));
  (*2004*) Do (AddA v_jac 192 (#1.1406242870830863e+00 * ($v_j_temp * #4.9928106040377707e-01)));
  (*2005*) Do (AddA v_jac 193 (#(-2.2812485741661725e+00) * ($v_j_temp * #4.9928106040377707e-01)));
  (*2006*) Do (AddA v_jac 194 (#1.2124820344937721e+00 * ($v_j_temp * #4.9928106040377707e-01)));
  (*2007*) Do (AddA v_jac 212 (#(-6.7040376938333812e-02) * ($v_j_temp * #4.6330052531852528e-01)));
  (*2008*) Do (AddA v_jac 213 (#1.0641564049320178e+00 * ($v_j_temp * #4.6330052531852528e-01)));
  (*2009*) Do (AddA v_jac 214 (#(-2.1283128098640356e+00) * ($v_j_temp * #4.6330052531852528e-01)));
  (*2010*) Do (AddA v_jac 215 (#1.1311967818703517e+00 * ($v_j_temp * #4.6330052531852528e-01)));
  (*2011*) Do (AddA v_jac 233 (#(-6.2828341257988030e-02) * ($v_j_temp * #4.2731999023327338e-01)));
  (*2012*) Do (AddA v_jac 234 (#9.9729722317107516e-01 * ($v_j_temp * #4.2731999023327338e-01)));
  (*2013*) Do (AddA v_jac 235 (#(-1.9945944463421503e+00) * ($v_j_temp * #4.2731999023327338e-01)));
  (*2014*) Do (AddA v_jac 236 (#1.0601255644290632e+00 * ($v_j_temp * #4.2731999023327338e-01)));
  (*2015*) Do (AddA v_jac 254 (#(-3.5984491474595155e-02) * ($v_j_temp * #1.0994706834011048e-04)));
  (*2016*) Do (AddA v_jac 255 (#5.7119498471996122e-01 * ($v_j_temp * #1.0994706834011048e-04)));
  (*2017*) Do (AddA v_jac 256 (#(-1.1423899694399224e+00) * ($v_j_temp * #1.0994706834011048e-04)));
  (*2018*) Do (AddA v_jac 257 (#6.0717947619455637e-01 * ($v_j_temp * #1.0994706834011048e-04)));
  (*2019*) Do (AddA v_jac 275 (#(-2.2902626233248052e-02) * ($v_j_temp * #(-5.7102223643760053e-01))));
  (*2020*) Do (AddA v_jac 276 (#3.6354175660875532e-01 * ($v_j_temp * #(-5.7102223643760053e-01))));
  (*2021*) Do (AddA v_jac 277 (#(-7.2708351321751064e-01) * ($v_j_temp * #(-5.7102223643760053e-01))));
  (*2022*) Do (AddA v_jac 278 (#3.8644438284200339e-01 * ($v_j_temp * #(-5.7102223643760053e-01))));
  (*2023*) Do (AddA v_jac 296 (#(-3.4734585093427126e-02) * ($v_j_temp * #(-3.5870588016911675e-02))));
  (*2024*) Do (AddA v_jac 297 (#5.5135476391826688e-01 * ($v_j_temp * #(-3.5870588016911675e-02))));
  (*2025*) Do (AddA v_jac 298 (#(-1.1027095278365338e+00) * ($v_j_temp * #(-3.5870588016911675e-02))));
  (*2026*) Do (AddA v_jac 299 (#5.8608934901169396e-01 * ($v_j_temp * #(-3.5870588016911675e-02))));
  (*2027*) Do (AddA v_jac 317 (#(-3.3568593911733322e-02) * ($v_j_temp * #(-7.1851123102163683e-02))));
  (*2028*) Do (AddA v_jac 318 (#5.3284655974699491e-01 * ($v_j_temp * #(-7.1851123102163683e-02))));
  (*2029*) Do (AddA v_jac 319 (#(-1.0656931194939898e+00) * ($v_j_temp * #(-7.1851123102163683e-02))));
  (*2030*) Do (AddA v_jac 320 (#5.6641515365872830e-01 * ($v_j_temp * #(-7.1851123102163683e-02))));
  (*2031*) Do (AddA v_jac 338 (#(-3.2478341649959309e-02) * ($v_j_temp * #(-1.0783165818741525e-01))));
  (*2032*) Do (AddA v_jac 339 (#5.1554058713252660e-01 * ($v_j_temp * #(-1.0783165818741525e-01))));
  (*2033*) Do (AddA v_jac 340 (#(-1.0310811742650532e+00) * ($v_j_temp * #(-1.0783165818741525e-01))));
  (*2034*) Do (AddA v_jac 341 (#5.4801892878248593e-01 * ($v_j_temp * #(-1.0783165818741525e-01))));
  (*2035*) Do (AddA v_jac 359 (#(-3.5928873705342888e-02) * ($v_j_temp * #(-1.4378791924458678e-03))));
  (*2036*) Do (AddA v_jac 360 (#5.7031214354154314e-01 * ($v_j_temp * #(-1.4378791924458678e-03))));
  (*2037*) Do (AddA v_jac 361 (#(-1.1406242870830863e+00) * ($v_j_temp * #(-1.4378791924458678e-03))));
  (*2038*) Do (AddA v_jac 362 (#6.0624101724688606e-01 * ($v_j_temp * #(-1.4378791924458678e-03))));
  (*2039*) Do (AddA v_jac 380 (#(-3.4682761159877090e-02) * ($v_j_temp * #(-3.7418414277697654e-02))));
  (*2040*) Do (AddA v_jac 381 (#5.5053214368051429e-01 * ($v_j_temp * #(-3.7418414277697654e-02))));
  (*2041*) Do (AddA v_jac 382 (#(-1.1010642873610286e+00) * ($v_j_temp * #(-3.7418414277697654e-02))));
  (*2042*) Do (AddA v_jac 383 (#5.8521490484039129e-01 * ($v_j_temp * #(-3.7418414277697654e-02))));
  (*2043*) Do (AddA v_jac 401 (#(-3.3520188469166906e-02) * ($v_j_temp * #(-7.3398949362949439e-02))));
  (*2044*) Do (AddA v_jac 402 (#5.3207820246600890e-01 * ($v_j_temp * #(-7.3398949362949439e-02))));
  (*2045*) Do (AddA v_jac 403 (#(-1.0641564049320178e+00) * ($v_j_temp * #(-7.3398949362949439e-02))));
  (*2046*) Do (AddA v_jac 404 (#5.6559839093517583e-01 * ($v_j_temp * #(-7.3398949362949439e-02))));
  (*2047*) Do (AddA v_jac 422 (#(-2.5231300690898170e-02) * ($v_j_temp * #(-4.2602775520927771e-01))));
  (*2048*) Do (AddA v_jac 423 (#4.0050565735456090e-01 * ($v_j_temp * #(-4.2602775520927771e-01))));
  (*2049*) Do (AddA v_jac 424 (#(-8.0101131470912179e-01) * ($v_j_temp * #(-4.2602775520927771e-01))));
  (*2050*) Do (AddA v_jac 425 (#4.2573695804545908e-01 * ($v_j_temp * #(-4.2602775520927771e-01))))]);
([
  (*2053*) Do (Asn v_j_temp 0 (((- v_pres_mod.[3]) * (v_fwd_rates.[22] - v_rev_rates.[22]) / $v_T + v_pres_mod.[3] / $v_T * ((v_fwd_rates.[22] - v_rev_rates.[22]) * #(-1.0000000000000000e+00) + v_fwd_rates.[22] * #(-1.0) - v_rev_rates.[22] * ((- $v_T) * (v_dBdT.[0] - #2.0 * v_dBdT.[1])))) * $v_rho_inv));
  (*2054*) Do (AddA v_jac 1 ($v_j_temp * #2.0158800000000001e+00));
  (*2055*) Do (AddA v_jac 2 ($v_j_temp * #(-2.0) * #1.0079400000000001e+00))],
[
  (*2058*) If ($v_T) (#1000.0)
    [Asn v_Kc 0 (#4.2320448239999999e+00 + #(-1.6556688799999999e+00) * $v_logT + $v_T * (#3.9902603742946671e-03 + $v_T * (#(-3.2463584993346931e-06) + $v_T * (#1.6797674496165307e-09 + #(-3.6880588040722682e-13) * $v_T))) - #(-5.1865254972999996e+04) / $v_T)]
    [Asn v_Kc 0 (#(-6.4893666199999966e-01) + #(-6.6272082000000010e-01) * $v_logT + $v_T * (#(-2.4701213465702698e-05) + $v_T * (#8.3242790947935064e-08 + $v_T * (#(-1.4963865377474610e-11) + #1.0012768301802643e-15 * $v_T))) - #(-5.1897478722000000e+04) / $v_T)];
  (*2064*) Do (Asn v_Kc 0 (#8.2057360967184814e-02 * (Exp $v_Kc)));
  (*2065*) Do (Asn v_pres_mod_temp 0 (v_fwd_rates.[22] - v_rev_rates.[22]));
  (*2066*) Do (Asn v_j_temp 0 ((- $v_mw_avg) * $v_rho_inv * v_pres_mod.[3] * (#3.0 * v_fwd_rates.[22] - #2.0 * v_rev_rates.[22])));
  (*2067*) Do (Asn v_kf 0 ((Exp (#2.7631021115928547e+01 - #1.0 * $v_logT))));
  (*2068*) Do (Asn v_kr 0 ($v_kf / $v_Kc));
  (*2069*) Do (AddA v_jac 22 ($v_j_temp * #9.2803892982949643e-01 + #(-7.1961070170503627e-02) * $v_pres_mod_temp + v_pres_mod.[3] * (- $v_kr)));
  (*2070*) Do (AddA v_jac 23 ((- ($v_j_temp * #9.2803892982949643e-01 + #(-7.1961070170503627e-02) * $v_pres_mod_temp + v_pres_mod.[3] * (- $v_kr)))));
  (*2071*) Do (AddA v_jac 43 (#2.0000000000000000e+00 * ($v_j_temp * #9.6401946491474821e-01 + #9.6401946491474821e-01 * $v_pres_mod_temp + v_pres_mod.[3] * ($v_kf * #2.0 * v_conc.[1]))));
  (*2072*) Do (AddA v_jac 44 (#(-2.0000000000000000e+00) * ($v_j_temp * #9.6401946491474821e-01 + #9.6401946491474821e-01 * $v_pres_mod_temp + v_pres_mod.[3] * ($v_kf * #2.0 * v_conc.[1]))));
  (*2073*) Do (AddA v_jac 64 (#1.2599722489593360e-01 * ($v_j_temp * #4.2886781649405936e-01 + #4.2886781649405936e-01 * $v_pres_mod_temp)));
  (*2074*) Do (AddA v_jac 65 (#(-1.2599722489593360e-01) * ($v_j_temp * #4.2886781649405936e-01 + #4.2886781649405936e-01 * $v_pres_mod_temp)));
  (*2075*) Do (AddA v_jac 85 (#6.2998612447966798e-02 * ($v_j_temp * #(-1.4226436701188128e-01) + #(-1.4226436701188128e-01) * $v_pres_mod_temp)));
  (*2076*) Do (AddA v_jac 86 (#(-6.2998612447966798e-02) * ($v_j_temp * #(-1.4226436701188128e-01) + #(-1.4226436701188128e-01) * $v_pres_mod_temp)));
  (*2077*) Do (AddA v_jac 106 (#1.1852999940025896e-01 * ($v_j_temp * #3.9288728140880758e-01 + #3.9288728140880758e-01 * $v_pres_mod_temp)));
  (*2078*) Do (AddA v_jac 107 (#(-1.1852999940025896e-01) * ($v_j_temp * #3.9288728140880758e-01 + #3.9288728140880758e-01 * $v_pres_mod_temp)));
  (*2079*) Do (AddA v_jac 127 (#1.1189834407236524e-01 * ($v_j_temp * #3.5690674632355568e-01 + #(-6.4309325367644432e-01) * $v_pres_mod_temp)));
  (*2080*) Do (AddA v_jac 128 (#(-1.1189834407236524e-01) * ($v_j_temp * #3.5690674632355568e-01 + #(-6.4309325367644432e-01) * $v_pres_mod_temp)));
  (*2081*) Do (AddA v_jac 148 (#6.1074798662333819e-02 * ($v_j_temp * #(-1.7824490209713328e-01) + #(-1.7824490209713328e-01) * $v_pres_mod_temp)));
  (*2082*) Do (AddA v_jac 149 (#(-6.1074798662333819e-02) * ($v_j_temp * #(-1.7824490209713328e-01) + #(-1.7824490209713328e-01) * $v_pres_mod_temp)));
  (*2083*) Do (AddA v_jac 169 (#1.4371549482137155e-01 * ($v_j_temp * #4.9928106040377707e-01 + #4.9928106040377707e-01 * $v_pres_mod_temp)));
  (*2084*) Do (AddA v_jac 170 (#(-1.4371549482137155e-01) * ($v_j_temp * #4.9928106040377707e-01 + #4.9928106040377707e-01 * $v_pres_mod_temp)));
  (*2085*) Do (AddA v_jac 190 (#1.4371549482137155e-01 * ($v_j_temp * #4.9928106040377707e-01 + #4.9928106040377707e-01 * $v_pres_mod_temp)));
  (*2086*) Do (AddA v_jac 191 (#(-1.4371549482137155e-01) * ($v_j_temp * #4.9928106040377707e-01 + #4.9928106040377707e-01 * $v_pres_mod_temp)));
  (*2087*) Do (AddA v_jac 211 (#1.3408075387666762e-01 * ($v_j_temp * #4.6330052531852528e-01 + #4.6330052531852528e-01 * $v_pres_mod_temp)));
  (*2088*) Do (AddA v_jac 212 (#(-1.3408075387666762e-01) * ($v_j_temp * #4.6330052531852528e-01 + #4.6330052531852528e-01 * $v_pres_mod_temp)));
  (*2089*) Do (AddA v_jac 232 (#1.2565668251597606e-01 * ($v_j_temp * #4.2731999023327338e-01 + #1.4273199902332734e+00 * $v_pres_mod_temp)));
  (*2090*) Do (AddA v_jac 233 (#(-1.2565668251597606e-01) * ($v_j_temp * #4.2731999023327338e-01 + #1.4273199902332734e+00 * $v_pres_mod_temp)));
  (*2091*) Do (AddA v_jac 253 (#7.1968982949190310e-02 * ($v_j_temp * #1.0994706834011048e-04 + #1.0994706834011048e-04 * $v_pres_mod_temp)));
  (*2092*) Do (AddA v_jac 254 (#(-7.1968982949190310e-02) * ($v_j_temp * #1.0994706834011048e-04 + #1.0994706834011048e-04 * $v_pres_mod_temp)));
  (*2093*) Do (AddA v_jac 274 (#4.5805252466496103e-02 * ($v_j_temp * #(-5.7102223643760053e-01) + #(-1.5710222364376005e+00) * $v_pres_mod_temp)));
  (*2094*) Do (AddA v_jac 275 (#(-4.5805252466496103e-02) * ($v_j_temp * #(-5.7102223643760053e-01) + #(-1.5710222364376005e+00) * $v_pres_mod_temp)));
  (*2095*) Do (AddA v_jac 295 (#6.9469170186854251e-02 * ($v_j_temp * #(-3.5870588016911675e-02) + #(-3.5870588016911675e-02) * $v_pres_mod_temp)));
  (*2096*) Do (AddA v_jac 296 (#(-6.9469170186854251e-02) * ($v_j_temp * #(-3.5870588016911675e-02) + #(-3.5870588016911675e-02) * $v_pres_mod_temp)));
  (*2097*) Do (AddA v_jac 316 (#6.7137187823466643e-02 * ($v_j_temp * #(-7.1851123102163683e-02) + #(-7.1851123102163683e-02) * $v_pres_mod_temp)));
  (*2098*) Do (AddA v_jac 317 (#(-6.7137187823466643e-02) * ($v_j_temp * #(-7.1851123102163683e-02) + #(-7.1851123102163683e-02) * $v_pres_mod_temp)));
  (*2099*) Do (AddA v_jac 337 (#6.4956683299918619e-02 * ($v_j_temp * #(-1.0783165818741525e-01) + #(-1.0783165818741525e-01) * $v_pres_mod_temp)));
  (*2100*) Do (AddA v_jac 338 (#(-6.4956683299918619e-02) * ($v_j_temp * #(-1.0783165818741525e-01) + #(-1.0783165818741525e-01) * $v_pres_mod_temp)));
  (*2101*) Do (AddA v_jac 358 (#7.1857747410685777e-02 * ($v_j_temp * #(-1.4378791924458678e-03) + #(-1.4378791924458678e-03) * $v_pres_mod_temp)));
  (*2102*) Do (AddA v_jac 359 (#(-7.1857747410685777e-02) * ($v_j_temp * #(-1.4378791924458678e-03) + #(-1.4378791924458678e-03) * $v_pres_mod_temp)));
  (*2103*) Do (AddA v_jac 379 (#6.9365522319754180e-02 * ($v_j_temp * #(-3.7418414277697654e-02) + #(-3.7418414277697654e-02) * $v_pres_mod_temp)));
  (*2104*) Do (AddA v_jac 380 (#(-6.9365522319754180e-02) * ($v_j_temp * #(-3.7418414277697654e-02) + #(-3.7418414277697654e-02) * $v_pres_mod_temp)));
  (*2105*) Do (AddA v_jac 400 (#6.7040376938333812e-02 * ($v_j_temp * #(-7.3398949362949439e-02) + #1.9266010506370506e+00 * $v_pres_mod_temp)));
  (*2106*) Do (AddA v_jac 401 (#(-6.7040376938333812e-02) * ($v_j_temp * #(-7.3398949362949439e-02) + #1.9266010506370506e+00 * $v_pres_mod_temp)));
  (*2107*) Do (AddA v_jac 421 (#5.0462601381796340e-02 * ($v_j_temp * #(-4.2602775520927771e-01) + #(-7.9602775520927771e-01) * $v_pres_mod_temp)));
  (*2108*) Do (AddA v_jac 422 (#(-5.0462601381796340e-02) * ($v_j_temp * #(-4.2602775520927771e-01) + #(-7.9602775520927771e-01) * $v_pres_mod_temp)))]);
([
  (*2111*) Do (Asn v_j_temp 0 (#1.0 / $v_T * ((v_fwd_rates.[23] - v_rev_rates.[23]) * #(-5.9999999999999998e-01) + v_fwd_rates.[23] * #(-2.0) - v_rev_rates.[23] * (#(-1.0) + (- $v_T) * (v_dBdT.[0] - #2.0 * v_dBdT.[1]))) * $v_rho_inv));
  (*2112*) Do (AddA v_jac 1 ($v_j_temp * #2.0158800000000001e+00));
  (*2113*) Do (AddA v_jac 2 ($v_j_temp * #(-2.0) * #1.0079400000000001e+00))],
[
  (*2116*) If ($v_T) (#1000.0)
    [Asn v_Kc 0 (#4.2320448239999999e+00 + #(-1.6556688799999999e+00) * $v_logT + $v_T * (#3.9902603742946671e-03 + $v_T * (#(-3.2463584993346931e-06) + $v_T * (#1.6797674496165307e-09 + #(-3.6880588040722682e-13) * $v_T))) - #(-5.1865254972999996e+04) / $v_T)]
    [Asn v_Kc 0 (#(-6.4893666199999966e-01) + #(-6.6272082000000010e-01) * $v_logT + $v_T * (#(-2.4701213465702698e-05) + $v_T * (#8.3242790947935064e-08 + $v_T * (#(-1.4963865377474610e-11) + #1.0012768301802643e-15 * $v_T))) - #(-5.1897478722000000e+04) / $v_T)];
  (*2122*) Do (Asn v_Kc 0 (#8.2057360967184814e-02 * (Exp $v_Kc)));
  (*2123*) Do (Asn v_j_temp 0 ((- $v_mw_avg) * $v_rho_inv * (#3.0 * v_fwd_rates.[23] - #2.0 * v_rev_rates.[23])));
  (*2124*) Do (Asn v_kf 0 ((Exp (#2.5223075507276675e+01 - #0.6 * $v_logT))));
  (*2125*) Do (Asn v_kr 0 ($v_kf / $v_Kc));
  (*2126*) Do (AddA v_jac 22 ($v_j_temp * #9.2803892982949643e-01 + $v_kf * v_conc.[1] * v_conc.[1] - $v_kr * #2.0 * v_conc.[0]));
  (*2127*) Do (AddA v_jac 23 ((- ($v_j_temp * #9.2803892982949643e-01 + $v_kf * v_conc.[1] * v_conc.[1] - $v_kr * #2.0 * v_conc.[0]))));
  (*2128*) Do (AddA v_jac 43 (#2.0000000000000000e+00 * ($v_j_temp * #9.6401946491474821e-01 + $v_kf * #2.0 * v_conc.[1] * v_conc.[0])));
  (*2129*) Do (AddA v_jac 44 (#(-2.0000000000000000e+00) * ($v_j_temp * #9.6401946491474821e-01 + $v_kf * #2.0 * v_conc.[1] * v_conc.[0])));
  (*2130*) Do (AddA v_jac 64 (#1.2599722489593360e-01 * ($v_j_temp * #4.2886781649405936e-01)));
  (*2131*) Do (AddA v_jac 65 (#(-1.2599722489593360e-01) * ($v_j_temp * #4.2886781649405936e-01)));
  (*2132*) Do (AddA v_jac 85 (#6.2998612447966798e-02 * ($v_j_temp * #(-1.4226436701188128e-01))));
  (*2133*) Do (AddA v_jac 86 (#(-6.2998612447966798e-02) * ($v_j_temp * #(-1.4226436701188128e-01))));
  (*2134*) Do (AddA v_jac 106 (#1.1852999940025896e-01 * ($v_j_temp * #3.9288728140880758e-01)));
  (*2135*) Do (AddA v_jac 107 (#(-1.1852999940025896e-01) * ($v_j_temp * #3.9288728140880758e-01)));
  (*2136*) Do (AddA v_jac 127 (#1.1189834407236524e-01 * ($v_j_temp * #3.5690674632355568e-01)));
  (*2137*) Do (AddA v_jac 128 (#(-1.1189834407236524e-01) * ($v_j_temp * #3.5690674632355568e-01)));
  (*2138*) Do (AddA v_jac 148 (#6.1074798662333819e-02 * ($v_j_temp * #(-1.7824490209713328e-01))));
  (*2139*) Do (AddA v_jac 149 (#(-6.1074798662333819e-02) * ($v_j_temp * #(-1.7824490209713328e-01))));
  (*2140*) Do (AddA v_jac 169 (#1.4371549482137155e-01 * ($v_j_temp * #4.9928106040377707e-01)));
  (*2141*) Do (AddA v_jac 170 (#(-1.4371549482137155e-01) * ($v_j_temp * #4.9928106040377707e-01)));
  (*2142*) Do (AddA v_jac 190 (#1.4371549482137155e-01 * ($v_j_temp * #4.9928106040377707e-01)));
  (*2143*) Do (AddA v_jac 191 (#(-1.4371549482137155e-01) * ($v_j_temp * #4.9928106040377707e-01)));
  (*2144*) Do (AddA v_jac 211 (#1.3408075387666762e-01 * ($v_j_temp * #4.6330052531852528e-01)));
  (*2145*) Do (AddA v_jac 212 (#(-1.3408075387666762e-01) * ($v_j_temp * #4.6330052531852528e-01)));
  (*2146*) Do (AddA v_jac 232 (#1.2565668251597606e-01 * ($v_j_temp * #4.2731999023327338e-01)));
  (*2147*) Do (AddA v_jac 233 (#(-1.2565668251597606e-01) * ($v_j_temp * #4.2731999023327338e-01)));
  (*2148*) Do (AddA v_jac 253 (#7.1968982949190310e-02 * ($v_j_temp * #1.0994706834011048e-04)));
  (*2149*) Do (AddA v_jac 254 (#(-7.1968982949190310e-02) * ($v_j_temp * #1.0994706834011048e-04)));
  (*2150*) Do (AddA v_jac 274 (#4.5805252466496103e-02 * ($v_j_temp * #(-5.7102223643760053e-01))));
  (*2151*) Do (AddA v_jac 275 (#(-4.5805252466496103e-02) * ($v_j_temp * #(-5.7102223643760053e-01))));
  (*2152*) Do (AddA v_jac 295 (#6.9469170186854251e-02 * ($v_j_temp * #(-3.5870588016911675e-02))));
  (*2153*) Do (AddA v_jac 296 (#(-6.9469170186854251e-02) * ($v_j_temp * #(-3.5870588016911675e-02))));
  (*2154*) Do (AddA v_jac 316 (#6.7137187823466643e-02 * ($v_j_temp * #(-7.1851123102163683e-02))));
  (*2155*) Do (AddA v_jac 317 (#(-6.7137187823466643e-02) * ($v_j_temp * #(-7.1851123102163683e-02))));
  (*2156*) Do (AddA v_jac 337 (#6.4956683299918619e-02 * ($v_j_temp * #(-1.0783165818741525e-01))));
  (*2157*) Do (AddA v_jac 338 (#(-6.4956683299918619e-02) * ($v_j_temp * #(-1.0783165818741525e-01))));
  (*2158*) Do (AddA v_jac 358 (#7.1857747410685777e-02 * ($v_j_temp * #(-1.4378791924458678e-03))));
  (*2159*) Do (AddA v_jac 359 (#(-7.1857747410685777e-02) * ($v_j_temp * #(-1.4378791924458678e-03))));
  (*2160*) Do (AddA v_jac 379 (#6.9365522319754180e-02 * ($v_j_temp * #(-3.7418414277697654e-02))));
  (*2161*) Do (AddA v_jac 380 (#(-6.9365522319754180e-02) * ($v_j_temp * #(-3.7418414277697654e-02))));
  (*2162*) Do (AddA v_jac 400 (#6.7040376938333812e-02 * ($v_j_temp * #(-7.3398949362949439e-02))));
  (*2163*) Do (AddA v_jac 401 (#(-6.7040376938333812e-02) * ($v_j_temp * #(-7.3398949362949439e-02))));
  (*2164*) Do (AddA v_jac 421 (#5.0462601381796340e-02 * ($v_j_temp * #(-4.2602775520927771e-01))));
  (*2165*) Do (AddA v_jac 422 (#(-5.0462601381796340e-02) * ($v_j_temp * #(-4.2602775520927771e-01))))]);
([
  (*2168*) Do (Asn v_j_temp 0 (#1.0 / $v_T * ((v_fwd_rates.[24] - v_rev_rates.[24]) * #(-1.2500000000000000e+00) + v_fwd_rates.[24] * #(-2.0) - v_rev_rates.[24] * (#(-1.0) + (- $v_T) * (v_dBdT.[0] - #2.0 * v_dBdT.[1]))) * $v_rho_inv));
  (*2169*) Do (AddA v_jac 1 ($v_j_temp * #2.0158800000000001e+00));
  (*2170*) Do (AddA v_jac 2 ($v_j_temp * #(-2.0) * #1.0079400000000001e+00))],
[
  (*2173*) If ($v_T) (#1000.0)
    [Asn v_Kc 0 (#4.2320448239999999e+00 + #(-1.6556688799999999e+00) * $v_logT + $v_T * (#3.9902603742946671e-03 + $v_T * (#(-3.2463584993346931e-06) + $v_T * (#1.6797674496165307e-09 + #(-3.6880588040722682e-13) * $v_T))) - #(-5.1865254972999996e+04) / $v_T)]
    [Asn v_Kc 0 (#(-6.4893666199999966e-01) + #(-6.6272082000000010e-01) * $v_logT + $v_T * (#(-2.4701213465702698e-05) + $v_T * (#8.3242790947935064e-08 + $v_T * (#(-1.4963865377474610e-11) + #1.0012768301802643e-15 * $v_T))) - #(-5.1897478722000000e+04) / $v_T)];
  (*2179*) Do (Asn v_Kc 0 (#8.2057360967184814e-02 * (Exp $v_Kc)));
  (*2180*) Do (Asn v_j_temp 0 ((- $v_mw_avg) * $v_rho_inv * (#3.0 * v_fwd_rates.[24] - #2.0 * v_rev_rates.[24])));
  (*2181*) Do (Asn v_kf 0 ((Exp (#3.1725365678150649e+01 - #1.25 * $v_logT))));
  (*2182*) Do (Asn v_kr 0 ($v_kf / $v_Kc));
  (*2183*) Do (AddA v_jac 22 ($v_j_temp * #9.2803892982949643e-01 - $v_kr * v_conc.[5]));
  (*2184*) Do (AddA v_jac 23 ((- ($v_j_temp * #9.2803892982949643e-01 - $v_kr * v_conc.[5]))));
  (*2185*) Do (AddA v_jac 43 (#2.0000000000000000e+00 * ($v_j_temp * #9.6401946491474821e-01 + $v_kf * #2.0 * v_conc.[1] * v_conc.[5])));
  (*2186*) Do (AddA v_jac 44 (#(-2.0000000000000000e+00) * ($v_j_temp * #9.6401946491474821e-01 + $v_kf * #2.0 * v_conc.[1] * v_conc.[5])));
  (*2187*) Do (AddA v_jac 64 (#1.2599722489593360e-01 * ($v_j_temp * #4.2886781649405936e-01)));
  (*2188*) Do (AddA v_jac 65 (#(-1.2599722489593360e-01) * ($v_j_temp * #4.2886781649405936e-01)));
  (*2189*) Do (AddA v_jac 85 (#6.2998612447966798e-02 * ($v_j_temp * #(-1.4226436701188128e-01))));
  (*2190*) Do (AddA v_jac 86 (#(-6.2998612447966798e-02) * ($v_j_temp * #(-1.4226436701188128e-01))));
  (*2191*) Do (AddA v_jac 106 (#1.1852999940025896e-01 * ($v_j_temp * #3.9288728140880758e-01)));
  (*2192*) Do (AddA v_jac 107 (#(-1.1852999940025896e-01) * ($v_j_temp * #3.9288728140880758e-01)));
  (*2193*) Do (AddA v_jac 127 (#1.1189834407236524e-01 * ($v_j_temp * #3.5690674632355568e-01 + $v_kf * v_conc.[1] * v_conc.[1] - $v_kr * v_conc.[0])));
  (*2194*) Do (AddA v_jac 128 (#(-1.1189834407236524e-01) * ($v_j_temp * #3.5690674632355568e-01 + $v_kf * v_conc.[1] * v_conc.[1] - $v_kr * v_conc.[0])));
  (*2195*) Do (AddA v_jac 148 (#6.1074798662333819e-02 * ($v_j_temp * #(-1.7824490209713328e-01))));
  (*2196*) Do (AddA v_jac 149 (#(-6.1074798662333819e-02) * ($v_j_temp * #(-1.7824490209713328e-01))));
  (*2197*) Do (AddA v_jac 169 (#1.4371549482137155e-01 * ($v_j_temp * #4.9928106040377707e-01)));
  (*2198*) Do (AddA v_jac 170 (#(-1.4371549482137155e-01) * ($v_j_temp * #4.9928106040377707e-01)));
  (*2199*) Do (AddA v_jac 190 (#1.4371549482137155e-01 * ($v_j_temp * #4.9928106040377707e-01)));
  (*2200*) Do (AddA v_jac 191 (#(-1.4371549482137155e-01) * ($v_j_temp * #4.9928106040377707e-01)));
  (*2201*) Do (AddA v_jac 211 (#1.3408075387666762e-01 * ($v_j_temp * #4.6330052531852528e-01)));
  (*2202*) Do (AddA v_jac 212 (#(-1.3408075387666762e-01) * ($v_j_temp * #4.6330052531852528e-01)));
  (*2203*) Do (AddA v_jac 232 (#1.2565668251597606e-01 * ($v_j_temp * #4.2731999023327338e-01)));
  (*2204*) Do (AddA v_jac 233 (#(-1.2565668251597606e-01) * ($v_j_temp * #4.2731999023327338e-01)));
  (*2205*) Do (AddA v_jac 253 (#7.1968982949190310e-02 * ($v_j_temp * #1.0994706834011048e-04)));
  (*2206*) Do (AddA v_jac 254 (#(-7.1968982949190310e-02) * ($v_j_temp * #1.0994706834011048e-04)));
  (*2207*) Do (AddA v_jac 274 (#4.5805252466496103e-02 * ($v_j_temp * #(-5.7102223643760053e-01))));
  (*2208*) Do (AddA v_jac 275 (#(-4.5805252466496103e-02) * ($v_j_temp * #(-5.7102223643760053e-01))));
  (*2209*) Do (AddA v_jac 295 (#6.9469170186854251e-02 * ($v_j_temp * #(-3.5870588016911675e-02))));
  (*2210*) Do (AddA v_jac 296 (#(-6.9469170186854251e-02) * ($v_j_temp * #(-3.5870588016911675e-02))));
  (*2211*) Do (AddA v_jac 316 (#6.7137187823466643e-02 * ($v_j_temp * #(-7.1851123102163683e-02))));
  (*2212*) Do (AddA v_jac 317 (#(-6.7137187823466643e-02) * ($v_j_temp * #(-7.1851123102163683e-02))));
  (*2213*) Do (AddA v_jac 337 (#6.4956683299918619e-02 * ($v_j_temp * #(-1.0783165818741525e-01))));
  (*2214*) Do (AddA v_jac 338 (#(-6.4956683299918619e-02) * ($v_j_temp * #(-1.0783165818741525e-01))));
  (*2215*) Do (AddA v_jac 358 (#7.1857747410685777e-02 * ($v_j_temp * #(-1.4378791924458678e-03))));
  (*2216*) Do (AddA v_jac 359 (#(-7.1857747410685777e-02) * ($v_j_temp * #(-1.4378791924458678e-03))));
  (*2217*) Do (AddA v_jac 379 (#6.9365522319754180e-02 * ($v_j_temp * #(-3.7418414277697654e-02))));
  (*2218*) Do (AddA v_jac 380 (#(-6.9365522319754180e-02) * ($v_j_temp * #(-3.7418414277697654e-02))));
  (*2219*) Do (AddA v_jac 400 (#6.7040376938333812e-02 * ($v_j_temp * #(-7.3398949362949439e-02))));
  (*2220*) Do (AddA v_jac 401 (#(-6.7040376938333812e-02) * ($v_j_temp * #(-7.3398949362949439e-02))));
  (*2221*) Do (AddA v_jac 421 (#5.0462601381796340e-02 * ($v_j_temp * #(-4.2602775520927771e-01))));
  (*2222*) Do (AddA v_jac 422 (#(-5.0462601381796340e-02) * ($v_j_temp * #(-4.2602775520927771e-01))))]);
([
  (*2225*) Do (Asn v_j_temp 0 (#1.0 / $v_T * ((v_fwd_rates.[25] - v_rev_rates.[25]) * #(-2.0000000000000000e+00) + v_fwd_rates.[25] * #(-2.0) - v_rev_rates.[25] * (#(-1.0) + (- $v_T) * (v_dBdT.[0] - #2.0 * v_dBdT.[1]))) * $v_rho_inv));
  (*2226*) Do (AddA v_jac 1 ($v_j_temp * #2.0158800000000001e+00));
  (*2227*) Do (AddA v_jac 2 ($v_j_temp * #(-2.0) * #1.0079400000000001e+00))],
[
  (*2230*) If ($v_T) (#1000.0)
    [Asn v_Kc 0 (#4.2320448239999999e+00 + #(-1.6556688799999999e+00) * $v_logT + $v_T * (#3.9902603742946671e-03 + $v_T * (#(-3.2463584993346931e-06) + $v_T * (#1.6797674496165307e-09 + #(-3.6880588040722682e-13) * $v_T))) - #(-5.1865254972999996e+04) / $v_T)]
    [Asn v_Kc 0 (#(-6.4893666199999966e-01) + #(-6.6272082000000010e-01) * $v_logT + $v_T * (#(-2.4701213465702698e-05) + $v_T * (#8.3242790947935064e-08 + $v_T * (#(-1.4963865377474610e-11) + #1.0012768301802643e-15 * $v_T))) - #(-5.1897478722000000e+04) / $v_T)];
  (*2236*) Do (Asn v_Kc 0 (#8.2057360967184814e-02 * (Exp $v_Kc)));
  (*2237*) Do (Asn v_j_temp 0 ((- $v_mw_avg) * $v_rho_inv * (#3.0 * v_fwd_rates.[25] - #2.0 * v_rev_rates.[25])));
  (*2238*) Do (Asn v_kf 0 ((Exp (#3.3940939394155066e+01 - #2.0 * $v_logT))));
  (*2239*) Do (Asn v_kr 0 ($v_kf / $v_Kc));
  (*2240*) Do (AddA v_jac 22 ($v_j_temp * #9.2803892982949643e-01 - $v_kr * v_conc.[12]));
  (*2241*) Do (AddA v_jac 23 ((- ($v_j_temp * #9.2803892982949643e-01 - $v_kr * v_conc.[12]))));
  (*2242*) Do (AddA v_jac 43 (#2.0000000000000000e+00 * ($v_j_temp * #9.6401946491474821e-01 + $v_kf * #2.0 * v_conc.[1] * v_conc.[12])));
  (*2243*) Do (AddA v_jac 44 (#(-2.0000000000000000e+00) * ($v_j_temp * #9.6401946491474821e-01 + $v_kf * #2.0 * v_conc.[1] * v_conc.[12])));
  (*2244*) Do (AddA v_jac 64 (#1.2599722489593360e-01 * ($v_j_temp * #4.2886781649405936e-01)));
  (*2245*) Do (AddA v_jac 65 (#(-1.2599722489593360e-01) * ($v_j_temp * #4.2886781649405936e-01)));
  (*2246*) Do (AddA v_jac 85 (#6.2998612447966798e-02 * ($v_j_temp * #(-1.4226436701188128e-01))));
  (*2247*) Do (AddA v_jac 86 (#(-6.2998612447966798e-02) * ($v_j_temp * #(-1.4226436701188128e-01))));
  (*2248*) Do (AddA v_jac 106 (#1.1852999940025896e-01 * ($v_j_temp * #3.9288728140880758e-01)));
  (*2249*) Do (AddA v_jac 107 (#(-1.1852999940025896e-01) * ($v_j_temp * #3.9288728140880758e-01)));
  (*2250*) Do (AddA v_jac 127 (#1.1189834407236524e-01 * ($v_j_temp * #3.5690674632355568e-01)));
  (*2251*) Do (AddA v_jac 128 (#(-1.1189834407236524e-01) * ($v_j_temp * #3.5690674632355568e-01)));
  (*2252*) Do (AddA v_jac 148 (#6.1074798662333819e-02 * ($v_j_temp * #(-1.7824490209713328e-01))));
  (*2253*) Do (AddA v_jac 149 (#(-6.1074798662333819e-02) * ($v_j_temp * #(-1.7824490209713328e-01))));
  (*2254*) Do (AddA v_jac 169 (#1.4371549482137155e-01 * ($v_j_temp * #4.9928106040377707e-01)));
  (*2255*) Do (AddA v_jac 170 (#(-1.4371549482137155e-01) * ($v_j_temp * #4.9928106040377707e-01)));
  (*2256*) Do (AddA v_jac 190 (#1.4371549482137155e-01 * ($v_j_temp * #4.9928106040377707e-01)));
  (*2257*) Do (AddA v_jac 191 (#(-1.4371549482137155e-01) * ($v_j_temp * #4.9928106040377707e-01)));
  (*2258*) Do (AddA v_jac 211 (#1.3408075387666762e-01 * ($v_j_temp * #4.6330052531852528e-01)));
  (*2259*) Do (AddA v_jac 212 (#(-1.3408075387666762e-01) * ($v_j_temp * #4.6330052531852528e-01)));
  (*2260*) Do (AddA v_jac 232 (#1.2565668251597606e-01 * ($v_j_temp * #4.2731999023327338e-01)));
  (*2261*) Do (AddA v_jac 233 (#(-1.2565668251597606e-01) * ($v_j_temp * #4.2731999023327338e-01)));
  (*2262*) Do (AddA v_jac 253 (#7.1968982949190310e-02 * ($v_j_temp * #1.0994706834011048e-04)));
  (*2263*) Do (AddA v_jac 254 (#(-7.1968982949190310e-02) * ($v_j_temp * #1.0994706834011048e-04)));
  (*2264*) Do (AddA v_jac 274 (#4.5805252466496103e-02 * ($v_j_temp * #(-5.7102223643760053e-01) + $v_kf * v_conc.[1] * v_conc.[1] - $v_kr * v_conc.[0])));
  (*2265*) Do (AddA v_jac 275 (#(-4.5805252466496103e-02) * ($v_j_temp * #(-5.7102223643760053e-01) + $v_kf * v_conc.[1] * v_conc.[1] - $v_kr * v_conc.[0])));
  (*2266*) Do (AddA v_jac 295 (#6.9469170186854251e-02 * ($v_j_temp * #(-3.5870588016911675e-02))));
  (*2267*) Do (AddA v_jac 296 (#(-6.9469170186854251e-02) * ($v_j_temp * #(-3.5870588016911675e-02))));
  (*2268*) Do (AddA v_jac 316 (#6.7137187823466643e-02 * ($v_j_temp * #(-7.1851123102163683e-02))));
  (*2269*) Do (AddA v_jac 317 (#(-6.7137187823466643e-02) * ($v_j_temp * #(-7.1851123102163683e-02))));
  (*2270*) Do (AddA v_jac 337 (#6.4956683299918619e-02 * ($v_j_temp * #(-1.0783165818741525e-01))));
  (*2271*) Do (AddA v_jac 338 (#(-6.4956683299918619e-02) * ($v_j_temp * #(-1.0783165818741525e-01))));
  (*2272*) Do (AddA v_jac 358 (#7.1857747410685777e-02 * ($v_j_temp * #(-1.4378791924458678e-03))));
  (*2273*) Do (AddA v_jac 359 (#(-7.1857747410685777e-02) * ($v_j_temp * #(-1.4378791924458678e-03))));
  (*2274*) Do (AddA v_jac 379 (#6.9365522319754180e-02 * ($v_j_temp * #(-3.7418414277697654e-02))));
  (*2275*) Do (AddA v_jac 380 (#(-6.9365522319754180e-02) * ($v_j_temp * #(-3.7418414277697654e-02))));
  (*2276*) Do (AddA v_jac 400 (#6.7040376938333812e-02 * ($v_j_temp * #(-7.3398949362949439e-02))));
  (*2277*) Do (AddA v_jac 401 (#(-6.7040376938333812e-02) * ($v_j_temp * #(-7.3398949362949439e-02))));
  (*2278*) Do (AddA v_jac 421 (#5.0462601381796340e-02 * ($v_j_temp * #(-4.2602775520927771e-01))));
  (*2279*) Do (AddA v_jac 422 (#(-5.0462601381796340e-02) * ($v_j_temp * #(-4.2602775520927771e-01))))]);
([
  (*2282*) Do (Asn v_j_temp 0 (((- v_pres_mod.[4]) * (v_fwd_rates.[26] - v_rev_rates.[26]) / $v_T + v_pres_mod.[4] / $v_T * ((v_fwd_rates.[26] - v_rev_rates.[26]) * #(-2.0000000000000000e+00) + v_fwd_rates.[26] * #(-1.0) - v_rev_rates.[26] * ((- $v_T) * (v_dBdT.[5] - v_dBdT.[1] - v_dBdT.[4])))) * $v_rho_inv));
  (*2283*) Do (AddA v_jac 2 ((- $v_j_temp) * #1.0079400000000001e+00));
  (*2284*) Do (AddA v_jac 5 ((- $v_j_temp) * #1.7007339999999999e+01));
  (*2285*) Do (Asn v_jac 6 ($v_j_temp * #1.8015280000000001e+01))],
[
  (*2288*) If ($v_T) (#1000.0)
    [Asn v_Kc 0 (#1.9949509729999999e+00 + #(-1.2933748700000001e+00) * $v_logT + $v_T * (#1.8244170964733350e-04 + $v_T * (#3.1707728366598661e-07 + $v_T * (#(-1.3390310769173469e-10) + #2.0393173546386613e-14 * $v_T))) - #(-5.9382467160000000e+04) / $v_T)]
    [Asn v_Kc 0 (#3.4956521039999999e+00 + #(-1.5588951899999999e+00) * $v_logT + $v_T * (#8.1424417354214874e-04 + $v_T * (#(-4.8429627026032460e-08) + $v_T * (#(-7.5798555540397048e-13) + #2.5394305509013217e-16 * $v_T))) - #(-5.9336614000000001e+04) / $v_T)];
  (*2294*) Do (Asn v_Kc 0 (#8.2057360967184814e-02 * (Exp $v_Kc)));
  (*2295*) Do (Asn v_pres_mod_temp 0 (v_fwd_rates.[26] - v_rev_rates.[26]));
  (*2296*) Do (Asn v_j_temp 0 ((- $v_mw_avg) * $v_rho_inv * v_pres_mod.[4] * (#3.0 * v_fwd_rates.[26] - #2.0 * v_rev_rates.[26])));
  (*2297*) Do (Asn v_kf 0 ((Exp (#3.7629818848269004e+01 - #2.0 * $v_logT))));
  (*2298*) Do (Asn v_kr 0 ($v_kf / $v_Kc));
  (*2299*) Do (AddA v_jac 23 (#(-5.0000000000000000e-01) * ($v_j_temp * #9.2803892982949643e-01 + #6.5803892982949641e-01 * $v_pres_mod_temp)));
  (*2300*) Do (AddA v_jac 26 (#(-8.4366827390519266e+00) * ($v_j_temp * #9.2803892982949643e-01 + #6.5803892982949641e-01 * $v_pres_mod_temp)));
  (*2301*) Do (Asn v_jac 27 (#8.9366827390519283e+00 * ($v_j_temp * #9.2803892982949643e-01 + #6.5803892982949641e-01 * $v_pres_mod_temp)));
  (*2302*) Do (AddA v_jac 44 ((- ($v_j_temp * #9.6401946491474821e-01 + #9.6401946491474821e-01 * $v_pres_mod_temp + v_pres_mod.[4] * ($v_kf * v_conc.[4])))));
  (*2303*) Do (AddA v_jac 47 (#(-1.6873365478103853e+01) * ($v_j_temp * #9.6401946491474821e-01 + #9.6401946491474821e-01 * $v_pres_mod_temp + v_pres_mod.[4] * ($v_kf * v_conc.[4]))));
  (*2304*) Do (Asn v_jac 48 (#1.7873365478103857e+01 * ($v_j_temp * #9.6401946491474821e-01 + #9.6401946491474821e-01 * $v_pres_mod_temp + v_pres_mod.[4] * ($v_kf * v_conc.[4]))));
  (*2305*) Do (AddA v_jac 65 (#(-6.2998612447966798e-02) * ($v_j_temp * #4.2886781649405936e-01 + #4.2886781649405936e-01 * $v_pres_mod_temp)));
  (*2306*) Do (AddA v_jac 68 (#(-1.0629986124479667e+00) * ($v_j_temp * #4.2886781649405936e-01 + #4.2886781649405936e-01 * $v_pres_mod_temp)));
  (*2307*) Do (Asn v_jac 69 (#1.1259972248959336e+00 * ($v_j_temp * #4.2886781649405936e-01 + #4.2886781649405936e-01 * $v_pres_mod_temp)));
  (*2308*) Do (AddA v_jac 86 (#(-3.1499306223983399e-02) * ($v_j_temp * #(-1.4226436701188128e-01) + #(-1.4226436701188128e-01) * $v_pres_mod_temp)));
  (*2309*) Do (AddA v_jac 89 (#(-5.3149930622398334e-01) * ($v_j_temp * #(-1.4226436701188128e-01) + #(-1.4226436701188128e-01) * $v_pres_mod_temp)));
  (*2310*) Do (Asn v_jac 90 (#5.6299861244796678e-01 * ($v_j_temp * #(-1.4226436701188128e-01) + #(-1.4226436701188128e-01) * $v_pres_mod_temp)));
  (*2311*) Do (AddA v_jac 107 (#(-5.9264999700129481e-02) * ($v_j_temp * #3.9288728140880758e-01 + #3.9288728140880758e-01 * $v_pres_mod_temp + v_pres_mod.[4] * ($v_kf * v_conc.[1]))));
  (*2312*) Do (AddA v_jac 110 ((- ($v_j_temp * #3.9288728140880758e-01 + #3.9288728140880758e-01 * $v_pres_mod_temp + v_pres_mod.[4] * ($v_kf * v_conc.[1])))));
  (*2313*) Do (Asn v_jac 111 (#1.0592649997001296e+00 * ($v_j_temp * #3.9288728140880758e-01 + #3.9288728140880758e-01 * $v_pres_mod_temp + v_pres_mod.[4] * ($v_kf * v_conc.[1]))));
  (*2314*) Do (AddA v_jac 128 (#(-5.5949172036182618e-02) * ($v_j_temp * #3.5690674632355568e-01 + #3.0069067463235557e+00 * $v_pres_mod_temp + v_pres_mod.[4] * (- $v_kr))));
  (*2315*) Do (AddA v_jac 131 (#(-9.4405082796381734e-01) * ($v_j_temp * #3.5690674632355568e-01 + #3.0069067463235557e+00 * $v_pres_mod_temp + v_pres_mod.[4] * (- $v_kr))));
  (*2316*) Do (Asn v_jac 132 ($v_j_temp * #3.5690674632355568e-01 + #3.0069067463235557e+00 * $v_pres_mod_temp + v_pres_mod.[4] * (- $v_kr)));
  (*2317*) Do (AddA v_jac 149 (#(-3.0537399331166910e-02) * ($v_j_temp * #(-1.7824490209713328e-01) + #(-1.7824490209713328e-01) * $v_pres_mod_temp)));
  (*2318*) Do (AddA v_jac 152 (#(-5.1526869966558342e-01) * ($v_j_temp * #(-1.7824490209713328e-01) + #(-1.7824490209713328e-01) * $v_pres_mod_temp)));
  (*2319*) Do (Asn v_jac 153 (#5.4580609899675037e-01 * ($v_j_temp * #(-1.7824490209713328e-01) + #(-1.7824490209713328e-01) * $v_pres_mod_temp)));
  (*2320*) Do (AddA v_jac 170 (#(-7.1857747410685777e-02) * ($v_j_temp * #4.9928106040377707e-01 + #4.9928106040377707e-01 * $v_pres_mod_temp)));
  (*2321*) Do (AddA v_jac 173 (#(-1.2124820344937721e+00) * ($v_j_temp * #4.9928106040377707e-01 + #4.9928106040377707e-01 * $v_pres_mod_temp)));
  (*2322*) Do (Asn v_jac 174 (#1.2843397819044580e+00 * ($v_j_temp * #4.9928106040377707e-01 + #4.9928106040377707e-01 * $v_pres_mod_temp)));
  (*2323*) Do (AddA v_jac 191 (#(-7.1857747410685777e-02) * ($v_j_temp * #4.9928106040377707e-01 + #4.9928106040377707e-01 * $v_pres_mod_temp)));
  (*2324*) Do (AddA v_jac 194 (#(-1.2124820344937721e+00) * ($v_j_temp * #4.9928106040377707e-01 + #4.9928106040377707e-01 * $v_pres_mod_temp)));
  (*2325*) Do (Asn v_jac 195 (#1.2843397819044580e+00 * ($v_j_temp * #4.9928106040377707e-01 + #4.9928106040377707e-01 * $v_pres_mod_temp)));
  (*2326*) Do (AddA v_jac 212 (#(-6.7040376938333812e-02) * ($v_j_temp * #4.6330052531852528e-01 + #4.6330052531852528e-01 * $v_pres_mod_temp)));
  (*2327*) Do (AddA v_jac 215 (#(-1.1311967818703517e+00) * ($v_j_temp * #4.6330052531852528e-01 + #4.6330052531852528e-01 * $v_pres_mod_temp)));
  (*2328*) Do (Asn v_jac 216 (#1.1982371588086855e+00 * ($v_j_temp * #4.6330052531852528e-01 + #4.6330052531852528e-01 * $v_pres_mod_temp)));
  (*2329*) Do (AddA v_jac 233 (#(-6.2828341257988030e-02) * ($v_j_temp * #4.2731999023327338e-01 + #1.4273199902332734e+00 * $v_pres_mod_temp)));
  (*2330*) Do (AddA v_jac 236 (#(-1.0601255644290632e+00) * ($v_j_temp * #4.2731999023327338e-01 + #1.4273199902332734e+00 * $v_pres_mod_temp)));
  (*2331*) Do (Asn v_jac 237 (#1.1229539056870512e+00 * ($v_j_temp * #4.2731999023327338e-01 + #1.4273199902332734e+00 * $v_pres_mod_temp)));
  (*2332*) Do (AddA v_jac 254 (#(-3.5984491474595155e-02) * ($v_j_temp * #1.0994706834011048e-04 + #1.0994706834011048e-04 * $v_pres_mod_temp)));
  (*2333*) Do (AddA v_jac 257 (#(-6.0717947619455637e-01) * ($v_j_temp * #1.0994706834011048e-04 + #1.0994706834011048e-04 * $v_pres_mod_temp)));
  (*2334*) Do (Asn v_jac 258 (#6.4316396766915152e-01 * ($v_j_temp * #1.0994706834011048e-04 + #1.0994706834011048e-04 * $v_pres_mod_temp)));
  (*2335*) Do (AddA v_jac 275 (#(-2.2902626233248052e-02) * ($v_j_temp * #(-5.7102223643760053e-01) + #(-5.7102223643760053e-01) * $v_pres_mod_temp)));
  (*2336*) Do (AddA v_jac 278 (#(-3.8644438284200339e-01) * ($v_j_temp * #(-5.7102223643760053e-01) + #(-5.7102223643760053e-01) * $v_pres_mod_temp)));
  (*2337*) Do (Asn v_jac 279 (#4.0934700907525146e-01 * ($v_j_temp * #(-5.7102223643760053e-01) + #(-5.7102223643760053e-01) * $v_pres_mod_temp)));
  (*2338*) Do (AddA v_jac 296 (#(-3.4734585093427126e-02) * ($v_j_temp * #(-3.5870588016911675e-02) + #(-3.5870588016911675e-02) * $v_pres_mod_temp)));
  (*2339*) Do (AddA v_jac 299 (#(-5.8608934901169396e-01) * ($v_j_temp * #(-3.5870588016911675e-02) + #(-3.5870588016911675e-02) * $v_pres_mod_temp)));
  (*2340*) Do (Asn v_jac 300 (#6.2082393410512116e-01 * ($v_j_temp * #(-3.5870588016911675e-02) + #(-3.5870588016911675e-02) * $v_pres_mod_temp)));
  (*2341*) Do (AddA v_jac 317 (#(-3.3568593911733322e-02) * ($v_j_temp * #(-7.1851123102163683e-02) + #(-7.1851123102163683e-02) * $v_pres_mod_temp)));
  (*2342*) Do (AddA v_jac 320 (#(-5.6641515365872830e-01) * ($v_j_temp * #(-7.1851123102163683e-02) + #(-7.1851123102163683e-02) * $v_pres_mod_temp)));
  (*2343*) Do (Asn v_jac 321 (#5.9998374757046158e-01 * ($v_j_temp * #(-7.1851123102163683e-02) + #(-7.1851123102163683e-02) * $v_pres_mod_temp)));
  (*2344*) Do (AddA v_jac 338 (#(-3.2478341649959309e-02) * ($v_j_temp * #(-1.0783165818741525e-01) + #(-1.0783165818741525e-01) * $v_pres_mod_temp)));
  (*2345*) Do (AddA v_jac 341 (#(-5.4801892878248593e-01) * ($v_j_temp * #(-1.0783165818741525e-01) + #(-1.0783165818741525e-01) * $v_pres_mod_temp)));
  (*2346*) Do (Asn v_jac 342 (#5.8049727043244526e-01 * ($v_j_temp * #(-1.0783165818741525e-01) + #(-1.0783165818741525e-01) * $v_pres_mod_temp)));
  (*2347*) Do (AddA v_jac 359 (#(-3.5928873705342888e-02) * ($v_j_temp * #(-1.4378791924458678e-03) + #(-1.4378791924458678e-03) * $v_pres_mod_temp)));
  (*2348*) Do (AddA v_jac 362 (#(-6.0624101724688606e-01) * ($v_j_temp * #(-1.4378791924458678e-03) + #(-1.4378791924458678e-03) * $v_pres_mod_temp)));
  (*2349*) Do (Asn v_jac 363 (#6.4216989095222898e-01 * ($v_j_temp * #(-1.4378791924458678e-03) + #(-1.4378791924458678e-03) * $v_pres_mod_temp)));
  (*2350*) Do (AddA v_jac 380 (#(-3.4682761159877090e-02) * ($v_j_temp * #(-3.7418414277697654e-02) + #(-3.7418414277697654e-02) * $v_pres_mod_temp)));
  (*2351*) Do (AddA v_jac 383 (#(-5.8521490484039129e-01) * ($v_j_temp * #(-3.7418414277697654e-02) + #(-3.7418414277697654e-02) * $v_pres_mod_temp)));
  (*2352*) Do (Asn v_jac 384 (#6.1989766600026841e-01 * ($v_j_temp * #(-3.7418414277697654e-02) + #(-3.7418414277697654e-02) * $v_pres_mod_temp)));
  (*2353*) Do (AddA v_jac 401 (#(-3.3520188469166906e-02) * ($v_j_temp * #(-7.3398949362949439e-02) + #1.9266010506370506e+00 * $v_pres_mod_temp)));
  (*2354*) Do (AddA v_jac 404 (#(-5.6559839093517583e-01) * ($v_j_temp * #(-7.3398949362949439e-02) + #1.9266010506370506e+00 * $v_pres_mod_temp)));
  (*2355*) Do (Asn v_jac 405 (#5.9911857940434277e-01 * ($v_j_temp * #(-7.3398949362949439e-02) + #1.9266010506370506e+00 * $v_pres_mod_temp)));
  (*2356*) Do (AddA v_jac 422 (#(-2.5231300690898170e-02) * ($v_j_temp * #(-4.2602775520927771e-01) + #(-1.0460277552092778e+00) * $v_pres_mod_temp)));
  (*2357*) Do (AddA v_jac 425 (#(-4.2573695804545908e-01) * ($v_j_temp * #(-4.2602775520927771e-01) + #(-1.0460277552092778e+00) * $v_pres_mod_temp)));
  (*2358*) Do (Asn v_jac 426 (#4.5096825873635726e-01 * ($v_j_temp * #(-4.2602775520927771e-01) + #(-1.0460277552092778e+00) * $v_pres_mod_temp)))]);
([
  (*2361*) Do (Asn v_j_temp 0 (#1.0 / $v_T * ((v_fwd_rates.[27] - v_rev_rates.[27]) * (#5.3743849526958570e+02 / $v_T) + v_fwd_rates.[27] * #(-1.0) - v_rev_rates.[27] * (#(-1.0) + (- $v_T) * (v_dBdT.[0] + v_dBdT.[3] - v_dBdT.[1] - v_dBdT.[6]))) * $v_rho_inv));
  (*2362*) Do (AddA v_jac 1 ($v_j_temp * #2.0158800000000001e+00));
  (*2363*) Do (AddA v_jac 2 ((- $v_j_temp) * #1.0079400000000001e+00));
  (*2364*) Do (AddA v_jac 4 ($v_j_temp * #3.1998799999999999e+01));
  (*2365*) Do (AddA v_jac 7 ((- $v_j_temp) * #3.3006740000000001e+01))],
[
  (*2368*) If ($v_T) (#1000.0)
    [Asn v_Kc 0 (#1.7457169009999998e+00 + #(-6.7501052999999978e-01) * $v_logT + $v_T * (#4.8664535496473326e-03 + $v_T * (#(-5.1315230146673465e-06) + $v_T * (#2.8960253089749321e-09 + #(-6.7123202395361341e-13) * $v_T))) - #(-2.7750346673000000e+04) / $v_T)]
    [Asn v_Kc 0 (#(-1.1928173859999998e+00) + #1.0260612999999941e-01 * $v_logT + $v_T * (#(-4.0306752000785135e-04) + $v_T * (#6.2524707140634199e-08 + $v_T * (#(-7.0285170220706416e-12) + #4.5723056009013213e-16 * $v_T))) - #(-2.7624133254999997e+04) / $v_T)];
  (*2374*) Do (Asn v_Kc 0 ((Exp $v_Kc)));
  (*2375*) Do (Asn v_j_temp 0 ((- $v_mw_avg) * $v_rho_inv * (#2.0 * v_fwd_rates.[27] - #2.0 * v_rev_rates.[27])));
  (*2376*) Do (Asn v_kf 0 ((Exp (#2.4055470347121616e+01 - #5.3743849526958570e+02 / $v_T))));
  (*2377*) Do (Asn v_kr 0 ($v_kf / $v_Kc));
  (*2378*) Do (AddA v_jac 22 ($v_j_temp * #9.2803892982949643e-01 - $v_kr * v_conc.[3]));
  (*2379*) Do (AddA v_jac 23 (#(-5.0000000000000000e-01) * ($v_j_temp * #9.2803892982949643e-01 - $v_kr * v_conc.[3])));
  (*2380*) Do (AddA v_jac 25 (#1.5873365478103855e+01 * ($v_j_temp * #9.2803892982949643e-01 - $v_kr * v_conc.[3])));
  (*2381*) Do (AddA v_jac 28 (#(-1.6373365478103853e+01) * ($v_j_temp * #9.2803892982949643e-01 - $v_kr * v_conc.[3])));
  (*2382*) Do (AddA v_jac 43 (#2.0000000000000000e+00 * ($v_j_temp * #9.6401946491474821e-01 + $v_kf * v_conc.[6])));
  (*2383*) Do (AddA v_jac 44 ((- ($v_j_temp * #9.6401946491474821e-01 + $v_kf * v_conc.[6]))));
  (*2384*) Do (AddA v_jac 46 (#3.1746730956207710e+01 * ($v_j_temp * #9.6401946491474821e-01 + $v_kf * v_conc.[6])));
  (*2385*) Do (AddA v_jac 49 (#(-3.2746730956207706e+01) * ($v_j_temp * #9.6401946491474821e-01 + $v_kf * v_conc.[6])));
  (*2386*) Do (AddA v_jac 64 (#1.2599722489593360e-01 * ($v_j_temp * #4.2886781649405936e-01)));
  (*2387*) Do (AddA v_jac 65 (#(-6.2998612447966798e-02) * ($v_j_temp * #4.2886781649405936e-01)));
  (*2388*) Do (AddA v_jac 67 (#2.0000000000000000e+00 * ($v_j_temp * #4.2886781649405936e-01)));
  (*2389*) Do (AddA v_jac 70 (#(-2.0629986124479669e+00) * ($v_j_temp * #4.2886781649405936e-01)));
  (*2390*) Do (AddA v_jac 85 (#6.2998612447966798e-02 * ($v_j_temp * #(-1.4226436701188128e-01) - $v_kr * v_conc.[0])));
  (*2391*) Do (AddA v_jac 86 (#(-3.1499306223983399e-02) * ($v_j_temp * #(-1.4226436701188128e-01) - $v_kr * v_conc.[0])));
  (*2392*) Do (AddA v_jac 88 ($v_j_temp * #(-1.4226436701188128e-01) - $v_kr * v_conc.[0]));
  (*2393*) Do (AddA v_jac 91 (#(-1.0314993062239834e+00) * ($v_j_temp * #(-1.4226436701188128e-01) - $v_kr * v_conc.[0])));
  (*2394*) Do (AddA v_jac 106 (#1.1852999940025896e-01 * ($v_j_temp * #3.9288728140880758e-01)));
  (*2395*) Do (AddA v_jac 107 (#(-5.9264999700129481e-02) * ($v_j_temp * #3.9288728140880758e-01)));
  (*2396*) Do (AddA v_jac 109 (#1.8814700005997411e+00 * ($v_j_temp * #3.9288728140880758e-01)));
  (*2397*) Do (AddA v_jac 112 (#(-1.9407350002998707e+00) * ($v_j_temp * #3.9288728140880758e-01)));
  (*2398*) Do (AddA v_jac 127 (#1.1189834407236524e-01 * ($v_j_temp * #3.5690674632355568e-01)));
  (*2399*) Do (AddA v_jac 128 (#(-5.5949172036182618e-02) * ($v_j_temp * #3.5690674632355568e-01)));
  (*2400*) Do (AddA v_jac 130 (#1.7762033118552694e+00 * ($v_j_temp * #3.5690674632355568e-01)));
  (*2401*) Do (AddA v_jac 133 (#(-1.8321524838914520e+00) * ($v_j_temp * #3.5690674632355568e-01)));
  (*2402*) Do (AddA v_jac 148 (#6.1074798662333819e-02 * ($v_j_temp * #(-1.7824490209713328e-01) + $v_kf * v_conc.[1])));
  (*2403*) Do (AddA v_jac 149 (#(-3.0537399331166910e-02) * ($v_j_temp * #(-1.7824490209713328e-01) + $v_kf * v_conc.[1])));
  (*2404*) Do (AddA v_jac 151 (#9.6946260066883305e-01 * ($v_j_temp * #(-1.7824490209713328e-01) + $v_kf * v_conc.[1])));
  (*2405*) Do (AddA v_jac 154 ((- ($v_j_temp * #(-1.7824490209713328e-01) + $v_kf * v_conc.[1]))));
  (*2406*) Do (AddA v_jac 169 (#1.4371549482137155e-01 * ($v_j_temp * #4.9928106040377707e-01)));
  (*2407*) Do (AddA v_jac 170 (#(-7.1857747410685777e-02) * ($v_j_temp * #4.9928106040377707e-01)));
  (*2408*) Do (AddA v_jac 172 (#2.2812485741661725e+00 * ($v_j_temp * #4.9928106040377707e-01)));
  (*2409*) Do (AddA v_jac 175 (#(-2.3531063215768584e+00) * ($v_j_temp * #4.9928106040377707e-01)));
  (*2410*) Do (AddA v_jac 190 (#1.4371549482137155e-01 * ($v_j_temp * #4.9928106040377707e-01)));
  (*2411*) Do (AddA v_jac 191 (#(-7.1857747410685777e-02) * ($v_j_temp * #4.9928106040377707e-01)));
  (*2412*) Do (AddA v_jac 193 (#2.2812485741661725e+00 * ($v_j_temp * #4.9928106040377707e-01)));
  (*2413*) Do (AddA v_jac 196 (#(-2.3531063215768584e+00) * ($v_j_temp * #4.9928106040377707e-01)));
  (*2414*) Do (AddA v_jac 211 (#1.3408075387666762e-01 * ($v_j_temp * #4.6330052531852528e-01)));
  (*2415*) Do (AddA v_jac 212 (#(-6.7040376938333812e-02) * ($v_j_temp * #4.6330052531852528e-01)));
  (*2416*) Do (AddA v_jac 214 (#2.1283128098640356e+00 * ($v_j_temp * #4.6330052531852528e-01)));
  (*2417*) Do (AddA v_jac 217 (#(-2.1953531868023695e+00) * ($v_j_temp * #4.6330052531852528e-01)));
  (*2418*) Do (AddA v_jac 232 (#1.2565668251597606e-01 * ($v_j_temp * #4.2731999023327338e-01)));
  (*2419*) Do (AddA v_jac 233 (#(-6.2828341257988030e-02) * ($v_j_temp * #4.2731999023327338e-01)));
  (*2420*) Do (AddA v_jac 235 (#1.9945944463421503e+00 * ($v_j_temp * #4.2731999023327338e-01)));
  (*2421*) Do (AddA v_jac 238 (#(-2.0574227876001383e+00) * ($v_j_temp * #4.2731999023327338e-01)));
  (*2422*) Do (AddA v_jac 253 (#7.1968982949190310e-02 * ($v_j_temp * #1.0994706834011048e-04)));
  (*2423*) Do (AddA v_jac 254 (#(-3.5984491474595155e-02) * ($v_j_temp * #1.0994706834011048e-04)));
  (*2424*) Do (AddA v_jac 256 (#1.1423899694399224e+00 * ($v_j_temp * #1.0994706834011048e-04)));
  (*2425*) Do (AddA v_jac 259 (#(-1.1783744609145177e+00) * ($v_j_temp * #1.0994706834011048e-04)));
  (*2426*) Do (AddA v_jac 274 (#4.5805252466496103e-02 * ($v_j_temp * #(-5.7102223643760053e-01))));
  (*2427*) Do (AddA v_jac 275 (#(-2.2902626233248052e-02) * ($v_j_temp * #(-5.7102223643760053e-01))));
  (*2428*) Do (AddA v_jac 277 (#7.2708351321751064e-01 * ($v_j_temp * #(-5.7102223643760053e-01))));
  (*2429*) Do (AddA v_jac 280 (#(-7.4998613945075876e-01) * ($v_j_temp * #(-5.7102223643760053e-01))));
  (*2430*) Do (AddA v_jac 295 (#6.9469170186854251e-02 * ($v_j_temp * #(-3.5870588016911675e-02))));
  (*2431*) Do (AddA v_jac 296 (#(-3.4734585093427126e-02) * ($v_j_temp * #(-3.5870588016911675e-02))));
  (*2432*) Do (AddA v_jac 298 (#1.1027095278365338e+00 * ($v_j_temp * #(-3.5870588016911675e-02))));
  (*2433*) Do (AddA v_jac 301 (#(-1.1374441129299608e+00) * ($v_j_temp * #(-3.5870588016911675e-02))));
  (*2434*) Do (AddA v_jac 316 (#6.7137187823466643e-02 * ($v_j_temp * #(-7.1851123102163683e-02))));
  (*2435*) Do (AddA v_jac 317 (#(-3.3568593911733322e-02) * ($v_j_temp * #(-7.1851123102163683e-02))));
  (*2436*) Do (AddA v_jac 319 (#1.0656931194939898e+00 * ($v_j_temp * #(-7.1851123102163683e-02))));
  (*2437*) Do (AddA v_jac 322 (#(-1.0992617134057232e+00) * ($v_j_temp * #(-7.1851123102163683e-02))));
  (*2438*) Do (AddA v_jac 337 (#6.4956683299918619e-02 * ($v_j_temp * #(-1.0783165818741525e-01))));
  (*2439*) Do (AddA v_jac 338 (#(-3.2478341649959309e-02) * ($v_j_temp * #(-1.0783165818741525e-01))));
  (*2440*) Do (AddA v_jac 340 (#1.0310811742650532e+00 * ($v_j_temp * #(-1.0783165818741525e-01))));
  (*2441*) Do (AddA v_jac 343 (#(-1.0635595159150126e+00) * ($v_j_temp * #(-1.0783165818741525e-01))));
  (*2442*) Do (AddA v_jac 358 (#7.1857747410685777e-02 * ($v_j_temp * #(-1.4378791924458678e-03))));
  (*2443*) Do (AddA v_jac 359 (#(-3.5928873705342888e-02) * ($v_j_temp * #(-1.4378791924458678e-03))));
  (*2444*) Do (AddA v_jac 361 (#1.1406242870830863e+00 * ($v_j_temp * #(-1.4378791924458678e-03))));
  (*2445*) Do (AddA v_jac 364 (#(-1.1765531607884292e+00) * ($v_j_temp * #(-1.4378791924458678e-03))));
  (*2446*) Do (AddA v_jac 379 (#6.9365522319754180e-02 * ($v_j_temp * #(-3.7418414277697654e-02))));
  (*2447*) Do (AddA v_jac 380 (#(-3.4682761159877090e-02) * ($v_j_temp * #(-3.7418414277697654e-02))));
  (*2448*) Do (AddA v_jac 382 (#1.1010642873610286e+00 * ($v_j_temp * #(-3.7418414277697654e-02))));
  (*2449*) Do (AddA v_jac 385 (#(-1.1357470485209056e+00) * ($v_j_temp * #(-3.7418414277697654e-02))));
  (*2450*) Do (AddA v_jac 400 (#6.7040376938333812e-02 * ($v_j_temp * #(-7.3398949362949439e-02))));
  (*2451*) Do (AddA v_jac 401 (#(-3.3520188469166906e-02) * ($v_j_temp * #(-7.3398949362949439e-02))));
  (*2452*) Do (AddA v_jac 403 (#1.0641564049320178e+00 * ($v_j_temp * #(-7.3398949362949439e-02))));
  (*2453*) Do (AddA v_jac 406 (#(-1.0976765934011847e+00) * ($v_j_temp * #(-7.3398949362949439e-02))));
  (*2454*) Do (AddA v_jac 421 (#5.0462601381796340e-02 * ($v_j_temp * #(-4.2602775520927771e-01))));
  (*2455*) Do (AddA v_jac 422 (#(-2.5231300690898170e-02) * ($v_j_temp * #(-4.2602775520927771e-01))));
  (*2456*) Do (AddA v_jac 424 (#8.0101131470912179e-01 * ($v_j_temp * #(-4.2602775520927771e-01))));
  (*2457*) Do (AddA v_jac 427 (#(-8.2624261540002009e-01) * ($v_j_temp * #(-4.2602775520927771e-01))))]);
([
  (*2460*) Do (Asn v_j_temp 0 (#1.0 / $v_T * ((v_fwd_rates.[28] - v_rev_rates.[28]) * (#3.1954442368556829e+02 / $v_T) + v_fwd_rates.[28] * #(-1.0) - v_rev_rates.[28] * (#(-1.0) + (- $v_T) * (#2.0 * v_dBdT.[4] - v_dBdT.[1] - v_dBdT.[6]))) * $v_rho_inv));
  (*2461*) Do (AddA v_jac 2 ((- $v_j_temp) * #1.0079400000000001e+00));
  (*2462*) Do (AddA v_jac 5 ($v_j_temp * #2.0 * #1.7007339999999999e+01));
  (*2463*) Do (AddA v_jac 7 ((- $v_j_temp) * #3.3006740000000001e+01))],
[
  (*2466*) If ($v_T) (#1000.0)
    [Asn v_Kc 0 (#(-4.6600633630000008e+00) + #1.1822328500000001e+00 * $v_logT + $v_T * (#(-2.6757265352666572e-05) + $v_T * (#(-1.9870687130006796e-06) + $v_T * (#1.3761768948082653e-09 + #(-3.2820109195361345e-13) * $v_T))) - #(-1.8538306819999998e+04) / $v_T)]
    [Asn v_Kc 0 (#5.9464085339999997e+00 + #(-3.3143557000000001e-01) * $v_logT + $v_T * (#(-5.7148033745785135e-04) + $v_T * (#1.4777809830730085e-07 + $v_T * (#(-2.4178223038737304e-11) + #1.7136664100901320e-15 * $v_T))) - #(-1.7868202613000001e+04) / $v_T)];
  (*2472*) Do (Asn v_Kc 0 ((Exp $v_Kc)));
  (*2473*) Do (Asn v_j_temp 0 ((- $v_mw_avg) * $v_rho_inv * (#2.0 * v_fwd_rates.[28] - #2.0 * v_rev_rates.[28])));
  (*2474*) Do (Asn v_kf 0 ((Exp (#2.5621105636897322e+01 - #3.1954442368556829e+02 / $v_T))));
  (*2475*) Do (Asn v_kr 0 ($v_kf / $v_Kc));
  (*2476*) Do (AddA v_jac 23 (#(-5.0000000000000000e-01) * ($v_j_temp * #9.2803892982949643e-01)));
  (*2477*) Do (AddA v_jac 26 (#1.6873365478103853e+01 * ($v_j_temp * #9.2803892982949643e-01)));
  (*2478*) Do (AddA v_jac 28 (#(-1.6373365478103853e+01) * ($v_j_temp * #9.2803892982949643e-01)));
  (*2479*) Do (AddA v_jac 44 ((- ($v_j_temp * #9.6401946491474821e-01 + $v_kf * v_conc.[6]))));
  (*2480*) Do (AddA v_jac 47 (#3.3746730956207706e+01 * ($v_j_temp * #9.6401946491474821e-01 + $v_kf * v_conc.[6])));
  (*2481*) Do (AddA v_jac 49 (#(-3.2746730956207706e+01) * ($v_j_temp * #9.6401946491474821e-01 + $v_kf * v_conc.[6])));
  (*2482*) Do (AddA v_jac 65 (#(-6.2998612447966798e-02) * ($v_j_temp * #4.2886781649405936e-01)));
  (*2483*) Do (AddA v_jac 68 (#2.1259972248959333e+00 * ($v_j_temp * #4.2886781649405936e-01)));
  (*2484*) Do (AddA v_jac 70 (#(-2.0629986124479669e+00) * ($v_j_temp * #4.2886781649405936e-01)));
  (*2485*) Do (AddA v_jac 86 (#(-3.1499306223983399e-02) * ($v_j_temp * #(-1.4226436701188128e-01))));
  (*2486*) Do (AddA v_jac 89 (#1.0629986124479667e+00 * ($v_j_temp * #(-1.4226436701188128e-01))));
  (*2487*) Do (AddA v_jac 91 (#(-1.0314993062239834e+00) * ($v_j_temp * #(-1.4226436701188128e-01))));
  (*2488*) Do (AddA v_jac 107 (#(-5.9264999700129481e-02) * ($v_j_temp * #3.9288728140880758e-01 - $v_kr * #2.0 * v_conc.[4])));
  (*2489*) Do (AddA v_jac 110 (#2.0000000000000000e+00 * ($v_j_temp * #3.9288728140880758e-01 - $v_kr * #2.0 * v_conc.[4])));
  (*2490*) Do (AddA v_jac 112 (#(-1.9407350002998707e+00) * ($v_j_temp * #3.9288728140880758e-01 - $v_kr * #2.0 * v_conc.[4])));
  (*2491*) Do (AddA v_jac 128 (#(-5.5949172036182618e-02) * ($v_j_temp * #3.5690674632355568e-01)));
  (*2492*) Do (AddA v_jac 131 (#1.8881016559276347e+00 * ($v_j_temp * #3.5690674632355568e-01)));
  (*2493*) Do (AddA v_jac 133 (#(-1.8321524838914520e+00) * ($v_j_temp * #3.5690674632355568e-01)));
  (*2494*) Do (AddA v_jac 149 (#(-3.0537399331166910e-02) * ($v_j_temp * #(-1.7824490209713328e-01) + $v_kf * v_conc.[1])));
  (*2495*) Do (AddA v_jac 152 (#1.0305373993311668e+00 * ($v_j_temp * #(-1.7824490209713328e-01) + $v_kf * v_conc.[1])));
  (*2496*) Do (AddA v_jac 154 ((- ($v_j_temp * #(-1.7824490209713328e-01) + $v_kf * v_conc.[1]))));
  (*2497*) Do (AddA v_jac 170 (#(-7.1857747410685777e-02) * ($v_j_temp * #4.9928106040377707e-01)));
  (*2498*) Do (AddA v_jac 173 (#2.4249640689875442e+00 * ($v_j_temp * #4.9928106040377707e-01)));
  (*2499*) Do (AddA v_jac 175 (#(-2.3531063215768584e+00) * ($v_j_temp * #4.9928106040377707e-01)));
  (*2500*) Do (AddA v_jac 191 (#(-7.1857747410685777e-02) * ($v_j_temp * #4.9928106040377707e-01)));
  (*2501*) Do (AddA v_jac 194 (#2.4249640689875442e+00 * ($v_j_temp * #4.9928106040377707e-01)));
  (*2502*) Do (AddA v_jac 196 (#(-2.3531063215768584e+00) * ($v_j_temp * #4.9928106040377707e-01)));
  (*2503*) Do (AddA v_jac 212 (#(-6.7040376938333812e-02) * ($v_j_temp * #4.6330052531852528e-01)));
  (*2504*) Do (AddA v_jac 215 (#2.2623935637407033e+00 * ($v_j_temp * #4.6330052531852528e-01)));
  (*2505*) Do (AddA v_jac 217 (#(-2.1953531868023695e+00) * ($v_j_temp * #4.6330052531852528e-01)));
  (*2506*) Do (AddA v_jac 233 (#(-6.2828341257988030e-02) * ($v_j_temp * #4.2731999023327338e-01)));
  (*2507*) Do (AddA v_jac 236 (#2.1202511288581265e+00 * ($v_j_temp * #4.2731999023327338e-01)));
  (*2508*) Do (AddA v_jac 238 (#(-2.0574227876001383e+00) * ($v_j_temp * #4.2731999023327338e-01)));
  (*2509*) Do (AddA v_jac 254 (#(-3.5984491474595155e-02) * ($v_j_temp * #1.0994706834011048e-04)));
  (*2510*) Do (AddA v_jac 257 (#1.2143589523891127e+00 * ($v_j_temp * #1.0994706834011048e-04)));
  (*2511*) Do (AddA v_jac 259 (#(-1.1783744609145177e+00) * ($v_j_temp * #1.0994706834011048e-04)));
  (*2512*) Do (AddA v_jac 275 (#(-2.2902626233248052e-02) * ($v_j_temp * #(-5.7102223643760053e-01))));
  (*2513*) Do (AddA v_jac 278 (#7.7288876568400677e-01 * ($v_j_temp * #(-5.7102223643760053e-01))));
  (*2514*) Do (AddA v_jac 280 (#(-7.4998613945075876e-01) * ($v_j_temp * #(-5.7102223643760053e-01))));
  (*2515*) Do (AddA v_jac 296 (#(-3.4734585093427126e-02) * ($v_j_temp * #(-3.5870588016911675e-02))));
  (*2516*) Do (AddA v_jac 299 (#1.1721786980233879e+00 * ($v_j_temp * #(-3.5870588016911675e-02))));
  (*2517*) Do (AddA v_jac 301 (#(-1.1374441129299608e+00) * ($v_j_temp * #(-3.5870588016911675e-02))));
  (*2518*) Do (AddA v_jac 317 (#(-3.3568593911733322e-02) * ($v_j_temp * #(-7.1851123102163683e-02))));
  (*2519*) Do (AddA v_jac 320 (#1.1328303073174566e+00 * ($v_j_temp * #(-7.1851123102163683e-02))));
  (*2520*) Do (AddA v_jac 322 (#(-1.0992617134057232e+00) * ($v_j_temp * #(-7.1851123102163683e-02))));
  (*2521*) Do (AddA v_jac 338 (#(-3.2478341649959309e-02) * ($v_j_temp * #(-1.0783165818741525e-01))));
  (*2522*) Do (AddA v_jac 341 (#1.0960378575649719e+00 * ($v_j_temp * #(-1.0783165818741525e-01))));
  (*2523*) Do (AddA v_jac 343 (#(-1.0635595159150126e+00) * ($v_j_temp * #(-1.0783165818741525e-01))));
  (*2524*) Do (AddA v_jac 359 (#(-3.5928873705342888e-02) * ($v_j_temp * #(-1.4378791924458678e-03))));
  (*2525*) Do (AddA v_jac 362 (#1.2124820344937721e+00 * ($v_j_temp * #(-1.4378791924458678e-03))));
  (*2526*) Do (AddA v_jac 364 (#(-1.1765531607884292e+00) * ($v_j_temp * #(-1.4378791924458678e-03))));
  (*2527*) Do (AddA v_jac 380 (#(-3.4682761159877090e-02) * ($v_j_temp * #(-3.7418414277697654e-02))));
  (*2528*) Do (AddA v_jac 383 (#1.1704298096807826e+00 * ($v_j_temp * #(-3.7418414277697654e-02))));
  (*2529*) Do (AddA v_jac 385 (#(-1.1357470485209056e+00) * ($v_j_temp * #(-3.7418414277697654e-02))));
  (*2530*) Do (AddA v_jac 401 (#(-3.3520188469166906e-02) * ($v_j_temp * #(-7.3398949362949439e-02))));
  (*2531*) Do (AddA v_jac 404 (#1.1311967818703517e+00 * ($v_j_temp * #(-7.3398949362949439e-02))));
  (*2532*) Do (AddA v_jac 406 (#(-1.0976765934011847e+00) * ($v_j_temp * #(-7.3398949362949439e-02))));
  (*2533*) Do (AddA v_jac 422 (#(-2.5231300690898170e-02) * ($v_j_temp * #(-4.2602775520927771e-01))));
  (*2534*) Do (AddA v_jac 425 (#8.5147391609091816e-01 * ($v_j_temp * #(-4.2602775520927771e-01))));
  (*2535*) Do (AddA v_jac 427 (#(-8.2624261540002009e-01) * ($v_j_temp * #(-4.2602775520927771e-01))))]);
([
  (*2538*) Do (Asn v_conc_temp 0 ($v_m + #1.0 * v_conc.[0] + #5.0 * v_conc.[5] + #1.0 * v_conc.[10] + #0.5 * v_conc.[11] + #1.0 * v_conc.[12] + #2.0 * v_conc.[18] - #0.3 * v_conc.[19]));
  (*2539*) Do (Asn v_Pr 0 ($v_conc_temp * (Exp (#1.8667540821883890e+01 - #2.34 * $v_logT - #6.1896006477677008e+02 / $v_T))));
  (*2540*) Do (Asn v_Fcent 0 (#3.1999999999999995e-01 * (Exp ($v_T / #(-7.8000000000000000e+01))) + #6.8000000000000005e-01 * (Exp ($v_T / #(-1.9950000000000000e+03))) + (Exp (#(-5.5900000000000000e+03) / $v_T))));
  (*2541*) Do (Asn v_A 0 ((Log10 (Fmax $v_Pr #1.0e-300)) - #0.67 * (Log10 (Fmax $v_Fcent #1.0e-300)) - #0.4));
  (*2542*) Do (Asn v_B 0 (#0.806 - #1.1762 * (Log10 (Fmax $v_Fcent #1.0e-300)) - #0.14 * (Log10 (Fmax $v_Pr #1.0e-300))));
  (*2543*) Do (Asn v_lnF_AB 0 (#2.0 * (Log (Fmax $v_Fcent #1.0e-300)) * $v_A / ($v_B * $v_B * $v_B * (#1.0 + $v_A * $v_A / ($v_B * $v_B)) * (#1.0 + $v_A * $v_A / ($v_B * $v_B)))));
  (*2544*) Do (Asn v_j_temp 0 ((v_pres_mod.[5] * ((#(-2.3400e+00) + #6.1896006477677008e+02 / $v_T - #1.0) / ($v_T * (#1.0 + $v_Pr)) + (#1.0 / ($v_Fcent * (#1.0 + $v_A * $v_A / ($v_B * $v_B))) - $v_lnF_AB * (#(-2.9097730287517870e-01) * $v_B + #5.1081716961460466e-01 * $v_A) / $v_Fcent) * (#(-4.1025641025641017e-03) * (Exp ($v_T / #(-7.8000000000000000e+01))) - #3.4085213032581453e-04 * (Exp ($v_T / #(-1.9950000000000000e+03))) + #5.5900000000000000e+03 / ($v_T * $v_T) * (Exp (#(-5.5900000000000000e+03) / $v_T))) - $v_lnF_AB * (#4.3429448190325176e-01 * $v_B + #6.0801227466455256e-02 * $v_A) * (#(-2.3399999999999999e+00) + #6.1896006477677008e+02 / $v_T - #1.0) / $v_T) * (v_fwd_rates.[29] - v_rev_rates.[29]) + v_pres_mod.[5] / $v_T * ((v_fwd_rates.[29] - v_rev_rates.[29]) * #(-8.0000000000000004e-01) + v_fwd_rates.[29] * #(-1.0) - v_rev_rates.[29] * ((- $v_T) * (v_dBdT.[9] - v_dBdT.[1] - v_dBdT.[7])))) * $v_rho_inv));
  (*2545*) Do (AddA v_jac 2 ((- $v_j_temp) * #1.0079400000000001e+00));
  (*2546*) Do (AddA v_jac 10 ($v_j_temp * #1.5034820000000000e+01));
  (*2547*) Do (AddA v_jac 8 ((- $v_j_temp) * #1.4026879999999998e+01))],
[
  (*2550*) If ($v_T) (#1000.0)
    [Asn v_Kc 0 (#3.0778036030000000e+00 + #(-1.5890882700000000e+00) * $v_logT + $v_T * (#5.2103980314733352e-04 + $v_T * (#4.8922002533265336e-07 + $v_T * (#(-2.5168856019173461e-10) + #4.2822007546386620e-14 * $v_T))) - #(-5.5032701199999996e+04) / $v_T)]
    [Asn v_Kc 0 (#5.8439448840000008e+00 + #(-2.0883834200000000e+00) * $v_logT + $v_T * (#1.7917537365421488e-03 + $v_T * (#(-2.6303292102603245e-07) + $v_T * (#2.7958758311262697e-11 + #(-1.3971341599098680e-15) * $v_T))) - #(-5.4961679600000003e+04) / $v_T)];
  (*2556*) Do (Asn v_Kc 0 (#8.2057360967184814e-02 * (Exp $v_Kc)));
  (*2557*) Do (Asn v_pres_mod_temp 0 ((#1.0 / (#1.0 + $v_Pr) - (Log (Fmax $v_Fcent #1.0e-300)) * #2.0 * $v_A * ($v_B * #0.4342944819032518 + $v_A * #0.06080122746645526) / ($v_B * $v_B * $v_B * (#1.0 + $v_A * $v_A / ($v_B * $v_B)) * (#1.0 + $v_A * $v_A / ($v_B * $v_B)))) * (v_fwd_rates.[29] - v_rev_rates.[29])));
  (*2558*) Do (Asn v_j_temp 0 ((- $v_mw_avg) * $v_rho_inv * v_pres_mod.[5] * (#2.0 * v_fwd_rates.[29] - v_rev_rates.[29] + $v_pres_mod_temp)));
  (*2559*) Do (MulA v_pres_mod_temp 0 ((Exp (#1.8667540821883890e+01 - #2.34 * $v_logT - #6.1896006477677008e+02 / $v_T)) * (Pow $v_Fcent (#1.0 / (#1 + $v_A * $v_A / ($v_B * $v_B)))) / (#1.0 + $v_Pr)));
  (*2560*) Do (Asn v_kf 0 ((Exp (#3.0849896940796750e+01 - #0.8 * $v_logT))));
  (*2561*) Do (Asn v_kr 0 ($v_kf / $v_Kc));
  (*2562*) Do (AddA v_jac 23 (#(-5.0000000000000000e-01) * ($v_j_temp * #9.2803892982949643e-01 + #1.9280389298294964e+00 * $v_pres_mod_temp)));
  (*2563*) Do (AddA v_jac 31 (#7.4581919558703884e+00 * ($v_j_temp * #9.2803892982949643e-01 + #1.9280389298294964e+00 * $v_pres_mod_temp)));
  (*2564*) Do (AddA v_jac 29 (#(-6.9581919558703875e+00) * ($v_j_temp * #9.2803892982949643e-01 + #1.9280389298294964e+00 * $v_pres_mod_temp)));
  (*2565*) Do (AddA v_jac 44 ((- ($v_j_temp * #9.6401946491474821e-01 + #9.6401946491474821e-01 * $v_pres_mod_temp + v_pres_mod.[5] * ($v_kf * v_conc.[7])))));
  (*2566*) Do (AddA v_jac 52 (#1.4916383911740777e+01 * ($v_j_temp * #9.6401946491474821e-01 + #9.6401946491474821e-01 * $v_pres_mod_temp + v_pres_mod.[5] * ($v_kf * v_conc.[7]))));
  (*2567*) Do (AddA v_jac 50 (#(-1.3916383911740775e+01) * ($v_j_temp * #9.6401946491474821e-01 + #9.6401946491474821e-01 * $v_pres_mod_temp + v_pres_mod.[5] * ($v_kf * v_conc.[7]))));
  (*2568*) Do (AddA v_jac 65 (#(-6.2998612447966798e-02) * ($v_j_temp * #4.2886781649405936e-01 + #4.2886781649405936e-01 * $v_pres_mod_temp)));
  (*2569*) Do (AddA v_jac 73 (#9.3971148918084424e-01 * ($v_j_temp * #4.2886781649405936e-01 + #4.2886781649405936e-01 * $v_pres_mod_temp)));
  (*2570*) Do (AddA v_jac 71 (#(-8.7671287673287746e-01) * ($v_j_temp * #4.2886781649405936e-01 + #4.2886781649405936e-01 * $v_pres_mod_temp)));
  (*2571*) Do (AddA v_jac 86 (#(-3.1499306223983399e-02) * ($v_j_temp * #(-1.4226436701188128e-01) + #(-1.4226436701188128e-01) * $v_pres_mod_temp)));
  (*2572*) Do (AddA v_jac 94 (#4.6985574459042212e-01 * ($v_j_temp * #(-1.4226436701188128e-01) + #(-1.4226436701188128e-01) * $v_pres_mod_temp)));
  (*2573*) Do (AddA v_jac 92 (#(-4.3835643836643873e-01) * ($v_j_temp * #(-1.4226436701188128e-01) + #(-1.4226436701188128e-01) * $v_pres_mod_temp)));
  (*2574*) Do (AddA v_jac 107 (#(-5.9264999700129481e-02) * ($v_j_temp * #3.9288728140880758e-01 + #3.9288728140880758e-01 * $v_pres_mod_temp)));
  (*2575*) Do (AddA v_jac 115 (#8.8401948805633335e-01 * ($v_j_temp * #3.9288728140880758e-01 + #3.9288728140880758e-01 * $v_pres_mod_temp)));
  (*2576*) Do (AddA v_jac 113 (#(-8.2475448835620380e-01) * ($v_j_temp * #3.9288728140880758e-01 + #3.9288728140880758e-01 * $v_pres_mod_temp)));
  (*2577*) Do (AddA v_jac 128 (#(-5.5949172036182618e-02) * ($v_j_temp * #3.5690674632355568e-01 + #5.3569067463235553e+00 * $v_pres_mod_temp)));
  (*2578*) Do (AddA v_jac 136 (#8.3455932963573143e-01 * ($v_j_temp * #3.5690674632355568e-01 + #5.3569067463235553e+00 * $v_pres_mod_temp)));
  (*2579*) Do (AddA v_jac 134 (#(-7.7861015759954877e-01) * ($v_j_temp * #3.5690674632355568e-01 + #5.3569067463235553e+00 * $v_pres_mod_temp)));
  (*2580*) Do (AddA v_jac 149 (#(-3.0537399331166910e-02) * ($v_j_temp * #(-1.7824490209713328e-01) + #(-1.7824490209713328e-01) * $v_pres_mod_temp)));
  (*2581*) Do (AddA v_jac 157 (#4.5550757208982162e-01 * ($v_j_temp * #(-1.7824490209713328e-01) + #(-1.7824490209713328e-01) * $v_pres_mod_temp)));
  (*2582*) Do (AddA v_jac 155 (#(-4.2497017275865467e-01) * ($v_j_temp * #(-1.7824490209713328e-01) + #(-1.7824490209713328e-01) * $v_pres_mod_temp)));
  (*2583*) Do (AddA v_jac 170 (#(-7.1857747410685777e-02) * ($v_j_temp * #4.9928106040377707e-01 + #4.9928106040377707e-01 * $v_pres_mod_temp + v_pres_mod.[5] * ($v_kf * v_conc.[1]))));
  (*2584*) Do (AddA v_jac 178 (#1.0718577474106858e+00 * ($v_j_temp * #4.9928106040377707e-01 + #4.9928106040377707e-01 * $v_pres_mod_temp + v_pres_mod.[5] * ($v_kf * v_conc.[1]))));
  (*2585*) Do (AddA v_jac 176 ((- ($v_j_temp * #4.9928106040377707e-01 + #4.9928106040377707e-01 * $v_pres_mod_temp + v_pres_mod.[5] * ($v_kf * v_conc.[1])))));
  (*2586*) Do (AddA v_jac 191 (#(-7.1857747410685777e-02) * ($v_j_temp * #4.9928106040377707e-01 + #4.9928106040377707e-01 * $v_pres_mod_temp)));
  (*2587*) Do (AddA v_jac 199 (#1.0718577474106858e+00 * ($v_j_temp * #4.9928106040377707e-01 + #4.9928106040377707e-01 * $v_pres_mod_temp)));
  (*2588*) Do (AddA v_jac 197 ((- ($v_j_temp * #4.9928106040377707e-01 + #4.9928106040377707e-01 * $v_pres_mod_temp))));
  (*2589*) Do (AddA v_jac 212 (#(-6.7040376938333812e-02) * ($v_j_temp * #4.6330052531852528e-01 + #4.6330052531852528e-01 * $v_pres_mod_temp + v_pres_mod.[5] * (- $v_kr))));
  (*2590*) Do (AddA v_jac 220 ($v_j_temp * #4.6330052531852528e-01 + #4.6330052531852528e-01 * $v_pres_mod_temp + v_pres_mod.[5] * (- $v_kr)));
  (*2591*) Do (AddA v_jac 218 (#(-9.3295962306166613e-01) * ($v_j_temp * #4.6330052531852528e-01 + #4.6330052531852528e-01 * $v_pres_mod_temp + v_pres_mod.[5] * (- $v_kr))));
  (*2592*) Do (AddA v_jac 233 (#(-6.2828341257988030e-02) * ($v_j_temp * #4.2731999023327338e-01 + #1.4273199902332734e+00 * $v_pres_mod_temp)));
  (*2593*) Do (AddA v_jac 241 (#9.3717165874201191e-01 * ($v_j_temp * #4.2731999023327338e-01 + #1.4273199902332734e+00 * $v_pres_mod_temp)));
  (*2594*) Do (AddA v_jac 239 (#(-8.7434331748402383e-01) * ($v_j_temp * #4.2731999023327338e-01 + #1.4273199902332734e+00 * $v_pres_mod_temp)));
  (*2595*) Do (AddA v_jac 254 (#(-3.5984491474595155e-02) * ($v_j_temp * #1.0994706834011048e-04 + #5.0010994706834011e-01 * $v_pres_mod_temp)));
  (*2596*) Do (AddA v_jac 262 (#5.3675848970382434e-01 * ($v_j_temp * #1.0994706834011048e-04 + #5.0010994706834011e-01 * $v_pres_mod_temp)));
  (*2597*) Do (AddA v_jac 260 (#(-5.0077399822922919e-01) * ($v_j_temp * #1.0994706834011048e-04 + #5.0010994706834011e-01 * $v_pres_mod_temp)));
  (*2598*) Do (AddA v_jac 275 (#(-2.2902626233248052e-02) * ($v_j_temp * #(-5.7102223643760053e-01) + #4.2897776356239947e-01 * $v_pres_mod_temp)));
  (*2599*) Do (AddA v_jac 283 (#3.4162436548223352e-01 * ($v_j_temp * #(-5.7102223643760053e-01) + #4.2897776356239947e-01 * $v_pres_mod_temp)));
  (*2600*) Do (AddA v_jac 281 (#(-3.1872173924898545e-01) * ($v_j_temp * #(-5.7102223643760053e-01) + #4.2897776356239947e-01 * $v_pres_mod_temp)));
  (*2601*) Do (AddA v_jac 296 (#(-3.4734585093427126e-02) * ($v_j_temp * #(-3.5870588016911675e-02) + #(-3.5870588016911675e-02) * $v_pres_mod_temp)));
  (*2602*) Do (AddA v_jac 304 (#5.1811440626858740e-01 * ($v_j_temp * #(-3.5870588016911675e-02) + #(-3.5870588016911675e-02) * $v_pres_mod_temp)));
  (*2603*) Do (AddA v_jac 302 (#(-4.8337982117516021e-01) * ($v_j_temp * #(-3.5870588016911675e-02) + #(-3.5870588016911675e-02) * $v_pres_mod_temp)));
  (*2604*) Do (AddA v_jac 317 (#(-3.3568593911733322e-02) * ($v_j_temp * #(-7.1851123102163683e-02) + #(-7.1851123102163683e-02) * $v_pres_mod_temp)));
  (*2605*) Do (AddA v_jac 325 (#5.0072203416473837e-01 * ($v_j_temp * #(-7.1851123102163683e-02) + #(-7.1851123102163683e-02) * $v_pres_mod_temp)));
  (*2606*) Do (AddA v_jac 323 (#(-4.6715344025300498e-01) * ($v_j_temp * #(-7.1851123102163683e-02) + #(-7.1851123102163683e-02) * $v_pres_mod_temp)));
  (*2607*) Do (AddA v_jac 338 (#(-3.2478341649959309e-02) * ($v_j_temp * #(-1.0783165818741525e-01) + #(-1.0783165818741525e-01) * $v_pres_mod_temp)));
  (*2608*) Do (AddA v_jac 346 (#4.8445941286747340e-01 * ($v_j_temp * #(-1.0783165818741525e-01) + #(-1.0783165818741525e-01) * $v_pres_mod_temp)));
  (*2609*) Do (AddA v_jac 344 (#(-4.5198107121751407e-01) * ($v_j_temp * #(-1.0783165818741525e-01) + #(-1.0783165818741525e-01) * $v_pres_mod_temp)));
  (*2610*) Do (AddA v_jac 359 (#(-3.5928873705342888e-02) * ($v_j_temp * #(-1.4378791924458678e-03) + #(-1.4378791924458678e-03) * $v_pres_mod_temp)));
  (*2611*) Do (AddA v_jac 367 (#5.3592887370534292e-01 * ($v_j_temp * #(-1.4378791924458678e-03) + #(-1.4378791924458678e-03) * $v_pres_mod_temp)));
  (*2612*) Do (AddA v_jac 365 (#(-5.0000000000000000e-01) * ($v_j_temp * #(-1.4378791924458678e-03) + #(-1.4378791924458678e-03) * $v_pres_mod_temp)));
  (*2613*) Do (AddA v_jac 380 (#(-3.4682761159877090e-02) * ($v_j_temp * #(-3.7418414277697654e-02) + #(-3.7418414277697654e-02) * $v_pres_mod_temp)));
  (*2614*) Do (AddA v_jac 388 (#5.1734138057993861e-01 * ($v_j_temp * #(-3.7418414277697654e-02) + #(-3.7418414277697654e-02) * $v_pres_mod_temp)));
  (*2615*) Do (AddA v_jac 386 (#(-4.8265861942006144e-01) * ($v_j_temp * #(-3.7418414277697654e-02) + #(-3.7418414277697654e-02) * $v_pres_mod_temp)));
  (*2616*) Do (AddA v_jac 401 (#(-3.3520188469166906e-02) * ($v_j_temp * #(-7.3398949362949439e-02) + #1.9266010506370506e+00 * $v_pres_mod_temp)));
  (*2617*) Do (AddA v_jac 409 (#5.0000000000000000e-01 * ($v_j_temp * #(-7.3398949362949439e-02) + #1.9266010506370506e+00 * $v_pres_mod_temp)));
  (*2618*) Do (AddA v_jac 407 (#(-4.6647981153083307e-01) * ($v_j_temp * #(-7.3398949362949439e-02) + #1.9266010506370506e+00 * $v_pres_mod_temp)));
  (*2619*) Do (AddA v_jac 422 (#(-2.5231300690898170e-02) * ($v_j_temp * #(-4.2602775520927771e-01) + #(-7.2602775520927776e-01) * $v_pres_mod_temp)));
  (*2620*) Do (AddA v_jac 430 (#3.7635976769800739e-01 * ($v_j_temp * #(-4.2602775520927771e-01) + #(-7.2602775520927776e-01) * $v_pres_mod_temp)));
  (*2621*) Do (AddA v_jac 428 (#(-3.5112846700710920e-01) * ($v_j_temp * #(-4.2602775520927771e-01) + #(-7.2602775520927776e-01) * $v_pres_mod_temp)))]);
([
  (*2624*) Do (Asn v_Pr 0 ($v_conc_temp * (Exp (#3.2904222551953360e+01 - #4.13 * $v_logT - #1.0351226449152975e+03 / $v_T))));
  (*2625*) Do (Asn v_Fcent 0 (#2.1699999999999997e-01 * (Exp ($v_T / #(-7.4000000000000000e+01))) + #7.8300000000000003e-01 * (Exp ($v_T / #(-2.9410000000000000e+03))) + (Exp (#(-6.9640000000000000e+03) / $v_T))));
  (*2626*) Do (Asn v_A 0 ((Log10 (Fmax $v_Pr #1.0e-300)) - #0.67 * (Log10 (Fmax $v_Fcent #1.0e-300)) - #0.4));
  (*2627*) Do (Asn v_B 0 (#0.806 - #1.1762 * (Log10 (Fmax $v_Fcent #1.0e-300)) - #0.14 * (Log10 (Fmax $v_Pr #1.0e-300))));
  (*2628*) Do (Asn v_lnF_AB 0 (#2.0 * (Log (Fmax $v_Fcent #1.0e-300)) * $v_A / ($v_B * $v_B * $v_B * (#1.0 + $v_A * $v_A / ($v_B * $v_B)) * (#1.0 + $v_A * $v_A / ($v_B * $v_B)))));
  (*2629*) Do (Asn v_j_temp 0 ((v_pres_mod.[6] * ((#(-4.1300e+00) + #1.0351226449152975e+03 / $v_T - #1.0) / ($v_T * (#1.0 + $v_Pr)) + (#1.0 / ($v_Fcent * (#1.0 + $v_A * $v_A / ($v_B * $v_B))) - $v_lnF_AB * (#(-2.9097730287517870e-01) * $v_B + #5.1081716961460466e-01 * $v_A) / $v_Fcent) * (#(-2.9324324324324319e-03) * (Exp ($v_T / #(-7.4000000000000000e+01))) - #2.6623597415844952e-04 * (Exp ($v_T / #(-2.9410000000000000e+03))) + #6.9640000000000000e+03 / ($v_T * $v_T) * (Exp (#(-6.9640000000000000e+03) / $v_T))) - $v_lnF_AB * (#4.3429448190325176e-01 * $v_B + #6.0801227466455256e-02 * $v_A) * (#(-4.1299999999999999e+00) + #1.0351226449152975e+03 / $v_T - #1.0) / $v_T) * (v_fwd_rates.[30] - v_rev_rates.[30]) + v_pres_mod.[6] / $v_T * ((v_fwd_rates.[30] - v_rev_rates.[30]) * (#(-6.3000000000000000e-01) + #1.9273309334105929e+02 / $v_T) + v_fwd_rates.[30] * #(-1.0) - v_rev_rates.[30] * ((- $v_T) * (v_dBdT.[10] - v_dBdT.[1] - v_dBdT.[9])))) * $v_rho_inv));
  (*2630*) Do (AddA v_jac 2 ((- $v_j_temp) * #1.0079400000000001e+00));
  (*2631*) Do (AddA v_jac 11 ($v_j_temp * #1.6042760000000001e+01));
  (*2632*) Do (AddA v_jac 10 ((- $v_j_temp) * #1.5034820000000000e+01))],
[
  (*2635*) If ($v_T) (#1000.0)
    [Asn v_Kc 0 (#(-4.7754709669999986e+00) + #(-2.3714270000000148e-02) * $v_logT + $v_T * (#(-7.8409652753526661e-03) + $v_T * (#7.2416402236659874e-06 + $v_T * (#(-3.4669273626917350e-09) + #7.0627691304638665e-13 * $v_T))) - #(-5.2165306299999997e+04) / $v_T)]
    [Asn v_Kc 0 (#1.5114795359000002e+01 + #(-3.7108662350000001e+00) * $v_logT + $v_T * (#3.0755231765421482e-03 + $v_T * (#(-4.5761910435936572e-07) + $v_T * (#5.2270059227929359e-11 + #(-2.7549895549098682e-15) * $v_T))) - #(-5.1717588789999994e+04) / $v_T)];
  (*2641*) Do (Asn v_Kc 0 (#8.2057360967184814e-02 * (Exp $v_Kc)));
  (*2642*) Do (Asn v_pres_mod_temp 0 ((#1.0 / (#1.0 + $v_Pr) - (Log (Fmax $v_Fcent #1.0e-300)) * #2.0 * $v_A * ($v_B * #0.4342944819032518 + $v_A * #0.06080122746645526) / ($v_B * $v_B * $v_B * (#1.0 + $v_A * $v_A / ($v_B * $v_B)) * (#1.0 + $v_A * $v_A / ($v_B * $v_B)))) * (v_fwd_rates.[30] - v_rev_rates.[30])));
  (*2643*) Do (Asn v_j_temp 0 ((- $v_mw_avg) * $v_rho_inv * v_pres_mod.[6] * (#2.0 * v_fwd_rates.[30] - v_rev_rates.[30] + $v_pres_mod_temp)));
  (*2644*) Do (MulA v_pres_mod_temp 0 ((Exp (#3.2904222551953360e+01 - #4.13 * $v_logT - #1.0351226449152975e+03 / $v_T)) * (Pow $v_Fcent (#1.0 / (#1 + $v_A * $v_A / ($v_B * $v_B)))) / (#1.0 + $v_Pr)));
  (*2645*) Do (Asn v_kf 0 ((Exp (#3.0172623109393093e+01 - #0.63 * $v_logT - #1.9273309334105929e+02 / $v_T))));
  (*2646*) Do (Asn v_kr 0 ($v_kf / $v_Kc));
  (*2647*) Do (AddA v_jac 23 (#(-5.0000000000000000e-01) * ($v_j_temp * #9.2803892982949643e-01 + #1.9280389298294964e+00 * $v_pres_mod_temp)));
  (*2648*) Do (AddA v_jac 32 (#7.9581919558703893e+00 * ($v_j_temp * #9.2803892982949643e-01 + #1.9280389298294964e+00 * $v_pres_mod_temp)));
  (*2649*) Do (AddA v_jac 31 (#(-7.4581919558703884e+00) * ($v_j_temp * #9.2803892982949643e-01 + #1.9280389298294964e+00 * $v_pres_mod_temp)));
  (*2650*) Do (AddA v_jac 44 ((- ($v_j_temp * #9.6401946491474821e-01 + #9.6401946491474821e-01 * $v_pres_mod_temp + v_pres_mod.[6] * ($v_kf * v_conc.[9])))));
  (*2651*) Do (AddA v_jac 53 (#1.5916383911740779e+01 * ($v_j_temp * #9.6401946491474821e-01 + #9.6401946491474821e-01 * $v_pres_mod_temp + v_pres_mod.[6] * ($v_kf * v_conc.[9]))));
  (*2652*) Do (AddA v_jac 52 (#(-1.4916383911740777e+01) * ($v_j_temp * #9.6401946491474821e-01 + #9.6401946491474821e-01 * $v_pres_mod_temp + v_pres_mod.[6] * ($v_kf * v_conc.[9]))));
  (*2653*) Do (AddA v_jac 65 (#(-6.2998612447966798e-02) * ($v_j_temp * #4.2886781649405936e-01 + #4.2886781649405936e-01 * $v_pres_mod_temp)));
  (*2654*) Do (AddA v_jac 74 (#1.0027101016288111e+00 * ($v_j_temp * #4.2886781649405936e-01 + #4.2886781649405936e-01 * $v_pres_mod_temp)));
  (*2655*) Do (AddA v_jac 73 (#(-9.3971148918084424e-01) * ($v_j_temp * #4.2886781649405936e-01 + #4.2886781649405936e-01 * $v_pres_mod_temp)));
  (*2656*) Do (AddA v_jac 86 (#(-3.1499306223983399e-02) * ($v_j_temp * #(-1.4226436701188128e-01) + #(-1.4226436701188128e-01) * $v_pres_mod_temp)));
  (*2657*) Do (AddA v_jac 95 (#5.0135505081440557e-01 * ($v_j_temp * #(-1.4226436701188128e-01) + #(-1.4226436701188128e-01) * $v_pres_mod_temp)));
  (*2658*) Do (AddA v_jac 94 (#(-4.6985574459042212e-01) * ($v_j_temp * #(-1.4226436701188128e-01) + #(-1.4226436701188128e-01) * $v_pres_mod_temp)));
  (*2659*) Do (AddA v_jac 107 (#(-5.9264999700129481e-02) * ($v_j_temp * #3.9288728140880758e-01 + #3.9288728140880758e-01 * $v_pres_mod_temp)));
  (*2660*) Do (AddA v_jac 116 (#9.4328448775646290e-01 * ($v_j_temp * #3.9288728140880758e-01 + #3.9288728140880758e-01 * $v_pres_mod_temp)));
  (*2661*) Do (AddA v_jac 115 (#(-8.8401948805633335e-01) * ($v_j_temp * #3.9288728140880758e-01 + #3.9288728140880758e-01 * $v_pres_mod_temp)));
  (*2662*) Do (AddA v_jac 128 (#(-5.5949172036182618e-02) * ($v_j_temp * #3.5690674632355568e-01 + #5.3569067463235553e+00 * $v_pres_mod_temp)));
  (*2663*) Do (AddA v_jac 137 (#8.9050850167191409e-01 * ($v_j_temp * #3.5690674632355568e-01 + #5.3569067463235553e+00 * $v_pres_mod_temp)));
  (*2664*) Do (AddA v_jac 136 (#(-8.3455932963573143e-01) * ($v_j_temp * #3.5690674632355568e-01 + #5.3569067463235553e+00 * $v_pres_mod_temp)));
  (*2665*) Do (AddA v_jac 149 (#(-3.0537399331166910e-02) * ($v_j_temp * #(-1.7824490209713328e-01) + #(-1.7824490209713328e-01) * $v_pres_mod_temp)));
  (*2666*) Do (AddA v_jac 158 (#4.8604497142098857e-01 * ($v_j_temp * #(-1.7824490209713328e-01) + #(-1.7824490209713328e-01) * $v_pres_mod_temp)));
  (*2667*) Do (AddA v_jac 157 (#(-4.5550757208982162e-01) * ($v_j_temp * #(-1.7824490209713328e-01) + #(-1.7824490209713328e-01) * $v_pres_mod_temp)));
  (*2668*) Do (AddA v_jac 170 (#(-7.1857747410685777e-02) * ($v_j_temp * #4.9928106040377707e-01 + #4.9928106040377707e-01 * $v_pres_mod_temp)));
  (*2669*) Do (AddA v_jac 179 (#1.1437154948213717e+00 * ($v_j_temp * #4.9928106040377707e-01 + #4.9928106040377707e-01 * $v_pres_mod_temp)));
  (*2670*) Do (AddA v_jac 178 (#(-1.0718577474106858e+00) * ($v_j_temp * #4.9928106040377707e-01 + #4.9928106040377707e-01 * $v_pres_mod_temp)));
  (*2671*) Do (AddA v_jac 191 (#(-7.1857747410685777e-02) * ($v_j_temp * #4.9928106040377707e-01 + #4.9928106040377707e-01 * $v_pres_mod_temp)));
  (*2672*) Do (AddA v_jac 200 (#1.1437154948213717e+00 * ($v_j_temp * #4.9928106040377707e-01 + #4.9928106040377707e-01 * $v_pres_mod_temp)));
  (*2673*) Do (AddA v_jac 199 (#(-1.0718577474106858e+00) * ($v_j_temp * #4.9928106040377707e-01 + #4.9928106040377707e-01 * $v_pres_mod_temp)));
  (*2674*) Do (AddA v_jac 212 (#(-6.7040376938333812e-02) * ($v_j_temp * #4.6330052531852528e-01 + #4.6330052531852528e-01 * $v_pres_mod_temp + v_pres_mod.[6] * ($v_kf * v_conc.[1]))));
  (*2675*) Do (AddA v_jac 221 (#1.0670403769383339e+00 * ($v_j_temp * #4.6330052531852528e-01 + #4.6330052531852528e-01 * $v_pres_mod_temp + v_pres_mod.[6] * ($v_kf * v_conc.[1]))));
  (*2676*) Do (AddA v_jac 220 ((- ($v_j_temp * #4.6330052531852528e-01 + #4.6330052531852528e-01 * $v_pres_mod_temp + v_pres_mod.[6] * ($v_kf * v_conc.[1])))));
  (*2677*) Do (AddA v_jac 233 (#(-6.2828341257988030e-02) * ($v_j_temp * #4.2731999023327338e-01 + #1.4273199902332734e+00 * $v_pres_mod_temp + v_pres_mod.[6] * (- $v_kr))));
  (*2678*) Do (AddA v_jac 242 ($v_j_temp * #4.2731999023327338e-01 + #1.4273199902332734e+00 * $v_pres_mod_temp + v_pres_mod.[6] * (- $v_kr)));
  (*2679*) Do (AddA v_jac 241 (#(-9.3717165874201191e-01) * ($v_j_temp * #4.2731999023327338e-01 + #1.4273199902332734e+00 * $v_pres_mod_temp + v_pres_mod.[6] * (- $v_kr))));
  (*2680*) Do (AddA v_jac 254 (#(-3.5984491474595155e-02) * ($v_j_temp * #1.0994706834011048e-04 + #5.0010994706834011e-01 * $v_pres_mod_temp)));
  (*2681*) Do (AddA v_jac 263 (#5.7274298117841960e-01 * ($v_j_temp * #1.0994706834011048e-04 + #5.0010994706834011e-01 * $v_pres_mod_temp)));
  (*2682*) Do (AddA v_jac 262 (#(-5.3675848970382434e-01) * ($v_j_temp * #1.0994706834011048e-04 + #5.0010994706834011e-01 * $v_pres_mod_temp)));
  (*2683*) Do (AddA v_jac 275 (#(-2.2902626233248052e-02) * ($v_j_temp * #(-5.7102223643760053e-01) + #4.2897776356239947e-01 * $v_pres_mod_temp)));
  (*2684*) Do (AddA v_jac 284 (#3.6452699171548159e-01 * ($v_j_temp * #(-5.7102223643760053e-01) + #4.2897776356239947e-01 * $v_pres_mod_temp)));
  (*2685*) Do (AddA v_jac 283 (#(-3.4162436548223352e-01) * ($v_j_temp * #(-5.7102223643760053e-01) + #4.2897776356239947e-01 * $v_pres_mod_temp)));
  (*2686*) Do (AddA v_jac 296 (#(-3.4734585093427126e-02) * ($v_j_temp * #(-3.5870588016911675e-02) + #(-3.5870588016911675e-02) * $v_pres_mod_temp)));
  (*2687*) Do (AddA v_jac 305 (#5.5284899136201460e-01 * ($v_j_temp * #(-3.5870588016911675e-02) + #(-3.5870588016911675e-02) * $v_pres_mod_temp)));
  (*2688*) Do (AddA v_jac 304 (#(-5.1811440626858740e-01) * ($v_j_temp * #(-3.5870588016911675e-02) + #(-3.5870588016911675e-02) * $v_pres_mod_temp)));
  (*2689*) Do (AddA v_jac 317 (#(-3.3568593911733322e-02) * ($v_j_temp * #(-7.1851123102163683e-02) + #(-7.1851123102163683e-02) * $v_pres_mod_temp)));
  (*2690*) Do (AddA v_jac 326 (#5.3429062807647176e-01 * ($v_j_temp * #(-7.1851123102163683e-02) + #(-7.1851123102163683e-02) * $v_pres_mod_temp)));
  (*2691*) Do (AddA v_jac 325 (#(-5.0072203416473837e-01) * ($v_j_temp * #(-7.1851123102163683e-02) + #(-7.1851123102163683e-02) * $v_pres_mod_temp)));
  (*2692*) Do (AddA v_jac 338 (#(-3.2478341649959309e-02) * ($v_j_temp * #(-1.0783165818741525e-01) + #(-1.0783165818741525e-01) * $v_pres_mod_temp)));
  (*2693*) Do (AddA v_jac 347 (#5.1693775451743273e-01 * ($v_j_temp * #(-1.0783165818741525e-01) + #(-1.0783165818741525e-01) * $v_pres_mod_temp)));
  (*2694*) Do (AddA v_jac 346 (#(-4.8445941286747340e-01) * ($v_j_temp * #(-1.0783165818741525e-01) + #(-1.0783165818741525e-01) * $v_pres_mod_temp)));
  (*2695*) Do (AddA v_jac 359 (#(-3.5928873705342888e-02) * ($v_j_temp * #(-1.4378791924458678e-03) + #(-1.4378791924458678e-03) * $v_pres_mod_temp)));
  (*2696*) Do (AddA v_jac 368 (#5.7185774741068585e-01 * ($v_j_temp * #(-1.4378791924458678e-03) + #(-1.4378791924458678e-03) * $v_pres_mod_temp)));
  (*2697*) Do (AddA v_jac 367 (#(-5.3592887370534292e-01) * ($v_j_temp * #(-1.4378791924458678e-03) + #(-1.4378791924458678e-03) * $v_pres_mod_temp)));
  (*2698*) Do (AddA v_jac 380 (#(-3.4682761159877090e-02) * ($v_j_temp * #(-3.7418414277697654e-02) + #(-3.7418414277697654e-02) * $v_pres_mod_temp)));
  (*2699*) Do (AddA v_jac 389 (#5.5202414173981573e-01 * ($v_j_temp * #(-3.7418414277697654e-02) + #(-3.7418414277697654e-02) * $v_pres_mod_temp)));
  (*2700*) Do (AddA v_jac 388 (#(-5.1734138057993861e-01) * ($v_j_temp * #(-3.7418414277697654e-02) + #(-3.7418414277697654e-02) * $v_pres_mod_temp)));
  (*2701*) Do (AddA v_jac 401 (#(-3.3520188469166906e-02) * ($v_j_temp * #(-7.3398949362949439e-02) + #1.9266010506370506e+00 * $v_pres_mod_temp)));
  (*2702*) Do (AddA v_jac 410 (#5.3352018846916693e-01 * ($v_j_temp * #(-7.3398949362949439e-02) + #1.9266010506370506e+00 * $v_pres_mod_temp)));
  (*2703*) Do (AddA v_jac 409 (#(-5.0000000000000000e-01) * ($v_j_temp * #(-7.3398949362949439e-02) + #1.9266010506370506e+00 * $v_pres_mod_temp)));
  (*2704*) Do (AddA v_jac 422 (#(-2.5231300690898170e-02) * ($v_j_temp * #(-4.2602775520927771e-01) + #(-7.2602775520927776e-01) * $v_pres_mod_temp)));
  (*2705*) Do (AddA v_jac 431 (#4.0159106838890563e-01 * ($v_j_temp * #(-4.2602775520927771e-01) + #(-7.2602775520927776e-01) * $v_pres_mod_temp)));
  (*2706*) Do (AddA v_jac 430 (#(-3.7635976769800739e-01) * ($v_j_temp * #(-4.2602775520927771e-01) + #(-7.2602775520927776e-01) * $v_pres_mod_temp)))]);
([
  (*2709*) Do (Asn v_j_temp 0 (#1.0 / $v_T * ((v_fwd_rates.[31] - v_rev_rates.[31]) * (#1.6200000000000001e+00 + #5.4549000830733230e+03 / $v_T) + v_fwd_rates.[31] * #(-1.0) - v_rev_rates.[31] * (#(-1.0) + (- $v_T) * (v_dBdT.[0] + v_dBdT.[9] - v_dBdT.[1] - v_dBdT.[10]))) * $v_rho_inv));
  (*2710*) Do (AddA v_jac 1 ($v_j_temp * #2.0158800000000001e+00));
  (*2711*) Do (AddA v_jac 2 ((- $v_j_temp) * #1.0079400000000001e+00));
  (*2712*) Do (AddA v_jac 11 ((- $v_j_temp) * #1.6042760000000001e+01));
  (*2713*) Do (AddA v_jac 10 ($v_j_temp * #1.5034820000000000e+01))],
[
  (*2716*) If ($v_T) (#1000.0)
    [Asn v_Kc 0 (#9.0075157909999994e+00 + #(-1.6319546099999993e+00) * $v_logT + $v_T * (#1.1831225649647333e-02 + $v_T * (#(-1.0487998723000679e-05) + $v_T * (#5.1466948123082664e-09 + #(-1.0750827934536134e-12) * $v_T))) - #3.0005132700000104e+02 / $v_T)]
    [Asn v_Kc 0 (#(-1.5763732020999999e+01) + #3.0481454150000000e+00 * $v_logT + $v_T * (#(-3.1002243900078510e-03) + $v_T * (#5.4086189530730073e-07 + $v_T * (#(-6.7233924605403978e-11) + #3.7562663850901325e-15 * $v_T))) - #(-1.7988993199999823e+02) / $v_T)];
  (*2722*) Do (Asn v_Kc 0 ((Exp $v_Kc)));
  (*2723*) Do (Asn v_j_temp 0 ((- $v_mw_avg) * $v_rho_inv * (#2.0 * v_fwd_rates.[31] - #2.0 * v_rev_rates.[31])));
  (*2724*) Do (Asn v_kf 0 ((Exp (#1.3399995114002609e+01 + #1.62 * $v_logT - #5.4549000830733230e+03 / $v_T))));
  (*2725*) Do (Asn v_kr 0 ($v_kf / $v_Kc));
  (*2726*) Do (AddA v_jac 22 ($v_j_temp * #9.2803892982949643e-01 - $v_kr * v_conc.[9]));
  (*2727*) Do (AddA v_jac 23 (#(-5.0000000000000000e-01) * ($v_j_temp * #9.2803892982949643e-01 - $v_kr * v_conc.[9])));
  (*2728*) Do (AddA v_jac 32 (#(-7.9581919558703893e+00) * ($v_j_temp * #9.2803892982949643e-01 - $v_kr * v_conc.[9])));
  (*2729*) Do (AddA v_jac 31 (#7.4581919558703884e+00 * ($v_j_temp * #9.2803892982949643e-01 - $v_kr * v_conc.[9])));
  (*2730*) Do (AddA v_jac 43 (#2.0000000000000000e+00 * ($v_j_temp * #9.6401946491474821e-01 + $v_kf * v_conc.[10])));
  (*2731*) Do (AddA v_jac 44 ((- ($v_j_temp * #9.6401946491474821e-01 + $v_kf * v_conc.[10]))));
  (*2732*) Do (AddA v_jac 53 (#(-1.5916383911740779e+01) * ($v_j_temp * #9.6401946491474821e-01 + $v_kf * v_conc.[10])));
  (*2733*) Do (AddA v_jac 52 (#1.4916383911740777e+01 * ($v_j_temp * #9.6401946491474821e-01 + $v_kf * v_conc.[10])));
  (*2734*) Do (AddA v_jac 64 (#1.2599722489593360e-01 * ($v_j_temp * #4.2886781649405936e-01)));
  (*2735*) Do (AddA v_jac 65 (#(-6.2998612447966798e-02) * ($v_j_temp * #4.2886781649405936e-01)));
  (*2736*) Do (AddA v_jac 74 (#(-1.0027101016288111e+00) * ($v_j_temp * #4.2886781649405936e-01)));
  (*2737*) Do (AddA v_jac 73 (#9.3971148918084424e-01 * ($v_j_temp * #4.2886781649405936e-01)));
  (*2738*) Do (AddA v_jac 85 (#6.2998612447966798e-02 * ($v_j_temp * #(-1.4226436701188128e-01))));
  (*2739*) Do (AddA v_jac 86 (#(-3.1499306223983399e-02) * ($v_j_temp * #(-1.4226436701188128e-01))));
  (*2740*) Do (AddA v_jac 95 (#(-5.0135505081440557e-01) * ($v_j_temp * #(-1.4226436701188128e-01))));
  (*2741*) Do (AddA v_jac 94 (#4.6985574459042212e-01 * ($v_j_temp * #(-1.4226436701188128e-01))));
  (*2742*) Do (AddA v_jac 106 (#1.1852999940025896e-01 * ($v_j_temp * #3.9288728140880758e-01)));
  (*2743*) Do (AddA v_jac 107 (#(-5.9264999700129481e-02) * ($v_j_temp * #3.9288728140880758e-01)));
  (*2744*) Do (AddA v_jac 116 (#(-9.4328448775646290e-01) * ($v_j_temp * #3.9288728140880758e-01)));
  (*2745*) Do (AddA v_jac 115 (#8.8401948805633335e-01 * ($v_j_temp * #3.9288728140880758e-01)));
  (*2746*) Do (AddA v_jac 127 (#1.1189834407236524e-01 * ($v_j_temp * #3.5690674632355568e-01)));
  (*2747*) Do (AddA v_jac 128 (#(-5.5949172036182618e-02) * ($v_j_temp * #3.5690674632355568e-01)));
  (*2748*) Do (AddA v_jac 137 (#(-8.9050850167191409e-01) * ($v_j_temp * #3.5690674632355568e-01)));
  (*2749*) Do (AddA v_jac 136 (#8.3455932963573143e-01 * ($v_j_temp * #3.5690674632355568e-01)));
  (*2750*) Do (AddA v_jac 148 (#6.1074798662333819e-02 * ($v_j_temp * #(-1.7824490209713328e-01))));
  (*2751*) Do (AddA v_jac 149 (#(-3.0537399331166910e-02) * ($v_j_temp * #(-1.7824490209713328e-01))));
  (*2752*) Do (AddA v_jac 158 (#(-4.8604497142098857e-01) * ($v_j_temp * #(-1.7824490209713328e-01))));
  (*2753*) Do (AddA v_jac 157 (#4.5550757208982162e-01 * ($v_j_temp * #(-1.7824490209713328e-01))));
  (*2754*) Do (AddA v_jac 169 (#1.4371549482137155e-01 * ($v_j_temp * #4.9928106040377707e-01)));
  (*2755*) Do (AddA v_jac 170 (#(-7.1857747410685777e-02) * ($v_j_temp * #4.9928106040377707e-01)));
  (*2756*) Do (AddA v_jac 179 (#(-1.1437154948213717e+00) * ($v_j_temp * #4.9928106040377707e-01)));
  (*2757*) Do (AddA v_jac 178 (#1.0718577474106858e+00 * ($v_j_temp * #4.9928106040377707e-01)));
  (*2758*) Do (AddA v_jac 190 (#1.4371549482137155e-01 * ($v_j_temp * #4.9928106040377707e-01)));
  (*2759*) Do (AddA v_jac 191 (#(-7.1857747410685777e-02) * ($v_j_temp * #4.9928106040377707e-01)));
  (*2760*) Do (AddA v_jac 200 (#(-1.1437154948213717e+00) * ($v_j_temp * #4.9928106040377707e-01)));
  (*2761*) Do (AddA v_jac 199 (#1.0718577474106858e+00 * ($v_j_temp * #4.9928106040377707e-01)));
  (*2762*) Do (AddA v_jac 211 (#1.3408075387666762e-01 * ($v_j_temp * #4.6330052531852528e-01 - $v_kr * v_conc.[0])));
  (*2763*) Do (AddA v_jac 212 (#(-6.7040376938333812e-02) * ($v_j_temp * #4.6330052531852528e-01 - $v_kr * v_conc.[0])));
  (*2764*) Do (AddA v_jac 221 (#(-1.0670403769383339e+00) * ($v_j_temp * #4.6330052531852528e-01 - $v_kr * v_conc.[0])));
  (*2765*) Do (AddA v_jac 220 ($v_j_temp * #4.6330052531852528e-01 - $v_kr * v_conc.[0]));
  (*2766*) Do (AddA v_jac 232 (#1.2565668251597606e-01 * ($v_j_temp * #4.2731999023327338e-01 + $v_kf * v_conc.[1])));
  (*2767*) Do (AddA v_jac 233 (#(-6.2828341257988030e-02) * ($v_j_temp * #4.2731999023327338e-01 + $v_kf * v_conc.[1])));
  (*2768*) Do (AddA v_jac 242 ((- ($v_j_temp * #4.2731999023327338e-01 + $v_kf * v_conc.[1]))));
  (*2769*) Do (AddA v_jac 241 (#9.3717165874201191e-01 * ($v_j_temp * #4.2731999023327338e-01 + $v_kf * v_conc.[1])));
  (*2770*) Do (AddA v_jac 253 (#7.1968982949190310e-02 * ($v_j_temp * #1.0994706834011048e-04)));
  (*2771*) Do (AddA v_jac 254 (#(-3.5984491474595155e-02) * ($v_j_temp * #1.0994706834011048e-04)));
  (*2772*) Do (AddA v_jac 263 (#(-5.7274298117841960e-01) * ($v_j_temp * #1.0994706834011048e-04)));
  (*2773*) Do (AddA v_jac 262 (#5.3675848970382434e-01 * ($v_j_temp * #1.0994706834011048e-04)));
  (*2774*) Do (AddA v_jac 274 (#4.5805252466496103e-02 * ($v_j_temp * #(-5.7102223643760053e-01))));
  (*2775*) Do (AddA v_jac 275 (#(-2.2902626233248052e-02) * ($v_j_temp * #(-5.7102223643760053e-01))));
  (*2776*) Do (AddA v_jac 284 (#(-3.6452699171548159e-01) * ($v_j_temp * #(-5.7102223643760053e-01))));
  (*2777*) Do (AddA v_jac 283 (#3.4162436548223352e-01 * ($v_j_temp * #(-5.7102223643760053e-01))));
  (*2778*) Do (AddA v_jac 295 (#6.9469170186854251e-02 * ($v_j_temp * #(-3.5870588016911675e-02))));
  (*2779*) Do (AddA v_jac 296 (#(-3.4734585093427126e-02) * ($v_j_temp * #(-3.5870588016911675e-02))));
  (*2780*) Do (AddA v_jac 305 (#(-5.5284899136201460e-01) * ($v_j_temp * #(-3.5870588016911675e-02))));
  (*2781*) Do (AddA v_jac 304 (#5.1811440626858740e-01 * ($v_j_temp * #(-3.5870588016911675e-02))));
  (*2782*) Do (AddA v_jac 316 (#6.7137187823466643e-02 * ($v_j_temp * #(-7.1851123102163683e-02))));
  (*2783*) Do (AddA v_jac 317 (#(-3.3568593911733322e-02) * ($v_j_temp * #(-7.1851123102163683e-02))));
  (*2784*) Do (AddA v_jac 326 (#(-5.3429062807647176e-01) * ($v_j_temp * #(-7.1851123102163683e-02))));
  (*2785*) Do (AddA v_jac 325 (#5.0072203416473837e-01 * ($v_j_temp * #(-7.1851123102163683e-02))));
  (*2786*) Do (AddA v_jac 337 (#6.4956683299918619e-02 * ($v_j_temp * #(-1.0783165818741525e-01))));
  (*2787*) Do (AddA v_jac 338 (#(-3.2478341649959309e-02) * ($v_j_temp * #(-1.0783165818741525e-01))));
  (*2788*) Do (AddA v_jac 347 (#(-5.1693775451743273e-01) * ($v_j_temp * #(-1.0783165818741525e-01))));
  (*2789*) Do (AddA v_jac 346 (#4.8445941286747340e-01 * ($v_j_temp * #(-1.0783165818741525e-01))));
  (*2790*) Do (AddA v_jac 358 (#7.1857747410685777e-02 * ($v_j_temp * #(-1.4378791924458678e-03))));
  (*2791*) Do (AddA v_jac 359 (#(-3.5928873705342888e-02) * ($v_j_temp * #(-1.4378791924458678e-03))));
  (*2792*) Do (AddA v_jac 368 (#(-5.7185774741068585e-01) * ($v_j_temp * #(-1.4378791924458678e-03))));
  (*2793*) Do (AddA v_jac 367 (#5.3592887370534292e-01 * ($v_j_temp * #(-1.4378791924458678e-03))));
  (*2794*) Do (AddA v_jac 379 (#6.9365522319754180e-02 * ($v_j_temp * #(-3.7418414277697654e-02))));
  (*2795*) Do (AddA v_jac 380 (#(-3.4682761159877090e-02) * ($v_j_temp * #(-3.7418414277697654e-02))));
  (*2796*) Do (AddA v_jac 389 (#(-5.5202414173981573e-01) * ($v_j_temp * #(-3.7418414277697654e-02))));
  (*2797*) Do (AddA v_jac 388 (#5.1734138057993861e-01 * ($v_j_temp * #(-3.7418414277697654e-02))));
  (*2798*) Do (AddA v_jac 400 (#6.7040376938333812e-02 * ($v_j_temp * #(-7.3398949362949439e-02))));
  (*2799*) Do (AddA v_jac 401 (#(-3.3520188469166906e-02) * ($v_j_temp * #(-7.3398949362949439e-02))));
  (*2800*) Do (AddA v_jac 410 (#(-5.3352018846916693e-01) * ($v_j_temp * #(-7.3398949362949439e-02))));
  (*2801*) Do (AddA v_jac 409 (#5.0000000000000000e-01 * ($v_j_temp * #(-7.3398949362949439e-02))));
  (*2802*) Do (AddA v_jac 421 (#5.0462601381796340e-02 * ($v_j_temp * #(-4.2602775520927771e-01))));
  (*2803*) Do (AddA v_jac 422 (#(-2.5231300690898170e-02) * ($v_j_temp * #(-4.2602775520927771e-01))));
  (*2804*) Do (AddA v_jac 431 (#(-4.0159106838890563e-01) * ($v_j_temp * #(-4.2602775520927771e-01))));
  (*2805*) Do (AddA v_jac 430 (#3.7635976769800739e-01 * ($v_j_temp * #(-4.2602775520927771e-01))))]);
([
  (*2808*) Do (Asn v_Pr 0 ($v_conc_temp * (Exp (#2.0937192733155698e+01 - #3.05 * $v_logT - #8.4792496678768907e+02 / $v_T))));
  (*2809*) Do (Asn v_Fcent 0 (#2.1760000000000002e-01 * (Exp ($v_T / #(-2.7100000000000000e+02))) + #7.8239999999999998e-01 * (Exp ($v_T / #(-2.7550000000000000e+03))) + (Exp (#(-6.5700000000000000e+03) / $v_T))));
  (*2810*) Do (Asn v_A 0 ((Log10 (Fmax $v_Pr #1.0e-300)) - #0.67 * (Log10 (Fmax $v_Fcent #1.0e-300)) - #0.4));
  (*2811*) Do (Asn v_B 0 (#0.806 - #1.1762 * (Log10 (Fmax $v_Fcent #1.0e-300)) - #0.14 * (Log10 (Fmax $v_Pr #1.0e-300))));
  (*2812*) Do (Asn v_lnF_AB 0 (#2.0 * (Log (Fmax $v_Fcent #1.0e-300)) * $v_A / ($v_B * $v_B * $v_B * (#1.0 + $v_A * $v_A / ($v_B * $v_B)) * (#1.0 + $v_A * $v_A / ($v_B * $v_B)))));
  (*2813*) Do (Asn v_j_temp 0 ((v_pres_mod.[7] * ((#(-3.0500e+00) + #8.4792496678768907e+02 / $v_T - #1.0) / ($v_T * (#1.0 + $v_Pr)) + (#1.0 / ($v_Fcent * (#1.0 + $v_A * $v_A / ($v_B * $v_B))) - $v_lnF_AB * (#(-2.9097730287517870e-01) * $v_B + #5.1081716961460466e-01 * $v_A) / $v_Fcent) * (#(-8.0295202952029529e-04) * (Exp ($v_T / #(-2.7100000000000000e+02))) - #2.8399274047186931e-04 * (Exp ($v_T / #(-2.7550000000000000e+03))) + #6.5700000000000000e+03 / ($v_T * $v_T) * (Exp (#(-6.5700000000000000e+03) / $v_T))) - $v_lnF_AB * (#4.3429448190325176e-01 * $v_B + #6.0801227466455256e-02 * $v_A) * (#(-3.0499999999999998e+00) + #8.4792496678768907e+02 / $v_T - #1.0) / $v_T) * (v_fwd_rates.[32] - v_rev_rates.[32]) + v_pres_mod.[7] / $v_T * ((v_fwd_rates.[32] - v_rev_rates.[32]) * (#4.7999999999999998e-01 + #(-1.3083708686338230e+02) / $v_T) + v_fwd_rates.[32] * #(-1.0) - v_rev_rates.[32] * ((- $v_T) * (v_dBdT.[14] - v_dBdT.[1] - v_dBdT.[13])))) * $v_rho_inv));
  (*2814*) Do (AddA v_jac 2 ((- $v_j_temp) * #1.0079400000000001e+00));
  (*2815*) Do (AddA v_jac 14 ((- $v_j_temp) * #2.9018339999999998e+01));
  (*2816*) Do (AddA v_jac 15 ($v_j_temp * #3.0026280000000000e+01))],
[
  (*2819*) If ($v_T) (#1000.0)
    [Asn v_Kc 0 (#(-4.1741398699999976e-01) + #(-9.2746269000000048e-01) * $v_logT + $v_T * (#(-3.3322041853526664e-03) + $v_T * (#3.9236760336659856e-06 + $v_T * (#(-2.0511764001917343e-09) + #4.4197882754638664e-13 * $v_T))) - #(-4.3622181559999997e+04) / $v_T)]
    [Asn v_Kc 0 (#7.8161453040000008e+00 + #(-2.5114843100000002e+00) * $v_logT + $v_T * (#2.1215227915421489e-03 + $v_T * (#(-3.2302200269269910e-07) + $v_T * (#3.4770862227929353e-11 + #(-1.7517346699098684e-15) * $v_T))) - #(-4.3481410349999998e+04) / $v_T)];
  (*2825*) Do (Asn v_Kc 0 (#8.2057360967184814e-02 * (Exp $v_Kc)));
  (*2826*) Do (Asn v_pres_mod_temp 0 ((#1.0 / (#1.0 + $v_Pr) - (Log (Fmax $v_Fcent #1.0e-300)) * #2.0 * $v_A * ($v_B * #0.4342944819032518 + $v_A * #0.06080122746645526) / ($v_B * $v_B * $v_B * (#1.0 + $v_A * $v_A / ($v_B * $v_B)) * (#1.0 + $v_A * $v_A / ($v_B * $v_B)))) * (v_fwd_rates.[32] - v_rev_rates.[32])));
  (*2827*) Do (Asn v_j_temp 0 ((- $v_mw_avg) * $v_rho_inv * v_pres_mod.[7] * (#2.0 * v_fwd_rates.[32] - v_rev_rates.[32] + $v_pres_mod_temp)));
  (*2828*) Do (MulA v_pres_mod_temp 0 ((Exp (#2.0937192733155698e+01 - #3.05 * $v_logT - #8.4792496678768907e+02 / $v_T)) * (Pow $v_Fcent (#1.0 / (#1 + $v_A * $v_A / ($v_B * $v_B)))) / (#1.0 + $v_Pr)));
  (*2829*) Do (Asn v_kf 0 ((Exp (#2.0809443533187462e+01 + #0.48 * $v_logT - #(-1.3083708686338230e+02) / $v_T))));
  (*2830*) Do (Asn v_kr 0 ($v_kf / $v_Kc));
  (*2831*) Do (AddA v_jac 23 (#(-5.0000000000000000e-01) * ($v_j_temp * #9.2803892982949643e-01 + #1.9280389298294964e+00 * $v_pres_mod_temp)));
  (*2832*) Do (AddA v_jac 35 (#(-1.4394874694922315e+01) * ($v_j_temp * #9.2803892982949643e-01 + #1.9280389298294964e+00 * $v_pres_mod_temp)));
  (*2833*) Do (AddA v_jac 36 (#1.4894874694922317e+01 * ($v_j_temp * #9.2803892982949643e-01 + #1.9280389298294964e+00 * $v_pres_mod_temp)));
  (*2834*) Do (AddA v_jac 44 ((- ($v_j_temp * #9.6401946491474821e-01 + #9.6401946491474821e-01 * $v_pres_mod_temp + v_pres_mod.[7] * ($v_kf * v_conc.[13])))));
  (*2835*) Do (AddA v_jac 56 (#(-2.8789749389844630e+01) * ($v_j_temp * #9.6401946491474821e-01 + #9.6401946491474821e-01 * $v_pres_mod_temp + v_pres_mod.[7] * ($v_kf * v_conc.[13]))));
  (*2836*) Do (AddA v_jac 57 (#2.9789749389844633e+01 * ($v_j_temp * #9.6401946491474821e-01 + #9.6401946491474821e-01 * $v_pres_mod_temp + v_pres_mod.[7] * ($v_kf * v_conc.[13]))));
  (*2837*) Do (AddA v_jac 65 (#(-6.2998612447966798e-02) * ($v_j_temp * #4.2886781649405936e-01 + #4.2886781649405936e-01 * $v_pres_mod_temp)));
  (*2838*) Do (AddA v_jac 77 (#(-1.8137142642849107e+00) * ($v_j_temp * #4.2886781649405936e-01 + #4.2886781649405936e-01 * $v_pres_mod_temp)));
  (*2839*) Do (AddA v_jac 78 (#1.8767128767328776e+00 * ($v_j_temp * #4.2886781649405936e-01 + #4.2886781649405936e-01 * $v_pres_mod_temp)));
  (*2840*) Do (AddA v_jac 86 (#(-3.1499306223983399e-02) * ($v_j_temp * #(-1.4226436701188128e-01) + #(-1.4226436701188128e-01) * $v_pres_mod_temp)));
  (*2841*) Do (AddA v_jac 98 (#(-9.0685713214245534e-01) * ($v_j_temp * #(-1.4226436701188128e-01) + #(-1.4226436701188128e-01) * $v_pres_mod_temp)));
  (*2842*) Do (AddA v_jac 99 (#9.3835643836643878e-01 * ($v_j_temp * #(-1.4226436701188128e-01) + #(-1.4226436701188128e-01) * $v_pres_mod_temp)));
  (*2843*) Do (AddA v_jac 107 (#(-5.9264999700129481e-02) * ($v_j_temp * #3.9288728140880758e-01 + #3.9288728140880758e-01 * $v_pres_mod_temp)));
  (*2844*) Do (AddA v_jac 119 (#(-1.7062244889559448e+00) * ($v_j_temp * #3.9288728140880758e-01 + #3.9288728140880758e-01 * $v_pres_mod_temp)));
  (*2845*) Do (AddA v_jac 120 (#1.7654894886560744e+00 * ($v_j_temp * #3.9288728140880758e-01 + #3.9288728140880758e-01 * $v_pres_mod_temp)));
  (*2846*) Do (AddA v_jac 128 (#(-5.5949172036182618e-02) * ($v_j_temp * #3.5690674632355568e-01 + #5.3569067463235553e+00 * $v_pres_mod_temp)));
  (*2847*) Do (AddA v_jac 140 (#(-1.6107626414910008e+00) * ($v_j_temp * #3.5690674632355568e-01 + #5.3569067463235553e+00 * $v_pres_mod_temp)));
  (*2848*) Do (AddA v_jac 141 (#1.6667118135271835e+00 * ($v_j_temp * #3.5690674632355568e-01 + #5.3569067463235553e+00 * $v_pres_mod_temp)));
  (*2849*) Do (AddA v_jac 149 (#(-3.0537399331166910e-02) * ($v_j_temp * #(-1.7824490209713328e-01) + #(-1.7824490209713328e-01) * $v_pres_mod_temp)));
  (*2850*) Do (AddA v_jac 161 (#(-8.7916407376190431e-01) * ($v_j_temp * #(-1.7824490209713328e-01) + #(-1.7824490209713328e-01) * $v_pres_mod_temp)));
  (*2851*) Do (AddA v_jac 162 (#9.0970147309307126e-01 * ($v_j_temp * #(-1.7824490209713328e-01) + #(-1.7824490209713328e-01) * $v_pres_mod_temp)));
  (*2852*) Do (AddA v_jac 170 (#(-7.1857747410685777e-02) * ($v_j_temp * #4.9928106040377707e-01 + #4.9928106040377707e-01 * $v_pres_mod_temp)));
  (*2853*) Do (AddA v_jac 182 (#(-2.0687665396724007e+00) * ($v_j_temp * #4.9928106040377707e-01 + #4.9928106040377707e-01 * $v_pres_mod_temp)));
  (*2854*) Do (AddA v_jac 183 (#2.1406242870830865e+00 * ($v_j_temp * #4.9928106040377707e-01 + #4.9928106040377707e-01 * $v_pres_mod_temp)));
  (*2855*) Do (AddA v_jac 191 (#(-7.1857747410685777e-02) * ($v_j_temp * #4.9928106040377707e-01 + #4.9928106040377707e-01 * $v_pres_mod_temp)));
  (*2856*) Do (AddA v_jac 203 (#(-2.0687665396724007e+00) * ($v_j_temp * #4.9928106040377707e-01 + #4.9928106040377707e-01 * $v_pres_mod_temp)));
  (*2857*) Do (AddA v_jac 204 (#2.1406242870830865e+00 * ($v_j_temp * #4.9928106040377707e-01 + #4.9928106040377707e-01 * $v_pres_mod_temp)));
  (*2858*) Do (AddA v_jac 212 (#(-6.7040376938333812e-02) * ($v_j_temp * #4.6330052531852528e-01 + #4.6330052531852528e-01 * $v_pres_mod_temp)));
  (*2859*) Do (AddA v_jac 224 (#(-1.9300756510553501e+00) * ($v_j_temp * #4.6330052531852528e-01 + #4.6330052531852528e-01 * $v_pres_mod_temp)));
  (*2860*) Do (AddA v_jac 225 (#1.9971160279936839e+00 * ($v_j_temp * #4.6330052531852528e-01 + #4.6330052531852528e-01 * $v_pres_mod_temp)));
  (*2861*) Do (AddA v_jac 233 (#(-6.2828341257988030e-02) * ($v_j_temp * #4.2731999023327338e-01 + #1.4273199902332734e+00 * $v_pres_mod_temp)));
  (*2862*) Do (AddA v_jac 245 (#(-1.8088121993971109e+00) * ($v_j_temp * #4.2731999023327338e-01 + #1.4273199902332734e+00 * $v_pres_mod_temp)));
  (*2863*) Do (AddA v_jac 246 (#1.8716405406550991e+00 * ($v_j_temp * #4.2731999023327338e-01 + #1.4273199902332734e+00 * $v_pres_mod_temp)));
  (*2864*) Do (AddA v_jac 254 (#(-3.5984491474595155e-02) * ($v_j_temp * #1.0994706834011048e-04 + #5.0010994706834011e-01 * $v_pres_mod_temp)));
  (*2865*) Do (AddA v_jac 266 (#(-1.0359844914745953e+00) * ($v_j_temp * #1.0994706834011048e-04 + #5.0010994706834011e-01 * $v_pres_mod_temp)));
  (*2866*) Do (AddA v_jac 267 (#1.0719689829491903e+00 * ($v_j_temp * #1.0994706834011048e-04 + #5.0010994706834011e-01 * $v_pres_mod_temp)));
  (*2867*) Do (AddA v_jac 275 (#(-2.2902626233248052e-02) * ($v_j_temp * #(-5.7102223643760053e-01) + #4.2897776356239947e-01 * $v_pres_mod_temp)));
  (*2868*) Do (AddA v_jac 287 (#(-6.5936086962449270e-01) * ($v_j_temp * #(-5.7102223643760053e-01) + #4.2897776356239947e-01 * $v_pres_mod_temp)));
  (*2869*) Do (AddA v_jac 288 (#6.8226349585774082e-01 * ($v_j_temp * #(-5.7102223643760053e-01) + #4.2897776356239947e-01 * $v_pres_mod_temp)));
  (*2870*) Do (AddA v_jac 296 (#(-3.4734585093427126e-02) * ($v_j_temp * #(-3.5870588016911675e-02) + #(-3.5870588016911675e-02) * $v_pres_mod_temp + v_pres_mod.[7] * ($v_kf * v_conc.[1]))));
  (*2871*) Do (AddA v_jac 308 ((- ($v_j_temp * #(-3.5870588016911675e-02) + #(-3.5870588016911675e-02) * $v_pres_mod_temp + v_pres_mod.[7] * ($v_kf * v_conc.[1])))));
  (*2872*) Do (AddA v_jac 309 (#1.0347345850934271e+00 * ($v_j_temp * #(-3.5870588016911675e-02) + #(-3.5870588016911675e-02) * $v_pres_mod_temp + v_pres_mod.[7] * ($v_kf * v_conc.[1]))));
  (*2873*) Do (AddA v_jac 317 (#(-3.3568593911733322e-02) * ($v_j_temp * #(-7.1851123102163683e-02) + #(-7.1851123102163683e-02) * $v_pres_mod_temp + v_pres_mod.[7] * (- $v_kr))));
  (*2874*) Do (AddA v_jac 329 (#(-9.6643140608826661e-01) * ($v_j_temp * #(-7.1851123102163683e-02) + #(-7.1851123102163683e-02) * $v_pres_mod_temp + v_pres_mod.[7] * (- $v_kr))));
  (*2875*) Do (AddA v_jac 330 ($v_j_temp * #(-7.1851123102163683e-02) + #(-7.1851123102163683e-02) * $v_pres_mod_temp + v_pres_mod.[7] * (- $v_kr)));
  (*2876*) Do (AddA v_jac 338 (#(-3.2478341649959309e-02) * ($v_j_temp * #(-1.0783165818741525e-01) + #(-1.0783165818741525e-01) * $v_pres_mod_temp)));
  (*2877*) Do (AddA v_jac 350 (#(-9.3504331670008145e-01) * ($v_j_temp * #(-1.0783165818741525e-01) + #(-1.0783165818741525e-01) * $v_pres_mod_temp)));
  (*2878*) Do (AddA v_jac 351 (#9.6752165835004078e-01 * ($v_j_temp * #(-1.0783165818741525e-01) + #(-1.0783165818741525e-01) * $v_pres_mod_temp)));
  (*2879*) Do (AddA v_jac 359 (#(-3.5928873705342888e-02) * ($v_j_temp * #(-1.4378791924458678e-03) + #(-1.4378791924458678e-03) * $v_pres_mod_temp)));
  (*2880*) Do (AddA v_jac 371 (#(-1.0343832698362003e+00) * ($v_j_temp * #(-1.4378791924458678e-03) + #(-1.4378791924458678e-03) * $v_pres_mod_temp)));
  (*2881*) Do (AddA v_jac 372 (#1.0703121435415432e+00 * ($v_j_temp * #(-1.4378791924458678e-03) + #(-1.4378791924458678e-03) * $v_pres_mod_temp)));
  (*2882*) Do (AddA v_jac 380 (#(-3.4682761159877090e-02) * ($v_j_temp * #(-3.7418414277697654e-02) + #(-3.7418414277697654e-02) * $v_pres_mod_temp)));
  (*2883*) Do (AddA v_jac 392 (#(-9.9850800194069855e-01) * ($v_j_temp * #(-3.7418414277697654e-02) + #(-3.7418414277697654e-02) * $v_pres_mod_temp)));
  (*2884*) Do (AddA v_jac 393 (#1.0331907631005757e+00 * ($v_j_temp * #(-3.7418414277697654e-02) + #(-3.7418414277697654e-02) * $v_pres_mod_temp)));
  (*2885*) Do (AddA v_jac 401 (#(-3.3520188469166906e-02) * ($v_j_temp * #(-7.3398949362949439e-02) + #1.9266010506370506e+00 * $v_pres_mod_temp)));
  (*2886*) Do (AddA v_jac 413 (#(-9.6503782552767503e-01) * ($v_j_temp * #(-7.3398949362949439e-02) + #1.9266010506370506e+00 * $v_pres_mod_temp)));
  (*2887*) Do (AddA v_jac 414 (#9.9855801399684196e-01 * ($v_j_temp * #(-7.3398949362949439e-02) + #1.9266010506370506e+00 * $v_pres_mod_temp)));
  (*2888*) Do (AddA v_jac 422 (#(-2.5231300690898170e-02) * ($v_j_temp * #(-4.2602775520927771e-01) + #(-7.2602775520927776e-01) * $v_pres_mod_temp)));
  (*2889*) Do (AddA v_jac 434 (#(-7.2640282367077191e-01) * ($v_j_temp * #(-4.2602775520927771e-01) + #(-7.2602775520927776e-01) * $v_pres_mod_temp)));
  (*2890*) Do (AddA v_jac 435 (#7.5163412436167021e-01 * ($v_j_temp * #(-4.2602775520927771e-01) + #(-7.2602775520927776e-01) * $v_pres_mod_temp)))]);
([
  (*2893*) Do (Asn v_j_temp 0 (#1.0 / $v_T * (v_fwd_rates.[33] * #(-1.0) - v_rev_rates.[33] * (#(-1.0) + (- $v_T) * (v_dBdT.[0] + v_dBdT.[11] - v_dBdT.[1] - v_dBdT.[13]))) * $v_rho_inv));
  (*2894*) Do (AddA v_jac 1 ($v_j_temp * #2.0158800000000001e+00));
  (*2895*) Do (AddA v_jac 2 ((- $v_j_temp) * #1.0079400000000001e+00));
  (*2896*) Do (AddA v_jac 12 ($v_j_temp * #2.8010399999999997e+01));
  (*2897*) Do (AddA v_jac 14 ((- $v_j_temp) * #2.9018339999999998e+01))],
[
  (*2900*) If ($v_T) (#1000.0)
    [Asn v_Kc 0 (#2.0410511910000002e+00 + #(-7.9732125000000043e-01) * $v_logT + $v_T * (#5.3070461946473331e-03 + $v_T * (#(-5.3735468780006796e-06) + $v_T * (#2.8648853818082653e-09 + #(-6.3091153790361341e-13) * $v_T))) - #(-4.4575246033000003e+04) / $v_T)]
    [Asn v_Kc 0 (#(-5.5182880159999996e+00) + #7.8029041999999960e-01 * $v_logT + $v_T * (#(-1.4719151400078511e-03) + $v_T * (#3.3084785347396752e-07 + $v_T * (#(-4.4889596605403977e-11) + #2.6505818300901323e-15 * $v_T))) - #(-4.4587609371999992e+04) / $v_T)];
  (*2906*) Do (Asn v_Kc 0 ((Exp $v_Kc)));
  (*2907*) Do (Asn v_j_temp 0 ((- $v_mw_avg) * $v_rho_inv * (#2.0 * v_fwd_rates.[33] - #2.0 * v_rev_rates.[33])));
  (*2908*) Do (Asn v_kf 0 (#73400000000.0));
  (*2909*) Do (Asn v_kr 0 ($v_kf / $v_Kc));
  (*2910*) Do (AddA v_jac 22 ($v_j_temp * #9.2803892982949643e-01 - $v_kr * v_conc.[11]));
  (*2911*) Do (AddA v_jac 23 (#(-5.0000000000000000e-01) * ($v_j_temp * #9.2803892982949643e-01 - $v_kr * v_conc.[11])));
  (*2912*) Do (AddA v_jac 33 (#1.3894874694922315e+01 * ($v_j_temp * #9.2803892982949643e-01 - $v_kr * v_conc.[11])));
  (*2913*) Do (AddA v_jac 35 (#(-1.4394874694922315e+01) * ($v_j_temp * #9.2803892982949643e-01 - $v_kr * v_conc.[11])));
  (*2914*) Do (AddA v_jac 43 (#2.0000000000000000e+00 * ($v_j_temp * #9.6401946491474821e-01 + $v_kf * v_conc.[13])));
  (*2915*) Do (AddA v_jac 44 ((- ($v_j_temp * #9.6401946491474821e-01 + $v_kf * v_conc.[13]))));
  (*2916*) Do (AddA v_jac 54 (#2.7789749389844630e+01 * ($v_j_temp * #9.6401946491474821e-01 + $v_kf * v_conc.[13])));
  (*2917*) Do (AddA v_jac 56 (#(-2.8789749389844630e+01) * ($v_j_temp * #9.6401946491474821e-01 + $v_kf * v_conc.[13])));
  (*2918*) Do (AddA v_jac 64 (#1.2599722489593360e-01 * ($v_j_temp * #4.2886781649405936e-01)));
  (*2919*) Do (AddA v_jac 65 (#(-6.2998612447966798e-02) * ($v_j_temp * #4.2886781649405936e-01)));
  (*2920*) Do (AddA v_jac 75 (#1.7507156518369438e+00 * ($v_j_temp * #4.2886781649405936e-01)));
  (*2921*) Do (AddA v_jac 77 (#(-1.8137142642849107e+00) * ($v_j_temp * #4.2886781649405936e-01)));
  (*2922*) Do (AddA v_jac 85 (#6.2998612447966798e-02 * ($v_j_temp * #(-1.4226436701188128e-01))));
  (*2923*) Do (AddA v_jac 86 (#(-3.1499306223983399e-02) * ($v_j_temp * #(-1.4226436701188128e-01))));
  (*2924*) Do (AddA v_jac 96 (#8.7535782591847189e-01 * ($v_j_temp * #(-1.4226436701188128e-01))));
  (*2925*) Do (AddA v_jac 98 (#(-9.0685713214245534e-01) * ($v_j_temp * #(-1.4226436701188128e-01))));
  (*2926*) Do (AddA v_jac 106 (#1.1852999940025896e-01 * ($v_j_temp * #3.9288728140880758e-01)));
  (*2927*) Do (AddA v_jac 107 (#(-5.9264999700129481e-02) * ($v_j_temp * #3.9288728140880758e-01)));
  (*2928*) Do (AddA v_jac 117 (#1.6469594892558153e+00 * ($v_j_temp * #3.9288728140880758e-01)));
  (*2929*) Do (AddA v_jac 119 (#(-1.7062244889559448e+00) * ($v_j_temp * #3.9288728140880758e-01)));
  (*2930*) Do (AddA v_jac 127 (#1.1189834407236524e-01 * ($v_j_temp * #3.5690674632355568e-01)));
  (*2931*) Do (AddA v_jac 128 (#(-5.5949172036182618e-02) * ($v_j_temp * #3.5690674632355568e-01)));
  (*2932*) Do (AddA v_jac 138 (#1.5548134694548181e+00 * ($v_j_temp * #3.5690674632355568e-01)));
  (*2933*) Do (AddA v_jac 140 (#(-1.6107626414910008e+00) * ($v_j_temp * #3.5690674632355568e-01)));
  (*2934*) Do (AddA v_jac 148 (#6.1074798662333819e-02 * ($v_j_temp * #(-1.7824490209713328e-01))));
  (*2935*) Do (AddA v_jac 149 (#(-3.0537399331166910e-02) * ($v_j_temp * #(-1.7824490209713328e-01))));
  (*2936*) Do (AddA v_jac 159 (#8.4862667443073736e-01 * ($v_j_temp * #(-1.7824490209713328e-01))));
  (*2937*) Do (AddA v_jac 161 (#(-8.7916407376190431e-01) * ($v_j_temp * #(-1.7824490209713328e-01))));
  (*2938*) Do (AddA v_jac 169 (#1.4371549482137155e-01 * ($v_j_temp * #4.9928106040377707e-01)));
  (*2939*) Do (AddA v_jac 170 (#(-7.1857747410685777e-02) * ($v_j_temp * #4.9928106040377707e-01)));
  (*2940*) Do (AddA v_jac 180 (#1.9969087922617146e+00 * ($v_j_temp * #4.9928106040377707e-01)));
  (*2941*) Do (AddA v_jac 182 (#(-2.0687665396724007e+00) * ($v_j_temp * #4.9928106040377707e-01)));
  (*2942*) Do (AddA v_jac 190 (#1.4371549482137155e-01 * ($v_j_temp * #4.9928106040377707e-01)));
  (*2943*) Do (AddA v_jac 191 (#(-7.1857747410685777e-02) * ($v_j_temp * #4.9928106040377707e-01)));
  (*2944*) Do (AddA v_jac 201 (#1.9969087922617146e+00 * ($v_j_temp * #4.9928106040377707e-01)));
  (*2945*) Do (AddA v_jac 203 (#(-2.0687665396724007e+00) * ($v_j_temp * #4.9928106040377707e-01)));
  (*2946*) Do (AddA v_jac 211 (#1.3408075387666762e-01 * ($v_j_temp * #4.6330052531852528e-01)));
  (*2947*) Do (AddA v_jac 212 (#(-6.7040376938333812e-02) * ($v_j_temp * #4.6330052531852528e-01)));
  (*2948*) Do (AddA v_jac 222 (#1.8630352741170162e+00 * ($v_j_temp * #4.6330052531852528e-01)));
  (*2949*) Do (AddA v_jac 224 (#(-1.9300756510553501e+00) * ($v_j_temp * #4.6330052531852528e-01)));
  (*2950*) Do (AddA v_jac 232 (#1.2565668251597606e-01 * ($v_j_temp * #4.2731999023327338e-01)));
  (*2951*) Do (AddA v_jac 233 (#(-6.2828341257988030e-02) * ($v_j_temp * #4.2731999023327338e-01)));
  (*2952*) Do (AddA v_jac 243 (#1.7459838581391229e+00 * ($v_j_temp * #4.2731999023327338e-01)));
  (*2953*) Do (AddA v_jac 245 (#(-1.8088121993971109e+00) * ($v_j_temp * #4.2731999023327338e-01)));
  (*2954*) Do (AddA v_jac 253 (#7.1968982949190310e-02 * ($v_j_temp * #1.0994706834011048e-04 - $v_kr * v_conc.[0])));
  (*2955*) Do (AddA v_jac 254 (#(-3.5984491474595155e-02) * ($v_j_temp * #1.0994706834011048e-04 - $v_kr * v_conc.[0])));
  (*2956*) Do (AddA v_jac 264 ($v_j_temp * #1.0994706834011048e-04 - $v_kr * v_conc.[0]));
  (*2957*) Do (AddA v_jac 266 (#(-1.0359844914745953e+00) * ($v_j_temp * #1.0994706834011048e-04 - $v_kr * v_conc.[0])));
  (*2958*) Do (AddA v_jac 274 (#4.5805252466496103e-02 * ($v_j_temp * #(-5.7102223643760053e-01))));
  (*2959*) Do (AddA v_jac 275 (#(-2.2902626233248052e-02) * ($v_j_temp * #(-5.7102223643760053e-01))));
  (*2960*) Do (AddA v_jac 285 (#6.3645824339124468e-01 * ($v_j_temp * #(-5.7102223643760053e-01))));
  (*2961*) Do (AddA v_jac 287 (#(-6.5936086962449270e-01) * ($v_j_temp * #(-5.7102223643760053e-01))));
  (*2962*) Do (AddA v_jac 295 (#6.9469170186854251e-02 * ($v_j_temp * #(-3.5870588016911675e-02) + $v_kf * v_conc.[1])));
  (*2963*) Do (AddA v_jac 296 (#(-3.4734585093427126e-02) * ($v_j_temp * #(-3.5870588016911675e-02) + $v_kf * v_conc.[1])));
  (*2964*) Do (AddA v_jac 306 (#9.6526541490657281e-01 * ($v_j_temp * #(-3.5870588016911675e-02) + $v_kf * v_conc.[1])));
  (*2965*) Do (AddA v_jac 308 ((- ($v_j_temp * #(-3.5870588016911675e-02) + $v_kf * v_conc.[1]))));
  (*2966*) Do (AddA v_jac 316 (#6.7137187823466643e-02 * ($v_j_temp * #(-7.1851123102163683e-02))));
  (*2967*) Do (AddA v_jac 317 (#(-3.3568593911733322e-02) * ($v_j_temp * #(-7.1851123102163683e-02))));
  (*2968*) Do (AddA v_jac 327 (#9.3286281217653322e-01 * ($v_j_temp * #(-7.1851123102163683e-02))));
  (*2969*) Do (AddA v_jac 329 (#(-9.6643140608826661e-01) * ($v_j_temp * #(-7.1851123102163683e-02))));
  (*2970*) Do (AddA v_jac 337 (#6.4956683299918619e-02 * ($v_j_temp * #(-1.0783165818741525e-01))));
  (*2971*) Do (AddA v_jac 338 (#(-3.2478341649959309e-02) * ($v_j_temp * #(-1.0783165818741525e-01))));
  (*2972*) Do (AddA v_jac 348 (#9.0256497505012201e-01 * ($v_j_temp * #(-1.0783165818741525e-01))));
  (*2973*) Do (AddA v_jac 350 (#(-9.3504331670008145e-01) * ($v_j_temp * #(-1.0783165818741525e-01))));
  (*2974*) Do (AddA v_jac 358 (#7.1857747410685777e-02 * ($v_j_temp * #(-1.4378791924458678e-03))));
  (*2975*) Do (AddA v_jac 359 (#(-3.5928873705342888e-02) * ($v_j_temp * #(-1.4378791924458678e-03))));
  (*2976*) Do (AddA v_jac 369 (#9.9845439613085729e-01 * ($v_j_temp * #(-1.4378791924458678e-03))));
  (*2977*) Do (AddA v_jac 371 (#(-1.0343832698362003e+00) * ($v_j_temp * #(-1.4378791924458678e-03))));
  (*2978*) Do (AddA v_jac 379 (#6.9365522319754180e-02 * ($v_j_temp * #(-3.7418414277697654e-02))));
  (*2979*) Do (AddA v_jac 380 (#(-3.4682761159877090e-02) * ($v_j_temp * #(-3.7418414277697654e-02))));
  (*2980*) Do (AddA v_jac 390 (#9.6382524078082144e-01 * ($v_j_temp * #(-3.7418414277697654e-02))));
  (*2981*) Do (AddA v_jac 392 (#(-9.9850800194069855e-01) * ($v_j_temp * #(-3.7418414277697654e-02))));
  (*2982*) Do (AddA v_jac 400 (#6.7040376938333812e-02 * ($v_j_temp * #(-7.3398949362949439e-02))));
  (*2983*) Do (AddA v_jac 401 (#(-3.3520188469166906e-02) * ($v_j_temp * #(-7.3398949362949439e-02))));
  (*2984*) Do (AddA v_jac 411 (#9.3151763705850810e-01 * ($v_j_temp * #(-7.3398949362949439e-02))));
  (*2985*) Do (AddA v_jac 413 (#(-9.6503782552767503e-01) * ($v_j_temp * #(-7.3398949362949439e-02))));
  (*2986*) Do (AddA v_jac 421 (#5.0462601381796340e-02 * ($v_j_temp * #(-4.2602775520927771e-01))));
  (*2987*) Do (AddA v_jac 422 (#(-2.5231300690898170e-02) * ($v_j_temp * #(-4.2602775520927771e-01))));
  (*2988*) Do (AddA v_jac 432 (#7.0117152297987373e-01 * ($v_j_temp * #(-4.2602775520927771e-01))));
  (*2989*) Do (AddA v_jac 434 (#(-7.2640282367077191e-01) * ($v_j_temp * #(-4.2602775520927771e-01))))]);
([
  (*2992*) Do (AddA v_conc_temp 0 (#0.3 * v_conc.[19]));
  (*2993*) Do (Asn v_Pr 0 ($v_conc_temp * (Exp (#3.5943419894698771e+01 - #5.254 * $v_logT - #1.4895299119831213e+03 / $v_T))));
  (*2994*) Do (Asn v_Fcent 0 (#2.4199999999999999e-01 * (Exp ($v_T / #(-9.4000000000000000e+01))) + #7.5800000000000001e-01 * (Exp ($v_T / #(-1.5550000000000000e+03))) + (Exp (#(-4.2000000000000000e+03) / $v_T))));
  (*2995*) Do (Asn v_A 0 ((Log10 (Fmax $v_Pr #1.0e-300)) - #0.67 * (Log10 (Fmax $v_Fcent #1.0e-300)) - #0.4));
  (*2996*) Do (Asn v_B 0 (#0.806 - #1.1762 * (Log10 (Fmax $v_Fcent #1.0e-300)) - #0.14 * (Log10 (Fmax $v_Pr #1.0e-300))));
  (*2997*) Do (Asn v_lnF_AB 0 (#2.0 * (Log (Fmax $v_Fcent #1.0e-300)) * $v_A / ($v_B * $v_B * $v_B * (#1.0 + $v_A * $v_A / ($v_B * $v_B)) * (#1.0 + $v_A * $v_A / ($v_B * $v_B)))));
  (*2998*) Do (Asn v_j_temp 0 ((v_pres_mod.[8] * ((#(-5.2540e+00) + #1.4895299119831213e+03 / $v_T - #1.0) / ($v_T * (#1.0 + $v_Pr)) + (#1.0 / ($v_Fcent * (#1.0 + $v_A * $v_A / ($v_B * $v_B))) - $v_lnF_AB * (#(-2.9097730287517870e-01) * $v_B + #5.1081716961460466e-01 * $v_A) / $v_Fcent) * (#(-2.5744680851063828e-03) * (Exp ($v_T / #(-9.4000000000000000e+01))) - #4.8745980707395501e-04 * (Exp ($v_T / #(-1.5550000000000000e+03))) + #4.2000000000000000e+03 / ($v_T * $v_T) * (Exp (#(-4.2000000000000000e+03) / $v_T))) - $v_lnF_AB * (#4.3429448190325176e-01 * $v_B + #6.0801227466455256e-02 * $v_A) * (#(-5.2539999999999996e+00) + #1.4895299119831213e+03 / $v_T - #1.0) / $v_T) * (v_fwd_rates.[34] - v_rev_rates.[34]) + v_pres_mod.[8] / $v_T * ((v_fwd_rates.[34] - v_rev_rates.[34]) * (#4.5400000000000001e-01 + #1.3083708686338230e+03 / $v_T) + v_fwd_rates.[34] * #(-1.0) - v_rev_rates.[34] * ((- $v_T) * (v_dBdT.[15] - v_dBdT.[14] - v_dBdT.[1])))) * $v_rho_inv));
  (*2999*) Do (AddA v_jac 2 ((- $v_j_temp) * #1.0079400000000001e+00));
  (*3000*) Do (AddA v_jac 15 ((- $v_j_temp) * #3.0026280000000000e+01));
  (*3001*) Do (Asn v_jac 16 ($v_j_temp * #3.1034219999999998e+01))],
[
  (*3004*) If ($v_T) (#1000.0)
    [Asn v_Kc 0 (#1.8183566103000000e+01 + #(-4.1875191500000000e+00) * $v_logT + $v_T * (#8.5624643446473338e-03 + $v_T * (#(-5.3305881330006796e-06) + $v_T * (#2.5459075081415984e-09 + #(-5.5508275995361342e-13) * $v_T))) - #(-1.0186102099999998e+04) / $v_T)]
    [Asn v_Kc 0 (#(-9.7901739960000000e+00) + #5.1010891000000003e-01 * $v_logT + $v_T * (#(-6.6425189845785177e-04) + $v_T * (#2.9436735230730084e-07 + $v_T * (#(-5.0997417938737298e-11) + #3.3629701750901327e-15 * $v_T))) - #(-1.1349995079999999e+04) / $v_T)];
  (*3010*) Do (Asn v_Kc 0 (#8.2057360967184814e-02 * (Exp $v_Kc)));
  (*3011*) Do (Asn v_pres_mod_temp 0 ((#1.0 / (#1.0 + $v_Pr) - (Log (Fmax $v_Fcent #1.0e-300)) * #2.0 * $v_A * ($v_B * #0.4342944819032518 + $v_A * #0.06080122746645526) / ($v_B * $v_B * $v_B * (#1.0 + $v_A * $v_A / ($v_B * $v_B)) * (#1.0 + $v_A * $v_A / ($v_B * $v_B)))) * (v_fwd_rates.[34] - v_rev_rates.[34])));
  (*3012*) Do (Asn v_j_temp 0 ((- $v_mw_avg) * $v_rho_inv * v_pres_mod.[8] * (#2.0 * v_fwd_rates.[34] - v_rev_rates.[34] + $v_pres_mod_temp)));
  (*3013*) Do (MulA v_pres_mod_temp 0 ((Exp (#3.5943419894698771e+01 - #5.254 * $v_logT - #1.4895299119831213e+03 / $v_T)) * (Pow $v_Fcent (#1.0 / (#1 + $v_A * $v_A / ($v_B * $v_B)))) / (#1.0 + $v_Pr)));
  (*3014*) Do (Asn v_kf 0 ((Exp (#2.0107079697522593e+01 + #0.454 * $v_logT - #1.3083708686338230e+03 / $v_T))));
  (*3015*) Do (Asn v_kr 0 ($v_kf / $v_Kc));
  (*3016*) Do (AddA v_jac 23 (#(-5.0000000000000000e-01) * ($v_j_temp * #9.2803892982949643e-01 + #1.9280389298294964e+00 * $v_pres_mod_temp)));
  (*3017*) Do (AddA v_jac 36 (#(-1.4894874694922317e+01) * ($v_j_temp * #9.2803892982949643e-01 + #1.9280389298294964e+00 * $v_pres_mod_temp)));
  (*3018*) Do (Asn v_jac 37 (#1.5394874694922315e+01 * ($v_j_temp * #9.2803892982949643e-01 + #1.9280389298294964e+00 * $v_pres_mod_temp)));
  (*3019*) Do (AddA v_jac 44 ((- ($v_j_temp * #9.6401946491474821e-01 + #9.6401946491474821e-01 * $v_pres_mod_temp + v_pres_mod.[8] * ($v_kf * v_conc.[14])))));
  (*3020*) Do (AddA v_jac 57 (#(-2.9789749389844633e+01) * ($v_j_temp * #9.6401946491474821e-01 + #9.6401946491474821e-01 * $v_pres_mod_temp + v_pres_mod.[8] * ($v_kf * v_conc.[14]))));
  (*3021*) Do (Asn v_jac 58 (#3.0789749389844630e+01 * ($v_j_temp * #9.6401946491474821e-01 + #9.6401946491474821e-01 * $v_pres_mod_temp + v_pres_mod.[8] * ($v_kf * v_conc.[14]))));
  (*3022*) Do (AddA v_jac 65 (#(-6.2998612447966798e-02) * ($v_j_temp * #4.2886781649405936e-01 + #4.2886781649405936e-01 * $v_pres_mod_temp)));
  (*3023*) Do (AddA v_jac 78 (#(-1.8767128767328776e+00) * ($v_j_temp * #4.2886781649405936e-01 + #4.2886781649405936e-01 * $v_pres_mod_temp)));
  (*3024*) Do (Asn v_jac 79 (#1.9397114891808442e+00 * ($v_j_temp * #4.2886781649405936e-01 + #4.2886781649405936e-01 * $v_pres_mod_temp)));
  (*3025*) Do (AddA v_jac 86 (#(-3.1499306223983399e-02) * ($v_j_temp * #(-1.4226436701188128e-01) + #(-1.4226436701188128e-01) * $v_pres_mod_temp)));
  (*3026*) Do (AddA v_jac 99 (#(-9.3835643836643878e-01) * ($v_j_temp * #(-1.4226436701188128e-01) + #(-1.4226436701188128e-01) * $v_pres_mod_temp)));
  (*3027*) Do (Asn v_jac 100 (#9.6985574459042212e-01 * ($v_j_temp * #(-1.4226436701188128e-01) + #(-1.4226436701188128e-01) * $v_pres_mod_temp)));
  (*3028*) Do (AddA v_jac 107 (#(-5.9264999700129481e-02) * ($v_j_temp * #3.9288728140880758e-01 + #3.9288728140880758e-01 * $v_pres_mod_temp)));
  (*3029*) Do (AddA v_jac 120 (#(-1.7654894886560744e+00) * ($v_j_temp * #3.9288728140880758e-01 + #3.9288728140880758e-01 * $v_pres_mod_temp)));
  (*3030*) Do (Asn v_jac 121 (#1.8247544883562039e+00 * ($v_j_temp * #3.9288728140880758e-01 + #3.9288728140880758e-01 * $v_pres_mod_temp)));
  (*3031*) Do (AddA v_jac 128 (#(-5.5949172036182618e-02) * ($v_j_temp * #3.5690674632355568e-01 + #5.3569067463235553e+00 * $v_pres_mod_temp)));
  (*3032*) Do (AddA v_jac 141 (#(-1.6667118135271835e+00) * ($v_j_temp * #3.5690674632355568e-01 + #5.3569067463235553e+00 * $v_pres_mod_temp)));
  (*3033*) Do (Asn v_jac 142 (#1.7226609855633661e+00 * ($v_j_temp * #3.5690674632355568e-01 + #5.3569067463235553e+00 * $v_pres_mod_temp)));
  (*3034*) Do (AddA v_jac 149 (#(-3.0537399331166910e-02) * ($v_j_temp * #(-1.7824490209713328e-01) + #(-1.7824490209713328e-01) * $v_pres_mod_temp)));
  (*3035*) Do (AddA v_jac 162 (#(-9.0970147309307126e-01) * ($v_j_temp * #(-1.7824490209713328e-01) + #(-1.7824490209713328e-01) * $v_pres_mod_temp)));
  (*3036*) Do (Asn v_jac 163 (#9.4023887242423809e-01 * ($v_j_temp * #(-1.7824490209713328e-01) + #(-1.7824490209713328e-01) * $v_pres_mod_temp)));
  (*3037*) Do (AddA v_jac 170 (#(-7.1857747410685777e-02) * ($v_j_temp * #4.9928106040377707e-01 + #4.9928106040377707e-01 * $v_pres_mod_temp)));
  (*3038*) Do (AddA v_jac 183 (#(-2.1406242870830865e+00) * ($v_j_temp * #4.9928106040377707e-01 + #4.9928106040377707e-01 * $v_pres_mod_temp)));
  (*3039*) Do (Asn v_jac 184 (#2.2124820344937719e+00 * ($v_j_temp * #4.9928106040377707e-01 + #4.9928106040377707e-01 * $v_pres_mod_temp)));
  (*3040*) Do (AddA v_jac 191 (#(-7.1857747410685777e-02) * ($v_j_temp * #4.9928106040377707e-01 + #4.9928106040377707e-01 * $v_pres_mod_temp)));
  (*3041*) Do (AddA v_jac 204 (#(-2.1406242870830865e+00) * ($v_j_temp * #4.9928106040377707e-01 + #4.9928106040377707e-01 * $v_pres_mod_temp)));
  (*3042*) Do (Asn v_jac 205 (#2.2124820344937719e+00 * ($v_j_temp * #4.9928106040377707e-01 + #4.9928106040377707e-01 * $v_pres_mod_temp)));
  (*3043*) Do (AddA v_jac 212 (#(-6.7040376938333812e-02) * ($v_j_temp * #4.6330052531852528e-01 + #4.6330052531852528e-01 * $v_pres_mod_temp)));
  (*3044*) Do (AddA v_jac 225 (#(-1.9971160279936839e+00) * ($v_j_temp * #4.6330052531852528e-01 + #4.6330052531852528e-01 * $v_pres_mod_temp)));
  (*3045*) Do (Asn v_jac 226 (#2.0641564049320178e+00 * ($v_j_temp * #4.6330052531852528e-01 + #4.6330052531852528e-01 * $v_pres_mod_temp)));
  (*3046*) Do (AddA v_jac 233 (#(-6.2828341257988030e-02) * ($v_j_temp * #4.2731999023327338e-01 + #1.4273199902332734e+00 * $v_pres_mod_temp)));
  (*3047*) Do (AddA v_jac 246 (#(-1.8716405406550991e+00) * ($v_j_temp * #4.2731999023327338e-01 + #1.4273199902332734e+00 * $v_pres_mod_temp)));
  (*3048*) Do (Asn v_jac 247 (#1.9344688819130871e+00 * ($v_j_temp * #4.2731999023327338e-01 + #1.4273199902332734e+00 * $v_pres_mod_temp)));
  (*3049*) Do (AddA v_jac 254 (#(-3.5984491474595155e-02) * ($v_j_temp * #1.0994706834011048e-04 + #5.0010994706834011e-01 * $v_pres_mod_temp)));
  (*3050*) Do (AddA v_jac 267 (#(-1.0719689829491903e+00) * ($v_j_temp * #1.0994706834011048e-04 + #5.0010994706834011e-01 * $v_pres_mod_temp)));
  (*3051*) Do (Asn v_jac 268 (#1.1079534744237856e+00 * ($v_j_temp * #1.0994706834011048e-04 + #5.0010994706834011e-01 * $v_pres_mod_temp)));
  (*3052*) Do (AddA v_jac 275 (#(-2.2902626233248052e-02) * ($v_j_temp * #(-5.7102223643760053e-01) + #4.2897776356239947e-01 * $v_pres_mod_temp)));
  (*3053*) Do (AddA v_jac 288 (#(-6.8226349585774082e-01) * ($v_j_temp * #(-5.7102223643760053e-01) + #4.2897776356239947e-01 * $v_pres_mod_temp)));
  (*3054*) Do (Asn v_jac 289 (#7.0516612209098883e-01 * ($v_j_temp * #(-5.7102223643760053e-01) + #4.2897776356239947e-01 * $v_pres_mod_temp)));
  (*3055*) Do (AddA v_jac 296 (#(-3.4734585093427126e-02) * ($v_j_temp * #(-3.5870588016911675e-02) + #(-3.5870588016911675e-02) * $v_pres_mod_temp)));
  (*3056*) Do (AddA v_jac 309 (#(-1.0347345850934271e+00) * ($v_j_temp * #(-3.5870588016911675e-02) + #(-3.5870588016911675e-02) * $v_pres_mod_temp)));
  (*3057*) Do (Asn v_jac 310 (#1.0694691701868542e+00 * ($v_j_temp * #(-3.5870588016911675e-02) + #(-3.5870588016911675e-02) * $v_pres_mod_temp)));
  (*3058*) Do (AddA v_jac 317 (#(-3.3568593911733322e-02) * ($v_j_temp * #(-7.1851123102163683e-02) + #(-7.1851123102163683e-02) * $v_pres_mod_temp + v_pres_mod.[8] * ($v_kf * v_conc.[1]))));
  (*3059*) Do (AddA v_jac 330 ((- ($v_j_temp * #(-7.1851123102163683e-02) + #(-7.1851123102163683e-02) * $v_pres_mod_temp + v_pres_mod.[8] * ($v_kf * v_conc.[1])))));
  (*3060*) Do (Asn v_jac 331 (#1.0335685939117332e+00 * ($v_j_temp * #(-7.1851123102163683e-02) + #(-7.1851123102163683e-02) * $v_pres_mod_temp + v_pres_mod.[8] * ($v_kf * v_conc.[1]))));
  (*3061*) Do (AddA v_jac 338 (#(-3.2478341649959309e-02) * ($v_j_temp * #(-1.0783165818741525e-01) + #(-1.0783165818741525e-01) * $v_pres_mod_temp + v_pres_mod.[8] * (- $v_kr))));
  (*3062*) Do (AddA v_jac 351 (#(-9.6752165835004078e-01) * ($v_j_temp * #(-1.0783165818741525e-01) + #(-1.0783165818741525e-01) * $v_pres_mod_temp + v_pres_mod.[8] * (- $v_kr))));
  (*3063*) Do (Asn v_jac 352 ($v_j_temp * #(-1.0783165818741525e-01) + #(-1.0783165818741525e-01) * $v_pres_mod_temp + v_pres_mod.[8] * (- $v_kr)));
  (*3064*) Do (AddA v_jac 359 (#(-3.5928873705342888e-02) * ($v_j_temp * #(-1.4378791924458678e-03) + #(-1.4378791924458678e-03) * $v_pres_mod_temp)));
  (*3065*) Do (AddA v_jac 372 (#(-1.0703121435415432e+00) * ($v_j_temp * #(-1.4378791924458678e-03) + #(-1.4378791924458678e-03) * $v_pres_mod_temp)));
  (*3066*) Do (Asn v_jac 373 (#1.1062410172468859e+00 * ($v_j_temp * #(-1.4378791924458678e-03) + #(-1.4378791924458678e-03) * $v_pres_mod_temp)));
  (*3067*) Do (AddA v_jac 380 (#(-3.4682761159877090e-02) * ($v_j_temp * #(-3.7418414277697654e-02) + #(-3.7418414277697654e-02) * $v_pres_mod_temp)));
  (*3068*) Do (AddA v_jac 393 (#(-1.0331907631005757e+00) * ($v_j_temp * #(-3.7418414277697654e-02) + #(-3.7418414277697654e-02) * $v_pres_mod_temp)));
  (*3069*) Do (Asn v_jac 394 (#1.0678735242604527e+00 * ($v_j_temp * #(-3.7418414277697654e-02) + #(-3.7418414277697654e-02) * $v_pres_mod_temp)));
  (*3070*) Do (AddA v_jac 401 (#(-3.3520188469166906e-02) * ($v_j_temp * #(-7.3398949362949439e-02) + #1.9266010506370506e+00 * $v_pres_mod_temp)));
  (*3071*) Do (AddA v_jac 414 (#(-9.9855801399684196e-01) * ($v_j_temp * #(-7.3398949362949439e-02) + #1.9266010506370506e+00 * $v_pres_mod_temp)));
  (*3072*) Do (Asn v_jac 415 (#1.0320782024660089e+00 * ($v_j_temp * #(-7.3398949362949439e-02) + #1.9266010506370506e+00 * $v_pres_mod_temp)));
  (*3073*) Do (AddA v_jac 422 (#(-2.5231300690898170e-02) * ($v_j_temp * #(-4.2602775520927771e-01) + #(-4.2602775520927771e-01) * $v_pres_mod_temp)));
  (*3074*) Do (AddA v_jac 435 (#(-7.5163412436167021e-01) * ($v_j_temp * #(-4.2602775520927771e-01) + #(-4.2602775520927771e-01) * $v_pres_mod_temp)));
  (*3075*) Do (Asn v_jac 436 (#7.7686542505256828e-01 * ($v_j_temp * #(-4.2602775520927771e-01) + #(-4.2602775520927771e-01) * $v_pres_mod_temp)))]);
([
  (*3078*) Do (Asn v_j_temp 0 (#1.0 / $v_T * ((v_fwd_rates.[35] - v_rev_rates.[35]) * (#1.0500000000000000e+00 + #1.6480440749137576e+03 / $v_T) + v_fwd_rates.[35] * #(-1.0) - v_rev_rates.[35] * (#(-1.0) + (- $v_T) * (v_dBdT.[0] + v_dBdT.[13] - v_dBdT.[14] - v_dBdT.[1]))) * $v_rho_inv));
  (*3079*) Do (AddA v_jac 1 ($v_j_temp * #2.0158800000000001e+00));
  (*3080*) Do (AddA v_jac 2 ((- $v_j_temp) * #1.0079400000000001e+00));
  (*3081*) Do (AddA v_jac 14 ($v_j_temp * #2.9018339999999998e+01));
  (*3082*) Do (AddA v_jac 15 ((- $v_j_temp) * #3.0026280000000000e+01))],
[
  (*3085*) If ($v_T) (#1000.0)
    [Asn v_Kc 0 (#4.6494588109999997e+00 + #(-7.2820618999999942e-01) * $v_logT + $v_T * (#7.3224645596473327e-03 + $v_T * (#(-7.1700345330006799e-06) + $v_T * (#3.7309438498082653e-09 + #(-8.1078470795361340e-13) * $v_T))) - #(-8.2430734130000001e+03) / $v_T)]
    [Asn v_Kc 0 (#(-8.4650819659999996e+00) + #1.8487634899999998e+00 * $v_logT + $v_T * (#(-2.1462240050078517e-03) + $v_T * (#4.0626479364063411e-07 + $v_T * (#(-4.9734727605403966e-11) + #2.7530115000901327e-15 * $v_T))) - #(-8.4160683719999961e+03) / $v_T)];
  (*3091*) Do (Asn v_Kc 0 ((Exp $v_Kc)));
  (*3092*) Do (Asn v_j_temp 0 ((- $v_mw_avg) * $v_rho_inv * (#2.0 * v_fwd_rates.[35] - #2.0 * v_rev_rates.[35])));
  (*3093*) Do (Asn v_kf 0 ((Exp (#1.6951004773893423e+01 + #1.05 * $v_logT - #1.6480440749137576e+03 / $v_T))));
  (*3094*) Do (Asn v_kr 0 ($v_kf / $v_Kc));
  (*3095*) Do (AddA v_jac 22 ($v_j_temp * #9.2803892982949643e-01 - $v_kr * v_conc.[13]));
  (*3096*) Do (AddA v_jac 23 (#(-5.0000000000000000e-01) * ($v_j_temp * #9.2803892982949643e-01 - $v_kr * v_conc.[13])));
  (*3097*) Do (AddA v_jac 35 (#1.4394874694922315e+01 * ($v_j_temp * #9.2803892982949643e-01 - $v_kr * v_conc.[13])));
  (*3098*) Do (AddA v_jac 36 (#(-1.4894874694922317e+01) * ($v_j_temp * #9.2803892982949643e-01 - $v_kr * v_conc.[13])));
  (*3099*) Do (AddA v_jac 43 (#2.0000000000000000e+00 * ($v_j_temp * #9.6401946491474821e-01 + $v_kf * v_conc.[14])));
  (*3100*) Do (AddA v_jac 44 ((- ($v_j_temp * #9.6401946491474821e-01 + $v_kf * v_conc.[14]))));
  (*3101*) Do (AddA v_jac 56 (#2.8789749389844630e+01 * ($v_j_temp * #9.6401946491474821e-01 + $v_kf * v_conc.[14])));
  (*3102*) Do (AddA v_jac 57 (#(-2.9789749389844633e+01) * ($v_j_temp * #9.6401946491474821e-01 + $v_kf * v_conc.[14])));
  (*3103*) Do (AddA v_jac 64 (#1.2599722489593360e-01 * ($v_j_temp * #4.2886781649405936e-01)));
  (*3104*) Do (AddA v_jac 65 (#(-6.2998612447966798e-02) * ($v_j_temp * #4.2886781649405936e-01)));
  (*3105*) Do (AddA v_jac 77 (#1.8137142642849107e+00 * ($v_j_temp * #4.2886781649405936e-01)));
  (*3106*) Do (AddA v_jac 78 (#(-1.8767128767328776e+00) * ($v_j_temp * #4.2886781649405936e-01)));
  (*3107*) Do (AddA v_jac 85 (#6.2998612447966798e-02 * ($v_j_temp * #(-1.4226436701188128e-01))));
  (*3108*) Do (AddA v_jac 86 (#(-3.1499306223983399e-02) * ($v_j_temp * #(-1.4226436701188128e-01))));
  (*3109*) Do (AddA v_jac 98 (#9.0685713214245534e-01 * ($v_j_temp * #(-1.4226436701188128e-01))));
  (*3110*) Do (AddA v_jac 99 (#(-9.3835643836643878e-01) * ($v_j_temp * #(-1.4226436701188128e-01))));
  (*3111*) Do (AddA v_jac 106 (#1.1852999940025896e-01 * ($v_j_temp * #3.9288728140880758e-01)));
  (*3112*) Do (AddA v_jac 107 (#(-5.9264999700129481e-02) * ($v_j_temp * #3.9288728140880758e-01)));
  (*3113*) Do (AddA v_jac 119 (#1.7062244889559448e+00 * ($v_j_temp * #3.9288728140880758e-01)));
  (*3114*) Do (AddA v_jac 120 (#(-1.7654894886560744e+00) * ($v_j_temp * #3.9288728140880758e-01)));
  (*3115*) Do (AddA v_jac 127 (#1.1189834407236524e-01 * ($v_j_temp * #3.5690674632355568e-01)));
  (*3116*) Do (AddA v_jac 128 (#(-5.5949172036182618e-02) * ($v_j_temp * #3.5690674632355568e-01)));
  (*3117*) Do (AddA v_jac 140 (#1.6107626414910008e+00 * ($v_j_temp * #3.5690674632355568e-01)));
  (*3118*) Do (AddA v_jac 141 (#(-1.6667118135271835e+00) * ($v_j_temp * #3.5690674632355568e-01)));
  (*3119*) Do (AddA v_jac 148 (#6.1074798662333819e-02 * ($v_j_temp * #(-1.7824490209713328e-01))));
  (*3120*) Do (AddA v_jac 149 (#(-3.0537399331166910e-02) * ($v_j_temp * #(-1.7824490209713328e-01))));
  (*3121*) Do (AddA v_jac 161 (#8.7916407376190431e-01 * ($v_j_temp * #(-1.7824490209713328e-01))));
  (*3122*) Do (AddA v_jac 162 (#(-9.0970147309307126e-01) * ($v_j_temp * #(-1.7824490209713328e-01))));
  (*3123*) Do (AddA v_jac 169 (#1.4371549482137155e-01 * ($v_j_temp * #4.9928106040377707e-01)));
  (*3124*) Do (AddA v_jac 170 (#(-7.1857747410685777e-02) * ($v_j_temp * #4.9928106040377707e-01)));
  (*3125*) Do (AddA v_jac 182 (#2.0687665396724007e+00 * ($v_j_temp * #4.9928106040377707e-01)));
  (*3126*) Do (AddA v_jac 183 (#(-2.1406242870830865e+00) * ($v_j_temp * #4.9928106040377707e-01)));
  (*3127*) Do (AddA v_jac 190 (#1.4371549482137155e-01 * ($v_j_temp * #4.9928106040377707e-01)));
  (*3128*) Do (AddA v_jac 191 (#(-7.1857747410685777e-02) * ($v_j_temp * #4.9928106040377707e-01)));
  (*3129*) Do (AddA v_jac 203 (#2.0687665396724007e+00 * ($v_j_temp * #4.9928106040377707e-01)));
  (*3130*) Do (AddA v_jac 204 (#(-2.1406242870830865e+00) * ($v_j_temp * #4.9928106040377707e-01)));
  (*3131*) Do (AddA v_jac 211 (#1.3408075387666762e-01 * ($v_j_temp * #4.6330052531852528e-01)));
  (*3132*) Do (AddA v_jac 212 (#(-6.7040376938333812e-02) * ($v_j_temp * #4.6330052531852528e-01)));
  (*3133*) Do (AddA v_jac 224 (#1.9300756510553501e+00 * ($v_j_temp * #4.6330052531852528e-01)));
  (*3134*) Do (AddA v_jac 225 (#(-1.9971160279936839e+00) * ($v_j_temp * #4.6330052531852528e-01)));
  (*3135*) Do (AddA v_jac 232 (#1.2565668251597606e-01 * ($v_j_temp * #4.2731999023327338e-01)));
  (*3136*) Do (AddA v_jac 233 (#(-6.2828341257988030e-02) * ($v_j_temp * #4.2731999023327338e-01)));
  (*3137*) Do (AddA v_jac 245 (#1.8088121993971109e+00 * ($v_j_temp * #4.2731999023327338e-01)));
  (*3138*) Do (AddA v_jac 246 (#(-1.8716405406550991e+00) * ($v_j_temp * #4.2731999023327338e-01)));
  (*3139*) Do (AddA v_jac 253 (#7.1968982949190310e-02 * ($v_j_temp * #1.0994706834011048e-04)));
  (*3140*) Do (AddA v_jac 254 (#(-3.5984491474595155e-02) * ($v_j_temp * #1.0994706834011048e-04)));
  (*3141*) Do (AddA v_jac 266 (#1.0359844914745953e+00 * ($v_j_temp * #1.0994706834011048e-04)));
  (*3142*) Do (AddA v_jac 267 (#(-1.0719689829491903e+00) * ($v_j_temp * #1.0994706834011048e-04)));
  (*3143*) Do (AddA v_jac 274 (#4.5805252466496103e-02 * ($v_j_temp * #(-5.7102223643760053e-01))));
  (*3144*) Do (AddA v_jac 275 (#(-2.2902626233248052e-02) * ($v_j_temp * #(-5.7102223643760053e-01))));
  (*3145*) Do (AddA v_jac 287 (#6.5936086962449270e-01 * ($v_j_temp * #(-5.7102223643760053e-01))));
  (*3146*) Do (AddA v_jac 288 (#(-6.8226349585774082e-01) * ($v_j_temp * #(-5.7102223643760053e-01))));
  (*3147*) Do (AddA v_jac 295 (#6.9469170186854251e-02 * ($v_j_temp * #(-3.5870588016911675e-02) - $v_kr * v_conc.[0])));
  (*3148*) Do (AddA v_jac 296 (#(-3.4734585093427126e-02) * ($v_j_temp * #(-3.5870588016911675e-02) - $v_kr * v_conc.[0])));
  (*3149*) Do (AddA v_jac 308 ($v_j_temp * #(-3.5870588016911675e-02) - $v_kr * v_conc.[0]));
  (*3150*) Do (AddA v_jac 309 (#(-1.0347345850934271e+00) * ($v_j_temp * #(-3.5870588016911675e-02) - $v_kr * v_conc.[0])));
  (*3151*) Do (AddA v_jac 316 (#6.7137187823466643e-02 * ($v_j_temp * #(-7.1851123102163683e-02) + $v_kf * v_conc.[1])));
  (*3152*) Do (AddA v_jac 317 (#(-3.3568593911733322e-02) * ($v_j_temp * #(-7.1851123102163683e-02) + $v_kf * v_conc.[1])));
  (*3153*) Do (AddA v_jac 329 (#9.6643140608826661e-01 * ($v_j_temp * #(-7.1851123102163683e-02) + $v_kf * v_conc.[1])));
  (*3154*) Do (AddA v_jac 330 ((- ($v_j_temp * #(-7.1851123102163683e-02) + $v_kf * v_conc.[1]))));
  (*3155*) Do (AddA v_jac 337 (#6.4956683299918619e-02 * ($v_j_temp * #(-1.0783165818741525e-01))));
  (*3156*) Do (AddA v_jac 338 (#(-3.2478341649959309e-02) * ($v_j_temp * #(-1.0783165818741525e-01))));
  (*3157*) Do (AddA v_jac 350 (#9.3504331670008145e-01 * ($v_j_temp * #(-1.0783165818741525e-01))));
  (*3158*) Do (AddA v_jac 351 (#(-9.6752165835004078e-01) * ($v_j_temp * #(-1.0783165818741525e-01))));
  (*3159*) Do (AddA v_jac 358 (#7.1857747410685777e-02 * ($v_j_temp * #(-1.4378791924458678e-03))));
  (*3160*) Do (AddA v_jac 359 (#(-3.5928873705342888e-02) * ($v_j_temp * #(-1.4378791924458678e-03))));
  (*3161*) Do (AddA v_jac 371 (#1.0343832698362003e+00 * ($v_j_temp * #(-1.4378791924458678e-03))));
  (*3162*) Do (AddA v_jac 372 (#(-1.0703121435415432e+00) * ($v_j_temp * #(-1.4378791924458678e-03))));
  (*3163*) Do (AddA v_jac 379 (#6.9365522319754180e-02 * ($v_j_temp * #(-3.7418414277697654e-02))));
  (*3164*) Do (AddA v_jac 380 (#(-3.4682761159877090e-02) * ($v_j_temp * #(-3.7418414277697654e-02))));
  (*3165*) Do (AddA v_jac 392 (#9.9850800194069855e-01 * ($v_j_temp * #(-3.7418414277697654e-02))));
  (*3166*) Do (AddA v_jac 393 (#(-1.0331907631005757e+00) * ($v_j_temp * #(-3.7418414277697654e-02))));
  (*3167*) Do (AddA v_jac 400 (#6.7040376938333812e-02 * ($v_j_temp * #(-7.3398949362949439e-02))));
  (*3168*) Do (AddA v_jac 401 (#(-3.3520188469166906e-02) * ($v_j_temp * #(-7.3398949362949439e-02))));
  (*3169*) Do (AddA v_jac 413 (#9.6503782552767503e-01 * ($v_j_temp * #(-7.3398949362949439e-02))));
  (*3170*) Do (AddA v_jac 414 (#(-9.9855801399684196e-01) * ($v_j_temp * #(-7.3398949362949439e-02))));
  (*3171*) Do (AddA v_jac 421 (#5.0462601381796340e-02 * ($v_j_temp * #(-4.2602775520927771e-01))));
  (*3172*) Do (AddA v_jac 422 (#(-2.5231300690898170e-02) * ($v_j_temp * #(-4.2602775520927771e-01))));
  (*3173*) Do (AddA v_jac 434 (#7.2640282367077191e-01 * ($v_j_temp * #(-4.2602775520927771e-01))));
  (*3174*) Do (AddA v_jac 435 (#(-7.5163412436167021e-01) * ($v_j_temp * #(-4.2602775520927771e-01))))]);
([
  (*3177*) Do (Asn v_j_temp 0 (#1.0 / $v_T * (v_fwd_rates.[36] * #(-1.0) - v_rev_rates.[36] * (#(-1.0) + (- $v_T) * (v_dBdT.[9] + v_dBdT.[4] - v_dBdT.[1] - v_dBdT.[15]))) * $v_rho_inv));
  (*3178*) Do (AddA v_jac 2 ((- $v_j_temp) * #1.0079400000000001e+00));
  (*3179*) Do (AddA v_jac 10 ($v_j_temp * #1.5034820000000000e+01));
  (*3180*) Do (AddA v_jac 5 ($v_j_temp * #1.7007339999999999e+01));
  (*3181*) Do (AddA v_jac 16 ((- $v_j_temp) * #3.1034219999999998e+01))],
[
  (*3184*) If ($v_T) (#1000.0)
    [Asn v_Kc 0 (#(-1.4264257105000000e+01) + #3.0594018300000005e+00 * $v_logT + $v_T * (#(-3.8034803853526666e-03) + $v_T * (#8.3494749533265352e-07 + $v_T * (#(-2.8122263185840126e-10) + #9.1618102046386630e-14 * $v_T))) - #(-6.3921816399999971e+03) / $v_T)]
    [Asn v_Kc 0 (#1.1366069424000001e+01 + #(-8.9219361999999958e-01) * $v_logT + $v_T * (#(-4.1583445457851146e-05) + $v_T * (#(-3.4042378026032396e-08) + $v_T * (#9.4412827612626981e-12 + #(-6.9240211490986809e-16) * $v_T))) - #(-4.9672511199999999e+03) / $v_T)];
  (*3190*) Do (Asn v_Kc 0 ((Exp $v_Kc)));
  (*3191*) Do (Asn v_j_temp 0 ((- $v_mw_avg) * $v_rho_inv * (#2.0 * v_fwd_rates.[36] - #2.0 * v_rev_rates.[36])));
  (*3192*) Do (Asn v_kf 0 (#32000000000.0));
  (*3193*) Do (Asn v_kr 0 ($v_kf / $v_Kc));
  (*3194*) Do (AddA v_jac 23 (#(-5.0000000000000000e-01) * ($v_j_temp * #9.2803892982949643e-01)));
  (*3195*) Do (AddA v_jac 31 (#7.4581919558703884e+00 * ($v_j_temp * #9.2803892982949643e-01)));
  (*3196*) Do (AddA v_jac 26 (#8.4366827390519266e+00 * ($v_j_temp * #9.2803892982949643e-01)));
  (*3197*) Do (AddA v_jac 37 (#(-1.5394874694922315e+01) * ($v_j_temp * #9.2803892982949643e-01)));
  (*3198*) Do (AddA v_jac 44 ((- ($v_j_temp * #9.6401946491474821e-01 + $v_kf * v_conc.[15]))));
  (*3199*) Do (AddA v_jac 52 (#1.4916383911740777e+01 * ($v_j_temp * #9.6401946491474821e-01 + $v_kf * v_conc.[15])));
  (*3200*) Do (AddA v_jac 47 (#1.6873365478103853e+01 * ($v_j_temp * #9.6401946491474821e-01 + $v_kf * v_conc.[15])));
  (*3201*) Do (AddA v_jac 58 (#(-3.0789749389844630e+01) * ($v_j_temp * #9.6401946491474821e-01 + $v_kf * v_conc.[15])));
  (*3202*) Do (AddA v_jac 65 (#(-6.2998612447966798e-02) * ($v_j_temp * #4.2886781649405936e-01)));
  (*3203*) Do (AddA v_jac 73 (#9.3971148918084424e-01 * ($v_j_temp * #4.2886781649405936e-01)));
  (*3204*) Do (AddA v_jac 68 (#1.0629986124479667e+00 * ($v_j_temp * #4.2886781649405936e-01)));
  (*3205*) Do (AddA v_jac 79 (#(-1.9397114891808442e+00) * ($v_j_temp * #4.2886781649405936e-01)));
  (*3206*) Do (AddA v_jac 86 (#(-3.1499306223983399e-02) * ($v_j_temp * #(-1.4226436701188128e-01))));
  (*3207*) Do (AddA v_jac 94 (#4.6985574459042212e-01 * ($v_j_temp * #(-1.4226436701188128e-01))));
  (*3208*) Do (AddA v_jac 89 (#5.3149930622398334e-01 * ($v_j_temp * #(-1.4226436701188128e-01))));
  (*3209*) Do (AddA v_jac 100 (#(-9.6985574459042212e-01) * ($v_j_temp * #(-1.4226436701188128e-01))));
  (*3210*) Do (AddA v_jac 107 (#(-5.9264999700129481e-02) * ($v_j_temp * #3.9288728140880758e-01 - $v_kr * v_conc.[9])));
  (*3211*) Do (AddA v_jac 115 (#8.8401948805633335e-01 * ($v_j_temp * #3.9288728140880758e-01 - $v_kr * v_conc.[9])));
  (*3212*) Do (AddA v_jac 110 ($v_j_temp * #3.9288728140880758e-01 - $v_kr * v_conc.[9]));
  (*3213*) Do (AddA v_jac 121 (#(-1.8247544883562039e+00) * ($v_j_temp * #3.9288728140880758e-01 - $v_kr * v_conc.[9])));
  (*3214*) Do (AddA v_jac 128 (#(-5.5949172036182618e-02) * ($v_j_temp * #3.5690674632355568e-01)));
  (*3215*) Do (AddA v_jac 136 (#8.3455932963573143e-01 * ($v_j_temp * #3.5690674632355568e-01)));
  (*3216*) Do (AddA v_jac 131 (#9.4405082796381734e-01 * ($v_j_temp * #3.5690674632355568e-01)));
  (*3217*) Do (AddA v_jac 142 (#(-1.7226609855633661e+00) * ($v_j_temp * #3.5690674632355568e-01)));
  (*3218*) Do (AddA v_jac 149 (#(-3.0537399331166910e-02) * ($v_j_temp * #(-1.7824490209713328e-01))));
  (*3219*) Do (AddA v_jac 157 (#4.5550757208982162e-01 * ($v_j_temp * #(-1.7824490209713328e-01))));
  (*3220*) Do (AddA v_jac 152 (#5.1526869966558342e-01 * ($v_j_temp * #(-1.7824490209713328e-01))));
  (*3221*) Do (AddA v_jac 163 (#(-9.4023887242423809e-01) * ($v_j_temp * #(-1.7824490209713328e-01))));
  (*3222*) Do (AddA v_jac 170 (#(-7.1857747410685777e-02) * ($v_j_temp * #4.9928106040377707e-01)));
  (*3223*) Do (AddA v_jac 178 (#1.0718577474106858e+00 * ($v_j_temp * #4.9928106040377707e-01)));
  (*3224*) Do (AddA v_jac 173 (#1.2124820344937721e+00 * ($v_j_temp * #4.9928106040377707e-01)));
  (*3225*) Do (AddA v_jac 184 (#(-2.2124820344937719e+00) * ($v_j_temp * #4.9928106040377707e-01)));
  (*3226*) Do (AddA v_jac 191 (#(-7.1857747410685777e-02) * ($v_j_temp * #4.9928106040377707e-01)));
  (*3227*) Do (AddA v_jac 199 (#1.0718577474106858e+00 * ($v_j_temp * #4.9928106040377707e-01)));
  (*3228*) Do (AddA v_jac 194 (#1.2124820344937721e+00 * ($v_j_temp * #4.9928106040377707e-01)));
  (*3229*) Do (AddA v_jac 205 (#(-2.2124820344937719e+00) * ($v_j_temp * #4.9928106040377707e-01)));
  (*3230*) Do (AddA v_jac 212 (#(-6.7040376938333812e-02) * ($v_j_temp * #4.6330052531852528e-01 - $v_kr * v_conc.[4])));
  (*3231*) Do (AddA v_jac 220 ($v_j_temp * #4.6330052531852528e-01 - $v_kr * v_conc.[4]));
  (*3232*) Do (AddA v_jac 215 (#1.1311967818703517e+00 * ($v_j_temp * #4.6330052531852528e-01 - $v_kr * v_conc.[4])));
  (*3233*) Do (AddA v_jac 226 (#(-2.0641564049320178e+00) * ($v_j_temp * #4.6330052531852528e-01 - $v_kr * v_conc.[4])));
  (*3234*) Do (AddA v_jac 233 (#(-6.2828341257988030e-02) * ($v_j_temp * #4.2731999023327338e-01)));
  (*3235*) Do (AddA v_jac 241 (#9.3717165874201191e-01 * ($v_j_temp * #4.2731999023327338e-01)));
  (*3236*) Do (AddA v_jac 236 (#1.0601255644290632e+00 * ($v_j_temp * #4.2731999023327338e-01)));
  (*3237*) Do (AddA v_jac 247 (#(-1.9344688819130871e+00) * ($v_j_temp * #4.2731999023327338e-01)));
  (*3238*) Do (AddA v_jac 254 (#(-3.5984491474595155e-02) * ($v_j_temp * #1.0994706834011048e-04)));
  (*3239*) Do (AddA v_jac 262 (#5.3675848970382434e-01 * ($v_j_temp * #1.0994706834011048e-04)));
  (*3240*) Do (AddA v_jac 257 (#6.0717947619455637e-01 * ($v_j_temp * #1.0994706834011048e-04)));
  (*3241*) Do (AddA v_jac 268 (#(-1.1079534744237856e+00) * ($v_j_temp * #1.0994706834011048e-04)));
  (*3242*) Do (AddA v_jac 275 (#(-2.2902626233248052e-02) * ($v_j_temp * #(-5.7102223643760053e-01))));
  (*3243*) Do (AddA v_jac 283 (#3.4162436548223352e-01 * ($v_j_temp * #(-5.7102223643760053e-01))));
  (*3244*) Do (AddA v_jac 278 (#3.8644438284200339e-01 * ($v_j_temp * #(-5.7102223643760053e-01))));
  (*3245*) Do (AddA v_jac 289 (#(-7.0516612209098883e-01) * ($v_j_temp * #(-5.7102223643760053e-01))));
  (*3246*) Do (AddA v_jac 296 (#(-3.4734585093427126e-02) * ($v_j_temp * #(-3.5870588016911675e-02))));
  (*3247*) Do (AddA v_jac 304 (#5.1811440626858740e-01 * ($v_j_temp * #(-3.5870588016911675e-02))));
  (*3248*) Do (AddA v_jac 299 (#5.8608934901169396e-01 * ($v_j_temp * #(-3.5870588016911675e-02))));
  (*3249*) Do (AddA v_jac 310 (#(-1.0694691701868542e+00) * ($v_j_temp * #(-3.5870588016911675e-02))));
  (*3250*) Do (AddA v_jac 317 (#(-3.3568593911733322e-02) * ($v_j_temp * #(-7.1851123102163683e-02))));
  (*3251*) Do (AddA v_jac 325 (#5.0072203416473837e-01 * ($v_j_temp * #(-7.1851123102163683e-02))));
  (*3252*) Do (AddA v_jac 320 (#5.6641515365872830e-01 * ($v_j_temp * #(-7.1851123102163683e-02))));
  (*3253*) Do (AddA v_jac 331 (#(-1.0335685939117332e+00) * ($v_j_temp * #(-7.1851123102163683e-02))));
  (*3254*) Do (AddA v_jac 338 (#(-3.2478341649959309e-02) * ($v_j_temp * #(-1.0783165818741525e-01) + $v_kf * v_conc.[1])));
  (*3255*) Do (AddA v_jac 346 (#4.8445941286747340e-01 * ($v_j_temp * #(-1.0783165818741525e-01) + $v_kf * v_conc.[1])));
  (*3256*) Do (AddA v_jac 341 (#5.4801892878248593e-01 * ($v_j_temp * #(-1.0783165818741525e-01) + $v_kf * v_conc.[1])));
  (*3257*) Do (AddA v_jac 352 ((- ($v_j_temp * #(-1.0783165818741525e-01) + $v_kf * v_conc.[1]))));
  (*3258*) Do (AddA v_jac 359 (#(-3.5928873705342888e-02) * ($v_j_temp * #(-1.4378791924458678e-03))));
  (*3259*) Do (AddA v_jac 367 (#5.3592887370534292e-01 * ($v_j_temp * #(-1.4378791924458678e-03))));
  (*3260*) Do (AddA v_jac 362 (#6.0624101724688606e-01 * ($v_j_temp * #(-1.4378791924458678e-03))));
  (*3261*) Do (AddA v_jac 373 (#(-1.1062410172468859e+00) * ($v_j_temp * #(-1.4378791924458678e-03))));
  (*3262*) Do (AddA v_jac 380 (#(-3.4682761159877090e-02) * ($v_j_temp * #(-3.7418414277697654e-02))));
  (*3263*) Do (AddA v_jac 388 (#5.1734138057993861e-01 * ($v_j_temp * #(-3.7418414277697654e-02))));
  (*3264*) Do (AddA v_jac 383 (#5.8521490484039129e-01 * ($v_j_temp * #(-3.7418414277697654e-02))));
  (*3265*) Do (AddA v_jac 394 (#(-1.0678735242604527e+00) * ($v_j_temp * #(-3.7418414277697654e-02))));
  (*3266*) Do (AddA v_jac 401 (#(-3.3520188469166906e-02) * ($v_j_temp * #(-7.3398949362949439e-02))));
  (*3267*) Do (AddA v_jac 409 (#5.0000000000000000e-01 * ($v_j_temp * #(-7.3398949362949439e-02))));
  (*3268*) Do (AddA v_jac 404 (#5.6559839093517583e-01 * ($v_j_temp * #(-7.3398949362949439e-02))));
  (*3269*) Do (AddA v_jac 415 (#(-1.0320782024660089e+00) * ($v_j_temp * #(-7.3398949362949439e-02))));
  (*3270*) Do (AddA v_jac 422 (#(-2.5231300690898170e-02) * ($v_j_temp * #(-4.2602775520927771e-01))));
  (*3271*) Do (AddA v_jac 430 (#3.7635976769800739e-01 * ($v_j_temp * #(-4.2602775520927771e-01))));
  (*3272*) Do (AddA v_jac 425 (#4.2573695804545908e-01 * ($v_j_temp * #(-4.2602775520927771e-01))));
  (*3273*) Do (AddA v_jac 436 (#(-7.7686542505256828e-01) * ($v_j_temp * #(-4.2602775520927771e-01))))]);
([
  (*3276*) Do (AddA v_conc_temp 0 (#(-0.3) * v_conc.[19]));
  (*3277*) Do (Asn v_Pr 0 ($v_conc_temp * (Exp (#6.2275158026497060e+01 - #8.074 * $v_logT - #2.5915807590246877e+03 / $v_T))));
  (*3278*) Do (Asn v_Fcent 0 (#2.4700000000000055e-02 * (Exp ($v_T / #(-2.0999999999999997e+02))) + #9.7529999999999994e-01 * (Exp ($v_T / #(-9.8399999999999989e+02))) + (Exp (#(-4.3740000000000000e+03) / $v_T))));
  (*3279*) Do (Asn v_A 0 ((Log10 (Fmax $v_Pr #1.0e-300)) - #0.67 * (Log10 (Fmax $v_Fcent #1.0e-300)) - #0.4));
  (*3280*) Do (Asn v_B 0 (#0.806 - #1.1762 * (Log10 (Fmax $v_Fcent #1.0e-300)) - #0.14 * (Log10 (Fmax $v_Pr #1.0e-300))));
  (*3281*) Do (Asn v_lnF_AB 0 (#2.0 * (Log (Fmax $v_Fcent #1.0e-300)) * $v_A / ($v_B * $v_B * $v_B * (#1.0 + $v_A * $v_A / ($v_B * $v_B)) * (#1.0 + $v_A * $v_A / ($v_B * $v_B)))));
  (*3282*) Do (Asn v_j_temp 0 ((v_pres_mod.[9] * ((#(-8.0740e+00) + #2.5915807590246877e+03 / $v_T - #1.0) / ($v_T * (#1.0 + $v_Pr)) + (#1.0 / ($v_Fcent * (#1.0 + $v_A * $v_A / ($v_B * $v_B))) - $v_lnF_AB * (#(-2.9097730287517870e-01) * $v_B + #5.1081716961460466e-01 * $v_A) / $v_Fcent) * (#(-1.1761904761904789e-04) * (Exp ($v_T / #(-2.0999999999999997e+02))) - #9.9115853658536600e-04 * (Exp ($v_T / #(-9.8399999999999989e+02))) + #4.3740000000000000e+03 / ($v_T * $v_T) * (Exp (#(-4.3740000000000000e+03) / $v_T))) - $v_lnF_AB * (#4.3429448190325176e-01 * $v_B + #6.0801227466455256e-02 * $v_A) * (#(-8.0739999999999998e+00) + #2.5915807590246877e+03 / $v_T - #1.0) / $v_T) * (v_fwd_rates.[37] - v_rev_rates.[37]) + v_pres_mod.[9] / $v_T * ((v_fwd_rates.[37] - v_rev_rates.[37]) * (#4.5400000000000001e-01 + #9.1585960804367608e+02 / $v_T) + v_fwd_rates.[37] * #(-1.0) - v_rev_rates.[37] * ((- $v_T) * (v_dBdT.[17] - v_dBdT.[1] - v_dBdT.[16])))) * $v_rho_inv));
  (*3283*) Do (AddA v_jac 17 ((- $v_j_temp) * #2.8053759999999997e+01));
  (*3284*) Do (AddA v_jac 2 ((- $v_j_temp) * #1.0079400000000001e+00));
  (*3285*) Do (AddA v_jac 18 ($v_j_temp * #2.9061699999999998e+01))],
[
  (*3288*) If ($v_T) (#1000.0)
    [Asn v_Kc 0 (#3.2092969330000005e+00 + #(-1.1527358000000003e+00) * $v_logT + $v_T * (#1.6919667746473337e-03 + $v_T * (#(-1.2307914163340125e-06) + $v_T * (#7.7051789147493195e-10 + #(-1.9687684495361349e-13) * $v_T))) - #(-1.7721809329999996e+04) / $v_T)]
    [Asn v_Kc 0 (#6.1852026639999975e+00 + #(-1.5814547499999998e+00) * $v_logT + $v_T * (#1.3759285615421489e-03 + $v_T * (#(-2.1188125769269901e-07) + $v_T * (#2.3328972061262663e-11 + #(-1.1967757749098676e-15) * $v_T))) - #(-1.7556026039999997e+04) / $v_T)];
  (*3294*) Do (Asn v_Kc 0 (#8.2057360967184814e-02 * (Exp $v_Kc)));
  (*3295*) Do (Asn v_pres_mod_temp 0 ((#1.0 / (#1.0 + $v_Pr) - (Log (Fmax $v_Fcent #1.0e-300)) * #2.0 * $v_A * ($v_B * #0.4342944819032518 + $v_A * #0.06080122746645526) / ($v_B * $v_B * $v_B * (#1.0 + $v_A * $v_A / ($v_B * $v_B)) * (#1.0 + $v_A * $v_A / ($v_B * $v_B)))) * (v_fwd_rates.[37] - v_rev_rates.[37])));
  (*3296*) Do (Asn v_j_temp 0 ((- $v_mw_avg) * $v_rho_inv * v_pres_mod.[9] * (#2.0 * v_fwd_rates.[37] - v_rev_rates.[37] + $v_pres_mod_temp)));
  (*3297*) Do (MulA v_pres_mod_temp 0 ((Exp (#6.2275158026497060e+01 - #8.074 * $v_logT - #2.5915807590246877e+03 / $v_T)) * (Pow $v_Fcent (#1.0 / (#1 + $v_A * $v_A / ($v_B * $v_B)))) / (#1.0 + $v_Pr)));
  (*3298*) Do (Asn v_kf 0 ((Exp (#2.0800226878082540e+01 + #0.454 * $v_logT - #9.1585960804367608e+02 / $v_T))));
  (*3299*) Do (Asn v_kr 0 ($v_kf / $v_Kc));
  (*3300*) Do (AddA v_jac 38 (#(-1.3916383911740775e+01) * ($v_j_temp * #9.2803892982949643e-01 + #1.9280389298294964e+00 * $v_pres_mod_temp)));
  (*3301*) Do (AddA v_jac 23 (#(-5.0000000000000000e-01) * ($v_j_temp * #9.2803892982949643e-01 + #1.9280389298294964e+00 * $v_pres_mod_temp)));
  (*3302*) Do (AddA v_jac 39 (#1.4416383911740777e+01 * ($v_j_temp * #9.2803892982949643e-01 + #1.9280389298294964e+00 * $v_pres_mod_temp)));
  (*3303*) Do (AddA v_jac 59 (#(-2.7832767823481550e+01) * ($v_j_temp * #9.6401946491474821e-01 + #9.6401946491474821e-01 * $v_pres_mod_temp + v_pres_mod.[9] * ($v_kf * v_conc.[16]))));
  (*3304*) Do (AddA v_jac 44 ((- ($v_j_temp * #9.6401946491474821e-01 + #9.6401946491474821e-01 * $v_pres_mod_temp + v_pres_mod.[9] * ($v_kf * v_conc.[16])))));
  (*3305*) Do (AddA v_jac 60 (#2.8832767823481554e+01 * ($v_j_temp * #9.6401946491474821e-01 + #9.6401946491474821e-01 * $v_pres_mod_temp + v_pres_mod.[9] * ($v_kf * v_conc.[16]))));
  (*3306*) Do (AddA v_jac 80 (#(-1.7534257534657549e+00) * ($v_j_temp * #4.2886781649405936e-01 + #4.2886781649405936e-01 * $v_pres_mod_temp)));
  (*3307*) Do (AddA v_jac 65 (#(-6.2998612447966798e-02) * ($v_j_temp * #4.2886781649405936e-01 + #4.2886781649405936e-01 * $v_pres_mod_temp)));
  (*3308*) Do (AddA v_jac 81 (#1.8164243659137218e+00 * ($v_j_temp * #4.2886781649405936e-01 + #4.2886781649405936e-01 * $v_pres_mod_temp)));
  (*3309*) Do (AddA v_jac 101 (#(-8.7671287673287746e-01) * ($v_j_temp * #(-1.4226436701188128e-01) + #(-1.4226436701188128e-01) * $v_pres_mod_temp)));
  (*3310*) Do (AddA v_jac 86 (#(-3.1499306223983399e-02) * ($v_j_temp * #(-1.4226436701188128e-01) + #(-1.4226436701188128e-01) * $v_pres_mod_temp)));
  (*3311*) Do (AddA v_jac 102 (#9.0821218295686090e-01 * ($v_j_temp * #(-1.4226436701188128e-01) + #(-1.4226436701188128e-01) * $v_pres_mod_temp)));
  (*3312*) Do (AddA v_jac 122 (#(-1.6495089767124076e+00) * ($v_j_temp * #3.9288728140880758e-01 + #3.9288728140880758e-01 * $v_pres_mod_temp)));
  (*3313*) Do (AddA v_jac 107 (#(-5.9264999700129481e-02) * ($v_j_temp * #3.9288728140880758e-01 + #3.9288728140880758e-01 * $v_pres_mod_temp)));
  (*3314*) Do (AddA v_jac 123 (#1.7087739764125371e+00 * ($v_j_temp * #3.9288728140880758e-01 + #3.9288728140880758e-01 * $v_pres_mod_temp)));
  (*3315*) Do (AddA v_jac 143 (#(-1.5572203151990975e+00) * ($v_j_temp * #3.5690674632355568e-01 + #5.3569067463235553e+00 * $v_pres_mod_temp)));
  (*3316*) Do (AddA v_jac 128 (#(-5.5949172036182618e-02) * ($v_j_temp * #3.5690674632355568e-01 + #5.3569067463235553e+00 * $v_pres_mod_temp)));
  (*3317*) Do (AddA v_jac 144 (#1.6131694872352802e+00 * ($v_j_temp * #3.5690674632355568e-01 + #5.3569067463235553e+00 * $v_pres_mod_temp)));
  (*3318*) Do (AddA v_jac 164 (#(-8.4994034551730935e-01) * ($v_j_temp * #(-1.7824490209713328e-01) + #(-1.7824490209713328e-01) * $v_pres_mod_temp)));
  (*3319*) Do (AddA v_jac 149 (#(-3.0537399331166910e-02) * ($v_j_temp * #(-1.7824490209713328e-01) + #(-1.7824490209713328e-01) * $v_pres_mod_temp)));
  (*3320*) Do (AddA v_jac 165 (#8.8047774484847630e-01 * ($v_j_temp * #(-1.7824490209713328e-01) + #(-1.7824490209713328e-01) * $v_pres_mod_temp)));
  (*3321*) Do (AddA v_jac 185 (#(-2.0000000000000000e+00) * ($v_j_temp * #4.9928106040377707e-01 + #4.9928106040377707e-01 * $v_pres_mod_temp)));
  (*3322*) Do (AddA v_jac 170 (#(-7.1857747410685777e-02) * ($v_j_temp * #4.9928106040377707e-01 + #4.9928106040377707e-01 * $v_pres_mod_temp)));
  (*3323*) Do (AddA v_jac 186 (#2.0718577474106858e+00 * ($v_j_temp * #4.9928106040377707e-01 + #4.9928106040377707e-01 * $v_pres_mod_temp)));
  (*3324*) Do (AddA v_jac 206 (#(-2.0000000000000000e+00) * ($v_j_temp * #4.9928106040377707e-01 + #4.9928106040377707e-01 * $v_pres_mod_temp)));
  (*3325*) Do (AddA v_jac 191 (#(-7.1857747410685777e-02) * ($v_j_temp * #4.9928106040377707e-01 + #4.9928106040377707e-01 * $v_pres_mod_temp)));
  (*3326*) Do (AddA v_jac 207 (#2.0718577474106858e+00 * ($v_j_temp * #4.9928106040377707e-01 + #4.9928106040377707e-01 * $v_pres_mod_temp)));
  (*3327*) Do (AddA v_jac 227 (#(-1.8659192461233323e+00) * ($v_j_temp * #4.6330052531852528e-01 + #4.6330052531852528e-01 * $v_pres_mod_temp)));
  (*3328*) Do (AddA v_jac 212 (#(-6.7040376938333812e-02) * ($v_j_temp * #4.6330052531852528e-01 + #4.6330052531852528e-01 * $v_pres_mod_temp)));
  (*3329*) Do (AddA v_jac 228 (#1.9329596230616661e+00 * ($v_j_temp * #4.6330052531852528e-01 + #4.6330052531852528e-01 * $v_pres_mod_temp)));
  (*3330*) Do (AddA v_jac 248 (#(-1.7486866349680477e+00) * ($v_j_temp * #4.2731999023327338e-01 + #1.4273199902332734e+00 * $v_pres_mod_temp)));
  (*3331*) Do (AddA v_jac 233 (#(-6.2828341257988030e-02) * ($v_j_temp * #4.2731999023327338e-01 + #1.4273199902332734e+00 * $v_pres_mod_temp)));
  (*3332*) Do (AddA v_jac 249 (#1.8115149762260356e+00 * ($v_j_temp * #4.2731999023327338e-01 + #1.4273199902332734e+00 * $v_pres_mod_temp)));
  (*3333*) Do (AddA v_jac 269 (#(-1.0015479964584584e+00) * ($v_j_temp * #1.0994706834011048e-04 + #5.0010994706834011e-01 * $v_pres_mod_temp)));
  (*3334*) Do (AddA v_jac 254 (#(-3.5984491474595155e-02) * ($v_j_temp * #1.0994706834011048e-04 + #5.0010994706834011e-01 * $v_pres_mod_temp)));
  (*3335*) Do (AddA v_jac 270 (#1.0375324879330534e+00 * ($v_j_temp * #1.0994706834011048e-04 + #5.0010994706834011e-01 * $v_pres_mod_temp)));
  (*3336*) Do (AddA v_jac 290 (#(-6.3744347849797089e-01) * ($v_j_temp * #(-5.7102223643760053e-01) + #4.2897776356239947e-01 * $v_pres_mod_temp)));
  (*3337*) Do (AddA v_jac 275 (#(-2.2902626233248052e-02) * ($v_j_temp * #(-5.7102223643760053e-01) + #4.2897776356239947e-01 * $v_pres_mod_temp)));
  (*3338*) Do (AddA v_jac 291 (#6.6034610473121891e-01 * ($v_j_temp * #(-5.7102223643760053e-01) + #4.2897776356239947e-01 * $v_pres_mod_temp)));
  (*3339*) Do (AddA v_jac 311 (#(-9.6675964235032041e-01) * ($v_j_temp * #(-3.5870588016911675e-02) + #(-3.5870588016911675e-02) * $v_pres_mod_temp)));
  (*3340*) Do (AddA v_jac 296 (#(-3.4734585093427126e-02) * ($v_j_temp * #(-3.5870588016911675e-02) + #(-3.5870588016911675e-02) * $v_pres_mod_temp)));
  (*3341*) Do (AddA v_jac 312 (#1.0014942274437477e+00 * ($v_j_temp * #(-3.5870588016911675e-02) + #(-3.5870588016911675e-02) * $v_pres_mod_temp)));
  (*3342*) Do (AddA v_jac 332 (#(-9.3430688050600996e-01) * ($v_j_temp * #(-7.1851123102163683e-02) + #(-7.1851123102163683e-02) * $v_pres_mod_temp)));
  (*3343*) Do (AddA v_jac 317 (#(-3.3568593911733322e-02) * ($v_j_temp * #(-7.1851123102163683e-02) + #(-7.1851123102163683e-02) * $v_pres_mod_temp)));
  (*3344*) Do (AddA v_jac 333 (#9.6787547441774335e-01 * ($v_j_temp * #(-7.1851123102163683e-02) + #(-7.1851123102163683e-02) * $v_pres_mod_temp)));
  (*3345*) Do (AddA v_jac 353 (#(-9.0396214243502815e-01) * ($v_j_temp * #(-1.0783165818741525e-01) + #(-1.0783165818741525e-01) * $v_pres_mod_temp)));
  (*3346*) Do (AddA v_jac 338 (#(-3.2478341649959309e-02) * ($v_j_temp * #(-1.0783165818741525e-01) + #(-1.0783165818741525e-01) * $v_pres_mod_temp)));
  (*3347*) Do (AddA v_jac 354 (#9.3644048408498748e-01 * ($v_j_temp * #(-1.0783165818741525e-01) + #(-1.0783165818741525e-01) * $v_pres_mod_temp)));
  (*3348*) Do (AddA v_jac 374 ((- ($v_j_temp * #(-1.4378791924458678e-03) + #(-1.4378791924458678e-03) * $v_pres_mod_temp + v_pres_mod.[9] * ($v_kf * v_conc.[1])))));
  (*3349*) Do (AddA v_jac 359 (#(-3.5928873705342888e-02) * ($v_j_temp * #(-1.4378791924458678e-03) + #(-1.4378791924458678e-03) * $v_pres_mod_temp + v_pres_mod.[9] * ($v_kf * v_conc.[1]))));
  (*3350*) Do (AddA v_jac 375 (#1.0359288737053429e+00 * ($v_j_temp * #(-1.4378791924458678e-03) + #(-1.4378791924458678e-03) * $v_pres_mod_temp + v_pres_mod.[9] * ($v_kf * v_conc.[1]))));
  (*3351*) Do (AddA v_jac 395 (#(-9.6531723884012288e-01) * ($v_j_temp * #(-3.7418414277697654e-02) + #(-3.7418414277697654e-02) * $v_pres_mod_temp + v_pres_mod.[9] * (- $v_kr))));
  (*3352*) Do (AddA v_jac 380 (#(-3.4682761159877090e-02) * ($v_j_temp * #(-3.7418414277697654e-02) + #(-3.7418414277697654e-02) * $v_pres_mod_temp + v_pres_mod.[9] * (- $v_kr))));
  (*3353*) Do (AddA v_jac 396 ($v_j_temp * #(-3.7418414277697654e-02) + #(-3.7418414277697654e-02) * $v_pres_mod_temp + v_pres_mod.[9] * (- $v_kr)));
  (*3354*) Do (AddA v_jac 416 (#(-9.3295962306166613e-01) * ($v_j_temp * #(-7.3398949362949439e-02) + #1.9266010506370506e+00 * $v_pres_mod_temp)));
  (*3355*) Do (AddA v_jac 401 (#(-3.3520188469166906e-02) * ($v_j_temp * #(-7.3398949362949439e-02) + #1.9266010506370506e+00 * $v_pres_mod_temp)));
  (*3356*) Do (AddA v_jac 417 (#9.6647981153083307e-01 * ($v_j_temp * #(-7.3398949362949439e-02) + #1.9266010506370506e+00 * $v_pres_mod_temp)));
  (*3357*) Do (AddA v_jac 437 (#(-7.0225693401421840e-01) * ($v_j_temp * #(-4.2602775520927771e-01) + #(-7.2602775520927776e-01) * $v_pres_mod_temp)));
  (*3358*) Do (AddA v_jac 422 (#(-2.5231300690898170e-02) * ($v_j_temp * #(-4.2602775520927771e-01) + #(-7.2602775520927776e-01) * $v_pres_mod_temp)));
  (*3359*) Do (AddA v_jac 438 (#7.2748823470511659e-01 * ($v_j_temp * #(-4.2602775520927771e-01) + #(-7.2602775520927776e-01) * $v_pres_mod_temp)))]);
([
  (*3362*) Do (Asn v_Pr 0 ($v_conc_temp * (Exp (#4.7391841735846086e+01 - #6.09 * $v_logT - #2.5689358786060257e+03 / $v_T))));
  (*3363*) Do (Asn v_Fcent 0 (#1.5780000000000005e-01 * (Exp ($v_T / #(-1.2500000000000000e+02))) + #8.4219999999999995e-01 * (Exp ($v_T / #(-2.2190000000000000e+03))) + (Exp (#(-6.8820000000000000e+03) / $v_T))));
  (*3364*) Do (Asn v_A 0 ((Log10 (Fmax $v_Pr #1.0e-300)) - #0.67 * (Log10 (Fmax $v_Fcent #1.0e-300)) - #0.4));
  (*3365*) Do (Asn v_B 0 (#0.806 - #1.1762 * (Log10 (Fmax $v_Fcent #1.0e-300)) - #0.14 * (Log10 (Fmax $v_Pr #1.0e-300))));
  (*3366*) Do (Asn v_lnF_AB 0 (#2.0 * (Log (Fmax $v_Fcent #1.0e-300)) * $v_A / ($v_B * $v_B * $v_B * (#1.0 + $v_A * $v_A / ($v_B * $v_B)) * (#1.0 + $v_A * $v_A / ($v_B * $v_B)))));
  (*3367*) Do (Asn v_j_temp 0 ((v_pres_mod.[10] * ((#(-6.0900e+00) + #2.5689358786060257e+03 / $v_T - #1.0) / ($v_T * (#1.0 + $v_Pr)) + (#1.0 / ($v_Fcent * (#1.0 + $v_A * $v_A / ($v_B * $v_B))) - $v_lnF_AB * (#(-2.9097730287517870e-01) * $v_B + #5.1081716961460466e-01 * $v_A) / $v_Fcent) * (#(-1.2624000000000003e-03) * (Exp ($v_T / #(-1.2500000000000000e+02))) - #3.7954033348355115e-04 * (Exp ($v_T / #(-2.2190000000000000e+03))) + #6.8820000000000000e+03 / ($v_T * $v_T) * (Exp (#(-6.8820000000000000e+03) / $v_T))) - $v_lnF_AB * (#4.3429448190325176e-01 * $v_B + #6.0801227466455256e-02 * $v_A) * (#(-6.0899999999999999e+00) + #2.5689358786060257e+03 / $v_T - #1.0) / $v_T) * (v_fwd_rates.[38] - v_rev_rates.[38]) + v_pres_mod.[10] / $v_T * ((v_fwd_rates.[38] - v_rev_rates.[38]) * (#(-9.8999999999999999e-01) + #7.9508691247747697e+02 / $v_T) + v_fwd_rates.[38] * #(-1.0) - v_rev_rates.[38] * ((- $v_T) * (v_dBdT.[18] - v_dBdT.[1] - v_dBdT.[17])))) * $v_rho_inv));
  (*3368*) Do (AddA v_jac 2 ((- $v_j_temp) * #1.0079400000000001e+00));
  (*3369*) Do (AddA v_jac 19 ($v_j_temp * #3.0069640000000000e+01));
  (*3370*) Do (AddA v_jac 18 ((- $v_j_temp) * #2.9061699999999998e+01))],
[
  (*3373*) If ($v_T) (#1000.0)
    [Asn v_Kc 0 (#9.2133753299999954e-01 + #(-1.5150407599999998e+00) * $v_logT + $v_T * (#(-6.5747689035266588e-04) + $v_T * (#1.7049246836659875e-06 + $v_T * (#(-9.1116399185840205e-10) + #1.9088383504638650e-13 * $v_T))) - #(-4.9837491899999994e+04) / $v_T)]
    [Asn v_Kc 0 (#5.4826342439999998e+00 + #(-2.3827749300000001e+00) * $v_logT + $v_T * (#2.1439977615421487e-03 + $v_T * (#(-3.4059000602603242e-07) + $v_T * (#3.8495260394596016e-11 + #(-2.0180657249098672e-15) * $v_T))) - #(-4.9757573099999994e+04) / $v_T)];
  (*3379*) Do (Asn v_Kc 0 (#8.2057360967184814e-02 * (Exp $v_Kc)));
  (*3380*) Do (Asn v_pres_mod_temp 0 ((#1.0 / (#1.0 + $v_Pr) - (Log (Fmax $v_Fcent #1.0e-300)) * #2.0 * $v_A * ($v_B * #0.4342944819032518 + $v_A * #0.06080122746645526) / ($v_B * $v_B * $v_B * (#1.0 + $v_A * $v_A / ($v_B * $v_B)) * (#1.0 + $v_A * $v_A / ($v_B * $v_B)))) * (v_fwd_rates.[38] - v_rev_rates.[38])));
  (*3381*) Do (Asn v_j_temp 0 ((- $v_mw_avg) * $v_rho_inv * v_pres_mod.[10] * (#2.0 * v_fwd_rates.[38] - v_rev_rates.[38] + $v_pres_mod_temp)));
  (*3382*) Do (MulA v_pres_mod_temp 0 ((Exp (#4.7391841735846086e+01 - #6.09 * $v_logT - #2.5689358786060257e+03 / $v_T)) * (Pow $v_Fcent (#1.0 / (#1 + $v_A * $v_A / ($v_B * $v_B)))) / (#1.0 + $v_Pr)));
  (*3383*) Do (Asn v_kf 0 ((Exp (#3.3886771157681913e+01 - #0.99 * $v_logT - #7.9508691247747697e+02 / $v_T))));
  (*3384*) Do (Asn v_kr 0 ($v_kf / $v_Kc));
  (*3385*) Do (AddA v_jac 23 (#(-5.0000000000000000e-01) * ($v_j_temp * #9.2803892982949643e-01 + #1.9280389298294964e+00 * $v_pres_mod_temp)));
  (*3386*) Do (AddA v_jac 40 (#1.4916383911740777e+01 * ($v_j_temp * #9.2803892982949643e-01 + #1.9280389298294964e+00 * $v_pres_mod_temp)));
  (*3387*) Do (AddA v_jac 39 (#(-1.4416383911740777e+01) * ($v_j_temp * #9.2803892982949643e-01 + #1.9280389298294964e+00 * $v_pres_mod_temp)));
  (*3388*) Do (AddA v_jac 44 ((- ($v_j_temp * #9.6401946491474821e-01 + #9.6401946491474821e-01 * $v_pres_mod_temp + v_pres_mod.[10] * ($v_kf * v_conc.[17])))));
  (*3389*) Do (AddA v_jac 61 (#2.9832767823481554e+01 * ($v_j_temp * #9.6401946491474821e-01 + #9.6401946491474821e-01 * $v_pres_mod_temp + v_pres_mod.[10] * ($v_kf * v_conc.[17]))));
  (*3390*) Do (AddA v_jac 60 (#(-2.8832767823481554e+01) * ($v_j_temp * #9.6401946491474821e-01 + #9.6401946491474821e-01 * $v_pres_mod_temp + v_pres_mod.[10] * ($v_kf * v_conc.[17]))));
  (*3391*) Do (AddA v_jac 65 (#(-6.2998612447966798e-02) * ($v_j_temp * #4.2886781649405936e-01 + #4.2886781649405936e-01 * $v_pres_mod_temp)));
  (*3392*) Do (AddA v_jac 82 (#1.8794229783616885e+00 * ($v_j_temp * #4.2886781649405936e-01 + #4.2886781649405936e-01 * $v_pres_mod_temp)));
  (*3393*) Do (AddA v_jac 81 (#(-1.8164243659137218e+00) * ($v_j_temp * #4.2886781649405936e-01 + #4.2886781649405936e-01 * $v_pres_mod_temp)));
  (*3394*) Do (AddA v_jac 86 (#(-3.1499306223983399e-02) * ($v_j_temp * #(-1.4226436701188128e-01) + #(-1.4226436701188128e-01) * $v_pres_mod_temp)));
  (*3395*) Do (AddA v_jac 103 (#9.3971148918084424e-01 * ($v_j_temp * #(-1.4226436701188128e-01) + #(-1.4226436701188128e-01) * $v_pres_mod_temp)));
  (*3396*) Do (AddA v_jac 102 (#(-9.0821218295686090e-01) * ($v_j_temp * #(-1.4226436701188128e-01) + #(-1.4226436701188128e-01) * $v_pres_mod_temp)));
  (*3397*) Do (AddA v_jac 107 (#(-5.9264999700129481e-02) * ($v_j_temp * #3.9288728140880758e-01 + #3.9288728140880758e-01 * $v_pres_mod_temp)));
  (*3398*) Do (AddA v_jac 124 (#1.7680389761126667e+00 * ($v_j_temp * #3.9288728140880758e-01 + #3.9288728140880758e-01 * $v_pres_mod_temp)));
  (*3399*) Do (AddA v_jac 123 (#(-1.7087739764125371e+00) * ($v_j_temp * #3.9288728140880758e-01 + #3.9288728140880758e-01 * $v_pres_mod_temp)));
  (*3400*) Do (AddA v_jac 128 (#(-5.5949172036182618e-02) * ($v_j_temp * #3.5690674632355568e-01 + #5.3569067463235553e+00 * $v_pres_mod_temp)));
  (*3401*) Do (AddA v_jac 145 (#1.6691186592714629e+00 * ($v_j_temp * #3.5690674632355568e-01 + #5.3569067463235553e+00 * $v_pres_mod_temp)));
  (*3402*) Do (AddA v_jac 144 (#(-1.6131694872352802e+00) * ($v_j_temp * #3.5690674632355568e-01 + #5.3569067463235553e+00 * $v_pres_mod_temp)));
  (*3403*) Do (AddA v_jac 149 (#(-3.0537399331166910e-02) * ($v_j_temp * #(-1.7824490209713328e-01) + #(-1.7824490209713328e-01) * $v_pres_mod_temp)));
  (*3404*) Do (AddA v_jac 166 (#9.1101514417964324e-01 * ($v_j_temp * #(-1.7824490209713328e-01) + #(-1.7824490209713328e-01) * $v_pres_mod_temp)));
  (*3405*) Do (AddA v_jac 165 (#(-8.8047774484847630e-01) * ($v_j_temp * #(-1.7824490209713328e-01) + #(-1.7824490209713328e-01) * $v_pres_mod_temp)));
  (*3406*) Do (AddA v_jac 170 (#(-7.1857747410685777e-02) * ($v_j_temp * #4.9928106040377707e-01 + #4.9928106040377707e-01 * $v_pres_mod_temp)));
  (*3407*) Do (AddA v_jac 187 (#2.1437154948213717e+00 * ($v_j_temp * #4.9928106040377707e-01 + #4.9928106040377707e-01 * $v_pres_mod_temp)));
  (*3408*) Do (AddA v_jac 186 (#(-2.0718577474106858e+00) * ($v_j_temp * #4.9928106040377707e-01 + #4.9928106040377707e-01 * $v_pres_mod_temp)));
  (*3409*) Do (AddA v_jac 191 (#(-7.1857747410685777e-02) * ($v_j_temp * #4.9928106040377707e-01 + #4.9928106040377707e-01 * $v_pres_mod_temp)));
  (*3410*) Do (AddA v_jac 208 (#2.1437154948213717e+00 * ($v_j_temp * #4.9928106040377707e-01 + #4.9928106040377707e-01 * $v_pres_mod_temp)));
  (*3411*) Do (AddA v_jac 207 (#(-2.0718577474106858e+00) * ($v_j_temp * #4.9928106040377707e-01 + #4.9928106040377707e-01 * $v_pres_mod_temp)));
  (*3412*) Do (AddA v_jac 212 (#(-6.7040376938333812e-02) * ($v_j_temp * #4.6330052531852528e-01 + #4.6330052531852528e-01 * $v_pres_mod_temp)));
  (*3413*) Do (AddA v_jac 229 (#2.0000000000000000e+00 * ($v_j_temp * #4.6330052531852528e-01 + #4.6330052531852528e-01 * $v_pres_mod_temp)));
  (*3414*) Do (AddA v_jac 228 (#(-1.9329596230616661e+00) * ($v_j_temp * #4.6330052531852528e-01 + #4.6330052531852528e-01 * $v_pres_mod_temp)));
  (*3415*) Do (AddA v_jac 233 (#(-6.2828341257988030e-02) * ($v_j_temp * #4.2731999023327338e-01 + #1.4273199902332734e+00 * $v_pres_mod_temp)));
  (*3416*) Do (AddA v_jac 250 (#1.8743433174840238e+00 * ($v_j_temp * #4.2731999023327338e-01 + #1.4273199902332734e+00 * $v_pres_mod_temp)));
  (*3417*) Do (AddA v_jac 249 (#(-1.8115149762260356e+00) * ($v_j_temp * #4.2731999023327338e-01 + #1.4273199902332734e+00 * $v_pres_mod_temp)));
  (*3418*) Do (AddA v_jac 254 (#(-3.5984491474595155e-02) * ($v_j_temp * #1.0994706834011048e-04 + #5.0010994706834011e-01 * $v_pres_mod_temp)));
  (*3419*) Do (AddA v_jac 271 (#1.0735169794076487e+00 * ($v_j_temp * #1.0994706834011048e-04 + #5.0010994706834011e-01 * $v_pres_mod_temp)));
  (*3420*) Do (AddA v_jac 270 (#(-1.0375324879330534e+00) * ($v_j_temp * #1.0994706834011048e-04 + #5.0010994706834011e-01 * $v_pres_mod_temp)));
  (*3421*) Do (AddA v_jac 275 (#(-2.2902626233248052e-02) * ($v_j_temp * #(-5.7102223643760053e-01) + #4.2897776356239947e-01 * $v_pres_mod_temp)));
  (*3422*) Do (AddA v_jac 292 (#6.8324873096446703e-01 * ($v_j_temp * #(-5.7102223643760053e-01) + #4.2897776356239947e-01 * $v_pres_mod_temp)));
  (*3423*) Do (AddA v_jac 291 (#(-6.6034610473121891e-01) * ($v_j_temp * #(-5.7102223643760053e-01) + #4.2897776356239947e-01 * $v_pres_mod_temp)));
  (*3424*) Do (AddA v_jac 296 (#(-3.4734585093427126e-02) * ($v_j_temp * #(-3.5870588016911675e-02) + #(-3.5870588016911675e-02) * $v_pres_mod_temp)));
  (*3425*) Do (AddA v_jac 313 (#1.0362288125371748e+00 * ($v_j_temp * #(-3.5870588016911675e-02) + #(-3.5870588016911675e-02) * $v_pres_mod_temp)));
  (*3426*) Do (AddA v_jac 312 (#(-1.0014942274437477e+00) * ($v_j_temp * #(-3.5870588016911675e-02) + #(-3.5870588016911675e-02) * $v_pres_mod_temp)));
  (*3427*) Do (AddA v_jac 317 (#(-3.3568593911733322e-02) * ($v_j_temp * #(-7.1851123102163683e-02) + #(-7.1851123102163683e-02) * $v_pres_mod_temp)));
  (*3428*) Do (AddA v_jac 334 (#1.0014440683294767e+00 * ($v_j_temp * #(-7.1851123102163683e-02) + #(-7.1851123102163683e-02) * $v_pres_mod_temp)));
  (*3429*) Do (AddA v_jac 333 (#(-9.6787547441774335e-01) * ($v_j_temp * #(-7.1851123102163683e-02) + #(-7.1851123102163683e-02) * $v_pres_mod_temp)));
  (*3430*) Do (AddA v_jac 338 (#(-3.2478341649959309e-02) * ($v_j_temp * #(-1.0783165818741525e-01) + #(-1.0783165818741525e-01) * $v_pres_mod_temp)));
  (*3431*) Do (AddA v_jac 355 (#9.6891882573494681e-01 * ($v_j_temp * #(-1.0783165818741525e-01) + #(-1.0783165818741525e-01) * $v_pres_mod_temp)));
  (*3432*) Do (AddA v_jac 354 (#(-9.3644048408498748e-01) * ($v_j_temp * #(-1.0783165818741525e-01) + #(-1.0783165818741525e-01) * $v_pres_mod_temp)));
  (*3433*) Do (AddA v_jac 359 (#(-3.5928873705342888e-02) * ($v_j_temp * #(-1.4378791924458678e-03) + #(-1.4378791924458678e-03) * $v_pres_mod_temp)));
  (*3434*) Do (AddA v_jac 376 (#1.0718577474106858e+00 * ($v_j_temp * #(-1.4378791924458678e-03) + #(-1.4378791924458678e-03) * $v_pres_mod_temp)));
  (*3435*) Do (AddA v_jac 375 (#(-1.0359288737053429e+00) * ($v_j_temp * #(-1.4378791924458678e-03) + #(-1.4378791924458678e-03) * $v_pres_mod_temp)));
  (*3436*) Do (AddA v_jac 380 (#(-3.4682761159877090e-02) * ($v_j_temp * #(-3.7418414277697654e-02) + #(-3.7418414277697654e-02) * $v_pres_mod_temp + v_pres_mod.[10] * ($v_kf * v_conc.[1]))));
  (*3437*) Do (AddA v_jac 397 (#1.0346827611598772e+00 * ($v_j_temp * #(-3.7418414277697654e-02) + #(-3.7418414277697654e-02) * $v_pres_mod_temp + v_pres_mod.[10] * ($v_kf * v_conc.[1]))));
  (*3438*) Do (AddA v_jac 396 ((- ($v_j_temp * #(-3.7418414277697654e-02) + #(-3.7418414277697654e-02) * $v_pres_mod_temp + v_pres_mod.[10] * ($v_kf * v_conc.[1])))));
  (*3439*) Do (AddA v_jac 401 (#(-3.3520188469166906e-02) * ($v_j_temp * #(-7.3398949362949439e-02) + #1.9266010506370506e+00 * $v_pres_mod_temp + v_pres_mod.[10] * (- $v_kr))));
  (*3440*) Do (AddA v_jac 418 ($v_j_temp * #(-7.3398949362949439e-02) + #1.9266010506370506e+00 * $v_pres_mod_temp + v_pres_mod.[10] * (- $v_kr)));
  (*3441*) Do (AddA v_jac 417 (#(-9.6647981153083307e-01) * ($v_j_temp * #(-7.3398949362949439e-02) + #1.9266010506370506e+00 * $v_pres_mod_temp + v_pres_mod.[10] * (- $v_kr))));
  (*3442*) Do (AddA v_jac 422 (#(-2.5231300690898170e-02) * ($v_j_temp * #(-4.2602775520927771e-01) + #(-7.2602775520927776e-01) * $v_pres_mod_temp)));
  (*3443*) Do (AddA v_jac 439 (#7.5271953539601477e-01 * ($v_j_temp * #(-4.2602775520927771e-01) + #(-7.2602775520927776e-01) * $v_pres_mod_temp)));
  (*3444*) Do (AddA v_jac 438 (#(-7.2748823470511659e-01) * ($v_j_temp * #(-4.2602775520927771e-01) + #(-7.2602775520927776e-01) * $v_pres_mod_temp)))]);
([
  (*3447*) Do (Asn v_j_temp 0 (#1.0 / $v_T * ((v_fwd_rates.[39] - v_rev_rates.[39]) * (#1.8999999999999999e+00 + #3.7892433233894944e+03 / $v_T) + v_fwd_rates.[39] * #(-1.0) - v_rev_rates.[39] * (#(-1.0) + (- $v_T) * (v_dBdT.[0] + v_dBdT.[17] - v_dBdT.[18] - v_dBdT.[1]))) * $v_rho_inv));
  (*3448*) Do (AddA v_jac 1 ($v_j_temp * #2.0158800000000001e+00));
  (*3449*) Do (AddA v_jac 2 ((- $v_j_temp) * #1.0079400000000001e+00));
  (*3450*) Do (AddA v_jac 19 ((- $v_j_temp) * #3.0069640000000000e+01));
  (*3451*) Do (AddA v_jac 18 ($v_j_temp * #2.9061699999999998e+01))],
[
  (*3454*) If ($v_T) (#1000.0)
    [Asn v_Kc 0 (#3.3107072910000004e+00 + #(-1.4062812000000013e-01) * $v_logT + $v_T * (#4.6477372646473326e-03 + $v_T * (#(-4.9512831830006802e-06) + $v_T * (#2.5909314414749330e-09 + #(-5.5968971545361342e-13) * $v_T))) - #(-2.0277630730000001e+03) / $v_T)]
    [Asn v_Kc 0 (#(-6.1315709060000003e+00) + #1.7200541100000000e+00 * $v_logT + $v_T * (#(-2.1686989750078507e-03) + $v_T * (#4.2383279697396743e-07 + $v_T * (#(-5.3459125772070629e-11) + #3.0193425550901323e-15 * $v_T))) - #(-2.1399056219999966e+03) / $v_T)];
  (*3460*) Do (Asn v_Kc 0 ((Exp $v_Kc)));
  (*3461*) Do (Asn v_j_temp 0 ((- $v_mw_avg) * $v_rho_inv * (#2.0 * v_fwd_rates.[39] - #2.0 * v_rev_rates.[39])));
  (*3462*) Do (Asn v_kf 0 ((Exp (#1.1652687407345388e+01 + #1.9 * $v_logT - #3.7892433233894944e+03 / $v_T))));
  (*3463*) Do (Asn v_kr 0 ($v_kf / $v_Kc));
  (*3464*) Do (AddA v_jac 22 ($v_j_temp * #9.2803892982949643e-01 - $v_kr * v_conc.[17]));
  (*3465*) Do (AddA v_jac 23 (#(-5.0000000000000000e-01) * ($v_j_temp * #9.2803892982949643e-01 - $v_kr * v_conc.[17])));
  (*3466*) Do (AddA v_jac 40 (#(-1.4916383911740777e+01) * ($v_j_temp * #9.2803892982949643e-01 - $v_kr * v_conc.[17])));
  (*3467*) Do (AddA v_jac 39 (#1.4416383911740777e+01 * ($v_j_temp * #9.2803892982949643e-01 - $v_kr * v_conc.[17])));
  (*3468*) Do (AddA v_jac 43 (#2.0000000000000000e+00 * ($v_j_temp * #9.6401946491474821e-01 + $v_kf * v_conc.[18])));
  (*3469*) Do (AddA v_jac 44 ((- ($v_j_temp * #9.6401946491474821e-01 + $v_kf * v_conc.[18]))));
  (*3470*) Do (AddA v_jac 61 (#(-2.9832767823481554e+01) * ($v_j_temp * #9.6401946491474821e-01 + $v_kf * v_conc.[18])));
  (*3471*) Do (AddA v_jac 60 (#2.8832767823481554e+01 * ($v_j_temp * #9.6401946491474821e-01 + $v_kf * v_conc.[18])));
  (*3472*) Do (AddA v_jac 64 (#1.2599722489593360e-01 * ($v_j_temp * #4.2886781649405936e-01)));
  (*3473*) Do (AddA v_jac 65 (#(-6.2998612447966798e-02) * ($v_j_temp * #4.2886781649405936e-01)));
  (*3474*) Do (AddA v_jac 82 (#(-1.8794229783616885e+00) * ($v_j_temp * #4.2886781649405936e-01)));
  (*3475*) Do (AddA v_jac 81 (#1.8164243659137218e+00 * ($v_j_temp * #4.2886781649405936e-01)));
  (*3476*) Do (AddA v_jac 85 (#6.2998612447966798e-02 * ($v_j_temp * #(-1.4226436701188128e-01))));
  (*3477*) Do (AddA v_jac 86 (#(-3.1499306223983399e-02) * ($v_j_temp * #(-1.4226436701188128e-01))));
  (*3478*) Do (AddA v_jac 103 (#(-9.3971148918084424e-01) * ($v_j_temp * #(-1.4226436701188128e-01))));
  (*3479*) Do (AddA v_jac 102 (#9.0821218295686090e-01 * ($v_j_temp * #(-1.4226436701188128e-01))));
  (*3480*) Do (AddA v_jac 106 (#1.1852999940025896e-01 * ($v_j_temp * #3.9288728140880758e-01)));
  (*3481*) Do (AddA v_jac 107 (#(-5.9264999700129481e-02) * ($v_j_temp * #3.9288728140880758e-01)));
  (*3482*) Do (AddA v_jac 124 (#(-1.7680389761126667e+00) * ($v_j_temp * #3.9288728140880758e-01)));
  (*3483*) Do (AddA v_jac 123 (#1.7087739764125371e+00 * ($v_j_temp * #3.9288728140880758e-01)));
  (*3484*) Do (AddA v_jac 127 (#1.1189834407236524e-01 * ($v_j_temp * #3.5690674632355568e-01)));
  (*3485*) Do (AddA v_jac 128 (#(-5.5949172036182618e-02) * ($v_j_temp * #3.5690674632355568e-01)));
  (*3486*) Do (AddA v_jac 145 (#(-1.6691186592714629e+00) * ($v_j_temp * #3.5690674632355568e-01)));
  (*3487*) Do (AddA v_jac 144 (#1.6131694872352802e+00 * ($v_j_temp * #3.5690674632355568e-01)));
  (*3488*) Do (AddA v_jac 148 (#6.1074798662333819e-02 * ($v_j_temp * #(-1.7824490209713328e-01))));
  (*3489*) Do (AddA v_jac 149 (#(-3.0537399331166910e-02) * ($v_j_temp * #(-1.7824490209713328e-01))));
  (*3490*) Do (AddA v_jac 166 (#(-9.1101514417964324e-01) * ($v_j_temp * #(-1.7824490209713328e-01))));
  (*3491*) Do (AddA v_jac 165 (#8.8047774484847630e-01 * ($v_j_temp * #(-1.7824490209713328e-01))));
  (*3492*) Do (AddA v_jac 169 (#1.4371549482137155e-01 * ($v_j_temp * #4.9928106040377707e-01)));
  (*3493*) Do (AddA v_jac 170 (#(-7.1857747410685777e-02) * ($v_j_temp * #4.9928106040377707e-01)));
  (*3494*) Do (AddA v_jac 187 (#(-2.1437154948213717e+00) * ($v_j_temp * #4.9928106040377707e-01)));
  (*3495*) Do (AddA v_jac 186 (#2.0718577474106858e+00 * ($v_j_temp * #4.9928106040377707e-01)));
  (*3496*) Do (AddA v_jac 190 (#1.4371549482137155e-01 * ($v_j_temp * #4.9928106040377707e-01)));
  (*3497*) Do (AddA v_jac 191 (#(-7.1857747410685777e-02) * ($v_j_temp * #4.9928106040377707e-01)));
  (*3498*) Do (AddA v_jac 208 (#(-2.1437154948213717e+00) * ($v_j_temp * #4.9928106040377707e-01)));
  (*3499*) Do (AddA v_jac 207 (#2.0718577474106858e+00 * ($v_j_temp * #4.9928106040377707e-01)));
  (*3500*) Do (AddA v_jac 211 (#1.3408075387666762e-01 * ($v_j_temp * #4.6330052531852528e-01)));
  (*3501*) Do (AddA v_jac 212 (#(-6.7040376938333812e-02) * ($v_j_temp * #4.6330052531852528e-01)));
  (*3502*) Do (AddA v_jac 229 (#(-2.0000000000000000e+00) * ($v_j_temp * #4.6330052531852528e-01)));
  (*3503*) Do (AddA v_jac 228 (#1.9329596230616661e+00 * ($v_j_temp * #4.6330052531852528e-01)));
  (*3504*) Do (AddA v_jac 232 (#1.2565668251597606e-01 * ($v_j_temp * #4.2731999023327338e-01)));
  (*3505*) Do (AddA v_jac 233 (#(-6.2828341257988030e-02) * ($v_j_temp * #4.2731999023327338e-01)));
  (*3506*) Do (AddA v_jac 250 (#(-1.8743433174840238e+00) * ($v_j_temp * #4.2731999023327338e-01)));
  (*3507*) Do (AddA v_jac 249 (#1.8115149762260356e+00 * ($v_j_temp * #4.2731999023327338e-01)));
  (*3508*) Do (AddA v_jac 253 (#7.1968982949190310e-02 * ($v_j_temp * #1.0994706834011048e-04)));
  (*3509*) Do (AddA v_jac 254 (#(-3.5984491474595155e-02) * ($v_j_temp * #1.0994706834011048e-04)));
  (*3510*) Do (AddA v_jac 271 (#(-1.0735169794076487e+00) * ($v_j_temp * #1.0994706834011048e-04)));
  (*3511*) Do (AddA v_jac 270 (#1.0375324879330534e+00 * ($v_j_temp * #1.0994706834011048e-04)));
  (*3512*) Do (AddA v_jac 274 (#4.5805252466496103e-02 * ($v_j_temp * #(-5.7102223643760053e-01))));
  (*3513*) Do (AddA v_jac 275 (#(-2.2902626233248052e-02) * ($v_j_temp * #(-5.7102223643760053e-01))));
  (*3514*) Do (AddA v_jac 292 (#(-6.8324873096446703e-01) * ($v_j_temp * #(-5.7102223643760053e-01))));
  (*3515*) Do (AddA v_jac 291 (#6.6034610473121891e-01 * ($v_j_temp * #(-5.7102223643760053e-01))));
  (*3516*) Do (AddA v_jac 295 (#6.9469170186854251e-02 * ($v_j_temp * #(-3.5870588016911675e-02))));
  (*3517*) Do (AddA v_jac 296 (#(-3.4734585093427126e-02) * ($v_j_temp * #(-3.5870588016911675e-02))));
  (*3518*) Do (AddA v_jac 313 (#(-1.0362288125371748e+00) * ($v_j_temp * #(-3.5870588016911675e-02))));
  (*3519*) Do (AddA v_jac 312 (#1.0014942274437477e+00 * ($v_j_temp * #(-3.5870588016911675e-02))));
  (*3520*) Do (AddA v_jac 316 (#6.7137187823466643e-02 * ($v_j_temp * #(-7.1851123102163683e-02))));
  (*3521*) Do (AddA v_jac 317 (#(-3.3568593911733322e-02) * ($v_j_temp * #(-7.1851123102163683e-02))));
  (*3522*) Do (AddA v_jac 334 (#(-1.0014440683294767e+00) * ($v_j_temp * #(-7.1851123102163683e-02))));
  (*3523*) Do (AddA v_jac 333 (#9.6787547441774335e-01 * ($v_j_temp * #(-7.1851123102163683e-02))));
  (*3524*) Do (AddA v_jac 337 (#6.4956683299918619e-02 * ($v_j_temp * #(-1.0783165818741525e-01))));
  (*3525*) Do (AddA v_jac 338 (#(-3.2478341649959309e-02) * ($v_j_temp * #(-1.0783165818741525e-01))));
  (*3526*) Do (AddA v_jac 355 (#(-9.6891882573494681e-01) * ($v_j_temp * #(-1.0783165818741525e-01))));
  (*3527*) Do (AddA v_jac 354 (#9.3644048408498748e-01 * ($v_j_temp * #(-1.0783165818741525e-01))));
  (*3528*) Do (AddA v_jac 358 (#7.1857747410685777e-02 * ($v_j_temp * #(-1.4378791924458678e-03))));
  (*3529*) Do (AddA v_jac 359 (#(-3.5928873705342888e-02) * ($v_j_temp * #(-1.4378791924458678e-03))));
  (*3530*) Do (AddA v_jac 376 (#(-1.0718577474106858e+00) * ($v_j_temp * #(-1.4378791924458678e-03))));
  (*3531*) Do (AddA v_jac 375 (#1.0359288737053429e+00 * ($v_j_temp * #(-1.4378791924458678e-03))));
  (*3532*) Do (AddA v_jac 379 (#6.9365522319754180e-02 * ($v_j_temp * #(-3.7418414277697654e-02) - $v_kr * v_conc.[0])));
  (*3533*) Do (AddA v_jac 380 (#(-3.4682761159877090e-02) * ($v_j_temp * #(-3.7418414277697654e-02) - $v_kr * v_conc.[0])));
  (*3534*) Do (AddA v_jac 397 (#(-1.0346827611598772e+00) * ($v_j_temp * #(-3.7418414277697654e-02) - $v_kr * v_conc.[0])));
  (*3535*) Do (AddA v_jac 396 ($v_j_temp * #(-3.7418414277697654e-02) - $v_kr * v_conc.[0]));
  (*3536*) Do (AddA v_jac 400 (#6.7040376938333812e-02 * ($v_j_temp * #(-7.3398949362949439e-02) + $v_kf * v_conc.[1])));
  (*3537*) Do (AddA v_jac 401 (#(-3.3520188469166906e-02) * ($v_j_temp * #(-7.3398949362949439e-02) + $v_kf * v_conc.[1])));
  (*3538*) Do (AddA v_jac 418 ((- ($v_j_temp * #(-7.3398949362949439e-02) + $v_kf * v_conc.[1]))));
  (*3539*) Do (AddA v_jac 417 (#9.6647981153083307e-01 * ($v_j_temp * #(-7.3398949362949439e-02) + $v_kf * v_conc.[1])));
  (*3540*) Do (AddA v_jac 421 (#5.0462601381796340e-02 * ($v_j_temp * #(-4.2602775520927771e-01))));
  (*3541*) Do (AddA v_jac 422 (#(-2.5231300690898170e-02) * ($v_j_temp * #(-4.2602775520927771e-01))));
  (*3542*) Do (AddA v_jac 439 (#(-7.5271953539601477e-01) * ($v_j_temp * #(-4.2602775520927771e-01))));
  (*3543*) Do (AddA v_jac 438 (#7.2748823470511659e-01 * ($v_j_temp * #(-4.2602775520927771e-01))))])].

(** [eval_jacob_1], drm19/lib/src/jacobs/jacob_1.c:4-18: declarations. *)
Definition drm19_jac_d1 : list stmt := [
  (*6*) Do (Asn v_logT 0 ((Log $v_T)));
  (*7*) Do (Asn v_kf 0 (#0.0));
  (*8*) Do (Asn v_j_temp 0 (#0.0));
  (*9*) Do (Asn v_pres_mod_temp 0 (#0.0));
  (*10*) Do (Asn v_Kc 0 (#0.0));
  (*11*) Do (Asn v_kr 0 (#0.0));
  (*12*) Do (Asn v_Pr 0 (#0.0));
  (*13*) Do (Asn v_Fcent 0 (#0.0));
  (*14*) Do (Asn v_A 0 (#0.0));
  (*15*) Do (Asn v_B 0 (#0.0));
  (*16*) Do (Asn v_lnF_AB 0 (#0.0));
  (*17*) Do (Asn v_rho_inv 0 (#1.0 / $v_rho))].

(** [eval_jacob_1], drm19/lib/src/jacobs/jacob_1.c:19-3636: for every reaction the blocks "wrt T" and
    "wrt species". *)
Definition drm19_jac_b1 : list (list stmt * list stmt) := [
([
  (*19*) Do (Asn v_conc_temp 0 ($v_m + #1.0 * v_conc.[0] + #5.0 * v_conc.[5] + #1.0 * v_conc.[10] + #0.5 * v_conc.[11] + #1.0 * v_conc.[12] + #2.0 * v_conc.[18] - #0.3 * v_conc.[19]));
  (*20*) Do (Asn v_Pr 0 ($v_conc_temp * (Exp (#3.9308672375802352e+01 - #4.92 * $v_logT - #2.3902929330810221e+03 / $v_T))));
  (*21*) Do (Asn v_Fcent 0 (#6.7999999999999949e-02 * (Exp ($v_T / #(-1.9700000000000003e+02))) + #9.3200000000000005e-01 * (Exp ($v_T / #(-1.5400000000000000e+03))) + (Exp (#(-1.0300000000000000e+04) / $v_T))));
  (*22*) Do (Asn v_A 0 ((Log10 (Fmax $v_Pr #1.0e-300)) - #0.67 * (Log10 (Fmax $v_Fcent #1.0e-300)) - #0.4));
  (*23*) Do (Asn v_B 0 (#0.806 - #1.1762 * (Log10 (Fmax $v_Fcent #1.0e-300)) - #0.14 * (Log10 (Fmax $v_Pr #1.0e-300))));
  (*24*) Do (Asn v_lnF_AB 0 (#2.0 * (Log (Fmax $v_Fcent #1.0e-300)) * $v_A / ($v_B * $v_B * $v_B * (#1.0 + $v_A * $v_A / ($v_B * $v_B)) * (#1.0 + $v_A * $v_A / ($v_B * $v_B)))));
  (*25*) Do (Asn v_j_temp 0 ((v_pres_mod.[11] * ((#(-4.9200e+00) + #2.3902929330810221e+03 / $v_T - #1.0) / ($v_T * (#1.0 + $v_Pr)) + (#1.0 / ($v_Fcent * (#1.0 + $v_A * $v_A / ($v_B * $v_B))) - $v_lnF_AB * (#(-2.9097730287517870e-01) * $v_B + #5.1081716961460466e-01 * $v_A) / $v_Fcent) * (#(-3.4517766497461899e-04) * (Exp ($v_T / #(-1.9700000000000003e+02))) - #6.0519480519480523e-04 * (Exp ($v_T / #(-1.5400000000000000e+03))) + #1.0300000000000000e+04 / ($v_T * $v_T) * (Exp (#(-1.0300000000000000e+04) / $v_T))) - $v_lnF_AB * (#4.3429448190325176e-01 * $v_B + #6.0801227466455256e-02 * $v_A) * (#(-4.9199999999999999e+00) + #2.3902929330810221e+03 / $v_T - #1.0) / $v_T) * (v_fwd_rates.[40] - v_rev_rates.[40]) + v_pres_mod.[11] / $v_T * ((v_fwd_rates.[40] - v_rev_rates.[40]) * (#1.5000000000000000e+00 + #4.0056277362789348e+04 / $v_T) + v_fwd_rates.[40] * #(-1.0) - v_rev_rates.[40] * ((- $v_T) * (v_dBdT.[14] - v_dBdT.[0] - v_dBdT.[11])))) * $v_rho_inv));
  (*26*) Do (AddA v_jac 1 ((- $v_j_temp) * #2.0158800000000001e+00));
  (*27*) Do (AddA v_jac 12 ((- $v_j_temp) * #2.8010399999999997e+01));
  (*28*) Do (AddA v_jac 15 ($v_j_temp * #3.0026280000000000e+01))],
[
  (*31*) If ($v_T) (#1000.0)
    [Asn v_Kc 0 (#(-2.4584651780000000e+00) + #(-1.3014144000000005e-01) * $v_logT + $v_T * (#(-8.6392503799999996e-03) + $v_T * (#9.2972229116666669e-06 + $v_T * (#(-4.9160617819999996e-09) + #1.0728903654500000e-12 * $v_T))) - #9.5306447299999854e+02 / $v_T)]
    [Asn v_Kc 0 (#1.3334433320000000e+01 + #(-3.2917747300000002e+00) * $v_logT + $v_T * (#3.5934379315500000e-03 + $v_T * (#(-6.5386985616666657e-07) + $v_T * (#7.9660458833333329e-11 + #(-4.4023165000000007e-15) * $v_T))) - #1.1061990220000007e+03 / $v_T)];
  (*37*) Do (Asn v_Kc 0 (#8.2057360967184814e-02 * (Exp $v_Kc)));
  (*38*) Do (Asn v_pres_mod_temp 0 ((#1.0 / (#1.0 + $v_Pr) - (Log (Fmax $v_Fcent #1.0e-300)) * #2.0 * $v_A * ($v_B * #0.4342944819032518 + $v_A * #0.06080122746645526) / ($v_B * $v_B * $v_B * (#1.0 + $v_A * $v_A / ($v_B * $v_B)) * (#1.0 + $v_A * $v_A / ($v_B * $v_B)))) * (v_fwd_rates.[40] - v_rev_rates.[40])));
  (*39*) Do (Asn v_j_temp 0 ((- $v_mw_avg) * $v_rho_inv * v_pres_mod.[11] * (#2.0 * v_fwd_rates.[40] - v_rev_rates.[40] + $v_pres_mod_temp)));
  (*40*) Do (MulA v_pres_mod_temp 0 ((Exp (#3.9308672375802352e+01 - #4.92 * $v_logT - #2.3902929330810221e+03 / $v_T)) * (Pow $v_Fcent (#1.0 / (#1 + $v_A * $v_A / ($v_B * $v_B)))) / (#1.0 + $v_Pr)));
  (*41*) Do (Asn v_kf 0 ((Exp (#1.0668955394675699e+01 + #1.5 * $v_logT - #4.0056277362789348e+04 / $v_T))));
  (*42*) Do (Asn v_kr 0 ($v_kf / $v_Kc));
  (*43*) Do (AddA v_jac 22 ((- ($v_j_temp * #9.2803892982949643e-01 + #1.9280389298294964e+00 * $v_pres_mod_temp + v_pres_mod.[11] * ($v_kf * v_conc.[11])))));
  (*44*) Do (AddA v_jac 33 (#(-1.3894874694922315e+01) * ($v_j_temp * #9.2803892982949643e-01 + #1.9280389298294964e+00 * $v_pres_mod_temp + v_pres_mod.[11] * ($v_kf * v_conc.[11]))));
  (*45*) Do (AddA v_jac 36 (#1.4894874694922317e+01 * ($v_j_temp * #9.2803892982949643e-01 + #1.9280389298294964e+00 * $v_pres_mod_temp + v_pres_mod.[11] * ($v_kf * v_conc.[11]))));
  (*46*) Do (AddA v_jac 43 (#(-2.0000000000000000e+00) * ($v_j_temp * #9.6401946491474821e-01 + #9.6401946491474821e-01 * $v_pres_mod_temp)));
  (*47*) Do (AddA v_jac 54 (#(-2.7789749389844630e+01) * ($v_j_temp * #9.6401946491474821e-01 + #9.6401946491474821e-01 * $v_pres_mod_temp)));
  (*48*) Do (AddA v_jac 57 (#2.9789749389844633e+01 * ($v_j_temp * #9.6401946491474821e-01 + #9.6401946491474821e-01 * $v_pres_mod_temp)));
  (*49*) Do (AddA v_jac 64 (#(-1.2599722489593360e-01) * ($v_j_temp * #4.2886781649405936e-01 + #4.2886781649405936e-01 * $v_pres_mod_temp)));
  (*50*) Do (AddA v_jac 75 (#(-1.7507156518369438e+00) * ($v_j_temp * #4.2886781649405936e-01 + #4.2886781649405936e-01 * $v_pres_mod_temp)));
  (*51*) Do (AddA v_jac 78 (#1.8767128767328776e+00 * ($v_j_temp * #4.2886781649405936e-01 + #4.2886781649405936e-01 * $v_pres_mod_temp)));
  (*52*) Do (AddA v_jac 85 (#(-6.2998612447966798e-02) * ($v_j_temp * #(-1.4226436701188128e-01) + #(-1.4226436701188128e-01) * $v_pres_mod_temp)));
  (*53*) Do (AddA v_jac 96 (#(-8.7535782591847189e-01) * ($v_j_temp * #(-1.4226436701188128e-01) + #(-1.4226436701188128e-01) * $v_pres_mod_temp)));
  (*54*) Do (AddA v_jac 99 (#9.3835643836643878e-01 * ($v_j_temp * #(-1.4226436701188128e-01) + #(-1.4226436701188128e-01) * $v_pres_mod_temp)));
  (*55*) Do (AddA v_jac 106 (#(-1.1852999940025896e-01) * ($v_j_temp * #3.9288728140880758e-01 + #3.9288728140880758e-01 * $v_pres_mod_temp)));
  (*56*) Do (AddA v_jac 117 (#(-1.6469594892558153e+00) * ($v_j_temp * #3.9288728140880758e-01 + #3.9288728140880758e-01 * $v_pres_mod_temp)));
  (*57*) Do (AddA v_jac 120 (#1.7654894886560744e+00 * ($v_j_temp * #3.9288728140880758e-01 + #3.9288728140880758e-01 * $v_pres_mod_temp)));
  (*58*) Do (AddA v_jac 127 (#(-1.1189834407236524e-01) * ($v_j_temp * #3.5690674632355568e-01 + #5.3569067463235553e+00 * $v_pres_mod_temp)));
  (*59*) Do (AddA v_jac 138 (#(-1.5548134694548181e+00) * ($v_j_temp * #3.5690674632355568e-01 + #5.3569067463235553e+00 * $v_pres_mod_temp)));
  (*60*) Do (AddA v_jac 141 (#1.6667118135271835e+00 * ($v_j_temp * #3.5690674632355568e-01 + #5.3569067463235553e+00 * $v_pres_mod_temp)));
  (*61*) Do (AddA v_jac 148 (#(-6.1074798662333819e-02) * ($v_j_temp * #(-1.7824490209713328e-01) + #(-1.7824490209713328e-01) * $v_pres_mod_temp)));
  (*62*) Do (AddA v_jac 159 (#(-8.4862667443073736e-01) * ($v_j_temp * #(-1.7824490209713328e-01) + #(-1.7824490209713328e-01) * $v_pres_mod_temp)));
  (*63*) Do (AddA v_jac 162 (#9.0970147309307126e-01 * ($v_j_temp * #(-1.7824490209713328e-01) + #(-1.7824490209713328e-01) * $v_pres_mod_temp)));
  (*64*) Do (AddA v_jac 169 (#(-1.4371549482137155e-01) * ($v_j_temp * #4.9928106040377707e-01 + #4.9928106040377707e-01 * $v_pres_mod_temp)));
  (*65*) Do (AddA v_jac 180 (#(-1.9969087922617146e+00) * ($v_j_temp * #4.9928106040377707e-01 + #4.9928106040377707e-01 * $v_pres_mod_temp)));
  (*66*) Do (AddA v_jac 183 (#2.1406242870830865e+00 * ($v_j_temp * #4.9928106040377707e-01 + #4.9928106040377707e-01 * $v_pres_mod_temp)));
  (*67*) Do (AddA v_jac 190 (#(-1.4371549482137155e-01) * ($v_j_temp * #4.9928106040377707e-01 + #4.9928106040377707e-01 * $v_pres_mod_temp)));
  (*68*) Do (AddA v_jac 201 (#(-1.9969087922617146e+00) * ($v_j_temp * #4.9928106040377707e-01 + #4.9928106040377707e-01 * $v_pres_mod_temp)));
  (*69*) Do (AddA v_jac 204 (#2.1406242870830865e+00 * ($v_j_temp * #4.9928106040377707e-01 + #4.9928106040377707e-01 * $v_pres_mod_temp)));
  (*70*) Do (AddA v_jac 211 (#(-1.3408075387666762e-01) * ($v_j_temp * #4.6330052531852528e-01 + #4.6330052531852528e-01 * $v_pres_mod_temp)));
  (*71*) Do (AddA v_jac 222 (#(-1.8630352741170162e+00) * ($v_j_temp * #4.6330052531852528e-01 + #4.6330052531852528e-01 * $v_pres_mod_temp)));
  (*72*) Do (AddA v_jac 225 (#1.9971160279936839e+00 * ($v_j_temp * #4.6330052531852528e-01 + #4.6330052531852528e-01 * $v_pres_mod_temp)));
  (*73*) Do (AddA v_jac 232 (#(-1.2565668251597606e-01) * ($v_j_temp * #4.2731999023327338e-01 + #1.4273199902332734e+00 * $v_pres_mod_temp)));
  (*74*) Do (AddA v_jac 243 (#(-1.7459838581391229e+00) * ($v_j_temp * #4.2731999023327338e-01 + #1.4273199902332734e+00 * $v_pres_mod_temp)));
  (*75*) Do (AddA v_jac 246 (#1.8716405406550991e+00 * ($v_j_temp * #4.2731999023327338e-01 + #1.4273199902332734e+00 * $v_pres_mod_temp)));
  (*76*) Do (AddA v_jac 253 (#(-7.1968982949190310e-02) * ($v_j_temp * #1.0994706834011048e-04 + #5.0010994706834011e-01 * $v_pres_mod_temp + v_pres_mod.[11] * ($v_kf * v_conc.[0]))));
  (*77*) Do (AddA v_jac 264 ((- ($v_j_temp * #1.0994706834011048e-04 + #5.0010994706834011e-01 * $v_pres_mod_temp + v_pres_mod.[11] * ($v_kf * v_conc.[0])))));
  (*78*) Do (AddA v_jac 267 (#1.0719689829491903e+00 * ($v_j_temp * #1.0994706834011048e-04 + #5.0010994706834011e-01 * $v_pres_mod_temp + v_pres_mod.[11] * ($v_kf * v_conc.[0]))));
  (*79*) Do (AddA v_jac 274 (#(-4.5805252466496103e-02) * ($v_j_temp * #(-5.7102223643760053e-01) + #4.2897776356239947e-01 * $v_pres_mod_temp)));
  (*80*) Do (AddA v_jac 285 (#(-6.3645824339124468e-01) * ($v_j_temp * #(-5.7102223643760053e-01) + #4.2897776356239947e-01 * $v_pres_mod_temp)));
  (*81*) Do (AddA v_jac 288 (#6.8226349585774082e-01 * ($v_j_temp * #(-5.7102223643760053e-01) + #4.2897776356239947e-01 * $v_pres_mod_temp)));
  (*82*) Do (AddA v_jac 295 (#(-6.9469170186854251e-02) * ($v_j_temp * #(-3.5870588016911675e-02) + #(-3.5870588016911675e-02) * $v_pres_mod_temp)));
  (*83*) Do (AddA v_jac 306 (#(-9.6526541490657281e-01) * ($v_j_temp * #(-3.5870588016911675e-02) + #(-3.5870588016911675e-02) * $v_pres_mod_temp)));
  (*84*) Do (AddA v_jac 309 (#1.0347345850934271e+00 * ($v_j_temp * #(-3.5870588016911675e-02) + #(-3.5870588016911675e-02) * $v_pres_mod_temp)));
  (*85*) Do (AddA v_jac 316 (#(-6.7137187823466643e-02) * ($v_j_temp * #(-7.1851123102163683e-02) + #(-7.1851123102163683e-02) * $v_pres_mod_temp + v_pres_mod.[11] * (- $v_kr))));
  (*86*) Do (AddA v_jac 327 (#(-9.3286281217653322e-01) * ($v_j_temp * #(-7.1851123102163683e-02) + #(-7.1851123102163683e-02) * $v_pres_mod_temp + v_pres_mod.[11] * (- $v_kr))));
  (*87*) Do (AddA v_jac 330 ($v_j_temp * #(-7.1851123102163683e-02) + #(-7.1851123102163683e-02) * $v_pres_mod_temp + v_pres_mod.[11] * (- $v_kr)));
  (*88*) Do (AddA v_jac 337 (#(-6.4956683299918619e-02) * ($v_j_temp * #(-1.0783165818741525e-01) + #(-1.0783165818741525e-01) * $v_pres_mod_temp)));
  (*89*) Do (AddA v_jac 348 (#(-9.0256497505012201e-01) * ($v_j_temp * #(-1.0783165818741525e-01) + #(-1.0783165818741525e-01) * $v_pres_mod_temp)));
  (*90*) Do (AddA v_jac 351 (#9.6752165835004078e-01 * ($v_j_temp * #(-1.0783165818741525e-01) + #(-1.0783165818741525e-01) * $v_pres_mod_temp)));
  (*91*) Do (AddA v_jac 358 (#(-7.1857747410685777e-02) * ($v_j_temp * #(-1.4378791924458678e-03) + #(-1.4378791924458678e-03) * $v_pres_mod_temp)));
  (*92*) Do (AddA v_jac 369 (#(-9.9845439613085729e-01) * ($v_j_temp * #(-1.4378791924458678e-03) + #(-1.4378791924458678e-03) * $v_pres_mod_temp)));
  (*93*) Do (AddA v_jac 372 (#1.0703121435415432e+00 * ($v_j_temp * #(-1.4378791924458678e-03) + #(-1.4378791924458678e-03) * $v_pres_mod_temp)));
  (*94*) Do (AddA v_jac 379 (#(-6.9365522319754180e-02) * ($v_j_temp * #(-3.7418414277697654e-02) + #(-3.7418414277697654e-02) * $v_pres_mod_temp)));
  (*95*) Do (AddA v_jac 390 (#(-9.6382524078082144e-01) * ($v_j_temp * #(-3.7418414277697654e-02) + #(-3.7418414277697654e-02) * $v_pres_mod_temp)));
  (*96*) Do (AddA v_jac 393 (#1.0331907631005757e+00 * ($v_j_temp * #(-3.7418414277697654e-02) + #(-3.7418414277697654e-02) * $v_pres_mod_temp)));
  (*97*) Do (AddA v_jac 400 (#(-6.7040376938333812e-02) * ($v_j_temp * #(-7.3398949362949439e-02) + #1.9266010506370506e+00 * $v_pres_mod_temp)));
  (*98*) Do (AddA v_jac 411 (#(-9.3151763705850810e-01) * ($v_j_temp * #(-7.3398949362949439e-02) + #1.9266010506370506e+00 * $v_pres_mod_temp)));
  (*99*) Do (AddA v_jac 414 (#9.9855801399684196e-01 * ($v_j_temp * #(-7.3398949362949439e-02) + #1.9266010506370506e+00 * $v_pres_mod_temp)));
  (*100*) Do (AddA v_jac 421 (#(-5.0462601381796340e-02) * ($v_j_temp * #(-4.2602775520927771e-01) + #(-7.2602775520927776e-01) * $v_pres_mod_temp)));
  (*101*) Do (AddA v_jac 432 (#(-7.0117152297987373e-01) * ($v_j_temp * #(-4.2602775520927771e-01) + #(-7.2602775520927776e-01) * $v_pres_mod_temp)));
  (*102*) Do (AddA v_jac 435 (#7.5163412436167021e-01 * ($v_j_temp * #(-4.2602775520927771e-01) + #(-7.2602775520927776e-01) * $v_pres_mod_temp)))]);
([
  (*105*) Do (Asn v_j_temp 0 (#1.0 / $v_T * ((v_fwd_rates.[41] - v_rev_rates.[41]) * (#1.5100000000000000e+00 + #1.7260431074669279e+03 / $v_T) + v_fwd_rates.[41] * #(-1.0) - v_rev_rates.[41] * (#(-1.0) + (- $v_T) * (v_dBdT.[1] + v_dBdT.[5] - v_dBdT.[0] - v_dBdT.[4]))) * $v_rho_inv));
  (*106*) Do (AddA v_jac 1 ((- $v_j_temp) * #2.0158800000000001e+00));
  (*107*) Do (AddA v_jac 2 ($v_j_temp * #1.0079400000000001e+00));
  (*108*) Do (AddA v_jac 5 ((- $v_j_temp) * #1.7007339999999999e+01));
  (*109*) Do (AddA v_jac 6 ($v_j_temp * #1.8015280000000001e+01))],
[
  (*112*) If ($v_T) (#1000.0)
    [Asn v_Kc 0 (#(-2.2370938509999996e+00) + #3.6229401000000028e-01 * $v_logT + $v_T * (#(-3.8078186646473330e-03) + $v_T * (#3.5634357830006797e-06 + $v_T * (#(-1.8136705573082654e-09) + #3.8919905395361339e-13 * $v_T))) - #(-7.5172121869999974e+03) / $v_T)]
    [Asn v_Kc 0 (#4.1445887660000000e+00 + #(-8.9617436999999978e-01) * $v_logT + $v_T * (#8.3894538700785145e-04 + $v_T * (#(-1.3167241797396752e-07) + $v_T * (#1.4205879822070641e-11 + #(-7.4733377509013206e-16) * $v_T))) - #(-7.4391352780000016e+03) / $v_T)];
  (*118*) Do (Asn v_Kc 0 ((Exp $v_Kc)));
  (*119*) Do (Asn v_j_temp 0 ((- $v_mw_avg) * $v_rho_inv * (#2.0 * v_fwd_rates.[41] - #2.0 * v_rev_rates.[41])));
  (*120*) Do (Asn v_kf 0 ((Exp (#1.2283033686666302e+01 + #1.51 * $v_logT - #1.7260431074669279e+03 / $v_T))));
  (*121*) Do (Asn v_kr 0 ($v_kf / $v_Kc));
  (*122*) Do (AddA v_jac 22 ((- ($v_j_temp * #9.2803892982949643e-01 + $v_kf * v_conc.[4]))));
  (*123*) Do (AddA v_jac 23 (#5.0000000000000000e-01 * ($v_j_temp * #9.2803892982949643e-01 + $v_kf * v_conc.[4])));
  (*124*) Do (AddA v_jac 26 (#(-8.4366827390519266e+00) * ($v_j_temp * #9.2803892982949643e-01 + $v_kf * v_conc.[4])));
  (*125*) Do (AddA v_jac 27 (#8.9366827390519283e+00 * ($v_j_temp * #9.2803892982949643e-01 + $v_kf * v_conc.[4])));
  (*126*) Do (AddA v_jac 43 (#(-2.0000000000000000e+00) * ($v_j_temp * #9.6401946491474821e-01 - $v_kr * v_conc.[5])));
  (*127*) Do (AddA v_jac 44 ($v_j_temp * #9.6401946491474821e-01 - $v_kr * v_conc.[5]));
  (*128*) Do (AddA v_jac 47 (#(-1.6873365478103853e+01) * ($v_j_temp * #9.6401946491474821e-01 - $v_kr * v_conc.[5])));
  (*129*) Do (AddA v_jac 48 (#1.7873365478103857e+01 * ($v_j_temp * #9.6401946491474821e-01 - $v_kr * v_conc.[5])));
  (*130*) Do (AddA v_jac 64 (#(-1.2599722489593360e-01) * ($v_j_temp * #4.2886781649405936e-01)));
  (*131*) Do (AddA v_jac 65 (#6.2998612447966798e-02 * ($v_j_temp * #4.2886781649405936e-01)));
  (*132*) Do (AddA v_jac 68 (#(-1.0629986124479667e+00) * ($v_j_temp * #4.2886781649405936e-01)));
  (*133*) Do (AddA v_jac 69 (#1.1259972248959336e+00 * ($v_j_temp * #4.2886781649405936e-01)));
  (*134*) Do (AddA v_jac 85 (#(-6.2998612447966798e-02) * ($v_j_temp * #(-1.4226436701188128e-01))));
  (*135*) Do (AddA v_jac 86 (#3.1499306223983399e-02 * ($v_j_temp * #(-1.4226436701188128e-01))));
  (*136*) Do (AddA v_jac 89 (#(-5.3149930622398334e-01) * ($v_j_temp * #(-1.4226436701188128e-01))));
  (*137*) Do (AddA v_jac 90 (#5.6299861244796678e-01 * ($v_j_temp * #(-1.4226436701188128e-01))));
  (*138*) Do (AddA v_jac 106 (#(-1.1852999940025896e-01) * ($v_j_temp * #3.9288728140880758e-01 + $v_kf * v_conc.[0])));
  (*139*) Do (AddA v_jac 107 (#5.9264999700129481e-02 * ($v_j_temp * #3.9288728140880758e-01 + $v_kf * v_conc.[0])));
  (*140*) Do (AddA v_jac 110 ((- ($v_j_temp * #3.9288728140880758e-01 + $v_kf * v_conc.[0]))));
  (*141*) Do (AddA v_jac 111 (#1.0592649997001296e+00 * ($v_j_temp * #3.9288728140880758e-01 + $v_kf * v_conc.[0])));
  (*142*) Do (AddA v_jac 127 (#(-1.1189834407236524e-01) * ($v_j_temp * #3.5690674632355568e-01 - $v_kr * v_conc.[1])));
  (*143*) Do (AddA v_jac 128 (#5.5949172036182618e-02 * ($v_j_temp * #3.5690674632355568e-01 - $v_kr * v_conc.[1])));
  (*144*) Do (AddA v_jac 131 (#(-9.4405082796381734e-01) * ($v_j_temp * #3.5690674632355568e-01 - $v_kr * v_conc.[1])));
  (*145*) Do (AddA v_jac 132 ($v_j_temp * #3.5690674632355568e-01 - $v_kr * v_conc.[1]));
  (*146*) Do (AddA v_jac 148 (#(-6.1074798662333819e-02) * ($v_j_temp * #(-1.7824490209713328e-01))));
  (*147*) Do (AddA v_jac 149 (#3.0537399331166910e-02 * ($v_j_temp * #(-1.7824490209713328e-01))));
  (*148*) Do (AddA v_jac 152 (#(-5.1526869966558342e-01) * ($v_j_temp * #(-1.7824490209713328e-01))));
  (*149*) Do (AddA v_jac 153 (#5.4580609899675037e-01 * ($v_j_temp * #(-1.7824490209713328e-01))));
  (*150*) Do (AddA v_jac 169 (#(-1.4371549482137155e-01) * ($v_j_temp * #4.9928106040377707e-01)));
  (*151*) Do (AddA v_jac 170 (#7.1857747410685777e-02 * ($v_j_temp * #4.9928106040377707e-01)));
  (*152*) Do (AddA v_jac 173 (#(-1.2124820344937721e+00) * ($v_j_temp * #4.9928106040377707e-01)));
  (*153*) Do (AddA v_jac 174 (#1.2843397819044580e+00 * ($v_j_temp * #4.9928106040377707e-01)));
  (*154*) Do (AddA v_jac 190 (#(-1.4371549482137155e-01) * ($v_j_temp * #4.9928106040377707e-01)));
  (*155*) Do (AddA v_jac 191 (#7.1857747410685777e-02 * ($v_j_temp * #4.9928106040377707e-01)));
  (*156*) Do (AddA v_jac 194 (#(-1.2124820344937721e+00) * ($v_j_temp * #4.9928106040377707e-01)));
  (*157*) Do (AddA v_jac 195 (#1.2843397819044580e+00 * ($v_j_temp * #4.9928106040377707e-01)));
  (*158*) Do (AddA v_jac 211 (#(-1.3408075387666762e-01) * ($v_j_temp * #4.6330052531852528e-01)));
  (*159*) Do (AddA v_jac 212 (#6.7040376938333812e-02 * ($v_j_temp * #4.6330052531852528e-01)));
  (*160*) Do (AddA v_jac 215 (#(-1.1311967818703517e+00) * ($v_j_temp * #4.6330052531852528e-01)));
  (*161*) Do (AddA v_jac 216 (#1.1982371588086855e+00 * ($v_j_temp * #4.6330052531852528e-01)));
  (*162*) Do (AddA v_jac 232 (#(-1.2565668251597606e-01) * ($v_j_temp * #4.2731999023327338e-01)));
  (*163*) Do (AddA v_jac 233 (#6.2828341257988030e-02 * ($v_j_temp * #4.2731999023327338e-01)));
  (*164*) Do (AddA v_jac 236 (#(-1.0601255644290632e+00) * ($v_j_temp * #4.2731999023327338e-01)));
  (*165*) Do (AddA v_jac 237 (#1.1229539056870512e+00 * ($v_j_temp * #4.2731999023327338e-01)));
  (*166*) Do (AddA v_jac 253 (#(-7.1968982949190310e-02) * ($v_j_temp * #1.0994706834011048e-04)));
  (*167*) Do (AddA v_jac 254 (#3.5984491474595155e-02 * ($v_j_temp * #1.0994706834011048e-04)));
  (*168*) Do (AddA v_jac 257 (#(-6.0717947619455637e-01) * ($v_j_temp * #1.0994706834011048e-04)));
  (*169*) Do (AddA v_jac 258 (#6.4316396766915152e-01 * ($v_j_temp * #1.0994706834011048e-04)));
  (*170*) Do (AddA v_jac 274 (#(-4.5805252466496103e-02) * ($v_j_temp * #(-5.7102223643760053e-01))));
  (*171*) Do (AddA v_jac 275 (#2.2902626233248052e-02 * ($v_j_temp * #(-5.7102223643760053e-01))));
  (*172*) Do (AddA v_jac 278 (#(-3.8644438284200339e-01) * ($v_j_temp * #(-5.7102223643760053e-01))));
  (*173*) Do (AddA v_jac 279 (#4.0934700907525146e-01 * ($v_j_temp * #(-5.7102223643760053e-01))));
  (*174*) Do (AddA v_jac 295 (#(-6.9469170186854251e-02) * ($v_j_temp * #(-3.5870588016911675e-02))));
  (*175*) Do (AddA v_jac 296 (#3.4734585093427126e-02 * ($v_j_temp * #(-3.5870588016911675e-02))));
  (*176*) Do (AddA v_jac 299 (#(-5.8608934901169396e-01) * ($v_j_temp * #(-3.5870588016911675e-02))));
  (*177*) Do (AddA v_jac 300 (#6.2082393410512116e-01 * ($v_j_temp * #(-3.5870588016911675e-02))));
  (*178*) Do (AddA v_jac 316 (#(-6.7137187823466643e-02) * ($v_j_temp * #(-7.1851123102163683e-02))));
  (*179*) Do (AddA v_jac 317 (#3.3568593911733322e-02 * ($v_j_temp * #(-7.1851123102163683e-02))));
  (*180*) Do (AddA v_jac 320 (#(-5.6641515365872830e-01) * ($v_j_temp * #(-7.1851123102163683e-02))));
  (*181*) Do (AddA v_jac 321 (#5.9998374757046158e-01 * ($v_j_temp * #(-7.1851123102163683e-02))));
  (*182*) Do (AddA v_jac 337 (#(-6.4956683299918619e-02) * ($v_j_temp * #(-1.0783165818741525e-01))));
  (*183*) Do (AddA v_jac 338 (#3.2478341649959309e-02 * ($v_j_temp * #(-1.0783165818741525e-01))));
  (*184*) Do (AddA v_jac 341 (#(-5.4801892878248593e-01) * ($v_j_temp * #(-1.0783165818741525e-01))));
  (*185*) Do (AddA v_jac 342 (#5.8049727043244526e-01 * ($v_j_temp * #(-1.0783165818741525e-01))));
  (*186*) Do (AddA v_jac 358 (#(-7.1857747410685777e-02) * ($v_j_temp * #(-1.4378791924458678e-03))));
  (*187*) Do (AddA v_jac 359 (#3.5928873705342888e-02 * ($v_j_temp * #(-1.4378791924458678e-03))));
  (*188*) Do (AddA v_jac 362 (#(-6.0624101724688606e-01) * ($v_j_temp * #(-1.4378791924458678e-03))));
  (*189*) Do (AddA v_jac 363 (#6.4216989095222898e-01 * ($v_j_temp * #(-1.4378791924458678e-03))));
  (*190*) Do (AddA v_jac 379 (#(-6.9365522319754180e-02) * ($v_j_temp * #(-3.7418414277697654e-02))));
  (*191*) Do (AddA v_jac 380 (#3.4682761159877090e-02 * ($v_j_temp * #(-3.7418414277697654e-02))));
  (*192*) Do (AddA v_jac 383 (#(-5.8521490484039129e-01) * ($v_j_temp * #(-3.7418414277697654e-02))));
  (*193*) Do (AddA v_jac 384 (#6.1989766600026841e-01 * ($v_j_temp * #(-3.7418414277697654e-02))));
  (*194*) Do (AddA v_jac 400 (#(-6.7040376938333812e-02) * ($v_j_temp * #(-7.3398949362949439e-02))));
  (*195*) Do (AddA v_jac 401 (#3.3520188469166906e-02 * ($v_j_temp * #(-7.3398949362949439e-02))));
  (*196*) Do (AddA v_jac 404 (#(-5.6559839093517583e-01) * ($v_j_temp * #(-7.3398949362949439e-02))));
  (*197*) Do (AddA v_jac 405 (#5.9911857940434277e-01 * ($v_j_temp * #(-7.3398949362949439e-02))));
  (*198*) Do (AddA v_jac 421 (#(-5.0462601381796340e-02) * ($v_j_temp * #(-4.2602775520927771e-01))));
  (*199*) Do (AddA v_jac 422 (#2.5231300690898170e-02 * ($v_j_temp * #(-4.2602775520927771e-01))));
  (*200*) Do (AddA v_jac 425 (#(-4.2573695804545908e-01) * ($v_j_temp * #(-4.2602775520927771e-01))));
  (*201*) Do (AddA v_jac 426 (#4.5096825873635726e-01 * ($v_j_temp * #(-4.2602775520927771e-01))))]);
([
  (*204*) Do (Asn v_j_temp 0 (#1.0 / $v_T * ((v_fwd_rates.[42] - v_rev_rates.[42]) * (#2.3999999999999999e+00 + #(-1.0617932818528332e+03) / $v_T) + v_fwd_rates.[42] * #(-1.0) - v_rev_rates.[42] * (#(-1.0) + (- $v_T) * (v_dBdT.[5] + v_dBdT.[2] - #2.0 * v_dBdT.[4]))) * $v_rho_inv));
  (*205*) Do (AddA v_jac 3 ($v_j_temp * #1.5999400000000000e+01));
  (*206*) Do (AddA v_jac 5 ($v_j_temp * #(-2.0) * #1.7007339999999999e+01));
  (*207*) Do (AddA v_jac 6 ($v_j_temp * #1.8015280000000001e+01))],
[
  (*210*) If ($v_T) (#1000.0)
    [Asn v_Kc 0 (#2.0278753680000001e+00 + #(-6.1712319999999954e-01) * $v_logT + $v_T * (#(-2.5655894999999994e-04) + $v_T * (#6.5459820833333341e-07 + $v_T * (#(-3.2114751666666664e-10) + #5.7820423999999999e-14 * $v_T))) - #(-8.4016286199999995e+03) / $v_T)]
    [Asn v_Kc 0 (#1.3800786099999995e+00 + #(-5.8236206999999984e-01) * $v_logT + $v_T * (#4.9704224715000007e-04 + $v_T * (#(-6.2522419183333327e-08) + $v_T * (#5.7360453583333335e-12 + #(-2.7170195449999994e-16) * $v_T))) - #(-8.5040320000000029e+03) / $v_T)];
  (*216*) Do (Asn v_Kc 0 ((Exp $v_Kc)));
  (*217*) Do (Asn v_j_temp 0 ((- $v_mw_avg) * $v_rho_inv * (#2.0 * v_fwd_rates.[42] - #2.0 * v_rev_rates.[42])));
  (*218*) Do (Asn v_kf 0 ((Exp (#3.5751506887855933e+00 + #2.4 * $v_logT - #(-1.0617932818528332e+03) / $v_T))));
  (*219*) Do (Asn v_kr 0 ($v_kf / $v_Kc));
  (*220*) Do (AddA v_jac 24 (#7.9366827390519274e+00 * ($v_j_temp * #9.2803892982949643e-01)));
  (*221*) Do (AddA v_jac 26 (#(-1.6873365478103853e+01) * ($v_j_temp * #9.2803892982949643e-01)));
  (*222*) Do (AddA v_jac 27 (#8.9366827390519283e+00 * ($v_j_temp * #9.2803892982949643e-01)));
  (*223*) Do (AddA v_jac 45 (#1.5873365478103855e+01 * ($v_j_temp * #9.6401946491474821e-01)));
  (*224*) Do (AddA v_jac 47 (#(-3.3746730956207706e+01) * ($v_j_temp * #9.6401946491474821e-01)));
  (*225*) Do (AddA v_jac 48 (#1.7873365478103857e+01 * ($v_j_temp * #9.6401946491474821e-01)));
  (*226*) Do (AddA v_jac 66 ($v_j_temp * #4.2886781649405936e-01 - $v_kr * v_conc.[5]));
  (*227*) Do (AddA v_jac 68 (#(-2.1259972248959333e+00) * ($v_j_temp * #4.2886781649405936e-01 - $v_kr * v_conc.[5])));
  (*228*) Do (AddA v_jac 69 (#1.1259972248959336e+00 * ($v_j_temp * #4.2886781649405936e-01 - $v_kr * v_conc.[5])));
  (*229*) Do (AddA v_jac 87 (#5.0000000000000000e-01 * ($v_j_temp * #(-1.4226436701188128e-01))));
  (*230*) Do (AddA v_jac 89 (#(-1.0629986124479667e+00) * ($v_j_temp * #(-1.4226436701188128e-01))));
  (*231*) Do (AddA v_jac 90 (#5.6299861244796678e-01 * ($v_j_temp * #(-1.4226436701188128e-01))));
  (*232*) Do (AddA v_jac 108 (#9.4073500029987056e-01 * ($v_j_temp * #3.9288728140880758e-01 + $v_kf * #2.0 * v_conc.[4])));
  (*233*) Do (AddA v_jac 110 (#(-2.0000000000000000e+00) * ($v_j_temp * #3.9288728140880758e-01 + $v_kf * #2.0 * v_conc.[4])));
  (*234*) Do (AddA v_jac 111 (#1.0592649997001296e+00 * ($v_j_temp * #3.9288728140880758e-01 + $v_kf * #2.0 * v_conc.[4])));
  (*235*) Do (AddA v_jac 129 (#8.8810165592763468e-01 * ($v_j_temp * #3.5690674632355568e-01 - $v_kr * v_conc.[2])));
  (*236*) Do (AddA v_jac 131 (#(-1.8881016559276347e+00) * ($v_j_temp * #3.5690674632355568e-01 - $v_kr * v_conc.[2])));
  (*237*) Do (AddA v_jac 132 ($v_j_temp * #3.5690674632355568e-01 - $v_kr * v_conc.[2]));
  (*238*) Do (AddA v_jac 150 (#4.8473130033441653e-01 * ($v_j_temp * #(-1.7824490209713328e-01))));
  (*239*) Do (AddA v_jac 152 (#(-1.0305373993311668e+00) * ($v_j_temp * #(-1.7824490209713328e-01))));
  (*240*) Do (AddA v_jac 153 (#5.4580609899675037e-01 * ($v_j_temp * #(-1.7824490209713328e-01))));
  (*241*) Do (AddA v_jac 171 (#1.1406242870830863e+00 * ($v_j_temp * #4.9928106040377707e-01)));
  (*242*) Do (AddA v_jac 173 (#(-2.4249640689875442e+00) * ($v_j_temp * #4.9928106040377707e-01)));
  (*243*) Do (AddA v_jac 174 (#1.2843397819044580e+00 * ($v_j_temp * #4.9928106040377707e-01)));
  (*244*) Do (AddA v_jac 192 (#1.1406242870830863e+00 * ($v_j_temp * #4.9928106040377707e-01)));
  (*245*) Do (AddA v_jac 194 (#(-2.4249640689875442e+00) * ($v_j_temp * #4.9928106040377707e-01)));
  (*246*) Do (AddA v_jac 195 (#1.2843397819044580e+00 * ($v_j_temp * #4.9928106040377707e-01)));
  (*247*) Do (AddA v_jac 213 (#1.0641564049320178e+00 * ($v_j_temp * #4.6330052531852528e-01)));
  (*248*) Do (AddA v_jac 215 (#(-2.2623935637407033e+00) * ($v_j_temp * #4.6330052531852528e-01)));
  (*249*) Do (AddA v_jac 216 (#1.1982371588086855e+00 * ($v_j_temp * #4.6330052531852528e-01)));
  (*250*) Do (AddA v_jac 234 (#9.9729722317107516e-01 * ($v_j_temp * #4.2731999023327338e-01)));
  (*251*) Do (AddA v_jac 236 (#(-2.1202511288581265e+00) * ($v_j_temp * #4.2731999023327338e-01)));
  (*252*) Do (AddA v_jac 237 (#1.1229539056870512e+00 * ($v_j_temp * #4.2731999023327338e-01)));
  (*253*) Do (AddA v_jac 255 (#5.7119498471996122e-01 * ($v_j_temp * #1.0994706834011048e-04)));
  (*254*) Do (AddA v_jac 257 (#(-1.2143589523891127e+00) * ($v_j_temp * #1.0994706834011048e-04)));
  (*255*) Do (AddA v_jac 258 (#6.4316396766915152e-01 * ($v_j_temp * #1.0994706834011048e-04)));
  (*256*) Do (AddA v_jac 276 (#3.6354175660875532e-01 * ($v_j_temp * #(-5.7102223643760053e-01))));
  (*257*) Do (AddA v_jac 278 (#(-7.7288876568400677e-01) * ($v_j_temp * #(-5.7102223643760053e-01))));
  (*258*) Do (AddA v_jac 279 (#4.0934700907525146e-01 * ($v_j_temp * #(-5.7102223643760053e-01))));
  (*259*) Do (AddA v_jac 297 (#5.5135476391826688e-01 * ($v_j_temp * #(-3.5870588016911675e-02))));
  (*260*) Do (AddA v_jac 299 (#(-1.1721786980233879e+00) * ($v_j_temp * #(-3.5870588016911675e-02))));
  (*261*) Do (AddA v_jac 300 (#6.2082393410512116e-01 * ($v_j_temp * #(-3.5870588016911675e-02))));
  (*262*) Do (AddA v_jac 318 (#5.3284655974699491e-01 * ($v_j_temp * #(-7.1851123102163683e-02))));
  (*263*) Do (AddA v_jac 320 (#(-1.1328303073174566e+00) * ($v_j_temp * #(-7.1851123102163683e-02))));
  (*264*) Do (AddA v_jac 321 (#5.9998374757046158e-01 * ($v_j_temp * #(-7.1851123102163683e-02))));
  (*265*) Do (AddA v_jac 339 (#5.1554058713252660e-01 * ($v_j_temp * #(-1.0783165818741525e-01))));
  (*266*) Do (AddA v_jac 341 (#(-1.0960378575649719e+00) * ($v_j_temp * #(-1.0783165818741525e-01))));
  (*267*) Do (AddA v_jac 342 (#5.8049727043244526e-01 * ($v_j_temp * #(-1.0783165818741525e-01))));
  (*268*) Do (AddA v_jac 360 (#5.7031214354154314e-01 * ($v_j_temp * #(-1.4378791924458678e-03))));
  (*269*) Do (AddA v_jac 362 (#(-1.2124820344937721e+00) * ($v_j_temp * #(-1.4378791924458678e-03))));
  (*270*) Do (AddA v_jac 363 (#6.4216989095222898e-01 * ($v_j_temp * #(-1.4378791924458678e-03))));
  (*271*) Do (AddA v_jac 381 (#5.5053214368051429e-01 * ($v_j_temp * #(-3.7418414277697654e-02))));
  (*272*) Do (AddA v_jac 383 (#(-1.1704298096807826e+00) * ($v_j_temp * #(-3.7418414277697654e-02))));
  (*273*) Do (AddA v_jac 384 (#6.1989766600026841e-01 * ($v_j_temp * #(-3.7418414277697654e-02))));
  (*274*) Do (AddA v_jac 402 (#5.3207820246600890e-01 * ($v_j_temp * #(-7.3398949362949439e-02))));
  (*275*) Do (AddA v_jac 404 (#(-1.1311967818703517e+00) * ($v_j_temp * #(-7.3398949362949439e-02))));
  (*276*) Do (AddA v_jac 405 (#5.9911857940434277e-01 * ($v_j_temp * #(-7.3398949362949439e-02))));
  (*277*) Do (AddA v_jac 423 (#4.0050565735456090e-01 * ($v_j_temp * #(-4.2602775520927771e-01))));
  (*278*) Do (AddA v_jac 425 (#(-8.5147391609091816e-01) * ($v_j_temp * #(-4.2602775520927771e-01))));
  (*279*) Do (AddA v_jac 426 (#4.5096825873635726e-01 * ($v_j_temp * #(-4.2602775520927771e-01))))]);
([
  (*282*) Do (Asn v_j_temp 0 (#1.0 / $v_T * ((v_fwd_rates.[43] - v_rev_rates.[43]) * (#(-2.5160978242958132e+02) / $v_T) + v_fwd_rates.[43] * #(-1.0) - v_rev_rates.[43] * (#(-1.0) + (- $v_T) * (v_dBdT.[5] + v_dBdT.[3] - v_dBdT.[6] - v_dBdT.[4]))) * $v_rho_inv));
  (*283*) Do (AddA v_jac 4 ($v_j_temp * #3.1998799999999999e+01));
  (*284*) Do (AddA v_jac 5 ((- $v_j_temp) * #1.7007339999999999e+01));
  (*285*) Do (AddA v_jac 6 ($v_j_temp * #1.8015280000000001e+01));
  (*286*) Do (AddA v_jac 7 ((- $v_j_temp) * #3.3006740000000001e+01))],
[
  (*289*) If ($v_T) (#1000.0)
    [Asn v_Kc 0 (#(-4.9137694999999981e-01) + #(-3.1271651999999950e-01) * $v_logT + $v_T * (#1.0586348849999999e-03 + $v_T * (#(-1.5680872316666664e-06) + $v_T * (#1.0823547516666667e-09 + #(-2.8203297000000007e-13) * $v_T))) - #(-3.5267558860000005e+04) / $v_T)]
    [Asn v_Kc 0 (#2.9517713799999998e+00 + #(-7.9356824000000037e-01) * $v_logT + $v_T * (#4.3587786700000010e-04 + $v_T * (#(-6.9147710833333326e-08) + $v_T * (#7.1773627999999992e-12 + #(-2.9010321499999993e-16) * $v_T))) - #(-3.5063268533000002e+04) / $v_T)];
  (*295*) Do (Asn v_Kc 0 ((Exp $v_Kc)));
  (*296*) Do (Asn v_j_temp 0 ((- $v_mw_avg) * $v_rho_inv * (#2.0 * v_fwd_rates.[43] - #2.0 * v_rev_rates.[43])));
  (*297*) Do (Asn v_kf 0 ((Exp (#2.4090561666932885e+01 - #(-2.5160978242958132e+02) / $v_T))));
  (*298*) Do (Asn v_kr 0 ($v_kf / $v_Kc));
  (*299*) Do (AddA v_jac 25 (#1.5873365478103855e+01 * ($v_j_temp * #9.2803892982949643e-01)));
  (*300*) Do (AddA v_jac 26 (#(-8.4366827390519266e+00) * ($v_j_temp * #9.2803892982949643e-01)));
  (*301*) Do (AddA v_jac 27 (#8.9366827390519283e+00 * ($v_j_temp * #9.2803892982949643e-01)));
  (*302*) Do (AddA v_jac 28 (#(-1.6373365478103853e+01) * ($v_j_temp * #9.2803892982949643e-01)));
  (*303*) Do (AddA v_jac 46 (#3.1746730956207710e+01 * ($v_j_temp * #9.6401946491474821e-01)));
  (*304*) Do (AddA v_jac 47 (#(-1.6873365478103853e+01) * ($v_j_temp * #9.6401946491474821e-01)));
  (*305*) Do (AddA v_jac 48 (#1.7873365478103857e+01 * ($v_j_temp * #9.6401946491474821e-01)));
  (*306*) Do (AddA v_jac 49 (#(-3.2746730956207706e+01) * ($v_j_temp * #9.6401946491474821e-01)));
  (*307*) Do (AddA v_jac 67 (#2.0000000000000000e+00 * ($v_j_temp * #4.2886781649405936e-01)));
  (*308*) Do (AddA v_jac 68 (#(-1.0629986124479667e+00) * ($v_j_temp * #4.2886781649405936e-01)));
  (*309*) Do (AddA v_jac 69 (#1.1259972248959336e+00 * ($v_j_temp * #4.2886781649405936e-01)));
  (*310*) Do (AddA v_jac 70 (#(-2.0629986124479669e+00) * ($v_j_temp * #4.2886781649405936e-01)));
  (*311*) Do (AddA v_jac 88 ($v_j_temp * #(-1.4226436701188128e-01) - $v_kr * v_conc.[5]));
  (*312*) Do (AddA v_jac 89 (#(-5.3149930622398334e-01) * ($v_j_temp * #(-1.4226436701188128e-01) - $v_kr * v_conc.[5])));
  (*313*) Do (AddA v_jac 90 (#5.6299861244796678e-01 * ($v_j_temp * #(-1.4226436701188128e-01) - $v_kr * v_conc.[5])));
  (*314*) Do (AddA v_jac 91 (#(-1.0314993062239834e+00) * ($v_j_temp * #(-1.4226436701188128e-01) - $v_kr * v_conc.[5])));
  (*315*) Do (AddA v_jac 109 (#1.8814700005997411e+00 * ($v_j_temp * #3.9288728140880758e-01 + $v_kf * v_conc.[6])));
  (*316*) Do (AddA v_jac 110 ((- ($v_j_temp * #3.9288728140880758e-01 + $v_kf * v_conc.[6]))));
  (*317*) Do (AddA v_jac 111 (#1.0592649997001296e+00 * ($v_j_temp * #3.9288728140880758e-01 + $v_kf * v_conc.[6])));
  (*318*) Do (AddA v_jac 112 (#(-1.9407350002998707e+00) * ($v_j_temp * #3.9288728140880758e-01 + $v_kf * v_conc.[6])));
  (*319*) Do (AddA v_jac 130 (#1.7762033118552694e+00 * ($v_j_temp * #3.5690674632355568e-01 - $v_kr * v_conc.[3])));
  (*320*) Do (AddA v_jac 131 (#(-9.4405082796381734e-01) * ($v_j_temp * #3.5690674632355568e-01 - $v_kr * v_conc.[3])));
  (*321*) Do (AddA v_jac 132 ($v_j_temp * #3.5690674632355568e-01 - $v_kr * v_conc.[3]));
  (*322*) Do (AddA v_jac 133 (#(-1.8321524838914520e+00) * ($v_j_temp * #3.5690674632355568e-01 - $v_kr * v_conc.[3])));
  (*323*) Do (AddA v_jac 151 (#9.6946260066883305e-01 * ($v_j_temp * #(-1.7824490209713328e-01) + $v_kf * v_conc.[4])));
  (*324*) Do (AddA v_jac 152 (#(-5.1526869966558342e-01) * ($v_j_temp * #(-1.7824490209713328e-01) + $v_kf * v_conc.[4])));
  (*325*) Do (AddA v_jac 153 (#5.4580609899675037e-01 * ($v_j_temp * #(-1.7824490209713328e-01) + $v_kf * v_conc.[4])));
  (*326*) Do (AddA v_jac 154 ((- ($v_j_temp * #(-1.7824490209713328e-01) + $v_kf * v_conc.[4]))));
  (*327*) Do (AddA v_jac 172 (#2.2812485741661725e+00 * ($v_j_temp * #4.9928106040377707e-01)));
  (*328*) Do (AddA v_jac 173 (#(-1.2124820344937721e+00) * ($v_j_temp * #4.9928106040377707e-01)));
  (*329*) Do (AddA v_jac 174 (#1.2843397819044580e+00 * ($v_j_temp * #4.9928106040377707e-01)));
  (*330*) Do (AddA v_jac 175 (#(-2.3531063215768584e+00) * ($v_j_temp * #4.9928106040377707e-01)));
  (*331*) Do (AddA v_jac 193 (#2.2812485741661725e+00 * ($v_j_temp * #4.9928106040377707e-01)));
  (*332*) Do (AddA v_jac 194 (#(-1.2124820344937721e+00) * ($v_j_temp * #4.9928106040377707e-01)));
  (*333*) Do (AddA v_jac 195 (#1.2843397819044580e+00 * ($v_j_temp * #4.9928106040377707e-01)));
  (*334*) Do (AddA v_jac 196 (#(-2.3531063215768584e+00) * ($v_j_temp * #4.9928106040377707e-01)));
  (*335*) Do (AddA v_jac 214 (#2.1283128098640356e+00 * ($v_j_temp * #4.6330052531852528e-01)));
  (*336*) Do (AddA v_jac 215 (#(-1.1311967818703517e+00) * ($v_j_temp * #4.6330052531852528e-01)));
  (*337*) Do (AddA v_jac 216 (#1.1982371588086855e+00 * ($v_j_temp * #4.6330052531852528e-01)));
  (*338*) Do (AddA v_jac 217 (#(-2.1953531868023695e+00) * ($v_j_temp * #4.6330052531852528e-01)));
  (*339*) Do (AddA v_jac 235 (#1.9945944463421503e+00 * ($v_j_temp * #4.2731999023327338e-01)));
  (*340*) Do (AddA v_jac 236 (#(-1.0601255644290632e+00) * ($v_j_temp * #4.2731999023327338e-01)));
  (*341*) Do (AddA v_jac 237 (#1.1229539056870512e+00 * ($v_j_temp * #4.2731999023327338e-01)));
  (*342*) Do (AddA v_jac 238 (#(-2.0574227876001383e+00) * ($v_j_temp * #4.2731999023327338e-01)));
  (*343*) Do (AddA v_jac 256 (#1.1423899694399224e+00 * ($v_j_temp * #1.0994706834011048e-04)));
  (*344*) Do (AddA v_jac 257 (#(-6.0717947619455637e-01) * ($v_j_temp * #1.0994706834011048e-04)));
  (*345*) Do (AddA v_jac 258 (#6.4316396766915152e-01 * ($v_j_temp * #1.0994706834011048e-04)));
  (*346*) Do (AddA v_jac 259 (#(-1.1783744609145177e+00) * ($v_j_temp * #1.0994706834011048e-04)));
  (*347*) Do (AddA v_jac 277 (#7.2708351321751064e-01 * ($v_j_temp * #(-5.7102223643760053e-01))));
  (*348*) Do (AddA v_jac 278 (#(-3.8644438284200339e-01) * ($v_j_temp * #(-5.7102223643760053e-01))));
  (*349*) Do (AddA v_jac 279 (#4.0934700907525146e-01 * ($v_j_temp * #(-5.7102223643760053e-01))));
  (*350*) Do (AddA v_jac 280 (#(-7.4998613945075876e-01) * ($v_j_temp * #(-5.7102223643760053e-01))));
  (*351*) Do (AddA v_jac 298 (#1.1027095278365338e+00 * ($v_j_temp * #(-3.5870588016911675e-02))));
  (*352*) Do (AddA v_jac 299 (#(-5.8608934901169396e-01) * ($v_j_temp * #(-3.5870588016911675e-02))));
  (*353*) Do (AddA v_jac 300 (#6.2082393410512116e-01 * ($v_j_temp * #(-3.5870588016911675e-02))));
  (*354*) Do (AddA v_jac 301 (#(-1.1374441129299608e+00) * ($v_j_temp * #(-3.5870588016911675e-02))));
  (*355*) Do (AddA v_jac 319 (#1.0656931194939898e+00 * ($v_j_temp * #(-7.1851123102163683e-02))));
  (*356*) Do (AddA v_jac 320 (#(-5.6641515365872830e-01) * ($v_j_temp * #(-7.1851123102163683e-02))));
  (*357*) Do (AddA v_jac 321 (#5.9998374757046158e-01 * ($v_j_temp * #(-7.1851123102163683e-02))));
  (*358*) Do (AddA v_jac 322 (#(-1.0992617134057232e+00) * ($v_j_temp * #(-7.1851123102163683e-02))));
  (*359*) Do (AddA v_jac 340 (#1.0310811742650532e+00 * ($v_j_temp * #(-1.0783165818741525e-01))));
  (*360*) Do (AddA v_jac 341 (#(-5.4801892878248593e-01) * ($v_j_temp * #(-1.0783165818741525e-01))));
  (*361*) Do (AddA v_jac 342 (#5.8049727043244526e-01 * ($v_j_temp * #(-1.0783165818741525e-01))));
  (*362*) Do (AddA v_jac 343 (#(-1.0635595159150126e+00) * ($v_j_temp * #(-1.0783165818741525e-01))));
  (*363*) Do (AddA v_jac 361 (#1.1406242870830863e+00 * ($v_j_temp * #(-1.4378791924458678e-03))));
  (*364*) Do (AddA v_jac 362 (#(-6.0624101724688606e-01) * ($v_j_temp * #(-1.4378791924458678e-03))));
  (*365*) Do (AddA v_jac 363 (#6.4216989095222898e-01 * ($v_j_temp * #(-1.4378791924458678e-03))));
  (*366*) Do (AddA v_jac 364 (#(-1.1765531607884292e+00) * ($v_j_temp * #(-1.4378791924458678e-03))));
  (*367*) Do (AddA v_jac 382 (#1.1010642873610286e+00 * ($v_j_temp * #(-3.7418414277697654e-02))));
  (*368*) Do (AddA v_jac 383 (#(-5.8521490484039129e-01) * ($v_j_temp * #(-3.7418414277697654e-02))));
  (*369*) Do (AddA v_jac 384 (#6.1989766600026841e-01 * ($v_j_temp * #(-3.7418414277697654e-02))));
  (*370*) Do (AddA v_jac 385 (#(-1.1357470485209056e+00) * ($v_j_temp * #(-3.7418414277697654e-02))));
  (*371*) Do (AddA v_jac 403 (#1.0641564049320178e+00 * ($v_j_temp * #(-7.3398949362949439e-02))));
  (*372*) Do (AddA v_jac 404 (#(-5.6559839093517583e-01) * ($v_j_temp * #(-7.3398949362949439e-02))));
  (*373*) Do (AddA v_jac 405 (#5.9911857940434277e-01 * ($v_j_temp * #(-7.3398949362949439e-02))));
  (*374*) Do (AddA v_jac 406 (#(-1.0976765934011847e+00) * ($v_j_temp * #(-7.3398949362949439e-02))));
  (*375*) Do (AddA v_jac 424 (#8.0101131470912179e-01 * ($v_j_temp * #(-4.2602775520927771e-01))));
  (*376*) Do (AddA v_jac 425 (#(-4.2573695804545908e-01) * ($v_j_temp * #(-4.2602775520927771e-01))));
  (*377*) Do (AddA v_jac 426 (#4.5096825873635726e-01 * ($v_j_temp * #(-4.2602775520927771e-01))));
  (*378*) Do (AddA v_jac 427 (#(-8.2624261540002009e-01) * ($v_j_temp * #(-4.2602775520927771e-01))))]);
([
  (*381*) Do (Asn v_j_temp 0 (#1.0 / $v_T * (v_fwd_rates.[44] * #(-1.0) - v_rev_rates.[44] * (#(-1.0) + (- $v_T) * (v_dBdT.[14] + v_dBdT.[1] - v_dBdT.[7] - v_dBdT.[4]))) * $v_rho_inv));
  (*382*) Do (AddA v_jac 2 ($v_j_temp * #1.0079400000000001e+00));
  (*383*) Do (AddA v_jac 5 ((- $v_j_temp) * #1.7007339999999999e+01));
  (*384*) Do (AddA v_jac 15 ($v_j_temp * #3.0026280000000000e+01));
  (*385*) Do (AddA v_jac 8 ((- $v_j_temp) * #1.4026879999999998e+01))],
[
  (*388*) If ($v_T) (#1000.0)
    [Asn v_Kc 0 (#(-8.4150539499999955e-01) + #(-4.6097095000000010e-01) * $v_logT + $v_T * (#(-4.2379441561473333e-03) + $v_T * (#4.9848606630006789e-06 + $v_T * (#(-2.5163734364749319e-09) + #5.0628666545361342e-13 * $v_T))) - #(-3.8454417459999997e+04) / $v_T)]
    [Asn v_Kc 0 (#4.2680494560000017e+00 + #(-1.7062987100000002e+00) * $v_logT + $v_T * (#2.4975890804578519e-03 + $v_T * (#(-5.2335789530730089e-07) + $v_T * (#6.9514893488737301e-11 + #(-4.0677022200901327e-15) * $v_T))) - #(-3.8644433400000002e+04) / $v_T)];
  (*394*) Do (Asn v_Kc 0 ((Exp $v_Kc)));
  (*395*) Do (Asn v_j_temp 0 ((- $v_mw_avg) * $v_rho_inv * (#2.0 * v_fwd_rates.[44] - #2.0 * v_rev_rates.[44])));
  (*396*) Do (Asn v_kf 0 (#20000000000.0));
  (*397*) Do (Asn v_kr 0 ($v_kf / $v_Kc));
  (*398*) Do (AddA v_jac 23 (#5.0000000000000000e-01 * ($v_j_temp * #9.2803892982949643e-01)));
  (*399*) Do (AddA v_jac 26 (#(-8.4366827390519266e+00) * ($v_j_temp * #9.2803892982949643e-01)));
  (*400*) Do (AddA v_jac 36 (#1.4894874694922317e+01 * ($v_j_temp * #9.2803892982949643e-01)));
  (*401*) Do (AddA v_jac 29 (#(-6.9581919558703875e+00) * ($v_j_temp * #9.2803892982949643e-01)));
  (*402*) Do (AddA v_jac 44 ($v_j_temp * #9.6401946491474821e-01 - $v_kr * v_conc.[14]));
  (*403*) Do (AddA v_jac 47 (#(-1.6873365478103853e+01) * ($v_j_temp * #9.6401946491474821e-01 - $v_kr * v_conc.[14])));
  (*404*) Do (AddA v_jac 57 (#2.9789749389844633e+01 * ($v_j_temp * #9.6401946491474821e-01 - $v_kr * v_conc.[14])));
  (*405*) Do (AddA v_jac 50 (#(-1.3916383911740775e+01) * ($v_j_temp * #9.6401946491474821e-01 - $v_kr * v_conc.[14])));
  (*406*) Do (AddA v_jac 65 (#6.2998612447966798e-02 * ($v_j_temp * #4.2886781649405936e-01)));
  (*407*) Do (AddA v_jac 68 (#(-1.0629986124479667e+00) * ($v_j_temp * #4.2886781649405936e-01)));
  (*408*) Do (AddA v_jac 78 (#1.8767128767328776e+00 * ($v_j_temp * #4.2886781649405936e-01)));
  (*409*) Do (AddA v_jac 71 (#(-8.7671287673287746e-01) * ($v_j_temp * #4.2886781649405936e-01)));
  (*410*) Do (AddA v_jac 86 (#3.1499306223983399e-02 * ($v_j_temp * #(-1.4226436701188128e-01))));
  (*411*) Do (AddA v_jac 89 (#(-5.3149930622398334e-01) * ($v_j_temp * #(-1.4226436701188128e-01))));
  (*412*) Do (AddA v_jac 99 (#9.3835643836643878e-01 * ($v_j_temp * #(-1.4226436701188128e-01))));
  (*413*) Do (AddA v_jac 92 (#(-4.3835643836643873e-01) * ($v_j_temp * #(-1.4226436701188128e-01))));
  (*414*) Do (AddA v_jac 107 (#5.9264999700129481e-02 * ($v_j_temp * #3.9288728140880758e-01 + $v_kf * v_conc.[7])));
  (*415*) Do (AddA v_jac 110 ((- ($v_j_temp * #3.9288728140880758e-01 + $v_kf * v_conc.[7]))));
  (*416*) Do (AddA v_jac 120 (#1.7654894886560744e+00 * ($v_j_temp * #3.9288728140880758e-01 + $v_kf * v_conc.[7])));
  (*417*) Do (AddA v_jac 113 (#(-8.2475448835620380e-01) * ($v_j_temp * #3.9288728140880758e-01 + $v_kf * v_conc.[7])));
  (*418*) Do (AddA v_jac 128 (#5.5949172036182618e-02 * ($v_j_temp * #3.5690674632355568e-01)));
  (*419*) Do (AddA v_jac 131 (#(-9.4405082796381734e-01) * ($v_j_temp * #3.5690674632355568e-01)));
  (*420*) Do (AddA v_jac 141 (#1.6667118135271835e+00 * ($v_j_temp * #3.5690674632355568e-01)));
  (*421*) Do (AddA v_jac 134 (#(-7.7861015759954877e-01) * ($v_j_temp * #3.5690674632355568e-01)));
  (*422*) Do (AddA v_jac 149 (#3.0537399331166910e-02 * ($v_j_temp * #(-1.7824490209713328e-01))));
  (*423*) Do (AddA v_jac 152 (#(-5.1526869966558342e-01) * ($v_j_temp * #(-1.7824490209713328e-01))));
  (*424*) Do (AddA v_jac 162 (#9.0970147309307126e-01 * ($v_j_temp * #(-1.7824490209713328e-01))));
  (*425*) Do (AddA v_jac 155 (#(-4.2497017275865467e-01) * ($v_j_temp * #(-1.7824490209713328e-01))));
  (*426*) Do (AddA v_jac 170 (#7.1857747410685777e-02 * ($v_j_temp * #4.9928106040377707e-01 + $v_kf * v_conc.[4])));
  (*427*) Do (AddA v_jac 173 (#(-1.2124820344937721e+00) * ($v_j_temp * #4.9928106040377707e-01 + $v_kf * v_conc.[4])));
  (*428*) Do (AddA v_jac 183 (#2.1406242870830865e+00 * ($v_j_temp * #4.9928106040377707e-01 + $v_kf * v_conc.[4])));
  (*429*) Do (AddA v_jac 176 ((- ($v_j_temp * #4.9928106040377707e-01 + $v_kf * v_conc.[4]))));
  (*430*) Do (AddA v_jac 191 (#7.1857747410685777e-02 * ($v_j_temp * #4.9928106040377707e-01)));
  (*431*) Do (AddA v_jac 194 (#(-1.2124820344937721e+00) * ($v_j_temp * #4.9928106040377707e-01)));
  (*432*) Do (AddA v_jac 204 (#2.1406242870830865e+00 * ($v_j_temp * #4.9928106040377707e-01)));
  (*433*) Do (AddA v_jac 197 ((- ($v_j_temp * #4.9928106040377707e-01))));
  (*434*) Do (AddA v_jac 212 (#6.7040376938333812e-02 * ($v_j_temp * #4.6330052531852528e-01)));
  (*435*) Do (AddA v_jac 215 (#(-1.1311967818703517e+00) * ($v_j_temp * #4.6330052531852528e-01)));
  (*436*) Do (AddA v_jac 225 (#1.9971160279936839e+00 * ($v_j_temp * #4.6330052531852528e-01)));
  (*437*) Do (AddA v_jac 218 (#(-9.3295962306166613e-01) * ($v_j_temp * #4.6330052531852528e-01)));
  (*438*) Do (AddA v_jac 233 (#6.2828341257988030e-02 * ($v_j_temp * #4.2731999023327338e-01)));
  (*439*) Do (AddA v_jac 236 (#(-1.0601255644290632e+00) * ($v_j_temp * #4.2731999023327338e-01)));
  (*440*) Do (AddA v_jac 246 (#1.8716405406550991e+00 * ($v_j_temp * #4.2731999023327338e-01)));
  (*441*) Do (AddA v_jac 239 (#(-8.7434331748402383e-01) * ($v_j_temp * #4.2731999023327338e-01)));
  (*442*) Do (AddA v_jac 254 (#3.5984491474595155e-02 * ($v_j_temp * #1.0994706834011048e-04)));
  (*443*) Do (AddA v_jac 257 (#(-6.0717947619455637e-01) * ($v_j_temp * #1.0994706834011048e-04)));
  (*444*) Do (AddA v_jac 267 (#1.0719689829491903e+00 * ($v_j_temp * #1.0994706834011048e-04)));
  (*445*) Do (AddA v_jac 260 (#(-5.0077399822922919e-01) * ($v_j_temp * #1.0994706834011048e-04)));
  (*446*) Do (AddA v_jac 275 (#2.2902626233248052e-02 * ($v_j_temp * #(-5.7102223643760053e-01))));
  (*447*) Do (AddA v_jac 278 (#(-3.8644438284200339e-01) * ($v_j_temp * #(-5.7102223643760053e-01))));
  (*448*) Do (AddA v_jac 288 (#6.8226349585774082e-01 * ($v_j_temp * #(-5.7102223643760053e-01))));
  (*449*) Do (AddA v_jac 281 (#(-3.1872173924898545e-01) * ($v_j_temp * #(-5.7102223643760053e-01))));
  (*450*) Do (AddA v_jac 296 (#3.4734585093427126e-02 * ($v_j_temp * #(-3.5870588016911675e-02))));
  (*451*) Do (AddA v_jac 299 (#(-5.8608934901169396e-01) * ($v_j_temp * #(-3.5870588016911675e-02))));
  (*452*) Do (AddA v_jac 309 (#1.0347345850934271e+00 * ($v_j_temp * #(-3.5870588016911675e-02))));
  (*453*) Do (AddA v_jac 302 (#(-4.8337982117516021e-01) * ($v_j_temp * #(-3.5870588016911675e-02))));
  (*454*) Do (AddA v_jac 317 (#3.3568593911733322e-02 * ($v_j_temp * #(-7.1851123102163683e-02) - $v_kr * v_conc.[1])));
  (*455*) Do (AddA v_jac 320 (#(-5.6641515365872830e-01) * ($v_j_temp * #(-7.1851123102163683e-02) - $v_kr * v_conc.[1])));
  (*456*) Do (AddA v_jac 330 ($v_j_temp * #(-7.1851123102163683e-02) - $v_kr * v_conc.[1]));
  (*457*) Do (AddA v_jac 323 (#(-4.6715344025300498e-01) * ($v_j_temp * #(-7.1851123102163683e-02) - $v_kr * v_conc.[1])));
  (*458*) Do (AddA v_jac 338 (#3.2478341649959309e-02 * ($v_j_temp * #(-1.0783165818741525e-01))));
  (*459*) Do (AddA v_jac 341 (#(-5.4801892878248593e-01) * ($v_j_temp * #(-1.0783165818741525e-01))));
  (*460*) Do (AddA v_jac 351 (#9.6752165835004078e-01 * ($v_j_temp * #(-1.0783165818741525e-01))));
  (*461*) Do (AddA v_jac 344 (#(-4.5198107121751407e-01) * ($v_j_temp * #(-1.0783165818741525e-01))));
  (*462*) Do (AddA v_jac 359 (#3.5928873705342888e-02 * ($v_j_temp * #(-1.4378791924458678e-03))));
  (*463*) Do (AddA v_jac 362 (#(-6.0624101724688606e-01) * ($v_j_temp * #(-1.4378791924458678e-03))));
  (*464*) Do (AddA v_jac 372 (#1.0703121435415432e+00 * ($v_j_temp * #(-1.4378791924458678e-03))));
  (*465*) Do (AddA v_jac 365 (#(-5.0000000000000000e-01) * ($v_j_temp * #(-1.4378791924458678e-03))));
  (*466*) Do (AddA v_jac 380 (#3.4682761159877090e-02 * ($v_j_temp * #(-3.7418414277697654e-02))));
  (*467*) Do (AddA v_jac 383 (#(-5.8521490484039129e-01) * ($v_j_temp * #(-3.7418414277697654e-02))));
  (*468*) Do (AddA v_jac 393 (#1.0331907631005757e+00 * ($v_j_temp * #(-3.7418414277697654e-02))));
  (*469*) Do (AddA v_jac 386 (#(-4.8265861942006144e-01) * ($v_j_temp * #(-3.7418414277697654e-02))));
  (*470*) Do (AddA v_jac 401 (#3.3520188469166906e-02 * ($v_j_temp * #(-7.3398949362949439e-02))));
  (*471*) Do (AddA v_jac 404 (#(-5.6559839093517583e-01) * ($v_j_temp * #(-7.3398949362949439e-02))));
  (*472*) Do (AddA v_jac 414 (#9.9855801399684196e-01 * ($v_j_temp * #(-7.3398949362949439e-02))));
  (*473*) Do (AddA v_jac 407 (#(-4.6647981153083307e-01) * ($v_j_temp * #(-7.3398949362949439e-02))));
  (*474*) Do (AddA v_jac 422 (#2.5231300690898170e-02 * ($v_j_temp * #(-4.2602775520927771e-01))));
  (*475*) Do (AddA v_jac 425 (#(-4.2573695804545908e-01) * ($v_j_temp * #(-4.2602775520927771e-01))));
  (*476*) Do (AddA v_jac 435 (#7.5163412436167021e-01 * ($v_j_temp * #(-4.2602775520927771e-01))));
  (*477*) Do (AddA v_jac 428 (#(-3.5112846700710920e-01) * ($v_j_temp * #(-4.2602775520927771e-01))))]);
([
  (*480*) Do (Asn v_j_temp 0 (#1.0 / $v_T * (v_fwd_rates.[45] * #(-1.0) - v_rev_rates.[45] * (#(-1.0) + (- $v_T) * (v_dBdT.[14] + v_dBdT.[1] - v_dBdT.[8] - v_dBdT.[4]))) * $v_rho_inv));
  (*481*) Do (AddA v_jac 9 ((- $v_j_temp) * #1.4026879999999998e+01));
  (*482*) Do (AddA v_jac 2 ($v_j_temp * #1.0079400000000001e+00));
  (*483*) Do (AddA v_jac 5 ((- $v_j_temp) * #1.7007339999999999e+01));
  (*484*) Do (AddA v_jac 15 ($v_j_temp * #3.0026280000000000e+01))],
[
  (*487*) If ($v_T) (#1000.0)
    [Asn v_Kc 0 (#1.9260708619999996e+00 + #(-8.9689639000000021e-01) * $v_logT + $v_T * (#(-2.5702009896473336e-03) + $v_T * (#4.0785166980006795e-06 + $v_T * (#(-2.2799360798082651e-09) + #4.9350015645361341e-13 * $v_T))) - #(-4.2947193659999997e+04) / $v_T)]
    [Asn v_Kc 0 (#1.2306782960000007e+00 + #(-1.1242360000000000e+00) * $v_logT + $v_T * (#1.9978423554578512e-03 + $v_T * (#(-4.2286231197396749e-07) + $v_T * (#5.6371022572070625e-11 + #(-3.3077582300901327e-15) * $v_T))) - #(-4.3306829100000003e+04) / $v_T)];
  (*493*) Do (Asn v_Kc 0 ((Exp $v_Kc)));
  (*494*) Do (Asn v_j_temp 0 ((- $v_mw_avg) * $v_rho_inv * (#2.0 * v_fwd_rates.[45] - #2.0 * v_rev_rates.[45])));
  (*495*) Do (Asn v_kf 0 (#30000000000.0));
  (*496*) Do (Asn v_kr 0 ($v_kf / $v_Kc));
  (*497*) Do (AddA v_jac 30 (#(-6.9581919558703875e+00) * ($v_j_temp * #9.2803892982949643e-01)));
  (*498*) Do (AddA v_jac 23 (#5.0000000000000000e-01 * ($v_j_temp * #9.2803892982949643e-01)));
  (*499*) Do (AddA v_jac 26 (#(-8.4366827390519266e+00) * ($v_j_temp * #9.2803892982949643e-01)));
  (*500*) Do (AddA v_jac 36 (#1.4894874694922317e+01 * ($v_j_temp * #9.2803892982949643e-01)));
  (*501*) Do (AddA v_jac 51 (#(-1.3916383911740775e+01) * ($v_j_temp * #9.6401946491474821e-01 - $v_kr * v_conc.[14])));
  (*502*) Do (AddA v_jac 44 ($v_j_temp * #9.6401946491474821e-01 - $v_kr * v_conc.[14]));
  (*503*) Do (AddA v_jac 47 (#(-1.6873365478103853e+01) * ($v_j_temp * #9.6401946491474821e-01 - $v_kr * v_conc.[14])));
  (*504*) Do (AddA v_jac 57 (#2.9789749389844633e+01 * ($v_j_temp * #9.6401946491474821e-01 - $v_kr * v_conc.[14])));
  (*505*) Do (AddA v_jac 72 (#(-8.7671287673287746e-01) * ($v_j_temp * #4.2886781649405936e-01)));
  (*506*) Do (AddA v_jac 65 (#6.2998612447966798e-02 * ($v_j_temp * #4.2886781649405936e-01)));
  (*507*) Do (AddA v_jac 68 (#(-1.0629986124479667e+00) * ($v_j_temp * #4.2886781649405936e-01)));
  (*508*) Do (AddA v_jac 78 (#1.8767128767328776e+00 * ($v_j_temp * #4.2886781649405936e-01)));
  (*509*) Do (AddA v_jac 93 (#(-4.3835643836643873e-01) * ($v_j_temp * #(-1.4226436701188128e-01))));
  (*510*) Do (AddA v_jac 86 (#3.1499306223983399e-02 * ($v_j_temp * #(-1.4226436701188128e-01))));
  (*511*) Do (AddA v_jac 89 (#(-5.3149930622398334e-01) * ($v_j_temp * #(-1.4226436701188128e-01))));
  (*512*) Do (AddA v_jac 99 (#9.3835643836643878e-01 * ($v_j_temp * #(-1.4226436701188128e-01))));
  (*513*) Do (AddA v_jac 114 (#(-8.2475448835620380e-01) * ($v_j_temp * #3.9288728140880758e-01 + $v_kf * v_conc.[8])));
  (*514*) Do (AddA v_jac 107 (#5.9264999700129481e-02 * ($v_j_temp * #3.9288728140880758e-01 + $v_kf * v_conc.[8])));
  (*515*) Do (AddA v_jac 110 ((- ($v_j_temp * #3.9288728140880758e-01 + $v_kf * v_conc.[8]))));
  (*516*) Do (AddA v_jac 120 (#1.7654894886560744e+00 * ($v_j_temp * #3.9288728140880758e-01 + $v_kf * v_conc.[8])));
  (*517*) Do (AddA v_jac 135 (#(-7.7861015759954877e-01) * ($v_j_temp * #3.5690674632355568e-01)));
  (*518*) Do (AddA v_jac 128 (#5.5949172036182618e-02 * ($v_j_temp * #3.5690674632355568e-01)));
  (*519*) Do (AddA v_jac 131 (#(-9.4405082796381734e-01) * ($v_j_temp * #3.5690674632355568e-01)));
  (*520*) Do (AddA v_jac 141 (#1.6667118135271835e+00 * ($v_j_temp * #3.5690674632355568e-01)));
  (*521*) Do (AddA v_jac 156 (#(-4.2497017275865467e-01) * ($v_j_temp * #(-1.7824490209713328e-01))));
  (*522*) Do (AddA v_jac 149 (#3.0537399331166910e-02 * ($v_j_temp * #(-1.7824490209713328e-01))));
  (*523*) Do (AddA v_jac 152 (#(-5.1526869966558342e-01) * ($v_j_temp * #(-1.7824490209713328e-01))));
  (*524*) Do (AddA v_jac 162 (#9.0970147309307126e-01 * ($v_j_temp * #(-1.7824490209713328e-01))));
  (*525*) Do (AddA v_jac 177 ((- ($v_j_temp * #4.9928106040377707e-01))));
  (*526*) Do (AddA v_jac 170 (#7.1857747410685777e-02 * ($v_j_temp * #4.9928106040377707e-01)));
  (*527*) Do (AddA v_jac 173 (#(-1.2124820344937721e+00) * ($v_j_temp * #4.9928106040377707e-01)));
  (*528*) Do (AddA v_jac 183 (#2.1406242870830865e+00 * ($v_j_temp * #4.9928106040377707e-01)));
  (*529*) Do (AddA v_jac 198 ((- ($v_j_temp * #4.9928106040377707e-01 + $v_kf * v_conc.[4]))));
  (*530*) Do (AddA v_jac 191 (#7.1857747410685777e-02 * ($v_j_temp * #4.9928106040377707e-01 + $v_kf * v_conc.[4])));
  (*531*) Do (AddA v_jac 194 (#(-1.2124820344937721e+00) * ($v_j_temp * #4.9928106040377707e-01 + $v_kf * v_conc.[4])));
  (*532*) Do (AddA v_jac 204 (#2.1406242870830865e+00 * ($v_j_temp * #4.9928106040377707e-01 + $v_kf * v_conc.[4])));
  (*533*) Do (AddA v_jac 219 (#(-9.3295962306166613e-01) * ($v_j_temp * #4.6330052531852528e-01)));
  (*534*) Do (AddA v_jac 212 (#6.7040376938333812e-02 * ($v_j_temp * #4.6330052531852528e-01)));
  (*535*) Do (AddA v_jac 215 (#(-1.1311967818703517e+00) * ($v_j_temp * #4.6330052531852528e-01)));
  (*536*) Do (AddA v_jac 225 (#1.9971160279936839e+00 * ($v_j_temp * #4.6330052531852528e-01)));
  (*537*) Do (AddA v_jac 240 (#(-8.7434331748402383e-01) * ($v_j_temp * #4.2731999023327338e-01)));
  (*538*) Do (AddA v_jac 233 (#6.2828341257988030e-02 * ($v_j_temp * #4.2731999023327338e-01)));
  (*539*) Do (AddA v_jac 236 (#(-1.0601255644290632e+00) * ($v_j_temp * #4.2731999023327338e-01)));
  (*540*) Do (AddA v_jac 246 (#1.8716405406550991e+00 * ($v_j_temp * #4.2731999023327338e-01)));
  (*541*) Do (AddA v_jac 261 (#(-5.0077399822922919e-01) * ($v_j_temp * #1.0994706834011048e-04)));
  (*542*) Do (AddA v_jac 254 (#3.5984491474595155e-02 * ($v_j_temp * #1.0994706834011048e-04)));
  (*543*) Do (AddA v_jac 257 (#(-6.0717947619455637e-01) * ($v_j_temp * #1.0994706834011048e-04)));
  (*544*) Do (AddA v_jac 267 (#1.0719689829491903e+00 * ($v_j_temp * #1.0994706834011048e-04)));
  (*545*) Do (AddA v_jac 282 (#(-3.1872173924898545e-01) * ($v_j_temp * #(-5.7102223643760053e-01))));
  (*546*) Do (AddA v_jac 275 (#2.2902626233248052e-02 * ($v_j_temp * #(-5.7102223643760053e-01))));
  (*547*) Do (AddA v_jac 278 (#(-3.8644438284200339e-01) * ($v_j_temp * #(-5.7102223643760053e-01))));
  (*548*) Do (AddA v_jac 288 (#6.8226349585774082e-01 * ($v_j_temp * #(-5.7102223643760053e-01))));
  (*549*) Do (AddA v_jac 303 (#(-4.8337982117516021e-01) * ($v_j_temp * #(-3.5870588016911675e-02))));
  (*550*) Do (AddA v_jac 296 (#3.4734585093427126e-02 * ($v_j_temp * #(-3.5870588016911675e-02))));
  (*551*) Do (AddA v_jac 299 (#(-5.8608934901169396e-01) * ($v_j_temp * #(-3.5870588016911675e-02))));
  (*552*) Do (AddA v_jac 309 (#1.0347345850934271e+00 * ($v_j_temp * #(-3.5870588016911675e-02))));
  (*553*) Do (AddA v_jac 324 (#(-4.6715344025300498e-01) * ($v_j_temp * #(-7.1851123102163683e-02) - $v_kr * v_conc.[1])));
  (*554*) Do (AddA v_jac 317 (#3.3568593911733322e-02 * ($v_j_temp * #(-7.1851123102163683e-02) - $v_kr * v_conc.[1])));
  (*555*) Do (AddA v_jac 320 (#(-5.6641515365872830e-01) * ($v_j_temp * #(-7.1851123102163683e-02) - $v_kr * v_conc.[1])));
  (*556*) Do (AddA v_jac 330 ($v_j_temp * #(-7.1851123102163683e-02) - $v_kr * v_conc.[1]));
  (*557*) Do (AddA v_jac 345 (#(-4.5198107121751407e-01) * ($v_j_temp * #(-1.0783165818741525e-01))));
  (*558*) Do (AddA v_jac 338 (#3.2478341649959309e-02 * ($v_j_temp * #(-1.0783165818741525e-01))));
  (*559*) Do (AddA v_jac 341 (#(-5.4801892878248593e-01) * ($v_j_temp * #(-1.0783165818741525e-01))));
  (*560*) Do (AddA v_jac 351 (#9.6752165835004078e-01 * ($v_j_temp * #(-1.0783165818741525e-01))));
  (*561*) Do (AddA v_jac 366 (#(-5.0000000000000000e-01) * ($v_j_temp * #(-1.4378791924458678e-03))));
  (*562*) Do (AddA v_jac 359 (#3.5928873705342888e-02 * ($v_j_temp * #(-1.4378791924458678e-03))));
  (*563*) Do (AddA v_jac 362 (#(-6.0624101724688606e-01) * ($v_j_temp * #(-1.4378791924458678e-03))));
  (*564*) Do (AddA v_jac 372 (#1.0703121435415432e+00 * ($v_j_temp * #(-1.4378791924458678e-03))));
  (*565*) Do (AddA v_jac 387 (#(-4.8265861942006144e-01) * ($v_j_temp * #(-3.7418414277697654e-02))));
  (*566*) Do (AddA v_jac 380 (#3.4682761159877090e-02 * ($v_j_temp * #(-3.7418414277697654e-02))));
  (*567*) Do (AddA v_jac 383 (#(-5.8521490484039129e-01) * ($v_j_temp * #(-3.7418414277697654e-02))));
  (*568*) Do (AddA v_jac 393 (#1.0331907631005757e+00 * ($v_j_temp * #(-3.7418414277697654e-02))));
  (*569*) Do (AddA v_jac 408 (#(-4.6647981153083307e-01) * ($v_j_temp * #(-7.3398949362949439e-02))));
  (*570*) Do (AddA v_jac 401 (#3.3520188469166906e-02 * ($v_j_temp * #(-7.3398949362949439e-02))));
  (*571*) Do (AddA v_jac 404 (#(-5.6559839093517583e-01) * ($v_j_temp * #(-7.3398949362949439e-02))));
  (*572*) Do (AddA v_jac 414 (#9.9855801399684196e-01 * ($v_j_temp * #(-7.3398949362949439e-02))));
  (*573*) Do (AddA v_jac 429 (#(-3.5112846700710920e-01) * ($v_j_temp * #(-4.2602775520927771e-01))));
  (*574*) Do (AddA v_jac 422 (#2.5231300690898170e-02 * ($v_j_temp * #(-4.2602775520927771e-01))));
  (*575*) Do (AddA v_jac 425 (#(-4.2573695804545908e-01) * ($v_j_temp * #(-4.2602775520927771e-01))));
  (*576*) Do (AddA v_jac 435 (#7.5163412436167021e-01 * ($v_j_temp * #(-4.2602775520927771e-01))))]);
([
  (*579*) Do (Asn v_j_temp 0 (#1.0 / $v_T * ((v_fwd_rates.[46] - v_rev_rates.[46]) * (#1.6000000000000001e+00 + #2.7274500415366615e+03 / $v_T) + v_fwd_rates.[46] * #(-1.0) - v_rev_rates.[46] * (#(-1.0) + (- $v_T) * (v_dBdT.[7] + v_dBdT.[5] - v_dBdT.[9] - v_dBdT.[4]))) * $v_rho_inv));
  (*580*) Do (AddA v_jac 10 ((- $v_j_temp) * #1.5034820000000000e+01));
  (*581*) Do (AddA v_jac 5 ((- $v_j_temp) * #1.7007339999999999e+01));
  (*582*) Do (AddA v_jac 6 ($v_j_temp * #1.8015280000000001e+01));
  (*583*) Do (AddA v_jac 8 ($v_j_temp * #1.4026879999999998e+01))],
[
  (*586*) If ($v_T) (#1000.0)
    [Asn v_Kc 0 (#(-1.0828526299999992e+00) + #2.9571339999999990e-01 * $v_logT + $v_T * (#(-3.3859809350000002e-04) + $v_T * (#(-1.7214274166666659e-07) + $v_T * (#1.1778545249999987e-10 + #(-2.2428833999999994e-14) * $v_T))) - #(-4.3497659600000043e+03) / $v_T)]
    [Asn v_Kc 0 (#(-2.3482927800000000e+00) + #5.2948823000000012e-01 * $v_logT + $v_T * (#(-9.7750956300000024e-04) + $v_T * (#2.1460329399999999e-07 + $v_T * (#(-2.8716743866666670e-11) + #1.6510772149999999e-15 * $v_T))) - #(-4.3749343999999983e+03) / $v_T)];
  (*592*) Do (Asn v_Kc 0 ((Exp $v_Kc)));
  (*593*) Do (Asn v_j_temp 0 ((- $v_mw_avg) * $v_rho_inv * (#2.0 * v_fwd_rates.[46] - #2.0 * v_rev_rates.[46])));
  (*594*) Do (Asn v_kf 0 ((Exp (#1.0933106969717286e+01 + #1.6 * $v_logT - #2.7274500415366615e+03 / $v_T))));
  (*595*) Do (Asn v_kr 0 ($v_kf / $v_Kc));
  (*596*) Do (AddA v_jac 31 (#(-7.4581919558703884e+00) * ($v_j_temp * #9.2803892982949643e-01)));
  (*597*) Do (AddA v_jac 26 (#(-8.4366827390519266e+00) * ($v_j_temp * #9.2803892982949643e-01)));
  (*598*) Do (AddA v_jac 27 (#8.9366827390519283e+00 * ($v_j_temp * #9.2803892982949643e-01)));
  (*599*) Do (AddA v_jac 29 (#6.9581919558703875e+00 * ($v_j_temp * #9.2803892982949643e-01)));
  (*600*) Do (AddA v_jac 52 (#(-1.4916383911740777e+01) * ($v_j_temp * #9.6401946491474821e-01)));
  (*601*) Do (AddA v_jac 47 (#(-1.6873365478103853e+01) * ($v_j_temp * #9.6401946491474821e-01)));
  (*602*) Do (AddA v_jac 48 (#1.7873365478103857e+01 * ($v_j_temp * #9.6401946491474821e-01)));
  (*603*) Do (AddA v_jac 50 (#1.3916383911740775e+01 * ($v_j_temp * #9.6401946491474821e-01)));
  (*604*) Do (AddA v_jac 73 (#(-9.3971148918084424e-01) * ($v_j_temp * #4.2886781649405936e-01)));
  (*605*) Do (AddA v_jac 68 (#(-1.0629986124479667e+00) * ($v_j_temp * #4.2886781649405936e-01)));
  (*606*) Do (AddA v_jac 69 (#1.1259972248959336e+00 * ($v_j_temp * #4.2886781649405936e-01)));
  (*607*) Do (AddA v_jac 71 (#8.7671287673287746e-01 * ($v_j_temp * #4.2886781649405936e-01)));
  (*608*) Do (AddA v_jac 94 (#(-4.6985574459042212e-01) * ($v_j_temp * #(-1.4226436701188128e-01))));
  (*609*) Do (AddA v_jac 89 (#(-5.3149930622398334e-01) * ($v_j_temp * #(-1.4226436701188128e-01))));
  (*610*) Do (AddA v_jac 90 (#5.6299861244796678e-01 * ($v_j_temp * #(-1.4226436701188128e-01))));
  (*611*) Do (AddA v_jac 92 (#4.3835643836643873e-01 * ($v_j_temp * #(-1.4226436701188128e-01))));
  (*612*) Do (AddA v_jac 115 (#(-8.8401948805633335e-01) * ($v_j_temp * #3.9288728140880758e-01 + $v_kf * v_conc.[9])));
  (*613*) Do (AddA v_jac 110 ((- ($v_j_temp * #3.9288728140880758e-01 + $v_kf * v_conc.[9]))));
  (*614*) Do (AddA v_jac 111 (#1.0592649997001296e+00 * ($v_j_temp * #3.9288728140880758e-01 + $v_kf * v_conc.[9])));
  (*615*) Do (AddA v_jac 113 (#8.2475448835620380e-01 * ($v_j_temp * #3.9288728140880758e-01 + $v_kf * v_conc.[9])));
  (*616*) Do (AddA v_jac 136 (#(-8.3455932963573143e-01) * ($v_j_temp * #3.5690674632355568e-01 - $v_kr * v_conc.[7])));
  (*617*) Do (AddA v_jac 131 (#(-9.4405082796381734e-01) * ($v_j_temp * #3.5690674632355568e-01 - $v_kr * v_conc.[7])));
  (*618*) Do (AddA v_jac 132 ($v_j_temp * #3.5690674632355568e-01 - $v_kr * v_conc.[7]));
  (*619*) Do (AddA v_jac 134 (#7.7861015759954877e-01 * ($v_j_temp * #3.5690674632355568e-01 - $v_kr * v_conc.[7])));
  (*620*) Do (AddA v_jac 157 (#(-4.5550757208982162e-01) * ($v_j_temp * #(-1.7824490209713328e-01))));
  (*621*) Do (AddA v_jac 152 (#(-5.1526869966558342e-01) * ($v_j_temp * #(-1.7824490209713328e-01))));
  (*622*) Do (AddA v_jac 153 (#5.4580609899675037e-01 * ($v_j_temp * #(-1.7824490209713328e-01))));
  (*623*) Do (AddA v_jac 155 (#4.2497017275865467e-01 * ($v_j_temp * #(-1.7824490209713328e-01))));
  (*624*) Do (AddA v_jac 178 (#(-1.0718577474106858e+00) * ($v_j_temp * #4.9928106040377707e-01 - $v_kr * v_conc.[5])));
  (*625*) Do (AddA v_jac 173 (#(-1.2124820344937721e+00) * ($v_j_temp * #4.9928106040377707e-01 - $v_kr * v_conc.[5])));
  (*626*) Do (AddA v_jac 174 (#1.2843397819044580e+00 * ($v_j_temp * #4.9928106040377707e-01 - $v_kr * v_conc.[5])));
  (*627*) Do (AddA v_jac 176 ($v_j_temp * #4.9928106040377707e-01 - $v_kr * v_conc.[5]));
  (*628*) Do (AddA v_jac 199 (#(-1.0718577474106858e+00) * ($v_j_temp * #4.9928106040377707e-01)));
  (*629*) Do (AddA v_jac 194 (#(-1.2124820344937721e+00) * ($v_j_temp * #4.9928106040377707e-01)));
  (*630*) Do (AddA v_jac 195 (#1.2843397819044580e+00 * ($v_j_temp * #4.9928106040377707e-01)));
  (*631*) Do (AddA v_jac 197 ($v_j_temp * #4.9928106040377707e-01));
  (*632*) Do (AddA v_jac 220 ((- ($v_j_temp * #4.6330052531852528e-01 + $v_kf * v_conc.[4]))));
  (*633*) Do (AddA v_jac 215 (#(-1.1311967818703517e+00) * ($v_j_temp * #4.6330052531852528e-01 + $v_kf * v_conc.[4])));
  (*634*) Do (AddA v_jac 216 (#1.1982371588086855e+00 * ($v_j_temp * #4.6330052531852528e-01 + $v_kf * v_conc.[4])));
  (*635*) Do (AddA v_jac 218 (#9.3295962306166613e-01 * ($v_j_temp * #4.6330052531852528e-01 + $v_kf * v_conc.[4])));
  (*636*) Do (AddA v_jac 241 (#(-9.3717165874201191e-01) * ($v_j_temp * #4.2731999023327338e-01)));
  (*637*) Do (AddA v_jac 236 (#(-1.0601255644290632e+00) * ($v_j_temp * #4.2731999023327338e-01)));
  (*638*) Do (AddA v_jac 237 (#1.1229539056870512e+00 * ($v_j_temp * #4.2731999023327338e-01)));
  (*639*) Do (AddA v_jac 239 (#8.7434331748402383e-01 * ($v_j_temp * #4.2731999023327338e-01)));
  (*640*) Do (AddA v_jac 262 (#(-5.3675848970382434e-01) * ($v_j_temp * #1.0994706834011048e-04)));
  (*641*) Do (AddA v_jac 257 (#(-6.0717947619455637e-01) * ($v_j_temp * #1.0994706834011048e-04)));
  (*642*) Do (AddA v_jac 258 (#6.4316396766915152e-01 * ($v_j_temp * #1.0994706834011048e-04)));
  (*643*) Do (AddA v_jac 260 (#5.0077399822922919e-01 * ($v_j_temp * #1.0994706834011048e-04)));
  (*644*) Do (AddA v_jac 283 (#(-3.4162436548223352e-01) * ($v_j_temp * #(-5.7102223643760053e-01))));
  (*645*) Do (AddA v_jac 278 (#(-3.8644438284200339e-01) * ($v_j_temp * #(-5.7102223643760053e-01))));
  (*646*) Do (AddA v_jac 279 (#4.0934700907525146e-01 * ($v_j_temp * #(-5.7102223643760053e-01))));
  (*647*) Do (AddA v_jac 281 (#3.1872173924898545e-01 * ($v_j_temp * #(-5.7102223643760053e-01))));
  (*648*) Do (AddA v_jac 304 (#(-5.1811440626858740e-01) * ($v_j_temp * #(-3.5870588016911675e-02))));
  (*649*) Do (AddA v_jac 299 (#(-5.8608934901169396e-01) * ($v_j_temp * #(-3.5870588016911675e-02))));
  (*650*) Do (AddA v_jac 300 (#6.2082393410512116e-01 * ($v_j_temp * #(-3.5870588016911675e-02))));
  (*651*) Do (AddA v_jac 302 (#4.8337982117516021e-01 * ($v_j_temp * #(-3.5870588016911675e-02))));
  (*652*) Do (AddA v_jac 325 (#(-5.0072203416473837e-01) * ($v_j_temp * #(-7.1851123102163683e-02))));
  (*653*) Do (AddA v_jac 320 (#(-5.6641515365872830e-01) * ($v_j_temp * #(-7.1851123102163683e-02))));
  (*654*) Do (AddA v_jac 321 (#5.9998374757046158e-01 * ($v_j_temp * #(-7.1851123102163683e-02))));
  (*655*) Do (AddA v_jac 323 (#4.6715344025300498e-01 * ($v_j_temp * #(-7.1851123102163683e-02))));
  (*656*) Do (AddA v_jac 346 (#(-4.8445941286747340e-01) * ($v_j_temp * #(-1.0783165818741525e-01))));
  (*657*) Do (AddA v_jac 341 (#(-5.4801892878248593e-01) * ($v_j_temp * #(-1.0783165818741525e-01))));
  (*658*) Do (AddA v_jac 342 (#5.8049727043244526e-01 * ($v_j_temp * #(-1.0783165818741525e-01))));
  (*659*) Do (AddA v_jac 344 (#4.5198107121751407e-01 * ($v_j_temp * #(-1.0783165818741525e-01))));
  (*660*) Do (AddA v_jac 367 (#(-5.3592887370534292e-01) * ($v_j_temp * #(-1.4378791924458678e-03))));
  (*661*) Do (AddA v_jac 362 (#(-6.0624101724688606e-01) * ($v_j_temp * #(-1.4378791924458678e-03))));
  (*662*) Do (AddA v_jac 363 (#6.4216989095222898e-01 * ($v_j_temp * #(-1.4378791924458678e-03))));
  (*663*) Do (AddA v_jac 365 (#5.0000000000000000e-01 * ($v_j_temp * #(-1.4378791924458678e-03))));
  (*664*) Do (AddA v_jac 388 (#(-5.1734138057993861e-01) * ($v_j_temp * #(-3.7418414277697654e-02))));
  (*665*) Do (AddA v_jac 383 (#(-5.8521490484039129e-01) * ($v_j_temp * #(-3.7418414277697654e-02))));
  (*666*) Do (AddA v_jac 384 (#6.1989766600026841e-01 * ($v_j_temp * #(-3.7418414277697654e-02))));
  (*667*) Do (AddA v_jac 386 (#4.8265861942006144e-01 * ($v_j_temp * #(-3.7418414277697654e-02))));
  (*668*) Do (AddA v_jac 409 (#(-5.0000000000000000e-01) * ($v_j_temp * #(-7.3398949362949439e-02))));
  (*669*) Do (AddA v_jac 404 (#(-5.6559839093517583e-01) * ($v_j_temp * #(-7.3398949362949439e-02))));
  (*670*) Do (AddA v_jac 405 (#5.9911857940434277e-01 * ($v_j_temp * #(-7.3398949362949439e-02))));
  (*671*) Do (AddA v_jac 407 (#4.6647981153083307e-01 * ($v_j_temp * #(-7.3398949362949439e-02))));
  (*672*) Do (AddA v_jac 430 (#(-3.7635976769800739e-01) * ($v_j_temp * #(-4.2602775520927771e-01))));
  (*673*) Do (AddA v_jac 425 (#(-4.2573695804545908e-01) * ($v_j_temp * #(-4.2602775520927771e-01))));
  (*674*) Do (AddA v_jac 426 (#4.5096825873635726e-01 * ($v_j_temp * #(-4.2602775520927771e-01))));
  (*675*) Do (AddA v_jac 428 (#3.5112846700710920e-01 * ($v_j_temp * #(-4.2602775520927771e-01))))]);
([
  (*678*) Do (Asn v_j_temp 0 (#1.0 / $v_T * (v_fwd_rates.[47] * #(-1.0) - v_rev_rates.[47] * (#(-1.0) + (- $v_T) * (v_dBdT.[8] + v_dBdT.[5] - v_dBdT.[9] - v_dBdT.[4]))) * $v_rho_inv));
  (*679*) Do (AddA v_jac 9 ($v_j_temp * #1.4026879999999998e+01));
  (*680*) Do (AddA v_jac 10 ((- $v_j_temp) * #1.5034820000000000e+01));
  (*681*) Do (AddA v_jac 5 ((- $v_j_temp) * #1.7007339999999999e+01));
  (*682*) Do (AddA v_jac 6 ($v_j_temp * #1.8015280000000001e+01))],
[
  (*685*) If ($v_T) (#1000.0)
    [Asn v_Kc 0 (#(-3.8504288869999992e+00) + #7.3163884000000001e-01 * $v_logT + $v_T * (#(-2.0063412599999999e-03) + $v_T * (#7.3420122333333318e-07 + $v_T * (#(-1.1865190416666677e-10) + #(-9.6423250000000015e-15) * $v_T))) - #1.4301023999999961e+02 / $v_T)]
    [Asn v_Kc 0 (#6.8907837999999932e-01 + #(-5.2574480000000090e-02) * $v_logT + $v_T * (#(-4.7776283799999997e-04) + $v_T * (#1.1410771066666668e-07 + $v_T * (#(-1.5572872949999997e-11) + #8.9113322500000016e-16 * $v_T))) - #2.8746129999999903e+02 / $v_T)];
  (*691*) Do (Asn v_Kc 0 ((Exp $v_Kc)));
  (*692*) Do (Asn v_j_temp 0 ((- $v_mw_avg) * $v_rho_inv * (#2.0 * v_fwd_rates.[47] - #2.0 * v_rev_rates.[47])));
  (*693*) Do (Asn v_kf 0 (#25010000000.0));
  (*694*) Do (Asn v_kr 0 ($v_kf / $v_Kc));
  (*695*) Do (AddA v_jac 30 (#6.9581919558703875e+00 * ($v_j_temp * #9.2803892982949643e-01)));
  (*696*) Do (AddA v_jac 31 (#(-7.4581919558703884e+00) * ($v_j_temp * #9.2803892982949643e-01)));
  (*697*) Do (AddA v_jac 26 (#(-8.4366827390519266e+00) * ($v_j_temp * #9.2803892982949643e-01)));
  (*698*) Do (AddA v_jac 27 (#8.9366827390519283e+00 * ($v_j_temp * #9.2803892982949643e-01)));
  (*699*) Do (AddA v_jac 51 (#1.3916383911740775e+01 * ($v_j_temp * #9.6401946491474821e-01)));
  (*700*) Do (AddA v_jac 52 (#(-1.4916383911740777e+01) * ($v_j_temp * #9.6401946491474821e-01)));
  (*701*) Do (AddA v_jac 47 (#(-1.6873365478103853e+01) * ($v_j_temp * #9.6401946491474821e-01)));
  (*702*) Do (AddA v_jac 48 (#1.7873365478103857e+01 * ($v_j_temp * #9.6401946491474821e-01)));
  (*703*) Do (AddA v_jac 72 (#8.7671287673287746e-01 * ($v_j_temp * #4.2886781649405936e-01)));
  (*704*) Do (AddA v_jac 73 (#(-9.3971148918084424e-01) * ($v_j_temp * #4.2886781649405936e-01)));
  (*705*) Do (AddA v_jac 68 (#(-1.0629986124479667e+00) * ($v_j_temp * #4.2886781649405936e-01)));
  (*706*) Do (AddA v_jac 69 (#1.1259972248959336e+00 * ($v_j_temp * #4.2886781649405936e-01)));
  (*707*) Do (AddA v_jac 93 (#4.3835643836643873e-01 * ($v_j_temp * #(-1.4226436701188128e-01))));
  (*708*) Do (AddA v_jac 94 (#(-4.6985574459042212e-01) * ($v_j_temp * #(-1.4226436701188128e-01))));
  (*709*) Do (AddA v_jac 89 (#(-5.3149930622398334e-01) * ($v_j_temp * #(-1.4226436701188128e-01))));
  (*710*) Do (AddA v_jac 90 (#5.6299861244796678e-01 * ($v_j_temp * #(-1.4226436701188128e-01))));
  (*711*) Do (AddA v_jac 114 (#8.2475448835620380e-01 * ($v_j_temp * #3.9288728140880758e-01 + $v_kf * v_conc.[9])));
  (*712*) Do (AddA v_jac 115 (#(-8.8401948805633335e-01) * ($v_j_temp * #3.9288728140880758e-01 + $v_kf * v_conc.[9])));
  (*713*) Do (AddA v_jac 110 ((- ($v_j_temp * #3.9288728140880758e-01 + $v_kf * v_conc.[9]))));
  (*714*) Do (AddA v_jac 111 (#1.0592649997001296e+00 * ($v_j_temp * #3.9288728140880758e-01 + $v_kf * v_conc.[9])));
  (*715*) Do (AddA v_jac 135 (#7.7861015759954877e-01 * ($v_j_temp * #3.5690674632355568e-01 - $v_kr * v_conc.[8])));
  (*716*) Do (AddA v_jac 136 (#(-8.3455932963573143e-01) * ($v_j_temp * #3.5690674632355568e-01 - $v_kr * v_conc.[8])));
  (*717*) Do (AddA v_jac 131 (#(-9.4405082796381734e-01) * ($v_j_temp * #3.5690674632355568e-01 - $v_kr * v_conc.[8])));
  (*718*) Do (AddA v_jac 132 ($v_j_temp * #3.5690674632355568e-01 - $v_kr * v_conc.[8]));
  (*719*) Do (AddA v_jac 156 (#4.2497017275865467e-01 * ($v_j_temp * #(-1.7824490209713328e-01))));
  (*720*) Do (AddA v_jac 157 (#(-4.5550757208982162e-01) * ($v_j_temp * #(-1.7824490209713328e-01))));
  (*721*) Do (AddA v_jac 152 (#(-5.1526869966558342e-01) * ($v_j_temp * #(-1.7824490209713328e-01))));
  (*722*) Do (AddA v_jac 153 (#5.4580609899675037e-01 * ($v_j_temp * #(-1.7824490209713328e-01))));
  (*723*) Do (AddA v_jac 177 ($v_j_temp * #4.9928106040377707e-01));
  (*724*) Do (AddA v_jac 178 (#(-1.0718577474106858e+00) * ($v_j_temp * #4.9928106040377707e-01)));
  (*725*) Do (AddA v_jac 173 (#(-1.2124820344937721e+00) * ($v_j_temp * #4.9928106040377707e-01)));
  (*726*) Do (AddA v_jac 174 (#1.2843397819044580e+00 * ($v_j_temp * #4.9928106040377707e-01)));
  (*727*) Do (AddA v_jac 198 ($v_j_temp * #4.9928106040377707e-01 - $v_kr * v_conc.[5]));
  (*728*) Do (AddA v_jac 199 (#(-1.0718577474106858e+00) * ($v_j_temp * #4.9928106040377707e-01 - $v_kr * v_conc.[5])));
  (*729*) Do (AddA v_jac 194 (#(-1.2124820344937721e+00) * ($v_j_temp * #4.9928106040377707e-01 - $v_kr * v_conc.[5])));
  (*730*) Do (AddA v_jac 195 (#1.2843397819044580e+00 * ($v_j_temp * #4.9928106040377707e-01 - $v_kr * v_conc.[5])));
  (*731*) Do (AddA v_jac 219 (#9.3295962306166613e-01 * ($v_j_temp * #4.6330052531852528e-01 + $v_kf * v_conc.[4])));
  (*732*) Do (AddA v_jac 220 ((- ($v_j_temp * #4.6330052531852528e-01 + $v_kf * v_conc.[4]))));
  (*733*) Do (AddA v_jac 215 (#(-1.1311967818703517e+00) * ($v_j_temp * #4.6330052531852528e-01 + $v_kf * v_conc.[4])));
  (*734*) Do (AddA v_jac 216 (#1.1982371588086855e+00 * ($v_j_temp * #4.6330052531852528e-01 + $v_kf * v_conc.[4])));
  (*735*) Do (AddA v_jac 240 (#8.7434331748402383e-01 * ($v_j_temp * #4.2731999023327338e-01)));
  (*736*) Do (AddA v_jac 241 (#(-9.3717165874201191e-01) * ($v_j_temp * #4.2731999023327338e-01)));
  (*737*) Do (AddA v_jac 236 (#(-1.0601255644290632e+00) * ($v_j_temp * #4.2731999023327338e-01)));
  (*738*) Do (AddA v_jac 237 (#1.1229539056870512e+00 * ($v_j_temp * #4.2731999023327338e-01)));
  (*739*) Do (AddA v_jac 261 (#5.0077399822922919e-01 * ($v_j_temp * #1.0994706834011048e-04)));
  (*740*) Do (AddA v_jac 262 (#(-5.3675848970382434e-01) * ($v_j_temp * #1.0994706834011048e-04)));
  (*741*) Do (AddA v_jac 257 (#(-6.0717947619455637e-01) * ($v_j_temp * #1.0994706834011048e-04)));
  (*742*) Do (AddA v_jac 258 (#6.4316396766915152e-01 * ($v_j_temp * #1.0994706834011048e-04)));
  (*743*) Do (AddA v_jac 282 (#3.1872173924898545e-01 * ($v_j_temp * #(-5.7102223643760053e-01))));
  (*744*) Do (AddA v_jac 283 (#(-3.4162436548223352e-01) * ($v_j_temp * #(-5.7102223643760053e-01))));
  (*745*) Do (AddA v_jac 278 (#(-3.8644438284200339e-01) * ($v_j_temp * #(-5.7102223643760053e-01))));
  (*746*) Do (AddA v_jac 279 (#4.0934700907525146e-01 * ($v_j_temp * #(-5.7102223643760053e-01))));
  (*747*) Do (AddA v_jac 303 (#4.8337982117516021e-01 * ($v_j_temp * #(-3.5870588016911675e-02))));
  (*748*) Do (AddA v_jac 304 (#(-5.1811440626858740e-01) * ($v_j_temp * #(-3.5870588016911675e-02))));
  (*749*) Do (AddA v_jac 299 (#(-5.8608934901169396e-01) * ($v_j_temp * #(-3.5870588016911675e-02))));
  (*750*) Do (AddA v_jac 300 (#6.2082393410512116e-01 * ($v_j_temp * #(-3.5870588016911675e-02))));
  (*751*) Do (AddA v_jac 324 (#4.6715344025300498e-01 * ($v_j_temp * #(-7.1851123102163683e-02))));
  (*752*) Do (AddA v_jac 325 (#(-5.0072203416473837e-01) * ($v_j_temp * #(-7.1851123102163683e-02))));
  (*753*) Do (AddA v_jac 320 (#(-5.6641515365872830e-01) * ($v_j_temp * #(-7.1851123102163683e-02))));
  (*754*) Do (AddA v_jac 321 (#5.9998374757046158e-01 * ($v_j_temp * #(-7.1851123102163683e-02))));
  (*755*) Do (AddA v_jac 345 (#4.5198107121751407e-01 * ($v_j_temp * #(-1.0783165818741525e-01))));
  (*756*) Do (AddA v_jac 346 (#(-4.8445941286747340e-01) * ($v_j_temp * #(-1.0783165818741525e-01))));
  (*757*) Do (AddA v_jac 341 (#(-5.4801892878248593e-01) * ($v_j_temp * #(-1.0783165818741525e-01))));
  (*758*) Do (AddA v_jac 342 (#5.8049727043244526e-01 * ($v_j_temp * #(-1.0783165818741525e-01))));
  (*759*) Do (AddA v_jac 366 (#5.0000000000000000e-01 * ($v_j_temp * #(-1.4378791924458678e-03))));
  (*760*) Do (AddA v_jac 367 (#(-5.3592887370534292e-01) * ($v_j_temp * #(-1.4378791924458678e-03))));
  (*761*) Do (AddA v_jac 362 (#(-6.0624101724688606e-01) * ($v_j_temp * #(-1.4378791924458678e-03))));
  (*762*) Do (AddA v_jac 363 (#6.4216989095222898e-01 * ($v_j_temp * #(-1.4378791924458678e-03))));
  (*763*) Do (AddA v_jac 387 (#4.8265861942006144e-01 * ($v_j_temp * #(-3.7418414277697654e-02))));
  (*764*) Do (AddA v_jac 388 (#(-5.1734138057993861e-01) * ($v_j_temp * #(-3.7418414277697654e-02))));
  (*765*) Do (AddA v_jac 383 (#(-5.8521490484039129e-01) * ($v_j_temp * #(-3.7418414277697654e-02))));
  (*766*) Do (AddA v_jac 384 (#6.1989766600026841e-01 * ($v_j_temp * #(-3.7418414277697654e-02))));
  (*767*) Do (AddA v_jac 408 (#4.6647981153083307e-01 * ($v_j_temp * #(-7.3398949362949439e-02))));
  (*768*) Do (AddA v_jac 409 (#(-5.0000000000000000e-01) * ($v_j_temp * #(-7.3398949362949439e-02))));
  (*769*) Do (AddA v_jac 404 (#(-5.6559839093517583e-01) * ($v_j_temp * #(-7.3398949362949439e-02))));
  (*770*) Do (AddA v_jac 405 (#5.9911857940434277e-01 * ($v_j_temp * #(-7.3398949362949439e-02))));
  (*771*) Do (AddA v_jac 429 (#3.5112846700710920e-01 * ($v_j_temp * #(-4.2602775520927771e-01))));
  (*772*) Do (AddA v_jac 430 (#(-3.7635976769800739e-01) * ($v_j_temp * #(-4.2602775520927771e-01))));
  (*773*) Do (AddA v_jac 425 (#(-4.2573695804545908e-01) * ($v_j_temp * #(-4.2602775520927771e-01))));
  (*774*) Do (AddA v_jac 426 (#4.5096825873635726e-01 * ($v_j_temp * #(-4.2602775520927771e-01))))]);
([
  (*777*) Do (Asn v_j_temp 0 (#1.0 / $v_T * ((v_fwd_rates.[48] - v_rev_rates.[48]) * (#1.6000000000000001e+00 + #1.5700450423605873e+03 / $v_T) + v_fwd_rates.[48] * #(-1.0) - v_rev_rates.[48] * (#(-1.0) + (- $v_T) * (v_dBdT.[5] + v_dBdT.[9] - v_dBdT.[10] - v_dBdT.[4]))) * $v_rho_inv));
  (*778*) Do (AddA v_jac 10 ($v_j_temp * #1.5034820000000000e+01));
  (*779*) Do (AddA v_jac 11 ((- $v_j_temp) * #1.6042760000000001e+01));
  (*780*) Do (AddA v_jac 5 ((- $v_j_temp) * #1.7007339999999999e+01));
  (*781*) Do (AddA v_jac 6 ($v_j_temp * #1.8015280000000001e+01))],
[
  (*784*) If ($v_T) (#1000.0)
    [Asn v_Kc 0 (#6.7704219400000003e+00 + #(-1.2696605999999990e+00) * $v_logT + $v_T * (#8.0234069850000003e-03 + $v_T * (#(-6.9245629400000004e-06) + $v_T * (#3.3330242550000002e-09 + #(-6.8588373949999998e-13) * $v_T))) - #(-7.2171608599999963e+03) / $v_T)]
    [Asn v_Kc 0 (#(-1.1619143255000001e+01) + #2.1519710450000002e+00 * $v_logT + $v_T * (#(-2.2612790030000001e-03) + $v_T * (#4.0918947733333328e-07 + $v_T * (#(-5.3028044783333331e-11) + #3.0089326100000001e-15 * $v_T))) - #(-7.6190252099999998e+03) / $v_T)];
  (*790*) Do (Asn v_Kc 0 ((Exp $v_Kc)));
  (*791*) Do (Asn v_j_temp 0 ((- $v_mw_avg) * $v_rho_inv * (#2.0 * v_fwd_rates.[48] - #2.0 * v_rev_rates.[48])));
  (*792*) Do (Asn v_kf 0 ((Exp (#1.1512925464970229e+01 + #1.6 * $v_logT - #1.5700450423605873e+03 / $v_T))));
  (*793*) Do (Asn v_kr 0 ($v_kf / $v_Kc));
  (*794*) Do (AddA v_jac 31 (#7.4581919558703884e+00 * ($v_j_temp * #9.2803892982949643e-01)));
  (*795*) Do (AddA v_jac 32 (#(-7.9581919558703893e+00) * ($v_j_temp * #9.2803892982949643e-01)));
  (*796*) Do (AddA v_jac 26 (#(-8.4366827390519266e+00) * ($v_j_temp * #9.2803892982949643e-01)));
  (*797*) Do (AddA v_jac 27 (#8.9366827390519283e+00 * ($v_j_temp * #9.2803892982949643e-01)));
  (*798*) Do (AddA v_jac 52 (#1.4916383911740777e+01 * ($v_j_temp * #9.6401946491474821e-01)));
  (*799*) Do (AddA v_jac 53 (#(-1.5916383911740779e+01) * ($v_j_temp * #9.6401946491474821e-01)));
  (*800*) Do (AddA v_jac 47 (#(-1.6873365478103853e+01) * ($v_j_temp * #9.6401946491474821e-01)));
  (*801*) Do (AddA v_jac 48 (#1.7873365478103857e+01 * ($v_j_temp * #9.6401946491474821e-01)));
  (*802*) Do (AddA v_jac 73 (#9.3971148918084424e-01 * ($v_j_temp * #4.2886781649405936e-01)));
  (*803*) Do (AddA v_jac 74 (#(-1.0027101016288111e+00) * ($v_j_temp * #4.2886781649405936e-01)));
  (*804*) Do (AddA v_jac 68 (#(-1.0629986124479667e+00) * ($v_j_temp * #4.2886781649405936e-01)));
  (*805*) Do (AddA v_jac 69 (#1.1259972248959336e+00 * ($v_j_temp * #4.2886781649405936e-01)));
  (*806*) Do (AddA v_jac 94 (#4.6985574459042212e-01 * ($v_j_temp * #(-1.4226436701188128e-01))));
  (*807*) Do (AddA v_jac 95 (#(-5.0135505081440557e-01) * ($v_j_temp * #(-1.4226436701188128e-01))));
  (*808*) Do (AddA v_jac 89 (#(-5.3149930622398334e-01) * ($v_j_temp * #(-1.4226436701188128e-01))));
  (*809*) Do (AddA v_jac 90 (#5.6299861244796678e-01 * ($v_j_temp * #(-1.4226436701188128e-01))));
  (*810*) Do (AddA v_jac 115 (#8.8401948805633335e-01 * ($v_j_temp * #3.9288728140880758e-01 + $v_kf * v_conc.[10])));
  (*811*) Do (AddA v_jac 116 (#(-9.4328448775646290e-01) * ($v_j_temp * #3.9288728140880758e-01 + $v_kf * v_conc.[10])));
  (*812*) Do (AddA v_jac 110 ((- ($v_j_temp * #3.9288728140880758e-01 + $v_kf * v_conc.[10]))));
  (*813*) Do (AddA v_jac 111 (#1.0592649997001296e+00 * ($v_j_temp * #3.9288728140880758e-01 + $v_kf * v_conc.[10])));
  (*814*) Do (AddA v_jac 136 (#8.3455932963573143e-01 * ($v_j_temp * #3.5690674632355568e-01 - $v_kr * v_conc.[9])));
  (*815*) Do (AddA v_jac 137 (#(-8.9050850167191409e-01) * ($v_j_temp * #3.5690674632355568e-01 - $v_kr * v_conc.[9])));
  (*816*) Do (AddA v_jac 131 (#(-9.4405082796381734e-01) * ($v_j_temp * #3.5690674632355568e-01 - $v_kr * v_conc.[9])));
  (*817*) Do (AddA v_jac 132 ($v_j_temp * #3.5690674632355568e-01 - $v_kr * v_conc.[9]));
  (*818*) Do (AddA v_jac 157 (#4.5550757208982162e-01 * ($v_j_temp * #(-1.7824490209713328e-01))));
  (*819*) Do (AddA v_jac 158 (#(-4.8604497142098857e-01) * ($v_j_temp * #(-1.7824490209713328e-01))));
  (*820*) Do (AddA v_jac 152 (#(-5.1526869966558342e-01) * ($v_j_temp * #(-1.7824490209713328e-01))));
  (*821*) Do (AddA v_jac 153 (#5.4580609899675037e-01 * ($v_j_temp * #(-1.7824490209713328e-01))));
  (*822*) Do (AddA v_jac 178 (#1.0718577474106858e+00 * ($v_j_temp * #4.9928106040377707e-01)));
  (*823*) Do (AddA v_jac 179 (#(-1.1437154948213717e+00) * ($v_j_temp * #4.9928106040377707e-01)));
  (*824*) Do (AddA v_jac 173 (#(-1.2124820344937721e+00) * ($v_j_temp * #4.9928106040377707e-01)));
  (*825*) Do (AddA v_jac 174 (#1.2843397819044580e+00 * ($v_j_temp * #4.9928106040377707e-01)));
  (*826*) Do (AddA v_jac 199 (#1.0718577474106858e+00 * ($v_j_temp * #4.9928106040377707e-01)));
  (*827*) Do (AddA v_jac 200 (#(-1.1437154948213717e+00) * ($v_j_temp * #4.9928106040377707e-01)));
  (*828*) Do (AddA v_jac 194 (#(-1.2124820344937721e+00) * ($v_j_temp * #4.9928106040377707e-01)));
  (*829*) Do (AddA v_jac 195 (#1.2843397819044580e+00 * ($v_j_temp * #4.9928106040377707e-01)));
  (*830*) Do (AddA v_jac 220 ($v_j_temp * #4.6330052531852528e-01 - $v_kr * v_conc.[5]));
  (*831*) Do (AddA v_jac 221 (#(-1.0670403769383339e+00) * ($v_j_temp * #4.6330052531852528e-01 - $v_kr * v_conc.[5])));
  (*832*) Do (AddA v_jac 215 (#(-1.1311967818703517e+00) * ($v_j_temp * #4.6330052531852528e-01 - $v_kr * v_conc.[5])));
  (*833*) Do (AddA v_jac 216 (#1.1982371588086855e+00 * ($v_j_temp * #4.6330052531852528e-01 - $v_kr * v_conc.[5])));
  (*834*) Do (AddA v_jac 241 (#9.3717165874201191e-01 * ($v_j_temp * #4.2731999023327338e-01 + $v_kf * v_conc.[4])));
  (*835*) Do (AddA v_jac 242 ((- ($v_j_temp * #4.2731999023327338e-01 + $v_kf * v_conc.[4]))));
  (*836*) Do (AddA v_jac 236 (#(-1.0601255644290632e+00) * ($v_j_temp * #4.2731999023327338e-01 + $v_kf * v_conc.[4])));
  (*837*) Do (AddA v_jac 237 (#1.1229539056870512e+00 * ($v_j_temp * #4.2731999023327338e-01 + $v_kf * v_conc.[4])));
  (*838*) Do (AddA v_jac 262 (#5.3675848970382434e-01 * ($v_j_temp * #1.0994706834011048e-04)));
  (*839*) Do (AddA v_jac 263 (#(-5.7274298117841960e-01) * ($v_j_temp * #1.0994706834011048e-04)));
  (*840*) Do (AddA v_jac 257 (#(-6.0717947619455637e-01) * ($v_j_temp * #1.0994706834011048e-04)));
  (*841*) Do (AddA v_jac 258 (#6.4316396766915152e-01 * ($v_j_temp * #1.0994706834011048e-04)));
  (*842*) Do (AddA v_jac 283 (#3.4162436548223352e-01 * ($v_j_temp * #(-5.7102223643760053e-01))));
  (*843*) Do (AddA v_jac 284 (#(-3.6452699171548159e-01) * ($v_j_temp * #(-5.7102223643760053e-01))));
  (*844*) Do (AddA v_jac 278 (#(-3.8644438284200339e-01) * ($v_j_temp * #(-5.7102223643760053e-01))));
  (*845*) Do (AddA v_jac 279 (#4.0934700907525146e-01 * ($v_j_temp * #(-5.7102223643760053e-01))));
  (*846*) Do (AddA v_jac 304 (#5.1811440626858740e-01 * ($v_j_temp * #(-3.5870588016911675e-02))));
  (*847*) Do (AddA v_jac 305 (#(-5.5284899136201460e-01) * ($v_j_temp * #(-3.5870588016911675e-02))));
  (*848*) Do (AddA v_jac 299 (#(-5.8608934901169396e-01) * ($v_j_temp * #(-3.5870588016911675e-02))));
  (*849*) Do (AddA v_jac 300 (#6.2082393410512116e-01 * ($v_j_temp * #(-3.5870588016911675e-02))));
  (*850*) Do (AddA v_jac 325 (#5.0072203416473837e-01 * ($v_j_temp * #(-7.1851123102163683e-02))));
  (*851*) Do (AddA v_jac 326 (#(-5.3429062807647176e-01) * ($v_j_temp * #(-7.1851123102163683e-02))));
  (*852*) Do (AddA v_jac 320 (#(-5.6641515365872830e-01) * ($v_j_temp * #(-7.1851123102163683e-02))));
  (*853*) Do (AddA v_jac 321 (#5.9998374757046158e-01 * ($v_j_temp * #(-7.1851123102163683e-02))));
  (*854*) Do (AddA v_jac 346 (#4.8445941286747340e-01 * ($v_j_temp * #(-1.0783165818741525e-01))));
  (*855*) Do (AddA v_jac 347 (#(-5.1693775451743273e-01) * ($v_j_temp * #(-1.0783165818741525e-01))));
  (*856*) Do (AddA v_jac 341 (#(-5.4801892878248593e-01) * ($v_j_temp * #(-1.0783165818741525e-01))));
  (*857*) Do (AddA v_jac 342 (#5.8049727043244526e-01 * ($v_j_temp * #(-1.0783165818741525e-01))));
  (*858*) Do (AddA v_jac 367 (#5.3592887370534292e-01 * ($v_j_temp * #(-1.4378791924458678e-03))));
  (*859*) Do (AddA v_jac 368 (#(-5.7185774741068585e-01) * ($v_j_temp * #(-1.4378791924458678e-03))));
  (*860*) Do (AddA v_jac 362 (#(-6.0624101724688606e-01) * ($v_j_temp * #(-1.4378791924458678e-03))));
  (*861*) Do (AddA v_jac 363 (#6.4216989095222898e-01 * ($v_j_temp * #(-1.4378791924458678e-03))));
  (*862*) Do (AddA v_jac 388 (#5.1734138057993861e-01 * ($v_j_temp * #(-3.7418414277697654e-02))));
  (*863*) Do (AddA v_jac 389 (#(-5.5202414173981573e-01) * ($v_j_temp * #(-3.7418414277697654e-02))));
  (*864*) Do (AddA v_jac 383 (#(-5.8521490484039129e-01) * ($v_j_temp * #(-3.7418414277697654e-02))));
  (*865*) Do (AddA v_jac 384 (#6.1989766600026841e-01 * ($v_j_temp * #(-3.7418414277697654e-02))));
  (*866*) Do (AddA v_jac 409 (#5.0000000000000000e-01 * ($v_j_temp * #(-7.3398949362949439e-02))));
  (*867*) Do (AddA v_jac 410 (#(-5.3352018846916693e-01) * ($v_j_temp * #(-7.3398949362949439e-02))));
  (*868*) Do (AddA v_jac 404 (#(-5.6559839093517583e-01) * ($v_j_temp * #(-7.3398949362949439e-02))));
  (*869*) Do (AddA v_jac 405 (#5.9911857940434277e-01 * ($v_j_temp * #(-7.3398949362949439e-02))));
  (*870*) Do (AddA v_jac 430 (#3.7635976769800739e-01 * ($v_j_temp * #(-4.2602775520927771e-01))));
  (*871*) Do (AddA v_jac 431 (#(-4.0159106838890563e-01) * ($v_j_temp * #(-4.2602775520927771e-01))));
  (*872*) Do (AddA v_jac 425 (#(-4.2573695804545908e-01) * ($v_j_temp * #(-4.2602775520927771e-01))));
  (*873*) Do (AddA v_jac 426 (#4.5096825873635726e-01 * ($v_j_temp * #(-4.2602775520927771e-01))))]);
([
  (*876*) Do (Asn v_j_temp 0 (#1.0 / $v_T * ((v_fwd_rates.[49] - v_rev_rates.[49]) * (#1.2280000000000000e+00 + #3.5225369540141386e+01 / $v_T) + v_fwd_rates.[49] * #(-1.0) - v_rev_rates.[49] * (#(-1.0) + (- $v_T) * (v_dBdT.[1] + v_dBdT.[12] - v_dBdT.[11] - v_dBdT.[4]))) * $v_rho_inv));
  (*877*) Do (AddA v_jac 2 ($v_j_temp * #1.0079400000000001e+00));
  (*878*) Do (AddA v_jac 12 ((- $v_j_temp) * #2.8010399999999997e+01));
  (*879*) Do (AddA v_jac 5 ((- $v_j_temp) * #1.7007339999999999e+01));
  (*880*) Do (AddA v_jac 13 ($v_j_temp * #4.4009799999999998e+01))],
[
  (*883*) If ($v_T) (#1000.0)
    [Asn v_Kc 0 (#8.7646609250000012e+00 + #(-2.7147753799999998e+00) * $v_logT + $v_T * (#5.9981339853526668e-03 + $v_T * (#(-2.1263859053326532e-06) + $v_T * (#4.5277647235840138e-10 + #(-3.0169487496386619e-14) * $v_T))) - #(-1.2169304360000009e+04) / $v_T)]
    [Asn v_Kc 0 (#(-1.1019815694000000e+01) + #5.4938702000000017e-01 * $v_logT + $v_T * (#9.0170654545785114e-04 + $v_T * (#(-2.2374891347396753e-07) + $v_T * (#3.1781944238737311e-11 + #(-1.9292440950901319e-15) * $v_T))) - #(-1.2992290699999998e+04) / $v_T)];
  (*889*) Do (Asn v_Kc 0 ((Exp $v_Kc)));
  (*890*) Do (Asn v_j_temp 0 ((- $v_mw_avg) * $v_rho_inv * (#2.0 * v_fwd_rates.[49] - #2.0 * v_rev_rates.[49])));
  (*891*) Do (Asn v_kf 0 ((Exp (#1.0770588040219511e+01 + #1.228 * $v_logT - #3.5225369540141386e+01 / $v_T))));
  (*892*) Do (Asn v_kr 0 ($v_kf / $v_Kc));
  (*893*) Do (AddA v_jac 23 (#5.0000000000000000e-01 * ($v_j_temp * #9.2803892982949643e-01)));
  (*894*) Do (AddA v_jac 33 (#(-1.3894874694922315e+01) * ($v_j_temp * #9.2803892982949643e-01)));
  (*895*) Do (AddA v_jac 26 (#(-8.4366827390519266e+00) * ($v_j_temp * #9.2803892982949643e-01)));
  (*896*) Do (AddA v_jac 34 (#2.1831557433974243e+01 * ($v_j_temp * #9.2803892982949643e-01)));
  (*897*) Do (AddA v_jac 44 ($v_j_temp * #9.6401946491474821e-01 - $v_kr * v_conc.[12]));
  (*898*) Do (AddA v_jac 54 (#(-2.7789749389844630e+01) * ($v_j_temp * #9.6401946491474821e-01 - $v_kr * v_conc.[12])));
  (*899*) Do (AddA v_jac 47 (#(-1.6873365478103853e+01) * ($v_j_temp * #9.6401946491474821e-01 - $v_kr * v_conc.[12])));
  (*900*) Do (AddA v_jac 55 (#4.3663114867948487e+01 * ($v_j_temp * #9.6401946491474821e-01 - $v_kr * v_conc.[12])));
  (*901*) Do (AddA v_jac 65 (#6.2998612447966798e-02 * ($v_j_temp * #4.2886781649405936e-01)));
  (*902*) Do (AddA v_jac 75 (#(-1.7507156518369438e+00) * ($v_j_temp * #4.2886781649405936e-01)));
  (*903*) Do (AddA v_jac 68 (#(-1.0629986124479667e+00) * ($v_j_temp * #4.2886781649405936e-01)));
  (*904*) Do (AddA v_jac 76 (#2.7507156518369440e+00 * ($v_j_temp * #4.2886781649405936e-01)));
  (*905*) Do (AddA v_jac 86 (#3.1499306223983399e-02 * ($v_j_temp * #(-1.4226436701188128e-01))));
  (*906*) Do (AddA v_jac 96 (#(-8.7535782591847189e-01) * ($v_j_temp * #(-1.4226436701188128e-01))));
  (*907*) Do (AddA v_jac 89 (#(-5.3149930622398334e-01) * ($v_j_temp * #(-1.4226436701188128e-01))));
  (*908*) Do (AddA v_jac 97 (#1.3753578259184720e+00 * ($v_j_temp * #(-1.4226436701188128e-01))));
  (*909*) Do (AddA v_jac 107 (#5.9264999700129481e-02 * ($v_j_temp * #3.9288728140880758e-01 + $v_kf * v_conc.[11])));
  (*910*) Do (AddA v_jac 117 (#(-1.6469594892558153e+00) * ($v_j_temp * #3.9288728140880758e-01 + $v_kf * v_conc.[11])));
  (*911*) Do (AddA v_jac 110 ((- ($v_j_temp * #3.9288728140880758e-01 + $v_kf * v_conc.[11]))));
  (*912*) Do (AddA v_jac 118 (#2.5876944895556862e+00 * ($v_j_temp * #3.9288728140880758e-01 + $v_kf * v_conc.[11])));
  (*913*) Do (AddA v_jac 128 (#5.5949172036182618e-02 * ($v_j_temp * #3.5690674632355568e-01)));
  (*914*) Do (AddA v_jac 138 (#(-1.5548134694548181e+00) * ($v_j_temp * #3.5690674632355568e-01)));
  (*915*) Do (AddA v_jac 131 (#(-9.4405082796381734e-01) * ($v_j_temp * #3.5690674632355568e-01)));
  (*916*) Do (AddA v_jac 139 (#2.4429151253824530e+00 * ($v_j_temp * #3.5690674632355568e-01)));
  (*917*) Do (AddA v_jac 149 (#3.0537399331166910e-02 * ($v_j_temp * #(-1.7824490209713328e-01))));
  (*918*) Do (AddA v_jac 159 (#(-8.4862667443073736e-01) * ($v_j_temp * #(-1.7824490209713328e-01))));
  (*919*) Do (AddA v_jac 152 (#(-5.1526869966558342e-01) * ($v_j_temp * #(-1.7824490209713328e-01))));
  (*920*) Do (AddA v_jac 160 (#1.3333579747651541e+00 * ($v_j_temp * #(-1.7824490209713328e-01))));
  (*921*) Do (AddA v_jac 170 (#7.1857747410685777e-02 * ($v_j_temp * #4.9928106040377707e-01)));
  (*922*) Do (AddA v_jac 180 (#(-1.9969087922617146e+00) * ($v_j_temp * #4.9928106040377707e-01)));
  (*923*) Do (AddA v_jac 173 (#(-1.2124820344937721e+00) * ($v_j_temp * #4.9928106040377707e-01)));
  (*924*) Do (AddA v_jac 181 (#3.1375330793448009e+00 * ($v_j_temp * #4.9928106040377707e-01)));
  (*925*) Do (AddA v_jac 191 (#7.1857747410685777e-02 * ($v_j_temp * #4.9928106040377707e-01)));
  (*926*) Do (AddA v_jac 201 (#(-1.9969087922617146e+00) * ($v_j_temp * #4.9928106040377707e-01)));
  (*927*) Do (AddA v_jac 194 (#(-1.2124820344937721e+00) * ($v_j_temp * #4.9928106040377707e-01)));
  (*928*) Do (AddA v_jac 202 (#3.1375330793448009e+00 * ($v_j_temp * #4.9928106040377707e-01)));
  (*929*) Do (AddA v_jac 212 (#6.7040376938333812e-02 * ($v_j_temp * #4.6330052531852528e-01)));
  (*930*) Do (AddA v_jac 222 (#(-1.8630352741170162e+00) * ($v_j_temp * #4.6330052531852528e-01)));
  (*931*) Do (AddA v_jac 215 (#(-1.1311967818703517e+00) * ($v_j_temp * #4.6330052531852528e-01)));
  (*932*) Do (AddA v_jac 223 (#2.9271916790490340e+00 * ($v_j_temp * #4.6330052531852528e-01)));
  (*933*) Do (AddA v_jac 233 (#6.2828341257988030e-02 * ($v_j_temp * #4.2731999023327338e-01)));
  (*934*) Do (AddA v_jac 243 (#(-1.7459838581391229e+00) * ($v_j_temp * #4.2731999023327338e-01)));
  (*935*) Do (AddA v_jac 236 (#(-1.0601255644290632e+00) * ($v_j_temp * #4.2731999023327338e-01)));
  (*936*) Do (AddA v_jac 244 (#2.7432810813101982e+00 * ($v_j_temp * #4.2731999023327338e-01)));
  (*937*) Do (AddA v_jac 254 (#3.5984491474595155e-02 * ($v_j_temp * #1.0994706834011048e-04 + $v_kf * v_conc.[4])));
  (*938*) Do (AddA v_jac 264 ((- ($v_j_temp * #1.0994706834011048e-04 + $v_kf * v_conc.[4]))));
  (*939*) Do (AddA v_jac 257 (#(-6.0717947619455637e-01) * ($v_j_temp * #1.0994706834011048e-04 + $v_kf * v_conc.[4])));
  (*940*) Do (AddA v_jac 265 (#1.5711949847199613e+00 * ($v_j_temp * #1.0994706834011048e-04 + $v_kf * v_conc.[4])));
  (*941*) Do (AddA v_jac 275 (#2.2902626233248052e-02 * ($v_j_temp * #(-5.7102223643760053e-01) - $v_kr * v_conc.[1])));
  (*942*) Do (AddA v_jac 285 (#(-6.3645824339124468e-01) * ($v_j_temp * #(-5.7102223643760053e-01) - $v_kr * v_conc.[1])));
  (*943*) Do (AddA v_jac 278 (#(-3.8644438284200339e-01) * ($v_j_temp * #(-5.7102223643760053e-01) - $v_kr * v_conc.[1])));
  (*944*) Do (AddA v_jac 286 ($v_j_temp * #(-5.7102223643760053e-01) - $v_kr * v_conc.[1]));
  (*945*) Do (AddA v_jac 296 (#3.4734585093427126e-02 * ($v_j_temp * #(-3.5870588016911675e-02))));
  (*946*) Do (AddA v_jac 306 (#(-9.6526541490657281e-01) * ($v_j_temp * #(-3.5870588016911675e-02))));
  (*947*) Do (AddA v_jac 299 (#(-5.8608934901169396e-01) * ($v_j_temp * #(-3.5870588016911675e-02))));
  (*948*) Do (AddA v_jac 307 (#1.5166201788248397e+00 * ($v_j_temp * #(-3.5870588016911675e-02))));
  (*949*) Do (AddA v_jac 317 (#3.3568593911733322e-02 * ($v_j_temp * #(-7.1851123102163683e-02))));
  (*950*) Do (AddA v_jac 327 (#(-9.3286281217653322e-01) * ($v_j_temp * #(-7.1851123102163683e-02))));
  (*951*) Do (AddA v_jac 320 (#(-5.6641515365872830e-01) * ($v_j_temp * #(-7.1851123102163683e-02))));
  (*952*) Do (AddA v_jac 328 (#1.4657093719235283e+00 * ($v_j_temp * #(-7.1851123102163683e-02))));
  (*953*) Do (AddA v_jac 338 (#3.2478341649959309e-02 * ($v_j_temp * #(-1.0783165818741525e-01))));
  (*954*) Do (AddA v_jac 348 (#(-9.0256497505012201e-01) * ($v_j_temp * #(-1.0783165818741525e-01))));
  (*955*) Do (AddA v_jac 341 (#(-5.4801892878248593e-01) * ($v_j_temp * #(-1.0783165818741525e-01))));
  (*956*) Do (AddA v_jac 349 (#1.4181055621826488e+00 * ($v_j_temp * #(-1.0783165818741525e-01))));
  (*957*) Do (AddA v_jac 359 (#3.5928873705342888e-02 * ($v_j_temp * #(-1.4378791924458678e-03))));
  (*958*) Do (AddA v_jac 369 (#(-9.9845439613085729e-01) * ($v_j_temp * #(-1.4378791924458678e-03))));
  (*959*) Do (AddA v_jac 362 (#(-6.0624101724688606e-01) * ($v_j_temp * #(-1.4378791924458678e-03))));
  (*960*) Do (AddA v_jac 370 (#1.5687665396724004e+00 * ($v_j_temp * #(-1.4378791924458678e-03))));
  (*961*) Do (AddA v_jac 380 (#3.4682761159877090e-02 * ($v_j_temp * #(-3.7418414277697654e-02))));
  (*962*) Do (AddA v_jac 390 (#(-9.6382524078082144e-01) * ($v_j_temp * #(-3.7418414277697654e-02))));
  (*963*) Do (AddA v_jac 383 (#(-5.8521490484039129e-01) * ($v_j_temp * #(-3.7418414277697654e-02))));
  (*964*) Do (AddA v_jac 391 (#1.5143573844613358e+00 * ($v_j_temp * #(-3.7418414277697654e-02))));
  (*965*) Do (AddA v_jac 401 (#3.3520188469166906e-02 * ($v_j_temp * #(-7.3398949362949439e-02))));
  (*966*) Do (AddA v_jac 411 (#(-9.3151763705850810e-01) * ($v_j_temp * #(-7.3398949362949439e-02))));
  (*967*) Do (AddA v_jac 404 (#(-5.6559839093517583e-01) * ($v_j_temp * #(-7.3398949362949439e-02))));
  (*968*) Do (AddA v_jac 412 (#1.4635958395245170e+00 * ($v_j_temp * #(-7.3398949362949439e-02))));
  (*969*) Do (AddA v_jac 422 (#2.5231300690898170e-02 * ($v_j_temp * #(-4.2602775520927771e-01))));
  (*970*) Do (AddA v_jac 432 (#(-7.0117152297987373e-01) * ($v_j_temp * #(-4.2602775520927771e-01))));
  (*971*) Do (AddA v_jac 425 (#(-4.2573695804545908e-01) * ($v_j_temp * #(-4.2602775520927771e-01))));
  (*972*) Do (AddA v_jac 433 (#1.1016771803344347e+00 * ($v_j_temp * #(-4.2602775520927771e-01))))]);
([
  (*975*) Do (Asn v_j_temp 0 (#1.0 / $v_T * (v_fwd_rates.[50] * #(-1.0) - v_rev_rates.[50] * (#(-1.0) + (- $v_T) * (v_dBdT.[5] + v_dBdT.[11] - v_dBdT.[13] - v_dBdT.[4]))) * $v_rho_inv));
  (*976*) Do (AddA v_jac 12 ($v_j_temp * #2.8010399999999997e+01));
  (*977*) Do (AddA v_jac 5 ((- $v_j_temp) * #1.7007339999999999e+01));
  (*978*) Do (AddA v_jac 14 ((- $v_j_temp) * #2.9018339999999998e+01));
  (*979*) Do (AddA v_jac 6 ($v_j_temp * #1.8015280000000001e+01))],
[
  (*982*) If ($v_T) (#1000.0)
    [Asn v_Kc 0 (#(-1.9604265999999981e-01) + #(-4.3502724000000015e-01) * $v_logT + $v_T * (#1.4992275299999999e-03 + $v_T * (#(-1.8101110950000002e-06) + $v_T * (#1.0512148244999999e-09 + #(-2.4171248394999997e-13) * $v_T))) - #(-5.2092458220000000e+04) / $v_T)]
    [Asn v_Kc 0 (#(-1.3736992500000000e+00) + #(-1.1588395000000018e-01) * $v_logT + $v_T * (#(-6.3296975299999953e-04) + $v_T * (#1.9917543550000000e-07 + $v_T * (#(-3.0683716783333336e-11) + #1.9032480549999999e-15 * $v_T))) - #(-5.2026744650000001e+04) / $v_T)];
  (*988*) Do (Asn v_Kc 0 ((Exp $v_Kc)));
  (*989*) Do (Asn v_j_temp 0 ((- $v_mw_avg) * $v_rho_inv * (#2.0 * v_fwd_rates.[50] - #2.0 * v_rev_rates.[50])));
  (*990*) Do (Asn v_kf 0 (#50000000000.0));
  (*991*) Do (Asn v_kr 0 ($v_kf / $v_Kc));
  (*992*) Do (AddA v_jac 33 (#1.3894874694922315e+01 * ($v_j_temp * #9.2803892982949643e-01)));
  (*993*) Do (AddA v_jac 26 (#(-8.4366827390519266e+00) * ($v_j_temp * #9.2803892982949643e-01)));
  (*994*) Do (AddA v_jac 35 (#(-1.4394874694922315e+01) * ($v_j_temp * #9.2803892982949643e-01)));
  (*995*) Do (AddA v_jac 27 (#8.9366827390519283e+00 * ($v_j_temp * #9.2803892982949643e-01)));
  (*996*) Do (AddA v_jac 54 (#2.7789749389844630e+01 * ($v_j_temp * #9.6401946491474821e-01)));
  (*997*) Do (AddA v_jac 47 (#(-1.6873365478103853e+01) * ($v_j_temp * #9.6401946491474821e-01)));
  (*998*) Do (AddA v_jac 56 (#(-2.8789749389844630e+01) * ($v_j_temp * #9.6401946491474821e-01)));
  (*999*) Do (AddA v_jac 48 (#1.7873365478103857e+01 * ($v_j_temp * #9.6401946491474821e-01)));
  (*1000*) Do (AddA v_jac 75 (#1.7507156518369438e+00 * ($v_j_temp * #4.2886781649405936e-01)));
  (*1001*) Do (AddA v_jac 68 (#(-1.0629986124479667e+00) * ($v_j_temp * #4.2886781649405936e-01)));
  (*1002*) Do (AddA v_jac 77 (#(-1.8137142642849107e+00) * ($v_j_temp * #4.2886781649405936e-01)));
  (*1003*) Do (AddA v_jac 69 (#1.1259972248959336e+00 * ($v_j_temp * #4.2886781649405936e-01)));
  (*1004*) Do (AddA v_jac 96 (#8.7535782591847189e-01 * ($v_j_temp * #(-1.4226436701188128e-01))));
  (*1005*) Do (AddA v_jac 89 (#(-5.3149930622398334e-01) * ($v_j_temp * #(-1.4226436701188128e-01))));
  (*1006*) Do (AddA v_jac 98 (#(-9.0685713214245534e-01) * ($v_j_temp * #(-1.4226436701188128e-01))));
  (*1007*) Do (AddA v_jac 90 (#5.6299861244796678e-01 * ($v_j_temp * #(-1.4226436701188128e-01))));
  (*1008*) Do (AddA v_jac 117 (#1.6469594892558153e+00 * ($v_j_temp * #3.9288728140880758e-01 + $v_kf * v_conc.[13])));
  (*1009*) Do (AddA v_jac 110 ((- ($v_j_temp * #3.9288728140880758e-01 + $v_kf * v_conc.[13]))));
  (*1010*) Do (AddA v_jac 119 (#(-1.7062244889559448e+00) * ($v_j_temp * #3.9288728140880758e-01 + $v_kf * v_conc.[13])));
  (*1011*) Do (AddA v_jac 111 (#1.0592649997001296e+00 * ($v_j_temp * #3.9288728140880758e-01 + $v_kf * v_conc.[13])));
  (*1012*) Do (AddA v_jac 138 (#1.5548134694548181e+00 * ($v_j_temp * #3.5690674632355568e-01 - $v_kr * v_conc.[11])));
  (*1013*) Do (AddA v_jac 131 (#(-9.4405082796381734e-01) * ($v_j_temp * #3.5690674632355568e-01 - $v_kr * v_conc.[11])));
  (*1014*) Do (AddA v_jac 140 (#(-1.6107626414910008e+00) * ($v_j_temp * #3.5690674632355568e-01 - $v_kr * v_conc.[11])));
  (*1015*) Do (AddA v_jac 132 ($v_j_temp * #3.5690674632355568e-01 - $v_kr * v_conc.[11]));
  (*1016*) Do (AddA v_jac 159 (#8.4862667443073736e-01 * ($v_j_temp * #(-1.7824490209713328e-01))));
  (*1017*) Do (AddA v_jac 152 (#(-5.1526869966558342e-01) * ($v_j_temp * #(-1.7824490209713328e-01))));
  (*1018*) Do (AddA v_jac 161 (#(-8.7916407376190431e-01) * ($v_j_temp * #(-1.7824490209713328e-01))));
  (*1019*) Do (AddA v_jac 153 (#5.4580609899675037e-01 * ($v_j_temp * #(-1.7824490209713328e-01))));
  (*1020*) Do (AddA v_jac 180 (#1.9969087922617146e+00 * ($v_j_temp * #4.9928106040377707e-01)));
  (*1021*) Do (AddA v_jac 173 (#(-1.2124820344937721e+00) * ($v_j_temp * #4.9928106040377707e-01)));
  (*1022*) Do (AddA v_jac 182 (#(-2.0687665396724007e+00) * ($v_j_temp * #4.9928106040377707e-01)));
  (*1023*) Do (AddA v_jac 174 (#1.2843397819044580e+00 * ($v_j_temp * #4.9928106040377707e-01)));
  (*1024*) Do (AddA v_jac 201 (#1.9969087922617146e+00 * ($v_j_temp * #4.9928106040377707e-01)));
  (*1025*) Do (AddA v_jac 194 (#(-1.2124820344937721e+00) * ($v_j_temp * #4.9928106040377707e-01)));
  (*1026*) Do (AddA v_jac 203 (#(-2.0687665396724007e+00) * ($v_j_temp * #4.9928106040377707e-01)));
  (*1027*) Do (AddA v_jac 195 (#1.2843397819044580e+00 * ($v_j_temp * #4.9928106040377707e-01)));
  (*1028*) Do (AddA v_jac 222 (#1.8630352741170162e+00 * ($v_j_temp * #4.6330052531852528e-01)));
  (*1029*) Do (AddA v_jac 215 (#(-1.1311967818703517e+00) * ($v_j_temp * #4.6330052531852528e-01)));
  (*1030*) Do (AddA v_jac 224 (#(-1.9300756510553501e+00) * ($v_j_temp * #4.6330052531852528e-01)));
  (*1031*) Do (AddA v_jac 216 (#1.1982371588086855e+00 * ($v_j_temp * #4.6330052531852528e-01)));
  (*1032*) Do (AddA v_jac 243 (#1.7459838581391229e+00 * ($v_j_temp * #4.2731999023327338e-01)));
  (*1033*) Do (AddA v_jac 236 (#(-1.0601255644290632e+00) * ($v_j_temp * #4.2731999023327338e-01)));
  (*1034*) Do (AddA v_jac 245 (#(-1.8088121993971109e+00) * ($v_j_temp * #4.2731999023327338e-01)));
  (*1035*) Do (AddA v_jac 237 (#1.1229539056870512e+00 * ($v_j_temp * #4.2731999023327338e-01)));
  (*1036*) Do (AddA v_jac 264 ($v_j_temp * #1.0994706834011048e-04 - $v_kr * v_conc.[5]));
  (*1037*) Do (AddA v_jac 257 (#(-6.0717947619455637e-01) * ($v_j_temp * #1.0994706834011048e-04 - $v_kr * v_conc.[5])));
  (*1038*) Do (AddA v_jac 266 (#(-1.0359844914745953e+00) * ($v_j_temp * #1.0994706834011048e-04 - $v_kr * v_conc.[5])));
  (*1039*) Do (AddA v_jac 258 (#6.4316396766915152e-01 * ($v_j_temp * #1.0994706834011048e-04 - $v_kr * v_conc.[5])));
  (*1040*) Do (AddA v_jac 285 (#6.3645824339124468e-01 * ($v_j_temp * #(-5.7102223643760053e-01))));
  (*1041*) Do (AddA v_jac 278 (#(-3.8644438284200339e-01) * ($v_j_temp * #(-5.7102223643760053e-01))));
  (*1042*) Do (AddA v_jac 287 (#(-6.5936086962449270e-01) * ($v_j_temp * #(-5.7102223643760053e-01))));
  (*1043*) Do (AddA v_jac 279 (#4.0934700907525146e-01 * ($v_j_temp * #(-5.7102223643760053e-01))));
  (*1044*) Do (AddA v_jac 306 (#9.6526541490657281e-01 * ($v_j_temp * #(-3.5870588016911675e-02) + $v_kf * v_conc.[4])));
  (*1045*) Do (AddA v_jac 299 (#(-5.8608934901169396e-01) * ($v_j_temp * #(-3.5870588016911675e-02) + $v_kf * v_conc.[4])));
  (*1046*) Do (AddA v_jac 308 ((- ($v_j_temp * #(-3.5870588016911675e-02) + $v_kf * v_conc.[4]))));
  (*1047*) Do (AddA v_jac 300 (#6.2082393410512116e-01 * ($v_j_temp * #(-3.5870588016911675e-02) + $v_kf * v_conc.[4])));
  (*1048*) Do (AddA v_jac 327 (#9.3286281217653322e-01 * ($v_j_temp * #(-7.1851123102163683e-02))));
  (*1049*) Do (AddA v_jac 320 (#(-5.6641515365872830e-01) * ($v_j_temp * #(-7.1851123102163683e-02))));
  (*1050*) Do (AddA v_jac 329 (#(-9.6643140608826661e-01) * ($v_j_temp * #(-7.1851123102163683e-02))));
  (*1051*) Do (AddA v_jac 321 (#5.9998374757046158e-01 * ($v_j_temp * #(-7.1851123102163683e-02))));
  (*1052*) Do (AddA v_jac 348 (#9.0256497505012201e-01 * ($v_j_temp * #(-1.0783165818741525e-01))));
  (*1053*) Do (AddA v_jac 341 (#(-5.4801892878248593e-01) * ($v_j_temp * #(-1.0783165818741525e-01))));
  (*1054*) Do (AddA v_jac 350 (#(-9.3504331670008145e-01) * ($v_j_temp * #(-1.0783165818741525e-01))));
  (*1055*) Do (AddA v_jac 342 (#5.8049727043244526e-01 * ($v_j_temp * #(-1.0783165818741525e-01))));
  (*1056*) Do (AddA v_jac 369 (#9.9845439613085729e-01 * ($v_j_temp * #(-1.4378791924458678e-03))));
  (*1057*) Do (AddA v_jac 362 (#(-6.0624101724688606e-01) * ($v_j_temp * #(-1.4378791924458678e-03))));
  (*1058*) Do (AddA v_jac 371 (#(-1.0343832698362003e+00) * ($v_j_temp * #(-1.4378791924458678e-03))));
  (*1059*) Do (AddA v_jac 363 (#6.4216989095222898e-01 * ($v_j_temp * #(-1.4378791924458678e-03))));
  (*1060*) Do (AddA v_jac 390 (#9.6382524078082144e-01 * ($v_j_temp * #(-3.7418414277697654e-02))));
  (*1061*) Do (AddA v_jac 383 (#(-5.8521490484039129e-01) * ($v_j_temp * #(-3.7418414277697654e-02))));
  (*1062*) Do (AddA v_jac 392 (#(-9.9850800194069855e-01) * ($v_j_temp * #(-3.7418414277697654e-02))));
  (*1063*) Do (AddA v_jac 384 (#6.1989766600026841e-01 * ($v_j_temp * #(-3.7418414277697654e-02))));
  (*1064*) Do (AddA v_jac 411 (#9.3151763705850810e-01 * ($v_j_temp * #(-7.3398949362949439e-02))));
  (*1065*) Do (AddA v_jac 404 (#(-5.6559839093517583e-01) * ($v_j_temp * #(-7.3398949362949439e-02))));
  (*1066*) Do (AddA v_jac 413 (#(-9.6503782552767503e-01) * ($v_j_temp * #(-7.3398949362949439e-02))));
  (*1067*) Do (AddA v_jac 405 (#5.9911857940434277e-01 * ($v_j_temp * #(-7.3398949362949439e-02))));
  (*1068*) Do (AddA v_jac 432 (#7.0117152297987373e-01 * ($v_j_temp * #(-4.2602775520927771e-01))));
  (*1069*) Do (AddA v_jac 425 (#(-4.2573695804545908e-01) * ($v_j_temp * #(-4.2602775520927771e-01))));
  (*1070*) Do (AddA v_jac 434 (#(-7.2640282367077191e-01) * ($v_j_temp * #(-4.2602775520927771e-01))));
  (*1071*) Do (AddA v_jac 426 (#4.5096825873635726e-01 * ($v_j_temp * #(-4.2602775520927771e-01))))]);
([
  (*1074*) Do (Asn v_j_temp 0 (#1.0 / $v_T * ((v_fwd_rates.[51] - v_rev_rates.[51]) * (#1.1799999999999999e+00 + #(-2.2493914549204570e+02) / $v_T) + v_fwd_rates.[51] * #(-1.0) - v_rev_rates.[51] * (#(-1.0) + (- $v_T) * (v_dBdT.[5] + v_dBdT.[13] - v_dBdT.[14] - v_dBdT.[4]))) * $v_rho_inv));
  (*1075*) Do (AddA v_jac 5 ((- $v_j_temp) * #1.7007339999999999e+01));
  (*1076*) Do (AddA v_jac 6 ($v_j_temp * #1.8015280000000001e+01));
  (*1077*) Do (AddA v_jac 15 ((- $v_j_temp) * #3.0026280000000000e+01));
  (*1078*) Do (AddA v_jac 14 ($v_j_temp * #2.9018339999999998e+01))],
[
  (*1081*) If ($v_T) (#1000.0)
    [Asn v_Kc 0 (#2.4123649600000001e+00 + #(-3.6591217999999914e-01) * $v_logT + $v_T * (#3.5146458949999997e-03 + $v_T * (#(-3.6065987499999994e-06) + $v_T * (#1.9172732924999999e-09 + #(-4.2158565400000001e-13) * $v_T))) - #(-1.5760285599999999e+04) / $v_T)]
    [Asn v_Kc 0 (#(-4.3204932000000005e+00) + #9.5258912000000007e-01 * $v_logT + $v_T * (#(-1.3072786180000000e-03) + $v_T * (#2.7459237566666661e-07 + $v_T * (#(-3.5528847783333325e-11) + #2.0056777250000003e-15 * $v_T))) - #(-1.5855203650000001e+04) / $v_T)];
  (*1087*) Do (Asn v_Kc 0 ((Exp $v_Kc)));
  (*1088*) Do (Asn v_j_temp 0 ((- $v_mw_avg) * $v_rho_inv * (#2.0 * v_fwd_rates.[51] - #2.0 * v_rev_rates.[51])));
  (*1089*) Do (Asn v_kf 0 ((Exp (#1.5048070819142122e+01 + #1.18 * $v_logT - #(-2.2493914549204570e+02) / $v_T))));
  (*1090*) Do (Asn v_kr 0 ($v_kf / $v_Kc));
  (*1091*) Do (AddA v_jac 26 (#(-8.4366827390519266e+00) * ($v_j_temp * #9.2803892982949643e-01)));
  (*1092*) Do (AddA v_jac 27 (#8.9366827390519283e+00 * ($v_j_temp * #9.2803892982949643e-01)));
  (*1093*) Do (AddA v_jac 36 (#(-1.4894874694922317e+01) * ($v_j_temp * #9.2803892982949643e-01)));
  (*1094*) Do (AddA v_jac 35 (#1.4394874694922315e+01 * ($v_j_temp * #9.2803892982949643e-01)));
  (*1095*) Do (AddA v_jac 47 (#(-1.6873365478103853e+01) * ($v_j_temp * #9.6401946491474821e-01)));
  (*1096*) Do (AddA v_jac 48 (#1.7873365478103857e+01 * ($v_j_temp * #9.6401946491474821e-01)));
  (*1097*) Do (AddA v_jac 57 (#(-2.9789749389844633e+01) * ($v_j_temp * #9.6401946491474821e-01)));
  (*1098*) Do (AddA v_jac 56 (#2.8789749389844630e+01 * ($v_j_temp * #9.6401946491474821e-01)));
  (*1099*) Do (AddA v_jac 68 (#(-1.0629986124479667e+00) * ($v_j_temp * #4.2886781649405936e-01)));
  (*1100*) Do (AddA v_jac 69 (#1.1259972248959336e+00 * ($v_j_temp * #4.2886781649405936e-01)));
  (*1101*) Do (AddA v_jac 78 (#(-1.8767128767328776e+00) * ($v_j_temp * #4.2886781649405936e-01)));
  (*1102*) Do (AddA v_jac 77 (#1.8137142642849107e+00 * ($v_j_temp * #4.2886781649405936e-01)));
  (*1103*) Do (AddA v_jac 89 (#(-5.3149930622398334e-01) * ($v_j_temp * #(-1.4226436701188128e-01))));
  (*1104*) Do (AddA v_jac 90 (#5.6299861244796678e-01 * ($v_j_temp * #(-1.4226436701188128e-01))));
  (*1105*) Do (AddA v_jac 99 (#(-9.3835643836643878e-01) * ($v_j_temp * #(-1.4226436701188128e-01))));
  (*1106*) Do (AddA v_jac 98 (#9.0685713214245534e-01 * ($v_j_temp * #(-1.4226436701188128e-01))));
  (*1107*) Do (AddA v_jac 110 ((- ($v_j_temp * #3.9288728140880758e-01 + $v_kf * v_conc.[14]))));
  (*1108*) Do (AddA v_jac 111 (#1.0592649997001296e+00 * ($v_j_temp * #3.9288728140880758e-01 + $v_kf * v_conc.[14])));
  (*1109*) Do (AddA v_jac 120 (#(-1.7654894886560744e+00) * ($v_j_temp * #3.9288728140880758e-01 + $v_kf * v_conc.[14])));
  (*1110*) Do (AddA v_jac 119 (#1.7062244889559448e+00 * ($v_j_temp * #3.9288728140880758e-01 + $v_kf * v_conc.[14])));
  (*1111*) Do (AddA v_jac 131 (#(-9.4405082796381734e-01) * ($v_j_temp * #3.5690674632355568e-01 - $v_kr * v_conc.[13])));
  (*1112*) Do (AddA v_jac 132 ($v_j_temp * #3.5690674632355568e-01 - $v_kr * v_conc.[13]));
  (*1113*) Do (AddA v_jac 141 (#(-1.6667118135271835e+00) * ($v_j_temp * #3.5690674632355568e-01 - $v_kr * v_conc.[13])));
  (*1114*) Do (AddA v_jac 140 (#1.6107626414910008e+00 * ($v_j_temp * #3.5690674632355568e-01 - $v_kr * v_conc.[13])));
  (*1115*) Do (AddA v_jac 152 (#(-5.1526869966558342e-01) * ($v_j_temp * #(-1.7824490209713328e-01))));
  (*1116*) Do (AddA v_jac 153 (#5.4580609899675037e-01 * ($v_j_temp * #(-1.7824490209713328e-01))));
  (*1117*) Do (AddA v_jac 162 (#(-9.0970147309307126e-01) * ($v_j_temp * #(-1.7824490209713328e-01))));
  (*1118*) Do (AddA v_jac 161 (#8.7916407376190431e-01 * ($v_j_temp * #(-1.7824490209713328e-01))));
  (*1119*) Do (AddA v_jac 173 (#(-1.2124820344937721e+00) * ($v_j_temp * #4.9928106040377707e-01)));
  (*1120*) Do (AddA v_jac 174 (#1.2843397819044580e+00 * ($v_j_temp * #4.9928106040377707e-01)));
  (*1121*) Do (AddA v_jac 183 (#(-2.1406242870830865e+00) * ($v_j_temp * #4.9928106040377707e-01)));
  (*1122*) Do (AddA v_jac 182 (#2.0687665396724007e+00 * ($v_j_temp * #4.9928106040377707e-01)));
  (*1123*) Do (AddA v_jac 194 (#(-1.2124820344937721e+00) * ($v_j_temp * #4.9928106040377707e-01)));
  (*1124*) Do (AddA v_jac 195 (#1.2843397819044580e+00 * ($v_j_temp * #4.9928106040377707e-01)));
  (*1125*) Do (AddA v_jac 204 (#(-2.1406242870830865e+00) * ($v_j_temp * #4.9928106040377707e-01)));
  (*1126*) Do (AddA v_jac 203 (#2.0687665396724007e+00 * ($v_j_temp * #4.9928106040377707e-01)));
  (*1127*) Do (AddA v_jac 215 (#(-1.1311967818703517e+00) * ($v_j_temp * #4.6330052531852528e-01)));
  (*1128*) Do (AddA v_jac 216 (#1.1982371588086855e+00 * ($v_j_temp * #4.6330052531852528e-01)));
  (*1129*) Do (AddA v_jac 225 (#(-1.9971160279936839e+00) * ($v_j_temp * #4.6330052531852528e-01)));
  (*1130*) Do (AddA v_jac 224 (#1.9300756510553501e+00 * ($v_j_temp * #4.6330052531852528e-01)));
  (*1131*) Do (AddA v_jac 236 (#(-1.0601255644290632e+00) * ($v_j_temp * #4.2731999023327338e-01)));
  (*1132*) Do (AddA v_jac 237 (#1.1229539056870512e+00 * ($v_j_temp * #4.2731999023327338e-01)));
  (*1133*) Do (AddA v_jac 246 (#(-1.8716405406550991e+00) * ($v_j_temp * #4.2731999023327338e-01)));
  (*1134*) Do (AddA v_jac 245 (#1.8088121993971109e+00 * ($v_j_temp * #4.2731999023327338e-01)));
  (*1135*) Do (AddA v_jac 257 (#(-6.0717947619455637e-01) * ($v_j_temp * #1.0994706834011048e-04)));
  (*1136*) Do (AddA v_jac 258 (#6.4316396766915152e-01 * ($v_j_temp * #1.0994706834011048e-04)));
  (*1137*) Do (AddA v_jac 267 (#(-1.0719689829491903e+00) * ($v_j_temp * #1.0994706834011048e-04)));
  (*1138*) Do (AddA v_jac 266 (#1.0359844914745953e+00 * ($v_j_temp * #1.0994706834011048e-04)));
  (*1139*) Do (AddA v_jac 278 (#(-3.8644438284200339e-01) * ($v_j_temp * #(-5.7102223643760053e-01))));
  (*1140*) Do (AddA v_jac 279 (#4.0934700907525146e-01 * ($v_j_temp * #(-5.7102223643760053e-01))));
  (*1141*) Do (AddA v_jac 288 (#(-6.8226349585774082e-01) * ($v_j_temp * #(-5.7102223643760053e-01))));
  (*1142*) Do (AddA v_jac 287 (#6.5936086962449270e-01 * ($v_j_temp * #(-5.7102223643760053e-01))));
  (*1143*) Do (AddA v_jac 299 (#(-5.8608934901169396e-01) * ($v_j_temp * #(-3.5870588016911675e-02) - $v_kr * v_conc.[5])));
  (*1144*) Do (AddA v_jac 300 (#6.2082393410512116e-01 * ($v_j_temp * #(-3.5870588016911675e-02) - $v_kr * v_conc.[5])));
  (*1145*) Do (AddA v_jac 309 (#(-1.0347345850934271e+00) * ($v_j_temp * #(-3.5870588016911675e-02) - $v_kr * v_conc.[5])));
  (*1146*) Do (AddA v_jac 308 ($v_j_temp * #(-3.5870588016911675e-02) - $v_kr * v_conc.[5]));
  (*1147*) Do (AddA v_jac 320 (#(-5.6641515365872830e-01) * ($v_j_temp * #(-7.1851123102163683e-02) + $v_kf * v_conc.[4])));
  (*1148*) Do (AddA v_jac 321 (#5.9998374757046158e-01 * ($v_j_temp * #(-7.1851123102163683e-02) + $v_kf * v_conc.[4])));
  (*1149*) Do (AddA v_jac 330 ((- ($v_j_temp * #(-7.1851123102163683e-02) + $v_kf * v_conc.[4]))));
  (*1150*) Do (AddA v_jac 329 (#9.6643140608826661e-01 * ($v_j_temp * #(-7.1851123102163683e-02) + $v_kf * v_conc.[4])));
  (*1151*) Do (AddA v_jac 341 (#(-5.4801892878248593e-01) * ($v_j_temp * #(-1.0783165818741525e-01))));
  (*1152*) Do (AddA v_jac 342 (#5.8049727043244526e-01 * ($v_j_temp * #(-1.0783165818741525e-01))));
  (*1153*) Do (AddA v_jac 351 (#(-9.6752165835004078e-01) * ($v_j_temp * #(-1.0783165818741525e-01))));
  (*1154*) Do (AddA v_jac 350 (#9.3504331670008145e-01 * ($v_j_temp * #(-1.0783165818741525e-01))));
  (*1155*) Do (AddA v_jac 362 (#(-6.0624101724688606e-01) * ($v_j_temp * #(-1.4378791924458678e-03))));
  (*1156*) Do (AddA v_jac 363 (#6.4216989095222898e-01 * ($v_j_temp * #(-1.4378791924458678e-03))));
  (*1157*) Do (AddA v_jac 372 (#(-1.0703121435415432e+00) * ($v_j_temp * #(-1.4378791924458678e-03))));
  (*1158*) Do (AddA v_jac 371 (#1.0343832698362003e+00 * ($v_j_temp * #(-1.4378791924458678e-03))));
  (*1159*) Do (AddA v_jac 383 (#(-5.8521490484039129e-01) * ($v_j_temp * #(-3.7418414277697654e-02))));
  (*1160*) Do (AddA v_jac 384 (#6.1989766600026841e-01 * ($v_j_temp * #(-3.7418414277697654e-02))));
  (*1161*) Do (AddA v_jac 393 (#(-1.0331907631005757e+00) * ($v_j_temp * #(-3.7418414277697654e-02))));
  (*1162*) Do (AddA v_jac 392 (#9.9850800194069855e-01 * ($v_j_temp * #(-3.7418414277697654e-02))));
  (*1163*) Do (AddA v_jac 404 (#(-5.6559839093517583e-01) * ($v_j_temp * #(-7.3398949362949439e-02))));
  (*1164*) Do (AddA v_jac 405 (#5.9911857940434277e-01 * ($v_j_temp * #(-7.3398949362949439e-02))));
  (*1165*) Do (AddA v_jac 414 (#(-9.9855801399684196e-01) * ($v_j_temp * #(-7.3398949362949439e-02))));
  (*1166*) Do (AddA v_jac 413 (#9.6503782552767503e-01 * ($v_j_temp * #(-7.3398949362949439e-02))));
  (*1167*) Do (AddA v_jac 425 (#(-4.2573695804545908e-01) * ($v_j_temp * #(-4.2602775520927771e-01))));
  (*1168*) Do (AddA v_jac 426 (#4.5096825873635726e-01 * ($v_j_temp * #(-4.2602775520927771e-01))));
  (*1169*) Do (AddA v_jac 435 (#(-7.5163412436167021e-01) * ($v_j_temp * #(-4.2602775520927771e-01))));
  (*1170*) Do (AddA v_jac 434 (#7.2640282367077191e-01 * ($v_j_temp * #(-4.2602775520927771e-01))))]);
([
  (*1173*) Do (Asn v_j_temp 0 (#1.0 / $v_T * ((v_fwd_rates.[52] - v_rev_rates.[52]) * (#2.1200000000000001e+00 + #4.3780102142747148e+02 / $v_T) + v_fwd_rates.[52] * #(-1.0) - v_rev_rates.[52] * (#(-1.0) + (- $v_T) * (v_dBdT.[17] + v_dBdT.[5] - v_dBdT.[18] - v_dBdT.[4]))) * $v_rho_inv));
  (*1174*) Do (AddA v_jac 18 ($v_j_temp * #2.9061699999999998e+01));
  (*1175*) Do (AddA v_jac 19 ((- $v_j_temp) * #3.0069640000000000e+01));
  (*1176*) Do (AddA v_jac 5 ((- $v_j_temp) * #1.7007339999999999e+01));
  (*1177*) Do (AddA v_jac 6 ($v_j_temp * #1.8015280000000001e+01))],
[
  (*1180*) If ($v_T) (#1000.0)
    [Asn v_Kc 0 (#1.0736134400000008e+00 + #2.2166589000000014e-01 * $v_logT + $v_T * (#8.3991859999999960e-04 + $v_T * (#(-1.3878474000000007e-06) + $v_T * (#7.7726088416666741e-10 + #(-1.7049066149999997e-13) * $v_T))) - #(-9.5449752599999956e+03) / $v_T)]
    [Asn v_Kc 0 (#(-1.9869821400000007e+00) + #8.2387974000000019e-01 * $v_logT + $v_T * (#(-1.3297535879999995e-03) + $v_T * (#2.9216037899999999e-07 + $v_T * (#(-3.9253245950000001e-11) + #2.2720087799999998e-15 * $v_T))) - #(-9.5790408999999963e+03) / $v_T)];
  (*1186*) Do (Asn v_Kc 0 ((Exp $v_Kc)));
  (*1187*) Do (Asn v_j_temp 0 ((- $v_mw_avg) * $v_rho_inv * (#2.0 * v_fwd_rates.[52] - #2.0 * v_rev_rates.[52])));
  (*1188*) Do (Asn v_kf 0 ((Exp (#8.1718820061278201e+00 + #2.12 * $v_logT - #4.3780102142747148e+02 / $v_T))));
  (*1189*) Do (Asn v_kr 0 ($v_kf / $v_Kc));
  (*1190*) Do (AddA v_jac 39 (#1.4416383911740777e+01 * ($v_j_temp * #9.2803892982949643e-01)));
  (*1191*) Do (AddA v_jac 40 (#(-1.4916383911740777e+01) * ($v_j_temp * #9.2803892982949643e-01)));
  (*1192*) Do (AddA v_jac 26 (#(-8.4366827390519266e+00) * ($v_j_temp * #9.2803892982949643e-01)));
  (*1193*) Do (AddA v_jac 27 (#8.9366827390519283e+00 * ($v_j_temp * #9.2803892982949643e-01)));
  (*1194*) Do (AddA v_jac 60 (#2.8832767823481554e+01 * ($v_j_temp * #9.6401946491474821e-01)));
  (*1195*) Do (AddA v_jac 61 (#(-2.9832767823481554e+01) * ($v_j_temp * #9.6401946491474821e-01)));
  (*1196*) Do (AddA v_jac 47 (#(-1.6873365478103853e+01) * ($v_j_temp * #9.6401946491474821e-01)));
  (*1197*) Do (AddA v_jac 48 (#1.7873365478103857e+01 * ($v_j_temp * #9.6401946491474821e-01)));
  (*1198*) Do (AddA v_jac 81 (#1.8164243659137218e+00 * ($v_j_temp * #4.2886781649405936e-01)));
  (*1199*) Do (AddA v_jac 82 (#(-1.8794229783616885e+00) * ($v_j_temp * #4.2886781649405936e-01)));
  (*1200*) Do (AddA v_jac 68 (#(-1.0629986124479667e+00) * ($v_j_temp * #4.2886781649405936e-01)));
  (*1201*) Do (AddA v_jac 69 (#1.1259972248959336e+00 * ($v_j_temp * #4.2886781649405936e-01)));
  (*1202*) Do (AddA v_jac 102 (#9.0821218295686090e-01 * ($v_j_temp * #(-1.4226436701188128e-01))));
  (*1203*) Do (AddA v_jac 103 (#(-9.3971148918084424e-01) * ($v_j_temp * #(-1.4226436701188128e-01))));
  (*1204*) Do (AddA v_jac 89 (#(-5.3149930622398334e-01) * ($v_j_temp * #(-1.4226436701188128e-01))));
  (*1205*) Do (AddA v_jac 90 (#5.6299861244796678e-01 * ($v_j_temp * #(-1.4226436701188128e-01))));
  (*1206*) Do (AddA v_jac 123 (#1.7087739764125371e+00 * ($v_j_temp * #3.9288728140880758e-01 + $v_kf * v_conc.[18])));
  (*1207*) Do (AddA v_jac 124 (#(-1.7680389761126667e+00) * ($v_j_temp * #3.9288728140880758e-01 + $v_kf * v_conc.[18])));
  (*1208*) Do (AddA v_jac 110 ((- ($v_j_temp * #3.9288728140880758e-01 + $v_kf * v_conc.[18]))));
  (*1209*) Do (AddA v_jac 111 (#1.0592649997001296e+00 * ($v_j_temp * #3.9288728140880758e-01 + $v_kf * v_conc.[18])));
  (*1210*) Do (AddA v_jac 144 (#1.6131694872352802e+00 * ($v_j_temp * #3.5690674632355568e-01 - $v_kr * v_conc.[17])));
  (*1211*) Do (AddA v_jac 145 (#(-1.6691186592714629e+00) * ($v_j_temp * #3.5690674632355568e-01 - $v_kr * v_conc.[17])));
  (*1212*) Do (AddA v_jac 131 (#(-9.4405082796381734e-01) * ($v_j_temp * #3.5690674632355568e-01 - $v_kr * v_conc.[17])));
  (*1213*) Do (AddA v_jac 132 ($v_j_temp * #3.5690674632355568e-01 - $v_kr * v_conc.[17]));
  (*1214*) Do (AddA v_jac 165 (#8.8047774484847630e-01 * ($v_j_temp * #(-1.7824490209713328e-01))));
  (*1215*) Do (AddA v_jac 166 (#(-9.1101514417964324e-01) * ($v_j_temp * #(-1.7824490209713328e-01))));
  (*1216*) Do (AddA v_jac 152 (#(-5.1526869966558342e-01) * ($v_j_temp * #(-1.7824490209713328e-01))));
  (*1217*) Do (AddA v_jac 153 (#5.4580609899675037e-01 * ($v_j_temp * #(-1.7824490209713328e-01))));
  (*1218*) Do (AddA v_jac 186 (#2.0718577474106858e+00 * ($v_j_temp * #4.9928106040377707e-01)));
  (*1219*) Do (AddA v_jac 187 (#(-2.1437154948213717e+00) * ($v_j_temp * #4.9928106040377707e-01)));
  (*1220*) Do (AddA v_jac 173 (#(-1.2124820344937721e+00) * ($v_j_temp * #4.9928106040377707e-01)));
  (*1221*) Do (AddA v_jac 174 (#1.2843397819044580e+00 * ($v_j_temp * #4.9928106040377707e-01)));
  (*1222*) Do (AddA v_jac 207 (#2.0718577474106858e+00 * ($v_j_temp * #4.9928106040377707e-01)));
  (*1223*) Do (AddA v_jac 208 (#(-2.1437154948213717e+00) * ($v_j_temp * #4.9928106040377707e-01)));
  (*1224*) Do (AddA v_jac 194 (#(-1.2124820344937721e+00) * ($v_j_temp * #4.9928106040377707e-01)));
  (*1225*) Do (AddA v_jac 195 (#1.2843397819044580e+00 * ($v_j_temp * #4.9928106040377707e-01)));
  (*1226*) Do (AddA v_jac 228 (#1.9329596230616661e+00 * ($v_j_temp * #4.6330052531852528e-01)));
  (*1227*) Do (AddA v_jac 229 (#(-2.0000000000000000e+00) * ($v_j_temp * #4.6330052531852528e-01)));
  (*1228*) Do (AddA v_jac 215 (#(-1.1311967818703517e+00) * ($v_j_temp * #4.6330052531852528e-01)));
  (*1229*) Do (AddA v_jac 216 (#1.1982371588086855e+00 * ($v_j_temp * #4.6330052531852528e-01)));
  (*1230*) Do (AddA v_jac 249 (#1.8115149762260356e+00 * ($v_j_temp * #4.2731999023327338e-01)));
  (*1231*) Do (AddA v_jac 250 (#(-1.8743433174840238e+00) * ($v_j_temp * #4.2731999023327338e-01)));
  (*1232*) Do (AddA v_jac 236 (#(-1.0601255644290632e+00) * ($v_j_temp * #4.2731999023327338e-01)));
  (*1233*) Do (AddA v_jac 237 (#1.1229539056870512e+00 * ($v_j_temp * #4.2731999023327338e-01)));
  (*1234*) Do (AddA v_jac 270 (#1.0375324879330534e+00 * ($v_j_temp * #1.0994706834011048e-04)));
  (*1235*) Do (AddA v_jac 271 (#(-1.0735169794076487e+00) * ($v_j_temp * #1.0994706834011048e-04)));
  (*1236*) Do (AddA v_jac 257 (#(-6.0717947619455637e-01) * ($v_j_temp * #1.0994706834011048e-04)));
  (*1237*) Do (AddA v_jac 258 (#6.4316396766915152e-01 * ($v_j_temp * #1.0994706834011048e-04)));
  (*1238*) Do (AddA v_jac 291 (#6.6034610473121891e-01 * ($v_j_temp * #(-5.7102223643760053e-01))));
  (*1239*) Do (AddA v_jac 292 (#(-6.8324873096446703e-01) * ($v_j_temp * #(-5.7102223643760053e-01))));
  (*1240*) Do (AddA v_jac 278 (#(-3.8644438284200339e-01) * ($v_j_temp * #(-5.7102223643760053e-01))));
  (*1241*) Do (AddA v_jac 279 (#4.0934700907525146e-01 * ($v_j_temp * #(-5.7102223643760053e-01))));
  (*1242*) Do (AddA v_jac 312 (#1.0014942274437477e+00 * ($v_j_temp * #(-3.5870588016911675e-02))));
  (*1243*) Do (AddA v_jac 313 (#(-1.0362288125371748e+00) * ($v_j_temp * #(-3.5870588016911675e-02))));
  (*1244*) Do (AddA v_jac 299 (#(-5.8608934901169396e-01) * ($v_j_temp * #(-3.5870588016911675e-02))));
  (*1245*) Do (AddA v_jac 300 (#6.2082393410512116e-01 * ($v_j_temp * #(-3.5870588016911675e-02))));
  (*1246*) Do (AddA v_jac 333 (#9.6787547441774335e-01 * ($v_j_temp * #(-7.1851123102163683e-02))));
  (*1247*) Do (AddA v_jac 334 (#(-1.0014440683294767e+00) * ($v_j_temp * #(-7.1851123102163683e-02))));
  (*1248*) Do (AddA v_jac 320 (#(-5.6641515365872830e-01) * ($v_j_temp * #(-7.1851123102163683e-02))));
  (*1249*) Do (AddA v_jac 321 (#5.9998374757046158e-01 * ($v_j_temp * #(-7.1851123102163683e-02))));
  (*1250*) Do (AddA v_jac 354 (#9.3644048408498748e-01 * ($v_j_temp * #(-1.0783165818741525e-01))));
  (*1251*) Do (AddA v_jac 355 (#(-9.6891882573494681e-01) * ($v_j_temp * #(-1.0783165818741525e-01))));
  (*1252*) Do (AddA v_jac 341 (#(-5.4801892878248593e-01) * ($v_j_temp * #(-1.0783165818741525e-01))));
  (*1253*) Do (AddA v_jac 342 (#5.8049727043244526e-01 * ($v_j_temp * #(-1.0783165818741525e-01))));
  (*1254*) Do (AddA v_jac 375 (#1.0359288737053429e+00 * ($v_j_temp * #(-1.4378791924458678e-03))));
  (*1255*) Do (AddA v_jac 376 (#(-1.0718577474106858e+00) * ($v_j_temp * #(-1.4378791924458678e-03))));
  (*1256*) Do (AddA v_jac 362 (#(-6.0624101724688606e-01) * ($v_j_temp * #(-1.4378791924458678e-03))));
  (*1257*) Do (AddA v_jac 363 (#6.4216989095222898e-01 * ($v_j_temp * #(-1.4378791924458678e-03))));
  (*1258*) Do (AddA v_jac 396 ($v_j_temp * #(-3.7418414277697654e-02) - $v_kr * v_conc.[5]));
  (*1259*) Do (AddA v_jac 397 (#(-1.0346827611598772e+00) * ($v_j_temp * #(-3.7418414277697654e-02) - $v_kr * v_conc.[5])));
  (*1260*) Do (AddA v_jac 383 (#(-5.8521490484039129e-01) * ($v_j_temp * #(-3.7418414277697654e-02) - $v_kr * v_conc.[5])));
  (*1261*) Do (AddA v_jac 384 (#6.1989766600026841e-01 * ($v_j_temp * #(-3.7418414277697654e-02) - $v_kr * v_conc.[5])));
  (*1262*) Do (AddA v_jac 417 (#9.6647981153083307e-01 * ($v_j_temp * #(-7.3398949362949439e-02) + $v_kf * v_conc.[4])));
  (*1263*) Do (AddA v_jac 418 ((- ($v_j_temp * #(-7.3398949362949439e-02) + $v_kf * v_conc.[4]))));
  (*1264*) Do (AddA v_jac 404 (#(-5.6559839093517583e-01) * ($v_j_temp * #(-7.3398949362949439e-02) + $v_kf * v_conc.[4])));
  (*1265*) Do (AddA v_jac 405 (#5.9911857940434277e-01 * ($v_j_temp * #(-7.3398949362949439e-02) + $v_kf * v_conc.[4])));
  (*1266*) Do (AddA v_jac 438 (#7.2748823470511659e-01 * ($v_j_temp * #(-4.2602775520927771e-01))));
  (*1267*) Do (AddA v_jac 439 (#(-7.5271953539601477e-01) * ($v_j_temp * #(-4.2602775520927771e-01))));
  (*1268*) Do (AddA v_jac 425 (#(-4.2573695804545908e-01) * ($v_j_temp * #(-4.2602775520927771e-01))));
  (*1269*) Do (AddA v_jac 426 (#4.5096825873635726e-01 * ($v_j_temp * #(-4.2602775520927771e-01))))]);
([
  (*1272*) Do (Asn v_j_temp 0 (#1.0 / $v_T * (v_fwd_rates.[53] * #(-1.0) - v_rev_rates.[53] * (#(-1.0) + (- $v_T) * (v_dBdT.[14] + v_dBdT.[4] - v_dBdT.[7] - v_dBdT.[6]))) * $v_rho_inv));
  (*1273*) Do (AddA v_jac 5 ($v_j_temp * #1.7007339999999999e+01));
  (*1274*) Do (AddA v_jac 15 ($v_j_temp * #3.0026280000000000e+01));
  (*1275*) Do (AddA v_jac 7 ((- $v_j_temp) * #3.3006740000000001e+01));
  (*1276*) Do (AddA v_jac 8 ((- $v_j_temp) * #1.4026879999999998e+01))],
[
  (*1279*) If ($v_T) (#1000.0)
    [Asn v_Kc 0 (#(-5.5015687579999994e+00) + #7.2126190000000046e-01 * $v_logT + $v_T * (#(-4.2647014214999999e-03) + $v_T * (#2.9977919500000001e-06 + $v_T * (#(-1.1401965416666663e-09) + #1.7808557349999997e-13 * $v_T))) - #(-5.6992724279999995e+04) / $v_T)]
    [Asn v_Kc 0 (#1.0214457990000001e+01 + #(-2.0377342800000000e+00) * $v_logT + $v_T * (#1.9261087430000000e-03 + $v_T * (#(-3.7557979699999993e-07) + $v_T * (#4.5336670450000004e-11 + #(-2.3540358100000006e-15) * $v_T))) - #(-5.6512636012999996e+04) / $v_T)];
  (*1285*) Do (Asn v_Kc 0 ((Exp $v_Kc)));
  (*1286*) Do (Asn v_j_temp 0 ((- $v_mw_avg) * $v_rho_inv * (#2.0 * v_fwd_rates.[53] - #2.0 * v_rev_rates.[53])));
  (*1287*) Do (Asn v_kf 0 (#20000000000.0));
  (*1288*) Do (Asn v_kr 0 ($v_kf / $v_Kc));
  (*1289*) Do (AddA v_jac 26 (#8.4366827390519266e+00 * ($v_j_temp * #9.2803892982949643e-01)));
  (*1290*) Do (AddA v_jac 36 (#1.4894874694922317e+01 * ($v_j_temp * #9.2803892982949643e-01)));
  (*1291*) Do (AddA v_jac 28 (#(-1.6373365478103853e+01) * ($v_j_temp * #9.2803892982949643e-01)));
  (*1292*) Do (AddA v_jac 29 (#(-6.9581919558703875e+00) * ($v_j_temp * #9.2803892982949643e-01)));
  (*1293*) Do (AddA v_jac 47 (#1.6873365478103853e+01 * ($v_j_temp * #9.6401946491474821e-01)));
  (*1294*) Do (AddA v_jac 57 (#2.9789749389844633e+01 * ($v_j_temp * #9.6401946491474821e-01)));
  (*1295*) Do (AddA v_jac 49 (#(-3.2746730956207706e+01) * ($v_j_temp * #9.6401946491474821e-01)));
  (*1296*) Do (AddA v_jac 50 (#(-1.3916383911740775e+01) * ($v_j_temp * #9.6401946491474821e-01)));
  (*1297*) Do (AddA v_jac 68 (#1.0629986124479667e+00 * ($v_j_temp * #4.2886781649405936e-01)));
  (*1298*) Do (AddA v_jac 78 (#1.8767128767328776e+00 * ($v_j_temp * #4.2886781649405936e-01)));
  (*1299*) Do (AddA v_jac 70 (#(-2.0629986124479669e+00) * ($v_j_temp * #4.2886781649405936e-01)));
  (*1300*) Do (AddA v_jac 71 (#(-8.7671287673287746e-01) * ($v_j_temp * #4.2886781649405936e-01)));
  (*1301*) Do (AddA v_jac 89 (#5.3149930622398334e-01 * ($v_j_temp * #(-1.4226436701188128e-01))));
  (*1302*) Do (AddA v_jac 99 (#9.3835643836643878e-01 * ($v_j_temp * #(-1.4226436701188128e-01))));
  (*1303*) Do (AddA v_jac 91 (#(-1.0314993062239834e+00) * ($v_j_temp * #(-1.4226436701188128e-01))));
  (*1304*) Do (AddA v_jac 92 (#(-4.3835643836643873e-01) * ($v_j_temp * #(-1.4226436701188128e-01))));
  (*1305*) Do (AddA v_jac 110 ($v_j_temp * #3.9288728140880758e-01 - $v_kr * v_conc.[14]));
  (*1306*) Do (AddA v_jac 120 (#1.7654894886560744e+00 * ($v_j_temp * #3.9288728140880758e-01 - $v_kr * v_conc.[14])));
  (*1307*) Do (AddA v_jac 112 (#(-1.9407350002998707e+00) * ($v_j_temp * #3.9288728140880758e-01 - $v_kr * v_conc.[14])));
  (*1308*) Do (AddA v_jac 113 (#(-8.2475448835620380e-01) * ($v_j_temp * #3.9288728140880758e-01 - $v_kr * v_conc.[14])));
  (*1309*) Do (AddA v_jac 131 (#9.4405082796381734e-01 * ($v_j_temp * #3.5690674632355568e-01)));
  (*1310*) Do (AddA v_jac 141 (#1.6667118135271835e+00 * ($v_j_temp * #3.5690674632355568e-01)));
  (*1311*) Do (AddA v_jac 133 (#(-1.8321524838914520e+00) * ($v_j_temp * #3.5690674632355568e-01)));
  (*1312*) Do (AddA v_jac 134 (#(-7.7861015759954877e-01) * ($v_j_temp * #3.5690674632355568e-01)));
  (*1313*) Do (AddA v_jac 152 (#5.1526869966558342e-01 * ($v_j_temp * #(-1.7824490209713328e-01) + $v_kf * v_conc.[7])));
  (*1314*) Do (AddA v_jac 162 (#9.0970147309307126e-01 * ($v_j_temp * #(-1.7824490209713328e-01) + $v_kf * v_conc.[7])));
  (*1315*) Do (AddA v_jac 154 ((- ($v_j_temp * #(-1.7824490209713328e-01) + $v_kf * v_conc.[7]))));
  (*1316*) Do (AddA v_jac 155 (#(-4.2497017275865467e-01) * ($v_j_temp * #(-1.7824490209713328e-01) + $v_kf * v_conc.[7])));
  (*1317*) Do (AddA v_jac 173 (#1.2124820344937721e+00 * ($v_j_temp * #4.9928106040377707e-01 + $v_kf * v_conc.[6])));
  (*1318*) Do (AddA v_jac 183 (#2.1406242870830865e+00 * ($v_j_temp * #4.9928106040377707e-01 + $v_kf * v_conc.[6])));
  (*1319*) Do (AddA v_jac 175 (#(-2.3531063215768584e+00) * ($v_j_temp * #4.9928106040377707e-01 + $v_kf * v_conc.[6])));
  (*1320*) Do (AddA v_jac 176 ((- ($v_j_temp * #4.9928106040377707e-01 + $v_kf * v_conc.[6]))));
  (*1321*) Do (AddA v_jac 194 (#1.2124820344937721e+00 * ($v_j_temp * #4.9928106040377707e-01)));
  (*1322*) Do (AddA v_jac 204 (#2.1406242870830865e+00 * ($v_j_temp * #4.9928106040377707e-01)));
  (*1323*) Do (AddA v_jac 196 (#(-2.3531063215768584e+00) * ($v_j_temp * #4.9928106040377707e-01)));
  (*1324*) Do (AddA v_jac 197 ((- ($v_j_temp * #4.9928106040377707e-01))));
  (*1325*) Do (AddA v_jac 215 (#1.1311967818703517e+00 * ($v_j_temp * #4.6330052531852528e-01)));
  (*1326*) Do (AddA v_jac 225 (#1.9971160279936839e+00 * ($v_j_temp * #4.6330052531852528e-01)));
  (*1327*) Do (AddA v_jac 217 (#(-2.1953531868023695e+00) * ($v_j_temp * #4.6330052531852528e-01)));
  (*1328*) Do (AddA v_jac 218 (#(-9.3295962306166613e-01) * ($v_j_temp * #4.6330052531852528e-01)));
  (*1329*) Do (AddA v_jac 236 (#1.0601255644290632e+00 * ($v_j_temp * #4.2731999023327338e-01)));
  (*1330*) Do (AddA v_jac 246 (#1.8716405406550991e+00 * ($v_j_temp * #4.2731999023327338e-01)));
  (*1331*) Do (AddA v_jac 238 (#(-2.0574227876001383e+00) * ($v_j_temp * #4.2731999023327338e-01)));
  (*1332*) Do (AddA v_jac 239 (#(-8.7434331748402383e-01) * ($v_j_temp * #4.2731999023327338e-01)));
  (*1333*) Do (AddA v_jac 257 (#6.0717947619455637e-01 * ($v_j_temp * #1.0994706834011048e-04)));
  (*1334*) Do (AddA v_jac 267 (#1.0719689829491903e+00 * ($v_j_temp * #1.0994706834011048e-04)));
  (*1335*) Do (AddA v_jac 259 (#(-1.1783744609145177e+00) * ($v_j_temp * #1.0994706834011048e-04)));
  (*1336*) Do (AddA v_jac 260 (#(-5.0077399822922919e-01) * ($v_j_temp * #1.0994706834011048e-04)));
  (*1337*) Do (AddA v_jac 278 (#3.8644438284200339e-01 * ($v_j_temp * #(-5.7102223643760053e-01))));
  (*1338*) Do (AddA v_jac 288 (#6.8226349585774082e-01 * ($v_j_temp * #(-5.7102223643760053e-01))));
  (*1339*) Do (AddA v_jac 280 (#(-7.4998613945075876e-01) * ($v_j_temp * #(-5.7102223643760053e-01))));
  (*1340*) Do (AddA v_jac 281 (#(-3.1872173924898545e-01) * ($v_j_temp * #(-5.7102223643760053e-01))));
  (*1341*) Do (AddA v_jac 299 (#5.8608934901169396e-01 * ($v_j_temp * #(-3.5870588016911675e-02))));
  (*1342*) Do (AddA v_jac 309 (#1.0347345850934271e+00 * ($v_j_temp * #(-3.5870588016911675e-02))));
  (*1343*) Do (AddA v_jac 301 (#(-1.1374441129299608e+00) * ($v_j_temp * #(-3.5870588016911675e-02))));
  (*1344*) Do (AddA v_jac 302 (#(-4.8337982117516021e-01) * ($v_j_temp * #(-3.5870588016911675e-02))));
  (*1345*) Do (AddA v_jac 320 (#5.6641515365872830e-01 * ($v_j_temp * #(-7.1851123102163683e-02) - $v_kr * v_conc.[4])));
  (*1346*) Do (AddA v_jac 330 ($v_j_temp * #(-7.1851123102163683e-02) - $v_kr * v_conc.[4]));
  (*1347*) Do (AddA v_jac 322 (#(-1.0992617134057232e+00) * ($v_j_temp * #(-7.1851123102163683e-02) - $v_kr * v_conc.[4])));
  (*1348*) Do (AddA v_jac 323 (#(-4.6715344025300498e-01) * ($v_j_temp * #(-7.1851123102163683e-02) - $v_kr * v_conc.[4])));
  (*1349*) Do (AddA v_jac 341 (#5.4801892878248593e-01 * ($v_j_temp * #(-1.0783165818741525e-01))));
  (*1350*) Do (AddA v_jac 351 (#9.6752165835004078e-01 * ($v_j_temp * #(-1.0783165818741525e-01))));
  (*1351*) Do (AddA v_jac 343 (#(-1.0635595159150126e+00) * ($v_j_temp * #(-1.0783165818741525e-01))));
  (*1352*) Do (AddA v_jac 344 (#(-4.5198107121751407e-01) * ($v_j_temp * #(-1.0783165818741525e-01))));
  (*1353*) Do (AddA v_jac 362 (#6.0624101724688606e-01 * ($v_j_temp * #(-1.4378791924458678e-03))));
  (*1354*) Do (AddA v_jac 372 (#1.0703121435415432e+00 * ($v_j_temp * #(-1.4378791924458678e-03))));
  (*1355*) Do (AddA v_jac 364 (#(-1.1765531607884292e+00) * ($v_j_temp * #(-1.4378791924458678e-03))));
  (*1356*) Do (AddA v_jac 365 (#(-5.0000000000000000e-01) * ($v_j_temp * #(-1.4378791924458678e-03))));
  (*1357*) Do (AddA v_jac 383 (#5.8521490484039129e-01 * ($v_j_temp * #(-3.7418414277697654e-02))));
  (*1358*) Do (AddA v_jac 393 (#1.0331907631005757e+00 * ($v_j_temp * #(-3.7418414277697654e-02))));
  (*1359*) Do (AddA v_jac 385 (#(-1.1357470485209056e+00) * ($v_j_temp * #(-3.7418414277697654e-02))));
  (*1360*) Do (AddA v_jac 386 (#(-4.8265861942006144e-01) * ($v_j_temp * #(-3.7418414277697654e-02))));
  (*1361*) Do (AddA v_jac 404 (#5.6559839093517583e-01 * ($v_j_temp * #(-7.3398949362949439e-02))));
  (*1362*) Do (AddA v_jac 414 (#9.9855801399684196e-01 * ($v_j_temp * #(-7.3398949362949439e-02))));
  (*1363*) Do (AddA v_jac 406 (#(-1.0976765934011847e+00) * ($v_j_temp * #(-7.3398949362949439e-02))));
  (*1364*) Do (AddA v_jac 407 (#(-4.6647981153083307e-01) * ($v_j_temp * #(-7.3398949362949439e-02))));
  (*1365*) Do (AddA v_jac 425 (#4.2573695804545908e-01 * ($v_j_temp * #(-4.2602775520927771e-01))));
  (*1366*) Do (AddA v_jac 435 (#7.5163412436167021e-01 * ($v_j_temp * #(-4.2602775520927771e-01))));
  (*1367*) Do (AddA v_jac 427 (#(-8.2624261540002009e-01) * ($v_j_temp * #(-4.2602775520927771e-01))));
  (*1368*) Do (AddA v_jac 428 (#(-3.5112846700710920e-01) * ($v_j_temp * #(-4.2602775520927771e-01))))]);
([
  (*1371*) Do (Asn v_j_temp 0 (#1.0 / $v_T * (v_fwd_rates.[54] * #(-1.0) - v_rev_rates.[54] * (#(-1.0) + (- $v_T) * (v_dBdT.[10] + v_dBdT.[3] - v_dBdT.[9] - v_dBdT.[6]))) * $v_rho_inv));
  (*1372*) Do (AddA v_jac 10 ((- $v_j_temp) * #1.5034820000000000e+01));
  (*1373*) Do (AddA v_jac 11 ($v_j_temp * #1.6042760000000001e+01));
  (*1374*) Do (AddA v_jac 4 ($v_j_temp * #3.1998799999999999e+01));
  (*1375*) Do (AddA v_jac 7 ((- $v_j_temp) * #3.3006740000000001e+01))],
[
  (*1378*) If ($v_T) (#1000.0)
    [Asn v_Kc 0 (#(-7.2617988899999997e+00) + #9.5694408000000042e-01 * $v_logT + $v_T * (#(-6.9647721000000006e-03) + $v_T * (#5.3564757083333353e-06 + $v_T * (#(-2.2506695033333334e-09) + #4.0385076949999996e-13 * $v_T))) - #(-2.8050398000000001e+04) / $v_T)]
    [Asn v_Kc 0 (#1.4570914635000001e+01 + #(-2.9455392850000006e+00) * $v_logT + $v_T * (#2.6971568700000000e-03 + $v_T * (#(-4.7833718816666659e-07) + $v_T * (#6.0205407583333335e-11 + #(-3.2990358250000004e-15) * $v_T))) - #(-2.7444243322999999e+04) / $v_T)];
  (*1384*) Do (Asn v_Kc 0 ((Exp $v_Kc)));
  (*1385*) Do (Asn v_j_temp 0 ((- $v_mw_avg) * $v_rho_inv * (#2.0 * v_fwd_rates.[54] - #2.0 * v_rev_rates.[54])));
  (*1386*) Do (Asn v_kf 0 (#1000000000.0));
  (*1387*) Do (Asn v_kr 0 ($v_kf / $v_Kc));
  (*1388*) Do (AddA v_jac 31 (#(-7.4581919558703884e+00) * ($v_j_temp * #9.2803892982949643e-01)));
  (*1389*) Do (AddA v_jac 32 (#7.9581919558703893e+00 * ($v_j_temp * #9.2803892982949643e-01)));
  (*1390*) Do (AddA v_jac 25 (#1.5873365478103855e+01 * ($v_j_temp * #9.2803892982949643e-01)));
  (*1391*) Do (AddA v_jac 28 (#(-1.6373365478103853e+01) * ($v_j_temp * #9.2803892982949643e-01)));
  (*1392*) Do (AddA v_jac 52 (#(-1.4916383911740777e+01) * ($v_j_temp * #9.6401946491474821e-01)));
  (*1393*) Do (AddA v_jac 53 (#1.5916383911740779e+01 * ($v_j_temp * #9.6401946491474821e-01)));
  (*1394*) Do (AddA v_jac 46 (#3.1746730956207710e+01 * ($v_j_temp * #9.6401946491474821e-01)));
  (*1395*) Do (AddA v_jac 49 (#(-3.2746730956207706e+01) * ($v_j_temp * #9.6401946491474821e-01)));
  (*1396*) Do (AddA v_jac 73 (#(-9.3971148918084424e-01) * ($v_j_temp * #4.2886781649405936e-01)));
  (*1397*) Do (AddA v_jac 74 (#1.0027101016288111e+00 * ($v_j_temp * #4.2886781649405936e-01)));
  (*1398*) Do (AddA v_jac 67 (#2.0000000000000000e+00 * ($v_j_temp * #4.2886781649405936e-01)));
  (*1399*) Do (AddA v_jac 70 (#(-2.0629986124479669e+00) * ($v_j_temp * #4.2886781649405936e-01)));
  (*1400*) Do (AddA v_jac 94 (#(-4.6985574459042212e-01) * ($v_j_temp * #(-1.4226436701188128e-01) - $v_kr * v_conc.[10])));
  (*1401*) Do (AddA v_jac 95 (#5.0135505081440557e-01 * ($v_j_temp * #(-1.4226436701188128e-01) - $v_kr * v_conc.[10])));
  (*1402*) Do (AddA v_jac 88 ($v_j_temp * #(-1.4226436701188128e-01) - $v_kr * v_conc.[10]));
  (*1403*) Do (AddA v_jac 91 (#(-1.0314993062239834e+00) * ($v_j_temp * #(-1.4226436701188128e-01) - $v_kr * v_conc.[10])));
  (*1404*) Do (AddA v_jac 115 (#(-8.8401948805633335e-01) * ($v_j_temp * #3.9288728140880758e-01)));
  (*1405*) Do (AddA v_jac 116 (#9.4328448775646290e-01 * ($v_j_temp * #3.9288728140880758e-01)));
  (*1406*) Do (AddA v_jac 109 (#1.8814700005997411e+00 * ($v_j_temp * #3.9288728140880758e-01)));
  (*1407*) Do (AddA v_jac 112 (#(-1.9407350002998707e+00) * ($v_j_temp * #3.9288728140880758e-01)));
  (*1408*) Do (AddA v_jac 136 (#(-8.3455932963573143e-01) * ($v_j_temp * #3.5690674632355568e-01)));
  (*1409*) Do (AddA v_jac 137 (#8.9050850167191409e-01 * ($v_j_temp * #3.5690674632355568e-01)));
  (*1410*) Do (AddA v_jac 130 (#1.7762033118552694e+00 * ($v_j_temp * #3.5690674632355568e-01)));
  (*1411*) Do (AddA v_jac 133 (#(-1.8321524838914520e+00) * ($v_j_temp * #3.5690674632355568e-01)));
  (*1412*) Do (AddA v_jac 157 (#(-4.5550757208982162e-01) * ($v_j_temp * #(-1.7824490209713328e-01) + $v_kf * v_conc.[9])));
  (*1413*) Do (AddA v_jac 158 (#4.8604497142098857e-01 * ($v_j_temp * #(-1.7824490209713328e-01) + $v_kf * v_conc.[9])));
  (*1414*) Do (AddA v_jac 151 (#9.6946260066883305e-01 * ($v_j_temp * #(-1.7824490209713328e-01) + $v_kf * v_conc.[9])));
  (*1415*) Do (AddA v_jac 154 ((- ($v_j_temp * #(-1.7824490209713328e-01) + $v_kf * v_conc.[9]))));
  (*1416*) Do (AddA v_jac 178 (#(-1.0718577474106858e+00) * ($v_j_temp * #4.9928106040377707e-01)));
  (*1417*) Do (AddA v_jac 179 (#1.1437154948213717e+00 * ($v_j_temp * #4.9928106040377707e-01)));
  (*1418*) Do (AddA v_jac 172 (#2.2812485741661725e+00 * ($v_j_temp * #4.9928106040377707e-01)));
  (*1419*) Do (AddA v_jac 175 (#(-2.3531063215768584e+00) * ($v_j_temp * #4.9928106040377707e-01)));
  (*1420*) Do (AddA v_jac 199 (#(-1.0718577474106858e+00) * ($v_j_temp * #4.9928106040377707e-01)));
  (*1421*) Do (AddA v_jac 200 (#1.1437154948213717e+00 * ($v_j_temp * #4.9928106040377707e-01)));
  (*1422*) Do (AddA v_jac 193 (#2.2812485741661725e+00 * ($v_j_temp * #4.9928106040377707e-01)));
  (*1423*) Do (AddA v_jac 196 (#(-2.3531063215768584e+00) * ($v_j_temp * #4.9928106040377707e-01)));
  (*1424*) Do (AddA v_jac 220 ((- ($v_j_temp * #4.6330052531852528e-01 + $v_kf * v_conc.[6]))));
  (*1425*) Do (AddA v_jac 221 (#1.0670403769383339e+00 * ($v_j_temp * #4.6330052531852528e-01 + $v_kf * v_conc.[6])));
  (*1426*) Do (AddA v_jac 214 (#2.1283128098640356e+00 * ($v_j_temp * #4.6330052531852528e-01 + $v_kf * v_conc.[6])));
  (*1427*) Do (AddA v_jac 217 (#(-2.1953531868023695e+00) * ($v_j_temp * #4.6330052531852528e-01 + $v_kf * v_conc.[6])));
  (*1428*) Do (AddA v_jac 241 (#(-9.3717165874201191e-01) * ($v_j_temp * #4.2731999023327338e-01 - $v_kr * v_conc.[3])));
  (*1429*) Do (AddA v_jac 242 ($v_j_temp * #4.2731999023327338e-01 - $v_kr * v_conc.[3]));
  (*1430*) Do (AddA v_jac 235 (#1.9945944463421503e+00 * ($v_j_temp * #4.2731999023327338e-01 - $v_kr * v_conc.[3])));
  (*1431*) Do (AddA v_jac 238 (#(-2.0574227876001383e+00) * ($v_j_temp * #4.2731999023327338e-01 - $v_kr * v_conc.[3])));
  (*1432*) Do (AddA v_jac 262 (#(-5.3675848970382434e-01) * ($v_j_temp * #1.0994706834011048e-04)));
  (*1433*) Do (AddA v_jac 263 (#5.7274298117841960e-01 * ($v_j_temp * #1.0994706834011048e-04)));
  (*1434*) Do (AddA v_jac 256 (#1.1423899694399224e+00 * ($v_j_temp * #1.0994706834011048e-04)));
  (*1435*) Do (AddA v_jac 259 (#(-1.1783744609145177e+00) * ($v_j_temp * #1.0994706834011048e-04)));
  (*1436*) Do (AddA v_jac 283 (#(-3.4162436548223352e-01) * ($v_j_temp * #(-5.7102223643760053e-01))));
  (*1437*) Do (AddA v_jac 284 (#3.6452699171548159e-01 * ($v_j_temp * #(-5.7102223643760053e-01))));
  (*1438*) Do (AddA v_jac 277 (#7.2708351321751064e-01 * ($v_j_temp * #(-5.7102223643760053e-01))));
  (*1439*) Do (AddA v_jac 280 (#(-7.4998613945075876e-01) * ($v_j_temp * #(-5.7102223643760053e-01))));
  (*1440*) Do (AddA v_jac 304 (#(-5.1811440626858740e-01) * ($v_j_temp * #(-3.5870588016911675e-02))));
  (*1441*) Do (AddA v_jac 305 (#5.5284899136201460e-01 * ($v_j_temp * #(-3.5870588016911675e-02))));
  (*1442*) Do (AddA v_jac 298 (#1.1027095278365338e+00 * ($v_j_temp * #(-3.5870588016911675e-02))));
  (*1443*) Do (AddA v_jac 301 (#(-1.1374441129299608e+00) * ($v_j_temp * #(-3.5870588016911675e-02))));
  (*1444*) Do (AddA v_jac 325 (#(-5.0072203416473837e-01) * ($v_j_temp * #(-7.1851123102163683e-02))));
  (*1445*) Do (AddA v_jac 326 (#5.3429062807647176e-01 * ($v_j_temp * #(-7.1851123102163683e-02))));
  (*1446*) Do (AddA v_jac 319 (#1.0656931194939898e+00 * ($v_j_temp * #(-7.1851123102163683e-02))));
  (*1447*) Do (AddA v_jac 322 (#(-1.0992617134057232e+00) * ($v_j_temp * #(-7.1851123102163683e-02))));
  (*1448*) Do (AddA v_jac 346 (#(-4.8445941286747340e-01) * ($v_j_temp * #(-1.0783165818741525e-01))));
  (*1449*) Do (AddA v_jac 347 (#5.1693775451743273e-01 * ($v_j_temp * #(-1.0783165818741525e-01))));
  (*1450*) Do (AddA v_jac 340 (#1.0310811742650532e+00 * ($v_j_temp * #(-1.0783165818741525e-01))));
  (*1451*) Do (AddA v_jac 343 (#(-1.0635595159150126e+00) * ($v_j_temp * #(-1.0783165818741525e-01))));
  (*1452*) Do (AddA v_jac 367 (#(-5.3592887370534292e-01) * ($v_j_temp * #(-1.4378791924458678e-03))));
  (*1453*) Do (AddA v_jac 368 (#5.7185774741068585e-01 * ($v_j_temp * #(-1.4378791924458678e-03))));
  (*1454*) Do (AddA v_jac 361 (#1.1406242870830863e+00 * ($v_j_temp * #(-1.4378791924458678e-03))));
  (*1455*) Do (AddA v_jac 364 (#(-1.1765531607884292e+00) * ($v_j_temp * #(-1.4378791924458678e-03))));
  (*1456*) Do (AddA v_jac 388 (#(-5.1734138057993861e-01) * ($v_j_temp * #(-3.7418414277697654e-02))));
  (*1457*) Do (AddA v_jac 389 (#5.5202414173981573e-01 * ($v_j_temp * #(-3.7418414277697654e-02))));
  (*1458*) Do (AddA v_jac 382 (#1.1010642873610286e+00 * ($v_j_temp * #(-3.7418414277697654e-02))));
  (*1459*) Do (AddA v_jac 385 (#(-1.1357470485209056e+00) * ($v_j_temp * #(-3.7418414277697654e-02))));
  (*1460*) Do (AddA v_jac 409 (#(-5.0000000000000000e-01) * ($v_j_temp * #(-7.3398949362949439e-02))));
  (*1461*) Do (AddA v_jac 410 (#5.3352018846916693e-01 * ($v_j_temp * #(-7.3398949362949439e-02))));
  (*1462*) Do (AddA v_jac 403 (#1.0641564049320178e+00 * ($v_j_temp * #(-7.3398949362949439e-02))));
  (*1463*) Do (AddA v_jac 406 (#(-1.0976765934011847e+00) * ($v_j_temp * #(-7.3398949362949439e-02))));
  (*1464*) Do (AddA v_jac 430 (#(-3.7635976769800739e-01) * ($v_j_temp * #(-4.2602775520927771e-01))));
  (*1465*) Do (AddA v_jac 431 (#4.0159106838890563e-01 * ($v_j_temp * #(-4.2602775520927771e-01))));
  (*1466*) Do (AddA v_jac 424 (#8.0101131470912179e-01 * ($v_j_temp * #(-4.2602775520927771e-01))));
  (*1467*) Do (AddA v_jac 427 (#(-8.2624261540002009e-01) * ($v_j_temp * #(-4.2602775520927771e-01))))]);
([
  (*1470*) Do (Asn v_j_temp 0 (#1.0 / $v_T * (v_fwd_rates.[55] * #(-1.0) - v_rev_rates.[55] * (#(-1.0) + (- $v_T) * (v_dBdT.[15] + v_dBdT.[4] - v_dBdT.[9] - v_dBdT.[6]))) * $v_rho_inv));
  (*1471*) Do (AddA v_jac 10 ((- $v_j_temp) * #1.5034820000000000e+01));
  (*1472*) Do (AddA v_jac 5 ($v_j_temp * #1.7007339999999999e+01));
  (*1473*) Do (AddA v_jac 7 ((- $v_j_temp) * #3.3006740000000001e+01));
  (*1474*) Do (AddA v_jac 16 ($v_j_temp * #3.1034219999999998e+01))],
[
  (*1477*) If ($v_T) (#1000.0)
    [Asn v_Kc 0 (#9.6041937419999996e+00 + #(-1.8771689800000000e+00) * $v_logT + $v_T * (#3.7767231200000000e-03 + $v_T * (#(-2.8220162083333331e-06) + $v_T * (#1.6573995266666667e-09 + #(-4.1981919400000005e-13) * $v_T))) - #(-1.2146125180000001e+04) / $v_T)]
    [Asn v_Kc 0 (#(-5.4196608900000012e+00) + #5.6075804999999956e-01 * $v_logT + $v_T * (#(-5.2989689200000009e-04) + $v_T * (#1.8182047633333335e-07 + $v_T * (#(-3.3619505800000002e-11) + #2.4060685250000003e-15 * $v_T))) - #(-1.2900951492999999e+04) / $v_T)];
  (*1483*) Do (Asn v_Kc 0 ((Exp $v_Kc)));
  (*1484*) Do (Asn v_j_temp 0 ((- $v_mw_avg) * $v_rho_inv * (#2.0 * v_fwd_rates.[55] - #2.0 * v_rev_rates.[55])));
  (*1485*) Do (Asn v_kf 0 (#20000000000.0));
  (*1486*) Do (Asn v_kr 0 ($v_kf / $v_Kc));
  (*1487*) Do (AddA v_jac 31 (#(-7.4581919558703884e+00) * ($v_j_temp * #9.2803892982949643e-01)));
  (*1488*) Do (AddA v_jac 26 (#8.4366827390519266e+00 * ($v_j_temp * #9.2803892982949643e-01)));
  (*1489*) Do (AddA v_jac 28 (#(-1.6373365478103853e+01) * ($v_j_temp * #9.2803892982949643e-01)));
  (*1490*) Do (AddA v_jac 37 (#1.5394874694922315e+01 * ($v_j_temp * #9.2803892982949643e-01)));
  (*1491*) Do (AddA v_jac 52 (#(-1.4916383911740777e+01) * ($v_j_temp * #9.6401946491474821e-01)));
  (*1492*) Do (AddA v_jac 47 (#1.6873365478103853e+01 * ($v_j_temp * #9.6401946491474821e-01)));
  (*1493*) Do (AddA v_jac 49 (#(-3.2746730956207706e+01) * ($v_j_temp * #9.6401946491474821e-01)));
  (*1494*) Do (AddA v_jac 58 (#3.0789749389844630e+01 * ($v_j_temp * #9.6401946491474821e-01)));
  (*1495*) Do (AddA v_jac 73 (#(-9.3971148918084424e-01) * ($v_j_temp * #4.2886781649405936e-01)));
  (*1496*) Do (AddA v_jac 68 (#1.0629986124479667e+00 * ($v_j_temp * #4.2886781649405936e-01)));
  (*1497*) Do (AddA v_jac 70 (#(-2.0629986124479669e+00) * ($v_j_temp * #4.2886781649405936e-01)));
  (*1498*) Do (AddA v_jac 79 (#1.9397114891808442e+00 * ($v_j_temp * #4.2886781649405936e-01)));
  (*1499*) Do (AddA v_jac 94 (#(-4.6985574459042212e-01) * ($v_j_temp * #(-1.4226436701188128e-01))));
  (*1500*) Do (AddA v_jac 89 (#5.3149930622398334e-01 * ($v_j_temp * #(-1.4226436701188128e-01))));
  (*1501*) Do (AddA v_jac 91 (#(-1.0314993062239834e+00) * ($v_j_temp * #(-1.4226436701188128e-01))));
  (*1502*) Do (AddA v_jac 100 (#9.6985574459042212e-01 * ($v_j_temp * #(-1.4226436701188128e-01))));
  (*1503*) Do (AddA v_jac 115 (#(-8.8401948805633335e-01) * ($v_j_temp * #3.9288728140880758e-01 - $v_kr * v_conc.[15])));
  (*1504*) Do (AddA v_jac 110 ($v_j_temp * #3.9288728140880758e-01 - $v_kr * v_conc.[15]));
  (*1505*) Do (AddA v_jac 112 (#(-1.9407350002998707e+00) * ($v_j_temp * #3.9288728140880758e-01 - $v_kr * v_conc.[15])));
  (*1506*) Do (AddA v_jac 121 (#1.8247544883562039e+00 * ($v_j_temp * #3.9288728140880758e-01 - $v_kr * v_conc.[15])));
  (*1507*) Do (AddA v_jac 136 (#(-8.3455932963573143e-01) * ($v_j_temp * #3.5690674632355568e-01)));
  (*1508*) Do (AddA v_jac 131 (#9.4405082796381734e-01 * ($v_j_temp * #3.5690674632355568e-01)));
  (*1509*) Do (AddA v_jac 133 (#(-1.8321524838914520e+00) * ($v_j_temp * #3.5690674632355568e-01)));
  (*1510*) Do (AddA v_jac 142 (#1.7226609855633661e+00 * ($v_j_temp * #3.5690674632355568e-01)));
  (*1511*) Do (AddA v_jac 157 (#(-4.5550757208982162e-01) * ($v_j_temp * #(-1.7824490209713328e-01) + $v_kf * v_conc.[9])));
  (*1512*) Do (AddA v_jac 152 (#5.1526869966558342e-01 * ($v_j_temp * #(-1.7824490209713328e-01) + $v_kf * v_conc.[9])));
  (*1513*) Do (AddA v_jac 154 ((- ($v_j_temp * #(-1.7824490209713328e-01) + $v_kf * v_conc.[9]))));
  (*1514*) Do (AddA v_jac 163 (#9.4023887242423809e-01 * ($v_j_temp * #(-1.7824490209713328e-01) + $v_kf * v_conc.[9])));
  (*1515*) Do (AddA v_jac 178 (#(-1.0718577474106858e+00) * ($v_j_temp * #4.9928106040377707e-01)));
  (*1516*) Do (AddA v_jac 173 (#1.2124820344937721e+00 * ($v_j_temp * #4.9928106040377707e-01)));
  (*1517*) Do (AddA v_jac 175 (#(-2.3531063215768584e+00) * ($v_j_temp * #4.9928106040377707e-01)));
  (*1518*) Do (AddA v_jac 184 (#2.2124820344937719e+00 * ($v_j_temp * #4.9928106040377707e-01)));
  (*1519*) Do (AddA v_jac 199 (#(-1.0718577474106858e+00) * ($v_j_temp * #4.9928106040377707e-01)));
  (*1520*) Do (AddA v_jac 194 (#1.2124820344937721e+00 * ($v_j_temp * #4.9928106040377707e-01)));
  (*1521*) Do (AddA v_jac 196 (#(-2.3531063215768584e+00) * ($v_j_temp * #4.9928106040377707e-01)));
  (*1522*) Do (AddA v_jac 205 (#2.2124820344937719e+00 * ($v_j_temp * #4.9928106040377707e-01)));
  (*1523*) Do (AddA v_jac 220 ((- ($v_j_temp * #4.6330052531852528e-01 + $v_kf * v_conc.[6]))));
  (*1524*) Do (AddA v_jac 215 (#1.1311967818703517e+00 * ($v_j_temp * #4.6330052531852528e-01 + $v_kf * v_conc.[6])));
  (*1525*) Do (AddA v_jac 217 (#(-2.1953531868023695e+00) * ($v_j_temp * #4.6330052531852528e-01 + $v_kf * v_conc.[6])));
  (*1526*) Do (AddA v_jac 226 (#2.0641564049320178e+00 * ($v_j_temp * #4.6330052531852528e-01 + $v_kf * v_conc.[6])));
  (*1527*) Do (AddA v_jac 241 (#(-9.3717165874201191e-01) * ($v_j_temp * #4.2731999023327338e-01)));
  (*1528*) Do (AddA v_jac 236 (#1.0601255644290632e+00 * ($v_j_temp * #4.2731999023327338e-01)));
  (*1529*) Do (AddA v_jac 238 (#(-2.0574227876001383e+00) * ($v_j_temp * #4.2731999023327338e-01)));
  (*1530*) Do (AddA v_jac 247 (#1.9344688819130871e+00 * ($v_j_temp * #4.2731999023327338e-01)));
  (*1531*) Do (AddA v_jac 262 (#(-5.3675848970382434e-01) * ($v_j_temp * #1.0994706834011048e-04)));
  (*1532*) Do (AddA v_jac 257 (#6.0717947619455637e-01 * ($v_j_temp * #1.0994706834011048e-04)));
  (*1533*) Do (AddA v_jac 259 (#(-1.1783744609145177e+00) * ($v_j_temp * #1.0994706834011048e-04)));
  (*1534*) Do (AddA v_jac 268 (#1.1079534744237856e+00 * ($v_j_temp * #1.0994706834011048e-04)));
  (*1535*) Do (AddA v_jac 283 (#(-3.4162436548223352e-01) * ($v_j_temp * #(-5.7102223643760053e-01))));
  (*1536*) Do (AddA v_jac 278 (#3.8644438284200339e-01 * ($v_j_temp * #(-5.7102223643760053e-01))));
  (*1537*) Do (AddA v_jac 280 (#(-7.4998613945075876e-01) * ($v_j_temp * #(-5.7102223643760053e-01))));
  (*1538*) Do (AddA v_jac 289 (#7.0516612209098883e-01 * ($v_j_temp * #(-5.7102223643760053e-01))));
  (*1539*) Do (AddA v_jac 304 (#(-5.1811440626858740e-01) * ($v_j_temp * #(-3.5870588016911675e-02))));
  (*1540*) Do (AddA v_jac 299 (#5.8608934901169396e-01 * ($v_j_temp * #(-3.5870588016911675e-02))));
  (*1541*) Do (AddA v_jac 301 (#(-1.1374441129299608e+00) * ($v_j_temp * #(-3.5870588016911675e-02))));
  (*1542*) Do (AddA v_jac 310 (#1.0694691701868542e+00 * ($v_j_temp * #(-3.5870588016911675e-02))));
  (*1543*) Do (AddA v_jac 325 (#(-5.0072203416473837e-01) * ($v_j_temp * #(-7.1851123102163683e-02))));
  (*1544*) Do (AddA v_jac 320 (#5.6641515365872830e-01 * ($v_j_temp * #(-7.1851123102163683e-02))));
  (*1545*) Do (AddA v_jac 322 (#(-1.0992617134057232e+00) * ($v_j_temp * #(-7.1851123102163683e-02))));
  (*1546*) Do (AddA v_jac 331 (#1.0335685939117332e+00 * ($v_j_temp * #(-7.1851123102163683e-02))));
  (*1547*) Do (AddA v_jac 346 (#(-4.8445941286747340e-01) * ($v_j_temp * #(-1.0783165818741525e-01) - $v_kr * v_conc.[4])));
  (*1548*) Do (AddA v_jac 341 (#5.4801892878248593e-01 * ($v_j_temp * #(-1.0783165818741525e-01) - $v_kr * v_conc.[4])));
  (*1549*) Do (AddA v_jac 343 (#(-1.0635595159150126e+00) * ($v_j_temp * #(-1.0783165818741525e-01) - $v_kr * v_conc.[4])));
  (*1550*) Do (AddA v_jac 352 ($v_j_temp * #(-1.0783165818741525e-01) - $v_kr * v_conc.[4]));
  (*1551*) Do (AddA v_jac 367 (#(-5.3592887370534292e-01) * ($v_j_temp * #(-1.4378791924458678e-03))));
  (*1552*) Do (AddA v_jac 362 (#6.0624101724688606e-01 * ($v_j_temp * #(-1.4378791924458678e-03))));
  (*1553*) Do (AddA v_jac 364 (#(-1.1765531607884292e+00) * ($v_j_temp * #(-1.4378791924458678e-03))));
  (*1554*) Do (AddA v_jac 373 (#1.1062410172468859e+00 * ($v_j_temp * #(-1.4378791924458678e-03))));
  (*1555*) Do (AddA v_jac 388 (#(-5.1734138057993861e-01) * ($v_j_temp * #(-3.7418414277697654e-02))));
  (*1556*) Do (AddA v_jac 383 (#5.8521490484039129e-01 * ($v_j_temp * #(-3.7418414277697654e-02))));
  (*1557*) Do (AddA v_jac 385 (#(-1.1357470485209056e+00) * ($v_j_temp * #(-3.7418414277697654e-02))));
  (*1558*) Do (AddA v_jac 394 (#1.0678735242604527e+00 * ($v_j_temp * #(-3.7418414277697654e-02))));
  (*1559*) Do (AddA v_jac 409 (#(-5.0000000000000000e-01) * ($v_j_temp * #(-7.3398949362949439e-02))));
  (*1560*) Do (AddA v_jac 404 (#5.6559839093517583e-01 * ($v_j_temp * #(-7.3398949362949439e-02))));
  (*1561*) Do (AddA v_jac 406 (#(-1.0976765934011847e+00) * ($v_j_temp * #(-7.3398949362949439e-02))));
  (*1562*) Do (AddA v_jac 415 (#1.0320782024660089e+00 * ($v_j_temp * #(-7.3398949362949439e-02))));
  (*1563*) Do (AddA v_jac 430 (#(-3.7635976769800739e-01) * ($v_j_temp * #(-4.2602775520927771e-01))));
  (*1564*) Do (AddA v_jac 425 (#4.2573695804545908e-01 * ($v_j_temp * #(-4.2602775520927771e-01))));
  (*1565*) Do (AddA v_jac 427 (#(-8.2624261540002009e-01) * ($v_j_temp * #(-4.2602775520927771e-01))));
  (*1566*) Do (AddA v_jac 436 (#7.7686542505256828e-01 * ($v_j_temp * #(-4.2602775520927771e-01))))]);
([
  (*1569*) Do (Asn v_j_temp 0 (#1.0 / $v_T * ((v_fwd_rates.[56] - v_rev_rates.[56]) * (#1.1875981730676238e+04 / $v_T) + v_fwd_rates.[56] * #(-1.0) - v_rev_rates.[56] * (#(-1.0) + (- $v_T) * (v_dBdT.[12] + v_dBdT.[4] - v_dBdT.[11] - v_dBdT.[6]))) * $v_rho_inv));
  (*1570*) Do (AddA v_jac 5 ($v_j_temp * #1.7007339999999999e+01));
  (*1571*) Do (AddA v_jac 12 ((- $v_j_temp) * #2.8010399999999997e+01));
  (*1572*) Do (AddA v_jac 13 ($v_j_temp * #4.4009799999999998e+01));
  (*1573*) Do (AddA v_jac 7 ((- $v_j_temp) * #3.3006740000000001e+01))],
[
  (*1576*) If ($v_T) (#1000.0)
    [Asn v_Kc 0 (#4.1045975620000004e+00 + #(-1.5325425299999997e+00) * $v_logT + $v_T * (#5.9713767200000002e-03 + $v_T * (#(-4.1134546183333329e-06) + $v_T * (#1.8289533671666668e-09 + #(-3.5837057945000006e-13) * $v_T))) - #(-3.0707611180000004e+04) / $v_T)]
    [Asn v_Kc 0 (#(-5.0734071600000004e+00) + #2.1795145000000016e-01 * $v_logT + $v_T * (#3.3022620799999969e-04 + $v_T * (#(-7.5970815166666692e-08) + $v_T * (#7.6037212000000025e-12 + #(-2.1557768500000007e-16) * $v_T))) - #(-3.0860493312999999e+04) / $v_T)];
  (*1582*) Do (Asn v_Kc 0 ((Exp $v_Kc)));
  (*1583*) Do (Asn v_j_temp 0 ((- $v_mw_avg) * $v_rho_inv * (#2.0 * v_fwd_rates.[56] - #2.0 * v_rev_rates.[56])));
  (*1584*) Do (Asn v_kf 0 ((Exp (#2.5733901131042668e+01 - #1.1875981730676238e+04 / $v_T))));
  (*1585*) Do (Asn v_kr 0 ($v_kf / $v_Kc));
  (*1586*) Do (AddA v_jac 26 (#8.4366827390519266e+00 * ($v_j_temp * #9.2803892982949643e-01)));
  (*1587*) Do (AddA v_jac 33 (#(-1.3894874694922315e+01) * ($v_j_temp * #9.2803892982949643e-01)));
  (*1588*) Do (AddA v_jac 34 (#2.1831557433974243e+01 * ($v_j_temp * #9.2803892982949643e-01)));
  (*1589*) Do (AddA v_jac 28 (#(-1.6373365478103853e+01) * ($v_j_temp * #9.2803892982949643e-01)));
  (*1590*) Do (AddA v_jac 47 (#1.6873365478103853e+01 * ($v_j_temp * #9.6401946491474821e-01)));
  (*1591*) Do (AddA v_jac 54 (#(-2.7789749389844630e+01) * ($v_j_temp * #9.6401946491474821e-01)));
  (*1592*) Do (AddA v_jac 55 (#4.3663114867948487e+01 * ($v_j_temp * #9.6401946491474821e-01)));
  (*1593*) Do (AddA v_jac 49 (#(-3.2746730956207706e+01) * ($v_j_temp * #9.6401946491474821e-01)));
  (*1594*) Do (AddA v_jac 68 (#1.0629986124479667e+00 * ($v_j_temp * #4.2886781649405936e-01)));
  (*1595*) Do (AddA v_jac 75 (#(-1.7507156518369438e+00) * ($v_j_temp * #4.2886781649405936e-01)));
  (*1596*) Do (AddA v_jac 76 (#2.7507156518369440e+00 * ($v_j_temp * #4.2886781649405936e-01)));
  (*1597*) Do (AddA v_jac 70 (#(-2.0629986124479669e+00) * ($v_j_temp * #4.2886781649405936e-01)));
  (*1598*) Do (AddA v_jac 89 (#5.3149930622398334e-01 * ($v_j_temp * #(-1.4226436701188128e-01))));
  (*1599*) Do (AddA v_jac 96 (#(-8.7535782591847189e-01) * ($v_j_temp * #(-1.4226436701188128e-01))));
  (*1600*) Do (AddA v_jac 97 (#1.3753578259184720e+00 * ($v_j_temp * #(-1.4226436701188128e-01))));
  (*1601*) Do (AddA v_jac 91 (#(-1.0314993062239834e+00) * ($v_j_temp * #(-1.4226436701188128e-01))));
  (*1602*) Do (AddA v_jac 110 ($v_j_temp * #3.9288728140880758e-01 - $v_kr * v_conc.[12]));
  (*1603*) Do (AddA v_jac 117 (#(-1.6469594892558153e+00) * ($v_j_temp * #3.9288728140880758e-01 - $v_kr * v_conc.[12])));
  (*1604*) Do (AddA v_jac 118 (#2.5876944895556862e+00 * ($v_j_temp * #3.9288728140880758e-01 - $v_kr * v_conc.[12])));
  (*1605*) Do (AddA v_jac 112 (#(-1.9407350002998707e+00) * ($v_j_temp * #3.9288728140880758e-01 - $v_kr * v_conc.[12])));
  (*1606*) Do (AddA v_jac 131 (#9.4405082796381734e-01 * ($v_j_temp * #3.5690674632355568e-01)));
  (*1607*) Do (AddA v_jac 138 (#(-1.5548134694548181e+00) * ($v_j_temp * #3.5690674632355568e-01)));
  (*1608*) Do (AddA v_jac 139 (#2.4429151253824530e+00 * ($v_j_temp * #3.5690674632355568e-01)));
  (*1609*) Do (AddA v_jac 133 (#(-1.8321524838914520e+00) * ($v_j_temp * #3.5690674632355568e-01)));
  (*1610*) Do (AddA v_jac 152 (#5.1526869966558342e-01 * ($v_j_temp * #(-1.7824490209713328e-01) + $v_kf * v_conc.[11])));
  (*1611*) Do (AddA v_jac 159 (#(-8.4862667443073736e-01) * ($v_j_temp * #(-1.7824490209713328e-01) + $v_kf * v_conc.[11])));
  (*1612*) Do (AddA v_jac 160 (#1.3333579747651541e+00 * ($v_j_temp * #(-1.7824490209713328e-01) + $v_kf * v_conc.[11])));
  (*1613*) Do (AddA v_jac 154 ((- ($v_j_temp * #(-1.7824490209713328e-01) + $v_kf * v_conc.[11]))));
  (*1614*) Do (AddA v_jac 173 (#1.2124820344937721e+00 * ($v_j_temp * #4.9928106040377707e-01)));
  (*1615*) Do (AddA v_jac 180 (#(-1.9969087922617146e+00) * ($v_j_temp * #4.9928106040377707e-01)));
  (*1616*) Do (AddA v_jac 181 (#3.1375330793448009e+00 * ($v_j_temp * #4.9928106040377707e-01)));
  (*1617*) Do (AddA v_jac 175 (#(-2.3531063215768584e+00) * ($v_j_temp * #4.9928106040377707e-01)));
  (*1618*) Do (AddA v_jac 194 (#1.2124820344937721e+00 * ($v_j_temp * #4.9928106040377707e-01)));
  (*1619*) Do (AddA v_jac 201 (#(-1.9969087922617146e+00) * ($v_j_temp * #4.9928106040377707e-01)));
  (*1620*) Do (AddA v_jac 202 (#3.1375330793448009e+00 * ($v_j_temp * #4.9928106040377707e-01)));
  (*1621*) Do (AddA v_jac 196 (#(-2.3531063215768584e+00) * ($v_j_temp * #4.9928106040377707e-01)));
  (*1622*) Do (AddA v_jac 215 (#1.1311967818703517e+00 * ($v_j_temp * #4.6330052531852528e-01)));
  (*1623*) Do (AddA v_jac 222 (#(-1.8630352741170162e+00) * ($v_j_temp * #4.6330052531852528e-01)));
  (*1624*) Do (AddA v_jac 223 (#2.9271916790490340e+00 * ($v_j_temp * #4.6330052531852528e-01)));
  (*1625*) Do (AddA v_jac 217 (#(-2.1953531868023695e+00) * ($v_j_temp * #4.6330052531852528e-01)));
  (*1626*) Do (AddA v_jac 236 (#1.0601255644290632e+00 * ($v_j_temp * #4.2731999023327338e-01)));
  (*1627*) Do (AddA v_jac 243 (#(-1.7459838581391229e+00) * ($v_j_temp * #4.2731999023327338e-01)));
  (*1628*) Do (AddA v_jac 244 (#2.7432810813101982e+00 * ($v_j_temp * #4.2731999023327338e-01)));
  (*1629*) Do (AddA v_jac 238 (#(-2.0574227876001383e+00) * ($v_j_temp * #4.2731999023327338e-01)));
  (*1630*) Do (AddA v_jac 257 (#6.0717947619455637e-01 * ($v_j_temp * #1.0994706834011048e-04 + $v_kf * v_conc.[6])));
  (*1631*) Do (AddA v_jac 264 ((- ($v_j_temp * #1.0994706834011048e-04 + $v_kf * v_conc.[6]))));
  (*1632*) Do (AddA v_jac 265 (#1.5711949847199613e+00 * ($v_j_temp * #1.0994706834011048e-04 + $v_kf * v_conc.[6])));
  (*1633*) Do (AddA v_jac 259 (#(-1.1783744609145177e+00) * ($v_j_temp * #1.0994706834011048e-04 + $v_kf * v_conc.[6])));
  (*1634*) Do (AddA v_jac 278 (#3.8644438284200339e-01 * ($v_j_temp * #(-5.7102223643760053e-01) - $v_kr * v_conc.[4])));
  (*1635*) Do (AddA v_jac 285 (#(-6.3645824339124468e-01) * ($v_j_temp * #(-5.7102223643760053e-01) - $v_kr * v_conc.[4])));
  (*1636*) Do (AddA v_jac 286 ($v_j_temp * #(-5.7102223643760053e-01) - $v_kr * v_conc.[4]));
  (*1637*) Do (AddA v_jac 280 (#(-7.4998613945075876e-01) * ($v_j_temp * #(-5.7102223643760053e-01) - $v_kr * v_conc.[4])));
  (*1638*) Do (AddA v_jac 299 (#5.8608934901169396e-01 * ($v_j_temp * #(-3.5870588016911675e-02))));
  (*1639*) Do (AddA v_jac 306 (#(-9.6526541490657281e-01) * ($v_j_temp * #(-3.5870588016911675e-02))));
  (*1640*) Do (AddA v_jac 307 (#1.5166201788248397e+00 * ($v_j_temp * #(-3.5870588016911675e-02))));
  (*1641*) Do (AddA v_jac 301 (#(-1.1374441129299608e+00) * ($v_j_temp * #(-3.5870588016911675e-02))));
  (*1642*) Do (AddA v_jac 320 (#5.6641515365872830e-01 * ($v_j_temp * #(-7.1851123102163683e-02))));
  (*1643*) Do (AddA v_jac 327 (#(-9.3286281217653322e-01) * ($v_j_temp * #(-7.1851123102163683e-02))));
  (*1644*) Do (AddA v_jac 328 (#1.4657093719235283e+00 * ($v_j_temp * #(-7.1851123102163683e-02))));
  (*1645*) Do (AddA v_jac 322 (#(-1.0992617134057232e+00) * ($v_j_temp * #(-7.1851123102163683e-02))));
  (*1646*) Do (AddA v_jac 341 (#5.4801892878248593e-01 * ($v_j_temp * #(-1.0783165818741525e-01))));
  (*1647*) Do (AddA v_jac 348 (#(-9.0256497505012201e-01) * ($v_j_temp * #(-1.0783165818741525e-01))));
  (*1648*) Do (AddA v_jac 349 (#1.4181055621826488e+00 * ($v_j_temp * #(-1.0783165818741525e-01))));
  (*1649*) Do (AddA v_jac 343 (#(-1.0635595159150126e+00) * ($v_j_temp * #(-1.0783165818741525e-01))));
  (*1650*) Do (AddA v_jac 362 (#6.0624101724688606e-01 * ($v_j_temp * #(-1.4378791924458678e-03))));
  (*1651*) Do (AddA v_jac 369 (#(-9.9845439613085729e-01) * ($v_j_temp * #(-1.4378791924458678e-03))));
  (*1652*) Do (AddA v_jac 370 (#1.5687665396724004e+00 * ($v_j_temp * #(-1.4378791924458678e-03))));
  (*1653*) Do (AddA v_jac 364 (#(-1.1765531607884292e+00) * ($v_j_temp * #(-1.4378791924458678e-03))));
  (*1654*) Do (AddA v_jac 383 (#5.8521490484039129e-01 * ($v_j_temp * #(-3.7418414277697654e-02))));
  (*1655*) Do (AddA v_jac 390 (#(-9.6382524078082144e-01) * ($v_j_temp * #(-3.7418414277697654e-02))));
  (*1656*) Do (AddA v_jac 391 (#1.5143573844613358e+00 * ($v_j_temp * #(-3.7418414277697654e-02))));
  (*1657*) Do (AddA v_jac 385 (#(-1.1357470485209056e+00) * ($v_j_temp * #(-3.7418414277697654e-02))));
  (*1658*) Do (AddA v_jac 404 (#5.6559839093517583e-01 * ($v_j_temp * #(-7.3398949362949439e-02))));
  (*1659*) Do (AddA v_jac 411 (#(-9.3151763705850810e-01) * ($v_j_temp * #(-7.3398949362949439e-02))));
  (*1660*) Do (AddA v_jac 412 (#1.4635958395245170e+00 * ($v_j_temp * #(-7.3398949362949439e-02))));
  (*1661*) Do (AddA v_jac 406 (#(-1.0976765934011847e+00) * ($v_j_temp * #(-7.3398949362949439e-02))));
  (*1662*) Do (AddA v_jac 425 (#4.2573695804545908e-01 * ($v_j_temp * #(-4.2602775520927771e-01))));
  (*1663*) Do (AddA v_jac 432 (#(-7.0117152297987373e-01) * ($v_j_temp * #(-4.2602775520927771e-01))));
  (*1664*) Do (AddA v_jac 433 (#1.1016771803344347e+00 * ($v_j_temp * #(-4.2602775520927771e-01))));
  (*1665*) Do (AddA v_jac 427 (#(-8.2624261540002009e-01) * ($v_j_temp * #(-4.2602775520927771e-01))))]);
([
  (*1668*) Do (Asn v_j_temp 0 (#1.0 / $v_T * ((v_fwd_rates.[57] - v_rev_rates.[57]) * (#7.5482934728874397e+02 / $v_T) + v_fwd_rates.[57] * #(-1.0) - v_rev_rates.[57] * (#(-1.0) + (- $v_T) * (v_dBdT.[13] + v_dBdT.[4] - v_dBdT.[7] - v_dBdT.[3]))) * $v_rho_inv));
  (*1669*) Do (AddA v_jac 4 ((- $v_j_temp) * #3.1998799999999999e+01));
  (*1670*) Do (AddA v_jac 5 ($v_j_temp * #1.7007339999999999e+01));
  (*1671*) Do (AddA v_jac 14 ($v_j_temp * #2.9018339999999998e+01));
  (*1672*) Do (AddA v_jac 8 ((- $v_j_temp) * #1.4026879999999998e+01))],
[
  (*1675*) If ($v_T) (#1000.0)
    [Asn v_Kc 0 (#(-2.5978268480000009e+00) + #6.6806624000000037e-01 * $v_logT + $v_T * (#(-1.8086904115000003e-03) + $v_T * (#9.5928043166666652e-07 + $v_T * (#(-3.0527800083333322e-10) + #3.8532889499999989e-14 * $v_T))) - #(-3.7485451020000000e+04) / $v_T)]
    [Asn v_Kc 0 (#2.9421934099999993e+00 + #(-2.9157691999999980e-01) * $v_logT + $v_T * (#1.8295225799999973e-04 + $v_T * (#(-3.1839710500000034e-08) + $v_T * (#2.6304598666666719e-12 + #(-5.8254870000000218e-17) * $v_T))) - #(-3.7304571129999997e+04) / $v_T)];
  (*1681*) Do (Asn v_Kc 0 ((Exp $v_Kc)));
  (*1682*) Do (Asn v_j_temp 0 ((- $v_mw_avg) * $v_rho_inv * (#2.0 * v_fwd_rates.[57] - #2.0 * v_rev_rates.[57])));
  (*1683*) Do (Asn v_kf 0 ((Exp (#2.3303482666538738e+01 - #7.5482934728874397e+02 / $v_T))));
  (*1684*) Do (Asn v_kr 0 ($v_kf / $v_Kc));
  (*1685*) Do (AddA v_jac 25 (#(-1.5873365478103855e+01) * ($v_j_temp * #9.2803892982949643e-01)));
  (*1686*) Do (AddA v_jac 26 (#8.4366827390519266e+00 * ($v_j_temp * #9.2803892982949643e-01)));
  (*1687*) Do (AddA v_jac 35 (#1.4394874694922315e+01 * ($v_j_temp * #9.2803892982949643e-01)));
  (*1688*) Do (AddA v_jac 29 (#(-6.9581919558703875e+00) * ($v_j_temp * #9.2803892982949643e-01)));
  (*1689*) Do (AddA v_jac 46 (#(-3.1746730956207710e+01) * ($v_j_temp * #9.6401946491474821e-01)));
  (*1690*) Do (AddA v_jac 47 (#1.6873365478103853e+01 * ($v_j_temp * #9.6401946491474821e-01)));
  (*1691*) Do (AddA v_jac 56 (#2.8789749389844630e+01 * ($v_j_temp * #9.6401946491474821e-01)));
  (*1692*) Do (AddA v_jac 50 (#(-1.3916383911740775e+01) * ($v_j_temp * #9.6401946491474821e-01)));
  (*1693*) Do (AddA v_jac 67 (#(-2.0000000000000000e+00) * ($v_j_temp * #4.2886781649405936e-01)));
  (*1694*) Do (AddA v_jac 68 (#1.0629986124479667e+00 * ($v_j_temp * #4.2886781649405936e-01)));
  (*1695*) Do (AddA v_jac 77 (#1.8137142642849107e+00 * ($v_j_temp * #4.2886781649405936e-01)));
  (*1696*) Do (AddA v_jac 71 (#(-8.7671287673287746e-01) * ($v_j_temp * #4.2886781649405936e-01)));
  (*1697*) Do (AddA v_jac 88 ((- ($v_j_temp * #(-1.4226436701188128e-01) + $v_kf * v_conc.[7]))));
  (*1698*) Do (AddA v_jac 89 (#5.3149930622398334e-01 * ($v_j_temp * #(-1.4226436701188128e-01) + $v_kf * v_conc.[7])));
  (*1699*) Do (AddA v_jac 98 (#9.0685713214245534e-01 * ($v_j_temp * #(-1.4226436701188128e-01) + $v_kf * v_conc.[7])));
  (*1700*) Do (AddA v_jac 92 (#(-4.3835643836643873e-01) * ($v_j_temp * #(-1.4226436701188128e-01) + $v_kf * v_conc.[7])));
  (*1701*) Do (AddA v_jac 109 (#(-1.8814700005997411e+00) * ($v_j_temp * #3.9288728140880758e-01 - $v_kr * v_conc.[13])));
  (*1702*) Do (AddA v_jac 110 ($v_j_temp * #3.9288728140880758e-01 - $v_kr * v_conc.[13]));
  (*1703*) Do (AddA v_jac 119 (#1.7062244889559448e+00 * ($v_j_temp * #3.9288728140880758e-01 - $v_kr * v_conc.[13])));
  (*1704*) Do (AddA v_jac 113 (#(-8.2475448835620380e-01) * ($v_j_temp * #3.9288728140880758e-01 - $v_kr * v_conc.[13])));
  (*1705*) Do (AddA v_jac 130 (#(-1.7762033118552694e+00) * ($v_j_temp * #3.5690674632355568e-01)));
  (*1706*) Do (AddA v_jac 131 (#9.4405082796381734e-01 * ($v_j_temp * #3.5690674632355568e-01)));
  (*1707*) Do (AddA v_jac 140 (#1.6107626414910008e+00 * ($v_j_temp * #3.5690674632355568e-01)));
  (*1708*) Do (AddA v_jac 134 (#(-7.7861015759954877e-01) * ($v_j_temp * #3.5690674632355568e-01)));
  (*1709*) Do (AddA v_jac 151 (#(-9.6946260066883305e-01) * ($v_j_temp * #(-1.7824490209713328e-01))));
  (*1710*) Do (AddA v_jac 152 (#5.1526869966558342e-01 * ($v_j_temp * #(-1.7824490209713328e-01))));
  (*1711*) Do (AddA v_jac 161 (#8.7916407376190431e-01 * ($v_j_temp * #(-1.7824490209713328e-01))));
  (*1712*) Do (AddA v_jac 155 (#(-4.2497017275865467e-01) * ($v_j_temp * #(-1.7824490209713328e-01))));
  (*1713*) Do (AddA v_jac 172 (#(-2.2812485741661725e+00) * ($v_j_temp * #4.9928106040377707e-01 + $v_kf * v_conc.[3])));
  (*1714*) Do (AddA v_jac 173 (#1.2124820344937721e+00 * ($v_j_temp * #4.9928106040377707e-01 + $v_kf * v_conc.[3])));
  (*1715*) Do (AddA v_jac 182 (#2.0687665396724007e+00 * ($v_j_temp * #4.9928106040377707e-01 + $v_kf * v_conc.[3])));
  (*1716*) Do (AddA v_jac 176 ((- ($v_j_temp * #4.9928106040377707e-01 + $v_kf * v_conc.[3]))));
  (*1717*) Do (AddA v_jac 193 (#(-2.2812485741661725e+00) * ($v_j_temp * #4.9928106040377707e-01)));
  (*1718*) Do (AddA v_jac 194 (#1.2124820344937721e+00 * ($v_j_temp * #4.9928106040377707e-01)));
  (*1719*) Do (AddA v_jac 203 (#2.0687665396724007e+00 * ($v_j_temp * #4.9928106040377707e-01)));
  (*1720*) Do (AddA v_jac 197 ((- ($v_j_temp * #4.9928106040377707e-01))));
  (*1721*) Do (AddA v_jac 214 (#(-2.1283128098640356e+00) * ($v_j_temp * #4.6330052531852528e-01)));
  (*1722*) Do (AddA v_jac 215 (#1.1311967818703517e+00 * ($v_j_temp * #4.6330052531852528e-01)));
  (*1723*) Do (AddA v_jac 224 (#1.9300756510553501e+00 * ($v_j_temp * #4.6330052531852528e-01)));
  (*1724*) Do (AddA v_jac 218 (#(-9.3295962306166613e-01) * ($v_j_temp * #4.6330052531852528e-01)));
  (*1725*) Do (AddA v_jac 235 (#(-1.9945944463421503e+00) * ($v_j_temp * #4.2731999023327338e-01)));
  (*1726*) Do (AddA v_jac 236 (#1.0601255644290632e+00 * ($v_j_temp * #4.2731999023327338e-01)));
  (*1727*) Do (AddA v_jac 245 (#1.8088121993971109e+00 * ($v_j_temp * #4.2731999023327338e-01)));
  (*1728*) Do (AddA v_jac 239 (#(-8.7434331748402383e-01) * ($v_j_temp * #4.2731999023327338e-01)));
  (*1729*) Do (AddA v_jac 256 (#(-1.1423899694399224e+00) * ($v_j_temp * #1.0994706834011048e-04)));
  (*1730*) Do (AddA v_jac 257 (#6.0717947619455637e-01 * ($v_j_temp * #1.0994706834011048e-04)));
  (*1731*) Do (AddA v_jac 266 (#1.0359844914745953e+00 * ($v_j_temp * #1.0994706834011048e-04)));
  (*1732*) Do (AddA v_jac 260 (#(-5.0077399822922919e-01) * ($v_j_temp * #1.0994706834011048e-04)));
  (*1733*) Do (AddA v_jac 277 (#(-7.2708351321751064e-01) * ($v_j_temp * #(-5.7102223643760053e-01))));
  (*1734*) Do (AddA v_jac 278 (#3.8644438284200339e-01 * ($v_j_temp * #(-5.7102223643760053e-01))));
  (*1735*) Do (AddA v_jac 287 (#6.5936086962449270e-01 * ($v_j_temp * #(-5.7102223643760053e-01))));
  (*1736*) Do (AddA v_jac 281 (#(-3.1872173924898545e-01) * ($v_j_temp * #(-5.7102223643760053e-01))));
  (*1737*) Do (AddA v_jac 298 (#(-1.1027095278365338e+00) * ($v_j_temp * #(-3.5870588016911675e-02) - $v_kr * v_conc.[4])));
  (*1738*) Do (AddA v_jac 299 (#5.8608934901169396e-01 * ($v_j_temp * #(-3.5870588016911675e-02) - $v_kr * v_conc.[4])));
  (*1739*) Do (AddA v_jac 308 ($v_j_temp * #(-3.5870588016911675e-02) - $v_kr * v_conc.[4]));
  (*1740*) Do (AddA v_jac 302 (#(-4.8337982117516021e-01) * ($v_j_temp * #(-3.5870588016911675e-02) - $v_kr * v_conc.[4])));
  (*1741*) Do (AddA v_jac 319 (#(-1.0656931194939898e+00) * ($v_j_temp * #(-7.1851123102163683e-02))));
  (*1742*) Do (AddA v_jac 320 (#5.6641515365872830e-01 * ($v_j_temp * #(-7.1851123102163683e-02))));
  (*1743*) Do (AddA v_jac 329 (#9.6643140608826661e-01 * ($v_j_temp * #(-7.1851123102163683e-02))));
  (*1744*) Do (AddA v_jac 323 (#(-4.6715344025300498e-01) * ($v_j_temp * #(-7.1851123102163683e-02))));
  (*1745*) Do (AddA v_jac 340 (#(-1.0310811742650532e+00) * ($v_j_temp * #(-1.0783165818741525e-01))));
  (*1746*) Do (AddA v_jac 341 (#5.4801892878248593e-01 * ($v_j_temp * #(-1.0783165818741525e-01))));
  (*1747*) Do (AddA v_jac 350 (#9.3504331670008145e-01 * ($v_j_temp * #(-1.0783165818741525e-01))));
  (*1748*) Do (AddA v_jac 344 (#(-4.5198107121751407e-01) * ($v_j_temp * #(-1.0783165818741525e-01))));
  (*1749*) Do (AddA v_jac 361 (#(-1.1406242870830863e+00) * ($v_j_temp * #(-1.4378791924458678e-03))));
  (*1750*) Do (AddA v_jac 362 (#6.0624101724688606e-01 * ($v_j_temp * #(-1.4378791924458678e-03))));
  (*1751*) Do (AddA v_jac 371 (#1.0343832698362003e+00 * ($v_j_temp * #(-1.4378791924458678e-03))));
  (*1752*) Do (AddA v_jac 365 (#(-5.0000000000000000e-01) * ($v_j_temp * #(-1.4378791924458678e-03))));
  (*1753*) Do (AddA v_jac 382 (#(-1.1010642873610286e+00) * ($v_j_temp * #(-3.7418414277697654e-02))));
  (*1754*) Do (AddA v_jac 383 (#5.8521490484039129e-01 * ($v_j_temp * #(-3.7418414277697654e-02))));
  (*1755*) Do (AddA v_jac 392 (#9.9850800194069855e-01 * ($v_j_temp * #(-3.7418414277697654e-02))));
  (*1756*) Do (AddA v_jac 386 (#(-4.8265861942006144e-01) * ($v_j_temp * #(-3.7418414277697654e-02))));
  (*1757*) Do (AddA v_jac 403 (#(-1.0641564049320178e+00) * ($v_j_temp * #(-7.3398949362949439e-02))));
  (*1758*) Do (AddA v_jac 404 (#5.6559839093517583e-01 * ($v_j_temp * #(-7.3398949362949439e-02))));
  (*1759*) Do (AddA v_jac 413 (#9.6503782552767503e-01 * ($v_j_temp * #(-7.3398949362949439e-02))));
  (*1760*) Do (AddA v_jac 407 (#(-4.6647981153083307e-01) * ($v_j_temp * #(-7.3398949362949439e-02))));
  (*1761*) Do (AddA v_jac 424 (#(-8.0101131470912179e-01) * ($v_j_temp * #(-4.2602775520927771e-01))));
  (*1762*) Do (AddA v_jac 425 (#4.2573695804545908e-01 * ($v_j_temp * #(-4.2602775520927771e-01))));
  (*1763*) Do (AddA v_jac 434 (#7.2640282367077191e-01 * ($v_j_temp * #(-4.2602775520927771e-01))));
  (*1764*) Do (AddA v_jac 428 (#(-3.5112846700710920e-01) * ($v_j_temp * #(-4.2602775520927771e-01))))]);
([
  (*1767*) Do (Asn v_j_temp 0 (#1.0 / $v_T * ((v_fwd_rates.[58] - v_rev_rates.[58]) * (#2.0000000000000000e+00 + #3.6382774539317456e+03 / $v_T) + v_fwd_rates.[58] * #(-1.0) - v_rev_rates.[58] * (#(-1.0) + (- $v_T) * (v_dBdT.[1] + v_dBdT.[9] - v_dBdT.[0] - v_dBdT.[7]))) * $v_rho_inv));
  (*1768*) Do (AddA v_jac 1 ((- $v_j_temp) * #2.0158800000000001e+00));
  (*1769*) Do (AddA v_jac 2 ($v_j_temp * #1.0079400000000001e+00));
  (*1770*) Do (AddA v_jac 10 ($v_j_temp * #1.5034820000000000e+01));
  (*1771*) Do (AddA v_jac 8 ((- $v_j_temp) * #1.4026879999999998e+01))],
[
  (*1774*) If ($v_T) (#1000.0)
    [Asn v_Kc 0 (#(-1.1542412209999999e+00) + #6.6580609999999929e-02 * $v_logT + $v_T * (#(-3.4692205711473328e-03) + $v_T * (#3.7355785246673471e-06 + $v_T * (#(-1.9314560098082654e-09) + #4.1162788795361342e-13 * $v_T))) - #(-3.1674462269999931e+03) / $v_T)]
    [Asn v_Kc 0 (#6.4928815460000013e+00 + #(-1.4256625999999999e+00) * $v_logT + $v_T * (#1.8164549500078516e-03 + $v_T * (#(-3.4627571197396756e-07) + $v_T * (#4.2922623688737307e-11 + #(-2.3984109900901322e-15) * $v_T))) - #(-3.0642008780000033e+03) / $v_T)];
  (*1780*) Do (Asn v_Kc 0 ((Exp $v_Kc)));
  (*1781*) Do (Asn v_j_temp 0 ((- $v_mw_avg) * $v_rho_inv * (#2.0 * v_fwd_rates.[58] - #2.0 * v_rev_rates.[58])));
  (*1782*) Do (Asn v_kf 0 ((Exp (#6.2146080984221914e+00 + #2.0 * $v_logT - #3.6382774539317456e+03 / $v_T))));
  (*1783*) Do (Asn v_kr 0 ($v_kf / $v_Kc));
  (*1784*) Do (AddA v_jac 22 ((- ($v_j_temp * #9.2803892982949643e-01 + $v_kf * v_conc.[7]))));
  (*1785*) Do (AddA v_jac 23 (#5.0000000000000000e-01 * ($v_j_temp * #9.2803892982949643e-01 + $v_kf * v_conc.[7])));
  (*1786*) Do (AddA v_jac 31 (#7.4581919558703884e+00 * ($v_j_temp * #9.2803892982949643e-01 + $v_kf * v_conc.[7])));
  (*1787*) Do (AddA v_jac 29 (#(-6.9581919558703875e+00) * ($v_j_temp * #9.2803892982949643e-01 + $v_kf * v_conc.[7])));
  (*1788*) Do (AddA v_jac 43 (#(-2.0000000000000000e+00) * ($v_j_temp * #9.6401946491474821e-01 - $v_kr * v_conc.[9])));
  (*1789*) Do (AddA v_jac 44 ($v_j_temp * #9.6401946491474821e-01 - $v_kr * v_conc.[9]));
  (*1790*) Do (AddA v_jac 52 (#1.4916383911740777e+01 * ($v_j_temp * #9.6401946491474821e-01 - $v_kr * v_conc.[9])));
  (*1791*) Do (AddA v_jac 50 (#(-1.3916383911740775e+01) * ($v_j_temp * #9.6401946491474821e-01 - $v_kr * v_conc.[9])));
  (*1792*) Do (AddA v_jac 64 (#(-1.2599722489593360e-01) * ($v_j_temp * #4.2886781649405936e-01)));
  (*1793*) Do (AddA v_jac 65 (#6.2998612447966798e-02 * ($v_j_temp * #4.2886781649405936e-01)));
  (*1794*) Do (AddA v_jac 73 (#9.3971148918084424e-01 * ($v_j_temp * #4.2886781649405936e-01)));
  (*1795*) Do (AddA v_jac 71 (#(-8.7671287673287746e-01) * ($v_j_temp * #4.2886781649405936e-01)));
  (*1796*) Do (AddA v_jac 85 (#(-6.2998612447966798e-02) * ($v_j_temp * #(-1.4226436701188128e-01))));
  (*1797*) Do (AddA v_jac 86 (#3.1499306223983399e-02 * ($v_j_temp * #(-1.4226436701188128e-01))));
  (*1798*) Do (AddA v_jac 94 (#4.6985574459042212e-01 * ($v_j_temp * #(-1.4226436701188128e-01))));
  (*1799*) Do (AddA v_jac 92 (#(-4.3835643836643873e-01) * ($v_j_temp * #(-1.4226436701188128e-01))));
  (*1800*) Do (AddA v_jac 106 (#(-1.1852999940025896e-01) * ($v_j_temp * #3.9288728140880758e-01)));
  (*1801*) Do (AddA v_jac 107 (#5.9264999700129481e-02 * ($v_j_temp * #3.9288728140880758e-01)));
  (*1802*) Do (AddA v_jac 115 (#8.8401948805633335e-01 * ($v_j_temp * #3.9288728140880758e-01)));
  (*1803*) Do (AddA v_jac 113 (#(-8.2475448835620380e-01) * ($v_j_temp * #3.9288728140880758e-01)));
  (*1804*) Do (AddA v_jac 127 (#(-1.1189834407236524e-01) * ($v_j_temp * #3.5690674632355568e-01)));
  (*1805*) Do (AddA v_jac 128 (#5.5949172036182618e-02 * ($v_j_temp * #3.5690674632355568e-01)));
  (*1806*) Do (AddA v_jac 136 (#8.3455932963573143e-01 * ($v_j_temp * #3.5690674632355568e-01)));
  (*1807*) Do (AddA v_jac 134 (#(-7.7861015759954877e-01) * ($v_j_temp * #3.5690674632355568e-01)));
  (*1808*) Do (AddA v_jac 148 (#(-6.1074798662333819e-02) * ($v_j_temp * #(-1.7824490209713328e-01))));
  (*1809*) Do (AddA v_jac 149 (#3.0537399331166910e-02 * ($v_j_temp * #(-1.7824490209713328e-01))));
  (*1810*) Do (AddA v_jac 157 (#4.5550757208982162e-01 * ($v_j_temp * #(-1.7824490209713328e-01))));
  (*1811*) Do (AddA v_jac 155 (#(-4.2497017275865467e-01) * ($v_j_temp * #(-1.7824490209713328e-01))));
  (*1812*) Do (AddA v_jac 169 (#(-1.4371549482137155e-01) * ($v_j_temp * #4.9928106040377707e-01 + $v_kf * v_conc.[0])));
  (*1813*) Do (AddA v_jac 170 (#7.1857747410685777e-02 * ($v_j_temp * #4.9928106040377707e-01 + $v_kf * v_conc.[0])));
  (*1814*) Do (AddA v_jac 178 (#1.0718577474106858e+00 * ($v_j_temp * #4.9928106040377707e-01 + $v_kf * v_conc.[0])));
  (*1815*) Do (AddA v_jac 176 ((- ($v_j_temp * #4.9928106040377707e-01 + $v_kf * v_conc.[0]))));
  (*1816*) Do (AddA v_jac 190 (#(-1.4371549482137155e-01) * ($v_j_temp * #4.9928106040377707e-01)));
  (*1817*) Do (AddA v_jac 191 (#7.1857747410685777e-02 * ($v_j_temp * #4.9928106040377707e-01)));
  (*1818*) Do (AddA v_jac 199 (#1.0718577474106858e+00 * ($v_j_temp * #4.9928106040377707e-01)));
  (*1819*) Do (AddA v_jac 197 ((- ($v_j_temp * #4.9928106040377707e-01))));
  (*1820*) Do (AddA v_jac 211 (#(-1.3408075387666762e-01) * ($v_j_temp * #4.6330052531852528e-01 - $v_kr * v_conc.[1])));
  (*1821*) Do (AddA v_jac 212 (#6.7040376938333812e-02 * ($v_j_temp * #4.6330052531852528e-01 - $v_kr * v_conc.[1])));
  (*1822*) Do (AddA v_jac 220 ($v_j_temp * #4.6330052531852528e-01 - $v_kr * v_conc.[1]));
  (*1823*) Do (AddA v_jac 218 (#(-9.3295962306166613e-01) * ($v_j_temp * #4.6330052531852528e-01 - $v_kr * v_conc.[1])));
  (*1824*) Do (AddA v_jac 232 (#(-1.2565668251597606e-01) * ($v_j_temp * #4.2731999023327338e-01)));
  (*1825*) Do (AddA v_jac 233 (#6.2828341257988030e-02 * ($v_j_temp * #4.2731999023327338e-01)));
  (*1826*) Do (AddA v_jac 241 (#9.3717165874201191e-01 * ($v_j_temp * #4.2731999023327338e-01)));
  (*1827*) Do (AddA v_jac 239 (#(-8.7434331748402383e-01) * ($v_j_temp * #4.2731999023327338e-01)));
  (*1828*) Do (AddA v_jac 253 (#(-7.1968982949190310e-02) * ($v_j_temp * #1.0994706834011048e-04)));
  (*1829*) Do (AddA v_jac 254 (#3.5984491474595155e-02 * ($v_j_temp * #1.0994706834011048e-04)));
  (*1830*) Do (AddA v_jac 262 (#5.3675848970382434e-01 * ($v_j_temp * #1.0994706834011048e-04)));
  (*1831*) Do (AddA v_jac 260 (#(-5.0077399822922919e-01) * ($v_j_temp * #1.0994706834011048e-04)));
  (*1832*) Do (AddA v_jac 274 (#(-4.5805252466496103e-02) * ($v_j_temp * #(-5.7102223643760053e-01))));
  (*1833*) Do (AddA v_jac 275 (#2.2902626233248052e-02 * ($v_j_temp * #(-5.7102223643760053e-01))));
  (*1834*) Do (AddA v_jac 283 (#3.4162436548223352e-01 * ($v_j_temp * #(-5.7102223643760053e-01))));
  (*1835*) Do (AddA v_jac 281 (#(-3.1872173924898545e-01) * ($v_j_temp * #(-5.7102223643760053e-01))));
  (*1836*) Do (AddA v_jac 295 (#(-6.9469170186854251e-02) * ($v_j_temp * #(-3.5870588016911675e-02))));
  (*1837*) Do (AddA v_jac 296 (#3.4734585093427126e-02 * ($v_j_temp * #(-3.5870588016911675e-02))));
  (*1838*) Do (AddA v_jac 304 (#5.1811440626858740e-01 * ($v_j_temp * #(-3.5870588016911675e-02))));
  (*1839*) Do (AddA v_jac 302 (#(-4.8337982117516021e-01) * ($v_j_temp * #(-3.5870588016911675e-02))));
  (*1840*) Do (AddA v_jac 316 (#(-6.7137187823466643e-02) * ($v_j_temp * #(-7.1851123102163683e-02))));
  (*1841*) Do (AddA v_jac 317 (#3.3568593911733322e-02 * ($v_j_temp * #(-7.1851123102163683e-02))));
  (*1842*) Do (AddA v_jac 325 (#5.0072203416473837e-01 * ($v_j_temp * #(-7.1851123102163683e-02))));
  (*1843*) Do (AddA v_jac 323 (#(-4.6715344025300498e-01) * ($v_j_temp * #(-7.1851123102163683e-02))));
  (*1844*) Do (AddA v_jac 337 (#(-6.4956683299918619e-02) * ($v_j_temp * #(-1.0783165818741525e-01))));
  (*1845*) Do (AddA v_jac 338 (#3.2478341649959309e-02 * ($v_j_temp * #(-1.0783165818741525e-01))));
  (*1846*) Do (AddA v_jac 346 (#4.8445941286747340e-01 * ($v_j_temp * #(-1.0783165818741525e-01))));
  (*1847*) Do (AddA v_jac 344 (#(-4.5198107121751407e-01) * ($v_j_temp * #(-1.0783165818741525e-01))));
  (*1848*) Do (AddA v_jac 358 (#(-7.1857747410685777e-02) * ($v_j_temp * #(-1.4378791924458678e-03))));
  (*1849*) Do (AddA v_jac 359 (#3.5928873705342888e-02 * ($v_j_temp * #(-1.4378791924458678e-03))));
  (*1850*) Do (AddA v_jac 367 (#5.3592887370534292e-01 * ($v_j_temp * #(-1.4378791924458678e-03))));
  (*1851*) Do (AddA v_jac 365 (#(-5.0000000000000000e-01) * ($v_j_temp * #(-1.4378791924458678e-03))));
  (*1852*) Do (AddA v_jac 379 (#(-6.9365522319754180e-02) * ($v_j_temp * #(-3.7418414277697654e-02))));
  (*1853*) Do (AddA v_jac 380 (#3.4682761159877090e-02 * ($v_j_temp * #(-3.7418414277697654e-02))));
  (*1854*) Do (AddA v_jac 388 (#5.1734138057993861e-01 * ($v_j_temp * #(-3.7418414277697654e-02))));
  (*1855*) Do (AddA v_jac 386 (#(-4.8265861942006144e-01) * ($v_j_temp * #(-3.7418414277697654e-02))));
  (*1856*) Do (AddA v_jac 400 (#(-6.7040376938333812e-02) * ($v_j_temp * #(-7.3398949362949439e-02))));
  (*1857*) Do (AddA v_jac 401 (#3.3520188469166906e-02 * ($v_j_temp * #(-7.3398949362949439e-02))));
  (*1858*) Do (AddA v_jac 409 (#5.0000000000000000e-01 * ($v_j_temp * #(-7.3398949362949439e-02))));
  (*1859*) Do (AddA v_jac 407 (#(-4.6647981153083307e-01) * ($v_j_temp * #(-7.3398949362949439e-02))));
  (*1860*) Do (AddA v_jac 421 (#(-5.0462601381796340e-02) * ($v_j_temp * #(-4.2602775520927771e-01))));
  (*1861*) Do (AddA v_jac 422 (#2.5231300690898170e-02 * ($v_j_temp * #(-4.2602775520927771e-01))));
  (*1862*) Do (AddA v_jac 430 (#3.7635976769800739e-01 * ($v_j_temp * #(-4.2602775520927771e-01))));
  (*1863*) Do (AddA v_jac 428 (#(-3.5112846700710920e-01) * ($v_j_temp * #(-4.2602775520927771e-01))))]);
([
  (*1866*) Do (Asn v_j_temp 0 (#1.0 / $v_T * (v_fwd_rates.[59] * #(-1.0) - v_rev_rates.[59] * (#(-1.0) + (- $v_T) * (v_dBdT.[1] + v_dBdT.[16] - v_dBdT.[7] - v_dBdT.[9]))) * $v_rho_inv));
  (*1867*) Do (AddA v_jac 17 ($v_j_temp * #2.8053759999999997e+01));
  (*1868*) Do (AddA v_jac 10 ((- $v_j_temp) * #1.5034820000000000e+01));
  (*1869*) Do (AddA v_jac 2 ($v_j_temp * #1.0079400000000001e+00));
  (*1870*) Do (AddA v_jac 8 ((- $v_j_temp) * #1.4026879999999998e+01))],
[
  (*1873*) If ($v_T) (#1000.0)
    [Asn v_Kc 0 (#1.4606195170000000e+00 + #(-9.7706759000000032e-01) * $v_logT + $v_T * (#(-5.2751731811473334e-03) + $v_T * (#8.0956520380006795e-06 + $v_T * (#(-4.8697324598082650e-09) + #1.1378581384536135e-12 * $v_T))) - #(-3.1885603070000001e+04) / $v_T)]
    [Asn v_Kc 0 (#(-4.1688709639999981e+00) + #(-6.2370768000000032e-01) * $v_logT + $v_T * (#1.8745608934578513e-03 + $v_T * (#(-3.8578161397396770e-07) + $v_T * (#5.1363752688737331e-11 + #(-3.0108932200901318e-15) * $v_T))) - #(-3.2625642260000001e+04) / $v_T)];
  (*1879*) Do (Asn v_Kc 0 ((Exp $v_Kc)));
  (*1880*) Do (Asn v_j_temp 0 ((- $v_mw_avg) * $v_rho_inv * (#2.0 * v_fwd_rates.[59] - #2.0 * v_rev_rates.[59])));
  (*1881*) Do (Asn v_kf 0 (#40000000000.0));
  (*1882*) Do (Asn v_kr 0 ($v_kf / $v_Kc));
  (*1883*) Do (AddA v_jac 38 (#1.3916383911740775e+01 * ($v_j_temp * #9.2803892982949643e-01)));
  (*1884*) Do (AddA v_jac 31 (#(-7.4581919558703884e+00) * ($v_j_temp * #9.2803892982949643e-01)));
  (*1885*) Do (AddA v_jac 23 (#5.0000000000000000e-01 * ($v_j_temp * #9.2803892982949643e-01)));
  (*1886*) Do (AddA v_jac 29 (#(-6.9581919558703875e+00) * ($v_j_temp * #9.2803892982949643e-01)));
  (*1887*) Do (AddA v_jac 59 (#2.7832767823481550e+01 * ($v_j_temp * #9.6401946491474821e-01 - $v_kr * v_conc.[16])));
  (*1888*) Do (AddA v_jac 52 (#(-1.4916383911740777e+01) * ($v_j_temp * #9.6401946491474821e-01 - $v_kr * v_conc.[16])));
  (*1889*) Do (AddA v_jac 44 ($v_j_temp * #9.6401946491474821e-01 - $v_kr * v_conc.[16]));
  (*1890*) Do (AddA v_jac 50 (#(-1.3916383911740775e+01) * ($v_j_temp * #9.6401946491474821e-01 - $v_kr * v_conc.[16])));
  (*1891*) Do (AddA v_jac 80 (#1.7534257534657549e+00 * ($v_j_temp * #4.2886781649405936e-01)));
  (*1892*) Do (AddA v_jac 73 (#(-9.3971148918084424e-01) * ($v_j_temp * #4.2886781649405936e-01)));
  (*1893*) Do (AddA v_jac 65 (#6.2998612447966798e-02 * ($v_j_temp * #4.2886781649405936e-01)));
  (*1894*) Do (AddA v_jac 71 (#(-8.7671287673287746e-01) * ($v_j_temp * #4.2886781649405936e-01)));
  (*1895*) Do (AddA v_jac 101 (#8.7671287673287746e-01 * ($v_j_temp * #(-1.4226436701188128e-01))));
  (*1896*) Do (AddA v_jac 94 (#(-4.6985574459042212e-01) * ($v_j_temp * #(-1.4226436701188128e-01))));
  (*1897*) Do (AddA v_jac 86 (#3.1499306223983399e-02 * ($v_j_temp * #(-1.4226436701188128e-01))));
  (*1898*) Do (AddA v_jac 92 (#(-4.3835643836643873e-01) * ($v_j_temp * #(-1.4226436701188128e-01))));
  (*1899*) Do (AddA v_jac 122 (#1.6495089767124076e+00 * ($v_j_temp * #3.9288728140880758e-01)));
  (*1900*) Do (AddA v_jac 115 (#(-8.8401948805633335e-01) * ($v_j_temp * #3.9288728140880758e-01)));
  (*1901*) Do (AddA v_jac 107 (#5.9264999700129481e-02 * ($v_j_temp * #3.9288728140880758e-01)));
  (*1902*) Do (AddA v_jac 113 (#(-8.2475448835620380e-01) * ($v_j_temp * #3.9288728140880758e-01)));
  (*1903*) Do (AddA v_jac 143 (#1.5572203151990975e+00 * ($v_j_temp * #3.5690674632355568e-01)));
  (*1904*) Do (AddA v_jac 136 (#(-8.3455932963573143e-01) * ($v_j_temp * #3.5690674632355568e-01)));
  (*1905*) Do (AddA v_jac 128 (#5.5949172036182618e-02 * ($v_j_temp * #3.5690674632355568e-01)));
  (*1906*) Do (AddA v_jac 134 (#(-7.7861015759954877e-01) * ($v_j_temp * #3.5690674632355568e-01)));
  (*1907*) Do (AddA v_jac 164 (#8.4994034551730935e-01 * ($v_j_temp * #(-1.7824490209713328e-01))));
  (*1908*) Do (AddA v_jac 157 (#(-4.5550757208982162e-01) * ($v_j_temp * #(-1.7824490209713328e-01))));
  (*1909*) Do (AddA v_jac 149 (#3.0537399331166910e-02 * ($v_j_temp * #(-1.7824490209713328e-01))));
  (*1910*) Do (AddA v_jac 155 (#(-4.2497017275865467e-01) * ($v_j_temp * #(-1.7824490209713328e-01))));
  (*1911*) Do (AddA v_jac 185 (#2.0000000000000000e+00 * ($v_j_temp * #4.9928106040377707e-01 + $v_kf * v_conc.[9])));
  (*1912*) Do (AddA v_jac 178 (#(-1.0718577474106858e+00) * ($v_j_temp * #4.9928106040377707e-01 + $v_kf * v_conc.[9])));
  (*1913*) Do (AddA v_jac 170 (#7.1857747410685777e-02 * ($v_j_temp * #4.9928106040377707e-01 + $v_kf * v_conc.[9])));
  (*1914*) Do (AddA v_jac 176 ((- ($v_j_temp * #4.9928106040377707e-01 + $v_kf * v_conc.[9]))));
  (*1915*) Do (AddA v_jac 206 (#2.0000000000000000e+00 * ($v_j_temp * #4.9928106040377707e-01)));
  (*1916*) Do (AddA v_jac 199 (#(-1.0718577474106858e+00) * ($v_j_temp * #4.9928106040377707e-01)));
  (*1917*) Do (AddA v_jac 191 (#7.1857747410685777e-02 * ($v_j_temp * #4.9928106040377707e-01)));
  (*1918*) Do (AddA v_jac 197 ((- ($v_j_temp * #4.9928106040377707e-01))));
  (*1919*) Do (AddA v_jac 227 (#1.8659192461233323e+00 * ($v_j_temp * #4.6330052531852528e-01 + $v_kf * v_conc.[7])));
  (*1920*) Do (AddA v_jac 220 ((- ($v_j_temp * #4.6330052531852528e-01 + $v_kf * v_conc.[7]))));
  (*1921*) Do (AddA v_jac 212 (#6.7040376938333812e-02 * ($v_j_temp * #4.6330052531852528e-01 + $v_kf * v_conc.[7])));
  (*1922*) Do (AddA v_jac 218 (#(-9.3295962306166613e-01) * ($v_j_temp * #4.6330052531852528e-01 + $v_kf * v_conc.[7])));
  (*1923*) Do (AddA v_jac 248 (#1.7486866349680477e+00 * ($v_j_temp * #4.2731999023327338e-01)));
  (*1924*) Do (AddA v_jac 241 (#(-9.3717165874201191e-01) * ($v_j_temp * #4.2731999023327338e-01)));
  (*1925*) Do (AddA v_jac 233 (#6.2828341257988030e-02 * ($v_j_temp * #4.2731999023327338e-01)));
  (*1926*) Do (AddA v_jac 239 (#(-8.7434331748402383e-01) * ($v_j_temp * #4.2731999023327338e-01)));
  (*1927*) Do (AddA v_jac 269 (#1.0015479964584584e+00 * ($v_j_temp * #1.0994706834011048e-04)));
  (*1928*) Do (AddA v_jac 262 (#(-5.3675848970382434e-01) * ($v_j_temp * #1.0994706834011048e-04)));
  (*1929*) Do (AddA v_jac 254 (#3.5984491474595155e-02 * ($v_j_temp * #1.0994706834011048e-04)));
  (*1930*) Do (AddA v_jac 260 (#(-5.0077399822922919e-01) * ($v_j_temp * #1.0994706834011048e-04)));
  (*1931*) Do (AddA v_jac 290 (#6.3744347849797089e-01 * ($v_j_temp * #(-5.7102223643760053e-01))));
  (*1932*) Do (AddA v_jac 283 (#(-3.4162436548223352e-01) * ($v_j_temp * #(-5.7102223643760053e-01))));
  (*1933*) Do (AddA v_jac 275 (#2.2902626233248052e-02 * ($v_j_temp * #(-5.7102223643760053e-01))));
  (*1934*) Do (AddA v_jac 281 (#(-3.1872173924898545e-01) * ($v_j_temp * #(-5.7102223643760053e-01))));
  (*1935*) Do (AddA v_jac 311 (#9.6675964235032041e-01 * ($v_j_temp * #(-3.5870588016911675e-02))));
  (*1936*) Do (AddA v_jac 304 (#(-5.1811440626858740e-01) * ($v_j_temp * #(-3.5870588016911675e-02))));
  (*1937*) Do (AddA v_jac 296 (#3.4734585093427126e-02 * ($v_j_temp * #(-3.5870588016911675e-02))));
  (*1938*) Do (AddA v_jac 302 (#(-4.8337982117516021e-01) * ($v_j_temp * #(-3.5870588016911675e-02))));
  (*1939*) Do (AddA v_jac 332 (#9.3430688050600996e-01 * ($v_j_temp * #(-7.1851123102163683e-02))));
  (*1940*) Do (AddA v_jac 325 (#(-5.0072203416473837e-01) * ($v_j_temp * #(-7.1851123102163683e-02))));
  (*1941*) Do (AddA v_jac 317 (#3.3568593911733322e-02 * ($v_j_temp * #(-7.1851123102163683e-02))));
  (*1942*) Do (AddA v_jac 323 (#(-4.6715344025300498e-01) * ($v_j_temp * #(-7.1851123102163683e-02))));
  (*1943*) Do (AddA v_jac 353 (#9.0396214243502815e-01 * ($v_j_temp * #(-1.0783165818741525e-01))));
  (*1944*) Do (AddA v_jac 346 (#(-4.8445941286747340e-01) * ($v_j_temp * #(-1.0783165818741525e-01))));
  (*1945*) Do (AddA v_jac 338 (#3.2478341649959309e-02 * ($v_j_temp * #(-1.0783165818741525e-01))));
  (*1946*) Do (AddA v_jac 344 (#(-4.5198107121751407e-01) * ($v_j_temp * #(-1.0783165818741525e-01))));
  (*1947*) Do (AddA v_jac 374 ($v_j_temp * #(-1.4378791924458678e-03) - $v_kr * v_conc.[1]));
  (*1948*) Do (AddA v_jac 367 (#(-5.3592887370534292e-01) * ($v_j_temp * #(-1.4378791924458678e-03) - $v_kr * v_conc.[1])));
  (*1949*) Do (AddA v_jac 359 (#3.5928873705342888e-02 * ($v_j_temp * #(-1.4378791924458678e-03) - $v_kr * v_conc.[1])));
  (*1950*) Do (AddA v_jac 365 (#(-5.0000000000000000e-01) * ($v_j_temp * #(-1.4378791924458678e-03) - $v_kr * v_conc.[1])));
  (*1951*) Do (AddA v_jac 395 (#9.6531723884012288e-01 * ($v_j_temp * #(-3.7418414277697654e-02))));
  (*1952*) Do (AddA v_jac 388 (#(-5.1734138057993861e-01) * ($v_j_temp * #(-3.7418414277697654e-02))));
  (*1953*) Do (AddA v_jac 380 (#3.4682761159877090e-02 * ($v_j_temp * #(-3.7418414277697654e-02))));
  (*1954*) Do (AddA v_jac 386 (#(-4.8265861942006144e-01) * ($v_j_temp * #(-3.7418414277697654e-02))));
  (*1955*) Do (AddA v_jac 416 (#9.3295962306166613e-01 * ($v_j_temp * #(-7.3398949362949439e-02))));
  (*1956*) Do (AddA v_jac 409 (#(-5.0000000000000000e-01) * ($v_j_temp * #(-7.3398949362949439e-02))));
  (*1957*) Do (AddA v_jac 401 (#3.3520188469166906e-02 * ($v_j_temp * #(-7.3398949362949439e-02))));
  (*1958*) Do (AddA v_jac 407 (#(-4.6647981153083307e-01) * ($v_j_temp * #(-7.3398949362949439e-02))));
  (*1959*) Do (AddA v_jac 437 (#7.0225693401421840e-01 * ($v_j_temp * #(-4.2602775520927771e-01))));
  (*1960*) Do (AddA v_jac 430 (#(-3.7635976769800739e-01) * ($v_j_temp * #(-4.2602775520927771e-01))));
  (*1961*) Do (AddA v_jac 422 (#2.5231300690898170e-02 * ($v_j_temp * #(-4.2602775520927771e-01))));
  (*1962*) Do (AddA v_jac 428 (#(-3.5112846700710920e-01) * ($v_j_temp * #(-4.2602775520927771e-01))))]);
([
  (*1965*) Do (Asn v_j_temp 0 (#1.0 / $v_T * ((v_fwd_rates.[60] - v_rev_rates.[60]) * (#2.0000000000000000e+00 + #4.1616258013852748e+03 / $v_T) + v_fwd_rates.[60] * #(-1.0) - v_rev_rates.[60] * (#(-1.0) + (- $v_T) * (#2.0 * v_dBdT.[9] - v_dBdT.[7] - v_dBdT.[10]))) * $v_rho_inv));
  (*1966*) Do (AddA v_jac 10 ($v_j_temp * #2.0 * #1.5034820000000000e+01));
  (*1967*) Do (AddA v_jac 11 ((- $v_j_temp) * #1.6042760000000001e+01));
  (*1968*) Do (AddA v_jac 8 ((- $v_j_temp) * #1.4026879999999998e+01))],
[
  (*1971*) If ($v_T) (#1000.0)
    [Asn v_Kc 0 (#7.8532745699999982e+00 + #(-1.5653739999999998e+00) * $v_logT + $v_T * (#8.3620050785000004e-03 + $v_T * (#(-6.7524201983333343e-06) + $v_T * (#3.2152388025000001e-09 + #(-6.6345490549999999e-13) * $v_T))) - #(-2.8673948999999993e+03) / $v_T)]
    [Asn v_Kc 0 (#(-9.2708504749999996e+00) + #1.6224828150000001e+00 * $v_logT + $v_T * (#(-1.2837694399999999e-03) + $v_T * (#1.9458618333333329e-07 + $v_T * (#(-2.4311300916666661e-11) + #1.3578553950000002e-15 * $v_T))) - #(-3.2440908100000015e+03) / $v_T)];
  (*1977*) Do (Asn v_Kc 0 ((Exp $v_Kc)));
  (*1978*) Do (Asn v_j_temp 0 ((- $v_mw_avg) * $v_rho_inv * (#2.0 * v_fwd_rates.[60] - #2.0 * v_rev_rates.[60])));
  (*1979*) Do (Asn v_kf 0 ((Exp (#7.8079166289264084e+00 + #2.0 * $v_logT - #4.1616258013852748e+03 / $v_T))));
  (*1980*) Do (Asn v_kr 0 ($v_kf / $v_Kc));
  (*1981*) Do (AddA v_jac 31 (#1.4916383911740777e+01 * ($v_j_temp * #9.2803892982949643e-01)));
  (*1982*) Do (AddA v_jac 32 (#(-7.9581919558703893e+00) * ($v_j_temp * #9.2803892982949643e-01)));
  (*1983*) Do (AddA v_jac 29 (#(-6.9581919558703875e+00) * ($v_j_temp * #9.2803892982949643e-01)));
  (*1984*) Do (AddA v_jac 52 (#2.9832767823481554e+01 * ($v_j_temp * #9.6401946491474821e-01)));
  (*1985*) Do (AddA v_jac 53 (#(-1.5916383911740779e+01) * ($v_j_temp * #9.6401946491474821e-01)));
  (*1986*) Do (AddA v_jac 50 (#(-1.3916383911740775e+01) * ($v_j_temp * #9.6401946491474821e-01)));
  (*1987*) Do (AddA v_jac 73 (#1.8794229783616885e+00 * ($v_j_temp * #4.2886781649405936e-01)));
  (*1988*) Do (AddA v_jac 74 (#(-1.0027101016288111e+00) * ($v_j_temp * #4.2886781649405936e-01)));
  (*1989*) Do (AddA v_jac 71 (#(-8.7671287673287746e-01) * ($v_j_temp * #4.2886781649405936e-01)));
  (*1990*) Do (AddA v_jac 94 (#9.3971148918084424e-01 * ($v_j_temp * #(-1.4226436701188128e-01))));
  (*1991*) Do (AddA v_jac 95 (#(-5.0135505081440557e-01) * ($v_j_temp * #(-1.4226436701188128e-01))));
  (*1992*) Do (AddA v_jac 92 (#(-4.3835643836643873e-01) * ($v_j_temp * #(-1.4226436701188128e-01))));
  (*1993*) Do (AddA v_jac 115 (#1.7680389761126667e+00 * ($v_j_temp * #3.9288728140880758e-01)));
  (*1994*) Do (AddA v_jac 116 (#(-9.4328448775646290e-01) * ($v_j_temp * #3.9288728140880758e-01)));
  (*1995*) Do (AddA v_jac 113 (#(-8.2475448835620380e-01) * ($v_j_temp * #3.9288728140880758e-01)));
  (*1996*) Do (AddA v_jac 136 (#1.6691186592714629e+00 * ($v_j_temp * #3.5690674632355568e-01)));
  (*1997*) Do (AddA v_jac 137 (#(-8.9050850167191409e-01) * ($v_j_temp * #3.5690674632355568e-01)));
  (*1998*) Do (AddA v_jac 134 (#(-7.7861015759954877e-01) * ($v_j_temp * #3.5690674632355568e-01)));
  (*1999*) Do (AddA v_jac 157 (#9.1101514417964324e-01 * ($v_j_temp * #(-1.7824490209713328e-01))));
  (*2000*) Do (AddA v_jac 158 (#(-4.8604497142098857e-01) * ($v_j_temp * #(-1.7824490209713328e-01))));
  (*2001*) Do (AddA v_jac 155 (#(-4.2497017275865467e-01) * ($v_j_temp * #(-1.7824490209713328e-01))));
  (*2002*) Do (AddA v_jac 178 (#2.1437154948213717e+00 * ($v_j_temp * #4.9928106040377707e-01 + $v_kf * v_conc.[10])));
  (*2003*) Do (AddA v_jac 179 (#(-1.1437154948213717e+00) * ($v_j_temp * #4.9928106040377707e-01 + $v_kf * v_conc.[10])));
  (*2004*) Do (AddA v_jac 176 ((- ($v_j_temp * #4.9928106040377707e-01 + $v_kf * v_conc.[10]))));
  (*2005*) Do (AddA v_jac 199 (#2.1437154948213717e+00 * ($v_j_temp * #4.9928106040377707e-01)));
  (*2006*) Do (AddA v_jac 200 (#(-1.1437154948213717e+00) * ($v_j_temp * #4.9928106040377707e-01)));
  (*2007*) Do (AddA v_jac 197 ((- ($v_j_temp * #4.9928106040377707e-01))));
  (*2008*) Do (AddA v_jac 220 (#2.0000000000000000e+00 * ($v_j_temp * #4.6330052531852528e-01 - $v_kr * #2.0 * v_conc.[9])));
  (*2009*) Do (AddA v_jac 221 (#(-1.0670403769383339e+00) * ($v_j_temp * #4.6330052531852528e-01 - $v_kr * #2.0 * v_conc.[9])));
  (*2010*) Do (AddA v_jac 218 (#(-9.3295962306166613e-01) * ($v_j_temp * #4.6330052531852528e-01 - $v_kr * #2.0 * v_conc.[9])));
  (*2011*) Do (AddA v_jac 241 (#1.8743433174840238e+00 * ($v_j_temp * #4.2731999023327338e-01 + $v_kf * v_conc.[7])));
  (*2012*) Do (AddA v_jac 242 ((- ($v_j_temp * #4.2731999023327338e-01 + $v_kf * v_conc.[7]))));
  (*2013*) Do (AddA v_jac 239 (#(-8.7434331748402383e-01) * ($v_j_temp * #4.2731999023327338e-01 + $v_kf * v_conc.[7])));
  (*2014*) Do (AddA v_jac 262 (#1.0735169794076487e+00 * ($v_j_temp * #1.0994706834011048e-04)));
  (*2015*) Do (AddA v_jac 263 (#(-5.7274298117841960e-01) * ($v_j_temp * #1.0994706834011048e-04)));
  (*2016*) Do (AddA v_jac 260 (#(-5.0077399822922919e-01) * ($v_j_temp * #1.0994706834011048e-04)));
  (*2017*) Do (AddA v_jac 283 (#6.8324873096446703e-01 * ($v_j_temp * #(-5.7102223643760053e-01))));
  (*2018*) Do (AddA v_jac 284 (#(-3.6452699171548159e-01) * ($v_j_temp * #(-5.7102223643760053e-01))));
  (*2019*) Do (AddA v_jac 281 (#(-3.1872173924898545e-01) * ($v_j_temp * #(-5.7102223643760053e-01))));
  (*2020*) Do (AddA v_jac 304 (#1.0362288125371748e+00 * ($v_j_temp * #(-3.5870588016911675e-02))));
  (*2021*) Do (AddA v_jac 305 (#(-5.5284899136201460e-01) * ($v_j_temp * #(-3.5870588016911675e-02))));
  (*2022*) Do (AddA v_jac 302 (#(-4.8337982117516021e-01) * ($v_j_temp * #(-3.5870588016911675e-02))));
  (*2023*) Do (AddA v_jac 325 (#1.0014440683294767e+00 * ($v_j_temp * #(-7.1851123102163683e-02))));
  (*2024*) Do (AddA v_jac 326 (#(-5.3429062807647176e-01) * ($v_j_temp * #(-7.1851123102163683e-02))));
  (*2025*) Do (AddA v_jac 323 (#(-4.6715344025300498e-01) * ($v_j_temp * #(-7.1851123102163683e-02))));
  (*2026*) Do (AddA v_jac 346 (#9.6891882573494681e-01 * ($v_j_temp * #(-1.0783165818741525e-01))));
  (*2027*) Do (AddA v_jac 347 (#(-5.1693775451743273e-01) * ($v_j_temp * #(-1.0783165818741525e-01))));
  (*2028*) Do (AddA v_jac 344 (#(-4.5198107121751407e-01) * ($v_j_temp * #(-1.0783165818741525e-01))));
  (*2029*) Do (AddA v_jac 367 (#1.0718577474106858e+00 * ($v_j_temp * #(-1.4378791924458678e-03))));
  (*2030*) Do (AddA v_jac 368 (#(-5.7185774741068585e-01) * ($v_j_temp * #(-1.4378791924458678e-03))));
  (*2031*) Do (AddA v_jac 365 (#(-5.0000000000000000e-01) * ($v_j_temp * #(-1.4378791924458678e-03))));
  (*2032*) Do (AddA v_jac 388 (#1.0346827611598772e+00 * ($v_j_temp * #(-3.7418414277697654e-02))));
  (*2033*) Do (AddA v_jac 389 (#(-5.5202414173981573e-01) * ($v_j_temp * #(-3.7418414277697654e-02))));
  (*2034*) Do (AddA v_jac 386 (#(-4.8265861942006144e-01) * ($v_j_temp * #(-3.7418414277697654e-02))));
  (*2035*) Do (AddA v_jac 409 ($v_j_temp * #(-7.3398949362949439e-02)));
  (*2036*) Do (AddA v_jac 410 (#(-5.3352018846916693e-01) * ($v_j_temp * #(-7.3398949362949439e-02))));
  (*2037*) Do (AddA v_jac 407 (#(-4.6647981153083307e-01) * ($v_j_temp * #(-7.3398949362949439e-02))));
  (*2038*) Do (AddA v_jac 430 (#7.5271953539601477e-01 * ($v_j_temp * #(-4.2602775520927771e-01))));
  (*2039*) Do (AddA v_jac 431 (#(-4.0159106838890563e-01) * ($v_j_temp * #(-4.2602775520927771e-01))));
  (*2040*) Do (AddA v_jac 428 (#(-3.5112846700710920e-01) * ($v_j_temp * #(-4.2602775520927771e-01))))]);
([
  (*2043*) Do (Asn v_j_temp 0 (#1.0 / $v_T * ((v_fwd_rates.[61] - v_rev_rates.[61]) * (#3.0193173891549759e+02 / $v_T) + v_fwd_rates.[61] * #(-1.0) - v_rev_rates.[61] * (#(-1.0) + (- $v_T) * (v_dBdT.[7] - v_dBdT.[8]))) * $v_rho_inv));
  (*2044*) Do (AddA v_jac 9 ((- $v_j_temp) * #1.4026879999999998e+01));
  (*2045*) Do (AddA v_jac 8 ($v_j_temp * #1.4026879999999998e+01))],
[
  (*2048*) If ($v_T) (#1000.0)
    [Asn v_Kc 0 (#2.7675762569999995e+00 + #(-4.3592543999999966e-01) * $v_logT + $v_T * (#1.6677431665000002e-03 + $v_T * (#(-9.0634396499999983e-07) + $v_T * (#2.3643735666666669e-10 + #(-1.2786509000000005e-14) * $v_T))) - #(-4.4927762000000002e+03) / $v_T)]
    [Asn v_Kc 0 (#(-3.0373711599999997e+00) + #5.8206271000000021e-01 * $v_logT + $v_T * (#(-4.9974672500000005e-04) + $v_T * (#1.0049558333333332e-07 + $v_T * (#(-1.3143870916666673e-11) + #7.5994398999999995e-16 * $v_T))) - #(-4.6623957000000009e+03) / $v_T)];
  (*2054*) Do (Asn v_Kc 0 ((Exp $v_Kc)));
  (*2055*) Do (Asn v_j_temp 0 ((- $v_mw_avg) * $v_rho_inv * (#2.0 * v_fwd_rates.[61] - #2.0 * v_rev_rates.[61])));
  (*2056*) Do (Asn v_kf 0 ((Exp (#2.3431316038048621e+01 - #3.0193173891549759e+02 / $v_T))));
  (*2057*) Do (Asn v_kr 0 ($v_kf / $v_Kc));
  (*2058*) Do (AddA v_jac 30 (#(-6.9581919558703875e+00) * ($v_j_temp * #9.2803892982949643e-01 - #7.1961070170503627e-02 * ($v_kf * v_conc.[8] - $v_kr * v_conc.[7]))));
  (*2059*) Do (AddA v_jac 29 (#6.9581919558703875e+00 * ($v_j_temp * #9.2803892982949643e-01 - #7.1961070170503627e-02 * ($v_kf * v_conc.[8] - $v_kr * v_conc.[7]))));
  (*2060*) Do (AddA v_jac 51 (#(-1.3916383911740775e+01) * ($v_j_temp * #9.6401946491474821e-01 - #3.5980535085251814e-02 * ($v_kf * v_conc.[8] - $v_kr * v_conc.[7]))));
  (*2061*) Do (AddA v_jac 50 (#1.3916383911740775e+01 * ($v_j_temp * #9.6401946491474821e-01 - #3.5980535085251814e-02 * ($v_kf * v_conc.[8] - $v_kr * v_conc.[7]))));
  (*2062*) Do (AddA v_jac 72 (#(-8.7671287673287746e-01) * ($v_j_temp * #4.2886781649405936e-01 - #5.7113218350594064e-01 * ($v_kf * v_conc.[8] - $v_kr * v_conc.[7]))));
  (*2063*) Do (AddA v_jac 71 (#8.7671287673287746e-01 * ($v_j_temp * #4.2886781649405936e-01 - #5.7113218350594064e-01 * ($v_kf * v_conc.[8] - $v_kr * v_conc.[7]))));
  (*2064*) Do (AddA v_jac 93 (#(-4.3835643836643873e-01) * ($v_j_temp * #(-1.4226436701188128e-01) - #1.1422643670118813e+00 * ($v_kf * v_conc.[8] - $v_kr * v_conc.[7]))));
  (*2065*) Do (AddA v_jac 92 (#4.3835643836643873e-01 * ($v_j_temp * #(-1.4226436701188128e-01) - #1.1422643670118813e+00 * ($v_kf * v_conc.[8] - $v_kr * v_conc.[7]))));
  (*2066*) Do (AddA v_jac 114 (#(-8.2475448835620380e-01) * ($v_j_temp * #3.9288728140880758e-01 - #6.0711271859119242e-01 * ($v_kf * v_conc.[8] - $v_kr * v_conc.[7]))));
  (*2067*) Do (AddA v_jac 113 (#8.2475448835620380e-01 * ($v_j_temp * #3.9288728140880758e-01 - #6.0711271859119242e-01 * ($v_kf * v_conc.[8] - $v_kr * v_conc.[7]))));
  (*2068*) Do (AddA v_jac 135 (#(-7.7861015759954877e-01) * ($v_j_temp * #3.5690674632355568e-01 - #6.4309325367644432e-01 * ($v_kf * v_conc.[8] - $v_kr * v_conc.[7]))));
  (*2069*) Do (AddA v_jac 134 (#7.7861015759954877e-01 * ($v_j_temp * #3.5690674632355568e-01 - #6.4309325367644432e-01 * ($v_kf * v_conc.[8] - $v_kr * v_conc.[7]))));
  (*2070*) Do (AddA v_jac 156 (#(-4.2497017275865467e-01) * ($v_j_temp * #(-1.7824490209713328e-01) - #1.1782449020971333e+00 * ($v_kf * v_conc.[8] - $v_kr * v_conc.[7]))));
  (*2071*) Do (AddA v_jac 155 (#4.2497017275865467e-01 * ($v_j_temp * #(-1.7824490209713328e-01) - #1.1782449020971333e+00 * ($v_kf * v_conc.[8] - $v_kr * v_conc.[7]))));
  (*2072*) Do (AddA v_jac 177 ((- ($v_j_temp * #4.9928106040377707e-01 - $v_kr * v_conc.[20] - #5.0071893959622293e-01 * ($v_kf * v_conc.[8] - $v_kr * v_conc.[7])))));
  (*2073*) Do (AddA v_jac 176 ($v_j_temp * #4.9928106040377707e-01 - $v_kr * v_conc.[20] - #5.0071893959622293e-01 * ($v_kf * v_conc.[8] - $v_kr * v_conc.[7])));
  (*2074*) Do (AddA v_jac 198 ((- ($v_j_temp * #4.9928106040377707e-01 + $v_kf * v_conc.[20] - #5.0071893959622293e-01 * ($v_kf * v_conc.[8] - $v_kr * v_conc.[7])))));
  (*2075*) Do (AddA v_jac 197 ($v_j_temp * #4.9928106040377707e-01 + $v_kf * v_conc.[20] - #5.0071893959622293e-01 * ($v_kf * v_conc.[8] - $v_kr * v_conc.[7])));
  (*2076*) Do (AddA v_jac 219 (#(-9.3295962306166613e-01) * ($v_j_temp * #4.6330052531852528e-01 - #5.3669947468147472e-01 * ($v_kf * v_conc.[8] - $v_kr * v_conc.[7]))));
  (*2077*) Do (AddA v_jac 218 (#9.3295962306166613e-01 * ($v_j_temp * #4.6330052531852528e-01 - #5.3669947468147472e-01 * ($v_kf * v_conc.[8] - $v_kr * v_conc.[7]))));
  (*2078*) Do (AddA v_jac 240 (#(-8.7434331748402383e-01) * ($v_j_temp * #4.2731999023327338e-01 - #5.7268000976672662e-01 * ($v_kf * v_conc.[8] - $v_kr * v_conc.[7]))));
  (*2079*) Do (AddA v_jac 239 (#8.7434331748402383e-01 * ($v_j_temp * #4.2731999023327338e-01 - #5.7268000976672662e-01 * ($v_kf * v_conc.[8] - $v_kr * v_conc.[7]))));
  (*2080*) Do (AddA v_jac 261 (#(-5.0077399822922919e-01) * ($v_j_temp * #1.0994706834011048e-04 - #9.9989005293165989e-01 * ($v_kf * v_conc.[8] - $v_kr * v_conc.[7]))));
  (*2081*) Do (AddA v_jac 260 (#5.0077399822922919e-01 * ($v_j_temp * #1.0994706834011048e-04 - #9.9989005293165989e-01 * ($v_kf * v_conc.[8] - $v_kr * v_conc.[7]))));
  (*2082*) Do (AddA v_jac 282 (#(-3.1872173924898545e-01) * ($v_j_temp * #(-5.7102223643760053e-01) - #1.5710222364376005e+00 * ($v_kf * v_conc.[8] - $v_kr * v_conc.[7]))));
  (*2083*) Do (AddA v_jac 281 (#3.1872173924898545e-01 * ($v_j_temp * #(-5.7102223643760053e-01) - #1.5710222364376005e+00 * ($v_kf * v_conc.[8] - $v_kr * v_conc.[7]))));
  (*2084*) Do (AddA v_jac 303 (#(-4.8337982117516021e-01) * ($v_j_temp * #(-3.5870588016911675e-02) - #1.0358705880169117e+00 * ($v_kf * v_conc.[8] - $v_kr * v_conc.[7]))));
  (*2085*) Do (AddA v_jac 302 (#4.8337982117516021e-01 * ($v_j_temp * #(-3.5870588016911675e-02) - #1.0358705880169117e+00 * ($v_kf * v_conc.[8] - $v_kr * v_conc.[7]))));
  (*2086*) Do (AddA v_jac 324 (#(-4.6715344025300498e-01) * ($v_j_temp * #(-7.1851123102163683e-02) - #1.0718511231021637e+00 * ($v_kf * v_conc.[8] - $v_kr * v_conc.[7]))));
  (*2087*) Do (AddA v_jac 323 (#4.6715344025300498e-01 * ($v_j_temp * #(-7.1851123102163683e-02) - #1.0718511231021637e+00 * ($v_kf * v_conc.[8] - $v_kr * v_conc.[7]))));
  (*2088*) Do (AddA v_jac 345 (#(-4.5198107121751407e-01) * ($v_j_temp * #(-1.0783165818741525e-01) - #1.1078316581874152e+00 * ($v_kf * v_conc.[8] - $v_kr * v_conc.[7]))));
  (*2089*) Do (AddA v_jac 344 (#4.5198107121751407e-01 * ($v_j_temp * #(-1.0783165818741525e-01) - #1.1078316581874152e+00 * ($v_kf * v_conc.[8] - $v_kr * v_conc.[7]))));
  (*2090*) Do (AddA v_jac 366 (#(-5.0000000000000000e-01) * ($v_j_temp * #(-1.4378791924458678e-03) - #1.0014378791924459e+00 * ($v_kf * v_conc.[8] - $v_kr * v_conc.[7]))));
  (*2091*) Do (AddA v_jac 365 (#5.0000000000000000e-01 * ($v_j_temp * #(-1.4378791924458678e-03) - #1.0014378791924459e+00 * ($v_kf * v_conc.[8] - $v_kr * v_conc.[7]))));
  (*2092*) Do (AddA v_jac 387 (#(-4.8265861942006144e-01) * ($v_j_temp * #(-3.7418414277697654e-02) - #1.0374184142776977e+00 * ($v_kf * v_conc.[8] - $v_kr * v_conc.[7]))));
  (*2093*) Do (AddA v_jac 386 (#4.8265861942006144e-01 * ($v_j_temp * #(-3.7418414277697654e-02) - #1.0374184142776977e+00 * ($v_kf * v_conc.[8] - $v_kr * v_conc.[7]))));
  (*2094*) Do (AddA v_jac 408 (#(-4.6647981153083307e-01) * ($v_j_temp * #(-7.3398949362949439e-02) - #1.0733989493629494e+00 * ($v_kf * v_conc.[8] - $v_kr * v_conc.[7]))));
  (*2095*) Do (AddA v_jac 407 (#4.6647981153083307e-01 * ($v_j_temp * #(-7.3398949362949439e-02) - #1.0733989493629494e+00 * ($v_kf * v_conc.[8] - $v_kr * v_conc.[7]))));
  (*2096*) Do (AddA v_jac 429 (#(-3.5112846700710920e-01) * ($v_j_temp * #(-4.2602775520927771e-01) - #1.4260277552092777e+00 * ($v_kf * v_conc.[8] - $v_kr * v_conc.[7]))));
  (*2097*) Do (AddA v_jac 428 (#3.5112846700710920e-01 * ($v_j_temp * #(-4.2602775520927771e-01) - #1.4260277552092777e+00 * ($v_kf * v_conc.[8] - $v_kr * v_conc.[7]))))]);
([
  (*2100*) Do (Asn v_j_temp 0 (#1.0 / $v_T * ((v_fwd_rates.[62] - v_rev_rates.[62]) * (#3.0193173891549759e+02 / $v_T) + v_fwd_rates.[62] * #(-1.0) - v_rev_rates.[62] * (#(-1.0) + (- $v_T) * (v_dBdT.[7] - v_dBdT.[8]))) * $v_rho_inv));
  (*2101*) Do (AddA v_jac 9 ((- $v_j_temp) * #1.4026879999999998e+01));
  (*2102*) Do (AddA v_jac 8 ($v_j_temp * #1.4026879999999998e+01))],
[
  (*2105*) If ($v_T) (#1000.0)
    [Asn v_Kc 0 (#2.7675762569999995e+00 + #(-4.3592543999999966e-01) * $v_logT + $v_T * (#1.6677431665000002e-03 + $v_T * (#(-9.0634396499999983e-07) + $v_T * (#2.3643735666666669e-10 + #(-1.2786509000000005e-14) * $v_T))) - #(-4.4927762000000002e+03) / $v_T)]
    [Asn v_Kc 0 (#(-3.0373711599999997e+00) + #5.8206271000000021e-01 * $v_logT + $v_T * (#(-4.9974672500000005e-04) + $v_T * (#1.0049558333333332e-07 + $v_T * (#(-1.3143870916666673e-11) + #7.5994398999999995e-16 * $v_T))) - #(-4.6623957000000009e+03) / $v_T)];
  (*2111*) Do (Asn v_Kc 0 ((Exp $v_Kc)));
  (*2112*) Do (Asn v_j_temp 0 ((- $v_mw_avg) * $v_rho_inv * (#2.0 * v_fwd_rates.[62] - #2.0 * v_rev_rates.[62])));
  (*2113*) Do (Asn v_kf 0 ((Exp (#2.2920490414282632e+01 - #3.0193173891549759e+02 / $v_T))));
  (*2114*) Do (Asn v_kr 0 ($v_kf / $v_Kc));
  (*2115*) Do (AddA v_jac 30 (#(-6.9581919558703875e+00) * ($v_j_temp * #9.2803892982949643e-01)));
  (*2116*) Do (AddA v_jac 29 (#6.9581919558703875e+00 * ($v_j_temp * #9.2803892982949643e-01)));
  (*2117*) Do (AddA v_jac 51 (#(-1.3916383911740775e+01) * ($v_j_temp * #9.6401946491474821e-01)));
  (*2118*) Do (AddA v_jac 50 (#1.3916383911740775e+01 * ($v_j_temp * #9.6401946491474821e-01)));
  (*2119*) Do (AddA v_jac 72 (#(-8.7671287673287746e-01) * ($v_j_temp * #4.2886781649405936e-01)));
  (*2120*) Do (AddA v_jac 71 (#8.7671287673287746e-01 * ($v_j_temp * #4.2886781649405936e-01)));
  (*2121*) Do (AddA v_jac 93 (#(-4.3835643836643873e-01) * ($v_j_temp * #(-1.4226436701188128e-01))));
  (*2122*) Do (AddA v_jac 92 (#4.3835643836643873e-01 * ($v_j_temp * #(-1.4226436701188128e-01))));
  (*2123*) Do (AddA v_jac 114 (#(-8.2475448835620380e-01) * ($v_j_temp * #3.9288728140880758e-01)));
  (*2124*) Do (AddA v_jac 113 (#8.2475448835620380e-01 * ($v_j_temp * #3.9288728140880758e-01)));
  (*2125*) Do (AddA v_jac 135 (#(-7.7861015759954877e-01) * ($v_j_temp * #3.5690674632355568e-01)));
  (*2126*) Do (AddA v_jac 134 (#7.7861015759954877e-01 * ($v_j_temp * #3.5690674632355568e-01)));
  (*2127*) Do (AddA v_jac 156 (#(-4.2497017275865467e-01) * ($v_j_temp * #(-1.7824490209713328e-01))));
  (*2128*) Do (AddA v_jac 155 (#4.2497017275865467e-01 * ($v_j_temp * #(-1.7824490209713328e-01))));
  (*2129*) Do (AddA v_jac 177 ((- ($v_j_temp * #4.9928106040377707e-01 - $v_kr * v_conc.[19]))));
  (*2130*) Do (AddA v_jac 176 ($v_j_temp * #4.9928106040377707e-01 - $v_kr * v_conc.[19]));
  (*2131*) Do (AddA v_jac 198 ((- ($v_j_temp * #4.9928106040377707e-01 + $v_kf * v_conc.[19]))));
  (*2132*) Do (AddA v_jac 197 ($v_j_temp * #4.9928106040377707e-01 + $v_kf * v_conc.[19]));
  (*2133*) Do (AddA v_jac 219 (#(-9.3295962306166613e-01) * ($v_j_temp * #4.6330052531852528e-01)));
  (*2134*) Do (AddA v_jac 218 (#9.3295962306166613e-01 * ($v_j_temp * #4.6330052531852528e-01)));
  (*2135*) Do (AddA v_jac 240 (#(-8.7434331748402383e-01) * ($v_j_temp * #4.2731999023327338e-01)));
  (*2136*) Do (AddA v_jac 239 (#8.7434331748402383e-01 * ($v_j_temp * #4.2731999023327338e-01)));
  (*2137*) Do (AddA v_jac 261 (#(-5.0077399822922919e-01) * ($v_j_temp * #1.0994706834011048e-04)));
  (*2138*) Do (AddA v_jac 260 (#5.0077399822922919e-01 * ($v_j_temp * #1.0994706834011048e-04)));
  (*2139*) Do (AddA v_jac 282 (#(-3.1872173924898545e-01) * ($v_j_temp * #(-5.7102223643760053e-01))));
  (*2140*) Do (AddA v_jac 281 (#3.1872173924898545e-01 * ($v_j_temp * #(-5.7102223643760053e-01))));
  (*2141*) Do (AddA v_jac 303 (#(-4.8337982117516021e-01) * ($v_j_temp * #(-3.5870588016911675e-02))));
  (*2142*) Do (AddA v_jac 302 (#4.8337982117516021e-01 * ($v_j_temp * #(-3.5870588016911675e-02))));
  (*2143*) Do (AddA v_jac 324 (#(-4.6715344025300498e-01) * ($v_j_temp * #(-7.1851123102163683e-02))));
  (*2144*) Do (AddA v_jac 323 (#4.6715344025300498e-01 * ($v_j_temp * #(-7.1851123102163683e-02))));
  (*2145*) Do (AddA v_jac 345 (#(-4.5198107121751407e-01) * ($v_j_temp * #(-1.0783165818741525e-01))));
  (*2146*) Do (AddA v_jac 344 (#4.5198107121751407e-01 * ($v_j_temp * #(-1.0783165818741525e-01))));
  (*2147*) Do (AddA v_jac 366 (#(-5.0000000000000000e-01) * ($v_j_temp * #(-1.4378791924458678e-03))));
  (*2148*) Do (AddA v_jac 365 (#5.0000000000000000e-01 * ($v_j_temp * #(-1.4378791924458678e-03))));
  (*2149*) Do (AddA v_jac 387 (#(-4.8265861942006144e-01) * ($v_j_temp * #(-3.7418414277697654e-02))));
  (*2150*) Do (AddA v_jac 386 (#4.8265861942006144e-01 * ($v_j_temp * #(-3.7418414277697654e-02))));
  (*2151*) Do (AddA v_jac 408 (#(-4.6647981153083307e-01) * ($v_j_temp * #(-7.3398949362949439e-02))));
  (*2152*) Do (AddA v_jac 407 (#4.6647981153083307e-01 * ($v_j_temp * #(-7.3398949362949439e-02))));
  (*2153*) Do (AddA v_jac 429 (#(-3.5112846700710920e-01) * ($v_j_temp * #(-4.2602775520927771e-01) + $v_kf * v_conc.[8] - $v_kr * v_conc.[7])));
  (*2154*) Do (AddA v_jac 428 (#3.5112846700710920e-01 * ($v_j_temp * #(-4.2602775520927771e-01) + $v_kf * v_conc.[8] - $v_kr * v_conc.[7])))]);
([
  (*2157*) Do (Asn v_j_temp 0 (#1.0 / $v_T * (v_fwd_rates.[63] * #(-1.0) - v_rev_rates.[63] * (#(-2.0) + (- $v_T) * (v_dBdT.[1] + v_dBdT.[11] + v_dBdT.[4] - v_dBdT.[8] - v_dBdT.[3]))) * $v_rho_inv));
  (*2158*) Do (AddA v_jac 9 ((- $v_j_temp) * #1.4026879999999998e+01));
  (*2159*) Do (AddA v_jac 2 ($v_j_temp * #1.0079400000000001e+00));
  (*2160*) Do (AddA v_jac 4 ((- $v_j_temp) * #3.1998799999999999e+01));
  (*2161*) Do (AddA v_jac 5 ($v_j_temp * #1.7007339999999999e+01));
  (*2162*) Do (AddA v_jac 12 ($v_j_temp * #2.8010399999999997e+01))],
[
  (*2165*) If ($v_T) (#1000.0)
    [Asn v_Kc 0 (#(-2.0212442240000006e+00) + #1.0904884300000006e+00 * $v_logT + $v_T * (#1.1758385753526666e-03 + $v_T * (#(-2.0742519119993197e-06) + $v_T * (#1.1162772880250679e-09 + #(-2.3635927699638658e-13) * $v_T))) - #(-3.4688218280000001e+04) / $v_T)]
    [Asn v_Kc 0 (#(-4.9645291039999995e+00) + #1.7334970300000001e+00 * $v_logT + $v_T * (#(-1.7640083935421484e-03) + $v_T * (#3.1626093535936580e-07 + $v_T * (#(-4.0439142277929365e-11) + #2.3509941199098679e-15 * $v_T))) - #(-3.4657097480000004e+04) / $v_T)];
  (*2171*) Do (Asn v_Kc 0 (#1.2186597134166982e+01 * (Exp $v_Kc)));
  (*2172*) Do (Asn v_j_temp 0 ((- $v_mw_avg) * $v_rho_inv * (#2.0 * v_fwd_rates.[63] - #3.0 * v_rev_rates.[63])));
  (*2173*) Do (Asn v_kf 0 (#28000000000.0));
  (*2174*) Do (Asn v_kr 0 ($v_kf / $v_Kc));
  (*2175*) Do (AddA v_jac 30 (#(-6.9581919558703875e+00) * ($v_j_temp * #9.2803892982949643e-01)));
  (*2176*) Do (AddA v_jac 23 (#5.0000000000000000e-01 * ($v_j_temp * #9.2803892982949643e-01)));
  (*2177*) Do (AddA v_jac 25 (#(-1.5873365478103855e+01) * ($v_j_temp * #9.2803892982949643e-01)));
  (*2178*) Do (AddA v_jac 26 (#8.4366827390519266e+00 * ($v_j_temp * #9.2803892982949643e-01)));
  (*2179*) Do (AddA v_jac 33 (#1.3894874694922315e+01 * ($v_j_temp * #9.2803892982949643e-01)));
  (*2180*) Do (AddA v_jac 51 (#(-1.3916383911740775e+01) * ($v_j_temp * #9.6401946491474821e-01 - $v_kr * v_conc.[11] * v_conc.[4])));
  (*2181*) Do (AddA v_jac 44 ($v_j_temp * #9.6401946491474821e-01 - $v_kr * v_conc.[11] * v_conc.[4]));
  (*2182*) Do (AddA v_jac 46 (#(-3.1746730956207710e+01) * ($v_j_temp * #9.6401946491474821e-01 - $v_kr * v_conc.[11] * v_conc.[4])));
  (*2183*) Do (AddA v_jac 47 (#1.6873365478103853e+01 * ($v_j_temp * #9.6401946491474821e-01 - $v_kr * v_conc.[11] * v_conc.[4])));
  (*2184*) Do (AddA v_jac 54 (#2.7789749389844630e+01 * ($v_j_temp * #9.6401946491474821e-01 - $v_kr * v_conc.[11] * v_conc.[4])));
  (*2185*) Do (AddA v_jac 72 (#(-8.7671287673287746e-01) * ($v_j_temp * #4.2886781649405936e-01)));
  (*2186*) Do (AddA v_jac 65 (#6.2998612447966798e-02 * ($v_j_temp * #4.2886781649405936e-01)));
  (*2187*) Do (AddA v_jac 67 (#(-2.0000000000000000e+00) * ($v_j_temp * #4.2886781649405936e-01)));
  (*2188*) Do (AddA v_jac 68 (#1.0629986124479667e+00 * ($v_j_temp * #4.2886781649405936e-01)));
  (*2189*) Do (AddA v_jac 75 (#1.7507156518369438e+00 * ($v_j_temp * #4.2886781649405936e-01)));
  (*2190*) Do (AddA v_jac 93 (#(-4.3835643836643873e-01) * ($v_j_temp * #(-1.4226436701188128e-01) + $v_kf * v_conc.[8])));
  (*2191*) Do (AddA v_jac 86 (#3.1499306223983399e-02 * ($v_j_temp * #(-1.4226436701188128e-01) + $v_kf * v_conc.[8])));
  (*2192*) Do (AddA v_jac 88 ((- ($v_j_temp * #(-1.4226436701188128e-01) + $v_kf * v_conc.[8]))));
  (*2193*) Do (AddA v_jac 89 (#5.3149930622398334e-01 * ($v_j_temp * #(-1.4226436701188128e-01) + $v_kf * v_conc.[8])));
  (*2194*) Do (AddA v_jac 96 (#8.7535782591847189e-01 * ($v_j_temp * #(-1.4226436701188128e-01) + $v_kf * v_conc.[8])));
  (*2195*) Do (AddA v_jac 114 (#(-8.2475448835620380e-01) * ($v_j_temp * #3.9288728140880758e-01 - $v_kr * v_conc.[1] * v_conc.[11])));
  (*2196*) Do (AddA v_jac 107 (#5.9264999700129481e-02 * ($v_j_temp * #3.9288728140880758e-01 - $v_kr * v_conc.[1] * v_conc.[11])));
  (*2197*) Do (AddA v_jac 109 (#(-1.8814700005997411e+00) * ($v_j_temp * #3.9288728140880758e-01 - $v_kr * v_conc.[1] * v_conc.[11])));
  (*2198*) Do (AddA v_jac 110 ($v_j_temp * #3.9288728140880758e-01 - $v_kr * v_conc.[1] * v_conc.[11]));
  (*2199*) Do (AddA v_jac 117 (#1.6469594892558153e+00 * ($v_j_temp * #3.9288728140880758e-01 - $v_kr * v_conc.[1] * v_conc.[11])));
  (*2200*) Do (AddA v_jac 135 (#(-7.7861015759954877e-01) * ($v_j_temp * #3.5690674632355568e-01)));
  (*2201*) Do (AddA v_jac 128 (#5.5949172036182618e-02 * ($v_j_temp * #3.5690674632355568e-01)));
  (*2202*) Do (AddA v_jac 130 (#(-1.7762033118552694e+00) * ($v_j_temp * #3.5690674632355568e-01)));
  (*2203*) Do (AddA v_jac 131 (#9.4405082796381734e-01 * ($v_j_temp * #3.5690674632355568e-01)));
  (*2204*) Do (AddA v_jac 138 (#1.5548134694548181e+00 * ($v_j_temp * #3.5690674632355568e-01)));
  (*2205*) Do (AddA v_jac 156 (#(-4.2497017275865467e-01) * ($v_j_temp * #(-1.7824490209713328e-01))));
  (*2206*) Do (AddA v_jac 149 (#3.0537399331166910e-02 * ($v_j_temp * #(-1.7824490209713328e-01))));
  (*2207*) Do (AddA v_jac 151 (#(-9.6946260066883305e-01) * ($v_j_temp * #(-1.7824490209713328e-01))));
  (*2208*) Do (AddA v_jac 152 (#5.1526869966558342e-01 * ($v_j_temp * #(-1.7824490209713328e-01))));
  (*2209*) Do (AddA v_jac 159 (#8.4862667443073736e-01 * ($v_j_temp * #(-1.7824490209713328e-01))));
  (*2210*) Do (AddA v_jac 177 ((- ($v_j_temp * #4.9928106040377707e-01))));
  (*2211*) Do (AddA v_jac 170 (#7.1857747410685777e-02 * ($v_j_temp * #4.9928106040377707e-01)));
  (*2212*) Do (AddA v_jac 172 (#(-2.2812485741661725e+00) * ($v_j_temp * #4.9928106040377707e-01)));
  (*2213*) Do (AddA v_jac 173 (#1.2124820344937721e+00 * ($v_j_temp * #4.9928106040377707e-01)));
  (*2214*) Do (AddA v_jac 180 (#1.9969087922617146e+00 * ($v_j_temp * #4.9928106040377707e-01)));
  (*2215*) Do (AddA v_jac 198 ((- ($v_j_temp * #4.9928106040377707e-01 + $v_kf * v_conc.[3]))));
  (*2216*) Do (AddA v_jac 191 (#7.1857747410685777e-02 * ($v_j_temp * #4.9928106040377707e-01 + $v_kf * v_conc.[3])));
  (*2217*) Do (AddA v_jac 193 (#(-2.2812485741661725e+00) * ($v_j_temp * #4.9928106040377707e-01 + $v_kf * v_conc.[3])));
  (*2218*) Do (AddA v_jac 194 (#1.2124820344937721e+00 * ($v_j_temp * #4.9928106040377707e-01 + $v_kf * v_conc.[3])));
  (*2219*) Do (AddA v_jac 201 (#1.9969087922617146e+00 * ($v_j_temp * #4.9928106040377707e-01 + $v_kf * v_conc.[3])));
  (*2220*) Do (AddA v_jac 219 (#(-9.3295962306166613e-01) * ($v_j_temp * #4.6330052531852528e-01)));
  (*2221*) Do (AddA v_jac 212 (#6.7040376938333812e-02 * ($v_j_temp * #4.6330052531852528e-01)));
  (*2222*) Do (AddA v_jac 214 (#(-2.1283128098640356e+00) * ($v_j_temp * #4.6330052531852528e-01)));
  (*2223*) Do (AddA v_jac 215 (#1.1311967818703517e+00 * ($v_j_temp * #4.6330052531852528e-01)));
  (*2224*) Do (AddA v_jac 222 (#1.8630352741170162e+00 * ($v_j_temp * #4.6330052531852528e-01)));
  (*2225*) Do (AddA v_jac 240 (#(-8.7434331748402383e-01) * ($v_j_temp * #4.2731999023327338e-01)));
  (*2226*) Do (AddA v_jac 233 (#6.2828341257988030e-02 * ($v_j_temp * #4.2731999023327338e-01)));
  (*2227*) Do (AddA v_jac 235 (#(-1.9945944463421503e+00) * ($v_j_temp * #4.2731999023327338e-01)));
  (*2228*) Do (AddA v_jac 236 (#1.0601255644290632e+00 * ($v_j_temp * #4.2731999023327338e-01)));
  (*2229*) Do (AddA v_jac 243 (#1.7459838581391229e+00 * ($v_j_temp * #4.2731999023327338e-01)));
  (*2230*) Do (AddA v_jac 261 (#(-5.0077399822922919e-01) * ($v_j_temp * #1.0994706834011048e-04 - $v_kr * v_conc.[1] * v_conc.[4])));
  (*2231*) Do (AddA v_jac 254 (#3.5984491474595155e-02 * ($v_j_temp * #1.0994706834011048e-04 - $v_kr * v_conc.[1] * v_conc.[4])));
  (*2232*) Do (AddA v_jac 256 (#(-1.1423899694399224e+00) * ($v_j_temp * #1.0994706834011048e-04 - $v_kr * v_conc.[1] * v_conc.[4])));
  (*2233*) Do (AddA v_jac 257 (#6.0717947619455637e-01 * ($v_j_temp * #1.0994706834011048e-04 - $v_kr * v_conc.[1] * v_conc.[4])));
  (*2234*) Do (AddA v_jac 264 ($v_j_temp * #1.0994706834011048e-04 - $v_kr * v_conc.[1] * v_conc.[4]));
  (*2235*) Do (AddA v_jac 282 (#(-3.1872173924898545e-01) * ($v_j_temp * #(-5.7102223643760053e-01))));
  (*2236*) Do (AddA v_jac 275 (#2.2902626233248052e-02 * ($v_j_temp * #(-5.7102223643760053e-01))));
  (*2237*) Do (AddA v_jac 277 (#(-7.2708351321751064e-01) * ($v_j_temp * #(-5.7102223643760053e-01))));
  (*2238*) Do (AddA v_jac 278 (#3.8644438284200339e-01 * ($v_j_temp * #(-5.7102223643760053e-01))));
  (*2239*) Do (AddA v_jac 285 (#6.3645824339124468e-01 * ($v_j_temp * #(-5.7102223643760053e-01))));
  (*2240*) Do (AddA v_jac 303 (#(-4.8337982117516021e-01) * ($v_j_temp * #(-3.5870588016911675e-02))));
  (*2241*) Do (AddA v_jac 296 (#3.4734585093427126e-02 * ($v_j_temp * #(-3.5870588016911675e-02))));
  (*2242*) Do (AddA v_jac 298 (#(-1.1027095278365338e+00) * ($v_j_temp * #(-3.5870588016911675e-02))));
  (*2243*) Do (AddA v_jac 299 (#5.8608934901169396e-01 * ($v_j_temp * #(-3.5870588016911675e-02))));
  (*2244*) Do (AddA v_jac 306 (#9.6526541490657281e-01 * ($v_j_temp * #(-3.5870588016911675e-02))));
  (*2245*) Do (AddA v_jac 324 (#(-4.6715344025300498e-01) * ($v_j_temp * #(-7.1851123102163683e-02))));
  (*2246*) Do (AddA v_jac 317 (#3.3568593911733322e-02 * ($v_j_temp * #(-7.1851123102163683e-02))));
  (*2247*) Do (AddA v_jac 319 (#(-1.0656931194939898e+00) * ($v_j_temp * #(-7.1851123102163683e-02))));
  (*2248*) Do (AddA v_jac 320 (#5.6641515365872830e-01 * ($v_j_temp * #(-7.1851123102163683e-02))));
  (*2249*) Do (AddA v_jac 327 (#9.3286281217653322e-01 * ($v_j_temp * #(-7.1851123102163683e-02))));
  (*2250*) Do (AddA v_jac 345 (#(-4.5198107121751407e-01) * ($v_j_temp * #(-1.0783165818741525e-01))));
  (*2251*) Do (AddA v_jac 338 (#3.2478341649959309e-02 * ($v_j_temp * #(-1.0783165818741525e-01))));
  (*2252*) Do (AddA v_jac 340 (#(-1.0310811742650532e+00) * ($v_j_temp * #(-1.0783165818741525e-01))));
  (*2253*) Do (AddA v_jac 341 (#5.4801892878248593e-01 * ($v_j_temp * #(-1.0783165818741525e-01))));
  (*2254*) Do (AddA v_jac 348 (#9.0256497505012201e-01 * ($v_j_temp * #(-1.0783165818741525e-01))));
  (*2255*) Do (AddA v_jac 366 (#(-5.0000000000000000e-01) * ($v_j_temp * #(-1.4378791924458678e-03))));
  (*2256*) Do (AddA v_jac 359 (#3.5928873705342888e-02 * ($v_j_temp * #(-1.4378791924458678e-03))));
  (*2257*) Do (AddA v_jac 361 (#(-1.1406242870830863e+00) * ($v_j_temp * #(-1.4378791924458678e-03))));
  (*2258*) Do (AddA v_jac 362 (#6.0624101724688606e-01 * ($v_j_temp * #(-1.4378791924458678e-03))));
  (*2259*) Do (AddA v_jac 369 (#9.9845439613085729e-01 * ($v_j_temp * #(-1.4378791924458678e-03))));
  (*2260*) Do (AddA v_jac 387 (#(-4.8265861942006144e-01) * ($v_j_temp * #(-3.7418414277697654e-02))));
  (*2261*) Do (AddA v_jac 380 (#3.4682761159877090e-02 * ($v_j_temp * #(-3.7418414277697654e-02))));
  (*2262*) Do (AddA v_jac 382 (#(-1.1010642873610286e+00) * ($v_j_temp * #(-3.7418414277697654e-02))));
  (*2263*) Do (AddA v_jac 383 (#5.8521490484039129e-01 * ($v_j_temp * #(-3.7418414277697654e-02))));
  (*2264*) Do (AddA v_jac 390 (#9.6382524078082144e-01 * ($v_j_temp * #(-3.7418414277697654e-02))));
  (*2265*) Do (AddA v_jac 408 (#(-4.6647981153083307e-01) * ($v_j_temp * #(-7.3398949362949439e-02))));
  (*2266*) Do (AddA v_jac 401 (#3.3520188469166906e-02 * ($v_j_temp * #(-7.3398949362949439e-02))));
  (*2267*) Do (AddA v_jac 403 (#(-1.0641564049320178e+00) * ($v_j_temp * #(-7.3398949362949439e-02))));
  (*2268*) Do (AddA v_jac 404 (#5.6559839093517583e-01 * ($v_j_temp * #(-7.3398949362949439e-02))));
  (*2269*) Do (AddA v_jac 411 (#9.3151763705850810e-01 * ($v_j_temp * #(-7.3398949362949439e-02))));
  (*2270*) Do (AddA v_jac 429 (#(-3.5112846700710920e-01) * ($v_j_temp * #(-4.2602775520927771e-01))));
  (*2271*) Do (AddA v_jac 422 (#2.5231300690898170e-02 * ($v_j_temp * #(-4.2602775520927771e-01))));
  (*2272*) Do (AddA v_jac 424 (#(-8.0101131470912179e-01) * ($v_j_temp * #(-4.2602775520927771e-01))));
  (*2273*) Do (AddA v_jac 425 (#4.2573695804545908e-01 * ($v_j_temp * #(-4.2602775520927771e-01))));
  (*2274*) Do (AddA v_jac 432 (#7.0117152297987373e-01 * ($v_j_temp * #(-4.2602775520927771e-01))))]);
([
  (*2277*) Do (Asn v_j_temp 0 (#1.0 / $v_T * (v_fwd_rates.[64] * #(-1.0) - v_rev_rates.[64] * (#(-1.0) + (- $v_T) * (v_dBdT.[5] + v_dBdT.[11] - v_dBdT.[8] - v_dBdT.[3]))) * $v_rho_inv));
  (*2278*) Do (AddA v_jac 9 ((- $v_j_temp) * #1.4026879999999998e+01));
  (*2279*) Do (AddA v_jac 12 ($v_j_temp * #2.8010399999999997e+01));
  (*2280*) Do (AddA v_jac 4 ((- $v_j_temp) * #3.1998799999999999e+01));
  (*2281*) Do (AddA v_jac 6 ($v_j_temp * #1.8015280000000001e+01))],
[
  (*2284*) If ($v_T) (#1000.0)
    [Asn v_Kc 0 (#(-2.6293251000000240e-02) + #(-2.0288643999999945e-01) * $v_logT + $v_T * (#1.3582802849999998e-03 + $v_T * (#(-1.7571746283333328e-06) + $v_T * (#9.8237418033333352e-10 + #(-2.1596610345000000e-13) * $v_T))) - #(-9.4070685440000001e+04) / $v_T)]
    [Asn v_Kc 0 (#(-1.4688770000000000e+00) + #1.7460184000000023e-01 * $v_logT + $v_T * (#(-9.4976421999999985e-04) + $v_T * (#2.6783130833333332e-07 + $v_T * (#(-4.1197127833333337e-11) + #2.6049371749999998e-15 * $v_T))) - #(-9.3993711479999998e+04) / $v_T)];
  (*2290*) Do (Asn v_Kc 0 ((Exp $v_Kc)));
  (*2291*) Do (Asn v_j_temp 0 ((- $v_mw_avg) * $v_rho_inv * (#2.0 * v_fwd_rates.[64] - #2.0 * v_rev_rates.[64])));
  (*2292*) Do (Asn v_kf 0 (#12000000000.0));
  (*2293*) Do (Asn v_kr 0 ($v_kf / $v_Kc));
  (*2294*) Do (AddA v_jac 30 (#(-6.9581919558703875e+00) * ($v_j_temp * #9.2803892982949643e-01)));
  (*2295*) Do (AddA v_jac 33 (#1.3894874694922315e+01 * ($v_j_temp * #9.2803892982949643e-01)));
  (*2296*) Do (AddA v_jac 25 (#(-1.5873365478103855e+01) * ($v_j_temp * #9.2803892982949643e-01)));
  (*2297*) Do (AddA v_jac 27 (#8.9366827390519283e+00 * ($v_j_temp * #9.2803892982949643e-01)));
  (*2298*) Do (AddA v_jac 51 (#(-1.3916383911740775e+01) * ($v_j_temp * #9.6401946491474821e-01)));
  (*2299*) Do (AddA v_jac 54 (#2.7789749389844630e+01 * ($v_j_temp * #9.6401946491474821e-01)));
  (*2300*) Do (AddA v_jac 46 (#(-3.1746730956207710e+01) * ($v_j_temp * #9.6401946491474821e-01)));
  (*2301*) Do (AddA v_jac 48 (#1.7873365478103857e+01 * ($v_j_temp * #9.6401946491474821e-01)));
  (*2302*) Do (AddA v_jac 72 (#(-8.7671287673287746e-01) * ($v_j_temp * #4.2886781649405936e-01)));
  (*2303*) Do (AddA v_jac 75 (#1.7507156518369438e+00 * ($v_j_temp * #4.2886781649405936e-01)));
  (*2304*) Do (AddA v_jac 67 (#(-2.0000000000000000e+00) * ($v_j_temp * #4.2886781649405936e-01)));
  (*2305*) Do (AddA v_jac 69 (#1.1259972248959336e+00 * ($v_j_temp * #4.2886781649405936e-01)));
  (*2306*) Do (AddA v_jac 93 (#(-4.3835643836643873e-01) * ($v_j_temp * #(-1.4226436701188128e-01) + $v_kf * v_conc.[8])));
  (*2307*) Do (AddA v_jac 96 (#8.7535782591847189e-01 * ($v_j_temp * #(-1.4226436701188128e-01) + $v_kf * v_conc.[8])));
  (*2308*) Do (AddA v_jac 88 ((- ($v_j_temp * #(-1.4226436701188128e-01) + $v_kf * v_conc.[8]))));
  (*2309*) Do (AddA v_jac 90 (#5.6299861244796678e-01 * ($v_j_temp * #(-1.4226436701188128e-01) + $v_kf * v_conc.[8])));
  (*2310*) Do (AddA v_jac 114 (#(-8.2475448835620380e-01) * ($v_j_temp * #3.9288728140880758e-01)));
  (*2311*) Do (AddA v_jac 117 (#1.6469594892558153e+00 * ($v_j_temp * #3.9288728140880758e-01)));
  (*2312*) Do (AddA v_jac 109 (#(-1.8814700005997411e+00) * ($v_j_temp * #3.9288728140880758e-01)));
  (*2313*) Do (AddA v_jac 111 (#1.0592649997001296e+00 * ($v_j_temp * #3.9288728140880758e-01)));
  (*2314*) Do (AddA v_jac 135 (#(-7.7861015759954877e-01) * ($v_j_temp * #3.5690674632355568e-01 - $v_kr * v_conc.[11])));
  (*2315*) Do (AddA v_jac 138 (#1.5548134694548181e+00 * ($v_j_temp * #3.5690674632355568e-01 - $v_kr * v_conc.[11])));
  (*2316*) Do (AddA v_jac 130 (#(-1.7762033118552694e+00) * ($v_j_temp * #3.5690674632355568e-01 - $v_kr * v_conc.[11])));
  (*2317*) Do (AddA v_jac 132 ($v_j_temp * #3.5690674632355568e-01 - $v_kr * v_conc.[11]));
  (*2318*) Do (AddA v_jac 156 (#(-4.2497017275865467e-01) * ($v_j_temp * #(-1.7824490209713328e-01))));
  (*2319*) Do (AddA v_jac 159 (#8.4862667443073736e-01 * ($v_j_temp * #(-1.7824490209713328e-01))));
  (*2320*) Do (AddA v_jac 151 (#(-9.6946260066883305e-01) * ($v_j_temp * #(-1.7824490209713328e-01))));
  (*2321*) Do (AddA v_jac 153 (#5.4580609899675037e-01 * ($v_j_temp * #(-1.7824490209713328e-01))));
  (*2322*) Do (AddA v_jac 177 ((- ($v_j_temp * #4.9928106040377707e-01))));
  (*2323*) Do (AddA v_jac 180 (#1.9969087922617146e+00 * ($v_j_temp * #4.9928106040377707e-01)));
  (*2324*) Do (AddA v_jac 172 (#(-2.2812485741661725e+00) * ($v_j_temp * #4.9928106040377707e-01)));
  (*2325*) Do (AddA v_jac 174 (#1.2843397819044580e+00 * ($v_j_temp * #4.9928106040377707e-01)));
  (*2326*) Do (AddA v_jac 198 ((- ($v_j_temp * #4.9928106040377707e-01 + $v_kf * v_conc.[3]))));
  (*2327*) Do (AddA v_jac 201 (#1.9969087922617146e+00 * ($v_j_temp * #4.9928106040377707e-01 + $v_kf * v_conc.[3])));
  (*2328*) Do (AddA v_jac 193 (#(-2.2812485741661725e+00) * ($v_j_temp * #4.9928106040377707e-01 + $v_kf * v_conc.[3])));
  (*2329*) Do (AddA v_jac 195 (#1.2843397819044580e+00 * ($v_j_temp * #4.9928106040377707e-01 + $v_kf * v_conc.[3])));
  (*2330*) Do (AddA v_jac 219 (#(-9.3295962306166613e-01) * ($v_j_temp * #4.6330052531852528e-01)));
  (*2331*) Do (AddA v_jac 222 (#1.8630352741170162e+00 * ($v_j_temp * #4.6330052531852528e-01)));
  (*2332*) Do (AddA v_jac 214 (#(-2.1283128098640356e+00) * ($v_j_temp * #4.6330052531852528e-01)));
  (*2333*) Do (AddA v_jac 216 (#1.1982371588086855e+00 * ($v_j_temp * #4.6330052531852528e-01)));
  (*2334*) Do (AddA v_jac 240 (#(-8.7434331748402383e-01) * ($v_j_temp * #4.2731999023327338e-01)));
  (*2335*) Do (AddA v_jac 243 (#1.7459838581391229e+00 * ($v_j_temp * #4.2731999023327338e-01)));
  (*2336*) Do (AddA v_jac 235 (#(-1.9945944463421503e+00) * ($v_j_temp * #4.2731999023327338e-01)));
  (*2337*) Do (AddA v_jac 237 (#1.1229539056870512e+00 * ($v_j_temp * #4.2731999023327338e-01)));
  (*2338*) Do (AddA v_jac 261 (#(-5.0077399822922919e-01) * ($v_j_temp * #1.0994706834011048e-04 - $v_kr * v_conc.[5])));
  (*2339*) Do (AddA v_jac 264 ($v_j_temp * #1.0994706834011048e-04 - $v_kr * v_conc.[5]));
  (*2340*) Do (AddA v_jac 256 (#(-1.1423899694399224e+00) * ($v_j_temp * #1.0994706834011048e-04 - $v_kr * v_conc.[5])));
  (*2341*) Do (AddA v_jac 258 (#6.4316396766915152e-01 * ($v_j_temp * #1.0994706834011048e-04 - $v_kr * v_conc.[5])));
  (*2342*) Do (AddA v_jac 282 (#(-3.1872173924898545e-01) * ($v_j_temp * #(-5.7102223643760053e-01))));
  (*2343*) Do (AddA v_jac 285 (#6.3645824339124468e-01 * ($v_j_temp * #(-5.7102223643760053e-01))));
  (*2344*) Do (AddA v_jac 277 (#(-7.2708351321751064e-01) * ($v_j_temp * #(-5.7102223643760053e-01))));
  (*2345*) Do (AddA v_jac 279 (#4.0934700907525146e-01 * ($v_j_temp * #(-5.7102223643760053e-01))));
  (*2346*) Do (AddA v_jac 303 (#(-4.8337982117516021e-01) * ($v_j_temp * #(-3.5870588016911675e-02))));
  (*2347*) Do (AddA v_jac 306 (#9.6526541490657281e-01 * ($v_j_temp * #(-3.5870588016911675e-02))));
  (*2348*) Do (AddA v_jac 298 (#(-1.1027095278365338e+00) * ($v_j_temp * #(-3.5870588016911675e-02))));
  (*2349*) Do (AddA v_jac 300 (#6.2082393410512116e-01 * ($v_j_temp * #(-3.5870588016911675e-02))));
  (*2350*) Do (AddA v_jac 324 (#(-4.6715344025300498e-01) * ($v_j_temp * #(-7.1851123102163683e-02))));
  (*2351*) Do (AddA v_jac 327 (#9.3286281217653322e-01 * ($v_j_temp * #(-7.1851123102163683e-02))));
  (*2352*) Do (AddA v_jac 319 (#(-1.0656931194939898e+00) * ($v_j_temp * #(-7.1851123102163683e-02))));
  (*2353*) Do (AddA v_jac 321 (#5.9998374757046158e-01 * ($v_j_temp * #(-7.1851123102163683e-02))));
  (*2354*) Do (AddA v_jac 345 (#(-4.5198107121751407e-01) * ($v_j_temp * #(-1.0783165818741525e-01))));
  (*2355*) Do (AddA v_jac 348 (#9.0256497505012201e-01 * ($v_j_temp * #(-1.0783165818741525e-01))));
  (*2356*) Do (AddA v_jac 340 (#(-1.0310811742650532e+00) * ($v_j_temp * #(-1.0783165818741525e-01))));
  (*2357*) Do (AddA v_jac 342 (#5.8049727043244526e-01 * ($v_j_temp * #(-1.0783165818741525e-01))));
  (*2358*) Do (AddA v_jac 366 (#(-5.0000000000000000e-01) * ($v_j_temp * #(-1.4378791924458678e-03))));
  (*2359*) Do (AddA v_jac 369 (#9.9845439613085729e-01 * ($v_j_temp * #(-1.4378791924458678e-03))));
  (*2360*) Do (AddA v_jac 361 (#(-1.1406242870830863e+00) * ($v_j_temp * #(-1.4378791924458678e-03))));
  (*2361*) Do (AddA v_jac 363 (#6.4216989095222898e-01 * ($v_j_temp * #(-1.4378791924458678e-03))));
  (*2362*) Do (AddA v_jac 387 (#(-4.8265861942006144e-01) * ($v_j_temp * #(-3.7418414277697654e-02))));
  (*2363*) Do (AddA v_jac 390 (#9.6382524078082144e-01 * ($v_j_temp * #(-3.7418414277697654e-02))));
  (*2364*) Do (AddA v_jac 382 (#(-1.1010642873610286e+00) * ($v_j_temp * #(-3.7418414277697654e-02))));
  (*2365*) Do (AddA v_jac 384 (#6.1989766600026841e-01 * ($v_j_temp * #(-3.7418414277697654e-02))));
  (*2366*) Do (AddA v_jac 408 (#(-4.6647981153083307e-01) * ($v_j_temp * #(-7.3398949362949439e-02))));
  (*2367*) Do (AddA v_jac 411 (#9.3151763705850810e-01 * ($v_j_temp * #(-7.3398949362949439e-02))));
  (*2368*) Do (AddA v_jac 403 (#(-1.0641564049320178e+00) * ($v_j_temp * #(-7.3398949362949439e-02))));
  (*2369*) Do (AddA v_jac 405 (#5.9911857940434277e-01 * ($v_j_temp * #(-7.3398949362949439e-02))));
  (*2370*) Do (AddA v_jac 429 (#(-3.5112846700710920e-01) * ($v_j_temp * #(-4.2602775520927771e-01))));
  (*2371*) Do (AddA v_jac 432 (#7.0117152297987373e-01 * ($v_j_temp * #(-4.2602775520927771e-01))));
  (*2372*) Do (AddA v_jac 424 (#(-8.0101131470912179e-01) * ($v_j_temp * #(-4.2602775520927771e-01))));
  (*2373*) Do (AddA v_jac 426 (#4.5096825873635726e-01 * ($v_j_temp * #(-4.2602775520927771e-01))))]);
([
  (*2376*) Do (Asn v_j_temp 0 (#1.0 / $v_T * (v_fwd_rates.[65] * #(-1.0) - v_rev_rates.[65] * (#(-1.0) + (- $v_T) * (v_dBdT.[1] + v_dBdT.[9] - v_dBdT.[0] - v_dBdT.[8]))) * $v_rho_inv));
  (*2377*) Do (AddA v_jac 1 ((- $v_j_temp) * #2.0158800000000001e+00));
  (*2378*) Do (AddA v_jac 9 ((- $v_j_temp) * #1.4026879999999998e+01));
  (*2379*) Do (AddA v_jac 10 ($v_j_temp * #1.5034820000000000e+01));
  (*2380*) Do (AddA v_jac 2 ($v_j_temp * #1.0079400000000001e+00))],
[
  (*2383*) If ($v_T) (#1000.0)
    [Asn v_Kc 0 (#1.6133350359999992e+00 + #(-3.6934482999999929e-01) * $v_logT + $v_T * (#(-1.8014774046473333e-03) + $v_T * (#2.8292345596673468e-06 + $v_T * (#(-1.6950186531415987e-09) + #3.9884137895361337e-13 * $v_T))) - #(-7.6602224270000006e+03) / $v_T)]
    [Asn v_Kc 0 (#3.4555103860000003e+00 + #(-8.4359988999999969e-01) * $v_logT + $v_T * (#1.3167082250078511e-03 + $v_T * (#(-2.4578012864063416e-07) + $v_T * (#2.9778752772070638e-11 + #(-1.6384670000901322e-15) * $v_T))) - #(-7.7265965779999970e+03) / $v_T)];
  (*2389*) Do (Asn v_Kc 0 ((Exp $v_Kc)));
  (*2390*) Do (Asn v_j_temp 0 ((- $v_mw_avg) * $v_rho_inv * (#2.0 * v_fwd_rates.[65] - #2.0 * v_rev_rates.[65])));
  (*2391*) Do (Asn v_kf 0 (#70000000000.0));
  (*2392*) Do (Asn v_kr 0 ($v_kf / $v_Kc));
  (*2393*) Do (AddA v_jac 22 ((- ($v_j_temp * #9.2803892982949643e-01 + $v_kf * v_conc.[8]))));
  (*2394*) Do (AddA v_jac 30 (#(-6.9581919558703875e+00) * ($v_j_temp * #9.2803892982949643e-01 + $v_kf * v_conc.[8])));
  (*2395*) Do (AddA v_jac 31 (#7.4581919558703884e+00 * ($v_j_temp * #9.2803892982949643e-01 + $v_kf * v_conc.[8])));
  (*2396*) Do (AddA v_jac 23 (#5.0000000000000000e-01 * ($v_j_temp * #9.2803892982949643e-01 + $v_kf * v_conc.[8])));
  (*2397*) Do (AddA v_jac 43 (#(-2.0000000000000000e+00) * ($v_j_temp * #9.6401946491474821e-01 - $v_kr * v_conc.[9])));
  (*2398*) Do (AddA v_jac 51 (#(-1.3916383911740775e+01) * ($v_j_temp * #9.6401946491474821e-01 - $v_kr * v_conc.[9])));
  (*2399*) Do (AddA v_jac 52 (#1.4916383911740777e+01 * ($v_j_temp * #9.6401946491474821e-01 - $v_kr * v_conc.[9])));
  (*2400*) Do (AddA v_jac 44 ($v_j_temp * #9.6401946491474821e-01 - $v_kr * v_conc.[9]));
  (*2401*) Do (AddA v_jac 64 (#(-1.2599722489593360e-01) * ($v_j_temp * #4.2886781649405936e-01)));
  (*2402*) Do (AddA v_jac 72 (#(-8.7671287673287746e-01) * ($v_j_temp * #4.2886781649405936e-01)));
  (*2403*) Do (AddA v_jac 73 (#9.3971148918084424e-01 * ($v_j_temp * #4.2886781649405936e-01)));
  (*2404*) Do (AddA v_jac 65 (#6.2998612447966798e-02 * ($v_j_temp * #4.2886781649405936e-01)));
  (*2405*) Do (AddA v_jac 85 (#(-6.2998612447966798e-02) * ($v_j_temp * #(-1.4226436701188128e-01))));
  (*2406*) Do (AddA v_jac 93 (#(-4.3835643836643873e-01) * ($v_j_temp * #(-1.4226436701188128e-01))));
  (*2407*) Do (AddA v_jac 94 (#4.6985574459042212e-01 * ($v_j_temp * #(-1.4226436701188128e-01))));
  (*2408*) Do (AddA v_jac 86 (#3.1499306223983399e-02 * ($v_j_temp * #(-1.4226436701188128e-01))));
  (*2409*) Do (AddA v_jac 106 (#(-1.1852999940025896e-01) * ($v_j_temp * #3.9288728140880758e-01)));
  (*2410*) Do (AddA v_jac 114 (#(-8.2475448835620380e-01) * ($v_j_temp * #3.9288728140880758e-01)));
  (*2411*) Do (AddA v_jac 115 (#8.8401948805633335e-01 * ($v_j_temp * #3.9288728140880758e-01)));
  (*2412*) Do (AddA v_jac 107 (#5.9264999700129481e-02 * ($v_j_temp * #3.9288728140880758e-01)));
  (*2413*) Do (AddA v_jac 127 (#(-1.1189834407236524e-01) * ($v_j_temp * #3.5690674632355568e-01)));
  (*2414*) Do (AddA v_jac 135 (#(-7.7861015759954877e-01) * ($v_j_temp * #3.5690674632355568e-01)));
  (*2415*) Do (AddA v_jac 136 (#8.3455932963573143e-01 * ($v_j_temp * #3.5690674632355568e-01)));
  (*2416*) Do (AddA v_jac 128 (#5.5949172036182618e-02 * ($v_j_temp * #3.5690674632355568e-01)));
  (*2417*) Do (AddA v_jac 148 (#(-6.1074798662333819e-02) * ($v_j_temp * #(-1.7824490209713328e-01))));
  (*2418*) Do (AddA v_jac 156 (#(-4.2497017275865467e-01) * ($v_j_temp * #(-1.7824490209713328e-01))));
  (*2419*) Do (AddA v_jac 157 (#4.5550757208982162e-01 * ($v_j_temp * #(-1.7824490209713328e-01))));
  (*2420*) Do (AddA v_jac 149 (#3.0537399331166910e-02 * ($v_j_temp * #(-1.7824490209713328e-01))));
  (*2421*) Do (AddA v_jac 169 (#(-1.4371549482137155e-01) * ($v_j_temp * #4.9928106040377707e-01)));
  (*2422*) Do (AddA v_jac 177 ((- ($v_j_temp * #4.9928106040377707e-01))));
  (*2423*) Do (AddA v_jac 178 (#1.0718577474106858e+00 * ($v_j_temp * #4.9928106040377707e-01)));
  (*2424*) Do (AddA v_jac 170 (#7.1857747410685777e-02 * ($v_j_temp * #4.9928106040377707e-01)));
  (*2425*) Do (AddA v_jac 190 (#(-1.4371549482137155e-01) * ($v_j_temp * #4.9928106040377707e-01 + $v_kf * v_conc.[0])));
  (*2426*) Do (AddA v_jac 198 ((- ($v_j_temp * #4.9928106040377707e-01 + $v_kf * v_conc.[0]))));
  (*2427*) Do (AddA v_jac 199 (#1.0718577474106858e+00 * ($v_j_temp * #4.9928106040377707e-01 + $v_kf * v_conc.[0])));
  (*2428*) Do (AddA v_jac 191 (#7.1857747410685777e-02 * ($v_j_temp * #4.9928106040377707e-01 + $v_kf * v_conc.[0])));
  (*2429*) Do (AddA v_jac 211 (#(-1.3408075387666762e-01) * ($v_j_temp * #4.6330052531852528e-01 - $v_kr * v_conc.[1])));
  (*2430*) Do (AddA v_jac 219 (#(-9.3295962306166613e-01) * ($v_j_temp * #4.6330052531852528e-01 - $v_kr * v_conc.[1])));
  (*2431*) Do (AddA v_jac 220 ($v_j_temp * #4.6330052531852528e-01 - $v_kr * v_conc.[1]));
  (*2432*) Do (AddA v_jac 212 (#6.7040376938333812e-02 * ($v_j_temp * #4.6330052531852528e-01 - $v_kr * v_conc.[1])));
  (*2433*) Do (AddA v_jac 232 (#(-1.2565668251597606e-01) * ($v_j_temp * #4.2731999023327338e-01)));
  (*2434*) Do (AddA v_jac 240 (#(-8.7434331748402383e-01) * ($v_j_temp * #4.2731999023327338e-01)));
  (*2435*) Do (AddA v_jac 241 (#9.3717165874201191e-01 * ($v_j_temp * #4.2731999023327338e-01)));
  (*2436*) Do (AddA v_jac 233 (#6.2828341257988030e-02 * ($v_j_temp * #4.2731999023327338e-01)));
  (*2437*) Do (AddA v_jac 253 (#(-7.1968982949190310e-02) * ($v_j_temp * #1.0994706834011048e-04)));
  (*2438*) Do (AddA v_jac 261 (#(-5.0077399822922919e-01) * ($v_j_temp * #1.0994706834011048e-04)));
  (*2439*) Do (AddA v_jac 262 (#5.3675848970382434e-01 * ($v_j_temp * #1.0994706834011048e-04)));
  (*2440*) Do (AddA v_jac 254 (#3.5984491474595155e-02 * ($v_j_temp * #1.0994706834011048e-04)));
  (*2441*) Do (AddA v_jac 274 (#(-4.5805252466496103e-02) * ($v_j_temp * #(-5.7102223643760053e-01))));
  (*2442*) Do (AddA v_jac 282 (#(-3.1872173924898545e-01) * ($v_j_temp * #(-5.7102223643760053e-01))));
  (*2443*) Do (AddA v_jac 283 (#3.4162436548223352e-01 * ($v_j_temp * #(-5.7102223643760053e-01))));
  (*2444*) Do (AddA v_jac 275 (#2.2902626233248052e-02 * ($v_j_temp * #(-5.7102223643760053e-01))));
  (*2445*) Do (AddA v_jac 295 (#(-6.9469170186854251e-02) * ($v_j_temp * #(-3.5870588016911675e-02))));
  (*2446*) Do (AddA v_jac 303 (#(-4.8337982117516021e-01) * ($v_j_temp * #(-3.5870588016911675e-02))));
  (*2447*) Do (AddA v_jac 304 (#5.1811440626858740e-01 * ($v_j_temp * #(-3.5870588016911675e-02))));
  (*2448*) Do (AddA v_jac 296 (#3.4734585093427126e-02 * ($v_j_temp * #(-3.5870588016911675e-02))));
  (*2449*) Do (AddA v_jac 316 (#(-6.7137187823466643e-02) * ($v_j_temp * #(-7.1851123102163683e-02))));
  (*2450*) Do (AddA v_jac 324 (#(-4.6715344025300498e-01) * ($v_j_temp * #(-7.1851123102163683e-02))));
  (*2451*) Do (AddA v_jac 325 (#5.0072203416473837e-01 * ($v_j_temp * #(-7.1851123102163683e-02))));
  (*2452*) Do (AddA v_jac 317 (#3.3568593911733322e-02 * ($v_j_temp * #(-7.1851123102163683e-02))));
  (*2453*) Do (AddA v_jac 337 (#(-6.4956683299918619e-02) * ($v_j_temp * #(-1.0783165818741525e-01))));
  (*2454*) Do (AddA v_jac 345 (#(-4.5198107121751407e-01) * ($v_j_temp * #(-1.0783165818741525e-01))));
  (*2455*) Do (AddA v_jac 346 (#4.8445941286747340e-01 * ($v_j_temp * #(-1.0783165818741525e-01))));
  (*2456*) Do (AddA v_jac 338 (#3.2478341649959309e-02 * ($v_j_temp * #(-1.0783165818741525e-01))));
  (*2457*) Do (AddA v_jac 358 (#(-7.1857747410685777e-02) * ($v_j_temp * #(-1.4378791924458678e-03))));
  (*2458*) Do (AddA v_jac 366 (#(-5.0000000000000000e-01) * ($v_j_temp * #(-1.4378791924458678e-03))));
  (*2459*) Do (AddA v_jac 367 (#5.3592887370534292e-01 * ($v_j_temp * #(-1.4378791924458678e-03))));
  (*2460*) Do (AddA v_jac 359 (#3.5928873705342888e-02 * ($v_j_temp * #(-1.4378791924458678e-03))));
  (*2461*) Do (AddA v_jac 379 (#(-6.9365522319754180e-02) * ($v_j_temp * #(-3.7418414277697654e-02))));
  (*2462*) Do (AddA v_jac 387 (#(-4.8265861942006144e-01) * ($v_j_temp * #(-3.7418414277697654e-02))));
  (*2463*) Do (AddA v_jac 388 (#5.1734138057993861e-01 * ($v_j_temp * #(-3.7418414277697654e-02))));
  (*2464*) Do (AddA v_jac 380 (#3.4682761159877090e-02 * ($v_j_temp * #(-3.7418414277697654e-02))));
  (*2465*) Do (AddA v_jac 400 (#(-6.7040376938333812e-02) * ($v_j_temp * #(-7.3398949362949439e-02))));
  (*2466*) Do (AddA v_jac 408 (#(-4.6647981153083307e-01) * ($v_j_temp * #(-7.3398949362949439e-02))));
  (*2467*) Do (AddA v_jac 409 (#5.0000000000000000e-01 * ($v_j_temp * #(-7.3398949362949439e-02))));
  (*2468*) Do (AddA v_jac 401 (#3.3520188469166906e-02 * ($v_j_temp * #(-7.3398949362949439e-02))));
  (*2469*) Do (AddA v_jac 421 (#(-5.0462601381796340e-02) * ($v_j_temp * #(-4.2602775520927771e-01))));
  (*2470*) Do (AddA v_jac 429 (#(-3.5112846700710920e-01) * ($v_j_temp * #(-4.2602775520927771e-01))));
  (*2471*) Do (AddA v_jac 430 (#3.7635976769800739e-01 * ($v_j_temp * #(-4.2602775520927771e-01))));
  (*2472*) Do (AddA v_jac 422 (#2.5231300690898170e-02 * ($v_j_temp * #(-4.2602775520927771e-01))))]);
([
  (*2475*) Do (Asn v_j_temp 0 (#1.0 / $v_T * (v_fwd_rates.[66] * #(-1.0) - v_rev_rates.[66] * (#(-1.0) + (- $v_T) * (v_dBdT.[7] - v_dBdT.[8]))) * $v_rho_inv));
  (*2476*) Do (AddA v_jac 9 ((- $v_j_temp) * #1.4026879999999998e+01));
  (*2477*) Do (AddA v_jac 8 ($v_j_temp * #1.4026879999999998e+01))],
[
  (*2480*) If ($v_T) (#1000.0)
    [Asn v_Kc 0 (#2.7675762569999995e+00 + #(-4.3592543999999966e-01) * $v_logT + $v_T * (#1.6677431665000002e-03 + $v_T * (#(-9.0634396499999983e-07) + $v_T * (#2.3643735666666669e-10 + #(-1.2786509000000005e-14) * $v_T))) - #(-4.4927762000000002e+03) / $v_T)]
    [Asn v_Kc 0 (#(-3.0373711599999997e+00) + #5.8206271000000021e-01 * $v_logT + $v_T * (#(-4.9974672500000005e-04) + $v_T * (#1.0049558333333332e-07 + $v_T * (#(-1.3143870916666673e-11) + #7.5994398999999995e-16 * $v_T))) - #(-4.6623957000000009e+03) / $v_T)];
  (*2486*) Do (Asn v_Kc 0 ((Exp $v_Kc)));
  (*2487*) Do (Asn v_j_temp 0 ((- $v_mw_avg) * $v_rho_inv * (#2.0 * v_fwd_rates.[66] - #2.0 * v_rev_rates.[66])));
  (*2488*) Do (Asn v_kf 0 (#30000000000.0));
  (*2489*) Do (Asn v_kr 0 ($v_kf / $v_Kc));
  (*2490*) Do (AddA v_jac 30 (#(-6.9581919558703875e+00) * ($v_j_temp * #9.2803892982949643e-01)));
  (*2491*) Do (AddA v_jac 29 (#6.9581919558703875e+00 * ($v_j_temp * #9.2803892982949643e-01)));
  (*2492*) Do (AddA v_jac 51 (#(-1.3916383911740775e+01) * ($v_j_temp * #9.6401946491474821e-01)));
  (*2493*) Do (AddA v_jac 50 (#1.3916383911740775e+01 * ($v_j_temp * #9.6401946491474821e-01)));
  (*2494*) Do (AddA v_jac 72 (#(-8.7671287673287746e-01) * ($v_j_temp * #4.2886781649405936e-01)));
  (*2495*) Do (AddA v_jac 71 (#8.7671287673287746e-01 * ($v_j_temp * #4.2886781649405936e-01)));
  (*2496*) Do (AddA v_jac 93 (#(-4.3835643836643873e-01) * ($v_j_temp * #(-1.4226436701188128e-01))));
  (*2497*) Do (AddA v_jac 92 (#4.3835643836643873e-01 * ($v_j_temp * #(-1.4226436701188128e-01))));
  (*2498*) Do (AddA v_jac 114 (#(-8.2475448835620380e-01) * ($v_j_temp * #3.9288728140880758e-01)));
  (*2499*) Do (AddA v_jac 113 (#8.2475448835620380e-01 * ($v_j_temp * #3.9288728140880758e-01)));
  (*2500*) Do (AddA v_jac 135 (#(-7.7861015759954877e-01) * ($v_j_temp * #3.5690674632355568e-01 + $v_kf * v_conc.[8] - $v_kr * v_conc.[7])));
  (*2501*) Do (AddA v_jac 134 (#7.7861015759954877e-01 * ($v_j_temp * #3.5690674632355568e-01 + $v_kf * v_conc.[8] - $v_kr * v_conc.[7])));
  (*2502*) Do (AddA v_jac 156 (#(-4.2497017275865467e-01) * ($v_j_temp * #(-1.7824490209713328e-01))));
  (*2503*) Do (AddA v_jac 155 (#4.2497017275865467e-01 * ($v_j_temp * #(-1.7824490209713328e-01))));
  (*2504*) Do (AddA v_jac 177 ((- ($v_j_temp * #4.9928106040377707e-01 - $v_kr * v_conc.[5]))));
  (*2505*) Do (AddA v_jac 176 ($v_j_temp * #4.9928106040377707e-01 - $v_kr * v_conc.[5]));
  (*2506*) Do (AddA v_jac 198 ((- ($v_j_temp * #4.9928106040377707e-01 + $v_kf * v_conc.[5]))));
  (*2507*) Do (AddA v_jac 197 ($v_j_temp * #4.9928106040377707e-01 + $v_kf * v_conc.[5]));
  (*2508*) Do (AddA v_jac 219 (#(-9.3295962306166613e-01) * ($v_j_temp * #4.6330052531852528e-01)));
  (*2509*) Do (AddA v_jac 218 (#9.3295962306166613e-01 * ($v_j_temp * #4.6330052531852528e-01)));
  (*2510*) Do (AddA v_jac 240 (#(-8.7434331748402383e-01) * ($v_j_temp * #4.2731999023327338e-01)));
  (*2511*) Do (AddA v_jac 239 (#8.7434331748402383e-01 * ($v_j_temp * #4.2731999023327338e-01)));
  (*2512*) Do (AddA v_jac 261 (#(-5.0077399822922919e-01) * ($v_j_temp * #1.0994706834011048e-04)));
  (*2513*) Do (AddA v_jac 260 (#5.0077399822922919e-01 * ($v_j_temp * #1.0994706834011048e-04)));
  (*2514*) Do (AddA v_jac 282 (#(-3.1872173924898545e-01) * ($v_j_temp * #(-5.7102223643760053e-01))));
  (*2515*) Do (AddA v_jac 281 (#3.1872173924898545e-01 * ($v_j_temp * #(-5.7102223643760053e-01))));
  (*2516*) Do (AddA v_jac 303 (#(-4.8337982117516021e-01) * ($v_j_temp * #(-3.5870588016911675e-02))));
  (*2517*) Do (AddA v_jac 302 (#4.8337982117516021e-01 * ($v_j_temp * #(-3.5870588016911675e-02))));
  (*2518*) Do (AddA v_jac 324 (#(-4.6715344025300498e-01) * ($v_j_temp * #(-7.1851123102163683e-02))));
  (*2519*) Do (AddA v_jac 323 (#4.6715344025300498e-01 * ($v_j_temp * #(-7.1851123102163683e-02))));
  (*2520*) Do (AddA v_jac 345 (#(-4.5198107121751407e-01) * ($v_j_temp * #(-1.0783165818741525e-01))));
  (*2521*) Do (AddA v_jac 344 (#4.5198107121751407e-01 * ($v_j_temp * #(-1.0783165818741525e-01))));
  (*2522*) Do (AddA v_jac 366 (#(-5.0000000000000000e-01) * ($v_j_temp * #(-1.4378791924458678e-03))));
  (*2523*) Do (AddA v_jac 365 (#5.0000000000000000e-01 * ($v_j_temp * #(-1.4378791924458678e-03))));
  (*2524*) Do (AddA v_jac 387 (#(-4.8265861942006144e-01) * ($v_j_temp * #(-3.7418414277697654e-02))));
  (*2525*) Do (AddA v_jac 386 (#4.8265861942006144e-01 * ($v_j_temp * #(-3.7418414277697654e-02))));
  (*2526*) Do (AddA v_jac 408 (#(-4.6647981153083307e-01) * ($v_j_temp * #(-7.3398949362949439e-02))));
  (*2527*) Do (AddA v_jac 407 (#4.6647981153083307e-01 * ($v_j_temp * #(-7.3398949362949439e-02))));
  (*2528*) Do (AddA v_jac 429 (#(-3.5112846700710920e-01) * ($v_j_temp * #(-4.2602775520927771e-01))));
  (*2529*) Do (AddA v_jac 428 (#3.5112846700710920e-01 * ($v_j_temp * #(-4.2602775520927771e-01))))]);
([
  (*2532*) Do (Asn v_j_temp 0 (#1.0 / $v_T * ((v_fwd_rates.[67] - v_rev_rates.[67]) * (#(-2.8683515196972269e+02) / $v_T) + v_fwd_rates.[67] * #(-1.0) - v_rev_rates.[67] * (#(-1.0) + (- $v_T) * (v_dBdT.[1] + v_dBdT.[16] - v_dBdT.[8] - v_dBdT.[9]))) * $v_rho_inv));
  (*2533*) Do (AddA v_jac 9 ((- $v_j_temp) * #1.4026879999999998e+01));
  (*2534*) Do (AddA v_jac 10 ((- $v_j_temp) * #1.5034820000000000e+01));
  (*2535*) Do (AddA v_jac 17 ($v_j_temp * #2.8053759999999997e+01));
  (*2536*) Do (AddA v_jac 2 ($v_j_temp * #1.0079400000000001e+00))],
[
  (*2539*) If ($v_T) (#1000.0)
    [Asn v_Kc 0 (#4.2281957739999996e+00 + #(-1.4129930300000000e+00) * $v_logT + $v_T * (#(-3.6074300146473341e-03) + $v_T * (#7.1893080730006801e-06 + $v_T * (#(-4.6332951031415987e-09) + #1.1250716294536136e-12 * $v_T))) - #(-3.6378379270000005e+04) / $v_T)]
    [Asn v_Kc 0 (#(-7.2062421239999983e+00) + #(-4.1644970000000114e-02) * $v_logT + $v_T * (#1.3748141684578508e-03 + $v_T * (#(-2.8528603064063424e-07) + $v_T * (#3.8219881772070648e-11 + #(-2.2509492300901323e-15) * $v_T))) - #(-3.7288037960000001e+04) / $v_T)];
  (*2545*) Do (Asn v_Kc 0 ((Exp $v_Kc)));
  (*2546*) Do (Asn v_j_temp 0 ((- $v_mw_avg) * $v_rho_inv * (#2.0 * v_fwd_rates.[67] - #2.0 * v_rev_rates.[67])));
  (*2547*) Do (Asn v_kf 0 ((Exp (#2.3208172486734412e+01 - #(-2.8683515196972269e+02) / $v_T))));
  (*2548*) Do (Asn v_kr 0 ($v_kf / $v_Kc));
  (*2549*) Do (AddA v_jac 30 (#(-6.9581919558703875e+00) * ($v_j_temp * #9.2803892982949643e-01)));
  (*2550*) Do (AddA v_jac 31 (#(-7.4581919558703884e+00) * ($v_j_temp * #9.2803892982949643e-01)));
  (*2551*) Do (AddA v_jac 38 (#1.3916383911740775e+01 * ($v_j_temp * #9.2803892982949643e-01)));
  (*2552*) Do (AddA v_jac 23 (#5.0000000000000000e-01 * ($v_j_temp * #9.2803892982949643e-01)));
  (*2553*) Do (AddA v_jac 51 (#(-1.3916383911740775e+01) * ($v_j_temp * #9.6401946491474821e-01 - $v_kr * v_conc.[16])));
  (*2554*) Do (AddA v_jac 52 (#(-1.4916383911740777e+01) * ($v_j_temp * #9.6401946491474821e-01 - $v_kr * v_conc.[16])));
  (*2555*) Do (AddA v_jac 59 (#2.7832767823481550e+01 * ($v_j_temp * #9.6401946491474821e-01 - $v_kr * v_conc.[16])));
  (*2556*) Do (AddA v_jac 44 ($v_j_temp * #9.6401946491474821e-01 - $v_kr * v_conc.[16]));
  (*2557*) Do (AddA v_jac 72 (#(-8.7671287673287746e-01) * ($v_j_temp * #4.2886781649405936e-01)));
  (*2558*) Do (AddA v_jac 73 (#(-9.3971148918084424e-01) * ($v_j_temp * #4.2886781649405936e-01)));
  (*2559*) Do (AddA v_jac 80 (#1.7534257534657549e+00 * ($v_j_temp * #4.2886781649405936e-01)));
  (*2560*) Do (AddA v_jac 65 (#6.2998612447966798e-02 * ($v_j_temp * #4.2886781649405936e-01)));
  (*2561*) Do (AddA v_jac 93 (#(-4.3835643836643873e-01) * ($v_j_temp * #(-1.4226436701188128e-01))));
  (*2562*) Do (AddA v_jac 94 (#(-4.6985574459042212e-01) * ($v_j_temp * #(-1.4226436701188128e-01))));
  (*2563*) Do (AddA v_jac 101 (#8.7671287673287746e-01 * ($v_j_temp * #(-1.4226436701188128e-01))));
  (*2564*) Do (AddA v_jac 86 (#3.1499306223983399e-02 * ($v_j_temp * #(-1.4226436701188128e-01))));
  (*2565*) Do (AddA v_jac 114 (#(-8.2475448835620380e-01) * ($v_j_temp * #3.9288728140880758e-01)));
  (*2566*) Do (AddA v_jac 115 (#(-8.8401948805633335e-01) * ($v_j_temp * #3.9288728140880758e-01)));
  (*2567*) Do (AddA v_jac 122 (#1.6495089767124076e+00 * ($v_j_temp * #3.9288728140880758e-01)));
  (*2568*) Do (AddA v_jac 107 (#5.9264999700129481e-02 * ($v_j_temp * #3.9288728140880758e-01)));
  (*2569*) Do (AddA v_jac 135 (#(-7.7861015759954877e-01) * ($v_j_temp * #3.5690674632355568e-01)));
  (*2570*) Do (AddA v_jac 136 (#(-8.3455932963573143e-01) * ($v_j_temp * #3.5690674632355568e-01)));
  (*2571*) Do (AddA v_jac 143 (#1.5572203151990975e+00 * ($v_j_temp * #3.5690674632355568e-01)));
  (*2572*) Do (AddA v_jac 128 (#5.5949172036182618e-02 * ($v_j_temp * #3.5690674632355568e-01)));
  (*2573*) Do (AddA v_jac 156 (#(-4.2497017275865467e-01) * ($v_j_temp * #(-1.7824490209713328e-01))));
  (*2574*) Do (AddA v_jac 157 (#(-4.5550757208982162e-01) * ($v_j_temp * #(-1.7824490209713328e-01))));
  (*2575*) Do (AddA v_jac 164 (#8.4994034551730935e-01 * ($v_j_temp * #(-1.7824490209713328e-01))));
  (*2576*) Do (AddA v_jac 149 (#3.0537399331166910e-02 * ($v_j_temp * #(-1.7824490209713328e-01))));
  (*2577*) Do (AddA v_jac 177 ((- ($v_j_temp * #4.9928106040377707e-01))));
  (*2578*) Do (AddA v_jac 178 (#(-1.0718577474106858e+00) * ($v_j_temp * #4.9928106040377707e-01)));
  (*2579*) Do (AddA v_jac 185 (#2.0000000000000000e+00 * ($v_j_temp * #4.9928106040377707e-01)));
  (*2580*) Do (AddA v_jac 170 (#7.1857747410685777e-02 * ($v_j_temp * #4.9928106040377707e-01)));
  (*2581*) Do (AddA v_jac 198 ((- ($v_j_temp * #4.9928106040377707e-01 + $v_kf * v_conc.[9]))));
  (*2582*) Do (AddA v_jac 199 (#(-1.0718577474106858e+00) * ($v_j_temp * #4.9928106040377707e-01 + $v_kf * v_conc.[9])));
  (*2583*) Do (AddA v_jac 206 (#2.0000000000000000e+00 * ($v_j_temp * #4.9928106040377707e-01 + $v_kf * v_conc.[9])));
  (*2584*) Do (AddA v_jac 191 (#7.1857747410685777e-02 * ($v_j_temp * #4.9928106040377707e-01 + $v_kf * v_conc.[9])));
  (*2585*) Do (AddA v_jac 219 (#(-9.3295962306166613e-01) * ($v_j_temp * #4.6330052531852528e-01 + $v_kf * v_conc.[8])));
  (*2586*) Do (AddA v_jac 220 ((- ($v_j_temp * #4.6330052531852528e-01 + $v_kf * v_conc.[8]))));
  (*2587*) Do (AddA v_jac 227 (#1.8659192461233323e+00 * ($v_j_temp * #4.6330052531852528e-01 + $v_kf * v_conc.[8])));
  (*2588*) Do (AddA v_jac 212 (#6.7040376938333812e-02 * ($v_j_temp * #4.6330052531852528e-01 + $v_kf * v_conc.[8])));
  (*2589*) Do (AddA v_jac 240 (#(-8.7434331748402383e-01) * ($v_j_temp * #4.2731999023327338e-01)));
  (*2590*) Do (AddA v_jac 241 (#(-9.3717165874201191e-01) * ($v_j_temp * #4.2731999023327338e-01)));
  (*2591*) Do (AddA v_jac 248 (#1.7486866349680477e+00 * ($v_j_temp * #4.2731999023327338e-01)));
  (*2592*) Do (AddA v_jac 233 (#6.2828341257988030e-02 * ($v_j_temp * #4.2731999023327338e-01)));
  (*2593*) Do (AddA v_jac 261 (#(-5.0077399822922919e-01) * ($v_j_temp * #1.0994706834011048e-04)));
  (*2594*) Do (AddA v_jac 262 (#(-5.3675848970382434e-01) * ($v_j_temp * #1.0994706834011048e-04)));
  (*2595*) Do (AddA v_jac 269 (#1.0015479964584584e+00 * ($v_j_temp * #1.0994706834011048e-04)));
  (*2596*) Do (AddA v_jac 254 (#3.5984491474595155e-02 * ($v_j_temp * #1.0994706834011048e-04)));
  (*2597*) Do (AddA v_jac 282 (#(-3.1872173924898545e-01) * ($v_j_temp * #(-5.7102223643760053e-01))));
  (*2598*) Do (AddA v_jac 283 (#(-3.4162436548223352e-01) * ($v_j_temp * #(-5.7102223643760053e-01))));
  (*2599*) Do (AddA v_jac 290 (#6.3744347849797089e-01 * ($v_j_temp * #(-5.7102223643760053e-01))));
  (*2600*) Do (AddA v_jac 275 (#2.2902626233248052e-02 * ($v_j_temp * #(-5.7102223643760053e-01))));
  (*2601*) Do (AddA v_jac 303 (#(-4.8337982117516021e-01) * ($v_j_temp * #(-3.5870588016911675e-02))));
  (*2602*) Do (AddA v_jac 304 (#(-5.1811440626858740e-01) * ($v_j_temp * #(-3.5870588016911675e-02))));
  (*2603*) Do (AddA v_jac 311 (#9.6675964235032041e-01 * ($v_j_temp * #(-3.5870588016911675e-02))));
  (*2604*) Do (AddA v_jac 296 (#3.4734585093427126e-02 * ($v_j_temp * #(-3.5870588016911675e-02))));
  (*2605*) Do (AddA v_jac 324 (#(-4.6715344025300498e-01) * ($v_j_temp * #(-7.1851123102163683e-02))));
  (*2606*) Do (AddA v_jac 325 (#(-5.0072203416473837e-01) * ($v_j_temp * #(-7.1851123102163683e-02))));
  (*2607*) Do (AddA v_jac 332 (#9.3430688050600996e-01 * ($v_j_temp * #(-7.1851123102163683e-02))));
  (*2608*) Do (AddA v_jac 317 (#3.3568593911733322e-02 * ($v_j_temp * #(-7.1851123102163683e-02))));
  (*2609*) Do (AddA v_jac 345 (#(-4.5198107121751407e-01) * ($v_j_temp * #(-1.0783165818741525e-01))));
  (*2610*) Do (AddA v_jac 346 (#(-4.8445941286747340e-01) * ($v_j_temp * #(-1.0783165818741525e-01))));
  (*2611*) Do (AddA v_jac 353 (#9.0396214243502815e-01 * ($v_j_temp * #(-1.0783165818741525e-01))));
  (*2612*) Do (AddA v_jac 338 (#3.2478341649959309e-02 * ($v_j_temp * #(-1.0783165818741525e-01))));
  (*2613*) Do (AddA v_jac 366 (#(-5.0000000000000000e-01) * ($v_j_temp * #(-1.4378791924458678e-03) - $v_kr * v_conc.[1])));
  (*2614*) Do (AddA v_jac 367 (#(-5.3592887370534292e-01) * ($v_j_temp * #(-1.4378791924458678e-03) - $v_kr * v_conc.[1])));
  (*2615*) Do (AddA v_jac 374 ($v_j_temp * #(-1.4378791924458678e-03) - $v_kr * v_conc.[1]));
  (*2616*) Do (AddA v_jac 359 (#3.5928873705342888e-02 * ($v_j_temp * #(-1.4378791924458678e-03) - $v_kr * v_conc.[1])));
  (*2617*) Do (AddA v_jac 387 (#(-4.8265861942006144e-01) * ($v_j_temp * #(-3.7418414277697654e-02))));
  (*2618*) Do (AddA v_jac 388 (#(-5.1734138057993861e-01) * ($v_j_temp * #(-3.7418414277697654e-02))));
  (*2619*) Do (AddA v_jac 395 (#9.6531723884012288e-01 * ($v_j_temp * #(-3.7418414277697654e-02))));
  (*2620*) Do (AddA v_jac 380 (#3.4682761159877090e-02 * ($v_j_temp * #(-3.7418414277697654e-02))));
  (*2621*) Do (AddA v_jac 408 (#(-4.6647981153083307e-01) * ($v_j_temp * #(-7.3398949362949439e-02))));
  (*2622*) Do (AddA v_jac 409 (#(-5.0000000000000000e-01) * ($v_j_temp * #(-7.3398949362949439e-02))));
  (*2623*) Do (AddA v_jac 416 (#9.3295962306166613e-01 * ($v_j_temp * #(-7.3398949362949439e-02))));
  (*2624*) Do (AddA v_jac 401 (#3.3520188469166906e-02 * ($v_j_temp * #(-7.3398949362949439e-02))));
  (*2625*) Do (AddA v_jac 429 (#(-3.5112846700710920e-01) * ($v_j_temp * #(-4.2602775520927771e-01))));
  (*2626*) Do (AddA v_jac 430 (#(-3.7635976769800739e-01) * ($v_j_temp * #(-4.2602775520927771e-01))));
  (*2627*) Do (AddA v_jac 437 (#7.0225693401421840e-01 * ($v_j_temp * #(-4.2602775520927771e-01))));
  (*2628*) Do (AddA v_jac 422 (#2.5231300690898170e-02 * ($v_j_temp * #(-4.2602775520927771e-01))))]);
([
  (*2631*) Do (Asn v_j_temp 0 (#1.0 / $v_T * ((v_fwd_rates.[68] - v_rev_rates.[68]) * (#(-2.8683515196972269e+02) / $v_T) + v_fwd_rates.[68] * #(-1.0) - v_rev_rates.[68] * (#(-1.0) + (- $v_T) * (#2.0 * v_dBdT.[9] - v_dBdT.[8] - v_dBdT.[10]))) * $v_rho_inv));
  (*2632*) Do (AddA v_jac 9 ((- $v_j_temp) * #1.4026879999999998e+01));
  (*2633*) Do (AddA v_jac 10 ($v_j_temp * #2.0 * #1.5034820000000000e+01));
  (*2634*) Do (AddA v_jac 11 ((- $v_j_temp) * #1.6042760000000001e+01))],
[
  (*2637*) If ($v_T) (#1000.0)
    [Asn v_Kc 0 (#1.0620850826999998e+01 + #(-2.0012994399999995e+00) * $v_logT + $v_T * (#1.0029748245000001e-02 + $v_T * (#(-7.6587641633333328e-06) + $v_T * (#3.4516761591666673e-09 + #(-6.7624141450000000e-13) * $v_T))) - #(-7.3601710999999959e+03) / $v_T)]
    [Asn v_Kc 0 (#(-1.2308221634999999e+01) + #2.2045455250000003e+00 * $v_logT + $v_T * (#(-1.7835161650000004e-03) + $v_T * (#2.9508176666666667e-07 + $v_T * (#(-3.7455171833333327e-11) + #2.1177993849999999e-15 * $v_T))) - #(-7.9064865100000025e+03) / $v_T)];
  (*2643*) Do (Asn v_Kc 0 ((Exp $v_Kc)));
  (*2644*) Do (Asn v_j_temp 0 ((- $v_mw_avg) * $v_rho_inv * (#2.0 * v_fwd_rates.[68] - #2.0 * v_rev_rates.[68])));
  (*2645*) Do (Asn v_kf 0 ((Exp (#2.3495854559186192e+01 - #(-2.8683515196972269e+02) / $v_T))));
  (*2646*) Do (Asn v_kr 0 ($v_kf / $v_Kc));
  (*2647*) Do (AddA v_jac 30 (#(-6.9581919558703875e+00) * ($v_j_temp * #9.2803892982949643e-01)));
  (*2648*) Do (AddA v_jac 31 (#1.4916383911740777e+01 * ($v_j_temp * #9.2803892982949643e-01)));
  (*2649*) Do (AddA v_jac 32 (#(-7.9581919558703893e+00) * ($v_j_temp * #9.2803892982949643e-01)));
  (*2650*) Do (AddA v_jac 51 (#(-1.3916383911740775e+01) * ($v_j_temp * #9.6401946491474821e-01)));
  (*2651*) Do (AddA v_jac 52 (#2.9832767823481554e+01 * ($v_j_temp * #9.6401946491474821e-01)));
  (*2652*) Do (AddA v_jac 53 (#(-1.5916383911740779e+01) * ($v_j_temp * #9.6401946491474821e-01)));
  (*2653*) Do (AddA v_jac 72 (#(-8.7671287673287746e-01) * ($v_j_temp * #4.2886781649405936e-01)));
  (*2654*) Do (AddA v_jac 73 (#1.8794229783616885e+00 * ($v_j_temp * #4.2886781649405936e-01)));
  (*2655*) Do (AddA v_jac 74 (#(-1.0027101016288111e+00) * ($v_j_temp * #4.2886781649405936e-01)));
  (*2656*) Do (AddA v_jac 93 (#(-4.3835643836643873e-01) * ($v_j_temp * #(-1.4226436701188128e-01))));
  (*2657*) Do (AddA v_jac 94 (#9.3971148918084424e-01 * ($v_j_temp * #(-1.4226436701188128e-01))));
  (*2658*) Do (AddA v_jac 95 (#(-5.0135505081440557e-01) * ($v_j_temp * #(-1.4226436701188128e-01))));
  (*2659*) Do (AddA v_jac 114 (#(-8.2475448835620380e-01) * ($v_j_temp * #3.9288728140880758e-01)));
  (*2660*) Do (AddA v_jac 115 (#1.7680389761126667e+00 * ($v_j_temp * #3.9288728140880758e-01)));
  (*2661*) Do (AddA v_jac 116 (#(-9.4328448775646290e-01) * ($v_j_temp * #3.9288728140880758e-01)));
  (*2662*) Do (AddA v_jac 135 (#(-7.7861015759954877e-01) * ($v_j_temp * #3.5690674632355568e-01)));
  (*2663*) Do (AddA v_jac 136 (#1.6691186592714629e+00 * ($v_j_temp * #3.5690674632355568e-01)));
  (*2664*) Do (AddA v_jac 137 (#(-8.9050850167191409e-01) * ($v_j_temp * #3.5690674632355568e-01)));
  (*2665*) Do (AddA v_jac 156 (#(-4.2497017275865467e-01) * ($v_j_temp * #(-1.7824490209713328e-01))));
  (*2666*) Do (AddA v_jac 157 (#9.1101514417964324e-01 * ($v_j_temp * #(-1.7824490209713328e-01))));
  (*2667*) Do (AddA v_jac 158 (#(-4.8604497142098857e-01) * ($v_j_temp * #(-1.7824490209713328e-01))));
  (*2668*) Do (AddA v_jac 177 ((- ($v_j_temp * #4.9928106040377707e-01))));
  (*2669*) Do (AddA v_jac 178 (#2.1437154948213717e+00 * ($v_j_temp * #4.9928106040377707e-01)));
  (*2670*) Do (AddA v_jac 179 (#(-1.1437154948213717e+00) * ($v_j_temp * #4.9928106040377707e-01)));
  (*2671*) Do (AddA v_jac 198 ((- ($v_j_temp * #4.9928106040377707e-01 + $v_kf * v_conc.[10]))));
  (*2672*) Do (AddA v_jac 199 (#2.1437154948213717e+00 * ($v_j_temp * #4.9928106040377707e-01 + $v_kf * v_conc.[10])));
  (*2673*) Do (AddA v_jac 200 (#(-1.1437154948213717e+00) * ($v_j_temp * #4.9928106040377707e-01 + $v_kf * v_conc.[10])));
  (*2674*) Do (AddA v_jac 219 (#(-9.3295962306166613e-01) * ($v_j_temp * #4.6330052531852528e-01 - $v_kr * #2.0 * v_conc.[9])));
  (*2675*) Do (AddA v_jac 220 (#2.0000000000000000e+00 * ($v_j_temp * #4.6330052531852528e-01 - $v_kr * #2.0 * v_conc.[9])));
  (*2676*) Do (AddA v_jac 221 (#(-1.0670403769383339e+00) * ($v_j_temp * #4.6330052531852528e-01 - $v_kr * #2.0 * v_conc.[9])));
  (*2677*) Do (AddA v_jac 240 (#(-8.7434331748402383e-01) * ($v_j_temp * #4.2731999023327338e-01 + $v_kf * v_conc.[8])));
  (*2678*) Do (AddA v_jac 241 (#1.8743433174840238e+00 * ($v_j_temp * #4.2731999023327338e-01 + $v_kf * v_conc.[8])));
  (*2679*) Do (AddA v_jac 242 ((- ($v_j_temp * #4.2731999023327338e-01 + $v_kf * v_conc.[8]))));
  (*2680*) Do (AddA v_jac 261 (#(-5.0077399822922919e-01) * ($v_j_temp * #1.0994706834011048e-04)));
  (*2681*) Do (AddA v_jac 262 (#1.0735169794076487e+00 * ($v_j_temp * #1.0994706834011048e-04)));
  (*2682*) Do (AddA v_jac 263 (#(-5.7274298117841960e-01) * ($v_j_temp * #1.0994706834011048e-04)));
  (*2683*) Do (AddA v_jac 282 (#(-3.1872173924898545e-01) * ($v_j_temp * #(-5.7102223643760053e-01))));
  (*2684*) Do (AddA v_jac 283 (#6.8324873096446703e-01 * ($v_j_temp * #(-5.7102223643760053e-01))));
  (*2685*) Do (AddA v_jac 284 (#(-3.6452699171548159e-01) * ($v_j_temp * #(-5.7102223643760053e-01))));
  (*2686*) Do (AddA v_jac 303 (#(-4.8337982117516021e-01) * ($v_j_temp * #(-3.5870588016911675e-02))));
  (*2687*) Do (AddA v_jac 304 (#1.0362288125371748e+00 * ($v_j_temp * #(-3.5870588016911675e-02))));
  (*2688*) Do (AddA v_jac 305 (#(-5.5284899136201460e-01) * ($v_j_temp * #(-3.5870588016911675e-02))));
  (*2689*) Do (AddA v_jac 324 (#(-4.6715344025300498e-01) * ($v_j_temp * #(-7.1851123102163683e-02))));
  (*2690*) Do (AddA v_jac 325 (#1.0014440683294767e+00 * ($v_j_temp * #(-7.1851123102163683e-02))));
  (*2691*) Do (AddA v_jac 326 (#(-5.3429062807647176e-01) * ($v_j_temp * #(-7.1851123102163683e-02))));
  (*2692*) Do (AddA v_jac 345 (#(-4.5198107121751407e-01) * ($v_j_temp * #(-1.0783165818741525e-01))));
  (*2693*) Do (AddA v_jac 346 (#9.6891882573494681e-01 * ($v_j_temp * #(-1.0783165818741525e-01))));
  (*2694*) Do (AddA v_jac 347 (#(-5.1693775451743273e-01) * ($v_j_temp * #(-1.0783165818741525e-01))));
  (*2695*) Do (AddA v_jac 366 (#(-5.0000000000000000e-01) * ($v_j_temp * #(-1.4378791924458678e-03))));
  (*2696*) Do (AddA v_jac 367 (#1.0718577474106858e+00 * ($v_j_temp * #(-1.4378791924458678e-03))));
  (*2697*) Do (AddA v_jac 368 (#(-5.7185774741068585e-01) * ($v_j_temp * #(-1.4378791924458678e-03))));
  (*2698*) Do (AddA v_jac 387 (#(-4.8265861942006144e-01) * ($v_j_temp * #(-3.7418414277697654e-02))));
  (*2699*) Do (AddA v_jac 388 (#1.0346827611598772e+00 * ($v_j_temp * #(-3.7418414277697654e-02))));
  (*2700*) Do (AddA v_jac 389 (#(-5.5202414173981573e-01) * ($v_j_temp * #(-3.7418414277697654e-02))));
  (*2701*) Do (AddA v_jac 408 (#(-4.6647981153083307e-01) * ($v_j_temp * #(-7.3398949362949439e-02))));
  (*2702*) Do (AddA v_jac 409 ($v_j_temp * #(-7.3398949362949439e-02)));
  (*2703*) Do (AddA v_jac 410 (#(-5.3352018846916693e-01) * ($v_j_temp * #(-7.3398949362949439e-02))));
  (*2704*) Do (AddA v_jac 429 (#(-3.5112846700710920e-01) * ($v_j_temp * #(-4.2602775520927771e-01))));
  (*2705*) Do (AddA v_jac 430 (#7.5271953539601477e-01 * ($v_j_temp * #(-4.2602775520927771e-01))));
  (*2706*) Do (AddA v_jac 431 (#(-4.0159106838890563e-01) * ($v_j_temp * #(-4.2602775520927771e-01))))]);
([
  (*2709*) Do (Asn v_j_temp 0 (#1.0 / $v_T * (v_fwd_rates.[69] * #(-1.0) - v_rev_rates.[69] * (#(-1.0) + (- $v_T) * (v_dBdT.[7] - v_dBdT.[8]))) * $v_rho_inv));
  (*2710*) Do (AddA v_jac 9 ((- $v_j_temp) * #1.4026879999999998e+01));
  (*2711*) Do (AddA v_jac 8 ($v_j_temp * #1.4026879999999998e+01))],
[
  (*2714*) If ($v_T) (#1000.0)
    [Asn v_Kc 0 (#2.7675762569999995e+00 + #(-4.3592543999999966e-01) * $v_logT + $v_T * (#1.6677431665000002e-03 + $v_T * (#(-9.0634396499999983e-07) + $v_T * (#2.3643735666666669e-10 + #(-1.2786509000000005e-14) * $v_T))) - #(-4.4927762000000002e+03) / $v_T)]
    [Asn v_Kc 0 (#(-3.0373711599999997e+00) + #5.8206271000000021e-01 * $v_logT + $v_T * (#(-4.9974672500000005e-04) + $v_T * (#1.0049558333333332e-07 + $v_T * (#(-1.3143870916666673e-11) + #7.5994398999999995e-16 * $v_T))) - #(-4.6623957000000009e+03) / $v_T)];
  (*2720*) Do (Asn v_Kc 0 ((Exp $v_Kc)));
  (*2721*) Do (Asn v_j_temp 0 ((- $v_mw_avg) * $v_rho_inv * (#2.0 * v_fwd_rates.[69] - #2.0 * v_rev_rates.[69])));
  (*2722*) Do (Asn v_kf 0 (#9000000000.0));
  (*2723*) Do (Asn v_kr 0 ($v_kf / $v_Kc));
  (*2724*) Do (AddA v_jac 30 (#(-6.9581919558703875e+00) * ($v_j_temp * #9.2803892982949643e-01)));
  (*2725*) Do (AddA v_jac 29 (#6.9581919558703875e+00 * ($v_j_temp * #9.2803892982949643e-01)));
  (*2726*) Do (AddA v_jac 51 (#(-1.3916383911740775e+01) * ($v_j_temp * #9.6401946491474821e-01)));
  (*2727*) Do (AddA v_jac 50 (#1.3916383911740775e+01 * ($v_j_temp * #9.6401946491474821e-01)));
  (*2728*) Do (AddA v_jac 72 (#(-8.7671287673287746e-01) * ($v_j_temp * #4.2886781649405936e-01)));
  (*2729*) Do (AddA v_jac 71 (#8.7671287673287746e-01 * ($v_j_temp * #4.2886781649405936e-01)));
  (*2730*) Do (AddA v_jac 93 (#(-4.3835643836643873e-01) * ($v_j_temp * #(-1.4226436701188128e-01))));
  (*2731*) Do (AddA v_jac 92 (#4.3835643836643873e-01 * ($v_j_temp * #(-1.4226436701188128e-01))));
  (*2732*) Do (AddA v_jac 114 (#(-8.2475448835620380e-01) * ($v_j_temp * #3.9288728140880758e-01)));
  (*2733*) Do (AddA v_jac 113 (#8.2475448835620380e-01 * ($v_j_temp * #3.9288728140880758e-01)));
  (*2734*) Do (AddA v_jac 135 (#(-7.7861015759954877e-01) * ($v_j_temp * #3.5690674632355568e-01)));
  (*2735*) Do (AddA v_jac 134 (#7.7861015759954877e-01 * ($v_j_temp * #3.5690674632355568e-01)));
  (*2736*) Do (AddA v_jac 156 (#(-4.2497017275865467e-01) * ($v_j_temp * #(-1.7824490209713328e-01))));
  (*2737*) Do (AddA v_jac 155 (#4.2497017275865467e-01 * ($v_j_temp * #(-1.7824490209713328e-01))));
  (*2738*) Do (AddA v_jac 177 ((- ($v_j_temp * #4.9928106040377707e-01 - $v_kr * v_conc.[11]))));
  (*2739*) Do (AddA v_jac 176 ($v_j_temp * #4.9928106040377707e-01 - $v_kr * v_conc.[11]));
  (*2740*) Do (AddA v_jac 198 ((- ($v_j_temp * #4.9928106040377707e-01 + $v_kf * v_conc.[11]))));
  (*2741*) Do (AddA v_jac 197 ($v_j_temp * #4.9928106040377707e-01 + $v_kf * v_conc.[11]));
  (*2742*) Do (AddA v_jac 219 (#(-9.3295962306166613e-01) * ($v_j_temp * #4.6330052531852528e-01)));
  (*2743*) Do (AddA v_jac 218 (#9.3295962306166613e-01 * ($v_j_temp * #4.6330052531852528e-01)));
  (*2744*) Do (AddA v_jac 240 (#(-8.7434331748402383e-01) * ($v_j_temp * #4.2731999023327338e-01)));
  (*2745*) Do (AddA v_jac 239 (#8.7434331748402383e-01 * ($v_j_temp * #4.2731999023327338e-01)));
  (*2746*) Do (AddA v_jac 261 (#(-5.0077399822922919e-01) * ($v_j_temp * #1.0994706834011048e-04 + $v_kf * v_conc.[8] - $v_kr * v_conc.[7])));
  (*2747*) Do (AddA v_jac 260 (#5.0077399822922919e-01 * ($v_j_temp * #1.0994706834011048e-04 + $v_kf * v_conc.[8] - $v_kr * v_conc.[7])));
  (*2748*) Do (AddA v_jac 282 (#(-3.1872173924898545e-01) * ($v_j_temp * #(-5.7102223643760053e-01))));
  (*2749*) Do (AddA v_jac 281 (#3.1872173924898545e-01 * ($v_j_temp * #(-5.7102223643760053e-01))));
  (*2750*) Do (AddA v_jac 303 (#(-4.8337982117516021e-01) * ($v_j_temp * #(-3.5870588016911675e-02))));
  (*2751*) Do (AddA v_jac 302 (#4.8337982117516021e-01 * ($v_j_temp * #(-3.5870588016911675e-02))));
  (*2752*) Do (AddA v_jac 324 (#(-4.6715344025300498e-01) * ($v_j_temp * #(-7.1851123102163683e-02))));
  (*2753*) Do (AddA v_jac 323 (#4.6715344025300498e-01 * ($v_j_temp * #(-7.1851123102163683e-02))));
  (*2754*) Do (AddA v_jac 345 (#(-4.5198107121751407e-01) * ($v_j_temp * #(-1.0783165818741525e-01))));
  (*2755*) Do (AddA v_jac 344 (#4.5198107121751407e-01 * ($v_j_temp * #(-1.0783165818741525e-01))));
  (*2756*) Do (AddA v_jac 366 (#(-5.0000000000000000e-01) * ($v_j_temp * #(-1.4378791924458678e-03))));
  (*2757*) Do (AddA v_jac 365 (#5.0000000000000000e-01 * ($v_j_temp * #(-1.4378791924458678e-03))));
  (*2758*) Do (AddA v_jac 387 (#(-4.8265861942006144e-01) * ($v_j_temp * #(-3.7418414277697654e-02))));
  (*2759*) Do (AddA v_jac 386 (#4.8265861942006144e-01 * ($v_j_temp * #(-3.7418414277697654e-02))));
  (*2760*) Do (AddA v_jac 408 (#(-4.6647981153083307e-01) * ($v_j_temp * #(-7.3398949362949439e-02))));
  (*2761*) Do (AddA v_jac 407 (#4.6647981153083307e-01 * ($v_j_temp * #(-7.3398949362949439e-02))));
  (*2762*) Do (AddA v_jac 429 (#(-3.5112846700710920e-01) * ($v_j_temp * #(-4.2602775520927771e-01))));
  (*2763*) Do (AddA v_jac 428 (#3.5112846700710920e-01 * ($v_j_temp * #(-4.2602775520927771e-01))))]);
([
  (*2766*) Do (Asn v_j_temp 0 (#1.0 / $v_T * (v_fwd_rates.[70] * #(-1.0) - v_rev_rates.[70] * (#(-1.0) + (- $v_T) * (v_dBdT.[7] - v_dBdT.[8]))) * $v_rho_inv));
  (*2767*) Do (AddA v_jac 9 ((- $v_j_temp) * #1.4026879999999998e+01));
  (*2768*) Do (AddA v_jac 8 ($v_j_temp * #1.4026879999999998e+01))],
[
  (*2771*) If ($v_T) (#1000.0)
    [Asn v_Kc 0 (#2.7675762569999995e+00 + #(-4.3592543999999966e-01) * $v_logT + $v_T * (#1.6677431665000002e-03 + $v_T * (#(-9.0634396499999983e-07) + $v_T * (#2.3643735666666669e-10 + #(-1.2786509000000005e-14) * $v_T))) - #(-4.4927762000000002e+03) / $v_T)]
    [Asn v_Kc 0 (#(-3.0373711599999997e+00) + #5.8206271000000021e-01 * $v_logT + $v_T * (#(-4.9974672500000005e-04) + $v_T * (#1.0049558333333332e-07 + $v_T * (#(-1.3143870916666673e-11) + #7.5994398999999995e-16 * $v_T))) - #(-4.6623957000000009e+03) / $v_T)];
  (*2777*) Do (Asn v_Kc 0 ((Exp $v_Kc)));
  (*2778*) Do (Asn v_j_temp 0 ((- $v_mw_avg) * $v_rho_inv * (#2.0 * v_fwd_rates.[70] - #2.0 * v_rev_rates.[70])));
  (*2779*) Do (Asn v_kf 0 (#7000000000.0));
  (*2780*) Do (Asn v_kr 0 ($v_kf / $v_Kc));
  (*2781*) Do (AddA v_jac 30 (#(-6.9581919558703875e+00) * ($v_j_temp * #9.2803892982949643e-01)));
  (*2782*) Do (AddA v_jac 29 (#6.9581919558703875e+00 * ($v_j_temp * #9.2803892982949643e-01)));
  (*2783*) Do (AddA v_jac 51 (#(-1.3916383911740775e+01) * ($v_j_temp * #9.6401946491474821e-01)));
  (*2784*) Do (AddA v_jac 50 (#1.3916383911740775e+01 * ($v_j_temp * #9.6401946491474821e-01)));
  (*2785*) Do (AddA v_jac 72 (#(-8.7671287673287746e-01) * ($v_j_temp * #4.2886781649405936e-01)));
  (*2786*) Do (AddA v_jac 71 (#8.7671287673287746e-01 * ($v_j_temp * #4.2886781649405936e-01)));
  (*2787*) Do (AddA v_jac 93 (#(-4.3835643836643873e-01) * ($v_j_temp * #(-1.4226436701188128e-01))));
  (*2788*) Do (AddA v_jac 92 (#4.3835643836643873e-01 * ($v_j_temp * #(-1.4226436701188128e-01))));
  (*2789*) Do (AddA v_jac 114 (#(-8.2475448835620380e-01) * ($v_j_temp * #3.9288728140880758e-01)));
  (*2790*) Do (AddA v_jac 113 (#8.2475448835620380e-01 * ($v_j_temp * #3.9288728140880758e-01)));
  (*2791*) Do (AddA v_jac 135 (#(-7.7861015759954877e-01) * ($v_j_temp * #3.5690674632355568e-01)));
  (*2792*) Do (AddA v_jac 134 (#7.7861015759954877e-01 * ($v_j_temp * #3.5690674632355568e-01)));
  (*2793*) Do (AddA v_jac 156 (#(-4.2497017275865467e-01) * ($v_j_temp * #(-1.7824490209713328e-01))));
  (*2794*) Do (AddA v_jac 155 (#4.2497017275865467e-01 * ($v_j_temp * #(-1.7824490209713328e-01))));
  (*2795*) Do (AddA v_jac 177 ((- ($v_j_temp * #4.9928106040377707e-01 - $v_kr * v_conc.[12]))));
  (*2796*) Do (AddA v_jac 176 ($v_j_temp * #4.9928106040377707e-01 - $v_kr * v_conc.[12]));
  (*2797*) Do (AddA v_jac 198 ((- ($v_j_temp * #4.9928106040377707e-01 + $v_kf * v_conc.[12]))));
  (*2798*) Do (AddA v_jac 197 ($v_j_temp * #4.9928106040377707e-01 + $v_kf * v_conc.[12]));
  (*2799*) Do (AddA v_jac 219 (#(-9.3295962306166613e-01) * ($v_j_temp * #4.6330052531852528e-01)));
  (*2800*) Do (AddA v_jac 218 (#9.3295962306166613e-01 * ($v_j_temp * #4.6330052531852528e-01)));
  (*2801*) Do (AddA v_jac 240 (#(-8.7434331748402383e-01) * ($v_j_temp * #4.2731999023327338e-01)));
  (*2802*) Do (AddA v_jac 239 (#8.7434331748402383e-01 * ($v_j_temp * #4.2731999023327338e-01)));
  (*2803*) Do (AddA v_jac 261 (#(-5.0077399822922919e-01) * ($v_j_temp * #1.0994706834011048e-04)));
  (*2804*) Do (AddA v_jac 260 (#5.0077399822922919e-01 * ($v_j_temp * #1.0994706834011048e-04)));
  (*2805*) Do (AddA v_jac 282 (#(-3.1872173924898545e-01) * ($v_j_temp * #(-5.7102223643760053e-01) + $v_kf * v_conc.[8] - $v_kr * v_conc.[7])));
  (*2806*) Do (AddA v_jac 281 (#3.1872173924898545e-01 * ($v_j_temp * #(-5.7102223643760053e-01) + $v_kf * v_conc.[8] - $v_kr * v_conc.[7])));
  (*2807*) Do (AddA v_jac 303 (#(-4.8337982117516021e-01) * ($v_j_temp * #(-3.5870588016911675e-02))));
  (*2808*) Do (AddA v_jac 302 (#4.8337982117516021e-01 * ($v_j_temp * #(-3.5870588016911675e-02))));
  (*2809*) Do (AddA v_jac 324 (#(-4.6715344025300498e-01) * ($v_j_temp * #(-7.1851123102163683e-02))));
  (*2810*) Do (AddA v_jac 323 (#4.6715344025300498e-01 * ($v_j_temp * #(-7.1851123102163683e-02))));
  (*2811*) Do (AddA v_jac 345 (#(-4.5198107121751407e-01) * ($v_j_temp * #(-1.0783165818741525e-01))));
  (*2812*) Do (AddA v_jac 344 (#4.5198107121751407e-01 * ($v_j_temp * #(-1.0783165818741525e-01))));
  (*2813*) Do (AddA v_jac 366 (#(-5.0000000000000000e-01) * ($v_j_temp * #(-1.4378791924458678e-03))));
  (*2814*) Do (AddA v_jac 365 (#5.0000000000000000e-01 * ($v_j_temp * #(-1.4378791924458678e-03))));
  (*2815*) Do (AddA v_jac 387 (#(-4.8265861942006144e-01) * ($v_j_temp * #(-3.7418414277697654e-02))));
  (*2816*) Do (AddA v_jac 386 (#4.8265861942006144e-01 * ($v_j_temp * #(-3.7418414277697654e-02))));
  (*2817*) Do (AddA v_jac 408 (#(-4.6647981153083307e-01) * ($v_j_temp * #(-7.3398949362949439e-02))));
  (*2818*) Do (AddA v_jac 407 (#4.6647981153083307e-01 * ($v_j_temp * #(-7.3398949362949439e-02))));
  (*2819*) Do (AddA v_jac 429 (#(-3.5112846700710920e-01) * ($v_j_temp * #(-4.2602775520927771e-01))));
  (*2820*) Do (AddA v_jac 428 (#3.5112846700710920e-01 * ($v_j_temp * #(-4.2602775520927771e-01))))]);
([
  (*2823*) Do (Asn v_j_temp 0 (#1.0 / $v_T * (v_fwd_rates.[71] * #(-1.0) - v_rev_rates.[71] * (#(-1.0) + (- $v_T) * (v_dBdT.[14] + v_dBdT.[11] - v_dBdT.[8] - v_dBdT.[12]))) * $v_rho_inv));
  (*2824*) Do (AddA v_jac 9 ((- $v_j_temp) * #1.4026879999999998e+01));
  (*2825*) Do (AddA v_jac 12 ($v_j_temp * #2.8010399999999997e+01));
  (*2826*) Do (AddA v_jac 13 ((- $v_j_temp) * #4.4009799999999998e+01));
  (*2827*) Do (AddA v_jac 15 ($v_j_temp * #3.0026280000000000e+01))],
[
  (*2830*) If ($v_T) (#1000.0)
    [Asn v_Kc 0 (#(-6.8385900630000007e+00) + #1.8178789900000001e+00 * $v_logT + $v_T * (#(-8.5683349750000012e-03) + $v_T * (#6.2049026033333328e-06 + $v_T * (#(-2.7327125521666662e-09) + #5.2366964395000002e-13 * $v_T))) - #(-3.0777889300000003e+04) / $v_T)]
    [Asn v_Kc 0 (#1.2250493990000001e+01 + #(-1.6736230200000002e+00) * $v_logT + $v_T * (#1.0961358100000001e-03 + $v_T * (#(-1.9911339849999998e-07) + $v_T * (#2.4589078333333314e-11 + #(-1.3785141350000004e-15) * $v_T))) - #(-3.0314538400000005e+04) / $v_T)];
  (*2836*) Do (Asn v_Kc 0 ((Exp $v_Kc)));
  (*2837*) Do (Asn v_j_temp 0 ((- $v_mw_avg) * $v_rho_inv * (#2.0 * v_fwd_rates.[71] - #2.0 * v_rev_rates.[71])));
  (*2838*) Do (Asn v_kf 0 (#14000000000.0));
  (*2839*) Do (Asn v_kr 0 ($v_kf / $v_Kc));
  (*2840*) Do (AddA v_jac 30 (#(-6.9581919558703875e+00) * ($v_j_temp * #9.2803892982949643e-01)));
  (*2841*) Do (AddA v_jac 33 (#1.3894874694922315e+01 * ($v_j_temp * #9.2803892982949643e-01)));
  (*2842*) Do (AddA v_jac 34 (#(-2.1831557433974243e+01) * ($v_j_temp * #9.2803892982949643e-01)));
  (*2843*) Do (AddA v_jac 36 (#1.4894874694922317e+01 * ($v_j_temp * #9.2803892982949643e-01)));
  (*2844*) Do (AddA v_jac 51 (#(-1.3916383911740775e+01) * ($v_j_temp * #9.6401946491474821e-01)));
  (*2845*) Do (AddA v_jac 54 (#2.7789749389844630e+01 * ($v_j_temp * #9.6401946491474821e-01)));
  (*2846*) Do (AddA v_jac 55 (#(-4.3663114867948487e+01) * ($v_j_temp * #9.6401946491474821e-01)));
  (*2847*) Do (AddA v_jac 57 (#2.9789749389844633e+01 * ($v_j_temp * #9.6401946491474821e-01)));
  (*2848*) Do (AddA v_jac 72 (#(-8.7671287673287746e-01) * ($v_j_temp * #4.2886781649405936e-01)));
  (*2849*) Do (AddA v_jac 75 (#1.7507156518369438e+00 * ($v_j_temp * #4.2886781649405936e-01)));
  (*2850*) Do (AddA v_jac 76 (#(-2.7507156518369440e+00) * ($v_j_temp * #4.2886781649405936e-01)));
  (*2851*) Do (AddA v_jac 78 (#1.8767128767328776e+00 * ($v_j_temp * #4.2886781649405936e-01)));
  (*2852*) Do (AddA v_jac 93 (#(-4.3835643836643873e-01) * ($v_j_temp * #(-1.4226436701188128e-01))));
  (*2853*) Do (AddA v_jac 96 (#8.7535782591847189e-01 * ($v_j_temp * #(-1.4226436701188128e-01))));
  (*2854*) Do (AddA v_jac 97 (#(-1.3753578259184720e+00) * ($v_j_temp * #(-1.4226436701188128e-01))));
  (*2855*) Do (AddA v_jac 99 (#9.3835643836643878e-01 * ($v_j_temp * #(-1.4226436701188128e-01))));
  (*2856*) Do (AddA v_jac 114 (#(-8.2475448835620380e-01) * ($v_j_temp * #3.9288728140880758e-01)));
  (*2857*) Do (AddA v_jac 117 (#1.6469594892558153e+00 * ($v_j_temp * #3.9288728140880758e-01)));
  (*2858*) Do (AddA v_jac 118 (#(-2.5876944895556862e+00) * ($v_j_temp * #3.9288728140880758e-01)));
  (*2859*) Do (AddA v_jac 120 (#1.7654894886560744e+00 * ($v_j_temp * #3.9288728140880758e-01)));
  (*2860*) Do (AddA v_jac 135 (#(-7.7861015759954877e-01) * ($v_j_temp * #3.5690674632355568e-01)));
  (*2861*) Do (AddA v_jac 138 (#1.5548134694548181e+00 * ($v_j_temp * #3.5690674632355568e-01)));
  (*2862*) Do (AddA v_jac 139 (#(-2.4429151253824530e+00) * ($v_j_temp * #3.5690674632355568e-01)));
  (*2863*) Do (AddA v_jac 141 (#1.6667118135271835e+00 * ($v_j_temp * #3.5690674632355568e-01)));
  (*2864*) Do (AddA v_jac 156 (#(-4.2497017275865467e-01) * ($v_j_temp * #(-1.7824490209713328e-01))));
  (*2865*) Do (AddA v_jac 159 (#8.4862667443073736e-01 * ($v_j_temp * #(-1.7824490209713328e-01))));
  (*2866*) Do (AddA v_jac 160 (#(-1.3333579747651541e+00) * ($v_j_temp * #(-1.7824490209713328e-01))));
  (*2867*) Do (AddA v_jac 162 (#9.0970147309307126e-01 * ($v_j_temp * #(-1.7824490209713328e-01))));
  (*2868*) Do (AddA v_jac 177 ((- ($v_j_temp * #4.9928106040377707e-01))));
  (*2869*) Do (AddA v_jac 180 (#1.9969087922617146e+00 * ($v_j_temp * #4.9928106040377707e-01)));
  (*2870*) Do (AddA v_jac 181 (#(-3.1375330793448009e+00) * ($v_j_temp * #4.9928106040377707e-01)));
  (*2871*) Do (AddA v_jac 183 (#2.1406242870830865e+00 * ($v_j_temp * #4.9928106040377707e-01)));
  (*2872*) Do (AddA v_jac 198 ((- ($v_j_temp * #4.9928106040377707e-01 + $v_kf * v_conc.[12]))));
  (*2873*) Do (AddA v_jac 201 (#1.9969087922617146e+00 * ($v_j_temp * #4.9928106040377707e-01 + $v_kf * v_conc.[12])));
  (*2874*) Do (AddA v_jac 202 (#(-3.1375330793448009e+00) * ($v_j_temp * #4.9928106040377707e-01 + $v_kf * v_conc.[12])));
  (*2875*) Do (AddA v_jac 204 (#2.1406242870830865e+00 * ($v_j_temp * #4.9928106040377707e-01 + $v_kf * v_conc.[12])));
  (*2876*) Do (AddA v_jac 219 (#(-9.3295962306166613e-01) * ($v_j_temp * #4.6330052531852528e-01)));
  (*2877*) Do (AddA v_jac 222 (#1.8630352741170162e+00 * ($v_j_temp * #4.6330052531852528e-01)));
  (*2878*) Do (AddA v_jac 223 (#(-2.9271916790490340e+00) * ($v_j_temp * #4.6330052531852528e-01)));
  (*2879*) Do (AddA v_jac 225 (#1.9971160279936839e+00 * ($v_j_temp * #4.6330052531852528e-01)));
  (*2880*) Do (AddA v_jac 240 (#(-8.7434331748402383e-01) * ($v_j_temp * #4.2731999023327338e-01)));
  (*2881*) Do (AddA v_jac 243 (#1.7459838581391229e+00 * ($v_j_temp * #4.2731999023327338e-01)));
  (*2882*) Do (AddA v_jac 244 (#(-2.7432810813101982e+00) * ($v_j_temp * #4.2731999023327338e-01)));
  (*2883*) Do (AddA v_jac 246 (#1.8716405406550991e+00 * ($v_j_temp * #4.2731999023327338e-01)));
  (*2884*) Do (AddA v_jac 261 (#(-5.0077399822922919e-01) * ($v_j_temp * #1.0994706834011048e-04 - $v_kr * v_conc.[14])));
  (*2885*) Do (AddA v_jac 264 ($v_j_temp * #1.0994706834011048e-04 - $v_kr * v_conc.[14]));
  (*2886*) Do (AddA v_jac 265 (#(-1.5711949847199613e+00) * ($v_j_temp * #1.0994706834011048e-04 - $v_kr * v_conc.[14])));
  (*2887*) Do (AddA v_jac 267 (#1.0719689829491903e+00 * ($v_j_temp * #1.0994706834011048e-04 - $v_kr * v_conc.[14])));
  (*2888*) Do (AddA v_jac 282 (#(-3.1872173924898545e-01) * ($v_j_temp * #(-5.7102223643760053e-01) + $v_kf * v_conc.[8])));
  (*2889*) Do (AddA v_jac 285 (#6.3645824339124468e-01 * ($v_j_temp * #(-5.7102223643760053e-01) + $v_kf * v_conc.[8])));
  (*2890*) Do (AddA v_jac 286 ((- ($v_j_temp * #(-5.7102223643760053e-01) + $v_kf * v_conc.[8]))));
  (*2891*) Do (AddA v_jac 288 (#6.8226349585774082e-01 * ($v_j_temp * #(-5.7102223643760053e-01) + $v_kf * v_conc.[8])));
  (*2892*) Do (AddA v_jac 303 (#(-4.8337982117516021e-01) * ($v_j_temp * #(-3.5870588016911675e-02))));
  (*2893*) Do (AddA v_jac 306 (#9.6526541490657281e-01 * ($v_j_temp * #(-3.5870588016911675e-02))));
  (*2894*) Do (AddA v_jac 307 (#(-1.5166201788248397e+00) * ($v_j_temp * #(-3.5870588016911675e-02))));
  (*2895*) Do (AddA v_jac 309 (#1.0347345850934271e+00 * ($v_j_temp * #(-3.5870588016911675e-02))));
  (*2896*) Do (AddA v_jac 324 (#(-4.6715344025300498e-01) * ($v_j_temp * #(-7.1851123102163683e-02) - $v_kr * v_conc.[11])));
  (*2897*) Do (AddA v_jac 327 (#9.3286281217653322e-01 * ($v_j_temp * #(-7.1851123102163683e-02) - $v_kr * v_conc.[11])));
  (*2898*) Do (AddA v_jac 328 (#(-1.4657093719235283e+00) * ($v_j_temp * #(-7.1851123102163683e-02) - $v_kr * v_conc.[11])));
  (*2899*) Do (AddA v_jac 330 ($v_j_temp * #(-7.1851123102163683e-02) - $v_kr * v_conc.[11]));
  (*2900*) Do (AddA v_jac 345 (#(-4.5198107121751407e-01) * ($v_j_temp * #(-1.0783165818741525e-01))));
  (*2901*) Do (AddA v_jac 348 (#9.0256497505012201e-01 * ($v_j_temp * #(-1.0783165818741525e-01))));
  (*2902*) Do (AddA v_jac 349 (#(-1.4181055621826488e+00) * ($v_j_temp * #(-1.0783165818741525e-01))));
  (*2903*) Do (AddA v_jac 351 (#9.6752165835004078e-01 * ($v_j_temp * #(-1.0783165818741525e-01))));
  (*2904*) Do (AddA v_jac 366 (#(-5.0000000000000000e-01) * ($v_j_temp * #(-1.4378791924458678e-03))));
  (*2905*) Do (AddA v_jac 369 (#9.9845439613085729e-01 * ($v_j_temp * #(-1.4378791924458678e-03))));
  (*2906*) Do (AddA v_jac 370 (#(-1.5687665396724004e+00) * ($v_j_temp * #(-1.4378791924458678e-03))));
  (*2907*) Do (AddA v_jac 372 (#1.0703121435415432e+00 * ($v_j_temp * #(-1.4378791924458678e-03))));
  (*2908*) Do (AddA v_jac 387 (#(-4.8265861942006144e-01) * ($v_j_temp * #(-3.7418414277697654e-02))));
  (*2909*) Do (AddA v_jac 390 (#9.6382524078082144e-01 * ($v_j_temp * #(-3.7418414277697654e-02))));
  (*2910*) Do (AddA v_jac 391 (#(-1.5143573844613358e+00) * ($v_j_temp * #(-3.7418414277697654e-02))));
  (*2911*) Do (AddA v_jac 393 (#1.0331907631005757e+00 * ($v_j_temp * #(-3.7418414277697654e-02))));
  (*2912*) Do (AddA v_jac 408 (#(-4.6647981153083307e-01) * ($v_j_temp * #(-7.3398949362949439e-02))));
  (*2913*) Do (AddA v_jac 411 (#9.3151763705850810e-01 * ($v_j_temp * #(-7.3398949362949439e-02))));
  (*2914*) Do (AddA v_jac 412 (#(-1.4635958395245170e+00) * ($v_j_temp * #(-7.3398949362949439e-02))));
  (*2915*) Do (AddA v_jac 414 (#9.9855801399684196e-01 * ($v_j_temp * #(-7.3398949362949439e-02))));
  (*2916*) Do (AddA v_jac 429 (#(-3.5112846700710920e-01) * ($v_j_temp * #(-4.2602775520927771e-01))));
  (*2917*) Do (AddA v_jac 432 (#7.0117152297987373e-01 * ($v_j_temp * #(-4.2602775520927771e-01))));
  (*2918*) Do (AddA v_jac 433 (#(-1.1016771803344347e+00) * ($v_j_temp * #(-4.2602775520927771e-01))));
  (*2919*) Do (AddA v_jac 435 (#7.5163412436167021e-01 * ($v_j_temp * #(-4.2602775520927771e-01))))]);
([
  (*2922*) Do (Asn v_j_temp 0 (#1.0 / $v_T * ((v_fwd_rates.[72] - v_rev_rates.[72]) * (#1.4492723467943884e+04 / $v_T) + v_fwd_rates.[72] * #(-1.0) - v_rev_rates.[72] * (#(-1.0) + (- $v_T) * (v_dBdT.[15] + v_dBdT.[2] - v_dBdT.[9] - v_dBdT.[3]))) * $v_rho_inv));
  (*2923*) Do (AddA v_jac 10 ((- $v_j_temp) * #1.5034820000000000e+01));
  (*2924*) Do (AddA v_jac 3 ($v_j_temp * #1.5999400000000000e+01));
  (*2925*) Do (AddA v_jac 4 ((- $v_j_temp) * #3.1998799999999999e+01));
  (*2926*) Do (AddA v_jac 16 ($v_j_temp * #3.1034219999999998e+01))],
[
  (*2929*) If ($v_T) (#1000.0)
    [Asn v_Kc 0 (#1.2123446059999999e+01 + #(-2.1815756600000000e+00) * $v_logT + $v_T * (#2.4615292849999998e-03 + $v_T * (#(-5.9933076833333334e-07) + $v_T * (#2.5389725833333334e-10 + #(-7.9965800000000011e-14) * $v_T))) - #1.4719805059999999e+04 / $v_T)]
    [Asn v_Kc 0 (#(-6.9913536600000015e+00) + #7.7196422000000009e-01 * $v_logT + $v_T * (#(-4.6873251185000023e-04) + $v_T * (#1.8844576798333333e-07 + $v_T * (#(-3.5060823241666667e-11) + #2.4244697854999999e-15 * $v_T))) - #1.3658285040000001e+04 / $v_T)];
  (*2935*) Do (Asn v_Kc 0 ((Exp $v_Kc)));
  (*2936*) Do (Asn v_j_temp 0 ((- $v_mw_avg) * $v_rho_inv * (#2.0 * v_fwd_rates.[72] - #2.0 * v_rev_rates.[72])));
  (*2937*) Do (Asn v_kf 0 ((Exp (#2.4009800310288426e+01 - #1.4492723467943884e+04 / $v_T))));
  (*2938*) Do (Asn v_kr 0 ($v_kf / $v_Kc));
  (*2939*) Do (AddA v_jac 31 (#(-7.4581919558703884e+00) * ($v_j_temp * #9.2803892982949643e-01)));
  (*2940*) Do (AddA v_jac 24 (#7.9366827390519274e+00 * ($v_j_temp * #9.2803892982949643e-01)));
  (*2941*) Do (AddA v_jac 25 (#(-1.5873365478103855e+01) * ($v_j_temp * #9.2803892982949643e-01)));
  (*2942*) Do (AddA v_jac 37 (#1.5394874694922315e+01 * ($v_j_temp * #9.2803892982949643e-01)));
  (*2943*) Do (AddA v_jac 52 (#(-1.4916383911740777e+01) * ($v_j_temp * #9.6401946491474821e-01)));
  (*2944*) Do (AddA v_jac 45 (#1.5873365478103855e+01 * ($v_j_temp * #9.6401946491474821e-01)));
  (*2945*) Do (AddA v_jac 46 (#(-3.1746730956207710e+01) * ($v_j_temp * #9.6401946491474821e-01)));
  (*2946*) Do (AddA v_jac 58 (#3.0789749389844630e+01 * ($v_j_temp * #9.6401946491474821e-01)));
  (*2947*) Do (AddA v_jac 73 (#(-9.3971148918084424e-01) * ($v_j_temp * #4.2886781649405936e-01 - $v_kr * v_conc.[15])));
  (*2948*) Do (AddA v_jac 66 ($v_j_temp * #4.2886781649405936e-01 - $v_kr * v_conc.[15]));
  (*2949*) Do (AddA v_jac 67 (#(-2.0000000000000000e+00) * ($v_j_temp * #4.2886781649405936e-01 - $v_kr * v_conc.[15])));
  (*2950*) Do (AddA v_jac 79 (#1.9397114891808442e+00 * ($v_j_temp * #4.2886781649405936e-01 - $v_kr * v_conc.[15])));
  (*2951*) Do (AddA v_jac 94 (#(-4.6985574459042212e-01) * ($v_j_temp * #(-1.4226436701188128e-01) + $v_kf * v_conc.[9])));
  (*2952*) Do (AddA v_jac 87 (#5.0000000000000000e-01 * ($v_j_temp * #(-1.4226436701188128e-01) + $v_kf * v_conc.[9])));
  (*2953*) Do (AddA v_jac 88 ((- ($v_j_temp * #(-1.4226436701188128e-01) + $v_kf * v_conc.[9]))));
  (*2954*) Do (AddA v_jac 100 (#9.6985574459042212e-01 * ($v_j_temp * #(-1.4226436701188128e-01) + $v_kf * v_conc.[9])));
  (*2955*) Do (AddA v_jac 115 (#(-8.8401948805633335e-01) * ($v_j_temp * #3.9288728140880758e-01)));
  (*2956*) Do (AddA v_jac 108 (#9.4073500029987056e-01 * ($v_j_temp * #3.9288728140880758e-01)));
  (*2957*) Do (AddA v_jac 109 (#(-1.8814700005997411e+00) * ($v_j_temp * #3.9288728140880758e-01)));
  (*2958*) Do (AddA v_jac 121 (#1.8247544883562039e+00 * ($v_j_temp * #3.9288728140880758e-01)));
  (*2959*) Do (AddA v_jac 136 (#(-8.3455932963573143e-01) * ($v_j_temp * #3.5690674632355568e-01)));
  (*2960*) Do (AddA v_jac 129 (#8.8810165592763468e-01 * ($v_j_temp * #3.5690674632355568e-01)));
  (*2961*) Do (AddA v_jac 130 (#(-1.7762033118552694e+00) * ($v_j_temp * #3.5690674632355568e-01)));
  (*2962*) Do (AddA v_jac 142 (#1.7226609855633661e+00 * ($v_j_temp * #3.5690674632355568e-01)));
  (*2963*) Do (AddA v_jac 157 (#(-4.5550757208982162e-01) * ($v_j_temp * #(-1.7824490209713328e-01))));
  (*2964*) Do (AddA v_jac 150 (#4.8473130033441653e-01 * ($v_j_temp * #(-1.7824490209713328e-01))));
  (*2965*) Do (AddA v_jac 151 (#(-9.6946260066883305e-01) * ($v_j_temp * #(-1.7824490209713328e-01))));
  (*2966*) Do (AddA v_jac 163 (#9.4023887242423809e-01 * ($v_j_temp * #(-1.7824490209713328e-01))));
  (*2967*) Do (AddA v_jac 178 (#(-1.0718577474106858e+00) * ($v_j_temp * #4.9928106040377707e-01)));
  (*2968*) Do (AddA v_jac 171 (#1.1406242870830863e+00 * ($v_j_temp * #4.9928106040377707e-01)));
  (*2969*) Do (AddA v_jac 172 (#(-2.2812485741661725e+00) * ($v_j_temp * #4.9928106040377707e-01)));
  (*2970*) Do (AddA v_jac 184 (#2.2124820344937719e+00 * ($v_j_temp * #4.9928106040377707e-01)));
  (*2971*) Do (AddA v_jac 199 (#(-1.0718577474106858e+00) * ($v_j_temp * #4.9928106040377707e-01)));
  (*2972*) Do (AddA v_jac 192 (#1.1406242870830863e+00 * ($v_j_temp * #4.9928106040377707e-01)));
  (*2973*) Do (AddA v_jac 193 (#(-2.2812485741661725e+00) * ($v_j_temp * #4.9928106040377707e-01)));
  (*2974*) Do (AddA v_jac 205 (#2.2124820344937719e+00 * ($v_j_temp * #4.9928106040377707e-01)));
  (*2975*) Do (AddA v_jac 220 ((- ($v_j_temp * #4.6330052531852528e-01 + $v_kf * v_conc.[3]))));
  (*2976*) Do (AddA v_jac 213 (#1.0641564049320178e+00 * ($v_j_temp * #4.6330052531852528e-01 + $v_kf * v_conc.[3])));
  (*2977*) Do (AddA v_jac 214 (#(-2.1283128098640356e+00) * ($v_j_temp * #4.6330052531852528e-01 + $v_kf * v_conc.[3])));
  (*2978*) Do (AddA v_jac 226 (#2.0641564049320178e+00 * ($v_j_temp * #4.6330052531852528e-01 + $v_kf * v_conc.[3])));
  (*2979*) Do (AddA v_jac 241 (#(-9.3717165874201191e-01) * ($v_j_temp * #4.2731999023327338e-01)));
  (*2980*) Do (AddA v_jac 234 (#9.9729722317107516e-01 * ($v_j_temp * #4.2731999023327338e-01)));
  (*2981*) Do (AddA v_jac 235 (#(-1.9945944463421503e+00) * ($v_j_temp * #4.2731999023327338e-01)));
  (*2982*) Do (AddA v_jac 247 (#1.9344688819130871e+00 * ($v_j_temp * #4.2731999023327338e-01)));
  (*2983*) Do (AddA v_jac 262 (#(-5.3675848970382434e-01) * ($v_j_temp * #1.0994706834011048e-04)));
  (*2984*) Do (AddA v_jac 255 (#5.7119498471996122e-01 * ($v_j_temp * #1.0994706834011048e-04)));
  (*2985*) Do (AddA v_jac 256 (#(-1.1423899694399224e+00) * ($v_j_temp * #1.0994706834011048e-04)));
  (*2986*) Do (AddA v_jac 268 (#1.1079534744237856e+00 * ($v_j_temp * #1.0994706834011048e-04)));
  (*2987*) Do (AddA v_jac 283 (#(-3.4162436548223352e-01) * ($v_j_temp * #(-5.7102223643760053e-01))));
  (*2988*) Do (AddA v_jac 276 (#3.6354175660875532e-01 * ($v_j_temp * #(-5.7102223643760053e-01))));
  (*2989*) Do (AddA v_jac 277 (#(-7.2708351321751064e-01) * ($v_j_temp * #(-5.7102223643760053e-01))));
  (*2990*) Do (AddA v_jac 289 (#7.0516612209098883e-01 * ($v_j_temp * #(-5.7102223643760053e-01))));
  (*2991*) Do (AddA v_jac 304 (#(-5.1811440626858740e-01) * ($v_j_temp * #(-3.5870588016911675e-02))));
  (*2992*) Do (AddA v_jac 297 (#5.5135476391826688e-01 * ($v_j_temp * #(-3.5870588016911675e-02))));
  (*2993*) Do (AddA v_jac 298 (#(-1.1027095278365338e+00) * ($v_j_temp * #(-3.5870588016911675e-02))));
  (*2994*) Do (AddA v_jac 310 (#1.0694691701868542e+00 * ($v_j_temp * #(-3.5870588016911675e-02))));
  (*2995*) Do (AddA v_jac 325 (#(-5.0072203416473837e-01) * ($v_j_temp * #(-7.1851123102163683e-02))));
  (*2996*) Do (AddA v_jac 318 (#5.3284655974699491e-01 * ($v_j_temp * #(-7.1851123102163683e-02))));
  (*2997*) Do (AddA v_jac 319 (#(-1.0656931194939898e+00) * ($v_j_temp * #(-7.1851123102163683e-02))));
  (*2998*) Do (AddA v_jac 331 (#1.0335685939117332e+00 * ($v_j_temp * #(-7.1851123102163683e-02))));
  (*2999*) Do (AddA v_jac 346 (#(-4.8445941286747340e-01) * ($v_j_temp * #(-1.0783165818741525e-01) - $v_kr * v_conc.[2])));
  (*3000*) Do (AddA v_jac 339 (#5.1554058713252660e-01 * ($v_j_temp * #(-1.0783165818741525e-01) - $v_kr * v_conc.[2])));
  (*3001*) Do (AddA v_jac 340 (#(-1.0310811742650532e+00) * ($v_j_temp * #(-1.0783165818741525e-01) - $v_kr * v_conc.[2])));
  (*3002*) Do (AddA v_jac 352 ($v_j_temp * #(-1.0783165818741525e-01) - $v_kr * v_conc.[2]));
  (*3003*) Do (AddA v_jac 367 (#(-5.3592887370534292e-01) * ($v_j_temp * #(-1.4378791924458678e-03))));
  (*3004*) Do (AddA v_jac 360 (#5.7031214354154314e-01 * ($v_j_temp * #(-1.4378791924458678e-03))));
  (*3005*) Do (AddA v_jac 361 (#(-1.1406242870830863e+00) * ($v_j_temp * #(-1.4378791924458678e-03))));
  (*3006*) Do (AddA v_jac 373 (#1.1062410172468859e+00 * ($v_j_temp * #(-1.4378791924458678e-03))));
  (*3007*) Do (AddA v_jac 388 (#(-5.1734138057993861e-01) * ($v_j_temp * #(-3.7418414277697654e-02))));
  (*3008*) Do (AddA v_jac 381 (#5.5053214368051429e-01 * ($v_j_temp * #(-3.7418414277697654e-02))));
  (*3009*) Do (AddA v_jac 382 (#(-1.1010642873610286e+00) * ($v_j_temp * #(-3.7418414277697654e-02))));
  (*3010*) Do (AddA v_jac 394 (#1.0678735242604527e+00 * ($v_j_temp * #(-3.7418414277697654e-02))));
  (*3011*) Do (AddA v_jac 409 (#(-5.0000000000000000e-01) * ($v_j_temp * #(-7.3398949362949439e-02))));
  (*3012*) Do (AddA v_jac 402 (#5.3207820246600890e-01 * ($v_j_temp * #(-7.3398949362949439e-02))));
  (*3013*) Do (AddA v_jac 403 (#(-1.0641564049320178e+00) * ($v_j_temp * #(-7.3398949362949439e-02))));
  (*3014*) Do (AddA v_jac 415 (#1.0320782024660089e+00 * ($v_j_temp * #(-7.3398949362949439e-02))));
  (*3015*) Do (AddA v_jac 430 (#(-3.7635976769800739e-01) * ($v_j_temp * #(-4.2602775520927771e-01))));
  (*3016*) Do (AddA v_jac 423 (#4.0050565735456090e-01 * ($v_j_temp * #(-4.2602775520927771e-01))));
  (*3017*) Do (AddA v_jac 424 (#(-8.0101131470912179e-01) * ($v_j_temp * #(-4.2602775520927771e-01))));
  (*3018*) Do (AddA v_jac 436 (#7.7686542505256828e-01 * ($v_j_temp * #(-4.2602775520927771e-01))))]);
([
  (*3021*) Do (Asn v_j_temp 0 (#1.0 / $v_T * ((v_fwd_rates.[73] - v_rev_rates.[73]) * (#4.4987829098409138e+03 / $v_T) + v_fwd_rates.[73] * #(-1.0) - v_rev_rates.[73] * (#(-1.0) + (- $v_T) * (v_dBdT.[14] + v_dBdT.[4] - v_dBdT.[9] - v_dBdT.[3]))) * $v_rho_inv));
  (*3022*) Do (AddA v_jac 10 ((- $v_j_temp) * #1.5034820000000000e+01));
  (*3023*) Do (AddA v_jac 4 ((- $v_j_temp) * #3.1998799999999999e+01));
  (*3024*) Do (AddA v_jac 5 ($v_j_temp * #1.7007339999999999e+01));
  (*3025*) Do (AddA v_jac 15 ($v_j_temp * #3.0026280000000000e+01))],
[
  (*3028*) If ($v_T) (#1000.0)
    [Asn v_Kc 0 (#(-6.0930444379999997e+00) + #1.3296918200000003e+00 * $v_logT + $v_T * (#(-5.6619344000000005e-03) + $v_T * (#4.3937364399999992e-06 + $v_T * (#(-2.1047658408333332e-09) + #4.3768970950000006e-13 * $v_T))) - #(-2.6074931380000002e+04) / $v_T)]
    [Asn v_Kc 0 (#4.9143938299999999e+00 + #(-7.1467780999999975e-01) * $v_logT + $v_T * (#5.1272131299999989e-04 + $v_T * (#(-9.1828792166666604e-08) + $v_T * (#9.4425637833333271e-12 + #(-4.1285538000000021e-16) * $v_T))) - #(-2.5824301879999999e+04) / $v_T)];
  (*3034*) Do (Asn v_Kc 0 ((Exp $v_Kc)));
  (*3035*) Do (Asn v_j_temp 0 ((- $v_mw_avg) * $v_rho_inv * (#2.0 * v_fwd_rates.[73] - #2.0 * v_rev_rates.[73])));
  (*3036*) Do (Asn v_kf 0 ((Exp (#1.7399029496420383e+01 - #4.4987829098409138e+03 / $v_T))));
  (*3037*) Do (Asn v_kr 0 ($v_kf / $v_Kc));
  (*3038*) Do (AddA v_jac 31 (#(-7.4581919558703884e+00) * ($v_j_temp * #9.2803892982949643e-01)));
  (*3039*) Do (AddA v_jac 25 (#(-1.5873365478103855e+01) * ($v_j_temp * #9.2803892982949643e-01)));
  (*3040*) Do (AddA v_jac 26 (#8.4366827390519266e+00 * ($v_j_temp * #9.2803892982949643e-01)));
  (*3041*) Do (AddA v_jac 36 (#1.4894874694922317e+01 * ($v_j_temp * #9.2803892982949643e-01)));
  (*3042*) Do (AddA v_jac 52 (#(-1.4916383911740777e+01) * ($v_j_temp * #9.6401946491474821e-01)));
  (*3043*) Do (AddA v_jac 46 (#(-3.1746730956207710e+01) * ($v_j_temp * #9.6401946491474821e-01)));
  (*3044*) Do (AddA v_jac 47 (#1.6873365478103853e+01 * ($v_j_temp * #9.6401946491474821e-01)));
  (*3045*) Do (AddA v_jac 57 (#2.9789749389844633e+01 * ($v_j_temp * #9.6401946491474821e-01)));
  (*3046*) Do (AddA v_jac 73 (#(-9.3971148918084424e-01) * ($v_j_temp * #4.2886781649405936e-01)));
  (*3047*) Do (AddA v_jac 67 (#(-2.0000000000000000e+00) * ($v_j_temp * #4.2886781649405936e-01)));
  (*3048*) Do (AddA v_jac 68 (#1.0629986124479667e+00 * ($v_j_temp * #4.2886781649405936e-01)));
  (*3049*) Do (AddA v_jac 78 (#1.8767128767328776e+00 * ($v_j_temp * #4.2886781649405936e-01)));
  (*3050*) Do (AddA v_jac 94 (#(-4.6985574459042212e-01) * ($v_j_temp * #(-1.4226436701188128e-01) + $v_kf * v_conc.[9])));
  (*3051*) Do (AddA v_jac 88 ((- ($v_j_temp * #(-1.4226436701188128e-01) + $v_kf * v_conc.[9]))));
  (*3052*) Do (AddA v_jac 89 (#5.3149930622398334e-01 * ($v_j_temp * #(-1.4226436701188128e-01) + $v_kf * v_conc.[9])));
  (*3053*) Do (AddA v_jac 99 (#9.3835643836643878e-01 * ($v_j_temp * #(-1.4226436701188128e-01) + $v_kf * v_conc.[9])));
  (*3054*) Do (AddA v_jac 115 (#(-8.8401948805633335e-01) * ($v_j_temp * #3.9288728140880758e-01 - $v_kr * v_conc.[14])));
  (*3055*) Do (AddA v_jac 109 (#(-1.8814700005997411e+00) * ($v_j_temp * #3.9288728140880758e-01 - $v_kr * v_conc.[14])));
  (*3056*) Do (AddA v_jac 110 ($v_j_temp * #3.9288728140880758e-01 - $v_kr * v_conc.[14]));
  (*3057*) Do (AddA v_jac 120 (#1.7654894886560744e+00 * ($v_j_temp * #3.9288728140880758e-01 - $v_kr * v_conc.[14])));
  (*3058*) Do (AddA v_jac 136 (#(-8.3455932963573143e-01) * ($v_j_temp * #3.5690674632355568e-01)));
  (*3059*) Do (AddA v_jac 130 (#(-1.7762033118552694e+00) * ($v_j_temp * #3.5690674632355568e-01)));
  (*3060*) Do (AddA v_jac 131 (#9.4405082796381734e-01 * ($v_j_temp * #3.5690674632355568e-01)));
  (*3061*) Do (AddA v_jac 141 (#1.6667118135271835e+00 * ($v_j_temp * #3.5690674632355568e-01)));
  (*3062*) Do (AddA v_jac 157 (#(-4.5550757208982162e-01) * ($v_j_temp * #(-1.7824490209713328e-01))));
  (*3063*) Do (AddA v_jac 151 (#(-9.6946260066883305e-01) * ($v_j_temp * #(-1.7824490209713328e-01))));
  (*3064*) Do (AddA v_jac 152 (#5.1526869966558342e-01 * ($v_j_temp * #(-1.7824490209713328e-01))));
  (*3065*) Do (AddA v_jac 162 (#9.0970147309307126e-01 * ($v_j_temp * #(-1.7824490209713328e-01))));
  (*3066*) Do (AddA v_jac 178 (#(-1.0718577474106858e+00) * ($v_j_temp * #4.9928106040377707e-01)));
  (*3067*) Do (AddA v_jac 172 (#(-2.2812485741661725e+00) * ($v_j_temp * #4.9928106040377707e-01)));
  (*3068*) Do (AddA v_jac 173 (#1.2124820344937721e+00 * ($v_j_temp * #4.9928106040377707e-01)));
  (*3069*) Do (AddA v_jac 183 (#2.1406242870830865e+00 * ($v_j_temp * #4.9928106040377707e-01)));
  (*3070*) Do (AddA v_jac 199 (#(-1.0718577474106858e+00) * ($v_j_temp * #4.9928106040377707e-01)));
  (*3071*) Do (AddA v_jac 193 (#(-2.2812485741661725e+00) * ($v_j_temp * #4.9928106040377707e-01)));
  (*3072*) Do (AddA v_jac 194 (#1.2124820344937721e+00 * ($v_j_temp * #4.9928106040377707e-01)));
  (*3073*) Do (AddA v_jac 204 (#2.1406242870830865e+00 * ($v_j_temp * #4.9928106040377707e-01)));
  (*3074*) Do (AddA v_jac 220 ((- ($v_j_temp * #4.6330052531852528e-01 + $v_kf * v_conc.[3]))));
  (*3075*) Do (AddA v_jac 214 (#(-2.1283128098640356e+00) * ($v_j_temp * #4.6330052531852528e-01 + $v_kf * v_conc.[3])));
  (*3076*) Do (AddA v_jac 215 (#1.1311967818703517e+00 * ($v_j_temp * #4.6330052531852528e-01 + $v_kf * v_conc.[3])));
  (*3077*) Do (AddA v_jac 225 (#1.9971160279936839e+00 * ($v_j_temp * #4.6330052531852528e-01 + $v_kf * v_conc.[3])));
  (*3078*) Do (AddA v_jac 241 (#(-9.3717165874201191e-01) * ($v_j_temp * #4.2731999023327338e-01)));
  (*3079*) Do (AddA v_jac 235 (#(-1.9945944463421503e+00) * ($v_j_temp * #4.2731999023327338e-01)));
  (*3080*) Do (AddA v_jac 236 (#1.0601255644290632e+00 * ($v_j_temp * #4.2731999023327338e-01)));
  (*3081*) Do (AddA v_jac 246 (#1.8716405406550991e+00 * ($v_j_temp * #4.2731999023327338e-01)));
  (*3082*) Do (AddA v_jac 262 (#(-5.3675848970382434e-01) * ($v_j_temp * #1.0994706834011048e-04)));
  (*3083*) Do (AddA v_jac 256 (#(-1.1423899694399224e+00) * ($v_j_temp * #1.0994706834011048e-04)));
  (*3084*) Do (AddA v_jac 257 (#6.0717947619455637e-01 * ($v_j_temp * #1.0994706834011048e-04)));
  (*3085*) Do (AddA v_jac 267 (#1.0719689829491903e+00 * ($v_j_temp * #1.0994706834011048e-04)));
  (*3086*) Do (AddA v_jac 283 (#(-3.4162436548223352e-01) * ($v_j_temp * #(-5.7102223643760053e-01))));
  (*3087*) Do (AddA v_jac 277 (#(-7.2708351321751064e-01) * ($v_j_temp * #(-5.7102223643760053e-01))));
  (*3088*) Do (AddA v_jac 278 (#3.8644438284200339e-01 * ($v_j_temp * #(-5.7102223643760053e-01))));
  (*3089*) Do (AddA v_jac 288 (#6.8226349585774082e-01 * ($v_j_temp * #(-5.7102223643760053e-01))));
  (*3090*) Do (AddA v_jac 304 (#(-5.1811440626858740e-01) * ($v_j_temp * #(-3.5870588016911675e-02))));
  (*3091*) Do (AddA v_jac 298 (#(-1.1027095278365338e+00) * ($v_j_temp * #(-3.5870588016911675e-02))));
  (*3092*) Do (AddA v_jac 299 (#5.8608934901169396e-01 * ($v_j_temp * #(-3.5870588016911675e-02))));
  (*3093*) Do (AddA v_jac 309 (#1.0347345850934271e+00 * ($v_j_temp * #(-3.5870588016911675e-02))));
  (*3094*) Do (AddA v_jac 325 (#(-5.0072203416473837e-01) * ($v_j_temp * #(-7.1851123102163683e-02) - $v_kr * v_conc.[4])));
  (*3095*) Do (AddA v_jac 319 (#(-1.0656931194939898e+00) * ($v_j_temp * #(-7.1851123102163683e-02) - $v_kr * v_conc.[4])));
  (*3096*) Do (AddA v_jac 320 (#5.6641515365872830e-01 * ($v_j_temp * #(-7.1851123102163683e-02) - $v_kr * v_conc.[4])));
  (*3097*) Do (AddA v_jac 330 ($v_j_temp * #(-7.1851123102163683e-02) - $v_kr * v_conc.[4]));
  (*3098*) Do (AddA v_jac 346 (#(-4.8445941286747340e-01) * ($v_j_temp * #(-1.0783165818741525e-01))));
  (*3099*) Do (AddA v_jac 340 (#(-1.0310811742650532e+00) * ($v_j_temp * #(-1.0783165818741525e-01))));
  (*3100*) Do (AddA v_jac 341 (#5.4801892878248593e-01 * ($v_j_temp * #(-1.0783165818741525e-01))));
  (*3101*) Do (AddA v_jac 351 (#9.6752165835004078e-01 * ($v_j_temp * #(-1.0783165818741525e-01))));
  (*3102*) Do (AddA v_jac 367 (#(-5.3592887370534292e-01) * ($v_j_temp * #(-1.4378791924458678e-03))));
  (*3103*) Do (AddA v_jac 361 (#(-1.1406242870830863e+00) * ($v_j_temp * #(-1.4378791924458678e-03))));
  (*3104*) Do (AddA v_jac 362 (#6.0624101724688606e-01 * ($v_j_temp * #(-1.4378791924458678e-03))));
  (*3105*) Do (AddA v_jac 372 (#1.0703121435415432e+00 * ($v_j_temp * #(-1.4378791924458678e-03))));
  (*3106*) Do (AddA v_jac 388 (#(-5.1734138057993861e-01) * ($v_j_temp * #(-3.7418414277697654e-02))));
  (*3107*) Do (AddA v_jac 382 (#(-1.1010642873610286e+00) * ($v_j_temp * #(-3.7418414277697654e-02))));
  (*3108*) Do (AddA v_jac 383 (#5.8521490484039129e-01 * ($v_j_temp * #(-3.7418414277697654e-02))));
  (*3109*) Do (AddA v_jac 393 (#1.0331907631005757e+00 * ($v_j_temp * #(-3.7418414277697654e-02))));
  (*3110*) Do (AddA v_jac 409 (#(-5.0000000000000000e-01) * ($v_j_temp * #(-7.3398949362949439e-02))));
  (*3111*) Do (AddA v_jac 403 (#(-1.0641564049320178e+00) * ($v_j_temp * #(-7.3398949362949439e-02))));
  (*3112*) Do (AddA v_jac 404 (#5.6559839093517583e-01 * ($v_j_temp * #(-7.3398949362949439e-02))));
  (*3113*) Do (AddA v_jac 414 (#9.9855801399684196e-01 * ($v_j_temp * #(-7.3398949362949439e-02))));
  (*3114*) Do (AddA v_jac 430 (#(-3.7635976769800739e-01) * ($v_j_temp * #(-4.2602775520927771e-01))));
  (*3115*) Do (AddA v_jac 424 (#(-8.0101131470912179e-01) * ($v_j_temp * #(-4.2602775520927771e-01))));
  (*3116*) Do (AddA v_jac 425 (#4.2573695804545908e-01 * ($v_j_temp * #(-4.2602775520927771e-01))));
  (*3117*) Do (AddA v_jac 435 (#7.5163412436167021e-01 * ($v_j_temp * #(-4.2602775520927771e-01))))]);
([
  (*3120*) Do (Asn v_Pr 0 ($v_conc_temp * (Exp (#7.1199701340717226e+01 - #8.7 * $v_logT - #2.8180295632113107e+03 / $v_T))));
  (*3121*) Do (Asn v_Fcent 0 (#4.6750000000000003e-01 * (Exp ($v_T / #(-1.5100000000000000e+02))) + #5.3249999999999997e-01 * (Exp ($v_T / #(-1.0380000000000000e+03))) + (Exp (#(-4.9700000000000000e+03) / $v_T))));
  (*3122*) Do (Asn v_A 0 ((Log10 (Fmax $v_Pr #1.0e-300)) - #0.67 * (Log10 (Fmax $v_Fcent #1.0e-300)) - #0.4));
  (*3123*) Do (Asn v_B 0 (#0.806 - #1.1762 * (Log10 (Fmax $v_Fcent #1.0e-300)) - #0.14 * (Log10 (Fmax $v_Pr #1.0e-300))));
  (*3124*) Do (Asn v_lnF_AB 0 (#2.0 * (Log (Fmax $v_Fcent #1.0e-300)) * $v_A / ($v_B * $v_B * $v_B * (#1.0 + $v_A * $v_A / ($v_B * $v_B)) * (#1.0 + $v_A * $v_A / ($v_B * $v_B)))));
  (*3125*) Do (Asn v_j_temp 0 ((v_pres_mod.[12] * ((#(-8.7000e+00) + #2.8180295632113107e+03 / $v_T - #1.0) / ($v_T * (#1.0 + $v_Pr)) + (#1.0 / ($v_Fcent * (#1.0 + $v_A * $v_A / ($v_B * $v_B))) - $v_lnF_AB * (#(-2.9097730287517870e-01) * $v_B + #5.1081716961460466e-01 * $v_A) / $v_Fcent) * (#(-3.0960264900662254e-03) * (Exp ($v_T / #(-1.5100000000000000e+02))) - #5.1300578034682077e-04 * (Exp ($v_T / #(-1.0380000000000000e+03))) + #4.9700000000000000e+03 / ($v_T * $v_T) * (Exp (#(-4.9700000000000000e+03) / $v_T))) - $v_lnF_AB * (#4.3429448190325176e-01 * $v_B + #6.0801227466455256e-02 * $v_A) * (#(-8.6999999999999993e+00) + #2.8180295632113107e+03 / $v_T - #1.0) / $v_T) * (v_fwd_rates.[74] - v_rev_rates.[74]) + v_pres_mod.[12] / $v_T * ((v_fwd_rates.[74] - v_rev_rates.[74]) * (#(-9.6999999999999997e-01) + #3.1199613021268084e+02 / $v_T) + v_fwd_rates.[74] * #(-1.0) - v_rev_rates.[74] * ((- $v_T) * (v_dBdT.[18] - #2.0 * v_dBdT.[9])))) * $v_rho_inv));
  (*3126*) Do (AddA v_jac 10 ($v_j_temp * #(-2.0) * #1.5034820000000000e+01));
  (*3127*) Do (AddA v_jac 19 ($v_j_temp * #3.0069640000000000e+01))],
[
  (*3130*) If ($v_T) (#1000.0)
    [Asn v_Kc 0 (#2.5134503800000001e+00 + #(-2.0557558800000004e+00) * $v_logT + $v_T * (#(-4.7617231000000003e-03) + $v_T * (#8.0805652800000013e-06 + $v_T * (#(-4.7586900000000002e-09) + #1.0890431210000001e-12 * $v_T))) - #(-4.4412203099999999e+04) / $v_T)]
    [Asn v_Kc 0 (#1.6550210599999993e+00 + #(-2.4995539400000002e+00) * $v_logT + $v_T * (#3.6027334800000001e-03 + $v_T * (#(-6.7521995666666668e-07) + $v_T * (#8.5229226833333329e-11 + #(-4.8286005599999995e-15) * $v_T))) - #(-4.4977561799999996e+04) / $v_T)];
  (*3136*) Do (Asn v_Kc 0 (#8.2057360967184814e-02 * (Exp $v_Kc)));
  (*3137*) Do (Asn v_pres_mod_temp 0 ((#1.0 / (#1.0 + $v_Pr) - (Log (Fmax $v_Fcent #1.0e-300)) * #2.0 * $v_A * ($v_B * #0.4342944819032518 + $v_A * #0.06080122746645526) / ($v_B * $v_B * $v_B * (#1.0 + $v_A * $v_A / ($v_B * $v_B)) * (#1.0 + $v_A * $v_A / ($v_B * $v_B)))) * (v_fwd_rates.[74] - v_rev_rates.[74])));
  (*3138*) Do (Asn v_j_temp 0 ((- $v_mw_avg) * $v_rho_inv * v_pres_mod.[12] * (#2.0 * v_fwd_rates.[74] - v_rev_rates.[74] + $v_pres_mod_temp)));
  (*3139*) Do (MulA v_pres_mod_temp 0 ((Exp (#7.1199701340717226e+01 - #8.7 * $v_logT - #2.8180295632113107e+03 / $v_T)) * (Pow $v_Fcent (#1.0 / (#1 + $v_A * $v_A / ($v_B * $v_B)))) / (#1.0 + $v_Pr)));
  (*3140*) Do (Asn v_kf 0 ((Exp (#3.0685022297606515e+01 - #0.97 * $v_logT - #3.1199613021268084e+02 / $v_T))));
  (*3141*) Do (Asn v_kr 0 ($v_kf / $v_Kc));
  (*3142*) Do (AddA v_jac 31 (#(-1.4916383911740777e+01) * ($v_j_temp * #9.2803892982949643e-01 + #1.9280389298294964e+00 * $v_pres_mod_temp)));
  (*3143*) Do (AddA v_jac 40 (#1.4916383911740777e+01 * ($v_j_temp * #9.2803892982949643e-01 + #1.9280389298294964e+00 * $v_pres_mod_temp)));
  (*3144*) Do (AddA v_jac 52 (#(-2.9832767823481554e+01) * ($v_j_temp * #9.6401946491474821e-01 + #9.6401946491474821e-01 * $v_pres_mod_temp)));
  (*3145*) Do (AddA v_jac 61 (#2.9832767823481554e+01 * ($v_j_temp * #9.6401946491474821e-01 + #9.6401946491474821e-01 * $v_pres_mod_temp)));
  (*3146*) Do (AddA v_jac 73 (#(-1.8794229783616885e+00) * ($v_j_temp * #4.2886781649405936e-01 + #4.2886781649405936e-01 * $v_pres_mod_temp)));
  (*3147*) Do (AddA v_jac 82 (#1.8794229783616885e+00 * ($v_j_temp * #4.2886781649405936e-01 + #4.2886781649405936e-01 * $v_pres_mod_temp)));
  (*3148*) Do (AddA v_jac 94 (#(-9.3971148918084424e-01) * ($v_j_temp * #(-1.4226436701188128e-01) + #(-1.4226436701188128e-01) * $v_pres_mod_temp)));
  (*3149*) Do (AddA v_jac 103 (#9.3971148918084424e-01 * ($v_j_temp * #(-1.4226436701188128e-01) + #(-1.4226436701188128e-01) * $v_pres_mod_temp)));
  (*3150*) Do (AddA v_jac 115 (#(-1.7680389761126667e+00) * ($v_j_temp * #3.9288728140880758e-01 + #3.9288728140880758e-01 * $v_pres_mod_temp)));
  (*3151*) Do (AddA v_jac 124 (#1.7680389761126667e+00 * ($v_j_temp * #3.9288728140880758e-01 + #3.9288728140880758e-01 * $v_pres_mod_temp)));
  (*3152*) Do (AddA v_jac 136 (#(-1.6691186592714629e+00) * ($v_j_temp * #3.5690674632355568e-01 + #5.3569067463235553e+00 * $v_pres_mod_temp)));
  (*3153*) Do (AddA v_jac 145 (#1.6691186592714629e+00 * ($v_j_temp * #3.5690674632355568e-01 + #5.3569067463235553e+00 * $v_pres_mod_temp)));
  (*3154*) Do (AddA v_jac 157 (#(-9.1101514417964324e-01) * ($v_j_temp * #(-1.7824490209713328e-01) + #(-1.7824490209713328e-01) * $v_pres_mod_temp)));
  (*3155*) Do (AddA v_jac 166 (#9.1101514417964324e-01 * ($v_j_temp * #(-1.7824490209713328e-01) + #(-1.7824490209713328e-01) * $v_pres_mod_temp)));
  (*3156*) Do (AddA v_jac 178 (#(-2.1437154948213717e+00) * ($v_j_temp * #4.9928106040377707e-01 + #4.9928106040377707e-01 * $v_pres_mod_temp)));
  (*3157*) Do (AddA v_jac 187 (#2.1437154948213717e+00 * ($v_j_temp * #4.9928106040377707e-01 + #4.9928106040377707e-01 * $v_pres_mod_temp)));
  (*3158*) Do (AddA v_jac 199 (#(-2.1437154948213717e+00) * ($v_j_temp * #4.9928106040377707e-01 + #4.9928106040377707e-01 * $v_pres_mod_temp)));
  (*3159*) Do (AddA v_jac 208 (#2.1437154948213717e+00 * ($v_j_temp * #4.9928106040377707e-01 + #4.9928106040377707e-01 * $v_pres_mod_temp)));
  (*3160*) Do (AddA v_jac 220 (#(-2.0000000000000000e+00) * ($v_j_temp * #4.6330052531852528e-01 + #4.6330052531852528e-01 * $v_pres_mod_temp + v_pres_mod.[12] * ($v_kf * #2.0 * v_conc.[9]))));
  (*3161*) Do (AddA v_jac 229 (#2.0000000000000000e+00 * ($v_j_temp * #4.6330052531852528e-01 + #4.6330052531852528e-01 * $v_pres_mod_temp + v_pres_mod.[12] * ($v_kf * #2.0 * v_conc.[9]))));
  (*3162*) Do (AddA v_jac 241 (#(-1.8743433174840238e+00) * ($v_j_temp * #4.2731999023327338e-01 + #1.4273199902332734e+00 * $v_pres_mod_temp)));
  (*3163*) Do (AddA v_jac 250 (#1.8743433174840238e+00 * ($v_j_temp * #4.2731999023327338e-01 + #1.4273199902332734e+00 * $v_pres_mod_temp)));
  (*3164*) Do (AddA v_jac 262 (#(-1.0735169794076487e+00) * ($v_j_temp * #1.0994706834011048e-04 + #5.0010994706834011e-01 * $v_pres_mod_temp)));
  (*3165*) Do (AddA v_jac 271 (#1.0735169794076487e+00 * ($v_j_temp * #1.0994706834011048e-04 + #5.0010994706834011e-01 * $v_pres_mod_temp)));
  (*3166*) Do (AddA v_jac 283 (#(-6.8324873096446703e-01) * ($v_j_temp * #(-5.7102223643760053e-01) + #4.2897776356239947e-01 * $v_pres_mod_temp)));
  (*3167*) Do (AddA v_jac 292 (#6.8324873096446703e-01 * ($v_j_temp * #(-5.7102223643760053e-01) + #4.2897776356239947e-01 * $v_pres_mod_temp)));
  (*3168*) Do (AddA v_jac 304 (#(-1.0362288125371748e+00) * ($v_j_temp * #(-3.5870588016911675e-02) + #(-3.5870588016911675e-02) * $v_pres_mod_temp)));
  (*3169*) Do (AddA v_jac 313 (#1.0362288125371748e+00 * ($v_j_temp * #(-3.5870588016911675e-02) + #(-3.5870588016911675e-02) * $v_pres_mod_temp)));
  (*3170*) Do (AddA v_jac 325 (#(-1.0014440683294767e+00) * ($v_j_temp * #(-7.1851123102163683e-02) + #(-7.1851123102163683e-02) * $v_pres_mod_temp)));
  (*3171*) Do (AddA v_jac 334 (#1.0014440683294767e+00 * ($v_j_temp * #(-7.1851123102163683e-02) + #(-7.1851123102163683e-02) * $v_pres_mod_temp)));
  (*3172*) Do (AddA v_jac 346 (#(-9.6891882573494681e-01) * ($v_j_temp * #(-1.0783165818741525e-01) + #(-1.0783165818741525e-01) * $v_pres_mod_temp)));
  (*3173*) Do (AddA v_jac 355 (#9.6891882573494681e-01 * ($v_j_temp * #(-1.0783165818741525e-01) + #(-1.0783165818741525e-01) * $v_pres_mod_temp)));
  (*3174*) Do (AddA v_jac 367 (#(-1.0718577474106858e+00) * ($v_j_temp * #(-1.4378791924458678e-03) + #(-1.4378791924458678e-03) * $v_pres_mod_temp)));
  (*3175*) Do (AddA v_jac 376 (#1.0718577474106858e+00 * ($v_j_temp * #(-1.4378791924458678e-03) + #(-1.4378791924458678e-03) * $v_pres_mod_temp)));
  (*3176*) Do (AddA v_jac 388 (#(-1.0346827611598772e+00) * ($v_j_temp * #(-3.7418414277697654e-02) + #(-3.7418414277697654e-02) * $v_pres_mod_temp)));
  (*3177*) Do (AddA v_jac 397 (#1.0346827611598772e+00 * ($v_j_temp * #(-3.7418414277697654e-02) + #(-3.7418414277697654e-02) * $v_pres_mod_temp)));
  (*3178*) Do (AddA v_jac 409 ((- ($v_j_temp * #(-7.3398949362949439e-02) + #1.9266010506370506e+00 * $v_pres_mod_temp + v_pres_mod.[12] * (- $v_kr)))));
  (*3179*) Do (AddA v_jac 418 ($v_j_temp * #(-7.3398949362949439e-02) + #1.9266010506370506e+00 * $v_pres_mod_temp + v_pres_mod.[12] * (- $v_kr)));
  (*3180*) Do (AddA v_jac 430 (#(-7.5271953539601477e-01) * ($v_j_temp * #(-4.2602775520927771e-01) + #(-7.2602775520927776e-01) * $v_pres_mod_temp)));
  (*3181*) Do (AddA v_jac 439 (#7.5271953539601477e-01 * ($v_j_temp * #(-4.2602775520927771e-01) + #(-7.2602775520927776e-01) * $v_pres_mod_temp)))]);
([
  (*3184*) Do (Asn v_j_temp 0 (#1.0 / $v_T * ((v_fwd_rates.[75] - v_rev_rates.[75]) * (#1.0000000000000001e-01 + #5.3341273875071238e+03 / $v_T) + v_fwd_rates.[75] * #(-1.0) - v_rev_rates.[75] * (#(-1.0) + (- $v_T) * (v_dBdT.[1] + v_dBdT.[17] - #2.0 * v_dBdT.[9]))) * $v_rho_inv));
  (*3185*) Do (AddA v_jac 10 ($v_j_temp * #(-2.0) * #1.5034820000000000e+01));
  (*3186*) Do (AddA v_jac 18 ($v_j_temp * #2.9061699999999998e+01));
  (*3187*) Do (AddA v_jac 2 ($v_j_temp * #1.0079400000000001e+00))],
[
  (*3190*) If ($v_T) (#1000.0)
    [Asn v_Kc 0 (#1.5921128470000006e+00 + #(-5.4071512000000066e-01) * $v_logT + $v_T * (#(-4.1042462096473340e-03) + $v_T * (#6.3756405963340138e-06 + $v_T * (#(-3.8475260081415982e-09) + #8.9815928595361349e-13 * $v_T))) - #5.4252887999999948e+03 / $v_T)]
    [Asn v_Kc 0 (#(-3.8276131840000014e+00) + #(-1.1677901000000013e-01) * $v_logT + $v_T * (#1.4587357184578519e-03 + $v_T * (#(-3.3462995064063421e-07) + $v_T * (#4.6733966438737300e-11 + #(-2.8105348350901316e-15) * $v_T))) - #4.7800113000000019e+03 / $v_T)];
  (*3196*) Do (Asn v_Kc 0 ((Exp $v_Kc)));
  (*3197*) Do (Asn v_j_temp 0 ((- $v_mw_avg) * $v_rho_inv * (#2.0 * v_fwd_rates.[75] - #2.0 * v_rev_rates.[75])));
  (*3198*) Do (Asn v_kf 0 ((Exp (#2.2330701746709838e+01 + #0.1 * $v_logT - #5.3341273875071238e+03 / $v_T))));
  (*3199*) Do (Asn v_kr 0 ($v_kf / $v_Kc));
  (*3200*) Do (AddA v_jac 31 (#(-1.4916383911740777e+01) * ($v_j_temp * #9.2803892982949643e-01)));
  (*3201*) Do (AddA v_jac 39 (#1.4416383911740777e+01 * ($v_j_temp * #9.2803892982949643e-01)));
  (*3202*) Do (AddA v_jac 23 (#5.0000000000000000e-01 * ($v_j_temp * #9.2803892982949643e-01)));
  (*3203*) Do (AddA v_jac 52 (#(-2.9832767823481554e+01) * ($v_j_temp * #9.6401946491474821e-01 - $v_kr * v_conc.[17])));
  (*3204*) Do (AddA v_jac 60 (#2.8832767823481554e+01 * ($v_j_temp * #9.6401946491474821e-01 - $v_kr * v_conc.[17])));
  (*3205*) Do (AddA v_jac 44 ($v_j_temp * #9.6401946491474821e-01 - $v_kr * v_conc.[17]));
  (*3206*) Do (AddA v_jac 73 (#(-1.8794229783616885e+00) * ($v_j_temp * #4.2886781649405936e-01)));
  (*3207*) Do (AddA v_jac 81 (#1.8164243659137218e+00 * ($v_j_temp * #4.2886781649405936e-01)));
  (*3208*) Do (AddA v_jac 65 (#6.2998612447966798e-02 * ($v_j_temp * #4.2886781649405936e-01)));
  (*3209*) Do (AddA v_jac 94 (#(-9.3971148918084424e-01) * ($v_j_temp * #(-1.4226436701188128e-01))));
  (*3210*) Do (AddA v_jac 102 (#9.0821218295686090e-01 * ($v_j_temp * #(-1.4226436701188128e-01))));
  (*3211*) Do (AddA v_jac 86 (#3.1499306223983399e-02 * ($v_j_temp * #(-1.4226436701188128e-01))));
  (*3212*) Do (AddA v_jac 115 (#(-1.7680389761126667e+00) * ($v_j_temp * #3.9288728140880758e-01)));
  (*3213*) Do (AddA v_jac 123 (#1.7087739764125371e+00 * ($v_j_temp * #3.9288728140880758e-01)));
  (*3214*) Do (AddA v_jac 107 (#5.9264999700129481e-02 * ($v_j_temp * #3.9288728140880758e-01)));
  (*3215*) Do (AddA v_jac 136 (#(-1.6691186592714629e+00) * ($v_j_temp * #3.5690674632355568e-01)));
  (*3216*) Do (AddA v_jac 144 (#1.6131694872352802e+00 * ($v_j_temp * #3.5690674632355568e-01)));
  (*3217*) Do (AddA v_jac 128 (#5.5949172036182618e-02 * ($v_j_temp * #3.5690674632355568e-01)));
  (*3218*) Do (AddA v_jac 157 (#(-9.1101514417964324e-01) * ($v_j_temp * #(-1.7824490209713328e-01))));
  (*3219*) Do (AddA v_jac 165 (#8.8047774484847630e-01 * ($v_j_temp * #(-1.7824490209713328e-01))));
  (*3220*) Do (AddA v_jac 149 (#3.0537399331166910e-02 * ($v_j_temp * #(-1.7824490209713328e-01))));
  (*3221*) Do (AddA v_jac 178 (#(-2.1437154948213717e+00) * ($v_j_temp * #4.9928106040377707e-01)));
  (*3222*) Do (AddA v_jac 186 (#2.0718577474106858e+00 * ($v_j_temp * #4.9928106040377707e-01)));
  (*3223*) Do (AddA v_jac 170 (#7.1857747410685777e-02 * ($v_j_temp * #4.9928106040377707e-01)));
  (*3224*) Do (AddA v_jac 199 (#(-2.1437154948213717e+00) * ($v_j_temp * #4.9928106040377707e-01)));
  (*3225*) Do (AddA v_jac 207 (#2.0718577474106858e+00 * ($v_j_temp * #4.9928106040377707e-01)));
  (*3226*) Do (AddA v_jac 191 (#7.1857747410685777e-02 * ($v_j_temp * #4.9928106040377707e-01)));
  (*3227*) Do (AddA v_jac 220 (#(-2.0000000000000000e+00) * ($v_j_temp * #4.6330052531852528e-01 + $v_kf * #2.0 * v_conc.[9])));
  (*3228*) Do (AddA v_jac 228 (#1.9329596230616661e+00 * ($v_j_temp * #4.6330052531852528e-01 + $v_kf * #2.0 * v_conc.[9])));
  (*3229*) Do (AddA v_jac 212 (#6.7040376938333812e-02 * ($v_j_temp * #4.6330052531852528e-01 + $v_kf * #2.0 * v_conc.[9])));
  (*3230*) Do (AddA v_jac 241 (#(-1.8743433174840238e+00) * ($v_j_temp * #4.2731999023327338e-01)));
  (*3231*) Do (AddA v_jac 249 (#1.8115149762260356e+00 * ($v_j_temp * #4.2731999023327338e-01)));
  (*3232*) Do (AddA v_jac 233 (#6.2828341257988030e-02 * ($v_j_temp * #4.2731999023327338e-01)));
  (*3233*) Do (AddA v_jac 262 (#(-1.0735169794076487e+00) * ($v_j_temp * #1.0994706834011048e-04)));
  (*3234*) Do (AddA v_jac 270 (#1.0375324879330534e+00 * ($v_j_temp * #1.0994706834011048e-04)));
  (*3235*) Do (AddA v_jac 254 (#3.5984491474595155e-02 * ($v_j_temp * #1.0994706834011048e-04)));
  (*3236*) Do (AddA v_jac 283 (#(-6.8324873096446703e-01) * ($v_j_temp * #(-5.7102223643760053e-01))));
  (*3237*) Do (AddA v_jac 291 (#6.6034610473121891e-01 * ($v_j_temp * #(-5.7102223643760053e-01))));
  (*3238*) Do (AddA v_jac 275 (#2.2902626233248052e-02 * ($v_j_temp * #(-5.7102223643760053e-01))));
  (*3239*) Do (AddA v_jac 304 (#(-1.0362288125371748e+00) * ($v_j_temp * #(-3.5870588016911675e-02))));
  (*3240*) Do (AddA v_jac 312 (#1.0014942274437477e+00 * ($v_j_temp * #(-3.5870588016911675e-02))));
  (*3241*) Do (AddA v_jac 296 (#3.4734585093427126e-02 * ($v_j_temp * #(-3.5870588016911675e-02))));
  (*3242*) Do (AddA v_jac 325 (#(-1.0014440683294767e+00) * ($v_j_temp * #(-7.1851123102163683e-02))));
  (*3243*) Do (AddA v_jac 333 (#9.6787547441774335e-01 * ($v_j_temp * #(-7.1851123102163683e-02))));
  (*3244*) Do (AddA v_jac 317 (#3.3568593911733322e-02 * ($v_j_temp * #(-7.1851123102163683e-02))));
  (*3245*) Do (AddA v_jac 346 (#(-9.6891882573494681e-01) * ($v_j_temp * #(-1.0783165818741525e-01))));
  (*3246*) Do (AddA v_jac 354 (#9.3644048408498748e-01 * ($v_j_temp * #(-1.0783165818741525e-01))));
  (*3247*) Do (AddA v_jac 338 (#3.2478341649959309e-02 * ($v_j_temp * #(-1.0783165818741525e-01))));
  (*3248*) Do (AddA v_jac 367 (#(-1.0718577474106858e+00) * ($v_j_temp * #(-1.4378791924458678e-03))));
  (*3249*) Do (AddA v_jac 375 (#1.0359288737053429e+00 * ($v_j_temp * #(-1.4378791924458678e-03))));
  (*3250*) Do (AddA v_jac 359 (#3.5928873705342888e-02 * ($v_j_temp * #(-1.4378791924458678e-03))));
  (*3251*) Do (AddA v_jac 388 (#(-1.0346827611598772e+00) * ($v_j_temp * #(-3.7418414277697654e-02) - $v_kr * v_conc.[1])));
  (*3252*) Do (AddA v_jac 396 ($v_j_temp * #(-3.7418414277697654e-02) - $v_kr * v_conc.[1]));
  (*3253*) Do (AddA v_jac 380 (#3.4682761159877090e-02 * ($v_j_temp * #(-3.7418414277697654e-02) - $v_kr * v_conc.[1])));
  (*3254*) Do (AddA v_jac 409 ((- ($v_j_temp * #(-7.3398949362949439e-02)))));
  (*3255*) Do (AddA v_jac 417 (#9.6647981153083307e-01 * ($v_j_temp * #(-7.3398949362949439e-02))));
  (*3256*) Do (AddA v_jac 401 (#3.3520188469166906e-02 * ($v_j_temp * #(-7.3398949362949439e-02))));
  (*3257*) Do (AddA v_jac 430 (#(-7.5271953539601477e-01) * ($v_j_temp * #(-4.2602775520927771e-01))));
  (*3258*) Do (AddA v_jac 438 (#7.2748823470511659e-01 * ($v_j_temp * #(-4.2602775520927771e-01))));
  (*3259*) Do (AddA v_jac 422 (#2.5231300690898170e-02 * ($v_j_temp * #(-4.2602775520927771e-01))))]);
([
  (*3262*) Do (Asn v_j_temp 0 (#1.0 / $v_T * (v_fwd_rates.[76] * #(-1.0) - v_rev_rates.[76] * (#(-1.0) + (- $v_T) * (v_dBdT.[10] + v_dBdT.[11] - v_dBdT.[9] - v_dBdT.[13]))) * $v_rho_inv));
  (*3263*) Do (AddA v_jac 10 ((- $v_j_temp) * #1.5034820000000000e+01));
  (*3264*) Do (AddA v_jac 11 ($v_j_temp * #1.6042760000000001e+01));
  (*3265*) Do (AddA v_jac 12 ($v_j_temp * #2.8010399999999997e+01));
  (*3266*) Do (AddA v_jac 14 ((- $v_j_temp) * #2.9018339999999998e+01))],
[
  (*3269*) If ($v_T) (#1000.0)
    [Asn v_Kc 0 (#(-6.9664645999999983e+00) + #8.3463335999999977e-01 * $v_logT + $v_T * (#(-6.5241794550000010e-03) + $v_T * (#5.1144518450000005e-06 + $v_T * (#(-2.2818094305000002e-09) + #4.4417125555000006e-13 * $v_T))) - #(-4.4875297360000004e+04) / $v_T)]
    [Asn v_Kc 0 (#1.0245444005000003e+01 + #(-2.2678549950000004e+00) * $v_logT + $v_T * (#1.6283092500000004e-03 + $v_T * (#(-2.1001404183333331e-07) + $v_T * (#2.2344327999999988e-11 + #(-1.1056845550000002e-15) * $v_T))) - #(-4.4407719440000001e+04) / $v_T)];
  (*3275*) Do (Asn v_Kc 0 ((Exp $v_Kc)));
  (*3276*) Do (Asn v_j_temp 0 ((- $v_mw_avg) * $v_rho_inv * (#2.0 * v_fwd_rates.[76] - #2.0 * v_rev_rates.[76])));
  (*3277*) Do (Asn v_kf 0 (#26480000000.0));
  (*3278*) Do (Asn v_kr 0 ($v_kf / $v_Kc));
  (*3279*) Do (AddA v_jac 31 (#(-7.4581919558703884e+00) * ($v_j_temp * #9.2803892982949643e-01)));
  (*3280*) Do (AddA v_jac 32 (#7.9581919558703893e+00 * ($v_j_temp * #9.2803892982949643e-01)));
  (*3281*) Do (AddA v_jac 33 (#1.3894874694922315e+01 * ($v_j_temp * #9.2803892982949643e-01)));
  (*3282*) Do (AddA v_jac 35 (#(-1.4394874694922315e+01) * ($v_j_temp * #9.2803892982949643e-01)));
  (*3283*) Do (AddA v_jac 52 (#(-1.4916383911740777e+01) * ($v_j_temp * #9.6401946491474821e-01)));
  (*3284*) Do (AddA v_jac 53 (#1.5916383911740779e+01 * ($v_j_temp * #9.6401946491474821e-01)));
  (*3285*) Do (AddA v_jac 54 (#2.7789749389844630e+01 * ($v_j_temp * #9.6401946491474821e-01)));
  (*3286*) Do (AddA v_jac 56 (#(-2.8789749389844630e+01) * ($v_j_temp * #9.6401946491474821e-01)));
  (*3287*) Do (AddA v_jac 73 (#(-9.3971148918084424e-01) * ($v_j_temp * #4.2886781649405936e-01)));
  (*3288*) Do (AddA v_jac 74 (#1.0027101016288111e+00 * ($v_j_temp * #4.2886781649405936e-01)));
  (*3289*) Do (AddA v_jac 75 (#1.7507156518369438e+00 * ($v_j_temp * #4.2886781649405936e-01)));
  (*3290*) Do (AddA v_jac 77 (#(-1.8137142642849107e+00) * ($v_j_temp * #4.2886781649405936e-01)));
  (*3291*) Do (AddA v_jac 94 (#(-4.6985574459042212e-01) * ($v_j_temp * #(-1.4226436701188128e-01))));
  (*3292*) Do (AddA v_jac 95 (#5.0135505081440557e-01 * ($v_j_temp * #(-1.4226436701188128e-01))));
  (*3293*) Do (AddA v_jac 96 (#8.7535782591847189e-01 * ($v_j_temp * #(-1.4226436701188128e-01))));
  (*3294*) Do (AddA v_jac 98 (#(-9.0685713214245534e-01) * ($v_j_temp * #(-1.4226436701188128e-01))));
  (*3295*) Do (AddA v_jac 115 (#(-8.8401948805633335e-01) * ($v_j_temp * #3.9288728140880758e-01)));
  (*3296*) Do (AddA v_jac 116 (#9.4328448775646290e-01 * ($v_j_temp * #3.9288728140880758e-01)));
  (*3297*) Do (AddA v_jac 117 (#1.6469594892558153e+00 * ($v_j_temp * #3.9288728140880758e-01)));
  (*3298*) Do (AddA v_jac 119 (#(-1.7062244889559448e+00) * ($v_j_temp * #3.9288728140880758e-01)));
  (*3299*) Do (AddA v_jac 136 (#(-8.3455932963573143e-01) * ($v_j_temp * #3.5690674632355568e-01)));
  (*3300*) Do (AddA v_jac 137 (#8.9050850167191409e-01 * ($v_j_temp * #3.5690674632355568e-01)));
  (*3301*) Do (AddA v_jac 138 (#1.5548134694548181e+00 * ($v_j_temp * #3.5690674632355568e-01)));
  (*3302*) Do (AddA v_jac 140 (#(-1.6107626414910008e+00) * ($v_j_temp * #3.5690674632355568e-01)));
  (*3303*) Do (AddA v_jac 157 (#(-4.5550757208982162e-01) * ($v_j_temp * #(-1.7824490209713328e-01))));
  (*3304*) Do (AddA v_jac 158 (#4.8604497142098857e-01 * ($v_j_temp * #(-1.7824490209713328e-01))));
  (*3305*) Do (AddA v_jac 159 (#8.4862667443073736e-01 * ($v_j_temp * #(-1.7824490209713328e-01))));
  (*3306*) Do (AddA v_jac 161 (#(-8.7916407376190431e-01) * ($v_j_temp * #(-1.7824490209713328e-01))));
  (*3307*) Do (AddA v_jac 178 (#(-1.0718577474106858e+00) * ($v_j_temp * #4.9928106040377707e-01)));
  (*3308*) Do (AddA v_jac 179 (#1.1437154948213717e+00 * ($v_j_temp * #4.9928106040377707e-01)));
  (*3309*) Do (AddA v_jac 180 (#1.9969087922617146e+00 * ($v_j_temp * #4.9928106040377707e-01)));
  (*3310*) Do (AddA v_jac 182 (#(-2.0687665396724007e+00) * ($v_j_temp * #4.9928106040377707e-01)));
  (*3311*) Do (AddA v_jac 199 (#(-1.0718577474106858e+00) * ($v_j_temp * #4.9928106040377707e-01)));
  (*3312*) Do (AddA v_jac 200 (#1.1437154948213717e+00 * ($v_j_temp * #4.9928106040377707e-01)));
  (*3313*) Do (AddA v_jac 201 (#1.9969087922617146e+00 * ($v_j_temp * #4.9928106040377707e-01)));
  (*3314*) Do (AddA v_jac 203 (#(-2.0687665396724007e+00) * ($v_j_temp * #4.9928106040377707e-01)));
  (*3315*) Do (AddA v_jac 220 ((- ($v_j_temp * #4.6330052531852528e-01 + $v_kf * v_conc.[13]))));
  (*3316*) Do (AddA v_jac 221 (#1.0670403769383339e+00 * ($v_j_temp * #4.6330052531852528e-01 + $v_kf * v_conc.[13])));
  (*3317*) Do (AddA v_jac 222 (#1.8630352741170162e+00 * ($v_j_temp * #4.6330052531852528e-01 + $v_kf * v_conc.[13])));
  (*3318*) Do (AddA v_jac 224 (#(-1.9300756510553501e+00) * ($v_j_temp * #4.6330052531852528e-01 + $v_kf * v_conc.[13])));
  (*3319*) Do (AddA v_jac 241 (#(-9.3717165874201191e-01) * ($v_j_temp * #4.2731999023327338e-01 - $v_kr * v_conc.[11])));
  (*3320*) Do (AddA v_jac 242 ($v_j_temp * #4.2731999023327338e-01 - $v_kr * v_conc.[11]));
  (*3321*) Do (AddA v_jac 243 (#1.7459838581391229e+00 * ($v_j_temp * #4.2731999023327338e-01 - $v_kr * v_conc.[11])));
  (*3322*) Do (AddA v_jac 245 (#(-1.8088121993971109e+00) * ($v_j_temp * #4.2731999023327338e-01 - $v_kr * v_conc.[11])));
  (*3323*) Do (AddA v_jac 262 (#(-5.3675848970382434e-01) * ($v_j_temp * #1.0994706834011048e-04 - $v_kr * v_conc.[10])));
  (*3324*) Do (AddA v_jac 263 (#5.7274298117841960e-01 * ($v_j_temp * #1.0994706834011048e-04 - $v_kr * v_conc.[10])));
  (*3325*) Do (AddA v_jac 264 ($v_j_temp * #1.0994706834011048e-04 - $v_kr * v_conc.[10]));
  (*3326*) Do (AddA v_jac 266 (#(-1.0359844914745953e+00) * ($v_j_temp * #1.0994706834011048e-04 - $v_kr * v_conc.[10])));
  (*3327*) Do (AddA v_jac 283 (#(-3.4162436548223352e-01) * ($v_j_temp * #(-5.7102223643760053e-01))));
  (*3328*) Do (AddA v_jac 284 (#3.6452699171548159e-01 * ($v_j_temp * #(-5.7102223643760053e-01))));
  (*3329*) Do (AddA v_jac 285 (#6.3645824339124468e-01 * ($v_j_temp * #(-5.7102223643760053e-01))));
  (*3330*) Do (AddA v_jac 287 (#(-6.5936086962449270e-01) * ($v_j_temp * #(-5.7102223643760053e-01))));
  (*3331*) Do (AddA v_jac 304 (#(-5.1811440626858740e-01) * ($v_j_temp * #(-3.5870588016911675e-02) + $v_kf * v_conc.[9])));
  (*3332*) Do (AddA v_jac 305 (#5.5284899136201460e-01 * ($v_j_temp * #(-3.5870588016911675e-02) + $v_kf * v_conc.[9])));
  (*3333*) Do (AddA v_jac 306 (#9.6526541490657281e-01 * ($v_j_temp * #(-3.5870588016911675e-02) + $v_kf * v_conc.[9])));
  (*3334*) Do (AddA v_jac 308 ((- ($v_j_temp * #(-3.5870588016911675e-02) + $v_kf * v_conc.[9]))));
  (*3335*) Do (AddA v_jac 325 (#(-5.0072203416473837e-01) * ($v_j_temp * #(-7.1851123102163683e-02))));
  (*3336*) Do (AddA v_jac 326 (#5.3429062807647176e-01 * ($v_j_temp * #(-7.1851123102163683e-02))));
  (*3337*) Do (AddA v_jac 327 (#9.3286281217653322e-01 * ($v_j_temp * #(-7.1851123102163683e-02))));
  (*3338*) Do (AddA v_jac 329 (#(-9.6643140608826661e-01) * ($v_j_temp * #(-7.1851123102163683e-02))));
  (*3339*) Do (AddA v_jac 346 (#(-4.8445941286747340e-01) * ($v_j_temp * #(-1.0783165818741525e-01))));
  (*3340*) Do (AddA v_jac 347 (#5.1693775451743273e-01 * ($v_j_temp * #(-1.0783165818741525e-01))));
  (*3341*) Do (AddA v_jac 348 (#9.0256497505012201e-01 * ($v_j_temp * #(-1.0783165818741525e-01))));
  (*3342*) Do (AddA v_jac 350 (#(-9.3504331670008145e-01) * ($v_j_temp * #(-1.0783165818741525e-01))));
  (*3343*) Do (AddA v_jac 367 (#(-5.3592887370534292e-01) * ($v_j_temp * #(-1.4378791924458678e-03))));
  (*3344*) Do (AddA v_jac 368 (#5.7185774741068585e-01 * ($v_j_temp * #(-1.4378791924458678e-03))));
  (*3345*) Do (AddA v_jac 369 (#9.9845439613085729e-01 * ($v_j_temp * #(-1.4378791924458678e-03))));
  (*3346*) Do (AddA v_jac 371 (#(-1.0343832698362003e+00) * ($v_j_temp * #(-1.4378791924458678e-03))));
  (*3347*) Do (AddA v_jac 388 (#(-5.1734138057993861e-01) * ($v_j_temp * #(-3.7418414277697654e-02))));
  (*3348*) Do (AddA v_jac 389 (#5.5202414173981573e-01 * ($v_j_temp * #(-3.7418414277697654e-02))));
  (*3349*) Do (AddA v_jac 390 (#9.6382524078082144e-01 * ($v_j_temp * #(-3.7418414277697654e-02))));
  (*3350*) Do (AddA v_jac 392 (#(-9.9850800194069855e-01) * ($v_j_temp * #(-3.7418414277697654e-02))));
  (*3351*) Do (AddA v_jac 409 (#(-5.0000000000000000e-01) * ($v_j_temp * #(-7.3398949362949439e-02))));
  (*3352*) Do (AddA v_jac 410 (#5.3352018846916693e-01 * ($v_j_temp * #(-7.3398949362949439e-02))));
  (*3353*) Do (AddA v_jac 411 (#9.3151763705850810e-01 * ($v_j_temp * #(-7.3398949362949439e-02))));
  (*3354*) Do (AddA v_jac 413 (#(-9.6503782552767503e-01) * ($v_j_temp * #(-7.3398949362949439e-02))));
  (*3355*) Do (AddA v_jac 430 (#(-3.7635976769800739e-01) * ($v_j_temp * #(-4.2602775520927771e-01))));
  (*3356*) Do (AddA v_jac 431 (#4.0159106838890563e-01 * ($v_j_temp * #(-4.2602775520927771e-01))));
  (*3357*) Do (AddA v_jac 432 (#7.0117152297987373e-01 * ($v_j_temp * #(-4.2602775520927771e-01))));
  (*3358*) Do (AddA v_jac 434 (#(-7.2640282367077191e-01) * ($v_j_temp * #(-4.2602775520927771e-01))))]);
([
  (*3361*) Do (Asn v_j_temp 0 (#1.0 / $v_T * ((v_fwd_rates.[77] - v_rev_rates.[77]) * (#2.8100000000000001e+00 + #2.9488666500746931e+03 / $v_T) + v_fwd_rates.[77] * #(-1.0) - v_rev_rates.[77] * (#(-1.0) + (- $v_T) * (v_dBdT.[10] + v_dBdT.[13] - v_dBdT.[14] - v_dBdT.[9]))) * $v_rho_inv));
  (*3362*) Do (AddA v_jac 10 ((- $v_j_temp) * #1.5034820000000000e+01));
  (*3363*) Do (AddA v_jac 11 ($v_j_temp * #1.6042760000000001e+01));
  (*3364*) Do (AddA v_jac 14 ($v_j_temp * #2.9018339999999998e+01));
  (*3365*) Do (AddA v_jac 15 ((- $v_j_temp) * #3.0026280000000000e+01))],
[
  (*3368*) If ($v_T) (#1000.0)
    [Asn v_Kc 0 (#(-4.3580569799999989e+00) + #9.0374842000000033e-01 * $v_logT + $v_T * (#(-4.5087610900000005e-03) + $v_T * (#3.3179641900000019e-06 + $v_T * (#(-1.4157509625000003e-09) + #2.6429808549999996e-13 * $v_T))) - #(-8.5431247400000011e+03) / $v_T)]
    [Asn v_Kc 0 (#7.2986500549999995e+00 + #(-1.1993819250000002e+00) * $v_logT + $v_T * (#9.5400038499999975e-04 + $v_T * (#(-1.3459710166666672e-07) + $v_T * (#1.7499196999999999e-11 + #(-1.0032548849999998e-15) * $v_T))) - #(-8.2361784399999979e+03) / $v_T)];
  (*3374*) Do (Asn v_Kc 0 ((Exp $v_Kc)));
  (*3375*) Do (Asn v_j_temp 0 ((- $v_mw_avg) * $v_rho_inv * (#2.0 * v_fwd_rates.[77] - #2.0 * v_rev_rates.[77])));
  (*3376*) Do (Asn v_kf 0 ((Exp (#1.1999647829283970e+00 + #2.81 * $v_logT - #2.9488666500746931e+03 / $v_T))));
  (*3377*) Do (Asn v_kr 0 ($v_kf / $v_Kc));
  (*3378*) Do (AddA v_jac 31 (#(-7.4581919558703884e+00) * ($v_j_temp * #9.2803892982949643e-01)));
  (*3379*) Do (AddA v_jac 32 (#7.9581919558703893e+00 * ($v_j_temp * #9.2803892982949643e-01)));
  (*3380*) Do (AddA v_jac 35 (#1.4394874694922315e+01 * ($v_j_temp * #9.2803892982949643e-01)));
  (*3381*) Do (AddA v_jac 36 (#(-1.4894874694922317e+01) * ($v_j_temp * #9.2803892982949643e-01)));
  (*3382*) Do (AddA v_jac 52 (#(-1.4916383911740777e+01) * ($v_j_temp * #9.6401946491474821e-01)));
  (*3383*) Do (AddA v_jac 53 (#1.5916383911740779e+01 * ($v_j_temp * #9.6401946491474821e-01)));
  (*3384*) Do (AddA v_jac 56 (#2.8789749389844630e+01 * ($v_j_temp * #9.6401946491474821e-01)));
  (*3385*) Do (AddA v_jac 57 (#(-2.9789749389844633e+01) * ($v_j_temp * #9.6401946491474821e-01)));
  (*3386*) Do (AddA v_jac 73 (#(-9.3971148918084424e-01) * ($v_j_temp * #4.2886781649405936e-01)));
  (*3387*) Do (AddA v_jac 74 (#1.0027101016288111e+00 * ($v_j_temp * #4.2886781649405936e-01)));
  (*3388*) Do (AddA v_jac 77 (#1.8137142642849107e+00 * ($v_j_temp * #4.2886781649405936e-01)));
  (*3389*) Do (AddA v_jac 78 (#(-1.8767128767328776e+00) * ($v_j_temp * #4.2886781649405936e-01)));
  (*3390*) Do (AddA v_jac 94 (#(-4.6985574459042212e-01) * ($v_j_temp * #(-1.4226436701188128e-01))));
  (*3391*) Do (AddA v_jac 95 (#5.0135505081440557e-01 * ($v_j_temp * #(-1.4226436701188128e-01))));
  (*3392*) Do (AddA v_jac 98 (#9.0685713214245534e-01 * ($v_j_temp * #(-1.4226436701188128e-01))));
  (*3393*) Do (AddA v_jac 99 (#(-9.3835643836643878e-01) * ($v_j_temp * #(-1.4226436701188128e-01))));
  (*3394*) Do (AddA v_jac 115 (#(-8.8401948805633335e-01) * ($v_j_temp * #3.9288728140880758e-01)));
  (*3395*) Do (AddA v_jac 116 (#9.4328448775646290e-01 * ($v_j_temp * #3.9288728140880758e-01)));
  (*3396*) Do (AddA v_jac 119 (#1.7062244889559448e+00 * ($v_j_temp * #3.9288728140880758e-01)));
  (*3397*) Do (AddA v_jac 120 (#(-1.7654894886560744e+00) * ($v_j_temp * #3.9288728140880758e-01)));
  (*3398*) Do (AddA v_jac 136 (#(-8.3455932963573143e-01) * ($v_j_temp * #3.5690674632355568e-01)));
  (*3399*) Do (AddA v_jac 137 (#8.9050850167191409e-01 * ($v_j_temp * #3.5690674632355568e-01)));
  (*3400*) Do (AddA v_jac 140 (#1.6107626414910008e+00 * ($v_j_temp * #3.5690674632355568e-01)));
  (*3401*) Do (AddA v_jac 141 (#(-1.6667118135271835e+00) * ($v_j_temp * #3.5690674632355568e-01)));
  (*3402*) Do (AddA v_jac 157 (#(-4.5550757208982162e-01) * ($v_j_temp * #(-1.7824490209713328e-01))));
  (*3403*) Do (AddA v_jac 158 (#4.8604497142098857e-01 * ($v_j_temp * #(-1.7824490209713328e-01))));
  (*3404*) Do (AddA v_jac 161 (#8.7916407376190431e-01 * ($v_j_temp * #(-1.7824490209713328e-01))));
  (*3405*) Do (AddA v_jac 162 (#(-9.0970147309307126e-01) * ($v_j_temp * #(-1.7824490209713328e-01))));
  (*3406*) Do (AddA v_jac 178 (#(-1.0718577474106858e+00) * ($v_j_temp * #4.9928106040377707e-01)));
  (*3407*) Do (AddA v_jac 179 (#1.1437154948213717e+00 * ($v_j_temp * #4.9928106040377707e-01)));
  (*3408*) Do (AddA v_jac 182 (#2.0687665396724007e+00 * ($v_j_temp * #4.9928106040377707e-01)));
  (*3409*) Do (AddA v_jac 183 (#(-2.1406242870830865e+00) * ($v_j_temp * #4.9928106040377707e-01)));
  (*3410*) Do (AddA v_jac 199 (#(-1.0718577474106858e+00) * ($v_j_temp * #4.9928106040377707e-01)));
  (*3411*) Do (AddA v_jac 200 (#1.1437154948213717e+00 * ($v_j_temp * #4.9928106040377707e-01)));
  (*3412*) Do (AddA v_jac 203 (#2.0687665396724007e+00 * ($v_j_temp * #4.9928106040377707e-01)));
  (*3413*) Do (AddA v_jac 204 (#(-2.1406242870830865e+00) * ($v_j_temp * #4.9928106040377707e-01)));
  (*3414*) Do (AddA v_jac 220 ((- ($v_j_temp * #4.6330052531852528e-01 + $v_kf * v_conc.[14]))));
  (*3415*) Do (AddA v_jac 221 (#1.0670403769383339e+00 * ($v_j_temp * #4.6330052531852528e-01 + $v_kf * v_conc.[14])));
  (*3416*) Do (AddA v_jac 224 (#1.9300756510553501e+00 * ($v_j_temp * #4.6330052531852528e-01 + $v_kf * v_conc.[14])));
  (*3417*) Do (AddA v_jac 225 (#(-1.9971160279936839e+00) * ($v_j_temp * #4.6330052531852528e-01 + $v_kf * v_conc.[14])));
  (*3418*) Do (AddA v_jac 241 (#(-9.3717165874201191e-01) * ($v_j_temp * #4.2731999023327338e-01 - $v_kr * v_conc.[13])));
  (*3419*) Do (AddA v_jac 242 ($v_j_temp * #4.2731999023327338e-01 - $v_kr * v_conc.[13]));
  (*3420*) Do (AddA v_jac 245 (#1.8088121993971109e+00 * ($v_j_temp * #4.2731999023327338e-01 - $v_kr * v_conc.[13])));
  (*3421*) Do (AddA v_jac 246 (#(-1.8716405406550991e+00) * ($v_j_temp * #4.2731999023327338e-01 - $v_kr * v_conc.[13])));
  (*3422*) Do (AddA v_jac 262 (#(-5.3675848970382434e-01) * ($v_j_temp * #1.0994706834011048e-04)));
  (*3423*) Do (AddA v_jac 263 (#5.7274298117841960e-01 * ($v_j_temp * #1.0994706834011048e-04)));
  (*3424*) Do (AddA v_jac 266 (#1.0359844914745953e+00 * ($v_j_temp * #1.0994706834011048e-04)));
  (*3425*) Do (AddA v_jac 267 (#(-1.0719689829491903e+00) * ($v_j_temp * #1.0994706834011048e-04)));
  (*3426*) Do (AddA v_jac 283 (#(-3.4162436548223352e-01) * ($v_j_temp * #(-5.7102223643760053e-01))));
  (*3427*) Do (AddA v_jac 284 (#3.6452699171548159e-01 * ($v_j_temp * #(-5.7102223643760053e-01))));
  (*3428*) Do (AddA v_jac 287 (#6.5936086962449270e-01 * ($v_j_temp * #(-5.7102223643760053e-01))));
  (*3429*) Do (AddA v_jac 288 (#(-6.8226349585774082e-01) * ($v_j_temp * #(-5.7102223643760053e-01))));
  (*3430*) Do (AddA v_jac 304 (#(-5.1811440626858740e-01) * ($v_j_temp * #(-3.5870588016911675e-02) - $v_kr * v_conc.[10])));
  (*3431*) Do (AddA v_jac 305 (#5.5284899136201460e-01 * ($v_j_temp * #(-3.5870588016911675e-02) - $v_kr * v_conc.[10])));
  (*3432*) Do (AddA v_jac 308 ($v_j_temp * #(-3.5870588016911675e-02) - $v_kr * v_conc.[10]));
  (*3433*) Do (AddA v_jac 309 (#(-1.0347345850934271e+00) * ($v_j_temp * #(-3.5870588016911675e-02) - $v_kr * v_conc.[10])));
  (*3434*) Do (AddA v_jac 325 (#(-5.0072203416473837e-01) * ($v_j_temp * #(-7.1851123102163683e-02) + $v_kf * v_conc.[9])));
  (*3435*) Do (AddA v_jac 326 (#5.3429062807647176e-01 * ($v_j_temp * #(-7.1851123102163683e-02) + $v_kf * v_conc.[9])));
  (*3436*) Do (AddA v_jac 329 (#9.6643140608826661e-01 * ($v_j_temp * #(-7.1851123102163683e-02) + $v_kf * v_conc.[9])));
  (*3437*) Do (AddA v_jac 330 ((- ($v_j_temp * #(-7.1851123102163683e-02) + $v_kf * v_conc.[9]))));
  (*3438*) Do (AddA v_jac 346 (#(-4.8445941286747340e-01) * ($v_j_temp * #(-1.0783165818741525e-01))));
  (*3439*) Do (AddA v_jac 347 (#5.1693775451743273e-01 * ($v_j_temp * #(-1.0783165818741525e-01))));
  (*3440*) Do (AddA v_jac 350 (#9.3504331670008145e-01 * ($v_j_temp * #(-1.0783165818741525e-01))));
  (*3441*) Do (AddA v_jac 351 (#(-9.6752165835004078e-01) * ($v_j_temp * #(-1.0783165818741525e-01))));
  (*3442*) Do (AddA v_jac 367 (#(-5.3592887370534292e-01) * ($v_j_temp * #(-1.4378791924458678e-03))));
  (*3443*) Do (AddA v_jac 368 (#5.7185774741068585e-01 * ($v_j_temp * #(-1.4378791924458678e-03))));
  (*3444*) Do (AddA v_jac 371 (#1.0343832698362003e+00 * ($v_j_temp * #(-1.4378791924458678e-03))));
  (*3445*) Do (AddA v_jac 372 (#(-1.0703121435415432e+00) * ($v_j_temp * #(-1.4378791924458678e-03))));
  (*3446*) Do (AddA v_jac 388 (#(-5.1734138057993861e-01) * ($v_j_temp * #(-3.7418414277697654e-02))));
  (*3447*) Do (AddA v_jac 389 (#5.5202414173981573e-01 * ($v_j_temp * #(-3.7418414277697654e-02))));
  (*3448*) Do (AddA v_jac 392 (#9.9850800194069855e-01 * ($v_j_temp * #(-3.7418414277697654e-02))));
  (*3449*) Do (AddA v_jac 393 (#(-1.0331907631005757e+00) * ($v_j_temp * #(-3.7418414277697654e-02))));
  (*3450*) Do (AddA v_jac 409 (#(-5.0000000000000000e-01) * ($v_j_temp * #(-7.3398949362949439e-02))));
  (*3451*) Do (AddA v_jac 410 (#5.3352018846916693e-01 * ($v_j_temp * #(-7.3398949362949439e-02))));
  (*3452*) Do (AddA v_jac 413 (#9.6503782552767503e-01 * ($v_j_temp * #(-7.3398949362949439e-02))));
  (*3453*) Do (AddA v_jac 414 (#(-9.9855801399684196e-01) * ($v_j_temp * #(-7.3398949362949439e-02))));
  (*3454*) Do (AddA v_jac 430 (#(-3.7635976769800739e-01) * ($v_j_temp * #(-4.2602775520927771e-01))));
  (*3455*) Do (AddA v_jac 431 (#4.0159106838890563e-01 * ($v_j_temp * #(-4.2602775520927771e-01))));
  (*3456*) Do (AddA v_jac 434 (#7.2640282367077191e-01 * ($v_j_temp * #(-4.2602775520927771e-01))));
  (*3457*) Do (AddA v_jac 435 (#(-7.5163412436167021e-01) * ($v_j_temp * #(-4.2602775520927771e-01))))]);
([
  (*3460*) Do (Asn v_j_temp 0 (#1.0 / $v_T * ((v_fwd_rates.[78] - v_rev_rates.[78]) * (#1.7400000000000000e+00 + #5.2586444527782496e+03 / $v_T) + v_fwd_rates.[78] * #(-1.0) - v_rev_rates.[78] * (#(-1.0) + (- $v_T) * (v_dBdT.[17] + v_dBdT.[10] - v_dBdT.[18] - v_dBdT.[9]))) * $v_rho_inv));
  (*3461*) Do (AddA v_jac 10 ((- $v_j_temp) * #1.5034820000000000e+01));
  (*3462*) Do (AddA v_jac 19 ((- $v_j_temp) * #3.0069640000000000e+01));
  (*3463*) Do (AddA v_jac 11 ($v_j_temp * #1.6042760000000001e+01));
  (*3464*) Do (AddA v_jac 18 ($v_j_temp * #2.9061699999999998e+01))],
[
  (*3467*) If ($v_T) (#1000.0)
    [Asn v_Kc 0 (#(-5.6968084999999977e+00) + #1.4913264899999996e+00 * $v_logT + $v_T * (#(-7.1834883850000007e-03) + $v_T * (#5.5367155399999991e-06 + $v_T * (#(-2.5557633708333334e-09) + #5.1539307799999995e-13 * $v_T))) - #(-2.3278144000000011e+03) / $v_T)]
    [Asn v_Kc 0 (#9.6321611149999988e+00 + #(-1.3280913050000001e+00) * $v_logT + $v_T * (#9.3152541500000040e-04 + $v_T * (#(-1.1702909833333350e-07) + $v_T * (#1.3774798833333297e-11 + #(-7.3692383000000025e-16) * $v_T))) - #(-1.9600156899999984e+03) / $v_T)];
  (*3473*) Do (Asn v_Kc 0 ((Exp $v_Kc)));
  (*3474*) Do (Asn v_j_temp 0 ((- $v_mw_avg) * $v_rho_inv * (#2.0 * v_fwd_rates.[78] - #2.0 * v_rev_rates.[78])));
  (*3475*) Do (Asn v_kf 0 ((Exp (#8.7225800211411890e+00 + #1.74 * $v_logT - #5.2586444527782496e+03 / $v_T))));
  (*3476*) Do (Asn v_kr 0 ($v_kf / $v_Kc));
  (*3477*) Do (AddA v_jac 31 (#(-7.4581919558703884e+00) * ($v_j_temp * #9.2803892982949643e-01)));
  (*3478*) Do (AddA v_jac 40 (#(-1.4916383911740777e+01) * ($v_j_temp * #9.2803892982949643e-01)));
  (*3479*) Do (AddA v_jac 32 (#7.9581919558703893e+00 * ($v_j_temp * #9.2803892982949643e-01)));
  (*3480*) Do (AddA v_jac 39 (#1.4416383911740777e+01 * ($v_j_temp * #9.2803892982949643e-01)));
  (*3481*) Do (AddA v_jac 52 (#(-1.4916383911740777e+01) * ($v_j_temp * #9.6401946491474821e-01)));
  (*3482*) Do (AddA v_jac 61 (#(-2.9832767823481554e+01) * ($v_j_temp * #9.6401946491474821e-01)));
  (*3483*) Do (AddA v_jac 53 (#1.5916383911740779e+01 * ($v_j_temp * #9.6401946491474821e-01)));
  (*3484*) Do (AddA v_jac 60 (#2.8832767823481554e+01 * ($v_j_temp * #9.6401946491474821e-01)));
  (*3485*) Do (AddA v_jac 73 (#(-9.3971148918084424e-01) * ($v_j_temp * #4.2886781649405936e-01)));
  (*3486*) Do (AddA v_jac 82 (#(-1.8794229783616885e+00) * ($v_j_temp * #4.2886781649405936e-01)));
  (*3487*) Do (AddA v_jac 74 (#1.0027101016288111e+00 * ($v_j_temp * #4.2886781649405936e-01)));
  (*3488*) Do (AddA v_jac 81 (#1.8164243659137218e+00 * ($v_j_temp * #4.2886781649405936e-01)));
  (*3489*) Do (AddA v_jac 94 (#(-4.6985574459042212e-01) * ($v_j_temp * #(-1.4226436701188128e-01))));
  (*3490*) Do (AddA v_jac 103 (#(-9.3971148918084424e-01) * ($v_j_temp * #(-1.4226436701188128e-01))));
  (*3491*) Do (AddA v_jac 95 (#5.0135505081440557e-01 * ($v_j_temp * #(-1.4226436701188128e-01))));
  (*3492*) Do (AddA v_jac 102 (#9.0821218295686090e-01 * ($v_j_temp * #(-1.4226436701188128e-01))));
  (*3493*) Do (AddA v_jac 115 (#(-8.8401948805633335e-01) * ($v_j_temp * #3.9288728140880758e-01)));
  (*3494*) Do (AddA v_jac 124 (#(-1.7680389761126667e+00) * ($v_j_temp * #3.9288728140880758e-01)));
  (*3495*) Do (AddA v_jac 116 (#9.4328448775646290e-01 * ($v_j_temp * #3.9288728140880758e-01)));
  (*3496*) Do (AddA v_jac 123 (#1.7087739764125371e+00 * ($v_j_temp * #3.9288728140880758e-01)));
  (*3497*) Do (AddA v_jac 136 (#(-8.3455932963573143e-01) * ($v_j_temp * #3.5690674632355568e-01)));
  (*3498*) Do (AddA v_jac 145 (#(-1.6691186592714629e+00) * ($v_j_temp * #3.5690674632355568e-01)));
  (*3499*) Do (AddA v_jac 137 (#8.9050850167191409e-01 * ($v_j_temp * #3.5690674632355568e-01)));
  (*3500*) Do (AddA v_jac 144 (#1.6131694872352802e+00 * ($v_j_temp * #3.5690674632355568e-01)));
  (*3501*) Do (AddA v_jac 157 (#(-4.5550757208982162e-01) * ($v_j_temp * #(-1.7824490209713328e-01))));
  (*3502*) Do (AddA v_jac 166 (#(-9.1101514417964324e-01) * ($v_j_temp * #(-1.7824490209713328e-01))));
  (*3503*) Do (AddA v_jac 158 (#4.8604497142098857e-01 * ($v_j_temp * #(-1.7824490209713328e-01))));
  (*3504*) Do (AddA v_jac 165 (#8.8047774484847630e-01 * ($v_j_temp * #(-1.7824490209713328e-01))));
  (*3505*) Do (AddA v_jac 178 (#(-1.0718577474106858e+00) * ($v_j_temp * #4.9928106040377707e-01)));
  (*3506*) Do (AddA v_jac 187 (#(-2.1437154948213717e+00) * ($v_j_temp * #4.9928106040377707e-01)));
  (*3507*) Do (AddA v_jac 179 (#1.1437154948213717e+00 * ($v_j_temp * #4.9928106040377707e-01)));
  (*3508*) Do (AddA v_jac 186 (#2.0718577474106858e+00 * ($v_j_temp * #4.9928106040377707e-01)));
  (*3509*) Do (AddA v_jac 199 (#(-1.0718577474106858e+00) * ($v_j_temp * #4.9928106040377707e-01)));
  (*3510*) Do (AddA v_jac 208 (#(-2.1437154948213717e+00) * ($v_j_temp * #4.9928106040377707e-01)));
  (*3511*) Do (AddA v_jac 200 (#1.1437154948213717e+00 * ($v_j_temp * #4.9928106040377707e-01)));
  (*3512*) Do (AddA v_jac 207 (#2.0718577474106858e+00 * ($v_j_temp * #4.9928106040377707e-01)));
  (*3513*) Do (AddA v_jac 220 ((- ($v_j_temp * #4.6330052531852528e-01 + $v_kf * v_conc.[18]))));
  (*3514*) Do (AddA v_jac 229 (#(-2.0000000000000000e+00) * ($v_j_temp * #4.6330052531852528e-01 + $v_kf * v_conc.[18])));
  (*3515*) Do (AddA v_jac 221 (#1.0670403769383339e+00 * ($v_j_temp * #4.6330052531852528e-01 + $v_kf * v_conc.[18])));
  (*3516*) Do (AddA v_jac 228 (#1.9329596230616661e+00 * ($v_j_temp * #4.6330052531852528e-01 + $v_kf * v_conc.[18])));
  (*3517*) Do (AddA v_jac 241 (#(-9.3717165874201191e-01) * ($v_j_temp * #4.2731999023327338e-01 - $v_kr * v_conc.[17])));
  (*3518*) Do (AddA v_jac 250 (#(-1.8743433174840238e+00) * ($v_j_temp * #4.2731999023327338e-01 - $v_kr * v_conc.[17])));
  (*3519*) Do (AddA v_jac 242 ($v_j_temp * #4.2731999023327338e-01 - $v_kr * v_conc.[17]));
  (*3520*) Do (AddA v_jac 249 (#1.8115149762260356e+00 * ($v_j_temp * #4.2731999023327338e-01 - $v_kr * v_conc.[17])));
  (*3521*) Do (AddA v_jac 262 (#(-5.3675848970382434e-01) * ($v_j_temp * #1.0994706834011048e-04)));
  (*3522*) Do (AddA v_jac 271 (#(-1.0735169794076487e+00) * ($v_j_temp * #1.0994706834011048e-04)));
  (*3523*) Do (AddA v_jac 263 (#5.7274298117841960e-01 * ($v_j_temp * #1.0994706834011048e-04)));
  (*3524*) Do (AddA v_jac 270 (#1.0375324879330534e+00 * ($v_j_temp * #1.0994706834011048e-04)));
  (*3525*) Do (AddA v_jac 283 (#(-3.4162436548223352e-01) * ($v_j_temp * #(-5.7102223643760053e-01))));
  (*3526*) Do (AddA v_jac 292 (#(-6.8324873096446703e-01) * ($v_j_temp * #(-5.7102223643760053e-01))));
  (*3527*) Do (AddA v_jac 284 (#3.6452699171548159e-01 * ($v_j_temp * #(-5.7102223643760053e-01))));
  (*3528*) Do (AddA v_jac 291 (#6.6034610473121891e-01 * ($v_j_temp * #(-5.7102223643760053e-01))));
  (*3529*) Do (AddA v_jac 304 (#(-5.1811440626858740e-01) * ($v_j_temp * #(-3.5870588016911675e-02))));
  (*3530*) Do (AddA v_jac 313 (#(-1.0362288125371748e+00) * ($v_j_temp * #(-3.5870588016911675e-02))));
  (*3531*) Do (AddA v_jac 305 (#5.5284899136201460e-01 * ($v_j_temp * #(-3.5870588016911675e-02))));
  (*3532*) Do (AddA v_jac 312 (#1.0014942274437477e+00 * ($v_j_temp * #(-3.5870588016911675e-02))));
  (*3533*) Do (AddA v_jac 325 (#(-5.0072203416473837e-01) * ($v_j_temp * #(-7.1851123102163683e-02))));
  (*3534*) Do (AddA v_jac 334 (#(-1.0014440683294767e+00) * ($v_j_temp * #(-7.1851123102163683e-02))));
  (*3535*) Do (AddA v_jac 326 (#5.3429062807647176e-01 * ($v_j_temp * #(-7.1851123102163683e-02))));
  (*3536*) Do (AddA v_jac 333 (#9.6787547441774335e-01 * ($v_j_temp * #(-7.1851123102163683e-02))));
  (*3537*) Do (AddA v_jac 346 (#(-4.8445941286747340e-01) * ($v_j_temp * #(-1.0783165818741525e-01))));
  (*3538*) Do (AddA v_jac 355 (#(-9.6891882573494681e-01) * ($v_j_temp * #(-1.0783165818741525e-01))));
  (*3539*) Do (AddA v_jac 347 (#5.1693775451743273e-01 * ($v_j_temp * #(-1.0783165818741525e-01))));
  (*3540*) Do (AddA v_jac 354 (#9.3644048408498748e-01 * ($v_j_temp * #(-1.0783165818741525e-01))));
  (*3541*) Do (AddA v_jac 367 (#(-5.3592887370534292e-01) * ($v_j_temp * #(-1.4378791924458678e-03))));
  (*3542*) Do (AddA v_jac 376 (#(-1.0718577474106858e+00) * ($v_j_temp * #(-1.4378791924458678e-03))));
  (*3543*) Do (AddA v_jac 368 (#5.7185774741068585e-01 * ($v_j_temp * #(-1.4378791924458678e-03))));
  (*3544*) Do (AddA v_jac 375 (#1.0359288737053429e+00 * ($v_j_temp * #(-1.4378791924458678e-03))));
  (*3545*) Do (AddA v_jac 388 (#(-5.1734138057993861e-01) * ($v_j_temp * #(-3.7418414277697654e-02) - $v_kr * v_conc.[10])));
  (*3546*) Do (AddA v_jac 397 (#(-1.0346827611598772e+00) * ($v_j_temp * #(-3.7418414277697654e-02) - $v_kr * v_conc.[10])));
  (*3547*) Do (AddA v_jac 389 (#5.5202414173981573e-01 * ($v_j_temp * #(-3.7418414277697654e-02) - $v_kr * v_conc.[10])));
  (*3548*) Do (AddA v_jac 396 ($v_j_temp * #(-3.7418414277697654e-02) - $v_kr * v_conc.[10]));
  (*3549*) Do (AddA v_jac 409 (#(-5.0000000000000000e-01) * ($v_j_temp * #(-7.3398949362949439e-02) + $v_kf * v_conc.[9])));
  (*3550*) Do (AddA v_jac 418 ((- ($v_j_temp * #(-7.3398949362949439e-02) + $v_kf * v_conc.[9]))));
  (*3551*) Do (AddA v_jac 410 (#5.3352018846916693e-01 * ($v_j_temp * #(-7.3398949362949439e-02) + $v_kf * v_conc.[9])));
  (*3552*) Do (AddA v_jac 417 (#9.6647981153083307e-01 * ($v_j_temp * #(-7.3398949362949439e-02) + $v_kf * v_conc.[9])));
  (*3553*) Do (AddA v_jac 430 (#(-3.7635976769800739e-01) * ($v_j_temp * #(-4.2602775520927771e-01))));
  (*3554*) Do (AddA v_jac 439 (#(-7.5271953539601477e-01) * ($v_j_temp * #(-4.2602775520927771e-01))));
  (*3555*) Do (AddA v_jac 431 (#4.0159106838890563e-01 * ($v_j_temp * #(-4.2602775520927771e-01))));
  (*3556*) Do (AddA v_jac 438 (#7.2748823470511659e-01 * ($v_j_temp * #(-4.2602775520927771e-01))))]);
([
  (*3559*) Do (Asn v_j_temp 0 (#1.0 / $v_T * ((v_fwd_rates.[79] - v_rev_rates.[79]) * (#(-1.0000000000000000e+00) + #8.5547326026057654e+03 / $v_T) + v_fwd_rates.[79] * #(-1.0) - v_rev_rates.[79] * (#(-2.0) + (- $v_T) * (v_dBdT.[1] + v_dBdT.[11] - v_dBdT.[13]))) * $v_rho_inv));
  (*3560*) Do (AddA v_jac 2 ($v_j_temp * #1.0079400000000001e+00));
  (*3561*) Do (AddA v_jac 12 ($v_j_temp * #2.8010399999999997e+01));
  (*3562*) Do (AddA v_jac 14 ((- $v_j_temp) * #2.9018339999999998e+01))],
[
  (*3565*) If ($v_T) (#1000.0)
    [Asn v_Kc 0 (#(-2.1909936329999997e+00) + #8.5834762999999903e-01 * $v_logT + $v_T * (#1.3167858203526664e-03 + $v_T * (#(-2.1271883786659866e-06) + $v_T * (#1.1851179321917348e-09 + #(-2.6210565749638660e-13) * $v_T))) - #7.2900089399999997e+03 / $v_T)]
    [Asn v_Kc 0 (#(-4.8693513540000000e+00) + #1.4430112399999997e+00 * $v_logT + $v_T * (#(-1.4472139265421485e-03) + $v_T * (#2.4760506252603246e-07 + $v_T * (#(-2.9925731227929364e-11) + #1.6493049999098680e-15 * $v_T))) - #7.3098693499999990e+03 / $v_T)];
  (*3571*) Do (Asn v_Kc 0 (#1.2186597134166982e+01 * (Exp $v_Kc)));
  (*3572*) Do (Asn v_j_temp 0 ((- $v_mw_avg) * $v_rho_inv * (#2.0 * v_fwd_rates.[79] - #3.0 * v_rev_rates.[79])));
  (*3573*) Do (Asn v_kf 0 ((Exp (#3.5347036382571133e+01 - #1.0 * $v_logT - #8.5547326026057654e+03 / $v_T))));
  (*3574*) Do (Asn v_kr 0 ($v_kf / $v_Kc));
  (*3575*) Do (AddA v_jac 23 (#5.0000000000000000e-01 * ($v_j_temp * #9.2803892982949643e-01)));
  (*3576*) Do (AddA v_jac 33 (#1.3894874694922315e+01 * ($v_j_temp * #9.2803892982949643e-01)));
  (*3577*) Do (AddA v_jac 35 (#(-1.4394874694922315e+01) * ($v_j_temp * #9.2803892982949643e-01)));
  (*3578*) Do (AddA v_jac 44 ($v_j_temp * #9.6401946491474821e-01 - $v_kr * v_conc.[5] * v_conc.[11]));
  (*3579*) Do (AddA v_jac 54 (#2.7789749389844630e+01 * ($v_j_temp * #9.6401946491474821e-01 - $v_kr * v_conc.[5] * v_conc.[11])));
  (*3580*) Do (AddA v_jac 56 (#(-2.8789749389844630e+01) * ($v_j_temp * #9.6401946491474821e-01 - $v_kr * v_conc.[5] * v_conc.[11])));
  (*3581*) Do (AddA v_jac 65 (#6.2998612447966798e-02 * ($v_j_temp * #4.2886781649405936e-01)));
  (*3582*) Do (AddA v_jac 75 (#1.7507156518369438e+00 * ($v_j_temp * #4.2886781649405936e-01)));
  (*3583*) Do (AddA v_jac 77 (#(-1.8137142642849107e+00) * ($v_j_temp * #4.2886781649405936e-01)));
  (*3584*) Do (AddA v_jac 86 (#3.1499306223983399e-02 * ($v_j_temp * #(-1.4226436701188128e-01))));
  (*3585*) Do (AddA v_jac 96 (#8.7535782591847189e-01 * ($v_j_temp * #(-1.4226436701188128e-01))));
  (*3586*) Do (AddA v_jac 98 (#(-9.0685713214245534e-01) * ($v_j_temp * #(-1.4226436701188128e-01))));
  (*3587*) Do (AddA v_jac 107 (#5.9264999700129481e-02 * ($v_j_temp * #3.9288728140880758e-01)));
  (*3588*) Do (AddA v_jac 117 (#1.6469594892558153e+00 * ($v_j_temp * #3.9288728140880758e-01)));
  (*3589*) Do (AddA v_jac 119 (#(-1.7062244889559448e+00) * ($v_j_temp * #3.9288728140880758e-01)));
  (*3590*) Do (AddA v_jac 128 (#5.5949172036182618e-02 * ($v_j_temp * #3.5690674632355568e-01 + $v_kf * v_conc.[13] - $v_kr * v_conc.[1] * v_conc.[11])));
  (*3591*) Do (AddA v_jac 138 (#1.5548134694548181e+00 * ($v_j_temp * #3.5690674632355568e-01 + $v_kf * v_conc.[13] - $v_kr * v_conc.[1] * v_conc.[11])));
  (*3592*) Do (AddA v_jac 140 (#(-1.6107626414910008e+00) * ($v_j_temp * #3.5690674632355568e-01 + $v_kf * v_conc.[13] - $v_kr * v_conc.[1] * v_conc.[11])));
  (*3593*) Do (AddA v_jac 149 (#3.0537399331166910e-02 * ($v_j_temp * #(-1.7824490209713328e-01))));
  (*3594*) Do (AddA v_jac 159 (#8.4862667443073736e-01 * ($v_j_temp * #(-1.7824490209713328e-01))));
  (*3595*) Do (AddA v_jac 161 (#(-8.7916407376190431e-01) * ($v_j_temp * #(-1.7824490209713328e-01))));
  (*3596*) Do (AddA v_jac 170 (#7.1857747410685777e-02 * ($v_j_temp * #4.9928106040377707e-01)));
  (*3597*) Do (AddA v_jac 180 (#1.9969087922617146e+00 * ($v_j_temp * #4.9928106040377707e-01)));
  (*3598*) Do (AddA v_jac 182 (#(-2.0687665396724007e+00) * ($v_j_temp * #4.9928106040377707e-01)));
  (*3599*) Do (AddA v_jac 191 (#7.1857747410685777e-02 * ($v_j_temp * #4.9928106040377707e-01)));
  (*3600*) Do (AddA v_jac 201 (#1.9969087922617146e+00 * ($v_j_temp * #4.9928106040377707e-01)));
  (*3601*) Do (AddA v_jac 203 (#(-2.0687665396724007e+00) * ($v_j_temp * #4.9928106040377707e-01)));
  (*3602*) Do (AddA v_jac 212 (#6.7040376938333812e-02 * ($v_j_temp * #4.6330052531852528e-01)));
  (*3603*) Do (AddA v_jac 222 (#1.8630352741170162e+00 * ($v_j_temp * #4.6330052531852528e-01)));
  (*3604*) Do (AddA v_jac 224 (#(-1.9300756510553501e+00) * ($v_j_temp * #4.6330052531852528e-01)));
  (*3605*) Do (AddA v_jac 233 (#6.2828341257988030e-02 * ($v_j_temp * #4.2731999023327338e-01)));
  (*3606*) Do (AddA v_jac 243 (#1.7459838581391229e+00 * ($v_j_temp * #4.2731999023327338e-01)));
  (*3607*) Do (AddA v_jac 245 (#(-1.8088121993971109e+00) * ($v_j_temp * #4.2731999023327338e-01)));
  (*3608*) Do (AddA v_jac 254 (#3.5984491474595155e-02 * ($v_j_temp * #1.0994706834011048e-04 - $v_kr * v_conc.[1] * v_conc.[5])));
  (*3609*) Do (AddA v_jac 264 ($v_j_temp * #1.0994706834011048e-04 - $v_kr * v_conc.[1] * v_conc.[5]));
  (*3610*) Do (AddA v_jac 266 (#(-1.0359844914745953e+00) * ($v_j_temp * #1.0994706834011048e-04 - $v_kr * v_conc.[1] * v_conc.[5])));
  (*3611*) Do (AddA v_jac 275 (#2.2902626233248052e-02 * ($v_j_temp * #(-5.7102223643760053e-01))));
  (*3612*) Do (AddA v_jac 285 (#6.3645824339124468e-01 * ($v_j_temp * #(-5.7102223643760053e-01))));
  (*3613*) Do (AddA v_jac 287 (#(-6.5936086962449270e-01) * ($v_j_temp * #(-5.7102223643760053e-01))));
  (*3614*) Do (AddA v_jac 296 (#3.4734585093427126e-02 * ($v_j_temp * #(-3.5870588016911675e-02) + $v_kf * v_conc.[5])));
  (*3615*) Do (AddA v_jac 306 (#9.6526541490657281e-01 * ($v_j_temp * #(-3.5870588016911675e-02) + $v_kf * v_conc.[5])));
  (*3616*) Do (AddA v_jac 308 ((- ($v_j_temp * #(-3.5870588016911675e-02) + $v_kf * v_conc.[5]))));
  (*3617*) Do (AddA v_jac 317 (#3.3568593911733322e-02 * ($v_j_temp * #(-7.1851123102163683e-02))));
  (*3618*) Do (AddA v_jac 327 (#9.3286281217653322e-01 * ($v_j_temp * #(-7.1851123102163683e-02))));
  (*3619*) Do (AddA v_jac 329 (#(-9.6643140608826661e-01) * ($v_j_temp * #(-7.1851123102163683e-02))));
  (*3620*) Do (AddA v_jac 338 (#3.2478341649959309e-02 * ($v_j_temp * #(-1.0783165818741525e-01))));
  (*3621*) Do (AddA v_jac 348 (#9.0256497505012201e-01 * ($v_j_temp * #(-1.0783165818741525e-01))));
  (*3622*) Do (AddA v_jac 350 (#(-9.3504331670008145e-01) * ($v_j_temp * #(-1.0783165818741525e-01))));
  (*3623*) Do (AddA v_jac 359 (#3.5928873705342888e-02 * ($v_j_temp * #(-1.4378791924458678e-03))));
  (*3624*) Do (AddA v_jac 369 (#9.9845439613085729e-01 * ($v_j_temp * #(-1.4378791924458678e-03))));
  (*3625*) Do (AddA v_jac 371 (#(-1.0343832698362003e+00) * ($v_j_temp * #(-1.4378791924458678e-03))));
  (*3626*) Do (AddA v_jac 380 (#3.4682761159877090e-02 * ($v_j_temp * #(-3.7418414277697654e-02))));
  (*3627*) Do (AddA v_jac 390 (#9.6382524078082144e-01 * ($v_j_temp * #(-3.7418414277697654e-02))));
  (*3628*) Do (AddA v_jac 392 (#(-9.9850800194069855e-01) * ($v_j_temp * #(-3.7418414277697654e-02))));
  (*3629*) Do (AddA v_jac 401 (#3.3520188469166906e-02 * ($v_j_temp * #(-7.3398949362949439e-02))));
  (*3630*) Do (AddA v_jac 411 (#9.3151763705850810e-01 * ($v_j_temp * #(-7.3398949362949439e-02))));
  (*3631*) Do (AddA v_jac 413 (#(-9.6503782552767503e-01) * ($v_j_temp * #(-7.3398949362949439e-02))));
  (*3632*) Do (AddA v_jac 422 (#2.5231300690898170e-02 * ($v_j_temp * #(-4.2602775520927771e-01))));
  (*3633*) Do (AddA v_jac 432 (#7.0117152297987373e-01 * ($v_j_temp * #(-4.2602775520927771e-01))));
  (*3634*) Do (AddA v_jac 434 (#(-7.2640282367077191e-01) * ($v_j_temp * #(-4.2602775520927771e-01))))])].

(** [eval_jacob_2], drm19/lib/src/jacobs/jacob_2.c:4-12: declarations. *)
Definition drm19_jac_d2 : list stmt := [
  (*5*) Do (Asn v_logT 0 ((Log $v_T)));
  (*6*) Do (Asn v_kf 0 (#0.0));
  (*7*) Do (Asn v_j_temp 0 (#0.0));
  (*8*) Do (Asn v_pres_mod_temp 0 (#0.0));
  (*9*) Do (Asn v_Kc 0 (#0.0));
  (*10*) Do (Asn v_kr 0 (#0.0));
  (*11*) Do (Asn v_rho_inv 0 (#1.0 / $v_rho))].

(** [eval_jacob_2], drm19/lib/src/jacobs/jacob_2.c:13-388: for every reaction the blocks "wrt T" and
    "wrt species". *)
Definition drm19_jac_b2 : list (list stmt * list stmt) := [
([
  (*13*) Do (Asn v_j_temp 0 (((- v_pres_mod.[13]) * (v_fwd_rates.[80] - v_rev_rates.[80]) / $v_T + v_pres_mod.[13] / $v_T * ((v_fwd_rates.[80] - v_rev_rates.[80]) * (#(-1.0000000000000000e+00) + #8.5547326026057654e+03 / $v_T) - v_rev_rates.[80] * (#(-1.0) + (- $v_T) * (v_dBdT.[1] + v_dBdT.[11] - v_dBdT.[13])))) * $v_rho_inv));
  (*14*) Do (AddA v_jac 2 ($v_j_temp * #1.0079400000000001e+00));
  (*15*) Do (AddA v_jac 12 ($v_j_temp * #2.8010399999999997e+01));
  (*16*) Do (AddA v_jac 14 ((- $v_j_temp) * #2.9018339999999998e+01))],
[
  (*19*) If ($v_T) (#1000.0)
    [Asn v_Kc 0 (#(-2.1909936329999997e+00) + #8.5834762999999903e-01 * $v_logT + $v_T * (#1.3167858203526664e-03 + $v_T * (#(-2.1271883786659866e-06) + $v_T * (#1.1851179321917348e-09 + #(-2.6210565749638660e-13) * $v_T))) - #7.2900089399999997e+03 / $v_T)]
    [Asn v_Kc 0 (#(-4.8693513540000000e+00) + #1.4430112399999997e+00 * $v_logT + $v_T * (#(-1.4472139265421485e-03) + $v_T * (#2.4760506252603246e-07 + $v_T * (#(-2.9925731227929364e-11) + #1.6493049999098680e-15 * $v_T))) - #7.3098693499999990e+03 / $v_T)];
  (*25*) Do (Asn v_Kc 0 (#1.2186597134166982e+01 * (Exp $v_Kc)));
  (*26*) Do (Asn v_pres_mod_temp 0 (v_fwd_rates.[80] - v_rev_rates.[80]));
  (*27*) Do (Asn v_j_temp 0 ((- $v_mw_avg) * $v_rho_inv * v_pres_mod.[13] * (#2.0 * v_fwd_rates.[80] - #3.0 * v_rev_rates.[80])));
  (*28*) Do (Asn v_kf 0 ((Exp (#3.2862129732783131e+01 - #1.0 * $v_logT - #8.5547326026057654e+03 / $v_T))));
  (*29*) Do (Asn v_kr 0 ($v_kf / $v_Kc));
  (*30*) Do (AddA v_jac 23 (#5.0000000000000000e-01 * ($v_j_temp * #9.2803892982949643e-01 + #1.9280389298294964e+00 * $v_pres_mod_temp)));
  (*31*) Do (AddA v_jac 33 (#1.3894874694922315e+01 * ($v_j_temp * #9.2803892982949643e-01 + #1.9280389298294964e+00 * $v_pres_mod_temp)));
  (*32*) Do (AddA v_jac 35 (#(-1.4394874694922315e+01) * ($v_j_temp * #9.2803892982949643e-01 + #1.9280389298294964e+00 * $v_pres_mod_temp)));
  (*33*) Do (AddA v_jac 44 ($v_j_temp * #9.6401946491474821e-01 + #9.6401946491474821e-01 * $v_pres_mod_temp + v_pres_mod.[13] * ((- $v_kr) * v_conc.[11])));
  (*34*) Do (AddA v_jac 54 (#2.7789749389844630e+01 * ($v_j_temp * #9.6401946491474821e-01 + #9.6401946491474821e-01 * $v_pres_mod_temp + v_pres_mod.[13] * ((- $v_kr) * v_conc.[11]))));
  (*35*) Do (AddA v_jac 56 (#(-2.8789749389844630e+01) * ($v_j_temp * #9.6401946491474821e-01 + #9.6401946491474821e-01 * $v_pres_mod_temp + v_pres_mod.[13] * ((- $v_kr) * v_conc.[11]))));
  (*36*) Do (AddA v_jac 65 (#6.2998612447966798e-02 * ($v_j_temp * #4.2886781649405936e-01 + #4.2886781649405936e-01 * $v_pres_mod_temp)));
  (*37*) Do (AddA v_jac 75 (#1.7507156518369438e+00 * ($v_j_temp * #4.2886781649405936e-01 + #4.2886781649405936e-01 * $v_pres_mod_temp)));
  (*38*) Do (AddA v_jac 77 (#(-1.8137142642849107e+00) * ($v_j_temp * #4.2886781649405936e-01 + #4.2886781649405936e-01 * $v_pres_mod_temp)));
  (*39*) Do (AddA v_jac 86 (#3.1499306223983399e-02 * ($v_j_temp * #(-1.4226436701188128e-01) + #(-1.4226436701188128e-01) * $v_pres_mod_temp)));
  (*40*) Do (AddA v_jac 96 (#8.7535782591847189e-01 * ($v_j_temp * #(-1.4226436701188128e-01) + #(-1.4226436701188128e-01) * $v_pres_mod_temp)));
  (*41*) Do (AddA v_jac 98 (#(-9.0685713214245534e-01) * ($v_j_temp * #(-1.4226436701188128e-01) + #(-1.4226436701188128e-01) * $v_pres_mod_temp)));
  (*42*) Do (AddA v_jac 107 (#5.9264999700129481e-02 * ($v_j_temp * #3.9288728140880758e-01 + #3.9288728140880758e-01 * $v_pres_mod_temp)));
  (*43*) Do (AddA v_jac 117 (#1.6469594892558153e+00 * ($v_j_temp * #3.9288728140880758e-01 + #3.9288728140880758e-01 * $v_pres_mod_temp)));
  (*44*) Do (AddA v_jac 119 (#(-1.7062244889559448e+00) * ($v_j_temp * #3.9288728140880758e-01 + #3.9288728140880758e-01 * $v_pres_mod_temp)));
  (*45*) Do (AddA v_jac 128 (#5.5949172036182618e-02 * ($v_j_temp * #3.5690674632355568e-01 + #(-6.4309325367644432e-01) * $v_pres_mod_temp)));
  (*46*) Do (AddA v_jac 138 (#1.5548134694548181e+00 * ($v_j_temp * #3.5690674632355568e-01 + #(-6.4309325367644432e-01) * $v_pres_mod_temp)));
  (*47*) Do (AddA v_jac 140 (#(-1.6107626414910008e+00) * ($v_j_temp * #3.5690674632355568e-01 + #(-6.4309325367644432e-01) * $v_pres_mod_temp)));
  (*48*) Do (AddA v_jac 149 (#3.0537399331166910e-02 * ($v_j_temp * #(-1.7824490209713328e-01) + #(-1.7824490209713328e-01) * $v_pres_mod_temp)));
  (*49*) Do (AddA v_jac 159 (#8.4862667443073736e-01 * ($v_j_temp * #(-1.7824490209713328e-01) + #(-1.7824490209713328e-01) * $v_pres_mod_temp)));
  (*50*) Do (AddA v_jac 161 (#(-8.7916407376190431e-01) * ($v_j_temp * #(-1.7824490209713328e-01) + #(-1.7824490209713328e-01) * $v_pres_mod_temp)));
  (*51*) Do (AddA v_jac 170 (#7.1857747410685777e-02 * ($v_j_temp * #4.9928106040377707e-01 + #4.9928106040377707e-01 * $v_pres_mod_temp)));
  (*52*) Do (AddA v_jac 180 (#1.9969087922617146e+00 * ($v_j_temp * #4.9928106040377707e-01 + #4.9928106040377707e-01 * $v_pres_mod_temp)));
  (*53*) Do (AddA v_jac 182 (#(-2.0687665396724007e+00) * ($v_j_temp * #4.9928106040377707e-01 + #4.9928106040377707e-01 * $v_pres_mod_temp)));
  (*54*) Do (AddA v_jac 191 (#7.1857747410685777e-02 * ($v_j_temp * #4.9928106040377707e-01 + #4.9928106040377707e-01 * $v_pres_mod_temp)));
  (*55*) Do (AddA v_jac 201 (#1.9969087922617146e+00 * ($v_j_temp * #4.9928106040377707e-01 + #4.9928106040377707e-01 * $v_pres_mod_temp)));
  (*56*) Do (AddA v_jac 203 (#(-2.0687665396724007e+00) * ($v_j_temp * #4.9928106040377707e-01 + #4.9928106040377707e-01 * $v_pres_mod_temp)));
  (*57*) Do (AddA v_jac 212 (#6.7040376938333812e-02 * ($v_j_temp * #4.6330052531852528e-01 + #4.6330052531852528e-01 * $v_pres_mod_temp)));
  (*58*) Do (AddA v_jac 222 (#1.8630352741170162e+00 * ($v_j_temp * #4.6330052531852528e-01 + #4.6330052531852528e-01 * $v_pres_mod_temp)));
  (*59*) Do (AddA v_jac 224 (#(-1.9300756510553501e+00) * ($v_j_temp * #4.6330052531852528e-01 + #4.6330052531852528e-01 * $v_pres_mod_temp)));
  (*60*) Do (AddA v_jac 233 (#6.2828341257988030e-02 * ($v_j_temp * #4.2731999023327338e-01 + #1.4273199902332734e+00 * $v_pres_mod_temp)));
  (*61*) Do (AddA v_jac 243 (#1.7459838581391229e+00 * ($v_j_temp * #4.2731999023327338e-01 + #1.4273199902332734e+00 * $v_pres_mod_temp)));
  (*62*) Do (AddA v_jac 245 (#(-1.8088121993971109e+00) * ($v_j_temp * #4.2731999023327338e-01 + #1.4273199902332734e+00 * $v_pres_mod_temp)));
  (*63*) Do (AddA v_jac 254 (#3.5984491474595155e-02 * ($v_j_temp * #1.0994706834011048e-04 + #5.0010994706834011e-01 * $v_pres_mod_temp + v_pres_mod.[13] * ((- $v_kr) * v_conc.[1]))));
  (*64*) Do (AddA v_jac 264 ($v_j_temp * #1.0994706834011048e-04 + #5.0010994706834011e-01 * $v_pres_mod_temp + v_pres_mod.[13] * ((- $v_kr) * v_conc.[1])));
  (*65*) Do (AddA v_jac 266 (#(-1.0359844914745953e+00) * ($v_j_temp * #1.0994706834011048e-04 + #5.0010994706834011e-01 * $v_pres_mod_temp + v_pres_mod.[13] * ((- $v_kr) * v_conc.[1]))));
  (*66*) Do (AddA v_jac 275 (#2.2902626233248052e-02 * ($v_j_temp * #(-5.7102223643760053e-01) + #4.2897776356239947e-01 * $v_pres_mod_temp)));
  (*67*) Do (AddA v_jac 285 (#6.3645824339124468e-01 * ($v_j_temp * #(-5.7102223643760053e-01) + #4.2897776356239947e-01 * $v_pres_mod_temp)));
  (*68*) Do (AddA v_jac 287 (#(-6.5936086962449270e-01) * ($v_j_temp * #(-5.7102223643760053e-01) + #4.2897776356239947e-01 * $v_pres_mod_temp)));
  (*69*) Do (AddA v_jac 296 (#3.4734585093427126e-02 * ($v_j_temp * #(-3.5870588016911675e-02) + #(-3.5870588016911675e-02) * $v_pres_mod_temp + v_pres_mod.[13] * $v_kf)));
  (*70*) Do (AddA v_jac 306 (#9.6526541490657281e-01 * ($v_j_temp * #(-3.5870588016911675e-02) + #(-3.5870588016911675e-02) * $v_pres_mod_temp + v_pres_mod.[13] * $v_kf)));
  (*71*) Do (AddA v_jac 308 ((- ($v_j_temp * #(-3.5870588016911675e-02) + #(-3.5870588016911675e-02) * $v_pres_mod_temp + v_pres_mod.[13] * $v_kf))));
  (*72*) Do (AddA v_jac 317 (#3.3568593911733322e-02 * ($v_j_temp * #(-7.1851123102163683e-02) + #(-7.1851123102163683e-02) * $v_pres_mod_temp)));
  (*73*) Do (AddA v_jac 327 (#9.3286281217653322e-01 * ($v_j_temp * #(-7.1851123102163683e-02) + #(-7.1851123102163683e-02) * $v_pres_mod_temp)));
  (*74*) Do (AddA v_jac 329 (#(-9.6643140608826661e-01) * ($v_j_temp * #(-7.1851123102163683e-02) + #(-7.1851123102163683e-02) * $v_pres_mod_temp)));
  (*75*) Do (AddA v_jac 338 (#3.2478341649959309e-02 * ($v_j_temp * #(-1.0783165818741525e-01) + #(-1.0783165818741525e-01) * $v_pres_mod_temp)));
  (*76*) Do (AddA v_jac 348 (#9.0256497505012201e-01 * ($v_j_temp * #(-1.0783165818741525e-01) + #(-1.0783165818741525e-01) * $v_pres_mod_temp)));
  (*77*) Do (AddA v_jac 350 (#(-9.3504331670008145e-01) * ($v_j_temp * #(-1.0783165818741525e-01) + #(-1.0783165818741525e-01) * $v_pres_mod_temp)));
  (*78*) Do (AddA v_jac 359 (#3.5928873705342888e-02 * ($v_j_temp * #(-1.4378791924458678e-03) + #(-1.4378791924458678e-03) * $v_pres_mod_temp)));
  (*79*) Do (AddA v_jac 369 (#9.9845439613085729e-01 * ($v_j_temp * #(-1.4378791924458678e-03) + #(-1.4378791924458678e-03) * $v_pres_mod_temp)));
  (*80*) Do (AddA v_jac 371 (#(-1.0343832698362003e+00) * ($v_j_temp * #(-1.4378791924458678e-03) + #(-1.4378791924458678e-03) * $v_pres_mod_temp)));
  (*81*) Do (AddA v_jac 380 (#3.4682761159877090e-02 * ($v_j_temp * #(-3.7418414277697654e-02) + #(-3.7418414277697654e-02) * $v_pres_mod_temp)));
  (*82*) Do (AddA v_jac 390 (#9.6382524078082144e-01 * ($v_j_temp * #(-3.7418414277697654e-02) + #(-3.7418414277697654e-02) * $v_pres_mod_temp)));
  (*83*) Do (AddA v_jac 392 (#(-9.9850800194069855e-01) * ($v_j_temp * #(-3.7418414277697654e-02) + #(-3.7418414277697654e-02) * $v_pres_mod_temp)));
  (*84*) Do (AddA v_jac 401 (#3.3520188469166906e-02 * ($v_j_temp * #(-7.3398949362949439e-02) + #1.9266010506370506e+00 * $v_pres_mod_temp)));
  (*85*) Do (AddA v_jac 411 (#9.3151763705850810e-01 * ($v_j_temp * #(-7.3398949362949439e-02) + #1.9266010506370506e+00 * $v_pres_mod_temp)));
  (*86*) Do (AddA v_jac 413 (#(-9.6503782552767503e-01) * ($v_j_temp * #(-7.3398949362949439e-02) + #1.9266010506370506e+00 * $v_pres_mod_temp)));
  (*87*) Do (AddA v_jac 422 (#2.5231300690898170e-02 * ($v_j_temp * #(-4.2602775520927771e-01) + #(-4.2602775520927771e-01) * $v_pres_mod_temp)));
  (*88*) Do (AddA v_jac 432 (#7.0117152297987373e-01 * ($v_j_temp * #(-4.2602775520927771e-01) + #(-4.2602775520927771e-01) * $v_pres_mod_temp)));
  (*89*) Do (AddA v_jac 434 (#(-7.2640282367077191e-01) * ($v_j_temp * #(-4.2602775520927771e-01) + #(-4.2602775520927771e-01) * $v_pres_mod_temp)))]);
([
  (*92*) Do (Asn v_j_temp 0 (#1.0 / $v_T * ((v_fwd_rates.[81] - v_rev_rates.[81]) * (#2.0128782594366504e+02 / $v_T) + v_fwd_rates.[81] * #(-1.0) - v_rev_rates.[81] * (#(-1.0) + (- $v_T) * (v_dBdT.[11] + v_dBdT.[6] - v_dBdT.[13] - v_dBdT.[3]))) * $v_rho_inv));
  (*93*) Do (AddA v_jac 12 ($v_j_temp * #2.8010399999999997e+01));
  (*94*) Do (AddA v_jac 4 ((- $v_j_temp) * #3.1998799999999999e+01));
  (*95*) Do (AddA v_jac 14 ((- $v_j_temp) * #2.9018339999999998e+01));
  (*96*) Do (AddA v_jac 7 ($v_j_temp * #3.3006740000000001e+01))],
[
  (*99*) If ($v_T) (#1000.0)
    [Asn v_Kc 0 (#2.9533429000000044e-01 + #(-1.2231072000000065e-01) * $v_logT + $v_T * (#4.4059264500000009e-04 + $v_T * (#(-2.4202386333333354e-07) + $v_T * (#(-3.1139927166666785e-11) + #4.0320486050000099e-14 * $v_T))) - #(-1.6824899359999999e+04) / $v_T)]
    [Asn v_Kc 0 (#(-4.3254706299999999e+00) + #6.7768429000000019e-01 * $v_logT + $v_T * (#(-1.0688476199999998e-03) + $v_T * (#2.6832314633333334e-07 + $v_T * (#(-3.7861079583333334e-11) + #2.1933512700000002e-15 * $v_T))) - #(-1.6963476116999998e+04) / $v_T)];
  (*105*) Do (Asn v_Kc 0 ((Exp $v_Kc)));
  (*106*) Do (Asn v_j_temp 0 ((- $v_mw_avg) * $v_rho_inv * (#2.0 * v_fwd_rates.[81] - #2.0 * v_rev_rates.[81])));
  (*107*) Do (Asn v_kf 0 ((Exp (#2.2751414084238696e+01 - #2.0128782594366504e+02 / $v_T))));
  (*108*) Do (Asn v_kr 0 ($v_kf / $v_Kc));
  (*109*) Do (AddA v_jac 33 (#1.3894874694922315e+01 * ($v_j_temp * #9.2803892982949643e-01)));
  (*110*) Do (AddA v_jac 25 (#(-1.5873365478103855e+01) * ($v_j_temp * #9.2803892982949643e-01)));
  (*111*) Do (AddA v_jac 35 (#(-1.4394874694922315e+01) * ($v_j_temp * #9.2803892982949643e-01)));
  (*112*) Do (AddA v_jac 28 (#1.6373365478103853e+01 * ($v_j_temp * #9.2803892982949643e-01)));
  (*113*) Do (AddA v_jac 54 (#2.7789749389844630e+01 * ($v_j_temp * #9.6401946491474821e-01)));
  (*114*) Do (AddA v_jac 46 (#(-3.1746730956207710e+01) * ($v_j_temp * #9.6401946491474821e-01)));
  (*115*) Do (AddA v_jac 56 (#(-2.8789749389844630e+01) * ($v_j_temp * #9.6401946491474821e-01)));
  (*116*) Do (AddA v_jac 49 (#3.2746730956207706e+01 * ($v_j_temp * #9.6401946491474821e-01)));
  (*117*) Do (AddA v_jac 75 (#1.7507156518369438e+00 * ($v_j_temp * #4.2886781649405936e-01)));
  (*118*) Do (AddA v_jac 67 (#(-2.0000000000000000e+00) * ($v_j_temp * #4.2886781649405936e-01)));
  (*119*) Do (AddA v_jac 77 (#(-1.8137142642849107e+00) * ($v_j_temp * #4.2886781649405936e-01)));
  (*120*) Do (AddA v_jac 70 (#2.0629986124479669e+00 * ($v_j_temp * #4.2886781649405936e-01)));
  (*121*) Do (AddA v_jac 96 (#8.7535782591847189e-01 * ($v_j_temp * #(-1.4226436701188128e-01) + $v_kf * v_conc.[13])));
  (*122*) Do (AddA v_jac 88 ((- ($v_j_temp * #(-1.4226436701188128e-01) + $v_kf * v_conc.[13]))));
  (*123*) Do (AddA v_jac 98 (#(-9.0685713214245534e-01) * ($v_j_temp * #(-1.4226436701188128e-01) + $v_kf * v_conc.[13])));
  (*124*) Do (AddA v_jac 91 (#1.0314993062239834e+00 * ($v_j_temp * #(-1.4226436701188128e-01) + $v_kf * v_conc.[13])));
  (*125*) Do (AddA v_jac 117 (#1.6469594892558153e+00 * ($v_j_temp * #3.9288728140880758e-01)));
  (*126*) Do (AddA v_jac 109 (#(-1.8814700005997411e+00) * ($v_j_temp * #3.9288728140880758e-01)));
  (*127*) Do (AddA v_jac 119 (#(-1.7062244889559448e+00) * ($v_j_temp * #3.9288728140880758e-01)));
  (*128*) Do (AddA v_jac 112 (#1.9407350002998707e+00 * ($v_j_temp * #3.9288728140880758e-01)));
  (*129*) Do (AddA v_jac 138 (#1.5548134694548181e+00 * ($v_j_temp * #3.5690674632355568e-01)));
  (*130*) Do (AddA v_jac 130 (#(-1.7762033118552694e+00) * ($v_j_temp * #3.5690674632355568e-01)));
  (*131*) Do (AddA v_jac 140 (#(-1.6107626414910008e+00) * ($v_j_temp * #3.5690674632355568e-01)));
  (*132*) Do (AddA v_jac 133 (#1.8321524838914520e+00 * ($v_j_temp * #3.5690674632355568e-01)));
  (*133*) Do (AddA v_jac 159 (#8.4862667443073736e-01 * ($v_j_temp * #(-1.7824490209713328e-01) - $v_kr * v_conc.[11])));
  (*134*) Do (AddA v_jac 151 (#(-9.6946260066883305e-01) * ($v_j_temp * #(-1.7824490209713328e-01) - $v_kr * v_conc.[11])));
  (*135*) Do (AddA v_jac 161 (#(-8.7916407376190431e-01) * ($v_j_temp * #(-1.7824490209713328e-01) - $v_kr * v_conc.[11])));
  (*136*) Do (AddA v_jac 154 ($v_j_temp * #(-1.7824490209713328e-01) - $v_kr * v_conc.[11]));
  (*137*) Do (AddA v_jac 180 (#1.9969087922617146e+00 * ($v_j_temp * #4.9928106040377707e-01)));
  (*138*) Do (AddA v_jac 172 (#(-2.2812485741661725e+00) * ($v_j_temp * #4.9928106040377707e-01)));
  (*139*) Do (AddA v_jac 182 (#(-2.0687665396724007e+00) * ($v_j_temp * #4.9928106040377707e-01)));
  (*140*) Do (AddA v_jac 175 (#2.3531063215768584e+00 * ($v_j_temp * #4.9928106040377707e-01)));
  (*141*) Do (AddA v_jac 201 (#1.9969087922617146e+00 * ($v_j_temp * #4.9928106040377707e-01)));
  (*142*) Do (AddA v_jac 193 (#(-2.2812485741661725e+00) * ($v_j_temp * #4.9928106040377707e-01)));
  (*143*) Do (AddA v_jac 203 (#(-2.0687665396724007e+00) * ($v_j_temp * #4.9928106040377707e-01)));
  (*144*) Do (AddA v_jac 196 (#2.3531063215768584e+00 * ($v_j_temp * #4.9928106040377707e-01)));
  (*145*) Do (AddA v_jac 222 (#1.8630352741170162e+00 * ($v_j_temp * #4.6330052531852528e-01)));
  (*146*) Do (AddA v_jac 214 (#(-2.1283128098640356e+00) * ($v_j_temp * #4.6330052531852528e-01)));
  (*147*) Do (AddA v_jac 224 (#(-1.9300756510553501e+00) * ($v_j_temp * #4.6330052531852528e-01)));
  (*148*) Do (AddA v_jac 217 (#2.1953531868023695e+00 * ($v_j_temp * #4.6330052531852528e-01)));
  (*149*) Do (AddA v_jac 243 (#1.7459838581391229e+00 * ($v_j_temp * #4.2731999023327338e-01)));
  (*150*) Do (AddA v_jac 235 (#(-1.9945944463421503e+00) * ($v_j_temp * #4.2731999023327338e-01)));
  (*151*) Do (AddA v_jac 245 (#(-1.8088121993971109e+00) * ($v_j_temp * #4.2731999023327338e-01)));
  (*152*) Do (AddA v_jac 238 (#2.0574227876001383e+00 * ($v_j_temp * #4.2731999023327338e-01)));
  (*153*) Do (AddA v_jac 264 ($v_j_temp * #1.0994706834011048e-04 - $v_kr * v_conc.[6]));
  (*154*) Do (AddA v_jac 256 (#(-1.1423899694399224e+00) * ($v_j_temp * #1.0994706834011048e-04 - $v_kr * v_conc.[6])));
  (*155*) Do (AddA v_jac 266 (#(-1.0359844914745953e+00) * ($v_j_temp * #1.0994706834011048e-04 - $v_kr * v_conc.[6])));
  (*156*) Do (AddA v_jac 259 (#1.1783744609145177e+00 * ($v_j_temp * #1.0994706834011048e-04 - $v_kr * v_conc.[6])));
  (*157*) Do (AddA v_jac 285 (#6.3645824339124468e-01 * ($v_j_temp * #(-5.7102223643760053e-01))));
  (*158*) Do (AddA v_jac 277 (#(-7.2708351321751064e-01) * ($v_j_temp * #(-5.7102223643760053e-01))));
  (*159*) Do (AddA v_jac 287 (#(-6.5936086962449270e-01) * ($v_j_temp * #(-5.7102223643760053e-01))));
  (*160*) Do (AddA v_jac 280 (#7.4998613945075876e-01 * ($v_j_temp * #(-5.7102223643760053e-01))));
  (*161*) Do (AddA v_jac 306 (#9.6526541490657281e-01 * ($v_j_temp * #(-3.5870588016911675e-02) + $v_kf * v_conc.[3])));
  (*162*) Do (AddA v_jac 298 (#(-1.1027095278365338e+00) * ($v_j_temp * #(-3.5870588016911675e-02) + $v_kf * v_conc.[3])));
  (*163*) Do (AddA v_jac 308 ((- ($v_j_temp * #(-3.5870588016911675e-02) + $v_kf * v_conc.[3]))));
  (*164*) Do (AddA v_jac 301 (#1.1374441129299608e+00 * ($v_j_temp * #(-3.5870588016911675e-02) + $v_kf * v_conc.[3])));
  (*165*) Do (AddA v_jac 327 (#9.3286281217653322e-01 * ($v_j_temp * #(-7.1851123102163683e-02))));
  (*166*) Do (AddA v_jac 319 (#(-1.0656931194939898e+00) * ($v_j_temp * #(-7.1851123102163683e-02))));
  (*167*) Do (AddA v_jac 329 (#(-9.6643140608826661e-01) * ($v_j_temp * #(-7.1851123102163683e-02))));
  (*168*) Do (AddA v_jac 322 (#1.0992617134057232e+00 * ($v_j_temp * #(-7.1851123102163683e-02))));
  (*169*) Do (AddA v_jac 348 (#9.0256497505012201e-01 * ($v_j_temp * #(-1.0783165818741525e-01))));
  (*170*) Do (AddA v_jac 340 (#(-1.0310811742650532e+00) * ($v_j_temp * #(-1.0783165818741525e-01))));
  (*171*) Do (AddA v_jac 350 (#(-9.3504331670008145e-01) * ($v_j_temp * #(-1.0783165818741525e-01))));
  (*172*) Do (AddA v_jac 343 (#1.0635595159150126e+00 * ($v_j_temp * #(-1.0783165818741525e-01))));
  (*173*) Do (AddA v_jac 369 (#9.9845439613085729e-01 * ($v_j_temp * #(-1.4378791924458678e-03))));
  (*174*) Do (AddA v_jac 361 (#(-1.1406242870830863e+00) * ($v_j_temp * #(-1.4378791924458678e-03))));
  (*175*) Do (AddA v_jac 371 (#(-1.0343832698362003e+00) * ($v_j_temp * #(-1.4378791924458678e-03))));
  (*176*) Do (AddA v_jac 364 (#1.1765531607884292e+00 * ($v_j_temp * #(-1.4378791924458678e-03))));
  (*177*) Do (AddA v_jac 390 (#9.6382524078082144e-01 * ($v_j_temp * #(-3.7418414277697654e-02))));
  (*178*) Do (AddA v_jac 382 (#(-1.1010642873610286e+00) * ($v_j_temp * #(-3.7418414277697654e-02))));
  (*179*) Do (AddA v_jac 392 (#(-9.9850800194069855e-01) * ($v_j_temp * #(-3.7418414277697654e-02))));
  (*180*) Do (AddA v_jac 385 (#1.1357470485209056e+00 * ($v_j_temp * #(-3.7418414277697654e-02))));
  (*181*) Do (AddA v_jac 411 (#9.3151763705850810e-01 * ($v_j_temp * #(-7.3398949362949439e-02))));
  (*182*) Do (AddA v_jac 403 (#(-1.0641564049320178e+00) * ($v_j_temp * #(-7.3398949362949439e-02))));
  (*183*) Do (AddA v_jac 413 (#(-9.6503782552767503e-01) * ($v_j_temp * #(-7.3398949362949439e-02))));
  (*184*) Do (AddA v_jac 406 (#1.0976765934011847e+00 * ($v_j_temp * #(-7.3398949362949439e-02))));
  (*185*) Do (AddA v_jac 432 (#7.0117152297987373e-01 * ($v_j_temp * #(-4.2602775520927771e-01))));
  (*186*) Do (AddA v_jac 424 (#(-8.0101131470912179e-01) * ($v_j_temp * #(-4.2602775520927771e-01))));
  (*187*) Do (AddA v_jac 434 (#(-7.2640282367077191e-01) * ($v_j_temp * #(-4.2602775520927771e-01))));
  (*188*) Do (AddA v_jac 427 (#8.2624261540002009e-01 * ($v_j_temp * #(-4.2602775520927771e-01))))]);
([
  (*191*) Do (Asn v_j_temp 0 (#1.0 / $v_T * ((v_fwd_rates.[82] - v_rev_rates.[82]) * (#7.5999999999999996e+00 + #(-1.7763650639528441e+03) / $v_T) + v_fwd_rates.[82] * #(-1.0) - v_rev_rates.[82] * (#(-1.0) + (- $v_T) * (v_dBdT.[14] + v_dBdT.[6] - v_dBdT.[15] - v_dBdT.[3]))) * $v_rho_inv));
  (*192*) Do (AddA v_jac 4 ((- $v_j_temp) * #3.1998799999999999e+01));
  (*193*) Do (AddA v_jac 7 ($v_j_temp * #3.3006740000000001e+01));
  (*194*) Do (AddA v_jac 15 ($v_j_temp * #3.0026280000000000e+01));
  (*195*) Do (AddA v_jac 16 ((- $v_j_temp) * #3.1034219999999998e+01))],
[
  (*198*) If ($v_T) (#1000.0)
    [Asn v_Kc 0 (#(-1.5697238179999999e+01) + #3.2068607999999994e+00 * $v_logT + $v_T * (#(-9.4386575199999993e-03) + $v_T * (#7.2157526483333335e-06 + $v_T * (#(-3.7621653674999999e-09) + #8.5750890350000021e-13 * $v_T))) - #(-1.3928806200000001e+04) / $v_T)]
    [Asn v_Kc 0 (#1.0334054720000001e+01 + #(-1.2754358599999993e+00) * $v_logT + $v_T * (#1.0426182050000000e-03 + $v_T * (#(-2.7364926849999996e-07) + $v_T * (#4.3062069583333329e-11 + #(-2.8189239050000009e-15) * $v_T))) - #(-1.2923350387000000e+04) / $v_T)];
  (*204*) Do (Asn v_Kc 0 ((Exp $v_Kc)));
  (*205*) Do (Asn v_j_temp 0 ((- $v_mw_avg) * $v_rho_inv * (#2.0 * v_fwd_rates.[82] - #2.0 * v_rev_rates.[82])));
  (*206*) Do (Asn v_kf 0 ((Exp (#(-3.5387408478311023e+01) + #7.6 * $v_logT - #(-1.7763650639528441e+03) / $v_T))));
  (*207*) Do (Asn v_kr 0 ($v_kf / $v_Kc));
  (*208*) Do (AddA v_jac 25 (#(-1.5873365478103855e+01) * ($v_j_temp * #9.2803892982949643e-01)));
  (*209*) Do (AddA v_jac 28 (#1.6373365478103853e+01 * ($v_j_temp * #9.2803892982949643e-01)));
  (*210*) Do (AddA v_jac 36 (#1.4894874694922317e+01 * ($v_j_temp * #9.2803892982949643e-01)));
  (*211*) Do (AddA v_jac 37 (#(-1.5394874694922315e+01) * ($v_j_temp * #9.2803892982949643e-01)));
  (*212*) Do (AddA v_jac 46 (#(-3.1746730956207710e+01) * ($v_j_temp * #9.6401946491474821e-01)));
  (*213*) Do (AddA v_jac 49 (#3.2746730956207706e+01 * ($v_j_temp * #9.6401946491474821e-01)));
  (*214*) Do (AddA v_jac 57 (#2.9789749389844633e+01 * ($v_j_temp * #9.6401946491474821e-01)));
  (*215*) Do (AddA v_jac 58 (#(-3.0789749389844630e+01) * ($v_j_temp * #9.6401946491474821e-01)));
  (*216*) Do (AddA v_jac 67 (#(-2.0000000000000000e+00) * ($v_j_temp * #4.2886781649405936e-01)));
  (*217*) Do (AddA v_jac 70 (#2.0629986124479669e+00 * ($v_j_temp * #4.2886781649405936e-01)));
  (*218*) Do (AddA v_jac 78 (#1.8767128767328776e+00 * ($v_j_temp * #4.2886781649405936e-01)));
  (*219*) Do (AddA v_jac 79 (#(-1.9397114891808442e+00) * ($v_j_temp * #4.2886781649405936e-01)));
  (*220*) Do (AddA v_jac 88 ((- ($v_j_temp * #(-1.4226436701188128e-01) + $v_kf * v_conc.[15]))));
  (*221*) Do (AddA v_jac 91 (#1.0314993062239834e+00 * ($v_j_temp * #(-1.4226436701188128e-01) + $v_kf * v_conc.[15])));
  (*222*) Do (AddA v_jac 99 (#9.3835643836643878e-01 * ($v_j_temp * #(-1.4226436701188128e-01) + $v_kf * v_conc.[15])));
  (*223*) Do (AddA v_jac 100 (#(-9.6985574459042212e-01) * ($v_j_temp * #(-1.4226436701188128e-01) + $v_kf * v_conc.[15])));
  (*224*) Do (AddA v_jac 109 (#(-1.8814700005997411e+00) * ($v_j_temp * #3.9288728140880758e-01)));
  (*225*) Do (AddA v_jac 112 (#1.9407350002998707e+00 * ($v_j_temp * #3.9288728140880758e-01)));
  (*226*) Do (AddA v_jac 120 (#1.7654894886560744e+00 * ($v_j_temp * #3.9288728140880758e-01)));
  (*227*) Do (AddA v_jac 121 (#(-1.8247544883562039e+00) * ($v_j_temp * #3.9288728140880758e-01)));
  (*228*) Do (AddA v_jac 130 (#(-1.7762033118552694e+00) * ($v_j_temp * #3.5690674632355568e-01)));
  (*229*) Do (AddA v_jac 133 (#1.8321524838914520e+00 * ($v_j_temp * #3.5690674632355568e-01)));
  (*230*) Do (AddA v_jac 141 (#1.6667118135271835e+00 * ($v_j_temp * #3.5690674632355568e-01)));
  (*231*) Do (AddA v_jac 142 (#(-1.7226609855633661e+00) * ($v_j_temp * #3.5690674632355568e-01)));
  (*232*) Do (AddA v_jac 151 (#(-9.6946260066883305e-01) * ($v_j_temp * #(-1.7824490209713328e-01) - $v_kr * v_conc.[14])));
  (*233*) Do (AddA v_jac 154 ($v_j_temp * #(-1.7824490209713328e-01) - $v_kr * v_conc.[14]));
  (*234*) Do (AddA v_jac 162 (#9.0970147309307126e-01 * ($v_j_temp * #(-1.7824490209713328e-01) - $v_kr * v_conc.[14])));
  (*235*) Do (AddA v_jac 163 (#(-9.4023887242423809e-01) * ($v_j_temp * #(-1.7824490209713328e-01) - $v_kr * v_conc.[14])));
  (*236*) Do (AddA v_jac 172 (#(-2.2812485741661725e+00) * ($v_j_temp * #4.9928106040377707e-01)));
  (*237*) Do (AddA v_jac 175 (#2.3531063215768584e+00 * ($v_j_temp * #4.9928106040377707e-01)));
  (*238*) Do (AddA v_jac 183 (#2.1406242870830865e+00 * ($v_j_temp * #4.9928106040377707e-01)));
  (*239*) Do (AddA v_jac 184 (#(-2.2124820344937719e+00) * ($v_j_temp * #4.9928106040377707e-01)));
  (*240*) Do (AddA v_jac 193 (#(-2.2812485741661725e+00) * ($v_j_temp * #4.9928106040377707e-01)));
  (*241*) Do (AddA v_jac 196 (#2.3531063215768584e+00 * ($v_j_temp * #4.9928106040377707e-01)));
  (*242*) Do (AddA v_jac 204 (#2.1406242870830865e+00 * ($v_j_temp * #4.9928106040377707e-01)));
  (*243*) Do (AddA v_jac 205 (#(-2.2124820344937719e+00) * ($v_j_temp * #4.9928106040377707e-01)));
  (*244*) Do (AddA v_jac 214 (#(-2.1283128098640356e+00) * ($v_j_temp * #4.6330052531852528e-01)));
  (*245*) Do (AddA v_jac 217 (#2.1953531868023695e+00 * ($v_j_temp * #4.6330052531852528e-01)));
  (*246*) Do (AddA v_jac 225 (#1.9971160279936839e+00 * ($v_j_temp * #4.6330052531852528e-01)));
  (*247*) Do (AddA v_jac 226 (#(-2.0641564049320178e+00) * ($v_j_temp * #4.6330052531852528e-01)));
  (*248*) Do (AddA v_jac 235 (#(-1.9945944463421503e+00) * ($v_j_temp * #4.2731999023327338e-01)));
  (*249*) Do (AddA v_jac 238 (#2.0574227876001383e+00 * ($v_j_temp * #4.2731999023327338e-01)));
  (*250*) Do (AddA v_jac 246 (#1.8716405406550991e+00 * ($v_j_temp * #4.2731999023327338e-01)));
  (*251*) Do (AddA v_jac 247 (#(-1.9344688819130871e+00) * ($v_j_temp * #4.2731999023327338e-01)));
  (*252*) Do (AddA v_jac 256 (#(-1.1423899694399224e+00) * ($v_j_temp * #1.0994706834011048e-04)));
  (*253*) Do (AddA v_jac 259 (#1.1783744609145177e+00 * ($v_j_temp * #1.0994706834011048e-04)));
  (*254*) Do (AddA v_jac 267 (#1.0719689829491903e+00 * ($v_j_temp * #1.0994706834011048e-04)));
  (*255*) Do (AddA v_jac 268 (#(-1.1079534744237856e+00) * ($v_j_temp * #1.0994706834011048e-04)));
  (*256*) Do (AddA v_jac 277 (#(-7.2708351321751064e-01) * ($v_j_temp * #(-5.7102223643760053e-01))));
  (*257*) Do (AddA v_jac 280 (#7.4998613945075876e-01 * ($v_j_temp * #(-5.7102223643760053e-01))));
  (*258*) Do (AddA v_jac 288 (#6.8226349585774082e-01 * ($v_j_temp * #(-5.7102223643760053e-01))));
  (*259*) Do (AddA v_jac 289 (#(-7.0516612209098883e-01) * ($v_j_temp * #(-5.7102223643760053e-01))));
  (*260*) Do (AddA v_jac 298 (#(-1.1027095278365338e+00) * ($v_j_temp * #(-3.5870588016911675e-02))));
  (*261*) Do (AddA v_jac 301 (#1.1374441129299608e+00 * ($v_j_temp * #(-3.5870588016911675e-02))));
  (*262*) Do (AddA v_jac 309 (#1.0347345850934271e+00 * ($v_j_temp * #(-3.5870588016911675e-02))));
  (*263*) Do (AddA v_jac 310 (#(-1.0694691701868542e+00) * ($v_j_temp * #(-3.5870588016911675e-02))));
  (*264*) Do (AddA v_jac 319 (#(-1.0656931194939898e+00) * ($v_j_temp * #(-7.1851123102163683e-02) - $v_kr * v_conc.[6])));
  (*265*) Do (AddA v_jac 322 (#1.0992617134057232e+00 * ($v_j_temp * #(-7.1851123102163683e-02) - $v_kr * v_conc.[6])));
  (*266*) Do (AddA v_jac 330 ($v_j_temp * #(-7.1851123102163683e-02) - $v_kr * v_conc.[6]));
  (*267*) Do (AddA v_jac 331 (#(-1.0335685939117332e+00) * ($v_j_temp * #(-7.1851123102163683e-02) - $v_kr * v_conc.[6])));
  (*268*) Do (AddA v_jac 340 (#(-1.0310811742650532e+00) * ($v_j_temp * #(-1.0783165818741525e-01) + $v_kf * v_conc.[3])));
  (*269*) Do (AddA v_jac 343 (#1.0635595159150126e+00 * ($v_j_temp * #(-1.0783165818741525e-01) + $v_kf * v_conc.[3])));
  (*270*) Do (AddA v_jac 351 (#9.6752165835004078e-01 * ($v_j_temp * #(-1.0783165818741525e-01) + $v_kf * v_conc.[3])));
  (*271*) Do (AddA v_jac 352 ((- ($v_j_temp * #(-1.0783165818741525e-01) + $v_kf * v_conc.[3]))));
  (*272*) Do (AddA v_jac 361 (#(-1.1406242870830863e+00) * ($v_j_temp * #(-1.4378791924458678e-03))));
  (*273*) Do (AddA v_jac 364 (#1.1765531607884292e+00 * ($v_j_temp * #(-1.4378791924458678e-03))));
  (*274*) Do (AddA v_jac 372 (#1.0703121435415432e+00 * ($v_j_temp * #(-1.4378791924458678e-03))));
  (*275*) Do (AddA v_jac 373 (#(-1.1062410172468859e+00) * ($v_j_temp * #(-1.4378791924458678e-03))));
  (*276*) Do (AddA v_jac 382 (#(-1.1010642873610286e+00) * ($v_j_temp * #(-3.7418414277697654e-02))));
  (*277*) Do (AddA v_jac 385 (#1.1357470485209056e+00 * ($v_j_temp * #(-3.7418414277697654e-02))));
  (*278*) Do (AddA v_jac 393 (#1.0331907631005757e+00 * ($v_j_temp * #(-3.7418414277697654e-02))));
  (*279*) Do (AddA v_jac 394 (#(-1.0678735242604527e+00) * ($v_j_temp * #(-3.7418414277697654e-02))));
  (*280*) Do (AddA v_jac 403 (#(-1.0641564049320178e+00) * ($v_j_temp * #(-7.3398949362949439e-02))));
  (*281*) Do (AddA v_jac 406 (#1.0976765934011847e+00 * ($v_j_temp * #(-7.3398949362949439e-02))));
  (*282*) Do (AddA v_jac 414 (#9.9855801399684196e-01 * ($v_j_temp * #(-7.3398949362949439e-02))));
  (*283*) Do (AddA v_jac 415 (#(-1.0320782024660089e+00) * ($v_j_temp * #(-7.3398949362949439e-02))));
  (*284*) Do (AddA v_jac 424 (#(-8.0101131470912179e-01) * ($v_j_temp * #(-4.2602775520927771e-01))));
  (*285*) Do (AddA v_jac 427 (#8.2624261540002009e-01 * ($v_j_temp * #(-4.2602775520927771e-01))));
  (*286*) Do (AddA v_jac 435 (#7.5163412436167021e-01 * ($v_j_temp * #(-4.2602775520927771e-01))));
  (*287*) Do (AddA v_jac 436 (#(-7.7686542505256828e-01) * ($v_j_temp * #(-4.2602775520927771e-01))))]);
([
  (*290*) Do (Asn v_j_temp 0 (#1.0 / $v_T * ((v_fwd_rates.[83] - v_rev_rates.[83]) * (#1.9499758138292552e+03 / $v_T) + v_fwd_rates.[83] * #(-1.0) - v_rev_rates.[83] * (#(-1.0) + (- $v_T) * (v_dBdT.[16] + v_dBdT.[6] - v_dBdT.[17] - v_dBdT.[3]))) * $v_rho_inv));
  (*291*) Do (AddA v_jac 17 ($v_j_temp * #2.8053759999999997e+01));
  (*292*) Do (AddA v_jac 18 ((- $v_j_temp) * #2.9061699999999998e+01));
  (*293*) Do (AddA v_jac 4 ((- $v_j_temp) * #3.1998799999999999e+01));
  (*294*) Do (AddA v_jac 7 ($v_j_temp * #3.3006740000000001e+01))],
[
  (*297*) If ($v_T) (#1000.0)
    [Asn v_Kc 0 (#(-7.2296901000000036e-01) + #1.7207745000000019e-01 * $v_logT + $v_T * (#(-2.5681599500000001e-03) + $v_T * (#3.1159559316666656e-06 + $v_T * (#(-1.9867757508333335e-09) + #4.9930298850000008e-13 * $v_T))) - #(-6.3930989700000009e+03) / $v_T)]
    [Asn v_Kc 0 (#(-5.6413219399999974e+00) + #8.1612780000000029e-01 * $v_logT + $v_T * (#(-9.9756225500000051e-04) + $v_T * (#2.3259934149999995e-07 + $v_T * (#(-3.1264320416666639e-11) + #1.7408220449999998e-15 * $v_T))) - #(-6.7173194270000004e+03) / $v_T)];
  (*303*) Do (Asn v_Kc 0 ((Exp $v_Kc)));
  (*304*) Do (Asn v_j_temp 0 ((- $v_mw_avg) * $v_rho_inv * (#2.0 * v_fwd_rates.[83] - #2.0 * v_rev_rates.[83])));
  (*305*) Do (Asn v_kf 0 ((Exp (#2.0548912449801634e+01 - #1.9499758138292552e+03 / $v_T))));
  (*306*) Do (Asn v_kr 0 ($v_kf / $v_Kc));
  (*307*) Do (AddA v_jac 38 (#1.3916383911740775e+01 * ($v_j_temp * #9.2803892982949643e-01)));
  (*308*) Do (AddA v_jac 39 (#(-1.4416383911740777e+01) * ($v_j_temp * #9.2803892982949643e-01)));
  (*309*) Do (AddA v_jac 25 (#(-1.5873365478103855e+01) * ($v_j_temp * #9.2803892982949643e-01)));
  (*310*) Do (AddA v_jac 28 (#1.6373365478103853e+01 * ($v_j_temp * #9.2803892982949643e-01)));
  (*311*) Do (AddA v_jac 59 (#2.7832767823481550e+01 * ($v_j_temp * #9.6401946491474821e-01)));
  (*312*) Do (AddA v_jac 60 (#(-2.8832767823481554e+01) * ($v_j_temp * #9.6401946491474821e-01)));
  (*313*) Do (AddA v_jac 46 (#(-3.1746730956207710e+01) * ($v_j_temp * #9.6401946491474821e-01)));
  (*314*) Do (AddA v_jac 49 (#3.2746730956207706e+01 * ($v_j_temp * #9.6401946491474821e-01)));
  (*315*) Do (AddA v_jac 80 (#1.7534257534657549e+00 * ($v_j_temp * #4.2886781649405936e-01)));
  (*316*) Do (AddA v_jac 81 (#(-1.8164243659137218e+00) * ($v_j_temp * #4.2886781649405936e-01)));
  (*317*) Do (AddA v_jac 67 (#(-2.0000000000000000e+00) * ($v_j_temp * #4.2886781649405936e-01)));
  (*318*) Do (AddA v_jac 70 (#2.0629986124479669e+00 * ($v_j_temp * #4.2886781649405936e-01)));
  (*319*) Do (AddA v_jac 101 (#8.7671287673287746e-01 * ($v_j_temp * #(-1.4226436701188128e-01) + $v_kf * v_conc.[17])));
  (*320*) Do (AddA v_jac 102 (#(-9.0821218295686090e-01) * ($v_j_temp * #(-1.4226436701188128e-01) + $v_kf * v_conc.[17])));
  (*321*) Do (AddA v_jac 88 ((- ($v_j_temp * #(-1.4226436701188128e-01) + $v_kf * v_conc.[17]))));
  (*322*) Do (AddA v_jac 91 (#1.0314993062239834e+00 * ($v_j_temp * #(-1.4226436701188128e-01) + $v_kf * v_conc.[17])));
  (*323*) Do (AddA v_jac 122 (#1.6495089767124076e+00 * ($v_j_temp * #3.9288728140880758e-01)));
  (*324*) Do (AddA v_jac 123 (#(-1.7087739764125371e+00) * ($v_j_temp * #3.9288728140880758e-01)));
  (*325*) Do (AddA v_jac 109 (#(-1.8814700005997411e+00) * ($v_j_temp * #3.9288728140880758e-01)));
  (*326*) Do (AddA v_jac 112 (#1.9407350002998707e+00 * ($v_j_temp * #3.9288728140880758e-01)));
  (*327*) Do (AddA v_jac 143 (#1.5572203151990975e+00 * ($v_j_temp * #3.5690674632355568e-01)));
  (*328*) Do (AddA v_jac 144 (#(-1.6131694872352802e+00) * ($v_j_temp * #3.5690674632355568e-01)));
  (*329*) Do (AddA v_jac 130 (#(-1.7762033118552694e+00) * ($v_j_temp * #3.5690674632355568e-01)));
  (*330*) Do (AddA v_jac 133 (#1.8321524838914520e+00 * ($v_j_temp * #3.5690674632355568e-01)));
  (*331*) Do (AddA v_jac 164 (#8.4994034551730935e-01 * ($v_j_temp * #(-1.7824490209713328e-01) - $v_kr * v_conc.[16])));
  (*332*) Do (AddA v_jac 165 (#(-8.8047774484847630e-01) * ($v_j_temp * #(-1.7824490209713328e-01) - $v_kr * v_conc.[16])));
  (*333*) Do (AddA v_jac 151 (#(-9.6946260066883305e-01) * ($v_j_temp * #(-1.7824490209713328e-01) - $v_kr * v_conc.[16])));
  (*334*) Do (AddA v_jac 154 ($v_j_temp * #(-1.7824490209713328e-01) - $v_kr * v_conc.[16]));
  (*335*) Do (AddA v_jac 185 (#2.0000000000000000e+00 * ($v_j_temp * #4.9928106040377707e-01)));
  (*336*) Do (AddA v_jac 186 (#(-2.0718577474106858e+00) * ($v_j_temp * #4.9928106040377707e-01)));
  (*337*) Do (AddA v_jac 172 (#(-2.2812485741661725e+00) * ($v_j_temp * #4.9928106040377707e-01)));
  (*338*) Do (AddA v_jac 175 (#2.3531063215768584e+00 * ($v_j_temp * #4.9928106040377707e-01)));
  (*339*) Do (AddA v_jac 206 (#2.0000000000000000e+00 * ($v_j_temp * #4.9928106040377707e-01)));
  (*340*) Do (AddA v_jac 207 (#(-2.0718577474106858e+00) * ($v_j_temp * #4.9928106040377707e-01)));
  (*341*) Do (AddA v_jac 193 (#(-2.2812485741661725e+00) * ($v_j_temp * #4.9928106040377707e-01)));
  (*342*) Do (AddA v_jac 196 (#2.3531063215768584e+00 * ($v_j_temp * #4.9928106040377707e-01)));
  (*343*) Do (AddA v_jac 227 (#1.8659192461233323e+00 * ($v_j_temp * #4.6330052531852528e-01)));
  (*344*) Do (AddA v_jac 228 (#(-1.9329596230616661e+00) * ($v_j_temp * #4.6330052531852528e-01)));
  (*345*) Do (AddA v_jac 214 (#(-2.1283128098640356e+00) * ($v_j_temp * #4.6330052531852528e-01)));
  (*346*) Do (AddA v_jac 217 (#2.1953531868023695e+00 * ($v_j_temp * #4.6330052531852528e-01)));
  (*347*) Do (AddA v_jac 248 (#1.7486866349680477e+00 * ($v_j_temp * #4.2731999023327338e-01)));
  (*348*) Do (AddA v_jac 249 (#(-1.8115149762260356e+00) * ($v_j_temp * #4.2731999023327338e-01)));
  (*349*) Do (AddA v_jac 235 (#(-1.9945944463421503e+00) * ($v_j_temp * #4.2731999023327338e-01)));
  (*350*) Do (AddA v_jac 238 (#2.0574227876001383e+00 * ($v_j_temp * #4.2731999023327338e-01)));
  (*351*) Do (AddA v_jac 269 (#1.0015479964584584e+00 * ($v_j_temp * #1.0994706834011048e-04)));
  (*352*) Do (AddA v_jac 270 (#(-1.0375324879330534e+00) * ($v_j_temp * #1.0994706834011048e-04)));
  (*353*) Do (AddA v_jac 256 (#(-1.1423899694399224e+00) * ($v_j_temp * #1.0994706834011048e-04)));
  (*354*) Do (AddA v_jac 259 (#1.1783744609145177e+00 * ($v_j_temp * #1.0994706834011048e-04)));
  (*355*) Do (AddA v_jac 290 (#6.3744347849797089e-01 * ($v_j_temp * #(-5.7102223643760053e-01))));
  (*356*) Do (AddA v_jac 291 (#(-6.6034610473121891e-01) * ($v_j_temp * #(-5.7102223643760053e-01))));
  (*357*) Do (AddA v_jac 277 (#(-7.2708351321751064e-01) * ($v_j_temp * #(-5.7102223643760053e-01))));
  (*358*) Do (AddA v_jac 280 (#7.4998613945075876e-01 * ($v_j_temp * #(-5.7102223643760053e-01))));
  (*359*) Do (AddA v_jac 311 (#9.6675964235032041e-01 * ($v_j_temp * #(-3.5870588016911675e-02))));
  (*360*) Do (AddA v_jac 312 (#(-1.0014942274437477e+00) * ($v_j_temp * #(-3.5870588016911675e-02))));
  (*361*) Do (AddA v_jac 298 (#(-1.1027095278365338e+00) * ($v_j_temp * #(-3.5870588016911675e-02))));
  (*362*) Do (AddA v_jac 301 (#1.1374441129299608e+00 * ($v_j_temp * #(-3.5870588016911675e-02))));
  (*363*) Do (AddA v_jac 332 (#9.3430688050600996e-01 * ($v_j_temp * #(-7.1851123102163683e-02))));
  (*364*) Do (AddA v_jac 333 (#(-9.6787547441774335e-01) * ($v_j_temp * #(-7.1851123102163683e-02))));
  (*365*) Do (AddA v_jac 319 (#(-1.0656931194939898e+00) * ($v_j_temp * #(-7.1851123102163683e-02))));
  (*366*) Do (AddA v_jac 322 (#1.0992617134057232e+00 * ($v_j_temp * #(-7.1851123102163683e-02))));
  (*367*) Do (AddA v_jac 353 (#9.0396214243502815e-01 * ($v_j_temp * #(-1.0783165818741525e-01))));
  (*368*) Do (AddA v_jac 354 (#(-9.3644048408498748e-01) * ($v_j_temp * #(-1.0783165818741525e-01))));
  (*369*) Do (AddA v_jac 340 (#(-1.0310811742650532e+00) * ($v_j_temp * #(-1.0783165818741525e-01))));
  (*370*) Do (AddA v_jac 343 (#1.0635595159150126e+00 * ($v_j_temp * #(-1.0783165818741525e-01))));
  (*371*) Do (AddA v_jac 374 ($v_j_temp * #(-1.4378791924458678e-03) - $v_kr * v_conc.[6]));
  (*372*) Do (AddA v_jac 375 (#(-1.0359288737053429e+00) * ($v_j_temp * #(-1.4378791924458678e-03) - $v_kr * v_conc.[6])));
  (*373*) Do (AddA v_jac 361 (#(-1.1406242870830863e+00) * ($v_j_temp * #(-1.4378791924458678e-03) - $v_kr * v_conc.[6])));
  (*374*) Do (AddA v_jac 364 (#1.1765531607884292e+00 * ($v_j_temp * #(-1.4378791924458678e-03) - $v_kr * v_conc.[6])));
  (*375*) Do (AddA v_jac 395 (#9.6531723884012288e-01 * ($v_j_temp * #(-3.7418414277697654e-02) + $v_kf * v_conc.[3])));
  (*376*) Do (AddA v_jac 396 ((- ($v_j_temp * #(-3.7418414277697654e-02) + $v_kf * v_conc.[3]))));
  (*377*) Do (AddA v_jac 382 (#(-1.1010642873610286e+00) * ($v_j_temp * #(-3.7418414277697654e-02) + $v_kf * v_conc.[3])));
  (*378*) Do (AddA v_jac 385 (#1.1357470485209056e+00 * ($v_j_temp * #(-3.7418414277697654e-02) + $v_kf * v_conc.[3])));
  (*379*) Do (AddA v_jac 416 (#9.3295962306166613e-01 * ($v_j_temp * #(-7.3398949362949439e-02))));
  (*380*) Do (AddA v_jac 417 (#(-9.6647981153083307e-01) * ($v_j_temp * #(-7.3398949362949439e-02))));
  (*381*) Do (AddA v_jac 403 (#(-1.0641564049320178e+00) * ($v_j_temp * #(-7.3398949362949439e-02))));
  (*382*) Do (AddA v_jac 406 (#1.0976765934011847e+00 * ($v_j_temp * #(-7.3398949362949439e-02))));
  (*383*) Do (AddA v_jac 437 (#7.0225693401421840e-01 * ($v_j_temp * #(-4.2602775520927771e-01))));
  (*384*) Do (AddA v_jac 438 (#(-7.2748823470511659e-01) * ($v_j_temp * #(-4.2602775520927771e-01))));
  (*385*) Do (AddA v_jac 424 (#(-8.0101131470912179e-01) * ($v_j_temp * #(-4.2602775520927771e-01))));
  (*386*) Do (AddA v_jac 427 (#8.2624261540002009e-01 * ($v_j_temp * #(-4.2602775520927771e-01))))])].

(** [eval_jacob_3], drm19/lib/src/jacobs/jacob_3.c:3-767. *)
Definition drm19_jac_f3 : list stmt := [
  (*4*) Do (Asn v_rho_inv 0 (#1.0 / $v_rho));
  (*5*) Do (Asn v_working_temp 0 (#1.0 / $v_cp_avg));
  (*6*) Do (Asn v_j_temp 0 (#1.0 / ($v_rho * $v_cp_avg * $v_cp_avg)));
  (*7*) Do (AddA v_jac 22 (v_spec_rates.[0] * $v_mw_avg * #9.2803892982949643e-01 * $v_rho_inv));
  (*8*) Do (Asn v_jac 21 ((- (v_h.[0] * ($v_working_temp * v_jac.[22] - $v_j_temp * (v_cp.[0] - v_cp.[20]) * v_spec_rates.[0] * #2.01588000e+00)))));
  (*9*) Do (AddA v_jac 43 (v_spec_rates.[0] * $v_mw_avg * #1.9280389298294964e+00 * $v_rho_inv));
  (*10*) Do (Asn v_jac 42 ((- (v_h.[0] * ($v_working_temp * v_jac.[43] - $v_j_temp * (v_cp.[1] - v_cp.[20]) * v_spec_rates.[0] * #2.01588000e+00)))));
  (*11*) Do (AddA v_jac 64 (v_spec_rates.[0] * $v_mw_avg * #5.4036154725429976e-02 * $v_rho_inv));
  (*12*) Do (Asn v_jac 63 ((- (v_h.[0] * ($v_working_temp * v_jac.[64] - $v_j_temp * (v_cp.[2] - v_cp.[20]) * v_spec_rates.[0] * #2.01588000e+00)))));
  (*13*) Do (AddA v_jac 85 (v_spec_rates.[0] * $v_mw_avg * #(-8.9624577225368204e-03) * $v_rho_inv));
  (*14*) Do (Asn v_jac 84 ((- (v_h.[0] * ($v_working_temp * v_jac.[85] - $v_j_temp * (v_cp.[3] - v_cp.[20]) * v_spec_rates.[0] * #2.01588000e+00)))));
  (*15*) Do (AddA v_jac 106 (v_spec_rates.[0] * $v_mw_avg * #4.6568929229755335e-02 * $v_rho_inv));
  (*16*) Do (Asn v_jac 105 ((- (v_h.[0] * ($v_working_temp * v_jac.[106] - $v_j_temp * (v_cp.[4] - v_cp.[20]) * v_spec_rates.[0] * #2.01588000e+00)))));
  (*17*) Do (AddA v_jac 127 (v_spec_rates.[0] * $v_mw_avg * #3.9937273901861609e-02 * $v_rho_inv));
  (*18*) Do (Asn v_jac 126 ((- (v_h.[0] * ($v_working_temp * v_jac.[127] - $v_j_temp * (v_cp.[5] - v_cp.[20]) * v_spec_rates.[0] * #2.01588000e+00)))));
  (*19*) Do (AddA v_jac 148 (v_spec_rates.[0] * $v_mw_avg * #(-1.0886271508169818e-02) * $v_rho_inv));
  (*20*) Do (Asn v_jac 147 ((- (v_h.[0] * ($v_working_temp * v_jac.[148] - $v_j_temp * (v_cp.[6] - v_cp.[20]) * v_spec_rates.[0] * #2.01588000e+00)))));
  (*21*) Do (AddA v_jac 169 (v_spec_rates.[0] * $v_mw_avg * #7.1754424650867926e-02 * $v_rho_inv));
  (*22*) Do (Asn v_jac 168 ((- (v_h.[0] * ($v_working_temp * v_jac.[169] - $v_j_temp * (v_cp.[7] - v_cp.[20]) * v_spec_rates.[0] * #2.01588000e+00)))));
  (*23*) Do (AddA v_jac 190 (v_spec_rates.[0] * $v_mw_avg * #7.1754424650867926e-02 * $v_rho_inv));
  (*24*) Do (Asn v_jac 189 ((- (v_h.[0] * ($v_working_temp * v_jac.[190] - $v_j_temp * (v_cp.[8] - v_cp.[20]) * v_spec_rates.[0] * #2.01588000e+00)))));
  (*25*) Do (AddA v_jac 211 (v_spec_rates.[0] * $v_mw_avg * #6.2119683706164004e-02 * $v_rho_inv));
  (*26*) Do (Asn v_jac 210 ((- (v_h.[0] * ($v_working_temp * v_jac.[211] - $v_j_temp * (v_cp.[9] - v_cp.[20]) * v_spec_rates.[0] * #2.01588000e+00)))));
  (*27*) Do (AddA v_jac 232 (v_spec_rates.[0] * $v_mw_avg * #5.3695612345472425e-02 * $v_rho_inv));
  (*28*) Do (Asn v_jac 231 ((- (v_h.[0] * ($v_working_temp * v_jac.[232] - $v_j_temp * (v_cp.[10] - v_cp.[20]) * v_spec_rates.[0] * #2.01588000e+00)))));
  (*29*) Do (AddA v_jac 253 (v_spec_rates.[0] * $v_mw_avg * #7.9127786866828727e-06 * $v_rho_inv));
  (*30*) Do (Asn v_jac 252 ((- (v_h.[0] * ($v_working_temp * v_jac.[253] - $v_j_temp * (v_cp.[11] - v_cp.[20]) * v_spec_rates.[0] * #2.01588000e+00)))));
  (*31*) Do (AddA v_jac 274 (v_spec_rates.[0] * $v_mw_avg * #(-2.6155817704007524e-02) * $v_rho_inv));
  (*32*) Do (Asn v_jac 273 ((- (v_h.[0] * ($v_working_temp * v_jac.[274] - $v_j_temp * (v_cp.[12] - v_cp.[20]) * v_spec_rates.[0] * #2.01588000e+00)))));
  (*33*) Do (AddA v_jac 295 (v_spec_rates.[0] * $v_mw_avg * #(-2.4918999836493717e-03) * $v_rho_inv));
  (*34*) Do (Asn v_jac 294 ((- (v_h.[0] * ($v_working_temp * v_jac.[295] - $v_j_temp * (v_cp.[13] - v_cp.[20]) * v_spec_rates.[0] * #2.01588000e+00)))));
  (*35*) Do (AddA v_jac 316 (v_spec_rates.[0] * $v_mw_avg * #(-4.8238823470369866e-03) * $v_rho_inv));
  (*36*) Do (Asn v_jac 315 ((- (v_h.[0] * ($v_working_temp * v_jac.[316] - $v_j_temp * (v_cp.[14] - v_cp.[20]) * v_spec_rates.[0] * #2.01588000e+00)))));
  (*37*) Do (AddA v_jac 337 (v_spec_rates.[0] * $v_mw_avg * #(-7.0043868705850091e-03) * $v_rho_inv));
  (*38*) Do (Asn v_jac 336 ((- (v_h.[0] * ($v_working_temp * v_jac.[337] - $v_j_temp * (v_cp.[15] - v_cp.[20]) * v_spec_rates.[0] * #2.01588000e+00)))));
  (*39*) Do (AddA v_jac 358 (v_spec_rates.[0] * $v_mw_avg * #(-1.0332275981785601e-04) * $v_rho_inv));
  (*40*) Do (Asn v_jac 357 ((- (v_h.[0] * ($v_working_temp * v_jac.[358] - $v_j_temp * (v_cp.[16] - v_cp.[20]) * v_spec_rates.[0] * #2.01588000e+00)))));
  (*41*) Do (AddA v_jac 379 (v_spec_rates.[0] * $v_mw_avg * #(-2.5955478507494450e-03) * $v_rho_inv));
  (*42*) Do (Asn v_jac 378 ((- (v_h.[0] * ($v_working_temp * v_jac.[379] - $v_j_temp * (v_cp.[17] - v_cp.[20]) * v_spec_rates.[0] * #2.01588000e+00)))));
  (*43*) Do (AddA v_jac 400 (v_spec_rates.[0] * $v_mw_avg * #(-4.9206932321698071e-03) * $v_rho_inv));
  (*44*) Do (Asn v_jac 399 ((- (v_h.[0] * ($v_working_temp * v_jac.[400] - $v_j_temp * (v_cp.[18] - v_cp.[20]) * v_spec_rates.[0] * #2.01588000e+00)))));
  (*45*) Do (AddA v_jac 421 (v_spec_rates.[0] * $v_mw_avg * #(-2.1498468788707290e-02) * $v_rho_inv));
  (*46*) Do (Asn v_jac 420 ((- (v_h.[0] * ($v_working_temp * v_jac.[421] - $v_j_temp * (v_cp.[19] - v_cp.[20]) * v_spec_rates.[0] * #2.01588000e+00)))));
  (*47*) Do (AddA v_jac 23 (v_spec_rates.[1] * $v_mw_avg * #4.6401946491474821e-01 * $v_rho_inv));
  (*48*) Do (SubA v_jac 21 (v_h.[1] * ($v_working_temp * v_jac.[23] - $v_j_temp * (v_cp.[0] - v_cp.[20]) * v_spec_rates.[1] * #1.00794000e+00)));
  (*49*) Do (AddA v_jac 44 (v_spec_rates.[1] * $v_mw_avg * #9.6401946491474821e-01 * $v_rho_inv));
  (*50*) Do (SubA v_jac 42 (v_h.[1] * ($v_working_temp * v_jac.[44] - $v_j_temp * (v_cp.[1] - v_cp.[20]) * v_spec_rates.[1] * #1.00794000e+00)));
  (*51*) Do (AddA v_jac 65 (v_spec_rates.[1] * $v_mw_avg * #2.7018077362714988e-02 * $v_rho_inv));
  (*52*) Do (SubA v_jac 63 (v_h.[1] * ($v_working_temp * v_jac.[65] - $v_j_temp * (v_cp.[2] - v_cp.[20]) * v_spec_rates.[1] * #1.00794000e+00)));
  (*53*) Do (AddA v_jac 86 (v_spec_rates.[1] * $v_mw_avg * #(-4.4812288612684102e-03) * $v_rho_inv));
  (*54*) Do (SubA v_jac 84 (v_h.[1] * ($v_working_temp * v_jac.[86] - $v_j_temp * (v_cp.[3] - v_cp.[20]) * v_spec_rates.[1] * #1.00794000e+00)));
  (*55*) Do (AddA v_jac 107 (v_spec_rates.[1] * $v_mw_avg * #2.3284464614877667e-02 * $v_rho_inv));
  (*56*) Do (SubA v_jac 105 (v_h.[1] * ($v_working_temp * v_jac.[107] - $v_j_temp * (v_cp.[4] - v_cp.[20]) * v_spec_rates.[1] * #1.00794000e+00)));
  (*57*) Do (AddA v_jac 128 (v_spec_rates.[1] * $v_mw_avg * #1.9968636950930804e-02 * $v_rho_inv));
  (*58*) Do (SubA v_jac 126 (v_h.[1] * ($v_working_temp * v_jac.[128] - $v_j_temp * (v_cp.[5] - v_cp.[20]) * v_spec_rates.[1] * #1.00794000e+00)));
  (*59*) Do (AddA v_jac 149 (v_spec_rates.[1] * $v_mw_avg * #(-5.4431357540849091e-03) * $v_rho_inv));
  (*60*) Do (SubA v_jac 147 (v_h.[1] * ($v_working_temp * v_jac.[149] - $v_j_temp * (v_cp.[6] - v_cp.[20]) * v_spec_rates.[1] * #1.00794000e+00)));
  (*61*) Do (AddA v_jac 170 (v_spec_rates.[1] * $v_mw_avg * #3.5877212325433963e-02 * $v_rho_inv));
  (*62*) Do (SubA v_jac 168 (v_h.[1] * ($v_working_temp * v_jac.[170] - $v_j_temp * (v_cp.[7] - v_cp.[20]) * v_spec_rates.[1] * #1.00794000e+00)));
  (*63*) Do (AddA v_jac 191 (v_spec_rates.[1] * $v_mw_avg * #3.5877212325433963e-02 * $v_rho_inv));
  (*64*) Do (SubA v_jac 189 (v_h.[1] * ($v_working_temp * v_jac.[191] - $v_j_temp * (v_cp.[8] - v_cp.[20]) * v_spec_rates.[1] * #1.00794000e+00)));
  (*65*) Do (AddA v_jac 212 (v_spec_rates.[1] * $v_mw_avg * #3.1059841853082002e-02 * $v_rho_inv));
  (*66*) Do (SubA v_jac 210 (v_h.[1] * ($v_working_temp * v_jac.[212] - $v_j_temp * (v_cp.[9] - v_cp.[20]) * v_spec_rates.[1] * #1.00794000e+00)));
  (*67*) Do (AddA v_jac 233 (v_spec_rates.[1] * $v_mw_avg * #2.6847806172736213e-02 * $v_rho_inv));
  (*68*) Do (SubA v_jac 231 (v_h.[1] * ($v_working_temp * v_jac.[233] - $v_j_temp * (v_cp.[10] - v_cp.[20]) * v_spec_rates.[1] * #1.00794000e+00)));
  (*69*) Do (AddA v_jac 254 (v_spec_rates.[1] * $v_mw_avg * #3.9563893433414364e-06 * $v_rho_inv));
  (*70*) Do (SubA v_jac 252 (v_h.[1] * ($v_working_temp * v_jac.[254] - $v_j_temp * (v_cp.[11] - v_cp.[20]) * v_spec_rates.[1] * #1.00794000e+00)));
  (*71*) Do (AddA v_jac 275 (v_spec_rates.[1] * $v_mw_avg * #(-1.3077908852003762e-02) * $v_rho_inv));
  (*72*) Do (SubA v_jac 273 (v_h.[1] * ($v_working_temp * v_jac.[275] - $v_j_temp * (v_cp.[12] - v_cp.[20]) * v_spec_rates.[1] * #1.00794000e+00)));
  (*73*) Do (AddA v_jac 296 (v_spec_rates.[1] * $v_mw_avg * #(-1.2459499918246859e-03) * $v_rho_inv));
  (*74*) Do (SubA v_jac 294 (v_h.[1] * ($v_working_temp * v_jac.[296] - $v_j_temp * (v_cp.[13] - v_cp.[20]) * v_spec_rates.[1] * #1.00794000e+00)));
  (*75*) Do (AddA v_jac 317 (v_spec_rates.[1] * $v_mw_avg * #(-2.4119411735184933e-03) * $v_rho_inv));
  (*76*) Do (SubA v_jac 315 (v_h.[1] * ($v_working_temp * v_jac.[317] - $v_j_temp * (v_cp.[14] - v_cp.[20]) * v_spec_rates.[1] * #1.00794000e+00)));
  (*77*) Do (AddA v_jac 338 (v_spec_rates.[1] * $v_mw_avg * #(-3.5021934352925045e-03) * $v_rho_inv));
  (*78*) Do (SubA v_jac 336 (v_h.[1] * ($v_working_temp * v_jac.[338] - $v_j_temp * (v_cp.[15] - v_cp.[20]) * v_spec_rates.[1] * #1.00794000e+00)));
  (*79*) Do (AddA v_jac 359 (v_spec_rates.[1] * $v_mw_avg * #(-5.1661379908928005e-05) * $v_rho_inv));
  (*80*) Do (SubA v_jac 357 (v_h.[1] * ($v_working_temp * v_jac.[359] - $v_j_temp * (v_cp.[16] - v_cp.[20]) * v_spec_rates.[1] * #1.00794000e+00)));
  (*81*) Do (AddA v_jac 380 (v_spec_rates.[1] * $v_mw_avg * #(-1.2977739253747225e-03) * $v_rho_inv));
  (*82*) Do (SubA v_jac 378 (v_h.[1] * ($v_working_temp * v_jac.[380] - $v_j_temp * (v_cp.[17] - v_cp.[20]) * v_spec_rates.[1] * #1.00794000e+00)));
  (*83*) Do (AddA v_jac 401 (v_spec_rates.[1] * $v_mw_avg * #(-2.4603466160849036e-03) * $v_rho_inv));
  (*84*) Do (SubA v_jac 399 (v_h.[1] * ($v_working_temp * v_jac.[401] - $v_j_temp * (v_cp.[18] - v_cp.[20]) * v_spec_rates.[1] * #1.00794000e+00)));
  (*85*) Do (AddA v_jac 422 (v_spec_rates.[1] * $v_mw_avg * #(-1.0749234394353645e-02) * $v_rho_inv));
  (*86*) Do (SubA v_jac 420 (v_h.[1] * ($v_working_temp * v_jac.[422] - $v_j_temp * (v_cp.[19] - v_cp.[20]) * v_spec_rates.[1] * #1.00794000e+00)));
  (*87*) Do (AddA v_jac 24 (v_spec_rates.[2] * $v_mw_avg * #7.3655505555459868e+00 * $v_rho_inv));
  (*88*) Do (SubA v_jac 21 (v_h.[2] * ($v_working_temp * v_jac.[24] - $v_j_temp * (v_cp.[0] - v_cp.[20]) * v_spec_rates.[2] * #1.59994000e+01)));
  (*89*) Do (AddA v_jac 45 (v_spec_rates.[2] * $v_mw_avg * #1.5302233294597915e+01 * $v_rho_inv));
  (*90*) Do (SubA v_jac 42 (v_h.[2] * ($v_working_temp * v_jac.[45] - $v_j_temp * (v_cp.[1] - v_cp.[20]) * v_spec_rates.[2] * #1.59994000e+01)));
  (*91*) Do (AddA v_jac 66 (v_spec_rates.[2] * $v_mw_avg * #4.2886781649405936e-01 * $v_rho_inv));
  (*92*) Do (SubA v_jac 63 (v_h.[2] * ($v_working_temp * v_jac.[66] - $v_j_temp * (v_cp.[2] - v_cp.[20]) * v_spec_rates.[2] * #1.59994000e+01)));
  (*93*) Do (AddA v_jac 87 (v_spec_rates.[2] * $v_mw_avg * #(-7.1132183505940638e-02) * $v_rho_inv));
  (*94*) Do (SubA v_jac 84 (v_h.[2] * ($v_working_temp * v_jac.[87] - $v_j_temp * (v_cp.[3] - v_cp.[20]) * v_spec_rates.[2] * #1.59994000e+01)));
  (*95*) Do (AddA v_jac 108 (v_spec_rates.[2] * $v_mw_avg * #3.6960281679392992e-01 * $v_rho_inv));
  (*96*) Do (SubA v_jac 105 (v_h.[2] * ($v_working_temp * v_jac.[108] - $v_j_temp * (v_cp.[4] - v_cp.[20]) * v_spec_rates.[2] * #1.59994000e+01)));
  (*97*) Do (AddA v_jac 129 (v_spec_rates.[2] * $v_mw_avg * #3.1696947242169404e-01 * $v_rho_inv));
  (*98*) Do (SubA v_jac 126 (v_h.[2] * ($v_working_temp * v_jac.[129] - $v_j_temp * (v_cp.[5] - v_cp.[20]) * v_spec_rates.[2] * #1.59994000e+01)));
  (*99*) Do (AddA v_jac 150 (v_spec_rates.[2] * $v_mw_avg * #(-8.6400883171524182e-02) * $v_rho_inv));
  (*100*) Do (SubA v_jac 147 (v_h.[2] * ($v_working_temp * v_jac.[150] - $v_j_temp * (v_cp.[6] - v_cp.[20]) * v_spec_rates.[2] * #1.59994000e+01)));
  (*101*) Do (AddA v_jac 171 (v_spec_rates.[2] * $v_mw_avg * #5.6949210357714553e-01 * $v_rho_inv));
  (*102*) Do (SubA v_jac 168 (v_h.[2] * ($v_working_temp * v_jac.[171] - $v_j_temp * (v_cp.[7] - v_cp.[20]) * v_spec_rates.[2] * #1.59994000e+01)));
  (*103*) Do (AddA v_jac 192 (v_spec_rates.[2] * $v_mw_avg * #5.6949210357714553e-01 * $v_rho_inv));
  (*104*) Do (SubA v_jac 189 (v_h.[2] * ($v_working_temp * v_jac.[192] - $v_j_temp * (v_cp.[8] - v_cp.[20]) * v_spec_rates.[2] * #1.59994000e+01)));
  (*105*) Do (AddA v_jac 213 (v_spec_rates.[2] * $v_mw_avg * #4.9302422142607716e-01 * $v_rho_inv));
  (*106*) Do (SubA v_jac 210 (v_h.[2] * ($v_working_temp * v_jac.[213] - $v_j_temp * (v_cp.[9] - v_cp.[20]) * v_spec_rates.[2] * #1.59994000e+01)));
  (*107*) Do (AddA v_jac 234 (v_spec_rates.[2] * $v_mw_avg * #4.2616503966513453e-01 * $v_rho_inv));
  (*108*) Do (SubA v_jac 231 (v_h.[2] * ($v_working_temp * v_jac.[234] - $v_j_temp * (v_cp.[10] - v_cp.[20]) * v_spec_rates.[2] * #1.59994000e+01)));
  (*109*) Do (AddA v_jac 255 (v_spec_rates.[2] * $v_mw_avg * #6.2801214020533931e-05 * $v_rho_inv));
  (*110*) Do (SubA v_jac 252 (v_h.[2] * ($v_working_temp * v_jac.[255] - $v_j_temp * (v_cp.[11] - v_cp.[20]) * v_spec_rates.[2] * #1.59994000e+01)));
  (*111*) Do (AddA v_jac 276 (v_spec_rates.[2] * $v_mw_avg * #(-2.0759042689718529e-01) * $v_rho_inv));
  (*112*) Do (SubA v_jac 273 (v_h.[2] * ($v_working_temp * v_jac.[276] - $v_j_temp * (v_cp.[12] - v_cp.[20]) * v_spec_rates.[2] * #1.59994000e+01)));
  (*113*) Do (AddA v_jac 297 (v_spec_rates.[2] * $v_mw_avg * #(-1.9777419587673751e-02) * $v_rho_inv));
  (*114*) Do (SubA v_jac 294 (v_h.[2] * ($v_working_temp * v_jac.[297] - $v_j_temp * (v_cp.[13] - v_cp.[20]) * v_spec_rates.[2] * #1.59994000e+01)));
  (*115*) Do (AddA v_jac 318 (v_spec_rates.[2] * $v_mw_avg * #(-3.8285623758945744e-02) * $v_rho_inv));
  (*116*) Do (SubA v_jac 315 (v_h.[2] * ($v_working_temp * v_jac.[318] - $v_j_temp * (v_cp.[14] - v_cp.[20]) * v_spec_rates.[2] * #1.59994000e+01)));
  (*117*) Do (AddA v_jac 339 (v_spec_rates.[2] * $v_mw_avg * #(-5.5591596373413973e-02) * $v_rho_inv));
  (*118*) Do (SubA v_jac 336 (v_h.[2] * ($v_working_temp * v_jac.[339] - $v_j_temp * (v_cp.[15] - v_cp.[20]) * v_spec_rates.[2] * #1.59994000e+01)));
  (*119*) Do (AddA v_jac 360 (v_spec_rates.[2] * $v_mw_avg * #(-8.2003996439758593e-04) * $v_rho_inv));
  (*120*) Do (SubA v_jac 357 (v_h.[2] * ($v_working_temp * v_jac.[360] - $v_j_temp * (v_cp.[16] - v_cp.[20]) * v_spec_rates.[2] * #1.59994000e+01)));
  (*121*) Do (AddA v_jac 381 (v_spec_rates.[2] * $v_mw_avg * #(-2.0600039825426453e-02) * $v_rho_inv));
  (*122*) Do (SubA v_jac 378 (v_h.[2] * ($v_working_temp * v_jac.[381] - $v_j_temp * (v_cp.[17] - v_cp.[20]) * v_spec_rates.[2] * #1.59994000e+01)));
  (*123*) Do (AddA v_jac 402 (v_spec_rates.[2] * $v_mw_avg * #(-3.9053981039931747e-02) * $v_rho_inv));
  (*124*) Do (SubA v_jac 399 (v_h.[2] * ($v_working_temp * v_jac.[402] - $v_j_temp * (v_cp.[18] - v_cp.[20]) * v_spec_rates.[2] * #1.59994000e+01)));
  (*125*) Do (AddA v_jac 423 (v_spec_rates.[2] * $v_mw_avg * #(-1.7062652615137971e-01) * $v_rho_inv));
  (*126*) Do (SubA v_jac 420 (v_h.[2] * ($v_working_temp * v_jac.[423] - $v_j_temp * (v_cp.[19] - v_cp.[20]) * v_spec_rates.[2] * #1.59994000e+01)));
  (*127*) Do (AddA v_jac 25 (v_spec_rates.[3] * $v_mw_avg * #1.4731101111091974e+01 * $v_rho_inv));
  (*128*) Do (SubA v_jac 21 (v_h.[3] * ($v_working_temp * v_jac.[25] - $v_j_temp * (v_cp.[0] - v_cp.[20]) * v_spec_rates.[3] * #3.19988000e+01)));
  (*129*) Do (AddA v_jac 46 (v_spec_rates.[3] * $v_mw_avg * #3.0604466589195830e+01 * $v_rho_inv));
  (*130*) Do (SubA v_jac 42 (v_h.[3] * ($v_working_temp * v_jac.[46] - $v_j_temp * (v_cp.[1] - v_cp.[20]) * v_spec_rates.[3] * #3.19988000e+01)));
  (*131*) Do (AddA v_jac 67 (v_spec_rates.[3] * $v_mw_avg * #8.5773563298811872e-01 * $v_rho_inv));
  (*132*) Do (SubA v_jac 63 (v_h.[3] * ($v_working_temp * v_jac.[67] - $v_j_temp * (v_cp.[2] - v_cp.[20]) * v_spec_rates.[3] * #3.19988000e+01)));
  (*133*) Do (AddA v_jac 88 (v_spec_rates.[3] * $v_mw_avg * #(-1.4226436701188128e-01) * $v_rho_inv));
  (*134*) Do (SubA v_jac 84 (v_h.[3] * ($v_working_temp * v_jac.[88] - $v_j_temp * (v_cp.[3] - v_cp.[20]) * v_spec_rates.[3] * #3.19988000e+01)));
  (*135*) Do (AddA v_jac 109 (v_spec_rates.[3] * $v_mw_avg * #7.3920563358785984e-01 * $v_rho_inv));
  (*136*) Do (SubA v_jac 105 (v_h.[3] * ($v_working_temp * v_jac.[109] - $v_j_temp * (v_cp.[4] - v_cp.[20]) * v_spec_rates.[3] * #3.19988000e+01)));
  (*137*) Do (AddA v_jac 130 (v_spec_rates.[3] * $v_mw_avg * #6.3393894484338809e-01 * $v_rho_inv));
  (*138*) Do (SubA v_jac 126 (v_h.[3] * ($v_working_temp * v_jac.[130] - $v_j_temp * (v_cp.[5] - v_cp.[20]) * v_spec_rates.[3] * #3.19988000e+01)));
  (*139*) Do (AddA v_jac 151 (v_spec_rates.[3] * $v_mw_avg * #(-1.7280176634304836e-01) * $v_rho_inv));
  (*140*) Do (SubA v_jac 147 (v_h.[3] * ($v_working_temp * v_jac.[151] - $v_j_temp * (v_cp.[6] - v_cp.[20]) * v_spec_rates.[3] * #3.19988000e+01)));
  (*141*) Do (AddA v_jac 172 (v_spec_rates.[3] * $v_mw_avg * #1.1389842071542911e+00 * $v_rho_inv));
  (*142*) Do (SubA v_jac 168 (v_h.[3] * ($v_working_temp * v_jac.[172] - $v_j_temp * (v_cp.[7] - v_cp.[20]) * v_spec_rates.[3] * #3.19988000e+01)));
  (*143*) Do (AddA v_jac 193 (v_spec_rates.[3] * $v_mw_avg * #1.1389842071542911e+00 * $v_rho_inv));
  (*144*) Do (SubA v_jac 189 (v_h.[3] * ($v_working_temp * v_jac.[193] - $v_j_temp * (v_cp.[8] - v_cp.[20]) * v_spec_rates.[3] * #3.19988000e+01)));
  (*145*) Do (AddA v_jac 214 (v_spec_rates.[3] * $v_mw_avg * #9.8604844285215432e-01 * $v_rho_inv));
  (*146*) Do (SubA v_jac 210 (v_h.[3] * ($v_working_temp * v_jac.[214] - $v_j_temp * (v_cp.[9] - v_cp.[20]) * v_spec_rates.[3] * #3.19988000e+01)));
  (*147*) Do (AddA v_jac 235 (v_spec_rates.[3] * $v_mw_avg * #8.5233007933026905e-01 * $v_rho_inv));
  (*148*) Do (SubA v_jac 231 (v_h.[3] * ($v_working_temp * v_jac.[235] - $v_j_temp * (v_cp.[10] - v_cp.[20]) * v_spec_rates.[3] * #3.19988000e+01)));
  (*149*) Do (AddA v_jac 256 (v_spec_rates.[3] * $v_mw_avg * #1.2560242804106786e-04 * $v_rho_inv));
  (*150*) Do (SubA v_jac 252 (v_h.[3] * ($v_working_temp * v_jac.[256] - $v_j_temp * (v_cp.[11] - v_cp.[20]) * v_spec_rates.[3] * #3.19988000e+01)));
  (*151*) Do (AddA v_jac 277 (v_spec_rates.[3] * $v_mw_avg * #(-4.1518085379437059e-01) * $v_rho_inv));
  (*152*) Do (SubA v_jac 273 (v_h.[3] * ($v_working_temp * v_jac.[277] - $v_j_temp * (v_cp.[12] - v_cp.[20]) * v_spec_rates.[3] * #3.19988000e+01)));
  (*153*) Do (AddA v_jac 298 (v_spec_rates.[3] * $v_mw_avg * #(-3.9554839175347502e-02) * $v_rho_inv));
  (*154*) Do (SubA v_jac 294 (v_h.[3] * ($v_working_temp * v_jac.[298] - $v_j_temp * (v_cp.[13] - v_cp.[20]) * v_spec_rates.[3] * #3.19988000e+01)));
  (*155*) Do (AddA v_jac 319 (v_spec_rates.[3] * $v_mw_avg * #(-7.6571247517891489e-02) * $v_rho_inv));
  (*156*) Do (SubA v_jac 315 (v_h.[3] * ($v_working_temp * v_jac.[319] - $v_j_temp * (v_cp.[14] - v_cp.[20]) * v_spec_rates.[3] * #3.19988000e+01)));
  (*157*) Do (AddA v_jac 340 (v_spec_rates.[3] * $v_mw_avg * #(-1.1118319274682795e-01) * $v_rho_inv));
  (*158*) Do (SubA v_jac 336 (v_h.[3] * ($v_working_temp * v_jac.[340] - $v_j_temp * (v_cp.[15] - v_cp.[20]) * v_spec_rates.[3] * #3.19988000e+01)));
  (*159*) Do (AddA v_jac 361 (v_spec_rates.[3] * $v_mw_avg * #(-1.6400799287951719e-03) * $v_rho_inv));
  (*160*) Do (SubA v_jac 357 (v_h.[3] * ($v_working_temp * v_jac.[361] - $v_j_temp * (v_cp.[16] - v_cp.[20]) * v_spec_rates.[3] * #3.19988000e+01)));
  (*161*) Do (AddA v_jac 382 (v_spec_rates.[3] * $v_mw_avg * #(-4.1200079650852907e-02) * $v_rho_inv));
  (*162*) Do (SubA v_jac 378 (v_h.[3] * ($v_working_temp * v_jac.[382] - $v_j_temp * (v_cp.[17] - v_cp.[20]) * v_spec_rates.[3] * #3.19988000e+01)));
  (*163*) Do (AddA v_jac 403 (v_spec_rates.[3] * $v_mw_avg * #(-7.8107962079863494e-02) * $v_rho_inv));
  (*164*) Do (SubA v_jac 399 (v_h.[3] * ($v_working_temp * v_jac.[403] - $v_j_temp * (v_cp.[18] - v_cp.[20]) * v_spec_rates.[3] * #3.19988000e+01)));
  (*165*) Do (AddA v_jac 424 (v_spec_rates.[3] * $v_mw_avg * #(-3.4125305230275943e-01) * $v_rho_inv));
  (*166*) Do (SubA v_jac 420 (v_h.[3] * ($v_working_temp * v_jac.[424] - $v_j_temp * (v_cp.[19] - v_cp.[20]) * v_spec_rates.[3] * #3.19988000e+01)));
  (*167*) Do (AddA v_jac 26 (v_spec_rates.[4] * $v_mw_avg * #7.8295700204607348e+00 * $v_rho_inv));
  (*168*) Do (SubA v_jac 21 (v_h.[4] * ($v_working_temp * v_jac.[26] - $v_j_temp * (v_cp.[0] - v_cp.[20]) * v_spec_rates.[4] * #1.70073400e+01)));
  (*169*) Do (AddA v_jac 47 (v_spec_rates.[4] * $v_mw_avg * #1.6266252759512660e+01 * $v_rho_inv));
  (*170*) Do (SubA v_jac 42 (v_h.[4] * ($v_working_temp * v_jac.[47] - $v_j_temp * (v_cp.[1] - v_cp.[20]) * v_spec_rates.[4] * #1.70073400e+01)));
  (*171*) Do (AddA v_jac 68 (v_spec_rates.[4] * $v_mw_avg * #4.5588589385677430e-01 * $v_rho_inv));
  (*172*) Do (SubA v_jac 63 (v_h.[4] * ($v_working_temp * v_jac.[68] - $v_j_temp * (v_cp.[2] - v_cp.[20]) * v_spec_rates.[4] * #1.70073400e+01)));
  (*173*) Do (AddA v_jac 89 (v_spec_rates.[4] * $v_mw_avg * #(-7.5613412367209046e-02) * $v_rho_inv));
  (*174*) Do (SubA v_jac 84 (v_h.[4] * ($v_working_temp * v_jac.[89] - $v_j_temp * (v_cp.[3] - v_cp.[20]) * v_spec_rates.[4] * #1.70073400e+01)));
  (*175*) Do (AddA v_jac 110 (v_spec_rates.[4] * $v_mw_avg * #3.9288728140880758e-01 * $v_rho_inv));
  (*176*) Do (SubA v_jac 105 (v_h.[4] * ($v_working_temp * v_jac.[110] - $v_j_temp * (v_cp.[4] - v_cp.[20]) * v_spec_rates.[4] * #1.70073400e+01)));
  (*177*) Do (AddA v_jac 131 (v_spec_rates.[4] * $v_mw_avg * #3.3693810937262486e-01 * $v_rho_inv));
  (*178*) Do (SubA v_jac 126 (v_h.[4] * ($v_working_temp * v_jac.[131] - $v_j_temp * (v_cp.[5] - v_cp.[20]) * v_spec_rates.[4] * #1.70073400e+01)));
  (*179*) Do (AddA v_jac 152 (v_spec_rates.[4] * $v_mw_avg * #(-9.1844018925609089e-02) * $v_rho_inv));
  (*180*) Do (SubA v_jac 147 (v_h.[4] * ($v_working_temp * v_jac.[152] - $v_j_temp * (v_cp.[6] - v_cp.[20]) * v_spec_rates.[4] * #1.70073400e+01)));
  (*181*) Do (AddA v_jac 173 (v_spec_rates.[4] * $v_mw_avg * #6.0536931590257959e-01 * $v_rho_inv));
  (*182*) Do (SubA v_jac 168 (v_h.[4] * ($v_working_temp * v_jac.[173] - $v_j_temp * (v_cp.[7] - v_cp.[20]) * v_spec_rates.[4] * #1.70073400e+01)));
  (*183*) Do (AddA v_jac 194 (v_spec_rates.[4] * $v_mw_avg * #6.0536931590257959e-01 * $v_rho_inv));
  (*184*) Do (SubA v_jac 189 (v_h.[4] * ($v_working_temp * v_jac.[194] - $v_j_temp * (v_cp.[8] - v_cp.[20]) * v_spec_rates.[4] * #1.70073400e+01)));
  (*185*) Do (AddA v_jac 215 (v_spec_rates.[4] * $v_mw_avg * #5.2408406327915913e-01 * $v_rho_inv));
  (*186*) Do (SubA v_jac 210 (v_h.[4] * ($v_working_temp * v_jac.[215] - $v_j_temp * (v_cp.[9] - v_cp.[20]) * v_spec_rates.[4] * #1.70073400e+01)));
  (*187*) Do (AddA v_jac 236 (v_spec_rates.[4] * $v_mw_avg * #4.5301284583787071e-01 * $v_rho_inv));
  (*188*) Do (SubA v_jac 231 (v_h.[4] * ($v_working_temp * v_jac.[236] - $v_j_temp * (v_cp.[10] - v_cp.[20]) * v_spec_rates.[4] * #1.70073400e+01)));
  (*189*) Do (AddA v_jac 257 (v_spec_rates.[4] * $v_mw_avg * #6.6757603363875367e-05 * $v_rho_inv));
  (*190*) Do (SubA v_jac 252 (v_h.[4] * ($v_working_temp * v_jac.[257] - $v_j_temp * (v_cp.[11] - v_cp.[20]) * v_spec_rates.[4] * #1.70073400e+01)));
  (*191*) Do (AddA v_jac 278 (v_spec_rates.[4] * $v_mw_avg * #(-2.2066833574918907e-01) * $v_rho_inv));
  (*192*) Do (SubA v_jac 273 (v_h.[4] * ($v_working_temp * v_jac.[278] - $v_j_temp * (v_cp.[12] - v_cp.[20]) * v_spec_rates.[4] * #1.70073400e+01)));
  (*193*) Do (AddA v_jac 299 (v_spec_rates.[4] * $v_mw_avg * #(-2.1023369579498435e-02) * $v_rho_inv));
  (*194*) Do (SubA v_jac 294 (v_h.[4] * ($v_working_temp * v_jac.[299] - $v_j_temp * (v_cp.[13] - v_cp.[20]) * v_spec_rates.[4] * #1.70073400e+01)));
  (*195*) Do (AddA v_jac 320 (v_spec_rates.[4] * $v_mw_avg * #(-4.0697564932464243e-02) * $v_rho_inv));
  (*196*) Do (SubA v_jac 315 (v_h.[4] * ($v_working_temp * v_jac.[320] - $v_j_temp * (v_cp.[14] - v_cp.[20]) * v_spec_rates.[4] * #1.70073400e+01)));
  (*197*) Do (AddA v_jac 341 (v_spec_rates.[4] * $v_mw_avg * #(-5.9093789808706484e-02) * $v_rho_inv));
  (*198*) Do (SubA v_jac 336 (v_h.[4] * ($v_working_temp * v_jac.[341] - $v_j_temp * (v_cp.[15] - v_cp.[20]) * v_spec_rates.[4] * #1.70073400e+01)));
  (*199*) Do (AddA v_jac 362 (v_spec_rates.[4] * $v_mw_avg * #(-8.7170134430651397e-04) * $v_rho_inv));
  (*200*) Do (SubA v_jac 357 (v_h.[4] * ($v_working_temp * v_jac.[362] - $v_j_temp * (v_cp.[16] - v_cp.[20]) * v_spec_rates.[4] * #1.70073400e+01)));
  (*201*) Do (AddA v_jac 383 (v_spec_rates.[4] * $v_mw_avg * #(-2.1897813750801170e-02) * $v_rho_inv));
  (*202*) Do (SubA v_jac 378 (v_h.[4] * ($v_working_temp * v_jac.[383] - $v_j_temp * (v_cp.[17] - v_cp.[20]) * v_spec_rates.[4] * #1.70073400e+01)));
  (*203*) Do (AddA v_jac 404 (v_spec_rates.[4] * $v_mw_avg * #(-4.1514327656016654e-02) * $v_rho_inv));
  (*204*) Do (SubA v_jac 399 (v_h.[4] * ($v_working_temp * v_jac.[404] - $v_j_temp * (v_cp.[18] - v_cp.[20]) * v_spec_rates.[4] * #1.70073400e+01)));
  (*205*) Do (AddA v_jac 425 (v_spec_rates.[4] * $v_mw_avg * #(-1.8137576054573337e-01) * $v_rho_inv));
  (*206*) Do (SubA v_jac 420 (v_h.[4] * ($v_working_temp * v_jac.[425] - $v_j_temp * (v_cp.[19] - v_cp.[20]) * v_spec_rates.[4] * #1.70073400e+01)));
  (*207*) Do (AddA v_jac 27 (v_spec_rates.[5] * $v_mw_avg * #8.2935894853754846e+00 * $v_rho_inv));
  (*208*) Do (SubA v_jac 21 (v_h.[5] * ($v_working_temp * v_jac.[27] - $v_j_temp * (v_cp.[0] - v_cp.[20]) * v_spec_rates.[5] * #1.80152800e+01)));
  (*209*) Do (AddA v_jac 48 (v_spec_rates.[5] * $v_mw_avg * #1.7230272224427413e+01 * $v_rho_inv));
  (*210*) Do (SubA v_jac 42 (v_h.[5] * ($v_working_temp * v_jac.[48] - $v_j_temp * (v_cp.[1] - v_cp.[20]) * v_spec_rates.[5] * #1.80152800e+01)));
  (*211*) Do (AddA v_jac 69 (v_spec_rates.[5] * $v_mw_avg * #4.8290397121948930e-01 * $v_rho_inv));
  (*212*) Do (SubA v_jac 63 (v_h.[5] * ($v_working_temp * v_jac.[69] - $v_j_temp * (v_cp.[2] - v_cp.[20]) * v_spec_rates.[5] * #1.80152800e+01)));
  (*213*) Do (AddA v_jac 90 (v_spec_rates.[5] * $v_mw_avg * #(-8.0094641228477453e-02) * $v_rho_inv));
  (*214*) Do (SubA v_jac 84 (v_h.[5] * ($v_working_temp * v_jac.[90] - $v_j_temp * (v_cp.[3] - v_cp.[20]) * v_spec_rates.[5] * #1.80152800e+01)));
  (*215*) Do (AddA v_jac 111 (v_spec_rates.[5] * $v_mw_avg * #4.1617174602368529e-01 * $v_rho_inv));
  (*216*) Do (SubA v_jac 105 (v_h.[5] * ($v_working_temp * v_jac.[111] - $v_j_temp * (v_cp.[4] - v_cp.[20]) * v_spec_rates.[5] * #1.80152800e+01)));
  (*217*) Do (AddA v_jac 132 (v_spec_rates.[5] * $v_mw_avg * #3.5690674632355568e-01 * $v_rho_inv));
  (*218*) Do (SubA v_jac 126 (v_h.[5] * ($v_working_temp * v_jac.[132] - $v_j_temp * (v_cp.[5] - v_cp.[20]) * v_spec_rates.[5] * #1.80152800e+01)));
  (*219*) Do (AddA v_jac 153 (v_spec_rates.[5] * $v_mw_avg * #(-9.7287154679694010e-02) * $v_rho_inv));
  (*220*) Do (SubA v_jac 147 (v_h.[5] * ($v_working_temp * v_jac.[153] - $v_j_temp * (v_cp.[6] - v_cp.[20]) * v_spec_rates.[5] * #1.80152800e+01)));
  (*221*) Do (AddA v_jac 174 (v_spec_rates.[5] * $v_mw_avg * #6.4124652822801353e-01 * $v_rho_inv));
  (*222*) Do (SubA v_jac 168 (v_h.[5] * ($v_working_temp * v_jac.[174] - $v_j_temp * (v_cp.[7] - v_cp.[20]) * v_spec_rates.[5] * #1.80152800e+01)));
  (*223*) Do (AddA v_jac 195 (v_spec_rates.[5] * $v_mw_avg * #6.4124652822801353e-01 * $v_rho_inv));
  (*224*) Do (SubA v_jac 189 (v_h.[5] * ($v_working_temp * v_jac.[195] - $v_j_temp * (v_cp.[8] - v_cp.[20]) * v_spec_rates.[5] * #1.80152800e+01)));
  (*225*) Do (AddA v_jac 216 (v_spec_rates.[5] * $v_mw_avg * #5.5514390513224121e-01 * $v_rho_inv));
  (*226*) Do (SubA v_jac 210 (v_h.[5] * ($v_working_temp * v_jac.[216] - $v_j_temp * (v_cp.[9] - v_cp.[20]) * v_spec_rates.[5] * #1.80152800e+01)));
  (*227*) Do (AddA v_jac 237 (v_spec_rates.[5] * $v_mw_avg * #4.7986065201060690e-01 * $v_rho_inv));
  (*228*) Do (SubA v_jac 231 (v_h.[5] * ($v_working_temp * v_jac.[237] - $v_j_temp * (v_cp.[10] - v_cp.[20]) * v_spec_rates.[5] * #1.80152800e+01)));
  (*229*) Do (AddA v_jac 258 (v_spec_rates.[5] * $v_mw_avg * #7.0713992707216802e-05 * $v_rho_inv));
  (*230*) Do (SubA v_jac 252 (v_h.[5] * ($v_working_temp * v_jac.[258] - $v_j_temp * (v_cp.[11] - v_cp.[20]) * v_spec_rates.[5] * #1.80152800e+01)));
  (*231*) Do (AddA v_jac 279 (v_spec_rates.[5] * $v_mw_avg * #(-2.3374624460119284e-01) * $v_rho_inv));
  (*232*) Do (SubA v_jac 273 (v_h.[5] * ($v_working_temp * v_jac.[279] - $v_j_temp * (v_cp.[12] - v_cp.[20]) * v_spec_rates.[5] * #1.80152800e+01)));
  (*233*) Do (AddA v_jac 300 (v_spec_rates.[5] * $v_mw_avg * #(-2.2269319571323123e-02) * $v_rho_inv));
  (*234*) Do (SubA v_jac 294 (v_h.[5] * ($v_working_temp * v_jac.[300] - $v_j_temp * (v_cp.[13] - v_cp.[20]) * v_spec_rates.[5] * #1.80152800e+01)));
  (*235*) Do (AddA v_jac 321 (v_spec_rates.[5] * $v_mw_avg * #(-4.3109506105982735e-02) * $v_rho_inv));
  (*236*) Do (SubA v_jac 315 (v_h.[5] * ($v_working_temp * v_jac.[321] - $v_j_temp * (v_cp.[14] - v_cp.[20]) * v_spec_rates.[5] * #1.80152800e+01)));
  (*237*) Do (AddA v_jac 342 (v_spec_rates.[5] * $v_mw_avg * #(-6.2595983243998982e-02) * $v_rho_inv));
  (*238*) Do (SubA v_jac 336 (v_h.[5] * ($v_working_temp * v_jac.[342] - $v_j_temp * (v_cp.[15] - v_cp.[20]) * v_spec_rates.[5] * #1.80152800e+01)));
  (*239*) Do (AddA v_jac 363 (v_spec_rates.[5] * $v_mw_avg * #(-9.2336272421544201e-04) * $v_rho_inv));
  (*240*) Do (SubA v_jac 357 (v_h.[5] * ($v_working_temp * v_jac.[363] - $v_j_temp * (v_cp.[16] - v_cp.[20]) * v_spec_rates.[5] * #1.80152800e+01)));
  (*241*) Do (AddA v_jac 384 (v_spec_rates.[5] * $v_mw_avg * #(-2.3195587676175893e-02) * $v_rho_inv));
  (*242*) Do (SubA v_jac 378 (v_h.[5] * ($v_working_temp * v_jac.[384] - $v_j_temp * (v_cp.[17] - v_cp.[20]) * v_spec_rates.[5] * #1.80152800e+01)));
  (*243*) Do (AddA v_jac 405 (v_spec_rates.[5] * $v_mw_avg * #(-4.3974674272101555e-02) * $v_rho_inv));
  (*244*) Do (SubA v_jac 399 (v_h.[5] * ($v_working_temp * v_jac.[405] - $v_j_temp * (v_cp.[18] - v_cp.[20]) * v_spec_rates.[5] * #1.80152800e+01)));
  (*245*) Do (AddA v_jac 426 (v_spec_rates.[5] * $v_mw_avg * #(-1.9212499494008703e-01) * $v_rho_inv));
  (*246*) Do (SubA v_jac 420 (v_h.[5] * ($v_working_temp * v_jac.[426] - $v_j_temp * (v_cp.[19] - v_cp.[20]) * v_spec_rates.[5] * #1.80152800e+01)));
  (*247*) Do (AddA v_jac 28 (v_spec_rates.[6] * $v_mw_avg * #1.5195120576006721e+01 * $v_rho_inv));
  (*248*) Do (SubA v_jac 21 (v_h.[6] * ($v_working_temp * v_jac.[28] - $v_j_temp * (v_cp.[0] - v_cp.[20]) * v_spec_rates.[6] * #3.30067400e+01)));
  (*249*) Do (AddA v_jac 49 (v_spec_rates.[6] * $v_mw_avg * #3.1568486054110576e+01 * $v_rho_inv));
  (*250*) Do (SubA v_jac 42 (v_h.[6] * ($v_working_temp * v_jac.[49] - $v_j_temp * (v_cp.[1] - v_cp.[20]) * v_spec_rates.[6] * #3.30067400e+01)));
  (*251*) Do (AddA v_jac 70 (v_spec_rates.[6] * $v_mw_avg * #8.8475371035083372e-01 * $v_rho_inv));
  (*252*) Do (SubA v_jac 63 (v_h.[6] * ($v_working_temp * v_jac.[70] - $v_j_temp * (v_cp.[2] - v_cp.[20]) * v_spec_rates.[6] * #3.30067400e+01)));
  (*253*) Do (AddA v_jac 91 (v_spec_rates.[6] * $v_mw_avg * #(-1.4674559587314970e-01) * $v_rho_inv));
  (*254*) Do (SubA v_jac 84 (v_h.[6] * ($v_working_temp * v_jac.[91] - $v_j_temp * (v_cp.[3] - v_cp.[20]) * v_spec_rates.[6] * #3.30067400e+01)));
  (*255*) Do (AddA v_jac 112 (v_spec_rates.[6] * $v_mw_avg * #7.6249009820273750e-01 * $v_rho_inv));
  (*256*) Do (SubA v_jac 105 (v_h.[6] * ($v_working_temp * v_jac.[112] - $v_j_temp * (v_cp.[4] - v_cp.[20]) * v_spec_rates.[6] * #3.30067400e+01)));
  (*257*) Do (AddA v_jac 133 (v_spec_rates.[6] * $v_mw_avg * #6.5390758179431885e-01 * $v_rho_inv));
  (*258*) Do (SubA v_jac 126 (v_h.[6] * ($v_working_temp * v_jac.[133] - $v_j_temp * (v_cp.[5] - v_cp.[20]) * v_spec_rates.[6] * #3.30067400e+01)));
  (*259*) Do (AddA v_jac 154 (v_spec_rates.[6] * $v_mw_avg * #(-1.7824490209713328e-01) * $v_rho_inv));
  (*260*) Do (SubA v_jac 147 (v_h.[6] * ($v_working_temp * v_jac.[154] - $v_j_temp * (v_cp.[6] - v_cp.[20]) * v_spec_rates.[6] * #3.30067400e+01)));
  (*261*) Do (AddA v_jac 175 (v_spec_rates.[6] * $v_mw_avg * #1.1748614194797251e+00 * $v_rho_inv));
  (*262*) Do (SubA v_jac 168 (v_h.[6] * ($v_working_temp * v_jac.[175] - $v_j_temp * (v_cp.[7] - v_cp.[20]) * v_spec_rates.[6] * #3.30067400e+01)));
  (*263*) Do (AddA v_jac 196 (v_spec_rates.[6] * $v_mw_avg * #1.1748614194797251e+00 * $v_rho_inv));
  (*264*) Do (SubA v_jac 189 (v_h.[6] * ($v_working_temp * v_jac.[196] - $v_j_temp * (v_cp.[8] - v_cp.[20]) * v_spec_rates.[6] * #3.30067400e+01)));
  (*265*) Do (AddA v_jac 217 (v_spec_rates.[6] * $v_mw_avg * #1.0171082847052364e+00 * $v_rho_inv));
  (*266*) Do (SubA v_jac 210 (v_h.[6] * ($v_working_temp * v_jac.[217] - $v_j_temp * (v_cp.[9] - v_cp.[20]) * v_spec_rates.[6] * #3.30067400e+01)));
  (*267*) Do (AddA v_jac 238 (v_spec_rates.[6] * $v_mw_avg * #8.7917788550300524e-01 * $v_rho_inv));
  (*268*) Do (SubA v_jac 231 (v_h.[6] * ($v_working_temp * v_jac.[238] - $v_j_temp * (v_cp.[10] - v_cp.[20]) * v_spec_rates.[6] * #3.30067400e+01)));
  (*269*) Do (AddA v_jac 259 (v_spec_rates.[6] * $v_mw_avg * #1.2955881738440931e-04 * $v_rho_inv));
  (*270*) Do (SubA v_jac 252 (v_h.[6] * ($v_working_temp * v_jac.[259] - $v_j_temp * (v_cp.[11] - v_cp.[20]) * v_spec_rates.[6] * #3.30067400e+01)));
  (*271*) Do (AddA v_jac 280 (v_spec_rates.[6] * $v_mw_avg * #(-4.2825876264637441e-01) * $v_rho_inv));
  (*272*) Do (SubA v_jac 273 (v_h.[6] * ($v_working_temp * v_jac.[280] - $v_j_temp * (v_cp.[12] - v_cp.[20]) * v_spec_rates.[6] * #3.30067400e+01)));
  (*273*) Do (AddA v_jac 301 (v_spec_rates.[6] * $v_mw_avg * #(-4.0800789167172183e-02) * $v_rho_inv));
  (*274*) Do (SubA v_jac 294 (v_h.[6] * ($v_working_temp * v_jac.[301] - $v_j_temp * (v_cp.[13] - v_cp.[20]) * v_spec_rates.[6] * #3.30067400e+01)));
  (*275*) Do (AddA v_jac 322 (v_spec_rates.[6] * $v_mw_avg * #(-7.8983188691409995e-02) * $v_rho_inv));
  (*276*) Do (SubA v_jac 315 (v_h.[6] * ($v_working_temp * v_jac.[322] - $v_j_temp * (v_cp.[14] - v_cp.[20]) * v_spec_rates.[6] * #3.30067400e+01)));
  (*277*) Do (AddA v_jac 343 (v_spec_rates.[6] * $v_mw_avg * #(-1.1468538618212047e-01) * $v_rho_inv));
  (*278*) Do (SubA v_jac 336 (v_h.[6] * ($v_working_temp * v_jac.[343] - $v_j_temp * (v_cp.[15] - v_cp.[20]) * v_spec_rates.[6] * #3.30067400e+01)));
  (*279*) Do (AddA v_jac 364 (v_spec_rates.[6] * $v_mw_avg * #(-1.6917413087040999e-03) * $v_rho_inv));
  (*280*) Do (SubA v_jac 357 (v_h.[6] * ($v_working_temp * v_jac.[364] - $v_j_temp * (v_cp.[16] - v_cp.[20]) * v_spec_rates.[6] * #3.30067400e+01)));
  (*281*) Do (AddA v_jac 385 (v_spec_rates.[6] * $v_mw_avg * #(-4.2497853576227623e-02) * $v_rho_inv));
  (*282*) Do (SubA v_jac 378 (v_h.[6] * ($v_working_temp * v_jac.[385] - $v_j_temp * (v_cp.[17] - v_cp.[20]) * v_spec_rates.[6] * #3.30067400e+01)));
  (*283*) Do (AddA v_jac 406 (v_spec_rates.[6] * $v_mw_avg * #(-8.0568308695948401e-02) * $v_rho_inv));
  (*284*) Do (SubA v_jac 399 (v_h.[6] * ($v_working_temp * v_jac.[406] - $v_j_temp * (v_cp.[18] - v_cp.[20]) * v_spec_rates.[6] * #3.30067400e+01)));
  (*285*) Do (AddA v_jac 427 (v_spec_rates.[6] * $v_mw_avg * #(-3.5200228669711314e-01) * $v_rho_inv));
  (*286*) Do (SubA v_jac 420 (v_h.[6] * ($v_working_temp * v_jac.[427] - $v_j_temp * (v_cp.[19] - v_cp.[20]) * v_spec_rates.[6] * #3.30067400e+01)));
  (*287*) Do (AddA v_jac 29 (v_spec_rates.[7] * $v_mw_avg * #6.4574730162741654e+00 * $v_rho_inv));
  (*288*) Do (SubA v_jac 21 (v_h.[7] * ($v_working_temp * v_jac.[29] - $v_j_temp * (v_cp.[0] - v_cp.[20]) * v_spec_rates.[7] * #1.40268800e+01)));
  (*289*) Do (AddA v_jac 50 (v_spec_rates.[7] * $v_mw_avg * #1.3415664972144553e+01 * $v_rho_inv));
  (*290*) Do (SubA v_jac 42 (v_h.[7] * ($v_working_temp * v_jac.[50] - $v_j_temp * (v_cp.[1] - v_cp.[20]) * v_spec_rates.[7] * #1.40268800e+01)));
  (*291*) Do (AddA v_jac 71 (v_spec_rates.[7] * $v_mw_avg * #3.7599393713665458e-01 * $v_rho_inv));
  (*292*) Do (SubA v_jac 63 (v_h.[7] * ($v_working_temp * v_jac.[71] - $v_j_temp * (v_cp.[2] - v_cp.[20]) * v_spec_rates.[7] * #1.40268800e+01)));
  (*293*) Do (AddA v_jac 92 (v_spec_rates.[7] * $v_mw_avg * #(-6.2362501229784151e-02) * $v_rho_inv));
  (*294*) Do (SubA v_jac 84 (v_h.[7] * ($v_working_temp * v_jac.[92] - $v_j_temp * (v_cp.[3] - v_cp.[20]) * v_spec_rates.[7] * #1.40268800e+01)));
  (*295*) Do (AddA v_jac 113 (v_spec_rates.[7] * $v_mw_avg * #3.2403554875998097e-01 * $v_rho_inv));
  (*296*) Do (SubA v_jac 105 (v_h.[7] * ($v_working_temp * v_jac.[113] - $v_j_temp * (v_cp.[4] - v_cp.[20]) * v_spec_rates.[7] * #1.40268800e+01)));
  (*297*) Do (AddA v_jac 134 (v_spec_rates.[7] * $v_mw_avg * #2.7789121800332584e-01 * $v_rho_inv));
  (*298*) Do (SubA v_jac 126 (v_h.[7] * ($v_working_temp * v_jac.[134] - $v_j_temp * (v_cp.[5] - v_cp.[20]) * v_spec_rates.[7] * #1.40268800e+01)));
  (*299*) Do (AddA v_jac 155 (v_spec_rates.[7] * $v_mw_avg * #(-7.5748766837568218e-02) * $v_rho_inv));
  (*300*) Do (SubA v_jac 147 (v_h.[7] * ($v_working_temp * v_jac.[155] - $v_j_temp * (v_cp.[6] - v_cp.[20]) * v_spec_rates.[7] * #1.40268800e+01)));
  (*301*) Do (AddA v_jac 176 (v_spec_rates.[7] * $v_mw_avg * #4.9928106040377707e-01 * $v_rho_inv));
  (*302*) Do (SubA v_jac 168 (v_h.[7] * ($v_working_temp * v_jac.[176] - $v_j_temp * (v_cp.[7] - v_cp.[20]) * v_spec_rates.[7] * #1.40268800e+01)));
  (*303*) Do (AddA v_jac 197 (v_spec_rates.[7] * $v_mw_avg * #4.9928106040377707e-01 * $v_rho_inv));
  (*304*) Do (SubA v_jac 189 (v_h.[7] * ($v_working_temp * v_jac.[197] - $v_j_temp * (v_cp.[8] - v_cp.[20]) * v_spec_rates.[7] * #1.40268800e+01)));
  (*305*) Do (AddA v_jac 218 (v_spec_rates.[7] * $v_mw_avg * #4.3224068346544325e-01 * $v_rho_inv));
  (*306*) Do (SubA v_jac 210 (v_h.[7] * ($v_working_temp * v_jac.[218] - $v_j_temp * (v_cp.[9] - v_cp.[20]) * v_spec_rates.[7] * #1.40268800e+01)));
  (*307*) Do (AddA v_jac 239 (v_spec_rates.[7] * $v_mw_avg * #3.7362437788780090e-01 * $v_rho_inv));
  (*308*) Do (SubA v_jac 231 (v_h.[7] * ($v_working_temp * v_jac.[239] - $v_j_temp * (v_cp.[10] - v_cp.[20]) * v_spec_rates.[7] * #1.40268800e+01)));
  (*309*) Do (AddA v_jac 260 (v_spec_rates.[7] * $v_mw_avg * #5.5058633006259423e-05 * $v_rho_inv));
  (*310*) Do (SubA v_jac 252 (v_h.[7] * ($v_working_temp * v_jac.[260] - $v_j_temp * (v_cp.[11] - v_cp.[20]) * v_spec_rates.[7] * #1.40268800e+01)));
  (*311*) Do (AddA v_jac 281 (v_spec_rates.[7] * $v_mw_avg * #(-1.8199720034723743e-01) * $v_rho_inv));
  (*312*) Do (SubA v_jac 273 (v_h.[7] * ($v_working_temp * v_jac.[281] - $v_j_temp * (v_cp.[12] - v_cp.[20]) * v_spec_rates.[7] * #1.40268800e+01)));
  (*313*) Do (AddA v_jac 302 (v_spec_rates.[7] * $v_mw_avg * #(-1.7339118421062609e-02) * $v_rho_inv));
  (*314*) Do (SubA v_jac 294 (v_h.[7] * ($v_working_temp * v_jac.[302] - $v_j_temp * (v_cp.[13] - v_cp.[20]) * v_spec_rates.[7] * #1.40268800e+01)));
  (*315*) Do (AddA v_jac 323 (v_spec_rates.[7] * $v_mw_avg * #(-3.3565499343217925e-02) * $v_rho_inv));
  (*316*) Do (SubA v_jac 315 (v_h.[7] * ($v_working_temp * v_jac.[323] - $v_j_temp * (v_cp.[14] - v_cp.[20]) * v_spec_rates.[7] * #1.40268800e+01)));
  (*317*) Do (AddA v_jac 344 (v_spec_rates.[7] * $v_mw_avg * #(-4.8737868378708762e-02) * $v_rho_inv));
  (*318*) Do (SubA v_jac 336 (v_h.[7] * ($v_working_temp * v_jac.[344] - $v_j_temp * (v_cp.[15] - v_cp.[20]) * v_spec_rates.[7] * #1.40268800e+01)));
  (*319*) Do (AddA v_jac 365 (v_spec_rates.[7] * $v_mw_avg * #(-7.1893959622293391e-04) * $v_rho_inv));
  (*320*) Do (SubA v_jac 357 (v_h.[7] * ($v_working_temp * v_jac.[365] - $v_j_temp * (v_cp.[16] - v_cp.[20]) * v_spec_rates.[7] * #1.40268800e+01)));
  (*321*) Do (AddA v_jac 386 (v_spec_rates.[7] * $v_mw_avg * #(-1.8060320176161465e-02) * $v_rho_inv));
  (*322*) Do (SubA v_jac 378 (v_h.[7] * ($v_working_temp * v_jac.[386] - $v_j_temp * (v_cp.[17] - v_cp.[20]) * v_spec_rates.[7] * #1.40268800e+01)));
  (*323*) Do (AddA v_jac 407 (v_spec_rates.[7] * $v_mw_avg * #(-3.4239128065389812e-02) * $v_rho_inv));
  (*324*) Do (SubA v_jac 399 (v_h.[7] * ($v_working_temp * v_jac.[407] - $v_j_temp * (v_cp.[18] - v_cp.[20]) * v_spec_rates.[7] * #1.40268800e+01)));
  (*325*) Do (AddA v_jac 428 (v_spec_rates.[7] * $v_mw_avg * #(-1.4959047258911368e-01) * $v_rho_inv));
  (*326*) Do (SubA v_jac 420 (v_h.[7] * ($v_working_temp * v_jac.[428] - $v_j_temp * (v_cp.[19] - v_cp.[20]) * v_spec_rates.[7] * #1.40268800e+01)));
  (*327*) Do (AddA v_jac 30 (v_spec_rates.[8] * $v_mw_avg * #6.4574730162741654e+00 * $v_rho_inv));
  (*328*) Do (SubA v_jac 21 (v_h.[8] * ($v_working_temp * v_jac.[30] - $v_j_temp * (v_cp.[0] - v_cp.[20]) * v_spec_rates.[8] * #1.40268800e+01)));
  (*329*) Do (AddA v_jac 51 (v_spec_rates.[8] * $v_mw_avg * #1.3415664972144553e+01 * $v_rho_inv));
  (*330*) Do (SubA v_jac 42 (v_h.[8] * ($v_working_temp * v_jac.[51] - $v_j_temp * (v_cp.[1] - v_cp.[20]) * v_spec_rates.[8] * #1.40268800e+01)));
  (*331*) Do (AddA v_jac 72 (v_spec_rates.[8] * $v_mw_avg * #3.7599393713665458e-01 * $v_rho_inv));
  (*332*) Do (SubA v_jac 63 (v_h.[8] * ($v_working_temp * v_jac.[72] - $v_j_temp * (v_cp.[2] - v_cp.[20]) * v_spec_rates.[8] * #1.40268800e+01)));
  (*333*) Do (AddA v_jac 93 (v_spec_rates.[8] * $v_mw_avg * #(-6.2362501229784151e-02) * $v_rho_inv));
  (*334*) Do (SubA v_jac 84 (v_h.[8] * ($v_working_temp * v_jac.[93] - $v_j_temp * (v_cp.[3] - v_cp.[20]) * v_spec_rates.[8] * #1.40268800e+01)));
  (*335*) Do (AddA v_jac 114 (v_spec_rates.[8] * $v_mw_avg * #3.2403554875998097e-01 * $v_rho_inv));
  (*336*) Do (SubA v_jac 105 (v_h.[8] * ($v_working_temp * v_jac.[114] - $v_j_temp * (v_cp.[4] - v_cp.[20]) * v_spec_rates.[8] * #1.40268800e+01)));
  (*337*) Do (AddA v_jac 135 (v_spec_rates.[8] * $v_mw_avg * #2.7789121800332584e-01 * $v_rho_inv));
  (*338*) Do (SubA v_jac 126 (v_h.[8] * ($v_working_temp * v_jac.[135] - $v_j_temp * (v_cp.[5] - v_cp.[20]) * v_spec_rates.[8] * #1.40268800e+01)));
  (*339*) Do (AddA v_jac 156 (v_spec_rates.[8] * $v_mw_avg * #(-7.5748766837568218e-02) * $v_rho_inv));
  (*340*) Do (SubA v_jac 147 (v_h.[8] * ($v_working_temp * v_jac.[156] - $v_j_temp * (v_cp.[6] - v_cp.[20]) * v_spec_rates.[8] * #1.40268800e+01)));
  (*341*) Do (AddA v_jac 177 (v_spec_rates.[8] * $v_mw_avg * #4.9928106040377707e-01 * $v_rho_inv));
  (*342*) Do (SubA v_jac 168 (v_h.[8] * ($v_working_temp * v_jac.[177] - $v_j_temp * (v_cp.[7] - v_cp.[20]) * v_spec_rates.[8] * #1.40268800e+01)));
  (*343*) Do (AddA v_jac 198 (v_spec_rates.[8] * $v_mw_avg * #4.9928106040377707e-01 * $v_rho_inv));
  (*344*) Do (SubA v_jac 189 (v_h.[8] * ($v_working_temp * v_jac.[198] - $v_j_temp * (v_cp.[8] - v_cp.[20]) * v_spec_rates.[8] * #1.40268800e+01)));
  (*345*) Do (AddA v_jac 219 (v_spec_rates.[8] * $v_mw_avg * #4.3224068346544325e-01 * $v_rho_inv));
  (*346*) Do (SubA v_jac 210 (v_h.[8] * ($v_working_temp * v_jac.[219] - $v_j_temp * (v_cp.[9] - v_cp.[20]) * v_spec_rates.[8] * #1.40268800e+01)));
  (*347*) Do (AddA v_jac 240 (v_spec_rates.[8] * $v_mw_avg * #3.7362437788780090e-01 * $v_rho_inv));
  (*348*) Do (SubA v_jac 231 (v_h.[8] * ($v_working_temp * v_jac.[240] - $v_j_temp * (v_cp.[10] - v_cp.[20]) * v_spec_rates.[8] * #1.40268800e+01)));
  (*349*) Do (AddA v_jac 261 (v_spec_rates.[8] * $v_mw_avg * #5.5058633006259423e-05 * $v_rho_inv));
  (*350*) Do (SubA v_jac 252 (v_h.[8] * ($v_working_temp * v_jac.[261] - $v_j_temp * (v_cp.[11] - v_cp.[20]) * v_spec_rates.[8] * #1.40268800e+01)));
  (*351*) Do (AddA v_jac 282 (v_spec_rates.[8] * $v_mw_avg * #(-1.8199720034723743e-01) * $v_rho_inv));
  (*352*) Do (SubA v_jac 273 (v_h.[8] * ($v_working_temp * v_jac.[282] - $v_j_temp * (v_cp.[12] - v_cp.[20]) * v_spec_rates.[8] * #1.40268800e+01)));
  (*353*) Do (AddA v_jac 303 (v_spec_rates.[8] * $v_mw_avg * #(-1.7339118421062609e-02) * $v_rho_inv));
  (*354*) Do (SubA v_jac 294 (v_h.[8] * ($v_working_temp * v_jac.[303] - $v_j_temp * (v_cp.[13] - v_cp.[20]) * v_spec_rates.[8] * #1.40268800e+01)));
  (*355*) Do (AddA v_jac 324 (v_spec_rates.[8] * $v_mw_avg * #(-3.3565499343217925e-02) * $v_rho_inv));
  (*356*) Do (SubA v_jac 315 (v_h.[8] * ($v_working_temp * v_jac.[324] - $v_j_temp * (v_cp.[14] - v_cp.[20]) * v_spec_rates.[8] * #1.40268800e+01)));
  (*357*) Do (AddA v_jac 345 (v_spec_rates.[8] * $v_mw_avg * #(-4.8737868378708762e-02) * $v_rho_inv));
  (*358*) Do (SubA v_jac 336 (v_h.[8] * ($v_working_temp * v_jac.[345] - $v_j_temp * (v_cp.[15] - v_cp.[20]) * v_spec_rates.[8] * #1.40268800e+01)));
  (*359*) Do (AddA v_jac 366 (v_spec_rates.[8] * $v_mw_avg * #(-7.1893959622293391e-04) * $v_rho_inv));
  (*360*) Do (SubA v_jac 357 (v_h.[8] * ($v_working_temp * v_jac.[366] - $v_j_temp * (v_cp.[16] - v_cp.[20]) * v_spec_rates.[8] * #1.40268800e+01)));
  (*361*) Do (AddA v_jac 387 (v_spec_rates.[8] * $v_mw_avg * #(-1.8060320176161465e-02) * $v_rho_inv));
  (*362*) Do (SubA v_jac 378 (v_h.[8] * ($v_working_temp * v_jac.[387] - $v_j_temp * (v_cp.[17] - v_cp.[20]) * v_spec_rates.[8] * #1.40268800e+01)));
  (*363*) Do (AddA v_jac 408 (v_spec_rates.[8] * $v_mw_avg * #(-3.4239128065389812e-02) * $v_rho_inv));
  (*364*) Do (SubA v_jac 399 (v_h.[8] * ($v_working_temp * v_jac.[408] - $v_j_temp * (v_cp.[18] - v_cp.[20]) * v_spec_rates.[8] * #1.40268800e+01)));
  (*365*) Do (AddA v_jac 429 (v_spec_rates.[8] * $v_mw_avg * #(-1.4959047258911368e-01) * $v_rho_inv));
  (*366*) Do (SubA v_jac 420 (v_h.[8] * ($v_working_temp * v_jac.[429] - $v_j_temp * (v_cp.[19] - v_cp.[20]) * v_spec_rates.[8] * #1.40268800e+01)));
  (*367*) Do (AddA v_jac 31 (v_spec_rates.[9] * $v_mw_avg * #6.9214924811889142e+00 * $v_rho_inv));
  (*368*) Do (SubA v_jac 21 (v_h.[9] * ($v_working_temp * v_jac.[31] - $v_j_temp * (v_cp.[0] - v_cp.[20]) * v_spec_rates.[9] * #1.50348200e+01)));
  (*369*) Do (AddA v_jac 52 (v_spec_rates.[9] * $v_mw_avg * #1.4379684437059302e+01 * $v_rho_inv));
  (*370*) Do (SubA v_jac 42 (v_h.[9] * ($v_working_temp * v_jac.[52] - $v_j_temp * (v_cp.[1] - v_cp.[20]) * v_spec_rates.[9] * #1.50348200e+01)));
  (*371*) Do (AddA v_jac 73 (v_spec_rates.[9] * $v_mw_avg * #4.0301201449936958e-01 * $v_rho_inv));
  (*372*) Do (SubA v_jac 63 (v_h.[9] * ($v_working_temp * v_jac.[73] - $v_j_temp * (v_cp.[2] - v_cp.[20]) * v_spec_rates.[9] * #1.50348200e+01)));
  (*373*) Do (AddA v_jac 94 (v_spec_rates.[9] * $v_mw_avg * #(-6.6843730091052558e-02) * $v_rho_inv));
  (*374*) Do (SubA v_jac 84 (v_h.[9] * ($v_working_temp * v_jac.[94] - $v_j_temp * (v_cp.[3] - v_cp.[20]) * v_spec_rates.[9] * #1.50348200e+01)));
  (*375*) Do (AddA v_jac 115 (v_spec_rates.[9] * $v_mw_avg * #3.4732001337485863e-01 * $v_rho_inv));
  (*376*) Do (SubA v_jac 105 (v_h.[9] * ($v_working_temp * v_jac.[115] - $v_j_temp * (v_cp.[4] - v_cp.[20]) * v_spec_rates.[9] * #1.50348200e+01)));
  (*377*) Do (AddA v_jac 136 (v_spec_rates.[9] * $v_mw_avg * #2.9785985495425665e-01 * $v_rho_inv));
  (*378*) Do (SubA v_jac 126 (v_h.[9] * ($v_working_temp * v_jac.[136] - $v_j_temp * (v_cp.[5] - v_cp.[20]) * v_spec_rates.[9] * #1.50348200e+01)));
  (*379*) Do (AddA v_jac 157 (v_spec_rates.[9] * $v_mw_avg * #(-8.1191902591653139e-02) * $v_rho_inv));
  (*380*) Do (SubA v_jac 147 (v_h.[9] * ($v_working_temp * v_jac.[157] - $v_j_temp * (v_cp.[6] - v_cp.[20]) * v_spec_rates.[9] * #1.50348200e+01)));
  (*381*) Do (AddA v_jac 178 (v_spec_rates.[9] * $v_mw_avg * #5.3515827272921102e-01 * $v_rho_inv));
  (*382*) Do (SubA v_jac 168 (v_h.[9] * ($v_working_temp * v_jac.[178] - $v_j_temp * (v_cp.[7] - v_cp.[20]) * v_spec_rates.[9] * #1.50348200e+01)));
  (*383*) Do (AddA v_jac 199 (v_spec_rates.[9] * $v_mw_avg * #5.3515827272921102e-01 * $v_rho_inv));
  (*384*) Do (SubA v_jac 189 (v_h.[9] * ($v_working_temp * v_jac.[199] - $v_j_temp * (v_cp.[8] - v_cp.[20]) * v_spec_rates.[9] * #1.50348200e+01)));
  (*385*) Do (AddA v_jac 220 (v_spec_rates.[9] * $v_mw_avg * #4.6330052531852528e-01 * $v_rho_inv));
  (*386*) Do (SubA v_jac 210 (v_h.[9] * ($v_working_temp * v_jac.[220] - $v_j_temp * (v_cp.[9] - v_cp.[20]) * v_spec_rates.[9] * #1.50348200e+01)));
  (*387*) Do (AddA v_jac 241 (v_spec_rates.[9] * $v_mw_avg * #4.0047218406053714e-01 * $v_rho_inv));
  (*388*) Do (SubA v_jac 231 (v_h.[9] * ($v_working_temp * v_jac.[241] - $v_j_temp * (v_cp.[10] - v_cp.[20]) * v_spec_rates.[9] * #1.50348200e+01)));
  (*389*) Do (AddA v_jac 262 (v_spec_rates.[9] * $v_mw_avg * #5.9015022349600859e-05 * $v_rho_inv));
  (*390*) Do (SubA v_jac 252 (v_h.[9] * ($v_working_temp * v_jac.[262] - $v_j_temp * (v_cp.[11] - v_cp.[20]) * v_spec_rates.[9] * #1.50348200e+01)));
  (*391*) Do (AddA v_jac 283 (v_spec_rates.[9] * $v_mw_avg * #(-1.9507510919924120e-01) * $v_rho_inv));
  (*392*) Do (SubA v_jac 273 (v_h.[9] * ($v_working_temp * v_jac.[283] - $v_j_temp * (v_cp.[12] - v_cp.[20]) * v_spec_rates.[9] * #1.50348200e+01)));
  (*393*) Do (AddA v_jac 304 (v_spec_rates.[9] * $v_mw_avg * #(-1.8585068412887297e-02) * $v_rho_inv));
  (*394*) Do (SubA v_jac 294 (v_h.[9] * ($v_working_temp * v_jac.[304] - $v_j_temp * (v_cp.[13] - v_cp.[20]) * v_spec_rates.[9] * #1.50348200e+01)));
  (*395*) Do (AddA v_jac 325 (v_spec_rates.[9] * $v_mw_avg * #(-3.5977440516736424e-02) * $v_rho_inv));
  (*396*) Do (SubA v_jac 315 (v_h.[9] * ($v_working_temp * v_jac.[325] - $v_j_temp * (v_cp.[14] - v_cp.[20]) * v_spec_rates.[9] * #1.50348200e+01)));
  (*397*) Do (AddA v_jac 346 (v_spec_rates.[9] * $v_mw_avg * #(-5.2240061814001273e-02) * $v_rho_inv));
  (*398*) Do (SubA v_jac 336 (v_h.[9] * ($v_working_temp * v_jac.[346] - $v_j_temp * (v_cp.[15] - v_cp.[20]) * v_spec_rates.[9] * #1.50348200e+01)));
  (*399*) Do (AddA v_jac 367 (v_spec_rates.[9] * $v_mw_avg * #(-7.7060097613186195e-04) * $v_rho_inv));
  (*400*) Do (SubA v_jac 357 (v_h.[9] * ($v_working_temp * v_jac.[367] - $v_j_temp * (v_cp.[16] - v_cp.[20]) * v_spec_rates.[9] * #1.50348200e+01)));
  (*401*) Do (AddA v_jac 388 (v_spec_rates.[9] * $v_mw_avg * #(-1.9358094101536192e-02) * $v_rho_inv));
  (*402*) Do (SubA v_jac 378 (v_h.[9] * ($v_working_temp * v_jac.[388] - $v_j_temp * (v_cp.[17] - v_cp.[20]) * v_spec_rates.[9] * #1.50348200e+01)));
  (*403*) Do (AddA v_jac 409 (v_spec_rates.[9] * $v_mw_avg * #(-3.6699474681474720e-02) * $v_rho_inv));
  (*404*) Do (SubA v_jac 399 (v_h.[9] * ($v_working_temp * v_jac.[409] - $v_j_temp * (v_cp.[18] - v_cp.[20]) * v_spec_rates.[9] * #1.50348200e+01)));
  (*405*) Do (AddA v_jac 430 (v_spec_rates.[9] * $v_mw_avg * #(-1.6033970698346731e-01) * $v_rho_inv));
  (*406*) Do (SubA v_jac 420 (v_h.[9] * ($v_working_temp * v_jac.[430] - $v_j_temp * (v_cp.[19] - v_cp.[20]) * v_spec_rates.[9] * #1.50348200e+01)));
  (*407*) Do (AddA v_jac 32 (v_spec_rates.[10] * $v_mw_avg * #7.3855119461036631e+00 * $v_rho_inv));
  (*408*) Do (SubA v_jac 21 (v_h.[10] * ($v_working_temp * v_jac.[32] - $v_j_temp * (v_cp.[0] - v_cp.[20]) * v_spec_rates.[10] * #1.60427600e+01)));
  (*409*) Do (AddA v_jac 53 (v_spec_rates.[10] * $v_mw_avg * #1.5343703901974052e+01 * $v_rho_inv));
  (*410*) Do (SubA v_jac 42 (v_h.[10] * ($v_working_temp * v_jac.[53] - $v_j_temp * (v_cp.[1] - v_cp.[20]) * v_spec_rates.[10] * #1.60427600e+01)));
  (*411*) Do (AddA v_jac 74 (v_spec_rates.[10] * $v_mw_avg * #4.3003009186208457e-01 * $v_rho_inv));
  (*412*) Do (SubA v_jac 63 (v_h.[10] * ($v_working_temp * v_jac.[74] - $v_j_temp * (v_cp.[2] - v_cp.[20]) * v_spec_rates.[10] * #1.60427600e+01)));
  (*413*) Do (AddA v_jac 95 (v_spec_rates.[10] * $v_mw_avg * #(-7.1324958952320980e-02) * $v_rho_inv));
  (*414*) Do (SubA v_jac 84 (v_h.[10] * ($v_working_temp * v_jac.[95] - $v_j_temp * (v_cp.[3] - v_cp.[20]) * v_spec_rates.[10] * #1.60427600e+01)));
  (*415*) Do (AddA v_jac 116 (v_spec_rates.[10] * $v_mw_avg * #3.7060447798973634e-01 * $v_rho_inv));
  (*416*) Do (SubA v_jac 105 (v_h.[10] * ($v_working_temp * v_jac.[116] - $v_j_temp * (v_cp.[4] - v_cp.[20]) * v_spec_rates.[10] * #1.60427600e+01)));
  (*417*) Do (AddA v_jac 137 (v_spec_rates.[10] * $v_mw_avg * #3.1782849190518753e-01 * $v_rho_inv));
  (*418*) Do (SubA v_jac 126 (v_h.[10] * ($v_working_temp * v_jac.[137] - $v_j_temp * (v_cp.[5] - v_cp.[20]) * v_spec_rates.[10] * #1.60427600e+01)));
  (*419*) Do (AddA v_jac 158 (v_spec_rates.[10] * $v_mw_avg * #(-8.6635038345738047e-02) * $v_rho_inv));
  (*420*) Do (SubA v_jac 147 (v_h.[10] * ($v_working_temp * v_jac.[158] - $v_j_temp * (v_cp.[6] - v_cp.[20]) * v_spec_rates.[10] * #1.60427600e+01)));
  (*421*) Do (AddA v_jac 179 (v_spec_rates.[10] * $v_mw_avg * #5.7103548505464508e-01 * $v_rho_inv));
  (*422*) Do (SubA v_jac 168 (v_h.[10] * ($v_working_temp * v_jac.[179] - $v_j_temp * (v_cp.[7] - v_cp.[20]) * v_spec_rates.[10] * #1.60427600e+01)));
  (*423*) Do (AddA v_jac 200 (v_spec_rates.[10] * $v_mw_avg * #5.7103548505464508e-01 * $v_rho_inv));
  (*424*) Do (SubA v_jac 189 (v_h.[10] * ($v_working_temp * v_jac.[200] - $v_j_temp * (v_cp.[8] - v_cp.[20]) * v_spec_rates.[10] * #1.60427600e+01)));
  (*425*) Do (AddA v_jac 221 (v_spec_rates.[10] * $v_mw_avg * #4.9436036717160731e-01 * $v_rho_inv));
  (*426*) Do (SubA v_jac 210 (v_h.[10] * ($v_working_temp * v_jac.[221] - $v_j_temp * (v_cp.[9] - v_cp.[20]) * v_spec_rates.[10] * #1.60427600e+01)));
  (*427*) Do (AddA v_jac 242 (v_spec_rates.[10] * $v_mw_avg * #4.2731999023327338e-01 * $v_rho_inv));
  (*428*) Do (SubA v_jac 231 (v_h.[10] * ($v_working_temp * v_jac.[242] - $v_j_temp * (v_cp.[10] - v_cp.[20]) * v_spec_rates.[10] * #1.60427600e+01)));
  (*429*) Do (AddA v_jac 263 (v_spec_rates.[10] * $v_mw_avg * #6.2971411692942314e-05 * $v_rho_inv));
  (*430*) Do (SubA v_jac 252 (v_h.[10] * ($v_working_temp * v_jac.[263] - $v_j_temp * (v_cp.[11] - v_cp.[20]) * v_spec_rates.[10] * #1.60427600e+01)));
  (*431*) Do (AddA v_jac 284 (v_spec_rates.[10] * $v_mw_avg * #(-2.0815301805124498e-01) * $v_rho_inv));
  (*432*) Do (SubA v_jac 273 (v_h.[10] * ($v_working_temp * v_jac.[284] - $v_j_temp * (v_cp.[12] - v_cp.[20]) * v_spec_rates.[10] * #1.60427600e+01)));
  (*433*) Do (AddA v_jac 305 (v_spec_rates.[10] * $v_mw_avg * #(-1.9831018404711988e-02) * $v_rho_inv));
  (*434*) Do (SubA v_jac 294 (v_h.[10] * ($v_working_temp * v_jac.[305] - $v_j_temp * (v_cp.[13] - v_cp.[20]) * v_spec_rates.[10] * #1.60427600e+01)));
  (*435*) Do (AddA v_jac 326 (v_spec_rates.[10] * $v_mw_avg * #(-3.8389381690254923e-02) * $v_rho_inv));
  (*436*) Do (SubA v_jac 315 (v_h.[10] * ($v_working_temp * v_jac.[326] - $v_j_temp * (v_cp.[14] - v_cp.[20]) * v_spec_rates.[10] * #1.60427600e+01)));
  (*437*) Do (AddA v_jac 347 (v_spec_rates.[10] * $v_mw_avg * #(-5.5742255249293778e-02) * $v_rho_inv));
  (*438*) Do (SubA v_jac 336 (v_h.[10] * ($v_working_temp * v_jac.[347] - $v_j_temp * (v_cp.[15] - v_cp.[20]) * v_spec_rates.[10] * #1.60427600e+01)));
  (*439*) Do (AddA v_jac 368 (v_spec_rates.[10] * $v_mw_avg * #(-8.2226235604078999e-04) * $v_rho_inv));
  (*440*) Do (SubA v_jac 357 (v_h.[10] * ($v_working_temp * v_jac.[368] - $v_j_temp * (v_cp.[16] - v_cp.[20]) * v_spec_rates.[10] * #1.60427600e+01)));
  (*441*) Do (AddA v_jac 389 (v_spec_rates.[10] * $v_mw_avg * #(-2.0655868026910915e-02) * $v_rho_inv));
  (*442*) Do (SubA v_jac 378 (v_h.[10] * ($v_working_temp * v_jac.[389] - $v_j_temp * (v_cp.[17] - v_cp.[20]) * v_spec_rates.[10] * #1.60427600e+01)));
  (*443*) Do (AddA v_jac 410 (v_spec_rates.[10] * $v_mw_avg * #(-3.9159821297559627e-02) * $v_rho_inv));
  (*444*) Do (SubA v_jac 399 (v_h.[10] * ($v_working_temp * v_jac.[410] - $v_j_temp * (v_cp.[18] - v_cp.[20]) * v_spec_rates.[10] * #1.60427600e+01)));
  (*445*) Do (AddA v_jac 431 (v_spec_rates.[10] * $v_mw_avg * #(-1.7108894137782099e-01) * $v_rho_inv));
  (*446*) Do (SubA v_jac 420 (v_h.[10] * ($v_working_temp * v_jac.[431] - $v_j_temp * (v_cp.[19] - v_cp.[20]) * v_spec_rates.[10] * #1.60427600e+01)));
  (*447*) Do (AddA v_jac 33 (v_spec_rates.[11] * $v_mw_avg * #1.2894984641990655e+01 * $v_rho_inv));
  (*448*) Do (SubA v_jac 21 (v_h.[11] * ($v_working_temp * v_jac.[33] - $v_j_temp * (v_cp.[0] - v_cp.[20]) * v_spec_rates.[11] * #2.80104000e+01)));
  (*449*) Do (AddA v_jac 54 (v_spec_rates.[11] * $v_mw_avg * #2.6789859336912972e+01 * $v_rho_inv));
  (*450*) Do (SubA v_jac 42 (v_h.[11] * ($v_working_temp * v_jac.[54] - $v_j_temp * (v_cp.[1] - v_cp.[20]) * v_spec_rates.[11] * #2.80104000e+01)));
  (*451*) Do (AddA v_jac 75 (v_spec_rates.[11] * $v_mw_avg * #7.5082559890528389e-01 * $v_rho_inv));
  (*452*) Do (SubA v_jac 63 (v_h.[11] * ($v_working_temp * v_jac.[75] - $v_j_temp * (v_cp.[2] - v_cp.[20]) * v_spec_rates.[11] * #2.80104000e+01)));
  (*453*) Do (AddA v_jac 96 (v_spec_rates.[11] * $v_mw_avg * #(-1.2453222701318796e-01) * $v_rho_inv));
  (*454*) Do (SubA v_jac 84 (v_h.[11] * ($v_working_temp * v_jac.[96] - $v_j_temp * (v_cp.[3] - v_cp.[20]) * v_spec_rates.[11] * #2.80104000e+01)));
  (*455*) Do (AddA v_jac 117 (v_spec_rates.[11] * $v_mw_avg * #6.4706943632415548e-01 * $v_rho_inv));
  (*456*) Do (SubA v_jac 105 (v_h.[11] * ($v_working_temp * v_jac.[117] - $v_j_temp * (v_cp.[4] - v_cp.[20]) * v_spec_rates.[11] * #2.80104000e+01)));
  (*457*) Do (AddA v_jac 138 (v_spec_rates.[11] * $v_mw_avg * #5.5492341652315824e-01 * $v_rho_inv));
  (*458*) Do (SubA v_jac 126 (v_h.[11] * ($v_working_temp * v_jac.[138] - $v_j_temp * (v_cp.[5] - v_cp.[20]) * v_spec_rates.[11] * #2.80104000e+01)));
  (*459*) Do (AddA v_jac 159 (v_spec_rates.[11] * $v_mw_avg * #(-1.5126337850092259e-01) * $v_rho_inv));
  (*460*) Do (SubA v_jac 147 (v_h.[11] * ($v_working_temp * v_jac.[159] - $v_j_temp * (v_cp.[6] - v_cp.[20]) * v_spec_rates.[11] * #2.80104000e+01)));
  (*461*) Do (AddA v_jac 180 (v_spec_rates.[11] * $v_mw_avg * #9.9701873933005458e-01 * $v_rho_inv));
  (*462*) Do (SubA v_jac 168 (v_h.[11] * ($v_working_temp * v_jac.[180] - $v_j_temp * (v_cp.[7] - v_cp.[20]) * v_spec_rates.[11] * #2.80104000e+01)));
  (*463*) Do (AddA v_jac 201 (v_spec_rates.[11] * $v_mw_avg * #9.9701873933005458e-01 * $v_rho_inv));
  (*464*) Do (SubA v_jac 189 (v_h.[11] * ($v_working_temp * v_jac.[201] - $v_j_temp * (v_cp.[8] - v_cp.[20]) * v_spec_rates.[11] * #2.80104000e+01)));
  (*465*) Do (AddA v_jac 222 (v_spec_rates.[11] * $v_mw_avg * #8.6314522118535630e-01 * $v_rho_inv));
  (*466*) Do (SubA v_jac 210 (v_h.[11] * ($v_working_temp * v_jac.[222] - $v_j_temp * (v_cp.[9] - v_cp.[20]) * v_spec_rates.[11] * #2.80104000e+01)));
  (*467*) Do (AddA v_jac 243 (v_spec_rates.[11] * $v_mw_avg * #7.4609380520746305e-01 * $v_rho_inv));
  (*468*) Do (SubA v_jac 231 (v_h.[11] * ($v_working_temp * v_jac.[243] - $v_j_temp * (v_cp.[10] - v_cp.[20]) * v_spec_rates.[11] * #2.80104000e+01)));
  (*469*) Do (AddA v_jac 264 (v_spec_rates.[11] * $v_mw_avg * #1.0994706834011048e-04 * $v_rho_inv));
  (*470*) Do (SubA v_jac 252 (v_h.[11] * ($v_working_temp * v_jac.[264] - $v_j_temp * (v_cp.[11] - v_cp.[20]) * v_spec_rates.[11] * #2.80104000e+01)));
  (*471*) Do (AddA v_jac 285 (v_spec_rates.[11] * $v_mw_avg * #(-3.6343180954041521e-01) * $v_rho_inv));
  (*472*) Do (SubA v_jac 273 (v_h.[11] * ($v_working_temp * v_jac.[285] - $v_j_temp * (v_cp.[12] - v_cp.[20]) * v_spec_rates.[11] * #2.80104000e+01)));
  (*473*) Do (AddA v_jac 306 (v_spec_rates.[11] * $v_mw_avg * #(-3.4624638025086987e-02) * $v_rho_inv));
  (*474*) Do (SubA v_jac 294 (v_h.[11] * ($v_working_temp * v_jac.[306] - $v_j_temp * (v_cp.[13] - v_cp.[20]) * v_spec_rates.[11] * #2.80104000e+01)));
  (*475*) Do (AddA v_jac 327 (v_spec_rates.[11] * $v_mw_avg * #(-6.7027240755126685e-02) * $v_rho_inv));
  (*476*) Do (SubA v_jac 315 (v_h.[11] * ($v_working_temp * v_jac.[327] - $v_j_temp * (v_cp.[14] - v_cp.[20]) * v_spec_rates.[11] * #2.80104000e+01)));
  (*477*) Do (AddA v_jac 348 (v_spec_rates.[11] * $v_mw_avg * #(-9.7325077881537728e-02) * $v_rho_inv));
  (*478*) Do (SubA v_jac 336 (v_h.[11] * ($v_working_temp * v_jac.[348] - $v_j_temp * (v_cp.[15] - v_cp.[20]) * v_spec_rates.[11] * #2.80104000e+01)));
  (*479*) Do (AddA v_jac 369 (v_spec_rates.[11] * $v_mw_avg * #(-1.4356568008026638e-03) * $v_rho_inv));
  (*480*) Do (SubA v_jac 357 (v_h.[11] * ($v_working_temp * v_jac.[369] - $v_j_temp * (v_cp.[16] - v_cp.[20]) * v_spec_rates.[11] * #2.80104000e+01)));
  (*481*) Do (AddA v_jac 390 (v_spec_rates.[11] * $v_mw_avg * #(-3.6064812150838468e-02) * $v_rho_inv));
  (*482*) Do (SubA v_jac 378 (v_h.[11] * ($v_working_temp * v_jac.[390] - $v_j_temp * (v_cp.[17] - v_cp.[20]) * v_spec_rates.[11] * #2.80104000e+01)));
  (*483*) Do (AddA v_jac 411 (v_spec_rates.[11] * $v_mw_avg * #(-6.8372415873151751e-02) * $v_rho_inv));
  (*484*) Do (SubA v_jac 399 (v_h.[11] * ($v_working_temp * v_jac.[411] - $v_j_temp * (v_cp.[18] - v_cp.[20]) * v_spec_rates.[11] * #2.80104000e+01)));
  (*485*) Do (AddA v_jac 432 (v_spec_rates.[11] * $v_mw_avg * #(-2.9871852995178610e-01) * $v_rho_inv));
  (*486*) Do (SubA v_jac 420 (v_h.[11] * ($v_working_temp * v_jac.[432] - $v_j_temp * (v_cp.[19] - v_cp.[20]) * v_spec_rates.[11] * #2.80104000e+01)));
  (*487*) Do (AddA v_jac 34 (v_spec_rates.[12] * $v_mw_avg * #2.0260535197536644e+01 * $v_rho_inv));
  (*488*) Do (SubA v_jac 21 (v_h.[12] * ($v_working_temp * v_jac.[34] - $v_j_temp * (v_cp.[0] - v_cp.[20]) * v_spec_rates.[12] * #4.40098000e+01)));
  (*489*) Do (AddA v_jac 55 (v_spec_rates.[12] * $v_mw_avg * #4.2092092631510887e+01 * $v_rho_inv));
  (*490*) Do (SubA v_jac 42 (v_h.[12] * ($v_working_temp * v_jac.[55] - $v_j_temp * (v_cp.[1] - v_cp.[20]) * v_spec_rates.[12] * #4.40098000e+01)));
  (*491*) Do (AddA v_jac 76 (v_spec_rates.[12] * $v_mw_avg * #1.1796934153993435e+00 * $v_rho_inv));
  (*492*) Do (SubA v_jac 63 (v_h.[12] * ($v_working_temp * v_jac.[76] - $v_j_temp * (v_cp.[2] - v_cp.[20]) * v_spec_rates.[12] * #4.40098000e+01)));
  (*493*) Do (AddA v_jac 97 (v_spec_rates.[12] * $v_mw_avg * #(-1.9566441051912861e-01) * $v_rho_inv));
  (*494*) Do (SubA v_jac 84 (v_h.[12] * ($v_working_temp * v_jac.[97] - $v_j_temp * (v_cp.[3] - v_cp.[20]) * v_spec_rates.[12] * #4.40098000e+01)));
  (*495*) Do (AddA v_jac 118 (v_spec_rates.[12] * $v_mw_avg * #1.0166722531180856e+00 * $v_rho_inv));
  (*496*) Do (SubA v_jac 105 (v_h.[12] * ($v_working_temp * v_jac.[118] - $v_j_temp * (v_cp.[4] - v_cp.[20]) * v_spec_rates.[12] * #4.40098000e+01)));
  (*497*) Do (AddA v_jac 139 (v_spec_rates.[12] * $v_mw_avg * #8.7189288894485240e-01 * $v_rho_inv));
  (*498*) Do (SubA v_jac 126 (v_h.[12] * ($v_working_temp * v_jac.[139] - $v_j_temp * (v_cp.[5] - v_cp.[20]) * v_spec_rates.[12] * #4.40098000e+01)));
  (*499*) Do (AddA v_jac 160 (v_spec_rates.[12] * $v_mw_avg * #(-2.3766426167244681e-01) * $v_rho_inv));
  (*500*) Do (SubA v_jac 147 (v_h.[12] * ($v_working_temp * v_jac.[160] - $v_j_temp * (v_cp.[6] - v_cp.[20]) * v_spec_rates.[12] * #4.40098000e+01)));
  (*501*) Do (AddA v_jac 181 (v_spec_rates.[12] * $v_mw_avg * #1.5665108429072001e+00 * $v_rho_inv));
  (*502*) Do (SubA v_jac 168 (v_h.[12] * ($v_working_temp * v_jac.[181] - $v_j_temp * (v_cp.[7] - v_cp.[20]) * v_spec_rates.[12] * #4.40098000e+01)));
  (*503*) Do (AddA v_jac 202 (v_spec_rates.[12] * $v_mw_avg * #1.5665108429072001e+00 * $v_rho_inv));
  (*504*) Do (SubA v_jac 189 (v_h.[12] * ($v_working_temp * v_jac.[202] - $v_j_temp * (v_cp.[8] - v_cp.[20]) * v_spec_rates.[12] * #4.40098000e+01)));
  (*505*) Do (AddA v_jac 223 (v_spec_rates.[12] * $v_mw_avg * #1.3561694426114335e+00 * $v_rho_inv));
  (*506*) Do (SubA v_jac 210 (v_h.[12] * ($v_working_temp * v_jac.[223] - $v_j_temp * (v_cp.[9] - v_cp.[20]) * v_spec_rates.[12] * #4.40098000e+01)));
  (*507*) Do (AddA v_jac 244 (v_spec_rates.[12] * $v_mw_avg * #1.1722588448725975e+00 * $v_rho_inv));
  (*508*) Do (SubA v_jac 231 (v_h.[12] * ($v_working_temp * v_jac.[244] - $v_j_temp * (v_cp.[10] - v_cp.[20]) * v_spec_rates.[12] * #4.40098000e+01)));
  (*509*) Do (AddA v_jac 265 (v_spec_rates.[12] * $v_mw_avg * #1.7274828236064443e-04 * $v_rho_inv));
  (*510*) Do (SubA v_jac 252 (v_h.[12] * ($v_working_temp * v_jac.[265] - $v_j_temp * (v_cp.[11] - v_cp.[20]) * v_spec_rates.[12] * #4.40098000e+01)));
  (*511*) Do (AddA v_jac 286 (v_spec_rates.[12] * $v_mw_avg * #(-5.7102223643760053e-01) * $v_rho_inv));
  (*512*) Do (SubA v_jac 273 (v_h.[12] * ($v_working_temp * v_jac.[286] - $v_j_temp * (v_cp.[12] - v_cp.[20]) * v_spec_rates.[12] * #4.40098000e+01)));
  (*513*) Do (AddA v_jac 307 (v_spec_rates.[12] * $v_mw_avg * #(-5.4402057612760735e-02) * $v_rho_inv));
  (*514*) Do (SubA v_jac 294 (v_h.[12] * ($v_working_temp * v_jac.[307] - $v_j_temp * (v_cp.[13] - v_cp.[20]) * v_spec_rates.[12] * #4.40098000e+01)));
  (*515*) Do (AddA v_jac 328 (v_spec_rates.[12] * $v_mw_avg * #(-1.0531286451407244e-01) * $v_rho_inv));
  (*516*) Do (SubA v_jac 315 (v_h.[12] * ($v_working_temp * v_jac.[328] - $v_j_temp * (v_cp.[14] - v_cp.[20]) * v_spec_rates.[12] * #4.40098000e+01)));
  (*517*) Do (AddA v_jac 349 (v_spec_rates.[12] * $v_mw_avg * #(-1.5291667425495173e-01) * $v_rho_inv));
  (*518*) Do (SubA v_jac 336 (v_h.[12] * ($v_working_temp * v_jac.[349] - $v_j_temp * (v_cp.[15] - v_cp.[20]) * v_spec_rates.[12] * #4.40098000e+01)));
  (*519*) Do (AddA v_jac 370 (v_spec_rates.[12] * $v_mw_avg * #(-2.2556967652002497e-03) * $v_rho_inv));
  (*520*) Do (SubA v_jac 357 (v_h.[12] * ($v_working_temp * v_jac.[370] - $v_j_temp * (v_cp.[16] - v_cp.[20]) * v_spec_rates.[12] * #4.40098000e+01)));
  (*521*) Do (AddA v_jac 391 (v_spec_rates.[12] * $v_mw_avg * #(-5.6664851976264925e-02) * $v_rho_inv));
  (*522*) Do (SubA v_jac 378 (v_h.[12] * ($v_working_temp * v_jac.[391] - $v_j_temp * (v_cp.[17] - v_cp.[20]) * v_spec_rates.[12] * #4.40098000e+01)));
  (*523*) Do (AddA v_jac 412 (v_spec_rates.[12] * $v_mw_avg * #(-1.0742639691308349e-01) * $v_rho_inv));
  (*524*) Do (SubA v_jac 399 (v_h.[12] * ($v_working_temp * v_jac.[412] - $v_j_temp * (v_cp.[18] - v_cp.[20]) * v_spec_rates.[12] * #4.40098000e+01)));
  (*525*) Do (AddA v_jac 433 (v_spec_rates.[12] * $v_mw_avg * #(-4.6934505610316585e-01) * $v_rho_inv));
  (*526*) Do (SubA v_jac 420 (v_h.[12] * ($v_working_temp * v_jac.[433] - $v_j_temp * (v_cp.[19] - v_cp.[20]) * v_spec_rates.[12] * #4.40098000e+01)));
  (*527*) Do (AddA v_jac 35 (v_spec_rates.[13] * $v_mw_avg * #1.3359004106905404e+01 * $v_rho_inv));
  (*528*) Do (SubA v_jac 21 (v_h.[13] * ($v_working_temp * v_jac.[35] - $v_j_temp * (v_cp.[0] - v_cp.[20]) * v_spec_rates.[13] * #2.90183400e+01)));
  (*529*) Do (AddA v_jac 56 (v_spec_rates.[13] * $v_mw_avg * #2.7753878801827717e+01 * $v_rho_inv));
  (*530*) Do (SubA v_jac 42 (v_h.[13] * ($v_working_temp * v_jac.[56] - $v_j_temp * (v_cp.[1] - v_cp.[20]) * v_spec_rates.[13] * #2.90183400e+01)));
  (*531*) Do (AddA v_jac 77 (v_spec_rates.[13] * $v_mw_avg * #7.7784367626799900e-01 * $v_rho_inv));
  (*532*) Do (SubA v_jac 63 (v_h.[13] * ($v_working_temp * v_jac.[77] - $v_j_temp * (v_cp.[2] - v_cp.[20]) * v_spec_rates.[13] * #2.90183400e+01)));
  (*533*) Do (AddA v_jac 98 (v_spec_rates.[13] * $v_mw_avg * #(-1.2901345587445640e-01) * $v_rho_inv));
  (*534*) Do (SubA v_jac 84 (v_h.[13] * ($v_working_temp * v_jac.[98] - $v_j_temp * (v_cp.[3] - v_cp.[20]) * v_spec_rates.[13] * #2.90183400e+01)));
  (*535*) Do (AddA v_jac 119 (v_spec_rates.[13] * $v_mw_avg * #6.7035390093903313e-01 * $v_rho_inv));
  (*536*) Do (SubA v_jac 105 (v_h.[13] * ($v_working_temp * v_jac.[119] - $v_j_temp * (v_cp.[4] - v_cp.[20]) * v_spec_rates.[13] * #2.90183400e+01)));
  (*537*) Do (AddA v_jac 140 (v_spec_rates.[13] * $v_mw_avg * #5.7489205347408912e-01 * $v_rho_inv));
  (*538*) Do (SubA v_jac 126 (v_h.[13] * ($v_working_temp * v_jac.[140] - $v_j_temp * (v_cp.[5] - v_cp.[20]) * v_spec_rates.[13] * #2.90183400e+01)));
  (*539*) Do (AddA v_jac 161 (v_spec_rates.[13] * $v_mw_avg * #(-1.5670651425500751e-01) * $v_rho_inv));
  (*540*) Do (SubA v_jac 147 (v_h.[13] * ($v_working_temp * v_jac.[161] - $v_j_temp * (v_cp.[6] - v_cp.[20]) * v_spec_rates.[13] * #2.90183400e+01)));
  (*541*) Do (AddA v_jac 182 (v_spec_rates.[13] * $v_mw_avg * #1.0328959516554888e+00 * $v_rho_inv));
  (*542*) Do (SubA v_jac 168 (v_h.[13] * ($v_working_temp * v_jac.[182] - $v_j_temp * (v_cp.[7] - v_cp.[20]) * v_spec_rates.[13] * #2.90183400e+01)));
  (*543*) Do (AddA v_jac 203 (v_spec_rates.[13] * $v_mw_avg * #1.0328959516554888e+00 * $v_rho_inv));
  (*544*) Do (SubA v_jac 189 (v_h.[13] * ($v_working_temp * v_jac.[203] - $v_j_temp * (v_cp.[8] - v_cp.[20]) * v_spec_rates.[13] * #2.90183400e+01)));
  (*545*) Do (AddA v_jac 224 (v_spec_rates.[13] * $v_mw_avg * #8.9420506303843839e-01 * $v_rho_inv));
  (*546*) Do (SubA v_jac 210 (v_h.[13] * ($v_working_temp * v_jac.[224] - $v_j_temp * (v_cp.[9] - v_cp.[20]) * v_spec_rates.[13] * #2.90183400e+01)));
  (*547*) Do (AddA v_jac 245 (v_spec_rates.[13] * $v_mw_avg * #7.7294161138019923e-01 * $v_rho_inv));
  (*548*) Do (SubA v_jac 231 (v_h.[13] * ($v_working_temp * v_jac.[245] - $v_j_temp * (v_cp.[10] - v_cp.[20]) * v_spec_rates.[13] * #2.90183400e+01)));
  (*549*) Do (AddA v_jac 266 (v_spec_rates.[13] * $v_mw_avg * #1.1390345768345193e-04 * $v_rho_inv));
  (*550*) Do (SubA v_jac 252 (v_h.[13] * ($v_working_temp * v_jac.[266] - $v_j_temp * (v_cp.[11] - v_cp.[20]) * v_spec_rates.[13] * #2.90183400e+01)));
  (*551*) Do (AddA v_jac 287 (v_spec_rates.[13] * $v_mw_avg * #(-3.7650971839241898e-01) * $v_rho_inv));
  (*552*) Do (SubA v_jac 273 (v_h.[13] * ($v_working_temp * v_jac.[287] - $v_j_temp * (v_cp.[12] - v_cp.[20]) * v_spec_rates.[13] * #2.90183400e+01)));
  (*553*) Do (AddA v_jac 308 (v_spec_rates.[13] * $v_mw_avg * #(-3.5870588016911675e-02) * $v_rho_inv));
  (*554*) Do (SubA v_jac 294 (v_h.[13] * ($v_working_temp * v_jac.[308] - $v_j_temp * (v_cp.[13] - v_cp.[20]) * v_spec_rates.[13] * #2.90183400e+01)));
  (*555*) Do (AddA v_jac 329 (v_spec_rates.[13] * $v_mw_avg * #(-6.9439181928645191e-02) * $v_rho_inv));
  (*556*) Do (SubA v_jac 315 (v_h.[13] * ($v_working_temp * v_jac.[329] - $v_j_temp * (v_cp.[14] - v_cp.[20]) * v_spec_rates.[13] * #2.90183400e+01)));
  (*557*) Do (AddA v_jac 350 (v_spec_rates.[13] * $v_mw_avg * #(-1.0082727131683024e-01) * $v_rho_inv));
  (*558*) Do (SubA v_jac 336 (v_h.[13] * ($v_working_temp * v_jac.[350] - $v_j_temp * (v_cp.[15] - v_cp.[20]) * v_spec_rates.[13] * #2.90183400e+01)));
  (*559*) Do (AddA v_jac 371 (v_spec_rates.[13] * $v_mw_avg * #(-1.4873181807115918e-03) * $v_rho_inv));
  (*560*) Do (SubA v_jac 357 (v_h.[13] * ($v_working_temp * v_jac.[371] - $v_j_temp * (v_cp.[16] - v_cp.[20]) * v_spec_rates.[13] * #2.90183400e+01)));
  (*561*) Do (AddA v_jac 392 (v_spec_rates.[13] * $v_mw_avg * #(-3.7362586076213192e-02) * $v_rho_inv));
  (*562*) Do (SubA v_jac 378 (v_h.[13] * ($v_working_temp * v_jac.[392] - $v_j_temp * (v_cp.[17] - v_cp.[20]) * v_spec_rates.[13] * #2.90183400e+01)));
  (*563*) Do (AddA v_jac 413 (v_spec_rates.[13] * $v_mw_avg * #(-7.0832762489236659e-02) * $v_rho_inv));
  (*564*) Do (SubA v_jac 399 (v_h.[13] * ($v_working_temp * v_jac.[413] - $v_j_temp * (v_cp.[18] - v_cp.[20]) * v_spec_rates.[13] * #2.90183400e+01)));
  (*565*) Do (AddA v_jac 434 (v_spec_rates.[13] * $v_mw_avg * #(-3.0946776434613976e-01) * $v_rho_inv));
  (*566*) Do (SubA v_jac 420 (v_h.[13] * ($v_working_temp * v_jac.[434] - $v_j_temp * (v_cp.[19] - v_cp.[20]) * v_spec_rates.[13] * #2.90183400e+01)));
  (*567*) Do (AddA v_jac 36 (v_spec_rates.[14] * $v_mw_avg * #1.3823023571820153e+01 * $v_rho_inv));
  (*568*) Do (SubA v_jac 21 (v_h.[14] * ($v_working_temp * v_jac.[36] - $v_j_temp * (v_cp.[0] - v_cp.[20]) * v_spec_rates.[14] * #3.00262800e+01)));
  (*569*) Do (AddA v_jac 57 (v_spec_rates.[14] * $v_mw_avg * #2.8717898266742470e+01 * $v_rho_inv));
  (*570*) Do (SubA v_jac 42 (v_h.[14] * ($v_working_temp * v_jac.[57] - $v_j_temp * (v_cp.[1] - v_cp.[20]) * v_spec_rates.[14] * #3.00262800e+01)));
  (*571*) Do (AddA v_jac 78 (v_spec_rates.[14] * $v_mw_avg * #8.0486175363071399e-01 * $v_rho_inv));
  (*572*) Do (SubA v_jac 63 (v_h.[14] * ($v_working_temp * v_jac.[78] - $v_j_temp * (v_cp.[2] - v_cp.[20]) * v_spec_rates.[14] * #3.00262800e+01)));
  (*573*) Do (AddA v_jac 99 (v_spec_rates.[14] * $v_mw_avg * #(-1.3349468473572479e-01) * $v_rho_inv));
  (*574*) Do (SubA v_jac 84 (v_h.[14] * ($v_working_temp * v_jac.[99] - $v_j_temp * (v_cp.[3] - v_cp.[20]) * v_spec_rates.[14] * #3.00262800e+01)));
  (*575*) Do (AddA v_jac 120 (v_spec_rates.[14] * $v_mw_avg * #6.9363836555391090e-01 * $v_rho_inv));
  (*576*) Do (SubA v_jac 105 (v_h.[14] * ($v_working_temp * v_jac.[120] - $v_j_temp * (v_cp.[4] - v_cp.[20]) * v_spec_rates.[14] * #3.00262800e+01)));
  (*577*) Do (AddA v_jac 141 (v_spec_rates.[14] * $v_mw_avg * #5.9486069042501988e-01 * $v_rho_inv));
  (*578*) Do (SubA v_jac 126 (v_h.[14] * ($v_working_temp * v_jac.[141] - $v_j_temp * (v_cp.[5] - v_cp.[20]) * v_spec_rates.[14] * #3.00262800e+01)));
  (*579*) Do (AddA v_jac 162 (v_spec_rates.[14] * $v_mw_avg * #(-1.6214965000909243e-01) * $v_rho_inv));
  (*580*) Do (SubA v_jac 147 (v_h.[14] * ($v_working_temp * v_jac.[162] - $v_j_temp * (v_cp.[6] - v_cp.[20]) * v_spec_rates.[14] * #3.00262800e+01)));
  (*581*) Do (AddA v_jac 183 (v_spec_rates.[14] * $v_mw_avg * #1.0687731639809228e+00 * $v_rho_inv));
  (*582*) Do (SubA v_jac 168 (v_h.[14] * ($v_working_temp * v_jac.[183] - $v_j_temp * (v_cp.[7] - v_cp.[20]) * v_spec_rates.[14] * #3.00262800e+01)));
  (*583*) Do (AddA v_jac 204 (v_spec_rates.[14] * $v_mw_avg * #1.0687731639809228e+00 * $v_rho_inv));
  (*584*) Do (SubA v_jac 189 (v_h.[14] * ($v_working_temp * v_jac.[204] - $v_j_temp * (v_cp.[8] - v_cp.[20]) * v_spec_rates.[14] * #3.00262800e+01)));
  (*585*) Do (AddA v_jac 225 (v_spec_rates.[14] * $v_mw_avg * #9.2526490489152036e-01 * $v_rho_inv));
  (*586*) Do (SubA v_jac 210 (v_h.[14] * ($v_working_temp * v_jac.[225] - $v_j_temp * (v_cp.[9] - v_cp.[20]) * v_spec_rates.[14] * #3.00262800e+01)));
  (*587*) Do (AddA v_jac 246 (v_spec_rates.[14] * $v_mw_avg * #7.9978941755293542e-01 * $v_rho_inv));
  (*588*) Do (SubA v_jac 231 (v_h.[14] * ($v_working_temp * v_jac.[246] - $v_j_temp * (v_cp.[10] - v_cp.[20]) * v_spec_rates.[14] * #3.00262800e+01)));
  (*589*) Do (AddA v_jac 267 (v_spec_rates.[14] * $v_mw_avg * #1.1785984702679335e-04 * $v_rho_inv));
  (*590*) Do (SubA v_jac 252 (v_h.[14] * ($v_working_temp * v_jac.[267] - $v_j_temp * (v_cp.[11] - v_cp.[20]) * v_spec_rates.[14] * #3.00262800e+01)));
  (*591*) Do (AddA v_jac 288 (v_spec_rates.[14] * $v_mw_avg * #(-3.8958762724442275e-01) * $v_rho_inv));
  (*592*) Do (SubA v_jac 273 (v_h.[14] * ($v_working_temp * v_jac.[288] - $v_j_temp * (v_cp.[12] - v_cp.[20]) * v_spec_rates.[14] * #3.00262800e+01)));
  (*593*) Do (AddA v_jac 309 (v_spec_rates.[14] * $v_mw_avg * #(-3.7116538008736356e-02) * $v_rho_inv));
  (*594*) Do (SubA v_jac 294 (v_h.[14] * ($v_working_temp * v_jac.[309] - $v_j_temp * (v_cp.[13] - v_cp.[20]) * v_spec_rates.[14] * #3.00262800e+01)));
  (*595*) Do (AddA v_jac 330 (v_spec_rates.[14] * $v_mw_avg * #(-7.1851123102163683e-02) * $v_rho_inv));
  (*596*) Do (SubA v_jac 315 (v_h.[14] * ($v_working_temp * v_jac.[330] - $v_j_temp * (v_cp.[14] - v_cp.[20]) * v_spec_rates.[14] * #3.00262800e+01)));
  (*597*) Do (AddA v_jac 351 (v_spec_rates.[14] * $v_mw_avg * #(-1.0432946475212275e-01) * $v_rho_inv));
  (*598*) Do (SubA v_jac 336 (v_h.[14] * ($v_working_temp * v_jac.[351] - $v_j_temp * (v_cp.[15] - v_cp.[20]) * v_spec_rates.[14] * #3.00262800e+01)));
  (*599*) Do (AddA v_jac 372 (v_spec_rates.[14] * $v_mw_avg * #(-1.5389795606205201e-03) * $v_rho_inv));
  (*600*) Do (SubA v_jac 357 (v_h.[14] * ($v_working_temp * v_jac.[372] - $v_j_temp * (v_cp.[16] - v_cp.[20]) * v_spec_rates.[14] * #3.00262800e+01)));
  (*601*) Do (AddA v_jac 393 (v_spec_rates.[14] * $v_mw_avg * #(-3.8660360001587915e-02) * $v_rho_inv));
  (*602*) Do (SubA v_jac 378 (v_h.[14] * ($v_working_temp * v_jac.[393] - $v_j_temp * (v_cp.[17] - v_cp.[20]) * v_spec_rates.[14] * #3.00262800e+01)));
  (*603*) Do (AddA v_jac 414 (v_spec_rates.[14] * $v_mw_avg * #(-7.3293109105321566e-02) * $v_rho_inv));
  (*604*) Do (SubA v_jac 399 (v_h.[14] * ($v_working_temp * v_jac.[414] - $v_j_temp * (v_cp.[18] - v_cp.[20]) * v_spec_rates.[14] * #3.00262800e+01)));
  (*605*) Do (AddA v_jac 435 (v_spec_rates.[14] * $v_mw_avg * #(-3.2021699874049342e-01) * $v_rho_inv));
  (*606*) Do (SubA v_jac 420 (v_h.[14] * ($v_working_temp * v_jac.[435] - $v_j_temp * (v_cp.[19] - v_cp.[20]) * v_spec_rates.[14] * #3.00262800e+01)));
  (*607*) Do (AddA v_jac 37 (v_spec_rates.[15] * $v_mw_avg * #1.4287043036734900e+01 * $v_rho_inv));
  (*608*) Do (SubA v_jac 21 (v_h.[15] * ($v_working_temp * v_jac.[37] - $v_j_temp * (v_cp.[0] - v_cp.[20]) * v_spec_rates.[15] * #3.10342200e+01)));
  (*609*) Do (AddA v_jac 58 (v_spec_rates.[15] * $v_mw_avg * #2.9681917731657215e+01 * $v_rho_inv));
  (*610*) Do (SubA v_jac 42 (v_h.[15] * ($v_working_temp * v_jac.[58] - $v_j_temp * (v_cp.[1] - v_cp.[20]) * v_spec_rates.[15] * #3.10342200e+01)));
  (*611*) Do (AddA v_jac 79 (v_spec_rates.[15] * $v_mw_avg * #8.3187983099342888e-01 * $v_rho_inv));
  (*612*) Do (SubA v_jac 63 (v_h.[15] * ($v_working_temp * v_jac.[79] - $v_j_temp * (v_cp.[2] - v_cp.[20]) * v_spec_rates.[15] * #3.10342200e+01)));
  (*613*) Do (AddA v_jac 100 (v_spec_rates.[15] * $v_mw_avg * #(-1.3797591359699321e-01) * $v_rho_inv));
  (*614*) Do (SubA v_jac 84 (v_h.[15] * ($v_working_temp * v_jac.[100] - $v_j_temp * (v_cp.[3] - v_cp.[20]) * v_spec_rates.[15] * #3.10342200e+01)));
  (*615*) Do (AddA v_jac 121 (v_spec_rates.[15] * $v_mw_avg * #7.1692283016878855e-01 * $v_rho_inv));
  (*616*) Do (SubA v_jac 105 (v_h.[15] * ($v_working_temp * v_jac.[121] - $v_j_temp * (v_cp.[4] - v_cp.[20]) * v_spec_rates.[15] * #3.10342200e+01)));
  (*617*) Do (AddA v_jac 142 (v_spec_rates.[15] * $v_mw_avg * #6.1482932737595075e-01 * $v_rho_inv));
  (*618*) Do (SubA v_jac 126 (v_h.[15] * ($v_working_temp * v_jac.[142] - $v_j_temp * (v_cp.[5] - v_cp.[20]) * v_spec_rates.[15] * #3.10342200e+01)));
  (*619*) Do (AddA v_jac 163 (v_spec_rates.[15] * $v_mw_avg * #(-1.6759278576317732e-01) * $v_rho_inv));
  (*620*) Do (SubA v_jac 147 (v_h.[15] * ($v_working_temp * v_jac.[163] - $v_j_temp * (v_cp.[6] - v_cp.[20]) * v_spec_rates.[15] * #3.10342200e+01)));
  (*621*) Do (AddA v_jac 184 (v_spec_rates.[15] * $v_mw_avg * #1.1046503763063564e+00 * $v_rho_inv));
  (*622*) Do (SubA v_jac 168 (v_h.[15] * ($v_working_temp * v_jac.[184] - $v_j_temp * (v_cp.[7] - v_cp.[20]) * v_spec_rates.[15] * #3.10342200e+01)));
  (*623*) Do (AddA v_jac 205 (v_spec_rates.[15] * $v_mw_avg * #1.1046503763063564e+00 * $v_rho_inv));
  (*624*) Do (SubA v_jac 189 (v_h.[15] * ($v_working_temp * v_jac.[205] - $v_j_temp * (v_cp.[8] - v_cp.[20]) * v_spec_rates.[15] * #3.10342200e+01)));
  (*625*) Do (AddA v_jac 226 (v_spec_rates.[15] * $v_mw_avg * #9.5632474674460244e-01 * $v_rho_inv));
  (*626*) Do (SubA v_jac 210 (v_h.[15] * ($v_working_temp * v_jac.[226] - $v_j_temp * (v_cp.[9] - v_cp.[20]) * v_spec_rates.[15] * #3.10342200e+01)));
  (*627*) Do (AddA v_jac 247 (v_spec_rates.[15] * $v_mw_avg * #8.2663722372567161e-01 * $v_rho_inv));
  (*628*) Do (SubA v_jac 231 (v_h.[15] * ($v_working_temp * v_jac.[247] - $v_j_temp * (v_cp.[10] - v_cp.[20]) * v_spec_rates.[15] * #3.10342200e+01)));
  (*629*) Do (AddA v_jac 268 (v_spec_rates.[15] * $v_mw_avg * #1.2181623637013480e-04 * $v_rho_inv));
  (*630*) Do (SubA v_jac 252 (v_h.[15] * ($v_working_temp * v_jac.[268] - $v_j_temp * (v_cp.[11] - v_cp.[20]) * v_spec_rates.[15] * #3.10342200e+01)));
  (*631*) Do (AddA v_jac 289 (v_spec_rates.[15] * $v_mw_avg * #(-4.0266553609642652e-01) * $v_rho_inv));
  (*632*) Do (SubA v_jac 273 (v_h.[15] * ($v_working_temp * v_jac.[289] - $v_j_temp * (v_cp.[12] - v_cp.[20]) * v_spec_rates.[15] * #3.10342200e+01)));
  (*633*) Do (AddA v_jac 310 (v_spec_rates.[15] * $v_mw_avg * #(-3.8362488000561044e-02) * $v_rho_inv));
  (*634*) Do (SubA v_jac 294 (v_h.[15] * ($v_working_temp * v_jac.[310] - $v_j_temp * (v_cp.[13] - v_cp.[20]) * v_spec_rates.[15] * #3.10342200e+01)));
  (*635*) Do (AddA v_jac 331 (v_spec_rates.[15] * $v_mw_avg * #(-7.4263064275682161e-02) * $v_rho_inv));
  (*636*) Do (SubA v_jac 315 (v_h.[15] * ($v_working_temp * v_jac.[331] - $v_j_temp * (v_cp.[14] - v_cp.[20]) * v_spec_rates.[15] * #3.10342200e+01)));
  (*637*) Do (AddA v_jac 352 (v_spec_rates.[15] * $v_mw_avg * #(-1.0783165818741525e-01) * $v_rho_inv));
  (*638*) Do (SubA v_jac 336 (v_h.[15] * ($v_working_temp * v_jac.[352] - $v_j_temp * (v_cp.[15] - v_cp.[20]) * v_spec_rates.[15] * #3.10342200e+01)));
  (*639*) Do (AddA v_jac 373 (v_spec_rates.[15] * $v_mw_avg * #(-1.5906409405294477e-03) * $v_rho_inv));
  (*640*) Do (SubA v_jac 357 (v_h.[15] * ($v_working_temp * v_jac.[373] - $v_j_temp * (v_cp.[16] - v_cp.[20]) * v_spec_rates.[15] * #3.10342200e+01)));
  (*641*) Do (AddA v_jac 394 (v_spec_rates.[15] * $v_mw_avg * #(-3.9958133926962631e-02) * $v_rho_inv));
  (*642*) Do (SubA v_jac 378 (v_h.[15] * ($v_working_temp * v_jac.[394] - $v_j_temp * (v_cp.[17] - v_cp.[20]) * v_spec_rates.[15] * #3.10342200e+01)));
  (*643*) Do (AddA v_jac 415 (v_spec_rates.[15] * $v_mw_avg * #(-7.5753455721406460e-02) * $v_rho_inv));
  (*644*) Do (SubA v_jac 399 (v_h.[15] * ($v_working_temp * v_jac.[415] - $v_j_temp * (v_cp.[18] - v_cp.[20]) * v_spec_rates.[15] * #3.10342200e+01)));
  (*645*) Do (AddA v_jac 436 (v_spec_rates.[15] * $v_mw_avg * #(-3.3096623313484702e-01) * $v_rho_inv));
  (*646*) Do (SubA v_jac 420 (v_h.[15] * ($v_working_temp * v_jac.[436] - $v_j_temp * (v_cp.[19] - v_cp.[20]) * v_spec_rates.[15] * #3.10342200e+01)));
  (*647*) Do (AddA v_jac 38 (v_spec_rates.[16] * $v_mw_avg * #1.2914946032548331e+01 * $v_rho_inv));
  (*648*) Do (SubA v_jac 21 (v_h.[16] * ($v_working_temp * v_jac.[38] - $v_j_temp * (v_cp.[0] - v_cp.[20]) * v_spec_rates.[16] * #2.80537600e+01)));
  (*649*) Do (AddA v_jac 59 (v_spec_rates.[16] * $v_mw_avg * #2.6831329944289106e+01 * $v_rho_inv));
  (*650*) Do (SubA v_jac 42 (v_h.[16] * ($v_working_temp * v_jac.[59] - $v_j_temp * (v_cp.[1] - v_cp.[20]) * v_spec_rates.[16] * #2.80537600e+01)));
  (*651*) Do (AddA v_jac 80 (v_spec_rates.[16] * $v_mw_avg * #7.5198787427330915e-01 * $v_rho_inv));
  (*652*) Do (SubA v_jac 63 (v_h.[16] * ($v_working_temp * v_jac.[80] - $v_j_temp * (v_cp.[2] - v_cp.[20]) * v_spec_rates.[16] * #2.80537600e+01)));
  (*653*) Do (AddA v_jac 101 (v_spec_rates.[16] * $v_mw_avg * #(-1.2472500245956830e-01) * $v_rho_inv));
  (*654*) Do (SubA v_jac 84 (v_h.[16] * ($v_working_temp * v_jac.[101] - $v_j_temp * (v_cp.[3] - v_cp.[20]) * v_spec_rates.[16] * #2.80537600e+01)));
  (*655*) Do (AddA v_jac 122 (v_spec_rates.[16] * $v_mw_avg * #6.4807109751996195e-01 * $v_rho_inv));
  (*656*) Do (SubA v_jac 105 (v_h.[16] * ($v_working_temp * v_jac.[122] - $v_j_temp * (v_cp.[4] - v_cp.[20]) * v_spec_rates.[16] * #2.80537600e+01)));
  (*657*) Do (AddA v_jac 143 (v_spec_rates.[16] * $v_mw_avg * #5.5578243600665167e-01 * $v_rho_inv));
  (*658*) Do (SubA v_jac 126 (v_h.[16] * ($v_working_temp * v_jac.[143] - $v_j_temp * (v_cp.[5] - v_cp.[20]) * v_spec_rates.[16] * #2.80537600e+01)));
  (*659*) Do (AddA v_jac 164 (v_spec_rates.[16] * $v_mw_avg * #(-1.5149753367513644e-01) * $v_rho_inv));
  (*660*) Do (SubA v_jac 147 (v_h.[16] * ($v_working_temp * v_jac.[164] - $v_j_temp * (v_cp.[6] - v_cp.[20]) * v_spec_rates.[16] * #2.80537600e+01)));
  (*661*) Do (AddA v_jac 185 (v_spec_rates.[16] * $v_mw_avg * #9.9856212080755413e-01 * $v_rho_inv));
  (*662*) Do (SubA v_jac 168 (v_h.[16] * ($v_working_temp * v_jac.[185] - $v_j_temp * (v_cp.[7] - v_cp.[20]) * v_spec_rates.[16] * #2.80537600e+01)));
  (*663*) Do (AddA v_jac 206 (v_spec_rates.[16] * $v_mw_avg * #9.9856212080755413e-01 * $v_rho_inv));
  (*664*) Do (SubA v_jac 189 (v_h.[16] * ($v_working_temp * v_jac.[206] - $v_j_temp * (v_cp.[8] - v_cp.[20]) * v_spec_rates.[16] * #2.80537600e+01)));
  (*665*) Do (AddA v_jac 227 (v_spec_rates.[16] * $v_mw_avg * #8.6448136693088651e-01 * $v_rho_inv));
  (*666*) Do (SubA v_jac 210 (v_h.[16] * ($v_working_temp * v_jac.[227] - $v_j_temp * (v_cp.[9] - v_cp.[20]) * v_spec_rates.[16] * #2.80537600e+01)));
  (*667*) Do (AddA v_jac 248 (v_spec_rates.[16] * $v_mw_avg * #7.4724875577560179e-01 * $v_rho_inv));
  (*668*) Do (SubA v_jac 231 (v_h.[16] * ($v_working_temp * v_jac.[248] - $v_j_temp * (v_cp.[10] - v_cp.[20]) * v_spec_rates.[16] * #2.80537600e+01)));
  (*669*) Do (AddA v_jac 269 (v_spec_rates.[16] * $v_mw_avg * #1.1011726601251885e-04 * $v_rho_inv));
  (*670*) Do (SubA v_jac 252 (v_h.[16] * ($v_working_temp * v_jac.[269] - $v_j_temp * (v_cp.[11] - v_cp.[20]) * v_spec_rates.[16] * #2.80537600e+01)));
  (*671*) Do (AddA v_jac 290 (v_spec_rates.[16] * $v_mw_avg * #(-3.6399440069447486e-01) * $v_rho_inv));
  (*672*) Do (SubA v_jac 273 (v_h.[16] * ($v_working_temp * v_jac.[290] - $v_j_temp * (v_cp.[12] - v_cp.[20]) * v_spec_rates.[16] * #2.80537600e+01)));
  (*673*) Do (AddA v_jac 311 (v_spec_rates.[16] * $v_mw_avg * #(-3.4678236842125218e-02) * $v_rho_inv));
  (*674*) Do (SubA v_jac 294 (v_h.[16] * ($v_working_temp * v_jac.[311] - $v_j_temp * (v_cp.[13] - v_cp.[20]) * v_spec_rates.[16] * #2.80537600e+01)));
  (*675*) Do (AddA v_jac 332 (v_spec_rates.[16] * $v_mw_avg * #(-6.7130998686435850e-02) * $v_rho_inv));
  (*676*) Do (SubA v_jac 315 (v_h.[16] * ($v_working_temp * v_jac.[332] - $v_j_temp * (v_cp.[14] - v_cp.[20]) * v_spec_rates.[16] * #2.80537600e+01)));
  (*677*) Do (AddA v_jac 353 (v_spec_rates.[16] * $v_mw_avg * #(-9.7475736757417525e-02) * $v_rho_inv));
  (*678*) Do (SubA v_jac 336 (v_h.[16] * ($v_working_temp * v_jac.[353] - $v_j_temp * (v_cp.[15] - v_cp.[20]) * v_spec_rates.[16] * #2.80537600e+01)));
  (*679*) Do (AddA v_jac 374 (v_spec_rates.[16] * $v_mw_avg * #(-1.4378791924458678e-03) * $v_rho_inv));
  (*680*) Do (SubA v_jac 357 (v_h.[16] * ($v_working_temp * v_jac.[374] - $v_j_temp * (v_cp.[16] - v_cp.[20]) * v_spec_rates.[16] * #2.80537600e+01)));
  (*681*) Do (AddA v_jac 395 (v_spec_rates.[16] * $v_mw_avg * #(-3.6120640352322930e-02) * $v_rho_inv));
  (*682*) Do (SubA v_jac 378 (v_h.[16] * ($v_working_temp * v_jac.[395] - $v_j_temp * (v_cp.[17] - v_cp.[20]) * v_spec_rates.[16] * #2.80537600e+01)));
  (*683*) Do (AddA v_jac 416 (v_spec_rates.[16] * $v_mw_avg * #(-6.8478256130779624e-02) * $v_rho_inv));
  (*684*) Do (SubA v_jac 399 (v_h.[16] * ($v_working_temp * v_jac.[416] - $v_j_temp * (v_cp.[18] - v_cp.[20]) * v_spec_rates.[16] * #2.80537600e+01)));
  (*685*) Do (AddA v_jac 437 (v_spec_rates.[16] * $v_mw_avg * #(-2.9918094517822735e-01) * $v_rho_inv));
  (*686*) Do (SubA v_jac 420 (v_h.[16] * ($v_working_temp * v_jac.[437] - $v_j_temp * (v_cp.[19] - v_cp.[20]) * v_spec_rates.[16] * #2.80537600e+01)));
  (*687*) Do (AddA v_jac 39 (v_spec_rates.[17] * $v_mw_avg * #1.3378965497463080e+01 * $v_rho_inv));
  (*688*) Do (SubA v_jac 21 (v_h.[17] * ($v_working_temp * v_jac.[39] - $v_j_temp * (v_cp.[0] - v_cp.[20]) * v_spec_rates.[17] * #2.90617000e+01)));
  (*689*) Do (AddA v_jac 60 (v_spec_rates.[17] * $v_mw_avg * #2.7795349409203858e+01 * $v_rho_inv));
  (*690*) Do (SubA v_jac 42 (v_h.[17] * ($v_working_temp * v_jac.[60] - $v_j_temp * (v_cp.[1] - v_cp.[20]) * v_spec_rates.[17] * #2.90617000e+01)));
  (*691*) Do (AddA v_jac 81 (v_spec_rates.[17] * $v_mw_avg * #7.7900595163602415e-01 * $v_rho_inv));
  (*692*) Do (SubA v_jac 63 (v_h.[17] * ($v_working_temp * v_jac.[81] - $v_j_temp * (v_cp.[2] - v_cp.[20]) * v_spec_rates.[17] * #2.90617000e+01)));
  (*693*) Do (AddA v_jac 102 (v_spec_rates.[17] * $v_mw_avg * #(-1.2920623132083672e-01) * $v_rho_inv));
  (*694*) Do (SubA v_jac 84 (v_h.[17] * ($v_working_temp * v_jac.[102] - $v_j_temp * (v_cp.[3] - v_cp.[20]) * v_spec_rates.[17] * #2.90617000e+01)));
  (*695*) Do (AddA v_jac 123 (v_spec_rates.[17] * $v_mw_avg * #6.7135556213483960e-01 * $v_rho_inv));
  (*696*) Do (SubA v_jac 105 (v_h.[17] * ($v_working_temp * v_jac.[123] - $v_j_temp * (v_cp.[4] - v_cp.[20]) * v_spec_rates.[17] * #2.90617000e+01)));
  (*697*) Do (AddA v_jac 144 (v_spec_rates.[17] * $v_mw_avg * #5.7575107295758254e-01 * $v_rho_inv));
  (*698*) Do (SubA v_jac 126 (v_h.[17] * ($v_working_temp * v_jac.[144] - $v_j_temp * (v_cp.[5] - v_cp.[20]) * v_spec_rates.[17] * #2.90617000e+01)));
  (*699*) Do (AddA v_jac 165 (v_spec_rates.[17] * $v_mw_avg * #(-1.5694066942922136e-01) * $v_rho_inv));
  (*700*) Do (SubA v_jac 147 (v_h.[17] * ($v_working_temp * v_jac.[165] - $v_j_temp * (v_cp.[6] - v_cp.[20]) * v_spec_rates.[17] * #2.90617000e+01)));
  (*701*) Do (AddA v_jac 186 (v_spec_rates.[17] * $v_mw_avg * #1.0344393331329882e+00 * $v_rho_inv));
  (*702*) Do (SubA v_jac 168 (v_h.[17] * ($v_working_temp * v_jac.[186] - $v_j_temp * (v_cp.[7] - v_cp.[20]) * v_spec_rates.[17] * #2.90617000e+01)));
  (*703*) Do (AddA v_jac 207 (v_spec_rates.[17] * $v_mw_avg * #1.0344393331329882e+00 * $v_rho_inv));
  (*704*) Do (SubA v_jac 189 (v_h.[17] * ($v_working_temp * v_jac.[207] - $v_j_temp * (v_cp.[8] - v_cp.[20]) * v_spec_rates.[17] * #2.90617000e+01)));
  (*705*) Do (AddA v_jac 228 (v_spec_rates.[17] * $v_mw_avg * #8.9554120878396848e-01 * $v_rho_inv));
  (*706*) Do (SubA v_jac 210 (v_h.[17] * ($v_working_temp * v_jac.[228] - $v_j_temp * (v_cp.[9] - v_cp.[20]) * v_spec_rates.[17] * #2.90617000e+01)));
  (*707*) Do (AddA v_jac 249 (v_spec_rates.[17] * $v_mw_avg * #7.7409656194833798e-01 * $v_rho_inv));
  (*708*) Do (SubA v_jac 231 (v_h.[17] * ($v_working_temp * v_jac.[249] - $v_j_temp * (v_cp.[10] - v_cp.[20]) * v_spec_rates.[17] * #2.90617000e+01)));
  (*709*) Do (AddA v_jac 270 (v_spec_rates.[17] * $v_mw_avg * #1.1407365535586027e-04 * $v_rho_inv));
  (*710*) Do (SubA v_jac 252 (v_h.[17] * ($v_working_temp * v_jac.[270] - $v_j_temp * (v_cp.[11] - v_cp.[20]) * v_spec_rates.[17] * #2.90617000e+01)));
  (*711*) Do (AddA v_jac 291 (v_spec_rates.[17] * $v_mw_avg * #(-3.7707230954647858e-01) * $v_rho_inv));
  (*712*) Do (SubA v_jac 273 (v_h.[17] * ($v_working_temp * v_jac.[291] - $v_j_temp * (v_cp.[12] - v_cp.[20]) * v_spec_rates.[17] * #2.90617000e+01)));
  (*713*) Do (AddA v_jac 312 (v_spec_rates.[17] * $v_mw_avg * #(-3.5924186833949913e-02) * $v_rho_inv));
  (*714*) Do (SubA v_jac 294 (v_h.[17] * ($v_working_temp * v_jac.[312] - $v_j_temp * (v_cp.[13] - v_cp.[20]) * v_spec_rates.[17] * #2.90617000e+01)));
  (*715*) Do (AddA v_jac 333 (v_spec_rates.[17] * $v_mw_avg * #(-6.9542939859954356e-02) * $v_rho_inv));
  (*716*) Do (SubA v_jac 315 (v_h.[17] * ($v_working_temp * v_jac.[333] - $v_j_temp * (v_cp.[14] - v_cp.[20]) * v_spec_rates.[17] * #2.90617000e+01)));
  (*717*) Do (AddA v_jac 354 (v_spec_rates.[17] * $v_mw_avg * #(-1.0097793019271004e-01) * $v_rho_inv));
  (*718*) Do (SubA v_jac 336 (v_h.[17] * ($v_working_temp * v_jac.[354] - $v_j_temp * (v_cp.[15] - v_cp.[20]) * v_spec_rates.[17] * #2.90617000e+01)));
  (*719*) Do (AddA v_jac 375 (v_spec_rates.[17] * $v_mw_avg * #(-1.4895405723547959e-03) * $v_rho_inv));
  (*720*) Do (SubA v_jac 357 (v_h.[17] * ($v_working_temp * v_jac.[375] - $v_j_temp * (v_cp.[16] - v_cp.[20]) * v_spec_rates.[17] * #2.90617000e+01)));
  (*721*) Do (AddA v_jac 396 (v_spec_rates.[17] * $v_mw_avg * #(-3.7418414277697654e-02) * $v_rho_inv));
  (*722*) Do (SubA v_jac 378 (v_h.[17] * ($v_working_temp * v_jac.[396] - $v_j_temp * (v_cp.[17] - v_cp.[20]) * v_spec_rates.[17] * #2.90617000e+01)));
  (*723*) Do (AddA v_jac 417 (v_spec_rates.[17] * $v_mw_avg * #(-7.0938602746864532e-02) * $v_rho_inv));
  (*724*) Do (SubA v_jac 399 (v_h.[17] * ($v_working_temp * v_jac.[417] - $v_j_temp * (v_cp.[18] - v_cp.[20]) * v_spec_rates.[17] * #2.90617000e+01)));
  (*725*) Do (AddA v_jac 438 (v_spec_rates.[17] * $v_mw_avg * #(-3.0993017957258095e-01) * $v_rho_inv));
  (*726*) Do (SubA v_jac 420 (v_h.[17] * ($v_working_temp * v_jac.[438] - $v_j_temp * (v_cp.[19] - v_cp.[20]) * v_spec_rates.[17] * #2.90617000e+01)));
  (*727*) Do (AddA v_jac 40 (v_spec_rates.[18] * $v_mw_avg * #1.3842984962377828e+01 * $v_rho_inv));
  (*728*) Do (SubA v_jac 21 (v_h.[18] * ($v_working_temp * v_jac.[40] - $v_j_temp * (v_cp.[0] - v_cp.[20]) * v_spec_rates.[18] * #3.00696400e+01)));
  (*729*) Do (AddA v_jac 61 (v_spec_rates.[18] * $v_mw_avg * #2.8759368874118604e+01 * $v_rho_inv));
  (*730*) Do (SubA v_jac 42 (v_h.[18] * ($v_working_temp * v_jac.[61] - $v_j_temp * (v_cp.[1] - v_cp.[20]) * v_spec_rates.[18] * #3.00696400e+01)));
  (*731*) Do (AddA v_jac 82 (v_spec_rates.[18] * $v_mw_avg * #8.0602402899873915e-01 * $v_rho_inv));
  (*732*) Do (SubA v_jac 63 (v_h.[18] * ($v_working_temp * v_jac.[82] - $v_j_temp * (v_cp.[2] - v_cp.[20]) * v_spec_rates.[18] * #3.00696400e+01)));
  (*733*) Do (AddA v_jac 103 (v_spec_rates.[18] * $v_mw_avg * #(-1.3368746018210512e-01) * $v_rho_inv));
  (*734*) Do (SubA v_jac 84 (v_h.[18] * ($v_working_temp * v_jac.[103] - $v_j_temp * (v_cp.[3] - v_cp.[20]) * v_spec_rates.[18] * #3.00696400e+01)));
  (*735*) Do (AddA v_jac 124 (v_spec_rates.[18] * $v_mw_avg * #6.9464002674971725e-01 * $v_rho_inv));
  (*736*) Do (SubA v_jac 105 (v_h.[18] * ($v_working_temp * v_jac.[124] - $v_j_temp * (v_cp.[4] - v_cp.[20]) * v_spec_rates.[18] * #3.00696400e+01)));
  (*737*) Do (AddA v_jac 145 (v_spec_rates.[18] * $v_mw_avg * #5.9571970990851331e-01 * $v_rho_inv));
  (*738*) Do (SubA v_jac 126 (v_h.[18] * ($v_working_temp * v_jac.[145] - $v_j_temp * (v_cp.[5] - v_cp.[20]) * v_spec_rates.[18] * #3.00696400e+01)));
  (*739*) Do (AddA v_jac 166 (v_spec_rates.[18] * $v_mw_avg * #(-1.6238380518330628e-01) * $v_rho_inv));
  (*740*) Do (SubA v_jac 147 (v_h.[18] * ($v_working_temp * v_jac.[166] - $v_j_temp * (v_cp.[6] - v_cp.[20]) * v_spec_rates.[18] * #3.00696400e+01)));
  (*741*) Do (AddA v_jac 187 (v_spec_rates.[18] * $v_mw_avg * #1.0703165454584220e+00 * $v_rho_inv));
  (*742*) Do (SubA v_jac 168 (v_h.[18] * ($v_working_temp * v_jac.[187] - $v_j_temp * (v_cp.[7] - v_cp.[20]) * v_spec_rates.[18] * #3.00696400e+01)));
  (*743*) Do (AddA v_jac 208 (v_spec_rates.[18] * $v_mw_avg * #1.0703165454584220e+00 * $v_rho_inv));
  (*744*) Do (SubA v_jac 189 (v_h.[18] * ($v_working_temp * v_jac.[208] - $v_j_temp * (v_cp.[8] - v_cp.[20]) * v_spec_rates.[18] * #3.00696400e+01)));
  (*745*) Do (AddA v_jac 229 (v_spec_rates.[18] * $v_mw_avg * #9.2660105063705056e-01 * $v_rho_inv));
  (*746*) Do (SubA v_jac 210 (v_h.[18] * ($v_working_temp * v_jac.[229] - $v_j_temp * (v_cp.[9] - v_cp.[20]) * v_spec_rates.[18] * #3.00696400e+01)));
  (*747*) Do (AddA v_jac 250 (v_spec_rates.[18] * $v_mw_avg * #8.0094436812107428e-01 * $v_rho_inv));
  (*748*) Do (SubA v_jac 231 (v_h.[18] * ($v_working_temp * v_jac.[250] - $v_j_temp * (v_cp.[10] - v_cp.[20]) * v_spec_rates.[18] * #3.00696400e+01)));
  (*749*) Do (AddA v_jac 271 (v_spec_rates.[18] * $v_mw_avg * #1.1803004469920172e-04 * $v_rho_inv));
  (*750*) Do (SubA v_jac 252 (v_h.[18] * ($v_working_temp * v_jac.[271] - $v_j_temp * (v_cp.[11] - v_cp.[20]) * v_spec_rates.[18] * #3.00696400e+01)));
  (*751*) Do (AddA v_jac 292 (v_spec_rates.[18] * $v_mw_avg * #(-3.9015021839848241e-01) * $v_rho_inv));
  (*752*) Do (SubA v_jac 273 (v_h.[18] * ($v_working_temp * v_jac.[292] - $v_j_temp * (v_cp.[12] - v_cp.[20]) * v_spec_rates.[18] * #3.00696400e+01)));
  (*753*) Do (AddA v_jac 313 (v_spec_rates.[18] * $v_mw_avg * #(-3.7170136825774594e-02) * $v_rho_inv));
  (*754*) Do (SubA v_jac 294 (v_h.[18] * ($v_working_temp * v_jac.[313] - $v_j_temp * (v_cp.[13] - v_cp.[20]) * v_spec_rates.[18] * #3.00696400e+01)));
  (*755*) Do (AddA v_jac 334 (v_spec_rates.[18] * $v_mw_avg * #(-7.1954881033472848e-02) * $v_rho_inv));
  (*756*) Do (SubA v_jac 315 (v_h.[18] * ($v_working_temp * v_jac.[334] - $v_j_temp * (v_cp.[14] - v_cp.[20]) * v_spec_rates.[18] * #3.00696400e+01)));
  (*757*) Do (AddA v_jac 355 (v_spec_rates.[18] * $v_mw_avg * #(-1.0448012362800255e-01) * $v_rho_inv));
  (*758*) Do (SubA v_jac 336 (v_h.[18] * ($v_working_temp * v_jac.[355] - $v_j_temp * (v_cp.[15] - v_cp.[20]) * v_spec_rates.[18] * #3.00696400e+01)));
  (*759*) Do (AddA v_jac 376 (v_spec_rates.[18] * $v_mw_avg * #(-1.5412019522637239e-03) * $v_rho_inv));
  (*760*) Do (SubA v_jac 357 (v_h.[18] * ($v_working_temp * v_jac.[376] - $v_j_temp * (v_cp.[16] - v_cp.[20]) * v_spec_rates.[18] * #3.00696400e+01)));
  (*761*) Do (AddA v_jac 397 (v_spec_rates.[18] * $v_mw_avg * #(-3.8716188203072384e-02) * $v_rho_inv));
  (*762*) Do (SubA v_jac 378 (v_h.[18] * ($v_working_temp * v_jac.[397] - $v_j_temp * (v_cp.[17] - v_cp.[20]) * v_spec_rates.[18] * #3.00696400e+01)));
  (*763*) Do (AddA v_jac 418 (v_spec_rates.[18] * $v_mw_avg * #(-7.3398949362949439e-02) * $v_rho_inv));
  (*764*) Do (SubA v_jac 399 (v_h.[18] * ($v_working_temp * v_jac.[418] - $v_j_temp * (v_cp.[18] - v_cp.[20]) * v_spec_rates.[18] * #3.00696400e+01)));
  (*765*) Do (AddA v_jac 439 (v_spec_rates.[18] * $v_mw_avg * #(-3.2067941396693461e-01) * $v_rho_inv));
  (*766*) Do (SubA v_jac 420 (v_h.[18] * ($v_working_temp * v_jac.[439] - $v_j_temp * (v_cp.[19] - v_cp.[20]) * v_spec_rates.[18] * #3.00696400e+01)))].

