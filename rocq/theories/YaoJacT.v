(** Transcription of the temperature column of the Jacobian
    (/repo/utilities/mechanisms/yao/lib/src/jacob.c, jacobs/jacob_*.c); the number before a statement is its line. *)
From Coq Require Import List QArith.
From Verif Require Import MechLang.
Import ListNotations.
Local Open Scope mech_scope.

(** [eval_jacob], yao/lib/src/jacob.c:29-155: the statements between the calls of
    [eval_spec_rates] and [eval_jacob_0] (but for the initialisation of [J_nplusone], which
    [lib_jacob_T] does). *)
Definition yao_jac_head : list stmt := [
  (*29*) Do (Asn v_m 0 ($v_pres / (#8.31446210e+03 * $v_T)));
  (*30*) Do (Asn v_logT 0 ((Log $v_T)));
  (*32*) If ($v_T) (#1000.0)
    [Asn v_dBdT 0 ((#1.5000000000000000e+00 + #(-7.4537500000000000e+02) / $v_T) / $v_T + #0.0000000000000000e+00 + $v_T * (#0.0000000000000000e+00 + $v_T * (#0.0000000000000000e+00 + #0.0000000000000000e+00 * $v_T)));
     Asn v_dBdT 1 ((#1.5000000000000000e+00 + #2.5473659899999999e+04 / $v_T) / $v_T + #3.5266640949999999e-13 + $v_T * (#(-6.6530654666666665e-16) + $v_T * (#5.7520407999999997e-19 + #(-1.8554646640000001e-22) * $v_T)));
     Asn v_dBdT 2 ((#2.1682671000000000e+00 + #2.9122259200000000e+04 / $v_T) / $v_T + #(-1.6396594200000000e-03) + $v_T * (#2.2143546533333334e-06 + $v_T * (#(-1.5320165600000000e-09) + #4.2253194199999998e-13 * $v_T)));
     Asn v_dBdT 3 ((#3.1253056099999998e+00 + #3.3815381200000002e+03 / $v_T) / $v_T + #(-1.6127246950000001e-03) + $v_T * (#2.1758823033333334e-06 + $v_T * (#(-1.4496341075000000e-09) + #4.1247475799999997e-13 * $v_T)));
     Asn v_dBdT 4 ((#3.3017980099999997e+00 + #2.9480804000000001e+02 / $v_T) / $v_T + #(-2.3745602549999998e-03) + $v_T * (#7.0527630333333326e-06 + $v_T * (#(-6.0690973500000000e-09) + #1.8584502480000002e-12 * $v_T)));
     Asn v_dBdT 5 ((#1.3443311200000001e+00 + #(-9.1793517299999996e+02) / $v_T) / $v_T + #3.9902603749999996e-03 + $v_T * (#(-6.4927169999999995e-06) + $v_T * (#5.0393023500000001e-09 + #(-1.4752235220000002e-12) * $v_T)));
     Asn v_dBdT 6 ((#3.1986405600000003e+00 + #(-3.0293726699999999e+04) / $v_T) / $v_T + #(-1.0182170500000001e-03) + $v_T * (#2.1734673700000000e-06 + $v_T * (#(-1.3719926550000001e-09) + #3.5439563400000000e-13 * $v_T)));
     Asn v_dBdT 7 ((#3.2761126899999997e+00 + #(-1.7702582100000000e+04) / $v_T) / $v_T + #(-2.7141120849999997e-04) + $v_T * (#5.5778567000000005e-06 + $v_T * (#(-5.3942703249999999e-09) + #1.7249087260000000e-12 * $v_T)));
     Asn v_dBdT 8 ((#2.7824563599999999e+00 + #(-1.0639435599999999e+03) / $v_T) / $v_T + #(-1.4983670799999999e-03) + $v_T * (#3.2824340033333332e-06 + $v_T * (#(-2.4203237725000002e-09) + #6.4874567400000000e-13 * $v_T)));
     Asn v_dBdT 9 ((#2.7626786700000001e+00 + #4.6004040099999998e+04 / $v_T) / $v_T + #4.8443607150000002e-04 + $v_T * (#9.3163280333333339e-07 + $v_T * (#(-9.6272788250000007e-10) + #3.3748343799999999e-13 * $v_T)));
     Asn v_dBdT 10 ((#3.1986041099999998e+00 + #5.0496816299999999e+04 / $v_T) / $v_T + #(-1.1833070950000000e-03) + $v_T * (#2.7443207333333332e-06 + $v_T * (#(-1.6720399525000001e-09) + #3.8862947400000001e-13 * $v_T)));
     Asn v_dBdT 11 ((#2.6735904000000001e+00 + #1.6444998800000001e+04 / $v_T) / $v_T + #1.0054758750000000e-03 + $v_T * (#1.9100728533333335e-06 + $v_T * (#(-1.7177935625000000e-09) + #5.0877146800000003e-13 * $v_T)));
     Asn v_dBdT 12 ((#4.1498761300000000e+00 + #(-1.0246647600000000e+04) / $v_T) / $v_T + #(-6.8354894000000003e-03) + $v_T * (#1.6393353300000001e-05 + $v_T * (#(-1.2118575650000000e-08) + #3.3338791200000000e-12 * $v_T)));
     Asn v_dBdT 13 ((#3.2211858400000004e+00 + #3.8395649600000002e+03 / $v_T) / $v_T + #(-1.6219626600000000e-03) + $v_T * (#4.5933148666666667e-06 + $v_T * (#(-3.3286023250000002e-09) + #8.6753773000000000e-13 * $v_T)));
     Asn v_dBdT 14 ((#3.7937231499999999e+00 + #(-1.4308956700000001e+04) / $v_T) / $v_T + #(-4.9541668450000000e-03) + $v_T * (#1.2440666933333332e-05 + $v_T * (#(-9.4821315249999995e-09) + #2.6354530400000001e-12 * $v_T)));
     Asn v_dBdT 15 ((#2.7118050199999999e+00 + #1.2956976000000000e+03 / $v_T) / $v_T + #(-1.4023165300000001e-03) + $v_T * (#1.2551699033333334e-05 + $v_T * (#(-1.1826802224999999e-08) + #3.7317684000000002e-12 * $v_T)));
     Asn v_dBdT 16 ((#2.5795334699999999e+00 + #(-1.4344085999999999e+04) / $v_T) / $v_T + #(-3.0517684000000000e-04) + $v_T * (#3.3893811000000002e-07 + $v_T * (#2.2675147100000000e-10 + #(-1.8088489979999999e-13) * $v_T)));
     Asn v_dBdT 17 ((#1.3567735200000000e+00 + #(-4.8371969700000001e+04) / $v_T) / $v_T + #4.4922983850000002e-03 + $v_T * (#(-2.3745208966666665e-06) + $v_T * (#6.1479755499999995e-10 + #(-2.8739909599999997e-14) * $v_T)));
     Asn v_dBdT 18 ((#(-1.9131890600000001e-01) + #2.6428980700000000e+04 / $v_T) / $v_T + #1.1680781450000000e-02 + $v_T * (#(-1.1839060500000000e-05) + $v_T * (#7.0038109249999999e-09 + #(-1.7001459479999999e-12) * $v_T)));
     Asn v_dBdT 19 ((#2.2124664500000000e+00 + #3.4859846799999999e+04 / $v_T) / $v_T + #7.5739581000000002e-04 + $v_T * (#8.6403137333333327e-06 + $v_T * (#(-8.9414461750000000e-09) + #2.9430174599999999e-12 * $v_T)));
     Asn v_dBdT 20 ((#2.9592014799999999e+00 + #5.0897759299999998e+03 / $v_T) / $v_T + #(-3.7852612350000002e-03) + $v_T * (#1.9033009733333333e-05 + $v_T * (#(-1.7289718825000000e-08) + #5.3976874600000004e-12 * $v_T)));
     Asn v_dBdT 21 ((#3.3064656799999996e+00 + #1.2841626500000000e+04 / $v_T) / $v_T + #(-2.0932944600000002e-03) + $v_T * (#1.6571426900000001e-05 + $v_T * (#(-1.4978165149999999e-08) + #4.6101800800000003e-12 * $v_T)));
     Asn v_dBdT 22 ((#3.2914249199999999e+00 + #(-1.1522205500000000e+04) / $v_T) / $v_T + #(-2.7507713499999998e-03) + $v_T * (#1.9981276266666669e-05 + $v_T * (#(-1.7711657125000000e-08) + #5.3737154200000002e-12 * $v_T)));
     Asn v_dBdT 23 ((#2.4090623999999998e+00 + #6.2000000000000000e+01 / $v_T) / $v_T + #5.3692870000000004e-03 + $v_T * (#6.3049749999999997e-07 + $v_T * (#(-1.7896457750000000e-09) + #5.7347701999999995e-13 * $v_T)));
     Asn v_dBdT 24 ((#3.6318350000000010e-01 + #1.9245629000000001e+04 / $v_T) / $v_T + #9.9069104999999994e-03 + $v_T * (#4.1656866666666669e-06 + $v_T * (#(-8.3388887499999995e-09) + #3.1693142000000000e-12 * $v_T)));
     Asn v_dBdT 25 ((#4.9330699999999994e-01 + #1.0748260000000000e+03 / $v_T) / $v_T + #1.0462590000000001e-02 + $v_T * (#1.4955980000000001e-06 + $v_T * (#(-4.1722800000000000e-09) + #1.4316292000000000e-12 * $v_T)));
     Asn v_dBdT 26 ((#4.9117300000000030e-02 + #1.0312346000000000e+04 / $v_T) / $v_T + #1.3004486500000001e-02 + $v_T * (#7.8475053333333331e-07 + $v_T * (#(-4.8987830000000000e-09) + #1.8744041400000001e-12 * $v_T)));
     Asn v_dBdT 27 ((#2.7134980000000009e-01 + #(-9.3357343999999994e+03) / $v_T) / $v_T + #1.3115527000000000e-02 + $v_T * (#(-3.0970768333333334e-06) + $v_T * (#(-1.1959318000000000e-09) + #6.6961085999999998e-13 * $v_T)));
     Asn v_dBdT 28 ((#(-2.5550567999999996e-01) + #2.2653328000000001e+04 / $v_T) / $v_T + #1.9839428499999999e-02 + $v_T * (#(-7.6326953333333334e-06) + $v_T * (#5.3382432499999996e-10 + #4.6192750000000000e-13 * $v_T)));
     Asn v_dBdT 29 ((#1.8113800000000002e-01 + #(-1.7904004000000000e+03) / $v_T) / $v_T + #1.5426690000000000e-02 + $v_T * (#1.6955082333333333e-06 + $v_T * (#(-6.1637219999999997e-09) + #2.2220385999999997e-12 * $v_T)));
     Asn v_dBdT 30 ((#2.0870419999999990e-01 + #7.3221040000000003e+03 / $v_T) / $v_T + #1.9148748500000000e-02 + $v_T * (#(-2.4220169666666668e-06) + $v_T * (#(-3.8571367500000000e-09) + #1.7371887000000000e-12 * $v_T)));
     Asn v_dBdT 31 ((#(-3.4190111000000001e+00) + #2.8121887000000002e+03 / $v_T) / $v_T + #2.0215194499999999e-02 + $v_T * (#2.2600779666666667e-06 + $v_T * (#(-8.4311855000000008e-09) + #3.0233426000000002e-12 * $v_T)));
     Asn v_dBdT 51 ((#(-5.1802799999999993e-01) + #(-4.1687500000000000e+04) / $v_T) / $v_T + #7.2510000000000005e-02 + $v_T * (#(-3.3310266666666665e-05) + $v_T * (#6.5105500000000000e-09 + #2.3871600000000003e-13 * $v_T)));
     Asn v_dBdT 52 ((#7.8073300000000003e+00 + #(-6.6536100000000006e+04) / $v_T) / $v_T + #3.2531150000000002e-02 + $v_T * (#2.3168599999999997e-05 + $v_T * (#(-3.1726250000000003e-08) + #1.0219820000000001e-11 * $v_T)));
     Asn v_dBdT 53 ((#2.2986770000000001e+00 + #(-1.0208999000000000e+03) / $v_T) / $v_T + #7.0412019999999999e-04 + $v_T * (#(-1.3210739999999999e-06) + $v_T * (#1.4103787500000001e-09 + #(-4.8897079999999994e-13) * $v_T)))]
    [Asn v_dBdT 0 ((#1.5000000000000000e+00 + #(-7.4537500000000000e+02) / $v_T) / $v_T + #0.0000000000000000e+00 + $v_T * (#0.0000000000000000e+00 + $v_T * (#0.0000000000000000e+00 + #0.0000000000000000e+00 * $v_T)));
     Asn v_dBdT 1 ((#1.5000000099999999e+00 + #2.5473659899999999e+04 / $v_T) / $v_T + #(-1.1542148649999999e-11) + $v_T * (#5.3853982666666673e-15 + $v_T * (#(-1.1837880875000001e-18) + #9.9639471400000006e-23 * $v_T)));
     Asn v_dBdT 2 ((#1.5694207800000002e+00 + #2.9217579099999999e+04 / $v_T) / $v_T + #(-4.2987056850000002e-05) + $v_T * (#1.3982819633333334e-08 + $v_T * (#(-2.5044449749999998e-12) + #2.4566738199999997e-16 * $v_T)));
     Asn v_dBdT 3 ((#1.8647288600000000e+00 + #3.7188577399999999e+03 / $v_T) / $v_T + #5.2825224000000001e-04 + $v_T * (#(-8.6360919333333338e-08) + $v_T * (#7.6304668500000001e-12 + #(-2.6639175200000000e-16) * $v_T)));
     Asn v_dBdT 4 ((#3.0172109000000003e+00 + #1.1185671300000000e+02 / $v_T) / $v_T + #1.1199100650000000e-03 + $v_T * (#(-2.1121938333333332e-07) + $v_T * (#2.8561592500000001e-11 + #(-2.1581707000000000e-15) * $v_T)));
     Asn v_dBdT 5 ((#2.3372791999999998e+00 + #(-9.5015892199999996e+02) / $v_T) / $v_T + #(-2.4701236549999999e-05) + $v_T * (#1.6648559266666665e-07 + $v_T * (#(-4.4891598500000001e-11) + #4.0051075199999998e-15 * $v_T)));
     Asn v_dBdT 6 ((#2.0339924900000002e+00 + #(-3.0004297100000000e+04) / $v_T) / $v_T + #1.0884590200000001e-03 + $v_T * (#(-5.4690839333333327e-08) + $v_T * (#(-2.4260496750000000e-11) + #3.3640198399999998e-15 * $v_T)));
     Asn v_dBdT 7 ((#3.1650028499999996e+00 + #(-1.7861787700000001e+04) / $v_T) / $v_T + #2.4541584700000000e-03 + $v_T * (#(-6.3379741666666662e-07) + $v_T * (#9.2796496499999996e-11 + #(-5.7581661000000002e-15) * $v_T)));
     Asn v_dBdT 8 ((#2.2825378399999998e+00 + #(-1.0884577200000001e+03) / $v_T) / $v_T + #7.4154376999999996e-04 + $v_T * (#(-2.5265555633333331e-07) + $v_T * (#5.2367638749999998e-11 + #(-4.3343558799999996e-15) * $v_T)));
     Asn v_dBdT 9 ((#1.8741011300000001e+00 + #4.6263603999999999e+04 / $v_T) / $v_T + #1.8281964599999999e-03 + $v_T * (#(-4.6964865666666667e-07) + $v_T * (#6.5044887249999998e-11 + #(-3.7545513400000000e-15) * $v_T)));
     Asn v_dBdT 10 ((#1.2920384199999999e+00 + #5.0925999700000000e+04 / $v_T) / $v_T + #2.3279431850000000e-03 + $v_T * (#(-6.7063982333333332e-07) + $v_T * (#1.0447650000000001e-10 + #(-6.7943272999999998e-15) * $v_T)));
     Asn v_dBdT 11 ((#1.2857177200000001e+00 + #1.6775584299999999e+04 / $v_T) / $v_T + #3.6199501849999999e-03 + $v_T * (#(-9.9571449333333331e-07) + $v_T * (#1.4892116100000001e-10 + #(-9.3430878800000005e-15) * $v_T)));
     Asn v_dBdT 12 ((#(-9.2514850500000001e-01) + #(-9.4683445900000006e+03) / $v_T) / $v_T + #6.6954733499999999e-03 + $v_T * (#(-1.9109526966666665e-06) + $v_T * (#3.0573133750000000e-10 + #(-2.0363046000000002e-14) * $v_T)));
     Asn v_dBdT 13 ((#1.7721743800000000e+00 + #4.0119181500000000e+03 / $v_T) / $v_T + #2.4784776299999998e-03 + $v_T * (#(-8.2815204333333337e-07) + $v_T * (#1.4729044450000001e-10 + #(-1.0670174220000000e-14) * $v_T)));
     Asn v_dBdT 14 ((#7.6069008000000005e-01 + #(-1.3995832300000000e+04) / $v_T) / $v_T + #4.6000004100000000e-03 + $v_T * (#(-1.4741960433333332e-06) + $v_T * (#2.5160302999999999e-10 + #(-1.7677112800000002e-14) * $v_T)));
     Asn v_dBdT 15 ((#3.7577923799999997e+00 + #3.7811194000000000e+02 / $v_T) / $v_T + #3.7207123700000000e-03 + $v_T * (#(-8.9901725333333330e-07) + $v_T * (#1.0952262600000000e-10 + #(-5.2707419599999998e-15) * $v_T)));
     Asn v_dBdT 16 ((#1.7151856099999998e+00 + #(-1.4151872400000000e+04) / $v_T) / $v_T + #1.0312637150000001e-03 + $v_T * (#(-3.3294192366666671e-07) + $v_T * (#5.7513252000000000e-11 + #(-4.0729543200000001e-15) * $v_T)));
     Asn v_dBdT 17 ((#2.8574602900000001e+00 + #(-4.8759165999999997e+04) / $v_T) / $v_T + #2.2071851299999999e-03 + $v_T * (#(-7.3827134666666672e-07) + $v_T * (#1.3087254700000001e-10 + #(-9.4416832800000002e-15) * $v_T)));
     Asn v_dBdT 18 ((#3.1475696400000004e+00 + #2.5935999199999998e+04 / $v_T) / $v_T + #2.9808333200000000e-03 + $v_T * (#(-7.9098284000000004e-07) + $v_T * (#1.1685304275000001e-10 + #(-7.2247042600000001e-15) * $v_T)));
     Asn v_dBdT 19 ((#2.0167240000000000e+00 + #3.4612873899999999e+04 / $v_T) / $v_T + #5.1651146000000004e-03 + $v_T * (#(-1.5602744966666665e-06) + $v_T * (#2.5440821999999998e-10 + #(-1.7252140819999999e-14) * $v_T)));
     Asn v_dBdT 20 ((#1.0361111599999999e+00 + #4.9398861399999996e+03 / $v_T) / $v_T + #7.3227075499999999e-03 + $v_T * (#(-2.2369263833333335e-06) + $v_T * (#3.6805730750000002e-10 + #(-2.5141212200000000e-14) * $v_T)));
     Asn v_dBdT 21 ((#9.5465642000000006e-01 + #1.2857520000000000e+04 / $v_T) / $v_T + #8.6986361000000005e-03 + $v_T * (#(-2.6606888933333333e-06) + $v_T * (#4.3804422250000001e-10 + #(-2.9928315199999999e-14) * $v_T)));
     Asn v_dBdT 22 ((#7.1881499999999932e-02 + #(-1.1426393200000000e+04) / $v_T) / $v_T + #1.0842633850000000e-02 + $v_T * (#(-3.3418689000000000e-06) + $v_T * (#5.5353000250000001e-10 + #(-3.8000577999999999e-14) * $v_T)));
     Asn v_dBdT 23 ((#4.9756698999999998e+00 + #(-9.6950000000000000e+02) / $v_T) / $v_T + #4.0652956999999998e-03 + $v_T * (#(-9.1454149999999997e-07) + $v_T * (#1.0175760250000000e-10 + #(-4.3520341999999999e-15) * $v_T)));
     Asn v_dBdT 24 ((#5.5007877000000001e+00 + #1.7482449000000001e+04 / $v_T) / $v_T + #7.1623655000000001e-03 + $v_T * (#(-1.8927210666666665e-06) + $v_T * (#2.7702002500000000e-10 + #(-1.8072777399999997e-14) * $v_T)));
     Asn v_dBdT 25 ((#5.7322569999999997e+00 + #(-9.2357029999999997e+02) / $v_T) / $v_T + #7.4541700000000004e-03 + $v_T * (#(-1.6499663333333331e-06) + $v_T * (#1.8030055000000001e-10 + #(-7.5324079999999992e-15) * $v_T)));
     Asn v_dBdT 26 ((#6.7097479000000000e+00 + #7.9762236000000003e+03 / $v_T) / $v_T + #8.0157425000000008e-03 + $v_T * (#(-1.7573412666666665e-06) + $v_T * (#1.8972088000000001e-10 + #(-7.7725438000000008e-15) * $v_T)));
     Asn v_dBdT 27 ((#4.8111867999999998e+00 + #(-1.0784054000000000e+04) / $v_T) / $v_T + #8.5571280000000007e-03 + $v_T * (#(-2.4944720333333334e-06) + $v_T * (#3.5630622500000002e-10 + #(-1.8349368199999999e-14) * $v_T)));
     Asn v_dBdT 28 ((#6.0134835000000004e+00 + #2.0955008000000002e+04 / $v_T) / $v_T + #1.1317279000000000e-02 + $v_T * (#(-3.0848490000000000e-06) + $v_T * (#4.2019817499999999e-10 + #(-2.0817233999999999e-14) * $v_T)));
     Asn v_dBdT 29 ((#1.0535841000000001e+00 + #(-2.1397231000000002e+03) / $v_T) / $v_T + #1.7175253500000001e-02 + $v_T * (#(-5.2943989999999994e-06) + $v_T * (#8.2724155000000001e-10 + #(-5.0722090000000006e-14) * $v_T)));
     Asn v_dBdT 30 ((#7.6822394999999997e+00 + #4.9644058000000005e+03 / $v_T) / $v_T + #1.1845535500000001e-02 + $v_T * (#(-2.5316288333333332e-06) + $v_T * (#1.6606784000000000e-10 + #1.0969027200000000e-14 * $v_T)));
     Asn v_dBdT 31 ((#9.1386400000000005e+00 + #(-1.7218359000000000e+03) / $v_T) / $v_T + #1.1357068999999999e-02 + $v_T * (#(-2.5970154333333331e-06) + $v_T * (#2.9691305000000000e-10 + #(-1.3186489600000001e-14) * $v_T)));
     Asn v_dBdT 51 ((#3.4090699999999998e+01 + #(-5.1267500000000000e+04) / $v_T) / $v_T + #2.5529500000000000e-02 + $v_T * (#(-5.1448333333333328e-06) + $v_T * (#5.6156749999999998e-10 + #(-2.5780200000000000e-14) * $v_T)));
     Asn v_dBdT 52 ((#2.2673100000000002e+01 + #(-7.1825800000000003e+04) / $v_T) / $v_T + #3.0819599999999999e-02 + $v_T * (#(-6.9945333333333331e-06) + $v_T * (#8.3291500000000001e-10 + #(-4.0717999999999996e-14) * $v_T)));
     Asn v_dBdT 53 ((#1.9266399999999999e+00 + #(-9.2279769999999996e+02) / $v_T) / $v_T + #7.4398840000000003e-04 + $v_T * (#(-1.8949200000000001e-07) + $v_T * (#2.5242595000000000e-11 + #(-1.3506701999999999e-15) * $v_T)))];
  (*106*) If ($v_T) (#1392.0)
    [Asn v_dBdT 32 ((#(-2.0622348100000001e+00) + #(-4.4654666600000000e+03) / $v_T) / $v_T + #2.8710914700000000e-02 + $v_T * (#(-1.2482896333333334e-05) + $v_T * (#3.1841247249999998e-09 + #(-3.5921957799999997e-13) * $v_T)));
     Asn v_dBdT 34 ((#(-2.3527520500000003e+00) + #(-7.3436861699999999e+03) / $v_T) / $v_T + #3.4932771299999998e-02 + $v_T * (#(-1.5313600733333335e-05) + $v_T * (#3.9241835750000003e-09 + #(-4.4259235000000003e-13) * $v_T)));
     Asn v_dBdT 36 ((#(-2.6772054900000000e+00) + #(-1.0216860100000000e+04) / $v_T) / $v_T + #4.1230580050000000e-02 + $v_T * (#(-1.8216803599999999e-05) + $v_T * (#4.6965575749999998e-09 + #(-5.3147596599999995e-13) * $v_T)));
     Asn v_dBdT 38 ((#(-2.8922691499999997e+00) + #(-1.3107455900000001e+04) / $v_T) / $v_T + #4.7303317849999998e-02 + $v_T * (#(-2.0912850700000002e-05) + $v_T * (#5.3789577249999999e-09 + #(-6.0543736600000008e-13) * $v_T)));
     Asn v_dBdT 40 ((#(-3.1610826300000001e+00) + #(-1.5989084699999999e+04) / $v_T) / $v_T + #5.3479148499999997e-02 + $v_T * (#(-2.3699108133333333e-05) + $v_T * (#6.0992769249999999e-09 + #(-6.8554309399999999e-13) * $v_T)));
     Asn v_dBdT 42 ((#(-3.4290168799999998e+00) + #(-1.8870836500000001e+04) / $v_T) / $v_T + #5.9652798999999999e-02 + $v_T * (#(-2.6482967500000001e-05) + $v_T * (#6.8184149000000001e-09 + #(-7.6543674599999999e-13) * $v_T)))]
    [Asn v_dBdT 32 ((#1.3585153900000000e+01 + #(-1.0089820500000000e+04) / $v_T) / $v_T + #1.1203623550000000e-02 + $v_T * (#(-2.5444934166666668e-06) + $v_T * (#2.9547241500000002e-10 + #(-1.3687702780000000e-14) * $v_T)));
     Asn v_dBdT 34 ((#1.6833752900000000e+01 + #(-1.4206286000000000e+04) / $v_T) / $v_T + #1.3368882900000000e-02 + $v_T * (#(-3.0334559100000002e-06) + $v_T * (#3.5204941999999999e-10 + #(-1.6302484880000001e-14) * $v_T)));
     Asn v_dBdT 36 ((#2.0089803900000000e+01 + #(-1.8326006500000000e+04) / $v_T) / $v_T + #1.5530393900000000e-02 + $v_T * (#(-3.5214930999999996e-06) + $v_T * (#4.0851444999999999e-10 + #(-1.8911964380000001e-14) * $v_T)));
     Asn v_dBdT 38 ((#2.3354012500000000e+01 + #(-2.2448567400000000e+04) / $v_T) / $v_T + #1.7683323099999999e-02 + $v_T * (#(-4.0069462666666671e-06) + $v_T * (#4.6463763250000001e-10 + #(-2.1504452400000000e-14) * $v_T)));
     Asn v_dBdT 40 ((#2.6614217600000000e+01 + #(-2.6570906100000000e+04) / $v_T) / $v_T + #1.9841264349999999e-02 + $v_T * (#(-4.4939815333333332e-06) + $v_T * (#5.2097613000000002e-10 + #(-2.4107858799999998e-14) * $v_T)));
     Asn v_dBdT 42 ((#2.9875390299999999e+01 + #(-3.0693730700000000e+04) / $v_T) / $v_T + #2.1998576299999999e-02 + $v_T * (#(-4.9808510000000002e-06) + $v_T * (#5.7729419499999995e-10 + #(-2.6710295400000001e-14) * $v_T)))];
  (*122*) If ($v_T) (#1385.0)
    [Asn v_dBdT 46 ((#(-2.3678708899999998e+00) + #(-1.6766053899999999e+04) / $v_T) / $v_T + #6.8677673999999994e-02 + $v_T * (#(-2.7469205266666665e-05) + $v_T * (#5.9105390500000003e-09 + #(-4.9487186400000001e-13) * $v_T)));
     Asn v_dBdT 47 ((#(-2.3678708899999998e+00) + #(-1.6766053899999999e+04) / $v_T) / $v_T + #6.8677673999999994e-02 + $v_T * (#(-2.7469205266666665e-05) + $v_T * (#5.9105390500000003e-09 + #(-4.9487186400000001e-13) * $v_T)))]
    [Asn v_dBdT 46 ((#3.6968826800000002e+01 + #(-3.1214498800000001e+04) / $v_T) / $v_T + #2.6935973200000001e-02 + $v_T * (#(-6.0723754333333335e-06) + $v_T * (#7.0193625749999998e-10 + #(-3.2421684000000002e-14) * $v_T)));
     Asn v_dBdT 47 ((#3.6968826800000002e+01 + #(-3.1214498800000001e+04) / $v_T) / $v_T + #2.6935973200000001e-02 + $v_T * (#(-6.0723754333333335e-06) + $v_T * (#7.0193625749999998e-10 + #(-3.2421684000000002e-14) * $v_T)))];
  (*130*) If ($v_T) (#1390.0)
    [Asn v_dBdT 33 ((#(-9.4756159190000000e-01) + #4.7161145999999999e+03 / $v_T) / $v_T + #2.8039847900000001e-02 + $v_T * (#(-1.1051526766666668e-05) + $v_T * (#2.4438344525000000e-09 + #(-2.2801931999999999e-13) * $v_T)));
     Asn v_dBdT 35 ((#(-1.2048714650000001e+00) + #1.8328039300000000e+03 / $v_T) / $v_T + #3.4190063600000001e-02 + $v_T * (#(-1.3814930399999999e-05) + $v_T * (#3.1538950500000001e-09 + #(-3.0624011599999997e-13) * $v_T)));
     Asn v_dBdT 37 ((#(-1.4995704060000001e+00) + #(-1.0459022299999999e+03) / $v_T) / $v_T + #4.0441323350000002e-02 + $v_T * (#(-1.6684425133333334e-05) + $v_T * (#3.9137327000000003e-09 + #(-3.9323245400000001e-13) * $v_T)));
     Asn v_dBdT 39 ((#(-1.7727594380000000e+00) + #(-3.9268951099999999e+03) / $v_T) / $v_T + #4.6627485250000003e-02 + $v_T * (#(-1.9481574833333333e-05) + $v_T * (#4.6392553499999997e-09 + #(-4.7425496600000005e-13) * $v_T)));
     Asn v_dBdT 41 ((#(-2.0438729200000001e+00) + #(-6.8081851200000001e+03) / $v_T) / $v_T + #5.2808641500000003e-02 + $v_T * (#(-2.2273332366666668e-05) + $v_T * (#5.3621541499999998e-09 + #(-5.5480855000000001e-13) * $v_T)));
     Asn v_dBdT 43 ((#(-2.3135834800000001e+00) + #(-9.6896754999999994e+03) / $v_T) / $v_T + #5.8986406499999998e-02 + $v_T * (#(-2.5061435966666667e-05) + $v_T * (#6.0832776499999998e-09 + #(-6.3504570400000002e-13) * $v_T)));
     Asn v_dBdT 45 ((#(-2.8502874100000000e+00) + #(-1.5453043500000000e+04) / $v_T) / $v_T + #7.1335354000000004e-02 + $v_T * (#(-3.0630551833333332e-05) + $v_T * (#7.5220848000000000e-09 + #(-7.9490859999999999e-13) * $v_T)))]
    [Asn v_dBdT 33 ((#1.4297744600000000e+01 + #(-9.8071230700000001e+02) / $v_T) / $v_T + #1.1986765500000000e-02 + $v_T * (#(-2.7279764933333334e-06) + $v_T * (#3.1720768999999998e-10 + #(-1.4708181100000000e-14) * $v_T)));
     Asn v_dBdT 35 ((#1.7538547000000001e+01 + #(-5.0929904100000003e+03) / $v_T) / $v_T + #1.4155398099999999e-02 + $v_T * (#(-3.2176908199999999e-06) + $v_T * (#3.7386896250000000e-10 + #(-1.7326721280000001e-14) * $v_T)));
     Asn v_dBdT 37 ((#2.0794070900000001e+01 + #(-9.2093822099999998e+03) / $v_T) / $v_T + #1.6314012150000001e-02 + $v_T * (#(-3.7046081333333335e-06) + $v_T * (#4.3016787000000000e-10 + #(-1.9927339979999999e-14) * $v_T)));
     Asn v_dBdT 39 ((#2.4051035599999999e+01 + #(-1.3330053500000000e+04) / $v_T) / $v_T + #1.8474008100000001e-02 + $v_T * (#(-4.1921754666666666e-06) + $v_T * (#4.8657102249999996e-10 + #(-2.2533779600000001e-14) * $v_T)));
     Asn v_dBdT 41 ((#2.7309751400000000e+01 + #(-1.7451602999999999e+04) / $v_T) / $v_T + #2.0632867199999998e-02 + $v_T * (#(-4.6794429666666664e-06) + $v_T * (#5.4293717749999998e-10 + #(-2.5138461399999997e-14) * $v_T)));
     Asn v_dBdT 43 ((#3.0569716000000000e+01 + #(-2.1573783200000002e+04) / $v_T) / $v_T + #2.2790920150000001e-02 + $v_T * (#(-5.1664988333333336e-06) + $v_T * (#5.9927733249999998e-10 + #(-2.7741911800000000e-14) * $v_T)));
     Asn v_dBdT 45 ((#3.7092188499999999e+01 + #(-2.9819437500000000e+04) / $v_T) / $v_T + #2.7105392400000001e-02 + $v_T * (#(-6.1401839000000006e-06) + $v_T * (#7.1190543250000005e-10 + #(-3.2946349600000002e-14) * $v_T)))];
  (*148*) If ($v_T) (#1391.0)
    [Asn v_dBdT 44 ((#(-3.6218159399999998e+00) + #(-4.0065425300000003e+04) / $v_T) / $v_T + #7.3618855499999997e-02 + $v_T * (#(-3.1465675699999999e-05) + $v_T * (#7.6860317000000003e-09 + #(-8.0720446000000006e-13) * $v_T)));
     Asn v_dBdT 48 ((#(-3.9634268100000001e+00) + #(-2.4634529900000001e+04) / $v_T) / $v_T + #7.1996180000000007e-02 + $v_T * (#(-3.2046133833333336e-05) + $v_T * (#8.2543618250000006e-09 + #(-9.2479638000000003e-13) * $v_T)))]
    [Asn v_dBdT 44 ((#3.7509503700000003e+01 + #(-5.4884346500000000e+04) / $v_T) / $v_T + #2.8177502399999999e-02 + $v_T * (#(-6.3831066666666668e-06) + $v_T * (#7.4006215500000001e-10 + #(-3.4248830000000002e-14) * $v_T)));
     Asn v_dBdT 48 ((#3.6400211100000000e+01 + #(-3.8940596200000000e+04) / $v_T) / $v_T + #2.6311537650000001e-02 + $v_T * (#(-5.9541439666666665e-06) + $v_T * (#6.8987465750000003e-10 + #(-3.1912499799999998e-14) * $v_T)))]].

(** [eval_jacob], yao/lib/src/jacob.c:170-377: the statements after the call of [eval_cp], without
    the calls of the functions that finish the other columns. *)
Definition yao_jac_tail : list stmt := [
  (*173*) Do (Asn v_cp_avg 0 (v_y.[1] * v_cp.[0] + v_y.[2] * v_cp.[1] + v_y.[3] * v_cp.[2] + v_y.[4] * v_cp.[3] + v_y.[5] * v_cp.[4] + v_y.[6] * v_cp.[5] + v_y.[7] * v_cp.[6] + v_y.[8] * v_cp.[7] + v_y.[9] * v_cp.[8] + v_y.[10] * v_cp.[9] + v_y.[11] * v_cp.[10] + v_y.[12] * v_cp.[11] + v_y.[13] * v_cp.[12] + v_y.[14] * v_cp.[13] + v_y.[15] * v_cp.[14] + v_y.[16] * v_cp.[15] + v_y.[17] * v_cp.[16] + v_y.[18] * v_cp.[17] + v_y.[19] * v_cp.[18] + v_y.[20] * v_cp.[19] + v_y.[21] * v_cp.[20] + v_y.[22] * v_cp.[21] + v_y.[23] * v_cp.[22] + v_y.[24] * v_cp.[23] + v_y.[25] * v_cp.[24] + v_y.[26] * v_cp.[25] + v_y.[27] * v_cp.[26] + v_y.[28] * v_cp.[27] + v_y.[29] * v_cp.[28] + v_y.[30] * v_cp.[29] + v_y.[31] * v_cp.[30] + v_y.[32] * v_cp.[31] + v_y.[33] * v_cp.[32] + v_y.[34] * v_cp.[33] + v_y.[35] * v_cp.[34] + v_y.[36] * v_cp.[35] + v_y.[37] * v_cp.[36] + v_y.[38] * v_cp.[37] + v_y.[39] * v_cp.[38] + v_y.[40] * v_cp.[39] + v_y.[41] * v_cp.[40] + v_y.[42] * v_cp.[41] + v_y.[43] * v_cp.[42] + v_y.[44] * v_cp.[43] + v_y.[45] * v_cp.[44] + v_y.[46] * v_cp.[45] + v_y.[47] * v_cp.[46] + v_y.[48] * v_cp.[47] + v_y.[49] * v_cp.[48] + v_y.[50] * v_cp.[49] + v_y.[51] * v_cp.[50] + v_y.[52] * v_cp.[51] + v_y.[53] * v_cp.[52] + $v_y_N * v_cp.[53]));
  (*187*) Do (Asn v_jac 0 (#0.0));
  (*188*) Do (Asn v_working_temp 0 (#0));
  (*193*) If ($v_T) (#1000.0)
    [Asn v_working_temp 0 (v_y.[1] * #2.0813212426154001e+02 * (#0.0000000000000000e+00 + $v_T * (#0.0000000000000000e+00 + $v_T * (#0.0000000000000000e+00 + #0.0000000000000000e+00 * $v_T))) + v_y.[2] * #8.2489653153957570e+03 * (#7.0533281899999999e-13 + $v_T * (#(-3.9918392799999999e-15) + $v_T * (#6.9024489599999992e-18 + #(-3.7109293280000002e-21) * $v_T))) + v_y.[3] * #5.1967336900133762e+02 * (#(-3.2793188399999999e-03) + $v_T * (#1.3286127919999999e-05 + $v_T * (#(-1.8384198720000000e-08) + #8.4506388399999997e-12 * $v_T))) + v_y.[4] * #4.8887492694330808e+02 * (#(-3.2254493900000002e-03) + $v_T * (#1.3055293820000000e-05 + $v_T * (#(-1.7395609290000000e-08) + #8.2494951599999996e-12 * $v_T))) + v_y.[5] * #2.5190194790518544e+02 * (#(-4.7491205099999996e-03) + $v_T * (#4.2316578199999997e-05 + $v_T * (#(-7.2829168200000001e-08) + #3.7169004960000001e-11 * $v_T))) + v_y.[6] * #4.1244826576978785e+03 * (#7.9805207499999992e-03 + $v_T * (#(-3.8956301999999997e-05) + $v_T * (#6.0471628200000004e-08 + #(-2.9504470440000002e-11) * $v_T))) + v_y.[7] * #4.6152277955158070e+02 * (#(-2.0364341000000002e-03) + $v_T * (#1.3040804219999999e-05 + $v_T * (#(-1.6463911860000002e-08) + #7.0879126800000000e-12 * $v_T))) + v_y.[8] * #2.4443746347165404e+02 * (#(-5.4282241699999995e-04) + $v_T * (#3.3467140200000003e-05 + $v_T * (#(-6.4731243900000002e-08) + #3.4498174519999999e-11 * $v_T))) + v_y.[9] * #2.5983668450066881e+02 * (#(-2.9967341599999998e-03) + $v_T * (#1.9694604020000000e-05 + $v_T * (#(-2.9043885270000002e-08) + #1.2974913480000000e-11 * $v_T))) + v_y.[10] * #5.9275206603321635e+02 * (#9.6887214300000004e-04 + $v_T * (#5.5897968200000002e-06 + $v_T * (#(-1.1552734590000001e-08) + #6.7496687600000000e-12 * $v_T))) + v_y.[11] * #5.9275206603321635e+02 * (#(-2.3666141900000001e-03) + $v_T * (#1.6465924400000000e-05 + $v_T * (#(-2.0064479430000002e-08) + #7.7725894800000005e-12 * $v_T))) + v_y.[12] * #5.5301374409537334e+02 * (#2.0109517500000000e-03 + $v_T * (#1.1460437120000000e-05 + $v_T * (#(-2.0613522750000001e-08) + #1.0175429360000000e-11 * $v_T))) + v_y.[13] * #5.1826880786099150e+02 * (#(-1.3670978800000001e-02) + $v_T * (#9.8360119799999999e-05 + $v_T * (#(-1.4542290780000001e-07) + #6.6677582399999996e-11 * $v_T))) + v_y.[14] * #2.8652438768034290e+02 * (#(-3.2439253200000000e-03) + $v_T * (#2.7559889200000000e-05 + $v_T * (#(-3.9943227900000001e-08) + #1.7350754600000000e-11 * $v_T))) + v_y.[15] * #2.7690616686449340e+02 * (#(-9.9083336899999999e-03) + $v_T * (#7.4644001599999998e-05 + $v_T * (#(-1.1378557830000000e-07) + #5.2709060799999999e-11 * $v_T))) + v_y.[16] * #2.6791271377208773e+02 * (#(-2.8046330600000001e-03) + $v_T * (#7.5310194200000003e-05 + $v_T * (#(-1.4192162670000000e-07) + #7.4635368000000002e-11 * $v_T))) + v_y.[17] * #2.9683482206608977e+02 * (#(-6.1035368000000000e-04) + $v_T * (#2.0336286600000001e-06 + $v_T * (#2.7210176520000001e-09 + #(-3.6176979960000000e-12) * $v_T))) + v_y.[18] * #1.8892296942953618e+02 * (#8.9845967700000005e-03 + $v_T * (#(-1.4247125380000000e-05) + $v_T * (#7.3775706599999994e-09 + #(-5.7479819199999996e-13) * $v_T))) + v_y.[19] * #3.1932177658088915e+02 * (#2.3361562900000001e-02 + $v_T * (#(-7.1034362999999998e-05) + $v_T * (#8.4045731099999996e-08 + #(-3.4002918959999999e-11) * $v_T))) + v_y.[20] * #3.0742133534867867e+02 * (#1.5147916200000000e-03 + $v_T * (#5.1841882400000000e-05 + $v_T * (#(-1.0729735409999999e-07) + #5.8860349199999999e-11 * $v_T))) + v_y.[21] * #2.9637603301660818e+02 * (#(-7.5705224700000004e-03) + $v_T * (#1.1419805840000000e-04 + $v_T * (#(-2.0747662590000000e-07) + #1.0795374920000001e-10 * $v_T))) + v_y.[22] * #2.8609689384998131e+02 * (#(-4.1865889200000004e-03) + $v_T * (#9.9428561399999998e-05 + $v_T * (#(-1.7973798179999999e-07) + #9.2203601600000000e-11 * $v_T))) + v_y.[23] * #2.7650687204768667e+02 * (#(-5.5015426999999997e-03) + $v_T * (#1.1988765760000001e-04 + $v_T * (#(-2.1253988550000000e-07) + #1.0747430840000000e-10 * $v_T))) + v_y.[24] * #1.9315645500243699e+02 * (#1.0738574000000001e-02 + $v_T * (#3.7829849999999998e-06 + $v_T * (#(-2.1475749300000001e-08) + #1.1469540400000000e-11 * $v_T))) + v_y.[25] * #2.0243281060168923e+02 * (#1.9813820999999999e-02 + $v_T * (#2.4994120000000000e-05 + $v_T * (#(-1.0006666499999999e-07) + #6.3386284000000001e-11 * $v_T))) + v_y.[26] * #1.9758402201107208e+02 * (#2.0925180000000002e-02 + $v_T * (#8.9735880000000005e-06 + $v_T * (#(-5.0067360000000003e-08) + #2.8632584000000001e-11 * $v_T))) + v_y.[27] * #1.9296208183235558e+02 * (#2.6008973000000001e-02 + $v_T * (#4.7085031999999996e-06 + $v_T * (#(-5.8785396000000000e-08) + #3.7488082800000003e-11 * $v_T))) + v_y.[28] * #1.4830262506385543e+02 * (#2.6231054000000000e-02 + $v_T * (#(-1.8582461000000000e-05) + $v_T * (#(-1.4351181599999999e-08) + #1.3392217200000000e-11 * $v_T))) + v_y.[29] * #1.5089882899288889e+02 * (#3.9678856999999998e-02 + $v_T * (#(-4.5796171999999997e-05) + $v_T * (#6.4058918999999999e-09 + #9.2385500000000000e-12 * $v_T))) + v_y.[30] * #1.4818801650830409e+02 * (#3.0853380000000000e-02 + $v_T * (#1.0173049399999999e-05 + $v_T * (#(-7.3964664000000000e-08) + #4.4440771999999997e-11 * $v_T))) + v_y.[31] * #1.4557288166811580e+02 * (#3.8297497000000000e-02 + $v_T * (#(-1.4532101800000000e-05) + $v_T * (#(-4.6285641000000003e-08) + #3.4743774000000002e-11 * $v_T))) + v_y.[32] * #1.2027900893521817e+02 * (#4.0430388999999997e-02 + $v_T * (#1.3560467799999999e-05 + $v_T * (#(-1.0117422600000000e-07) + #6.0466852000000004e-11 * $v_T))) + v_y.[50] * #4.1297824509398289e+01 * (#8.9387300000000003e-02 + $v_T * (#2.9070200000000002e-05 + $v_T * (#(-2.2477500000000000e-07) + #1.3413000000000001e-10 * $v_T))) + v_y.[51] * #4.1297824509398289e+01 * (#9.9791299999999999e-02 + $v_T * (#(-3.6127000000000002e-05) + $v_T * (#(-1.2553050000000000e-07) + #8.9114399999999997e-11 * $v_T))) + v_y.[52] * #3.5634208224384466e+01 * (#1.4502000000000001e-01 + $v_T * (#(-1.9986160000000000e-04) + $v_T * (#7.8126600000000000e-08 + #4.7743200000000002e-12 * $v_T))) + v_y.[53] * #3.8435802925248602e+01 * (#6.5062300000000003e-02 + $v_T * (#1.3901159999999999e-04 + $v_T * (#(-3.8071500000000000e-07) + #2.0439640000000000e-10 * $v_T))) + $v_y_N * #2.9680218594762238e+02 * (#1.4082404000000000e-03 + $v_T * (#(-7.9264439999999996e-06) + $v_T * (#1.6924545000000002e-08 + #(-9.7794159999999997e-12) * $v_T))))]
    [Asn v_working_temp 0 (v_y.[1] * #2.0813212426154001e+02 * (#0.0000000000000000e+00 + $v_T * (#0.0000000000000000e+00 + $v_T * (#0.0000000000000000e+00 + #0.0000000000000000e+00 * $v_T))) + v_y.[2] * #8.2489653153957570e+03 * (#(-2.3084297299999999e-11) + $v_T * (#3.2312389600000002e-14 + $v_T * (#(-1.4205457050000002e-17) + #1.9927894280000001e-21 * $v_T))) + v_y.[3] * #5.1967336900133762e+02 * (#(-8.5974113700000004e-05) + $v_T * (#8.3896917800000004e-08 + $v_T * (#(-3.0053339700000001e-11) + #4.9133476399999997e-15 * $v_T))) + v_y.[4] * #4.8887492694330808e+02 * (#1.0565044800000000e-03 + $v_T * (#(-5.1816551600000003e-07) + $v_T * (#9.1565602200000001e-11 + #(-5.3278350400000003e-15) * $v_T))) + v_y.[5] * #2.5190194790518544e+02 * (#2.2398201299999999e-03 + $v_T * (#(-1.2673163000000000e-06) + $v_T * (#3.4273911000000001e-10 + #(-4.3163414000000000e-14) * $v_T))) + v_y.[6] * #4.1244826576978785e+03 * (#(-4.9402473099999998e-05) + $v_T * (#9.9891355599999992e-07 + $v_T * (#(-5.3869918199999997e-10) + #8.0102150399999999e-14 * $v_T))) + v_y.[7] * #4.6152277955158070e+02 * (#2.1769180400000002e-03 + $v_T * (#(-3.2814503599999998e-07) + $v_T * (#(-2.9112596100000000e-10) + #6.7280396799999996e-14 * $v_T))) + v_y.[8] * #2.4443746347165404e+02 * (#4.9083169400000000e-03 + $v_T * (#(-3.8027844999999999e-06) + $v_T * (#1.1135579579999999e-09 + #(-1.1516332200000001e-13) * $v_T))) + v_y.[9] * #2.5983668450066881e+02 * (#1.4830875399999999e-03 + $v_T * (#(-1.5159333380000000e-06) + $v_T * (#6.2841166499999998e-10 + #(-8.6687117599999996e-14) * $v_T))) + v_y.[10] * #5.9275206603321635e+02 * (#3.6563929199999999e-03 + $v_T * (#(-2.8178919400000001e-06) + $v_T * (#7.8053864700000003e-10 + #(-7.5091026800000003e-14) * $v_T))) + v_y.[11] * #5.9275206603321635e+02 * (#4.6558863700000000e-03 + $v_T * (#(-4.0238389399999997e-06) + $v_T * (#1.2537180000000001e-09 + #(-1.3588654599999999e-13) * $v_T))) + v_y.[12] * #5.5301374409537334e+02 * (#7.2399003699999999e-03 + $v_T * (#(-5.9742869599999998e-06) + $v_T * (#1.7870539320000002e-09 + #(-1.8686175760000001e-13) * $v_T))) + v_y.[13] * #5.1826880786099150e+02 * (#1.3390946700000000e-02 + $v_T * (#(-1.1465716180000000e-05) + $v_T * (#3.6687760500000002e-09 + #(-4.0726092000000001e-13) * $v_T))) + v_y.[14] * #2.8652438768034290e+02 * (#4.9569552599999997e-03 + $v_T * (#(-4.9689122600000000e-06) + $v_T * (#1.7674853340000001e-09 + #(-2.1340348440000000e-13) * $v_T))) + v_y.[15] * #2.7690616686449340e+02 * (#9.2000008200000000e-03 + $v_T * (#(-8.8451762599999995e-06) + $v_T * (#3.0192363599999999e-09 + #(-3.5354225600000002e-13) * $v_T))) + v_y.[16] * #2.6791271377208773e+02 * (#7.4414247399999999e-03 + $v_T * (#(-5.3941035199999998e-06) + $v_T * (#1.3142715120000000e-09 + #(-1.0541483920000000e-13) * $v_T))) + v_y.[17] * #2.9683482206608977e+02 * (#2.0625274300000002e-03 + $v_T * (#(-1.9976515420000001e-06) + $v_T * (#6.9015902399999998e-10 + #(-8.1459086400000001e-14) * $v_T))) + v_y.[18] * #1.8892296942953618e+02 * (#4.4143702599999998e-03 + $v_T * (#(-4.4296280800000001e-06) + $v_T * (#1.5704705640000000e-09 + #(-1.8883366560000001e-13) * $v_T))) + v_y.[19] * #3.1932177658088915e+02 * (#5.9616666400000001e-03 + $v_T * (#(-4.7458970400000000e-06) + $v_T * (#1.4022365130000001e-09 + #(-1.4449408520000001e-13) * $v_T))) + v_y.[20] * #3.0742133534867867e+02 * (#1.0330229200000001e-02 + $v_T * (#(-9.3616469799999992e-06) + $v_T * (#3.0528986399999998e-09 + #(-3.4504281640000000e-13) * $v_T))) + v_y.[21] * #2.9637603301660818e+02 * (#1.4645415100000000e-02 + $v_T * (#(-1.3421558300000000e-05) + $v_T * (#4.4166876900000006e-09 + #(-5.0282424399999999e-13) * $v_T))) + v_y.[22] * #2.8609689384998131e+02 * (#1.7397272200000001e-02 + $v_T * (#(-1.5964133359999999e-05) + $v_T * (#5.2565306700000001e-09 + #(-5.9856630400000000e-13) * $v_T))) + v_y.[23] * #2.7650687204768667e+02 * (#2.1685267700000000e-02 + $v_T * (#(-2.0051213400000001e-05) + $v_T * (#6.6423600300000001e-09 + #(-7.6001155999999998e-13) * $v_T))) + v_y.[24] * #1.9315645500243699e+02 * (#8.1305913999999996e-03 + $v_T * (#(-5.4872489999999996e-06) + $v_T * (#1.2210912300000001e-09 + #(-8.7040684000000004e-14) * $v_T))) + v_y.[25] * #2.0243281060168923e+02 * (#1.4324731000000000e-02 + $v_T * (#(-1.1356326399999999e-05) + $v_T * (#3.3242403000000002e-09 + #(-3.6145554799999998e-13) * $v_T))) + v_y.[26] * #1.9758402201107208e+02 * (#1.4908340000000001e-02 + $v_T * (#(-9.8997979999999992e-06) + $v_T * (#2.1636065999999999e-09 + #(-1.5064816000000000e-13) * $v_T))) + v_y.[27] * #1.9296208183235558e+02 * (#1.6031485000000002e-02 + $v_T * (#(-1.0544047599999999e-05) + $v_T * (#2.2766505600000000e-09 + #(-1.5545087600000000e-13) * $v_T))) + v_y.[28] * #1.4830262506385543e+02 * (#1.7114256000000001e-02 + $v_T * (#(-1.4966832199999999e-05) + $v_T * (#4.2756747000000002e-09 + #(-3.6698736399999998e-13) * $v_T))) + v_y.[29] * #1.5089882899288889e+02 * (#2.2634557999999999e-02 + $v_T * (#(-1.8509093999999999e-05) + $v_T * (#5.0423780999999995e-09 + #(-4.1634467999999999e-13) * $v_T))) + v_y.[30] * #1.4818801650830409e+02 * (#3.4350507000000002e-02 + $v_T * (#(-3.1766393999999998e-05) + $v_T * (#9.9268986000000009e-09 + #(-1.0144418000000001e-12) * $v_T))) + v_y.[31] * #1.4557288166811580e+02 * (#2.3691071000000001e-02 + $v_T * (#(-1.5189772999999999e-05) + $v_T * (#1.9928140799999998e-09 + #2.1938054400000000e-13 * $v_T))) + v_y.[32] * #1.2027900893521817e+02 * (#2.2714137999999998e-02 + $v_T * (#(-1.5582092599999999e-05) + $v_T * (#3.5629566000000000e-09 + #(-2.6372979200000002e-13) * $v_T))) + v_y.[50] * #4.1297824509398289e+01 * (#5.3753900000000000e-02 + $v_T * (#(-3.3637199999999997e-05) + $v_T * (#7.5410100000000010e-09 + #(-5.8883199999999997e-13) * $v_T))) + v_y.[51] * #4.1297824509398289e+01 * (#5.1591699999999997e-02 + $v_T * (#(-3.1465399999999999e-05) + $v_T * (#6.9091800000000003e-09 + #(-5.3056000000000001e-13) * $v_T))) + v_y.[52] * #3.5634208224384466e+01 * (#5.1059000000000000e-02 + $v_T * (#(-3.0868999999999999e-05) + $v_T * (#6.7388099999999998e-09 + #(-5.1560400000000003e-13) * $v_T))) + v_y.[53] * #3.8435802925248602e+01 * (#6.1639199999999998e-02 + $v_T * (#(-4.1967200000000000e-05) + $v_T * (#9.9949799999999997e-09 + #(-8.1435999999999998e-13) * $v_T))) + $v_y_N * #2.9680218594762238e+02 * (#1.4879768000000001e-03 + $v_T * (#(-1.1369520000000000e-06) + $v_T * (#3.0291114000000000e-10 + #(-2.7013403999999999e-14) * $v_T))))];
  (*271*) If ($v_T) (#1385.0)
    [AddA v_working_temp 0 (v_y.[47] * #4.9101975722034723e+01 * (#1.3735534799999999e-01 + $v_T * (#(-1.6481523159999999e-04) + $v_T * (#7.0926468600000010e-08 + #(-9.8974372800000006e-12) * $v_T))) + v_y.[48] * #4.9101975722034723e+01 * (#1.3735534799999999e-01 + $v_T * (#(-1.6481523159999999e-04) + $v_T * (#7.0926468600000010e-08 + #(-9.8974372800000006e-12) * $v_T))))]
    [AddA v_working_temp 0 (v_y.[47] * #4.9101975722034723e+01 * (#5.3871946400000002e-02 + $v_T * (#(-3.6434252600000003e-05) + $v_T * (#8.4232350899999994e-09 + #(-6.4843368000000004e-13) * $v_T))) + v_y.[48] * #4.9101975722034723e+01 * (#5.3871946400000002e-02 + $v_T * (#(-3.6434252600000003e-05) + $v_T * (#8.4232350899999994e-09 + #(-6.4843368000000004e-13) * $v_T))))];
  (*279*) If ($v_T) (#1390.0)
    [AddA v_working_temp 0 (v_y.[34] * #1.1687079873954106e+02 * (#5.6079695800000003e-02 + $v_T * (#(-6.6309160600000006e-05) + $v_T * (#2.9326013430000000e-08 + #(-4.5603864000000001e-12) * $v_T))) + v_y.[36] * #9.7622851307080197e+01 * (#6.8380127200000002e-02 + $v_T * (#(-8.2889582399999997e-05) + $v_T * (#3.7846740600000001e-08 + #(-6.1248023199999998e-12) * $v_T))) + v_y.[38] * #8.3818437418406575e+01 * (#8.0882646700000005e-02 + $v_T * (#(-1.0010655080000000e-04) + $v_T * (#4.6964792400000004e-08 + #(-7.8646490800000001e-12) * $v_T))) + v_y.[40] * #7.3434404393878353e+01 * (#9.3254970500000006e-02 + $v_T * (#(-1.1688944899999999e-04) + $v_T * (#5.5671064199999993e-08 + #(-9.4850993200000002e-12) * $v_T))) + v_y.[42] * #6.5339656169366336e+01 * (#1.0561728300000001e-01 + $v_T * (#(-1.3363999420000001e-04) + $v_T * (#6.4345849799999994e-08 + #(-1.1096171000000001e-11) * $v_T))) + v_y.[44] * #5.8852307180927312e+01 * (#1.1797281300000000e-01 + $v_T * (#(-1.5036861580000000e-04) + $v_T * (#7.2999331800000001e-08 + #(-1.2700914080000000e-11) * $v_T))) + v_y.[46] * #4.9101975722034723e+01 * (#1.4267070800000001e-01 + $v_T * (#(-1.8378331100000000e-04) + $v_T * (#9.0265017600000000e-08 + #(-1.5898171999999999e-11) * $v_T))))]
    [AddA v_working_temp 0 (v_y.[34] * #1.1687079873954106e+02 * (#2.3973530999999999e-02 + $v_T * (#(-1.6367858960000001e-05) + $v_T * (#3.8064922799999996e-09 + #(-2.9416362200000000e-13) * $v_T))) + v_y.[36] * #9.7622851307080197e+01 * (#2.8310796199999998e-02 + $v_T * (#(-1.9306144919999999e-05) + $v_T * (#4.4864275500000002e-09 + #(-3.4653442560000000e-13) * $v_T))) + v_y.[38] * #8.3818437418406575e+01 * (#3.2628024300000003e-02 + $v_T * (#(-2.2227648800000001e-05) + $v_T * (#5.1620144400000000e-09 + #(-3.9854679959999999e-13) * $v_T))) + v_y.[40] * #7.3434404393878353e+01 * (#3.6948016200000003e-02 + $v_T * (#(-2.5153052800000000e-05) + $v_T * (#5.8388522699999999e-09 + #(-4.5067559199999999e-13) * $v_T))) + v_y.[42] * #6.5339656169366336e+01 * (#4.1265734399999997e-02 + $v_T * (#(-2.8076657800000000e-05) + $v_T * (#6.5152461299999993e-09 + #(-5.0276922799999995e-13) * $v_T))) + v_y.[44] * #5.8852307180927312e+01 * (#4.5581840300000002e-02 + $v_T * (#(-3.0998993000000000e-05) + $v_T * (#7.1913279900000002e-09 + #(-5.5483823600000003e-13) * $v_T))) + v_y.[46] * #4.9101975722034723e+01 * (#5.4210784800000002e-02 + $v_T * (#(-3.6841103400000003e-05) + $v_T * (#8.5428651900000010e-09 + #(-6.5892699200000004e-13) * $v_T))))];
  (*297*) If ($v_T) (#1391.0)
    [AddA v_working_temp 0 (v_y.[45] * #4.8811425653540098e+01 * (#1.4723771099999999e-01 + $v_T * (#(-1.8879405420000001e-04) + $v_T * (#9.2232380400000010e-08 + #(-1.6144089200000000e-11) * $v_T))) + v_y.[49] * #4.9396005502768020e+01 * (#1.4399236000000001e-01 + $v_T * (#(-1.9227680300000000e-04) + $v_T * (#9.9052341900000007e-08 + #(-1.8495927599999999e-11) * $v_T))))]
    [AddA v_working_temp 0 (v_y.[45] * #4.8811425653540098e+01 * (#5.6355004799999997e-02 + $v_T * (#(-3.8298640000000002e-05) + $v_T * (#8.8807458599999993e-09 + #(-6.8497660000000003e-13) * $v_T))) + v_y.[49] * #4.9396005502768020e+01 * (#5.2623075300000002e-02 + $v_T * (#(-3.5724863799999999e-05) + $v_T * (#8.2784958900000008e-09 + #(-6.3824999599999996e-13) * $v_T))))];
  (*305*) If ($v_T) (#1392.0)
    [AddA v_working_temp 0 (v_y.[33] * #1.1855041320664326e+02 * (#5.7421829399999999e-02 + $v_T * (#(-7.4897378000000005e-05) + $v_T * (#3.8209496699999999e-08 + #(-7.1843915599999996e-12) * $v_T))) + v_y.[35] * #9.8792011005536040e+01 * (#6.9865542599999997e-02 + $v_T * (#(-9.1881604400000002e-05) + $v_T * (#4.7090202900000007e-08 + #(-8.8518470000000004e-12) * $v_T))) + v_y.[37] * #8.4678866576173760e+01 * (#8.2461160100000000e-02 + $v_T * (#(-1.0930082160000000e-04) + $v_T * (#5.6358690899999998e-08 + #(-1.0629519319999999e-11) * $v_T))) + v_y.[39] * #7.4094008254152044e+01 * (#9.4606635699999997e-02 + $v_T * (#(-1.2547710420000001e-04) + $v_T * (#6.4547492700000005e-08 + #(-1.2108747320000001e-11) * $v_T))) + v_y.[41] * #6.5861340670357365e+01 * (#1.0695829699999999e-01 + $v_T * (#(-1.4219464880000000e-04) + $v_T * (#7.3191323099999999e-08 + #(-1.3710861879999999e-11) * $v_T))) + v_y.[43] * #5.9275206603321628e+01 * (#1.1930559800000000e-01 + $v_T * (#(-1.5889780500000000e-04) + $v_T * (#8.1820978800000002e-08 + #(-1.5308734919999999e-11) * $v_T))))]
    [AddA v_working_temp 0 (v_y.[33] * #1.1855041320664326e+02 * (#2.2407247100000000e-02 + $v_T * (#(-1.5266960500000000e-05) + $v_T * (#3.5456689800000002e-09 + #(-2.7375405560000001e-13) * $v_T))) + v_y.[35] * #9.8792011005536040e+01 * (#2.6737765800000000e-02 + $v_T * (#(-1.8200735460000001e-05) + $v_T * (#4.2245930400000001e-09 + #(-3.2604969760000001e-13) * $v_T))) + v_y.[37] * #8.4678866576173760e+01 * (#3.1060787800000000e-02 + $v_T * (#(-2.1128958599999999e-05) + $v_T * (#4.9021733999999997e-09 + #(-3.7823928760000000e-13) * $v_T))) + v_y.[39] * #7.4094008254152044e+01 * (#3.5366646199999997e-02 + $v_T * (#(-2.4041677600000001e-05) + $v_T * (#5.5756515899999997e-09 + #(-4.3008904800000001e-13) * $v_T))) + v_y.[41] * #6.5861340670357365e+01 * (#3.9682528699999997e-02 + $v_T * (#(-2.6963889200000001e-05) + $v_T * (#6.2517135600000007e-09 + #(-4.8215717599999999e-13) * $v_T))) + v_y.[43] * #5.9275206603321628e+01 * (#4.3997152599999999e-02 + $v_T * (#(-2.9885105999999999e-05) + $v_T * (#6.9275303399999994e-09 + #(-5.3420590800000001e-13) * $v_T))))];
  (*323*) Do (Asn v_jac 0 ((- (v_spec_rates.[0] * #3.99480000e+01 * ((- $v_working_temp) * v_h.[0] / $v_cp_avg + v_cp.[0]) + v_jac.[1] * v_h.[0] * $v_rho + v_spec_rates.[1] * #1.00794000e+00 * ((- $v_working_temp) * v_h.[1] / $v_cp_avg + v_cp.[1]) + v_jac.[2] * v_h.[1] * $v_rho + v_spec_rates.[2] * #1.59994000e+01 * ((- $v_working_temp) * v_h.[2] / $v_cp_avg + v_cp.[2]) + v_jac.[3] * v_h.[2] * $v_rho + v_spec_rates.[3] * #1.70073400e+01 * ((- $v_working_temp) * v_h.[3] / $v_cp_avg + v_cp.[3]) + v_jac.[4] * v_h.[3] * $v_rho + v_spec_rates.[4] * #3.30067400e+01 * ((- $v_working_temp) * v_h.[4] / $v_cp_avg + v_cp.[4]) + v_jac.[5] * v_h.[4] * $v_rho + v_spec_rates.[5] * #2.01588000e+00 * ((- $v_working_temp) * v_h.[5] / $v_cp_avg + v_cp.[5]) + v_jac.[6] * v_h.[5] * $v_rho + v_spec_rates.[6] * #1.80152800e+01 * ((- $v_working_temp) * v_h.[6] / $v_cp_avg + v_cp.[6]) + v_jac.[7] * v_h.[6] * $v_rho + v_spec_rates.[7] * #3.40146800e+01 * ((- $v_working_temp) * v_h.[7] / $v_cp_avg + v_cp.[7]) + v_jac.[8] * v_h.[7] * $v_rho + v_spec_rates.[8] * #3.19988000e+01 * ((- $v_working_temp) * v_h.[8] / $v_cp_avg + v_cp.[8]) + v_jac.[9] * v_h.[8] * $v_rho + v_spec_rates.[9] * #1.40268800e+01 * ((- $v_working_temp) * v_h.[9] / $v_cp_avg + v_cp.[9]) + v_jac.[10] * v_h.[9] * $v_rho + v_spec_rates.[10] * #1.40268800e+01 * ((- $v_working_temp) * v_h.[10] / $v_cp_avg + v_cp.[10]) + v_jac.[11] * v_h.[10] * $v_rho + v_spec_rates.[11] * #1.50348200e+01 * ((- $v_working_temp) * v_h.[11] / $v_cp_avg + v_cp.[11]) + v_jac.[12] * v_h.[11] * $v_rho + v_spec_rates.[12] * #1.60427600e+01 * ((- $v_working_temp) * v_h.[12] / $v_cp_avg + v_cp.[12]) + v_jac.[13] * v_h.[12] * $v_rho + v_spec_rates.[13] * #2.90183400e+01 * ((- $v_working_temp) * v_h.[13] / $v_cp_avg + v_cp.[13]) + v_jac.[14] * v_h.[13] * $v_rho + v_spec_rates.[14] * #3.00262800e+01 * ((- $v_working_temp) * v_h.[14] / $v_cp_avg + v_cp.[14]) + v_jac.[15] * v_h.[14] * $v_rho + v_spec_rates.[15] * #3.10342200e+01 * ((- $v_working_temp) * v_h.[15] / $v_cp_avg + v_cp.[15]) + v_jac.[16] * v_h.[15] * $v_rho + v_spec_rates.[16] * #2.80104000e+01 * ((- $v_working_temp) * v_h.[16] / $v_cp_avg + v_cp.[16]) + v_jac.[17] * v_h.[16] * $v_rho + v_spec_rates.[17] * #4.40098000e+01 * ((- $v_working_temp) * v_h.[17] / $v_cp_avg + v_cp.[17]) + v_jac.[18] * v_h.[17] * $v_rho + v_spec_rates.[18] * #2.60378800e+01 * ((- $v_working_temp) * v_h.[18] / $v_cp_avg + v_cp.[18]) + v_jac.[19] * v_h.[18] * $v_rho + v_spec_rates.[19] * #2.70458200e+01 * ((- $v_working_temp) * v_h.[19] / $v_cp_avg + v_cp.[19]) + v_jac.[20] * v_h.[19] * $v_rho + v_spec_rates.[20] * #2.80537600e+01 * ((- $v_working_temp) * v_h.[20] / $v_cp_avg + v_cp.[20]) + v_jac.[21] * v_h.[20] * $v_rho + v_spec_rates.[21] * #2.90617000e+01 * ((- $v_working_temp) * v_h.[21] / $v_cp_avg + v_cp.[21]) + v_jac.[22] * v_h.[21] * $v_rho + v_spec_rates.[22] * #3.00696400e+01 * ((- $v_working_temp) * v_h.[22] / $v_cp_avg + v_cp.[22]) + v_jac.[23] * v_h.[22] * $v_rho + v_spec_rates.[23] * #4.30452200e+01 * ((- $v_working_temp) * v_h.[23] / $v_cp_avg + v_cp.[23]) + v_jac.[24] * v_h.[23] * $v_rho + v_spec_rates.[24] * #4.10727000e+01 * ((- $v_working_temp) * v_h.[24] / $v_cp_avg + v_cp.[24]) + v_jac.[25] * v_h.[24] * $v_rho + v_spec_rates.[25] * #4.20806400e+01 * ((- $v_working_temp) * v_h.[25] / $v_cp_avg + v_cp.[25]) + v_jac.[26] * v_h.[25] * $v_rho + v_spec_rates.[26] * #4.30885800e+01 * ((- $v_working_temp) * v_h.[26] / $v_cp_avg + v_cp.[26]) + v_jac.[27] * v_h.[26] * $v_rho + v_spec_rates.[27] * #5.60641600e+01 * ((- $v_working_temp) * v_h.[27] / $v_cp_avg + v_cp.[27]) + v_jac.[28] * v_h.[27] * $v_rho + v_spec_rates.[28] * #5.50995800e+01 * ((- $v_working_temp) * v_h.[28] / $v_cp_avg + v_cp.[28]) + v_jac.[29] * v_h.[28] * $v_rho + v_spec_rates.[29] * #5.61075200e+01 * ((- $v_working_temp) * v_h.[29] / $v_cp_avg + v_cp.[29]) + v_jac.[30] * v_h.[29] * $v_rho + v_spec_rates.[30] * #5.71154600e+01 * ((- $v_working_temp) * v_h.[30] / $v_cp_avg + v_cp.[30]) + v_jac.[31] * v_h.[30] * $v_rho + v_spec_rates.[31] * #6.91264600e+01 * ((- $v_working_temp) * v_h.[31] / $v_cp_avg + v_cp.[31]) + v_jac.[32] * v_h.[31] * $v_rho + v_spec_rates.[32] * #7.01344000e+01 * ((- $v_working_temp) * v_h.[32] / $v_cp_avg + v_cp.[32]) + v_jac.[33] * v_h.[32] * $v_rho + v_spec_rates.[33] * #7.11423400e+01 * ((- $v_working_temp) * v_h.[33] / $v_cp_avg + v_cp.[33]) + v_jac.[34] * v_h.[33] * $v_rho + v_spec_rates.[34] * #8.41612800e+01 * ((- $v_working_temp) * v_h.[34] / $v_cp_avg + v_cp.[34]) + v_jac.[35] * v_h.[34] * $v_rho + v_spec_rates.[35] * #8.51692200e+01 * ((- $v_working_temp) * v_h.[35] / $v_cp_avg + v_cp.[35]) + v_jac.[36] * v_h.[35] * $v_rho + v_spec_rates.[36] * #9.81881600e+01 * ((- $v_working_temp) * v_h.[36] / $v_cp_avg + v_cp.[36]) + v_jac.[37] * v_h.[36] * $v_rho + v_spec_rates.[37] * #9.91961000e+01 * ((- $v_working_temp) * v_h.[37] / $v_cp_avg + v_cp.[37]) + v_jac.[38] * v_h.[37] * $v_rho + v_spec_rates.[38] * #1.12215040e+02 * ((- $v_working_temp) * v_h.[38] / $v_cp_avg + v_cp.[38]) + v_jac.[39] * v_h.[38] * $v_rho + v_spec_rates.[39] * #1.13222980e+02 * ((- $v_working_temp) * v_h.[39] / $v_cp_avg + v_cp.[39]) + v_jac.[40] * v_h.[39] * $v_rho + v_spec_rates.[40] * #1.26241920e+02 * ((- $v_working_temp) * v_h.[40] / $v_cp_avg + v_cp.[40]) + v_jac.[41] * v_h.[40] * $v_rho + v_spec_rates.[41] * #1.27249860e+02 * ((- $v_working_temp) * v_h.[41] / $v_cp_avg + v_cp.[41]) + v_jac.[42] * v_h.[41] * $v_rho + v_spec_rates.[42] * #1.40268800e+02 * ((- $v_working_temp) * v_h.[42] / $v_cp_avg + v_cp.[42]) + v_jac.[43] * v_h.[42] * $v_rho + v_spec_rates.[43] * #1.41276740e+02 * ((- $v_working_temp) * v_h.[43] / $v_cp_avg + v_cp.[43]) + v_jac.[44] * v_h.[43] * $v_rho + v_spec_rates.[44] * #1.70338440e+02 * ((- $v_working_temp) * v_h.[44] / $v_cp_avg + v_cp.[44]) + v_jac.[45] * v_h.[44] * $v_rho + v_spec_rates.[45] * #1.69330500e+02 * ((- $v_working_temp) * v_h.[45] / $v_cp_avg + v_cp.[45]) + v_jac.[46] * v_h.[45] * $v_rho + v_spec_rates.[46] * #1.69330500e+02 * ((- $v_working_temp) * v_h.[46] / $v_cp_avg + v_cp.[46]) + v_jac.[47] * v_h.[46] * $v_rho + v_spec_rates.[47] * #1.69330500e+02 * ((- $v_working_temp) * v_h.[47] / $v_cp_avg + v_cp.[47]) + v_jac.[48] * v_h.[47] * $v_rho + v_spec_rates.[48] * #1.68322560e+02 * ((- $v_working_temp) * v_h.[48] / $v_cp_avg + v_cp.[48]) + v_jac.[49] * v_h.[48] * $v_rho + v_spec_rates.[49] * #2.01329300e+02 * ((- $v_working_temp) * v_h.[49] / $v_cp_avg + v_cp.[49]) + v_jac.[50] * v_h.[49] * $v_rho + v_spec_rates.[50] * #2.01329300e+02 * ((- $v_working_temp) * v_h.[50] / $v_cp_avg + v_cp.[50]) + v_jac.[51] * v_h.[50] * $v_rho + v_spec_rates.[51] * #2.33328100e+02 * ((- $v_working_temp) * v_h.[51] / $v_cp_avg + v_cp.[51]) + v_jac.[52] * v_h.[51] * $v_rho + v_spec_rates.[52] * #2.16320760e+02 * ((- $v_working_temp) * v_h.[52] / $v_cp_avg + v_cp.[52]) + v_jac.[53] * v_h.[52] * $v_rho + v_spec_rates.[53] * #2.80134800e+01 * ((- $v_working_temp) * v_h.[53] / $v_cp_avg + v_cp.[53]))) / ($v_rho * $v_cp_avg)))].

(** [eval_jacob_0], yao/lib/src/jacobs/jacob_0.c:4-7955: the declarations and the blocks "partial of
    rxn ... wrt T" (the blocks "wrt species" write other elements of [jac]). *)
Definition yao_jac_T0 : list stmt := [
  (*6*) Do (Asn v_logT 0 ((Log $v_T)));
  (*7*) Do (Asn v_kf 0 (#0.0));
  (*8*) Do (Asn v_j_temp 0 (#0.0));
  (*9*) Do (Asn v_pres_mod_temp 0 (#0.0));
  (*10*) Do (Asn v_Kc 0 (#0.0));
  (*11*) Do (Asn v_kr 0 (#0.0));
  (*12*) Do (Asn v_Pr 0 (#0.0));
  (*13*) Do (Asn v_Fcent 0 (#0.0));
  (*14*) Do (Asn v_A 0 (#0.0));
  (*15*) Do (Asn v_B 0 (#0.0));
  (*16*) Do (Asn v_lnF_AB 0 (#0.0));
  (*17*) Do (Asn v_rho_inv 0 (#1.0 / $v_rho));
  (*19*) Do (Asn v_j_temp 0 (#1.0 / $v_T * ((v_fwd_rates.[0] - v_rev_rates.[0]) * (#7.4689156187265553e+03 / $v_T) + v_fwd_rates.[0] * #(-1.0) - v_rev_rates.[0] * (#(-1.0) + (- $v_T) * (v_dBdT.[2] + v_dBdT.[3] - v_dBdT.[1] - v_dBdT.[8]))) * $v_rho_inv));
  (*20*) Do (Asn v_jac 9 ((- $v_j_temp) * #3.1998799999999999e+01));
  (*21*) Do (Asn v_jac 2 ((- $v_j_temp) * #1.0079400000000001e+00));
  (*22*) Do (Asn v_jac 3 ($v_j_temp * #1.5999400000000000e+01));
  (*23*) Do (Asn v_jac 4 ($v_j_temp * #1.7007339999999999e+01));
  (*250*) Do (Asn v_j_temp 0 (#1.0 / $v_T * ((v_fwd_rates.[1] - v_rev_rates.[1]) * (#2.7000000000000002e+00 + #3.1501544760183583e+03 / $v_T) + v_fwd_rates.[1] * #(-1.0) - v_rev_rates.[1] * (#(-1.0) + (- $v_T) * (v_dBdT.[1] + v_dBdT.[3] - v_dBdT.[5] - v_dBdT.[2]))) * $v_rho_inv));
  (*251*) Do (AddA v_jac 2 ($v_j_temp * #1.0079400000000001e+00));
  (*252*) Do (AddA v_jac 3 ((- $v_j_temp) * #1.5999400000000000e+01));
  (*253*) Do (AddA v_jac 4 ($v_j_temp * #1.7007339999999999e+01));
  (*254*) Do (Asn v_jac 6 ((- $v_j_temp) * #2.0158800000000001e+00));
  (*481*) Do (Asn v_j_temp 0 (#1.0 / $v_T * ((v_fwd_rates.[2] - v_rev_rates.[2]) * (#1.6000000000000001e+00 + #1.6597590263836792e+03 / $v_T) + v_fwd_rates.[2] * #(-1.0) - v_rev_rates.[2] * (#(-1.0) + (- $v_T) * (v_dBdT.[1] + v_dBdT.[6] - v_dBdT.[5] - v_dBdT.[3]))) * $v_rho_inv));
  (*482*) Do (AddA v_jac 2 ($v_j_temp * #1.0079400000000001e+00));
  (*483*) Do (AddA v_jac 4 ((- $v_j_temp) * #1.7007339999999999e+01));
  (*484*) Do (AddA v_jac 6 ((- $v_j_temp) * #2.0158800000000001e+00));
  (*485*) Do (Asn v_jac 7 ($v_j_temp * #1.8015280000000001e+01));
  (*712*) Do (Asn v_j_temp 0 (#1.0 / $v_T * ((v_fwd_rates.[3] - v_rev_rates.[3]) * (#2.3999999999999999e+00 + #(-1.0617932818528332e+03) / $v_T) + v_fwd_rates.[3] * #(-1.0) - v_rev_rates.[3] * (#(-1.0) + (- $v_T) * (v_dBdT.[6] + v_dBdT.[2] - #2.0 * v_dBdT.[3]))) * $v_rho_inv));
  (*713*) Do (AddA v_jac 3 ($v_j_temp * #1.5999400000000000e+01));
  (*714*) Do (AddA v_jac 4 ($v_j_temp * #(-2.0) * #1.7007339999999999e+01));
  (*715*) Do (AddA v_jac 7 ($v_j_temp * #1.8015280000000001e+01));
  (*889*) Do (Asn v_conc_temp 0 ($v_m - #0.6 * v_conc.[0] + #10.89 * v_conc.[6] - #0.15 * v_conc.[8] + #0.09 * v_conc.[16] + #1.18 * v_conc.[17]));
  (*890*) Do (Asn v_Pr 0 ($v_conc_temp * (Exp (#9.4229517187249385e+00 - #1.84 * $v_logT))));
  (*891*) Do (Asn v_Fcent 0 (#5.0000000000000000e-01 * (Exp ($v_T / #(-1.0000000000000001e-30))) + #5.0000000000000000e-01 * (Exp ($v_T / #(-1.0000000000000002e+30)))));
  (*892*) Do (Asn v_A 0 ((Log10 (Fmax $v_Pr #1.0e-300)) - #0.67 * (Log10 (Fmax $v_Fcent #1.0e-300)) - #0.4));
  (*893*) Do (Asn v_B 0 (#0.806 - #1.1762 * (Log10 (Fmax $v_Fcent #1.0e-300)) - #0.14 * (Log10 (Fmax $v_Pr #1.0e-300))));
  (*894*) Do (Asn v_lnF_AB 0 (#2.0 * (Log (Fmax $v_Fcent #1.0e-300)) * $v_A / ($v_B * $v_B * $v_B * (#1.0 + $v_A * $v_A / ($v_B * $v_B)) * (#1.0 + $v_A * $v_A / ($v_B * $v_B)))));
  (*895*) Do (Asn v_j_temp 0 ((v_pres_mod.[0] * ((#(-1.8400e+00) + #0.0000000000000000e+00 / $v_T - #1.0) / ($v_T * (#1.0 + $v_Pr)) + (#1.0 / ($v_Fcent * (#1.0 + $v_A * $v_A / ($v_B * $v_B))) - $v_lnF_AB * (#(-2.9097730287517870e-01) * $v_B + #5.1081716961460466e-01 * $v_A) / $v_Fcent) * (#(-4.9999999999999994e+29) * (Exp ($v_T / #(-1.0000000000000001e-30))) - #4.9999999999999995e-31 * (Exp ($v_T / #(-1.0000000000000002e+30)))) - $v_lnF_AB * (#4.3429448190325176e-01 * $v_B + #6.0801227466455256e-02 * $v_A) * (#(-1.8399999999999999e+00) + #0.0000000000000000e+00 / $v_T - #1.0) / $v_T) * (v_fwd_rates.[4] - v_rev_rates.[4]) + v_pres_mod.[0] / $v_T * ((v_fwd_rates.[4] - v_rev_rates.[4]) * #4.4000000000000000e-01 + v_fwd_rates.[4] * #(-1.0) - v_rev_rates.[4] * ((- $v_T) * (v_dBdT.[4] - v_dBdT.[1] - v_dBdT.[8])))) * $v_rho_inv));
  (*896*) Do (AddA v_jac 9 ((- $v_j_temp) * #3.1998799999999999e+01));
  (*897*) Do (AddA v_jac 2 ((- $v_j_temp) * #1.0079400000000001e+00));
  (*898*) Do (Asn v_jac 5 ($v_j_temp * #3.3006740000000001e+01));
  (*1074*) Do (Asn v_j_temp 0 (#1.0 / $v_T * ((v_fwd_rates.[5] - v_rev_rates.[5]) * (#1.4844977163345297e+02 / $v_T) + v_fwd_rates.[5] * #(-1.0) - v_rev_rates.[5] * (#(-1.0) + (- $v_T) * (#2.0 * v_dBdT.[3] - v_dBdT.[1] - v_dBdT.[4]))) * $v_rho_inv));
  (*1075*) Do (AddA v_jac 2 ((- $v_j_temp) * #1.0079400000000001e+00));
  (*1076*) Do (AddA v_jac 4 ($v_j_temp * #2.0 * #1.7007339999999999e+01));
  (*1077*) Do (AddA v_jac 5 ((- $v_j_temp) * #3.3006740000000001e+01));
  (*1251*) Do (Asn v_j_temp 0 (#1.0 / $v_T * ((v_fwd_rates.[6] - v_rev_rates.[6]) * (#2.4329999999999998e+00 + #2.6923253159094918e+04 / $v_T) + v_fwd_rates.[6] * #(-1.0) - v_rev_rates.[6] * (#(-1.0) + (- $v_T) * (v_dBdT.[1] + v_dBdT.[4] - v_dBdT.[5] - v_dBdT.[8]))) * $v_rho_inv));
  (*1252*) Do (AddA v_jac 9 ((- $v_j_temp) * #3.1998799999999999e+01));
  (*1253*) Do (AddA v_jac 2 ($v_j_temp * #1.0079400000000001e+00));
  (*1254*) Do (AddA v_jac 5 ($v_j_temp * #3.3006740000000001e+01));
  (*1255*) Do (AddA v_jac 6 ((- $v_j_temp) * #2.0158800000000001e+00));
  (*1482*) Do (Asn v_j_temp 0 (#1.0 / $v_T * ((v_fwd_rates.[7] - v_rev_rates.[7]) * (#(-2.5257093179846231e+02) / $v_T) + v_fwd_rates.[7] * #(-1.0) - v_rev_rates.[7] * (#(-1.0) + (- $v_T) * (v_dBdT.[6] + v_dBdT.[8] - v_dBdT.[4] - v_dBdT.[3]))) * $v_rho_inv));
  (*1483*) Do (AddA v_jac 9 ($v_j_temp * #3.1998799999999999e+01));
  (*1484*) Do (AddA v_jac 4 ((- $v_j_temp) * #1.7007339999999999e+01));
  (*1485*) Do (AddA v_jac 5 ((- $v_j_temp) * #3.3006740000000001e+01));
  (*1486*) Do (AddA v_jac 7 ($v_j_temp * #1.8015280000000001e+01));
  (*1713*) Do (Asn v_j_temp 0 (#1.0 / $v_T * ((v_fwd_rates.[8] - v_rev_rates.[8]) * (#3.3766032802049813e+02 / $v_T) + v_fwd_rates.[8] * #(-1.0) - v_rev_rates.[8] * (#(-1.0) + (- $v_T) * (v_dBdT.[6] + v_dBdT.[2] - v_dBdT.[1] - v_dBdT.[4]))) * $v_rho_inv));
  (*1714*) Do (AddA v_jac 2 ((- $v_j_temp) * #1.0079400000000001e+00));
  (*1715*) Do (AddA v_jac 3 ($v_j_temp * #1.5999400000000000e+01));
  (*1716*) Do (AddA v_jac 5 ((- $v_j_temp) * #3.3006740000000001e+01));
  (*1717*) Do (AddA v_jac 7 ($v_j_temp * #1.8015280000000001e+01));
  (*1944*) Do (Asn v_j_temp 0 (#1.0 / $v_T * (v_fwd_rates.[9] * #(-1.0) - v_rev_rates.[9] * (#(-1.0) + (- $v_T) * (v_dBdT.[8] + v_dBdT.[3] - v_dBdT.[4] - v_dBdT.[2]))) * $v_rho_inv));
  (*1945*) Do (AddA v_jac 9 ($v_j_temp * #3.1998799999999999e+01));
  (*1946*) Do (AddA v_jac 3 ((- $v_j_temp) * #1.5999400000000000e+01));
  (*1947*) Do (AddA v_jac 4 ($v_j_temp * #1.7007339999999999e+01));
  (*1948*) Do (AddA v_jac 5 ((- $v_j_temp) * #3.3006740000000001e+01));
  (*2175*) Do (Asn v_j_temp 0 (#1.0 / $v_T * ((v_fwd_rates.[10] - v_rev_rates.[10]) * (#(-8.2024789072043507e+02) / $v_T) + v_fwd_rates.[10] * #(-1.0) - v_rev_rates.[10] * (#(-1.0) + (- $v_T) * (v_dBdT.[7] + v_dBdT.[8] - #2.0 * v_dBdT.[4]))) * $v_rho_inv));
  (*2176*) Do (AddA v_jac 9 ($v_j_temp * #3.1998799999999999e+01));
  (*2177*) Do (AddA v_jac 5 ($v_j_temp * #(-2.0) * #3.3006740000000001e+01));
  (*2178*) Do (Asn v_jac 8 ($v_j_temp * #3.4014679999999998e+01));
  (*2352*) Do (Asn v_j_temp 0 (#1.0 / $v_T * ((v_fwd_rates.[11] - v_rev_rates.[11]) * (#6.0386347783099518e+03 / $v_T) + v_fwd_rates.[11] * #(-1.0) - v_rev_rates.[11] * (#(-1.0) + (- $v_T) * (v_dBdT.[7] + v_dBdT.[8] - #2.0 * v_dBdT.[4]))) * $v_rho_inv));
  (*2353*) Do (AddA v_jac 9 ($v_j_temp * #3.1998799999999999e+01));
  (*2354*) Do (AddA v_jac 5 ($v_j_temp * #(-2.0) * #3.3006740000000001e+01));
  (*2355*) Do (AddA v_jac 8 ($v_j_temp * #3.4014679999999998e+01));
  (*2529*) Do (Asn v_j_temp 0 (#1.0 / $v_T * ((v_fwd_rates.[12] - v_rev_rates.[12]) * (#1.9977816724908757e+03 / $v_T) + v_fwd_rates.[12] * #(-1.0) - v_rev_rates.[12] * (#(-1.0) + (- $v_T) * (v_dBdT.[6] + v_dBdT.[3] - v_dBdT.[1] - v_dBdT.[7]))) * $v_rho_inv));
  (*2530*) Do (AddA v_jac 2 ((- $v_j_temp) * #1.0079400000000001e+00));
  (*2531*) Do (AddA v_jac 4 ($v_j_temp * #1.7007339999999999e+01));
  (*2532*) Do (AddA v_jac 7 ($v_j_temp * #1.8015280000000001e+01));
  (*2533*) Do (AddA v_jac 8 ((- $v_j_temp) * #3.4014679999999998e+01));
  (*2760*) Do (Asn v_j_temp 0 (#1.0 / $v_T * ((v_fwd_rates.[13] - v_rev_rates.[13]) * (#2.0000000000000000e+00 + #2.6167417372676459e+03 / $v_T) + v_fwd_rates.[13] * #(-1.0) - v_rev_rates.[13] * (#(-1.0) + (- $v_T) * (v_dBdT.[5] + v_dBdT.[4] - v_dBdT.[1] - v_dBdT.[7]))) * $v_rho_inv));
  (*2761*) Do (AddA v_jac 2 ((- $v_j_temp) * #1.0079400000000001e+00));
  (*2762*) Do (AddA v_jac 5 ($v_j_temp * #3.3006740000000001e+01));
  (*2763*) Do (AddA v_jac 6 ($v_j_temp * #2.0158800000000001e+00));
  (*2764*) Do (AddA v_jac 8 ((- $v_j_temp) * #3.4014679999999998e+01));
  (*2991*) Do (Asn v_j_temp 0 (#1.0 / $v_T * ((v_fwd_rates.[14] - v_rev_rates.[14]) * (#2.0000000000000000e+00 + #1.9977816724908757e+03 / $v_T) + v_fwd_rates.[14] * #(-1.0) - v_rev_rates.[14] * (#(-1.0) + (- $v_T) * (v_dBdT.[4] + v_dBdT.[3] - v_dBdT.[7] - v_dBdT.[2]))) * $v_rho_inv));
  (*2992*) Do (AddA v_jac 3 ((- $v_j_temp) * #1.5999400000000000e+01));
  (*2993*) Do (AddA v_jac 4 ($v_j_temp * #1.7007339999999999e+01));
  (*2994*) Do (AddA v_jac 5 ($v_j_temp * #3.3006740000000001e+01));
  (*2995*) Do (AddA v_jac 8 ((- $v_j_temp) * #3.4014679999999998e+01));
  (*3222*) Do (Asn v_j_temp 0 (#1.0 / $v_T * ((v_fwd_rates.[15] - v_rev_rates.[15]) * (#2.1487475419486245e+02 / $v_T) + v_fwd_rates.[15] * #(-1.0) - v_rev_rates.[15] * (#(-1.0) + (- $v_T) * (v_dBdT.[6] + v_dBdT.[4] - v_dBdT.[7] - v_dBdT.[3]))) * $v_rho_inv));
  (*3223*) Do (AddA v_jac 4 ((- $v_j_temp) * #1.7007339999999999e+01));
  (*3224*) Do (AddA v_jac 5 ($v_j_temp * #3.3006740000000001e+01));
  (*3225*) Do (AddA v_jac 7 ($v_j_temp * #1.8015280000000001e+01));
  (*3226*) Do (AddA v_jac 8 ((- $v_j_temp) * #3.4014679999999998e+01));
  (*3453*) Do (Asn v_j_temp 0 (#1.0 / $v_T * ((v_fwd_rates.[16] - v_rev_rates.[16]) * (#(-7.0000000000000000e+00) + #1.8921055638704514e+04 / $v_T) + v_fwd_rates.[16] * #(-1.0) - v_rev_rates.[16] * (#(-1.0) + (- $v_T) * (v_dBdT.[6] + v_dBdT.[4] - v_dBdT.[7] - v_dBdT.[3]))) * $v_rho_inv));
  (*3454*) Do (AddA v_jac 4 ((- $v_j_temp) * #1.7007339999999999e+01));
  (*3455*) Do (AddA v_jac 5 ($v_j_temp * #3.3006740000000001e+01));
  (*3456*) Do (AddA v_jac 7 ($v_j_temp * #1.8015280000000001e+01));
  (*3457*) Do (AddA v_jac 8 ((- $v_j_temp) * #3.4014679999999998e+01));
  (*3684*) Do (Asn v_conc_temp 0 ($v_m + #(-0.3) * v_conc.[0] + #1.0 * v_conc.[5] + #5.0 * v_conc.[6] + #0.75 * v_conc.[16] + #2.6 * v_conc.[17]));
  (*3685*) Do (Asn v_Pr 0 ($v_conc_temp * (Exp (#5.9377470674674160e-01 - #0.214 * $v_logT - #(-1.1538824622220600e+03) / $v_T))));
  (*3686*) Do (Asn v_Fcent 0 (#2.6539999999999997e-01 * (Exp ($v_T / #(-9.4000000000000000e+01))) + #7.3460000000000003e-01 * (Exp ($v_T / #(-1.7560000000000000e+03))) + (Exp (#(-5.1820000000000000e+03) / $v_T))));
  (*3687*) Do (Asn v_A 0 ((Log10 (Fmax $v_Pr #1.0e-300)) - #0.67 * (Log10 (Fmax $v_Fcent #1.0e-300)) - #0.4));
  (*3688*) Do (Asn v_B 0 (#0.806 - #1.1762 * (Log10 (Fmax $v_Fcent #1.0e-300)) - #0.14 * (Log10 (Fmax $v_Pr #1.0e-300))));
  (*3689*) Do (Asn v_lnF_AB 0 (#2.0 * (Log (Fmax $v_Fcent #1.0e-300)) * $v_A / ($v_B * $v_B * $v_B * (#1.0 + $v_A * $v_A / ($v_B * $v_B)) * (#1.0 + $v_A * $v_A / ($v_B * $v_B)))));
  (*3690*) Do (Asn v_j_temp 0 ((v_pres_mod.[1] * ((#(-2.1400e-01) + #(-1.1538824622220600e+03) / $v_T - #1.0) / ($v_T * (#1.0 + $v_Pr)) + (#1.0 / ($v_Fcent * (#1.0 + $v_A * $v_A / ($v_B * $v_B))) - $v_lnF_AB * (#(-2.9097730287517870e-01) * $v_B + #5.1081716961460466e-01 * $v_A) / $v_Fcent) * (#(-2.8234042553191485e-03) * (Exp ($v_T / #(-9.4000000000000000e+01))) - #4.1833712984054670e-04 * (Exp ($v_T / #(-1.7560000000000000e+03))) + #5.1820000000000000e+03 / ($v_T * $v_T) * (Exp (#(-5.1820000000000000e+03) / $v_T))) - $v_lnF_AB * (#4.3429448190325176e-01 * $v_B + #6.0801227466455256e-02 * $v_A) * (#(-2.1399999999999997e-01) + #(-1.1538824622220600e+03) / $v_T - #1.0) / $v_T) * (v_fwd_rates.[17] - v_rev_rates.[17]) + v_pres_mod.[1] / $v_T * ((v_fwd_rates.[17] - v_rev_rates.[17]) * #(-3.7000000000000000e-01) + v_fwd_rates.[17] * #(-1.0) - v_rev_rates.[17] * ((- $v_T) * (v_dBdT.[7] - #2.0 * v_dBdT.[3])))) * $v_rho_inv));
  (*3691*) Do (AddA v_jac 4 ($v_j_temp * #(-2.0) * #1.7007339999999999e+01));
  (*3692*) Do (AddA v_jac 8 ($v_j_temp * #3.4014679999999998e+01));
  (*3815*) Do (Asn v_j_temp 0 (((- v_pres_mod.[2]) * (v_fwd_rates.[18] - v_rev_rates.[18]) / $v_T + v_pres_mod.[2] / $v_T * ((v_fwd_rates.[18] - v_rev_rates.[18]) * #(-1.0000000000000000e+00) + v_fwd_rates.[18] * #(-1.0) - v_rev_rates.[18] * ((- $v_T) * (v_dBdT.[5] - #2.0 * v_dBdT.[1])))) * $v_rho_inv));
  (*3816*) Do (AddA v_jac 2 ($v_j_temp * #(-2.0) * #1.0079400000000001e+00));
  (*3817*) Do (AddA v_jac 6 ($v_j_temp * #2.0158800000000001e+00));
  (*3939*) Do (Asn v_j_temp 0 (((- v_pres_mod.[3]) * (v_fwd_rates.[19] - v_rev_rates.[19]) / $v_T + v_pres_mod.[3] / $v_T * ((v_fwd_rates.[19] - v_rev_rates.[19]) * #(-2.0000000000000000e+00) + v_fwd_rates.[19] * #(-1.0) - v_rev_rates.[19] * ((- $v_T) * (v_dBdT.[6] - v_dBdT.[1] - v_dBdT.[3])))) * $v_rho_inv));
  (*3940*) Do (AddA v_jac 2 ((- $v_j_temp) * #1.0079400000000001e+00));
  (*3941*) Do (AddA v_jac 4 ((- $v_j_temp) * #1.7007339999999999e+01));
  (*3942*) Do (AddA v_jac 7 ($v_j_temp * #1.8015280000000001e+01));
  (*4117*) Do (Asn v_j_temp 0 (((- v_pres_mod.[4]) * (v_fwd_rates.[20] - v_rev_rates.[20]) / $v_T + v_pres_mod.[4] / $v_T * ((v_fwd_rates.[20] - v_rev_rates.[20]) * #(-1.0000000000000000e+00) + v_fwd_rates.[20] * #(-1.0) - v_rev_rates.[20] * ((- $v_T) * (v_dBdT.[8] - #2.0 * v_dBdT.[2])))) * $v_rho_inv));
  (*4118*) Do (AddA v_jac 9 ($v_j_temp * #3.1998799999999999e+01));
  (*4119*) Do (AddA v_jac 3 ($v_j_temp * #(-2.0) * #1.5999400000000000e+01));
  (*4241*) Do (Asn v_j_temp 0 (#1.0 / $v_T * ((v_fwd_rates.[21] - v_rev_rates.[21]) * #(-5.9999999999999998e-01) + v_fwd_rates.[21] * #(-2.0) - v_rev_rates.[21] * (#(-1.0) + (- $v_T) * (v_dBdT.[5] - #2.0 * v_dBdT.[1]))) * $v_rho_inv));
  (*4242*) Do (AddA v_jac 2 ($v_j_temp * #(-2.0) * #1.0079400000000001e+00));
  (*4243*) Do (AddA v_jac 6 ($v_j_temp * #2.0158800000000001e+00));
  (*4364*) Do (Asn v_j_temp 0 (#1.0 / $v_T * ((v_fwd_rates.[22] - v_rev_rates.[22]) * #(-1.2500000000000000e+00) + v_fwd_rates.[22] * #(-2.0) - v_rev_rates.[22] * (#(-1.0) + (- $v_T) * (v_dBdT.[5] - #2.0 * v_dBdT.[1]))) * $v_rho_inv));
  (*4365*) Do (AddA v_jac 2 ($v_j_temp * #(-2.0) * #1.0079400000000001e+00));
  (*4366*) Do (AddA v_jac 6 ($v_j_temp * #2.0158800000000001e+00));
  (*4487*) Do (Asn v_j_temp 0 (#1.0 / $v_T * ((v_fwd_rates.[23] - v_rev_rates.[23]) * #(-2.0000000000000000e+00) + v_fwd_rates.[23] * #(-2.0) - v_rev_rates.[23] * (#(-1.0) + (- $v_T) * (v_dBdT.[5] - #2.0 * v_dBdT.[1]))) * $v_rho_inv));
  (*4488*) Do (AddA v_jac 2 ($v_j_temp * #(-2.0) * #1.0079400000000001e+00));
  (*4489*) Do (AddA v_jac 6 ($v_j_temp * #2.0158800000000001e+00));
  (*4610*) Do (Asn v_j_temp 0 (((- v_pres_mod.[5]) * (v_fwd_rates.[24] - v_rev_rates.[24]) / $v_T + v_pres_mod.[5] / $v_T * ((v_fwd_rates.[24] - v_rev_rates.[24]) * #(-1.0000000000000000e+00) + v_fwd_rates.[24] * #(-1.0) - v_rev_rates.[24] * ((- $v_T) * (v_dBdT.[3] - v_dBdT.[1] - v_dBdT.[2])))) * $v_rho_inv));
  (*4611*) Do (AddA v_jac 2 ((- $v_j_temp) * #1.0079400000000001e+00));
  (*4612*) Do (AddA v_jac 3 ((- $v_j_temp) * #1.5999400000000000e+01));
  (*4613*) Do (AddA v_jac 4 ($v_j_temp * #1.7007339999999999e+01));
  (*4788*) Do (Asn v_j_temp 0 (#1.0 / $v_T * ((v_fwd_rates.[25] - v_rev_rates.[25]) * (#2.0529999999999999e+00 + #(-1.7898010263345839e+02) / $v_T) + v_fwd_rates.[25] * #(-1.0) - v_rev_rates.[25] * (#(-1.0) + (- $v_T) * (v_dBdT.[1] + v_dBdT.[17] - v_dBdT.[16] - v_dBdT.[3]))) * $v_rho_inv));
  (*4789*) Do (Asn v_jac 17 ((- $v_j_temp) * #2.8010399999999997e+01));
  (*4790*) Do (AddA v_jac 2 ($v_j_temp * #1.0079400000000001e+00));
  (*4791*) Do (AddA v_jac 4 ((- $v_j_temp) * #1.7007339999999999e+01));
  (*4792*) Do (Asn v_jac 18 ($v_j_temp * #4.4009799999999998e+01));
  (*5019*) Do (Asn v_j_temp 0 (#1.0 / $v_T * ((v_fwd_rates.[26] - v_rev_rates.[26]) * (#(-6.6400000000000003e-01) + #1.6698334820721593e+02 / $v_T) + v_fwd_rates.[26] * #(-1.0) - v_rev_rates.[26] * (#(-1.0) + (- $v_T) * (v_dBdT.[1] + v_dBdT.[17] - v_dBdT.[16] - v_dBdT.[3]))) * $v_rho_inv));
  (*5020*) Do (AddA v_jac 17 ((- $v_j_temp) * #2.8010399999999997e+01));
  (*5021*) Do (AddA v_jac 2 ($v_j_temp * #1.0079400000000001e+00));
  (*5022*) Do (AddA v_jac 4 ((- $v_j_temp) * #1.7007339999999999e+01));
  (*5023*) Do (AddA v_jac 18 ($v_j_temp * #4.4009799999999998e+01));
  (*5250*) Do (Asn v_j_temp 0 (#1.0 / $v_T * ((v_fwd_rates.[27] - v_rev_rates.[27]) * (#2.1800000000000002e+00 + #9.0290723966376609e+03 / $v_T) + v_fwd_rates.[27] * #(-1.0) - v_rev_rates.[27] * (#(-1.0) + (- $v_T) * (v_dBdT.[17] + v_dBdT.[3] - v_dBdT.[16] - v_dBdT.[4]))) * $v_rho_inv));
  (*5251*) Do (AddA v_jac 17 ((- $v_j_temp) * #2.8010399999999997e+01));
  (*5252*) Do (AddA v_jac 18 ($v_j_temp * #4.4009799999999998e+01));
  (*5253*) Do (AddA v_jac 4 ($v_j_temp * #1.7007339999999999e+01));
  (*5254*) Do (AddA v_jac 5 ((- $v_j_temp) * #3.3006740000000001e+01));
  (*5481*) Do (AddA v_conc_temp 0 (#6.0 * v_conc.[6]));
  (*5482*) Do (Asn v_Pr 0 ($v_conc_temp * (Exp (#2.5179046384878522e+01 - #2.79 * $v_logT - #9.0931775370050673e+02 / $v_T))));
  (*5483*) Do (Asn v_j_temp 0 ((v_pres_mod.[6] * ((#(-2.7900e+00) + #9.0931775370050673e+02 / $v_T - #1.0) / ($v_T * (#1.0 + $v_Pr))) * (v_fwd_rates.[28] - v_rev_rates.[28]) + v_pres_mod.[6] / $v_T * ((v_fwd_rates.[28] - v_rev_rates.[28]) * (#1.1996754426242437e+03 / $v_T) + v_fwd_rates.[28] * #(-1.0) - v_rev_rates.[28] * ((- $v_T) * (v_dBdT.[17] - v_dBdT.[16] - v_dBdT.[2])))) * $v_rho_inv));
  (*5484*) Do (AddA v_jac 17 ((- $v_j_temp) * #2.8010399999999997e+01));
  (*5485*) Do (AddA v_jac 18 ($v_j_temp * #4.4009799999999998e+01));
  (*5486*) Do (AddA v_jac 3 ((- $v_j_temp) * #1.5999400000000000e+01));
  (*5662*) Do (Asn v_j_temp 0 (#1.0 / $v_T * ((v_fwd_rates.[29] - v_rev_rates.[29]) * (#2.4003573243782059e+04 / $v_T) + v_fwd_rates.[29] * #(-1.0) - v_rev_rates.[29] * (#(-1.0) + (- $v_T) * (v_dBdT.[17] + v_dBdT.[2] - v_dBdT.[16] - v_dBdT.[8]))) * $v_rho_inv));
  (*5663*) Do (AddA v_jac 17 ((- $v_j_temp) * #2.8010399999999997e+01));
  (*5664*) Do (AddA v_jac 9 ((- $v_j_temp) * #3.1998799999999999e+01));
  (*5665*) Do (AddA v_jac 3 ($v_j_temp * #1.5999400000000000e+01));
  (*5666*) Do (AddA v_jac 18 ($v_j_temp * #4.4009799999999998e+01));
  (*5893*) Do (Asn v_j_temp 0 (((- v_pres_mod.[7]) * (v_fwd_rates.[30] - v_rev_rates.[30]) / $v_T + v_pres_mod.[7] / $v_T * ((v_fwd_rates.[30] - v_rev_rates.[30]) * (#(-1.0000000000000000e+00) + #8.5547326026057654e+03 / $v_T) - v_rev_rates.[30] * (#(-1.0) + (- $v_T) * (v_dBdT.[1] + v_dBdT.[16] - v_dBdT.[13])))) * $v_rho_inv));
  (*5894*) Do (AddA v_jac 17 ($v_j_temp * #2.8010399999999997e+01));
  (*5895*) Do (AddA v_jac 2 ($v_j_temp * #1.0079400000000001e+00));
  (*5896*) Do (Asn v_jac 14 ((- $v_j_temp) * #2.9018339999999998e+01));
  (*6071*) Do (Asn v_j_temp 0 (#1.0 / $v_T * (v_fwd_rates.[31] * #(-1.0) - v_rev_rates.[31] * (#(-1.0) + (- $v_T) * (v_dBdT.[5] + v_dBdT.[16] - v_dBdT.[1] - v_dBdT.[13]))) * $v_rho_inv));
  (*6072*) Do (AddA v_jac 17 ($v_j_temp * #2.8010399999999997e+01));
  (*6073*) Do (AddA v_jac 2 ((- $v_j_temp) * #1.0079400000000001e+00));
  (*6074*) Do (AddA v_jac 14 ((- $v_j_temp) * #2.9018339999999998e+01));
  (*6075*) Do (AddA v_jac 6 ($v_j_temp * #2.0158800000000001e+00));
  (*6302*) Do (Asn v_j_temp 0 (#1.0 / $v_T * (v_fwd_rates.[32] * #(-1.0) - v_rev_rates.[32] * (#(-1.0) + (- $v_T) * (v_dBdT.[16] + v_dBdT.[3] - v_dBdT.[13] - v_dBdT.[2]))) * $v_rho_inv));
  (*6303*) Do (AddA v_jac 17 ($v_j_temp * #2.8010399999999997e+01));
  (*6304*) Do (AddA v_jac 3 ((- $v_j_temp) * #1.5999400000000000e+01));
  (*6305*) Do (AddA v_jac 4 ($v_j_temp * #1.7007339999999999e+01));
  (*6306*) Do (AddA v_jac 14 ((- $v_j_temp) * #2.9018339999999998e+01));
  (*6533*) Do (Asn v_j_temp 0 (#1.0 / $v_T * (v_fwd_rates.[33] * #(-1.0) - v_rev_rates.[33] * (#(-1.0) + (- $v_T) * (v_dBdT.[1] + v_dBdT.[17] - v_dBdT.[13] - v_dBdT.[2]))) * $v_rho_inv));
  (*6534*) Do (AddA v_jac 2 ($v_j_temp * #1.0079400000000001e+00));
  (*6535*) Do (AddA v_jac 3 ((- $v_j_temp) * #1.5999400000000000e+01));
  (*6536*) Do (AddA v_jac 14 ((- $v_j_temp) * #2.9018339999999998e+01));
  (*6537*) Do (AddA v_jac 18 ($v_j_temp * #4.4009799999999998e+01));
  (*6764*) Do (Asn v_j_temp 0 (#1.0 / $v_T * (v_fwd_rates.[34] * #(-1.0) - v_rev_rates.[34] * (#(-1.0) + (- $v_T) * (v_dBdT.[6] + v_dBdT.[16] - v_dBdT.[13] - v_dBdT.[3]))) * $v_rho_inv));
  (*6765*) Do (AddA v_jac 17 ($v_j_temp * #2.8010399999999997e+01));
  (*6766*) Do (AddA v_jac 4 ((- $v_j_temp) * #1.7007339999999999e+01));
  (*6767*) Do (AddA v_jac 14 ((- $v_j_temp) * #2.9018339999999998e+01));
  (*6768*) Do (AddA v_jac 7 ($v_j_temp * #1.8015280000000001e+01));
  (*6995*) Do (Asn v_j_temp 0 (#1.0 / $v_T * ((v_fwd_rates.[35] - v_rev_rates.[35]) * (#8.0700000000000005e-01 + #(-3.6584062365261121e+02) / $v_T) + v_fwd_rates.[35] * #(-1.0) - v_rev_rates.[35] * (#(-1.0) + (- $v_T) * (v_dBdT.[16] + v_dBdT.[4] - v_dBdT.[13] - v_dBdT.[8]))) * $v_rho_inv));
  (*6996*) Do (AddA v_jac 9 ((- $v_j_temp) * #3.1998799999999999e+01));
  (*6997*) Do (AddA v_jac 17 ($v_j_temp * #2.8010399999999997e+01));
  (*6998*) Do (AddA v_jac 5 ($v_j_temp * #3.3006740000000001e+01));
  (*6999*) Do (AddA v_jac 14 ((- $v_j_temp) * #2.9018339999999998e+01));
  (*7226*) Do (Asn v_j_temp 0 (#1.0 / $v_T * ((v_fwd_rates.[36] - v_rev_rates.[36]) * (#(-1.0000000000000000e+00) + #8.5547326026057654e+03 / $v_T) + v_fwd_rates.[36] * #(-1.0) - v_rev_rates.[36] * (#(-2.0) + (- $v_T) * (v_dBdT.[1] + v_dBdT.[16] - v_dBdT.[13]))) * $v_rho_inv));
  (*7227*) Do (AddA v_jac 17 ($v_j_temp * #2.8010399999999997e+01));
  (*7228*) Do (AddA v_jac 2 ($v_j_temp * #1.0079400000000001e+00));
  (*7229*) Do (AddA v_jac 14 ((- $v_j_temp) * #2.9018339999999998e+01));
  (*7403*) Do (AddA v_conc_temp 0 (#(-6.0) * v_conc.[6] + #1.0 * v_conc.[12] - #0.25 * v_conc.[16] - #1.6 * v_conc.[17] + #2.0 * v_conc.[22]));
  (*7404*) Do (Asn v_Pr 0 ($v_conc_temp * (Exp (#3.9308672375802352e+01 - #4.92 * $v_logT - #2.3902929330810221e+03 / $v_T))));
  (*7405*) Do (Asn v_Fcent 0 (#6.7999999999999949e-02 * (Exp ($v_T / #(-1.9700000000000003e+02))) + #9.3200000000000005e-01 * (Exp ($v_T / #(-1.5400000000000000e+03))) + (Exp (#(-1.0300000000000000e+04) / $v_T))));
  (*7406*) Do (Asn v_A 0 ((Log10 (Fmax $v_Pr #1.0e-300)) - #0.67 * (Log10 (Fmax $v_Fcent #1.0e-300)) - #0.4));
  (*7407*) Do (Asn v_B 0 (#0.806 - #1.1762 * (Log10 (Fmax $v_Fcent #1.0e-300)) - #0.14 * (Log10 (Fmax $v_Pr #1.0e-300))));
  (*7408*) Do (Asn v_lnF_AB 0 (#2.0 * (Log (Fmax $v_Fcent #1.0e-300)) * $v_A / ($v_B * $v_B * $v_B * (#1.0 + $v_A * $v_A / ($v_B * $v_B)) * (#1.0 + $v_A * $v_A / ($v_B * $v_B)))));
  (*7409*) Do (Asn v_j_temp 0 ((v_pres_mod.[8] * ((#(-4.9200e+00) + #2.3902929330810221e+03 / $v_T - #1.0) / ($v_T * (#1.0 + $v_Pr)) + (#1.0 / ($v_Fcent * (#1.0 + $v_A * $v_A / ($v_B * $v_B))) - $v_lnF_AB * (#(-2.9097730287517870e-01) * $v_B + #5.1081716961460466e-01 * $v_A) / $v_Fcent) * (#(-3.4517766497461899e-04) * (Exp ($v_T / #(-1.9700000000000003e+02))) - #6.0519480519480523e-04 * (Exp ($v_T / #(-1.5400000000000000e+03))) + #1.0300000000000000e+04 / ($v_T * $v_T) * (Exp (#(-1.0300000000000000e+04) / $v_T))) - $v_lnF_AB * (#4.3429448190325176e-01 * $v_B + #6.0801227466455256e-02 * $v_A) * (#(-4.9199999999999999e+00) + #2.3902929330810221e+03 / $v_T - #1.0) / $v_T) * (v_fwd_rates.[37] - v_rev_rates.[37]) + v_pres_mod.[8] / $v_T * ((v_fwd_rates.[37] - v_rev_rates.[37]) * (#1.5000000000000000e+00 + #4.0056277362789348e+04 / $v_T) + v_fwd_rates.[37] * #(-1.0) - v_rev_rates.[37] * ((- $v_T) * (v_dBdT.[14] - v_dBdT.[5] - v_dBdT.[16])))) * $v_rho_inv));
  (*7410*) Do (AddA v_jac 17 ((- $v_j_temp) * #2.8010399999999997e+01));
  (*7411*) Do (AddA v_jac 6 ((- $v_j_temp) * #2.0158800000000001e+00));
  (*7412*) Do (Asn v_jac 15 ($v_j_temp * #3.0026280000000000e+01));
  (*7588*) Do (Asn v_Pr 0 ($v_conc_temp * (Exp (#2.0937192733155698e+01 - #3.05 * $v_logT - #8.4792496678768907e+02 / $v_T))));
  (*7589*) Do (Asn v_Fcent 0 (#2.1760000000000002e-01 * (Exp ($v_T / #(-2.7100000000000000e+02))) + #7.8239999999999998e-01 * (Exp ($v_T / #(-2.7550000000000000e+03))) + (Exp (#(-6.5700000000000000e+03) / $v_T))));
  (*7590*) Do (Asn v_A 0 ((Log10 (Fmax $v_Pr #1.0e-300)) - #0.67 * (Log10 (Fmax $v_Fcent #1.0e-300)) - #0.4));
  (*7591*) Do (Asn v_B 0 (#0.806 - #1.1762 * (Log10 (Fmax $v_Fcent #1.0e-300)) - #0.14 * (Log10 (Fmax $v_Pr #1.0e-300))));
  (*7592*) Do (Asn v_lnF_AB 0 (#2.0 * (Log (Fmax $v_Fcent #1.0e-300)) * $v_A / ($v_B * $v_B * $v_B * (#1.0 + $v_A * $v_A / ($v_B * $v_B)) * (#1.0 + $v_A * $v_A / ($v_B * $v_B)))));
  (*7593*) Do (Asn v_j_temp 0 ((v_pres_mod.[9] * ((#(-3.0500e+00) + #8.4792496678768907e+02 / $v_T - #1.0) / ($v_T * (#1.0 + $v_Pr)) + (#1.0 / ($v_Fcent * (#1.0 + $v_A * $v_A / ($v_B * $v_B))) - $v_lnF_AB * (#(-2.9097730287517870e-01) * $v_B + #5.1081716961460466e-01 * $v_A) / $v_Fcent) * (#(-8.0295202952029529e-04) * (Exp ($v_T / #(-2.7100000000000000e+02))) - #2.8399274047186931e-04 * (Exp ($v_T / #(-2.7550000000000000e+03))) + #6.5700000000000000e+03 / ($v_T * $v_T) * (Exp (#(-6.5700000000000000e+03) / $v_T))) - $v_lnF_AB * (#4.3429448190325176e-01 * $v_B + #6.0801227466455256e-02 * $v_A) * (#(-3.0499999999999998e+00) + #8.4792496678768907e+02 / $v_T - #1.0) / $v_T) * (v_fwd_rates.[38] - v_rev_rates.[38]) + v_pres_mod.[9] / $v_T * ((v_fwd_rates.[38] - v_rev_rates.[38]) * (#4.7999999999999998e-01 + #(-1.3083708686338230e+02) / $v_T) + v_fwd_rates.[38] * #(-1.0) - v_rev_rates.[38] * ((- $v_T) * (v_dBdT.[14] - v_dBdT.[1] - v_dBdT.[13])))) * $v_rho_inv));
  (*7594*) Do (AddA v_jac 2 ((- $v_j_temp) * #1.0079400000000001e+00));
  (*7595*) Do (AddA v_jac 14 ((- $v_j_temp) * #2.9018339999999998e+01));
  (*7596*) Do (AddA v_jac 15 ($v_j_temp * #3.0026280000000000e+01));
  (*7772*) Do (Asn v_Pr 0 ($v_conc_temp * (Exp (#1.8667540821883890e+01 - #2.34 * $v_logT - #6.1896006477677008e+02 / $v_T))));
  (*7773*) Do (Asn v_Fcent 0 (#3.1999999999999995e-01 * (Exp ($v_T / #(-7.8000000000000000e+01))) + #6.8000000000000005e-01 * (Exp ($v_T / #(-1.9950000000000000e+03))) + (Exp (#(-5.5900000000000000e+03) / $v_T))));
  (*7774*) Do (Asn v_A 0 ((Log10 (Fmax $v_Pr #1.0e-300)) - #0.67 * (Log10 (Fmax $v_Fcent #1.0e-300)) - #0.4));
  (*7775*) Do (Asn v_B 0 (#0.806 - #1.1762 * (Log10 (Fmax $v_Fcent #1.0e-300)) - #0.14 * (Log10 (Fmax $v_Pr #1.0e-300))));
  (*7776*) Do (Asn v_lnF_AB 0 (#2.0 * (Log (Fmax $v_Fcent #1.0e-300)) * $v_A / ($v_B * $v_B * $v_B * (#1.0 + $v_A * $v_A / ($v_B * $v_B)) * (#1.0 + $v_A * $v_A / ($v_B * $v_B)))));
  (*7777*) Do (Asn v_j_temp 0 ((v_pres_mod.[10] * ((#(-2.3400e+00) + #6.1896006477677008e+02 / $v_T - #1.0) / ($v_T * (#1.0 + $v_Pr)) + (#1.0 / ($v_Fcent * (#1.0 + $v_A * $v_A / ($v_B * $v_B))) - $v_lnF_AB * (#(-2.9097730287517870e-01) * $v_B + #5.1081716961460466e-01 * $v_A) / $v_Fcent) * (#(-4.1025641025641017e-03) * (Exp ($v_T / #(-7.8000000000000000e+01))) - #3.4085213032581453e-04 * (Exp ($v_T / #(-1.9950000000000000e+03))) + #5.5900000000000000e+03 / ($v_T * $v_T) * (Exp (#(-5.5900000000000000e+03) / $v_T))) - $v_lnF_AB * (#4.3429448190325176e-01 * $v_B + #6.0801227466455256e-02 * $v_A) * (#(-2.3399999999999999e+00) + #6.1896006477677008e+02 / $v_T - #1.0) / $v_T) * (v_fwd_rates.[39] - v_rev_rates.[39]) + v_pres_mod.[10] / $v_T * ((v_fwd_rates.[39] - v_rev_rates.[39]) * #(-8.0000000000000004e-01) + v_fwd_rates.[39] * #(-1.0) - v_rev_rates.[39] * ((- $v_T) * (v_dBdT.[11] - v_dBdT.[1] - v_dBdT.[9])))) * $v_rho_inv));
  (*7778*) Do (AddA v_jac 2 ((- $v_j_temp) * #1.0079400000000001e+00));
  (*7779*) Do (Asn v_jac 12 ($v_j_temp * #1.5034820000000000e+01));
  (*7780*) Do (Asn v_jac 10 ((- $v_j_temp) * #1.4026879999999998e+01))].

(** [eval_jacob_1], yao/lib/src/jacobs/jacob_1.c:4-8471: the declarations and the blocks "partial of
    rxn ... wrt T" (the blocks "wrt species" write other elements of [jac]). *)
Definition yao_jac_T1 : list stmt := [
  (*6*) Do (Asn v_logT 0 ((Log $v_T)));
  (*7*) Do (Asn v_kf 0 (#0.0));
  (*8*) Do (Asn v_j_temp 0 (#0.0));
  (*9*) Do (Asn v_pres_mod_temp 0 (#0.0));
  (*10*) Do (Asn v_Kc 0 (#0.0));
  (*11*) Do (Asn v_kr 0 (#0.0));
  (*12*) Do (Asn v_Pr 0 (#0.0));
  (*13*) Do (Asn v_Fcent 0 (#0.0));
  (*14*) Do (Asn v_A 0 (#0.0));
  (*15*) Do (Asn v_B 0 (#0.0));
  (*16*) Do (Asn v_lnF_AB 0 (#0.0));
  (*17*) Do (Asn v_rho_inv 0 (#1.0 / $v_rho));
  (*19*) Do (Asn v_j_temp 0 (#1.0 / $v_T * (v_fwd_rates.[40] * #(-1.0) - v_rev_rates.[40] * (#(-1.0) + (- $v_T) * (v_dBdT.[1] + v_dBdT.[13] - v_dBdT.[9] - v_dBdT.[2]))) * $v_rho_inv));
  (*20*) Do (AddA v_jac 10 ((- $v_j_temp) * #1.4026879999999998e+01));
  (*21*) Do (AddA v_jac 3 ((- $v_j_temp) * #1.5999400000000000e+01));
  (*22*) Do (AddA v_jac 14 ($v_j_temp * #2.9018339999999998e+01));
  (*23*) Do (AddA v_jac 2 ($v_j_temp * #1.0079400000000001e+00));
  (*250*) Do (Asn v_j_temp 0 (#1.0 / $v_T * (v_fwd_rates.[41] * #(-1.0) - v_rev_rates.[41] * (#(-1.0) + (- $v_T) * (v_dBdT.[14] + v_dBdT.[1] - v_dBdT.[9] - v_dBdT.[3]))) * $v_rho_inv));
  (*251*) Do (AddA v_jac 10 ((- $v_j_temp) * #1.4026879999999998e+01));
  (*252*) Do (AddA v_jac 4 ((- $v_j_temp) * #1.7007339999999999e+01));
  (*253*) Do (AddA v_jac 15 ($v_j_temp * #3.0026280000000000e+01));
  (*254*) Do (AddA v_jac 2 ($v_j_temp * #1.0079400000000001e+00));
  (*481*) Do (Asn v_j_temp 0 (#1.0 / $v_T * ((v_fwd_rates.[42] - v_rev_rates.[42]) * (#2.0000000000000000e+00 + #3.6382774539317456e+03 / $v_T) + v_fwd_rates.[42] * #(-1.0) - v_rev_rates.[42] * (#(-1.0) + (- $v_T) * (v_dBdT.[1] + v_dBdT.[11] - v_dBdT.[5] - v_dBdT.[9]))) * $v_rho_inv));
  (*482*) Do (AddA v_jac 10 ((- $v_j_temp) * #1.4026879999999998e+01));
  (*483*) Do (AddA v_jac 12 ($v_j_temp * #1.5034820000000000e+01));
  (*484*) Do (AddA v_jac 6 ((- $v_j_temp) * #2.0158800000000001e+00));
  (*485*) Do (AddA v_jac 2 ($v_j_temp * #1.0079400000000001e+00));
  (*712*) Do (Asn v_j_temp 0 (#1.0 / $v_T * ((v_fwd_rates.[43] - v_rev_rates.[43]) * (#7.5482934728874397e+02 / $v_T) + v_fwd_rates.[43] * #(-1.0) - v_rev_rates.[43] * (#(-1.0) + (- $v_T) * (v_dBdT.[13] + v_dBdT.[3] - v_dBdT.[9] - v_dBdT.[8]))) * $v_rho_inv));
  (*713*) Do (AddA v_jac 9 ((- $v_j_temp) * #3.1998799999999999e+01));
  (*714*) Do (AddA v_jac 10 ((- $v_j_temp) * #1.4026879999999998e+01));
  (*715*) Do (AddA v_jac 4 ($v_j_temp * #1.7007339999999999e+01));
  (*716*) Do (AddA v_jac 14 ($v_j_temp * #2.9018339999999998e+01));
  (*943*) Do (Asn v_j_temp 0 (#1.0 / $v_T * ((v_fwd_rates.[44] - v_rev_rates.[44]) * (#7.5482934728874397e+02 / $v_T) + v_fwd_rates.[44] * #(-1.0) - v_rev_rates.[44] * (#(-2.0) + (- $v_T) * (#2.0 * v_dBdT.[1] + v_dBdT.[17] - v_dBdT.[9] - v_dBdT.[8]))) * $v_rho_inv));
  (*944*) Do (AddA v_jac 9 ((- $v_j_temp) * #3.1998799999999999e+01));
  (*945*) Do (AddA v_jac 10 ((- $v_j_temp) * #1.4026879999999998e+01));
  (*946*) Do (AddA v_jac 18 ($v_j_temp * #4.4009799999999998e+01));
  (*947*) Do (AddA v_jac 2 ($v_j_temp * #2.0 * #1.0079400000000001e+00));
  (*1174*) Do (Asn v_j_temp 0 (#1.0 / $v_T * (v_fwd_rates.[45] * #(-1.0) - v_rev_rates.[45] * (#(-1.0) + (- $v_T) * (v_dBdT.[14] + v_dBdT.[3] - v_dBdT.[9] - v_dBdT.[4]))) * $v_rho_inv));
  (*1175*) Do (AddA v_jac 10 ((- $v_j_temp) * #1.4026879999999998e+01));
  (*1176*) Do (AddA v_jac 4 ($v_j_temp * #1.7007339999999999e+01));
  (*1177*) Do (AddA v_jac 5 ((- $v_j_temp) * #3.3006740000000001e+01));
  (*1178*) Do (AddA v_jac 15 ($v_j_temp * #3.0026280000000000e+01));
  (*1405*) Do (Asn v_j_temp 0 (#1.0 / $v_T * (v_fwd_rates.[46] * #(-1.0) - v_rev_rates.[46] * (#(-1.0) + (- $v_T) * (v_dBdT.[5] + v_dBdT.[18] - #2.0 * v_dBdT.[9]))) * $v_rho_inv));
  (*1406*) Do (AddA v_jac 10 ($v_j_temp * #(-2.0) * #1.4026879999999998e+01));
  (*1407*) Do (Asn v_jac 19 ($v_j_temp * #2.6037879999999998e+01));
  (*1408*) Do (AddA v_jac 6 ($v_j_temp * #2.0158800000000001e+00));
  (*1582*) Do (Asn v_j_temp 0 (#1.0 / $v_T * ((v_fwd_rates.[47] - v_rev_rates.[47]) * (#3.0193173891549759e+02 / $v_T) + v_fwd_rates.[47] * #(-1.0) - v_rev_rates.[47] * (#(-1.0) + (- $v_T) * (v_dBdT.[9] - v_dBdT.[10]))) * $v_rho_inv));
  (*1583*) Do (AddA v_jac 10 ($v_j_temp * #1.4026879999999998e+01));
  (*1584*) Do (Asn v_jac 11 ((- $v_j_temp) * #1.4026879999999998e+01));
  (*1705*) Do (Asn v_j_temp 0 (#1.0 / $v_T * ((v_fwd_rates.[48] - v_rev_rates.[48]) * (#3.0193173891549759e+02 / $v_T) + v_fwd_rates.[48] * #(-1.0) - v_rev_rates.[48] * (#(-1.0) + (- $v_T) * (v_dBdT.[9] - v_dBdT.[10]))) * $v_rho_inv));
  (*1706*) Do (AddA v_jac 10 ($v_j_temp * #1.4026879999999998e+01));
  (*1707*) Do (AddA v_jac 11 ((- $v_j_temp) * #1.4026879999999998e+01));
  (*1828*) Do (Asn v_j_temp 0 (#1.0 / $v_T * (v_fwd_rates.[49] * #(-1.0) - v_rev_rates.[49] * (#(-1.0) + (- $v_T) * (v_dBdT.[5] + v_dBdT.[16] - v_dBdT.[10] - v_dBdT.[2]))) * $v_rho_inv));
  (*1829*) Do (AddA v_jac 17 ($v_j_temp * #2.8010399999999997e+01));
  (*1830*) Do (AddA v_jac 11 ((- $v_j_temp) * #1.4026879999999998e+01));
  (*1831*) Do (AddA v_jac 3 ((- $v_j_temp) * #1.5999400000000000e+01));
  (*1832*) Do (AddA v_jac 6 ($v_j_temp * #2.0158800000000001e+00));
  (*2059*) Do (Asn v_j_temp 0 (#1.0 / $v_T * (v_fwd_rates.[50] * #(-1.0) - v_rev_rates.[50] * (#(-1.0) + (- $v_T) * (v_dBdT.[1] + v_dBdT.[13] - v_dBdT.[10] - v_dBdT.[2]))) * $v_rho_inv));
  (*2060*) Do (AddA v_jac 2 ($v_j_temp * #1.0079400000000001e+00));
  (*2061*) Do (AddA v_jac 11 ((- $v_j_temp) * #1.4026879999999998e+01));
  (*2062*) Do (AddA v_jac 3 ((- $v_j_temp) * #1.5999400000000000e+01));
  (*2063*) Do (AddA v_jac 14 ($v_j_temp * #2.9018339999999998e+01));
  (*2290*) Do (Asn v_j_temp 0 (#1.0 / $v_T * (v_fwd_rates.[51] * #(-1.0) - v_rev_rates.[51] * (#(-1.0) + (- $v_T) * (v_dBdT.[14] + v_dBdT.[1] - v_dBdT.[10] - v_dBdT.[3]))) * $v_rho_inv));
  (*2291*) Do (AddA v_jac 2 ($v_j_temp * #1.0079400000000001e+00));
  (*2292*) Do (AddA v_jac 11 ((- $v_j_temp) * #1.4026879999999998e+01));
  (*2293*) Do (AddA v_jac 4 ((- $v_j_temp) * #1.7007339999999999e+01));
  (*2294*) Do (AddA v_jac 15 ($v_j_temp * #3.0026280000000000e+01));
  (*2521*) Do (Asn v_j_temp 0 (#1.0 / $v_T * (v_fwd_rates.[52] * #(-1.0) - v_rev_rates.[52] * (#(-1.0) + (- $v_T) * (v_dBdT.[1] + v_dBdT.[11] - v_dBdT.[5] - v_dBdT.[10]))) * $v_rho_inv));
  (*2522*) Do (AddA v_jac 2 ($v_j_temp * #1.0079400000000001e+00));
  (*2523*) Do (AddA v_jac 11 ((- $v_j_temp) * #1.4026879999999998e+01));
  (*2524*) Do (AddA v_jac 12 ($v_j_temp * #1.5034820000000000e+01));
  (*2525*) Do (AddA v_jac 6 ((- $v_j_temp) * #2.0158800000000001e+00));
  (*2752*) Do (Asn v_j_temp 0 (#1.0 / $v_T * (v_fwd_rates.[53] * #(-1.0) - v_rev_rates.[53] * (#(-2.0) + (- $v_T) * (v_dBdT.[1] + v_dBdT.[16] + v_dBdT.[3] - v_dBdT.[10] - v_dBdT.[8]))) * $v_rho_inv));
  (*2753*) Do (AddA v_jac 9 ((- $v_j_temp) * #3.1998799999999999e+01));
  (*2754*) Do (AddA v_jac 2 ($v_j_temp * #1.0079400000000001e+00));
  (*2755*) Do (AddA v_jac 11 ((- $v_j_temp) * #1.4026879999999998e+01));
  (*2756*) Do (AddA v_jac 4 ($v_j_temp * #1.7007339999999999e+01));
  (*2757*) Do (AddA v_jac 17 ($v_j_temp * #2.8010399999999997e+01));
  (*3037*) Do (Asn v_j_temp 0 (#1.0 / $v_T * (v_fwd_rates.[54] * #(-1.0) - v_rev_rates.[54] * (#(-1.0) + (- $v_T) * (v_dBdT.[6] + v_dBdT.[16] - v_dBdT.[10] - v_dBdT.[8]))) * $v_rho_inv));
  (*3038*) Do (AddA v_jac 9 ((- $v_j_temp) * #3.1998799999999999e+01));
  (*3039*) Do (AddA v_jac 17 ($v_j_temp * #2.8010399999999997e+01));
  (*3040*) Do (AddA v_jac 11 ((- $v_j_temp) * #1.4026879999999998e+01));
  (*3041*) Do (AddA v_jac 7 ($v_j_temp * #1.8015280000000001e+01));
  (*3268*) Do (Asn v_j_temp 0 (#1.0 / $v_T * (v_fwd_rates.[55] * #(-1.0) - v_rev_rates.[55] * (#(-1.0) + (- $v_T) * (v_dBdT.[9] - v_dBdT.[10]))) * $v_rho_inv));
  (*3269*) Do (AddA v_jac 10 ($v_j_temp * #1.4026879999999998e+01));
  (*3270*) Do (AddA v_jac 11 ((- $v_j_temp) * #1.4026879999999998e+01));
  (*3391*) Do (Asn v_j_temp 0 (#1.0 / $v_T * (v_fwd_rates.[56] * #(-1.0) - v_rev_rates.[56] * (#(-1.0) + (- $v_T) * (v_dBdT.[9] - v_dBdT.[10]))) * $v_rho_inv));
  (*3392*) Do (AddA v_jac 10 ($v_j_temp * #1.4026879999999998e+01));
  (*3393*) Do (AddA v_jac 11 ((- $v_j_temp) * #1.4026879999999998e+01));
  (*3514*) Do (Asn v_j_temp 0 (#1.0 / $v_T * (v_fwd_rates.[57] * #(-1.0) - v_rev_rates.[57] * (#(-1.0) + (- $v_T) * (v_dBdT.[9] - v_dBdT.[10]))) * $v_rho_inv));
  (*3515*) Do (AddA v_jac 11 ((- $v_j_temp) * #1.4026879999999998e+01));
  (*3516*) Do (AddA v_jac 10 ($v_j_temp * #1.4026879999999998e+01));
  (*3637*) Do (Asn v_j_temp 0 (#1.0 / $v_T * (v_fwd_rates.[58] * #(-1.0) - v_rev_rates.[58] * (#(-1.0) + (- $v_T) * (v_dBdT.[14] + v_dBdT.[16] - v_dBdT.[17] - v_dBdT.[10]))) * $v_rho_inv));
  (*3638*) Do (AddA v_jac 17 ($v_j_temp * #2.8010399999999997e+01));
  (*3639*) Do (AddA v_jac 18 ((- $v_j_temp) * #4.4009799999999998e+01));
  (*3640*) Do (AddA v_jac 11 ((- $v_j_temp) * #1.4026879999999998e+01));
  (*3641*) Do (AddA v_jac 15 ($v_j_temp * #3.0026280000000000e+01));
  (*3868*) Do (Asn v_conc_temp 0 ($v_m + #1.0 * v_conc.[5] + #5.0 * v_conc.[6] + #1.0 * v_conc.[12] + #0.5 * v_conc.[16] + #1.0 * v_conc.[17] + #2.0 * v_conc.[22]));
  (*3869*) Do (Asn v_Pr 0 ($v_conc_temp * (Exp (#3.5943419894698771e+01 - #5.254 * $v_logT - #1.4895299119831213e+03 / $v_T))));
  (*3870*) Do (Asn v_Fcent 0 (#2.4199999999999999e-01 * (Exp ($v_T / #(-9.4000000000000000e+01))) + #7.5800000000000001e-01 * (Exp ($v_T / #(-1.5550000000000000e+03))) + (Exp (#(-4.2000000000000000e+03) / $v_T))));
  (*3871*) Do (Asn v_A 0 ((Log10 (Fmax $v_Pr #1.0e-300)) - #0.67 * (Log10 (Fmax $v_Fcent #1.0e-300)) - #0.4));
  (*3872*) Do (Asn v_B 0 (#0.806 - #1.1762 * (Log10 (Fmax $v_Fcent #1.0e-300)) - #0.14 * (Log10 (Fmax $v_Pr #1.0e-300))));
  (*3873*) Do (Asn v_lnF_AB 0 (#2.0 * (Log (Fmax $v_Fcent #1.0e-300)) * $v_A / ($v_B * $v_B * $v_B * (#1.0 + $v_A * $v_A / ($v_B * $v_B)) * (#1.0 + $v_A * $v_A / ($v_B * $v_B)))));
  (*3874*) Do (Asn v_j_temp 0 ((v_pres_mod.[11] * ((#(-5.2540e+00) + #1.4895299119831213e+03 / $v_T - #1.0) / ($v_T * (#1.0 + $v_Pr)) + (#1.0 / ($v_Fcent * (#1.0 + $v_A * $v_A / ($v_B * $v_B))) - $v_lnF_AB * (#(-2.9097730287517870e-01) * $v_B + #5.1081716961460466e-01 * $v_A) / $v_Fcent) * (#(-2.5744680851063828e-03) * (Exp ($v_T / #(-9.4000000000000000e+01))) - #4.8745980707395501e-04 * (Exp ($v_T / #(-1.5550000000000000e+03))) + #4.2000000000000000e+03 / ($v_T * $v_T) * (Exp (#(-4.2000000000000000e+03) / $v_T))) - $v_lnF_AB * (#4.3429448190325176e-01 * $v_B + #6.0801227466455256e-02 * $v_A) * (#(-5.2539999999999996e+00) + #1.4895299119831213e+03 / $v_T - #1.0) / $v_T) * (v_fwd_rates.[59] - v_rev_rates.[59]) + v_pres_mod.[11] / $v_T * ((v_fwd_rates.[59] - v_rev_rates.[59]) * (#4.5400000000000001e-01 + #1.3083708686338230e+03 / $v_T) + v_fwd_rates.[59] * #(-1.0) - v_rev_rates.[59] * ((- $v_T) * (v_dBdT.[15] - v_dBdT.[14] - v_dBdT.[1])))) * $v_rho_inv));
  (*3875*) Do (AddA v_jac 2 ((- $v_j_temp) * #1.0079400000000001e+00));
  (*3876*) Do (AddA v_jac 15 ((- $v_j_temp) * #3.0026280000000000e+01));
  (*3877*) Do (Asn v_jac 16 ($v_j_temp * #3.1034219999999998e+01));
  (*4053*) Do (Asn v_j_temp 0 (#1.0 / $v_T * ((v_fwd_rates.[60] - v_rev_rates.[60]) * (#1.0500000000000000e+00 + #1.6480440749137576e+03 / $v_T) + v_fwd_rates.[60] * #(-1.0) - v_rev_rates.[60] * (#(-1.0) + (- $v_T) * (v_dBdT.[5] + v_dBdT.[13] - v_dBdT.[14] - v_dBdT.[1]))) * $v_rho_inv));
  (*4054*) Do (AddA v_jac 2 ((- $v_j_temp) * #1.0079400000000001e+00));
  (*4055*) Do (AddA v_jac 6 ($v_j_temp * #2.0158800000000001e+00));
  (*4056*) Do (AddA v_jac 15 ((- $v_j_temp) * #3.0026280000000000e+01));
  (*4057*) Do (AddA v_jac 14 ($v_j_temp * #2.9018339999999998e+01));
  (*4284*) Do (Asn v_j_temp 0 (#1.0 / $v_T * ((v_fwd_rates.[61] - v_rev_rates.[61]) * (#1.7813972596014357e+03 / $v_T) + v_fwd_rates.[61] * #(-1.0) - v_rev_rates.[61] * (#(-1.0) + (- $v_T) * (v_dBdT.[13] + v_dBdT.[3] - v_dBdT.[14] - v_dBdT.[2]))) * $v_rho_inv));
  (*4285*) Do (AddA v_jac 3 ((- $v_j_temp) * #1.5999400000000000e+01));
  (*4286*) Do (AddA v_jac 4 ($v_j_temp * #1.7007339999999999e+01));
  (*4287*) Do (AddA v_jac 14 ($v_j_temp * #2.9018339999999998e+01));
  (*4288*) Do (AddA v_jac 15 ((- $v_j_temp) * #3.0026280000000000e+01));
  (*4515*) Do (Asn v_j_temp 0 (#1.0 / $v_T * ((v_fwd_rates.[62] - v_rev_rates.[62]) * (#1.1799999999999999e+00 + #(-2.2493914549204570e+02) / $v_T) + v_fwd_rates.[62] * #(-1.0) - v_rev_rates.[62] * (#(-1.0) + (- $v_T) * (v_dBdT.[6] + v_dBdT.[13] - v_dBdT.[14] - v_dBdT.[3]))) * $v_rho_inv));
  (*4516*) Do (AddA v_jac 4 ((- $v_j_temp) * #1.7007339999999999e+01));
  (*4517*) Do (AddA v_jac 7 ($v_j_temp * #1.8015280000000001e+01));
  (*4518*) Do (AddA v_jac 15 ((- $v_j_temp) * #3.0026280000000000e+01));
  (*4519*) Do (AddA v_jac 14 ($v_j_temp * #2.9018339999999998e+01));
  (*4746*) Do (Asn v_j_temp 0 (#1.0 / $v_T * ((v_fwd_rates.[63] - v_rev_rates.[63]) * (#2.0128782594366505e+04 / $v_T) + v_fwd_rates.[63] * #(-1.0) - v_rev_rates.[63] * (#(-1.0) + (- $v_T) * (v_dBdT.[4] + v_dBdT.[13] - v_dBdT.[14] - v_dBdT.[8]))) * $v_rho_inv));
  (*4747*) Do (AddA v_jac 9 ((- $v_j_temp) * #3.1998799999999999e+01));
  (*4748*) Do (AddA v_jac 5 ($v_j_temp * #3.3006740000000001e+01));
  (*4749*) Do (AddA v_jac 14 ($v_j_temp * #2.9018339999999998e+01));
  (*4750*) Do (AddA v_jac 15 ((- $v_j_temp) * #3.0026280000000000e+01));
  (*4977*) Do (Asn v_j_temp 0 (#1.0 / $v_T * ((v_fwd_rates.[64] - v_rev_rates.[64]) * (#4.0257565188733010e+03 / $v_T) + v_fwd_rates.[64] * #(-1.0) - v_rev_rates.[64] * (#(-1.0) + (- $v_T) * (v_dBdT.[7] + v_dBdT.[13] - v_dBdT.[14] - v_dBdT.[4]))) * $v_rho_inv));
  (*4978*) Do (AddA v_jac 5 ((- $v_j_temp) * #3.3006740000000001e+01));
  (*4979*) Do (AddA v_jac 14 ($v_j_temp * #2.9018339999999998e+01));
  (*4980*) Do (AddA v_jac 15 ((- $v_j_temp) * #3.0026280000000000e+01));
  (*4981*) Do (AddA v_jac 8 ($v_j_temp * #3.4014679999999998e+01));
  (*5208*) Do (AddA v_conc_temp 0 (#(-0.3) * v_conc.[0]));
  (*5209*) Do (Asn v_Pr 0 ($v_conc_temp * (Exp (#3.2904222551953360e+01 - #4.13 * $v_logT - #1.0351226449152975e+03 / $v_T))));
  (*5210*) Do (Asn v_Fcent 0 (#2.1699999999999997e-01 * (Exp ($v_T / #(-7.4000000000000000e+01))) + #7.8300000000000003e-01 * (Exp ($v_T / #(-2.9410000000000000e+03))) + (Exp (#(-6.9640000000000000e+03) / $v_T))));
  (*5211*) Do (Asn v_A 0 ((Log10 (Fmax $v_Pr #1.0e-300)) - #0.67 * (Log10 (Fmax $v_Fcent #1.0e-300)) - #0.4));
  (*5212*) Do (Asn v_B 0 (#0.806 - #1.1762 * (Log10 (Fmax $v_Fcent #1.0e-300)) - #0.14 * (Log10 (Fmax $v_Pr #1.0e-300))));
  (*5213*) Do (Asn v_lnF_AB 0 (#2.0 * (Log (Fmax $v_Fcent #1.0e-300)) * $v_A / ($v_B * $v_B * $v_B * (#1.0 + $v_A * $v_A / ($v_B * $v_B)) * (#1.0 + $v_A * $v_A / ($v_B * $v_B)))));
  (*5214*) Do (Asn v_j_temp 0 ((v_pres_mod.[12] * ((#(-4.1300e+00) + #1.0351226449152975e+03 / $v_T - #1.0) / ($v_T * (#1.0 + $v_Pr)) + (#1.0 / ($v_Fcent * (#1.0 + $v_A * $v_A / ($v_B * $v_B))) - $v_lnF_AB * (#(-2.9097730287517870e-01) * $v_B + #5.1081716961460466e-01 * $v_A) / $v_Fcent) * (#(-2.9324324324324319e-03) * (Exp ($v_T / #(-7.4000000000000000e+01))) - #2.6623597415844952e-04 * (Exp ($v_T / #(-2.9410000000000000e+03))) + #6.9640000000000000e+03 / ($v_T * $v_T) * (Exp (#(-6.9640000000000000e+03) / $v_T))) - $v_lnF_AB * (#4.3429448190325176e-01 * $v_B + #6.0801227466455256e-02 * $v_A) * (#(-4.1299999999999999e+00) + #1.0351226449152975e+03 / $v_T - #1.0) / $v_T) * (v_fwd_rates.[65] - v_rev_rates.[65]) + v_pres_mod.[12] / $v_T * ((v_fwd_rates.[65] - v_rev_rates.[65]) * (#(-6.3000000000000000e-01) + #1.9273309334105929e+02 / $v_T) + v_fwd_rates.[65] * #(-1.0) - v_rev_rates.[65] * ((- $v_T) * (v_dBdT.[12] - v_dBdT.[1] - v_dBdT.[11])))) * $v_rho_inv));
  (*5215*) Do (AddA v_jac 2 ((- $v_j_temp) * #1.0079400000000001e+00));
  (*5216*) Do (AddA v_jac 12 ((- $v_j_temp) * #1.5034820000000000e+01));
  (*5217*) Do (Asn v_jac 13 ($v_j_temp * #1.6042760000000001e+01));
  (*5393*) Do (Asn v_j_temp 0 (#1.0 / $v_T * (v_fwd_rates.[66] * #(-1.0) - v_rev_rates.[66] * (#(-1.0) + (- $v_T) * (v_dBdT.[14] + v_dBdT.[1] - v_dBdT.[11] - v_dBdT.[2]))) * $v_rho_inv));
  (*5394*) Do (AddA v_jac 2 ($v_j_temp * #1.0079400000000001e+00));
  (*5395*) Do (AddA v_jac 3 ((- $v_j_temp) * #1.5999400000000000e+01));
  (*5396*) Do (AddA v_jac 12 ((- $v_j_temp) * #1.5034820000000000e+01));
  (*5397*) Do (AddA v_jac 15 ($v_j_temp * #3.0026280000000000e+01));
  (*5624*) Do (Asn v_j_temp 0 (#1.0 / $v_T * ((v_fwd_rates.[67] - v_rev_rates.[67]) * (#1.6000000000000001e+00 + #2.7274500415366615e+03 / $v_T) + v_fwd_rates.[67] * #(-1.0) - v_rev_rates.[67] * (#(-1.0) + (- $v_T) * (v_dBdT.[9] + v_dBdT.[6] - v_dBdT.[11] - v_dBdT.[3]))) * $v_rho_inv));
  (*5625*) Do (AddA v_jac 4 ((- $v_j_temp) * #1.7007339999999999e+01));
  (*5626*) Do (AddA v_jac 10 ($v_j_temp * #1.4026879999999998e+01));
  (*5627*) Do (AddA v_jac 12 ((- $v_j_temp) * #1.5034820000000000e+01));
  (*5628*) Do (AddA v_jac 7 ($v_j_temp * #1.8015280000000001e+01));
  (*5855*) Do (Asn v_j_temp 0 (#1.0 / $v_T * (v_fwd_rates.[68] * #(-1.0) - v_rev_rates.[68] * (#(-1.0) + (- $v_T) * (v_dBdT.[6] + v_dBdT.[10] - v_dBdT.[11] - v_dBdT.[3]))) * $v_rho_inv));
  (*5856*) Do (AddA v_jac 4 ((- $v_j_temp) * #1.7007339999999999e+01));
  (*5857*) Do (AddA v_jac 11 ($v_j_temp * #1.4026879999999998e+01));
  (*5858*) Do (AddA v_jac 12 ((- $v_j_temp) * #1.5034820000000000e+01));
  (*5859*) Do (AddA v_jac 7 ($v_j_temp * #1.8015280000000001e+01));
  (*6086*) Do (Asn v_j_temp 0 (#1.0 / $v_T * ((v_fwd_rates.[69] - v_rev_rates.[69]) * (#1.4492723467943884e+04 / $v_T) + v_fwd_rates.[69] * #(-1.0) - v_rev_rates.[69] * (#(-1.0) + (- $v_T) * (v_dBdT.[15] + v_dBdT.[2] - v_dBdT.[11] - v_dBdT.[8]))) * $v_rho_inv));
  (*6087*) Do (AddA v_jac 9 ((- $v_j_temp) * #3.1998799999999999e+01));
  (*6088*) Do (AddA v_jac 3 ($v_j_temp * #1.5999400000000000e+01));
  (*6089*) Do (AddA v_jac 12 ((- $v_j_temp) * #1.5034820000000000e+01));
  (*6090*) Do (AddA v_jac 16 ($v_j_temp * #3.1034219999999998e+01));
  (*6317*) Do (Asn v_j_temp 0 (#1.0 / $v_T * ((v_fwd_rates.[70] - v_rev_rates.[70]) * (#4.4987829098409138e+03 / $v_T) + v_fwd_rates.[70] * #(-1.0) - v_rev_rates.[70] * (#(-1.0) + (- $v_T) * (v_dBdT.[14] + v_dBdT.[3] - v_dBdT.[11] - v_dBdT.[8]))) * $v_rho_inv));
  (*6318*) Do (AddA v_jac 9 ((- $v_j_temp) * #3.1998799999999999e+01));
  (*6319*) Do (AddA v_jac 4 ($v_j_temp * #1.7007339999999999e+01));
  (*6320*) Do (AddA v_jac 12 ((- $v_j_temp) * #1.5034820000000000e+01));
  (*6321*) Do (AddA v_jac 15 ($v_j_temp * #3.0026280000000000e+01));
  (*6548*) Do (Asn v_j_temp 0 (#1.0 / $v_T * (v_fwd_rates.[71] * #(-1.0) - v_rev_rates.[71] * (#(-1.0) + (- $v_T) * (v_dBdT.[12] + v_dBdT.[8] - v_dBdT.[11] - v_dBdT.[4]))) * $v_rho_inv));
  (*6549*) Do (AddA v_jac 9 ($v_j_temp * #3.1998799999999999e+01));
  (*6550*) Do (AddA v_jac 13 ($v_j_temp * #1.6042760000000001e+01));
  (*6551*) Do (AddA v_jac 12 ((- $v_j_temp) * #1.5034820000000000e+01));
  (*6552*) Do (AddA v_jac 5 ((- $v_j_temp) * #3.3006740000000001e+01));
  (*6779*) Do (Asn v_j_temp 0 (#1.0 / $v_T * (v_fwd_rates.[72] * #(-1.0) - v_rev_rates.[72] * (#(-1.0) + (- $v_T) * (v_dBdT.[15] + v_dBdT.[3] - v_dBdT.[11] - v_dBdT.[4]))) * $v_rho_inv));
  (*6780*) Do (AddA v_jac 4 ($v_j_temp * #1.7007339999999999e+01));
  (*6781*) Do (AddA v_jac 12 ((- $v_j_temp) * #1.5034820000000000e+01));
  (*6782*) Do (AddA v_jac 5 ((- $v_j_temp) * #3.3006740000000001e+01));
  (*6783*) Do (AddA v_jac 16 ($v_j_temp * #3.1034219999999998e+01));
  (*7010*) Do (Asn v_j_temp 0 (#1.0 / $v_T * ((v_fwd_rates.[73] - v_rev_rates.[73]) * (#2.4700000000000002e+00 + #2.6066773459704623e+03 / $v_T) + v_fwd_rates.[73] * #(-1.0) - v_rev_rates.[73] * (#(-1.0) + (- $v_T) * (v_dBdT.[12] + v_dBdT.[4] - v_dBdT.[11] - v_dBdT.[7]))) * $v_rho_inv));
  (*7011*) Do (AddA v_jac 5 ($v_j_temp * #3.3006740000000001e+01));
  (*7012*) Do (AddA v_jac 12 ((- $v_j_temp) * #1.5034820000000000e+01));
  (*7013*) Do (AddA v_jac 13 ($v_j_temp * #1.6042760000000001e+01));
  (*7014*) Do (AddA v_jac 8 ((- $v_j_temp) * #3.4014679999999998e+01));
  (*7241*) Do (Asn v_j_temp 0 (#1.0 / $v_T * (v_fwd_rates.[74] * #(-1.0) - v_rev_rates.[74] * (#(-1.0) + (- $v_T) * (v_dBdT.[12] + v_dBdT.[16] - v_dBdT.[11] - v_dBdT.[13]))) * $v_rho_inv));
  (*7242*) Do (AddA v_jac 17 ($v_j_temp * #2.8010399999999997e+01));
  (*7243*) Do (AddA v_jac 12 ((- $v_j_temp) * #1.5034820000000000e+01));
  (*7244*) Do (AddA v_jac 13 ($v_j_temp * #1.6042760000000001e+01));
  (*7245*) Do (AddA v_jac 14 ((- $v_j_temp) * #2.9018339999999998e+01));
  (*7472*) Do (Asn v_j_temp 0 (#1.0 / $v_T * ((v_fwd_rates.[75] - v_rev_rates.[75]) * (#2.8100000000000001e+00 + #2.9488666500746931e+03 / $v_T) + v_fwd_rates.[75] * #(-1.0) - v_rev_rates.[75] * (#(-1.0) + (- $v_T) * (v_dBdT.[12] + v_dBdT.[13] - v_dBdT.[14] - v_dBdT.[11]))) * $v_rho_inv));
  (*7473*) Do (AddA v_jac 12 ((- $v_j_temp) * #1.5034820000000000e+01));
  (*7474*) Do (AddA v_jac 13 ($v_j_temp * #1.6042760000000001e+01));
  (*7475*) Do (AddA v_jac 14 ($v_j_temp * #2.9018339999999998e+01));
  (*7476*) Do (AddA v_jac 15 ((- $v_j_temp) * #3.0026280000000000e+01));
  (*7703*) Do (Asn v_j_temp 0 (#1.0 / $v_T * (v_fwd_rates.[76] * #(-1.0) - v_rev_rates.[76] * (#(-1.0) + (- $v_T) * (v_dBdT.[1] + v_dBdT.[20] - v_dBdT.[9] - v_dBdT.[11]))) * $v_rho_inv));
  (*7704*) Do (AddA v_jac 10 ((- $v_j_temp) * #1.4026879999999998e+01));
  (*7705*) Do (AddA v_jac 12 ((- $v_j_temp) * #1.5034820000000000e+01));
  (*7706*) Do (Asn v_jac 21 ($v_j_temp * #2.8053759999999997e+01));
  (*7707*) Do (AddA v_jac 2 ($v_j_temp * #1.0079400000000001e+00));
  (*7934*) Do (Asn v_j_temp 0 (#1.0 / $v_T * ((v_fwd_rates.[77] - v_rev_rates.[77]) * (#(-2.8683515196972269e+02) / $v_T) + v_fwd_rates.[77] * #(-1.0) - v_rev_rates.[77] * (#(-1.0) + (- $v_T) * (v_dBdT.[1] + v_dBdT.[20] - v_dBdT.[11] - v_dBdT.[10]))) * $v_rho_inv));
  (*7935*) Do (AddA v_jac 2 ($v_j_temp * #1.0079400000000001e+00));
  (*7936*) Do (AddA v_jac 11 ((- $v_j_temp) * #1.4026879999999998e+01));
  (*7937*) Do (AddA v_jac 12 ((- $v_j_temp) * #1.5034820000000000e+01));
  (*7938*) Do (AddA v_jac 21 ($v_j_temp * #2.8053759999999997e+01));
  (*8165*) Do (Asn v_Pr 0 ($v_conc_temp * (Exp (#7.1199701340717226e+01 - #8.7 * $v_logT - #2.8180295632113107e+03 / $v_T))));
  (*8166*) Do (Asn v_Fcent 0 (#4.6750000000000003e-01 * (Exp ($v_T / #(-1.5100000000000000e+02))) + #5.3249999999999997e-01 * (Exp ($v_T / #(-1.0380000000000000e+03))) + (Exp (#(-4.9700000000000000e+03) / $v_T))));
  (*8167*) Do (Asn v_A 0 ((Log10 (Fmax $v_Pr #1.0e-300)) - #0.67 * (Log10 (Fmax $v_Fcent #1.0e-300)) - #0.4));
  (*8168*) Do (Asn v_B 0 (#0.806 - #1.1762 * (Log10 (Fmax $v_Fcent #1.0e-300)) - #0.14 * (Log10 (Fmax $v_Pr #1.0e-300))));
  (*8169*) Do (Asn v_lnF_AB 0 (#2.0 * (Log (Fmax $v_Fcent #1.0e-300)) * $v_A / ($v_B * $v_B * $v_B * (#1.0 + $v_A * $v_A / ($v_B * $v_B)) * (#1.0 + $v_A * $v_A / ($v_B * $v_B)))));
  (*8170*) Do (Asn v_j_temp 0 ((v_pres_mod.[13] * ((#(-8.7000e+00) + #2.8180295632113107e+03 / $v_T - #1.0) / ($v_T * (#1.0 + $v_Pr)) + (#1.0 / ($v_Fcent * (#1.0 + $v_A * $v_A / ($v_B * $v_B))) - $v_lnF_AB * (#(-2.9097730287517870e-01) * $v_B + #5.1081716961460466e-01 * $v_A) / $v_Fcent) * (#(-3.0960264900662254e-03) * (Exp ($v_T / #(-1.5100000000000000e+02))) - #5.1300578034682077e-04 * (Exp ($v_T / #(-1.0380000000000000e+03))) + #4.9700000000000000e+03 / ($v_T * $v_T) * (Exp (#(-4.9700000000000000e+03) / $v_T))) - $v_lnF_AB * (#4.3429448190325176e-01 * $v_B + #6.0801227466455256e-02 * $v_A) * (#(-8.6999999999999993e+00) + #2.8180295632113107e+03 / $v_T - #1.0) / $v_T) * (v_fwd_rates.[78] - v_rev_rates.[78]) + v_pres_mod.[13] / $v_T * ((v_fwd_rates.[78] - v_rev_rates.[78]) * (#(-9.6999999999999997e-01) + #3.1199613021268084e+02 / $v_T) + v_fwd_rates.[78] * #(-1.0) - v_rev_rates.[78] * ((- $v_T) * (v_dBdT.[22] - #2.0 * v_dBdT.[11])))) * $v_rho_inv));
  (*8171*) Do (AddA v_jac 12 ($v_j_temp * #(-2.0) * #1.5034820000000000e+01));
  (*8172*) Do (Asn v_jac 23 ($v_j_temp * #3.0069640000000000e+01));
  (*8295*) Do (Asn v_j_temp 0 (#1.0 / $v_T * ((v_fwd_rates.[79] - v_rev_rates.[79]) * (#1.0000000000000001e-01 + #5.3341273875071238e+03 / $v_T) + v_fwd_rates.[79] * #(-1.0) - v_rev_rates.[79] * (#(-1.0) + (- $v_T) * (v_dBdT.[1] + v_dBdT.[21] - #2.0 * v_dBdT.[11]))) * $v_rho_inv));
  (*8296*) Do (AddA v_jac 2 ($v_j_temp * #1.0079400000000001e+00));
  (*8297*) Do (AddA v_jac 12 ($v_j_temp * #(-2.0) * #1.5034820000000000e+01));
  (*8298*) Do (Asn v_jac 22 ($v_j_temp * #2.9061699999999998e+01))].

(** [eval_jacob_2], yao/lib/src/jacobs/jacob_2.c:4-8802: the declarations and the blocks "partial of
    rxn ... wrt T" (the blocks "wrt species" write other elements of [jac]). *)
Definition yao_jac_T2 : list stmt := [
  (*6*) Do (Asn v_logT 0 ((Log $v_T)));
  (*7*) Do (Asn v_kf 0 (#0.0));
  (*8*) Do (Asn v_j_temp 0 (#0.0));
  (*9*) Do (Asn v_pres_mod_temp 0 (#0.0));
  (*10*) Do (Asn v_Kc 0 (#0.0));
  (*11*) Do (Asn v_kr 0 (#0.0));
  (*12*) Do (Asn v_Pr 0 (#0.0));
  (*13*) Do (Asn v_Fcent 0 (#0.0));
  (*14*) Do (Asn v_A 0 (#0.0));
  (*15*) Do (Asn v_B 0 (#0.0));
  (*16*) Do (Asn v_lnF_AB 0 (#0.0));
  (*17*) Do (Asn v_rho_inv 0 (#1.0 / $v_rho));
  (*19*) Do (Asn v_j_temp 0 (#1.0 / $v_T * (v_fwd_rates.[80] * #(-1.0) - v_rev_rates.[80] * (#(-1.0) + (- $v_T) * (v_dBdT.[14] + v_dBdT.[5] - v_dBdT.[1] - v_dBdT.[15]))) * $v_rho_inv));
  (*20*) Do (AddA v_jac 2 ((- $v_j_temp) * #1.0079400000000001e+00));
  (*21*) Do (AddA v_jac 6 ($v_j_temp * #2.0158800000000001e+00));
  (*22*) Do (AddA v_jac 15 ($v_j_temp * #3.0026280000000000e+01));
  (*23*) Do (AddA v_jac 16 ((- $v_j_temp) * #3.1034219999999998e+01));
  (*250*) Do (Asn v_j_temp 0 (#1.0 / $v_T * (v_fwd_rates.[81] * #(-1.0) - v_rev_rates.[81] * (#(-1.0) + (- $v_T) * (v_dBdT.[11] + v_dBdT.[3] - v_dBdT.[1] - v_dBdT.[15]))) * $v_rho_inv));
  (*251*) Do (AddA v_jac 4 ($v_j_temp * #1.7007339999999999e+01));
  (*252*) Do (AddA v_jac 2 ((- $v_j_temp) * #1.0079400000000001e+00));
  (*253*) Do (AddA v_jac 12 ($v_j_temp * #1.5034820000000000e+01));
  (*254*) Do (AddA v_jac 16 ((- $v_j_temp) * #3.1034219999999998e+01));
  (*481*) Do (Asn v_j_temp 0 (#1.0 / $v_T * (v_fwd_rates.[82] * #(-1.0) - v_rev_rates.[82] * (#(-1.0) + (- $v_T) * (v_dBdT.[6] + v_dBdT.[10] - v_dBdT.[1] - v_dBdT.[15]))) * $v_rho_inv));
  (*482*) Do (AddA v_jac 2 ((- $v_j_temp) * #1.0079400000000001e+00));
  (*483*) Do (AddA v_jac 11 ($v_j_temp * #1.4026879999999998e+01));
  (*484*) Do (AddA v_jac 7 ($v_j_temp * #1.8015280000000001e+01));
  (*485*) Do (AddA v_jac 16 ((- $v_j_temp) * #3.1034219999999998e+01));
  (*712*) Do (Asn v_j_temp 0 (#1.0 / $v_T * (v_fwd_rates.[83] * #(-1.0) - v_rev_rates.[83] * (#(-1.0) + (- $v_T) * (v_dBdT.[14] + v_dBdT.[3] - v_dBdT.[15] - v_dBdT.[2]))) * $v_rho_inv));
  (*713*) Do (AddA v_jac 3 ((- $v_j_temp) * #1.5999400000000000e+01));
  (*714*) Do (AddA v_jac 4 ($v_j_temp * #1.7007339999999999e+01));
  (*715*) Do (AddA v_jac 15 ($v_j_temp * #3.0026280000000000e+01));
  (*716*) Do (AddA v_jac 16 ((- $v_j_temp) * #3.1034219999999998e+01));
  (*943*) Do (Asn v_j_temp 0 (#1.0 / $v_T * (v_fwd_rates.[84] * #(-1.0) - v_rev_rates.[84] * (#(-1.0) + (- $v_T) * (v_dBdT.[14] + v_dBdT.[6] - v_dBdT.[15] - v_dBdT.[3]))) * $v_rho_inv));
  (*944*) Do (AddA v_jac 4 ((- $v_j_temp) * #1.7007339999999999e+01));
  (*945*) Do (AddA v_jac 7 ($v_j_temp * #1.8015280000000001e+01));
  (*946*) Do (AddA v_jac 15 ($v_j_temp * #3.0026280000000000e+01));
  (*947*) Do (AddA v_jac 16 ((- $v_j_temp) * #3.1034219999999998e+01));
  (*1174*) Do (Asn v_j_temp 0 (#1.0 / $v_T * ((v_fwd_rates.[85] - v_rev_rates.[85]) * (#7.5999999999999996e+00 + #(-1.7763650639528441e+03) / $v_T) + v_fwd_rates.[85] * #(-1.0) - v_rev_rates.[85] * (#(-1.0) + (- $v_T) * (v_dBdT.[14] + v_dBdT.[4] - v_dBdT.[15] - v_dBdT.[8]))) * $v_rho_inv));
  (*1175*) Do (AddA v_jac 9 ((- $v_j_temp) * #3.1998799999999999e+01));
  (*1176*) Do (AddA v_jac 5 ($v_j_temp * #3.3006740000000001e+01));
  (*1177*) Do (AddA v_jac 15 ($v_j_temp * #3.0026280000000000e+01));
  (*1178*) Do (AddA v_jac 16 ((- $v_j_temp) * #3.1034219999999998e+01));
  (*1405*) Do (Asn v_j_temp 0 (#1.0 / $v_T * ((v_fwd_rates.[86] - v_rev_rates.[86]) * (#1.6200000000000001e+00 + #5.4549000830733230e+03 / $v_T) + v_fwd_rates.[86] * #(-1.0) - v_rev_rates.[86] * (#(-1.0) + (- $v_T) * (v_dBdT.[5] + v_dBdT.[11] - v_dBdT.[1] - v_dBdT.[12]))) * $v_rho_inv));
  (*1406*) Do (AddA v_jac 2 ((- $v_j_temp) * #1.0079400000000001e+00));
  (*1407*) Do (AddA v_jac 12 ($v_j_temp * #1.5034820000000000e+01));
  (*1408*) Do (AddA v_jac 13 ((- $v_j_temp) * #1.6042760000000001e+01));
  (*1409*) Do (AddA v_jac 6 ($v_j_temp * #2.0158800000000001e+00));
  (*1636*) Do (Asn v_j_temp 0 (#1.0 / $v_T * ((v_fwd_rates.[87] - v_rev_rates.[87]) * (#1.5000000000000000e+00 + #4.3276882577887991e+03 / $v_T) + v_fwd_rates.[87] * #(-1.0) - v_rev_rates.[87] * (#(-1.0) + (- $v_T) * (v_dBdT.[11] + v_dBdT.[3] - v_dBdT.[12] - v_dBdT.[2]))) * $v_rho_inv));
  (*1637*) Do (AddA v_jac 4 ($v_j_temp * #1.7007339999999999e+01));
  (*1638*) Do (AddA v_jac 3 ((- $v_j_temp) * #1.5999400000000000e+01));
  (*1639*) Do (AddA v_jac 12 ($v_j_temp * #1.5034820000000000e+01));
  (*1640*) Do (AddA v_jac 13 ((- $v_j_temp) * #1.6042760000000001e+01));
  (*1867*) Do (Asn v_j_temp 0 (#1.0 / $v_T * ((v_fwd_rates.[88] - v_rev_rates.[88]) * (#1.6000000000000001e+00 + #1.5700450423605873e+03 / $v_T) + v_fwd_rates.[88] * #(-1.0) - v_rev_rates.[88] * (#(-1.0) + (- $v_T) * (v_dBdT.[6] + v_dBdT.[11] - v_dBdT.[12] - v_dBdT.[3]))) * $v_rho_inv));
  (*1868*) Do (AddA v_jac 12 ($v_j_temp * #1.5034820000000000e+01));
  (*1869*) Do (AddA v_jac 4 ((- $v_j_temp) * #1.7007339999999999e+01));
  (*1870*) Do (AddA v_jac 13 ((- $v_j_temp) * #1.6042760000000001e+01));
  (*1871*) Do (AddA v_jac 7 ($v_j_temp * #1.8015280000000001e+01));
  (*2098*) Do (Asn v_j_temp 0 (#1.0 / $v_T * ((v_fwd_rates.[89] - v_rev_rates.[89]) * (#2.0000000000000000e+00 + #4.1616258013852748e+03 / $v_T) + v_fwd_rates.[89] * #(-1.0) - v_rev_rates.[89] * (#(-1.0) + (- $v_T) * (#2.0 * v_dBdT.[11] - v_dBdT.[9] - v_dBdT.[12]))) * $v_rho_inv));
  (*2099*) Do (AddA v_jac 10 ((- $v_j_temp) * #1.4026879999999998e+01));
  (*2100*) Do (AddA v_jac 12 ($v_j_temp * #2.0 * #1.5034820000000000e+01));
  (*2101*) Do (AddA v_jac 13 ((- $v_j_temp) * #1.6042760000000001e+01));
  (*2275*) Do (Asn v_j_temp 0 (#1.0 / $v_T * ((v_fwd_rates.[90] - v_rev_rates.[90]) * (#(-2.8683515196972269e+02) / $v_T) + v_fwd_rates.[90] * #(-1.0) - v_rev_rates.[90] * (#(-1.0) + (- $v_T) * (#2.0 * v_dBdT.[11] - v_dBdT.[12] - v_dBdT.[10]))) * $v_rho_inv));
  (*2276*) Do (AddA v_jac 11 ((- $v_j_temp) * #1.4026879999999998e+01));
  (*2277*) Do (AddA v_jac 12 ($v_j_temp * #2.0 * #1.5034820000000000e+01));
  (*2278*) Do (AddA v_jac 13 ((- $v_j_temp) * #1.6042760000000001e+01));
  (*2452*) Do (Asn v_conc_temp 0 ($v_m - #0.3 * v_conc.[0] + #1.0 * v_conc.[5] + #5.0 * v_conc.[6] + #1.0 * v_conc.[12] + #0.5 * v_conc.[16] + #1.0 * v_conc.[17] + #2.0 * v_conc.[18] + #2.0 * v_conc.[20] + #2.0 * v_conc.[22]));
  (*2453*) Do (Asn v_Pr 0 ($v_conc_temp * (Exp (#3.8735237876044771e+01 - #5.02 * $v_logT - #(-6.2876278190022276e+02) / $v_T))));
  (*2454*) Do (Asn v_Fcent 0 (#(-9.8160000000000003e-01) * (Exp ($v_T / #(-5.3836999999999998e+03))) + #1.9816000000000000e+00 * (Exp ($v_T / #(-4.2931999999999997e+00))) + (Exp (#7.9500000000000001e-02 / $v_T))));
  (*2455*) Do (Asn v_A 0 ((Log10 (Fmax $v_Pr #1.0e-300)) - #0.67 * (Log10 (Fmax $v_Fcent #1.0e-300)) - #0.4));
  (*2456*) Do (Asn v_B 0 (#0.806 - #1.1762 * (Log10 (Fmax $v_Fcent #1.0e-300)) - #0.14 * (Log10 (Fmax $v_Pr #1.0e-300))));
  (*2457*) Do (Asn v_lnF_AB 0 (#2.0 * (Log (Fmax $v_Fcent #1.0e-300)) * $v_A / ($v_B * $v_B * $v_B * (#1.0 + $v_A * $v_A / ($v_B * $v_B)) * (#1.0 + $v_A * $v_A / ($v_B * $v_B)))));
  (*2458*) Do (Asn v_j_temp 0 ((v_pres_mod.[14] * ((#(-5.0200e+00) + #(-6.2876278190022276e+02) / $v_T - #1.0) / ($v_T * (#1.0 + $v_Pr)) + (#1.0 / ($v_Fcent * (#1.0 + $v_A * $v_A / ($v_B * $v_B))) - $v_lnF_AB * (#(-2.9097730287517870e-01) * $v_B + #5.1081716961460466e-01 * $v_A) / $v_Fcent) * (#1.8232813864071178e-04 * (Exp ($v_T / #(-5.3836999999999998e+03))) - #4.6156712941395700e-01 * (Exp ($v_T / #(-4.2931999999999997e+00))) + #(-7.9500000000000001e-02) / ($v_T * $v_T) * (Exp (#7.9500000000000001e-02 / $v_T))) - $v_lnF_AB * (#4.3429448190325176e-01 * $v_B + #6.0801227466455256e-02 * $v_A) * (#(-5.0199999999999996e+00) + #(-6.2876278190022276e+02) / $v_T - #1.0) / $v_T) * (v_fwd_rates.[91] - v_rev_rates.[91]) + v_pres_mod.[14] / $v_T * ((v_fwd_rates.[91] - v_rev_rates.[91]) * (#1.6200000000000001e+00 + #1.8643379082815227e+04 / $v_T) - v_rev_rates.[91] * (#(-1.0) + (- $v_T) * (v_dBdT.[1] + v_dBdT.[18] - v_dBdT.[19])))) * $v_rho_inv));
  (*2459*) Do (AddA v_jac 2 ($v_j_temp * #1.0079400000000001e+00));
  (*2460*) Do (AddA v_jac 19 ($v_j_temp * #2.6037879999999998e+01));
  (*2461*) Do (Asn v_jac 20 ((- $v_j_temp) * #2.7045819999999999e+01));
  (*2637*) Do (Asn v_j_temp 0 (#1.0 / $v_T * ((v_fwd_rates.[92] - v_rev_rates.[92]) * (#2.0000000000000000e+00 + #9.5611717323240896e+02 / $v_T) + v_fwd_rates.[92] * #(-1.0) - v_rev_rates.[92] * (#(-1.0) + (- $v_T) * (v_dBdT.[9] + v_dBdT.[16] - v_dBdT.[18] - v_dBdT.[2]))) * $v_rho_inv));
  (*2638*) Do (AddA v_jac 17 ($v_j_temp * #2.8010399999999997e+01));
  (*2639*) Do (AddA v_jac 10 ($v_j_temp * #1.4026879999999998e+01));
  (*2640*) Do (AddA v_jac 19 ((- $v_j_temp) * #2.6037879999999998e+01));
  (*2641*) Do (AddA v_jac 3 ((- $v_j_temp) * #1.5999400000000000e+01));
  (*2868*) Do (Asn v_j_temp 0 (#1.0 / $v_T * ((v_fwd_rates.[93] - v_rev_rates.[93]) * (#4.0000000000000000e+00 + #(-1.0064391297183253e+03) / $v_T) + v_fwd_rates.[93] * #(-1.0) - v_rev_rates.[93] * (#(-1.0) + (- $v_T) * (v_dBdT.[11] + v_dBdT.[16] - v_dBdT.[18] - v_dBdT.[3]))) * $v_rho_inv));
  (*2869*) Do (AddA v_jac 12 ($v_j_temp * #1.5034820000000000e+01));
  (*2870*) Do (AddA v_jac 17 ($v_j_temp * #2.8010399999999997e+01));
  (*2871*) Do (AddA v_jac 19 ((- $v_j_temp) * #2.6037879999999998e+01));
  (*2872*) Do (AddA v_jac 4 ((- $v_j_temp) * #1.7007339999999999e+01));
  (*3099*) Do (Asn v_j_temp 0 (#1.0 / $v_T * ((v_fwd_rates.[94] - v_rev_rates.[94]) * (#2.0000000000000000e+00 + #3.0193173891549759e+03 / $v_T) + v_fwd_rates.[94] * #(-1.0) - v_rev_rates.[94] * (#(-1.0) + (- $v_T) * (v_dBdT.[19] + v_dBdT.[16] - v_dBdT.[18] - v_dBdT.[13]))) * $v_rho_inv));
  (*3100*) Do (AddA v_jac 17 ($v_j_temp * #2.8010399999999997e+01));
  (*3101*) Do (AddA v_jac 19 ((- $v_j_temp) * #2.6037879999999998e+01));
  (*3102*) Do (AddA v_jac 20 ($v_j_temp * #2.7045819999999999e+01));
  (*3103*) Do (AddA v_jac 14 ((- $v_j_temp) * #2.9018339999999998e+01));
  (*3330*) Do (Asn v_j_temp 0 (#1.0 / $v_T * ((v_fwd_rates.[95] - v_rev_rates.[95]) * (#(-1.2820000000000000e+01) + #1.7980035052417879e+04 / $v_T) + v_fwd_rates.[95] * #(-1.0) - v_rev_rates.[95] * ((- $v_T) * (v_dBdT.[24] - v_dBdT.[11] - v_dBdT.[18]))) * $v_rho_inv));
  (*3331*) Do (Asn v_jac 25 ($v_j_temp * #4.1072699999999998e+01));
  (*3332*) Do (AddA v_jac 19 ((- $v_j_temp) * #2.6037879999999998e+01));
  (*3333*) Do (AddA v_jac 12 ((- $v_j_temp) * #1.5034820000000000e+01));
  (*3507*) Do (Asn v_Pr 0 ($v_conc_temp * (Exp (#3.3070243935553826e+01 - #4.13 * $v_logT - #1.5297874771718543e+03 / $v_T))));
  (*3508*) Do (Asn v_Fcent 0 (#2.1799999999999997e-01 * (Exp ($v_T / #(-2.0749999999999997e+02))) + #7.8200000000000003e-01 * (Exp ($v_T / #(-2.6630000000000000e+03))) + (Exp (#(-6.0950000000000000e+03) / $v_T))));
  (*3509*) Do (Asn v_A 0 ((Log10 (Fmax $v_Pr #1.0e-300)) - #0.67 * (Log10 (Fmax $v_Fcent #1.0e-300)) - #0.4));
  (*3510*) Do (Asn v_B 0 (#0.806 - #1.1762 * (Log10 (Fmax $v_Fcent #1.0e-300)) - #0.14 * (Log10 (Fmax $v_Pr #1.0e-300))));
  (*3511*) Do (Asn v_lnF_AB 0 (#2.0 * (Log (Fmax $v_Fcent #1.0e-300)) * $v_A / ($v_B * $v_B * $v_B * (#1.0 + $v_A * $v_A / ($v_B * $v_B)) * (#1.0 + $v_A * $v_A / ($v_B * $v_B)))));
  (*3512*) Do (Asn v_j_temp 0 ((v_pres_mod.[15] * ((#(-4.1300e+00) + #1.5297874771718543e+03 / $v_T - #1.0) / ($v_T * (#1.0 + $v_Pr)) + (#1.0 / ($v_Fcent * (#1.0 + $v_A * $v_A / ($v_B * $v_B))) - $v_lnF_AB * (#(-2.9097730287517870e-01) * $v_B + #5.1081716961460466e-01 * $v_A) / $v_Fcent) * (#(-1.0506024096385543e-03) * (Exp ($v_T / #(-2.0749999999999997e+02))) - #2.9365377393916639e-04 * (Exp ($v_T / #(-2.6630000000000000e+03))) + #6.0950000000000000e+03 / ($v_T * $v_T) * (Exp (#(-6.0950000000000000e+03) / $v_T))) - $v_lnF_AB * (#4.3429448190325176e-01 * $v_B + #6.0801227466455256e-02 * $v_A) * (#(-4.1299999999999999e+00) + #1.5297874771718543e+03 / $v_T - #1.0) / $v_T) * (v_fwd_rates.[96] - v_rev_rates.[96]) + v_pres_mod.[15] / $v_T * ((v_fwd_rates.[96] - v_rev_rates.[96]) * (#2.7000000000000002e-01 + #1.4090147816056555e+02 / $v_T) + v_fwd_rates.[96] * #(-1.0) - v_rev_rates.[96] * ((- $v_T) * (v_dBdT.[20] - v_dBdT.[1] - v_dBdT.[19])))) * $v_rho_inv));
  (*3513*) Do (AddA v_jac 2 ((- $v_j_temp) * #1.0079400000000001e+00));
  (*3514*) Do (AddA v_jac 20 ((- $v_j_temp) * #2.7045819999999999e+01));
  (*3515*) Do (AddA v_jac 21 ($v_j_temp * #2.8053759999999997e+01));
  (*3691*) Do (Asn v_j_temp 0 (#1.0 / $v_T * (v_fwd_rates.[97] * #(-1.0) - v_rev_rates.[97] * (#(-1.0) + (- $v_T) * (v_dBdT.[5] + v_dBdT.[18] - v_dBdT.[1] - v_dBdT.[19]))) * $v_rho_inv));
  (*3692*) Do (AddA v_jac 2 ((- $v_j_temp) * #1.0079400000000001e+00));
  (*3693*) Do (AddA v_jac 19 ($v_j_temp * #2.6037879999999998e+01));
  (*3694*) Do (AddA v_jac 20 ((- $v_j_temp) * #2.7045819999999999e+01));
  (*3695*) Do (AddA v_jac 6 ($v_j_temp * #2.0158800000000001e+00));
  (*3922*) Do (Asn v_j_temp 0 (#1.0 / $v_T * (v_fwd_rates.[98] * #(-1.0) - v_rev_rates.[98] * (#(-1.0) + (- $v_T) * (v_dBdT.[11] + v_dBdT.[16] - v_dBdT.[19] - v_dBdT.[2]))) * $v_rho_inv));
  (*3923*) Do (AddA v_jac 12 ($v_j_temp * #1.5034820000000000e+01));
  (*3924*) Do (AddA v_jac 17 ($v_j_temp * #2.8010399999999997e+01));
  (*3925*) Do (AddA v_jac 3 ((- $v_j_temp) * #1.5999400000000000e+01));
  (*3926*) Do (AddA v_jac 20 ((- $v_j_temp) * #2.7045819999999999e+01));
  (*4153*) Do (Asn v_j_temp 0 (#1.0 / $v_T * (v_fwd_rates.[99] * #(-1.0) - v_rev_rates.[99] * (#(-1.0) + (- $v_T) * (v_dBdT.[6] + v_dBdT.[18] - v_dBdT.[19] - v_dBdT.[3]))) * $v_rho_inv));
  (*4154*) Do (AddA v_jac 4 ((- $v_j_temp) * #1.7007339999999999e+01));
  (*4155*) Do (AddA v_jac 19 ($v_j_temp * #2.6037879999999998e+01));
  (*4156*) Do (AddA v_jac 20 ((- $v_j_temp) * #2.7045819999999999e+01));
  (*4157*) Do (AddA v_jac 7 ($v_j_temp * #1.8015280000000001e+01));
  (*4384*) Do (Asn v_j_temp 0 (#1.0 / $v_T * ((v_fwd_rates.[100] - v_rev_rates.[100]) * (#1.6100000000000001e+00 + #(-1.9293438116700293e+02) / $v_T) + v_fwd_rates.[100] * #(-1.0) - v_rev_rates.[100] * (#(-1.0) + (- $v_T) * (v_dBdT.[4] + v_dBdT.[18] - v_dBdT.[19] - v_dBdT.[8]))) * $v_rho_inv));
  (*4385*) Do (AddA v_jac 9 ((- $v_j_temp) * #3.1998799999999999e+01));
  (*4386*) Do (AddA v_jac 19 ($v_j_temp * #2.6037879999999998e+01));
  (*4387*) Do (AddA v_jac 20 ((- $v_j_temp) * #2.7045819999999999e+01));
  (*4388*) Do (AddA v_jac 5 ($v_j_temp * #3.3006740000000001e+01));
  (*4615*) Do (Asn v_j_temp 0 (#1.0 / $v_T * ((v_fwd_rates.[101] - v_rev_rates.[101]) * (#2.8999999999999998e-01 + #5.5354152134507890e+00 / $v_T) + v_fwd_rates.[101] * #(-1.0) - v_rev_rates.[101] * (#(-1.0) + (- $v_T) * (v_dBdT.[23] + v_dBdT.[2] - v_dBdT.[19] - v_dBdT.[8]))) * $v_rho_inv));
  (*4616*) Do (AddA v_jac 9 ((- $v_j_temp) * #3.1998799999999999e+01));
  (*4617*) Do (AddA v_jac 3 ($v_j_temp * #1.5999400000000000e+01));
  (*4618*) Do (AddA v_jac 20 ((- $v_j_temp) * #2.7045819999999999e+01));
  (*4619*) Do (Asn v_jac 24 ($v_j_temp * #4.3045220000000000e+01));
  (*4846*) Do (Asn v_j_temp 0 (#1.0 / $v_T * ((v_fwd_rates.[102] - v_rev_rates.[102]) * (#(-1.3899999999999999e+00) + #5.0825176050775428e+02 / $v_T) + v_fwd_rates.[102] * #(-1.0) - v_rev_rates.[102] * (#(-1.0) + (- $v_T) * (v_dBdT.[14] + v_dBdT.[13] - v_dBdT.[19] - v_dBdT.[8]))) * $v_rho_inv));
  (*4847*) Do (AddA v_jac 9 ((- $v_j_temp) * #3.1998799999999999e+01));
  (*4848*) Do (AddA v_jac 20 ((- $v_j_temp) * #2.7045819999999999e+01));
  (*4849*) Do (AddA v_jac 14 ($v_j_temp * #2.9018339999999998e+01));
  (*4850*) Do (AddA v_jac 15 ($v_j_temp * #3.0026280000000000e+01));
  (*5077*) Do (Asn v_j_temp 0 (#1.0 / $v_T * (v_fwd_rates.[103] * #(-1.0) - v_rev_rates.[103] * (#(-1.0) + (- $v_T) * (v_dBdT.[23] + v_dBdT.[3] - v_dBdT.[19] - v_dBdT.[4]))) * $v_rho_inv));
  (*5078*) Do (AddA v_jac 4 ($v_j_temp * #1.7007339999999999e+01));
  (*5079*) Do (AddA v_jac 20 ((- $v_j_temp) * #2.7045819999999999e+01));
  (*5080*) Do (AddA v_jac 5 ((- $v_j_temp) * #3.3006740000000001e+01));
  (*5081*) Do (AddA v_jac 24 ($v_j_temp * #4.3045220000000000e+01));
  (*5308*) Do (Asn v_j_temp 0 (#1.0 / $v_T * ((v_fwd_rates.[104] - v_rev_rates.[104]) * (#(-2.9991886065606093e+02) / $v_T) + v_fwd_rates.[104] * #(-1.0) - v_rev_rates.[104] * (#(-1.0) + (- $v_T) * (v_dBdT.[20] + v_dBdT.[4] - v_dBdT.[19] - v_dBdT.[7]))) * $v_rho_inv));
  (*5309*) Do (AddA v_jac 5 ($v_j_temp * #3.3006740000000001e+01));
  (*5310*) Do (AddA v_jac 20 ((- $v_j_temp) * #2.7045819999999999e+01));
  (*5311*) Do (AddA v_jac 21 ($v_j_temp * #2.8053759999999997e+01));
  (*5312*) Do (AddA v_jac 8 ((- $v_j_temp) * #3.4014679999999998e+01));
  (*5539*) Do (Asn v_j_temp 0 (#1.0 / $v_T * (v_fwd_rates.[105] * #(-1.0) - v_rev_rates.[105] * (#(-1.0) + (- $v_T) * (v_dBdT.[20] + v_dBdT.[16] - v_dBdT.[19] - v_dBdT.[13]))) * $v_rho_inv));
  (*5540*) Do (AddA v_jac 17 ($v_j_temp * #2.8010399999999997e+01));
  (*5541*) Do (AddA v_jac 20 ((- $v_j_temp) * #2.7045819999999999e+01));
  (*5542*) Do (AddA v_jac 21 ($v_j_temp * #2.8053759999999997e+01));
  (*5543*) Do (AddA v_jac 14 ((- $v_j_temp) * #2.9018339999999998e+01));
  (*5770*) Do (Asn v_j_temp 0 (#1.0 / $v_T * (v_fwd_rates.[106] * #(-1.0) - v_rev_rates.[106] * ((- $v_T) * (v_dBdT.[27] - v_dBdT.[19] - v_dBdT.[13]))) * $v_rho_inv));
  (*5771*) Do (Asn v_jac 28 ($v_j_temp * #5.6064160000000001e+01));
  (*5772*) Do (AddA v_jac 20 ((- $v_j_temp) * #2.7045819999999999e+01));
  (*5773*) Do (AddA v_jac 14 ((- $v_j_temp) * #2.9018339999999998e+01));
  (*5947*) Do (Asn v_j_temp 0 (#1.0 / $v_T * (v_fwd_rates.[107] * #(-1.0) - v_rev_rates.[107] * (#(-1.0) + (- $v_T) * (v_dBdT.[12] + v_dBdT.[18] - v_dBdT.[11] - v_dBdT.[19]))) * $v_rho_inv));
  (*5948*) Do (AddA v_jac 20 ((- $v_j_temp) * #2.7045819999999999e+01));
  (*5949*) Do (AddA v_jac 19 ($v_j_temp * #2.6037879999999998e+01));
  (*5950*) Do (AddA v_jac 12 ((- $v_j_temp) * #1.5034820000000000e+01));
  (*5951*) Do (AddA v_jac 13 ($v_j_temp * #1.6042760000000001e+01));
  (*6178*) Do (Asn v_Pr 0 ($v_conc_temp * (Exp (#9.7243897001116295e+01 - #11.94 * $v_logT - #4.9163545047610469e+03 / $v_T))));
  (*6179*) Do (Asn v_Fcent 0 (#8.2499999999999996e-01 * (Exp ($v_T / #(-1.3405999999999999e+03))) + #1.7499999999999999e-01 * (Exp ($v_T / #(-6.0000000000000000e+04))) + (Exp (#(-1.0139799999999999e+04) / $v_T))));
  (*6180*) Do (Asn v_A 0 ((Log10 (Fmax $v_Pr #1.0e-300)) - #0.67 * (Log10 (Fmax $v_Fcent #1.0e-300)) - #0.4));
  (*6181*) Do (Asn v_B 0 (#0.806 - #1.1762 * (Log10 (Fmax $v_Fcent #1.0e-300)) - #0.14 * (Log10 (Fmax $v_Pr #1.0e-300))));
  (*6182*) Do (Asn v_lnF_AB 0 (#2.0 * (Log (Fmax $v_Fcent #1.0e-300)) * $v_A / ($v_B * $v_B * $v_B * (#1.0 + $v_A * $v_A / ($v_B * $v_B)) * (#1.0 + $v_A * $v_A / ($v_B * $v_B)))));
  (*6183*) Do (Asn v_j_temp 0 ((v_pres_mod.[16] * ((#(-1.1940e+01) + #4.9163545047610469e+03 / $v_T - #1.0) / ($v_T * (#1.0 + $v_Pr)) + (#1.0 / ($v_Fcent * (#1.0 + $v_A * $v_A / ($v_B * $v_B))) - $v_lnF_AB * (#(-2.9097730287517870e-01) * $v_B + #5.1081716961460466e-01 * $v_A) / $v_Fcent) * (#(-6.1539609130240188e-04) * (Exp ($v_T / #(-1.3405999999999999e+03))) - #2.9166666666666666e-06 * (Exp ($v_T / #(-6.0000000000000000e+04))) + #1.0139799999999999e+04 / ($v_T * $v_T) * (Exp (#(-1.0139799999999999e+04) / $v_T))) - $v_lnF_AB * (#4.3429448190325176e-01 * $v_B + #6.0801227466455256e-02 * $v_A) * (#(-1.1940000000000000e+01) + #4.9163545047610469e+03 / $v_T - #1.0) / $v_T) * (v_fwd_rates.[108] - v_rev_rates.[108]) + v_pres_mod.[16] / $v_T * (v_fwd_rates.[108] * #(-1.0) - v_rev_rates.[108] * ((- $v_T) * (v_dBdT.[25] - v_dBdT.[11] - v_dBdT.[19])))) * $v_rho_inv));
  (*6184*) Do (AddA v_jac 20 ((- $v_j_temp) * #2.7045819999999999e+01));
  (*6185*) Do (Asn v_jac 26 ($v_j_temp * #4.2080640000000002e+01));
  (*6186*) Do (AddA v_jac 12 ((- $v_j_temp) * #1.5034820000000000e+01));
  (*6362*) Do (Asn v_j_temp 0 (#1.0 / $v_T * ((v_fwd_rates.[109] - v_rev_rates.[109]) * (#(-2.8300000000000001e+00) + #9.3689418585478907e+03 / $v_T) + v_fwd_rates.[109] * #(-1.0) - v_rev_rates.[109] * (#(-1.0) + (- $v_T) * (v_dBdT.[1] + v_dBdT.[24] - v_dBdT.[11] - v_dBdT.[19]))) * $v_rho_inv));
  (*6363*) Do (AddA v_jac 20 ((- $v_j_temp) * #2.7045819999999999e+01));
  (*6364*) Do (AddA v_jac 2 ($v_j_temp * #1.0079400000000001e+00));
  (*6365*) Do (AddA v_jac 12 ((- $v_j_temp) * #1.5034820000000000e+01));
  (*6366*) Do (AddA v_jac 25 ($v_j_temp * #4.1072699999999998e+01));
  (*6593*) Do (Asn v_j_temp 0 (#1.0 / $v_T * (v_fwd_rates.[110] * #(-1.0) - v_rev_rates.[110] * (#(-1.0) + (- $v_T) * (v_dBdT.[20] + v_dBdT.[18] - #2.0 * v_dBdT.[19]))) * $v_rho_inv));
  (*6594*) Do (AddA v_jac 19 ($v_j_temp * #2.6037879999999998e+01));
  (*6595*) Do (AddA v_jac 20 ($v_j_temp * #(-2.0) * #2.7045819999999999e+01));
  (*6596*) Do (AddA v_jac 21 ($v_j_temp * #2.8053759999999997e+01));
  (*6770*) Do (Asn v_j_temp 0 (#1.0 / $v_T * ((v_fwd_rates.[111] - v_rev_rates.[111]) * (#(-9.1470000000000002e+00) + #2.3600997591894728e+04 / $v_T) - v_rev_rates.[111] * (#(-1.0) + (- $v_T) * (v_dBdT.[11] + v_dBdT.[16] - v_dBdT.[23]))) * $v_rho_inv));
  (*6771*) Do (AddA v_jac 17 ($v_j_temp * #2.8010399999999997e+01));
  (*6772*) Do (AddA v_jac 12 ($v_j_temp * #1.5034820000000000e+01));
  (*6773*) Do (AddA v_jac 24 ((- $v_j_temp) * #4.3045220000000000e+01));
  (*6947*) Do (Asn v_j_temp 0 (#1.0 / $v_T * (v_fwd_rates.[112] * #(-1.0) - v_rev_rates.[112] * (#(-1.0) + (- $v_T) * (v_dBdT.[11] + v_dBdT.[13] - v_dBdT.[23] - v_dBdT.[1]))) * $v_rho_inv));
  (*6948*) Do (AddA v_jac 2 ((- $v_j_temp) * #1.0079400000000001e+00));
  (*6949*) Do (AddA v_jac 12 ($v_j_temp * #1.5034820000000000e+01));
  (*6950*) Do (AddA v_jac 14 ($v_j_temp * #2.9018339999999998e+01));
  (*6951*) Do (AddA v_jac 24 ((- $v_j_temp) * #4.3045220000000000e+01));
  (*7178*) Do (Asn v_j_temp 0 (#1.0 / $v_T * (v_fwd_rates.[113] * #(-1.0) - v_rev_rates.[113] * (#(-2.0) + (- $v_T) * (v_dBdT.[14] + v_dBdT.[16] + v_dBdT.[3] - v_dBdT.[23] - v_dBdT.[8]))) * $v_rho_inv));
  (*7179*) Do (AddA v_jac 9 ((- $v_j_temp) * #3.1998799999999999e+01));
  (*7180*) Do (AddA v_jac 17 ($v_j_temp * #2.8010399999999997e+01));
  (*7181*) Do (AddA v_jac 4 ($v_j_temp * #1.7007339999999999e+01));
  (*7182*) Do (AddA v_jac 15 ($v_j_temp * #3.0026280000000000e+01));
  (*7183*) Do (AddA v_jac 24 ((- $v_j_temp) * #4.3045220000000000e+01));
  (*7463*) Do (AddA v_conc_temp 0 (#(-2.0) * v_conc.[18] - #2.0 * v_conc.[20]));
  (*7464*) Do (Asn v_Pr 0 ($v_conc_temp * (Exp (#1.3986234725943399e+01 - #1.28 * $v_logT - #(-2.6940865843865004e+02) / $v_T))));
  (*7465*) Do (Asn v_Fcent 0 (#2.3999999999999999e-01 * (Exp ($v_T / #(-4.0000000000000000e+01))) + #7.6000000000000001e-01 * (Exp ($v_T / #(-1.0250000000000000e+03)))));
  (*7466*) Do (Asn v_A 0 ((Log10 (Fmax $v_Pr #1.0e-300)) - #0.67 * (Log10 (Fmax $v_Fcent #1.0e-300)) - #0.4));
  (*7467*) Do (Asn v_B 0 (#0.806 - #1.1762 * (Log10 (Fmax $v_Fcent #1.0e-300)) - #0.14 * (Log10 (Fmax $v_Pr #1.0e-300))));
  (*7468*) Do (Asn v_lnF_AB 0 (#2.0 * (Log (Fmax $v_Fcent #1.0e-300)) * $v_A / ($v_B * $v_B * $v_B * (#1.0 + $v_A * $v_A / ($v_B * $v_B)) * (#1.0 + $v_A * $v_A / ($v_B * $v_B)))));
  (*7469*) Do (Asn v_j_temp 0 ((v_pres_mod.[17] * ((#(-1.2800e+00) + #(-2.6940865843865004e+02) / $v_T - #1.0) / ($v_T * (#1.0 + $v_Pr)) + (#1.0 / ($v_Fcent * (#1.0 + $v_A * $v_A / ($v_B * $v_B))) - $v_lnF_AB * (#(-2.9097730287517870e-01) * $v_B + #5.1081716961460466e-01 * $v_A) / $v_Fcent) * (#(-6.0000000000000001e-03) * (Exp ($v_T / #(-4.0000000000000000e+01))) - #7.4146341463414639e-04 * (Exp ($v_T / #(-1.0250000000000000e+03)))) - $v_lnF_AB * (#4.3429448190325176e-01 * $v_B + #6.0801227466455256e-02 * $v_A) * (#(-1.2800000000000000e+00) + #(-2.6940865843865004e+02) / $v_T - #1.0) / $v_T) * (v_fwd_rates.[114] - v_rev_rates.[114]) + v_pres_mod.[17] / $v_T * ((v_fwd_rates.[114] - v_rev_rates.[114]) * (#1.2800000000000000e+00 + #6.4947026699418120e+02 / $v_T) + v_fwd_rates.[114] * #(-1.0) - v_rev_rates.[114] * ((- $v_T) * (v_dBdT.[21] - v_dBdT.[1] - v_dBdT.[20])))) * $v_rho_inv));
  (*7470*) Do (AddA v_jac 2 ((- $v_j_temp) * #1.0079400000000001e+00));
  (*7471*) Do (AddA v_jac 21 ((- $v_j_temp) * #2.8053759999999997e+01));
  (*7472*) Do (AddA v_jac 22 ($v_j_temp * #2.9061699999999998e+01));
  (*7648*) Do (Asn v_j_temp 0 (#1.0 / $v_T * ((v_fwd_rates.[115] - v_rev_rates.[115]) * (#1.8999999999999999e+00 + #6.5166933649261564e+03 / $v_T) + v_fwd_rates.[115] * #(-1.0) - v_rev_rates.[115] * (#(-1.0) + (- $v_T) * (v_dBdT.[5] + v_dBdT.[19] - v_dBdT.[1] - v_dBdT.[20]))) * $v_rho_inv));
  (*7649*) Do (AddA v_jac 2 ((- $v_j_temp) * #1.0079400000000001e+00));
  (*7650*) Do (AddA v_jac 20 ($v_j_temp * #2.7045819999999999e+01));
  (*7651*) Do (AddA v_jac 21 ((- $v_j_temp) * #2.8053759999999997e+01));
  (*7652*) Do (AddA v_jac 6 ($v_j_temp * #2.0158800000000001e+00));
  (*7879*) Do (Asn v_j_temp 0 (#1.0 / $v_T * ((v_fwd_rates.[116] - v_rev_rates.[116]) * (#1.8999999999999999e+00 + #1.8820411725732683e+03 / $v_T) + v_fwd_rates.[116] * #(-1.0) - v_rev_rates.[116] * (#(-1.0) + (- $v_T) * (v_dBdT.[19] + v_dBdT.[3] - v_dBdT.[20] - v_dBdT.[2]))) * $v_rho_inv));
  (*7880*) Do (AddA v_jac 4 ($v_j_temp * #1.7007339999999999e+01));
  (*7881*) Do (AddA v_jac 3 ((- $v_j_temp) * #1.5999400000000000e+01));
  (*7882*) Do (AddA v_jac 20 ($v_j_temp * #2.7045819999999999e+01));
  (*7883*) Do (AddA v_jac 21 ((- $v_j_temp) * #2.8053759999999997e+01));
  (*8110*) Do (Asn v_j_temp 0 (#1.0 / $v_T * ((v_fwd_rates.[117] - v_rev_rates.[117]) * (#1.8300000000000001e+00 + #1.1070830426901578e+02 / $v_T) + v_fwd_rates.[117] * #(-1.0) - v_rev_rates.[117] * (#(-1.0) + (- $v_T) * (v_dBdT.[11] + v_dBdT.[13] - v_dBdT.[20] - v_dBdT.[2]))) * $v_rho_inv));
  (*8111*) Do (AddA v_jac 3 ((- $v_j_temp) * #1.5999400000000000e+01));
  (*8112*) Do (AddA v_jac 12 ($v_j_temp * #1.5034820000000000e+01));
  (*8113*) Do (AddA v_jac 21 ((- $v_j_temp) * #2.8053759999999997e+01));
  (*8114*) Do (AddA v_jac 14 ($v_j_temp * #2.9018339999999998e+01));
  (*8341*) Do (Asn v_j_temp 0 (#1.0 / $v_T * ((v_fwd_rates.[118] - v_rev_rates.[118]) * (#1.8300000000000001e+00 + #1.1070830426901578e+02 / $v_T) + v_fwd_rates.[118] * #(-1.0) - v_rev_rates.[118] * (#(-1.0) + (- $v_T) * (v_dBdT.[14] + v_dBdT.[9] - v_dBdT.[20] - v_dBdT.[2]))) * $v_rho_inv));
  (*8342*) Do (AddA v_jac 10 ($v_j_temp * #1.4026879999999998e+01));
  (*8343*) Do (AddA v_jac 3 ((- $v_j_temp) * #1.5999400000000000e+01));
  (*8344*) Do (AddA v_jac 21 ((- $v_j_temp) * #2.8053759999999997e+01));
  (*8345*) Do (AddA v_jac 15 ($v_j_temp * #3.0026280000000000e+01));
  (*8572*) Do (Asn v_j_temp 0 (#1.0 / $v_T * ((v_fwd_rates.[119] - v_rev_rates.[119]) * (#2.0000000000000000e+00 + #1.2580489121479065e+03 / $v_T) + v_fwd_rates.[119] * #(-1.0) - v_rev_rates.[119] * (#(-1.0) + (- $v_T) * (v_dBdT.[6] + v_dBdT.[19] - v_dBdT.[20] - v_dBdT.[3]))) * $v_rho_inv));
  (*8573*) Do (AddA v_jac 20 ($v_j_temp * #2.7045819999999999e+01));
  (*8574*) Do (AddA v_jac 4 ((- $v_j_temp) * #1.7007339999999999e+01));
  (*8575*) Do (AddA v_jac 21 ((- $v_j_temp) * #2.8053759999999997e+01));
  (*8576*) Do (AddA v_jac 7 ($v_j_temp * #1.8015280000000001e+01))].

(** [eval_jacob_3], yao/lib/src/jacobs/jacob_3.c:4-9024: the declarations and the blocks "partial of
    rxn ... wrt T" (the blocks "wrt species" write other elements of [jac]). *)
Definition yao_jac_T3 : list stmt := [
  (*6*) Do (Asn v_logT 0 ((Log $v_T)));
  (*7*) Do (Asn v_kf 0 (#0.0));
  (*8*) Do (Asn v_j_temp 0 (#0.0));
  (*9*) Do (Asn v_pres_mod_temp 0 (#0.0));
  (*10*) Do (Asn v_Kc 0 (#0.0));
  (*11*) Do (Asn v_kr 0 (#0.0));
  (*12*) Do (Asn v_Pr 0 (#0.0));
  (*13*) Do (Asn v_Fcent 0 (#0.0));
  (*14*) Do (Asn v_A 0 (#0.0));
  (*15*) Do (Asn v_B 0 (#0.0));
  (*16*) Do (Asn v_lnF_AB 0 (#0.0));
  (*17*) Do (Asn v_rho_inv 0 (#1.0 / $v_rho));
  (*19*) Do (Asn v_j_temp 0 (#1.0 / $v_T * ((v_fwd_rates.[120] - v_rev_rates.[120]) * (#2.0000000000000000e+00 + #4.0257565188733010e+03 / $v_T) + v_fwd_rates.[120] * #(-1.0) - v_rev_rates.[120] * (#(-1.0) + (- $v_T) * (v_dBdT.[21] + v_dBdT.[16] - v_dBdT.[20] - v_dBdT.[13]))) * $v_rho_inv));
  (*20*) Do (AddA v_jac 17 ($v_j_temp * #2.8010399999999997e+01));
  (*21*) Do (AddA v_jac 21 ((- $v_j_temp) * #2.8053759999999997e+01));
  (*22*) Do (AddA v_jac 14 ((- $v_j_temp) * #2.9018339999999998e+01));
  (*23*) Do (AddA v_jac 22 ($v_j_temp * #2.9061699999999998e+01));
  (*250*) Do (Asn v_j_temp 0 (#1.0 / $v_T * ((v_fwd_rates.[121] - v_rev_rates.[121]) * (#3.0193173891549759e+03 / $v_T) + v_fwd_rates.[121] * #(-1.0) - v_rev_rates.[121] * (#(-1.0) + (- $v_T) * (v_dBdT.[1] + v_dBdT.[24] - v_dBdT.[9] - v_dBdT.[20]))) * $v_rho_inv));
  (*251*) Do (AddA v_jac 25 ($v_j_temp * #4.1072699999999998e+01));
  (*252*) Do (AddA v_jac 10 ((- $v_j_temp) * #1.4026879999999998e+01));
  (*253*) Do (AddA v_jac 21 ((- $v_j_temp) * #2.8053759999999997e+01));
  (*254*) Do (AddA v_jac 2 ($v_j_temp * #1.0079400000000001e+00));
  (*481*) Do (Asn v_j_temp 0 (#1.0 / $v_T * (v_fwd_rates.[122] * #(-1.0) - v_rev_rates.[122] * (#(-1.0) + (- $v_T) * (v_dBdT.[1] + v_dBdT.[24] - v_dBdT.[20] - v_dBdT.[10]))) * $v_rho_inv));
  (*482*) Do (AddA v_jac 25 ($v_j_temp * #4.1072699999999998e+01));
  (*483*) Do (AddA v_jac 2 ($v_j_temp * #1.0079400000000001e+00));
  (*484*) Do (AddA v_jac 11 ((- $v_j_temp) * #1.4026879999999998e+01));
  (*485*) Do (AddA v_jac 21 ((- $v_j_temp) * #2.8053759999999997e+01));
  (*712*) Do (Asn v_j_temp 0 (#1.0 / $v_T * ((v_fwd_rates.[123] - v_rev_rates.[123]) * (#2.0000000000000000e+00 + #4.6296199967042967e+03 / $v_T) + v_fwd_rates.[123] * #(-1.0) - v_rev_rates.[123] * (#(-1.0) + (- $v_T) * (v_dBdT.[19] + v_dBdT.[12] - v_dBdT.[11] - v_dBdT.[20]))) * $v_rho_inv));
  (*713*) Do (AddA v_jac 20 ($v_j_temp * #2.7045819999999999e+01));
  (*714*) Do (AddA v_jac 13 ($v_j_temp * #1.6042760000000001e+01));
  (*715*) Do (AddA v_jac 12 ((- $v_j_temp) * #1.5034820000000000e+01));
  (*716*) Do (AddA v_jac 21 ((- $v_j_temp) * #2.8053759999999997e+01));
  (*943*) Do (Asn v_j_temp 0 (#1.0 / $v_T * ((v_fwd_rates.[124] - v_rev_rates.[124]) * (#1.5611350367451911e+04 / $v_T) - v_rev_rates.[124] * (#(-1.0) + (- $v_T) * (v_dBdT.[11] + v_dBdT.[20] - v_dBdT.[26]))) * $v_rho_inv));
  (*944*) Do (Asn v_jac 27 ((- $v_j_temp) * #4.3088580000000000e+01));
  (*945*) Do (AddA v_jac 12 ($v_j_temp * #1.5034820000000000e+01));
  (*946*) Do (AddA v_jac 21 ($v_j_temp * #2.8053759999999997e+01));
  (*1120*) Do (Asn v_j_temp 0 (#1.0 / $v_T * ((v_fwd_rates.[125] - v_rev_rates.[125]) * (#3.0595749543437087e+04 / $v_T) + v_fwd_rates.[125] * #(-1.0) - v_rev_rates.[125] * (#(-1.0) + (- $v_T) * (v_dBdT.[19] + v_dBdT.[4] - v_dBdT.[20] - v_dBdT.[8]))) * $v_rho_inv));
  (*1121*) Do (AddA v_jac 9 ((- $v_j_temp) * #3.1998799999999999e+01));
  (*1122*) Do (AddA v_jac 5 ($v_j_temp * #3.3006740000000001e+01));
  (*1123*) Do (AddA v_jac 20 ($v_j_temp * #2.7045819999999999e+01));
  (*1124*) Do (AddA v_jac 21 ((- $v_j_temp) * #2.8053759999999997e+01));
  (*1351*) Do (Asn v_j_temp 0 (#1.0 / $v_T * ((v_fwd_rates.[126] - v_rev_rates.[126]) * (#(-8.4700000000000006e+00) + #7.1557822122972930e+03 / $v_T) + v_fwd_rates.[126] * #(-1.0) - v_rev_rates.[126] * ((- $v_T) * (v_dBdT.[28] - v_dBdT.[20] - v_dBdT.[19]))) * $v_rho_inv));
  (*1352*) Do (Asn v_jac 29 ($v_j_temp * #5.5099579999999996e+01));
  (*1353*) Do (AddA v_jac 20 ((- $v_j_temp) * #2.7045819999999999e+01));
  (*1354*) Do (AddA v_jac 21 ((- $v_j_temp) * #2.8053759999999997e+01));
  (*1528*) Do (Asn v_conc_temp 0 ($v_m - #0.3 * v_conc.[0] + #1.0 * v_conc.[5] + #5.0 * v_conc.[6] + #1.0 * v_conc.[12] + #0.5 * v_conc.[16] + #1.0 * v_conc.[17] + #2.0 * v_conc.[22]));
  (*1529*) Do (Asn v_Pr 0 ($v_conc_temp * (Exp (#4.7391841735846086e+01 - #6.09 * $v_logT - #2.5689358786060257e+03 / $v_T))));
  (*1530*) Do (Asn v_Fcent 0 (#1.5780000000000005e-01 * (Exp ($v_T / #(-1.2500000000000000e+02))) + #8.4219999999999995e-01 * (Exp ($v_T / #(-2.2190000000000000e+03))) + (Exp (#(-6.8820000000000000e+03) / $v_T))));
  (*1531*) Do (Asn v_A 0 ((Log10 (Fmax $v_Pr #1.0e-300)) - #0.67 * (Log10 (Fmax $v_Fcent #1.0e-300)) - #0.4));
  (*1532*) Do (Asn v_B 0 (#0.806 - #1.1762 * (Log10 (Fmax $v_Fcent #1.0e-300)) - #0.14 * (Log10 (Fmax $v_Pr #1.0e-300))));
  (*1533*) Do (Asn v_lnF_AB 0 (#2.0 * (Log (Fmax $v_Fcent #1.0e-300)) * $v_A / ($v_B * $v_B * $v_B * (#1.0 + $v_A * $v_A / ($v_B * $v_B)) * (#1.0 + $v_A * $v_A / ($v_B * $v_B)))));
  (*1534*) Do (Asn v_j_temp 0 ((v_pres_mod.[18] * ((#(-6.0900e+00) + #2.5689358786060257e+03 / $v_T - #1.0) / ($v_T * (#1.0 + $v_Pr)) + (#1.0 / ($v_Fcent * (#1.0 + $v_A * $v_A / ($v_B * $v_B))) - $v_lnF_AB * (#(-2.9097730287517870e-01) * $v_B + #5.1081716961460466e-01 * $v_A) / $v_Fcent) * (#(-1.2624000000000003e-03) * (Exp ($v_T / #(-1.2500000000000000e+02))) - #3.7954033348355115e-04 * (Exp ($v_T / #(-2.2190000000000000e+03))) + #6.8820000000000000e+03 / ($v_T * $v_T) * (Exp (#(-6.8820000000000000e+03) / $v_T))) - $v_lnF_AB * (#4.3429448190325176e-01 * $v_B + #6.0801227466455256e-02 * $v_A) * (#(-6.0899999999999999e+00) + #2.5689358786060257e+03 / $v_T - #1.0) / $v_T) * (v_fwd_rates.[127] - v_rev_rates.[127]) + v_pres_mod.[18] / $v_T * ((v_fwd_rates.[127] - v_rev_rates.[127]) * (#(-9.8999999999999999e-01) + #7.9508691247747697e+02 / $v_T) + v_fwd_rates.[127] * #(-1.0) - v_rev_rates.[127] * ((- $v_T) * (v_dBdT.[22] - v_dBdT.[1] - v_dBdT.[21])))) * $v_rho_inv));
  (*1535*) Do (AddA v_jac 2 ((- $v_j_temp) * #1.0079400000000001e+00));
  (*1536*) Do (AddA v_jac 22 ((- $v_j_temp) * #2.9061699999999998e+01));
  (*1537*) Do (AddA v_jac 23 ($v_j_temp * #3.0069640000000000e+01));
  (*1713*) Do (Asn v_j_temp 0 (#1.0 / $v_T * (v_fwd_rates.[128] * #(-1.0) - v_rev_rates.[128] * (#(-1.0) + (- $v_T) * (v_dBdT.[5] + v_dBdT.[20] - v_dBdT.[1] - v_dBdT.[21]))) * $v_rho_inv));
  (*1714*) Do (AddA v_jac 2 ((- $v_j_temp) * #1.0079400000000001e+00));
  (*1715*) Do (AddA v_jac 21 ($v_j_temp * #2.8053759999999997e+01));
  (*1716*) Do (AddA v_jac 22 ((- $v_j_temp) * #2.9061699999999998e+01));
  (*1717*) Do (AddA v_jac 6 ($v_j_temp * #2.0158800000000001e+00));
  (*1944*) Do (Asn v_j_temp 0 (#1.0 / $v_T * (v_fwd_rates.[129] * #(-1.0) - v_rev_rates.[129] * (#(-1.0) + (- $v_T) * (v_dBdT.[14] + v_dBdT.[11] - v_dBdT.[21] - v_dBdT.[2]))) * $v_rho_inv));
  (*1945*) Do (AddA v_jac 3 ((- $v_j_temp) * #1.5999400000000000e+01));
  (*1946*) Do (AddA v_jac 12 ($v_j_temp * #1.5034820000000000e+01));
  (*1947*) Do (AddA v_jac 22 ((- $v_j_temp) * #2.9061699999999998e+01));
  (*1948*) Do (AddA v_jac 15 ($v_j_temp * #3.0026280000000000e+01));
  (*2175*) Do (Asn v_j_temp 0 (#1.0 / $v_T * (v_fwd_rates.[130] * #(-1.0) - v_rev_rates.[130] * (#(-1.0) + (- $v_T) * (v_dBdT.[20] + v_dBdT.[4] - v_dBdT.[21] - v_dBdT.[8]))) * $v_rho_inv));
  (*2176*) Do (AddA v_jac 9 ((- $v_j_temp) * #3.1998799999999999e+01));
  (*2177*) Do (AddA v_jac 5 ($v_j_temp * #3.3006740000000001e+01));
  (*2178*) Do (AddA v_jac 21 ($v_j_temp * #2.8053759999999997e+01));
  (*2179*) Do (AddA v_jac 22 ((- $v_j_temp) * #2.9061699999999998e+01));
  (*2406*) Do (Asn v_j_temp 0 (#1.0 / $v_T * (v_fwd_rates.[131] * #(-1.0) - v_rev_rates.[131] * (#(-1.0) + (- $v_T) * (v_dBdT.[22] + v_dBdT.[8] - v_dBdT.[21] - v_dBdT.[4]))) * $v_rho_inv));
  (*2407*) Do (AddA v_jac 9 ($v_j_temp * #3.1998799999999999e+01));
  (*2408*) Do (AddA v_jac 5 ((- $v_j_temp) * #3.3006740000000001e+01));
  (*2409*) Do (AddA v_jac 22 ((- $v_j_temp) * #2.9061699999999998e+01));
  (*2410*) Do (AddA v_jac 23 ($v_j_temp * #3.0069640000000000e+01));
  (*2637*) Do (Asn v_j_temp 0 (#1.0 / $v_T * (v_fwd_rates.[132] * #(-1.0) - v_rev_rates.[132] * (#(-1.0) + (- $v_T) * (v_dBdT.[20] + v_dBdT.[7] - v_dBdT.[21] - v_dBdT.[4]))) * $v_rho_inv));
  (*2638*) Do (AddA v_jac 21 ($v_j_temp * #2.8053759999999997e+01));
  (*2639*) Do (AddA v_jac 5 ((- $v_j_temp) * #3.3006740000000001e+01));
  (*2640*) Do (AddA v_jac 22 ((- $v_j_temp) * #2.9061699999999998e+01));
  (*2641*) Do (AddA v_jac 8 ($v_j_temp * #3.4014679999999998e+01));
  (*2868*) Do (Asn v_j_temp 0 (#1.0 / $v_T * (v_fwd_rates.[133] * #(-1.0) - v_rev_rates.[133] * (#(-2.0) + (- $v_T) * (v_dBdT.[14] + v_dBdT.[11] + v_dBdT.[3] - v_dBdT.[21] - v_dBdT.[4]))) * $v_rho_inv));
  (*2869*) Do (AddA v_jac 4 ($v_j_temp * #1.7007339999999999e+01));
  (*2870*) Do (AddA v_jac 12 ($v_j_temp * #1.5034820000000000e+01));
  (*2871*) Do (AddA v_jac 5 ((- $v_j_temp) * #3.3006740000000001e+01));
  (*2872*) Do (AddA v_jac 22 ((- $v_j_temp) * #2.9061699999999998e+01));
  (*2873*) Do (AddA v_jac 15 ($v_j_temp * #3.0026280000000000e+01));
  (*3153*) Do (Asn v_j_temp 0 (#1.0 / $v_T * ((v_fwd_rates.[134] - v_rev_rates.[134]) * (#4.9013585617282439e+02 / $v_T) + v_fwd_rates.[134] * #(-1.0) - v_rev_rates.[134] * (#(-1.0) + (- $v_T) * (v_dBdT.[22] + v_dBdT.[4] - v_dBdT.[21] - v_dBdT.[7]))) * $v_rho_inv));
  (*3154*) Do (AddA v_jac 5 ($v_j_temp * #3.3006740000000001e+01));
  (*3155*) Do (AddA v_jac 22 ((- $v_j_temp) * #2.9061699999999998e+01));
  (*3156*) Do (AddA v_jac 23 ($v_j_temp * #3.0069640000000000e+01));
  (*3157*) Do (AddA v_jac 8 ((- $v_j_temp) * #3.4014679999999998e+01));
  (*3384*) Do (Asn v_Pr 0 ($v_conc_temp * (Exp (#9.2136193542584820e+01 - #11.79 * $v_logT - #4.5211761804771468e+03 / $v_T))));
  (*3385*) Do (Asn v_Fcent 0 (#8.0200000000000005e-01 * (Exp ($v_T / #(-2.2779000000000001e+03))) + #1.9800000000000001e-01 * (Exp ($v_T / #(-6.0000000000000000e+04))) + (Exp (#(-5.7231999999999998e+03) / $v_T))));
  (*3386*) Do (Asn v_A 0 ((Log10 (Fmax $v_Pr #1.0e-300)) - #0.67 * (Log10 (Fmax $v_Fcent #1.0e-300)) - #0.4));
  (*3387*) Do (Asn v_B 0 (#0.806 - #1.1762 * (Log10 (Fmax $v_Fcent #1.0e-300)) - #0.14 * (Log10 (Fmax $v_Pr #1.0e-300))));
  (*3388*) Do (Asn v_lnF_AB 0 (#2.0 * (Log (Fmax $v_Fcent #1.0e-300)) * $v_A / ($v_B * $v_B * $v_B * (#1.0 + $v_A * $v_A / ($v_B * $v_B)) * (#1.0 + $v_A * $v_A / ($v_B * $v_B)))));
  (*3389*) Do (Asn v_j_temp 0 ((v_pres_mod.[19] * ((#(-1.1790e+01) + #4.5211761804771468e+03 / $v_T - #1.0) / ($v_T * (#1.0 + $v_Pr)) + (#1.0 / ($v_Fcent * (#1.0 + $v_A * $v_A / ($v_B * $v_B))) - $v_lnF_AB * (#(-2.9097730287517870e-01) * $v_B + #5.1081716961460466e-01 * $v_A) / $v_Fcent) * (#(-3.5207866894947098e-04) * (Exp ($v_T / #(-2.2779000000000001e+03))) - #3.3000000000000002e-06 * (Exp ($v_T / #(-6.0000000000000000e+04))) + #5.7231999999999998e+03 / ($v_T * $v_T) * (Exp (#(-5.7231999999999998e+03) / $v_T))) - $v_lnF_AB * (#4.3429448190325176e-01 * $v_B + #6.0801227466455256e-02 * $v_A) * (#(-1.1789999999999999e+01) + #4.5211761804771468e+03 / $v_T - #1.0) / $v_T) * (v_fwd_rates.[135] - v_rev_rates.[135]) + v_pres_mod.[19] / $v_T * (v_fwd_rates.[135] * #(-1.0) - v_rev_rates.[135] * ((- $v_T) * (v_dBdT.[29] - v_dBdT.[21] - v_dBdT.[19])))) * $v_rho_inv));
  (*3390*) Do (AddA v_jac 20 ((- $v_j_temp) * #2.7045819999999999e+01));
  (*3391*) Do (AddA v_jac 22 ((- $v_j_temp) * #2.9061699999999998e+01));
  (*3392*) Do (Asn v_jac 30 ($v_j_temp * #5.6107519999999994e+01));
  (*3568*) Do (Asn v_j_temp 0 (#1.0 / $v_T * ((v_fwd_rates.[136] - v_rev_rates.[136]) * (#(-5.2199999999999998e+00) + #9.9370767472738844e+03 / $v_T) + v_fwd_rates.[136] * #(-1.0) - v_rev_rates.[136] * (#(-1.0) + (- $v_T) * (v_dBdT.[11] + v_dBdT.[24] - v_dBdT.[21] - v_dBdT.[19]))) * $v_rho_inv));
  (*3569*) Do (AddA v_jac 12 ($v_j_temp * #1.5034820000000000e+01));
  (*3570*) Do (AddA v_jac 25 ($v_j_temp * #4.1072699999999998e+01));
  (*3571*) Do (AddA v_jac 20 ((- $v_j_temp) * #2.7045819999999999e+01));
  (*3572*) Do (AddA v_jac 22 ((- $v_j_temp) * #2.9061699999999998e+01));
  (*3799*) Do (Asn v_j_temp 0 (#1.0 / $v_T * ((v_fwd_rates.[137] - v_rev_rates.[137]) * (#1.8999999999999999e+00 + #3.7892433233894944e+03 / $v_T) + v_fwd_rates.[137] * #(-1.0) - v_rev_rates.[137] * (#(-1.0) + (- $v_T) * (v_dBdT.[5] + v_dBdT.[21] - v_dBdT.[22] - v_dBdT.[1]))) * $v_rho_inv));
  (*3800*) Do (AddA v_jac 2 ((- $v_j_temp) * #1.0079400000000001e+00));
  (*3801*) Do (AddA v_jac 6 ($v_j_temp * #2.0158800000000001e+00));
  (*3802*) Do (AddA v_jac 23 ((- $v_j_temp) * #3.0069640000000000e+01));
  (*3803*) Do (AddA v_jac 22 ($v_j_temp * #2.9061699999999998e+01));
  (*4030*) Do (Asn v_j_temp 0 (#1.0 / $v_T * ((v_fwd_rates.[138] - v_rev_rates.[138]) * (#1.9199999999999999e+00 + #2.8633193240486353e+03 / $v_T) + v_fwd_rates.[138] * #(-1.0) - v_rev_rates.[138] * (#(-1.0) + (- $v_T) * (v_dBdT.[21] + v_dBdT.[3] - v_dBdT.[22] - v_dBdT.[2]))) * $v_rho_inv));
  (*4031*) Do (AddA v_jac 3 ((- $v_j_temp) * #1.5999400000000000e+01));
  (*4032*) Do (AddA v_jac 4 ($v_j_temp * #1.7007339999999999e+01));
  (*4033*) Do (AddA v_jac 22 ($v_j_temp * #2.9061699999999998e+01));
  (*4034*) Do (AddA v_jac 23 ((- $v_j_temp) * #3.0069640000000000e+01));
  (*4261*) Do (Asn v_j_temp 0 (#1.0 / $v_T * ((v_fwd_rates.[139] - v_rev_rates.[139]) * (#2.1200000000000001e+00 + #4.3780102142747148e+02 / $v_T) + v_fwd_rates.[139] * #(-1.0) - v_rev_rates.[139] * (#(-1.0) + (- $v_T) * (v_dBdT.[21] + v_dBdT.[6] - v_dBdT.[22] - v_dBdT.[3]))) * $v_rho_inv));
  (*4262*) Do (AddA v_jac 7 ($v_j_temp * #1.8015280000000001e+01));
  (*4263*) Do (AddA v_jac 4 ((- $v_j_temp) * #1.7007339999999999e+01));
  (*4264*) Do (AddA v_jac 22 ($v_j_temp * #2.9061699999999998e+01));
  (*4265*) Do (AddA v_jac 23 ((- $v_j_temp) * #3.0069640000000000e+01));
  (*4492*) Do (Asn v_j_temp 0 (#1.0 / $v_T * ((v_fwd_rates.[140] - v_rev_rates.[140]) * (#(-2.7677076067253944e+02) / $v_T) + v_fwd_rates.[140] * #(-1.0) - v_rev_rates.[140] * (#(-1.0) + (- $v_T) * (v_dBdT.[21] + v_dBdT.[11] - v_dBdT.[22] - v_dBdT.[10]))) * $v_rho_inv));
  (*4493*) Do (AddA v_jac 11 ((- $v_j_temp) * #1.4026879999999998e+01));
  (*4494*) Do (AddA v_jac 12 ($v_j_temp * #1.5034820000000000e+01));
  (*4495*) Do (AddA v_jac 22 ($v_j_temp * #2.9061699999999998e+01));
  (*4496*) Do (AddA v_jac 23 ((- $v_j_temp) * #3.0069640000000000e+01));
  (*4723*) Do (Asn v_j_temp 0 (#1.0 / $v_T * ((v_fwd_rates.[141] - v_rev_rates.[141]) * (#1.7400000000000000e+00 + #5.2586444527782496e+03 / $v_T) + v_fwd_rates.[141] * #(-1.0) - v_rev_rates.[141] * (#(-1.0) + (- $v_T) * (v_dBdT.[21] + v_dBdT.[12] - v_dBdT.[22] - v_dBdT.[11]))) * $v_rho_inv));
  (*4724*) Do (AddA v_jac 12 ((- $v_j_temp) * #1.5034820000000000e+01));
  (*4725*) Do (AddA v_jac 13 ($v_j_temp * #1.6042760000000001e+01));
  (*4726*) Do (AddA v_jac 22 ($v_j_temp * #2.9061699999999998e+01));
  (*4727*) Do (AddA v_jac 23 ((- $v_j_temp) * #3.0069640000000000e+01));
  (*4954*) Do (Asn v_Pr 0 ($v_conc_temp * (Exp (#9.8603190760417675e+01 - #12.0 * $v_logT - #3.0031137191665107e+03 / $v_T))));
  (*4955*) Do (Asn v_Fcent 0 (#9.7999999999999998e-01 * (Exp ($v_T / #(-1.0965999999999999e+03))) + #2.0000000000000000e-02 * (Exp ($v_T / #(-1.0965999999999999e+03))) + (Exp (#(-6.8595000000000000e+03) / $v_T))));
  (*4956*) Do (Asn v_A 0 ((Log10 (Fmax $v_Pr #1.0e-300)) - #0.67 * (Log10 (Fmax $v_Fcent #1.0e-300)) - #0.4));
  (*4957*) Do (Asn v_B 0 (#0.806 - #1.1762 * (Log10 (Fmax $v_Fcent #1.0e-300)) - #0.14 * (Log10 (Fmax $v_Pr #1.0e-300))));
  (*4958*) Do (Asn v_lnF_AB 0 (#2.0 * (Log (Fmax $v_Fcent #1.0e-300)) * $v_A / ($v_B * $v_B * $v_B * (#1.0 + $v_A * $v_A / ($v_B * $v_B)) * (#1.0 + $v_A * $v_A / ($v_B * $v_B)))));
  (*4959*) Do (Asn v_j_temp 0 ((v_pres_mod.[20] * ((#(-1.2000e+01) + #3.0031137191665107e+03 / $v_T - #1.0) / ($v_T * (#1.0 + $v_Pr)) + (#1.0 / ($v_Fcent * (#1.0 + $v_A * $v_A / ($v_B * $v_B))) - $v_lnF_AB * (#(-2.9097730287517870e-01) * $v_B + #5.1081716961460466e-01 * $v_A) / $v_Fcent) * (#(-8.9367134780229810e-04) * (Exp ($v_T / #(-1.0965999999999999e+03))) - #1.8238190771475471e-05 * (Exp ($v_T / #(-1.0965999999999999e+03))) + #6.8595000000000000e+03 / ($v_T * $v_T) * (Exp (#(-6.8595000000000000e+03) / $v_T))) - $v_lnF_AB * (#4.3429448190325176e-01 * $v_B + #6.0801227466455256e-02 * $v_A) * (#(-1.2000000000000000e+01) + #3.0031137191665107e+03 / $v_T - #1.0) / $v_T) * (v_fwd_rates.[142] - v_rev_rates.[142]) + v_pres_mod.[20] / $v_T * (v_fwd_rates.[142] * #(-1.0) - v_rev_rates.[142] * ((- $v_T) * (v_dBdT.[25] - v_dBdT.[1] - v_dBdT.[24])))) * $v_rho_inv));
  (*4960*) Do (AddA v_jac 25 ((- $v_j_temp) * #4.1072699999999998e+01));
  (*4961*) Do (AddA v_jac 2 ((- $v_j_temp) * #1.0079400000000001e+00));
  (*4962*) Do (AddA v_jac 26 ($v_j_temp * #4.2080640000000002e+01));
  (*5138*) Do (Asn v_j_temp 0 (#1.0 / $v_T * (v_fwd_rates.[143] * #(-1.0) - v_rev_rates.[143] * (#(-1.0) + (- $v_T) * (v_dBdT.[1] + v_dBdT.[27] - v_dBdT.[24] - v_dBdT.[2]))) * $v_rho_inv));
  (*5139*) Do (AddA v_jac 25 ((- $v_j_temp) * #4.1072699999999998e+01));
  (*5140*) Do (AddA v_jac 2 ($v_j_temp * #1.0079400000000001e+00));
  (*5141*) Do (AddA v_jac 3 ((- $v_j_temp) * #1.5999400000000000e+01));
  (*5142*) Do (AddA v_jac 28 ($v_j_temp * #5.6064160000000001e+01));
  (*5369*) Do (Asn v_j_temp 0 (#1.0 / $v_T * ((v_fwd_rates.[144] - v_rev_rates.[144]) * (#(-5.1600000000000001e+00) + #1.5159992610947134e+04 / $v_T) + v_fwd_rates.[144] * #(-1.0) - v_rev_rates.[144] * (#(-2.0) + (- $v_T) * (#2.0 * v_dBdT.[1] + v_dBdT.[27] - v_dBdT.[24] - v_dBdT.[3]))) * $v_rho_inv));
  (*5370*) Do (AddA v_jac 25 ((- $v_j_temp) * #4.1072699999999998e+01));
  (*5371*) Do (AddA v_jac 2 ($v_j_temp * #2.0 * #1.0079400000000001e+00));
  (*5372*) Do (AddA v_jac 4 ((- $v_j_temp) * #1.7007339999999999e+01));
  (*5373*) Do (AddA v_jac 28 ($v_j_temp * #5.6064160000000001e+01));
  (*5600*) Do (Asn v_j_temp 0 (#1.0 / $v_T * ((v_fwd_rates.[145] - v_rev_rates.[145]) * (#(-4.0999999999999998e-01) + #1.1503096033115598e+04 / $v_T) + v_fwd_rates.[145] * #(-1.0) - v_rev_rates.[145] * (#(-1.0) + (- $v_T) * (v_dBdT.[27] + v_dBdT.[3] - v_dBdT.[24] - v_dBdT.[8]))) * $v_rho_inv));
  (*5601*) Do (AddA v_jac 25 ((- $v_j_temp) * #4.1072699999999998e+01));
  (*5602*) Do (AddA v_jac 9 ((- $v_j_temp) * #3.1998799999999999e+01));
  (*5603*) Do (AddA v_jac 28 ($v_j_temp * #5.6064160000000001e+01));
  (*5604*) Do (AddA v_jac 4 ($v_j_temp * #1.7007339999999999e+01));
  (*5831*) Do (Asn v_j_temp 0 (#1.0 / $v_T * (v_fwd_rates.[146] * #(-1.0) - v_rev_rates.[146] * (#(-1.0) + (- $v_T) * (v_dBdT.[25] + v_dBdT.[8] - v_dBdT.[24] - v_dBdT.[4]))) * $v_rho_inv));
  (*5832*) Do (AddA v_jac 25 ((- $v_j_temp) * #4.1072699999999998e+01));
  (*5833*) Do (AddA v_jac 26 ($v_j_temp * #4.2080640000000002e+01));
  (*5834*) Do (AddA v_jac 5 ((- $v_j_temp) * #3.3006740000000001e+01));
  (*5835*) Do (AddA v_jac 9 ($v_j_temp * #3.1998799999999999e+01));
  (*6062*) Do (Asn v_j_temp 0 (#1.0 / $v_T * (v_fwd_rates.[147] * #(-1.0) - v_rev_rates.[147] * (#(-2.0) + (- $v_T) * (v_dBdT.[14] + v_dBdT.[19] + v_dBdT.[3] - v_dBdT.[24] - v_dBdT.[4]))) * $v_rho_inv));
  (*6063*) Do (AddA v_jac 25 ((- $v_j_temp) * #4.1072699999999998e+01));
  (*6064*) Do (AddA v_jac 4 ($v_j_temp * #1.7007339999999999e+01));
  (*6065*) Do (AddA v_jac 20 ($v_j_temp * #2.7045819999999999e+01));
  (*6066*) Do (AddA v_jac 5 ((- $v_j_temp) * #3.3006740000000001e+01));
  (*6067*) Do (AddA v_jac 15 ($v_j_temp * #3.0026280000000000e+01));
  (*6347*) Do (Asn v_j_temp 0 (#1.0 / $v_T * (v_fwd_rates.[148] * #(-1.0) - v_rev_rates.[148] * (#(-1.0) + (- $v_T) * (v_dBdT.[25] + v_dBdT.[16] - v_dBdT.[24] - v_dBdT.[13]))) * $v_rho_inv));
  (*6348*) Do (AddA v_jac 25 ((- $v_j_temp) * #4.1072699999999998e+01));
  (*6349*) Do (AddA v_jac 26 ($v_j_temp * #4.2080640000000002e+01));
  (*6350*) Do (AddA v_jac 14 ((- $v_j_temp) * #2.9018339999999998e+01));
  (*6351*) Do (AddA v_jac 17 ($v_j_temp * #2.8010399999999997e+01));
  (*6578*) Do (Asn v_Pr 0 ($v_conc_temp * (Exp (#1.0037469637274124e+02 - #12.49 * $v_logT - #3.2771167722323248e+03 / $v_T))));
  (*6579*) Do (Asn v_Fcent 0 (#8.9600000000000002e-01 * (Exp ($v_T / #(-1.6060000000000000e+03))) + #1.0400000000000000e-01 * (Exp ($v_T / #(-6.0000000000000000e+04))) + (Exp (#(-6.1183999999999996e+03) / $v_T))));
  (*6580*) Do (Asn v_A 0 ((Log10 (Fmax $v_Pr #1.0e-300)) - #0.67 * (Log10 (Fmax $v_Fcent #1.0e-300)) - #0.4));
  (*6581*) Do (Asn v_B 0 (#0.806 - #1.1762 * (Log10 (Fmax $v_Fcent #1.0e-300)) - #0.14 * (Log10 (Fmax $v_Pr #1.0e-300))));
  (*6582*) Do (Asn v_lnF_AB 0 (#2.0 * (Log (Fmax $v_Fcent #1.0e-300)) * $v_A / ($v_B * $v_B * $v_B * (#1.0 + $v_A * $v_A / ($v_B * $v_B)) * (#1.0 + $v_A * $v_A / ($v_B * $v_B)))));
  (*6583*) Do (Asn v_j_temp 0 ((v_pres_mod.[21] * ((#(-1.2490e+01) + #3.2771167722323248e+03 / $v_T - #1.0) / ($v_T * (#1.0 + $v_Pr)) + (#1.0 / ($v_Fcent * (#1.0 + $v_A * $v_A / ($v_B * $v_B))) - $v_lnF_AB * (#(-2.9097730287517870e-01) * $v_B + #5.1081716961460466e-01 * $v_A) / $v_Fcent) * (#(-5.5790784557907850e-04) * (Exp ($v_T / #(-1.6060000000000000e+03))) - #1.7333333333333332e-06 * (Exp ($v_T / #(-6.0000000000000000e+04))) + #6.1183999999999996e+03 / ($v_T * $v_T) * (Exp (#(-6.1183999999999996e+03) / $v_T))) - $v_lnF_AB * (#4.3429448190325176e-01 * $v_B + #6.0801227466455256e-02 * $v_A) * (#(-1.2490000000000000e+01) + #3.2771167722323248e+03 / $v_T - #1.0) / $v_T) * (v_fwd_rates.[149] - v_rev_rates.[149]) + v_pres_mod.[21] / $v_T * ((v_fwd_rates.[149] - v_rev_rates.[149]) * (#(-3.2000000000000001e-01) + #(-1.3199449186255836e+02) / $v_T) + v_fwd_rates.[149] * #(-1.0) - v_rev_rates.[149] * ((- $v_T) * (v_dBdT.[29] - v_dBdT.[11] - v_dBdT.[24])))) * $v_rho_inv));
  (*6584*) Do (AddA v_jac 25 ((- $v_j_temp) * #4.1072699999999998e+01));
  (*6585*) Do (AddA v_jac 12 ((- $v_j_temp) * #1.5034820000000000e+01));
  (*6586*) Do (AddA v_jac 30 ($v_j_temp * #5.6107519999999994e+01));
  (*6762*) Do (Asn v_Pr 0 ($v_conc_temp * (Exp (#5.2205873288747348e+01 - #6.66 * $v_logT - #1.8816889188778669e+03 / $v_T))));
  (*6763*) Do (Asn v_Fcent 0 (#0.0000000000000000e+00 * (Exp ($v_T / #(-1.0000000000000000e+03))) + #1.0000000000000000e+00 * (Exp ($v_T / #(-1.3100000000000000e+03))) + (Exp (#(-4.8097000000000000e+04) / $v_T))));
  (*6764*) Do (Asn v_A 0 ((Log10 (Fmax $v_Pr #1.0e-300)) - #0.67 * (Log10 (Fmax $v_Fcent #1.0e-300)) - #0.4));
  (*6765*) Do (Asn v_B 0 (#0.806 - #1.1762 * (Log10 (Fmax $v_Fcent #1.0e-300)) - #0.14 * (Log10 (Fmax $v_Pr #1.0e-300))));
  (*6766*) Do (Asn v_lnF_AB 0 (#2.0 * (Log (Fmax $v_Fcent #1.0e-300)) * $v_A / ($v_B * $v_B * $v_B * (#1.0 + $v_A * $v_A / ($v_B * $v_B)) * (#1.0 + $v_A * $v_A / ($v_B * $v_B)))));
  (*6767*) Do (Asn v_j_temp 0 ((v_pres_mod.[22] * ((#(-6.6600e+00) + #1.8816889188778669e+03 / $v_T - #1.0) / ($v_T * (#1.0 + $v_Pr)) + (#1.0 / ($v_Fcent * (#1.0 + $v_A * $v_A / ($v_B * $v_B))) - $v_lnF_AB * (#(-2.9097730287517870e-01) * $v_B + #5.1081716961460466e-01 * $v_A) / $v_Fcent) * (#(-0.0000000000000000e+00) * (Exp ($v_T / #(-1.0000000000000000e+03))) - #7.6335877862595419e-04 * (Exp ($v_T / #(-1.3100000000000000e+03))) + #4.8097000000000000e+04 / ($v_T * $v_T) * (Exp (#(-4.8097000000000000e+04) / $v_T))) - $v_lnF_AB * (#4.3429448190325176e-01 * $v_B + #6.0801227466455256e-02 * $v_A) * (#(-6.6600000000000001e+00) + #1.8816889188778669e+03 / $v_T - #1.0) / $v_T) * (v_fwd_rates.[150] - v_rev_rates.[150]) + v_pres_mod.[22] / $v_T * ((v_fwd_rates.[150] - v_rev_rates.[150]) * (#1.6408480351362714e+03 / $v_T) + v_fwd_rates.[150] * #(-1.0) - v_rev_rates.[150] * ((- $v_T) * (v_dBdT.[26] - v_dBdT.[25] - v_dBdT.[1])))) * $v_rho_inv));
  (*6768*) Do (AddA v_jac 26 ((- $v_j_temp) * #4.2080640000000002e+01));
  (*6769*) Do (AddA v_jac 27 ($v_j_temp * #4.3088580000000000e+01));
  (*6770*) Do (AddA v_jac 2 ((- $v_j_temp) * #1.0079400000000001e+00));
  (*6946*) Do (Asn v_j_temp 0 (#1.0 / $v_T * ((v_fwd_rates.[151] - v_rev_rates.[151]) * (#(-2.3900000000000001e+00) + #5.6259947351254386e+03 / $v_T) + v_fwd_rates.[151] * #(-1.0) - v_rev_rates.[151] * (#(-1.0) + (- $v_T) * (v_dBdT.[11] + v_dBdT.[20] - v_dBdT.[25] - v_dBdT.[1]))) * $v_rho_inv));
  (*6947*) Do (AddA v_jac 26 ((- $v_j_temp) * #4.2080640000000002e+01));
  (*6948*) Do (AddA v_jac 12 ($v_j_temp * #1.5034820000000000e+01));
  (*6949*) Do (AddA v_jac 21 ($v_j_temp * #2.8053759999999997e+01));
  (*6950*) Do (AddA v_jac 2 ((- $v_j_temp) * #1.0079400000000001e+00));
  (*7177*) Do (Asn v_j_temp 0 (#1.0 / $v_T * ((v_fwd_rates.[152] - v_rev_rates.[152]) * (#2.5000000000000000e+00 + #1.2530167164993150e+03 / $v_T) + v_fwd_rates.[152] * #(-1.0) - v_rev_rates.[152] * (#(-1.0) + (- $v_T) * (v_dBdT.[5] + v_dBdT.[24] - v_dBdT.[25] - v_dBdT.[1]))) * $v_rho_inv));
  (*7178*) Do (AddA v_jac 25 ($v_j_temp * #4.1072699999999998e+01));
  (*7179*) Do (AddA v_jac 26 ((- $v_j_temp) * #4.2080640000000002e+01));
  (*7180*) Do (AddA v_jac 6 ($v_j_temp * #2.0158800000000001e+00));
  (*7181*) Do (AddA v_jac 2 ((- $v_j_temp) * #1.0079400000000001e+00));
  (*7408*) Do (Asn v_j_temp 0 (#1.0 / $v_T * ((v_fwd_rates.[153] - v_rev_rates.[153]) * (#1.6499999999999999e+00 + #1.6455279770894617e+02 / $v_T) + v_fwd_rates.[153] * #(-1.0) - v_rev_rates.[153] * (#(-2.0) + (- $v_T) * (#2.0 * v_dBdT.[1] + v_dBdT.[27] - v_dBdT.[25] - v_dBdT.[2]))) * $v_rho_inv));
  (*7409*) Do (AddA v_jac 26 ((- $v_j_temp) * #4.2080640000000002e+01));
  (*7410*) Do (AddA v_jac 3 ((- $v_j_temp) * #1.5999400000000000e+01));
  (*7411*) Do (AddA v_jac 28 ($v_j_temp * #5.6064160000000001e+01));
  (*7412*) Do (AddA v_jac 2 ($v_j_temp * #2.0 * #1.0079400000000001e+00));
  (*7639*) Do (Asn v_j_temp 0 (#1.0 / $v_T * ((v_fwd_rates.[154] - v_rev_rates.[154]) * (#1.6499999999999999e+00 + #(-4.8912941704310606e+02) / $v_T) + v_fwd_rates.[154] * #(-1.0) - v_rev_rates.[154] * (#(-1.0) + (- $v_T) * (v_dBdT.[21] + v_dBdT.[13] - v_dBdT.[25] - v_dBdT.[2]))) * $v_rho_inv));
  (*7640*) Do (AddA v_jac 26 ((- $v_j_temp) * #4.2080640000000002e+01));
  (*7641*) Do (AddA v_jac 3 ((- $v_j_temp) * #1.5999400000000000e+01));
  (*7642*) Do (AddA v_jac 22 ($v_j_temp * #2.9061699999999998e+01));
  (*7643*) Do (AddA v_jac 14 ($v_j_temp * #2.9018339999999998e+01));
  (*7870*) Do (Asn v_j_temp 0 (#1.0 / $v_T * ((v_fwd_rates.[155] - v_rev_rates.[155]) * (#6.9999999999999996e-01 + #2.9589310413718763e+03 / $v_T) + v_fwd_rates.[155] * #(-1.0) - v_rev_rates.[155] * (#(-1.0) + (- $v_T) * (v_dBdT.[24] + v_dBdT.[3] - v_dBdT.[25] - v_dBdT.[2]))) * $v_rho_inv));
  (*7871*) Do (AddA v_jac 25 ($v_j_temp * #4.1072699999999998e+01));
  (*7872*) Do (AddA v_jac 26 ((- $v_j_temp) * #4.2080640000000002e+01));
  (*7873*) Do (AddA v_jac 3 ((- $v_j_temp) * #1.5999400000000000e+01));
  (*7874*) Do (AddA v_jac 4 ($v_j_temp * #1.7007339999999999e+01));
  (*8101*) Do (Asn v_j_temp 0 (#1.0 / $v_T * ((v_fwd_rates.[156] - v_rev_rates.[156]) * (#2.0000000000000000e+00 + #(-1.4995943032803046e+02) / $v_T) + v_fwd_rates.[156] * #(-1.0) - v_rev_rates.[156] * (#(-1.0) + (- $v_T) * (v_dBdT.[6] + v_dBdT.[24] - v_dBdT.[25] - v_dBdT.[3]))) * $v_rho_inv));
  (*8102*) Do (AddA v_jac 25 ($v_j_temp * #4.1072699999999998e+01));
  (*8103*) Do (AddA v_jac 26 ((- $v_j_temp) * #4.2080640000000002e+01));
  (*8104*) Do (AddA v_jac 4 ((- $v_j_temp) * #1.7007339999999999e+01));
  (*8105*) Do (AddA v_jac 7 ($v_j_temp * #1.8015280000000001e+01));
  (*8332*) Do (Asn v_j_temp 0 (#1.0 / $v_T * ((v_fwd_rates.[157] - v_rev_rates.[157]) * (#2.6000000000000001e+00 + #6.9997841471909524e+03 / $v_T) + v_fwd_rates.[157] * #(-1.0) - v_rev_rates.[157] * (#(-1.0) + (- $v_T) * (v_dBdT.[24] + v_dBdT.[7] - v_dBdT.[25] - v_dBdT.[4]))) * $v_rho_inv));
  (*8333*) Do (AddA v_jac 25 ($v_j_temp * #4.1072699999999998e+01));
  (*8334*) Do (AddA v_jac 26 ((- $v_j_temp) * #4.2080640000000002e+01));
  (*8335*) Do (AddA v_jac 5 ((- $v_j_temp) * #3.3006740000000001e+01));
  (*8336*) Do (AddA v_jac 8 ($v_j_temp * #3.4014679999999998e+01));
  (*8563*) Do (Asn v_j_temp 0 (#1.0 / $v_T * ((v_fwd_rates.[158] - v_rev_rates.[158]) * (#3.5000000000000000e+00 + #2.8557710305757478e+03 / $v_T) + v_fwd_rates.[158] * #(-1.0) - v_rev_rates.[158] * (#(-1.0) + (- $v_T) * (v_dBdT.[24] + v_dBdT.[12] - v_dBdT.[25] - v_dBdT.[11]))) * $v_rho_inv));
  (*8564*) Do (AddA v_jac 25 ($v_j_temp * #4.1072699999999998e+01));
  (*8565*) Do (AddA v_jac 26 ((- $v_j_temp) * #4.2080640000000002e+01));
  (*8566*) Do (AddA v_jac 12 ((- $v_j_temp) * #1.5034820000000000e+01));
  (*8567*) Do (AddA v_jac 13 ($v_j_temp * #1.6042760000000001e+01));
  (*8794*) Do (Asn v_j_temp 0 (#1.0 / $v_T * ((v_fwd_rates.[159] - v_rev_rates.[159]) * (#4.5400000000000001e-01 + #2.9287378674803267e+03 / $v_T) + v_fwd_rates.[159] * #(-1.0) - v_rev_rates.[159] * (#(-1.0) + (- $v_T) * (v_dBdT.[20] + v_dBdT.[13] - v_dBdT.[1] - v_dBdT.[27]))) * $v_rho_inv));
  (*8795*) Do (AddA v_jac 2 ((- $v_j_temp) * #1.0079400000000001e+00));
  (*8796*) Do (AddA v_jac 28 ((- $v_j_temp) * #5.6064160000000001e+01));
  (*8797*) Do (AddA v_jac 21 ($v_j_temp * #2.8053759999999997e+01));
  (*8798*) Do (AddA v_jac 14 ($v_j_temp * #2.9018339999999998e+01))].

(** [eval_jacob_4], yao/lib/src/jacobs/jacob_4.c:4-9163: the declarations and the blocks "partial of
    rxn ... wrt T" (the blocks "wrt species" write other elements of [jac]). *)
Definition yao_jac_T4 : list stmt := [
  (*6*) Do (Asn v_logT 0 ((Log $v_T)));
  (*7*) Do (Asn v_kf 0 (#0.0));
  (*8*) Do (Asn v_j_temp 0 (#0.0));
  (*9*) Do (Asn v_pres_mod_temp 0 (#0.0));
  (*10*) Do (Asn v_Kc 0 (#0.0));
  (*11*) Do (Asn v_kr 0 (#0.0));
  (*12*) Do (Asn v_Pr 0 (#0.0));
  (*13*) Do (Asn v_Fcent 0 (#0.0));
  (*14*) Do (Asn v_A 0 (#0.0));
  (*15*) Do (Asn v_B 0 (#0.0));
  (*16*) Do (Asn v_lnF_AB 0 (#0.0));
  (*17*) Do (Asn v_rho_inv 0 (#1.0 / $v_rho));
  (*19*) Do (Asn v_j_temp 0 (#1.0 / $v_T * ((v_fwd_rates.[160] - v_rev_rates.[160]) * (#1.7813972596014357e+03 / $v_T) + v_fwd_rates.[160] * #(-1.0) - v_rev_rates.[160] * (#(-2.0) + (- $v_T) * (v_dBdT.[19] + v_dBdT.[16] + v_dBdT.[3] - v_dBdT.[27] - v_dBdT.[2]))) * $v_rho_inv));
  (*20*) Do (AddA v_jac 20 ($v_j_temp * #2.7045819999999999e+01));
  (*21*) Do (AddA v_jac 17 ($v_j_temp * #2.8010399999999997e+01));
  (*22*) Do (AddA v_jac 3 ((- $v_j_temp) * #1.5999400000000000e+01));
  (*23*) Do (AddA v_jac 28 ((- $v_j_temp) * #5.6064160000000001e+01));
  (*24*) Do (AddA v_jac 4 ($v_j_temp * #1.7007339999999999e+01));
  (*304*) Do (Asn v_j_temp 0 (#1.0 / $v_T * ((v_fwd_rates.[161] - v_rev_rates.[161]) * (#1.1799999999999999e+00 + #(-2.2493914549204570e+02) / $v_T) + v_fwd_rates.[161] * #(-1.0) - v_rev_rates.[161] * (#(-2.0) + (- $v_T) * (v_dBdT.[19] + v_dBdT.[6] + v_dBdT.[16] - v_dBdT.[27] - v_dBdT.[3]))) * $v_rho_inv));
  (*305*) Do (AddA v_jac 4 ((- $v_j_temp) * #1.7007339999999999e+01));
  (*306*) Do (AddA v_jac 20 ($v_j_temp * #2.7045819999999999e+01));
  (*307*) Do (AddA v_jac 28 ((- $v_j_temp) * #5.6064160000000001e+01));
  (*308*) Do (AddA v_jac 7 ($v_j_temp * #1.8015280000000001e+01));
  (*309*) Do (AddA v_jac 17 ($v_j_temp * #2.8010399999999997e+01));
  (*589*) Do (Asn v_j_temp 0 (#1.0 / $v_T * ((v_fwd_rates.[162] - v_rev_rates.[162]) * (#(-2.9199999999999999e+00) + #6.2927606585638287e+03 / $v_T) + v_fwd_rates.[162] * #(-1.0) - v_rev_rates.[162] * (#(-1.0) + (- $v_T) * (v_dBdT.[21] + v_dBdT.[11] - v_dBdT.[1] - v_dBdT.[26]))) * $v_rho_inv));
  (*590*) Do (AddA v_jac 2 ((- $v_j_temp) * #1.0079400000000001e+00));
  (*591*) Do (AddA v_jac 27 ((- $v_j_temp) * #4.3088580000000000e+01));
  (*592*) Do (AddA v_jac 12 ($v_j_temp * #1.5034820000000000e+01));
  (*593*) Do (AddA v_jac 22 ($v_j_temp * #2.9061699999999998e+01));
  (*820*) Do (Asn v_j_temp 0 (#1.0 / $v_T * (v_fwd_rates.[163] * #(-1.0) - v_rev_rates.[163] * (#(-1.0) + (- $v_T) * (v_dBdT.[25] + v_dBdT.[5] - v_dBdT.[1] - v_dBdT.[26]))) * $v_rho_inv));
  (*821*) Do (AddA v_jac 2 ((- $v_j_temp) * #1.0079400000000001e+00));
  (*822*) Do (AddA v_jac 27 ((- $v_j_temp) * #4.3088580000000000e+01));
  (*823*) Do (AddA v_jac 6 ($v_j_temp * #2.0158800000000001e+00));
  (*824*) Do (AddA v_jac 26 ($v_j_temp * #4.2080640000000002e+01));
  (*1051*) Do (Asn v_j_temp 0 (#1.0 / $v_T * (v_fwd_rates.[164] * #(-1.0) - v_rev_rates.[164] * (#(-1.0) + (- $v_T) * (v_dBdT.[14] + v_dBdT.[21] - v_dBdT.[26] - v_dBdT.[2]))) * $v_rho_inv));
  (*1052*) Do (AddA v_jac 27 ((- $v_j_temp) * #4.3088580000000000e+01));
  (*1053*) Do (AddA v_jac 3 ((- $v_j_temp) * #1.5999400000000000e+01));
  (*1054*) Do (AddA v_jac 15 ($v_j_temp * #3.0026280000000000e+01));
  (*1055*) Do (AddA v_jac 22 ($v_j_temp * #2.9061699999999998e+01));
  (*1282*) Do (Asn v_j_temp 0 (#1.0 / $v_T * (v_fwd_rates.[165] * #(-1.0) - v_rev_rates.[165] * (#(-1.0) + (- $v_T) * (v_dBdT.[25] + v_dBdT.[6] - v_dBdT.[26] - v_dBdT.[3]))) * $v_rho_inv));
  (*1283*) Do (AddA v_jac 26 ($v_j_temp * #4.2080640000000002e+01));
  (*1284*) Do (AddA v_jac 27 ((- $v_j_temp) * #4.3088580000000000e+01));
  (*1285*) Do (AddA v_jac 4 ((- $v_j_temp) * #1.7007339999999999e+01));
  (*1286*) Do (AddA v_jac 7 ($v_j_temp * #1.8015280000000001e+01));
  (*1513*) Do (Asn v_j_temp 0 (#1.0 / $v_T * (v_fwd_rates.[166] * #(-1.0) - v_rev_rates.[166] * (#(-1.0) + (- $v_T) * (v_dBdT.[25] + v_dBdT.[4] - v_dBdT.[26] - v_dBdT.[8]))) * $v_rho_inv));
  (*1514*) Do (AddA v_jac 9 ((- $v_j_temp) * #3.1998799999999999e+01));
  (*1515*) Do (AddA v_jac 26 ($v_j_temp * #4.2080640000000002e+01));
  (*1516*) Do (AddA v_jac 27 ((- $v_j_temp) * #4.3088580000000000e+01));
  (*1517*) Do (AddA v_jac 5 ($v_j_temp * #3.3006740000000001e+01));
  (*1744*) Do (Asn v_j_temp 0 (#1.0 / $v_T * (v_fwd_rates.[167] * #(-1.0) - v_rev_rates.[167] * (#(-2.0) + (- $v_T) * (v_dBdT.[14] + v_dBdT.[21] + v_dBdT.[3] - v_dBdT.[26] - v_dBdT.[4]))) * $v_rho_inv));
  (*1745*) Do (AddA v_jac 27 ((- $v_j_temp) * #4.3088580000000000e+01));
  (*1746*) Do (AddA v_jac 4 ($v_j_temp * #1.7007339999999999e+01));
  (*1747*) Do (AddA v_jac 5 ((- $v_j_temp) * #3.3006740000000001e+01));
  (*1748*) Do (AddA v_jac 22 ($v_j_temp * #2.9061699999999998e+01));
  (*1749*) Do (AddA v_jac 15 ($v_j_temp * #3.0026280000000000e+01));
  (*2029*) Do (Asn v_j_temp 0 (#1.0 / $v_T * (v_fwd_rates.[168] * #(-1.0) - v_rev_rates.[168] * (#(-1.0) + (- $v_T) * (v_dBdT.[25] + v_dBdT.[12] - v_dBdT.[26] - v_dBdT.[11]))) * $v_rho_inv));
  (*2030*) Do (AddA v_jac 26 ($v_j_temp * #4.2080640000000002e+01));
  (*2031*) Do (AddA v_jac 27 ((- $v_j_temp) * #4.3088580000000000e+01));
  (*2032*) Do (AddA v_jac 12 ((- $v_j_temp) * #1.5034820000000000e+01));
  (*2033*) Do (AddA v_jac 13 ($v_j_temp * #1.6042760000000001e+01));
  (*2260*) Do (Asn v_conc_temp 0 ($v_m - #0.3 * v_conc.[0] + #1.0 * v_conc.[5] + #5.0 * v_conc.[6] + #1.0 * v_conc.[12] + #0.5 * v_conc.[16] + #1.0 * v_conc.[17] + #2.0 * v_conc.[22]));
  (*2261*) Do (Asn v_Pr 0 ($v_conc_temp * (Exp (#7.3503729209108187e+01 - #9.32 * $v_logT - #2.9355816535624112e+03 / $v_T))));
  (*2262*) Do (Asn v_Fcent 0 (#5.0200000000000000e-01 * (Exp ($v_T / #(-1.3140000000000000e+03))) + #4.9800000000000000e-01 * (Exp ($v_T / #(-1.3140000000000000e+03))) + (Exp (#(-5.0000000000000000e+04) / $v_T))));
  (*2263*) Do (Asn v_A 0 ((Log10 (Fmax $v_Pr #1.0e-300)) - #0.67 * (Log10 (Fmax $v_Fcent #1.0e-300)) - #0.4));
  (*2264*) Do (Asn v_B 0 (#0.806 - #1.1762 * (Log10 (Fmax $v_Fcent #1.0e-300)) - #0.14 * (Log10 (Fmax $v_Pr #1.0e-300))));
  (*2265*) Do (Asn v_lnF_AB 0 (#2.0 * (Log (Fmax $v_Fcent #1.0e-300)) * $v_A / ($v_B * $v_B * $v_B * (#1.0 + $v_A * $v_A / ($v_B * $v_B)) * (#1.0 + $v_A * $v_A / ($v_B * $v_B)))));
  (*2266*) Do (Asn v_j_temp 0 ((v_pres_mod.[23] * ((#(-9.3200e+00) + #2.9355816535624112e+03 / $v_T - #1.0) / ($v_T * (#1.0 + $v_Pr)) + (#1.0 / ($v_Fcent * (#1.0 + $v_A * $v_A / ($v_B * $v_B))) - $v_lnF_AB * (#(-2.9097730287517870e-01) * $v_B + #5.1081716961460466e-01 * $v_A) / $v_Fcent) * (#(-3.8203957382039575e-04) * (Exp ($v_T / #(-1.3140000000000000e+03))) - #3.7899543378995434e-04 * (Exp ($v_T / #(-1.3140000000000000e+03))) + #5.0000000000000000e+04 / ($v_T * $v_T) * (Exp (#(-5.0000000000000000e+04) / $v_T))) - $v_lnF_AB * (#4.3429448190325176e-01 * $v_B + #6.0801227466455256e-02 * $v_A) * (#(-9.3200000000000003e+00) + #2.9355816535624112e+03 / $v_T - #1.0) / $v_T) * (v_fwd_rates.[169] - v_rev_rates.[169]) + v_pres_mod.[23] / $v_T * (v_fwd_rates.[169] * #(-1.0) - v_rev_rates.[169] * ((- $v_T) * (v_dBdT.[29] - v_dBdT.[1] - v_dBdT.[28])))) * $v_rho_inv));
  (*2267*) Do (AddA v_jac 2 ((- $v_j_temp) * #1.0079400000000001e+00));
  (*2268*) Do (AddA v_jac 29 ((- $v_j_temp) * #5.5099579999999996e+01));
  (*2269*) Do (AddA v_jac 30 ($v_j_temp * #5.6107519999999994e+01));
  (*2445*) Do (Asn v_j_temp 0 (#1.0 / $v_T * ((v_fwd_rates.[170] - v_rev_rates.[170]) * (#(-2.0000000000000000e+00) + #5.5354152134507885e+03 / $v_T) + v_fwd_rates.[170] * #(-1.0) - v_rev_rates.[170] * (#(-1.0) + (- $v_T) * (v_dBdT.[11] + v_dBdT.[24] - v_dBdT.[1] - v_dBdT.[28]))) * $v_rho_inv));
  (*2446*) Do (AddA v_jac 25 ($v_j_temp * #4.1072699999999998e+01));
  (*2447*) Do (AddA v_jac 2 ((- $v_j_temp) * #1.0079400000000001e+00));
  (*2448*) Do (AddA v_jac 12 ($v_j_temp * #1.5034820000000000e+01));
  (*2449*) Do (AddA v_jac 29 ((- $v_j_temp) * #5.5099579999999996e+01));
  (*2676*) Do (Asn v_j_temp 0 (#1.0 / $v_T * (v_fwd_rates.[171] * #(-1.0) - v_rev_rates.[171] * (#(-2.0) + (- $v_T) * (v_dBdT.[14] + v_dBdT.[24] + v_dBdT.[3] - v_dBdT.[4] - v_dBdT.[28]))) * $v_rho_inv));
  (*2677*) Do (AddA v_jac 25 ($v_j_temp * #4.1072699999999998e+01));
  (*2678*) Do (AddA v_jac 29 ((- $v_j_temp) * #5.5099579999999996e+01));
  (*2679*) Do (AddA v_jac 4 ($v_j_temp * #1.7007339999999999e+01));
  (*2680*) Do (AddA v_jac 5 ((- $v_j_temp) * #3.3006740000000001e+01));
  (*2681*) Do (AddA v_jac 15 ($v_j_temp * #3.0026280000000000e+01));
  (*2961*) Do (Asn v_j_temp 0 (#1.0 / $v_T * (v_fwd_rates.[172] * #(-1.0) - v_rev_rates.[172] * (#(-1.0) + (- $v_T) * (v_dBdT.[29] + v_dBdT.[16] - v_dBdT.[13] - v_dBdT.[28]))) * $v_rho_inv));
  (*2962*) Do (AddA v_jac 17 ($v_j_temp * #2.8010399999999997e+01));
  (*2963*) Do (AddA v_jac 29 ((- $v_j_temp) * #5.5099579999999996e+01));
  (*2964*) Do (AddA v_jac 14 ((- $v_j_temp) * #2.9018339999999998e+01));
  (*2965*) Do (AddA v_jac 30 ($v_j_temp * #5.6107519999999994e+01));
  (*3192*) Do (Asn v_Pr 0 ($v_conc_temp * (Exp (#5.2205873288747348e+01 - #6.66 * $v_logT - #1.8816889188778669e+03 / $v_T))));
  (*3193*) Do (Asn v_Fcent 0 (#0.0000000000000000e+00 * (Exp ($v_T / #(-1.0000000000000000e+03))) + #1.0000000000000000e+00 * (Exp ($v_T / #(-1.3100000000000000e+03))) + (Exp (#(-4.8097000000000000e+04) / $v_T))));
  (*3194*) Do (Asn v_A 0 ((Log10 (Fmax $v_Pr #1.0e-300)) - #0.67 * (Log10 (Fmax $v_Fcent #1.0e-300)) - #0.4));
  (*3195*) Do (Asn v_B 0 (#0.806 - #1.1762 * (Log10 (Fmax $v_Fcent #1.0e-300)) - #0.14 * (Log10 (Fmax $v_Pr #1.0e-300))));
  (*3196*) Do (Asn v_lnF_AB 0 (#2.0 * (Log (Fmax $v_Fcent #1.0e-300)) * $v_A / ($v_B * $v_B * $v_B * (#1.0 + $v_A * $v_A / ($v_B * $v_B)) * (#1.0 + $v_A * $v_A / ($v_B * $v_B)))));
  (*3197*) Do (Asn v_j_temp 0 ((v_pres_mod.[24] * ((#(-6.6600e+00) + #1.8816889188778669e+03 / $v_T - #1.0) / ($v_T * (#1.0 + $v_Pr)) + (#1.0 / ($v_Fcent * (#1.0 + $v_A * $v_A / ($v_B * $v_B))) - $v_lnF_AB * (#(-2.9097730287517870e-01) * $v_B + #5.1081716961460466e-01 * $v_A) / $v_Fcent) * (#(-0.0000000000000000e+00) * (Exp ($v_T / #(-1.0000000000000000e+03))) - #7.6335877862595419e-04 * (Exp ($v_T / #(-1.3100000000000000e+03))) + #4.8097000000000000e+04 / ($v_T * $v_T) * (Exp (#(-4.8097000000000000e+04) / $v_T))) - $v_lnF_AB * (#4.3429448190325176e-01 * $v_B + #6.0801227466455256e-02 * $v_A) * (#(-6.6600000000000001e+00) + #1.8816889188778669e+03 / $v_T - #1.0) / $v_T) * (v_fwd_rates.[173] - v_rev_rates.[173]) + v_pres_mod.[24] / $v_T * ((v_fwd_rates.[173] - v_rev_rates.[173]) * (#1.6408480351362714e+03 / $v_T) + v_fwd_rates.[173] * #(-1.0) - v_rev_rates.[173] * ((- $v_T) * (v_dBdT.[30] - v_dBdT.[1] - v_dBdT.[29])))) * $v_rho_inv));
  (*3198*) Do (AddA v_jac 2 ((- $v_j_temp) * #1.0079400000000001e+00));
  (*3199*) Do (AddA v_jac 30 ((- $v_j_temp) * #5.6107519999999994e+01));
  (*3200*) Do (Asn v_jac 31 ($v_j_temp * #5.7115459999999999e+01));
  (*3376*) Do (Asn v_j_temp 0 (#1.0 / $v_T * ((v_fwd_rates.[174] - v_rev_rates.[174]) * (#(-2.3900000000000001e+00) + #5.6259947351254386e+03 / $v_T) + v_fwd_rates.[174] * #(-1.0) - v_rev_rates.[174] * (#(-1.0) + (- $v_T) * (v_dBdT.[21] + v_dBdT.[20] - v_dBdT.[1] - v_dBdT.[29]))) * $v_rho_inv));
  (*3377*) Do (AddA v_jac 2 ((- $v_j_temp) * #1.0079400000000001e+00));
  (*3378*) Do (AddA v_jac 21 ($v_j_temp * #2.8053759999999997e+01));
  (*3379*) Do (AddA v_jac 30 ((- $v_j_temp) * #5.6107519999999994e+01));
  (*3380*) Do (AddA v_jac 22 ($v_j_temp * #2.9061699999999998e+01));
  (*3607*) Do (Asn v_j_temp 0 (#1.0 / $v_T * ((v_fwd_rates.[175] - v_rev_rates.[175]) * (#(-2.3900000000000001e+00) + #5.6259947351254386e+03 / $v_T) + v_fwd_rates.[175] * #(-1.0) - v_rev_rates.[175] * (#(-1.0) + (- $v_T) * (v_dBdT.[25] + v_dBdT.[11] - v_dBdT.[1] - v_dBdT.[29]))) * $v_rho_inv));
  (*3608*) Do (AddA v_jac 2 ((- $v_j_temp) * #1.0079400000000001e+00));
  (*3609*) Do (AddA v_jac 12 ($v_j_temp * #1.5034820000000000e+01));
  (*3610*) Do (AddA v_jac 30 ((- $v_j_temp) * #5.6107519999999994e+01));
  (*3611*) Do (AddA v_jac 26 ($v_j_temp * #4.2080640000000002e+01));
  (*3838*) Do (Asn v_j_temp 0 (#1.0 / $v_T * ((v_fwd_rates.[176] - v_rev_rates.[176]) * (#2.5400000000000000e+00 + #3.3997513801885029e+03 / $v_T) + v_fwd_rates.[176] * #(-1.0) - v_rev_rates.[176] * (#(-1.0) + (- $v_T) * (v_dBdT.[5] + v_dBdT.[28] - v_dBdT.[1] - v_dBdT.[29]))) * $v_rho_inv));
  (*3839*) Do (AddA v_jac 2 ((- $v_j_temp) * #1.0079400000000001e+00));
  (*3840*) Do (AddA v_jac 29 ($v_j_temp * #5.5099579999999996e+01));
  (*3841*) Do (AddA v_jac 30 ((- $v_j_temp) * #5.6107519999999994e+01));
  (*3842*) Do (AddA v_jac 6 ($v_j_temp * #2.0158800000000001e+00));
  (*4069*) Do (Asn v_j_temp 0 (#1.0 / $v_T * ((v_fwd_rates.[177] - v_rev_rates.[177]) * (#1.4500000000000000e+00 + #(-2.0229426507338337e+02) / $v_T) + v_fwd_rates.[177] * #(-1.0) - v_rev_rates.[177] * (#(-1.0) + (- $v_T) * (v_dBdT.[26] + v_dBdT.[13] - v_dBdT.[29] - v_dBdT.[2]))) * $v_rho_inv));
  (*4070*) Do (AddA v_jac 3 ((- $v_j_temp) * #1.5999400000000000e+01));
  (*4071*) Do (AddA v_jac 27 ($v_j_temp * #4.3088580000000000e+01));
  (*4072*) Do (AddA v_jac 30 ((- $v_j_temp) * #5.6107519999999994e+01));
  (*4073*) Do (AddA v_jac 14 ($v_j_temp * #2.9018339999999998e+01));
  (*4300*) Do (Asn v_j_temp 0 (#1.0 / $v_T * ((v_fwd_rates.[178] - v_rev_rates.[178]) * (#2.8985446935887767e+03 / $v_T) + v_fwd_rates.[178] * #(-1.0) - v_rev_rates.[178] * (#(-1.0) + (- $v_T) * (v_dBdT.[28] + v_dBdT.[3] - v_dBdT.[29] - v_dBdT.[2]))) * $v_rho_inv));
  (*4301*) Do (AddA v_jac 3 ((- $v_j_temp) * #1.5999400000000000e+01));
  (*4302*) Do (AddA v_jac 4 ($v_j_temp * #1.7007339999999999e+01));
  (*4303*) Do (AddA v_jac 29 ($v_j_temp * #5.5099579999999996e+01));
  (*4304*) Do (AddA v_jac 30 ((- $v_j_temp) * #5.6107519999999994e+01));
  (*4531*) Do (Asn v_j_temp 0 (#1.0 / $v_T * ((v_fwd_rates.[179] - v_rev_rates.[179]) * (#2.2493914549204569e+03 / $v_T) + v_fwd_rates.[179] * #(-1.0) - v_rev_rates.[179] * (#(-1.0) + (- $v_T) * (v_dBdT.[28] + v_dBdT.[3] - v_dBdT.[29] - v_dBdT.[2]))) * $v_rho_inv));
  (*4532*) Do (AddA v_jac 3 ((- $v_j_temp) * #1.5999400000000000e+01));
  (*4533*) Do (AddA v_jac 4 ($v_j_temp * #1.7007339999999999e+01));
  (*4534*) Do (AddA v_jac 29 ($v_j_temp * #5.5099579999999996e+01));
  (*4535*) Do (AddA v_jac 30 ((- $v_j_temp) * #5.6107519999999994e+01));
  (*4762*) Do (Asn v_j_temp 0 (#1.0 / $v_T * ((v_fwd_rates.[180] - v_rev_rates.[180]) * (#2.6600000000000001e+00 + #2.6519671068077872e+02 / $v_T) + v_fwd_rates.[180] * #(-1.0) - v_rev_rates.[180] * (#(-1.0) + (- $v_T) * (v_dBdT.[6] + v_dBdT.[28] - v_dBdT.[29] - v_dBdT.[3]))) * $v_rho_inv));
  (*4763*) Do (AddA v_jac 4 ((- $v_j_temp) * #1.7007339999999999e+01));
  (*4764*) Do (AddA v_jac 29 ($v_j_temp * #5.5099579999999996e+01));
  (*4765*) Do (AddA v_jac 30 ((- $v_j_temp) * #5.6107519999999994e+01));
  (*4766*) Do (AddA v_jac 7 ($v_j_temp * #1.8015280000000001e+01));
  (*4993*) Do (Asn v_j_temp 0 (#1.0 / $v_T * ((v_fwd_rates.[181] - v_rev_rates.[181]) * (#2.5628972438277153e+04 / $v_T) + v_fwd_rates.[181] * #(-1.0) - v_rev_rates.[181] * (#(-1.0) + (- $v_T) * (v_dBdT.[4] + v_dBdT.[28] - v_dBdT.[29] - v_dBdT.[8]))) * $v_rho_inv));
  (*4994*) Do (AddA v_jac 9 ((- $v_j_temp) * #3.1998799999999999e+01));
  (*4995*) Do (AddA v_jac 29 ($v_j_temp * #5.5099579999999996e+01));
  (*4996*) Do (AddA v_jac 5 ($v_j_temp * #3.3006740000000001e+01));
  (*4997*) Do (AddA v_jac 30 ((- $v_j_temp) * #5.6107519999999994e+01));
  (*5224*) Do (Asn v_j_temp 0 (#1.0 / $v_T * ((v_fwd_rates.[182] - v_rev_rates.[182]) * (#7.2161685600803921e+03 / $v_T) + v_fwd_rates.[182] * #(-1.0) - v_rev_rates.[182] * (#(-1.0) + (- $v_T) * (v_dBdT.[7] + v_dBdT.[28] - v_dBdT.[29] - v_dBdT.[4]))) * $v_rho_inv));
  (*5225*) Do (AddA v_jac 29 ($v_j_temp * #5.5099579999999996e+01));
  (*5226*) Do (AddA v_jac 5 ((- $v_j_temp) * #3.3006740000000001e+01));
  (*5227*) Do (AddA v_jac 30 ((- $v_j_temp) * #5.6107519999999994e+01));
  (*5228*) Do (AddA v_jac 8 ($v_j_temp * #3.4014679999999998e+01));
  (*5455*) Do (Asn v_j_temp 0 (#1.0 / $v_T * ((v_fwd_rates.[183] - v_rev_rates.[183]) * (#3.6499999999999999e+00 + #3.5995295474375903e+03 / $v_T) + v_fwd_rates.[183] * #(-1.0) - v_rev_rates.[183] * (#(-1.0) + (- $v_T) * (v_dBdT.[12] + v_dBdT.[28] - v_dBdT.[11] - v_dBdT.[29]))) * $v_rho_inv));
  (*5456*) Do (AddA v_jac 29 ($v_j_temp * #5.5099579999999996e+01));
  (*5457*) Do (AddA v_jac 12 ((- $v_j_temp) * #1.5034820000000000e+01));
  (*5458*) Do (AddA v_jac 13 ($v_j_temp * #1.6042760000000001e+01));
  (*5459*) Do (AddA v_jac 30 ((- $v_j_temp) * #5.6107519999999994e+01));
  (*5686*) Do (Asn v_j_temp 0 (#1.0 / $v_T * ((v_fwd_rates.[184] - v_rev_rates.[184]) * (#(-2.9199999999999999e+00) + #6.2927606585638287e+03 / $v_T) + v_fwd_rates.[184] * #(-1.0) - v_rev_rates.[184] * (#(-1.0) + (- $v_T) * (#2.0 * v_dBdT.[21] - v_dBdT.[1] - v_dBdT.[30]))) * $v_rho_inv));
  (*5687*) Do (AddA v_jac 2 ((- $v_j_temp) * #1.0079400000000001e+00));
  (*5688*) Do (AddA v_jac 22 ($v_j_temp * #2.0 * #2.9061699999999998e+01));
  (*5689*) Do (AddA v_jac 31 ((- $v_j_temp) * #5.7115459999999999e+01));
  (*5863*) Do (Asn v_j_temp 0 (#1.0 / $v_T * (v_fwd_rates.[185] * #(-1.0) - v_rev_rates.[185] * (#(-1.0) + (- $v_T) * (v_dBdT.[5] + v_dBdT.[29] - v_dBdT.[1] - v_dBdT.[30]))) * $v_rho_inv));
  (*5864*) Do (AddA v_jac 2 ((- $v_j_temp) * #1.0079400000000001e+00));
  (*5865*) Do (AddA v_jac 6 ($v_j_temp * #2.0158800000000001e+00));
  (*5866*) Do (AddA v_jac 31 ((- $v_j_temp) * #5.7115459999999999e+01));
  (*5867*) Do (AddA v_jac 30 ($v_j_temp * #5.6107519999999994e+01));
  (*6094*) Do (Asn v_j_temp 0 (#1.0 / $v_T * (v_fwd_rates.[186] * #(-1.0) - v_rev_rates.[186] * (#(-1.0) + (- $v_T) * (v_dBdT.[14] + v_dBdT.[26] - v_dBdT.[30] - v_dBdT.[2]))) * $v_rho_inv));
  (*6095*) Do (AddA v_jac 3 ((- $v_j_temp) * #1.5999400000000000e+01));
  (*6096*) Do (AddA v_jac 27 ($v_j_temp * #4.3088580000000000e+01));
  (*6097*) Do (AddA v_jac 15 ($v_j_temp * #3.0026280000000000e+01));
  (*6098*) Do (AddA v_jac 31 ((- $v_j_temp) * #5.7115459999999999e+01));
  (*6325*) Do (Asn v_j_temp 0 (#1.0 / $v_T * (v_fwd_rates.[187] * #(-1.0) - v_rev_rates.[187] * (#(-1.0) + (- $v_T) * (v_dBdT.[6] + v_dBdT.[29] - v_dBdT.[30] - v_dBdT.[3]))) * $v_rho_inv));
  (*6326*) Do (AddA v_jac 4 ((- $v_j_temp) * #1.7007339999999999e+01));
  (*6327*) Do (AddA v_jac 7 ($v_j_temp * #1.8015280000000001e+01));
  (*6328*) Do (AddA v_jac 31 ((- $v_j_temp) * #5.7115459999999999e+01));
  (*6329*) Do (AddA v_jac 30 ($v_j_temp * #5.6107519999999994e+01));
  (*6556*) Do (Asn v_j_temp 0 (#1.0 / $v_T * (v_fwd_rates.[188] * #(-1.0) - v_rev_rates.[188] * (#(-1.0) + (- $v_T) * (v_dBdT.[29] + v_dBdT.[4] - v_dBdT.[30] - v_dBdT.[8]))) * $v_rho_inv));
  (*6557*) Do (AddA v_jac 9 ((- $v_j_temp) * #3.1998799999999999e+01));
  (*6558*) Do (AddA v_jac 5 ($v_j_temp * #3.3006740000000001e+01));
  (*6559*) Do (AddA v_jac 30 ($v_j_temp * #5.6107519999999994e+01));
  (*6560*) Do (AddA v_jac 31 ((- $v_j_temp) * #5.7115459999999999e+01));
  (*6787*) Do (Asn v_j_temp 0 (#1.0 / $v_T * (v_fwd_rates.[189] * #(-1.0) - v_rev_rates.[189] * (#(-2.0) + (- $v_T) * (v_dBdT.[14] + v_dBdT.[26] + v_dBdT.[3] - v_dBdT.[30] - v_dBdT.[4]))) * $v_rho_inv));
  (*6788*) Do (AddA v_jac 27 ($v_j_temp * #4.3088580000000000e+01));
  (*6789*) Do (AddA v_jac 4 ($v_j_temp * #1.7007339999999999e+01));
  (*6790*) Do (AddA v_jac 5 ((- $v_j_temp) * #3.3006740000000001e+01));
  (*6791*) Do (AddA v_jac 15 ($v_j_temp * #3.0026280000000000e+01));
  (*6792*) Do (AddA v_jac 31 ((- $v_j_temp) * #5.7115459999999999e+01));
  (*7072*) Do (Asn v_j_temp 0 (#1.0 / $v_T * (v_fwd_rates.[190] * #(-1.0) - v_rev_rates.[190] * (#(-1.0) + (- $v_T) * (v_dBdT.[29] + v_dBdT.[12] - v_dBdT.[30] - v_dBdT.[11]))) * $v_rho_inv));
  (*7073*) Do (AddA v_jac 12 ((- $v_j_temp) * #1.5034820000000000e+01));
  (*7074*) Do (AddA v_jac 13 ($v_j_temp * #1.6042760000000001e+01));
  (*7075*) Do (AddA v_jac 30 ($v_j_temp * #5.6107519999999994e+01));
  (*7076*) Do (AddA v_jac 31 ((- $v_j_temp) * #5.7115459999999999e+01));
  (*7303*) Do (Asn v_j_temp 0 (#1.0 / $v_T * (v_fwd_rates.[191] * (#1.5106208503854987e+04 / $v_T)) * $v_rho_inv));
  (*7304*) Do (AddA v_jac 25 ($v_j_temp * #4.1072699999999998e+01));
  (*7305*) Do (AddA v_jac 21 ($v_j_temp * #2.8053759999999997e+01));
  (*7306*) Do (Asn v_jac 32 ((- $v_j_temp) * #6.9126459999999994e+01));
  (*7472*) Do (Asn v_j_temp 0 (#1.0 / $v_T * (v_fwd_rates.[192] * (#1.5106208503854987e+04 / $v_T)) * $v_rho_inv));
  (*7473*) Do (AddA v_jac 26 ($v_j_temp * #4.2080640000000002e+01));
  (*7474*) Do (AddA v_jac 20 ($v_j_temp * #2.7045819999999999e+01));
  (*7475*) Do (AddA v_jac 32 ((- $v_j_temp) * #6.9126459999999994e+01));
  (*7641*) Do (Asn v_Pr 0 ($v_conc_temp * (Exp (#5.2205873288747348e+01 - #6.66 * $v_logT - #1.8816889188778669e+03 / $v_T))));
  (*7642*) Do (Asn v_Fcent 0 (#0.0000000000000000e+00 * (Exp ($v_T / #(-1.0000000000000000e+03))) + #1.0000000000000000e+00 * (Exp ($v_T / #(-1.3100000000000000e+03))) + (Exp (#(-4.8097000000000000e+04) / $v_T))));
  (*7643*) Do (Asn v_A 0 ((Log10 (Fmax $v_Pr #1.0e-300)) - #0.67 * (Log10 (Fmax $v_Fcent #1.0e-300)) - #0.4));
  (*7644*) Do (Asn v_B 0 (#0.806 - #1.1762 * (Log10 (Fmax $v_Fcent #1.0e-300)) - #0.14 * (Log10 (Fmax $v_Pr #1.0e-300))));
  (*7645*) Do (Asn v_lnF_AB 0 (#2.0 * (Log (Fmax $v_Fcent #1.0e-300)) * $v_A / ($v_B * $v_B * $v_B * (#1.0 + $v_A * $v_A / ($v_B * $v_B)) * (#1.0 + $v_A * $v_A / ($v_B * $v_B)))));
  (*7646*) Do (Asn v_j_temp 0 ((v_pres_mod.[25] * ((#(-6.6600e+00) + #1.8816889188778669e+03 / $v_T - #1.0) / ($v_T * (#1.0 + $v_Pr)) + (#1.0 / ($v_Fcent * (#1.0 + $v_A * $v_A / ($v_B * $v_B))) - $v_lnF_AB * (#(-2.9097730287517870e-01) * $v_B + #5.1081716961460466e-01 * $v_A) / $v_Fcent) * (#(-0.0000000000000000e+00) * (Exp ($v_T / #(-1.0000000000000000e+03))) - #7.6335877862595419e-04 * (Exp ($v_T / #(-1.3100000000000000e+03))) + #4.8097000000000000e+04 / ($v_T * $v_T) * (Exp (#(-4.8097000000000000e+04) / $v_T))) - $v_lnF_AB * (#4.3429448190325176e-01 * $v_B + #6.0801227466455256e-02 * $v_A) * (#(-6.6600000000000001e+00) + #1.8816889188778669e+03 / $v_T - #1.0) / $v_T) * (v_fwd_rates.[193] - v_rev_rates.[191]) + v_pres_mod.[25] / $v_T * ((v_fwd_rates.[193] - v_rev_rates.[191]) * (#1.6408480351362714e+03 / $v_T) + v_fwd_rates.[193] * #(-1.0) - v_rev_rates.[191] * ((- $v_T) * (v_dBdT.[33] - v_dBdT.[1] - v_dBdT.[32])))) * $v_rho_inv));
  (*7647*) Do (Asn v_jac 33 ((- $v_j_temp) * #7.0134399999999999e+01));
  (*7648*) Do (AddA v_jac 2 ((- $v_j_temp) * #1.0079400000000001e+00));
  (*7649*) Do (Asn v_jac 34 ($v_j_temp * #7.1142339999999990e+01));
  (*7837*) Do (Asn v_j_temp 0 (#1.0 / $v_T * ((v_fwd_rates.[194] - v_rev_rates.[192]) * (#(-2.3900000000000001e+00) + #5.6259947351254386e+03 / $v_T) + v_fwd_rates.[194] * #(-1.0) - v_rev_rates.[192] * (#(-1.0) + (- $v_T) * (v_dBdT.[26] + v_dBdT.[20] - v_dBdT.[1] - v_dBdT.[32]))) * $v_rho_inv));
  (*7838*) Do (AddA v_jac 33 ((- $v_j_temp) * #7.0134399999999999e+01));
  (*7839*) Do (AddA v_jac 2 ((- $v_j_temp) * #1.0079400000000001e+00));
  (*7840*) Do (AddA v_jac 27 ($v_j_temp * #4.3088580000000000e+01));
  (*7841*) Do (AddA v_jac 21 ($v_j_temp * #2.8053759999999997e+01));
  (*8074*) Do (Asn v_j_temp 0 (#1.0 / $v_T * ((v_fwd_rates.[195] - v_rev_rates.[193]) * (#(-2.3900000000000001e+00) + #5.6259947351254386e+03 / $v_T) + v_fwd_rates.[195] * #(-1.0) - v_rev_rates.[193] * (#(-1.0) + (- $v_T) * (v_dBdT.[25] + v_dBdT.[21] - v_dBdT.[1] - v_dBdT.[32]))) * $v_rho_inv));
  (*8075*) Do (AddA v_jac 33 ((- $v_j_temp) * #7.0134399999999999e+01));
  (*8076*) Do (AddA v_jac 2 ((- $v_j_temp) * #1.0079400000000001e+00));
  (*8077*) Do (AddA v_jac 22 ($v_j_temp * #2.9061699999999998e+01));
  (*8078*) Do (AddA v_jac 26 ($v_j_temp * #4.2080640000000002e+01));
  (*8311*) Do (Asn v_j_temp 0 (#1.0 / $v_T * ((v_fwd_rates.[196] - v_rev_rates.[194]) * (#3.6735028234718870e+03 / $v_T) + v_fwd_rates.[196] * #(-1.0) - v_rev_rates.[194] * ((- $v_T) * (v_dBdT.[33] - v_dBdT.[26] - v_dBdT.[20]))) * $v_rho_inv));
  (*8312*) Do (AddA v_jac 34 ($v_j_temp * #7.1142339999999990e+01));
  (*8313*) Do (AddA v_jac 27 ((- $v_j_temp) * #4.3088580000000000e+01));
  (*8314*) Do (AddA v_jac 21 ((- $v_j_temp) * #2.8053759999999997e+01));
  (*8494*) Do (Asn v_Pr 0 ($v_conc_temp * (Exp (#5.2205873288747348e+01 - #6.66 * $v_logT - #1.8816889188778669e+03 / $v_T))));
  (*8495*) Do (Asn v_Fcent 0 (#0.0000000000000000e+00 * (Exp ($v_T / #(-1.0000000000000000e+03))) + #1.0000000000000000e+00 * (Exp ($v_T / #(-1.3100000000000000e+03))) + (Exp (#(-4.8097000000000000e+04) / $v_T))));
  (*8496*) Do (Asn v_A 0 ((Log10 (Fmax $v_Pr #1.0e-300)) - #0.67 * (Log10 (Fmax $v_Fcent #1.0e-300)) - #0.4));
  (*8497*) Do (Asn v_B 0 (#0.806 - #1.1762 * (Log10 (Fmax $v_Fcent #1.0e-300)) - #0.14 * (Log10 (Fmax $v_Pr #1.0e-300))));
  (*8498*) Do (Asn v_lnF_AB 0 (#2.0 * (Log (Fmax $v_Fcent #1.0e-300)) * $v_A / ($v_B * $v_B * $v_B * (#1.0 + $v_A * $v_A / ($v_B * $v_B)) * (#1.0 + $v_A * $v_A / ($v_B * $v_B)))));
  (*8499*) Do (Asn v_j_temp 0 ((v_pres_mod.[26] * ((#(-6.6600e+00) + #1.8816889188778669e+03 / $v_T - #1.0) / ($v_T * (#1.0 + $v_Pr)) + (#1.0 / ($v_Fcent * (#1.0 + $v_A * $v_A / ($v_B * $v_B))) - $v_lnF_AB * (#(-2.9097730287517870e-01) * $v_B + #5.1081716961460466e-01 * $v_A) / $v_Fcent) * (#(-0.0000000000000000e+00) * (Exp ($v_T / #(-1.0000000000000000e+03))) - #7.6335877862595419e-04 * (Exp ($v_T / #(-1.3100000000000000e+03))) + #4.8097000000000000e+04 / ($v_T * $v_T) * (Exp (#(-4.8097000000000000e+04) / $v_T))) - $v_lnF_AB * (#4.3429448190325176e-01 * $v_B + #6.0801227466455256e-02 * $v_A) * (#(-6.6600000000000001e+00) + #1.8816889188778669e+03 / $v_T - #1.0) / $v_T) * (v_fwd_rates.[197] - v_rev_rates.[195]) + v_pres_mod.[26] / $v_T * ((v_fwd_rates.[197] - v_rev_rates.[195]) * (#1.6408480351362714e+03 / $v_T) + v_fwd_rates.[197] * #(-1.0) - v_rev_rates.[195] * ((- $v_T) * (v_dBdT.[35] - v_dBdT.[1] - v_dBdT.[34])))) * $v_rho_inv));
  (*8500*) Do (AddA v_jac 2 ((- $v_j_temp) * #1.0079400000000001e+00));
  (*8501*) Do (Asn v_jac 35 ((- $v_j_temp) * #8.4161280000000005e+01));
  (*8502*) Do (Asn v_jac 36 ($v_j_temp * #8.5169219999999996e+01));
  (*8690*) Do (Asn v_j_temp 0 (#1.0 / $v_T * ((v_fwd_rates.[198] - v_rev_rates.[196]) * (#(-2.3900000000000001e+00) + #5.6259947351254386e+03 / $v_T) + v_fwd_rates.[198] * #(-1.0) - v_rev_rates.[196] * (#(-1.0) + (- $v_T) * (v_dBdT.[30] + v_dBdT.[20] - v_dBdT.[1] - v_dBdT.[34]))) * $v_rho_inv));
  (*8691*) Do (AddA v_jac 2 ((- $v_j_temp) * #1.0079400000000001e+00));
  (*8692*) Do (AddA v_jac 35 ((- $v_j_temp) * #8.4161280000000005e+01));
  (*8693*) Do (AddA v_jac 21 ($v_j_temp * #2.8053759999999997e+01));
  (*8694*) Do (AddA v_jac 31 ($v_j_temp * #5.7115459999999999e+01));
  (*8927*) Do (Asn v_j_temp 0 (#1.0 / $v_T * ((v_fwd_rates.[199] - v_rev_rates.[197]) * (#(-2.3900000000000001e+00) + #5.6259947351254386e+03 / $v_T) + v_fwd_rates.[199] * #(-1.0) - v_rev_rates.[197] * (#(-1.0) + (- $v_T) * (v_dBdT.[25] + v_dBdT.[26] - v_dBdT.[1] - v_dBdT.[34]))) * $v_rho_inv));
  (*8928*) Do (AddA v_jac 2 ((- $v_j_temp) * #1.0079400000000001e+00));
  (*8929*) Do (AddA v_jac 35 ((- $v_j_temp) * #8.4161280000000005e+01));
  (*8930*) Do (AddA v_jac 27 ($v_j_temp * #4.3088580000000000e+01));
  (*8931*) Do (AddA v_jac 26 ($v_j_temp * #4.2080640000000002e+01))].

(** [eval_jacob_5], yao/lib/src/jacobs/jacob_5.c:4-8249: the declarations and the blocks "partial of
    rxn ... wrt T" (the blocks "wrt species" write other elements of [jac]). *)
Definition yao_jac_T5 : list stmt := [
  (*6*) Do (Asn v_logT 0 ((Log $v_T)));
  (*7*) Do (Asn v_kf 0 (#0.0));
  (*8*) Do (Asn v_j_temp 0 (#0.0));
  (*9*) Do (Asn v_pres_mod_temp 0 (#0.0));
  (*10*) Do (Asn v_Kc 0 (#0.0));
  (*11*) Do (Asn v_kr 0 (#0.0));
  (*12*) Do (Asn v_Pr 0 (#0.0));
  (*13*) Do (Asn v_Fcent 0 (#0.0));
  (*14*) Do (Asn v_A 0 (#0.0));
  (*15*) Do (Asn v_B 0 (#0.0));
  (*16*) Do (Asn v_lnF_AB 0 (#0.0));
  (*17*) Do (Asn v_rho_inv 0 (#1.0 / $v_rho));
  (*19*) Do (Asn v_j_temp 0 (#1.0 / $v_T * ((v_fwd_rates.[200] - v_rev_rates.[198]) * (#3.6735028234718870e+03 / $v_T) + v_fwd_rates.[200] * #(-1.0) - v_rev_rates.[198] * ((- $v_T) * (v_dBdT.[35] - v_dBdT.[30] - v_dBdT.[20]))) * $v_rho_inv));
  (*20*) Do (AddA v_jac 36 ($v_j_temp * #8.5169219999999996e+01));
  (*21*) Do (AddA v_jac 21 ((- $v_j_temp) * #2.8053759999999997e+01));
  (*22*) Do (AddA v_jac 31 ((- $v_j_temp) * #5.7115459999999999e+01));
  (*202*) Do (Asn v_conc_temp 0 ($v_m - #0.3 * v_conc.[0] + #1.0 * v_conc.[5] + #5.0 * v_conc.[6] + #1.0 * v_conc.[12] + #0.5 * v_conc.[16] + #1.0 * v_conc.[17] + #2.0 * v_conc.[22]));
  (*203*) Do (Asn v_Pr 0 ($v_conc_temp * (Exp (#5.2205873288747348e+01 - #6.66 * $v_logT - #1.8816889188778669e+03 / $v_T))));
  (*204*) Do (Asn v_Fcent 0 (#0.0000000000000000e+00 * (Exp ($v_T / #(-1.0000000000000000e+03))) + #1.0000000000000000e+00 * (Exp ($v_T / #(-1.3100000000000000e+03))) + (Exp (#(-4.8097000000000000e+04) / $v_T))));
  (*205*) Do (Asn v_A 0 ((Log10 (Fmax $v_Pr #1.0e-300)) - #0.67 * (Log10 (Fmax $v_Fcent #1.0e-300)) - #0.4));
  (*206*) Do (Asn v_B 0 (#0.806 - #1.1762 * (Log10 (Fmax $v_Fcent #1.0e-300)) - #0.14 * (Log10 (Fmax $v_Pr #1.0e-300))));
  (*207*) Do (Asn v_lnF_AB 0 (#2.0 * (Log (Fmax $v_Fcent #1.0e-300)) * $v_A / ($v_B * $v_B * $v_B * (#1.0 + $v_A * $v_A / ($v_B * $v_B)) * (#1.0 + $v_A * $v_A / ($v_B * $v_B)))));
  (*208*) Do (Asn v_j_temp 0 ((v_pres_mod.[27] * ((#(-6.6600e+00) + #1.8816889188778669e+03 / $v_T - #1.0) / ($v_T * (#1.0 + $v_Pr)) + (#1.0 / ($v_Fcent * (#1.0 + $v_A * $v_A / ($v_B * $v_B))) - $v_lnF_AB * (#(-2.9097730287517870e-01) * $v_B + #5.1081716961460466e-01 * $v_A) / $v_Fcent) * (#(-0.0000000000000000e+00) * (Exp ($v_T / #(-1.0000000000000000e+03))) - #7.6335877862595419e-04 * (Exp ($v_T / #(-1.3100000000000000e+03))) + #4.8097000000000000e+04 / ($v_T * $v_T) * (Exp (#(-4.8097000000000000e+04) / $v_T))) - $v_lnF_AB * (#4.3429448190325176e-01 * $v_B + #6.0801227466455256e-02 * $v_A) * (#(-6.6600000000000001e+00) + #1.8816889188778669e+03 / $v_T - #1.0) / $v_T) * (v_fwd_rates.[201] - v_rev_rates.[199]) + v_pres_mod.[27] / $v_T * ((v_fwd_rates.[201] - v_rev_rates.[199]) * (#1.6408480351362714e+03 / $v_T) + v_fwd_rates.[201] * #(-1.0) - v_rev_rates.[199] * ((- $v_T) * (v_dBdT.[37] - v_dBdT.[1] - v_dBdT.[36])))) * $v_rho_inv));
  (*209*) Do (AddA v_jac 2 ((- $v_j_temp) * #1.0079400000000001e+00));
  (*210*) Do (Asn v_jac 37 ((- $v_j_temp) * #9.8188159999999996e+01));
  (*211*) Do (Asn v_jac 38 ($v_j_temp * #9.9196100000000001e+01));
  (*399*) Do (Asn v_j_temp 0 (#1.0 / $v_T * ((v_fwd_rates.[202] - v_rev_rates.[200]) * (#(-2.3900000000000001e+00) + #5.6259947351254386e+03 / $v_T) + v_fwd_rates.[202] * #(-1.0) - v_rev_rates.[200] * (#(-1.0) + (- $v_T) * (v_dBdT.[33] + v_dBdT.[20] - v_dBdT.[1] - v_dBdT.[36]))) * $v_rho_inv));
  (*400*) Do (AddA v_jac 2 ((- $v_j_temp) * #1.0079400000000001e+00));
  (*401*) Do (AddA v_jac 37 ((- $v_j_temp) * #9.8188159999999996e+01));
  (*402*) Do (AddA v_jac 21 ($v_j_temp * #2.8053759999999997e+01));
  (*403*) Do (AddA v_jac 34 ($v_j_temp * #7.1142339999999990e+01));
  (*642*) Do (Asn v_j_temp 0 (#1.0 / $v_T * ((v_fwd_rates.[203] - v_rev_rates.[201]) * (#(-2.3900000000000001e+00) + #5.6259947351254386e+03 / $v_T) + v_fwd_rates.[203] * #(-1.0) - v_rev_rates.[201] * (#(-1.0) + (- $v_T) * (v_dBdT.[25] + v_dBdT.[30] - v_dBdT.[1] - v_dBdT.[36]))) * $v_rho_inv));
  (*643*) Do (AddA v_jac 2 ((- $v_j_temp) * #1.0079400000000001e+00));
  (*644*) Do (AddA v_jac 37 ((- $v_j_temp) * #9.8188159999999996e+01));
  (*645*) Do (AddA v_jac 31 ($v_j_temp * #5.7115459999999999e+01));
  (*646*) Do (AddA v_jac 26 ($v_j_temp * #4.2080640000000002e+01));
  (*879*) Do (Asn v_j_temp 0 (#1.0 / $v_T * ((v_fwd_rates.[204] - v_rev_rates.[202]) * (#3.6735028234718870e+03 / $v_T) + v_fwd_rates.[204] * #(-1.0) - v_rev_rates.[202] * ((- $v_T) * (v_dBdT.[37] - v_dBdT.[33] - v_dBdT.[20]))) * $v_rho_inv));
  (*880*) Do (AddA v_jac 34 ((- $v_j_temp) * #7.1142339999999990e+01));
  (*881*) Do (AddA v_jac 21 ((- $v_j_temp) * #2.8053759999999997e+01));
  (*882*) Do (AddA v_jac 38 ($v_j_temp * #9.9196100000000001e+01));
  (*1062*) Do (Asn v_Pr 0 ($v_conc_temp * (Exp (#5.2205873288747348e+01 - #6.66 * $v_logT - #1.8816889188778669e+03 / $v_T))));
  (*1063*) Do (Asn v_Fcent 0 (#0.0000000000000000e+00 * (Exp ($v_T / #(-1.0000000000000000e+03))) + #1.0000000000000000e+00 * (Exp ($v_T / #(-1.3100000000000000e+03))) + (Exp (#(-4.8097000000000000e+04) / $v_T))));
  (*1064*) Do (Asn v_A 0 ((Log10 (Fmax $v_Pr #1.0e-300)) - #0.67 * (Log10 (Fmax $v_Fcent #1.0e-300)) - #0.4));
  (*1065*) Do (Asn v_B 0 (#0.806 - #1.1762 * (Log10 (Fmax $v_Fcent #1.0e-300)) - #0.14 * (Log10 (Fmax $v_Pr #1.0e-300))));
  (*1066*) Do (Asn v_lnF_AB 0 (#2.0 * (Log (Fmax $v_Fcent #1.0e-300)) * $v_A / ($v_B * $v_B * $v_B * (#1.0 + $v_A * $v_A / ($v_B * $v_B)) * (#1.0 + $v_A * $v_A / ($v_B * $v_B)))));
  (*1067*) Do (Asn v_j_temp 0 ((v_pres_mod.[28] * ((#(-6.6600e+00) + #1.8816889188778669e+03 / $v_T - #1.0) / ($v_T * (#1.0 + $v_Pr)) + (#1.0 / ($v_Fcent * (#1.0 + $v_A * $v_A / ($v_B * $v_B))) - $v_lnF_AB * (#(-2.9097730287517870e-01) * $v_B + #5.1081716961460466e-01 * $v_A) / $v_Fcent) * (#(-0.0000000000000000e+00) * (Exp ($v_T / #(-1.0000000000000000e+03))) - #7.6335877862595419e-04 * (Exp ($v_T / #(-1.3100000000000000e+03))) + #4.8097000000000000e+04 / ($v_T * $v_T) * (Exp (#(-4.8097000000000000e+04) / $v_T))) - $v_lnF_AB * (#4.3429448190325176e-01 * $v_B + #6.0801227466455256e-02 * $v_A) * (#(-6.6600000000000001e+00) + #1.8816889188778669e+03 / $v_T - #1.0) / $v_T) * (v_fwd_rates.[205] - v_rev_rates.[203]) + v_pres_mod.[28] / $v_T * ((v_fwd_rates.[205] - v_rev_rates.[203]) * (#1.6408480351362714e+03 / $v_T) + v_fwd_rates.[205] * #(-1.0) - v_rev_rates.[203] * ((- $v_T) * (v_dBdT.[39] - v_dBdT.[1] - v_dBdT.[38])))) * $v_rho_inv));
  (*1068*) Do (AddA v_jac 2 ((- $v_j_temp) * #1.0079400000000001e+00));
  (*1069*) Do (Asn v_jac 39 ((- $v_j_temp) * #1.1221503999999999e+02));
  (*1070*) Do (Asn v_jac 40 ($v_j_temp * #1.1322297999999999e+02));
  (*1258*) Do (Asn v_j_temp 0 (#1.0 / $v_T * ((v_fwd_rates.[206] - v_rev_rates.[204]) * (#(-2.3900000000000001e+00) + #5.6259947351254386e+03 / $v_T) + v_fwd_rates.[206] * #(-1.0) - v_rev_rates.[204] * (#(-1.0) + (- $v_T) * (v_dBdT.[20] + v_dBdT.[35] - v_dBdT.[1] - v_dBdT.[38]))) * $v_rho_inv));
  (*1259*) Do (AddA v_jac 2 ((- $v_j_temp) * #1.0079400000000001e+00));
  (*1260*) Do (AddA v_jac 36 ($v_j_temp * #8.5169219999999996e+01));
  (*1261*) Do (AddA v_jac 21 ($v_j_temp * #2.8053759999999997e+01));
  (*1262*) Do (AddA v_jac 39 ((- $v_j_temp) * #1.1221503999999999e+02));
  (*1501*) Do (Asn v_j_temp 0 (#1.0 / $v_T * ((v_fwd_rates.[207] - v_rev_rates.[205]) * (#(-2.3900000000000001e+00) + #5.6259947351254386e+03 / $v_T) + v_fwd_rates.[207] * #(-1.0) - v_rev_rates.[205] * (#(-1.0) + (- $v_T) * (v_dBdT.[25] + v_dBdT.[33] - v_dBdT.[1] - v_dBdT.[38]))) * $v_rho_inv));
  (*1502*) Do (AddA v_jac 2 ((- $v_j_temp) * #1.0079400000000001e+00));
  (*1503*) Do (AddA v_jac 34 ($v_j_temp * #7.1142339999999990e+01));
  (*1504*) Do (AddA v_jac 39 ((- $v_j_temp) * #1.1221503999999999e+02));
  (*1505*) Do (AddA v_jac 26 ($v_j_temp * #4.2080640000000002e+01));
  (*1744*) Do (Asn v_j_temp 0 (#1.0 / $v_T * ((v_fwd_rates.[208] - v_rev_rates.[206]) * (#3.6735028234718870e+03 / $v_T) + v_fwd_rates.[208] * #(-1.0) - v_rev_rates.[206] * ((- $v_T) * (v_dBdT.[39] - v_dBdT.[20] - v_dBdT.[35]))) * $v_rho_inv));
  (*1745*) Do (AddA v_jac 36 ((- $v_j_temp) * #8.5169219999999996e+01));
  (*1746*) Do (AddA v_jac 21 ((- $v_j_temp) * #2.8053759999999997e+01));
  (*1747*) Do (AddA v_jac 40 ($v_j_temp * #1.1322297999999999e+02));
  (*1927*) Do (Asn v_Pr 0 ($v_conc_temp * (Exp (#5.2205873288747348e+01 - #6.66 * $v_logT - #1.8816889188778669e+03 / $v_T))));
  (*1928*) Do (Asn v_Fcent 0 (#0.0000000000000000e+00 * (Exp ($v_T / #(-1.0000000000000000e+03))) + #1.0000000000000000e+00 * (Exp ($v_T / #(-1.3100000000000000e+03))) + (Exp (#(-4.8097000000000000e+04) / $v_T))));
  (*1929*) Do (Asn v_A 0 ((Log10 (Fmax $v_Pr #1.0e-300)) - #0.67 * (Log10 (Fmax $v_Fcent #1.0e-300)) - #0.4));
  (*1930*) Do (Asn v_B 0 (#0.806 - #1.1762 * (Log10 (Fmax $v_Fcent #1.0e-300)) - #0.14 * (Log10 (Fmax $v_Pr #1.0e-300))));
  (*1931*) Do (Asn v_lnF_AB 0 (#2.0 * (Log (Fmax $v_Fcent #1.0e-300)) * $v_A / ($v_B * $v_B * $v_B * (#1.0 + $v_A * $v_A / ($v_B * $v_B)) * (#1.0 + $v_A * $v_A / ($v_B * $v_B)))));
  (*1932*) Do (Asn v_j_temp 0 ((v_pres_mod.[29] * ((#(-6.6600e+00) + #1.8816889188778669e+03 / $v_T - #1.0) / ($v_T * (#1.0 + $v_Pr)) + (#1.0 / ($v_Fcent * (#1.0 + $v_A * $v_A / ($v_B * $v_B))) - $v_lnF_AB * (#(-2.9097730287517870e-01) * $v_B + #5.1081716961460466e-01 * $v_A) / $v_Fcent) * (#(-0.0000000000000000e+00) * (Exp ($v_T / #(-1.0000000000000000e+03))) - #7.6335877862595419e-04 * (Exp ($v_T / #(-1.3100000000000000e+03))) + #4.8097000000000000e+04 / ($v_T * $v_T) * (Exp (#(-4.8097000000000000e+04) / $v_T))) - $v_lnF_AB * (#4.3429448190325176e-01 * $v_B + #6.0801227466455256e-02 * $v_A) * (#(-6.6600000000000001e+00) + #1.8816889188778669e+03 / $v_T - #1.0) / $v_T) * (v_fwd_rates.[209] - v_rev_rates.[207]) + v_pres_mod.[29] / $v_T * ((v_fwd_rates.[209] - v_rev_rates.[207]) * (#1.6408480351362714e+03 / $v_T) + v_fwd_rates.[209] * #(-1.0) - v_rev_rates.[207] * ((- $v_T) * (v_dBdT.[41] - v_dBdT.[1] - v_dBdT.[40])))) * $v_rho_inv));
  (*1933*) Do (Asn v_jac 41 ((- $v_j_temp) * #1.2624191999999999e+02));
  (*1934*) Do (AddA v_jac 2 ((- $v_j_temp) * #1.0079400000000001e+00));
  (*1935*) Do (Asn v_jac 42 ($v_j_temp * #1.2724985999999998e+02));
  (*2123*) Do (Asn v_j_temp 0 (#1.0 / $v_T * ((v_fwd_rates.[210] - v_rev_rates.[208]) * (#(-2.3900000000000001e+00) + #5.6259947351254386e+03 / $v_T) + v_fwd_rates.[210] * #(-1.0) - v_rev_rates.[208] * (#(-1.0) + (- $v_T) * (v_dBdT.[20] + v_dBdT.[37] - v_dBdT.[1] - v_dBdT.[40]))) * $v_rho_inv));
  (*2124*) Do (AddA v_jac 41 ((- $v_j_temp) * #1.2624191999999999e+02));
  (*2125*) Do (AddA v_jac 2 ((- $v_j_temp) * #1.0079400000000001e+00));
  (*2126*) Do (AddA v_jac 21 ($v_j_temp * #2.8053759999999997e+01));
  (*2127*) Do (AddA v_jac 38 ($v_j_temp * #9.9196100000000001e+01));
  (*2366*) Do (Asn v_j_temp 0 (#1.0 / $v_T * ((v_fwd_rates.[211] - v_rev_rates.[209]) * (#(-2.3900000000000001e+00) + #5.6259947351254386e+03 / $v_T) + v_fwd_rates.[211] * #(-1.0) - v_rev_rates.[209] * (#(-1.0) + (- $v_T) * (v_dBdT.[25] + v_dBdT.[35] - v_dBdT.[1] - v_dBdT.[40]))) * $v_rho_inv));
  (*2367*) Do (AddA v_jac 41 ((- $v_j_temp) * #1.2624191999999999e+02));
  (*2368*) Do (AddA v_jac 2 ((- $v_j_temp) * #1.0079400000000001e+00));
  (*2369*) Do (AddA v_jac 36 ($v_j_temp * #8.5169219999999996e+01));
  (*2370*) Do (AddA v_jac 26 ($v_j_temp * #4.2080640000000002e+01));
  (*2609*) Do (Asn v_j_temp 0 (#1.0 / $v_T * ((v_fwd_rates.[212] - v_rev_rates.[210]) * (#3.6735028234718870e+03 / $v_T) + v_fwd_rates.[212] * #(-1.0) - v_rev_rates.[210] * ((- $v_T) * (v_dBdT.[41] - v_dBdT.[20] - v_dBdT.[37]))) * $v_rho_inv));
  (*2610*) Do (AddA v_jac 42 ($v_j_temp * #1.2724985999999998e+02));
  (*2611*) Do (AddA v_jac 21 ((- $v_j_temp) * #2.8053759999999997e+01));
  (*2612*) Do (AddA v_jac 38 ((- $v_j_temp) * #9.9196100000000001e+01));
  (*2792*) Do (Asn v_Pr 0 ($v_conc_temp * (Exp (#5.2205873288747348e+01 - #6.66 * $v_logT - #1.8816889188778669e+03 / $v_T))));
  (*2793*) Do (Asn v_Fcent 0 (#0.0000000000000000e+00 * (Exp ($v_T / #(-1.0000000000000000e+03))) + #1.0000000000000000e+00 * (Exp ($v_T / #(-1.3100000000000000e+03))) + (Exp (#(-4.8097000000000000e+04) / $v_T))));
  (*2794*) Do (Asn v_A 0 ((Log10 (Fmax $v_Pr #1.0e-300)) - #0.67 * (Log10 (Fmax $v_Fcent #1.0e-300)) - #0.4));
  (*2795*) Do (Asn v_B 0 (#0.806 - #1.1762 * (Log10 (Fmax $v_Fcent #1.0e-300)) - #0.14 * (Log10 (Fmax $v_Pr #1.0e-300))));
  (*2796*) Do (Asn v_lnF_AB 0 (#2.0 * (Log (Fmax $v_Fcent #1.0e-300)) * $v_A / ($v_B * $v_B * $v_B * (#1.0 + $v_A * $v_A / ($v_B * $v_B)) * (#1.0 + $v_A * $v_A / ($v_B * $v_B)))));
  (*2797*) Do (Asn v_j_temp 0 ((v_pres_mod.[30] * ((#(-6.6600e+00) + #1.8816889188778669e+03 / $v_T - #1.0) / ($v_T * (#1.0 + $v_Pr)) + (#1.0 / ($v_Fcent * (#1.0 + $v_A * $v_A / ($v_B * $v_B))) - $v_lnF_AB * (#(-2.9097730287517870e-01) * $v_B + #5.1081716961460466e-01 * $v_A) / $v_Fcent) * (#(-0.0000000000000000e+00) * (Exp ($v_T / #(-1.0000000000000000e+03))) - #7.6335877862595419e-04 * (Exp ($v_T / #(-1.3100000000000000e+03))) + #4.8097000000000000e+04 / ($v_T * $v_T) * (Exp (#(-4.8097000000000000e+04) / $v_T))) - $v_lnF_AB * (#4.3429448190325176e-01 * $v_B + #6.0801227466455256e-02 * $v_A) * (#(-6.6600000000000001e+00) + #1.8816889188778669e+03 / $v_T - #1.0) / $v_T) * (v_fwd_rates.[213] - v_rev_rates.[211]) + v_pres_mod.[30] / $v_T * ((v_fwd_rates.[213] - v_rev_rates.[211]) * (#1.6408480351362714e+03 / $v_T) + v_fwd_rates.[213] * #(-1.0) - v_rev_rates.[211] * ((- $v_T) * (v_dBdT.[43] - v_dBdT.[42] - v_dBdT.[1])))) * $v_rho_inv));
  (*2798*) Do (AddA v_jac 2 ((- $v_j_temp) * #1.0079400000000001e+00));
  (*2799*) Do (Asn v_jac 43 ((- $v_j_temp) * #1.4026880000000000e+02));
  (*2800*) Do (Asn v_jac 44 ($v_j_temp * #1.4127673999999999e+02));
  (*2988*) Do (Asn v_j_temp 0 (#1.0 / $v_T * ((v_fwd_rates.[214] - v_rev_rates.[212]) * (#(-2.3900000000000001e+00) + #5.6259947351254386e+03 / $v_T) + v_fwd_rates.[214] * #(-1.0) - v_rev_rates.[212] * (#(-1.0) + (- $v_T) * (v_dBdT.[39] + v_dBdT.[20] - v_dBdT.[42] - v_dBdT.[1]))) * $v_rho_inv));
  (*2989*) Do (AddA v_jac 2 ((- $v_j_temp) * #1.0079400000000001e+00));
  (*2990*) Do (AddA v_jac 43 ((- $v_j_temp) * #1.4026880000000000e+02));
  (*2991*) Do (AddA v_jac 21 ($v_j_temp * #2.8053759999999997e+01));
  (*2992*) Do (AddA v_jac 40 ($v_j_temp * #1.1322297999999999e+02));
  (*3231*) Do (Asn v_j_temp 0 (#1.0 / $v_T * ((v_fwd_rates.[215] - v_rev_rates.[213]) * (#(-2.3900000000000001e+00) + #5.6259947351254386e+03 / $v_T) + v_fwd_rates.[215] * #(-1.0) - v_rev_rates.[213] * (#(-1.0) + (- $v_T) * (v_dBdT.[25] + v_dBdT.[37] - v_dBdT.[42] - v_dBdT.[1]))) * $v_rho_inv));
  (*3232*) Do (AddA v_jac 2 ((- $v_j_temp) * #1.0079400000000001e+00));
  (*3233*) Do (AddA v_jac 43 ((- $v_j_temp) * #1.4026880000000000e+02));
  (*3234*) Do (AddA v_jac 38 ($v_j_temp * #9.9196100000000001e+01));
  (*3235*) Do (AddA v_jac 26 ($v_j_temp * #4.2080640000000002e+01));
  (*3474*) Do (Asn v_j_temp 0 (#1.0 / $v_T * ((v_fwd_rates.[216] - v_rev_rates.[214]) * (#3.6735028234718870e+03 / $v_T) + v_fwd_rates.[216] * #(-1.0) - v_rev_rates.[214] * ((- $v_T) * (v_dBdT.[43] - v_dBdT.[39] - v_dBdT.[20]))) * $v_rho_inv));
  (*3475*) Do (AddA v_jac 44 ($v_j_temp * #1.4127673999999999e+02));
  (*3476*) Do (AddA v_jac 21 ((- $v_j_temp) * #2.8053759999999997e+01));
  (*3477*) Do (AddA v_jac 40 ((- $v_j_temp) * #1.1322297999999999e+02));
  (*3657*) Do (Asn v_j_temp 0 (#1.0 / $v_T * ((v_fwd_rates.[217] - v_rev_rates.[215]) * (#3.5696835950457928e+04 / $v_T) - v_rev_rates.[215] * (#(-1.0) + (- $v_T) * (v_dBdT.[31] + v_dBdT.[37] - v_dBdT.[48]))) * $v_rho_inv));
  (*3658*) Do (Asn v_jac 49 ((- $v_j_temp) * #1.6832256000000001e+02));
  (*3659*) Do (AddA v_jac 38 ($v_j_temp * #9.9196100000000001e+01));
  (*3660*) Do (AddA v_jac 32 ($v_j_temp * #6.9126459999999994e+01));
  (*3846*) Do (Asn v_j_temp 0 (#1.0 / $v_T * ((v_fwd_rates.[218] - v_rev_rates.[216]) * (#3.6735028234718870e+03 / $v_T) + v_fwd_rates.[218] * #(-1.0) - v_rev_rates.[216] * ((- $v_T) * (v_dBdT.[45] - v_dBdT.[20] - v_dBdT.[43]))) * $v_rho_inv));
  (*3847*) Do (AddA v_jac 44 ((- $v_j_temp) * #1.4127673999999999e+02));
  (*3848*) Do (AddA v_jac 21 ((- $v_j_temp) * #2.8053759999999997e+01));
  (*3849*) Do (Asn v_jac 46 ($v_j_temp * #1.6933050000000000e+02));
  (*4029*) Do (Asn v_j_temp 0 (#1.0 / $v_T * ((v_fwd_rates.[219] - v_rev_rates.[217]) * (#(-5.9999999999999998e-01) + #7.2463617339719422e+03 / $v_T) - v_rev_rates.[217] * ((- $v_T) * (v_dBdT.[47] - v_dBdT.[45]))) * $v_rho_inv));
  (*4030*) Do (AddA v_jac 46 ((- $v_j_temp) * #1.6933050000000000e+02));
  (*4031*) Do (Asn v_jac 48 ($v_j_temp * #1.6933050000000000e+02));
  (*4158*) Do (Asn v_j_temp 0 (#1.0 / $v_T * ((v_fwd_rates.[220] - v_rev_rates.[218]) * (#3.6735028234718870e+03 / $v_T) + v_fwd_rates.[220] * #(-1.0) - v_rev_rates.[218] * ((- $v_T) * (v_dBdT.[46] - v_dBdT.[25] - v_dBdT.[41]))) * $v_rho_inv));
  (*4159*) Do (AddA v_jac 26 ((- $v_j_temp) * #4.2080640000000002e+01));
  (*4160*) Do (Asn v_jac 47 ($v_j_temp * #1.6933050000000000e+02));
  (*4161*) Do (AddA v_jac 42 ((- $v_j_temp) * #1.2724985999999998e+02));
  (*4347*) Do (Asn v_j_temp 0 (#1.0 / $v_T * ((v_fwd_rates.[221] - v_rev_rates.[219]) * (#3.6735028234718870e+03 / $v_T) + v_fwd_rates.[221] * #(-1.0) - v_rev_rates.[219] * ((- $v_T) * (v_dBdT.[46] - v_dBdT.[39] - v_dBdT.[29]))) * $v_rho_inv));
  (*4348*) Do (AddA v_jac 30 ((- $v_j_temp) * #5.6107519999999994e+01));
  (*4349*) Do (AddA v_jac 47 ($v_j_temp * #1.6933050000000000e+02));
  (*4350*) Do (AddA v_jac 40 ((- $v_j_temp) * #1.1322297999999999e+02));
  (*4536*) Do (Asn v_j_temp 0 (#1.0 / $v_T * ((v_fwd_rates.[222] - v_rev_rates.[220]) * (#3.6735028234718870e+03 / $v_T) + v_fwd_rates.[222] * #(-1.0) - v_rev_rates.[220] * ((- $v_T) * (v_dBdT.[47] - v_dBdT.[32] - v_dBdT.[37]))) * $v_rho_inv));
  (*4537*) Do (AddA v_jac 33 ((- $v_j_temp) * #7.0134399999999999e+01));
  (*4538*) Do (AddA v_jac 38 ((- $v_j_temp) * #9.9196100000000001e+01));
  (*4539*) Do (AddA v_jac 48 ($v_j_temp * #1.6933050000000000e+02));
  (*4725*) Do (Asn v_j_temp 0 (#1.0 / $v_T * ((v_fwd_rates.[223] - v_rev_rates.[221]) * (#3.6735028234718870e+03 / $v_T) + v_fwd_rates.[223] * #(-1.0) - v_rev_rates.[221] * ((- $v_T) * (v_dBdT.[47] - v_dBdT.[42] - v_dBdT.[21]))) * $v_rho_inv));
  (*4726*) Do (AddA v_jac 43 ((- $v_j_temp) * #1.4026880000000000e+02));
  (*4727*) Do (AddA v_jac 22 ((- $v_j_temp) * #2.9061699999999998e+01));
  (*4728*) Do (AddA v_jac 48 ($v_j_temp * #1.6933050000000000e+02));
  (*4914*) Do (Asn v_j_temp 0 (#1.0 / $v_T * ((v_fwd_rates.[224] - v_rev_rates.[222]) * (#3.6735028234718870e+03 / $v_T) + v_fwd_rates.[224] * #(-1.0) - v_rev_rates.[222] * ((- $v_T) * (v_dBdT.[47] - v_dBdT.[34] - v_dBdT.[35]))) * $v_rho_inv));
  (*4915*) Do (AddA v_jac 35 ((- $v_j_temp) * #8.4161280000000005e+01));
  (*4916*) Do (AddA v_jac 36 ((- $v_j_temp) * #8.5169219999999996e+01));
  (*4917*) Do (AddA v_jac 48 ($v_j_temp * #1.6933050000000000e+02));
  (*5103*) Do (Asn v_j_temp 0 (#1.0 / $v_T * ((v_fwd_rates.[225] - v_rev_rates.[223]) * (#3.6735028234718870e+03 / $v_T) + v_fwd_rates.[225] * #(-1.0) - v_rev_rates.[223] * ((- $v_T) * (v_dBdT.[47] - v_dBdT.[26] - v_dBdT.[40]))) * $v_rho_inv));
  (*5104*) Do (AddA v_jac 41 ((- $v_j_temp) * #1.2624191999999999e+02));
  (*5105*) Do (AddA v_jac 27 ((- $v_j_temp) * #4.3088580000000000e+01));
  (*5106*) Do (AddA v_jac 48 ($v_j_temp * #1.6933050000000000e+02));
  (*5292*) Do (Asn v_j_temp 0 (#1.0 / $v_T * ((v_fwd_rates.[226] - v_rev_rates.[224]) * (#3.6735028234718870e+03 / $v_T) + v_fwd_rates.[226] * #(-1.0) - v_rev_rates.[224] * ((- $v_T) * (v_dBdT.[47] - v_dBdT.[33] - v_dBdT.[36]))) * $v_rho_inv));
  (*5293*) Do (AddA v_jac 34 ((- $v_j_temp) * #7.1142339999999990e+01));
  (*5294*) Do (AddA v_jac 37 ((- $v_j_temp) * #9.8188159999999996e+01));
  (*5295*) Do (AddA v_jac 48 ($v_j_temp * #1.6933050000000000e+02));
  (*5481*) Do (Asn v_j_temp 0 (#1.0 / $v_T * ((v_fwd_rates.[227] - v_rev_rates.[225]) * (#3.6735028234718870e+03 / $v_T) + v_fwd_rates.[227] * #(-1.0) - v_rev_rates.[225] * ((- $v_T) * (v_dBdT.[47] - v_dBdT.[30] - v_dBdT.[38]))) * $v_rho_inv));
  (*5482*) Do (AddA v_jac 39 ((- $v_j_temp) * #1.1221503999999999e+02));
  (*5483*) Do (AddA v_jac 31 ((- $v_j_temp) * #5.7115459999999999e+01));
  (*5484*) Do (AddA v_jac 48 ($v_j_temp * #1.6933050000000000e+02));
  (*5670*) Do (Asn v_j_temp 0 (#1.0 / $v_T * ((v_fwd_rates.[228] - v_rev_rates.[226]) * #(-5.0000000000000000e-01) + v_fwd_rates.[228] * #(-1.0) - v_rev_rates.[226] * ((- $v_T) * (v_dBdT.[44] - v_dBdT.[21] - v_dBdT.[43]))) * $v_rho_inv));
  (*5671*) Do (AddA v_jac 44 ((- $v_j_temp) * #1.4127673999999999e+02));
  (*5672*) Do (Asn v_jac 45 ($v_j_temp * #1.7033843999999999e+02));
  (*5673*) Do (AddA v_jac 22 ((- $v_j_temp) * #2.9061699999999998e+01));
  (*5859*) Do (Asn v_j_temp 0 (#1.0 / $v_T * ((v_fwd_rates.[229] - v_rev_rates.[227]) * #(-5.0000000000000000e-01) + v_fwd_rates.[229] * #(-1.0) - v_rev_rates.[227] * ((- $v_T) * (v_dBdT.[44] - v_dBdT.[26] - v_dBdT.[41]))) * $v_rho_inv));
  (*5860*) Do (AddA v_jac 42 ((- $v_j_temp) * #1.2724985999999998e+02));
  (*5861*) Do (AddA v_jac 27 ((- $v_j_temp) * #4.3088580000000000e+01));
  (*5862*) Do (AddA v_jac 45 ($v_j_temp * #1.7033843999999999e+02));
  (*6048*) Do (Asn v_j_temp 0 (#1.0 / $v_T * ((v_fwd_rates.[230] - v_rev_rates.[228]) * #(-5.0000000000000000e-01) + v_fwd_rates.[230] * #(-1.0) - v_rev_rates.[228] * ((- $v_T) * (v_dBdT.[44] - v_dBdT.[39] - v_dBdT.[30]))) * $v_rho_inv));
  (*6049*) Do (AddA v_jac 45 ($v_j_temp * #1.7033843999999999e+02));
  (*6050*) Do (AddA v_jac 31 ((- $v_j_temp) * #5.7115459999999999e+01));
  (*6051*) Do (AddA v_jac 40 ((- $v_j_temp) * #1.1322297999999999e+02));
  (*6237*) Do (Asn v_j_temp 0 (#1.0 / $v_T * ((v_fwd_rates.[231] - v_rev_rates.[229]) * #(-5.0000000000000000e-01) + v_fwd_rates.[231] * #(-1.0) - v_rev_rates.[229] * ((- $v_T) * (v_dBdT.[44] - v_dBdT.[33] - v_dBdT.[37]))) * $v_rho_inv));
  (*6238*) Do (AddA v_jac 34 ((- $v_j_temp) * #7.1142339999999990e+01));
  (*6239*) Do (AddA v_jac 45 ($v_j_temp * #1.7033843999999999e+02));
  (*6240*) Do (AddA v_jac 38 ((- $v_j_temp) * #9.9196100000000001e+01));
  (*6420*) Do (Asn v_j_temp 0 (#1.0 / $v_T * ((v_fwd_rates.[232] - v_rev_rates.[230]) * #(-5.0000000000000000e-01) + v_fwd_rates.[232] * #(-1.0) - v_rev_rates.[230] * ((- $v_T) * (v_dBdT.[44] - #2.0 * v_dBdT.[35]))) * $v_rho_inv));
  (*6421*) Do (AddA v_jac 36 ($v_j_temp * #(-2.0) * #8.5169219999999996e+01));
  (*6422*) Do (AddA v_jac 45 ($v_j_temp * #1.7033843999999999e+02));
  (*6549*) Do (Asn v_j_temp 0 (#1.0 / $v_T * ((v_fwd_rates.[233] - v_rev_rates.[231]) * (#2.5400000000000000e+00 + #3.3997513801885029e+03 / $v_T) + v_fwd_rates.[233] * #(-1.0) - v_rev_rates.[231] * (#(-1.0) + (- $v_T) * (v_dBdT.[5] + v_dBdT.[45] - v_dBdT.[1] - v_dBdT.[44]))) * $v_rho_inv));
  (*6550*) Do (AddA v_jac 2 ((- $v_j_temp) * #1.0079400000000001e+00));
  (*6551*) Do (AddA v_jac 45 ((- $v_j_temp) * #1.7033843999999999e+02));
  (*6552*) Do (AddA v_jac 6 ($v_j_temp * #2.0158800000000001e+00));
  (*6553*) Do (AddA v_jac 46 ($v_j_temp * #1.6933050000000000e+02));
  (*6792*) Do (Asn v_j_temp 0 (#1.0 / $v_T * ((v_fwd_rates.[234] - v_rev_rates.[232]) * (#2.3999999999999999e+00 + #2.2498946744853160e+03 / $v_T) + v_fwd_rates.[234] * #(-1.0) - v_rev_rates.[232] * (#(-1.0) + (- $v_T) * (v_dBdT.[5] + v_dBdT.[46] - v_dBdT.[1] - v_dBdT.[44]))) * $v_rho_inv));
  (*6793*) Do (AddA v_jac 2 ((- $v_j_temp) * #1.0079400000000001e+00));
  (*6794*) Do (AddA v_jac 45 ((- $v_j_temp) * #1.7033843999999999e+02));
  (*6795*) Do (AddA v_jac 6 ($v_j_temp * #2.0158800000000001e+00));
  (*6796*) Do (AddA v_jac 47 ($v_j_temp * #1.6933050000000000e+02));
  (*7035*) Do (Asn v_j_temp 0 (#1.0 / $v_T * ((v_fwd_rates.[235] - v_rev_rates.[233]) * (#2.3999999999999999e+00 + #2.2498946744853160e+03 / $v_T) + v_fwd_rates.[235] * #(-1.0) - v_rev_rates.[233] * (#(-1.0) + (- $v_T) * (v_dBdT.[5] + v_dBdT.[47] - v_dBdT.[1] - v_dBdT.[44]))) * $v_rho_inv));
  (*7036*) Do (AddA v_jac 2 ((- $v_j_temp) * #1.0079400000000001e+00));
  (*7037*) Do (AddA v_jac 45 ((- $v_j_temp) * #1.7033843999999999e+02));
  (*7038*) Do (AddA v_jac 6 ($v_j_temp * #2.0158800000000001e+00));
  (*7039*) Do (AddA v_jac 48 ($v_j_temp * #1.6933050000000000e+02));
  (*7278*) Do (Asn v_j_temp 0 (#1.0 / $v_T * ((v_fwd_rates.[236] - v_rev_rates.[234]) * (#2.6800000000000002e+00 + #1.8699639030166484e+03 / $v_T) + v_fwd_rates.[236] * #(-1.0) - v_rev_rates.[234] * (#(-1.0) + (- $v_T) * (v_dBdT.[45] + v_dBdT.[3] - v_dBdT.[44] - v_dBdT.[2]))) * $v_rho_inv));
  (*7279*) Do (AddA v_jac 3 ((- $v_j_temp) * #1.5999400000000000e+01));
  (*7280*) Do (AddA v_jac 4 ($v_j_temp * #1.7007339999999999e+01));
  (*7281*) Do (AddA v_jac 45 ((- $v_j_temp) * #1.7033843999999999e+02));
  (*7282*) Do (AddA v_jac 46 ($v_j_temp * #1.6933050000000000e+02));
  (*7521*) Do (Asn v_j_temp 0 (#1.0 / $v_T * ((v_fwd_rates.[237] - v_rev_rates.[235]) * (#2.7100000000000000e+00 + #1.0597804035933966e+03 / $v_T) + v_fwd_rates.[237] * #(-1.0) - v_rev_rates.[235] * (#(-1.0) + (- $v_T) * (v_dBdT.[46] + v_dBdT.[3] - v_dBdT.[44] - v_dBdT.[2]))) * $v_rho_inv));
  (*7522*) Do (AddA v_jac 3 ((- $v_j_temp) * #1.5999400000000000e+01));
  (*7523*) Do (AddA v_jac 4 ($v_j_temp * #1.7007339999999999e+01));
  (*7524*) Do (AddA v_jac 45 ((- $v_j_temp) * #1.7033843999999999e+02));
  (*7525*) Do (AddA v_jac 47 ($v_j_temp * #1.6933050000000000e+02));
  (*7764*) Do (Asn v_j_temp 0 (#1.0 / $v_T * ((v_fwd_rates.[238] - v_rev_rates.[236]) * (#2.7100000000000000e+00 + #1.0597804035933966e+03 / $v_T) + v_fwd_rates.[238] * #(-1.0) - v_rev_rates.[236] * (#(-1.0) + (- $v_T) * (v_dBdT.[47] + v_dBdT.[3] - v_dBdT.[44] - v_dBdT.[2]))) * $v_rho_inv));
  (*7765*) Do (AddA v_jac 3 ((- $v_j_temp) * #1.5999400000000000e+01));
  (*7766*) Do (AddA v_jac 4 ($v_j_temp * #1.7007339999999999e+01));
  (*7767*) Do (AddA v_jac 45 ((- $v_j_temp) * #1.7033843999999999e+02));
  (*7768*) Do (AddA v_jac 48 ($v_j_temp * #1.6933050000000000e+02));
  (*8007*) Do (Asn v_j_temp 0 (#1.0 / $v_T * ((v_fwd_rates.[239] - v_rev_rates.[237]) * (#2.6600000000000001e+00 + #2.6519671068077872e+02 / $v_T) + v_fwd_rates.[239] * #(-1.0) - v_rev_rates.[237] * (#(-1.0) + (- $v_T) * (v_dBdT.[6] + v_dBdT.[45] - v_dBdT.[44] - v_dBdT.[3]))) * $v_rho_inv));
  (*8008*) Do (AddA v_jac 4 ((- $v_j_temp) * #1.7007339999999999e+01));
  (*8009*) Do (AddA v_jac 45 ((- $v_j_temp) * #1.7033843999999999e+02));
  (*8010*) Do (AddA v_jac 46 ($v_j_temp * #1.6933050000000000e+02));
  (*8011*) Do (AddA v_jac 7 ($v_j_temp * #1.8015280000000001e+01))].

(** [eval_jacob_6], yao/lib/src/jacobs/jacob_6.c:4-6058: the declarations and the blocks "partial of
    rxn ... wrt T" (the blocks "wrt species" write other elements of [jac]). *)
Definition yao_jac_T6 : list stmt := [
  (*5*) Do (Asn v_logT 0 ((Log $v_T)));
  (*6*) Do (Asn v_kf 0 (#0.0));
  (*7*) Do (Asn v_j_temp 0 (#0.0));
  (*8*) Do (Asn v_Kc 0 (#0.0));
  (*9*) Do (Asn v_kr 0 (#0.0));
  (*10*) Do (Asn v_rho_inv 0 (#1.0 / $v_rho));
  (*12*) Do (Asn v_j_temp 0 (#1.0 / $v_T * ((v_fwd_rates.[240] - v_rev_rates.[238]) * (#2.3900000000000001e+00 + #1.9776528898965091e+02 / $v_T) + v_fwd_rates.[240] * #(-1.0) - v_rev_rates.[238] * (#(-1.0) + (- $v_T) * (v_dBdT.[6] + v_dBdT.[46] - v_dBdT.[44] - v_dBdT.[3]))) * $v_rho_inv));
  (*13*) Do (AddA v_jac 4 ((- $v_j_temp) * #1.7007339999999999e+01));
  (*14*) Do (AddA v_jac 45 ((- $v_j_temp) * #1.7033843999999999e+02));
  (*15*) Do (AddA v_jac 47 ($v_j_temp * #1.6933050000000000e+02));
  (*16*) Do (AddA v_jac 7 ($v_j_temp * #1.8015280000000001e+01));
  (*255*) Do (Asn v_j_temp 0 (#1.0 / $v_T * ((v_fwd_rates.[241] - v_rev_rates.[239]) * (#2.3900000000000001e+00 + #1.9776528898965091e+02 / $v_T) + v_fwd_rates.[241] * #(-1.0) - v_rev_rates.[239] * (#(-1.0) + (- $v_T) * (v_dBdT.[6] + v_dBdT.[47] - v_dBdT.[44] - v_dBdT.[3]))) * $v_rho_inv));
  (*256*) Do (AddA v_jac 4 ((- $v_j_temp) * #1.7007339999999999e+01));
  (*257*) Do (AddA v_jac 45 ((- $v_j_temp) * #1.7033843999999999e+02));
  (*258*) Do (AddA v_jac 7 ($v_j_temp * #1.8015280000000001e+01));
  (*259*) Do (AddA v_jac 48 ($v_j_temp * #1.6933050000000000e+02));
  (*498*) Do (Asn v_j_temp 0 (#1.0 / $v_T * ((v_fwd_rates.[242] - v_rev_rates.[240]) * (#2.5628972438277153e+04 / $v_T) + v_fwd_rates.[242] * #(-1.0) - v_rev_rates.[240] * (#(-1.0) + (- $v_T) * (v_dBdT.[4] + v_dBdT.[45] - v_dBdT.[44] - v_dBdT.[8]))) * $v_rho_inv));
  (*499*) Do (AddA v_jac 9 ((- $v_j_temp) * #3.1998799999999999e+01));
  (*500*) Do (AddA v_jac 5 ($v_j_temp * #3.3006740000000001e+01));
  (*501*) Do (AddA v_jac 45 ((- $v_j_temp) * #1.7033843999999999e+02));
  (*502*) Do (AddA v_jac 46 ($v_j_temp * #1.6933050000000000e+02));
  (*741*) Do (Asn v_j_temp 0 (#1.0 / $v_T * ((v_fwd_rates.[243] - v_rev_rates.[241]) * (#2.3948219091647548e+04 / $v_T) + v_fwd_rates.[243] * #(-1.0) - v_rev_rates.[241] * (#(-1.0) + (- $v_T) * (v_dBdT.[4] + v_dBdT.[46] - v_dBdT.[44] - v_dBdT.[8]))) * $v_rho_inv));
  (*742*) Do (AddA v_jac 9 ((- $v_j_temp) * #3.1998799999999999e+01));
  (*743*) Do (AddA v_jac 5 ($v_j_temp * #3.3006740000000001e+01));
  (*744*) Do (AddA v_jac 45 ((- $v_j_temp) * #1.7033843999999999e+02));
  (*745*) Do (AddA v_jac 47 ($v_j_temp * #1.6933050000000000e+02));
  (*984*) Do (Asn v_j_temp 0 (#1.0 / $v_T * ((v_fwd_rates.[244] - v_rev_rates.[242]) * (#2.3948219091647548e+04 / $v_T) + v_fwd_rates.[244] * #(-1.0) - v_rev_rates.[242] * (#(-1.0) + (- $v_T) * (v_dBdT.[4] + v_dBdT.[47] - v_dBdT.[44] - v_dBdT.[8]))) * $v_rho_inv));
  (*985*) Do (AddA v_jac 9 ((- $v_j_temp) * #3.1998799999999999e+01));
  (*986*) Do (AddA v_jac 5 ($v_j_temp * #3.3006740000000001e+01));
  (*987*) Do (AddA v_jac 45 ((- $v_j_temp) * #1.7033843999999999e+02));
  (*988*) Do (AddA v_jac 48 ($v_j_temp * #1.6933050000000000e+02));
  (*1227*) Do (Asn v_j_temp 0 (#1.0 / $v_T * ((v_fwd_rates.[245] - v_rev_rates.[243]) * (#2.5499999999999998e+00 + #8.2980906245275910e+03 / $v_T) + v_fwd_rates.[245] * #(-1.0) - v_rev_rates.[243] * (#(-1.0) + (- $v_T) * (v_dBdT.[7] + v_dBdT.[45] - v_dBdT.[44] - v_dBdT.[4]))) * $v_rho_inv));
  (*1228*) Do (AddA v_jac 5 ((- $v_j_temp) * #3.3006740000000001e+01));
  (*1229*) Do (AddA v_jac 45 ((- $v_j_temp) * #1.7033843999999999e+02));
  (*1230*) Do (AddA v_jac 46 ($v_j_temp * #1.6933050000000000e+02));
  (*1231*) Do (AddA v_jac 8 ($v_j_temp * #3.4014679999999998e+01));
  (*1470*) Do (Asn v_j_temp 0 (#1.0 / $v_T * ((v_fwd_rates.[246] - v_rev_rates.[244]) * (#2.6000000000000001e+00 + #6.9997841471909524e+03 / $v_T) + v_fwd_rates.[246] * #(-1.0) - v_rev_rates.[244] * (#(-1.0) + (- $v_T) * (v_dBdT.[46] + v_dBdT.[7] - v_dBdT.[44] - v_dBdT.[4]))) * $v_rho_inv));
  (*1471*) Do (AddA v_jac 5 ((- $v_j_temp) * #3.3006740000000001e+01));
  (*1472*) Do (AddA v_jac 45 ((- $v_j_temp) * #1.7033843999999999e+02));
  (*1473*) Do (AddA v_jac 47 ($v_j_temp * #1.6933050000000000e+02));
  (*1474*) Do (AddA v_jac 8 ($v_j_temp * #3.4014679999999998e+01));
  (*1713*) Do (Asn v_j_temp 0 (#1.0 / $v_T * ((v_fwd_rates.[247] - v_rev_rates.[245]) * (#2.6000000000000001e+00 + #6.9997841471909524e+03 / $v_T) + v_fwd_rates.[247] * #(-1.0) - v_rev_rates.[245] * (#(-1.0) + (- $v_T) * (v_dBdT.[7] + v_dBdT.[47] - v_dBdT.[44] - v_dBdT.[4]))) * $v_rho_inv));
  (*1714*) Do (AddA v_jac 5 ((- $v_j_temp) * #3.3006740000000001e+01));
  (*1715*) Do (AddA v_jac 48 ($v_j_temp * #1.6933050000000000e+02));
  (*1716*) Do (AddA v_jac 45 ((- $v_j_temp) * #1.7033843999999999e+02));
  (*1717*) Do (AddA v_jac 8 ($v_j_temp * #3.4014679999999998e+01));
  (*1956*) Do (Asn v_j_temp 0 (#1.0 / $v_T * ((v_fwd_rates.[248] - v_rev_rates.[246]) * (#3.6499999999999999e+00 + #3.5995295474375903e+03 / $v_T) + v_fwd_rates.[248] * #(-1.0) - v_rev_rates.[246] * (#(-1.0) + (- $v_T) * (v_dBdT.[12] + v_dBdT.[45] - v_dBdT.[11] - v_dBdT.[44]))) * $v_rho_inv));
  (*1957*) Do (AddA v_jac 13 ($v_j_temp * #1.6042760000000001e+01));
  (*1958*) Do (AddA v_jac 12 ((- $v_j_temp) * #1.5034820000000000e+01));
  (*1959*) Do (AddA v_jac 45 ((- $v_j_temp) * #1.7033843999999999e+02));
  (*1960*) Do (AddA v_jac 46 ($v_j_temp * #1.6933050000000000e+02));
  (*2199*) Do (Asn v_j_temp 0 (#1.0 / $v_T * ((v_fwd_rates.[249] - v_rev_rates.[247]) * (#3.4600000000000000e+00 + #2.7576432154282111e+03 / $v_T) + v_fwd_rates.[249] * #(-1.0) - v_rev_rates.[247] * (#(-1.0) + (- $v_T) * (v_dBdT.[12] + v_dBdT.[46] - v_dBdT.[11] - v_dBdT.[44]))) * $v_rho_inv));
  (*2200*) Do (AddA v_jac 13 ($v_j_temp * #1.6042760000000001e+01));
  (*2201*) Do (AddA v_jac 12 ((- $v_j_temp) * #1.5034820000000000e+01));
  (*2202*) Do (AddA v_jac 45 ((- $v_j_temp) * #1.7033843999999999e+02));
  (*2203*) Do (AddA v_jac 47 ($v_j_temp * #1.6933050000000000e+02));
  (*2442*) Do (Asn v_j_temp 0 (#1.0 / $v_T * ((v_fwd_rates.[250] - v_rev_rates.[248]) * (#3.4600000000000000e+00 + #2.7576432154282111e+03 / $v_T) + v_fwd_rates.[250] * #(-1.0) - v_rev_rates.[248] * (#(-1.0) + (- $v_T) * (v_dBdT.[12] + v_dBdT.[47] - v_dBdT.[11] - v_dBdT.[44]))) * $v_rho_inv));
  (*2443*) Do (AddA v_jac 13 ($v_j_temp * #1.6042760000000001e+01));
  (*2444*) Do (AddA v_jac 12 ((- $v_j_temp) * #1.5034820000000000e+01));
  (*2445*) Do (AddA v_jac 45 ((- $v_j_temp) * #1.7033843999999999e+02));
  (*2446*) Do (AddA v_jac 48 ($v_j_temp * #1.6933050000000000e+02));
  (*2685*) Do (Asn v_j_temp 0 (#1.0 / $v_T * (v_fwd_rates.[251] * #(-1.0)) * $v_rho_inv));
  (*2686*) Do (AddA v_jac 9 ((- $v_j_temp) * #3.1998799999999999e+01));
  (*2687*) Do (Asn v_jac 50 ($v_j_temp * #2.0132929999999999e+02));
  (*2688*) Do (AddA v_jac 46 ((- $v_j_temp) * #1.6933050000000000e+02));
  (*2854*) Do (Asn v_j_temp 0 (#1.0 / $v_T * (v_fwd_rates.[252] * (#1.3788216077141056e+04 / $v_T)) * $v_rho_inv));
  (*2855*) Do (AddA v_jac 9 ($v_j_temp * #3.1998799999999999e+01));
  (*2856*) Do (AddA v_jac 50 ((- $v_j_temp) * #2.0132929999999999e+02));
  (*2857*) Do (AddA v_jac 46 ($v_j_temp * #1.6933050000000000e+02));
  (*3023*) Do (Asn v_j_temp 0 (#1.0 / $v_T * (v_fwd_rates.[253] * #(-1.0)) * $v_rho_inv));
  (*3024*) Do (AddA v_jac 9 ((- $v_j_temp) * #3.1998799999999999e+01));
  (*3025*) Do (AddA v_jac 50 ($v_j_temp * #2.0132929999999999e+02));
  (*3026*) Do (AddA v_jac 47 ((- $v_j_temp) * #1.6933050000000000e+02));
  (*3192*) Do (Asn v_j_temp 0 (#1.0 / $v_T * (v_fwd_rates.[254] * (#1.3788216077141056e+04 / $v_T)) * $v_rho_inv));
  (*3193*) Do (AddA v_jac 9 ($v_j_temp * #3.1998799999999999e+01));
  (*3194*) Do (AddA v_jac 50 ((- $v_j_temp) * #2.0132929999999999e+02));
  (*3195*) Do (AddA v_jac 47 ($v_j_temp * #1.6933050000000000e+02));
  (*3361*) Do (Asn v_j_temp 0 (#1.0 / $v_T * (v_fwd_rates.[255] * #(-1.0)) * $v_rho_inv));
  (*3362*) Do (AddA v_jac 9 ((- $v_j_temp) * #3.1998799999999999e+01));
  (*3363*) Do (AddA v_jac 50 ($v_j_temp * #2.0132929999999999e+02));
  (*3364*) Do (AddA v_jac 48 ((- $v_j_temp) * #1.6933050000000000e+02));
  (*3530*) Do (Asn v_j_temp 0 (#1.0 / $v_T * (v_fwd_rates.[256] * (#1.3788216077141056e+04 / $v_T)) * $v_rho_inv));
  (*3531*) Do (AddA v_jac 9 ($v_j_temp * #3.1998799999999999e+01));
  (*3532*) Do (AddA v_jac 50 ((- $v_j_temp) * #2.0132929999999999e+02));
  (*3533*) Do (AddA v_jac 48 ($v_j_temp * #1.6933050000000000e+02));
  (*3699*) Do (Asn v_j_temp 0 (#1.0 / $v_T * (v_fwd_rates.[257] * (#9.5611717323240900e+03 / $v_T)) * $v_rho_inv));
  (*3700*) Do (AddA v_jac 50 ((- $v_j_temp) * #2.0132929999999999e+02));
  (*3701*) Do (Asn v_jac 51 ($v_j_temp * #2.0132929999999999e+02));
  (*3814*) Do (Asn v_j_temp 0 (#1.0 / $v_T * (v_fwd_rates.[258] * (#5.7870249958803706e+03 / $v_T)) * $v_rho_inv));
  (*3815*) Do (AddA v_jac 50 ($v_j_temp * #2.0132929999999999e+02));
  (*3816*) Do (AddA v_jac 51 ((- $v_j_temp) * #2.0132929999999999e+02));
  (*3929*) Do (Asn v_j_temp 0 (#1.0 / $v_T * (v_fwd_rates.[259] * (#3.0193173891549759e+03 / $v_T + #(-1.0))) * $v_rho_inv));
  (*3930*) Do (AddA v_jac 9 ((- $v_j_temp) * #3.1998799999999999e+01));
  (*3931*) Do (AddA v_jac 49 ($v_j_temp * #1.6832256000000001e+02));
  (*3932*) Do (AddA v_jac 5 ($v_j_temp * #3.3006740000000001e+01));
  (*3933*) Do (AddA v_jac 46 ((- $v_j_temp) * #1.6933050000000000e+02));
  (*4152*) Do (Asn v_j_temp 0 (#1.0 / $v_T * (v_fwd_rates.[260] * (#9.8127815147536712e+03 / $v_T + #(-1.0))) * $v_rho_inv));
  (*4153*) Do (AddA v_jac 49 ((- $v_j_temp) * #1.6832256000000001e+02));
  (*4154*) Do (AddA v_jac 9 ($v_j_temp * #3.1998799999999999e+01));
  (*4155*) Do (AddA v_jac 5 ((- $v_j_temp) * #3.3006740000000001e+01));
  (*4156*) Do (AddA v_jac 46 ($v_j_temp * #1.6933050000000000e+02));
  (*4375*) Do (Asn v_j_temp 0 (#1.0 / $v_T * (v_fwd_rates.[261] * (#3.0193173891549759e+03 / $v_T + #(-1.0))) * $v_rho_inv));
  (*4376*) Do (AddA v_jac 9 ((- $v_j_temp) * #3.1998799999999999e+01));
  (*4377*) Do (AddA v_jac 49 ($v_j_temp * #1.6832256000000001e+02));
  (*4378*) Do (AddA v_jac 5 ($v_j_temp * #3.3006740000000001e+01));
  (*4379*) Do (AddA v_jac 47 ((- $v_j_temp) * #1.6933050000000000e+02));
  (*4598*) Do (Asn v_j_temp 0 (#1.0 / $v_T * (v_fwd_rates.[262] * (#9.8127815147536712e+03 / $v_T + #(-1.0))) * $v_rho_inv));
  (*4599*) Do (AddA v_jac 49 ((- $v_j_temp) * #1.6832256000000001e+02));
  (*4600*) Do (AddA v_jac 9 ($v_j_temp * #3.1998799999999999e+01));
  (*4601*) Do (AddA v_jac 5 ((- $v_j_temp) * #3.3006740000000001e+01));
  (*4602*) Do (AddA v_jac 47 ($v_j_temp * #1.6933050000000000e+02));
  (*4821*) Do (Asn v_j_temp 0 (#1.0 / $v_T * (v_fwd_rates.[263] * (#3.0193173891549759e+03 / $v_T + #(-1.0))) * $v_rho_inv));
  (*4822*) Do (AddA v_jac 9 ((- $v_j_temp) * #3.1998799999999999e+01));
  (*4823*) Do (AddA v_jac 49 ($v_j_temp * #1.6832256000000001e+02));
  (*4824*) Do (AddA v_jac 5 ($v_j_temp * #3.3006740000000001e+01));
  (*4825*) Do (AddA v_jac 48 ((- $v_j_temp) * #1.6933050000000000e+02));
  (*5044*) Do (Asn v_j_temp 0 (#1.0 / $v_T * (v_fwd_rates.[264] * (#9.8127815147536712e+03 / $v_T + #(-1.0))) * $v_rho_inv));
  (*5045*) Do (AddA v_jac 49 ((- $v_j_temp) * #1.6832256000000001e+02));
  (*5046*) Do (AddA v_jac 9 ($v_j_temp * #3.1998799999999999e+01));
  (*5047*) Do (AddA v_jac 5 ((- $v_j_temp) * #3.3006740000000001e+01));
  (*5048*) Do (AddA v_jac 48 ($v_j_temp * #1.6933050000000000e+02));
  (*5267*) Do (Asn v_j_temp 0 (#1.0 / $v_T * (v_fwd_rates.[265] * #(-1.0)) * $v_rho_inv));
  (*5268*) Do (AddA v_jac 9 ((- $v_j_temp) * #3.1998799999999999e+01));
  (*5269*) Do (AddA v_jac 51 ((- $v_j_temp) * #2.0132929999999999e+02));
  (*5270*) Do (Asn v_jac 52 ($v_j_temp * #2.3332810000000001e+02));
  (*5436*) Do (Asn v_j_temp 0 (#1.0 / $v_T * (v_fwd_rates.[266] * (#1.3788216077141056e+04 / $v_T)) * $v_rho_inv));
  (*5437*) Do (AddA v_jac 9 ($v_j_temp * #3.1998799999999999e+01));
  (*5438*) Do (AddA v_jac 51 ($v_j_temp * #2.0132929999999999e+02));
  (*5439*) Do (AddA v_jac 52 ((- $v_j_temp) * #2.3332810000000001e+02));
  (*5605*) Do (Asn v_j_temp 0 (#1.0 / $v_T * ((v_fwd_rates.[267] - v_rev_rates.[249]) * (#8.5547326026057654e+03 / $v_T) - v_rev_rates.[249] * (#(-1.0) + (- $v_T) * (v_dBdT.[52] + v_dBdT.[3] - v_dBdT.[51]))) * $v_rho_inv));
  (*5606*) Do (AddA v_jac 4 ($v_j_temp * #1.7007339999999999e+01));
  (*5607*) Do (AddA v_jac 52 ((- $v_j_temp) * #2.3332810000000001e+02));
  (*5608*) Do (Asn v_jac 53 ($v_j_temp * #2.1632076000000001e+02));
  (*5782*) Do (Asn v_j_temp 0 (#1.0 / $v_T * (v_fwd_rates.[268] * (#2.1167930995800678e+04 / $v_T)) * $v_rho_inv));
  (*5783*) Do (AddA v_jac 21 ($v_j_temp * #3.0 * #2.8053759999999997e+01));
  (*5784*) Do (AddA v_jac 4 ($v_j_temp * #1.7007339999999999e+01));
  (*5785*) Do (AddA v_jac 53 ((- $v_j_temp) * #2.1632076000000001e+02));
  (*5786*) Do (AddA v_jac 22 ($v_j_temp * #2.9061699999999998e+01));
  (*5787*) Do (AddA v_jac 24 ($v_j_temp * #2.0 * #4.3045220000000000e+01))].

