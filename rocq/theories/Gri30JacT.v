(** Transcription of the temperature column of the Jacobian
    (/repo/utilities/mechanisms/gri30/lib/src/jacob.c, jacobs/jacob_*.c); the number before a statement is its line. *)
From Coq Require Import List QArith.
From Verif Require Import MechLang.
Import ListNotations.
Local Open Scope mech_scope.

(** [eval_jacob], gri30/lib/src/jacob.c:29-155: the statements between the calls of
    [eval_spec_rates] and [eval_jacob_0] (but for the initialisation of [J_nplusone], which
    [lib_jacob_T] does). *)
Definition gri30_jac_head : list stmt := [
  (*29*) Do (Asn v_m 0 ($v_pres / (#8.31446210e+03 * $v_T)));
  (*30*) Do (Asn v_logT 0 ((Log $v_T)));
  (*34*) If ($v_T) (#1000.0)
    [Asn v_dBdT 0 ((#1.3443311200000001e+00 + #(-9.1793517299999996e+02) / $v_T) / $v_T + #3.9902603749999996e-03 + $v_T * (#(-6.4927169999999995e-06) + $v_T * (#5.0393023500000001e-09 + #(-1.4752235220000002e-12) * $v_T)));
     Asn v_dBdT 1 ((#1.5000000000000000e+00 + #2.5473659899999999e+04 / $v_T) / $v_T + #3.5266640949999999e-13 + $v_T * (#(-6.6530654666666665e-16) + $v_T * (#5.7520407999999997e-19 + #(-1.8554646640000001e-22) * $v_T)));
     Asn v_dBdT 2 ((#2.1682671000000000e+00 + #2.9122259200000000e+04 / $v_T) / $v_T + #(-1.6396594200000000e-03) + $v_T * (#2.2143546533333334e-06 + $v_T * (#(-1.5320165600000000e-09) + #4.2253194199999998e-13 * $v_T)));
     Asn v_dBdT 3 ((#2.7824563599999999e+00 + #(-1.0639435599999999e+03) / $v_T) / $v_T + #(-1.4983670799999999e-03) + $v_T * (#3.2824340033333332e-06 + $v_T * (#(-2.4203237725000002e-09) + #6.4874567400000000e-13 * $v_T)));
     Asn v_dBdT 4 ((#2.9920154299999999e+00 + #3.6150805599999999e+03 / $v_T) / $v_T + #(-1.2006587600000001e-03) + $v_T * (#1.5393128033333333e-06 + $v_T * (#(-9.7028333249999999e-10) + #2.7282293999999999e-13 * $v_T)));
     Asn v_dBdT 5 ((#3.1986405600000003e+00 + #(-3.0293726699999999e+04) / $v_T) / $v_T + #(-1.0182170500000001e-03) + $v_T * (#2.1734673700000000e-06 + $v_T * (#(-1.3719926550000001e-09) + #3.5439563400000000e-13 * $v_T)));
     Asn v_dBdT 6 ((#3.3017980099999997e+00 + #2.9480804000000001e+02 / $v_T) / $v_T + #(-2.3745602549999998e-03) + $v_T * (#7.0527630333333326e-06 + $v_T * (#(-6.0690973500000000e-09) + #1.8584502480000002e-12 * $v_T)));
     Asn v_dBdT 7 ((#3.2761126899999997e+00 + #(-1.7702582100000000e+04) / $v_T) / $v_T + #(-2.7141120849999997e-04) + $v_T * (#5.5778567000000005e-06 + $v_T * (#(-5.3942703249999999e-09) + #1.7249087260000000e-12 * $v_T)));
     Asn v_dBdT 8 ((#1.5542395500000001e+00 + #8.5443883199999997e+04 / $v_T) / $v_T + #(-1.6076886199999999e-04) + $v_T * (#2.4459741500000000e-07 + $v_T * (#(-1.8305872225000000e-10) + #5.3304289200000002e-14 * $v_T)));
     Asn v_dBdT 9 ((#2.4898166499999999e+00 + #7.0797293399999995e+04 / $v_T) / $v_T + #1.6191777050000001e-04 + $v_T * (#(-5.6299688333333337e-07) + $v_T * (#7.9054331749999998e-10 + #(-2.8121813400000003e-13) * $v_T)));
     Asn v_dBdT 10 ((#2.7626786700000001e+00 + #4.6004040099999998e+04 / $v_T) / $v_T + #4.8443607150000002e-04 + $v_T * (#9.3163280333333339e-07 + $v_T * (#(-9.6272788250000007e-10) + #3.3748343799999999e-13 * $v_T)));
     Asn v_dBdT 11 ((#3.1986041099999998e+00 + #5.0496816299999999e+04 / $v_T) / $v_T + #(-1.1833070950000000e-03) + $v_T * (#2.7443207333333332e-06 + $v_T * (#(-1.6720399525000001e-09) + #3.8862947400000001e-13 * $v_T)));
     Asn v_dBdT 12 ((#2.6735904000000001e+00 + #1.6444998800000001e+04 / $v_T) / $v_T + #1.0054758750000000e-03 + $v_T * (#1.9100728533333335e-06 + $v_T * (#(-1.7177935625000000e-09) + #5.0877146800000003e-13 * $v_T)));
     Asn v_dBdT 13 ((#4.1498761300000000e+00 + #(-1.0246647600000000e+04) / $v_T) / $v_T + #(-6.8354894000000003e-03) + $v_T * (#1.6393353300000001e-05 + $v_T * (#(-1.2118575650000000e-08) + #3.3338791200000000e-12 * $v_T)));
     Asn v_dBdT 14 ((#2.5795334699999999e+00 + #(-1.4344085999999999e+04) / $v_T) / $v_T + #(-3.0517684000000000e-04) + $v_T * (#3.3893811000000002e-07 + $v_T * (#2.2675147100000000e-10 + #(-1.8088489979999999e-13) * $v_T)));
     Asn v_dBdT 15 ((#1.3567735200000000e+00 + #(-4.8371969700000001e+04) / $v_T) / $v_T + #4.4922983850000002e-03 + $v_T * (#(-2.3745208966666665e-06) + $v_T * (#6.1479755499999995e-10 + #(-2.8739909599999997e-14) * $v_T)));
     Asn v_dBdT 16 ((#3.2211858400000004e+00 + #3.8395649600000002e+03 / $v_T) / $v_T + #(-1.6219626600000000e-03) + $v_T * (#4.5933148666666667e-06 + $v_T * (#(-3.3286023250000002e-09) + #8.6753773000000000e-13 * $v_T)));
     Asn v_dBdT 17 ((#3.7937231499999999e+00 + #(-1.4308956700000001e+04) / $v_T) / $v_T + #(-4.9541668450000000e-03) + $v_T * (#1.2440666933333332e-05 + $v_T * (#(-9.4821315249999995e-09) + #2.6354530400000001e-12 * $v_T)));
     Asn v_dBdT 18 ((#2.8638891800000001e+00 + #(-3.1939136699999999e+03) / $v_T) / $v_T + #2.7983615200000002e-03 + $v_T * (#1.9775726366666668e-06 + $v_T * (#(-2.6133003000000002e-09) + #8.7393455600000001e-13 * $v_T)));
     Asn v_dBdT 19 ((#1.1062040000000000e+00 + #9.7860109999999997e+02 / $v_T) / $v_T + #3.6082975000000001e-03 + $v_T * (#1.7794906666666667e-06 + $v_T * (#(-1.8444089999999999e-09) + #4.1512200000000000e-13 * $v_T)));
     Asn v_dBdT 20 ((#4.7153958200000003e+00 + #(-2.5642765599999999e+04) / $v_T) / $v_T + #(-7.6154564500000004e-03) + $v_T * (#2.1748038500000001e-05 + $v_T * (#(-1.7770172225000000e-08) + #5.2270539599999996e-12 * $v_T)));
     Asn v_dBdT 21 ((#1.8896573299999999e+00 + #6.6839393200000006e+04 / $v_T) / $v_T + #6.7049805499999997e-03 + $v_T * (#(-9.4923167000000006e-06) + $v_T * (#7.3697761250000002e-09 + #(-2.1866302199999998e-12) * $v_T)));
     Asn v_dBdT 22 ((#(-1.9131890600000001e-01) + #2.6428980700000000e+04 / $v_T) / $v_T + #1.1680781450000000e-02 + $v_T * (#(-1.1839060500000000e-05) + $v_T * (#7.0038109249999999e-09 + #(-1.7001459479999999e-12) * $v_T)));
     Asn v_dBdT 23 ((#2.2124664500000000e+00 + #3.4859846799999999e+04 / $v_T) / $v_T + #7.5739581000000002e-04 + $v_T * (#8.6403137333333327e-06 + $v_T * (#(-8.9414461750000000e-09) + #2.9430174599999999e-12 * $v_T)));
     Asn v_dBdT 24 ((#2.9592014799999999e+00 + #5.0897759299999998e+03 / $v_T) / $v_T + #(-3.7852612350000002e-03) + $v_T * (#1.9033009733333333e-05 + $v_T * (#(-1.7289718825000000e-08) + #5.3976874600000004e-12 * $v_T)));
     Asn v_dBdT 25 ((#3.3064656799999996e+00 + #1.2841626500000000e+04 / $v_T) / $v_T + #(-2.0932944600000002e-03) + $v_T * (#1.6571426900000001e-05 + $v_T * (#(-1.4978165149999999e-08) + #4.6101800800000003e-12 * $v_T)));
     Asn v_dBdT 26 ((#3.2914249199999999e+00 + #(-1.1522205500000000e+04) / $v_T) / $v_T + #(-2.7507713499999998e-03) + $v_T * (#1.9981276266666669e-05 + $v_T * (#(-1.7711657125000000e-08) + #5.3737154200000002e-12 * $v_T)));
     Asn v_dBdT 27 ((#1.2517214000000001e+00 + #2.0059449000000001e+04 / $v_T) / $v_T + #8.8275105000000000e-03 + $v_T * (#(-7.9097003333333330e-06) + $v_T * (#4.3189397500000003e-09 + #(-1.0132962200000001e-12) * $v_T)));
     Asn v_dBdT 28 ((#1.1358362999999998e+00 + #(-7.0429180399999996e+03) / $v_T) / $v_T + #9.0594360499999995e-03 + $v_T * (#(-5.7982491333333329e-06) + $v_T * (#2.3359939200000000e-09 + #(-4.0291522999999998e-13) * $v_T)));
     Asn v_dBdT 29 ((#2.4237329999999990e-01 + #8.0316143000000002e+03 / $v_T) / $v_T + #1.5536100500000000e-02 + $v_T * (#(-1.6955621333333335e-05) + $v_T * (#1.0784282750000001e-08 + #(-2.8029188000000001e-12) * $v_T)));
     Asn v_dBdT 30 ((#1.5000000000000000e+00 + #5.6104637000000002e+04 / $v_T) / $v_T + #0.0000000000000000e+00 + $v_T * (#0.0000000000000000e+00 + $v_T * (#0.0000000000000000e+00 + #0.0000000000000000e+00 * $v_T)));
     Asn v_dBdT 31 ((#2.4929085000000000e+00 + #4.1880629000000001e+04 / $v_T) / $v_T + #1.5589599000000000e-04 + $v_T * (#(-4.9634946666666669e-07) + $v_T * (#6.2041104999999995e-10 + #(-2.0713934000000001e-13) * $v_T)));
     Asn v_dBdT 32 ((#3.2040028999999999e+00 + #2.1885910000000000e+04 / $v_T) / $v_T + #(-1.0530692500000001e-03) + $v_T * (#2.3689449333333334e-06 + $v_T * (#(-1.4028799250000000e-09) + #3.2881433999999999e-13 * $v_T)));
     Asn v_dBdT 33 ((#3.2860274000000000e+00 + #(-6.7417285000000002e+03) / $v_T) / $v_T + #(-2.3302614999999999e-03) + $v_T * (#7.2395043333333340e-06 + $v_T * (#(-5.7022217499999999e-09) + #1.6527609200000000e-12 * $v_T)));
     Asn v_dBdT 34 ((#3.3446927000000004e+00 + #2.8791973000000002e+04 / $v_T) / $v_T + #(-2.4248536000000000e-03) + $v_T * (#6.6864863333333334e-06 + $v_T * (#(-5.4316160000000003e-09) + #1.5893907800000000e-12 * $v_T)));
     Asn v_dBdT 35 ((#3.2184762999999998e+00 + #9.8446229999999996e+03 / $v_T) / $v_T + #(-2.3194880000000002e-03) + $v_T * (#3.6803406666666667e-06 + $v_T * (#(-2.3340338500000000e-09) + #5.6071540000000003e-13 * $v_T)));
     Asn v_dBdT 36 ((#2.9440312000000000e+00 + #2.8966179000000002e+03 / $v_T) / $v_T + #(-7.9271449999999998e-04) + $v_T * (#5.5526040000000001e-06 + $v_T * (#(-5.1188565000000000e-09) + #1.5670112800000000e-12 * $v_T)));
     Asn v_dBdT 37 ((#1.2571501999999999e+00 + #8.7417744000000002e+03 / $v_T) / $v_T + #5.6523640000000000e-03 + $v_T * (#(-4.5571063333333328e-06) + $v_T * (#2.4204951500000002e-09 + #(-5.8614363999999997e-13) * $v_T)));
     Asn v_dBdT 38 ((#3.5334915999999996e+00 + #1.1548297000000000e+04 / $v_T) / $v_T + #(-2.8348085499999998e-03) + $v_T * (#6.1577356666666665e-06 + $v_T * (#(-4.2842735000000000e-09) + #1.1090914600000000e-12 * $v_T)));
     Asn v_dBdT 39 ((#2.6129351000000001e+00 + #5.1708339999999997e+04 / $v_T) / $v_T + #(-4.7775663499999998e-04) + $v_T * (#7.1476589999999999e-07 + $v_T * (#(-7.8790807499999998e-11) + #(-9.2860711999999993e-14) * $v_T)));
     Asn v_dBdT 40 ((#1.2589885999999999e+00 + #1.4712633000000000e+04 / $v_T) / $v_T + #5.0255849999999999e-03 + $v_T * (#(-4.4505876666666668e-06) + $v_T * (#2.5230872500000002e-09 + #(-6.0178055999999999e-13) * $v_T)));
     Asn v_dBdT 41 ((#1.8516610000000000e+00 + #2.8637820000000000e+04 / $v_T) / $v_T + #2.8476165499999998e-03 + $v_T * (#3.5704666666666666e-07 + $v_T * (#(-4.0565300000000002e-10) + #(-4.7022162000000000e-14) * $v_T)));
     Asn v_dBdT 42 ((#1.5243194000000000e+00 + #5.4261983999999997e+04 / $v_T) / $v_T + #7.9803094999999994e-03 + $v_T * (#(-6.2721179999999997e-06) + $v_T * (#3.0313849999999999e-09 + #(-6.4714756000000001e-13) * $v_T)));
     Asn v_dBdT 46 ((#1.8269308000000000e+00 + #1.4682477000000001e+04 / $v_T) / $v_T + #4.4025844000000003e-03 + $v_T * (#(-2.7955378000000001e-06) + $v_T * (#1.2004240999999999e-09 + #(-2.6627190000000002e-13) * $v_T)));
     Asn v_dBdT 47 ((#1.5000000000000000e+00 + #(-7.4537500000000000e+02) / $v_T) / $v_T + #0.0000000000000000e+00 + $v_T * (#0.0000000000000000e+00 + $v_T * (#0.0000000000000000e+00 + #0.0000000000000000e+00 * $v_T)));
     Asn v_dBdT 48 ((#5.1551799999999925e-02 + #1.0631862999999999e+04 / $v_T) / $v_T + #1.2995990000000001e-02 + $v_T * (#7.9335133333333326e-07 + $v_T * (#(-4.9023922500000000e-09) + #1.8746494000000000e-12 * $v_T)));
     Asn v_dBdT 49 ((#(-6.6446189999999961e-02) + #(-1.3958520000000000e+04) / $v_T) / $v_T + #1.3212289500000000e-02 + $v_T * (#2.0353242333333332e-06 + $v_T * (#(-5.4943747499999998e-09) + #1.9029850599999998e-12 * $v_T)));
     Asn v_dBdT 50 ((#2.4090620000000000e+00 + #1.5214766000000000e+03 / $v_T) / $v_T + #5.3692870000000004e-03 + $v_T * (#6.3049733333333330e-07 + $v_T * (#(-1.7896457500000000e-09) + #5.7347699999999998e-13 * $v_T)));
     Asn v_dBdT 51 ((#3.7294594999999999e+00 + #(-2.1572878000000001e+04) / $v_T) / $v_T + #(-1.5966429000000000e-03) + $v_T * (#1.5844973666666667e-05 + $v_T * (#(-1.4364652749999999e-08) + #4.3862224000000000e-12 * $v_T)));
     Asn v_dBdT 52 ((#2.2986770000000001e+00 + #(-1.0208999000000000e+03) / $v_T) / $v_T + #7.0412019999999999e-04 + $v_T * (#(-1.3210739999999999e-06) + $v_T * (#1.4103787500000001e-09 + #(-4.8897079999999994e-13) * $v_T)))]
    [Asn v_dBdT 0 ((#2.3372791999999998e+00 + #(-9.5015892199999996e+02) / $v_T) / $v_T + #(-2.4701236549999999e-05) + $v_T * (#1.6648559266666665e-07 + $v_T * (#(-4.4891598500000001e-11) + #4.0051075199999998e-15 * $v_T)));
     Asn v_dBdT 1 ((#1.5000000099999999e+00 + #2.5473659899999999e+04 / $v_T) / $v_T + #(-1.1542148649999999e-11) + $v_T * (#5.3853982666666673e-15 + $v_T * (#(-1.1837880875000001e-18) + #9.9639471400000006e-23 * $v_T)));
     Asn v_dBdT 2 ((#1.5694207800000002e+00 + #2.9217579099999999e+04 / $v_T) / $v_T + #(-4.2987056850000002e-05) + $v_T * (#1.3982819633333334e-08 + $v_T * (#(-2.5044449749999998e-12) + #2.4566738199999997e-16 * $v_T)));
     Asn v_dBdT 3 ((#2.2825378399999998e+00 + #(-1.0884577200000001e+03) / $v_T) / $v_T + #7.4154376999999996e-04 + $v_T * (#(-2.5265555633333331e-07) + $v_T * (#5.2367638749999998e-11 + #(-4.3343558799999996e-15) * $v_T)));
     Asn v_dBdT 4 ((#2.0928876700000001e+00 + #3.8586570000000002e+03 / $v_T) / $v_T + #2.7421485799999999e-04 + $v_T * (#4.2168409333333331e-08 + $v_T * (#(-2.1986538899999999e-11) + #2.3482475199999999e-15 * $v_T)));
     Asn v_dBdT 5 ((#2.0339924900000002e+00 + #(-3.0004297100000000e+04) / $v_T) / $v_T + #1.0884590200000001e-03 + $v_T * (#(-5.4690839333333327e-08) + $v_T * (#(-2.4260496750000000e-11) + #3.3640198399999998e-15 * $v_T)));
     Asn v_dBdT 6 ((#3.0172109000000003e+00 + #1.1185671300000000e+02 / $v_T) / $v_T + #1.1199100650000000e-03 + $v_T * (#(-2.1121938333333332e-07) + $v_T * (#2.8561592500000001e-11 + #(-2.1581707000000000e-15) * $v_T)));
     Asn v_dBdT 7 ((#3.1650028499999996e+00 + #(-1.7861787700000001e+04) / $v_T) / $v_T + #2.4541584700000000e-03 + $v_T * (#(-6.3379741666666662e-07) + $v_T * (#9.2796496499999996e-11 + #(-5.7581661000000002e-15) * $v_T)));
     Asn v_dBdT 8 ((#1.4926688800000001e+00 + #8.5451295299999998e+04 / $v_T) / $v_T + #2.3994464200000000e-05 + $v_T * (#(-2.4144500666666670e-08) + $v_T * (#9.3572757250000007e-12 + #(-9.7455578599999989e-16) * $v_T)));
     Asn v_dBdT 9 ((#1.8784647300000001e+00 + #7.1012436400000006e+04 / $v_T) / $v_T + #4.8545684050000000e-04 + $v_T * (#4.8148551666666660e-08 + $v_T * (#(-3.2671962250000002e-11) + #3.5215876599999997e-15 * $v_T)));
     Asn v_dBdT 10 ((#1.8741011300000001e+00 + #4.6263603999999999e+04 / $v_T) / $v_T + #1.8281964599999999e-03 + $v_T * (#(-4.6964865666666667e-07) + $v_T * (#6.5044887249999998e-11 + #(-3.7545513400000000e-15) * $v_T)));
     Asn v_dBdT 11 ((#1.2920384199999999e+00 + #5.0925999700000000e+04 / $v_T) / $v_T + #2.3279431850000000e-03 + $v_T * (#(-6.7063982333333332e-07) + $v_T * (#1.0447650000000001e-10 + #(-6.7943272999999998e-15) * $v_T)));
     Asn v_dBdT 12 ((#1.2857177200000001e+00 + #1.6775584299999999e+04 / $v_T) / $v_T + #3.6199501849999999e-03 + $v_T * (#(-9.9571449333333331e-07) + $v_T * (#1.4892116100000001e-10 + #(-9.3430878800000005e-15) * $v_T)));
     Asn v_dBdT 13 ((#(-9.2514850500000001e-01) + #(-9.4683445900000006e+03) / $v_T) / $v_T + #6.6954733499999999e-03 + $v_T * (#(-1.9109526966666665e-06) + $v_T * (#3.0573133750000000e-10 + #(-2.0363046000000002e-14) * $v_T)));
     Asn v_dBdT 14 ((#1.7151856099999998e+00 + #(-1.4151872400000000e+04) / $v_T) / $v_T + #1.0312637150000001e-03 + $v_T * (#(-3.3294192366666671e-07) + $v_T * (#5.7513252000000000e-11 + #(-4.0729543200000001e-15) * $v_T)));
     Asn v_dBdT 15 ((#2.8574602900000001e+00 + #(-4.8759165999999997e+04) / $v_T) / $v_T + #2.2071851299999999e-03 + $v_T * (#(-7.3827134666666672e-07) + $v_T * (#1.3087254700000001e-10 + #(-9.4416832800000002e-15) * $v_T)));
     Asn v_dBdT 16 ((#1.7721743800000000e+00 + #4.0119181500000000e+03 / $v_T) / $v_T + #2.4784776299999998e-03 + $v_T * (#(-8.2815204333333337e-07) + $v_T * (#1.4729044450000001e-10 + #(-1.0670174220000000e-14) * $v_T)));
     Asn v_dBdT 17 ((#7.6069008000000005e-01 + #(-1.3995832300000000e+04) / $v_T) / $v_T + #4.6000004100000000e-03 + $v_T * (#(-1.4741960433333332e-06) + $v_T * (#2.5160302999999999e-10 + #(-1.7677112800000002e-14) * $v_T)));
     Asn v_dBdT 18 ((#2.6926656900000001e+00 + #(-3.2425062699999999e+03) / $v_T) / $v_T + #4.3228839850000004e-03 + $v_T * (#(-1.2503370666666667e-06) + $v_T * (#1.9680865900000000e-10 + #(-1.2971084020000001e-14) * $v_T)));
     Asn v_dBdT 19 ((#2.7707989999999998e+00 + #1.2783252000000000e+02 / $v_T) / $v_T + #3.9357484999999999e-03 + $v_T * (#(-8.8546133333333336e-07) + $v_T * (#9.8610774999999998e-11 + #(-4.2252319999999999e-15) * $v_T)));
     Asn v_dBdT 20 ((#7.8970790999999996e-01 + #(-2.5374874700000000e+04) / $v_T) / $v_T + #7.0469145999999998e-03 + $v_T * (#(-2.1216694499999999e-06) + $v_T * (#3.4542771250000001e-10 + #(-2.3412043999999999e-14) * $v_T)));
     Asn v_dBdT 21 ((#2.1678065200000001e+00 + #6.7121065000000002e+04 / $v_T) / $v_T + #2.3761095100000001e-03 + $v_T * (#(-6.1262358999999999e-07) + $v_T * (#7.6047562999999994e-11 + #(-3.5446553999999999e-15) * $v_T)));
     Asn v_dBdT 22 ((#3.1475696400000004e+00 + #2.5935999199999998e+04 / $v_T) / $v_T + #2.9808333200000000e-03 + $v_T * (#(-7.9098284000000004e-07) + $v_T * (#1.1685304275000001e-10 + #(-7.2247042600000001e-15) * $v_T)));
     Asn v_dBdT 23 ((#2.0167240000000000e+00 + #3.4612873899999999e+04 / $v_T) / $v_T + #5.1651146000000004e-03 + $v_T * (#(-1.5602744966666665e-06) + $v_T * (#2.5440821999999998e-10 + #(-1.7252140819999999e-14) * $v_T)));
     Asn v_dBdT 24 ((#1.0361111599999999e+00 + #4.9398861399999996e+03 / $v_T) / $v_T + #7.3227075499999999e-03 + $v_T * (#(-2.2369263833333335e-06) + $v_T * (#3.6805730750000002e-10 + #(-2.5141212200000000e-14) * $v_T)));
     Asn v_dBdT 25 ((#9.5465642000000006e-01 + #1.2857520000000000e+04 / $v_T) / $v_T + #8.6986361000000005e-03 + $v_T * (#(-2.6606888933333333e-06) + $v_T * (#4.3804422250000001e-10 + #(-2.9928315199999999e-14) * $v_T)));
     Asn v_dBdT 26 ((#7.1881499999999932e-02 + #(-1.1426393200000000e+04) / $v_T) / $v_T + #1.0842633850000000e-02 + $v_T * (#(-3.3418689000000000e-06) + $v_T * (#5.5353000250000001e-10 + #(-3.8000577999999999e-14) * $v_T)));
     Asn v_dBdT 27 ((#4.6282057999999999e+00 + #1.9327215000000000e+04 / $v_T) / $v_T + #2.0426700500000001e-03 + $v_T * (#(-5.3115156666666666e-07) + $v_T * (#7.1565129999999998e-11 + #(-3.8815663999999995e-15) * $v_T)));
     Asn v_dBdT 28 ((#3.5112973199999997e+00 + #(-7.5510531099999998e+03) / $v_T) / $v_T + #4.5017987249999997e-03 + $v_T * (#(-1.3897987833333332e-06) + $v_T * (#2.3083647049999999e-10 + #(-1.5896764019999999e-14) * $v_T)));
     Asn v_dBdT 29 ((#4.9238290999999998e+00 + #7.2646260000000002e+03 / $v_T) / $v_T + #3.3961799999999999e-03 + $v_T * (#(-8.5528546666666670e-07) + $v_T * (#1.1246960250000000e-10 + #(-5.9880201999999998e-15) * $v_T)));
     Asn v_dBdT 30 ((#1.4159429000000001e+00 + #5.6133773000000001e+04 / $v_T) / $v_T + #8.7445325000000003e-05 + $v_T * (#(-3.9674563333333332e-08) + $v_T * (#7.5565612499999998e-12 + #(-4.0721964000000000e-16) * $v_T)));
     Asn v_dBdT 31 ((#1.7836927999999999e+00 + #4.2120847999999998e+04 / $v_T) / $v_T + #6.6492150000000002e-04 + $v_T * (#(-1.4159348999999999e-07) + $v_T * (#1.9587125250000000e-11 + #(-1.1008894000000001e-15) * $v_T)));
     Asn v_dBdT 32 ((#1.8347421000000002e+00 + #2.2171956999999999e+04 / $v_T) / $v_T + #1.6036541000000000e-03 + $v_T * (#(-3.1130268000000002e-07) + $v_T * (#3.4257382499999998e-11 + #(-1.5841228800000001e-15) * $v_T)));
     Asn v_dBdT 33 ((#1.6344520999999999e+00 + #(-6.5446958000000004e+03) / $v_T) / $v_T + #2.8331279999999999e-03 + $v_T * (#(-5.7595586666666667e-07) + $v_T * (#5.9667902500000000e-11 + #(-2.5157571999999998e-15) * $v_T)));
     Asn v_dBdT 34 ((#2.7667543999999999e+00 + #2.8650697000000000e+04 / $v_T) / $v_T + #1.4457541000000001e-03 + $v_T * (#(-3.4722066666666664e-07) + $v_T * (#4.2106484999999997e-11 + #(-2.0183792000000000e-15) * $v_T)));
     Asn v_dBdT 35 ((#2.2606055999999999e+00 + #9.9209745999999996e+03 / $v_T) / $v_T + #5.9555215000000000e-04 + $v_T * (#(-1.4305682666666666e-07) + $v_T * (#1.7364417250000001e-11 + #(-8.0672197999999996e-16) * $v_T)));
     Asn v_dBdT 36 ((#3.8847541999999997e+00 + #2.3164983000000002e+03 / $v_T) / $v_T + #1.0861978000000000e-03 + $v_T * (#(-2.7602302000000000e-07) + $v_T * (#3.9368774999999999e-11 + #(-2.1021790000000000e-15) * $v_T)));
     Asn v_dBdT 37 ((#3.8230728999999997e+00 + #8.0734048000000003e+03 / $v_T) / $v_T + #1.3135125499999999e-03 + $v_T * (#(-3.1950291333333330e-07) + $v_T * (#4.0001779999999998e-11 + #(-1.9550460600000000e-15) * $v_T)));
     Asn v_dBdT 38 ((#1.9792508999999998e+00 + #1.1750582000000000e+04 / $v_T) / $v_T + #1.7472029500000001e-03 + $v_T * (#(-2.6183259333333334e-07) + $v_T * (#1.4369898500000001e-11 + #(-3.8671832000000001e-17) * $v_T)));
     Asn v_dBdT 39 ((#2.7459804999999999e+00 + #5.1536188000000002e+04 / $v_T) / $v_T + #2.1725387500000000e-05 + $v_T * (#9.9019946666666663e-08 + $v_T * (#(-1.7162951500000000e-11) + #8.8268346000000005e-16 * $v_T)));
     Asn v_dBdT 40 ((#2.8022391999999998e+00 + #1.4407291999999999e+04 / $v_T) / $v_T + #1.5732114000000001e-03 + $v_T * (#(-3.5440616666666668e-07) + $v_T * (#4.1549392500000003e-11 + #(-1.9599514000000000e-15) * $v_T)));
     Asn v_dBdT 41 ((#4.2097030000000002e+00 + #2.7677109000000000e+04 / $v_T) / $v_T + #1.4846455499999999e-03 + $v_T * (#(-9.5186303333333329e-08) + $v_T * (#(-4.0888750000000003e-11) + #6.0865177999999998e-15 * $v_T)));
     Asn v_dBdT 42 ((#4.8946361999999999e+00 + #5.3452940999999999e+04 / $v_T) / $v_T + #1.9947979500000001e-03 + $v_T * (#(-5.3274600000000000e-07) + $v_T * (#7.3123487500000002e-11 + #(-4.0189372000000003e-15) * $v_T)));
     Asn v_dBdT 46 ((#4.1521844999999997e+00 + #1.4004123000000000e+04 / $v_T) / $v_T + #1.1525880500000000e-03 + $v_T * (#(-2.9344384333333333e-07) + $v_T * (#3.6972744999999997e-11 + #(-1.8195599199999999e-15) * $v_T)));
     Asn v_dBdT 47 ((#1.5000000000000000e+00 + #(-7.4537500000000000e+02) / $v_T) / $v_T + #0.0000000000000000e+00 + $v_T * (#0.0000000000000000e+00 + $v_T * (#0.0000000000000000e+00 + #0.0000000000000000e+00 * $v_T)));
     Asn v_dBdT 48 ((#6.7026987000000000e+00 + #8.2984336000000003e+03 / $v_T) / $v_T + #8.0221015000000000e-03 + $v_T * (#(-1.7611073333333333e-06) + $v_T * (#1.9074647500000000e-10 + #(-7.8784568000000004e-15) * $v_T)));
     Asn v_dBdT 49 ((#6.5341367999999997e+00 + #(-1.6467516000000000e+04) / $v_T) / $v_T + #9.4361194999999995e-03 + $v_T * (#(-2.0906163666666664e-06) + $v_T * (#2.2868912250000001e-10 + #(-9.5676138000000010e-15) * $v_T)));
     Asn v_dBdT 50 ((#4.9756700000000000e+00 + #4.9032180000000000e+02 / $v_T) / $v_T + #4.0652954999999998e-03 + $v_T * (#(-9.1454133333333341e-07) + $v_T * (#1.0175760000000000e-10 + #(-4.3520339999999999e-15) * $v_T)));
     Asn v_dBdT 51 ((#4.4041107999999998e+00 + #(-2.2593121999999999e+04) / $v_T) / $v_T + #5.8615294999999996e-03 + $v_T * (#(-1.4087712333333332e-06) + $v_T * (#1.7093112750000001e-10 + #(-8.1969725999999999e-15) * $v_T)));
     Asn v_dBdT 52 ((#1.9266399999999999e+00 + #(-9.2279769999999996e+02) / $v_T) / $v_T + #7.4398840000000003e-04 + $v_T * (#(-1.8949200000000001e-07) + $v_T * (#2.5242595000000000e-11 + #(-1.3506701999999999e-15) * $v_T)))];
  (*138*) If ($v_T) (#1368.0)
    [Asn v_dBdT 44 ((#2.7860495200000002e+00 + #(-2.8269839999999999e+03) / $v_T) / $v_T + #3.4433396099999999e-03 + $v_T * (#(-1.0716262133333332e-06) + $v_T * (#1.2929894174999999e-10 + #2.3872157600000001e-15 * $v_T)))]
    [Asn v_dBdT 44 ((#4.8978488499999999e+00 + #(-3.7065333099999998e+03) / $v_T) / $v_T + #1.5839469650000000e-03 + $v_T * (#(-3.7267021333333335e-07) + $v_T * (#4.4310786000000001e-11 + #(-2.0867835399999997e-15) * $v_T)))];
  (*144*) If ($v_T) (#1382.0)
    [Asn v_dBdT 43 ((#1.6472798900000001e+00 + #1.9299025200000000e+04 / $v_T) / $v_T + #6.3752671000000000e-03 + $v_T * (#(-3.4931411999999996e-06) + $v_T * (#1.1035820900000000e-09 + #(-1.5150429320000001e-13) * $v_T)))]
    [Asn v_dBdT 43 ((#5.5986045600000001e+00 + #1.7966133900000001e+04 / $v_T) / $v_T + #1.5138931300000000e-03 + $v_T * (#(-3.5901448666666666e-07) + $v_T * (#4.2916632000000000e-11 + #(-2.0287878200000000e-15) * $v_T)))];
  (*150*) If ($v_T) (#1478.0)
    [Asn v_dBdT 45 ((#2.6309631699999998e+00 + #(-1.5587363600000001e+04) / $v_T) / $v_T + #3.6514117850000001e-03 + $v_T * (#(-7.6016667666666667e-07) + $v_T * (#(-1.6531782450000001e-10) + #7.2447150399999992e-14 * $v_T)))]
    [Asn v_dBdT 45 ((#5.2239513400000002e+00 + #(-1.6659934399999998e+04) / $v_T) / $v_T + #1.5893200200000001e-03 + $v_T * (#(-3.6459585000000000e-07) + $v_T * (#4.2683790750000001e-11 + #(-1.9900439100000000e-15) * $v_T)))]].

(** [eval_jacob], gri30/lib/src/jacob.c:172-371: the statements after the call of [eval_cp], without
    the calls of the functions that finish the other columns. *)
Definition gri30_jac_tail : list stmt := [
  (*175*) Do (Asn v_cp_avg 0 (v_y.[1] * v_cp.[0] + v_y.[2] * v_cp.[1] + v_y.[3] * v_cp.[2] + v_y.[4] * v_cp.[3] + v_y.[5] * v_cp.[4] + v_y.[6] * v_cp.[5] + v_y.[7] * v_cp.[6] + v_y.[8] * v_cp.[7] + v_y.[9] * v_cp.[8] + v_y.[10] * v_cp.[9] + v_y.[11] * v_cp.[10] + v_y.[12] * v_cp.[11] + v_y.[13] * v_cp.[12] + v_y.[14] * v_cp.[13] + v_y.[15] * v_cp.[14] + v_y.[16] * v_cp.[15] + v_y.[17] * v_cp.[16] + v_y.[18] * v_cp.[17] + v_y.[19] * v_cp.[18] + v_y.[20] * v_cp.[19] + v_y.[21] * v_cp.[20] + v_y.[22] * v_cp.[21] + v_y.[23] * v_cp.[22] + v_y.[24] * v_cp.[23] + v_y.[25] * v_cp.[24] + v_y.[26] * v_cp.[25] + v_y.[27] * v_cp.[26] + v_y.[28] * v_cp.[27] + v_y.[29] * v_cp.[28] + v_y.[30] * v_cp.[29] + v_y.[31] * v_cp.[30] + v_y.[32] * v_cp.[31] + v_y.[33] * v_cp.[32] + v_y.[34] * v_cp.[33] + v_y.[35] * v_cp.[34] + v_y.[36] * v_cp.[35] + v_y.[37] * v_cp.[36] + v_y.[38] * v_cp.[37] + v_y.[39] * v_cp.[38] + v_y.[40] * v_cp.[39] + v_y.[41] * v_cp.[40] + v_y.[42] * v_cp.[41] + v_y.[43] * v_cp.[42] + v_y.[44] * v_cp.[43] + v_y.[45] * v_cp.[44] + v_y.[46] * v_cp.[45] + v_y.[47] * v_cp.[46] + v_y.[48] * v_cp.[47] + v_y.[49] * v_cp.[48] + v_y.[50] * v_cp.[49] + v_y.[51] * v_cp.[50] + v_y.[52] * v_cp.[51] + $v_y_N * v_cp.[52]));
  (*188*) Do (Asn v_jac 0 (#0.0));
  (*189*) Do (Asn v_working_temp 0 (#0));
  (*194*) If ($v_T) (#1000.0)
    [Asn v_working_temp 0 (v_y.[1] * #4.1244826576978785e+03 * (#7.9805207499999992e-03 + $v_T * (#(-3.8956301999999997e-05) + $v_T * (#6.0471628200000004e-08 + #(-2.9504470440000002e-11) * $v_T))) + v_y.[2] * #8.2489653153957570e+03 * (#7.0533281899999999e-13 + $v_T * (#(-3.9918392799999999e-15) + $v_T * (#6.9024489599999992e-18 + #(-3.7109293280000002e-21) * $v_T))) + v_y.[3] * #5.1967336900133762e+02 * (#(-3.2793188399999999e-03) + $v_T * (#1.3286127919999999e-05 + $v_T * (#(-1.8384198720000000e-08) + #8.4506388399999997e-12 * $v_T))) + v_y.[4] * #2.5983668450066881e+02 * (#(-2.9967341599999998e-03) + $v_T * (#1.9694604020000000e-05 + $v_T * (#(-2.9043885270000002e-08) + #1.2974913480000000e-11 * $v_T))) + v_y.[5] * #4.8887492694330808e+02 * (#(-2.4013175200000001e-03) + $v_T * (#9.2358768199999993e-06 + $v_T * (#(-1.1643399990000001e-08) + #5.4564588000000001e-12 * $v_T))) + v_y.[6] * #4.6152277955158070e+02 * (#(-2.0364341000000002e-03) + $v_T * (#1.3040804219999999e-05 + $v_T * (#(-1.6463911860000002e-08) + #7.0879126800000000e-12 * $v_T))) + v_y.[7] * #2.5190194790518544e+02 * (#(-4.7491205099999996e-03) + $v_T * (#4.2316578199999997e-05 + $v_T * (#(-7.2829168200000001e-08) + #3.7169004960000001e-11 * $v_T))) + v_y.[8] * #2.4443746347165404e+02 * (#(-5.4282241699999995e-04) + $v_T * (#3.3467140200000003e-05 + $v_T * (#(-6.4731243900000002e-08) + #3.4498174519999999e-11 * $v_T))) + v_y.[9] * #6.9223729081675140e+02 * (#(-3.2153772399999997e-04) + $v_T * (#1.4675844900000000e-06 + $v_T * (#(-2.1967046670000000e-09) + #1.0660857840000001e-12 * $v_T))) + v_y.[10] * #6.3864355316177830e+02 * (#3.2383554100000003e-04 + $v_T * (#(-3.3779813000000000e-06) + $v_T * (#9.4865198099999998e-09 + #(-5.6243626800000003e-12) * $v_T))) + v_y.[11] * #5.9275206603321635e+02 * (#9.6887214300000004e-04 + $v_T * (#5.5897968200000002e-06 + $v_T * (#(-1.1552734590000001e-08) + #6.7496687600000000e-12 * $v_T))) + v_y.[12] * #5.9275206603321635e+02 * (#(-2.3666141900000001e-03) + $v_T * (#1.6465924400000000e-05 + $v_T * (#(-2.0064479430000002e-08) + #7.7725894800000005e-12 * $v_T))) + v_y.[13] * #5.5301374409537334e+02 * (#2.0109517500000000e-03 + $v_T * (#1.1460437120000000e-05 + $v_T * (#(-2.0613522750000001e-08) + #1.0175429360000000e-11 * $v_T))) + v_y.[14] * #5.1826880786099150e+02 * (#(-1.3670978800000001e-02) + $v_T * (#9.8360119799999999e-05 + $v_T * (#(-1.4542290780000001e-07) + #6.6677582399999996e-11 * $v_T))) + v_y.[15] * #2.9683482206608977e+02 * (#(-6.1035368000000000e-04) + $v_T * (#2.0336286600000001e-06 + $v_T * (#2.7210176520000001e-09 + #(-3.6176979960000000e-12) * $v_T))) + v_y.[16] * #1.8892296942953618e+02 * (#8.9845967700000005e-03 + $v_T * (#(-1.4247125380000000e-05) + $v_T * (#7.3775706599999994e-09 + #(-5.7479819199999996e-13) * $v_T))) + v_y.[17] * #2.8652438768034290e+02 * (#(-3.2439253200000000e-03) + $v_T * (#2.7559889200000000e-05 + $v_T * (#(-3.9943227900000001e-08) + #1.7350754600000000e-11 * $v_T))) + v_y.[18] * #2.7690616686449340e+02 * (#(-9.9083336899999999e-03) + $v_T * (#7.4644001599999998e-05 + $v_T * (#(-1.1378557830000000e-07) + #5.2709060799999999e-11 * $v_T))) + v_y.[19] * #2.6791271377208773e+02 * (#5.5967230400000003e-03 + $v_T * (#1.1865435820000000e-05 + $v_T * (#(-3.1359603600000004e-08) + #1.7478691120000001e-11 * $v_T))) + v_y.[20] * #2.6791271377208773e+02 * (#7.2165950000000001e-03 + $v_T * (#1.0676944000000000e-05 + $v_T * (#(-2.2132908000000001e-08) + #8.3024399999999995e-12 * $v_T))) + v_y.[21] * #2.5948506904653124e+02 * (#(-1.5230912900000001e-02) + $v_T * (#1.3048823100000000e-04 + $v_T * (#(-2.1324206669999999e-07) + #1.0454107920000000e-10 * $v_T))) + v_y.[22] * #3.3218066443627117e+02 * (#1.3409961099999999e-02 + $v_T * (#(-5.6953900200000000e-05) + $v_T * (#8.8437313499999999e-08 + #(-4.3732604399999998e-11) * $v_T))) + v_y.[23] * #3.1932177658088915e+02 * (#2.3361562900000001e-02 + $v_T * (#(-7.1034362999999998e-05) + $v_T * (#8.4045731099999996e-08 + #(-3.4002918959999999e-11) * $v_T))) + v_y.[24] * #3.0742133534867867e+02 * (#1.5147916200000000e-03 + $v_T * (#5.1841882400000000e-05 + $v_T * (#(-1.0729735409999999e-07) + #5.8860349199999999e-11 * $v_T))) + v_y.[25] * #2.9637603301660818e+02 * (#(-7.5705224700000004e-03) + $v_T * (#1.1419805840000000e-04 + $v_T * (#(-2.0747662590000000e-07) + #1.0795374920000001e-10 * $v_T))) + v_y.[26] * #2.8609689384998131e+02 * (#(-4.1865889200000004e-03) + $v_T * (#9.9428561399999998e-05 + $v_T * (#(-1.7973798179999999e-07) + #9.2203601600000000e-11 * $v_T))) + v_y.[27] * #2.7650687204768667e+02 * (#(-5.5015426999999997e-03) + $v_T * (#1.1988765760000001e-04 + $v_T * (#(-2.1253988550000000e-07) + #1.0747430840000000e-10 * $v_T))) + v_y.[28] * #2.0264674255057480e+02 * (#1.7655021000000000e-02 + $v_T * (#(-4.7458201999999998e-05) + $v_T * (#5.1827277000000004e-08 + #(-2.0265924400000001e-11) * $v_T))) + v_y.[29] * #1.9778782309416789e+02 * (#1.8118872099999999e-02 + $v_T * (#(-3.4789494799999999e-05) + $v_T * (#2.8031927040000002e-08 + #(-8.0583045999999995e-12) * $v_T))) + v_y.[30] * #1.9778782309416789e+02 * (#3.1072201000000001e-02 + $v_T * (#(-1.0173372800000000e-04) + $v_T * (#1.2941139300000002e-07 + #(-5.6058375999999998e-11) * $v_T))) + v_y.[31] * #5.9360437189524475e+02 * (#0.0000000000000000e+00 + $v_T * (#0.0000000000000000e+00 + $v_T * (#0.0000000000000000e+00 + #0.0000000000000000e+00 * $v_T))) + v_y.[32] * #5.5375553125341332e+02 * (#3.1179198000000000e-04 + $v_T * (#(-2.9780968000000002e-06) + $v_T * (#7.4449325999999999e-09 + #(-4.1427868000000001e-12) * $v_T))) + v_y.[33] * #5.1892025773562625e+02 * (#(-2.1061385000000002e-03) + $v_T * (#1.4213669600000001e-05 + $v_T * (#(-1.6834559100000002e-08) + #6.5762868000000002e-12 * $v_T))) + v_y.[34] * #4.8820837952480719e+02 * (#(-4.6605229999999997e-03) + $v_T * (#4.3437026000000002e-05 + $v_T * (#(-6.8426660999999996e-08) + #3.3055218399999999e-11 * $v_T))) + v_y.[35] * #2.8649397927461854e+02 * (#(-4.8497072000000000e-03) + $v_T * (#4.0118918000000002e-05 + $v_T * (#(-6.5179391999999997e-08) + #3.1787815600000000e-11 * $v_T))) + v_y.[36] * #2.7709202516551613e+02 * (#(-4.6389760000000004e-03) + $v_T * (#2.2082044000000000e-05 + $v_T * (#(-2.8008406200000002e-08) + #1.1214308000000000e-11 * $v_T))) + v_y.[37] * #1.8072741022059520e+02 * (#(-1.5854290000000000e-03) + $v_T * (#3.3315624000000002e-05 + $v_T * (#(-6.1426278000000000e-08) + #3.1340225600000000e-11 * $v_T))) + v_y.[38] * #1.8890974869174661e+02 * (#1.1304728000000000e-02 + $v_T * (#(-2.7342637999999999e-05) + $v_T * (#2.9045941800000002e-08 + #(-1.1722872800000000e-11) * $v_T))) + v_y.[39] * #2.6808669159297972e+02 * (#(-5.6696170999999997e-03) + $v_T * (#3.6946414000000001e-05 + $v_T * (#(-5.1411282000000000e-08) + #2.2181829200000001e-11 * $v_T))) + v_y.[40] * #3.1956895948687321e+02 * (#(-9.5551326999999996e-04) + $v_T * (#4.2885954000000002e-06 + $v_T * (#(-9.4548968999999987e-10) + #(-1.8572142399999999e-12) * $v_T))) + v_y.[41] * #3.0765043099748090e+02 * (#1.0051170000000000e-02 + $v_T * (#(-2.6703526000000001e-05) + $v_T * (#3.0277046999999999e-08 + #(-1.2035611199999999e-11) * $v_T))) + v_y.[42] * #2.9658895640306179e+02 * (#5.6952330999999997e-03 + $v_T * (#2.1422800000000001e-06 + $v_T * (#(-4.8678360000000000e-09) + #(-9.4044323999999995e-13) * $v_T))) + v_y.[43] * #2.0263153135983694e+02 * (#1.5960618999999999e-02 + $v_T * (#(-3.7632707999999998e-05) + $v_T * (#3.6376620000000000e-08 + #(-1.2942951200000000e-11) * $v_T))) + v_y.[47] * #1.9788262837499175e+02 * (#8.8051688000000006e-03 + $v_T * (#(-1.6773226800000001e-05) + $v_T * (#1.4405089199999999e-08 + #(-5.3254380000000000e-12) * $v_T))) + v_y.[48] * #2.0813212426154001e+02 * (#0.0000000000000000e+00 + $v_T * (#0.0000000000000000e+00 + $v_T * (#0.0000000000000000e+00 + #0.0000000000000000e+00 * $v_T))) + v_y.[49] * #1.9296208183235558e+02 * (#2.5991980000000001e-02 + $v_T * (#4.7601079999999998e-06 + $v_T * (#(-5.8828706999999999e-08) + #3.7492987999999997e-11 * $v_T))) + v_y.[50] * #1.8855143444426002e+02 * (#2.6424579000000000e-02 + $v_T * (#1.2211945400000000e-05 + $v_T * (#(-6.5932497000000001e-08) + #3.8059701199999998e-11 * $v_T))) + v_y.[51] * #1.9315645500243699e+02 * (#1.0738574000000001e-02 + $v_T * (#3.7829840000000000e-06 + $v_T * (#(-2.1475748999999999e-08) + #1.1469540000000000e-11 * $v_T))) + v_y.[52] * #1.8873701909238750e+02 * (#(-3.1932858000000000e-03) + $v_T * (#9.5069842000000004e-05 + $v_T * (#(-1.7237583299999998e-07) + #8.7724448000000004e-11 * $v_T))) + $v_y_N * #2.9680218594762238e+02 * (#1.4082404000000000e-03 + $v_T * (#(-7.9264439999999996e-06) + $v_T * (#1.6924545000000002e-08 + #(-9.7794159999999997e-12) * $v_T))))]
    [Asn v_working_temp 0 (v_y.[1] * #4.1244826576978785e+03 * (#(-4.9402473099999998e-05) + $v_T * (#9.9891355599999992e-07 + $v_T * (#(-5.3869918199999997e-10) + #8.0102150399999999e-14 * $v_T))) + v_y.[2] * #8.2489653153957570e+03 * (#(-2.3084297299999999e-11) + $v_T * (#3.2312389600000002e-14 + $v_T * (#(-1.4205457050000002e-17) + #1.9927894280000001e-21 * $v_T))) + v_y.[3] * #5.1967336900133762e+02 * (#(-8.5974113700000004e-05) + $v_T * (#8.3896917800000004e-08 + $v_T * (#(-3.0053339700000001e-11) + #4.9133476399999997e-15 * $v_T))) + v_y.[4] * #2.5983668450066881e+02 * (#1.4830875399999999e-03 + $v_T * (#(-1.5159333380000000e-06) + $v_T * (#6.2841166499999998e-10 + #(-8.6687117599999996e-14) * $v_T))) + v_y.[5] * #4.8887492694330808e+02 * (#5.4842971599999998e-04 + $v_T * (#2.5301045599999997e-07 + $v_T * (#(-2.6383846680000000e-10) + #4.6964950400000001e-14 * $v_T))) + v_y.[6] * #4.6152277955158070e+02 * (#2.1769180400000002e-03 + $v_T * (#(-3.2814503599999998e-07) + $v_T * (#(-2.9112596100000000e-10) + #6.7280396799999996e-14 * $v_T))) + v_y.[7] * #2.5190194790518544e+02 * (#2.2398201299999999e-03 + $v_T * (#(-1.2673163000000000e-06) + $v_T * (#3.4273911000000001e-10 + #(-4.3163414000000000e-14) * $v_T))) + v_y.[8] * #2.4443746347165404e+02 * (#4.9083169400000000e-03 + $v_T * (#(-3.8027844999999999e-06) + $v_T * (#1.1135579579999999e-09 + #(-1.1516332200000001e-13) * $v_T))) + v_y.[9] * #6.9223729081675140e+02 * (#4.7988928400000000e-05 + $v_T * (#(-1.4486700400000001e-07) + $v_T * (#1.1228730870000001e-10 + #(-1.9491115719999999e-14) * $v_T))) + v_y.[10] * #6.3864355316177830e+02 * (#9.7091368100000000e-04 + $v_T * (#2.8889130999999998e-07 + $v_T * (#(-3.9206354700000005e-10) + #7.0431753199999996e-14 * $v_T))) + v_y.[11] * #5.9275206603321635e+02 * (#3.6563929199999999e-03 + $v_T * (#(-2.8178919400000001e-06) + $v_T * (#7.8053864700000003e-10 + #(-7.5091026800000003e-14) * $v_T))) + v_y.[12] * #5.9275206603321635e+02 * (#4.6558863700000000e-03 + $v_T * (#(-4.0238389399999997e-06) + $v_T * (#1.2537180000000001e-09 + #(-1.3588654599999999e-13) * $v_T))) + v_y.[13] * #5.5301374409537334e+02 * (#7.2399003699999999e-03 + $v_T * (#(-5.9742869599999998e-06) + $v_T * (#1.7870539320000002e-09 + #(-1.8686175760000001e-13) * $v_T))) + v_y.[14] * #5.1826880786099150e+02 * (#1.3390946700000000e-02 + $v_T * (#(-1.1465716180000000e-05) + $v_T * (#3.6687760500000002e-09 + #(-4.0726092000000001e-13) * $v_T))) + v_y.[15] * #2.9683482206608977e+02 * (#2.0625274300000002e-03 + $v_T * (#(-1.9976515420000001e-06) + $v_T * (#6.9015902399999998e-10 + #(-8.1459086400000001e-14) * $v_T))) + v_y.[16] * #1.8892296942953618e+02 * (#4.4143702599999998e-03 + $v_T * (#(-4.4296280800000001e-06) + $v_T * (#1.5704705640000000e-09 + #(-1.8883366560000001e-13) * $v_T))) + v_y.[17] * #2.8652438768034290e+02 * (#4.9569552599999997e-03 + $v_T * (#(-4.9689122600000000e-06) + $v_T * (#1.7674853340000001e-09 + #(-2.1340348440000000e-13) * $v_T))) + v_y.[18] * #2.7690616686449340e+02 * (#9.2000008200000000e-03 + $v_T * (#(-8.8451762599999995e-06) + $v_T * (#3.0192363599999999e-09 + #(-3.5354225600000002e-13) * $v_T))) + v_y.[19] * #2.6791271377208773e+02 * (#8.6457679700000008e-03 + $v_T * (#(-7.5020224000000003e-06) + $v_T * (#2.3617039080000002e-09 + #(-2.5942168040000001e-13) * $v_T))) + v_y.[20] * #2.6791271377208773e+02 * (#7.8714969999999999e-03 + $v_T * (#(-5.3127680000000002e-06) + $v_T * (#1.1833293000000001e-09 + #(-8.4504640000000004e-14) * $v_T))) + v_y.[21] * #2.5948506904653124e+02 * (#1.4093829200000000e-02 + $v_T * (#(-1.2730016700000000e-05) + $v_T * (#4.1451325500000001e-09 + #(-4.6824087999999997e-13) * $v_T))) + v_y.[22] * #3.3218066443627117e+02 * (#4.7522190200000002e-03 + $v_T * (#(-3.6757415400000001e-06) + $v_T * (#9.1257075599999998e-10 + #(-7.0893107999999997e-14) * $v_T))) + v_y.[23] * #3.1932177658088915e+02 * (#5.9616666400000001e-03 + $v_T * (#(-4.7458970400000000e-06) + $v_T * (#1.4022365130000001e-09 + #(-1.4449408520000001e-13) * $v_T))) + v_y.[24] * #3.0742133534867867e+02 * (#1.0330229200000001e-02 + $v_T * (#(-9.3616469799999992e-06) + $v_T * (#3.0528986399999998e-09 + #(-3.4504281640000000e-13) * $v_T))) + v_y.[25] * #2.9637603301660818e+02 * (#1.4645415100000000e-02 + $v_T * (#(-1.3421558300000000e-05) + $v_T * (#4.4166876900000006e-09 + #(-5.0282424399999999e-13) * $v_T))) + v_y.[26] * #2.8609689384998131e+02 * (#1.7397272200000001e-02 + $v_T * (#(-1.5964133359999999e-05) + $v_T * (#5.2565306700000001e-09 + #(-5.9856630400000000e-13) * $v_T))) + v_y.[27] * #2.7650687204768667e+02 * (#2.1685267700000000e-02 + $v_T * (#(-2.0051213400000001e-05) + $v_T * (#6.6423600300000001e-09 + #(-7.6001155999999998e-13) * $v_T))) + v_y.[28] * #2.0264674255057480e+02 * (#4.0853401000000003e-03 + $v_T * (#(-3.1869094000000001e-06) + $v_T * (#8.5878155999999992e-10 + #(-7.7631327999999994e-14) * $v_T))) + v_y.[29] * #1.9778782309416789e+02 * (#9.0035974499999994e-03 + $v_T * (#(-8.3387926999999999e-06) + $v_T * (#2.7700376460000000e-09 + #(-3.1793528039999999e-13) * $v_T))) + v_y.[30] * #1.9778782309416789e+02 * (#6.7923599999999999e-03 + $v_T * (#(-5.1317128000000002e-06) + $v_T * (#1.3496352300000000e-09 + #(-1.1976040399999999e-13) * $v_T))) + v_y.[31] * #5.9360437189524475e+02 * (#1.7489065000000001e-04 + $v_T * (#(-2.3804737999999999e-07) + $v_T * (#9.0678734999999991e-11 + #(-8.1443928000000001e-15) * $v_T))) + v_y.[32] * #5.5375553125341332e+02 * (#1.3298430000000000e-03 + $v_T * (#(-8.4956093999999996e-07) + $v_T * (#2.3504550299999997e-10 + #(-2.2017788000000001e-14) * $v_T))) + v_y.[33] * #5.1892025773562625e+02 * (#3.2073081999999999e-03 + $v_T * (#(-1.8678160800000000e-06) + $v_T * (#4.1108859000000000e-10 + #(-3.1682457600000003e-14) * $v_T))) + v_y.[34] * #4.8820837952480719e+02 * (#5.6662559999999997e-03 + $v_T * (#(-3.4557352000000000e-06) + $v_T * (#7.1601483000000000e-10 + #(-5.0315143999999997e-14) * $v_T))) + v_y.[35] * #2.8649397927461854e+02 * (#2.8915082000000002e-03 + $v_T * (#(-2.0833239999999998e-06) + $v_T * (#5.0527781999999994e-10 + #(-4.0367584000000002e-14) * $v_T))) + v_y.[36] * #2.7709202516551613e+02 * (#1.1911043000000000e-03 + $v_T * (#(-8.5834096000000004e-07) + $v_T * (#2.0837300700000001e-10 + #(-1.6134439599999999e-14) * $v_T))) + v_y.[37] * #1.8072741022059520e+02 * (#2.1723955999999999e-03 + $v_T * (#(-1.6561381199999999e-06) + $v_T * (#4.7242529999999994e-10 + #(-4.2043580000000002e-14) * $v_T))) + v_y.[38] * #1.8890974869174661e+02 * (#2.6270250999999999e-03 + $v_T * (#(-1.9170174799999999e-06) + $v_T * (#4.8002136000000002e-10 + #(-3.9100921199999997e-14) * $v_T))) + v_y.[39] * #2.6808669159297972e+02 * (#3.4944059000000002e-03 + $v_T * (#(-1.5709955600000001e-06) + $v_T * (#1.7243878200000001e-10 + #(-7.7343664000000001e-16) * $v_T))) + v_y.[40] * #3.1956895948687321e+02 * (#4.3450774999999999e-05 + $v_T * (#5.9411967999999998e-07 + $v_T * (#(-2.0595541800000001e-10) + #1.7653669200000001e-14 * $v_T))) + v_y.[41] * #3.0765043099748090e+02 * (#3.1464228000000001e-03 + $v_T * (#(-2.1264370000000001e-06) + $v_T * (#4.9859271000000001e-10 + #(-3.9199027999999998e-14) * $v_T))) + v_y.[42] * #2.9658895640306179e+02 * (#2.9692910999999998e-03 + $v_T * (#(-5.7111781999999997e-07) + $v_T * (#(-4.9066499999999998e-10) + #1.2173035599999999e-13 * $v_T))) + v_y.[43] * #2.0263153135983694e+02 * (#3.9895959000000002e-03 + $v_T * (#(-3.1964760000000000e-06) + $v_T * (#8.7748185000000002e-10 + #(-8.0378744000000006e-14) * $v_T))) + v_y.[47] * #1.9788262837499175e+02 * (#2.3051761000000000e-03 + $v_T * (#(-1.7606630600000000e-06) + $v_T * (#4.4367293999999994e-10 + #(-3.6391198400000002e-14) * $v_T))) + v_y.[48] * #2.0813212426154001e+02 * (#0.0000000000000000e+00 + $v_T * (#0.0000000000000000e+00 + $v_T * (#0.0000000000000000e+00 + #0.0000000000000000e+00 * $v_T))) + v_y.[49] * #1.9296208183235558e+02 * (#1.6044203000000000e-02 + $v_T * (#(-1.0566644000000000e-05) + $v_T * (#2.2889577000000000e-09 + #(-1.5756913600000001e-13) * $v_T))) + v_y.[50] * #1.8855143444426002e+02 * (#1.8872238999999999e-02 + $v_T * (#(-1.2543698199999999e-05) + $v_T * (#2.7442694700000000e-09 + #(-1.9135227600000001e-13) * $v_T))) + v_y.[51] * #1.9315645500243699e+02 * (#8.1305909999999995e-03 + $v_T * (#(-5.4872480000000002e-06) + $v_T * (#1.2210911999999999e-09 + #(-8.7040680000000004e-14) * $v_T))) + v_y.[52] * #1.8873701909238750e+02 * (#1.1723058999999999e-02 + $v_T * (#(-8.4526273999999996e-06) + $v_T * (#2.0511735299999999e-09 + #(-1.6393945200000000e-13) * $v_T))) + $v_y_N * #2.9680218594762238e+02 * (#1.4879768000000001e-03 + $v_T * (#(-1.1369520000000000e-06) + $v_T * (#3.0291114000000000e-10 + #(-2.7013403999999999e-14) * $v_T))))];
  (*298*) If ($v_T) (#1368.0)
    [AddA v_working_temp 0 (v_y.[45] * #1.9324687135968139e+02 * (#6.8866792199999997e-03 + $v_T * (#(-6.4297572799999999e-06) + $v_T * (#1.5515873009999999e-09 + #4.7744315200000000e-14 * $v_T))))]
    [AddA v_working_temp 0 (v_y.[45] * #1.9324687135968139e+02 * (#3.1678939299999999e-03 + $v_T * (#(-2.2360212800000000e-06) + $v_T * (#5.3172943200000002e-10 + #(-4.1735670799999998e-14) * $v_T))))];
  (*304*) If ($v_T) (#1382.0)
    [AddA v_working_temp 0 (v_y.[44] * #1.9324687135968139e+02 * (#1.2750534200000000e-02 + $v_T * (#(-2.0958847199999998e-05) + $v_T * (#1.3242985080000000e-08 + #(-3.0300858640000001e-12) * $v_T))))]
    [AddA v_working_temp 0 (v_y.[44] * #1.9324687135968139e+02 * (#3.0277862600000000e-03 + $v_T * (#(-2.1540869199999998e-06) + $v_T * (#5.1499958399999995e-10 + #(-4.0575756400000003e-14) * $v_T))))];
  (*310*) If ($v_T) (#1478.0)
    [AddA v_working_temp 0 (v_y.[46] * #1.9324687135968139e+02 * (#7.3028235700000003e-03 + $v_T * (#(-4.5610000599999998e-06) + $v_T * (#(-1.9838138939999999e-09) + #1.4489430079999999e-12 * $v_T))))]
    [AddA v_working_temp 0 (v_y.[46] * #1.9324687135968139e+02 * (#3.1786400400000002e-03 + $v_T * (#(-2.1875750999999999e-06) + $v_T * (#5.1220548900000006e-10 + #(-3.9800878199999998e-14) * $v_T))))];
  (*318*) Do (Asn v_jac 0 ((- (v_spec_rates.[0] * #2.01588000e+00 * ((- $v_working_temp) * v_h.[0] / $v_cp_avg + v_cp.[0]) + v_jac.[1] * v_h.[0] * $v_rho + v_spec_rates.[1] * #1.00794000e+00 * ((- $v_working_temp) * v_h.[1] / $v_cp_avg + v_cp.[1]) + v_jac.[2] * v_h.[1] * $v_rho + v_spec_rates.[2] * #1.59994000e+01 * ((- $v_working_temp) * v_h.[2] / $v_cp_avg + v_cp.[2]) + v_jac.[3] * v_h.[2] * $v_rho + v_spec_rates.[3] * #3.19988000e+01 * ((- $v_working_temp) * v_h.[3] / $v_cp_avg + v_cp.[3]) + v_jac.[4] * v_h.[3] * $v_rho + v_spec_rates.[4] * #1.70073400e+01 * ((- $v_working_temp) * v_h.[4] / $v_cp_avg + v_cp.[4]) + v_jac.[5] * v_h.[4] * $v_rho + v_spec_rates.[5] * #1.80152800e+01 * ((- $v_working_temp) * v_h.[5] / $v_cp_avg + v_cp.[5]) + v_jac.[6] * v_h.[5] * $v_rho + v_spec_rates.[6] * #3.30067400e+01 * ((- $v_working_temp) * v_h.[6] / $v_cp_avg + v_cp.[6]) + v_jac.[7] * v_h.[6] * $v_rho + v_spec_rates.[7] * #3.40146800e+01 * ((- $v_working_temp) * v_h.[7] / $v_cp_avg + v_cp.[7]) + v_jac.[8] * v_h.[7] * $v_rho + v_spec_rates.[8] * #1.20110000e+01 * ((- $v_working_temp) * v_h.[8] / $v_cp_avg + v_cp.[8]) + v_jac.[9] * v_h.[8] * $v_rho + v_spec_rates.[9] * #1.30189400e+01 * ((- $v_working_temp) * v_h.[9] / $v_cp_avg + v_cp.[9]) + v_jac.[10] * v_h.[9] * $v_rho + v_spec_rates.[10] * #1.40268800e+01 * ((- $v_working_temp) * v_h.[10] / $v_cp_avg + v_cp.[10]) + v_jac.[11] * v_h.[10] * $v_rho + v_spec_rates.[11] * #1.40268800e+01 * ((- $v_working_temp) * v_h.[11] / $v_cp_avg + v_cp.[11]) + v_jac.[12] * v_h.[11] * $v_rho + v_spec_rates.[12] * #1.50348200e+01 * ((- $v_working_temp) * v_h.[12] / $v_cp_avg + v_cp.[12]) + v_jac.[13] * v_h.[12] * $v_rho + v_spec_rates.[13] * #1.60427600e+01 * ((- $v_working_temp) * v_h.[13] / $v_cp_avg + v_cp.[13]) + v_jac.[14] * v_h.[13] * $v_rho + v_spec_rates.[14] * #2.80104000e+01 * ((- $v_working_temp) * v_h.[14] / $v_cp_avg + v_cp.[14]) + v_jac.[15] * v_h.[14] * $v_rho + v_spec_rates.[15] * #4.40098000e+01 * ((- $v_working_temp) * v_h.[15] / $v_cp_avg + v_cp.[15]) + v_jac.[16] * v_h.[15] * $v_rho + v_spec_rates.[16] * #2.90183400e+01 * ((- $v_working_temp) * v_h.[16] / $v_cp_avg + v_cp.[16]) + v_jac.[17] * v_h.[16] * $v_rho + v_spec_rates.[17] * #3.00262800e+01 * ((- $v_working_temp) * v_h.[17] / $v_cp_avg + v_cp.[17]) + v_jac.[18] * v_h.[17] * $v_rho + v_spec_rates.[18] * #3.10342200e+01 * ((- $v_working_temp) * v_h.[18] / $v_cp_avg + v_cp.[18]) + v_jac.[19] * v_h.[18] * $v_rho + v_spec_rates.[19] * #3.10342200e+01 * ((- $v_working_temp) * v_h.[19] / $v_cp_avg + v_cp.[19]) + v_jac.[20] * v_h.[19] * $v_rho + v_spec_rates.[20] * #3.20421600e+01 * ((- $v_working_temp) * v_h.[20] / $v_cp_avg + v_cp.[20]) + v_jac.[21] * v_h.[20] * $v_rho + v_spec_rates.[21] * #2.50299400e+01 * ((- $v_working_temp) * v_h.[21] / $v_cp_avg + v_cp.[21]) + v_jac.[22] * v_h.[21] * $v_rho + v_spec_rates.[22] * #2.60378800e+01 * ((- $v_working_temp) * v_h.[22] / $v_cp_avg + v_cp.[22]) + v_jac.[23] * v_h.[22] * $v_rho + v_spec_rates.[23] * #2.70458200e+01 * ((- $v_working_temp) * v_h.[23] / $v_cp_avg + v_cp.[23]) + v_jac.[24] * v_h.[23] * $v_rho + v_spec_rates.[24] * #2.80537600e+01 * ((- $v_working_temp) * v_h.[24] / $v_cp_avg + v_cp.[24]) + v_jac.[25] * v_h.[24] * $v_rho + v_spec_rates.[25] * #2.90617000e+01 * ((- $v_working_temp) * v_h.[25] / $v_cp_avg + v_cp.[25]) + v_jac.[26] * v_h.[25] * $v_rho + v_spec_rates.[26] * #3.00696400e+01 * ((- $v_working_temp) * v_h.[26] / $v_cp_avg + v_cp.[26]) + v_jac.[27] * v_h.[26] * $v_rho + v_spec_rates.[27] * #4.10293400e+01 * ((- $v_working_temp) * v_h.[27] / $v_cp_avg + v_cp.[27]) + v_jac.[28] * v_h.[27] * $v_rho + v_spec_rates.[28] * #4.20372800e+01 * ((- $v_working_temp) * v_h.[28] / $v_cp_avg + v_cp.[28]) + v_jac.[29] * v_h.[28] * $v_rho + v_spec_rates.[29] * #4.20372800e+01 * ((- $v_working_temp) * v_h.[29] / $v_cp_avg + v_cp.[29]) + v_jac.[30] * v_h.[29] * $v_rho + v_spec_rates.[30] * #1.40067400e+01 * ((- $v_working_temp) * v_h.[30] / $v_cp_avg + v_cp.[30]) + v_jac.[31] * v_h.[30] * $v_rho + v_spec_rates.[31] * #1.50146800e+01 * ((- $v_working_temp) * v_h.[31] / $v_cp_avg + v_cp.[31]) + v_jac.[32] * v_h.[31] * $v_rho + v_spec_rates.[32] * #1.60226200e+01 * ((- $v_working_temp) * v_h.[32] / $v_cp_avg + v_cp.[32]) + v_jac.[33] * v_h.[32] * $v_rho + v_spec_rates.[33] * #1.70305600e+01 * ((- $v_working_temp) * v_h.[33] / $v_cp_avg + v_cp.[33]) + v_jac.[34] * v_h.[33] * $v_rho + v_spec_rates.[34] * #2.90214200e+01 * ((- $v_working_temp) * v_h.[34] / $v_cp_avg + v_cp.[34]) + v_jac.[35] * v_h.[34] * $v_rho + v_spec_rates.[35] * #3.00061400e+01 * ((- $v_working_temp) * v_h.[35] / $v_cp_avg + v_cp.[35]) + v_jac.[36] * v_h.[35] * $v_rho + v_spec_rates.[36] * #4.60055400e+01 * ((- $v_working_temp) * v_h.[36] / $v_cp_avg + v_cp.[36]) + v_jac.[37] * v_h.[36] * $v_rho + v_spec_rates.[37] * #4.40128800e+01 * ((- $v_working_temp) * v_h.[37] / $v_cp_avg + v_cp.[37]) + v_jac.[38] * v_h.[37] * $v_rho + v_spec_rates.[38] * #3.10140800e+01 * ((- $v_working_temp) * v_h.[38] / $v_cp_avg + v_cp.[38]) + v_jac.[39] * v_h.[38] * $v_rho + v_spec_rates.[39] * #2.60177400e+01 * ((- $v_working_temp) * v_h.[39] / $v_cp_avg + v_cp.[39]) + v_jac.[40] * v_h.[39] * $v_rho + v_spec_rates.[40] * #2.70256800e+01 * ((- $v_working_temp) * v_h.[40] / $v_cp_avg + v_cp.[40]) + v_jac.[41] * v_h.[40] * $v_rho + v_spec_rates.[41] * #2.80336200e+01 * ((- $v_working_temp) * v_h.[41] / $v_cp_avg + v_cp.[41]) + v_jac.[42] * v_h.[41] * $v_rho + v_spec_rates.[42] * #4.10324200e+01 * ((- $v_working_temp) * v_h.[42] / $v_cp_avg + v_cp.[42]) + v_jac.[43] * v_h.[42] * $v_rho + v_spec_rates.[43] * #4.30250800e+01 * ((- $v_working_temp) * v_h.[43] / $v_cp_avg + v_cp.[43]) + v_jac.[44] * v_h.[43] * $v_rho + v_spec_rates.[44] * #4.30250800e+01 * ((- $v_working_temp) * v_h.[44] / $v_cp_avg + v_cp.[44]) + v_jac.[45] * v_h.[44] * $v_rho + v_spec_rates.[45] * #4.30250800e+01 * ((- $v_working_temp) * v_h.[45] / $v_cp_avg + v_cp.[45]) + v_jac.[46] * v_h.[45] * $v_rho + v_spec_rates.[46] * #4.20171400e+01 * ((- $v_working_temp) * v_h.[46] / $v_cp_avg + v_cp.[46]) + v_jac.[47] * v_h.[46] * $v_rho + v_spec_rates.[47] * #3.99480000e+01 * ((- $v_working_temp) * v_h.[47] / $v_cp_avg + v_cp.[47]) + v_jac.[48] * v_h.[47] * $v_rho + v_spec_rates.[48] * #4.30885800e+01 * ((- $v_working_temp) * v_h.[48] / $v_cp_avg + v_cp.[48]) + v_jac.[49] * v_h.[48] * $v_rho + v_spec_rates.[49] * #4.40965200e+01 * ((- $v_working_temp) * v_h.[49] / $v_cp_avg + v_cp.[49]) + v_jac.[50] * v_h.[49] * $v_rho + v_spec_rates.[50] * #4.30452200e+01 * ((- $v_working_temp) * v_h.[50] / $v_cp_avg + v_cp.[50]) + v_jac.[51] * v_h.[50] * $v_rho + v_spec_rates.[51] * #4.40531600e+01 * ((- $v_working_temp) * v_h.[51] / $v_cp_avg + v_cp.[51]) + v_jac.[52] * v_h.[51] * $v_rho + v_spec_rates.[52] * #2.80134800e+01 * ((- $v_working_temp) * v_h.[52] / $v_cp_avg + v_cp.[52]) + $v_J_nplusone * v_h.[52] * $v_rho)) / ($v_rho * $v_cp_avg)))].

(** [eval_jacob_0], gri30/lib/src/jacobs/jacob_0.c:4-8413: the declarations and the blocks "partial of
    rxn ... wrt T" (the blocks "wrt species" write other elements of [jac]). *)
Definition gri30_jac_T0 : list stmt := [
  (*6*) Do (Asn v_logT 0 ((Log $v_T)));
  (*7*) Do (Asn v_kf 0 (#0.0));
  (*8*) Do (Asn v_j_temp 0 (#0.0));
  (*9*) Do (Asn v_pres_mod_temp 0 (#0.0));
  (*10*) Do (Asn v_Kc 0 (#0.0));
  (*11*) Do (Asn v_kr 0 (#0.0));
  (*12*) Do (Asn v_Pr 0 (#0.0));
  (*13*) Do (Asn v_rho_inv 0 (#1.0 / $v_rho));
  (*15*) Do (Asn v_j_temp 0 (((- v_pres_mod.[0]) * (v_fwd_rates.[0] - v_rev_rates.[0]) / $v_T + v_pres_mod.[0] / $v_T * ((v_fwd_rates.[0] - v_rev_rates.[0]) * #(-1.0000000000000000e+00) + v_fwd_rates.[0] * #(-1.0) - v_rev_rates.[0] * ((- $v_T) * (v_dBdT.[3] - #2.0 * v_dBdT.[2])))) * $v_rho_inv));
  (*16*) Do (Asn v_jac 3 ($v_j_temp * #(-2.0) * #1.5999400000000000e+01));
  (*17*) Do (Asn v_jac 4 ($v_j_temp * #3.1998799999999999e+01));
  (*137*) Do (Asn v_j_temp 0 (((- v_pres_mod.[1]) * (v_fwd_rates.[1] - v_rev_rates.[1]) / $v_T + v_pres_mod.[1] / $v_T * ((v_fwd_rates.[1] - v_rev_rates.[1]) * #(-1.0000000000000000e+00) + v_fwd_rates.[1] * #(-1.0) - v_rev_rates.[1] * ((- $v_T) * (v_dBdT.[4] - v_dBdT.[1] - v_dBdT.[2])))) * $v_rho_inv));
  (*138*) Do (Asn v_jac 2 ((- $v_j_temp) * #1.0079400000000001e+00));
  (*139*) Do (AddA v_jac 3 ((- $v_j_temp) * #1.5999400000000000e+01));
  (*140*) Do (Asn v_jac 5 ($v_j_temp * #1.7007339999999999e+01));
  (*312*) Do (Asn v_j_temp 0 (#1.0 / $v_T * ((v_fwd_rates.[2] - v_rev_rates.[2]) * (#2.7000000000000002e+00 + #3.1501544760183583e+03 / $v_T) + v_fwd_rates.[2] * #(-1.0) - v_rev_rates.[2] * (#(-1.0) + (- $v_T) * (v_dBdT.[1] + v_dBdT.[4] - v_dBdT.[0] - v_dBdT.[2]))) * $v_rho_inv));
  (*313*) Do (Asn v_jac 1 ((- $v_j_temp) * #2.0158800000000001e+00));
  (*314*) Do (AddA v_jac 2 ($v_j_temp * #1.0079400000000001e+00));
  (*315*) Do (AddA v_jac 3 ((- $v_j_temp) * #1.5999400000000000e+01));
  (*316*) Do (AddA v_jac 5 ($v_j_temp * #1.7007339999999999e+01));
  (*539*) Do (Asn v_j_temp 0 (#1.0 / $v_T * (v_fwd_rates.[3] * #(-1.0) - v_rev_rates.[3] * (#(-1.0) + (- $v_T) * (v_dBdT.[3] + v_dBdT.[4] - v_dBdT.[6] - v_dBdT.[2]))) * $v_rho_inv));
  (*540*) Do (AddA v_jac 3 ((- $v_j_temp) * #1.5999400000000000e+01));
  (*541*) Do (AddA v_jac 4 ($v_j_temp * #3.1998799999999999e+01));
  (*542*) Do (AddA v_jac 5 ($v_j_temp * #1.7007339999999999e+01));
  (*543*) Do (Asn v_jac 7 ((- $v_j_temp) * #3.3006740000000001e+01));
  (*766*) Do (Asn v_j_temp 0 (#1.0 / $v_T * ((v_fwd_rates.[4] - v_rev_rates.[4]) * (#2.0000000000000000e+00 + #2.0128782594366505e+03 / $v_T) + v_fwd_rates.[4] * #(-1.0) - v_rev_rates.[4] * (#(-1.0) + (- $v_T) * (v_dBdT.[6] + v_dBdT.[4] - v_dBdT.[7] - v_dBdT.[2]))) * $v_rho_inv));
  (*767*) Do (AddA v_jac 3 ((- $v_j_temp) * #1.5999400000000000e+01));
  (*768*) Do (AddA v_jac 5 ($v_j_temp * #1.7007339999999999e+01));
  (*769*) Do (AddA v_jac 7 ($v_j_temp * #3.3006740000000001e+01));
  (*770*) Do (Asn v_jac 8 ((- $v_j_temp) * #3.4014679999999998e+01));
  (*993*) Do (Asn v_j_temp 0 (#1.0 / $v_T * (v_fwd_rates.[5] * #(-1.0) - v_rev_rates.[5] * (#(-1.0) + (- $v_T) * (v_dBdT.[1] + v_dBdT.[14] - v_dBdT.[9] - v_dBdT.[2]))) * $v_rho_inv));
  (*994*) Do (Asn v_jac 10 ((- $v_j_temp) * #1.3018939999999999e+01));
  (*995*) Do (AddA v_jac 3 ((- $v_j_temp) * #1.5999400000000000e+01));
  (*996*) Do (Asn v_jac 15 ($v_j_temp * #2.8010399999999997e+01));
  (*997*) Do (AddA v_jac 2 ($v_j_temp * #1.0079400000000001e+00));
  (*1220*) Do (Asn v_j_temp 0 (#1.0 / $v_T * (v_fwd_rates.[6] * #(-1.0) - v_rev_rates.[6] * (#(-1.0) + (- $v_T) * (v_dBdT.[1] + v_dBdT.[16] - v_dBdT.[10] - v_dBdT.[2]))) * $v_rho_inv));
  (*1221*) Do (Asn v_jac 17 ($v_j_temp * #2.9018339999999998e+01));
  (*1222*) Do (AddA v_jac 2 ($v_j_temp * #1.0079400000000001e+00));
  (*1223*) Do (Asn v_jac 11 ((- $v_j_temp) * #1.4026879999999998e+01));
  (*1224*) Do (AddA v_jac 3 ((- $v_j_temp) * #1.5999400000000000e+01));
  (*1447*) Do (Asn v_j_temp 0 (#1.0 / $v_T * (v_fwd_rates.[7] * #(-1.0) - v_rev_rates.[7] * (#(-1.0) + (- $v_T) * (v_dBdT.[0] + v_dBdT.[14] - v_dBdT.[11] - v_dBdT.[2]))) * $v_rho_inv));
  (*1448*) Do (AddA v_jac 1 ($v_j_temp * #2.0158800000000001e+00));
  (*1449*) Do (AddA v_jac 3 ((- $v_j_temp) * #1.5999400000000000e+01));
  (*1450*) Do (Asn v_jac 12 ((- $v_j_temp) * #1.4026879999999998e+01));
  (*1451*) Do (AddA v_jac 15 ($v_j_temp * #2.8010399999999997e+01));
  (*1674*) Do (Asn v_j_temp 0 (#1.0 / $v_T * (v_fwd_rates.[8] * #(-1.0) - v_rev_rates.[8] * (#(-1.0) + (- $v_T) * (v_dBdT.[1] + v_dBdT.[16] - v_dBdT.[11] - v_dBdT.[2]))) * $v_rho_inv));
  (*1675*) Do (AddA v_jac 17 ($v_j_temp * #2.9018339999999998e+01));
  (*1676*) Do (AddA v_jac 2 ($v_j_temp * #1.0079400000000001e+00));
  (*1677*) Do (AddA v_jac 3 ((- $v_j_temp) * #1.5999400000000000e+01));
  (*1678*) Do (AddA v_jac 12 ((- $v_j_temp) * #1.4026879999999998e+01));
  (*1901*) Do (Asn v_j_temp 0 (#1.0 / $v_T * (v_fwd_rates.[9] * #(-1.0) - v_rev_rates.[9] * (#(-1.0) + (- $v_T) * (v_dBdT.[17] + v_dBdT.[1] - v_dBdT.[12] - v_dBdT.[2]))) * $v_rho_inv));
  (*1902*) Do (Asn v_jac 18 ($v_j_temp * #3.0026280000000000e+01));
  (*1903*) Do (AddA v_jac 3 ((- $v_j_temp) * #1.5999400000000000e+01));
  (*1904*) Do (Asn v_jac 13 ((- $v_j_temp) * #1.5034820000000000e+01));
  (*1905*) Do (AddA v_jac 2 ($v_j_temp * #1.0079400000000001e+00));
  (*2128*) Do (Asn v_j_temp 0 (#1.0 / $v_T * ((v_fwd_rates.[10] - v_rev_rates.[10]) * (#1.5000000000000000e+00 + #4.3276882577887991e+03 / $v_T) + v_fwd_rates.[10] * #(-1.0) - v_rev_rates.[10] * (#(-1.0) + (- $v_T) * (v_dBdT.[12] + v_dBdT.[4] - v_dBdT.[13] - v_dBdT.[2]))) * $v_rho_inv));
  (*2129*) Do (AddA v_jac 5 ($v_j_temp * #1.7007339999999999e+01));
  (*2130*) Do (AddA v_jac 3 ((- $v_j_temp) * #1.5999400000000000e+01));
  (*2131*) Do (AddA v_jac 13 ($v_j_temp * #1.5034820000000000e+01));
  (*2132*) Do (Asn v_jac 14 ((- $v_j_temp) * #1.6042760000000001e+01));
  (*2355*) Do (Asn v_conc_temp 0 ($v_m + #1.0 * v_conc.[0] + #5.0 * v_conc.[3] + #5.0 * v_conc.[5] + #1.0 * v_conc.[13] + #0.5 * v_conc.[14] + #2.5 * v_conc.[15] + #2.0 * v_conc.[26] - #0.5 * v_conc.[47]));
  (*2356*) Do (Asn v_Pr 0 ($v_conc_temp * (Exp (#3.5098856874126563e+00 - #3.0948003238838510e+02 / $v_T))));
  (*2357*) Do (Asn v_j_temp 0 ((v_pres_mod.[2] * ((#0.0000e+00 + #3.0948003238838510e+02 / $v_T - #1.0) / ($v_T * (#1.0 + $v_Pr))) * (v_fwd_rates.[11] - v_rev_rates.[11]) + v_pres_mod.[2] / $v_T * ((v_fwd_rates.[11] - v_rev_rates.[11]) * (#1.2001786621891029e+03 / $v_T) + v_fwd_rates.[11] * #(-1.0) - v_rev_rates.[11] * ((- $v_T) * (v_dBdT.[15] - v_dBdT.[14] - v_dBdT.[2])))) * $v_rho_inv));
  (*2358*) Do (AddA v_jac 3 ((- $v_j_temp) * #1.5999400000000000e+01));
  (*2359*) Do (AddA v_jac 15 ((- $v_j_temp) * #2.8010399999999997e+01));
  (*2360*) Do (Asn v_jac 16 ($v_j_temp * #4.4009799999999998e+01));
  (*2533*) Do (Asn v_j_temp 0 (#1.0 / $v_T * (v_fwd_rates.[12] * #(-1.0) - v_rev_rates.[12] * (#(-1.0) + (- $v_T) * (v_dBdT.[14] + v_dBdT.[4] - v_dBdT.[16] - v_dBdT.[2]))) * $v_rho_inv));
  (*2534*) Do (AddA v_jac 17 ((- $v_j_temp) * #2.9018339999999998e+01));
  (*2535*) Do (AddA v_jac 3 ((- $v_j_temp) * #1.5999400000000000e+01));
  (*2536*) Do (AddA v_jac 5 ($v_j_temp * #1.7007339999999999e+01));
  (*2537*) Do (AddA v_jac 15 ($v_j_temp * #2.8010399999999997e+01));
  (*2760*) Do (Asn v_j_temp 0 (#1.0 / $v_T * (v_fwd_rates.[13] * #(-1.0) - v_rev_rates.[13] * (#(-1.0) + (- $v_T) * (v_dBdT.[1] + v_dBdT.[15] - v_dBdT.[16] - v_dBdT.[2]))) * $v_rho_inv));
  (*2761*) Do (AddA v_jac 17 ((- $v_j_temp) * #2.9018339999999998e+01));
  (*2762*) Do (AddA v_jac 2 ($v_j_temp * #1.0079400000000001e+00));
  (*2763*) Do (AddA v_jac 3 ((- $v_j_temp) * #1.5999400000000000e+01));
  (*2764*) Do (AddA v_jac 16 ($v_j_temp * #4.4009799999999998e+01));
  (*2987*) Do (Asn v_j_temp 0 (#1.0 / $v_T * ((v_fwd_rates.[14] - v_rev_rates.[14]) * (#1.7813972596014357e+03 / $v_T) + v_fwd_rates.[14] * #(-1.0) - v_rev_rates.[14] * (#(-1.0) + (- $v_T) * (v_dBdT.[16] + v_dBdT.[4] - v_dBdT.[17] - v_dBdT.[2]))) * $v_rho_inv));
  (*2988*) Do (AddA v_jac 17 ($v_j_temp * #2.9018339999999998e+01));
  (*2989*) Do (AddA v_jac 18 ((- $v_j_temp) * #3.0026280000000000e+01));
  (*2990*) Do (AddA v_jac 3 ((- $v_j_temp) * #1.5999400000000000e+01));
  (*2991*) Do (AddA v_jac 5 ($v_j_temp * #1.7007339999999999e+01));
  (*3214*) Do (Asn v_j_temp 0 (#1.0 / $v_T * (v_fwd_rates.[15] * #(-1.0) - v_rev_rates.[15] * (#(-1.0) + (- $v_T) * (v_dBdT.[17] + v_dBdT.[4] - v_dBdT.[18] - v_dBdT.[2]))) * $v_rho_inv));
  (*3215*) Do (AddA v_jac 18 ($v_j_temp * #3.0026280000000000e+01));
  (*3216*) Do (Asn v_jac 19 ((- $v_j_temp) * #3.1034219999999998e+01));
  (*3217*) Do (AddA v_jac 5 ($v_j_temp * #1.7007339999999999e+01));
  (*3218*) Do (AddA v_jac 3 ((- $v_j_temp) * #1.5999400000000000e+01));
  (*3441*) Do (Asn v_j_temp 0 (#1.0 / $v_T * (v_fwd_rates.[16] * #(-1.0) - v_rev_rates.[16] * (#(-1.0) + (- $v_T) * (v_dBdT.[17] + v_dBdT.[4] - v_dBdT.[19] - v_dBdT.[2]))) * $v_rho_inv));
  (*3442*) Do (AddA v_jac 18 ($v_j_temp * #3.0026280000000000e+01));
  (*3443*) Do (AddA v_jac 3 ((- $v_j_temp) * #1.5999400000000000e+01));
  (*3444*) Do (Asn v_jac 20 ((- $v_j_temp) * #3.1034219999999998e+01));
  (*3445*) Do (AddA v_jac 5 ($v_j_temp * #1.7007339999999999e+01));
  (*3668*) Do (Asn v_j_temp 0 (#1.0 / $v_T * ((v_fwd_rates.[17] - v_rev_rates.[17]) * (#2.5000000000000000e+00 + #1.5599806510634041e+03 / $v_T) + v_fwd_rates.[17] * #(-1.0) - v_rev_rates.[17] * (#(-1.0) + (- $v_T) * (v_dBdT.[18] + v_dBdT.[4] - v_dBdT.[20] - v_dBdT.[2]))) * $v_rho_inv));
  (*3669*) Do (AddA v_jac 5 ($v_j_temp * #1.7007339999999999e+01));
  (*3670*) Do (AddA v_jac 3 ((- $v_j_temp) * #1.5999400000000000e+01));
  (*3671*) Do (Asn v_jac 21 ((- $v_j_temp) * #3.2042159999999996e+01));
  (*3672*) Do (AddA v_jac 19 ($v_j_temp * #3.1034219999999998e+01));
  (*3895*) Do (Asn v_j_temp 0 (#1.0 / $v_T * ((v_fwd_rates.[18] - v_rev_rates.[18]) * (#2.5000000000000000e+00 + #2.5160978242958131e+03 / $v_T) + v_fwd_rates.[18] * #(-1.0) - v_rev_rates.[18] * (#(-1.0) + (- $v_T) * (v_dBdT.[19] + v_dBdT.[4] - v_dBdT.[20] - v_dBdT.[2]))) * $v_rho_inv));
  (*3896*) Do (AddA v_jac 5 ($v_j_temp * #1.7007339999999999e+01));
  (*3897*) Do (AddA v_jac 3 ((- $v_j_temp) * #1.5999400000000000e+01));
  (*3898*) Do (AddA v_jac 20 ($v_j_temp * #3.1034219999999998e+01));
  (*3899*) Do (AddA v_jac 21 ((- $v_j_temp) * #3.2042159999999996e+01));
  (*4122*) Do (Asn v_j_temp 0 (#1.0 / $v_T * (v_fwd_rates.[19] * #(-1.0) - v_rev_rates.[19] * (#(-1.0) + (- $v_T) * (v_dBdT.[9] + v_dBdT.[14] - v_dBdT.[21] - v_dBdT.[2]))) * $v_rho_inv));
  (*4123*) Do (AddA v_jac 10 ($v_j_temp * #1.3018939999999999e+01));
  (*4124*) Do (AddA v_jac 3 ((- $v_j_temp) * #1.5999400000000000e+01));
  (*4125*) Do (Asn v_jac 22 ((- $v_j_temp) * #2.5029940000000000e+01));
  (*4126*) Do (AddA v_jac 15 ($v_j_temp * #2.8010399999999997e+01));
  (*4349*) Do (Asn v_j_temp 0 (#1.0 / $v_T * ((v_fwd_rates.[20] - v_rev_rates.[20]) * (#2.0000000000000000e+00 + #9.5611717323240896e+02 / $v_T) + v_fwd_rates.[20] * #(-1.0) - v_rev_rates.[20] * (#(-1.0) + (- $v_T) * (v_dBdT.[1] + v_dBdT.[27] - v_dBdT.[22] - v_dBdT.[2]))) * $v_rho_inv));
  (*4350*) Do (AddA v_jac 2 ($v_j_temp * #1.0079400000000001e+00));
  (*4351*) Do (AddA v_jac 3 ((- $v_j_temp) * #1.5999400000000000e+01));
  (*4352*) Do (Asn v_jac 28 ($v_j_temp * #4.1029339999999998e+01));
  (*4353*) Do (Asn v_jac 23 ((- $v_j_temp) * #2.6037879999999998e+01));
  (*4576*) Do (Asn v_j_temp 0 (#1.0 / $v_T * ((v_fwd_rates.[21] - v_rev_rates.[21]) * (#(-1.4099999999999999e+00) + #1.4568206402672758e+04 / $v_T) + v_fwd_rates.[21] * #(-1.0) - v_rev_rates.[21] * (#(-1.0) + (- $v_T) * (v_dBdT.[21] + v_dBdT.[4] - v_dBdT.[22] - v_dBdT.[2]))) * $v_rho_inv));
  (*4577*) Do (AddA v_jac 3 ((- $v_j_temp) * #1.5999400000000000e+01));
  (*4578*) Do (AddA v_jac 5 ($v_j_temp * #1.7007339999999999e+01));
  (*4579*) Do (AddA v_jac 22 ($v_j_temp * #2.5029940000000000e+01));
  (*4580*) Do (AddA v_jac 23 ((- $v_j_temp) * #2.6037879999999998e+01));
  (*4803*) Do (Asn v_j_temp 0 (#1.0 / $v_T * ((v_fwd_rates.[22] - v_rev_rates.[22]) * (#2.0000000000000000e+00 + #9.5611717323240896e+02 / $v_T) + v_fwd_rates.[22] * #(-1.0) - v_rev_rates.[22] * (#(-1.0) + (- $v_T) * (v_dBdT.[10] + v_dBdT.[14] - v_dBdT.[22] - v_dBdT.[2]))) * $v_rho_inv));
  (*4804*) Do (AddA v_jac 3 ((- $v_j_temp) * #1.5999400000000000e+01));
  (*4805*) Do (AddA v_jac 15 ($v_j_temp * #2.8010399999999997e+01));
  (*4806*) Do (AddA v_jac 11 ($v_j_temp * #1.4026879999999998e+01));
  (*4807*) Do (AddA v_jac 23 ((- $v_j_temp) * #2.6037879999999998e+01));
  (*5030*) Do (Asn v_j_temp 0 (#1.0 / $v_T * (v_fwd_rates.[23] * #(-1.0) - v_rev_rates.[23] * (#(-1.0) + (- $v_T) * (v_dBdT.[1] + v_dBdT.[28] - v_dBdT.[23] - v_dBdT.[2]))) * $v_rho_inv));
  (*5031*) Do (AddA v_jac 2 ($v_j_temp * #1.0079400000000001e+00));
  (*5032*) Do (AddA v_jac 3 ((- $v_j_temp) * #1.5999400000000000e+01));
  (*5033*) Do (Asn v_jac 29 ($v_j_temp * #4.2037279999999996e+01));
  (*5034*) Do (Asn v_jac 24 ((- $v_j_temp) * #2.7045819999999999e+01));
  (*5257*) Do (Asn v_j_temp 0 (#1.0 / $v_T * ((v_fwd_rates.[24] - v_rev_rates.[24]) * (#1.8300000000000001e+00 + #1.1070830426901578e+02 / $v_T) + v_fwd_rates.[24] * #(-1.0) - v_rev_rates.[24] * (#(-1.0) + (- $v_T) * (v_dBdT.[12] + v_dBdT.[16] - v_dBdT.[24] - v_dBdT.[2]))) * $v_rho_inv));
  (*5258*) Do (Asn v_jac 25 ((- $v_j_temp) * #2.8053759999999997e+01));
  (*5259*) Do (AddA v_jac 17 ($v_j_temp * #2.9018339999999998e+01));
  (*5260*) Do (AddA v_jac 3 ((- $v_j_temp) * #1.5999400000000000e+01));
  (*5261*) Do (AddA v_jac 13 ($v_j_temp * #1.5034820000000000e+01));
  (*5484*) Do (Asn v_j_temp 0 (#1.0 / $v_T * (v_fwd_rates.[25] * #(-1.0) - v_rev_rates.[25] * (#(-1.0) + (- $v_T) * (v_dBdT.[17] + v_dBdT.[12] - v_dBdT.[25] - v_dBdT.[2]))) * $v_rho_inv));
  (*5485*) Do (Asn v_jac 26 ((- $v_j_temp) * #2.9061699999999998e+01));
  (*5486*) Do (AddA v_jac 3 ((- $v_j_temp) * #1.5999400000000000e+01));
  (*5487*) Do (AddA v_jac 13 ($v_j_temp * #1.5034820000000000e+01));
  (*5488*) Do (AddA v_jac 18 ($v_j_temp * #3.0026280000000000e+01));
  (*5711*) Do (Asn v_j_temp 0 (#1.0 / $v_T * ((v_fwd_rates.[26] - v_rev_rates.[26]) * (#1.9199999999999999e+00 + #2.8633193240486353e+03 / $v_T) + v_fwd_rates.[26] * #(-1.0) - v_rev_rates.[26] * (#(-1.0) + (- $v_T) * (v_dBdT.[25] + v_dBdT.[4] - v_dBdT.[26] - v_dBdT.[2]))) * $v_rho_inv));
  (*5712*) Do (AddA v_jac 26 ($v_j_temp * #2.9061699999999998e+01));
  (*5713*) Do (Asn v_jac 27 ((- $v_j_temp) * #3.0069640000000000e+01));
  (*5714*) Do (AddA v_jac 5 ($v_j_temp * #1.7007339999999999e+01));
  (*5715*) Do (AddA v_jac 3 ((- $v_j_temp) * #1.5999400000000000e+01));
  (*5938*) Do (Asn v_j_temp 0 (#1.0 / $v_T * (v_fwd_rates.[27] * #(-1.0) - v_rev_rates.[27] * (#(-2.0) + (- $v_T) * (v_dBdT.[1] + #2.0 * v_dBdT.[14] - v_dBdT.[27] - v_dBdT.[2]))) * $v_rho_inv));
  (*5939*) Do (AddA v_jac 2 ($v_j_temp * #1.0079400000000001e+00));
  (*5940*) Do (AddA v_jac 3 ((- $v_j_temp) * #1.5999400000000000e+01));
  (*5941*) Do (AddA v_jac 28 ((- $v_j_temp) * #4.1029339999999998e+01));
  (*5942*) Do (AddA v_jac 15 ($v_j_temp * #2.0 * #2.8010399999999997e+01));
  (*6165*) Do (Asn v_j_temp 0 (#1.0 / $v_T * ((v_fwd_rates.[28] - v_rev_rates.[28]) * (#4.0257565188733010e+03 / $v_T) + v_fwd_rates.[28] * #(-1.0) - v_rev_rates.[28] * (#(-1.0) + (- $v_T) * (v_dBdT.[27] + v_dBdT.[4] - v_dBdT.[28] - v_dBdT.[2]))) * $v_rho_inv));
  (*6166*) Do (AddA v_jac 5 ($v_j_temp * #1.7007339999999999e+01));
  (*6167*) Do (AddA v_jac 3 ((- $v_j_temp) * #1.5999400000000000e+01));
  (*6168*) Do (AddA v_jac 28 ($v_j_temp * #4.1029339999999998e+01));
  (*6169*) Do (AddA v_jac 29 ((- $v_j_temp) * #4.2037279999999996e+01));
  (*6392*) Do (Asn v_j_temp 0 (#1.0 / $v_T * ((v_fwd_rates.[29] - v_rev_rates.[29]) * (#6.7934641255986958e+02 / $v_T) + v_fwd_rates.[29] * #(-1.0) - v_rev_rates.[29] * (#(-1.0) + (- $v_T) * (v_dBdT.[10] + v_dBdT.[15] - v_dBdT.[28] - v_dBdT.[2]))) * $v_rho_inv));
  (*6393*) Do (AddA v_jac 3 ((- $v_j_temp) * #1.5999400000000000e+01));
  (*6394*) Do (AddA v_jac 29 ((- $v_j_temp) * #4.2037279999999996e+01));
  (*6395*) Do (AddA v_jac 11 ($v_j_temp * #1.4026879999999998e+01));
  (*6396*) Do (AddA v_jac 16 ($v_j_temp * #4.4009799999999998e+01));
  (*6619*) Do (Asn v_j_temp 0 (#1.0 / $v_T * ((v_fwd_rates.[30] - v_rev_rates.[30]) * (#2.4053895200267973e+04 / $v_T) + v_fwd_rates.[30] * #(-1.0) - v_rev_rates.[30] * (#(-1.0) + (- $v_T) * (v_dBdT.[15] + v_dBdT.[2] - v_dBdT.[14] - v_dBdT.[3]))) * $v_rho_inv));
  (*6620*) Do (AddA v_jac 3 ($v_j_temp * #1.5999400000000000e+01));
  (*6621*) Do (AddA v_jac 4 ((- $v_j_temp) * #3.1998799999999999e+01));
  (*6622*) Do (AddA v_jac 15 ((- $v_j_temp) * #2.8010399999999997e+01));
  (*6623*) Do (AddA v_jac 16 ($v_j_temp * #4.4009799999999998e+01));
  (*6846*) Do (Asn v_j_temp 0 (#1.0 / $v_T * ((v_fwd_rates.[31] - v_rev_rates.[31]) * (#2.0128782594366505e+04 / $v_T) + v_fwd_rates.[31] * #(-1.0) - v_rev_rates.[31] * (#(-1.0) + (- $v_T) * (v_dBdT.[6] + v_dBdT.[16] - v_dBdT.[17] - v_dBdT.[3]))) * $v_rho_inv));
  (*6847*) Do (AddA v_jac 17 ($v_j_temp * #2.9018339999999998e+01));
  (*6848*) Do (AddA v_jac 18 ((- $v_j_temp) * #3.0026280000000000e+01));
  (*6849*) Do (AddA v_jac 4 ((- $v_j_temp) * #3.1998799999999999e+01));
  (*6850*) Do (AddA v_jac 7 ($v_j_temp * #3.3006740000000001e+01));
  (*7073*) Do (Asn v_j_temp 0 (((- v_pres_mod.[3]) * (v_fwd_rates.[32] - v_rev_rates.[32]) / $v_T + v_pres_mod.[3] / $v_T * ((v_fwd_rates.[32] - v_rev_rates.[32]) * #(-8.5999999999999999e-01) + v_fwd_rates.[32] * #(-1.0) - v_rev_rates.[32] * ((- $v_T) * (v_dBdT.[6] - v_dBdT.[1] - v_dBdT.[3])))) * $v_rho_inv));
  (*7074*) Do (AddA v_jac 2 ((- $v_j_temp) * #1.0079400000000001e+00));
  (*7075*) Do (AddA v_jac 4 ((- $v_j_temp) * #3.1998799999999999e+01));
  (*7076*) Do (AddA v_jac 7 ($v_j_temp * #3.3006740000000001e+01));
  (*7248*) Do (Asn v_j_temp 0 (#1.0 / $v_T * ((v_fwd_rates.[33] - v_rev_rates.[33]) * #(-1.2400000000000000e+00) + v_fwd_rates.[33] * #(-2.0) - v_rev_rates.[33] * (#(-1.0) + (- $v_T) * (v_dBdT.[6] - v_dBdT.[3] - v_dBdT.[1]))) * $v_rho_inv));
  (*7249*) Do (AddA v_jac 2 ((- $v_j_temp) * #1.0079400000000001e+00));
  (*7250*) Do (AddA v_jac 4 ((- $v_j_temp) * #3.1998799999999999e+01));
  (*7251*) Do (AddA v_jac 7 ($v_j_temp * #3.3006740000000001e+01));
  (*7422*) Do (Asn v_j_temp 0 (#1.0 / $v_T * ((v_fwd_rates.[34] - v_rev_rates.[34]) * #(-7.6000000000000001e-01) + v_fwd_rates.[34] * #(-2.0) - v_rev_rates.[34] * (#(-1.0) + (- $v_T) * (v_dBdT.[6] - v_dBdT.[1] - v_dBdT.[3]))) * $v_rho_inv));
  (*7423*) Do (AddA v_jac 2 ((- $v_j_temp) * #1.0079400000000001e+00));
  (*7424*) Do (AddA v_jac 4 ((- $v_j_temp) * #3.1998799999999999e+01));
  (*7425*) Do (AddA v_jac 7 ($v_j_temp * #3.3006740000000001e+01));
  (*7596*) Do (Asn v_j_temp 0 (#1.0 / $v_T * ((v_fwd_rates.[35] - v_rev_rates.[35]) * #(-1.2400000000000000e+00) + v_fwd_rates.[35] * #(-2.0) - v_rev_rates.[35] * (#(-1.0) + (- $v_T) * (v_dBdT.[6] - v_dBdT.[1] - v_dBdT.[3]))) * $v_rho_inv));
  (*7597*) Do (AddA v_jac 2 ((- $v_j_temp) * #1.0079400000000001e+00));
  (*7598*) Do (AddA v_jac 4 ((- $v_j_temp) * #3.1998799999999999e+01));
  (*7599*) Do (AddA v_jac 7 ($v_j_temp * #3.3006740000000001e+01));
  (*7770*) Do (Asn v_j_temp 0 (#1.0 / $v_T * ((v_fwd_rates.[36] - v_rev_rates.[36]) * #(-8.0000000000000004e-01) + v_fwd_rates.[36] * #(-2.0) - v_rev_rates.[36] * (#(-1.0) + (- $v_T) * (v_dBdT.[6] - v_dBdT.[1] - v_dBdT.[3]))) * $v_rho_inv));
  (*7771*) Do (AddA v_jac 2 ((- $v_j_temp) * #1.0079400000000001e+00));
  (*7772*) Do (AddA v_jac 4 ((- $v_j_temp) * #3.1998799999999999e+01));
  (*7773*) Do (AddA v_jac 7 ($v_j_temp * #3.3006740000000001e+01));
  (*7944*) Do (Asn v_j_temp 0 (#1.0 / $v_T * ((v_fwd_rates.[37] - v_rev_rates.[37]) * (#(-6.7069999999999996e-01) + #8.5753646047649909e+03 / $v_T) + v_fwd_rates.[37] * #(-1.0) - v_rev_rates.[37] * (#(-1.0) + (- $v_T) * (v_dBdT.[2] + v_dBdT.[4] - v_dBdT.[1] - v_dBdT.[3]))) * $v_rho_inv));
  (*7945*) Do (AddA v_jac 2 ((- $v_j_temp) * #1.0079400000000001e+00));
  (*7946*) Do (AddA v_jac 3 ($v_j_temp * #1.5999400000000000e+01));
  (*7947*) Do (AddA v_jac 4 ((- $v_j_temp) * #3.1998799999999999e+01));
  (*7948*) Do (AddA v_jac 5 ($v_j_temp * #1.7007339999999999e+01));
  (*8171*) Do (Asn v_j_temp 0 (((- v_pres_mod.[4]) * (v_fwd_rates.[38] - v_rev_rates.[38]) / $v_T + v_pres_mod.[4] / $v_T * ((v_fwd_rates.[38] - v_rev_rates.[38]) * #(-1.0000000000000000e+00) + v_fwd_rates.[38] * #(-1.0) - v_rev_rates.[38] * ((- $v_T) * (v_dBdT.[0] - #2.0 * v_dBdT.[1])))) * $v_rho_inv));
  (*8172*) Do (AddA v_jac 1 ($v_j_temp * #2.0158800000000001e+00));
  (*8173*) Do (AddA v_jac 2 ($v_j_temp * #(-2.0) * #1.0079400000000001e+00));
  (*8293*) Do (Asn v_j_temp 0 (#1.0 / $v_T * ((v_fwd_rates.[39] - v_rev_rates.[39]) * #(-5.9999999999999998e-01) + v_fwd_rates.[39] * #(-2.0) - v_rev_rates.[39] * (#(-1.0) + (- $v_T) * (v_dBdT.[0] - #2.0 * v_dBdT.[1]))) * $v_rho_inv));
  (*8294*) Do (AddA v_jac 1 ($v_j_temp * #2.0158800000000001e+00));
  (*8295*) Do (AddA v_jac 2 ($v_j_temp * #(-2.0) * #1.0079400000000001e+00))].

(** [eval_jacob_1], gri30/lib/src/jacobs/jacob_1.c:4-8128: the declarations and the blocks "partial of
    rxn ... wrt T" (the blocks "wrt species" write other elements of [jac]). *)
Definition gri30_jac_T1 : list stmt := [
  (*6*) Do (Asn v_logT 0 ((Log $v_T)));
  (*7*) Do (Asn v_kf 0 (#0.0));
  (*8*) Do (Asn v_j_temp 0 (#0.0));
  (*9*) Do (Asn v_pres_mod_temp 0 (#0.0));
  (*10*) Do (Asn v_Kc 0 (#0.0));
  (*11*) Do (Asn v_kr 0 (#0.0));
  (*12*) Do (Asn v_Pr 0 (#0.0));
  (*13*) Do (Asn v_Fcent 0 (#0.0));
  (*14*) Do (Asn v_A 0 (#0.0));
  (*15*) Do (Asn v_B 0 (#0.0));
  (*16*) Do (Asn v_lnF_AB 0 (#0.0));
  (*17*) Do (Asn v_rho_inv 0 (#1.0 / $v_rho));
  (*19*) Do (Asn v_j_temp 0 (#1.0 / $v_T * ((v_fwd_rates.[40] - v_rev_rates.[40]) * #(-1.2500000000000000e+00) + v_fwd_rates.[40] * #(-2.0) - v_rev_rates.[40] * (#(-1.0) + (- $v_T) * (v_dBdT.[0] - #2.0 * v_dBdT.[1]))) * $v_rho_inv));
  (*20*) Do (AddA v_jac 1 ($v_j_temp * #2.0158800000000001e+00));
  (*21*) Do (AddA v_jac 2 ($v_j_temp * #(-2.0) * #1.0079400000000001e+00));
  (*140*) Do (Asn v_j_temp 0 (#1.0 / $v_T * ((v_fwd_rates.[41] - v_rev_rates.[41]) * #(-2.0000000000000000e+00) + v_fwd_rates.[41] * #(-2.0) - v_rev_rates.[41] * (#(-1.0) + (- $v_T) * (v_dBdT.[0] - #2.0 * v_dBdT.[1]))) * $v_rho_inv));
  (*141*) Do (AddA v_jac 1 ($v_j_temp * #2.0158800000000001e+00));
  (*142*) Do (AddA v_jac 2 ($v_j_temp * #(-2.0) * #1.0079400000000001e+00));
  (*261*) Do (Asn v_j_temp 0 (((- v_pres_mod.[5]) * (v_fwd_rates.[42] - v_rev_rates.[42]) / $v_T + v_pres_mod.[5] / $v_T * ((v_fwd_rates.[42] - v_rev_rates.[42]) * #(-2.0000000000000000e+00) + v_fwd_rates.[42] * #(-1.0) - v_rev_rates.[42] * ((- $v_T) * (v_dBdT.[5] - v_dBdT.[1] - v_dBdT.[4])))) * $v_rho_inv));
  (*262*) Do (AddA v_jac 2 ((- $v_j_temp) * #1.0079400000000001e+00));
  (*263*) Do (AddA v_jac 5 ((- $v_j_temp) * #1.7007339999999999e+01));
  (*264*) Do (Asn v_jac 6 ($v_j_temp * #1.8015280000000001e+01));
  (*436*) Do (Asn v_j_temp 0 (#1.0 / $v_T * ((v_fwd_rates.[43] - v_rev_rates.[43]) * (#3.3766032802049813e+02 / $v_T) + v_fwd_rates.[43] * #(-1.0) - v_rev_rates.[43] * (#(-1.0) + (- $v_T) * (v_dBdT.[5] + v_dBdT.[2] - v_dBdT.[1] - v_dBdT.[6]))) * $v_rho_inv));
  (*437*) Do (AddA v_jac 2 ((- $v_j_temp) * #1.0079400000000001e+00));
  (*438*) Do (AddA v_jac 3 ($v_j_temp * #1.5999400000000000e+01));
  (*439*) Do (AddA v_jac 6 ($v_j_temp * #1.8015280000000001e+01));
  (*440*) Do (AddA v_jac 7 ((- $v_j_temp) * #3.3006740000000001e+01));
  (*663*) Do (Asn v_j_temp 0 (#1.0 / $v_T * ((v_fwd_rates.[44] - v_rev_rates.[44]) * (#5.3743849526958570e+02 / $v_T) + v_fwd_rates.[44] * #(-1.0) - v_rev_rates.[44] * (#(-1.0) + (- $v_T) * (v_dBdT.[0] + v_dBdT.[3] - v_dBdT.[1] - v_dBdT.[6]))) * $v_rho_inv));
  (*664*) Do (AddA v_jac 1 ($v_j_temp * #2.0158800000000001e+00));
  (*665*) Do (AddA v_jac 2 ((- $v_j_temp) * #1.0079400000000001e+00));
  (*666*) Do (AddA v_jac 4 ($v_j_temp * #3.1998799999999999e+01));
  (*667*) Do (AddA v_jac 7 ((- $v_j_temp) * #3.3006740000000001e+01));
  (*890*) Do (Asn v_j_temp 0 (#1.0 / $v_T * ((v_fwd_rates.[45] - v_rev_rates.[45]) * (#3.1954442368556829e+02 / $v_T) + v_fwd_rates.[45] * #(-1.0) - v_rev_rates.[45] * (#(-1.0) + (- $v_T) * (#2.0 * v_dBdT.[4] - v_dBdT.[1] - v_dBdT.[6]))) * $v_rho_inv));
  (*891*) Do (AddA v_jac 2 ((- $v_j_temp) * #1.0079400000000001e+00));
  (*892*) Do (AddA v_jac 5 ($v_j_temp * #2.0 * #1.7007339999999999e+01));
  (*893*) Do (AddA v_jac 7 ((- $v_j_temp) * #3.3006740000000001e+01));
  (*1064*) Do (Asn v_j_temp 0 (#1.0 / $v_T * ((v_fwd_rates.[46] - v_rev_rates.[46]) * (#2.0000000000000000e+00 + #2.6167417372676459e+03 / $v_T) + v_fwd_rates.[46] * #(-1.0) - v_rev_rates.[46] * (#(-1.0) + (- $v_T) * (v_dBdT.[0] + v_dBdT.[6] - v_dBdT.[1] - v_dBdT.[7]))) * $v_rho_inv));
  (*1065*) Do (AddA v_jac 1 ($v_j_temp * #2.0158800000000001e+00));
  (*1066*) Do (AddA v_jac 2 ((- $v_j_temp) * #1.0079400000000001e+00));
  (*1067*) Do (AddA v_jac 7 ($v_j_temp * #3.3006740000000001e+01));
  (*1068*) Do (AddA v_jac 8 ((- $v_j_temp) * #3.4014679999999998e+01));
  (*1291*) Do (Asn v_j_temp 0 (#1.0 / $v_T * ((v_fwd_rates.[47] - v_rev_rates.[47]) * (#1.8115904334929855e+03 / $v_T) + v_fwd_rates.[47] * #(-1.0) - v_rev_rates.[47] * (#(-1.0) + (- $v_T) * (v_dBdT.[5] + v_dBdT.[4] - v_dBdT.[1] - v_dBdT.[7]))) * $v_rho_inv));
  (*1292*) Do (AddA v_jac 2 ((- $v_j_temp) * #1.0079400000000001e+00));
  (*1293*) Do (AddA v_jac 5 ($v_j_temp * #1.7007339999999999e+01));
  (*1294*) Do (AddA v_jac 6 ($v_j_temp * #1.8015280000000001e+01));
  (*1295*) Do (AddA v_jac 8 ((- $v_j_temp) * #3.4014679999999998e+01));
  (*1518*) Do (Asn v_j_temp 0 (#1.0 / $v_T * (v_fwd_rates.[48] * #(-1.0) - v_rev_rates.[48] * (#(-1.0) + (- $v_T) * (v_dBdT.[0] + v_dBdT.[8] - v_dBdT.[1] - v_dBdT.[9]))) * $v_rho_inv));
  (*1519*) Do (AddA v_jac 1 ($v_j_temp * #2.0158800000000001e+00));
  (*1520*) Do (AddA v_jac 2 ((- $v_j_temp) * #1.0079400000000001e+00));
  (*1521*) Do (Asn v_jac 9 ($v_j_temp * #1.2010999999999999e+01));
  (*1522*) Do (AddA v_jac 10 ((- $v_j_temp) * #1.3018939999999999e+01));
  (*1745*) Do (Asn v_conc_temp 0 ($v_m + #1.0 * v_conc.[0] + #5.0 * v_conc.[5] + #1.0 * v_conc.[13] + #0.5 * v_conc.[14] + #1.0 * v_conc.[15] + #2.0 * v_conc.[26] - #0.3 * v_conc.[47]));
  (*1746*) Do (Asn v_Pr 0 ($v_conc_temp * (Exp (#1.8970727080871637e+01 - #2.76 * $v_logT - #8.0515130377466016e+02 / $v_T))));
  (*1747*) Do (Asn v_Fcent 0 (#4.3799999999999994e-01 * (Exp ($v_T / #(-9.1000000000000000e+01))) + #5.6200000000000006e-01 * (Exp ($v_T / #(-5.8360000000000000e+03))) + (Exp (#(-8.5520000000000000e+03) / $v_T))));
  (*1748*) Do (Asn v_A 0 ((Log10 (Fmax $v_Pr #1.0e-300)) - #0.67 * (Log10 (Fmax $v_Fcent #1.0e-300)) - #0.4));
  (*1749*) Do (Asn v_B 0 (#0.806 - #1.1762 * (Log10 (Fmax $v_Fcent #1.0e-300)) - #0.14 * (Log10 (Fmax $v_Pr #1.0e-300))));
  (*1750*) Do (Asn v_lnF_AB 0 (#2.0 * (Log (Fmax $v_Fcent #1.0e-300)) * $v_A / ($v_B * $v_B * $v_B * (#1.0 + $v_A * $v_A / ($v_B * $v_B)) * (#1.0 + $v_A * $v_A / ($v_B * $v_B)))));
  (*1751*) Do (Asn v_j_temp 0 ((v_pres_mod.[6] * ((#(-2.7600e+00) + #8.0515130377466016e+02 / $v_T - #1.0) / ($v_T * (#1.0 + $v_Pr)) + (#1.0 / ($v_Fcent * (#1.0 + $v_A * $v_A / ($v_B * $v_B))) - $v_lnF_AB * (#(-2.9097730287517870e-01) * $v_B + #5.1081716961460466e-01 * $v_A) / $v_Fcent) * (#(-4.8131868131868127e-03) * (Exp ($v_T / #(-9.1000000000000000e+01))) - #9.6298834818368749e-05 * (Exp ($v_T / #(-5.8360000000000000e+03))) + #8.5520000000000000e+03 / ($v_T * $v_T) * (Exp (#(-8.5520000000000000e+03) / $v_T))) - $v_lnF_AB * (#4.3429448190325176e-01 * $v_B + #6.0801227466455256e-02 * $v_A) * (#(-2.7599999999999998e+00) + #8.0515130377466016e+02 / $v_T - #1.0) / $v_T) * (v_fwd_rates.[49] - v_rev_rates.[49]) + v_pres_mod.[6] / $v_T * (v_fwd_rates.[49] * #(-1.0) - v_rev_rates.[49] * ((- $v_T) * (v_dBdT.[12] - v_dBdT.[1] - v_dBdT.[10])))) * $v_rho_inv));
  (*1752*) Do (AddA v_jac 2 ((- $v_j_temp) * #1.0079400000000001e+00));
  (*1753*) Do (AddA v_jac 11 ((- $v_j_temp) * #1.4026879999999998e+01));
  (*1754*) Do (AddA v_jac 13 ($v_j_temp * #1.5034820000000000e+01));
  (*1927*) Do (Asn v_j_temp 0 (#1.0 / $v_T * (v_fwd_rates.[50] * #(-1.0) - v_rev_rates.[50] * (#(-1.0) + (- $v_T) * (v_dBdT.[0] + v_dBdT.[9] - v_dBdT.[11] - v_dBdT.[1]))) * $v_rho_inv));
  (*1928*) Do (AddA v_jac 1 ($v_j_temp * #2.0158800000000001e+00));
  (*1929*) Do (AddA v_jac 2 ((- $v_j_temp) * #1.0079400000000001e+00));
  (*1930*) Do (AddA v_jac 12 ((- $v_j_temp) * #1.4026879999999998e+01));
  (*1931*) Do (AddA v_jac 10 ($v_j_temp * #1.3018939999999999e+01));
  (*2154*) Do (AddA v_conc_temp 0 (#1.0 * v_conc.[13]));
  (*2155*) Do (Asn v_Pr 0 ($v_conc_temp * (Exp (#3.2870061872547048e+01 - #4.226 * $v_logT - #9.5813005149184551e+02 / $v_T))));
  (*2156*) Do (Asn v_Fcent 0 (#2.1699999999999997e-01 * (Exp ($v_T / #(-7.4000000000000000e+01))) + #7.8300000000000003e-01 * (Exp ($v_T / #(-2.9410000000000000e+03))) + (Exp (#(-6.9640000000000000e+03) / $v_T))));
  (*2157*) Do (Asn v_A 0 ((Log10 (Fmax $v_Pr #1.0e-300)) - #0.67 * (Log10 (Fmax $v_Fcent #1.0e-300)) - #0.4));
  (*2158*) Do (Asn v_B 0 (#0.806 - #1.1762 * (Log10 (Fmax $v_Fcent #1.0e-300)) - #0.14 * (Log10 (Fmax $v_Pr #1.0e-300))));
  (*2159*) Do (Asn v_lnF_AB 0 (#2.0 * (Log (Fmax $v_Fcent #1.0e-300)) * $v_A / ($v_B * $v_B * $v_B * (#1.0 + $v_A * $v_A / ($v_B * $v_B)) * (#1.0 + $v_A * $v_A / ($v_B * $v_B)))));
  (*2160*) Do (Asn v_j_temp 0 ((v_pres_mod.[7] * ((#(-4.2260e+00) + #9.5813005149184551e+02 / $v_T - #1.0) / ($v_T * (#1.0 + $v_Pr)) + (#1.0 / ($v_Fcent * (#1.0 + $v_A * $v_A / ($v_B * $v_B))) - $v_lnF_AB * (#(-2.9097730287517870e-01) * $v_B + #5.1081716961460466e-01 * $v_A) / $v_Fcent) * (#(-2.9324324324324319e-03) * (Exp ($v_T / #(-7.4000000000000000e+01))) - #2.6623597415844952e-04 * (Exp ($v_T / #(-2.9410000000000000e+03))) + #6.9640000000000000e+03 / ($v_T * $v_T) * (Exp (#(-6.9640000000000000e+03) / $v_T))) - $v_lnF_AB * (#4.3429448190325176e-01 * $v_B + #6.0801227466455256e-02 * $v_A) * (#(-4.2260000000000000e+00) + #9.5813005149184551e+02 / $v_T - #1.0) / $v_T) * (v_fwd_rates.[51] - v_rev_rates.[51]) + v_pres_mod.[7] / $v_T * ((v_fwd_rates.[51] - v_rev_rates.[51]) * (#(-5.3400000000000003e-01) + #2.6972568676451118e+02 / $v_T) + v_fwd_rates.[51] * #(-1.0) - v_rev_rates.[51] * ((- $v_T) * (v_dBdT.[13] - v_dBdT.[1] - v_dBdT.[12])))) * $v_rho_inv));
  (*2161*) Do (AddA v_jac 2 ((- $v_j_temp) * #1.0079400000000001e+00));
  (*2162*) Do (AddA v_jac 13 ((- $v_j_temp) * #1.5034820000000000e+01));
  (*2163*) Do (AddA v_jac 14 ($v_j_temp * #1.6042760000000001e+01));
  (*2336*) Do (Asn v_j_temp 0 (#1.0 / $v_T * ((v_fwd_rates.[52] - v_rev_rates.[52]) * (#1.6200000000000001e+00 + #5.4549000830733230e+03 / $v_T) + v_fwd_rates.[52] * #(-1.0) - v_rev_rates.[52] * (#(-1.0) + (- $v_T) * (v_dBdT.[0] + v_dBdT.[12] - v_dBdT.[1] - v_dBdT.[13]))) * $v_rho_inv));
  (*2337*) Do (AddA v_jac 1 ($v_j_temp * #2.0158800000000001e+00));
  (*2338*) Do (AddA v_jac 2 ((- $v_j_temp) * #1.0079400000000001e+00));
  (*2339*) Do (AddA v_jac 13 ($v_j_temp * #1.5034820000000000e+01));
  (*2340*) Do (AddA v_jac 14 ((- $v_j_temp) * #1.6042760000000001e+01));
  (*2563*) Do (AddA v_conc_temp 0 (#(-1.0) * v_conc.[13]));
  (*2564*) Do (Asn v_Pr 0 ($v_conc_temp * (Exp (#2.1541306291345244e+01 - #3.05 * $v_logT - #3.4470540192852638e+02 / $v_T))));
  (*2565*) Do (Asn v_Fcent 0 (#2.1760000000000002e-01 * (Exp ($v_T / #(-2.7100000000000000e+02))) + #7.8239999999999998e-01 * (Exp ($v_T / #(-2.7550000000000000e+03))) + (Exp (#(-6.5700000000000000e+03) / $v_T))));
  (*2566*) Do (Asn v_A 0 ((Log10 (Fmax $v_Pr #1.0e-300)) - #0.67 * (Log10 (Fmax $v_Fcent #1.0e-300)) - #0.4));
  (*2567*) Do (Asn v_B 0 (#0.806 - #1.1762 * (Log10 (Fmax $v_Fcent #1.0e-300)) - #0.14 * (Log10 (Fmax $v_Pr #1.0e-300))));
  (*2568*) Do (Asn v_lnF_AB 0 (#2.0 * (Log (Fmax $v_Fcent #1.0e-300)) * $v_A / ($v_B * $v_B * $v_B * (#1.0 + $v_A * $v_A / ($v_B * $v_B)) * (#1.0 + $v_A * $v_A / ($v_B * $v_B)))));
  (*2569*) Do (Asn v_j_temp 0 ((v_pres_mod.[8] * ((#(-3.0500e+00) + #3.4470540192852638e+02 / $v_T - #1.0) / ($v_T * (#1.0 + $v_Pr)) + (#1.0 / ($v_Fcent * (#1.0 + $v_A * $v_A / ($v_B * $v_B))) - $v_lnF_AB * (#(-2.9097730287517870e-01) * $v_B + #5.1081716961460466e-01 * $v_A) / $v_Fcent) * (#(-8.0295202952029529e-04) * (Exp ($v_T / #(-2.7100000000000000e+02))) - #2.8399274047186931e-04 * (Exp ($v_T / #(-2.7550000000000000e+03))) + #6.5700000000000000e+03 / ($v_T * $v_T) * (Exp (#(-6.5700000000000000e+03) / $v_T))) - $v_lnF_AB * (#4.3429448190325176e-01 * $v_B + #6.0801227466455256e-02 * $v_A) * (#(-3.0499999999999998e+00) + #3.4470540192852638e+02 / $v_T - #1.0) / $v_T) * (v_fwd_rates.[53] - v_rev_rates.[53]) + v_pres_mod.[8] / $v_T * ((v_fwd_rates.[53] - v_rev_rates.[53]) * (#4.7999999999999998e-01 + #(-1.3083708686338230e+02) / $v_T) + v_fwd_rates.[53] * #(-1.0) - v_rev_rates.[53] * ((- $v_T) * (v_dBdT.[17] - v_dBdT.[1] - v_dBdT.[16])))) * $v_rho_inv));
  (*2570*) Do (AddA v_jac 17 ((- $v_j_temp) * #2.9018339999999998e+01));
  (*2571*) Do (AddA v_jac 2 ((- $v_j_temp) * #1.0079400000000001e+00));
  (*2572*) Do (AddA v_jac 18 ($v_j_temp * #3.0026280000000000e+01));
  (*2745*) Do (Asn v_j_temp 0 (#1.0 / $v_T * (v_fwd_rates.[54] * #(-1.0) - v_rev_rates.[54] * (#(-1.0) + (- $v_T) * (v_dBdT.[0] + v_dBdT.[14] - v_dBdT.[1] - v_dBdT.[16]))) * $v_rho_inv));
  (*2746*) Do (AddA v_jac 17 ((- $v_j_temp) * #2.9018339999999998e+01));
  (*2747*) Do (AddA v_jac 2 ((- $v_j_temp) * #1.0079400000000001e+00));
  (*2748*) Do (AddA v_jac 15 ($v_j_temp * #2.8010399999999997e+01));
  (*2749*) Do (AddA v_jac 1 ($v_j_temp * #2.0158800000000001e+00));
  (*2972*) Do (AddA v_conc_temp 0 (#0.3 * v_conc.[47]));
  (*2973*) Do (Asn v_Pr 0 ($v_conc_temp * (Exp (#3.9999149620793091e+01 - #5.274 * $v_logT - #1.4744333250373465e+03 / $v_T))));
  (*2974*) Do (Asn v_Fcent 0 (#2.8129999999999999e-01 * (Exp ($v_T / #(-1.0300000000000001e+02))) + #7.1870000000000001e-01 * (Exp ($v_T / #(-1.2910000000000000e+03))) + (Exp (#(-4.1600000000000000e+03) / $v_T))));
  (*2975*) Do (Asn v_A 0 ((Log10 (Fmax $v_Pr #1.0e-300)) - #0.67 * (Log10 (Fmax $v_Fcent #1.0e-300)) - #0.4));
  (*2976*) Do (Asn v_B 0 (#0.806 - #1.1762 * (Log10 (Fmax $v_Fcent #1.0e-300)) - #0.14 * (Log10 (Fmax $v_Pr #1.0e-300))));
  (*2977*) Do (Asn v_lnF_AB 0 (#2.0 * (Log (Fmax $v_Fcent #1.0e-300)) * $v_A / ($v_B * $v_B * $v_B * (#1.0 + $v_A * $v_A / ($v_B * $v_B)) * (#1.0 + $v_A * $v_A / ($v_B * $v_B)))));
  (*2978*) Do (Asn v_j_temp 0 ((v_pres_mod.[9] * ((#(-5.2740e+00) + #1.4744333250373465e+03 / $v_T - #1.0) / ($v_T * (#1.0 + $v_Pr)) + (#1.0 / ($v_Fcent * (#1.0 + $v_A * $v_A / ($v_B * $v_B))) - $v_lnF_AB * (#(-2.9097730287517870e-01) * $v_B + #5.1081716961460466e-01 * $v_A) / $v_Fcent) * (#(-2.7310679611650479e-03) * (Exp ($v_T / #(-1.0300000000000001e+02))) - #5.5670023237800153e-04 * (Exp ($v_T / #(-1.2910000000000000e+03))) + #4.1600000000000000e+03 / ($v_T * $v_T) * (Exp (#(-4.1600000000000000e+03) / $v_T))) - $v_lnF_AB * (#4.3429448190325176e-01 * $v_B + #6.0801227466455256e-02 * $v_A) * (#(-5.2740000000000000e+00) + #1.4744333250373465e+03 / $v_T - #1.0) / $v_T) * (v_fwd_rates.[55] - v_rev_rates.[55]) + v_pres_mod.[9] / $v_T * ((v_fwd_rates.[55] - v_rev_rates.[55]) * (#4.5400000000000001e-01 + #1.8115904334929855e+03 / $v_T) + v_fwd_rates.[55] * #(-1.0) - v_rev_rates.[55] * ((- $v_T) * (v_dBdT.[18] - v_dBdT.[17] - v_dBdT.[1])))) * $v_rho_inv));
  (*2979*) Do (AddA v_jac 18 ((- $v_j_temp) * #3.0026280000000000e+01));
  (*2980*) Do (AddA v_jac 19 ($v_j_temp * #3.1034219999999998e+01));
  (*2981*) Do (AddA v_jac 2 ((- $v_j_temp) * #1.0079400000000001e+00));
  (*3154*) Do (Asn v_Pr 0 ($v_conc_temp * (Exp (#3.5943419894698771e+01 - #5.254 * $v_logT - #1.4895299119831213e+03 / $v_T))));
  (*3155*) Do (Asn v_Fcent 0 (#2.4199999999999999e-01 * (Exp ($v_T / #(-9.4000000000000000e+01))) + #7.5800000000000001e-01 * (Exp ($v_T / #(-1.5550000000000000e+03))) + (Exp (#(-4.2000000000000000e+03) / $v_T))));
  (*3156*) Do (Asn v_A 0 ((Log10 (Fmax $v_Pr #1.0e-300)) - #0.67 * (Log10 (Fmax $v_Fcent #1.0e-300)) - #0.4));
  (*3157*) Do (Asn v_B 0 (#0.806 - #1.1762 * (Log10 (Fmax $v_Fcent #1.0e-300)) - #0.14 * (Log10 (Fmax $v_Pr #1.0e-300))));
  (*3158*) Do (Asn v_lnF_AB 0 (#2.0 * (Log (Fmax $v_Fcent #1.0e-300)) * $v_A / ($v_B * $v_B * $v_B * (#1.0 + $v_A * $v_A / ($v_B * $v_B)) * (#1.0 + $v_A * $v_A / ($v_B * $v_B)))));
  (*3159*) Do (Asn v_j_temp 0 ((v_pres_mod.[10] * ((#(-5.2540e+00) + #1.4895299119831213e+03 / $v_T - #1.0) / ($v_T * (#1.0 + $v_Pr)) + (#1.0 / ($v_Fcent * (#1.0 + $v_A * $v_A / ($v_B * $v_B))) - $v_lnF_AB * (#(-2.9097730287517870e-01) * $v_B + #5.1081716961460466e-01 * $v_A) / $v_Fcent) * (#(-2.5744680851063828e-03) * (Exp ($v_T / #(-9.4000000000000000e+01))) - #4.8745980707395501e-04 * (Exp ($v_T / #(-1.5550000000000000e+03))) + #4.2000000000000000e+03 / ($v_T * $v_T) * (Exp (#(-4.2000000000000000e+03) / $v_T))) - $v_lnF_AB * (#4.3429448190325176e-01 * $v_B + #6.0801227466455256e-02 * $v_A) * (#(-5.2539999999999996e+00) + #1.4895299119831213e+03 / $v_T - #1.0) / $v_T) * (v_fwd_rates.[56] - v_rev_rates.[56]) + v_pres_mod.[10] / $v_T * ((v_fwd_rates.[56] - v_rev_rates.[56]) * (#4.5400000000000001e-01 + #1.3083708686338230e+03 / $v_T) + v_fwd_rates.[56] * #(-1.0) - v_rev_rates.[56] * ((- $v_T) * (v_dBdT.[19] - v_dBdT.[17] - v_dBdT.[1])))) * $v_rho_inv));
  (*3160*) Do (AddA v_jac 18 ((- $v_j_temp) * #3.0026280000000000e+01));
  (*3161*) Do (AddA v_jac 20 ($v_j_temp * #3.1034219999999998e+01));
  (*3162*) Do (AddA v_jac 2 ((- $v_j_temp) * #1.0079400000000001e+00));
  (*3335*) Do (Asn v_j_temp 0 (#1.0 / $v_T * ((v_fwd_rates.[57] - v_rev_rates.[57]) * (#1.8999999999999999e+00 + #1.3798280468438240e+03 / $v_T) + v_fwd_rates.[57] * #(-1.0) - v_rev_rates.[57] * (#(-1.0) + (- $v_T) * (v_dBdT.[0] + v_dBdT.[16] - v_dBdT.[17] - v_dBdT.[1]))) * $v_rho_inv));
  (*3336*) Do (AddA v_jac 1 ($v_j_temp * #2.0158800000000001e+00));
  (*3337*) Do (AddA v_jac 18 ((- $v_j_temp) * #3.0026280000000000e+01));
  (*3338*) Do (AddA v_jac 17 ($v_j_temp * #2.9018339999999998e+01));
  (*3339*) Do (AddA v_jac 2 ((- $v_j_temp) * #1.0079400000000001e+00));
  (*3562*) Do (Asn v_Pr 0 ($v_conc_temp * (Exp (#3.8260292778337643e+01 - #5.15 * $v_logT - #2.5130785069066583e+03 / $v_T))));
  (*3563*) Do (Asn v_Fcent 0 (#4.0000000000000002e-01 * (Exp ($v_T / #(-1.0000000000000000e+02))) + #5.9999999999999998e-01 * (Exp ($v_T / #(-9.0000000000000000e+04))) + (Exp (#(-1.0000000000000000e+04) / $v_T))));
  (*3564*) Do (Asn v_A 0 ((Log10 (Fmax $v_Pr #1.0e-300)) - #0.67 * (Log10 (Fmax $v_Fcent #1.0e-300)) - #0.4));
  (*3565*) Do (Asn v_B 0 (#0.806 - #1.1762 * (Log10 (Fmax $v_Fcent #1.0e-300)) - #0.14 * (Log10 (Fmax $v_Pr #1.0e-300))));
  (*3566*) Do (Asn v_lnF_AB 0 (#2.0 * (Log (Fmax $v_Fcent #1.0e-300)) * $v_A / ($v_B * $v_B * $v_B * (#1.0 + $v_A * $v_A / ($v_B * $v_B)) * (#1.0 + $v_A * $v_A / ($v_B * $v_B)))));
  (*3567*) Do (Asn v_j_temp 0 ((v_pres_mod.[11] * ((#(-5.1500e+00) + #2.5130785069066583e+03 / $v_T - #1.0) / ($v_T * (#1.0 + $v_Pr)) + (#1.0 / ($v_Fcent * (#1.0 + $v_A * $v_A / ($v_B * $v_B))) - $v_lnF_AB * (#(-2.9097730287517870e-01) * $v_B + #5.1081716961460466e-01 * $v_A) / $v_Fcent) * (#(-4.0000000000000001e-03) * (Exp ($v_T / #(-1.0000000000000000e+02))) - #6.6666666666666666e-06 * (Exp ($v_T / #(-9.0000000000000000e+04))) + #1.0000000000000000e+04 / ($v_T * $v_T) * (Exp (#(-1.0000000000000000e+04) / $v_T))) - $v_lnF_AB * (#4.3429448190325176e-01 * $v_B + #6.0801227466455256e-02 * $v_A) * (#(-5.1500000000000004e+00) + #2.5130785069066583e+03 / $v_T - #1.0) / $v_T) * (v_fwd_rates.[58] - v_rev_rates.[58]) + v_pres_mod.[11] / $v_T * ((v_fwd_rates.[58] - v_rev_rates.[58]) * (#5.0000000000000000e-01 + #4.3276882577887989e+01 / $v_T) + v_fwd_rates.[58] * #(-1.0) - v_rev_rates.[58] * ((- $v_T) * (v_dBdT.[20] - v_dBdT.[18] - v_dBdT.[1])))) * $v_rho_inv));
  (*3568*) Do (AddA v_jac 2 ((- $v_j_temp) * #1.0079400000000001e+00));
  (*3569*) Do (AddA v_jac 19 ((- $v_j_temp) * #3.1034219999999998e+01));
  (*3570*) Do (AddA v_jac 21 ($v_j_temp * #3.2042159999999996e+01));
  (*3743*) Do (Asn v_j_temp 0 (#1.0 / $v_T * (v_fwd_rates.[59] * #(-1.0) - v_rev_rates.[59] * (#(-1.0) + (- $v_T) * (v_dBdT.[17] + v_dBdT.[0] - v_dBdT.[18] - v_dBdT.[1]))) * $v_rho_inv));
  (*3744*) Do (AddA v_jac 1 ($v_j_temp * #2.0158800000000001e+00));
  (*3745*) Do (AddA v_jac 2 ((- $v_j_temp) * #1.0079400000000001e+00));
  (*3746*) Do (AddA v_jac 19 ((- $v_j_temp) * #3.1034219999999998e+01));
  (*3747*) Do (AddA v_jac 18 ($v_j_temp * #3.0026280000000000e+01));
  (*3970*) Do (Asn v_j_temp 0 (#1.0 / $v_T * ((v_fwd_rates.[60] - v_rev_rates.[60]) * (#6.5000000000000002e-01 + #(-1.4291435642000218e+02) / $v_T) + v_fwd_rates.[60] * #(-1.0) - v_rev_rates.[60] * (#(-1.0) + (- $v_T) * (v_dBdT.[12] + v_dBdT.[4] - v_dBdT.[18] - v_dBdT.[1]))) * $v_rho_inv));
  (*3971*) Do (AddA v_jac 2 ((- $v_j_temp) * #1.0079400000000001e+00));
  (*3972*) Do (AddA v_jac 19 ((- $v_j_temp) * #3.1034219999999998e+01));
  (*3973*) Do (AddA v_jac 13 ($v_j_temp * #1.5034820000000000e+01));
  (*3974*) Do (AddA v_jac 5 ($v_j_temp * #1.7007339999999999e+01));
  (*4197*) Do (Asn v_j_temp 0 (#1.0 / $v_T * ((v_fwd_rates.[61] - v_rev_rates.[61]) * (#(-8.9999999999999997e-02) + #3.0696393456408919e+02 / $v_T) + v_fwd_rates.[61] * #(-1.0) - v_rev_rates.[61] * (#(-1.0) + (- $v_T) * (v_dBdT.[11] + v_dBdT.[5] - v_dBdT.[18] - v_dBdT.[1]))) * $v_rho_inv));
  (*4198*) Do (AddA v_jac 2 ((- $v_j_temp) * #1.0079400000000001e+00));
  (*4199*) Do (AddA v_jac 19 ((- $v_j_temp) * #3.1034219999999998e+01));
  (*4200*) Do (AddA v_jac 12 ($v_j_temp * #1.4026879999999998e+01));
  (*4201*) Do (AddA v_jac 6 ($v_j_temp * #1.8015280000000001e+01));
  (*4424*) Do (Asn v_Pr 0 ($v_conc_temp * (Exp (#6.0518336608630285e+01 - #7.955 * $v_logT - #7.0601704949740524e+03 / $v_T))));
  (*4425*) Do (Asn v_Fcent 0 (#3.0000000000000004e-01 * (Exp ($v_T / #(-1.0000000000000000e+02))) + #6.9999999999999996e-01 * (Exp ($v_T / #(-9.0000000000000000e+04))) + (Exp (#(-1.0000000000000000e+04) / $v_T))));
  (*4426*) Do (Asn v_A 0 ((Log10 (Fmax $v_Pr #1.0e-300)) - #0.67 * (Log10 (Fmax $v_Fcent #1.0e-300)) - #0.4));
  (*4427*) Do (Asn v_B 0 (#0.806 - #1.1762 * (Log10 (Fmax $v_Fcent #1.0e-300)) - #0.14 * (Log10 (Fmax $v_Pr #1.0e-300))));
  (*4428*) Do (Asn v_lnF_AB 0 (#2.0 * (Log (Fmax $v_Fcent #1.0e-300)) * $v_A / ($v_B * $v_B * $v_B * (#1.0 + $v_A * $v_A / ($v_B * $v_B)) * (#1.0 + $v_A * $v_A / ($v_B * $v_B)))));
  (*4429*) Do (Asn v_j_temp 0 ((v_pres_mod.[12] * ((#(-7.9550e+00) + #7.0601704949740524e+03 / $v_T - #1.0) / ($v_T * (#1.0 + $v_Pr)) + (#1.0 / ($v_Fcent * (#1.0 + $v_A * $v_A / ($v_B * $v_B))) - $v_lnF_AB * (#(-2.9097730287517870e-01) * $v_B + #5.1081716961460466e-01 * $v_A) / $v_Fcent) * (#(-3.0000000000000005e-03) * (Exp ($v_T / #(-1.0000000000000000e+02))) - #7.7777777777777775e-06 * (Exp ($v_T / #(-9.0000000000000000e+04))) + #1.0000000000000000e+04 / ($v_T * $v_T) * (Exp (#(-1.0000000000000000e+04) / $v_T))) - $v_lnF_AB * (#4.3429448190325176e-01 * $v_B + #6.0801227466455256e-02 * $v_A) * (#(-7.9550000000000001e+00) + #7.0601704949740524e+03 / $v_T - #1.0) / $v_T) * (v_fwd_rates.[62] - v_rev_rates.[62]) + v_pres_mod.[12] / $v_T * ((v_fwd_rates.[62] - v_rev_rates.[62]) * (#5.1500000000000001e-01 + #2.5160978242958130e+01 / $v_T) + v_fwd_rates.[62] * #(-1.0) - v_rev_rates.[62] * ((- $v_T) * (v_dBdT.[20] - v_dBdT.[1] - v_dBdT.[19])))) * $v_rho_inv));
  (*4430*) Do (AddA v_jac 2 ((- $v_j_temp) * #1.0079400000000001e+00));
  (*4431*) Do (AddA v_jac 20 ((- $v_j_temp) * #3.1034219999999998e+01));
  (*4432*) Do (AddA v_jac 21 ($v_j_temp * #3.2042159999999996e+01));
  (*4605*) Do (Asn v_j_temp 0 (#1.0 / $v_T * ((v_fwd_rates.[63] - v_rev_rates.[63]) * (#1.6299999999999999e+00 + #9.6819444278902893e+02 / $v_T) + v_fwd_rates.[63] * #(-1.0) - v_rev_rates.[63] * (#(-1.0) + (- $v_T) * (v_dBdT.[18] - v_dBdT.[19]))) * $v_rho_inv));
  (*4606*) Do (AddA v_jac 19 ($v_j_temp * #3.1034219999999998e+01));
  (*4607*) Do (AddA v_jac 20 ((- $v_j_temp) * #3.1034219999999998e+01));
  (*4726*) Do (Asn v_j_temp 0 (#1.0 / $v_T * (v_fwd_rates.[64] * #(-1.0) - v_rev_rates.[64] * (#(-1.0) + (- $v_T) * (v_dBdT.[17] + v_dBdT.[0] - v_dBdT.[1] - v_dBdT.[19]))) * $v_rho_inv));
  (*4727*) Do (AddA v_jac 1 ($v_j_temp * #2.0158800000000001e+00));
  (*4728*) Do (AddA v_jac 2 ((- $v_j_temp) * #1.0079400000000001e+00));
  (*4729*) Do (AddA v_jac 20 ((- $v_j_temp) * #3.1034219999999998e+01));
  (*4730*) Do (AddA v_jac 18 ($v_j_temp * #3.0026280000000000e+01));
  (*4953*) Do (Asn v_j_temp 0 (#1.0 / $v_T * ((v_fwd_rates.[65] - v_rev_rates.[65]) * (#5.0000000000000000e-01 + #(-5.5354152134507892e+01) / $v_T) + v_fwd_rates.[65] * #(-1.0) - v_rev_rates.[65] * (#(-1.0) + (- $v_T) * (v_dBdT.[12] + v_dBdT.[4] - v_dBdT.[1] - v_dBdT.[19]))) * $v_rho_inv));
  (*4954*) Do (AddA v_jac 2 ((- $v_j_temp) * #1.0079400000000001e+00));
  (*4955*) Do (AddA v_jac 20 ((- $v_j_temp) * #3.1034219999999998e+01));
  (*4956*) Do (AddA v_jac 13 ($v_j_temp * #1.5034820000000000e+01));
  (*4957*) Do (AddA v_jac 5 ($v_j_temp * #1.7007339999999999e+01));
  (*5180*) Do (Asn v_j_temp 0 (#1.0 / $v_T * ((v_fwd_rates.[66] - v_rev_rates.[66]) * (#(-2.3000000000000001e-01) + #5.3844493439930397e+02 / $v_T) + v_fwd_rates.[66] * #(-1.0) - v_rev_rates.[66] * (#(-1.0) + (- $v_T) * (v_dBdT.[11] + v_dBdT.[5] - v_dBdT.[1] - v_dBdT.[19]))) * $v_rho_inv));
  (*5181*) Do (AddA v_jac 12 ($v_j_temp * #1.4026879999999998e+01));
  (*5182*) Do (AddA v_jac 2 ((- $v_j_temp) * #1.0079400000000001e+00));
  (*5183*) Do (AddA v_jac 20 ((- $v_j_temp) * #3.1034219999999998e+01));
  (*5184*) Do (AddA v_jac 6 ($v_j_temp * #1.8015280000000001e+01));
  (*5407*) Do (Asn v_j_temp 0 (#1.0 / $v_T * ((v_fwd_rates.[67] - v_rev_rates.[67]) * (#2.1000000000000001e+00 + #2.4506792808641221e+03 / $v_T) + v_fwd_rates.[67] * #(-1.0) - v_rev_rates.[67] * (#(-1.0) + (- $v_T) * (v_dBdT.[0] + v_dBdT.[18] - v_dBdT.[20] - v_dBdT.[1]))) * $v_rho_inv));
  (*5408*) Do (AddA v_jac 1 ($v_j_temp * #2.0158800000000001e+00));
  (*5409*) Do (AddA v_jac 2 ((- $v_j_temp) * #1.0079400000000001e+00));
  (*5410*) Do (AddA v_jac 19 ($v_j_temp * #3.1034219999999998e+01));
  (*5411*) Do (AddA v_jac 21 ((- $v_j_temp) * #3.2042159999999996e+01));
  (*5634*) Do (Asn v_j_temp 0 (#1.0 / $v_T * ((v_fwd_rates.[68] - v_rev_rates.[68]) * (#2.1000000000000001e+00 + #2.4506792808641221e+03 / $v_T) + v_fwd_rates.[68] * #(-1.0) - v_rev_rates.[68] * (#(-1.0) + (- $v_T) * (v_dBdT.[0] + v_dBdT.[19] - v_dBdT.[20] - v_dBdT.[1]))) * $v_rho_inv));
  (*5635*) Do (AddA v_jac 1 ($v_j_temp * #2.0158800000000001e+00));
  (*5636*) Do (AddA v_jac 2 ((- $v_j_temp) * #1.0079400000000001e+00));
  (*5637*) Do (AddA v_jac 20 ($v_j_temp * #3.1034219999999998e+01));
  (*5638*) Do (AddA v_jac 21 ((- $v_j_temp) * #3.2042159999999996e+01));
  (*5861*) Do (AddA v_conc_temp 0 (#(-0.3) * v_conc.[47]));
  (*5862*) Do (Asn v_Pr 0 ($v_conc_temp * (Exp (#3.1255362048904914e+01 - #3.8 * $v_logT - #9.5611717323240896e+02 / $v_T))));
  (*5863*) Do (Asn v_Fcent 0 (#3.5360000000000003e-01 * (Exp ($v_T / #(-1.3200000000000000e+02))) + #6.4639999999999997e-01 * (Exp ($v_T / #(-1.3150000000000000e+03))) + (Exp (#(-5.5660000000000000e+03) / $v_T))));
  (*5864*) Do (Asn v_A 0 ((Log10 (Fmax $v_Pr #1.0e-300)) - #0.67 * (Log10 (Fmax $v_Fcent #1.0e-300)) - #0.4));
  (*5865*) Do (Asn v_B 0 (#0.806 - #1.1762 * (Log10 (Fmax $v_Fcent #1.0e-300)) - #0.14 * (Log10 (Fmax $v_Pr #1.0e-300))));
  (*5866*) Do (Asn v_lnF_AB 0 (#2.0 * (Log (Fmax $v_Fcent #1.0e-300)) * $v_A / ($v_B * $v_B * $v_B * (#1.0 + $v_A * $v_A / ($v_B * $v_B)) * (#1.0 + $v_A * $v_A / ($v_B * $v_B)))));
  (*5867*) Do (Asn v_j_temp 0 ((v_pres_mod.[13] * ((#(-3.8000e+00) + #9.5611717323240896e+02 / $v_T - #1.0) / ($v_T * (#1.0 + $v_Pr)) + (#1.0 / ($v_Fcent * (#1.0 + $v_A * $v_A / ($v_B * $v_B))) - $v_lnF_AB * (#(-2.9097730287517870e-01) * $v_B + #5.1081716961460466e-01 * $v_A) / $v_Fcent) * (#(-2.6787878787878790e-03) * (Exp ($v_T / #(-1.3200000000000000e+02))) - #4.9155893536121666e-04 * (Exp ($v_T / #(-1.3150000000000000e+03))) + #5.5660000000000000e+03 / ($v_T * $v_T) * (Exp (#(-5.5660000000000000e+03) / $v_T))) - $v_lnF_AB * (#4.3429448190325176e-01 * $v_B + #6.0801227466455256e-02 * $v_A) * (#(-3.7999999999999998e+00) + #9.5611717323240896e+02 / $v_T - #1.0) / $v_T) * (v_fwd_rates.[69] - v_rev_rates.[69]) + v_pres_mod.[13] / $v_T * ((v_fwd_rates.[69] - v_rev_rates.[69]) * #(-1.0000000000000000e+00) + v_fwd_rates.[69] * #(-1.0) - v_rev_rates.[69] * ((- $v_T) * (v_dBdT.[22] - v_dBdT.[1] - v_dBdT.[21])))) * $v_rho_inv));
  (*5868*) Do (AddA v_jac 2 ((- $v_j_temp) * #1.0079400000000001e+00));
  (*5869*) Do (AddA v_jac 22 ((- $v_j_temp) * #2.5029940000000000e+01));
  (*5870*) Do (AddA v_jac 23 ($v_j_temp * #2.6037879999999998e+01));
  (*6043*) Do (Asn v_Pr 0 ($v_conc_temp * (Exp (#5.7176861793842377e+01 - #7.27 * $v_logT - #2.4255183026211639e+03 / $v_T))));
  (*6044*) Do (Asn v_Fcent 0 (#2.4929999999999997e-01 * (Exp ($v_T / #(-9.8500000000000014e+01))) + #7.5070000000000003e-01 * (Exp ($v_T / #(-1.3020000000000000e+03))) + (Exp (#(-4.1670000000000000e+03) / $v_T))));
  (*6045*) Do (Asn v_A 0 ((Log10 (Fmax $v_Pr #1.0e-300)) - #0.67 * (Log10 (Fmax $v_Fcent #1.0e-300)) - #0.4));
  (*6046*) Do (Asn v_B 0 (#0.806 - #1.1762 * (Log10 (Fmax $v_Fcent #1.0e-300)) - #0.14 * (Log10 (Fmax $v_Pr #1.0e-300))));
  (*6047*) Do (Asn v_lnF_AB 0 (#2.0 * (Log (Fmax $v_Fcent #1.0e-300)) * $v_A / ($v_B * $v_B * $v_B * (#1.0 + $v_A * $v_A / ($v_B * $v_B)) * (#1.0 + $v_A * $v_A / ($v_B * $v_B)))));
  (*6048*) Do (Asn v_j_temp 0 ((v_pres_mod.[14] * ((#(-7.2700e+00) + #2.4255183026211639e+03 / $v_T - #1.0) / ($v_T * (#1.0 + $v_Pr)) + (#1.0 / ($v_Fcent * (#1.0 + $v_A * $v_A / ($v_B * $v_B))) - $v_lnF_AB * (#(-2.9097730287517870e-01) * $v_B + #5.1081716961460466e-01 * $v_A) / $v_Fcent) * (#(-2.5309644670050754e-03) * (Exp ($v_T / #(-9.8500000000000014e+01))) - #5.7657450076804915e-04 * (Exp ($v_T / #(-1.3020000000000000e+03))) + #4.1670000000000000e+03 / ($v_T * $v_T) * (Exp (#(-4.1670000000000000e+03) / $v_T))) - $v_lnF_AB * (#4.3429448190325176e-01 * $v_B + #6.0801227466455256e-02 * $v_A) * (#(-7.2699999999999996e+00) + #2.4255183026211639e+03 / $v_T - #1.0) / $v_T) * (v_fwd_rates.[70] - v_rev_rates.[70]) + v_pres_mod.[14] / $v_T * ((v_fwd_rates.[70] - v_rev_rates.[70]) * (#1.2077269556619904e+03 / $v_T) + v_fwd_rates.[70] * #(-1.0) - v_rev_rates.[70] * ((- $v_T) * (v_dBdT.[23] - v_dBdT.[1] - v_dBdT.[22])))) * $v_rho_inv));
  (*6049*) Do (AddA v_jac 2 ((- $v_j_temp) * #1.0079400000000001e+00));
  (*6050*) Do (AddA v_jac 23 ((- $v_j_temp) * #2.6037879999999998e+01));
  (*6051*) Do (AddA v_jac 24 ($v_j_temp * #2.7045819999999999e+01));
  (*6224*) Do (Asn v_Pr 0 ($v_conc_temp * (Exp (#3.3070243935553826e+01 - #4.13 * $v_logT - #1.5297874771718543e+03 / $v_T))));
  (*6225*) Do (Asn v_Fcent 0 (#2.1799999999999997e-01 * (Exp ($v_T / #(-2.0749999999999997e+02))) + #7.8200000000000003e-01 * (Exp ($v_T / #(-2.6630000000000000e+03))) + (Exp (#(-6.0950000000000000e+03) / $v_T))));
  (*6226*) Do (Asn v_A 0 ((Log10 (Fmax $v_Pr #1.0e-300)) - #0.67 * (Log10 (Fmax $v_Fcent #1.0e-300)) - #0.4));
  (*6227*) Do (Asn v_B 0 (#0.806 - #1.1762 * (Log10 (Fmax $v_Fcent #1.0e-300)) - #0.14 * (Log10 (Fmax $v_Pr #1.0e-300))));
  (*6228*) Do (Asn v_lnF_AB 0 (#2.0 * (Log (Fmax $v_Fcent #1.0e-300)) * $v_A / ($v_B * $v_B * $v_B * (#1.0 + $v_A * $v_A / ($v_B * $v_B)) * (#1.0 + $v_A * $v_A / ($v_B * $v_B)))));
  (*6229*) Do (Asn v_j_temp 0 ((v_pres_mod.[15] * ((#(-4.1300e+00) + #1.5297874771718543e+03 / $v_T - #1.0) / ($v_T * (#1.0 + $v_Pr)) + (#1.0 / ($v_Fcent * (#1.0 + $v_A * $v_A / ($v_B * $v_B))) - $v_lnF_AB * (#(-2.9097730287517870e-01) * $v_B + #5.1081716961460466e-01 * $v_A) / $v_Fcent) * (#(-1.0506024096385543e-03) * (Exp ($v_T / #(-2.0749999999999997e+02))) - #2.9365377393916639e-04 * (Exp ($v_T / #(-2.6630000000000000e+03))) + #6.0950000000000000e+03 / ($v_T * $v_T) * (Exp (#(-6.0950000000000000e+03) / $v_T))) - $v_lnF_AB * (#4.3429448190325176e-01 * $v_B + #6.0801227466455256e-02 * $v_A) * (#(-4.1299999999999999e+00) + #1.5297874771718543e+03 / $v_T - #1.0) / $v_T) * (v_fwd_rates.[71] - v_rev_rates.[71]) + v_pres_mod.[15] / $v_T * ((v_fwd_rates.[71] - v_rev_rates.[71]) * (#2.7000000000000002e-01 + #1.4090147816056555e+02 / $v_T) + v_fwd_rates.[71] * #(-1.0) - v_rev_rates.[71] * ((- $v_T) * (v_dBdT.[24] - v_dBdT.[1] - v_dBdT.[23])))) * $v_rho_inv));
  (*6230*) Do (AddA v_jac 25 ($v_j_temp * #2.8053759999999997e+01));
  (*6231*) Do (AddA v_jac 2 ((- $v_j_temp) * #1.0079400000000001e+00));
  (*6232*) Do (AddA v_jac 24 ((- $v_j_temp) * #2.7045819999999999e+01));
  (*6405*) Do (Asn v_j_temp 0 (#1.0 / $v_T * (v_fwd_rates.[72] * #(-1.0) - v_rev_rates.[72] * (#(-1.0) + (- $v_T) * (v_dBdT.[0] + v_dBdT.[22] - v_dBdT.[1] - v_dBdT.[23]))) * $v_rho_inv));
  (*6406*) Do (AddA v_jac 1 ($v_j_temp * #2.0158800000000001e+00));
  (*6407*) Do (AddA v_jac 2 ((- $v_j_temp) * #1.0079400000000001e+00));
  (*6408*) Do (AddA v_jac 23 ($v_j_temp * #2.6037879999999998e+01));
  (*6409*) Do (AddA v_jac 24 ((- $v_j_temp) * #2.7045819999999999e+01));
  (*6632*) Do (Asn v_Pr 0 ($v_conc_temp * (Exp (#6.2275158026497060e+01 - #8.074 * $v_logT - #2.5915807590246877e+03 / $v_T))));
  (*6633*) Do (Asn v_Fcent 0 (#2.4700000000000055e-02 * (Exp ($v_T / #(-2.0999999999999997e+02))) + #9.7529999999999994e-01 * (Exp ($v_T / #(-9.8399999999999989e+02))) + (Exp (#(-4.3740000000000000e+03) / $v_T))));
  (*6634*) Do (Asn v_A 0 ((Log10 (Fmax $v_Pr #1.0e-300)) - #0.67 * (Log10 (Fmax $v_Fcent #1.0e-300)) - #0.4));
  (*6635*) Do (Asn v_B 0 (#0.806 - #1.1762 * (Log10 (Fmax $v_Fcent #1.0e-300)) - #0.14 * (Log10 (Fmax $v_Pr #1.0e-300))));
  (*6636*) Do (Asn v_lnF_AB 0 (#2.0 * (Log (Fmax $v_Fcent #1.0e-300)) * $v_A / ($v_B * $v_B * $v_B * (#1.0 + $v_A * $v_A / ($v_B * $v_B)) * (#1.0 + $v_A * $v_A / ($v_B * $v_B)))));
  (*6637*) Do (Asn v_j_temp 0 ((v_pres_mod.[16] * ((#(-8.0740e+00) + #2.5915807590246877e+03 / $v_T - #1.0) / ($v_T * (#1.0 + $v_Pr)) + (#1.0 / ($v_Fcent * (#1.0 + $v_A * $v_A / ($v_B * $v_B))) - $v_lnF_AB * (#(-2.9097730287517870e-01) * $v_B + #5.1081716961460466e-01 * $v_A) / $v_Fcent) * (#(-1.1761904761904789e-04) * (Exp ($v_T / #(-2.0999999999999997e+02))) - #9.9115853658536600e-04 * (Exp ($v_T / #(-9.8399999999999989e+02))) + #4.3740000000000000e+03 / ($v_T * $v_T) * (Exp (#(-4.3740000000000000e+03) / $v_T))) - $v_lnF_AB * (#4.3429448190325176e-01 * $v_B + #6.0801227466455256e-02 * $v_A) * (#(-8.0739999999999998e+00) + #2.5915807590246877e+03 / $v_T - #1.0) / $v_T) * (v_fwd_rates.[73] - v_rev_rates.[73]) + v_pres_mod.[16] / $v_T * ((v_fwd_rates.[73] - v_rev_rates.[73]) * (#4.5400000000000001e-01 + #9.1585960804367608e+02 / $v_T) + v_fwd_rates.[73] * #(-1.0) - v_rev_rates.[73] * ((- $v_T) * (v_dBdT.[25] - v_dBdT.[1] - v_dBdT.[24])))) * $v_rho_inv));
  (*6638*) Do (AddA v_jac 25 ((- $v_j_temp) * #2.8053759999999997e+01));
  (*6639*) Do (AddA v_jac 2 ((- $v_j_temp) * #1.0079400000000001e+00));
  (*6640*) Do (AddA v_jac 26 ($v_j_temp * #2.9061699999999998e+01));
  (*6813*) Do (Asn v_j_temp 0 (#1.0 / $v_T * ((v_fwd_rates.[74] - v_rev_rates.[74]) * (#2.5299999999999998e+00 + #6.1594074738761510e+03 / $v_T) + v_fwd_rates.[74] * #(-1.0) - v_rev_rates.[74] * (#(-1.0) + (- $v_T) * (v_dBdT.[0] + v_dBdT.[23] - v_dBdT.[1] - v_dBdT.[24]))) * $v_rho_inv));
  (*6814*) Do (AddA v_jac 25 ((- $v_j_temp) * #2.8053759999999997e+01));
  (*6815*) Do (AddA v_jac 2 ((- $v_j_temp) * #1.0079400000000001e+00));
  (*6816*) Do (AddA v_jac 1 ($v_j_temp * #2.0158800000000001e+00));
  (*6817*) Do (AddA v_jac 24 ($v_j_temp * #2.7045819999999999e+01));
  (*7040*) Do (Asn v_Pr 0 ($v_conc_temp * (Exp (#4.7391841735846086e+01 - #6.09 * $v_logT - #2.5689358786060257e+03 / $v_T))));
  (*7041*) Do (Asn v_Fcent 0 (#1.5780000000000005e-01 * (Exp ($v_T / #(-1.2500000000000000e+02))) + #8.4219999999999995e-01 * (Exp ($v_T / #(-2.2190000000000000e+03))) + (Exp (#(-6.8820000000000000e+03) / $v_T))));
  (*7042*) Do (Asn v_A 0 ((Log10 (Fmax $v_Pr #1.0e-300)) - #0.67 * (Log10 (Fmax $v_Fcent #1.0e-300)) - #0.4));
  (*7043*) Do (Asn v_B 0 (#0.806 - #1.1762 * (Log10 (Fmax $v_Fcent #1.0e-300)) - #0.14 * (Log10 (Fmax $v_Pr #1.0e-300))));
  (*7044*) Do (Asn v_lnF_AB 0 (#2.0 * (Log (Fmax $v_Fcent #1.0e-300)) * $v_A / ($v_B * $v_B * $v_B * (#1.0 + $v_A * $v_A / ($v_B * $v_B)) * (#1.0 + $v_A * $v_A / ($v_B * $v_B)))));
  (*7045*) Do (Asn v_j_temp 0 ((v_pres_mod.[17] * ((#(-6.0900e+00) + #2.5689358786060257e+03 / $v_T - #1.0) / ($v_T * (#1.0 + $v_Pr)) + (#1.0 / ($v_Fcent * (#1.0 + $v_A * $v_A / ($v_B * $v_B))) - $v_lnF_AB * (#(-2.9097730287517870e-01) * $v_B + #5.1081716961460466e-01 * $v_A) / $v_Fcent) * (#(-1.2624000000000003e-03) * (Exp ($v_T / #(-1.2500000000000000e+02))) - #3.7954033348355115e-04 * (Exp ($v_T / #(-2.2190000000000000e+03))) + #6.8820000000000000e+03 / ($v_T * $v_T) * (Exp (#(-6.8820000000000000e+03) / $v_T))) - $v_lnF_AB * (#4.3429448190325176e-01 * $v_B + #6.0801227466455256e-02 * $v_A) * (#(-6.0899999999999999e+00) + #2.5689358786060257e+03 / $v_T - #1.0) / $v_T) * (v_fwd_rates.[75] - v_rev_rates.[75]) + v_pres_mod.[17] / $v_T * ((v_fwd_rates.[75] - v_rev_rates.[75]) * (#(-9.8999999999999999e-01) + #7.9508691247747697e+02 / $v_T) + v_fwd_rates.[75] * #(-1.0) - v_rev_rates.[75] * ((- $v_T) * (v_dBdT.[26] - v_dBdT.[1] - v_dBdT.[25])))) * $v_rho_inv));
  (*7046*) Do (AddA v_jac 2 ((- $v_j_temp) * #1.0079400000000001e+00));
  (*7047*) Do (AddA v_jac 27 ($v_j_temp * #3.0069640000000000e+01));
  (*7048*) Do (AddA v_jac 26 ((- $v_j_temp) * #2.9061699999999998e+01));
  (*7221*) Do (Asn v_j_temp 0 (#1.0 / $v_T * (v_fwd_rates.[76] * #(-1.0) - v_rev_rates.[76] * (#(-1.0) + (- $v_T) * (v_dBdT.[0] + v_dBdT.[24] - v_dBdT.[1] - v_dBdT.[25]))) * $v_rho_inv));
  (*7222*) Do (AddA v_jac 1 ($v_j_temp * #2.0158800000000001e+00));
  (*7223*) Do (AddA v_jac 2 ((- $v_j_temp) * #1.0079400000000001e+00));
  (*7224*) Do (AddA v_jac 25 ($v_j_temp * #2.8053759999999997e+01));
  (*7225*) Do (AddA v_jac 26 ((- $v_j_temp) * #2.9061699999999998e+01));
  (*7448*) Do (Asn v_j_temp 0 (#1.0 / $v_T * ((v_fwd_rates.[77] - v_rev_rates.[77]) * (#1.8999999999999999e+00 + #3.7892433233894944e+03 / $v_T) + v_fwd_rates.[77] * #(-1.0) - v_rev_rates.[77] * (#(-1.0) + (- $v_T) * (v_dBdT.[0] + v_dBdT.[25] - v_dBdT.[26] - v_dBdT.[1]))) * $v_rho_inv));
  (*7449*) Do (AddA v_jac 1 ($v_j_temp * #2.0158800000000001e+00));
  (*7450*) Do (AddA v_jac 2 ((- $v_j_temp) * #1.0079400000000001e+00));
  (*7451*) Do (AddA v_jac 27 ((- $v_j_temp) * #3.0069640000000000e+01));
  (*7452*) Do (AddA v_jac 26 ($v_j_temp * #2.9061699999999998e+01));
  (*7675*) Do (Asn v_j_temp 0 (#1.0 / $v_T * (v_fwd_rates.[78] * #(-1.0) - v_rev_rates.[78] * (#(-1.0) + (- $v_T) * (v_dBdT.[11] + v_dBdT.[14] - v_dBdT.[1] - v_dBdT.[27]))) * $v_rho_inv));
  (*7676*) Do (AddA v_jac 12 ($v_j_temp * #1.4026879999999998e+01));
  (*7677*) Do (AddA v_jac 2 ((- $v_j_temp) * #1.0079400000000001e+00));
  (*7678*) Do (AddA v_jac 28 ((- $v_j_temp) * #4.1029339999999998e+01));
  (*7679*) Do (AddA v_jac 15 ($v_j_temp * #2.8010399999999997e+01));
  (*7902*) Do (Asn v_j_temp 0 (#1.0 / $v_T * ((v_fwd_rates.[79] - v_rev_rates.[79]) * (#4.0257565188733010e+03 / $v_T) + v_fwd_rates.[79] * #(-1.0) - v_rev_rates.[79] * (#(-1.0) + (- $v_T) * (v_dBdT.[0] + v_dBdT.[27] - v_dBdT.[1] - v_dBdT.[28]))) * $v_rho_inv));
  (*7903*) Do (AddA v_jac 1 ($v_j_temp * #2.0158800000000001e+00));
  (*7904*) Do (AddA v_jac 2 ((- $v_j_temp) * #1.0079400000000001e+00));
  (*7905*) Do (AddA v_jac 28 ($v_j_temp * #4.1029339999999998e+01));
  (*7906*) Do (AddA v_jac 29 ((- $v_j_temp) * #4.2037279999999996e+01))].

(** [eval_jacob_2], gri30/lib/src/jacobs/jacob_2.c:4-8644: the declarations and the blocks "partial of
    rxn ... wrt T" (the blocks "wrt species" write other elements of [jac]). *)
Definition gri30_jac_T2 : list stmt := [
  (*6*) Do (Asn v_logT 0 ((Log $v_T)));
  (*7*) Do (Asn v_kf 0 (#0.0));
  (*8*) Do (Asn v_j_temp 0 (#0.0));
  (*9*) Do (Asn v_pres_mod_temp 0 (#0.0));
  (*10*) Do (Asn v_Kc 0 (#0.0));
  (*11*) Do (Asn v_kr 0 (#0.0));
  (*12*) Do (Asn v_Pr 0 (#0.0));
  (*13*) Do (Asn v_Fcent 0 (#0.0));
  (*14*) Do (Asn v_A 0 (#0.0));
  (*15*) Do (Asn v_B 0 (#0.0));
  (*16*) Do (Asn v_lnF_AB 0 (#0.0));
  (*17*) Do (Asn v_rho_inv 0 (#1.0 / $v_rho));
  (*19*) Do (Asn v_j_temp 0 (#1.0 / $v_T * ((v_fwd_rates.[80] - v_rev_rates.[80]) * (#1.7250366683372094e+03 / $v_T) + v_fwd_rates.[80] * #(-1.0) - v_rev_rates.[80] * (#(-1.0) + (- $v_T) * (v_dBdT.[12] + v_dBdT.[14] - v_dBdT.[1] - v_dBdT.[28]))) * $v_rho_inv));
  (*20*) Do (AddA v_jac 2 ((- $v_j_temp) * #1.0079400000000001e+00));
  (*21*) Do (AddA v_jac 29 ((- $v_j_temp) * #4.2037279999999996e+01));
  (*22*) Do (AddA v_jac 15 ($v_j_temp * #2.8010399999999997e+01));
  (*23*) Do (AddA v_jac 13 ($v_j_temp * #1.5034820000000000e+01));
  (*246*) Do (Asn v_j_temp 0 (#1.0 / $v_T * (v_fwd_rates.[81] * #(-1.0) - v_rev_rates.[81] * (#(-1.0) + (- $v_T) * (v_dBdT.[28] - v_dBdT.[29]))) * $v_rho_inv));
  (*247*) Do (AddA v_jac 29 ($v_j_temp * #4.2037279999999996e+01));
  (*248*) Do (Asn v_jac 30 ((- $v_j_temp) * #4.2037279999999996e+01));
  (*367*) Do (Asn v_conc_temp 0 ($v_m + #1.0 * v_conc.[0] + #5.0 * v_conc.[5] + #1.0 * v_conc.[13] + #0.5 * v_conc.[14] + #1.0 * v_conc.[15] + #2.0 * v_conc.[26] - #0.3 * v_conc.[47]));
  (*368*) Do (Asn v_Pr 0 ($v_conc_temp * (Exp (#3.9308672375802352e+01 - #4.92 * $v_logT - #2.3902929330810221e+03 / $v_T))));
  (*369*) Do (Asn v_Fcent 0 (#6.7999999999999949e-02 * (Exp ($v_T / #(-1.9700000000000003e+02))) + #9.3200000000000005e-01 * (Exp ($v_T / #(-1.5400000000000000e+03))) + (Exp (#(-1.0300000000000000e+04) / $v_T))));
  (*370*) Do (Asn v_A 0 ((Log10 (Fmax $v_Pr #1.0e-300)) - #0.67 * (Log10 (Fmax $v_Fcent #1.0e-300)) - #0.4));
  (*371*) Do (Asn v_B 0 (#0.806 - #1.1762 * (Log10 (Fmax $v_Fcent #1.0e-300)) - #0.14 * (Log10 (Fmax $v_Pr #1.0e-300))));
  (*372*) Do (Asn v_lnF_AB 0 (#2.0 * (Log (Fmax $v_Fcent #1.0e-300)) * $v_A / ($v_B * $v_B * $v_B * (#1.0 + $v_A * $v_A / ($v_B * $v_B)) * (#1.0 + $v_A * $v_A / ($v_B * $v_B)))));
  (*373*) Do (Asn v_j_temp 0 ((v_pres_mod.[18] * ((#(-4.9200e+00) + #2.3902929330810221e+03 / $v_T - #1.0) / ($v_T * (#1.0 + $v_Pr)) + (#1.0 / ($v_Fcent * (#1.0 + $v_A * $v_A / ($v_B * $v_B))) - $v_lnF_AB * (#(-2.9097730287517870e-01) * $v_B + #5.1081716961460466e-01 * $v_A) / $v_Fcent) * (#(-3.4517766497461899e-04) * (Exp ($v_T / #(-1.9700000000000003e+02))) - #6.0519480519480523e-04 * (Exp ($v_T / #(-1.5400000000000000e+03))) + #1.0300000000000000e+04 / ($v_T * $v_T) * (Exp (#(-1.0300000000000000e+04) / $v_T))) - $v_lnF_AB * (#4.3429448190325176e-01 * $v_B + #6.0801227466455256e-02 * $v_A) * (#(-4.9199999999999999e+00) + #2.3902929330810221e+03 / $v_T - #1.0) / $v_T) * (v_fwd_rates.[82] - v_rev_rates.[82]) + v_pres_mod.[18] / $v_T * ((v_fwd_rates.[82] - v_rev_rates.[82]) * (#1.5000000000000000e+00 + #4.0056277362789348e+04 / $v_T) + v_fwd_rates.[82] * #(-1.0) - v_rev_rates.[82] * ((- $v_T) * (v_dBdT.[17] - v_dBdT.[0] - v_dBdT.[14])))) * $v_rho_inv));
  (*374*) Do (AddA v_jac 1 ((- $v_j_temp) * #2.0158800000000001e+00));
  (*375*) Do (AddA v_jac 18 ($v_j_temp * #3.0026280000000000e+01));
  (*376*) Do (AddA v_jac 15 ((- $v_j_temp) * #2.8010399999999997e+01));
  (*549*) Do (Asn v_j_temp 0 (#1.0 / $v_T * ((v_fwd_rates.[83] - v_rev_rates.[83]) * (#1.5100000000000000e+00 + #1.7260431074669279e+03 / $v_T) + v_fwd_rates.[83] * #(-1.0) - v_rev_rates.[83] * (#(-1.0) + (- $v_T) * (v_dBdT.[1] + v_dBdT.[5] - v_dBdT.[0] - v_dBdT.[4]))) * $v_rho_inv));
  (*550*) Do (AddA v_jac 1 ((- $v_j_temp) * #2.0158800000000001e+00));
  (*551*) Do (AddA v_jac 2 ($v_j_temp * #1.0079400000000001e+00));
  (*552*) Do (AddA v_jac 5 ((- $v_j_temp) * #1.7007339999999999e+01));
  (*553*) Do (AddA v_jac 6 ($v_j_temp * #1.8015280000000001e+01));
  (*776*) Do (Asn v_Pr 0 ($v_conc_temp * (Exp (#3.4365993087130713e+00 - #0.53 * $v_logT - #(-8.5547326026057647e+02) / $v_T))));
  (*777*) Do (Asn v_Fcent 0 (#2.6539999999999997e-01 * (Exp ($v_T / #(-9.4000000000000000e+01))) + #7.3460000000000003e-01 * (Exp ($v_T / #(-1.7560000000000000e+03))) + (Exp (#(-5.1820000000000000e+03) / $v_T))));
  (*778*) Do (Asn v_A 0 ((Log10 (Fmax $v_Pr #1.0e-300)) - #0.67 * (Log10 (Fmax $v_Fcent #1.0e-300)) - #0.4));
  (*779*) Do (Asn v_B 0 (#0.806 - #1.1762 * (Log10 (Fmax $v_Fcent #1.0e-300)) - #0.14 * (Log10 (Fmax $v_Pr #1.0e-300))));
  (*780*) Do (Asn v_lnF_AB 0 (#2.0 * (Log (Fmax $v_Fcent #1.0e-300)) * $v_A / ($v_B * $v_B * $v_B * (#1.0 + $v_A * $v_A / ($v_B * $v_B)) * (#1.0 + $v_A * $v_A / ($v_B * $v_B)))));
  (*781*) Do (Asn v_j_temp 0 ((v_pres_mod.[19] * ((#(-5.3000e-01) + #(-8.5547326026057647e+02) / $v_T - #1.0) / ($v_T * (#1.0 + $v_Pr)) + (#1.0 / ($v_Fcent * (#1.0 + $v_A * $v_A / ($v_B * $v_B))) - $v_lnF_AB * (#(-2.9097730287517870e-01) * $v_B + #5.1081716961460466e-01 * $v_A) / $v_Fcent) * (#(-2.8234042553191485e-03) * (Exp ($v_T / #(-9.4000000000000000e+01))) - #4.1833712984054670e-04 * (Exp ($v_T / #(-1.7560000000000000e+03))) + #5.1820000000000000e+03 / ($v_T * $v_T) * (Exp (#(-5.1820000000000000e+03) / $v_T))) - $v_lnF_AB * (#4.3429448190325176e-01 * $v_B + #6.0801227466455256e-02 * $v_A) * (#(-5.3000000000000003e-01) + #(-8.5547326026057647e+02) / $v_T - #1.0) / $v_T) * (v_fwd_rates.[84] - v_rev_rates.[84]) + v_pres_mod.[19] / $v_T * ((v_fwd_rates.[84] - v_rev_rates.[84]) * #(-3.7000000000000000e-01) + v_fwd_rates.[84] * #(-1.0) - v_rev_rates.[84] * ((- $v_T) * (v_dBdT.[7] - #2.0 * v_dBdT.[4])))) * $v_rho_inv));
  (*782*) Do (AddA v_jac 5 ($v_j_temp * #(-2.0) * #1.7007339999999999e+01));
  (*783*) Do (AddA v_jac 8 ($v_j_temp * #3.4014679999999998e+01));
  (*904*) Do (Asn v_j_temp 0 (#1.0 / $v_T * ((v_fwd_rates.[85] - v_rev_rates.[85]) * (#2.3999999999999999e+00 + #(-1.0617932818528332e+03) / $v_T) + v_fwd_rates.[85] * #(-1.0) - v_rev_rates.[85] * (#(-1.0) + (- $v_T) * (v_dBdT.[5] + v_dBdT.[2] - #2.0 * v_dBdT.[4]))) * $v_rho_inv));
  (*905*) Do (AddA v_jac 3 ($v_j_temp * #1.5999400000000000e+01));
  (*906*) Do (AddA v_jac 5 ($v_j_temp * #(-2.0) * #1.7007339999999999e+01));
  (*907*) Do (AddA v_jac 6 ($v_j_temp * #1.8015280000000001e+01));
  (*1078*) Do (Asn v_j_temp 0 (#1.0 / $v_T * ((v_fwd_rates.[86] - v_rev_rates.[86]) * (#(-2.5160978242958132e+02) / $v_T) + v_fwd_rates.[86] * #(-1.0) - v_rev_rates.[86] * (#(-1.0) + (- $v_T) * (v_dBdT.[5] + v_dBdT.[3] - v_dBdT.[6] - v_dBdT.[4]))) * $v_rho_inv));
  (*1079*) Do (AddA v_jac 4 ($v_j_temp * #3.1998799999999999e+01));
  (*1080*) Do (AddA v_jac 5 ((- $v_j_temp) * #1.7007339999999999e+01));
  (*1081*) Do (AddA v_jac 6 ($v_j_temp * #1.8015280000000001e+01));
  (*1082*) Do (AddA v_jac 7 ((- $v_j_temp) * #3.3006740000000001e+01));
  (*1305*) Do (Asn v_j_temp 0 (#1.0 / $v_T * ((v_fwd_rates.[87] - v_rev_rates.[87]) * (#2.1487475419486245e+02 / $v_T) + v_fwd_rates.[87] * #(-1.0) - v_rev_rates.[87] * (#(-1.0) + (- $v_T) * (v_dBdT.[5] + v_dBdT.[6] - v_dBdT.[7] - v_dBdT.[4]))) * $v_rho_inv));
  (*1306*) Do (AddA v_jac 5 ((- $v_j_temp) * #1.7007339999999999e+01));
  (*1307*) Do (AddA v_jac 6 ($v_j_temp * #1.8015280000000001e+01));
  (*1308*) Do (AddA v_jac 7 ($v_j_temp * #3.3006740000000001e+01));
  (*1309*) Do (AddA v_jac 8 ((- $v_j_temp) * #3.4014679999999998e+01));
  (*1532*) Do (Asn v_j_temp 0 (#1.0 / $v_T * ((v_fwd_rates.[88] - v_rev_rates.[88]) * (#1.4799687402507972e+04 / $v_T) + v_fwd_rates.[88] * #(-1.0) - v_rev_rates.[88] * (#(-1.0) + (- $v_T) * (v_dBdT.[5] + v_dBdT.[6] - v_dBdT.[7] - v_dBdT.[4]))) * $v_rho_inv));
  (*1533*) Do (AddA v_jac 5 ((- $v_j_temp) * #1.7007339999999999e+01));
  (*1534*) Do (AddA v_jac 6 ($v_j_temp * #1.8015280000000001e+01));
  (*1535*) Do (AddA v_jac 7 ($v_j_temp * #3.3006740000000001e+01));
  (*1536*) Do (AddA v_jac 8 ((- $v_j_temp) * #3.4014679999999998e+01));
  (*1759*) Do (Asn v_j_temp 0 (#1.0 / $v_T * (v_fwd_rates.[89] * #(-1.0) - v_rev_rates.[89] * (#(-1.0) + (- $v_T) * (v_dBdT.[1] + v_dBdT.[14] - v_dBdT.[8] - v_dBdT.[4]))) * $v_rho_inv));
  (*1760*) Do (AddA v_jac 9 ((- $v_j_temp) * #1.2010999999999999e+01));
  (*1761*) Do (AddA v_jac 2 ($v_j_temp * #1.0079400000000001e+00));
  (*1762*) Do (AddA v_jac 5 ((- $v_j_temp) * #1.7007339999999999e+01));
  (*1763*) Do (AddA v_jac 15 ($v_j_temp * #2.8010399999999997e+01));
  (*1986*) Do (Asn v_j_temp 0 (#1.0 / $v_T * (v_fwd_rates.[90] * #(-1.0) - v_rev_rates.[90] * (#(-1.0) + (- $v_T) * (v_dBdT.[1] + v_dBdT.[16] - v_dBdT.[9] - v_dBdT.[4]))) * $v_rho_inv));
  (*1987*) Do (AddA v_jac 17 ($v_j_temp * #2.9018339999999998e+01));
  (*1988*) Do (AddA v_jac 10 ((- $v_j_temp) * #1.3018939999999999e+01));
  (*1989*) Do (AddA v_jac 5 ((- $v_j_temp) * #1.7007339999999999e+01));
  (*1990*) Do (AddA v_jac 2 ($v_j_temp * #1.0079400000000001e+00));
  (*2213*) Do (Asn v_j_temp 0 (#1.0 / $v_T * (v_fwd_rates.[91] * #(-1.0) - v_rev_rates.[91] * (#(-1.0) + (- $v_T) * (v_dBdT.[17] + v_dBdT.[1] - v_dBdT.[10] - v_dBdT.[4]))) * $v_rho_inv));
  (*2214*) Do (AddA v_jac 18 ($v_j_temp * #3.0026280000000000e+01));
  (*2215*) Do (AddA v_jac 11 ((- $v_j_temp) * #1.4026879999999998e+01));
  (*2216*) Do (AddA v_jac 5 ((- $v_j_temp) * #1.7007339999999999e+01));
  (*2217*) Do (AddA v_jac 2 ($v_j_temp * #1.0079400000000001e+00));
  (*2440*) Do (Asn v_j_temp 0 (#1.0 / $v_T * ((v_fwd_rates.[92] - v_rev_rates.[92]) * (#2.0000000000000000e+00 + #1.5096586945774879e+03 / $v_T) + v_fwd_rates.[92] * #(-1.0) - v_rev_rates.[92] * (#(-1.0) + (- $v_T) * (v_dBdT.[5] + v_dBdT.[9] - v_dBdT.[10] - v_dBdT.[4]))) * $v_rho_inv));
  (*2441*) Do (AddA v_jac 10 ($v_j_temp * #1.3018939999999999e+01));
  (*2442*) Do (AddA v_jac 11 ((- $v_j_temp) * #1.4026879999999998e+01));
  (*2443*) Do (AddA v_jac 5 ((- $v_j_temp) * #1.7007339999999999e+01));
  (*2444*) Do (AddA v_jac 6 ($v_j_temp * #1.8015280000000001e+01));
  (*2667*) Do (Asn v_j_temp 0 (#1.0 / $v_T * (v_fwd_rates.[93] * #(-1.0) - v_rev_rates.[93] * (#(-1.0) + (- $v_T) * (v_dBdT.[17] + v_dBdT.[1] - v_dBdT.[11] - v_dBdT.[4]))) * $v_rho_inv));
  (*2668*) Do (AddA v_jac 18 ($v_j_temp * #3.0026280000000000e+01));
  (*2669*) Do (AddA v_jac 12 ((- $v_j_temp) * #1.4026879999999998e+01));
  (*2670*) Do (AddA v_jac 5 ((- $v_j_temp) * #1.7007339999999999e+01));
  (*2671*) Do (AddA v_jac 2 ($v_j_temp * #1.0079400000000001e+00));
  (*2894*) Do (AddA v_conc_temp 0 (#0.3 * v_conc.[47]));
  (*2895*) Do (Asn v_Pr 0 ($v_conc_temp * (Exp (#3.4899029160197301e+01 - #4.49 * $v_logT - #9.1082741239508448e+02 / $v_T))));
  (*2896*) Do (Asn v_Fcent 0 (#5.8800000000000008e-01 * (Exp ($v_T / #(-1.9500000000000000e+02))) + #4.1199999999999998e-01 * (Exp ($v_T / #(-5.9000000000000000e+03))) + (Exp (#(-6.3940000000000000e+03) / $v_T))));
  (*2897*) Do (Asn v_A 0 ((Log10 (Fmax $v_Pr #1.0e-300)) - #0.67 * (Log10 (Fmax $v_Fcent #1.0e-300)) - #0.4));
  (*2898*) Do (Asn v_B 0 (#0.806 - #1.1762 * (Log10 (Fmax $v_Fcent #1.0e-300)) - #0.14 * (Log10 (Fmax $v_Pr #1.0e-300))));
  (*2899*) Do (Asn v_lnF_AB 0 (#2.0 * (Log (Fmax $v_Fcent #1.0e-300)) * $v_A / ($v_B * $v_B * $v_B * (#1.0 + $v_A * $v_A / ($v_B * $v_B)) * (#1.0 + $v_A * $v_A / ($v_B * $v_B)))));
  (*2900*) Do (Asn v_j_temp 0 ((v_pres_mod.[20] * ((#(-4.4900e+00) + #9.1082741239508448e+02 / $v_T - #1.0) / ($v_T * (#1.0 + $v_Pr)) + (#1.0 / ($v_Fcent * (#1.0 + $v_A * $v_A / ($v_B * $v_B))) - $v_lnF_AB * (#(-2.9097730287517870e-01) * $v_B + #5.1081716961460466e-01 * $v_A) / $v_Fcent) * (#(-3.0153846153846160e-03) * (Exp ($v_T / #(-1.9500000000000000e+02))) - #6.9830508474576274e-05 * (Exp ($v_T / #(-5.9000000000000000e+03))) + #6.3940000000000000e+03 / ($v_T * $v_T) * (Exp (#(-6.3940000000000000e+03) / $v_T))) - $v_lnF_AB * (#4.3429448190325176e-01 * $v_B + #6.0801227466455256e-02 * $v_A) * (#(-4.4900000000000002e+00) + #9.1082741239508448e+02 / $v_T - #1.0) / $v_T) * (v_fwd_rates.[94] - v_rev_rates.[94]) + v_pres_mod.[20] / $v_T * ((v_fwd_rates.[94] - v_rev_rates.[94]) * (#(-1.4299999999999999e+00) + #6.6928202126268627e+02 / $v_T) + v_fwd_rates.[94] * #(-1.0) - v_rev_rates.[94] * ((- $v_T) * (v_dBdT.[20] - v_dBdT.[12] - v_dBdT.[4])))) * $v_rho_inv));
  (*2901*) Do (AddA v_jac 5 ((- $v_j_temp) * #1.7007339999999999e+01));
  (*2902*) Do (AddA v_jac 13 ((- $v_j_temp) * #1.5034820000000000e+01));
  (*2903*) Do (AddA v_jac 21 ($v_j_temp * #3.2042159999999996e+01));
  (*3076*) Do (Asn v_j_temp 0 (#1.0 / $v_T * ((v_fwd_rates.[95] - v_rev_rates.[95]) * (#1.6000000000000001e+00 + #2.7274500415366615e+03 / $v_T) + v_fwd_rates.[95] * #(-1.0) - v_rev_rates.[95] * (#(-1.0) + (- $v_T) * (v_dBdT.[10] + v_dBdT.[5] - v_dBdT.[12] - v_dBdT.[4]))) * $v_rho_inv));
  (*3077*) Do (AddA v_jac 5 ((- $v_j_temp) * #1.7007339999999999e+01));
  (*3078*) Do (AddA v_jac 11 ($v_j_temp * #1.4026879999999998e+01));
  (*3079*) Do (AddA v_jac 13 ((- $v_j_temp) * #1.5034820000000000e+01));
  (*3080*) Do (AddA v_jac 6 ($v_j_temp * #1.8015280000000001e+01));
  (*3303*) Do (Asn v_j_temp 0 (#1.0 / $v_T * ((v_fwd_rates.[96] - v_rev_rates.[96]) * (#(-1.3400000000000001e+00) + #7.1306212340543345e+02 / $v_T) + v_fwd_rates.[96] * #(-1.0) - v_rev_rates.[96] * (#(-1.0) + (- $v_T) * (v_dBdT.[11] + v_dBdT.[5] - v_dBdT.[12] - v_dBdT.[4]))) * $v_rho_inv));
  (*3304*) Do (AddA v_jac 5 ((- $v_j_temp) * #1.7007339999999999e+01));
  (*3305*) Do (AddA v_jac 12 ($v_j_temp * #1.4026879999999998e+01));
  (*3306*) Do (AddA v_jac 13 ((- $v_j_temp) * #1.5034820000000000e+01));
  (*3307*) Do (AddA v_jac 6 ($v_j_temp * #1.8015280000000001e+01));
  (*3530*) Do (Asn v_j_temp 0 (#1.0 / $v_T * ((v_fwd_rates.[97] - v_rev_rates.[97]) * (#1.6000000000000001e+00 + #1.5700450423605873e+03 / $v_T) + v_fwd_rates.[97] * #(-1.0) - v_rev_rates.[97] * (#(-1.0) + (- $v_T) * (v_dBdT.[5] + v_dBdT.[12] - v_dBdT.[13] - v_dBdT.[4]))) * $v_rho_inv));
  (*3531*) Do (AddA v_jac 13 ($v_j_temp * #1.5034820000000000e+01));
  (*3532*) Do (AddA v_jac 5 ((- $v_j_temp) * #1.7007339999999999e+01));
  (*3533*) Do (AddA v_jac 14 ((- $v_j_temp) * #1.6042760000000001e+01));
  (*3534*) Do (AddA v_jac 6 ($v_j_temp * #1.8015280000000001e+01));
  (*3757*) Do (Asn v_j_temp 0 (#1.0 / $v_T * ((v_fwd_rates.[98] - v_rev_rates.[98]) * (#1.2280000000000000e+00 + #3.5225369540141386e+01 / $v_T) + v_fwd_rates.[98] * #(-1.0) - v_rev_rates.[98] * (#(-1.0) + (- $v_T) * (v_dBdT.[1] + v_dBdT.[15] - v_dBdT.[14] - v_dBdT.[4]))) * $v_rho_inv));
  (*3758*) Do (AddA v_jac 2 ($v_j_temp * #1.0079400000000001e+00));
  (*3759*) Do (AddA v_jac 5 ((- $v_j_temp) * #1.7007339999999999e+01));
  (*3760*) Do (AddA v_jac 15 ((- $v_j_temp) * #2.8010399999999997e+01));
  (*3761*) Do (AddA v_jac 16 ($v_j_temp * #4.4009799999999998e+01));
  (*3984*) Do (Asn v_j_temp 0 (#1.0 / $v_T * (v_fwd_rates.[99] * #(-1.0) - v_rev_rates.[99] * (#(-1.0) + (- $v_T) * (v_dBdT.[5] + v_dBdT.[14] - v_dBdT.[16] - v_dBdT.[4]))) * $v_rho_inv));
  (*3985*) Do (AddA v_jac 17 ((- $v_j_temp) * #2.9018339999999998e+01));
  (*3986*) Do (AddA v_jac 5 ((- $v_j_temp) * #1.7007339999999999e+01));
  (*3987*) Do (AddA v_jac 6 ($v_j_temp * #1.8015280000000001e+01));
  (*3988*) Do (AddA v_jac 15 ($v_j_temp * #2.8010399999999997e+01));
  (*4211*) Do (Asn v_j_temp 0 (#1.0 / $v_T * ((v_fwd_rates.[100] - v_rev_rates.[100]) * (#1.1799999999999999e+00 + #(-2.2493914549204570e+02) / $v_T) + v_fwd_rates.[100] * #(-1.0) - v_rev_rates.[100] * (#(-1.0) + (- $v_T) * (v_dBdT.[5] + v_dBdT.[16] - v_dBdT.[17] - v_dBdT.[4]))) * $v_rho_inv));
  (*4212*) Do (AddA v_jac 17 ($v_j_temp * #2.9018339999999998e+01));
  (*4213*) Do (AddA v_jac 18 ((- $v_j_temp) * #3.0026280000000000e+01));
  (*4214*) Do (AddA v_jac 5 ((- $v_j_temp) * #1.7007339999999999e+01));
  (*4215*) Do (AddA v_jac 6 ($v_j_temp * #1.8015280000000001e+01));
  (*4438*) Do (Asn v_j_temp 0 (#1.0 / $v_T * (v_fwd_rates.[101] * #(-1.0) - v_rev_rates.[101] * (#(-1.0) + (- $v_T) * (v_dBdT.[17] + v_dBdT.[5] - v_dBdT.[18] - v_dBdT.[4]))) * $v_rho_inv));
  (*4439*) Do (AddA v_jac 18 ($v_j_temp * #3.0026280000000000e+01));
  (*4440*) Do (AddA v_jac 19 ((- $v_j_temp) * #3.1034219999999998e+01));
  (*4441*) Do (AddA v_jac 5 ((- $v_j_temp) * #1.7007339999999999e+01));
  (*4442*) Do (AddA v_jac 6 ($v_j_temp * #1.8015280000000001e+01));
  (*4665*) Do (Asn v_j_temp 0 (#1.0 / $v_T * (v_fwd_rates.[102] * #(-1.0) - v_rev_rates.[102] * (#(-1.0) + (- $v_T) * (v_dBdT.[17] + v_dBdT.[5] - v_dBdT.[19] - v_dBdT.[4]))) * $v_rho_inv));
  (*4666*) Do (AddA v_jac 18 ($v_j_temp * #3.0026280000000000e+01));
  (*4667*) Do (AddA v_jac 20 ((- $v_j_temp) * #3.1034219999999998e+01));
  (*4668*) Do (AddA v_jac 5 ((- $v_j_temp) * #1.7007339999999999e+01));
  (*4669*) Do (AddA v_jac 6 ($v_j_temp * #1.8015280000000001e+01));
  (*4892*) Do (Asn v_j_temp 0 (#1.0 / $v_T * ((v_fwd_rates.[103] - v_rev_rates.[103]) * (#2.0000000000000000e+00 + #(-4.2270443448169664e+02) / $v_T) + v_fwd_rates.[103] * #(-1.0) - v_rev_rates.[103] * (#(-1.0) + (- $v_T) * (v_dBdT.[18] + v_dBdT.[5] - v_dBdT.[20] - v_dBdT.[4]))) * $v_rho_inv));
  (*4893*) Do (AddA v_jac 5 ((- $v_j_temp) * #1.7007339999999999e+01));
  (*4894*) Do (AddA v_jac 19 ($v_j_temp * #3.1034219999999998e+01));
  (*4895*) Do (AddA v_jac 21 ((- $v_j_temp) * #3.2042159999999996e+01));
  (*4896*) Do (AddA v_jac 6 ($v_j_temp * #1.8015280000000001e+01));
  (*5119*) Do (Asn v_j_temp 0 (#1.0 / $v_T * ((v_fwd_rates.[104] - v_rev_rates.[104]) * (#2.0000000000000000e+00 + #7.5482934728874397e+02 / $v_T) + v_fwd_rates.[104] * #(-1.0) - v_rev_rates.[104] * (#(-1.0) + (- $v_T) * (v_dBdT.[5] + v_dBdT.[19] - v_dBdT.[20] - v_dBdT.[4]))) * $v_rho_inv));
  (*5120*) Do (AddA v_jac 5 ((- $v_j_temp) * #1.7007339999999999e+01));
  (*5121*) Do (AddA v_jac 20 ($v_j_temp * #3.1034219999999998e+01));
  (*5122*) Do (AddA v_jac 21 ((- $v_j_temp) * #3.2042159999999996e+01));
  (*5123*) Do (AddA v_jac 6 ($v_j_temp * #1.8015280000000001e+01));
  (*5346*) Do (Asn v_j_temp 0 (#1.0 / $v_T * (v_fwd_rates.[105] * #(-1.0) - v_rev_rates.[105] * (#(-1.0) + (- $v_T) * (v_dBdT.[1] + v_dBdT.[27] - v_dBdT.[21] - v_dBdT.[4]))) * $v_rho_inv));
  (*5347*) Do (AddA v_jac 2 ($v_j_temp * #1.0079400000000001e+00));
  (*5348*) Do (AddA v_jac 28 ($v_j_temp * #4.1029339999999998e+01));
  (*5349*) Do (AddA v_jac 5 ((- $v_j_temp) * #1.7007339999999999e+01));
  (*5350*) Do (AddA v_jac 22 ((- $v_j_temp) * #2.5029940000000000e+01));
  (*5573*) Do (Asn v_j_temp 0 (#1.0 / $v_T * ((v_fwd_rates.[106] - v_rev_rates.[106]) * (#4.5000000000000000e+00 + #(-5.0321956485916263e+02) / $v_T) + v_fwd_rates.[106] * #(-1.0) - v_rev_rates.[106] * (#(-1.0) + (- $v_T) * (v_dBdT.[1] + v_dBdT.[28] - v_dBdT.[22] - v_dBdT.[4]))) * $v_rho_inv));
  (*5574*) Do (AddA v_jac 2 ($v_j_temp * #1.0079400000000001e+00));
  (*5575*) Do (AddA v_jac 5 ((- $v_j_temp) * #1.7007339999999999e+01));
  (*5576*) Do (AddA v_jac 23 ((- $v_j_temp) * #2.6037879999999998e+01));
  (*5577*) Do (AddA v_jac 29 ($v_j_temp * #4.2037279999999996e+01));
  (*5800*) Do (Asn v_j_temp 0 (#1.0 / $v_T * ((v_fwd_rates.[107] - v_rev_rates.[107]) * (#2.2999999999999998e+00 + #6.7934641255986953e+03 / $v_T) + v_fwd_rates.[107] * #(-1.0) - v_rev_rates.[107] * (#(-1.0) + (- $v_T) * (v_dBdT.[1] + v_dBdT.[29] - v_dBdT.[22] - v_dBdT.[4]))) * $v_rho_inv));
  (*5801*) Do (AddA v_jac 2 ($v_j_temp * #1.0079400000000001e+00));
  (*5802*) Do (AddA v_jac 5 ((- $v_j_temp) * #1.7007339999999999e+01));
  (*5803*) Do (AddA v_jac 30 ($v_j_temp * #4.2037279999999996e+01));
  (*5804*) Do (AddA v_jac 23 ((- $v_j_temp) * #2.6037879999999998e+01));
  (*6027*) Do (Asn v_j_temp 0 (#1.0 / $v_T * ((v_fwd_rates.[108] - v_rev_rates.[108]) * (#2.0000000000000000e+00 + #7.0450739080282765e+03 / $v_T) + v_fwd_rates.[108] * #(-1.0) - v_rev_rates.[108] * (#(-1.0) + (- $v_T) * (v_dBdT.[21] + v_dBdT.[5] - v_dBdT.[22] - v_dBdT.[4]))) * $v_rho_inv));
  (*6028*) Do (AddA v_jac 5 ((- $v_j_temp) * #1.7007339999999999e+01));
  (*6029*) Do (AddA v_jac 22 ($v_j_temp * #2.5029940000000000e+01));
  (*6030*) Do (AddA v_jac 23 ((- $v_j_temp) * #2.6037879999999998e+01));
  (*6031*) Do (AddA v_jac 6 ($v_j_temp * #1.8015280000000001e+01));
  (*6254*) Do (Asn v_j_temp 0 (#1.0 / $v_T * ((v_fwd_rates.[109] - v_rev_rates.[109]) * (#4.0000000000000000e+00 + #(-1.0064391297183253e+03) / $v_T) + v_fwd_rates.[109] * #(-1.0) - v_rev_rates.[109] * (#(-1.0) + (- $v_T) * (v_dBdT.[12] + v_dBdT.[14] - v_dBdT.[22] - v_dBdT.[4]))) * $v_rho_inv));
  (*6255*) Do (AddA v_jac 13 ($v_j_temp * #1.5034820000000000e+01));
  (*6256*) Do (AddA v_jac 5 ((- $v_j_temp) * #1.7007339999999999e+01));
  (*6257*) Do (AddA v_jac 15 ($v_j_temp * #2.8010399999999997e+01));
  (*6258*) Do (AddA v_jac 23 ((- $v_j_temp) * #2.6037879999999998e+01));
  (*6481*) Do (Asn v_j_temp 0 (#1.0 / $v_T * (v_fwd_rates.[110] * #(-1.0) - v_rev_rates.[110] * (#(-1.0) + (- $v_T) * (v_dBdT.[5] + v_dBdT.[22] - v_dBdT.[23] - v_dBdT.[4]))) * $v_rho_inv));
  (*6482*) Do (AddA v_jac 5 ((- $v_j_temp) * #1.7007339999999999e+01));
  (*6483*) Do (AddA v_jac 6 ($v_j_temp * #1.8015280000000001e+01));
  (*6484*) Do (AddA v_jac 23 ($v_j_temp * #2.6037879999999998e+01));
  (*6485*) Do (AddA v_jac 24 ((- $v_j_temp) * #2.7045819999999999e+01));
  (*6708*) Do (Asn v_j_temp 0 (#1.0 / $v_T * ((v_fwd_rates.[111] - v_rev_rates.[111]) * (#2.0000000000000000e+00 + #1.2580489121479065e+03 / $v_T) + v_fwd_rates.[111] * #(-1.0) - v_rev_rates.[111] * (#(-1.0) + (- $v_T) * (v_dBdT.[5] + v_dBdT.[23] - v_dBdT.[24] - v_dBdT.[4]))) * $v_rho_inv));
  (*6709*) Do (AddA v_jac 25 ((- $v_j_temp) * #2.8053759999999997e+01));
  (*6710*) Do (AddA v_jac 5 ((- $v_j_temp) * #1.7007339999999999e+01));
  (*6711*) Do (AddA v_jac 6 ($v_j_temp * #1.8015280000000001e+01));
  (*6712*) Do (AddA v_jac 24 ($v_j_temp * #2.7045819999999999e+01));
  (*6935*) Do (Asn v_j_temp 0 (#1.0 / $v_T * ((v_fwd_rates.[112] - v_rev_rates.[112]) * (#2.1200000000000001e+00 + #4.3780102142747148e+02 / $v_T) + v_fwd_rates.[112] * #(-1.0) - v_rev_rates.[112] * (#(-1.0) + (- $v_T) * (v_dBdT.[25] + v_dBdT.[5] - v_dBdT.[26] - v_dBdT.[4]))) * $v_rho_inv));
  (*6936*) Do (AddA v_jac 26 ($v_j_temp * #2.9061699999999998e+01));
  (*6937*) Do (AddA v_jac 27 ((- $v_j_temp) * #3.0069640000000000e+01));
  (*6938*) Do (AddA v_jac 5 ((- $v_j_temp) * #1.7007339999999999e+01));
  (*6939*) Do (AddA v_jac 6 ($v_j_temp * #1.8015280000000001e+01));
  (*7162*) Do (Asn v_j_temp 0 (#1.0 / $v_T * ((v_fwd_rates.[113] - v_rev_rates.[113]) * (#1.0064391297183253e+03 / $v_T) + v_fwd_rates.[113] * #(-1.0) - v_rev_rates.[113] * (#(-1.0) + (- $v_T) * (v_dBdT.[5] + v_dBdT.[27] - v_dBdT.[28] - v_dBdT.[4]))) * $v_rho_inv));
  (*7163*) Do (AddA v_jac 5 ((- $v_j_temp) * #1.7007339999999999e+01));
  (*7164*) Do (AddA v_jac 28 ($v_j_temp * #4.1029339999999998e+01));
  (*7165*) Do (AddA v_jac 29 ((- $v_j_temp) * #4.2037279999999996e+01));
  (*7166*) Do (AddA v_jac 6 ($v_j_temp * #1.8015280000000001e+01));
  (*7389*) Do (Asn v_j_temp 0 (#1.0 / $v_T * ((v_fwd_rates.[114] - v_rev_rates.[114]) * (#(-8.2024789072043507e+02) / $v_T) + v_fwd_rates.[114] * #(-1.0) - v_rev_rates.[114] * (#(-1.0) + (- $v_T) * (v_dBdT.[7] + v_dBdT.[3] - #2.0 * v_dBdT.[6]))) * $v_rho_inv));
  (*7390*) Do (AddA v_jac 4 ($v_j_temp * #3.1998799999999999e+01));
  (*7391*) Do (AddA v_jac 7 ($v_j_temp * #(-2.0) * #3.3006740000000001e+01));
  (*7392*) Do (AddA v_jac 8 ($v_j_temp * #3.4014679999999998e+01));
  (*7563*) Do (Asn v_j_temp 0 (#1.0 / $v_T * ((v_fwd_rates.[115] - v_rev_rates.[115]) * (#6.0386347783099518e+03 / $v_T) + v_fwd_rates.[115] * #(-1.0) - v_rev_rates.[115] * (#(-1.0) + (- $v_T) * (v_dBdT.[7] + v_dBdT.[3] - #2.0 * v_dBdT.[6]))) * $v_rho_inv));
  (*7564*) Do (AddA v_jac 4 ($v_j_temp * #3.1998799999999999e+01));
  (*7565*) Do (AddA v_jac 7 ($v_j_temp * #(-2.0) * #3.3006740000000001e+01));
  (*7566*) Do (AddA v_jac 8 ($v_j_temp * #3.4014679999999998e+01));
  (*7737*) Do (Asn v_j_temp 0 (#1.0 / $v_T * (v_fwd_rates.[116] * #(-1.0) - v_rev_rates.[116] * (#(-1.0) + (- $v_T) * (v_dBdT.[17] + v_dBdT.[4] - v_dBdT.[10] - v_dBdT.[6]))) * $v_rho_inv));
  (*7738*) Do (AddA v_jac 18 ($v_j_temp * #3.0026280000000000e+01));
  (*7739*) Do (AddA v_jac 11 ((- $v_j_temp) * #1.4026879999999998e+01));
  (*7740*) Do (AddA v_jac 5 ($v_j_temp * #1.7007339999999999e+01));
  (*7741*) Do (AddA v_jac 7 ((- $v_j_temp) * #3.3006740000000001e+01));
  (*7964*) Do (Asn v_j_temp 0 (#1.0 / $v_T * (v_fwd_rates.[117] * #(-1.0) - v_rev_rates.[117] * (#(-1.0) + (- $v_T) * (v_dBdT.[13] + v_dBdT.[3] - v_dBdT.[12] - v_dBdT.[6]))) * $v_rho_inv));
  (*7965*) Do (AddA v_jac 4 ($v_j_temp * #3.1998799999999999e+01));
  (*7966*) Do (AddA v_jac 13 ((- $v_j_temp) * #1.5034820000000000e+01));
  (*7967*) Do (AddA v_jac 14 ($v_j_temp * #1.6042760000000001e+01));
  (*7968*) Do (AddA v_jac 7 ((- $v_j_temp) * #3.3006740000000001e+01));
  (*8191*) Do (Asn v_j_temp 0 (#1.0 / $v_T * (v_fwd_rates.[118] * #(-1.0) - v_rev_rates.[118] * (#(-1.0) + (- $v_T) * (v_dBdT.[19] + v_dBdT.[4] - v_dBdT.[12] - v_dBdT.[6]))) * $v_rho_inv));
  (*8192*) Do (AddA v_jac 5 ($v_j_temp * #1.7007339999999999e+01));
  (*8193*) Do (AddA v_jac 20 ($v_j_temp * #3.1034219999999998e+01));
  (*8194*) Do (AddA v_jac 13 ((- $v_j_temp) * #1.5034820000000000e+01));
  (*8195*) Do (AddA v_jac 7 ((- $v_j_temp) * #3.3006740000000001e+01));
  (*8418*) Do (Asn v_j_temp 0 (#1.0 / $v_T * ((v_fwd_rates.[119] - v_rev_rates.[119]) * (#1.1875981730676238e+04 / $v_T) + v_fwd_rates.[119] * #(-1.0) - v_rev_rates.[119] * (#(-1.0) + (- $v_T) * (v_dBdT.[15] + v_dBdT.[4] - v_dBdT.[14] - v_dBdT.[6]))) * $v_rho_inv));
  (*8419*) Do (AddA v_jac 5 ($v_j_temp * #1.7007339999999999e+01));
  (*8420*) Do (AddA v_jac 7 ((- $v_j_temp) * #3.3006740000000001e+01));
  (*8421*) Do (AddA v_jac 15 ((- $v_j_temp) * #2.8010399999999997e+01));
  (*8422*) Do (AddA v_jac 16 ($v_j_temp * #4.4009799999999998e+01))].

(** [eval_jacob_3], gri30/lib/src/jacobs/jacob_3.c:4-8220: the declarations and the blocks "partial of
    rxn ... wrt T" (the blocks "wrt species" write other elements of [jac]). *)
Definition gri30_jac_T3 : list stmt := [
  (*6*) Do (Asn v_logT 0 ((Log $v_T)));
  (*7*) Do (Asn v_kf 0 (#0.0));
  (*8*) Do (Asn v_j_temp 0 (#0.0));
  (*9*) Do (Asn v_pres_mod_temp 0 (#0.0));
  (*10*) Do (Asn v_Kc 0 (#0.0));
  (*11*) Do (Asn v_kr 0 (#0.0));
  (*12*) Do (Asn v_Pr 0 (#0.0));
  (*13*) Do (Asn v_Fcent 0 (#0.0));
  (*14*) Do (Asn v_A 0 (#0.0));
  (*15*) Do (Asn v_B 0 (#0.0));
  (*16*) Do (Asn v_lnF_AB 0 (#0.0));
  (*17*) Do (Asn v_rho_inv 0 (#1.0 / $v_rho));
  (*19*) Do (Asn v_j_temp 0 (#1.0 / $v_T * ((v_fwd_rates.[120] - v_rev_rates.[120]) * (#2.0000000000000000e+00 + #6.0386347783099518e+03 / $v_T) + v_fwd_rates.[120] * #(-1.0) - v_rev_rates.[120] * (#(-1.0) + (- $v_T) * (v_dBdT.[7] + v_dBdT.[16] - v_dBdT.[17] - v_dBdT.[6]))) * $v_rho_inv));
  (*20*) Do (AddA v_jac 17 ($v_j_temp * #2.9018339999999998e+01));
  (*21*) Do (AddA v_jac 18 ((- $v_j_temp) * #3.0026280000000000e+01));
  (*22*) Do (AddA v_jac 7 ((- $v_j_temp) * #3.3006740000000001e+01));
  (*23*) Do (AddA v_jac 8 ($v_j_temp * #3.4014679999999998e+01));
  (*246*) Do (Asn v_j_temp 0 (#1.0 / $v_T * ((v_fwd_rates.[121] - v_rev_rates.[121]) * (#2.8985446935887768e+02 / $v_T) + v_fwd_rates.[121] * #(-1.0) - v_rev_rates.[121] * (#(-1.0) + (- $v_T) * (v_dBdT.[14] + v_dBdT.[2] - v_dBdT.[8] - v_dBdT.[3]))) * $v_rho_inv));
  (*247*) Do (AddA v_jac 9 ((- $v_j_temp) * #1.2010999999999999e+01));
  (*248*) Do (AddA v_jac 3 ($v_j_temp * #1.5999400000000000e+01));
  (*249*) Do (AddA v_jac 4 ((- $v_j_temp) * #3.1998799999999999e+01));
  (*250*) Do (AddA v_jac 15 ($v_j_temp * #2.8010399999999997e+01));
  (*473*) Do (Asn v_j_temp 0 (#1.0 / $v_T * (v_fwd_rates.[122] * #(-1.0) - v_rev_rates.[122] * (#(-1.0) + (- $v_T) * (v_dBdT.[1] + v_dBdT.[21] - v_dBdT.[8] - v_dBdT.[10]))) * $v_rho_inv));
  (*474*) Do (AddA v_jac 9 ((- $v_j_temp) * #1.2010999999999999e+01));
  (*475*) Do (AddA v_jac 2 ($v_j_temp * #1.0079400000000001e+00));
  (*476*) Do (AddA v_jac 11 ((- $v_j_temp) * #1.4026879999999998e+01));
  (*477*) Do (AddA v_jac 22 ($v_j_temp * #2.5029940000000000e+01));
  (*700*) Do (Asn v_j_temp 0 (#1.0 / $v_T * (v_fwd_rates.[123] * #(-1.0) - v_rev_rates.[123] * (#(-1.0) + (- $v_T) * (v_dBdT.[1] + v_dBdT.[22] - v_dBdT.[8] - v_dBdT.[12]))) * $v_rho_inv));
  (*701*) Do (AddA v_jac 9 ((- $v_j_temp) * #1.2010999999999999e+01));
  (*702*) Do (AddA v_jac 2 ($v_j_temp * #1.0079400000000001e+00));
  (*703*) Do (AddA v_jac 13 ((- $v_j_temp) * #1.5034820000000000e+01));
  (*704*) Do (AddA v_jac 23 ($v_j_temp * #2.6037879999999998e+01));
  (*927*) Do (Asn v_j_temp 0 (#1.0 / $v_T * (v_fwd_rates.[124] * #(-1.0) - v_rev_rates.[124] * (#(-1.0) + (- $v_T) * (v_dBdT.[16] + v_dBdT.[2] - v_dBdT.[9] - v_dBdT.[3]))) * $v_rho_inv));
  (*928*) Do (AddA v_jac 17 ($v_j_temp * #2.9018339999999998e+01));
  (*929*) Do (AddA v_jac 10 ((- $v_j_temp) * #1.3018939999999999e+01));
  (*930*) Do (AddA v_jac 3 ($v_j_temp * #1.5999400000000000e+01));
  (*931*) Do (AddA v_jac 4 ((- $v_j_temp) * #3.1998799999999999e+01));
  (*1154*) Do (Asn v_j_temp 0 (#1.0 / $v_T * ((v_fwd_rates.[125] - v_rev_rates.[125]) * (#1.5650128467119957e+03 / $v_T) + v_fwd_rates.[125] * #(-1.0) - v_rev_rates.[125] * (#(-1.0) + (- $v_T) * (v_dBdT.[1] + v_dBdT.[10] - v_dBdT.[0] - v_dBdT.[9]))) * $v_rho_inv));
  (*1155*) Do (AddA v_jac 1 ((- $v_j_temp) * #2.0158800000000001e+00));
  (*1156*) Do (AddA v_jac 10 ((- $v_j_temp) * #1.3018939999999999e+01));
  (*1157*) Do (AddA v_jac 11 ($v_j_temp * #1.4026879999999998e+01));
  (*1158*) Do (AddA v_jac 2 ($v_j_temp * #1.0079400000000001e+00));
  (*1381*) Do (Asn v_j_temp 0 (#1.0 / $v_T * ((v_fwd_rates.[126] - v_rev_rates.[126]) * (#(-3.7993077146866779e+02) / $v_T) + v_fwd_rates.[126] * #(-1.0) - v_rev_rates.[126] * (#(-1.0) + (- $v_T) * (v_dBdT.[17] + v_dBdT.[1] - v_dBdT.[5] - v_dBdT.[9]))) * $v_rho_inv));
  (*1382*) Do (AddA v_jac 10 ((- $v_j_temp) * #1.3018939999999999e+01));
  (*1383*) Do (AddA v_jac 2 ($v_j_temp * #1.0079400000000001e+00));
  (*1384*) Do (AddA v_jac 6 ((- $v_j_temp) * #1.8015280000000001e+01));
  (*1385*) Do (AddA v_jac 18 ($v_j_temp * #3.0026280000000000e+01));
  (*1608*) Do (Asn v_j_temp 0 (#1.0 / $v_T * (v_fwd_rates.[127] * #(-1.0) - v_rev_rates.[127] * (#(-1.0) + (- $v_T) * (v_dBdT.[1] + v_dBdT.[22] - v_dBdT.[10] - v_dBdT.[9]))) * $v_rho_inv));
  (*1609*) Do (AddA v_jac 10 ((- $v_j_temp) * #1.3018939999999999e+01));
  (*1610*) Do (AddA v_jac 11 ((- $v_j_temp) * #1.4026879999999998e+01));
  (*1611*) Do (AddA v_jac 23 ($v_j_temp * #2.6037879999999998e+01));
  (*1612*) Do (AddA v_jac 2 ($v_j_temp * #1.0079400000000001e+00));
  (*1835*) Do (Asn v_j_temp 0 (#1.0 / $v_T * (v_fwd_rates.[128] * #(-1.0) - v_rev_rates.[128] * (#(-1.0) + (- $v_T) * (v_dBdT.[1] + v_dBdT.[23] - v_dBdT.[9] - v_dBdT.[12]))) * $v_rho_inv));
  (*1836*) Do (AddA v_jac 10 ((- $v_j_temp) * #1.3018939999999999e+01));
  (*1837*) Do (AddA v_jac 24 ($v_j_temp * #2.7045819999999999e+01));
  (*1838*) Do (AddA v_jac 13 ((- $v_j_temp) * #1.5034820000000000e+01));
  (*1839*) Do (AddA v_jac 2 ($v_j_temp * #1.0079400000000001e+00));
  (*2062*) Do (Asn v_j_temp 0 (#1.0 / $v_T * (v_fwd_rates.[129] * #(-1.0) - v_rev_rates.[129] * (#(-1.0) + (- $v_T) * (v_dBdT.[1] + v_dBdT.[24] - v_dBdT.[9] - v_dBdT.[13]))) * $v_rho_inv));
  (*2063*) Do (AddA v_jac 25 ($v_j_temp * #2.8053759999999997e+01));
  (*2064*) Do (AddA v_jac 10 ((- $v_j_temp) * #1.3018939999999999e+01));
  (*2065*) Do (AddA v_jac 14 ((- $v_j_temp) * #1.6042760000000001e+01));
  (*2066*) Do (AddA v_jac 2 ($v_j_temp * #1.0079400000000001e+00));
  (*2289*) Do (Asn v_conc_temp 0 ($v_m + #1.0 * v_conc.[0] + #5.0 * v_conc.[5] + #1.0 * v_conc.[13] + #0.5 * v_conc.[14] + #1.0 * v_conc.[15] + #2.0 * v_conc.[26] - #0.3 * v_conc.[47]));
  (*2290*) Do (Asn v_Pr 0 ($v_conc_temp * (Exp (#2.7011124397108194e+01 - #3.74 * $v_logT - #9.7423307756733891e+02 / $v_T))));
  (*2291*) Do (Asn v_Fcent 0 (#4.2430000000000001e-01 * (Exp ($v_T / #(-2.3700000000000003e+02))) + #5.7569999999999999e-01 * (Exp ($v_T / #(-1.6520000000000000e+03))) + (Exp (#(-5.0690000000000000e+03) / $v_T))));
  (*2292*) Do (Asn v_A 0 ((Log10 (Fmax $v_Pr #1.0e-300)) - #0.67 * (Log10 (Fmax $v_Fcent #1.0e-300)) - #0.4));
  (*2293*) Do (Asn v_B 0 (#0.806 - #1.1762 * (Log10 (Fmax $v_Fcent #1.0e-300)) - #0.14 * (Log10 (Fmax $v_Pr #1.0e-300))));
  (*2294*) Do (Asn v_lnF_AB 0 (#2.0 * (Log (Fmax $v_Fcent #1.0e-300)) * $v_A / ($v_B * $v_B * $v_B * (#1.0 + $v_A * $v_A / ($v_B * $v_B)) * (#1.0 + $v_A * $v_A / ($v_B * $v_B)))));
  (*2295*) Do (Asn v_j_temp 0 ((v_pres_mod.[21] * ((#(-3.7400e+00) + #9.7423307756733891e+02 / $v_T - #1.0) / ($v_T * (#1.0 + $v_Pr)) + (#1.0 / ($v_Fcent * (#1.0 + $v_A * $v_A / ($v_B * $v_B))) - $v_lnF_AB * (#(-2.9097730287517870e-01) * $v_B + #5.1081716961460466e-01 * $v_A) / $v_Fcent) * (#(-1.7902953586497888e-03) * (Exp ($v_T / #(-2.3700000000000003e+02))) - #3.4848668280871670e-04 * (Exp ($v_T / #(-1.6520000000000000e+03))) + #5.0690000000000000e+03 / ($v_T * $v_T) * (Exp (#(-5.0690000000000000e+03) / $v_T))) - $v_lnF_AB * (#4.3429448190325176e-01 * $v_B + #6.0801227466455256e-02 * $v_A) * (#(-3.7400000000000002e+00) + #9.7423307756733891e+02 / $v_T - #1.0) / $v_T) * (v_fwd_rates.[130] - v_rev_rates.[130]) + v_pres_mod.[21] / $v_T * (v_fwd_rates.[130] * #(-1.0) - v_rev_rates.[130] * ((- $v_T) * (v_dBdT.[27] - v_dBdT.[9] - v_dBdT.[14])))) * $v_rho_inv));
  (*2296*) Do (AddA v_jac 10 ((- $v_j_temp) * #1.3018939999999999e+01));
  (*2297*) Do (AddA v_jac 28 ($v_j_temp * #4.1029339999999998e+01));
  (*2298*) Do (AddA v_jac 15 ((- $v_j_temp) * #2.8010399999999997e+01));
  (*2471*) Do (Asn v_j_temp 0 (#1.0 / $v_T * ((v_fwd_rates.[131] - v_rev_rates.[131]) * (#7.9468433682558962e+03 / $v_T) + v_fwd_rates.[131] * #(-1.0) - v_rev_rates.[131] * (#(-1.0) + (- $v_T) * (v_dBdT.[14] + v_dBdT.[16] - v_dBdT.[9] - v_dBdT.[15]))) * $v_rho_inv));
  (*2472*) Do (AddA v_jac 17 ($v_j_temp * #2.9018339999999998e+01));
  (*2473*) Do (AddA v_jac 10 ((- $v_j_temp) * #1.3018939999999999e+01));
  (*2474*) Do (AddA v_jac 15 ($v_j_temp * #2.8010399999999997e+01));
  (*2475*) Do (AddA v_jac 16 ((- $v_j_temp) * #4.4009799999999998e+01));
  (*2698*) Do (Asn v_j_temp 0 (#1.0 / $v_T * ((v_fwd_rates.[132] - v_rev_rates.[132]) * (#(-2.5915807590246874e+02) / $v_T) + v_fwd_rates.[132] * #(-1.0) - v_rev_rates.[132] * (#(-1.0) + (- $v_T) * (v_dBdT.[1] + v_dBdT.[28] - v_dBdT.[17] - v_dBdT.[9]))) * $v_rho_inv));
  (*2699*) Do (AddA v_jac 18 ((- $v_j_temp) * #3.0026280000000000e+01));
  (*2700*) Do (AddA v_jac 2 ($v_j_temp * #1.0079400000000001e+00));
  (*2701*) Do (AddA v_jac 29 ($v_j_temp * #4.2037279999999996e+01));
  (*2702*) Do (AddA v_jac 10 ((- $v_j_temp) * #1.3018939999999999e+01));
  (*2925*) Do (Asn v_j_temp 0 (#1.0 / $v_T * (v_fwd_rates.[133] * #(-1.0) - v_rev_rates.[133] * (#(-1.0) + (- $v_T) * (v_dBdT.[14] + v_dBdT.[22] - v_dBdT.[9] - v_dBdT.[27]))) * $v_rho_inv));
  (*2926*) Do (AddA v_jac 10 ((- $v_j_temp) * #1.3018939999999999e+01));
  (*2927*) Do (AddA v_jac 28 ((- $v_j_temp) * #4.1029339999999998e+01));
  (*2928*) Do (AddA v_jac 23 ($v_j_temp * #2.6037879999999998e+01));
  (*2929*) Do (AddA v_jac 15 ($v_j_temp * #2.8010399999999997e+01));
  (*3152*) Do (Asn v_j_temp 0 (#1.0 / $v_T * (v_fwd_rates.[134] * (#7.5482934728874397e+02 / $v_T + #(-1.0))) * $v_rho_inv));
  (*3153*) Do (AddA v_jac 2 ($v_j_temp * #1.0079400000000001e+00));
  (*3154*) Do (AddA v_jac 11 ((- $v_j_temp) * #1.4026879999999998e+01));
  (*3155*) Do (AddA v_jac 4 ((- $v_j_temp) * #3.1998799999999999e+01));
  (*3156*) Do (AddA v_jac 5 ($v_j_temp * #1.7007339999999999e+01));
  (*3157*) Do (AddA v_jac 15 ($v_j_temp * #2.8010399999999997e+01));
  (*3424*) Do (Asn v_j_temp 0 (#1.0 / $v_T * ((v_fwd_rates.[135] - v_rev_rates.[134]) * (#2.0000000000000000e+00 + #3.6382774539317456e+03 / $v_T) + v_fwd_rates.[135] * #(-1.0) - v_rev_rates.[134] * (#(-1.0) + (- $v_T) * (v_dBdT.[1] + v_dBdT.[12] - v_dBdT.[0] - v_dBdT.[10]))) * $v_rho_inv));
  (*3425*) Do (AddA v_jac 1 ((- $v_j_temp) * #2.0158800000000001e+00));
  (*3426*) Do (AddA v_jac 2 ($v_j_temp * #1.0079400000000001e+00));
  (*3427*) Do (AddA v_jac 11 ((- $v_j_temp) * #1.4026879999999998e+01));
  (*3428*) Do (AddA v_jac 13 ($v_j_temp * #1.5034820000000000e+01));
  (*3651*) Do (Asn v_j_temp 0 (#1.0 / $v_T * ((v_fwd_rates.[136] - v_rev_rates.[135]) * (#6.0104544826778383e+03 / $v_T) + v_fwd_rates.[136] * #(-1.0) - v_rev_rates.[135] * (#(-1.0) + (- $v_T) * (v_dBdT.[0] + v_dBdT.[22] - #2.0 * v_dBdT.[10]))) * $v_rho_inv));
  (*3652*) Do (AddA v_jac 1 ($v_j_temp * #2.0158800000000001e+00));
  (*3653*) Do (AddA v_jac 11 ($v_j_temp * #(-2.0) * #1.4026879999999998e+01));
  (*3654*) Do (AddA v_jac 23 ($v_j_temp * #2.6037879999999998e+01));
  (*3825*) Do (Asn v_j_temp 0 (#1.0 / $v_T * (v_fwd_rates.[137] * #(-1.0) - v_rev_rates.[136] * (#(-1.0) + (- $v_T) * (v_dBdT.[1] + v_dBdT.[24] - v_dBdT.[10] - v_dBdT.[12]))) * $v_rho_inv));
  (*3826*) Do (AddA v_jac 25 ($v_j_temp * #2.8053759999999997e+01));
  (*3827*) Do (AddA v_jac 2 ($v_j_temp * #1.0079400000000001e+00));
  (*3828*) Do (AddA v_jac 11 ((- $v_j_temp) * #1.4026879999999998e+01));
  (*3829*) Do (AddA v_jac 13 ((- $v_j_temp) * #1.5034820000000000e+01));
  (*4052*) Do (Asn v_j_temp 0 (#1.0 / $v_T * ((v_fwd_rates.[138] - v_rev_rates.[137]) * (#2.0000000000000000e+00 + #4.1616258013852748e+03 / $v_T) + v_fwd_rates.[138] * #(-1.0) - v_rev_rates.[137] * (#(-1.0) + (- $v_T) * (#2.0 * v_dBdT.[12] - v_dBdT.[10] - v_dBdT.[13]))) * $v_rho_inv));
  (*4053*) Do (AddA v_jac 11 ((- $v_j_temp) * #1.4026879999999998e+01));
  (*4054*) Do (AddA v_jac 13 ($v_j_temp * #2.0 * #1.5034820000000000e+01));
  (*4055*) Do (AddA v_jac 14 ((- $v_j_temp) * #1.6042760000000001e+01));
  (*4226*) Do (Asn v_Pr 0 ($v_conc_temp * (Exp (#4.2646793898822224e+01 - #5.61 * $v_logT - #1.3008225751609357e+03 / $v_T))));
  (*4227*) Do (Asn v_Fcent 0 (#4.0930000000000000e-01 * (Exp ($v_T / #(-2.7500000000000000e+02))) + #5.9070000000000000e-01 * (Exp ($v_T / #(-1.2260000000000000e+03))) + (Exp (#(-5.1850000000000000e+03) / $v_T))));
  (*4228*) Do (Asn v_A 0 ((Log10 (Fmax $v_Pr #1.0e-300)) - #0.67 * (Log10 (Fmax $v_Fcent #1.0e-300)) - #0.4));
  (*4229*) Do (Asn v_B 0 (#0.806 - #1.1762 * (Log10 (Fmax $v_Fcent #1.0e-300)) - #0.14 * (Log10 (Fmax $v_Pr #1.0e-300))));
  (*4230*) Do (Asn v_lnF_AB 0 (#2.0 * (Log (Fmax $v_Fcent #1.0e-300)) * $v_A / ($v_B * $v_B * $v_B * (#1.0 + $v_A * $v_A / ($v_B * $v_B)) * (#1.0 + $v_A * $v_A / ($v_B * $v_B)))));
  (*4231*) Do (Asn v_j_temp 0 ((v_pres_mod.[22] * ((#(-5.6100e+00) + #1.3008225751609357e+03 / $v_T - #1.0) / ($v_T * (#1.0 + $v_Pr)) + (#1.0 / ($v_Fcent * (#1.0 + $v_A * $v_A / ($v_B * $v_B))) - $v_lnF_AB * (#(-2.9097730287517870e-01) * $v_B + #5.1081716961460466e-01 * $v_A) / $v_Fcent) * (#(-1.4883636363636364e-03) * (Exp ($v_T / #(-2.7500000000000000e+02))) - #4.8181076672104407e-04 * (Exp ($v_T / #(-1.2260000000000000e+03))) + #5.1850000000000000e+03 / ($v_T * $v_T) * (Exp (#(-5.1850000000000000e+03) / $v_T))) - $v_lnF_AB * (#4.3429448190325176e-01 * $v_B + #6.0801227466455256e-02 * $v_A) * (#(-5.6100000000000003e+00) + #1.3008225751609357e+03 / $v_T - #1.0) / $v_T) * (v_fwd_rates.[139] - v_rev_rates.[138]) + v_pres_mod.[22] / $v_T * ((v_fwd_rates.[139] - v_rev_rates.[138]) * (#5.0000000000000000e-01 + #2.2695202375148233e+03 / $v_T) + v_fwd_rates.[139] * #(-1.0) - v_rev_rates.[138] * ((- $v_T) * (v_dBdT.[28] - v_dBdT.[10] - v_dBdT.[14])))) * $v_rho_inv));
  (*4232*) Do (AddA v_jac 11 ((- $v_j_temp) * #1.4026879999999998e+01));
  (*4233*) Do (AddA v_jac 29 ($v_j_temp * #4.2037279999999996e+01));
  (*4234*) Do (AddA v_jac 15 ((- $v_j_temp) * #2.8010399999999997e+01));
  (*4407*) Do (Asn v_j_temp 0 (#1.0 / $v_T * (v_fwd_rates.[140] * #(-1.0) - v_rev_rates.[139] * (#(-1.0) + (- $v_T) * (v_dBdT.[23] + v_dBdT.[14] - v_dBdT.[10] - v_dBdT.[27]))) * $v_rho_inv));
  (*4408*) Do (AddA v_jac 11 ((- $v_j_temp) * #1.4026879999999998e+01));
  (*4409*) Do (AddA v_jac 28 ((- $v_j_temp) * #4.1029339999999998e+01));
  (*4410*) Do (AddA v_jac 15 ($v_j_temp * #2.8010399999999997e+01));
  (*4411*) Do (AddA v_jac 24 ($v_j_temp * #2.7045819999999999e+01));
  (*4634*) Do (Asn v_j_temp 0 (#1.0 / $v_T * ((v_fwd_rates.[141] - v_rev_rates.[140]) * (#3.0193173891549759e+02 / $v_T) + v_fwd_rates.[141] * #(-1.0) - v_rev_rates.[140] * (#(-1.0) + (- $v_T) * (v_dBdT.[10] - v_dBdT.[11]))) * $v_rho_inv));
  (*4635*) Do (AddA v_jac 11 ($v_j_temp * #1.4026879999999998e+01));
  (*4636*) Do (AddA v_jac 12 ((- $v_j_temp) * #1.4026879999999998e+01));
  (*4755*) Do (Asn v_j_temp 0 (#1.0 / $v_T * ((v_fwd_rates.[142] - v_rev_rates.[141]) * (#3.0193173891549759e+02 / $v_T) + v_fwd_rates.[142] * #(-1.0) - v_rev_rates.[141] * (#(-1.0) + (- $v_T) * (v_dBdT.[10] - v_dBdT.[11]))) * $v_rho_inv));
  (*4756*) Do (AddA v_jac 11 ($v_j_temp * #1.4026879999999998e+01));
  (*4757*) Do (AddA v_jac 12 ((- $v_j_temp) * #1.4026879999999998e+01));
  (*4876*) Do (Asn v_j_temp 0 (#1.0 / $v_T * (v_fwd_rates.[143] * #(-1.0) - v_rev_rates.[142] * (#(-2.0) + (- $v_T) * (v_dBdT.[1] + v_dBdT.[14] + v_dBdT.[4] - v_dBdT.[11] - v_dBdT.[3]))) * $v_rho_inv));
  (*4877*) Do (AddA v_jac 4 ((- $v_j_temp) * #3.1998799999999999e+01));
  (*4878*) Do (AddA v_jac 2 ($v_j_temp * #1.0079400000000001e+00));
  (*4879*) Do (AddA v_jac 12 ((- $v_j_temp) * #1.4026879999999998e+01));
  (*4880*) Do (AddA v_jac 5 ($v_j_temp * #1.7007339999999999e+01));
  (*4881*) Do (AddA v_jac 15 ($v_j_temp * #2.8010399999999997e+01));
  (*5156*) Do (Asn v_j_temp 0 (#1.0 / $v_T * (v_fwd_rates.[144] * #(-1.0) - v_rev_rates.[143] * (#(-1.0) + (- $v_T) * (v_dBdT.[5] + v_dBdT.[14] - v_dBdT.[11] - v_dBdT.[3]))) * $v_rho_inv));
  (*5157*) Do (AddA v_jac 4 ((- $v_j_temp) * #3.1998799999999999e+01));
  (*5158*) Do (AddA v_jac 12 ((- $v_j_temp) * #1.4026879999999998e+01));
  (*5159*) Do (AddA v_jac 6 ($v_j_temp * #1.8015280000000001e+01));
  (*5160*) Do (AddA v_jac 15 ($v_j_temp * #2.8010399999999997e+01));
  (*5383*) Do (Asn v_j_temp 0 (#1.0 / $v_T * (v_fwd_rates.[145] * #(-1.0) - v_rev_rates.[144] * (#(-1.0) + (- $v_T) * (v_dBdT.[1] + v_dBdT.[12] - v_dBdT.[0] - v_dBdT.[11]))) * $v_rho_inv));
  (*5384*) Do (AddA v_jac 1 ((- $v_j_temp) * #2.0158800000000001e+00));
  (*5385*) Do (AddA v_jac 2 ($v_j_temp * #1.0079400000000001e+00));
  (*5386*) Do (AddA v_jac 12 ((- $v_j_temp) * #1.4026879999999998e+01));
  (*5387*) Do (AddA v_jac 13 ($v_j_temp * #1.5034820000000000e+01));
  (*5610*) Do (AddA v_conc_temp 0 (#0.3 * v_conc.[47]));
  (*5611*) Do (Asn v_Pr 0 ($v_conc_temp * (Exp (#4.0505029522672174e+01 - #5.2 * $v_logT - #1.9600402051264382e+03 / $v_T))));
  (*5612*) Do (Asn v_Fcent 0 (#3.9729999999999999e-01 * (Exp ($v_T / #(-2.0800000000000000e+02))) + #6.0270000000000001e-01 * (Exp ($v_T / #(-3.9219999999999995e+03))) + (Exp (#(-1.0180000000000000e+04) / $v_T))));
  (*5613*) Do (Asn v_A 0 ((Log10 (Fmax $v_Pr #1.0e-300)) - #0.67 * (Log10 (Fmax $v_Fcent #1.0e-300)) - #0.4));
  (*5614*) Do (Asn v_B 0 (#0.806 - #1.1762 * (Log10 (Fmax $v_Fcent #1.0e-300)) - #0.14 * (Log10 (Fmax $v_Pr #1.0e-300))));
  (*5615*) Do (Asn v_lnF_AB 0 (#2.0 * (Log (Fmax $v_Fcent #1.0e-300)) * $v_A / ($v_B * $v_B * $v_B * (#1.0 + $v_A * $v_A / ($v_B * $v_B)) * (#1.0 + $v_A * $v_A / ($v_B * $v_B)))));
  (*5616*) Do (Asn v_j_temp 0 ((v_pres_mod.[23] * ((#(-5.2000e+00) + #1.9600402051264382e+03 / $v_T - #1.0) / ($v_T * (#1.0 + $v_Pr)) + (#1.0 / ($v_Fcent * (#1.0 + $v_A * $v_A / ($v_B * $v_B))) - $v_lnF_AB * (#(-2.9097730287517870e-01) * $v_B + #5.1081716961460466e-01 * $v_A) / $v_Fcent) * (#(-1.9100961538461537e-03) * (Exp ($v_T / #(-2.0800000000000000e+02))) - #1.5367159612442632e-04 * (Exp ($v_T / #(-3.9219999999999995e+03))) + #1.0180000000000000e+04 / ($v_T * $v_T) * (Exp (#(-1.0180000000000000e+04) / $v_T))) - $v_lnF_AB * (#4.3429448190325176e-01 * $v_B + #6.0801227466455256e-02 * $v_A) * (#(-5.2000000000000002e+00) + #1.9600402051264382e+03 / $v_T - #1.0) / $v_T) * (v_fwd_rates.[146] - v_rev_rates.[145]) + v_pres_mod.[23] / $v_T * ((v_fwd_rates.[146] - v_rev_rates.[145]) * (#(-1.1599999999999999e+00) + #5.7618640176374117e+02 / $v_T) + v_fwd_rates.[146] * #(-1.0) - v_rev_rates.[145] * ((- $v_T) * (v_dBdT.[20] - v_dBdT.[11] - v_dBdT.[5])))) * $v_rho_inv));
  (*5617*) Do (AddA v_jac 12 ((- $v_j_temp) * #1.4026879999999998e+01));
  (*5618*) Do (AddA v_jac 21 ($v_j_temp * #3.2042159999999996e+01));
  (*5619*) Do (AddA v_jac 6 ((- $v_j_temp) * #1.8015280000000001e+01));
  (*5792*) Do (Asn v_j_temp 0 (#1.0 / $v_T * (v_fwd_rates.[147] * #(-1.0) - v_rev_rates.[146] * (#(-1.0) + (- $v_T) * (v_dBdT.[10] - v_dBdT.[11]))) * $v_rho_inv));
  (*5793*) Do (AddA v_jac 11 ($v_j_temp * #1.4026879999999998e+01));
  (*5794*) Do (AddA v_jac 12 ((- $v_j_temp) * #1.4026879999999998e+01));
  (*5913*) Do (Asn v_j_temp 0 (#1.0 / $v_T * ((v_fwd_rates.[148] - v_rev_rates.[147]) * (#(-2.8683515196972269e+02) / $v_T) + v_fwd_rates.[148] * #(-1.0) - v_rev_rates.[147] * (#(-1.0) + (- $v_T) * (v_dBdT.[1] + v_dBdT.[24] - v_dBdT.[11] - v_dBdT.[12]))) * $v_rho_inv));
  (*5914*) Do (AddA v_jac 25 ($v_j_temp * #2.8053759999999997e+01));
  (*5915*) Do (AddA v_jac 2 ($v_j_temp * #1.0079400000000001e+00));
  (*5916*) Do (AddA v_jac 12 ((- $v_j_temp) * #1.4026879999999998e+01));
  (*5917*) Do (AddA v_jac 13 ((- $v_j_temp) * #1.5034820000000000e+01));
  (*6140*) Do (Asn v_j_temp 0 (#1.0 / $v_T * ((v_fwd_rates.[149] - v_rev_rates.[148]) * (#(-2.8683515196972269e+02) / $v_T) + v_fwd_rates.[149] * #(-1.0) - v_rev_rates.[148] * (#(-1.0) + (- $v_T) * (#2.0 * v_dBdT.[12] - v_dBdT.[11] - v_dBdT.[13]))) * $v_rho_inv));
  (*6141*) Do (AddA v_jac 12 ((- $v_j_temp) * #1.4026879999999998e+01));
  (*6142*) Do (AddA v_jac 13 ($v_j_temp * #2.0 * #1.5034820000000000e+01));
  (*6143*) Do (AddA v_jac 14 ((- $v_j_temp) * #1.6042760000000001e+01));
  (*6314*) Do (Asn v_j_temp 0 (#1.0 / $v_T * (v_fwd_rates.[150] * #(-1.0) - v_rev_rates.[149] * (#(-1.0) + (- $v_T) * (v_dBdT.[10] - v_dBdT.[11]))) * $v_rho_inv));
  (*6315*) Do (AddA v_jac 11 ($v_j_temp * #1.4026879999999998e+01));
  (*6316*) Do (AddA v_jac 12 ((- $v_j_temp) * #1.4026879999999998e+01));
  (*6435*) Do (Asn v_j_temp 0 (#1.0 / $v_T * (v_fwd_rates.[151] * #(-1.0) - v_rev_rates.[150] * (#(-1.0) + (- $v_T) * (v_dBdT.[10] - v_dBdT.[11]))) * $v_rho_inv));
  (*6436*) Do (AddA v_jac 11 ($v_j_temp * #1.4026879999999998e+01));
  (*6437*) Do (AddA v_jac 12 ((- $v_j_temp) * #1.4026879999999998e+01));
  (*6556*) Do (Asn v_j_temp 0 (#1.0 / $v_T * (v_fwd_rates.[152] * #(-1.0) - v_rev_rates.[151] * (#(-1.0) + (- $v_T) * (v_dBdT.[17] + v_dBdT.[14] - v_dBdT.[11] - v_dBdT.[15]))) * $v_rho_inv));
  (*6557*) Do (AddA v_jac 18 ($v_j_temp * #3.0026280000000000e+01));
  (*6558*) Do (AddA v_jac 12 ((- $v_j_temp) * #1.4026879999999998e+01));
  (*6559*) Do (AddA v_jac 15 ($v_j_temp * #2.8010399999999997e+01));
  (*6560*) Do (AddA v_jac 16 ((- $v_j_temp) * #4.4009799999999998e+01));
  (*6783*) Do (Asn v_j_temp 0 (#1.0 / $v_T * ((v_fwd_rates.[153] - v_rev_rates.[152]) * (#(-2.7677076067253944e+02) / $v_T) + v_fwd_rates.[153] * #(-1.0) - v_rev_rates.[152] * (#(-1.0) + (- $v_T) * (v_dBdT.[25] + v_dBdT.[12] - v_dBdT.[26] - v_dBdT.[11]))) * $v_rho_inv));
  (*6784*) Do (AddA v_jac 26 ($v_j_temp * #2.9061699999999998e+01));
  (*6785*) Do (AddA v_jac 27 ((- $v_j_temp) * #3.0069640000000000e+01));
  (*6786*) Do (AddA v_jac 12 ((- $v_j_temp) * #1.4026879999999998e+01));
  (*6787*) Do (AddA v_jac 13 ($v_j_temp * #1.5034820000000000e+01));
  (*7010*) Do (Asn v_j_temp 0 (#1.0 / $v_T * ((v_fwd_rates.[154] - v_rev_rates.[153]) * (#1.5338132336907278e+04 / $v_T) + v_fwd_rates.[154] * #(-1.0) - v_rev_rates.[153] * (#(-1.0) + (- $v_T) * (v_dBdT.[19] + v_dBdT.[2] - v_dBdT.[12] - v_dBdT.[3]))) * $v_rho_inv));
  (*7011*) Do (AddA v_jac 20 ($v_j_temp * #3.1034219999999998e+01));
  (*7012*) Do (AddA v_jac 3 ($v_j_temp * #1.5999400000000000e+01));
  (*7013*) Do (AddA v_jac 4 ((- $v_j_temp) * #3.1998799999999999e+01));
  (*7014*) Do (AddA v_jac 13 ((- $v_j_temp) * #1.5034820000000000e+01));
  (*7237*) Do (Asn v_j_temp 0 (#1.0 / $v_T * ((v_fwd_rates.[155] - v_rev_rates.[154]) * (#1.0222905460113889e+04 / $v_T) + v_fwd_rates.[155] * #(-1.0) - v_rev_rates.[154] * (#(-1.0) + (- $v_T) * (v_dBdT.[17] + v_dBdT.[4] - v_dBdT.[12] - v_dBdT.[3]))) * $v_rho_inv));
  (*7238*) Do (AddA v_jac 18 ($v_j_temp * #3.0026280000000000e+01));
  (*7239*) Do (AddA v_jac 4 ((- $v_j_temp) * #3.1998799999999999e+01));
  (*7240*) Do (AddA v_jac 13 ((- $v_j_temp) * #1.5034820000000000e+01));
  (*7241*) Do (AddA v_jac 5 ($v_j_temp * #1.7007339999999999e+01));
  (*7464*) Do (Asn v_j_temp 0 (#1.0 / $v_T * ((v_fwd_rates.[156] - v_rev_rates.[155]) * (#2.4700000000000002e+00 + #2.6066773459704623e+03 / $v_T) + v_fwd_rates.[156] * #(-1.0) - v_rev_rates.[155] * (#(-1.0) + (- $v_T) * (v_dBdT.[13] + v_dBdT.[6] - v_dBdT.[12] - v_dBdT.[7]))) * $v_rho_inv));
  (*7465*) Do (AddA v_jac 13 ((- $v_j_temp) * #1.5034820000000000e+01));
  (*7466*) Do (AddA v_jac 14 ($v_j_temp * #1.6042760000000001e+01));
  (*7467*) Do (AddA v_jac 7 ($v_j_temp * #3.3006740000000001e+01));
  (*7468*) Do (AddA v_jac 8 ((- $v_j_temp) * #3.4014679999999998e+01));
  (*7691*) Do (AddA v_conc_temp 0 (#(-0.3) * v_conc.[47]));
  (*7692*) Do (Asn v_Pr 0 ($v_conc_temp * (Exp (#4.9968146390566936e+01 - #5.85 * $v_logT - #1.0607868427231149e+03 / $v_T))));
  (*7693*) Do (Asn v_Fcent 0 (#3.8100000000000001e-01 * (Exp ($v_T / #(-7.3200000000000003e+01))) + #6.1899999999999999e-01 * (Exp ($v_T / #(-1.1800000000000000e+03))) + (Exp (#(-9.9990000000000000e+03) / $v_T))));
  (*7694*) Do (Asn v_A 0 ((Log10 (Fmax $v_Pr #1.0e-300)) - #0.67 * (Log10 (Fmax $v_Fcent #1.0e-300)) - #0.4));
  (*7695*) Do (Asn v_B 0 (#0.806 - #1.1762 * (Log10 (Fmax $v_Fcent #1.0e-300)) - #0.14 * (Log10 (Fmax $v_Pr #1.0e-300))));
  (*7696*) Do (Asn v_lnF_AB 0 (#2.0 * (Log (Fmax $v_Fcent #1.0e-300)) * $v_A / ($v_B * $v_B * $v_B * (#1.0 + $v_A * $v_A / ($v_B * $v_B)) * (#1.0 + $v_A * $v_A / ($v_B * $v_B)))));
  (*7697*) Do (Asn v_j_temp 0 ((v_pres_mod.[24] * ((#(-5.8500e+00) + #1.0607868427231149e+03 / $v_T - #1.0) / ($v_T * (#1.0 + $v_Pr)) + (#1.0 / ($v_Fcent * (#1.0 + $v_A * $v_A / ($v_B * $v_B))) - $v_lnF_AB * (#(-2.9097730287517870e-01) * $v_B + #5.1081716961460466e-01 * $v_A) / $v_Fcent) * (#(-5.2049180327868854e-03) * (Exp ($v_T / #(-7.3200000000000003e+01))) - #5.2457627118644072e-04 * (Exp ($v_T / #(-1.1800000000000000e+03))) + #9.9990000000000000e+03 / ($v_T * $v_T) * (Exp (#(-9.9990000000000000e+03) / $v_T))) - $v_lnF_AB * (#4.3429448190325176e-01 * $v_B + #6.0801227466455256e-02 * $v_A) * (#(-5.8500000000000005e+00) + #1.0607868427231149e+03 / $v_T - #1.0) / $v_T) * (v_fwd_rates.[157] - v_rev_rates.[156]) + v_pres_mod.[24] / $v_T * ((v_fwd_rates.[157] - v_rev_rates.[156]) * (#(-1.1799999999999999e+00) + #3.2910559541789235e+02 / $v_T) + v_fwd_rates.[157] * #(-1.0) - v_rev_rates.[156] * ((- $v_T) * (v_dBdT.[26] - #2.0 * v_dBdT.[12])))) * $v_rho_inv));
  (*7698*) Do (AddA v_jac 27 ($v_j_temp * #3.0069640000000000e+01));
  (*7699*) Do (AddA v_jac 13 ($v_j_temp * #(-2.0) * #1.5034820000000000e+01));
  (*7820*) Do (Asn v_j_temp 0 (#1.0 / $v_T * ((v_fwd_rates.[158] - v_rev_rates.[157]) * (#1.0000000000000001e-01 + #5.3341273875071238e+03 / $v_T) + v_fwd_rates.[158] * #(-1.0) - v_rev_rates.[157] * (#(-1.0) + (- $v_T) * (v_dBdT.[1] + v_dBdT.[25] - #2.0 * v_dBdT.[12]))) * $v_rho_inv));
  (*7821*) Do (AddA v_jac 2 ($v_j_temp * #1.0079400000000001e+00));
  (*7822*) Do (AddA v_jac 13 ($v_j_temp * #(-2.0) * #1.5034820000000000e+01));
  (*7823*) Do (AddA v_jac 26 ($v_j_temp * #2.9061699999999998e+01));
  (*7994*) Do (Asn v_j_temp 0 (#1.0 / $v_T * (v_fwd_rates.[159] * #(-1.0) - v_rev_rates.[158] * (#(-1.0) + (- $v_T) * (v_dBdT.[13] + v_dBdT.[14] - v_dBdT.[12] - v_dBdT.[16]))) * $v_rho_inv));
  (*7995*) Do (AddA v_jac 17 ((- $v_j_temp) * #2.9018339999999998e+01));
  (*7996*) Do (AddA v_jac 13 ((- $v_j_temp) * #1.5034820000000000e+01));
  (*7997*) Do (AddA v_jac 14 ($v_j_temp * #1.6042760000000001e+01));
  (*7998*) Do (AddA v_jac 15 ($v_j_temp * #2.8010399999999997e+01))].

(** [eval_jacob_4], gri30/lib/src/jacobs/jacob_4.c:4-8741: the declarations and the blocks "partial of
    rxn ... wrt T" (the blocks "wrt species" write other elements of [jac]). *)
Definition gri30_jac_T4 : list stmt := [
  (*6*) Do (Asn v_logT 0 ((Log $v_T)));
  (*7*) Do (Asn v_kf 0 (#0.0));
  (*8*) Do (Asn v_j_temp 0 (#0.0));
  (*9*) Do (Asn v_pres_mod_temp 0 (#0.0));
  (*10*) Do (Asn v_Kc 0 (#0.0));
  (*11*) Do (Asn v_kr 0 (#0.0));
  (*12*) Do (Asn v_Pr 0 (#0.0));
  (*13*) Do (Asn v_Fcent 0 (#0.0));
  (*14*) Do (Asn v_A 0 (#0.0));
  (*15*) Do (Asn v_B 0 (#0.0));
  (*16*) Do (Asn v_lnF_AB 0 (#0.0));
  (*17*) Do (Asn v_rho_inv 0 (#1.0 / $v_rho));
  (*19*) Do (Asn v_j_temp 0 (#1.0 / $v_T * ((v_fwd_rates.[160] - v_rev_rates.[159]) * (#2.8100000000000001e+00 + #2.9488666500746931e+03 / $v_T) + v_fwd_rates.[160] * #(-1.0) - v_rev_rates.[159] * (#(-1.0) + (- $v_T) * (v_dBdT.[13] + v_dBdT.[16] - v_dBdT.[17] - v_dBdT.[12]))) * $v_rho_inv));
  (*20*) Do (AddA v_jac 17 ($v_j_temp * #2.9018339999999998e+01));
  (*21*) Do (AddA v_jac 18 ((- $v_j_temp) * #3.0026280000000000e+01));
  (*22*) Do (AddA v_jac 13 ((- $v_j_temp) * #1.5034820000000000e+01));
  (*23*) Do (AddA v_jac 14 ($v_j_temp * #1.6042760000000001e+01));
  (*246*) Do (Asn v_j_temp 0 (#1.0 / $v_T * ((v_fwd_rates.[161] - v_rev_rates.[160]) * (#1.5000000000000000e+00 + #5.0020024747000762e+03 / $v_T) + v_fwd_rates.[161] * #(-1.0) - v_rev_rates.[160] * (#(-1.0) + (- $v_T) * (v_dBdT.[18] + v_dBdT.[13] - v_dBdT.[20] - v_dBdT.[12]))) * $v_rho_inv));
  (*247*) Do (AddA v_jac 13 ((- $v_j_temp) * #1.5034820000000000e+01));
  (*248*) Do (AddA v_jac 19 ($v_j_temp * #3.1034219999999998e+01));
  (*249*) Do (AddA v_jac 21 ((- $v_j_temp) * #3.2042159999999996e+01));
  (*250*) Do (AddA v_jac 14 ($v_j_temp * #1.6042760000000001e+01));
  (*473*) Do (Asn v_j_temp 0 (#1.0 / $v_T * ((v_fwd_rates.[162] - v_rev_rates.[161]) * (#1.5000000000000000e+00 + #5.0020024747000762e+03 / $v_T) + v_fwd_rates.[162] * #(-1.0) - v_rev_rates.[161] * (#(-1.0) + (- $v_T) * (v_dBdT.[19] + v_dBdT.[13] - v_dBdT.[20] - v_dBdT.[12]))) * $v_rho_inv));
  (*474*) Do (AddA v_jac 13 ((- $v_j_temp) * #1.5034820000000000e+01));
  (*475*) Do (AddA v_jac 20 ($v_j_temp * #3.1034219999999998e+01));
  (*476*) Do (AddA v_jac 21 ((- $v_j_temp) * #3.2042159999999996e+01));
  (*477*) Do (AddA v_jac 14 ($v_j_temp * #1.6042760000000001e+01));
  (*700*) Do (Asn v_j_temp 0 (#1.0 / $v_T * ((v_fwd_rates.[163] - v_rev_rates.[162]) * (#2.0000000000000000e+00 + #4.6296199967042967e+03 / $v_T) + v_fwd_rates.[163] * #(-1.0) - v_rev_rates.[162] * (#(-1.0) + (- $v_T) * (v_dBdT.[23] + v_dBdT.[13] - v_dBdT.[12] - v_dBdT.[24]))) * $v_rho_inv));
  (*701*) Do (AddA v_jac 25 ((- $v_j_temp) * #2.8053759999999997e+01));
  (*702*) Do (AddA v_jac 13 ((- $v_j_temp) * #1.5034820000000000e+01));
  (*703*) Do (AddA v_jac 14 ($v_j_temp * #1.6042760000000001e+01));
  (*704*) Do (AddA v_jac 24 ($v_j_temp * #2.7045819999999999e+01));
  (*927*) Do (Asn v_j_temp 0 (#1.0 / $v_T * ((v_fwd_rates.[164] - v_rev_rates.[163]) * (#1.7400000000000000e+00 + #5.2586444527782496e+03 / $v_T) + v_fwd_rates.[164] * #(-1.0) - v_rev_rates.[163] * (#(-1.0) + (- $v_T) * (v_dBdT.[25] + v_dBdT.[13] - v_dBdT.[26] - v_dBdT.[12]))) * $v_rho_inv));
  (*928*) Do (AddA v_jac 26 ($v_j_temp * #2.9061699999999998e+01));
  (*929*) Do (AddA v_jac 27 ((- $v_j_temp) * #3.0069640000000000e+01));
  (*930*) Do (AddA v_jac 13 ((- $v_j_temp) * #1.5034820000000000e+01));
  (*931*) Do (AddA v_jac 14 ($v_j_temp * #1.6042760000000001e+01));
  (*1154*) Do (Asn v_j_temp 0 (#1.0 / $v_T * ((v_fwd_rates.[165] - v_rev_rates.[164]) * (#(-1.0000000000000000e+00) + #8.5547326026057654e+03 / $v_T) + v_fwd_rates.[165] * #(-1.0) - v_rev_rates.[164] * (#(-2.0) + (- $v_T) * (v_dBdT.[1] + v_dBdT.[14] - v_dBdT.[16]))) * $v_rho_inv));
  (*1155*) Do (AddA v_jac 17 ((- $v_j_temp) * #2.9018339999999998e+01));
  (*1156*) Do (AddA v_jac 2 ($v_j_temp * #1.0079400000000001e+00));
  (*1157*) Do (AddA v_jac 15 ($v_j_temp * #2.8010399999999997e+01));
  (*1328*) Do (Asn v_j_temp 0 (((- v_pres_mod.[25]) * (v_fwd_rates.[166] - v_rev_rates.[165]) / $v_T + v_pres_mod.[25] / $v_T * ((v_fwd_rates.[166] - v_rev_rates.[165]) * (#(-1.0000000000000000e+00) + #8.5547326026057654e+03 / $v_T) - v_rev_rates.[165] * (#(-1.0) + (- $v_T) * (v_dBdT.[1] + v_dBdT.[14] - v_dBdT.[16])))) * $v_rho_inv));
  (*1329*) Do (AddA v_jac 17 ((- $v_j_temp) * #2.9018339999999998e+01));
  (*1330*) Do (AddA v_jac 2 ($v_j_temp * #1.0079400000000001e+00));
  (*1331*) Do (AddA v_jac 15 ($v_j_temp * #2.8010399999999997e+01));
  (*1503*) Do (Asn v_j_temp 0 (#1.0 / $v_T * ((v_fwd_rates.[167] - v_rev_rates.[166]) * (#2.0128782594366504e+02 / $v_T) + v_fwd_rates.[167] * #(-1.0) - v_rev_rates.[166] * (#(-1.0) + (- $v_T) * (v_dBdT.[14] + v_dBdT.[6] - v_dBdT.[16] - v_dBdT.[3]))) * $v_rho_inv));
  (*1504*) Do (AddA v_jac 17 ((- $v_j_temp) * #2.9018339999999998e+01));
  (*1505*) Do (AddA v_jac 4 ((- $v_j_temp) * #3.1998799999999999e+01));
  (*1506*) Do (AddA v_jac 7 ($v_j_temp * #3.3006740000000001e+01));
  (*1507*) Do (AddA v_jac 15 ($v_j_temp * #2.8010399999999997e+01));
  (*1730*) Do (Asn v_j_temp 0 (#1.0 / $v_T * ((v_fwd_rates.[168] - v_rev_rates.[167]) * (#4.5289760837324638e+02 / $v_T) + v_fwd_rates.[168] * #(-1.0) - v_rev_rates.[167] * (#(-1.0) + (- $v_T) * (v_dBdT.[17] + v_dBdT.[6] - v_dBdT.[18] - v_dBdT.[3]))) * $v_rho_inv));
  (*1731*) Do (AddA v_jac 18 ($v_j_temp * #3.0026280000000000e+01));
  (*1732*) Do (AddA v_jac 19 ((- $v_j_temp) * #3.1034219999999998e+01));
  (*1733*) Do (AddA v_jac 4 ((- $v_j_temp) * #3.1998799999999999e+01));
  (*1734*) Do (AddA v_jac 7 ($v_j_temp * #3.3006740000000001e+01));
  (*1957*) Do (Asn v_j_temp 0 (#1.0 / $v_T * ((v_fwd_rates.[169] - v_rev_rates.[168]) * (#7.5999999999999996e+00 + #(-1.7763650639528441e+03) / $v_T) + v_fwd_rates.[169] * #(-1.0) - v_rev_rates.[168] * (#(-1.0) + (- $v_T) * (v_dBdT.[17] + v_dBdT.[6] - v_dBdT.[19] - v_dBdT.[3]))) * $v_rho_inv));
  (*1958*) Do (AddA v_jac 4 ((- $v_j_temp) * #3.1998799999999999e+01));
  (*1959*) Do (AddA v_jac 18 ($v_j_temp * #3.0026280000000000e+01));
  (*1960*) Do (AddA v_jac 20 ((- $v_j_temp) * #3.1034219999999998e+01));
  (*1961*) Do (AddA v_jac 7 ($v_j_temp * #3.3006740000000001e+01));
  (*2184*) Do (Asn v_j_temp 0 (#1.0 / $v_T * ((v_fwd_rates.[170] - v_rev_rates.[169]) * (#(-3.7993077146866779e+02) / $v_T) + v_fwd_rates.[170] * #(-1.0) - v_rev_rates.[169] * (#(-1.0) + (- $v_T) * (v_dBdT.[14] + v_dBdT.[16] - v_dBdT.[21] - v_dBdT.[3]))) * $v_rho_inv));
  (*2185*) Do (AddA v_jac 17 ($v_j_temp * #2.9018339999999998e+01));
  (*2186*) Do (AddA v_jac 4 ((- $v_j_temp) * #3.1998799999999999e+01));
  (*2187*) Do (AddA v_jac 22 ((- $v_j_temp) * #2.5029940000000000e+01));
  (*2188*) Do (AddA v_jac 15 ($v_j_temp * #2.8010399999999997e+01));
  (*2411*) Do (Asn v_j_temp 0 (#1.0 / $v_T * ((v_fwd_rates.[171] - v_rev_rates.[170]) * (#9.0000000000000002e-01 + #1.0029165927643112e+03 / $v_T) + v_fwd_rates.[171] * #(-1.0) - v_rev_rates.[170] * (#(-1.0) + (- $v_T) * (v_dBdT.[1] + v_dBdT.[22] - v_dBdT.[0] - v_dBdT.[21]))) * $v_rho_inv));
  (*2412*) Do (AddA v_jac 1 ((- $v_j_temp) * #2.0158800000000001e+00));
  (*2413*) Do (AddA v_jac 2 ($v_j_temp * #1.0079400000000001e+00));
  (*2414*) Do (AddA v_jac 22 ((- $v_j_temp) * #2.5029940000000000e+01));
  (*2415*) Do (AddA v_jac 23 ($v_j_temp * #2.6037879999999998e+01));
  (*2638*) Do (Asn v_j_temp 0 (#1.0 / $v_T * ((v_fwd_rates.[172] - v_rev_rates.[171]) * (#(-1.3899999999999999e+00) + #5.1076785833205008e+02 / $v_T) + v_fwd_rates.[172] * #(-1.0) - v_rev_rates.[171] * (#(-1.0) + (- $v_T) * (v_dBdT.[17] + v_dBdT.[16] - v_dBdT.[23] - v_dBdT.[3]))) * $v_rho_inv));
  (*2639*) Do (AddA v_jac 17 ($v_j_temp * #2.9018339999999998e+01));
  (*2640*) Do (AddA v_jac 18 ($v_j_temp * #3.0026280000000000e+01));
  (*2641*) Do (AddA v_jac 4 ((- $v_j_temp) * #3.1998799999999999e+01));
  (*2642*) Do (AddA v_jac 24 ((- $v_j_temp) * #2.7045819999999999e+01));
  (*2865*) Do (Asn v_conc_temp 0 ($v_m + #1.0 * v_conc.[0] + #5.0 * v_conc.[5] + #1.0 * v_conc.[13] + #0.5 * v_conc.[14] + #1.0 * v_conc.[15] + #2.0 * v_conc.[26] - #0.3 * v_conc.[47]));
  (*2866*) Do (Asn v_Pr 0 ($v_conc_temp * (Exp (#8.1271046653144680e+01 - #9.74 * $v_logT - #5.5505118003965617e+03 / $v_T))));
  (*2867*) Do (Asn v_Fcent 0 (#2.6549999999999996e-01 * (Exp ($v_T / #(-1.8000000000000000e+02))) + #7.3450000000000004e-01 * (Exp ($v_T / #(-1.0350000000000000e+03))) + (Exp (#(-5.4170000000000000e+03) / $v_T))));
  (*2868*) Do (Asn v_A 0 ((Log10 (Fmax $v_Pr #1.0e-300)) - #0.67 * (Log10 (Fmax $v_Fcent #1.0e-300)) - #0.4));
  (*2869*) Do (Asn v_B 0 (#0.806 - #1.1762 * (Log10 (Fmax $v_Fcent #1.0e-300)) - #0.14 * (Log10 (Fmax $v_Pr #1.0e-300))));
  (*2870*) Do (Asn v_lnF_AB 0 (#2.0 * (Log (Fmax $v_Fcent #1.0e-300)) * $v_A / ($v_B * $v_B * $v_B * (#1.0 + $v_A * $v_A / ($v_B * $v_B)) * (#1.0 + $v_A * $v_A / ($v_B * $v_B)))));
  (*2871*) Do (Asn v_j_temp 0 ((v_pres_mod.[26] * ((#(-9.7400e+00) + #5.5505118003965617e+03 / $v_T - #1.0) / ($v_T * (#1.0 + $v_Pr)) + (#1.0 / ($v_Fcent * (#1.0 + $v_A * $v_A / ($v_B * $v_B))) - $v_lnF_AB * (#(-2.9097730287517870e-01) * $v_B + #5.1081716961460466e-01 * $v_A) / $v_Fcent) * (#(-1.4749999999999997e-03) * (Exp ($v_T / #(-1.8000000000000000e+02))) - #7.0966183574879232e-04 * (Exp ($v_T / #(-1.0350000000000000e+03))) + #5.4170000000000000e+03 / ($v_T * $v_T) * (Exp (#(-5.4170000000000000e+03) / $v_T))) - $v_lnF_AB * (#4.3429448190325176e-01 * $v_B + #6.0801227466455256e-02 * $v_A) * (#(-9.7400000000000002e+00) + #5.5505118003965617e+03 / $v_T - #1.0) / $v_T) * (v_fwd_rates.[173] - v_rev_rates.[172]) + v_pres_mod.[26] / $v_T * ((v_fwd_rates.[173] - v_rev_rates.[172]) * (#4.4000000000000000e-01 + #4.3664361642829543e+04 / $v_T) - v_rev_rates.[172] * (#(-1.0) + (- $v_T) * (v_dBdT.[0] + v_dBdT.[22] - v_dBdT.[24])))) * $v_rho_inv));
  (*2872*) Do (AddA v_jac 25 ((- $v_j_temp) * #2.8053759999999997e+01));
  (*2873*) Do (AddA v_jac 1 ($v_j_temp * #2.0158800000000001e+00));
  (*2874*) Do (AddA v_jac 23 ($v_j_temp * #2.6037879999999998e+01));
  (*3047*) Do (Asn v_j_temp 0 (#1.0 / $v_T * ((v_fwd_rates.[174] - v_rev_rates.[173]) * (#1.9499758138292552e+03 / $v_T) + v_fwd_rates.[174] * #(-1.0) - v_rev_rates.[173] * (#(-1.0) + (- $v_T) * (v_dBdT.[24] + v_dBdT.[6] - v_dBdT.[25] - v_dBdT.[3]))) * $v_rho_inv));
  (*3048*) Do (AddA v_jac 25 ($v_j_temp * #2.8053759999999997e+01));
  (*3049*) Do (AddA v_jac 26 ((- $v_j_temp) * #2.9061699999999998e+01));
  (*3050*) Do (AddA v_jac 4 ((- $v_j_temp) * #3.1998799999999999e+01));
  (*3051*) Do (AddA v_jac 7 ($v_j_temp * #3.3006740000000001e+01));
  (*3274*) Do (Asn v_j_temp 0 (#1.0 / $v_T * ((v_fwd_rates.[175] - v_rev_rates.[174]) * (#4.2974950838972489e+02 / $v_T) + v_fwd_rates.[175] * #(-1.0) - v_rev_rates.[174] * (#(-2.0) + (- $v_T) * (#2.0 * v_dBdT.[14] + v_dBdT.[4] - v_dBdT.[27] - v_dBdT.[3]))) * $v_rho_inv));
  (*3275*) Do (AddA v_jac 4 ((- $v_j_temp) * #3.1998799999999999e+01));
  (*3276*) Do (AddA v_jac 28 ((- $v_j_temp) * #4.1029339999999998e+01));
  (*3277*) Do (AddA v_jac 5 ($v_j_temp * #1.7007339999999999e+01));
  (*3278*) Do (AddA v_jac 15 ($v_j_temp * #2.0 * #2.8010399999999997e+01));
  (*3501*) Do (Asn v_j_temp 0 (#1.0 / $v_T * (v_fwd_rates.[176] * #(-1.0) - v_rev_rates.[175] * (#(-2.0) + (- $v_T) * (#2.0 * v_dBdT.[14] + v_dBdT.[22] - #2.0 * v_dBdT.[27]))) * $v_rho_inv));
  (*3502*) Do (AddA v_jac 28 ($v_j_temp * #(-2.0) * #4.1029339999999998e+01));
  (*3503*) Do (AddA v_jac 23 ($v_j_temp * #2.6037879999999998e+01));
  (*3504*) Do (AddA v_jac 15 ($v_j_temp * #2.0 * #2.8010399999999997e+01));
  (*3675*) Do (Asn v_j_temp 0 (#1.0 / $v_T * ((v_fwd_rates.[177] - v_rev_rates.[176]) * (#1.7864294552500274e+02 / $v_T) + v_fwd_rates.[177] * #(-1.0) - v_rev_rates.[176] * (#(-1.0) + (- $v_T) * (v_dBdT.[52] + v_dBdT.[2] - v_dBdT.[30] - v_dBdT.[35]))) * $v_rho_inv));
  (*3676*) Do (AddA v_jac 3 ($v_j_temp * #1.5999400000000000e+01));
  (*3677*) Do (Asn v_jac 36 ((- $v_j_temp) * #3.0006140000000002e+01));
  (*3678*) Do (Asn v_J_nplusone 0 ($v_j_temp * #2.8013480000000001e+01));
  (*3679*) Do (Asn v_jac 31 ((- $v_j_temp) * #1.4006740000000001e+01));
  (*3902*) Do (Asn v_j_temp 0 (#1.0 / $v_T * ((v_fwd_rates.[178] - v_rev_rates.[177]) * (#1.0000000000000000e+00 + #3.2709271715845571e+03 / $v_T) + v_fwd_rates.[178] * #(-1.0) - v_rev_rates.[177] * (#(-1.0) + (- $v_T) * (v_dBdT.[2] + v_dBdT.[35] - v_dBdT.[3] - v_dBdT.[30]))) * $v_rho_inv));
  (*3903*) Do (AddA v_jac 36 ($v_j_temp * #3.0006140000000002e+01));
  (*3904*) Do (AddA v_jac 3 ($v_j_temp * #1.5999400000000000e+01));
  (*3905*) Do (AddA v_jac 4 ((- $v_j_temp) * #3.1998799999999999e+01));
  (*3906*) Do (AddA v_jac 31 ((- $v_j_temp) * #1.4006740000000001e+01));
  (*4129*) Do (Asn v_j_temp 0 (#1.0 / $v_T * ((v_fwd_rates.[179] - v_rev_rates.[178]) * (#1.9373953247077762e+02 / $v_T) + v_fwd_rates.[179] * #(-1.0) - v_rev_rates.[178] * (#(-1.0) + (- $v_T) * (v_dBdT.[1] + v_dBdT.[35] - v_dBdT.[30] - v_dBdT.[4]))) * $v_rho_inv));
  (*4130*) Do (AddA v_jac 2 ($v_j_temp * #1.0079400000000001e+00));
  (*4131*) Do (AddA v_jac 36 ($v_j_temp * #3.0006140000000002e+01));
  (*4132*) Do (AddA v_jac 5 ((- $v_j_temp) * #1.7007339999999999e+01));
  (*4133*) Do (AddA v_jac 31 ((- $v_j_temp) * #1.4006740000000001e+01));
  (*4356*) Do (Asn v_j_temp 0 (#1.0 / $v_T * ((v_fwd_rates.[180] - v_rev_rates.[179]) * (#5.4398034961275480e+03 / $v_T) + v_fwd_rates.[180] * #(-1.0) - v_rev_rates.[179] * (#(-1.0) + (- $v_T) * (v_dBdT.[52] + v_dBdT.[3] - v_dBdT.[37] - v_dBdT.[2]))) * $v_rho_inv));
  (*4357*) Do (AddA v_jac 3 ((- $v_j_temp) * #1.5999400000000000e+01));
  (*4358*) Do (AddA v_jac 4 ($v_j_temp * #3.1998799999999999e+01));
  (*4359*) Do (Asn v_J_nplusone 0 ($v_j_temp * #2.8013480000000001e+01));
  (*4360*) Do (Asn v_jac 38 ((- $v_j_temp) * #4.4012880000000003e+01));
  (*4583*) Do (Asn v_j_temp 0 (#1.0 / $v_T * ((v_fwd_rates.[181] - v_rev_rates.[180]) * (#1.1649532926489615e+04 / $v_T) + v_fwd_rates.[181] * #(-1.0) - v_rev_rates.[180] * (#(-1.0) + (- $v_T) * (#2.0 * v_dBdT.[35] - v_dBdT.[37] - v_dBdT.[2]))) * $v_rho_inv));
  (*4584*) Do (AddA v_jac 3 ((- $v_j_temp) * #1.5999400000000000e+01));
  (*4585*) Do (AddA v_jac 36 ($v_j_temp * #2.0 * #3.0006140000000002e+01));
  (*4586*) Do (AddA v_jac 38 ((- $v_j_temp) * #4.4012880000000003e+01));
  (*4757*) Do (Asn v_j_temp 0 (#1.0 / $v_T * ((v_fwd_rates.[182] - v_rev_rates.[181]) * (#9.5007853845409900e+03 / $v_T) + v_fwd_rates.[182] * #(-1.0) - v_rev_rates.[181] * (#(-1.0) + (- $v_T) * (v_dBdT.[52] + v_dBdT.[4] - v_dBdT.[1] - v_dBdT.[37]))) * $v_rho_inv));
  (*4758*) Do (AddA v_jac 2 ((- $v_j_temp) * #1.0079400000000001e+00));
  (*4759*) Do (Asn v_J_nplusone 0 ($v_j_temp * #2.8013480000000001e+01));
  (*4760*) Do (AddA v_jac 38 ((- $v_j_temp) * #4.4012880000000003e+01));
  (*4761*) Do (AddA v_jac 5 ($v_j_temp * #1.7007339999999999e+01));
  (*4984*) Do (Asn v_j_temp 0 (#1.0 / $v_T * ((v_fwd_rates.[183] - v_rev_rates.[182]) * (#1.0597804035933965e+04 / $v_T) + v_fwd_rates.[183] * #(-1.0) - v_rev_rates.[182] * (#(-1.0) + (- $v_T) * (v_dBdT.[52] + v_dBdT.[6] - v_dBdT.[37] - v_dBdT.[4]))) * $v_rho_inv));
  (*4985*) Do (Asn v_J_nplusone 0 ($v_j_temp * #2.8013480000000001e+01));
  (*4986*) Do (AddA v_jac 5 ((- $v_j_temp) * #1.7007339999999999e+01));
  (*4987*) Do (AddA v_jac 38 ((- $v_j_temp) * #4.4012880000000003e+01));
  (*4988*) Do (AddA v_jac 7 ($v_j_temp * #3.3006740000000001e+01));
  (*5211*) Do (AddA v_conc_temp 0 (#(-0.075) * v_conc.[47]));
  (*5212*) Do (Asn v_Pr 0 ($v_conc_temp * (Exp (#2.0860567807985553e+00 - #3.1199613021267942e+02 / $v_T))));
  (*5213*) Do (Asn v_j_temp 0 ((v_pres_mod.[27] * ((#0.0000e+00 + #3.1199613021267942e+02 / $v_T - #1.0) / ($v_T * (#1.0 + $v_Pr))) * (v_fwd_rates.[184] - v_rev_rates.[183]) + v_pres_mod.[27] / $v_T * ((v_fwd_rates.[184] - v_rev_rates.[183]) * (#2.8190360023410292e+04 / $v_T) - v_rev_rates.[183] * (#(-1.0) + (- $v_T) * (v_dBdT.[52] + v_dBdT.[2] - v_dBdT.[37])))) * $v_rho_inv));
  (*5214*) Do (AddA v_jac 3 ($v_j_temp * #1.5999400000000000e+01));
  (*5215*) Do (Asn v_J_nplusone 0 ($v_j_temp * #2.8013480000000001e+01));
  (*5216*) Do (AddA v_jac 38 ((- $v_j_temp) * #4.4012880000000003e+01));
  (*5389*) Do (Asn v_j_temp 0 (#1.0 / $v_T * ((v_fwd_rates.[185] - v_rev_rates.[184]) * (#(-2.4154539113239807e+02) / $v_T) + v_fwd_rates.[185] * #(-1.0) - v_rev_rates.[184] * (#(-1.0) + (- $v_T) * (v_dBdT.[36] + v_dBdT.[4] - v_dBdT.[6] - v_dBdT.[35]))) * $v_rho_inv));
  (*5390*) Do (AddA v_jac 5 ($v_j_temp * #1.7007339999999999e+01));
  (*5391*) Do (AddA v_jac 36 ((- $v_j_temp) * #3.0006140000000002e+01));
  (*5392*) Do (Asn v_jac 37 ($v_j_temp * #4.6005539999999996e+01));
  (*5393*) Do (AddA v_jac 7 ((- $v_j_temp) * #3.3006740000000001e+01));
  (*5616*) Do (Asn v_j_temp 0 (((- v_pres_mod.[28]) * (v_fwd_rates.[186] - v_rev_rates.[185]) / $v_T + v_pres_mod.[28] / $v_T * ((v_fwd_rates.[186] - v_rev_rates.[185]) * #(-1.4099999999999999e+00) + v_fwd_rates.[186] * #(-1.0) - v_rev_rates.[185] * ((- $v_T) * (v_dBdT.[36] - v_dBdT.[2] - v_dBdT.[35])))) * $v_rho_inv));
  (*5617*) Do (AddA v_jac 3 ((- $v_j_temp) * #1.5999400000000000e+01));
  (*5618*) Do (AddA v_jac 36 ((- $v_j_temp) * #3.0006140000000002e+01));
  (*5619*) Do (AddA v_jac 37 ($v_j_temp * #4.6005539999999996e+01));
  (*5791*) Do (Asn v_j_temp 0 (#1.0 / $v_T * ((v_fwd_rates.[187] - v_rev_rates.[186]) * (#(-1.2077269556619903e+02) / $v_T) + v_fwd_rates.[187] * #(-1.0) - v_rev_rates.[186] * (#(-1.0) + (- $v_T) * (v_dBdT.[3] + v_dBdT.[35] - v_dBdT.[36] - v_dBdT.[2]))) * $v_rho_inv));
  (*5792*) Do (AddA v_jac 36 ($v_j_temp * #3.0006140000000002e+01));
  (*5793*) Do (AddA v_jac 3 ((- $v_j_temp) * #1.5999400000000000e+01));
  (*5794*) Do (AddA v_jac 4 ($v_j_temp * #3.1998799999999999e+01));
  (*5795*) Do (AddA v_jac 37 ((- $v_j_temp) * #4.6005539999999996e+01));
  (*6018*) Do (Asn v_j_temp 0 (#1.0 / $v_T * ((v_fwd_rates.[188] - v_rev_rates.[187]) * (#1.8115904334929854e+02 / $v_T) + v_fwd_rates.[188] * #(-1.0) - v_rev_rates.[187] * (#(-1.0) + (- $v_T) * (v_dBdT.[35] + v_dBdT.[4] - v_dBdT.[1] - v_dBdT.[36]))) * $v_rho_inv));
  (*6019*) Do (AddA v_jac 2 ((- $v_j_temp) * #1.0079400000000001e+00));
  (*6020*) Do (AddA v_jac 36 ($v_j_temp * #3.0006140000000002e+01));
  (*6021*) Do (AddA v_jac 37 ((- $v_j_temp) * #4.6005539999999996e+01));
  (*6022*) Do (AddA v_jac 5 ($v_j_temp * #1.7007339999999999e+01));
  (*6245*) Do (Asn v_j_temp 0 (#1.0 / $v_T * (v_fwd_rates.[189] * #(-1.0) - v_rev_rates.[188] * (#(-1.0) + (- $v_T) * (v_dBdT.[1] + v_dBdT.[35] - v_dBdT.[31] - v_dBdT.[2]))) * $v_rho_inv));
  (*6246*) Do (AddA v_jac 2 ($v_j_temp * #1.0079400000000001e+00));
  (*6247*) Do (AddA v_jac 3 ((- $v_j_temp) * #1.5999400000000000e+01));
  (*6248*) Do (AddA v_jac 36 ($v_j_temp * #3.0006140000000002e+01));
  (*6249*) Do (Asn v_jac 32 ((- $v_j_temp) * #1.5014680000000000e+01));
  (*6472*) Do (Asn v_j_temp 0 (#1.0 / $v_T * ((v_fwd_rates.[190] - v_rev_rates.[189]) * (#1.6606245640352367e+02 / $v_T) + v_fwd_rates.[190] * #(-1.0) - v_rev_rates.[189] * (#(-1.0) + (- $v_T) * (v_dBdT.[0] + v_dBdT.[30] - v_dBdT.[31] - v_dBdT.[1]))) * $v_rho_inv));
  (*6473*) Do (AddA v_jac 1 ($v_j_temp * #2.0158800000000001e+00));
  (*6474*) Do (AddA v_jac 2 ((- $v_j_temp) * #1.0079400000000001e+00));
  (*6475*) Do (AddA v_jac 31 ($v_j_temp * #1.4006740000000001e+01));
  (*6476*) Do (AddA v_jac 32 ((- $v_j_temp) * #1.5014680000000000e+01));
  (*6699*) Do (Asn v_j_temp 0 (#1.0 / $v_T * (v_fwd_rates.[191] * #(-1.0) - v_rev_rates.[190] * (#(-1.0) + (- $v_T) * (v_dBdT.[1] + v_dBdT.[38] - v_dBdT.[31] - v_dBdT.[4]))) * $v_rho_inv));
  (*6700*) Do (AddA v_jac 2 ($v_j_temp * #1.0079400000000001e+00));
  (*6701*) Do (AddA v_jac 5 ((- $v_j_temp) * #1.7007339999999999e+01));
  (*6702*) Do (Asn v_jac 39 ($v_j_temp * #3.1014080000000000e+01));
  (*6703*) Do (AddA v_jac 32 ((- $v_j_temp) * #1.5014680000000000e+01));
  (*6926*) Do (Asn v_j_temp 0 (#1.0 / $v_T * ((v_fwd_rates.[192] - v_rev_rates.[191]) * #1.2000000000000000e+00 + v_fwd_rates.[192] * #(-1.0) - v_rev_rates.[191] * (#(-1.0) + (- $v_T) * (v_dBdT.[5] + v_dBdT.[30] - v_dBdT.[31] - v_dBdT.[4]))) * $v_rho_inv));
  (*6927*) Do (AddA v_jac 5 ((- $v_j_temp) * #1.7007339999999999e+01));
  (*6928*) Do (AddA v_jac 6 ($v_j_temp * #1.8015280000000001e+01));
  (*6929*) Do (AddA v_jac 31 ($v_j_temp * #1.4006740000000001e+01));
  (*6930*) Do (AddA v_jac 32 ((- $v_j_temp) * #1.5014680000000000e+01));
  (*7153*) Do (Asn v_j_temp 0 (#1.0 / $v_T * ((v_fwd_rates.[193] - v_rev_rates.[192]) * (#2.0000000000000000e+00 + #3.2709271715845571e+03 / $v_T) + v_fwd_rates.[193] * #(-1.0) - v_rev_rates.[192] * (#(-1.0) + (- $v_T) * (v_dBdT.[38] + v_dBdT.[2] - v_dBdT.[31] - v_dBdT.[3]))) * $v_rho_inv));
  (*7154*) Do (AddA v_jac 3 ($v_j_temp * #1.5999400000000000e+01));
  (*7155*) Do (AddA v_jac 4 ((- $v_j_temp) * #3.1998799999999999e+01));
  (*7156*) Do (AddA v_jac 39 ($v_j_temp * #3.1014080000000000e+01));
  (*7157*) Do (AddA v_jac 32 ((- $v_j_temp) * #1.5014680000000000e+01));
  (*7380*) Do (Asn v_j_temp 0 (#1.0 / $v_T * ((v_fwd_rates.[194] - v_rev_rates.[193]) * (#1.5000000000000000e+00 + #5.0321956485916260e+01 / $v_T) + v_fwd_rates.[194] * #(-1.0) - v_rev_rates.[193] * (#(-1.0) + (- $v_T) * (v_dBdT.[35] + v_dBdT.[4] - v_dBdT.[31] - v_dBdT.[3]))) * $v_rho_inv));
  (*7381*) Do (AddA v_jac 36 ($v_j_temp * #3.0006140000000002e+01));
  (*7382*) Do (AddA v_jac 4 ((- $v_j_temp) * #3.1998799999999999e+01));
  (*7383*) Do (AddA v_jac 5 ($v_j_temp * #1.7007339999999999e+01));
  (*7384*) Do (AddA v_jac 32 ((- $v_j_temp) * #1.5014680000000000e+01));
  (*7607*) Do (Asn v_j_temp 0 (#1.0 / $v_T * (v_fwd_rates.[195] * #(-1.0) - v_rev_rates.[194] * (#(-1.0) + (- $v_T) * (v_dBdT.[1] + v_dBdT.[52] - v_dBdT.[31] - v_dBdT.[30]))) * $v_rho_inv));
  (*7608*) Do (AddA v_jac 2 ($v_j_temp * #1.0079400000000001e+00));
  (*7609*) Do (Asn v_J_nplusone 0 ($v_j_temp * #2.8013480000000001e+01));
  (*7610*) Do (AddA v_jac 31 ((- $v_j_temp) * #1.4006740000000001e+01));
  (*7611*) Do (AddA v_jac 32 ((- $v_j_temp) * #1.5014680000000000e+01));
  (*7834*) Do (Asn v_j_temp 0 (#1.0 / $v_T * ((v_fwd_rates.[196] - v_rev_rates.[195]) * (#6.9695909732994023e+03 / $v_T) + v_fwd_rates.[196] * #(-1.0) - v_rev_rates.[195] * (#(-1.0) + (- $v_T) * (v_dBdT.[0] + v_dBdT.[38] - v_dBdT.[31] - v_dBdT.[5]))) * $v_rho_inv));
  (*7835*) Do (AddA v_jac 1 ($v_j_temp * #2.0158800000000001e+00));
  (*7836*) Do (AddA v_jac 6 ((- $v_j_temp) * #1.8015280000000001e+01));
  (*7837*) Do (AddA v_jac 39 ($v_j_temp * #3.1014080000000000e+01));
  (*7838*) Do (AddA v_jac 32 ((- $v_j_temp) * #1.5014680000000000e+01));
  (*8061*) Do (Asn v_j_temp 0 (#1.0 / $v_T * ((v_fwd_rates.[197] - v_rev_rates.[196]) * #(-2.3000000000000001e-01) + v_fwd_rates.[197] * #(-1.0) - v_rev_rates.[196] * (#(-1.0) + (- $v_T) * (v_dBdT.[52] + v_dBdT.[4] - v_dBdT.[31] - v_dBdT.[35]))) * $v_rho_inv));
  (*8062*) Do (AddA v_jac 5 ($v_j_temp * #1.7007339999999999e+01));
  (*8063*) Do (AddA v_jac 36 ((- $v_j_temp) * #3.0006140000000002e+01));
  (*8064*) Do (Asn v_J_nplusone 0 ($v_j_temp * #2.8013480000000001e+01));
  (*8065*) Do (AddA v_jac 32 ((- $v_j_temp) * #1.5014680000000000e+01));
  (*8288*) Do (Asn v_j_temp 0 (#1.0 / $v_T * ((v_fwd_rates.[198] - v_rev_rates.[197]) * #(-4.5000000000000001e-01) + v_fwd_rates.[198] * #(-1.0) - v_rev_rates.[197] * (#(-1.0) + (- $v_T) * (v_dBdT.[1] + v_dBdT.[37] - v_dBdT.[31] - v_dBdT.[35]))) * $v_rho_inv));
  (*8289*) Do (AddA v_jac 2 ($v_j_temp * #1.0079400000000001e+00));
  (*8290*) Do (AddA v_jac 36 ((- $v_j_temp) * #3.0006140000000002e+01));
  (*8291*) Do (AddA v_jac 38 ($v_j_temp * #4.4012880000000003e+01));
  (*8292*) Do (AddA v_jac 32 ((- $v_j_temp) * #1.5014680000000000e+01));
  (*8515*) Do (Asn v_j_temp 0 (#1.0 / $v_T * (v_fwd_rates.[199] * #(-1.0) - v_rev_rates.[198] * (#(-1.0) + (- $v_T) * (v_dBdT.[31] + v_dBdT.[4] - v_dBdT.[2] - v_dBdT.[32]))) * $v_rho_inv));
  (*8516*) Do (Asn v_jac 33 ((- $v_j_temp) * #1.6022620000000000e+01));
  (*8517*) Do (AddA v_jac 3 ((- $v_j_temp) * #1.5999400000000000e+01));
  (*8518*) Do (AddA v_jac 5 ($v_j_temp * #1.7007339999999999e+01));
  (*8519*) Do (AddA v_jac 32 ($v_j_temp * #1.5014680000000000e+01))].

(** [eval_jacob_5], gri30/lib/src/jacobs/jacob_5.c:4-8849: the declarations and the blocks "partial of
    rxn ... wrt T" (the blocks "wrt species" write other elements of [jac]). *)
Definition gri30_jac_T5 : list stmt := [
  (*6*) Do (Asn v_logT 0 ((Log $v_T)));
  (*7*) Do (Asn v_kf 0 (#0.0));
  (*8*) Do (Asn v_j_temp 0 (#0.0));
  (*9*) Do (Asn v_pres_mod_temp 0 (#0.0));
  (*10*) Do (Asn v_Kc 0 (#0.0));
  (*11*) Do (Asn v_kr 0 (#0.0));
  (*12*) Do (Asn v_Pr 0 (#0.0));
  (*13*) Do (Asn v_rho_inv 0 (#1.0 / $v_rho));
  (*15*) Do (Asn v_j_temp 0 (#1.0 / $v_T * (v_fwd_rates.[200] * #(-1.0) - v_rev_rates.[199] * (#(-1.0) + (- $v_T) * (v_dBdT.[1] + v_dBdT.[38] - v_dBdT.[2] - v_dBdT.[32]))) * $v_rho_inv));
  (*16*) Do (AddA v_jac 33 ((- $v_j_temp) * #1.6022620000000000e+01));
  (*17*) Do (AddA v_jac 2 ($v_j_temp * #1.0079400000000001e+00));
  (*18*) Do (AddA v_jac 3 ((- $v_j_temp) * #1.5999400000000000e+01));
  (*19*) Do (AddA v_jac 39 ($v_j_temp * #3.1014080000000000e+01));
  (*242*) Do (Asn v_j_temp 0 (#1.0 / $v_T * ((v_fwd_rates.[201] - v_rev_rates.[200]) * (#1.8367514117359435e+03 / $v_T) + v_fwd_rates.[201] * #(-1.0) - v_rev_rates.[200] * (#(-1.0) + (- $v_T) * (v_dBdT.[0] + v_dBdT.[31] - v_dBdT.[1] - v_dBdT.[32]))) * $v_rho_inv));
  (*243*) Do (AddA v_jac 33 ((- $v_j_temp) * #1.6022620000000000e+01));
  (*244*) Do (AddA v_jac 2 ((- $v_j_temp) * #1.0079400000000001e+00));
  (*245*) Do (AddA v_jac 1 ($v_j_temp * #2.0158800000000001e+00));
  (*246*) Do (AddA v_jac 32 ($v_j_temp * #1.5014680000000000e+01));
  (*469*) Do (Asn v_j_temp 0 (#1.0 / $v_T * ((v_fwd_rates.[202] - v_rev_rates.[201]) * (#1.5000000000000000e+00 + #(-2.3148099983521482e+02) / $v_T) + v_fwd_rates.[202] * #(-1.0) - v_rev_rates.[201] * (#(-1.0) + (- $v_T) * (v_dBdT.[31] + v_dBdT.[5] - v_dBdT.[32] - v_dBdT.[4]))) * $v_rho_inv));
  (*470*) Do (AddA v_jac 33 ((- $v_j_temp) * #1.6022620000000000e+01));
  (*471*) Do (AddA v_jac 5 ((- $v_j_temp) * #1.7007339999999999e+01));
  (*472*) Do (AddA v_jac 6 ($v_j_temp * #1.8015280000000001e+01));
  (*473*) Do (AddA v_jac 32 ($v_j_temp * #1.5014680000000000e+01));
  (*696*) Do (Asn v_j_temp 0 (#1.0 / $v_T * ((- v_rev_rates.[202]) * (#(-1.0) + (- $v_T) * (v_dBdT.[1] + v_dBdT.[52] - v_dBdT.[34]))) * $v_rho_inv));
  (*697*) Do (AddA v_jac 2 ($v_j_temp * #1.0079400000000001e+00));
  (*698*) Do (Asn v_jac 35 ((- $v_j_temp) * #2.9021420000000003e+01));
  (*699*) Do (Asn v_J_nplusone 0 ($v_j_temp * #2.8013480000000001e+01));
  (*870*) Do (Asn v_j_temp 0 (((- v_pres_mod.[29]) * (v_fwd_rates.[204] - v_rev_rates.[203]) / $v_T + v_pres_mod.[29] / $v_T * ((v_fwd_rates.[204] - v_rev_rates.[203]) * (#(-1.1000000000000000e-01) + #2.5060334329986299e+03 / $v_T) - v_rev_rates.[203] * (#(-1.0) + (- $v_T) * (v_dBdT.[1] + v_dBdT.[52] - v_dBdT.[34])))) * $v_rho_inv));
  (*871*) Do (AddA v_jac 2 ($v_j_temp * #1.0079400000000001e+00));
  (*872*) Do (AddA v_jac 35 ((- $v_j_temp) * #2.9021420000000003e+01));
  (*873*) Do (Asn v_J_nplusone 0 ($v_j_temp * #2.8013480000000001e+01));
  (*1045*) Do (Asn v_j_temp 0 (#1.0 / $v_T * (v_fwd_rates.[205] * #(-1.0) - v_rev_rates.[204] * (#(-1.0) + (- $v_T) * (v_dBdT.[52] + v_dBdT.[6] - v_dBdT.[3] - v_dBdT.[34]))) * $v_rho_inv));
  (*1046*) Do (AddA v_jac 35 ((- $v_j_temp) * #2.9021420000000003e+01));
  (*1047*) Do (AddA v_jac 4 ((- $v_j_temp) * #3.1998799999999999e+01));
  (*1048*) Do (Asn v_J_nplusone 0 ($v_j_temp * #2.8013480000000001e+01));
  (*1049*) Do (AddA v_jac 7 ($v_j_temp * #3.3006740000000001e+01));
  (*1272*) Do (Asn v_j_temp 0 (#1.0 / $v_T * (v_fwd_rates.[206] * #(-1.0) - v_rev_rates.[205] * (#(-1.0) + (- $v_T) * (v_dBdT.[52] + v_dBdT.[4] - v_dBdT.[2] - v_dBdT.[34]))) * $v_rho_inv));
  (*1273*) Do (AddA v_jac 5 ($v_j_temp * #1.7007339999999999e+01));
  (*1274*) Do (AddA v_jac 3 ((- $v_j_temp) * #1.5999400000000000e+01));
  (*1275*) Do (Asn v_J_nplusone 0 ($v_j_temp * #2.8013480000000001e+01));
  (*1276*) Do (AddA v_jac 35 ((- $v_j_temp) * #2.9021420000000003e+01));
  (*1499*) Do (Asn v_j_temp 0 (#1.0 / $v_T * (v_fwd_rates.[207] * #(-1.0) - v_rev_rates.[206] * (#(-1.0) + (- $v_T) * (v_dBdT.[31] + v_dBdT.[35] - v_dBdT.[2] - v_dBdT.[34]))) * $v_rho_inv));
  (*1500*) Do (AddA v_jac 3 ((- $v_j_temp) * #1.5999400000000000e+01));
  (*1501*) Do (AddA v_jac 36 ($v_j_temp * #3.0006140000000002e+01));
  (*1502*) Do (AddA v_jac 35 ((- $v_j_temp) * #2.9021420000000003e+01));
  (*1503*) Do (AddA v_jac 32 ($v_j_temp * #1.5014680000000000e+01));
  (*1726*) Do (Asn v_j_temp 0 (#1.0 / $v_T * (v_fwd_rates.[208] * #(-1.0) - v_rev_rates.[207] * (#(-1.0) + (- $v_T) * (v_dBdT.[0] + v_dBdT.[52] - v_dBdT.[1] - v_dBdT.[34]))) * $v_rho_inv));
  (*1727*) Do (AddA v_jac 1 ($v_j_temp * #2.0158800000000001e+00));
  (*1728*) Do (AddA v_jac 2 ((- $v_j_temp) * #1.0079400000000001e+00));
  (*1729*) Do (AddA v_jac 35 ((- $v_j_temp) * #2.9021420000000003e+01));
  (*1730*) Do (Asn v_J_nplusone 0 ($v_j_temp * #2.8013480000000001e+01));
  (*1953*) Do (Asn v_j_temp 0 (#1.0 / $v_T * (v_fwd_rates.[209] * #(-1.0) - v_rev_rates.[208] * (#(-1.0) + (- $v_T) * (v_dBdT.[5] + v_dBdT.[52] - v_dBdT.[34] - v_dBdT.[4]))) * $v_rho_inv));
  (*1954*) Do (Asn v_J_nplusone 0 ($v_j_temp * #2.8013480000000001e+01));
  (*1955*) Do (AddA v_jac 35 ((- $v_j_temp) * #2.9021420000000003e+01));
  (*1956*) Do (AddA v_jac 5 ((- $v_j_temp) * #1.7007339999999999e+01));
  (*1957*) Do (AddA v_jac 6 ($v_j_temp * #1.8015280000000001e+01));
  (*2180*) Do (Asn v_j_temp 0 (#1.0 / $v_T * (v_fwd_rates.[210] * #(-1.0) - v_rev_rates.[209] * (#(-1.0) + (- $v_T) * (v_dBdT.[52] + v_dBdT.[13] - v_dBdT.[12] - v_dBdT.[34]))) * $v_rho_inv));
  (*2181*) Do (Asn v_J_nplusone 0 ($v_j_temp * #2.8013480000000001e+01));
  (*2182*) Do (AddA v_jac 35 ((- $v_j_temp) * #2.9021420000000003e+01));
  (*2183*) Do (AddA v_jac 13 ((- $v_j_temp) * #1.5034820000000000e+01));
  (*2184*) Do (AddA v_jac 14 ($v_j_temp * #1.6042760000000001e+01));
  (*2407*) Do (Asn v_j_temp 0 (((- v_pres_mod.[30]) * (v_fwd_rates.[211] - v_rev_rates.[210]) / $v_T + v_pres_mod.[30] / $v_T * ((v_fwd_rates.[211] - v_rev_rates.[210]) * (#(-1.3200000000000001e+00) + #3.7238247799578033e+02 / $v_T) + v_fwd_rates.[211] * #(-1.0) - v_rev_rates.[210] * ((- $v_T) * (v_dBdT.[38] - v_dBdT.[1] - v_dBdT.[35])))) * $v_rho_inv));
  (*2408*) Do (AddA v_jac 2 ((- $v_j_temp) * #1.0079400000000001e+00));
  (*2409*) Do (AddA v_jac 36 ((- $v_j_temp) * #3.0006140000000002e+01));
  (*2410*) Do (AddA v_jac 39 ($v_j_temp * #3.1014080000000000e+01));
  (*2582*) Do (Asn v_j_temp 0 (#1.0 / $v_T * (v_fwd_rates.[212] * #(-1.0) - v_rev_rates.[211] * (#(-1.0) + (- $v_T) * (v_dBdT.[35] + v_dBdT.[4] - v_dBdT.[38] - v_dBdT.[2]))) * $v_rho_inv));
  (*2583*) Do (AddA v_jac 3 ((- $v_j_temp) * #1.5999400000000000e+01));
  (*2584*) Do (AddA v_jac 36 ($v_j_temp * #3.0006140000000002e+01));
  (*2585*) Do (AddA v_jac 5 ($v_j_temp * #1.7007339999999999e+01));
  (*2586*) Do (AddA v_jac 39 ((- $v_j_temp) * #3.1014080000000000e+01));
  (*2809*) Do (Asn v_j_temp 0 (#1.0 / $v_T * ((v_fwd_rates.[213] - v_rev_rates.[212]) * (#7.1999999999999997e-01 + #3.3212491280704734e+02 / $v_T) + v_fwd_rates.[213] * #(-1.0) - v_rev_rates.[212] * (#(-1.0) + (- $v_T) * (v_dBdT.[0] + v_dBdT.[35] - v_dBdT.[1] - v_dBdT.[38]))) * $v_rho_inv));
  (*2810*) Do (AddA v_jac 1 ($v_j_temp * #2.0158800000000001e+00));
  (*2811*) Do (AddA v_jac 2 ((- $v_j_temp) * #1.0079400000000001e+00));
  (*2812*) Do (AddA v_jac 36 ($v_j_temp * #3.0006140000000002e+01));
  (*2813*) Do (AddA v_jac 39 ((- $v_j_temp) * #3.1014080000000000e+01));
  (*3036*) Do (Asn v_j_temp 0 (#1.0 / $v_T * ((v_fwd_rates.[214] - v_rev_rates.[213]) * (#1.8999999999999999e+00 + #(-4.7805858661620448e+02) / $v_T) + v_fwd_rates.[214] * #(-1.0) - v_rev_rates.[213] * (#(-1.0) + (- $v_T) * (v_dBdT.[5] + v_dBdT.[35] - v_dBdT.[38] - v_dBdT.[4]))) * $v_rho_inv));
  (*3037*) Do (AddA v_jac 36 ($v_j_temp * #3.0006140000000002e+01));
  (*3038*) Do (AddA v_jac 5 ((- $v_j_temp) * #1.7007339999999999e+01));
  (*3039*) Do (AddA v_jac 6 ($v_j_temp * #1.8015280000000001e+01));
  (*3040*) Do (AddA v_jac 39 ((- $v_j_temp) * #3.1014080000000000e+01));
  (*3263*) Do (Asn v_j_temp 0 (#1.0 / $v_T * ((v_fwd_rates.[215] - v_rev_rates.[214]) * (#6.5418543431691141e+03 / $v_T) + v_fwd_rates.[215] * #(-1.0) - v_rev_rates.[214] * (#(-1.0) + (- $v_T) * (v_dBdT.[6] + v_dBdT.[35] - v_dBdT.[3] - v_dBdT.[38]))) * $v_rho_inv));
  (*3264*) Do (AddA v_jac 36 ($v_j_temp * #3.0006140000000002e+01));
  (*3265*) Do (AddA v_jac 4 ((- $v_j_temp) * #3.1998799999999999e+01));
  (*3266*) Do (AddA v_jac 7 ($v_j_temp * #3.3006740000000001e+01));
  (*3267*) Do (AddA v_jac 39 ((- $v_j_temp) * #3.1014080000000000e+01));
  (*3490*) Do (Asn v_j_temp 0 (#1.0 / $v_T * (v_fwd_rates.[216] * #(-1.0) - v_rev_rates.[215] * (#(-1.0) + (- $v_T) * (v_dBdT.[14] + v_dBdT.[30] - v_dBdT.[39] - v_dBdT.[2]))) * $v_rho_inv));
  (*3491*) Do (AddA v_jac 3 ((- $v_j_temp) * #1.5999400000000000e+01));
  (*3492*) Do (AddA v_jac 31 ($v_j_temp * #1.4006740000000001e+01));
  (*3493*) Do (AddA v_jac 15 ($v_j_temp * #2.8010399999999997e+01));
  (*3494*) Do (Asn v_jac 40 ((- $v_j_temp) * #2.6017740000000000e+01));
  (*3717*) Do (Asn v_j_temp 0 (#1.0 / $v_T * (v_fwd_rates.[217] * #(-1.0) - v_rev_rates.[216] * (#(-1.0) + (- $v_T) * (v_dBdT.[1] + v_dBdT.[46] - v_dBdT.[39] - v_dBdT.[4]))) * $v_rho_inv));
  (*3718*) Do (AddA v_jac 2 ($v_j_temp * #1.0079400000000001e+00));
  (*3719*) Do (AddA v_jac 5 ((- $v_j_temp) * #1.7007339999999999e+01));
  (*3720*) Do (Asn v_jac 47 ($v_j_temp * #4.2017139999999998e+01));
  (*3721*) Do (AddA v_jac 40 ((- $v_j_temp) * #2.6017740000000000e+01));
  (*3944*) Do (Asn v_j_temp 0 (#1.0 / $v_T * ((v_fwd_rates.[218] - v_rev_rates.[217]) * (#3.7540179538493535e+03 / $v_T) + v_fwd_rates.[218] * #(-1.0) - v_rev_rates.[217] * (#(-1.0) + (- $v_T) * (v_dBdT.[40] + v_dBdT.[4] - v_dBdT.[5] - v_dBdT.[39]))) * $v_rho_inv));
  (*3945*) Do (Asn v_jac 41 ($v_j_temp * #2.7025680000000001e+01));
  (*3946*) Do (AddA v_jac 5 ($v_j_temp * #1.7007339999999999e+01));
  (*3947*) Do (AddA v_jac 6 ((- $v_j_temp) * #1.8015280000000001e+01));
  (*3948*) Do (AddA v_jac 40 ((- $v_j_temp) * #2.6017740000000000e+01));
  (*4171*) Do (Asn v_j_temp 0 (#1.0 / $v_T * ((v_fwd_rates.[219] - v_rev_rates.[218]) * (#(-2.2141660853803157e+02) / $v_T) + v_fwd_rates.[219] * #(-1.0) - v_rev_rates.[218] * (#(-1.0) + (- $v_T) * (v_dBdT.[2] + v_dBdT.[46] - v_dBdT.[39] - v_dBdT.[3]))) * $v_rho_inv));
  (*4172*) Do (AddA v_jac 3 ($v_j_temp * #1.5999400000000000e+01));
  (*4173*) Do (AddA v_jac 4 ((- $v_j_temp) * #3.1998799999999999e+01));
  (*4174*) Do (AddA v_jac 47 ($v_j_temp * #4.2017139999999998e+01));
  (*4175*) Do (AddA v_jac 40 ((- $v_j_temp) * #2.6017740000000000e+01));
  (*4398*) Do (Asn v_j_temp 0 (#1.0 / $v_T * ((v_fwd_rates.[220] - v_rev_rates.[219]) * (#2.4500000000000002e+00 + #1.1272118252845244e+03 / $v_T) + v_fwd_rates.[220] * #(-1.0) - v_rev_rates.[219] * (#(-1.0) + (- $v_T) * (v_dBdT.[1] + v_dBdT.[40] - v_dBdT.[0] - v_dBdT.[39]))) * $v_rho_inv));
  (*4399*) Do (AddA v_jac 1 ((- $v_j_temp) * #2.0158800000000001e+00));
  (*4400*) Do (AddA v_jac 2 ($v_j_temp * #1.0079400000000001e+00));
  (*4401*) Do (AddA v_jac 41 ($v_j_temp * #2.7025680000000001e+01));
  (*4402*) Do (AddA v_jac 40 ((- $v_j_temp) * #2.6017740000000000e+01));
  (*4625*) Do (Asn v_j_temp 0 (#1.0 / $v_T * (v_fwd_rates.[221] * #(-1.0) - v_rev_rates.[220] * (#(-1.0) + (- $v_T) * (v_dBdT.[14] + v_dBdT.[35] - v_dBdT.[2] - v_dBdT.[46]))) * $v_rho_inv));
  (*4626*) Do (AddA v_jac 3 ((- $v_j_temp) * #1.5999400000000000e+01));
  (*4627*) Do (AddA v_jac 36 ($v_j_temp * #3.0006140000000002e+01));
  (*4628*) Do (AddA v_jac 15 ($v_j_temp * #2.8010399999999997e+01));
  (*4629*) Do (AddA v_jac 47 ((- $v_j_temp) * #4.2017139999999998e+01));
  (*4852*) Do (Asn v_j_temp 0 (#1.0 / $v_T * (v_fwd_rates.[222] * #(-1.0) - v_rev_rates.[221] * (#(-1.0) + (- $v_T) * (v_dBdT.[31] + v_dBdT.[14] - v_dBdT.[1] - v_dBdT.[46]))) * $v_rho_inv));
  (*4853*) Do (AddA v_jac 2 ((- $v_j_temp) * #1.0079400000000001e+00));
  (*4854*) Do (AddA v_jac 15 ($v_j_temp * #2.8010399999999997e+01));
  (*4855*) Do (AddA v_jac 47 ((- $v_j_temp) * #4.2017139999999998e+01));
  (*4856*) Do (AddA v_jac 32 ($v_j_temp * #1.5014680000000000e+01));
  (*5079*) Do (Asn v_j_temp 0 (#1.0 / $v_T * (v_fwd_rates.[223] * #(-1.0) - v_rev_rates.[222] * (#(-2.0) + (- $v_T) * (v_dBdT.[1] + v_dBdT.[14] + v_dBdT.[35] - v_dBdT.[46] - v_dBdT.[4]))) * $v_rho_inv));
  (*5080*) Do (AddA v_jac 2 ($v_j_temp * #1.0079400000000001e+00));
  (*5081*) Do (AddA v_jac 36 ($v_j_temp * #3.0006140000000002e+01));
  (*5082*) Do (AddA v_jac 5 ((- $v_j_temp) * #1.7007339999999999e+01));
  (*5083*) Do (AddA v_jac 15 ($v_j_temp * #2.8010399999999997e+01));
  (*5084*) Do (AddA v_jac 47 ((- $v_j_temp) * #4.2017139999999998e+01));
  (*5359*) Do (Asn v_j_temp 0 (#1.0 / $v_T * (v_fwd_rates.[224] * #(-1.0) - v_rev_rates.[223] * (#(-1.0) + (- $v_T) * (v_dBdT.[52] + v_dBdT.[14] - v_dBdT.[30] - v_dBdT.[46]))) * $v_rho_inv));
  (*5360*) Do (AddA v_jac 15 ($v_j_temp * #2.8010399999999997e+01));
  (*5361*) Do (Asn v_J_nplusone 0 ($v_j_temp * #2.8013480000000001e+01));
  (*5362*) Do (AddA v_jac 47 ((- $v_j_temp) * #4.2017139999999998e+01));
  (*5363*) Do (AddA v_jac 31 ((- $v_j_temp) * #1.4006740000000001e+01));
  (*5586*) Do (Asn v_j_temp 0 (#1.0 / $v_T * ((v_fwd_rates.[225] - v_rev_rates.[224]) * (#1.0064391297183252e+04 / $v_T) + v_fwd_rates.[225] * #(-1.0) - v_rev_rates.[224] * (#(-1.0) + (- $v_T) * (v_dBdT.[15] + v_dBdT.[35] - v_dBdT.[3] - v_dBdT.[46]))) * $v_rho_inv));
  (*5587*) Do (AddA v_jac 36 ($v_j_temp * #3.0006140000000002e+01));
  (*5588*) Do (AddA v_jac 4 ((- $v_j_temp) * #3.1998799999999999e+01));
  (*5589*) Do (AddA v_jac 47 ((- $v_j_temp) * #4.2017139999999998e+01));
  (*5590*) Do (AddA v_jac 16 ($v_j_temp * #4.4009799999999998e+01));
  (*5813*) Do (Asn v_j_temp 0 (((- v_pres_mod.[31]) * (v_fwd_rates.[226] - v_rev_rates.[225]) / $v_T + v_pres_mod.[31] / $v_T * ((v_fwd_rates.[226] - v_rev_rates.[225]) * (#2.7199017480637740e+04 / $v_T) - v_rev_rates.[225] * (#(-1.0) + (- $v_T) * (v_dBdT.[14] + v_dBdT.[30] - v_dBdT.[46])))) * $v_rho_inv));
  (*5814*) Do (AddA v_jac 31 ($v_j_temp * #1.4006740000000001e+01));
  (*5815*) Do (AddA v_jac 15 ($v_j_temp * #2.8010399999999997e+01));
  (*5816*) Do (AddA v_jac 47 ((- $v_j_temp) * #4.2017139999999998e+01));
  (*5988*) Do (Asn v_j_temp 0 (#1.0 / $v_T * ((v_fwd_rates.[227] - v_rev_rates.[226]) * (#(-1.5200000000000000e+00) + #3.7238247799578033e+02 / $v_T) + v_fwd_rates.[227] * #(-1.0) - v_rev_rates.[226] * (#(-1.0) + (- $v_T) * (v_dBdT.[14] + v_dBdT.[37] - v_dBdT.[46] - v_dBdT.[35]))) * $v_rho_inv));
  (*5989*) Do (AddA v_jac 36 ((- $v_j_temp) * #3.0006140000000002e+01));
  (*5990*) Do (AddA v_jac 15 ($v_j_temp * #2.8010399999999997e+01));
  (*5991*) Do (AddA v_jac 47 ((- $v_j_temp) * #4.2017139999999998e+01));
  (*5992*) Do (AddA v_jac 38 ($v_j_temp * #4.4012880000000003e+01));
  (*6215*) Do (Asn v_j_temp 0 (#1.0 / $v_T * ((v_fwd_rates.[228] - v_rev_rates.[227]) * (#(-2.0000000000000000e+00) + #4.0257565188733008e+02 / $v_T) + v_fwd_rates.[228] * #(-1.0) - v_rev_rates.[227] * (#(-1.0) + (- $v_T) * (v_dBdT.[52] + v_dBdT.[15] - v_dBdT.[46] - v_dBdT.[35]))) * $v_rho_inv));
  (*6216*) Do (AddA v_jac 36 ((- $v_j_temp) * #3.0006140000000002e+01));
  (*6217*) Do (Asn v_J_nplusone 0 ($v_j_temp * #2.8013480000000001e+01));
  (*6218*) Do (AddA v_jac 47 ((- $v_j_temp) * #4.2017139999999998e+01));
  (*6219*) Do (AddA v_jac 16 ($v_j_temp * #4.4009799999999998e+01));
  (*6442*) Do (Asn v_j_temp 0 (((- v_pres_mod.[32]) * (v_fwd_rates.[229] - v_rev_rates.[228]) / $v_T + v_pres_mod.[32] / $v_T * ((v_fwd_rates.[229] - v_rev_rates.[228]) * (#(-3.2999999999999998e+00) + #6.3707596911169989e+04 / $v_T) - v_rev_rates.[228] * (#(-1.0) + (- $v_T) * (v_dBdT.[1] + v_dBdT.[39] - v_dBdT.[40])))) * $v_rho_inv));
  (*6443*) Do (AddA v_jac 41 ((- $v_j_temp) * #2.7025680000000001e+01));
  (*6444*) Do (AddA v_jac 2 ($v_j_temp * #1.0079400000000001e+00));
  (*6445*) Do (AddA v_jac 40 ($v_j_temp * #2.6017740000000000e+01));
  (*6617*) Do (Asn v_j_temp 0 (#1.0 / $v_T * ((v_fwd_rates.[230] - v_rev_rates.[229]) * (#2.6400000000000001e+00 + #2.5060334329986299e+03 / $v_T) + v_fwd_rates.[230] * #(-1.0) - v_rev_rates.[229] * (#(-1.0) + (- $v_T) * (v_dBdT.[1] + v_dBdT.[46] - v_dBdT.[40] - v_dBdT.[2]))) * $v_rho_inv));
  (*6618*) Do (AddA v_jac 41 ((- $v_j_temp) * #2.7025680000000001e+01));
  (*6619*) Do (AddA v_jac 2 ($v_j_temp * #1.0079400000000001e+00));
  (*6620*) Do (AddA v_jac 3 ((- $v_j_temp) * #1.5999400000000000e+01));
  (*6621*) Do (AddA v_jac 47 ($v_j_temp * #4.2017139999999998e+01));
  (*6844*) Do (Asn v_j_temp 0 (#1.0 / $v_T * ((v_fwd_rates.[231] - v_rev_rates.[230]) * (#2.6400000000000001e+00 + #2.5060334329986299e+03 / $v_T) + v_fwd_rates.[231] * #(-1.0) - v_rev_rates.[230] * (#(-1.0) + (- $v_T) * (v_dBdT.[31] + v_dBdT.[14] - v_dBdT.[40] - v_dBdT.[2]))) * $v_rho_inv));
  (*6845*) Do (AddA v_jac 41 ((- $v_j_temp) * #2.7025680000000001e+01));
  (*6846*) Do (AddA v_jac 3 ((- $v_j_temp) * #1.5999400000000000e+01));
  (*6847*) Do (AddA v_jac 15 ($v_j_temp * #2.8010399999999997e+01));
  (*6848*) Do (AddA v_jac 32 ($v_j_temp * #1.5014680000000000e+01));
  (*7071*) Do (Asn v_j_temp 0 (#1.0 / $v_T * ((v_fwd_rates.[232] - v_rev_rates.[231]) * (#1.5800000000000001e+00 + #1.3385640425253727e+04 / $v_T) + v_fwd_rates.[232] * #(-1.0) - v_rev_rates.[231] * (#(-1.0) + (- $v_T) * (v_dBdT.[39] + v_dBdT.[4] - v_dBdT.[40] - v_dBdT.[2]))) * $v_rho_inv));
  (*7072*) Do (AddA v_jac 41 ((- $v_j_temp) * #2.7025680000000001e+01));
  (*7073*) Do (AddA v_jac 3 ((- $v_j_temp) * #1.5999400000000000e+01));
  (*7074*) Do (AddA v_jac 5 ($v_j_temp * #1.7007339999999999e+01));
  (*7075*) Do (AddA v_jac 40 ($v_j_temp * #2.6017740000000000e+01));
  (*7298*) Do (Asn v_j_temp 0 (#1.0 / $v_T * ((v_fwd_rates.[233] - v_rev_rates.[232]) * (#2.0299999999999998e+00 + #6.7280455821670048e+03 / $v_T) + v_fwd_rates.[233] * #(-1.0) - v_rev_rates.[232] * (#(-1.0) + (- $v_T) * (v_dBdT.[44] + v_dBdT.[1] - v_dBdT.[40] - v_dBdT.[4]))) * $v_rho_inv));
  (*7299*) Do (AddA v_jac 41 ((- $v_j_temp) * #2.7025680000000001e+01));
  (*7300*) Do (Asn v_jac 45 ($v_j_temp * #4.3025080000000003e+01));
  (*7301*) Do (AddA v_jac 5 ((- $v_j_temp) * #1.7007339999999999e+01));
  (*7302*) Do (AddA v_jac 2 ($v_j_temp * #1.0079400000000001e+00));
  (*7531*) Do (Asn v_j_temp 0 (#1.0 / $v_T * ((v_fwd_rates.[234] - v_rev_rates.[233]) * (#2.2599999999999998e+00 + #3.2206052150986407e+03 / $v_T) + v_fwd_rates.[234] * #(-1.0) - v_rev_rates.[233] * (#(-1.0) + (- $v_T) * (v_dBdT.[45] + v_dBdT.[1] - v_dBdT.[40] - v_dBdT.[4]))) * $v_rho_inv));
  (*7532*) Do (AddA v_jac 41 ((- $v_j_temp) * #2.7025680000000001e+01));
  (*7533*) Do (AddA v_jac 2 ($v_j_temp * #1.0079400000000001e+00));
  (*7534*) Do (AddA v_jac 5 ((- $v_j_temp) * #1.7007339999999999e+01));
  (*7535*) Do (Asn v_jac 46 ($v_j_temp * #4.3025080000000003e+01));
  (*7764*) Do (Asn v_j_temp 0 (#1.0 / $v_T * ((v_fwd_rates.[235] - v_rev_rates.[234]) * (#2.5600000000000001e+00 + #4.5289760837324638e+03 / $v_T) + v_fwd_rates.[235] * #(-1.0) - v_rev_rates.[234] * (#(-1.0) + (- $v_T) * (v_dBdT.[14] + v_dBdT.[32] - v_dBdT.[40] - v_dBdT.[4]))) * $v_rho_inv));
  (*7765*) Do (AddA v_jac 41 ((- $v_j_temp) * #2.7025680000000001e+01));
  (*7766*) Do (AddA v_jac 33 ($v_j_temp * #1.6022620000000000e+01));
  (*7767*) Do (AddA v_jac 5 ((- $v_j_temp) * #1.7007339999999999e+01));
  (*7768*) Do (AddA v_jac 15 ($v_j_temp * #2.8010399999999997e+01));
  (*7991*) Do (Asn v_conc_temp 0 ($v_m + #1.0 * v_conc.[0] + #5.0 * v_conc.[5] + #1.0 * v_conc.[13] + #0.5 * v_conc.[14] + #1.0 * v_conc.[15] + #2.0 * v_conc.[26] - #0.3 * v_conc.[47]));
  (*7992*) Do (Asn v_Pr 0 ($v_conc_temp * (Exp (#2.2168400698089236e+01 - #3.4 * $v_logT - #9.5611717323240896e+02 / $v_T))));
  (*7993*) Do (Asn v_j_temp 0 ((v_pres_mod.[33] * ((#(-3.4000e+00) + #9.5611717323240896e+02 / $v_T - #1.0) / ($v_T * (#1.0 + $v_Pr))) * (v_fwd_rates.[236] - v_rev_rates.[235]) + v_pres_mod.[33] / $v_T * (v_fwd_rates.[236] * #(-1.0) - v_rev_rates.[235] * ((- $v_T) * (v_dBdT.[41] - v_dBdT.[1] - v_dBdT.[40])))) * $v_rho_inv));
  (*7994*) Do (AddA v_jac 41 ((- $v_j_temp) * #2.7025680000000001e+01));
  (*7995*) Do (AddA v_jac 2 ((- $v_j_temp) * #1.0079400000000001e+00));
  (*7996*) Do (Asn v_jac 42 ($v_j_temp * #2.8033619999999999e+01));
  (*8169*) Do (Asn v_j_temp 0 (#1.0 / $v_T * ((v_fwd_rates.[237] - v_rev_rates.[236]) * (#2.0128782594366504e+02 / $v_T) + v_fwd_rates.[237] * #(-1.0) - v_rev_rates.[236] * (#(-1.0) + (- $v_T) * (v_dBdT.[10] + v_dBdT.[52] - v_dBdT.[41] - v_dBdT.[30]))) * $v_rho_inv));
  (*8170*) Do (AddA v_jac 42 ((- $v_j_temp) * #2.8033619999999999e+01));
  (*8171*) Do (AddA v_jac 11 ($v_j_temp * #1.4026879999999998e+01));
  (*8172*) Do (Asn v_J_nplusone 0 ($v_j_temp * #2.8013480000000001e+01));
  (*8173*) Do (AddA v_jac 31 ((- $v_j_temp) * #1.4006740000000001e+01));
  (*8396*) Do (Asn v_j_temp 0 (#1.0 / $v_T * ((v_fwd_rates.[238] - v_rev_rates.[237]) * (#2.3158164374818665e+04 / $v_T) + v_fwd_rates.[238] * #(-1.0) - v_rev_rates.[237] * (#(-1.0) + (- $v_T) * (v_dBdT.[39] + v_dBdT.[30] - v_dBdT.[8] - v_dBdT.[52]))) * $v_rho_inv));
  (*8397*) Do (AddA v_jac 9 ((- $v_j_temp) * #1.2010999999999999e+01));
  (*8398*) Do (Asn v_J_nplusone 0 ((- $v_j_temp) * #2.8013480000000001e+01));
  (*8399*) Do (AddA v_jac 31 ($v_j_temp * #1.4006740000000001e+01));
  (*8400*) Do (AddA v_jac 40 ($v_j_temp * #2.6017740000000000e+01));
  (*8623*) Do (Asn v_j_temp 0 (#1.0 / $v_T * ((v_fwd_rates.[239] - v_rev_rates.[238]) * (#8.8000000000000000e-01 + #1.0129809840614944e+04 / $v_T) + v_fwd_rates.[239] * #(-1.0) - v_rev_rates.[238] * (#(-1.0) + (- $v_T) * (v_dBdT.[40] + v_dBdT.[30] - v_dBdT.[52] - v_dBdT.[9]))) * $v_rho_inv));
  (*8624*) Do (AddA v_jac 41 ($v_j_temp * #2.7025680000000001e+01));
  (*8625*) Do (AddA v_jac 10 ((- $v_j_temp) * #1.3018939999999999e+01));
  (*8626*) Do (Asn v_J_nplusone 0 ((- $v_j_temp) * #2.8013480000000001e+01));
  (*8627*) Do (AddA v_jac 31 ($v_j_temp * #1.4006740000000001e+01))].

(** [eval_jacob_6], gri30/lib/src/jacobs/jacob_6.c:4-9050: the declarations and the blocks "partial of
    rxn ... wrt T" (the blocks "wrt species" write other elements of [jac]). *)
Definition gri30_jac_T6 : list stmt := [
  (*6*) Do (Asn v_logT 0 ((Log $v_T)));
  (*7*) Do (Asn v_kf 0 (#0.0));
  (*8*) Do (Asn v_j_temp 0 (#0.0));
  (*9*) Do (Asn v_pres_mod_temp 0 (#0.0));
  (*10*) Do (Asn v_Kc 0 (#0.0));
  (*11*) Do (Asn v_kr 0 (#0.0));
  (*12*) Do (Asn v_Pr 0 (#0.0));
  (*13*) Do (Asn v_Fcent 0 (#0.0));
  (*14*) Do (Asn v_A 0 (#0.0));
  (*15*) Do (Asn v_B 0 (#0.0));
  (*16*) Do (Asn v_lnF_AB 0 (#0.0));
  (*17*) Do (Asn v_rho_inv 0 (#1.0 / $v_rho));
  (*19*) Do (Asn v_conc_temp 0 ($v_m + #1.0 * v_conc.[0] + #5.0 * v_conc.[5] + #1.0 * v_conc.[13] + #0.5 * v_conc.[14] + #1.0 * v_conc.[15] + #2.0 * v_conc.[26]));
  (*20*) Do (Asn v_Pr 0 ($v_conc_temp * (Exp (#2.2156813082916848e+01 - #3.31 * $v_logT - #3.7238247799578033e+02 / $v_T))));
  (*21*) Do (Asn v_Fcent 0 (#3.3299999999999996e-01 * (Exp ($v_T / #(-2.3500000000000000e+02))) + #6.6700000000000004e-01 * (Exp ($v_T / #(-2.1170000000000000e+03))) + (Exp (#(-4.5360000000000000e+03) / $v_T))));
  (*22*) Do (Asn v_A 0 ((Log10 (Fmax $v_Pr #1.0e-300)) - #0.67 * (Log10 (Fmax $v_Fcent #1.0e-300)) - #0.4));
  (*23*) Do (Asn v_B 0 (#0.806 - #1.1762 * (Log10 (Fmax $v_Fcent #1.0e-300)) - #0.14 * (Log10 (Fmax $v_Pr #1.0e-300))));
  (*24*) Do (Asn v_lnF_AB 0 (#2.0 * (Log (Fmax $v_Fcent #1.0e-300)) * $v_A / ($v_B * $v_B * $v_B * (#1.0 + $v_A * $v_A / ($v_B * $v_B)) * (#1.0 + $v_A * $v_A / ($v_B * $v_B)))));
  (*25*) Do (Asn v_j_temp 0 ((v_pres_mod.[34] * ((#(-3.3100e+00) + #3.7238247799578033e+02 / $v_T - #1.0) / ($v_T * (#1.0 + $v_Pr)) + (#1.0 / ($v_Fcent * (#1.0 + $v_A * $v_A / ($v_B * $v_B))) - $v_lnF_AB * (#(-2.9097730287517870e-01) * $v_B + #5.1081716961460466e-01 * $v_A) / $v_Fcent) * (#(-1.4170212765957444e-03) * (Exp ($v_T / #(-2.3500000000000000e+02))) - #3.1506849315068495e-04 * (Exp ($v_T / #(-2.1170000000000000e+03))) + #4.5360000000000000e+03 / ($v_T * $v_T) * (Exp (#(-4.5360000000000000e+03) / $v_T))) - $v_lnF_AB * (#4.3429448190325176e-01 * $v_B + #6.0801227466455256e-02 * $v_A) * (#(-3.3100000000000001e+00) + #3.7238247799578033e+02 / $v_T - #1.0) / $v_T) * (v_fwd_rates.[240] - v_rev_rates.[239]) + v_pres_mod.[34] / $v_T * ((v_fwd_rates.[240] - v_rev_rates.[239]) * #1.4999999999999999e-01 + v_fwd_rates.[240] * #(-1.0) - v_rev_rates.[239] * ((- $v_T) * (v_dBdT.[42] - v_dBdT.[52] - v_dBdT.[9])))) * $v_rho_inv));
  (*26*) Do (AddA v_jac 10 ((- $v_j_temp) * #1.3018939999999999e+01));
  (*27*) Do (Asn v_jac 43 ($v_j_temp * #4.1032420000000002e+01));
  (*28*) Do (Asn v_J_nplusone 0 ((- $v_j_temp) * #2.8013480000000001e+01));
  (*201*) Do (Asn v_j_temp 0 (#1.0 / $v_T * ((v_fwd_rates.[241] - v_rev_rates.[240]) * (#3.7238247799578035e+04 / $v_T) + v_fwd_rates.[241] * #(-1.0) - v_rev_rates.[240] * (#(-1.0) + (- $v_T) * (v_dBdT.[31] + v_dBdT.[40] - v_dBdT.[10] - v_dBdT.[52]))) * $v_rho_inv));
  (*202*) Do (AddA v_jac 41 ($v_j_temp * #2.7025680000000001e+01));
  (*203*) Do (AddA v_jac 11 ((- $v_j_temp) * #1.4026879999999998e+01));
  (*204*) Do (Asn v_J_nplusone 0 ((- $v_j_temp) * #2.8013480000000001e+01));
  (*205*) Do (AddA v_jac 32 ($v_j_temp * #1.5014680000000000e+01));
  (*428*) Do (Asn v_j_temp 0 (#1.0 / $v_T * ((v_fwd_rates.[242] - v_rev_rates.[241]) * (#3.2709271715845571e+04 / $v_T) + v_fwd_rates.[242] * #(-1.0) - v_rev_rates.[241] * (#(-1.0) + (- $v_T) * (v_dBdT.[31] + v_dBdT.[40] - v_dBdT.[11] - v_dBdT.[52]))) * $v_rho_inv));
  (*429*) Do (AddA v_jac 41 ($v_j_temp * #2.7025680000000001e+01));
  (*430*) Do (AddA v_jac 12 ((- $v_j_temp) * #1.4026879999999998e+01));
  (*431*) Do (Asn v_J_nplusone 0 ((- $v_j_temp) * #2.8013480000000001e+01));
  (*432*) Do (AddA v_jac 32 ($v_j_temp * #1.5014680000000000e+01));
  (*655*) Do (Asn v_j_temp 0 (#1.0 / $v_T * (v_fwd_rates.[243] * #(-1.0) - v_rev_rates.[242] * (#(-1.0) + (- $v_T) * (v_dBdT.[39] + v_dBdT.[2] - v_dBdT.[8] - v_dBdT.[35]))) * $v_rho_inv));
  (*656*) Do (AddA v_jac 9 ((- $v_j_temp) * #1.2010999999999999e+01));
  (*657*) Do (AddA v_jac 3 ($v_j_temp * #1.5999400000000000e+01));
  (*658*) Do (AddA v_jac 36 ((- $v_j_temp) * #3.0006140000000002e+01));
  (*659*) Do (AddA v_jac 40 ($v_j_temp * #2.6017740000000000e+01));
  (*882*) Do (Asn v_j_temp 0 (#1.0 / $v_T * (v_fwd_rates.[244] * #(-1.0) - v_rev_rates.[243] * (#(-1.0) + (- $v_T) * (v_dBdT.[14] + v_dBdT.[30] - v_dBdT.[8] - v_dBdT.[35]))) * $v_rho_inv));
  (*883*) Do (AddA v_jac 9 ((- $v_j_temp) * #1.2010999999999999e+01));
  (*884*) Do (AddA v_jac 36 ((- $v_j_temp) * #3.0006140000000002e+01));
  (*885*) Do (AddA v_jac 31 ($v_j_temp * #1.4006740000000001e+01));
  (*886*) Do (AddA v_jac 15 ($v_j_temp * #2.8010399999999997e+01));
  (*1109*) Do (Asn v_j_temp 0 (#1.0 / $v_T * (v_fwd_rates.[245] * #(-1.0) - v_rev_rates.[244] * (#(-1.0) + (- $v_T) * (v_dBdT.[40] + v_dBdT.[2] - v_dBdT.[9] - v_dBdT.[35]))) * $v_rho_inv));
  (*1110*) Do (AddA v_jac 41 ($v_j_temp * #2.7025680000000001e+01));
  (*1111*) Do (AddA v_jac 10 ((- $v_j_temp) * #1.3018939999999999e+01));
  (*1112*) Do (AddA v_jac 3 ($v_j_temp * #1.5999400000000000e+01));
  (*1113*) Do (AddA v_jac 36 ((- $v_j_temp) * #3.0006140000000002e+01));
  (*1336*) Do (Asn v_j_temp 0 (#1.0 / $v_T * (v_fwd_rates.[246] * #(-1.0) - v_rev_rates.[245] * (#(-1.0) + (- $v_T) * (v_dBdT.[1] + v_dBdT.[46] - v_dBdT.[9] - v_dBdT.[35]))) * $v_rho_inv));
  (*1337*) Do (AddA v_jac 10 ((- $v_j_temp) * #1.3018939999999999e+01));
  (*1338*) Do (AddA v_jac 36 ((- $v_j_temp) * #3.0006140000000002e+01));
  (*1339*) Do (AddA v_jac 47 ($v_j_temp * #4.2017139999999998e+01));
  (*1340*) Do (AddA v_jac 2 ($v_j_temp * #1.0079400000000001e+00));
  (*1563*) Do (Asn v_j_temp 0 (#1.0 / $v_T * (v_fwd_rates.[247] * #(-1.0) - v_rev_rates.[246] * (#(-1.0) + (- $v_T) * (v_dBdT.[16] + v_dBdT.[30] - v_dBdT.[9] - v_dBdT.[35]))) * $v_rho_inv));
  (*1564*) Do (AddA v_jac 17 ($v_j_temp * #2.9018339999999998e+01));
  (*1565*) Do (AddA v_jac 10 ((- $v_j_temp) * #1.3018939999999999e+01));
  (*1566*) Do (AddA v_jac 36 ((- $v_j_temp) * #3.0006140000000002e+01));
  (*1567*) Do (AddA v_jac 31 ($v_j_temp * #1.4006740000000001e+01));
  (*1790*) Do (Asn v_j_temp 0 (#1.0 / $v_T * ((v_fwd_rates.[248] - v_rev_rates.[247]) * (#(-1.3799999999999999e+00) + #6.3908884737113658e+02 / $v_T) + v_fwd_rates.[248] * #(-1.0) - v_rev_rates.[247] * (#(-1.0) + (- $v_T) * (v_dBdT.[45] + v_dBdT.[1] - v_dBdT.[10] - v_dBdT.[35]))) * $v_rho_inv));
  (*1791*) Do (AddA v_jac 2 ($v_j_temp * #1.0079400000000001e+00));
  (*1792*) Do (AddA v_jac 11 ((- $v_j_temp) * #1.4026879999999998e+01));
  (*1793*) Do (AddA v_jac 36 ((- $v_j_temp) * #3.0006140000000002e+01));
  (*1794*) Do (AddA v_jac 46 ($v_j_temp * #4.3025080000000003e+01));
  (*2023*) Do (Asn v_j_temp 0 (#1.0 / $v_T * ((v_fwd_rates.[249] - v_rev_rates.[248]) * (#(-6.8999999999999995e-01) + #3.8244686929296358e+02 / $v_T) + v_fwd_rates.[249] * #(-1.0) - v_rev_rates.[248] * (#(-1.0) + (- $v_T) * (v_dBdT.[40] + v_dBdT.[4] - v_dBdT.[10] - v_dBdT.[35]))) * $v_rho_inv));
  (*2024*) Do (AddA v_jac 41 ($v_j_temp * #2.7025680000000001e+01));
  (*2025*) Do (AddA v_jac 11 ((- $v_j_temp) * #1.4026879999999998e+01));
  (*2026*) Do (AddA v_jac 36 ((- $v_j_temp) * #3.0006140000000002e+01));
  (*2027*) Do (AddA v_jac 5 ($v_j_temp * #1.7007339999999999e+01));
  (*2250*) Do (Asn v_j_temp 0 (#1.0 / $v_T * ((v_fwd_rates.[250] - v_rev_rates.[249]) * (#(-3.5999999999999999e-01) + #2.9186734761831434e+02 / $v_T) + v_fwd_rates.[250] * #(-1.0) - v_rev_rates.[249] * (#(-1.0) + (- $v_T) * (v_dBdT.[1] + v_dBdT.[43] - v_dBdT.[10] - v_dBdT.[35]))) * $v_rho_inv));
  (*2251*) Do (AddA v_jac 2 ($v_j_temp * #1.0079400000000001e+00));
  (*2252*) Do (AddA v_jac 11 ((- $v_j_temp) * #1.4026879999999998e+01));
  (*2253*) Do (AddA v_jac 36 ((- $v_j_temp) * #3.0006140000000002e+01));
  (*2254*) Do (Asn v_jac 44 ($v_j_temp * #4.3025080000000003e+01));
  (*2483*) Do (Asn v_j_temp 0 (#1.0 / $v_T * ((v_fwd_rates.[251] - v_rev_rates.[250]) * (#(-1.3799999999999999e+00) + #6.3908884737113658e+02 / $v_T) + v_fwd_rates.[251] * #(-1.0) - v_rev_rates.[250] * (#(-1.0) + (- $v_T) * (v_dBdT.[45] + v_dBdT.[1] - v_dBdT.[11] - v_dBdT.[35]))) * $v_rho_inv));
  (*2484*) Do (AddA v_jac 36 ((- $v_j_temp) * #3.0006140000000002e+01));
  (*2485*) Do (AddA v_jac 12 ((- $v_j_temp) * #1.4026879999999998e+01));
  (*2486*) Do (AddA v_jac 46 ($v_j_temp * #4.3025080000000003e+01));
  (*2487*) Do (AddA v_jac 2 ($v_j_temp * #1.0079400000000001e+00));
  (*2716*) Do (Asn v_j_temp 0 (#1.0 / $v_T * ((v_fwd_rates.[252] - v_rev_rates.[251]) * (#(-6.8999999999999995e-01) + #3.8244686929296358e+02 / $v_T) + v_fwd_rates.[252] * #(-1.0) - v_rev_rates.[251] * (#(-1.0) + (- $v_T) * (v_dBdT.[40] + v_dBdT.[4] - v_dBdT.[11] - v_dBdT.[35]))) * $v_rho_inv));
  (*2717*) Do (AddA v_jac 41 ($v_j_temp * #2.7025680000000001e+01));
  (*2718*) Do (AddA v_jac 36 ((- $v_j_temp) * #3.0006140000000002e+01));
  (*2719*) Do (AddA v_jac 12 ((- $v_j_temp) * #1.4026879999999998e+01));
  (*2720*) Do (AddA v_jac 5 ($v_j_temp * #1.7007339999999999e+01));
  (*2943*) Do (Asn v_j_temp 0 (#1.0 / $v_T * ((v_fwd_rates.[253] - v_rev_rates.[252]) * (#(-3.5999999999999999e-01) + #2.9186734761831434e+02 / $v_T) + v_fwd_rates.[253] * #(-1.0) - v_rev_rates.[252] * (#(-1.0) + (- $v_T) * (v_dBdT.[1] + v_dBdT.[43] - v_dBdT.[11] - v_dBdT.[35]))) * $v_rho_inv));
  (*2944*) Do (AddA v_jac 36 ((- $v_j_temp) * #3.0006140000000002e+01));
  (*2945*) Do (AddA v_jac 12 ((- $v_j_temp) * #1.4026879999999998e+01));
  (*2946*) Do (AddA v_jac 44 ($v_j_temp * #4.3025080000000003e+01));
  (*2947*) Do (AddA v_jac 2 ($v_j_temp * #1.0079400000000001e+00));
  (*3176*) Do (Asn v_j_temp 0 (#1.0 / $v_T * ((v_fwd_rates.[254] - v_rev_rates.[253]) * (#1.4492723467943884e+04 / $v_T) + v_fwd_rates.[254] * #(-1.0) - v_rev_rates.[253] * (#(-1.0) + (- $v_T) * (v_dBdT.[5] + v_dBdT.[40] - v_dBdT.[12] - v_dBdT.[35]))) * $v_rho_inv));
  (*3177*) Do (AddA v_jac 41 ($v_j_temp * #2.7025680000000001e+01));
  (*3178*) Do (AddA v_jac 36 ((- $v_j_temp) * #3.0006140000000002e+01));
  (*3179*) Do (AddA v_jac 13 ((- $v_j_temp) * #1.5034820000000000e+01));
  (*3180*) Do (AddA v_jac 6 ($v_j_temp * #1.8015280000000001e+01));
  (*3403*) Do (Asn v_j_temp 0 (#1.0 / $v_T * ((v_fwd_rates.[255] - v_rev_rates.[254]) * (#1.0945025535686787e+04 / $v_T) + v_fwd_rates.[255] * #(-1.0) - v_rev_rates.[254] * (#(-1.0) + (- $v_T) * (v_dBdT.[41] + v_dBdT.[4] - v_dBdT.[12] - v_dBdT.[35]))) * $v_rho_inv));
  (*3404*) Do (AddA v_jac 42 ($v_j_temp * #2.8033619999999999e+01));
  (*3405*) Do (AddA v_jac 36 ((- $v_j_temp) * #3.0006140000000002e+01));
  (*3406*) Do (AddA v_jac 13 ((- $v_j_temp) * #1.5034820000000000e+01));
  (*3407*) Do (AddA v_jac 5 ($v_j_temp * #1.7007339999999999e+01));
  (*3630*) Do (Asn v_j_temp 0 (#1.0 / $v_T * (v_fwd_rates.[256] * #(-1.0) - v_rev_rates.[255] * (#(-2.0) + (- $v_T) * (v_dBdT.[1] + v_dBdT.[52] + v_dBdT.[14] - v_dBdT.[2] - v_dBdT.[42]))) * $v_rho_inv));
  (*3631*) Do (AddA v_jac 2 ($v_j_temp * #1.0079400000000001e+00));
  (*3632*) Do (AddA v_jac 3 ((- $v_j_temp) * #1.5999400000000000e+01));
  (*3633*) Do (Asn v_J_nplusone 0 ($v_j_temp * #2.8013480000000001e+01));
  (*3634*) Do (AddA v_jac 43 ((- $v_j_temp) * #4.1032420000000002e+01));
  (*3635*) Do (AddA v_jac 15 ($v_j_temp * #2.8010399999999997e+01));
  (*3910*) Do (Asn v_j_temp 0 (#1.0 / $v_T * (v_fwd_rates.[257] * #(-1.0) - v_rev_rates.[256] * (#(-1.0) + (- $v_T) * (v_dBdT.[40] + v_dBdT.[35] - v_dBdT.[2] - v_dBdT.[42]))) * $v_rho_inv));
  (*3911*) Do (AddA v_jac 41 ($v_j_temp * #2.7025680000000001e+01));
  (*3912*) Do (AddA v_jac 3 ((- $v_j_temp) * #1.5999400000000000e+01));
  (*3913*) Do (AddA v_jac 36 ($v_j_temp * #3.0006140000000002e+01));
  (*3914*) Do (AddA v_jac 43 ((- $v_j_temp) * #4.1032420000000002e+01));
  (*4137*) Do (Asn v_j_temp 0 (#1.0 / $v_T * (v_fwd_rates.[258] * #(-1.0) - v_rev_rates.[257] * (#(-2.0) + (- $v_T) * (v_dBdT.[52] + v_dBdT.[16] + v_dBdT.[2] - v_dBdT.[3] - v_dBdT.[42]))) * $v_rho_inv));
  (*4138*) Do (AddA v_jac 17 ($v_j_temp * #2.9018339999999998e+01));
  (*4139*) Do (AddA v_jac 43 ((- $v_j_temp) * #4.1032420000000002e+01));
  (*4140*) Do (AddA v_jac 4 ((- $v_j_temp) * #3.1998799999999999e+01));
  (*4141*) Do (Asn v_J_nplusone 0 ($v_j_temp * #2.8013480000000001e+01));
  (*4142*) Do (AddA v_jac 3 ($v_j_temp * #1.5999400000000000e+01));
  (*4417*) Do (Asn v_j_temp 0 (#1.0 / $v_T * (v_fwd_rates.[259] * #(-1.0) - v_rev_rates.[258] * (#(-2.0) + (- $v_T) * (v_dBdT.[1] + v_dBdT.[52] + v_dBdT.[16] - v_dBdT.[42] - v_dBdT.[4]))) * $v_rho_inv));
  (*4418*) Do (AddA v_jac 17 ($v_j_temp * #2.9018339999999998e+01));
  (*4419*) Do (AddA v_jac 2 ($v_j_temp * #1.0079400000000001e+00));
  (*4420*) Do (AddA v_jac 43 ((- $v_j_temp) * #4.1032420000000002e+01));
  (*4421*) Do (AddA v_jac 5 ((- $v_j_temp) * #1.7007339999999999e+01));
  (*4422*) Do (Asn v_J_nplusone 0 ($v_j_temp * #2.8013480000000001e+01));
  (*4697*) Do (Asn v_j_temp 0 (#1.0 / $v_T * (v_fwd_rates.[260] * #(-1.0) - v_rev_rates.[259] * (#(-1.0) + (- $v_T) * (v_dBdT.[10] + v_dBdT.[52] - v_dBdT.[1] - v_dBdT.[42]))) * $v_rho_inv));
  (*4698*) Do (AddA v_jac 2 ((- $v_j_temp) * #1.0079400000000001e+00));
  (*4699*) Do (AddA v_jac 43 ((- $v_j_temp) * #4.1032420000000002e+01));
  (*4700*) Do (Asn v_J_nplusone 0 ($v_j_temp * #2.8013480000000001e+01));
  (*4701*) Do (AddA v_jac 11 ($v_j_temp * #1.4026879999999998e+01));
  (*4924*) Do (Asn v_j_temp 0 (#1.0 / $v_T * ((v_fwd_rates.[261] - v_rev_rates.[260]) * (#1.4099999999999999e+00 + #4.2773663013028827e+03 / $v_T) + v_fwd_rates.[261] * #(-1.0) - v_rev_rates.[260] * (#(-1.0) + (- $v_T) * (v_dBdT.[31] + v_dBdT.[15] - v_dBdT.[45] - v_dBdT.[2]))) * $v_rho_inv));
  (*4925*) Do (AddA v_jac 3 ((- $v_j_temp) * #1.5999400000000000e+01));
  (*4926*) Do (AddA v_jac 16 ($v_j_temp * #4.4009799999999998e+01));
  (*4927*) Do (AddA v_jac 46 ((- $v_j_temp) * #4.3025080000000003e+01));
  (*4928*) Do (AddA v_jac 32 ($v_j_temp * #1.5014680000000000e+01));
  (*5157*) Do (Asn v_j_temp 0 (#1.0 / $v_T * ((v_fwd_rates.[262] - v_rev_rates.[261]) * (#1.5700000000000001e+00 + #2.2141660853803154e+04 / $v_T) + v_fwd_rates.[262] * #(-1.0) - v_rev_rates.[261] * (#(-1.0) + (- $v_T) * (v_dBdT.[14] + v_dBdT.[38] - v_dBdT.[45] - v_dBdT.[2]))) * $v_rho_inv));
  (*5158*) Do (AddA v_jac 3 ((- $v_j_temp) * #1.5999400000000000e+01));
  (*5159*) Do (AddA v_jac 39 ($v_j_temp * #3.1014080000000000e+01));
  (*5160*) Do (AddA v_jac 46 ((- $v_j_temp) * #4.3025080000000003e+01));
  (*5161*) Do (AddA v_jac 15 ($v_j_temp * #2.8010399999999997e+01));
  (*5390*) Do (Asn v_j_temp 0 (#1.0 / $v_T * ((v_fwd_rates.[263] - v_rev_rates.[262]) * (#2.1099999999999999e+00 + #5.7367030393944542e+03 / $v_T) + v_fwd_rates.[263] * #(-1.0) - v_rev_rates.[262] * (#(-1.0) + (- $v_T) * (v_dBdT.[46] + v_dBdT.[4] - v_dBdT.[45] - v_dBdT.[2]))) * $v_rho_inv));
  (*5391*) Do (AddA v_jac 3 ((- $v_j_temp) * #1.5999400000000000e+01));
  (*5392*) Do (AddA v_jac 5 ($v_j_temp * #1.7007339999999999e+01));
  (*5393*) Do (AddA v_jac 46 ((- $v_j_temp) * #4.3025080000000003e+01));
  (*5394*) Do (AddA v_jac 47 ($v_j_temp * #4.2017139999999998e+01));
  (*5623*) Do (Asn v_j_temp 0 (#1.0 / $v_T * ((v_fwd_rates.[264] - v_rev_rates.[263]) * (#1.7000000000000000e+00 + #1.9122343464648179e+03 / $v_T) + v_fwd_rates.[264] * #(-1.0) - v_rev_rates.[263] * (#(-1.0) + (- $v_T) * (v_dBdT.[14] + v_dBdT.[32] - v_dBdT.[45] - v_dBdT.[1]))) * $v_rho_inv));
  (*5624*) Do (AddA v_jac 33 ($v_j_temp * #1.6022620000000000e+01));
  (*5625*) Do (AddA v_jac 2 ((- $v_j_temp) * #1.0079400000000001e+00));
  (*5626*) Do (AddA v_jac 46 ((- $v_j_temp) * #4.3025080000000003e+01));
  (*5627*) Do (AddA v_jac 15 ($v_j_temp * #2.8010399999999997e+01));
  (*5856*) Do (Asn v_j_temp 0 (#1.0 / $v_T * ((v_fwd_rates.[265] - v_rev_rates.[264]) * (#2.5000000000000000e+00 + #6.6928202126268634e+03 / $v_T) + v_fwd_rates.[265] * #(-1.0) - v_rev_rates.[264] * (#(-1.0) + (- $v_T) * (v_dBdT.[0] + v_dBdT.[46] - v_dBdT.[45] - v_dBdT.[1]))) * $v_rho_inv));
  (*5857*) Do (AddA v_jac 1 ($v_j_temp * #2.0158800000000001e+00));
  (*5858*) Do (AddA v_jac 2 ((- $v_j_temp) * #1.0079400000000001e+00));
  (*5859*) Do (AddA v_jac 46 ((- $v_j_temp) * #4.3025080000000003e+01));
  (*5860*) Do (AddA v_jac 47 ($v_j_temp * #4.2017139999999998e+01));
  (*6089*) Do (Asn v_j_temp 0 (#1.0 / $v_T * ((v_fwd_rates.[266] - v_rev_rates.[265]) * (#1.5000000000000000e+00 + #1.8115904334929855e+03 / $v_T) + v_fwd_rates.[266] * #(-1.0) - v_rev_rates.[265] * (#(-1.0) + (- $v_T) * (v_dBdT.[5] + v_dBdT.[46] - v_dBdT.[45] - v_dBdT.[4]))) * $v_rho_inv));
  (*6090*) Do (AddA v_jac 5 ((- $v_j_temp) * #1.7007339999999999e+01));
  (*6091*) Do (AddA v_jac 46 ((- $v_j_temp) * #4.3025080000000003e+01));
  (*6092*) Do (AddA v_jac 47 ($v_j_temp * #4.2017139999999998e+01));
  (*6093*) Do (AddA v_jac 6 ($v_j_temp * #1.8015280000000001e+01));
  (*6322*) Do (Asn v_j_temp 0 (#1.0 / $v_T * ((v_fwd_rates.[267] - v_rev_rates.[266]) * (#1.5000000000000000e+00 + #1.8115904334929855e+03 / $v_T) + v_fwd_rates.[267] * #(-1.0) - v_rev_rates.[266] * (#(-1.0) + (- $v_T) * (v_dBdT.[15] + v_dBdT.[32] - v_dBdT.[45] - v_dBdT.[4]))) * $v_rho_inv));
  (*6323*) Do (AddA v_jac 33 ($v_j_temp * #1.6022620000000000e+01));
  (*6324*) Do (AddA v_jac 5 ((- $v_j_temp) * #1.7007339999999999e+01));
  (*6325*) Do (AddA v_jac 46 ((- $v_j_temp) * #4.3025080000000003e+01));
  (*6326*) Do (AddA v_jac 16 ($v_j_temp * #4.4009799999999998e+01));
  (*6555*) Do (Asn v_j_temp 0 (((- v_pres_mod.[35]) * (v_fwd_rates.[268] - v_rev_rates.[267]) / $v_T + v_pres_mod.[35] / $v_T * ((v_fwd_rates.[268] - v_rev_rates.[267]) * (#4.2632761534868259e+04 / $v_T) - v_rev_rates.[267] * (#(-1.0) + (- $v_T) * (v_dBdT.[31] + v_dBdT.[14] - v_dBdT.[45])))) * $v_rho_inv));
  (*6556*) Do (AddA v_jac 46 ((- $v_j_temp) * #4.3025080000000003e+01));
  (*6557*) Do (AddA v_jac 15 ($v_j_temp * #2.8010399999999997e+01));
  (*6558*) Do (AddA v_jac 32 ($v_j_temp * #1.5014680000000000e+01));
  (*6736*) Do (Asn v_j_temp 0 (#1.0 / $v_T * ((v_fwd_rates.[269] - v_rev_rates.[268]) * (#(-6.8999999999999995e-01) + #1.4341757598486136e+03 / $v_T) + v_fwd_rates.[269] * #(-1.0) - v_rev_rates.[268] * (#(-1.0) + (- $v_T) * (v_dBdT.[45] - v_dBdT.[43]))) * $v_rho_inv));
  (*6737*) Do (AddA v_jac 44 ((- $v_j_temp) * #4.3025080000000003e+01));
  (*6738*) Do (AddA v_jac 46 ($v_j_temp * #4.3025080000000003e+01));
  (*6863*) Do (Asn v_j_temp 0 (#1.0 / $v_T * ((v_fwd_rates.[270] - v_rev_rates.[269]) * (#1.7999999999999999e-01 + #1.0668254775014248e+03 / $v_T) + v_fwd_rates.[270] * #(-1.0) - v_rev_rates.[269] * (#(-1.0) + (- $v_T) * (v_dBdT.[40] + v_dBdT.[4] - v_dBdT.[1] - v_dBdT.[43]))) * $v_rho_inv));
  (*6864*) Do (AddA v_jac 41 ($v_j_temp * #2.7025680000000001e+01));
  (*6865*) Do (AddA v_jac 2 ((- $v_j_temp) * #1.0079400000000001e+00));
  (*6866*) Do (AddA v_jac 44 ((- $v_j_temp) * #4.3025080000000003e+01));
  (*6867*) Do (AddA v_jac 5 ($v_j_temp * #1.7007339999999999e+01));
  (*7096*) Do (Asn v_j_temp 0 (#1.0 / $v_T * ((v_fwd_rates.[271] - v_rev_rates.[270]) * (#(-7.5000000000000000e-01) + #1.4543045424429799e+03 / $v_T) + v_fwd_rates.[271] * #(-1.0) - v_rev_rates.[270] * (#(-1.0) + (- $v_T) * (v_dBdT.[14] + v_dBdT.[32] - v_dBdT.[1] - v_dBdT.[43]))) * $v_rho_inv));
  (*7097*) Do (AddA v_jac 33 ($v_j_temp * #1.6022620000000000e+01));
  (*7098*) Do (AddA v_jac 2 ((- $v_j_temp) * #1.0079400000000001e+00));
  (*7099*) Do (AddA v_jac 44 ((- $v_j_temp) * #4.3025080000000003e+01));
  (*7100*) Do (AddA v_jac 15 ($v_j_temp * #2.8010399999999997e+01));
  (*7329*) Do (Asn v_j_temp 0 (#1.0 / $v_T * ((v_fwd_rates.[272] - v_rev_rates.[271]) * (#2.0000000000000000e+00 + #1.0064391297183253e+03 / $v_T) + v_fwd_rates.[272] * #(-1.0) - v_rev_rates.[271] * (#(-1.0) + (- $v_T) * (v_dBdT.[45] - v_dBdT.[44]))) * $v_rho_inv));
  (*7330*) Do (AddA v_jac 45 ((- $v_j_temp) * #4.3025080000000003e+01));
  (*7331*) Do (AddA v_jac 46 ($v_j_temp * #4.3025080000000003e+01));
  (*7456*) Do (Asn v_j_temp 0 (#1.0 / $v_T * (v_fwd_rates.[273] * #(-1.0) - v_rev_rates.[272] * (#(-1.0) + (- $v_T) * (v_dBdT.[14] + v_dBdT.[43] - v_dBdT.[27] - v_dBdT.[35]))) * $v_rho_inv));
  (*7457*) Do (AddA v_jac 36 ((- $v_j_temp) * #3.0006140000000002e+01));
  (*7458*) Do (AddA v_jac 28 ((- $v_j_temp) * #4.1029339999999998e+01));
  (*7459*) Do (AddA v_jac 15 ($v_j_temp * #2.8010399999999997e+01));
  (*7460*) Do (AddA v_jac 44 ($v_j_temp * #4.3025080000000003e+01));
  (*7689*) Do (Asn v_j_temp 0 (#1.0 / $v_T * ((v_fwd_rates.[274] - v_rev_rates.[273]) * (#(-3.1000000000000000e-01) + #1.4593367380915717e+02 / $v_T) + v_fwd_rates.[274] * #(-1.0) - v_rev_rates.[273] * (#(-1.0) + (- $v_T) * (v_dBdT.[1] + v_dBdT.[41] - v_dBdT.[12] - v_dBdT.[30]))) * $v_rho_inv));
  (*7690*) Do (AddA v_jac 2 ($v_j_temp * #1.0079400000000001e+00));
  (*7691*) Do (AddA v_jac 13 ((- $v_j_temp) * #1.5034820000000000e+01));
  (*7692*) Do (AddA v_jac 31 ((- $v_j_temp) * #1.4006740000000001e+01));
  (*7693*) Do (AddA v_jac 42 ($v_j_temp * #2.8033619999999999e+01));
  (*7916*) Do (Asn v_j_temp 0 (#1.0 / $v_T * ((v_fwd_rates.[275] - v_rev_rates.[274]) * (#1.4999999999999999e-01 + #(-4.5289760837324636e+01) / $v_T) + v_fwd_rates.[275] * #(-1.0) - v_rev_rates.[274] * (#(-1.0) + (- $v_T) * (v_dBdT.[0] + v_dBdT.[40] - v_dBdT.[12] - v_dBdT.[30]))) * $v_rho_inv));
  (*7917*) Do (AddA v_jac 1 ($v_j_temp * #2.0158800000000001e+00));
  (*7918*) Do (AddA v_jac 41 ($v_j_temp * #2.7025680000000001e+01));
  (*7919*) Do (AddA v_jac 13 ((- $v_j_temp) * #1.5034820000000000e+01));
  (*7920*) Do (AddA v_jac 31 ((- $v_j_temp) * #1.4006740000000001e+01));
  (*8143*) Do (Asn v_j_temp 0 (#1.0 / $v_T * ((v_fwd_rates.[276] - v_rev_rates.[275]) * (#2.3999999999999999e+00 + #4.9894219855785977e+03 / $v_T) + v_fwd_rates.[276] * #(-1.0) - v_rev_rates.[275] * (#(-1.0) + (- $v_T) * (v_dBdT.[0] + v_dBdT.[32] - v_dBdT.[1] - v_dBdT.[33]))) * $v_rho_inv));
  (*8144*) Do (AddA v_jac 1 ($v_j_temp * #2.0158800000000001e+00));
  (*8145*) Do (AddA v_jac 2 ((- $v_j_temp) * #1.0079400000000001e+00));
  (*8146*) Do (AddA v_jac 33 ($v_j_temp * #1.6022620000000000e+01));
  (*8147*) Do (Asn v_jac 34 ((- $v_j_temp) * #1.7030560000000001e+01));
  (*8370*) Do (Asn v_j_temp 0 (#1.0 / $v_T * ((v_fwd_rates.[277] - v_rev_rates.[276]) * (#1.6000000000000001e+00 + #4.8057468444050033e+02 / $v_T) + v_fwd_rates.[277] * #(-1.0) - v_rev_rates.[276] * (#(-1.0) + (- $v_T) * (v_dBdT.[5] + v_dBdT.[32] - v_dBdT.[33] - v_dBdT.[4]))) * $v_rho_inv));
  (*8371*) Do (AddA v_jac 33 ($v_j_temp * #1.6022620000000000e+01));
  (*8372*) Do (AddA v_jac 34 ((- $v_j_temp) * #1.7030560000000001e+01));
  (*8373*) Do (AddA v_jac 5 ((- $v_j_temp) * #1.7007339999999999e+01));
  (*8374*) Do (AddA v_jac 6 ($v_j_temp * #1.8015280000000001e+01));
  (*8597*) Do (Asn v_j_temp 0 (#1.0 / $v_T * ((v_fwd_rates.[278] - v_rev_rates.[277]) * (#1.9399999999999999e+00 + #3.2507983889901907e+03 / $v_T) + v_fwd_rates.[278] * #(-1.0) - v_rev_rates.[277] * (#(-1.0) + (- $v_T) * (v_dBdT.[32] + v_dBdT.[4] - v_dBdT.[33] - v_dBdT.[2]))) * $v_rho_inv));
  (*8598*) Do (AddA v_jac 33 ($v_j_temp * #1.6022620000000000e+01));
  (*8599*) Do (AddA v_jac 34 ((- $v_j_temp) * #1.7030560000000001e+01));
  (*8600*) Do (AddA v_jac 3 ((- $v_j_temp) * #1.5999400000000000e+01));
  (*8601*) Do (AddA v_jac 5 ($v_j_temp * #1.7007339999999999e+01));
  (*8824*) Do (Asn v_j_temp 0 (#1.0 / $v_T * ((v_fwd_rates.[279] - v_rev_rates.[278]) * (#7.2212007557289835e+03 / $v_T) + v_fwd_rates.[279] * #(-1.0) - v_rev_rates.[278] * (#(-1.0) + (- $v_T) * (v_dBdT.[14] + v_dBdT.[38] - v_dBdT.[31] - v_dBdT.[15]))) * $v_rho_inv));
  (*8825*) Do (AddA v_jac 16 ((- $v_j_temp) * #4.4009799999999998e+01));
  (*8826*) Do (AddA v_jac 39 ($v_j_temp * #3.1014080000000000e+01));
  (*8827*) Do (AddA v_jac 15 ($v_j_temp * #2.8010399999999997e+01));
  (*8828*) Do (AddA v_jac 32 ((- $v_j_temp) * #1.5014680000000000e+01))].

(** [eval_jacob_7], gri30/lib/src/jacobs/jacob_7.c:4-9075: the declarations and the blocks "partial of
    rxn ... wrt T" (the blocks "wrt species" write other elements of [jac]). *)
Definition gri30_jac_T7 : list stmt := [
  (*6*) Do (Asn v_logT 0 ((Log $v_T)));
  (*7*) Do (Asn v_kf 0 (#0.0));
  (*8*) Do (Asn v_j_temp 0 (#0.0));
  (*9*) Do (Asn v_pres_mod_temp 0 (#0.0));
  (*10*) Do (Asn v_Kc 0 (#0.0));
  (*11*) Do (Asn v_kr 0 (#0.0));
  (*12*) Do (Asn v_Pr 0 (#0.0));
  (*13*) Do (Asn v_Fcent 0 (#0.0));
  (*14*) Do (Asn v_A 0 (#0.0));
  (*15*) Do (Asn v_B 0 (#0.0));
  (*16*) Do (Asn v_lnF_AB 0 (#0.0));
  (*17*) Do (Asn v_rho_inv 0 (#1.0 / $v_rho));
  (*19*) Do (Asn v_j_temp 0 (#1.0 / $v_T * ((v_fwd_rates.[280] - v_rev_rates.[279]) * (#(-7.5200000000000000e-01) + #1.7361074987641112e+02 / $v_T) + v_fwd_rates.[280] * #(-1.0) - v_rev_rates.[279] * (#(-1.0) + (- $v_T) * (v_dBdT.[46] + v_dBdT.[35] - v_dBdT.[39] - v_dBdT.[36]))) * $v_rho_inv));
  (*20*) Do (AddA v_jac 36 ($v_j_temp * #3.0006140000000002e+01));
  (*21*) Do (AddA v_jac 37 ((- $v_j_temp) * #4.6005539999999996e+01));
  (*22*) Do (AddA v_jac 47 ($v_j_temp * #4.2017139999999998e+01));
  (*23*) Do (AddA v_jac 40 ((- $v_j_temp) * #2.6017740000000000e+01));
  (*246*) Do (Asn v_j_temp 0 (#1.0 / $v_T * ((v_fwd_rates.[281] - v_rev_rates.[280]) * (#(-3.5476979322570963e+02) / $v_T) + v_fwd_rates.[281] * #(-1.0) - v_rev_rates.[280] * (#(-1.0) + (- $v_T) * (v_dBdT.[15] + v_dBdT.[37] - v_dBdT.[36] - v_dBdT.[46]))) * $v_rho_inv));
  (*247*) Do (AddA v_jac 37 ((- $v_j_temp) * #4.6005539999999996e+01));
  (*248*) Do (AddA v_jac 38 ($v_j_temp * #4.4012880000000003e+01));
  (*249*) Do (AddA v_jac 47 ((- $v_j_temp) * #4.2017139999999998e+01));
  (*250*) Do (AddA v_jac 16 ($v_j_temp * #4.4009799999999998e+01));
  (*473*) Do (Asn v_j_temp 0 (#1.0 / $v_T * ((v_fwd_rates.[282] - v_rev_rates.[281]) * (#5.6863810829085378e+03 / $v_T) + v_fwd_rates.[282] * #(-1.0) - v_rev_rates.[281] * (#(-1.0) + (- $v_T) * (v_dBdT.[14] + v_dBdT.[35] - v_dBdT.[15] - v_dBdT.[30]))) * $v_rho_inv));
  (*474*) Do (AddA v_jac 36 ($v_j_temp * #3.0006140000000002e+01));
  (*475*) Do (AddA v_jac 15 ($v_j_temp * #2.8010399999999997e+01));
  (*476*) Do (AddA v_jac 31 ((- $v_j_temp) * #1.4006740000000001e+01));
  (*477*) Do (AddA v_jac 16 ((- $v_j_temp) * #4.4009799999999998e+01));
  (*700*) Do (Asn v_j_temp 0 (#1.0 / $v_T * (v_fwd_rates.[283] * #(-1.0)) * $v_rho_inv));
  (*701*) Do (AddA v_jac 1 ($v_j_temp * #2.0158800000000001e+00));
  (*702*) Do (AddA v_jac 2 ($v_j_temp * #1.0079400000000001e+00));
  (*703*) Do (AddA v_jac 3 ((- $v_j_temp) * #1.5999400000000000e+01));
  (*704*) Do (AddA v_jac 13 ((- $v_j_temp) * #1.5034820000000000e+01));
  (*705*) Do (AddA v_jac 15 ($v_j_temp * #2.8010399999999997e+01));
  (*972*) Do (Asn v_j_temp 0 (#1.0 / $v_T * ((v_fwd_rates.[284] - v_rev_rates.[282]) * (#1.8300000000000001e+00 + #1.1070830426901578e+02 / $v_T) + v_fwd_rates.[284] * #(-1.0) - v_rev_rates.[282] * (#(-1.0) + (- $v_T) * (v_dBdT.[50] + v_dBdT.[1] - v_dBdT.[24] - v_dBdT.[2]))) * $v_rho_inv));
  (*973*) Do (AddA v_jac 25 ((- $v_j_temp) * #2.8053759999999997e+01));
  (*974*) Do (AddA v_jac 2 ($v_j_temp * #1.0079400000000001e+00));
  (*975*) Do (AddA v_jac 3 ((- $v_j_temp) * #1.5999400000000000e+01));
  (*976*) Do (Asn v_jac 51 ($v_j_temp * #4.3045220000000000e+01));
  (*1199*) Do (Asn v_j_temp 0 (#1.0 / $v_T * (v_fwd_rates.[285] * #(-1.0) - v_rev_rates.[283] * (#(-1.0) + (- $v_T) * (v_dBdT.[1] + v_dBdT.[51] - v_dBdT.[25] - v_dBdT.[2]))) * $v_rho_inv));
  (*1200*) Do (AddA v_jac 26 ((- $v_j_temp) * #2.9061699999999998e+01));
  (*1201*) Do (AddA v_jac 3 ((- $v_j_temp) * #1.5999400000000000e+01));
  (*1202*) Do (Asn v_jac 52 ($v_j_temp * #4.4053159999999998e+01));
  (*1203*) Do (AddA v_jac 2 ($v_j_temp * #1.0079400000000001e+00));
  (*1426*) Do (Asn v_j_temp 0 (#1.0 / $v_T * ((v_fwd_rates.[286] - v_rev_rates.[284]) * (#8.7207950590092878e+03 / $v_T) + v_fwd_rates.[286] * #(-1.0) - v_rev_rates.[284] * (#(-1.0) + (- $v_T) * (v_dBdT.[5] + v_dBdT.[3] - v_dBdT.[6] - v_dBdT.[4]))) * $v_rho_inv));
  (*1427*) Do (AddA v_jac 4 ($v_j_temp * #3.1998799999999999e+01));
  (*1428*) Do (AddA v_jac 5 ((- $v_j_temp) * #1.7007339999999999e+01));
  (*1429*) Do (AddA v_jac 6 ($v_j_temp * #1.8015280000000001e+01));
  (*1430*) Do (AddA v_jac 7 ((- $v_j_temp) * #3.3006740000000001e+01));
  (*1653*) Do (Asn v_j_temp 0 (#1.0 / $v_T * (v_fwd_rates.[287] * (#5.0000000000000000e-01 + #(-8.8315033632783047e+02) / $v_T + #(-1.0))) * $v_rho_inv));
  (*1654*) Do (AddA v_jac 1 ($v_j_temp * #2.0158800000000001e+00));
  (*1655*) Do (AddA v_jac 5 ((- $v_j_temp) * #1.7007339999999999e+01));
  (*1656*) Do (AddA v_jac 13 ((- $v_j_temp) * #1.5034820000000000e+01));
  (*1657*) Do (AddA v_jac 18 ($v_j_temp * #3.0026280000000000e+01));
  (*1872*) Do (Asn v_conc_temp 0 ($v_m + #1.0 * v_conc.[0] + #5.0 * v_conc.[5] + #1.0 * v_conc.[13] + #0.5 * v_conc.[14] + #1.0 * v_conc.[15] + #2.0 * v_conc.[26] - #0.3 * v_conc.[47]));
  (*1873*) Do (Asn v_Pr 0 ($v_conc_temp * (Exp (#2.3920591315253070e+01 - #3.23 * $v_logT - #4.8309078226479608e+02 / $v_T))));
  (*1874*) Do (Asn v_Fcent 0 (#4.2200000000000004e-01 * (Exp ($v_T / #(-1.2200000000000000e+02))) + #5.7799999999999996e-01 * (Exp ($v_T / #(-2.5350000000000000e+03))) + (Exp (#(-9.3650000000000000e+03) / $v_T))));
  (*1875*) Do (Asn v_A 0 ((Log10 (Fmax $v_Pr #1.0e-300)) - #0.67 * (Log10 (Fmax $v_Fcent #1.0e-300)) - #0.4));
  (*1876*) Do (Asn v_B 0 (#0.806 - #1.1762 * (Log10 (Fmax $v_Fcent #1.0e-300)) - #0.14 * (Log10 (Fmax $v_Pr #1.0e-300))));
  (*1877*) Do (Asn v_lnF_AB 0 (#2.0 * (Log (Fmax $v_Fcent #1.0e-300)) * $v_A / ($v_B * $v_B * $v_B * (#1.0 + $v_A * $v_A / ($v_B * $v_B)) * (#1.0 + $v_A * $v_A / ($v_B * $v_B)))));
  (*1878*) Do (Asn v_j_temp 0 ((v_pres_mod.[36] * ((#(-3.2300e+00) + #4.8309078226479608e+02 / $v_T - #1.0) / ($v_T * (#1.0 + $v_Pr)) + (#1.0 / ($v_Fcent * (#1.0 + $v_A * $v_A / ($v_B * $v_B))) - $v_lnF_AB * (#(-2.9097730287517870e-01) * $v_B + #5.1081716961460466e-01 * $v_A) / $v_Fcent) * (#(-3.4590163934426232e-03) * (Exp ($v_T / #(-1.2200000000000000e+02))) - #2.2800788954635106e-04 * (Exp ($v_T / #(-2.5350000000000000e+03))) + #9.3650000000000000e+03 / ($v_T * $v_T) * (Exp (#(-9.3650000000000000e+03) / $v_T))) - $v_lnF_AB * (#4.3429448190325176e-01 * $v_B + #6.0801227466455256e-02 * $v_A) * (#(-3.2300000000000000e+00) + #4.8309078226479608e+02 / $v_T - #1.0) / $v_T) * (v_fwd_rates.[288] - v_rev_rates.[285]) + v_pres_mod.[36] / $v_T * ((v_fwd_rates.[288] - v_rev_rates.[285]) * (#4.2999999999999999e-01 + #(-1.8619123899789017e+02) / $v_T) + v_fwd_rates.[288] * #(-1.0) - v_rev_rates.[285] * ((- $v_T) * (v_dBdT.[12] - v_dBdT.[0] - v_dBdT.[9])))) * $v_rho_inv));
  (*1879*) Do (AddA v_jac 1 ((- $v_j_temp) * #2.0158800000000001e+00));
  (*1880*) Do (AddA v_jac 10 ((- $v_j_temp) * #1.3018939999999999e+01));
  (*1881*) Do (AddA v_jac 13 ($v_j_temp * #1.5034820000000000e+01));
  (*2054*) Do (Asn v_j_temp 0 (#1.0 / $v_T * (v_fwd_rates.[289] * (#7.5482934728874397e+02 / $v_T + #(-1.0))) * $v_rho_inv));
  (*2055*) Do (AddA v_jac 2 ($v_j_temp * #2.0 * #1.0079400000000001e+00));
  (*2056*) Do (AddA v_jac 11 ((- $v_j_temp) * #1.4026879999999998e+01));
  (*2057*) Do (AddA v_jac 4 ((- $v_j_temp) * #3.1998799999999999e+01));
  (*2058*) Do (AddA v_jac 16 ($v_j_temp * #4.4009799999999998e+01));
  (*2273*) Do (Asn v_j_temp 0 (#1.0 / $v_T * ((v_fwd_rates.[290] - v_rev_rates.[286]) * (#7.5482934728874397e+02 / $v_T) + v_fwd_rates.[290] * #(-1.0) - v_rev_rates.[286] * (#(-1.0) + (- $v_T) * (v_dBdT.[17] + v_dBdT.[2] - v_dBdT.[10] - v_dBdT.[3]))) * $v_rho_inv));
  (*2274*) Do (AddA v_jac 18 ($v_j_temp * #3.0026280000000000e+01));
  (*2275*) Do (AddA v_jac 11 ((- $v_j_temp) * #1.4026879999999998e+01));
  (*2276*) Do (AddA v_jac 4 ((- $v_j_temp) * #3.1998799999999999e+01));
  (*2277*) Do (AddA v_jac 3 ($v_j_temp * #1.5999400000000000e+01));
  (*2500*) Do (Asn v_j_temp 0 (#1.0 / $v_T * (v_fwd_rates.[291] * (#5.5298797982373380e+03 / $v_T + #(-1.0))) * $v_rho_inv));
  (*2501*) Do (AddA v_jac 2 ($v_j_temp * #2.0 * #1.0079400000000001e+00));
  (*2502*) Do (AddA v_jac 11 ($v_j_temp * #(-2.0) * #1.4026879999999998e+01));
  (*2503*) Do (AddA v_jac 23 ($v_j_temp * #2.6037879999999998e+01));
  (*2666*) Do (Asn v_j_temp 0 (#1.0 / $v_T * (v_fwd_rates.[292] * (#2.5000000000000000e-01 + #(-4.7051029314331709e+02) / $v_T + #(-1.0))) * $v_rho_inv));
  (*2667*) Do (AddA v_jac 1 ($v_j_temp * #2.0158800000000001e+00));
  (*2668*) Do (AddA v_jac 18 ($v_j_temp * #3.0026280000000000e+01));
  (*2669*) Do (AddA v_jac 12 ((- $v_j_temp) * #1.4026879999999998e+01));
  (*2670*) Do (AddA v_jac 6 ((- $v_j_temp) * #1.8015280000000001e+01));
  (*2885*) Do (Asn v_j_temp 0 (#1.0 / $v_T * ((v_fwd_rates.[293] - v_rev_rates.[287]) * (#2.8999999999999998e-01 + #5.5354152134507890e+00 / $v_T) + v_fwd_rates.[293] * #(-1.0) - v_rev_rates.[287] * (#(-1.0) + (- $v_T) * (v_dBdT.[50] + v_dBdT.[2] - v_dBdT.[23] - v_dBdT.[3]))) * $v_rho_inv));
  (*2886*) Do (AddA v_jac 51 ($v_j_temp * #4.3045220000000000e+01));
  (*2887*) Do (AddA v_jac 4 ((- $v_j_temp) * #3.1998799999999999e+01));
  (*2888*) Do (AddA v_jac 3 ($v_j_temp * #1.5999400000000000e+01));
  (*2889*) Do (AddA v_jac 24 ((- $v_j_temp) * #2.7045819999999999e+01));
  (*3112*) Do (Asn v_j_temp 0 (#1.0 / $v_T * ((v_fwd_rates.[294] - v_rev_rates.[288]) * (#1.6100000000000001e+00 + #(-1.9323631290591845e+02) / $v_T) + v_fwd_rates.[294] * #(-1.0) - v_rev_rates.[288] * (#(-1.0) + (- $v_T) * (v_dBdT.[6] + v_dBdT.[22] - v_dBdT.[23] - v_dBdT.[3]))) * $v_rho_inv));
  (*3113*) Do (AddA v_jac 4 ((- $v_j_temp) * #3.1998799999999999e+01));
  (*3114*) Do (AddA v_jac 23 ($v_j_temp * #2.6037879999999998e+01));
  (*3115*) Do (AddA v_jac 7 ($v_j_temp * #3.3006740000000001e+01));
  (*3116*) Do (AddA v_jac 24 ((- $v_j_temp) * #2.7045819999999999e+01));
  (*3339*) Do (Asn v_j_temp 0 (#1.0 / $v_T * ((v_fwd_rates.[295] - v_rev_rates.[289]) * (#9.0982097326536609e+02 / $v_T) + v_fwd_rates.[295] * #(-1.0) - v_rev_rates.[289] * (#(-1.0) + (- $v_T) * (v_dBdT.[50] + v_dBdT.[4] - v_dBdT.[51] - v_dBdT.[2]))) * $v_rho_inv));
  (*3340*) Do (AddA v_jac 3 ((- $v_j_temp) * #1.5999400000000000e+01));
  (*3341*) Do (AddA v_jac 52 ((- $v_j_temp) * #4.4053159999999998e+01));
  (*3342*) Do (AddA v_jac 5 ($v_j_temp * #1.7007339999999999e+01));
  (*3343*) Do (AddA v_jac 51 ($v_j_temp * #4.3045220000000000e+01));
  (*3566*) Do (Asn v_j_temp 0 (#1.0 / $v_T * (v_fwd_rates.[296] * (#9.0982097326536609e+02 / $v_T + #(-1.0))) * $v_rho_inv));
  (*3567*) Do (AddA v_jac 5 ($v_j_temp * #1.7007339999999999e+01));
  (*3568*) Do (AddA v_jac 3 ((- $v_j_temp) * #1.5999400000000000e+01));
  (*3569*) Do (AddA v_jac 52 ((- $v_j_temp) * #4.4053159999999998e+01));
  (*3570*) Do (AddA v_jac 13 ($v_j_temp * #1.5034820000000000e+01));
  (*3571*) Do (AddA v_jac 15 ($v_j_temp * #2.8010399999999997e+01));
  (*3838*) Do (Asn v_j_temp 0 (#1.0 / $v_T * (v_fwd_rates.[297] * (#1.9701045964236218e+04 / $v_T + #(-1.0))) * $v_rho_inv));
  (*3839*) Do (AddA v_jac 4 ((- $v_j_temp) * #3.1998799999999999e+01));
  (*3840*) Do (AddA v_jac 52 ((- $v_j_temp) * #4.4053159999999998e+01));
  (*3841*) Do (AddA v_jac 13 ($v_j_temp * #1.5034820000000000e+01));
  (*3842*) Do (AddA v_jac 7 ($v_j_temp * #3.3006740000000001e+01));
  (*3843*) Do (AddA v_jac 15 ($v_j_temp * #2.8010399999999997e+01));
  (*4110*) Do (Asn v_j_temp 0 (#1.0 / $v_T * ((v_fwd_rates.[298] - v_rev_rates.[290]) * (#1.1599999999999999e+00 + #1.2102430534862860e+03 / $v_T) + v_fwd_rates.[298] * #(-1.0) - v_rev_rates.[290] * (#(-1.0) + (- $v_T) * (v_dBdT.[0] + v_dBdT.[50] - v_dBdT.[1] - v_dBdT.[51]))) * $v_rho_inv));
  (*4111*) Do (AddA v_jac 1 ($v_j_temp * #2.0158800000000001e+00));
  (*4112*) Do (AddA v_jac 2 ((- $v_j_temp) * #1.0079400000000001e+00));
  (*4113*) Do (AddA v_jac 51 ($v_j_temp * #4.3045220000000000e+01));
  (*4114*) Do (AddA v_jac 52 ((- $v_j_temp) * #4.4053159999999998e+01));
  (*4337*) Do (Asn v_j_temp 0 (#1.0 / $v_T * (v_fwd_rates.[299] * (#1.1599999999999999e+00 + #1.2102430534862860e+03 / $v_T + #(-1.0))) * $v_rho_inv));
  (*4338*) Do (AddA v_jac 1 ($v_j_temp * #2.0158800000000001e+00));
  (*4339*) Do (AddA v_jac 2 ((- $v_j_temp) * #1.0079400000000001e+00));
  (*4340*) Do (AddA v_jac 52 ((- $v_j_temp) * #4.4053159999999998e+01));
  (*4341*) Do (AddA v_jac 13 ($v_j_temp * #1.5034820000000000e+01));
  (*4342*) Do (AddA v_jac 15 ($v_j_temp * #2.8010399999999997e+01));
  (*4609*) Do (Asn v_j_temp 0 (#1.0 / $v_T * (v_fwd_rates.[300] * (#7.2999999999999998e-01 + #(-5.6008337568824800e+02) / $v_T + #(-1.0))) * $v_rho_inv));
  (*4610*) Do (AddA v_jac 13 ($v_j_temp * #1.5034820000000000e+01));
  (*4611*) Do (AddA v_jac 52 ((- $v_j_temp) * #4.4053159999999998e+01));
  (*4612*) Do (AddA v_jac 5 ((- $v_j_temp) * #1.7007339999999999e+01));
  (*4613*) Do (AddA v_jac 6 ($v_j_temp * #1.8015280000000001e+01));
  (*4614*) Do (AddA v_jac 15 ($v_j_temp * #2.8010399999999997e+01));
  (*4881*) Do (Asn v_j_temp 0 (#1.0 / $v_T * (v_fwd_rates.[301] * (#5.9998868718157964e+03 / $v_T + #(-1.0))) * $v_rho_inv));
  (*4882*) Do (AddA v_jac 52 ((- $v_j_temp) * #4.4053159999999998e+01));
  (*4883*) Do (AddA v_jac 13 ($v_j_temp * #1.5034820000000000e+01));
  (*4884*) Do (AddA v_jac 15 ($v_j_temp * #2.8010399999999997e+01));
  (*4885*) Do (AddA v_jac 7 ((- $v_j_temp) * #3.3006740000000001e+01));
  (*4886*) Do (AddA v_jac 8 ($v_j_temp * #3.4014679999999998e+01));
  (*5153*) Do (Asn v_j_temp 0 (#1.0 / $v_T * (v_fwd_rates.[302] * (#1.7700000000000000e+00 + #2.9790598239662427e+03 / $v_T + #(-1.0))) * $v_rho_inv));
  (*5154*) Do (AddA v_jac 52 ((- $v_j_temp) * #4.4053159999999998e+01));
  (*5155*) Do (AddA v_jac 14 ($v_j_temp * #1.6042760000000001e+01));
  (*5156*) Do (AddA v_jac 15 ($v_j_temp * #2.8010399999999997e+01));
  (*5319*) Do (Asn v_Pr 0 ($v_conc_temp * (Exp (#6.2902244459060583e+01 - #8.052 * $v_logT - #2.8225585392950434e+03 / $v_T))));
  (*5320*) Do (Asn v_Fcent 0 (#5.3499999999999992e-01 * (Exp ($v_T / #(-2.0100000000000000e+02))) + #4.6500000000000002e-01 * (Exp ($v_T / #(-1.7729999999999998e+03))) + (Exp (#(-5.3330000000000000e+03) / $v_T))));
  (*5321*) Do (Asn v_A 0 ((Log10 (Fmax $v_Pr #1.0e-300)) - #0.67 * (Log10 (Fmax $v_Fcent #1.0e-300)) - #0.4));
  (*5322*) Do (Asn v_B 0 (#0.806 - #1.1762 * (Log10 (Fmax $v_Fcent #1.0e-300)) - #0.14 * (Log10 (Fmax $v_Pr #1.0e-300))));
  (*5323*) Do (Asn v_lnF_AB 0 (#2.0 * (Log (Fmax $v_Fcent #1.0e-300)) * $v_A / ($v_B * $v_B * $v_B * (#1.0 + $v_A * $v_A / ($v_B * $v_B)) * (#1.0 + $v_A * $v_A / ($v_B * $v_B)))));
  (*5324*) Do (Asn v_j_temp 0 ((v_pres_mod.[37] * ((#(-8.0520e+00) + #2.8225585392950434e+03 / $v_T - #1.0) / ($v_T * (#1.0 + $v_Pr)) + (#1.0 / ($v_Fcent * (#1.0 + $v_A * $v_A / ($v_B * $v_B))) - $v_lnF_AB * (#(-2.9097730287517870e-01) * $v_B + #5.1081716961460466e-01 * $v_A) / $v_Fcent) * (#(-2.6616915422885568e-03) * (Exp ($v_T / #(-2.0100000000000000e+02))) - #2.6226734348561766e-04 * (Exp ($v_T / #(-1.7729999999999998e+03))) + #5.3330000000000000e+03 / ($v_T * $v_T) * (Exp (#(-5.3330000000000000e+03) / $v_T))) - $v_lnF_AB * (#4.3429448190325176e-01 * $v_B + #6.0801227466455256e-02 * $v_A) * (#(-8.0519999999999996e+00) + #2.8225585392950434e+03 / $v_T - #1.0) / $v_T) * (v_fwd_rates.[303] - v_rev_rates.[291]) + v_pres_mod.[37] / $v_T * ((v_fwd_rates.[303] - v_rev_rates.[291]) * (#4.2199999999999999e-01 + #(-8.8315033632783047e+02) / $v_T) + v_fwd_rates.[303] * #(-1.0) - v_rev_rates.[291] * ((- $v_T) * (v_dBdT.[50] - v_dBdT.[1] - v_dBdT.[28])))) * $v_rho_inv));
  (*5325*) Do (AddA v_jac 2 ((- $v_j_temp) * #1.0079400000000001e+00));
  (*5326*) Do (AddA v_jac 51 ($v_j_temp * #4.3045220000000000e+01));
  (*5327*) Do (AddA v_jac 29 ((- $v_j_temp) * #4.2037279999999996e+01));
  (*5500*) Do (Asn v_j_temp 0 (#1.0 / $v_T * (v_fwd_rates.[304] * #(-1.0)) * $v_rho_inv));
  (*5501*) Do (AddA v_jac 2 ($v_j_temp * #1.0079400000000001e+00));
  (*5502*) Do (AddA v_jac 51 ((- $v_j_temp) * #4.3045220000000000e+01));
  (*5503*) Do (AddA v_jac 11 ($v_j_temp * #1.4026879999999998e+01));
  (*5504*) Do (AddA v_jac 3 ((- $v_j_temp) * #1.5999400000000000e+01));
  (*5505*) Do (AddA v_jac 16 ($v_j_temp * #4.4009799999999998e+01));
  (*5772*) Do (Asn v_j_temp 0 (#1.0 / $v_T * (v_fwd_rates.[305] * #(-1.0)) * $v_rho_inv));
  (*5773*) Do (AddA v_jac 18 ($v_j_temp * #3.0026280000000000e+01));
  (*5774*) Do (AddA v_jac 51 ((- $v_j_temp) * #4.3045220000000000e+01));
  (*5775*) Do (AddA v_jac 4 ((- $v_j_temp) * #3.1998799999999999e+01));
  (*5776*) Do (AddA v_jac 5 ($v_j_temp * #1.7007339999999999e+01));
  (*5777*) Do (AddA v_jac 15 ($v_j_temp * #2.8010399999999997e+01));
  (*6044*) Do (Asn v_j_temp 0 (#1.0 / $v_T * (v_fwd_rates.[306] * #(-1.0)) * $v_rho_inv));
  (*6045*) Do (AddA v_jac 17 ($v_j_temp * #2.0 * #2.9018339999999998e+01));
  (*6046*) Do (AddA v_jac 51 ((- $v_j_temp) * #4.3045220000000000e+01));
  (*6047*) Do (AddA v_jac 4 ((- $v_j_temp) * #3.1998799999999999e+01));
  (*6048*) Do (AddA v_jac 5 ($v_j_temp * #1.7007339999999999e+01));
  (*6263*) Do (Asn v_j_temp 0 (#1.0 / $v_T * (v_fwd_rates.[307] * #(-1.0) - v_rev_rates.[292] * (#(-1.0) + (- $v_T) * (v_dBdT.[12] + v_dBdT.[16] - v_dBdT.[50] - v_dBdT.[1]))) * $v_rho_inv));
  (*6264*) Do (AddA v_jac 17 ($v_j_temp * #2.9018339999999998e+01));
  (*6265*) Do (AddA v_jac 2 ((- $v_j_temp) * #1.0079400000000001e+00));
  (*6266*) Do (AddA v_jac 51 ((- $v_j_temp) * #4.3045220000000000e+01));
  (*6267*) Do (AddA v_jac 13 ($v_j_temp * #1.5034820000000000e+01));
  (*6490*) Do (Asn v_j_temp 0 (#1.0 / $v_T * (v_fwd_rates.[308] * #(-1.0) - v_rev_rates.[293] * (#(-1.0) + (- $v_T) * (v_dBdT.[0] + v_dBdT.[28] - v_dBdT.[50] - v_dBdT.[1]))) * $v_rho_inv));
  (*6491*) Do (AddA v_jac 1 ($v_j_temp * #2.0158800000000001e+00));
  (*6492*) Do (AddA v_jac 2 ((- $v_j_temp) * #1.0079400000000001e+00));
  (*6493*) Do (AddA v_jac 51 ((- $v_j_temp) * #4.3045220000000000e+01));
  (*6494*) Do (AddA v_jac 29 ($v_j_temp * #4.2037279999999996e+01));
  (*6717*) Do (Asn v_j_temp 0 (#1.0 / $v_T * (v_fwd_rates.[309] * #(-1.0) - v_rev_rates.[294] * (#(-1.0) + (- $v_T) * (v_dBdT.[28] + v_dBdT.[5] - v_dBdT.[50] - v_dBdT.[4]))) * $v_rho_inv));
  (*6718*) Do (AddA v_jac 29 ($v_j_temp * #4.2037279999999996e+01));
  (*6719*) Do (AddA v_jac 51 ((- $v_j_temp) * #4.3045220000000000e+01));
  (*6720*) Do (AddA v_jac 5 ((- $v_j_temp) * #1.7007339999999999e+01));
  (*6721*) Do (AddA v_jac 6 ($v_j_temp * #1.8015280000000001e+01));
  (*6944*) Do (Asn v_j_temp 0 (#1.0 / $v_T * (v_fwd_rates.[310] * #(-1.0) - v_rev_rates.[295] * (#(-1.0) + (- $v_T) * (v_dBdT.[18] + v_dBdT.[16] - v_dBdT.[50] - v_dBdT.[4]))) * $v_rho_inv));
  (*6945*) Do (AddA v_jac 17 ($v_j_temp * #2.9018339999999998e+01));
  (*6946*) Do (AddA v_jac 51 ((- $v_j_temp) * #4.3045220000000000e+01));
  (*6947*) Do (AddA v_jac 5 ((- $v_j_temp) * #1.7007339999999999e+01));
  (*6948*) Do (AddA v_jac 19 ($v_j_temp * #3.1034219999999998e+01));
  (*7171*) Do (Asn v_Pr 0 ($v_conc_temp * (Exp (#1.3460557302489494e+02 - #16.82 * $v_logT - #6.5745636148849599e+03 / $v_T))));
  (*7172*) Do (Asn v_Fcent 0 (#8.4729999999999994e-01 * (Exp ($v_T / #(-2.9100000000000000e+02))) + #1.5270000000000000e-01 * (Exp ($v_T / #(-2.7420000000000000e+03))) + (Exp (#(-7.7480000000000000e+03) / $v_T))));
  (*7173*) Do (Asn v_A 0 ((Log10 (Fmax $v_Pr #1.0e-300)) - #0.67 * (Log10 (Fmax $v_Fcent #1.0e-300)) - #0.4));
  (*7174*) Do (Asn v_B 0 (#0.806 - #1.1762 * (Log10 (Fmax $v_Fcent #1.0e-300)) - #0.14 * (Log10 (Fmax $v_Pr #1.0e-300))));
  (*7175*) Do (Asn v_lnF_AB 0 (#2.0 * (Log (Fmax $v_Fcent #1.0e-300)) * $v_A / ($v_B * $v_B * $v_B * (#1.0 + $v_A * $v_A / ($v_B * $v_B)) * (#1.0 + $v_A * $v_A / ($v_B * $v_B)))));
  (*7176*) Do (Asn v_j_temp 0 ((v_pres_mod.[38] * ((#(-1.6820e+01) + #6.5745636148849599e+03 / $v_T - #1.0) / ($v_T * (#1.0 + $v_Pr)) + (#1.0 / ($v_Fcent * (#1.0 + $v_A * $v_A / ($v_B * $v_B))) - $v_lnF_AB * (#(-2.9097730287517870e-01) * $v_B + #5.1081716961460466e-01 * $v_A) / $v_Fcent) * (#(-2.9116838487972508e-03) * (Exp ($v_T / #(-2.9100000000000000e+02))) - #5.5689277899343547e-05 * (Exp ($v_T / #(-2.7420000000000000e+03))) + #7.7480000000000000e+03 / ($v_T * $v_T) * (Exp (#(-7.7480000000000000e+03) / $v_T))) - $v_lnF_AB * (#4.3429448190325176e-01 * $v_B + #6.0801227466455256e-02 * $v_A) * (#(-1.6820000000000000e+01) + #6.5745636148849599e+03 / $v_T - #1.0) / $v_T) * (v_fwd_rates.[311] - v_rev_rates.[296]) + v_pres_mod.[38] / $v_T * (v_fwd_rates.[311] * #(-1.0) - v_rev_rates.[296] * ((- $v_T) * (v_dBdT.[49] - v_dBdT.[25] - v_dBdT.[12])))) * $v_rho_inv));
  (*7177*) Do (AddA v_jac 26 ((- $v_j_temp) * #2.9061699999999998e+01));
  (*7178*) Do (AddA v_jac 13 ((- $v_j_temp) * #1.5034820000000000e+01));
  (*7179*) Do (Asn v_jac 50 ($v_j_temp * #4.4096519999999998e+01));
  (*7352*) Do (Asn v_j_temp 0 (#1.0 / $v_T * ((v_fwd_rates.[312] - v_rev_rates.[297]) * (#2.6800000000000002e+00 + #1.8699639030166484e+03 / $v_T) + v_fwd_rates.[312] * #(-1.0) - v_rev_rates.[297] * (#(-1.0) + (- $v_T) * (v_dBdT.[48] + v_dBdT.[4] - v_dBdT.[49] - v_dBdT.[2]))) * $v_rho_inv));
  (*7353*) Do (Asn v_jac 49 ($v_j_temp * #4.3088580000000000e+01));
  (*7354*) Do (AddA v_jac 50 ((- $v_j_temp) * #4.4096519999999998e+01));
  (*7355*) Do (AddA v_jac 3 ((- $v_j_temp) * #1.5999400000000000e+01));
  (*7356*) Do (AddA v_jac 5 ($v_j_temp * #1.7007339999999999e+01));
  (*7579*) Do (Asn v_j_temp 0 (#1.0 / $v_T * ((v_fwd_rates.[313] - v_rev_rates.[298]) * (#2.5400000000000000e+00 + #3.3997513801885029e+03 / $v_T) + v_fwd_rates.[313] * #(-1.0) - v_rev_rates.[298] * (#(-1.0) + (- $v_T) * (v_dBdT.[0] + v_dBdT.[48] - v_dBdT.[1] - v_dBdT.[49]))) * $v_rho_inv));
  (*7580*) Do (AddA v_jac 1 ($v_j_temp * #2.0158800000000001e+00));
  (*7581*) Do (AddA v_jac 2 ((- $v_j_temp) * #1.0079400000000001e+00));
  (*7582*) Do (AddA v_jac 49 ($v_j_temp * #4.3088580000000000e+01));
  (*7583*) Do (AddA v_jac 50 ((- $v_j_temp) * #4.4096519999999998e+01));
  (*7806*) Do (Asn v_j_temp 0 (#1.0 / $v_T * ((v_fwd_rates.[314] - v_rev_rates.[299]) * (#1.8000000000000000e+00 + #4.7000707357845789e+02 / $v_T) + v_fwd_rates.[314] * #(-1.0) - v_rev_rates.[299] * (#(-1.0) + (- $v_T) * (v_dBdT.[48] + v_dBdT.[5] - v_dBdT.[49] - v_dBdT.[4]))) * $v_rho_inv));
  (*7807*) Do (AddA v_jac 49 ($v_j_temp * #4.3088580000000000e+01));
  (*7808*) Do (AddA v_jac 50 ((- $v_j_temp) * #4.4096519999999998e+01));
  (*7809*) Do (AddA v_jac 5 ((- $v_j_temp) * #1.7007339999999999e+01));
  (*7810*) Do (AddA v_jac 6 ($v_j_temp * #1.8015280000000001e+01));
  (*8033*) Do (Asn v_j_temp 0 (#1.0 / $v_T * ((v_fwd_rates.[315] - v_rev_rates.[300]) * (#2.7200000000000002e+00 + #7.5482934728874397e+02 / $v_T) + v_fwd_rates.[315] * #(-1.0) - v_rev_rates.[300] * (#(-1.0) + (- $v_T) * (v_dBdT.[6] + v_dBdT.[49] - v_dBdT.[48] - v_dBdT.[7]))) * $v_rho_inv));
  (*8034*) Do (AddA v_jac 49 ((- $v_j_temp) * #4.3088580000000000e+01));
  (*8035*) Do (AddA v_jac 50 ($v_j_temp * #4.4096519999999998e+01));
  (*8036*) Do (AddA v_jac 7 ($v_j_temp * #3.3006740000000001e+01));
  (*8037*) Do (AddA v_jac 8 ((- $v_j_temp) * #3.4014679999999998e+01));
  (*8260*) Do (Asn v_j_temp 0 (#1.0 / $v_T * ((v_fwd_rates.[316] - v_rev_rates.[301]) * (#3.6499999999999999e+00 + #3.6000327670024494e+03 / $v_T) + v_fwd_rates.[316] * #(-1.0) - v_rev_rates.[301] * (#(-1.0) + (- $v_T) * (v_dBdT.[48] + v_dBdT.[13] - v_dBdT.[12] - v_dBdT.[49]))) * $v_rho_inv));
  (*8261*) Do (AddA v_jac 49 ($v_j_temp * #4.3088580000000000e+01));
  (*8262*) Do (AddA v_jac 50 ((- $v_j_temp) * #4.4096519999999998e+01));
  (*8263*) Do (AddA v_jac 13 ((- $v_j_temp) * #1.5034820000000000e+01));
  (*8264*) Do (AddA v_jac 14 ($v_j_temp * #1.6042760000000001e+01));
  (*8487*) Do (Asn v_Pr 0 ($v_conc_temp * (Exp (#1.2450211395117624e+02 - #16.2 * $v_logT - #6.2751479737937570e+03 / $v_T))));
  (*8488*) Do (Asn v_Fcent 0 (#8.1059999999999999e-01 * (Exp ($v_T / #(-2.7700000000000000e+02))) + #1.8940000000000001e-01 * (Exp ($v_T / #(-8.7480000000000000e+03))) + (Exp (#(-7.8910000000000000e+03) / $v_T))));
  (*8489*) Do (Asn v_A 0 ((Log10 (Fmax $v_Pr #1.0e-300)) - #0.67 * (Log10 (Fmax $v_Fcent #1.0e-300)) - #0.4));
  (*8490*) Do (Asn v_B 0 (#0.806 - #1.1762 * (Log10 (Fmax $v_Fcent #1.0e-300)) - #0.14 * (Log10 (Fmax $v_Pr #1.0e-300))));
  (*8491*) Do (Asn v_lnF_AB 0 (#2.0 * (Log (Fmax $v_Fcent #1.0e-300)) * $v_A / ($v_B * $v_B * $v_B * (#1.0 + $v_A * $v_A / ($v_B * $v_B)) * (#1.0 + $v_A * $v_A / ($v_B * $v_B)))));
  (*8492*) Do (Asn v_j_temp 0 ((v_pres_mod.[39] * ((#(-1.6200e+01) + #6.2751479737937570e+03 / $v_T - #1.0) / ($v_T * (#1.0 + $v_Pr)) + (#1.0 / ($v_Fcent * (#1.0 + $v_A * $v_A / ($v_B * $v_B))) - $v_lnF_AB * (#(-2.9097730287517870e-01) * $v_B + #5.1081716961460466e-01 * $v_A) / $v_Fcent) * (#(-2.9263537906137182e-03) * (Exp ($v_T / #(-2.7700000000000000e+02))) - #2.1650663008687700e-05 * (Exp ($v_T / #(-8.7480000000000000e+03))) + #7.8910000000000000e+03 / ($v_T * $v_T) * (Exp (#(-7.8910000000000000e+03) / $v_T))) - $v_lnF_AB * (#4.3429448190325176e-01 * $v_B + #6.0801227466455256e-02 * $v_A) * (#(-1.6199999999999999e+01) + #6.2751479737937570e+03 / $v_T - #1.0) / $v_T) * (v_fwd_rates.[317] - v_rev_rates.[302]) + v_pres_mod.[39] / $v_T * ((v_fwd_rates.[317] - v_rev_rates.[302]) * (#1.6000000000000001e+00 + #2.8683515196972271e+03 / $v_T) + v_fwd_rates.[317] * #(-1.0) - v_rev_rates.[302] * ((- $v_T) * (v_dBdT.[48] - v_dBdT.[12] - v_dBdT.[24])))) * $v_rho_inv));
  (*8493*) Do (AddA v_jac 25 ((- $v_j_temp) * #2.8053759999999997e+01));
  (*8494*) Do (AddA v_jac 49 ($v_j_temp * #4.3088580000000000e+01));
  (*8495*) Do (AddA v_jac 13 ((- $v_j_temp) * #1.5034820000000000e+01));
  (*8668*) Do (Asn v_j_temp 0 (#1.0 / $v_T * (v_fwd_rates.[318] * #(-1.0) - v_rev_rates.[303] * (#(-1.0) + (- $v_T) * (v_dBdT.[17] + v_dBdT.[25] - v_dBdT.[48] - v_dBdT.[2]))) * $v_rho_inv));
  (*8669*) Do (AddA v_jac 49 ((- $v_j_temp) * #4.3088580000000000e+01));
  (*8670*) Do (AddA v_jac 18 ($v_j_temp * #3.0026280000000000e+01));
  (*8671*) Do (AddA v_jac 3 ((- $v_j_temp) * #1.5999400000000000e+01));
  (*8672*) Do (AddA v_jac 26 ($v_j_temp * #2.9061699999999998e+01));
  (*8895*) Do (Asn v_Pr 0 ($v_conc_temp * (Exp (#1.0381793042865615e+02 - #13.545 * $v_logT - #5.7150645981055104e+03 / $v_T))));
  (*8896*) Do (Asn v_Fcent 0 (#6.8500000000000005e-01 * (Exp ($v_T / #(-3.6900000000000000e+02))) + #3.1500000000000000e-01 * (Exp ($v_T / #(-3.2849999999999995e+03))) + (Exp (#(-6.6670000000000000e+03) / $v_T))));
  (*8897*) Do (Asn v_A 0 ((Log10 (Fmax $v_Pr #1.0e-300)) - #0.67 * (Log10 (Fmax $v_Fcent #1.0e-300)) - #0.4));
  (*8898*) Do (Asn v_B 0 (#0.806 - #1.1762 * (Log10 (Fmax $v_Fcent #1.0e-300)) - #0.14 * (Log10 (Fmax $v_Pr #1.0e-300))));
  (*8899*) Do (Asn v_lnF_AB 0 (#2.0 * (Log (Fmax $v_Fcent #1.0e-300)) * $v_A / ($v_B * $v_B * $v_B * (#1.0 + $v_A * $v_A / ($v_B * $v_B)) * (#1.0 + $v_A * $v_A / ($v_B * $v_B)))));
  (*8900*) Do (Asn v_j_temp 0 ((v_pres_mod.[40] * ((#(-1.3545e+01) + #5.7150645981055104e+03 / $v_T - #1.0) / ($v_T * (#1.0 + $v_Pr)) + (#1.0 / ($v_Fcent * (#1.0 + $v_A * $v_A / ($v_B * $v_B))) - $v_lnF_AB * (#(-2.9097730287517870e-01) * $v_B + #5.1081716961460466e-01 * $v_A) / $v_Fcent) * (#(-1.8563685636856370e-03) * (Exp ($v_T / #(-3.6900000000000000e+02))) - #9.5890410958904119e-05 * (Exp ($v_T / #(-3.2849999999999995e+03))) + #6.6670000000000000e+03 / ($v_T * $v_T) * (Exp (#(-6.6670000000000000e+03) / $v_T))) - $v_lnF_AB * (#4.3429448190325176e-01 * $v_B + #6.0801227466455256e-02 * $v_A) * (#(-1.3545000000000000e+01) + #5.7150645981055104e+03 / $v_T - #1.0) / $v_T) * (v_fwd_rates.[319] - v_rev_rates.[304]) + v_pres_mod.[40] / $v_T * (v_fwd_rates.[319] * #(-1.0) - v_rev_rates.[304] * ((- $v_T) * (v_dBdT.[49] - v_dBdT.[48] - v_dBdT.[1])))) * $v_rho_inv));
  (*8901*) Do (AddA v_jac 49 ((- $v_j_temp) * #4.3088580000000000e+01));
  (*8902*) Do (AddA v_jac 2 ((- $v_j_temp) * #1.0079400000000001e+00));
  (*8903*) Do (AddA v_jac 50 ($v_j_temp * #4.4096519999999998e+01))].

(** [eval_jacob_8], gri30/lib/src/jacobs/jacob_8.c:4-1138: the declarations and the blocks "partial of
    rxn ... wrt T" (the blocks "wrt species" write other elements of [jac]). *)
Definition gri30_jac_T8 : list stmt := [
  (*5*) Do (Asn v_logT 0 ((Log $v_T)));
  (*6*) Do (Asn v_kf 0 (#0.0));
  (*7*) Do (Asn v_j_temp 0 (#0.0));
  (*8*) Do (Asn v_Kc 0 (#0.0));
  (*9*) Do (Asn v_kr 0 (#0.0));
  (*10*) Do (Asn v_rho_inv 0 (#1.0 / $v_rho));
  (*12*) Do (Asn v_j_temp 0 (#1.0 / $v_T * ((v_fwd_rates.[320] - v_rev_rates.[305]) * (#2.1899999999999999e+00 + #4.4786541272465473e+02 / $v_T) + v_fwd_rates.[320] * #(-1.0) - v_rev_rates.[305] * (#(-1.0) + (- $v_T) * (v_dBdT.[25] + v_dBdT.[12] - v_dBdT.[48] - v_dBdT.[1]))) * $v_rho_inv));
  (*13*) Do (AddA v_jac 49 ((- $v_j_temp) * #4.3088580000000000e+01));
  (*14*) Do (AddA v_jac 2 ((- $v_j_temp) * #1.0079400000000001e+00));
  (*15*) Do (AddA v_jac 13 ($v_j_temp * #1.5034820000000000e+01));
  (*16*) Do (AddA v_jac 26 ($v_j_temp * #2.9061699999999998e+01));
  (*239*) Do (Asn v_j_temp 0 (#1.0 / $v_T * (v_fwd_rates.[321] * #(-1.0) - v_rev_rates.[306] * (#(-1.0) + (- $v_T) * (v_dBdT.[18] + v_dBdT.[25] - v_dBdT.[48] - v_dBdT.[4]))) * $v_rho_inv));
  (*240*) Do (AddA v_jac 49 ((- $v_j_temp) * #4.3088580000000000e+01));
  (*241*) Do (AddA v_jac 26 ($v_j_temp * #2.9061699999999998e+01));
  (*242*) Do (AddA v_jac 19 ($v_j_temp * #3.1034219999999998e+01));
  (*243*) Do (AddA v_jac 5 ((- $v_j_temp) * #1.7007339999999999e+01));
  (*466*) Do (Asn v_j_temp 0 (#1.0 / $v_T * ((v_fwd_rates.[322] - v_rev_rates.[307]) * (#2.5500000000000000e-01 + #(-4.7453604966219035e+02) / $v_T) + v_fwd_rates.[322] * #(-1.0) - v_rev_rates.[307] * (#(-1.0) + (- $v_T) * (v_dBdT.[3] + v_dBdT.[49] - v_dBdT.[48] - v_dBdT.[6]))) * $v_rho_inv));
  (*467*) Do (AddA v_jac 49 ((- $v_j_temp) * #4.3088580000000000e+01));
  (*468*) Do (AddA v_jac 50 ($v_j_temp * #4.4096519999999998e+01));
  (*469*) Do (AddA v_jac 4 ($v_j_temp * #3.1998799999999999e+01));
  (*470*) Do (AddA v_jac 7 ((- $v_j_temp) * #3.3006740000000001e+01));
  (*693*) Do (Asn v_j_temp 0 (#1.0 / $v_T * (v_fwd_rates.[323] * #(-1.0)) * $v_rho_inv));
  (*694*) Do (AddA v_jac 49 ((- $v_j_temp) * #4.3088580000000000e+01));
  (*695*) Do (AddA v_jac 18 ($v_j_temp * #3.0026280000000000e+01));
  (*696*) Do (AddA v_jac 5 ($v_j_temp * #1.7007339999999999e+01));
  (*697*) Do (AddA v_jac 7 ((- $v_j_temp) * #3.3006740000000001e+01));
  (*698*) Do (AddA v_jac 26 ($v_j_temp * #2.9061699999999998e+01));
  (*965*) Do (Asn v_j_temp 0 (#1.0 / $v_T * ((v_fwd_rates.[324] - v_rev_rates.[308]) * #(-3.2000000000000001e-01) + v_fwd_rates.[324] * #(-1.0) - v_rev_rates.[308] * (#(-1.0) + (- $v_T) * (#2.0 * v_dBdT.[25] - v_dBdT.[48] - v_dBdT.[12]))) * $v_rho_inv));
  (*966*) Do (AddA v_jac 49 ((- $v_j_temp) * #4.3088580000000000e+01));
  (*967*) Do (AddA v_jac 26 ($v_j_temp * #2.0 * #2.9061699999999998e+01));
  (*968*) Do (AddA v_jac 13 ((- $v_j_temp) * #1.5034820000000000e+01))].

