(** Coefficients of pvlib/spectrum/spectrl2.py, transcribed by tools/gen_spectrl2.py. *)
From Coq Require Import Reals List.
Import ListNotations.
Open Scope R_scope.
(** spectrl2.py:10-17: wavelength [nm], spectral_irradiance_et [W/m2/nm], water_vapor_absorption, ozone_absorption, mixed_absorption *)
Record sp2 := Sp2 { lam : R; et : R; aw : R; ao : R; au : R }.
(** spectrl2.py:18-83 *)
Definition SPECTRL2_COEFFS : list sp2 :=
  [ Sp2 300 0.5359 0 10 0;
    Sp2 305 0.5583 0 4.8 0;
    Sp2 310 0.622 0 2.7 0;
    Sp2 315 0.6927 0 1.35 0;
    Sp2 320 0.7151 0 0.8 0;
    Sp2 325 0.8329 0 0.38 0;
    Sp2 330 0.9619 0 0.16 0;
    Sp2 335 0.9319 0 0.075 0;
    Sp2 340 0.9006 0 0.04 0;
    Sp2 345 0.9113 0 0.019 0;
    Sp2 350 0.9755 0 0.007 0;
    Sp2 360 0.9759 0 0 0;
    Sp2 370 1.1199 0 0 0;
    Sp2 380 1.1038 0 0 0;
    Sp2 390 1.0338 0 0 0;
    Sp2 400 1.4791 0 0 0;
    Sp2 410 1.7013 0 0 0;
    Sp2 420 1.7404 0 0 0;
    Sp2 430 1.5872 0 0 0;
    Sp2 440 1.837 0 0 0;
    Sp2 450 2.005 0 0.003 0;
    Sp2 460 2.043 0 0.006 0;
    Sp2 470 1.987 0 0.009 0;
    Sp2 480 2.027 0 0.014 0;
    Sp2 490 1.896 0 0.021 0;
    Sp2 500 1.909 0 0.03 0;
    Sp2 510 1.927 0 0.04 0;
    Sp2 520 1.831 0 0.048 0;
    Sp2 530 1.891 0 0.063 0;
    Sp2 540 1.898 0 0.075 0;
    Sp2 550 1.892 0 0.085 0;
    Sp2 570 1.84 0 0.12 0;
    Sp2 593 1.768 0.075 0.119 0;
    Sp2 610 1.728 0 0.12 0;
    Sp2 630 1.658 0 0.09 0;
    Sp2 656 1.524 0 0.065 0;
    Sp2 667.6 1.531 0 0.051 0;
    Sp2 690 1.42 0.016 0.028 0.15;
    Sp2 710 1.399 0.0125 0.018 0;
    Sp2 718 1.374 1.8 0.015 0;
    Sp2 724.4 1.373 2.5 0.012 0;
    Sp2 740 1.298 0.061 0.01 0;
    Sp2 752.5 1.269 0.0008 0.008 0;
    Sp2 757.5 1.245 0.0001 0.007 0;
    Sp2 762.5 1.223 1e-05 0.006 4;
    Sp2 767.5 1.205 1e-05 0.005 0.35;
    Sp2 780 1.183 0.0006 0 0;
    Sp2 800 1.148 0.036 0 0;
    Sp2 816 1.091 1.6 0 0;
    Sp2 823.7 1.062 2.5 0 0;
    Sp2 831.5 1.038 0.5 0 0;
    Sp2 840 1.022 0.155 0 0;
    Sp2 860 0.9987 1e-05 0 0;
    Sp2 880 0.9472 0.0026 0 0;
    Sp2 905 0.8932 7 0 0;
    Sp2 915 0.8682 5 0 0;
    Sp2 925 0.8297 5 0 0;
    Sp2 930 0.8303 27 0 0;
    Sp2 937 0.814 55 0 0;
    Sp2 948 0.7869 45 0 0;
    Sp2 965 0.7683 4 0 0;
    Sp2 980 0.767 1.48 0 0;
    Sp2 993.5 0.7576 0.1 0 0;
    Sp2 1040 0.6881 1e-05 0 0;
    Sp2 1070 0.6407 0.001 0 0;
    Sp2 1100 0.6062 3.2 0 0;
    Sp2 1120 0.5859 115 0 0;
    Sp2 1130 0.5702 70 0 0;
    Sp2 1145 0.5641 75 0 0;
    Sp2 1161 0.5442 10 0 0;
    Sp2 1170 0.5334 5 0 0;
    Sp2 1200 0.5016 2 0 0;
    Sp2 1240 0.4775 0.002 0 0.05;
    Sp2 1270 0.4427 0.002 0 0.3;
    Sp2 1290 0.44 0.1 0 0.02;
    Sp2 1320 0.4168 4 0 0.0002;
    Sp2 1350 0.3914 200 0 0.00011;
    Sp2 1395 0.3589 1000 0 1e-05;
    Sp2 1442.5 0.3275 185 0 0.05;
    Sp2 1462.5 0.3175 80 0 0.011;
    Sp2 1477 0.3073 80 0 0.005;
    Sp2 1497 0.3004 12 0 0.0006;
    Sp2 1520 0.2928 0.16 0 0;
    Sp2 1539 0.2755 0.002 0 0.005;
    Sp2 1558 0.2721 0.0005 0 0.13;
    Sp2 1578 0.2593 0.0001 0 0.04;
    Sp2 1592 0.2469 1e-05 0 0.06;
    Sp2 1610 0.244 0.0001 0 0.13;
    Sp2 1630 0.2435 0.001 0 0.001;
    Sp2 1646 0.2348 0.01 0 0.0014;
    Sp2 1678 0.2205 0.036 0 0.0001;
    Sp2 1740 0.1908 1.1 0 1e-05;
    Sp2 1800 0.1711 130 0 1e-05;
    Sp2 1860 0.1445 1000 0 0.0001;
    Sp2 1920 0.1357 500 0 0.001;
    Sp2 1960 0.123 100 0 4.3;
    Sp2 1985 0.1238 4 0 0.2;
    Sp2 2005 0.113 2.9 0 21;
    Sp2 2035 0.1085 1 0 0.13;
    Sp2 2065 0.0975 0.4 0 1;
    Sp2 2100 0.0924 0.22 0 0.08;
    Sp2 2148 0.0824 0.25 0 0.001;
    Sp2 2198 0.0746 0.33 0 0.00038;
    Sp2 2270 0.0683 0.5 0 0.001;
    Sp2 2360 0.0638 4 0 0.0005;
    Sp2 2450 0.0495 80 0 0.00015;
    Sp2 2500 0.0485 310 0 0.00014;
    Sp2 2600 0.0386 15000 0 0.00066;
    Sp2 2700 0.0366 22000 0 100;
    Sp2 2800 0.032 8000 0 150;
    Sp2 2900 0.0281 650 0 0.13;
    Sp2 3000 0.0248 240 0 0.0095;
    Sp2 3100 0.0221 230 0 0.001;
    Sp2 3200 0.0196 100 0 0.8;
    Sp2 3300 0.0175 120 0 1.9;
    Sp2 3400 0.0157 19.5 0 1.3;
    Sp2 3500 0.0141 3.6 0 0.075;
    Sp2 3600 0.0127 3.1 0 0.01;
    Sp2 3700 0.0115 2.5 0 0.00195;
    Sp2 3800 0.0104 1.4 0 0.004;
    Sp2 3900 0.0095 0.17 0 0.29;
    Sp2 4000 0.0086 0.0045 0 0.025 ].
