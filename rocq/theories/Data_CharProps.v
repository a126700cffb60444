(** * The tables of UnicodeData/CharPropsData.py.

    Written by tools/gen_data.py, which copies the numbers of that file. *)
From Coq Require Import ZArith List.
From Verif Require Import Py Arr.
Import ListNotations.
Open Scope Z_scope.

(** CharPropsData.py:7-1401 *)
Definition propsTrie_index_0 : list Z := [
  1133;1141;1149;1157;1181;1189;1197;1205;1213;1221;1227;1235;1243;1251;1259;1267;1273;1281;1289;1297;1300;
  1308;1316;1324;1332;1340;1336;1344;1352;1360;1365;1373;1381;1389;1393;1401;1409;1417;1425;1433;1429;1437;
  1442;1450;1456;1464;1472;1480;1488;1496;1504;1512;1517;1525;1528;1536;1544;1552;1558;1566;1565;1573;1581;
  1589;1605;1597;1613;1621;1165;1637;1643;1629;1659;1661;1669;1651;1685;1691;1699;1677;1715;1721;1729;1707;
  1745;1751;1759;1737;1775;1781;1789;1767;1805;1813;1821;1797;1837;1843;1851;1829;1867;1873;1881;1859;1897;
  1902;1910;1889;1926;1933;1941;1918;1561;1949;1957;1165;1965;1972;1980;1165;1988;1996;2004;2009;2017;2024;
  2032;1165;1496;2040;2048;2056;2064;1381;2080;2072;1496;1496;1496;1496;1496;1496;1496;1496;1496;1496;2088;
  1496;2096;2100;2108;1496;2114;1496;2120;2128;2136;1381;1381;2144;2152;1496;1496;1496;1496;1496;1496;1496;
  1496;1496;1496;1496;1496;1496;1496;1496;1496;1496;1496;2157;2165;1496;1496;2173;2181;2189;2197;2205;1496;
  2213;2221;2229;2245;1496;2253;2255;2263;2237;1496;2266;2286;2274;2282;2294;1496;2302;2308;2316;2324;1496;
  2340;2348;2356;2332;2372;1165;2380;2383;2391;2364;2407;2399;1496;2414;1496;2429;2422;2437;2445;2449;2457;
  2465;1293;2473;2476;2482;2489;2476;1332;2497;1213;1213;1213;1213;2505;1213;1213;1213;2521;2529;2537;2545;
  2553;2557;2565;2513;2589;2597;2573;2581;2605;2613;2621;2629;2653;2637;2645;2661;2669;2684;2689;2676;2697;
  2697;2697;2697;2697;2697;2697;2697;2705;2713;2316;2716;2724;2731;2736;2744;2316;2751;2750;2767;2770;2316;
  2316;2759;2316;2316;2316;2316;2316;2785;2793;2777;2316;2316;2316;2798;2316;2316;2316;2316;2316;2316;2316;
  2804;2812;2316;2820;2827;2316;2316;2316;2316;2316;2316;2316;2316;2697;2697;2697;2697;2835;2697;2842;2849;
  2697;2697;2697;2697;2697;2697;2697;2697;2316;2857;2864;2868;2874;2316;2316;2316;1381;2890;2882;2898;1213;
  1213;1213;2906;1293;2914;1496;2920;2936;2928;2928;1332;2944;2952;2960;1165;2968;2316;2316;2975;2316;2316;
  2316;2316;2316;2316;2983;2989;3005;2997;1561;1496;3013;2152;1496;3021;3029;3033;1496;1496;3038;1496;2316;
  3045;2745;3053;3059;2316;3053;3067;2316;2316;2316;2316;2316;2316;2316;2316;2316;2316;3075;1496;1496;1496;
  3083;1496;1496;1496;1496;1496;1496;1496;1496;1496;1496;1496;1496;1496;1496;1496;1496;1496;1496;1496;1496;
  1496;1496;1496;1496;1496;1496;1496;1496;3089;1496;1496;1496;1496;1496;1496;1496;1496;1496;1496;1496;1496;
  1496;1496;1496;1496;1496;1496;1496;1496;1496;1496;1496;1496;3094;1496;1496;1496;1496;1496;1496;1496;1496;
  1496;1496;1496;1496;1496;1496;1496;1496;1496;1496;1496;1496;1496;1496;1496;1496;1496;1496;1496;1496;1496;
  1496;1496;1496;1496;1496;1496;1496;1496].
Definition propsTrie_index_1 : list Z := [
  1496;1496;1496;1496;1496;1496;1496;1496;1496;1496;1496;1496;1496;1496;1496;1496;1496;1496;1496;1496;1496;
  1496;1496;1496;1496;1496;1496;1496;1496;1496;1496;1496;1496;1496;1496;1496;1496;1496;1496;1496;1496;1496;
  1496;1496;1496;1496;1496;1496;1496;1496;1496;1496;1496;1496;1496;1496;1496;1496;1496;1496;1496;1496;1496;
  1496;1496;1496;1496;1496;1496;1496;1496;1496;1496;1496;1496;1496;1496;1496;1496;1496;1496;1496;1496;1496;
  1496;1496;1496;1496;1496;1496;1496;1496;1496;1496;1496;1496;1496;1496;1496;1496;1496;1496;1496;1496;1496;
  1496;1496;1496;1496;1496;2316;2316;3102;1496;3105;1496;3113;3119;3127;3135;3140;1496;1496;3144;1496;1496;
  1496;1496;1496;1496;1496;1496;1496;1496;1496;1496;3151;1496;3158;3164;1496;1496;1496;1496;1496;1496;1496;
  1496;1496;1496;1496;1496;1496;1496;3172;1496;1496;1496;3180;1496;1496;1496;1496;1496;1496;1496;1496;1496;
  1496;1496;1496;1496;1496;1496;1496;1496;1496;1496;1496;1496;1496;1496;3182;1496;1496;1496;1496;1496;1496;
  1496;1496;1496;1496;1496;1496;1496;1496;1496;1496;3189;1496;1496;1496;1496;1496;1496;1496;1496;1496;1496;
  1496;1496;1496;1496;1496;1496;1496;1496;1496;1496;1496;1496;1496;1496;1496;1496;1496;1496;1496;1496;1496;
  1496;1496;1496;1496;1496;1496;1496;1496;1496;1496;1496;1496;3196;1496;1496;1496;3203;3211;1496;1496;1496;
  1496;1496;1496;1496;1496;1496;1496;1496;1496;1496;1496;1496;1496;1496;1496;1496;1496;1496;1496;1496;1496;
  1496;1496;1496;1496;1496;1496;3216;1496;1496;3224;1496;1496;1496;1496;1496;1496;1496;1496;1496;1496;1496;
  1496;1496;1496;1496;1496;1496;1496;1496;1496;1496;1496;1496;1496;1496;1496;1496;1496;1496;1496;1496;1496;
  1496;1496;1496;3228;1496;1496;1496;1496;1496;1496;1496;1496;1496;1496;1496;1496;1496;1496;1496;1496;1496;
  1496;1496;1496;1496;1496;1496;1496;1496;1496;1496;1496;1496;1496;1496;1496;1496;1496;1496;1496;1496;1496;
  1496;1496;1496;1496;1496;1496;1496;1496;1496;1496;1496;1496;1496;1496;1496;1496;1496;1496;1496;3231;1496;
  1496;1496;1496;1496;1496;1496;1496;1496;1496;1496;1496;1496;1496;1496;1496;1496;1496;1496;1496;1496;1496;
  1496;1496;1496;1496;1496;1496;1496;1496;1496;1496;1496;1496;1496;3234;1496;1496;1496;1496;1496;1496;1496;
  1496;1496;1496;1496;1496;1496;1496;1496;1496;1496;1496;1496;1496;1496;1496;3240;1496;1496;1496;1496;1496;
  1496;1496;1496;1496;1496;1496;1496;1496;1496;1496;1496;1496;1496;1496;1496;1496;1496;1496;1496;1496;1496;
  1496;1496;1496;1496;1496;1496;1496;1496;1496;1496;1496;1496;1496;1496;1496;1496;1496;1496;1496;1496;1496;
  1496;1496;1496;1496;1496;1496;1496;1496;1496;1496;1496;1496;1496;1496;1496;1496;1496;1496;1496;1496;1496;
  1496;1496;1496;1496;1496;1496;1496;1496].
Definition propsTrie_index_2 : list Z := [
  1496;1496;1496;1496;3248;1496;1496;1496;1496;1496;1496;1496;1496;1496;1496;1496;1496;1496;1496;1496;1496;
  1496;1496;1496;1496;1496;1496;1496;1496;1496;1496;1496;1496;3253;1496;1496;1496;1496;1496;1496;1496;1496;
  1496;1496;1496;1496;1496;1496;1496;1496;1496;1496;1496;1496;1496;1496;1496;1496;1496;1496;1496;1496;1496;
  1496;1496;1496;1496;1496;1496;1496;1496;1496;1496;1496;1496;1496;1496;1496;1496;1496;1496;1496;1496;1496;
  1496;1496;1496;1496;1496;1496;1496;1496;1496;1496;1496;1496;1496;1496;1496;1496;1496;3258;1496;1496;1496;
  3263;1496;1496;1496;1496;1496;1496;1496;1496;1496;1496;1496;1496;1496;1496;1496;1496;1496;1496;1496;1496;
  1496;1496;1496;1496;1496;1496;1496;1496;1496;1496;1496;1496;1496;1496;1496;1496;1496;1496;1496;1496;1496;
  1496;1496;1496;1496;1496;1496;1496;1496;1496;1496;1496;1496;1496;1496;1496;1496;1496;1496;1496;1496;1496;
  1496;1496;1496;1496;1496;1496;1496;1496;1496;3271;3278;3282;1496;1496;1496;3289;1496;1496;1496;1496;1496;
  1496;1496;1496;1496;1496;1496;1496;1496;1496;1496;1496;1496;1496;1496;1496;1496;1496;1496;1496;1496;1496;
  1496;1496;1496;1496;1496;1496;1496;1496;1496;1496;1496;1496;1496;1496;1496;1496;1496;1496;1496;1496;1496;
  1496;1496;1496;1496;1496;1496;1496;1496;1496;1496;1496;1496;1496;1496;1496;1496;1496;1496;1496;1496;1496;
  1496;1496;1496;2254;3303;1496;1496;1496;1496;1496;1496;1496;1496;1496;1496;1496;1496;1496;1496;1496;1496;
  1496;1496;1496;1496;1496;1496;1496;1496;1496;1496;1496;1496;1496;1496;1496;1496;1496;1496;1496;3295;2316;
  3311;2437;1496;1496;1496;1496;1496;1496;1496;1496;3316;3324;1213;3340;3332;1496;1496;3348;3356;3372;1213;
  3377;3385;3391;3399;3364;3407;3415;1496;3423;3439;3442;3431;3450;1581;3458;3465;2254;1659;3481;3473;3489;
  1496;3497;3505;3513;1496;3521;3529;3537;3545;3553;3557;3565;1293;1293;1496;3573;1496;1496;1496;1496;1496;
  1496;1496;1496;1496;1496;1496;1496;1496;1496;1496;1496;1496;1496;1496;1496;1496;1496;1496;1496;1496;1496;
  1496;1496;1496;1496;1496;1496;1496;1496;1496;1496;1496;1496;1496;1496;1496;1496;1496;1496;1496;1496;1496;
  1496;1496;1496;1496;1496;1496;1496;1496;1496;1496;1496;1496;1496;1496;1496;1496;1496;1496;1496;1496;1496;
  1496;1496;1496;1496;1496;1496;1496;1496;1496;1496;1496;1496;1496;1496;1496;1496;1496;1496;1496;1496;1496;
  1496;1496;1496;1496;1496;1496;1496;1496;1496;1496;1496;1496;1496;1496;1496;1496;1496;1496;1496;1496;1496;
  1496;1496;1496;1496;1496;1496;1496;1496;1496;1496;1496;1496;1496;1496;1496;1496;1496;1496;1496;1496;1496;
  1496;1496;1496;1496;1496;1496;1496;1496;1496;1496;1496;1496;1496;1496;1496;1496;1496;1496;1496;1496;1496;
  1496;1496;1496;1496;1496;1496;1496;1496].
Definition propsTrie_index_3 : list Z := [
  1496;1496;1496;1496;1496;1496;1496;1496;1496;1496;1496;1496;1496;1496;1496;1496;1496;1496;1496;1496;1496;
  1496;1496;1496;1496;1496;1496;1496;1496;1496;1496;1496;1496;1496;1496;1496;1496;1496;1496;1496;1496;1496;
  1496;1496;1496;1496;1496;1496;1496;1496;1496;1496;1496;1496;1496;1496;1496;1496;1496;1496;1496;1496;1496;
  1496;1496;1496;1496;1496;1496;1496;1496;1496;1496;1496;1496;1496;1496;1496;1496;1496;1496;1496;1496;1496;
  1496;1496;1496;1496;1496;1496;1496;1496;1496;1496;1496;1496;1496;1496;1496;1496;1496;1496;1496;1496;1496;
  1496;1496;1496;1496;1496;1496;1496;1496;1496;1496;1496;1496;1496;1496;1496;1496;1496;1496;1496;1496;1496;
  1496;1496;1496;1496;1496;1496;1496;1496;1496;1496;1496;1496;1496;1496;1496;1496;1496;1496;1496;1496;1496;
  1496;1496;1496;1496;1496;1496;1496;1496;1496;1496;1496;1496;1496;1496;1496;1496;1496;1496;1496;1496;1496;
  1496;1496;1496;1496;1496;1496;1496;1496;1496;1496;1496;1496;1496;1496;1496;1496;1496;1496;1496;1496;1496;
  3581;3593;3585;1165;1165;1165;1165;1165;1165;1165;1165;1165;1165;1165;1165;1165;1165;1165;1165;1165;1165;
  1165;1165;1165;1165;1165;1165;1165;1165;1165;1165;1165;1165;1165;1165;3601;3601;3601;3601;3601;3601;3601;
  3601;3601;3601;3601;3601;3601;3601;3601;3601;3601;3601;3601;3601;3601;3601;3601;3601;3601;3601;3601;3601;
  3601;3601;3601;3601;3609;3609;3609;3609;3609;3609;3609;3609;3609;3609;3609;3609;3609;3609;3609;3609;3609;
  3609;3609;3609;3609;3609;3609;3609;3609;3609;3609;3609;3609;3609;3609;3609;3609;3609;3609;3609;3609;3609;
  3609;3609;3609;3609;3609;3609;3609;3609;3609;3609;3609;3609;3609;3609;3609;3609;3609;3609;3609;3609;3609;
  3609;3609;3609;3609;3609;3609;3609;3609;3609;3609;3609;3609;3609;3609;3609;3609;3609;3609;3609;3609;3609;
  3609;3609;3609;3609;3609;3609;3609;3609;3609;3609;3609;3609;3609;3609;3609;3609;3609;3609;3609;3609;3609;
  3609;3609;3609;3609;3609;3609;3609;3609;3609;3609;3609;3609;3609;3609;3609;3609;3609;3609;3609;3609;3609;
  3609;3609;3609;3609;3609;3609;3609;3609;3609;3609;3609;3609;3609;3609;3609;3609;3609;3609;3609;3609;3609;
  3609;3609;3609;3609;3609;3609;3609;3609;3609;3609;3609;3609;3609;3609;3609;3609;3609;3609;3609;3609;3609;
  3609;3609;3609;3609;3609;3609;3609;3609;3609;3609;3609;3609;3609;3609;3609;3609;3609;3609;3609;3609;3609;
  3609;3609;3609;3609;3609;3609;3609;3609;3609;3609;3609;3609;3609;3609;3609;1496;1496;1496;3617;1496;3290;
  3624;3629;1496;1496;1496;3637;1496;1496;2265;1165;3659;3643;3651;1496;1496;3667;3675;1496;1496;1496;1496;
  1496;1496;1496;1496;1496;1496;3680;3688;1496;3692;1496;3698;3702;3710;3718;3725;3733;1496;1496;1496;3739;
  3763;1149;3771;3779;3784;2286;3747;3755].
Definition propsTrie_index_4 : list Z := [
  3601;3601;3601;3601;3601;3601;3601;3601;3601;3601;3601;3601;3601;3601;3601;3601;3601;3601;3601;3601;3601;
  3601;3601;3601;3601;3601;3601;3601;3601;3601;3601;3601;4660;4660;4724;4788;4852;4908;4972;5036;5092;5156;
  5200;5264;5328;5344;5408;5460;5524;5572;5636;5700;5716;5768;5824;5888;5952;6016;6068;6112;6176;6232;6260;
  6324;2688;2752;2816;2880;2944;2624;3008;2624;3042;2624;2624;2624;2624;3106;475;475;3170;3234;2624;2624;2624;
  2624;3298;3330;2624;2624;3394;3458;3522;3586;3650;3714;3778;3833;475;475;3869;3921;475;3961;475;475;475;475;
  4006;475;475;475;475;475;475;475;4026;475;4082;4146;475;4157;475;475;475;4211;2624;4275;475;475;4339;2624;
  2624;2624;2624;2624;2624;2624;2624;2624;2624;2624;2624;2624;2624;2624;2624;2624;2624;2624;2624;2624;2624;
  2624;2624;2624;2624;2624;2624;2624;2624;2624;2624;2624;2624;2624;2624;2624;2624;2624;2624;2624;2624;2624;
  2624;2624;2624;2624;2624;2624;2624;2624;2624;2624;2624;2624;2624;2624;2624;2624;2624;2624;2624;2624;2624;
  2624;2624;2624;2624;2624;2624;2624;2624;2624;2624;2624;2624;2624;2624;2624;2624;2624;2624;2624;2624;2624;
  2624;2624;2624;2624;2624;2624;2624;2624;2624;2624;2624;2624;2624;2624;2624;2624;2624;2624;2624;2624;2624;
  2624;2624;2624;2624;2624;2624;2624;2624;2624;2624;2624;2624;2624;2624;2624;2624;2624;2624;2624;2624;2624;
  2624;2624;2624;2624;2624;2624;2624;2624;2624;2624;2624;2624;2624;2624;2624;2624;2624;2624;2624;2624;2624;
  2624;2624;2624;2624;2624;2624;2624;2624;2624;2624;2624;2624;2624;2624;2624;2624;2624;2624;2624;2624;2624;
  2624;2624;2624;2624;2624;2624;2624;2624;2624;2624;2624;2624;2624;2624;2624;2624;2624;2624;2624;2624;2624;
  2624;2624;2624;2624;2624;2624;2624;2624;2624;2624;2624;2624;2624;2624;2624;2624;2624;2624;2624;2624;2624;
  2624;2624;2624;2624;2624;2624;2624;2624;2624;2624;2624;2624;2624;2624;2624;2624;2624;2624;2624;2624;2624;
  2624;2624;2624;2624;2624;2624;2624;2624;2624;2624;2624;2624;2624;2624;2624;2624;2624;2624;2624;2624;2624;
  2624;2624;2624;2624;2624;2624;2624;2624;2624;2624;2624;2624;2624;2624;2624;2624;2624;2624;2624;2624;2624;
  2624;2624;2624;2624;2624;2624;2624;2624;2624;2624;2624;2624;2624;2624;2624;2624;2624;2624;2624;2624;2624;
  2624;2624;2624;2624;2624;2624;2624;2624;2624;2624;2624;2624;2624;2624;2624;2624;2624;2624;2624;2624;2624;
  2624;2624;2624;2624;2624;2624;2624;2624;2624;2624;2624;2624;2624;2624;2624;2624;2624;2624;2624;2624;2624;
  2624;2624;2624;2624;2624;2624;2624;2624;2624;2624;2624;2624;4403;2624;2624;2624;2624;2624;2624;2624;2624;
  2624;2624;2624;2624;2624;2624;2624;2624;2624;2624;2624;2624;2624;2624;2624;2624;2624;2624;2624;2624;2624;
  2624;2624].
Definition propsTrie_index_5 : list Z := [
  1792;1792;1792;1792;1792;1792;1792;1792;1792;1792;1792;1792;1792;1792;1792;1792;1792;1792;1792;1792;1792;
  1792;1792;1792;1792;1792;1792;1792;1792;1792;1792;4467;1792;1792;1792;1792;1792;1792;1792;1792;1792;1792;
  1792;1792;1792;1792;1792;1792;1792;1792;1792;1792;1792;1792;1792;1792;1792;1792;1792;1792;1792;1792;1792;
  4467;1165;1165;1165;1165;1165;1165;1165;1165;1165;1165;1165;1165;1165;1165;1165;1165;1165;1165;1165;1165;
  1165;1165;1165;1165;1165;1165;1165;1165;1165;1165;1165;1165;1165;1165;1165;1165;1165;1165;1165;1165;1165;
  1165;1165;1165;1165;1165;1165;1165;1165;1165;1165;1165;1165;1165;1165;1165;1165;1165;1165;1165;1165;1165;
  1165;1165;3792;3799;3807;1165;1496;1496;1496;3815;3831;3823;3854;3839;3846;3862;3866;3870;1165;1165;1165;
  1165;2254;1496;3878;3886;1496;3894;3902;3906;3914;1496;3922;1165;1381;1391;3930;1496;3934;3942;3958;3950;
  1496;3966;1496;3973;1165;1165;1165;1165;1496;1496;1496;1496;1496;1496;1496;1496;1496;2936;2266;3698;1165;
  1165;1165;1165;3989;3981;3992;4000;2286;4008;1165;4016;4024;4032;1165;1165;1496;4048;4056;4040;4072;4079;
  4064;4087;4095;1165;4111;4103;1496;4114;4122;4130;4138;4146;1165;1165;1496;1496;4154;1165;1381;4162;1293;
  4170;1496;4178;1165;1165;1165;1165;1165;1165;1165;1165;1165;4186;1496;4194;1165;1165;4202;4210;4217;1165;
  1165;3688;4225;2936;4241;1550;4249;4233;2407;4257;4265;4271;4295;4279;4287;4299;2407;4315;4307;4323;4339;
  4331;1165;1165;4346;4354;1584;4362;4378;4384;4392;4370;1165;1165;1165;1165;1496;4400;4408;4416;1496;4424;
  4432;1165;1165;1165;1165;1165;1496;4440;4448;1165;1496;4456;4464;4472;1496;4488;4480;1165;2120;4496;1165;
  1165;1165;1165;1165;1165;1496;4504;1165;1165;1165;1381;1293;4512;4528;4534;4520;1165;1165;4550;4554;4542;
  4578;4562;4570;1496;4594;4586;1496;2255;1165;1165;1165;1165;1165;1165;1165;1165;4616;4621;4602;4610;4637;
  4629;1165;1165;4652;4656;4644;4672;4664;4480;1165;1165;1165;1165;1165;1165;1165;1165;1165;4676;1165;1165;
  1165;1165;1165;4683;4699;4691;1496;1496;1496;1496;1496;1496;1496;1496;1496;1496;1496;1496;1496;1496;1496;
  1496;1496;1496;1496;1496;1496;1496;1496;1496;1496;1496;1496;1496;2265;1165;1165;1165;4715;4723;4731;4707;
  1496;1496;1496;1496;1496;1496;4739;1165;1165;1165;1165;1165;1165;1165;1165;1165;1165;1165;1165;1165;1165;
  1165;1165;1165;1165;1165;1165;1165;1496;1496;1496;1496;1496;1496;1496;1496;1496;1496;1496;1496;1496;1496;
  1496;1496;1496;1496;1496;1496;1496;1496;1496;1496;1496;1496;1496;1496;1496;1496;1496;1496;1496;4747;1165;
  1165;1165;1165;1165;1165;1165;1165;1165;1165;1165;1165;1165;1165;1165;1165;1165;1165;1165;1165;1165;1165;
  1165;1165;1165;1165;1165;1165;1165;1165].
Definition propsTrie_index_6 : list Z := [
  1165;1165;1496;1496;1496;1496;1496;1496;1496;1496;1496;1496;1496;1496;1496;1496;1496;1496;1496;1496;4755;
  1165;1165;1165;1165;1165;1165;1165;1165;1165;1165;1165;1165;1165;1496;1496;1496;1496;1496;1496;1496;1496;
  1496;1496;1496;1496;1496;1496;1496;1496;1496;2255;2286;4763;1165;1165;3688;4771;1496;4787;4795;4803;4779;
  1165;1165;1165;1165;1165;1165;1165;1165;1165;1165;1165;1165;1165;1165;1165;1165;1165;1165;1165;1165;1165;
  1381;1293;4811;1165;1165;1165;1496;1496;4819;4824;4830;1165;1165;4838;1496;1496;1496;1496;1496;1496;1496;
  1496;1496;1496;1496;1496;1496;1496;1496;1496;1496;1496;1496;1496;1496;1496;1496;1496;1496;1496;1496;1496;
  1496;1496;1496;1496;1496;1496;1496;1496;1496;1496;1496;1496;1496;1496;1496;1496;1496;1496;1496;1496;1496;
  1496;1496;1496;1496;1496;1496;1496;1496;1496;1496;1496;1496;1496;1496;4846;1496;1496;1496;1496;1496;1496;
  1496;1496;1496;1496;1496;1496;1496;1496;1496;1496;1496;1496;1496;1496;1496;1496;1496;1496;1496;1496;1496;
  1496;1496;1496;1496;1496;1496;1496;1496;1496;1496;1496;2266;1165;4154;1165;1165;1165;1165;1165;1165;1165;
  1165;1165;1165;1165;1165;1165;1165;1165;1165;1165;1165;1165;1165;1165;1165;1165;1496;1496;1496;1496;1496;
  1496;1496;1496;2286;1165;4852;4859;1496;1496;1496;1496;1496;1496;1496;1496;1496;1496;1496;3585;1165;1165;
  1165;1165;1165;1165;1165;1165;1165;1165;1165;1165;1165;1165;1165;1165;1165;1165;1165;1165;1165;1165;1165;
  1165;1165;1165;1165;1165;1165;1165;1165;1165;1165;1165;1165;1165;1165;1165;1165;1165;1496;1496;1496;4865;
  4870;4878;1165;1165;1165;1165;1165;1165;1165;1165;1165;1165;1165;1165;1165;1165;1165;1165;1165;1165;1165;
  1165;1165;1165;1165;1165;1165;1165;2316;2316;2316;2316;2316;2316;2316;2983;2316;4886;2316;4893;4901;4907;
  2316;4913;2316;2316;4921;1165;1165;1165;1165;4929;2316;2316;2747;4937;1165;1165;1165;1165;4953;4960;4965;
  4971;4979;4987;4995;4957;5003;5011;5019;5024;4978;4953;4960;4956;4971;5032;4954;5035;4957;5043;5051;5059;
  5066;5046;5054;5062;5069;5049;5077;4945;2316;2316;2316;2316;2316;2316;2316;2316;2316;2316;2316;2316;2316;
  2316;2316;2316;1332;5093;1332;5100;5107;5085;1165;1165;1165;1165;1165;1165;1165;1165;1165;1165;1165;1165;
  1165;1165;1165;1165;1165;1165;1165;1165;1165;1165;1165;1165;1165;1165;1165;1165;1165;1165;1165;1165;1165;
  1165;1165;1165;1165;1165;1165;1165;1165;1165;5114;5122;1165;1165;1165;1165;1165;1165;1496;5138;5130;1165;
  1165;1165;1165;1165;1165;1165;1165;1165;1165;1165;1496;5146;1165;1165;1165;1165;1165;1165;1165;1165;1165;
  1165;1165;1165;1165;1165;1165;1165;1165;1165;1165;1165;1165;1165;1165;1165;1165;1165;1165;1165;1165;1165;
  1165;1165;1165;1165;1165;1165;1165;1165].
Definition propsTrie_index_7 : list Z := [
  1165;1165;1496;1496;1496;1496;1496;1496;5154;1165;1381;5170;5162;1165;1165;1165;1165;1165;1165;1165;1165;
  1165;1165;1165;1165;1165;1165;1165;1165;1165;1165;1165;1165;1165;1165;1165;1165;5178;5194;5186;1165;1165;
  5210;5202;1165;1165;1165;1165;1165;1165;5226;5234;5242;5250;5258;5266;1165;5218;1165;1165;1165;1165;1165;
  1165;1165;1165;2316;5274;2316;2316;2975;5279;5283;2983;5291;2316;2316;2316;2316;2985;1165;5299;5307;5311;
  5319;5327;1165;1165;1165;1165;2316;2316;2316;2316;2316;2316;2316;5335;2316;2316;2316;2316;2316;2316;2316;
  2316;2316;2316;2316;2316;2316;2316;2316;2316;2316;2316;2316;2316;2316;2316;5343;5351;2316;2316;2316;2975;
  2316;2316;5359;5367;5274;2316;5375;2316;5383;5388;1165;1165;2316;2316;2316;5396;2316;2316;5403;2316;2316;
  2316;2975;5408;5416;5422;5427;1165;2316;2316;2316;2316;5435;2316;2750;4476;1165;1165;1165;1165;1165;1165;
  1165;1165;1165;1165;1165;1165;1165;1165;1165;1165;1165;1165;1165;1165;1165;1165;1165;1165;1165;1165;1165;
  1165;1165;1165;1165;1165;5443;1496;1496;5450;1496;1496;1496;5458;1496;5466;1496;1496;1496;1496;1496;1496;
  1496;1496;1496;1496;1496;1496;1496;1496;1496;1496;1496;1496;1496;1496;1496;1496;1496;1496;1496;1496;1496;
  1496;1496;1496;1496;1496;1496;1496;1496;1496;1496;1496;1496;1496;1496;1496;1496;1496;1496;1496;1496;1496;
  1496;1496;1496;1496;1496;1496;3200;1496;1496;5474;1496;1496;1496;1496;1496;1496;1496;1496;1496;1496;5482;
  5490;1496;1496;1496;1496;1496;1496;1496;1496;1496;1496;1496;1496;1496;1496;1496;1496;1496;1496;1496;1496;
  1496;1496;1496;1496;1496;1496;1496;1496;1496;1496;1496;1496;1496;1496;1496;1496;1496;1496;1496;3263;1496;
  1496;1496;1496;1496;1496;1496;1496;1496;1496;1496;1496;1496;1496;1496;1496;1496;1496;1496;1496;1496;1496;
  1496;1496;1496;1496;1496;1496;1496;1496;1496;1496;1496;1496;1496;5497;1496;1496;1496;1496;1496;1496;1496;
  1496;1496;1496;1496;1496;1496;1496;1496;1496;1496;1496;1496;1496;1496;1496;1496;1496;1496;1496;1496;1496;
  1496;1496;1496;1496;1496;1496;1496;1496;1496;1496;1496;1496;1496;1496;1496;1496;1496;1496;1496;1496;1496;
  1496;1496;5504;1496;1496;1496;1496;1496;1496;1496;1496;1496;1496;1496;1496;1496;1496;1496;1496;1496;1496;
  1496;1496;1496;1496;1496;1496;1496;1496;1496;1496;1496;1496;1496;1496;1496;1496;1496;1496;1496;1496;1496;
  5511;1496;1496;1496;1496;1496;1496;1496;1496;1496;1496;1496;1496;1496;1496;1496;1496;1496;1496;1496;1496;
  1496;1496;1496;1496;1496;1496;1496;1496;1496;1496;1496;1496;1496;1496;1496;1496;1496;1496;1496;1496;1496;
  1496;1496;1496;1496;1496;1496;1496;1496;1496;1496;1496;1496;1496;3934;1165;1496;1496;1496;1496;1496;1496;
  1496;1496;1496;1496;1496;1496;1496;1496].
Definition propsTrie_index_8 : list Z := [
  1496;1496;1496;1496;1496;1496;1496;1496;1496;1496;1496;1496;1496;1496;1496;1496;1496;1496;1496;1496;1496;
  1496;1496;1496;1496;1496;1496;1496;1496;1496;1496;1496;1496;1496;1496;1496;1496;1496;1496;1496;1496;1496;
  1496;5515;1496;1496;1496;1496;1496;1496;3934;1496;1496;1496;1496;1496;1496;1496;1496;1496;1496;1496;1496;
  1496;1496;1496;1496;1496;1496;1496;1496;1496;1496;1496;1496;1496;1496;1496;1496;1496;1496;1496;1496;1496;
  1496;1496;1496;1496;1496;1496;1496;1496;1496;1496;1496;1496;1496;1496;1496;1496;1496;1496;1496;1496;1496;
  1496;1496;1496;1496;1496;1496;1496;1496;1496;4198;1496;1496;1496;1496;1496;1496;1496;1496;1496;1496;1496;
  1496;1496;1496;1496;1496;1496;1496;1496;1496;1496;1496;1496;1496;1496;1496;1496;1496;1496;1496;1496;5520;
  1165;1165;1165;1165;1165;1165;1165;1165;1165;1165;1165;1165;1165;1165;1165;1165;1165;1165;1165;1165;1165;
  1165;1165;1165;1165;1165;1165;1165;1165;1165;1165;1165;1496;1496;1496;1496;5528;1496;1496;1496;1496;1496;
  1496;1496;1496;1496;1496;1496;3934;1165;1165;1165;1165;1165;1165;1165;1165;1165;1165;1165;1165;1165;1165;
  1165;1165;1165;1165;1165;1165;1165;1165;1165;1165;1165;1165;1165;1165;1165;1165;1165;1165;1165;1165;1165;
  1165;1165;1165;1165;1165;1165;1165;1165;1165;1165;1165;1165;1496;1496;1496;1496;1496;1496;1496;1496;1496;
  1496;1496;1496;1496;1496;1496;1496;1496;1496;1496;1496;1496;1496;1496;1496;1496;1496;1621;1165;1165;1165;
  1165;1165;1165;1165;1165;1165;1165;1165;1165;1165;1165;1165;1165;1165;1165;1165;1165;1165;1165;1165;1165;
  1165;1165;1165;1165;1165;1165;1165;1165;1165;1165;1165;1165;1165;5544;5536;5536;5536;1165;1165;1165;1165;
  1332;1332;1332;1332;1332;1332;1332;5552;1165;1165;1165;1165;1165;1165;1165;1165;1165;1165;1165;1165;1165;
  1165;1165;1165;1165;1165;1165;1165;1165;1165;1165;1165;1165;1165;1165;1165;1165;1165;1165;1165;1165;1165;
  1165;1165;1165;1165;1165;1165;1165;1165;1165;1165;1165;1165;1165;1165;3609;3609;3609;3609;3609;3609;3609;
  3609;3609;3609;3609;3609;3609;3609;3609;3609;3609;3609;3609;3609;3609;3609;3609;3609;3609;3609;3609;3609;
  3609;3609;3609;3609;3609;3609;3609;3609;3609;3609;3609;3609;3609;3609;3609;3609;3609;3609;3609;3609;3609;
  3609;3609;3609;3609;3609;3609;3609;3609;3609;3609;3609;3609;3609;3609;5560;1132;15;15;15;15;15;15;15;15;15;
  15;15;15;15;15;15;15;15;15;15;15;15;15;15;15;15;15;15;15;15;15;15;15;12;23;23;23;25;23;23;23;20;21;23;24;23;
  19;23;23;73;137;201;265;329;393;457;521;585;649;23;23;24;24;24;23;23;1;1;1;1;1;1;1;1;1;1;1].
Definition propsTrie_index_9 : list Z := [
  1;1;1;1;1;1;1;1;1;1;1;1;1;1;1;20;23;21;26;22;26;2;2;2;2;2;2;2;2;2;2;2;2;2;2;2;2;2;2;2;2;2;2;2;2;2;2;20;24;
  21;24;15;0;0;0;0;0;0;0;0;0;0;0;0;0;0;0;0;0;0;0;0;0;0;0;0;0;0;0;0;0;0;0;0;0;0;0;0;0;0;0;0;0;0;0;0;0;0;0;0;0;
  0;0;0;0;0;0;0;0;0;0;0;0;0;0;0;15;15;15;15;15;15;15;15;15;15;15;15;15;15;15;15;15;15;15;15;15;15;15;15;15;15;
  15;15;15;15;15;15;12;23;25;25;25;25;27;23;26;27;5;28;24;16;27;26;27;24;843;907;26;2;23;23;26;779;5;29;13515;
  13387;15563;23;1;1;1;1;1;1;1;1;1;1;1;1;1;1;1;1;1;1;1;1;1;1;1;24;1;1;1;1;1;1;1;2;2;2;2;2;2;2;2;2;2;2;2;2;2;2;
  2;2;2;2;2;2;2;2;2;24;2;2;2;2;2;2;2;2;1;2;1;2;1;2;1;2;1;2;1;2;1;2;1;2;1;2;1;2;1;2;1;2;1;2;1;2;1;2;1;2;1;2;1;
  2;1;2;1;2;1;2;1;2;1;2;1;2;1;2;1;2;1;2;1;2;2;1;2;1;2;1;2;1;2;2;1;2;1;2;1;2;1;2;1;2;1;2;1;2;1;2;1;2;1;2;1;2;1;
  2;1;2;1;2;1;2;1;2;1;2;1;2;1;2;1;2;1;2;1;2;1;2;1;1;2;1;2;1;2;2;2;1;1;2;1;2;1;1;2;1;1;1;2;2;1;1;1;1;2;1;1;2;1;
  1;1;2;2;2;1;1;2;1;1;2;1;2;1;2;1;1;2;1;2;2;1;2;1;1;2;1;1;1;2;1;2;1;1;2;2;5;1;2;2;2;5;5;5;5;1;3;2;1;3;2;1;3;2;
  1;2;1;2;1;2;1;2;1;2;1;2;1;2;1;2;2;1;2;1;2;1;2;1;2;1;2;1;2;1;2;1;2;1;2;2;1;3;2;1;2;1;1;1;2;1;2;1;2;1;2;1;2;1;
  2;1;2;1;2;1;2;1;2;1;2;1;2;1;2;1;2].
Definition propsTrie_index_10 : list Z := [
  1;2;1;2;1;2;1;2;1;2;1;2;1;2;1;2;1;2;1;2;1;2;1;2;2;2;2;2;2;2;1;1;2;1;1;2;2;1;2;1;1;1;1;2;1;2;1;2;1;2;1;2;2;2;
  2;2;2;2;2;2;2;2;2;2;2;2;2;2;2;2;2;2;2;2;2;2;2;2;2;2;2;2;2;2;2;2;2;2;2;2;2;2;2;2;2;2;2;2;2;2;5;2;2;2;2;2;2;2;
  2;2;2;2;2;2;2;2;2;2;2;2;2;2;2;2;2;2;2;2;4;4;4;4;4;4;4;4;4;4;4;4;4;4;4;4;4;4;26;26;26;26;4;4;4;4;4;4;4;4;4;4;
  4;4;26;26;26;26;26;26;26;26;26;26;26;26;26;26;4;4;4;4;4;26;26;26;26;26;26;26;4;26;4;26;26;26;26;26;26;26;26;
  26;26;26;26;26;26;26;26;26;6;6;6;6;6;6;6;6;6;6;6;6;6;6;6;6;6;6;6;6;6;6;6;6;6;6;6;6;6;6;6;6;6;6;6;6;6;6;6;6;
  6;6;6;6;6;6;6;6;6;6;6;6;6;6;6;6;6;6;6;6;6;6;6;6;1;2;1;2;4;26;1;2;0;0;4;2;2;2;23;1;0;0;0;0;26;26;1;23;1;1;1;
  0;1;0;1;1;2;1;1;1;1;1;1;1;1;1;1;1;1;1;1;1;1;1;0;1;1;1;1;1;1;1;1;1;2;2;2;2;2;2;2;2;2;2;2;2;2;2;2;2;2;2;2;2;2;
  2;2;1;2;2;1;1;1;2;2;2;1;2;1;2;1;2;1;2;1;2;1;2;1;2;1;2;1;2;1;2;1;2;1;2;2;2;2;2;1;2;24;1;2;1;1;2;2;1;1;1;1;1;
  1;1;1;1;1;1;1;1;1;1;1;1;1;1;1;1;1;1;1;1;1;1;1;1;1;1;1;1;1;1;1;1;1;1;1;1;1;1;1;1;1;1;1;1;1;1;2;2;2;2;2;2;2;2;
  2;2;2;2;2;2;2;2;2;2;2;2;2;2;2;2;2;2;2;2;2;2;2;2;1;2;1;2;1;2;1;2;1;2;1;2;1;2;1;2;1;2;1;2;1;2;1;2;1;2;1;2].
Definition propsTrie_index_11 : list Z := [
  1;2;1;2;1;2;27;6;6;6;6;6;7;7;1;2;1;2;1;2;1;2;1;2;1;2;1;2;1;2;1;2;1;2;1;2;1;2;1;2;1;2;1;2;1;2;1;2;1;2;1;2;1;
  2;1;2;1;2;1;2;1;2;1;2;1;2;1;2;1;1;2;1;2;1;2;1;2;1;2;1;2;1;2;2;1;2;1;2;1;2;1;2;1;2;1;2;1;2;1;2;1;2;1;2;1;2;1;
  2;1;2;1;2;1;2;1;2;1;2;1;2;1;2;1;2;1;2;1;2;1;2;1;2;0;1;1;1;1;1;1;1;1;1;1;1;1;1;1;1;1;1;1;1;1;1;1;1;1;1;1;0;0;
  4;23;23;23;23;23;23;2;2;2;2;2;2;2;2;2;2;2;2;2;2;2;2;2;2;2;2;2;2;2;2;2;2;2;2;2;2;2;2;2;23;19;0;0;27;27;25;0;
  6;6;6;6;6;6;6;6;6;6;6;6;6;6;6;6;6;6;6;6;6;6;6;6;6;6;6;6;6;6;6;6;6;6;6;6;6;6;6;6;6;6;6;6;6;19;6;23;6;6;23;6;
  6;23;6;0;0;0;0;0;0;0;0;5;5;5;5;5;5;5;5;5;5;5;5;5;5;5;5;5;5;5;5;5;5;5;5;5;5;5;0;0;0;0;5;5;5;5;23;23;0;0;0;0;
  0;0;0;0;0;0;0;16;16;16;16;16;16;24;24;24;23;23;25;23;23;27;27;6;6;6;6;6;6;6;6;6;6;6;23;16;0;23;23;5;5;5;5;5;
  5;5;5;5;5;5;5;5;5;5;5;5;5;5;5;5;5;5;5;5;5;5;5;5;5;5;5;4;5;5;5;5;5;5;5;5;5;5;6;6;6;6;6;6;6;6;6;6;6;6;6;6;6;6;
  6;6;6;6;6;73;137;201;265;329;393;457;521;585;649;23;23;23;23;5;5;6;5;5;5;5;5;5;5;5;5;5;5;5;5;5;5;5;5;5;5;5;
  5;5;5;5;5;5;5;5;5;5;5;5;5;5;5;5;5;5;5;5;5;5;5;5;5;5;5;5;5;5;5;5;5;5;5;5;5;5;5;5;5;5;5;5;5;5;5;23;5;6;6;6;6;
  6;6;6;16;27;6].
Definition propsTrie_index_12 : list Z := [
  6;6;6;6;6;4;4;6;6;27;6;6;6;6;5;5;73;137;201;265;329;393;457;521;585;649;5;5;5;27;27;5;23;23;23;23;23;23;23;
  23;23;23;23;23;23;23;0;16;5;6;5;5;5;5;5;5;5;5;5;5;5;5;5;5;5;5;5;5;5;5;5;5;5;5;5;5;5;5;5;5;6;6;6;6;6;6;6;6;6;
  6;6;6;6;6;6;6;6;6;6;0;0;5;5;5;5;5;5;5;5;5;5;5;5;5;5;5;5;5;5;5;5;5;5;5;5;5;5;5;5;5;5;5;5;5;5;5;5;5;5;5;5;5;5;
  5;5;5;5;5;5;5;5;5;5;5;6;6;6;6;6;6;6;6;6;6;6;5;0;0;0;0;0;0;0;0;0;0;0;0;0;0;73;137;201;265;329;393;457;521;
  585;649;5;5;5;5;5;5;5;5;5;5;5;5;5;5;5;5;5;5;5;5;5;5;5;5;5;5;5;5;5;5;5;5;5;6;6;6;6;6;6;6;6;6;4;4;27;23;23;23;
  4;0;0;6;25;25;6;6;6;6;4;6;6;6;4;6;6;6;6;6;0;0;23;23;23;23;23;23;23;23;23;23;23;23;23;23;23;0;5;5;5;5;5;5;5;
  5;5;5;5;5;5;5;5;5;5;5;5;5;5;5;6;6;6;6;4;6;6;6;6;6;5;5;5;5;5;5;5;5;5;5;5;5;5;5;5;5;5;5;5;5;5;5;5;5;5;6;6;6;0;
  0;23;0;5;5;5;5;5;5;5;5;5;5;5;0;0;0;0;0;0;0;0;0;0;0;0;0;0;0;0;0;0;0;0;0;6;6;16;6;6;6;6;6;6;6;6;6;6;6;6;6;6;6;
  6;6;6;6;6;6;6;6;6;6;6;6;6;6;5;5;5;5;5;5;5;5;5;5;5;5;5;5;5;5;5;5;5;5;5;0;5;5;5;5;5;5;5;5;5;5;0;0;0;0;0;0;0;0;
  0;0;0;6;6;6;6;6;6;6;6;6;6;6;6;6;5;5;6;6;23;23;73;137;201;265;329;393;457;521;585;649;23;4;5;5;5;5;5;5;5;5;5;
  5;5;5;5;5;6;6;6;8;5;5;5;5;5;5;5;5;5;5;5;5;5;5;5;5].
Definition propsTrie_index_13 : list Z := [
  5;5;5;5;5;5;5;5;5;5;5;5;5;5;6;8;6;5;8;8;8;6;6;6;6;6;6;6;6;8;8;8;8;6;8;8;5;6;6;6;6;6;6;6;5;5;5;5;5;5;5;5;5;5;
  6;6;0;0;73;137;201;265;329;393;457;521;585;649;5;5;25;25;14283;13771;16331;13515;15563;2379;27;25;5;23;6;0;
  5;6;8;8;0;5;5;5;5;5;5;5;5;0;0;5;5;0;0;5;5;5;5;5;5;5;5;5;5;5;5;5;5;0;5;5;5;5;5;5;5;0;5;0;0;0;5;5;5;5;0;0;6;5;
  8;8;8;6;6;6;6;0;0;8;8;0;0;8;8;6;5;0;0;0;0;0;0;0;0;8;0;0;0;0;5;5;0;5;0;0;0;0;0;0;73;137;201;265;329;393;457;
  521;585;649;6;6;5;5;5;6;23;0;0;0;0;0;0;0;0;0;0;6;6;8;0;5;5;5;5;5;5;0;0;0;0;5;5;0;0;5;5;5;5;5;5;5;5;5;5;5;5;
  5;5;0;5;5;5;5;5;5;5;0;5;5;0;5;5;0;5;5;0;0;6;0;8;8;8;6;6;0;0;0;0;6;6;0;0;6;6;6;0;0;0;6;0;0;0;0;0;0;0;5;5;5;5;
  0;5;0;5;5;6;6;0;0;73;137;201;265;329;393;457;521;585;649;23;25;0;0;0;0;0;0;0;5;6;6;6;6;6;6;0;6;6;8;0;5;5;5;
  5;5;5;5;5;5;0;5;5;5;0;5;5;5;5;5;5;5;5;5;5;5;5;5;5;0;5;5;5;5;5;5;5;0;5;5;0;5;5;5;5;5;0;0;6;5;8;8;8;6;6;6;6;6;
  0;6;6;8;0;8;8;6;0;0;5;0;0;0;0;0;0;0;0;0;0;0;0;0;0;0;5;5;6;6;0;0;73;137;201;265;329;393;457;521;585;649;27;5;
  13515;13387;15563;14283;13771;16331;0;0;0;0;0;0;0;0;0;6;8;8;0;5;5;5;5;5;5;5;5;0;0;5;5;0;0;5;5;5;5;5;5;5;5;5;
  5;5;5;5;5;0;5;5;5;5;5;5;5;0;5;5;0;5;5;5;5;5;0;0;6;5;8;6;8;6;6;6;6;0;0;8;8;0;0;8].
Definition propsTrie_index_14 : list Z := [
  8;6;0;0;0;0;0;0;0;6;6;8;0;0;0;0;5;5;0;5;0;0;0;0;0;0;73;137;201;265;329;393;457;521;585;649;1995;7755;30795;
  27;27;27;27;27;27;25;27;0;0;0;0;0;0;0;6;5;0;5;5;5;5;5;5;0;0;0;5;5;5;0;5;5;5;5;0;0;0;5;5;0;5;0;5;5;0;0;0;5;5;
  0;0;0;5;5;5;0;0;0;5;5;5;5;5;5;5;5;5;5;5;5;0;0;0;0;8;8;6;8;8;0;0;0;8;8;8;0;8;8;8;6;0;0;5;0;0;0;0;0;0;8;0;0;0;
  0;0;0;0;0;5;5;6;6;0;0;73;137;201;265;329;393;457;521;585;649;0;0;0;0;0;0;0;23;1355;1419;1483;1547;1419;1483;
  1547;27;6;8;8;8;6;5;5;5;5;5;5;5;5;0;5;5;5;0;5;5;5;5;5;5;5;5;5;5;5;5;5;5;5;0;5;5;5;5;5;5;5;5;5;5;5;5;5;5;5;5;
  0;0;0;5;6;6;6;8;8;8;8;0;6;6;6;0;6;6;6;6;0;0;0;0;0;0;0;6;6;0;5;5;5;0;0;0;0;0;5;5;6;6;0;0;73;137;201;265;329;
  393;457;521;585;649;0;5;5;0;0;0;0;0;0;0;0;0;0;0;0;0;5;6;8;8;23;5;5;5;5;5;5;5;5;0;5;5;5;0;5;5;5;5;5;5;5;5;5;
  5;5;5;5;5;5;0;5;5;5;5;5;5;5;5;5;5;0;5;5;5;5;5;0;0;6;5;8;6;8;8;8;8;8;0;6;8;8;0;8;8;6;6;0;0;0;0;0;0;0;8;8;0;0;
  0;0;0;0;0;5;0;5;5;6;6;0;0;73;137;201;265;329;393;457;521;585;649;1995;7755;30795;13515;13387;15563;14283;
  13771;16331;27;5;5;5;5;5;5;6;6;8;8;5;5;5;5;5;5;5;5;5;0;5;5;5;0;5;5;5;5;5;5;5;5;5;5;5;5;5;5;5;5;5;5;5;5;5;5;
  5;5;5;5;5;5;5;6;6;5;8;8;8;6;6;6;6;0;8;8;8;0;8;8;8;6;5;27;0;0;0;0;5;5;5;8;52235;51723;52043;51467;13899;
  51531;13579;5;0;0;0;0;0;0;73;137].
Definition propsTrie_index_15 : list Z := [
  201;265;329;393;457;521;585;649;0;0;8;8;23;0;0;0;0;0;0;0;0;0;0;0;0;6;8;8;0;5;5;5;5;5;5;5;5;5;5;5;5;5;5;5;5;
  5;5;0;0;0;5;5;5;5;5;5;5;5;5;5;5;5;5;5;5;5;5;5;5;5;0;5;5;5;5;5;5;5;5;5;0;5;0;0;5;5;5;5;5;5;5;0;0;0;6;0;0;0;0;
  8;8;8;6;6;6;0;6;0;8;8;8;8;8;8;8;8;5;5;5;5;5;5;5;5;5;5;5;5;5;5;5;5;5;6;5;5;6;6;6;6;6;6;6;0;0;0;0;25;5;5;5;5;
  5;5;4;6;6;6;6;6;6;6;6;23;73;137;201;265;329;393;457;521;585;649;23;23;0;0;0;0;0;5;5;0;5;0;5;5;5;5;5;0;5;5;5;
  5;5;5;5;5;5;5;5;5;5;5;5;5;5;5;5;5;0;5;0;5;5;5;5;5;5;5;5;5;5;6;5;5;6;6;6;6;6;6;6;6;6;5;0;0;5;5;5;5;5;0;4;0;6;
  6;6;6;6;6;0;0;73;137;201;265;329;393;457;521;585;649;0;0;5;5;5;5;5;27;27;27;23;23;23;23;23;23;23;23;23;23;
  23;23;23;23;23;27;23;27;27;27;6;6;27;27;27;27;27;27;73;137;201;265;329;393;457;521;585;649;13387;15435;
  17483;19531;21579;23627;25675;27723;29771;11339;27;6;27;6;27;6;20;21;20;21;8;8;5;5;5;5;5;5;5;5;0;5;5;5;5;5;
  5;5;5;5;5;5;5;5;5;5;5;5;5;5;5;5;5;5;5;0;0;0;0;6;6;6;6;6;6;6;6;6;6;6;6;6;6;8;6;6;6;6;6;23;6;6;5;5;5;5;5;6;6;
  6;6;6;6;6;6;6;6;6;0;6;6;6;6;6;6;6;6;6;6;6;6;6;6;6;6;6;6;6;6;6;6;6;6;6;6;6;6;6;6;6;6;0;27;27;27;27;27;27;27;
  27;6;27;27;27;27;27;27;0;27;27;23;23;23;23;23;27;27;27;27;23;23;0;0;0;0;0;5;5;5;5;5;5;5;5;5;5;5;8;8;6;6;6;6;
  8;6;6;6;6;6;6;8;6;6;8;8;6;6;5].
Definition propsTrie_index_16 : list Z := [
  73;137;201;265;329;393;457;521;585;649;23;23;23;23;23;23;5;5;5;5;5;5;8;8;6;6;5;5;5;5;6;6;6;5;8;8;8;5;5;8;8;
  8;8;8;8;8;5;5;5;6;6;6;6;5;5;5;5;5;5;5;5;5;5;5;5;5;6;8;8;6;6;8;8;8;8;8;8;6;5;8;73;137;201;265;329;393;457;
  521;585;649;8;8;8;6;27;27;2;2;2;2;2;2;2;2;2;2;2;2;2;2;2;2;2;2;2;2;2;2;2;2;2;2;2;23;4;2;2;2;1;1;1;1;1;1;0;1;
  0;0;0;0;0;1;0;0;2;2;2;2;2;2;2;2;2;2;2;2;2;2;2;2;5;5;5;5;5;5;5;5;5;0;5;5;5;5;0;0;5;5;5;5;5;5;5;0;5;0;5;5;5;5;
  0;0;5;5;5;5;5;5;5;5;5;0;5;5;5;5;0;0;5;5;5;5;5;5;5;5;5;5;5;5;5;5;5;5;5;0;5;5;5;5;0;0;5;5;5;5;5;5;5;0;5;0;5;5;
  5;5;0;0;5;5;5;5;5;5;5;5;5;5;5;5;5;5;5;0;5;5;5;5;5;5;5;5;5;5;5;5;5;5;5;5;5;0;5;5;5;5;0;0;5;5;5;5;5;5;5;5;5;5;
  5;5;5;5;5;5;5;5;5;5;5;5;5;5;5;5;5;0;0;6;6;6;23;23;23;23;23;23;23;23;23;779;843;907;971;1035;1099;1163;1227;
  1291;1995;2635;3275;3915;4555;5195;5835;6475;7115;7755;30859;0;0;0;5;5;5;5;5;5;5;5;5;5;5;5;5;5;5;5;27;27;27;
  27;27;27;27;27;27;27;0;0;0;0;0;0;1;1;1;1;1;1;1;1;1;1;1;1;1;1;1;1;1;1;1;1;1;1;0;0;2;2;2;2;2;2;0;0;19;5;5;5;5;
  5;5;5;5;5;5;5;5;5;5;5;5;5;5;5;5;5;5;5;5;5;5;5;5;5;5;5;5;27;23;5;5;5;5;5;5;5;5;5;5;5;5;5;5;5;5;5;12;5;5;5;5;
  5;5;5;5;5;5;5;5;5;5;5;5;5;5;5;5;5;5;5;5;5;5;20;21;0;0;0;5;5;5;5;5;5;5;5;5;5;5;23].
Definition propsTrie_index_17 : list Z := [
  23;23;2442;2506;2570;5;5;5;5;5;5;5;5;0;0;0;0;0;0;0;5;5;5;5;5;5;5;5;5;5;5;5;5;0;5;5;5;5;6;6;6;0;0;0;0;0;0;0;
  0;0;0;0;5;5;5;5;5;5;5;5;5;5;5;5;5;5;5;5;5;5;6;6;6;23;23;0;0;0;0;0;0;0;0;0;5;5;5;5;5;5;5;5;5;5;5;5;5;5;5;5;5;
  5;6;6;0;0;0;0;0;0;0;0;0;0;0;0;5;5;5;5;5;5;5;5;5;5;5;5;5;0;5;5;5;0;6;6;0;0;0;0;0;0;0;0;0;0;0;0;5;5;5;5;5;5;5;
  5;5;5;5;5;5;5;5;5;5;5;5;5;6;6;8;6;6;6;6;6;6;6;8;8;8;8;8;8;8;8;6;8;8;6;6;6;6;6;6;6;6;6;6;6;23;23;23;4;23;23;
  23;25;5;6;0;0;73;137;201;265;329;393;457;521;585;649;0;0;0;0;0;0;1355;1419;1483;1547;1611;1675;1739;1803;
  1867;1931;0;0;0;0;0;0;5;5;5;5;5;5;5;5;5;6;5;0;0;0;0;0;5;5;5;5;5;5;5;5;5;5;5;5;5;5;5;5;23;23;23;23;23;23;19;
  23;23;23;23;6;6;6;16;0;73;137;201;265;329;393;457;521;585;649;0;0;0;0;0;0;5;5;5;4;5;5;5;5;5;5;5;5;5;5;5;5;5;
  5;5;5;5;5;5;5;5;5;5;5;5;5;5;5;5;0;0;0;0;0;0;0;5;5;5;5;5;6;6;5;5;5;5;5;5;5;5;5;5;5;5;5;5;5;5;5;5;5;5;5;5;5;5;
  5;5;5;0;0;0;0;0;0;0;0;0;0;6;6;6;8;8;8;8;6;6;8;8;8;0;0;0;0;8;8;6;8;8;8;8;8;8;6;6;6;0;0;0;0;27;0;0;0;23;23;73;
  137;201;265;329;393;457;521;585;649;5;5;5;5;5;5;5;5;5;5;5;5;5;5;5;5;5;5;5;5;5;5;5;5;5;5;5;5;5;5;5;0;5;5;5;5;
  5;5;5;5;5;5;5;5;5;5;0;0;5;5;5;5;5;0;0;0;0;0;0;0;0;0;0;0;5;5;5;5;5;5;5;5].
Definition propsTrie_index_18 : list Z := [
  5;5;5;5;0;0;0;0;5;5;5;5;5;5;5;5;5;5;5;5;5;5;5;5;5;5;0;0;0;0;0;0;73;137;201;265;329;393;457;521;585;649;779;
  0;0;0;27;27;27;27;27;27;27;27;27;27;27;27;27;27;27;27;27;27;27;27;27;27;27;27;27;27;27;27;27;27;27;27;27;27;
  5;5;5;5;5;5;5;5;5;5;5;5;5;5;5;5;5;5;5;5;5;5;5;6;6;8;8;6;0;0;23;23;23;23;23;23;23;23;23;4;23;23;23;23;23;23;
  0;0;6;6;6;6;6;6;6;6;6;6;6;6;6;6;7;6;5;5;5;5;5;5;5;5;5;5;5;5;5;5;5;5;5;5;5;5;5;8;6;8;6;6;6;6;6;6;6;0;6;8;6;8;
  8;6;6;6;6;6;6;6;6;8;8;8;8;8;8;6;6;6;6;6;6;6;6;6;6;0;0;6;73;137;201;265;329;393;457;521;585;649;0;0;0;0;0;0;
  73;137;201;265;329;393;457;521;585;649;0;0;0;0;0;0;23;27;27;27;27;27;27;27;27;27;27;6;6;6;6;6;6;6;6;6;27;27;
  27;27;27;27;27;27;27;0;0;0;6;0;0;0;0;0;0;0;0;0;0;0;0;0;0;0;0;0;0;0;0;0;0;0;0;0;0;0;0;0;0;0;6;6;6;6;8;5;5;5;
  5;5;5;5;5;5;5;5;5;5;5;5;5;5;5;5;5;5;5;5;5;5;5;5;6;8;6;6;6;6;6;8;6;8;8;8;8;8;6;8;8;5;5;5;5;5;5;5;0;0;0;0;73;
  137;201;265;329;393;457;521;585;649;23;23;23;23;23;23;5;8;6;6;6;6;8;8;6;6;8;6;6;6;5;5;73;137;201;265;329;
  393;457;521;585;649;5;5;5;5;5;5;6;6;8;5;5;5;5;5;5;5;5;5;5;5;5;5;5;5;5;5;5;5;5;5;5;5;5;5;5;5;5;5;5;5;6;8;6;6;
  8;8;8;6;8;6;6;6;8;8;0;0;0;0;0;0;0;0;23;23;23;23;73;137;201;265;329;393;457;521;585;649;0;0;0;5;5;5;73;137;
  201;265;329;393;457;521;585;649;5;5;5;5;5;5;8;8;8;8;8;8;8;8].
Definition propsTrie_index_19 : list Z := [
  6;6;6;6;6;6;6;6;8;8;6;6;0;0;0;23;23;23;23;23;5;5;5;5;5;5;5;5;5;5;5;5;5;5;5;5;5;5;5;5;5;5;5;5;4;4;4;4;4;4;23;
  23;2;2;2;2;2;2;2;2;2;0;0;0;0;0;0;0;1;1;1;1;1;1;1;1;1;1;1;1;1;1;1;1;1;1;1;1;1;1;1;1;1;1;1;0;0;1;1;1;23;23;23;
  23;23;23;23;23;0;0;0;0;0;0;0;0;6;6;6;23;6;6;6;6;6;6;6;6;6;6;6;6;6;8;6;6;6;6;6;6;6;5;5;5;5;6;5;5;5;5;5;5;6;5;
  5;8;6;6;5;0;0;0;0;0;2;2;2;2;2;2;2;2;2;2;2;2;4;4;4;4;4;4;4;4;4;4;4;4;4;4;4;4;4;4;4;4;4;4;4;4;4;4;4;4;4;4;4;4;
  4;4;4;2;2;2;2;2;2;2;2;2;2;2;2;2;4;2;2;2;2;2;2;2;2;2;2;2;2;2;2;2;2;2;2;2;2;2;2;2;2;2;2;2;2;2;2;4;4;4;4;4;6;6;
  6;6;6;6;6;6;6;6;6;6;6;6;6;6;6;6;6;6;6;6;6;6;6;6;0;6;6;6;6;6;1;2;1;2;1;2;1;2;1;2;1;2;1;2;1;2;1;2;1;2;1;2;2;2;
  2;2;2;2;2;2;1;2;2;2;2;2;2;2;2;2;1;1;1;1;1;26;26;26;0;0;2;2;2;0;2;2;1;1;1;1;3;26;26;0;2;2;2;2;2;2;2;2;1;1;1;
  1;1;1;1;1;2;2;2;2;2;2;0;0;1;1;1;1;1;1;0;0;2;2;2;2;2;2;2;2;1;1;1;1;1;1;1;1;2;2;2;2;2;2;2;2;1;1;1;1;1;1;1;1;2;
  2;2;2;2;2;0;0;1;1;1;1;1;1;0;0;2;2;2;2;2;2;2;2;0;1;0;1;0;1;0;1;2;2;2;2;2;2;2;2;1;1;1;1;1;1;1;1;2;2;2;2;2;2;2;
  2;2;2;2;2;2;2;0;0;2;2;2;2;2;2;2;2;3;3;3;3;3;3;3;3;2;2;2;2;2;2;2;2;3;3;3;3].
Definition propsTrie_index_20 : list Z := [
  3;3;3;3;2;2;2;2;2;0;2;2;1;1;1;1;3;26;2;26;26;26;2;2;2;0;2;2;1;1;1;1;3;26;26;26;2;2;2;2;0;0;2;2;1;1;1;1;0;26;
  26;26;22;23;23;23;24;20;21;23;23;23;23;23;23;23;23;23;23;23;24;23;22;23;23;23;23;23;23;23;23;23;23;12;16;16;
  16;16;16;0;16;16;16;16;16;16;16;16;16;16;715;4;0;0;971;1035;1099;1163;1227;1291;24;24;24;20;21;4;12;12;12;
  12;12;12;12;12;12;12;12;16;16;16;16;16;19;19;19;19;19;19;23;23;28;29;20;28;28;29;20;28;23;23;23;23;23;23;23;
  23;13;14;16;16;16;16;16;12;23;23;23;23;23;23;23;23;23;28;29;23;23;23;23;22;715;779;843;907;971;1035;1099;
  1163;1227;1291;24;24;24;20;21;0;4;4;4;4;4;4;4;4;4;4;4;4;4;0;0;0;25;25;25;25;25;25;25;25;25;25;25;25;25;25;
  25;25;25;25;25;25;25;25;25;25;25;25;25;25;25;25;25;25;0;0;0;0;0;0;0;0;0;0;0;0;0;0;0;0;6;6;6;6;6;6;6;6;6;6;6;
  6;6;7;7;7;7;6;7;7;7;6;6;6;6;6;6;6;6;6;6;6;6;0;0;0;0;0;0;0;0;0;0;0;0;0;0;0;27;27;27;27;1;27;1;27;1;27;1;1;1;
  1;27;2;1;1;1;1;2;5;5;5;5;2;27;27;2;2;1;1;24;24;24;24;24;1;2;2;2;2;27;24;27;27;2;27;13707;13835;13899;13451;
  14475;13579;14603;15627;16651;13643;17739;13771;15819;17867;19915;1419;27;27;1;27;27;27;27;1;27;27;2;1;1;1;
  2;2;1;1;1;2;27;1;27;27;24;1;1;1;1;1;27;27;1418;1482;1546;1610;1674;1738;1802;1866;1930;1994;2058;2122;4554;
  7754;38922;30794;1418;1482;1546;1610;1674;1738;1802;1866;1930;1994;2058;2122;4554;7754;38922;30794;30794;
  38986;30858;1;2;1738;4554;39050;30922;1355;27;27;0;0;0;0;24;24;24;24;24;27;27;27;27;27;24;24;27;27;27;27;27;
  27;27;27;27;27;27;27;27;27;27;27;27;27;27;27;24;24;24;24;24;24;24;24;24;24;24;24;24;27;27;24;27;27;24;27;27;
  27;27;27;27;27;24;27].
Definition propsTrie_index_21 : list Z := [
  27;27;27;27;27;27;27;27;27;27;27;27;27;27;27;27;27;27;24;24;27;27;24;27;24;27;27;27;27;27;27;27;27;27;27;27;
  24;24;24;24;24;24;24;24;24;24;24;24;24;24;24;24;24;24;24;24;24;24;24;24;24;24;24;24;24;24;24;24;27;27;27;27;
  27;27;27;27;20;21;20;21;27;27;27;27;27;27;27;27;27;27;27;27;27;27;27;27;27;27;27;27;24;24;27;27;27;27;27;27;
  27;20;21;27;27;27;27;27;27;27;27;27;27;27;27;27;27;27;27;27;27;27;27;27;27;27;27;27;27;27;27;27;24;27;27;27;
  27;27;27;27;27;27;27;27;27;27;27;27;27;27;27;27;27;27;27;27;27;27;27;27;27;27;27;24;24;24;24;24;24;24;24;24;
  24;24;24;24;24;24;24;24;24;24;24;24;27;27;27;27;27;27;27;27;27;27;27;27;27;27;27;27;27;27;27;27;27;27;27;27;
  27;27;27;27;24;24;24;24;24;24;27;27;27;27;27;27;27;27;27;27;27;27;27;27;27;27;27;27;27;27;27;27;27;27;27;27;
  27;27;27;27;27;27;27;0;0;0;0;0;0;0;0;0;0;0;0;0;0;0;0;0;0;0;0;0;0;0;0;0;27;27;27;27;27;27;27;27;27;27;715;
  2059;2123;2187;2251;2315;2379;2443;2507;2571;2635;779;843;907;971;1035;1099;1163;1227;1291;1995;715;779;843;
  907;971;1035;1099;1163;1227;1291;1995;2059;2123;2187;2251;2315;2379;2443;2507;2571;2635;779;843;907;971;
  1035;1099;1163;1227;1291;1995;2059;2123;2187;2251;2315;2379;2443;2507;2571;2635;27;27;27;27;27;27;27;27;27;
  27;27;27;27;27;27;27;27;27;27;27;27;27;27;27;24;24;24;24;24;24;24;24;27;27;27;27;27;27;27;27;27;27;27;27;27;
  27;27;27;27;27;27;27;27;27;27;24;27;27;27;27;27;27;27;27;27;24;27;27;27;27;27;27;27;27;27;27;27;27;27;27;27;
  27;27;27;27;27;27;27;27;27;27;27;27;27;27;27;27;27;27;24;27;27;27;27;27;27;27;27;27;27;27;27;27;27;27;27;20;
  21;20;21;20;21;20;21;20;21;20;21;20;21;779;843;907;971;1035;1099;1163;1227;1291;1995;779;843;907;971;1035;
  1099;1163;1227;1291;1995;779;843;907;971;1035;1099].
Definition propsTrie_index_22 : list Z := [
  1163;1227;1291;1995;27;27;27;27;27;27;27;27;27;27;27;27;24;24;24;24;24;20;21;24;24;24;24;24;24;24;24;24;24;
  24;24;24;24;24;24;24;24;24;24;24;24;24;24;24;24;24;20;21;20;21;20;21;20;21;20;21;24;24;24;24;24;24;24;24;24;
  24;24;24;24;24;24;24;24;24;24;20;21;20;21;20;21;20;21;20;21;20;21;20;21;20;21;20;21;20;21;20;21;24;24;24;24;
  24;24;24;24;24;24;24;24;24;24;24;24;24;24;24;24;24;24;24;24;24;24;24;20;21;20;21;24;24;24;24;24;24;24;24;24;
  24;24;24;24;24;24;24;24;24;24;24;24;24;24;24;24;24;24;24;20;21;24;24;27;27;27;27;27;27;27;27;27;27;27;27;27;
  27;27;27;24;24;24;24;24;24;24;24;24;24;24;24;24;24;24;24;24;27;27;24;24;24;24;24;24;27;27;27;27;27;27;27;27;
  27;27;27;27;27;27;27;27;27;27;27;27;27;27;27;0;0;27;27;27;27;27;27;27;27;27;27;27;27;27;27;27;27;27;27;27;
  27;27;27;27;27;0;27;27;27;27;27;27;27;27;27;2;2;2;2;2;2;2;2;2;2;2;2;2;2;2;2;2;2;2;2;2;2;2;2;2;2;2;2;2;2;2;0;
  1;1;1;1;1;1;1;1;1;1;1;1;1;1;1;0;2;2;2;2;2;2;2;2;2;2;2;2;2;2;2;2;1;2;1;1;1;2;2;1;2;1;2;1;2;1;1;1;1;2;1;2;2;1;
  2;2;2;2;2;2;4;4;1;1;1;2;1;2;2;27;27;27;27;27;27;1;2;1;2;6;6;6;1;2;0;0;0;0;0;23;23;23;23;13387;23;23;2;2;2;2;
  2;2;0;2;0;0;0;0;0;2;0;0;5;5;5;5;5;5;5;5;5;5;5;5;5;5;5;5;0;0;0;0;0;0;0;4;23;0;0;0;0;0;0;0;0;0;0;0;0;0;0;6;5;
  5;5;5;5;5;5;0;5;5;5;5;5;5;5;0;5;5;5;5;5;5;5;0;5;5;5;5;5;5;5;0;5;5;5;5;5;5;5;5;5;5;5;5;5;5;5;5;5;5;5;5;5;5;5;
  0;0;0;0;0;0;0;0;0].
Definition propsTrie_index_23 : list Z := [
  23;23;28;29;28;29;23;23;23;28;29;23;28;29;23;23;23;23;23;23;23;23;23;19;23;23;19;23;28;29;23;23;28;29;20;21;
  20;21;20;21;20;21;23;23;23;23;23;4;23;23;23;23;23;23;23;23;23;23;19;19;23;23;23;23;19;23;20;23;23;23;23;23;
  23;23;23;23;23;23;23;23;27;27;23;0;0;0;0;0;0;0;0;0;0;0;0;0;27;27;27;27;27;27;27;27;27;27;27;27;27;27;27;27;
  27;27;27;27;27;27;27;27;27;27;0;27;27;27;27;27;27;27;27;27;27;27;27;27;27;27;27;27;27;27;27;27;0;0;0;0;0;0;
  0;0;0;0;0;0;27;27;27;27;27;27;27;27;27;27;27;27;27;27;27;27;27;27;27;27;27;27;0;0;0;0;0;0;0;0;0;0;0;0;0;0;0;
  0;0;0;27;27;27;27;27;27;27;27;27;27;27;27;0;0;0;0;27;1418;1482;1546;1610;1674;1738;1802;1866;1930;6;6;6;6;8;
  8;19;4;4;4;4;4;27;27;1994;2634;3274;4;5;23;27;27;12;23;23;23;27;4;5;1354;20;21;20;21;20;21;20;21;20;21;27;
  27;20;21;20;21;20;21;20;21;19;20;21;21;5;5;5;5;5;5;5;5;5;5;5;5;5;5;5;5;5;5;5;5;5;5;5;0;0;6;6;26;26;4;4;5;5;
  5;5;5;5;5;5;5;5;5;5;5;5;5;5;5;5;5;5;5;5;5;5;5;5;5;5;23;4;4;4;5;0;0;0;0;0;5;5;5;5;5;5;5;5;5;5;5;5;5;5;5;5;5;
  5;5;5;5;5;5;5;5;5;5;0;5;5;5;5;5;5;5;5;5;5;5;5;5;5;5;5;5;5;0;27;27;1419;1483;1547;1611;27;27;27;27;27;27;27;
  27;27;27;0;0;0;0;0;0;0;0;0;0;0;0;5;5;5;5;5;5;5;5;5;5;5;5;5;5;5;5;1419;1483;1547;1611;1675;1739;1803;1867;
  1931;1995;27;27;27;27;27;27;27;27;27;27;27;27;27;27;27;27;27;27;27;27;27;27;1995;2635;3275;3915;4555;5195;
  5835;6475;27;2699;2763;2827;2891;2955;3019;3083;3147;3211;3275;3339;3403;3467;3531;3595;27;27;27;27;27;27;
  27;27;27;27;27;27;27;27;27;27;27;3659;3723;3787].
Definition propsTrie_index_24 : list Z := [
  3851;3915;3979;4043;4107;4171;4235;4299;4363;4427;4491;4555;5;5;5;5;5;1669;5;5;5;5;5;5;5;5;5;5;5;5;5;5;5;5;
  5;5;5;5;5;5;5;5;5;5;5;5;5;1477;5;5;5;5;5;5;5;5;5;5;5;5;5;5;5;5;5;5;5;5;5;5;5;5;5;5;5;5;5;5;1669;5;5;5;5;5;5;
  5;5;5;5;5;5;5;5;5;5;5;5;5;5;5;5;1797;5;5;5;5;5;5;5;5;5;5;5;5;5;5;5;5;5;5;1413;5;5;1797;5;5;5;30853;5;1541;5;
  5;5;5;5;5;5;5;5;5;5;5;5;5;5;5;5;5;5;5;5;5;5;5;5;5;5;5;5;5;5;1925;5;5;5;5;5;5;5;5;5;5;5;5;5;5;1477;5;5;5;5;5;
  5;5;1669;5;1605;5;5;5;5;5;5;5;5;5;5;5;5;5;5;5;5;5;5;5;5;5;5;5;5;5;5;5;5;5;5;5;5;31109;1989;5;5;5;5;5;5;5;5;
  5;5;5;5;5;5;5;5;5;5;5;5;5;5;5;5;5;5;5;5;5;5;30789;5;5;5;5;5;5;5;5;1541;5;5;5;5;5;5;5;5;5;5;5;5;5;5;5;5;5;5;
  5;5;5;5;5;5;1669;5;5;5;5;5;5;5;5;5;5;5;5;5;5;5;5;5;5;7749;5;5;5;5;5;5;5;5;5;5;5;5;5;5;5;31109;5;5;5;5;5;5;5;
  5;5;5;5;5;5;5;5;5;5;5;5;5;5;5;5;5;5;5;5;5;5;31365;5;5;5;5;5;5;5;5;5;5;5;5;5;5;5;5;5;5;5;5;5;5;5;5;5;5;1477;
  5;1861;5;1733;5;5;5;5;5;5;5;5;5;5;5;5;5;5;5;5;5;5;5;1989;5;30789;2629;3269;5;5;5;5;5;5;3909;5;5;5;5;5;5;5;5;
  5;5;5;5;5;5;5;5;5;5;5;5;1541;1541;1541;1541;5;5;5;5;5;5;5;5;5;5;5;5;5;5;5;5;5;5;5;5;5;5;5;5;5;5;5;5;5;5;
  1605;5;5;5;5;5;5;5;5;5;5;5;5;5;5;5;5;5;1413;5;5;5;5;5;5;5;1413;5;5;5;5;5;5;5;5;5;5;5;5;5;5;5;5;5;5].
Definition propsTrie_index_25 : list Z := [
  5;5;5;5;5;5;5;5;5;5;1413;5;5;5;5;5;5;5;5;5;5;5;5;5;5;5;5;5;5;5;5;5;5;5;5;5;5;5;5;5;5;5;1925;2629;5;5;5;5;5;
  5;5;5;5;5;5;5;1413;1477;1541;5;1477;5;5;5;5;5;5;5;5;5;5;5;5;5;5;5;5;5;5;5;5;5;5;5;5;5;5;5;5;5;5;5;5;5;1989;
  5;5;5;5;5;5;5;5;5;5;5;5;5;1861;5;5;5;5;5;5;5;5;5;5;5;5;5;5;5;5;5;5;5;5;5;1797;5;5;5;5;5;5;5;5;5;5;5;5;5;5;5;
  5;5;5;5;5;5;5;5;5;5;5;5;1925;5;5;5;5;5;5;5;5;5;5;5;5;5;5;5;5;5;5;5;5;5;5;5;5;5;5;5;5;5;5;5;7749;5;5;5;5;5;5;
  5;1605;5;5;5;5;5;5;5;5;5;5;5;5;5;5;5;5;5;5;5;5;5;5;5;5;5;30853;5;5;5;5;5;5;5;5;5;5;5;5;5;5;5;5;5;5;5;5;5;
  1477;5;5;5;5;1477;5;5;5;5;5;5;5;5;5;5;5;5;5;5;5;5;1477;5;5;5;5;5;5;5;5;5;5;5;5;5;5;5;5;30789;5;5;5;5;5;5;5;
  5;5;5;5;5;5;5;5;5;5;5;5;5;5;5;5;5;5;5;5;5;5;5;5;5;1733;5;5;5;5;5;7749;5;5;5;5;5;5;5;5;5;5;5;5;5;5;5;5;5;5;5;
  5;5;5;5;5;5;5;5;1733;5;5;5;5;5;5;5;5;5;5;5;5;5;5;5;5;5;5;5;5;5;5;5;5;5;1349;5;5;5;5;5;5;5;5;5;5;5;5;5;5;0;0;
  0;27;27;27;27;27;27;27;27;27;27;27;27;27;27;27;27;5;5;5;5;5;5;5;5;5;5;5;5;5;5;5;5;5;5;5;5;5;4;5;5;5;5;5;5;5;
  5;5;5;27;27;27;27;27;27;27;0;0;0;0;0;0;0;0;0;5;5;5;5;5;5;5;5;5;5;5;5;5;5;5;5;4;23;23;23;5;5;5;5;5;5;5;5;5;5;
  5;5;5;5;5;5;73;137;201;265;329;393;457;521;585;649;5;5;0;0;0;0].
Definition propsTrie_index_26 : list Z := [
  0;0;0;0;0;0;0;0;0;0;0;0;0;0;0;0;1;2;1;2;1;2;1;2;1;2;1;2;1;2;1;2;1;2;1;2;1;2;1;2;1;2;1;2;4;4;6;6;1;2;1;2;1;2;
  1;2;1;2;1;2;1;2;5;6;7;7;7;23;6;6;6;6;6;6;6;6;6;6;23;4;5;5;5;5;5;5;1418;1482;1546;1610;1674;1738;1802;1866;
  1930;1354;6;6;23;23;23;23;23;23;0;0;0;0;0;0;0;0;26;26;26;26;26;26;26;26;26;26;26;26;26;26;26;26;26;26;26;26;
  26;26;26;4;4;4;4;4;4;4;4;4;0;0;0;0;0;0;0;0;0;0;0;0;0;0;0;0;0;0;0;0;0;1;2;5;4;4;2;5;5;5;5;5;26;26;1;2;1;2;1;
  2;1;2;1;2;1;2;1;2;2;2;1;2;1;2;1;2;1;2;1;2;1;2;1;2;1;2;1;2;4;2;2;2;2;2;2;2;2;1;2;1;2;1;1;2;1;2;1;2;1;2;1;2;4;
  26;26;1;2;1;2;5;1;2;1;2;2;2;1;2;1;2;1;2;1;2;1;2;1;2;1;1;1;1;1;2;1;1;1;1;1;2;1;2;1;2;1;2;1;2;1;2;0;0;1;2;1;1;
  1;1;2;1;2;0;0;0;0;0;0;0;0;0;0;0;0;0;0;0;0;0;0;0;0;0;5;5;6;5;5;5;6;5;5;5;5;6;5;5;5;5;5;5;5;5;5;5;5;5;5;5;5;5;
  5;5;5;5;5;5;5;8;8;6;6;8;27;27;27;27;6;0;0;0;13515;13387;15563;14283;13771;16331;27;27;25;27;0;0;0;0;0;0;5;5;
  5;5;5;5;5;5;5;5;5;5;5;5;5;5;5;5;5;5;23;23;23;23;0;0;0;0;0;0;0;0;8;8;8;8;6;6;0;0;0;0;0;0;0;0;23;23;73;137;
  201;265;329;393;457;521;585;649;0;0;0;0;0;0;8;8;5;5;5;5;5;5;5;5;5;5;5;5;5;5;5;5;5;5;5;5;5;5;5;5;5;5;5;5;5;5;
  8;8;8;8;8;8;8;8;8;8;8;8;6;6;6;6;6;6;6;6;6;6;6;6;6;6;6;6;6;6;5;5;5;5;5;5].
Definition propsTrie_index_27 : list Z := [
  23;23;23;5;23;5;5;6;5;5;5;5;5;5;6;6;6;6;6;6;6;6;23;23;5;5;5;5;5;5;5;5;5;5;5;5;5;5;5;5;5;5;5;6;6;6;6;6;6;6;6;
  6;6;6;8;8;0;0;0;0;0;0;0;0;0;0;0;23;8;23;23;23;23;23;23;23;23;23;23;23;23;23;0;4;73;137;201;265;329;393;457;
  521;585;649;0;0;0;0;23;23;5;5;5;5;5;5;5;5;5;5;5;5;5;5;5;5;5;5;5;6;8;8;6;6;6;6;8;8;6;6;8;8;5;5;5;5;5;6;4;5;5;
  5;5;5;5;5;5;5;73;137;201;265;329;393;457;521;585;649;5;5;5;5;5;0;5;5;5;5;5;5;5;5;5;6;6;6;6;6;6;8;8;6;6;8;8;
  6;6;0;0;0;0;0;0;0;0;0;5;5;5;6;5;5;5;5;5;5;5;5;6;8;0;0;73;137;201;265;329;393;457;521;585;649;0;0;23;23;23;
  23;5;5;5;5;5;5;5;5;5;5;5;5;5;5;5;5;4;5;5;5;5;5;5;27;27;27;5;8;6;8;5;5;5;5;5;5;5;5;5;5;5;5;5;5;5;5;5;5;6;5;6;
  6;6;5;5;6;6;5;5;5;5;5;6;6;5;6;5;0;0;0;0;0;0;0;0;0;0;0;0;0;0;0;0;0;0;0;0;0;0;0;0;5;5;4;23;23;5;5;5;5;5;5;5;5;
  5;5;5;8;6;6;8;8;23;23;5;4;4;8;6;0;0;0;0;0;0;0;0;0;0;5;5;5;5;5;5;0;0;5;5;5;5;5;5;0;0;5;5;5;5;5;5;0;0;0;0;0;0;
  0;0;0;5;5;5;5;5;5;5;0;5;5;5;5;5;5;5;0;2;2;2;2;2;2;2;2;2;2;2;2;2;2;2;2;2;2;2;2;2;2;2;2;2;2;2;26;4;4;4;4;2;2;
  2;2;2;2;2;2;2;4;26;26;0;0;0;0;2;2;2;2;2;2;2;2;2;2;2;2;2;2;2;2;5;5;5;8;8;6;8;8;6;8;8;23;8;6;0;0;73;137;201;
  265;329;393;457;521;585;649;0;0;0;0;0;0;5;5;5;5;0;0;0;0;0;0;0;0].
Definition propsTrie_index_28 : list Z := [
  0;0;0;0;5;5;5;5;5;5;5;5;5;5;5;5;5;5;5;5;5;5;5;5;5;5;5;5;5;5;5;5;0;0;0;0;5;5;5;5;5;5;5;0;0;0;0;5;5;5;5;5;5;5;
  5;5;5;5;5;5;5;5;5;5;5;5;5;5;18;18;18;18;18;18;18;18;18;18;18;18;18;18;18;18;18;18;18;18;18;18;18;18;18;18;
  18;18;18;18;18;18;17;17;17;17;17;17;17;17;17;17;17;17;17;17;17;17;17;17;17;17;17;17;17;17;17;17;17;17;17;17;
  17;17;5;5;5;5;5;5;5;5;5;5;5;1541;5;5;5;5;5;5;5;1989;5;5;5;5;1477;5;5;5;5;5;5;5;5;5;5;5;5;5;5;5;5;5;5;5;5;
  1733;5;1733;5;5;5;5;5;5;5;5;5;5;5;5;5;5;5;5;5;5;5;5;5;5;5;5;5;5;5;5;5;1989;5;5;5;5;5;5;5;5;5;5;5;5;5;5;5;5;
  0;0;5;5;5;5;5;5;5;5;5;5;5;5;5;5;5;5;5;24;5;5;5;5;5;5;5;5;5;5;5;5;5;0;5;5;5;5;5;0;5;0;5;5;0;5;5;0;5;5;5;5;5;
  5;5;5;5;5;5;5;5;5;5;5;5;5;5;5;5;5;5;5;5;5;2;2;2;2;2;2;2;0;0;0;0;0;0;0;0;0;0;0;0;2;2;2;2;2;0;0;0;0;0;5;6;5;5;
  5;5;5;5;5;5;5;5;5;5;5;5;5;5;5;5;5;26;26;26;26;26;26;26;26;26;26;26;26;26;26;26;26;0;0;0;0;0;0;0;0;0;0;0;0;0;
  0;0;0;0;5;5;5;5;5;5;5;5;5;5;5;5;5;5;5;5;5;5;5;5;5;5;5;5;5;5;5;5;5;5;5;21;20;0;0;0;0;0;0;0;0;0;0;0;0;0;0;0;0;
  5;5;5;5;5;5;5;5;5;5;5;5;5;5;5;5;0;0;5;5;5;5;5;5;5;5;5;5;5;5;5;5;0;0;0;0;0;0;0;0;0;0;0;0;0;0;0;0;0;0;0;0;0;0;
  0;0;5;5;5;5;5;5;5;5;5;5;5;5;25;27;0;0;6;6;6;6;6;6;6;6].
Definition propsTrie_index_29 : list Z := [
  6;6;6;6;6;6;6;6;23;23;23;23;23;23;23;20;21;23;0;0;0;0;0;0;6;6;6;6;6;6;6;6;6;6;6;6;6;6;6;6;23;19;19;22;22;20;
  21;20;21;20;21;20;21;20;21;20;21;23;23;20;21;23;23;23;23;22;22;22;23;23;23;0;23;23;23;23;19;20;21;20;21;20;
  21;23;23;23;24;19;24;24;24;0;23;25;23;23;0;0;0;0;5;5;5;5;5;0;5;5;5;5;5;5;5;5;5;5;5;5;5;5;5;5;5;5;5;5;5;5;5;
  5;5;5;5;5;5;5;5;0;0;16;0;0;5;5;5;5;5;5;0;0;5;5;5;5;5;5;0;0;5;5;5;5;5;5;0;0;5;5;5;0;0;0;25;25;24;26;27;25;25;
  0;27;24;24;24;24;27;27;0;0;0;0;0;0;0;0;0;0;16;16;16;27;27;0;0;0;23;23;23;25;23;23;23;20;21;23;24;23;19;23;
  23;73;137;201;265;329;393;457;521;585;649;23;23;24;24;24;23;26;2;2;2;2;2;2;2;2;2;2;2;2;2;2;2;2;2;2;2;2;2;2;
  2;2;2;2;20;24;21;24;20;21;23;20;21;23;23;5;5;5;5;5;5;5;5;5;5;4;5;5;5;5;5;5;5;5;5;5;5;5;5;5;5;5;5;5;5;5;5;5;
  5;5;5;5;5;5;5;5;5;5;5;4;4;5;5;5;5;5;5;5;5;5;5;5;5;0;5;5;5;5;5;5;5;5;5;5;5;5;5;5;5;5;5;5;5;5;5;5;0;5;5;5;5;5;
  5;5;5;5;5;5;5;5;5;5;5;5;5;5;0;5;5;0;5;5;5;5;5;5;5;5;5;5;5;5;5;5;5;0;0;5;5;5;5;5;5;5;5;5;5;5;5;5;5;0;0;5;5;5;
  5;5;5;5;5;5;5;5;5;5;5;5;5;5;5;5;5;5;5;5;5;5;5;5;0;0;0;0;0;45067;47115;30795;32843;34891;36939;38987;41035;
  43083;45131;47179;30859;32907;34955;37003;39051;41099;43147;45195;47243;0;0;0;27;27;27;27;27;27;27;27;27;23;
  23;23;0;0;0;0;1419;1483;1547;1611;1675;1739;1803;1867;1931;1995;2635;3275;3915;4555;5195;5835;6475;7115;
  7755;32779;34827;36875;38923;40971;43019;1994;1994;1994;1994].
Definition propsTrie_index_30 : list Z := [
  1994;3274;4554;4554;4554;4554;7754;34826;38922;38922;38922;38922;38922;30794;38986;1674;4554;13387;13387;
  14475;15563;27;27;27;27;27;27;27;27;27;27;27;27;27;1355;13515;27;27;27;0;27;27;27;27;27;27;27;27;27;27;27;
  27;27;0;0;0;13514;13386;1418;1674;4554;38922;38986;39050;1674;1994;4554;7754;38922;30794;38986;1674;1994;
  4554;7754;38922;30794;30858;39050;1994;1418;1418;1418;1482;1482;1482;1482;1674;27;0;0;0;0;0;0;0;0;0;0;0;0;0;
  0;0;0;0;0;0;0;0;0;0;0;0;0;0;0;0;0;0;27;27;27;27;27;27;27;27;27;27;27;27;27;27;27;27;27;27;27;27;27;27;27;27;
  27;27;27;27;27;6;0;0;5;5;5;5;5;5;5;5;5;5;5;5;5;5;5;5;5;0;0;0;0;0;0;0;0;0;0;0;0;0;0;0;6;1419;1483;1547;1611;
  1675;1739;1803;1867;1931;1995;2635;3275;3915;4555;5195;5835;6475;7115;7755;32779;34827;36875;38923;40971;
  43019;45067;47115;0;0;0;0;1419;1675;1995;4555;0;0;0;0;0;0;0;0;0;5;5;5;5;5;5;5;5;5;5;5;5;5;5;5;5;5;5;5;5;
  7114;5;5;5;5;5;5;5;5;47114;0;0;0;0;0;5;5;5;5;5;5;5;5;5;5;5;5;5;5;5;5;5;5;5;5;5;5;6;6;6;6;6;0;0;0;0;0;5;5;5;
  5;5;5;5;5;5;5;5;5;5;5;5;5;5;5;5;5;5;5;5;5;5;5;5;5;5;5;0;23;5;5;5;5;0;0;0;0;5;5;5;5;5;5;5;5;23;1418;1482;
  1994;2634;7754;0;0;0;0;0;0;0;0;0;0;2;2;2;2;2;2;2;2;2;2;2;2;2;2;2;2;5;5;5;5;5;5;5;5;5;5;5;5;5;5;5;5;5;5;5;5;
  5;5;5;5;5;5;5;5;5;5;0;0;73;137;201;265;329;393;457;521;585;649;0;0;0;0;0;0;1;1;1;1;1;1;1;1;1;1;1;1;1;1;1;1;
  2;2;2;2;2;2;2;2;2;2;2;2;2;2;2;2;2;2;2;2;2;2;2;2;2;2;2;2;0;0;0;0;1;1;1;1;1;1;1;1;1;1;1;1;1;1;1;1;1;1;1;1;0;0;
  0;0;2;2;2;2;2;2;2;2;5;5;5;5;5;5;5;5].
Definition propsTrie_index_31 : list Z := [
  0;0;0;0;0;0;0;0;5;5;5;5;5;5;5;5;5;5;5;5;5;5;5;5;0;0;0;0;0;0;0;0;0;0;0;23;0;0;0;0;0;0;0;0;0;0;0;0;0;0;0;0;5;
  5;5;5;5;5;5;5;5;5;5;5;5;5;5;5;5;5;5;5;5;5;0;5;5;0;0;0;5;0;0;5;5;5;5;5;5;5;0;0;5;0;5;5;5;5;5;5;5;5;5;5;5;5;5;
  5;5;5;5;5;5;5;5;5;5;5;0;23;1419;1483;1547;1995;2635;7755;30795;30859;5;5;5;5;5;5;5;5;5;5;5;5;5;5;5;5;5;5;5;
  5;5;5;5;27;27;1419;1483;1547;1611;1675;1995;2635;0;0;0;0;0;0;0;1419;1483;1547;1611;1611;1675;1995;2635;7755;
  0;0;0;0;0;0;0;0;0;0;0;0;0;0;0;0;5;5;5;5;5;5;5;5;5;5;5;5;5;5;5;5;5;5;5;0;5;5;0;0;0;0;0;1419;1675;1995;2635;
  7755;5;5;5;5;5;5;5;5;5;5;5;5;5;5;5;5;5;5;5;5;5;5;1419;1995;2635;7755;1483;1547;0;0;0;23;5;5;5;5;5;5;5;5;5;5;
  5;5;5;5;5;5;5;5;5;5;5;5;5;5;5;5;0;0;0;0;0;23;41035;43083;45131;47179;30859;32907;34955;37003;39051;41099;
  43147;45195;47243;30923;32971;35019;37067;39115;41163;43211;45259;47307;14027;13643;13515;13451;18123;13387;
  20171;14475;15563;17739;5;5;5;5;5;5;5;5;5;5;5;5;5;5;5;5;5;5;5;5;5;5;5;5;0;0;0;0;24267;13387;5;5;1419;1483;
  1547;1611;1675;1739;1803;1867;1931;1995;2635;3275;3915;4555;5195;5835;0;0;7755;32779;34827;36875;38923;
  40971;43019;45067;47115;30795;32843;34891;36939;38987;779;843;907;971;1995;2635;7755;30795;13387;0;0;0;0;0;
  0;0;23;23;23;23;23;23;23;23;23;0;0;0;0;0;0;0;5;6;6;6;0;6;6;0;0;0;0;0;6;6;6;6;5;5;5;5;0;5;5;5;0;5;5;5;5;5;5;
  5;5;5;5;5;5;5;5;5;5;5;5;5;5;5;5;5;5;5;0;0;6;6;6;0;0;0;0;6;5;5;5;5;5;5;5;5;5;5;5;5;5;5;5;5;5;5;5;5;5;5;5;5;5;
  5;5;5;5;1419;4555;23;5;5;5;5].
Definition propsTrie_index_32 : list Z := [
  5;5;5;5;5;5;5;5;5;5;5;5;5;5;5;5;5;5;5;5;5;5;5;5;5;1419;1995;2635;5;5;5;5;5;6;6;0;0;0;0;1419;1675;1995;2635;
  7755;23;23;23;23;23;23;23;0;0;0;0;0;0;0;0;0;5;5;5;5;5;5;5;5;27;5;5;5;5;5;5;5;5;5;5;5;5;5;5;5;5;5;5;5;5;5;5;
  5;5;5;0;0;0;23;23;23;23;23;23;23;5;5;5;5;5;5;5;5;5;5;5;5;5;5;5;5;5;5;5;5;5;5;0;0;1419;1483;1547;1611;1995;
  2635;7755;30795;5;5;5;5;5;5;5;5;5;5;5;5;5;5;5;5;5;5;5;0;0;0;0;0;1419;1483;1547;1611;1995;2635;7755;30795;5;
  5;5;5;5;5;5;5;5;5;5;5;5;5;5;5;5;5;0;0;0;0;0;0;0;23;23;23;23;0;0;0;0;0;0;0;0;0;0;0;0;1419;1483;1547;1611;
  1995;2635;7755;0;0;0;0;0;0;0;0;0;0;0;0;0;0;0;0;5;5;5;5;5;5;5;5;5;0;0;0;0;0;0;0;0;0;0;0;0;0;0;0;0;0;0;0;0;0;
  0;0;1;1;1;1;1;1;1;1;1;1;1;1;1;1;1;1;1;1;1;0;0;0;0;0;0;0;0;0;0;0;0;0;2;2;2;2;2;2;2;2;2;2;2;2;2;2;2;2;2;2;2;0;
  0;0;0;0;0;0;1419;1675;1995;4555;7755;30795;5;5;5;5;6;6;6;6;0;0;0;0;0;0;0;0;73;137;201;265;329;393;457;521;
  585;649;0;0;0;0;0;0;779;843;907;971;1035;1099;1163;1227;1291;1995;2635;3275;3915;4555;5195;5835;6475;7115;
  7755;32779;34827;36875;38923;40971;43019;45067;47115;13387;13515;13451;14475;0;5;5;5;5;5;5;5;5;5;5;0;6;6;19;
  0;0;5;5;0;0;0;0;0;0;0;0;0;0;0;0;0;0;5;5;5;5;5;5;5;5;5;5;5;5;5;5;5;5;5;5;5;5;5;5;5;5;5;5;5;5;5;1419;1483;
  1547;1611;1675;1995;2635;3275;7755;13387;5;0;0;0;0;0;0;0;0;5;5;5;5;5;5;5;5;5;5;5;5;5;5;5;5;5;5;6;6;6;6;6;6;
  6;6;6;6;6;1419;1995;2635;7755;23;23;23;23;23;0;0].
Definition propsTrie_index_33 : list Z := [
  0;0;0;0;5;5;5;5;5;1419;1483;1547;1611;1995;2635;7755;0;0;0;0;0;0;0;0;0;0;0;0;0;0;0;0;0;0;0;0;5195;5835;6475;
  7115;7755;30795;73;137;201;265;329;393;457;521;585;649;0;0;0;0;0;0;0;0;0;0;0;0;0;0;0;6;8;6;8;5;5;5;5;5;5;5;
  5;5;5;5;5;5;5;5;5;5;5;5;5;5;5;5;5;5;5;5;5;5;6;6;6;6;6;6;6;23;23;23;23;23;23;23;0;0;0;0;779;843;907;971;1035;
  1099;1163;1227;1291;1995;2635;3275;3915;4555;5;5;5;5;5;5;5;5;5;5;5;5;5;5;5;5;8;8;8;6;6;6;6;8;8;6;6;23;23;16;
  23;23;23;23;0;0;0;0;0;0;0;0;0;0;0;16;0;0;5;5;5;5;5;5;5;5;5;5;5;5;5;5;5;5;5;0;0;0;0;0;0;0;73;137;201;265;329;
  393;457;521;585;649;0;0;0;0;0;0;5;5;5;5;5;5;5;6;6;6;6;6;8;6;6;6;6;6;6;6;6;0;73;137;201;265;329;393;457;521;
  585;649;23;23;23;23;5;8;8;5;0;0;0;0;0;0;0;0;5;5;5;5;5;5;5;5;5;5;5;5;5;5;5;5;6;6;6;5;5;5;5;5;5;5;5;5;5;5;5;5;
  5;5;5;5;5;5;5;5;5;5;5;5;5;5;5;5;5;5;5;6;23;23;5;0;0;0;0;0;0;0;0;0;8;5;5;5;5;23;23;23;23;6;6;6;6;23;8;6;73;
  137;201;265;329;393;457;521;585;649;5;23;5;23;23;23;5;5;5;5;5;5;5;5;5;5;5;5;5;5;5;5;5;5;5;8;8;8;6;6;6;6;6;6;
  6;6;6;8;0;1419;1483;1547;1611;1675;1739;1803;1867;1931;1995;2635;3275;3915;4555;5195;5835;6475;7115;7755;
  30795;0;0;0;0;0;0;0;0;0;0;0;5;5;5;5;5;5;5;5;5;5;5;5;8;8;8;6;6;6;8;8;6;8;6;6;23;23;23;23;23;23;6;0;5;5;5;5;5;
  5;5;5;5;5;5;5;5;5;5;5;5;5;0;5;5;5;5;5;5;5;5;5;5;5;5;5;5;5;5;0;5;0;5;5;5;5;0;5;5;5;5;5;5;5;5;5].
Definition propsTrie_index_34 : list Z := [
  5;5;5;5;5;5;0;5;5;5;5;5;5;5;5;5;5;23;0;0;0;0;0;0;5;5;5;5;5;5;5;5;5;5;5;5;5;5;5;5;8;8;8;6;6;6;6;6;6;6;6;0;0;
  0;0;0;73;137;201;265;329;393;457;521;585;649;0;0;0;0;0;0;5;5;8;8;0;0;6;6;6;6;6;6;6;0;0;0;6;6;6;6;6;0;0;0;0;
  0;0;0;0;0;0;0;6;6;8;8;0;5;5;5;5;5;5;5;5;0;0;5;5;0;0;5;5;5;5;5;5;5;5;5;5;5;5;5;5;0;5;5;5;5;5;5;5;0;5;5;0;5;5;
  5;5;5;0;6;6;5;8;8;6;8;8;8;8;0;0;8;8;0;0;8;8;8;0;0;5;0;0;0;0;0;0;8;0;0;0;0;0;5;5;5;5;5;5;5;5;5;5;5;5;5;5;5;5;
  5;5;5;5;5;5;5;5;8;8;8;6;6;6;6;6;6;6;6;8;8;6;6;6;8;6;5;5;5;5;23;23;23;23;23;73;137;201;265;329;393;457;521;
  585;649;23;23;0;23;6;5;5;5;0;0;0;0;0;0;0;0;0;0;0;0;0;0;0;0;0;0;0;0;0;0;0;0;0;0;0;0;0;0;5;5;5;5;5;5;5;5;5;5;
  5;5;5;5;5;5;8;8;8;6;6;6;6;6;6;8;6;8;8;8;8;6;6;8;6;6;5;5;23;5;0;0;0;0;0;0;0;0;73;137;201;265;329;393;457;521;
  585;649;0;0;0;0;0;0;5;5;5;5;5;5;5;5;5;5;5;5;5;5;5;8;8;8;6;6;6;6;0;0;8;8;8;8;6;6;8;6;6;23;23;23;23;23;23;23;
  23;23;23;23;23;23;23;23;23;23;23;23;23;23;23;23;5;5;5;5;6;6;0;0;5;5;5;5;5;5;5;5;5;5;5;5;5;5;5;5;8;8;8;6;6;6;
  6;6;6;6;6;8;8;6;8;6;6;23;23;23;5;0;0;0;0;0;0;0;0;0;0;0;73;137;201;265;329;393;457;521;585;649;0;0;0;0;0;0;
  23;23;23;23;23;23;23;23;23;23;23;23;23;0;0;0;0;0;0;0;0;0;0;0;0;0;0;0;0;0;0;0].
Definition propsTrie_index_35 : list Z := [
  73;137;201;265;329;393;457;521;585;649;0;0;0;0;0;0;0;0;0;0;0;0;0;0;0;0;0;0;0;0;0;0;5;5;5;5;5;5;5;5;5;5;5;6;
  8;6;8;8;6;6;6;6;6;6;8;6;5;0;0;0;0;0;0;0;8;8;6;6;6;6;8;6;6;6;6;6;0;0;0;0;73;137;201;265;329;393;457;521;585;
  649;1995;2635;23;23;23;27;5;5;5;5;5;5;5;5;5;5;5;5;8;8;8;6;6;6;6;6;6;6;6;6;8;6;6;23;0;0;0;0;73;137;201;265;
  329;393;457;521;585;649;1995;2635;3275;3915;4555;5195;5835;6475;7115;0;0;0;0;0;0;0;0;0;0;0;0;5;8;5;8;6;23;
  23;23;0;0;0;0;0;0;0;0;0;73;137;201;265;329;393;457;521;585;649;0;0;0;0;0;0;5;5;5;5;5;5;5;0;0;5;0;0;5;5;5;5;
  5;5;5;5;0;5;5;0;5;5;5;5;5;5;5;5;5;5;5;5;5;5;5;5;8;8;8;8;8;8;0;8;8;0;0;6;6;8;6;5;6;5;23;5;8;0;0;0;0;0;0;0;0;
  0;0;0;0;0;0;0;0;0;0;0;0;0;0;0;0;0;0;0;5;5;5;5;5;5;5;5;0;0;5;5;5;5;5;5;5;5;5;5;5;5;5;5;5;5;5;5;5;5;5;5;5;8;8;
  8;6;6;6;6;0;0;6;6;8;8;8;8;5;5;5;5;5;5;5;5;5;5;5;5;5;5;5;5;5;5;5;6;6;6;6;6;6;8;5;6;6;6;6;23;23;23;23;23;23;
  23;23;6;0;0;0;0;0;0;0;0;5;6;6;6;6;6;6;8;8;6;6;6;5;5;5;5;5;6;6;6;6;6;6;6;6;6;6;5;5;5;5;5;5;5;5;5;5;5;5;5;5;5;
  5;5;5;5;5;5;23;23;23;0;0;0;0;0;0;0;0;0;0;0;0;0;0;0;0;0;0;0;0;0;0;0;0;0;0;0;0;0;5;5;5;5;5;5;5;5;5;5;6;6;6;6;
  6;6;6;6;6;6;6;6;6;8;6;6;23;23;23;5;23;23;5;23;23;23;23;23;0;0;0;0;0;0;0;0;0;0;73;137;201;265;329;393;457;
  521].
Definition propsTrie_index_36 : list Z := [
  585;649;1419;1483;1547;1611;1675;1739;1803;1867;1931;1995;2635;3275;3915;4555;5195;5835;6475;7115;7755;0;0;
  0;23;23;5;5;5;5;5;5;5;5;5;5;5;5;5;5;5;0;5;5;5;5;5;5;5;5;5;5;5;5;5;5;5;5;5;5;5;5;5;5;5;5;5;8;6;6;6;6;6;6;6;0;
  6;6;6;6;6;6;8;6;6;6;6;6;6;6;6;6;0;8;6;6;6;6;6;6;6;8;6;6;8;6;6;0;0;0;0;0;0;0;0;0;5;5;5;5;5;5;5;5;5;5;5;5;5;5;
  5;5;0;0;6;6;6;6;6;6;6;6;6;6;6;6;6;6;6;6;5;6;0;0;0;0;0;0;0;0;73;137;201;265;329;393;457;521;585;649;0;0;0;0;
  0;0;5;5;5;5;5;5;5;0;5;5;0;5;5;5;5;5;5;5;5;5;5;5;5;5;5;5;5;5;5;5;5;5;5;6;6;6;6;6;6;0;0;0;6;0;6;6;0;6;5;5;5;5;
  5;5;5;5;5;5;8;8;8;8;8;0;6;6;0;8;8;6;8;6;5;0;0;0;0;0;0;0;5;5;5;5;5;5;0;5;5;0;5;5;5;5;5;5;5;5;5;5;5;5;5;5;5;5;
  5;5;5;5;5;5;5;5;5;6;6;8;8;23;23;0;0;0;0;0;0;0;0;0;0;0;0;0;0;0;0;0;0;0;5;0;0;0;0;0;0;0;0;0;0;0;0;0;0;0;25;27;
  27;27;27;27;27;27;27;27;27;27;27;27;27;27;27;27;0;0;0;0;0;0;0;0;0;0;0;0;0;23;52491;52235;51979;53259;51723;
  53003;52043;53323;51467;14283;14283;13899;13771;51531;16331;13579;13515;13387;13387;15563;52491;27;27;27;27;
  27;27;27;27;25;25;25;13514;13642;13514;13514;13386;13450;14474;3914;4554;1610;1674;1738;1802;1866;1930;0;23;
  23;23;23;23;0;0;0;0;0;0;0;0;0;0;0;1482;1546;1610;1674;1738;1802;1866;1930;1546;1610;1674;1738;1802;1866;
  1930;1610;1674;1738;1802;1866;1930;1418;1482;1546;1610;1674;1738;1802;1866;1930;1418;1482;1546;1610;1674;
  1482;1546;1546;1610;1674;1738;1802;1866;1930;1418;1482;1546;1546;1610;1674;49290;49546;1418;1482;1546;1546;
  1610;1674;1546;1546;1610;1610;1610;1610;1738;1802;1802;1802;1866;1866;1930;1930;1930;1930;1482;1546;1610;
  1674;1738;1418;1482;1546;1610;1610].
Definition propsTrie_index_37 : list Z := [
  1674;1674;1482;1546;1418;1482;13450;14474;17738;13450;14474;13770;5;5;5;5;0;0;0;0;0;0;0;0;0;0;0;0;0;0;0;0;0;
  0;0;0;0;0;0;0;0;0;0;0;5;5;5;5;5;5;5;5;5;5;5;5;5;5;5;0;16;16;16;16;16;16;16;16;16;0;0;0;0;0;0;0;5;5;5;5;5;5;
  5;0;0;0;0;0;0;0;0;0;0;0;0;0;0;0;0;0;0;0;0;0;0;0;0;0;73;137;201;265;329;393;457;521;585;649;0;0;0;0;23;23;0;
  0;0;0;0;0;0;0;0;0;0;0;0;0;0;0;5;5;5;5;5;5;5;5;5;5;5;5;5;5;0;0;6;6;6;6;6;23;0;0;0;0;0;0;0;0;0;0;5;5;5;5;5;5;
  5;5;5;5;5;5;5;5;5;5;0;0;0;0;0;0;0;0;0;0;0;0;0;0;0;0;5;5;5;5;5;5;5;5;5;5;5;5;5;5;5;5;6;6;6;6;6;6;6;23;23;23;
  23;23;27;27;27;27;4;4;4;4;23;27;0;0;0;0;0;0;0;0;0;0;73;137;201;265;329;393;457;521;585;649;0;1995;7755;
  30859;30987;31115;31243;31371;0;5;5;5;5;5;5;5;5;5;5;5;5;5;5;5;5;5;5;5;5;5;0;0;0;0;0;5;5;5;1355;1419;1483;
  1547;1611;1675;1739;1803;1867;1931;1995;2059;2123;2187;2251;2315;2379;2443;2507;2571;1419;1483;1547;23;23;
  23;23;0;0;0;0;0;5;5;5;5;5;5;5;5;5;5;5;0;0;0;0;6;5;8;8;8;8;8;8;8;8;8;8;8;8;8;8;8;8;8;8;8;8;8;8;8;8;8;8;8;8;8;
  8;8;8;8;8;8;0;0;0;0;0;0;0;6;6;6;6;4;4;4;4;4;4;4;4;4;4;4;4;4;4;4;23;4;6;0;0;0;0;0;0;0;0;0;0;0;8;8;0;0;0;0;0;
  0;0;0;0;0;0;0;0;0;5;5;5;5;5;5;5;5;5;5;5;5;5;5;5;5;5;5;5;5;5;5;5;5;0;0;0;0;0;0;0;0;0;0;0;0;0;0;0;0;5;5;5;0;0;
  0;0;0;0;0;0;0;0;0;0;0;5;5;5;5;0;0;0;0;0;0;0;0;5;5;5;5].
Definition propsTrie_index_38 : list Z := [
  5;5;5;5;5;5;5;5;5;5;5;5;5;5;5;0;0;0;0;0;5;5;5;5;5;5;5;5;5;5;5;5;5;0;0;0;0;0;0;0;5;5;5;5;5;5;5;5;5;5;0;0;27;
  6;6;23;16;16;16;16;0;0;0;0;0;0;0;0;0;0;0;0;0;0;0;0;0;0;0;0;0;0;0;0;0;0;0;0;27;27;27;27;27;27;27;0;0;27;27;
  27;27;27;27;27;27;27;27;27;27;27;27;27;27;27;27;27;27;27;27;27;27;8;8;6;6;6;27;27;27;8;8;8;8;8;8;16;16;16;
  16;16;16;16;16;6;6;6;6;6;6;6;6;27;27;6;6;6;6;6;6;6;27;27;27;27;27;27;27;27;27;27;27;27;27;27;27;27;27;27;27;
  27;27;27;6;6;6;6;27;27;27;27;27;27;27;27;27;27;27;27;27;27;27;27;27;27;27;0;0;0;0;0;0;0;0;0;0;0;0;0;0;0;0;0;
  0;0;0;0;0;0;27;27;6;6;6;27;0;0;0;0;0;0;0;0;0;0;0;0;0;0;0;0;0;0;0;0;0;0;0;0;0;0;1355;1419;1483;1547;1611;
  1675;1739;1803;1867;1931;1995;2059;2123;2187;2251;2315;2379;2443;2507;2571;0;0;0;0;0;0;0;0;0;0;0;0;1419;
  1483;1547;1611;1675;1739;1803;1867;1931;1995;2635;3275;3915;4555;5195;5835;6475;7115;1419;1483;1547;1611;
  1675;1419;1675;0;0;0;0;0;0;0;585;649;73;137;201;265;329;393;457;521;585;649;73;137;201;265;329;393;457;521;
  585;649;73;137;201;265;329;393;457;521;585;649;1;1;1;1;1;1;1;1;1;1;1;1;1;1;1;1;1;1;1;1;1;1;1;1;1;1;2;2;2;2;
  2;2;2;2;2;2;2;2;2;2;2;2;2;2;2;2;2;2;1;1;1;1;1;1;1;1;1;1;1;1;1;1;2;2;2;2;2;2;2;0;2;2;2;2;2;2;2;2;2;2;1;1;1;1;
  1;1;1;1;1;1;1;1;1;1;1;1;1;1;1;1;1;1;1;1;1;1;2;2;2;2;2;2;2;2;2;2;2;2;2;2;2;2;2;2;2;2;2;2;2;2;2;2;1;0;1;1;0;0;
  1;0;0;1;1;0;0;1;1;1;1;0;1;1;1;1;1;1].
Definition propsTrie_index_39 : list Z := [
  1;1;2;2;2;2;0;2;0;2;2;2;2;2;2;2;0;2;2;2;2;2;2;2;2;2;2;2;1;1;1;1;1;1;1;1;1;1;1;1;1;1;1;1;2;2;2;2;1;1;0;1;1;1;
  1;0;0;1;1;1;1;1;1;1;1;0;1;1;1;1;1;1;1;0;2;2;2;2;2;2;2;2;2;2;2;2;2;2;2;2;2;2;2;2;2;2;2;2;2;2;1;1;0;1;1;1;1;0;
  1;1;1;1;1;0;1;0;0;0;1;1;1;1;1;1;1;0;2;2;2;2;2;2;2;2;2;2;2;2;2;2;1;1;1;1;1;1;1;1;1;1;1;1;1;1;1;1;1;1;1;1;1;1;
  2;2;2;2;2;2;2;2;2;2;2;2;2;2;2;2;2;2;2;2;2;2;2;2;2;2;1;1;1;1;1;1;1;1;1;1;1;1;1;1;1;1;2;2;2;2;2;2;0;0;1;1;1;1;
  1;1;1;1;1;1;1;1;1;1;1;1;1;1;1;1;1;1;1;1;1;24;2;2;2;2;2;2;2;2;2;2;2;2;2;2;2;2;2;2;2;2;2;2;2;2;2;24;2;2;2;2;2;
  2;1;1;1;1;1;1;1;1;1;1;1;1;1;1;1;1;1;1;1;1;1;1;1;1;1;24;2;2;2;2;2;2;2;2;2;2;2;2;2;2;2;2;2;2;2;2;2;24;2;2;2;2;
  2;2;1;1;1;1;1;1;1;1;1;1;1;1;1;1;1;1;2;2;2;24;2;2;2;2;2;2;1;2;0;0;73;137;201;265;329;393;457;521;585;649;73;
  137;201;265;329;393;457;521;0;6;6;6;6;6;6;6;6;6;6;6;6;6;6;6;0;0;0;0;0;0;0;0;0;0;0;0;0;0;0;0;6;6;6;6;6;6;6;6;
  6;6;6;6;6;6;6;6;6;6;6;6;6;6;6;27;27;27;27;6;6;6;6;6;6;6;6;6;6;6;6;6;6;27;27;27;27;27;27;27;27;6;27;27;27;27;
  27;27;27;27;27;27;6;27;27;23;23;23;23;23;0;0;0;0;0;0;0;0;0;0;0;0;0;0;0;6;6;6;6;6;6;6;6;0;6;6;6;6;6;6;6;6;6;
  6;6;6;6;6;6;6].
Definition propsTrie_index_40 : list Z := [
  6;0;0;6;6;6;6;6;6;6;0;6;6;0;6;6;6;6;6;0;0;0;0;0;0;0;0;0;0;0;0;0;0;0;0;0;0;0;0;0;73;137;201;265;329;393;457;
  521;585;649;0;0;0;0;5;27;0;0;0;0;0;0;0;0;0;0;0;0;0;0;0;0;5;5;5;5;5;5;5;5;5;5;5;5;5;0;0;0;6;6;6;6;6;6;6;4;4;
  4;4;4;4;4;0;0;5;5;5;5;5;5;5;5;5;5;5;5;6;6;6;6;73;137;201;265;329;393;457;521;585;649;0;0;0;0;0;25;5;5;5;5;5;
  0;0;1419;1483;1547;1611;1675;1739;1803;1867;1931;6;6;6;6;6;6;6;0;0;0;0;0;0;0;0;0;2;2;2;2;6;6;6;6;6;6;6;4;0;
  0;0;0;73;137;201;265;329;393;457;521;585;649;0;0;0;0;23;23;1;1;2;2;2;2;2;2;2;2;2;2;2;2;2;2;2;2;2;2;2;2;2;2;
  2;2;2;2;2;2;2;2;0;0;0;0;0;0;0;0;0;0;0;0;0;0;0;0;0;1419;1483;1547;1611;1675;1739;1803;1867;1931;1995;2635;
  3275;3915;4555;5195;30923;31051;33099;1419;1483;1547;1611;1675;1739;1803;1867;1931;27;13515;13387;15563;25;
  1419;1483;30859;30923;0;0;0;0;0;0;0;0;0;0;0;5835;6475;7115;7755;32779;34827;36875;38923;40971;43019;45067;
  47115;30795;32843;34891;36939;38987;41035;43083;45131;47179;30859;32907;34955;37003;39051;41099;43147;45195;
  47243;30923;32971;38987;41035;43083;45131;47179;30859;32907;34955;37003;39051;41099;43147;45195;47243;27;
  1483;1547;1611;1675;1739;1803;1867;1931;1995;36875;40971;32843;30859;13387;13643;0;0;0;1419;1483;1547;1611;
  1675;1739;1803;1867;1931;1995;2635;3275;3915;4555;5195;5835;6475;7115;7755;32779;34827;36875;38923;40971;
  43019;45067;47115;30795;32843;34891;36939;0;0;0;0;0;0;0;0;0;0;0;0;0;0;0;0;24;24;0;0;0;0;0;0;0;0;0;0;0;0;0;0;
  5;5;5;5;0;5;5;5;5;5;5;5;5;5;5;5;5;5;5;5;5;5;5;5;5;5;5;5;5;5;5;5;0;5;5;0;5;0;0;5;0;5;5;5;5;5;5;5;5;5;5;0;5;5;
  5;5;0;5;0;5;0;0;0;0;0;0;5;0;0;0;0;5;0;5;0;5;0;5;5;5;0;5;5;0;5;0;0;5].
Definition propsTrie_index_41 : list Z := [
  0;5;0;5;0;5;0;5;0;5;5;0;5;0;0;5;5;5;5;0;5;5;5;5;5;5;5;0;5;5;5;5;0;5;5;5;5;0;5;0;5;5;5;5;5;5;5;5;5;5;0;5;5;5;
  5;5;5;5;5;5;5;5;5;5;5;5;5;5;0;0;0;0;0;5;5;5;0;5;5;5;5;5;0;5;5;5;5;5;5;5;5;5;5;5;5;5;5;5;5;5;0;0;0;0;27;27;
  27;27;27;27;27;27;27;27;27;27;0;0;0;0;27;27;27;27;27;27;27;27;27;27;27;27;27;27;27;27;27;27;27;0;0;27;27;27;
  27;27;27;27;27;27;27;27;27;27;27;27;0;27;27;27;27;27;27;27;27;27;27;27;27;27;27;27;715;715;779;843;907;971;
  1035;1099;1163;1227;1291;1355;1355;27;27;27;27;27;27;27;27;27;27;27;27;27;27;27;27;27;27;27;0;0;0;0;0;0;27;
  27;27;27;27;27;27;27;27;27;27;27;27;27;27;27;27;27;27;27;27;27;27;27;27;27;27;27;27;0;0;0;0;0;0;0;0;0;0;0;0;
  0;27;27;27;27;27;27;27;27;27;27;27;27;27;27;27;27;27;27;27;27;27;27;27;27;27;27;27;27;0;0;0;0;27;27;27;27;
  27;27;27;27;27;0;0;0;0;0;0;0;27;27;0;0;0;0;0;0;0;0;0;0;0;0;0;0;27;27;27;27;27;27;0;0;0;0;0;0;0;0;0;0;0;0;0;
  0;0;0;0;0;0;0;0;0;0;0;0;0;27;27;27;27;27;27;27;27;27;27;27;27;27;27;27;27;27;27;27;27;27;27;27;27;27;27;27;
  26;26;26;26;26;27;27;27;27;27;27;27;27;27;27;27;27;27;27;27;27;27;27;27;27;27;27;27;27;0;0;0;0;0;0;0;0;27;
  27;27;27;27;27;27;27;27;27;27;27;27;0;0;0;27;27;27;27;27;27;27;27;27;27;27;27;27;0;0;0;27;27;27;27;27;27;27;
  27;27;27;27;27;27;27;27;27;27;27;27;27;27;27;27;27;27;0;0;0;0;0;0;0;27;27;27;27;27;27;27;27;27;27;27;27;0;0;
  0;0;0;0;0;0;0;0;0;0;0;0;0;0;0;0;0;0;27;27;27;27].
Definition propsTrie_index_42 : list Z := [
  27;27;27;27;0;0;0;0;0;0;0;0;27;27;27;27;27;27;27;27;27;27;0;0;0;0;0;0;27;27;27;27;27;27;27;27;0;0;0;0;0;0;0;
  0;27;27;27;27;27;27;27;27;27;27;27;27;27;27;27;27;27;27;0;0;27;27;0;0;0;0;0;0;0;0;0;0;0;0;0;0;27;27;27;27;
  27;27;27;27;27;27;27;27;27;27;27;27;27;27;27;27;27;27;27;27;27;0;27;27;27;27;27;27;27;27;27;27;27;27;27;27;
  0;27;27;27;27;27;27;27;27;27;27;27;27;27;27;27;27;27;27;27;27;27;0;0;27;27;27;27;27;0;0;0;27;27;27;0;0;0;0;
  0;27;27;27;27;27;27;27;0;0;0;0;0;0;0;0;0;27;27;27;27;27;27;27;27;27;27;27;27;27;27;27;27;27;0;0;0;0;0;0;0;
  27;27;27;27;27;27;27;0;0;0;0;0;0;0;0;0;0;0;0;0;27;27;27;27;27;27;27;0;0;0;0;0;0;0;0;0;27;27;27;27;27;27;27;
  27;27;27;27;27;27;27;27;27;27;27;27;0;27;27;27;27;27;27;27;27;27;27;27;27;5;1797;5;5;5;5;5;5;5;5;5;5;5;5;5;
  5;5;5;5;5;5;5;5;5;5;5;5;5;5;5;5;5;1605;5;5;5;5;5;5;5;5;5;5;5;5;5;5;5;5;5;5;5;5;5;5;5;5;5;5;5;5;5;1605;5;5;5;
  5;5;5;5;5;5;5;5;5;5;5;5;5;5;5;5;5;5;5;5;5;5;5;5;5;5;5;1669;5;5;5;5;5;5;5;5;5;5;5;5;5;5;5;5;5;5;5;5;5;5;5;5;
  5;5;5;5;5;5;5;5;5;3269;5;5;5;5;5;5;5;5;3909;5;5;5;5;5;5;5;5;5;5;5;5;5;5;5;3909;5;5;5;5;5;5;5;5;5;5;5;5;5;
  1733;5;5;5;5;5;5;5;5;5;5;5;5;5;5;5;5;5;5;1541;5;5;5;5;5;5;5;5;5;5;5;5;5;5;5;5;5;5;5;5;5;5;5;5;5;5;5;1541;5;
  5;5;5;5;5;5;5;5;5;5;5;5;5;5;5;5;5;5;5;5;5;5;5;5;5;1541;5;5;5].
Definition propsTrie_index_43 : list Z := [
  5;5;5;5;5;5;5;5;5;5;5;5;5;5;5;5;5;5;5;5;5;5;5;5;5;5;5;1541;5;5;5;5;5;5;5;5;5;5;5;5;5;1605;5;5;5;5;5;5;5;5;5;
  5;5;5;5;5;5;5;5;5;5;5;5;5;5;0;0;0;0;0;0;0;0;0;0;0;0;0;0;0;0;0;0;0;0;0;0;0;0;0;0;0;0;0;0;0;5;5;5;5;5;5;5;5;5;
  5;5;5;5;5;5;5;1925;5;5;5;5;5;5;5;5;5;5;5;5;5;5;5;16;16;16;16;16;16;16;16;16;16;16;16;16;16;16;16;16;16;16;
  16;16;16;16;16;16;16;16;16;16;16;16;16;0;16;0;0;0;0;0;0;0;0;0;0;0;0;0;0;0;0;0;0;0;0;0;0;0;0;0;0;0;0;0;0;6;6;
  6;6;6;6;6;6;6;6;6;6;6;6;6;6;0;0;0;0;0;0;0;0;0;0;0;0;0;0;0;0;17;17;17;17;17;17;17;17;17;17;17;17;17;17;17;17;
  17;17;17;17;17;17;17;17;17;17;17;17;17;17;0;0;0;0;0;0].
Definition propsTrie_index_list : list Z := (propsTrie_index_0 ++ propsTrie_index_1 ++ propsTrie_index_2 ++ propsTrie_index_3 ++ propsTrie_index_4 ++ propsTrie_index_5 ++ propsTrie_index_6 ++ propsTrie_index_7 ++ propsTrie_index_8 ++ propsTrie_index_9 ++ propsTrie_index_10 ++ propsTrie_index_11 ++ propsTrie_index_12 ++ propsTrie_index_13 ++ propsTrie_index_14 ++ propsTrie_index_15 ++ propsTrie_index_16 ++ propsTrie_index_17 ++ propsTrie_index_18 ++ propsTrie_index_19 ++ propsTrie_index_20 ++ propsTrie_index_21 ++ propsTrie_index_22 ++ propsTrie_index_23 ++ propsTrie_index_24 ++ propsTrie_index_25 ++ propsTrie_index_26 ++ propsTrie_index_27 ++ propsTrie_index_28 ++ propsTrie_index_29 ++ propsTrie_index_30 ++ propsTrie_index_31 ++ propsTrie_index_32 ++ propsTrie_index_33 ++ propsTrie_index_34 ++ propsTrie_index_35 ++ propsTrie_index_36 ++ propsTrie_index_37 ++ propsTrie_index_38 ++ propsTrie_index_39 ++ propsTrie_index_40 ++ propsTrie_index_41 ++ propsTrie_index_42 ++ propsTrie_index_43)%list.
Definition propsTrie_index_tree : tree := Eval vm_compute in tree_of propsTrie_index_list.
Definition propsTrie_index : arr := arr_of_tree 22276 propsTrie_index_tree.
Lemma propsTrie_index_is : propsTrie_index_tree = tree_of propsTrie_index_list /\ zlen propsTrie_index_list = 22276.
Proof. split; vm_compute; reflexivity. Qed.

(** CharPropsData.py:1403 *)
Definition propsTrie_index_length : Z := 4532.

(** CharPropsData.py:1404 *)
Definition propsTrie_index_2_null_offset : Z := 2624.

(** CharPropsData.py:1405 *)
Definition propsTrie_data_null_offset : Z := 4660.

(** CharPropsData.py:1406 *)
Definition propsTrie_high_start : Z := 1114112.

(** CharPropsData.py:1407 *)
Definition propsTrie_high_value_index : Z := 22272.

(** CharPropsData.py:1409-3362 *)
Definition propsVectorsTrie_index_0 : list Z := [
  1256;1264;1272;1280;1304;1312;1320;1328;1336;1344;1352;1360;1368;1376;1384;1392;1399;1407;1415;1423;1426;
  1434;1442;1450;1458;1466;1474;1482;1490;1498;1506;1514;1522;1530;1537;1545;1553;1561;1569;1577;1585;1593;
  1598;1606;1613;1621;1629;1637;1645;1653;1661;1669;1676;1684;1692;1700;1708;1716;1724;1732;1740;1748;1756;
  1764;6712;3422;3637;1772;1288;3740;3748;7154;4864;4880;4856;4872;1989;1995;2003;2011;2019;2025;2033;2041;
  2049;2055;2063;2071;2079;2085;2093;2101;2109;2117;2125;2132;2140;2146;2154;2162;2170;2176;2184;2192;2200;
  4888;2208;2216;2224;2231;2239;2247;2255;2259;2267;2274;2282;2290;2298;2306;5676;5684;2314;2322;2330;2338;
  2346;2353;5778;5762;5770;6515;6523;4904;2361;4896;5490;5490;5492;4924;4925;4912;4914;4916;5786;5788;2369;
  5788;2377;2382;2390;5793;2396;5788;2402;2410;3129;5801;5801;2418;5817;5818;5818;5818;5818;5818;5818;5818;
  5818;5818;5818;5818;5818;5818;5818;5818;5818;5818;5818;5809;2426;5826;5826;2434;2905;2913;2921;2929;5842;
  5834;2442;2450;2458;5852;5860;2466;5850;2474;6720;3430;2937;2945;2953;2958;6369;3180;3187;6217;3081;6728;
  3438;3446;3454;3462;3911;3912;6457;6462;3240;3248;6575;6583;6929;3645;6591;3314;3322;6599;4342;4502;3879;
  3470;6249;6225;6241;6233;6393;6385;6329;3097;4933;4933;4933;4933;4936;4933;4933;4944;2482;4952;2486;2494;
  4952;2502;2510;2518;4968;4960;4976;2526;2534;4984;2542;2550;4992;5000;5008;5016;2558;5024;5031;5039;5047;
  5055;5063;5071;5079;5086;5094;5102;5110;5118;5121;5123;5868;6108;6114;6441;5131;2566;2574;5413;5418;5421;
  5429;5139;5437;5437;5155;5147;5163;5171;5179;5187;5195;5203;5211;5219;6122;6209;6531;6873;5235;5242;5250;
  5258;5227;5266;6130;6137;5876;5876;5876;5876;5876;5876;5876;5876;6145;6148;6145;6145;6156;6163;6165;6172;
  6180;6184;6184;6187;6184;6184;6193;6184;6257;6449;6539;2966;2972;7222;7230;7445;6353;3145;3149;6470;6337;
  6337;6337;3105;6345;3137;6417;3224;3113;3121;3121;6607;6401;6547;3203;3208;2582;5884;5884;2590;5892;5892;
  5892;5892;5892;5892;2598;1776;5466;5500;2606;5508;2614;5516;5524;5532;2622;2627;5540;5547;2632;5900;6433;
  3089;2640;5638;5645;5555;5653;5660;5563;5567;5592;5592;5594;5575;5583;5583;5584;5668;5908;5908;5908;5908;
  5908;5908;5908;5908;5908;5908;5908;5908;5908;5908;5908;5908;5908;5908;5908;5908;5908;5908;5908;5908;5908;
  5908;5908;5908;5908;5908;5908;5908;5908;5908;5908;5908;5908;5908;5908;5908;5908;5908;5908;5908;5908;5908;
  5908;5908;5908;5908;5908;5908;5908;5908;5908;5908;5908;5908;5908;5908;5908;5908;5908;5908;5908;5908;5908;
  5908;5908;5908;5908;5908;5908;5908;5908;5908;5908;5908;5908;5908;5908;5908;5908;5908;5908;5908;5908;5908;
  5908;5908;5908;5908;5908;5908;5908;5908].
Definition propsVectorsTrie_index_1 : list Z := [
  5908;5908;5908;5908;5908;5908;5908;5908;5908;5908;5908;5908;5908;5908;5908;5908;5908;5908;5908;5908;5908;
  5908;5908;5908;5908;5908;5908;5908;5908;5908;5908;5908;5908;5908;5908;5908;5908;5908;5908;5908;5908;5908;
  5908;5908;5908;5908;5908;5908;5908;5908;5908;5908;5908;5908;5908;5908;5908;5908;5908;5908;5908;5908;5908;
  5908;5908;5908;5908;5908;5908;5908;5908;5908;5908;5908;5908;5908;5908;5908;5908;5908;5908;5908;5908;5908;
  5908;5908;5908;5908;5908;5908;5908;5908;5908;5908;5908;5908;5908;5908;5908;5908;5908;5908;5908;5908;5908;
  5908;5908;5908;5908;5911;6265;6265;5602;5602;5602;5602;5602;5602;5602;5602;5602;5602;5602;5602;5602;5602;
  5602;5602;5602;5602;5602;5602;5602;5602;5602;5602;5602;5602;5602;5602;5602;5602;5602;5602;5602;5602;5602;
  5602;5602;5602;5602;5602;5602;5602;5602;5602;5602;5602;5602;5602;5602;5602;5602;5602;5602;5602;5602;5602;
  5602;5602;5602;5602;5602;5602;5602;5602;5602;5602;5602;5602;5602;5602;5602;5602;5602;5602;5602;5602;5602;
  5602;5602;5602;5602;5602;5602;5602;5602;5602;5602;5602;5602;5602;5602;5602;5602;5602;5602;5602;5602;5602;
  5602;5602;5602;5602;5602;5602;5602;5602;5602;5602;5602;5602;5602;5602;5602;5602;5602;5602;5602;5602;5602;
  5602;5602;5602;5602;5602;5602;5602;5602;5602;5602;5602;5602;5602;5602;5602;5602;5602;5602;5602;5602;5602;
  5602;5602;5602;5602;5602;5602;5602;5602;5602;5602;5602;5602;5602;5602;5602;5602;5602;5602;5602;5602;5602;
  5602;5602;5602;5602;5602;5602;5602;5602;5602;5602;5602;5602;5602;5602;5602;5602;5602;5602;5602;5602;5602;
  5602;5602;5602;5602;5602;5602;5602;5602;5602;5602;5602;5602;5602;5602;5602;5602;5602;5602;5602;5602;5602;
  5602;5602;5602;5602;5602;5602;5602;5602;5602;5602;5602;5602;5602;5602;5602;5602;5602;5602;5602;5602;5602;
  5602;5602;5602;5602;5602;5602;5602;5602;5602;5602;5602;5602;5602;5602;5602;5602;5602;5602;5602;5602;5602;
  5602;5602;5602;5602;5602;5602;5602;5602;5602;5602;5602;5602;5602;5602;5602;5602;5602;5602;5602;5602;5602;
  5602;5602;5602;5602;5602;5602;5602;5602;5602;5602;5602;5602;5602;5602;5602;5602;5602;5602;5602;5602;5602;
  5602;5602;5602;5602;5602;5602;5602;5602;5602;5602;5602;5602;5602;5602;5602;5602;5602;5602;5602;5602;5602;
  5602;5602;5602;5602;5602;5602;5602;5602;5602;5602;5602;5602;5602;5602;5602;5602;5602;5602;5602;5602;5602;
  5602;5602;5602;5602;5602;5602;5602;5602;5602;5602;5602;5602;5602;5602;5602;5602;5602;5602;5602;5602;5602;
  5602;5602;5602;5602;5602;5602;5602;5602;5602;5602;5602;5602;5602;5602;5602;5602;5602;5602;5602;5602;5602;
  5602;5602;5602;5602;5602;5602;5602;5602;5602;5602;5602;5602;5602;5602;5602;5602;5602;5602;5602;5602;5602;
  5602;5602;5602;5602;5602;5602;5602;5602].
Definition propsVectorsTrie_index_2 : list Z := [
  5602;5602;5602;5602;5602;5602;5602;5602;5602;5602;5602;5602;5602;5602;5602;5602;5602;5602;5602;5602;5602;
  5602;5602;5602;5602;5602;5602;5602;5602;5602;5602;5602;5602;5602;5602;5602;5602;5602;5602;5602;5602;5602;
  5602;5602;5602;5602;5602;5602;5602;5602;5602;5602;5602;5602;5602;5602;5602;5602;5602;5602;5602;5602;5602;
  5602;5602;5602;5602;5602;5602;5602;5602;5602;5602;5602;5602;5602;5602;5602;5602;5602;5602;5602;5602;5602;
  5602;5602;5602;5602;5602;5602;5602;5602;5602;5602;5602;5602;5602;5602;5602;5602;5602;5602;5602;5602;5602;
  5602;5602;5602;5602;5602;5602;5602;5602;5602;5602;5602;5602;5602;5602;5602;5602;5602;5602;5602;5602;5602;
  5602;5602;5602;5602;5602;5602;5602;5602;5602;5602;5602;5602;5602;5602;5602;5602;5602;5602;5602;5602;5602;
  5602;5602;5602;5602;5602;5602;5602;5602;5602;5602;5602;5602;5602;5602;5602;5602;5602;5602;5602;5602;5602;
  5602;5602;5602;5602;5602;5602;5602;5602;5602;5602;5602;5602;5602;5602;5602;5602;5602;5602;5602;5602;5602;
  5602;5602;5602;5602;5602;5602;5602;5602;5602;5602;5602;5602;5602;5602;5602;5602;5602;5602;5602;5602;5602;
  5602;5602;5602;5602;5602;5602;5602;5602;5602;5602;5602;5602;5602;5602;5602;5602;5602;5602;5602;5602;5602;
  5602;5602;5602;5602;5602;5602;5602;5602;5602;5602;5602;5602;5602;5602;5602;5602;5602;5602;5602;5602;5602;
  5602;5609;6704;4789;5919;5925;5925;5925;5925;5925;5925;5925;5925;5925;5925;5925;5925;5925;5925;5925;5925;
  5925;5925;5925;5925;5925;5925;5925;5925;5925;5925;5925;5925;5925;5925;5925;5925;5925;5925;5925;2648;5933;
  2656;6736;6619;6619;6619;6619;6619;6619;6619;6619;6615;3330;6635;6627;6637;6744;6744;3478;6361;6478;6563;
  6567;6555;6921;3256;3259;6409;3216;6486;3267;6645;6648;3338;6752;6664;6656;3346;3486;6760;6764;3494;4080;
  6672;3354;3362;6772;6788;6780;3502;3831;3653;3661;7301;4008;7474;7474;6796;3510;5748;5749;5750;5751;5752;
  5753;5754;5748;5749;5750;5751;5752;5753;5754;5748;5749;5750;5751;5752;5753;5754;5748;5749;5750;5751;5752;
  5753;5754;5748;5749;5750;5751;5752;5753;5754;5748;5749;5750;5751;5752;5753;5754;5748;5749;5750;5751;5752;
  5753;5754;5748;5749;5750;5751;5752;5753;5754;5748;5749;5750;5751;5752;5753;5754;5748;5749;5750;5751;5752;
  5753;5754;5748;5749;5750;5751;5752;5753;5754;5748;5749;5750;5751;5752;5753;5754;5748;5749;5750;5751;5752;
  5753;5754;5748;5749;5750;5751;5752;5753;5754;5748;5749;5750;5751;5752;5753;5754;5748;5749;5750;5751;5752;
  5753;5754;5748;5749;5750;5751;5752;5753;5754;5748;5749;5750;5751;5752;5753;5754;5748;5749;5750;5751;5752;
  5753;5754;5748;5749;5750;5751;5752;5753;5754;5748;5749;5750;5751;5752;5753;5754;5748;5749;5750;5751;5752;
  5753;5754;5748;5749;5750;5751;5752;5753].
Definition propsVectorsTrie_index_3 : list Z := [
  5754;5748;5749;5750;5751;5752;5753;5754;5748;5749;5750;5751;5752;5753;5754;5748;5749;5750;5751;5752;5753;
  5754;5748;5749;5750;5751;5752;5753;5754;5748;5749;5750;5751;5752;5753;5754;5748;5749;5750;5751;5752;5753;
  5754;5748;5749;5750;5751;5752;5753;5754;5748;5749;5750;5751;5752;5753;5754;5748;5749;5750;5751;5752;5753;
  5754;5748;5749;5750;5751;5752;5753;5754;5748;5749;5750;5751;5752;5753;5754;5748;5749;5750;5751;5752;5753;
  5754;5748;5749;5750;5751;5752;5753;5754;5748;5749;5750;5751;5752;5753;5754;5748;5749;5750;5751;5752;5753;
  5754;5748;5749;5750;5751;5752;5753;5754;5748;5749;5750;5751;5752;5753;5754;5748;5749;5750;5751;5752;5753;
  5754;5748;5749;5750;5751;5752;5753;5754;5748;5749;5750;5751;5752;5753;5754;5748;5749;5750;5751;5752;5753;
  5754;5748;5749;5750;5751;5752;5753;5754;5748;5749;5750;5751;5752;5753;5754;5748;5749;5750;5751;5752;5753;
  5754;5748;5749;5750;5751;5752;5753;5754;5748;5749;5750;5751;5752;5753;5754;5748;5749;5750;5751;5752;5753;
  2664;3518;3521;1288;1288;1288;1288;1288;1288;1288;1288;1288;1288;1288;1288;1288;1288;1288;1288;1288;1288;
  1288;1288;1288;1288;1288;1288;1288;1288;1288;1288;1288;1288;1288;1288;5708;5708;5708;5708;5708;5708;5708;
  5708;5708;5708;5708;5708;5708;5708;5708;5708;5708;5708;5708;5708;5708;5708;5708;5708;5708;5708;5708;5708;
  5708;5708;5708;5708;5445;5445;5445;5445;5445;5445;5445;5445;5445;5445;5445;5445;5445;5445;5445;5445;5445;
  5445;5445;5445;5445;5445;5445;5445;5445;5445;5445;5445;5445;5445;5445;5445;5445;5445;5445;5445;5445;5445;
  5445;5445;5445;5445;5445;5445;5445;5445;5445;5445;5445;5445;5445;5445;5445;5445;5445;5445;5445;5445;5445;
  5445;5445;5445;5445;5445;5445;5445;5445;5445;5445;5445;5445;5445;5445;5445;5445;5445;5445;5445;5445;5445;
  5445;5445;5445;5445;5445;5445;5445;5445;5445;5445;5445;5445;5445;5445;5445;5445;5445;5445;5445;5445;5445;
  5445;5445;5445;5445;5445;5445;5445;5445;5445;5445;5445;5445;5445;5445;5445;5445;5445;5445;5445;5445;5445;
  5445;5445;5445;5445;5445;5445;5445;5445;5445;5445;5445;5445;5445;5445;5445;5445;5445;5445;5445;5445;5445;
  5445;5445;5445;5445;5445;5445;5445;5445;5445;5445;5445;5445;5445;5445;5445;5445;5445;5445;5445;5445;5445;
  5445;5445;5445;5445;5445;5445;5445;5445;5445;5445;5445;5445;5445;5445;5445;5445;5445;5445;5445;5445;5445;
  5445;5445;5445;5445;5445;5445;5445;5445;5445;5445;5445;5445;5445;5445;5445;5617;5617;5617;5617;5617;5617;
  5617;5617;5622;5630;6201;4797;6425;6425;4801;4808;2672;2680;2688;5298;5305;5313;2696;5321;5370;5370;5282;
  5290;5329;5361;5362;5378;5337;5274;2704;5345;2712;5353;2720;2724;3232;5386;2732;2740;5394;5400;5405;2748;
  2764;5474;5482;5453;5458;2772;2780;2756].
Definition propsVectorsTrie_index_4 : list Z := [
  5692;5692;5692;5692;5692;5692;5692;5692;5692;5692;5692;5692;5692;5692;5692;5692;5692;5692;5692;5692;5692;
  5692;5692;5692;5692;5692;5692;5692;5700;5700;5700;5700;5152;5152;5216;5280;5344;5408;5472;5536;5596;5660;
  5704;5768;5832;5896;5960;6024;6088;6148;6212;6276;6340;6392;6452;6516;6580;6644;6704;6768;6832;6896;6960;
  7024;2688;2752;2816;2880;2944;2624;3701;2624;3735;2624;2624;2624;2624;3008;4829;4829;3799;3072;2624;2624;
  2624;2624;3863;3117;2624;2624;3181;3245;3309;3373;3637;3493;4637;4637;4637;4637;4637;4637;4637;4637;4637;
  4637;4637;4637;4637;4637;4637;4637;4637;4637;4637;4637;3927;4701;4242;4306;4765;4317;4893;4893;4893;3991;
  4023;4087;4957;4957;4151;4023;4023;4023;4023;4023;4023;4023;4023;4023;4023;4023;4023;4023;4023;4023;4023;
  4023;4023;4023;4023;4023;4023;4023;4023;4023;4023;4023;4023;4178;2624;2624;2624;2624;2624;2624;2624;2624;
  2624;2624;2624;2624;2624;2624;2624;2624;2624;2624;2624;2624;2624;2624;2624;2624;2624;2624;2624;2624;2624;
  2624;2624;3429;2624;2624;2624;2624;2624;2624;2624;2624;2624;2624;2624;2624;2624;2624;2624;2624;2624;2624;
  2624;2624;2624;2624;2624;2624;2624;2624;2624;2624;2624;2624;2624;3429;2624;2624;2624;2624;2624;2624;2624;
  2624;2624;2624;2624;2624;2624;2624;2624;2624;2624;2624;2624;2624;2624;2624;2624;2624;2624;2624;2624;2624;
  2624;2624;2624;3429;2624;2624;2624;2624;2624;2624;2624;2624;2624;2624;2624;2624;2624;2624;2624;2624;2624;
  2624;2624;2624;2624;2624;2624;2624;2624;2624;2624;2624;2624;2624;2624;3429;2624;2624;2624;2624;2624;2624;
  2624;2624;2624;2624;2624;2624;2624;2624;2624;2624;2624;2624;2624;2624;2624;2624;2624;2624;2624;2624;2624;
  2624;2624;2624;2624;3429;2624;2624;2624;2624;2624;2624;2624;2624;2624;2624;2624;2624;2624;2624;2624;2624;
  2624;2624;2624;2624;2624;2624;2624;2624;2624;2624;2624;2624;2624;2624;2624;3429;2624;2624;2624;2624;2624;
  2624;2624;2624;2624;2624;2624;2624;2624;2624;2624;2624;2624;2624;2624;2624;2624;2624;2624;2624;2624;2624;
  2624;2624;2624;2624;2624;3429;2624;2624;2624;2624;2624;2624;2624;2624;2624;2624;2624;2624;2624;2624;2624;
  2624;2624;2624;2624;2624;2624;2624;2624;2624;2624;2624;2624;2624;2624;2624;2624;3429;2624;2624;2624;2624;
  2624;2624;2624;2624;2624;2624;2624;2624;2624;2624;2624;2624;2624;2624;2624;2624;2624;2624;2624;2624;2624;
  2624;2624;2624;2624;2624;2624;3429;2624;2624;2624;2624;2624;2624;2624;2624;2624;2624;2624;2624;2624;2624;
  2624;2624;2624;2624;2624;2624;2624;2624;2624;2624;2624;2624;2624;2624;2624;2624;2624;3429;3557;3573;2624;
  2624;2624;2624;2624;2624;2624;2624;2624;2624;2624;2624;2624;2624;2624;2624;2624;2624;2624;2624;2624;2624;
  2624;2624;2624;2624;2624;2624;2624;3429].
Definition propsVectorsTrie_index_5 : list Z := [
  4509;4509;4509;4509;4509;4509;4509;4509;4509;4509;4509;4509;4509;4509;4509;4509;4509;4509;4509;4509;4509;
  4509;4509;4509;4509;4509;4509;4509;4509;4509;4509;4381;4573;4573;4573;4573;4573;4573;4573;4573;4573;4573;
  4573;4573;4573;4573;4573;4573;4573;4573;4573;4573;4573;4573;4573;4573;4573;4573;4573;4573;4573;4573;4573;
  4445;1288;1288;1288;1288;1288;1288;1288;1288;1288;1288;1288;1288;1288;1288;1288;1288;1288;1288;1288;1288;
  1288;1288;1288;1288;1288;1288;1288;1288;1288;1288;1288;1288;1288;1288;1288;1288;1288;1288;1288;1288;1288;
  1288;1288;1288;1288;1288;1288;1288;1288;1288;1288;1288;1288;1288;1288;1288;1288;1288;1288;1288;1288;1288;
  1288;1288;2980;2987;2995;3003;6273;6273;6273;3011;3019;3022;6321;6313;3073;3370;3374;3378;1288;1288;1288;
  1288;3386;6680;3394;3903;5941;2788;2794;4096;3030;6377;3195;1288;5962;5949;5954;6281;3038;3046;4404;4410;
  7277;3933;7261;1784;1288;1288;1288;1288;7309;7309;7309;7309;7309;7309;7309;7309;7309;4016;4024;4032;1288;
  1288;1288;1288;3054;3057;3529;7381;4088;1792;1288;4242;3275;3402;1288;1288;7170;3839;3847;7453;3157;3164;
  3172;6804;7349;1288;7317;4048;6812;3537;3545;3553;4128;1800;1288;1288;6820;6820;1808;1288;7498;4266;7490;
  4274;7694;4524;1288;1288;1288;1288;1288;1288;1288;1288;1288;3561;7782;4753;1288;1288;7726;4564;4571;1816;
  1288;1820;4680;4579;6937;6939;3669;3676;6828;6836;3569;3871;7162;3815;3823;4040;7194;7198;7206;4160;3987;
  3992;1828;1288;4250;4258;7293;4000;3957;3963;3971;3979;1288;1288;1288;1288;7594;7586;4388;4396;7421;7413;
  4200;1288;1288;1288;1288;1288;7397;4136;4144;4152;7341;7333;4064;4380;7214;3887;1836;1288;4216;4224;1288;
  1288;1288;1288;1288;1288;7686;4494;1844;1288;1288;7437;7429;4208;4688;4694;4702;1288;1288;4587;4591;4599;
  7646;7638;4470;7630;7622;1852;7389;4120;1288;1288;1288;1288;1288;1288;1288;1288;4314;4319;4327;4334;4366;
  4372;1288;1288;4442;4446;4454;4510;4516;1860;1288;1288;1288;1288;1288;1288;1288;1288;1288;4540;1288;1288;
  1288;1288;1288;1864;7758;4664;6494;6494;6494;6494;6494;6494;6494;6494;6494;6494;6494;6494;6494;6494;6494;
  6494;6494;6494;6494;6494;6494;6494;6494;6494;6494;6494;6494;6499;3283;3290;3290;3290;6507;6507;6507;3298;
  7482;7482;7482;7482;7482;7482;1872;1288;1288;1288;1288;1288;1288;1288;1288;1288;1288;1288;1288;1288;1288;
  1288;1288;1288;1288;1288;1288;1288;6947;6947;6947;6947;6947;6947;6947;6947;6947;6947;6947;6947;6947;6947;
  6947;6947;6947;3684;4072;1880;1288;1288;1884;3895;7373;7365;4104;4112;1892;1288;1288;1288;1288;1288;1288;
  1288;1288;1288;1288;1288;1288;1288;1288;1288;1288;1288;1288;1288;1288;1288;7718;7710;4556;1288;1288;1288;
  7186;7186;3855;7178;3863;1288;1288;4358].
Definition propsVectorsTrie_index_6 : list Z := [
  7610;7610;7610;7610;7610;7610;7610;7610;7610;7610;7610;7610;7610;7610;7610;7610;7610;7610;7610;7610;7610;
  7610;7610;7614;7798;7798;7798;7798;7798;7798;7798;7798;7798;7798;7798;7798;7798;7798;4710;4716;4742;4745;
  4745;4745;1900;1288;1288;1288;1288;1288;1288;1288;1288;1288;1288;1288;1288;1288;1288;1288;1288;1288;1288;
  1288;1288;1288;1288;1288;1288;1288;1288;1288;1288;1288;1288;1288;1288;7269;7269;7269;3920;3925;1908;1288;
  1288;1288;1288;1288;1288;1288;1288;1288;1288;1288;1288;1288;1288;1288;1288;1288;1288;1288;1288;1288;1288;
  1288;1288;1288;1288;5970;5970;5970;5970;5970;5970;5970;2802;5986;2810;5987;5978;5995;6001;6009;2818;6305;
  6305;1916;1288;1288;1288;1288;4548;6289;6289;3065;3306;1288;1288;1288;1288;6058;6065;2826;6068;2834;2842;
  2850;6062;2858;2866;2874;6067;6075;6058;6065;6061;6068;6076;6059;6066;6062;2881;6017;6025;6032;6039;6020;
  6028;6035;6042;2889;6050;7522;7522;7522;7522;7522;7522;7522;7522;7522;7522;7522;7522;7522;7522;7522;7522;
  7506;7509;7506;7516;4298;1924;1288;1288;1288;1288;1288;1288;1288;1288;1288;1288;1288;1288;1288;1288;1288;
  1288;1288;1288;1288;1288;1288;1288;1288;1288;1288;1288;1288;1288;1288;1288;1288;1288;1288;1288;1288;1288;
  1288;1288;1288;1288;1288;1288;4350;1932;1288;1288;1288;1288;1288;1288;7750;4607;1940;1288;1288;1288;1288;
  1288;1288;1288;1288;1288;1288;1288;7766;4672;1288;1288;1288;1288;1288;1288;1288;1288;1288;1288;1288;1288;
  1288;1288;1288;1288;1288;1288;1288;1288;1288;1288;1288;1288;1288;1288;1288;1288;1288;1288;1288;1288;1288;
  1288;1288;1288;1288;1288;1288;1288;7325;7325;7325;7325;7325;7325;4056;1288;7578;7570;4306;1288;1288;1288;
  1288;1288;1288;1288;1288;1288;1288;1288;1288;1288;1288;1288;1288;1288;1288;1288;1288;1288;1288;1288;1288;
  1944;7702;4532;1288;1288;4615;4616;1952;1288;1288;1288;1288;1288;3756;3764;3772;3780;3788;3796;3803;3807;
  1288;1288;1288;1288;1288;1288;1288;1288;1288;1288;1288;1288;1288;1288;1288;1288;1288;1288;1288;1288;1288;
  1288;1288;1288;1288;1288;1288;1288;1288;1288;1288;1288;1288;1288;1288;1288;1288;1288;1288;1288;1288;1288;
  1288;1288;1288;1288;1288;1288;1288;1288;1288;1288;1288;1288;1288;1288;1288;1288;1288;1288;1288;1288;1288;
  1956;4168;7405;4174;7405;4182;4187;4192;4192;7538;7554;7562;4282;7546;7734;4290;7662;7742;7742;4478;4486;
  4639;4645;4650;4656;7774;7774;7774;7774;4724;7774;4730;4734;1964;1964;1964;1964;1964;1964;1964;1964;1964;
  1964;1964;1964;1964;1964;1964;1964;1964;1964;1964;1964;1964;1964;1964;1964;1964;1964;1964;1964;1964;1964;
  1964;1965;2897;6084;6084;6084;1973;1973;1973;1973;6297;6297;6297;6297;6297;6297;6297;1981;1973;1973;1973;
  1973;1973;1973;1973;1973;1973;1973;1973].
Definition propsVectorsTrie_index_7 : list Z := [
  1973;1973;1973;1973;1973;1973;1973;1973;1973;1973;1973;1973;1973;1973;1973;1973;1973;1973;1973;1973;1973;
  1973;1973;1973;1973;1973;1973;1973;1973;1973;1973;1973;1973;1973;1973;1973;1973;1973;1973;1973;1973;1973;
  1973;1973;1973;1973;1973;1973;1973;1973;1973;1973;1973;6688;3410;6696;6696;3414;3692;3700;3708;6889;6865;
  6897;6905;6881;3585;3589;3596;3604;3611;3619;3627;3629;3629;3629;3629;7002;7010;7002;7016;7024;6971;7032;
  7040;7002;7048;7056;7063;7071;6979;7002;7076;6987;6994;7084;7090;7246;7253;7238;7098;7106;7114;7122;7357;
  7130;7138;3716;3724;6955;6955;6955;3732;7285;7285;3941;3949;6844;6844;6844;6844;6844;6844;6844;6844;6844;
  6844;6844;6844;6844;6844;6844;6844;6844;6844;6846;6844;6854;6844;6844;6844;6844;6844;6844;6857;6844;6844;
  6844;6844;6844;3577;1288;1288;1288;1288;1288;1288;1288;1288;1288;1288;1288;1288;1288;1288;1288;1288;1288;
  1288;1288;1288;1288;1288;1288;1288;1288;1288;1288;1288;1288;1288;1288;1288;7461;7461;7461;7461;7461;7461;
  7461;7461;7461;7461;7461;7461;7461;7461;7466;7461;7461;7461;4232;4234;1288;1288;1288;1288;1288;1288;1288;
  1288;1288;1288;1288;1288;7602;7602;7602;7602;7602;7602;7602;7602;7602;7602;7602;7602;7602;7602;7602;7602;
  7602;7602;7602;7602;7602;7602;7602;7602;7602;7602;7602;7602;7602;7602;7602;7602;7602;7602;7602;7602;7602;
  7602;7602;7602;7602;7602;7602;7602;7602;7602;7602;7602;7602;7602;7602;7602;7602;7602;7602;7602;7602;7602;
  7602;7602;7602;7602;7602;4418;6963;7654;7654;7654;7654;7654;7654;7654;4426;4434;4624;4631;7678;7678;7678;
  7678;7678;7678;7678;7678;7678;7678;7678;4462;1288;1288;1288;1288;1288;1288;1288;1288;1288;1288;1288;1288;
  1288;1288;1288;1288;1288;1288;1288;1288;1288;1288;1288;1288;1288;1288;1288;1288;1288;1288;1288;1288;1288;
  1288;1288;1288;1288;1288;1288;1288;6092;6092;6092;6092;6092;6092;6092;6092;6092;6092;6092;6092;6092;6092;
  6092;6092;6092;6092;6092;6092;6092;6092;6092;6092;6092;6092;6092;6092;6092;6092;6092;6092;6092;6092;6092;
  6092;6092;6092;6092;6092;6092;6092;6092;6092;6092;6092;6092;6092;6092;6092;6092;6092;6092;6092;4816;4761;
  6913;6913;6913;6913;6913;6913;6913;6913;7670;7670;7670;7670;7670;7670;7670;7670;7670;7670;7670;7670;7670;
  7670;7670;7670;7670;7670;7670;7670;7670;7670;7670;7670;7670;7670;7670;7670;7670;7670;7670;4769;4761;4761;
  4761;4761;4761;4761;4761;4761;4761;4761;4761;4761;4761;4761;4761;4761;4761;4761;4761;4761;4761;4761;4761;
  4761;4761;4761;4761;4761;4761;4761;4761;4761;4761;4761;4761;4761;4761;4761;4761;4761;4761;4761;4761;4761;
  4761;4761;4761;4761;4761;4761;4761;4761;4761;4761;4761;4761;4761;4761;4761;4761;4761;4761;4761;4761;6100;
  6100;6100;6100;6100;6100;6100;6100;6100].
Definition propsVectorsTrie_index_8 : list Z := [
  6100;6100;6100;6100;6100;6100;6100;4824;4761;4761;4761;4761;4761;4761;4761;4761;4761;4761;4761;4761;4761;
  4761;4761;4761;4761;4761;4761;4761;4761;4761;4761;4761;4761;4761;4761;4761;4761;4761;4761;4761;4761;4761;
  4761;4761;4761;4761;4761;4761;4761;4761;4761;4761;4761;4761;4773;7790;7790;7790;7790;7790;7790;7790;7790;
  7790;7790;7790;7790;7790;7790;7790;7790;7790;7790;7790;7790;7790;7790;7790;7790;7790;7790;4781;4761;4761;
  4761;4761;4761;4761;4761;4761;4761;4761;4761;4761;4761;4761;4761;4761;4761;4761;4761;4761;4761;4761;4761;
  4761;4761;4761;4761;4761;4761;4761;4761;4761;4761;4761;4761;4761;4761;4761;4761;4761;4761;4761;4761;4761;
  4761;4761;4761;4761;4761;4761;4761;4761;4761;4761;4761;4761;4761;4761;4761;4761;4761;4761;4761;4773;6913;
  6913;6913;6913;6913;6913;6913;6913;6913;6913;6913;6913;6913;6913;6913;6913;6913;6913;6913;6913;6913;6913;
  6913;6913;6913;6913;6913;6913;6913;6913;6913;6913;6913;6913;6913;6913;6913;6913;6913;6913;6913;6913;6913;
  6913;6913;6913;6913;6913;6913;6913;6913;6913;6913;6913;6913;6913;6913;4832;7146;7146;7146;7146;7146;7146;
  4840;7530;7530;7530;7530;7530;7530;7530;7530;7530;7530;7530;7530;7530;7530;7530;7530;7530;7530;7530;7530;
  7530;7530;7530;7530;7530;7530;7530;7530;7530;7530;7530;7530;7530;7530;7530;7530;7530;7530;7530;7530;7530;
  7530;7530;7530;7530;7530;7530;7530;7530;7530;7530;7530;7530;7530;7530;7530;7530;7530;7530;7530;7530;7530;
  7530;4848;7670;7670;7670;7670;7670;7670;7670;7670;7670;7670;5732;5732;5732;5732;5732;5732;5732;5732;5732;
  5732;5732;5732;5732;5732;5732;5732;5732;5732;5732;5732;5732;5732;5732;5732;5732;5732;5732;5732;5732;5732;
  5732;5732;5732;5732;5732;5732;5732;5732;5732;5732;5732;5732;5732;5732;5732;5732;5732;5732;5732;5732;5732;
  5732;5732;5732;5732;5732;5732;5732;5732;5732;5732;5732;5732;5716;5740;5740;5740;5740;5740;5740;5740;5740;
  5740;5740;5740;5740;5740;5740;5740;5740;5740;5740;5740;5740;5740;5740;5740;5740;5740;5740;5740;5740;5740;
  5740;5740;5740;5740;5740;5740;5740;5740;5740;5740;5740;5740;5740;5740;5740;5740;5740;5740;5740;5740;5740;
  5740;5740;5740;5740;5740;5740;5740;5740;5740;5740;5740;5740;5740;5724;5732;5732;5732;5732;5732;5732;5732;
  5732;5732;5732;5732;5732;5732;5732;5732;5732;5732;5732;5732;5732;5732;5732;5732;5732;5732;5732;5732;5732;
  5732;5732;5732;5732;5732;5732;5732;5732;5732;5732;5732;5732;5732;5732;5732;5732;5732;5732;5732;5732;5732;
  5732;5732;5732;5732;5732;5732;5732;5732;5732;5732;5732;5732;5732;5732;5732;5740;5740;5740;5740;5740;5740;
  5740;5740;5740;5740;5740;5740;5740;5740;5740;5740;5740;5740;5740;5740;5740;5740;5740;5740;5740;5740;5740;
  5740;5740;5740;5740;5740;5740;5740;5740].
Definition propsVectorsTrie_index_9 : list Z := [
  5740;5740;5740;5740;5740;5740;5740;5740;5740;5740;5740;5740;5740;5740;5740;5740;5740;5740;5740;5740;5740;
  5740;5740;5740;5740;5740;5740;5740;5740;6092;6092;6092;6092;6092;6092;6092;6092;6092;6092;6092;6092;6092;
  6092;6092;6092;6092;6092;6092;6092;6092;6092;6092;6092;6092;6092;6092;6092;6092;6092;6092;6092;6092;6092;
  6092;6092;6092;6092;6092;6092;6092;6092;6092;6092;6092;6092;6092;6092;6092;6092;6092;6092;6092;6092;6092;
  6092;6092;6092;6092;6092;6092;6092;6092;6092;6913;6913;6913;6913;6913;6913;6913;6913;6913;6913;6913;6913;
  6913;6913;6913;6913;6913;6913;6913;6913;6913;6913;6913;6913;6913;6913;6913;6913;6913;6913;6913;6913;6913;
  6913;6913;6913;6913;6913;6913;6913;6913;6913;6913;6913;6913;6913;6913;6913;6913;6913;6913;6913;6913;6913;
  6913;6913;6913;6913;6913;6913;6913;6913;6913;6913;7530;7530;7530;7530;7530;7530;7530;7530;7530;7530;7530;
  7530;7530;7530;7530;7530;7530;7530;7530;7530;7530;7530;7530;7530;7530;7530;7530;7530;7530;7530;7530;7530;
  7530;7530;7530;7530;7530;7530;7530;7530;7530;7530;7530;7530;7530;7530;7530;7530;7530;7530;7530;7530;7530;
  7530;7530;7530;7530;7530;7530;7530;7530;7530;7530;7530;7602;7602;7602;7602;7602;7602;7602;7602;7602;7602;
  7602;7602;7602;7602;7602;7602;7602;7602;7602;7602;7602;7602;7602;7602;7602;7602;7602;7602;7602;7602;7602;
  7602;7602;7602;7602;7602;7602;7602;7602;7602;7602;7602;7602;7602;7602;7602;7602;7602;7602;7602;7602;7602;
  7602;7602;7602;7602;7602;7602;7602;7602;7602;7602;7602;7602;7670;7670;7670;7670;7670;7670;7670;7670;7670;
  7670;7670;7670;7670;7670;7670;7670;7670;7670;7670;7670;7670;7670;7670;7670;7670;7670;7670;7670;7670;7670;
  7670;7670;7670;7670;7670;7670;7670;7670;7670;7670;7670;7670;7670;7670;7670;7670;7670;7670;7670;7670;7670;
  7670;7670;7670;7670;7670;7670;7670;7670;7670;7670;7670;7670;7670;7790;7790;7790;7790;7790;7790;7790;7790;
  7790;7790;7790;7790;7790;7790;7790;7790;7790;7790;7790;7790;7790;7790;7790;7790;7790;7790;7790;7790;7790;
  7790;7790;7790;7790;7790;7790;7790;7790;7790;7790;7790;7790;7790;7790;7790;7790;7790;7790;7790;7790;7790;
  7790;7790;7790;7790;7790;7790;7790;7790;7790;7790;7790;7790;7790;7790;1255;1255;1255;711;711;711;711;711;
  711;711;711;711;714;723;717;717;720;711;711;711;711;711;711;711;711;711;711;711;711;711;711;711;711;711;711;
  2043;2037;2010;2001;1992;1989;1980;2007;1986;1998;2001;2028;2019;2004;2040;1995;1977;1977;1977;1977;1977;
  1977;1977;1977;1977;1977;2016;2013;2022;2022;2022;2037;1980;2055;2055;2055;2055;2055;2055;2049;2049;2049;
  2049;2049;2049;2049;2049;2049;2049;2049;2049;2049;2049;2049;2049;2049;2049;2049;2049;1986;1992;1998;2034;
  1974].
Definition propsVectorsTrie_index_10 : list Z := [
  2031;2052;2052;2052;2052;2052;2052;2046;2046;2046;2046;2046;2046;2046;2046;2046;2046;2046;2046;2046;2046;
  2046;2046;2046;2046;2046;2046;1986;2025;1983;2022;711;0;0;0;0;0;0;0;0;0;0;0;0;0;0;0;0;0;0;0;0;0;0;0;0;0;0;0;
  0;0;0;0;0;0;0;0;0;0;0;0;0;0;0;0;0;0;0;0;0;0;0;0;0;0;0;0;0;0;0;0;0;0;0;0;0;726;726;726;726;726;741;726;726;
  726;726;726;726;726;726;726;726;726;726;726;726;726;726;726;726;726;726;726;726;726;726;726;726;729;1617;
  2064;2067;1623;2067;2061;1614;1605;735;1635;738;2070;1596;1626;2058;1620;1632;1602;1602;1608;732;1614;1611;
  1605;1602;1635;738;1599;1599;1599;1617;747;747;747;747;747;747;1644;747;747;747;747;747;747;747;747;747;
  1644;747;747;747;747;747;747;1629;1644;747;747;747;747;747;1644;1638;1641;1641;744;744;744;744;1638;744;
  1641;1641;1641;744;1641;1641;744;744;1638;744;1641;1641;744;744;744;1629;1638;1641;1641;744;1641;744;1638;
  744;759;1650;759;750;759;750;759;750;759;750;759;750;759;750;759;750;756;1647;759;1650;759;750;759;750;759;
  750;759;1650;759;750;759;750;759;750;759;750;759;750;1656;1647;759;750;759;1650;759;750;759;750;759;1647;
  1659;1653;759;750;759;750;1647;759;750;759;750;759;750;1659;1653;1656;1647;759;1650;759;750;759;1650;1662;
  1656;1647;759;1650;759;750;759;750;1656;1647;759;750;759;750;759;750;759;750;759;750;759;750;759;750;759;
  750;759;750;1656;1647;759;750;759;1650;759;750;759;750;759;750;759;750;759;750;759;750;759;759;750;759;750;
  759;750;753;762;774;774;762;774;762;774;774;762;774;774;774;762;762;774;774;774;774;762;774;774;762;774;774;
  774;762;762;762;774;774;762;774;777;765;774;762;774;762;774;774;762;774;762;762;774;762;774;777;765;774;774;
  774;762;774;762;774;774;762;762;771;774;762;762;762;771;771;771;771;780;780;768;780;780;768;780;780;768;777;
  1665;777;1665;777;1665;777;1665;777;1665;777;1665;777;1665;777;1665;762;777;765;777;765;777;765;774;762;777;
  765;777;765;777;765;777;765;777;765;765;780;780;768;777;765;2538;2538;2541;2535;777;765;777;765;777;765;777;
  765;777;765;777;765;777;765;777;765;777;765;777;765;777;765;777;765;777;765;2541;2535;2541;2535;2538;2532;
  2541;2535;2991;3255;2538;2532].
Definition propsVectorsTrie_index_11 : list Z := [
  2538;2532;2541;2535;2541;2535;2541;2535;2541;2535;2541;2535;2541;2535;2541;2535;3255;3255;3255;3510;3510;
  3510;3513;3513;3510;3513;3513;3510;3510;3513;3834;3837;3837;3837;3837;3834;3837;3834;3837;3834;3837;3834;
  3837;3834;783;1668;783;783;783;783;783;783;783;783;783;783;783;783;783;783;783;1668;783;783;783;783;783;783;
  783;783;783;783;783;783;783;783;783;783;783;783;783;783;783;783;783;783;783;783;783;783;783;783;786;783;783;
  783;783;783;783;783;783;783;783;783;783;783;783;783;783;783;783;783;783;2544;2544;2544;2544;2544;3258;3258;
  807;807;807;807;807;807;807;807;807;798;798;798;798;798;798;798;795;795;792;792;1674;792;798;1677;801;1677;
  1677;1677;801;1677;798;798;1680;804;792;792;792;792;792;792;1671;1671;1671;1671;789;1671;792;2853;807;807;
  807;807;807;792;792;792;792;792;2553;2553;2550;2547;2550;3261;3261;3261;3261;3261;3261;3261;3261;3261;3261;
  3261;3261;3261;3261;3261;3261;3261;1683;1683;1683;1683;1683;1683;1683;1683;1683;1683;1683;1683;1683;1683;
  1683;1683;1683;1683;1683;1683;1683;1683;1683;1683;1683;1683;1683;1683;1683;1683;1683;1683;1683;1683;1683;
  1683;1683;1683;1683;1683;1683;1683;1683;1683;1683;1683;1683;1683;1683;1683;1683;1683;1683;1683;1683;1683;
  1683;1683;1683;1683;1683;1683;1683;1683;1686;1686;2379;1686;1686;2382;2856;2856;2856;2856;2856;2856;2856;
  2856;2856;3180;3459;3459;3459;3459;3459;3459;3459;3459;3774;3774;3774;3774;3777;3462;3462;3462;1689;1689;
  2859;3252;3252;3252;3252;3252;3252;3252;3252;3252;3252;3252;3252;3252;4008;4005;4008;4005;819;828;4008;4005;
  9;9;834;3840;3840;3840;810;5373;9;9;9;9;831;813;849;816;849;849;849;9;849;9;849;849;840;1695;1695;1695;1695;
  1695;1695;1695;1695;1695;1695;1695;1695;1695;1695;1695;1695;1695;9;1695;1695;1695;1695;1695;1695;1695;849;
  849;840;840;840;840;840;1692;1692;1692;1692;1692;1692;1692;1692;1692;1692;1692;1692;1692;1692;1692;1692;
  1692;837;1692;1692;1692;1692;1692;1692;1692;840;840;840;840;840;4008;852;852;855;849;849;852;843;2556;3000;
  2997;846;2556;846;2556;846;2556;846;2556;825;822;825;822;825;822;825;822;825;822;825;822;825;822;852;852;
  843;837;2919;2916;2994;3267;3264;3270;3267;3264;3516;3519;3519;3519;2571;1707;867;870;867;867;867;870;867;
  867;867;867;870;2571;870;867;1704;1704;1704;1704;1704;1704;1704;1704;1704;1707;1704;1704;1704;1704;1704;
  1704;1704;1704;1704;1704;1704;1704;1704;1704;1704;1704;1704;1704;1704;1704;1704;1704;1698;1698;1698;1698;
  1698;1698;1698;1698].
Definition propsVectorsTrie_index_12 : list Z := [
  1698;1701;1698;1698;1698;1698;1698;1698;1698;1698;1698;1698;1698;1698;1698;1698;1698;1698;1698;1698;2565;
  1701;861;864;861;861;861;864;861;861;861;861;864;2565;864;861;867;861;867;861;867;861;867;861;867;861;867;
  861;867;861;867;861;867;861;867;861;867;861;870;864;867;861;867;861;867;861;867;861;867;861;858;2391;2394;
  2364;2364;4431;2559;2559;3006;3003;2568;2562;2568;2562;867;861;867;861;867;861;867;861;867;861;867;861;867;
  861;867;861;867;861;867;861;867;861;867;861;867;861;867;861;867;861;867;861;867;861;867;861;867;861;867;861;
  867;861;867;861;867;861;867;861;867;870;864;867;861;3006;3003;867;861;3006;3003;867;861;3006;3003;3843;870;
  864;870;864;867;861;870;864;867;861;870;864;870;864;870;864;867;861;870;864;870;864;870;864;867;861;870;864;
  2571;2565;870;864;870;864;870;864;870;864;3525;3522;870;864;3846;3843;3846;3843;3846;3843;3117;3114;3117;
  3114;3117;3114;3117;3114;3117;3114;3117;3114;3117;3114;3117;3114;3891;3888;3891;3888;4131;4128;4131;4128;
  4131;4128;4131;4128;4131;4128;4131;4128;4131;4128;4131;4128;4488;4485;4977;4974;5430;5427;5430;5427;5430;
  5427;5430;5427;12;888;888;888;888;888;888;888;888;888;888;888;888;888;888;888;888;888;888;888;888;888;888;
  888;888;888;888;12;12;891;873;873;873;879;873;876;6465;882;882;882;882;882;882;882;882;882;882;882;882;882;
  882;882;882;882;882;882;882;882;882;882;882;882;882;882;882;882;882;882;882;882;882;885;6465;894;2574;12;12;
  5376;5376;5148;15;2430;2430;2430;2430;2430;2430;2430;2430;2430;2430;2430;2430;2430;2430;2430;2430;2430;3528;
  2430;2430;2430;2430;2430;2430;2430;2430;2430;2430;2430;2430;2430;897;897;897;897;897;897;897;897;897;897;
  3849;897;897;897;909;897;900;897;897;912;2433;3531;3534;3531;15;15;15;15;15;15;15;15;915;915;915;915;915;
  915;915;915;915;915;915;915;915;915;915;915;915;915;915;915;915;915;915;915;915;915;915;15;15;15;15;6468;
  915;915;915;906;903;15;15;15;15;15;15;15;15;15;15;15;3291;3291;3291;3291;5151;5379;4017;4017;4017;4014;4014;
  3540;2247;3285;3282;3282;3273;3273;3273;3273;3273;3273;4011;4011;4011;4011;4011;2244;5370;18;3543;2250;4920;
  942;945;945;945;945;945;942;942;942;942;942;942;942;942;942;942;942;942;942;942;942;942;942;942;942;942;
  4020;4020;4020;4020;4020;2253;942;942;942;942;942;942;942;942;942;942;2370].
Definition propsVectorsTrie_index_13 : list Z := [
  2370;2370;2370;2370;2370;2370;2370;2910;2910;2910;3273;3279;3276;3537;3537;3537;3537;3537;3537;4917;2400;
  2400;2400;2400;2400;2400;2400;2400;2400;2400;936;933;930;927;3009;3009;2367;942;942;954;942;948;948;948;948;
  942;942;942;942;942;942;942;942;942;942;942;942;942;942;942;942;942;942;942;942;942;942;942;942;942;942;942;
  942;942;942;942;942;942;942;942;942;942;942;942;942;942;942;942;942;942;942;942;942;942;942;942;942;942;942;
  942;942;942;942;942;2580;2580;942;942;942;942;942;2580;945;942;945;942;942;942;942;942;942;942;942;942;942;
  942;942;2580;942;942;942;945;2397;942;921;921;921;921;921;921;921;918;927;924;924;921;921;921;921;951;951;
  921;921;927;924;924;924;921;3288;3288;939;939;939;939;939;939;939;939;939;939;2580;2580;2580;2577;2577;3288;
  2601;2601;2601;2595;2595;2595;2595;2595;2595;2595;2595;2592;2595;2592;21;2604;2598;2583;2598;2598;2598;2598;
  2598;2598;2598;2598;2598;2598;2598;2598;2598;2598;2598;2598;2598;2598;2598;2598;2598;2598;2598;2598;2598;
  2598;2598;3294;3294;3294;2589;2589;2589;2589;2589;2589;2589;2589;2589;2589;2589;2589;2589;2589;2589;2589;
  2586;2586;2586;2586;2586;2586;2586;2586;2586;2586;2586;21;21;3294;3294;3294;3639;3639;3639;3639;3639;3639;
  3639;3639;3639;3639;3639;3639;3639;3639;3639;3639;3639;3639;3639;3639;3639;3639;3639;3639;3639;3639;3639;
  3639;3639;3639;4149;4149;4149;4149;4149;4149;4149;4149;4149;4149;4149;4149;4149;4149;4149;4149;4149;4149;
  2610;2610;2610;2610;2610;2610;2610;2610;2610;2610;2610;2610;2610;2610;2610;2610;2610;2610;2610;2610;2610;
  2610;2610;2610;2610;2610;2610;2610;2610;2610;2610;2610;2610;2610;2610;2610;2610;2610;2607;2607;2607;2607;
  2607;2607;2607;2607;2607;2607;2607;3012;24;24;24;24;24;24;24;24;24;24;24;24;24;24;3915;3915;3915;3915;3915;
  3915;3915;3915;3915;3915;3918;3918;3918;3918;3918;3918;3918;3918;3918;3918;3918;3918;3918;3918;3918;3918;
  3918;3918;3918;3918;3918;3918;3918;3918;3918;3918;3918;3918;3918;3918;3918;3918;3918;3906;3906;3906;3906;
  3906;3906;3906;3906;3906;3921;3921;3909;3909;3912;3927;3924;267;267;6504;6507;6507;6393;6393;6393;6393;6393;
  6393;6393;6393;6393;6393;6393;594;594;594;594;594;0;0;0;0;0;0;0;0;0;0;0;0;0;0;0;0;2871;2871;2874;2874;2871;
  2871;2871;2871;2871;2871;2871;2871;114;114;114;114;5562;5562;5562;5562;444;444;444;444;444;444;444;444;444;
  444;444;5559;0;0;0;0;0;0;0;0;0;0;0;0;0;0;0;0].
Definition propsVectorsTrie_index_14 : list Z := [
  495;495;495;495;495;495;495;5748;5748;5748;5748;5748;5748;5748;5748;5748;0;0;0;0;0;0;0;0;0;0;0;0;0;0;0;0;
  507;507;507;507;507;507;507;507;507;5805;5805;5805;5805;5805;5805;5805;0;0;0;0;0;0;0;0;0;0;0;0;0;0;0;0;4731;
  4731;4731;4731;4731;4731;4731;4731;4731;372;372;372;372;372;372;372;0;0;0;0;0;0;0;0;0;0;0;0;0;0;0;0;630;630;
  630;630;630;630;630;630;630;630;630;630;630;630;630;630;0;0;0;0;0;0;0;0;0;0;0;0;0;0;0;0;6903;6903;6903;6903;
  6903;6903;6903;6903;6903;6903;6903;6903;6903;6903;6903;6903;465;465;465;465;465;465;465;465;465;465;465;465;
  465;465;465;465;0;0;0;0;0;0;0;0;0;0;0;0;0;0;0;0;5334;5334;5334;5334;5334;5334;5334;5334;5334;5334;438;438;
  438;438;438;438;0;0;0;0;0;0;0;0;0;0;0;0;0;0;0;0;603;603;603;603;603;603;603;603;603;603;603;603;603;603;603;
  603;0;0;0;0;0;0;0;0;0;0;0;0;0;0;0;0;6375;6378;6378;591;591;591;591;591;591;591;591;591;591;591;591;591;0;0;
  0;0;0;0;0;0;0;0;0;0;0;0;0;0;6582;6582;6582;6582;6582;6582;6582;6582;6582;6582;609;609;609;609;609;609;0;0;0;
  0;0;0;0;0;0;0;0;0;0;0;0;0;6939;669;669;669;669;669;669;669;669;669;669;669;669;669;669;669;6057;6057;6057;
  6057;534;534;534;534;534;534;534;534;534;534;534;534;0;0;0;0;0;0;0;0;0;0;0;0;0;0;0;0;5727;5727;5727;5727;
  5727;5727;5727;5727;5727;5727;489;489;489;489;5733;5733;0;0;0;0;0;0;0;0;0;0;0;0;0;0;0;0;5553;5553;5553;5553;
  5553;5553;5553;5553;5553;5553;5553;5553;5553;5553;5553;5553;5787;5787;5787;5787;5787;5787;5787;5787;5787;
  5787;5787;5787;5787;5787;5787;5787;0;0;0;0;0;0;0;0;0;0;0;0;0;0;0;0;675;675;675;675;675;675;675;675;675;675;
  675;675;675;675;675;675;0;0;0;0;0;0;0;0;0;0;0;0;0;0;0;0;5907;5907;5907;5907;510;510;510;510;510;510;510;510;
  510;510;510;510;0;0;0;0;0;0;0;0;0;0;0;0;0;0;0;0;3630;3630;3627;3627;3627;3630;216;216;216;216;216;216;216;
  216;216;216].
Definition propsVectorsTrie_index_15 : list Z := [
  0;0;0;0;0;0;0;0;0;0;0;0;0;0;0;0;549;6081;6081;6081;6081;6081;6081;6081;6081;6081;6081;6081;6081;6081;6081;
  6081;0;0;0;0;0;0;0;0;0;0;0;0;0;0;0;0;6213;6213;561;6213;6213;561;6213;6213;6213;6213;6213;561;561;561;561;
  561;0;0;0;0;0;0;0;0;0;0;0;0;0;0;0;0;6765;6765;6765;6765;6765;6765;6765;6765;6765;6765;642;642;642;642;6768;
  6762;0;0;0;0;0;0;0;0;0;0;0;0;0;0;0;0;615;6603;6603;6603;6603;6603;6603;6603;6603;6603;6603;6603;6603;6603;
  6603;6603;645;645;645;645;645;645;645;645;645;645;645;645;645;645;645;645;0;0;0;0;0;0;0;0;0;0;0;0;0;0;0;0;0;
  0;0;0;0;0;0;0;0;0;0;0;0;0;2427;2427;3;3;3;3;3;3;3;3;3;3;3;3;3;3;3;3;3;3;3;3;3;3;3;3;3;3;3;3;3;3;3;3;3;3;
  2427;2427;6;6;6;6;6;6;6;6;6;6;6;6;6;6;6;6;6;6;6;6;6;6;6;6;6;6;6;6;6;6;6;6;3468;3468;3468;3468;3468;3468;
  3468;3468;3468;3468;3468;3468;3468;3468;3468;3468;6;6;6;6;6;6;6;6;6;6;6;6;6;6;6;6;5385;981;996;996;27;1002;
  1002;1002;1002;1002;1002;1002;1002;27;27;1002;1002;27;27;1002;1002;1002;1002;1002;1002;1002;1002;1002;1002;
  1002;1002;1002;1002;27;1002;1002;1002;1002;1002;1002;1002;27;1002;27;27;27;1002;1002;1002;1002;27;27;984;
  3300;981;996;996;981;981;981;981;27;27;996;996;27;27;999;999;987;3549;27;27;27;27;27;27;27;27;981;27;27;27;
  27;1005;1005;27;1005;1002;1002;981;981;27;27;2406;2406;2406;2406;2406;2406;2406;2406;2406;2406;1002;1002;
  993;993;990;990;990;990;990;993;990;4446;6306;6303;6471;27;30;3303;1008;3306;30;1020;1020;1020;1020;1020;
  1020;30;30;30;30;1020;1020;30;30;1020;1020;1020;1020;1020;1020;1020;1020;1020;1020;1020;1020;1020;1020;30;
  1020;1020;1020;1020;1020;1020;1020;30;1020;1023;30;1020;1023;30;1020;1020;30;30;1011;30;1017;1017;1017;1008;
  1008;30;30;30;30;1008;1008;30;30;1008;1008;1014;30;30;30;4029;30;30;30;30;30;30;30;1023;1023;1023;1020;30;
  1023;30;30;30;30;30;30;30;2409;2409;2409;2409;2409;2409;2409;2409;2409;2409;1008;1008;1020;1020;1020;4029;
  6474;30;30;30;30;30].
Definition propsVectorsTrie_index_16 : list Z := [
  30;30;30;30;33;1026;1026;1035;33;1038;1038;1038;1038;1038;1038;1038;3315;1038;33;1038;1038;1038;33;1038;
  1038;1038;1038;1038;1038;1038;1038;1038;1038;1038;1038;1038;1038;33;1038;1038;1038;1038;1038;1038;1038;33;
  1038;1038;33;1038;1038;1038;1038;1038;33;33;1029;1038;1035;1035;1035;1026;1026;1026;1026;1026;33;1026;1026;
  1035;33;1035;1035;1032;33;33;1038;33;33;33;33;33;33;33;33;33;33;33;33;33;33;33;1038;3315;3309;3309;33;33;
  2412;2412;2412;2412;2412;2412;2412;2412;2412;2412;5154;3312;33;33;33;33;33;33;33;5925;6309;6309;6309;6312;
  6312;6312;36;1041;1056;1056;36;1062;1062;1062;1062;1062;1062;1062;1062;36;36;1062;1062;36;36;1062;1062;1062;
  1062;1062;1062;1062;1062;1062;1062;1062;1062;1062;1062;36;1062;1062;1062;1062;1062;1062;1062;36;1062;1062;
  36;3318;1062;1062;1062;1062;36;36;1044;1062;1041;1041;1056;1041;1041;1041;4032;36;36;1056;1059;36;36;1059;
  1059;1047;36;36;36;36;36;36;36;6837;1041;1041;36;36;36;36;1065;1065;36;1062;1062;1062;4032;4032;36;36;1053;
  1053;1053;1053;1053;1053;1053;1053;1053;1053;1050;3318;4932;4932;4932;4932;4932;4932;36;36;36;36;36;36;36;
  36;39;39;1068;1080;39;1080;1080;1080;1080;1080;1080;39;39;39;1080;1080;1080;39;1080;1080;1083;1080;39;39;39;
  1080;1080;39;1080;39;1080;1080;39;39;39;1080;1080;39;39;39;1080;1080;1080;39;39;39;1080;1080;1080;1080;1080;
  1080;1080;1080;3552;1080;1080;1080;39;39;39;39;1068;1074;1068;1074;1074;39;39;39;1074;1074;1074;39;1077;
  1077;1077;1071;39;39;4035;39;39;39;39;39;39;1068;39;39;39;39;39;39;39;39;39;39;3831;2418;2418;2418;2418;
  2418;2418;2418;2418;2418;2415;2415;2415;3504;3321;3321;3321;3321;3321;3324;3321;39;39;39;39;39;5388;1098;
  1098;1098;6477;1101;1101;1101;1101;1101;1101;1101;1101;42;1101;1101;1101;42;1101;1101;1101;1101;1101;1101;
  1101;1101;1101;1101;1101;1101;1101;1101;1101;42;1101;1101;1101;1101;1101;1101;1101;1101;1101;1101;5391;1101;
  1101;1101;1101;1101;42;42;42;4044;1086;1086;1086;1098;1098;1098;1098;42;1086;1086;1089;42;1086;1086;1086;
  1092;42;42;42;42;42;42;42;1086;1086;42;4044;4044;5928;42;42;42;42;42;1101;1101;4038;4038;42;42;1095;1095;
  1095;1095;1095;1095;1095;1095;1095;1095;42;42;42;42;42;42;42;6681;4041;4041;4041;4041;4041;4041;4041;4041;
  6117;5394;1110;1110;6480;1116;1116;1116;1116;1116;1116;1116;1116;45;1116;1116;1116;45;1116;1116;1116;1116;
  1116;1116].
Definition propsVectorsTrie_index_17 : list Z := [
  1116;1116;1116;1116;1116;1116;1116;1116;1116;45;1116;1116;1116;1116;1116;1116;1116;1116;1116;1116;45;1116;
  1116;1116;1116;1116;45;45;3327;3330;1110;1104;1113;1110;1104;1110;1110;45;1104;1113;1113;45;1113;1113;1104;
  1107;45;45;45;45;45;45;45;1104;1104;45;45;45;45;45;45;45;1116;45;1116;1116;3855;3855;45;45;2421;2421;2421;
  2421;2421;2421;2421;2421;2421;2421;45;3858;3858;45;45;45;45;45;45;45;45;45;45;45;45;45;6315;5397;1128;1128;
  6840;1134;1134;1134;1134;1134;1134;1134;1134;48;1134;1134;1134;48;1134;1134;1134;1134;1134;1134;1134;1134;
  1134;1134;1134;1134;1134;1134;1128;1119;1119;1119;4047;48;1128;1128;1128;48;1131;1131;1131;1122;4938;6120;
  48;48;48;48;6123;6123;6123;1119;6120;6120;6120;6120;6120;6120;6120;5931;1134;1134;4047;4047;48;48;1125;1125;
  1125;1125;1125;1125;1125;1125;1125;1125;4050;4050;4050;4050;4050;4050;6120;6120;6120;4053;4056;4056;4056;
  4056;4056;4056;51;6843;2622;2622;51;2628;2628;2628;2628;2628;2628;2628;2628;2628;2628;2628;2628;2628;2628;
  2628;2628;2628;2628;51;51;51;2628;2628;2628;2628;2628;2628;2628;2628;2628;2628;2628;2628;2628;2628;2628;
  2628;2628;2628;2628;2628;51;2628;2628;2628;2628;2628;2628;2628;2628;2628;51;2628;51;51;2628;2628;2628;2628;
  2628;2628;2628;51;51;51;2616;51;51;51;51;2613;2622;2622;2613;2613;2613;51;2613;51;2622;2622;2625;2622;2625;
  2625;2625;2613;51;51;51;51;51;51;5400;5400;5400;5400;5400;5400;5400;5400;5400;5400;51;51;2622;2622;2619;51;
  51;51;51;51;51;51;51;51;51;51;54;1161;1161;1161;1161;1161;1161;1161;1161;1161;1161;1161;1161;1161;1161;1161;
  1161;1161;1161;1161;1161;1161;1161;1161;1161;1161;1161;1161;1161;1161;1161;1161;1161;1140;1161;1158;1140;
  1140;1140;1140;1140;1140;1146;54;54;54;54;1137;1167;1167;1167;1167;1167;1161;1164;1143;1143;1143;1143;1143;
  1143;1140;1143;1149;1155;1155;1155;1155;1155;1155;1155;1155;1155;1155;1152;1152;54;54;54;54;54;54;54;54;54;
  54;54;54;54;54;54;54;54;54;54;54;54;54;54;54;54;54;54;54;54;54;54;54;57;1182;1182;57;1182;57;6687;1182;1182;
  6687;1182;57;6687;1182;6687;6687;6687;6687;6687;6687;1182;1182;1182;1182;6687;1182;1182;1182;1182;1182;1182;
  1182;6687;1182;1182;1182;57;1182;57;1182;6687;6687;1182;1182;6687;1182;1182;1182;1182;1170;1182;1179;1170;
  1170;1170;1170;1170;1170;6684;1170;1170;1182;57;57;1191;1191;1191;1191;1191;57;1188;57;1173;1173;1173;1173;
  1173;1170;57;57;1176;1176;1176;1176;1176;1176;1176;1176].
Definition propsVectorsTrie_index_18 : list Z := [
  1176;1176;57;57;1185;1185;5157;5157;57;57;57;57;57;57;57;57;57;57;57;57;57;57;57;57;57;57;57;57;57;57;57;57;
  57;57;57;57;57;57;57;57;2487;2487;2487;2490;2487;2487;2487;2487;60;2487;2487;2487;2487;2490;2487;2487;2487;
  2487;2490;2487;2487;2487;2487;2490;2487;2487;2487;2487;2490;2487;2487;2487;2487;2487;2487;2487;2487;2487;
  2487;2487;2487;2490;2643;4068;4068;60;60;60;60;2436;2436;2439;2436;2439;2439;2448;2439;2448;2436;2436;2436;
  2436;2436;2481;2436;2439;2442;2442;2445;2454;2442;2442;2487;2487;2487;2487;4947;4941;4941;4941;2436;2436;
  2436;2439;2436;2436;2631;2436;60;2436;2436;2436;2436;2439;2436;2436;2436;2436;2439;2436;2436;2436;2436;2439;
  2436;2436;2436;2436;2439;2436;2631;2631;2631;2436;2436;2436;2436;2436;2436;2436;2631;2439;2631;2631;2631;60;
  2640;2640;2637;2637;2637;2637;2637;2637;2634;2637;2637;2637;2637;2637;2637;60;4059;2637;3555;3555;4062;4065;
  4059;4449;4449;4449;4449;4944;4944;60;60;60;60;60;60;60;60;60;60;60;60;60;60;60;60;60;60;60;60;60;60;60;60;
  60;60;60;60;60;60;60;60;60;1197;1197;1197;1197;1197;1197;63;5163;63;63;63;63;63;5163;63;63;1194;1194;1194;
  1194;1194;1194;1194;1194;1194;1194;1194;1194;1194;1194;1194;1194;2685;2685;2685;2685;2685;2685;2685;3570;
  2685;66;2685;2685;2685;2685;66;66;2685;2685;2685;2685;2685;2685;2685;66;2685;66;2685;2685;2685;2685;66;66;
  2685;2685;2685;2685;2685;2685;2685;3570;2685;66;2685;2685;2685;2685;66;66;2685;2685;2685;2685;2685;2685;
  2685;2685;2685;2685;2685;2685;2685;2685;2685;2685;2685;2685;2685;3570;2685;66;2685;2685;2685;2685;66;66;
  2685;2685;2685;2685;2685;2685;2685;66;2685;66;2685;2685;2685;2685;66;66;2685;2685;2685;2685;2685;2685;2685;
  3570;2685;2685;2685;2685;2685;2685;2685;66;2685;2685;2685;2685;2685;2685;2685;2685;2685;2685;2685;2685;2685;
  2685;2685;3570;2685;66;2685;2685;2685;2685;66;66;2685;2685;2685;2685;2685;2685;2685;3570;2685;2685;2685;
  2685;2685;2685;2685;2685;2685;2685;2685;2685;2685;2685;2685;2685;2685;2685;2685;66;66;4950;4950;3564;3567;
  2679;2688;2676;2676;2676;2676;2688;2688;2682;2682;2682;2682;2682;2682;2682;2682;2682;2673;2673;2673;2673;
  2673;2673;2673;2673;2673;2673;2673;66;66;66;2691;2691;2691;2691;2691;2691;2691;2691;2691;2691;2691;2691;
  2691;2691;2691;2691;2691;2691;2691;2691;2691;5937;69;69;5934;5934;5934;5934;5934;5934;69;69;2709;2712;2712;
  2712;2712;2712;2712;2712;2712;2712;2712;2712;2712;2712;2712;2712;2712;2712;2712;2712;2712;2712;2712;2712].
Definition propsVectorsTrie_index_19 : list Z := [
  2712;2712;2712;2706;2703;72;72;72;2718;2718;2718;2718;2718;2718;2718;2718;2718;2718;2718;2715;2715;2715;
  2718;2718;2718;5403;5403;5403;5403;5403;5403;5403;5403;75;75;75;75;75;75;75;2751;2751;2751;2751;2751;2751;
  2721;2751;2751;2724;2724;2724;2724;2724;2724;2724;2724;2724;2727;2724;2742;2742;2745;2754;2736;2733;2742;
  2739;2754;3333;78;78;2748;2748;2748;2748;2748;2748;2748;2748;2748;2748;78;78;78;78;78;78;3336;3336;3336;
  3336;3336;3336;3336;3336;3336;3336;78;78;78;78;78;78;2769;2769;2898;2901;2775;2895;2772;2769;2778;2793;2781;
  2796;2796;2796;2760;81;2784;2784;2784;2784;2784;2784;2784;2784;2784;2784;81;81;81;81;81;81;2787;2787;2787;
  2787;2787;2787;2787;2787;2787;2787;2787;2787;2787;2787;2787;2787;2787;2787;2787;2787;2787;2787;2787;2787;
  6483;81;81;81;81;81;81;81;2787;2787;2787;2787;2787;2787;2787;2787;2787;2763;4098;81;81;81;81;81;4536;4536;
  4536;4536;4536;4536;4536;4536;4536;4536;4536;4536;4536;4536;4536;4536;1227;1227;1227;1227;1227;1227;1227;
  1227;1230;1230;1230;1230;1230;1230;1230;1230;1227;1227;1227;1227;1227;1227;84;84;1230;1230;1230;1230;1230;
  1230;84;84;1227;1227;1227;1227;1227;1227;1227;1227;84;1230;84;1230;84;1230;84;1230;1227;1227;1227;1227;1227;
  1227;1227;1227;1230;1230;1230;1230;1230;1230;1230;1230;1227;1227;1227;1227;1227;1227;1227;1227;1227;1227;
  1227;1227;1227;1227;84;84;1227;1227;1227;1227;1227;1227;1227;1227;1230;1230;1230;1230;1230;1230;1230;1230;
  1227;1227;1227;1227;1227;84;1227;1227;1230;1230;1230;1230;1230;1221;1227;1221;1221;1218;1227;1227;1227;84;
  1227;1227;1230;1230;1230;1230;1230;1218;1218;1218;1227;1227;1227;1227;84;84;1227;1227;1230;1230;1230;1230;
  84;1218;1218;1218;1227;1227;1227;1227;1227;1227;1227;1227;1230;1230;1230;1230;1230;1218;1218;1218;84;84;
  1227;1227;1227;84;1227;1227;1230;1230;1230;1230;1230;1224;1221;84;3018;3021;3021;3021;4107;87;5367;5367;
  5367;5367;1239;1239;1239;1239;1239;1239;1314;3039;90;90;1761;1314;1314;1314;1314;1314;1320;1338;1320;1332;
  1326;1764;1311;1758;1758;1758;1758;1311;1311;1311;1311;1311;1317;1335;1317;1329;1323;90;3579;3579;3579;3579;
  3579;4953;4953;4953;4953;4953;4953;4953;4953;90;90;90;93;93;93;93;93;93;93;93;93;93;93;93;93;93;93;93;1353;
  1353;1353;1353;1353;1353;1353;1353;1353;1353;1353;1353;1353;1350;1350;1350;1350;1353;2811;2814;3045;3051;
  3051;3048;3048;3048;3048;3585;3861;3861;3861;3861;4428;96;96;96;96;96;96;96;96;96;96;96;96;96;96;96;1401;
  1401;1401;2823;3870;4113;4113;4113].
Definition propsVectorsTrie_index_20 : list Z := [
  4113;4779;5943;5943;99;99;99;99;1803;1803;1803;1803;1806;1806;1806;1806;1806;1806;1413;1413;1410;1410;1410;
  1410;1452;1452;1452;1452;1452;2835;2835;102;102;102;102;102;102;102;102;102;102;102;102;102;102;102;102;102;
  102;102;102;102;102;102;102;102;1455;1455;1455;1455;1455;1455;1455;1455;1455;1455;1455;105;105;105;105;105;
  105;105;105;105;105;105;105;105;105;105;105;105;105;105;105;105;2862;2862;2862;2862;2862;2862;2862;2862;
  2862;2862;2862;2862;2862;2862;2862;2862;2862;2862;2862;2862;2862;2862;2862;2862;2862;2862;108;2862;2862;
  2862;2862;2865;2862;2862;2862;2862;2862;2862;2862;2862;2862;2862;2862;2862;2862;2862;2862;2862;2862;2862;
  2862;2865;108;108;108;108;108;108;108;108;108;108;108;108;2868;2868;2868;2868;2868;2868;2868;2868;2868;2868;
  2868;2868;2868;2868;2868;2868;2868;2868;2868;2868;2868;2868;111;111;111;111;111;111;111;111;111;111;117;
  2115;2109;2115;2109;2115;2109;2115;2109;2115;2109;2109;2112;2109;2112;2109;2112;2109;2112;2109;2112;2109;
  2112;2109;2112;2109;2112;2109;2112;2109;2112;2109;2109;2109;2109;2115;2109;2115;2109;2115;2109;2109;2109;
  2109;2109;2109;2115;2109;2109;2109;2109;2109;2112;3219;3219;117;117;2388;2388;2334;2334;2118;2121;3216;120;
  120;120;120;120;2139;2139;2139;2139;2139;2139;2139;2139;2139;2139;2139;2139;2139;2139;2139;2139;2139;2139;
  2139;2139;2139;2139;2139;2139;2139;2139;2139;2139;4410;6426;6657;123;2142;2142;2142;2142;2142;2142;2142;
  2142;2142;2142;2142;2142;2142;2142;2142;2142;2142;2142;123;2343;2343;2346;2346;2346;2346;2346;2346;2346;
  2346;2346;2346;2346;2346;2346;2346;2151;2151;2151;2151;2151;2151;2151;2151;2151;2151;2151;2151;2151;2151;
  2151;2151;2151;2151;2151;2151;2151;2151;2151;2151;2151;2151;2151;2151;2151;3480;3480;126;2886;2886;2886;
  2886;2886;2886;2886;2886;2886;2886;2886;2886;2886;129;129;129;2892;2892;2892;2892;2892;2892;2892;2892;2892;
  2892;2892;2892;2892;2892;2892;2892;2892;3228;2892;2892;2892;3228;2892;132;132;132;132;132;132;132;132;132;
  4575;4575;4575;4575;4575;4575;4575;4575;4575;4575;4575;4575;4575;4575;4575;4575;2523;2523;2523;2523;135;135;
  135;135;135;135;135;135;135;135;135;135;4692;4692;4692;4692;4692;4692;4692;4692;4692;4692;4692;4692;4692;
  4692;4692;4692;1548;1548;1548;1548;1548;1548;1548;138;138;138;138;138;138;138;138;138;138;138;138;1530;1530;
  1530;1530;1530;138;138;138;138;138;2847;1533;1539;1545;1545;1545;1545;1545;1545;1545;1545;1545;1536;1539;
  1539;1539;1539;1539;1539;1539;1539;1539;1539;1539;1539;1539;138;1539;1539;1539;1539;1539;138;1539;138].
Definition propsVectorsTrie_index_21 : list Z := [
  1539;1539;138;1539;1539;138;1539;1539;1539;1539;1539;1539;1539;1539;1539;1542;1566;1560;1566;1560;1563;1569;
  1566;1560;1563;1569;1566;1560;1563;1569;1566;1560;4971;4971;141;141;141;141;141;141;141;141;141;141;141;141;
  141;141;141;141;141;1566;1560;1563;1569;1566;1560;1566;1560;1566;1560;1566;1566;1560;141;141;141;141;141;
  141;141;141;141;141;141;141;141;141;141;141;1563;1560;1563;1563;1563;1563;1563;1563;1560;1563;1560;1560;
  1563;1563;1560;1560;1560;1560;1560;1563;1560;1560;1563;1560;1563;1563;1563;1560;1563;1563;1563;1563;141;141;
  1563;1563;1563;1563;1560;1560;1563;1560;1560;1560;1560;1563;1560;1560;1560;1560;1560;1563;1563;1563;1560;
  1560;141;141;141;141;141;141;141;141;2922;2922;2922;2922;2922;2922;2922;2922;2922;2922;2922;2922;2922;2922;
  2922;2922;1566;1566;2424;1566;1566;1566;1566;1566;1566;1566;1557;1557;3108;3507;141;141;2175;2193;2190;2193;
  2190;3249;3249;3492;3489;2178;2178;2178;2178;2196;2196;2196;2220;2223;2238;144;2226;2229;2241;2241;2217;
  2208;2202;2208;2202;2208;2202;2205;2205;2232;2232;2235;2232;2232;2232;144;2232;2214;2211;2205;144;144;144;
  144;1578;1590;1578;3111;1578;147;1578;1590;1578;1590;1578;1590;1578;1590;1578;1590;1590;1587;1581;1584;1590;
  1587;1581;1584;1590;1587;1581;1584;1590;1587;1581;1587;1581;1587;1581;1584;1590;1587;1581;1587;1581;1587;
  1581;1587;1581;147;147;1575;1917;1920;1941;1944;1911;1920;1920;153;1887;1890;1890;1890;1890;1887;1887;153;
  150;150;150;150;150;150;150;150;150;2850;2850;2850;2526;1881;1593;1593;153;1959;1926;1911;1920;1917;1911;
  1929;1914;1908;1911;1941;1932;1923;1956;1911;1953;1953;1953;1953;1953;1953;1953;1953;1953;1953;1938;1935;
  1941;1941;1941;1959;1896;1893;1893;1893;1893;1893;1893;1893;1893;1893;1893;1893;1893;1893;1893;1893;1893;
  1893;1893;1893;1893;1893;1893;1893;1893;1893;1893;1893;1893;1893;1893;153;153;153;1893;1893;1893;1893;1893;
  1893;153;153;1893;1893;1893;1893;1893;1893;153;153;1893;1893;1893;1893;1893;1893;153;153;1893;1893;1893;153;
  153;153;2925;2925;2925;2925;156;156;156;156;156;156;156;156;156;6327;6327;6327;2931;2931;2931;2931;2931;
  2931;2931;2931;2931;2931;2931;2931;2931;2931;2931;2931;2931;2931;2931;159;159;159;159;159;5763;5763;5763;
  5763;5763;5763;5763;5763;5763;5763;5763;5763;5763;5763;5763;5763;2940;2940;2940;2940;2940;2940;2940;2940;
  2940;2940;2940;2940;2940;2940;2940;2940;2940;2940;2940;2940;2940;2940;162;162;162;162;162;162;162;162;162;
  162;2952;2952;2952;2952;2952;2952;2952;165;165;4125;2952;2952;2952;2952;2952;2952;2952;2952;2952;2952;2952;
  2952;2952;2952].
Definition propsVectorsTrie_index_22 : list Z := [
  2952;2952;2952;2952;2952;2952;2952;2952;5949;5949;5949;5949;5949;5949;5949;5949;5949;165;165;165;165;165;
  165;165;165;165;165;165;165;165;165;165;165;165;165;165;165;165;165;165;2976;2976;2976;2976;2976;2976;2976;
  2976;2976;2976;2976;2976;2976;2976;2973;2973;2973;2973;2973;2973;2973;168;2973;2973;2973;2973;2973;2973;
  2973;2973;2973;2973;2976;2976;2973;2973;2973;2973;2973;2973;2973;2973;2973;2973;2973;2973;2973;2973;2973;
  2973;2973;2973;2973;2973;2973;2973;2973;2973;2973;2973;2976;168;2976;2976;168;168;2976;168;168;2976;2976;
  168;168;2976;2976;2976;2976;168;2976;2976;2976;2976;2976;2976;2976;2976;2973;2973;2973;2973;168;2973;168;
  2973;2973;2973;2973;3369;2973;2973;168;2973;2973;2973;2973;2973;2973;2973;2973;2973;2973;2973;2976;2976;
  2976;2976;2976;2976;2976;2976;2976;2976;2976;2976;2976;2976;2976;2976;2973;2973;2973;2973;2976;2976;168;
  2976;2976;2976;2976;168;168;2976;2976;2976;2976;2976;2976;2976;2976;168;2976;2976;2976;2976;2976;2976;2976;
  168;2973;2973;2973;2973;2973;2973;2973;2973;2973;2973;2973;2973;2973;2973;2973;2973;2973;2973;2973;2973;
  2973;2973;2973;2973;2973;2973;2976;2976;168;2976;2976;2976;2976;168;2976;2976;2976;2976;2976;168;2976;168;
  168;168;2976;2976;2976;2976;2976;2976;2976;168;2973;2973;2973;2973;2973;2973;2973;2973;2973;2973;2973;2973;
  2973;2973;3606;3606;168;168;2976;2976;2976;2976;2976;2976;2976;2976;2976;2976;2976;2976;2976;2976;2976;2976;
  2976;2976;2976;2976;2976;2976;2976;2976;2973;2973;2973;2967;2973;2973;2973;2973;2973;2973;3885;3882;168;168;
  2970;2970;2970;2970;2970;2970;2970;2970;2970;2970;2970;2970;2970;2970;2970;2970;2970;2970;171;2982;171;171;
  171;171;171;171;171;171;171;171;171;171;171;171;171;171;171;171;171;171;171;171;171;171;171;171;171;171;171;
  171;3126;3126;3126;3126;3126;3126;3126;3126;3126;3126;3126;3126;3126;174;3126;3126;3126;3126;3120;3120;3123;
  174;174;174;174;174;174;174;174;174;174;174;3135;3135;3135;3135;3135;3135;3135;3135;3135;3135;3135;3135;
  3135;3135;3135;3135;3135;3135;3129;3129;3132;3237;3237;177;177;177;177;177;177;177;177;177;3141;3141;3141;
  3141;3141;3141;3141;3141;3141;3141;3141;3141;3141;3141;3141;3141;3141;3141;3138;3138;180;180;180;180;180;
  180;180;180;180;180;180;180;3147;3147;3147;3147;3147;3147;3147;3147;3147;3147;3147;3147;3147;183;3147;3147;
  3147;183;3144;3144;183;183;183;183;183;183;183;183;183;183;183;183;3387;3387;3387;3387;3387;3387;3387;3387;
  3387;3387;3387;3387;3387;3387;3387;3387;3387;3387;3387;3387;3387;3387;3387;3387;3387;3387;3387;3387].
Definition propsVectorsTrie_index_23 : list Z := [
  3387;5433;5433;186;3372;3372;3372;3384;3384;3384;3384;3372;3372;3384;3384;3384;186;186;186;186;3384;3384;
  3372;3384;3384;3384;3384;3384;3384;3375;3375;3375;186;186;186;186;3378;186;186;186;3390;3390;3381;3381;3381;
  3381;3381;3381;3381;3381;3381;3381;3393;3393;3393;3393;3393;3393;3393;3393;3393;3393;3393;3393;3393;3393;
  3393;3393;3393;3393;189;189;3393;3393;3393;3393;3393;189;189;189;189;189;189;189;189;189;189;189;5436;5436;
  5436;5436;5436;5436;5436;5436;5436;5436;5436;5436;5436;5436;5436;5436;5436;5436;5436;5436;192;192;5436;5436;
  5436;5436;5436;5436;5436;5436;5436;5436;5436;5436;5436;5436;5436;5436;5436;5436;5436;5436;5436;5436;5436;
  5436;192;6846;5436;5436;5436;5436;5436;5436;5436;5436;3432;3432;3432;3432;3432;3432;3432;3432;3432;3432;
  3432;3432;195;3432;3432;3432;3432;3432;3432;3432;3432;3432;3432;3432;3432;3432;3432;3432;3432;3432;3432;
  3432;3432;3432;3432;195;3432;3432;3432;3432;3432;3432;3432;3432;3432;3432;3432;3432;3432;3432;3432;3432;
  3432;3432;3432;195;3432;3432;195;3432;3432;3432;3432;3432;3432;3432;3432;3432;3432;3432;3432;3432;3432;3432;
  195;195;3432;3432;3432;3432;3432;3432;3432;3432;3432;3432;3432;3432;3432;3432;195;195;195;195;195;195;195;
  195;195;195;195;195;195;195;195;195;195;195;195;195;195;195;195;195;195;195;195;195;195;195;195;195;195;195;
  3435;3435;3435;3435;3435;3435;3435;3435;3435;3435;3435;3435;3435;3435;3435;3435;3435;3435;3435;3435;3435;
  3435;3435;3435;3435;3435;3435;198;198;198;198;198;3501;3501;3501;201;201;201;201;3495;3495;3495;3495;3495;
  3495;3495;3495;3495;3495;3495;3495;3495;3495;3495;3495;3495;3495;3495;3495;3495;3495;3495;3495;3495;201;201;
  201;3498;3498;3498;3498;3498;3498;3498;3498;3498;3441;3441;3441;3441;3441;3441;3441;3441;3441;3441;3441;
  3441;3441;3441;3441;3441;3441;3441;3441;3441;3441;3441;3441;3441;3441;3441;3441;3441;3441;3441;204;3438;
  3450;3450;3450;3450;3450;3450;3450;3450;3450;3450;3450;3450;3450;3450;3450;3450;3450;3450;3450;3450;3450;
  3450;3450;3450;3450;3450;3450;3450;3450;3450;207;207;3447;3447;3447;3447;3447;3447;3447;3447;3447;3447;207;
  207;207;207;207;207;6267;6267;6267;6267;6267;6267;6267;6267;6267;6267;6267;6267;6267;6267;6267;6267;3453;
  3453;3453;3453;3453;3453;210;210;3453;210;3453;3453;3453;3453;3453;3453;3453;3453;3453;3453;3453;3453;3453;
  3453;3453;3453;3453;3453;3453;3453;3453;3453;3453;3453;210;3453;3453;210;210;210;3453;210;210;3453;3456;
  3456;3456;3456;3456;3456;3456;3456;3456;3456;3456;3456;3456;3456;3456;3456;3456;3456;3456;3456;3456;3456;
  3456;213;213;213;213;213].
Definition propsVectorsTrie_index_24 : list Z := [
  213;213;213;213;3633;3633;3633;3633;3633;3633;3633;3633;3633;3633;3633;5439;5439;6129;6129;219;4377;4377;
  4377;4377;4377;4377;4377;4377;4377;4377;4377;4377;6861;306;306;306;3651;3651;3651;3651;3651;3651;3651;3651;
  3651;3651;3651;3651;3651;3651;3651;3651;3651;3651;3651;3651;3651;3651;3651;3642;3642;3648;3648;3642;222;222;
  3645;3645;4425;4425;4425;4425;225;225;225;225;225;225;225;225;225;225;225;225;3234;3234;3234;3234;3234;3234;
  3234;3234;3234;3234;3234;3234;3234;3234;3234;3234;4152;4152;4152;4152;4152;4152;4152;5442;5442;5442;5442;
  5442;5442;5442;5442;5442;5442;5442;5442;5442;5442;5445;6333;6333;6462;6333;228;6132;4983;4491;3900;3900;
  3669;3666;3669;3666;3666;3657;3657;3657;3657;3657;3657;4500;4497;4500;4497;4494;4494;4494;5172;5169;231;231;
  231;231;231;3663;3660;3660;3660;3657;3663;3660;3672;3672;3672;3672;3672;3672;3672;3672;3672;3672;3672;3672;
  3672;3672;3672;3672;3672;3672;3672;3672;3672;3672;3672;234;234;234;234;234;234;234;234;234;3672;3672;3672;
  3672;3672;3672;3672;234;3672;3672;3672;3672;3672;3672;3672;234;3672;3672;3672;3672;3672;3672;3672;234;3672;
  3672;3672;3672;3672;3672;3672;234;3678;3678;3678;3678;3678;3678;3678;3678;3678;3678;3678;3678;3678;3678;
  3678;3678;3675;3675;3675;3675;3675;3675;3675;3675;3675;3675;237;237;237;237;237;237;3681;3681;3681;3681;
  3681;3681;240;5175;240;240;240;240;240;5175;240;240;3768;3768;3768;3768;3768;3768;3768;3768;3768;3768;3768;
  3768;3768;3768;3768;3768;3687;3687;3687;3687;3687;3687;3687;3687;3687;3687;3687;3687;3687;3687;3687;243;
  3684;3684;3684;3684;3684;3684;3684;3684;3684;3684;3684;3684;3684;3684;3684;3684;3684;3684;3684;3684;3684;
  3684;3684;3684;3684;3684;3684;3684;3684;3684;3684;243;3705;3693;3693;3693;246;3693;3693;246;246;246;246;246;
  3693;3693;3693;3693;3705;3705;3705;3705;246;3705;3705;3705;246;3705;3705;3705;3705;3705;3705;3705;3705;3705;
  3705;3705;3705;3705;3705;3705;3705;3705;3705;3705;3705;3705;3705;3705;6492;6492;246;246;3690;3690;3690;246;
  246;246;246;3696;3699;3699;3699;3699;3699;3699;3699;3699;6489;246;246;246;246;246;246;246;3702;3702;3702;
  3702;3702;3702;3708;3708;3699;246;246;246;246;246;246;246;3720;3720;3720;3720;3720;3720;3720;3720;3720;3720;
  4506;4506;249;249;249;249;3720;3720;3720;3720;3720;3723;3723;3723;3720;3720;3723;3720;3720;3720;3720;3720;
  3720;3720;3720;3720;3720;3720;249;249;249;249;249;249;3717;3717;3717;3717;3717;3717;3717;3717;3717;3717;
  4503;249;249;249;3714;3714;3729;3729;3729;3729;252;252;252;252;3729;3729;3729;3729;3729;3729;3729;3729;3726;
  3729;3729;3729].
Definition propsVectorsTrie_index_25 : list Z := [
  3729;3729;252;252;252;252;252;252;252;252;252;252;5454;5460;5457;6300;6135;6336;6336;6336;6336;6336;6498;
  6495;6501;6495;6501;6693;6849;6849;6849;255;255;255;255;255;255;255;255;255;255;255;255;255;255;255;255;255;
  255;255;255;255;255;255;255;255;255;255;255;255;255;255;255;255;3765;3765;3765;3762;3762;3753;3753;3762;
  3759;3759;3759;3759;6852;258;258;258;4884;4884;4884;4887;4887;4887;4878;4878;4881;4878;342;342;342;342;342;
  342;3768;3768;3768;3768;3768;3768;5187;5187;261;261;261;261;261;261;261;3771;4989;261;261;261;261;261;261;
  261;261;261;261;261;261;261;261;4986;3186;3186;3186;3186;3186;3186;3186;3186;3186;3186;3186;3186;3186;3186;
  3186;3189;3816;3801;3795;3813;3810;3804;3804;3819;3798;3807;264;264;264;264;264;264;3951;3951;3930;3951;
  3954;3957;3957;3957;3957;3957;3957;3957;270;270;270;270;3945;3945;3945;3945;3945;3945;3945;3945;3945;3945;
  3963;3963;3936;3942;3963;3963;3939;3936;3936;3936;3936;3936;3936;3936;3936;3936;3936;3933;3933;3933;3933;
  3933;3933;3933;3933;3933;3936;3936;3936;3936;3936;3936;3936;3936;3936;270;270;270;273;273;6699;6696;6699;
  6699;6699;6858;6855;6858;6855;273;273;273;273;273;273;273;273;273;273;273;273;273;273;273;273;273;273;273;
  273;273;273;6858;6855;5469;5196;5196;4992;4212;4212;4212;4212;4212;3978;3978;3978;3978;3978;3978;3978;3978;
  3978;3978;3978;3978;3978;3978;3978;3978;3978;3978;3978;3978;3975;3975;3981;3981;276;276;276;276;276;276;276;
  276;3990;3990;3990;3990;3990;3990;3990;3990;3990;3990;3990;3990;3990;3990;3990;3990;3990;3990;3990;3990;
  3990;3990;3984;3984;3984;3984;4515;4515;279;279;279;3987;5475;5475;5475;5475;5475;5475;5475;5475;5475;5475;
  5475;5475;5475;5475;5475;5475;5475;5475;5475;5475;5475;5475;5475;5475;5475;5964;282;282;282;282;282;282;282;
  282;282;282;282;282;282;282;282;282;282;282;282;282;282;282;282;282;282;282;282;282;282;282;282;282;282;282;
  3999;3999;3999;5481;5481;5481;5481;5481;5481;5481;5481;5481;5481;5481;5481;285;3996;3996;3996;3996;5478;285;
  285;285;285;285;285;285;285;285;285;285;4002;4002;4002;4002;4002;4002;4002;4002;4002;4002;4002;4002;4002;
  4002;4002;4002;4002;4002;6516;6516;6516;6516;6516;6516;6516;288;288;288;288;288;288;288;4251;4251;4251;4251;
  4248;4248;4248;4248;4248;4248;4248;4248;4233;4233;4233;4233;4233;4233;4233;4233;4248;4248;4239;4236;291;291;
  291;4254;4254;4242;4242;4242;4245;4245;4245;4245;4245;4245;4245;4245;4245;4245;291;291;291;4251;4251;4251;
  4257;4257;4257;4257;4257;4257;4257;4257].
Definition propsVectorsTrie_index_26 : list Z := [
  4257;4257;4260;4260;4260;4260;4260;4260;4278;4278;4278;4278;4278;4278;4278;4278;4278;4278;4281;4281;294;294;
  294;294;294;294;294;294;294;294;294;294;294;294;294;294;294;294;294;294;4320;4320;4320;4320;4314;6141;297;
  297;297;297;297;297;297;297;4326;4326;4317;4317;4317;4317;4317;4317;4317;4317;4317;4317;297;297;297;297;297;
  297;4356;4356;4356;4356;4356;4356;4356;4344;4344;4344;4344;4344;4344;4344;4344;4344;4344;4344;4350;4353;300;
  300;300;300;300;300;300;300;300;300;300;4347;4371;4371;4371;4371;4371;4371;4371;4371;4371;4359;4359;4359;
  4359;4359;4359;4368;4368;4359;4359;4368;4368;4359;4359;303;303;303;303;303;303;303;303;303;4371;4371;4371;
  4359;4371;4371;4371;4371;4371;4371;4371;4371;4359;4368;303;303;4365;4365;4365;4365;4365;4365;4365;4365;4365;
  4365;303;303;4362;4374;4374;4374;5493;306;306;306;306;306;306;306;306;306;306;306;306;306;306;306;306;306;
  306;306;306;306;306;306;306;306;306;306;306;306;306;306;4380;4380;4380;4380;4380;4380;4380;4380;4380;4380;
  4380;4380;4380;4380;4380;4380;4380;4380;4380;4380;4380;4380;4380;4380;4380;4380;4380;4380;4380;4383;309;309;
  4386;4386;4386;4386;4386;4386;4386;4386;4386;4386;4386;4386;4386;4386;4386;4386;4386;4386;4386;4386;4386;
  4386;4386;4386;4386;4386;4386;4386;4386;312;312;312;4389;4389;4389;4389;4389;4389;4389;4389;4389;4389;4389;
  4389;4389;4389;4389;4389;4389;315;315;315;315;315;315;315;315;315;315;315;315;315;315;315;4395;4395;4395;
  4395;4395;4395;4395;4395;4395;4395;4395;4395;4395;4395;4395;4395;4395;4395;4395;4395;4395;4395;4395;4395;
  4395;4395;318;318;318;318;318;4392;4398;4398;4398;4398;4398;4398;4398;4398;4398;4398;4398;4398;321;321;321;
  321;4401;4401;4401;4401;4401;4401;4401;4401;4401;4401;4401;4401;4401;4401;4401;4401;4401;4401;4401;4401;324;
  324;324;324;324;324;324;324;324;324;324;324;4521;4521;4521;4521;4530;4521;4521;4521;4530;4521;4521;4521;
  4521;4518;327;327;4527;4527;4527;4527;4527;4527;4527;4533;4527;4533;4527;4527;4527;4533;4533;327;4536;4536;
  4536;4536;4536;4536;4536;4536;4536;4536;4536;4536;4536;4536;4536;4536;4536;4536;4536;4536;4536;4536;330;330;
  330;330;330;330;330;330;330;330;4563;4563;4563;4563;4563;4563;4563;4563;4563;4563;4563;4563;4563;4563;4563;
  4563;4563;4563;4563;4563;4563;4560;4539;4560;4539;4539;4539;4539;4539;4539;4539;333;4548;4557;4539;4557;
  4557;4539;4539;4539;4539;4539;4539;4539;4539;4560;4560;4560;4560;4560;4560;4539;4539;4545;4545;4545;4545;
  4545;4545;4545;4545;333;333;4542;4554;4554;4554;4554;4554;4554;4554;4554].
Definition propsVectorsTrie_index_27 : list Z := [
  4554;4554;333;333;333;333;333;333;4554;4554;4554;4554;4554;4554;4554;4554;4554;4554;333;333;333;333;333;333;
  4551;4551;4551;4551;4551;4551;4551;4566;4569;4569;4569;4569;4551;4551;333;333;5568;5568;5568;5568;5568;5568;
  5568;5568;5568;5568;5568;5568;5568;5568;5565;6879;4905;4866;4896;4896;4896;4896;4896;4896;4896;4872;4869;
  4860;4860;4902;4860;4860;4860;4860;4875;5355;5361;5358;5358;6459;5910;5910;6828;336;336;336;336;336;4590;
  4590;4590;4590;4590;4590;4590;4590;4590;4590;4590;4590;4590;4590;4590;4590;4581;4581;4584;4593;4587;4587;
  4587;4593;339;339;339;339;339;339;339;339;4842;4842;4842;4842;4842;4842;4842;4842;4842;4842;4842;4842;4842;
  4842;4842;4842;4842;4842;4842;4842;4842;4842;4842;4842;4842;4842;4842;4842;4842;345;345;345;4623;4611;4611;
  4611;4611;4611;4611;4614;4629;4629;4611;4611;4611;4611;348;4890;4617;4617;4617;4617;4617;4617;4617;4617;
  4617;4617;348;348;348;348;4611;4611;4659;4647;4659;351;351;351;351;351;351;351;351;351;351;351;351;351;351;
  351;351;351;351;351;351;351;351;351;351;4656;4656;4662;4650;4653;4683;4683;4683;4677;4677;4668;4677;4677;
  4668;4677;4677;4686;4680;4671;354;354;4674;4674;4674;4674;4674;4674;4674;4674;4674;4674;354;354;354;354;354;
  354;4692;4692;4692;4692;4692;4692;4692;357;357;357;357;4689;4689;4689;4689;4689;4689;4689;4689;4689;4689;
  4689;4689;4689;4689;4689;4689;4689;4689;4689;4689;4689;4689;4689;4689;4689;4689;4689;4689;4689;357;357;357;
  357;4701;4701;4701;4701;4701;4701;4701;4701;4701;4701;4701;4701;4701;4701;4701;4701;4701;4701;4701;4701;
  4701;4701;360;4698;4695;4695;4695;4695;4695;4695;4695;4695;4716;4716;4716;4716;4716;4716;4716;4716;4716;
  4716;4716;4716;4716;4716;4716;4716;4716;4716;4716;4716;4716;4716;363;363;363;4710;4713;4713;4713;4713;4713;
  4713;4722;4722;4722;4722;4722;4722;4722;4722;4722;4722;4722;4722;4722;4722;4722;4722;4722;4722;4722;4722;
  4722;4722;366;366;4719;4719;4719;4719;4719;4719;4719;4719;4728;4728;4728;4728;4728;4728;4728;4728;4728;4728;
  4728;4728;4728;4728;4728;4728;4728;4728;4728;369;369;369;369;369;4725;4725;4725;4725;4725;4725;4725;4725;
  4734;4734;4734;4734;4734;4734;4734;4734;4734;4734;4734;4734;4734;4734;4734;4734;4734;4734;4734;4734;4734;
  4734;4734;4734;4734;4734;4734;4734;4734;4734;4734;375;4761;4761;378;378;378;378;378;378;378;378;378;378;378;
  6525;378;378;5322;5322;5322;5322;5322;5322;5322;5322;5322;5322;5322;5322;5322;5322;5322;5322;4767;4767;4767;
  4767;4767;4767;4767;4767;4767;4767;4767;4767;4767;4767;4767;381;6735;6735;6735;6735;6735;6735;6735;6738;
  6732;633;633;633].
Definition propsVectorsTrie_index_28 : list Z := [
  633;633;633;633;6270;6270;6270;6270;6270;6270;6270;6270;6270;6270;6270;6270;6270;6864;384;384;384;384;384;
  384;384;384;384;384;384;384;384;384;384;384;384;384;384;384;384;384;384;384;384;384;384;384;384;384;384;384;
  384;384;384;384;5004;5004;5004;5004;5004;5004;5004;5004;5004;5004;5004;5004;5004;5004;5004;5004;5004;5004;
  5004;5004;5004;5004;5004;5004;5004;5004;4854;5109;5106;387;387;387;387;387;387;387;387;387;387;387;387;387;
  4848;4848;4848;4848;4848;4848;4848;4848;4848;4848;4851;4848;4848;4848;4848;4848;4848;4848;4848;4848;4848;
  4848;4848;4848;4848;4848;4848;4851;4848;4848;5109;5109;5109;5109;5109;5106;5109;5109;5109;6273;387;387;387;
  387;4845;4845;4845;4845;4845;4845;4845;4845;4845;387;387;387;387;387;387;387;5145;5145;387;387;387;387;387;
  387;387;387;387;387;387;387;387;387;6432;6432;6432;6432;6432;6432;387;387;387;387;387;387;387;387;387;387;
  387;387;387;387;387;387;387;387;387;387;387;387;387;387;387;387;387;387;387;387;387;387;387;387;5013;5013;
  5013;5013;5013;5013;5013;5013;5013;5013;5013;5013;5013;5013;5013;5013;5013;5013;5013;5013;5013;5013;5013;
  5013;5013;5007;5007;5007;390;390;5010;390;5031;5031;5031;5031;5031;5031;5016;5025;5019;5019;5025;5025;5025;
  5019;5025;5019;5019;5019;5028;5028;393;393;393;393;393;393;393;393;5022;5022;5022;5022;396;5034;5034;5034;
  5034;5034;5034;396;396;5034;5034;5034;5034;5034;5034;396;396;5034;5034;5034;5034;5034;5034;396;396;396;396;
  396;396;396;396;396;5034;5034;5034;5034;5034;5034;5034;396;5034;5034;5034;5034;5034;5034;5034;396;5661;5661;
  5661;5661;5661;5661;5661;5661;5661;5661;5661;5661;5661;5661;5661;5661;5037;5037;5037;5037;5037;5037;5040;
  5058;5058;5046;5046;5046;5046;5046;399;399;399;399;5043;5043;5043;5043;5043;5043;5043;5043;5043;5043;5043;
  5043;5043;5043;5043;5043;5049;5049;5049;5049;5049;5049;5049;5049;5049;5049;399;399;399;399;399;399;399;399;
  399;399;399;399;399;399;399;5508;5061;5061;5061;5061;5061;5061;5061;5061;5061;5061;5061;5061;5061;5061;5061;
  5061;5061;5061;5061;5061;5061;5061;5061;5061;5061;402;402;402;402;402;402;402;5064;5064;5064;5064;5064;5064;
  5064;5064;5064;5064;5064;5064;5064;5064;5064;405;405;5064;5064;5064;5064;5064;5064;5064;5064;5064;5064;5064;
  5064;5064;5064;5511;405;5064;5064;5064;5064;5064;5064;5064;5064;5064;5064;5064;5064;5064;5064;5118;405;5064;
  5064;5064;5064;5064;5064;5064;5064;5064;5064;5064;5064;5064;5064;5064;5511;5511;5511;5511;5511;5511;5511;
  5511;5511;5511;5511;5511;5511;5511;5511;5511].
Definition propsVectorsTrie_index_29 : list Z := [
  5511;5511;5511;5511;5511;5511;405;405;405;405;405;405;405;405;405;405;5139;5136;5136;5136;5136;5136;5532;
  5532;5532;5532;5532;5535;5901;5535;5535;5535;6105;6282;6282;6339;6339;6798;6969;6969;408;408;408;408;408;
  408;408;408;5535;5535;5535;5535;5535;5535;5532;5532;5532;5535;5532;5898;5898;408;408;408;5535;5532;5532;
  5535;6282;6282;6282;6438;6438;6663;6798;6969;6969;408;408;408;5067;5067;5067;5067;5067;5067;5067;5067;5067;
  5067;5067;5067;5067;5067;5067;5067;5067;5067;5067;5067;411;411;411;411;411;411;411;411;411;411;411;411;5223;
  5541;5223;5223;5223;5223;5223;5223;5223;5223;5223;5223;5223;5541;5541;5541;5541;5541;5541;5982;5982;414;
  6153;6153;6153;6153;6153;6153;6153;6153;6867;6867;6867;6867;6867;6867;6867;6867;6867;6867;414;414;414;414;
  414;414;414;414;414;414;414;6531;6150;6150;6150;6150;6150;6150;6150;6150;6150;6150;6150;6150;5229;5229;5229;
  5229;417;5229;5229;5229;5229;5229;5229;5229;5229;5229;5229;5229;5229;5229;5229;5229;5229;5229;5229;5229;
  5229;5229;5229;5229;5229;5229;5229;5229;417;5229;5229;417;5229;417;417;5229;417;5229;5229;5229;5229;5229;
  5229;5229;5229;5229;5229;417;5229;5229;5229;5229;417;5229;417;5229;417;417;417;417;417;417;5229;417;417;417;
  417;5229;417;5229;417;5229;417;5229;5229;5229;417;5229;5229;417;5229;417;417;5229;417;5229;417;5229;417;
  5229;417;5229;417;5229;5229;417;5229;417;417;5229;5229;5229;5229;417;5229;5229;5229;5229;5229;5229;5229;417;
  5229;5229;5229;5229;417;5229;5229;5229;5229;417;5229;417;5229;5229;5229;5229;5229;5229;5229;5229;5229;5229;
  417;5229;5229;5229;5229;5229;5229;5229;5229;5229;5229;5229;5229;5229;5229;5229;5229;5229;417;417;417;417;
  417;5229;5229;5229;417;5229;5229;5229;5229;5229;417;5229;5229;5229;5229;5229;5229;5229;5229;5229;5229;5229;
  5229;5229;5229;5229;5229;5229;417;417;417;417;417;417;417;417;417;417;417;417;417;417;417;417;417;417;417;
  417;417;417;417;417;417;417;417;417;417;417;417;417;5226;5226;417;417;417;417;417;417;417;417;417;417;417;
  417;417;417;5250;5250;5250;5250;5250;5250;5250;5232;5232;5232;5232;5232;5247;5232;5235;5235;5232;5232;5232;
  5238;5238;420;5244;5244;5244;5244;5244;5244;5244;5244;5244;5244;5241;5253;5253;5253;6537;6534;6534;6870;420;
  420;420;420;420;420;420;420;5679;5679;5679;5679;5679;5679;5679;5679;5679;5679;5679;5679;5679;5679;5679;5679;
  5265;5265;5265;5265;5265;5265;5265;5265;5265;5265;5265;5262;5256;5256;5262;5262;5271;5271;5265;5268;5268;
  5262;5259;423;423;423;423;423;423;423;423;423;5274;5274;5274;5274].
Definition propsVectorsTrie_index_30 : list Z := [
  5274;5274;5274;5274;5274;5274;5274;5274;5274;5274;5274;5274;5274;5274;5274;5274;5274;5274;5274;5274;426;426;
  426;426;5985;5985;5274;5274;5985;5985;5985;5985;5985;5985;5985;5985;5985;5985;5985;5985;5985;5985;5985;5985;
  426;426;5985;5985;5985;5985;5985;5985;5985;5985;5985;5985;5985;5985;5985;5985;5286;5286;5286;5286;5286;6711;
  6711;6711;6711;6711;6711;429;429;429;429;6705;5286;5283;5283;5283;5283;5283;5283;5283;5283;5283;5283;5283;
  5283;5283;5283;5283;6708;6708;6708;6708;6708;6708;6708;6708;429;429;429;429;429;429;429;5280;5280;5280;5280;
  5289;5289;5289;5289;5289;5289;5289;5289;5289;5289;5289;5289;5289;5322;5322;5322;5322;5322;5322;5322;5322;
  5322;432;432;432;432;432;432;432;5319;5319;5319;5319;5319;5319;5319;5319;5319;5319;432;432;432;432;432;432;
  5325;5325;5325;5325;5325;5325;5325;5325;435;435;435;435;435;435;435;435;4899;4896;4899;4863;4896;4902;4902;
  4905;4902;4905;4908;4896;4905;4905;4896;4896;5343;5343;5343;5343;5343;5343;5343;5343;5343;5343;5343;5328;
  5337;5328;5337;5337;5328;5328;5328;5328;5328;5328;5340;5331;6714;438;438;438;438;438;438;438;5553;5553;5553;
  5553;5553;5553;5553;5553;5553;5553;5553;5553;5553;5553;441;441;5550;5550;5550;5550;5550;5556;441;441;441;
  441;441;441;441;441;441;441;5913;5904;5904;5904;5904;5904;5904;5904;5904;5904;5904;5904;5904;5904;5904;5904;
  5904;5904;5904;5904;5904;5904;5904;5904;5904;5904;5904;5904;447;447;447;447;6879;450;450;450;450;450;450;
  450;450;450;450;450;450;450;450;450;450;450;450;450;450;450;450;450;450;450;450;450;450;450;450;450;450;450;
  450;450;5580;5580;5580;5580;5580;5580;5580;5580;5580;5580;5580;453;453;453;453;453;5580;5580;5580;5580;5580;
  5580;5580;5580;5580;5580;5580;5580;5580;453;453;453;453;453;453;453;5580;5580;5580;5580;5580;5580;5580;5580;
  5580;5580;453;453;5577;5571;5574;5583;5586;5586;5586;5586;5586;5586;5586;5586;456;456;456;456;456;456;456;
  456;5562;5562;5562;5562;5562;5562;5562;5562;5562;5562;5562;5562;5562;5562;5562;5562;5589;5589;5589;5589;
  5589;5589;5589;5589;5589;5589;5589;5589;5589;5589;5589;5589;5589;5589;5589;5589;5589;6540;6540;6540;6540;
  459;459;459;459;459;459;459;6801;6801;6801;6801;6801;6801;6801;6801;6801;6801;6801;6801;459;459;459;459;459;
  459;459;459;459;459;459;459;459;459;459;459;459;459;459;459;6006;5916;5598;5922;462;5607;5607;5607;5607;
  5607;5607;5607;5607;462;462;5607;5607;462;462;5607;5607;5607;5607;5607;5607;5607;5607;5607;5607;5607;5607;
  5607;5607;462;5607;5607;5607;5607;5607;5607;5607;462;5607;5607].
Definition propsVectorsTrie_index_31 : list Z := [
  462;5607;5607;5607;5607;5607;462;6678;5919;5607;5592;5598;5592;5598;5598;5598;5598;462;462;5598;5598;462;
  462;5601;5601;5604;462;462;6009;462;462;462;462;462;462;5592;462;462;462;462;462;5610;5607;5607;5607;5607;
  5598;5598;462;462;5595;5595;5595;5595;5595;5595;5595;462;462;462;5595;5595;5595;5595;5595;462;462;462;462;
  462;462;462;462;462;462;462;5631;5631;5631;5631;5631;5631;5631;5631;5631;5631;5631;5631;5631;5631;5631;5631;
  5631;5631;465;5631;5631;5631;5631;5631;5631;5631;5631;5631;5631;5631;5631;5631;5625;5625;5625;5613;5613;
  5613;5625;5625;5613;5628;5616;5613;5634;5634;5622;5634;5634;5619;6156;465;5649;5649;5649;5637;5637;5637;
  5637;5637;5637;5640;5643;468;468;468;468;468;5646;5646;5646;5646;5646;5646;5646;5646;5646;5646;468;468;468;
  468;468;468;6012;6012;6012;6012;5661;5658;6717;6717;6885;6888;6882;6882;471;471;471;471;6054;6054;6054;6054;
  6054;6054;6054;6054;6054;6054;6054;6054;6054;6054;6054;6054;5667;5667;5667;5667;5667;5667;5667;5667;5667;
  5667;5667;5667;5667;5667;5667;5667;5667;5667;5667;5667;5667;5667;5667;474;474;474;474;474;474;474;474;474;
  5667;5667;5667;5667;5667;5667;5667;5667;5667;5667;5667;5667;5667;5667;5667;5667;5667;5667;5667;5667;5667;
  5667;474;474;474;474;474;474;474;474;474;474;5667;5667;5667;5667;5667;5667;5667;5667;474;474;474;474;474;
  474;474;474;474;474;474;474;474;474;474;474;474;474;474;474;474;474;474;474;5679;5679;5679;5679;5679;5679;
  5679;5679;5679;5679;5679;5679;5679;5679;5679;5679;5679;5679;5679;5670;5673;5676;5679;477;477;477;477;477;
  477;477;477;477;5694;5694;5694;5694;5694;5682;5682;480;480;480;480;5685;5685;5685;5685;5685;5691;5691;5691;
  5691;5691;5691;5688;480;480;480;480;480;480;480;480;480;5703;5703;5703;5703;5703;483;483;5700;5700;5700;
  5700;5700;5700;5700;5700;5700;5697;5697;5697;5697;5697;5697;5697;483;483;483;483;483;483;483;483;483;5706;
  5724;5724;5712;5721;486;486;486;486;486;486;486;486;486;486;486;5715;5715;5715;5715;5715;5715;5715;5715;
  5715;5715;486;486;486;486;486;486;5730;5730;5730;5730;5730;5730;5730;5730;5730;5730;5730;5730;5730;5730;
  5730;5730;5730;5730;5730;5730;5730;5730;5730;5730;5730;5730;5730;5730;5730;5730;5730;489;5742;5742;5742;
  5742;5742;5736;5745;5742;5742;5742;5742;5742;5742;5742;5742;5742;5739;5739;5739;5739;5739;5739;5739;5739;
  5739;5739;5742;5742;5742;5742;5742;492;5751;5751;5751;5751;5751;5751;5751;5751;5751;5751;5751;5751;5751;
  5751;5751;5751;5751;5751;5751;5751;5751;5751;5751;5751;5751;5751;5751;5751;5751;5751;5751;495].
Definition propsVectorsTrie_index_32 : list Z := [
  5763;5763;5763;5763;5763;5763;5763;5763;5763;5763;5763;5763;5763;5763;5763;5763;5763;5763;5763;5763;5763;
  5763;5760;5760;5760;5760;5760;498;498;498;498;498;5787;5787;5790;5790;5793;5778;501;501;501;501;501;501;501;
  501;501;501;5784;5784;5784;5784;5784;5784;5784;5784;5784;5784;501;5778;5778;5778;5778;5778;5778;5778;501;
  5787;5787;5787;5787;5787;5787;5787;5787;5787;5787;5787;5787;5787;5787;5787;5787;5787;5787;5787;5787;5787;
  501;501;501;501;501;5787;5787;5787;5802;5802;5802;5802;5802;5802;5802;5802;5802;5802;5802;5802;5802;5802;
  5802;5802;5802;5802;5802;5802;5802;5802;5802;5802;5802;504;504;504;504;504;504;504;5811;5811;5811;5811;5811;
  5811;5811;5811;5811;5811;5811;5811;5811;5811;5811;5811;5811;5811;507;507;507;507;507;507;507;5808;5808;5808;
  5808;507;507;507;5838;5838;5838;5838;5838;5838;5838;5838;5838;5838;5838;5838;5838;5838;5838;5814;5832;5832;
  5814;5814;5814;5814;513;513;5832;5832;5835;5835;5814;5814;5832;5820;5817;5823;5841;5841;5826;5826;5829;5829;
  5829;5841;6021;6021;6021;6021;6021;6021;6021;6021;6021;6021;6021;6021;6021;6021;6018;6018;6018;6018;6015;
  6015;513;513;513;513;513;513;513;513;513;513;513;513;513;513;513;513;513;513;513;513;513;513;513;513;513;
  513;513;513;513;513;513;513;513;513;516;5844;5844;5844;5844;5844;5844;5844;5844;5844;5844;5844;5844;5844;
  5844;5844;5844;5844;5844;5844;5844;516;516;516;516;516;516;516;516;516;516;516;5847;5847;5847;5847;5847;
  5847;5847;5847;5847;5847;5847;5847;519;519;519;519;5847;5847;5847;5847;5847;5847;5847;5847;5847;5847;5847;
  5847;5847;5847;5847;5847;519;519;519;519;519;519;519;519;5847;5847;5847;5847;5847;5847;5847;5847;5847;5847;
  519;519;519;519;519;519;5847;5847;5847;5847;5847;5847;5847;5847;519;519;519;519;519;519;519;519;5847;5847;
  5847;5847;5847;5847;5847;5847;5847;5847;5847;5847;5847;5847;5847;5847;5847;5847;519;519;6891;6891;519;519;
  519;519;519;519;519;519;519;519;519;519;519;519;519;519;519;519;519;519;519;519;519;519;519;519;519;519;519;
  519;519;519;519;519;5850;5865;5856;5853;5871;5871;5859;5871;522;522;522;522;522;522;522;522;5862;5862;5862;
  5862;5862;5862;5862;5862;5862;5862;522;522;522;522;522;522;5877;5877;5877;5877;5877;5877;5877;5877;5877;
  5877;5874;5874;5874;5874;5874;5874;5874;5874;5874;525;525;525;525;525;525;525;525;525;525;525;525;5883;6039;
  6039;6039;6039;6039;6039;6039;6039;6039;6039;6039;6039;6039;6039;6039;6039;6039;6039;6039;6039;6039;6039;
  6039;6039;6039;6039;6543;528;528;6024;6024;6024].
Definition propsVectorsTrie_index_33 : list Z := [
  6036;6036;6024;6024;6024;6024;6036;6024;6024;6024;6024;6027;528;528;528;528;6033;6033;6033;6033;6033;6033;
  6033;6033;6033;6033;6030;6030;6042;6042;6042;6030;6045;6045;6045;6045;6045;6045;6045;531;531;531;531;531;
  531;531;531;531;531;531;531;531;531;531;531;531;531;531;531;531;531;531;531;531;531;531;531;531;531;531;531;
  531;6063;6063;6063;6063;6063;6063;6063;6063;6063;6063;6063;6063;6063;6063;6063;6063;6063;6063;6063;537;6063;
  6063;537;537;537;537;537;6060;6060;6060;6060;6060;6066;6066;6066;6066;6066;6066;6066;540;6066;540;6066;6066;
  6066;6066;540;6066;6066;6066;6066;6066;6066;6066;6066;6066;6066;6066;6066;6066;6066;6066;540;6066;6066;6066;
  6066;6066;6066;6066;6066;6066;6066;6069;540;540;540;540;540;540;5652;5652;5652;5652;5652;5652;5652;5652;
  5652;5652;5652;5652;5652;5652;5652;5652;6078;6078;6078;6078;6078;6078;6078;6078;6078;6078;6078;6078;6078;
  6078;6078;6078;6078;6078;6078;543;543;543;543;543;543;543;543;543;543;543;543;543;6075;6075;6075;6075;6075;
  6075;6075;6075;6075;6075;6075;6075;6075;6075;6075;6075;6075;6075;6075;543;543;543;543;543;543;543;6072;6072;
  6072;6072;6072;6072;6441;6441;6441;6441;6441;6441;6441;6441;6441;6441;6441;6441;6666;6666;6666;6666;6666;
  6804;6972;6666;6666;6666;6666;6975;6972;546;6666;6804;6666;6666;6666;6666;6111;6666;6666;6804;6804;6804;
  6804;6804;6804;6804;6804;6972;546;6807;6807;6807;6441;6444;6444;6444;6444;6444;6444;6444;6444;6444;6444;
  6444;6444;6444;6441;6441;6084;6084;6084;6084;6081;6084;6084;6087;6090;6087;6087;6084;549;549;549;549;549;
  549;549;549;549;549;549;549;549;549;549;6081;6081;6081;6081;6081;6177;6177;6177;6177;6168;6168;6168;6162;
  6165;6165;6165;6720;552;552;552;552;6174;6174;6174;6174;6174;6174;6174;6174;6174;6174;552;552;552;552;6171;
  6171;6204;6204;6204;6204;6204;6204;6204;6204;6204;555;6204;6204;6204;6204;6204;6204;6204;6204;6204;6204;
  6204;6204;6204;6204;6204;6204;6204;6204;6204;6204;6204;6204;6204;6204;6204;6201;6183;6183;6183;6183;6183;
  6183;6183;555;6183;6183;6183;6183;6183;6183;6201;6186;6204;6207;6207;6195;6192;6192;555;555;555;555;555;555;
  555;555;555;555;6198;6198;6198;6198;6198;6198;6198;6198;6198;6198;6189;6189;6189;6189;6189;6189;6189;6189;
  6189;6189;6189;6189;6189;6189;6189;555;555;555;6219;6222;6228;6228;6228;6228;6228;6228;6228;6228;6228;6228;
  6228;6228;6228;6228;6210;6210;6210;6210;6210;6210;6210;6210;6210;558;558;558;558;558;558;558;6573;6573;6573;
  6573;6573;6573;6573;6573;6573;6573;6573;6573;6573;6573;6573;6573;6213;6213;6213;6213;6213;6213;6213;561].
Definition propsVectorsTrie_index_34 : list Z := [
  6213;6213;6213;6213;6213;6213;6213;6213;6213;6213;6213;6213;6213;6213;6213;6213;6213;561;561;6213;6213;6213;
  6213;6213;6291;6447;6810;6813;6981;564;564;564;564;564;564;564;564;564;564;564;6978;6978;564;564;564;564;
  564;564;564;564;564;564;564;564;564;564;6228;6228;6228;6228;6228;6228;6228;6228;6228;6228;6228;6228;6228;
  6228;6228;6228;567;567;6216;6216;6216;6216;6216;6216;6216;6216;6216;6216;6216;6216;6216;6216;567;6225;6216;
  6216;6216;6216;6216;6216;6216;6225;6216;6216;6225;6216;6216;567;567;567;567;567;567;567;567;567;6231;6231;
  6231;6231;6231;6231;6231;6231;6231;6231;6231;6231;6231;570;570;570;570;570;570;570;570;570;570;570;570;570;
  570;570;570;570;570;570;6255;6255;6240;6234;6234;6255;6237;6258;6258;6258;6258;6261;6261;6249;6246;6243;
  6252;6252;6252;6252;6252;6252;6252;6252;6252;6252;6894;6249;573;6243;6546;6723;6897;6897;573;573;573;573;
  573;573;573;573;573;573;573;573;573;573;573;573;573;573;573;573;573;573;573;573;573;573;573;573;573;573;
  6267;6267;6267;6267;6267;6267;6267;6267;6267;6267;6267;6267;6267;6267;6267;6267;6267;6267;6267;6267;576;576;
  576;576;6264;6264;6264;6264;6264;6264;6264;6264;6264;6264;6264;6264;6264;6264;6264;6264;6264;6264;6264;6264;
  6264;6264;6264;6264;6264;6264;6264;6264;576;576;576;576;6294;6294;6294;6294;6294;6294;6294;6294;6294;6294;
  6294;6294;6294;6675;6675;6675;6675;6675;6816;6816;6816;6816;6816;6816;579;579;579;579;579;579;579;579;6453;
  6453;6453;6453;6453;6453;6453;6453;6453;6453;6453;6453;6453;6453;6453;6453;6453;6453;6453;6453;6453;6453;
  6453;6453;6453;6453;6453;6453;6453;6453;6453;582;582;582;582;582;582;582;582;582;582;582;582;582;582;582;
  582;582;648;648;648;648;648;648;648;648;648;648;648;648;648;648;648;648;6357;6357;6357;6357;6357;6357;6357;
  585;6357;6357;585;6357;6357;6357;6357;6357;6357;6357;6357;6357;6357;6357;6357;6357;6357;6357;6357;6357;6357;
  6357;6357;6357;6357;6345;6345;6345;6345;6345;6345;585;585;585;6345;585;6345;6345;585;6345;6345;6345;6348;
  6345;6351;6351;6360;6345;585;585;585;585;585;585;585;585;6354;6354;6354;6354;6354;6354;6354;6354;6354;6354;
  585;585;585;585;585;585;6456;6456;6456;6456;6456;6456;6456;6456;6456;6456;6456;6456;6456;6456;6456;6456;
  6456;6456;6456;6456;6456;6456;6456;6456;6456;6456;6456;6456;588;588;588;588;6405;6408;6423;6423;6408;6411;
  6405;6402;597;597;597;597;597;597;597;597;6384;6363;6363;6363;6363;6363;6363;6381;6381;6363;6363;6363;6384;
  6384;6384;6384;6729;6729;6729;6729;6729;6729;6729;6729].
Definition propsVectorsTrie_index_35 : list Z := [
  6729;6729;6729;6729;6729;6729;6729;6729;6729;6729;6729;6729;600;600;600;600;600;600;600;600;600;600;600;600;
  6552;6552;6552;6552;6552;6552;6552;6552;6552;6552;6552;6552;6552;6552;600;600;6825;6825;6825;6825;6987;651;
  651;651;6825;6825;6825;651;651;651;651;651;6570;6570;6570;6570;6570;6570;6570;6570;6570;6570;6570;6570;6567;
  6567;6567;6555;6555;6555;6555;6555;6555;6555;6555;6555;6567;6561;6558;6564;603;603;603;603;6573;6573;6573;
  6573;6573;6573;6573;6573;6573;6573;6573;6573;6573;6573;6573;6573;6573;6573;6573;6573;6573;6573;6573;6573;
  6573;6573;6573;606;606;6573;6573;6573;6588;6588;6588;6588;6588;6588;609;6588;6588;609;6588;6588;6588;6588;
  6588;6588;6588;6588;6588;6588;6588;6588;6588;6588;6588;6588;6588;6588;6588;6588;6588;6588;6588;6588;6585;
  6585;6585;6585;6585;609;6576;6576;609;6585;6585;6576;6585;6579;6588;609;609;609;609;609;609;609;6597;6597;
  6600;6600;6591;6591;6591;6591;612;612;612;612;612;612;612;612;6594;6594;6594;6594;6594;6594;6594;6594;6594;
  6594;612;612;612;612;612;612;6603;6603;6603;6603;6603;6603;6603;6603;6603;6603;6603;6603;6606;6603;6603;
  6603;6606;6603;6603;6603;6603;615;615;615;615;615;615;615;615;615;615;615;6615;6615;6615;6615;6615;6615;
  6615;6615;6615;6615;6615;6615;6615;6615;6615;6615;6615;6615;6615;6609;6609;6612;6612;6618;6618;618;618;618;
  618;618;618;618;6621;6621;6621;6621;6621;6621;6621;6621;6621;6621;6621;6621;6621;6621;6621;6621;6621;6621;
  6621;6621;621;621;621;621;621;621;621;621;621;621;621;621;6624;6624;6624;6624;6624;6624;6624;6624;6624;6624;
  6624;6624;6624;6624;6624;6624;6624;6624;6624;6624;6624;6624;6624;6627;6636;6624;6624;624;624;624;624;624;
  6639;6639;6639;6639;6639;6639;6639;6642;627;627;627;627;627;627;627;627;6651;6651;6651;6651;6651;6651;6651;
  6651;6651;6651;6651;6651;6651;6651;6651;6651;6651;6651;6645;6645;6645;6645;6645;6645;6645;6645;6645;6645;
  6645;6648;6648;6648;6648;6654;6654;6654;6654;6654;630;630;630;630;630;630;6741;6741;6741;6741;6741;6741;
  6741;6741;6741;6741;6741;6741;6741;6741;6741;6741;6741;6741;6741;6741;6741;6741;6741;636;636;636;636;636;
  636;636;636;636;6756;6756;6756;6756;6756;6756;6756;6756;639;639;6756;6756;6756;6756;6756;6756;6756;6756;
  6756;6756;6756;6756;6756;6756;6756;6756;6756;6756;6756;6756;6756;6756;6756;6753;6753;6753;6744;6744;6744;
  6744;639;639;6744;6744;6753;6753;6753;6753;6747;6756;6750;6756;6753;639;639;639;639;639;639;639;639;639;639;
  639;639;639;639;639;639;639;639;639;639;639;639;639;639;639;639;639;6768;6768;6768;6768].
Definition propsVectorsTrie_index_36 : list Z := [
  6768;6768;6768;6768;6768;6768;6768;6768;6768;642;642;642;6759;6759;6759;6759;6759;6759;6759;6768;6768;6768;
  6768;6768;6771;6771;642;642;645;6774;6774;6774;6774;6774;6774;6774;6774;6774;6774;6774;6774;6774;6774;6774;
  6774;6774;6774;6774;6774;6774;6774;6774;6774;6774;6774;6774;6774;6774;6774;6774;6774;6774;645;645;648;648;
  648;648;648;648;648;648;648;648;648;648;648;648;648;648;6819;6819;6819;648;648;648;648;648;648;648;648;648;
  648;648;648;648;6822;6822;6822;6822;648;648;648;648;648;648;648;648;6456;6456;6456;6456;6456;6456;6456;6456;
  6456;6456;6456;6456;6456;6456;6456;6456;6825;6825;6825;6987;6987;6987;6987;651;651;651;651;651;651;651;651;
  651;6825;6825;6825;6825;6825;6825;6987;6987;6987;6987;6987;6987;6987;6987;6987;6987;6987;651;651;651;651;
  651;651;651;6987;6987;6987;6987;6987;6987;6987;651;651;651;651;651;651;651;651;651;651;651;651;651;6987;
  6987;6987;6987;6987;6987;6987;651;651;651;651;651;651;651;651;651;651;651;651;651;651;651;651;651;651;651;
  651;651;651;651;651;651;651;651;651;651;651;651;651;651;6783;6777;6777;6777;6777;6777;6777;6777;6777;6777;
  6777;6777;6777;6777;6777;6777;6777;6777;654;654;654;654;654;654;654;654;654;654;654;654;654;6780;6795;6795;
  6795;6795;6795;6795;6795;6795;6795;6795;6795;6795;6786;6786;6786;6786;6792;6792;6792;6792;6792;6792;6792;
  6792;6792;6792;657;657;657;657;657;6789;6903;6903;6903;6903;6903;6900;6900;6900;6900;6900;6900;6900;660;660;
  660;660;660;660;660;660;660;660;660;660;660;660;660;660;660;660;660;660;6930;6930;6930;6930;6930;6930;6930;
  663;663;6930;663;663;6930;6930;6930;6930;6930;6930;6930;6930;663;6930;6930;663;6930;6930;6930;6930;6930;
  6930;6930;6930;6930;6930;6930;6930;6930;6930;6930;6930;6906;6921;6921;6921;6921;6921;663;6921;6924;663;663;
  6906;6906;6927;6912;6933;6921;6933;6921;6909;6936;6915;6936;663;663;663;663;663;663;663;663;663;6918;6918;
  6918;6918;6918;6918;6918;6918;6918;6918;663;663;663;663;663;663;6993;6993;6993;6993;6993;6993;6993;6993;
  6993;6993;6993;6993;6993;6993;6993;6993;6993;6993;6993;6993;6993;6993;666;666;666;666;666;666;666;666;666;
  666;666;666;666;666;666;666;666;666;666;666;666;666;666;666;666;666;666;666;666;666;666;666;666;666;6942;
  6942;6942;6942;6942;6942;6942;6942;6942;6942;6942;6942;6942;6942;6942;6942;6942;6942;6942;672;6942;6942;
  6942;6942;6942;6942;6942;6942;6942;6942;6942;6942;6942;6942;6942;672;672;672;672;672;672;672;672;672;672;
  672;672;672].
Definition propsVectorsTrie_index_37 : list Z := [
  672;672;672;672;672;672;672;672;6945;6945;6945;6945;6945;6945;6945;6945;6945;6945;672;672;672;672;672;672;
  6996;6996;6996;6996;6996;6996;6996;6996;6996;675;675;675;675;675;675;675;675;675;675;675;675;675;675;675;
  675;675;675;675;675;675;675;675;675;675;675;675;675;675;675;675;675;675;675;675;6954;6954;6954;6954;6954;
  6954;6954;6954;6954;6954;678;6948;6948;6951;678;678;6954;6954;678;678;678;678;678;678;678;678;678;678;678;
  678;678;678;681;681;681;681;681;681;681;681;681;681;681;681;681;681;681;681;681;681;681;681;681;681;681;681;
  681;681;681;681;681;681;681;681;6450;705;705;705;705;705;705;705;705;705;705;705;705;705;705;705;681;681;
  681;681;681;681;681;681;681;681;681;681;681;681;681;681;681;681;681;681;681;681;681;681;681;681;681;681;681;
  681;2427;2427;6990;6990;6990;6990;6990;6990;6990;6990;6990;6990;6990;708;708;708;708;708;681;681;681;681;
  681;681;681;681;681;681;681;681;681;681;681;681;6429;6429;6429;6429;6429;6429;6429;6429;6429;6429;6429;6660;
  6660;6660;6660;6660;6963;6963;6963;6963;6963;6963;6963;6963;6963;6963;6963;6963;6963;684;684;684;3231;3231;
  3231;3231;3231;3231;3231;3231;3231;3231;3231;4836;4836;4836;687;687;3792;3792;3792;3792;3792;3792;3792;3792;
  3792;3792;3792;3792;3792;3792;3792;3792;3792;3792;3792;3792;3792;3792;3792;3792;3792;3792;687;687;687;687;
  687;687;687;687;687;687;687;687;687;687;687;687;687;687;687;687;687;687;687;687;687;687;687;687;687;687;687;
  687;687;687;2985;2985;2985;2985;2985;2985;2985;2985;2985;2985;2985;2985;2985;2985;2985;2985;2985;2985;2985;
  2985;2985;2985;2985;6966;6966;6966;6966;6966;6966;6966;690;690;2988;2988;2988;2988;2988;2988;2988;2988;2988;
  2988;2988;2988;2988;2988;2988;2988;2988;2988;2988;2988;2988;2988;2988;2988;2988;2988;2988;2988;2988;2988;
  693;693;4857;4857;4857;4857;4857;4857;4857;4857;4857;4857;4857;4857;4857;4857;4857;4857;4857;4857;4857;4857;
  4857;696;696;696;696;696;696;696;696;696;696;696;5142;5142;5142;5142;5142;5142;5142;5142;5142;5142;5142;
  5142;5142;5142;5142;5142;5142;5142;5142;5142;5142;5142;5142;5142;5142;5142;5142;5142;5142;5142;699;699;6108;
  6108;702;702;702;702;702;702;702;702;702;702;702;702;702;702;6450;6450;6450;6450;6450;6450;6450;6450;6450;
  6450;6450;6450;6450;6450;6450;6450;972;960;960;960;960;960;960;960;960;972;972;972;972;966;4440;4926;975;
  2373;2376;957;957;4437;4923;4923;978;978;978;978;978;978;978;978].
Definition propsVectorsTrie_index_38 : list Z := [
  4437;960;960;972;3297;975;975;975;975;975;975;975;975;975;975;975;975;975;975;975;975;975;975;975;975;975;
  975;975;975;975;975;975;975;975;960;960;2256;2259;2403;2403;2403;2403;2403;2403;2403;2403;2403;2403;969;
  4026;4023;4929;4929;4929;4929;4929;5382;4443;4443;3852;3852;3546;3852;3852;975;975;975;975;975;975;975;975;
  975;978;975;975;975;975;975;975;975;978;975;975;978;975;975;975;975;975;4923;4926;963;975;972;972;1134;1134;
  1134;1134;1134;1134;1134;1134;1134;4935;1134;1134;1134;1134;1134;1134;1134;1134;1134;1134;1134;1134;1134;
  1134;1134;1134;4935;6318;6318;4056;1119;1128;1194;1194;1194;1194;1194;1194;1194;1194;1194;1194;1194;1194;
  1194;1194;1194;1194;1194;1194;1194;1194;1194;1194;1194;3015;3015;3558;3558;2262;3561;5160;5160;5160;1197;
  1197;1197;1197;1197;1197;1197;1197;1197;1197;1197;1197;1197;1197;1197;1197;1197;1197;1197;1197;1197;1197;
  1197;1197;1197;1197;1197;1197;1197;1197;1197;1197;1203;1203;1203;4464;4464;4464;4464;4464;1200;1200;1200;
  1200;1200;1200;1200;1200;1200;1200;1200;1200;1200;1200;1200;1200;1200;1200;1200;1200;1200;1200;1200;1200;
  1200;1200;1200;1200;1200;1200;1200;1200;1200;1200;4461;4461;4461;4461;4461;4461;1206;1203;1203;1203;1203;
  1203;1203;1203;1203;1203;1203;1203;1203;1203;1203;1203;1203;1203;1203;1203;1203;1203;1203;1203;1203;1203;
  1203;1203;1203;1203;1203;1203;1203;1203;1203;1203;1215;1209;1215;1209;1215;1209;1215;1209;1215;1209;1215;
  1209;1215;1209;1215;1209;1215;1209;1215;1209;1215;1209;1215;1209;1215;1209;1215;1209;1215;1209;1215;1209;
  1215;1209;1209;1209;1209;1209;1212;2493;4101;4101;4104;4101;1215;1209;1215;1209;1215;1209;1215;1209;1215;
  1209;1215;1209;1215;1209;1215;1209;1215;1209;1215;1209;1215;1209;1215;1209;1215;1209;4104;4101;4104;4101;
  4104;4101;1227;1227;1227;1227;1227;1227;1227;1227;1230;1230;1230;1230;1230;1230;1230;1230;1227;1227;1227;
  1227;1227;1227;1227;1227;1230;1230;1230;1230;1230;1230;1230;1230;1710;1710;1713;1257;1725;1722;1722;1719;
  1299;1299;1233;1233;1233;1233;1233;2904;1728;1269;1752;1755;1290;1728;1272;1272;1257;1284;1284;1710;1296;
  1293;1716;1251;1242;1242;1245;1245;1245;1245;1245;1248;1245;1245;1245;1236;1308;1305;1302;1302;1740;1278;
  1275;1737;1734;1731;1749;1260;1746;1746;1281;1284;1743;1743;1281;1284;1254;1257;1257;1257;1287;1266;1263;
  3036;2802;2805;2799;2799;2799;2799;3027;3027;3027;3027;3033;3342;3339;3573;3576;3030;3576;3576;3576;3576;
  3573;3576;3576;3024;1344;1344;1344;1344;1344;1344;1344;1341;1347;1884;1344;2496;2529;2808;2808;2808;3042;
  3042;3582;3582;3582;3582;4473;4476;4476;4956;5364;5406;5409;5409;5940;6321].
Definition propsVectorsTrie_index_39 : list Z := [
  1359;1359;1383;1770;1356;1767;1359;1380;1356;1770;1374;1383;1383;1383;1374;1374;1383;1383;1383;1779;1356;
  1383;1773;1356;1371;1383;1383;1383;1383;1383;1356;1356;1362;1767;1776;1356;1383;1356;1782;1356;1383;1365;
  1389;1785;1383;1383;1368;1374;1383;1383;1386;1383;1374;1377;1377;1377;1377;2820;2817;3345;3591;3063;3066;
  3066;3060;3057;3057;3057;3057;3066;3063;3063;3063;3063;3054;3057;3588;3864;3867;4110;4479;4479;4479;1791;
  1788;1392;1395;1395;1395;1395;1395;1788;1791;1791;1788;1395;1797;1797;1797;1797;1797;1797;1797;1797;1797;
  1797;1797;1797;1404;1404;1404;1404;1794;1794;1794;1794;1794;1794;1794;1794;1794;1794;1398;1398;1398;1398;
  1398;1398;1410;1410;1410;1410;1410;1410;1410;1410;1407;1416;1416;1410;1410;1410;1413;1407;1410;1410;1407;
  1407;1407;1407;1410;1410;1800;1800;1407;1407;1410;1410;1410;1410;1410;1410;1410;1410;1410;1410;1410;1410;
  1410;1413;1413;1413;1410;1410;1803;1410;1803;1410;1410;1410;1410;1410;1410;1410;1407;1410;1407;1407;1407;
  1407;1407;1407;1410;1410;1407;1800;1407;1407;1407;2826;2826;2826;2826;2826;2826;2826;2826;2826;3069;3069;
  3069;3069;3069;3069;3069;3069;3069;3069;3069;3069;1809;1419;1809;1809;1422;1419;1419;1809;1809;1422;1419;
  1809;1422;1419;1419;1809;1419;1809;1434;1431;1419;1809;1419;1419;1419;1419;1809;1419;1419;1809;1809;1809;
  1809;1419;1419;1809;1422;1809;1422;1809;1809;1809;1809;1809;1815;1425;1809;1425;1425;1419;1419;1419;1809;
  1809;1809;1809;1419;1419;1419;1419;1809;1809;1419;1419;1419;1422;1419;1419;1422;1419;1419;1422;1809;1422;
  1419;1419;1809;1419;1419;1419;1419;1419;1809;1419;1419;1419;1419;1419;1419;1419;1419;1419;1419;1419;1419;
  1419;1812;1809;1422;1419;1809;1809;1809;1809;1419;1419;1809;1809;1419;1422;1812;1812;1422;1422;1419;1419;
  1422;1422;1419;1419;1422;1422;1419;1419;1419;1419;1419;1419;1422;1422;1809;1809;1422;1422;1809;1809;1422;
  1422;1419;1419;1419;1419;1419;1419;1419;1419;1419;1419;1419;1809;1419;1419;1419;1809;1419;1419;1419;1419;
  1419;1419;1419;1809;1419;1419;1419;1419;1419;1419;1422;1422;1422;1422;1419;1419;1419;1419;1419;1419;1419;
  1419;1419;1419;1419;1419;1419;1419;1419;1809;1419;1419;1419;1419;1419;1419;1419;1419;1419;1419;1419;1419;
  1419;1419;1419;1419;1419;1419;1419;1419;1419;1419;1419;1419;1419;1419;1419;1419;1419;1419;1419;1419;1422;
  1422;1422;1422;1419;1419;1419;1419;1419;1419;1422;1422;1422;1422;1419;1428;1419;1419;3072;3072;3072;3072;
  3072;3072;3072;3072;3072;3072;3072;3072;3072;3072;1437;2829;1437;1437;1437;1437;1437;1437;1449;1446;1449;
  1446;1437;1437;1437;1437;1437;1437;1818;1437;1437;1437;1437;1437;1437;1437;2079;2079;1437;1437;1437;1437;
  1443;1443;1437;1437;1437;1437;1437;1437].
Definition propsVectorsTrie_index_40 : list Z := [
  1440;2085;2082;1437;1437;1437;1437;1437;1437;1437;1437;1437;1437;1437;1437;1437;1437;1437;1437;1437;1437;
  1437;1437;1437;1437;1437;1437;1437;1437;1437;1437;1437;1437;1437;1437;1437;1437;1437;1437;2829;3078;2829;
  2829;2829;1452;1452;1452;1452;1452;1452;1452;1452;1452;1452;1452;1452;1452;1452;1452;1452;1452;1452;1452;
  1452;1452;1452;1452;1452;1452;1452;1452;1452;1452;1452;1452;1452;1827;1827;1827;1827;1827;1827;1827;1827;
  1827;1827;1458;3183;3183;3183;3183;3183;3183;3183;3183;3183;3183;3183;3183;3183;3183;3183;3183;3183;3183;
  3183;3183;3465;1836;1836;1836;1836;1836;1836;1836;1836;1836;1836;1836;1836;1836;1836;1836;1836;1836;1836;
  1836;1836;1461;1464;1464;1464;1464;1464;1464;1464;1464;1464;1464;1464;1836;1836;1836;1836;1836;1836;1836;
  1836;1836;1836;1836;1836;1464;1464;1464;1464;1836;1836;1836;1836;1836;1836;1836;1836;1836;1836;1836;1836;
  1836;1836;1836;1836;1839;1839;1839;1839;1839;1839;1839;1839;1839;1839;1839;1839;1839;1839;1839;1839;1467;
  1467;1839;1839;1839;1839;3081;3081;3081;3081;3081;3081;3081;3081;3081;3081;1845;1845;1470;1842;1842;1842;
  1842;1842;1842;1842;1473;1473;1470;1470;1476;1476;1476;1476;1845;1845;1476;1476;1848;1845;1470;1470;1470;
  1470;1845;1845;1476;1476;1848;1845;1470;1470;1470;1470;1845;1845;1842;1470;1476;1845;1470;1470;1842;1845;
  1845;1845;1476;1476;1470;1470;1470;1470;1470;1470;1470;1470;1470;1470;1470;1470;1470;1470;1845;1842;1845;
  1842;1470;1476;1476;1476;1476;1476;1476;1470;1470;1842;2838;2838;2838;2838;2838;2838;2838;2838;3084;3084;
  3084;3087;3087;3210;3210;3084;1491;1491;1491;1491;1488;1866;1863;1482;1482;1851;1482;1482;1482;1482;1857;
  1851;1482;1488;1482;1479;3474;3474;3093;3093;3603;2841;1485;1485;1854;1494;1854;1485;1488;1482;1488;1488;
  1482;1482;1488;1482;1482;1482;1488;1482;1482;1482;1488;1488;1482;1482;1482;1482;1482;1482;1482;1482;1488;
  1491;1491;1485;1482;1482;1482;1482;1869;1482;1869;1482;1482;1482;1482;1482;2088;2088;2088;2088;2088;2088;
  2088;2088;2088;2088;2088;2088;1482;1482;1482;1482;1482;1482;1482;1482;1482;1482;1482;1488;1869;1866;1497;
  1869;1851;1857;1488;1851;1860;1851;1851;1482;1851;1866;1497;1866;2841;2841;3096;3096;3096;3096;3096;3096;
  3096;3096;3096;3099;3096;3096;3600;3783;1500;1500;1500;1500;1500;1500;1500;1500;1500;1500;1500;1500;1500;
  1500;1500;1500;1500;1500;1500;1500;1503;5094;5094;5094;1503;1503;1503;1503;1503;1503;1503;1503;5418;1515;
  1524;1515;1515;5094;1503;1503;1524;1524;5097;5097;1527;1527;1512;1518;1512;1512;1518;1503;1518;1503;1518;
  1503;1503;1503;1503;1503;1503;1518;1503;1503;1503;1503;1503;1503;5094;1503;1503;1503;1503;1503;1503;1503;
  1503;1503;1503;1518;1518;1503;1503;1503].
Definition propsVectorsTrie_index_41 : list Z := [
  1503;1503;1503;1503;1503;1875;1503;1503;1503;1503;1503;1503;1518;1503;1503;1518;1503;1503;1503;1503;5094;
  1503;5094;1503;1503;1503;1503;5094;5094;5094;1503;4830;1503;1503;1503;1509;1509;1509;1509;4968;4968;1503;
  1506;1521;1524;1512;1512;1512;3105;3102;3105;3102;3105;3102;3105;3102;3105;3102;3105;3102;3105;3102;1872;
  1872;1872;1872;1872;1872;1872;1872;1872;1872;1503;1518;1503;1503;1503;1503;1503;1503;1503;1503;1503;1503;
  1503;1503;1503;1503;5094;1503;1503;1503;1503;1503;1503;1503;1503;1503;1503;1503;1503;1503;1503;5094;1560;
  1560;1560;1560;1560;1560;1560;1560;1560;1560;1560;1560;1560;1563;1563;1563;1563;1563;1563;1563;1569;1569;
  1569;1569;1569;1569;1569;1569;1560;1566;1551;1554;1566;1566;1566;1566;1566;1566;1566;1566;1566;1566;1566;
  1566;1566;1566;1566;1566;1566;1566;1566;1566;1566;1566;1566;1566;1566;1566;1566;1566;1566;1566;1557;1557;
  1557;1557;1557;1557;1560;1560;1560;1560;1560;1560;1560;1560;1560;1560;1560;1560;1560;1560;1560;1560;1560;
  1560;1560;1560;1560;1560;1560;1560;1560;1560;1560;1560;1563;1569;1566;1560;1563;1569;1566;1560;1563;1569;
  1566;1560;1563;1569;1566;1560;1563;1569;1566;1560;1563;1569;1566;1560;1563;1569;1566;1560;1563;1569;1566;
  1560;1566;1560;1566;1560;1566;1560;1566;1560;1566;1560;1566;1560;1563;1569;1566;1560;1563;1569;1566;1560;
  1563;1569;1566;1560;1563;1569;1566;1560;1566;1560;1563;1569;1566;1560;1566;1560;1563;1569;1566;1560;1563;
  1569;1566;1560;1566;1560;4971;4971;4971;4971;4971;4971;4971;4971;4971;4971;4971;4971;4971;4971;1566;1560;
  1566;1560;1566;1560;1563;1569;1563;1569;1566;1560;1566;1560;1566;1560;1566;1560;1566;1560;1566;1560;1566;
  1560;1563;1566;1560;1563;1566;1560;1563;1569;1560;1560;1560;1560;1560;1560;1560;1560;1560;1560;1560;1560;
  1560;1560;1560;1560;1560;1560;1560;1560;1560;1560;1560;1563;1563;1563;1563;1563;1563;1563;1563;1563;1566;
  1566;1566;1566;1566;1566;1566;1566;1566;1566;1566;1566;1566;1566;1566;1566;1566;1560;1560;1560;1560;1560;
  1560;1560;1560;1560;1560;1560;1560;1560;1560;1560;1563;1563;1560;1563;1560;1563;1560;1560;1563;1560;1560;
  1563;1560;1563;1560;1560;1563;1560;1563;1563;1560;1560;1560;1563;1560;1560;1560;1560;1560;1563;1560;1560;
  1560;1560;1560;1560;1560;1560;1560;1560;1560;1560;1560;1560;1560;1560;1560;1560;1560;1560;1560;1560;1563;
  1563;1560;1560;1563;1560;1563;1560;1560;1560;1560;1560;1563;1563;1563;1563;1563;1563;1563;1563;1563;1563;
  1563;1563;1563;1563;1563;1563;1563;1563;1563;1563;1563;1563;1563;1563;1563;1563;1563;1563;1563;1563;1563;
  1563;1563;1563;1563;1569;1566;1566;1566;1566;1566;1566;1566;1566;1566;1566;1566;1566;1566;1566;1566;1566;
  1566;1566;1566;1566;1566;1566;1566;1566].
Definition propsVectorsTrie_index_42 : list Z := [
  1566;1566;1566;1566;1566;1566;1566;1566;1569;1569;1569;1569;1569;1569;1569;1569;1569;1569;1569;1569;1569;
  1569;1569;1569;1569;1569;1569;1569;1569;1566;1566;1566;1566;1566;1566;1566;1566;1566;1566;1566;1572;1572;
  1572;1572;4122;4122;4122;5421;5421;5421;5421;5421;5421;5421;5946;5946;2181;2187;2187;2199;2199;2184;2175;
  2184;2175;2184;2175;2184;2175;2184;2175;2184;1587;1587;1581;1587;1581;1587;1581;1587;1581;1587;1581;1584;
  1590;1587;1581;1587;1581;1584;1590;1587;1581;1587;1581;1584;1590;1587;1581;1584;1590;1587;1581;1584;1590;
  1587;1581;1587;1581;1587;1581;1587;1581;1587;1581;1584;1590;1587;1581;1584;1590;1587;1581;1584;1590;1587;
  1581;1584;1590;1587;1581;1584;1590;1587;1581;1584;1590;1587;1581;1584;1590;1587;1581;1584;1590;1587;1581;
  1584;1824;1824;1824;1824;1824;1824;1824;1824;1824;1824;1824;1824;1824;1824;1824;1824;1824;1824;1824;1824;
  1821;1821;1821;1821;1821;1821;1821;1821;1821;1821;1821;1821;1821;1821;1821;1821;1821;1821;1821;1821;1821;
  1821;1821;1821;1821;1821;1821;1821;1821;1821;1821;1821;1821;1821;1830;1830;1830;1830;1830;1830;1830;1830;
  1830;1830;1830;1830;1833;1830;1830;1830;1830;1830;1830;1830;1830;1830;1830;1830;1830;1830;1827;1827;1827;
  1827;1827;1827;1827;1827;1827;1827;1827;1827;1827;1827;1827;1827;1836;1836;1836;1836;1836;1836;1836;1836;
  1836;1836;1836;1836;1836;1836;1836;1836;1836;1836;1836;1836;1836;1836;1836;1836;1836;1836;1836;1836;1836;
  1836;1836;1836;1878;1878;1878;1878;1878;1878;1878;1878;1878;1878;1878;1878;1878;1878;1878;1878;1878;1878;
  1878;1878;1878;1878;1878;1878;1878;1878;1878;1878;1878;1878;1878;1878;3192;2280;2274;2271;2277;2268;1899;
  1902;1902;1902;1902;1902;1902;1902;1902;1902;2286;1899;1899;1899;1899;1899;1899;1899;1899;1899;1899;1899;
  1899;1899;1899;1899;1899;1899;1899;1899;1899;1899;1899;1899;1899;1899;1899;1899;1899;1899;1899;1899;1899;
  1899;2283;2283;1905;2301;2304;2310;2091;2103;2331;2100;2292;2289;2292;2289;2298;2295;2298;2295;2292;2289;
  2097;2310;2292;2289;2292;2289;2292;2289;2292;2289;2313;2322;2319;2319;1911;1971;1971;1971;1971;1971;1971;
  1965;1965;1965;1965;1965;1965;1965;1965;1965;1965;1965;1965;1965;1965;1965;1965;1965;1965;1965;1965;1914;
  1941;1908;1947;1950;1944;1968;1968;1968;1968;1968;1968;1962;1962;1962;1962;1962;1962;1962;1962;1962;1962;
  1962;1962;1962;1962;1962;1962;1962;1962;1962;1962;1914;1941;1908;1941;3195;2073;2073;2073;2073;2073;2073;
  2073;2073;2073;2073;2073;2073;2073;2073;2073;2073;2073;2073;2073;2073;2073;2073;2073;2073;2073;2073;2073;
  2073;2073;2073;2073;2073;2073;2073;4824;4824;4824;4824;4824;2076;2097;2100;2100;2100;2100;2100;2100;2100;
  2100;2100;2385;2385;2385;2385;2106;2106].
Definition propsVectorsTrie_index_43 : list Z := [
  2316;2328;2328;2328;2328;2325;2094;2307;2877;2877;2877;3213;3243;3240;2907;2265;2112;2109;2112;2115;2109;
  2112;2109;2112;2109;2112;2109;2109;2109;2109;2109;2109;2112;2112;2109;2112;2112;2109;2112;2112;2109;2112;
  2112;2109;2112;2112;2109;2109;3246;2130;2124;2130;2124;2130;2124;2130;2124;2130;2124;2124;2127;2124;2127;
  2124;2127;2124;2127;2124;2127;2124;2127;2124;2127;2124;2127;2124;2127;2124;2127;2124;2127;2124;2127;2130;
  2124;2127;2124;2127;2124;2127;2124;2124;2124;2124;2124;2124;2127;2127;2124;2127;2127;2124;2127;2127;2124;
  2127;2127;2124;2127;2127;2124;2124;2124;2124;2124;2130;2124;2130;2124;2130;2124;2124;2124;2124;2124;2124;
  2130;2124;2124;2124;2124;2124;2127;2130;2130;2127;2127;2127;2127;2337;2340;2133;2136;3222;2142;2142;2142;
  2142;2142;2142;2142;2142;2142;2142;2142;2142;2142;2142;2142;2142;2142;2142;2142;2142;2142;2142;2142;2142;
  2142;2142;2142;2142;2142;2142;2142;2142;2145;2142;2142;2142;2142;2142;2142;2142;2142;2142;2142;2142;2142;
  2142;2142;2142;2142;2142;2142;2142;2142;2142;2142;2142;2142;2142;2142;2142;2154;2154;2154;2154;2154;2154;
  2154;2154;2154;2154;2154;2154;2154;2154;2154;2154;2154;2154;2154;2154;2154;2154;2154;2154;2154;2154;2154;
  2154;3483;3483;3786;2148;2349;2349;2349;2349;2349;2349;2349;2349;2349;2349;2349;2349;3477;3477;3477;3477;
  2157;2157;2157;2157;2157;2157;2157;2157;2157;2157;2157;2157;2157;2157;2157;2157;2157;2157;2157;2157;2157;
  2157;2157;2157;2157;2157;2157;2157;2157;2157;2157;6834;2358;2358;2358;2358;2358;2358;2358;2358;2358;2358;
  2358;2358;2358;2358;2358;2358;2358;2160;2160;2160;2160;2160;2160;3486;3486;3486;3486;2361;2361;2361;2361;
  2361;2160;2160;2160;2160;2160;2160;2160;2160;2160;2160;2160;2160;2160;2160;2160;2160;2160;2160;2160;2160;
  2160;2160;2160;2160;2160;2160;2160;2160;2160;2160;2160;2160;2160;2160;3486;3486;2163;2163;2163;2163;2163;
  2163;2163;2163;2163;2163;2163;2163;2163;2163;2163;2163;2163;2163;2163;2163;2163;2163;2163;2163;2163;2163;
  2163;2163;2163;2163;2163;2163;2358;2358;2358;2358;2358;2358;2358;2358;2166;2166;2166;2166;2166;2166;2166;
  2166;2166;2166;2166;2166;2166;2166;2166;2166;2166;2166;2166;2166;2166;2166;2166;2166;2166;2166;2166;2166;
  2166;2166;2166;2166;2166;2166;3789;3789;3789;3789;3789;3789;3789;3789;3789;3789;3789;3789;3789;3789;3789;
  3789;3789;3789;3789;3789;3789;3789;4413;4413;4413;4413;2169;2169;2169;2169;2169;2169;2169;2169;2169;2169;
  2169;2169;2169;2169;2169;2169;2169;2169;2169;2169;2169;2169;2169;2169;2169;2169;2169;2169;2169;2169;2169;
  2169;2169;2169;2172;2172;2169;2172;2169;2172;2172;2169;2169;2169;2169;2169;2169;2169;2169;2169;2169;2172;
  2169;2172;2169;2172;2172;2169;2169;2172].
Definition propsVectorsTrie_index_44 : list Z := [
  2172;2172;2169;2169;2169;2169;5349;5349;3231;3231;3231;3231;3231;3231;3231;3231;3231;3231;3231;3231;3231;
  3231;3231;3231;2349;2349;2349;2349;2349;2349;2349;2349;2349;2349;2349;2349;2349;2349;2349;2349;2349;2349;
  2349;2349;2349;2349;2349;2349;2349;2349;2349;2349;2349;2349;2349;2349;4893;4893;4893;4893;4797;4797;4797;
  4797;4797;4797;4797;4797;3477;3225;3225;3225;3225;3225;3225;3225;3225;3225;3225;3225;3225;3225;3225;3225;
  2352;2352;2352;2352;2352;2352;2352;2352;2352;2352;2352;2352;2352;2352;2352;2352;2352;2352;2352;2352;2352;
  2352;2352;2355;2352;2355;2352;2352;2352;2352;2352;2352;2352;2352;2352;2352;2352;2352;2352;2352;2352;2352;
  2352;2352;2352;3225;3225;3225;3225;3225;3225;3225;3225;3225;3225;3225;3225;3225;3225;3225;2358;2358;2358;
  2358;2358;2358;2358;2358;2358;2358;2358;2358;2358;2358;2358;2358;2358;2358;2358;2358;2358;2358;2358;2358;
  2358;2358;2358;2358;2358;2358;2358;3486;2487;2457;2457;2457;2457;2451;2457;2457;2475;2457;2457;2454;2466;
  2472;2472;2472;2472;2472;2475;2451;2463;2451;2451;2451;2442;2442;2451;2451;2451;2451;2451;2451;2478;2478;
  2478;2478;2478;2478;2478;2478;2478;2478;2451;2451;2451;2451;2451;2451;2451;2451;2451;2451;2454;2442;2451;
  2442;2451;2442;2469;2460;2469;2460;2484;2484;2499;2499;2499;2499;2499;2499;2499;2499;2499;2499;2499;2499;
  2499;2499;2499;2499;2499;2499;2499;2499;2499;2499;2499;2499;2499;2499;2499;2499;2499;2499;2499;2499;2502;
  2502;2502;2502;2502;2502;2502;2502;2502;2502;2502;2502;2502;2502;2502;2502;2502;2502;2502;2502;2502;2502;
  2502;2502;2502;2502;2502;2502;2502;2502;2502;2502;2505;2505;2505;2505;2505;2505;2505;2505;2505;2505;2505;
  2505;2505;2505;2505;2505;2505;2505;2505;2505;2505;2505;2505;2505;2505;2505;2505;2505;2505;2505;2505;2505;
  2514;2514;2514;2514;2514;2514;2514;2514;2514;2514;2514;2514;2514;2514;2514;2514;2514;2514;2514;2514;2514;
  2514;2514;2514;2514;2514;2514;2514;2514;2514;2508;2508;2517;2517;2517;2517;2517;2517;2517;2517;2517;2517;
  2517;2517;2517;2517;2517;2517;2517;2517;2517;2517;2517;2517;2517;2517;2517;2517;2517;2517;2517;2517;2511;
  2511;2514;2514;2514;2514;2514;2514;2514;2514;2514;2514;2514;2514;2514;2514;2514;2514;2514;2514;2514;2514;
  2514;2514;2514;2514;2514;2514;2514;2514;2514;2514;2514;2514;2517;2517;2517;2517;2517;2517;2517;2517;2517;
  2517;2517;2517;2517;2517;2517;2517;2517;2517;2517;2517;2517;2517;2517;2517;2517;2517;2517;2517;2517;2517;
  2517;2517;2520;2523;2523;2523;2523;2523;2523;2523;2523;2523;2523;2523;2523;2523;2523;2523;2523;2523;2523;
  2523;2523;2523;2523;2523;2523;2523;2523;2523;2520;2523;2523;2523;2523;2523;2523;2523;2523;2523;2523;2523;
  2523;2523;2523;2523;2523;2523;2523;2523].
Definition propsVectorsTrie_index_45 : list Z := [
  2523;2523;2523;2523;2523;2523;2523;2523;2664;2664;4095;2664;2664;2664;2667;2664;4095;2664;2664;4086;2658;
  2646;2646;2646;2646;2661;2646;4071;4071;4071;2646;2649;2658;2652;4077;4089;4089;4071;4071;4095;2913;2913;
  2913;2913;2913;2913;2913;2913;2913;2913;2670;2670;2655;2655;2655;2655;2664;2664;2664;2664;2664;2664;2661;
  2661;2646;2646;4095;4095;4095;4095;4071;4071;2664;2664;2664;2664;2664;2664;2664;2664;2664;2664;2664;2664;
  2664;2664;2664;2664;2664;2664;2664;2664;2664;2664;2664;2664;2664;2664;2664;2664;2664;2664;2664;2664;2685;
  2685;2685;2685;2685;2685;2685;3570;2685;2685;2685;2685;2685;2685;2685;2685;2685;2685;2685;2685;2685;2685;
  2685;2685;2685;2685;2685;2685;2685;2685;2685;2685;2685;2685;2685;2685;2685;2685;2685;2685;2685;2685;2685;
  3570;2685;2685;2685;2685;2685;2685;2685;2685;2685;2685;2685;2685;2685;2685;2685;2685;2691;2691;2691;2691;
  2691;2691;2691;2691;2691;2691;2691;2691;2691;2691;2691;2691;2691;2691;2691;2691;2691;2691;2691;2691;2691;
  2691;2691;2691;2691;2691;2691;2691;2697;2697;2697;2697;2697;2697;2697;2697;2697;2697;2697;2697;2697;2694;
  2700;2697;2697;2697;2697;2697;2697;2697;2697;4470;4470;4470;4470;4470;4470;4470;4470;4470;4467;2697;2697;
  2697;2697;2697;2697;2697;2697;2697;2697;2697;2697;2697;2697;2697;2697;2697;2697;2697;2697;2697;2697;2697;
  2697;2697;2697;2697;2697;2697;2697;2697;2697;2697;2697;2697;2718;2718;2718;2718;2718;2718;2718;2718;2718;
  2718;2718;2718;2718;2718;2718;2718;2718;2718;2718;2718;2718;2718;2718;2718;2718;2718;2718;2718;2718;2718;
  2718;2718;2754;2754;2754;2757;2757;2754;2754;2754;2754;2754;2754;2754;2754;2754;2754;2754;2754;2754;2754;
  2754;2730;2730;2751;2721;2721;2721;2721;2721;2721;2721;2751;2751;2754;2754;2754;2754;2754;2754;2754;2754;
  2754;2754;2754;2754;2754;2754;2754;2754;2754;2754;2754;2754;2754;2754;2754;2754;2754;2754;2754;2754;2754;
  2754;2754;2754;2787;2787;2787;2787;2787;2766;2766;2787;2787;2787;2787;2787;2787;2787;2787;2787;2787;2787;
  2787;2787;2787;2787;2787;2787;2787;2787;2787;2787;2787;2787;2787;2787;2787;2787;2787;2787;2787;2787;2787;
  2787;2787;2787;2787;2790;2787;2787;2787;2787;2787;2787;2787;2787;2787;2787;2787;2787;2787;2787;2787;2787;
  2787;2787;2787;2787;2787;2787;2787;2787;2787;2787;2787;2787;2829;2829;2829;2829;2829;2829;2829;2829;2832;
  2829;2829;2829;2829;2829;2829;2829;2829;2829;2829;2829;2829;2829;2829;2829;2829;2829;2829;3078;3078;3078;
  3078;3078;2844;2844;2844;2844;2844;2844;2844;2844;2844;2844;2844;2844;2844;2844;2844;2844;2844;2844;2844;
  2844;2844;2844;2844;2844;2844;2844;2844;2844;2844;2844;2844;2844;2862;2862;2862;2862;2862;2862;2862;2862;
  2862;2862;2862;2862;2862;2862;2862;2862].
Definition propsVectorsTrie_index_46 : list Z := [
  2862;2862;2862;2862;2862;2862;2862;2862;2862;2862;2862;2862;2862;2862;2862;2862;2868;2868;2868;2868;2868;
  2868;2868;2868;2868;2868;2868;2868;2868;2868;2868;2868;2868;2868;2868;2868;2868;2868;2868;2868;2868;2868;
  2868;2868;2868;2868;2868;2868;2880;2880;2880;2880;2880;2880;2880;2880;2880;2880;2880;2880;2880;2880;2880;
  2880;2880;2880;2880;2880;2880;2880;2880;2880;5100;5100;5100;6957;6957;6957;6957;6957;2883;2883;2883;2883;
  2883;2883;2883;2883;2883;2883;2883;2883;2883;2883;2883;2883;2883;2883;2883;2883;2883;2883;2883;2883;2883;
  2883;2883;2883;2883;2883;2883;2883;2883;2883;6960;6960;6960;6960;6960;6960;6960;6960;6960;6960;2886;2886;
  2886;2886;2886;2886;2886;2886;2886;2886;2886;2886;2886;2886;2886;2886;2886;2886;2886;2886;2886;2889;2886;
  2886;2886;2886;2886;2886;2886;2886;2886;2886;2886;2886;2886;2886;2886;2886;2886;2886;2886;2886;2886;2886;
  2886;2886;2886;2886;2886;2886;2886;2886;2886;2886;2886;2886;2892;2892;3228;3228;2892;2892;2892;2892;2892;
  2892;2892;2892;2892;2892;2892;2892;2892;2892;2892;2892;3228;2892;2892;2892;2892;2892;2892;2892;2892;2892;
  2892;2892;2928;2928;2928;2928;2928;2928;2928;2928;2928;2928;2928;2928;2928;2928;2928;2928;2928;2928;2928;
  2928;2928;2928;2928;2928;2928;2928;2928;2928;2928;2928;2928;5424;2937;2937;2937;2937;2937;2937;3366;3366;
  2934;2934;2934;2934;2934;2934;2934;2934;2934;2934;2934;2934;2934;2934;2934;2934;2934;2934;2934;2934;2934;
  2934;2934;2934;2934;2934;3363;3363;3444;3444;3444;3444;3444;3444;3444;3444;3444;3444;3444;3444;3444;3444;
  3444;3444;2937;2937;2937;2937;2937;2937;2937;2937;2937;2937;2937;2937;2937;2937;2937;2937;2937;2937;2937;
  2937;2937;2937;2937;2937;2937;2937;2937;2937;2937;2937;2937;2937;2940;2940;2940;2940;2940;2940;2940;2940;
  2940;2940;2940;2940;2940;2940;2940;2940;2940;2940;2940;2940;2940;2940;2940;2940;2940;2940;2940;2940;2940;
  2940;2940;2940;2955;2955;2955;2955;2955;2946;2958;2964;2964;2964;2952;2952;2952;2961;2949;2949;2949;2949;
  2949;2943;2943;2943;2943;2943;2943;2943;2943;2964;2964;2964;2964;2964;2952;2952;2952;2952;2952;2952;2952;
  2952;2952;2952;2952;2952;2952;2952;2952;2952;2952;2952;2952;2952;2952;2952;2952;2952;2952;2952;2952;2952;
  2952;2952;2952;2952;2952;2952;2955;2955;2964;2964;2964;2952;2952;2964;2964;2964;2964;2964;2964;2964;2952;
  2952;2952;2952;2952;2952;2952;2952;2952;2952;2952;2952;2952;2952;2952;2952;2952;2952;2952;2952;2952;2952;
  2964;2964;2964;2964;2952;2952;2952;2952;2952;2952;2952;2952;2952;2952;2952;2952;2952;2955;2955;2955;2955;
  2955;2955;2952;2952;2952;2952;2952;2952;2952;2952;2952;2952;2952;2952;2952;2952;2952;2952;2952;2952;2952;
  2952;2952;2952;2952;2952;2952;2952;2952].
Definition propsVectorsTrie_index_47 : list Z := [
  2952;2952;5949;5949;2976;2967;2973;2973;2973;2973;2973;2973;2973;2973;2973;2973;2973;2973;2973;2973;2973;
  2973;2973;2973;2973;2973;2973;2973;2973;2973;2973;2967;2973;2973;2973;2973;2973;2973;2976;2976;2976;2976;
  2976;2976;2976;2976;2976;2976;2976;2976;2976;2976;2976;2976;2976;2976;2976;2976;2976;2976;2976;2976;2976;
  2967;2973;2973;2973;2973;2973;2973;2973;2973;2973;2973;2973;2973;2973;2973;2973;2973;2973;2973;2973;2973;
  2973;2967;2973;2973;2973;2973;2973;2973;2976;2976;2976;2976;2976;2976;2976;2976;2976;2976;2976;2976;2976;
  2976;2976;2976;2976;2976;2976;2976;2976;2967;2973;2973;2973;2973;2973;2973;2973;2973;2973;2973;2973;2973;
  2973;2973;2973;2973;2973;2973;2973;2973;2973;2973;2970;2970;2970;2970;2970;2970;2970;2970;2970;2970;2970;
  2970;2970;2970;2970;2970;2970;2970;2970;2970;2970;2970;2970;2970;2970;2970;2970;2970;2970;2970;2970;2970;
  2976;2976;2976;2976;2976;2976;2976;2976;2976;2976;2976;2976;2976;2976;2976;2976;2976;2976;2976;2976;2976;
  2976;2976;2976;2976;2976;2973;2973;2973;2973;2973;2973;2973;2973;2973;2973;2973;2973;2973;2973;2973;2973;
  2973;2973;2973;2973;2973;2973;2976;2976;2976;2976;2976;2976;2976;2976;2976;2976;2976;2976;2976;2976;2976;
  2976;2976;2976;2976;2976;2976;2976;2976;2976;2976;2976;2973;2973;2973;2973;2973;2973;2973;2973;2973;2973;
  2973;2973;2973;2973;2973;2973;2973;2973;2973;2973;2973;2973;2973;2973;2973;2973;2976;2976;2976;2976;2979;
  2979;2979;2979;2979;2979;2979;2979;2979;2979;2979;2979;2979;2979;2979;2979;2979;2979;2979;2979;2979;2979;
  2979;2979;2979;2979;2979;2979;2979;2979;2979;2979;2985;2985;2985;2985;2985;2985;2985;2985;2985;2985;2985;
  2985;2985;2985;2985;2985;2985;2985;2985;2985;2985;2985;2985;2985;2985;2985;2985;2985;2985;2985;2985;2985;
  2988;2988;2988;2988;2988;2988;2988;2988;2988;2988;2988;2988;2988;2988;2988;2988;2988;2988;2988;2988;2988;
  2988;2988;2988;2988;2988;2988;2988;2988;2988;2988;2988;3078;3078;3078;3078;3078;3078;3078;3078;3078;3078;
  3078;3078;3078;3078;3078;3078;3078;3078;3078;3078;3078;3078;3075;3078;3075;3075;3075;3075;3075;3075;3075;
  3075;3075;3075;3075;3075;3075;3075;3075;3348;3351;3594;3594;3594;3594;3594;3594;3594;3594;3594;3594;3594;
  3876;3876;3876;3876;3096;3096;3096;3096;3096;3096;3090;3090;3090;3090;3354;3354;3354;3354;3354;3354;3357;
  3357;3600;3780;3600;3600;3600;3600;3597;3600;3597;3600;3600;4116;4782;4782;3609;3609;3609;3609;3609;3615;
  3612;3894;3894;3894;3894;5166;4134;5166;4980;4980;3150;3150;3150;3150;3150;3150;3150;3150;3150;3150;3150;
  3150;3150;3150;3150;3150;3150;3150;3201;3198;3201;3198;3201;3198;4407;4404;4140;4137;3153;3153;3153;3153;
  3153;3153;3153;3153;3153;3153;3153;3153].
Definition propsVectorsTrie_index_48 : list Z := [
  3153;3153;3153;3153;3156;3156;3156;3156;3156;3156;3156;3156;3156;3156;3156;3156;3156;3156;3156;3156;3156;
  3156;3156;3156;3156;3156;3156;3156;3156;3156;3156;3156;3156;3156;3156;3156;3159;3159;3156;3156;3156;3156;
  3156;3156;3156;3156;3156;3156;3162;3162;3162;3168;3165;3207;3204;3168;3165;3168;3165;3168;3165;3168;3165;
  3168;3165;3168;3165;3168;3165;3168;3165;3168;3165;3162;3162;3162;3162;3162;3162;3162;3162;3162;3162;3162;
  3162;3162;3162;3162;3162;3162;3162;3162;3162;3162;3162;3162;3162;3162;3162;3162;3162;3162;3162;3162;3162;
  3162;3162;3162;3168;3165;3168;3165;3162;3162;3162;3162;3162;3162;3162;3162;3162;3162;3162;3162;3162;3162;
  3162;3162;3162;3162;3162;3162;3162;3162;3162;3162;3162;3162;3162;3162;3168;3165;3162;3162;3171;3171;3171;
  3171;3171;3171;3171;3171;3171;3171;3171;3171;3177;3171;3171;3171;3171;3171;3171;3171;3171;3171;3171;3171;
  3171;3171;3171;3171;3171;3171;3171;3171;3171;3171;3171;3171;3171;3171;3171;3171;3171;3171;3171;3171;3171;
  3171;3171;3171;3177;3177;3177;3171;3171;3171;3171;3171;3171;3171;3171;3171;3171;3171;3171;3171;3171;3171;
  3171;3171;3171;3171;3171;3171;3171;3171;3171;3171;3171;3171;3171;3171;3174;3171;3171;3171;3231;3231;3231;
  3231;3231;3231;3231;3231;3231;3231;3231;3231;3231;3231;3231;3231;3231;3231;3231;3231;3231;3231;3231;3231;
  3231;3231;3231;3231;3231;3231;3231;3231;3360;3471;3597;3597;3597;3597;3597;3600;3597;3597;3780;3780;3597;
  3597;3597;3597;3600;3600;3879;4116;4116;4116;4116;4116;4116;4116;4116;4116;4116;4827;4827;4785;3396;3396;
  3396;3396;3396;3396;3396;3396;3396;3396;3396;3396;3396;3396;3396;3396;3396;3396;3396;3396;3396;3396;3396;
  3396;3396;3396;3396;3396;3396;3396;3396;3396;3411;3411;3411;3411;3411;3411;3402;3402;3402;3402;3402;3399;
  3420;3420;3420;3414;3420;3420;3420;3420;3420;3420;3420;3420;3420;3420;3420;3414;3420;3420;3420;3420;3408;
  3408;3417;3417;3417;3417;3405;3405;3405;3405;3405;3411;3621;3621;3621;3621;3621;3621;3621;3621;3621;3621;
  3621;3621;3618;3621;3621;3621;3621;3621;3621;3621;3420;3420;3420;3420;3420;3420;3420;3420;3420;3420;3420;
  3420;3420;3420;3414;3420;3420;3420;3420;3420;3420;3420;3420;3420;3420;3420;3420;3420;3420;3408;3408;3408;
  3411;3411;3411;3411;3411;3411;3411;3411;3411;3411;3411;3411;3411;3411;3411;3411;3411;3411;3411;3411;3411;
  3411;3411;3411;3411;3411;3411;3411;3411;3411;3411;3411;3423;3423;3423;3423;3423;3426;3426;3426;3423;3423;
  3423;3423;3423;3423;3624;3624;3624;3624;3624;3624;3897;3897;3897;3897;3897;3897;3897;4416;4416;4143;4143;
  4143;3429;3429;3429;3429;3429;3429;3429;3429;3429;3429;3429;3429;3429;3429;3429;3429;3429;3429;3429;3429;
  3429;3429;3429;3429;3429;3429;3429;3429].
Definition propsVectorsTrie_index_49 : list Z := [
  3429;3429;3429;3429;3435;3435;3435;3435;3435;3435;3435;3435;3435;3435;3435;3435;3435;3435;3435;3435;3435;
  3435;3435;3435;3435;3435;3435;3435;3435;3435;3435;3435;3435;3435;3435;3435;3444;3444;3444;3444;3444;3444;
  3444;3444;3444;3444;3444;3444;3444;3444;3444;3444;3444;3444;3444;3444;3444;3444;3444;3444;3444;3444;3444;
  3444;3444;3444;3444;3444;3456;3456;3456;3456;3456;3456;3456;3456;3456;3456;3456;3456;3456;3456;3456;3456;
  3456;3456;3456;3456;3456;3456;3456;3456;3456;3456;3456;3456;3456;3456;3456;3456;3468;3468;3468;3468;3468;
  3468;3468;3468;3468;3468;3468;3468;3468;3468;3468;3468;3468;3468;3468;3468;3468;3468;3468;3468;3468;3468;
  3468;3468;3468;3468;3468;3468;3630;3630;3630;3630;3630;3630;3630;3630;3630;3630;3630;3630;3630;3630;3630;
  3630;3630;3630;3630;3630;3630;3630;3630;3630;3630;3630;3630;3630;3630;3630;3630;3630;3636;3636;3636;3636;
  3636;3636;3636;3636;3636;3636;3636;3636;3636;3636;3636;3636;3636;3636;3636;3636;3636;3633;3633;3633;3633;
  3633;3633;3633;3633;3633;3633;3633;3636;3636;3636;3636;3636;3636;3636;3636;3636;3636;3636;3636;3636;3636;
  3636;3636;3636;3636;3636;3636;3636;3636;3636;3636;3636;3636;3636;3636;3636;3636;3636;3636;3828;3828;3654;
  3654;3900;3900;3900;3900;3900;3900;3900;4155;4155;4155;4155;4155;4152;4152;4152;4152;4152;4152;4152;4152;
  4152;4152;4152;4152;4152;4152;4152;4152;3669;3666;3669;3666;3669;3666;3669;3666;3669;3666;3669;3666;3669;
  3666;3669;3666;3669;3666;3669;3666;3669;3666;3669;3666;3669;3666;3669;3666;3669;3666;3669;3666;3681;3681;
  3681;3681;3681;3681;3681;3681;3681;3681;3681;3681;3681;3681;3681;3681;3681;3681;3681;3681;3681;3681;3681;
  3681;3681;3681;3681;3681;3681;3681;3681;3681;3687;3687;3687;3687;3687;3687;3687;3687;3687;3687;3687;3687;
  3687;3687;3687;3687;3687;3687;3687;3687;3687;3687;3687;3687;3687;3687;3687;3687;3687;3687;3687;3687;3822;
  3822;3822;3822;3822;3822;3822;3822;3711;3711;3711;3711;3711;3711;3711;3711;3711;3711;3711;3711;3711;3711;
  3711;3903;3903;3903;3903;4158;4158;4158;4158;4158;3720;3720;3720;3720;3720;3720;3720;3720;3720;3720;3720;
  3720;3720;3720;3720;3720;3720;3720;3720;3720;3720;3720;3720;3720;3720;3720;3720;3720;3720;3720;3720;3720;
  3729;3729;3729;3729;3729;3729;3729;3729;3729;3729;3729;3729;3729;3729;3729;3729;3729;3729;3729;3729;3729;
  3729;3729;3729;3729;3729;3729;3729;3729;3729;3729;3729;3738;3738;3738;3738;3738;3738;3738;3738;3738;3738;
  3738;3738;3738;3738;3738;3738;3738;3738;3738;3738;3738;3738;3738;3738;3738;3738;3738;3738;3738;3738;3738;
  3732;3735;3735;3735;3735;3735;3735;3735;3735;3735;3735;3735;3735;3735;3735;3735;3735;3735;3735;3735;3735;
  3735;3735;3735;3735;3735;3735;3735;3738].
Definition propsVectorsTrie_index_50 : list Z := [
  3738;3738;3738;3738;3747;3747;3747;3747;3747;3747;3747;3747;3747;3747;3747;3747;3747;3747;3744;3744;3744;
  3744;3744;3744;3744;3744;3741;3750;4170;4164;4179;4161;3747;3747;4161;4161;3765;3765;3753;3765;3765;3765;
  3756;3765;3765;3765;3765;3753;3765;3765;3765;3765;3765;3765;3765;3765;3765;3765;3765;3765;3765;3765;3765;
  3765;3765;3765;3765;3765;3768;3768;3768;3768;3768;3768;3768;3768;3768;3768;3768;3768;3768;3768;3768;3768;
  3768;3768;3768;3768;3768;3768;3768;3768;3768;3768;3768;3768;3768;3768;3768;3768;3792;3792;3792;3792;3792;
  3792;3792;3792;3792;3792;3792;3792;3792;3792;3792;3792;3792;3792;3792;3792;3792;3792;3792;3792;3792;3792;
  3792;3792;3792;3792;3792;3792;3825;3825;3825;3825;3825;3825;3825;3825;3825;3825;3825;3825;3825;3825;3825;
  3825;4425;4425;4425;4425;4425;4425;4425;4425;4425;4425;4425;4425;4425;4425;4425;4425;3876;3876;3876;3873;
  3873;3873;3873;3873;4482;5085;5085;5085;5085;4959;4959;4959;5088;4962;4962;5088;5412;5412;5412;5412;5415;
  5415;5415;6126;6126;6126;6126;6324;3897;3897;3897;3897;4143;4143;4143;4143;4143;4143;4143;4143;4143;4143;
  4143;4143;4146;4146;4146;4146;4146;4146;4146;4146;4146;4146;4146;4146;4146;4146;4146;4146;3930;3930;3930;
  3930;3948;3957;3960;3957;3960;3957;3960;3957;3960;3957;3960;3957;3957;3957;3960;3957;3957;3957;3957;3957;
  3957;3957;3957;3957;3957;3957;3957;3957;3957;3957;3957;3957;3957;3957;3957;3957;3933;3930;3930;3930;3930;
  3930;3930;3951;3930;3951;3948;3948;3969;3966;3969;3969;3969;3966;3966;3969;3966;3969;3966;3969;3966;4197;
  4197;4197;4512;4188;4197;4188;3966;3969;3966;3966;4188;4188;4188;4188;4191;4194;4512;4512;3972;3972;4215;
  4206;4215;4206;4215;4206;4215;4206;4215;4206;4215;4206;4215;4206;4206;4206;4215;4206;4215;4206;4215;4206;
  4215;4206;4215;4206;4215;4206;4215;4206;3978;3978;3978;3978;3978;3978;3978;3978;3978;3978;3978;3978;3978;
  3978;3978;3978;3978;3978;3978;3978;3978;3978;3978;3978;3978;3978;3978;3978;3978;3978;3978;3978;3993;3993;
  3993;3993;3993;3993;3993;3993;3993;3993;3993;3993;3993;3993;3993;3993;3993;3993;3993;3993;3993;3993;3993;
  3993;3993;3993;3993;3993;3993;3993;3993;3993;3993;3993;3993;5475;5475;5475;5475;5475;5475;5475;5475;5475;
  5475;5475;5475;5475;5475;5475;5475;5475;3999;3999;3999;3999;3999;3999;3999;3999;3999;3999;3999;3999;3999;
  3999;3999;3999;3999;3999;3999;3999;3999;3999;3999;3999;3999;3999;3999;3999;3999;3999;3999;3999;4071;4095;
  4086;4092;4092;4095;4095;4086;4086;4092;4092;4092;4092;4092;4095;4095;4095;4071;4071;4071;4071;4095;4095;
  4095;4095;4095;4095;4095;4095;4095;4095;4095;4095;4095;4071;4086;4089;4071;4071;4092;4092;4092;4092;4092;
  4092;4074;4095;4092;4083;4083;4083;4083].
Definition propsVectorsTrie_index_51 : list Z := [
  4083;4083;4083;4083;4083;4083;4458;4458;4455;4452;4080;4080;4119;4119;4119;4119;4827;4827;4785;4785;4791;
  4782;4782;4782;4782;4785;5091;4791;4785;4791;4782;4791;4827;4782;4782;4782;4785;4785;4782;4782;4785;4782;
  4782;4785;4146;4146;4146;4146;4146;4143;4143;4146;4146;4146;4146;4146;4146;5436;5436;5436;4416;4143;4143;
  4143;4143;4839;4800;4800;4800;4800;5436;5436;5436;5436;5436;5436;4176;4176;4173;4167;4173;4167;4173;4167;
  4173;4167;4164;4164;4164;4164;4185;4182;4164;4509;5178;5181;5181;5178;5178;5178;5178;5178;5184;5184;5463;
  5451;5451;5448;4215;4206;4215;4206;4215;4206;4215;4206;4203;4200;4200;4215;4206;4995;4992;5958;4995;4992;
  5193;5190;5466;5466;5472;5466;5472;5466;5472;5466;5472;5466;5472;5466;4215;4206;4215;4206;4215;4206;4215;
  4206;4215;4206;4215;4206;4215;4206;4215;4206;4215;4206;4215;4206;4215;4206;4215;4206;4215;4206;4215;4206;
  4215;4206;4215;4206;4209;4206;4206;4206;4206;4206;4206;4206;4206;4215;4206;4215;4206;4215;4215;4206;4218;
  4218;4224;4230;4230;4230;4230;4230;4230;4230;4230;4230;4230;4230;4230;4230;4230;4230;4230;4230;4230;4230;
  4230;4230;4230;4230;4230;4230;4230;4230;4230;4230;4230;4224;4218;4218;4218;4218;4224;4224;4218;4218;4227;
  5202;5199;5199;4230;4230;4221;4221;4221;4221;4221;4221;4221;4221;4221;4221;5205;5205;5205;5205;5205;5205;
  4251;4251;4251;4251;4251;4251;4251;4251;4251;4251;4251;4251;4251;4251;4251;4251;4251;4251;4251;4251;4251;
  4251;4251;4251;4251;4251;4251;4251;4251;4251;4251;4251;4260;4260;4260;4260;4260;4260;4260;4260;4260;4260;
  4260;4260;4260;4260;4260;4260;4260;4260;4260;4260;4260;4260;4260;4260;4263;4263;4263;4266;4263;4263;4269;
  4269;4272;4272;4272;4272;4272;4272;4272;4272;4272;4272;4272;4272;4272;4272;4272;4272;4272;4272;4272;4272;
  4272;4272;4272;4272;4272;4272;4272;4272;4272;4272;4272;4272;4281;4281;4281;4281;4281;4281;4281;4281;4281;
  4281;4281;4281;4284;4275;4290;4287;4281;4281;4281;4281;4281;4281;4281;4281;4281;4281;4281;4281;4281;4281;
  4281;4281;4281;4281;4281;4281;4281;4281;4281;4281;4281;4281;4281;4281;4281;4281;4281;4281;5001;4998;4308;
  4302;4308;4302;4308;4302;4308;4302;4308;4302;4308;4302;4305;4434;4293;4293;4293;4299;5208;5208;5208;5208;
  5208;5208;5208;5208;4296;4296;4299;4311;4308;4302;4308;4302;4308;4302;4308;4302;4308;4302;4308;4302;4308;
  4302;4308;4302;4308;4302;4308;4302;4308;4302;4308;4302;4308;4302;4308;4302;4308;4302;4308;4302;5487;5484;
  5487;5484;5490;5490;5967;5208;4320;4320;4323;4323;4323;4323;4323;4323;4323;4323;4323;4323;4323;4323;4323;
  4323;4323;4323;4323;4323;4323;4323;4323;4323;4323;4323;4323;4323;4323;4323;4323;4323;4320;4320;4320;4320;
  4320;4320;4320;4320;4320;4320;4320;4320].
Definition propsVectorsTrie_index_52 : list Z := [
  4338;4338;4338;4338;4338;4338;4329;4329;4329;4329;4329;4332;4332;4332;4422;4341;4356;4356;4356;4356;4356;
  4356;4356;4356;4356;4356;4356;4356;4356;4356;4356;4356;4335;4335;4335;4335;4335;4335;4335;4335;4335;4335;
  4338;4338;4338;4338;4338;4338;4338;4338;4338;4338;4338;4338;4338;4338;4338;4338;4338;4338;4338;4338;4338;
  4338;4371;4371;4371;4371;4371;4371;4371;4371;4371;4371;4371;4371;4371;4371;4371;4371;4371;4371;4371;4371;
  4371;4371;4371;4371;4371;4371;4371;4371;4371;4371;4371;4371;4389;4389;4389;4389;4389;4389;4389;4389;4389;
  4389;4389;4389;4389;4389;4389;4389;4389;4389;4389;4389;4389;4389;4389;4389;4389;4389;4389;4389;4389;4389;
  4389;4389;4398;4398;4398;4398;4419;4398;4398;4398;4398;4398;4398;4398;4398;4398;4398;4398;4398;4398;4398;
  4398;4398;4398;4398;4398;4398;4398;4398;4398;4398;4398;4398;4398;4401;4401;4401;4401;4401;4401;4401;4401;
  4401;4401;4401;4401;4401;4401;4401;4401;4401;4401;4401;4401;4401;4401;4401;4401;4401;4401;4401;4401;4401;
  4401;4401;4401;4413;4413;4413;4413;4833;4833;4833;4833;4833;4833;4833;4833;5346;6093;6093;6093;6093;6093;
  6093;6093;6093;6093;6429;6429;6429;6429;6429;6429;6429;6429;6429;6429;4530;4530;4530;4530;4530;4530;4530;
  4530;4530;4530;4530;4530;4530;4530;4530;4530;4530;4530;4530;4530;4530;4530;4521;4521;4524;4524;4530;4521;
  4521;4521;4521;4521;4536;4536;4536;4536;4536;4536;4536;4536;4536;4536;4536;4536;4536;4536;4536;4536;4536;
  4536;4536;4536;4536;4536;4536;4536;4536;4536;4536;4536;4536;4536;4536;4536;4563;4563;4563;4563;4563;4563;
  4563;4563;4563;4563;4563;4563;4563;4563;4563;4563;4563;4563;4563;4563;4563;4563;4563;4563;4563;4563;4563;
  4563;4563;4563;4563;4563;4575;4575;4575;4575;4575;4575;4575;4575;4575;4575;4575;4575;4575;4575;4575;4575;
  4575;4575;4575;4575;4575;4575;4575;4575;4575;4575;4575;4575;4575;4575;4572;4578;4590;4590;4590;4590;4590;
  4590;4590;4590;4590;4590;4590;4590;4590;4590;4590;4590;4590;4590;4590;4590;4590;4590;4590;4590;4590;4590;
  4590;4590;4590;4590;4590;4590;4596;4596;4596;4596;4596;4596;4596;4596;4596;4596;4596;4596;4596;4596;4596;
  4596;4596;4911;4602;4914;4602;4602;4602;4602;4599;4599;4599;4602;5970;5973;6522;6519;4605;4605;4605;4620;
  4626;4626;4626;4626;4626;4626;4626;4626;4626;4626;4626;4626;4626;4626;4626;4626;4626;4626;4626;4626;4626;
  4626;4626;4626;4626;4626;4626;4626;4626;4626;4626;4608;4620;4620;4605;4605;4605;4605;4620;4620;4605;4605;
  4620;4620;4638;4638;4638;4638;4638;4638;4638;4638;4638;4638;4638;4638;4638;4638;4638;4638;4641;4638;4638;
  4638;4638;4638;4638;4632;4632;4632;4638;4635;5496;5499;5502;5502;4656;4656;4656;4656;4656;4656;4656;4656;
  4656;4656;4656;4656;4656;4656;4656;4656].
Definition propsVectorsTrie_index_53 : list Z := [
  4644;4656;4644;4644;4644;4665;4665;4644;4644;4665;4656;4665;4665;4656;4644;4647;4656;4656;4656;4656;4656;
  4656;4656;4656;4656;4656;4656;4656;4656;4656;4656;4656;4656;4656;4656;4656;4656;4656;4656;4656;4656;4656;
  4656;4656;4656;4656;4656;4656;4683;4683;4683;4683;4683;4683;4683;4683;4683;4683;4683;4683;4683;4683;4683;
  4683;4683;4683;4683;4683;4683;4683;4683;4683;4683;4683;4683;4683;4683;4683;4683;4683;4707;4707;4707;4707;
  4707;4707;4707;4707;4707;4707;4707;4707;4707;4707;4707;4707;4707;4707;4707;4707;4707;4707;4707;4707;4707;
  4707;4707;4707;4707;4704;4704;4704;4716;4716;4716;4716;4716;4716;4716;4716;4716;4716;4716;4716;4716;4716;
  4716;4716;4716;4716;4716;4716;4716;4716;4716;4716;4716;4716;4716;4716;4716;4716;4716;4716;4731;4731;4731;
  4731;4731;4731;4731;4731;4731;4731;4731;4731;4731;4731;4731;4731;4731;4731;4731;4731;4731;4731;4731;4731;
  4731;4731;4731;4731;4731;4731;4731;4731;4737;4737;4752;4755;4755;4755;4755;4755;4755;4755;4755;4755;4755;
  4755;4755;4755;4755;4755;4755;4755;4755;4755;4755;4755;4755;4755;4758;4755;4758;4755;4755;4755;4755;4755;
  4755;4755;4755;4755;4755;4755;4755;4755;4755;4758;4755;4755;4755;4755;4752;4752;4752;4740;4740;4740;4740;
  4752;4752;4746;4743;4749;4749;4764;4761;4761;4767;4767;4767;4767;4767;4767;4767;4767;4767;4767;4767;4767;
  4767;4767;4767;4767;4767;4767;4767;4767;4767;4767;4767;4767;4767;4767;4767;4767;4767;4767;4767;4767;4773;
  4773;4773;4770;4770;4770;4767;4767;4767;4767;4770;4767;4767;4767;4773;4770;4773;4770;4767;4767;4767;4767;
  4767;4767;4767;4767;4767;4767;4767;4767;4767;4767;4767;4767;4767;4767;4767;4767;4767;4767;4767;4767;4767;
  4767;4767;4773;4770;4770;4767;4767;4767;4767;4806;4806;4806;4806;4806;4806;4806;4806;4806;4806;4806;4809;
  4809;4809;4776;6528;5079;4818;5079;5079;5079;5079;5079;5079;5079;5079;5079;5079;5079;4818;5079;4818;4785;
  4785;4965;4782;4965;4965;4965;4965;4782;4788;4827;4782;4782;4782;4782;4782;4788;4791;4827;4827;4791;4827;
  4782;4791;4791;4794;4827;4782;4782;4827;4785;4785;5076;5076;5076;5076;5076;5076;5076;5076;5076;5076;4803;
  4803;4803;4803;5103;5070;4812;5103;5103;5103;5103;5103;5103;5103;5103;5103;5103;6270;6270;6270;6270;6270;
  4806;4806;4806;4806;4806;4806;4806;4806;4806;4806;4806;5505;5505;6864;6864;6864;4806;4806;4806;4806;4806;
  4806;4806;4806;4806;4806;4806;4806;4806;4806;4806;4806;5079;5079;4818;5079;5079;5079;4818;5079;5079;5079;
  4812;4812;4812;4812;4812;5073;5076;5076;5076;5076;5076;5076;5076;4815;5076;5076;5076;5076;5076;5076;5076;
  4815;5076;5076;5076;5076;5076;5076;5076;5076;5076;5076;5211;5211;6702;6864;6864;6864;5082;5082;5076;5076;
  5076;5076;5076;5076;5076;4815;5076;4815].
Definition propsVectorsTrie_index_54 : list Z := [
  4815;5076;5082;4821;4857;4857;4857;4857;4857;4857;4857;4857;4857;4857;4857;4857;4857;4857;4857;4857;4857;
  4857;4857;4857;4857;4857;4857;4857;4857;4857;4857;4857;4857;4857;4857;4857;4995;4992;4995;4992;4995;4992;
  4995;4992;4995;4992;5193;5472;5472;5472;6138;6510;5472;5472;5961;5961;5961;5955;5961;5955;6513;6510;6699;
  6696;6699;6696;6699;6696;5031;5031;5031;5031;5031;5031;5031;5031;5031;5031;5031;5031;5031;5031;5031;5031;
  5031;5031;5031;5031;5031;5031;5031;5031;5031;5031;5031;5031;5031;5031;5031;5031;5052;5037;5052;5055;5055;
  5055;5055;5055;5055;5055;5055;5055;5055;5055;5055;5055;5055;5055;5055;5055;5055;5055;5055;5055;5055;5055;
  5055;5055;5055;5055;5055;5055;5037;5037;5037;5037;5037;5037;5037;5037;5061;5061;5061;5061;5061;5061;5061;
  5061;5061;5061;5061;5061;5061;5061;5061;5061;5061;5061;5061;5061;5061;5061;5061;5061;5061;5061;5061;5061;
  5061;5061;5061;5061;5067;5067;5067;5067;5067;5067;5067;5067;5067;5067;5067;5067;5067;5067;5067;5067;5067;
  5067;5067;5067;5067;5067;5067;5067;5067;5067;5067;5067;5067;5067;5067;5067;5115;5112;6435;6435;6435;6435;
  6435;6435;6435;6435;6435;6435;6435;6435;6435;6435;6435;6435;6435;6435;6435;6435;6435;6435;6435;6435;6435;
  6435;6435;6435;6435;6435;5124;5124;5124;5124;5124;5124;5124;5124;5124;5124;5124;5124;5124;5124;5124;5124;
  5124;5124;5124;5124;5124;5121;5121;5124;5124;5124;5124;5124;5121;5124;5124;5124;5121;5124;5121;5124;5121;
  5124;5124;5124;5124;5124;5127;5124;5124;5124;5124;5121;5124;5121;5121;5124;5124;5124;5124;5124;5124;5124;
  5124;5124;5124;5124;5124;5124;5121;5121;5121;5121;5121;5121;5121;5124;5124;5124;5124;5124;5124;5124;5124;
  5124;5124;5124;5124;5124;5124;5124;5124;5121;5121;5121;5121;5121;5121;5121;5121;5121;5121;5124;5124;5124;
  5124;5124;5124;5124;5124;5124;5124;5124;5124;5124;5121;5121;5121;5121;5121;5121;5121;5121;5121;5121;5121;
  5121;5514;5514;5124;5124;5124;5124;5124;5124;5124;5124;5124;5124;5124;5124;5124;5124;5124;5124;5124;5124;
  5124;5124;5124;5124;5124;5124;5124;5124;5124;5124;5124;5124;5124;5124;5124;5526;5520;5520;5526;5526;5526;
  5526;5526;5526;5526;5526;5526;6096;6096;6096;5124;5124;5124;5124;5124;5124;5526;5124;5124;5124;5124;5124;
  5124;5124;5124;5124;5124;5124;5124;5124;5124;5124;5124;5124;5124;5124;5124;5124;5124;5124;5124;5124;5124;
  5124;5124;5124;5124;5526;6096;6096;5124;5124;5124;5124;5124;5127;5124;5124;5124;5124;5124;5124;5124;5124;
  5124;5124;5124;5124;5124;5124;5520;5520;5526;5526;5520;5526;5526;5526;5517;5517;5526;5526;5124;5124;5127;
  5127;5127;5889;5124;5127;5124;5124;5127;5529;5529;5526;5526;6096;6096;6096;6096;6096;5526;5526;5526;5526;
  5526;5526;5526;5526;5526;5526;5526;5526].
Definition propsVectorsTrie_index_55 : list Z := [
  5124;5124;5124;5124;5124;5124;5124;5124;5124;5124;5124;5124;5124;5124;5124;5124;5124;5520;5520;5526;5889;
  5526;5520;5526;6096;6096;6096;6099;6099;6099;6099;6099;5124;5124;5124;5124;5124;5124;5124;5124;5124;5124;
  5124;5124;5124;5124;5124;5124;5124;5124;5124;5124;5124;5124;5124;5124;5124;5124;5124;5124;5124;5124;5124;
  5526;5124;5526;5127;5127;5124;5124;5127;5127;5127;5127;5127;5127;5127;5127;5127;5127;5127;5124;5124;5124;
  5124;5124;5124;5124;5124;5124;5124;5124;5124;5124;5124;5124;5124;5124;5127;5127;5127;5127;5127;5127;5127;
  5127;5127;5127;5127;5127;5127;5127;5127;5127;5127;5127;5127;5124;5124;5124;5127;5124;5124;5124;5124;5127;
  5127;5127;5124;5127;5127;5127;5124;5124;5124;5124;5124;5124;5124;5127;5124;5127;5124;5124;5124;5124;5124;
  5124;5124;5124;5124;5124;5124;5124;5124;5124;5124;5124;5124;5124;5124;5124;5124;5124;5124;5124;5124;5124;
  5889;5124;5124;5124;5124;5526;5520;6096;5214;5214;5214;5214;5514;5514;5517;5517;5517;5523;5526;6096;6096;
  6096;6096;5976;5124;5124;5124;5124;5124;5124;5124;5124;5124;5124;5124;5124;5124;5124;5124;5124;5520;5520;
  5520;5520;5520;5520;5520;5526;5526;5520;5520;5526;5529;5529;5526;5526;5526;5526;6279;5520;5520;5520;5520;
  5520;5520;5526;5520;5526;5520;5520;5520;5520;5526;5520;5520;5520;5520;5520;5520;5526;5520;5520;5520;5526;
  5517;5517;5517;5517;5517;5517;5526;5124;5124;5124;5124;5124;5352;5130;5130;5130;5130;5130;5130;5130;5130;
  5130;5130;5130;5130;5130;5130;5130;5130;5352;5130;5130;5130;5352;5130;5352;5130;5352;5130;5352;5130;5130;
  5130;5352;5130;5130;5130;5130;5130;5130;5352;5352;5130;5130;5130;5130;5352;5130;5352;5352;5130;5130;5130;
  5130;5352;5130;5130;5130;5130;5130;5130;5130;5130;5130;5130;5130;5130;5895;5895;6102;6102;5133;5133;5133;
  5130;5130;5130;5133;5133;5133;5133;5133;5766;5766;5766;5766;5766;5766;5766;5766;5766;5766;5766;5766;5766;
  5766;5766;5766;5136;5136;5136;5136;5136;5136;5136;5136;5136;5136;5136;5136;5136;5136;5136;5136;5136;5136;
  5136;5136;5136;5136;5136;5136;5136;5136;5136;5136;5136;5136;5136;5136;5136;5136;5136;5139;5136;5136;5136;
  5136;5136;5136;5136;5136;5136;5136;5136;5136;5136;5136;5136;5136;5139;5139;5139;5136;5136;5136;5136;5136;
  5136;5136;5136;5136;5142;5142;5142;5142;5142;5142;5142;5142;5142;5142;5142;5142;5142;5142;5142;5142;5142;
  5142;5142;5142;5142;5142;5142;5142;5142;5142;5142;5142;5142;5142;5142;5142;6147;6147;6144;5979;5220;5220;
  5220;5220;5220;5220;5217;5217;5217;5217;5217;5217;5220;5220;5220;5220;5220;5220;5220;5220;5220;5220;5220;
  5220;5220;5220;5220;5538;5232;5232;5232;5250;5250;5250;5250;5250;5250;5250;5250;5250;5250;5250;5250;5250;
  5250;5250;5250;5250;5250;5250;5250;5250].
Definition propsVectorsTrie_index_56 : list Z := [
  5250;5250;5250;5250;5250;5250;5250;5250;5277;5277;5277;5277;5277;5277;5277;5277;5277;5277;5277;5277;5277;
  5277;5277;5277;5277;5277;5277;5277;5277;5277;5277;5277;5277;5277;5277;5277;5277;5277;5277;5277;5283;5283;
  5283;5283;5283;5283;5283;5283;5283;5283;5283;5283;5283;5283;5283;5283;5283;5283;5283;5283;5283;5283;5283;
  5283;5283;5283;5283;5283;5283;5283;5283;6708;5286;5286;5286;5286;5286;5286;5286;5286;5286;5286;5286;5286;
  5286;5286;5286;5286;5286;5286;5286;5286;5286;5286;5286;5286;5286;5286;5286;5286;5286;5286;5286;5286;5292;
  5292;5304;5310;5310;5310;5310;5310;5310;5310;5310;5310;5310;5310;5310;5310;5310;5310;5310;5310;5310;5310;
  5310;5310;5310;5310;5310;5310;5310;5310;5310;5310;5310;5310;5310;5304;5304;5304;5292;5292;5292;5292;5292;
  5292;5292;5292;5292;5304;5307;5310;5313;5313;5310;5316;5316;5295;5298;5988;5991;5991;5991;5547;6876;6873;
  5301;5301;5301;5301;5301;5301;5301;5301;5301;5301;5544;5997;6000;5994;6003;6003;5343;5343;5343;5343;5343;
  5343;5343;5343;5343;5343;5343;5343;5343;5343;5343;5343;5343;5343;5343;5343;5343;5343;5343;5343;5343;5343;
  5343;5343;5343;5343;5343;5343;5436;5436;5436;5436;5436;5436;5436;5436;5436;5436;5436;5436;5436;5436;5436;
  5436;5436;5436;5436;5436;5436;5436;5436;5436;5436;5436;6486;6486;6486;5436;5436;5436;5436;5436;5436;5436;
  5436;5436;5436;5436;5436;6690;5436;5436;5436;5436;5436;5436;5436;5436;6330;6486;6486;6486;6486;6486;6486;
  6486;6486;6486;6486;6486;6486;6486;5520;5520;5526;5526;5526;5520;5520;5520;5520;5520;5520;5520;5520;5520;
  5520;5520;5520;5526;5526;5526;5517;5517;5517;5517;5517;5517;5517;5517;5526;5526;5526;5520;5520;5520;5520;
  5520;5520;5520;5520;5526;5520;5520;5526;5526;5526;5526;5520;5520;5529;5520;5520;5520;5520;5892;5892;5520;
  5520;5520;5520;5520;5520;5520;5520;5520;6276;5526;5520;5520;5526;5520;5520;5520;5520;5520;5520;5520;5520;
  5526;5526;5520;5520;5520;5520;5520;5520;5520;5520;5520;5526;5520;5520;5520;5562;5562;5562;5562;5562;5562;
  5562;5562;5562;5562;5562;5562;5562;5562;5562;5562;5562;5562;5562;5562;5562;5562;5562;5562;5562;5562;5562;
  5562;5562;5562;5562;5562;5580;5580;5580;5580;5580;5580;5580;5580;5580;5580;5580;5580;5580;5580;5580;5580;
  5580;5580;5580;5580;5580;5580;5580;5580;5580;5580;5580;5580;5580;5580;5580;5580;5586;5586;5586;5586;5586;
  5586;5586;5586;5586;5586;5586;5586;5586;5586;5586;5586;5586;5586;5586;5586;5586;5586;5586;5586;5586;5586;
  5586;5586;5586;5586;5586;5586;5589;5589;5589;5589;5589;5589;5589;5589;5589;5589;5589;5589;5589;5589;5589;
  5589;5589;5589;5589;5589;5589;5589;5589;5589;5589;5589;5589;5589;5589;5589;5589;5589;5652;5652;5652;5652;
  5652;5652;5652;5652;5652;5652;5652;5652].
Definition propsVectorsTrie_index_57 : list Z := [
  5652;5652;5652;5652;5652;5652;5652;5652;5652;5652;5652;5652;5652;5652;5652;5652;5652;5652;5652;5637;5661;
  5661;5661;5661;5661;5661;5661;5661;5661;5661;5661;5661;5661;5661;5661;5661;5661;5661;5661;5661;5661;5661;
  5661;5661;5661;5661;5661;5655;5664;5664;5664;5664;5667;5667;5667;5667;5667;5667;5667;5667;5667;5667;5667;
  5667;5667;5667;5667;5667;5667;5667;5667;5667;5667;5667;5667;5667;5667;5667;5667;5667;5667;5667;5667;5667;
  5694;5694;5694;5694;5694;5694;5694;5694;5685;5694;5694;5694;5694;5694;5694;5694;5694;5694;5694;5694;5694;
  5694;5694;5694;5694;5694;5694;5694;5694;5694;5694;5694;5703;5703;5703;5703;5703;5703;5703;5703;5703;5703;
  5703;5703;5703;5703;5703;5703;5703;5703;5703;5703;5703;5703;5703;5703;5703;5703;5703;5703;5703;5703;5703;
  5703;5721;5721;5721;5721;5721;5721;5721;5721;5721;5721;5721;5721;5721;5721;5721;5721;5718;5718;5718;5706;
  5706;5706;5706;5706;5706;5706;5706;5718;5718;5706;5718;5709;5721;5721;5721;5721;5721;5721;5721;5721;5721;
  5721;5721;5721;5721;5721;5721;5721;5721;5721;5721;5721;5721;5721;5721;5721;5721;5721;5721;5721;5721;5721;
  5721;5721;5757;5757;5757;5757;5757;5757;5757;5757;5757;5757;5757;5757;5757;5757;5757;5757;5757;5757;5757;
  5757;5757;5757;5757;5757;5757;5757;5757;5757;5757;5754;5754;5754;5766;5766;5766;5766;5766;5766;5766;5766;
  5766;5766;5766;5766;5766;5766;5766;5766;5766;5766;5766;5766;5766;5766;5772;5772;5772;5769;5769;5769;5766;
  5766;5766;5766;5787;5787;5787;5787;5787;5787;5787;5787;5787;5787;5787;5787;5787;5787;5787;5787;5775;5775;
  5775;5775;5775;5775;5775;5793;5793;5781;5778;5778;5778;5778;5778;5778;5787;5787;5787;5787;5787;5787;5787;
  5787;5787;5787;5787;5787;5787;5787;5787;5787;5787;5787;5787;5787;5787;5787;5787;5787;5787;5787;5787;5787;
  5787;5787;5787;5787;5799;5799;5799;5799;5799;5799;5799;5799;5799;5799;5799;5799;5799;5799;5799;5799;5799;
  5799;5799;5799;5799;5799;5799;5796;5796;5796;5796;5796;5796;5796;5796;5796;5802;5802;5802;5802;5802;5802;
  5802;5802;5802;5802;5802;5802;5802;5802;5802;5802;5802;5802;5802;5802;5802;5802;5802;5802;5802;5802;5802;
  5802;5802;5802;5802;5802;5838;5838;5838;5838;5838;5838;5838;5838;5838;5838;5838;5838;5838;5838;5838;5838;
  5838;5838;5838;5838;5838;5838;5838;5838;5838;5838;5838;5838;5838;5838;5838;5838;5847;5847;5847;5847;5847;
  5847;5847;5847;5847;5847;5847;5847;5847;5847;5847;5847;5847;5847;5847;5847;5847;5847;5847;5847;5847;5847;
  5847;5847;5847;5847;5847;5847;5871;5871;5871;5871;5871;5871;5871;5871;5871;5871;5871;5871;5871;5871;5871;
  5871;5850;5865;5865;5850;5850;5850;5850;5850;5850;5865;5850;5868;5868;5850;5868;5850;5871;5871;5871;5871;
  5871;5871;5871;5871;5871;5871;5871;5871].
Definition propsVectorsTrie_index_58 : list Z := [
  5871;5871;5871;5871;5871;5871;5871;5871;5871;5871;5871;5871;5871;5871;5871;5871;5871;5871;5871;5871;5880;
  5880;5880;5880;5880;5880;5880;5880;5880;5880;5880;5880;5880;5880;5880;5880;5880;5880;5880;5880;5880;5880;
  5880;5880;5880;5880;5880;5880;5880;5880;5880;5880;5886;5886;5886;5886;5886;5886;5886;5886;5886;5886;5886;
  5886;5886;5886;5886;5886;5886;5886;5886;5886;5886;5886;5886;5886;5886;5886;5886;5886;5886;5886;5886;5886;
  6486;6486;6486;6486;6486;6486;6486;6486;6486;6486;6486;6486;5952;5952;5952;5952;6486;6486;6486;6486;6486;
  6486;6486;6486;6486;6486;6486;6486;6486;6486;6486;6690;5985;5985;5985;5985;5985;5985;5985;5985;5985;5985;
  5985;5985;5985;5985;5985;5985;5985;5985;5985;5985;5985;5985;5985;5985;5985;5985;5985;5985;5985;5985;5985;
  5985;6045;6045;6045;6045;6045;6045;6045;6045;6045;6045;6045;6045;6045;6045;6045;6045;6045;6045;6045;6045;
  6045;6045;6045;6045;6045;6045;6045;6045;6045;6045;6045;6045;6045;6045;6051;6048;6045;6045;6045;6045;6045;
  6045;6045;6045;6045;6045;6045;6045;6045;6045;6045;6045;6054;6054;6054;6054;6054;6054;6054;6054;6054;6054;
  6054;6054;6054;6054;6054;6054;6054;6054;6054;6054;6054;6054;6054;6054;6054;6054;6054;6054;6054;6054;6054;
  6054;6057;6057;6057;6057;6057;6057;6057;6057;6057;6057;6057;6057;6057;6057;6057;6057;6057;6057;6057;6057;
  6057;6057;6057;6057;6057;6057;6057;6057;6057;6057;6057;6057;6075;6075;6075;6075;6075;6075;6075;6075;6075;
  6075;6075;6075;6075;6075;6075;6075;6075;6075;6075;6075;6075;6075;6075;6075;6075;6075;6075;6075;6075;6075;
  6075;6075;6078;6078;6078;6078;6078;6078;6078;6078;6078;6078;6078;6078;6078;6078;6078;6078;6078;6078;6078;
  6078;6078;6078;6078;6078;6078;6078;6078;6078;6078;6078;6078;6078;6081;6081;6081;6081;6081;6081;6081;6081;
  6081;6081;6081;6081;6081;6081;6081;6081;6081;6081;6081;6081;6081;6081;6081;6081;6081;6081;6081;6081;6081;
  6081;6081;6081;6081;6081;6081;6084;6084;6084;6084;6081;6081;6081;6081;6081;6081;6081;6081;6081;6081;6081;
  6081;6081;6081;6084;6084;6084;6084;6084;6084;6084;6084;6081;6084;6084;6084;6084;6084;6084;6084;6084;6084;
  6084;6084;6084;6084;6084;6084;6084;6084;6084;6084;6084;6084;6084;6084;6084;6084;6084;6084;6084;6084;6084;
  6084;6084;6084;6084;6108;6108;6108;6108;6108;6108;6108;6108;6108;6108;6108;6108;6108;6108;6108;6108;6108;
  6108;6108;6108;6108;6108;6108;6108;6108;6108;6108;6108;6108;6108;6108;6108;6342;6342;6342;6342;6342;6342;
  6342;6342;6342;6342;6342;6342;6975;6804;6804;6807;6111;6111;6111;6111;6111;6111;6111;6111;6114;6288;6288;
  6288;6288;6288;6288;6444;6111;6111;6111;6111;6111;6285;6285;6285;6285;6285;6285;6285;6285;6285;6285;6285;
  6285;6285;6441;6441;6441;6441;6441;6441].
Definition propsVectorsTrie_index_59 : list Z := [
  6666;6666;6666;6666;6666;6666;6666;6666;6285;6285;6285;6285;6285;6285;6288;6285;6441;6441;6441;6441;6441;
  6441;6441;6441;6288;6444;6444;6288;6288;6288;6288;6288;6288;6288;6285;6159;6288;6288;6288;6804;6285;6285;
  6285;6285;6285;6285;6159;6285;6285;6285;6285;6285;6441;6666;6666;6666;6285;6285;6285;6285;6285;6285;6285;
  6285;6285;6285;6285;6285;6285;6285;6285;6441;6180;6180;6177;6177;6177;6177;6177;6177;6177;6177;6177;6177;
  6177;6177;6177;6177;6177;6177;6177;6177;6177;6177;6177;6177;6177;6177;6177;6177;6177;6177;6177;6177;6180;
  6180;6180;6180;6180;6180;6180;6180;6180;6180;6180;6180;6180;6180;6180;6180;6180;6180;6180;6180;6180;6180;
  6180;6180;6180;6180;6180;6180;6180;6180;6180;6180;6258;6258;6258;6258;6258;6258;6258;6258;6258;6258;6258;
  6258;6258;6258;6258;6258;6258;6258;6258;6258;6258;6255;6255;6255;6234;6234;6234;6234;6234;6234;6234;6234;
  6258;6258;6258;6258;6258;6258;6258;6258;6258;6258;6258;6258;6258;6258;6258;6258;6258;6258;6258;6258;6258;
  6258;6258;6258;6258;6258;6258;6258;6258;6258;6258;6258;6294;6294;6294;6294;6294;6294;6294;6294;6294;6294;
  6294;6294;6294;6294;6294;6294;6294;6294;6294;6294;6294;6294;6294;6294;6294;6294;6294;6294;6294;6294;6294;
  6294;6297;6297;6297;6297;6297;6297;6297;6297;6297;6297;6297;6297;6297;6297;6297;6297;6297;6297;6297;6297;
  6297;6297;6297;6297;6297;6297;6297;6297;6297;6297;6297;6297;6297;6297;6297;6984;6984;6984;6984;6984;6984;
  6984;6984;6984;6984;6984;6984;6984;6384;6384;6384;6384;6726;6726;6387;6387;6387;6387;6363;6363;6363;6363;
  6363;6363;6363;6363;6363;6363;6363;6363;6363;6381;6366;6369;6372;6390;6390;6549;6375;6375;6384;6384;6384;
  6384;6384;6384;6384;6384;6384;6384;6384;6384;6384;6384;6384;6384;6384;6384;6384;6384;6384;6384;6384;6384;
  6384;6384;6384;6384;6384;6384;6384;6384;6417;6417;6417;6417;6417;6417;6417;6417;6417;6417;6417;6417;6417;
  6417;6417;6417;6417;6417;6417;6396;6402;6399;6399;6399;6399;6414;6420;6399;6399;6399;6399;6411;6417;6399;
  6399;6399;6399;6399;6399;6399;6399;6399;6399;6417;6417;6417;6417;6417;6417;6417;6417;6417;6417;6417;6417;
  6417;6417;6417;6417;6417;6417;6417;6417;6417;6435;6435;6435;6435;6435;6435;6435;6435;6435;6435;6435;6435;
  6435;6435;6435;6435;6435;6435;6435;6435;6435;6435;6435;6435;6435;6435;6435;6435;6435;6435;6435;6435;6441;
  6441;6441;6441;6441;6441;6441;6666;6666;6666;6666;6666;6666;6666;6666;6666;6666;6666;6666;6666;6666;6666;
  6666;6666;6666;6666;6666;6666;6666;6666;6666;6666;6450;6450;6450;6450;6450;6450;6450;6450;6450;6450;6450;
  6450;6450;6450;6450;6450;6450;6450;6450;6450;6450;6450;6450;6450;6450;6450;6450;6450;6450;6450;6450;6450;
  6456;6456;6456;6456;6456;6456;6456;6456].
Definition propsVectorsTrie_index_60 : list Z := [
  6456;6456;6456;6456;6456;6456;6456;6456;6456;6456;6456;6456;6456;6456;6456;6456;6456;6456;6456;6456;6456;
  6456;6456;6456;6570;6570;6570;6570;6570;6570;6570;6570;6570;6570;6570;6570;6570;6570;6570;6570;6570;6570;
  6570;6570;6570;6570;6570;6570;6570;6570;6570;6570;6570;6570;6570;6570;6597;6597;6597;6597;6597;6597;6597;
  6597;6597;6597;6597;6597;6597;6597;6597;6597;6597;6597;6597;6597;6597;6597;6597;6597;6597;6597;6597;6597;
  6597;6597;6597;6597;6603;6603;6603;6603;6603;6603;6603;6603;6603;6603;6603;6603;6603;6603;6603;6603;6603;
  6603;6603;6603;6603;6603;6603;6603;6603;6603;6603;6603;6603;6603;6603;6603;6630;6630;6630;6630;6630;6630;
  6630;6630;6630;6630;6630;6630;6630;6630;6630;6630;6630;6630;6630;6630;6630;6630;6630;6630;6630;6630;6630;
  6630;6630;6630;6630;6630;6633;6633;6633;6633;6633;6633;6633;6633;6633;6633;6633;6633;6633;6633;6633;6633;
  6633;6633;6633;6633;6633;6633;6633;6633;6633;6633;6633;6633;6633;6633;6633;6633;6642;6642;6642;6642;6642;
  6642;6642;6642;6642;6642;6642;6642;6642;6642;6642;6642;6642;6642;6642;6642;6642;6642;6642;6642;6642;6642;
  6642;6642;6642;6639;6639;6639;6666;6666;6666;6972;6972;6804;6804;6804;6804;6804;6804;6972;6972;6972;6804;
  6804;6669;6669;6669;6669;6666;6672;6672;6666;6672;6672;6804;6807;6804;6804;6804;6804;6729;6729;6729;6729;
  6729;6729;6729;6729;6729;6729;6729;6729;6729;6729;6729;6729;6729;6729;6729;6729;6729;6729;6729;6729;6729;
  6729;6729;6729;6729;6729;6729;6729;6768;6768;6768;6768;6768;6768;6768;6768;6768;6768;6768;6768;6768;6768;
  6768;6768;6768;6768;6768;6768;6768;6768;6768;6768;6768;6768;6768;6768;6768;6768;6768;6768;6777;6777;6777;
  6777;6777;6777;6777;6777;6777;6777;6777;6777;6777;6777;6777;6777;6831;6831;6777;6831;6777;6777;6777;6777;
  6777;6777;6777;6777;6777;6783;6783;6783;6795;6795;6795;6795;6795;6795;6795;6795;6795;6795;6795;6795;6795;
  6795;6795;6795;6795;6795;6795;6795;6795;6795;6795;6795;6795;6795;6795;6795;6795;6795;6795;6795;6942;6942;
  6942;6942;6942;6942;6942;6942;6942;6942;6942;6942;6942;6942;6942;6942;6942;6942;6942;6942;6942;6942;6942;
  6942;6942;6942;6942;6942;6942;6942;6942;6942;6954;6954;6954;6954;6954;6954;6954;6954;6954;6954;6954;6954;
  6954;6954;6954;6954;6954;6954;6954;6954;6954;6954;6954;6954;6954;6954;6954;6954;6954;6954;6954;6954;6990;
  6990;6990;6990;6990;6990;6990;6990;6990;6990;6990;6990;6990;6990;6990;6990;6990;6990;6990;6990;6990;6990;
  6990;6990;6990;6990;6990;6990;6990;6990;6990;6990;6993;6993;6993;6993;6993;6993;6993;6993;6993;6993;6993;
  6993;6993;6993;6993;6993;6993;6993;6993;6993;6993;6993;6993;6993;6993;6993;6993;6993;6993;6993;6993;6993;0;
  0;0;0].
Definition propsVectorsTrie_index_list : list Z := (propsVectorsTrie_index_0 ++ propsVectorsTrie_index_1 ++ propsVectorsTrie_index_2 ++ propsVectorsTrie_index_3 ++ propsVectorsTrie_index_4 ++ propsVectorsTrie_index_5 ++ propsVectorsTrie_index_6 ++ propsVectorsTrie_index_7 ++ propsVectorsTrie_index_8 ++ propsVectorsTrie_index_9 ++ propsVectorsTrie_index_10 ++ propsVectorsTrie_index_11 ++ propsVectorsTrie_index_12 ++ propsVectorsTrie_index_13 ++ propsVectorsTrie_index_14 ++ propsVectorsTrie_index_15 ++ propsVectorsTrie_index_16 ++ propsVectorsTrie_index_17 ++ propsVectorsTrie_index_18 ++ propsVectorsTrie_index_19 ++ propsVectorsTrie_index_20 ++ propsVectorsTrie_index_21 ++ propsVectorsTrie_index_22 ++ propsVectorsTrie_index_23 ++ propsVectorsTrie_index_24 ++ propsVectorsTrie_index_25 ++ propsVectorsTrie_index_26 ++ propsVectorsTrie_index_27 ++ propsVectorsTrie_index_28 ++ propsVectorsTrie_index_29 ++ propsVectorsTrie_index_30 ++ propsVectorsTrie_index_31 ++ propsVectorsTrie_index_32 ++ propsVectorsTrie_index_33 ++ propsVectorsTrie_index_34 ++ propsVectorsTrie_index_35 ++ propsVectorsTrie_index_36 ++ propsVectorsTrie_index_37 ++ propsVectorsTrie_index_38 ++ propsVectorsTrie_index_39 ++ propsVectorsTrie_index_40 ++ propsVectorsTrie_index_41 ++ propsVectorsTrie_index_42 ++ propsVectorsTrie_index_43 ++ propsVectorsTrie_index_44 ++ propsVectorsTrie_index_45 ++ propsVectorsTrie_index_46 ++ propsVectorsTrie_index_47 ++ propsVectorsTrie_index_48 ++ propsVectorsTrie_index_49 ++ propsVectorsTrie_index_50 ++ propsVectorsTrie_index_51 ++ propsVectorsTrie_index_52 ++ propsVectorsTrie_index_53 ++ propsVectorsTrie_index_54 ++ propsVectorsTrie_index_55 ++ propsVectorsTrie_index_56 ++ propsVectorsTrie_index_57 ++ propsVectorsTrie_index_58 ++ propsVectorsTrie_index_59 ++ propsVectorsTrie_index_60)%list.
Definition propsVectorsTrie_index_tree : tree := Eval vm_compute in tree_of propsVectorsTrie_index_list.
Definition propsVectorsTrie_index : arr := arr_of_tree 31228 propsVectorsTrie_index_tree.
Lemma propsVectorsTrie_index_is : propsVectorsTrie_index_tree = tree_of propsVectorsTrie_index_list /\ zlen propsVectorsTrie_index_list = 31228.
Proof. split; vm_compute; reflexivity. Qed.

(** CharPropsData.py:3364 *)
Definition propsVectorsTrie_index_length : Z := 5024.

(** CharPropsData.py:3365 *)
Definition propsVectorsTrie_index_2_null_offset : Z := 2624.

(** CharPropsData.py:3366 *)
Definition propsVectorsTrie_data_null_offset : Z := 5152.

(** CharPropsData.py:3367 *)
Definition propsVectorsTrie_high_start : Z := 1114112.

(** CharPropsData.py:3368 *)
Definition propsVectorsTrie_high_value_index : Z := 31224.

(** CharPropsData.py:3370-3809 *)
Definition propsVectors_0 : list Z := [
  103;0;0;103;0;81788928;103;524288;32;2151;0;0;2663;0;0;2919;0;0;3175;0;0;3431;0;0;3687;0;0;4199;0;0;4455;0;
  0;4711;0;0;4967;0;0;5223;0;0;5479;0;0;5735;0;0;5991;0;0;6247;0;0;6503;0;0;6759;0;0;7015;0;0;7527;0;0;8039;0;
  0;8295;0;0;8807;0;0;9063;0;0;9319;0;0;9575;0;0;10087;0;0;10343;524288;32;10599;0;0;10855;0;23068672;11111;0;
  0;11623;0;0;12647;536870912;0;12903;536870912;0;14951;0;0;15207;0;0;15463;0;0;15975;0;0;16487;0;0;16743;0;0;
  17511;0;0;18535;0;0;18791;0;0;19047;0;0;20583;0;0;20839;0;0;21607;0;0;21863;0;0;22119;524288;32;22375;0;0;
  22631;0;0;22887;0;0;23399;0;0;23655;0;0;23911;0;0;24679;524288;32;25191;0;0;25447;0;0;25703;0;0;25959;0;0;
  28519;0;0;28775;0;0;29543;536870912;0;30055;0;0;30311;0;0;30567;0;0;30823;0;0;31335;0;0;31591;0;0;31847;0;0;
  32359;0;0;32615;0;0;33127;0;0;33383;0;0;33639;0;0;33895;0;0;34151;0;0;34407;0;0;34663;0;0;34919;0;0;35175;0;
  0;35687;0;0;35943;0;0;36455;536870912;0;36711;0;0;36967;0;0;37223;0;0;37479;0;0;37735;0;0;38247;0;0;38503;0;
  0;38759;0;0;39015;0;0;39271;0;0;39527;0;0;40039;0;0;40807;0;0;41319;0;0;41831;0;0;42087;0;0;42343;0;0;42599;
  0;0;42855;0;0;43111;0;0;43367;0;0;43623;0;81788928;43879;0;81788928;44135;0;0;44391;0;0;44647;0;0;44903;0;0;
  45415;0;0;45671;0;0;46183;0;0;46439;0;0;46951;0;0;47207;0;0;47463;0;0;47719;0;0;48231;0;0;48487;0;0;48743;0;
  0;48999;0;0;49255;0;0;49511;0;0;49767;0;0;50023;0;81788928;50279;0;81788928;50791;0;0;51047;0;0;51303;0;0;
  51559;0;0;51815;0;0;52327;0;81788928;53095;0;81788928;53351;0;81788928;53863;0;0;54119;0;0;54375;0;0;54631;
  0;0;54887;0;0;55399;0;0;55911;0;0;56167;0;0;56423;0;0;56679;0;0;56935;0;0;57191;0;0;57447;0;0;57703;0;0;
  57959;0;0;58215;0;81788928;58471;0;0;58727;0;0;58983;0;0;59239;0;0;59495;0;0;59751;0;0;60007;0;0;60263;0;0;
  60519;0;0;60775;0;0;61031;0;0;61287;0;0;61799;0;0;62311;0;0;62823;0;0;63079;0;0;63335;0].
Definition propsVectors_1 : list Z := [
  0;63591;0;0;63847;0;0;64103;0;81788928;64359;0;0;64615;0;0;64871;0;0;65127;0;0;65895;0;0;66151;0;0;66407;0;
  0;66663;0;0;66919;0;81788928;67175;0;0;67431;0;0;67687;0;0;67943;0;0;68199;0;0;68455;0;0;68711;0;0;68967;0;
  0;69223;0;0;69479;0;0;69735;0;0;70503;0;0;70759;0;0;71015;0;0;71271;0;0;71527;0;0;71783;0;0;72039;0;
  81788928;72295;0;0;72551;0;0;72807;0;0;73063;0;0;73319;0;0;73575;0;0;73831;0;0;74087;0;0;74343;0;0;74599;0;
  0;74855;0;0;75111;0;0;75367;0;0;75623;0;0;75879;0;0;76135;0;0;76391;0;81788928;76647;0;0;76903;0;0;77159;0;
  0;77671;0;0;77927;0;0;78183;0;0;78439;0;0;78695;0;0;78951;0;0;655463;0;14680064;673639;0;14680064;675687;0;
  14680064;679527;0;14680064;679783;0;14680064;705895;0;14680064;708967;0;14680064;720999;0;14680064;725607;0;
  14680064;732775;0;14680064;285212928;0;9437216;285212928;1073741825;4456480;285212928;1073741825;6565920;
  285212928;1073741825;10854464;285212928;1073741825;18262176;285213184;0;9437216;285213184;67108865;12845067;
  285213184;130023680;2229250;285213184;603979776;337641472;285213184;603979784;24182784;285213184;1073741825;
  30650400;285213209;130023680;2229249;285213209;130023680;2425857;285213465;130023680;2229249;285213465;
  130023680;2229250;285213465;130023680;2425856;285213465;130023680;2425857;285213721;130023680;2229248;
  285213721;130023680;2229249;285213721;130023680;2229250;285213721;130023680;2294784;285213721;130023680;
  2425856;285213721;130023680;2425857;285213721;130023680;2425858;285213977;130023680;2229248;285213977;
  130023680;2294784;285214208;67109888;2097154;285214208;67109888;2098176;285214208;130024704;2229248;
  285214208;130024704;2294784;285214208;130024704;5440512;285214208;130026752;2294784;285214233;130024704;
  2229263;285214720;67108880;16782337;285214720;67109888;2097153;285214720;109051920;2101249;285214720;
  130024704;2294785;285214727;130023680;2229248;285214727;130023680;2425856;285214734;67109888;2097152;
  285214734;67109888;2097154;285214734;117441792;2229250;285214734;130023680;2229248;285214734;130023680;
  2229249;285214734;130023680;2229250;285214734;130023680;2425856;285214734;130023680;2425857;285214734;
  130023712;2229250;285214734;130023712;2425858;285214984;67108864;2097152;285214984;130023680;2229248;
  285214984;130023680;2229249;285214984;130023680;2425856;285214984;130023680;2425857;285215235;67108864;
  2098176;285215235;67108864;2101248;285215235;67108864;2555904;285215235;130023680;2229248;285215235;
  130023680;2229250;285215235;130023680;2425856;285215235;130024704;2294784;285215235;201326608;17077248;
  285215507;41952512;9839712;285215507;67108864;2097152;285215507;67108864;2101248;285215507;67108864;2294784;
  285215507;67108866;4194304;285215507;67108880;2097152;285215507;130023680;40056832;285215744;2147483648;
  2197856;285215746;41951488;9839712;285215746;41952256;9839712;285215746;67108864;2097152;285215746;67108864;
  20091904;285215746;67108864;20092928;285215746;67108864;22020096;285215746;109051904;20092928;285215746;
  130023680;2294784;285215746;130023680;2294785;285215746;130023680;2294786;285215746;130024704;2294784;
  285215746;131072256;2294784;285216513;41952256;9839712;285216522;41951488;9839712;285216522;41952256;
  9839712;285216522;41968640;9839712;285216522;67108864;2097152;285216522;109052160;9839936;285216522;
  130023680;2294784;285216522;130023680;2294785;285216772;41951488;9839712;285216772;41952256;9839712;
  285216772;41968640;9839712;285216772;67108864;2097152;285216772;67108864;22020096;285216772;109052160;
  9839936;285216772;109052160;9839937;285216772;130023680;2294784;285216772;130023680;2294785;285217040;
  41951488;9839712;285217040;41952256;9839712;285217040;41968640;9839712;285217040;109052160;9839936;
  285217040;130023680;2294784;285217040].
Definition propsVectors_2 : list Z := [
  130023680;2294785;285217295;41951488;9839712;285217295;41952256;9839712;285217295;41968640;9839712;
  285217295;109052160;9839936;285217295;130023680;2294784;285217567;41951488;9839712;285217567;41952256;
  9839712;285217567;41968640;9839712;285217567;67108864;2097152;285217567;109051904;20092928;285217567;
  109052160;9839936;285217567;109052160;9839937;285217567;130023680;2294784;285217567;130023680;2294785;
  285217827;41951488;9839712;285217827;41968640;9839712;285217827;109052160;9839936;285217827;109052160;
  9839937;285217827;130023680;2294784;285217827;130023680;2294785;285218084;41951488;9839712;285218084;
  41951488;9839713;285218084;41968640;9839712;285218084;109051904;20092928;285218084;109052160;9839936;
  285218084;130023680;2294784;285218325;41951488;9839712;285218325;41968640;9839712;285218325;109052160;
  9839936;285218325;109052160;9839937;285218325;130023680;2294784;285218586;41951488;9839712;285218586;
  41968640;9839712;285218586;109051904;20092928;285218586;109052160;9839936;285218586;109052160;9839937;
  285218586;130023680;2294784;285219072;67108864;23068672;285219110;41951488;25568352;285219110;41952256;
  25568352;285219110;41967872;25568352;285219110;67108864;2097152;285219110;67108880;4194304;285219110;
  109051904;20092928;285219110;125829376;25362754;285219110;130023680;25362432;285219110;130025728;25362432;
  285219110;132120832;25362432;285219352;41951488;25568352;285219352;41952256;25568352;285219352;109051904;
  20092928;285219352;125829376;25362754;285219352;130023680;25362432;285219352;130023680;25362434;285219352;
  130025728;25362432;285219352;132120832;25362432;285220108;130023680;2294784;285220108;130023680;2425856;
  285220370;130023680;35849472;285220370;130023680;36898080;285220370;130547968;36898080;285222425;130023680;
  2229249;285222425;130023680;2229250;285222425;130023680;2425857;285222670;67109888;2097153;285222670;
  67109888;2097154;285222670;67109888;5242881;285222670;130023680;2229249;285222670;130023680;2425857;
  285222912;524288;9537568;285222912;524288;29458464;285222912;1572864;9537568;285222912;67108865;4478977;
  285222912;67108865;4478978;285222912;67108865;12845067;285222912;109051904;2104320;285222912;109051936;
  2104320;285222912;603979776;2097152;285222912;603979776;2097154;285222912;603979776;8454144;285222912;
  603979776;21037056;285222912;603979776;22020096;285222912;603979776;22020098;285222912;603979778;4194304;
  285222912;603979782;12582923;285222912;603979784;21037056;285222912;603979784;24182784;285222912;603979808;
  16782336;285222912;603979808;22020098;285222912;738197520;19169280;285222912;738197520;354713602;285222912;
  1073741825;6533152;285222912;1074266112;9537568;285222913;524288;178673184;285222913;532480;9839712;
  285223168;67108864;2097166;285223168;67108864;2097167;285223168;67108896;2097166;285223168;67108896;2097167;
  285223168;67108896;8454158;285223168;67108896;8454159;285223168;67108896;21037070;285223168;67108896;
  21037071;285223168;67108898;2097166;285223168;67108898;2097167;285223424;67108864;22020096;285223424;
  67108864;23068672;285223424;67108864;23068674;285223681;8192;9839712;285223681;41951264;9839712;285223936;
  67108864;2097152;285223936;67108864;2097154;285223936;67108864;2097167;285223936;67108896;2097152;285223936;
  130023424;2097152;285223936;130023456;2097152;285223936;130023712;2229253;285223936;130023712;2294786;
  285223936;130023712;2425858;285223936;130023712;2425861;285223961;130023680;2425856;285223961;130023680;
  2425857;285224192;67108864;1048582;285224192;67108864;2097158;285224217;130023680;2229250;285224217;
  130023680;2294784;285224217;130023680;2425858;285224448;603979776;2097152;285224448;603979808;2097152;
  285224448;603979808;2097153;285224448;603979808;337641472;285224704;603979808;2097152;285224704;603979808;
  2097153;285224704;603979808;2097154;285224704;603979808;15728640;285224704;603979808;23068672;285224704;
  603979810;23068672;285224960;603979776;2097152;285224960;603979776;337641472;285224960;603979808;2097152;
  285224960;603979808;8454144;285224960;603979808;21037056;285225216;603979776;2097152;285225472;603979776;
  2097152;285225728;67108864;1048579;285225984;603979776;1048576;285225984;603979776;2097152;285226240;
  603979776;2097152;285226496;603979776;2097152;285226496;603979776;337641472;285226496;603979808;2097152;
  285226752;603979776;2097152;285226752;603979776;69206016;285226752;603979776;81788928;285226752;603979776;
  337641472;285226752;603979776;350224384;285226752;603979776;2524971008;285226752;603979808;69206016;
  285227008;67108864;1048576;285227008;603979776;2097152;285227008;603979776;11534336;285227008;603979776;
  24182784;285227008;603979776;69206016;285227008;603979776;81788928;285227008;603979776;337641472;285227008;
  603979776;347078656;285227008;603979776;350224384;285227008;603979776;2524971008;285233155;130023680;
  2229250;285233171;41952512;9839712].
Definition propsVectors_3 : list Z := [
  285233171;67108896;2097157;285233171;130023680;40056833;285233171;130023680;40056834;285233171;130023680;
  40056837;285233177;130023680;2229250;285233408;603979776;8454144;285233408;603979776;21037056;285233410;
  117440768;2294792;285233410;130023680;2294788;285233410;130023680;2294791;285233410;130023680;2294792;
  285233410;130023680;2294793;285233665;41952256;9839712;285234432;524288;31557664;285234434;117440768;
  2294792;285234434;130023680;2294788;285234434;130023680;2294791;285234434;130023680;2294792;285234434;
  130023680;2294793;285234791;4096;0;285344256;524292;4294688;285344256;67108864;1048582;285344256;67108864;
  1048591;285344256;67109888;1048578;285344256;67109888;5242882;285344256;109054976;1052672;285344256;
  603979776;1048576;285344256;603979776;20971520;285344256;603979776;22020096;285344256;603979776;23068672;
  285344256;603979776;337641472;285344256;603979808;1048576;285344256;603979808;23068672;285344281;130023680;
  1180687;285344281;130023680;2229248;285344281;130023680;2229249;285344281;130023680;2425856;285344537;
  130023680;2229248;285344537;130023680;2229249;285344537;130023680;2229250;285344537;130023680;2425856;
  285344537;130023680;2425858;285344537;131072256;2229250;285344793;130023680;2229249;285345049;130023680;
  2229248;285345280;67109888;1048578;285345280;67109888;2098176;285345280;130024704;1246208;285345280;
  130026752;1246208;285345537;41952256;9839712;285345537;41952256;9839713;285345537;41952256;12985440;
  285345806;130023680;2229248;285345806;130023680;2425856;285346056;130023680;2229248;285346056;130023680;
  2229249;285346056;130023680;2425856;285346056;130023680;2425857;285353984;603979776;1048576;285353984;
  603979776;2097152;285353984;603979776;2097154;285353984;603979776;4198400;285353984;603979776;15728642;
  285353984;603979776;15772674;285353984;603979776;22020096;285353984;603979778;1048576;285353984;603979778;
  3604480;285353984;603979778;4653056;285353984;603979782;4194304;285353984;603979784;24182784;285353984;
  603979784;24194048;285353984;603979808;1048576;285353984;603979808;22020096;285353984;603979808;22020098;
  285354240;67108864;1048590;285354240;67108864;1048591;285354265;130023680;1180687;285355008;67108864;
  1048578;285355008;67108864;22020098;285355008;67108864;23068674;285355008;67108864;336592911;285355008;
  130023712;1180677;285355022;130023680;2425857;285355033;130023680;1377281;285355264;67108864;1048582;
  285355264;67108864;2097158;285355289;130023680;1180674;285355289;130023680;1377282;285355520;603979776;
  2097152;285355520;603979808;1048576;285355520;603979808;336592896;285355776;603979808;1048576;285355776;
  603979808;1048577;285355776;603979808;1048578;285356032;603979776;1048576;285356800;67108864;1048578;
  285356800;67108864;1048579;285356800;67109120;1180675;285356800;67109120;1377283;285356800;67109120;
  336921603;285357056;603979776;1048576;285357312;603979776;1048576;285357568;603979776;1048576;285357568;
  603979808;1048576;285357568;603979808;336592896;285357824;603979776;68157440;285357824;603979776;81788928;
  285357824;603979776;336592896;285357824;603979776;350224384;285357824;603979808;1048576;285357824;603979808;
  68157440;285357824;603979808;336592896;285358080;67108864;1048576;285358080;603979776;2097152;285363815;0;0;
  285365760;67108864;1048576;285485568;67108864;23068672;285497088;67108864;2097162;285497088;67108896;
  2097162;285497106;130023680;14877706;285497106;130547968;14877706;285497110;130023680;14879754;285497110;
  130023680;38997002;285621504;67108865;4478993;285628160;67108864;8454161;285628160;67108864;14680081;
  285628160;67108864;21037073;285628160;67108864;22020113;285628160;67108864;23068689;285628160;67108870;
  15138833;285628160;67108872;14680081;285628160;67108872;14691345;285628160;67108880;8852497;285628160;
  67108880;18879505;285628160;67108880;19337233;285628160;67108896;14680081;285628160;67109888;14680081;
  285628160;67109920;14680081;285628160;109051904;14687249;285628160;109051968;14850065;285628160;201326608;
  8432657;285628160;201326608;11829265;285628185;130023680;14812177;285628185;130023680;15008785;285628185;
  130023744;14812177;285628185;130023744;15008785;285737216;109051904;2104320;285737216;109052096;422746112;
  285737216;603979776;2097152;285737216;603979776;8454144;285737216;603979776;21037056;285737216;603979776;
  22020096;285737216;603979776;23068672;285737216;603979776;28311552;285737216;603979776;37814272;285737216;
  603979776;404750336;285737216;603979782;14090240;285737216;603979784;24198144;285737216;603979784;24199168;
  285737216;603979792;16782336;285737216;603979792;17240064;285737216;603979792;17241088;285737216;603979808;
  2097152;285737216;603979808;4194304;285737216;603979808;23068672;285737216;603980800;2097152;285737216;
  603980832;2097152;285737216;738197520;11829248;285737216;738197520;16821248;285737216;1140850689;27547648;
  285737241;130023680].
Definition propsVectors_4 : list Z := [
  2229248;285737241;130023680;2425856;285737241;130023872;2229248;285737241;130023872;2425856;285737472;
  67109888;2097154;285737472;603979776;2097152;285737472;603979776;22020096;285737472;603979776;23068672;
  285737472;603979808;2097152;285875730;130023680;34800768;285875730;130547968;34800768;285880320;603979776;
  887095296;285880320;605028352;8454145;285880320;605028352;21037057;285882112;603979776;874512384;285883648;
  67108864;14680064;285883648;67108864;14680066;285883648;603979776;14680064;285883665;130024192;14876672;
  285883665;130025728;19072000;285883666;41952256;9839712;285883924;130023680;14876672;285883924;130023680;
  14876673;285883924;130023680;38993920;285883924;130025728;19070976;285883924;130025728;19070977;285884182;
  130023680;14879744;285884182;130023680;14879745;285884182;130023680;38996992;285884182;130025728;19074048;
  285884182;130025728;19074049;285884421;130023680;14877696;285884690;130023680;14877698;285884690;130547968;
  14877698;285885440;67108864;14680064;285885458;67108864;14680066;285885458;67108864;14680067;285885462;
  67108864;14683139;285885696;67108864;14680077;285885718;67108864;14683149;285886225;130286336;14876672;
  285888273;130024192;14876673;285888273;130286336;14876672;285889280;67108864;8454160;285889280;67108864;
  14680066;285889280;67108864;14680080;285889280;67108864;21037072;285889280;67108866;15138832;285889280;
  67108872;8454160;285889280;67108872;21037072;285889280;109051904;14687234;285889280;109051904;14687248;
  285889536;67108864;8454156;285889536;67108864;14680076;285889536;67108864;21037068;285889536;67108864;
  22020108;285889536;67108864;23068684;285889536;67108866;15138828;285889536;67108880;8852492;285889536;
  67108880;15138828;285889536;67108880;18879500;285889536;67108880;19337228;285889536;67108896;14680076;
  285889536;67108902;15138828;285889536;201326608;8432652;285889536;201326608;11829260;289410060;67108880;
  11534336;289410060;67108880;17241088;289410060;201326608;11829248;289410070;130025728;2294784;289410880;
  201326608;4489216;289410900;201326608;4489216;289414537;67108864;2097152;289422783;67108864;14680064;
  289691572;67108868;18874378;289691572;67108872;8454154;289691572;67108872;21037066;289691572;67108880;
  8847370;289691572;201326608;8683530;289691581;58729728;19276906;289691581;130026752;38997002;290078132;
  603979776;8454144;290078132;603979776;21037056;290078132;603979784;8454144;290078132;603979784;21037056;
  290078132;603979792;8847360;290078132;738197520;8683520;290078138;67108864;14680064;290078138;603979776;
  14680064;290078138;603979778;18874368;290078138;603979778;350224384;290078138;603979784;8454144;290078138;
  603979784;21037056;290078141;130025728;9636864;290078141;130025728;14879744;290078143;130024192;14876672;
  290078397;117441536;18877442;290078644;67108868;18874368;290078653;130026752;38996992;290079423;67108864;
  14680064;290079423;67108864;14680079;290079935;67108864;14680066;290079935;67108864;14680067;290079935;
  67108864;350224387;290080191;67108864;14680066;290080191;67108864;14680077;293603594;41952256;9839712;
  293604382;41951488;9839712;293604382;41952512;9839712;293605159;41952256;9839712;293605172;41952256;9839712;
  293734144;41952256;9839712;293734144;41952512;9839712;294272448;41952256;9839712;294272701;41952256;9839712;
  297797892;41952256;9839712;297797896;41952256;9839712;297798688;201326608;11829248;297798691;109051904;
  20092928;297799533;109051904;20092928;297799794;109051904;20092928;297800054;109051904;20092928;297800314;
  109051904;20092928;297800830;67108864;2097152;297800830;109051904;20092928;297801346;109051904;20092928;
  297816570;130023680;2294792;536871015;4096;0;536873747;41952256;9839712;536873747;41952512;9839712;
  536877863;41951488;9839712;536877863;41951488;9839713;536877863;41952256;9839712;536877863;41968640;9839712;
  536877863;43000064;9839714;536877863;67108864;2097152;536877863;67108864;4194304;536877863;67108864;5242880;
  536877863;67108864;8454144;536877863;67108864;11534336;536877863;67108864;12582923;536877863;67108864;
  21037056;536877863;67108880;11534336;536877863;67108880;12582912;536877863;109051904;20092928;536877863;
  109052160;4597056;536877863;109052928;9839936;536877863;130023680;2294784;536877863;130023680;2294785;
  536880665;130023680;2229249;536881664;67108864;23068672;536890215;0;26214400;536890471;0;26214400;536890727;
  0;26214400;536898919;4096;0;536899175;4096;0;537029991;0;0;537030247;0;0;537545234;130023680;32703681;
  537545234;130023680;33752289;553670144;67108864;7340032;553789952;67108864;23068672;805307417;130023680;
  2229248;805307417;130023680;2229249;805307417;130023680;2425856;805307417;130023680;2425857;805307673;
  130023680;2229248;805307904;67109888;2098176;805307904;130024704;2294784;805307909;67109888;2098176;
  805308430;130023680;2229248;805308680].
Definition propsVectors_5 : list Z := [
  8192;9839712;805308680;130023680;2229248;805308680;130023680;2229249;805308680;130023680;2425856;805308680;
  130023680;2425857;805308931;67108870;4195328;805309442;67108864;2097152;805309442;130023680;2294784;
  805309730;41951488;9839712;805309730;41952256;9839712;805309730;41952512;9839712;805309730;67108864;2097152;
  805309730;67108880;2097152;805309730;130023680;2294784;805309730;201326608;2392064;805309730;2147483648;
  2197856;805309989;41952512;9839712;805309989;130023680;2294784;805312545;41951488;9839712;805312545;
  41968640;9839712;805312545;67108864;2097152;805312545;109052160;9839936;805312545;109052160;9839937;
  805312545;130023680;2294784;805313319;41951488;9839712;805313319;41952256;9839712;805313319;67108864;
  2097152;805313319;67108864;4194304;805313319;130023680;2294784;805313564;41951488;25568352;805313564;
  41952256;25568352;805313564;41968640;25568352;805313564;67108864;2097152;805313564;109052160;25568256;
  805313564;109052160;25568576;805313564;130023680;25362432;805313564;130023680;25362433;805313564;201326608;
  4489216;805314315;67108864;2097152;805314315;67108880;2097152;805314315;67108880;4194304;805314315;
  109051904;2097152;805314315;130023680;2294784;805314315;201326608;2392064;805314566;130023680;2425856;
  805314856;67108864;2097152;805314856;130023680;2294784;805314856;201326608;2392064;805315101;67108864;
  8454144;805315101;67108864;21037056;805315101;67108865;4478976;805315101;130023680;2294784;805315328;
  67108880;4194304;805315360;130023680;2294784;805315607;41951488;25568352;805315607;41952256;25568352;
  805315607;41968640;25568352;805315607;42475520;25568352;805315607;67108864;2097152;805315607;67108864;
  4194304;805315607;67108864;23068672;805315607;67108880;4194304;805315607;67108880;18874368;805315607;
  109051904;20092928;805315607;109052160;25568576;805315607;130023680;25362432;805315607;131072256;25362432;
  805315867;524288;12683296;805315867;41951488;9839712;805315867;62923008;9839712;805315867;67108864;2097152;
  805315867;67108870;5242880;805315867;67108880;4194304;805315867;67108880;11993088;805315867;67110912;
  2097152;805315867;109051904;20092928;805315867;130023680;2294784;805315867;130025728;2294784;805315867;
  201326608;11829248;805315867;310910976;9839712;805316608;603979776;2097152;805316608;738197520;19169282;
  805316608;738197520;354713602;805317120;67108864;23068672;805317377;8192;9839712;805317377;8192;144057440;
  805317632;67108864;2097152;805317632;130023680;337773573;805317913;130023680;2425856;805318144;603979776;
  2097152;805318656;603979776;2097152;805318656;603979776;69206016;805318912;603979776;2097152;805320192;
  603979776;2097152;805320448;603979776;69206016;805321006;603979776;2097152;805326867;130023680;40056833;
  805328384;0;9537568;805438976;67109888;5243904;805439233;41952256;9839712;805439233;41952256;12985440;
  805976593;67239936;14680064;805976593;67239936;14680066;805976849;67239936;14680066;805977088;67141632;
  14680064;805977088;67174400;14680064;805977361;130024192;14876674;805978885;130023680;14877696;805979665;
  130286336;14876672;805980201;130023680;14877696;805980201;130025728;19072000;805980457;67108864;14680064;
  809510287;67108880;4194304;809510287;67108880;11993088;809510287;201326608;11829248;809511087;67108865;
  12852235;810171839;67108864;14680064;813698078;41951488;9839712;817896583;109051904;20092928;822085646;
  130023712;2229250;822085646;130023712;2425858;822104423;4096;0;822106142;67108864;2097152;822106142;
  130023680;2294784;822106381;130023680;2294784;822106633;130023680;2229248;822106633;130023680;2425856;
  822106880;67108864;2097152;822107136;524288;9537568;822107136;41951232;9839712;822107136;41952256;9839712;
  822107136;67108864;2097152;822107136;67108864;2097153;822107136;109051904;9839936;822107136;109052928;
  9839936;822107137;41952256;9839712;822107392;67108896;2097157;822107392;109051936;20092933;822107392;
  130023712;2229253;822107392;130023712;2425861;822108160;532480;144057440;822108160;1572864;9537568;
  822763025;130286336;14876672;822763281;130024192;14876673;838861849;130023680;2425856;838862862;67108896;
  2097152;838862862;130023680;2229248;838862862;130023680;2425856;838863112;130023680;2229248;838863112;
  130023680;2425856;838863874;130023680;2294784;838864421;130023680;2294784;838868236;130023680;2294784;
  838871040;524288;31557664;838871040;524320;2197536;838871040;67108865;4478978;838871040;603979776;2097152;
  838871040;603979776;2097154;838871040;603979808;2097152;838871040;738197520;19169282;838871321;130023680;
  2229263;838871552;67108864;23068672;838871809;8192;9839712;838871809;41951232;9839712;838871809;41951264;
  9839712;838872064;67108864;2097152;838872064;67108896;2097152;838872064;67108896;2097157;838872064;
  130023712;2229253;838872064;130023712;2425861;838872576;603979808;2097152].
Definition propsVectors_6 : list Z := [
  838872832;603979808;2097152;838873088;603979776;2097152;838873088;603979808;2097152;838874368;603979776;
  2097152;838874624;603979808;2097152;838874624;603979808;337641472;838874880;603979776;2097152;838874880;
  603979776;68157440;838874880;603979776;69206016;838874880;603979776;337641472;838875136;603979776;8454144;
  838875136;603979776;21037056;838881538;67108864;22020104;838882562;130023680;2294784;838885640;130023680;
  2229248;838885640;130023680;2425856;838885930;41951488;9839712;838885930;41967616;9839712;838885930;
  130023680;2294784;838886187;41951488;9839712;838886187;41967616;9839712;838886187;130023680;2294784;
  838886444;41951488;9839712;838886444;130023680;2294784;838886701;41951488;9839712;838886701;130023680;
  2294784;838886912;603979808;2097152;838887168;603979808;2097152;838887424;603979808;2097152;838887424;
  603979808;337641472;838887680;603979808;2097152;838887680;603979808;8454144;838887680;603979808;21037056;
  838887936;603979808;2097152;838887936;603979808;2097153;838887936;603979808;2097154;838993665;42475520;
  12985440;839004928;67108864;1048576;839019521;310910976;9839712;839019521;310910976;144057440;839276288;
  67108864;8454161;839276288;67108864;21037073;839411200;603979808;8454144;839411200;603979808;21037056;
  839411968;603979808;8454144;839411968;603979808;21037056;839529984;603979808;874512384;839531793;130023680;
  19072000;839532052;130023680;14876688;839532052;130023680;38993920;839532310;130023680;14879760;839533568;
  67108864;14680067;839534889;67108864;14680064;839536401;130024192;14876673;839543574;130023680;38996992;
  843080587;201326608;4489216;843726274;67108864;350224384;843726274;130023680;19072000;843726781;67108866;
  18877440;843731898;603979776;14680064;847382273;41951232;9839712;1073742873;130023680;2229248;1073743129;
  130023680;2229248;1073743360;67109888;2098176;1073743886;130023680;2229248;1073743886;130023680;2425856;
  1073743886;130023680;2425858;1073744898;41951488;9839712;1073744898;41952256;9839712;1073744898;41952512;
  9839712;1073744898;67108864;2097152;1073744898;67108864;17241088;1073744898;130023680;2294784;1073744898;
  2147483648;2197856;1073745186;130023680;2294784;1073745674;130023680;2294784;1073745924;130023680;2294784;
  1073746192;41951488;9839712;1073746192;109052160;9839936;1073746447;41951488;9839712;1073746447;67108864;
  23068672;1073746447;130023680;2294784;1073746719;130023680;2294784;1073746979;67108864;2097152;1073746979;
  67108864;23068672;1073747477;41952256;9839712;1073747477;130023680;2294784;1073751063;41952256;25568352;
  1073751063;67108864;2097152;1073752064;109051904;2104320;1073752064;603979778;2097152;1073753088;67108864;
  2097154;1073754112;603979776;337641472;1073754112;603979808;2097152;1073755904;603979776;2097152;1073755904;
  603979776;69206016;1073755904;603979776;337641472;1073764873;130023680;2229248;1073764873;130023680;2425856;
  1073765632;130023712;2229253;1073770288;41951488;9839712;1073770288;41952256;9839712;1073770288;67108864;
  2097152;1073770288;109051904;20092928;1073770288;109052160;9839936;1073770288;130023680;2294784;1073770288;
  201326608;11829248;1073770548;130023680;25362432;1073770775;67108864;2097152;1073771016;130023680;2229248;
  1073771022;130023680;2229248;1073771022;130024704;2229262;1073771022;130024704;2229263;1073771033;130023680;
  2229248;1073771033;130024704;2229248;1073771033;130024704;2229262;1073771033;130024704;2229263;1073771264;
  603979776;2097152;1073771264;603979776;337641472;1073771520;67108864;2097152;1073771825;130023680;2294784;
  1073772081;130023680;2294784;1073772597;67108880;4194304;1073772597;130023680;2294784;1073772851;130023680;
  2294784;1073773106;109051904;20092928;1073773106;130023680;2294784;1073773359;130023680;2294784;1073773568;
  67108864;2097152;1073874689;41952256;9839712;1073874689;41952256;12985440;1073885952;67108864;2097152;
  1073904897;310910976;9839712;1074411264;603979776;874512384;1074411264;603979776;887095296;1074414592;
  67108864;14680077;1074414610;67108864;14680066;1074414610;67108864;14680067;1074414848;67108864;14680077;
  1074418432;67108864;8454160;1074418432;67108864;21037072;1077966844;67108864;2097152;1077966847;67108864;
  2097152;1077966847;67108864;4194304;1086329982;67108864;2097152;1086345722;67108864;2097152;1090520089;
  130023680;2229248;1090520089;130023680;2425856;1090521102;130023680;2229248;1090521102;130023680;2425856;
  1090521352;130023680;2229248;1090521352;130023680;2425856;1090521875;41951232;9839712;1090521875;41951488;
  9839712;1090521875;67108864;11534336;1090522114;41951488;9839712;1090522114;67108864;22020096;1090522114;
  201326608;11829248;1090522890;130023680;2294784;1090523140;130023680;2294784;1090524195;130023680;2294784;
  1090525991;67108864;5242880;1090526476;130023680;2294784;1090526476;130023680;2294799;1090526987;41952256;
  9839712;1090526987;67108864;2097152;1090526987;130023680;2294784;1090529280;603979776;2097152;1090529280;
  603979776;4194304;1090529561;130023680;2229262;1090529792;67108864].
Definition propsVectors_7 : list Z := [
  23068672;1090530049;41951264;9839712;1090530304;67108864;2097152;1090530304;130023712;2229253;1090531328;
  603979776;2097152;1090533120;603979776;69206016;1090533120;603979776;337641472;1090533120;603979776;
  350224384;1090542848;130023712;2229253;1090545152;603979808;2097152;1090545152;603979808;8454144;1090545152;
  603979808;21037056;1090548232;130023680;2229263;1090548249;130023680;2229248;1090548480;603979776;2097152;
  1090551310;41951232;9839712;1090551310;67108864;2097152;1090551566;67108864;2097152;1090551566;130023680;
  2294784;1090551810;130023680;2294784;1090552119;41951488;9839712;1090552119;67108864;2097152;1090552119;
  109052160;9839936;1090552119;130023680;2294784;1090552577;41951232;9839712;1090552839;67108864;2097152;
  1090552839;67108864;4194304;1090552839;67108864;11534336;1090552839;130023680;2229248;1090552839;130023680;
  2425856;1090553099;130023680;2294784;1090553355;67108864;2097152;1090553355;130023680;2294784;1090553612;
  130023680;2229248;1090553912;130023680;2229248;1090553912;130023680;2425856;1090554169;41951232;9839712;
  1090554169;41951488;9839712;1090554169;41967616;9839712;1090554169;67108864;2097152;1090554169;67108864;
  4194304;1090554169;130023680;2294784;1090554169;201326608;4489216;1090554368;67109888;2098176;1090554683;
  67108864;25165824;1090554683;109051904;20092928;1090554683;130023680;25362432;1090554683;132120832;25362432;
  1090554941;67108880;4194304;1090554941;130023680;2294784;1090555150;130023680;2229263;1090555161;130023680;
  2229248;1090555161;130023680;2229263;1090555392;603979776;2097152;1090555392;603979776;4194304;1090555392;
  603979776;24182784;1090555392;603979782;4194304;1090555706;41951488;9839712;1090555706;41967616;9839712;
  1090555706;67108864;2097152;1090555706;109052160;9839936;1090555706;130023680;2294784;1090555964;130023680;
  2294784;1090555964;130023680;2294799;1090651905;41951232;9839712;1090651905;41951232;12985440;1091188480;
  603979776;874512384;1091188480;603979776;887095296;1091191826;67108864;14680067;1091192593;130286336;
  14876672;1091194641;130024192;14876673;1091211520;67108864;8388624;1091211520;67108864;8454160;1091211520;
  67108864;8847376;1091211520;67108864;11534352;1091211520;67108864;15728656;1091211520;67108864;16782352;
  1091211520;67108864;17240080;1091211520;67108864;17241104;1091211520;67108864;21037072;1094748869;67109888;
  2097152;1095402175;67108864;14680064;1098941184;41951232;9839712;1103107198;109051904;20092928;1342178329;
  130023680;2229248;1342178329;130023680;2425856;1342179342;130023680;2229248;1342179592;130023680;2229248;
  1342179592;130023680;2425856;1342180115;41952512;9839712;1342181130;130023680;2294784;1342182933;41951488;
  9839712;1342182933;130023680;2294784;1342188289;41951264;9839712;1342188544;67108864;2097152;1342188569;
  130023680;2229248;1342188825;130023680;2229248;1342189568;603979776;2097152;1342189568;603979808;2097152;
  1342191360;603979776;69206016;1342201088;130023712;2229253;1342201088;130023712;2425861;1342202120;
  130023680;2229248;1342202120;130023680;2425856;1342203392;603979808;2097152;1342206720;603979776;2097152;
  1342210817;41952256;9839712;1342212608;130024704;2294784;1342214743;41952256;9839712;1342214743;67108864;
  2097152;1342214743;67108880;17241088;1342214743;109051904;20092928;1342214743;130023680;2294784;1342214743;
  130024704;2294784;1342214743;130025728;2294784;1342214743;201326608;11829248;1342214974;41951488;9839712;
  1342214974;41952256;9839712;1342214974;67108864;2097152;1342214974;67108864;4194304;1342214974;67108880;
  4194304;1342214974;109051904;20092928;1342214974;109052160;9839936;1342214974;109052160;9839937;1342214974;
  109069312;9839936;1342214974;130023680;2294784;1342214974;130023680;2294785;1342214974;201326608;4489216;
  1342215193;130023680;2229248;1342215193;130023680;2425856;1342215424;67109888;2098176;1342215770;67108864;
  5242880;1342215770;130023680;2294784;1342215770;201326608;11829248;1342216027;67108864;2097152;1342216027;
  67108880;4194304;1342216027;130023680;2294784;1342216293;130023680;2294784;1342216549;67108880;4194304;
  1342216549;130023680;2294784;1346411199;67108864;2097152;1358956558;130023680;2229248;1358956558;130023680;
  2425856;1358957570;41951488;9839712;1358957570;67108864;22020096;1358957570;67108896;2097152;1358957570;
  130023680;2294784;1358958346;130023680;2294784;1358958346;130024704;2294784;1358958864;41951488;9839712;
  1358959391;41951488;9839712;1358959651;130023680;2294784;1358959908;41951488;9839712;1358959908;67108864;
  2097152;1358959908;130023680;2294784;1358960410;41951488;9839712;1358960410;67108864;2097152;1358960410;
  67108864;22020096;1358960410;130023680;2294784;1358961447;67108864;2097152;1358961447;67108864;4194304;
  1358961447;67108864;5242880;1358961447;130023680;2294784;1358961692;41951488;25568352;1358961692;41952512;
  25568352;1358961692;41968640;25568352;1358961692;67108864;25165824;1358961692;109051904;20092928;1358961692;
  109052160;25568256;1358961692;109052160;25568576;1358961692;109053184;25568256;1358961692].
Definition propsVectors_8 : list Z := [
  130023680;25362432;1358963995;130023680;2294784;1358964249;130023680;2229248;1358964249;130023680;2425856;
  1358964736;524320;2197536;1358965760;67108864;2097152;1358966041;130023680;2294784;1358968576;603979776;
  69206016;1358968576;603979776;81788928;1358975489;41952256;9839712;1358978048;67108864;2097152;1358979336;
  130023680;2229248;1358979336;130023680;2425856;1358980608;603979808;2097152;1358980608;603979808;8454144;
  1358980608;603979808;21037056;1358983936;603979776;2097152;1358983936;603979808;2097152;1358987266;
  130023680;2294784;1358988033;41951232;9839712;1358988033;41952256;9839712;1358989824;130024704;2294784;
  1358990848;603979776;2097152;1358990848;603979776;4194304;1358990848;603979776;8454144;1358990848;603979776;
  20971520;1358990848;603979776;21037056;1358990848;603979776;24182784;1358990848;603979778;2097152;
  1358990848;603981056;2294784;1358990848;738197520;11829248;1358992409;130023680;2229248;1358992409;
  130023680;2229262;1358992409;130023680;2229263;1358992409;130023680;2425856;1358992640;67109888;2098176;
  1358992640;130024704;2294784;1358992665;130023680;2229248;1358992665;130023680;2229263;1358992665;130023680;
  2294784;1358992665;130023680;2425856;1358994289;41951488;9839712;1358994289;109051904;20092928;1358994289;
  109052160;9839936;1358994289;109069312;9839936;1358994289;130023680;2294784;1358994514;41951488;9839712;
  1358994514;41952256;9839712;1358994514;41954560;9839712;1358994514;67108880;4194304;1358994514;109051904;
  20092928;1358994514;109052160;9839936;1358994514;130023680;2294784;1358994514;201326608;4489216;1358994797;
  109051904;20092928;1358994797;130023680;2294784;1358994797;130024704;2294784;1358994797;130026752;2294784;
  1358994797;201326608;4489216;1358994952;41951488;9839712;1358995299;67108880;4194304;1358995299;109051904;
  20092928;1358995299;130023680;2294784;1358995299;130025728;2294784;1358995299;201326608;4489216;1358995299;
  201326608;11829248;1358995464;8192;9839712;1358995464;41952256;9839712;1358995464;67108864;2097152;
  1358995464;130023680;2229248;1358995464;130023680;2294784;1358995464;130023680;2425856;1358995464;130024704;
  2294784;1358995823;41968640;9839712;1358995823;109051904;20092928;1358995823;109052160;9839936;1358995823;
  130023680;2294784;1358995823;201326608;4489216;1358996047;41951488;9839712;1358996047;41952256;9839712;
  1358996047;109051904;20092928;1358996047;130023680;2294784;1358996047;201326608;4489216;1358996334;41951488;
  9839712;1358996334;67108864;2097152;1358996334;109052160;9839936;1358996334;109069312;9839936;1358996334;
  130023680;2294784;1358996546;41951488;9839712;1358996546;67108864;2097152;1358996546;109051904;20092928;
  1358996546;109052160;9839936;1358996546;130023680;2294784;1358996546;201326608;4489216;1358996736;67108864;
  2097152;1358996992;67108864;2097152;1358996993;41951232;9839712;1358997355;130023680;2294784;1358997608;
  130023680;2294784;1358997868;67108864;2097152;1358997868;130023680;2294784;1358998016;67108864;81788928;
  1358998272;67108864;81788928;1359504896;603979808;8454144;1359504896;603979808;21037056;1359626245;
  130023680;14877696;1359628049;130286336;14876672;1359639296;603979776;874512384;1359653376;67108864;
  887095296;1363190515;67109888;4194304;1363837631;67108864;14680064;1367354289;41951232;9839712;1371539720;
  41952256;9839712;1371578376;41952256;9839712;1375735562;41951488;9839712;1375735562;109052160;9839936;
  1375735562;130023680;2294784;1375735812;67108864;23068672;1375738624;67108864;2097152;1375738908;41951488;
  25568352;1375738908;109052160;25568256;1375738908;109053184;25568256;1375739410;130023680;35849472;
  1375739410;130023680;36898080;1375740200;67108866;4194304;1375740200;130023680;2294784;1375742464;67108864;
  22020096;1375742464;67108864;23068672;1375743232;67108864;2097158;1375744000;603979776;2097152;1375756552;
  130023680;2229248;1375756552;130023680;2425856;1375765249;41952256;9839712;1375765511;41952256;9839712;
  1375765511;130023680;2229248;1375765511;130023680;2425856;1375767355;109051904;25165824;1375767355;
  130023680;25362432;1375768064;603979776;4194304;1375769625;130023680;2425856;1375770459;67108864;2097152;
  1375775870;41951232;9839712;1375775870;41951488;9839712;1375775870;41952256;9839712;1375775870;67108880;
  2097152;1375775870;130023680;2294784;1375775870;201326608;2392064;1375776040;130023680;2294784;1375776362;
  41951488;25568352;1375776362;41952256;9839712;1375776362;41952256;25568352;1375776362;41967616;25568352;
  1375776362;67108864;25165824;1375776362;109051904;20092928;1375776362;109052160;25568256;1375776362;
  109052160;25568576;1375776362;130023680;25362432;1375776362;130025728;25362432;1375776362;201326608;
  25460736;1375776899;67108880;4194304;1375776899;130023680;2294784;1375776899;201326608;4489216;1375777154;
  41952256;9839712;1375777154;67108864;2097152;1375777154;67108880;4194304;1375777154;130023680;2294784;
  1375777154;201326608;4489216;1375777546;41952256;9839712;1375777546;67108864;2097152;1375777546;130023680;
  2294784;1375778126;41951488;9839712].
Definition propsVectors_9 : list Z := [
  1375778126;41952256;9839712;1375778126;67108864;2097152;1375778126;67108880;4194304;1375778126;109051904;
  20092928;1375778126;109052160;9839936;1375778126;109069312;9839936;1375778126;130023680;2294784;1375778126;
  201326608;4489216;1375778332;67108864;25165824;1375778332;109053184;25568256;1375778332;130023680;25362432;
  1375778332;130025728;25362432;1375778687;41951488;25568352;1375778687;41952256;25568352;1375778687;67108864;
  25165824;1375778687;67108880;25165824;1375778687;130023680;25362432;1375778687;130024704;25362432;
  1375778687;130025728;25362432;1375778687;132120832;25362432;1375778931;41951488;9839712;1375778931;41968640;
  9839712;1375778931;109051904;20092928;1375778931;109052160;9839936;1375778931;109052928;9839936;1375778931;
  130023680;2294784;1375778931;201326608;4489216;1375779090;130023680;35849472;1375779090;130023680;36898080;
  1375779444;67108864;2097152;1375779444;67108880;4194304;1375779444;130023680;2294784;1375779717;67108864;
  2097152;1375779717;130023680;2294784;1375779957;67108864;4194304;1375779957;67108880;4194304;1375779957;
  130023680;2294784;1375780221;67108864;2097152;1375780221;130023680;2294784;1375780474;67108864;2097152;
  1375780474;130023680;2294784;1375780696;130023680;2294784;1375780866;67108864;2097152;1375781240;41951232;
  9839712;1375781240;41951488;9839712;1375781240;41952256;9839712;1375781240;41968640;9839712;1375781240;
  67108864;2097152;1375781240;109052160;9839936;1375781240;130023680;2294784;1375781240;130023680;2294785;
  1375781240;201326608;4489216;1375781240;2147483648;2197856;1375781447;130023680;2294784;1375781447;
  130023680;8586240;1375781447;130023680;21169152;1375781632;67108864;2097155;1375874304;67108864;1048582;
  1375876864;603979776;68157440;1375876864;603979776;81788928;1375876864;603979776;336592896;1375876864;
  603979776;350224384;1375876864;603979776;2524971008;1375880192;67108864;1048576;1375892224;603979776;
  1048576;1375912704;67108864;1048576;1375912704;67108864;1048578;1375912704;67108864;1048579;1375912704;
  67108864;1048589;1375912704;67109120;1377280;1375912704;67109120;1377293;1375912704;67109120;336921600;
  1376394770;130023680;34800768;1376401152;603979776;887095296;1376401408;603979776;873463808;1376405265;
  130286336;14876672;1376407313;130024192;14876673;1376416512;603979776;873463808;1376433170;130023680;
  34800768;1376437248;67108864;14680066;1376437248;67108864;14680077;1376437248;67108864;887095309;1376437268;
  67108864;14680077;1376437521;130286336;14876672;1379970961;130023680;2294784;1379970966;67109888;2097152;
  1379970968;109052928;9839936;1379970968;130023680;2294784;1379970978;130023680;2294784;1379970980;130023680;
  2294784;1379971783;67108864;2097152;1379971783;67108864;22020096;1379971794;67108864;2097152;1379971808;
  67108864;2097152;1379972598;130025728;2294784;1380598975;67108864;14680067;1384165265;41952256;9839712;
  1384165266;41952256;9839712;1384165272;41952256;9839712;1384165274;41952256;9839712;1384165276;41952256;
  9839712;1388360685;41952256;9839712;1388360689;130023680;2294784;1610615810;41951488;9839712;1610615810;
  130023680;2294784;1610616586;41951488;9839712;1610616586;109052160;9839936;1610616586;130023680;2294784;
  1610617631;67108864;2097152;1610618650;130023680;2294784;1610618650;130023680;2295136;1610619687;41951488;
  9839712;1610619687;67108864;12582912;1610619687;130023680;2294784;1610620683;41952256;9839712;1610623257;
  130023680;2229262;1610623488;67108864;23068672;1610625024;603979776;337641472;1610625024;603979776;
  350224384;1610626816;603979776;69206016;1610627072;603979776;24182784;1610633474;67108864;2097152;
  1610637576;130023680;2229248;1610637576;130023680;2425856;1610638848;603979808;2097152;1610646273;41951232;
  9839712;1610649660;41967616;9839712;1610649660;67108864;4194304;1610650905;130023680;2229248;1610650905;
  130023680;2425856;1610653704;130023680;2229248;1610653704;130023680;2425856;1610662656;67108864;980432256;
  1610663508;41951232;9839712;1610663508;67108880;2097152;1610663508;130023680;2294784;1610663743;41951232;
  9839712;1610663743;41951488;9839712;1610663743;67108864;2097152;1610663743;109052160;9839936;1610663743;
  109068288;9839936;1610663743;130023680;2294784;1610663947;130023680;2294784;1610664257;41951488;9839712;
  1610664257;41967616;9839712;1610664257;67108864;2097152;1610664257;67108880;2097152;1610664257;109051904;
  20092928;1610664257;109052160;9839936;1610664257;130023680;2294784;1610664257;201326608;4489216;1610664578;
  130023680;2294784;1610664960;67108864;81788928;1610665984;67108864;2097152;1610793728;67108864;1048576;
  1610793728;67108864;1048589;1610793728;67109120;1377280;1610793728;67109120;1377293;1610793728;67109120;
  336921600;1611280384;603979776;874512384;1611280384;603979776;887095296;1611282176;603979776;874512384;
  1611282432;603979776;874512384;1611282432;603979776;3061841920;1611285253;130023680;14877696;1611318016;
  67108864;873463808;1611318272;67108864;350224397;1611318272;67108864;887095309;1611320084;130023680;
  14876672;1611320086;130023680;14879744;1611320320;67108864].
Definition propsVectors_10 : list Z := [
  887095296;1611320576;67108864;874512384;1611320576;67108864;887095296;1611320576;67108864;3061841920;
  1611320832;67108864;887095296;1611320832;67108864;3061841920;1611321088;67108864;887095296;1611321088;
  67108864;3061841920;1611321617;130286336;14876672;1615512767;67108864;887095299;1627392515;67108864;
  23068672;1627393026;2147483648;2197856;1627394575;67108864;2097152;1627396632;130023680;25362432;1627397388;
  130023680;2294784;1627397388;130023680;2425856;1627416064;603979808;2097152;1627423751;130023680;2229248;
  1627423751;130023680;2425856;1627424524;130023680;2229248;1627426304;603979776;2097152;1627426304;603979776;
  4194304;1627426304;603979778;3145728;1627426876;130023680;2294784;1627428121;130023680;2229248;1627428121;
  130023680;2425856;1627428121;130024704;2229263;1627429745;41951488;9839712;1627429745;41968640;9839712;
  1627429745;130023680;2294784;1627430920;41951488;9839712;1627439872;67108864;2097167;1627442432;67108864;
  2097152;1627443714;41952256;9839712;1627443714;41952512;9839712;1627443714;130023680;2294784;1627443970;
  67108896;2097152;1627443970;130023712;2294789;1627444342;41951488;9839712;1627444342;41951488;9839713;
  1627444342;41968640;9839712;1627444342;67108864;4194304;1627444342;109051904;20092928;1627444342;109052160;
  9839936;1627444342;130023680;2294784;1627444342;201326608;4489216;1627444595;41951488;9839712;1627444595;
  41968640;9839712;1627444595;109052160;9839936;1627444595;130023680;2294784;1627444595;130025728;2294784;
  1627444595;201326608;4489216;1627444877;130023680;2294784;1627445078;130023680;2294784;1627445340;41952512;
  9839712;1627445340;109052160;9839936;1627445340;130023680;2294784;1627445340;130024704;2294784;1627445655;
  41951488;9839712;1627445655;67108864;2097152;1627445655;67108864;4194304;1627445655;109051904;20092928;
  1627445655;109052160;9839936;1627445655;109069312;9839936;1627445655;130023680;2294784;1627445655;130023680;
  2295136;1627445655;201326608;4489216;1627445912;109051904;20092928;1627445912;130023680;2294784;1627446129;
  67108864;2097152;1627446425;41951488;9839712;1627446425;41952256;9839712;1627446425;109051904;20092928;
  1627446425;109052160;9839936;1627446425;109069312;9839936;1627446425;130023680;2294784;1628063505;130286336;
  14876672;1628065553;130024192;14876673;1628098048;67108864;887095296;1631629206;130023680;2294784;
  1631629208;130023680;2294784;1635823507;41952256;9839712;1644177920;67108864;23068672;1660954624;524288;
  9537568;1673530388;524288;9537568;1879050254;130023680;2425856;1879050755;67108864;2097152;1879051264;
  2147483648;2197856;1879052042;130023680;2294784;1879052292;130023680;2294784;1879053604;41951488;9839712;
  1879053604;130023680;2294784;1879053845;41951488;9839712;1879054106;41951488;9839712;1879054369;109051904;
  20092928;1879057184;130023680;2294784;1879058944;67108864;22020096;1879058944;67108864;23068672;1879060480;
  603979776;2097152;1879060480;603979776;337641472;1879062528;603979776;81788928;1879069185;41952256;9839712;
  1879070750;130023680;2294784;1879073032;130023680;2229248;1879073032;130023680;2425856;1879076656;130023680;
  2294784;1879077632;603979776;2097152;1879080718;67108864;2097152;1879081729;41951488;9839712;1879081729;
  41952256;9839712;1879084544;603979776;2097152;1879084544;603979776;4194304;1879084544;603979778;4194304;
  1879084544;603979784;21037056;1879084544;603979792;4194304;1879084544;738197520;4489216;1879086361;
  130023680;2229248;1879086361;130023680;2294784;1879086361;130023680;2425856;1879087205;130023680;2294784;
  1879087461;67108880;4194304;1879087461;130023680;2294784;1879089160;130023680;2229248;1879089160;130023680;
  2425856;1879089160;130024704;2229263;1879090446;67108864;2097152;1879094812;41952512;25568352;1879094812;
  109053184;25568256;1879094812;130023680;25362432;1879098112;67108864;1048576;1879099713;41967616;9839712;
  1879100416;67108864;81788928;1879100672;67108864;2097152;1879100672;67108864;69206016;1879100672;67108864;
  81788928;1879100672;67108864;337641472;1879100672;67108864;350224384;1879100672;67108864;2524971008;
  1879101184;67108864;81788928;1879101184;67108864;350224384;1879101954;41951488;9839712;1879101954;130023680;
  2294784;1879103895;130023680;2294784;1879103895;201326608;2392064;1879104902;41952256;9839712;1879104902;
  130023680;2294784;1879104902;201326608;4489216;1879105183;67108864;2097152;1879105183;130023680;2294784;
  1879105537;8192;9839712;1879105537;41952256;9839712;1879105927;41951232;9839712;1879105927;41951488;9839712;
  1879105927;67108864;2097152;1879105927;130023680;2294784;1879105927;201326608;4489216;1879106184;130023680;
  2294784;1879106304;67108864;2097152;1879106697;41951488;9839712;1879106697;41952256;9839712;1879106697;
  109052160;9839936;1879106697;109052160;9839937;1879106697;109069312;9839936;1879106697;130023680;2294784;
  1879106697;130025728;2294784;1879106973;41951488;9839712;1879106973;41952256;9839712;1879106973;67108864;
  2097152;1879106973;67108880;2097152;1879106973;109052160;9839936;1879106973;109069312;9839936;1879106973].
Definition propsVectors_11 : list Z := [
  130023680;2294784;1879106973;201326608;4489216;1879107217;41951488;9839712;1879107217;41952256;9839712;
  1879107217;41968640;9839712;1879107217;109051904;20092928;1879107217;109052160;9839936;1879107217;130023680;
  2294784;1879107328;67109888;2098176;1879107342;130023680;2229248;1879107353;130023680;2229248;1879107353;
  130024704;2229263;1879107667;130023680;2294784;1879108000;41952256;9839712;1879108000;67108864;2097152;
  1879108000;67108864;5242880;1879108000;130023680;2294784;1879108217;41952256;9839712;1879108217;67108864;
  2097152;1879108217;67108864;15728640;1879108217;67108880;4194304;1879108217;130023680;2294784;1879108492;
  41952256;9839712;1879108492;67108864;2097152;1879108492;130023680;2294784;1879108771;41951488;9839712;
  1879108771;41968640;9839712;1879108771;67108864;2097152;1879108771;109051904;20092928;1879108771;109052160;
  9839936;1879108771;130023680;2294784;1879108771;201326608;4489216;1879109013;109051904;20092928;1879109013;
  130023680;2294784;1879109013;201326608;4489216;1879109148;41952512;25568352;1879109148;109051904;20092928;
  1879109148;130023680;25362432;1879109148;130025728;25362432;1879109519;67108864;2097152;1879109519;
  130023680;2294784;1879109774;67108864;2097152;1879109774;130023680;2294784;1879109977;41951488;9839712;
  1879109977;130023680;2294784;1879110144;67108864;2097152;1879110144;67108864;18874368;1879110144;67108864;
  24182784;1879110475;41952256;9839712;1879110475;67108864;2097152;1879110475;67108880;4194304;1879110475;
  109051904;20092928;1879110475;130023680;2294784;1879110475;130025728;2294784;1879110475;201326608;4489216;
  1879110800;67108864;2097152;1879110800;130023680;2294784;1879111077;130023680;2294784;1879111291;67108864;
  2097152;1879111291;67108880;2097152;1879111291;130023680;2294784;1879111846;41951488;9839712;1879111846;
  41952256;9839712;1879111846;41968640;9839712;1879111846;67108864;5242880;1879111846;67108880;11534336;
  1879111846;67110912;2097152;1879111846;109052160;9839936;1879111846;109052160;9839937;1879111846;130023680;
  2294784;1879111846;201326608;4489216;1879111969;67108864;2097152;1879112192;67108864;2097152;1879112606;
  41951488;9839712;1879112606;41952256;9839712;1879112606;41968640;9839712;1879112606;67108864;2097152;
  1879112606;109051904;20092928;1879112606;109052160;9839936;1879112606;109052160;9839937;1879112606;
  130023680;2294784;1879112850;67108864;2097152;1879112850;109051904;20092928;1879112850;130023680;2229248;
  1879112850;130023680;2294784;1879112850;130023680;2425856;1879756032;67108864;887095296;1879756032;67108864;
  3061841920;1879756288;67108864;887095296;1879756544;67108864;887095296;1879756544;67108864;3061841920;
  1884348161;67108864;2097152;1884354309;524288;9537568;1887481750;41952256;9839712;1888542465;41952256;
  9839712;1892738051;41951488;9839712;1892738051;41952256;9839712;1892738051;109052160;9839936;2147488271;
  130023680;2294784;2147489060;130023680;2294784;2147489562;130023680;2294784;2147491846;130023680;2229248;
  2147491846;130023680;2425856;2147494400;67108864;22020096;2147495168;67108864;2097152;2147504648;41952256;
  9839712;2147507200;67108864;2097152;2147513088;603979776;2097152;2147521817;130023680;2229248;2147521817;
  130023680;2294784;2147521817;130023680;2425856;2147522661;130023680;2294784;2147524616;41951488;9839712;
  2147529482;67108864;5242880;2147529482;130023680;2294784;2147536128;67108864;81788928;2147537410;41952512;
  9839712;2147537410;130023680;2294784;2147538573;67108864;2097152;2147539351;41951232;9839712;2147539351;
  41952256;9839712;2147539351;67108864;4194304;2147539351;67108864;5242880;2147539351;130023680;2294784;
  2147539351;201326608;4489216;2147542153;41951488;9839712;2147542153;130023680;2294784;2147542809;130023680;
  2229248;2147547302;41951488;9839712;2147547302;130023680;2294784;2147547302;201326608;4489216;2147548577;
  41951488;25568352;2147548577;41968640;25568352;2147548577;67108864;25165824;2147548577;109051904;20092928;
  2147548577;109052160;25568576;2147548577;130023680;25362432;2147548577;201326608;4489216;2147548828;
  130023680;2294784;2147548828;130023680;8586240;2147548828;130023680;21169152;2147548934;130023680;2229248;
  2147549541;130023680;2294784;2147549858;67108864;2097152;2147549858;130023680;2294784;2147550116;130023680;
  2294784;2147550116;201326608;4489216;2147550284;67108864;2097152;2147550284;130023680;2229248;2147550284;
  130023680;2425856;2147550832;41951232;9839712;2147550832;67108864;2097152;2147550832;67108880;4194304;
  2147550832;201326608;4489216;2148157201;130286336;14876672;2148191488;67108864;887095296;2148191488;
  67108864;2056266848;2148191744;67108864;887095296;2148192000;67108864;887095296;2148204561;130286336;
  14876672;2148205824;67108864;887095296;2148205824;67108864;3061841920;2415924757;130023680;2294784;
  2415925018;67108864;2097152;2415925018;130023680;2294784;2415931392;603979776;2097152;2415951630;67108864;
  2097152;2415952641;41951232;9839712;2415955456;603979776;4194304;2415957273;130023680;2425856;2415960431;
  41951488;9839712].
Definition propsVectors_12 : list Z := [
  2415972864;2147483648;2197856;2415972866;41951232;9839712;2415972866;41951488;9839712;2415972866;130023680;
  2294784;2415977885;41951488;9839712;2415985920;67108864;14680064;2415986599;41951488;9839712;2415986599;
  41952256;9839712;2415986599;41954304;9839712;2415986599;67108864;20971520;2415986599;109051904;20092928;
  2415986599;130023680;2229248;2415986599;130023680;2425856;2415986856;41951488;9839712;2415986856;41968640;
  9839712;2415986856;67108864;2097152;2415986856;67108864;4194304;2415986856;67108880;4194304;2415986856;
  109051904;20092928;2415986856;109052160;9839936;2415986856;130023680;2294784;2415986856;201326608;4489216;
  2415986952;130023680;2229248;2415987256;41951488;9839712;2415987881;41951488;9839712;2415987881;67108864;
  5242880;2415987881;67108880;11534336;2415987881;109052160;9839936;2415987881;130023680;2294784;2415987995;
  67108864;5242880;2415988394;41951488;9839712;2415988394;41952256;9839712;2415988394;41968640;9839712;
  2415988394;67108864;2097152;2415988394;67108864;4194304;2415988394;67108880;4194304;2415988394;109051904;
  20092928;2415988394;109052160;9839936;2415988394;130023680;2294784;2415988394;201326608;4489216;2415988651;
  130023680;2229248;2415988651;130023680;2425856;2416100096;67108864;1048576;2416624640;67108864;14680077;
  2416626944;67108864;887095296;2416626944;67108864;3061841920;2416627456;67108864;887095296;2416641280;
  67108864;887095296;2416641280;67108864;3061841920;2416642970;130025728;19072000;2416644250;130024192;
  14876672;2416644506;130024192;14876672;2420149766;603979776;4194304;2684358660;67108864;2097152;2684358660;
  130023680;2294784;2684359183;41951488;9839712;2684359183;41952256;9839712;2684360474;41951488;9839712;
  2684360474;41968640;9839712;2684365312;67108864;23068672;2684366848;603979776;2097152;2684377118;130023680;
  2294784;2684384000;603979776;2097152;2684388097;41952256;9839712;2684390912;603979776;4194304;2684407552;
  67108864;81788928;2684421376;67108864;2097152;2684425391;41951488;9839712;2684425391;41952256;9839712;
  2684425391;41968640;9839712;2684425391;109051904;20092928;2684425391;130023680;2294784;2684425391;130023680;
  2295136;2684425904;41951488;9839712;2684425904;41953280;9839712;2684425904;41968640;9839712;2684425904;
  67108864;4194304;2684425904;67108864;5242880;2684425904;67108880;4194304;2684425904;109052160;9839936;
  2684425904;130023680;2294784;2684425904;130023680;2295136;2684425904;201326608;4489216;2684426018;130023680;
  2294784;2684426417;41951232;9839712;2684426417;41951488;9839712;2684426417;41968640;9839712;2684426417;
  67108864;2097152;2684426417;67108864;4194304;2684426417;67108864;5242880;2684426417;109052160;9839936;
  2684426417;130023680;2294784;2684426417;130023680;2295136;2684426417;201326608;4489216;2685026309;130023680;
  14877696;2685028113;130286336;14876672;2685060096;67108864;81788928;2685061908;130023680;14876672;
  2685062912;67108864;887095296;2685076736;67108864;887095296;2685076736;67108864;3061841920;2685078422;
  130025728;19072000;2685080081;130286336;14876672;2685080340;130023680;14876672;2685080982;130024192;
  14876672;2688593836;109052928;9839936;2692776877;41952256;9839712;2952792579;130023680;2229248;2952792851;
  130023680;40056832;2952794116;41951232;9839712;2952794384;67108864;2097152;2952795428;41951232;9839712;
  2952795669;67108864;5242880;2952799515;130023680;2294784;2952819456;603979776;2097152;2952825145;67108864;
  2097152;2952825145;130023680;2294784;2952826368;603979776;2097152;2952826368;603979776;4194304;2952826368;
  603979792;4194304;2952827479;41951232;9839712;2952827479;67108864;23068672;2952828185;130023680;2229248;
  2952828185;130023680;2425856;2952829440;67108864;2097152;2952835850;41951488;9839712;2952835850;130023680;
  2294784;2952839544;2147483648;2197856;2952839936;67108864;69206016;2952843778;41951232;9839712;2952844406;
  109052160;9839936;2952844406;130023680;2294784;2952848128;67108864;81788928;2952854945;130023680;25362432;
  2952859306;41951232;9839712;2952861360;130023680;2294784;2952861952;67108864;81788928;2952862386;41951488;
  9839712;2952862386;41952256;9839712;2952862386;41968640;9839712;2952862386;67108864;2097152;2952862386;
  109052160;9839936;2952862386;130023680;2294784;2952862476;130023680;2294784;2952862899;41951488;9839712;
  2952862899;41968640;9839712;2952862899;109051904;20092928;2952862899;109052160;9839936;2952862899;130023680;
  2294784;2952863158;41952512;9839712;2952863158;109051904;20092928;2952863158;130023680;2294784;2952863158;
  130024704;2294784;2952863232;67108864;2097152;2952863232;67108864;22020096;2952863668;41951488;9839712;
  2952863668;109052160;9839936;2952863668;130023680;2294784;2952863668;201326608;2392064;2952863744;67108864;
  2097152;2952864181;67108864;2097152;2952864181;67108880;4194304;2952864181;130023680;2229248;2952864181;
  130023680;2425856;2952864181;201326608;4489216;2952864440;67108864;2097152;2952864440;130023680;2294784;
  2952864695;41952256;9839712;2952864695;67108864;2097152;2952864695;130023680;2294784;2952864695;201326608].
Definition propsVectors_13 : list Z := [
  2392064;2953461765;130023680;14877696;2953463569;130286336;14876672;2953498368;67108864;887095296;
  2953512192;67108864;887095296;2953512192;67108864;1021313024;2953512192;67108864;3061841920;2953515162;
  130024192;14876672;2961237116;41951232;9839712;3221230884;67108864;5242880;3221232152;41968640;25568352;
  3221232152;130023680;25362432;3221254912;603979776;2097152;3221261824;603979792;4194304;3221263641;
  130023680;2229248;3221263641;130023680;2425856;3221275392;67108864;69206031;3221280860;41951488;9839712;
  3221280860;109052160;9839936;3221280860;130023680;2294784;3221281945;130023680;2294784;3221284633;130023680;
  2229248;3221292967;130023680;2294784;3221294762;130023680;2294784;3221296816;130023680;2295136;3221297408;
  67108864;69206016;3221300295;0;8488992;3221300295;0;12683296;3221300295;0;21071904;3221300665;130023680;
  2294784;3221300923;41951488;9839712;3221300923;41968640;9839712;3221300923;67108864;5242880;3221300923;
  109052160;9839936;3221300923;130023680;2294784;3221301178;41952256;9839712;3221301178;67108864;2097152;
  3221301178;109051904;20092928;3221301178;130023680;2294784;3221301178;130025728;2294784;3221301248;67108864;
  2097152;3221302051;67108864;2097152;3221302051;67108864;4194304;3221302051;67108864;22020096;3221302460;
  41952256;9839712;3221302460;67108864;23068672;3221302460;109051904;20092928;3221302460;130023680;2294784;
  3221933824;67108864;887095296;3221938944;67108864;887095296;3221947648;67108864;887095296;3221947648;
  67108864;3061841920;3221949184;67108864;18874368;3221949184;130025728;19072000;3221950618;130024192;
  14876672;3221956884;130023680;38993920;3221956886;130023680;38996992;3221957120;67108864;887095296;
  3225464659;130023680;2294784;3233885054;67108864;2097152;3242869951;67108864;14680077;3489665823;41954304;
  9839712;3489666842;130023680;2294784;3489667105;41951488;9839712;3489690368;603979776;2097152;3489697280;
  603979776;2097152;3489697594;41967616;9839712;3489699097;130023680;2229248;3489699097;130023680;2425856;
  3489703168;67108864;2097152;3489710848;67108864;81788928;3489714690;130023680;2294784;3489715318;130023680;
  2294784;3489716631;41951488;9839712;3489716631;109052160;9839936;3489718273;41951488;9839712;3489720064;
  67109888;2097152;3489720089;130023680;2229248;3489720089;130024704;2294799;3489724928;67108864;81788928;
  3489730218;67108880;4194304;3489730218;130023680;2294784;3489738173;67108864;2097152;3489738173;130023680;
  2294784;3489738686;41951488;9839712;3489738686;41952256;9839712;3489738686;41968640;9839712;3489738686;
  67108864;4194304;3489738686;109051904;20092928;3489738686;109052160;9839936;3489738686;109052160;9839937;
  3489738686;109069312;9839936;3489738686;130023680;2294784;3489738686;130023680;2295136;3489738686;201326608;
  4489216;3489739139;130023680;2294784;3489739264;67108864;2097152;3489739264;109051904;20092933;3489739968;
  41951488;9839712;3489739968;67108866;4194304;3489739968;130023680;2294784;3490333445;130023680;14877696;
  3490334225;130286336;14876672;3490334481;130286336;14876672;3490340369;130286336;14876672;3490369280;
  67108864;887095296;3490383104;67108864;887095296;3490383104;67108864;3061841920;3490384657;109053184;
  9839936;3490384831;41951744;12985440;3490386330;130024192;14876672;3490392576;67108864;887095296;3490393617;
  130286336;14876672;3490394303;130024192;2293760;3490395034;130024192;14876672].
Definition propsVectors_list : list Z := (propsVectors_0 ++ propsVectors_1 ++ propsVectors_2 ++ propsVectors_3 ++ propsVectors_4 ++ propsVectors_5 ++ propsVectors_6 ++ propsVectors_7 ++ propsVectors_8 ++ propsVectors_9 ++ propsVectors_10 ++ propsVectors_11 ++ propsVectors_12 ++ propsVectors_13)%list.
Definition propsVectors_tree : tree := Eval vm_compute in tree_of propsVectors_list.
Definition propsVectors : arr := arr_of_tree 6999 propsVectors_tree.
Lemma propsVectors_is : propsVectors_tree = tree_of propsVectors_list /\ zlen propsVectors_list = 6999.
Proof. split; vm_compute; reflexivity. Qed.

(** CharPropsData.py:3811 *)
Definition propsVectorsColumns : Z := 3.

(** CharPropsData.py:3813-3831 *)
Definition scriptExtensions_0 : list Z := [
  32782;32793;8;32857;8;2;8;32824;8;6;8;32793;2;34;37;182;32960;2;34;32805;2;17;2;34;84;121;123;167;182;32951;
  2;32802;2;37;32960;2;32;2;32950;4;10;15;16;21;25;26;31;35;36;137;151;32926;4;10;15;16;21;25;26;31;35;36;137;
  32926;4;10;15;16;21;26;31;33;35;36;58;137;145;153;158;160;175;178;179;32955;4;10;15;16;21;26;31;33;35;36;48;
  58;137;145;153;158;160;175;178;179;32955;10;120;160;32946;10;105;4;58;32886;4;111;16;32932;16;116;15;32925;
  15;120;35;32905;35;124;21;32955;21;128;28;52;32886;28;132;12;32793;42;43;44;32813;27;32858;32778;4;10;21;
  32905;10;32905;4;32778;10;32919;10;21;26;31;35;32804;10;32955;4;10;21;31;36;137;158;32955;32772;8;32802;25;
  32795;10;25;32905;5;17;18;20;22;32809;5;17;18;20;32790;32785;5;32785;17;20;32790;17;32793;10;15;16;120;145;
  153;157;158;160;163;32946;10;15;16;21;26;120;145;153;157;158;160;163;178;32955;10;15;16;21;120;145;153;157;
  158;160;163;178;32955;10;152;10;32803;10;239;25;28;32847;55;32846;2;32805;2;248;47;49;32851;47;32817;2;
  32775;137;124;32903].
Definition scriptExtensions_list : list Z := (scriptExtensions_0)%list.
Definition scriptExtensions_tree : tree := Eval vm_compute in tree_of scriptExtensions_list.
Definition scriptExtensions : arr := arr_of_tree 262 scriptExtensions_tree.
Lemma scriptExtensions_is : scriptExtensions_tree = tree_of scriptExtensions_list /\ zlen scriptExtensions_list = 262.
Proof. split; vm_compute; reflexivity. Qed.
