(** * The tables of UnicodeData/BidiPropsData.py.

    Written by tools/gen_data.py, which copies the numbers of that file. *)
From Coq Require Import ZArith List.
From Verif Require Import Py Arr.
Import ListNotations.
Open Scope Z_scope.

(** BidiPropsData.py:7 *)
Definition ubidi_props_indexes_list : list Z := [
  16;26604;25088;40;1568;2248;68288;68900;0;0;0;0;0;0;0;6619830].
Definition ubidi_props_indexes : arr := arr_of_list ubidi_props_indexes_list.

(** BidiPropsData.py:9-794 *)
Definition ubidi_props_trieIndex_0 : list Z := [
  892;900;908;916;940;948;956;964;924;932;924;932;924;932;924;932;924;932;924;932;970;978;986;994;1002;1010;
  1006;1014;1022;1030;1025;1033;924;932;924;932;1041;1049;924;932;924;932;924;932;1055;1063;1071;1079;1087;
  1095;1103;1111;1117;1125;1133;1141;1149;1157;1163;1171;1179;1187;1195;1203;1215;1211;1223;1231;1073;1247;
  1254;1239;1262;1264;1272;1280;1288;1289;1297;1305;1313;1289;1321;1326;1313;1289;1334;1342;1288;1350;1358;
  1280;1366;924;1374;1378;1386;1388;1396;1404;1288;1412;1420;1280;1043;1424;1297;1280;1288;924;1432;924;924;
  1438;1446;924;924;1450;1458;924;1462;1469;924;1477;1485;1492;1365;924;924;1500;1508;1516;1524;924;924;924;
  924;924;924;924;924;924;924;924;924;924;924;924;924;924;924;924;924;924;1532;924;1540;924;924;924;1548;924;
  924;924;924;924;924;924;924;924;924;924;924;924;924;924;924;924;924;924;1556;924;924;924;1564;1564;1301;
  1301;924;1570;1578;1540;1600;1586;1586;1608;1615;1592;924;924;924;1623;1631;924;924;924;1633;1641;1649;924;
  1656;1664;924;1672;1387;924;1349;1680;1366;1688;1043;1696;924;1703;924;1708;924;924;924;924;1714;1722;924;
  924;924;924;924;924;1002;1730;924;924;924;924;924;924;924;924;924;924;924;924;924;1738;1746;1750;1774;1780;
  1758;1766;1788;1796;1800;1495;1808;1816;1824;924;1832;1641;1641;1641;1848;1856;1864;1872;1877;1885;1893;
  1840;1901;1909;924;1915;1922;1641;1641;1641;1641;1410;1928;1641;1936;924;924;1638;1641;1641;1641;1641;1641;
  1641;1641;1641;1641;1641;1641;1641;1641;1944;1641;1641;1641;1641;1641;1950;1641;1641;1958;1966;924;924;924;
  924;924;924;924;924;1641;1641;1641;1641;1982;1990;1998;1974;2014;2022;2030;2037;2044;2052;2056;2006;1641;
  1641;1641;2064;2070;1641;1641;2076;924;924;924;924;924;924;924;2084;924;924;924;2092;924;924;924;1002;2100;
  2108;2112;924;2120;1641;1641;1644;1641;1641;1641;1641;1641;1641;2127;2133;2149;2141;924;924;2157;1548;924;
  963;924;924;924;924;924;924;1641;2091;977;924;2165;2173;924;2181;2189;924;924;924;924;2193;924;924;1633;962;
  924;924;924;924;924;924;924;924;924;924;924;924;924;924;924;924;924;924;924;924;924;924;924;924;924;924;924;
  924;924;924;924;924;924;924;924;924;924;924;924;924;924;924;924;924;924;924;924;924;924;924;924;924;924;924;
  924;924;924;924;924;924;924;924;924;924;924;924;924;924;924;924;924;924;924;924;924;924;924;924;924;924;924;
  924;924;924;924;924;924;924;924;924;924;924;924;924;924;924].
Definition ubidi_props_trieIndex_1 : list Z := [
  924;924;924;924;924;924;924;924;924;924;924;924;924;924;924;924;924;924;924;924;924;924;924;924;924;924;924;
  924;924;924;924;924;924;924;924;924;924;924;924;924;924;924;924;924;924;924;924;924;924;924;924;924;924;924;
  924;924;924;924;924;924;924;924;924;924;924;924;924;924;924;924;924;924;924;924;924;924;924;924;924;924;924;
  924;924;924;924;924;924;924;924;924;924;924;924;924;924;924;924;924;924;924;924;924;924;924;924;924;924;924;
  924;924;1641;1641;924;924;924;924;924;924;924;924;924;924;924;924;924;924;924;924;924;924;924;924;924;924;
  924;924;924;924;924;924;924;924;924;924;924;924;924;924;924;924;924;924;924;924;924;924;924;924;924;924;924;
  924;924;924;924;924;924;924;924;924;924;924;924;924;924;924;924;924;924;924;924;924;924;924;924;924;924;924;
  924;924;924;924;924;924;924;924;924;924;924;924;924;924;924;924;924;924;924;924;924;924;924;924;924;924;924;
  924;924;924;924;924;924;924;924;924;924;924;924;924;924;924;924;924;924;924;924;924;924;924;924;924;924;924;
  924;924;924;924;924;924;924;924;924;924;924;924;924;924;924;924;924;924;924;924;924;924;924;924;924;924;924;
  924;924;924;924;924;924;924;924;924;924;924;924;924;924;924;924;924;924;924;924;924;924;924;924;924;924;924;
  924;924;924;924;924;924;924;924;924;924;924;924;924;924;924;924;924;924;924;924;924;924;924;924;924;924;924;
  924;924;924;924;924;924;924;924;924;924;924;924;924;924;924;924;924;924;924;924;924;924;924;924;924;924;924;
  924;924;924;924;924;924;924;924;924;924;924;924;924;924;924;924;924;924;924;924;924;924;924;924;924;924;924;
  924;924;924;924;924;924;924;924;924;924;924;924;924;924;924;924;924;924;924;924;924;924;924;924;924;924;924;
  924;924;924;924;924;924;924;924;924;924;924;924;924;924;924;924;924;924;924;924;924;924;924;924;924;924;924;
  924;924;924;924;924;924;924;924;924;924;924;924;924;924;924;924;924;924;924;924;924;924;924;924;924;924;924;
  924;924;924;924;924;924;924;924;924;924;924;924;924;924;924;924;924;924;924;924;924;924;924;924;924;924;924;
  924;924;924;924;924;924;924;924;924;924;924;924;924;924;924;924;924;924;924;924;924;924;924;924;924;924;924].
Definition ubidi_props_trieIndex_2 : list Z := [
  924;924;924;924;924;924;924;924;924;924;924;924;924;924;924;924;924;924;924;924;924;924;924;924;924;924;924;
  924;924;924;924;924;924;924;924;924;924;924;924;924;924;924;924;924;924;924;924;924;924;924;924;924;924;924;
  924;924;924;924;924;924;924;924;924;924;924;924;924;924;924;924;924;924;924;924;924;924;924;924;924;924;924;
  924;924;924;924;924;924;924;924;924;924;924;924;924;924;924;924;924;924;924;924;924;924;924;924;924;924;924;
  924;924;924;924;924;924;924;924;924;924;924;924;924;924;924;924;924;924;924;924;924;924;924;924;924;924;924;
  924;924;924;924;924;924;924;924;924;924;924;924;924;924;924;924;924;924;924;924;924;924;924;924;924;924;924;
  924;924;924;924;924;924;924;924;924;924;924;924;924;924;924;924;924;924;924;924;924;924;924;924;924;924;924;
  924;924;924;924;924;924;924;924;924;924;924;924;924;924;924;924;924;924;924;924;924;924;924;924;924;924;924;
  924;924;924;924;924;924;924;924;924;924;924;924;924;924;924;924;924;924;924;924;924;924;924;924;924;924;924;
  924;924;924;924;924;924;924;924;924;924;924;924;924;924;924;924;924;924;924;924;924;924;924;924;924;924;924;
  924;924;924;924;924;924;924;924;924;924;924;924;924;924;924;924;924;924;924;924;924;924;2165;1641;1410;924;
  924;924;924;924;924;924;924;924;2200;924;924;2205;1388;924;924;1464;1641;1632;924;924;2213;924;924;924;2221;
  2228;1586;2236;924;924;1422;2244;924;2252;2259;924;1262;2264;924;1287;924;2272;2280;1289;924;2284;1288;2292;
  924;924;924;2298;924;924;924;2305;924;924;924;924;924;924;924;924;924;924;924;924;924;924;924;924;924;924;
  924;924;924;924;924;924;924;924;924;924;924;924;924;924;924;924;924;924;924;924;924;924;924;924;924;924;924;
  924;924;924;924;924;924;924;924;924;924;924;924;924;924;924;924;924;924;924;924;924;924;924;924;924;924;924;
  924;924;924;924;924;924;924;924;924;924;924;924;924;924;924;924;924;924;924;924;924;924;924;924;924;924;924;
  924;924;924;924;924;924;924;924;924;924;924;924;924;924;924;924;924;924;924;924;924;924;924;924;924;924;924;
  924;924;924;924;924;924;924;924;924;924;924;924;924;924;924;924;924;924;924;924;924;924;924;924;924;924;924;
  924;924;924;924;924;924;924].
Definition ubidi_props_trieIndex_3 : list Z := [
  924;924;924;924;924;924;924;924;924;924;924;924;924;924;924;924;924;924;924;924;924;924;924;924;924;924;924;
  924;924;924;924;924;924;924;924;924;924;924;924;924;924;924;924;924;924;924;924;924;924;924;924;924;924;924;
  924;924;924;924;924;924;924;924;924;924;924;924;924;924;924;924;924;924;924;924;924;924;924;924;924;924;924;
  924;924;924;924;924;924;924;924;924;924;924;924;924;924;924;924;924;924;924;924;924;924;924;924;924;924;924;
  924;924;924;924;924;924;924;924;924;924;924;924;924;924;924;924;924;924;924;924;924;924;924;924;924;924;924;
  924;924;924;924;924;924;924;924;924;924;924;924;924;924;924;924;924;924;924;924;924;924;924;924;924;924;924;
  924;924;924;924;924;924;924;924;924;924;924;924;924;924;924;924;924;924;924;924;924;924;924;924;924;924;924;
  924;924;924;924;924;924;924;924;924;924;924;924;924;924;924;924;924;924;924;924;924;924;924;924;924;924;924;
  924;924;924;924;924;924;924;924;924;924;924;924;924;924;924;924;924;924;924;924;924;924;924;924;924;924;924;
  924;924;924;924;924;924;924;924;924;924;924;924;924;924;924;924;924;924;924;924;924;924;924;924;924;924;924;
  924;924;924;924;924;924;924;924;924;924;924;924;924;924;924;924;924;924;924;924;924;924;924;924;924;924;924;
  924;924;924;924;924;924;924;924;924;924;924;924;924;924;924;924;924;924;924;924;924;924;924;924;924;924;924;
  924;924;924;924;924;924;924;924;924;924;924;924;924;924;924;924;924;924;924;924;924;924;924;924;924;924;924;
  924;924;924;924;924;924;924;924;924;924;924;924;924;924;924;924;924;924;924;924;924;924;924;924;924;924;924;
  924;924;924;924;924;924;924;924;924;924;924;924;924;924;924;924;924;924;924;924;924;924;924;924;924;924;924;
  924;924;924;924;924;924;924;924;924;924;924;924;924;924;924;924;924;924;924;924;924;924;924;924;924;924;924;
  924;924;924;924;924;924;924;924;924;924;924;924;924;924;924;924;924;924;924;924;924;924;924;924;924;924;924;
  924;924;924;924;924;924;924;924;924;924;924;924;924;2325;2313;2317;1179;1179;1179;1179;1179;1179;1179;1179;
  1179;1179;1179;1179;1179;1179;2333;1179;1179;1179;1179;2341;2345;2353;2361;2365;2373;1179;1179;1179;2377;
  2385;908;2393;2401;924;924;924;2409].
Definition ubidi_props_trieIndex_4 : list Z := [
  924;924;924;924;924;924;924;924;924;924;924;924;924;924;924;924;924;924;924;924;924;924;924;924;924;924;924;
  924;924;924;924;924;3696;3696;3760;3824;3696;3696;3696;3696;3696;3696;3880;3944;4008;4024;4088;4100;3696;
  3696;4164;3696;3696;3696;4220;4284;4348;4412;4468;4532;4596;4652;4716;4780;2624;2688;2752;2815;416;416;2879;
  416;416;416;416;416;416;2920;416;416;416;416;416;416;416;416;416;2984;416;416;3037;3101;3165;3229;3293;3357;
  416;416;416;416;416;416;416;416;416;416;416;416;416;416;416;416;416;416;416;416;416;416;416;416;416;416;416;
  416;416;416;416;3421;416;416;416;416;416;416;416;416;416;416;416;416;416;416;416;416;416;416;416;416;416;
  416;416;416;416;416;416;416;416;416;416;3421;416;416;416;416;416;416;416;416;416;416;416;416;416;416;416;
  416;416;416;416;416;416;416;416;416;416;416;416;416;416;416;416;3421;416;416;416;416;416;416;416;416;416;
  416;416;416;416;416;416;416;416;416;416;416;416;416;416;416;416;416;416;416;416;416;416;3421;416;416;416;
  416;416;416;416;416;416;416;416;416;416;416;416;416;416;416;416;416;416;416;416;416;416;416;416;416;416;416;
  416;3421;416;416;416;416;416;416;416;416;416;416;416;416;416;416;416;416;416;416;416;416;416;416;416;416;
  416;416;416;416;416;416;416;3421;416;416;416;416;416;416;416;416;416;416;416;416;416;416;416;416;416;416;
  416;416;416;416;416;416;416;416;416;416;416;416;416;3421;416;416;416;416;416;416;416;416;416;416;416;416;
  416;416;416;416;416;416;416;416;416;416;416;416;416;416;416;416;416;416;416;3421;416;416;416;416;416;416;
  416;416;416;416;416;416;416;416;416;416;416;416;416;416;416;416;416;416;416;416;416;416;416;416;416;3421;
  416;416;416;416;416;416;416;416;416;416;416;416;416;416;416;416;416;416;416;416;416;416;416;416;416;416;416;
  416;416;416;416;3421;416;416;416;416;416;416;416;416;416;416;416;416;416;416;416;416;416;416;416;416;416;
  416;416;416;416;416;416;416;416;416;416;3421;416;416;416;416;416;416;416;416;416;416;416;416;416;416;416;
  416;416;416;416;416;416;416;416;416;416;416;416;416;416;416;416;3421;3485;3501;416;416;416;416;416;416;416;
  416;416;416;416;416;416;416;416;416;416;416;416;416;416;416;416;416;416;416;416;416;416;3421].
Definition ubidi_props_trieIndex_5 : list Z := [
  416;416;416;416;416;416;416;416;416;416;416;416;416;416;416;416;416;416;416;416;416;416;416;416;416;416;416;
  416;416;416;416;3421;416;416;416;416;416;416;416;416;416;416;416;416;416;416;416;416;416;416;416;416;416;
  416;416;416;416;416;416;416;416;416;416;3421;924;924;924;924;924;924;924;924;2417;924;1641;1641;2425;1548;
  924;1281;924;924;924;924;924;924;924;2433;924;924;924;2440;924;924;924;924;924;924;924;924;924;924;924;924;
  924;924;924;924;924;924;924;924;924;924;924;924;924;924;924;924;924;924;924;924;924;924;924;924;1073;1073;
  1073;1073;1073;1073;1073;1073;2448;1073;1073;1073;1073;1073;1073;1073;2456;2460;1073;1073;1073;1073;2476;
  2468;1073;2484;1073;1073;2492;2498;1073;1073;1073;1073;1073;1073;1073;1073;1073;1073;2514;2506;1073;1073;
  1073;1073;1073;1073;1073;1073;1073;2522;1073;2530;1073;1073;1073;2534;2541;2547;1073;2551;2559;1073;1288;
  2567;2574;2581;1043;2584;924;924;1262;2591;924;2597;1043;2602;2610;924;924;2615;924;924;924;924;2092;2623;
  1043;1424;1387;2630;924;924;924;924;924;2567;2638;924;924;2646;2654;924;924;924;924;924;924;2658;2666;924;
  924;2674;1387;2682;924;2688;924;924;1532;2696;924;924;924;924;924;924;2701;924;924;924;924;924;924;924;2708;
  2716;924;924;924;2719;1387;2727;2731;2739;924;2746;924;924;924;924;924;924;924;924;924;924;924;924;2753;924;
  924;2767;2761;924;924;924;2775;2783;924;2787;924;924;924;924;924;924;924;924;924;924;1426;924;924;924;924;
  924;924;2800;2795;924;924;924;924;924;924;924;924;924;924;924;924;924;924;924;924;924;924;924;924;924;924;
  924;924;924;924;924;924;924;924;924;924;924;2808;924;924;924;924;924;924;924;924;924;924;924;924;924;924;
  924;924;924;924;924;924;924;924;924;924;924;924;924;924;924;924;2815;924;2821;924;924;924;924;924;924;924;
  924;924;924;924;924;924;924;924;924;924;924;924;924;924;924;924;924;924;924;924;924;924;924;924;924;2598;
  924;2827;924;924;2835;924;924;924;924;924;924;924;924;924;924;924;924;924;924;924;924;924;924;924;924;924;
  924;924;924;924;924;924;924;924;924;924;924;924;924;924;924;1314;2843;924;924;924;924;924;924;924;924;924;
  924;924;924;924;924;924;924;924;924;924;924;924;924;924;924;924;924;2850;2858;2864;924;924;1641;1641;2872;
  924;924;924;924;924;1641;1641;2111;924;924;924;924;924;924;924;924].
Definition ubidi_props_trieIndex_6 : list Z := [
  924;924;924;924;924;924;924;924;924;924;924;924;924;924;924;924;924;924;924;2874;924;2881;924;2877;924;2884;
  924;2892;2896;924;924;924;924;924;924;924;924;924;924;924;924;924;924;924;924;1002;2904;1002;2911;2918;2926;
  924;924;924;924;924;924;924;924;924;924;924;924;924;924;924;924;924;924;924;924;924;924;924;924;924;924;924;
  924;924;924;924;924;924;924;924;924;924;924;924;924;924;924;2934;2942;924;924;924;924;924;924;924;2821;924;
  924;924;924;924;924;924;924;924;924;924;924;924;2947;924;924;924;924;924;924;924;924;924;924;924;924;924;
  924;924;924;924;924;924;924;924;924;924;924;924;924;924;924;924;924;924;924;924;924;924;924;924;924;924;924;
  1073;1073;1073;1073;1073;1073;2955;1073;2963;2963;2970;1073;1073;1073;1073;1073;1073;1073;1073;1073;1073;
  1073;1073;1073;1073;1073;1073;1073;1073;1073;1073;1073;1073;1073;1073;2317;1179;1179;1073;1073;1179;1179;
  2547;1073;1073;1073;1073;1073;1179;1179;1179;1179;1179;1179;1179;2978;1073;1073;1073;1073;1073;1073;1073;
  1073;1641;2986;1641;1641;1644;2991;2995;2127;3003;958;924;3009;924;3014;924;924;924;924;924;1913;924;924;
  924;924;1641;1641;1641;1641;1641;1641;1641;1641;1641;1641;1641;1641;1641;1641;1641;1641;1641;1641;1641;1641;
  1641;1641;1641;1641;1641;1641;1641;1641;1641;1641;1643;2425;1641;1641;1641;1644;1641;1641;3022;1646;2986;
  1641;3030;1641;3038;3043;924;924;1641;1641;1641;3051;1641;1641;1944;1641;1641;1641;1644;3058;3066;3072;3077;
  924;1641;1641;1641;1641;3085;1641;1928;3093;924;924;924;924;924;924;924;924;924;924;924;924;924;924;924;924;
  924;924;924;924;924;924;924;924;924;924;924;924;924;924;924;3100;924;924;924;924;924;924;924;924;924;924;
  924;924;924;924;924;924;924;924;924;924;924;924;924;924;924;924;924;924;924;924;924;924;924;924;924;924;924;
  924;924;924;924;924;924;924;924;924;924;924;924;924;924;924;924;924;924;924;924;924;924;924;924;924;924;
  3100;3116;3108;3108;3108;3117;3117;3117;3117;1002;1002;1002;1002;1002;1002;1002;3125;3117;3117;3117;3117;
  3117;3117;3117;3117;3117;3117;3117;3117;3117;3117;3117;3117;3117;3117;3117;3117;3117;3117;3117;3117;3117;
  3117;3117;3117;3117;3117;3117;3117;3117;3117;3117;3117;3117;3117;3117;3117;3117;3117;3117;3117;3117;3117;
  3117;3117;3117;3117;3117;3117;3117;3117;3117;3117;3117;3117;3117;3117;3117;3117;3117;3117;891;891;891;18;18;
  18;18;18;18;18;18;18;8;7;8;9;7;18;18].
Definition ubidi_props_trieIndex_7 : list Z := [
  18;18;18;18;18;18;18;18;18;18;18;18;7;7;7;8;9;10;10;4;4;4;10;10;12554;61962;10;3;6;3;6;6;2;2;2;2;2;2;2;2;2;
  2;6;10;20490;10;53258;10;10;0;0;0;0;0;0;0;0;0;0;0;0;0;0;0;0;0;0;0;0;0;0;0;0;0;0;20746;10;53770;10;10;10;0;0;
  0;0;0;0;0;0;0;0;0;0;0;0;0;0;0;0;0;0;0;0;0;0;0;0;20746;10;53770;10;18;0;0;0;0;0;0;0;0;0;0;0;0;0;0;0;0;0;0;0;
  0;0;0;0;0;0;0;0;0;0;0;0;0;0;0;0;0;0;0;0;0;0;0;0;0;0;0;0;0;0;0;0;0;0;0;0;0;0;0;0;0;0;0;0;0;18;18;18;18;18;7;
  18;18;18;18;18;18;18;18;18;18;18;18;18;18;18;18;18;18;18;18;18;18;18;18;18;18;6;10;4;4;4;4;10;10;10;10;0;
  36874;10;178;10;10;4;4;2;2;10;0;10;10;10;2;0;36874;10;10;10;10;0;0;0;0;0;0;0;0;0;0;0;0;0;0;0;0;0;0;0;0;0;0;
  0;10;0;0;0;0;0;0;0;0;0;0;0;0;0;0;0;0;0;0;0;0;0;0;0;0;0;0;0;0;0;0;0;10;0;0;0;0;0;0;0;0;0;0;0;0;0;0;0;0;0;0;0;
  0;0;0;0;0;0;0;0;0;0;0;0;0;0;0;0;0;0;0;0;0;0;0;0;0;0;0;0;0;0;0;0;0;0;0;0;0;0;10;10;0;0;0;0;0;0;0;10;10;10;10;
  10;10;10;10;10;10;10;10;10;10;0;0;10;10;10;10;10;10;10;10;10;10;10;10;10;10;0;0;0;0;0;10;10;10;10;10;10;10;
  10;10;0;10;10;10;10;10;10;10;10;10;10;10;10;10;10;10;10;10;177;177;177;177;177;177;177;177;177;177;177;177;
  177;177;177;177;177;177;177;177;177;177;177;177;177;177;177;177;177;177;177;177;177;177;177;177;177;177;177;
  177;177;177;177;177;177;177;177;177;177;177;177;177;177;177;177;177;177;177;177;177;177;177;177;177;0;0;0;0;
  10;10;0;0;0;0;0;0;0;0;10;0;0;0;0;0;10;10;0;10].
Definition ubidi_props_trieIndex_8 : list Z := [
  0;0;0;0;0;0;0;0;0;0;0;0;0;0;0;0;0;0;0;0;0;0;0;0;0;0;0;0;0;0;0;0;0;0;0;0;0;0;0;0;0;0;0;0;0;0;0;0;0;0;0;0;0;0;
  0;0;0;0;10;0;0;0;0;0;0;0;0;0;0;0;0;177;177;177;177;177;177;177;0;0;0;0;0;0;0;0;0;0;0;0;0;0;0;0;0;0;0;0;0;0;
  0;0;0;0;0;0;0;0;0;0;0;0;0;0;0;0;0;0;0;0;0;0;0;0;0;0;0;0;0;0;0;0;0;0;10;0;0;10;10;4;1;177;177;177;177;177;
  177;177;177;177;177;177;177;177;177;177;177;177;177;177;177;177;177;177;177;177;177;177;177;177;177;177;177;
  177;177;177;177;177;177;177;177;177;177;177;177;177;1;177;1;177;177;1;177;177;1;177;1;1;1;1;1;1;1;1;1;1;1;1;
  1;1;1;1;1;1;1;1;1;1;1;1;1;1;1;1;1;1;1;1;1;1;1;1;1;1;1;1;1;1;1;1;1;1;1;1;1;1;1;1;1;1;1;1;5;5;5;5;5;5;10;10;
  13;4;4;13;6;13;10;10;177;177;177;177;177;177;177;177;177;177;177;13;2221;13;13;13;77;13;141;141;141;141;77;
  141;77;141;77;77;77;77;77;141;141;141;141;77;77;77;77;77;77;77;77;77;77;77;77;77;45;77;77;77;77;77;77;77;
  141;77;77;177;177;177;177;177;177;177;177;177;177;177;177;177;177;177;177;177;177;177;177;177;5;5;5;5;5;5;5;
  5;5;5;4;5;5;13;77;77;177;141;141;141;13;141;141;141;77;77;77;77;77;77;77;77;141;141;141;141;141;141;141;141;
  141;141;141;141;141;141;141;141;141;141;77;77;77;77;77;77;77;77;77;77;77;77;77;77;77;77;77;77;77;77;77;77;
  77;77;77;77;77;77;77;77;77;77;77;77;77;77;77;77;141;77;77;141;141;141;141;141;141;141;141;141;77;141;77;141;
  77;77;141;141;13;141;177;177;177;177;177;177;177;5;10;177;177;177;177;177;177;13;13;177;177;10;177;177;177;
  177;141;141;2;2;2;2;2;2;2;2;2;2;77;77;77;13;13;77;13;13;13;13;13;13;13;13;13;13;13;13].
Definition ubidi_props_trieIndex_9 : list Z := [
  13;13;13;173;141;177;77;77;77;141;141;141;141;141;77;77;77;77;141;77;77;77;77;77;77;77;77;77;141;77;141;77;
  141;77;77;141;177;177;177;177;177;177;177;177;177;177;177;177;177;177;177;177;177;177;177;13;13;141;77;77;
  77;77;77;77;77;77;77;77;77;141;141;141;77;77;77;77;77;77;77;77;77;77;77;77;77;77;77;141;141;77;77;77;77;141;
  77;141;141;77;77;77;141;141;77;77;77;77;77;77;13;13;13;13;13;13;13;13;13;13;13;13;13;13;13;13;13;13;13;13;
  13;13;13;13;13;13;13;13;13;13;13;13;13;13;13;13;13;13;177;177;177;177;177;177;177;177;177;177;177;13;13;13;
  13;13;13;13;13;13;13;13;13;13;13;13;1;1;1;1;1;1;1;1;1;1;65;65;65;65;65;65;65;65;65;65;65;65;65;65;65;65;65;
  65;65;65;65;65;65;65;65;65;65;65;65;65;65;65;65;177;177;177;177;177;177;177;177;177;1;1;10;10;10;10;33;1;1;
  177;1;1;177;177;177;177;1;177;177;177;1;177;177;177;177;177;1;1;1;1;1;1;1;1;1;1;1;1;1;1;1;1;1;1;1;1;1;1;1;1;
  177;177;177;177;1;177;177;177;177;177;129;65;65;65;65;65;129;129;65;129;65;65;65;65;65;65;65;65;65;65;129;
  65;129;129;129;177;177;177;1;1;1;1;77;13;77;77;77;77;13;141;77;141;141;13;13;13;13;13;1;1;1;1;1;1;1;1;1;1;1;
  1;1;1;1;1;177;177;5;177;177;177;177;177;177;177;177;177;177;177;177;177;177;177;177;177;177;177;177;177;177;
  177;177;177;177;177;177;177;77;77;77;77;77;77;77;77;77;77;141;141;141;13;141;77;77;141;141;77;77;13;77;77;
  77;141;77;77;77;77;77;77;77;77;77;77;13;13;13;13;13;13;13;13;13;13;13;177;177;177;177;177;177;177;177;177;
  177;177;177;177;177;177;177;0;0;0;0;0;0;0;0;0;0;0;0;0;0;0;0;0;0;0;0;0;0;0;0;0;0;0;0;0;0;0;177;0;177;0;0;0;0;
  177;177;177;177;177;177;177;177;0;0;0;0;177;0;0;0;177;177;177;177;177;177;177;0;0;0;0;0;0;0;0].
Definition ubidi_props_trieIndex_10 : list Z := [
  0;0;177;177;0;0;0;0;0;0;0;0;0;0;0;0;0;0;0;0;0;0;0;0;0;0;0;0;0;0;0;0;0;177;0;0;0;0;0;0;0;0;0;0;0;0;0;0;0;0;0;
  0;0;0;0;0;0;0;0;0;0;0;0;0;177;0;0;0;0;177;177;177;177;0;0;0;0;0;0;0;0;177;0;0;0;0;0;0;0;0;0;0;0;0;0;0;0;0;0;
  0;0;0;177;177;0;0;0;0;0;0;0;0;0;0;0;0;0;0;4;4;0;0;0;0;0;0;0;4;0;0;177;0;0;177;177;0;0;0;0;0;0;0;0;0;0;0;0;0;
  0;0;0;0;0;0;0;0;0;0;0;0;0;0;0;0;0;177;177;0;0;0;0;177;177;0;0;177;177;177;0;0;0;177;0;0;0;0;0;0;0;0;0;0;0;0;
  0;0;0;0;0;0;177;177;0;0;0;177;0;0;0;0;0;0;0;0;0;0;0;177;177;177;177;177;0;177;177;0;0;0;0;177;0;0;0;0;0;0;0;
  0;0;0;0;0;0;0;0;0;0;0;0;0;177;177;0;0;0;0;0;0;0;0;0;0;0;0;0;4;0;0;0;0;0;0;0;0;177;177;177;177;177;177;0;0;0;
  0;0;0;0;0;0;0;0;0;0;0;0;0;0;0;0;0;0;0;0;0;0;0;0;0;177;0;0;177;0;177;177;177;177;0;0;0;0;0;0;0;0;177;0;0;0;0;
  0;0;0;177;177;0;0;0;0;0;0;0;0;0;0;0;177;0;0;0;0;0;0;0;0;0;0;0;0;0;0;0;0;0;0;0;0;0;0;0;0;0;0;0;0;0;177;0;0;0;
  0;0;0;0;0;0;0;0;0;177;0;0;0;0;0;0;0;0;0;0;0;0;0;0;0;0;0;0;0;0;0;10;10;10;10;10;10;4;10;0;0;0;0;0;177;0;0;0;
  177;0;0;0;0;0;0;0;0;0;0;0;0;0;0;0;0;0;0;0;0;0;0;0;0;0;0;0;0;0;0;0;0;0;177;177;177;0;0;0;0;0;177;177;177;0;
  177;177;177;177;0;0;0;0;0;0;0;177;177;0;0;0;0;0;0;0;0;0;0;0;177;177;0;0;0;0;0;0;0;0;0;0;0;0].
Definition ubidi_props_trieIndex_11 : list Z := [
  0;0;0;0;0;0;0;0;10;10;10;10;10;10;10;0;0;0;0;0;0;0;0;0;0;0;0;0;0;0;0;0;0;0;0;0;0;0;0;0;0;0;0;0;177;0;0;160;
  0;0;0;0;0;0;160;0;0;0;0;0;177;177;0;0;0;0;0;0;0;0;0;0;0;0;0;0;0;0;0;0;0;0;0;0;0;0;0;0;0;0;0;177;177;0;0;0;0;
  0;0;0;0;0;0;0;0;0;177;0;0;0;0;0;0;0;177;177;177;0;177;0;0;0;0;0;0;0;0;0;0;0;0;0;0;0;0;0;0;177;0;0;177;177;
  177;177;177;177;177;0;0;0;0;4;0;0;0;0;0;0;0;177;177;177;177;177;177;177;177;0;0;0;0;0;0;0;0;0;0;0;0;0;0;0;0;
  0;0;177;0;0;177;177;177;177;177;177;177;177;177;0;0;0;0;0;0;0;0;0;0;0;177;177;177;177;177;177;0;0;0;0;0;0;0;
  0;0;0;0;0;0;0;0;0;0;0;0;0;0;0;0;0;0;0;177;177;0;0;0;0;0;0;0;0;0;0;0;0;0;0;0;0;0;0;0;0;0;0;0;177;0;177;0;177;
  12554;61962;12554;61962;0;0;0;0;0;0;0;0;0;0;0;0;0;0;0;0;0;0;0;177;177;177;177;177;177;177;177;177;177;177;
  177;177;177;0;177;177;177;177;177;0;177;177;0;0;0;0;0;177;177;177;177;177;177;177;177;177;177;177;0;177;177;
  177;177;177;177;177;177;177;177;177;177;177;177;177;177;177;177;177;177;177;177;177;177;177;177;177;177;177;
  177;177;177;0;0;0;0;0;0;0;0;0;0;0;0;0;0;0;0;177;177;177;177;0;177;177;177;177;177;177;0;177;177;0;0;177;177;
  0;0;0;0;0;0;0;0;0;0;0;0;0;0;0;0;0;0;0;0;0;0;0;0;0;177;177;0;0;0;0;177;177;177;0;0;0;0;0;0;0;0;0;0;0;0;0;0;0;
  0;177;177;177;177;0;0;0;0;0;0;0;0;0;0;0;0;0;177;0;0;177;177;0;0;0;0;0;0;177;0;0;0;0;0;0;0;0;0;0;0;0;0;0;0;
  177;0;0;0;0;0;0;0;0;0;0;0;0;0;0;0;0;0;0].
Definition ubidi_props_trieIndex_12 : list Z := [
  0;0;0;0;0;0;0;0;0;0;0;0;0;177;177;177;0;0;0;0;0;0;0;0;0;0;0;0;0;0;0;0;10;10;10;10;10;10;10;10;10;10;0;0;0;0;
  0;0;10;0;0;0;0;0;0;0;0;0;0;0;0;0;0;0;0;0;0;0;0;0;0;0;0;0;0;0;0;0;0;0;9;0;0;0;0;0;0;0;0;0;0;0;0;0;0;0;0;0;0;
  0;0;0;0;0;0;0;0;12554;61962;0;0;0;0;0;0;0;0;0;0;0;0;0;0;0;0;0;0;0;0;0;177;177;177;0;0;0;0;0;0;0;0;0;0;0;0;0;
  0;0;0;0;0;0;0;0;0;0;177;177;0;177;177;177;177;177;177;177;0;0;0;0;0;0;0;0;177;0;0;177;177;177;177;177;177;
  177;177;177;177;177;0;0;0;0;0;0;0;4;0;177;0;0;64;64;64;64;64;64;64;64;64;64;64;64;64;64;64;64;64;64;64;64;
  64;64;64;64;64;64;64;64;64;64;64;64;64;177;64;0;0;0;0;0;0;0;0;0;0;0;0;0;0;0;0;0;0;0;0;0;10;10;10;10;10;10;
  10;74;10;10;42;177;177;177;18;0;0;0;0;0;0;0;0;0;0;0;0;0;0;0;0;0;64;64;64;64;64;64;64;64;64;64;64;64;64;64;
  64;64;64;64;64;64;64;64;64;64;64;0;0;0;0;0;0;0;0;177;177;64;64;64;64;64;64;64;64;64;64;64;64;64;64;64;64;64;
  64;64;64;64;64;64;64;64;177;177;177;0;0;0;0;177;177;0;0;0;0;0;0;0;0;0;177;0;0;0;0;0;0;177;177;177;0;0;0;0;
  10;0;0;0;10;10;0;0;0;0;0;0;0;0;0;0;0;0;0;0;0;0;0;0;0;0;0;0;0;0;0;0;0;0;0;0;0;0;10;10;10;10;10;10;10;10;10;
  10;10;10;10;10;10;10;10;10;10;10;10;10;10;10;10;10;10;10;10;10;10;10;10;10;0;0;0;0;0;0;0;0;0;0;0;0;0;0;0;0;
  0;0;0;0;0;0;0;177;177;0;0;177;0;0;0;0;0;0;0;0;0;0;0;0;0;0;0;0;0;0;0;0;0;0;177;0;177;177;177;177;177;177;177;
  0].
Definition ubidi_props_trieIndex_13 : list Z := [
  177;0;177;0;0;177;177;177;177;177;177;177;177;0;0;0;0;0;0;177;177;177;177;177;177;177;177;177;177;0;0;177;0;
  0;0;0;0;0;0;0;0;0;0;0;0;0;0;0;177;177;177;177;177;177;177;177;177;177;177;177;177;177;177;177;0;0;0;0;0;0;0;
  0;0;0;0;0;0;0;0;0;0;0;0;0;177;0;177;177;177;177;177;0;177;0;0;0;0;0;0;0;0;0;0;0;0;0;0;177;177;177;177;177;
  177;177;177;177;0;0;0;0;0;0;0;0;0;0;0;0;0;0;177;177;177;177;0;0;177;177;0;177;177;177;0;0;0;0;0;0;0;0;0;0;0;
  0;0;0;0;0;0;0;0;0;177;0;177;177;0;0;0;177;0;177;177;177;0;0;0;0;0;0;0;0;0;0;0;0;0;0;177;177;177;177;177;177;
  177;177;0;0;177;177;0;0;0;0;0;0;0;0;0;0;0;0;0;0;0;0;177;177;177;0;177;177;177;177;177;177;177;177;177;177;
  177;177;177;0;177;177;177;177;177;177;177;0;0;0;0;177;0;0;0;0;0;0;177;0;0;0;177;177;0;0;0;0;0;0;177;177;177;
  177;177;177;177;177;177;177;177;177;177;177;177;177;177;177;177;177;177;177;177;177;177;177;0;177;177;177;
  177;177;0;0;0;0;0;0;0;0;0;0;0;0;0;0;0;0;0;0;0;0;0;0;0;0;0;0;0;0;0;10;0;10;10;10;0;0;0;0;0;0;0;0;0;0;0;10;10;
  10;0;0;0;0;0;0;0;0;0;0;0;0;0;10;10;10;0;0;0;0;0;0;0;0;0;0;0;0;0;10;10;0;10;10;10;10;6;12554;61962;10;10;10;
  10;10;10;10;10;10;10;10;10;10;10;10;10;10;10;10;10;10;10;10;10;9;178;178;178;178;178;18;2068;2069;2067;2070;
  178;178;178;178;178;178;2;0;0;0;2;2;2;2;2;2;3;3;10;12554;61962;0;9;9;9;9;9;9;9;9;9;9;9;178;1042;1074;2208;
  2209;10;10;10;10;10;10;10;10;10;10;10;10;10;10;10;10;9;7;2219;2222;2224;2220;2223;6;4;4;4;4;4;10;10;10;10;
  12298;61450;10;10;10;10;10;2;2;2;2;2;2;2;2;2;2;3;3;10;12554;61962;0].
Definition ubidi_props_trieIndex_14 : list Z := [
  0;0;0;0;0;0;0;0;0;0;0;0;0;0;0;0;4;4;4;4;4;4;4;4;4;4;4;4;4;4;4;4;4;4;4;4;4;4;4;4;4;4;4;4;4;4;4;4;177;177;177;
  177;177;177;177;177;177;177;177;177;177;177;177;177;10;10;0;10;10;10;10;0;10;10;0;0;0;0;0;0;0;0;0;0;10;0;10;
  10;10;0;0;0;0;0;10;10;10;10;10;10;0;10;0;10;0;10;0;0;0;0;4;0;0;0;0;0;0;0;0;0;0;0;10;10;0;0;0;0;4106;10;10;
  10;10;0;0;0;0;0;10;10;10;10;0;0;10;10;10;10;10;10;10;10;10;10;10;10;10;10;10;10;0;0;0;0;0;0;0;0;0;10;10;10;
  0;0;0;0;10;10;10;10;10;10;10;10;10;10;10;10;10;10;10;10;12298;61450;12298;61450;12298;61450;12298;61450;
  12298;61450;12298;61450;12298;61450;10;10;12298;61450;36874;36874;36874;4106;36874;36874;4106;4106;36874;
  36874;36874;36874;36874;4106;10;4106;4106;4106;4106;10;10;10;28682;28682;28682;45066;45066;45066;10;10;10;
  4106;3;4;10;36874;4106;10;10;10;4106;4106;4106;4106;10;36874;36874;36874;36874;10;36874;10;4106;10;10;10;10;
  4106;4106;4106;4106;4106;4106;4106;4106;4106;10;10;10;10;10;4106;10;4106;12298;61450;4106;4106;4106;4106;
  4106;36874;4106;36874;4106;4106;4106;4106;4106;4106;36874;10;10;10;10;10;12298;61450;12298;61450;10;10;10;
  10;10;10;10;10;10;4106;4106;10;4106;10;12298;61450;12298;61450;12298;61450;12298;61450;10;10;12298;61450;
  12298;61450;12298;61450;12298;61450;12298;61450;12298;61450;12298;61450;12298;61450;12298;61450;4106;10;10;
  12298;61450;12298;61450;10;10;10;10;10;36874;10;10;10;10;10;10;10;10;10;12298;61450;10;10;36874;4106;36874;
  36874;4106;36874;4106;4106;4106;4106;12298;61450;12298;61450;12298;61450;12298;61450;36874;10;10;10;10;10;
  4106;4106;10;10;10;10;10;10;10;10;10;12298;61450;12298;61450;36874;10;10;12298;61450;10;10;10;10;12298;
  61450;12298;61450;12298;61450;12298;61450;12298;61450;10;10;10;10;10;10;10;10;12554;61962;12554;61962;10;10;
  10;10;10;10;10;10;10;10;10;10;10;10;10;10;10;10;10;10;4106;4106;10;10;10;10;10;10;10;12554;61962;10;10;10;
  10;10;10;10;10;10;10;10;0;0;0;0;0;0;0;0;0;0;0;0;0;0;0;0;0;0;0;0;0;0].
Definition ubidi_props_trieIndex_15 : list Z := [
  0;0;0;0;0;0;0;10;10;10;10;10;10;10;10;10;10;10;10;10;10;10;10;10;10;10;10;10;10;0;10;10;10;10;10;10;10;10;
  10;10;10;10;10;0;0;0;0;0;0;0;0;0;0;0;0;0;0;0;0;0;0;0;0;0;10;10;10;10;10;10;10;10;2;2;2;2;2;2;2;2;2;2;2;2;2;
  2;2;2;2;2;2;2;0;0;0;0;10;10;10;10;10;10;10;10;10;10;10;10;0;10;10;10;10;10;10;10;10;10;10;10;10;10;10;10;10;
  10;10;10;12554;61962;12554;61962;12554;61962;12554;61962;12554;61962;12554;61962;12554;61962;10;10;10;10;10;
  10;10;10;10;10;4106;10;10;12298;61450;12554;61962;10;12298;61450;10;20490;4106;53258;10;10;10;10;10;4106;
  4106;12298;61450;10;10;10;10;10;36874;12298;61450;10;10;10;12298;61450;12298;61450;12554;61962;12554;61962;
  12554;61962;12554;61962;12554;61962;10;10;10;10;10;10;10;10;10;10;10;10;10;10;10;10;10;4106;10;4106;4106;
  4106;10;10;12298;61450;10;10;10;10;10;10;10;10;10;10;4106;36874;4106;4106;12298;61450;10;10;12554;61962;10;
  10;10;10;10;12554;61962;12554;61962;12554;61962;12554;61962;12554;61962;28938;12810;61706;45578;12554;61962;
  12554;61962;12554;61962;12554;61962;10;10;36874;4106;4106;4106;4106;36874;10;4106;36874;12298;61450;4106;
  4106;12298;61450;12298;61450;12298;61450;12298;61450;10;10;10;10;10;10;10;10;36874;10;10;10;10;10;10;10;
  12298;61450;4106;4106;12298;61450;10;10;10;4106;10;10;10;10;4106;12298;61450;12298;61450;10;12298;61450;10;
  10;12554;61962;12554;61962;4106;10;10;10;10;10;4106;36874;36874;36874;4106;10;10;10;10;10;12298;61450;36874;
  10;10;10;10;4106;10;10;10;12298;61450;12298;61450;4106;10;4106;10;10;10;10;10;10;10;10;10;10;10;10;4106;
  4106;4106;4106;4106;4106;4106;4106;4106;4106;4106;4106;4106;4106;4106;4106;4106;4106;4106;10;4106;4106;4106;
  4106;10;10;4106;10;4106;10;10;4106;10;12298;61450;12298;61450;10;10;10;10;10;12298;61450;10;10;10;10;10;10;
  12298;61450;4106;10;10;10;10;10;10;10;10;10;10;10;10;10;10;10;10;10;10;10;10;10;10;10;10;4106;4106;10;10;10;
  10;10;10;10;12298;61450;10;10;10;10;4106;4106;4106;4106;10;4106;4106;10;10;4106;4106;10;10;10;10;12298;
  61450;12298;61450;12298;61450;12298;61450;12298;61450;12298;61450;12298;61450;12298;61450;12298;61450;12298].
Definition ubidi_props_trieIndex_16 : list Z := [
  61450;12298;61450;12298;61450;12298;61450;12298;61450;12298;61450;12298;61450;12298;61450;12298;61450;12298;
  61450;4106;10;10;12298;61450;12298;61450;12298;61450;12298;61450;10;12298;61450;12298;61450;12298;61450;
  12298;61450;12298;61450;12298;61450;12298;61450;12298;61450;12298;61450;12298;61450;12298;61450;12298;61450;
  10;10;10;10;10;4106;10;36874;10;10;10;10;10;10;10;10;10;10;10;10;10;10;10;10;10;10;10;10;10;0;0;10;10;10;10;
  10;10;10;10;10;10;10;10;10;10;10;10;10;10;10;10;10;10;10;10;0;10;10;10;10;10;10;10;10;10;10;10;10;10;10;10;
  10;10;10;10;10;10;10;10;10;10;10;10;10;10;10;10;36874;10;0;0;0;0;0;10;10;10;10;10;10;0;0;0;0;177;177;177;0;
  0;0;0;0;0;0;10;10;10;10;10;10;10;0;0;0;0;0;0;0;0;0;0;0;0;0;0;0;0;0;0;0;0;0;0;0;0;0;0;0;0;0;0;0;177;10;10;
  12298;61450;12298;61450;10;10;10;12298;61450;10;12298;61450;10;10;10;10;10;10;10;10;10;10;10;10;10;10;12298;
  61450;10;10;12298;61450;12554;61962;12554;61962;12554;61962;12554;61962;10;10;10;10;10;10;10;10;10;10;10;10;
  10;10;10;10;10;10;10;10;10;10;10;10;10;0;0;0;0;0;0;0;0;0;0;0;0;0;10;10;10;10;10;10;10;10;10;10;10;10;10;10;
  10;10;10;10;10;10;10;10;10;10;10;10;0;10;10;10;10;10;10;10;10;10;10;10;10;10;10;10;10;10;10;10;10;10;10;10;
  0;0;0;0;0;0;0;0;0;0;0;0;0;0;0;0;0;0;10;10;10;10;10;10;10;10;10;10;10;10;0;0;0;0;10;0;0;0;0;0;0;0;0;0;177;
  177;177;177;0;0;10;0;0;0;0;0;10;10;0;0;0;0;0;10;10;10;9;10;10;10;10;0;0;0;12554;61962;12554;61962;12554;
  61962;12554;61962;12554;61962;10;10;12554;61962;12554;61962;12554;61962;12554;61962;10;10;10;10;0;0;0;0;0;0;
  0;0;0;0;0;0;0;0;0;0;0;0;0;0;0;0;0;0;0;177;177;10;10;0;0;0;0;0;0;0;0;0;0;0;0;0;0;0;0;0;0;0;10;10;10;10;10;10;
  10;10;10;10;10;10;10;10;10;10;0;0;0;0;0;0;0;0;0;0;0;0].
Definition ubidi_props_trieIndex_17 : list Z := [
  0;0;0;0;0;0;0;0;0;0;0;0;0;0;0;0;10;10;10;0;0;0;0;0;0;0;0;0;0;0;0;0;0;0;0;0;0;10;10;10;10;10;10;10;10;10;10;
  10;10;10;10;10;0;0;0;0;0;0;0;0;0;0;0;0;10;10;10;10;0;0;0;0;0;0;0;0;0;0;0;0;0;0;0;0;0;0;0;0;0;0;0;10;10;10;
  10;0;0;0;0;0;0;0;0;0;0;0;0;0;0;10;10;10;0;0;0;0;0;0;0;0;0;0;0;0;0;0;0;0;0;0;0;177;177;177;177;10;177;177;
  177;177;177;177;177;177;177;177;10;10;0;0;0;0;0;0;0;0;10;0;0;0;0;0;0;0;0;0;0;0;0;0;0;0;0;0;0;0;0;0;0;0;0;0;
  177;0;0;0;177;0;0;0;0;177;0;0;0;0;0;0;0;0;0;0;0;0;0;0;0;0;0;0;0;0;0;177;177;0;10;10;10;10;177;0;0;0;0;0;0;0;
  0;0;0;0;4;4;0;0;0;0;0;0;64;64;64;64;64;64;64;64;64;64;64;64;64;64;64;64;64;64;96;0;10;10;10;10;0;0;0;0;0;0;
  0;0;177;177;177;177;177;177;177;177;177;177;177;177;177;177;177;177;177;177;0;0;0;0;0;0;0;0;0;0;0;0;0;177;0;
  0;0;0;0;0;177;177;177;177;177;177;177;177;0;0;0;0;0;0;0;0;0;0;0;0;0;0;0;0;0;0;0;0;0;177;177;177;177;177;177;
  177;177;177;177;177;0;0;0;0;0;0;0;0;0;0;0;0;0;0;0;0;0;0;0;0;0;177;0;0;177;177;177;177;0;0;177;177;0;0;0;0;0;
  0;0;0;0;0;0;177;177;177;177;177;177;0;0;177;177;0;0;177;177;0;0;0;0;0;0;0;0;0;0;0;0;177;0;0;0;0;0;0;0;0;177;
  0;0;0;0;0;0;0;0;0;0;0;0;0;0;0;0;0;0;0;177;0;177;177;177;0;0;177;177;0;0;0;0;0;177;177;0;0;0;0;0;0;0;0;0;0;0;
  0;177;177;0;0;0;0;0;0;0;0;177;0;0;0;0;0;0;0;0;0;0;0;10;10;0;0;0;0;0;0;0;0;0;0;0;0].
Definition ubidi_props_trieIndex_18 : list Z := [
  0;0;0;0;0;0;0;0;0;177;0;0;177;0;0;0;0;177;0;0;0;0;0;0;0;0;0;0;0;0;0;0;0;0;0;0;1;1;1;1;1;1;1;1;1;3;1;1;1;1;1;
  1;1;1;1;1;1;1;1;1;1;1;1;1;1;1;1;1;13;13;13;13;13;13;13;13;13;13;13;13;13;13;13;13;0;0;0;0;0;0;0;0;0;0;0;0;0;
  0;0;0;0;0;0;0;0;0;0;0;0;0;0;0;0;1;177;1;13;13;13;13;13;13;13;13;13;13;13;13;13;13;13;13;13;13;13;13;13;13;
  13;13;13;13;13;13;13;13;10;10;13;13;13;13;13;13;13;13;13;13;13;13;13;13;13;13;18;18;18;18;18;18;18;18;18;18;
  18;18;18;18;18;18;13;13;13;13;13;13;13;13;13;13;13;13;13;10;13;13;177;177;177;177;177;177;177;177;177;177;
  177;177;177;177;177;177;10;10;10;10;10;10;10;10;10;10;0;0;0;0;0;0;177;177;177;177;177;177;177;177;177;177;
  177;177;177;177;177;177;10;10;10;10;10;10;10;10;10;10;10;10;10;10;10;10;6;10;6;0;10;6;10;10;10;12554;61962;
  12554;61962;12554;61962;4;10;10;3;3;12298;61450;10;0;10;4;4;10;0;0;0;0;13;13;13;13;13;13;13;13;13;13;13;13;
  13;13;13;13;13;13;13;13;13;13;13;13;13;13;13;13;13;13;13;178;0;10;10;4;4;4;10;10;12554;61962;10;3;6;3;6;6;2;
  2;2;2;2;2;2;2;2;2;6;10;20490;10;53258;10;10;0;0;0;0;0;0;0;0;0;0;0;0;0;0;0;0;0;0;0;0;0;0;0;0;0;0;20746;10;
  53770;10;12554;61962;10;12554;61962;10;10;0;0;0;0;0;0;0;0;0;0;0;0;0;0;0;0;0;0;0;0;0;0;0;0;0;0;4;4;10;10;10;
  4;4;0;10;10;10;10;10;10;10;0;18;18;18;18;18;18;18;18;18;170;170;170;10;10;18;18;0;10;0;0;0;0;0;0;0;0;0;0;0;
  0;0;0;0;0;0;0;0;0;0;0;0;0;0;0;0;0;0;0;10;10;10;10;10;10;10;10;10;10;10;10;10;0;0;0;10;10;10;10;10;10;10;10;
  10;10;10;10].
Definition ubidi_props_trieIndex_19 : list Z := [
  10;0;0;0;177;2;2;2;2;2;2;2;2;2;2;2;2;2;2;2;2;2;2;2;2;2;2;2;2;2;2;2;0;0;0;0;0;0;0;0;0;0;0;0;0;0;0;0;0;0;0;0;
  0;0;177;177;177;177;177;0;0;0;0;0;1;1;1;1;1;1;1;1;1;1;1;1;1;1;1;1;1;1;1;1;1;1;1;1;1;1;1;1;1;1;1;10;1;177;
  177;177;1;177;177;1;1;1;1;1;177;177;177;177;1;1;1;1;1;1;1;1;1;1;1;1;1;1;1;1;1;1;1;1;1;1;1;1;177;177;177;1;1;
  1;1;177;65;129;1;1;129;177;177;1;1;1;1;65;65;65;65;129;1;1;1;1;1;1;1;1;1;1;1;1;1;1;1;1;65;65;65;65;65;129;1;
  129;1;129;129;1;1;97;129;129;129;129;129;65;65;65;65;97;65;65;65;65;65;129;65;65;1;1;1;1;1;1;1;1;1;1;1;1;1;
  1;1;1;1;1;1;1;1;1;1;1;1;10;10;10;10;10;10;10;65;129;65;129;129;129;65;65;65;129;65;65;129;65;129;129;65;129;
  1;1;1;1;1;1;1;1;1;1;1;1;1;1;1;129;129;129;129;65;65;1;1;1;1;1;1;1;1;1;1;1;1;1;1;1;1;1;77;77;141;77;177;177;
  177;177;13;13;13;13;13;13;13;13;5;5;5;5;5;5;5;5;5;5;13;13;13;13;13;13;109;77;77;77;77;77;77;77;77;77;77;77;
  77;77;77;77;77;77;77;77;77;77;77;77;77;77;77;77;77;77;77;77;5;5;5;5;5;5;5;5;5;5;5;5;5;5;5;5;5;5;5;5;5;5;5;5;
  5;5;5;5;5;5;5;1;1;1;1;1;1;1;1;1;1;1;1;177;177;1;1;1;1;1;1;1;1;1;1;1;1;1;1;1;1;1;1;1;77;77;77;141;77;77;77;
  77;77;77;77;77;77;77;77;77;77;13;177;177;177;177;177;177;177;177;177;177;177;77;77;77;141;13;13;13;13;13;13;
  13;13;13;13;13;13;13;13;13;13;13;13;13;1;1;1;1;1;1;1;1;1;1;1;1;1;1;1;1;65;1;65;65;129;129;129;1;65;129;129;
  65;65;129;65;65;1;65;129;129].
Definition ubidi_props_trieIndex_20 : list Z := [
  65;1;1;1;1;129;65;97;1;1;1;1;1;1;1;1;1;1;1;1;1;1;1;1;1;1;1;1;0;0;0;0;0;0;0;0;0;0;0;0;0;0;0;0;0;0;0;0;0;0;0;
  0;177;177;177;177;177;177;177;177;177;177;177;0;0;0;0;0;0;0;0;0;0;0;10;10;10;10;10;10;10;10;10;10;10;10;10;
  10;10;10;0;0;0;0;0;0;0;0;0;0;0;0;0;0;0;0;0;0;0;0;0;0;0;0;0;177;177;177;177;0;0;177;177;0;0;0;0;0;0;0;0;177;
  177;177;177;177;0;177;177;177;177;177;177;177;177;0;0;0;0;0;0;0;0;0;0;0;0;0;0;0;0;0;0;0;0;0;0;177;0;0;0;0;0;
  0;0;0;0;0;0;0;0;0;0;0;0;0;0;0;0;0;177;177;177;177;177;177;177;177;177;0;0;0;0;0;0;0;0;0;0;177;177;177;177;0;
  0;177;0;0;0;0;0;0;0;0;0;0;0;0;0;0;0;0;0;0;0;177;177;177;0;0;177;0;177;177;0;0;0;0;0;0;177;0;0;0;0;177;177;
  177;177;177;177;177;177;0;0;0;0;0;0;0;0;0;0;0;0;0;0;0;0;0;0;0;0;0;0;0;177;177;177;177;177;177;177;0;0;0;177;
  177;177;177;177;0;0;0;0;0;0;0;0;0;0;0;0;0;177;177;177;0;177;0;0;0;0;0;0;0;0;0;0;0;0;0;0;0;0;0;0;0;0;0;0;0;
  177;0;0;0;0;0;0;0;0;0;0;0;0;0;0;0;0;0;0;0;0;177;177;177;177;177;177;0;177;0;0;0;0;177;177;0;177;177;0;0;0;0;
  0;0;0;0;0;0;0;0;0;0;0;0;0;0;0;0;0;0;0;0;0;0;0;0;0;0;177;177;177;177;0;0;0;0;0;0;177;177;0;177;177;0;0;0;0;0;
  0;0;0;0;0;0;0;0;0;0;0;0;0;0;0;0;0;0;0;0;0;0;177;177;0;0;0;0;0;0;0;0;0;0;0;0;0;0;0;0;0;0;0;0;0;177;177;177;
  177;177;177;177;177;0;0;177;0;177;10;10;10;10;10;10;10;10;10;10;10;10;10;0;0;0;0;0;0;0;0;0;0;0].
Definition ubidi_props_trieIndex_21 : list Z := [
  0;0;0;0;0;0;0;0;0;0;0;177;0;177;0;0;177;177;177;177;177;177;0;177;0;0;0;0;0;0;0;0;0;0;177;177;177;177;0;177;
  177;177;177;177;0;0;0;0;0;0;0;0;0;0;0;0;0;0;0;0;0;0;0;0;0;0;0;177;177;177;177;177;177;177;177;177;0;177;177;
  0;0;0;0;0;0;0;0;0;0;0;0;0;0;0;0;0;0;0;0;0;0;0;0;0;0;0;0;177;177;0;177;0;0;0;0;177;0;0;0;0;0;0;0;0;0;0;0;0;0;
  0;0;0;0;0;0;0;0;0;0;0;0;0;0;0;177;177;177;177;0;0;177;177;0;0;0;0;0;177;177;177;177;177;177;160;160;177;177;
  0;0;0;0;0;0;0;0;0;0;0;0;0;0;0;0;0;0;0;0;0;0;0;0;177;177;177;177;177;177;0;0;177;177;177;177;0;0;0;0;0;0;0;0;
  177;0;0;0;0;0;0;0;0;0;177;177;177;177;177;177;0;0;177;177;177;0;0;0;0;0;0;0;0;0;0;177;177;177;177;177;177;
  177;177;177;177;177;177;177;0;177;177;0;0;0;0;0;0;0;0;0;0;0;0;0;0;0;0;0;0;177;177;177;177;177;177;177;0;177;
  177;177;177;177;177;0;160;177;177;177;177;177;177;177;177;0;0;177;177;177;177;177;177;177;0;177;177;0;177;
  177;0;0;0;0;0;0;0;0;0;0;0;0;0;0;0;0;0;0;0;177;177;177;177;177;177;177;177;177;177;177;177;177;177;0;0;0;0;0;
  0;0;0;0;0;0;0;0;0;0;0;0;177;177;177;177;177;177;0;0;0;177;0;177;177;0;177;177;177;177;177;177;177;0;177;0;0;
  0;0;0;0;0;0;0;0;0;0;0;0;0;0;0;0;0;0;0;0;0;0;177;177;0;0;0;177;0;177;0;0;0;0;0;0;0;0;4;10;10;10;10;10;10;10;
  10;10;10;10;10;10;10;10;10;10;0;0;0;0;0;0;0;0;0;0;0;0;0;0;0;0;0;0;0;0;0;0;0;10;10;10;10;10;10;10;10;4;4;4;0;
  0;0;0;0;0;0;0;0;0;0;0;0;0;0;0;160;160;160;160;160;160;160;160;160;0;0;0;0;0;0;0].
Definition ubidi_props_trieIndex_22 : list Z := [
  0;0;0;0;0;0;0;0;0;0;0;0;177;177;177;177;177;0;0;0;0;0;0;0;0;0;0;0;0;0;0;0;0;0;0;0;177;177;177;177;177;177;
  177;0;0;0;0;0;0;0;0;0;0;0;0;0;0;0;0;177;177;177;177;0;0;0;0;0;0;0;0;0;0;0;0;0;0;0;10;0;177;0;0;0;0;0;0;0;0;
  0;0;0;0;0;0;0;0;0;0;0;0;0;0;0;0;0;0;0;178;178;178;178;0;0;0;0;0;0;0;0;0;0;0;0;0;0;0;0;0;0;0;0;0;0;0;0;0;0;0;
  0;0;0;0;177;177;177;0;0;0;0;0;0;0;0;0;178;178;178;178;178;178;178;178;177;177;177;177;177;177;177;177;0;0;
  177;177;177;177;177;177;177;0;0;0;0;0;0;0;0;0;0;0;0;0;0;0;0;0;0;0;0;0;0;177;177;177;177;0;0;0;0;0;0;0;0;0;0;
  0;0;0;0;0;0;0;0;10;10;177;177;177;10;0;0;0;0;0;0;0;0;0;0;0;0;0;0;0;0;0;0;0;0;0;0;0;0;0;0;0;0;0;4106;0;0;0;0;
  0;0;0;0;0;0;0;0;0;0;0;0;0;0;0;0;0;4106;0;0;0;0;0;0;0;0;0;0;0;0;0;0;0;0;0;0;0;0;0;0;0;0;0;4106;0;0;0;0;0;0;0;
  0;0;0;2;2;2;2;2;2;2;2;2;2;2;2;2;2;2;2;2;2;2;2;2;2;2;2;2;2;2;2;2;2;2;2;2;2;177;177;177;177;177;177;177;177;
  177;177;177;177;177;177;177;177;177;177;177;177;177;177;177;0;0;0;0;177;177;177;177;177;177;177;177;177;177;
  177;177;177;177;0;0;0;0;0;0;0;0;177;0;0;0;0;0;0;0;0;0;0;177;0;0;0;0;0;0;0;0;0;0;0;0;0;0;0;0;0;0;0;0;0;0;177;
  177;177;177;177;0;177;177;177;177;177;177;177;177;177;177;177;177;177;177;177;0;0;0;0;0;0;0;0;0;0;0;0;0;0;0;
  0;177;177;177;177;177;177;177;0;177;177;177;177;177;177;177;177;177;177;177;177;177;177;177;177;177;0;0;177;
  177;177;177;177;177;177;0;177;177;0;177;177].
Definition ubidi_props_trieIndex_23 : list Z := [
  177;177;177;0;0;0;0;0;0;0;0;0;0;0;0;0;0;0;0;0;0;0;0;0;177;177;177;177;0;0;0;0;0;0;0;0;0;0;0;0;0;0;0;4;1;1;1;
  1;1;1;1;1;1;1;1;1;1;1;1;1;177;177;177;177;177;177;177;1;1;1;1;1;1;1;1;1;65;65;65;65;65;65;65;65;65;65;65;65;
  65;65;65;65;65;65;65;65;65;65;65;65;65;65;65;65;65;65;65;65;177;177;177;177;177;177;177;161;1;1;1;1;1;1;1;1;
  1;1;1;1;1;1;1;1;1;1;1;1;13;13;13;13;13;13;13;13;13;13;13;13;13;13;13;13;10;10;13;13;13;13;13;13;13;13;13;13;
  13;13;13;13;10;10;10;10;10;10;10;10;10;10;10;10;0;0;0;0;10;10;10;10;10;10;10;10;10;10;10;10;10;10;10;10;10;
  10;10;0;0;10;10;10;10;10;10;10;10;10;10;10;10;10;10;10;0;10;10;10;10;10;10;10;10;10;10;10;10;10;10;10;2;2;2;
  2;2;2;2;2;2;2;2;10;10;10;10;10;0;0;0;0;0;0;0;0;0;0;0;0;0;0;0;0;0;0;10;10;10;10;10;10;0;0;0;0;0;0;0;0;0;0;0;
  0;0;0;0;0;0;10;0;0;0;0;0;0;0;0;0;0;0;0;0;0;0;0;0;0;10;10;10;10;10;10;10;10;10;10;10;10;10;10;10;10;10;10;10;
  10;10;10;10;10;10;0;0;0;0;0;0;0;10;10;10;10;10;10;10;10;0;0;0;0;0;0;0;0;10;10;10;10;10;10;10;10;10;10;0;0;0;
  0;0;0;10;10;10;10;10;10;10;10;0;0;0;0;0;0;0;0;10;10;10;10;10;10;10;10;10;10;10;10;10;10;10;10;10;10;0;0;10;
  10;0;0;0;0;0;0;0;0;0;0;0;0;0;0;10;10;10;10;10;10;10;10;10;10;10;10;10;10;10;10;10;10;10;10;10;10;10;10;10;0;
  10;10;10;10;10;10;10;10;10;10;10;10;10;10;10;10;0;0;10;10;10;10;10;0;0;0;10;10;10;0;0;0;0;0;10;10;10;10;10;
  10;10;0;0;0;0;0;0;0;0;0;10;10;10;10;10;10;10;10].
Definition ubidi_props_trieIndex_24 : list Z := [
  10;10;10;10;10;10;10;10;10;0;0;0;0;0;0;0;10;10;10;10;10;10;10;0;0;0;0;0;0;0;0;0;0;0;0;0;10;10;10;10;10;10;
  10;0;0;0;0;0;0;0;0;0;10;10;10;10;10;10;10;10;10;10;10;10;10;10;10;10;10;10;10;0;10;10;10;10;10;10;10;10;10;
  10;10;10;0;0;0;0;0;0;0;0;0;0;0;0;0;0;0;0;2;2;2;2;2;2;2;2;2;2;0;0;0;0;0;0;0;0;0;0;0;0;0;0;0;0;0;0;0;0;0;0;0;
  0;0;0;0;0;0;0;0;0;18;18;178;178;178;178;178;178;178;178;178;178;178;178;178;178;178;178;178;178;178;178;178;
  178;178;178;178;178;178;178;178;178;178;178;18;178;18;18;18;18;18;18;18;18;18;18;18;18;18;18;18;18;18;18;18;
  18;18;18;18;18;18;18;18;18;18;18;18;18;18;18;177;177;177;177;177;177;177;177;177;177;177;177;177;177;177;
  177;18;18;18;18;18;18;18;18;18;18;18;18;18;18;18;18;0;0;0;0].
Definition ubidi_props_trieIndex_list : list Z := (ubidi_props_trieIndex_0 ++ ubidi_props_trieIndex_1 ++ ubidi_props_trieIndex_2 ++ ubidi_props_trieIndex_3 ++ ubidi_props_trieIndex_4 ++ ubidi_props_trieIndex_5 ++ ubidi_props_trieIndex_6 ++ ubidi_props_trieIndex_7 ++ ubidi_props_trieIndex_8 ++ ubidi_props_trieIndex_9 ++ ubidi_props_trieIndex_10 ++ ubidi_props_trieIndex_11 ++ ubidi_props_trieIndex_12 ++ ubidi_props_trieIndex_13 ++ ubidi_props_trieIndex_14 ++ ubidi_props_trieIndex_15 ++ ubidi_props_trieIndex_16 ++ ubidi_props_trieIndex_17 ++ ubidi_props_trieIndex_18 ++ ubidi_props_trieIndex_19 ++ ubidi_props_trieIndex_20 ++ ubidi_props_trieIndex_21 ++ ubidi_props_trieIndex_22 ++ ubidi_props_trieIndex_23 ++ ubidi_props_trieIndex_24)%list.
Definition ubidi_props_trieIndex_tree : tree := Eval vm_compute in tree_of ubidi_props_trieIndex_list.
Definition ubidi_props_trieIndex : arr := arr_of_tree 12536 ubidi_props_trieIndex_tree.
Lemma ubidi_props_trieIndex_is : ubidi_props_trieIndex_tree = tree_of ubidi_props_trieIndex_list /\ zlen ubidi_props_trieIndex_list = 12536.
Proof. split; vm_compute; reflexivity. Qed.

(** BidiPropsData.py:796-800 *)
Definition ubidi_props_mirrors_list : list Z := [
  2097323;187;69214741;81797663;65020448;60826145;62923298;79700516;35660355;20980293;18883148;67117720;
  71312038;75506344;73409193;77603499;58729144;16786125;48243442;50340595;52437748;54534902;56632055;37757690;
  39854843;41951996;44049149;46146302;33564636;10496411;12593568;8399267;23079352;4205045;25176798;29371107;
  27273956;31468261;14691054;6302718].
Definition ubidi_props_mirrors : arr := arr_of_list ubidi_props_mirrors_list.

(** BidiPropsData.py:802-846 *)
Definition ubidi_props_jgArray_0 : list Z := [
  45;0;3;3;44;3;45;3;4;42;4;4;13;13;13;6;6;31;31;35;35;33;33;40;40;1;1;11;11;55;55;55;0;9;29;19;22;24;26;16;
  44;45;45;0;0;0;0;0;0;0;0;0;0;0;0;0;0;0;0;0;0;0;0;0;0;0;0;0;0;0;0;0;0;0;0;0;0;0;4;29;0;3;3;3;0;3;44;44;45;4;
  4;4;4;4;4;4;4;13;13;13;13;13;13;13;6;6;6;6;6;6;6;6;6;31;31;31;31;31;31;31;31;31;35;35;35;33;33;40;1;9;9;9;9;
  9;9;29;29;11;38;11;19;19;19;11;11;11;11;11;11;22;22;22;22;26;26;26;26;56;21;13;42;17;17;14;44;44;44;44;44;
  44;44;44;55;47;55;44;45;45;46;46;0;42;0;0;0;0;0;0;0;0;0;0;0;0;0;0;0;0;0;0;0;0;0;0;0;0;6;31;0;0;0;0;0;0;0;0;
  0;0;35;33;1;0;0;21;0;0;0;0;0;0;0;0;0;0;0;0;0;0;0;0;2;0;5;12;12;7;7;15;39;50;18;43;43;48;49;20;23;25;27;36;
  10;8;28;32;34;30;7;37;41;5;12;7;0;0;0;0;0;0;0;0;0;0;0;0;0;0;0;0;0;0;0;0;0;0;0;0;0;0;0;0;0;53;52;51;4;4;4;4;
  4;4;4;13;13;6;6;31;35;1;1;1;9;9;11;11;11;24;24;26;26;26;22;31;31;35;13;13;35;31;13;3;3;55;55;45;44;44;54;54;
  13;35;35;19;0;0;0;0;0;0;0;0;0;0;0;0;0;0;0;0;0;0;0;0;0;0;0;0;0;0;0;0;0;0;0;0;0;0;0;0;0;0;0;0;0;0;0;0;0;0;0;0;
  0;0;0;0;0;0;0;0;0;0;0;0;0;0;0;0;0;0;0;0;0;0;0;0;0;0;0;0;0;0;0;0;0;0;0;0;0;0;0;0;0;0;0;0;0;0;0;0;0;0;0;0;0;0;
  0;0;0;0;0;0;0;0;0;0;0;0;0;0;0;0;0;0;0;0;0;0;0;0;0;0;0;0;0;0;0;0;0;0;0;0;0;0;0;0;0;0;0;0;0;0;0;0;0;0;0;0;0;0;
  0;0;0;0].
Definition ubidi_props_jgArray_1 : list Z := [
  0;0;0;0;0;0;0;0;0;0;0;0;0;0;0;0;0;0;0;0;0;0;0;0;0;0;0;0;0;0;0;0;0;0;0;0;0;0;0;0;0;0;0;0;0;0;0;0;0;0;0;0;0;0;
  0;0;0;0;0;0;0;0;0;0;93;90;96;99;94;95;89;97;91;92;98;0;0;0;0;0;0;0;0;0;0;0;0;0;0;0;0;0;0;0;0;0;0;0;0;0;0;0;
  0;0;0;0;0;0;0;0;0;0;0;0;0;0;0;0;0;0;0;0;0;0;0;0;0;0;4;4;13;40;9;29;22;24;45;45;31;44;57;0;6;33;11;85;31;1;
  19;0;4;4;4;31;45;86;88;87;4;4;4;13;11;1;88;13;13;22].
Definition ubidi_props_jgArray_list : list Z := (ubidi_props_jgArray_0 ++ ubidi_props_jgArray_1)%list.
Definition ubidi_props_jgArray_tree : tree := Eval vm_compute in tree_of ubidi_props_jgArray_list.
Definition ubidi_props_jgArray : arr := arr_of_tree 680 ubidi_props_jgArray_tree.
Lemma ubidi_props_jgArray_is : ubidi_props_jgArray_tree = tree_of ubidi_props_jgArray_list /\ zlen ubidi_props_jgArray_list = 680.
Proof. split; vm_compute; reflexivity. Qed.

(** BidiPropsData.py:848-888 *)
Definition ubidi_props_jgArray2_0 : list Z := [
  58;60;60;64;64;61;0;82;0;84;84;0;0;65;79;83;67;67;67;68;62;80;69;70;76;59;59;72;72;75;73;73;73;74;0;0;77;0;
  0;0;0;0;0;71;63;78;81;66;0;0;0;0;0;0;0;0;0;0;0;0;0;0;0;0;0;0;0;0;0;0;0;0;0;0;0;0;0;0;0;0;0;0;0;0;0;0;0;0;0;
  0;0;0;0;0;0;0;0;0;0;0;0;0;0;0;0;0;0;0;0;0;0;0;0;0;0;0;0;0;0;0;0;0;0;0;0;0;0;0;0;0;0;0;0;0;0;0;0;0;0;0;0;0;0;
  0;0;0;0;0;0;0;0;0;0;0;0;0;0;0;0;0;0;0;0;0;0;0;0;0;0;0;0;0;0;0;0;0;0;0;0;0;0;0;0;0;0;0;0;0;0;0;0;0;0;0;0;0;0;
  0;0;0;0;0;0;0;0;0;0;0;0;0;0;0;0;0;0;0;0;0;0;0;0;0;0;0;0;0;0;0;0;0;0;0;0;0;0;0;0;0;0;0;0;0;0;0;0;0;0;0;0;0;0;
  0;0;0;0;0;0;0;0;0;0;0;0;0;0;0;0;0;0;0;0;0;0;0;0;0;0;0;0;0;0;0;0;0;0;0;0;0;0;0;0;0;0;0;0;0;0;0;0;0;0;0;0;0;0;
  0;0;0;0;0;0;0;0;0;0;0;0;0;0;0;0;0;0;0;0;0;0;0;0;0;0;0;0;0;0;0;0;0;0;0;0;0;0;0;0;0;0;0;0;0;0;0;0;0;0;0;0;0;0;
  0;0;0;0;0;0;0;0;0;0;0;0;0;0;0;0;0;0;0;0;0;0;0;0;0;0;0;0;0;0;0;0;0;0;0;0;0;0;0;0;0;0;0;0;0;0;0;0;0;0;0;0;0;0;
  0;0;0;0;0;0;0;0;0;0;0;0;0;0;0;0;0;0;0;0;0;0;0;0;0;0;0;0;0;0;0;0;0;0;0;0;0;0;0;0;0;0;0;0;0;0;0;0;0;0;0;0;0;0;
  0;0;0;0;0;0;0;0;0;0;0;0;0;0;0;0;0;0;0;0;0;0;0;0;0;0;0;0;0;0;0;0;0;0;0;0;0;0;0;0;0;0;0;0;0].
Definition ubidi_props_jgArray2_1 : list Z := [
  0;0;0;0;0;0;0;0;0;0;0;0;0;0;0;0;0;0;0;0;0;0;0;0;0;0;0;0;0;0;0;0;0;0;0;0;0;0;0;0;0;0;0;0;0;0;0;0;0;0;0;0;0;0;
  0;0;0;0;0;0;0;0;0;0;0;0;101;0;0;0;0;0;0;101;0;0;0;0;0;0;0;0;0;0;0;0;0;0;0;100;0;0;101;0;100;0;100;0;0;100].
Definition ubidi_props_jgArray2_list : list Z := (ubidi_props_jgArray2_0 ++ ubidi_props_jgArray2_1)%list.
Definition ubidi_props_jgArray2_tree : tree := Eval vm_compute in tree_of ubidi_props_jgArray2_list.
Definition ubidi_props_jgArray2 : arr := arr_of_tree 612 ubidi_props_jgArray2_tree.
Lemma ubidi_props_jgArray2_is : ubidi_props_jgArray2_tree = tree_of ubidi_props_jgArray2_list /\ zlen ubidi_props_jgArray2_list = 612.
Proof. split; vm_compute; reflexivity. Qed.

(** BidiPropsData.py:890 *)
Definition ubidi_props_trie_index_length : Z := 3568.

(** BidiPropsData.py:891 *)
Definition ubidi_props_trie_index_2_null_offset : Z := 416.

(** BidiPropsData.py:892 *)
Definition ubidi_props_trie_data_null_offset : Z := 3696.

(** BidiPropsData.py:893 *)
Definition ubidi_props_trie_high_start : Z := 1114112.

(** BidiPropsData.py:894 *)
Definition ubidi_props_trie_high_value_index : Z := 12532.
