(** * The tables of UnicodeData/CasePropsData.py.

    Written by tools/gen_data.py, which copies the numbers of that file. *)
From Coq Require Import ZArith List.
From Verif Require Import Py Arr.
Import ListNotations.
Open Scope Z_scope.

(** CasePropsData.py:7 *)
Definition ucase_props_indexes_list : list Z := [
  16;28866;24728;1667;370;0;0;0;0;0;0;0;0;0;0;3].
Definition ucase_props_indexes : arr := arr_of_list ucase_props_indexes_list.

(** CasePropsData.py:9-783 *)
Definition ucase_props_trieIndex_0 : list Z := [
  822;830;838;846;860;868;876;884;892;900;907;915;923;931;939;947;953;961;969;977;985;993;1001;1009;1017;1025;
  1033;1041;1049;1057;1065;1073;1081;1089;1097;1105;1113;1121;1129;1137;1133;1141;1146;1154;1161;1169;1177;
  1185;1193;1201;1209;1217;853;861;1222;1230;1235;1243;1251;1259;1258;1266;1271;1279;1287;1294;1298;853;853;
  853;1305;1313;1321;1323;1331;1339;1343;1344;1352;1360;1368;1344;1376;1381;1368;1344;1389;1397;1343;1405;
  1413;1421;1429;853;1437;853;1445;1260;1453;1421;1343;1405;1460;1421;1468;1470;1352;1421;1343;853;1478;853;
  853;1484;1491;853;853;1495;1503;853;1507;1514;853;1521;1529;1536;1544;853;853;1549;1557;1565;1573;1581;1588;
  1596;853;853;853;853;853;853;853;853;853;853;853;853;853;853;853;853;853;853;1604;853;853;1620;1620;1612;
  853;853;853;853;853;853;853;853;853;853;853;853;853;853;853;853;853;853;853;853;853;853;853;853;1628;1628;
  1356;1356;853;1634;1642;853;1650;853;1658;853;1665;1671;853;853;853;1679;853;853;853;853;853;853;1686;853;
  1693;1701;853;1709;1717;853;1404;1720;1728;1734;1468;1742;853;1749;853;1754;853;1760;1768;1772;1780;1788;
  1796;1801;1804;1812;1828;1820;1844;1836;892;1852;892;1860;1863;892;1871;892;1879;1887;1895;1903;1911;1919;
  1927;1935;1943;1950;853;1958;1966;853;1974;1982;1990;1998;2006;2014;2022;853;853;853;853;853;853;853;853;
  853;853;853;853;853;853;853;853;853;853;853;853;853;853;853;853;2025;2031;2037;853;853;853;853;853;853;853;
  853;853;853;853;853;853;853;853;853;853;853;853;853;853;853;853;853;853;853;853;853;853;853;853;853;853;853;
  853;853;853;853;853;853;853;853;853;853;853;853;853;853;853;853;853;853;853;853;853;853;2045;2050;2054;2062;
  892;892;892;2070;2078;2085;853;2090;853;853;853;2098;853;1655;853;853;853;853;853;853;853;853;853;853;853;
  853;853;853;1342;2106;853;853;2113;853;853;2121;853;853;853;853;853;853;853;853;853;853;853;853;853;853;853;
  853;853;853;853;853;853;853;853;853;853;853;853;853;853;853;853;853;853;853;853;853;853;853;853;853;853;853;
  853;853;853;853;853;853;853;853;853;853;853;853;853;853;853;853;853;853;853;853;853;853;853;853;853;853;853;
  853;853;853;853;853;853;853;853;853;853;853;853;853;853;853;853;853;853;853;853;853;853;853;853;853;853;853;
  853;853;853;853;853;853;853;853;853;853;853;853;853;853;853;853;853;853;853;853;853;853;853;853].
Definition ucase_props_trieIndex_1 : list Z := [
  853;853;853;853;853;853;853;853;853;853;853;853;853;853;853;853;853;853;853;853;853;853;853;853;853;853;853;
  853;853;853;853;853;853;853;853;853;853;853;853;853;853;853;853;853;853;853;853;853;853;853;853;853;853;853;
  853;853;853;853;853;853;853;853;853;853;853;853;853;853;853;853;853;853;853;853;853;853;853;853;853;853;853;
  853;853;853;853;853;853;853;853;853;853;853;853;853;853;853;853;853;853;853;853;853;853;853;853;853;853;853;
  853;853;853;853;853;853;853;853;853;853;853;853;853;853;853;853;853;853;853;853;853;853;853;853;853;853;853;
  853;853;853;853;853;853;853;853;853;853;853;853;853;853;853;853;853;853;853;853;853;853;853;853;853;853;853;
  853;853;853;853;853;853;853;853;853;853;853;853;853;853;853;853;853;853;853;853;853;853;853;853;853;853;853;
  853;853;853;853;853;853;853;853;853;853;853;853;853;853;853;853;853;853;853;853;853;853;853;853;853;853;853;
  853;853;853;853;853;853;853;853;853;853;853;853;853;853;853;853;853;853;853;853;853;853;853;853;853;853;853;
  853;853;853;853;853;853;853;853;853;853;853;853;853;853;853;853;853;853;853;853;853;853;853;853;853;853;853;
  853;853;853;853;853;853;853;853;853;853;853;853;853;853;853;853;853;853;853;853;853;853;853;853;853;853;853;
  853;853;853;853;853;853;853;853;853;853;853;853;853;853;853;853;853;853;853;853;853;853;853;853;853;853;853;
  853;853;853;853;853;853;853;853;853;853;853;853;853;853;853;853;853;853;853;853;853;853;853;853;853;853;853;
  853;853;853;853;853;853;853;853;853;853;853;853;853;853;853;853;853;853;853;853;853;853;853;853;853;853;853;
  853;853;853;853;853;853;853;853;853;853;853;853;853;853;853;853;853;853;853;853;853;853;853;853;853;853;853;
  853;853;853;853;853;853;853;853;853;853;853;853;853;853;853;853;853;853;853;853;853;853;853;853;853;853;853;
  853;853;853;853;853;853;853;853;853;853;853;853;853;853;853;853;853;853;853;853;853;853;853;853;853;853;853;
  853;853;853;853;853;853;853;853;853;853;853;853;853;853;853;853;853;853;853;853;853;853;853;853;853;853;853;
  853;853;853;853;853;853;853;853;853;853;853;853;853;853;853;853;853;853;853;853;853;853;853;853;853;853].
Definition ucase_props_trieIndex_2 : list Z := [
  853;853;853;853;853;853;853;853;853;853;853;853;853;853;853;853;853;853;853;853;853;853;853;853;853;853;853;
  853;853;853;853;853;853;853;853;853;853;853;853;853;853;853;853;853;853;853;853;853;853;853;853;853;853;853;
  853;853;853;853;853;853;853;853;853;853;853;853;853;853;853;853;853;853;853;853;853;853;853;853;853;853;853;
  853;853;853;853;853;853;853;853;853;853;853;853;853;853;853;853;853;853;853;853;853;853;853;853;853;853;853;
  853;853;853;853;853;853;853;853;853;853;853;853;853;853;853;853;853;853;853;853;853;853;853;853;853;853;853;
  853;853;853;853;853;853;853;853;853;853;853;853;853;853;853;853;853;853;853;853;853;853;853;853;853;853;853;
  853;853;853;853;853;853;853;853;853;853;853;853;853;853;853;853;853;853;853;853;853;853;853;853;853;853;853;
  853;853;853;853;853;853;853;853;853;853;853;853;853;853;853;853;853;853;853;853;853;853;853;853;853;853;853;
  853;853;853;853;853;853;853;853;853;853;853;853;853;853;853;853;853;853;853;853;853;853;853;853;853;853;853;
  853;853;853;853;853;853;853;853;853;853;853;853;853;2129;853;853;853;853;853;853;853;853;853;853;853;853;
  853;853;853;853;853;853;853;853;853;853;853;853;853;853;853;853;853;853;853;853;853;853;853;853;853;853;
  1760;853;853;853;853;853;853;853;853;2135;853;2143;2148;2156;853;853;2164;2172;2180;892;2185;2193;2199;2207;
  2210;2218;2225;853;853;853;853;2232;2240;853;2248;2255;853;1321;2260;2268;1665;853;2274;2282;2286;853;2294;
  2302;2310;853;2316;2320;2328;2344;2336;853;2352;853;853;853;853;853;853;853;853;853;853;853;853;853;853;853;
  853;853;853;853;853;853;853;853;853;853;853;853;853;853;853;853;853;853;853;853;853;853;853;853;853;853;853;
  853;853;853;853;853;853;853;853;853;853;853;853;853;853;853;853;853;853;853;853;853;853;853;853;853;853;853;
  853;853;853;853;853;853;853;853;853;853;853;853;853;853;853;853;853;853;853;853;853;853;853;853;853;853;853;
  853;853;853;853;853;853;853;853;853;853;853;853;853;853;853;853;853;853;853;853;853;853;853;853;853;853;853;
  853;853;853;853;853;853;853;853;853;853;853;853;853;853;853;853;853;853;853;853;853;853;853;853;853;853;853;
  853;853;853;853;853;853;853;853;853;853].
Definition ucase_props_trieIndex_3 : list Z := [
  853;853;853;853;853;853;853;853;853;853;853;853;853;853;853;853;853;853;853;853;853;853;853;853;853;853;853;
  853;853;853;853;853;853;853;853;853;853;853;853;853;853;853;853;853;853;853;853;853;853;853;853;853;853;853;
  853;853;853;853;853;853;853;853;853;853;853;853;853;853;853;853;853;853;853;853;853;853;853;853;853;853;853;
  853;853;853;853;853;853;853;853;853;853;853;853;853;853;853;853;853;853;853;853;853;853;853;853;853;853;853;
  853;853;853;853;853;853;853;853;853;853;853;853;853;853;853;853;853;853;853;853;853;853;853;853;853;853;853;
  853;853;853;853;853;853;853;853;853;853;853;853;853;853;853;853;853;853;853;853;853;853;853;853;853;853;853;
  853;853;853;853;853;853;853;853;853;853;853;853;853;853;853;853;853;853;853;853;853;853;853;853;853;853;853;
  853;853;853;853;853;853;853;853;853;853;853;853;853;853;853;853;853;853;853;853;853;853;853;853;853;853;853;
  853;853;853;853;853;853;853;853;853;853;853;853;853;853;853;853;853;853;853;853;853;853;853;853;853;853;853;
  853;853;853;853;853;853;853;853;853;853;853;853;853;853;853;853;853;853;853;853;853;853;853;853;853;853;853;
  853;853;853;853;853;853;853;853;853;853;853;853;853;853;853;853;853;853;853;853;853;853;853;853;853;853;853;
  853;853;853;853;853;853;853;853;853;853;853;853;853;853;853;853;853;853;853;853;853;853;853;853;853;853;853;
  853;853;853;853;853;853;853;853;853;853;853;853;853;853;853;853;853;853;853;853;853;853;853;853;853;853;853;
  853;853;853;853;853;853;853;853;853;853;853;853;853;853;853;853;853;853;853;853;853;853;853;853;853;853;853;
  853;853;853;853;853;853;853;853;853;853;853;853;853;853;853;853;853;853;853;853;853;853;853;853;853;853;853;
  853;853;853;853;853;853;853;853;853;853;853;853;853;853;853;853;853;853;853;853;853;853;853;853;853;853;853;
  853;853;853;853;853;853;853;853;853;853;853;853;853;853;853;853;853;853;853;853;853;853;853;853;853;853;853;
  853;853;853;853;853;853;853;853;853;853;853;853;853;2360;853;853;853;853;2368;1468;853;853;853;853;853;853;
  853;853;853;853;853;853;853;853;853;853;853;2373;2381;2385;853;853;853;853;824;830;2393;2401;2408;1260;853;
  853;2416].
Definition ucase_props_trieIndex_4 : list Z := [
  853;853;853;853;853;853;853;853;853;853;853;853;853;853;853;853;853;853;853;853;853;853;853;853;853;853;853;
  853;853;853;853;853;3416;3416;3440;3504;3568;3628;3692;3756;3812;3876;3940;4004;4068;4132;4196;4260;4324;
  4388;4452;4516;4532;4584;4644;4708;4772;4836;3412;4888;4940;5004;5032;5084;2529;2577;2641;2704;392;392;2760;
  392;392;392;392;392;392;2801;392;392;392;392;392;392;392;392;392;2865;392;392;2918;2981;3045;3103;3158;392;
  392;392;392;392;392;392;392;392;392;392;392;392;392;392;392;392;392;392;392;392;392;392;392;392;392;392;392;
  392;392;392;392;392;392;392;392;392;392;392;392;392;392;392;392;392;392;392;392;392;392;392;392;392;392;392;
  392;392;392;392;392;392;392;392;392;392;392;392;392;392;392;392;392;392;392;392;392;392;392;392;392;392;392;
  392;392;392;392;392;392;392;392;392;392;392;392;392;392;392;392;392;392;392;392;392;392;392;392;392;392;392;
  392;392;392;392;392;392;392;392;392;392;392;392;392;392;392;392;392;392;392;392;392;392;392;392;392;392;392;
  392;392;392;392;392;392;392;392;392;392;392;392;392;392;392;392;392;392;392;392;392;392;392;392;392;392;392;
  392;392;392;392;392;392;392;392;392;392;392;392;392;392;392;392;392;392;392;392;392;392;392;392;392;392;392;
  392;392;392;392;392;392;392;392;392;392;392;392;392;392;392;392;392;392;392;392;392;392;392;392;392;392;392;
  392;392;392;392;392;392;392;392;392;392;392;392;392;392;392;392;392;392;392;392;392;392;392;392;392;392;392;
  392;392;392;392;392;392;392;392;392;392;392;392;392;392;392;392;392;392;392;392;392;392;392;392;392;392;392;
  392;392;392;392;392;392;392;392;392;392;392;392;392;392;392;392;392;392;392;392;392;392;392;392;392;392;392;
  392;392;392;392;392;392;392;392;392;392;392;392;392;392;392;392;392;392;392;392;392;392;392;392;392;392;392;
  392;392;392;392;392;392;392;392;392;392;392;392;392;392;392;392;392;392;392;392;392;392;392;392;392;392;392;
  392;392;392;392;392;392;392;392;392;392;392;392;392;392;392;392;392;392;392;392;392;392;392;392;392;392;392;
  392;392;392;392;392;392;3222;853;853;853;853;853;853;853;853;853;853;853;853;853;853;853;2423;853;853;853;
  853;853;853;853;1717;853;853;853;2431;853;853;853].
Definition ucase_props_trieIndex_5 : list Z := [
  853;2439;2445;2449;853;853;2453;2457;2463;853;853;853;853;853;853;853;853;853;853;853;853;853;853;853;853;
  853;853;853;853;853;853;853;853;2471;2475;853;853;853;853;853;2483;853;853;853;853;853;853;853;853;853;853;
  853;853;2491;2495;2503;2507;853;2514;853;853;853;853;853;853;853;853;853;853;853;2520;853;853;853;853;2527;
  853;853;853;853;853;1343;2532;2539;1469;1468;2543;1340;853;2551;2558;853;2564;1468;2569;2577;853;853;2582;
  853;853;853;853;824;2590;1468;1470;2598;2605;853;853;853;853;853;2532;2613;853;853;2621;2629;853;853;853;
  853;853;853;2633;2641;853;853;2649;1200;853;853;2657;853;853;2663;2671;853;853;853;853;853;853;2676;853;853;
  853;2684;2692;853;853;2700;2708;853;853;853;2711;1717;2719;2723;2731;853;2738;853;853;853;853;853;853;853;
  853;853;853;853;853;2745;853;853;2368;2753;853;853;853;2759;2767;853;2771;853;853;853;853;853;853;853;853;
  853;853;2777;853;853;853;853;853;853;853;853;853;853;853;853;853;853;853;853;853;853;853;853;853;853;853;
  853;853;853;853;853;853;853;853;853;853;2783;853;853;853;853;853;853;853;853;853;853;853;853;853;853;853;
  853;853;853;853;853;853;853;853;853;853;853;853;853;853;853;2790;853;2796;1404;853;853;853;853;853;853;853;
  853;853;853;853;853;853;853;853;853;853;853;853;853;853;853;853;2684;2692;853;853;853;853;853;853;1655;853;
  2802;853;853;2810;853;853;853;853;853;853;853;853;853;853;853;853;853;853;853;853;853;853;853;853;853;853;
  853;853;853;853;853;853;853;853;853;853;853;853;853;853;2815;1404;853;853;853;853;853;853;853;853;853;853;
  853;853;853;853;853;853;853;853;853;853;853;853;853;853;853;853;2823;2831;2837;853;853;853;853;2845;853;853;
  853;853;853;853;853;853;853;853;853;853;853;2853;2861;2866;2872;2880;2888;2896;2857;2904;2912;2920;2927;
  2858;2853;2861;2856;2872;2859;2854;2935;2857;2943;2951;2959;2966;2946;2954;2962;2969;2949;2977;853;853;853;
  853;853;853;853;853;853;853;853;853;853;853;853;853;2172;2985;2172;2992;2999;3007;853;853;853;853;853;853;
  853;853;853;853;853;853;853;853;853;853;853;853;853;853;853;853;853;853;853;853;853;853;853;853;853;853;853;
  853;853;853;853;853;853;853;853;853;3015;3023;853;853;853;853;853;853;853;3027;853;853;853;853;853;853;853;
  853;853;853;853;853;853;2512;853;853;853].
Definition ucase_props_trieIndex_6 : list Z := [
  853;853;853;853;853;853;853;853;853;853;853;853;853;853;853;853;853;853;853;853;853;853;853;853;853;853;853;
  853;853;853;853;853;853;853;853;853;853;3035;853;3043;3051;3058;853;853;853;853;853;853;853;853;853;853;853;
  853;853;853;853;853;853;853;853;853;853;853;853;853;853;853;853;853;853;853;853;853;853;853;853;853;853;853;
  853;853;853;853;853;853;853;853;853;853;853;853;853;853;853;2849;3066;3066;3072;853;853;853;853;853;853;853;
  853;853;853;853;853;853;853;853;853;853;853;2553;853;853;853;853;853;853;853;853;853;853;853;853;853;853;
  853;853;853;853;853;853;853;853;853;853;853;853;853;853;853;853;853;853;1343;2172;2172;2172;853;853;853;853;
  2172;2172;2172;2172;2172;2172;2172;3080;853;853;853;853;853;853;853;853;853;853;853;853;853;853;853;853;853;
  853;853;853;853;853;853;853;853;853;853;853;853;853;853;853;853;853;853;853;853;853;853;853;853;853;853;853;
  853;853;853;853;821;821;0;0;0;0;0;0;0;0;0;0;0;0;0;0;0;0;0;0;0;0;0;0;0;0;0;0;0;0;0;0;0;0;0;0;0;0;0;0;0;4;0;0;
  0;0;0;0;4;0;0;0;0;0;0;0;0;0;0;0;4;0;0;0;0;0;0;4114;4114;4114;4114;4114;4114;4114;4114;10;90;122;4114;4114;
  4114;4114;4114;4114;4114;186;4114;4114;4114;4114;4114;4114;4114;0;0;0;4;0;4;61457;61457;61457;61457;61457;
  61457;61457;61457;249;61489;329;61457;61457;61457;61457;61457;61457;61457;393;61457;61457;61457;61457;61457;
  61457;61457;0;0;0;0;0;0;0;0;0;0;0;0;0;0;0;0;0;0;0;0;0;0;0;0;0;0;0;0;0;0;0;0;0;0;0;0;0;0;0;0;0;0;0;0;0;0;0;0;
  0;0;0;0;0;0;0;0;0;0;0;0;0;0;0;0;0;0;0;0;0;4;0;1;0;0;4;0;4;0;0;0;0;4;457;0;4;4;0;1;0;0;0;0;0;4114;4114;4114;
  4114;4114;506;4114;4114;4114;4114;4114;4114;90;90;4114;4114;4114;4114;4114;4114;4114;4114;4114;0;4114;4114;
  4114;4114;4114;4114;4114;569;61457;61457;61457;61457;61457;729;61457;61457;61457;61457;61457;61457;61457;
  61457;61457;61457;61457;61457;61457;61457;61457;61457;61457;0;61457;61457;61457;61457;61457;61457;61457;
  15505;146;65425;146;65425;146;65425;146;65425;146;65425;146;65425;146;65425;146;65425].
Definition ucase_props_trieIndex_7 : list Z := [
  146;65425;146;65425;146;65425;146;65425;146;65425;146;65425;146;65425;146;65425;146;65425;146;65425;146;
  65425;146;65425;794;65425;146;65425;146;65425;794;65457;826;905;146;65425;146;65425;146;65425;1;146;65425;
  146;65425;146;65425;146;65425;146;65425;146;65425;985;146;65425;146;65425;146;65425;146;65425;146;65425;146;
  65425;146;65425;146;65425;146;65425;146;65425;146;65425;146;65425;146;65425;146;65425;146;65425;146;65425;
  146;65425;146;65425;146;65425;146;65425;146;65425;146;65425;146;65425;50066;146;65425;146;65425;146;65425;
  1113;24977;26898;146;65425;146;65425;26386;146;65425;26258;26258;146;65425;1;10130;25874;26002;146;65425;
  26258;26514;12433;27026;26770;146;65425;20881;1;27026;27282;16657;27410;146;65425;146;65425;146;65425;27922;
  146;65425;27922;1;1;146;65425;27922;146;65425;27794;27794;146;65425;146;65425;28050;146;65425;1;0;146;65425;
  1;7185;0;0;0;0;1162;1211;1273;1322;1371;1433;1482;1531;1593;146;65425;146;65425;146;65425;146;65425;146;
  65425;146;65425;146;65425;146;65425;55441;146;65425;146;65425;146;65425;146;65425;146;65425;146;65425;146;
  65425;146;65425;146;65425;1641;1770;1819;1881;146;65425;53138;58386;146;65425;146;65425;146;65425;146;65425;
  146;65425;146;65425;146;65425;146;65425;146;65425;146;65425;146;65425;146;65425;146;65425;146;65425;146;
  65425;146;65425;48914;1;146;65425;146;65425;146;65425;146;65425;146;65425;146;65425;146;65425;146;65425;146;
  65425;1;1;1;1;1;1;1930;146;65425;44690;1962;1993;1993;146;65425;40594;8850;9106;146;65425;146;65457;146;
  65425;146;65425;146;65425;2025;2057;2089;38673;39185;1;39313;39313;1;39697;1;39569;2121;1;1;1;39313;2153;1;
  39057;1;2185;2217;1;38833;38545;2217;2249;2281;1;1;38545;1;2313;38289;1;1;38161;1;1;1;1;1;1;1;2345;1;1;
  37649;1;2377;37649;1;1;1;2409;37649;56721;37777;37777;56465;1;1;1;1;1;37521;1;0;1;1;1;1;1;1;1;1;2441;2473;1;
  1;1;1;1;1;1;1;1;1;1;1;1;1;1;1;1;5;5;37;5;5;5;5;5;5;4;4;4;20;4;20;4;5;5;4;4;4;4;4;4;4;4;4;4;4;4;4;4;4;4;4;4;
  4;4;4;4;4;4;4;4;4;4;4;4;5;5;5;5;5;4;4;4;4;4;4;4;4;4;4;4;4;4;4;4;4;4;4;4;4;4;4;4;4;4;4;4;84;84;68;68;68;68;
  68;2508;84;68;84;68;84;68;68;68;68;68;68;84;68;100;100;100;100;100;100;100].
Definition ucase_props_trieIndex_8 : list Z := [
  100;100;100;100;100;100;100;100;100;100;100;100;100;100;100;100;100;100;100;100;100;116;100;100;100;100;100;
  100;100;100;100;100;100;68;68;68;68;68;84;68;68;2525;68;100;100;100;68;68;68;100;100;4;68;68;68;100;100;100;
  100;68;100;100;100;68;100;100;100;100;100;100;100;68;68;68;68;68;68;68;68;68;68;68;68;68;146;65425;146;
  65425;4;4;146;65425;0;0;5;16657;16657;16657;0;14866;0;0;0;0;4;4;4882;4;4754;4754;4754;0;8210;0;8082;8082;
  2601;4114;2810;4114;4114;2874;4114;4114;2938;3018;3098;4114;3162;4114;4114;4114;3226;3290;0;3354;4114;4114;
  3418;4114;4114;3482;4114;4114;60689;60817;60817;60817;3545;61457;3753;61457;61457;3817;61457;61457;3881;
  3961;4041;61457;4105;61457;61457;61457;4169;4233;4297;4345;61457;61457;4409;61457;61457;4473;61457;61457;
  57361;57489;57489;1042;4537;4585;2;2;2;4665;4713;64529;146;65425;146;65425;146;65425;146;65425;146;65425;
  146;65425;146;65425;146;65425;146;65425;146;65425;146;65425;146;65425;4761;4809;913;50737;4858;4937;0;146;
  65425;64658;146;65425;1;48914;48914;48914;10258;10258;10258;10258;10258;10258;10258;10258;10258;10258;10258;
  10258;10258;10258;10258;10258;4114;4114;4986;4114;5050;4114;4114;4114;4114;4114;4114;4114;4114;4114;5114;
  4114;4114;5178;5242;4114;4114;4114;4114;4114;4114;4114;5322;4114;4114;4114;4114;4114;61457;61457;5385;61457;
  5449;61457;61457;61457;61457;61457;61457;61457;61457;61457;5513;61457;61457;5577;5641;61457;61457;61457;
  61457;61457;61457;61457;5721;61457;61457;61457;61457;61457;55313;55313;55313;55313;55313;55313;55345;55313;
  55345;55313;55313;55313;55313;55313;55313;55313;146;65425;5786;5849;146;65425;146;65425;146;65425;146;65425;
  146;65425;146;65425;146;65425;146;65425;146;65425;146;65425;146;65425;146;65425;146;65425;146;65425;146;
  65425;0;68;68;68;68;68;4;4;146;65425;146;65425;146;65425;146;65425;146;65425;146;65425;146;65425;146;65425;
  146;65425;146;65425;146;65425;146;65425;146;65425;146;65425;146;65425;146;65425;146;65425;146;65425;146;
  65425;146;65425;146;65425;146;65425;146;65425;146;65425;146;65425;146;65425;146;65425;1938;146;65425;146;
  65425;146;65425;146;65425;146;65425;146;65425;146;65425;63633;146;65425;146;65425;146;65425;146;65425;146;
  65425;146;65425;146;65425;146;65425;146;65425;146;65425;146;65425;146;65425;146;65425;146;65425;146;65425;
  146;65425;146;65425;146;65425;146;65425;146;65425;146;65425;146;65425;146;65425;146;65425;0;6162;6162;6162;
  6162;6162;6162;6162;6162;6162;6162;6162;6162;6162;6162;6162;6162;6162;6162;6162;6162;6162;6162;6162;6162;
  6162;6162;0].
Definition ucase_props_trieIndex_9 : list Z := [
  0;4;0;0;0;0;0;4;1;59409;59409;59409;59409;59409;59409;59409;59409;59409;59409;59409;59409;59409;59409;59409;
  59409;59409;59409;59409;59409;59409;59409;59409;59409;59409;59409;59409;59409;59409;59409;59409;59409;59409;
  59409;5913;1;0;0;0;0;0;0;0;0;100;68;68;68;68;100;68;68;68;100;100;68;68;68;68;68;68;100;100;100;100;100;100;
  68;68;100;68;68;100;100;68;100;100;100;100;100;100;100;100;100;100;100;100;100;100;0;100;0;100;100;0;68;100;
  0;100;0;0;0;0;0;0;0;0;0;0;0;0;0;0;0;0;0;0;0;0;0;0;0;0;0;0;0;0;0;0;0;0;0;0;0;0;0;0;0;0;0;0;0;0;4;0;0;0;0;0;0;
  0;0;0;0;0;4;4;4;4;4;4;0;0;0;0;0;0;0;0;0;0;68;68;68;68;68;68;68;68;100;100;100;0;4;0;0;0;0;0;0;0;0;0;0;0;0;0;
  0;0;0;0;0;0;0;0;0;0;0;0;0;0;0;0;0;0;0;0;0;0;4;0;0;0;0;0;0;0;0;0;0;100;100;100;100;100;100;100;100;68;68;100;
  100;68;68;68;68;68;100;68;68;100;0;0;0;0;0;0;0;0;0;0;0;0;0;0;0;0;100;0;0;0;0;0;0;0;0;0;0;0;0;0;0;0;0;0;0;0;
  0;0;0;0;0;0;68;68;68;68;68;68;68;4;0;68;68;68;68;100;68;4;4;68;68;0;100;68;68;100;0;0;0;0;0;0;0;0;0;0;0;0;0;
  0;0;0;0;0;0;0;0;4;0;100;0;0;0;0;0;0;0;0;0;0;0;0;0;0;0;0;0;0;0;0;0;0;0;0;0;0;0;0;0;0;68;100;68;68;100;68;68;
  100;100;100;68;100;100;68;100;68;68;68;100;68;100;68;100;68;100;68;68;0;0;0;0;0;0;0;0;0;0;0;0;0;0;0;0;0;0;0;
  0;0;0;0;0;0;0;0;0;0;0;0;0;0;0;0;0;0;0;0;0;0;0;0;0;0;0;0;0;0;0;0;0;0;0;0;4;4;4;4;4;4;4;4;4;4;4;0;0;0;0;0;0;0;
  0;0;0;0;0;0;0;0;0;0;0;0;0;0;0;0;0;0;0;0;0;0;0;0;0;0;0;0;0;0;0;0].
Definition ucase_props_trieIndex_10 : list Z := [
  0;0;0;0;0;0;0;68;68;68;68;68;68;68;100;68;4;4;0;0;0;0;4;0;0;100;0;0;0;0;0;0;0;0;0;0;0;0;0;0;0;0;0;0;0;0;0;0;
  0;0;68;68;68;68;4;68;68;68;68;68;4;68;68;68;4;68;68;68;68;68;0;0;0;0;0;0;0;0;0;0;0;0;0;0;0;0;0;0;0;0;0;0;0;
  0;0;0;0;100;100;100;0;0;0;0;0;0;0;0;0;0;0;0;0;0;0;0;0;0;0;100;68;68;68;68;68;68;68;68;68;68;68;68;68;68;4;
  100;68;68;100;68;68;100;68;68;68;100;100;100;100;100;100;68;68;68;100;68;68;100;100;68;68;68;68;68;4;4;4;0;
  0;0;0;0;0;0;0;0;0;0;0;0;0;0;0;0;0;0;0;0;0;0;0;0;0;0;0;0;0;0;4;0;100;0;0;0;0;4;4;4;4;4;4;4;4;0;0;0;0;100;0;0;
  0;68;100;68;68;4;4;4;0;0;0;0;0;0;0;0;0;0;4;4;0;0;0;0;0;0;0;0;0;0;0;0;0;4;0;0;0;0;0;0;0;0;0;0;0;0;0;0;0;0;0;
  0;0;0;0;0;0;0;0;0;0;0;0;0;100;0;0;0;0;4;4;4;4;0;0;0;0;0;0;0;0;100;0;0;0;0;0;0;0;0;0;0;0;0;0;0;0;0;0;0;0;0;4;
  4;0;0;0;0;0;0;0;0;0;0;0;0;0;0;0;0;0;0;0;0;0;0;0;0;0;0;68;0;0;4;4;0;0;0;0;0;0;0;0;0;0;0;0;0;0;0;0;0;0;0;0;0;
  0;0;0;0;0;0;0;0;0;4;4;0;0;0;0;4;4;0;0;4;4;100;0;0;0;4;0;0;0;0;0;0;0;0;0;0;0;0;0;0;0;0;0;0;4;4;0;0;0;4;0;0;0;
  0;0;0;0;0;0;0;0;4;4;4;4;4;0;4;4;0;0;0;0;100;0;0;0;0;0;0;0;0;0;0;0;0;0;0;0;0;0;0;0;0;4;4;0;0;0;0;0;0;0;0;0;0;
  0;0;0;0;0;0;0;0;0;0;0;0;4;4;4;4;4;4;0;0;0;0;0;0;0;0;0;0;0;0].
Definition ucase_props_trieIndex_11 : list Z := [
  0;0;0;0;0;0;0;0;0;0;0;0;0;0;0;0;100;0;0;4;0;4;4;4;4;0;0;0;0;0;0;0;0;100;0;0;0;0;0;0;0;4;4;0;0;0;0;0;0;0;0;0;
  0;0;4;4;0;0;0;0;0;0;0;0;0;0;0;0;0;0;0;0;0;0;0;0;0;0;0;0;0;0;0;0;0;0;4;0;0;0;0;0;0;0;0;0;0;0;0;0;0;0;0;0;0;0;
  0;0;0;0;0;0;0;0;0;0;4;0;0;0;0;0;0;0;0;0;0;0;0;100;0;0;0;0;0;0;0;0;0;0;0;0;0;0;0;0;0;0;4;0;0;0;4;0;0;0;0;0;0;
  0;0;0;0;0;0;0;0;0;0;0;0;0;0;0;0;0;0;0;0;0;4;0;0;0;0;0;4;4;4;0;4;4;4;100;0;0;0;0;0;0;0;100;100;0;0;0;0;0;0;0;
  0;0;0;0;4;0;0;0;0;0;4;100;0;0;0;0;0;0;0;0;0;0;0;0;0;0;0;0;0;0;4;4;0;0;0;0;0;0;0;0;0;0;0;0;0;0;0;0;0;0;0;0;0;
  0;0;0;0;0;0;0;0;0;0;0;0;100;100;0;0;0;0;0;0;0;0;0;0;0;0;0;100;0;0;0;0;0;0;0;4;4;4;0;4;0;0;0;0;0;0;0;0;0;0;0;
  0;0;0;0;0;0;0;4;0;0;4;4;4;4;100;100;100;0;0;0;0;0;0;0;4;4;100;100;100;100;4;4;4;0;0;0;0;0;0;0;0;0;0;0;0;0;0;
  0;0;0;0;4;0;0;4;4;4;4;100;100;100;4;4;0;0;0;0;0;0;0;0;0;4;0;100;100;100;100;4;4;0;0;0;0;0;0;0;0;0;0;0;0;0;0;
  0;0;0;0;0;0;0;0;0;0;0;0;100;100;0;0;0;0;0;0;0;0;0;0;0;0;0;0;0;0;0;0;0;0;0;0;0;100;0;100;0;100;0;0;0;0;0;0;0;
  0;0;0;0;0;0;0;0;0;0;0;0;100;100;4;100;4;4;4;4;4;100;100;100;100;4;0;100;4;68;68;100;0;68;68;0;0;0;0;0;4;4;4;
  4;4;4;4;4;4;4;4;0;4;4;4].
Definition ucase_props_trieIndex_12 : list Z := [
  4;4;4;4;4;4;4;4;4;4;4;4;4;4;4;4;4;4;4;4;4;4;4;4;4;4;4;4;4;0;0;0;0;0;0;0;0;0;100;0;0;0;0;0;0;0;0;0;0;0;0;0;0;
  0;0;0;0;0;0;0;0;0;0;0;0;4;4;4;4;0;4;4;4;4;4;100;0;100;100;0;0;4;4;0;0;0;0;0;0;0;0;0;0;0;0;0;0;0;0;0;0;0;0;0;
  0;0;0;0;4;4;0;0;0;0;4;4;4;0;0;0;0;0;0;0;0;0;0;0;0;0;0;0;0;4;4;4;4;0;0;0;0;0;0;0;0;0;0;0;0;0;4;0;0;4;4;0;0;0;
  0;0;0;100;0;0;0;0;0;0;0;0;0;0;0;0;0;0;0;4;0;0;5978;5978;5978;5978;5978;5978;5978;5978;5978;5978;5978;5978;
  5978;5978;5978;5978;5978;5978;5978;5978;5978;5978;5978;5978;5978;5978;5978;5978;5978;5978;5978;5978;5978;
  5978;0;5978;0;0;0;0;0;5978;0;0;6009;6057;6105;6153;6201;6249;6297;6345;6393;6441;6489;6537;6585;6633;6681;
  6729;6777;6825;6873;6921;6969;7017;7065;7113;7161;7209;7257;7305;7353;7401;7449;7497;7545;7593;7641;7689;
  7737;7785;7833;7881;7929;7977;8025;0;4;8073;8121;8169;0;0;0;0;0;0;0;0;0;0;0;0;0;0;0;0;0;0;0;0;0;0;0;0;0;0;0;
  0;0;68;68;68;8218;8218;8218;8218;8218;8218;8218;8218;8218;8218;8218;8218;8218;8218;8218;8218;8250;8250;8250;
  8250;8250;8250;0;0;8281;8329;8377;8425;8473;8521;0;0;8218;8218;8218;8218;8218;8218;8218;8218;8218;8218;8218;
  8218;8218;8218;8218;8218;8218;8218;8218;8218;8218;8218;8218;8218;8218;8218;8218;8218;8218;8218;8218;8218;0;
  0;0;0;0;0;0;0;0;0;0;0;0;0;0;0;0;0;4;4;100;0;0;0;0;0;0;0;0;0;0;0;0;0;0;0;0;0;0;0;0;0;0;0;4;4;0;4;4;4;4;4;4;4;
  0;0;0;0;0;0;0;0;4;0;0;4;4;4;4;4;4;4;4;4;100;4;0;0;0;4;0;0;0;0;0;68;0;0;0;0;0;0;0;0;0;0;0;0;0;4;4;4;4;0;0;0;
  0;0;0;0;0;0;0;0;0;0;0;0;0;0;0;0;0;4;0;0;0;0;0;0;0;0;0;0;0;0;0;0;0;0;0;0;0;0].
Definition ucase_props_trieIndex_13 : list Z := [
  0;0;0;0;0;0;0;0;0;4;4;0;0;0;0;0;0;0;0;0;0;0;0;0;0;0;0;0;0;0;0;0;0;0;0;0;0;100;0;0;0;0;0;0;0;0;0;0;0;0;0;0;0;
  0;0;0;0;0;0;0;4;4;4;0;0;0;0;4;4;0;0;0;0;0;0;0;0;0;4;0;0;0;0;0;0;100;68;100;0;0;0;0;0;0;0;0;0;0;0;0;0;0;0;0;
  0;0;0;0;0;0;0;68;100;0;0;4;0;0;0;0;0;0;0;0;0;0;0;0;0;0;0;0;0;0;0;0;0;0;4;0;4;4;4;4;4;4;4;0;100;0;4;0;0;4;4;
  4;4;4;4;4;4;0;0;0;0;0;0;4;4;68;68;68;68;68;68;68;68;0;0;100;0;0;0;0;0;0;0;4;0;0;0;0;0;0;0;0;68;68;68;68;68;
  100;100;100;100;100;100;68;68;100;4;100;100;0;0;0;0;0;0;0;0;0;0;0;0;0;0;0;0;0;0;0;0;0;0;0;0;0;0;0;0;0;0;0;
  100;0;4;4;4;4;4;0;4;0;0;0;0;0;4;0;96;0;0;0;0;0;0;0;0;0;0;0;0;0;0;0;0;0;0;0;0;0;0;0;0;0;0;0;0;0;0;68;100;68;
  68;68;68;68;68;68;0;0;0;0;0;0;0;0;0;0;0;0;0;0;4;4;4;4;0;0;4;4;96;100;4;4;0;0;0;0;0;0;0;0;0;0;0;0;0;0;0;0;0;
  0;0;0;100;0;4;4;0;0;0;4;0;4;4;4;96;96;0;0;0;0;0;0;0;0;0;0;0;0;4;4;4;4;4;4;4;4;0;0;4;100;0;0;0;0;0;0;0;0;0;0;
  0;0;0;0;0;0;0;0;0;0;0;0;0;0;4;4;4;4;4;4;0;0;8569;8617;8665;8713;8761;8841;8921;8969;9017;0;0;0;0;0;0;0;9066;
  9066;9066;9066;9066;9066;9066;9066;9066;9066;9066;9066;9066;9066;9066;9066;9066;9066;9066;9066;9066;9066;
  9066;9066;9066;9066;9066;0;0;9066;9066;9066;0;0;0;0;0;0;0;0;0;0;0;0;0;0;0;0;68;68;68;0;100;100;100;100;100;
  100;68;68;100;100;100;100;68;0;100;100;100;100;100;100;100;0;0;0;0;100;0;0].
Definition ucase_props_trieIndex_14 : list Z := [
  0;0;0;0;68;0;0;0;68;68;0;0;0;0;0;0;1;1;1;1;1;1;1;1;1;1;1;1;1;1;1;1;1;1;1;1;1;1;1;1;1;1;1;1;1;1;1;1;5;5;5;5;
  5;5;5;5;5;5;5;5;5;5;5;5;5;5;5;5;5;5;5;5;5;5;5;5;5;5;5;5;5;5;37;5;5;5;5;5;5;5;5;1;1;1;1;1;1;1;1;1;1;1;1;1;5;
  9097;1;1;1;9129;1;1;5;5;5;5;37;5;5;5;37;5;5;5;5;5;5;5;5;5;5;5;5;5;5;5;5;5;5;5;5;5;5;5;1;1;1;1;1;1;1;1;1;1;1;
  1;1;1;9161;1;1;1;1;1;1;1;33;1;1;1;1;5;5;5;5;5;68;68;68;68;68;68;68;68;68;68;68;68;68;68;68;68;68;68;68;68;
  68;68;100;100;100;100;0;68;100;100;68;100;68;68;100;68;68;68;68;68;68;68;100;68;68;100;100;100;100;68;68;68;
  68;68;68;68;68;68;68;68;68;68;68;68;146;65425;146;65425;146;65425;146;65425;146;65425;146;65425;146;65457;
  146;65425;146;65425;146;65425;146;65425;146;65425;146;65425;146;65425;146;65425;146;65425;9194;9257;146;
  65425;146;65425;146;65425;146;65425;146;65425;146;65425;146;65425;146;65425;146;65425;146;65425;146;65425;
  146;65425;146;65425;146;65425;146;65425;146;65425;9321;9449;9577;9705;9833;9961;1;1;10010;1;146;65425;146;
  65425;146;65425;146;65425;146;65425;146;65457;146;65425;146;65425;146;65425;146;65425;146;65425;146;65425;
  146;65425;146;65425;146;65425;146;65425;1041;1041;1041;1041;1041;1041;1041;1041;64530;64530;64530;64530;
  64530;64530;64530;64530;1041;1041;1041;1041;1041;1041;0;0;64530;64530;64530;64530;64530;64530;0;0;1041;1041;
  1041;1041;1041;1041;1041;1041;64530;64530;64530;64530;64530;64530;64530;64530;1041;1041;1041;1041;1041;1041;
  1041;1041;64530;64530;64530;64530;64530;64530;64530;64530;1041;1041;1041;1041;1041;1041;0;0;64530;64530;
  64530;64530;64530;64530;0;0;10089;1041;10217;1041;10393;1041;10569;1041;0;64530;0;64530;0;64530;0;64530;
  1041;1041;1041;1041;1041;1041;1041;1041;64530;64530;64530;64530;64530;64530;64530;64530;9489;9489;11025;
  11025;11025;11025;12817;12817;16401;16401;14353;14353;16145;16145;0;0;10745;10857;10969;11081;11193;11305;
  11417;11529;11643;11755;11867;11979;12091;12203;12315;12427;12537;12649;12761;12873;12985;13097;13209;13321;
  13435;13547;13659;13771;13883;13995;14107;14219;14329;14441;14553;14665].
Definition ucase_props_trieIndex_15 : list Z := [
  14777;14889;15001;15113;15227;15339;15451;15563;15675;15787;15899;16011;1041;1041;16121;16249;16361;0;16489;
  16617;64530;64530;56082;56082;16795;4;16905;4;4;4;16985;17113;17225;0;17353;17481;54546;54546;54546;54546;
  17659;4;4;4;1041;1041;17769;17945;0;0;18153;18281;64530;64530;52754;52754;0;4;4;4;1041;1041;18457;18633;
  18841;913;18969;19097;64530;64530;51218;51218;64658;4;4;4;0;0;19273;19401;19513;0;19641;19769;49170;49170;
  49426;49426;19947;4;4;0;0;0;0;0;0;0;0;0;0;0;0;4;4;4;4;4;0;0;0;0;0;0;0;0;4;4;0;0;0;0;0;0;4;0;0;4;0;0;4;4;4;4;
  4;0;0;0;0;0;0;0;0;0;0;0;0;0;0;0;0;0;4;4;4;4;4;0;4;4;4;4;4;4;4;4;4;4;0;37;0;0;0;0;0;0;0;0;0;0;0;0;0;5;0;0;0;
  0;0;0;0;0;0;0;0;0;0;0;0;0;5;5;5;5;5;5;5;5;5;5;5;5;5;0;0;0;0;0;0;0;0;0;0;0;0;0;0;0;0;0;0;0;68;68;100;100;68;
  68;68;68;100;100;100;68;68;4;4;4;4;68;4;4;4;100;100;68;100;68;100;100;100;100;100;100;68;0;0;0;0;0;0;0;0;0;
  0;0;0;0;0;0;0;0;2;0;0;0;0;2;0;0;1;2;2;2;1;1;2;2;2;1;0;2;0;0;0;2;2;2;2;2;0;0;0;0;0;0;2;0;20058;0;2;0;20122;
  20186;2;2;0;1;2;2;3602;2;1;0;0;0;0;1;0;0;1;1;2;2;0;0;0;0;0;2;1;1;33;33;0;0;0;0;61969;0;0;0;0;0;0;0;0;0;0;0;
  0;0;0;0;0;0;2066;2066;2066;2066;2066;2066;2066;2066;2066;2066;2066;2066;2066;2066;2066;2066;63505;63505;
  63505;63505;63505;63505;63505;63505;63505;63505;63505;63505;63505;63505;63505;63505;0;0;0;146;65425;0;0;0;0;
  0;0;0;0;0;0;0;0;0;0;0;0;0;0;0;0;0;0;0;0;0;0;0;0;0;3346;3346;3346;3346;3346;3346;3346;3346;3346;3346;3346;
  3346;3346;3346;3346;3346;3346;3346;62225;62225;62225;62225;62225;62225;62225;62225;62225;62225;62225;62225;
  62225;62225;62225;62225;62225;62225;0;0;0;0;0;0;0;0;0;0;0;0;0;0;0;0;0;0;0;0;0;0;6162;6162;6162;6162;6162;
  6162;6162;6162;6162;6162;6162;6162].
Definition ucase_props_trieIndex_16 : list Z := [
  6162;6162;6162;6162;6162;6162;6162;6162;6162;6162;6162;6162;6162;6162;6162;6162;6162;6162;6162;6162;6162;
  6162;6162;0;59409;59409;59409;59409;59409;59409;59409;59409;59409;59409;59409;59409;59409;59409;59409;59409;
  59409;59409;59409;59409;59409;59409;59409;59409;59409;59409;59409;59409;59409;59409;59409;0;146;65425;20250;
  20282;20314;20345;20377;146;65425;146;65425;146;65425;20410;20442;20474;20506;1;146;65425;1;146;65425;1;1;1;
  1;1;37;5;20538;20538;146;65425;146;65425;1;0;0;0;0;0;0;146;65425;146;65425;68;68;68;146;65425;0;0;0;0;0;0;0;
  0;0;0;0;0;20569;20569;20569;20569;20569;20569;20569;20569;20569;20569;20569;20569;20569;20569;20569;20569;
  20569;20569;20569;20569;20569;20569;20569;20569;20569;20569;20569;20569;20569;20569;20569;20569;20569;20569;
  0;20569;0;0;0;0;0;20569;0;0;0;0;0;0;0;0;0;0;0;0;0;0;0;0;0;0;0;0;0;4;0;0;0;0;0;0;0;0;0;0;0;0;0;0;0;100;68;68;
  68;68;68;68;68;68;68;68;68;68;68;68;68;68;68;68;68;68;68;68;68;68;68;68;68;68;68;68;68;68;0;0;0;0;0;0;0;0;0;
  0;100;100;100;100;96;96;0;4;4;4;4;4;0;0;0;0;0;4;0;0;0;0;0;0;0;0;0;0;0;0;0;0;0;0;0;0;0;0;0;0;0;0;0;100;100;4;
  4;4;4;0;0;0;0;0;0;0;0;0;0;0;0;0;0;0;0;0;0;0;0;0;0;0;0;0;0;0;0;0;4;4;4;0;0;0;0;0;0;0;0;0;0;0;0;0;0;0;0;0;0;0;
  0;0;0;4;0;0;0;0;0;0;0;0;0;0;0;0;0;0;4;0;0;0;0;0;0;0;0;0;0;0;0;0;0;0;0;0;0;0;146;65425;146;65425;146;65425;
  146;65425;146;65425;20602;20665;146;65425;146;65425;146;65425;146;65425;146;65425;146;65425;146;65425;146;
  65425;146;65425;146;65425;146;65425;0;68;4;4;4;0;68;68;68;68;68;68;68;68;68;68;0;4;146;65425;146;65425;146;
  65425;146;65425;146;65425;146;65425;146;65425;146;65425;146;65425;146;65425;146;65425;146;65425;146;65425;
  146;65425;5;5;68;68;0;0;0;0;0;0;0;0;0;0;0;0;0;0;0;0;68;68;0;0;0;0;0;0;0;0;0;0;0;0;0;0;4;4;4;4;4;4;4;4;4;4;4;
  4;4;4;4;4].
Definition ucase_props_trieIndex_17 : list Z := [
  4;4;4;4;4;4;4;4;4;4;4;4;4;4;4;4;4;4;146;65425;146;65425;146;65425;146;65425;146;65425;146;65425;146;65425;1;
  1;146;65425;146;65425;146;65425;146;65425;146;65425;146;65425;146;65425;146;65425;146;65425;5;1;1;1;1;1;1;1;
  1;146;65425;146;65425;20730;146;65425;146;65425;146;65425;146;65425;146;65425;4;4;4;146;65425;20762;1;0;146;
  65425;146;65425;6161;1;146;65425;146;65425;146;65425;146;65425;146;65425;146;65425;20794;20826;20858;20890;
  20794;1;20922;20954;20986;21018;146;65425;146;65425;146;65425;146;65425;146;65425;146;65425;0;0;146;65425;
  59410;21050;21082;146;65425;146;65425;0;0;0;0;0;0;0;0;0;0;0;0;0;0;0;0;0;0;0;0;0;0;146;65425;0;5;5;1;0;0;0;0;
  0;0;0;4;0;0;0;100;0;0;0;0;4;0;0;0;0;0;0;0;0;0;0;0;0;0;0;0;0;0;0;0;0;0;4;4;0;0;0;0;0;100;0;0;0;0;0;0;0;0;0;0;
  0;0;0;0;0;0;0;0;0;100;4;0;0;0;0;0;0;0;0;0;0;0;0;0;0;0;0;0;0;0;0;0;0;0;0;0;0;68;68;68;68;68;68;68;68;68;68;
  68;68;68;68;68;68;68;68;0;0;0;0;0;0;0;0;0;0;0;0;0;4;0;0;0;0;0;0;4;4;4;4;4;100;100;100;0;0;0;0;0;0;0;0;0;0;0;
  0;0;0;0;0;0;0;0;0;0;4;4;4;4;4;4;4;4;4;4;4;0;96;0;0;0;0;0;0;0;0;0;0;0;0;0;0;0;0;0;0;0;100;0;0;4;4;4;4;0;0;4;
  4;0;0;96;0;0;0;0;0;0;0;0;0;0;0;0;0;0;4;0;0;0;0;0;0;0;0;0;0;0;0;0;0;0;0;0;4;4;4;4;4;4;0;0;4;4;0;0;4;4;0;0;0;
  0;0;0;0;0;0;0;0;0;4;0;0;0;0;0;0;0;0;4;0;0;0;0;0;0;0;0;0;0;0;0;0;0;0;0;0;0;0;4;0;0;0;0;0;0;0;0;0;0;0;4;0;0;0;
  0;0;0;0;0;0;0;0;0;0;0;0;0;0;0;0;68;0;68;68;100;0;0;68;68;0;0;0;0;0;68;68;0;68;0;0;0;0;0;0].
Definition ucase_props_trieIndex_18 : list Z := [
  0;0;0;0;0;0;0;0;0;0;0;0;0;0;0;0;0;0;0;0;0;4;0;0;0;0;0;0;0;0;0;0;0;0;0;0;4;4;0;0;0;0;0;4;4;0;100;0;0;0;0;0;0;
  0;0;0;0;0;0;0;0;0;0;0;1;1;1;1;1;1;1;1;1;1;1;1;1;1;1;1;1;1;1;21113;1;1;1;1;1;1;1;4;5;5;5;5;1;1;1;1;1;1;1;1;1;
  4;4;4;0;0;0;0;21145;21193;21241;21289;21337;21385;21433;21481;21529;21577;21625;21673;21721;21769;21817;
  21865;23449;23497;23545;23593;23641;23689;23737;23785;23833;23881;23929;23977;24025;24073;24121;24169;24217;
  24265;24313;24361;24409;24457;24505;24553;24601;24649;24697;24745;24793;24841;24889;24937;21913;21961;22009;
  22057;22105;22153;22201;22249;22297;22345;22393;22441;22489;22537;22585;22633;22681;22729;22777;22825;22873;
  22921;22969;23017;23065;23113;23161;23209;23257;23305;23353;23401;0;0;0;0;0;4;0;0;4;0;0;0;0;100;0;0;0;0;0;0;
  0;0;0;0;0;0;0;0;0;0;0;0;24985;25113;25241;25369;25545;25721;25881;0;0;0;0;0;0;0;0;0;0;0;0;26041;26169;26297;
  26425;26553;0;0;0;0;0;0;100;0;0;0;0;0;0;0;0;0;0;0;0;0;0;0;0;0;0;0;4;4;4;4;4;4;4;4;4;4;4;4;4;4;4;4;4;4;0;0;0;
  4;0;0;0;0;0;0;0;0;0;0;0;0;68;68;68;68;68;68;68;100;100;100;100;100;100;100;68;68;0;0;0;0;0;0;0;0;0;0;0;0;0;
  0;0;0;0;0;4;0;0;4;0;0;0;0;0;0;0;0;0;0;0;4114;4114;4114;4114;4114;4114;4114;4114;4114;4114;4114;4114;4114;
  4114;4114;4114;4114;4114;4114;4114;4114;4114;4114;4114;4114;4114;0;0;0;4;0;4;61457;61457;61457;61457;61457;
  61457;61457;61457;61457;61457;61457;61457;61457;61457;61457;61457;61457;61457;61457;61457;61457;61457;61457;
  61457;61457;61457;0;0;0;0;0;0;0;0;0;0;0;0;0;0;0;0;0;4;0;0;0;0;0;0;0;0;0;0;0;0;0;0;0;0;0;0;4;0;0;0;0;0;0;0;0;
  0;0;0;0;0;0;0;0;0;0;0;0;0;4;4;4;0;0;0;0;0;0;0;0;0;0;0;0;0;0;0;0;0;0;0;0;0;0;0;0;0;0;0;0;0;100;0;0;0;0;0;0].
Definition ucase_props_trieIndex_19 : list Z := [
  0;0;0;0;0;0;0;0;0;0;0;0;0;0;0;0;0;0;68;68;68;68;68;0;0;0;0;0;5138;5138;5138;5138;5138;5138;5138;5138;5138;
  5138;5138;5138;5138;5138;5138;5138;5138;5138;5138;5138;5138;5138;5138;5138;5138;5138;5138;5138;5138;5138;
  5138;5138;60433;60433;60433;60433;60433;60433;60433;60433;60433;60433;60433;60433;60433;60433;60433;60433;
  60433;60433;60433;60433;60433;60433;60433;60433;0;0;0;0;0;0;0;0;0;0;0;0;0;0;0;0;5138;5138;5138;5138;5138;
  5138;5138;5138;5138;5138;5138;5138;5138;5138;5138;5138;5138;5138;5138;5138;0;0;0;0;60433;60433;60433;60433;
  60433;60433;60433;60433;60433;60433;60433;60433;60433;60433;60433;60433;60433;60433;60433;60433;60433;60433;
  60433;60433;60433;60433;60433;60433;0;0;0;0;0;4;4;4;0;4;4;0;0;0;0;0;4;100;4;68;0;0;0;0;0;0;0;0;0;0;0;0;0;0;
  0;0;0;0;0;0;0;0;0;0;68;100;100;0;0;0;0;100;0;0;0;0;0;68;100;0;0;0;0;0;0;0;0;0;0;0;0;0;0;0;0;0;0;0;0;0;0;0;0;
  0;8210;8210;8210;8210;8210;8210;8210;8210;8210;8210;8210;8210;8210;8210;8210;8210;8210;8210;8210;8210;8210;
  8210;8210;8210;8210;8210;8210;8210;8210;8210;8210;8210;8210;8210;8210;0;0;0;0;0;0;0;0;0;0;0;0;0;57361;57361;
  57361;57361;57361;57361;57361;57361;57361;57361;57361;57361;57361;57361;57361;57361;57361;57361;57361;57361;
  57361;57361;57361;57361;57361;57361;57361;57361;57361;57361;57361;57361;57361;57361;57361;0;0;0;0;0;0;0;0;0;
  0;0;0;0;68;68;68;68;0;0;0;0;0;0;0;0;0;0;0;0;0;0;0;0;0;0;0;0;0;0;0;0;0;0;0;68;68;0;0;0;0;0;0;0;0;0;0;0;0;0;0;
  0;0;0;0;0;0;0;100;100;68;68;68;100;68;100;100;100;100;0;0;0;0;0;0;0;0;0;0;0;0;0;0;0;0;0;0;0;0;0;0;0;0;0;0;0;
  4;4;4;4;4;4;4;4;4;4;100;0;0;0;0;0;0;0;0;0;0;0;0;0;0;0;0;0;0;0;0;0;0;0;0;0;0;0;0;4;4;4;4;0;0;100;100;0;0;4;0;
  0;68;68;68;0;0;0;0;0;0;0;0;0;0;0;0;0;0;0;0;0;0;0;0;0;0;0;0;0;0;0;0;0;0;0;0;4].
Definition ucase_props_trieIndex_20 : list Z := [
  4;4;4;4;0;4;4;4;4;4;4;100;100;0;0;0;0;0;0;0;0;0;0;0;0;0;0;0;0;0;0;0;0;0;0;100;0;0;0;0;0;0;0;0;0;0;0;0;0;0;0;
  0;0;0;0;0;0;0;4;4;4;4;4;4;4;4;4;0;96;0;0;0;0;0;0;0;0;4;100;4;4;0;0;4;0;0;0;0;0;0;0;0;0;0;0;0;0;0;0;0;0;0;0;
  4;4;4;0;0;4;96;100;4;0;0;0;0;0;0;4;0;0;0;0;4;4;4;4;4;4;100;100;0;0;0;0;0;0;0;0;0;0;0;0;0;0;0;0;0;0;0;0;0;4;
  0;0;0;0;0;0;0;0;0;0;0;0;96;0;0;0;0;0;0;0;0;0;0;0;0;0;0;0;0;0;0;0;0;68;68;68;68;68;68;68;0;0;0;68;68;68;68;
  68;0;0;0;0;0;0;0;0;0;0;0;0;0;100;4;4;0;100;0;0;0;0;0;0;0;0;0;0;0;0;0;0;0;0;0;0;0;0;0;0;0;68;0;0;0;0;0;0;0;0;
  0;0;0;0;0;0;0;0;0;0;0;0;4;4;4;4;4;4;0;4;0;0;0;0;4;4;0;100;100;0;0;0;0;0;0;0;0;0;0;0;0;0;0;0;0;0;0;0;0;0;0;0;
  0;0;0;0;0;0;0;4;4;4;4;0;0;0;0;0;0;4;4;0;100;100;0;0;0;0;0;0;0;0;0;0;0;0;0;0;0;0;0;0;0;0;0;0;0;0;0;0;0;4;4;0;
  0;0;0;0;0;0;0;0;0;0;0;0;0;0;0;0;0;0;0;0;4;4;4;4;4;4;4;4;0;0;4;0;100;0;0;0;0;0;0;0;0;0;0;0;4;0;4;0;0;4;4;4;4;
  4;4;96;100;0;0;0;0;0;0;0;0;0;0;0;0;0;0;0;0;0;0;0;0;0;0;0;0;0;0;0;0;0;4;4;4;0;0;4;4;4;4;0;4;4;4;4;100;0;0;0;
  0;0;0;0;0;0;0;0;0;0;0;0;0;0;0;0;0;0;0;0;4;4;4;4;4;4;4;4;4;0;100;100;0;0;0;0;0;4114;4114;4114;4114;4114;4114;
  4114;4114;4114;4114;4114;4114;4114;4114;4114;4114].
Definition ucase_props_trieIndex_21 : list Z := [
  4114;4114;4114;4114;4114;4114;4114;4114;4114;4114;4114;4114;4114;4114;4114;4114;61457;61457;61457;61457;
  61457;61457;61457;61457;61457;61457;61457;61457;61457;61457;61457;61457;61457;61457;61457;61457;61457;61457;
  61457;61457;61457;61457;61457;61457;61457;61457;61457;61457;0;0;0;0;0;0;0;0;0;0;0;0;0;0;0;0;0;0;0;0;0;0;0;0;
  0;0;0;4;4;96;100;0;0;0;0;100;0;0;0;0;0;0;0;0;0;0;0;0;0;0;0;0;0;0;0;0;0;0;0;0;0;0;0;0;4;4;4;4;0;0;4;4;0;0;0;
  0;0;4;4;4;4;4;4;4;4;4;4;0;0;0;0;0;0;0;0;0;0;0;0;0;0;0;0;0;0;0;0;0;0;0;0;4;100;4;4;4;4;0;0;4;4;4;4;0;0;0;0;0;
  0;0;0;100;0;0;0;0;0;0;0;0;0;4;4;4;4;4;4;0;0;4;4;4;0;0;0;0;0;0;0;0;0;0;4;4;4;4;4;4;4;4;4;4;4;4;4;0;4;100;0;0;
  0;0;0;0;0;0;0;0;0;0;0;0;0;0;0;0;4;4;4;4;4;4;4;0;4;4;4;4;4;4;0;100;4;4;4;4;4;4;4;4;0;0;4;4;4;4;4;4;4;0;4;4;0;
  4;4;0;0;0;0;0;0;0;0;0;0;0;0;0;0;0;0;0;0;4;4;4;4;4;4;0;0;0;4;0;4;4;0;4;4;4;100;4;100;100;0;4;0;0;0;0;0;0;0;0;
  0;0;0;0;0;0;0;0;0;0;0;0;0;0;0;0;4;4;0;0;0;4;0;100;0;0;0;0;0;0;0;0;0;0;0;0;0;0;0;0;0;0;0;4;4;0;0;0;0;0;0;0;0;
  0;0;0;0;0;0;0;0;0;0;0;4;4;4;4;4;4;4;4;4;0;0;0;0;0;0;0;0;0;0;0;0;0;0;0;0;0;0;0;100;100;100;100;100;0;0;0;0;0;
  0;0;0;0;0;0;0;0;0;0;0;0;0;0;68;68;68;68;68;68;68;0;0;0;0;0;0;0;0;0;0;0;0;0;0;0;0;4;4;4;4;4;4;4;4;4;4;4;4;4;
  4;4;4;4;4;4;0;4;4;0;0;0;0;0;0;0;0;0;0;0;96;96;0;0;0;0;0;0].
Definition ucase_props_trieIndex_22 : list Z := [
  0;0;0;0;0;0;0;0;0;0;0;0;0;0;0;0;0;0;0;0;0;0;0;0;0;4;100;0;0;0;0;0;0;96;96;100;100;100;0;0;0;96;96;96;96;96;
  96;4;4;4;4;4;4;4;4;100;100;100;100;100;100;100;100;0;0;68;68;68;68;68;100;100;0;0;0;0;0;0;0;0;0;0;0;0;0;0;0;
  0;0;0;0;0;0;0;68;68;68;68;0;0;0;0;0;0;0;0;0;0;0;0;0;0;0;0;0;0;0;0;68;68;68;0;0;0;0;0;0;0;0;0;0;0;0;0;0;0;0;
  0;0;0;0;0;0;0;0;0;0;0;2;2;2;2;2;2;2;2;2;2;2;2;2;2;2;2;2;2;2;2;2;2;2;2;2;2;1;1;1;1;1;1;1;1;33;33;1;1;1;1;1;1;
  1;1;1;1;1;1;1;1;1;1;2;2;2;2;2;2;2;2;2;2;2;2;2;2;1;1;1;1;1;1;1;0;33;33;1;1;1;1;1;1;1;1;2;2;2;2;2;2;2;2;2;2;2;
  2;2;2;2;2;2;2;2;2;2;2;2;2;2;2;1;1;1;1;1;1;1;1;33;33;1;1;1;1;1;1;1;1;1;1;1;1;1;1;1;1;2;0;2;2;0;0;2;0;0;2;2;0;
  0;2;2;2;2;0;2;2;2;2;2;2;2;2;1;1;1;1;0;1;0;1;33;33;1;1;1;1;0;1;1;1;1;1;1;1;1;1;1;1;2;2;2;2;2;2;2;2;2;2;2;2;2;
  2;2;2;1;1;1;1;2;2;0;2;2;2;2;0;0;2;2;2;2;2;2;2;2;0;2;2;2;2;2;2;2;0;1;1;1;1;1;1;1;1;33;33;1;1;1;1;1;1;1;1;1;1;
  1;1;1;1;1;1;2;2;0;2;2;2;2;0;2;2;2;2;2;0;2;0;0;0;2;2;2;2;2;2;2;0;1;1;1;1;1;1;1;1;33;33;1;1;1;1;1;1;1;1;1;1;1;
  1;2;2;2;2;2;2;2;2;2;2;2;2;2;2;2;2;2;2;2;2;1;1;1;1;1;1;1;1;1;1;1;1;1;1;1;1;2;2;2;2;2;2;2;2;2;2;2;2;2;2;2;2;1;
  1;1;1].
Definition ucase_props_trieIndex_23 : list Z := [
  1;1;0;0;2;2;2;2;2;2;2;2;2;2;2;2;2;2;2;2;2;2;2;2;2;2;2;2;2;0;1;1;1;1;1;1;1;1;1;1;1;1;1;1;1;1;1;1;1;1;1;1;1;1;
  1;0;1;1;1;1;1;1;2;2;2;2;2;2;2;2;2;2;2;2;2;2;2;2;2;2;2;2;2;2;2;2;2;0;1;1;1;1;1;1;1;1;1;1;1;1;1;1;1;1;1;1;1;1;
  1;0;1;1;1;1;1;1;2;2;2;2;2;2;2;2;2;2;2;2;2;2;2;2;1;1;1;0;1;1;1;1;1;1;2;1;0;0;0;0;0;0;0;0;0;0;0;0;0;0;0;0;0;0;
  0;0;4;4;4;4;4;4;4;4;4;4;4;4;4;4;4;4;4;4;4;4;4;4;4;0;0;0;0;4;4;4;4;4;4;4;4;4;4;4;4;4;4;0;0;0;0;0;0;0;0;4;0;0;
  0;0;0;0;0;0;0;0;4;0;0;0;0;0;0;0;0;0;0;0;0;0;0;0;0;0;0;0;0;0;0;4;4;4;4;4;0;4;4;4;4;4;4;4;4;4;4;4;4;4;4;4;0;0;
  0;0;0;0;0;0;0;0;0;0;0;0;0;0;68;68;68;68;68;68;68;0;68;68;68;68;68;68;68;68;68;68;68;68;68;68;68;68;68;0;0;
  68;68;68;68;68;68;68;0;68;68;0;68;68;68;68;68;0;0;0;0;0;0;0;0;0;0;0;0;0;0;0;0;0;0;0;0;0;68;68;68;68;68;68;
  68;4;4;4;4;4;4;4;0;0;0;0;0;0;0;0;0;0;0;0;0;0;0;0;0;0;100;100;100;100;100;100;100;0;0;0;0;0;0;0;0;0;4370;
  4370;4370;4370;4370;4370;4370;4370;4370;4370;4370;4370;4370;4370;4370;4370;4370;4370;4370;4370;4370;4370;
  4370;4370;4370;4370;4370;4370;4370;4370;4370;4370;4370;4370;61201;61201;61201;61201;61201;61201;61201;61201;
  61201;61201;61201;61201;61201;61201;61201;61201;61201;61201;61201;61201;61201;61201;61201;61201;61201;61201;
  61201;61201;61201;61201;68;68;68;68;68;68;100;4;0;0;0;0;0;0;0;0;0;0;0;0;0;0;0;0;0;0;0;0;2;2;2;2;2;2;2;2;2;2;
  0;0;0;0;0;0;2;2;2;2;2;2;2;2].
Definition ucase_props_trieIndex_24 : list Z := [
  2;2;2;2;2;2;2;2;2;2;0;0;0;0;0;0;0;0;0;0;0;0;0;0;0;0;0;0;0;0;0;0;4;4;4;4;4;4;4;4;4;4;4;4;4;4;4;4;0;0;0;0;0;0;
  0;0;0;0;0;0;0;0;0;0;0;0;0;0].
Definition ucase_props_trieIndex_list : list Z := (ucase_props_trieIndex_0 ++ ucase_props_trieIndex_1 ++ ucase_props_trieIndex_2 ++ ucase_props_trieIndex_3 ++ ucase_props_trieIndex_4 ++ ucase_props_trieIndex_5 ++ ucase_props_trieIndex_6 ++ ucase_props_trieIndex_7 ++ ucase_props_trieIndex_8 ++ ucase_props_trieIndex_9 ++ ucase_props_trieIndex_10 ++ ucase_props_trieIndex_11 ++ ucase_props_trieIndex_12 ++ ucase_props_trieIndex_13 ++ ucase_props_trieIndex_14 ++ ucase_props_trieIndex_15 ++ ucase_props_trieIndex_16 ++ ucase_props_trieIndex_17 ++ ucase_props_trieIndex_18 ++ ucase_props_trieIndex_19 ++ ucase_props_trieIndex_20 ++ ucase_props_trieIndex_21 ++ ucase_props_trieIndex_22 ++ ucase_props_trieIndex_23 ++ ucase_props_trieIndex_24)%list.
Definition ucase_props_trieIndex_tree : tree := Eval vm_compute in tree_of ucase_props_trieIndex_list.
Definition ucase_props_trieIndex : arr := arr_of_tree 12356 ucase_props_trieIndex_tree.
Lemma ucase_props_trieIndex_is : ucase_props_trieIndex_tree = tree_of ucase_props_trieIndex_list /\ zlen ucase_props_trieIndex_list = 12356.
Proof. split; vm_compute; reflexivity. Qed.

(** CasePropsData.py:785-891 *)
Definition ucase_props_exceptions_0 : list Z := [
  51280;32;2;304;305;18448;32;2113;107;1;8490;2113;115;1;383;23632;32;2;304;305;2116;75;1;8490;2116;83;1;383;
  2054;956;924;2113;229;1;8491;2240;1;8736;115;115;83;83;83;115;7838;2116;197;1;8491;18448;1;52816;199;2;73;
  305;2116;73;2;105;304;2176;8736;700;110;700;78;700;78;2054;115;83;2057;454;453;2061;454;452;453;2060;452;
  453;2057;457;456;2061;457;455;456;2060;455;456;2057;460;459;2061;460;458;459;2060;458;459;2176;8736;106;780;
  74;780;74;780;2057;499;498;2061;499;497;498;2060;497;498;2064;10795;2064;10792;2064;10815;2064;10783;2064;
  10780;2064;10782;2064;42319;2064;42315;2064;42280;2064;42308;2064;10743;2064;42305;2064;10749;2064;10727;
  2064;42307;2064;42282;6160;42261;2064;42258;26624;14406;953;921;1;8126;2240;1;13104;953;776;769;921;776;769;
  921;776;769;8147;2113;946;1;976;2113;949;1;1013;2113;952;2;977;1012;2113;953;2;837;8126;2113;954;1;1008;
  2113;956;1;181;2113;960;1;982;2113;961;1;1009;18512;32;1;962;2113;966;1;981;2113;969;1;8486;2240;1;13104;
  965;776;769;933;776;769;933;776;769;8163;2116;914;1;976;2116;917;1;1013;2116;920;2;977;1012;2116;921;2;837;
  8126;2116;922;1;1008;2116;924;1;181;2116;928;1;982;2116;929;1;1009;2054;963;931;2116;931;1;962;2116;934;1;
  981;2116;937;1;8486;2054;946;914;2118;952;920;1;1012;2054;966;934;2054;960;928;2054;954;922;2054;961;929;
  2113;952;2;920;977;2054;949;917;2113;1074;1;7296;2113;1076;1;7297;2113;1086;1;7298;2113;1089;1;7299;2113;
  1090;2;7300;7301;2113;1098;1;7302;2116;1042;1;7296;2116;1044;1;7297;2116;1054;1;7298;2116;1057;1;7299;2116;
  1058;2;7300;7301;2116;1066;1;7302;2113;1123;1;7303;2116;1122;1;7303;18560;32;1381;1410;2064;7264;2060;7312;
  4304;2060;7313;4305;2060;7314;4306;2060;7315;4307;2060;7316;4308;2060;7317;4309;2060;7318;4310;2060;7319;
  4311;2060;7320;4312;2060;7321;4313;2060;7322;4314;2060;7323;4315;2060;7324;4316;2060;7325;4317;2060;7326;
  4318;2060;7327;4319;2060;7328;4320;2060;7329;4321;2060;7330;4322;2060;7331;4323;2060;7332;4324;2060;7333;
  4325;2060;7334;4326;2060;7335;4327;2060;7336;4328;2060;7337;4329;2060;7338;4330;2060;7339;4331;2060;7340;
  4332;2060;7341;4333;2060;7342;4334;2060;7343;4335;2060;7344;4336;2060;7345;4337;2060;7346;4338;2060;7347;
  4339;2060;7348;4340;2060;7349;4341;2060;7350;4342;2060;7351;4343;2060;7352;4344;2060;7353;4345;2060;7354;
  4346;2060;7357;4349;2060;7358;4350;2060;7359].
Definition ucase_props_exceptions_1 : list Z := [
  4351;2576;38864;2576;8;2054;5104;5104;2054;5105;5105;2054;5106;5106;2054;5107;5107;2054;5108;5108;2054;5109;
  5109;2054;1074;1042;2054;1076;1044;2054;1086;1054;2054;1089;1057;2118;1090;1058;1;7301;2118;1090;1058;1;
  7300;2054;1098;1066;2054;1123;1122;2054;42571;42570;3088;3008;2064;35332;2064;3814;2064;35384;2113;7777;1;
  7835;2116;7776;1;7835;2176;8736;104;817;72;817;72;817;2176;8736;116;776;84;776;84;776;2176;8736;119;778;87;
  778;87;778;2176;8736;121;778;89;778;89;778;2176;8736;97;702;65;702;65;702;2054;7777;7776;3216;7615;32;115;
  115;2176;8736;965;787;933;787;933;787;2176;13104;965;787;768;933;787;768;933;787;768;2176;13104;965;787;769;
  933;787;769;933;787;769;2176;13104;965;787;834;933;787;834;933;787;834;2192;8;544;7936;953;7944;921;2192;8;
  544;7937;953;7945;921;2192;8;544;7938;953;7946;921;2192;8;544;7939;953;7947;921;2192;8;544;7940;953;7948;
  921;2192;8;544;7941;953;7949;921;2192;8;544;7942;953;7950;921;2192;8;544;7943;953;7951;921;3216;8;544;7936;
  953;7944;921;3216;8;544;7937;953;7945;921;3216;8;544;7938;953;7946;921;3216;8;544;7939;953;7947;921;3216;8;
  544;7940;953;7948;921;3216;8;544;7941;953;7949;921;3216;8;544;7942;953;7950;921;3216;8;544;7943;953;7951;
  921;2192;8;544;7968;953;7976;921;2192;8;544;7969;953;7977;921;2192;8;544;7970;953;7978;921;2192;8;544;7971;
  953;7979;921;2192;8;544;7972;953;7980;921;2192;8;544;7973;953;7981;921;2192;8;544;7974;953;7982;921;2192;8;
  544;7975;953;7983;921;3216;8;544;7968;953;7976;921;3216;8;544;7969;953;7977;921;3216;8;544;7970;953;7978;
  921;3216;8;544;7971;953;7979;921;3216;8;544;7972;953;7980;921;3216;8;544;7973;953;7981;921;3216;8;544;7974;
  953;7982;921;3216;8;544;7975;953;7983;921;2192;8;544;8032;953;8040;921;2192;8;544;8033;953;8041;921;2192;8;
  544;8034;953;8042;921;2192;8;544;8035;953;8043;921;2192;8;544;8036;953;8044;921;2192;8;544;8037;953;8045;
  921;2192;8;544;8038;953;8046;921;2192;8;544;8039;953;8047;921;3216;8;544;8032;953;8040;921;3216;8;544;8033;
  953;8041;921;3216;8;544;8034;953;8042;921;3216;8;544;8035;953;8043;921;3216;8;544;8036;953;8044;921;3216;8;
  544;8037;953;8045;921;3216;8;544;8038;953;8046;921;3216;8;544;8039;953;8047;921;2176;8736;8048;953;8122;921;
  8122;837;2192;9;544;945;953;913;921;2176;8736].
Definition ucase_props_exceptions_2 : list Z := [
  940;953;902;921;902;837;2176;8736;945;834;913;834;913;834;2176;13104;945;834;953;913;834;921;913;834;837;
  3216;9;544;945;953;913;921;2118;953;921;1;837;2176;8736;8052;953;8138;921;8138;837;2192;9;544;951;953;919;
  921;2176;8736;942;953;905;921;905;837;2176;8736;951;834;919;834;919;834;2176;13104;951;834;953;919;834;921;
  919;834;837;3216;9;544;951;953;919;921;2176;13104;953;776;768;921;776;768;921;776;768;2240;1;13104;953;776;
  769;921;776;769;921;776;769;912;2176;8736;953;834;921;834;921;834;2176;13104;953;776;834;921;776;834;921;
  776;834;2176;13104;965;776;768;933;776;768;933;776;768;2240;1;13104;965;776;769;933;776;769;933;776;769;944;
  2176;8736;961;787;929;787;929;787;2176;8736;965;834;933;834;933;834;2176;13104;965;776;834;933;776;834;933;
  776;834;2176;8736;8060;953;8186;921;8186;837;2192;9;544;969;953;937;921;2176;8736;974;953;911;921;911;837;
  2176;8736;969;834;937;834;937;834;2176;13104;969;834;953;937;834;921;937;834;837;3216;9;544;969;953;937;921;
  3152;7517;1;937;3152;8383;1;75;3152;8262;1;197;3088;10743;3088;3814;3088;10727;3088;10795;3088;10792;3088;
  10780;3088;10749;3088;10783;3088;10782;3088;10815;3088;7264;2113;42571;1;7304;2116;42570;1;7304;3088;35332;
  3088;42280;3088;42308;3088;42319;3088;42315;3088;42305;3088;42258;3088;42282;3088;42261;2064;928;3088;42307;
  3088;35384;3088;928;2054;5024;5024;2054;5025;5025;2054;5026;5026;2054;5027;5027;2054;5028;5028;2054;5029;
  5029;2054;5030;5030;2054;5031;5031;2054;5032;5032;2054;5033;5033;2054;5034;5034;2054;5035;5035;2054;5036;
  5036;2054;5037;5037;2054;5038;5038;2054;5039;5039;2054;5040;5040;2054;5041;5041;2054;5042;5042;2054;5043;
  5043;2054;5044;5044;2054;5045;5045;2054;5046;5046;2054;5047;5047;2054;5048;5048;2054;5049;5049;2054;5050;
  5050;2054;5051;5051;2054;5052;5052;2054;5053;5053;2054;5054;5054;2054;5055;5055;2054;5056;5056;2054;5057;
  5057;2054;5058;5058;2054;5059;5059;2054;5060;5060;2054;5061;5061;2054;5062;5062;2054;5063;5063;2054;5064;
  5064;2054;5065;5065;2054;5066;5066;2054;5067;5067;2054;5068;5068;2054;5069;5069;2054;5070;5070;2054;5071;
  5071;2054;5072;5072;2054;5073;5073;2054;5074;5074;2054;5075;5075;2054;5076;5076;2054;5077;5077;2054;5078;
  5078;2054;5079;5079;2054;5080;5080;2054;5081;5081;2054;5082;5082;2054;5083;5083;2054;5084;5084;2054;5085;
  5085;2054;5086;5086;2054;5087;5087;2054;5088;5088;2054;5089;5089;2054;5090;5090;2054;5091;5091;2054;5092;
  5092;2054;5093;5093;2054;5094;5094;2054;5095].
Definition ucase_props_exceptions_3 : list Z := [
  5095;2054;5096;5096;2054;5097;5097;2054;5098;5098;2054;5099;5099;2054;5100;5100;2054;5101;5101;2054;5102;
  5102;2054;5103;5103;2176;8736;102;102;70;70;70;102;2176;8736;102;105;70;73;70;105;2176;8736;102;108;70;76;
  70;108;2176;13104;102;102;105;70;70;73;70;102;105;2176;13104;102;102;108;70;70;76;70;102;108;2240;1;8736;
  115;116;83;84;83;116;64262;2240;1;8736;115;116;83;84;83;116;64261;2176;8736;1396;1398;1348;1350;1348;1398;
  2176;8736;1396;1381;1348;1333;1348;1381;2176;8736;1396;1387;1348;1339;1348;1387;2176;8736;1406;1398;1358;
  1350;1358;1398;2176;8736;1396;1389;1348;1341;1348;1389].
Definition ucase_props_exceptions_list : list Z := (ucase_props_exceptions_0 ++ ucase_props_exceptions_1 ++ ucase_props_exceptions_2 ++ ucase_props_exceptions_3)%list.
Definition ucase_props_exceptions_tree : tree := Eval vm_compute in tree_of ucase_props_exceptions_list.
Definition ucase_props_exceptions : arr := arr_of_tree 1667 ucase_props_exceptions_tree.
Lemma ucase_props_exceptions_is : ucase_props_exceptions_tree = tree_of ucase_props_exceptions_list /\ zlen ucase_props_exceptions_list = 1667.
Proof. split; vm_compute; reflexivity. Qed.

(** CasePropsData.py:893-918 *)
Definition ucase_props_unfold_0 : list Z := [
  73;5;3;0;0;97;702;0;7834;0;102;102;0;64256;0;102;102;105;64259;0;102;102;108;64260;0;102;105;0;64257;0;102;
  108;0;64258;0;104;817;0;7830;0;105;775;0;304;0;106;780;0;496;0;115;115;0;223;7838;115;116;0;64261;64262;116;
  776;0;7831;0;119;778;0;7832;0;121;778;0;7833;0;700;110;0;329;0;940;953;0;8116;0;942;953;0;8132;0;945;834;0;
  8118;0;945;834;953;8119;0;945;953;0;8115;8124;951;834;0;8134;0;951;834;953;8135;0;951;953;0;8131;8140;953;
  776;768;8146;0;953;776;769;912;8147;953;776;834;8151;0;953;834;0;8150;0;961;787;0;8164;0;965;776;768;8162;0;
  965;776;769;944;8163;965;776;834;8167;0;965;787;0;8016;0;965;787;768;8018;0;965;787;769;8020;0;965;787;834;
  8022;0;965;834;0;8166;0;969;834;0;8182;0;969;834;953;8183;0;969;953;0;8179;8188;974;953;0;8180;0;1381;1410;
  0;1415;0;1396;1381;0;64276;0;1396;1387;0;64277;0;1396;1389;0;64279;0;1396;1398;0;64275;0;1406;1398;0;64278;
  0;7936;953;0;8064;8072;7937;953;0;8065;8073;7938;953;0;8066;8074;7939;953;0;8067;8075;7940;953;0;8068;8076;
  7941;953;0;8069;8077;7942;953;0;8070;8078;7943;953;0;8071;8079;7968;953;0;8080;8088;7969;953;0;8081;8089;
  7970;953;0;8082;8090;7971;953;0;8083;8091;7972;953;0;8084;8092;7973;953;0;8085;8093;7974;953;0;8086;8094;
  7975;953;0;8087;8095;8032;953;0;8096;8104;8033;953;0;8097;8105;8034;953;0;8098;8106;8035;953;0;8099;8107;
  8036;953;0;8100;8108;8037;953;0;8101;8109;8038;953;0;8102;8110;8039;953;0;8103;8111;8048;953;0;8114;0;8052;
  953;0;8130;0;8060;953;0;8178;0].
Definition ucase_props_unfold_list : list Z := (ucase_props_unfold_0)%list.
Definition ucase_props_unfold_tree : tree := Eval vm_compute in tree_of ucase_props_unfold_list.
Definition ucase_props_unfold : arr := arr_of_tree 370 ucase_props_unfold_tree.
Lemma ucase_props_unfold_is : ucase_props_unfold_tree = tree_of ucase_props_unfold_list /\ zlen ucase_props_unfold_list = 370.
Proof. split; vm_compute; reflexivity. Qed.

(** CasePropsData.py:920 *)
Definition ucase_props_trie_index_length : Z := 3288.

(** CasePropsData.py:921 *)
Definition ucase_props_trie_index_2_null_offset : Z := 392.

(** CasePropsData.py:922 *)
Definition ucase_props_trie_data_null_offset : Z := 3412.

(** CasePropsData.py:923 *)
Definition ucase_props_trie_high_start : Z := 919552.

(** CasePropsData.py:924 *)
Definition ucase_props_trie_high_value_index : Z := 12352.
