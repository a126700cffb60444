(** * The tables of UnicodeData/Norm2NFCData.py.

    Written by tools/gen_data.py, which copies the numbers of that file. *)
From Coq Require Import ZArith List.
From Verif Require Import Py Arr.
Import ListNotations.
Open Scope Z_scope.

(** Norm2NFCData.py:12 *)
Definition norm2_nfc_data_indexLength : Z := 1746.

(** Norm2NFCData.py:13 *)
Definition norm2_nfc_data_dataLength : Z := 7892.

(** Norm2NFCData.py:14 *)
Definition norm2_nfc_data_highStart : Z := 195584.

(** Norm2NFCData.py:15 *)
Definition norm2_nfc_data_shifted12HighStart : Z := 48.

(** Norm2NFCData.py:16 *)
Definition norm2_nfc_data_type : Z := 0.

(** Norm2NFCData.py:17 *)
Definition norm2_nfc_data_valueWidth : Z := 0.

(** Norm2NFCData.py:23 *)
Definition norm2_nfc_data_index3NullOffset : Z := 196.

(** Norm2NFCData.py:24 *)
Definition norm2_nfc_data_dataNullOffset : Z := 550.

(** Norm2NFCData.py:25 *)
Definition norm2_nfc_data_nullValue : Z := 1.

(** Norm2NFCData.py:27-30 *)
Definition norm2_nfc_data_indexes_list : list Z := [
  80;19372;34836;35092;35092;35092;35092;35092;192;768;2786;10720;15462;64512;4744;15260;15412;15462;768;0].
Definition norm2_nfc_data_indexes : arr := arr_of_list norm2_nfc_data_indexes_list.

(** Norm2NFCData.py:32-143 *)
Definition norm2_nfc_data_trieIndex_0 : list Z := [
  0;64;123;187;251;314;378;434;498;550;596;550;660;724;787;851;915;978;1039;1102;550;550;1160;1224;1272;1328;
  550;1392;1439;1502;550;1523;1585;1631;550;1676;1740;1801;1833;1896;1959;2020;2051;2112;1833;2169;2215;2278;
  550;2336;2359;2423;2446;2509;550;2563;2595;2654;2666;2725;2765;2826;2890;2948;2975;550;3034;550;3098;3129;
  3183;3244;550;550;550;550;550;3279;550;550;550;550;550;550;550;550;550;550;550;550;550;550;3323;550;550;
  3376;550;550;3406;550;3448;550;550;550;3508;3540;3604;3667;3726;3790;3842;3886;2056;550;550;3938;550;550;
  550;4002;4066;4130;4194;4258;4322;4386;4450;4514;4578;550;550;4626;4675;550;4723;4774;4835;4898;4962;5016;
  5062;550;550;550;550;550;550;550;550;550;550;550;550;550;550;550;550;550;550;550;550;550;550;550;550;550;
  550;550;550;550;550;5105;550;550;550;550;550;550;550;3261;550;5134;550;5198;550;550;550;550;550;550;550;550;
  5262;5320;5382;5446;550;550;550;550;550;550;550;550;550;550;550;550;550;550;550;550;550;550;550;550;550;550;
  550;550;550;550;550;550;550;550;550;550;550;550;550;550;550;550;550;550;550;550;550;550;550;550;550;550;550;
  550;550;550;550;550;550;550;550;550;550;550;550;550;550;550;550;550;550;550;550;550;550;550;550;550;550;550;
  550;550;550;550;550;550;550;550;550;550;550;550;550;550;550;550;550;550;550;550;550;550;550;550;550;550;550;
  550;550;550;550;550;550;550;550;550;550;550;550;550;550;550;550;550;550;550;550;550;550;550;550;550;550;550;
  550;550;550;550;550;550;550;550;550;550;550;550;550;550;550;550;550;550;550;550;550;550;550;550;550;550;550;
  550;550;550;550;550;550;550;550;550;550;550;550;550;550;550;550;550;550;550;550;550;550;550;550;550;550;550;
  550;550;550;550;550;550;550;550;550;550;550;550;550;550;550;550;550;550;550;550;550;550;550;550;550;550;550;
  550;550;550;550;550;550;550;550;550;550;550;550;550;550;550;550;550;550;550;550;550;550;550;550;550;550;550;
  550;550;550;550;550;550;550;550;550;550;550;550;550;550;550;550;550;550;550;550;550;550;550;550;550;550;550;
  550;550;550;550;550;550;550;550;550;550;550;550;550;550;550;550;550;550;550;550;550;550;550;550;550;550;550;
  550;550;550;550;550;550;550;550;550;550;550;550;550;550;550;550;550;550;550;550;550;550;550;550].
Definition norm2_nfc_data_trieIndex_1 : list Z := [
  550;550;550;550;550;550;550;550;550;550;550;550;550;550;550;550;550;550;550;550;550;550;550;550;550;550;550;
  550;550;550;550;550;550;550;550;550;550;550;550;550;550;550;550;550;550;550;550;550;550;550;550;550;550;550;
  550;550;550;550;550;550;550;550;550;550;550;550;550;550;550;550;550;550;550;550;550;550;550;550;550;550;550;
  550;550;550;550;550;550;550;550;550;550;550;550;550;550;550;550;550;550;550;550;550;550;550;550;550;550;550;
  550;550;550;550;550;550;550;550;550;550;550;550;550;550;550;550;550;550;550;550;550;550;550;550;550;550;550;
  550;550;550;550;550;550;550;550;550;550;550;550;550;550;550;550;550;550;5509;5571;5603;550;550;550;550;5661;
  550;550;5701;5751;5797;2060;5816;550;550;5832;5896;550;550;550;5152;5960;5968;5976;5984;5964;5972;5980;5960;
  5968;5976;5984;5964;5972;5980;5960;5968;5976;5984;5964;5972;5980;5960;5968;5976;5984;5964;5972;5980;5960;
  5968;5976;5984;5964;5972;5980;5960;5968;5976;5984;5964;5972;5980;5960;5968;5976;5984;5964;5972;5980;5960;
  5968;5976;5984;5964;5972;5980;5960;5968;5976;5984;5964;5972;5980;5960;5968;5976;5984;5964;5972;5980;5960;
  5968;5976;5984;5964;5972;5980;5960;5968;5976;5984;5964;5972;5980;5960;5968;5976;5984;5964;5972;5980;5960;
  5968;5976;5984;5964;5972;5980;5960;5968;5976;5984;5964;5972;5980;5960;5968;5976;5984;5964;5972;5980;5960;
  5968;5976;5984;5964;5972;5980;5960;5968;5976;5984;5964;5972;5980;5960;5968;5976;5984;5964;5972;5980;5960;
  5968;5976;5984;5964;5972;5980;5960;5968;5976;5984;5964;5972;5980;5960;5968;5976;5984;5964;5972;5980;5960;
  5968;5976;5984;5964;5972;5980;5960;5968;5976;5984;5964;5972;5980;5960;5968;5976;5984;5964;5972;6036;550;
  6100;6159;550;550;550;550;550;550;550;550;550;550;550;550;550;550;550;550;550;550;550;550;550;550;550;550;
  550;550;550;550;550;550;550;550;550;550;550;550;550;550;550;550;550;550;550;550;550;550;550;550;550;550;550;
  550;550;550;550;550;550;550;550;550;550;550;550;550;550;550;550;550;550;550;550;550;550;550;550;550;550;550;
  550;550;550;550;550;550;550;550;550;550;550;550;550;550;550;550;550;550;550;550;550;550;550;550;550;550;550;
  550;550;550;550;550;550;550;550;550;550;550;550;550;550;550;550;550;550;550;550;550;550;550;550;550;6223;
  6287;6351;6415;6479;6543;6607;6671;6706;6770;550;550;550;550;550;550;550;550;550;550;6802;550;550;550;550;
  550;550;550].
Definition norm2_nfc_data_trieIndex_2 : list Z := [
  1621;1636;1660;1691;1712;1712;1712;1716;550;550;550;550;550;550;550;550;550;550;550;550;550;550;550;550;550;
  550;550;550;550;550;550;550;550;550;550;550;550;550;550;3034;550;550;550;550;550;550;550;550;550;550;550;
  550;550;550;1359;550;550;550;550;550;550;550;550;1036;550;550;550;550;550;550;550;550;6853;550;550;6869;550;
  550;550;550;550;550;550;550;550;550;3526;550;550;550;550;550;550;550;550;550;550;550;550;550;550;550;550;
  550;550;6885;550;550;550;550;550;550;550;550;550;550;550;550;550;5590;550;550;550;550;550;550;550;550;550;
  6895;1359;550;550;550;550;550;550;550;550;550;550;2027;550;550;2490;550;6911;6924;6936;550;550;550;550;1044;
  550;6947;6963;550;550;550;2016;550;550;550;550;6979;550;550;550;6990;550;550;550;550;550;550;550;550;550;
  550;6997;550;550;550;550;7008;7023;2294;7037;1042;550;550;550;550;550;550;550;550;7051;1944;550;550;550;550;
  550;7067;7082;550;550;550;550;550;550;550;550;550;550;550;550;550;2262;7090;7106;550;550;550;2490;550;550;
  550;550;550;550;550;7116;550;550;550;550;550;550;2022;550;550;550;550;550;550;550;550;550;550;550;550;550;
  7113;550;550;550;550;550;550;550;550;550;550;550;550;550;550;550;7132;2016;550;550;550;550;550;550;550;550;
  550;2125;550;550;550;2029;2026;550;550;550;550;2024;550;550;550;550;550;550;550;550;550;550;550;550;550;550;
  550;550;550;550;550;550;550;550;2490;550;550;550;550;550;550;550;550;550;550;550;550;550;550;550;550;3028;
  550;550;550;550;2026;550;550;550;550;550;550;550;550;550;550;550;550;550;550;550;7148;550;550;550;3835;550;
  550;550;550;550;550;550;550;550;550;550;550;550;550;550;550;550;550;550;550;550;550;550;550;550;550;550;550;
  550;550;550;7164;550;550;550;550;550;550;550;550;550;7166;550;550;550;550;550;550;550;550;550;550;550;550;
  550;550;550;550;550;550;550;550;550;550;7181;7197;7211;7224;550;7236;7250;7266;550;550;550;550;3306;550;550;
  550;550;550;550;550;550;550;550;550;550;550;550;550;550;550;550;550;550;550;550;550;550;550;550;550;7282;
  7290;7304;550;550;550;550;550;550;550;550;550;550;550;550;550;550;550;550;3835;550;550;550;550;550;550;550;
  550;550;550;550;550;550;550;1276;550;550;550;550;550;550;550;550;550;550;550;550;550;550;550].
Definition norm2_nfc_data_trieIndex_3 : list Z := [
  550;550;7320;550;550;550;550;550;550;7332;550;550;550;550;550;550;550;550;550;550;550;7348;7364;7380;7396;
  7412;7428;7444;7460;7476;7492;7508;7524;7540;7556;7572;7588;7604;7620;7636;7652;7668;7684;7700;7716;7732;
  7748;7764;7780;7796;7812;7828;7844;7860;7876;550;550;550;550;550;550;550;550;550;550;550;550;550;550;550;
  550;550;550;550;550;550;550;550;550;550;550;550;550;550;550;1032;1064;196;196;196;1096;1111;1133;1161;1190;
  1218;1247;1276;1307;1336;196;196;196;196;196;196;196;196;196;196;196;196;196;196;196;196;196;196;196;196;
  196;1362;196;1382;196;196;196;196;196;196;196;196;196;196;196;196;196;196;196;196;196;196;196;196;196;196;
  196;196;196;196;196;196;196;196;1414;196;196;196;196;196;196;196;196;1425;1454;196;196;196;196;196;196;1486;
  1506;196;196;1525;196;196;196;196;196;196;196;196;196;196;196;196;196;196;196;196;196;196;196;196;196;196;
  196;196;196;196;196;196;196;196;196;196;1557;1589].
Definition norm2_nfc_data_trieIndex_list : list Z := (norm2_nfc_data_trieIndex_0 ++ norm2_nfc_data_trieIndex_1 ++ norm2_nfc_data_trieIndex_2 ++ norm2_nfc_data_trieIndex_3)%list.
Definition norm2_nfc_data_trieIndex_tree : tree := Eval vm_compute in tree_of norm2_nfc_data_trieIndex_list.
Definition norm2_nfc_data_trieIndex : arr := arr_of_tree 1746 norm2_nfc_data_trieIndex_tree.
Lemma norm2_nfc_data_trieIndex_is : norm2_nfc_data_trieIndex_tree = tree_of norm2_nfc_data_trieIndex_list /\ zlen norm2_nfc_data_trieIndex_list = 1746.
Proof. split; vm_compute; reflexivity. Qed.

(** Norm2NFCData.py:145-640 *)
Definition norm2_nfc_data_trieData_0 : list Z := [
  1;1;1;1;1;1;1;1;1;1;1;1;1;1;1;1;1;1;1;1;1;1;1;1;1;1;1;1;1;1;1;1;1;1;1;1;1;1;1;1;1;1;1;1;1;1;1;1;1;1;1;1;1;1;
  1;1;1;1;1;1;4;8;12;1;1;16;80;92;112;136;204;208;236;264;324;328;348;372;384;420;484;1;492;524;552;580;656;
  664;688;696;732;1;1;1;1;1;1;756;820;832;852;876;944;948;976;1008;1064;1072;1092;1116;1128;1164;1228;1;1236;
  1268;1296;1328;1404;1412;1440;1448;1488;1;1;1;1;1;1;1;1;1;1;1;1;1;1;1;1;1;1;1;1;1;1;1;1;1;1;1;1;1;1;1;1;1;1;
  1;1;1;1;1;1;1512;1;1;1;1;1;1;1;1;1;1;1;1;1;1;1;1;1;1;1;1;1;1;1;4746;4752;2788;4758;2810;2820;1524;2830;4764;
  4770;2840;4776;4782;4788;4794;2862;1;4800;4806;4812;2872;2894;2912;1;1532;4818;4824;4830;2922;4836;1;1;4842;
  4848;2944;4854;2966;2976;1536;2986;4860;4866;2996;4872;4878;4884;4890;3018;1;4896;4902;4908;3028;3050;3068;
  1;1544;4914;4920;4926;3078;4932;1;4938;4944;4950;3100;3122;4957;4963;4968;4974;4980;4986;4992;4998;5004;
  5010;5016;5022;1;1;3144;3158;5028;5034;5040;5046;5053;5059;5064;5070;5076;5082;5088;5094;5100;5106;5113;
  5119;5124;5130;1;1;5136;5142;5148;5154;5160;5166;5173;5179;5184;1;1;1;5191;5197;5203;5209;1;5214;5220;5227;
  5233;5238;5244;1;1;1;5250;5256;5263;5269;5274;5280;1;1;1;3172;3186;5286;5292;5298;5304;1;1;5310;5316;5323;
  5329;5334;5340;3200;3210;5346;5352;5359;5365;3220;3230;5371;5377;5382;5388;1;1;3240;3250;3260;3270;5394;
  5400;5406;5412;5418;5424;5431;5437;5442;5448;5454;5460;5466;5472;5478;5484;5490;5496;5502;1548;1;1;1;1;1;1;
  1;1;1;1;1;1;1;1;1;1;1;1;1;1;1;1;1;1;1;1;1;1;1;1;1;1;3280;3306;1;1;1;1;1;1;1;1;1;1;1;1;1;3332;3358;1;1;1;1;1;
  1;1552;1;1;1;1;1;1;1;1;1;1;1;1;1;5508;5514;5520;5526;5532;5538;5544;5550;5558;5568;5578;5588;5598;5608;5618;
  5628;1;5638;5648;5658;5668;5677;5683;1;1;5688;5694;5700;5706;3384;3394;5715;5725;5733;5739;5745;1;1;1;5750;
  5756;1;1;5762;5768;5776;5786;5795;5801;5807;5813;5818;5824;5830;5836;5842;5848;5854;5860;5866;5872;5878;
  5884;5890;5896].
Definition norm2_nfc_data_trieData_1 : list Z := [
  5902;5908;5914;5920;5926;5932;5938;5944;5950;5956;5962;5968;5974;5980;1;1;5986;5992;1;1;1;1;1;1;3404;3414;
  3424;3434;6000;6010;6020;6030;3444;3454;6040;6050;6058;6064;1;1;1;1;1;1;1;1;1;1;1;1;1;1;1;1;1;1;1;1;1;1;1;1;
  1;1;1;1;1;1;1;1;1;1;1;1;1;1;1;1;1;1;1;1;1;1;1;1;1;1;1;1;1;1;1;1;1;1;1;1;1;1;1;1;1556;1;1;1;1;1;1;1;1;1;1;1;
  1;1;1;1;1;1;1;1;1;1;1;1;1;1;1;1;1;1;1;1;1;1;1;1;1;1;1;1;1;1;1;1;1;1;64972;64972;64972;64972;64972;65484;
  64972;64972;64972;64972;64972;64972;64972;65484;65484;64972;65484;64972;65484;64972;64972;65488;65464;65464;
  65464;65464;65488;64944;65464;65464;65464;65464;65464;65428;65428;64952;64952;64952;64952;64916;64916;65464;
  65464;65464;65464;64952;64952;65464;64952;64952;65464;65464;65026;65026;65026;65026;64514;65464;65464;65464;
  65464;65484;65484;65484;15414;15420;64972;15426;15432;64992;65484;65464;65464;65464;65484;65484;65484;65464;
  65464;1;65484;65484;65484;65464;65464;65464;65464;65484;65488;65464;65464;65484;65490;65492;65492;65490;
  65492;65492;65490;65484;65484;65484;65484;65484;65484;65484;65484;65484;65484;65484;65484;65484;1;1;1;1;
  10721;1;1;1;1;1;1;1;1;1;10725;1;1;1;1;1;6071;6077;10729;6083;6089;6095;1;6101;1;6107;6113;6121;1560;1;1;1;
  1588;1;1604;1;1624;1;1;1;1;1;1652;1;1668;1;1;1;1672;1;1;1;1696;6129;6135;3464;6141;3474;6147;6155;1716;1;1;
  1;1748;1;1764;1;1788;1;1;1;1;1;1820;1;1836;1;1;1;1844;1;1;1;1876;3484;3502;6163;6169;3520;1;1;1;1900;6175;
  6181;1;1;1;1;1;1;1;1;1;1;1;1;1;1;1;1;1;1;1;1;1;1;1;1;1;1;1;1;1;1;1;1;1;1;1;1;1;1;1;1;1;1;1;6187;6193;1;6199;
  1;1;1908;6205;1;1;1;1;6211;6217;6223;1;1912;1;1;1920;1;1924;1936;1944;1948;6229;1964;1;1;1;1968;1;1;1;1;
  1972;1;1;1;1988;1;1;1;1992;1;1996;1;1;2000;1;1;2008;1;2012;2024;2032;2036;6235;2052;1;1;1;2056;1;1;1;2060;1;
  1;1;2076;1;1;1;2080;1;2084;1;1;6241;6247;1;6253;1;1;2088;6259;1;1;1;1;6265;6271;6277;1;1;1;1;1;1;1;1;1;1;1;
  1;1;1;1].
Definition norm2_nfc_data_trieData_2 : list Z := [
  1;1;1;1;1;1;2092;2096;6283;6289;1;1;1;1;1;1;1;1;65484;65484;65484;65484;65484;1;1;1;1;1;1;1;1;1;1;1;1;1;1;1;
  1;1;1;1;1;1;1;1;1;1;1;1;1;1;1;1;1;1;1;1;1;1;1;1;1;1;1;1;1;1;1;1;1;1;1;1;1;1;1;1;1;6295;6301;1;1;1;1;1;1;1;1;
  1;1;1;1;1;6307;6313;6319;6325;1;1;6331;6337;2100;2104;6343;6349;6355;6361;6367;6373;1;1;6379;6385;6391;6397;
  6403;6409;2108;2112;6415;6421;6427;6433;6439;6445;6451;6457;6463;6469;6475;6481;1;1;6487;6493;1;1;1;1;1;1;1;
  1;1;1;1;1;1;1;1;1;1;65464;65484;65484;65484;65484;65464;65484;65484;65484;65468;65464;65484;65484;65484;
  65484;65484;65484;65464;65464;65464;65464;65464;65464;65484;65484;65464;65484;65484;65468;65480;65484;65044;
  65046;65048;65050;65052;65054;65056;65058;65060;65062;65062;65064;65066;65068;1;65070;1;65072;65074;1;65484;
  65464;1;65060;1;1;1;1;1;1;1;1;1;1;1;1;1;1;1;1;1;1;1;1;1;1;1;1;1;1;1;1;1;1;1;1;1;1;1;1;1;1;1;1;1;1;1;1;1;1;1;
  1;1;1;1;1;1;1;1;1;65484;65484;65484;65484;65484;65484;65484;65484;65084;65086;65088;1;1;1;1;1;1;1;6498;6504;
  6511;6517;6523;2116;1;1;1;1;1;1;1;1;1;1;1;1;1;1;1;1;1;1;1;1;1;1;1;1;2128;1;2132;65078;65080;65082;65084;
  65086;65088;65090;65092;64972;64972;64952;65464;65484;65484;65484;65484;65484;65464;65484;65484;65464;1;1;1;
  1;1;1;1;1;1;1;1;1;1;1;1;1;65094;1;1;1;1;1;1;1;1;1;1;1;1;1;1;1;6529;2136;6535;1;1;1;1;1;1;1;1;1;1;1;1;1;1;1;
  2140;6541;1;2144;65484;65484;65484;65484;65484;65484;65484;1;1;65484;65484;65484;65484;65464;65484;1;1;
  65484;65484;1;65464;65484;65484;65464;1;1;1;1;1;1;1;1;1;1;1;1;1;1;1;1;1;1;65096;1;1;1;1;1;1;1;1;1;1;1;1;1;1;
  1;1;1;1;1;1;1;1;1;1;1;1;1;1;1;1;65484;65464;65484;65484;65464;65484;65484;65464;65464;65464;65484;65464;
  65464;65484;65464;65484;65484;65464;65484;65464;65484;65464;65484;65464;65484;65484;1;1;1;1;1;1;1;1;1;1;1;1;
  1;1;1;1;1;1;1;1;1;1;1].
Definition norm2_nfc_data_trieData_3 : list Z := [
  1;1;1;1;1;1;1;1;1;1;1;1;1;1;1;1;1;1;1;1;1;1;1;1;1;1;1;1;1;1;65484;65484;65484;65484;65484;65484;65484;65464;
  65484;1;1;1;1;1;1;1;1;1;65464;1;1;1;1;1;1;1;1;1;1;1;1;1;1;1;1;1;1;1;1;1;1;65484;65484;65484;65484;1;65484;
  65484;65484;65484;65484;65484;65484;65484;65484;1;65484;65484;65484;1;65484;65484;65484;65484;65484;1;1;1;1;
  1;1;1;1;1;1;1;1;1;1;1;1;1;1;1;1;1;1;1;1;1;65464;65464;65464;1;1;1;1;1;1;1;1;1;1;1;1;1;1;1;1;1;1;1;1;1;1;1;1;
  1;1;1;1;1;1;1;1;1;1;1;1;65464;65484;65484;65484;65484;65484;65484;65484;65484;65484;65484;65484;65484;65484;
  65484;1;65464;65484;65484;65464;65484;65484;65464;65484;65484;65484;65464;65464;65464;65078;65080;65082;
  65484;65484;65484;65464;65484;65484;65464;65464;65484;65484;65484;65484;65484;1;1;1;1;1;1;1;1;1;1;1;1;1;1;1;
  1;1;1;1;1;1;1;1;1;1;1;1;1;1;1;1;1;1;1;1;1;1;1;1;1;2148;6547;1;1;1;1;1;1;2152;6553;1;2156;6559;1;1;1;1;1;1;1;
  64526;1;1;1;1;1;1;1;1;1;1;1;1;1;65042;1;1;1;65484;65464;65484;65484;1;1;1;10732;10738;10744;10750;10756;
  10762;10768;10774;1;1;1;1;1;1;1;1;1;1;1;1;1;1;1;1;1;1;1;1;1;1;1;1;1;1;1;1;1;1;1;1;1;1;1;1;1;1;1;1;1;1;1;1;1;
  1;1;1;1;1;1;1;1;1;1;1;1;1;1;1;65038;1;64512;1;1;1;1;1;1;1;2160;1;1;1;6565;6571;65042;1;1;1;1;1;1;1;1;1;
  64512;1;1;1;1;10780;10786;1;10792;1;1;1;1;1;1;1;1;1;1;1;1;1;1;1;1;1;1;1;1;1;1;1;1;1;1;1;1;1;1;65484;1;1;1;1;
  1;1;1;1;1;1;1;1;1;1;1;1;1;1;1;1;1;1;1;1;1;1;1;1;1;1;1;1;1;1;1;1;1;1;1;1;1;1;1;1;1;1;1;1;1;1;1;10798;1;1;
  10804;1;1;1;1;1;65038;1;1;1;1;1;1;1;1;1;1;1;1;1;65042;1;1;1;1;1;1;1;1;1;1;1;10810;10816;10822].
Definition norm2_nfc_data_trieData_4 : list Z := [
  1;1;10828;1;1;1;1;1;1;1;1;1;1;1;1;1;1;1;1;1;1;1;1;1;1;1;1;1;1;1;1;1;1;1;1;1;1;1;1;1;1;1;1;1;1;1;1;1;1;1;1;1;
  1;1;1;1;1;1;1;1;1;1;1;65038;1;1;1;1;1;1;1;1;1;1;1;1;1;65042;1;1;1;1;1;1;1;1;1;1;1;1;1;1;1;1;1;1;1;1;1;1;1;1;
  1;1;1;1;1;1;1;1;1;1;1;1;1;1;1;1;1;1;1;1;1;1;1;1;1;1;2168;6577;1;1;6583;6589;65042;1;1;1;1;1;1;1;1;64512;
  64512;1;1;1;1;10834;10840;1;1;1;1;1;1;1;1;1;1;1;1;1;1;1;1;1;1;1;1;1;1;1;1;1;1;1;1;1;1;1;1;1;1;2180;1;6595;1;
  1;1;1;1;1;1;1;1;1;1;1;1;1;1;1;1;1;1;1;1;1;1;1;1;1;1;1;1;1;1;1;1;1;1;1;1;1;1;1;1;64512;1;1;1;1;1;1;2184;2192;
  1;1;6601;6607;6613;65042;1;1;1;1;1;1;1;1;1;64512;1;1;1;1;1;1;1;1;1;1;1;1;1;1;1;1;1;1;1;1;1;1;1;1;1;1;1;1;1;
  1;1;1;1;1;1;1;1;1;1;1;2196;1;6619;1;1;1;1;65042;1;1;1;1;1;1;1;65192;64694;1;1;1;1;1;1;1;1;1;1;1;1;1;1;1;1;1;
  1;1;1;1;1;1;1;1;1;1;1;1;1;1;1;1;1;1;1;1;1;1;1;1;1;1;1;1;1;1;1;1;1;1;1;1;1;1;1;1;1;1;1;65038;1;1;2200;6625;1;
  64512;1;1;1;2204;6631;6637;1;3530;6645;1;65042;1;1;1;1;1;1;1;64512;64512;1;1;1;1;1;1;1;1;1;1;1;1;1;1;1;1;1;
  1;1;1;1;1;1;1;1;1;1;1;1;1;1;1;1;1;1;1;1;1;1;1;1;1;1;1;1;1;1;1;1;1;1;1;1;1;1;1;1;1;1;65042;65042;1;64512;1;1;
  1;1;1;1;2216;2224;1;1;6653;6659;6665;65042;1;1;1;1;1;1;1;1;1;64512;1;1;1;1;1;1;1;1;1;1;1;1;1;1;1;1;1;1;1;1;
  1;1;1;1;1;1;1].
Definition norm2_nfc_data_trieData_5 : list Z := [
  1;1;1;1;1;1;1;1;1;1;1;1;1;64530;1;1;1;1;64512;1;1;1;1;1;1;1;1;1;2228;6671;1;3540;6679;6687;64512;1;1;1;1;1;
  1;1;1;1;1;1;1;1;1;1;1;1;1;1;1;1;1;1;1;1;1;1;1;1;1;1;1;1;1;1;1;1;1;1;1;1;1;1;1;1;1;1;1;1;1;1;1;1;1;1;1;65230;
  65230;65042;1;1;1;1;1;1;1;1;65238;65238;65238;65238;1;1;1;1;1;1;1;1;1;1;1;1;1;1;1;1;1;1;1;1;1;1;1;1;1;1;1;1;
  1;1;1;1;1;1;1;1;1;1;1;1;1;1;1;1;1;1;1;1;1;1;1;1;1;1;1;1;65260;65260;65042;1;1;1;1;1;1;1;1;65268;65268;65268;
  65268;1;1;1;1;1;1;1;1;1;1;1;1;1;1;1;1;1;1;1;1;1;1;1;1;1;1;1;1;1;1;1;1;1;1;1;1;1;1;1;1;1;1;1;1;1;1;1;1;1;1;1;
  1;65464;65464;1;1;1;1;1;1;1;1;1;1;1;1;1;1;1;1;1;1;1;1;1;1;1;1;1;1;1;65464;1;65464;1;65456;1;1;1;1;1;1;10847;
  1;1;1;1;1;1;1;1;1;10853;1;1;1;1;10859;1;1;1;1;10865;1;1;1;1;10871;1;1;1;1;1;1;1;1;1;1;1;1;10877;1;1;1;1;1;1;
  1;65282;65284;15440;65288;15448;10882;1;10888;1;65284;65284;65284;65284;1;1;65284;15456;65484;65484;65042;1;
  65484;65484;1;1;1;1;1;1;1;1;1;1;1;10895;1;1;1;1;1;1;1;1;1;10901;1;1;1;1;10907;1;1;1;1;10913;1;1;1;1;10919;1;
  1;1;1;1;1;1;1;1;1;1;1;10925;1;1;1;1;1;1;65464;1;1;1;1;1;1;1;1;1;1;1;1;1;1;1;1;1;1;1;1;1;1;1;1;1;1;1;1;1;1;1;
  1;1;1;1;1;1;1;1;1;1;1;1;1;1;1;1;1;1;1;1;1;1;1;1;1;1;2240;6693;1;1;1;1;1;1;1;64512;1;1;1;1;1;1;1;1;65038;1;
  65042;65042;1;1;1;1;1;1;1;1;1;1;1;1;1;65464;1;1;1;1;1;1;1;1;1;1;1;1;1;1;1;1;1;1;1;1;1;1;1;1].
Definition norm2_nfc_data_trieData_6 : list Z := [
  1;1;1;1;1;1;1;1;1;1;1;1;1;1;1;1;1;1;1;1;1;1;1;1;1;1;2;2;2;2;2;2;2;2;2;2;2;2;2;2;2;2;2;2;2;1;1;1;1;1;1;1;1;1;
  1;1;1;1;1;1;1;1;1;1;1;1;1;1;1;1;1;1;1;1;1;1;1;1;1;1;1;1;1;1;1;1;1;1;1;1;65024;65024;65024;65024;65024;65024;
  65024;65024;65024;65024;65024;65024;65024;65024;65024;65024;65024;65024;65024;65024;65024;1;1;1;1;1;1;1;1;1;
  1;1;1;1;1;1;1;1;1;1;1;1;1;1;1;1;1;1;1;1;1;1;1;1;1;1;1;1;1;1;1;65024;65024;65024;65024;65024;65024;65024;
  65024;65024;65024;65024;65024;65024;65024;65024;65024;65024;65024;65024;65024;65024;65024;65024;65024;1;1;1;
  1;1;1;1;1;1;1;1;1;1;1;1;1;1;1;1;1;1;1;1;1;1;1;1;1;1;1;1;1;1;1;1;1;1;1;1;1;1;1;1;1;1;1;1;1;1;1;1;1;1;1;1;1;1;
  1;1;1;1;65484;65484;65484;1;1;1;1;1;1;1;1;1;1;1;1;1;1;1;1;1;1;1;1;1;1;1;1;1;1;1;1;1;1;1;1;65042;1;1;1;1;1;1;
  1;1;1;1;1;1;1;1;1;1;1;1;1;1;1;1;1;1;1;1;1;1;1;1;1;65042;1;1;1;1;1;1;1;1;1;1;1;1;1;1;1;1;1;1;65042;1;1;1;1;1;
  1;1;1;1;1;65484;1;1;1;1;1;1;1;1;1;1;1;1;1;1;1;1;1;1;1;1;1;1;1;1;1;1;1;1;1;1;1;1;1;1;1;1;1;1;1;1;1;65480;1;1;
  1;1;1;1;1;1;1;1;1;1;1;1;1;1;1;1;1;1;1;1;1;1;1;1;1;1;1;1;1;1;1;1;1;1;1;1;1;1;1;1;1;1;1;1;1;1;1;1;1;1;1;1;1;1;
  1;65468;65484;65464;1;1;1;1;1;1;1;1;1;1;1;1;1;1;1;1;1;1;1;1;1;1;1;65484;65464;1;1;1;1;1;1;1;1;1;1;1;1;1;1;1;
  1;1;1;1;1;1;1;1;1;1;1;1;1;1;1;1;1;1;1;1;1;1;1;1;65042;1;1;1;1;1;1;1;1;1;1;1].
Definition norm2_nfc_data_trieData_7 : list Z := [
  1;1;1;1;1;1;1;1;1;65484;65484;65484;65484;65484;65484;65484;65484;1;1;65464;1;1;1;1;1;1;1;1;1;1;1;1;1;1;1;1;
  1;1;1;1;1;1;1;1;1;1;1;1;1;1;1;1;1;1;1;1;1;1;1;1;1;1;1;1;1;1;1;1;65484;65484;65484;65484;65484;65464;65464;
  65464;65464;65464;65464;65484;65484;65464;1;65464;1;1;1;1;1;1;1;1;1;1;1;1;1;1;1;1;1;1;1;1;1;1;1;1;1;1;1;1;1;
  1;1;1;1;1;1;1;1;1;1;1;1;1;1;1;1;1;1;1;1;1;1;1;1;1;1;1;1;1;1;1;1;1;1;2244;6699;2248;6705;2252;6711;2256;6717;
  2260;6723;1;1;2264;6729;1;1;1;1;1;1;1;1;1;1;1;1;1;1;1;1;1;1;1;1;1;1;1;1;1;1;1;1;1;1;1;1;1;65038;64512;1;1;1;
  1;2268;6735;2272;6741;2276;2280;6747;6753;2284;6759;65042;1;1;1;1;1;1;1;1;1;1;1;1;1;1;1;1;1;1;1;1;1;1;1;1;1;
  1;1;1;1;1;1;1;1;1;1;1;1;1;65484;65464;65484;65484;65484;65484;65484;65484;65484;1;1;1;1;1;1;1;1;1;1;1;1;1;1;
  1;1;1;1;1;1;1;1;1;1;1;1;1;1;1;1;1;1;1;1;1;1;1;1;1;1;1;1;65042;65042;1;1;1;1;1;1;1;1;1;1;1;1;1;1;1;1;1;1;1;1;
  1;1;1;1;1;1;1;1;1;1;1;1;1;1;1;1;1;1;65038;1;1;1;1;1;1;1;1;1;1;1;65042;65042;1;1;1;1;1;1;1;1;1;1;1;1;1;1;1;1;
  65484;65484;65484;1;65026;65464;65464;65464;65464;65464;65484;65484;65464;65464;65464;65464;65484;1;65026;
  65026;65026;65026;65026;65026;65026;1;1;1;1;65464;1;1;1;1;1;1;65484;1;1;1;65484;65484;1;1;1;1;1;1;65484;
  65484;65464;65484;65484;65484;65484;65484;65484;65484;65464;65484;65484;65492;65452;65464;65428;65484;65484;
  65484;65484;65484;65484;65484;65484;65484;65484;65484;65484;65484;65484;65484;65484;65484;65484;65484;65484;
  65484;65484;65484;65484;65484;65484;65484;65484;65484;65484;65484;65484;65484;65484;65484;65484;65484;65488;
  65480;65480;65464;1;65484;65490;65464;65484;65464;6764;6770;6776;6782;6789;6795;6801;6807;6815;6825;6832;
  6838;6844;6850;6856;6862;6869;6875;6880;6886;6894;6904;6914;6924;6932;6938;6944;6950;6959;6969].
Definition norm2_nfc_data_trieData_8 : list Z := [
  6977;6983;6988;6994;7000;7006;7012;7018;7024;7030;7037;7043;7048;7054;7060;7066;7074;7084;7092;7098;7104;
  7110;7116;7122;3550;3560;7130;7140;7148;7154;7160;7166;7172;7178;7184;7190;7197;7203;7208;7214;7220;7226;
  7232;7238;7244;7250;7258;7268;7278;7288;7298;7308;7318;7328;7337;7343;7349;7355;7360;7366;3570;3580;7374;
  7384;7392;7398;7404;7410;3590;3600;7418;7428;7438;7448;7458;7468;7476;7482;7488;7494;7500;7506;7512;7518;
  7524;7530;7536;7542;7548;7554;7562;7572;7582;7592;7600;7606;7613;7619;7624;7630;7636;7642;7648;7654;7660;
  7666;7673;7679;7685;7691;7697;7703;7708;7714;7720;7726;7733;7739;7745;7751;7756;7762;7768;7774;1;7781;1;1;1;
  1;3610;3624;7786;7792;7800;7810;7820;7830;7840;7850;7860;7870;7880;7890;7900;7910;7920;7930;7940;7950;7960;
  7970;7980;7990;3638;3648;7998;8004;8010;8016;8024;8034;8044;8054;8064;8074;8084;8094;8104;8114;8122;8128;
  8134;8140;3658;3668;8146;8152;8160;8170;8180;8190;8200;8210;8220;8230;8240;8250;8260;8270;8280;8290;8300;
  8310;8320;8330;8340;8350;8358;8364;8370;8376;8384;8394;8404;8414;8424;8434;8444;8454;8464;8474;8482;8488;
  8495;8501;8506;8512;8518;8524;1;1;1;1;1;1;3678;3700;3724;3738;3752;3766;3780;3794;3806;3828;3852;3866;3880;
  3894;3908;3922;3934;3948;8533;8543;8553;8563;1;1;3962;3976;8573;8583;8593;8603;1;1;3990;4012;4036;4050;4064;
  4078;4092;4106;4118;4140;4164;4178;4192;4206;4220;4234;4246;4264;8613;8623;8633;8643;8653;8663;4282;4300;
  8673;8683;8693;8703;8713;8723;4318;4332;8733;8743;8753;8763;1;1;4346;4360;8773;8783;8793;8803;1;1;4374;4392;
  8813;8823;8833;8843;8853;8863;1;4410;1;8873;1;8883;1;8893;4428;4450;4474;4488;4502;4516;4530;4544;4556;4578;
  4602;4616;4630;4644;4658;4672;4684;15262;8901;15270;4694;15278;8907;15286;8913;15294;8919;15302;4704;15310;
  1;1;8926;8936;8951;8967;8983;8999;9015;9031;9042;9052;9067;9083;9099;9115;9131;9147;9158;9168;9183;9199;
  9215;9231;9247;9263;9274;9284;9299;9315;9331;9347;9363;9379;9390;9400;9415;9431;9447;9463;9479;9495;9506;
  9516;9531;9547;9563;9579;9595;9611;9621;9627;9635;9642;9651;1;4714;9661;9669;9675;9681;15318;9686;1;10930;
  2288;1;9693;9701;9708;9717;1;4724;9727;9735;15326;9741;15334;9746;9753;9759;9765;9771;9777;9785;15344;1;1;
  9793;9801;9809;9815;9821;15354;1;9827;9833;9839;9845;9851;9859;15364;9867;9873;9879;9887;9895;9901;9907;
  15374;9913;9919;15382;10935;1;1;9927;9934;9943;1;4734;9953;9961;15390;9967;15398;9972;10939;2300;1;64009;
  64009;1;1;1;1;1;1;1;1;1;1;1;1;1;1;1;1;1;1;1;1;1;1;1;1;1;1;1;1].
Definition norm2_nfc_data_trieData_9 : list Z := [
  1;1;1;1;1;1;1;1;1;1;1;1;1;1;1;1;1;1;1;1;1;1;1;1;1;1;1;1;1;1;1;1;1;1;65484;65484;65026;65026;65484;65484;
  65484;65484;65026;65026;65026;65484;65484;1;1;1;1;65484;1;1;1;65026;65026;65484;65464;65484;65026;65026;
  65464;65464;65464;65464;65484;1;1;1;1;1;1;1;1;1;1;1;1;1;1;1;1;1;1;1;1;1;1;1;1;1;1;1;1;1;1;1;1;1;1;1;1;1;1;
  10942;1;1;1;10946;15406;1;1;1;1;1;1;1;1;1;1;1;1;1;1;1;1;1;1;1;1;2312;1;2316;1;2320;1;1;1;1;1;9979;9985;1;1;
  1;1;1;1;1;1;1;1;1;1;1;1;1;1;1;1;9991;1;1;1;1;1;1;1;1;1;1;1;1;1;1;1;1;1;9997;10003;10009;2324;1;2328;1;2332;
  1;1;1;1;1;1;1;1;1;1;1;1;1;1;1;1;1;1;1;1;1;1;1;1;1;1;1;1;1;1;1;1;1;1;1;1;1;1;1;1;1;1;1;2336;10015;1;1;1;2340;
  10021;1;2344;10027;1;1;1;1;1;1;1;1;1;1;1;1;1;1;1;1;1;1;1;1;1;1;2348;10033;2352;10039;1;1;1;1;1;1;1;1;1;1;1;
  1;1;1;1;1;1;1;1;1;1;2356;1;1;1;10045;1;2360;10051;2364;1;10057;2368;10063;1;1;1;2372;1;1;1;1;1;1;1;1;1;1;1;
  1;1;1;1;1;1;1;10069;2376;10075;1;2380;2384;1;1;1;1;1;1;1;10081;10087;10093;10099;10105;2388;2392;10111;
  10117;2396;2400;10123;10129;2404;2408;2412;2416;1;1;10135;10141;2420;2424;10147;10153;2428;2432;10159;10165;
  1;1;1;1;1;1;1;2436;2440;1;1;1;1;1;1;1;1;1;1;1;1;1;1;1;2444;1;1;1;1;1;2448;2452;1;2456;10171;10177;10183;
  10189;1;1;2460;2464;2468;2472;1;1;1;1;1;1;1;1;1;1;1;1;1;1;1;1;1;1;1;1;1;1;1;1;1;1;1;1;1;1;1;1;10195;10201;
  10207;10213;1;1;1;1;1;1;10219;10225;10231;10237;1;1;1;1;1;1;1;1;1;1;1;1;1;1;1;1;1;1;1;1;1;1;1;1;1;1;1;1;1;1;
  1;1;1;1;1;1;1;1;1;1;1;10951;10955;1;1;1;1;1;1;1;1;1;1;1;1;1;1;1].
Definition norm2_nfc_data_trieData_10 : list Z := [
  1;1;1;1;1;1;1;1;1;1;1;1;1;10959;1;1;1;1;1;1;1;1;1;1;1;1;1;1;1;1;1;1;1;1;1;1;1;1;1;1;1;1;1;1;1;1;1;1;1;1;1;1;
  1;1;1;1;1;1;1;1;1;1;1;1;1;1;1;1;1;1;1;1;1;1;1;1;1;65042;1;1;1;1;1;1;1;1;1;1;1;1;1;1;1;1;1;1;1;1;1;1;1;1;1;1;
  1;1;1;1;1;1;65484;65484;65484;65484;65484;65484;65484;65484;65484;65484;65484;65484;65484;65484;65484;65484;
  65484;65484;65484;65484;65484;65484;65484;65484;65484;65484;65484;65484;65484;65484;65484;65484;1;1;1;1;1;1;
  1;1;1;1;1;1;1;1;1;1;1;1;1;1;1;1;1;1;1;1;1;1;1;1;1;1;1;1;1;1;1;1;1;1;1;1;65460;65480;65488;65468;65472;65472;
  1;1;1;1;1;1;1;1;1;1;1;1;1;1;1;1;2476;1;1;1;1;2480;10243;2484;10249;2488;10255;2492;10261;2496;10267;2500;
  10273;2504;10279;2508;10285;2512;10291;2516;10297;2520;10303;2524;10309;1;2528;10315;2532;10321;2536;10327;
  1;1;1;1;1;2540;10333;10339;2548;10345;10351;2556;10357;10363;2564;10369;10375;2572;10381;10387;1;1;1;1;1;1;
  1;1;1;1;1;1;1;1;1;1;1;1;1;1;10393;1;1;1;1;64528;64528;1;1;2580;10399;1;1;1;1;1;1;1;2584;1;1;1;1;2588;10405;
  2592;10411;2596;10417;2600;10423;2604;10429;2608;10435;2612;10441;2616;10447;2620;10453;2624;10459;2628;
  10465;2632;10471;1;2636;10477;2640;10483;2644;10489;1;1;1;1;1;2648;10495;10501;2656;10507;10513;2664;10519;
  10525;2672;10531;10537;2680;10543;10549;1;1;1;1;1;1;1;1;1;1;1;1;1;1;1;1;1;2688;2692;2696;2700;1;10555;1;1;
  10561;10567;10573;10579;1;1;2704;10585;1;1;1;1;1;1;1;1;1;1;1;1;1;1;1;1;1;1;1;1;1;1;1;1;1;1;1;1;1;1;1;1;1;1;
  1;1;1;1;1;1;1;1;1;1;1;1;1;65484;1;1;1;1;65484;65484;65484;65484;65484;65484;65484;65484;65484;65484;1;1;1;1;
  1;1;1;1;1;1;1;1;1;1;1;1;1;1;1;1;1;1;1;1;1;1;1;1;1;1;65484;65484;1;1;1;1;1;1;1;1;1;1;1;1;1;1;1;1;1;1;1;1;1;1;
  1;1;1;1;1;1;1].
Definition norm2_nfc_data_trieData_11 : list Z := [
  1;1;1;1;1;1;1;1;1;1;1;1;1;1;1;1;1;1;1;65484;65484;1;1;1;1;1;1;1;1;1;1;1;1;1;1;65042;1;1;1;1;1;1;1;1;1;1;1;1;
  1;1;1;1;1;1;1;1;1;1;1;1;1;1;1;1;1;1;1;1;1;1;1;1;1;65042;1;1;1;1;1;1;1;1;1;1;1;1;1;1;1;1;1;1;1;1;1;1;1;1;1;1;
  1;65484;65484;65484;65484;65484;65484;65484;65484;65484;65484;65484;65484;65484;65484;65484;65484;65484;
  65484;1;1;1;1;1;1;1;1;1;1;1;1;1;1;1;1;1;1;1;1;1;1;1;1;1;1;1;1;1;1;1;1;1;1;1;1;1;1;1;1;1;1;1;65464;65464;
  65464;1;1;1;1;1;1;1;1;1;1;1;1;1;1;1;1;1;1;1;65042;1;1;1;1;1;1;1;1;1;1;1;1;1;1;1;1;1;1;1;1;1;1;1;1;1;1;1;1;1;
  1;1;1;1;1;1;1;1;1;1;1;1;1;1;1;1;1;1;1;1;1;1;1;1;1;1;1;1;1;1;1;1;1;1;65484;1;65484;65484;65464;1;1;65484;
  65484;1;1;1;1;1;65484;65484;1;65484;1;1;1;1;1;1;1;1;1;1;1;1;1;1;1;1;1;1;1;1;1;1;1;1;1;1;1;1;1;1;1;1;1;1;1;1;
  1;1;1;1;1;1;1;1;1;1;1;1;1;1;1;1;65042;1;1;1;1;1;1;1;1;1;2786;4745;4745;4745;4745;4745;4745;4745;4745;4745;
  4745;4745;4745;4745;4745;4745;4745;4745;4745;4745;4745;4745;4745;4745;4745;4745;4745;4745;2786;4745;4745;
  4745;4745;4745;4745;4745;4745;4745;4745;4745;4745;4745;4745;4745;4745;4745;4745;4745;4745;4745;4745;4745;
  4745;4745;4745;4745;2786;4745;4745;4745;4745;4745;4745;4745;4745;4745;4745;4745;4745;4745;4745;4745;4745;
  4745;4745;4745;4745;4745;4745;4745;4745;4745;4745;4745;2786;4745;4745;4745;4745;4745;4745;4745;4745;4745;
  4745;4745;4745;4745;4745;4745;4745;4745;4745;4745;4745;4745;4745;4745;4745;4745;4745;4745;1;1;1;1;1;1;1;1;1;
  1;1;1;1;1;1;1;1;1;1;1;1;1;1;1;1;1;1;1;15462;1;15462;15462;15462;15462;15462;15462;1;1;1;1;1;1;1;1;1;1;1;1;1;
  1;1;1;1;1;15462;15462;1;1;1;1;1;1;1;1;1;1;1;1;1;1;1;1].
Definition norm2_nfc_data_trieData_12 : list Z := [
  1;1;1;15462;1;1;1;1;15462;1;1;1;15462;1;15462;1;1;1;1;1;1;1;1;1;1;1;1;1;1;1;1;1;1;1;1;1;1;1;1;1;1;1;1;1;1;1;
  1;1;1;1;1;1;1;1;1;1;1;1;1;1;1;1;1;1;1;1;1;1;1;1;1;1;1;1;1;1;1;15255;1;10965;10969;10973;10977;10981;10985;
  10989;10993;10993;10997;11001;11005;11009;11013;11017;11021;11025;11029;11033;11037;11041;11045;11049;11053;
  11057;11061;11065;11069;11073;11077;11081;11085;11089;11093;11097;11101;11105;11109;11113;11117;11121;11125;
  11129;11133;11137;11141;11145;11149;11153;11157;11161;11165;11169;11173;11177;11181;11185;11189;11193;11197;
  11201;11205;11209;11213;11217;11221;11225;11229;11233;11237;11241;11245;11249;11253;11257;11261;11265;11269;
  11273;11277;11281;11285;11289;11293;11297;11301;11305;11309;11313;11317;11321;11325;11041;11329;11333;11337;
  11341;11345;11349;11353;11357;11361;11365;11369;11373;11377;11381;11385;11389;11393;11397;11401;11405;11409;
  11413;11417;11421;11425;11429;11433;11437;11441;11445;11449;11453;11457;11461;11465;11469;11473;11477;11481;
  11485;11489;11493;11497;11501;11505;11509;11513;11517;11521;11525;11529;11533;11537;11541;11545;11549;11553;
  11557;11561;11565;11569;11573;11577;11581;11585;11589;11593;11597;11401;11601;11605;11609;11613;11617;11621;
  11625;11629;11337;11633;11637;11641;11645;11649;11653;11657;11661;11665;11669;11673;11677;11681;11685;11689;
  11693;11697;11701;11705;11709;11041;11713;11717;11721;11725;11729;11733;11737;11741;11745;11749;11753;11757;
  11761;11765;11769;11773;11777;11781;11785;11789;11793;11797;11801;11805;11809;11813;11817;11345;11821;11825;
  11829;11833;11837;11841;11845;11849;11853;11857;11861;11865;11869;11873;11877;11881;11885;11889;11893;11897;
  11901;11905;11909;11913;11917;11921;11925;11929;11933;11937;11941;11945;11949;11953;11957;11961;11965;11969;
  11973;11977;11981;11985;11989;11993;11997;12001;12005;12009;12013;12017;1;1;12021;1;12025;1;1;12029;12033;
  12037;12041;12045;12049;12053;12057;12061;12065;1;12069;1;12073;1;1;12077;12081;1;1;1;12085;12089;12093;
  12097;12101;12105;12109;12113;12117;12121;12125;12129;12133;12137;12141;12145;12149;12153;12157;12161;12165;
  12169;12173;12177;12181;12185;12189;12193;12197;12201;12205;12209;12213;12217;12221;12225;12229;12233;12237;
  12241;12245;12249;12253;12257;12261;11557;12265;12269;12273;12277;12281;12285;12285;12289;12293;12297;12301;
  12305;12309;12313;12317;12077;12321;12325;12329;12333;12337;12343;1;1;12347;12351;12355;12359;12363;12367;
  12371;12375;12133;12379;12383;12387;12021;12391;12395;12399;12403;12407;12411;12415;12419;12423;12427;12431;
  12435;12169;12439;12173;12443;12447;12451;12455;12459;12025;11125;12463;12467;12471;11405;11753;12475;12479;
  12201;12483;12205;12487;12491;12495;12033;12499;12503;12507;12511;12515;12037;12519;12523;12527;12531;12535;
  12539;12261;12543;12547;11557].
Definition norm2_nfc_data_trieData_13 : list Z := [
  12551;12277;12555;12559;12563;12567;12571;12297;12575;12073;12579;12301;11329;12583;12305;12587;12313;12591;
  12595;12599;12603;12607;12321;12057;12611;12325;12615;12329;12619;10993;12623;12629;12635;12641;12645;12649;
  12653;12659;12665;12671;12675;1;1;1;1;1;1;1;1;1;1;1;1;1;1;1;1;1;1;1;1;1;1;1;1;1;1;1;1;1;1;1;1;1;1;1;1;1;1;
  12678;65076;12684;1;1;1;1;1;1;1;1;1;1;12690;12696;12704;12714;12722;12728;12734;12740;12746;12752;12758;
  12764;12770;1;12776;12782;12788;12794;12800;1;12806;1;12812;12818;1;12824;12830;1;12836;12842;12848;12854;
  12860;12866;12872;12878;12884;1;1;1;1;1;1;1;1;1;1;1;1;1;1;1;1;1;1;1;1;1;1;1;1;1;1;1;1;1;1;1;1;1;1;1;1;1;1;1;
  1;1;1;1;1;1;1;1;1;1;65484;65484;65484;65484;65484;65484;65484;65464;65464;65464;65464;65464;65464;65464;
  65484;65484;1;1;1;1;1;1;1;1;1;1;1;1;1;1;1;1;65464;1;65484;1;1;1;1;1;1;1;1;65484;65026;65464;1;1;1;1;65042;1;
  1;1;1;65484;65484;65484;65484;1;1;1;1;1;1;1;1;65464;65464;65484;65484;65484;65464;65484;65464;65464;65464;1;
  1;1;1;1;1;1;1;1;2708;10591;2714;10601;1;1;1;1;1;2720;1;1;1;1;1;10611;1;1;1;1;1;1;1;1;1;65042;64526;1;1;1;1;
  1;1;1;64512;1;1;1;1;1;1;10621;10631;1;2726;2732;65042;65042;1;1;1;1;1;1;1;1;1;1;1;65042;1;1;1;1;1;1;1;1;1;
  65038;1;1;1;1;1;65042;65038;1;1;1;1;1;1;1;1;1;65038;65042;1;1;1;1;1;1;1;1;1;1;1;65038;65038;1;64512;1;1;1;1;
  1;1;1;2738;1;1;1;10641;10651;65042;1;1;1;1;1;1;65484;65484;65484;65484;65484;65484;65484;1;1;1;65042;1;1;1;
  65038;1;1;1;1;1;1;1;1;1;64512;1;1;1;1;1;1;1;1;2750;64512;10661;10671;64512;10681;1;1;65042;65038;1;1;1;1;1;
  1;1;1;1;1;1;1;2768;2774;10691;10701;1;1;1;65042;65038;1;1;1;1;1;1;1;1;1;1;1;1;1;1;1;65042;65038;1;1;1;1;1;1;
  1;1;64512;1;1;1;1;2780;1;1;10711;1;1;1;1;65042;65042;1;65026;65026;65026;65026;65026;1;1;1;1;1;1;1;1;1;1;1;
  65036;65036;1;1].
Definition norm2_nfc_data_trieData_14 : list Z := [
  1;1;1;1;1;1;1;1;1;1;1;1;65026;1;1;1;1;1;1;1;1;1;1;1;1;1;1;12890;12900;12920;12944;12968;12992;13016;65456;
  65456;65026;65026;65026;1;1;1;65476;65456;65456;65456;1;1;1;1;1;1;1;1;65464;65464;65464;65464;65464;1;1;
  65484;65484;65484;65484;65484;65464;65464;1;1;1;1;1;1;1;1;1;1;65484;65484;65484;65484;1;1;1;1;1;1;1;1;1;1;1;
  13030;13040;13060;13084;13108;13132;1;1;1;1;1;1;1;1;1;1;1;1;1;1;1;65484;65484;65484;65484;65484;65484;65484;
  1;65484;65484;65484;65484;65484;65484;65484;65484;65484;1;1;65484;65484;65484;65484;65484;1;65484;65484;1;
  65484;65484;65484;65484;65484;1;1;1;1;1;65464;65464;65464;65464;65464;65464;65464;1;1;1;1;1;1;1;1;1;65484;
  65484;65484;65484;65484;65484;65038;1;1;1;1;1;13147;13151;13155;13159;13165;12109;13169;13173;13177;13181;
  12113;13185;13189;13193;12117;13199;13203;13207;13211;13217;13221;13225;13229;13235;13239;13243;13247;12351;
  13251;13257;13261;13265;13269;13273;13277;13281;13285;12371;12121;12125;12375;13289;13293;11353;13297;12129;
  13301;13305;13309;13313;13313;13313;13317;13323;13327;13331;13335;13341;13345;13349;13353;13357;13361;13365;
  13369;13373;13377;13381;13385;13389;13389;12383;13393;13397;13401;13405;12137;13409;13413;13417;11965;13421;
  13425;13429;13433;13437;13441;13445;13449;13453;13459;13463;13467;13471;13475;13479;13483;13489;13495;13499;
  13503;13507;13511;13515;13519;13523;13527;13527;13531;13537;13541;11337;13545;13549;13555;13559;13563;13567;
  13571;13575;12157;13579;13583;13587;13593;13597;13603;13607;13611;13615;13619;13623;13627;13631;13635;13639;
  13643;13647;13653;13657;13661;13665;11121;13669;13675;13679;13679;13685;13689;13689;13693;13697;13703;13709;
  13713;13717;13721;13725;13729;13733;13737;13741;13745;12161;13749;13755;13759;13763;12431;13763;13767;12169;
  13771;13775;13779;13783;12173;11013;13787;13791;13795;13799;13803;13807;13811;13817;13821;13825;13829;13833;
  13837;13843;13847;13851;13855;13859;13863;13867;13871;13875;12177;13879;13883;13889;13893;13897;13901;12185;
  13905;13909;13913;13917;13921;13925;13929;13933;11125;12463;13937;13941;13945;13949;13955;13959;13963;13967;
  12189;13971;13977;13981;13985;12641;13989;13993;13997;14001;14005;14011;14015;14019;14023;14029;14033;14037;
  14041;11405;14045;14049;14055;14061;14067;14071;14077;14081;14085;14089;14093;12193;11753;14097;14101;14105;
  14109;14115;14119;14123;14127;12479;14131;14135;14141;14145;14149;14155;14161;14165;12483;14169;14173;14177;
  14181;14185;14189;14193;14199;14203;14209;14213;14219;12491;14223;14227;14233;14237;14241;14247;14253;14257;
  14261;14265;14269;14269;14273;14277;12499;14281;14285;14289;14293;14297;14303;14307;11349;14313;14319;14323;
  14329;14335;14341;14345;12523;14349;14355;14361;14367;14373;14377;14377;12527;12649;14381;14385].
Definition norm2_nfc_data_trieData_15 : list Z := [
  14389;14393;14399;11197;12535;14403;14407;12237;14413;14419;12053;14425;14429;12253;14433;14437;14441;14447;
  14447;14453;14457;14461;14467;14471;14475;14479;14485;14489;14493;14497;14501;14505;14511;14515;14519;14523;
  14527;14531;14535;14541;14547;14551;14557;14561;14567;14571;12277;14575;14581;14587;14591;14597;14601;14607;
  14611;14615;14619;14623;14627;14631;14637;14643;14649;13685;14655;14659;14663;14667;14671;14675;14679;14683;
  14687;14691;14695;14699;11421;14705;14709;14713;14717;14721;14725;12289;14729;14733;14737;14741;14745;14751;
  14757;14763;14767;14771;14775;14779;14785;14789;14795;14799;14803;14809;14815;14819;11177;14823;14827;14831;
  14835;14839;14843;12563;14847;14851;14855;14859;14863;14867;14871;14875;14879;14883;14889;14893;14897;14901;
  14905;14909;14915;14921;14925;14929;12583;12587;14933;14937;14943;14947;14951;14955;14959;14965;14971;14975;
  14979;14983;14989;12591;14993;14999;15005;15009;15013;15017;15023;15027;15031;15035;15039;15043;15047;15051;
  15057;15061;15065;15069;15075;15079;15083;15087;15091;15097;15103;15107;15111;15115;15121;15125;12615;12615;
  15131;15135;15141;15145;15149;15153;15157;15161;15165;15169;12619;15175;15179;15183;15187;15191;15195;15201;
  15205;15211;15217;15223;15227;15231;15235;15239;15243;15247;15251;15255;1;1].
Definition norm2_nfc_data_trieData_list : list Z := (norm2_nfc_data_trieData_0 ++ norm2_nfc_data_trieData_1 ++ norm2_nfc_data_trieData_2 ++ norm2_nfc_data_trieData_3 ++ norm2_nfc_data_trieData_4 ++ norm2_nfc_data_trieData_5 ++ norm2_nfc_data_trieData_6 ++ norm2_nfc_data_trieData_7 ++ norm2_nfc_data_trieData_8 ++ norm2_nfc_data_trieData_9 ++ norm2_nfc_data_trieData_10 ++ norm2_nfc_data_trieData_11 ++ norm2_nfc_data_trieData_12 ++ norm2_nfc_data_trieData_13 ++ norm2_nfc_data_trieData_14 ++ norm2_nfc_data_trieData_15)%list.
Definition norm2_nfc_data_trieData_tree : tree := Eval vm_compute in tree_of norm2_nfc_data_trieData_list.
Definition norm2_nfc_data_trieData : arr := arr_of_tree 7892 norm2_nfc_data_trieData_tree.
Lemma norm2_nfc_data_trieData_is : norm2_nfc_data_trieData_tree = tree_of norm2_nfc_data_trieData_list /\ zlen norm2_nfc_data_trieData_list = 7892.
Proof. split; vm_compute; reflexivity. Qed.

(** Norm2NFCData.py:642-1127 *)
Definition norm2_nfc_data_extraData_0 : list Z := [
  65535;65535;34416;17628;34416;17600;34416;17630;1536;384;1538;386;1540;389;1542;390;1544;512;1548;517;1550;
  1101;1552;393;1554;15684;1556;395;1560;922;1566;1024;1570;1028;1606;15681;1610;15360;34384;520;1550;15364;
  1606;15368;34402;15372;1538;524;1540;528;1550;532;1560;536;34382;399;1550;15380;1560;540;1606;15384;1614;
  15392;1626;15396;34402;15388;1536;400;1538;402;1540;405;1542;15736;1544;549;1548;552;1550;556;1552;406;1554;
  15732;1560;564;1566;1032;1570;1036;1606;15729;1614;1105;1616;560;1626;15408;34400;15412;34318;15420;1538;
  1000;1540;568;1544;15424;1548;572;1550;576;1560;972;34382;580;1540;584;1550;15428;1552;15436;1560;1084;1606;
  15432;1614;15440;34396;15444;1536;408;1538;410;1540;412;1542;592;1544;596;1548;600;1550;608;1552;415;1554;
  15760;1560;926;1566;1040;1570;1044;1606;15764;1616;604;34400;15448;34308;616;1538;15456;1560;976;1606;15460;
  1614;620;34402;15464;1538;626;1560;634;1606;15469;1614;630;1626;15480;34402;15476;1538;15484;1550;15488;
  34374;15492;1536;1008;1538;646;1542;418;1550;15496;1560;654;1606;15500;1614;650;1626;15508;34402;15504;1536;
  420;1538;422;1540;425;1542;427;1544;665;1548;668;1550;1117;1552;429;1554;15772;1558;672;1560;930;1566;1048;
  1570;1052;1590;833;1606;15769;34384;981;1538;15528;34318;15532;1538;680;1550;15536;1560;688;1566;1056;1570;
  1060;1606;15541;1614;684;34402;15548;1538;693;1540;696;1550;15552;1560;705;1606;15557;1612;1072;34382;700;
  1550;15572;1560;712;1606;15576;1612;1076;1614;708;1626;15584;34402;15580;1536;434;1538;436;1540;438;1542;
  721;1544;725;1548;728;1552;441;1554;15820;1556;732;1558;736;1560;934;1566;1064;1570;1068;1590;863;1606;
  15816;1608;15588;1616;740;1626;15596;34400;15592;1542;15608;34374;15612;1536;15616;1538;15620;1540;744;1550;
  15628;1552;15624;34374;15632;1550;15636;34320;15640;1536;15844;1538;442;1540;748;1542;15856;1544;1124;1550;
  15644;1552;752;1554;15852;34374;15848;1538;754;1540;15648;1550;758;1560;762;1606;15652;34402;15656;1536;448;
  1538;450;1540;453;1542;454;1544;514;1548;519;1550;1103;1552;457;1554;15686;1556;459;1560;924;1566;1026;1570;
  1030;1606;15683;1610;15362;34384;522;1550;15366;1606;15370;34402;15374;1538;526;1540;530;1550;534;1560;538;
  34382;463;1550;15382;1560;542;1606;15386;1614;15394;1626;15398;34402;15390;1536;464;1538;466;1540;469;1542;
  15738;1544;551;1548;554;1550;558;1552;470;1554;15734;1560;566;1566;1034;1570;1038;1606;15731;1614;1107;1616;
  562;1626;15410;34400;15414;34318;15422;1538;1002;1540;570;1544;15426;1548;574;1550;578;1560;974;34382;582;
  1540;586;1550;15430;1552;15438;1560;1086;1606;15434;1614;15442;1628;15446;34402;15660;1536;472;1538;474;
  1540;476;1542;594].
Definition norm2_nfc_data_extraData_1 : list Z := [
  1544;598;1548;602;1552;479;1554;15762;1560;928;1566;1042;1570;1046;1606;15766;1616;606;34400;15450;1540;618;
  34328;992;1538;15458;1560;978;1606;15462;1614;622;34402;15466;1538;628;1560;636;1606;15471;1614;632;1626;
  15482;34402;15478;1538;15486;1550;15490;34374;15494;1536;1010;1538;648;1542;482;1550;15498;1560;656;1606;
  15502;1614;652;1626;15510;34402;15506;1536;484;1538;486;1540;489;1542;491;1544;667;1548;670;1550;1119;1552;
  493;1554;15774;1558;674;1560;932;1566;1050;1570;1054;1590;835;1606;15771;34384;983;1538;15530;34318;15534;
  1538;682;1550;15538;1560;690;1566;1058;1570;1062;1606;15543;1614;686;34402;15550;1538;695;1540;698;1550;
  15554;1560;707;1606;15559;1612;1074;34382;702;1550;15574;1552;15662;1560;714;1606;15578;1612;1078;1614;710;
  1626;15586;34402;15582;1536;498;1538;500;1540;502;1542;723;1544;727;1548;730;1552;505;1554;15822;1556;734;
  1558;738;1560;936;1566;1066;1570;1070;1590;865;1606;15818;1608;15590;1616;742;1626;15598;34400;15594;1542;
  15610;34374;15614;1536;15618;1538;15622;1540;746;1550;15630;1552;15626;1556;15664;34374;15634;1550;15638;
  34320;15642;1536;15846;1538;506;1540;750;1542;15858;1544;1126;1550;15646;1552;510;1554;15854;1556;15666;
  34374;15850;1538;756;1540;15650;1550;760;1560;764;1606;15654;34402;15658;1536;16346;1538;1802;34436;16258;
  1538;1016;34312;964;34306;1020;1538;1018;34312;966;34306;1022;34318;15670;34328;988;34328;990;1536;16244;
  1538;1804;1544;16242;1548;16240;1574;15889;1576;15891;34442;16248;1536;16272;1538;1808;1574;15921;34344;
  15923;1536;16276;1538;1810;1574;15953;1576;15955;34442;16280;1536;16308;1538;1812;1544;16306;1548;16304;
  1552;1876;1574;15985;34344;15987;1536;16368;1538;1816;1574;16017;34344;16019;34344;16344;1536;16340;1538;
  1820;1544;16338;1548;16336;1552;1878;34344;16051;1536;16372;1538;1822;1574;16081;1576;16083;34442;16376;
  1536;16097;1538;1881;1544;16226;1548;16224;1574;15873;1576;15875;1668;16237;34442;16230;1536;16100;1538;
  1882;1574;15905;34344;15907;1536;16105;1538;1885;1574;15937;1576;15939;1668;16269;34442;16262;1536;16108;
  1538;1886;1544;16290;1548;16288;1552;1941;1574;15969;1576;15971;34436;16300;1536;16112;1538;1944;1574;16001;
  34344;16003;1574;16328;34344;16330;1536;16116;1538;1946;1544;16322;1548;16320;1552;1943;1574;16033;1576;
  16035;34436;16332;1536;16121;1538;1949;1574;16065;1576;16067;1668;16365;34442;16358;1538;1958;34320;1960;
  34320;2062;1548;2464;34320;2468;34306;2054;1536;2048;1548;2476;34320;2050;1548;2434;34320;2488;34320;2492;
  1536;2074;1544;2500;1548;2098;34320;2504;34306;2072;34320;2508;1544;2524;1548;2076;1552;2528;34326;2532;
  34320;2536;34320;2544;34320;2520;1548;2466;34320;2470;34306;2214;1536;2208;1548;2478;34320;2210;1548;2436;
  34320;2490;34320;2494;1536;2234;1544;2502;1548;2162].
Definition norm2_nfc_data_extraData_2 : list Z := [
  34320;2506;34306;2232;34320;2510;1544;2526;1548;2236;1552;2530;34326;2534;34320;2538;34320;2546;34320;2522;
  34320;2222;34334;2284;34334;2286;34320;2484;34320;2486;34320;2516;34320;2518;3238;3140;3240;3142;36010;3146;
  36008;3144;36008;3148;36008;3460;36008;3494;36008;3456;37496;4690;37496;4706;37496;4712;4988;5014;37806;
  5016;5756;5782;5804;5776;38574;5784;38830;5928;6012;6036;38830;6040;38780;6038;39084;6288;39338;6528;6532;
  6549;6570;6542;39340;6544;6780;6804;39598;6808;39548;6806;7060;7092;7070;7097;39870;7100;41052;8268;46698;
  13836;46698;13840;46698;13844;46698;13848;46698;13852;46698;13860;46698;13942;46698;13946;46698;13952;46698;
  13954;46698;13958;1536;16282;1538;16284;34436;16286;1536;16314;1538;16316;34436;16318;34416;17204;34416;
  17206;34416;17244;34416;17306;34416;17310;34416;17308;34416;17416;34416;17426;34416;17432;34416;17480;34416;
  17484;34416;17538;34416;17544;34416;17550;34416;17554;34416;17626;34416;17604;34416;17632;34416;17634;34416;
  17640;34416;17642;34416;17648;34416;17650;34416;17664;34416;17666;34416;17856;34416;17858;34416;17672;34416;
  17674;34416;17680;34416;17682;34416;17860;34416;17862;34416;17752;34416;17754;34416;17756;34416;17758;34416;
  17876;34416;17878;34416;17880;34416;17882;57650;24872;57650;24728;57650;24732;57650;24736;57650;24740;57650;
  24744;57650;24748;57650;24752;57650;24756;57650;24760;57650;24764;57650;24768;57650;24772;57650;24778;57650;
  24782;57650;24786;24882;24800;57652;24802;24882;24806;57652;24808;24882;24812;57652;24814;24882;24818;57652;
  24820;24882;24824;57652;24826;57650;24892;57650;25064;57650;24920;57650;24924;57650;24928;57650;24932;57650;
  24936;57650;24940;57650;24944;57650;24948;57650;24952;57650;24956;57650;24960;57650;24964;57650;24970;57650;
  24974;57650;24978;24882;24992;57652;24994;24882;24998;57652;25000;24882;25004;57652;25006;24882;25010;57652;
  25012;24882;25016;57652;25018;57650;25070;57650;25072;57650;25074;57650;25076;57650;25084;46217;11906;8500;
  46217;11906;8504;46217;11906;8534;46217;18882;8796;46217;18882;8798;13449;53122;9878;46217;54722;9880;13451;
  11266;10616;13451;11906;10614;46219;12098;10620;46219;27586;11124;46219;27586;11126;46221;19458;12912;2;
  58882;65;770;1536;15692;1538;15688;1542;15700;34322;15696;58882;65;776;34312;956;58882;65;778;34306;1012;
  51714;67;807;34306;15376;58882;69;770;1536;15744;1538;15740;1542;15752;34322;15748;58882;73;776;34306;15452;
  58882;79;770;1536;15780;1538;15776;1542;15788;34322;15784;58882;79;771;1538;15512;1544;1112;34320;15516;
  58882;79;776;34312;1108;58882;85;776;1536;950;1538;942;1544;938;34328;946;58882;97;770;1536;15694;1538;
  15690;1542;15702;34322;15698;58882;97;776;34312;958;58882;97;778;34306;1014;51714;99;807;34306;15378;58882;
  101;770;1536;15746;1538;15742;1542;15754;34322;15750;58882;105;776;34306;15454;58882;111;770;1536;15782;
  1538;15778;1542;15790;34322;15786;58882;111;771;1538;15514;1544;1114;34320;15518;58882;111].
Definition norm2_nfc_data_extraData_3 : list Z := [
  776;34312;1110;58882;117;776;1536;952;1538;944;1544;940;34328;948;58882;65;774;1536;15712;1538;15708;1542;
  15720;34322;15716;58882;97;774;1536;15714;1538;15710;1542;15722;34322;15718;58882;69;772;1536;15400;34306;
  15404;58882;101;772;1536;15402;34306;15406;58882;79;772;1536;15520;34306;15524;58882;111;772;1536;15522;
  34306;15526;58882;83;769;34318;15560;58882;115;769;34318;15562;58882;83;780;34318;15564;58882;115;780;34318;
  15566;58882;85;771;34306;15600;58882;117;771;34306;15602;58882;85;772;34320;15604;58882;117;772;34320;15606;
  55298;79;795;1536;15800;1538;15796;1542;15808;1554;15804;34374;15812;55298;111;795;1536;15802;1538;15798;
  1542;15810;1554;15806;34374;15814;55298;85;795;1536;15828;1538;15824;1542;15836;1554;15832;34374;15840;
  55298;117;795;1536;15830;1538;15826;1542;15838;1554;15834;34374;15842;51714;79;808;34312;984;51714;111;808;
  34312;986;58882;65;775;34312;960;58882;97;775;34312;962;51714;69;807;34316;15416;51714;101;807;34316;15418;
  58882;79;775;34312;1120;58882;111;775;34312;1122;58882;945;769;34442;16232;58882;951;769;34442;16264;58882;
  953;776;1536;16292;1538;1824;34436;16302;58882;965;776;1536;16324;1538;1888;34436;16334;58882;969;769;34442;
  16360;2;3270;3266;39338;6550;2;3545;3535;39828;7098;56322;76;803;34312;15472;56322;108;803;34312;15474;
  56322;82;803;34312;15544;56322;114;803;34312;15546;56322;83;803;34318;15568;56322;115;803;34318;15570;56322;
  65;803;1540;15704;34316;15724;56322;97;803;1540;15706;34316;15726;56322;69;803;34308;15756;56322;101;803;
  34308;15758;56322;79;803;34308;15792;56322;111;803;34308;15794;58882;945;787;1536;15877;1538;15881;1668;
  15885;34442;16128;58882;945;788;1536;15879;1538;15883;1668;15887;34442;16130;7936;58947;945;787;768;34442;
  16132;7937;58947;945;788;768;34442;16134;7936;58947;945;787;769;34442;16136;7937;58947;945;788;769;34442;
  16138;7936;58947;945;787;834;34442;16140;7937;58947;945;788;834;34442;16142;58882;913;787;1536;15893;1538;
  15897;1668;15901;34442;16144;58882;913;788;1536;15895;1538;15899;1668;15903;34442;16146;7944;58947;913;787;
  768;34442;16148;7945;58947;913;788;768;34442;16150;7944;58947;913;787;769;34442;16152;7945;58947;913;788;
  769;34442;16154;7944;58947;913;787;834;34442;16156;7945;58947;913;788;834;34442;16158;58882;949;787;1536;
  15908;34306;15912;58882;949;788;1536;15910;34306;15914;58882;917;787;1536;15924;34306;15928;58882;917;788;
  1536;15926;34306;15930;58882;951;787;1536;15941;1538;15945;1668;15949;34442;16160;58882;951;788;1536;15943;
  1538;15947;1668;15951;34442;16162;7968;58947;951;787;768;34442;16164;7969;58947;951;788;768;34442;16166;
  7968;58947;951;787;769;34442;16168;7969;58947;951;788;769;34442;16170;7968;58947;951].
Definition norm2_nfc_data_extraData_4 : list Z := [
  787;834;34442;16172;7969;58947;951;788;834;34442;16174;58882;919;787;1536;15957;1538;15961;1668;15965;34442;
  16176;58882;919;788;1536;15959;1538;15963;1668;15967;34442;16178;7976;58947;919;787;768;34442;16180;7977;
  58947;919;788;768;34442;16182;7976;58947;919;787;769;34442;16184;7977;58947;919;788;769;34442;16186;7976;
  58947;919;787;834;34442;16188;7977;58947;919;788;834;34442;16190;58882;953;787;1536;15972;1538;15976;34436;
  15980;58882;953;788;1536;15974;1538;15978;34436;15982;58882;921;787;1536;15988;1538;15992;34436;15996;58882;
  921;788;1536;15990;1538;15994;34436;15998;58882;959;787;1536;16004;34306;16008;58882;959;788;1536;16006;
  34306;16010;58882;927;787;1536;16020;34306;16024;58882;927;788;1536;16022;34306;16026;58882;965;787;1536;
  16036;1538;16040;34436;16044;58882;965;788;1536;16038;1538;16042;34436;16046;58882;933;788;1536;16054;1538;
  16058;34436;16062;58882;969;787;1536;16069;1538;16073;1668;16077;34442;16192;58882;969;788;1536;16071;1538;
  16075;1668;16079;34442;16194;8032;58947;969;787;768;34442;16196;8033;58947;969;788;768;34442;16198;8032;
  58947;969;787;769;34442;16200;8033;58947;969;788;769;34442;16202;8032;58947;969;787;834;34442;16204;8033;
  58947;969;788;834;34442;16206;58882;937;787;1536;16085;1538;16089;1668;16093;34442;16208;58882;937;788;1536;
  16087;1538;16091;1668;16095;34442;16210;8040;58947;937;787;768;34442;16212;8041;58947;937;788;768;34442;
  16214;8040;58947;937;787;769;34442;16216;8041;58947;937;788;769;34442;16218;8040;58947;937;787;834;34442;
  16220;8041;58947;937;788;834;34442;16222;58882;945;768;34442;16228;58882;951;768;34442;16260;58882;969;768;
  34442;16356;58882;945;834;34442;16238;58882;951;834;34442;16270;58882;969;834;34442;16366;3;58882;65;768;
  58882;65;769;58882;65;771;58882;69;768;58882;69;769;58882;69;776;58882;73;768;58882;73;769;58882;73;770;
  58882;78;771;58882;79;768;58882;79;769;58882;85;768;58882;85;769;58882;85;770;58882;89;769;58882;97;768;
  58882;97;769;58882;97;771;58882;101;768;58882;101;769;58882;101;776;58882;105;768;58882;105;769;58882;105;
  770;58882;110;771;58882;111;768;58882;111;769;58882;117;768;58882;117;769;58882;117;770;58882;121;769;58882;
  121;776;58882;65;772;58882;97;772;51714;65;808;51714;97;808;58882;67;769;58882;99;769;58882;67;770;58882;99;
  770;58882;67;775;58882;99;775;58882;67;780;58882;99;780;58882;68;780;58882;100;780;58882;69;774;58882;101;
  774;58882;69;775;58882;101;775;51714;69;808;51714;101;808;58882;69;780;58882;101;780;58882;71;770;58882;103;
  770;58882;71;774;58882;103;774;58882;71;775;58882;103;775;51714;71;807;51714].
Definition norm2_nfc_data_extraData_5 : list Z := [
  103;807;58882;72;770;58882;104;770;58882;73;771;58882;105;771;58882;73;772;58882;105;772;58882;73;774;58882;
  105;774;51714;73;808;51714;105;808;58882;73;775;58882;74;770;58882;106;770;51714;75;807;51714;107;807;58882;
  76;769;58882;108;769;51714;76;807;51714;108;807;58882;76;780;58882;108;780;58882;78;769;58882;110;769;51714;
  78;807;51714;110;807;58882;78;780;58882;110;780;58882;79;774;58882;111;774;58882;79;779;58882;111;779;58882;
  82;769;58882;114;769;51714;82;807;51714;114;807;58882;82;780;58882;114;780;58882;83;770;58882;115;770;51714;
  83;807;51714;115;807;51714;84;807;51714;116;807;58882;84;780;58882;116;780;58882;85;774;58882;117;774;58882;
  85;778;58882;117;778;58882;85;779;58882;117;779;51714;85;808;51714;117;808;58882;87;770;58882;119;770;58882;
  89;770;58882;121;770;58882;89;776;58882;90;769;58882;122;769;58882;90;775;58882;122;775;58882;90;780;58882;
  122;780;58882;65;780;58882;97;780;58882;73;780;58882;105;780;58882;79;780;58882;111;780;58882;85;780;58882;
  117;780;220;58947;85;776;772;252;58947;117;776;772;220;58947;85;776;769;252;58947;117;776;769;220;58947;85;
  776;780;252;58947;117;776;780;220;58947;85;776;768;252;58947;117;776;768;196;58947;65;776;772;228;58947;97;
  776;772;550;58947;65;775;772;551;58947;97;775;772;58882;198;772;58882;230;772;58882;71;780;58882;103;780;
  58882;75;780;58882;107;780;490;58947;79;808;772;491;58947;111;808;772;58882;439;780;58882;658;780;58882;106;
  780;58882;71;769;58882;103;769;58882;78;768;58882;110;768;197;58947;65;778;769;229;58947;97;778;769;58882;
  198;769;58882;230;769;58882;216;769;58882;248;769;58882;65;783;58882;97;783;58882;65;785;58882;97;785;58882;
  69;783;58882;101;783;58882;69;785;58882;101;785;58882;73;783;58882;105;783;58882;73;785;58882;105;785;58882;
  79;783;58882;111;783;58882;79;785;58882;111;785;58882;82;783;58882;114;783;58882;82;785;58882;114;785;58882;
  85;783;58882;117;783;58882;85;785;58882;117;785;56322;83;806;56322;115;806;56322;84;806;56322;116;806;58882;
  72;780;58882;104;780;214;58947;79;776;772;246;58947;111;776;772;213;58947;79;771;772;245;58947;111;771;772;
  558;58947;79;775;772;559;58947;111;775;772;58882;89;772;58882;121;772;58882;168;769;58882;913;769;58882;917;
  769;58882;919;769;58882;921;769;58882;927;769;58882;933;769;58882;937;769;970;58947;953;776;769;58882;921;
  776;58882;933;776;58882;949].
Definition norm2_nfc_data_extraData_6 : list Z := [
  769;58882;953;769;971;58947;965;776;769;58882;959;769;58882;965;769;58882;978;769;58882;978;776;58882;1045;
  768;58882;1045;776;58882;1043;769;58882;1030;776;58882;1050;769;58882;1048;768;58882;1059;774;58882;1048;
  774;58882;1080;774;58882;1077;768;58882;1077;776;58882;1075;769;58882;1110;776;58882;1082;769;58882;1080;
  768;58882;1091;774;58882;1140;783;58882;1141;783;58882;1046;774;58882;1078;774;58882;1040;774;58882;1072;
  774;58882;1040;776;58882;1072;776;58882;1045;774;58882;1077;774;58882;1240;776;58882;1241;776;58882;1046;
  776;58882;1078;776;58882;1047;776;58882;1079;776;58882;1048;772;58882;1080;772;58882;1048;776;58882;1080;
  776;58882;1054;776;58882;1086;776;58882;1256;776;58882;1257;776;58882;1069;776;58882;1101;776;58882;1059;
  772;58882;1091;772;58882;1059;776;58882;1091;776;58882;1059;779;58882;1091;779;58882;1063;776;58882;1095;
  776;58882;1067;776;58882;1099;776;58882;1575;1619;58882;1575;1620;58882;1608;1620;56322;1575;1621;58882;
  1610;1620;58882;1749;1620;58882;1729;1620;58882;1746;1620;1794;2344;2364;1794;2352;2364;1794;2355;2364;2;
  2503;2494;2;2503;2519;2;2887;2902;2;2887;2878;2;2887;2903;2;2962;3031;2;3014;3006;2;3015;3006;2;3014;3031;
  23298;3142;3158;2;3263;3285;2;3270;3285;2;3270;3286;3274;67;3270;3266;3285;2;3398;3390;2;3399;3390;2;3398;
  3415;2306;3545;3530;3548;2371;3545;3535;3530;2;3545;3551;2;4133;4142;2;6917;6965;2;6919;6965;2;6921;6965;2;
  6923;6965;2;6925;6965;2;6929;6965;2;6970;6965;2;6972;6965;2;6974;6965;2;6975;6965;2;6978;6965;56322;65;805;
  56322;97;805;58882;66;775;58882;98;775;56322;66;803;56322;98;803;56322;66;817;56322;98;817;199;58947;67;807;
  769;231;58947;99;807;769;58882;68;775;58882;100;775;56322;68;803;56322;100;803;56322;68;817;56322;100;817;
  51714;68;807;51714;100;807;56322;68;813;56322;100;813;274;58947;69;772;768;275;58947;101;772;768;274;58947;
  69;772;769;275;58947;101;772;769;56322;69;813;56322;101;813;56322;69;816;56322;101;816;552;58947;69;807;774;
  553;58947;101;807;774;58882;70;775;58882;102;775;58882;71;772;58882;103;772;58882;72;775;58882;104;775;
  56322;72;803;56322;104;803;58882;72;776;58882;104;776;51714;72;807;51714;104;807;56322;72;814;56322;104;814;
  56322;73;816;56322;105;816;207;58947;73;776;769;239;58947;105;776;769;58882;75;769;58882;107;769;56322;75;
  803;56322;107;803;56322;75;817;56322;107;817;7734;58947;76;803;772;7735;58947;108;803;772;56322;76;817;
  56322;108;817;56322;76;813;56322].
Definition norm2_nfc_data_extraData_7 : list Z := [
  108;813;58882;77;769;58882;109;769;58882;77;775;58882;109;775;56322;77;803;56322;109;803;58882;78;775;58882;
  110;775;56322;78;803;56322;110;803;56322;78;817;56322;110;817;56322;78;813;56322;110;813;213;58947;79;771;
  769;245;58947;111;771;769;213;58947;79;771;776;245;58947;111;771;776;332;58947;79;772;768;333;58947;111;772;
  768;332;58947;79;772;769;333;58947;111;772;769;58882;80;769;58882;112;769;58882;80;775;58882;112;775;58882;
  82;775;58882;114;775;7770;58947;82;803;772;7771;58947;114;803;772;56322;82;817;56322;114;817;58882;83;775;
  58882;115;775;346;58947;83;769;775;347;58947;115;769;775;352;58947;83;780;775;353;58947;115;780;775;7778;
  58947;83;803;775;7779;58947;115;803;775;58882;84;775;58882;116;775;56322;84;803;56322;116;803;56322;84;817;
  56322;116;817;56322;84;813;56322;116;813;56322;85;804;56322;117;804;56322;85;816;56322;117;816;56322;85;813;
  56322;117;813;360;58947;85;771;769;361;58947;117;771;769;362;58947;85;772;776;363;58947;117;772;776;58882;
  86;771;58882;118;771;56322;86;803;56322;118;803;58882;87;768;58882;119;768;58882;87;769;58882;119;769;58882;
  87;776;58882;119;776;58882;87;775;58882;119;775;56322;87;803;56322;119;803;58882;88;775;58882;120;775;58882;
  88;776;58882;120;776;58882;89;775;58882;121;775;58882;90;770;58882;122;770;56322;90;803;56322;122;803;56322;
  90;817;56322;122;817;56322;104;817;58882;116;776;58882;119;778;58882;121;778;58882;383;775;58882;65;777;
  58882;97;777;194;58947;65;770;769;226;58947;97;770;769;194;58947;65;770;768;226;58947;97;770;768;194;58947;
  65;770;777;226;58947;97;770;777;194;58947;65;770;771;226;58947;97;770;771;7840;58947;65;803;770;7841;58947;
  97;803;770;258;58947;65;774;769;259;58947;97;774;769;258;58947;65;774;768;259;58947;97;774;768;258;58947;65;
  774;777;259;58947;97;774;777;258;58947;65;774;771;259;58947;97;774;771;7840;58947;65;803;774;7841;58947;97;
  803;774;58882;69;777;58882;101;777;58882;69;771;58882;101;771;202;58947;69;770;769;234;58947;101;770;769;
  202;58947;69;770;768;234;58947;101;770;768;202;58947;69;770;777;234;58947;101;770;777;202;58947;69;770;771;
  234;58947;101;770;771;7864;58947;69;803;770;7865;58947;101;803;770;58882;73;777;58882;105;777;56322;73;803;
  56322;105;803;58882;79;777;58882;111;777;212;58947;79;770;769;244;58947;111;770;769;212;58947;79;770;768;
  244;58947].
Definition norm2_nfc_data_extraData_8 : list Z := [
  111;770;768;212;58947;79;770;777;244;58947;111;770;777;212;58947;79;770;771;244;58947;111;770;771;7884;
  58947;79;803;770;7885;58947;111;803;770;416;58947;79;795;769;417;58947;111;795;769;416;58947;79;795;768;417;
  58947;111;795;768;416;58947;79;795;777;417;58947;111;795;777;416;58947;79;795;771;417;58947;111;795;771;416;
  56387;79;795;803;417;56387;111;795;803;56322;85;803;56322;117;803;58882;85;777;58882;117;777;431;58947;85;
  795;769;432;58947;117;795;769;431;58947;85;795;768;432;58947;117;795;768;431;58947;85;795;777;432;58947;117;
  795;777;431;58947;85;795;771;432;58947;117;795;771;431;56387;85;795;803;432;56387;117;795;803;58882;89;768;
  58882;121;768;56322;89;803;56322;121;803;58882;89;777;58882;121;777;58882;89;771;58882;121;771;7952;58947;
  949;787;768;7953;58947;949;788;768;7952;58947;949;787;769;7953;58947;949;788;769;7960;58947;917;787;768;
  7961;58947;917;788;768;7960;58947;917;787;769;7961;58947;917;788;769;7984;58947;953;787;768;7985;58947;953;
  788;768;7984;58947;953;787;769;7985;58947;953;788;769;7984;58947;953;787;834;7985;58947;953;788;834;7992;
  58947;921;787;768;7993;58947;921;788;768;7992;58947;921;787;769;7993;58947;921;788;769;7992;58947;921;787;
  834;7993;58947;921;788;834;8000;58947;959;787;768;8001;58947;959;788;768;8000;58947;959;787;769;8001;58947;
  959;788;769;8008;58947;927;787;768;8009;58947;927;788;768;8008;58947;927;787;769;8009;58947;927;788;769;
  8016;58947;965;787;768;8017;58947;965;788;768;8016;58947;965;787;769;8017;58947;965;788;769;8016;58947;965;
  787;834;8017;58947;965;788;834;8025;58947;933;788;768;8025;58947;933;788;769;8025;58947;933;788;834;58882;
  949;768;58882;953;768;58882;959;768;58882;965;768;7936;61507;945;787;837;7937;61507;945;788;837;7938;837;2;
  61508;945;787;768;837;7939;837;2;61508;945;788;768;837;7940;837;2;61508;945;787;769;837;7941;837;2;61508;
  945;788;769;837;7942;837;2;61508;945;787;834;837;7943;837;2;61508;945;788;834;837;7944;61507;913;787;837;
  7945;61507;913;788;837;7946;837;2;61508;913;787;768;837;7947;837;2;61508;913;788;768;837;7948;837;2;61508;
  913;787;769;837;7949;837;2;61508;913;788;769;837;7950;837;2;61508;913;787;834;837;7951;837;2;61508;913;788;
  834;837;7968;61507;951;787;837;7969;61507;951;788;837;7970;837;2;61508;951;787;768;837;7971;837;2;61508;951;
  788;768;837;7972;837;2;61508].
Definition norm2_nfc_data_extraData_9 : list Z := [
  951;787;769;837;7973;837;2;61508;951;788;769;837;7974;837;2;61508;951;787;834;837;7975;837;2;61508;951;788;
  834;837;7976;61507;919;787;837;7977;61507;919;788;837;7978;837;2;61508;919;787;768;837;7979;837;2;61508;919;
  788;768;837;7980;837;2;61508;919;787;769;837;7981;837;2;61508;919;788;769;837;7982;837;2;61508;919;787;834;
  837;7983;837;2;61508;919;788;834;837;8032;61507;969;787;837;8033;61507;969;788;837;8034;837;2;61508;969;787;
  768;837;8035;837;2;61508;969;788;768;837;8036;837;2;61508;969;787;769;837;8037;837;2;61508;969;788;769;837;
  8038;837;2;61508;969;787;834;837;8039;837;2;61508;969;788;834;837;8040;61507;937;787;837;8041;61507;937;788;
  837;8042;837;2;61508;937;787;768;837;8043;837;2;61508;937;788;768;837;8044;837;2;61508;937;787;769;837;8045;
  837;2;61508;937;788;769;837;8046;837;2;61508;937;787;834;837;8047;837;2;61508;937;788;834;837;58882;945;774;
  58882;945;772;8048;61507;945;768;837;61442;945;837;940;61507;945;769;837;8118;61507;945;834;837;58882;913;
  774;58882;913;772;58882;913;768;61442;913;837;58882;168;834;8052;61507;951;768;837;61442;951;837;942;61507;
  951;769;837;8134;61507;951;834;837;58882;917;768;58882;919;768;61442;919;837;58882;8127;768;58882;8127;769;
  58882;8127;834;58882;953;774;58882;953;772;970;58947;953;776;768;58882;953;834;970;58947;953;776;834;58882;
  921;774;58882;921;772;58882;921;768;58882;8190;768;58882;8190;769;58882;8190;834;58882;965;774;58882;965;
  772;971;58947;965;776;768;58882;961;787;58882;961;788;58882;965;834;971;58947;965;776;834;58882;933;774;
  58882;933;772;58882;933;768;58882;929;788;58882;168;768;8060;61507;969;768;837;61442;969;837;974;61507;969;
  769;837;8182;61507;969;834;837;58882;927;768;58882;937;768;61442;937;837;258;8592;824;258;8594;824;258;8596;
  824;258;8656;824;258;8660;824;258;8658;824;258;8707;824;258;8712;824;258;8715;824;258;8739;824;258;8741;824;
  258;8764;824;258;8771;824;258;8773;824;258;8776;824;258;61;824;258;8801;824;258;8781;824;258;60;824;258;62;
  824;258;8804;824;258;8805;824;258;8818;824;258;8819;824;258;8822;824;258;8823;824;258;8826;824;258;8827;824;
  258;8834;824;258;8835;824;258;8838;824;258;8839;824;258;8866;824;258;8872;824;258;8873;824;258;8875;824;258;
  8828;824;258;8829;824;258;8849;824;258;8850;824;258;8882;824;258;8883;824;258;8884;824;258;8885].
Definition norm2_nfc_data_extraData_10 : list Z := [
  824;2050;12363;12441;2050;12365;12441;2050;12367;12441;2050;12369;12441;2050;12371;12441;2050;12373;12441;
  2050;12375;12441;2050;12377;12441;2050;12379;12441;2050;12381;12441;2050;12383;12441;2050;12385;12441;2050;
  12388;12441;2050;12390;12441;2050;12392;12441;2050;12399;12441;2050;12399;12442;2050;12402;12441;2050;12402;
  12442;2050;12405;12441;2050;12405;12442;2050;12408;12441;2050;12408;12442;2050;12411;12441;2050;12411;12442;
  2050;12358;12441;2050;12445;12441;2050;12459;12441;2050;12461;12441;2050;12463;12441;2050;12465;12441;2050;
  12467;12441;2050;12469;12441;2050;12471;12441;2050;12473;12441;2050;12475;12441;2050;12477;12441;2050;12479;
  12441;2050;12481;12441;2050;12484;12441;2050;12486;12441;2050;12488;12441;2050;12495;12441;2050;12495;12442;
  2050;12498;12441;2050;12498;12442;2050;12501;12441;2050;12501;12442;2050;12504;12441;2050;12504;12442;2050;
  12507;12441;2050;12507;12442;2050;12454;12441;2050;12527;12441;2050;12528;12441;2050;12529;12441;2050;12530;
  12441;2050;12541;12441;1796;55300;56473;55300;56506;1796;55300;56475;55300;56506;1796;55300;56485;55300;
  56506;4;55300;56625;55300;56615;4;55300;56626;55300;56615;4;55300;57159;55300;57150;4;55300;57159;55300;
  57175;4;55301;56505;55301;56506;4;55301;56505;55301;56496;4;55301;56505;55301;56509;4;55301;56760;55301;
  56751;4;55301;56761;55301;56751;4;55302;56629;55302;56624;1;697;1;59;1;183;1794;2325;2364;1794;2326;2364;
  1794;2327;2364;1794;2332;2364;1794;2337;2364;1794;2338;2364;1794;2347;2364;1794;2351;2364;1794;2465;2492;
  1794;2466;2492;1794;2479;2492;1794;2610;2620;1794;2616;2620;1794;2582;2620;1794;2583;2620;1794;2588;2620;
  1794;2603;2620;1794;2849;2876;1794;2850;2876;2;3906;4023;2;3916;4023;2;3921;4023;2;3926;4023;2;3931;4023;2;
  3904;4021;33282;4018;3968;33282;4019;3968;2;3986;4023;2;3996;4023;2;4001;4023;2;4006;4023;2;4011;4023;2;
  3984;4021;1;953;1;96;1;180;1;937;1;75;1;12296;1;12297;258;10973;824;1;35912;1;26356;1;36554;1;36040;1;28369;
  1;20018;1;21477;1;40860;1;22865;1;37329;1;21895;1;22856;1;25078;1;30313;1;32645;1;34367;1;34746;1;35064;1;
  37007;1;27138;1;27931;1;28889;1;29662;1;33853;1;37226;1;39409;1;20098;1;21365;1;27396;1;29211;1;34349;1;
  40478;1;23888;1;28651;1;34253;1;35172;1;25289;1;33240;1;34847;1;24266;1;26391;1;28010;1;29436;1;37070;1;
  20358;1;20919;1;21214;1;25796;1;27347;1;29200;1;30439;1;32769;1;34310;1;34396;1;36335;1;38706;1;39791;1;
  40442;1;30860;1;31103;1;32160;1;33737;1;37636;1;40575;1;35542;1;22751;1;24324;1;31840;1;32894;1;29282;1;
  30922;1;36034;1;38647;1;22744;1;23650].
Definition norm2_nfc_data_extraData_11 : list Z := [
  1;27155;1;28122;1;28431;1;32047;1;32311;1;38475;1;21202;1;32907;1;20956;1;20940;1;31260;1;32190;1;33777;1;
  38517;1;35712;1;25295;1;35582;1;20025;1;23527;1;24594;1;29575;1;30064;1;21271;1;30971;1;20415;1;24489;1;
  19981;1;27852;1;25976;1;32034;1;21443;1;22622;1;30465;1;33865;1;35498;1;27578;1;36784;1;27784;1;25342;1;
  33509;1;25504;1;30053;1;20142;1;20841;1;20937;1;26753;1;31975;1;33391;1;35538;1;37327;1;21237;1;21570;1;
  22899;1;24300;1;26053;1;28670;1;31018;1;38317;1;39530;1;40599;1;40654;1;21147;1;26310;1;27511;1;36706;1;
  24180;1;24976;1;25088;1;25754;1;28451;1;29001;1;29833;1;31178;1;32244;1;32879;1;36646;1;34030;1;36899;1;
  37706;1;21015;1;21155;1;21693;1;28872;1;35010;1;24265;1;24565;1;25467;1;27566;1;31806;1;29557;1;20196;1;
  22265;1;23994;1;24604;1;29618;1;29801;1;32666;1;32838;1;37428;1;38646;1;38728;1;38936;1;20363;1;31150;1;
  37300;1;38584;1;24801;1;20102;1;20698;1;23534;1;23615;1;26009;1;29134;1;30274;1;34044;1;36988;1;40845;1;
  26248;1;38446;1;21129;1;26491;1;26611;1;27969;1;28316;1;29705;1;30041;1;30827;1;32016;1;39006;1;20845;1;
  25134;1;38520;1;20523;1;23833;1;28138;1;36650;1;24459;1;24900;1;26647;1;38534;1;21033;1;21519;1;23653;1;
  26131;1;26446;1;26792;1;27877;1;29702;1;30178;1;32633;1;35023;1;35041;1;37324;1;38626;1;21311;1;28346;1;
  21533;1;29136;1;29848;1;34298;1;38563;1;40023;1;40607;1;26519;1;28107;1;33256;1;31435;1;31520;1;31890;1;
  29376;1;28825;1;35672;1;20160;1;33590;1;21050;1;20999;1;24230;1;25299;1;31958;1;23429;1;27934;1;26292;1;
  36667;1;34892;1;38477;1;35211;1;24275;1;20800;1;21952;1;22618;1;26228;1;20958;1;29482;1;30410;1;31036;1;
  31070;1;31077;1;31119;1;38742;1;31934;1;32701;1;34322;1;35576;1;36920;1;37117;1;39151;1;39164;1;39208;1;
  40372;1;37086;1;38583;1;20398;1;20711;1;20813;1;21193;1;21220;1;21329;1;21917;1;22022;1;22120;1;22592;1;
  22696;1;23652;1;23662;1;24724;1;24936;1;24974;1;25074;1;25935;1;26082;1;26257;1;26757;1;28023;1;28186;1;
  28450;1;29038;1;29227;1;29730;1;30865;1;31038;1;31049;1;31048;1;31056;1;31062;1;31069;1;31117;1;31118;1;
  31296;1;31361;1;31680;1;32265;1;32321;1;32626;1;32773;1;33261;1;33401].
Definition norm2_nfc_data_extraData_12 : list Z := [
  1;33879;1;35088;1;35222;1;35585;1;35641;1;36051;1;36104;1;36790;1;38627;1;38911;1;38971;1;24693;2;55376;
  57070;1;33304;1;20006;1;20917;1;20840;1;20352;1;20805;1;20864;1;21191;1;21242;1;21845;1;21913;1;21986;1;
  22707;1;22852;1;22868;1;23138;1;23336;1;24274;1;24281;1;24425;1;24493;1;24792;1;24910;1;24840;1;24928;1;
  25140;1;25540;1;25628;1;25682;1;25942;1;26395;1;26454;1;27513;1;28379;1;28363;1;28702;1;30631;1;29237;1;
  29359;1;29809;1;29958;1;30011;1;30237;1;30239;1;30427;1;30452;1;30538;1;30528;1;30924;1;31409;1;31867;1;
  32091;1;32574;1;33618;1;33775;1;34681;1;35137;1;35206;1;35519;1;35531;1;35565;1;35722;1;36664;1;36978;1;
  37273;1;37494;1;38524;1;38875;1;38923;1;39698;2;55370;56394;2;55370;56388;2;55372;57301;1;15261;1;16408;1;
  16441;2;55380;56905;2;55383;56528;2;55391;57043;1;40771;1;40846;3586;1497;1460;4354;1522;1463;6146;1513;
  1473;6402;1513;1474;64329;6211;1513;1468;1473;64329;6467;1513;1468;1474;4354;1488;1463;4610;1488;1464;5378;
  1488;1468;5378;1489;1468;5378;1490;1468;5378;1491;1468;5378;1492;1468;5378;1493;1468;5378;1494;1468;5378;
  1496;1468;5378;1497;1468;5378;1498;1468;5378;1499;1468;5378;1500;1468;5378;1502;1468;5378;1504;1468;5378;
  1505;1468;5378;1507;1468;5378;1508;1468;5378;1510;1468;5378;1511;1468;5378;1512;1468;5378;1513;1468;5378;
  1514;1468;4866;1493;1465;5890;1489;1471;5890;1499;1471;5890;1508;1471;55300;55348;56663;55348;56677;55300;
  55348;56664;55348;56677;55348;56671;55348;56686;4;55366;55348;56664;55348;56677;55348;56686;55348;56671;
  55348;56687;4;55366;55348;56664;55348;56677;55348;56687;55348;56671;55348;56688;4;55366;55348;56664;55348;
  56677;55348;56688;55348;56671;55348;56689;4;55366;55348;56664;55348;56677;55348;56689;55348;56671;55348;
  56690;4;55366;55348;56664;55348;56677;55348;56690;55300;55348;56761;55348;56677;55300;55348;56762;55348;
  56677;55348;56763;55348;56686;4;55366;55348;56761;55348;56677;55348;56686;55348;56764;55348;56686;4;55366;
  55348;56762;55348;56677;55348;56686;55348;56763;55348;56687;4;55366;55348;56761;55348;56677;55348;56687;
  55348;56764;55348;56687;4;55366;55348;56762;55348;56677;55348;56687;1;20029;1;20024;1;20033;2;55360;56610;1;
  20320;1;20411;1;20482;1;20602;1;20633;1;20687;1;13470;2;55361;56890;1;20820;1;20836;1;20855;2;55361;56604;1;
  13497;1;20839;1;20877;2;55361;56651;1;20887;1;20900;1;20172;1;20908;2;55396;56799;1;20981;1;20995;1;13535;1;
  21051;1;21062;1;21106;1;21111;1;13589;1;21253;1;21254;1;21321;1;21338;1;21363;1;21373].
Definition norm2_nfc_data_extraData_13 : list Z := [
  1;21375;2;55362;56876;1;28784;1;21450;1;21471;2;55362;57187;1;21483;1;21489;1;21510;1;21662;1;21560;1;21576;
  1;21608;1;21666;1;21750;1;21776;1;21843;1;21859;1;21892;1;21931;1;21939;1;21954;1;22294;1;22295;1;22097;1;
  22132;1;22766;1;22478;1;22516;1;22541;1;22411;1;22578;1;22577;1;22700;2;55365;56548;1;22770;1;22775;1;22790;
  1;22810;1;22818;1;22882;2;55365;57000;2;55365;57066;1;23020;1;23067;1;23079;1;23000;1;23142;1;14062;1;14076;
  1;23304;1;23358;2;55366;56776;1;23491;1;23512;1;23539;2;55366;57112;1;23551;1;23558;1;24403;1;23586;1;14209;
  1;23648;1;23744;1;23693;2;55367;56804;1;23875;2;55367;56806;1;23918;1;23915;1;23932;1;24033;1;24034;1;14383;
  1;24061;1;24104;1;24125;1;24169;1;14434;2;55368;56707;1;14460;1;24240;1;24243;1;24246;2;55400;57234;1;24318;
  2;55368;57137;1;33281;1;24354;1;14535;2;55372;57016;2;55384;56794;1;24418;1;24427;1;14563;1;24474;1;24525;1;
  24535;1;24569;1;24705;1;14650;1;14620;2;55369;57044;1;24775;1;24904;1;24908;1;24954;1;25010;1;24996;1;25007;
  1;25054;1;25104;1;25115;1;25181;1;25265;1;25300;1;25424;2;55370;57100;1;25405;1;25340;1;25448;1;25475;1;
  25572;2;55370;57329;1;25634;1;25541;1;25513;1;14894;1;25705;1;25726;1;25757;1;25719;1;14956;1;25964;2;55372;
  56330;1;26083;1;26360;1;26185;1;15129;1;15112;1;15076;1;20882;1;20885;1;26368;1;26268;1;32941;1;17369;1;
  26401;1;26462;1;26451;2;55372;57283;1;15177;1;26618;1;26501;1;26706;2;55373;56429;1;26766;1;26655;1;26900;1;
  26946;1;27043;1;27114;1;27304;2;55373;56995;1;27355;1;15384;1;27425;2;55374;56487;1;27476;1;15438;1;27506;1;
  27551;1;27579;2;55374;56973;2;55367;56587;2;55374;57082;1;27726;2;55375;56508;1;27839;1;27853;1;27751;1;
  27926;1;27966;1;28009;1;28024;1;28037;2;55375;56606;1;27956;1;28207;1;28270;1;15667;1;28359;2;55375;57041;1;
  28153;1;28526;2;55375;57182;2;55375;57230;1;28614;1;28729;1;28699;1;15766;1;28746;1;28797;1;28791;1;28845;2;
  55361;56613;1;28997;2;55376;56931;1;29084;2;55376;57259;1;29224;1;29264;2;55377;56840;1;29312;1;29333;2;
  55377;57141;2;55378;56340;1;29562;1;29579;1;16044;1;29605;1;16056;1;29767;1;29788;1;29829;1;29898;1;16155;1;
  29988;2;55379;56374;1;30014;2;55379;56466;2;55368;56735;1;30224;2;55379;57249;2;55379;57272;2].
Definition norm2_nfc_data_extraData_14 : list Z := [
  55380;56388;1;16380;1;16392;2;55380;56563;2;55380;56562;2;55380;56601;2;55380;56627;1;30494;1;30495;1;30603;
  1;16454;1;16534;2;55381;56349;1;30798;1;16611;2;55381;56870;2;55381;56986;2;55381;57029;1;31211;1;16687;1;
  31306;1;31311;2;55382;56700;2;55382;56999;1;31470;1;16898;2;55382;57259;1;31686;1;31689;1;16935;2;55383;
  56448;1;31954;1;17056;1;31976;1;31971;1;32000;2;55383;57222;1;32099;1;17153;1;32199;1;32258;1;32325;1;17204;
  2;55384;56872;2;55384;56903;1;17241;2;55384;57049;1;32634;2;55384;57150;1;32661;1;32762;2;55385;56538;2;
  55385;56611;1;32864;2;55385;56744;1;32880;2;55372;57183;1;17365;1;32946;1;33027;1;17419;1;33086;1;23221;2;
  55385;57255;2;55385;57269;2;55372;57235;2;55372;57244;1;33284;1;36766;1;17515;1;33425;1;33419;1;33437;1;
  21171;1;33457;1;33459;1;33469;1;33510;2;55386;57148;1;33565;1;33635;1;33709;1;33571;1;33725;1;33767;1;33619;
  1;33738;1;33740;1;33756;2;55387;56374;2;55387;56683;2;55387;56533;1;17707;1;34033;1;34035;1;34070;2;55388;
  57290;1;34148;2;55387;57132;1;17757;1;17761;2;55387;57265;2;55388;56530;1;17771;1;34384;1;34407;1;34409;1;
  34473;1;34440;1;34574;1;34530;1;34600;1;34667;1;34694;1;17879;1;34785;1;34817;1;17913;1;34912;1;34915;2;
  55389;56935;1;35031;1;35038;1;17973;1;35066;1;13499;2;55390;56494;2;55390;56678;1;18110;1;18119;1;35488;1;
  35925;2;55391;56488;1;36011;1;36033;1;36123;1;36215;2;55391;57135;2;55362;56324;1;36299;1;36284;1;36336;2;
  55362;56542;1;36564;2;55393;56786;2;55393;56813;1;37012;1;37105;1;37137;2;55393;57134;1;37147;1;37432;1;
  37591;1;37592;1;37500;1;37881;1;37909;2;55394;57338;1;38283;1;18837;1;38327;2;55395;56695;1;18918;1;38595;1;
  23986;1;38691;2;55396;56645;2;55396;56858;1;19054;1;19062;1;38880;2;55397;56330;1;19122;2;55397;56470;1;
  38953;2;55397;56758;1;39138;1;19251;1;39209;1;39335;1;39362;1;39422;1;19406;2;55398;57136;1;40000;1;40189;1;
  19662;1;19693;1;40295;2;55400;56526;1;19704;2;55400;56581;2;55400;56846;2;55400;56977;1;40635;1;19798;1;
  40697;1;40702;1;40709;1;40719;1;40726;1;40763;2;55401;56832;940;58946;945;769;941;58946;949;769;942;58946;
  951;769;943;58946;953;769;972;58946;959;769;973;58946;965;769;974;58946;969;769;902;58946;913;769;904;58946;
  917;769;905;58946;919;769;912;1;58947;953;776;769;906;58946;921;769].
Definition norm2_nfc_data_extraData_15 : list Z := [
  944;1;58947;965;776;769;910;58946;933;769;901;58946;168;769;908;58946;927;769;911;58946;937;769;197;58946;
  65;778;59110;59009;768;59110;59009;769;59110;59009;787;59110;59010;776;769;33024;33410;3953;3954;33024;
  33922;3953;3956;33024;33410;3953;3968;0].
Definition norm2_nfc_data_extraData_list : list Z := (norm2_nfc_data_extraData_0 ++ norm2_nfc_data_extraData_1 ++ norm2_nfc_data_extraData_2 ++ norm2_nfc_data_extraData_3 ++ norm2_nfc_data_extraData_4 ++ norm2_nfc_data_extraData_5 ++ norm2_nfc_data_extraData_6 ++ norm2_nfc_data_extraData_7 ++ norm2_nfc_data_extraData_8 ++ norm2_nfc_data_extraData_9 ++ norm2_nfc_data_extraData_10 ++ norm2_nfc_data_extraData_11 ++ norm2_nfc_data_extraData_12 ++ norm2_nfc_data_extraData_13 ++ norm2_nfc_data_extraData_14 ++ norm2_nfc_data_extraData_15)%list.
Definition norm2_nfc_data_extraData_tree : tree := Eval vm_compute in tree_of norm2_nfc_data_extraData_list.
Definition norm2_nfc_data_extraData : arr := arr_of_tree 7732 norm2_nfc_data_extraData_tree.
Lemma norm2_nfc_data_extraData_is : norm2_nfc_data_extraData_tree = tree_of norm2_nfc_data_extraData_list /\ zlen norm2_nfc_data_extraData_list = 7732.
Proof. split; vm_compute; reflexivity. Qed.

(** Norm2NFCData.py:1129-1146 *)
Definition norm2_nfc_data_smallFCD_0 : list Z := [
  192;239;3;127;223;112;207;135;199;230;102;70;100;70;102;91;18;0;0;4;0;0;0;67;32;2;105;174;194;192;255;255;
  192;114;191;0;0;0;0;0;0;0;64;0;128;136;0;0;254;0;0;0;0;0;0;0;0;0;0;0;0;0;0;0;0;0;0;0;0;0;0;0;0;0;0;0;0;0;0;
  0;0;0;0;0;0;0;0;0;0;0;0;0;0;0;0;0;0;0;0;0;0;0;0;0;0;0;0;0;0;0;0;0;0;0;0;0;0;0;0;0;0;0;0;0;0;0;0;0;0;0;0;0;0;
  0;0;0;0;0;0;0;0;0;0;0;0;0;0;0;0;0;0;0;0;0;0;0;0;0;0;0;0;0;0;0;0;0;152;0;195;102;224;128;0;0;0;0;0;0;0;0;0;0;
  0;0;0;0;0;0;0;0;0;0;0;0;0;0;0;0;0;0;0;0;0;0;0;0;0;0;0;0;0;0;0;0;0;0;3;0;0;0;0;0;0;0;0;0;0;0;0;0;0;0;0;0;0;0;
  0;0;0;0;0;0;0;0;0;0;0;0;0;0;0;7;0;0;2;0].
Definition norm2_nfc_data_smallFCD_list : list Z := (norm2_nfc_data_smallFCD_0)%list.
Definition norm2_nfc_data_smallFCD_tree : tree := Eval vm_compute in tree_of norm2_nfc_data_smallFCD_list.
Definition norm2_nfc_data_smallFCD : arr := arr_of_tree 256 norm2_nfc_data_smallFCD_tree.
Lemma norm2_nfc_data_smallFCD_is : norm2_nfc_data_smallFCD_tree = tree_of norm2_nfc_data_smallFCD_list /\ zlen norm2_nfc_data_smallFCD_list = 256.
Proof. split; vm_compute; reflexivity. Qed.
