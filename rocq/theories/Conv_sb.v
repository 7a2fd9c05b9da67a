(** GENERATED by tools/gen.py from /repo/lib/converters; do not edit.
    Converter functions, one definition per basic block that is reached from several places. *)
From Coq Require Import ZArith List Bool.
From Verif Require Import Base Conv_uni.
Import ListNotations.
Open Scope Z_scope.

(* lib/converters/vietcomb.h:32-253 viet_comp_table_data (flattened, 2 fields per entry) *)
Definition viet_comp_table_data : tab := mk [
 [65;192;69;200;73;204;78;504;79;210;85;217;87;7808;89;7922];
 [97;224;101;232;105;236;110;505;111;242;117;249;119;7809;121;7923];
 [168;8173;194;7846;202;7872;212;7890;220;475;226;7847;234;7873;244;7891];
 [252;476;258;7856;259;7857;416;7900;417;7901;431;7914;432;7915;65;193];
 [67;262;69;201;71;500;73;205;75;7728;76;313;77;7742;78;323];
 [79;211;80;7764;82;340;83;346;85;218;87;7810;89;221;90;377];
 [97;225;99;263;101;233;103;501;105;237;107;7729;108;314;109;7743];
 [110;324;111;243;112;7765;114;341;115;347;117;250;119;7811;121;253];
 [122;378;168;901;194;7844;197;506;198;508;199;7688;202;7870;207;7726];
 [212;7888;213;7756;216;510;220;471;226;7845;229;507;230;509;231;7689];
 [234;7871;239;7727;244;7889;245;7757;248;511;252;472;258;7854;259;7855];
 [360;7800;361;7801;416;7898;417;7899;431;7912;432;7913;65;195;69;7868];
 [73;296;78;209;79;213;85;360;86;7804;89;7928;97;227;101;7869];
 [105;297;110;241;111;245;117;361;118;7805;121;7929;194;7850;202;7876];
 [211;7756;212;7894;214;7758;218;7800;226;7851;234;7877;243;7757;244;7895];
 [246;7759;250;7801;258;7860;259;7861;416;7904;417;7905;431;7918;432;7919];
 [65;7842;69;7866;73;7880;79;7886;85;7910;89;7926;97;7843;101;7867];
 [105;7881;111;7887;117;7911;121;7927;194;7848;202;7874;212;7892;226;7849];
 [234;7875;244;7893;258;7858;259;7859;416;7902;417;7903;431;7916;432;7917];
 [65;7840;66;7684;68;7692;69;7864;72;7716;73;7882;75;7730;76;7734];
 [77;7746;78;7750;79;7884;82;7770;83;7778;84;7788;85;7908;86;7806];
 [87;7816;89;7924;90;7826;97;7841;98;7685;100;7693;101;7865;104;7717];
 [105;7883;107;7731;108;7735;109;7747;110;7751;111;7885;114;7771;115;7779];
 [116;7789;117;7909;118;7807;119;7817;121;7925;122;7827;194;7852;202;7878];
 [212;7896;226;7853;234;7879;244;7897;258;7862;259;7863;416;7906;417;7907];
 [431;7920;432;7921]].

(* lib/converters/vietcomb.h:254-260 viet_comp_table (flattened, 2 fields per entry) *)
Definition viet_comp_table : tab := mk [
 [31;0;63;31;34;94;24;128;50;152]].

(* lib/converters/vietcomb.h:264-466 viet_decomp_table (flattened, 3 fields per entry) *)
Definition viet_decomp_table : tab := mk [
 [180;32;1;192;65;0;193;65;1;195;65;2;200;69;0;201];
 [69;1;204;73;0;205;73;1;209;78;2;210;79;0;211;79];
 [1;213;79;2;217;85;0;218;85;1;221;89;1;224;97;0];
 [225;97;1;227;97;2;232;101;0;233;101;1;236;105;0;237];
 [105;1;241;110;2;242;111;0;243;111;1;245;111;2;249;117];
 [0;250;117;1;253;121;1;262;67;1;263;99;1;296;73;2];
 [297;105;2;313;76;1;314;108;1;323;78;1;324;110;1;340];
 [82;1;341;114;1;346;83;1;347;115;1;360;85;2;361;117];
 [2;377;90;1;378;122;1;471;220;1;472;252;1;475;220;0];
 [476;252;0;500;71;1;501;103;1;504;78;0;505;110;0;506];
 [197;1;507;229;1;508;198;1;509;230;1;510;216;1;511;248];
 [1;732;32;2;901;168;1;7684;66;4;7685;98;4;7688;199;1];
 [7689;231;1;7692;68;4;7693;100;4;7716;72;4;7717;104;4;7726];
 [207;1;7727;239;1;7728;75;1;7729;107;1;7730;75;4;7731;107];
 [4;7734;76;4;7735;108;4;7742;77;1;7743;109;1;7746;77;4];
 [7747;109;4;7750;78;4;7751;110;4;7756;211;2;7757;243;2;7758];
 [214;2;7759;246;2;7764;80;1;7765;112;1;7770;82;4;7771;114];
 [4;7778;83;4;7779;115;4;7788;84;4;7789;116;4;7800;218;2];
 [7801;250;2;7804;86;2;7805;118;2;7806;86;4;7807;118;4;7808];
 [87;0;7809;119;0;7810;87;1;7811;119;1;7816;87;4;7817;119];
 [4;7826;90;4;7827;122;4;7840;65;4;7841;97;4;7842;65;3];
 [7843;97;3;7844;194;1;7845;226;1;7846;194;0;7847;226;0;7848];
 [194;3;7849;226;3;7850;194;2;7851;226;2;7852;194;4;7853;226];
 [4;7854;258;1;7855;259;1;7856;258;0;7857;259;0;7858;258;3];
 [7859;259;3;7860;258;2;7861;259;2;7862;258;4;7863;259;4;7864];
 [69;4;7865;101;4;7866;69;3;7867;101;3;7868;69;2;7869;101];
 [2;7870;202;1;7871;234;1;7872;202;0;7873;234;0;7874;202;3];
 [7875;234;3;7876;202;2;7877;234;2;7878;202;4;7879;234;4;7880];
 [73;3;7881;105;3;7882;73;4;7883;105;4;7884;79;4;7885;111];
 [4;7886;79;3;7887;111;3;7888;212;1;7889;244;1;7890;212;0];
 [7891;244;0;7892;212;3;7893;244;3;7894;212;2;7895;244;2;7896];
 [212;4;7897;244;4;7898;416;1;7899;417;1;7900;416;0;7901;417];
 [0;7902;416;3;7903;417;3;7904;416;2;7905;417;2;7906;416;4];
 [7907;417;4;7908;85;4;7909;117;4;7910;85;3;7911;117;3;7912];
 [431;1;7913;432;1;7914;431;0;7915;432;0;7916;431;3;7917;432];
 [3;7918;431;2;7919;432;2;7920;431;4;7921;432;4;7922;89;0];
 [7923;121;0;7924;89;4;7925;121;4;7926;89;3;7927;121;3;7928];
 [89;2;7929;121;2;8173;168;0;8174;168;1]].

(* lib/converters/armscii_8.h:30-49 armscii_8_2uni *)
Definition armscii_8_2uni : tab := mk [
 [160;65533;1415;1417;41;40;187;171;8212;46;1373;44;45;1418;8230;1372];
 [1371;1374;1329;1377;1330;1378;1331;1379;1332;1380;1333;1381;1334;1382;1335;1383];
 [1336;1384;1337;1385;1338;1386;1339;1387;1340;1388;1341;1389;1342;1390;1343;1391];
 [1344;1392;1345;1393;1346;1394;1347;1395;1348;1396;1349;1397;1350;1398;1351;1399];
 [1352;1400;1353;1401;1354;1402;1355;1403;1356;1404;1357;1405;1358;1406;1359;1407];
 [1360;1408;1361;1409;1362;1410;1363;1411;1364;1412;1365;1413;1366;1414;1370;65533]].

(* lib/converters/armscii_8.h:71-73 armscii_8_page00 *)
Definition armscii_8_page00 : tab := mk [
 [165;164;42;43;171;172;169;47]].

(* lib/converters/armscii_8.h:74-79 armscii_8_page00_1 *)
Definition armscii_8_page00_1 : tab := mk [
 [160;0;0;0;0;0;0;0;0;0;0;167;0;0;0;0];
 [0;0;0;0;0;0;0;0;0;0;0;166;0;0;0;0]].

(* lib/converters/armscii_8.h:80-93 armscii_8_page05 *)
Definition armscii_8_page05 : tab := mk [
 [0;178;180;182;184;186;188;190;192;194;196;198;200;202;204;206];
 [208;210;212;214;216;218;220;222;224;226;228;230;232;234;236;238];
 [240;242;244;246;248;250;252;0;0;0;254;176;175;170;177;0];
 [0;179;181;183;185;187;189;191;193;195;197;199;201;203;205;207];
 [209;211;213;215;217;219;221;223;225;227;229;231;233;235;237;239];
 [241;243;245;247;249;251;253;162;0;163;173;0;0;0;0;0]].

(* lib/converters/armscii_8.h:94-98 armscii_8_page20 *)
Definition armscii_8_page20 : tab := mk [
 [0;0;0;0;168;0;0;0;0;0;0;0;0;0;0;0];
 [0;0;0;0;0;0;174;0]].

(* lib/converters/armscii_8.h:51-69 armscii_8_mbtowc *)
Definition armscii_8_mbtowc (s : list Z) (n : nat) : res (Z * option Z) :=
  let pwc := (None : option Z) in
  rd s 0%nat (fun c =>
  if (c <? 0xa0) then
   let pwc := Some c in
   Ok (1, pwc)
  else
   tget armscii_8_2uni (c - 0xa0) (fun wc =>
   if (negb (wc =? 0xfffd)) then
    let pwc := Some wc in
    Ok (1, pwc)
   else
    Ok ((-1), pwc))).

(* lib/converters/armscii_8.h:100-124 armscii_8_wctomb *)
Definition armscii_8_wctomb_j (c : Z) (r : wlog) : res (Z * wlog) :=
  if (negb (c =? 0)) then
   let r := wr r 0%nat c in
   Ok (1, r)
  else
   Ok ((-1), r).
(* lib/converters/armscii_8.h:100-124 armscii_8_wctomb *)
Definition armscii_8_wctomb (wc : Z) (n : nat) : res (Z * wlog) :=
  let r := ([] : wlog) in
  let c := 0 in
  if (wc <? 0x28) then
   let r := wr r 0%nat wc in
   Ok (1, r)
  else
   if ((wc >=? 0x28) &&& (wc <? 0x30)) then
    tget armscii_8_page00 (wc - 0x28) (fun c =>
    armscii_8_wctomb_j c r)
   else
    if ((wc >=? 0x30) &&& (wc <? 0xa0)) then
     let c := wc in
     armscii_8_wctomb_j c r
    else
     if ((wc >=? 0xa0) &&& (wc <? 0xc0)) then
      tget armscii_8_page00_1 (wc - 0xa0) (fun c =>
      armscii_8_wctomb_j c r)
     else
      if ((wc >=? 0x530) &&& (wc <? 0x590)) then
       tget armscii_8_page05 (wc - 0x530) (fun c =>
       armscii_8_wctomb_j c r)
      else
       if ((wc >=? 0x2010) &&& (wc <? 0x2028)) then
        tget armscii_8_page20 (wc - 0x2010) (fun c =>
        armscii_8_wctomb_j c r)
       else
        armscii_8_wctomb_j c r.

(* lib/converters/cp1131.h:30-56 cp1131_2uni *)
Definition cp1131_2uni : tab := mk [
 [1040;1041;1042;1043;1044;1045;1046;1047;1048;1049;1050;1051;1052;1053;1054;1055];
 [1056;1057;1058;1059;1060;1061;1062;1063;1064;1065;1066;1067;1068;1069;1070;1071];
 [1072;1073;1074;1075;1076;1077;1078;1079;1080;1081;1082;1083;1084;1085;1086;1087];
 [9617;9618;9619;9474;9508;9569;9570;9558;9557;9571;9553;9559;9565;9564;9563;9488];
 [9492;9524;9516;9500;9472;9532;9566;9567;9562;9556;9577;9574;9568;9552;9580;9575];
 [9576;9572;9573;9561;9560;9554;9555;9579;9578;9496;9484;9608;9604;9612;9616;9600];
 [1088;1089;1090;1091;1092;1093;1094;1095;1096;1097;1098;1099;1100;1101;1102;1103];
 [1025;1105;1028;1108;1031;1111;1038;1118;1030;1110;183;164;1168;1169;8729;160]].

(* lib/converters/cp1131.h:68-73 cp1131_page00 *)
Definition cp1131_page00 : tab := mk [
 [255;0;0;0;251;0;0;0;0;0;0;0;0;0;0;0];
 [0;0;0;0;0;0;0;250]].

(* lib/converters/cp1131.h:75-96 cp1131_page04 *)
Definition cp1131_page04 : tab := mk [
 [0;240;0;0;242;0;248;244;0;0;0;0;0;0;246;0];
 [128;129;130;131;132;133;134;135;136;137;138;139;140;141;142;143];
 [144;145;146;147;148;149;150;151;152;153;154;155;156;157;158;159];
 [160;161;162;163;164;165;166;167;168;169;170;171;172;173;174;175];
 [224;225;226;227;228;229;230;231;232;233;234;235;236;237;238;239];
 [0;241;0;0;243;0;249;245;0;0;0;0;0;0;247;0];
 [0;0;0;0;0;0;0;0;0;0;0;0;0;0;0;0];
 [0;0;0;0;0;0;0;0;0;0;0;0;0;0;0;0];
 [0;0;0;0;0;0;0;0;0;0;0;0;0;0;0;0];
 [252;253;0;0;0;0;0;0]].

(* lib/converters/cp1131.h:97-118 cp1131_page25 *)
Definition cp1131_page25 : tab := mk [
 [196;0;179;0;0;0;0;0;0;0;0;0;218;0;0;0];
 [191;0;0;0;192;0;0;0;217;0;0;0;195;0;0;0];
 [0;0;0;0;180;0;0;0;0;0;0;0;194;0;0;0];
 [0;0;0;0;193;0;0;0;0;0;0;0;197;0;0;0];
 [0;0;0;0;0;0;0;0;0;0;0;0;0;0;0;0];
 [205;186;213;214;201;184;183;187;212;211;200;190;189;188;198;199];
 [204;181;182;185;209;210;203;207;208;202;216;215;206;0;0;0];
 [0;0;0;0;0;0;0;0;0;0;0;0;0;0;0;0];
 [223;0;0;0;220;0;0;0;219;0;0;0;221;0;0;0];
 [222;176;177;178;0;0;0;0]].

(* lib/converters/cp1131.h:58-66 cp1131_mbtowc *)
Definition cp1131_mbtowc (s : list Z) (n : nat) : res (Z * option Z) :=
  let pwc := (None : option Z) in
  rd s 0%nat (fun c =>
  if (c <? 0x80) then
   let pwc := Some c in
   Ok (1, pwc)
  else
   tget cp1131_2uni (c - 0x80) (fun x2 =>
   let pwc := Some x2 in
   Ok (1, pwc))).

(* lib/converters/cp1131.h:120-142 cp1131_wctomb *)
Definition cp1131_wctomb_j (c : Z) (r : wlog) : res (Z * wlog) :=
  if (negb (c =? 0)) then
   let r := wr r 0%nat c in
   Ok (1, r)
  else
   Ok ((-1), r).
(* lib/converters/cp1131.h:120-142 cp1131_wctomb *)
Definition cp1131_wctomb (wc : Z) (n : nat) : res (Z * wlog) :=
  let r := ([] : wlog) in
  let c := 0 in
  if (wc <? 0x80) then
   let r := wr r 0%nat wc in
   Ok (1, r)
  else
   if ((wc >=? 0xa0) &&& (wc <? 0xb8)) then
    tget cp1131_page00 (wc - 0xa0) (fun c =>
    cp1131_wctomb_j c r)
   else
    if ((wc >=? 0x400) &&& (wc <? 0x498)) then
     tget cp1131_page04 (wc - 0x400) (fun c =>
     cp1131_wctomb_j c r)
    else
     if (wc =? 0x2219) then
      let c := 0xfe in
      cp1131_wctomb_j c r
     else
      if ((wc >=? 0x2500) &&& (wc <? 0x2598)) then
       tget cp1131_page25 (wc - 0x2500) (fun c =>
       cp1131_wctomb_j c r)
      else
       cp1131_wctomb_j c r.

(* lib/converters/cp1133.h:30-44 cp1133_2uni_1 *)
Definition cp1133_2uni_1 : tab := mk [
 [160;3713;3714;3716;3719;3720;3754;3722;3725;3732;3733;3734;3735;3737;3738;3739];
 [3740;3741;3742;3743;3745;3746;3747;3749;3751;3755;3757;3758;65533;65533;65533;3759];
 [3760;3762;3763;3764;3765;3766;3767;3768;3769;3772;3761;3771;3773;65533;65533;65533];
 [3776;3777;3778;3779;3780;3784;3785;3786;3787;3788;3789;3782;65533;3804;3805;8365]].

(* lib/converters/cp1133.h:46-51 cp1133_2uni_2 *)
Definition cp1133_2uni_2 : tab := mk [
 [3792;3793;3794;3795;3796;3797;3798;3799;3800;3801;65533;65533;162;172;166;65533]].

(* lib/converters/cp1133.h:85-89 cp1133_page00 *)
Definition cp1133_page00 : tab := mk [
 [160;0;252;0;0;0;254;0;0;0;0;0;253;0;0;0]].

(* lib/converters/cp1133.h:90-104 cp1133_page0e *)
Definition cp1133_page0e : tab := mk [
 [0;161;162;0;163;0;0;164;165;0;167;0;0;168;0;0];
 [0;0;0;0;169;170;171;172;0;173;174;175;176;177;178;179];
 [0;180;181;182;0;183;0;184;0;0;166;185;0;186;187;191];
 [192;202;193;194;195;196;197;198;199;200;0;203;201;204;0;0];
 [208;209;210;211;212;0;219;0;213;214;215;216;217;218;0;0];
 [240;241;242;243;244;245;246;247;248;249;0;0;221;222;0;0]].

(* lib/converters/cp1133.h:53-83 cp1133_mbtowc *)
Definition cp1133_mbtowc (s : list Z) (n : nat) : res (Z * option Z) :=
  let pwc := (None : option Z) in
  rd s 0%nat (fun c =>
  if (c <? 0xa0) then
   let pwc := Some c in
   Ok (1, pwc)
  else
   if (c <? 0xe0) then
    tget cp1133_2uni_1 (c - 0xa0) (fun wc =>
    if (negb (wc =? 0xfffd)) then
     let pwc := Some wc in
     Ok (1, pwc)
    else
     Ok ((-1), pwc))
   else
    if (c <? 0xf0) then
     Ok ((-1), pwc)
    else
     tget cp1133_2uni_2 (c - 0xf0) (fun wc =>
     if (negb (wc =? 0xfffd)) then
      let pwc := Some wc in
      Ok (1, pwc)
     else
      Ok ((-1), pwc))).

(* lib/converters/cp1133.h:106-126 cp1133_wctomb *)
Definition cp1133_wctomb_j (c : Z) (r : wlog) : res (Z * wlog) :=
  if (negb (c =? 0)) then
   let r := wr r 0%nat c in
   Ok (1, r)
  else
   Ok ((-1), r).
(* lib/converters/cp1133.h:106-126 cp1133_wctomb *)
Definition cp1133_wctomb (wc : Z) (n : nat) : res (Z * wlog) :=
  let r := ([] : wlog) in
  let c := 0 in
  if (wc <? 0xa0) then
   let r := wr r 0%nat wc in
   Ok (1, r)
  else
   if ((wc >=? 0xa0) &&& (wc <? 0xb0)) then
    tget cp1133_page00 (wc - 0xa0) (fun c =>
    cp1133_wctomb_j c r)
   else
    if ((wc >=? 0xe80) &&& (wc <? 0xee0)) then
     tget cp1133_page0e (wc - 0xe80) (fun c =>
     cp1133_wctomb_j c r)
    else
     if (wc =? 0x20ad) then
      let c := 0xdf in
      cp1133_wctomb_j c r
     else
      cp1133_wctomb_j c r.

(* lib/converters/cp1250.h:30-55 cp1250_2uni *)
Definition cp1250_2uni : tab := mk [
 [8364;65533;8218;65533;8222;8230;8224;8225;65533;8240;352;8249;346;356;381;377];
 [65533;8216;8217;8220;8221;8226;8211;8212;65533;8482;353;8250;347;357;382;378];
 [160;711;728;321;164;260;166;167;168;169;350;171;172;173;174;379];
 [176;177;731;322;180;181;182;183;184;261;351;187;317;733;318;380];
 [340;193;194;258;196;313;262;199;268;201;280;203;282;205;206;270];
 [272;323;327;211;212;336;214;215;344;366;218;368;220;221;354;223];
 [341;225;226;259;228;314;263;231;269;233;281;235;283;237;238;271];
 [273;324;328;243;244;337;246;247;345;367;250;369;252;253;355;729]].

(* lib/converters/cp1250.h:77-107 cp1250_page00 *)
Definition cp1250_page00 : tab := mk [
 [160;0;0;0;164;0;166;167;168;169;0;171;172;173;174;0];
 [176;177;0;0;180;181;182;183;184;0;0;187;0;0;0;0];
 [0;193;194;0;196;0;0;199;0;201;0;203;0;205;206;0];
 [0;0;0;211;212;0;214;215;0;0;218;0;220;221;0;223];
 [0;225;226;0;228;0;0;231;0;233;0;235;0;237;238;0];
 [0;0;0;243;244;0;246;247;0;0;250;0;252;253;0;0];
 [0;0;195;227;165;185;198;230;0;0;0;0;200;232;207;239];
 [208;240;0;0;0;0;0;0;202;234;204;236;0;0;0;0];
 [0;0;0;0;0;0;0;0;0;0;0;0;0;0;0;0];
 [0;0;0;0;0;0;0;0;0;197;229;0;0;188;190;0];
 [0;163;179;209;241;0;0;210;242;0;0;0;0;0;0;0];
 [213;245;0;0;192;224;0;0;216;248;140;156;0;0;170;186];
 [138;154;222;254;141;157;0;0;0;0;0;0;0;0;217;249];
 [219;251;0;0;0;0;0;0;0;143;159;175;191;142;158;0]].

(* lib/converters/cp1250.h:108-113 cp1250_page02 *)
Definition cp1250_page02 : tab := mk [
 [0;0;0;0;0;0;0;161;0;0;0;0;0;0;0;0];
 [0;0;0;0;0;0;0;0;162;255;0;178;0;189;0;0]].

(* lib/converters/cp1250.h:114-121 cp1250_page20 *)
Definition cp1250_page20 : tab := mk [
 [0;0;0;150;151;0;0;0;145;146;130;0;147;148;132;0];
 [134;135;149;0;0;0;133;0;0;0;0;0;0;0;0;0];
 [137;0;0;0;0;0;0;0;0;139;155;0;0;0;0;0]].

(* lib/converters/cp1250.h:57-75 cp1250_mbtowc *)
Definition cp1250_mbtowc (s : list Z) (n : nat) : res (Z * option Z) :=
  let pwc := (None : option Z) in
  rd s 0%nat (fun c =>
  if (c <? 0x80) then
   let pwc := Some c in
   Ok (1, pwc)
  else
   tget cp1250_2uni (c - 0x80) (fun wc =>
   if (negb (wc =? 0xfffd)) then
    let pwc := Some wc in
    Ok (1, pwc)
   else
    Ok ((-1), pwc))).

(* lib/converters/cp1250.h:123-147 cp1250_wctomb *)
Definition cp1250_wctomb_j (c : Z) (r : wlog) : res (Z * wlog) :=
  if (negb (c =? 0)) then
   let r := wr r 0%nat c in
   Ok (1, r)
  else
   Ok ((-1), r).
(* lib/converters/cp1250.h:123-147 cp1250_wctomb *)
Definition cp1250_wctomb (wc : Z) (n : nat) : res (Z * wlog) :=
  let r := ([] : wlog) in
  let c := 0 in
  if (wc <? 0x80) then
   let r := wr r 0%nat wc in
   Ok (1, r)
  else
   if ((wc >=? 0xa0) &&& (wc <? 0x180)) then
    tget cp1250_page00 (wc - 0xa0) (fun c =>
    cp1250_wctomb_j c r)
   else
    if ((wc >=? 0x2c0) &&& (wc <? 0x2e0)) then
     tget cp1250_page02 (wc - 0x2c0) (fun c =>
     cp1250_wctomb_j c r)
    else
     if ((wc >=? 0x2010) &&& (wc <? 0x2040)) then
      tget cp1250_page20 (wc - 0x2010) (fun c =>
      cp1250_wctomb_j c r)
     else
      if (wc =? 0x20ac) then
       let c := 0x80 in
       cp1250_wctomb_j c r
      else
       if (wc =? 0x2122) then
        let c := 0x99 in
        cp1250_wctomb_j c r
       else
        cp1250_wctomb_j c r.

(* lib/converters/cp1251.h:30-55 cp1251_2uni *)
Definition cp1251_2uni : tab := mk [
 [1026;1027;8218;1107;8222;8230;8224;8225;8364;8240;1033;8249;1034;1036;1035;1039];
 [1106;8216;8217;8220;8221;8226;8211;8212;65533;8482;1113;8250;1114;1116;1115;1119];
 [160;1038;1118;1032;164;1168;166;167;1025;169;1028;171;172;173;174;1031];
 [176;177;1030;1110;1169;181;182;183;1105;8470;1108;187;1112;1029;1109;1111];
 [1040;1041;1042;1043;1044;1045;1046;1047;1048;1049;1050;1051;1052;1053;1054;1055];
 [1056;1057;1058;1059;1060;1061;1062;1063;1064;1065;1066;1067;1068;1069;1070;1071];
 [1072;1073;1074;1075;1076;1077;1078;1079;1080;1081;1082;1083;1084;1085;1086;1087];
 [1088;1089;1090;1091;1092;1093;1094;1095;1096;1097;1098;1099;1100;1101;1102;1103]].

(* lib/converters/cp1251.h:77-82 cp1251_page00 *)
Definition cp1251_page00 : tab := mk [
 [160;0;0;0;164;0;166;167;0;169;0;171;172;173;174;0];
 [176;177;0;0;0;181;182;183;0;0;0;187;0;0;0;0]].

(* lib/converters/cp1251.h:83-103 cp1251_page04 *)
Definition cp1251_page04 : tab := mk [
 [0;168;128;129;170;189;178;175;163;138;140;142;141;0;161;143];
 [192;193;194;195;196;197;198;199;200;201;202;203;204;205;206;207];
 [208;209;210;211;212;213;214;215;216;217;218;219;220;221;222;223];
 [224;225;226;227;228;229;230;231;232;233;234;235;236;237;238;239];
 [240;241;242;243;244;245;246;247;248;249;250;251;252;253;254;255];
 [0;184;144;131;186;190;179;191;188;154;156;158;157;0;162;159];
 [0;0;0;0;0;0;0;0;0;0;0;0;0;0;0;0];
 [0;0;0;0;0;0;0;0;0;0;0;0;0;0;0;0];
 [0;0;0;0;0;0;0;0;0;0;0;0;0;0;0;0];
 [165;180;0;0;0;0;0;0]].

(* lib/converters/cp1251.h:104-111 cp1251_page20 *)
Definition cp1251_page20 : tab := mk [
 [0;0;0;150;151;0;0;0;145;146;130;0;147;148;132;0];
 [134;135;149;0;0;0;133;0;0;0;0;0;0;0;0;0];
 [137;0;0;0;0;0;0;0;0;139;155;0;0;0;0;0]].

(* lib/converters/cp1251.h:57-75 cp1251_mbtowc *)
Definition cp1251_mbtowc (s : list Z) (n : nat) : res (Z * option Z) :=
  let pwc := (None : option Z) in
  rd s 0%nat (fun c =>
  if (c <? 0x80) then
   let pwc := Some c in
   Ok (1, pwc)
  else
   tget cp1251_2uni (c - 0x80) (fun wc =>
   if (negb (wc =? 0xfffd)) then
    let pwc := Some wc in
    Ok (1, pwc)
   else
    Ok ((-1), pwc))).

(* lib/converters/cp1251.h:113-139 cp1251_wctomb *)
Definition cp1251_wctomb_j (c : Z) (r : wlog) : res (Z * wlog) :=
  if (negb (c =? 0)) then
   let r := wr r 0%nat c in
   Ok (1, r)
  else
   Ok ((-1), r).
(* lib/converters/cp1251.h:113-139 cp1251_wctomb *)
Definition cp1251_wctomb (wc : Z) (n : nat) : res (Z * wlog) :=
  let r := ([] : wlog) in
  let c := 0 in
  if (wc <? 0x80) then
   let r := wr r 0%nat wc in
   Ok (1, r)
  else
   if ((wc >=? 0xa0) &&& (wc <? 0xc0)) then
    tget cp1251_page00 (wc - 0xa0) (fun c =>
    cp1251_wctomb_j c r)
   else
    if ((wc >=? 0x400) &&& (wc <? 0x498)) then
     tget cp1251_page04 (wc - 0x400) (fun c =>
     cp1251_wctomb_j c r)
    else
     if ((wc >=? 0x2010) &&& (wc <? 0x2040)) then
      tget cp1251_page20 (wc - 0x2010) (fun c =>
      cp1251_wctomb_j c r)
     else
      if (wc =? 0x20ac) then
       let c := 0x88 in
       cp1251_wctomb_j c r
      else
       if (wc =? 0x2116) then
        let c := 0xb9 in
        cp1251_wctomb_j c r
       else
        if (wc =? 0x2122) then
         let c := 0x99 in
         cp1251_wctomb_j c r
        else
         cp1251_wctomb_j c r.

(* lib/converters/cp1252.h:30-37 cp1252_2uni *)
Definition cp1252_2uni : tab := mk [
 [8364;65533;8218;402;8222;8230;8224;8225;710;8240;352;8249;338;65533;381;65533];
 [65533;8216;8217;8220;8221;8226;8211;8212;732;8482;353;8250;339;65533;382;376]].

(* lib/converters/cp1252.h:59-69 cp1252_page01 *)
Definition cp1252_page01 : tab := mk [
 [0;0;140;156;0;0;0;0;0;0;0;0;0;0;0;0];
 [138;154;0;0;0;0;0;0;0;0;0;0;0;0;0;0];
 [0;0;0;0;0;0;0;0;159;0;0;0;0;142;158;0];
 [0;0;0;0;0;0;0;0;0;0;0;0;0;0;0;0];
 [0;0;131;0;0;0;0;0]].

(* lib/converters/cp1252.h:70-75 cp1252_page02 *)
Definition cp1252_page02 : tab := mk [
 [0;0;0;0;0;0;136;0;0;0;0;0;0;0;0;0];
 [0;0;0;0;0;0;0;0;0;0;0;0;152;0;0;0]].

(* lib/converters/cp1252.h:76-83 cp1252_page20 *)
Definition cp1252_page20 : tab := mk [
 [0;0;0;150;151;0;0;0;145;146;130;0;147;148;132;0];
 [134;135;149;0;0;0;133;0;0;0;0;0;0;0;0;0];
 [137;0;0;0;0;0;0;0;0;139;155;0;0;0;0;0]].

(* lib/converters/cp1252.h:39-57 cp1252_mbtowc *)
Definition cp1252_mbtowc (s : list Z) (n : nat) : res (Z * option Z) :=
  let pwc := (None : option Z) in
  rd s 0%nat (fun c =>
  if ((c <? 0x80) ||| (c >=? 0xa0)) then
   let pwc := Some c in
   Ok (1, pwc)
  else
   tget cp1252_2uni (c - 0x80) (fun wc =>
   if (negb (wc =? 0xfffd)) then
    let pwc := Some wc in
    Ok (1, pwc)
   else
    Ok ((-1), pwc))).

(* lib/converters/cp1252.h:85-111 cp1252_wctomb *)
Definition cp1252_wctomb_j (c : Z) (r : wlog) : res (Z * wlog) :=
  if (negb (c =? 0)) then
   let r := wr r 0%nat c in
   Ok (1, r)
  else
   Ok ((-1), r).
(* lib/converters/cp1252.h:85-111 cp1252_wctomb *)
Definition cp1252_wctomb (wc : Z) (n : nat) : res (Z * wlog) :=
  let r := ([] : wlog) in
  let c := 0 in
  if (wc <? 0x80) then
   let r := wr r 0%nat wc in
   Ok (1, r)
  else
   if ((wc >=? 0xa0) &&& (wc <? 0x100)) then
    let c := wc in
    cp1252_wctomb_j c r
   else
    if ((wc >=? 0x150) &&& (wc <? 0x198)) then
     tget cp1252_page01 (wc - 0x150) (fun c =>
     cp1252_wctomb_j c r)
    else
     if ((wc >=? 0x2c0) &&& (wc <? 0x2e0)) then
      tget cp1252_page02 (wc - 0x2c0) (fun c =>
      cp1252_wctomb_j c r)
     else
      if ((wc >=? 0x2010) &&& (wc <? 0x2040)) then
       tget cp1252_page20 (wc - 0x2010) (fun c =>
       cp1252_wctomb_j c r)
      else
       if (wc =? 0x20ac) then
        let c := 0x80 in
        cp1252_wctomb_j c r
       else
        if (wc =? 0x2122) then
         let c := 0x99 in
         cp1252_wctomb_j c r
        else
         cp1252_wctomb_j c r.

(* lib/converters/cp1253.h:30-55 cp1253_2uni *)
Definition cp1253_2uni : tab := mk [
 [8364;65533;8218;402;8222;8230;8224;8225;65533;8240;65533;8249;65533;65533;65533;65533];
 [65533;8216;8217;8220;8221;8226;8211;8212;65533;8482;65533;8250;65533;65533;65533;65533];
 [160;901;902;163;164;165;166;167;168;169;65533;171;172;173;174;8213];
 [176;177;178;179;900;181;182;183;904;905;906;187;908;189;910;911];
 [912;913;914;915;916;917;918;919;920;921;922;923;924;925;926;927];
 [928;929;65533;931;932;933;934;935;936;937;938;939;940;941;942;943];
 [944;945;946;947;948;949;950;951;952;953;954;955;956;957;958;959];
 [960;961;962;963;964;965;966;967;968;969;970;971;972;973;974;65533]].

(* lib/converters/cp1253.h:77-82 cp1253_page00 *)
Definition cp1253_page00 : tab := mk [
 [160;0;0;163;164;165;166;167;168;169;0;171;172;173;174;0];
 [176;177;178;179;0;181;182;183;0;0;0;187;0;189;0;0]].

(* lib/converters/cp1253.h:83-94 cp1253_page03 *)
Definition cp1253_page03 : tab := mk [
 [0;0;0;0;180;161;162;0;184;185;186;0;188;0;190;191];
 [192;193;194;195;196;197;198;199;200;201;202;203;204;205;206;207];
 [208;209;0;211;212;213;214;215;216;217;218;219;220;221;222;223];
 [224;225;226;227;228;229;230;231;232;233;234;235;236;237;238;239];
 [240;241;242;243;244;245;246;247;248;249;250;251;252;253;254;0]].

(* lib/converters/cp1253.h:95-102 cp1253_page20 *)
Definition cp1253_page20 : tab := mk [
 [0;0;0;150;151;175;0;0;145;146;130;0;147;148;132;0];
 [134;135;149;0;0;0;133;0;0;0;0;0;0;0;0;0];
 [137;0;0;0;0;0;0;0;0;139;155;0;0;0;0;0]].

(* lib/converters/cp1253.h:57-75 cp1253_mbtowc *)
Definition cp1253_mbtowc (s : list Z) (n : nat) : res (Z * option Z) :=
  let pwc := (None : option Z) in
  rd s 0%nat (fun c =>
  if (c <? 0x80) then
   let pwc := Some c in
   Ok (1, pwc)
  else
   tget cp1253_2uni (c - 0x80) (fun wc =>
   if (negb (wc =? 0xfffd)) then
    let pwc := Some wc in
    Ok (1, pwc)
   else
    Ok ((-1), pwc))).

(* lib/converters/cp1253.h:104-130 cp1253_wctomb *)
Definition cp1253_wctomb_j (c : Z) (r : wlog) : res (Z * wlog) :=
  if (negb (c =? 0)) then
   let r := wr r 0%nat c in
   Ok (1, r)
  else
   Ok ((-1), r).
(* lib/converters/cp1253.h:104-130 cp1253_wctomb *)
Definition cp1253_wctomb (wc : Z) (n : nat) : res (Z * wlog) :=
  let r := ([] : wlog) in
  let c := 0 in
  if (wc <? 0x80) then
   let r := wr r 0%nat wc in
   Ok (1, r)
  else
   if ((wc >=? 0xa0) &&& (wc <? 0xc0)) then
    tget cp1253_page00 (wc - 0xa0) (fun c =>
    cp1253_wctomb_j c r)
   else
    if (wc =? 0x192) then
     let c := 0x83 in
     cp1253_wctomb_j c r
    else
     if ((wc >=? 0x380) &&& (wc <? 0x3d0)) then
      tget cp1253_page03 (wc - 0x380) (fun c =>
      cp1253_wctomb_j c r)
     else
      if ((wc >=? 0x2010) &&& (wc <? 0x2040)) then
       tget cp1253_page20 (wc - 0x2010) (fun c =>
       cp1253_wctomb_j c r)
      else
       if (wc =? 0x20ac) then
        let c := 0x80 in
        cp1253_wctomb_j c r
       else
        if (wc =? 0x2122) then
         let c := 0x99 in
         cp1253_wctomb_j c r
        else
         cp1253_wctomb_j c r.

(* lib/converters/cp1254.h:30-37 cp1254_2uni_1 *)
Definition cp1254_2uni_1 : tab := mk [
 [8364;65533;8218;402;8222;8230;8224;8225;710;8240;352;8249;338;65533;65533;65533];
 [65533;8216;8217;8220;8221;8226;8211;8212;732;8482;353;8250;339;65533;65533;376]].

(* lib/converters/cp1254.h:38-42 cp1254_2uni_2 *)
Definition cp1254_2uni_2 : tab := mk [
 [286;209;210;211;212;213;214;215;216;217;218;219;220;304;350;223]].

(* lib/converters/cp1254.h:43-47 cp1254_2uni_3 *)
Definition cp1254_2uni_3 : tab := mk [
 [287;241;242;243;244;245;246;247;248;249;250;251;252;305;351;255]].

(* lib/converters/cp1254.h:89-96 cp1254_page00 *)
Definition cp1254_page00 : tab := mk [
 [0;209;210;211;212;213;214;215;216;217;218;219;220;0;0;223];
 [224;225;226;227;228;229;230;231;232;233;234;235;236;237;238;239];
 [0;241;242;243;244;245;246;247;248;249;250;251;252;0;0;255]].

(* lib/converters/cp1254.h:97-114 cp1254_page01 *)
Definition cp1254_page01 : tab := mk [
 [0;0;0;0;0;0;208;240;0;0;0;0;0;0;0;0];
 [0;0;0;0;0;0;0;0;221;253;0;0;0;0;0;0];
 [0;0;0;0;0;0;0;0;0;0;0;0;0;0;0;0];
 [0;0;0;0;0;0;0;0;0;0;140;156;0;0;0;0];
 [0;0;0;0;0;0;222;254;138;154;0;0;0;0;0;0];
 [0;0;0;0;0;0;0;0;0;0;0;0;0;0;0;0];
 [159;0;0;0;0;0;0;0;0;0;0;0;0;0;0;0];
 [0;0;0;0;0;0;0;0;0;0;131;0;0;0;0;0]].

(* lib/converters/cp1254.h:115-120 cp1254_page02 *)
Definition cp1254_page02 : tab := mk [
 [0;0;0;0;0;0;136;0;0;0;0;0;0;0;0;0];
 [0;0;0;0;0;0;0;0;0;0;0;0;152;0;0;0]].

(* lib/converters/cp1254.h:121-128 cp1254_page20 *)
Definition cp1254_page20 : tab := mk [
 [0;0;0;150;151;0;0;0;145;146;130;0;147;148;132;0];
 [134;135;149;0;0;0;133;0;0;0;0;0;0;0;0;0];
 [137;0;0;0;0;0;0;0;0;139;155;0;0;0;0;0]].

(* lib/converters/cp1254.h:49-87 cp1254_mbtowc *)
Definition cp1254_mbtowc (s : list Z) (n : nat) : res (Z * option Z) :=
  let pwc := (None : option Z) in
  rd s 0%nat (fun c =>
  if (c <? 0x80) then
   let pwc := Some c in
   Ok (1, pwc)
  else
   if (c <? 0xa0) then
    tget cp1254_2uni_1 (c - 0x80) (fun wc =>
    if (negb (wc =? 0xfffd)) then
     let pwc := Some wc in
     Ok (1, pwc)
    else
     Ok ((-1), pwc))
   else
    if (c <? 0xd0) then
     let pwc := Some c in
     Ok (1, pwc)
    else
     if (c <? 0xe0) then
      tget cp1254_2uni_2 (c - 0xd0) (fun x3 =>
      let pwc := Some x3 in
      Ok (1, pwc))
     else
      if (c <? 0xf0) then
       let pwc := Some c in
       Ok (1, pwc)
      else
       tget cp1254_2uni_3 (c - 0xf0) (fun x4 =>
       let pwc := Some x4 in
       Ok (1, pwc))).

(* lib/converters/cp1254.h:130-158 cp1254_wctomb *)
Definition cp1254_wctomb_j (c : Z) (r : wlog) : res (Z * wlog) :=
  if (negb (c =? 0)) then
   let r := wr r 0%nat c in
   Ok (1, r)
  else
   Ok ((-1), r).
(* lib/converters/cp1254.h:130-158 cp1254_wctomb *)
Definition cp1254_wctomb (wc : Z) (n : nat) : res (Z * wlog) :=
  let r := ([] : wlog) in
  let c := 0 in
  if (wc <? 0x80) then
   let r := wr r 0%nat wc in
   Ok (1, r)
  else
   if ((wc >=? 0xa0) &&& (wc <? 0xd0)) then
    let c := wc in
    cp1254_wctomb_j c r
   else
    if ((wc >=? 0xd0) &&& (wc <? 0x100)) then
     tget cp1254_page00 (wc - 0xd0) (fun c =>
     cp1254_wctomb_j c r)
    else
     if ((wc >=? 0x118) &&& (wc <? 0x198)) then
      tget cp1254_page01 (wc - 0x118) (fun c =>
      cp1254_wctomb_j c r)
     else
      if ((wc >=? 0x2c0) &&& (wc <? 0x2e0)) then
       tget cp1254_page02 (wc - 0x2c0) (fun c =>
       cp1254_wctomb_j c r)
      else
       if ((wc >=? 0x2010) &&& (wc <? 0x2040)) then
        tget cp1254_page20 (wc - 0x2010) (fun c =>
        cp1254_wctomb_j c r)
       else
        if (wc =? 0x20ac) then
         let c := 0x80 in
         cp1254_wctomb_j c r
        else
         if (wc =? 0x2122) then
          let c := 0x99 in
          cp1254_wctomb_j c r
         else
          cp1254_wctomb_j c r.

(* lib/converters/cp1255.h:38-70 cp1255_comp_table_data (flattened, 2 fields per entry) *)
Definition cp1255_comp_table_data : tab := mk [
 [1497;64285;1488;64302;1522;64287;1488;64303;1493;64331;1488;64304;1489;64305;1490;64306];
 [1491;64307;1492;64308;1493;64309;1494;64310;1496;64312;1497;64313;1498;64314;1499;64315];
 [1500;64316;1502;64318;1504;64320;1505;64321;1507;64323;1508;64324;1510;64326;1511;64327];
 [1512;64328;1513;64329;1514;64330;64298;64300;64299;64301;1489;64332;1499;64333;1508;64334];
 [1513;64298;64329;64300;1513;64299;64329;64301]].

(* lib/converters/cp1255.h:71-80 cp1255_comp_table (flattened, 2 fields per entry) *)
Definition cp1255_comp_table : tab := mk [
 [1;0;2;1;1;3;1;4;24;5;3;29;2;32;2;34]].

(* lib/converters/cp1255.h:90-125 cp1255_decomp_table (flattened, 4 fields per entry) *)
Definition cp1255_decomp_table : tab := mk [
 [64285;1497;0;(-1);64287;1522;1;(-1);64298;1513;6;(-1);64299;1513;7;(-1)];
 [64300;1513;4;6;64301;1513;4;7;64302;1488;1;(-1);64303;1488;2;(-1)];
 [64304;1488;4;(-1);64305;1489;4;(-1);64306;1490;4;(-1);64307;1491;4;(-1)];
 [64308;1492;4;(-1);64309;1493;4;(-1);64310;1494;4;(-1);64312;1496;4;(-1)];
 [64313;1497;4;(-1);64314;1498;4;(-1);64315;1499;4;(-1);64316;1500;4;(-1)];
 [64318;1502;4;(-1);64320;1504;4;(-1);64321;1505;4;(-1);64323;1507;4;(-1)];
 [64324;1508;4;(-1);64326;1510;4;(-1);64327;1511;4;(-1);64328;1512;4;(-1)];
 [64329;1513;4;(-1);64330;1514;4;(-1);64331;1493;3;(-1);64332;1489;5;(-1)];
 [64333;1499;5;(-1);64334;1508;5;(-1)]].

(* lib/converters/cp1255.h:127-129 cp1255_comb_table *)
Definition cp1255_comb_table : tab := mk [
 [196;199;200;201;204;207;209;210]].

(* lib/converters/cp1255.h:131-156 cp1255_2uni *)
Definition cp1255_2uni : tab := mk [
 [8364;65533;8218;402;8222;8230;8224;8225;710;8240;65533;8249;65533;65533;65533;65533];
 [65533;8216;8217;8220;8221;8226;8211;8212;732;8482;65533;8250;65533;65533;65533;65533];
 [160;161;162;163;8362;165;166;167;168;169;215;171;172;173;174;175];
 [176;177;178;179;180;181;182;183;184;185;247;187;188;189;190;191];
 [1456;1457;1458;1459;1460;1461;1462;1463;1464;1465;1466;1467;1468;1469;1470;1471];
 [1472;1473;1474;1475;1520;1521;1522;1523;1524;65533;65533;65533;65533;65533;65533;65533];
 [1488;1489;1490;1491;1492;1493;1494;1495;1496;1497;1498;1499;1500;1501;1502;1503];
 [1504;1505;1506;1507;1508;1509;1510;1511;1512;1513;1514;65533;65533;8206;8207;65533]].

(* lib/converters/cp1255.h:280-292 cp1255_page00 *)
Definition cp1255_page00 : tab := mk [
 [160;161;162;163;0;165;166;167;168;169;0;171;172;173;174;175];
 [176;177;178;179;180;181;182;183;184;185;0;187;188;189;190;191];
 [0;0;0;0;0;0;0;0;0;0;0;0;0;0;0;0];
 [0;0;0;0;0;0;0;170;0;0;0;0;0;0;0;0];
 [0;0;0;0;0;0;0;0;0;0;0;0;0;0;0;0];
 [0;0;0;0;0;0;0;186]].

(* lib/converters/cp1255.h:293-298 cp1255_page02 *)
Definition cp1255_page02 : tab := mk [
 [0;0;0;0;0;0;136;0;0;0;0;0;0;0;0;0];
 [0;0;0;0;0;0;0;0;0;0;0;0;152;0;0;0]].

(* lib/converters/cp1255.h:299-309 cp1255_page05 *)
Definition cp1255_page05 : tab := mk [
 [192;193;194;195;196;197;198;199;200;201;202;203;204;205;206;207];
 [208;209;210;211;0;0;0;0;0;0;0;0;0;0;0;0];
 [224;225;226;227;228;229;230;231;232;233;234;235;236;237;238;239];
 [240;241;242;243;244;245;246;247;248;249;250;0;0;0;0;0];
 [212;213;214;215;216;0;0;0]].

(* lib/converters/cp1255.h:310-318 cp1255_page20 *)
Definition cp1255_page20 : tab := mk [
 [0;0;0;0;0;0;253;254;0;0;0;150;151;0;0;0];
 [145;146;130;0;147;148;132;0;134;135;149;0;0;0;133;0];
 [0;0;0;0;0;0;0;0;137;0;0;0;0;0;0;0];
 [0;139;155;0;0;0;0;0]].

(* lib/converters/cp1255.h:161-276 cp1255_mbtowc *)
Definition cp1255_mbtowc_j3 (i : Z) (pwc : option Z) (ibo : Z) : res (Z * option Z * Z * Z) :=
  tget cp1255_comp_table_data (2 * i + 1) (fun last_wc =>
  if (((last_wc =? 0xfb2a) ||| (last_wc =? 0xfb2b)) ||| (last_wc =? 0xfb49)) then
   let ist := last_wc in
   Ok ((-4), pwc, ist, ibo)
  else
   let ist := 0 in
   let pwc := Some last_wc in
   Ok (1, pwc, ist, ibo)).
(* lib/converters/cp1255.h:161-276 cp1255_mbtowc *)
Fixpoint cp1255_mbtowc_loop (fuel : nat) (i1 : Z) (i2 : Z) (last_wc : Z) (pwc : option Z) (ibo : Z) {struct fuel} : res (Z * option Z * Z * Z) :=
  match fuel with O => NoFuel | S fuel =>
  let i := (Z.shiftr (i1 + i2) 1) in
  tget cp1255_comp_table_data (2 * i) (fun x8 =>
  if (last_wc =? x8) then
   cp1255_mbtowc_j3 i pwc ibo
  else
   if (last_wc <? x8) then
    if (i1 =? i) then
     let ist := 0 in
     let pwc := Some last_wc in
     Ok (0, pwc, ist, ibo)
    else
     let i2 := i in
     cp1255_mbtowc_loop fuel i1 i2 last_wc pwc ibo
   else
    if (negb (i1 =? i)) then
     let i1 := i in
     cp1255_mbtowc_loop fuel i1 i2 last_wc pwc ibo
    else
     let i := i2 in
     tget cp1255_comp_table_data (2 * i) (fun x10 =>
     if (last_wc =? x10) then
      cp1255_mbtowc_j3 i pwc ibo
     else
      let ist := 0 in
      let pwc := Some last_wc in
      Ok (0, pwc, ist, ibo)))
  end.
(* lib/converters/cp1255.h:161-276 cp1255_mbtowc *)
Definition cp1255_mbtowc_j2 (k : Z) (last_wc : Z) (pwc : option Z) (ibo : Z) : res (Z * option Z * Z * Z) :=
  tget cp1255_comp_table (2 * k + 1) (fun i1 =>
  tget cp1255_comp_table (2 * k) (fun x5 =>
  let i2 := ((i1 + x5) - 1) in
  tget cp1255_comp_table_data (2 * i1) (fun x6 =>
  if (last_wc >=? x6) then
   tget cp1255_comp_table_data (2 * i2) (fun x7 =>
   if (last_wc <=? x7) then
    cp1255_mbtowc_loop 64%nat i1 i2 last_wc pwc ibo
   else
    let ist := 0 in
    let pwc := Some last_wc in
    Ok (0, pwc, ist, ibo))
  else
   let ist := 0 in
   let pwc := Some last_wc in
   Ok (0, pwc, ist, ibo)))).
(* lib/converters/cp1255.h:161-276 cp1255_mbtowc *)
Definition cp1255_mbtowc_j (wc : Z) (pwc : option Z) (ist : Z) (ibo : Z) : res (Z * option Z * Z * Z) :=
  let last_wc := (u16 ist) in
  if (negb (last_wc =? 0)) then
   if ((wc >=? 0x5b0) &&& (wc <? 0x5c5)) then
    let x3 := wc in
    if (x3 =? 0x5b4) then
     let k := 0 in
     cp1255_mbtowc_j2 k last_wc pwc ibo
    else
     if (x3 =? 0x5b7) then
      let k := 1 in
      cp1255_mbtowc_j2 k last_wc pwc ibo
     else
      if (x3 =? 0x5b8) then
       let k := 2 in
       cp1255_mbtowc_j2 k last_wc pwc ibo
      else
       if (x3 =? 0x5b9) then
        let k := 3 in
        cp1255_mbtowc_j2 k last_wc pwc ibo
       else
        if (x3 =? 0x5bc) then
         let k := 4 in
         cp1255_mbtowc_j2 k last_wc pwc ibo
        else
         if (x3 =? 0x5bf) then
          let k := 5 in
          cp1255_mbtowc_j2 k last_wc pwc ibo
         else
          if (x3 =? 0x5c1) then
           let k := 6 in
           cp1255_mbtowc_j2 k last_wc pwc ibo
          else
           if (x3 =? 0x5c2) then
            let k := 7 in
            cp1255_mbtowc_j2 k last_wc pwc ibo
           else
            let ist := 0 in
            let pwc := Some last_wc in
            Ok (0, pwc, ist, ibo)
   else
    let ist := 0 in
    let pwc := Some last_wc in
    Ok (0, pwc, ist, ibo)
  else
   if ((((wc >=? 0x5d0) &&& (wc <=? 0x5ea)) &&& (negb ((Z.land (Z.shiftr 0x7db5f7f (wc - 0x5d0)) 1) =? 0))) ||| (wc =? 0x5f2)) then
    let ist := wc in
    Ok ((-4), pwc, ist, ibo)
   else
    let pwc := Some wc in
    Ok (1, pwc, ist, ibo).
(* lib/converters/cp1255.h:161-276 cp1255_mbtowc *)
Definition cp1255_mbtowc (s : list Z) (n : nat) (ist : Z) (ibo : Z) : res (Z * option Z * Z * Z) :=
  let pwc := (None : option Z) in
  rd s 0%nat (fun c =>
  if (c <? 0x80) then
   let wc := c in
   cp1255_mbtowc_j wc pwc ist ibo
  else
   tget cp1255_2uni (c - 0x80) (fun wc =>
   if (wc =? 0xfffd) then
    Ok ((-1), pwc, ist, ibo)
   else
    cp1255_mbtowc_j wc pwc ist ibo)).

(* lib/converters/cp1255.h:320-411 cp1255_wctomb *)
Definition cp1255_wctomb_j2 (i : Z) (n : nat) (r : wlog) : res (Z * wlog) :=
  tget cp1255_decomp_table (4 * i + 1) (fun x10 =>
  let wc := x10 in
  tget cp1255_page05 (wc - 0x5b0) (fun c =>
  tget cp1255_decomp_table (4 * i + 3) (fun x12 =>
  if (x12 <? 0) then
   if (Nat.ltb n 2%nat) then
    Ok ((-2), r)
   else
    let r := wr r 0%nat c in
    tget cp1255_decomp_table (4 * i + 2) (fun x13 =>
    tget cp1255_comb_table x13 (fun x14 =>
    let r := wr r 1%nat x14 in
    Ok (2, r)))
  else
   if (Nat.ltb n 3%nat) then
    Ok ((-2), r)
   else
    let r := wr r 0%nat c in
    tget cp1255_decomp_table (4 * i + 2) (fun x15 =>
    tget cp1255_comb_table x15 (fun x16 =>
    let r := wr r 1%nat x16 in
    tget cp1255_comb_table x12 (fun x18 =>
    let r := wr r 2%nat x18 in
    Ok (3, r))))))).
(* lib/converters/cp1255.h:320-411 cp1255_wctomb *)
Fixpoint cp1255_wctomb_loop (fuel : nat) (i1 : Z) (i2 : Z) (wc : Z) (n : nat) (r : wlog) {struct fuel} : res (Z * wlog) :=
  match fuel with O => NoFuel | S fuel =>
  let i := (Z.shiftr (i1 + i2) 1) in
  tget cp1255_decomp_table (4 * i) (fun x7 =>
  if (wc =? x7) then
   cp1255_wctomb_j2 i n r
  else
   if (wc <? x7) then
    if (i1 =? i) then
     Ok ((-1), r)
    else
     let i2 := i in
     cp1255_wctomb_loop fuel i1 i2 wc n r
   else
    if (negb (i1 =? i)) then
     let i1 := i in
     cp1255_wctomb_loop fuel i1 i2 wc n r
    else
     let i := i2 in
     tget cp1255_decomp_table (4 * i) (fun x9 =>
     if (wc =? x9) then
      cp1255_wctomb_j2 i n r
     else
      Ok ((-1), r)))
  end.
(* lib/converters/cp1255.h:320-411 cp1255_wctomb *)
Definition cp1255_wctomb_j (c : Z) (wc : Z) (n : nat) (r : wlog) : res (Z * wlog) :=
  if (negb (c =? 0)) then
   let r := wr r 0%nat c in
   Ok (1, r)
  else
   let i1 := 0 in
   let i2 := 0x21 in
   tget cp1255_decomp_table (4 * i1) (fun x5 =>
   if (wc >=? x5) then
    tget cp1255_decomp_table (4 * i2) (fun x6 =>
    if (wc <=? x6) then
     cp1255_wctomb_loop 64%nat i1 i2 wc n r
    else
     Ok ((-1), r))
   else
    Ok ((-1), r)).
(* lib/converters/cp1255.h:320-411 cp1255_wctomb *)
Definition cp1255_wctomb (wc : Z) (n : nat) : res (Z * wlog) :=
  let r := ([] : wlog) in
  let c := 0 in
  if (wc <? 0x80) then
   let r := wr r 0%nat wc in
   Ok (1, r)
  else
   if ((wc >=? 0xa0) &&& (wc <? 0xf8)) then
    tget cp1255_page00 (wc - 0xa0) (fun c =>
    cp1255_wctomb_j c wc n r)
   else
    if (wc =? 0x192) then
     let c := 0x83 in
     cp1255_wctomb_j c wc n r
    else
     if ((wc >=? 0x2c0) &&& (wc <? 0x2e0)) then
      tget cp1255_page02 (wc - 0x2c0) (fun c =>
      cp1255_wctomb_j c wc n r)
     else
      if ((wc >=? 0x5b0) &&& (wc <? 0x5f8)) then
       tget cp1255_page05 (wc - 0x5b0) (fun c =>
       cp1255_wctomb_j c wc n r)
      else
       if ((wc >=? 0x2008) &&& (wc <? 0x2040)) then
        tget cp1255_page20 (wc - 0x2008) (fun c =>
        cp1255_wctomb_j c wc n r)
       else
        if (wc =? 0x20aa) then
         let c := 0xa4 in
         cp1255_wctomb_j c wc n r
        else
         if (wc =? 0x20ac) then
          let c := 0x80 in
          cp1255_wctomb_j c wc n r
         else
          if (wc =? 0x2122) then
           let c := 0x99 in
           cp1255_wctomb_j c wc n r
          else
           cp1255_wctomb_j c wc n r.

(* lib/converters/cp1256.h:30-55 cp1256_2uni *)
Definition cp1256_2uni : tab := mk [
 [8364;1662;8218;402;8222;8230;8224;8225;710;8240;1657;8249;338;1670;1688;1672];
 [1711;8216;8217;8220;8221;8226;8211;8212;1705;8482;1681;8250;339;8204;8205;1722];
 [160;1548;162;163;164;165;166;167;168;169;1726;171;172;173;174;175];
 [176;177;178;179;180;181;182;183;184;185;1563;187;188;189;190;1567];
 [1729;1569;1570;1571;1572;1573;1574;1575;1576;1577;1578;1579;1580;1581;1582;1583];
 [1584;1585;1586;1587;1588;1589;1590;215;1591;1592;1593;1594;1600;1601;1602;1603];
 [224;1604;226;1605;1606;1607;1608;231;232;233;234;235;1609;1610;238;239];
 [1611;1612;1613;1614;244;1615;1616;247;1617;249;1618;251;252;8206;8207;1746]].

(* lib/converters/cp1256.h:67-80 cp1256_page00 *)
Definition cp1256_page00 : tab := mk [
 [160;0;162;163;164;165;166;167;168;169;0;171;172;173;174;175];
 [176;177;178;179;180;181;182;183;184;185;0;187;188;189;190;0];
 [0;0;0;0;0;0;0;0;0;0;0;0;0;0;0;0];
 [0;0;0;0;0;0;0;215;0;0;0;0;0;0;0;0];
 [224;0;226;0;0;0;0;231;232;233;234;235;0;0;238;239];
 [0;0;0;0;244;0;0;247;0;249;0;251;252;0;0;0]].

(* lib/converters/cp1256.h:81-91 cp1256_page01 *)
Definition cp1256_page01 : tab := mk [
 [0;0;140;156;0;0;0;0;0;0;0;0;0;0;0;0];
 [0;0;0;0;0;0;0;0;0;0;0;0;0;0;0;0];
 [0;0;0;0;0;0;0;0;0;0;0;0;0;0;0;0];
 [0;0;0;0;0;0;0;0;0;0;0;0;0;0;0;0];
 [0;0;131;0;0;0;0;0]].

(* lib/converters/cp1256.h:92-119 cp1256_page06 *)
Definition cp1256_page06 : tab := mk [
 [0;0;0;0;161;0;0;0;0;0;0;0;0;0;0;0];
 [0;0;0;186;0;0;0;191;0;193;194;195;196;197;198;199];
 [200;201;202;203;204;205;206;207;208;209;210;211;212;213;214;216];
 [217;218;219;0;0;0;0;0;220;221;222;223;225;227;228;229];
 [230;236;237;240;241;242;243;245;246;248;250;0;0;0;0;0];
 [0;0;0;0;0;0;0;0;0;0;0;0;0;0;0;0];
 [0;0;0;0;0;0;0;0;0;0;0;0;0;0;0;0];
 [0;138;0;0;0;0;129;0;0;0;0;0;0;0;141;0];
 [143;0;0;0;0;0;0;0;0;154;0;0;0;0;0;0];
 [142;0;0;0;0;0;0;0;0;0;0;0;0;0;0;0];
 [0;152;0;0;0;0;0;144;0;0;0;0;0;0;0;0];
 [0;0;159;0;0;0;170;0;0;192;0;0;0;0;0;0];
 [0;0;0;0;0;0;0;0;0;0;255;0;0;0;0;0]].

(* lib/converters/cp1256.h:120-128 cp1256_page20 *)
Definition cp1256_page20 : tab := mk [
 [0;0;0;0;157;158;253;254;0;0;0;150;151;0;0;0];
 [145;146;130;0;147;148;132;0;134;135;149;0;0;0;133;0];
 [0;0;0;0;0;0;0;0;137;0;0;0;0;0;0;0];
 [0;139;155;0;0;0;0;0]].

(* lib/converters/cp1256.h:57-65 cp1256_mbtowc *)
Definition cp1256_mbtowc (s : list Z) (n : nat) : res (Z * option Z) :=
  let pwc := (None : option Z) in
  rd s 0%nat (fun c =>
  if (c <? 0x80) then
   let pwc := Some c in
   Ok (1, pwc)
  else
   tget cp1256_2uni (c - 0x80) (fun x2 =>
   let pwc := Some x2 in
   Ok (1, pwc))).

(* lib/converters/cp1256.h:130-158 cp1256_wctomb *)
Definition cp1256_wctomb_j (c : Z) (r : wlog) : res (Z * wlog) :=
  if (negb (c =? 0)) then
   let r := wr r 0%nat c in
   Ok (1, r)
  else
   Ok ((-1), r).
(* lib/converters/cp1256.h:130-158 cp1256_wctomb *)
Definition cp1256_wctomb (wc : Z) (n : nat) : res (Z * wlog) :=
  let r := ([] : wlog) in
  let c := 0 in
  if (wc <? 0x80) then
   let r := wr r 0%nat wc in
   Ok (1, r)
  else
   if ((wc >=? 0xa0) &&& (wc <? 0x100)) then
    tget cp1256_page00 (wc - 0xa0) (fun c =>
    cp1256_wctomb_j c r)
   else
    if ((wc >=? 0x150) &&& (wc <? 0x198)) then
     tget cp1256_page01 (wc - 0x150) (fun c =>
     cp1256_wctomb_j c r)
    else
     if (wc =? 0x2c6) then
      let c := 0x88 in
      cp1256_wctomb_j c r
     else
      if ((wc >=? 0x608) &&& (wc <? 0x6d8)) then
       tget cp1256_page06 (wc - 0x608) (fun c =>
       cp1256_wctomb_j c r)
      else
       if ((wc >=? 0x2008) &&& (wc <? 0x2040)) then
        tget cp1256_page20 (wc - 0x2008) (fun c =>
        cp1256_wctomb_j c r)
       else
        if (wc =? 0x20ac) then
         let c := 0x80 in
         cp1256_wctomb_j c r
        else
         if (wc =? 0x2122) then
          let c := 0x99 in
          cp1256_wctomb_j c r
         else
          cp1256_wctomb_j c r.

(* lib/converters/cp1257.h:30-55 cp1257_2uni *)
Definition cp1257_2uni : tab := mk [
 [8364;65533;8218;65533;8222;8230;8224;8225;65533;8240;65533;8249;65533;168;711;184];
 [65533;8216;8217;8220;8221;8226;8211;8212;65533;8482;65533;8250;65533;175;731;65533];
 [160;65533;162;163;164;65533;166;167;216;169;342;171;172;173;174;198];
 [176;177;178;179;180;181;182;183;248;185;343;187;188;189;190;230];
 [260;302;256;262;196;197;280;274;268;201;377;278;290;310;298;315];
 [352;323;325;211;332;213;214;215;370;321;346;362;220;379;381;223];
 [261;303;257;263;228;229;281;275;269;233;378;279;291;311;299;316];
 [353;324;326;243;333;245;246;247;371;322;347;363;252;380;382;729]].

(* lib/converters/cp1257.h:77-107 cp1257_page00 *)
Definition cp1257_page00 : tab := mk [
 [160;0;162;163;164;0;166;167;141;169;0;171;172;173;174;157];
 [176;177;178;179;180;181;182;183;143;185;0;187;188;189;190;0];
 [0;0;0;0;196;197;175;0;0;201;0;0;0;0;0;0];
 [0;0;0;211;0;213;214;215;168;0;0;0;220;0;0;223];
 [0;0;0;0;228;229;191;0;0;233;0;0;0;0;0;0];
 [0;0;0;243;0;245;246;247;184;0;0;0;252;0;0;0];
 [194;226;0;0;192;224;195;227;0;0;0;0;200;232;0;0];
 [0;0;199;231;0;0;203;235;198;230;0;0;0;0;0;0];
 [0;0;204;236;0;0;0;0;0;0;206;238;0;0;193;225];
 [0;0;0;0;0;0;205;237;0;0;0;207;239;0;0;0];
 [0;217;249;209;241;210;242;0;0;0;0;0;212;244;0;0];
 [0;0;0;0;0;0;170;186;0;0;218;250;0;0;0;0];
 [208;240;0;0;0;0;0;0;0;0;219;251;0;0;0;0];
 [0;0;216;248;0;0;0;0;0;202;234;221;253;222;254;0]].

(* lib/converters/cp1257.h:108-113 cp1257_page02 *)
Definition cp1257_page02 : tab := mk [
 [0;0;0;0;0;0;0;142;0;0;0;0;0;0;0;0];
 [0;0;0;0;0;0;0;0;0;255;0;158;0;0;0;0]].

(* lib/converters/cp1257.h:114-121 cp1257_page20 *)
Definition cp1257_page20 : tab := mk [
 [0;0;0;150;151;0;0;0;145;146;130;0;147;148;132;0];
 [134;135;149;0;0;0;133;0;0;0;0;0;0;0;0;0];
 [137;0;0;0;0;0;0;0;0;139;155;0;0;0;0;0]].

(* lib/converters/cp1257.h:57-75 cp1257_mbtowc *)
Definition cp1257_mbtowc (s : list Z) (n : nat) : res (Z * option Z) :=
  let pwc := (None : option Z) in
  rd s 0%nat (fun c =>
  if (c <? 0x80) then
   let pwc := Some c in
   Ok (1, pwc)
  else
   tget cp1257_2uni (c - 0x80) (fun wc =>
   if (negb (wc =? 0xfffd)) then
    let pwc := Some wc in
    Ok (1, pwc)
   else
    Ok ((-1), pwc))).

(* lib/converters/cp1257.h:123-147 cp1257_wctomb *)
Definition cp1257_wctomb_j (c : Z) (r : wlog) : res (Z * wlog) :=
  if (negb (c =? 0)) then
   let r := wr r 0%nat c in
   Ok (1, r)
  else
   Ok ((-1), r).
(* lib/converters/cp1257.h:123-147 cp1257_wctomb *)
Definition cp1257_wctomb (wc : Z) (n : nat) : res (Z * wlog) :=
  let r := ([] : wlog) in
  let c := 0 in
  if (wc <? 0x80) then
   let r := wr r 0%nat wc in
   Ok (1, r)
  else
   if ((wc >=? 0xa0) &&& (wc <? 0x180)) then
    tget cp1257_page00 (wc - 0xa0) (fun c =>
    cp1257_wctomb_j c r)
   else
    if ((wc >=? 0x2c0) &&& (wc <? 0x2e0)) then
     tget cp1257_page02 (wc - 0x2c0) (fun c =>
     cp1257_wctomb_j c r)
    else
     if ((wc >=? 0x2010) &&& (wc <? 0x2040)) then
      tget cp1257_page20 (wc - 0x2010) (fun c =>
      cp1257_wctomb_j c r)
     else
      if (wc =? 0x20ac) then
       let c := 0x80 in
       cp1257_wctomb_j c r
      else
       if (wc =? 0x2122) then
        let c := 0x99 in
        cp1257_wctomb_j c r
       else
        cp1257_wctomb_j c r.

(* lib/converters/cp1258.h:35-37 cp1258_comb_table *)
Definition cp1258_comb_table : tab := mk [
 [204;236;222;210;242]].

(* lib/converters/cp1258.h:46-49 cp1258_comp_bases *)
Definition cp1258_comp_bases : tab := mk [
 [117308350;117308350;0;288;358122724;358122724;12;0;0;0;0;98307]].

(* lib/converters/cp1258.h:51-76 cp1258_2uni *)
Definition cp1258_2uni : tab := mk [
 [8364;65533;8218;402;8222;8230;8224;8225;710;8240;65533;8249;338;65533;65533;65533];
 [65533;8216;8217;8220;8221;8226;8211;8212;732;8482;65533;8250;339;65533;65533;376];
 [160;161;162;163;164;165;166;167;168;169;170;171;172;173;174;175];
 [176;177;178;179;180;181;182;183;184;185;186;187;188;189;190;191];
 [192;193;194;258;196;197;198;199;200;201;202;203;768;205;206;207];
 [272;209;777;211;212;416;214;215;216;217;218;219;220;431;771;223];
 [224;225;226;259;228;229;230;231;232;233;234;235;769;237;238;239];
 [273;241;803;243;244;417;246;247;248;249;250;251;252;432;8363;255]].

(* lib/converters/cp1258.h:182-195 cp1258_page00 *)
Definition cp1258_page00 : tab := mk [
 [192;193;194;0;196;197;198;199;200;201;202;203;0;205;206;207];
 [0;209;0;211;212;0;214;215;216;217;218;219;220;0;0;223];
 [224;225;226;0;228;229;230;231;232;233;234;235;0;237;238;239];
 [0;241;0;243;244;0;246;247;248;249;250;251;252;0;0;255];
 [0;0;195;227;0;0;0;0;0;0;0;0;0;0;0;0];
 [208;240;0;0;0;0;0;0]].

(* lib/converters/cp1258.h:196-210 cp1258_page01 *)
Definition cp1258_page01 : tab := mk [
 [0;0;140;156;0;0;0;0;0;0;0;0;0;0;0;0];
 [0;0;0;0;0;0;0;0;0;0;0;0;0;0;0;0];
 [0;0;0;0;0;0;0;0;159;0;0;0;0;0;0;0];
 [0;0;0;0;0;0;0;0;0;0;0;0;0;0;0;0];
 [0;0;131;0;0;0;0;0;0;0;0;0;0;0;0;0];
 [213;245;0;0;0;0;0;0;0;0;0;0;0;0;0;221];
 [253;0;0;0;0;0;0;0]].

(* lib/converters/cp1258.h:211-216 cp1258_page02 *)
Definition cp1258_page02 : tab := mk [
 [0;0;0;0;0;0;136;0;0;0;0;0;0;0;0;0];
 [0;0;0;0;0;0;0;0;0;0;0;0;152;0;0;0]].

(* lib/converters/cp1258.h:217-223 cp1258_page03 *)
Definition cp1258_page03 : tab := mk [
 [204;236;0;222;0;0;0;0;0;210;0;0;0;0;0;0];
 [0;0;0;0;0;0;0;0;0;0;0;0;0;0;0;0];
 [0;0;0;242;0;0;0;0]].

(* lib/converters/cp1258.h:224-231 cp1258_page20 *)
Definition cp1258_page20 : tab := mk [
 [0;0;0;150;151;0;0;0;145;146;130;0;147;148;132;0];
 [134;135;149;0;0;0;133;0;0;0;0;0;0;0;0;0];
 [137;0;0;0;0;0;0;0;0;139;155;0;0;0;0;0]].

(* lib/converters/cp1258.h:81-178 cp1258_mbtowc *)
Fixpoint cp1258_mbtowc_loop (fuel : nat) (i1 : Z) (i2 : Z) (last_wc : Z) (ibo : Z) {struct fuel} : res (Z * option Z * Z * Z) :=
  match fuel with O => NoFuel | S fuel =>
  let i := (Z.shiftr (i1 + i2) 1) in
  tget viet_comp_table_data (2 * i) (fun x8 =>
  if (last_wc =? x8) then
   tget viet_comp_table_data (2 * i + 1) (fun last_wc =>
   let ist := 0 in
   let pwc := Some last_wc in
   Ok (1, pwc, ist, ibo))
  else
   if (last_wc <? x8) then
    if (i1 =? i) then
     let ist := 0 in
     let pwc := Some last_wc in
     Ok (0, pwc, ist, ibo)
    else
     let i2 := i in
     cp1258_mbtowc_loop fuel i1 i2 last_wc ibo
   else
    if (negb (i1 =? i)) then
     let i1 := i in
     cp1258_mbtowc_loop fuel i1 i2 last_wc ibo
    else
     let i := i2 in
     tget viet_comp_table_data (2 * i) (fun x10 =>
     if (last_wc =? x10) then
      tget viet_comp_table_data (2 * i + 1) (fun last_wc =>
      let ist := 0 in
      let pwc := Some last_wc in
      Ok (1, pwc, ist, ibo))
     else
      let ist := 0 in
      let pwc := Some last_wc in
      Ok (0, pwc, ist, ibo)))
  end.
(* lib/converters/cp1258.h:81-178 cp1258_mbtowc *)
Definition cp1258_mbtowc_j2 (k : Z) (last_wc : Z) (ibo : Z) : res (Z * option Z * Z * Z) :=
  tget viet_comp_table (2 * k + 1) (fun i1 =>
  tget viet_comp_table (2 * k) (fun x5 =>
  let i2 := ((i1 + x5) - 1) in
  tget viet_comp_table_data (2 * i1) (fun x6 =>
  if (last_wc >=? x6) then
   tget viet_comp_table_data (2 * i2) (fun x7 =>
   if (last_wc <=? x7) then
    cp1258_mbtowc_loop 64%nat i1 i2 last_wc ibo
   else
    let ist := 0 in
    let pwc := Some last_wc in
    Ok (0, pwc, ist, ibo))
  else
   let ist := 0 in
   let pwc := Some last_wc in
   Ok (0, pwc, ist, ibo)))).
(* lib/converters/cp1258.h:81-178 cp1258_mbtowc *)
Definition cp1258_mbtowc_j (wc : Z) (pwc : option Z) (ist : Z) (ibo : Z) : res (Z * option Z * Z * Z) :=
  let last_wc := (u16 ist) in
  if (negb (last_wc =? 0)) then
   if ((wc >=? 0x300) &&& (wc <? 0x340)) then
    let x3 := wc in
    if (x3 =? 0x300) then
     let k := 0 in
     cp1258_mbtowc_j2 k last_wc ibo
    else
     if (x3 =? 0x301) then
      let k := 1 in
      cp1258_mbtowc_j2 k last_wc ibo
     else
      if (x3 =? 0x303) then
       let k := 2 in
       cp1258_mbtowc_j2 k last_wc ibo
      else
       if (x3 =? 0x309) then
        let k := 3 in
        cp1258_mbtowc_j2 k last_wc ibo
       else
        if (x3 =? 0x323) then
         let k := 4 in
         cp1258_mbtowc_j2 k last_wc ibo
        else
         Abort
   else
    let ist := 0 in
    let pwc := Some last_wc in
    Ok (0, pwc, ist, ibo)
  else
   if ((wc >=? 0x41) &&& (wc <=? 0x1b0)) then
    tget cp1258_comp_bases (Z.shiftr (wc - 0x40) 5) (fun x12 =>
    if (negb ((Z.land (Z.shiftr x12 (Z.land wc 0x1f)) 1) =? 0)) then
     let ist := wc in
     Ok ((-4), pwc, ist, ibo)
    else
     let pwc := Some wc in
     Ok (1, pwc, ist, ibo))
   else
    let pwc := Some wc in
    Ok (1, pwc, ist, ibo).
(* lib/converters/cp1258.h:81-178 cp1258_mbtowc *)
Definition cp1258_mbtowc (s : list Z) (n : nat) (ist : Z) (ibo : Z) : res (Z * option Z * Z * Z) :=
  let pwc := (None : option Z) in
  rd s 0%nat (fun c =>
  if (c <? 0x80) then
   let wc := c in
   cp1258_mbtowc_j wc pwc ist ibo
  else
   tget cp1258_2uni (c - 0x80) (fun wc =>
   if (wc =? 0xfffd) then
    Ok ((-1), pwc, ist, ibo)
   else
    cp1258_mbtowc_j wc pwc ist ibo)).

(* lib/converters/cp1258.h:233-324 cp1258_wctomb *)
Definition cp1258_wctomb_j3 (c : Z) (i : Z) (n : nat) (r : wlog) : res (Z * wlog) :=
  if (Nat.ltb n 2%nat) then
   Ok ((-2), r)
  else
   let r := wr r 0%nat c in
   tget viet_decomp_table (3 * i + 2) (fun x15 =>
   tget cp1258_comb_table x15 (fun x16 =>
   let r := wr r 1%nat x16 in
   Ok (2, r))).
(* lib/converters/cp1258.h:233-324 cp1258_wctomb *)
Definition cp1258_wctomb_j2 (i : Z) (n : nat) (r : wlog) : res (Z * wlog) :=
  tget viet_decomp_table (3 * i + 1) (fun x12 =>
  let wc := x12 in
  if (wc <? 0x100) then
   let c := wc in
   cp1258_wctomb_j3 c i n r
  else
   if (wc <? 0x118) then
    tget cp1258_page00 (wc - 0xc0) (fun c =>
    cp1258_wctomb_j3 c i n r)
   else
    tget cp1258_page01 (u32 (wc - 0x150)) (fun c =>
    cp1258_wctomb_j3 c i n r)).
(* lib/converters/cp1258.h:233-324 cp1258_wctomb *)
Fixpoint cp1258_wctomb_loop (fuel : nat) (i1 : Z) (i2 : Z) (wc : Z) (n : nat) (r : wlog) {struct fuel} : res (Z * wlog) :=
  match fuel with O => NoFuel | S fuel =>
  let i := (Z.shiftr (i1 + i2) 1) in
  tget viet_decomp_table (3 * i) (fun x9 =>
  if (wc =? x9) then
   cp1258_wctomb_j2 i n r
  else
   if (wc <? x9) then
    if (i1 =? i) then
     Ok ((-1), r)
    else
     let i2 := i in
     cp1258_wctomb_loop fuel i1 i2 wc n r
   else
    if (negb (i1 =? i)) then
     let i1 := i in
     cp1258_wctomb_loop fuel i1 i2 wc n r
    else
     let i := i2 in
     tget viet_decomp_table (3 * i) (fun x11 =>
     if (wc =? x11) then
      cp1258_wctomb_j2 i n r
     else
      Ok ((-1), r)))
  end.
(* lib/converters/cp1258.h:233-324 cp1258_wctomb *)
Definition cp1258_wctomb_j (c : Z) (wc : Z) (n : nat) (r : wlog) : res (Z * wlog) :=
  if (negb (c =? 0)) then
   let r := wr r 0%nat c in
   Ok (1, r)
  else
   let i1 := 0 in
   let i2 := 0xc8 in
   tget viet_decomp_table (3 * i1) (fun x7 =>
   if (wc >=? x7) then
    tget viet_decomp_table (3 * i2) (fun x8 =>
    if (wc <=? x8) then
     cp1258_wctomb_loop 64%nat i1 i2 wc n r
    else
     Ok ((-1), r))
   else
    Ok ((-1), r)).
(* lib/converters/cp1258.h:233-324 cp1258_wctomb *)
Definition cp1258_wctomb (wc : Z) (n : nat) : res (Z * wlog) :=
  let r := ([] : wlog) in
  let c := 0 in
  if (wc <? 0x80) then
   let r := wr r 0%nat wc in
   Ok (1, r)
  else
   if ((wc >=? 0xa0) &&& (wc <? 0xc0)) then
    let c := wc in
    cp1258_wctomb_j c wc n r
   else
    if ((wc >=? 0xc0) &&& (wc <? 0x118)) then
     tget cp1258_page00 (wc - 0xc0) (fun c =>
     cp1258_wctomb_j c wc n r)
    else
     if ((wc >=? 0x150) &&& (wc <? 0x1b8)) then
      tget cp1258_page01 (wc - 0x150) (fun c =>
      cp1258_wctomb_j c wc n r)
     else
      if ((wc >=? 0x2c0) &&& (wc <? 0x2e0)) then
       tget cp1258_page02 (wc - 0x2c0) (fun c =>
       cp1258_wctomb_j c wc n r)
      else
       if ((wc >=? 0x300) &&& (wc <? 0x328)) then
        tget cp1258_page03 (wc - 0x300) (fun c =>
        cp1258_wctomb_j c wc n r)
       else
        if ((wc >=? 0x340) &&& (wc <? 0x342)) then
         tget cp1258_page03 (wc - 0x340) (fun c =>
         cp1258_wctomb_j c wc n r)
        else
         if ((wc >=? 0x2010) &&& (wc <? 0x2040)) then
          tget cp1258_page20 (wc - 0x2010) (fun c =>
          cp1258_wctomb_j c wc n r)
         else
          if (wc =? 0x20ab) then
           let c := 0xfe in
           cp1258_wctomb_j c wc n r
          else
           if (wc =? 0x20ac) then
            let c := 0x80 in
            cp1258_wctomb_j c wc n r
           else
            if (wc =? 0x2122) then
             let c := 0x99 in
             cp1258_wctomb_j c wc n r
            else
             cp1258_wctomb_j c wc n r.

(* lib/converters/cp850.h:30-55 cp850_2uni *)
Definition cp850_2uni : tab := mk [
 [199;252;233;226;228;224;229;231;234;235;232;239;238;236;196;197];
 [201;230;198;244;246;242;251;249;255;214;220;248;163;216;215;402];
 [225;237;243;250;241;209;170;186;191;174;172;189;188;161;171;187];
 [9617;9618;9619;9474;9508;193;194;192;169;9571;9553;9559;9565;162;165;9488];
 [9492;9524;9516;9500;9472;9532;227;195;9562;9556;9577;9574;9568;9552;9580;164];
 [240;208;202;203;200;305;205;206;207;9496;9484;9608;9604;166;204;9600];
 [211;223;212;210;245;213;181;254;222;218;219;217;253;221;175;180];
 [173;177;8215;190;182;167;247;184;176;168;183;185;179;178;9632;160]].

(* lib/converters/cp850.h:67-80 cp850_page00 *)
Definition cp850_page00 : tab := mk [
 [255;173;189;156;207;190;221;245;249;184;166;174;170;240;169;238];
 [248;241;253;252;239;230;244;250;247;251;167;175;172;171;243;168];
 [183;181;182;199;142;143;146;128;212;144;210;211;222;214;215;216];
 [209;165;227;224;226;229;153;158;157;235;233;234;154;237;232;225];
 [133;160;131;198;132;134;145;135;138;130;136;137;141;161;140;139];
 [208;164;149;162;147;228;148;246;155;151;163;150;129;236;231;152]].

(* lib/converters/cp850.h:81-103 cp850_page25 *)
Definition cp850_page25 : tab := mk [
 [196;0;179;0;0;0;0;0;0;0;0;0;218;0;0;0];
 [191;0;0;0;192;0;0;0;217;0;0;0;195;0;0;0];
 [0;0;0;0;180;0;0;0;0;0;0;0;194;0;0;0];
 [0;0;0;0;193;0;0;0;0;0;0;0;197;0;0;0];
 [0;0;0;0;0;0;0;0;0;0;0;0;0;0;0;0];
 [205;186;0;0;201;0;0;187;0;0;200;0;0;188;0;0];
 [204;0;0;185;0;0;203;0;0;202;0;0;206;0;0;0];
 [0;0;0;0;0;0;0;0;0;0;0;0;0;0;0;0];
 [223;0;0;0;220;0;0;0;219;0;0;0;0;0;0;0];
 [0;176;177;178;0;0;0;0;0;0;0;0;0;0;0;0];
 [254;0;0;0;0;0;0;0]].

(* lib/converters/cp850.h:57-65 cp850_mbtowc *)
Definition cp850_mbtowc (s : list Z) (n : nat) : res (Z * option Z) :=
  let pwc := (None : option Z) in
  rd s 0%nat (fun c =>
  if (c <? 0x80) then
   let pwc := Some c in
   Ok (1, pwc)
  else
   tget cp850_2uni (c - 0x80) (fun x2 =>
   let pwc := Some x2 in
   Ok (1, pwc))).

(* lib/converters/cp850.h:105-129 cp850_wctomb *)
Definition cp850_wctomb_j (c : Z) (r : wlog) : res (Z * wlog) :=
  if (negb (c =? 0)) then
   let r := wr r 0%nat c in
   Ok (1, r)
  else
   Ok ((-1), r).
(* lib/converters/cp850.h:105-129 cp850_wctomb *)
Definition cp850_wctomb (wc : Z) (n : nat) : res (Z * wlog) :=
  let r := ([] : wlog) in
  let c := 0 in
  if (wc <? 0x80) then
   let r := wr r 0%nat wc in
   Ok (1, r)
  else
   if ((wc >=? 0xa0) &&& (wc <? 0x100)) then
    tget cp850_page00 (wc - 0xa0) (fun c =>
    cp850_wctomb_j c r)
   else
    if (wc =? 0x131) then
     let c := 0xd5 in
     cp850_wctomb_j c r
    else
     if (wc =? 0x192) then
      let c := 0x9f in
      cp850_wctomb_j c r
     else
      if (wc =? 0x2017) then
       let c := 0xf2 in
       cp850_wctomb_j c r
      else
       if ((wc >=? 0x2500) &&& (wc <? 0x25a8)) then
        tget cp850_page25 (wc - 0x2500) (fun c =>
        cp850_wctomb_j c r)
       else
        cp850_wctomb_j c r.

(* lib/converters/cp862.h:30-55 cp862_2uni *)
Definition cp862_2uni : tab := mk [
 [1488;1489;1490;1491;1492;1493;1494;1495;1496;1497;1498;1499;1500;1501;1502;1503];
 [1504;1505;1506;1507;1508;1509;1510;1511;1512;1513;1514;162;163;165;8359;402];
 [225;237;243;250;241;209;170;186;191;8976;172;189;188;161;171;187];
 [9617;9618;9619;9474;9508;9569;9570;9558;9557;9571;9553;9559;9565;9564;9563;9488];
 [9492;9524;9516;9500;9472;9532;9566;9567;9562;9556;9577;9574;9568;9552;9580;9575];
 [9576;9572;9573;9561;9560;9554;9555;9579;9578;9496;9484;9608;9604;9612;9616;9600];
 [945;223;915;960;931;963;181;964;934;920;937;948;8734;966;949;8745];
 [8801;177;8805;8804;8992;8993;247;8776;176;8729;183;8730;8319;178;9632;160]].

(* lib/converters/cp862.h:67-80 cp862_page00 *)
Definition cp862_page00 : tab := mk [
 [255;173;155;156;0;157;0;0;0;0;166;174;170;0;0;0];
 [248;241;253;0;0;230;0;250;0;0;167;175;172;171;0;168];
 [0;0;0;0;0;0;0;0;0;0;0;0;0;0;0;0];
 [0;165;0;0;0;0;0;0;0;0;0;0;0;0;0;225];
 [0;160;0;0;0;0;0;0;0;0;0;0;0;161;0;0];
 [0;164;0;162;0;0;0;246;0;0;163;0;0;0;0;0]].

(* lib/converters/cp862.h:81-89 cp862_page03 *)
Definition cp862_page03 : tab := mk [
 [0;0;0;226;0;0;0;0;233;0;0;0;0;0;0;0];
 [0;0;0;228;0;0;232;0;0;234;0;0;0;0;0;0];
 [0;224;0;0;235;238;0;0;0;0;0;0;0;0;0;0];
 [227;0;0;229;231;0;237;0]].

(* lib/converters/cp862.h:90-101 cp862_page22 *)
Definition cp862_page22 : tab := mk [
 [0;249;251;0;0;0;236;0;0;0;0;0;0;0;0;0];
 [0;239;0;0;0;0;0;0;0;0;0;0;0;0;0;0];
 [0;0;0;0;0;0;0;0;0;0;0;0;0;0;0;0];
 [247;0;0;0;0;0;0;0;0;0;0;0;0;0;0;0];
 [0;0;0;0;0;0;0;0;0;240;0;0;243;242;0;0]].

(* lib/converters/cp862.h:102-124 cp862_page25 *)
Definition cp862_page25 : tab := mk [
 [196;0;179;0;0;0;0;0;0;0;0;0;218;0;0;0];
 [191;0;0;0;192;0;0;0;217;0;0;0;195;0;0;0];
 [0;0;0;0;180;0;0;0;0;0;0;0;194;0;0;0];
 [0;0;0;0;193;0;0;0;0;0;0;0;197;0;0;0];
 [0;0;0;0;0;0;0;0;0;0;0;0;0;0;0;0];
 [205;186;213;214;201;184;183;187;212;211;200;190;189;188;198;199];
 [204;181;182;185;209;210;203;207;208;202;216;215;206;0;0;0];
 [0;0;0;0;0;0;0;0;0;0;0;0;0;0;0;0];
 [223;0;0;0;220;0;0;0;219;0;0;0;221;0;0;0];
 [222;176;177;178;0;0;0;0;0;0;0;0;0;0;0;0];
 [254;0;0;0;0;0;0;0]].

(* lib/converters/cp862.h:57-65 cp862_mbtowc *)
Definition cp862_mbtowc (s : list Z) (n : nat) : res (Z * option Z) :=
  let pwc := (None : option Z) in
  rd s 0%nat (fun c =>
  if (c <? 0x80) then
   let pwc := Some c in
   Ok (1, pwc)
  else
   tget cp862_2uni (c - 0x80) (fun x2 =>
   let pwc := Some x2 in
   Ok (1, pwc))).

(* lib/converters/cp862.h:126-160 cp862_wctomb *)
Definition cp862_wctomb_j (c : Z) (r : wlog) : res (Z * wlog) :=
  if (negb (c =? 0)) then
   let r := wr r 0%nat c in
   Ok (1, r)
  else
   Ok ((-1), r).
(* lib/converters/cp862.h:126-160 cp862_wctomb *)
Definition cp862_wctomb (wc : Z) (n : nat) : res (Z * wlog) :=
  let r := ([] : wlog) in
  let c := 0 in
  if (wc <? 0x80) then
   let r := wr r 0%nat wc in
   Ok (1, r)
  else
   if ((wc >=? 0xa0) &&& (wc <? 0x100)) then
    tget cp862_page00 (wc - 0xa0) (fun c =>
    cp862_wctomb_j c r)
   else
    if (wc =? 0x192) then
     let c := 0x9f in
     cp862_wctomb_j c r
    else
     if ((wc >=? 0x390) &&& (wc <? 0x3c8)) then
      tget cp862_page03 (wc - 0x390) (fun c =>
      cp862_wctomb_j c r)
     else
      if ((wc >=? 0x5d0) &&& (wc <? 0x5eb)) then
       let c := (wc - 0x550) in
       cp862_wctomb_j c r
      else
       if (wc =? 0x207f) then
        let c := 0xfc in
        cp862_wctomb_j c r
       else
        if (wc =? 0x20a7) then
         let c := 0x9e in
         cp862_wctomb_j c r
        else
         if ((wc >=? 0x2218) &&& (wc <? 0x2268)) then
          tget cp862_page22 (wc - 0x2218) (fun c =>
          cp862_wctomb_j c r)
         else
          if (wc =? 0x2310) then
           let c := 0xa9 in
           cp862_wctomb_j c r
          else
           if ((wc >=? 0x2320) &&& (wc <? 0x2322)) then
            let c := (wc - 0x222c) in
            cp862_wctomb_j c r
           else
            if ((wc >=? 0x2500) &&& (wc <? 0x25a8)) then
             tget cp862_page25 (wc - 0x2500) (fun c =>
             cp862_wctomb_j c r)
            else
             cp862_wctomb_j c r.

(* lib/converters/cp866.h:30-46 cp866_2uni *)
Definition cp866_2uni : tab := mk [
 [9617;9618;9619;9474;9508;9569;9570;9558;9557;9571;9553;9559;9565;9564;9563;9488];
 [9492;9524;9516;9500;9472;9532;9566;9567;9562;9556;9577;9574;9568;9552;9580;9575];
 [9576;9572;9573;9561;9560;9554;9555;9579;9578;9496;9484;9608;9604;9612;9616;9600];
 [1088;1089;1090;1091;1092;1093;1094;1095;1096;1097;1098;1099;1100;1101;1102;1103];
 [1025;1105;1028;1108;1031;1111;1038;1118;176;8729;183;8730;8470;164;9632;160]].

(* lib/converters/cp866.h:60-64 cp866_page00 *)
Definition cp866_page00 : tab := mk [
 [255;0;0;0;253;0;0;0;0;0;0;0;0;0;0;0];
 [248;0;0;0;0;0;0;250]].

(* lib/converters/cp866.h:65-78 cp866_page04 *)
Definition cp866_page04 : tab := mk [
 [0;240;0;0;242;0;0;244;0;0;0;0;0;0;246;0];
 [128;129;130;131;132;133;134;135;136;137;138;139;140;141;142;143];
 [144;145;146;147;148;149;150;151;152;153;154;155;156;157;158;159];
 [160;161;162;163;164;165;166;167;168;169;170;171;172;173;174;175];
 [224;225;226;227;228;229;230;231;232;233;234;235;236;237;238;239];
 [0;241;0;0;243;0;0;245;0;0;0;0;0;0;247;0]].

(* lib/converters/cp866.h:79-81 cp866_page22 *)
Definition cp866_page22 : tab := mk [
 [0;249;251;0;0;0;0;0]].

(* lib/converters/cp866.h:82-104 cp866_page25 *)
Definition cp866_page25 : tab := mk [
 [196;0;179;0;0;0;0;0;0;0;0;0;218;0;0;0];
 [191;0;0;0;192;0;0;0;217;0;0;0;195;0;0;0];
 [0;0;0;0;180;0;0;0;0;0;0;0;194;0;0;0];
 [0;0;0;0;193;0;0;0;0;0;0;0;197;0;0;0];
 [0;0;0;0;0;0;0;0;0;0;0;0;0;0;0;0];
 [205;186;213;214;201;184;183;187;212;211;200;190;189;188;198;199];
 [204;181;182;185;209;210;203;207;208;202;216;215;206;0;0;0];
 [0;0;0;0;0;0;0;0;0;0;0;0;0;0;0;0];
 [223;0;0;0;220;0;0;0;219;0;0;0;221;0;0;0];
 [222;176;177;178;0;0;0;0;0;0;0;0;0;0;0;0];
 [254;0;0;0;0;0;0;0]].

(* lib/converters/cp866.h:48-58 cp866_mbtowc *)
Definition cp866_mbtowc (s : list Z) (n : nat) : res (Z * option Z) :=
  let pwc := (None : option Z) in
  rd s 0%nat (fun c =>
  if (c <? 0x80) then
   let pwc := Some c in
   Ok (1, pwc)
  else
   if (c <? 0xb0) then
    let pwc := Some (c + 0x390) in
    Ok (1, pwc)
   else
    tget cp866_2uni (c - 0xb0) (fun x2 =>
    let pwc := Some x2 in
    Ok (1, pwc))).

(* lib/converters/cp866.h:106-130 cp866_wctomb *)
Definition cp866_wctomb_j (c : Z) (r : wlog) : res (Z * wlog) :=
  if (negb (c =? 0)) then
   let r := wr r 0%nat c in
   Ok (1, r)
  else
   Ok ((-1), r).
(* lib/converters/cp866.h:106-130 cp866_wctomb *)
Definition cp866_wctomb (wc : Z) (n : nat) : res (Z * wlog) :=
  let r := ([] : wlog) in
  let c := 0 in
  if (wc <? 0x80) then
   let r := wr r 0%nat wc in
   Ok (1, r)
  else
   if ((wc >=? 0xa0) &&& (wc <? 0xb8)) then
    tget cp866_page00 (wc - 0xa0) (fun c =>
    cp866_wctomb_j c r)
   else
    if ((wc >=? 0x400) &&& (wc <? 0x460)) then
     tget cp866_page04 (wc - 0x400) (fun c =>
     cp866_wctomb_j c r)
    else
     if (wc =? 0x2116) then
      let c := 0xfc in
      cp866_wctomb_j c r
     else
      if ((wc >=? 0x2218) &&& (wc <? 0x2220)) then
       tget cp866_page22 (wc - 0x2218) (fun c =>
       cp866_wctomb_j c r)
      else
       if ((wc >=? 0x2500) &&& (wc <? 0x25a8)) then
        tget cp866_page25 (wc - 0x2500) (fun c =>
        cp866_wctomb_j c r)
       else
        cp866_wctomb_j c r.

(* lib/converters/cp874.h:30-55 cp874_2uni *)
Definition cp874_2uni : tab := mk [
 [8364;65533;65533;65533;65533;8230;65533;65533;65533;65533;65533;65533;65533;65533;65533;65533];
 [65533;8216;8217;8220;8221;8226;8211;8212;65533;65533;65533;65533;65533;65533;65533;65533];
 [160;3585;3586;3587;3588;3589;3590;3591;3592;3593;3594;3595;3596;3597;3598;3599];
 [3600;3601;3602;3603;3604;3605;3606;3607;3608;3609;3610;3611;3612;3613;3614;3615];
 [3616;3617;3618;3619;3620;3621;3622;3623;3624;3625;3626;3627;3628;3629;3630;3631];
 [3632;3633;3634;3635;3636;3637;3638;3639;3640;3641;3642;65533;65533;65533;65533;3647];
 [3648;3649;3650;3651;3652;3653;3654;3655;3656;3657;3658;3659;3660;3661;3662;3663];
 [3664;3665;3666;3667;3668;3669;3670;3671;3672;3673;3674;3675;65533;65533;65533;65533]].

(* lib/converters/cp874.h:77-90 cp874_page0e *)
Definition cp874_page0e : tab := mk [
 [0;161;162;163;164;165;166;167;168;169;170;171;172;173;174;175];
 [176;177;178;179;180;181;182;183;184;185;186;187;188;189;190;191];
 [192;193;194;195;196;197;198;199;200;201;202;203;204;205;206;207];
 [208;209;210;211;212;213;214;215;216;217;218;0;0;0;0;223];
 [224;225;226;227;228;229;230;231;232;233;234;235;236;237;238;239];
 [240;241;242;243;244;245;246;247;248;249;250;251;0;0;0;0]].

(* lib/converters/cp874.h:91-95 cp874_page20 *)
Definition cp874_page20 : tab := mk [
 [0;0;0;150;151;0;0;0;145;146;0;0;147;148;0;0];
 [0;0;149;0;0;0;133;0]].

(* lib/converters/cp874.h:57-75 cp874_mbtowc *)
Definition cp874_mbtowc (s : list Z) (n : nat) : res (Z * option Z) :=
  let pwc := (None : option Z) in
  rd s 0%nat (fun c =>
  if (c <? 0x80) then
   let pwc := Some c in
   Ok (1, pwc)
  else
   tget cp874_2uni (c - 0x80) (fun wc =>
   if (negb (wc =? 0xfffd)) then
    let pwc := Some wc in
    Ok (1, pwc)
   else
    Ok ((-1), pwc))).

(* lib/converters/cp874.h:97-119 cp874_wctomb *)
Definition cp874_wctomb_j (c : Z) (r : wlog) : res (Z * wlog) :=
  if (negb (c =? 0)) then
   let r := wr r 0%nat c in
   Ok (1, r)
  else
   Ok ((-1), r).
(* lib/converters/cp874.h:97-119 cp874_wctomb *)
Definition cp874_wctomb (wc : Z) (n : nat) : res (Z * wlog) :=
  let r := ([] : wlog) in
  let c := 0 in
  if (wc <? 0x80) then
   let r := wr r 0%nat wc in
   Ok (1, r)
  else
   if (wc =? 0xa0) then
    let c := 0xa0 in
    cp874_wctomb_j c r
   else
    if ((wc >=? 0xe00) &&& (wc <? 0xe60)) then
     tget cp874_page0e (wc - 0xe00) (fun c =>
     cp874_wctomb_j c r)
    else
     if ((wc >=? 0x2010) &&& (wc <? 0x2028)) then
      tget cp874_page20 (wc - 0x2010) (fun c =>
      cp874_wctomb_j c r)
     else
      if (wc =? 0x20ac) then
       let c := 0x80 in
       cp874_wctomb_j c r
      else
       cp874_wctomb_j c r.

(* lib/converters/georgian_academy.h:30-37 georgian_academy_2uni *)
Definition georgian_academy_2uni : tab := mk [
 [128;129;8218;402;8222;8230;8224;8225;710;8240;352;8249;338;141;142;143];
 [144;8216;8217;8220;8221;8226;8211;8212;732;8482;353;8250;339;157;158;376]].

(* lib/converters/georgian_academy.h:51-56 georgian_academy_page00 *)
Definition georgian_academy_page00 : tab := mk [
 [128;129;0;0;0;0;0;0;0;0;0;0;0;141;142;143];
 [144;0;0;0;0;0;0;0;0;0;0;0;0;157;158;0]].

(* lib/converters/georgian_academy.h:57-67 georgian_academy_page01 *)
Definition georgian_academy_page01 : tab := mk [
 [0;0;140;156;0;0;0;0;0;0;0;0;0;0;0;0];
 [138;154;0;0;0;0;0;0;0;0;0;0;0;0;0;0];
 [0;0;0;0;0;0;0;0;159;0;0;0;0;0;0;0];
 [0;0;0;0;0;0;0;0;0;0;0;0;0;0;0;0];
 [0;0;131;0;0;0;0;0]].

(* lib/converters/georgian_academy.h:68-73 georgian_academy_page02 *)
Definition georgian_academy_page02 : tab := mk [
 [0;0;0;0;0;0;136;0;0;0;0;0;0;0;0;0];
 [0;0;0;0;0;0;0;0;0;0;0;0;152;0;0;0]].

(* lib/converters/georgian_academy.h:74-81 georgian_academy_page20 *)
Definition georgian_academy_page20 : tab := mk [
 [0;0;0;150;151;0;0;0;145;146;130;0;147;148;132;0];
 [134;135;149;0;0;0;133;0;0;0;0;0;0;0;0;0];
 [137;0;0;0;0;0;0;0;0;139;155;0;0;0;0;0]].

(* lib/converters/georgian_academy.h:39-49 georgian_academy_mbtowc *)
Definition georgian_academy_mbtowc (s : list Z) (n : nat) : res (Z * option Z) :=
  let pwc := (None : option Z) in
  rd s 0%nat (fun c =>
  if ((c >=? 0x80) &&& (c <? 0xa0)) then
   tget georgian_academy_2uni (c - 0x80) (fun x2 =>
   let pwc := Some x2 in
   Ok (1, pwc))
  else
   if ((c >=? 0xc0) &&& (c <? 0xe7)) then
    let pwc := Some (c + 0x1010) in
    Ok (1, pwc)
   else
    let pwc := Some c in
    Ok (1, pwc)).

(* lib/converters/georgian_academy.h:83-111 georgian_academy_wctomb *)
Definition georgian_academy_wctomb_j (c : Z) (r : wlog) : res (Z * wlog) :=
  if (negb (c =? 0)) then
   let r := wr r 0%nat c in
   Ok (1, r)
  else
   Ok ((-1), r).
(* lib/converters/georgian_academy.h:83-111 georgian_academy_wctomb *)
Definition georgian_academy_wctomb (wc : Z) (n : nat) : res (Z * wlog) :=
  let r := ([] : wlog) in
  let c := 0 in
  if (wc <? 0x80) then
   let r := wr r 0%nat wc in
   Ok (1, r)
  else
   if ((wc >=? 0x80) &&& (wc <? 0xa0)) then
    tget georgian_academy_page00 (wc - 0x80) (fun c =>
    georgian_academy_wctomb_j c r)
   else
    if (((wc >=? 0xa0) &&& (wc <? 0xc0)) ||| ((wc >=? 0xe7) &&& (wc <? 0x100))) then
     let c := wc in
     georgian_academy_wctomb_j c r
    else
     if ((wc >=? 0x150) &&& (wc <? 0x198)) then
      tget georgian_academy_page01 (wc - 0x150) (fun c =>
      georgian_academy_wctomb_j c r)
     else
      if ((wc >=? 0x2c0) &&& (wc <? 0x2e0)) then
       tget georgian_academy_page02 (wc - 0x2c0) (fun c =>
       georgian_academy_wctomb_j c r)
      else
       if ((wc >=? 0x10d0) &&& (wc <? 0x10f7)) then
        let c := (wc - 0x1010) in
        georgian_academy_wctomb_j c r
       else
        if ((wc >=? 0x2010) &&& (wc <? 0x2040)) then
         tget georgian_academy_page20 (wc - 0x2010) (fun c =>
         georgian_academy_wctomb_j c r)
        else
         if (wc =? 0x2122) then
          let c := 0x99 in
          georgian_academy_wctomb_j c r
         else
          georgian_academy_wctomb_j c r.

(* lib/converters/georgian_ps.h:30-37 georgian_ps_2uni_1 *)
Definition georgian_ps_2uni_1 : tab := mk [
 [128;129;8218;402;8222;8230;8224;8225;710;8240;352;8249;338;141;142;143];
 [144;8216;8217;8220;8221;8226;8211;8212;732;8482;353;8250;339;157;158;376]].

(* lib/converters/georgian_ps.h:38-47 georgian_ps_2uni_2 *)
Definition georgian_ps_2uni_2 : tab := mk [
 [4304;4305;4306;4307;4308;4309;4310;4337;4311;4312;4313;4314;4315;4316;4338;4317];
 [4318;4319;4320;4321;4322;4339;4323;4324;4325;4326;4327;4328;4329;4330;4331;4332];
 [4333;4334;4340;4335;4336;4341;0]].

(* lib/converters/georgian_ps.h:61-66 georgian_ps_page00 *)
Definition georgian_ps_page00 : tab := mk [
 [128;129;0;0;0;0;0;0;0;0;0;0;0;141;142;143];
 [144;0;0;0;0;0;0;0;0;0;0;0;0;157;158;0]].

(* lib/converters/georgian_ps.h:67-77 georgian_ps_page01 *)
Definition georgian_ps_page01 : tab := mk [
 [0;0;140;156;0;0;0;0;0;0;0;0;0;0;0;0];
 [138;154;0;0;0;0;0;0;0;0;0;0;0;0;0;0];
 [0;0;0;0;0;0;0;0;159;0;0;0;0;0;0;0];
 [0;0;0;0;0;0;0;0;0;0;0;0;0;0;0;0];
 [0;0;131;0;0;0;0;0]].

(* lib/converters/georgian_ps.h:78-83 georgian_ps_page02 *)
Definition georgian_ps_page02 : tab := mk [
 [0;0;0;0;0;0;136;0;0;0;0;0;0;0;0;0];
 [0;0;0;0;0;0;0;0;0;0;0;0;152;0;0;0]].

(* lib/converters/georgian_ps.h:84-90 georgian_ps_page10 *)
Definition georgian_ps_page10 : tab := mk [
 [192;193;194;195;196;197;198;200;201;202;203;204;205;207;208;209];
 [210;211;212;214;215;216;217;218;219;220;221;222;223;224;225;227];
 [228;199;206;213;226;229;0;0]].

(* lib/converters/georgian_ps.h:91-98 georgian_ps_page20 *)
Definition georgian_ps_page20 : tab := mk [
 [0;0;0;150;151;0;0;0;145;146;130;0;147;148;132;0];
 [134;135;149;0;0;0;133;0;0;0;0;0;0;0;0;0];
 [137;0;0;0;0;0;0;0;0;139;155;0;0;0;0;0]].

(* lib/converters/georgian_ps.h:49-59 georgian_ps_mbtowc *)
Definition georgian_ps_mbtowc (s : list Z) (n : nat) : res (Z * option Z) :=
  let pwc := (None : option Z) in
  rd s 0%nat (fun c =>
  if ((c >=? 0x80) &&& (c <? 0xa0)) then
   tget georgian_ps_2uni_1 (c - 0x80) (fun x2 =>
   let pwc := Some x2 in
   Ok (1, pwc))
  else
   if ((c >=? 0xc0) &&& (c <? 0xe6)) then
    tget georgian_ps_2uni_2 (c - 0xc0) (fun x3 =>
    let pwc := Some x3 in
    Ok (1, pwc))
   else
    let pwc := Some c in
    Ok (1, pwc)).

(* lib/converters/georgian_ps.h:100-128 georgian_ps_wctomb *)
Definition georgian_ps_wctomb_j (c : Z) (r : wlog) : res (Z * wlog) :=
  if (negb (c =? 0)) then
   let r := wr r 0%nat c in
   Ok (1, r)
  else
   Ok ((-1), r).
(* lib/converters/georgian_ps.h:100-128 georgian_ps_wctomb *)
Definition georgian_ps_wctomb (wc : Z) (n : nat) : res (Z * wlog) :=
  let r := ([] : wlog) in
  let c := 0 in
  if (wc <? 0x80) then
   let r := wr r 0%nat wc in
   Ok (1, r)
  else
   if ((wc >=? 0x80) &&& (wc <? 0xa0)) then
    tget georgian_ps_page00 (wc - 0x80) (fun c =>
    georgian_ps_wctomb_j c r)
   else
    if (((wc >=? 0xa0) &&& (wc <? 0xc0)) ||| ((wc >=? 0xe6) &&& (wc <? 0x100))) then
     let c := wc in
     georgian_ps_wctomb_j c r
    else
     if ((wc >=? 0x150) &&& (wc <? 0x198)) then
      tget georgian_ps_page01 (wc - 0x150) (fun c =>
      georgian_ps_wctomb_j c r)
     else
      if ((wc >=? 0x2c0) &&& (wc <? 0x2e0)) then
       tget georgian_ps_page02 (wc - 0x2c0) (fun c =>
       georgian_ps_wctomb_j c r)
      else
       if ((wc >=? 0x10d0) &&& (wc <? 0x10f8)) then
        tget georgian_ps_page10 (wc - 0x10d0) (fun c =>
        georgian_ps_wctomb_j c r)
       else
        if ((wc >=? 0x2010) &&& (wc <? 0x2040)) then
         tget georgian_ps_page20 (wc - 0x2010) (fun c =>
         georgian_ps_wctomb_j c r)
        else
         if (wc =? 0x2122) then
          let c := 0x99 in
          georgian_ps_wctomb_j c r
         else
          georgian_ps_wctomb_j c r.

(* lib/converters/hp_roman8.h:30-49 hp_roman8_2uni *)
Definition hp_roman8_2uni : tab := mk [
 [160;192;194;200;202;203;206;207;180;715;710;168;732;217;219;8356];
 [175;221;253;176;199;231;209;241;161;191;164;163;165;167;402;162];
 [226;234;244;251;225;233;243;250;224;232;242;249;228;235;246;252];
 [197;238;216;198;229;237;248;230;196;236;214;220;201;239;223;212];
 [193;195;227;208;240;205;204;211;210;213;245;352;353;218;376;255];
 [222;254;183;181;182;190;8212;188;189;170;186;171;9632;187;177;65533]].

(* lib/converters/hp_roman8.h:71-84 hp_roman8_page00 *)
Definition hp_roman8_page00 : tab := mk [
 [160;184;191;187;186;188;0;189;171;0;249;251;0;0;0;176];
 [179;254;0;0;168;243;244;242;0;0;250;253;247;248;245;185];
 [161;224;162;225;216;208;211;180;163;220;164;165;230;229;166;167];
 [227;182;232;231;223;233;218;0;210;173;237;174;219;177;240;222];
 [200;196;192;226;204;212;215;181;201;197;193;205;217;213;209;221];
 [228;183;202;198;194;234;206;0;214;203;199;195;207;178;241;239]].

(* lib/converters/hp_roman8.h:85-93 hp_roman8_page01 *)
Definition hp_roman8_page01 : tab := mk [
 [235;236;0;0;0;0;0;0;0;0;0;0;0;0;0;0];
 [0;0;0;0;0;0;0;0;238;0;0;0;0;0;0;0];
 [0;0;0;0;0;0;0;0;0;0;0;0;0;0;0;0];
 [0;0;190;0;0;0;0;0]].

(* lib/converters/hp_roman8.h:94-99 hp_roman8_page02 *)
Definition hp_roman8_page02 : tab := mk [
 [0;0;0;0;0;0;170;0;0;0;0;169;0;0;0;0];
 [0;0;0;0;0;0;0;0;0;0;0;0;172;0;0;0]].

(* lib/converters/hp_roman8.h:51-69 hp_roman8_mbtowc *)
Definition hp_roman8_mbtowc (s : list Z) (n : nat) : res (Z * option Z) :=
  let pwc := (None : option Z) in
  rd s 0%nat (fun c =>
  if (c <? 0xa0) then
   let pwc := Some c in
   Ok (1, pwc)
  else
   tget hp_roman8_2uni (c - 0xa0) (fun wc =>
   if (negb (wc =? 0xfffd)) then
    let pwc := Some wc in
    Ok (1, pwc)
   else
    Ok ((-1), pwc))).

(* lib/converters/hp_roman8.h:101-127 hp_roman8_wctomb *)
Definition hp_roman8_wctomb_j (c : Z) (r : wlog) : res (Z * wlog) :=
  if (negb (c =? 0)) then
   let r := wr r 0%nat c in
   Ok (1, r)
  else
   Ok ((-1), r).
(* lib/converters/hp_roman8.h:101-127 hp_roman8_wctomb *)
Definition hp_roman8_wctomb (wc : Z) (n : nat) : res (Z * wlog) :=
  let r := ([] : wlog) in
  let c := 0 in
  if (wc <? 0xa0) then
   let r := wr r 0%nat wc in
   Ok (1, r)
  else
   if ((wc >=? 0xa0) &&& (wc <? 0x100)) then
    tget hp_roman8_page00 (wc - 0xa0) (fun c =>
    hp_roman8_wctomb_j c r)
   else
    if ((wc >=? 0x160) &&& (wc <? 0x198)) then
     tget hp_roman8_page01 (wc - 0x160) (fun c =>
     hp_roman8_wctomb_j c r)
    else
     if ((wc >=? 0x2c0) &&& (wc <? 0x2e0)) then
      tget hp_roman8_page02 (wc - 0x2c0) (fun c =>
      hp_roman8_wctomb_j c r)
     else
      if (wc =? 0x2014) then
       let c := 0xf6 in
       hp_roman8_wctomb_j c r
      else
       if (wc =? 0x20a4) then
        let c := 0xaf in
        hp_roman8_wctomb_j c r
       else
        if (wc =? 0x25a0) then
         let c := 0xfc in
         hp_roman8_wctomb_j c r
        else
         hp_roman8_wctomb_j c r.

(* lib/converters/iso8859_1.h:30-35 iso8859_1_mbtowc *)
Definition iso8859_1_mbtowc (s : list Z) (n : nat) : res (Z * option Z) :=
  let pwc := (None : option Z) in
  rd s 0%nat (fun c =>
  let pwc := Some c in
  Ok (1, pwc)).

(* lib/converters/iso8859_1.h:37-45 iso8859_1_wctomb *)
Definition iso8859_1_wctomb (wc : Z) (n : nat) : res (Z * wlog) :=
  let r := ([] : wlog) in
  if (wc <? 0x100) then
   let r := wr r 0%nat wc in
   Ok (1, r)
  else
   Ok ((-1), r).

(* lib/converters/iso8859_10.h:30-49 iso8859_10_2uni *)
Definition iso8859_10_2uni : tab := mk [
 [160;260;274;290;298;296;310;167;315;272;352;358;381;173;362;330];
 [176;261;275;291;299;297;311;183;316;273;353;359;382;8213;363;331];
 [256;193;194;195;196;197;198;302;268;201;280;203;278;205;206;207];
 [208;325;332;211;212;213;214;360;216;370;218;219;220;221;222;223];
 [257;225;226;227;228;229;230;303;269;233;281;235;279;237;238;239];
 [240;326;333;243;244;245;246;361;248;371;250;251;252;253;254;312]].

(* lib/converters/iso8859_10.h:61-91 iso8859_10_page00 *)
Definition iso8859_10_page00 : tab := mk [
 [160;0;0;0;0;0;0;167;0;0;0;0;0;173;0;0];
 [176;0;0;0;0;0;0;183;0;0;0;0;0;0;0;0];
 [0;193;194;195;196;197;198;0;0;201;0;203;0;205;206;207];
 [208;0;0;211;212;213;214;0;216;0;218;219;220;221;222;223];
 [0;225;226;227;228;229;230;0;0;233;0;235;0;237;238;239];
 [240;0;0;243;244;245;246;0;248;0;250;251;252;253;254;0];
 [192;224;0;0;161;177;0;0;0;0;0;0;200;232;0;0];
 [169;185;162;178;0;0;204;236;202;234;0;0;0;0;0;0];
 [0;0;163;179;0;0;0;0;165;181;164;180;0;0;199;231];
 [0;0;0;0;0;0;166;182;255;0;0;168;184;0;0;0];
 [0;0;0;0;0;209;241;0;0;0;175;191;210;242;0;0];
 [0;0;0;0;0;0;0;0;0;0;0;0;0;0;0;0];
 [170;186;0;0;0;0;171;187;215;247;174;190;0;0;0;0];
 [0;0;217;249;0;0;0;0;0;0;0;0;0;172;188;0]].

(* lib/converters/iso8859_10.h:51-59 iso8859_10_mbtowc *)
Definition iso8859_10_mbtowc (s : list Z) (n : nat) : res (Z * option Z) :=
  let pwc := (None : option Z) in
  rd s 0%nat (fun c =>
  if (c <? 0xa0) then
   let pwc := Some c in
   Ok (1, pwc)
  else
   tget iso8859_10_2uni (c - 0xa0) (fun x2 =>
   let pwc := Some x2 in
   Ok (1, pwc))).

(* lib/converters/iso8859_10.h:93-111 iso8859_10_wctomb *)
Definition iso8859_10_wctomb_j (c : Z) (r : wlog) : res (Z * wlog) :=
  if (negb (c =? 0)) then
   let r := wr r 0%nat c in
   Ok (1, r)
  else
   Ok ((-1), r).
(* lib/converters/iso8859_10.h:93-111 iso8859_10_wctomb *)
Definition iso8859_10_wctomb (wc : Z) (n : nat) : res (Z * wlog) :=
  let r := ([] : wlog) in
  let c := 0 in
  if (wc <? 0xa0) then
   let r := wr r 0%nat wc in
   Ok (1, r)
  else
   if ((wc >=? 0xa0) &&& (wc <? 0x180)) then
    tget iso8859_10_page00 (wc - 0xa0) (fun c =>
    iso8859_10_wctomb_j c r)
   else
    if (wc =? 0x2015) then
     let c := 0xbd in
     iso8859_10_wctomb_j c r
    else
     iso8859_10_wctomb_j c r.

(* lib/converters/iso8859_11.h:30-44 iso8859_11_mbtowc *)
Definition iso8859_11_mbtowc (s : list Z) (n : nat) : res (Z * option Z) :=
  let pwc := (None : option Z) in
  rd s 0%nat (fun c =>
  if (c <? 0xa1) then
   let pwc := Some c in
   Ok (1, pwc)
  else
   if ((c <=? 0xfb) &&& (negb ((c >=? 0xdb) &&& (c <=? 0xde)))) then
    let pwc := Some (c + 0xd60) in
    Ok (1, pwc)
   else
    Ok ((-1), pwc)).

(* lib/converters/iso8859_11.h:46-59 iso8859_11_wctomb *)
Definition iso8859_11_wctomb (wc : Z) (n : nat) : res (Z * wlog) :=
  let r := ([] : wlog) in
  if (wc <? 0xa1) then
   let r := wr r 0%nat wc in
   Ok (1, r)
  else
   if (((wc >=? 0xe01) &&& (wc <=? 0xe5b)) &&& (negb ((wc >=? 0xe3b) &&& (wc <=? 0xe3e)))) then
    let r := wr r 0%nat (wc - 0xd60) in
    Ok (1, r)
   else
    Ok ((-1), r).

(* lib/converters/iso8859_13.h:30-49 iso8859_13_2uni *)
Definition iso8859_13_2uni : tab := mk [
 [160;8221;162;163;164;8222;166;167;216;169;342;171;172;173;174;198];
 [176;177;178;179;8220;181;182;183;248;185;343;187;188;189;190;230];
 [260;302;256;262;196;197;280;274;268;201;377;278;290;310;298;315];
 [352;323;325;211;332;213;214;215;370;321;346;362;220;379;381;223];
 [261;303;257;263;228;229;281;275;269;233;378;279;291;311;299;316];
 [353;324;326;243;333;245;246;247;371;322;347;363;252;380;382;8217]].

(* lib/converters/iso8859_13.h:61-91 iso8859_13_page00 *)
Definition iso8859_13_page00 : tab := mk [
 [160;0;162;163;164;0;166;167;0;169;0;171;172;173;174;0];
 [176;177;178;179;0;181;182;183;0;185;0;187;188;189;190;0];
 [0;0;0;0;196;197;175;0;0;201;0;0;0;0;0;0];
 [0;0;0;211;0;213;214;215;168;0;0;0;220;0;0;223];
 [0;0;0;0;228;229;191;0;0;233;0;0;0;0;0;0];
 [0;0;0;243;0;245;246;247;184;0;0;0;252;0;0;0];
 [194;226;0;0;192;224;195;227;0;0;0;0;200;232;0;0];
 [0;0;199;231;0;0;203;235;198;230;0;0;0;0;0;0];
 [0;0;204;236;0;0;0;0;0;0;206;238;0;0;193;225];
 [0;0;0;0;0;0;205;237;0;0;0;207;239;0;0;0];
 [0;217;249;209;241;210;242;0;0;0;0;0;212;244;0;0];
 [0;0;0;0;0;0;170;186;0;0;218;250;0;0;0;0];
 [208;240;0;0;0;0;0;0;0;0;219;251;0;0;0;0];
 [0;0;216;248;0;0;0;0;0;202;234;221;253;222;254;0]].

(* lib/converters/iso8859_13.h:92-94 iso8859_13_page20 *)
Definition iso8859_13_page20 : tab := mk [
 [0;255;0;0;180;161;165;0]].

(* lib/converters/iso8859_13.h:51-59 iso8859_13_mbtowc *)
Definition iso8859_13_mbtowc (s : list Z) (n : nat) : res (Z * option Z) :=
  let pwc := (None : option Z) in
  rd s 0%nat (fun c =>
  if (c <? 0xa0) then
   let pwc := Some c in
   Ok (1, pwc)
  else
   tget iso8859_13_2uni (c - 0xa0) (fun x2 =>
   let pwc := Some x2 in
   Ok (1, pwc))).

(* lib/converters/iso8859_13.h:96-114 iso8859_13_wctomb *)
Definition iso8859_13_wctomb_j (c : Z) (r : wlog) : res (Z * wlog) :=
  if (negb (c =? 0)) then
   let r := wr r 0%nat c in
   Ok (1, r)
  else
   Ok ((-1), r).
(* lib/converters/iso8859_13.h:96-114 iso8859_13_wctomb *)
Definition iso8859_13_wctomb (wc : Z) (n : nat) : res (Z * wlog) :=
  let r := ([] : wlog) in
  let c := 0 in
  if (wc <? 0xa0) then
   let r := wr r 0%nat wc in
   Ok (1, r)
  else
   if ((wc >=? 0xa0) &&& (wc <? 0x180)) then
    tget iso8859_13_page00 (wc - 0xa0) (fun c =>
    iso8859_13_wctomb_j c r)
   else
    if ((wc >=? 0x2018) &&& (wc <? 0x2020)) then
     tget iso8859_13_page20 (wc - 0x2018) (fun c =>
     iso8859_13_wctomb_j c r)
    else
     iso8859_13_wctomb_j c r.

(* lib/converters/iso8859_14.h:30-49 iso8859_14_2uni *)
Definition iso8859_14_2uni : tab := mk [
 [160;7682;7683;163;266;267;7690;167;7808;169;7810;7691;7922;173;174;376];
 [7710;7711;288;289;7744;7745;182;7766;7809;7767;7811;7776;7923;7812;7813;7777];
 [192;193;194;195;196;197;198;199;200;201;202;203;204;205;206;207];
 [372;209;210;211;212;213;214;7786;216;217;218;219;220;221;374;223];
 [224;225;226;227;228;229;230;231;232;233;234;235;236;237;238;239];
 [373;241;242;243;244;245;246;7787;248;249;250;251;252;253;375;255]].

(* lib/converters/iso8859_14.h:61-74 iso8859_14_page00 *)
Definition iso8859_14_page00 : tab := mk [
 [160;0;0;163;0;0;0;167;0;169;0;0;0;173;174;0];
 [0;0;0;0;0;0;182;0;0;0;0;0;0;0;0;0];
 [192;193;194;195;196;197;198;199;200;201;202;203;204;205;206;207];
 [0;209;210;211;212;213;214;0;216;217;218;219;220;221;0;223];
 [224;225;226;227;228;229;230;231;232;233;234;235;236;237;238;239];
 [0;241;242;243;244;245;246;0;248;249;250;251;252;253;0;255]].

(* lib/converters/iso8859_14.h:75-80 iso8859_14_page01_0 *)
Definition iso8859_14_page01_0 : tab := mk [
 [0;0;164;165;0;0;0;0;0;0;0;0;0;0;0;0];
 [0;0;0;0;0;0;0;0;178;179;0;0;0;0;0;0]].

(* lib/converters/iso8859_14.h:81-84 iso8859_14_page01_1 *)
Definition iso8859_14_page01_1 : tab := mk [
 [0;0;0;0;208;240;222;254;175;0;0;0;0;0;0;0]].

(* lib/converters/iso8859_14.h:85-103 iso8859_14_page1e_0 *)
Definition iso8859_14_page1e_0 : tab := mk [
 [0;0;161;162;0;0;0;0;0;0;166;171;0;0;0;0];
 [0;0;0;0;0;0;0;0;0;0;0;0;0;0;176;177];
 [0;0;0;0;0;0;0;0;0;0;0;0;0;0;0;0];
 [0;0;0;0;0;0;0;0;0;0;0;0;0;0;0;0];
 [180;181;0;0;0;0;0;0;0;0;0;0;0;0;0;0];
 [0;0;0;0;0;0;183;185;0;0;0;0;0;0;0;0];
 [187;191;0;0;0;0;0;0;0;0;215;247;0;0;0;0];
 [0;0;0;0;0;0;0;0;0;0;0;0;0;0;0;0];
 [168;184;170;186;189;190;0;0]].

(* lib/converters/iso8859_14.h:104-106 iso8859_14_page1e_1 *)
Definition iso8859_14_page1e_1 : tab := mk [
 [0;0;172;188;0;0;0;0]].

(* lib/converters/iso8859_14.h:51-59 iso8859_14_mbtowc *)
Definition iso8859_14_mbtowc (s : list Z) (n : nat) : res (Z * option Z) :=
  let pwc := (None : option Z) in
  rd s 0%nat (fun c =>
  if (c >=? 0xa0) then
   tget iso8859_14_2uni (c - 0xa0) (fun x2 =>
   let pwc := Some x2 in
   Ok (1, pwc))
  else
   let pwc := Some c in
   Ok (1, pwc)).

(* lib/converters/iso8859_14.h:108-132 iso8859_14_wctomb *)
Definition iso8859_14_wctomb_j (c : Z) (r : wlog) : res (Z * wlog) :=
  if (negb (c =? 0)) then
   let r := wr r 0%nat c in
   Ok (1, r)
  else
   Ok ((-1), r).
(* lib/converters/iso8859_14.h:108-132 iso8859_14_wctomb *)
Definition iso8859_14_wctomb (wc : Z) (n : nat) : res (Z * wlog) :=
  let r := ([] : wlog) in
  let c := 0 in
  if (wc <? 0xa0) then
   let r := wr r 0%nat wc in
   Ok (1, r)
  else
   if ((wc >=? 0xa0) &&& (wc <? 0x100)) then
    tget iso8859_14_page00 (wc - 0xa0) (fun c =>
    iso8859_14_wctomb_j c r)
   else
    if ((wc >=? 0x108) &&& (wc <? 0x128)) then
     tget iso8859_14_page01_0 (wc - 0x108) (fun c =>
     iso8859_14_wctomb_j c r)
    else
     if ((wc >=? 0x170) &&& (wc <? 0x180)) then
      tget iso8859_14_page01_1 (wc - 0x170) (fun c =>
      iso8859_14_wctomb_j c r)
     else
      if ((wc >=? 0x1e00) &&& (wc <? 0x1e88)) then
       tget iso8859_14_page1e_0 (wc - 0x1e00) (fun c =>
       iso8859_14_wctomb_j c r)
      else
       if ((wc >=? 0x1ef0) &&& (wc <? 0x1ef8)) then
        tget iso8859_14_page1e_1 (wc - 0x1ef0) (fun c =>
        iso8859_14_wctomb_j c r)
       else
        iso8859_14_wctomb_j c r.

(* lib/converters/iso8859_15.h:30-37 iso8859_15_2uni *)
Definition iso8859_15_2uni : tab := mk [
 [160;161;162;163;8364;165;352;167;353;169;170;171;172;173;174;175];
 [176;177;178;179;381;181;182;183;382;185;186;187;338;339;376;191]].

(* lib/converters/iso8859_15.h:49-54 iso8859_15_page00 *)
Definition iso8859_15_page00 : tab := mk [
 [160;161;162;163;0;165;0;167;0;169;170;171;172;173;174;175];
 [176;177;178;179;0;181;182;183;0;185;186;187;0;0;0;191]].

(* lib/converters/iso8859_15.h:55-62 iso8859_15_page01 *)
Definition iso8859_15_page01 : tab := mk [
 [0;0;188;189;0;0;0;0;0;0;0;0;0;0;0;0];
 [166;168;0;0;0;0;0;0;0;0;0;0;0;0;0;0];
 [0;0;0;0;0;0;0;0;190;0;0;0;0;180;184;0]].

(* lib/converters/iso8859_15.h:39-47 iso8859_15_mbtowc *)
Definition iso8859_15_mbtowc (s : list Z) (n : nat) : res (Z * option Z) :=
  let pwc := (None : option Z) in
  rd s 0%nat (fun c =>
  if ((c >=? 0xa0) &&& (c <? 0xc0)) then
   tget iso8859_15_2uni (c - 0xa0) (fun x2 =>
   let pwc := Some x2 in
   Ok (1, pwc))
  else
   let pwc := Some c in
   Ok (1, pwc)).

(* lib/converters/iso8859_15.h:64-86 iso8859_15_wctomb *)
Definition iso8859_15_wctomb_j (c : Z) (r : wlog) : res (Z * wlog) :=
  if (negb (c =? 0)) then
   let r := wr r 0%nat c in
   Ok (1, r)
  else
   Ok ((-1), r).
(* lib/converters/iso8859_15.h:64-86 iso8859_15_wctomb *)
Definition iso8859_15_wctomb (wc : Z) (n : nat) : res (Z * wlog) :=
  let r := ([] : wlog) in
  let c := 0 in
  if (wc <? 0xa0) then
   let r := wr r 0%nat wc in
   Ok (1, r)
  else
   if ((wc >=? 0xa0) &&& (wc <? 0xc0)) then
    tget iso8859_15_page00 (wc - 0xa0) (fun c =>
    iso8859_15_wctomb_j c r)
   else
    if ((wc >=? 0xc0) &&& (wc <? 0x100)) then
     let c := wc in
     iso8859_15_wctomb_j c r
    else
     if ((wc >=? 0x150) &&& (wc <? 0x180)) then
      tget iso8859_15_page01 (wc - 0x150) (fun c =>
      iso8859_15_wctomb_j c r)
     else
      if (wc =? 0x20ac) then
       let c := 0xa4 in
       iso8859_15_wctomb_j c r
      else
       iso8859_15_wctomb_j c r.

(* lib/converters/iso8859_16.h:30-49 iso8859_16_2uni *)
Definition iso8859_16_2uni : tab := mk [
 [160;260;261;321;8364;8222;352;167;353;169;536;171;377;173;378;379];
 [176;177;268;322;381;8221;182;183;382;269;537;187;338;339;376;380];
 [192;193;194;258;196;262;198;199;200;201;202;203;204;205;206;207];
 [272;323;210;211;212;336;214;346;368;217;218;219;220;280;538;223];
 [224;225;226;259;228;263;230;231;232;233;234;235;236;237;238;239];
 [273;324;242;243;244;337;246;347;369;249;250;251;252;281;539;255]].

(* lib/converters/iso8859_16.h:61-91 iso8859_16_page00 *)
Definition iso8859_16_page00 : tab := mk [
 [160;0;0;0;0;0;0;167;0;169;0;171;0;173;0;0];
 [176;177;0;0;0;0;182;183;0;0;0;187;0;0;0;0];
 [192;193;194;0;196;0;198;199;200;201;202;203;204;205;206;207];
 [0;0;210;211;212;0;214;0;0;217;218;219;220;0;0;223];
 [224;225;226;0;228;0;230;231;232;233;234;235;236;237;238;239];
 [0;0;242;243;244;0;246;0;0;249;250;251;252;0;0;255];
 [0;0;195;227;161;162;197;229;0;0;0;0;178;185;0;0];
 [208;240;0;0;0;0;0;0;221;253;0;0;0;0;0;0];
 [0;0;0;0;0;0;0;0;0;0;0;0;0;0;0;0];
 [0;0;0;0;0;0;0;0;0;0;0;0;0;0;0;0];
 [0;163;179;209;241;0;0;0;0;0;0;0;0;0;0;0];
 [213;245;188;189;0;0;0;0;0;0;215;247;0;0;0;0];
 [166;168;0;0;0;0;0;0;0;0;0;0;0;0;0;0];
 [216;248;0;0;0;0;0;0;190;172;174;175;191;180;184;0]].

(* lib/converters/iso8859_16.h:92-94 iso8859_16_page02 *)
Definition iso8859_16_page02 : tab := mk [
 [170;186;222;254;0;0;0;0]].

(* lib/converters/iso8859_16.h:95-97 iso8859_16_page20 *)
Definition iso8859_16_page20 : tab := mk [
 [0;0;0;0;0;181;165;0]].

(* lib/converters/iso8859_16.h:51-59 iso8859_16_mbtowc *)
Definition iso8859_16_mbtowc (s : list Z) (n : nat) : res (Z * option Z) :=
  let pwc := (None : option Z) in
  rd s 0%nat (fun c =>
  if (c <? 0xa0) then
   let pwc := Some c in
   Ok (1, pwc)
  else
   tget iso8859_16_2uni (c - 0xa0) (fun x2 =>
   let pwc := Some x2 in
   Ok (1, pwc))).

(* lib/converters/iso8859_16.h:99-121 iso8859_16_wctomb *)
Definition iso8859_16_wctomb_j (c : Z) (r : wlog) : res (Z * wlog) :=
  if (negb (c =? 0)) then
   let r := wr r 0%nat c in
   Ok (1, r)
  else
   Ok ((-1), r).
(* lib/converters/iso8859_16.h:99-121 iso8859_16_wctomb *)
Definition iso8859_16_wctomb (wc : Z) (n : nat) : res (Z * wlog) :=
  let r := ([] : wlog) in
  let c := 0 in
  if (wc <? 0xa0) then
   let r := wr r 0%nat wc in
   Ok (1, r)
  else
   if ((wc >=? 0xa0) &&& (wc <? 0x180)) then
    tget iso8859_16_page00 (wc - 0xa0) (fun c =>
    iso8859_16_wctomb_j c r)
   else
    if ((wc >=? 0x218) &&& (wc <? 0x220)) then
     tget iso8859_16_page02 (wc - 0x218) (fun c =>
     iso8859_16_wctomb_j c r)
    else
     if ((wc >=? 0x2018) &&& (wc <? 0x2020)) then
      tget iso8859_16_page20 (wc - 0x2018) (fun c =>
      iso8859_16_wctomb_j c r)
     else
      if (wc =? 0x20ac) then
       let c := 0xa4 in
       iso8859_16_wctomb_j c r
      else
       iso8859_16_wctomb_j c r.

(* lib/converters/iso8859_2.h:30-49 iso8859_2_2uni *)
Definition iso8859_2_2uni : tab := mk [
 [160;260;728;321;164;317;346;167;168;352;350;356;377;173;381;379];
 [176;261;731;322;180;318;347;711;184;353;351;357;378;733;382;380];
 [340;193;194;258;196;313;262;199;268;201;280;203;282;205;206;270];
 [272;323;327;211;212;336;214;215;344;366;218;368;220;221;354;223];
 [341;225;226;259;228;314;263;231;269;233;281;235;283;237;238;271];
 [273;324;328;243;244;337;246;247;345;367;250;369;252;253;355;729]].

(* lib/converters/iso8859_2.h:61-91 iso8859_2_page00 *)
Definition iso8859_2_page00 : tab := mk [
 [160;0;0;0;164;0;0;167;168;0;0;0;0;173;0;0];
 [176;0;0;0;180;0;0;0;184;0;0;0;0;0;0;0];
 [0;193;194;0;196;0;0;199;0;201;0;203;0;205;206;0];
 [0;0;0;211;212;0;214;215;0;0;218;0;220;221;0;223];
 [0;225;226;0;228;0;0;231;0;233;0;235;0;237;238;0];
 [0;0;0;243;244;0;246;247;0;0;250;0;252;253;0;0];
 [0;0;195;227;161;177;198;230;0;0;0;0;200;232;207;239];
 [208;240;0;0;0;0;0;0;202;234;204;236;0;0;0;0];
 [0;0;0;0;0;0;0;0;0;0;0;0;0;0;0;0];
 [0;0;0;0;0;0;0;0;0;197;229;0;0;165;181;0];
 [0;163;179;209;241;0;0;210;242;0;0;0;0;0;0;0];
 [213;245;0;0;192;224;0;0;216;248;166;182;0;0;170;186];
 [169;185;222;254;171;187;0;0;0;0;0;0;0;0;217;249];
 [219;251;0;0;0;0;0;0;0;172;188;175;191;174;190;0]].

(* lib/converters/iso8859_2.h:92-97 iso8859_2_page02 *)
Definition iso8859_2_page02 : tab := mk [
 [0;0;0;0;0;0;0;183;0;0;0;0;0;0;0;0];
 [0;0;0;0;0;0;0;0;162;255;0;178;0;189;0;0]].

(* lib/converters/iso8859_2.h:51-59 iso8859_2_mbtowc *)
Definition iso8859_2_mbtowc (s : list Z) (n : nat) : res (Z * option Z) :=
  let pwc := (None : option Z) in
  rd s 0%nat (fun c =>
  if (c <? 0xa0) then
   let pwc := Some c in
   Ok (1, pwc)
  else
   tget iso8859_2_2uni (c - 0xa0) (fun x2 =>
   let pwc := Some x2 in
   Ok (1, pwc))).

(* lib/converters/iso8859_2.h:99-117 iso8859_2_wctomb *)
Definition iso8859_2_wctomb_j (c : Z) (r : wlog) : res (Z * wlog) :=
  if (negb (c =? 0)) then
   let r := wr r 0%nat c in
   Ok (1, r)
  else
   Ok ((-1), r).
(* lib/converters/iso8859_2.h:99-117 iso8859_2_wctomb *)
Definition iso8859_2_wctomb (wc : Z) (n : nat) : res (Z * wlog) :=
  let r := ([] : wlog) in
  let c := 0 in
  if (wc <? 0xa0) then
   let r := wr r 0%nat wc in
   Ok (1, r)
  else
   if ((wc >=? 0xa0) &&& (wc <? 0x180)) then
    tget iso8859_2_page00 (wc - 0xa0) (fun c =>
    iso8859_2_wctomb_j c r)
   else
    if ((wc >=? 0x2c0) &&& (wc <? 0x2e0)) then
     tget iso8859_2_page02 (wc - 0x2c0) (fun c =>
     iso8859_2_wctomb_j c r)
    else
     iso8859_2_wctomb_j c r.

(* lib/converters/iso8859_3.h:30-49 iso8859_3_2uni *)
Definition iso8859_3_2uni : tab := mk [
 [160;294;728;163;164;65533;292;167;168;304;350;286;308;173;65533;379];
 [176;295;178;179;180;181;293;183;184;305;351;287;309;189;65533;380];
 [192;193;194;65533;196;266;264;199;200;201;202;203;204;205;206;207];
 [65533;209;210;211;212;288;214;215;284;217;218;219;220;364;348;223];
 [224;225;226;65533;228;267;265;231;232;233;234;235;236;237;238;239];
 [65533;241;242;243;244;289;246;247;285;249;250;251;252;365;349;729]].

(* lib/converters/iso8859_3.h:71-84 iso8859_3_page00 *)
Definition iso8859_3_page00 : tab := mk [
 [160;0;0;163;164;0;0;167;168;0;0;0;0;173;0;0];
 [176;0;178;179;180;181;0;183;184;0;0;0;0;189;0;0];
 [192;193;194;0;196;0;0;199;200;201;202;203;204;205;206;207];
 [0;209;210;211;212;0;214;215;0;217;218;219;220;0;0;223];
 [224;225;226;0;228;0;0;231;232;233;234;235;236;237;238;239];
 [0;241;242;243;244;0;246;247;0;249;250;251;252;0;0;0]].

(* lib/converters/iso8859_3.h:85-101 iso8859_3_page01 *)
Definition iso8859_3_page01 : tab := mk [
 [198;230;197;229;0;0;0;0;0;0;0;0;0;0;0;0];
 [0;0;0;0;216;248;171;187;213;245;0;0;166;182;161;177];
 [0;0;0;0;0;0;0;0;169;185;0;0;172;188;0;0];
 [0;0;0;0;0;0;0;0;0;0;0;0;0;0;0;0];
 [0;0;0;0;0;0;0;0;0;0;0;0;0;0;0;0];
 [0;0;0;0;222;254;170;186;0;0;0;0;0;0;0;0];
 [0;0;0;0;221;253;0;0;0;0;0;0;0;0;0;0];
 [0;0;0;175;191;0;0;0]].

(* lib/converters/iso8859_3.h:102-104 iso8859_3_page02 *)
Definition iso8859_3_page02 : tab := mk [
 [162;255;0;0;0;0;0;0]].

(* lib/converters/iso8859_3.h:51-69 iso8859_3_mbtowc *)
Definition iso8859_3_mbtowc (s : list Z) (n : nat) : res (Z * option Z) :=
  let pwc := (None : option Z) in
  rd s 0%nat (fun c =>
  if (c <? 0xa0) then
   let pwc := Some c in
   Ok (1, pwc)
  else
   tget iso8859_3_2uni (c - 0xa0) (fun wc =>
   if (negb (wc =? 0xfffd)) then
    let pwc := Some wc in
    Ok (1, pwc)
   else
    Ok ((-1), pwc))).

(* lib/converters/iso8859_3.h:106-126 iso8859_3_wctomb *)
Definition iso8859_3_wctomb_j (c : Z) (r : wlog) : res (Z * wlog) :=
  if (negb (c =? 0)) then
   let r := wr r 0%nat c in
   Ok (1, r)
  else
   Ok ((-1), r).
(* lib/converters/iso8859_3.h:106-126 iso8859_3_wctomb *)
Definition iso8859_3_wctomb (wc : Z) (n : nat) : res (Z * wlog) :=
  let r := ([] : wlog) in
  let c := 0 in
  if (wc <? 0xa0) then
   let r := wr r 0%nat wc in
   Ok (1, r)
  else
   if ((wc >=? 0xa0) &&& (wc <? 0x100)) then
    tget iso8859_3_page00 (wc - 0xa0) (fun c =>
    iso8859_3_wctomb_j c r)
   else
    if ((wc >=? 0x108) &&& (wc <? 0x180)) then
     tget iso8859_3_page01 (wc - 0x108) (fun c =>
     iso8859_3_wctomb_j c r)
    else
     if ((wc >=? 0x2d8) &&& (wc <? 0x2e0)) then
      tget iso8859_3_page02 (wc - 0x2d8) (fun c =>
      iso8859_3_wctomb_j c r)
     else
      iso8859_3_wctomb_j c r.

(* lib/converters/iso8859_4.h:30-49 iso8859_4_2uni *)
Definition iso8859_4_2uni : tab := mk [
 [160;260;312;342;164;296;315;167;168;352;274;290;358;173;381;175];
 [176;261;731;343;180;297;316;711;184;353;275;291;359;330;382;331];
 [256;193;194;195;196;197;198;302;268;201;280;203;278;205;206;298];
 [272;325;332;310;212;213;214;215;216;370;218;219;220;360;362;223];
 [257;225;226;227;228;229;230;303;269;233;281;235;279;237;238;299];
 [273;326;333;311;244;245;246;247;248;371;250;251;252;361;363;729]].

(* lib/converters/iso8859_4.h:61-91 iso8859_4_page00 *)
Definition iso8859_4_page00 : tab := mk [
 [160;0;0;0;164;0;0;167;168;0;0;0;0;173;0;175];
 [176;0;0;0;180;0;0;0;184;0;0;0;0;0;0;0];
 [0;193;194;195;196;197;198;0;0;201;0;203;0;205;206;0];
 [0;0;0;0;212;213;214;215;216;0;218;219;220;0;0;223];
 [0;225;226;227;228;229;230;0;0;233;0;235;0;237;238;0];
 [0;0;0;0;244;245;246;247;248;0;250;251;252;0;0;0];
 [192;224;0;0;161;177;0;0;0;0;0;0;200;232;0;0];
 [208;240;170;186;0;0;204;236;202;234;0;0;0;0;0;0];
 [0;0;171;187;0;0;0;0;165;181;207;239;0;0;199;231];
 [0;0;0;0;0;0;211;243;162;0;0;166;182;0;0;0];
 [0;0;0;0;0;209;241;0;0;0;189;191;210;242;0;0];
 [0;0;0;0;0;0;163;179;0;0;0;0;0;0;0;0];
 [169;185;0;0;0;0;172;188;221;253;222;254;0;0;0;0];
 [0;0;217;249;0;0;0;0;0;0;0;0;0;174;190;0]].

(* lib/converters/iso8859_4.h:92-97 iso8859_4_page02 *)
Definition iso8859_4_page02 : tab := mk [
 [0;0;0;0;0;0;0;183;0;0;0;0;0;0;0;0];
 [0;0;0;0;0;0;0;0;0;255;0;178;0;0;0;0]].

(* lib/converters/iso8859_4.h:51-59 iso8859_4_mbtowc *)
Definition iso8859_4_mbtowc (s : list Z) (n : nat) : res (Z * option Z) :=
  let pwc := (None : option Z) in
  rd s 0%nat (fun c =>
  if (c <? 0xa0) then
   let pwc := Some c in
   Ok (1, pwc)
  else
   tget iso8859_4_2uni (c - 0xa0) (fun x2 =>
   let pwc := Some x2 in
   Ok (1, pwc))).

(* lib/converters/iso8859_4.h:99-117 iso8859_4_wctomb *)
Definition iso8859_4_wctomb_j (c : Z) (r : wlog) : res (Z * wlog) :=
  if (negb (c =? 0)) then
   let r := wr r 0%nat c in
   Ok (1, r)
  else
   Ok ((-1), r).
(* lib/converters/iso8859_4.h:99-117 iso8859_4_wctomb *)
Definition iso8859_4_wctomb (wc : Z) (n : nat) : res (Z * wlog) :=
  let r := ([] : wlog) in
  let c := 0 in
  if (wc <? 0xa0) then
   let r := wr r 0%nat wc in
   Ok (1, r)
  else
   if ((wc >=? 0xa0) &&& (wc <? 0x180)) then
    tget iso8859_4_page00 (wc - 0xa0) (fun c =>
    iso8859_4_wctomb_j c r)
   else
    if ((wc >=? 0x2c0) &&& (wc <? 0x2e0)) then
     tget iso8859_4_page02 (wc - 0x2c0) (fun c =>
     iso8859_4_wctomb_j c r)
    else
     iso8859_4_wctomb_j c r.

(* lib/converters/iso8859_5.h:30-49 iso8859_5_2uni *)
Definition iso8859_5_2uni : tab := mk [
 [160;1025;1026;1027;1028;1029;1030;1031;1032;1033;1034;1035;1036;173;1038;1039];
 [1040;1041;1042;1043;1044;1045;1046;1047;1048;1049;1050;1051;1052;1053;1054;1055];
 [1056;1057;1058;1059;1060;1061;1062;1063;1064;1065;1066;1067;1068;1069;1070;1071];
 [1072;1073;1074;1075;1076;1077;1078;1079;1080;1081;1082;1083;1084;1085;1086;1087];
 [1088;1089;1090;1091;1092;1093;1094;1095;1096;1097;1098;1099;1100;1101;1102;1103];
 [8470;1105;1106;1107;1108;1109;1110;1111;1112;1113;1114;1115;1116;167;1118;1119]].

(* lib/converters/iso8859_5.h:61-64 iso8859_5_page00 *)
Definition iso8859_5_page00 : tab := mk [
 [160;0;0;0;0;0;0;253;0;0;0;0;0;173;0;0]].

(* lib/converters/iso8859_5.h:65-78 iso8859_5_page04 *)
Definition iso8859_5_page04 : tab := mk [
 [0;161;162;163;164;165;166;167;168;169;170;171;172;0;174;175];
 [176;177;178;179;180;181;182;183;184;185;186;187;188;189;190;191];
 [192;193;194;195;196;197;198;199;200;201;202;203;204;205;206;207];
 [208;209;210;211;212;213;214;215;216;217;218;219;220;221;222;223];
 [224;225;226;227;228;229;230;231;232;233;234;235;236;237;238;239];
 [0;241;242;243;244;245;246;247;248;249;250;251;252;0;254;255]].

(* lib/converters/iso8859_5.h:51-59 iso8859_5_mbtowc *)
Definition iso8859_5_mbtowc (s : list Z) (n : nat) : res (Z * option Z) :=
  let pwc := (None : option Z) in
  rd s 0%nat (fun c =>
  if (c <? 0xa0) then
   let pwc := Some c in
   Ok (1, pwc)
  else
   tget iso8859_5_2uni (c - 0xa0) (fun x2 =>
   let pwc := Some x2 in
   Ok (1, pwc))).

(* lib/converters/iso8859_5.h:80-100 iso8859_5_wctomb *)
Definition iso8859_5_wctomb_j (c : Z) (r : wlog) : res (Z * wlog) :=
  if (negb (c =? 0)) then
   let r := wr r 0%nat c in
   Ok (1, r)
  else
   Ok ((-1), r).
(* lib/converters/iso8859_5.h:80-100 iso8859_5_wctomb *)
Definition iso8859_5_wctomb (wc : Z) (n : nat) : res (Z * wlog) :=
  let r := ([] : wlog) in
  let c := 0 in
  if (wc <? 0xa0) then
   let r := wr r 0%nat wc in
   Ok (1, r)
  else
   if ((wc >=? 0xa0) &&& (wc <? 0xb0)) then
    tget iso8859_5_page00 (wc - 0xa0) (fun c =>
    iso8859_5_wctomb_j c r)
   else
    if ((wc >=? 0x400) &&& (wc <? 0x460)) then
     tget iso8859_5_page04 (wc - 0x400) (fun c =>
     iso8859_5_wctomb_j c r)
    else
     if (wc =? 0x2116) then
      let c := 0xf0 in
      iso8859_5_wctomb_j c r
     else
      iso8859_5_wctomb_j c r.

(* lib/converters/iso8859_6.h:30-49 iso8859_6_2uni *)
Definition iso8859_6_2uni : tab := mk [
 [160;65533;65533;65533;164;65533;65533;65533;65533;65533;65533;65533;1548;173;65533;65533];
 [65533;65533;65533;65533;65533;65533;65533;65533;65533;65533;65533;1563;65533;65533;65533;1567];
 [65533;1569;1570;1571;1572;1573;1574;1575;1576;1577;1578;1579;1580;1581;1582;1583];
 [1584;1585;1586;1587;1588;1589;1590;1591;1592;1593;1594;65533;65533;65533;65533;65533];
 [1600;1601;1602;1603;1604;1605;1606;1607;1608;1609;1610;1611;1612;1613;1614;1615];
 [1616;1617;1618;65533;65533;65533;65533;65533;65533;65533;65533;65533;65533;65533;65533;65533]].

(* lib/converters/iso8859_6.h:71-74 iso8859_6_page00 *)
Definition iso8859_6_page00 : tab := mk [
 [160;0;0;0;164;0;0;0;0;0;0;0;0;173;0;0]].

(* lib/converters/iso8859_6.h:75-86 iso8859_6_page06 *)
Definition iso8859_6_page06 : tab := mk [
 [0;0;0;0;172;0;0;0;0;0;0;0;0;0;0;0];
 [0;0;0;187;0;0;0;191;0;193;194;195;196;197;198;199];
 [200;201;202;203;204;205;206;207;208;209;210;211;212;213;214;215];
 [216;217;218;0;0;0;0;0;224;225;226;227;228;229;230;231];
 [232;233;234;235;236;237;238;239;240;241;242;0;0;0;0;0]].

(* lib/converters/iso8859_6.h:51-69 iso8859_6_mbtowc *)
Definition iso8859_6_mbtowc (s : list Z) (n : nat) : res (Z * option Z) :=
  let pwc := (None : option Z) in
  rd s 0%nat (fun c =>
  if (c <? 0xa0) then
   let pwc := Some c in
   Ok (1, pwc)
  else
   tget iso8859_6_2uni (c - 0xa0) (fun wc =>
   if (negb (wc =? 0xfffd)) then
    let pwc := Some wc in
    Ok (1, pwc)
   else
    Ok ((-1), pwc))).

(* lib/converters/iso8859_6.h:88-106 iso8859_6_wctomb *)
Definition iso8859_6_wctomb_j (c : Z) (r : wlog) : res (Z * wlog) :=
  if (negb (c =? 0)) then
   let r := wr r 0%nat c in
   Ok (1, r)
  else
   Ok ((-1), r).
(* lib/converters/iso8859_6.h:88-106 iso8859_6_wctomb *)
Definition iso8859_6_wctomb (wc : Z) (n : nat) : res (Z * wlog) :=
  let r := ([] : wlog) in
  let c := 0 in
  if (wc <? 0xa0) then
   let r := wr r 0%nat wc in
   Ok (1, r)
  else
   if ((wc >=? 0xa0) &&& (wc <? 0xb0)) then
    tget iso8859_6_page00 (wc - 0xa0) (fun c =>
    iso8859_6_wctomb_j c r)
   else
    if ((wc >=? 0x608) &&& (wc <? 0x658)) then
     tget iso8859_6_page06 (wc - 0x608) (fun c =>
     iso8859_6_wctomb_j c r)
    else
     iso8859_6_wctomb_j c r.

(* lib/converters/iso8859_7.h:30-49 iso8859_7_2uni *)
Definition iso8859_7_2uni : tab := mk [
 [160;8216;8217;163;8364;8367;166;167;168;169;890;171;172;173;65533;8213];
 [176;177;178;179;900;901;902;183;904;905;906;187;908;189;910;911];
 [912;913;914;915;916;917;918;919;920;921;922;923;924;925;926;927];
 [928;929;65533;931;932;933;934;935;936;937;938;939;940;941;942;943];
 [944;945;946;947;948;949;950;951;952;953;954;955;956;957;958;959];
 [960;961;962;963;964;965;966;967;968;969;970;971;972;973;974;65533]].

(* lib/converters/iso8859_7.h:71-76 iso8859_7_page00 *)
Definition iso8859_7_page00 : tab := mk [
 [160;0;0;163;0;0;166;167;168;169;0;171;172;173;0;0];
 [176;177;178;179;0;0;0;183;0;0;0;187;0;189;0;0]].

(* lib/converters/iso8859_7.h:77-89 iso8859_7_page03 *)
Definition iso8859_7_page03 : tab := mk [
 [0;0;170;0;0;0;0;0;0;0;0;0;180;181;182;0];
 [184;185;186;0;188;0;190;191;192;193;194;195;196;197;198;199];
 [200;201;202;203;204;205;206;207;208;209;0;211;212;213;214;215];
 [216;217;218;219;220;221;222;223;224;225;226;227;228;229;230;231];
 [232;233;234;235;236;237;238;239;240;241;242;243;244;245;246;247];
 [248;249;250;251;252;253;254;0]].

(* lib/converters/iso8859_7.h:90-93 iso8859_7_page20 *)
Definition iso8859_7_page20 : tab := mk [
 [0;0;0;0;0;175;0;0;161;162;0;0;0;0;0;0]].

(* lib/converters/iso8859_7.h:51-69 iso8859_7_mbtowc *)
Definition iso8859_7_mbtowc (s : list Z) (n : nat) : res (Z * option Z) :=
  let pwc := (None : option Z) in
  rd s 0%nat (fun c =>
  if (c <? 0xa0) then
   let pwc := Some c in
   Ok (1, pwc)
  else
   tget iso8859_7_2uni (c - 0xa0) (fun wc =>
   if (negb (wc =? 0xfffd)) then
    let pwc := Some wc in
    Ok (1, pwc)
   else
    Ok ((-1), pwc))).

(* lib/converters/iso8859_7.h:95-119 iso8859_7_wctomb *)
Definition iso8859_7_wctomb_j (c : Z) (r : wlog) : res (Z * wlog) :=
  if (negb (c =? 0)) then
   let r := wr r 0%nat c in
   Ok (1, r)
  else
   Ok ((-1), r).
(* lib/converters/iso8859_7.h:95-119 iso8859_7_wctomb *)
Definition iso8859_7_wctomb (wc : Z) (n : nat) : res (Z * wlog) :=
  let r := ([] : wlog) in
  let c := 0 in
  if (wc <? 0xa0) then
   let r := wr r 0%nat wc in
   Ok (1, r)
  else
   if ((wc >=? 0xa0) &&& (wc <? 0xc0)) then
    tget iso8859_7_page00 (wc - 0xa0) (fun c =>
    iso8859_7_wctomb_j c r)
   else
    if ((wc >=? 0x378) &&& (wc <? 0x3d0)) then
     tget iso8859_7_page03 (wc - 0x378) (fun c =>
     iso8859_7_wctomb_j c r)
    else
     if ((wc >=? 0x2010) &&& (wc <? 0x2020)) then
      tget iso8859_7_page20 (wc - 0x2010) (fun c =>
      iso8859_7_wctomb_j c r)
     else
      if (wc =? 0x20ac) then
       let c := 0xa4 in
       iso8859_7_wctomb_j c r
      else
       if (wc =? 0x20af) then
        let c := 0xa5 in
        iso8859_7_wctomb_j c r
       else
        iso8859_7_wctomb_j c r.

(* lib/converters/iso8859_8.h:30-49 iso8859_8_2uni *)
Definition iso8859_8_2uni : tab := mk [
 [160;65533;162;163;164;165;166;167;168;169;215;171;172;173;174;175];
 [176;177;178;179;180;181;182;183;184;185;247;187;188;189;190;65533];
 [65533;65533;65533;65533;65533;65533;65533;65533;65533;65533;65533;65533;65533;65533;65533;65533];
 [65533;65533;65533;65533;65533;65533;65533;65533;65533;65533;65533;65533;65533;65533;65533;8215];
 [1488;1489;1490;1491;1492;1493;1494;1495;1496;1497;1498;1499;1500;1501;1502;1503];
 [1504;1505;1506;1507;1508;1509;1510;1511;1512;1513;1514;65533;65533;8206;8207;65533]].

(* lib/converters/iso8859_8.h:71-83 iso8859_8_page00 *)
Definition iso8859_8_page00 : tab := mk [
 [160;0;162;163;164;165;166;167;168;169;0;171;172;173;174;175];
 [176;177;178;179;180;181;182;183;184;185;0;187;188;189;190;0];
 [0;0;0;0;0;0;0;0;0;0;0;0;0;0;0;0];
 [0;0;0;0;0;0;0;170;0;0;0;0;0;0;0;0];
 [0;0;0;0;0;0;0;0;0;0;0;0;0;0;0;0];
 [0;0;0;0;0;0;0;186]].

(* lib/converters/iso8859_8.h:84-89 iso8859_8_page05 *)
Definition iso8859_8_page05 : tab := mk [
 [224;225;226;227;228;229;230;231;232;233;234;235;236;237;238;239];
 [240;241;242;243;244;245;246;247;248;249;250;0;0;0;0;0]].

(* lib/converters/iso8859_8.h:90-93 iso8859_8_page20 *)
Definition iso8859_8_page20 : tab := mk [
 [0;0;0;0;0;0;253;254;0;0;0;0;0;0;0;223]].

(* lib/converters/iso8859_8.h:51-69 iso8859_8_mbtowc *)
Definition iso8859_8_mbtowc (s : list Z) (n : nat) : res (Z * option Z) :=
  let pwc := (None : option Z) in
  rd s 0%nat (fun c =>
  if (c >=? 0xa0) then
   tget iso8859_8_2uni (c - 0xa0) (fun wc =>
   if (negb (wc =? 0xfffd)) then
    let pwc := Some wc in
    Ok (1, pwc)
   else
    Ok ((-1), pwc))
  else
   let pwc := Some c in
   Ok (1, pwc)).

(* lib/converters/iso8859_8.h:95-115 iso8859_8_wctomb *)
Definition iso8859_8_wctomb_j (c : Z) (r : wlog) : res (Z * wlog) :=
  if (negb (c =? 0)) then
   let r := wr r 0%nat c in
   Ok (1, r)
  else
   Ok ((-1), r).
(* lib/converters/iso8859_8.h:95-115 iso8859_8_wctomb *)
Definition iso8859_8_wctomb (wc : Z) (n : nat) : res (Z * wlog) :=
  let r := ([] : wlog) in
  let c := 0 in
  if (wc <? 0xa0) then
   let r := wr r 0%nat wc in
   Ok (1, r)
  else
   if ((wc >=? 0xa0) &&& (wc <? 0xf8)) then
    tget iso8859_8_page00 (wc - 0xa0) (fun c =>
    iso8859_8_wctomb_j c r)
   else
    if ((wc >=? 0x5d0) &&& (wc <? 0x5f0)) then
     tget iso8859_8_page05 (wc - 0x5d0) (fun c =>
     iso8859_8_wctomb_j c r)
    else
     if ((wc >=? 0x2008) &&& (wc <? 0x2018)) then
      tget iso8859_8_page20 (wc - 0x2008) (fun c =>
      iso8859_8_wctomb_j c r)
     else
      iso8859_8_wctomb_j c r.

(* lib/converters/iso8859_9.h:30-40 iso8859_9_2uni *)
Definition iso8859_9_2uni : tab := mk [
 [286;209;210;211;212;213;214;215;216;217;218;219;220;304;350;223];
 [224;225;226;227;228;229;230;231;232;233;234;235;236;237;238;239];
 [287;241;242;243;244;245;246;247;248;249;250;251;252;305;351;255]].

(* lib/converters/iso8859_9.h:53-60 iso8859_9_page00 *)
Definition iso8859_9_page00 : tab := mk [
 [0;209;210;211;212;213;214;215;216;217;218;219;220;0;0;223];
 [224;225;226;227;228;229;230;231;232;233;234;235;236;237;238;239];
 [0;241;242;243;244;245;246;247;248;249;250;251;252;0;0;255]].

(* lib/converters/iso8859_9.h:61-71 iso8859_9_page01 *)
Definition iso8859_9_page01 : tab := mk [
 [0;0;0;0;0;0;208;240;0;0;0;0;0;0;0;0];
 [0;0;0;0;0;0;0;0;221;253;0;0;0;0;0;0];
 [0;0;0;0;0;0;0;0;0;0;0;0;0;0;0;0];
 [0;0;0;0;0;0;0;0;0;0;0;0;0;0;0;0];
 [0;0;0;0;0;0;222;254]].

(* lib/converters/iso8859_9.h:42-51 iso8859_9_mbtowc *)
Definition iso8859_9_mbtowc (s : list Z) (n : nat) : res (Z * option Z) :=
  let pwc := (None : option Z) in
  rd s 0%nat (fun c =>
  if (c >=? 0xd0) then
   tget iso8859_9_2uni (c - 0xd0) (fun x2 =>
   let pwc := Some x2 in
   Ok (1, pwc))
  else
   let pwc := Some c in
   Ok (1, pwc)).

(* lib/converters/iso8859_9.h:73-91 iso8859_9_wctomb *)
Definition iso8859_9_wctomb_j (c : Z) (r : wlog) : res (Z * wlog) :=
  if (negb (c =? 0)) then
   let r := wr r 0%nat c in
   Ok (1, r)
  else
   Ok ((-1), r).
(* lib/converters/iso8859_9.h:73-91 iso8859_9_wctomb *)
Definition iso8859_9_wctomb (wc : Z) (n : nat) : res (Z * wlog) :=
  let r := ([] : wlog) in
  let c := 0 in
  if (wc <? 0xd0) then
   let r := wr r 0%nat wc in
   Ok (1, r)
  else
   if ((wc >=? 0xd0) &&& (wc <? 0x100)) then
    tget iso8859_9_page00 (wc - 0xd0) (fun c =>
    iso8859_9_wctomb_j c r)
   else
    if ((wc >=? 0x118) &&& (wc <? 0x160)) then
     tget iso8859_9_page01 (wc - 0x118) (fun c =>
     iso8859_9_wctomb_j c r)
    else
     iso8859_9_wctomb_j c r.

(* lib/converters/koi8_r.h:32-57 koi8_r_2uni *)
Definition koi8_r_2uni : tab := mk [
 [9472;9474;9484;9488;9492;9496;9500;9508;9516;9524;9532;9600;9604;9608;9612;9616];
 [9617;9618;9619;8992;9632;8729;8730;8776;8804;8805;160;8993;176;178;183;247];
 [9552;9553;9554;1105;9555;9556;9557;9558;9559;9560;9561;9562;9563;9564;9565;9566];
 [9567;9568;9569;1025;9570;9571;9572;9573;9574;9575;9576;9577;9578;9579;9580;169];
 [1102;1072;1073;1094;1076;1077;1092;1075;1093;1080;1081;1082;1083;1084;1085;1086];
 [1087;1103;1088;1089;1090;1091;1078;1074;1100;1099;1079;1096;1101;1097;1095;1098];
 [1070;1040;1041;1062;1044;1045;1060;1043;1061;1048;1049;1050;1051;1052;1053;1054];
 [1055;1071;1056;1057;1058;1059;1046;1042;1068;1067;1047;1064;1069;1065;1063;1066]].

(* lib/converters/koi8_r.h:69-81 koi8_r_page00 *)
Definition koi8_r_page00 : tab := mk [
 [154;0;0;0;0;0;0;0;0;191;0;0;0;0;0;0];
 [156;0;157;0;0;0;0;158;0;0;0;0;0;0;0;0];
 [0;0;0;0;0;0;0;0;0;0;0;0;0;0;0;0];
 [0;0;0;0;0;0;0;0;0;0;0;0;0;0;0;0];
 [0;0;0;0;0;0;0;0;0;0;0;0;0;0;0;0];
 [0;0;0;0;0;0;0;159]].

(* lib/converters/koi8_r.h:82-94 koi8_r_page04 *)
Definition koi8_r_page04 : tab := mk [
 [0;179;0;0;0;0;0;0;0;0;0;0;0;0;0;0];
 [225;226;247;231;228;229;246;250;233;234;235;236;237;238;239;240];
 [242;243;244;245;230;232;227;254;251;253;255;249;248;252;224;241];
 [193;194;215;199;196;197;214;218;201;202;203;204;205;206;207;208];
 [210;211;212;213;198;200;195;222;219;221;223;217;216;220;192;209];
 [0;163;0;0;0;0;0;0]].

(* lib/converters/koi8_r.h:95-106 koi8_r_page22 *)
Definition koi8_r_page22 : tab := mk [
 [0;149;150;0;0;0;0;0;0;0;0;0;0;0;0;0];
 [0;0;0;0;0;0;0;0;0;0;0;0;0;0;0;0];
 [0;0;0;0;0;0;0;0;0;0;0;0;0;0;0;0];
 [151;0;0;0;0;0;0;0;0;0;0;0;0;0;0;0];
 [0;0;0;0;0;0;0;0;0;0;0;0;152;153;0;0]].

(* lib/converters/koi8_r.h:107-109 koi8_r_page23 *)
Definition koi8_r_page23 : tab := mk [
 [147;155;0;0;0;0;0;0]].

(* lib/converters/koi8_r.h:110-132 koi8_r_page25 *)
Definition koi8_r_page25 : tab := mk [
 [128;0;129;0;0;0;0;0;0;0;0;0;130;0;0;0];
 [131;0;0;0;132;0;0;0;133;0;0;0;134;0;0;0];
 [0;0;0;0;135;0;0;0;0;0;0;0;136;0;0;0];
 [0;0;0;0;137;0;0;0;0;0;0;0;138;0;0;0];
 [0;0;0;0;0;0;0;0;0;0;0;0;0;0;0;0];
 [160;161;162;164;165;166;167;168;169;170;171;172;173;174;175;176];
 [177;178;180;181;182;183;184;185;186;187;188;189;190;0;0;0];
 [0;0;0;0;0;0;0;0;0;0;0;0;0;0;0;0];
 [139;0;0;0;140;0;0;0;141;0;0;0;142;0;0;0];
 [143;144;145;146;0;0;0;0;0;0;0;0;0;0;0;0];
 [148;0;0;0;0;0;0;0]].

(* lib/converters/koi8_r.h:59-67 koi8_r_mbtowc *)
Definition koi8_r_mbtowc (s : list Z) (n : nat) : res (Z * option Z) :=
  let pwc := (None : option Z) in
  rd s 0%nat (fun c =>
  if (c <? 0x80) then
   let pwc := Some c in
   Ok (1, pwc)
  else
   tget koi8_r_2uni (c - 0x80) (fun x2 =>
   let pwc := Some x2 in
   Ok (1, pwc))).

(* lib/converters/koi8_r.h:134-158 koi8_r_wctomb *)
Definition koi8_r_wctomb_j (c : Z) (r : wlog) : res (Z * wlog) :=
  if (negb (c =? 0)) then
   let r := wr r 0%nat c in
   Ok (1, r)
  else
   Ok ((-1), r).
(* lib/converters/koi8_r.h:134-158 koi8_r_wctomb *)
Definition koi8_r_wctomb (wc : Z) (n : nat) : res (Z * wlog) :=
  let r := ([] : wlog) in
  let c := 0 in
  if (wc <? 0x80) then
   let r := wr r 0%nat wc in
   Ok (1, r)
  else
   if ((wc >=? 0xa0) &&& (wc <? 0xf8)) then
    tget koi8_r_page00 (wc - 0xa0) (fun c =>
    koi8_r_wctomb_j c r)
   else
    if ((wc >=? 0x400) &&& (wc <? 0x458)) then
     tget koi8_r_page04 (wc - 0x400) (fun c =>
     koi8_r_wctomb_j c r)
    else
     if ((wc >=? 0x2218) &&& (wc <? 0x2268)) then
      tget koi8_r_page22 (wc - 0x2218) (fun c =>
      koi8_r_wctomb_j c r)
     else
      if ((wc >=? 0x2320) &&& (wc <? 0x2328)) then
       tget koi8_r_page23 (wc - 0x2320) (fun c =>
       koi8_r_wctomb_j c r)
      else
       if ((wc >=? 0x2500) &&& (wc <? 0x25a8)) then
        tget koi8_r_page25 (wc - 0x2500) (fun c =>
        koi8_r_wctomb_j c r)
       else
        koi8_r_wctomb_j c r.

(* lib/converters/koi8_ru.h:30-55 koi8_ru_2uni *)
Definition koi8_ru_2uni : tab := mk [
 [9472;9474;9484;9488;9492;9496;9500;9508;9516;9524;9532;9600;9604;9608;9612;9616];
 [9617;9618;9619;8992;9632;8729;8730;8776;8804;8805;160;8993;176;178;183;247];
 [9552;9553;9554;1105;1108;9556;1110;1111;9559;9560;9561;9562;9563;1169;1118;9566];
 [9567;9568;9569;1025;1028;9571;1030;1031;9574;9575;9576;9577;9578;1168;1038;169];
 [1102;1072;1073;1094;1076;1077;1092;1075;1093;1080;1081;1082;1083;1084;1085;1086];
 [1087;1103;1088;1089;1090;1091;1078;1074;1100;1099;1079;1096;1101;1097;1095;1098];
 [1070;1040;1041;1062;1044;1045;1060;1043;1061;1048;1049;1050;1051;1052;1053;1054];
 [1055;1071;1056;1057;1058;1059;1046;1042;1068;1067;1047;1064;1069;1065;1063;1066]].

(* lib/converters/koi8_ru.h:67-79 koi8_ru_page00 *)
Definition koi8_ru_page00 : tab := mk [
 [154;0;0;0;0;0;0;0;0;191;0;0;0;0;0;0];
 [156;0;157;0;0;0;0;158;0;0;0;0;0;0;0;0];
 [0;0;0;0;0;0;0;0;0;0;0;0;0;0;0;0];
 [0;0;0;0;0;0;0;0;0;0;0;0;0;0;0;0];
 [0;0;0;0;0;0;0;0;0;0;0;0;0;0;0;0];
 [0;0;0;0;0;0;0;159]].

(* lib/converters/koi8_ru.h:80-100 koi8_ru_page04 *)
Definition koi8_ru_page04 : tab := mk [
 [0;179;0;0;180;0;182;183;0;0;0;0;0;0;190;0];
 [225;226;247;231;228;229;246;250;233;234;235;236;237;238;239;240];
 [242;243;244;245;230;232;227;254;251;253;255;249;248;252;224;241];
 [193;194;215;199;196;197;214;218;201;202;203;204;205;206;207;208];
 [210;211;212;213;198;200;195;222;219;221;223;217;216;220;192;209];
 [0;163;0;0;164;0;166;167;0;0;0;0;0;0;174;0];
 [0;0;0;0;0;0;0;0;0;0;0;0;0;0;0;0];
 [0;0;0;0;0;0;0;0;0;0;0;0;0;0;0;0];
 [0;0;0;0;0;0;0;0;0;0;0;0;0;0;0;0];
 [189;173;0;0;0;0;0;0]].

(* lib/converters/koi8_ru.h:101-112 koi8_ru_page22 *)
Definition koi8_ru_page22 : tab := mk [
 [0;149;150;0;0;0;0;0;0;0;0;0;0;0;0;0];
 [0;0;0;0;0;0;0;0;0;0;0;0;0;0;0;0];
 [0;0;0;0;0;0;0;0;0;0;0;0;0;0;0;0];
 [151;0;0;0;0;0;0;0;0;0;0;0;0;0;0;0];
 [0;0;0;0;0;0;0;0;0;0;0;0;152;153;0;0]].

(* lib/converters/koi8_ru.h:113-115 koi8_ru_page23 *)
Definition koi8_ru_page23 : tab := mk [
 [147;155;0;0;0;0;0;0]].

(* lib/converters/koi8_ru.h:116-138 koi8_ru_page25 *)
Definition koi8_ru_page25 : tab := mk [
 [128;0;129;0;0;0;0;0;0;0;0;0;130;0;0;0];
 [131;0;0;0;132;0;0;0;133;0;0;0;134;0;0;0];
 [0;0;0;0;135;0;0;0;0;0;0;0;136;0;0;0];
 [0;0;0;0;137;0;0;0;0;0;0;0;138;0;0;0];
 [0;0;0;0;0;0;0;0;0;0;0;0;0;0;0;0];
 [160;161;162;0;165;0;0;168;169;170;171;172;0;0;175;176];
 [177;178;0;181;0;0;184;185;186;187;188;0;0;0;0;0];
 [0;0;0;0;0;0;0;0;0;0;0;0;0;0;0;0];
 [139;0;0;0;140;0;0;0;141;0;0;0;142;0;0;0];
 [143;144;145;146;0;0;0;0;0;0;0;0;0;0;0;0];
 [148;0;0;0;0;0;0;0]].

(* lib/converters/koi8_ru.h:57-65 koi8_ru_mbtowc *)
Definition koi8_ru_mbtowc (s : list Z) (n : nat) : res (Z * option Z) :=
  let pwc := (None : option Z) in
  rd s 0%nat (fun c =>
  if (c <? 0x80) then
   let pwc := Some c in
   Ok (1, pwc)
  else
   tget koi8_ru_2uni (c - 0x80) (fun x2 =>
   let pwc := Some x2 in
   Ok (1, pwc))).

(* lib/converters/koi8_ru.h:140-164 koi8_ru_wctomb *)
Definition koi8_ru_wctomb_j (c : Z) (r : wlog) : res (Z * wlog) :=
  if (negb (c =? 0)) then
   let r := wr r 0%nat c in
   Ok (1, r)
  else
   Ok ((-1), r).
(* lib/converters/koi8_ru.h:140-164 koi8_ru_wctomb *)
Definition koi8_ru_wctomb (wc : Z) (n : nat) : res (Z * wlog) :=
  let r := ([] : wlog) in
  let c := 0 in
  if (wc <? 0x80) then
   let r := wr r 0%nat wc in
   Ok (1, r)
  else
   if ((wc >=? 0xa0) &&& (wc <? 0xf8)) then
    tget koi8_ru_page00 (wc - 0xa0) (fun c =>
    koi8_ru_wctomb_j c r)
   else
    if ((wc >=? 0x400) &&& (wc <? 0x498)) then
     tget koi8_ru_page04 (wc - 0x400) (fun c =>
     koi8_ru_wctomb_j c r)
    else
     if ((wc >=? 0x2218) &&& (wc <? 0x2268)) then
      tget koi8_ru_page22 (wc - 0x2218) (fun c =>
      koi8_ru_wctomb_j c r)
     else
      if ((wc >=? 0x2320) &&& (wc <? 0x2328)) then
       tget koi8_ru_page23 (wc - 0x2320) (fun c =>
       koi8_ru_wctomb_j c r)
      else
       if ((wc >=? 0x2500) &&& (wc <? 0x25a8)) then
        tget koi8_ru_page25 (wc - 0x2500) (fun c =>
        koi8_ru_wctomb_j c r)
       else
        koi8_ru_wctomb_j c r.

(* lib/converters/koi8_t.h:30-55 koi8_t_2uni *)
Definition koi8_t_2uni : tab := mk [
 [1179;1171;8218;1170;8222;8230;8224;8225;65533;8240;1203;8249;1202;1207;1206;65533];
 [1178;8216;8217;8220;8221;8226;8211;8212;65533;8482;65533;8250;65533;65533;65533;65533];
 [65533;1263;1262;1105;164;1251;166;167;65533;65533;65533;171;172;173;174;65533];
 [176;177;178;1025;65533;1250;182;183;65533;8470;65533;187;65533;65533;65533;169];
 [1102;1072;1073;1094;1076;1077;1092;1075;1093;1080;1081;1082;1083;1084;1085;1086];
 [1087;1103;1088;1089;1090;1091;1078;1074;1100;1099;1079;1096;1101;1097;1095;1098];
 [1070;1040;1041;1062;1044;1045;1060;1043;1061;1048;1049;1050;1051;1052;1053;1054];
 [1055;1071;1056;1057;1058;1059;1046;1042;1068;1067;1047;1064;1069;1065;1063;1066]].

(* lib/converters/koi8_t.h:77-82 koi8_t_page00 *)
Definition koi8_t_page00 : tab := mk [
 [0;0;0;0;164;0;166;167;0;191;0;171;172;173;174;0];
 [176;177;178;0;0;0;182;183;0;0;0;187;0;0;0;0]].

(* lib/converters/koi8_t.h:83-114 koi8_t_page04 *)
Definition koi8_t_page04 : tab := mk [
 [0;179;0;0;0;0;0;0;0;0;0;0;0;0;0;0];
 [225;226;247;231;228;229;246;250;233;234;235;236;237;238;239;240];
 [242;243;244;245;230;232;227;254;251;253;255;249;248;252;224;241];
 [193;194;215;199;196;197;214;218;201;202;203;204;205;206;207;208];
 [210;211;212;213;198;200;195;222;219;221;223;217;216;220;192;209];
 [0;163;0;0;0;0;0;0;0;0;0;0;0;0;0;0];
 [0;0;0;0;0;0;0;0;0;0;0;0;0;0;0;0];
 [0;0;0;0;0;0;0;0;0;0;0;0;0;0;0;0];
 [0;0;0;0;0;0;0;0;0;0;0;0;0;0;0;0];
 [0;0;131;129;0;0;0;0;0;0;144;128;0;0;0;0];
 [0;0;0;0;0;0;0;0;0;0;0;0;0;0;0;0];
 [0;0;140;138;0;0;142;141;0;0;0;0;0;0;0;0];
 [0;0;0;0;0;0;0;0;0;0;0;0;0;0;0;0];
 [0;0;0;0;0;0;0;0;0;0;0;0;0;0;0;0];
 [0;0;181;165;0;0;0;0;0;0;0;0;0;0;162;161]].

(* lib/converters/koi8_t.h:115-122 koi8_t_page20 *)
Definition koi8_t_page20 : tab := mk [
 [0;0;0;150;151;0;0;0;145;146;130;0;147;148;132;0];
 [134;135;149;0;0;0;133;0;0;0;0;0;0;0;0;0];
 [137;0;0;0;0;0;0;0;0;139;155;0;0;0;0;0]].

(* lib/converters/koi8_t.h:123-127 koi8_t_page21 *)
Definition koi8_t_page21 : tab := mk [
 [0;0;0;0;0;0;185;0;0;0;0;0;0;0;0;0];
 [0;0;153;0;0;0;0;0]].

(* lib/converters/koi8_t.h:57-75 koi8_t_mbtowc *)
Definition koi8_t_mbtowc (s : list Z) (n : nat) : res (Z * option Z) :=
  let pwc := (None : option Z) in
  rd s 0%nat (fun c =>
  if (c <? 0x80) then
   let pwc := Some c in
   Ok (1, pwc)
  else
   tget koi8_t_2uni (c - 0x80) (fun wc =>
   if (negb (wc =? 0xfffd)) then
    let pwc := Some wc in
    Ok (1, pwc)
   else
    Ok ((-1), pwc))).

(* lib/converters/koi8_t.h:129-151 koi8_t_wctomb *)
Definition koi8_t_wctomb_j (c : Z) (r : wlog) : res (Z * wlog) :=
  if (negb (c =? 0)) then
   let r := wr r 0%nat c in
   Ok (1, r)
  else
   Ok ((-1), r).
(* lib/converters/koi8_t.h:129-151 koi8_t_wctomb *)
Definition koi8_t_wctomb (wc : Z) (n : nat) : res (Z * wlog) :=
  let r := ([] : wlog) in
  let c := 0 in
  if (wc <? 0x80) then
   let r := wr r 0%nat wc in
   Ok (1, r)
  else
   if ((wc >=? 0xa0) &&& (wc <? 0xc0)) then
    tget koi8_t_page00 (wc - 0xa0) (fun c =>
    koi8_t_wctomb_j c r)
   else
    if ((wc >=? 0x400) &&& (wc <? 0x4f0)) then
     tget koi8_t_page04 (wc - 0x400) (fun c =>
     koi8_t_wctomb_j c r)
    else
     if ((wc >=? 0x2010) &&& (wc <? 0x2040)) then
      tget koi8_t_page20 (wc - 0x2010) (fun c =>
      koi8_t_wctomb_j c r)
     else
      if ((wc >=? 0x2110) &&& (wc <? 0x2128)) then
       tget koi8_t_page21 (wc - 0x2110) (fun c =>
       koi8_t_wctomb_j c r)
      else
       koi8_t_wctomb_j c r.

(* lib/converters/koi8_u.h:32-57 koi8_u_2uni *)
Definition koi8_u_2uni : tab := mk [
 [9472;9474;9484;9488;9492;9496;9500;9508;9516;9524;9532;9600;9604;9608;9612;9616];
 [9617;9618;9619;8992;9632;8729;8730;8776;8804;8805;160;8993;176;178;183;247];
 [9552;9553;9554;1105;1108;9556;1110;1111;9559;9560;9561;9562;9563;1169;9565;9566];
 [9567;9568;9569;1025;1028;9571;1030;1031;9574;9575;9576;9577;9578;1168;9580;169];
 [1102;1072;1073;1094;1076;1077;1092;1075;1093;1080;1081;1082;1083;1084;1085;1086];
 [1087;1103;1088;1089;1090;1091;1078;1074;1100;1099;1079;1096;1101;1097;1095;1098];
 [1070;1040;1041;1062;1044;1045;1060;1043;1061;1048;1049;1050;1051;1052;1053;1054];
 [1055;1071;1056;1057;1058;1059;1046;1042;1068;1067;1047;1064;1069;1065;1063;1066]].

(* lib/converters/koi8_u.h:69-81 koi8_u_page00 *)
Definition koi8_u_page00 : tab := mk [
 [154;0;0;0;0;0;0;0;0;191;0;0;0;0;0;0];
 [156;0;157;0;0;0;0;158;0;0;0;0;0;0;0;0];
 [0;0;0;0;0;0;0;0;0;0;0;0;0;0;0;0];
 [0;0;0;0;0;0;0;0;0;0;0;0;0;0;0;0];
 [0;0;0;0;0;0;0;0;0;0;0;0;0;0;0;0];
 [0;0;0;0;0;0;0;159]].

(* lib/converters/koi8_u.h:82-102 koi8_u_page04 *)
Definition koi8_u_page04 : tab := mk [
 [0;179;0;0;180;0;182;183;0;0;0;0;0;0;0;0];
 [225;226;247;231;228;229;246;250;233;234;235;236;237;238;239;240];
 [242;243;244;245;230;232;227;254;251;253;255;249;248;252;224;241];
 [193;194;215;199;196;197;214;218;201;202;203;204;205;206;207;208];
 [210;211;212;213;198;200;195;222;219;221;223;217;216;220;192;209];
 [0;163;0;0;164;0;166;167;0;0;0;0;0;0;0;0];
 [0;0;0;0;0;0;0;0;0;0;0;0;0;0;0;0];
 [0;0;0;0;0;0;0;0;0;0;0;0;0;0;0;0];
 [0;0;0;0;0;0;0;0;0;0;0;0;0;0;0;0];
 [189;173;0;0;0;0;0;0]].

(* lib/converters/koi8_u.h:103-114 koi8_u_page22 *)
Definition koi8_u_page22 : tab := mk [
 [0;149;150;0;0;0;0;0;0;0;0;0;0;0;0;0];
 [0;0;0;0;0;0;0;0;0;0;0;0;0;0;0;0];
 [0;0;0;0;0;0;0;0;0;0;0;0;0;0;0;0];
 [151;0;0;0;0;0;0;0;0;0;0;0;0;0;0;0];
 [0;0;0;0;0;0;0;0;0;0;0;0;152;153;0;0]].

(* lib/converters/koi8_u.h:115-117 koi8_u_page23 *)
Definition koi8_u_page23 : tab := mk [
 [147;155;0;0;0;0;0;0]].

(* lib/converters/koi8_u.h:118-140 koi8_u_page25 *)
Definition koi8_u_page25 : tab := mk [
 [128;0;129;0;0;0;0;0;0;0;0;0;130;0;0;0];
 [131;0;0;0;132;0;0;0;133;0;0;0;134;0;0;0];
 [0;0;0;0;135;0;0;0;0;0;0;0;136;0;0;0];
 [0;0;0;0;137;0;0;0;0;0;0;0;138;0;0;0];
 [0;0;0;0;0;0;0;0;0;0;0;0;0;0;0;0];
 [160;161;162;0;165;0;0;168;169;170;171;172;0;174;175;176];
 [177;178;0;181;0;0;184;185;186;187;188;0;190;0;0;0];
 [0;0;0;0;0;0;0;0;0;0;0;0;0;0;0;0];
 [139;0;0;0;140;0;0;0;141;0;0;0;142;0;0;0];
 [143;144;145;146;0;0;0;0;0;0;0;0;0;0;0;0];
 [148;0;0;0;0;0;0;0]].

(* lib/converters/koi8_u.h:59-67 koi8_u_mbtowc *)
Definition koi8_u_mbtowc (s : list Z) (n : nat) : res (Z * option Z) :=
  let pwc := (None : option Z) in
  rd s 0%nat (fun c =>
  if (c <? 0x80) then
   let pwc := Some c in
   Ok (1, pwc)
  else
   tget koi8_u_2uni (c - 0x80) (fun x2 =>
   let pwc := Some x2 in
   Ok (1, pwc))).

(* lib/converters/koi8_u.h:142-166 koi8_u_wctomb *)
Definition koi8_u_wctomb_j (c : Z) (r : wlog) : res (Z * wlog) :=
  if (negb (c =? 0)) then
   let r := wr r 0%nat c in
   Ok (1, r)
  else
   Ok ((-1), r).
(* lib/converters/koi8_u.h:142-166 koi8_u_wctomb *)
Definition koi8_u_wctomb (wc : Z) (n : nat) : res (Z * wlog) :=
  let r := ([] : wlog) in
  let c := 0 in
  if (wc <? 0x80) then
   let r := wr r 0%nat wc in
   Ok (1, r)
  else
   if ((wc >=? 0xa0) &&& (wc <? 0xf8)) then
    tget koi8_u_page00 (wc - 0xa0) (fun c =>
    koi8_u_wctomb_j c r)
   else
    if ((wc >=? 0x400) &&& (wc <? 0x498)) then
     tget koi8_u_page04 (wc - 0x400) (fun c =>
     koi8_u_wctomb_j c r)
    else
     if ((wc >=? 0x2218) &&& (wc <? 0x2268)) then
      tget koi8_u_page22 (wc - 0x2218) (fun c =>
      koi8_u_wctomb_j c r)
     else
      if ((wc >=? 0x2320) &&& (wc <? 0x2328)) then
       tget koi8_u_page23 (wc - 0x2320) (fun c =>
       koi8_u_wctomb_j c r)
      else
       if ((wc >=? 0x2500) &&& (wc <? 0x25a8)) then
        tget koi8_u_page25 (wc - 0x2500) (fun c =>
        koi8_u_wctomb_j c r)
       else
        koi8_u_wctomb_j c r.

(* lib/converters/mac_arabic.h:30-55 mac_arabic_2uni *)
Definition mac_arabic_2uni : tab := mk [
 [196;160;199;201;209;214;220;225;224;226;228;1722;171;231;233;232];
 [234;235;237;8230;238;239;241;243;187;244;246;247;250;249;251;252];
 [65533;65533;65533;65533;65533;1642;65533;65533;65533;65533;65533;65533;1548;65533;65533;65533];
 [1632;1633;1634;1635;1636;1637;1638;1639;1640;1641;65533;1563;65533;65533;65533;1567];
 [1645;1569;1570;1571;1572;1573;1574;1575;1576;1577;1578;1579;1580;1581;1582;1583];
 [1584;1585;1586;1587;1588;1589;1590;1591;1592;1593;1594;65533;65533;65533;65533;65533];
 [1600;1601;1602;1603;1604;1605;1606;1607;1608;1609;1610;1611;1612;1613;1614;1615];
 [1616;1617;1618;1662;1657;1670;1749;1700;1711;1672;1681;65533;65533;65533;1688;1746]].

(* lib/converters/mac_arabic.h:77-90 mac_arabic_page00 *)
Definition mac_arabic_page00 : tab := mk [
 [129;0;0;0;0;0;0;0;0;0;0;140;0;0;0;0];
 [0;0;0;0;0;0;0;0;0;0;0;152;0;0;0;0];
 [0;0;0;0;128;0;0;130;0;131;0;0;0;0;0;0];
 [0;132;0;0;0;0;133;0;0;0;0;0;134;0;0;0];
 [136;135;137;0;138;0;0;141;143;142;144;145;0;146;148;149];
 [0;150;0;151;153;0;154;155;0;157;156;158;159;0;0;0]].

(* lib/converters/mac_arabic.h:91-118 mac_arabic_page06 *)
Definition mac_arabic_page06 : tab := mk [
 [0;0;0;0;172;0;0;0;0;0;0;0;0;0;0;0];
 [0;0;0;187;0;0;0;191;0;193;194;195;196;197;198;199];
 [200;201;202;203;204;205;206;207;208;209;210;211;212;213;214;215];
 [216;217;218;0;0;0;0;0;224;225;226;227;228;229;230;231];
 [232;233;234;235;236;237;238;239;240;241;242;0;0;0;0;0];
 [0;0;0;0;0;0;0;0;176;177;178;179;180;181;182;183];
 [184;185;165;0;0;192;0;0;0;0;0;0;0;0;0;0];
 [0;244;0;0;0;0;243;0;0;0;0;0;0;0;245;0];
 [249;0;0;0;0;0;0;0;0;250;0;0;0;0;0;0];
 [254;0;0;0;0;0;0;0;0;0;0;0;247;0;0;0];
 [0;0;0;0;0;0;0;248;0;0;0;0;0;0;0;0];
 [0;0;139;0;0;0;0;0;0;0;0;0;0;0;0;0];
 [0;0;0;0;0;0;0;0;0;0;255;0;0;246;0;0]].

(* lib/converters/mac_arabic.h:57-75 mac_arabic_mbtowc *)
Definition mac_arabic_mbtowc (s : list Z) (n : nat) : res (Z * option Z) :=
  let pwc := (None : option Z) in
  rd s 0%nat (fun c =>
  if (c <? 0x80) then
   let pwc := Some c in
   Ok (1, pwc)
  else
   tget mac_arabic_2uni (c - 0x80) (fun wc =>
   if (negb (wc =? 0xfffd)) then
    let pwc := Some wc in
    Ok (1, pwc)
   else
    Ok ((-1), pwc))).

(* lib/converters/mac_arabic.h:120-140 mac_arabic_wctomb *)
Definition mac_arabic_wctomb_j (c : Z) (r : wlog) : res (Z * wlog) :=
  if (negb (c =? 0)) then
   let r := wr r 0%nat c in
   Ok (1, r)
  else
   Ok ((-1), r).
(* lib/converters/mac_arabic.h:120-140 mac_arabic_wctomb *)
Definition mac_arabic_wctomb (wc : Z) (n : nat) : res (Z * wlog) :=
  let r := ([] : wlog) in
  let c := 0 in
  if (wc <? 0x80) then
   let r := wr r 0%nat wc in
   Ok (1, r)
  else
   if ((wc >=? 0xa0) &&& (wc <? 0x100)) then
    tget mac_arabic_page00 (wc - 0xa0) (fun c =>
    mac_arabic_wctomb_j c r)
   else
    if ((wc >=? 0x608) &&& (wc <? 0x6d8)) then
     tget mac_arabic_page06 (wc - 0x608) (fun c =>
     mac_arabic_wctomb_j c r)
    else
     if (wc =? 0x2026) then
      let c := 0x93 in
      mac_arabic_wctomb_j c r
     else
      mac_arabic_wctomb_j c r.

(* lib/converters/mac_centraleurope.h:30-55 mac_centraleurope_2uni *)
Definition mac_centraleurope_2uni : tab := mk [
 [196;256;257;201;260;214;220;225;261;268;228;269;262;263;233;377];
 [378;270;237;271;274;275;278;243;279;244;246;245;250;282;283;252];
 [8224;176;280;163;167;8226;182;223;174;169;8482;281;168;8800;291;302];
 [303;298;8804;8805;299;310;8706;8721;322;315;316;317;318;313;314;325];
 [326;323;172;8730;324;327;8710;171;187;8230;160;328;336;213;337;332];
 [8211;8212;8220;8221;8216;8217;247;9674;333;340;341;344;8249;8250;345;342];
 [343;352;8218;8222;353;346;347;193;356;357;205;381;382;362;211;212];
 [363;366;218;367;368;369;370;371;221;253;311;379;321;380;290;711]].

(* lib/converters/mac_centraleurope.h:67-97 mac_centraleurope_page00 *)
Definition mac_centraleurope_page00 : tab := mk [
 [202;0;0;163;0;0;0;164;172;169;0;199;194;0;168;0];
 [161;0;0;0;0;0;166;0;0;0;0;200;0;0;0;0];
 [0;231;0;0;128;0;0;0;0;131;0;0;0;234;0;0];
 [0;0;0;238;239;205;133;0;0;0;242;0;134;248;0;167];
 [0;135;0;0;138;0;0;0;0;142;0;0;0;146;0;0];
 [0;0;0;151;153;155;154;214;0;0;156;0;159;249;0;0];
 [129;130;0;0;132;136;140;141;0;0;0;0;137;139;145;147];
 [0;0;148;149;0;0;150;152;162;171;157;158;0;0;0;0];
 [0;0;254;174;0;0;0;0;0;0;177;180;0;0;175;176];
 [0;0;0;0;0;0;181;250;0;189;190;185;186;187;188;0];
 [0;252;184;193;196;191;192;197;203;0;0;0;207;216;0;0];
 [204;206;0;0;217;218;223;224;219;222;229;230;0;0;0;0];
 [225;228;0;0;232;233;0;0;0;0;237;240;0;0;241;243];
 [244;245;246;247;0;0;0;0;0;143;144;251;253;235;236;0]].

(* lib/converters/mac_centraleurope.h:98-105 mac_centraleurope_page20 *)
Definition mac_centraleurope_page20 : tab := mk [
 [0;0;0;208;209;0;0;0;212;213;226;0;210;211;227;0];
 [160;0;165;0;0;0;201;0;0;0;0;0;0;0;0;0];
 [0;0;0;0;0;0;0;0;0;220;221;0;0;0;0;0]].

(* lib/converters/mac_centraleurope.h:106-111 mac_centraleurope_page22 *)
Definition mac_centraleurope_page22 : tab := mk [
 [0;0;182;0;0;0;198;0;0;0;0;0;0;0;0;0];
 [0;183;0;0;0;0;0;0;0;0;195;0;0;0;0;0]].

(* lib/converters/mac_centraleurope.h:112-114 mac_centraleurope_page22_1 *)
Definition mac_centraleurope_page22_1 : tab := mk [
 [173;0;0;0;178;179;0;0]].

(* lib/converters/mac_centraleurope.h:57-65 mac_centraleurope_mbtowc *)
Definition mac_centraleurope_mbtowc (s : list Z) (n : nat) : res (Z * option Z) :=
  let pwc := (None : option Z) in
  rd s 0%nat (fun c =>
  if (c <? 0x80) then
   let pwc := Some c in
   Ok (1, pwc)
  else
   tget mac_centraleurope_2uni (c - 0x80) (fun x2 =>
   let pwc := Some x2 in
   Ok (1, pwc))).

(* lib/converters/mac_centraleurope.h:116-144 mac_centraleurope_wctomb *)
Definition mac_centraleurope_wctomb_j (c : Z) (r : wlog) : res (Z * wlog) :=
  if (negb (c =? 0)) then
   let r := wr r 0%nat c in
   Ok (1, r)
  else
   Ok ((-1), r).
(* lib/converters/mac_centraleurope.h:116-144 mac_centraleurope_wctomb *)
Definition mac_centraleurope_wctomb (wc : Z) (n : nat) : res (Z * wlog) :=
  let r := ([] : wlog) in
  let c := 0 in
  if (wc <? 0x80) then
   let r := wr r 0%nat wc in
   Ok (1, r)
  else
   if ((wc >=? 0xa0) &&& (wc <? 0x180)) then
    tget mac_centraleurope_page00 (wc - 0xa0) (fun c =>
    mac_centraleurope_wctomb_j c r)
   else
    if (wc =? 0x2c7) then
     let c := 0xff in
     mac_centraleurope_wctomb_j c r
    else
     if ((wc >=? 0x2010) &&& (wc <? 0x2040)) then
      tget mac_centraleurope_page20 (wc - 0x2010) (fun c =>
      mac_centraleurope_wctomb_j c r)
     else
      if (wc =? 0x2122) then
       let c := 0xaa in
       mac_centraleurope_wctomb_j c r
      else
       if ((wc >=? 0x2200) &&& (wc <? 0x2220)) then
        tget mac_centraleurope_page22 (wc - 0x2200) (fun c =>
        mac_centraleurope_wctomb_j c r)
       else
        if ((wc >=? 0x2260) &&& (wc <? 0x2268)) then
         tget mac_centraleurope_page22_1 (wc - 0x2260) (fun c =>
         mac_centraleurope_wctomb_j c r)
        else
         if (wc =? 0x25ca) then
          let c := 0xd7 in
          mac_centraleurope_wctomb_j c r
         else
          mac_centraleurope_wctomb_j c r.

(* lib/converters/mac_croatian.h:30-55 mac_croatian_2uni *)
Definition mac_croatian_2uni : tab := mk [
 [196;197;199;201;209;214;220;225;224;226;228;227;229;231;233;232];
 [234;235;237;236;238;239;241;243;242;244;246;245;250;249;251;252];
 [8224;176;162;163;167;8226;182;223;174;352;8482;180;168;8800;381;216];
 [8734;177;8804;8805;8710;181;8706;8721;8719;353;8747;170;186;8486;382;248];
 [191;161;172;8730;402;8776;262;171;268;8230;160;192;195;213;338;339];
 [272;8212;8220;8221;8216;8217;247;9674;65533;169;8260;164;8249;8250;198;187];
 [8211;183;8218;8222;8240;194;263;193;269;200;205;206;207;204;211;212];
 [273;210;218;219;217;305;710;732;175;960;203;730;184;202;230;711]].

(* lib/converters/mac_croatian.h:77-110 mac_croatian_page00 *)
Definition mac_croatian_page00 : tab := mk [
 [202;193;162;163;219;0;0;164;172;217;187;199;194;0;168;248];
 [161;177;0;0;171;181;166;225;252;0;188;223;0;0;0;192];
 [203;231;229;204;128;129;222;130;233;131;253;250;237;234;235;236];
 [0;132;241;238;239;205;133;0;175;244;242;243;134;0;0;167];
 [136;135;137;139;138;140;254;141;143;142;144;145;147;146;148;149];
 [0;150;152;151;153;155;154;214;191;157;156;158;159;0;0;0];
 [0;0;0;0;0;0;198;230;0;0;0;0;200;232;0;0];
 [208;240;0;0;0;0;0;0;0;0;0;0;0;0;0;0];
 [0;0;0;0;0;0;0;0;0;0;0;0;0;0;0;0];
 [0;245;0;0;0;0;0;0;0;0;0;0;0;0;0;0];
 [0;0;0;0;0;0;0;0;0;0;0;0;0;0;0;0];
 [0;0;206;207;0;0;0;0;0;0;0;0;0;0;0;0];
 [169;185;0;0;0;0;0;0;0;0;0;0;0;0;0;0];
 [0;0;0;0;0;0;0;0;0;0;0;0;0;174;190;0];
 [0;0;0;0;0;0;0;0;0;0;0;0;0;0;0;0];
 [0;0;196;0;0;0;0;0]].

(* lib/converters/mac_croatian.h:111-116 mac_croatian_page02 *)
Definition mac_croatian_page02 : tab := mk [
 [0;0;0;0;0;0;246;255;0;0;0;0;0;0;0;0];
 [0;0;0;0;0;0;0;0;0;0;251;0;247;0;0;0]].

(* lib/converters/mac_croatian.h:117-125 mac_croatian_page20 *)
Definition mac_croatian_page20 : tab := mk [
 [0;0;0;224;209;0;0;0;212;213;226;0;210;211;227;0];
 [160;0;165;0;0;0;201;0;0;0;0;0;0;0;0;0];
 [228;0;0;0;0;0;0;0;0;220;221;0;0;0;0;0];
 [0;0;0;0;218;0;0;0]].

(* lib/converters/mac_croatian.h:126-128 mac_croatian_page21 *)
Definition mac_croatian_page21 : tab := mk [
 [0;0;170;0;0;0;189;0]].

(* lib/converters/mac_croatian.h:129-143 mac_croatian_page22 *)
Definition mac_croatian_page22 : tab := mk [
 [0;0;182;0;0;0;180;0;0;0;0;0;0;0;0;184];
 [0;183;0;0;0;0;0;0;0;0;195;0;0;0;176;0];
 [0;0;0;0;0;0;0;0;0;0;0;186;0;0;0;0];
 [0;0;0;0;0;0;0;0;0;0;0;0;0;0;0;0];
 [0;0;0;0;0;0;0;0;197;0;0;0;0;0;0;0];
 [0;0;0;0;0;0;0;0;0;0;0;0;0;0;0;0];
 [173;0;0;0;178;179;0;0]].

(* lib/converters/mac_croatian.h:57-75 mac_croatian_mbtowc *)
Definition mac_croatian_mbtowc (s : list Z) (n : nat) : res (Z * option Z) :=
  let pwc := (None : option Z) in
  rd s 0%nat (fun c =>
  if (c <? 0x80) then
   let pwc := Some c in
   Ok (1, pwc)
  else
   tget mac_croatian_2uni (c - 0x80) (fun wc =>
   if (negb (wc =? 0xfffd)) then
    let pwc := Some wc in
    Ok (1, pwc)
   else
    Ok ((-1), pwc))).

(* lib/converters/mac_croatian.h:145-173 mac_croatian_wctomb *)
Definition mac_croatian_wctomb_j (c : Z) (r : wlog) : res (Z * wlog) :=
  if (negb (c =? 0)) then
   let r := wr r 0%nat c in
   Ok (1, r)
  else
   Ok ((-1), r).
(* lib/converters/mac_croatian.h:145-173 mac_croatian_wctomb *)
Definition mac_croatian_wctomb (wc : Z) (n : nat) : res (Z * wlog) :=
  let r := ([] : wlog) in
  let c := 0 in
  if (wc <? 0x80) then
   let r := wr r 0%nat wc in
   Ok (1, r)
  else
   if ((wc >=? 0xa0) &&& (wc <? 0x198)) then
    tget mac_croatian_page00 (wc - 0xa0) (fun c =>
    mac_croatian_wctomb_j c r)
   else
    if ((wc >=? 0x2c0) &&& (wc <? 0x2e0)) then
     tget mac_croatian_page02 (wc - 0x2c0) (fun c =>
     mac_croatian_wctomb_j c r)
    else
     if (wc =? 0x3c0) then
      let c := 0xf9 in
      mac_croatian_wctomb_j c r
     else
      if ((wc >=? 0x2010) &&& (wc <? 0x2048)) then
       tget mac_croatian_page20 (wc - 0x2010) (fun c =>
       mac_croatian_wctomb_j c r)
      else
       if ((wc >=? 0x2120) &&& (wc <? 0x2128)) then
        tget mac_croatian_page21 (wc - 0x2120) (fun c =>
        mac_croatian_wctomb_j c r)
       else
        if ((wc >=? 0x2200) &&& (wc <? 0x2268)) then
         tget mac_croatian_page22 (wc - 0x2200) (fun c =>
         mac_croatian_wctomb_j c r)
        else
         if (wc =? 0x25ca) then
          let c := 0xd7 in
          mac_croatian_wctomb_j c r
         else
          mac_croatian_wctomb_j c r.

(* lib/converters/mac_cyrillic.h:30-55 mac_cyrillic_2uni *)
Definition mac_cyrillic_2uni : tab := mk [
 [1040;1041;1042;1043;1044;1045;1046;1047;1048;1049;1050;1051;1052;1053;1054;1055];
 [1056;1057;1058;1059;1060;1061;1062;1063;1064;1065;1066;1067;1068;1069;1070;1071];
 [8224;176;162;163;167;8226;182;1030;174;169;8482;1026;1106;8800;1027;1107];
 [8734;177;8804;8805;1110;181;8706;1032;1028;1108;1031;1111;1033;1113;1034;1114];
 [1112;1029;172;8730;402;8776;8710;171;187;8230;160;1035;1115;1036;1116;1109];
 [8211;8212;8220;8221;8216;8217;247;8222;1038;1118;1039;1119;8470;1025;1105;1103];
 [1072;1073;1074;1075;1076;1077;1078;1079;1080;1081;1082;1083;1084;1085;1086;1087];
 [1088;1089;1090;1091;1092;1093;1094;1095;1096;1097;1098;1099;1100;1101;1102;164]].

(* lib/converters/mac_cyrillic.h:68-73 mac_cyrillic_page00 *)
Definition mac_cyrillic_page00 : tab := mk [
 [202;0;162;163;255;0;0;164;0;169;0;199;194;0;168;0];
 [161;177;0;0;0;181;166;0;0;0;0;200;0;0;0;0]].

(* lib/converters/mac_cyrillic.h:74-87 mac_cyrillic_page04 *)
Definition mac_cyrillic_page04 : tab := mk [
 [0;221;171;174;184;193;167;186;183;188;190;203;205;0;216;218];
 [128;129;130;131;132;133;134;135;136;137;138;139;140;141;142;143];
 [144;145;146;147;148;149;150;151;152;153;154;155;156;157;158;159];
 [224;225;226;227;228;229;230;231;232;233;234;235;236;237;238;239];
 [240;241;242;243;244;245;246;247;248;249;250;251;252;253;254;223];
 [0;222;172;175;185;207;180;187;192;189;191;204;206;0;217;219]].

(* lib/converters/mac_cyrillic.h:88-92 mac_cyrillic_page20 *)
Definition mac_cyrillic_page20 : tab := mk [
 [0;0;0;208;209;0;0;0;212;213;0;0;210;211;215;0];
 [160;0;165;0;0;0;201;0]].

(* lib/converters/mac_cyrillic.h:93-97 mac_cyrillic_page21 *)
Definition mac_cyrillic_page21 : tab := mk [
 [0;0;0;0;0;0;220;0;0;0;0;0;0;0;0;0];
 [0;0;170;0;0;0;0;0]].

(* lib/converters/mac_cyrillic.h:98-112 mac_cyrillic_page22 *)
Definition mac_cyrillic_page22 : tab := mk [
 [0;0;182;0;0;0;198;0;0;0;0;0;0;0;0;0];
 [0;0;0;0;0;0;0;0;0;0;195;0;0;0;176;0];
 [0;0;0;0;0;0;0;0;0;0;0;0;0;0;0;0];
 [0;0;0;0;0;0;0;0;0;0;0;0;0;0;0;0];
 [0;0;0;0;0;0;0;0;197;0;0;0;0;0;0;0];
 [0;0;0;0;0;0;0;0;0;0;0;0;0;0;0;0];
 [173;0;0;0;178;179;0;0]].

(* lib/converters/mac_cyrillic.h:57-66 mac_cyrillic_mbtowc *)
Definition mac_cyrillic_mbtowc (s : list Z) (n : nat) : res (Z * option Z) :=
  let pwc := (None : option Z) in
  rd s 0%nat (fun c =>
  if (c >=? 0x80) then
   tget mac_cyrillic_2uni (c - 0x80) (fun x2 =>
   let pwc := Some x2 in
   Ok (1, pwc))
  else
   let pwc := Some c in
   Ok (1, pwc)).

(* lib/converters/mac_cyrillic.h:114-142 mac_cyrillic_wctomb *)
Definition mac_cyrillic_wctomb_j (c : Z) (r : wlog) : res (Z * wlog) :=
  if (negb (c =? 0)) then
   let r := wr r 0%nat c in
   Ok (1, r)
  else
   Ok ((-1), r).
(* lib/converters/mac_cyrillic.h:114-142 mac_cyrillic_wctomb *)
Definition mac_cyrillic_wctomb (wc : Z) (n : nat) : res (Z * wlog) :=
  let r := ([] : wlog) in
  let c := 0 in
  if (wc <? 0x80) then
   let r := wr r 0%nat wc in
   Ok (1, r)
  else
   if ((wc >=? 0xa0) &&& (wc <? 0xc0)) then
    tget mac_cyrillic_page00 (wc - 0xa0) (fun c =>
    mac_cyrillic_wctomb_j c r)
   else
    if (wc =? 0xf7) then
     let c := 0xd6 in
     mac_cyrillic_wctomb_j c r
    else
     if (wc =? 0x192) then
      let c := 0xc4 in
      mac_cyrillic_wctomb_j c r
     else
      if ((wc >=? 0x400) &&& (wc <? 0x460)) then
       tget mac_cyrillic_page04 (wc - 0x400) (fun c =>
       mac_cyrillic_wctomb_j c r)
      else
       if ((wc >=? 0x2010) &&& (wc <? 0x2028)) then
        tget mac_cyrillic_page20 (wc - 0x2010) (fun c =>
        mac_cyrillic_wctomb_j c r)
       else
        if ((wc >=? 0x2110) &&& (wc <? 0x2128)) then
         tget mac_cyrillic_page21 (wc - 0x2110) (fun c =>
         mac_cyrillic_wctomb_j c r)
        else
         if ((wc >=? 0x2200) &&& (wc <? 0x2268)) then
          tget mac_cyrillic_page22 (wc - 0x2200) (fun c =>
          mac_cyrillic_wctomb_j c r)
         else
          mac_cyrillic_wctomb_j c r.

(* lib/converters/mac_greek.h:30-55 mac_greek_2uni *)
Definition mac_greek_2uni : tab := mk [
 [196;185;178;201;179;214;220;901;224;226;228;900;168;231;233;232];
 [234;235;163;8482;238;239;8226;189;8240;244;246;166;173;249;251;252];
 [8224;915;916;920;923;926;928;223;174;169;931;938;167;8800;176;903];
 [913;177;8804;8805;165;914;917;918;919;921;922;924;934;939;936;937];
 [940;925;172;927;929;8776;932;171;187;8230;160;933;935;902;904;339];
 [8211;8213;8220;8221;8216;8217;247;905;906;908;910;941;942;943;972;911];
 [973;945;946;968;948;949;966;947;951;953;958;954;955;956;957;959];
 [960;974;961;963;964;952;969;962;967;965;950;970;971;912;944;65533]].

(* lib/converters/mac_greek.h:77-90 mac_greek_page00 *)
Definition mac_greek_page00 : tab := mk [
 [202;0;0;146;0;180;155;172;140;169;0;199;194;156;168;0];
 [174;177;130;132;0;0;0;0;0;129;0;200;0;151;0;0];
 [0;0;0;0;128;0;0;0;0;131;0;0;0;0;0;0];
 [0;0;0;0;0;0;133;0;0;0;0;0;134;0;0;167];
 [136;0;137;0;138;0;0;141;143;142;144;145;0;0;148;149];
 [0;0;0;0;153;0;154;214;0;157;0;158;159;0;0;0]].

(* lib/converters/mac_greek.h:91-102 mac_greek_page03 *)
Definition mac_greek_page03 : tab := mk [
 [0;0;0;0;139;135;205;175;206;215;216;0;217;0;218;223];
 [253;176;181;161;162;182;183;184;163;185;186;164;187;193;165;195];
 [166;196;0;170;198;203;188;204;190;191;171;189;192;219;220;221];
 [254;225;226;231;228;229;250;232;245;233;235;236;237;238;234;239];
 [240;242;247;243;244;249;230;248;227;246;251;252;222;224;241;0]].

(* lib/converters/mac_greek.h:103-109 mac_greek_page20 *)
Definition mac_greek_page20 : tab := mk [
 [0;0;0;208;0;209;0;0;212;213;0;0;210;211;0;0];
 [160;0;150;0;0;0;201;0;0;0;0;0;0;0;0;0];
 [152;0;0;0;0;0;0;0]].

(* lib/converters/mac_greek.h:110-115 mac_greek_page22 *)
Definition mac_greek_page22 : tab := mk [
 [197;0;0;0;0;0;0;0;0;0;0;0;0;0;0;0];
 [0;0;0;0;0;0;0;0;173;0;0;0;178;179;0;0]].

(* lib/converters/mac_greek.h:57-75 mac_greek_mbtowc *)
Definition mac_greek_mbtowc (s : list Z) (n : nat) : res (Z * option Z) :=
  let pwc := (None : option Z) in
  rd s 0%nat (fun c =>
  if (c <? 0x80) then
   let pwc := Some c in
   Ok (1, pwc)
  else
   tget mac_greek_2uni (c - 0x80) (fun wc =>
   if (negb (wc =? 0xfffd)) then
    let pwc := Some wc in
    Ok (1, pwc)
   else
    Ok ((-1), pwc))).

(* lib/converters/mac_greek.h:117-143 mac_greek_wctomb *)
Definition mac_greek_wctomb_j (c : Z) (r : wlog) : res (Z * wlog) :=
  if (negb (c =? 0)) then
   let r := wr r 0%nat c in
   Ok (1, r)
  else
   Ok ((-1), r).
(* lib/converters/mac_greek.h:117-143 mac_greek_wctomb *)
Definition mac_greek_wctomb (wc : Z) (n : nat) : res (Z * wlog) :=
  let r := ([] : wlog) in
  let c := 0 in
  if (wc <? 0x80) then
   let r := wr r 0%nat wc in
   Ok (1, r)
  else
   if ((wc >=? 0xa0) &&& (wc <? 0x100)) then
    tget mac_greek_page00 (wc - 0xa0) (fun c =>
    mac_greek_wctomb_j c r)
   else
    if (wc =? 0x153) then
     let c := 0xcf in
     mac_greek_wctomb_j c r
    else
     if ((wc >=? 0x380) &&& (wc <? 0x3d0)) then
      tget mac_greek_page03 (wc - 0x380) (fun c =>
      mac_greek_wctomb_j c r)
     else
      if ((wc >=? 0x2010) &&& (wc <? 0x2038)) then
       tget mac_greek_page20 (wc - 0x2010) (fun c =>
       mac_greek_wctomb_j c r)
      else
       if (wc =? 0x2122) then
        let c := 0x93 in
        mac_greek_wctomb_j c r
       else
        if ((wc >=? 0x2248) &&& (wc <? 0x2268)) then
         tget mac_greek_page22 (wc - 0x2248) (fun c =>
         mac_greek_wctomb_j c r)
        else
         mac_greek_wctomb_j c r.

(* lib/converters/mac_hebrew.h:30-55 mac_hebrew_2uni *)
Definition mac_hebrew_2uni : tab := mk [
 [196;64287;199;201;209;214;220;225;224;226;228;227;229;231;233;232];
 [234;235;237;236;238;239;241;243;242;244;246;245;250;249;251;252];
 [65533;65533;65533;65533;65533;65533;8362;65533;65533;65533;65533;65533;65533;65533;65533;65533];
 [65533;65533;65533;65533;65533;65533;65533;65533;65533;65533;65533;65533;65533;65533;65533;65533];
 [65533;8222;65533;65533;65533;65533;1468;64331;64309;8230;160;1464;1463;1461;1462;1460];
 [8211;8212;8220;8221;8216;8217;64298;64299;1471;1456;1458;1457;1467;1465;65533;1459];
 [1488;1489;1490;1491;1492;1493;1494;1495;1496;1497;1498;1499;1500;1501;1502;1503];
 [1504;1505;1506;1507;1508;1509;1510;1511;1512;1513;1514;65533;65533;65533;65533;65533]].

(* lib/converters/mac_hebrew.h:77-90 mac_hebrew_page00 *)
Definition mac_hebrew_page00 : tab := mk [
 [202;0;0;0;0;0;0;0;0;0;0;0;0;0;0;0];
 [0;0;0;0;0;0;0;0;0;0;0;0;0;0;0;0];
 [0;0;0;0;128;0;0;130;0;131;0;0;0;0;0;0];
 [0;132;0;0;0;0;133;0;0;0;0;0;134;0;0;0];
 [136;135;137;139;138;140;0;141;143;142;144;145;147;146;148;149];
 [0;150;152;151;153;155;154;0;0;157;156;158;159;0;0;0]].

(* lib/converters/mac_hebrew.h:91-100 mac_hebrew_page05 *)
Definition mac_hebrew_page05 : tab := mk [
 [217;219;218;223;207;205;206;204;203;221;0;220;198;0;0;216];
 [0;0;0;0;0;0;0;0;0;0;0;0;0;0;0;0];
 [224;225;226;227;228;229;230;231;232;233;234;235;236;237;238;239];
 [240;241;242;243;244;245;246;247;248;249;250;0;0;0;0;0]].

(* lib/converters/mac_hebrew.h:101-105 mac_hebrew_page20 *)
Definition mac_hebrew_page20 : tab := mk [
 [0;0;0;208;209;0;0;0;212;213;0;0;210;211;193;0];
 [0;0;0;0;0;0;201;0]].

(* lib/converters/mac_hebrew.h:106-114 mac_hebrew_pagefb *)
Definition mac_hebrew_pagefb : tab := mk [
 [0;0;0;0;0;0;0;129;0;0;0;0;0;0;0;0];
 [0;0;214;215;0;0;0;0;0;0;0;0;0;200;0;0];
 [0;0;0;0;0;0;0;0;0;0;0;0;0;0;0;0];
 [0;0;0;199;0;0;0;0]].

(* lib/converters/mac_hebrew.h:57-75 mac_hebrew_mbtowc *)
Definition mac_hebrew_mbtowc (s : list Z) (n : nat) : res (Z * option Z) :=
  let pwc := (None : option Z) in
  rd s 0%nat (fun c =>
  if (c <? 0x80) then
   let pwc := Some c in
   Ok (1, pwc)
  else
   if (c >=? 0x80) then
    tget mac_hebrew_2uni (c - 0x80) (fun wc =>
    if (negb (wc =? 0xfffd)) then
     let pwc := Some wc in
     Ok (1, pwc)
    else
     Ok ((-1), pwc))
   else
    Ok ((-1), pwc)).

(* lib/converters/mac_hebrew.h:116-140 mac_hebrew_wctomb *)
Definition mac_hebrew_wctomb_j (c : Z) (r : wlog) : res (Z * wlog) :=
  if (negb (c =? 0)) then
   let r := wr r 0%nat c in
   Ok (1, r)
  else
   Ok ((-1), r).
(* lib/converters/mac_hebrew.h:116-140 mac_hebrew_wctomb *)
Definition mac_hebrew_wctomb (wc : Z) (n : nat) : res (Z * wlog) :=
  let r := ([] : wlog) in
  let c := 0 in
  if (wc <? 0x80) then
   let r := wr r 0%nat wc in
   Ok (1, r)
  else
   if ((wc >=? 0xa0) &&& (wc <? 0x100)) then
    tget mac_hebrew_page00 (wc - 0xa0) (fun c =>
    mac_hebrew_wctomb_j c r)
   else
    if ((wc >=? 0x5b0) &&& (wc <? 0x5f0)) then
     tget mac_hebrew_page05 (wc - 0x5b0) (fun c =>
     mac_hebrew_wctomb_j c r)
    else
     if ((wc >=? 0x2010) &&& (wc <? 0x2028)) then
      tget mac_hebrew_page20 (wc - 0x2010) (fun c =>
      mac_hebrew_wctomb_j c r)
     else
      if (wc =? 0x20aa) then
       let c := 0xa6 in
       mac_hebrew_wctomb_j c r
      else
       if ((wc >=? 0xfb18) &&& (wc <? 0xfb50)) then
        tget mac_hebrew_pagefb (wc - 0xfb18) (fun c =>
        mac_hebrew_wctomb_j c r)
       else
        mac_hebrew_wctomb_j c r.

(* lib/converters/mac_iceland.h:30-55 mac_iceland_2uni *)
Definition mac_iceland_2uni : tab := mk [
 [196;197;199;201;209;214;220;225;224;226;228;227;229;231;233;232];
 [234;235;237;236;238;239;241;243;242;244;246;245;250;249;251;252];
 [221;176;162;163;167;8226;182;223;174;169;8482;180;168;8800;198;216];
 [8734;177;8804;8805;165;181;8706;8721;8719;960;8747;170;186;8486;230;248];
 [191;161;172;8730;402;8776;8710;171;187;8230;160;192;195;213;338;339];
 [8211;8212;8220;8221;8216;8217;247;9674;255;376;8260;164;208;240;222;254];
 [253;183;8218;8222;8240;194;202;193;203;200;205;206;207;204;211;212];
 [65533;210;218;219;217;305;710;732;175;728;729;730;184;733;731;711]].

(* lib/converters/mac_iceland.h:77-90 mac_iceland_page00 *)
Definition mac_iceland_page00 : tab := mk [
 [202;193;162;163;219;180;0;164;172;169;187;199;194;0;168;248];
 [161;177;0;0;171;181;166;225;252;0;188;200;0;0;0;192];
 [203;231;229;204;128;129;174;130;233;131;230;232;237;234;235;236];
 [220;132;241;238;239;205;133;0;175;244;242;243;134;160;222;167];
 [136;135;137;139;138;140;190;141;143;142;144;145;147;146;148;149];
 [221;150;152;151;153;155;154;214;191;157;156;158;159;224;223;216]].

(* lib/converters/mac_iceland.h:91-105 mac_iceland_page01 *)
Definition mac_iceland_page01 : tab := mk [
 [0;245;0;0;0;0;0;0;0;0;0;0;0;0;0;0];
 [0;0;0;0;0;0;0;0;0;0;0;0;0;0;0;0];
 [0;0;206;207;0;0;0;0;0;0;0;0;0;0;0;0];
 [0;0;0;0;0;0;0;0;0;0;0;0;0;0;0;0];
 [0;0;0;0;0;0;0;0;217;0;0;0;0;0;0;0];
 [0;0;0;0;0;0;0;0;0;0;0;0;0;0;0;0];
 [0;0;196;0;0;0;0;0]].

(* lib/converters/mac_iceland.h:106-111 mac_iceland_page02 *)
Definition mac_iceland_page02 : tab := mk [
 [0;0;0;0;0;0;246;255;0;0;0;0;0;0;0;0];
 [0;0;0;0;0;0;0;0;249;250;251;254;247;253;0;0]].

(* lib/converters/mac_iceland.h:112-120 mac_iceland_page20 *)
Definition mac_iceland_page20 : tab := mk [
 [0;0;0;208;209;0;0;0;212;213;226;0;210;211;227;0];
 [0;0;165;0;0;0;201;0;0;0;0;0;0;0;0;0];
 [228;0;0;0;0;0;0;0;0;0;0;0;0;0;0;0];
 [0;0;0;0;218;0;0;0]].

(* lib/converters/mac_iceland.h:121-123 mac_iceland_page21 *)
Definition mac_iceland_page21 : tab := mk [
 [0;0;170;0;0;0;189;0]].

(* lib/converters/mac_iceland.h:124-138 mac_iceland_page22 *)
Definition mac_iceland_page22 : tab := mk [
 [0;0;182;0;0;0;198;0;0;0;0;0;0;0;0;184];
 [0;183;0;0;0;0;0;0;0;0;195;0;0;0;176;0];
 [0;0;0;0;0;0;0;0;0;0;0;186;0;0;0;0];
 [0;0;0;0;0;0;0;0;0;0;0;0;0;0;0;0];
 [0;0;0;0;0;0;0;0;197;0;0;0;0;0;0;0];
 [0;0;0;0;0;0;0;0;0;0;0;0;0;0;0;0];
 [173;0;0;0;178;179;0;0]].

(* lib/converters/mac_iceland.h:57-75 mac_iceland_mbtowc *)
Definition mac_iceland_mbtowc (s : list Z) (n : nat) : res (Z * option Z) :=
  let pwc := (None : option Z) in
  rd s 0%nat (fun c =>
  if (c <? 0x80) then
   let pwc := Some c in
   Ok (1, pwc)
  else
   tget mac_iceland_2uni (c - 0x80) (fun wc =>
   if (negb (wc =? 0xfffd)) then
    let pwc := Some wc in
    Ok (1, pwc)
   else
    Ok ((-1), pwc))).

(* lib/converters/mac_iceland.h:140-170 mac_iceland_wctomb *)
Definition mac_iceland_wctomb_j (c : Z) (r : wlog) : res (Z * wlog) :=
  if (negb (c =? 0)) then
   let r := wr r 0%nat c in
   Ok (1, r)
  else
   Ok ((-1), r).
(* lib/converters/mac_iceland.h:140-170 mac_iceland_wctomb *)
Definition mac_iceland_wctomb (wc : Z) (n : nat) : res (Z * wlog) :=
  let r := ([] : wlog) in
  let c := 0 in
  if (wc <? 0x80) then
   let r := wr r 0%nat wc in
   Ok (1, r)
  else
   if ((wc >=? 0xa0) &&& (wc <? 0x100)) then
    tget mac_iceland_page00 (wc - 0xa0) (fun c =>
    mac_iceland_wctomb_j c r)
   else
    if ((wc >=? 0x130) &&& (wc <? 0x198)) then
     tget mac_iceland_page01 (wc - 0x130) (fun c =>
     mac_iceland_wctomb_j c r)
    else
     if ((wc >=? 0x2c0) &&& (wc <? 0x2e0)) then
      tget mac_iceland_page02 (wc - 0x2c0) (fun c =>
      mac_iceland_wctomb_j c r)
     else
      if (wc =? 0x3c0) then
       let c := 0xb9 in
       mac_iceland_wctomb_j c r
      else
       if ((wc >=? 0x2010) &&& (wc <? 0x2048)) then
        tget mac_iceland_page20 (wc - 0x2010) (fun c =>
        mac_iceland_wctomb_j c r)
       else
        if ((wc >=? 0x2120) &&& (wc <? 0x2128)) then
         tget mac_iceland_page21 (wc - 0x2120) (fun c =>
         mac_iceland_wctomb_j c r)
        else
         if ((wc >=? 0x2200) &&& (wc <? 0x2268)) then
          tget mac_iceland_page22 (wc - 0x2200) (fun c =>
          mac_iceland_wctomb_j c r)
         else
          if (wc =? 0x25ca) then
           let c := 0xd7 in
           mac_iceland_wctomb_j c r
          else
           mac_iceland_wctomb_j c r.

(* lib/converters/mac_roman.h:30-55 mac_roman_2uni *)
Definition mac_roman_2uni : tab := mk [
 [196;197;199;201;209;214;220;225;224;226;228;227;229;231;233;232];
 [234;235;237;236;238;239;241;243;242;244;246;245;250;249;251;252];
 [8224;176;162;163;167;8226;182;223;174;169;8482;180;168;8800;198;216];
 [8734;177;8804;8805;165;181;8706;8721;8719;960;8747;170;186;8486;230;248];
 [191;161;172;8730;402;8776;8710;171;187;8230;160;192;195;213;338;339];
 [8211;8212;8220;8221;8216;8217;247;9674;255;376;8260;164;8249;8250;64257;64258];
 [8225;183;8218;8222;8240;194;202;193;203;200;205;206;207;204;211;212];
 [65533;210;218;219;217;305;710;732;175;728;729;730;184;733;731;711]].

(* lib/converters/mac_roman.h:77-90 mac_roman_page00 *)
Definition mac_roman_page00 : tab := mk [
 [202;193;162;163;219;180;0;164;172;169;187;199;194;0;168;248];
 [161;177;0;0;171;181;166;225;252;0;188;200;0;0;0;192];
 [203;231;229;204;128;129;174;130;233;131;230;232;237;234;235;236];
 [0;132;241;238;239;205;133;0;175;244;242;243;134;0;0;167];
 [136;135;137;139;138;140;190;141;143;142;144;145;147;146;148;149];
 [0;150;152;151;153;155;154;214;191;157;156;158;159;0;0;216]].

(* lib/converters/mac_roman.h:91-105 mac_roman_page01 *)
Definition mac_roman_page01 : tab := mk [
 [0;245;0;0;0;0;0;0;0;0;0;0;0;0;0;0];
 [0;0;0;0;0;0;0;0;0;0;0;0;0;0;0;0];
 [0;0;206;207;0;0;0;0;0;0;0;0;0;0;0;0];
 [0;0;0;0;0;0;0;0;0;0;0;0;0;0;0;0];
 [0;0;0;0;0;0;0;0;217;0;0;0;0;0;0;0];
 [0;0;0;0;0;0;0;0;0;0;0;0;0;0;0;0];
 [0;0;196;0;0;0;0;0]].

(* lib/converters/mac_roman.h:106-111 mac_roman_page02 *)
Definition mac_roman_page02 : tab := mk [
 [0;0;0;0;0;0;246;255;0;0;0;0;0;0;0;0];
 [0;0;0;0;0;0;0;0;249;250;251;254;247;253;0;0]].

(* lib/converters/mac_roman.h:112-120 mac_roman_page20 *)
Definition mac_roman_page20 : tab := mk [
 [0;0;0;208;209;0;0;0;212;213;226;0;210;211;227;0];
 [160;224;165;0;0;0;201;0;0;0;0;0;0;0;0;0];
 [228;0;0;0;0;0;0;0;0;220;221;0;0;0;0;0];
 [0;0;0;0;218;0;0;0]].

(* lib/converters/mac_roman.h:121-123 mac_roman_page21 *)
Definition mac_roman_page21 : tab := mk [
 [0;0;170;0;0;0;189;0]].

(* lib/converters/mac_roman.h:124-138 mac_roman_page22 *)
Definition mac_roman_page22 : tab := mk [
 [0;0;182;0;0;0;198;0;0;0;0;0;0;0;0;184];
 [0;183;0;0;0;0;0;0;0;0;195;0;0;0;176;0];
 [0;0;0;0;0;0;0;0;0;0;0;186;0;0;0;0];
 [0;0;0;0;0;0;0;0;0;0;0;0;0;0;0;0];
 [0;0;0;0;0;0;0;0;197;0;0;0;0;0;0;0];
 [0;0;0;0;0;0;0;0;0;0;0;0;0;0;0;0];
 [173;0;0;0;178;179;0;0]].

(* lib/converters/mac_roman.h:139-141 mac_roman_pagefb *)
Definition mac_roman_pagefb : tab := mk [
 [0;222;223;0;0;0;0;0]].

(* lib/converters/mac_roman.h:57-75 mac_roman_mbtowc *)
Definition mac_roman_mbtowc (s : list Z) (n : nat) : res (Z * option Z) :=
  let pwc := (None : option Z) in
  rd s 0%nat (fun c =>
  if (c <? 0x80) then
   let pwc := Some c in
   Ok (1, pwc)
  else
   tget mac_roman_2uni (c - 0x80) (fun wc =>
   if (negb (wc =? 0xfffd)) then
    let pwc := Some wc in
    Ok (1, pwc)
   else
    Ok ((-1), pwc))).

(* lib/converters/mac_roman.h:143-175 mac_roman_wctomb *)
Definition mac_roman_wctomb_j (c : Z) (r : wlog) : res (Z * wlog) :=
  if (negb (c =? 0)) then
   let r := wr r 0%nat c in
   Ok (1, r)
  else
   Ok ((-1), r).
(* lib/converters/mac_roman.h:143-175 mac_roman_wctomb *)
Definition mac_roman_wctomb (wc : Z) (n : nat) : res (Z * wlog) :=
  let r := ([] : wlog) in
  let c := 0 in
  if (wc <? 0x80) then
   let r := wr r 0%nat wc in
   Ok (1, r)
  else
   if ((wc >=? 0xa0) &&& (wc <? 0x100)) then
    tget mac_roman_page00 (wc - 0xa0) (fun c =>
    mac_roman_wctomb_j c r)
   else
    if ((wc >=? 0x130) &&& (wc <? 0x198)) then
     tget mac_roman_page01 (wc - 0x130) (fun c =>
     mac_roman_wctomb_j c r)
    else
     if ((wc >=? 0x2c0) &&& (wc <? 0x2e0)) then
      tget mac_roman_page02 (wc - 0x2c0) (fun c =>
      mac_roman_wctomb_j c r)
     else
      if (wc =? 0x3c0) then
       let c := 0xb9 in
       mac_roman_wctomb_j c r
      else
       if ((wc >=? 0x2010) &&& (wc <? 0x2048)) then
        tget mac_roman_page20 (wc - 0x2010) (fun c =>
        mac_roman_wctomb_j c r)
       else
        if ((wc >=? 0x2120) &&& (wc <? 0x2128)) then
         tget mac_roman_page21 (wc - 0x2120) (fun c =>
         mac_roman_wctomb_j c r)
        else
         if ((wc >=? 0x2200) &&& (wc <? 0x2268)) then
          tget mac_roman_page22 (wc - 0x2200) (fun c =>
          mac_roman_wctomb_j c r)
         else
          if (wc =? 0x25ca) then
           let c := 0xd7 in
           mac_roman_wctomb_j c r
          else
           if ((wc >=? 0xfb00) &&& (wc <? 0xfb08)) then
            tget mac_roman_pagefb (wc - 0xfb00) (fun c =>
            mac_roman_wctomb_j c r)
           else
            mac_roman_wctomb_j c r.

(* lib/converters/mac_romania.h:30-55 mac_romania_2uni *)
Definition mac_romania_2uni : tab := mk [
 [196;197;199;201;209;214;220;225;224;226;228;227;229;231;233;232];
 [234;235;237;236;238;239;241;243;242;244;246;245;250;249;251;252];
 [8224;176;162;163;167;8226;182;223;174;169;8482;180;168;8800;258;350];
 [8734;177;8804;8805;165;181;8706;8721;8719;960;8747;170;186;8486;259;351];
 [191;161;172;8730;402;8776;8710;171;187;8230;160;192;195;213;338;339];
 [8211;8212;8220;8221;8216;8217;247;9674;255;376;8260;164;8249;8250;354;355];
 [8225;183;8218;8222;8240;194;202;193;203;200;205;206;207;204;211;212];
 [65533;210;218;219;217;305;710;732;175;728;729;730;184;733;731;711]].

(* lib/converters/mac_romania.h:77-110 mac_romania_page00 *)
Definition mac_romania_page00 : tab := mk [
 [202;193;162;163;219;180;0;164;172;169;187;199;194;0;168;248];
 [161;177;0;0;171;181;166;225;252;0;188;200;0;0;0;192];
 [203;231;229;204;128;129;0;130;233;131;230;232;237;234;235;236];
 [0;132;241;238;239;205;133;0;0;244;242;243;134;0;0;167];
 [136;135;137;139;138;140;0;141;143;142;144;145;147;146;148;149];
 [0;150;152;151;153;155;154;214;0;157;156;158;159;0;0;216];
 [0;0;174;190;0;0;0;0;0;0;0;0;0;0;0;0];
 [0;0;0;0;0;0;0;0;0;0;0;0;0;0;0;0];
 [0;0;0;0;0;0;0;0;0;0;0;0;0;0;0;0];
 [0;245;0;0;0;0;0;0;0;0;0;0;0;0;0;0];
 [0;0;0;0;0;0;0;0;0;0;0;0;0;0;0;0];
 [0;0;206;207;0;0;0;0;0;0;0;0;0;0;175;191];
 [0;0;222;223;0;0;0;0;0;0;0;0;0;0;0;0];
 [0;0;0;0;0;0;0;0;217;0;0;0;0;0;0;0];
 [0;0;0;0;0;0;0;0;0;0;0;0;0;0;0;0];
 [0;0;196;0;0;0;0;0]].

(* lib/converters/mac_romania.h:111-116 mac_romania_page02 *)
Definition mac_romania_page02 : tab := mk [
 [0;0;0;0;0;0;246;255;0;0;0;0;0;0;0;0];
 [0;0;0;0;0;0;0;0;249;250;251;254;247;253;0;0]].

(* lib/converters/mac_romania.h:117-125 mac_romania_page20 *)
Definition mac_romania_page20 : tab := mk [
 [0;0;0;208;209;0;0;0;212;213;226;0;210;211;227;0];
 [160;224;165;0;0;0;201;0;0;0;0;0;0;0;0;0];
 [228;0;0;0;0;0;0;0;0;220;221;0;0;0;0;0];
 [0;0;0;0;218;0;0;0]].

(* lib/converters/mac_romania.h:126-128 mac_romania_page21 *)
Definition mac_romania_page21 : tab := mk [
 [0;0;170;0;0;0;189;0]].

(* lib/converters/mac_romania.h:129-143 mac_romania_page22 *)
Definition mac_romania_page22 : tab := mk [
 [0;0;182;0;0;0;198;0;0;0;0;0;0;0;0;184];
 [0;183;0;0;0;0;0;0;0;0;195;0;0;0;176;0];
 [0;0;0;0;0;0;0;0;0;0;0;186;0;0;0;0];
 [0;0;0;0;0;0;0;0;0;0;0;0;0;0;0;0];
 [0;0;0;0;0;0;0;0;197;0;0;0;0;0;0;0];
 [0;0;0;0;0;0;0;0;0;0;0;0;0;0;0;0];
 [173;0;0;0;178;179;0;0]].

(* lib/converters/mac_romania.h:57-75 mac_romania_mbtowc *)
Definition mac_romania_mbtowc (s : list Z) (n : nat) : res (Z * option Z) :=
  let pwc := (None : option Z) in
  rd s 0%nat (fun c =>
  if (c <? 0x80) then
   let pwc := Some c in
   Ok (1, pwc)
  else
   tget mac_romania_2uni (c - 0x80) (fun wc =>
   if (negb (wc =? 0xfffd)) then
    let pwc := Some wc in
    Ok (1, pwc)
   else
    Ok ((-1), pwc))).

(* lib/converters/mac_romania.h:145-173 mac_romania_wctomb *)
Definition mac_romania_wctomb_j (c : Z) (r : wlog) : res (Z * wlog) :=
  if (negb (c =? 0)) then
   let r := wr r 0%nat c in
   Ok (1, r)
  else
   Ok ((-1), r).
(* lib/converters/mac_romania.h:145-173 mac_romania_wctomb *)
Definition mac_romania_wctomb (wc : Z) (n : nat) : res (Z * wlog) :=
  let r := ([] : wlog) in
  let c := 0 in
  if (wc <? 0x80) then
   let r := wr r 0%nat wc in
   Ok (1, r)
  else
   if ((wc >=? 0xa0) &&& (wc <? 0x198)) then
    tget mac_romania_page00 (wc - 0xa0) (fun c =>
    mac_romania_wctomb_j c r)
   else
    if ((wc >=? 0x2c0) &&& (wc <? 0x2e0)) then
     tget mac_romania_page02 (wc - 0x2c0) (fun c =>
     mac_romania_wctomb_j c r)
    else
     if (wc =? 0x3c0) then
      let c := 0xb9 in
      mac_romania_wctomb_j c r
     else
      if ((wc >=? 0x2010) &&& (wc <? 0x2048)) then
       tget mac_romania_page20 (wc - 0x2010) (fun c =>
       mac_romania_wctomb_j c r)
      else
       if ((wc >=? 0x2120) &&& (wc <? 0x2128)) then
        tget mac_romania_page21 (wc - 0x2120) (fun c =>
        mac_romania_wctomb_j c r)
       else
        if ((wc >=? 0x2200) &&& (wc <? 0x2268)) then
         tget mac_romania_page22 (wc - 0x2200) (fun c =>
         mac_romania_wctomb_j c r)
        else
         if (wc =? 0x25ca) then
          let c := 0xd7 in
          mac_romania_wctomb_j c r
         else
          mac_romania_wctomb_j c r.

(* lib/converters/mac_thai.h:30-55 mac_thai_2uni *)
Definition mac_thai_2uni : tab := mk [
 [171;187;8230;63628;63631;63634;63637;63640;63627;63630;63633;63636;63639;8220;8221;63641];
 [65533;8226;63620;63625;63621;63622;63623;63624;63626;63629;63632;63635;63638;8216;8217;65533];
 [160;3585;3586;3587;3588;3589;3590;3591;3592;3593;3594;3595;3596;3597;3598;3599];
 [3600;3601;3602;3603;3604;3605;3606;3607;3608;3609;3610;3611;3612;3613;3614;3615];
 [3616;3617;3618;3619;3620;3621;3622;3623;3624;3625;3626;3627;3628;3629;3630;3631];
 [3632;3633;3634;3635;3636;3637;3638;3639;3640;3641;3642;65279;8203;8211;8212;3647];
 [3648;3649;3650;3651;3652;3653;3654;3655;3656;3657;3658;3659;3660;3661;8482;3663];
 [3664;3665;3666;3667;3668;3669;3670;3671;3672;3673;174;169;65533;65533;65533;65533]].

(* lib/converters/mac_thai.h:77-82 mac_thai_page00 *)
Definition mac_thai_page00 : tab := mk [
 [160;0;0;0;0;0;0;0;0;251;0;128;0;0;250;0];
 [0;0;0;0;0;0;0;0;0;0;0;129;0;0;0;0]].

(* lib/converters/mac_thai.h:83-96 mac_thai_page0e *)
Definition mac_thai_page0e : tab := mk [
 [0;161;162;163;164;165;166;167;168;169;170;171;172;173;174;175];
 [176;177;178;179;180;181;182;183;184;185;186;187;188;189;190;191];
 [192;193;194;195;196;197;198;199;200;201;202;203;204;205;206;207];
 [208;209;210;211;212;213;214;215;216;217;218;0;0;0;0;223];
 [224;225;226;227;228;229;230;231;232;233;234;235;236;237;0;239];
 [240;241;242;243;244;245;246;247;248;249;0;0;0;0;0;0]].

(* lib/converters/mac_thai.h:97-102 mac_thai_page20 *)
Definition mac_thai_page20 : tab := mk [
 [0;0;0;220;0;0;0;0;0;0;0;221;222;0;0;0];
 [157;158;0;0;141;142;0;0;0;0;145;0;0;0;130;0]].

(* lib/converters/mac_thai.h:103-108 mac_thai_pagef8 *)
Definition mac_thai_pagef8 : tab := mk [
 [0;0;0;0;146;148;149;150;151;147;152;136;131;153;137;132];
 [154;138;133;155;139;134;156;140;135;143;0;0;0;0;0;0]].

(* lib/converters/mac_thai.h:57-75 mac_thai_mbtowc *)
Definition mac_thai_mbtowc (s : list Z) (n : nat) : res (Z * option Z) :=
  let pwc := (None : option Z) in
  rd s 0%nat (fun c =>
  if (c <? 0x80) then
   let pwc := Some c in
   Ok (1, pwc)
  else
   tget mac_thai_2uni (c - 0x80) (fun wc =>
   if (negb (wc =? 0xfffd)) then
    let pwc := Some wc in
    Ok (1, pwc)
   else
    Ok ((-1), pwc))).

(* lib/converters/mac_thai.h:110-136 mac_thai_wctomb *)
Definition mac_thai_wctomb_j (c : Z) (r : wlog) : res (Z * wlog) :=
  if (negb (c =? 0)) then
   let r := wr r 0%nat c in
   Ok (1, r)
  else
   Ok ((-1), r).
(* lib/converters/mac_thai.h:110-136 mac_thai_wctomb *)
Definition mac_thai_wctomb (wc : Z) (n : nat) : res (Z * wlog) :=
  let r := ([] : wlog) in
  let c := 0 in
  if (wc <? 0x80) then
   let r := wr r 0%nat wc in
   Ok (1, r)
  else
   if ((wc >=? 0xa0) &&& (wc <? 0xc0)) then
    tget mac_thai_page00 (wc - 0xa0) (fun c =>
    mac_thai_wctomb_j c r)
   else
    if ((wc >=? 0xe00) &&& (wc <? 0xe60)) then
     tget mac_thai_page0e (wc - 0xe00) (fun c =>
     mac_thai_wctomb_j c r)
    else
     if ((wc >=? 0x2008) &&& (wc <? 0x2028)) then
      tget mac_thai_page20 (wc - 0x2008) (fun c =>
      mac_thai_wctomb_j c r)
     else
      if (wc =? 0x2122) then
       let c := 0xee in
       mac_thai_wctomb_j c r
      else
       if ((wc >=? 0xf880) &&& (wc <? 0xf8a0)) then
        tget mac_thai_pagef8 (wc - 0xf880) (fun c =>
        mac_thai_wctomb_j c r)
       else
        if (wc =? 0xfeff) then
         let c := 0xdb in
         mac_thai_wctomb_j c r
        else
         mac_thai_wctomb_j c r.

(* lib/converters/mac_turkish.h:30-55 mac_turkish_2uni *)
Definition mac_turkish_2uni : tab := mk [
 [196;197;199;201;209;214;220;225;224;226;228;227;229;231;233;232];
 [234;235;237;236;238;239;241;243;242;244;246;245;250;249;251;252];
 [8224;176;162;163;167;8226;182;223;174;169;8482;180;168;8800;198;216];
 [8734;177;8804;8805;165;181;8706;8721;8719;960;8747;170;186;8486;230;248];
 [191;161;172;8730;402;8776;8710;171;187;8230;160;192;195;213;338;339];
 [8211;8212;8220;8221;8216;8217;247;9674;255;376;286;287;304;305;350;351];
 [8225;183;8218;8222;8240;194;202;193;203;200;205;206;207;204;211;212];
 [65533;210;218;219;217;65533;710;732;175;728;729;730;184;733;731;711]].

(* lib/converters/mac_turkish.h:77-90 mac_turkish_page00 *)
Definition mac_turkish_page00 : tab := mk [
 [202;193;162;163;0;180;0;164;172;169;187;199;194;0;168;248];
 [161;177;0;0;171;181;166;225;252;0;188;200;0;0;0;192];
 [203;231;229;204;128;129;174;130;233;131;230;232;237;234;235;236];
 [0;132;241;238;239;205;133;0;175;244;242;243;134;0;0;167];
 [136;135;137;139;138;140;190;141;143;142;144;145;147;146;148;149];
 [0;150;152;151;153;155;154;214;191;157;156;158;159;0;0;216]].

(* lib/converters/mac_turkish.h:91-108 mac_turkish_page01 *)
Definition mac_turkish_page01 : tab := mk [
 [0;0;0;0;0;0;218;219;0;0;0;0;0;0;0;0];
 [0;0;0;0;0;0;0;0;220;221;0;0;0;0;0;0];
 [0;0;0;0;0;0;0;0;0;0;0;0;0;0;0;0];
 [0;0;0;0;0;0;0;0;0;0;206;207;0;0;0;0];
 [0;0;0;0;0;0;222;223;0;0;0;0;0;0;0;0];
 [0;0;0;0;0;0;0;0;0;0;0;0;0;0;0;0];
 [217;0;0;0;0;0;0;0;0;0;0;0;0;0;0;0];
 [0;0;0;0;0;0;0;0;0;0;196;0;0;0;0;0]].

(* lib/converters/mac_turkish.h:109-114 mac_turkish_page02 *)
Definition mac_turkish_page02 : tab := mk [
 [0;0;0;0;0;0;246;255;0;0;0;0;0;0;0;0];
 [0;0;0;0;0;0;0;0;249;250;251;254;247;253;0;0]].

(* lib/converters/mac_turkish.h:115-121 mac_turkish_page20 *)
Definition mac_turkish_page20 : tab := mk [
 [0;0;0;208;209;0;0;0;212;213;226;0;210;211;227;0];
 [160;224;165;0;0;0;201;0;0;0;0;0;0;0;0;0];
 [228;0;0;0;0;0;0;0]].

(* lib/converters/mac_turkish.h:122-124 mac_turkish_page21 *)
Definition mac_turkish_page21 : tab := mk [
 [0;0;170;0;0;0;189;0]].

(* lib/converters/mac_turkish.h:125-139 mac_turkish_page22 *)
Definition mac_turkish_page22 : tab := mk [
 [0;0;182;0;0;0;198;0;0;0;0;0;0;0;0;184];
 [0;183;0;0;0;0;0;0;0;0;195;0;0;0;176;0];
 [0;0;0;0;0;0;0;0;0;0;0;186;0;0;0;0];
 [0;0;0;0;0;0;0;0;0;0;0;0;0;0;0;0];
 [0;0;0;0;0;0;0;0;197;0;0;0;0;0;0;0];
 [0;0;0;0;0;0;0;0;0;0;0;0;0;0;0;0];
 [173;0;0;0;178;179;0;0]].

(* lib/converters/mac_turkish.h:57-75 mac_turkish_mbtowc *)
Definition mac_turkish_mbtowc (s : list Z) (n : nat) : res (Z * option Z) :=
  let pwc := (None : option Z) in
  rd s 0%nat (fun c =>
  if (c <? 0x80) then
   let pwc := Some c in
   Ok (1, pwc)
  else
   tget mac_turkish_2uni (c - 0x80) (fun wc =>
   if (negb (wc =? 0xfffd)) then
    let pwc := Some wc in
    Ok (1, pwc)
   else
    Ok ((-1), pwc))).

(* lib/converters/mac_turkish.h:141-171 mac_turkish_wctomb *)
Definition mac_turkish_wctomb_j (c : Z) (r : wlog) : res (Z * wlog) :=
  if (negb (c =? 0)) then
   let r := wr r 0%nat c in
   Ok (1, r)
  else
   Ok ((-1), r).
(* lib/converters/mac_turkish.h:141-171 mac_turkish_wctomb *)
Definition mac_turkish_wctomb (wc : Z) (n : nat) : res (Z * wlog) :=
  let r := ([] : wlog) in
  let c := 0 in
  if (wc <? 0x80) then
   let r := wr r 0%nat wc in
   Ok (1, r)
  else
   if ((wc >=? 0xa0) &&& (wc <? 0x100)) then
    tget mac_turkish_page00 (wc - 0xa0) (fun c =>
    mac_turkish_wctomb_j c r)
   else
    if ((wc >=? 0x118) &&& (wc <? 0x198)) then
     tget mac_turkish_page01 (wc - 0x118) (fun c =>
     mac_turkish_wctomb_j c r)
    else
     if ((wc >=? 0x2c0) &&& (wc <? 0x2e0)) then
      tget mac_turkish_page02 (wc - 0x2c0) (fun c =>
      mac_turkish_wctomb_j c r)
     else
      if (wc =? 0x3c0) then
       let c := 0xb9 in
       mac_turkish_wctomb_j c r
      else
       if ((wc >=? 0x2010) &&& (wc <? 0x2038)) then
        tget mac_turkish_page20 (wc - 0x2010) (fun c =>
        mac_turkish_wctomb_j c r)
       else
        if ((wc >=? 0x2120) &&& (wc <? 0x2128)) then
         tget mac_turkish_page21 (wc - 0x2120) (fun c =>
         mac_turkish_wctomb_j c r)
        else
         if ((wc >=? 0x2200) &&& (wc <? 0x2268)) then
          tget mac_turkish_page22 (wc - 0x2200) (fun c =>
          mac_turkish_wctomb_j c r)
         else
          if (wc =? 0x25ca) then
           let c := 0xd7 in
           mac_turkish_wctomb_j c r
          else
           mac_turkish_wctomb_j c r.

(* lib/converters/mac_ukraine.h:30-55 mac_ukraine_2uni *)
Definition mac_ukraine_2uni : tab := mk [
 [1040;1041;1042;1043;1044;1045;1046;1047;1048;1049;1050;1051;1052;1053;1054;1055];
 [1056;1057;1058;1059;1060;1061;1062;1063;1064;1065;1066;1067;1068;1069;1070;1071];
 [8224;176;1168;163;167;8226;182;1030;174;169;8482;1026;1106;8800;1027;1107];
 [8734;177;8804;8805;1110;181;1169;1032;1028;1108;1031;1111;1033;1113;1034;1114];
 [1112;1029;172;8730;402;8776;8710;171;187;8230;160;1035;1115;1036;1116;1109];
 [8211;8212;8220;8221;8216;8217;247;8222;1038;1118;1039;1119;8470;1025;1105;1103];
 [1072;1073;1074;1075;1076;1077;1078;1079;1080;1081;1082;1083;1084;1085;1086;1087];
 [1088;1089;1090;1091;1092;1093;1094;1095;1096;1097;1098;1099;1100;1101;1102;164]].

(* lib/converters/mac_ukraine.h:67-72 mac_ukraine_page00 *)
Definition mac_ukraine_page00 : tab := mk [
 [202;0;0;163;255;0;0;164;0;169;0;199;194;0;168;0];
 [161;177;0;0;0;181;166;0;0;0;0;200;0;0;0;0]].

(* lib/converters/mac_ukraine.h:73-93 mac_ukraine_page04 *)
Definition mac_ukraine_page04 : tab := mk [
 [0;221;171;174;184;193;167;186;183;188;190;203;205;0;216;218];
 [128;129;130;131;132;133;134;135;136;137;138;139;140;141;142;143];
 [144;145;146;147;148;149;150;151;152;153;154;155;156;157;158;159];
 [224;225;226;227;228;229;230;231;232;233;234;235;236;237;238;239];
 [240;241;242;243;244;245;246;247;248;249;250;251;252;253;254;223];
 [0;222;172;175;185;207;180;187;192;189;191;204;206;0;217;219];
 [0;0;0;0;0;0;0;0;0;0;0;0;0;0;0;0];
 [0;0;0;0;0;0;0;0;0;0;0;0;0;0;0;0];
 [0;0;0;0;0;0;0;0;0;0;0;0;0;0;0;0];
 [162;182;0;0;0;0;0;0]].

(* lib/converters/mac_ukraine.h:94-98 mac_ukraine_page20 *)
Definition mac_ukraine_page20 : tab := mk [
 [0;0;0;208;209;0;0;0;212;213;0;0;210;211;215;0];
 [160;0;165;0;0;0;201;0]].

(* lib/converters/mac_ukraine.h:99-103 mac_ukraine_page21 *)
Definition mac_ukraine_page21 : tab := mk [
 [0;0;0;0;0;0;220;0;0;0;0;0;0;0;0;0];
 [0;0;170;0;0;0;0;0]].

(* lib/converters/mac_ukraine.h:104-118 mac_ukraine_page22 *)
Definition mac_ukraine_page22 : tab := mk [
 [0;0;0;0;0;0;198;0;0;0;0;0;0;0;0;0];
 [0;0;0;0;0;0;0;0;0;0;195;0;0;0;176;0];
 [0;0;0;0;0;0;0;0;0;0;0;0;0;0;0;0];
 [0;0;0;0;0;0;0;0;0;0;0;0;0;0;0;0];
 [0;0;0;0;0;0;0;0;197;0;0;0;0;0;0;0];
 [0;0;0;0;0;0;0;0;0;0;0;0;0;0;0;0];
 [173;0;0;0;178;179;0;0]].

(* lib/converters/mac_ukraine.h:57-65 mac_ukraine_mbtowc *)
Definition mac_ukraine_mbtowc (s : list Z) (n : nat) : res (Z * option Z) :=
  let pwc := (None : option Z) in
  rd s 0%nat (fun c =>
  if (c >=? 0x80) then
   tget mac_ukraine_2uni (c - 0x80) (fun x2 =>
   let pwc := Some x2 in
   Ok (1, pwc))
  else
   let pwc := Some c in
   Ok (1, pwc)).

(* lib/converters/mac_ukraine.h:120-148 mac_ukraine_wctomb *)
Definition mac_ukraine_wctomb_j (c : Z) (r : wlog) : res (Z * wlog) :=
  if (negb (c =? 0)) then
   let r := wr r 0%nat c in
   Ok (1, r)
  else
   Ok ((-1), r).
(* lib/converters/mac_ukraine.h:120-148 mac_ukraine_wctomb *)
Definition mac_ukraine_wctomb (wc : Z) (n : nat) : res (Z * wlog) :=
  let r := ([] : wlog) in
  let c := 0 in
  if (wc <? 0x80) then
   let r := wr r 0%nat wc in
   Ok (1, r)
  else
   if ((wc >=? 0xa0) &&& (wc <? 0xc0)) then
    tget mac_ukraine_page00 (wc - 0xa0) (fun c =>
    mac_ukraine_wctomb_j c r)
   else
    if (wc =? 0xf7) then
     let c := 0xd6 in
     mac_ukraine_wctomb_j c r
    else
     if (wc =? 0x192) then
      let c := 0xc4 in
      mac_ukraine_wctomb_j c r
     else
      if ((wc >=? 0x400) &&& (wc <? 0x498)) then
       tget mac_ukraine_page04 (wc - 0x400) (fun c =>
       mac_ukraine_wctomb_j c r)
      else
       if ((wc >=? 0x2010) &&& (wc <? 0x2028)) then
        tget mac_ukraine_page20 (wc - 0x2010) (fun c =>
        mac_ukraine_wctomb_j c r)
       else
        if ((wc >=? 0x2110) &&& (wc <? 0x2128)) then
         tget mac_ukraine_page21 (wc - 0x2110) (fun c =>
         mac_ukraine_wctomb_j c r)
        else
         if ((wc >=? 0x2200) &&& (wc <? 0x2268)) then
          tget mac_ukraine_page22 (wc - 0x2200) (fun c =>
          mac_ukraine_wctomb_j c r)
         else
          mac_ukraine_wctomb_j c r.

(* lib/converters/mulelao.h:30-49 mulelao_2uni *)
Definition mulelao_2uni : tab := mk [
 [160;3713;3714;65533;3716;65533;65533;3719;3720;65533;3722;65533;65533;3725;65533;65533];
 [65533;65533;65533;65533;3732;3733;3734;3735;65533;3737;3738;3739;3740;3741;3742;3743];
 [65533;3745;3746;3747;65533;3749;65533;3751;65533;65533;3754;3755;65533;3757;3758;3759];
 [3760;3761;3762;3763;3764;3765;3766;3767;3768;3769;65533;3771;3772;3773;65533;65533];
 [3776;3777;3778;3779;3780;65533;3782;65533;3784;3785;3786;3787;3788;3789;65533;65533];
 [3792;3793;3794;3795;3796;3797;3798;3799;3800;3801;65533;65533;3804;3805;65533;65533]].

(* lib/converters/mulelao.h:71-84 mulelao_page0e *)
Definition mulelao_page0e : tab := mk [
 [0;161;162;0;164;0;0;167;168;0;170;0;0;173;0;0];
 [0;0;0;0;180;181;182;183;0;185;186;187;188;189;190;191];
 [0;193;194;195;0;197;0;199;0;0;202;203;0;205;206;207];
 [208;209;210;211;212;213;214;215;216;217;0;219;220;221;0;0];
 [224;225;226;227;228;0;230;0;232;233;234;235;236;237;0;0];
 [240;241;242;243;244;245;246;247;248;249;0;0;252;253;0;0]].

(* lib/converters/mulelao.h:51-69 mulelao_mbtowc *)
Definition mulelao_mbtowc (s : list Z) (n : nat) : res (Z * option Z) :=
  let pwc := (None : option Z) in
  rd s 0%nat (fun c =>
  if (c <? 0xa0) then
   let pwc := Some c in
   Ok (1, pwc)
  else
   tget mulelao_2uni (c - 0xa0) (fun wc =>
   if (negb (wc =? 0xfffd)) then
    let pwc := Some wc in
    Ok (1, pwc)
   else
    Ok ((-1), pwc))).

(* lib/converters/mulelao.h:86-104 mulelao_wctomb *)
Definition mulelao_wctomb_j (c : Z) (r : wlog) : res (Z * wlog) :=
  if (negb (c =? 0)) then
   let r := wr r 0%nat c in
   Ok (1, r)
  else
   Ok ((-1), r).
(* lib/converters/mulelao.h:86-104 mulelao_wctomb *)
Definition mulelao_wctomb (wc : Z) (n : nat) : res (Z * wlog) :=
  let r := ([] : wlog) in
  let c := 0 in
  if (wc <? 0xa0) then
   let r := wr r 0%nat wc in
   Ok (1, r)
  else
   if (wc =? 0xa0) then
    let c := 0xa0 in
    mulelao_wctomb_j c r
   else
    if ((wc >=? 0xe80) &&& (wc <? 0xee0)) then
     tget mulelao_page0e (wc - 0xe80) (fun c =>
     mulelao_wctomb_j c r)
    else
     mulelao_wctomb_j c r.

(* lib/converters/nextstep.h:30-55 nextstep_2uni *)
Definition nextstep_2uni : tab := mk [
 [160;192;193;194;195;196;197;199;200;201;202;203;204;205;206;207];
 [208;209;210;211;212;213;214;217;218;219;220;221;222;181;215;247];
 [169;161;162;163;8260;165;402;167;164;8217;8220;171;8249;8250;64257;64258];
 [174;8211;8224;8225;183;166;182;8226;8218;8222;8221;187;8230;8240;172;191];
 [185;715;180;710;732;175;728;729;168;178;730;184;179;733;731;711];
 [8212;177;188;189;190;224;225;226;227;228;229;231;232;233;234;235];
 [236;198;237;170;238;239;240;241;321;216;338;186;242;243;244;245];
 [246;230;249;250;251;305;252;253;322;248;339;223;254;255;65533;65533]].

(* lib/converters/nextstep.h:77-90 nextstep_page00 *)
Definition nextstep_page00 : tab := mk [
 [128;161;162;163;168;165;181;167;200;160;227;171;190;0;176;197];
 [0;209;201;204;194;157;182;180;203;192;235;187;210;211;212;191];
 [129;130;131;132;133;134;225;135;136;137;138;139;140;141;142;143];
 [144;145;146;147;148;149;150;158;233;151;152;153;154;155;156;251];
 [213;214;215;216;217;218;241;219;220;221;222;223;224;226;228;229];
 [230;231;236;237;238;239;240;159;249;242;243;244;246;247;252;253]].

(* lib/converters/nextstep.h:91-105 nextstep_page01 *)
Definition nextstep_page01 : tab := mk [
 [0;245;0;0;0;0;0;0;0;0;0;0;0;0;0;0];
 [0;232;248;0;0;0;0;0;0;0;0;0;0;0;0;0];
 [0;0;234;250;0;0;0;0;0;0;0;0;0;0;0;0];
 [0;0;0;0;0;0;0;0;0;0;0;0;0;0;0;0];
 [0;0;0;0;0;0;0;0;0;0;0;0;0;0;0;0];
 [0;0;0;0;0;0;0;0;0;0;0;0;0;0;0;0];
 [0;0;166;0;0;0;0;0]].

(* lib/converters/nextstep.h:106-111 nextstep_page02 *)
Definition nextstep_page02 : tab := mk [
 [0;0;0;0;0;0;195;207;0;0;0;193;0;0;0;0];
 [0;0;0;0;0;0;0;0;198;199;202;206;196;205;0;0]].

(* lib/converters/nextstep.h:112-120 nextstep_page20 *)
Definition nextstep_page20 : tab := mk [
 [0;0;0;177;208;0;0;0;0;169;184;0;170;186;185;0];
 [178;179;183;0;0;0;188;0;0;0;0;0;0;0;0;0];
 [189;0;0;0;0;0;0;0;0;172;173;0;0;0;0;0];
 [0;0;0;0;164;0;0;0]].

(* lib/converters/nextstep.h:121-123 nextstep_pagefb *)
Definition nextstep_pagefb : tab := mk [
 [0;174;175;0;0;0;0;0]].

(* lib/converters/nextstep.h:57-75 nextstep_mbtowc *)
Definition nextstep_mbtowc (s : list Z) (n : nat) : res (Z * option Z) :=
  let pwc := (None : option Z) in
  rd s 0%nat (fun c =>
  if (c <? 0x80) then
   let pwc := Some c in
   Ok (1, pwc)
  else
   tget nextstep_2uni (c - 0x80) (fun wc =>
   if (negb (wc =? 0xfffd)) then
    let pwc := Some wc in
    Ok (1, pwc)
   else
    Ok ((-1), pwc))).

(* lib/converters/nextstep.h:125-149 nextstep_wctomb *)
Definition nextstep_wctomb_j (c : Z) (r : wlog) : res (Z * wlog) :=
  if (negb (c =? 0)) then
   let r := wr r 0%nat c in
   Ok (1, r)
  else
   Ok ((-1), r).
(* lib/converters/nextstep.h:125-149 nextstep_wctomb *)
Definition nextstep_wctomb (wc : Z) (n : nat) : res (Z * wlog) :=
  let r := ([] : wlog) in
  let c := 0 in
  if (wc <? 0x80) then
   let r := wr r 0%nat wc in
   Ok (1, r)
  else
   if ((wc >=? 0xa0) &&& (wc <? 0x100)) then
    tget nextstep_page00 (wc - 0xa0) (fun c =>
    nextstep_wctomb_j c r)
   else
    if ((wc >=? 0x130) &&& (wc <? 0x198)) then
     tget nextstep_page01 (wc - 0x130) (fun c =>
     nextstep_wctomb_j c r)
    else
     if ((wc >=? 0x2c0) &&& (wc <? 0x2e0)) then
      tget nextstep_page02 (wc - 0x2c0) (fun c =>
      nextstep_wctomb_j c r)
     else
      if ((wc >=? 0x2010) &&& (wc <? 0x2048)) then
       tget nextstep_page20 (wc - 0x2010) (fun c =>
       nextstep_wctomb_j c r)
      else
       if ((wc >=? 0xfb00) &&& (wc <? 0xfb08)) then
        tget nextstep_pagefb (wc - 0xfb00) (fun c =>
        nextstep_wctomb_j c r)
       else
        nextstep_wctomb_j c r.

(* lib/converters/pt154.h:30-43 pt154_2uni *)
Definition pt154_2uni : tab := mk [
 [1174;1170;1262;1171;8222;8230;1206;1198;1202;1199;1184;1250;1186;1178;1210;1208];
 [1175;8216;8217;8220;8221;8226;8211;8212;1203;1207;1185;1251;1187;1179;1211;1209];
 [160;1038;1118;1032;1256;1176;1200;167;1025;169;1240;171;172;1263;174;1180];
 [176;1201;1030;1110;1177;1257;182;183;1105;8470;1241;187;1112;1194;1195;1181]].

(* lib/converters/pt154.h:57-62 pt154_page00 *)
Definition pt154_page00 : tab := mk [
 [160;0;0;0;0;0;0;167;0;169;0;171;172;0;174;0];
 [176;0;0;0;0;0;182;183;0;0;0;187;0;0;0;0]].

(* lib/converters/pt154.h:63-94 pt154_page04 *)
Definition pt154_page04 : tab := mk [
 [0;168;0;0;0;0;178;0;163;0;0;0;0;0;161;0];
 [192;193;194;195;196;197;198;199;200;201;202;203;204;205;206;207];
 [208;209;210;211;212;213;214;215;216;217;218;219;220;221;222;223];
 [224;225;226;227;228;229;230;231;232;233;234;235;236;237;238;239];
 [240;241;242;243;244;245;246;247;248;249;250;251;252;253;254;255];
 [0;184;0;0;0;0;179;0;188;0;0;0;0;0;162;0];
 [0;0;0;0;0;0;0;0;0;0;0;0;0;0;0;0];
 [0;0;0;0;0;0;0;0;0;0;0;0;0;0;0;0];
 [0;0;0;0;0;0;0;0;0;0;0;0;0;0;0;0];
 [0;0;129;131;0;0;128;144;165;180;141;157;175;191;0;0];
 [138;154;140;156;0;0;0;0;0;0;189;190;0;0;135;137];
 [166;177;136;152;0;0;134;153;143;159;142;158;0;0;0;0];
 [0;0;0;0;0;0;0;0;0;0;0;0;0;0;0;0];
 [0;0;0;0;0;0;0;0;170;186;0;0;0;0;0;0];
 [0;0;139;155;0;0;0;0;164;181;0;0;0;0;130;173]].

(* lib/converters/pt154.h:95-99 pt154_page20 *)
Definition pt154_page20 : tab := mk [
 [0;0;0;150;151;0;0;0;145;146;0;0;147;148;132;0];
 [0;0;149;0;0;0;133;0]].

(* lib/converters/pt154.h:45-55 pt154_mbtowc *)
Definition pt154_mbtowc (s : list Z) (n : nat) : res (Z * option Z) :=
  let pwc := (None : option Z) in
  rd s 0%nat (fun c =>
  if (c <? 0x80) then
   let pwc := Some c in
   Ok (1, pwc)
  else
   if (c >=? 0xc0) then
    let pwc := Some (c + 0x350) in
    Ok (1, pwc)
   else
    tget pt154_2uni (c - 0x80) (fun x2 =>
    let pwc := Some x2 in
    Ok (1, pwc))).

(* lib/converters/pt154.h:101-123 pt154_wctomb *)
Definition pt154_wctomb_j (c : Z) (r : wlog) : res (Z * wlog) :=
  if (negb (c =? 0)) then
   let r := wr r 0%nat c in
   Ok (1, r)
  else
   Ok ((-1), r).
(* lib/converters/pt154.h:101-123 pt154_wctomb *)
Definition pt154_wctomb (wc : Z) (n : nat) : res (Z * wlog) :=
  let r := ([] : wlog) in
  let c := 0 in
  if (wc <? 0x80) then
   let r := wr r 0%nat wc in
   Ok (1, r)
  else
   if ((wc >=? 0xa0) &&& (wc <? 0xc0)) then
    tget pt154_page00 (wc - 0xa0) (fun c =>
    pt154_wctomb_j c r)
   else
    if ((wc >=? 0x400) &&& (wc <? 0x4f0)) then
     tget pt154_page04 (wc - 0x400) (fun c =>
     pt154_wctomb_j c r)
    else
     if ((wc >=? 0x2010) &&& (wc <? 0x2028)) then
      tget pt154_page20 (wc - 0x2010) (fun c =>
      pt154_wctomb_j c r)
     else
      if (wc =? 0x2116) then
       let c := 0xb9 in
       pt154_wctomb_j c r
      else
       pt154_wctomb_j c r.

(* lib/converters/rk1048.h:30-55 rk1048_2uni *)
Definition rk1048_2uni : tab := mk [
 [1026;1027;8218;1107;8222;8230;8224;8225;8364;8240;1033;8249;1034;1178;1210;1039];
 [1106;8216;8217;8220;8221;8226;8211;8212;65533;8482;1113;8250;1114;1179;1211;1119];
 [160;1200;1201;1240;164;1256;166;167;1025;169;1170;171;172;173;174;1198];
 [176;177;1030;1110;1257;181;182;183;1105;8470;1171;187;1241;1186;1187;1199];
 [1040;1041;1042;1043;1044;1045;1046;1047;1048;1049;1050;1051;1052;1053;1054;1055];
 [1056;1057;1058;1059;1060;1061;1062;1063;1064;1065;1066;1067;1068;1069;1070;1071];
 [1072;1073;1074;1075;1076;1077;1078;1079;1080;1081;1082;1083;1084;1085;1086;1087];
 [1088;1089;1090;1091;1092;1093;1094;1095;1096;1097;1098;1099;1100;1101;1102;1103]].

(* lib/converters/rk1048.h:77-82 rk1048_page00 *)
Definition rk1048_page00 : tab := mk [
 [160;0;0;0;164;0;166;167;0;169;0;171;172;173;174;0];
 [176;177;0;0;0;181;182;183;0;0;0;187;0;0;0;0]].

(* lib/converters/rk1048.h:83-114 rk1048_page04 *)
Definition rk1048_page04 : tab := mk [
 [0;168;128;129;0;0;178;0;0;138;140;0;0;0;0;143];
 [192;193;194;195;196;197;198;199;200;201;202;203;204;205;206;207];
 [208;209;210;211;212;213;214;215;216;217;218;219;220;221;222;223];
 [224;225;226;227;228;229;230;231;232;233;234;235;236;237;238;239];
 [240;241;242;243;244;245;246;247;248;249;250;251;252;253;254;255];
 [0;184;144;131;0;0;179;0;0;154;156;0;0;0;0;159];
 [0;0;0;0;0;0;0;0;0;0;0;0;0;0;0;0];
 [0;0;0;0;0;0;0;0;0;0;0;0;0;0;0;0];
 [0;0;0;0;0;0;0;0;0;0;0;0;0;0;0;0];
 [0;0;170;186;0;0;0;0;0;0;141;157;0;0;0;0];
 [0;0;189;190;0;0;0;0;0;0;0;0;0;0;175;191];
 [161;162;0;0;0;0;0;0;0;0;142;158;0;0;0;0];
 [0;0;0;0;0;0;0;0;0;0;0;0;0;0;0;0];
 [0;0;0;0;0;0;0;0;163;188;0;0;0;0;0;0];
 [0;0;0;0;0;0;0;0;165;180;0;0;0;0;0;0]].

(* lib/converters/rk1048.h:115-122 rk1048_page20 *)
Definition rk1048_page20 : tab := mk [
 [0;0;0;150;151;0;0;0;145;146;130;0;147;148;132;0];
 [134;135;149;0;0;0;133;0;0;0;0;0;0;0;0;0];
 [137;0;0;0;0;0;0;0;0;139;155;0;0;0;0;0]].

(* lib/converters/rk1048.h:123-127 rk1048_page21 *)
Definition rk1048_page21 : tab := mk [
 [0;0;0;0;0;0;185;0;0;0;0;0;0;0;0;0];
 [0;0;153;0;0;0;0;0]].

(* lib/converters/rk1048.h:57-75 rk1048_mbtowc *)
Definition rk1048_mbtowc (s : list Z) (n : nat) : res (Z * option Z) :=
  let pwc := (None : option Z) in
  rd s 0%nat (fun c =>
  if (c <? 0x80) then
   let pwc := Some c in
   Ok (1, pwc)
  else
   tget rk1048_2uni (c - 0x80) (fun wc =>
   if (negb (wc =? 0xfffd)) then
    let pwc := Some wc in
    Ok (1, pwc)
   else
    Ok ((-1), pwc))).

(* lib/converters/rk1048.h:129-153 rk1048_wctomb *)
Definition rk1048_wctomb_j (c : Z) (r : wlog) : res (Z * wlog) :=
  if (negb (c =? 0)) then
   let r := wr r 0%nat c in
   Ok (1, r)
  else
   Ok ((-1), r).
(* lib/converters/rk1048.h:129-153 rk1048_wctomb *)
Definition rk1048_wctomb (wc : Z) (n : nat) : res (Z * wlog) :=
  let r := ([] : wlog) in
  let c := 0 in
  if (wc <? 0x80) then
   let r := wr r 0%nat wc in
   Ok (1, r)
  else
   if ((wc >=? 0xa0) &&& (wc <? 0xc0)) then
    tget rk1048_page00 (wc - 0xa0) (fun c =>
    rk1048_wctomb_j c r)
   else
    if ((wc >=? 0x400) &&& (wc <? 0x4f0)) then
     tget rk1048_page04 (wc - 0x400) (fun c =>
     rk1048_wctomb_j c r)
    else
     if ((wc >=? 0x2010) &&& (wc <? 0x2040)) then
      tget rk1048_page20 (wc - 0x2010) (fun c =>
      rk1048_wctomb_j c r)
     else
      if (wc =? 0x20ac) then
       let c := 0x88 in
       rk1048_wctomb_j c r
      else
       if ((wc >=? 0x2110) &&& (wc <? 0x2128)) then
        tget rk1048_page21 (wc - 0x2110) (fun c =>
        rk1048_wctomb_j c r)
       else
        rk1048_wctomb_j c r.

(* lib/converters/tcvn.h:35-37 tcvn_comb_table *)
Definition tcvn_comb_table : tab := mk [
 [176;179;178;177;180]].

(* lib/converters/tcvn.h:45-48 tcvn_comp_bases *)
Definition tcvn_comp_bases : tab := mk [
 [117308350;117308350;0;32;74974212;74974212;12;0;0;768;0;98307]].

(* lib/converters/tcvn.h:50-56 tcvn_2uni_1 *)
Definition tcvn_2uni_1 : tab := mk [
 [0;218;7908;3;7914;7916;7918;7;8;9;10;11;12;13;14;15];
 [16;7912;7920;7922;7926;7928;221;7924]].

(* lib/converters/tcvn.h:57-82 tcvn_2uni_2 *)
Definition tcvn_2uni_2 : tab := mk [
 [192;7842;195;193;7840;7862;7852;200;7866;7868;201;7864;7878;204;7880;296];
 [205;7882;210;7886;213;211;7884;7896;7900;7902;7904;7898;7906;217;7910;360];
 [160;258;194;202;212;416;431;272;259;226;234;244;417;432;273;7856];
 [768;777;771;769;803;224;7843;227;225;7841;7858;7857;7859;7861;7855;7860];
 [7854;7846;7848;7850;7844;7872;7863;7847;7849;7851;7845;7853;232;7874;7867;7869];
 [233;7865;7873;7875;7877;7871;7879;236;7881;7876;7870;7890;297;237;7883;242];
 [7892;7887;245;243;7885;7891;7893;7895;7889;7897;7901;7903;7905;7899;7907;249];
 [7894;7911;361;250;7909;7915;7917;7919;7913;7921;7923;7927;7929;253;7925;7888]].

(* lib/converters/tcvn.h:164-201 tcvn_page00 *)
Definition tcvn_page00 : tab := mk [
 [160;0;0;0;0;0;0;0;0;0;0;0;0;0;0;0];
 [0;0;0;0;0;0;0;0;0;0;0;0;0;0;0;0];
 [128;131;162;130;0;0;0;0;135;138;163;0;141;144;0;0];
 [0;0;146;149;164;148;0;0;0;157;1;0;0;22;0;0];
 [181;184;169;183;0;0;0;0;204;208;170;0;215;221;0;0];
 [0;0;223;227;171;226;0;0;0;239;243;0;0;253;0;0];
 [0;0;161;168;0;0;0;0;0;0;0;0;0;0;0;0];
 [167;174;0;0;0;0;0;0;0;0;0;0;0;0;0;0];
 [0;0;0;0;0;0;0;0;143;220;0;0;0;0;0;0];
 [0;0;0;0;0;0;0;0;0;0;0;0;0;0;0;0];
 [0;0;0;0;0;0;0;0;0;0;0;0;0;0;0;0];
 [0;0;0;0;0;0;0;0;0;0;0;0;0;0;0;0];
 [0;0;0;0;0;0;0;0;159;242;0;0;0;0;0;0];
 [0;0;0;0;0;0;0;0;0;0;0;0;0;0;0;0];
 [0;0;0;0;0;0;0;0;0;0;0;0;0;0;0;0];
 [0;0;0;0;0;0;0;0;0;0;0;0;0;0;0;0];
 [165;172;0;0;0;0;0;0;0;0;0;0;0;0;0;166];
 [173;0;0;0;0;0;0;0]].

(* lib/converters/tcvn.h:202-208 tcvn_page03 *)
Definition tcvn_page03 : tab := mk [
 [176;179;0;178;0;0;0;0;0;177;0;0;0;0;0;0];
 [0;0;0;0;0;0;0;0;0;0;0;0;0;0;0;0];
 [0;0;0;180;0;0;0;0]].

(* lib/converters/tcvn.h:209-222 tcvn_page1e *)
Definition tcvn_page1e : tab := mk [
 [132;185;129;182;196;202;193;199;194;200;195;201;134;203;192;190];
 [175;187;186;188;191;189;133;198;139;209;136;206;137;207;218;213];
 [197;210;205;211;217;212;140;214;142;216;145;222;150;228;147;225];
 [255;232;219;229;224;230;240;231;151;233;155;237;152;234;153;235];
 [154;236;156;238;2;244;158;241;17;248;4;245;5;246;6;247];
 [18;249;19;250;23;254;20;251;21;252;0;0;0;0;0;0]].

(* lib/converters/tcvn.h:87-160 tcvn_mbtowc *)
Fixpoint tcvn_mbtowc_loop (fuel : nat) (i1 : Z) (i2 : Z) (last_wc : Z) (ibo : Z) {struct fuel} : res (Z * option Z * Z * Z) :=
  match fuel with O => NoFuel | S fuel =>
  let i := (Z.shiftr (i1 + i2) 1) in
  tget viet_comp_table_data (2 * i) (fun x9 =>
  if (last_wc =? x9) then
   tget viet_comp_table_data (2 * i + 1) (fun last_wc =>
   let ist := 0 in
   let pwc := Some last_wc in
   Ok (1, pwc, ist, ibo))
  else
   if (last_wc <? x9) then
    if (i1 =? i) then
     let ist := 0 in
     let pwc := Some last_wc in
     Ok (0, pwc, ist, ibo)
    else
     let i2 := i in
     tcvn_mbtowc_loop fuel i1 i2 last_wc ibo
   else
    if (negb (i1 =? i)) then
     let i1 := i in
     tcvn_mbtowc_loop fuel i1 i2 last_wc ibo
    else
     let i := i2 in
     tget viet_comp_table_data (2 * i) (fun x11 =>
     if (last_wc =? x11) then
      tget viet_comp_table_data (2 * i + 1) (fun last_wc =>
      let ist := 0 in
      let pwc := Some last_wc in
      Ok (1, pwc, ist, ibo))
     else
      let ist := 0 in
      let pwc := Some last_wc in
      Ok (0, pwc, ist, ibo)))
  end.
(* lib/converters/tcvn.h:87-160 tcvn_mbtowc *)
Definition tcvn_mbtowc_j2 (k : Z) (last_wc : Z) (ibo : Z) : res (Z * option Z * Z * Z) :=
  tget viet_comp_table (2 * k + 1) (fun i1 =>
  tget viet_comp_table (2 * k) (fun x6 =>
  let i2 := ((i1 + x6) - 1) in
  tget viet_comp_table_data (2 * i1) (fun x7 =>
  if (last_wc >=? x7) then
   tget viet_comp_table_data (2 * i2) (fun x8 =>
   if (last_wc <=? x8) then
    tcvn_mbtowc_loop 64%nat i1 i2 last_wc ibo
   else
    let ist := 0 in
    let pwc := Some last_wc in
    Ok (0, pwc, ist, ibo))
  else
   let ist := 0 in
   let pwc := Some last_wc in
   Ok (0, pwc, ist, ibo)))).
(* lib/converters/tcvn.h:87-160 tcvn_mbtowc *)
Definition tcvn_mbtowc_j (wc : Z) (pwc : option Z) (ist : Z) (ibo : Z) : res (Z * option Z * Z * Z) :=
  let last_wc := (u16 ist) in
  if (negb (last_wc =? 0)) then
   if ((wc >=? 0x300) &&& (wc <? 0x340)) then
    let x4 := wc in
    if (x4 =? 0x300) then
     let k := 0 in
     tcvn_mbtowc_j2 k last_wc ibo
    else
     if (x4 =? 0x301) then
      let k := 1 in
      tcvn_mbtowc_j2 k last_wc ibo
     else
      if (x4 =? 0x303) then
       let k := 2 in
       tcvn_mbtowc_j2 k last_wc ibo
      else
       if (x4 =? 0x309) then
        let k := 3 in
        tcvn_mbtowc_j2 k last_wc ibo
       else
        if (x4 =? 0x323) then
         let k := 4 in
         tcvn_mbtowc_j2 k last_wc ibo
        else
         Abort
   else
    let ist := 0 in
    let pwc := Some last_wc in
    Ok (0, pwc, ist, ibo)
  else
   if ((wc >=? 0x41) &&& (wc <=? 0x1b0)) then
    tget tcvn_comp_bases (Z.shiftr (wc - 0x40) 5) (fun x13 =>
    if (negb ((Z.land (Z.shiftr x13 (Z.land wc 0x1f)) 1) =? 0)) then
     let ist := wc in
     Ok ((-4), pwc, ist, ibo)
    else
     let pwc := Some wc in
     Ok (1, pwc, ist, ibo))
   else
    let pwc := Some wc in
    Ok (1, pwc, ist, ibo).
(* lib/converters/tcvn.h:87-160 tcvn_mbtowc *)
Definition tcvn_mbtowc (s : list Z) (n : nat) (ist : Z) (ibo : Z) : res (Z * option Z * Z * Z) :=
  let pwc := (None : option Z) in
  rd s 0%nat (fun c =>
  if (c <? 0x18) then
   tget tcvn_2uni_1 c (fun wc =>
   tcvn_mbtowc_j wc pwc ist ibo)
  else
   if (c <? 0x80) then
    let wc := c in
    tcvn_mbtowc_j wc pwc ist ibo
   else
    tget tcvn_2uni_2 (c - 0x80) (fun wc =>
    tcvn_mbtowc_j wc pwc ist ibo)).

(* lib/converters/tcvn.h:224-298 tcvn_wctomb *)
Definition tcvn_wctomb_j3 (c : Z) (i : Z) (n : nat) (r : wlog) : res (Z * wlog) :=
  if (Nat.ltb n 2%nat) then
   Ok ((-2), r)
  else
   let r := wr r 0%nat c in
   tget viet_decomp_table (3 * i + 2) (fun x12 =>
   tget tcvn_comb_table x12 (fun x13 =>
   let r := wr r 1%nat x13 in
   Ok (2, r))).
(* lib/converters/tcvn.h:224-298 tcvn_wctomb *)
Definition tcvn_wctomb_j2 (i : Z) (n : nat) (r : wlog) : res (Z * wlog) :=
  tget viet_decomp_table (3 * i + 1) (fun x10 =>
  let wc := x10 in
  if (wc <? 0x80) then
   let c := wc in
   tcvn_wctomb_j3 c i n r
  else
   tget tcvn_page00 (u32 (wc - 0xa0)) (fun c =>
   if (c =? 0) then
    Ok ((-1), r)
   else
    tcvn_wctomb_j3 c i n r)).
(* lib/converters/tcvn.h:224-298 tcvn_wctomb *)
Fixpoint tcvn_wctomb_loop (fuel : nat) (i1 : Z) (i2 : Z) (wc : Z) (n : nat) (r : wlog) {struct fuel} : res (Z * wlog) :=
  match fuel with O => NoFuel | S fuel =>
  let i := (Z.shiftr (i1 + i2) 1) in
  tget viet_decomp_table (3 * i) (fun x7 =>
  if (wc =? x7) then
   tcvn_wctomb_j2 i n r
  else
   if (wc <? x7) then
    if (i1 =? i) then
     Ok ((-1), r)
    else
     let i2 := i in
     tcvn_wctomb_loop fuel i1 i2 wc n r
   else
    if (negb (i1 =? i)) then
     let i1 := i in
     tcvn_wctomb_loop fuel i1 i2 wc n r
    else
     let i := i2 in
     tget viet_decomp_table (3 * i) (fun x9 =>
     if (wc =? x9) then
      tcvn_wctomb_j2 i n r
     else
      Ok ((-1), r)))
  end.
(* lib/converters/tcvn.h:224-298 tcvn_wctomb *)
Definition tcvn_wctomb_j (c : Z) (wc : Z) (n : nat) (r : wlog) : res (Z * wlog) :=
  if (negb (c =? 0)) then
   let r := wr r 0%nat c in
   Ok (1, r)
  else
   let i1 := 0 in
   let i2 := 0xc8 in
   tget viet_decomp_table (3 * i1) (fun x5 =>
   if (wc >=? x5) then
    tget viet_decomp_table (3 * i2) (fun x6 =>
    if (wc <=? x6) then
     tcvn_wctomb_loop 64%nat i1 i2 wc n r
    else
     Ok ((-1), r))
   else
    Ok ((-1), r)).
(* lib/converters/tcvn.h:224-298 tcvn_wctomb *)
Definition tcvn_wctomb (wc : Z) (n : nat) : res (Z * wlog) :=
  let r := ([] : wlog) in
  let c := 0 in
  if ((wc <? 0x80) &&& ((wc >=? 0x20) ||| ((Z.land 0xfe0076 (Z.shiftl 1 wc)) =? 0))) then
   let r := wr r 0%nat wc in
   Ok (1, r)
  else
   if ((wc >=? 0xa0) &&& (wc <? 0x1b8)) then
    tget tcvn_page00 (wc - 0xa0) (fun c =>
    tcvn_wctomb_j c wc n r)
   else
    if ((wc >=? 0x300) &&& (wc <? 0x328)) then
     tget tcvn_page03 (wc - 0x300) (fun c =>
     tcvn_wctomb_j c wc n r)
    else
     if ((wc >=? 0x340) &&& (wc <? 0x342)) then
      tget tcvn_page03 (wc - 0x340) (fun c =>
      tcvn_wctomb_j c wc n r)
     else
      if ((wc >=? 0x1ea0) &&& (wc <? 0x1f00)) then
       tget tcvn_page1e (wc - 0x1ea0) (fun c =>
       tcvn_wctomb_j c wc n r)
      else
       tcvn_wctomb_j c wc n r.

(* lib/converters/tis620.h:30-44 tis620_mbtowc *)
Definition tis620_mbtowc (s : list Z) (n : nat) : res (Z * option Z) :=
  let pwc := (None : option Z) in
  rd s 0%nat (fun c =>
  if (c <? 0x80) then
   let pwc := Some c in
   Ok (1, pwc)
  else
   if (((c >=? 0xa1) &&& (c <=? 0xfb)) &&& (negb ((c >=? 0xdb) &&& (c <=? 0xde)))) then
    let pwc := Some (c + 0xd60) in
    Ok (1, pwc)
   else
    Ok ((-1), pwc)).

(* lib/converters/tis620.h:46-59 tis620_wctomb *)
Definition tis620_wctomb (wc : Z) (n : nat) : res (Z * wlog) :=
  let r := ([] : wlog) in
  if (wc <? 0x80) then
   let r := wr r 0%nat wc in
   Ok (1, r)
  else
   if (((wc >=? 0xe01) &&& (wc <=? 0xe5b)) &&& (negb ((wc >=? 0xe3b) &&& (wc <=? 0xe3e)))) then
    let r := wr r 0%nat (wc - 0xd60) in
    Ok (1, r)
   else
    Ok ((-1), r).

(* lib/converters/viscii.h:32-39 viscii_2uni_1 *)
Definition viscii_2uni_1 : tab := mk [
 [0;1;7858;3;4;7860;7850;7;8;9;10;11;12;13;14;15];
 [16;17;18;19;7926;21;22;23;24;7928;26;27;28;29;7924;31]].

(* lib/converters/viscii.h:40-65 viscii_2uni_2 *)
Definition viscii_2uni_2 : tab := mk [
 [7840;7854;7856;7862;7844;7846;7848;7852;7868;7864;7870;7872;7874;7876;7878;7888];
 [7890;7892;7894;7896;7906;7898;7900;7902;7882;7886;7884;7880;7910;360;7908;7922];
 [213;7855;7857;7863;7845;7847;7849;7853;7869;7865;7871;7873;7875;7877;7879;7889];
 [7891;7893;7895;7904;416;7897;7901;7903;7883;7920;7912;7914;7916;417;7899;431];
 [192;193;194;195;7842;258;7859;7861;200;201;202;7866;204;205;296;7923];
 [272;7913;210;211;212;7841;7927;7915;7917;217;218;7929;7925;221;7905;432];
 [224;225;226;227;7843;259;7919;7851;232;233;234;7867;236;237;297;7881];
 [273;7921;242;243;244;245;7887;7885;7909;249;250;361;7911;253;7907;7918]].

(* lib/converters/viscii.h:80-113 viscii_page00 *)
Definition viscii_page00 : tab := mk [
 [192;193;194;195;0;0;0;0;200;201;202;0;204;205;0;0];
 [0;0;210;211;212;160;0;0;0;217;218;0;0;221;0;0];
 [224;225;226;227;0;0;0;0;232;233;234;0;236;237;0;0];
 [0;0;242;243;244;245;0;0;0;249;250;0;0;253;0;0];
 [0;0;197;229;0;0;0;0;0;0;0;0;0;0;0;0];
 [208;240;0;0;0;0;0;0;0;0;0;0;0;0;0;0];
 [0;0;0;0;0;0;0;0;206;238;0;0;0;0;0;0];
 [0;0;0;0;0;0;0;0;0;0;0;0;0;0;0;0];
 [0;0;0;0;0;0;0;0;0;0;0;0;0;0;0;0];
 [0;0;0;0;0;0;0;0;0;0;0;0;0;0;0;0];
 [0;0;0;0;0;0;0;0;157;251;0;0;0;0;0;0];
 [0;0;0;0;0;0;0;0;0;0;0;0;0;0;0;0];
 [0;0;0;0;0;0;0;0;0;0;0;0;0;0;0;0];
 [0;0;0;0;0;0;0;0;0;0;0;0;0;0;0;0];
 [180;189;0;0;0;0;0;0;0;0;0;0;0;0;0;191];
 [223;0;0;0;0;0;0;0]].

(* lib/converters/viscii.h:114-127 viscii_page1e *)
Definition viscii_page1e : tab := mk [
 [128;213;196;228;132;164;133;165;134;166;6;231;135;167;129;161];
 [130;162;2;198;5;199;131;163;137;169;203;235;136;168;138;170];
 [139;171;140;172;141;173;142;174;155;239;152;184;154;247;153;246];
 [143;175;144;176;145;177;146;178;147;181;149;190;150;182;151;183];
 [179;222;148;254;158;248;156;252;186;209;187;215;188;216;255;230];
 [185;241;159;207;30;220;20;214;25;219;0;0;0;0;0;0]].

(* lib/converters/viscii.h:67-78 viscii_mbtowc *)
Definition viscii_mbtowc (s : list Z) (n : nat) : res (Z * option Z) :=
  let pwc := (None : option Z) in
  rd s 0%nat (fun c =>
  if (c <? 0x20) then
   tget viscii_2uni_1 c (fun x2 =>
   let pwc := Some x2 in
   Ok (1, pwc))
  else
   if (c <? 0x80) then
    let pwc := Some c in
    Ok (1, pwc)
   else
    tget viscii_2uni_2 (c - 0x80) (fun x3 =>
    let pwc := Some x3 in
    Ok (1, pwc))).

(* lib/converters/viscii.h:129-146 viscii_wctomb *)
Definition viscii_wctomb_j (c : Z) (r : wlog) : res (Z * wlog) :=
  if (negb (c =? 0)) then
   let r := wr r 0%nat c in
   Ok (1, r)
  else
   Ok ((-1), r).
(* lib/converters/viscii.h:129-146 viscii_wctomb *)
Definition viscii_wctomb (wc : Z) (n : nat) : res (Z * wlog) :=
  let r := ([] : wlog) in
  let c := 0 in
  if ((wc <? 0x80) &&& ((wc >=? 0x20) ||| ((Z.land 0x42100064 (Z.shiftl 1 wc)) =? 0))) then
   let r := wr r 0%nat wc in
   Ok (1, r)
  else
   if ((wc >=? 0xc0) &&& (wc <? 0x1b8)) then
    tget viscii_page00 (wc - 0xc0) (fun c =>
    viscii_wctomb_j c r)
   else
    if ((wc >=? 0x1ea0) &&& (wc <? 0x1f00)) then
     tget viscii_page1e (wc - 0x1ea0) (fun c =>
     viscii_wctomb_j c r)
    else
     viscii_wctomb_j c r.

(* lib/converters/cp1046.h:30-56 cp1046_2uni *)
Definition cp1046_2uni : tab := mk [
 [65160;215;247;63734;63733;63732;63735;65137;136;9632;9474;9472;9488;9484;9492;9496];
 [65145;65147;65149;65151;65143;65162;65264;65267;65266;65230;65231;65232;65270;65272;65274;65276];
 [160;63738;63737;63736;164;63739;65163;65169;65175;65179;65183;65187;1548;173;65191;65203];
 [1632;1633;1634;1635;1636;1637;1638;1639;1640;1641;65207;1563;65211;65215;65226;1567];
 [65227;1569;1570;1571;1572;1573;1574;1575;1576;1577;1578;1579;1580;1581;1582;1583];
 [1584;1585;1586;1587;1588;1589;1590;1591;65223;1593;1594;65228;65154;65156;65166;65235];
 [1600;1601;1602;1603;1604;1605;1606;1607;1608;1609;1610;1611;1612;1613;1614;1615];
 [1616;1617;1618;65239;65243;65247;63740;65269;65271;65273;65275;65251;65255;65260;65257;65533]].

(* lib/converters/cp1046.h:78-94 cp1046_page00 *)
Definition cp1046_page00 : tab := mk [
 [136;0;0;0;0;0;0;0;0;0;0;0;0;0;0;0];
 [0;0;0;0;0;0;0;0;160;0;0;0;164;0;0;0];
 [0;0;0;0;0;173;0;0;0;0;0;0;0;0;0;0];
 [0;0;0;0;0;0;0;0;0;0;0;0;0;0;0;0];
 [0;0;0;0;0;0;0;0;0;0;0;0;0;0;0;129];
 [0;0;0;0;0;0;0;0;0;0;0;0;0;0;0;0];
 [0;0;0;0;0;0;0;0;0;0;0;0;0;0;0;130]].

(* lib/converters/cp1046.h:95-110 cp1046_page06 *)
Definition cp1046_page06 : tab := mk [
 [0;0;0;0;172;0;0;0;0;0;0;0;0;0;0;0];
 [0;0;0;187;0;0;0;191;0;193;194;195;196;197;198;199];
 [200;201;202;203;204;205;206;207;208;209;210;211;212;213;214;215];
 [0;217;218;0;0;0;0;0;224;225;226;227;228;229;230;231];
 [232;233;234;235;236;237;238;239;240;241;242;0;0;0;0;0];
 [0;0;0;0;0;0;0;0;176;177;178;179;180;181;182;183];
 [184;185;0;0;0;0;0;0]].

(* lib/converters/cp1046.h:111-117 cp1046_page25 *)
Definition cp1046_page25 : tab := mk [
 [139;0;138;0;0;0;0;0;0;0;0;0;141;0;0;0];
 [140;0;0;0;142;0;0;0;143;0;0;0;0;0;0;0]].

(* lib/converters/cp1046.h:118-122 cp1046_pagef8 *)
Definition cp1046_pagef8 : tab := mk [
 [0;0;0;0;133;132;131;134;163;162;161;165;246;0;0;0]].

(* lib/converters/cp1046.h:123-143 cp1046_pagefe *)
Definition cp1046_pagefe : tab := mk [
 [0;135;0;0;0;0;0;148;0;144;0;145;0;146;0;147];
 [0;0;220;0;221;0;0;0;128;0;149;166;0;0;222;0];
 [0;167;0;0;0;0;0;168;0;0;0;169;0;0;0;170];
 [0;0;0;171;0;0;0;174;0;0;0;0;0;0;0;0];
 [0;0;0;175;0;0;0;186;0;0;0;188;0;0;0;189];
 [0;0;0;0;0;0;0;216;0;0;190;192;219;0;153;154];
 [155;0;0;223;0;0;0;243;0;0;0;244;0;0;0;245];
 [0;0;0;251;0;0;0;252;0;254;0;0;253;0;0;0];
 [150;0;152;151;0;247;156;248;157;249;158;250;159;0;0;0]].

(* lib/converters/cp1046.h:58-76 cp1046_mbtowc *)
Definition cp1046_mbtowc (s : list Z) (n : nat) : res (Z * option Z) :=
  let pwc := (None : option Z) in
  rd s 0%nat (fun c =>
  if (c <? 0x80) then
   let pwc := Some c in
   Ok (1, pwc)
  else
   tget cp1046_2uni (c - 0x80) (fun wc =>
   if (negb (wc =? 0xfffd)) then
    let pwc := Some wc in
    Ok (1, pwc)
   else
    Ok ((-1), pwc))).

(* lib/converters/cp1046.h:145-171 cp1046_wctomb *)
Definition cp1046_wctomb_j (c : Z) (r : wlog) : res (Z * wlog) :=
  if (negb (c =? 0)) then
   let r := wr r 0%nat c in
   Ok (1, r)
  else
   Ok ((-1), r).
(* lib/converters/cp1046.h:145-171 cp1046_wctomb *)
Definition cp1046_wctomb (wc : Z) (n : nat) : res (Z * wlog) :=
  let r := ([] : wlog) in
  let c := 0 in
  if (wc <? 0x80) then
   let r := wr r 0%nat wc in
   Ok (1, r)
  else
   if ((wc >=? 0x88) &&& (wc <? 0xf8)) then
    tget cp1046_page00 (wc - 0x88) (fun c =>
    cp1046_wctomb_j c r)
   else
    if ((wc >=? 0x608) &&& (wc <? 0x670)) then
     tget cp1046_page06 (wc - 0x608) (fun c =>
     cp1046_wctomb_j c r)
    else
     if ((wc >=? 0x2500) &&& (wc <? 0x2520)) then
      tget cp1046_page25 (wc - 0x2500) (fun c =>
      cp1046_wctomb_j c r)
     else
      if (wc =? 0x25a0) then
       let c := 0x89 in
       cp1046_wctomb_j c r
      else
       if ((wc >=? 0xf8f0) &&& (wc <? 0xf900)) then
        tget cp1046_pagef8 (wc - 0xf8f0) (fun c =>
        cp1046_wctomb_j c r)
       else
        if ((wc >=? 0xfe70) &&& (wc <? 0xff00)) then
         tget cp1046_pagefe (wc - 0xfe70) (fun c =>
         cp1046_wctomb_j c r)
        else
         cp1046_wctomb_j c r.

(* lib/converters/cp1124.h:30-50 cp1124_2uni *)
Definition cp1124_2uni : tab := mk [
 [160;1025;1026;1168;1028;1029;1030;1031;1032;1033;1034;1035;1036;173;1038;1039];
 [1040;1041;1042;1043;1044;1045;1046;1047;1048;1049;1050;1051;1052;1053;1054;1055];
 [1056;1057;1058;1059;1060;1061;1062;1063;1064;1065;1066;1067;1068;1069;1070;1071];
 [1072;1073;1074;1075;1076;1077;1078;1079;1080;1081;1082;1083;1084;1085;1086;1087];
 [1088;1089;1090;1091;1092;1093;1094;1095;1096;1097;1098;1099;1100;1101;1102;1103];
 [8470;1105;1106;1169;1108;1109;1110;1111;1112;1113;1114;1115;1116;167;1118;1119]].

(* lib/converters/cp1124.h:62-66 cp1124_page00 *)
Definition cp1124_page00 : tab := mk [
 [160;0;0;0;0;0;0;253;0;0;0;0;0;173;0;0]].

(* lib/converters/cp1124.h:67-88 cp1124_page04 *)
Definition cp1124_page04 : tab := mk [
 [0;161;162;0;164;165;166;167;168;169;170;171;172;0;174;175];
 [176;177;178;179;180;181;182;183;184;185;186;187;188;189;190;191];
 [192;193;194;195;196;197;198;199;200;201;202;203;204;205;206;207];
 [208;209;210;211;212;213;214;215;216;217;218;219;220;221;222;223];
 [224;225;226;227;228;229;230;231;232;233;234;235;236;237;238;239];
 [0;241;242;0;244;245;246;247;248;249;250;251;252;0;254;255];
 [0;0;0;0;0;0;0;0;0;0;0;0;0;0;0;0];
 [0;0;0;0;0;0;0;0;0;0;0;0;0;0;0;0];
 [0;0;0;0;0;0;0;0;0;0;0;0;0;0;0;0];
 [163;243;0;0;0;0;0;0]].

(* lib/converters/cp1124.h:52-60 cp1124_mbtowc *)
Definition cp1124_mbtowc (s : list Z) (n : nat) : res (Z * option Z) :=
  let pwc := (None : option Z) in
  rd s 0%nat (fun c =>
  if (c <? 0xa0) then
   let pwc := Some c in
   Ok (1, pwc)
  else
   tget cp1124_2uni (c - 0xa0) (fun x2 =>
   let pwc := Some x2 in
   Ok (1, pwc))).

(* lib/converters/cp1124.h:90-110 cp1124_wctomb *)
Definition cp1124_wctomb_j (c : Z) (r : wlog) : res (Z * wlog) :=
  if (negb (c =? 0)) then
   let r := wr r 0%nat c in
   Ok (1, r)
  else
   Ok ((-1), r).
(* lib/converters/cp1124.h:90-110 cp1124_wctomb *)
Definition cp1124_wctomb (wc : Z) (n : nat) : res (Z * wlog) :=
  let r := ([] : wlog) in
  let c := 0 in
  if (wc <? 0xa0) then
   let r := wr r 0%nat wc in
   Ok (1, r)
  else
   if ((wc >=? 0xa0) &&& (wc <? 0xb0)) then
    tget cp1124_page00 (wc - 0xa0) (fun c =>
    cp1124_wctomb_j c r)
   else
    if ((wc >=? 0x400) &&& (wc <? 0x498)) then
     tget cp1124_page04 (wc - 0x400) (fun c =>
     cp1124_wctomb_j c r)
    else
     if (wc =? 0x2116) then
      let c := 0xf0 in
      cp1124_wctomb_j c r
     else
      cp1124_wctomb_j c r.

(* lib/converters/cp1129.h:30-50 cp1129_2uni *)
Definition cp1129_2uni : tab := mk [
 [160;161;162;163;164;165;166;167;339;169;170;171;172;173;174;175];
 [176;177;178;179;376;181;182;183;338;185;186;187;188;189;190;191];
 [192;193;194;258;196;197;198;199;200;201;202;203;768;205;206;207];
 [272;209;777;211;212;416;214;215;216;217;218;219;220;431;771;223];
 [224;225;226;259;228;229;230;231;232;233;234;235;769;237;238;239];
 [273;241;803;243;244;417;246;247;248;249;250;251;252;432;8363;255]].

(* lib/converters/cp1129.h:62-99 cp1129_page00 *)
Definition cp1129_page00 : tab := mk [
 [0;169;170;171;172;173;174;175;176;177;178;179;0;181;182;183];
 [0;185;186;187;188;189;190;191;192;193;194;0;196;197;198;199];
 [200;201;202;203;0;205;206;207;0;209;0;211;212;0;214;215];
 [216;217;218;219;220;0;0;223;224;225;226;0;228;229;230;231];
 [232;233;234;235;0;237;238;239;0;241;0;243;244;0;246;247];
 [248;249;250;251;252;0;0;255;0;0;195;227;0;0;0;0];
 [0;0;0;0;0;0;0;0;208;240;0;0;0;0;0;0];
 [0;0;0;0;0;0;0;0;0;0;0;0;0;0;0;0];
 [0;0;0;0;0;0;0;0;0;0;0;0;0;0;0;0];
 [0;0;0;0;0;0;0;0;0;0;0;0;0;0;0;0];
 [0;0;0;0;0;0;0;0;0;0;184;168;0;0;0;0];
 [0;0;0;0;0;0;0;0;0;0;0;0;0;0;0;0];
 [0;0;0;0;0;0;0;0;0;0;0;0;0;0;0;0];
 [180;0;0;0;0;0;0;0;0;0;0;0;0;0;0;0];
 [0;0;0;0;0;0;0;0;0;0;0;0;0;0;0;0];
 [0;0;0;0;0;0;0;0;213;245;0;0;0;0;0;0];
 [0;0;0;0;0;0;0;221;253;0;0;0;0;0;0;0]].

(* lib/converters/cp1129.h:101-108 cp1129_page03 *)
Definition cp1129_page03 : tab := mk [
 [204;236;0;222;0;0;0;0;0;210;0;0;0;0;0;0];
 [0;0;0;0;0;0;0;0;0;0;0;0;0;0;0;0];
 [0;0;0;242;0;0;0;0]].

(* lib/converters/cp1129.h:52-60 cp1129_mbtowc *)
Definition cp1129_mbtowc (s : list Z) (n : nat) : res (Z * option Z) :=
  let pwc := (None : option Z) in
  rd s 0%nat (fun c =>
  if (c <? 0xa0) then
   let pwc := Some c in
   Ok (1, pwc)
  else
   tget cp1129_2uni (c - 0xa0) (fun x2 =>
   let pwc := Some x2 in
   Ok (1, pwc))).

(* lib/converters/cp1129.h:110-130 cp1129_wctomb *)
Definition cp1129_wctomb_j (c : Z) (r : wlog) : res (Z * wlog) :=
  if (negb (c =? 0)) then
   let r := wr r 0%nat c in
   Ok (1, r)
  else
   Ok ((-1), r).
(* lib/converters/cp1129.h:110-130 cp1129_wctomb *)
Definition cp1129_wctomb (wc : Z) (n : nat) : res (Z * wlog) :=
  let r := ([] : wlog) in
  let c := 0 in
  if (wc <? 0xa8) then
   let r := wr r 0%nat wc in
   Ok (1, r)
  else
   if ((wc >=? 0xa8) &&& (wc <? 0x1b8)) then
    tget cp1129_page00 (wc - 0xa8) (fun c =>
    cp1129_wctomb_j c r)
   else
    if ((wc >=? 0x300) &&& (wc <? 0x328)) then
     tget cp1129_page03 (wc - 0x300) (fun c =>
     cp1129_wctomb_j c r)
    else
     if (wc =? 0x20ab) then
      let c := 0xfe in
      cp1129_wctomb_j c r
     else
      cp1129_wctomb_j c r.

(* lib/converters/cp1161.h:31-51 cp1161_2uni *)
Definition cp1161_2uni : tab := mk [
 [3656;3585;3586;3587;3588;3589;3590;3591;3592;3593;3594;3595;3596;3597;3598;3599];
 [3600;3601;3602;3603;3604;3605;3606;3607;3608;3609;3610;3611;3612;3613;3614;3615];
 [3616;3617;3618;3619;3620;3621;3622;3623;3624;3625;3626;3627;3628;3629;3630;3631];
 [3632;3633;3634;3635;3636;3637;3638;3639;3640;3641;3642;3657;3658;3659;8364;3647];
 [3648;3649;3650;3651;3652;3653;3654;3655;3656;3657;3658;3659;3660;3661;3662;3663];
 [3664;3665;3666;3667;3668;3669;3670;3671;3672;3673;3674;3675;162;172;166;160]].

(* lib/converters/cp1161.h:72-76 cp1161_page00 *)
Definition cp1161_page00 : tab := mk [
 [255;0;252;0;0;0;254;0;0;0;0;0;253;0;0;0]].

(* lib/converters/cp1161.h:53-70 cp1161_mbtowc *)
Definition cp1161_mbtowc (s : list Z) (n : nat) : res (Z * option Z) :=
  let pwc := (None : option Z) in
  rd s 0%nat (fun c =>
  if (c <? 0x80) then
   let pwc := Some c in
   Ok (1, pwc)
  else
   if (c <? 0xa0) then
    Ok ((-1), pwc)
   else
    tget cp1161_2uni (c - 0xa0) (fun x2 =>
    let pwc := Some x2 in
    Ok (1, pwc))).

(* lib/converters/cp1161.h:78-100 cp1161_wctomb *)
Definition cp1161_wctomb_j (c : Z) (r : wlog) : res (Z * wlog) :=
  if (negb (c =? 0)) then
   let r := wr r 0%nat c in
   Ok (1, r)
  else
   Ok ((-1), r).
(* lib/converters/cp1161.h:78-100 cp1161_wctomb *)
Definition cp1161_wctomb (wc : Z) (n : nat) : res (Z * wlog) :=
  let r := ([] : wlog) in
  let c := 0 in
  if (wc <? 0x80) then
   let r := wr r 0%nat wc in
   Ok (1, r)
  else
   if ((wc >=? 0xa0) &&& (wc <? 0xb0)) then
    tget cp1161_page00 (wc - 0xa0) (fun c =>
    cp1161_wctomb_j c r)
   else
    if ((wc >=? 0xe48) &&& (wc <? 0xe4c)) then
     let c := (wc - 0xd60) in
     cp1161_wctomb_j c r
    else
     if ((wc >=? 0xe00) &&& (wc <? 0xe60)) then
      tget cp874_page0e (wc - 0xe00) (fun c =>
      cp1161_wctomb_j c r)
     else
      if (wc =? 0x20ac) then
       let c := 0xde in
       cp1161_wctomb_j c r
      else
       cp1161_wctomb_j c r.

(* lib/converters/cp1162.h:30-53 cp1162_mbtowc *)
Definition cp1162_mbtowc (s : list Z) (n : nat) : res (Z * option Z) :=
  let pwc := (None : option Z) in
  rd s 0%nat (fun c =>
  if (c <? 0x80) then
   let pwc := Some c in
   Ok (1, pwc)
  else
   tget cp874_2uni (c - 0x80) (fun wc =>
   if (negb (wc =? 0xfffd)) then
    let pwc := Some wc in
    Ok (1, pwc)
   else
    if (c <? 0xa0) then
     let pwc := Some c in
     Ok (1, pwc)
    else
     Ok ((-1), pwc))).

(* lib/converters/cp1162.h:55-79 cp1162_wctomb *)
Definition cp1162_wctomb_j2 (c : Z) (r : wlog) : res (Z * wlog) :=
  if (negb (c =? 0)) then
   let r := wr r 0%nat c in
   Ok (1, r)
  else
   Ok ((-1), r).
(* lib/converters/cp1162.h:55-79 cp1162_wctomb *)
Definition cp1162_wctomb_j (c : Z) (wc : Z) (r : wlog) : res (Z * wlog) :=
  if (wc =? 0xa0) then
   let c := 0xa0 in
   cp1162_wctomb_j2 c r
  else
   if ((wc >=? 0xe00) &&& (wc <? 0xe60)) then
    tget cp874_page0e (wc - 0xe00) (fun c =>
    cp1162_wctomb_j2 c r)
   else
    if ((wc >=? 0x2010) &&& (wc <? 0x2028)) then
     tget cp874_page20 (wc - 0x2010) (fun c =>
     cp1162_wctomb_j2 c r)
    else
     if (wc =? 0x20ac) then
      let c := 0x80 in
      cp1162_wctomb_j2 c r
     else
      cp1162_wctomb_j2 c r.
(* lib/converters/cp1162.h:55-79 cp1162_wctomb *)
Definition cp1162_wctomb (wc : Z) (n : nat) : res (Z * wlog) :=
  let r := ([] : wlog) in
  let c := 0 in
  if (wc <? 0x80) then
   let r := wr r 0%nat wc in
   Ok (1, r)
  else
   if ((wc >=? 0x80) &&& (wc <? 0xa0)) then
    tget cp874_2uni (wc - 0x80) (fun x1 =>
    if (x1 =? 0xfffd) then
     let c := wc in
     cp1162_wctomb_j2 c r
    else
     cp1162_wctomb_j c wc r)
   else
    cp1162_wctomb_j c wc r.

(* lib/converters/cp1163.h:43-45 cp1163_page20 *)
Definition cp1163_page20 : tab := mk [
 [0;0;0;254;164;0;0;0]].

(* lib/converters/cp1163.h:31-41 cp1163_mbtowc *)
Definition cp1163_mbtowc (s : list Z) (n : nat) : res (Z * option Z) :=
  let pwc := (None : option Z) in
  rd s 0%nat (fun c =>
  if (c <? 0xa0) then
   let pwc := Some c in
   Ok (1, pwc)
  else
   if (c =? 0xa4) then
    let pwc := Some 0x20ac in
    Ok (1, pwc)
   else
    tget cp1129_2uni (c - 0xa0) (fun x2 =>
    let pwc := Some x2 in
    Ok (1, pwc))).

(* lib/converters/cp1163.h:47-69 cp1163_wctomb *)
Definition cp1163_wctomb_j (c : Z) (r : wlog) : res (Z * wlog) :=
  if (negb (c =? 0)) then
   let r := wr r 0%nat c in
   Ok (1, r)
  else
   Ok ((-1), r).
(* lib/converters/cp1163.h:47-69 cp1163_wctomb *)
Definition cp1163_wctomb (wc : Z) (n : nat) : res (Z * wlog) :=
  let r := ([] : wlog) in
  let c := 0 in
  if (((wc <? 0xa0) ||| ((wc <? 0xa8) &&& (negb (wc =? 0xa4)))) ||| (wc =? 0xd0)) then
   let r := wr r 0%nat wc in
   Ok (1, r)
  else
   if ((wc >=? 0xa8) &&& (wc <? 0x1b8)) then
    tget cp1129_page00 (wc - 0xa8) (fun c =>
    cp1163_wctomb_j c r)
   else
    if ((wc >=? 0x300) &&& (wc <? 0x328)) then
     tget cp1129_page03 (wc - 0x300) (fun c =>
     cp1163_wctomb_j c r)
    else
     if (wc =? 0x203e) then
      let c := 0xaf in
      cp1163_wctomb_j c r
     else
      if ((wc >=? 0x20a8) &&& (wc <? 0x20b0)) then
       tget cp1163_page20 (wc - 0x20a8) (fun c =>
       cp1163_wctomb_j c r)
      else
       cp1163_wctomb_j c r.

(* lib/converters/cp856.h:30-55 cp856_2uni *)
Definition cp856_2uni : tab := mk [
 [1488;1489;1490;1491;1492;1493;1494;1495;1496;1497;1498;1499;1500;1501;1502;1503];
 [1504;1505;1506;1507;1508;1509;1510;1511;1512;1513;1514;65533;163;65533;215;65533];
 [65533;65533;65533;65533;65533;65533;65533;65533;65533;174;172;189;188;65533;171;187];
 [9617;9618;9619;9474;9508;65533;65533;65533;169;9571;9553;9559;9565;162;165;9488];
 [9492;9524;9516;9500;9472;9532;65533;65533;9562;9556;9577;9574;9568;9552;9580;164];
 [65533;65533;65533;65533;65533;65533;65533;65533;65533;9496;9484;9608;9604;166;65533;9600];
 [65533;65533;65533;65533;65533;65533;181;65533;65533;65533;65533;65533;65533;65533;175;180];
 [173;177;8215;190;182;167;247;184;176;168;183;185;179;178;9632;160]].

(* lib/converters/cp856.h:77-89 cp856_page00 *)
Definition cp856_page00 : tab := mk [
 [255;0;189;156;207;190;221;245;249;184;0;174;170;240;169;238];
 [248;241;253;252;239;230;244;250;247;251;0;175;172;171;243;0];
 [0;0;0;0;0;0;0;0;0;0;0;0;0;0;0;0];
 [0;0;0;0;0;0;0;158;0;0;0;0;0;0;0;0];
 [0;0;0;0;0;0;0;0;0;0;0;0;0;0;0;0];
 [0;0;0;0;0;0;0;246]].

(* lib/converters/cp856.h:90-95 cp856_page05 *)
Definition cp856_page05 : tab := mk [
 [128;129;130;131;132;133;134;135;136;137;138;139;140;141;142;143];
 [144;145;146;147;148;149;150;151;152;153;154;0;0;0;0;0]].

(* lib/converters/cp856.h:96-118 cp856_page25 *)
Definition cp856_page25 : tab := mk [
 [196;0;179;0;0;0;0;0;0;0;0;0;218;0;0;0];
 [191;0;0;0;192;0;0;0;217;0;0;0;195;0;0;0];
 [0;0;0;0;180;0;0;0;0;0;0;0;194;0;0;0];
 [0;0;0;0;193;0;0;0;0;0;0;0;197;0;0;0];
 [0;0;0;0;0;0;0;0;0;0;0;0;0;0;0;0];
 [205;186;0;0;201;0;0;187;0;0;200;0;0;188;0;0];
 [204;0;0;185;0;0;203;0;0;202;0;0;206;0;0;0];
 [0;0;0;0;0;0;0;0;0;0;0;0;0;0;0;0];
 [223;0;0;0;220;0;0;0;219;0;0;0;0;0;0;0];
 [0;176;177;178;0;0;0;0;0;0;0;0;0;0;0;0];
 [254;0;0;0;0;0;0;0]].

(* lib/converters/cp856.h:57-75 cp856_mbtowc *)
Definition cp856_mbtowc (s : list Z) (n : nat) : res (Z * option Z) :=
  let pwc := (None : option Z) in
  rd s 0%nat (fun c =>
  if (c <? 0x80) then
   let pwc := Some c in
   Ok (1, pwc)
  else
   tget cp856_2uni (c - 0x80) (fun wc =>
   if (negb (wc =? 0xfffd)) then
    let pwc := Some wc in
    Ok (1, pwc)
   else
    Ok ((-1), pwc))).

(* lib/converters/cp856.h:120-142 cp856_wctomb *)
Definition cp856_wctomb_j (c : Z) (r : wlog) : res (Z * wlog) :=
  if (negb (c =? 0)) then
   let r := wr r 0%nat c in
   Ok (1, r)
  else
   Ok ((-1), r).
(* lib/converters/cp856.h:120-142 cp856_wctomb *)
Definition cp856_wctomb (wc : Z) (n : nat) : res (Z * wlog) :=
  let r := ([] : wlog) in
  let c := 0 in
  if (wc <? 0x80) then
   let r := wr r 0%nat wc in
   Ok (1, r)
  else
   if ((wc >=? 0xa0) &&& (wc <? 0xf8)) then
    tget cp856_page00 (wc - 0xa0) (fun c =>
    cp856_wctomb_j c r)
   else
    if ((wc >=? 0x5d0) &&& (wc <? 0x5f0)) then
     tget cp856_page05 (wc - 0x5d0) (fun c =>
     cp856_wctomb_j c r)
    else
     if (wc =? 0x2017) then
      let c := 0xf2 in
      cp856_wctomb_j c r
     else
      if ((wc >=? 0x2500) &&& (wc <? 0x25a8)) then
       tget cp856_page25 (wc - 0x2500) (fun c =>
       cp856_wctomb_j c r)
      else
       cp856_wctomb_j c r.

(* lib/converters/cp922.h:30-34 cp922_2uni_1 *)
Definition cp922_2uni_1 : tab := mk [
 [160;161;162;163;164;165;166;167;168;169;170;171;172;173;174;8254]].

(* lib/converters/cp922.h:35-39 cp922_2uni_2 *)
Definition cp922_2uni_2 : tab := mk [
 [352;209;210;211;212;213;214;215;216;217;218;219;220;221;381;223]].

(* lib/converters/cp922.h:40-44 cp922_2uni_3 *)
Definition cp922_2uni_3 : tab := mk [
 [353;241;242;243;244;245;246;247;248;249;250;251;252;253;382;255]].

(* lib/converters/cp922.h:64-76 cp922_page00 *)
Definition cp922_page00 : tab := mk [
 [168;169;170;171;172;173;174;0;176;177;178;179;180;181;182;183];
 [184;185;186;187;188;189;190;191;192;193;194;195;196;197;198;199];
 [200;201;202;203;204;205;206;207;0;209;210;211;212;213;214;215];
 [216;217;218;219;220;221;0;223;224;225;226;227;228;229;230;231];
 [232;233;234;235;236;237;238;239;0;241;242;243;244;245;246;247];
 [248;249;250;251;252;253;0;255]].

(* lib/converters/cp922.h:77-82 cp922_page01 *)
Definition cp922_page01 : tab := mk [
 [208;240;0;0;0;0;0;0;0;0;0;0;0;0;0;0];
 [0;0;0;0;0;0;0;0;0;0;0;0;0;222;254;0]].

(* lib/converters/cp922.h:46-62 cp922_mbtowc *)
Definition cp922_mbtowc (s : list Z) (n : nat) : res (Z * option Z) :=
  let pwc := (None : option Z) in
  rd s 0%nat (fun c =>
  if (c <? 0xa0) then
   let pwc := Some c in
   Ok (1, pwc)
  else
   if (c <? 0xb0) then
    tget cp922_2uni_1 (c - 0xa0) (fun x2 =>
    let pwc := Some x2 in
    Ok (1, pwc))
   else
    if (c <? 0xd0) then
     let pwc := Some c in
     Ok (1, pwc)
    else
     if (c <? 0xe0) then
      tget cp922_2uni_2 (c - 0xd0) (fun x3 =>
      let pwc := Some x3 in
      Ok (1, pwc))
     else
      if (c <? 0xf0) then
       let pwc := Some c in
       Ok (1, pwc)
      else
       tget cp922_2uni_3 (c - 0xf0) (fun x4 =>
       let pwc := Some x4 in
       Ok (1, pwc))).

(* lib/converters/cp922.h:84-104 cp922_wctomb *)
Definition cp922_wctomb_j (c : Z) (r : wlog) : res (Z * wlog) :=
  if (negb (c =? 0)) then
   let r := wr r 0%nat c in
   Ok (1, r)
  else
   Ok ((-1), r).
(* lib/converters/cp922.h:84-104 cp922_wctomb *)
Definition cp922_wctomb (wc : Z) (n : nat) : res (Z * wlog) :=
  let r := ([] : wlog) in
  let c := 0 in
  if (wc <? 0xa8) then
   let r := wr r 0%nat wc in
   Ok (1, r)
  else
   if ((wc >=? 0xa8) &&& (wc <? 0x100)) then
    tget cp922_page00 (wc - 0xa8) (fun c =>
    cp922_wctomb_j c r)
   else
    if ((wc >=? 0x160) &&& (wc <? 0x180)) then
     tget cp922_page01 (wc - 0x160) (fun c =>
     cp922_wctomb_j c r)
    else
     if (wc =? 0x203e) then
      let c := 0xaf in
      cp922_wctomb_j c r
     else
      cp922_wctomb_j c r.

(* lib/converters/cp1125.h:30-47 cp1125_2uni *)
Definition cp1125_2uni : tab := mk [
 [9617;9618;9619;9474;9508;9569;9570;9558;9557;9571;9553;9559;9565;9564;9563;9488];
 [9492;9524;9516;9500;9472;9532;9566;9567;9562;9556;9577;9574;9568;9552;9580;9575];
 [9576;9572;9573;9561;9560;9554;9555;9579;9578;9496;9484;9608;9604;9612;9616;9600];
 [1088;1089;1090;1091;1092;1093;1094;1095;1096;1097;1098;1099;1100;1101;1102;1103];
 [1025;1105;1168;1169;1028;1108;1030;1110;1031;1111;183;8730;8470;164;9632;160]].

(* lib/converters/cp1125.h:61-66 cp1125_page00 *)
Definition cp1125_page00 : tab := mk [
 [255;0;0;0;253;0;0;0;0;0;0;0;0;0;0;0];
 [0;0;0;0;0;0;0;250]].

(* lib/converters/cp1125.h:67-88 cp1125_page04 *)
Definition cp1125_page04 : tab := mk [
 [0;240;0;0;244;0;246;248;0;0;0;0;0;0;0;0];
 [128;129;130;131;132;133;134;135;136;137;138;139;140;141;142;143];
 [144;145;146;147;148;149;150;151;152;153;154;155;156;157;158;159];
 [160;161;162;163;164;165;166;167;168;169;170;171;172;173;174;175];
 [224;225;226;227;228;229;230;231;232;233;234;235;236;237;238;239];
 [0;241;0;0;245;0;247;249;0;0;0;0;0;0;0;0];
 [0;0;0;0;0;0;0;0;0;0;0;0;0;0;0;0];
 [0;0;0;0;0;0;0;0;0;0;0;0;0;0;0;0];
 [0;0;0;0;0;0;0;0;0;0;0;0;0;0;0;0];
 [242;243;0;0;0;0;0;0]].

(* lib/converters/cp1125.h:89-112 cp1125_page25 *)
Definition cp1125_page25 : tab := mk [
 [196;0;179;0;0;0;0;0;0;0;0;0;218;0;0;0];
 [191;0;0;0;192;0;0;0;217;0;0;0;195;0;0;0];
 [0;0;0;0;180;0;0;0;0;0;0;0;194;0;0;0];
 [0;0;0;0;193;0;0;0;0;0;0;0;197;0;0;0];
 [0;0;0;0;0;0;0;0;0;0;0;0;0;0;0;0];
 [205;186;213;214;201;184;183;187;212;211;200;190;189;188;198;199];
 [204;181;182;185;209;210;203;207;208;202;216;215;206;0;0;0];
 [0;0;0;0;0;0;0;0;0;0;0;0;0;0;0;0];
 [223;0;0;0;220;0;0;0;219;0;0;0;221;0;0;0];
 [222;176;177;178;0;0;0;0;0;0;0;0;0;0;0;0];
 [254;0;0;0;0;0;0;0]].

(* lib/converters/cp1125.h:49-59 cp1125_mbtowc *)
Definition cp1125_mbtowc (s : list Z) (n : nat) : res (Z * option Z) :=
  let pwc := (None : option Z) in
  rd s 0%nat (fun c =>
  if (c <? 0x80) then
   let pwc := Some c in
   Ok (1, pwc)
  else
   if (c <? 0xb0) then
    let pwc := Some (c + 0x390) in
    Ok (1, pwc)
   else
    tget cp1125_2uni (c - 0xb0) (fun x2 =>
    let pwc := Some x2 in
    Ok (1, pwc))).

(* lib/converters/cp1125.h:114-138 cp1125_wctomb *)
Definition cp1125_wctomb_j (c : Z) (r : wlog) : res (Z * wlog) :=
  if (negb (c =? 0)) then
   let r := wr r 0%nat c in
   Ok (1, r)
  else
   Ok ((-1), r).
(* lib/converters/cp1125.h:114-138 cp1125_wctomb *)
Definition cp1125_wctomb (wc : Z) (n : nat) : res (Z * wlog) :=
  let r := ([] : wlog) in
  let c := 0 in
  if (wc <? 0x80) then
   let r := wr r 0%nat wc in
   Ok (1, r)
  else
   if ((wc >=? 0xa0) &&& (wc <? 0xb8)) then
    tget cp1125_page00 (wc - 0xa0) (fun c =>
    cp1125_wctomb_j c r)
   else
    if ((wc >=? 0x400) &&& (wc <? 0x498)) then
     tget cp1125_page04 (wc - 0x400) (fun c =>
     cp1125_wctomb_j c r)
    else
     if (wc =? 0x2116) then
      let c := 0xfc in
      cp1125_wctomb_j c r
     else
      if (wc =? 0x221a) then
       let c := 0xfb in
       cp1125_wctomb_j c r
      else
       if ((wc >=? 0x2500) &&& (wc <? 0x25a8)) then
        tget cp1125_page25 (wc - 0x2500) (fun c =>
        cp1125_wctomb_j c r)
       else
        cp1125_wctomb_j c r.

(* lib/converters/cp437.h:30-55 cp437_2uni *)
Definition cp437_2uni : tab := mk [
 [199;252;233;226;228;224;229;231;234;235;232;239;238;236;196;197];
 [201;230;198;244;246;242;251;249;255;214;220;162;163;165;8359;402];
 [225;237;243;250;241;209;170;186;191;8976;172;189;188;161;171;187];
 [9617;9618;9619;9474;9508;9569;9570;9558;9557;9571;9553;9559;9565;9564;9563;9488];
 [9492;9524;9516;9500;9472;9532;9566;9567;9562;9556;9577;9574;9568;9552;9580;9575];
 [9576;9572;9573;9561;9560;9554;9555;9579;9578;9496;9484;9608;9604;9612;9616;9600];
 [945;223;915;960;931;963;181;964;934;920;937;948;8734;966;949;8745];
 [8801;177;8805;8804;8992;8993;247;8776;176;8729;183;8730;8319;178;9632;160]].

(* lib/converters/cp437.h:67-80 cp437_page00 *)
Definition cp437_page00 : tab := mk [
 [255;173;155;156;0;157;0;0;0;0;166;174;170;0;0;0];
 [248;241;253;0;0;230;0;250;0;0;167;175;172;171;0;168];
 [0;0;0;0;142;143;146;128;0;144;0;0;0;0;0;0];
 [0;165;0;0;0;0;153;0;0;0;0;0;154;0;0;225];
 [133;160;131;0;132;134;145;135;138;130;136;137;141;161;140;139];
 [0;164;149;162;147;0;148;246;0;151;163;150;129;0;0;152]].

(* lib/converters/cp437.h:81-89 cp437_page03 *)
Definition cp437_page03 : tab := mk [
 [0;0;0;226;0;0;0;0;233;0;0;0;0;0;0;0];
 [0;0;0;228;0;0;232;0;0;234;0;0;0;0;0;0];
 [0;224;0;0;235;238;0;0;0;0;0;0;0;0;0;0];
 [227;0;0;229;231;0;237;0]].

(* lib/converters/cp437.h:90-101 cp437_page22 *)
Definition cp437_page22 : tab := mk [
 [0;249;251;0;0;0;236;0;0;0;0;0;0;0;0;0];
 [0;239;0;0;0;0;0;0;0;0;0;0;0;0;0;0];
 [0;0;0;0;0;0;0;0;0;0;0;0;0;0;0;0];
 [247;0;0;0;0;0;0;0;0;0;0;0;0;0;0;0];
 [0;0;0;0;0;0;0;0;0;240;0;0;243;242;0;0]].

(* lib/converters/cp437.h:102-106 cp437_page23 *)
Definition cp437_page23 : tab := mk [
 [169;0;0;0;0;0;0;0;0;0;0;0;0;0;0;0];
 [244;245;0;0;0;0;0;0]].

(* lib/converters/cp437.h:107-129 cp437_page25 *)
Definition cp437_page25 : tab := mk [
 [196;0;179;0;0;0;0;0;0;0;0;0;218;0;0;0];
 [191;0;0;0;192;0;0;0;217;0;0;0;195;0;0;0];
 [0;0;0;0;180;0;0;0;0;0;0;0;194;0;0;0];
 [0;0;0;0;193;0;0;0;0;0;0;0;197;0;0;0];
 [0;0;0;0;0;0;0;0;0;0;0;0;0;0;0;0];
 [205;186;213;214;201;184;183;187;212;211;200;190;189;188;198;199];
 [204;181;182;185;209;210;203;207;208;202;216;215;206;0;0;0];
 [0;0;0;0;0;0;0;0;0;0;0;0;0;0;0;0];
 [223;0;0;0;220;0;0;0;219;0;0;0;221;0;0;0];
 [222;176;177;178;0;0;0;0;0;0;0;0;0;0;0;0];
 [254;0;0;0;0;0;0;0]].

(* lib/converters/cp437.h:57-65 cp437_mbtowc *)
Definition cp437_mbtowc (s : list Z) (n : nat) : res (Z * option Z) :=
  let pwc := (None : option Z) in
  rd s 0%nat (fun c =>
  if (c <? 0x80) then
   let pwc := Some c in
   Ok (1, pwc)
  else
   tget cp437_2uni (c - 0x80) (fun x2 =>
   let pwc := Some x2 in
   Ok (1, pwc))).

(* lib/converters/cp437.h:131-161 cp437_wctomb *)
Definition cp437_wctomb_j (c : Z) (r : wlog) : res (Z * wlog) :=
  if (negb (c =? 0)) then
   let r := wr r 0%nat c in
   Ok (1, r)
  else
   Ok ((-1), r).
(* lib/converters/cp437.h:131-161 cp437_wctomb *)
Definition cp437_wctomb (wc : Z) (n : nat) : res (Z * wlog) :=
  let r := ([] : wlog) in
  let c := 0 in
  if (wc <? 0x80) then
   let r := wr r 0%nat wc in
   Ok (1, r)
  else
   if ((wc >=? 0xa0) &&& (wc <? 0x100)) then
    tget cp437_page00 (wc - 0xa0) (fun c =>
    cp437_wctomb_j c r)
   else
    if (wc =? 0x192) then
     let c := 0x9f in
     cp437_wctomb_j c r
    else
     if ((wc >=? 0x390) &&& (wc <? 0x3c8)) then
      tget cp437_page03 (wc - 0x390) (fun c =>
      cp437_wctomb_j c r)
     else
      if (wc =? 0x207f) then
       let c := 0xfc in
       cp437_wctomb_j c r
      else
       if (wc =? 0x20a7) then
        let c := 0x9e in
        cp437_wctomb_j c r
       else
        if ((wc >=? 0x2218) &&& (wc <? 0x2268)) then
         tget cp437_page22 (wc - 0x2218) (fun c =>
         cp437_wctomb_j c r)
        else
         if ((wc >=? 0x2310) &&& (wc <? 0x2328)) then
          tget cp437_page23 (wc - 0x2310) (fun c =>
          cp437_wctomb_j c r)
         else
          if ((wc >=? 0x2500) &&& (wc <? 0x25a8)) then
           tget cp437_page25 (wc - 0x2500) (fun c =>
           cp437_wctomb_j c r)
          else
           cp437_wctomb_j c r.

(* lib/converters/cp737.h:30-55 cp737_2uni *)
Definition cp737_2uni : tab := mk [
 [913;914;915;916;917;918;919;920;921;922;923;924;925;926;927;928];
 [929;931;932;933;934;935;936;937;945;946;947;948;949;950;951;952];
 [953;954;955;956;957;958;959;960;961;963;962;964;965;966;967;968];
 [9617;9618;9619;9474;9508;9569;9570;9558;9557;9571;9553;9559;9565;9564;9563;9488];
 [9492;9524;9516;9500;9472;9532;9566;9567;9562;9556;9577;9574;9568;9552;9580;9575];
 [9576;9572;9573;9561;9560;9554;9555;9579;9578;9496;9484;9608;9604;9612;9616;9600];
 [969;940;941;942;970;943;972;973;971;974;902;904;905;906;908;910];
 [911;177;8805;8804;938;939;247;8776;176;8729;183;8730;8319;178;9632;160]].

(* lib/converters/cp737.h:67-71 cp737_page00 *)
Definition cp737_page00 : tab := mk [
 [255;0;0;0;0;0;0;0;0;0;0;0;0;0;0;0];
 [248;241;253;0;0;0;0;250]].

(* lib/converters/cp737.h:72-83 cp737_page03 *)
Definition cp737_page03 : tab := mk [
 [0;0;0;0;0;0;234;0;235;236;237;0;238;0;239;240];
 [0;128;129;130;131;132;133;134;135;136;137;138;139;140;141;142];
 [143;144;0;145;146;147;148;149;150;151;244;245;225;226;227;229];
 [0;152;153;154;155;156;157;158;159;160;161;162;163;164;165;166];
 [167;168;170;169;171;172;173;174;175;224;228;232;230;231;233;0]].

(* lib/converters/cp737.h:84-95 cp737_page22 *)
Definition cp737_page22 : tab := mk [
 [0;249;251;0;0;0;0;0;0;0;0;0;0;0;0;0];
 [0;0;0;0;0;0;0;0;0;0;0;0;0;0;0;0];
 [0;0;0;0;0;0;0;0;0;0;0;0;0;0;0;0];
 [247;0;0;0;0;0;0;0;0;0;0;0;0;0;0;0];
 [0;0;0;0;0;0;0;0;0;0;0;0;243;242;0;0]].

(* lib/converters/cp737.h:96-118 cp737_page25 *)
Definition cp737_page25 : tab := mk [
 [196;0;179;0;0;0;0;0;0;0;0;0;218;0;0;0];
 [191;0;0;0;192;0;0;0;217;0;0;0;195;0;0;0];
 [0;0;0;0;180;0;0;0;0;0;0;0;194;0;0;0];
 [0;0;0;0;193;0;0;0;0;0;0;0;197;0;0;0];
 [0;0;0;0;0;0;0;0;0;0;0;0;0;0;0;0];
 [205;186;213;214;201;184;183;187;212;211;200;190;189;188;198;199];
 [204;181;182;185;209;210;203;207;208;202;216;215;206;0;0;0];
 [0;0;0;0;0;0;0;0;0;0;0;0;0;0;0;0];
 [223;0;0;0;220;0;0;0;219;0;0;0;221;0;0;0];
 [222;176;177;178;0;0;0;0;0;0;0;0;0;0;0;0];
 [254;0;0;0;0;0;0;0]].

(* lib/converters/cp737.h:57-65 cp737_mbtowc *)
Definition cp737_mbtowc (s : list Z) (n : nat) : res (Z * option Z) :=
  let pwc := (None : option Z) in
  rd s 0%nat (fun c =>
  if (c <? 0x80) then
   let pwc := Some c in
   Ok (1, pwc)
  else
   tget cp737_2uni (c - 0x80) (fun x2 =>
   let pwc := Some x2 in
   Ok (1, pwc))).

(* lib/converters/cp737.h:120-146 cp737_wctomb *)
Definition cp737_wctomb_j (c : Z) (r : wlog) : res (Z * wlog) :=
  if (negb (c =? 0)) then
   let r := wr r 0%nat c in
   Ok (1, r)
  else
   Ok ((-1), r).
(* lib/converters/cp737.h:120-146 cp737_wctomb *)
Definition cp737_wctomb (wc : Z) (n : nat) : res (Z * wlog) :=
  let r := ([] : wlog) in
  let c := 0 in
  if (wc <? 0x80) then
   let r := wr r 0%nat wc in
   Ok (1, r)
  else
   if ((wc >=? 0xa0) &&& (wc <? 0xb8)) then
    tget cp737_page00 (wc - 0xa0) (fun c =>
    cp737_wctomb_j c r)
   else
    if (wc =? 0xf7) then
     let c := 0xf6 in
     cp737_wctomb_j c r
    else
     if ((wc >=? 0x380) &&& (wc <? 0x3d0)) then
      tget cp737_page03 (wc - 0x380) (fun c =>
      cp737_wctomb_j c r)
     else
      if (wc =? 0x207f) then
       let c := 0xfc in
       cp737_wctomb_j c r
      else
       if ((wc >=? 0x2218) &&& (wc <? 0x2268)) then
        tget cp737_page22 (wc - 0x2218) (fun c =>
        cp737_wctomb_j c r)
       else
        if ((wc >=? 0x2500) &&& (wc <? 0x25a8)) then
         tget cp737_page25 (wc - 0x2500) (fun c =>
         cp737_wctomb_j c r)
        else
         cp737_wctomb_j c r.

(* lib/converters/cp775.h:30-55 cp775_2uni *)
Definition cp775_2uni : tab := mk [
 [262;252;233;257;228;291;229;263;322;275;342;343;299;377;196;197];
 [201;230;198;333;246;290;162;346;347;214;220;248;163;216;215;164];
 [256;298;243;379;380;378;8221;166;169;174;172;189;188;321;171;187];
 [9617;9618;9619;9474;9508;260;268;280;278;9571;9553;9559;9565;302;352;9488];
 [9492;9524;9516;9500;9472;9532;370;362;9562;9556;9577;9574;9568;9552;9580;381];
 [261;269;281;279;303;353;371;363;382;9496;9484;9608;9604;9612;9616;9600];
 [211;223;332;323;245;213;181;324;310;311;315;316;326;274;325;8217];
 [173;177;8220;190;182;167;247;8222;176;8729;183;185;179;178;9632;160]].

(* lib/converters/cp775.h:67-97 cp775_page00 *)
Definition cp775_page00 : tab := mk [
 [255;0;150;156;159;0;167;245;0;168;0;174;170;240;169;0];
 [248;241;253;252;0;230;244;250;0;251;0;175;172;171;243;0];
 [0;0;0;0;142;143;146;0;0;144;0;0;0;0;0;0];
 [0;0;0;224;0;229;153;158;157;0;0;0;154;0;0;225];
 [0;0;0;0;132;134;145;0;0;130;0;0;0;0;0;0];
 [0;0;0;162;0;228;148;246;155;0;0;0;129;0;0;0];
 [160;131;0;0;181;208;128;135;0;0;0;0;182;209;0;0];
 [0;0;237;137;0;0;184;211;183;210;0;0;0;0;0;0];
 [0;0;149;133;0;0;0;0;0;0;161;140;0;0;189;212];
 [0;0;0;0;0;0;232;233;0;0;0;234;235;0;0;0];
 [0;173;136;227;231;238;236;0;0;0;0;0;226;147;0;0];
 [0;0;0;0;0;0;138;139;0;0;151;152;0;0;0;0];
 [190;213;0;0;0;0;0;0;0;0;199;215;0;0;0;0];
 [0;0;198;214;0;0;0;0;0;141;165;163;164;207;216;0]].

(* lib/converters/cp775.h:98-100 cp775_page20 *)
Definition cp775_page20 : tab := mk [
 [0;239;0;0;242;166;247;0]].

(* lib/converters/cp775.h:101-123 cp775_page25 *)
Definition cp775_page25 : tab := mk [
 [196;0;179;0;0;0;0;0;0;0;0;0;218;0;0;0];
 [191;0;0;0;192;0;0;0;217;0;0;0;195;0;0;0];
 [0;0;0;0;180;0;0;0;0;0;0;0;194;0;0;0];
 [0;0;0;0;193;0;0;0;0;0;0;0;197;0;0;0];
 [0;0;0;0;0;0;0;0;0;0;0;0;0;0;0;0];
 [205;186;0;0;201;0;0;187;0;0;200;0;0;188;0;0];
 [204;0;0;185;0;0;203;0;0;202;0;0;206;0;0;0];
 [0;0;0;0;0;0;0;0;0;0;0;0;0;0;0;0];
 [223;0;0;0;220;0;0;0;219;0;0;0;221;0;0;0];
 [222;176;177;178;0;0;0;0;0;0;0;0;0;0;0;0];
 [254;0;0;0;0;0;0;0]].

(* lib/converters/cp775.h:57-65 cp775_mbtowc *)
Definition cp775_mbtowc (s : list Z) (n : nat) : res (Z * option Z) :=
  let pwc := (None : option Z) in
  rd s 0%nat (fun c =>
  if (c <? 0x80) then
   let pwc := Some c in
   Ok (1, pwc)
  else
   tget cp775_2uni (c - 0x80) (fun x2 =>
   let pwc := Some x2 in
   Ok (1, pwc))).

(* lib/converters/cp775.h:125-147 cp775_wctomb *)
Definition cp775_wctomb_j (c : Z) (r : wlog) : res (Z * wlog) :=
  if (negb (c =? 0)) then
   let r := wr r 0%nat c in
   Ok (1, r)
  else
   Ok ((-1), r).
(* lib/converters/cp775.h:125-147 cp775_wctomb *)
Definition cp775_wctomb (wc : Z) (n : nat) : res (Z * wlog) :=
  let r := ([] : wlog) in
  let c := 0 in
  if (wc <? 0x80) then
   let r := wr r 0%nat wc in
   Ok (1, r)
  else
   if ((wc >=? 0xa0) &&& (wc <? 0x180)) then
    tget cp775_page00 (wc - 0xa0) (fun c =>
    cp775_wctomb_j c r)
   else
    if ((wc >=? 0x2018) &&& (wc <? 0x2020)) then
     tget cp775_page20 (wc - 0x2018) (fun c =>
     cp775_wctomb_j c r)
    else
     if (wc =? 0x2219) then
      let c := 0xf9 in
      cp775_wctomb_j c r
     else
      if ((wc >=? 0x2500) &&& (wc <? 0x25a8)) then
       tget cp775_page25 (wc - 0x2500) (fun c =>
       cp775_wctomb_j c r)
      else
       cp775_wctomb_j c r.

(* lib/converters/cp852.h:30-55 cp852_2uni *)
Definition cp852_2uni : tab := mk [
 [199;252;233;226;228;367;263;231;322;235;336;337;238;377;196;262];
 [201;313;314;244;246;317;318;346;347;214;220;356;357;321;215;269];
 [225;237;243;250;260;261;381;382;280;281;172;378;268;351;171;187];
 [9617;9618;9619;9474;9508;193;194;282;350;9571;9553;9559;9565;379;380;9488];
 [9492;9524;9516;9500;9472;9532;258;259;9562;9556;9577;9574;9568;9552;9580;164];
 [273;272;270;203;271;327;205;206;283;9496;9484;9608;9604;354;366;9600];
 [211;223;212;323;324;328;352;353;340;218;341;368;253;221;355;180];
 [173;733;731;711;728;167;247;184;176;168;729;369;344;345;9632;160]].

(* lib/converters/cp852.h:67-97 cp852_page00 *)
Definition cp852_page00 : tab := mk [
 [255;0;0;0;207;0;0;245;249;0;0;174;170;240;0;0];
 [248;0;0;0;239;0;0;0;247;0;0;175;0;0;0;0];
 [0;181;182;0;142;0;0;128;0;144;0;211;0;214;215;0];
 [0;0;0;224;226;0;153;158;0;0;233;0;154;237;0;225];
 [0;160;131;0;132;0;0;135;0;130;0;137;0;161;140;0];
 [0;0;0;162;147;0;148;246;0;0;163;0;129;236;0;0];
 [0;0;198;199;164;165;143;134;0;0;0;0;172;159;210;212];
 [209;208;0;0;0;0;0;0;168;169;183;216;0;0;0;0];
 [0;0;0;0;0;0;0;0;0;0;0;0;0;0;0;0];
 [0;0;0;0;0;0;0;0;0;145;146;0;0;149;150;0];
 [0;157;136;227;228;0;0;213;229;0;0;0;0;0;0;0];
 [138;139;0;0;232;234;0;0;252;253;151;152;0;0;184;173];
 [230;231;221;238;155;156;0;0;0;0;0;0;0;0;222;133];
 [235;251;0;0;0;0;0;0;0;141;171;189;190;166;167;0]].

(* lib/converters/cp852.h:98-103 cp852_page02 *)
Definition cp852_page02 : tab := mk [
 [0;0;0;0;0;0;0;243;0;0;0;0;0;0;0;0];
 [0;0;0;0;0;0;0;0;244;250;0;242;0;241;0;0]].

(* lib/converters/cp852.h:104-126 cp852_page25 *)
Definition cp852_page25 : tab := mk [
 [196;0;179;0;0;0;0;0;0;0;0;0;218;0;0;0];
 [191;0;0;0;192;0;0;0;217;0;0;0;195;0;0;0];
 [0;0;0;0;180;0;0;0;0;0;0;0;194;0;0;0];
 [0;0;0;0;193;0;0;0;0;0;0;0;197;0;0;0];
 [0;0;0;0;0;0;0;0;0;0;0;0;0;0;0;0];
 [205;186;0;0;201;0;0;187;0;0;200;0;0;188;0;0];
 [204;0;0;185;0;0;203;0;0;202;0;0;206;0;0;0];
 [0;0;0;0;0;0;0;0;0;0;0;0;0;0;0;0];
 [223;0;0;0;220;0;0;0;219;0;0;0;0;0;0;0];
 [0;176;177;178;0;0;0;0;0;0;0;0;0;0;0;0];
 [254;0;0;0;0;0;0;0]].

(* lib/converters/cp852.h:57-65 cp852_mbtowc *)
Definition cp852_mbtowc (s : list Z) (n : nat) : res (Z * option Z) :=
  let pwc := (None : option Z) in
  rd s 0%nat (fun c =>
  if (c <? 0x80) then
   let pwc := Some c in
   Ok (1, pwc)
  else
   tget cp852_2uni (c - 0x80) (fun x2 =>
   let pwc := Some x2 in
   Ok (1, pwc))).

(* lib/converters/cp852.h:128-148 cp852_wctomb *)
Definition cp852_wctomb_j (c : Z) (r : wlog) : res (Z * wlog) :=
  if (negb (c =? 0)) then
   let r := wr r 0%nat c in
   Ok (1, r)
  else
   Ok ((-1), r).
(* lib/converters/cp852.h:128-148 cp852_wctomb *)
Definition cp852_wctomb (wc : Z) (n : nat) : res (Z * wlog) :=
  let r := ([] : wlog) in
  let c := 0 in
  if (wc <? 0x80) then
   let r := wr r 0%nat wc in
   Ok (1, r)
  else
   if ((wc >=? 0xa0) &&& (wc <? 0x180)) then
    tget cp852_page00 (wc - 0xa0) (fun c =>
    cp852_wctomb_j c r)
   else
    if ((wc >=? 0x2c0) &&& (wc <? 0x2e0)) then
     tget cp852_page02 (wc - 0x2c0) (fun c =>
     cp852_wctomb_j c r)
    else
     if ((wc >=? 0x2500) &&& (wc <? 0x25a8)) then
      tget cp852_page25 (wc - 0x2500) (fun c =>
      cp852_wctomb_j c r)
     else
      cp852_wctomb_j c r.

(* lib/converters/cp853.h:30-55 cp853_2uni *)
Definition cp853_2uni : tab := mk [
 [199;252;233;226;228;224;265;231;234;235;232;239;238;236;196;264];
 [201;267;266;244;246;242;251;249;304;214;220;285;163;284;215;309];
 [225;237;243;250;241;209;286;287;292;293;65533;189;308;351;171;187];
 [9617;9618;9619;9474;9508;193;194;192;350;9571;9553;9559;9565;379;380;9488];
 [9492;9524;9516;9500;9472;9532;348;349;9562;9556;9577;9574;9568;9552;9580;164];
 [65533;65533;202;203;200;305;205;206;207;9496;9484;9608;9604;65533;204;9600];
 [211;223;212;210;288;289;181;294;295;218;219;217;364;365;65533;180];
 [173;65533;8467;329;728;167;247;184;176;168;729;65533;179;178;9632;160]].

(* lib/converters/cp853.h:77-90 cp853_page00 *)
Definition cp853_page00 : tab := mk [
 [255;0;0;156;207;0;0;245;249;0;0;174;0;240;0;0];
 [248;0;253;252;239;230;0;0;247;0;0;175;0;171;0;0];
 [183;181;182;0;142;0;0;128;212;144;210;211;222;214;215;216];
 [0;165;227;224;226;0;153;158;0;235;233;234;154;0;0;225];
 [133;160;131;0;132;0;0;135;138;130;136;137;141;161;140;139];
 [0;164;149;162;147;0;148;246;0;151;163;150;129;0;0;0]].

(* lib/converters/cp853.h:91-107 cp853_page01 *)
Definition cp853_page01 : tab := mk [
 [143;134;146;145;0;0;0;0;0;0;0;0;0;0;0;0];
 [0;0;0;0;157;155;166;167;228;229;0;0;168;169;231;232];
 [0;0;0;0;0;0;0;0;152;213;0;0;172;159;0;0];
 [0;0;0;0;0;0;0;0;0;0;0;0;0;0;0;0];
 [0;243;0;0;0;0;0;0;0;0;0;0;0;0;0;0];
 [0;0;0;0;198;199;184;173;0;0;0;0;0;0;0;0];
 [0;0;0;0;236;237;0;0;0;0;0;0;0;0;0;0];
 [0;0;0;189;190;0;0;0]].

(* lib/converters/cp853.h:108-110 cp853_page02 *)
Definition cp853_page02 : tab := mk [
 [244;250;0;0;0;0;0;0]].

(* lib/converters/cp853.h:111-133 cp853_page25 *)
Definition cp853_page25 : tab := mk [
 [196;0;179;0;0;0;0;0;0;0;0;0;218;0;0;0];
 [191;0;0;0;192;0;0;0;217;0;0;0;195;0;0;0];
 [0;0;0;0;180;0;0;0;0;0;0;0;194;0;0;0];
 [0;0;0;0;193;0;0;0;0;0;0;0;197;0;0;0];
 [0;0;0;0;0;0;0;0;0;0;0;0;0;0;0;0];
 [205;186;0;0;201;0;0;187;0;0;200;0;0;188;0;0];
 [204;0;0;185;0;0;203;0;0;202;0;0;206;0;0;0];
 [0;0;0;0;0;0;0;0;0;0;0;0;0;0;0;0];
 [223;0;0;0;220;0;0;0;219;0;0;0;0;0;0;0];
 [0;176;177;178;0;0;0;0;0;0;0;0;0;0;0;0];
 [254;0;0;0;0;0;0;0]].

(* lib/converters/cp853.h:57-75 cp853_mbtowc *)
Definition cp853_mbtowc (s : list Z) (n : nat) : res (Z * option Z) :=
  let pwc := (None : option Z) in
  rd s 0%nat (fun c =>
  if (c <? 0x80) then
   let pwc := Some c in
   Ok (1, pwc)
  else
   tget cp853_2uni (c - 0x80) (fun wc =>
   if (negb (wc =? 0xfffd)) then
    let pwc := Some wc in
    Ok (1, pwc)
   else
    Ok ((-1), pwc))).

(* lib/converters/cp853.h:135-159 cp853_wctomb *)
Definition cp853_wctomb_j (c : Z) (r : wlog) : res (Z * wlog) :=
  if (negb (c =? 0)) then
   let r := wr r 0%nat c in
   Ok (1, r)
  else
   Ok ((-1), r).
(* lib/converters/cp853.h:135-159 cp853_wctomb *)
Definition cp853_wctomb (wc : Z) (n : nat) : res (Z * wlog) :=
  let r := ([] : wlog) in
  let c := 0 in
  if (wc <? 0x80) then
   let r := wr r 0%nat wc in
   Ok (1, r)
  else
   if ((wc >=? 0xa0) &&& (wc <? 0x100)) then
    tget cp853_page00 (wc - 0xa0) (fun c =>
    cp853_wctomb_j c r)
   else
    if ((wc >=? 0x108) &&& (wc <? 0x180)) then
     tget cp853_page01 (wc - 0x108) (fun c =>
     cp853_wctomb_j c r)
    else
     if ((wc >=? 0x2d8) &&& (wc <? 0x2e0)) then
      tget cp853_page02 (wc - 0x2d8) (fun c =>
      cp853_wctomb_j c r)
     else
      if (wc =? 0x2113) then
       let c := 0xf2 in
       cp853_wctomb_j c r
      else
       if ((wc >=? 0x2500) &&& (wc <? 0x25a8)) then
        tget cp853_page25 (wc - 0x2500) (fun c =>
        cp853_wctomb_j c r)
       else
        cp853_wctomb_j c r.

(* lib/converters/cp855.h:30-55 cp855_2uni *)
Definition cp855_2uni : tab := mk [
 [1106;1026;1107;1027;1105;1025;1108;1028;1109;1029;1110;1030;1111;1031;1112;1032];
 [1113;1033;1114;1034;1115;1035;1116;1036;1118;1038;1119;1039;1102;1070;1098;1066];
 [1072;1040;1073;1041;1094;1062;1076;1044;1077;1045;1092;1060;1075;1043;171;187];
 [9617;9618;9619;9474;9508;1093;1061;1080;1048;9571;9553;9559;9565;1081;1049;9488];
 [9492;9524;9516;9500;9472;9532;1082;1050;9562;9556;9577;9574;9568;9552;9580;164];
 [1083;1051;1084;1052;1085;1053;1086;1054;1087;9496;9484;9608;9604;1055;1103;9600];
 [1071;1088;1056;1089;1057;1090;1058;1091;1059;1078;1046;1074;1042;1100;1068;8470];
 [173;1099;1067;1079;1047;1096;1064;1101;1069;1097;1065;1095;1063;167;9632;160]].

(* lib/converters/cp855.h:67-72 cp855_page00 *)
Definition cp855_page00 : tab := mk [
 [255;0;0;0;207;0;0;253;0;0;0;174;0;240;0;0];
 [0;0;0;0;0;0;0;0;0;0;0;175;0;0;0;0]].

(* lib/converters/cp855.h:73-86 cp855_page04 *)
Definition cp855_page04 : tab := mk [
 [0;133;129;131;135;137;139;141;143;145;147;149;151;0;153;155];
 [161;163;236;173;167;169;234;244;184;190;199;209;211;213;215;221];
 [226;228;230;232;171;182;165;252;246;250;159;242;238;248;157;224];
 [160;162;235;172;166;168;233;243;183;189;198;208;210;212;214;216];
 [225;227;229;231;170;181;164;251;245;249;158;241;237;247;156;222];
 [0;132;128;130;134;136;138;140;142;144;146;148;150;0;152;154]].

(* lib/converters/cp855.h:87-109 cp855_page25 *)
Definition cp855_page25 : tab := mk [
 [196;0;179;0;0;0;0;0;0;0;0;0;218;0;0;0];
 [191;0;0;0;192;0;0;0;217;0;0;0;195;0;0;0];
 [0;0;0;0;180;0;0;0;0;0;0;0;194;0;0;0];
 [0;0;0;0;193;0;0;0;0;0;0;0;197;0;0;0];
 [0;0;0;0;0;0;0;0;0;0;0;0;0;0;0;0];
 [205;186;0;0;201;0;0;187;0;0;200;0;0;188;0;0];
 [204;0;0;185;0;0;203;0;0;202;0;0;206;0;0;0];
 [0;0;0;0;0;0;0;0;0;0;0;0;0;0;0;0];
 [223;0;0;0;220;0;0;0;219;0;0;0;0;0;0;0];
 [0;176;177;178;0;0;0;0;0;0;0;0;0;0;0;0];
 [254;0;0;0;0;0;0;0]].

(* lib/converters/cp855.h:57-65 cp855_mbtowc *)
Definition cp855_mbtowc (s : list Z) (n : nat) : res (Z * option Z) :=
  let pwc := (None : option Z) in
  rd s 0%nat (fun c =>
  if (c <? 0x80) then
   let pwc := Some c in
   Ok (1, pwc)
  else
   tget cp855_2uni (c - 0x80) (fun x2 =>
   let pwc := Some x2 in
   Ok (1, pwc))).

(* lib/converters/cp855.h:111-133 cp855_wctomb *)
Definition cp855_wctomb_j (c : Z) (r : wlog) : res (Z * wlog) :=
  if (negb (c =? 0)) then
   let r := wr r 0%nat c in
   Ok (1, r)
  else
   Ok ((-1), r).
(* lib/converters/cp855.h:111-133 cp855_wctomb *)
Definition cp855_wctomb (wc : Z) (n : nat) : res (Z * wlog) :=
  let r := ([] : wlog) in
  let c := 0 in
  if (wc <? 0x80) then
   let r := wr r 0%nat wc in
   Ok (1, r)
  else
   if ((wc >=? 0xa0) &&& (wc <? 0xc0)) then
    tget cp855_page00 (wc - 0xa0) (fun c =>
    cp855_wctomb_j c r)
   else
    if ((wc >=? 0x400) &&& (wc <? 0x460)) then
     tget cp855_page04 (wc - 0x400) (fun c =>
     cp855_wctomb_j c r)
    else
     if (wc =? 0x2116) then
      let c := 0xef in
      cp855_wctomb_j c r
     else
      if ((wc >=? 0x2500) &&& (wc <? 0x25a8)) then
       tget cp855_page25 (wc - 0x2500) (fun c =>
       cp855_wctomb_j c r)
      else
       cp855_wctomb_j c r.

(* lib/converters/cp857.h:30-55 cp857_2uni *)
Definition cp857_2uni : tab := mk [
 [199;252;233;226;228;224;229;231;234;235;232;239;238;305;196;197];
 [201;230;198;244;246;242;251;249;304;214;220;248;163;216;350;351];
 [225;237;243;250;241;209;286;287;191;174;172;189;188;161;171;187];
 [9617;9618;9619;9474;9508;193;194;192;169;9571;9553;9559;9565;162;165;9488];
 [9492;9524;9516;9500;9472;9532;227;195;9562;9556;9577;9574;9568;9552;9580;164];
 [186;170;202;203;200;65533;205;206;207;9496;9484;9608;9604;166;204;9600];
 [211;223;212;210;245;213;181;65533;215;218;219;217;236;255;175;180];
 [173;177;65533;190;182;167;247;184;176;168;183;185;179;178;9632;160]].

(* lib/converters/cp857.h:77-90 cp857_page00 *)
Definition cp857_page00 : tab := mk [
 [255;173;189;156;207;190;221;245;249;184;209;174;170;240;169;238];
 [248;241;253;252;239;230;244;250;247;251;208;175;172;171;243;168];
 [183;181;182;199;142;143;146;128;212;144;210;211;222;214;215;216];
 [0;165;227;224;226;229;153;232;157;235;233;234;154;0;0;225];
 [133;160;131;198;132;134;145;135;138;130;136;137;236;161;140;139];
 [0;164;149;162;147;228;148;246;155;151;163;150;129;0;0;237]].

(* lib/converters/cp857.h:91-101 cp857_page01 *)
Definition cp857_page01 : tab := mk [
 [0;0;0;0;0;0;166;167;0;0;0;0;0;0;0;0];
 [0;0;0;0;0;0;0;0;152;141;0;0;0;0;0;0];
 [0;0;0;0;0;0;0;0;0;0;0;0;0;0;0;0];
 [0;0;0;0;0;0;0;0;0;0;0;0;0;0;0;0];
 [0;0;0;0;0;0;158;159]].

(* lib/converters/cp857.h:102-124 cp857_page25 *)
Definition cp857_page25 : tab := mk [
 [196;0;179;0;0;0;0;0;0;0;0;0;218;0;0;0];
 [191;0;0;0;192;0;0;0;217;0;0;0;195;0;0;0];
 [0;0;0;0;180;0;0;0;0;0;0;0;194;0;0;0];
 [0;0;0;0;193;0;0;0;0;0;0;0;197;0;0;0];
 [0;0;0;0;0;0;0;0;0;0;0;0;0;0;0;0];
 [205;186;0;0;201;0;0;187;0;0;200;0;0;188;0;0];
 [204;0;0;185;0;0;203;0;0;202;0;0;206;0;0;0];
 [0;0;0;0;0;0;0;0;0;0;0;0;0;0;0;0];
 [223;0;0;0;220;0;0;0;219;0;0;0;0;0;0;0];
 [0;176;177;178;0;0;0;0;0;0;0;0;0;0;0;0];
 [254;0;0;0;0;0;0;0]].

(* lib/converters/cp857.h:57-75 cp857_mbtowc *)
Definition cp857_mbtowc (s : list Z) (n : nat) : res (Z * option Z) :=
  let pwc := (None : option Z) in
  rd s 0%nat (fun c =>
  if (c <? 0x80) then
   let pwc := Some c in
   Ok (1, pwc)
  else
   tget cp857_2uni (c - 0x80) (fun wc =>
   if (negb (wc =? 0xfffd)) then
    let pwc := Some wc in
    Ok (1, pwc)
   else
    Ok ((-1), pwc))).

(* lib/converters/cp857.h:126-146 cp857_wctomb *)
Definition cp857_wctomb_j (c : Z) (r : wlog) : res (Z * wlog) :=
  if (negb (c =? 0)) then
   let r := wr r 0%nat c in
   Ok (1, r)
  else
   Ok ((-1), r).
(* lib/converters/cp857.h:126-146 cp857_wctomb *)
Definition cp857_wctomb (wc : Z) (n : nat) : res (Z * wlog) :=
  let r := ([] : wlog) in
  let c := 0 in
  if (wc <? 0x80) then
   let r := wr r 0%nat wc in
   Ok (1, r)
  else
   if ((wc >=? 0xa0) &&& (wc <? 0x100)) then
    tget cp857_page00 (wc - 0xa0) (fun c =>
    cp857_wctomb_j c r)
   else
    if ((wc >=? 0x118) &&& (wc <? 0x160)) then
     tget cp857_page01 (wc - 0x118) (fun c =>
     cp857_wctomb_j c r)
    else
     if ((wc >=? 0x2500) &&& (wc <? 0x25a8)) then
      tget cp857_page25 (wc - 0x2500) (fun c =>
      cp857_wctomb_j c r)
     else
      cp857_wctomb_j c r.

(* lib/converters/cp858.h:31-41 cp858_mbtowc *)
Definition cp858_mbtowc (s : list Z) (n : nat) : res (Z * option Z) :=
  let pwc := (None : option Z) in
  rd s 0%nat (fun c =>
  if (c <? 0x80) then
   let pwc := Some c in
   Ok (1, pwc)
  else
   if (c =? 0xd5) then
    let pwc := Some 0x20ac in
    Ok (1, pwc)
   else
    tget cp850_2uni (c - 0x80) (fun x2 =>
    let pwc := Some x2 in
    Ok (1, pwc))).

(* lib/converters/cp858.h:43-67 cp858_wctomb *)
Definition cp858_wctomb_j (c : Z) (r : wlog) : res (Z * wlog) :=
  if (negb (c =? 0)) then
   let r := wr r 0%nat c in
   Ok (1, r)
  else
   Ok ((-1), r).
(* lib/converters/cp858.h:43-67 cp858_wctomb *)
Definition cp858_wctomb (wc : Z) (n : nat) : res (Z * wlog) :=
  let r := ([] : wlog) in
  let c := 0 in
  if (wc <? 0x80) then
   let r := wr r 0%nat wc in
   Ok (1, r)
  else
   if ((wc >=? 0xa0) &&& (wc <? 0x100)) then
    tget cp850_page00 (wc - 0xa0) (fun c =>
    cp858_wctomb_j c r)
   else
    if (wc =? 0x192) then
     let c := 0x9f in
     cp858_wctomb_j c r
    else
     if (wc =? 0x2017) then
      let c := 0xf2 in
      cp858_wctomb_j c r
     else
      if (wc =? 0x20ac) then
       let c := 0xd5 in
       cp858_wctomb_j c r
      else
       if ((wc >=? 0x2500) &&& (wc <? 0x25a8)) then
        tget cp850_page25 (wc - 0x2500) (fun c =>
        cp858_wctomb_j c r)
       else
        cp858_wctomb_j c r.

(* lib/converters/cp860.h:30-55 cp860_2uni *)
Definition cp860_2uni : tab := mk [
 [199;252;233;226;227;224;193;231;234;202;232;205;212;236;195;194];
 [201;192;200;244;245;242;218;249;204;213;220;162;163;217;8359;211];
 [225;237;243;250;241;209;170;186;191;210;172;189;188;161;171;187];
 [9617;9618;9619;9474;9508;9569;9570;9558;9557;9571;9553;9559;9565;9564;9563;9488];
 [9492;9524;9516;9500;9472;9532;9566;9567;9562;9556;9577;9574;9568;9552;9580;9575];
 [9576;9572;9573;9561;9560;9554;9555;9579;9578;9496;9484;9608;9604;9612;9616;9600];
 [945;223;915;960;931;963;181;964;934;920;937;948;8734;966;949;8745];
 [8801;177;8805;8804;8992;8993;247;8776;176;8729;183;8730;8319;178;9632;160]].

(* lib/converters/cp860.h:67-80 cp860_page00 *)
Definition cp860_page00 : tab := mk [
 [255;173;155;156;0;0;0;0;0;0;166;174;170;0;0;0];
 [248;241;253;0;0;230;0;250;0;0;167;175;172;171;0;168];
 [145;134;143;142;0;0;0;128;146;144;137;0;152;139;0;0];
 [0;165;169;159;140;153;0;0;0;157;150;0;154;0;0;225];
 [133;160;131;132;0;0;0;135;138;130;136;0;141;161;0;0];
 [0;164;149;162;147;148;0;246;0;151;163;0;129;0;0;0]].

(* lib/converters/cp860.h:81-89 cp860_page03 *)
Definition cp860_page03 : tab := mk [
 [0;0;0;226;0;0;0;0;233;0;0;0;0;0;0;0];
 [0;0;0;228;0;0;232;0;0;234;0;0;0;0;0;0];
 [0;224;0;0;235;238;0;0;0;0;0;0;0;0;0;0];
 [227;0;0;229;231;0;237;0]].

(* lib/converters/cp860.h:90-101 cp860_page22 *)
Definition cp860_page22 : tab := mk [
 [0;249;251;0;0;0;236;0;0;0;0;0;0;0;0;0];
 [0;239;0;0;0;0;0;0;0;0;0;0;0;0;0;0];
 [0;0;0;0;0;0;0;0;0;0;0;0;0;0;0;0];
 [247;0;0;0;0;0;0;0;0;0;0;0;0;0;0;0];
 [0;0;0;0;0;0;0;0;0;240;0;0;243;242;0;0]].

(* lib/converters/cp860.h:102-124 cp860_page25 *)
Definition cp860_page25 : tab := mk [
 [196;0;179;0;0;0;0;0;0;0;0;0;218;0;0;0];
 [191;0;0;0;192;0;0;0;217;0;0;0;195;0;0;0];
 [0;0;0;0;180;0;0;0;0;0;0;0;194;0;0;0];
 [0;0;0;0;193;0;0;0;0;0;0;0;197;0;0;0];
 [0;0;0;0;0;0;0;0;0;0;0;0;0;0;0;0];
 [205;186;213;214;201;184;183;187;212;211;200;190;189;188;198;199];
 [204;181;182;185;209;210;203;207;208;202;216;215;206;0;0;0];
 [0;0;0;0;0;0;0;0;0;0;0;0;0;0;0;0];
 [223;0;0;0;220;0;0;0;219;0;0;0;221;0;0;0];
 [222;176;177;178;0;0;0;0;0;0;0;0;0;0;0;0];
 [254;0;0;0;0;0;0;0]].

(* lib/converters/cp860.h:57-65 cp860_mbtowc *)
Definition cp860_mbtowc (s : list Z) (n : nat) : res (Z * option Z) :=
  let pwc := (None : option Z) in
  rd s 0%nat (fun c =>
  if (c <? 0x80) then
   let pwc := Some c in
   Ok (1, pwc)
  else
   tget cp860_2uni (c - 0x80) (fun x2 =>
   let pwc := Some x2 in
   Ok (1, pwc))).

(* lib/converters/cp860.h:126-154 cp860_wctomb *)
Definition cp860_wctomb_j (c : Z) (r : wlog) : res (Z * wlog) :=
  if (negb (c =? 0)) then
   let r := wr r 0%nat c in
   Ok (1, r)
  else
   Ok ((-1), r).
(* lib/converters/cp860.h:126-154 cp860_wctomb *)
Definition cp860_wctomb (wc : Z) (n : nat) : res (Z * wlog) :=
  let r := ([] : wlog) in
  let c := 0 in
  if (wc <? 0x80) then
   let r := wr r 0%nat wc in
   Ok (1, r)
  else
   if ((wc >=? 0xa0) &&& (wc <? 0x100)) then
    tget cp860_page00 (wc - 0xa0) (fun c =>
    cp860_wctomb_j c r)
   else
    if ((wc >=? 0x390) &&& (wc <? 0x3c8)) then
     tget cp860_page03 (wc - 0x390) (fun c =>
     cp860_wctomb_j c r)
    else
     if (wc =? 0x207f) then
      let c := 0xfc in
      cp860_wctomb_j c r
     else
      if (wc =? 0x20a7) then
       let c := 0x9e in
       cp860_wctomb_j c r
      else
       if ((wc >=? 0x2218) &&& (wc <? 0x2268)) then
        tget cp860_page22 (wc - 0x2218) (fun c =>
        cp860_wctomb_j c r)
       else
        if ((wc >=? 0x2320) &&& (wc <? 0x2322)) then
         let c := (wc - 0x222c) in
         cp860_wctomb_j c r
        else
         if ((wc >=? 0x2500) &&& (wc <? 0x25a8)) then
          tget cp860_page25 (wc - 0x2500) (fun c =>
          cp860_wctomb_j c r)
         else
          cp860_wctomb_j c r.

(* lib/converters/cp861.h:30-55 cp861_2uni *)
Definition cp861_2uni : tab := mk [
 [199;252;233;226;228;224;229;231;234;235;232;208;240;222;196;197];
 [201;230;198;244;246;254;251;221;253;214;220;248;163;216;8359;402];
 [225;237;243;250;193;205;211;218;191;8976;172;189;188;161;171;187];
 [9617;9618;9619;9474;9508;9569;9570;9558;9557;9571;9553;9559;9565;9564;9563;9488];
 [9492;9524;9516;9500;9472;9532;9566;9567;9562;9556;9577;9574;9568;9552;9580;9575];
 [9576;9572;9573;9561;9560;9554;9555;9579;9578;9496;9484;9608;9604;9612;9616;9600];
 [945;223;915;960;931;963;181;964;934;920;937;948;8734;966;949;8745];
 [8801;177;8805;8804;8992;8993;247;8776;176;8729;183;8730;8319;178;9632;160]].

(* lib/converters/cp861.h:67-80 cp861_page00 *)
Definition cp861_page00 : tab := mk [
 [255;173;0;156;0;0;0;0;0;0;0;174;170;0;0;0];
 [248;241;253;0;0;230;0;250;0;0;0;175;172;171;0;168];
 [0;164;0;0;142;143;146;128;0;144;0;0;0;165;0;0];
 [139;0;0;166;0;0;153;0;157;0;167;0;154;151;141;225];
 [133;160;131;0;132;134;145;135;138;130;136;137;0;161;0;0];
 [140;0;0;162;147;0;148;246;155;0;163;150;129;152;149;0]].

(* lib/converters/cp861.h:81-89 cp861_page03 *)
Definition cp861_page03 : tab := mk [
 [0;0;0;226;0;0;0;0;233;0;0;0;0;0;0;0];
 [0;0;0;228;0;0;232;0;0;234;0;0;0;0;0;0];
 [0;224;0;0;235;238;0;0;0;0;0;0;0;0;0;0];
 [227;0;0;229;231;0;237;0]].

(* lib/converters/cp861.h:90-101 cp861_page22 *)
Definition cp861_page22 : tab := mk [
 [0;249;251;0;0;0;236;0;0;0;0;0;0;0;0;0];
 [0;239;0;0;0;0;0;0;0;0;0;0;0;0;0;0];
 [0;0;0;0;0;0;0;0;0;0;0;0;0;0;0;0];
 [247;0;0;0;0;0;0;0;0;0;0;0;0;0;0;0];
 [0;0;0;0;0;0;0;0;0;240;0;0;243;242;0;0]].

(* lib/converters/cp861.h:102-106 cp861_page23 *)
Definition cp861_page23 : tab := mk [
 [169;0;0;0;0;0;0;0;0;0;0;0;0;0;0;0];
 [244;245;0;0;0;0;0;0]].

(* lib/converters/cp861.h:107-129 cp861_page25 *)
Definition cp861_page25 : tab := mk [
 [196;0;179;0;0;0;0;0;0;0;0;0;218;0;0;0];
 [191;0;0;0;192;0;0;0;217;0;0;0;195;0;0;0];
 [0;0;0;0;180;0;0;0;0;0;0;0;194;0;0;0];
 [0;0;0;0;193;0;0;0;0;0;0;0;197;0;0;0];
 [0;0;0;0;0;0;0;0;0;0;0;0;0;0;0;0];
 [205;186;213;214;201;184;183;187;212;211;200;190;189;188;198;199];
 [204;181;182;185;209;210;203;207;208;202;216;215;206;0;0;0];
 [0;0;0;0;0;0;0;0;0;0;0;0;0;0;0;0];
 [223;0;0;0;220;0;0;0;219;0;0;0;221;0;0;0];
 [222;176;177;178;0;0;0;0;0;0;0;0;0;0;0;0];
 [254;0;0;0;0;0;0;0]].

(* lib/converters/cp861.h:57-65 cp861_mbtowc *)
Definition cp861_mbtowc (s : list Z) (n : nat) : res (Z * option Z) :=
  let pwc := (None : option Z) in
  rd s 0%nat (fun c =>
  if (c <? 0x80) then
   let pwc := Some c in
   Ok (1, pwc)
  else
   tget cp861_2uni (c - 0x80) (fun x2 =>
   let pwc := Some x2 in
   Ok (1, pwc))).

(* lib/converters/cp861.h:131-161 cp861_wctomb *)
Definition cp861_wctomb_j (c : Z) (r : wlog) : res (Z * wlog) :=
  if (negb (c =? 0)) then
   let r := wr r 0%nat c in
   Ok (1, r)
  else
   Ok ((-1), r).
(* lib/converters/cp861.h:131-161 cp861_wctomb *)
Definition cp861_wctomb (wc : Z) (n : nat) : res (Z * wlog) :=
  let r := ([] : wlog) in
  let c := 0 in
  if (wc <? 0x80) then
   let r := wr r 0%nat wc in
   Ok (1, r)
  else
   if ((wc >=? 0xa0) &&& (wc <? 0x100)) then
    tget cp861_page00 (wc - 0xa0) (fun c =>
    cp861_wctomb_j c r)
   else
    if (wc =? 0x192) then
     let c := 0x9f in
     cp861_wctomb_j c r
    else
     if ((wc >=? 0x390) &&& (wc <? 0x3c8)) then
      tget cp861_page03 (wc - 0x390) (fun c =>
      cp861_wctomb_j c r)
     else
      if (wc =? 0x207f) then
       let c := 0xfc in
       cp861_wctomb_j c r
      else
       if (wc =? 0x20a7) then
        let c := 0x9e in
        cp861_wctomb_j c r
       else
        if ((wc >=? 0x2218) &&& (wc <? 0x2268)) then
         tget cp861_page22 (wc - 0x2218) (fun c =>
         cp861_wctomb_j c r)
        else
         if ((wc >=? 0x2310) &&& (wc <? 0x2328)) then
          tget cp861_page23 (wc - 0x2310) (fun c =>
          cp861_wctomb_j c r)
         else
          if ((wc >=? 0x2500) &&& (wc <? 0x25a8)) then
           tget cp861_page25 (wc - 0x2500) (fun c =>
           cp861_wctomb_j c r)
          else
           cp861_wctomb_j c r.

(* lib/converters/cp863.h:30-55 cp863_2uni *)
Definition cp863_2uni : tab := mk [
 [199;252;233;226;194;224;182;231;234;235;232;239;238;8215;192;167];
 [201;200;202;244;203;207;251;249;164;212;220;162;163;217;219;402];
 [166;180;243;250;168;184;179;175;206;8976;172;189;188;190;171;187];
 [9617;9618;9619;9474;9508;9569;9570;9558;9557;9571;9553;9559;9565;9564;9563;9488];
 [9492;9524;9516;9500;9472;9532;9566;9567;9562;9556;9577;9574;9568;9552;9580;9575];
 [9576;9572;9573;9561;9560;9554;9555;9579;9578;9496;9484;9608;9604;9612;9616;9600];
 [945;223;915;960;931;963;181;964;934;920;937;948;8734;966;949;8745];
 [8801;177;8805;8804;8992;8993;247;8776;176;8729;183;8730;8319;178;9632;160]].

(* lib/converters/cp863.h:67-80 cp863_page00 *)
Definition cp863_page00 : tab := mk [
 [255;0;155;156;152;0;160;143;164;0;0;174;170;0;0;167];
 [248;241;253;166;161;230;134;250;165;0;0;175;172;171;173;0];
 [142;0;132;0;0;0;0;128;145;144;146;148;0;0;168;149];
 [0;0;0;0;153;0;0;0;0;157;0;158;154;0;0;225];
 [133;0;131;0;0;0;0;135;138;130;136;137;0;0;140;139];
 [0;0;0;162;147;0;0;246;0;151;163;150;129;0;0;0]].

(* lib/converters/cp863.h:81-89 cp863_page03 *)
Definition cp863_page03 : tab := mk [
 [0;0;0;226;0;0;0;0;233;0;0;0;0;0;0;0];
 [0;0;0;228;0;0;232;0;0;234;0;0;0;0;0;0];
 [0;224;0;0;235;238;0;0;0;0;0;0;0;0;0;0];
 [227;0;0;229;231;0;237;0]].

(* lib/converters/cp863.h:90-101 cp863_page22 *)
Definition cp863_page22 : tab := mk [
 [0;249;251;0;0;0;236;0;0;0;0;0;0;0;0;0];
 [0;239;0;0;0;0;0;0;0;0;0;0;0;0;0;0];
 [0;0;0;0;0;0;0;0;0;0;0;0;0;0;0;0];
 [247;0;0;0;0;0;0;0;0;0;0;0;0;0;0;0];
 [0;0;0;0;0;0;0;0;0;240;0;0;243;242;0;0]].

(* lib/converters/cp863.h:102-106 cp863_page23 *)
Definition cp863_page23 : tab := mk [
 [169;0;0;0;0;0;0;0;0;0;0;0;0;0;0;0];
 [244;245;0;0;0;0;0;0]].

(* lib/converters/cp863.h:107-129 cp863_page25 *)
Definition cp863_page25 : tab := mk [
 [196;0;179;0;0;0;0;0;0;0;0;0;218;0;0;0];
 [191;0;0;0;192;0;0;0;217;0;0;0;195;0;0;0];
 [0;0;0;0;180;0;0;0;0;0;0;0;194;0;0;0];
 [0;0;0;0;193;0;0;0;0;0;0;0;197;0;0;0];
 [0;0;0;0;0;0;0;0;0;0;0;0;0;0;0;0];
 [205;186;213;214;201;184;183;187;212;211;200;190;189;188;198;199];
 [204;181;182;185;209;210;203;207;208;202;216;215;206;0;0;0];
 [0;0;0;0;0;0;0;0;0;0;0;0;0;0;0;0];
 [223;0;0;0;220;0;0;0;219;0;0;0;221;0;0;0];
 [222;176;177;178;0;0;0;0;0;0;0;0;0;0;0;0];
 [254;0;0;0;0;0;0;0]].

(* lib/converters/cp863.h:57-65 cp863_mbtowc *)
Definition cp863_mbtowc (s : list Z) (n : nat) : res (Z * option Z) :=
  let pwc := (None : option Z) in
  rd s 0%nat (fun c =>
  if (c <? 0x80) then
   let pwc := Some c in
   Ok (1, pwc)
  else
   tget cp863_2uni (c - 0x80) (fun x2 =>
   let pwc := Some x2 in
   Ok (1, pwc))).

(* lib/converters/cp863.h:131-161 cp863_wctomb *)
Definition cp863_wctomb_j (c : Z) (r : wlog) : res (Z * wlog) :=
  if (negb (c =? 0)) then
   let r := wr r 0%nat c in
   Ok (1, r)
  else
   Ok ((-1), r).
(* lib/converters/cp863.h:131-161 cp863_wctomb *)
Definition cp863_wctomb (wc : Z) (n : nat) : res (Z * wlog) :=
  let r := ([] : wlog) in
  let c := 0 in
  if (wc <? 0x80) then
   let r := wr r 0%nat wc in
   Ok (1, r)
  else
   if ((wc >=? 0xa0) &&& (wc <? 0x100)) then
    tget cp863_page00 (wc - 0xa0) (fun c =>
    cp863_wctomb_j c r)
   else
    if (wc =? 0x192) then
     let c := 0x9f in
     cp863_wctomb_j c r
    else
     if ((wc >=? 0x390) &&& (wc <? 0x3c8)) then
      tget cp863_page03 (wc - 0x390) (fun c =>
      cp863_wctomb_j c r)
     else
      if (wc =? 0x2017) then
       let c := 0x8d in
       cp863_wctomb_j c r
      else
       if (wc =? 0x207f) then
        let c := 0xfc in
        cp863_wctomb_j c r
       else
        if ((wc >=? 0x2218) &&& (wc <? 0x2268)) then
         tget cp863_page22 (wc - 0x2218) (fun c =>
         cp863_wctomb_j c r)
        else
         if ((wc >=? 0x2310) &&& (wc <? 0x2328)) then
          tget cp863_page23 (wc - 0x2310) (fun c =>
          cp863_wctomb_j c r)
         else
          if ((wc >=? 0x2500) &&& (wc <? 0x25a8)) then
           tget cp863_page25 (wc - 0x2500) (fun c =>
           cp863_wctomb_j c r)
          else
           cp863_wctomb_j c r.

(* lib/converters/cp864.h:30-34 cp864_2uni_1 *)
Definition cp864_2uni_1 : tab := mk [
 [32;33;34;35;36;1642;38;39;40;41;42;43;44;45;46;47]].

(* lib/converters/cp864.h:35-60 cp864_2uni_2 *)
Definition cp864_2uni_2 : tab := mk [
 [176;183;8729;8730;9618;9472;9474;9532;9508;9516;9500;9524;9488;9484;9492;9496];
 [946;8734;966;177;189;188;8776;171;187;65271;65272;65533;65533;65275;65276;65533];
 [160;173;65154;163;164;65156;65533;65533;65166;65167;65173;65177;1548;65181;65185;65189];
 [1632;1633;1634;1635;1636;1637;1638;1639;1640;1641;65233;1563;65201;65205;65209;1567];
 [162;65152;65153;65155;65157;65226;65163;65165;65169;65171;65175;65179;65183;65187;65191;65193];
 [65195;65197;65199;65203;65207;65211;65215;65217;65221;65227;65231;166;172;247;215;65225];
 [1600;65235;65239;65243;65247;65251;65255;65259;65261;65263;65267;65213;65228;65230;65229;65249];
 [65149;1617;65253;65257;65260;65264;65266;65232;65237;65269;65270;65245;65241;65265;9632;65533]].

(* lib/converters/cp864.h:92-94 cp864_page00 *)
Definition cp864_page00 : tab := mk [
 [32;33;34;35;36;0;38;39]].

(* lib/converters/cp864.h:95-107 cp864_page00_1 *)
Definition cp864_page00_1 : tab := mk [
 [160;0;192;163;164;0;219;0;0;0;0;151;220;161;0;0];
 [128;147;0;0;0;0;0;129;0;0;0;152;149;148;0;0];
 [0;0;0;0;0;0;0;0;0;0;0;0;0;0;0;0];
 [0;0;0;0;0;0;0;222;0;0;0;0;0;0;0;0];
 [0;0;0;0;0;0;0;0;0;0;0;0;0;0;0;0];
 [0;0;0;0;0;0;0;221]].

(* lib/converters/cp864.h:108-122 cp864_page06 *)
Definition cp864_page06 : tab := mk [
 [0;0;0;0;172;0;0;0;0;0;0;0;0;0;0;0];
 [0;0;0;187;0;0;0;191;0;0;0;0;0;0;0;0];
 [0;0;0;0;0;0;0;0;0;0;0;0;0;0;0;0];
 [0;0;0;0;0;0;0;0;224;0;0;0;0;0;0;0];
 [0;0;0;0;0;0;0;0;0;241;0;0;0;0;0;0];
 [0;0;0;0;0;0;0;0;176;177;178;179;180;181;182;183];
 [184;185;37;0;0;0;0;0]].

(* lib/converters/cp864.h:123-131 cp864_page22 *)
Definition cp864_page22 : tab := mk [
 [0;130;131;0;0;0;145;0;0;0;0;0;0;0;0;0];
 [0;0;0;0;0;0;0;0;0;0;0;0;0;0;0;0];
 [0;0;0;0;0;0;0;0;0;0;0;0;0;0;0;0];
 [150;0;0;0;0;0;0;0]].

(* lib/converters/cp864.h:132-141 cp864_page25 *)
Definition cp864_page25 : tab := mk [
 [133;0;134;0;0;0;0;0;0;0;0;0;141;0;0;0];
 [140;0;0;0;142;0;0;0;143;0;0;0;138;0;0;0];
 [0;0;0;0;136;0;0;0;0;0;0;0;137;0;0;0];
 [0;0;0;0;139;0;0;0;0;0;0;0;135;0;0;0]].

(* lib/converters/cp864.h:142-160 cp864_pagefe *)
Definition cp864_pagefe : tab := mk [
 [0;0;0;0;0;240;0;0;193;194;162;195;165;196;0;0];
 [0;0;0;198;0;199;168;169;0;200;0;201;0;170;0;202];
 [0;171;0;203;0;173;0;204;0;174;0;205;0;175;0;206];
 [0;207;0;208;0;209;0;210;0;188;0;211;0;189;0;212];
 [0;190;0;213;0;235;0;214;0;215;0;0;0;216;0;0];
 [0;223;197;217;236;238;237;218;247;186;0;225;0;248;0;226];
 [0;252;0;227;0;251;0;228;0;239;0;229;0;242;0;230];
 [0;243;0;231;244;232;0;233;245;253;246;234;0;249;250;153];
 [154;0;0;157;158;0;0;0]].

(* lib/converters/cp864.h:62-90 cp864_mbtowc *)
Definition cp864_mbtowc (s : list Z) (n : nat) : res (Z * option Z) :=
  let pwc := (None : option Z) in
  rd s 0%nat (fun c =>
  if (c <? 0x20) then
   let pwc := Some c in
   Ok (1, pwc)
  else
   if (c <? 0x30) then
    tget cp864_2uni_1 (c - 0x20) (fun x2 =>
    let pwc := Some x2 in
    Ok (1, pwc))
   else
    if (c <? 0x80) then
     let pwc := Some c in
     Ok (1, pwc)
    else
     tget cp864_2uni_2 (c - 0x80) (fun wc =>
     if (negb (wc =? 0xfffd)) then
      let pwc := Some wc in
      Ok (1, pwc)
     else
      Ok ((-1), pwc))).

(* lib/converters/cp864.h:162-198 cp864_wctomb *)
Definition cp864_wctomb_j (c : Z) (r : wlog) : res (Z * wlog) :=
  if (negb (c =? 0)) then
   let r := wr r 0%nat c in
   Ok (1, r)
  else
   Ok ((-1), r).
(* lib/converters/cp864.h:162-198 cp864_wctomb *)
Definition cp864_wctomb (wc : Z) (n : nat) : res (Z * wlog) :=
  let r := ([] : wlog) in
  let c := 0 in
  if (wc <? 0x20) then
   let r := wr r 0%nat wc in
   Ok (1, r)
  else
   if ((wc >=? 0x20) &&& (wc <? 0x28)) then
    tget cp864_page00 (wc - 0x20) (fun c =>
    cp864_wctomb_j c r)
   else
    if ((wc >=? 0x28) &&& (wc <? 0x80)) then
     let c := wc in
     cp864_wctomb_j c r
    else
     if ((wc >=? 0xa0) &&& (wc <? 0xf8)) then
      tget cp864_page00_1 (wc - 0xa0) (fun c =>
      cp864_wctomb_j c r)
     else
      if (wc =? 0x3b2) then
       let c := 0x90 in
       cp864_wctomb_j c r
      else
       if (wc =? 0x3c6) then
        let c := 0x92 in
        cp864_wctomb_j c r
       else
        if ((wc >=? 0x608) &&& (wc <? 0x670)) then
         tget cp864_page06 (wc - 0x608) (fun c =>
         cp864_wctomb_j c r)
        else
         if ((wc >=? 0x2218) &&& (wc <? 0x2250)) then
          tget cp864_page22 (wc - 0x2218) (fun c =>
          cp864_wctomb_j c r)
         else
          if ((wc >=? 0x2500) &&& (wc <? 0x2540)) then
           tget cp864_page25 (wc - 0x2500) (fun c =>
           cp864_wctomb_j c r)
          else
           if (wc =? 0x2592) then
            let c := 0x84 in
            cp864_wctomb_j c r
           else
            if (wc =? 0x25a0) then
             let c := 0xfe in
             cp864_wctomb_j c r
            else
             if ((wc >=? 0xfe78) &&& (wc <? 0xff00)) then
              tget cp864_pagefe (wc - 0xfe78) (fun c =>
              cp864_wctomb_j c r)
             else
              cp864_wctomb_j c r.

(* lib/converters/cp865.h:30-55 cp865_2uni *)
Definition cp865_2uni : tab := mk [
 [199;252;233;226;228;224;229;231;234;235;232;239;238;236;196;197];
 [201;230;198;244;246;242;251;249;255;214;220;248;163;216;8359;402];
 [225;237;243;250;241;209;170;186;191;8976;172;189;188;161;171;164];
 [9617;9618;9619;9474;9508;9569;9570;9558;9557;9571;9553;9559;9565;9564;9563;9488];
 [9492;9524;9516;9500;9472;9532;9566;9567;9562;9556;9577;9574;9568;9552;9580;9575];
 [9576;9572;9573;9561;9560;9554;9555;9579;9578;9496;9484;9608;9604;9612;9616;9600];
 [945;223;915;960;931;963;181;964;934;920;937;948;8734;966;949;8745];
 [8801;177;8805;8804;8992;8993;247;8776;176;8729;183;8730;8319;178;9632;160]].

(* lib/converters/cp865.h:67-80 cp865_page00 *)
Definition cp865_page00 : tab := mk [
 [255;173;0;156;175;0;0;0;0;0;166;174;170;0;0;0];
 [248;241;253;0;0;230;0;250;0;0;167;0;172;171;0;168];
 [0;0;0;0;142;143;146;128;0;144;0;0;0;0;0;0];
 [0;165;0;0;0;0;153;0;157;0;0;0;154;0;0;225];
 [133;160;131;0;132;134;145;135;138;130;136;137;141;161;140;139];
 [0;164;149;162;147;0;148;246;155;151;163;150;129;0;0;152]].

(* lib/converters/cp865.h:81-89 cp865_page03 *)
Definition cp865_page03 : tab := mk [
 [0;0;0;226;0;0;0;0;233;0;0;0;0;0;0;0];
 [0;0;0;228;0;0;232;0;0;234;0;0;0;0;0;0];
 [0;224;0;0;235;238;0;0;0;0;0;0;0;0;0;0];
 [227;0;0;229;231;0;237;0]].

(* lib/converters/cp865.h:90-101 cp865_page22 *)
Definition cp865_page22 : tab := mk [
 [0;249;251;0;0;0;236;0;0;0;0;0;0;0;0;0];
 [0;239;0;0;0;0;0;0;0;0;0;0;0;0;0;0];
 [0;0;0;0;0;0;0;0;0;0;0;0;0;0;0;0];
 [247;0;0;0;0;0;0;0;0;0;0;0;0;0;0;0];
 [0;0;0;0;0;0;0;0;0;240;0;0;243;242;0;0]].

(* lib/converters/cp865.h:102-106 cp865_page23 *)
Definition cp865_page23 : tab := mk [
 [169;0;0;0;0;0;0;0;0;0;0;0;0;0;0;0];
 [244;245;0;0;0;0;0;0]].

(* lib/converters/cp865.h:107-129 cp865_page25 *)
Definition cp865_page25 : tab := mk [
 [196;0;179;0;0;0;0;0;0;0;0;0;218;0;0;0];
 [191;0;0;0;192;0;0;0;217;0;0;0;195;0;0;0];
 [0;0;0;0;180;0;0;0;0;0;0;0;194;0;0;0];
 [0;0;0;0;193;0;0;0;0;0;0;0;197;0;0;0];
 [0;0;0;0;0;0;0;0;0;0;0;0;0;0;0;0];
 [205;186;213;214;201;184;183;187;212;211;200;190;189;188;198;199];
 [204;181;182;185;209;210;203;207;208;202;216;215;206;0;0;0];
 [0;0;0;0;0;0;0;0;0;0;0;0;0;0;0;0];
 [223;0;0;0;220;0;0;0;219;0;0;0;221;0;0;0];
 [222;176;177;178;0;0;0;0;0;0;0;0;0;0;0;0];
 [254;0;0;0;0;0;0;0]].

(* lib/converters/cp865.h:57-65 cp865_mbtowc *)
Definition cp865_mbtowc (s : list Z) (n : nat) : res (Z * option Z) :=
  let pwc := (None : option Z) in
  rd s 0%nat (fun c =>
  if (c <? 0x80) then
   let pwc := Some c in
   Ok (1, pwc)
  else
   tget cp865_2uni (c - 0x80) (fun x2 =>
   let pwc := Some x2 in
   Ok (1, pwc))).

(* lib/converters/cp865.h:131-161 cp865_wctomb *)
Definition cp865_wctomb_j (c : Z) (r : wlog) : res (Z * wlog) :=
  if (negb (c =? 0)) then
   let r := wr r 0%nat c in
   Ok (1, r)
  else
   Ok ((-1), r).
(* lib/converters/cp865.h:131-161 cp865_wctomb *)
Definition cp865_wctomb (wc : Z) (n : nat) : res (Z * wlog) :=
  let r := ([] : wlog) in
  let c := 0 in
  if (wc <? 0x80) then
   let r := wr r 0%nat wc in
   Ok (1, r)
  else
   if ((wc >=? 0xa0) &&& (wc <? 0x100)) then
    tget cp865_page00 (wc - 0xa0) (fun c =>
    cp865_wctomb_j c r)
   else
    if (wc =? 0x192) then
     let c := 0x9f in
     cp865_wctomb_j c r
    else
     if ((wc >=? 0x390) &&& (wc <? 0x3c8)) then
      tget cp865_page03 (wc - 0x390) (fun c =>
      cp865_wctomb_j c r)
     else
      if (wc =? 0x207f) then
       let c := 0xfc in
       cp865_wctomb_j c r
      else
       if (wc =? 0x20a7) then
        let c := 0x9e in
        cp865_wctomb_j c r
       else
        if ((wc >=? 0x2218) &&& (wc <? 0x2268)) then
         tget cp865_page22 (wc - 0x2218) (fun c =>
         cp865_wctomb_j c r)
        else
         if ((wc >=? 0x2310) &&& (wc <? 0x2328)) then
          tget cp865_page23 (wc - 0x2310) (fun c =>
          cp865_wctomb_j c r)
         else
          if ((wc >=? 0x2500) &&& (wc <? 0x25a8)) then
           tget cp865_page25 (wc - 0x2500) (fun c =>
           cp865_wctomb_j c r)
          else
           cp865_wctomb_j c r.

(* lib/converters/cp869.h:30-55 cp869_2uni *)
Definition cp869_2uni : tab := mk [
 [65533;65533;65533;65533;65533;65533;902;65533;183;172;166;8216;8217;904;8213;905];
 [906;938;908;65533;65533;910;939;169;911;178;179;940;163;941;942;943];
 [970;912;972;973;913;914;915;916;917;918;919;189;920;921;171;187];
 [9617;9618;9619;9474;9508;922;923;924;925;9571;9553;9559;9565;926;927;9488];
 [9492;9524;9516;9500;9472;9532;928;929;9562;9556;9577;9574;9568;9552;9580;931];
 [932;933;934;935;936;937;945;946;947;9496;9484;9608;9604;948;949;9600];
 [950;951;952;953;954;955;956;957;958;959;960;961;963;962;964;900];
 [173;177;965;966;967;167;968;901;176;168;969;971;944;974;9632;160]].

(* lib/converters/cp869.h:77-82 cp869_page00 *)
Definition cp869_page00 : tab := mk [
 [255;0;0;156;0;0;138;245;249;151;0;174;137;240;0;0];
 [248;241;153;154;0;0;0;136;0;0;0;175;0;171;0;0]].

(* lib/converters/cp869.h:83-94 cp869_page03 *)
Definition cp869_page03 : tab := mk [
 [0;0;0;0;239;247;134;0;141;143;144;0;146;0;149;152];
 [161;164;165;166;167;168;169;170;172;173;181;182;183;184;189;190];
 [198;199;0;207;208;209;210;211;212;213;145;150;155;157;158;159];
 [252;214;215;216;221;222;224;225;226;227;228;229;230;231;232;233];
 [234;235;237;236;238;242;243;244;246;250;160;251;162;163;253;0]].

(* lib/converters/cp869.h:95-98 cp869_page20 *)
Definition cp869_page20 : tab := mk [
 [0;0;0;0;0;142;0;0;139;140;0;0;0;0;0;0]].

(* lib/converters/cp869.h:99-121 cp869_page25 *)
Definition cp869_page25 : tab := mk [
 [196;0;179;0;0;0;0;0;0;0;0;0;218;0;0;0];
 [191;0;0;0;192;0;0;0;217;0;0;0;195;0;0;0];
 [0;0;0;0;180;0;0;0;0;0;0;0;194;0;0;0];
 [0;0;0;0;193;0;0;0;0;0;0;0;197;0;0;0];
 [0;0;0;0;0;0;0;0;0;0;0;0;0;0;0;0];
 [205;186;0;0;201;0;0;187;0;0;200;0;0;188;0;0];
 [204;0;0;185;0;0;203;0;0;202;0;0;206;0;0;0];
 [0;0;0;0;0;0;0;0;0;0;0;0;0;0;0;0];
 [223;0;0;0;220;0;0;0;219;0;0;0;0;0;0;0];
 [0;176;177;178;0;0;0;0;0;0;0;0;0;0;0;0];
 [254;0;0;0;0;0;0;0]].

(* lib/converters/cp869.h:57-75 cp869_mbtowc *)
Definition cp869_mbtowc (s : list Z) (n : nat) : res (Z * option Z) :=
  let pwc := (None : option Z) in
  rd s 0%nat (fun c =>
  if (c <? 0x80) then
   let pwc := Some c in
   Ok (1, pwc)
  else
   tget cp869_2uni (c - 0x80) (fun wc =>
   if (negb (wc =? 0xfffd)) then
    let pwc := Some wc in
    Ok (1, pwc)
   else
    Ok ((-1), pwc))).

(* lib/converters/cp869.h:123-145 cp869_wctomb *)
Definition cp869_wctomb_j (c : Z) (r : wlog) : res (Z * wlog) :=
  if (negb (c =? 0)) then
   let r := wr r 0%nat c in
   Ok (1, r)
  else
   Ok ((-1), r).
(* lib/converters/cp869.h:123-145 cp869_wctomb *)
Definition cp869_wctomb (wc : Z) (n : nat) : res (Z * wlog) :=
  let r := ([] : wlog) in
  let c := 0 in
  if (wc <? 0x80) then
   let r := wr r 0%nat wc in
   Ok (1, r)
  else
   if ((wc >=? 0xa0) &&& (wc <? 0xc0)) then
    tget cp869_page00 (wc - 0xa0) (fun c =>
    cp869_wctomb_j c r)
   else
    if ((wc >=? 0x380) &&& (wc <? 0x3d0)) then
     tget cp869_page03 (wc - 0x380) (fun c =>
     cp869_wctomb_j c r)
    else
     if ((wc >=? 0x2010) &&& (wc <? 0x2020)) then
      tget cp869_page20 (wc - 0x2010) (fun c =>
      cp869_wctomb_j c r)
     else
      if ((wc >=? 0x2500) &&& (wc <? 0x25a8)) then
       tget cp869_page25 (wc - 0x2500) (fun c =>
       cp869_wctomb_j c r)
      else
       cp869_wctomb_j c r.

(* lib/converters/atarist.h:30-55 atarist_2uni *)
Definition atarist_2uni : tab := mk [
 [199;252;233;226;228;224;229;231;234;235;232;239;238;236;196;197];
 [201;230;198;244;246;242;251;249;255;214;220;162;163;165;223;402];
 [225;237;243;250;241;209;170;186;191;8976;172;189;188;161;171;187];
 [227;245;216;248;339;338;192;195;213;168;180;8224;182;169;174;8482];
 [307;306;1488;1489;1490;1491;1492;1493;1494;1495;1496;1497;1499;1500;1502;1504];
 [1505;1506;1508;1510;1511;1512;1513;1514;1503;1498;1501;1507;1509;167;8743;8734];
 [945;946;915;960;931;963;181;964;934;920;937;948;8750;966;8712;8745];
 [8801;177;8805;8804;8992;8993;247;8776;176;8729;183;8730;8319;178;179;175]].

(* lib/converters/atarist.h:67-80 atarist_page00 *)
Definition atarist_page00 : tab := mk [
 [0;173;155;156;0;157;0;221;185;189;166;174;170;0;190;255];
 [248;241;253;254;186;230;188;250;0;0;167;175;172;171;0;168];
 [182;0;0;183;142;143;146;128;0;144;0;0;0;0;0;0];
 [0;165;0;0;0;184;153;0;178;0;0;0;154;0;0;158];
 [133;160;131;176;132;134;145;135;138;130;136;137;141;161;140;139];
 [0;164;149;162;147;177;148;246;179;151;163;150;129;0;0;152]].

(* lib/converters/atarist.h:81-95 atarist_page01 *)
Definition atarist_page01 : tab := mk [
 [0;0;193;192;0;0;0;0;0;0;0;0;0;0;0;0];
 [0;0;0;0;0;0;0;0;0;0;0;0;0;0;0;0];
 [0;0;181;180;0;0;0;0;0;0;0;0;0;0;0;0];
 [0;0;0;0;0;0;0;0;0;0;0;0;0;0;0;0];
 [0;0;0;0;0;0;0;0;0;0;0;0;0;0;0;0];
 [0;0;0;0;0;0;0;0;0;0;0;0;0;0;0;0];
 [0;0;159;0;0;0;0;0]].

(* lib/converters/atarist.h:96-104 atarist_page03 *)
Definition atarist_page03 : tab := mk [
 [0;0;0;226;0;0;0;0;233;0;0;0;0;0;0;0];
 [0;0;0;228;0;0;232;0;0;234;0;0;0;0;0;0];
 [0;224;225;0;235;0;0;0;0;0;0;0;0;0;0;0];
 [227;0;0;229;231;0;237;0]].

(* lib/converters/atarist.h:105-110 atarist_page05 *)
Definition atarist_page05 : tab := mk [
 [194;195;196;197;198;199;200;201;202;203;217;204;205;218;206;216];
 [207;208;209;219;210;220;211;212;213;214;215;0;0;0;0;0]].

(* lib/converters/atarist.h:111-124 atarist_page22 *)
Definition atarist_page22 : tab := mk [
 [238;0;0;0;0;0;0;0;0;0;0;0;0;0;0;0];
 [0;249;251;0;0;0;223;0;0;0;0;0;0;0;0;222];
 [0;239;0;0;0;0;236;0;0;0;0;0;0;0;0;0];
 [0;0;0;0;0;0;0;0;0;0;0;0;0;0;0;0];
 [247;0;0;0;0;0;0;0;0;0;0;0;0;0;0;0];
 [0;0;0;0;0;0;0;0;0;240;0;0;243;242;0;0]].

(* lib/converters/atarist.h:125-129 atarist_page23 *)
Definition atarist_page23 : tab := mk [
 [169;0;0;0;0;0;0;0;0;0;0;0;0;0;0;0];
 [244;245;0;0;0;0;0;0]].

(* lib/converters/atarist.h:57-65 atarist_mbtowc *)
Definition atarist_mbtowc (s : list Z) (n : nat) : res (Z * option Z) :=
  let pwc := (None : option Z) in
  rd s 0%nat (fun c =>
  if (c <? 0x80) then
   let pwc := Some c in
   Ok (1, pwc)
  else
   tget atarist_2uni (c - 0x80) (fun x2 =>
   let pwc := Some x2 in
   Ok (1, pwc))).

(* lib/converters/atarist.h:131-163 atarist_wctomb *)
Definition atarist_wctomb_j (c : Z) (r : wlog) : res (Z * wlog) :=
  if (negb (c =? 0)) then
   let r := wr r 0%nat c in
   Ok (1, r)
  else
   Ok ((-1), r).
(* lib/converters/atarist.h:131-163 atarist_wctomb *)
Definition atarist_wctomb (wc : Z) (n : nat) : res (Z * wlog) :=
  let r := ([] : wlog) in
  let c := 0 in
  if (wc <? 0x80) then
   let r := wr r 0%nat wc in
   Ok (1, r)
  else
   if ((wc >=? 0xa0) &&& (wc <? 0x100)) then
    tget atarist_page00 (wc - 0xa0) (fun c =>
    atarist_wctomb_j c r)
   else
    if ((wc >=? 0x130) &&& (wc <? 0x198)) then
     tget atarist_page01 (wc - 0x130) (fun c =>
     atarist_wctomb_j c r)
    else
     if ((wc >=? 0x390) &&& (wc <? 0x3c8)) then
      tget atarist_page03 (wc - 0x390) (fun c =>
      atarist_wctomb_j c r)
     else
      if ((wc >=? 0x5d0) &&& (wc <? 0x5f0)) then
       tget atarist_page05 (wc - 0x5d0) (fun c =>
       atarist_wctomb_j c r)
      else
       if (wc =? 0x2020) then
        let c := 0xbb in
        atarist_wctomb_j c r
       else
        if (wc =? 0x207f) then
         let c := 0xfc in
         atarist_wctomb_j c r
        else
         if (wc =? 0x2122) then
          let c := 0xbf in
          atarist_wctomb_j c r
         else
          if ((wc >=? 0x2208) &&& (wc <? 0x2268)) then
           tget atarist_page22 (wc - 0x2208) (fun c =>
           atarist_wctomb_j c r)
          else
           if ((wc >=? 0x2310) &&& (wc <? 0x2328)) then
            tget atarist_page23 (wc - 0x2310) (fun c =>
            atarist_wctomb_j c r)
           else
            atarist_wctomb_j c r.

(* lib/converters/riscos1.h:30-37 riscos1_2uni *)
Definition riscos1_2uni : tab := mk [
 [8730;372;373;131;9587;374;375;135;8678;8680;8681;8679;8230;8482;8240;8226];
 [8216;8217;8249;8250;8220;8221;8222;8211;8212;8722;338;339;8224;8225;64257;64258]].

(* lib/converters/riscos1.h:49-55 riscos1_page01 *)
Definition riscos1_page01 : tab := mk [
 [0;0;154;155;0;0;0;0;0;0;0;0;0;0;0;0];
 [0;0;0;0;0;0;0;0;0;0;0;0;0;0;0;0];
 [0;0;0;0;129;130;133;134]].

(* lib/converters/riscos1.h:56-63 riscos1_page20 *)
Definition riscos1_page20 : tab := mk [
 [0;0;0;151;152;0;0;0;144;145;0;0;148;149;150;0];
 [156;157;143;0;0;0;140;0;0;0;0;0;0;0;0;0];
 [142;0;0;0;0;0;0;0;0;146;147;0;0;0;0;0]].

(* lib/converters/riscos1.h:64-67 riscos1_page21 *)
Definition riscos1_page21 : tab := mk [
 [0;0;0;0;0;0;136;139;137;138;0;0;0;0;0;0]].

(* lib/converters/riscos1.h:68-71 riscos1_page22 *)
Definition riscos1_page22 : tab := mk [
 [0;0;153;0;0;0;0;0;0;0;128;0;0;0;0;0]].

(* lib/converters/riscos1.h:39-47 riscos1_mbtowc *)
Definition riscos1_mbtowc (s : list Z) (n : nat) : res (Z * option Z) :=
  let pwc := (None : option Z) in
  rd s 0%nat (fun c =>
  if ((c >=? 0x80) &&& (c <? 0xa0)) then
   tget riscos1_2uni (c - 0x80) (fun x2 =>
   let pwc := Some x2 in
   Ok (1, pwc))
  else
   let pwc := Some c in
   Ok (1, pwc)).

(* lib/converters/riscos1.h:73-101 riscos1_wctomb *)
Definition riscos1_wctomb_j (c : Z) (r : wlog) : res (Z * wlog) :=
  if (negb (c =? 0)) then
   let r := wr r 0%nat c in
   Ok (1, r)
  else
   Ok ((-1), r).
(* lib/converters/riscos1.h:73-101 riscos1_wctomb *)
Definition riscos1_wctomb (wc : Z) (n : nat) : res (Z * wlog) :=
  let r := ([] : wlog) in
  let c := 0 in
  if ((((wc <? 0x80) ||| (wc =? 0x83)) ||| (wc =? 0x87)) ||| ((wc >=? 0xa0) &&& (wc <? 0x100))) then
   let r := wr r 0%nat wc in
   Ok (1, r)
  else
   if ((wc >=? 0x150) &&& (wc <? 0x178)) then
    tget riscos1_page01 (wc - 0x150) (fun c =>
    riscos1_wctomb_j c r)
   else
    if ((wc >=? 0x2010) &&& (wc <? 0x2040)) then
     tget riscos1_page20 (wc - 0x2010) (fun c =>
     riscos1_wctomb_j c r)
    else
     if (wc =? 0x2122) then
      let c := 0x8d in
      riscos1_wctomb_j c r
     else
      if ((wc >=? 0x21e0) &&& (wc <? 0x21f0)) then
       tget riscos1_page21 (wc - 0x21e0) (fun c =>
       riscos1_wctomb_j c r)
      else
       if ((wc >=? 0x2210) &&& (wc <? 0x2220)) then
        tget riscos1_page22 (wc - 0x2210) (fun c =>
        riscos1_wctomb_j c r)
       else
        if (wc =? 0x2573) then
         let c := 0x84 in
         riscos1_wctomb_j c r
        else
         if ((wc >=? 0xfb01) &&& (wc <? 0xfb03)) then
          let c := (wc - 0xfa63) in
          riscos1_wctomb_j c r
         else
          riscos1_wctomb_j c r.

(* lib/converters/tds565.h:30-43 tds565_2uni *)
Definition tds565_2uni : tab := mk [
 [64;65;66;199;68;69;196;70;71;72;73;74;381;75;76;77];
 [78;327;79;214;80;82;83;350;84;85;220;87;89;221;90;95];
 [8470;97;98;231;100;101;228;102;103;104;105;106;382;107;108;109];
 [110;328;111;246;112;114;115;351;116;117;252;119;121;253;122;127]].

(* lib/converters/tds565.h:60-69 tds565_page00 *)
Definition tds565_page00 : tab := mk [
 [64;65;66;0;68;69;71;72;73;74;75;77;78;79;80;82];
 [84;0;85;86;88;89;0;91;0;92;94;0;0;0;0;95];
 [0;97;98;0;100;101;103;104;105;106;107;109;110;111;112;114];
 [116;0;117;118;120;121;0;123;0;124;126;0;0;0;0;127]].

(* lib/converters/tds565.h:70-79 tds565_page00_1 *)
Definition tds565_page00_1 : tab := mk [
 [0;0;0;0;70;0;0;67;0;0;0;0;0;0;0;0];
 [0;0;0;0;0;0;83;0;0;0;0;0;90;93;0;0];
 [0;0;0;0;102;0;0;99;0;0;0;0;0;0;0;0];
 [0;0;0;0;0;0;115;0;0;0;0;0;122;125;0;0]].

(* lib/converters/tds565.h:80-89 tds565_page01 *)
Definition tds565_page01 : tab := mk [
 [0;0;0;0;0;0;0;81;113;0;0;0;0;0;0;0];
 [0;0;0;0;0;0;0;0;0;0;0;0;0;0;87;119];
 [0;0;0;0;0;0;0;0;0;0;0;0;0;0;0;0];
 [0;0;0;0;0;0;0;0;0;0;0;0;0;76;108;0]].

(* lib/converters/tds565.h:45-58 tds565_mbtowc *)
Definition tds565_mbtowc (s : list Z) (n : nat) : res (Z * option Z) :=
  let pwc := (None : option Z) in
  rd s 0%nat (fun c =>
  if (c <? 0x40) then
   let pwc := Some c in
   Ok (1, pwc)
  else
   if (c <? 0x80) then
    tget tds565_2uni (c - 0x40) (fun x2 =>
    let pwc := Some x2 in
    Ok (1, pwc))
   else
    Ok ((-1), pwc)).

(* lib/converters/tds565.h:91-112 tds565_wctomb *)
Definition tds565_wctomb_j (c : Z) (r : wlog) : res (Z * wlog) :=
  if (negb (c =? 0)) then
   let r := wr r 0%nat c in
   Ok (1, r)
  else
   Ok ((-1), r).
(* lib/converters/tds565.h:91-112 tds565_wctomb *)
Definition tds565_wctomb (wc : Z) (n : nat) : res (Z * wlog) :=
  let r := ([] : wlog) in
  let c := 0 in
  if (wc <? 0x40) then
   let r := wr r 0%nat wc in
   Ok (1, r)
  else
   if ((wc >=? 0x40) &&& (wc <? 0x80)) then
    tget tds565_page00 (wc - 0x40) (fun c =>
    tds565_wctomb_j c r)
   else
    if ((wc >=? 0xc0) &&& (wc <? 0x100)) then
     tget tds565_page00_1 (wc - 0xc0) (fun c =>
     tds565_wctomb_j c r)
    else
     if ((wc >=? 0x140) &&& (wc <? 0x180)) then
      tget tds565_page01 (wc - 0x140) (fun c =>
      tds565_wctomb_j c r)
     else
      if (wc =? 0x2116) then
       let c := 0x60 in
       tds565_wctomb_j c r
      else
       tds565_wctomb_j c r.

