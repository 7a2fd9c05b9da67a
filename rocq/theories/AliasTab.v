(** GENERATED by tools/gennames.py; do not edit.
    lib/generated/aliases.h: tables of the perfect hash function. *)
From Coq Require Import ZArith List String.
From Verif Require Import Base Indexes.
Import ListNotations.
Open Scope Z_scope.

(* lib/generated/aliases.h:35-39 *)
Definition TOTAL_KEYWORDS : Z := 840.
Definition MIN_WORD_LENGTH : Z := 2.
Definition MAX_WORD_LENGTH : Z := 39.
Definition MIN_HASH_VALUE : Z := 4.
Definition MAX_HASH_VALUE : Z := 4067.
(* lib/generated/aliases.h:52-68 *)
Definition asso_values : tab := mk [
 [4068;4068;4068;4068;4068;4068;4068;4068;4068;4068;4068;4068;4068;4068;4068;4068];
 [4068;4068;4068;4068;4068;4068;4068;4068;4068;4068;4068;4068;4068;4068;4068;4068];
 [4068;4068;4068;4068;4068;4068;4068;4068;4068;4068;4068;4068;4068;1;44;4068];
 [3;0;34;260;15;6;98;544;64;341;644;844;849;805;4068;4068];
 [4068;530;441;0;748;328;469;5;177;0;589;510;3;1;11;386];
 [25;112;151;0;424;2;182;536;220;14;2;8;0;0;4068;4068];
 [4068;4068;4068;4068;4068;4068;4068;4068;4068;4068;4068;4068;4068;4068;4068;4068];
 [4068;4068;4068;4068;4068;4068;4068;4068;4068;4068;4068;4068;4068;4068;4068;4068];
 [4068;4068;4068;4068]].
(* lib/generated/aliases.h:1795-4209 aliases[] and :950-1792 stringpool_contents: the slots with name >= 0, as
   (slot, string at that stringpool offset, encoding index); all other slots hold {-1}. *)
Definition alias_slots : list (Z * string * Z) := [
 (4, "MAC"%string, ei_mac_roman);
 (6, "US"%string, ei_ascii);
 (7, "SJIS"%string, ei_sjis);
 (22, "1201"%string, ei_ucs2be);
 (25, "1251"%string, ei_cp1251);
 (26, "12001"%string, ei_ucs4be);
 (28, "1200"%string, ei_ucs2le);
 (31, "1250"%string, ei_cp1250);
 (32, "12000"%string, ei_ucs4le);
 (37, "1255"%string, ei_cp1255);
 (38, "CN"%string, ei_iso646_cn);
 (45, "425"%string, ei_ebcdic425);
 (48, "10010"%string, ei_mac_romania);
 (49, "500"%string, ei_ebcdic500);
 (51, "10000"%string, ei_mac_roman);
 (54, "L2"%string, ei_iso8859_2);
 (55, "1254"%string, ei_cp1254);
 (57, "10005"%string, ei_mac_hebrew);
 (63, "424"%string, ei_ebcdic424);
 (75, "10004"%string, ei_mac_arabic);
 (76, "10021"%string, ei_mac_thai);
 (77, "5601"%string, ei_euc_kr);
 (79, "U32"%string, ei_utf32);
 (84, "1025"%string, ei_ebcdic1025);
 (89, "CSUCS4"%string, ei_ucs4);
 (93, "1252"%string, ei_cp1252);
 (106, "10081"%string, ei_mac_turkish);
 (108, "1361"%string, ei_johab);
 (113, "50221"%string, ei_iso2022_jpms);
 (118, "L4"%string, ei_iso8859_4);
 (125, "50225"%string, ei_iso2022_kr);
 (131, "861"%string, ei_cp861);
 (137, "860"%string, ei_cp860);
 (143, "865"%string, ei_cp865);
 (153, "1258"%string, ei_cp1258);
 (155, "CPIS"%string, ei_cp861);
 (161, "864"%string, ei_cp864);
 (166, "16804"%string, ei_ebcdic16804);
 (167, "L6"%string, ei_iso8859_10);
 (171, "CP500"%string, ei_ebcdic500);
 (172, "CP1051"%string, ei_hp_roman8);
 (174, "10082"%string, ei_mac_croatian);
 (176, "CP10010"%string, ei_mac_romania);
 (178, "CP1141"%string, ei_ebcdic1141);
 (181, "HZ"%string, ei_hz);
 (185, "CP10000"%string, ei_mac_roman);
 (190, "CP1140"%string, ei_ebcdic1140);
 (191, "CP10005"%string, ei_mac_hebrew);
 (192, "CP154"%string, ei_pt154);
 (195, "CYRILLIC"%string, ei_iso8859_5);
 (197, "CSVISCII"%string, ei_viscii);
 (199, "862"%string, ei_cp862);
 (200, "CP1201"%string, ei_ucs2be);
 (201, "838"%string, ei_ebcdic838);
 (202, "MSCYRL"%string, ei_cp1251);
 (203, "CP1251"%string, ei_cp1251);
 (209, "CP10004"%string, ei_mac_arabic);
 (210, "CP12001"%string, ei_ucs4be);
 (212, "CP1200"%string, ei_ucs2le);
 (214, "MACCYRILLIC"%string, ei_mac_cyrillic);
 (215, "CP1250"%string, ei_cp1250);
 (216, "CP12000"%string, ei_ucs4le);
 (217, "CP425"%string, ei_ebcdic425);
 (221, "1256"%string, ei_cp1256);
 (225, "CP01141"%string, ei_ebcdic1141);
 (231, "CP01140"%string, ei_ebcdic1140);
 (232, "CP850"%string, ei_cp850);
 (235, "CP424"%string, ei_ebcdic424);
 (237, "CP01145"%string, ei_ebcdic1145);
 (238, "CP855"%string, ei_cp855);
 (241, "10006"%string, ei_mac_greek);
 (242, "CP1154"%string, ei_ebcdic1154);
 (248, "PT154"%string, ei_pt154);
 (249, "1046"%string, ei_cp1046);
 (251, "CP1144"%string, ei_ebcdic1144);
 (255, "CP01144"%string, ei_ebcdic1144);
 (260, "CP280"%string, ei_ebcdic280);
 (261, "CP1161"%string, ei_cp1161);
 (262, "CP10021"%string, ei_mac_thai);
 (265, "L1"%string, ei_iso8859_1);
 (266, "CP285"%string, ei_ebcdic285);
 (268, "1026"%string, ei_ebcdic1026);
 (270, "CP1124"%string, ei_cp1124);
 (271, "L3"%string, ei_iso8859_3);
 (272, "L10"%string, ei_iso8859_16);
 (273, "CP1160"%string, ei_ebcdic1160);
 (276, "CP1254"%string, ei_cp1254);
 (279, "1141"%string, ei_ebcdic1141);
 (280, "CP65001"%string, ei_utf8);
 (282, "1155"%string, ei_ebcdic1155);
 (284, "CP284"%string, ei_ebcdic284);
 (285, "1140"%string, ei_ebcdic1140);
 (286, "CP65000"%string, ei_utf7);
 (289, "CP1112"%string, ei_ebcdic1112);
 (290, "CP880"%string, ei_ebcdic880);
 (291, "1145"%string, ei_ebcdic1145);
 (293, "CP01142"%string, ei_ebcdic1142);
 (294, "CP852"%string, ei_cp852);
 (296, "X0201"%string, ei_jisx0201);
 (299, "CP50221"%string, ei_iso2022_jpms);
 (300, "1154"%string, ei_ebcdic1154);
 (304, "CP1142"%string, ei_ebcdic1142);
 (309, "1144"%string, ei_ebcdic1144);
 (310, "1125"%string, ei_cp1125);
 (311, "CP50225"%string, ei_iso2022_kr);
 (318, "CP861"%string, ei_cp861);
 (322, "CP282"%string, ei_ebcdic282);
 (323, "CP1122"%string, ei_ebcdic1122);
 (324, "CP860"%string, ei_cp860);
 (327, "866"%string, ei_cp866);
 (328, "1124"%string, ei_cp1124);
 (329, "CP1252"%string, ei_cp1252);
 (330, "CP865"%string, ei_cp865);
 (332, "1112"%string, ei_ebcdic1112);
 (334, "CP1164"%string, ei_ebcdic1164);
 (347, "1142"%string, ei_ebcdic1142);
 (348, "CP864"%string, ei_cp864);
 (353, "CP01148"%string, ei_ebcdic1148);
 (354, "CP858"%string, ei_cp858);
 (361, "X0212"%string, ei_jisx0212);
 (362, "1161"%string, ei_cp1161);
 (364, "UCS4"%string, ei_ucs4);
 (365, "CP16804"%string, ei_ebcdic16804);
 (366, "1122"%string, ei_ebcdic1122);
 (368, "1160"%string, ei_ebcdic1160);
 (374, "1165"%string, ei_ebcdic1165);
 (375, "CP10006"%string, ei_mac_greek);
 (386, "CP862"%string, ei_cp862);
 (387, "CP1162"%string, ei_cp1162);
 (389, "924"%string, ei_ebcdic924);
 (392, "1164"%string, ei_ebcdic1164);
 (395, "646"%string, ei_ascii);
 (398, "1158"%string, ei_ebcdic1158);
 (402, "UCS2"%string, ei_ucs2);
 (407, "1148"%string, ei_ebcdic1148);
 (408, "871"%string, ei_ebcdic871);
 (414, "870"%string, ei_ebcdic870);
 (418, "932"%string, ei_cp932);
 (420, "875"%string, ei_ebcdic875);
 (421, "CP01146"%string, ei_ebcdic1146);
 (422, "CP856"%string, ei_cp856);
 (423, "CP1131"%string, ei_cp1131);
 (424, "X0208"%string, ei_jisx0208);
 (427, "922"%string, ei_cp922);
 (430, "1162"%string, ei_cp1162);
 (431, "20866"%string, ei_koi8_r);
 (433, "CP866U"%string, ei_cp1125);
 (435, "CP1130"%string, ei_ebcdic1130);
 (438, "874"%string, ei_cp874);
 (450, "LATIN1"%string, ei_iso8859_1);
 (457, "LATIN10"%string, ei_iso8859_16);
 (461, "U16"%string, ei_utf16);
 (462, "CPGR"%string, ei_cp869);
 (463, "CSPC850MULTILINGUAL"%string, ei_cp850);
 (464, "CP-GR"%string, ei_cp869);
 (466, "1156"%string, ei_ebcdic1156);
 (475, "1146"%string, ei_ebcdic1146);
 (484, "CSIBM01141"%string, ei_ebcdic1141);
 (490, "CSIBM01140"%string, ei_ebcdic1140);
 (496, "CSIBM01145"%string, ei_ebcdic1145);
 (502, "HP15CN"%string, ei_euc_cn);
 (505, "CSIBM1125"%string, ei_cp1125);
 (506, "278"%string, ei_ebcdic278);
 (509, "CP950"%string, ei_cp950);
 (510, "CP1155"%string, ei_ebcdic1155);
 (514, "CP866"%string, ei_cp866);
 (519, "CP1145"%string, ei_ebcdic1145);
 (521, "CP1361"%string, ei_johab);
 (523, "LATIN4"%string, ei_iso8859_4);
 (524, "1131"%string, ei_cp1131);
 (530, "1130"%string, ei_ebcdic1130);
 (537, "ASCII"%string, ei_ascii);
 (538, "CP1125"%string, ei_cp1125);
 (540, "CSASCII"%string, ei_ascii);
 (541, "CP1025"%string, ei_ebcdic1025);
 (542, "USASCII"%string, ei_ascii);
 (544, "CP1255"%string, ei_cp1255);
 (545, "1253"%string, ei_cp1253);
 (546, "936"%string, ei_cp936);
 (549, "CP1132"%string, ei_ebcdic1132);
 (551, "MSANSI"%string, ei_cp1252);
 (552, "CSIBM01142"%string, ei_ebcdic1142);
 (553, "423"%string, ei_ebcdic423);
 (555, "L5"%string, ei_iso8859_9);
 (556, "ISOIR101"%string, ei_iso8859_2);
 (557, "CSIBM1161"%string, ei_cp1161);
 (558, "1166"%string, ei_ebcdic1166);
 (559, "ISOIR110"%string, ei_iso8859_4);
 (561, "CP924"%string, ei_ebcdic924);
 (562, "ISOIR100"%string, ei_iso8859_1);
 (576, "LATIN2"%string, ei_iso8859_2);
 (577, "154"%string, ei_pt154);
 (579, "CSISO2022CN"%string, ei_iso2022_cn);
 (580, "CSIBM424"%string, ei_ebcdic424);
 (582, "ISOIR14"%string, ei_iso646_jp);
 (588, "ISO2022CN"%string, ei_iso2022_cn);
 (592, "1132"%string, ei_ebcdic1132);
 (594, "UHC"%string, ei_cp949);
 (598, "ISOIR144"%string, ei_iso8859_5);
 (599, "CP922"%string, ei_cp922);
 (602, "CP1165"%string, ei_ebcdic1165);
 (608, "CP838"%string, ei_ebcdic838);
 (610, "PTCP154"%string, ei_pt154);
 (612, "CSIBM01148"%string, ei_ebcdic1148);
 (617, "850"%string, ei_cp850);
 (620, "CSIBM280"%string, ei_ebcdic280);
 (623, "855"%string, ei_cp855);
 (624, "51950"%string, ei_euc_tw);
 (625, "CSIBM1162"%string, ei_cp1162);
 (626, "CSIBM285"%string, ei_ebcdic285);
 (632, "12712"%string, ei_ebcdic12712);
 (633, "CP00924"%string, ei_ebcdic924);
 (638, "KSC5601"%string, ei_ksc5601);
 (644, "CSIBM284"%string, ei_ebcdic284);
 (646, "MS874"%string, ei_cp874);
 (651, "863"%string, ei_cp863);
 (653, "65001"%string, ei_utf8);
 (657, "21866"%string, ei_koi8_ru);
 (659, "65000"%string, ei_utf7);
 (663, "ISOIR165"%string, ei_isoir165);
 (667, "ANSI1251"%string, ei_cp1251);
 (679, "852"%string, ei_cp852);
 (680, "CSKZ1048"%string, ei_rk1048);
 (682, "UCS4LE"%string, ei_ucs4le);
 (687, "280"%string, ei_ebcdic280);
 (692, "CSIBM1026"%string, ei_ebcdic1026);
 (693, "285"%string, ei_ebcdic285);
 (694, "RUSCII"%string, ei_cp1125);
 (695, "KOI8U"%string, ei_koi8_u);
 (696, "ISOIR148"%string, ei_iso8859_9);
 (697, "CP00858"%string, ei_cp858);
 (699, "VISCII"%string, ei_viscii);
 (701, "UCS2LE"%string, ei_ucs2le);
 (706, "U32LE"%string, ei_utf32le);
 (711, "284"%string, ei_ebcdic284);
 (712, "U8"%string, ei_utf8);
 (713, "L8"%string, ei_iso8859_14);
 (717, "880"%string, ei_ebcdic880);
 (725, "CP423"%string, ei_ebcdic423);
 (739, "858"%string, ei_cp858);
 (741, "CYRILLICASIAN"%string, ei_pt154);
 (742, "CYRIILLICASIAN"%string, ei_pt154);
 (745, "CP01143"%string, ei_ebcdic1143);
 (746, "CP853"%string, ei_cp853);
 (747, "VISCII1.11"%string, ei_viscii);
 (749, "282"%string, ei_ebcdic282);
 (758, "10029"%string, ei_mac_centraleurope);
 (764, "CP871"%string, ei_ebcdic871);
 (767, "JP"%string, ei_iso646_jp);
 (770, "CP870"%string, ei_ebcdic870);
 (776, "CP875"%string, ei_ebcdic875);
 (781, "IBM01141"%string, ei_ebcdic1141);
 (782, "IBM500"%string, ei_ebcdic500);
 (783, "ISOIR126"%string, ei_iso8859_7);
 (785, "UTF8"%string, ei_utf8);
 (787, "IBM01140"%string, ei_ebcdic1140);
 (790, "1153"%string, ei_ebcdic1153);
 (791, "LATIN5"%string, ei_iso8859_9);
 (793, "IBM01145"%string, ei_ebcdic1145);
 (794, "CP874"%string, ei_cp874);
 (796, "28605"%string, ei_iso8859_15);
 (799, "1143"%string, ei_ebcdic1143);
 (801, "CSBIG5"%string, ei_ces_big5);
 (802, "CSIBM500"%string, ei_ebcdic500);
 (805, "MS936"%string, ei_cp936);
 (807, "856"%string, ei_cp856);
 (810, "CP12712"%string, ei_ebcdic12712);
 (811, "IBM01144"%string, ei_ebcdic1144);
 (813, "869"%string, ei_cp869);
 (818, "1123"%string, ei_ebcdic1123);
 (820, "IBM1141"%string, ei_ebcdic1141);
 (823, "52936"%string, ei_hz);
 (824, "CNBIG5"%string, ei_ces_big5);
 (825, "CP932"%string, ei_cp932);
 (826, "IBM1140"%string, ei_ebcdic1140);
 (830, "IBM1112"%string, ei_ebcdic1112);
 (832, "IBM1145"%string, ei_ebcdic1145);
 (838, "CP863"%string, ei_cp863);
 (843, "IBM850"%string, ei_cp850);
 (847, "ISOIR166"%string, ei_tis620);
 (849, "IBM01142"%string, ei_ebcdic1142);
 (850, "IBM1144"%string, ei_ebcdic1144);
 (852, "CP51950"%string, ei_euc_tw);
 (854, "UTF16"%string, ei_utf16);
 (859, "KOI8RU"%string, ei_koi8_ru);
 (861, "R8"%string, ei_hp_roman8);
 (862, "CP278"%string, ei_ebcdic278);
 (866, "IBM1125"%string, ei_cp1125);
 (869, "IBM1025"%string, ei_ebcdic1025);
 (871, "IBM280"%string, ei_ebcdic280);
 (875, "ISOIR226"%string, ei_iso8859_16);
 (877, "CSIBM00924"%string, ei_ebcdic924);
 (882, "1163"%string, ei_cp1163);
 (883, "IBM424"%string, ei_ebcdic424);
 (884, "IBM1124"%string, ei_cp1124);
 (888, "IBM1142"%string, ei_ebcdic1142);
 (889, "U7"%string, ei_utf7);
 (890, "L7"%string, ei_iso8859_13);
 (891, "EUCCN"%string, ei_euc_cn);
 (894, "950"%string, ei_cp950);
 (898, "273"%string, ei_ebcdic273);
 (900, "775"%string, ei_cp775);
 (901, "IBM880"%string, ei_ebcdic880);
 (902, "CP819"%string, ei_iso8859_1);
 (905, "CP1156"%string, ei_ebcdic1156);
 (906, "54936"%string, ei_gb18030_2022);
 (907, "CP01149"%string, ei_ebcdic1149);
 (909, "IBM01148"%string, ei_ebcdic1148);
 (911, "ISOIR230"%string, ei_tds565);
 (914, "CP1146"%string, ei_ebcdic1146);
 (916, "CNGB"%string, ei_euc_cn);
 (917, "CP1046"%string, ei_cp1046);
 (920, "CSPTCP154"%string, ei_pt154);
 (922, "IBM1122"%string, ei_ebcdic1122);
 (923, "IBM861"%string, ei_cp861);
 (927, "UNICODE11"%string, ei_ucs2be);
 (928, "SYSTEM1125"%string, ei_cp1125);
 (932, "IBM284"%string, ei_ebcdic284);
 (935, "IBM860"%string, ei_cp860);
 (936, "CP1026"%string, ei_ebcdic1026);
 (937, "MACTHAI"%string, ei_mac_thai);
 (939, "CP1256"%string, ei_cp1256);
 (940, "51932"%string, ei_euc_jp);
 (941, "ISOIR138"%string, ei_iso8859_8);
 (944, "CP10029"%string, ei_mac_centraleurope);
 (948, "IBM1148"%string, ei_ebcdic1148);
 (953, "CP936"%string, ei_cp936);
 (957, "IBM852"%string, ei_cp852);
 (960, "TCVN"%string, ei_tcvn);
 (961, "1149"%string, ei_ebcdic1149);
 (962, "943"%string, ei_cp943);
 (967, "CP1153"%string, ei_ebcdic1153);
 (972, "BIG5"%string, ei_ces_big5);
 (976, "CP1143"%string, ei_ebcdic1143);
 (977, "IBM01146"%string, ei_ebcdic1146);
 (980, "1129"%string, ei_cp1129);
 (981, "MACINTOSH"%string, ei_mac_roman);
 (983, "CSPCP852"%string, ei_cp852);
 (985, "IBM282"%string, ei_ebcdic282);
 (986, "UTF32"%string, ei_utf32);
 (991, "MSEE"%string, ei_cp1250);
 (993, "KOI8R"%string, ei_koi8_r);
 (995, "CP1123"%string, ei_ebcdic1123);
 (996, "IBM864"%string, ei_cp864);
 (997, "CP1166"%string, ei_ebcdic1166);
 (1000, "CP869"%string, ei_cp869);
 (1001, "CP1253"%string, ei_cp1253);
 (1004, "CSIBM01143"%string, ei_ebcdic1143);
 (1009, "819"%string, ei_iso8859_1);
 (1013, "CP10081"%string, ei_mac_turkish);
 (1015, "ISOIR58"%string, ei_gb2312);
 (1016, "IBM1146"%string, ei_ebcdic1146);
 (1019, "IBM1046"%string, ei_cp1046);
 (1020, "STRK10482002"%string, ei_rk1048);
 (1024, "U16LE"%string, ei_utf16le);
 (1027, "CSEUCKR"%string, ei_euc_kr);
 (1030, "28591"%string, ei_iso8859_1);
 (1032, "CP943"%string, ei_cp943);
 (1035, "CSHPROMAN8"%string, ei_hp_roman8);
 (1042, "28595"%string, ei_iso8859_5);
 (1044, "1133"%string, ei_cp1133);
 (1049, "IBM862"%string, ei_cp862);
 (1053, "IBM1026"%string, ei_ebcdic1026);
 (1059, "CP1163"%string, ei_cp1163);
 (1060, "28594"%string, ei_iso8859_4);
 (1063, "CP4971"%string, ei_ebcdic4971);
 (1067, "CP28591"%string, ei_iso8859_1);
 (1070, "CSIBM423"%string, ei_ebcdic423);
 (1072, "MSKANJI"%string, ei_sjis);
 (1076, "CP1158"%string, ei_ebcdic1158);
 (1077, "CSIBM1163"%string, ei_cp1163);
 (1079, "CP28595"%string, ei_iso8859_5);
 (1081, "CP10082"%string, ei_mac_croatian);
 (1085, "CP1148"%string, ei_ebcdic1148);
 (1089, "RK1048"%string, ei_rk1048);
 (1090, "TIS620"%string, ei_tis620);
 (1092, "ARMSCII8"%string, ei_armscii_8);
 (1094, "TIS6200"%string, ei_tis620);
 (1096, "CP21866"%string, ei_koi8_ru);
 (1097, "CP28594"%string, ei_iso8859_4);
 (1098, "28592"%string, ei_iso8859_2);
 (1099, "CP20866"%string, ei_koi8_r);
 (1102, "CSGB2312"%string, ei_euc_cn);
 (1109, "IBM1155"%string, ei_ebcdic1155);
 (1110, "CP1258"%string, ei_cp1258);
 (1112, "437"%string, ei_cp437);
 (1113, "1257"%string, ei_cp1257);
 (1114, "IBMEUCCN"%string, ei_euc_cn);
 (1116, "CCSID01141"%string, ei_ebcdic1141);
 (1117, "CP51932"%string, ei_euc_jp);
 (1120, "UCS4BE"%string, ei_ucs4be);
 (1122, "CCSID01140"%string, ei_ebcdic1140);
 (1124, "949"%string, ei_cp949);
 (1127, "IBM1154"%string, ei_ebcdic1154);
 (1128, "CCSID01145"%string, ei_ebcdic1145);
 (1129, "GEORGIANPS"%string, ei_georgian_ps);
 (1130, "10017"%string, ei_mac_ukraine);
 (1131, "853"%string, ei_cp853);
 (1133, "10007"%string, ei_mac_cyrillic);
 (1135, "CP28592"%string, ei_iso8859_2);
 (1137, "IBM1250"%string, ei_cp1250);
 (1139, "UCS2BE"%string, ei_ucs2be);
 (1141, "1047"%string, ei_ebcdic1047);
 (1143, "IBM1255"%string, ei_cp1255);
 (1144, "U32BE"%string, ei_utf32be);
 (1146, "CCSID01144"%string, ei_ebcdic1144);
 (1151, "IBM425"%string, ei_ebcdic425);
 (1155, "ISO646US"%string, ei_ascii);
 (1158, "28598"%string, ei_iso8859_8);
 (1160, "DOS862"%string, ei_cp862);
 (1161, "IBM1254"%string, ei_cp1254);
 (1166, "CSIBM01149"%string, ei_ebcdic1149);
 (1168, "ISOIR203"%string, ei_iso8859_15);
 (1172, "IBM855"%string, ei_cp855);
 (1174, "ISOCELTIC"%string, ei_iso8859_14);
 (1175, "ISO646CN"%string, ei_iso646_cn);
 (1177, "ISO10646UCS4"%string, ei_ucs4);
 (1181, "ISO2022JP1"%string, ei_iso2022_jp1);
 (1182, "CSISO2022JP"%string, ei_iso2022_jp);
 (1183, "ISO2022JPMS"%string, ei_iso2022_jpms);
 (1184, "CCSID01142"%string, ei_ebcdic1142);
 (1185, "GB2312"%string, ei_euc_cn);
 (1186, "LATIN6"%string, ei_iso8859_10);
 (1190, "L9"%string, ei_iso8859_15);
 (1192, "CSISO2022JP2"%string, ei_iso2022_jp2);
 (1194, "CP949"%string, ei_cp949);
 (1195, "CP28598"%string, ei_iso8859_8);
 (1196, "ISO10646UCS2"%string, ei_ucs2);
 (1199, "IBM1252"%string, ei_cp1252);
 (1200, "IBM285"%string, ei_ebcdic285);
 (1205, "ISO2022JP"%string, ei_iso2022_jp);
 (1206, "ISO88591"%string, ei_iso8859_1);
 (1207, "ISO885911"%string, ei_iso8859_11);
 (1209, "IBM924"%string, ei_ebcdic924);
 (1210, "MACROMAN"%string, ei_mac_roman);
 (1211, "TIS620.25291"%string, ei_tis620);
 (1212, "CNS11643"%string, ei_euc_tw);
 (1213, "ISO885910"%string, ei_iso8859_10);
 (1218, "ISO88595"%string, ei_iso8859_5);
 (1219, "ISO885915"%string, ei_iso8859_15);
 (1221, "CP1133"%string, ei_cp1133);
 (1222, "CSIBM278"%string, ei_ebcdic278);
 (1223, "GB231280"%string, ei_gb2312);
 (1225, "IBM1158"%string, ei_ebcdic1158);
 (1226, "28596"%string, ei_iso8859_6);
 (1229, "CSISO2022KR"%string, ei_iso2022_kr);
 (1230, "ECMA114"%string, ei_iso8859_6);
 (1233, "ISO2022JP2004"%string, ei_iso2022_jp3);
 (1236, "ISO88594"%string, ei_iso8859_4);
 (1237, "ISO885914"%string, ei_iso8859_14);
 (1238, "ISOIR109"%string, ei_iso8859_3);
 (1241, "ISOIR159"%string, ei_jisx0212);
 (1244, "CCSID01148"%string, ei_ebcdic1148);
 (1248, "LATIN3"%string, ei_iso8859_3);
 (1249, "ISO2022JP2"%string, ei_iso2022_jp2);
 (1250, "ISOIR149"%string, ei_ksc5601);
 (1251, "CP51949"%string, ei_euc_kr);
 (1254, "CP273"%string, ei_ebcdic273);
 (1256, "CP775"%string, ei_cp775);
 (1258, "CP10017"%string, ei_mac_ukraine);
 (1259, "IBM1258"%string, ei_cp1258);
 (1260, "CP54936"%string, ei_gb18030_2022);
 (1262, "IBM922"%string, ei_cp922);
 (1263, "CP28596"%string, ei_iso8859_6);
 (1264, "IBM865"%string, ei_cp865);
 (1266, "NEXTSTEP"%string, ei_nextstep);
 (1267, "CP10007"%string, ei_mac_cyrillic);
 (1268, "10079"%string, ei_mac_iceland);
 (1272, "CSIBM905"%string, ei_ebcdic905);
 (1274, "ISO88592"%string, ei_iso8859_2);
 (1277, "HZGB2312"%string, ei_hz);
 (1279, "CP52936"%string, ei_hz);
 (1286, "JIS0208"%string, ei_jisx0208);
 (1287, "ISOIR6"%string, ei_ascii);
 (1288, "MSHEBR"%string, ei_cp1255);
 (1291, "CSISO58GB231280"%string, ei_gb2312);
 (1293, "IBM1156"%string, ei_ebcdic1156);
 (1300, "IBM1131"%string, ei_cp1131);
 (1301, "IBM01143"%string, ei_ebcdic1143);
 (1302, "CCSID00858"%string, ei_cp858);
 (1304, "28603"%string, ei_iso8859_13);
 (1305, "XMACCYRILLIC"%string, ei_mac_cyrillic);
 (1306, "IBM1130"%string, ei_ebcdic1130);
 (1309, "51949"%string, ei_euc_kr);
 (1312, "CCSID01146"%string, ei_ebcdic1146);
 (1313, "CP01147"%string, ei_ebcdic1147);
 (1314, "CP857"%string, ei_cp857);
 (1318, "CP1149"%string, ei_ebcdic1149);
 (1319, "CSIBM855"%string, ei_cp855);
 (1327, "IBM1256"%string, ei_cp1256);
 (1328, "ECMA118"%string, ei_iso8859_7);
 (1332, "ISO2022CNEXT"%string, ei_iso2022_cn_ext);
 (1334, "ISO88598"%string, ei_iso8859_8);
 (1337, "CP1129"%string, ei_cp1129);
 (1340, "IBM1143"%string, ei_ebcdic1143);
 (1341, "HPROMAN8"%string, ei_hp_roman8);
 (1350, "TDS565"%string, ei_tds565);
 (1353, "CSISO159JISX02121990"%string, ei_jisx0212);
 (1357, "LATIN8"%string, ei_iso8859_14);
 (1358, "1157"%string, ei_ebcdic1157);
 (1367, "1147"%string, ei_ebcdic1147);
 (1368, "IBM1132"%string, ei_ebcdic1132);
 (1369, "IBM871"%string, ei_ebcdic871);
 (1371, "CSIBM880"%string, ei_ebcdic880);
 (1374, "IBM1123"%string, ei_ebcdic1123);
 (1376, "PCK"%string, ei_sjis);
 (1377, "GB18030"%string, ei_gb18030_2022);
 (1378, "ISO2022KR"%string, ei_iso2022_kr);
 (1379, "UNICODEBIG"%string, ei_ucs2be);
 (1380, "CSIBMTHAI"%string, ei_ebcdic838);
 (1381, "IBM870"%string, ei_ebcdic870);
 (1384, "38598"%string, ei_iso8859_8);
 (1388, "KSC56011989"%string, ei_ksc5601);
 (1389, "CSISOLATIN1"%string, ei_iso8859_1);
 (1390, "TACTIS"%string, ei_tis620);
 (1393, "CSISOLATIN10"%string, ei_iso8859_16);
 (1394, "CSISOLATINARABIC"%string, ei_iso8859_6);
 (1395, "CSISOLATIN5"%string, ei_iso8859_9);
 (1396, "CSISOLATINCYRILLIC"%string, ei_iso8859_5);
 (1398, "ATARI"%string, ei_atarist);
 (1399, "CSIBM861"%string, ei_cp861);
 (1400, "IBM1161"%string, ei_cp1161);
 (1401, "CSISO14JISC6220RO"%string, ei_iso646_jp);
 (1402, "ISO88596"%string, ei_iso8859_6);
 (1403, "ISO885916"%string, ei_iso8859_16);
 (1404, "CSISOLATIN4"%string, ei_iso8859_4);
 (1405, "CSIBM860"%string, ei_cp860);
 (1406, "IBM1160"%string, ei_ebcdic1160);
 (1407, "4971"%string, ei_ebcdic4971);
 (1411, "CSIBM865"%string, ei_cp865);
 (1412, "IBM1165"%string, ei_ebcdic1165);
 (1415, "367"%string, ei_ascii);
 (1421, "CP38598"%string, ei_iso8859_8);
 (1423, "CSISOLATIN2"%string, ei_iso8859_2);
 (1425, "UCS4INTERNAL"%string, ei_ucs4internal);
 (1429, "CSIBM864"%string, ei_cp864);
 (1430, "IBM1164"%string, ei_ebcdic1164);
 (1431, "JISX0201"%string, ei_jisx0201);
 (1435, "CSIBM858"%string, ei_cp858);
 (1437, "TIS620.25331"%string, ei_tis620);
 (1439, "UTF16LE"%string, ei_utf16le);
 (1440, "TIS620.25330"%string, ei_tis620);
 (1444, "UCS2INTERNAL"%string, ei_ucs2internal);
 (1446, "IBM905"%string, ei_ebcdic905);
 (1447, "KZ1048"%string, ei_rk1048);
 (1460, "MACARABIC"%string, ei_mac_arabic);
 (1462, "U16BE"%string, ei_utf16be);
 (1463, "IBM01149"%string, ei_ebcdic1149);
 (1466, "277"%string, ei_ebcdic277);
 (1468, "IBM1162"%string, ei_cp1162);
 (1470, "XMACCE"%string, ei_mac_centraleurope);
 (1477, "UNICODE11UTF7"%string, ei_utf7);
 (1482, "MSTURK"%string, ei_cp1254);
 (1483, "MACTURKISH"%string, ei_mac_turkish);
 (1487, "CSISOLATIN6"%string, ei_iso8859_10);
 (1488, "IBM932"%string, ei_cp932);
 (1493, "CSUNICODE11"%string, ei_ucs2be);
 (1496, "JISX0212"%string, ei_jisx0212);
 (1501, "SHIFTJIS"%string, ei_sjis);
 (1502, "IBM1149"%string, ei_ebcdic1149);
 (1507, "CP037"%string, ei_ebcdic037);
 (1508, "EUCJP"%string, ei_euc_jp);
 (1509, "CCSID00924"%string, ei_ebcdic924);
 (1511, "CSKSC56011987"%string, ei_ksc5601);
 (1513, "MACGREEK"%string, ei_mac_greek);
 (1514, "MSGREEK"%string, ei_cp1253);
 (1515, "JISX0212.19900"%string, ei_jisx0212);
 (1519, "CP437"%string, ei_cp437);
 (1526, "IBM921CP28603"%string, ei_iso8859_13);
 (1528, "IBM1168"%string, ei_koi8_ru);
 (1529, "C99"%string, ei_c99);
 (1534, "BIG5HKSCS"%string, ei_big5hkscs2008);
 (1536, "IBM1129"%string, ei_cp1129);
 (1537, "ISO646.IRV:1991"%string, ei_ascii);
 (1539, "KOI8T"%string, ei_koi8_t);
 (1542, "BIG52003"%string, ei_big5_2003);
 (1543, "CSMACINTOSH"%string, ei_mac_roman);
 (1550, "28593"%string, ei_iso8859_3);
 (1551, "CP1157"%string, ei_ebcdic1157);
 (1557, "SHIFTJIS2004"%string, ei_shift_jisx0213);
 (1559, "JISX0208"%string, ei_jisx0208);
 (1560, "CP1147"%string, ei_ebcdic1147);
 (1562, "CNGBISOIR165"%string, ei_isoir165);
 (1563, "CP1047"%string, ei_ebcdic1047);
 (1565, "CSIBM1047"%string, ei_ebcdic1047);
 (1567, "IBM856"%string, ei_cp856);
 (1569, "IBMCP1133"%string, ei_cp1133);
 (1572, "CSIBM01147"%string, ei_ebcdic1147);
 (1575, "CSGB18030"%string, ei_gb18030_2022);
 (1576, "ISOIR199"%string, ei_iso8859_14);
 (1585, "CP1257"%string, ei_cp1257);
 (1587, "CP28593"%string, ei_iso8859_3);
 (1590, "LATIN9"%string, ei_iso8859_15);
 (1591, "KSC56011987"%string, ei_ksc5601);
 (1593, "MULELAO1"%string, ei_mulelao);
 (1595, "CSIBM866"%string, ei_cp866);
 (1596, "IBM1166"%string, ei_ebcdic1166);
 (1602, "CP367"%string, ei_ascii);
 (1608, "IBM423"%string, ei_ebcdic423);
 (1612, "1137"%string, ei_ebcdic1137);
 (1613, "ASMO708"%string, ei_iso8859_6);
 (1614, "CSIBM273"%string, ei_ebcdic273);
 (1615, "CSPC8CODEPAGE1144"%string, ei_ebcdic1144);
 (1617, "IBM1153"%string, ei_ebcdic1153);
 (1619, "CP297"%string, ei_ebcdic297);
 (1621, "DECHANZI"%string, ei_euc_cn);
 (1629, "IBM853"%string, ei_cp853);
 (1631, "CSEUCTW"%string, ei_euc_tw);
 (1632, "IBM00924"%string, ei_ebcdic924);
 (1635, "UTF32LE"%string, ei_utf32le);
 (1636, "CCSID01143"%string, ei_ebcdic1143);
 (1637, "DECHANYU"%string, ei_dec_hanyu);
 (1641, "737"%string, ei_cp737);
 (1647, "ISOIR157"%string, ei_iso8859_10);
 (1649, "CSISOLATIN3"%string, ei_iso8859_3);
 (1652, "HEBREW"%string, ei_iso8859_8);
 (1653, "GEORGIANACADEMY"%string, ei_georgian_academy);
 (1658, "MACCROATIAN"%string, ei_mac_croatian);
 (1659, "IBM866"%string, ei_cp866);
 (1661, "CSWINDOWS1251"%string, ei_cp1251);
 (1664, "CSWINDOWS1250"%string, ei_cp1250);
 (1667, "CSWINDOWS1255"%string, ei_cp1255);
 (1672, "CSISO885915CP28605"%string, ei_iso8859_15);
 (1675, "ISOIR127"%string, ei_iso8859_6);
 (1676, "CSWINDOWS1254"%string, ei_cp1254);
 (1681, "EUCKR"%string, ei_euc_kr);
 (1685, "IBMTHAI"%string, ei_ebcdic838);
 (1686, "UNICODELITTLE"%string, ei_ucs2le);
 (1690, "CP10079"%string, ei_mac_iceland);
 (1695, "CSWINDOWS1252"%string, ei_cp1252);
 (1696, "TIS620.2533"%string, ei_tis620);
 (1698, "CSPC8CODEPAGE1146"%string, ei_ebcdic1146);
 (1699, "857"%string, ei_cp857);
 (1701, "ISO2022JP3"%string, ei_iso2022_jp3);
 (1703, "IBM12712"%string, ei_ebcdic12712);
 (1710, "IBM875"%string, ei_ebcdic875);
 (1712, "28599"%string, ei_iso8859_9);
 (1721, "IBM863"%string, ei_cp863);
 (1723, "ELOT928"%string, ei_iso8859_7);
 (1724, "ROMAN8"%string, ei_hp_roman8);
 (1725, "CSWINDOWS1258"%string, ei_cp1258);
 (1726, "ISO88593"%string, ei_iso8859_3);
 (1727, "ISO885913"%string, ei_iso8859_13);
 (1731, "IBMEUCJP"%string, ei_euc_jp);
 (1737, "IBM16804"%string, ei_ebcdic16804);
 (1738, "IBM858"%string, ei_cp858);
 (1739, "CSWINDOWS874"%string, ei_cp874);
 (1745, "UTF7"%string, ei_utf7);
 (1746, "IBM00858"%string, ei_cp858);
 (1749, "CP28599"%string, ei_iso8859_9);
 (1758, "CSKOI8U"%string, ei_koi8_u);
 (1759, "CSWINDOWS1256"%string, ei_cp1256);
 (1776, "GBK"%string, ei_ces_gbk);
 (1779, "ISOIR179"%string, ei_iso8859_13);
 (1791, "CSSHIFTJIS"%string, ei_sjis);
 (1792, "ISO646JP"%string, ei_iso646_jp);
 (1795, "ANSIX3.41968"%string, ei_ascii);
 (1796, "CSISO57GB1988"%string, ei_iso646_cn);
 (1798, "CCSID01149"%string, ei_ebcdic1149);
 (1799, "KOREAN"%string, ei_ksc5601);
 (1805, "CP1137"%string, ei_ebcdic1137);
 (1810, "JISX02121990"%string, ei_jisx0212);
 (1811, "CP0037"%string, ei_ebcdic037);
 (1815, "CSIBM037"%string, ei_ebcdic037);
 (1819, "CSUNICODE"%string, ei_ucs2);
 (1822, "CP277"%string, ei_ebcdic277);
 (1827, "CSIBM853"%string, ei_cp853);
 (1829, "ANSIX3.41986"%string, ei_ascii);
 (1832, "LATIN7"%string, ei_iso8859_13);
 (1835, "JAVA"%string, ei_java);
 (1838, "TCVN57121"%string, ei_tcvn);
 (1843, "JISX02081990"%string, ei_jisx0208);
 (1845, "CSIBM871"%string, ei_ebcdic871);
 (1851, "CSIBM870"%string, ei_ebcdic870);
 (1852, "XMACROMANIAN"%string, ei_mac_romania);
 (1864, "EBCDICCPIS"%string, ei_ebcdic871);
 (1866, "EBCDICCPUS"%string, ei_ebcdic037);
 (1869, "IBM01147"%string, ei_ebcdic1147);
 (1871, "TCVN5712"%string, ei_tcvn);
 (1874, "JISX02011976"%string, ei_jisx0201);
 (1881, "EBCDICCPNL"%string, ei_ebcdic037);
 (1882, "EBCDICCPYU"%string, ei_ebcdic870);
 (1883, "UTF16BE"%string, ei_utf16be);
 (1888, "ISO88599"%string, ei_iso8859_9);
 (1889, "CP1097"%string, ei_ebcdic1097);
 (1893, "ISO885910:1992"%string, ei_iso8859_10);
 (1902, "MACUKRAINE"%string, ei_mac_ukraine);
 (1903, "CSISOLATINGREEK"%string, ei_iso8859_7);
 (1904, "IBMEUCKR"%string, ei_euc_kr);
 (1908, "IBM1147"%string, ei_ebcdic1147);
 (1910, "CSKOI8RU"%string, ei_koi8_ru);
 (1911, "IBM1047"%string, ei_ebcdic1047);
 (1915, "IBM943"%string, ei_cp943);
 (1919, "CSIBM863"%string, ei_cp863);
 (1920, "IBM1163"%string, ei_cp1163);
 (1921, "CSWINDOWS1253"%string, ei_cp1253);
 (1925, "ISO88595:1988"%string, ei_iso8859_5);
 (1926, "ISO885915:1998"%string, ei_iso8859_15);
 (1930, "CSISOLATINHEBREW"%string, ei_iso8859_8);
 (1932, "MACCENTRALEUROPE"%string, ei_mac_centraleurope);
 (1934, "ISO88594:1988"%string, ei_iso8859_4);
 (1935, "ISO885914:1998"%string, ei_iso8859_14);
 (1936, "ARABIC"%string, ei_iso8859_6);
 (1954, "ISO885916:2001"%string, ei_iso8859_16);
 (1956, "IBM4971"%string, ei_ebcdic4971);
 (1965, "IBM819"%string, ei_iso8859_1);
 (1969, "297"%string, ei_ebcdic297);
 (1975, "ISOIR57"%string, ei_iso646_cn);
 (1979, "CSIBM297"%string, ei_ebcdic297);
 (1983, "ISO88598:1988"%string, ei_iso8859_8);
 (1989, "SHIFTJISX0213"%string, ei_shift_jisx0213);
 (1992, "IBM838"%string, ei_ebcdic838);
 (2008, "EBCDICCYRILLIC"%string, ei_ebcdic880);
 (2020, "UCS4SWAPPED"%string, ei_ucs4swapped);
 (2026, "XMACICELANDIC"%string, ei_mac_iceland);
 (2039, "UCS2SWAPPED"%string, ei_ucs2swapped);
 (2040, "JISC62261983"%string, ei_jisx0208);
 (2041, "CSUNICODE11UTF7"%string, ei_utf7);
 (2048, "CP737"%string, ei_cp737);
 (2051, "MACICELAND"%string, ei_mac_iceland);
 (2056, "CSKOI8R"%string, ei_koi8_r);
 (2063, "IBM869"%string, ei_cp869);
 (2066, "GB18030:2005"%string, ei_gb18030_2005);
 (2069, "EUCJIS2004"%string, ei_euc_jisx0213);
 (2073, "JISC62201969RO"%string, ei_iso646_jp);
 (2079, "UTF32BE"%string, ei_utf32be);
 (2081, "CSIBM869"%string, ei_cp869);
 (2082, "IBM1169"%string, ei_pt154);
 (2085, "GB198880"%string, ei_iso646_cn);
 (2090, "BIGFIVE"%string, ei_ces_big5);
 (2094, "GB18030:2022"%string, ei_gb18030_2022);
 (2100, "JISX02081983"%string, ei_jisx0208);
 (2101, "XMACTHAI"%string, ei_mac_thai);
 (2110, "GREEK"%string, ei_iso8859_7);
 (2118, "28597"%string, ei_iso8859_7);
 (2127, "CHINESE"%string, ei_euc_cn);
 (2130, "MSARAB"%string, ei_cp1256);
 (2137, "IBM273"%string, ei_ebcdic273);
 (2143, "CSPC8CODEPAGE437"%string, ei_cp437);
 (2155, "CP28597"%string, ei_iso8859_7);
 (2171, "EBCDICCPGR"%string, ei_ebcdic423);
 (2179, "ISO88593:1988"%string, ei_iso8859_3);
 (2182, "CSIBM277"%string, ei_ebcdic277);
 (2183, "BIG5HKSCS:2001"%string, ei_big5hkscs2001);
 (2185, "IBM1157"%string, ei_ebcdic1157);
 (2190, "IBM775"%string, ei_cp775);
 (2192, "EBCDICCPES"%string, ei_ebcdic284);
 (2198, "BIG5HKSCS:2004"%string, ei_big5hkscs2004);
 (2204, "CCSID01147"%string, ei_ebcdic1147);
 (2205, "CSWINDOWS1257"%string, ei_cp1257);
 (2213, "IBM857"%string, ei_cp857);
 (2218, "EBCDICCPCH"%string, ei_ebcdic500);
 (2219, "IBM1257"%string, ei_cp1257);
 (2240, "XMACUKRAINIAN"%string, ei_mac_ukraine);
 (2244, "SDECKANJI"%string, ei_euc_jp);
 (2246, "IBM278"%string, ei_ebcdic278);
 (2247, "BIG5HKSCS:2008"%string, ei_big5hkscs2008);
 (2250, "WINDOWS1251"%string, ei_cp1251);
 (2253, "WINDOWS1250"%string, ei_cp1250);
 (2256, "WINDOWS1255"%string, ei_cp1255);
 (2261, "MACROMANIA"%string, ei_mac_romania);
 (2265, "WINDOWS1254"%string, ei_cp1254);
 (2280, "CSPC862LATINHEBREW"%string, ei_cp862);
 (2284, "WINDOWS1252"%string, ei_cp1252);
 (2294, "ISO88597"%string, ei_iso8859_7);
 (2295, "JOHAB"%string, ei_johab);
 (2314, "WINDOWS1258"%string, ei_cp1258);
 (2333, "EBCDICCPFI"%string, ei_ebcdic278);
 (2348, "WINDOWS1256"%string, ei_cp1256);
 (2365, "EUCTW"%string, ei_euc_tw);
 (2388, "IBM1137"%string, ei_ebcdic1137);
 (2395, "CSIBM857"%string, ei_cp857);
 (2399, "ISO88591:1987"%string, ei_iso8859_1);
 (2406, "IBM037"%string, ei_ebcdic037);
 (2408, "CSPC775BALTIC"%string, ei_cp775);
 (2418, "IBM437"%string, ei_cp437);
 (2423, "XMACTURKISH"%string, ei_mac_turkish);
 (2433, "ISO88592:1987"%string, ei_iso8859_2);
 (2449, "CSISO87JISX0208"%string, ei_jisx0208);
 (2459, "CCSID853"%string, ei_cp853);
 (2483, "ISOIR87"%string, ei_jisx0208);
 (2497, "ISO88596:1987"%string, ei_iso8859_6);
 (2501, "IBM367"%string, ei_ascii);
 (2502, "KOKR.JOHAP92"%string, ei_johab);
 (2510, "WINDOWS1253"%string, ei_cp1253);
 (2514, "GREEK8"%string, ei_iso8859_7);
 (2517, "EUCJISX0213"%string, ei_euc_jisx0213);
 (2518, "IBM297"%string, ei_ebcdic297);
 (2520, "EBCDICCPSE"%string, ei_ebcdic278);
 (2524, "BIG5HKSCS:1999"%string, ei_big5hkscs1999);
 (2535, "MACHEBREW"%string, ei_mac_hebrew);
 (2537, "ISO88599:1989"%string, ei_iso8859_9);
 (2541, "DECKANJI"%string, ei_dec_kanji);
 (2552, "RISCOSLATIN1"%string, ei_riscos1);
 (2562, "WINDOWS950"%string, ei_cp950);
 (2588, "IBMEUCTW"%string, ei_euc_tw);
 (2590, "EBCDICCPTR"%string, ei_ebcdic905);
 (2635, "EBCDICCPFR"%string, ei_ebcdic297);
 (2640, "WINBALTRIM"%string, ei_cp1257);
 (2647, "EBCDICCPNO"%string, ei_ebcdic277);
 (2652, "IBM1097"%string, ei_ebcdic1097);
 (2657, "EBCDICES284+EURO"%string, ei_ebcdic1145);
 (2681, "XMACCROATIAN"%string, ei_mac_croatian);
 (2693, "ISO88597:2003"%string, ei_iso8859_7);
 (2697, "EBCDICCPHE"%string, ei_ebcdic424);
 (2712, "EBCDICCPIT"%string, ei_ebcdic280);
 (2720, "DECKOREAN"%string, ei_euc_kr);
 (2721, "IBM277"%string, ei_ebcdic277);
 (2726, "EXTENDEDUNIXCODEPACKEDFORMATFORJAPANESE"%string, ei_euc_jp);
 (2732, "EBCDICCPROECE"%string, ei_ebcdic870);
 (2747, "TCVN57121:1993"%string, ei_tcvn);
 (2751, "EBCDICCPGB"%string, ei_ebcdic285);
 (2753, "EBCDICIT280+EURO"%string, ei_ebcdic1144);
 (2775, "EBCDICGB285+EURO"%string, ei_ebcdic1146);
 (2784, "ATARIST"%string, ei_atarist);
 (2794, "WINDOWS1257"%string, ei_cp1257);
 (2829, "XMACARABIC"%string, ei_mac_arabic);
 (2831, "CSEUCPKDFMTJAPANESE"%string, ei_euc_jp);
 (2839, "EBCDICIS871+EURO"%string, ei_ebcdic1149);
 (2847, "WINDOWS874"%string, ei_cp874);
 (2924, "EBCDICCPCA"%string, ei_ebcdic037);
 (2943, "ISO88597:1987"%string, ei_iso8859_7);
 (2947, "IBM737"%string, ei_cp737);
 (2961, "EBCDICCPBE"%string, ei_ebcdic500);
 (3005, "EBCDICINTERNATIONAL500+EURO"%string, ei_ebcdic1148);
 (3006, "WINDOWS936"%string, ei_cp936);
 (3008, "XMACGREEK"%string, ei_mac_greek);
 (3036, "EBCDICUS37+EURO"%string, ei_ebcdic1140);
 (3137, "EBCDICSE278+EURO"%string, ei_ebcdic1143);
 (3162, "EBCDICGREEK"%string, ei_ebcdic875);
 (3188, "EBCDICLATIN9EURO"%string, ei_ebcdic924);
 (3206, "EBCDICNO277+EURO"%string, ei_ebcdic1142);
 (3226, "EBCDICFR297+EURO"%string, ei_ebcdic1147);
 (3248, "EBCDICCPWT"%string, ei_ebcdic037);
 (3278, "EBCDICFI278+EURO"%string, ei_ebcdic1143);
 (3315, "XMACHEBREW"%string, ei_mac_hebrew);
 (3558, "CSHALFWIDTHKATAKANA"%string, ei_jisx0201);
 (3632, "EBCDICCPDK"%string, ei_ebcdic277);
 (3885, "EBCDICDE273+EURO"%string, ei_ebcdic1141);
 (4067, "EBCDICDK277+EURO"%string, ei_ebcdic1142)].
Definition alias_slot_count : Z := 4068.
