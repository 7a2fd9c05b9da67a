(** GENERATED by tools/gennames.py; do not edit.
    lib/encoding_indexes.h:28-40: the anonymous enum of encoding indexes, in the order of lib/encodings.h.snippet. *)
From Coq Require Import ZArith.
Open Scope Z_scope.

(* lib/encodings.h.snippet:60 *)
Definition ei_ascii : Z := 0.
(* lib/encodings.h.snippet:79 *)
Definition ei_utf8 : Z := 1.
(* lib/encodings.h.snippet:87 *)
Definition ei_ucs2 : Z := 2.
(* lib/encodings.h.snippet:93 *)
Definition ei_ucs2be : Z := 3.
(* lib/encodings.h.snippet:104 *)
Definition ei_ucs2le : Z := 4.
(* lib/encodings.h.snippet:112 *)
Definition ei_ucs4 : Z := 5.
(* lib/encodings.h.snippet:118 *)
Definition ei_ucs4be : Z := 6.
(* lib/encodings.h.snippet:125 *)
Definition ei_ucs4le : Z := 7.
(* lib/encodings.h.snippet:132 *)
Definition ei_utf16 : Z := 8.
(* lib/encodings.h.snippet:137 *)
Definition ei_utf16be : Z := 9.
(* lib/encodings.h.snippet:142 *)
Definition ei_utf16le : Z := 10.
(* lib/encodings.h.snippet:147 *)
Definition ei_utf32 : Z := 11.
(* lib/encodings.h.snippet:152 *)
Definition ei_utf32be : Z := 12.
(* lib/encodings.h.snippet:157 *)
Definition ei_utf32le : Z := 13.
(* lib/encodings.h.snippet:161 *)
Definition ei_utf7 : Z := 14.
(* lib/encodings.h.snippet:174 *)
Definition ei_ucs2internal : Z := 15.
(* lib/encodings.h.snippet:178 *)
Definition ei_ucs2swapped : Z := 16.
(* lib/encodings.h.snippet:182 *)
Definition ei_ucs4internal : Z := 17.
(* lib/encodings.h.snippet:186 *)
Definition ei_ucs4swapped : Z := 18.
(* lib/encodings.h.snippet:190 *)
Definition ei_c99 : Z := 19.
(* lib/encodings.h.snippet:192 *)
Definition ei_java : Z := 20.
(* lib/encodings.h.snippet:195 *)
Definition ei_euc_jp : Z := 21.
(* lib/encodings.h.snippet:206 *)
Definition ei_sjis : Z := 22.
(* lib/encodings.h.snippet:214 *)
Definition ei_cp932 : Z := 23.
(* lib/encodings.h.snippet:221 *)
Definition ei_iso2022_jp : Z := 24.
(* lib/encodings.h.snippet:232 *)
Definition ei_iso2022_jp1 : Z := 25.
(* lib/encodings.h.snippet:236 *)
Definition ei_iso2022_jp2 : Z := 26.
(* lib/encodings.h.snippet:241 *)
Definition ei_iso2022_jpms : Z := 27.
(* lib/encodings.h.snippet:248 *)
Definition ei_euc_cn : Z := 28.
(* lib/encodings.h.snippet:260 *)
Definition ei_ces_gbk : Z := 29.
(* lib/encodings.h.snippet:264 *)
Definition ei_cp936 : Z := 30.
(* lib/encodings.h.snippet:274 *)
Definition ei_gb18030_2005 : Z := 31.
(* lib/encodings.h.snippet:278 *)
Definition ei_gb18030_2022 : Z := 32.
(* lib/encodings.h.snippet:288 *)
Definition ei_iso2022_cn : Z := 33.
(* lib/encodings.h.snippet:297 *)
Definition ei_iso2022_cn_ext : Z := 34.
(* lib/encodings.h.snippet:302 *)
Definition ei_hz : Z := 35.
(* lib/encodings.h.snippet:310 *)
Definition ei_euc_tw : Z := 36.
(* lib/encodings.h.snippet:319 *)
Definition ei_ces_big5 : Z := 37.
(* lib/encodings.h.snippet:326 *)
Definition ei_cp950 : Z := 38.
(* lib/encodings.h.snippet:333 *)
Definition ei_big5hkscs1999 : Z := 39.
(* lib/encodings.h.snippet:338 *)
Definition ei_big5hkscs2001 : Z := 40.
(* lib/encodings.h.snippet:341 *)
Definition ei_big5hkscs2004 : Z := 41.
(* lib/encodings.h.snippet:344 *)
Definition ei_big5hkscs2008 : Z := 42.
(* lib/encodings.h.snippet:351 *)
Definition ei_euc_kr : Z := 43.
(* lib/encodings.h.snippet:362 *)
Definition ei_cp949 : Z := 44.
(* lib/encodings.h.snippet:370 *)
Definition ei_johab : Z := 45.
(* lib/encodings.h.snippet:378 *)
Definition ei_iso2022_kr : Z := 46.
(* lib/encodings.h.snippet:386 *)
Definition ei_dec_kanji : Z := 47.
(* lib/encodings.h.snippet:390 *)
Definition ei_dec_hanyu : Z := 48.
(* lib/encodings.h.snippet:395 *)
Definition ei_iso8859_1 : Z := 49.
(* lib/encodings.h.snippet:411 *)
Definition ei_iso8859_2 : Z := 50.
(* lib/encodings.h.snippet:423 *)
Definition ei_iso8859_3 : Z := 51.
(* lib/encodings.h.snippet:435 *)
Definition ei_iso8859_4 : Z := 52.
(* lib/encodings.h.snippet:447 *)
Definition ei_iso8859_5 : Z := 53.
(* lib/encodings.h.snippet:458 *)
Definition ei_iso8859_6 : Z := 54.
(* lib/encodings.h.snippet:471 *)
Definition ei_iso8859_7 : Z := 55.
(* lib/encodings.h.snippet:486 *)
Definition ei_iso8859_8 : Z := 56.
(* lib/encodings.h.snippet:501 *)
Definition ei_iso8859_9 : Z := 57.
(* lib/encodings.h.snippet:513 *)
Definition ei_iso8859_10 : Z := 58.
(* lib/encodings.h.snippet:522 *)
Definition ei_iso8859_11 : Z := 59.
(* lib/encodings.h.snippet:526 *)
Definition ei_iso8859_13 : Z := 60.
(* lib/encodings.h.snippet:537 *)
Definition ei_iso8859_14 : Z := 61.
(* lib/encodings.h.snippet:546 *)
Definition ei_iso8859_15 : Z := 62.
(* lib/encodings.h.snippet:558 *)
Definition ei_iso8859_16 : Z := 63.
(* lib/encodings.h.snippet:567 *)
Definition ei_koi8_r : Z := 64.
(* lib/encodings.h.snippet:575 *)
Definition ei_koi8_u : Z := 65.
(* lib/encodings.h.snippet:580 *)
Definition ei_koi8_ru : Z := 66.
(* lib/encodings.h.snippet:590 *)
Definition ei_cp1250 : Z := 67.
(* lib/encodings.h.snippet:601 *)
Definition ei_cp1251 : Z := 68.
(* lib/encodings.h.snippet:612 *)
Definition ei_cp1252 : Z := 69.
(* lib/encodings.h.snippet:623 *)
Definition ei_cp1253 : Z := 70.
(* lib/encodings.h.snippet:633 *)
Definition ei_cp1254 : Z := 71.
(* lib/encodings.h.snippet:644 *)
Definition ei_cp1255 : Z := 72.
(* lib/encodings.h.snippet:655 *)
Definition ei_cp1256 : Z := 73.
(* lib/encodings.h.snippet:666 *)
Definition ei_cp1257 : Z := 74.
(* lib/encodings.h.snippet:677 *)
Definition ei_cp1258 : Z := 75.
(* lib/encodings.h.snippet:688 *)
Definition ei_cp850 : Z := 76.
(* lib/encodings.h.snippet:696 *)
Definition ei_cp862 : Z := 77.
(* lib/encodings.h.snippet:705 *)
Definition ei_cp866 : Z := 78.
(* lib/encodings.h.snippet:713 *)
Definition ei_cp1131 : Z := 79.
(* lib/encodings.h.snippet:722 *)
Definition ei_mac_roman : Z := 80.
(* lib/encodings.h.snippet:733 *)
Definition ei_mac_centraleurope : Z := 81.
(* lib/encodings.h.snippet:741 *)
Definition ei_mac_iceland : Z := 82.
(* lib/encodings.h.snippet:749 *)
Definition ei_mac_croatian : Z := 83.
(* lib/encodings.h.snippet:757 *)
Definition ei_mac_romania : Z := 84.
(* lib/encodings.h.snippet:765 *)
Definition ei_mac_cyrillic : Z := 85.
(* lib/encodings.h.snippet:773 *)
Definition ei_mac_ukraine : Z := 86.
(* lib/encodings.h.snippet:781 *)
Definition ei_mac_greek : Z := 87.
(* lib/encodings.h.snippet:789 *)
Definition ei_mac_turkish : Z := 88.
(* lib/encodings.h.snippet:797 *)
Definition ei_mac_hebrew : Z := 89.
(* lib/encodings.h.snippet:805 *)
Definition ei_mac_arabic : Z := 90.
(* lib/encodings.h.snippet:813 *)
Definition ei_mac_thai : Z := 91.
(* lib/encodings.h.snippet:822 *)
Definition ei_hp_roman8 : Z := 92.
(* lib/encodings.h.snippet:830 *)
Definition ei_nextstep : Z := 93.
(* lib/encodings.h.snippet:835 *)
Definition ei_armscii_8 : Z := 94.
(* lib/encodings.h.snippet:839 *)
Definition ei_georgian_academy : Z := 95.
(* lib/encodings.h.snippet:843 *)
Definition ei_georgian_ps : Z := 96.
(* lib/encodings.h.snippet:847 *)
Definition ei_koi8_t : Z := 97.
(* lib/encodings.h.snippet:851 *)
Definition ei_pt154 : Z := 98.
(* lib/encodings.h.snippet:863 *)
Definition ei_rk1048 : Z := 99.
(* lib/encodings.h.snippet:870 *)
Definition ei_mulelao : Z := 100.
(* lib/encodings.h.snippet:874 *)
Definition ei_cp1133 : Z := 101.
(* lib/encodings.h.snippet:881 *)
Definition ei_tis620 : Z := 102.
(* lib/encodings.h.snippet:891 *)
Definition ei_cp874 : Z := 103.
(* lib/encodings.h.snippet:900 *)
Definition ei_viscii : Z := 104.
(* lib/encodings.h.snippet:906 *)
Definition ei_tcvn : Z := 105.
(* lib/encodings.h.snippet:914 *)
Definition ei_iso646_jp : Z := 106.
(* lib/encodings.h.snippet:922 *)
Definition ei_jisx0201 : Z := 107.
(* lib/encodings.h.snippet:928 *)
Definition ei_jisx0208 : Z := 108.
(* lib/encodings.h.snippet:936 *)
Definition ei_jisx0212 : Z := 109.
(* lib/encodings.h.snippet:943 *)
Definition ei_iso646_cn : Z := 110.
(* lib/encodings.h.snippet:951 *)
Definition ei_gb2312 : Z := 111.
(* lib/encodings.h.snippet:957 *)
Definition ei_isoir165 : Z := 112.
(* lib/encodings.h.snippet:961 *)
Definition ei_ksc5601 : Z := 113.
(* lib/encodings.h.snippet:971 *)
Definition ei_cp856 : Z := 114.
(* lib/encodings.h.snippet:978 *)
Definition ei_cp922 : Z := 115.
(* lib/encodings.h.snippet:985 *)
Definition ei_cp943 : Z := 116.
(* lib/encodings.h.snippet:992 *)
Definition ei_cp1046 : Z := 117.
(* lib/encodings.h.snippet:999 *)
Definition ei_cp1124 : Z := 118.
(* lib/encodings.h.snippet:1006 *)
Definition ei_cp1129 : Z := 119.
(* lib/encodings.h.snippet:1013 *)
Definition ei_cp1161 : Z := 120.
(* lib/encodings.h.snippet:1021 *)
Definition ei_cp1162 : Z := 121.
(* lib/encodings.h.snippet:1029 *)
Definition ei_cp1163 : Z := 122.
(* lib/encodings.h.snippet:1038 *)
Definition ei_cp437 : Z := 123.
(* lib/encodings.h.snippet:1046 *)
Definition ei_cp737 : Z := 124.
(* lib/encodings.h.snippet:1053 *)
Definition ei_cp775 : Z := 125.
(* lib/encodings.h.snippet:1061 *)
Definition ei_cp852 : Z := 126.
(* lib/encodings.h.snippet:1069 *)
Definition ei_cp853 : Z := 127.
(* lib/encodings.h.snippet:1078 *)
Definition ei_cp855 : Z := 128.
(* lib/encodings.h.snippet:1086 *)
Definition ei_cp857 : Z := 129.
(* lib/encodings.h.snippet:1094 *)
Definition ei_cp858 : Z := 130.
(* lib/encodings.h.snippet:1105 *)
Definition ei_cp860 : Z := 131.
(* lib/encodings.h.snippet:1113 *)
Definition ei_cp861 : Z := 132.
(* lib/encodings.h.snippet:1122 *)
Definition ei_cp863 : Z := 133.
(* lib/encodings.h.snippet:1130 *)
Definition ei_cp864 : Z := 134.
(* lib/encodings.h.snippet:1138 *)
Definition ei_cp865 : Z := 135.
(* lib/encodings.h.snippet:1146 *)
Definition ei_cp869 : Z := 136.
(* lib/encodings.h.snippet:1156 *)
Definition ei_cp1125 : Z := 137.
(* lib/encodings.h.snippet:1168 *)
Definition ei_ebcdic037 : Z := 138.
(* lib/encodings.h.snippet:1180 *)
Definition ei_ebcdic273 : Z := 139.
(* lib/encodings.h.snippet:1189 *)
Definition ei_ebcdic277 : Z := 140.
(* lib/encodings.h.snippet:1200 *)
Definition ei_ebcdic278 : Z := 141.
(* lib/encodings.h.snippet:1211 *)
Definition ei_ebcdic280 : Z := 142.
(* lib/encodings.h.snippet:1221 *)
Definition ei_ebcdic282 : Z := 143.
(* lib/encodings.h.snippet:1228 *)
Definition ei_ebcdic284 : Z := 144.
(* lib/encodings.h.snippet:1238 *)
Definition ei_ebcdic285 : Z := 145.
(* lib/encodings.h.snippet:1248 *)
Definition ei_ebcdic297 : Z := 146.
(* lib/encodings.h.snippet:1258 *)
Definition ei_ebcdic423 : Z := 147.
(* lib/encodings.h.snippet:1268 *)
Definition ei_ebcdic424 : Z := 148.
(* lib/encodings.h.snippet:1278 *)
Definition ei_ebcdic425 : Z := 149.
(* lib/encodings.h.snippet:1285 *)
Definition ei_ebcdic500 : Z := 150.
(* lib/encodings.h.snippet:1296 *)
Definition ei_ebcdic838 : Z := 151.
(* lib/encodings.h.snippet:1305 *)
Definition ei_ebcdic870 : Z := 152.
(* lib/encodings.h.snippet:1315 *)
Definition ei_ebcdic871 : Z := 153.
(* lib/encodings.h.snippet:1325 *)
Definition ei_ebcdic875 : Z := 154.
(* lib/encodings.h.snippet:1333 *)
Definition ei_ebcdic880 : Z := 155.
(* lib/encodings.h.snippet:1343 *)
Definition ei_ebcdic905 : Z := 156.
(* lib/encodings.h.snippet:1351 *)
Definition ei_ebcdic924 : Z := 157.
(* lib/encodings.h.snippet:1364 *)
Definition ei_ebcdic1025 : Z := 158.
(* lib/encodings.h.snippet:1371 *)
Definition ei_ebcdic1026 : Z := 159.
(* lib/encodings.h.snippet:1379 *)
Definition ei_ebcdic1047 : Z := 160.
(* lib/encodings.h.snippet:1387 *)
Definition ei_ebcdic1097 : Z := 161.
(* lib/encodings.h.snippet:1393 *)
Definition ei_ebcdic1112 : Z := 162.
(* lib/encodings.h.snippet:1400 *)
Definition ei_ebcdic1122 : Z := 163.
(* lib/encodings.h.snippet:1407 *)
Definition ei_ebcdic1123 : Z := 164.
(* lib/encodings.h.snippet:1414 *)
Definition ei_ebcdic1130 : Z := 165.
(* lib/encodings.h.snippet:1421 *)
Definition ei_ebcdic1132 : Z := 166.
(* lib/encodings.h.snippet:1428 *)
Definition ei_ebcdic1137 : Z := 167.
(* lib/encodings.h.snippet:1435 *)
Definition ei_ebcdic1140 : Z := 168.
(* lib/encodings.h.snippet:1447 *)
Definition ei_ebcdic1141 : Z := 169.
(* lib/encodings.h.snippet:1459 *)
Definition ei_ebcdic1142 : Z := 170.
(* lib/encodings.h.snippet:1472 *)
Definition ei_ebcdic1143 : Z := 171.
(* lib/encodings.h.snippet:1485 *)
Definition ei_ebcdic1144 : Z := 172.
(* lib/encodings.h.snippet:1497 *)
Definition ei_ebcdic1145 : Z := 173.
(* lib/encodings.h.snippet:1509 *)
Definition ei_ebcdic1146 : Z := 174.
(* lib/encodings.h.snippet:1521 *)
Definition ei_ebcdic1147 : Z := 175.
(* lib/encodings.h.snippet:1533 *)
Definition ei_ebcdic1148 : Z := 176.
(* lib/encodings.h.snippet:1545 *)
Definition ei_ebcdic1149 : Z := 177.
(* lib/encodings.h.snippet:1557 *)
Definition ei_ebcdic1153 : Z := 178.
(* lib/encodings.h.snippet:1564 *)
Definition ei_ebcdic1154 : Z := 179.
(* lib/encodings.h.snippet:1571 *)
Definition ei_ebcdic1155 : Z := 180.
(* lib/encodings.h.snippet:1578 *)
Definition ei_ebcdic1156 : Z := 181.
(* lib/encodings.h.snippet:1585 *)
Definition ei_ebcdic1157 : Z := 182.
(* lib/encodings.h.snippet:1592 *)
Definition ei_ebcdic1158 : Z := 183.
(* lib/encodings.h.snippet:1599 *)
Definition ei_ebcdic1160 : Z := 184.
(* lib/encodings.h.snippet:1606 *)
Definition ei_ebcdic1164 : Z := 185.
(* lib/encodings.h.snippet:1613 *)
Definition ei_ebcdic1165 : Z := 186.
(* lib/encodings.h.snippet:1620 *)
Definition ei_ebcdic1166 : Z := 187.
(* lib/encodings.h.snippet:1627 *)
Definition ei_ebcdic4971 : Z := 188.
(* lib/encodings.h.snippet:1634 *)
Definition ei_ebcdic12712 : Z := 189.
(* lib/encodings.h.snippet:1641 *)
Definition ei_ebcdic16804 : Z := 190.
(* lib/encodings.h.snippet:1649 *)
Definition ei_euc_jisx0213 : Z := 191.
(* lib/encodings.h.snippet:1655 *)
Definition ei_shift_jisx0213 : Z := 192.
(* lib/encodings.h.snippet:1661 *)
Definition ei_iso2022_jp3 : Z := 193.
(* lib/encodings.h.snippet:1667 *)
Definition ei_big5_2003 : Z := 194.
(* lib/encodings.h.snippet:1671 *)
Definition ei_tds565 : Z := 195.
(* lib/encodings.h.snippet:1676 *)
Definition ei_atarist : Z := 196.
(* lib/encodings.h.snippet:1682 *)
Definition ei_riscos1 : Z := 197.
(* lib/encoding_indexes.h:34 *)
Definition ei_end : Z := 198.
