(** GENERATED by tools/gennames.py; do not edit.
    lib/all_encodings.h:35-37 all_encodings[]. *)
From Coq Require Import ZArith List Bool String.
From Verif Require Import Base Indexes Loop Conv_uni Conv_sb Conv_ebcdic Conv_set_ja Conv_set_zh Conv_set_ko Conv_cjk Conv_iso2022.
Import ListNotations.
Open Scope Z_scope.

(** Converters that do not touch the descriptor, as functions that return it unchanged. *)
Definition mb0 (f : list Z -> nat -> res (Z * option Z)) (s : list Z) (n : nat) (ist ibo : Z) : res (Z * option Z * Z * Z) :=
  bind (f s n) (fun '(r, w) => Ok (r, w, ist, ibo)).
Definition wc0 (f : Z -> nat -> res (Z * wlog)) (wc : Z) (n : nat) (ost : Z) : res (Z * wlog * Z) :=
  bind (f wc n) (fun '(r, l) => Ok (r, l, ost)).

(* lib/encodings.h.snippet:60-74 *)
Definition enc_ascii : funcs := mkFuncs (mb0 ascii_mbtowc) None (wc0 ascii_wctomb) None.
(* lib/encodings.h.snippet:79-84 *)
Definition enc_utf8 : funcs := mkFuncs (mb0 utf8_mbtowc) None (wc0 utf8_wctomb) None.
(* lib/encodings.h.snippet:87-91 *)
Definition enc_ucs2 : funcs := mkFuncs ucs2_mbtowc None (wc0 ucs2_wctomb) None.
(* lib/encodings.h.snippet:93-101 *)
Definition enc_ucs2be : funcs := mkFuncs (mb0 ucs2be_mbtowc) None (wc0 ucs2be_wctomb) None.
(* lib/encodings.h.snippet:104-109 *)
Definition enc_ucs2le : funcs := mkFuncs (mb0 ucs2le_mbtowc) None (wc0 ucs2le_wctomb) None.
(* lib/encodings.h.snippet:112-116 *)
Definition enc_ucs4 : funcs := mkFuncs ucs4_mbtowc None (wc0 ucs4_wctomb) None.
(* lib/encodings.h.snippet:118-122 *)
Definition enc_ucs4be : funcs := mkFuncs (mb0 ucs4be_mbtowc) None (wc0 ucs4be_wctomb) None.
(* lib/encodings.h.snippet:125-129 *)
Definition enc_ucs4le : funcs := mkFuncs (mb0 ucs4le_mbtowc) None (wc0 ucs4le_wctomb) None.
(* lib/encodings.h.snippet:132-135 *)
Definition enc_utf16 : funcs := mkFuncs utf16_mbtowc None utf16_wctomb None.
(* lib/encodings.h.snippet:137-140 *)
Definition enc_utf16be : funcs := mkFuncs (mb0 utf16be_mbtowc) None (wc0 utf16be_wctomb) None.
(* lib/encodings.h.snippet:142-145 *)
Definition enc_utf16le : funcs := mkFuncs (mb0 utf16le_mbtowc) None (wc0 utf16le_wctomb) None.
(* lib/encodings.h.snippet:147-150 *)
Definition enc_utf32 : funcs := mkFuncs utf32_mbtowc None utf32_wctomb None.
(* lib/encodings.h.snippet:152-155 *)
Definition enc_utf32be : funcs := mkFuncs (mb0 utf32be_mbtowc) None (wc0 utf32be_wctomb) None.
(* lib/encodings.h.snippet:157-160 *)
Definition enc_utf32le : funcs := mkFuncs (mb0 utf32le_mbtowc) None (wc0 utf32le_wctomb) None.
(* lib/encodings.h.snippet:161-168 *)
Definition enc_utf7 : funcs := mkFuncs utf7_mbtowc None utf7_wctomb (Some utf7_reset).
(* lib/encodings.h.snippet:174-176 *)
Definition enc_ucs2internal : funcs := mkFuncs (mb0 ucs2internal_mbtowc) None (wc0 ucs2internal_wctomb) None.
(* lib/encodings.h.snippet:178-180 *)
Definition enc_ucs2swapped : funcs := mkFuncs (mb0 ucs2swapped_mbtowc) None (wc0 ucs2swapped_wctomb) None.
(* lib/encodings.h.snippet:182-184 *)
Definition enc_ucs4internal : funcs := mkFuncs (mb0 ucs4internal_mbtowc) None (wc0 ucs4internal_wctomb) None.
(* lib/encodings.h.snippet:186-188 *)
Definition enc_ucs4swapped : funcs := mkFuncs (mb0 ucs4swapped_mbtowc) None (wc0 ucs4swapped_wctomb) None.
(* lib/encodings.h.snippet:190-190 *)
Definition enc_c99 : funcs := mkFuncs (mb0 c99_mbtowc) None (wc0 c99_wctomb) None.
(* lib/encodings.h.snippet:192-192 *)
Definition enc_java : funcs := mkFuncs (mb0 java_mbtowc) None (wc0 java_wctomb) None.
(* lib/encodings.h.snippet:195-203 *)
Definition enc_euc_jp : funcs := mkFuncs (mb0 euc_jp_mbtowc) None (wc0 euc_jp_wctomb) None.
(* lib/encodings.h.snippet:206-212 *)
Definition enc_sjis : funcs := mkFuncs (mb0 sjis_mbtowc) None (wc0 sjis_wctomb) None.
(* lib/encodings.h.snippet:214-218 *)
Definition enc_cp932 : funcs := mkFuncs (mb0 cp932_mbtowc) None (wc0 cp932_wctomb) None.
(* lib/encodings.h.snippet:221-228 *)
Definition enc_iso2022_jp : funcs := mkFuncs iso2022_jp_mbtowc None iso2022_jp_wctomb (Some iso2022_jp_reset).
(* lib/encodings.h.snippet:232-234 *)
Definition enc_iso2022_jp1 : funcs := mkFuncs iso2022_jp1_mbtowc None iso2022_jp1_wctomb (Some iso2022_jp1_reset).
(* lib/encodings.h.snippet:236-239 *)
Definition enc_iso2022_jp2 : funcs := mkFuncs iso2022_jp2_mbtowc None iso2022_jp2_wctomb (Some iso2022_jp2_reset).
(* lib/encodings.h.snippet:241-245 *)
Definition enc_iso2022_jpms : funcs := mkFuncs iso2022_jpms_mbtowc None iso2022_jpms_wctomb (Some iso2022_jpms_reset).
(* lib/encodings.h.snippet:248-257 *)
Definition enc_euc_cn : funcs := mkFuncs (mb0 euc_cn_mbtowc) None (wc0 euc_cn_wctomb) None.
(* lib/encodings.h.snippet:260-262 *)
Definition enc_ces_gbk : funcs := mkFuncs (mb0 ces_gbk_mbtowc) None (wc0 ces_gbk_wctomb) None.
(* lib/encodings.h.snippet:264-271 *)
Definition enc_cp936 : funcs := mkFuncs (mb0 cp936_mbtowc) None (wc0 cp936_wctomb) None.
(* lib/encodings.h.snippet:274-276 *)
Definition enc_gb18030_2005 : funcs := mkFuncs (mb0 gb18030_2005_mbtowc) None (wc0 gb18030_2005_wctomb) None.
(* lib/encodings.h.snippet:278-284 *)
Definition enc_gb18030_2022 : funcs := mkFuncs (mb0 gb18030_2022_mbtowc) None (wc0 gb18030_2022_wctomb) None.
(* lib/encodings.h.snippet:288-294 *)
Definition enc_iso2022_cn : funcs := mkFuncs iso2022_cn_mbtowc None iso2022_cn_wctomb (Some iso2022_cn_reset).
(* lib/encodings.h.snippet:297-300 *)
Definition enc_iso2022_cn_ext : funcs := mkFuncs iso2022_cn_ext_mbtowc None iso2022_cn_ext_wctomb (Some iso2022_cn_ext_reset).
(* lib/encodings.h.snippet:302-307 *)
Definition enc_hz : funcs := mkFuncs hz_mbtowc None hz_wctomb (Some hz_reset).
(* lib/encodings.h.snippet:310-316 *)
Definition enc_euc_tw : funcs := mkFuncs (mb0 euc_tw_mbtowc) None (wc0 euc_tw_wctomb) None.
(* lib/encodings.h.snippet:319-324 *)
Definition enc_ces_big5 : funcs := mkFuncs (mb0 ces_big5_mbtowc) None (wc0 ces_big5_wctomb) None.
(* lib/encodings.h.snippet:326-330 *)
Definition enc_cp950 : funcs := mkFuncs (mb0 cp950_mbtowc) None (wc0 cp950_wctomb) None.
(* lib/encodings.h.snippet:333-336 *)
Definition enc_big5hkscs1999 : funcs := mkFuncs big5hkscs1999_mbtowc (Some normal_flushwc) big5hkscs1999_wctomb (Some big5hkscs1999_reset).
(* lib/encodings.h.snippet:338-339 *)
Definition enc_big5hkscs2001 : funcs := mkFuncs big5hkscs2001_mbtowc (Some normal_flushwc) big5hkscs2001_wctomb (Some big5hkscs2001_reset).
(* lib/encodings.h.snippet:341-342 *)
Definition enc_big5hkscs2004 : funcs := mkFuncs big5hkscs2004_mbtowc (Some normal_flushwc) big5hkscs2004_wctomb (Some big5hkscs2004_reset).
(* lib/encodings.h.snippet:344-348 *)
Definition enc_big5hkscs2008 : funcs := mkFuncs big5hkscs2008_mbtowc (Some normal_flushwc) big5hkscs2008_wctomb (Some big5hkscs2008_reset).
(* lib/encodings.h.snippet:351-359 *)
Definition enc_euc_kr : funcs := mkFuncs (mb0 euc_kr_mbtowc) None (wc0 euc_kr_wctomb) None.
(* lib/encodings.h.snippet:362-367 *)
Definition enc_cp949 : funcs := mkFuncs (mb0 cp949_mbtowc) None (wc0 cp949_wctomb) None.
(* lib/encodings.h.snippet:370-375 *)
Definition enc_johab : funcs := mkFuncs (mb0 johab_mbtowc) None (wc0 johab_wctomb) None.
(* lib/encodings.h.snippet:378-383 *)
Definition enc_iso2022_kr : funcs := mkFuncs iso2022_kr_mbtowc None iso2022_kr_wctomb (Some iso2022_kr_reset).
(* lib/encodings.h.snippet:386-388 *)
Definition enc_dec_kanji : funcs := mkFuncs (mb0 dec_kanji_mbtowc) None (wc0 dec_kanji_wctomb) None.
(* lib/encodings.h.snippet:390-392 *)
Definition enc_dec_hanyu : funcs := mkFuncs (mb0 dec_hanyu_mbtowc) None (wc0 dec_hanyu_wctomb) None.
(* lib/encodings.h.snippet:395-407 *)
Definition enc_iso8859_1 : funcs := mkFuncs (mb0 iso8859_1_mbtowc) None (wc0 iso8859_1_wctomb) None.
(* lib/encodings.h.snippet:411-420 *)
Definition enc_iso8859_2 : funcs := mkFuncs (mb0 iso8859_2_mbtowc) None (wc0 iso8859_2_wctomb) None.
(* lib/encodings.h.snippet:423-432 *)
Definition enc_iso8859_3 : funcs := mkFuncs (mb0 iso8859_3_mbtowc) None (wc0 iso8859_3_wctomb) None.
(* lib/encodings.h.snippet:435-444 *)
Definition enc_iso8859_4 : funcs := mkFuncs (mb0 iso8859_4_mbtowc) None (wc0 iso8859_4_wctomb) None.
(* lib/encodings.h.snippet:447-455 *)
Definition enc_iso8859_5 : funcs := mkFuncs (mb0 iso8859_5_mbtowc) None (wc0 iso8859_5_wctomb) None.
(* lib/encodings.h.snippet:458-468 *)
Definition enc_iso8859_6 : funcs := mkFuncs (mb0 iso8859_6_mbtowc) None (wc0 iso8859_6_wctomb) None.
(* lib/encodings.h.snippet:471-483 *)
Definition enc_iso8859_7 : funcs := mkFuncs (mb0 iso8859_7_mbtowc) None (wc0 iso8859_7_wctomb) None.
(* lib/encodings.h.snippet:486-497 *)
Definition enc_iso8859_8 : funcs := mkFuncs (mb0 iso8859_8_mbtowc) None (wc0 iso8859_8_wctomb) None.
(* lib/encodings.h.snippet:501-510 *)
Definition enc_iso8859_9 : funcs := mkFuncs (mb0 iso8859_9_mbtowc) None (wc0 iso8859_9_wctomb) None.
(* lib/encodings.h.snippet:513-520 *)
Definition enc_iso8859_10 : funcs := mkFuncs (mb0 iso8859_10_mbtowc) None (wc0 iso8859_10_wctomb) None.
(* lib/encodings.h.snippet:522-524 *)
Definition enc_iso8859_11 : funcs := mkFuncs (mb0 iso8859_11_mbtowc) None (wc0 iso8859_11_wctomb) None.
(* lib/encodings.h.snippet:526-534 *)
Definition enc_iso8859_13 : funcs := mkFuncs (mb0 iso8859_13_mbtowc) None (wc0 iso8859_13_wctomb) None.
(* lib/encodings.h.snippet:537-544 *)
Definition enc_iso8859_14 : funcs := mkFuncs (mb0 iso8859_14_mbtowc) None (wc0 iso8859_14_wctomb) None.
(* lib/encodings.h.snippet:546-555 *)
Definition enc_iso8859_15 : funcs := mkFuncs (mb0 iso8859_15_mbtowc) None (wc0 iso8859_15_wctomb) None.
(* lib/encodings.h.snippet:558-565 *)
Definition enc_iso8859_16 : funcs := mkFuncs (mb0 iso8859_16_mbtowc) None (wc0 iso8859_16_wctomb) None.
(* lib/encodings.h.snippet:567-572 *)
Definition enc_koi8_r : funcs := mkFuncs (mb0 koi8_r_mbtowc) None (wc0 koi8_r_wctomb) None.
(* lib/encodings.h.snippet:575-578 *)
Definition enc_koi8_u : funcs := mkFuncs (mb0 koi8_u_mbtowc) None (wc0 koi8_u_wctomb) None.
(* lib/encodings.h.snippet:580-586 *)
Definition enc_koi8_ru : funcs := mkFuncs (mb0 koi8_ru_mbtowc) None (wc0 koi8_ru_wctomb) None.
(* lib/encodings.h.snippet:590-597 *)
Definition enc_cp1250 : funcs := mkFuncs (mb0 cp1250_mbtowc) None (wc0 cp1250_wctomb) None.
(* lib/encodings.h.snippet:601-608 *)
Definition enc_cp1251 : funcs := mkFuncs (mb0 cp1251_mbtowc) None (wc0 cp1251_wctomb) None.
(* lib/encodings.h.snippet:612-619 *)
Definition enc_cp1252 : funcs := mkFuncs (mb0 cp1252_mbtowc) None (wc0 cp1252_wctomb) None.
(* lib/encodings.h.snippet:623-629 *)
Definition enc_cp1253 : funcs := mkFuncs (mb0 cp1253_mbtowc) None (wc0 cp1253_wctomb) None.
(* lib/encodings.h.snippet:633-640 *)
Definition enc_cp1254 : funcs := mkFuncs (mb0 cp1254_mbtowc) None (wc0 cp1254_wctomb) None.
(* lib/encodings.h.snippet:644-651 *)
Definition enc_cp1255 : funcs := mkFuncs cp1255_mbtowc (Some normal_flushwc) (wc0 cp1255_wctomb) None.
(* lib/encodings.h.snippet:655-662 *)
Definition enc_cp1256 : funcs := mkFuncs (mb0 cp1256_mbtowc) None (wc0 cp1256_wctomb) None.
(* lib/encodings.h.snippet:666-673 *)
Definition enc_cp1257 : funcs := mkFuncs (mb0 cp1257_mbtowc) None (wc0 cp1257_wctomb) None.
(* lib/encodings.h.snippet:677-683 *)
Definition enc_cp1258 : funcs := mkFuncs cp1258_mbtowc (Some normal_flushwc) (wc0 cp1258_wctomb) None.
(* lib/encodings.h.snippet:688-693 *)
Definition enc_cp850 : funcs := mkFuncs (mb0 cp850_mbtowc) None (wc0 cp850_wctomb) None.
(* lib/encodings.h.snippet:696-702 *)
Definition enc_cp862 : funcs := mkFuncs (mb0 cp862_mbtowc) None (wc0 cp862_wctomb) None.
(* lib/encodings.h.snippet:705-710 *)
Definition enc_cp866 : funcs := mkFuncs (mb0 cp866_mbtowc) None (wc0 cp866_wctomb) None.
(* lib/encodings.h.snippet:713-717 *)
Definition enc_cp1131 : funcs := mkFuncs (mb0 cp1131_mbtowc) None (wc0 cp1131_wctomb) None.
(* lib/encodings.h.snippet:722-729 *)
Definition enc_mac_roman : funcs := mkFuncs (mb0 mac_roman_mbtowc) None (wc0 mac_roman_wctomb) None.
(* lib/encodings.h.snippet:733-738 *)
Definition enc_mac_centraleurope : funcs := mkFuncs (mb0 mac_centraleurope_mbtowc) None (wc0 mac_centraleurope_wctomb) None.
(* lib/encodings.h.snippet:741-746 *)
Definition enc_mac_iceland : funcs := mkFuncs (mb0 mac_iceland_mbtowc) None (wc0 mac_iceland_wctomb) None.
(* lib/encodings.h.snippet:749-754 *)
Definition enc_mac_croatian : funcs := mkFuncs (mb0 mac_croatian_mbtowc) None (wc0 mac_croatian_wctomb) None.
(* lib/encodings.h.snippet:757-762 *)
Definition enc_mac_romania : funcs := mkFuncs (mb0 mac_romania_mbtowc) None (wc0 mac_romania_wctomb) None.
(* lib/encodings.h.snippet:765-770 *)
Definition enc_mac_cyrillic : funcs := mkFuncs (mb0 mac_cyrillic_mbtowc) None (wc0 mac_cyrillic_wctomb) None.
(* lib/encodings.h.snippet:773-778 *)
Definition enc_mac_ukraine : funcs := mkFuncs (mb0 mac_ukraine_mbtowc) None (wc0 mac_ukraine_wctomb) None.
(* lib/encodings.h.snippet:781-786 *)
Definition enc_mac_greek : funcs := mkFuncs (mb0 mac_greek_mbtowc) None (wc0 mac_greek_wctomb) None.
(* lib/encodings.h.snippet:789-794 *)
Definition enc_mac_turkish : funcs := mkFuncs (mb0 mac_turkish_mbtowc) None (wc0 mac_turkish_wctomb) None.
(* lib/encodings.h.snippet:797-802 *)
Definition enc_mac_hebrew : funcs := mkFuncs (mb0 mac_hebrew_mbtowc) None (wc0 mac_hebrew_wctomb) None.
(* lib/encodings.h.snippet:805-810 *)
Definition enc_mac_arabic : funcs := mkFuncs (mb0 mac_arabic_mbtowc) None (wc0 mac_arabic_wctomb) None.
(* lib/encodings.h.snippet:813-818 *)
Definition enc_mac_thai : funcs := mkFuncs (mb0 mac_thai_mbtowc) None (wc0 mac_thai_wctomb) None.
(* lib/encodings.h.snippet:822-828 *)
Definition enc_hp_roman8 : funcs := mkFuncs (mb0 hp_roman8_mbtowc) None (wc0 hp_roman8_wctomb) None.
(* lib/encodings.h.snippet:830-832 *)
Definition enc_nextstep : funcs := mkFuncs (mb0 nextstep_mbtowc) None (wc0 nextstep_wctomb) None.
(* lib/encodings.h.snippet:835-837 *)
Definition enc_armscii_8 : funcs := mkFuncs (mb0 armscii_8_mbtowc) None (wc0 armscii_8_wctomb) None.
(* lib/encodings.h.snippet:839-841 *)
Definition enc_georgian_academy : funcs := mkFuncs (mb0 georgian_academy_mbtowc) None (wc0 georgian_academy_wctomb) None.
(* lib/encodings.h.snippet:843-845 *)
Definition enc_georgian_ps : funcs := mkFuncs (mb0 georgian_ps_mbtowc) None (wc0 georgian_ps_wctomb) None.
(* lib/encodings.h.snippet:847-849 *)
Definition enc_koi8_t : funcs := mkFuncs (mb0 koi8_t_mbtowc) None (wc0 koi8_t_wctomb) None.
(* lib/encodings.h.snippet:851-860 *)
Definition enc_pt154 : funcs := mkFuncs (mb0 pt154_mbtowc) None (wc0 pt154_wctomb) None.
(* lib/encodings.h.snippet:863-868 *)
Definition enc_rk1048 : funcs := mkFuncs (mb0 rk1048_mbtowc) None (wc0 rk1048_wctomb) None.
(* lib/encodings.h.snippet:870-872 *)
Definition enc_mulelao : funcs := mkFuncs (mb0 mulelao_mbtowc) None (wc0 mulelao_wctomb) None.
(* lib/encodings.h.snippet:874-878 *)
Definition enc_cp1133 : funcs := mkFuncs (mb0 cp1133_mbtowc) None (wc0 cp1133_wctomb) None.
(* lib/encodings.h.snippet:881-889 *)
Definition enc_tis620 : funcs := mkFuncs (mb0 tis620_mbtowc) None (wc0 tis620_wctomb) None.
(* lib/encodings.h.snippet:891-897 *)
Definition enc_cp874 : funcs := mkFuncs (mb0 cp874_mbtowc) None (wc0 cp874_wctomb) None.
(* lib/encodings.h.snippet:900-904 *)
Definition enc_viscii : funcs := mkFuncs (mb0 viscii_mbtowc) None (wc0 viscii_wctomb) None.
(* lib/encodings.h.snippet:906-911 *)
Definition enc_tcvn : funcs := mkFuncs tcvn_mbtowc (Some normal_flushwc) (wc0 tcvn_wctomb) None.
(* lib/encodings.h.snippet:914-920 *)
Definition enc_iso646_jp : funcs := mkFuncs (mb0 iso646_jp_mbtowc) None (wc0 iso646_jp_wctomb) None.
(* lib/encodings.h.snippet:922-926 *)
Definition enc_jisx0201 : funcs := mkFuncs (mb0 jisx0201_mbtowc) None (wc0 jisx0201_wctomb) None.
(* lib/encodings.h.snippet:928-934 *)
Definition enc_jisx0208 : funcs := mkFuncs (mb0 jisx0208_mbtowc) None (wc0 jisx0208_wctomb) None.
(* lib/encodings.h.snippet:936-941 *)
Definition enc_jisx0212 : funcs := mkFuncs (mb0 jisx0212_mbtowc) None (wc0 jisx0212_wctomb) None.
(* lib/encodings.h.snippet:943-949 *)
Definition enc_iso646_cn : funcs := mkFuncs (mb0 iso646_cn_mbtowc) None (wc0 iso646_cn_wctomb) None.
(* lib/encodings.h.snippet:951-955 *)
Definition enc_gb2312 : funcs := mkFuncs (mb0 gb2312_mbtowc) None (wc0 gb2312_wctomb) None.
(* lib/encodings.h.snippet:957-959 *)
Definition enc_isoir165 : funcs := mkFuncs (mb0 isoir165_mbtowc) None (wc0 isoir165_wctomb) None.
(* lib/encodings.h.snippet:961-968 *)
Definition enc_ksc5601 : funcs := mkFuncs (mb0 ksc5601_mbtowc) None (wc0 ksc5601_wctomb) None.
(* lib/encodings.h.snippet:971-975 *)
Definition enc_cp856 : funcs := mkFuncs (mb0 cp856_mbtowc) None (wc0 cp856_wctomb) None.
(* lib/encodings.h.snippet:978-982 *)
Definition enc_cp922 : funcs := mkFuncs (mb0 cp922_mbtowc) None (wc0 cp922_wctomb) None.
(* lib/encodings.h.snippet:985-989 *)
Definition enc_cp943 : funcs := mkFuncs (mb0 cp932_mbtowc) None (wc0 cp932_wctomb) None.
(* lib/encodings.h.snippet:992-996 *)
Definition enc_cp1046 : funcs := mkFuncs (mb0 cp1046_mbtowc) None (wc0 cp1046_wctomb) None.
(* lib/encodings.h.snippet:999-1003 *)
Definition enc_cp1124 : funcs := mkFuncs (mb0 cp1124_mbtowc) None (wc0 cp1124_wctomb) None.
(* lib/encodings.h.snippet:1006-1010 *)
Definition enc_cp1129 : funcs := mkFuncs (mb0 cp1129_mbtowc) None (wc0 cp1129_wctomb) None.
(* lib/encodings.h.snippet:1013-1018 *)
Definition enc_cp1161 : funcs := mkFuncs (mb0 cp1161_mbtowc) None (wc0 cp1161_wctomb) None.
(* lib/encodings.h.snippet:1021-1026 *)
Definition enc_cp1162 : funcs := mkFuncs (mb0 cp1162_mbtowc) None (wc0 cp1162_wctomb) None.
(* lib/encodings.h.snippet:1029-1034 *)
Definition enc_cp1163 : funcs := mkFuncs (mb0 cp1163_mbtowc) None (wc0 cp1163_wctomb) None.
(* lib/encodings.h.snippet:1038-1043 *)
Definition enc_cp437 : funcs := mkFuncs (mb0 cp437_mbtowc) None (wc0 cp437_wctomb) None.
(* lib/encodings.h.snippet:1046-1050 *)
Definition enc_cp737 : funcs := mkFuncs (mb0 cp737_mbtowc) None (wc0 cp737_wctomb) None.
(* lib/encodings.h.snippet:1053-1058 *)
Definition enc_cp775 : funcs := mkFuncs (mb0 cp775_mbtowc) None (wc0 cp775_wctomb) None.
(* lib/encodings.h.snippet:1061-1066 *)
Definition enc_cp852 : funcs := mkFuncs (mb0 cp852_mbtowc) None (wc0 cp852_wctomb) None.
(* lib/encodings.h.snippet:1069-1075 *)
Definition enc_cp853 : funcs := mkFuncs (mb0 cp853_mbtowc) None (wc0 cp853_wctomb) None.
(* lib/encodings.h.snippet:1078-1083 *)
Definition enc_cp855 : funcs := mkFuncs (mb0 cp855_mbtowc) None (wc0 cp855_wctomb) None.
(* lib/encodings.h.snippet:1086-1091 *)
Definition enc_cp857 : funcs := mkFuncs (mb0 cp857_mbtowc) None (wc0 cp857_wctomb) None.
(* lib/encodings.h.snippet:1094-1102 *)
Definition enc_cp858 : funcs := mkFuncs (mb0 cp858_mbtowc) None (wc0 cp858_wctomb) None.
(* lib/encodings.h.snippet:1105-1110 *)
Definition enc_cp860 : funcs := mkFuncs (mb0 cp860_mbtowc) None (wc0 cp860_wctomb) None.
(* lib/encodings.h.snippet:1113-1119 *)
Definition enc_cp861 : funcs := mkFuncs (mb0 cp861_mbtowc) None (wc0 cp861_wctomb) None.
(* lib/encodings.h.snippet:1122-1127 *)
Definition enc_cp863 : funcs := mkFuncs (mb0 cp863_mbtowc) None (wc0 cp863_wctomb) None.
(* lib/encodings.h.snippet:1130-1135 *)
Definition enc_cp864 : funcs := mkFuncs (mb0 cp864_mbtowc) None (wc0 cp864_wctomb) None.
(* lib/encodings.h.snippet:1138-1143 *)
Definition enc_cp865 : funcs := mkFuncs (mb0 cp865_mbtowc) None (wc0 cp865_wctomb) None.
(* lib/encodings.h.snippet:1146-1153 *)
Definition enc_cp869 : funcs := mkFuncs (mb0 cp869_mbtowc) None (wc0 cp869_wctomb) None.
(* lib/encodings.h.snippet:1156-1164 *)
Definition enc_cp1125 : funcs := mkFuncs (mb0 cp1125_mbtowc) None (wc0 cp1125_wctomb) None.
(* lib/encodings.h.snippet:1168-1177 *)
Definition enc_ebcdic037 : funcs := mkFuncs (mb0 ebcdic037_mbtowc) None (wc0 ebcdic037_wctomb) None.
(* lib/encodings.h.snippet:1180-1185 *)
Definition enc_ebcdic273 : funcs := mkFuncs (mb0 ebcdic273_mbtowc) None (wc0 ebcdic273_wctomb) None.
(* lib/encodings.h.snippet:1189-1196 *)
Definition enc_ebcdic277 : funcs := mkFuncs (mb0 ebcdic277_mbtowc) None (wc0 ebcdic277_wctomb) None.
(* lib/encodings.h.snippet:1200-1207 *)
Definition enc_ebcdic278 : funcs := mkFuncs (mb0 ebcdic278_mbtowc) None (wc0 ebcdic278_wctomb) None.
(* lib/encodings.h.snippet:1211-1217 *)
Definition enc_ebcdic280 : funcs := mkFuncs (mb0 ebcdic280_mbtowc) None (wc0 ebcdic280_wctomb) None.
(* lib/encodings.h.snippet:1221-1225 *)
Definition enc_ebcdic282 : funcs := mkFuncs (mb0 ebcdic282_mbtowc) None (wc0 ebcdic282_wctomb) None.
(* lib/encodings.h.snippet:1228-1234 *)
Definition enc_ebcdic284 : funcs := mkFuncs (mb0 ebcdic284_mbtowc) None (wc0 ebcdic284_wctomb) None.
(* lib/encodings.h.snippet:1238-1244 *)
Definition enc_ebcdic285 : funcs := mkFuncs (mb0 ebcdic285_mbtowc) None (wc0 ebcdic285_wctomb) None.
(* lib/encodings.h.snippet:1248-1254 *)
Definition enc_ebcdic297 : funcs := mkFuncs (mb0 ebcdic297_mbtowc) None (wc0 ebcdic297_wctomb) None.
(* lib/encodings.h.snippet:1258-1264 *)
Definition enc_ebcdic423 : funcs := mkFuncs (mb0 ebcdic423_mbtowc) None (wc0 ebcdic423_wctomb) None.
(* lib/encodings.h.snippet:1268-1274 *)
Definition enc_ebcdic424 : funcs := mkFuncs (mb0 ebcdic424_mbtowc) None (wc0 ebcdic424_wctomb) None.
(* lib/encodings.h.snippet:1278-1282 *)
Definition enc_ebcdic425 : funcs := mkFuncs (mb0 ebcdic425_mbtowc) None (wc0 ebcdic425_wctomb) None.
(* lib/encodings.h.snippet:1285-1292 *)
Definition enc_ebcdic500 : funcs := mkFuncs (mb0 ebcdic500_mbtowc) None (wc0 ebcdic500_wctomb) None.
(* lib/encodings.h.snippet:1296-1302 *)
Definition enc_ebcdic838 : funcs := mkFuncs (mb0 ebcdic838_mbtowc) None (wc0 ebcdic838_wctomb) None.
(* lib/encodings.h.snippet:1305-1312 *)
Definition enc_ebcdic870 : funcs := mkFuncs (mb0 ebcdic870_mbtowc) None (wc0 ebcdic870_wctomb) None.
(* lib/encodings.h.snippet:1315-1321 *)
Definition enc_ebcdic871 : funcs := mkFuncs (mb0 ebcdic871_mbtowc) None (wc0 ebcdic871_wctomb) None.
(* lib/encodings.h.snippet:1325-1330 *)
Definition enc_ebcdic875 : funcs := mkFuncs (mb0 ebcdic875_mbtowc) None (wc0 ebcdic875_wctomb) None.
(* lib/encodings.h.snippet:1333-1339 *)
Definition enc_ebcdic880 : funcs := mkFuncs (mb0 ebcdic880_mbtowc) None (wc0 ebcdic880_wctomb) None.
(* lib/encodings.h.snippet:1343-1347 *)
Definition enc_ebcdic905 : funcs := mkFuncs (mb0 ebcdic905_mbtowc) None (wc0 ebcdic905_wctomb) None.
(* lib/encodings.h.snippet:1351-1360 *)
Definition enc_ebcdic924 : funcs := mkFuncs (mb0 ebcdic924_mbtowc) None (wc0 ebcdic924_wctomb) None.
(* lib/encodings.h.snippet:1364-1368 *)
Definition enc_ebcdic1025 : funcs := mkFuncs (mb0 ebcdic1025_mbtowc) None (wc0 ebcdic1025_wctomb) None.
(* lib/encodings.h.snippet:1371-1376 *)
Definition enc_ebcdic1026 : funcs := mkFuncs (mb0 ebcdic1026_mbtowc) None (wc0 ebcdic1026_wctomb) None.
(* lib/encodings.h.snippet:1379-1384 *)
Definition enc_ebcdic1047 : funcs := mkFuncs (mb0 ebcdic1047_mbtowc) None (wc0 ebcdic1047_wctomb) None.
(* lib/encodings.h.snippet:1387-1390 *)
Definition enc_ebcdic1097 : funcs := mkFuncs (mb0 ebcdic1097_mbtowc) None (wc0 ebcdic1097_wctomb) None.
(* lib/encodings.h.snippet:1393-1397 *)
Definition enc_ebcdic1112 : funcs := mkFuncs (mb0 ebcdic1112_mbtowc) None (wc0 ebcdic1112_wctomb) None.
(* lib/encodings.h.snippet:1400-1404 *)
Definition enc_ebcdic1122 : funcs := mkFuncs (mb0 ebcdic1122_mbtowc) None (wc0 ebcdic1122_wctomb) None.
(* lib/encodings.h.snippet:1407-1411 *)
Definition enc_ebcdic1123 : funcs := mkFuncs (mb0 ebcdic1123_mbtowc) None (wc0 ebcdic1123_wctomb) None.
(* lib/encodings.h.snippet:1414-1418 *)
Definition enc_ebcdic1130 : funcs := mkFuncs (mb0 ebcdic1130_mbtowc) None (wc0 ebcdic1130_wctomb) None.
(* lib/encodings.h.snippet:1421-1425 *)
Definition enc_ebcdic1132 : funcs := mkFuncs (mb0 ebcdic1132_mbtowc) None (wc0 ebcdic1132_wctomb) None.
(* lib/encodings.h.snippet:1428-1432 *)
Definition enc_ebcdic1137 : funcs := mkFuncs (mb0 ebcdic1137_mbtowc) None (wc0 ebcdic1137_wctomb) None.
(* lib/encodings.h.snippet:1435-1444 *)
Definition enc_ebcdic1140 : funcs := mkFuncs (mb0 ebcdic1140_mbtowc) None (wc0 ebcdic1140_wctomb) None.
(* lib/encodings.h.snippet:1447-1456 *)
Definition enc_ebcdic1141 : funcs := mkFuncs (mb0 ebcdic1141_mbtowc) None (wc0 ebcdic1141_wctomb) None.
(* lib/encodings.h.snippet:1459-1469 *)
Definition enc_ebcdic1142 : funcs := mkFuncs (mb0 ebcdic1142_mbtowc) None (wc0 ebcdic1142_wctomb) None.
(* lib/encodings.h.snippet:1472-1482 *)
Definition enc_ebcdic1143 : funcs := mkFuncs (mb0 ebcdic1143_mbtowc) None (wc0 ebcdic1143_wctomb) None.
(* lib/encodings.h.snippet:1485-1494 *)
Definition enc_ebcdic1144 : funcs := mkFuncs (mb0 ebcdic1144_mbtowc) None (wc0 ebcdic1144_wctomb) None.
(* lib/encodings.h.snippet:1497-1506 *)
Definition enc_ebcdic1145 : funcs := mkFuncs (mb0 ebcdic1145_mbtowc) None (wc0 ebcdic1145_wctomb) None.
(* lib/encodings.h.snippet:1509-1518 *)
Definition enc_ebcdic1146 : funcs := mkFuncs (mb0 ebcdic1146_mbtowc) None (wc0 ebcdic1146_wctomb) None.
(* lib/encodings.h.snippet:1521-1530 *)
Definition enc_ebcdic1147 : funcs := mkFuncs (mb0 ebcdic1147_mbtowc) None (wc0 ebcdic1147_wctomb) None.
(* lib/encodings.h.snippet:1533-1542 *)
Definition enc_ebcdic1148 : funcs := mkFuncs (mb0 ebcdic1148_mbtowc) None (wc0 ebcdic1148_wctomb) None.
(* lib/encodings.h.snippet:1545-1554 *)
Definition enc_ebcdic1149 : funcs := mkFuncs (mb0 ebcdic1149_mbtowc) None (wc0 ebcdic1149_wctomb) None.
(* lib/encodings.h.snippet:1557-1561 *)
Definition enc_ebcdic1153 : funcs := mkFuncs (mb0 ebcdic1153_mbtowc) None (wc0 ebcdic1153_wctomb) None.
(* lib/encodings.h.snippet:1564-1568 *)
Definition enc_ebcdic1154 : funcs := mkFuncs (mb0 ebcdic1154_mbtowc) None (wc0 ebcdic1154_wctomb) None.
(* lib/encodings.h.snippet:1571-1575 *)
Definition enc_ebcdic1155 : funcs := mkFuncs (mb0 ebcdic1155_mbtowc) None (wc0 ebcdic1155_wctomb) None.
(* lib/encodings.h.snippet:1578-1582 *)
Definition enc_ebcdic1156 : funcs := mkFuncs (mb0 ebcdic1156_mbtowc) None (wc0 ebcdic1156_wctomb) None.
(* lib/encodings.h.snippet:1585-1589 *)
Definition enc_ebcdic1157 : funcs := mkFuncs (mb0 ebcdic1157_mbtowc) None (wc0 ebcdic1157_wctomb) None.
(* lib/encodings.h.snippet:1592-1596 *)
Definition enc_ebcdic1158 : funcs := mkFuncs (mb0 ebcdic1158_mbtowc) None (wc0 ebcdic1158_wctomb) None.
(* lib/encodings.h.snippet:1599-1603 *)
Definition enc_ebcdic1160 : funcs := mkFuncs (mb0 ebcdic1160_mbtowc) None (wc0 ebcdic1160_wctomb) None.
(* lib/encodings.h.snippet:1606-1610 *)
Definition enc_ebcdic1164 : funcs := mkFuncs (mb0 ebcdic1164_mbtowc) None (wc0 ebcdic1164_wctomb) None.
(* lib/encodings.h.snippet:1613-1617 *)
Definition enc_ebcdic1165 : funcs := mkFuncs (mb0 ebcdic1165_mbtowc) None (wc0 ebcdic1165_wctomb) None.
(* lib/encodings.h.snippet:1620-1624 *)
Definition enc_ebcdic1166 : funcs := mkFuncs (mb0 ebcdic1166_mbtowc) None (wc0 ebcdic1166_wctomb) None.
(* lib/encodings.h.snippet:1627-1631 *)
Definition enc_ebcdic4971 : funcs := mkFuncs (mb0 ebcdic4971_mbtowc) None (wc0 ebcdic4971_wctomb) None.
(* lib/encodings.h.snippet:1634-1638 *)
Definition enc_ebcdic12712 : funcs := mkFuncs (mb0 ebcdic12712_mbtowc) None (wc0 ebcdic12712_wctomb) None.
(* lib/encodings.h.snippet:1641-1645 *)
Definition enc_ebcdic16804 : funcs := mkFuncs (mb0 ebcdic16804_mbtowc) None (wc0 ebcdic16804_wctomb) None.
(* lib/encodings.h.snippet:1649-1653 *)
Definition enc_euc_jisx0213 : funcs := mkFuncs euc_jisx0213_mbtowc (Some normal_flushwc) euc_jisx0213_wctomb (Some euc_jisx0213_reset).
(* lib/encodings.h.snippet:1655-1659 *)
Definition enc_shift_jisx0213 : funcs := mkFuncs shift_jisx0213_mbtowc (Some normal_flushwc) shift_jisx0213_wctomb (Some shift_jisx0213_reset).
(* lib/encodings.h.snippet:1661-1665 *)
Definition enc_iso2022_jp3 : funcs := mkFuncs iso2022_jp3_mbtowc (Some iso2022_jp3_flushwc) iso2022_jp3_wctomb (Some iso2022_jp3_reset).
(* lib/encodings.h.snippet:1667-1669 *)
Definition enc_big5_2003 : funcs := mkFuncs (mb0 big5_2003_mbtowc) None (wc0 big5_2003_wctomb) None.
(* lib/encodings.h.snippet:1671-1674 *)
Definition enc_tds565 : funcs := mkFuncs (mb0 tds565_mbtowc) None (wc0 tds565_wctomb) None.
(* lib/encodings.h.snippet:1676-1679 *)
Definition enc_atarist : funcs := mkFuncs (mb0 atarist_mbtowc) None (wc0 atarist_wctomb) None.
(* lib/encodings.h.snippet:1682-1684 *)
Definition enc_riscos1 : funcs := mkFuncs (mb0 riscos1_mbtowc) None (wc0 riscos1_wctomb) None.

(* lib/all_encodings.h:35-37 *)
Definition all_encodings : list funcs := [
  enc_ascii;
  enc_utf8;
  enc_ucs2;
  enc_ucs2be;
  enc_ucs2le;
  enc_ucs4;
  enc_ucs4be;
  enc_ucs4le;
  enc_utf16;
  enc_utf16be;
  enc_utf16le;
  enc_utf32;
  enc_utf32be;
  enc_utf32le;
  enc_utf7;
  enc_ucs2internal;
  enc_ucs2swapped;
  enc_ucs4internal;
  enc_ucs4swapped;
  enc_c99;
  enc_java;
  enc_euc_jp;
  enc_sjis;
  enc_cp932;
  enc_iso2022_jp;
  enc_iso2022_jp1;
  enc_iso2022_jp2;
  enc_iso2022_jpms;
  enc_euc_cn;
  enc_ces_gbk;
  enc_cp936;
  enc_gb18030_2005;
  enc_gb18030_2022;
  enc_iso2022_cn;
  enc_iso2022_cn_ext;
  enc_hz;
  enc_euc_tw;
  enc_ces_big5;
  enc_cp950;
  enc_big5hkscs1999;
  enc_big5hkscs2001;
  enc_big5hkscs2004;
  enc_big5hkscs2008;
  enc_euc_kr;
  enc_cp949;
  enc_johab;
  enc_iso2022_kr;
  enc_dec_kanji;
  enc_dec_hanyu;
  enc_iso8859_1;
  enc_iso8859_2;
  enc_iso8859_3;
  enc_iso8859_4;
  enc_iso8859_5;
  enc_iso8859_6;
  enc_iso8859_7;
  enc_iso8859_8;
  enc_iso8859_9;
  enc_iso8859_10;
  enc_iso8859_11;
  enc_iso8859_13;
  enc_iso8859_14;
  enc_iso8859_15;
  enc_iso8859_16;
  enc_koi8_r;
  enc_koi8_u;
  enc_koi8_ru;
  enc_cp1250;
  enc_cp1251;
  enc_cp1252;
  enc_cp1253;
  enc_cp1254;
  enc_cp1255;
  enc_cp1256;
  enc_cp1257;
  enc_cp1258;
  enc_cp850;
  enc_cp862;
  enc_cp866;
  enc_cp1131;
  enc_mac_roman;
  enc_mac_centraleurope;
  enc_mac_iceland;
  enc_mac_croatian;
  enc_mac_romania;
  enc_mac_cyrillic;
  enc_mac_ukraine;
  enc_mac_greek;
  enc_mac_turkish;
  enc_mac_hebrew;
  enc_mac_arabic;
  enc_mac_thai;
  enc_hp_roman8;
  enc_nextstep;
  enc_armscii_8;
  enc_georgian_academy;
  enc_georgian_ps;
  enc_koi8_t;
  enc_pt154;
  enc_rk1048;
  enc_mulelao;
  enc_cp1133;
  enc_tis620;
  enc_cp874;
  enc_viscii;
  enc_tcvn;
  enc_iso646_jp;
  enc_jisx0201;
  enc_jisx0208;
  enc_jisx0212;
  enc_iso646_cn;
  enc_gb2312;
  enc_isoir165;
  enc_ksc5601;
  enc_cp856;
  enc_cp922;
  enc_cp943;
  enc_cp1046;
  enc_cp1124;
  enc_cp1129;
  enc_cp1161;
  enc_cp1162;
  enc_cp1163;
  enc_cp437;
  enc_cp737;
  enc_cp775;
  enc_cp852;
  enc_cp853;
  enc_cp855;
  enc_cp857;
  enc_cp858;
  enc_cp860;
  enc_cp861;
  enc_cp863;
  enc_cp864;
  enc_cp865;
  enc_cp869;
  enc_cp1125;
  enc_ebcdic037;
  enc_ebcdic273;
  enc_ebcdic277;
  enc_ebcdic278;
  enc_ebcdic280;
  enc_ebcdic282;
  enc_ebcdic284;
  enc_ebcdic285;
  enc_ebcdic297;
  enc_ebcdic423;
  enc_ebcdic424;
  enc_ebcdic425;
  enc_ebcdic500;
  enc_ebcdic838;
  enc_ebcdic870;
  enc_ebcdic871;
  enc_ebcdic875;
  enc_ebcdic880;
  enc_ebcdic905;
  enc_ebcdic924;
  enc_ebcdic1025;
  enc_ebcdic1026;
  enc_ebcdic1047;
  enc_ebcdic1097;
  enc_ebcdic1112;
  enc_ebcdic1122;
  enc_ebcdic1123;
  enc_ebcdic1130;
  enc_ebcdic1132;
  enc_ebcdic1137;
  enc_ebcdic1140;
  enc_ebcdic1141;
  enc_ebcdic1142;
  enc_ebcdic1143;
  enc_ebcdic1144;
  enc_ebcdic1145;
  enc_ebcdic1146;
  enc_ebcdic1147;
  enc_ebcdic1148;
  enc_ebcdic1149;
  enc_ebcdic1153;
  enc_ebcdic1154;
  enc_ebcdic1155;
  enc_ebcdic1156;
  enc_ebcdic1157;
  enc_ebcdic1158;
  enc_ebcdic1160;
  enc_ebcdic1164;
  enc_ebcdic1165;
  enc_ebcdic1166;
  enc_ebcdic4971;
  enc_ebcdic12712;
  enc_ebcdic16804;
  enc_euc_jisx0213;
  enc_shift_jisx0213;
  enc_iso2022_jp3;
  enc_big5_2003;
  enc_tds565;
  enc_atarist;
  enc_riscos1].
