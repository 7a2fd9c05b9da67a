(** GENERATED by tools/gennames.py; do not edit.
    The public encoding constants of the C and C++ headers, and what lib/encodings.h.snippet declares for them. *)
From Coq Require Import ZArith List String.
From Verif Require Import Base Indexes Loop Encodings.
Import ListNotations.
Open Scope Z_scope.

(* lib/generated/indexes.h.shippet:1-214, without the prefix ENCODING_; inl = a number, inr = another constant *)
Definition public_c : list (string * (Z + string)) := [
  ("ISO2022_JP3"%string, inl 193);
  ("SHIFT_JISX0213"%string, inl 192);
  ("EUC_JISX0213"%string, inl 191);
  ("EBCDIC_12712"%string, inl 189);
  ("EBCDIC_4971"%string, inl 188);
  ("EBCDIC_1166"%string, inl 187);
  ("EBCDIC_1160"%string, inl 184);
  ("EBCDIC_1158"%string, inl 183);
  ("EBCDIC_1155"%string, inl 180);
  ("EBCDIC_1153"%string, inl 178);
  ("EBCDIC_1147"%string, inl 175);
  ("EBCDIC_1145"%string, inl 173);
  ("EBCDIC_1144"%string, inl 172);
  ("EBCDIC_1143"%string, inl 171);
  ("EBCDIC_1142"%string, inl 170);
  ("EBCDIC_1137"%string, inl 167);
  ("EBCDIC_1132"%string, inl 166);
  ("EBCDIC_1123"%string, inl 164);
  ("EBCDIC_1122"%string, inl 163);
  ("EBCDIC_1112"%string, inl 162);
  ("EBCDIC_1097"%string, inl 161);
  ("EBCDIC_1025"%string, inl 158);
  ("EBCDIC_905"%string, inl 156);
  ("EBCDIC_500"%string, inl 150);
  ("EBCDIC_425"%string, inl 149);
  ("EBCDIC_424"%string, inl 148);
  ("EBCDIC_285"%string, inl 145);
  ("EBCDIC_284"%string, inl 144);
  ("EBCDIC_282"%string, inl 143);
  ("EBCDIC_278"%string, inl 141);
  ("EBCDIC_277"%string, inl 140);
  ("CP1125"%string, inl 137);
  ("CP869"%string, inl 136);
  ("CP861"%string, inl 132);
  ("EBCDIC_1047"%string, inl 160);
  ("CP857"%string, inl 129);
  ("EBCDIC_423"%string, inl 147);
  ("CP853"%string, inl 127);
  ("ISO8859_8"%string, inl 56);
  ("EBCDIC_1154"%string, inl 179);
  ("GB1988_80"%string, inl 110);
  ("EBCDIC_1140"%string, inl 168);
  ("ISO8859_6"%string, inl 54);
  ("ISO8859_3"%string, inl 51);
  ("IBM922"%string, inl 115);
  ("ISO8859_1"%string, inl 49);
  ("ISO8859_10"%string, inl 58);
  ("DEC_HANYU"%string, inl 48);
  ("DEC_KANJI"%string, inl 47);
  ("ISO8859_4"%string, inl 52);
  ("SHIFT_JIS"%string, inl 22);
  ("IBM1131"%string, inl 79);
  ("EBCDIC_880"%string, inl 155);
  ("BIG5HKSCS_2001"%string, inl 40);
  ("MSEE"%string, inl 67);
  ("ISO8859_7"%string, inl 55);
  ("TDS565"%string, inl 195);
  ("EBCDIC_1148"%string, inl 176);
  ("IBM1161"%string, inl 120);
  ("EBCDIC_037"%string, inl 138);
  ("CP775"%string, inl 125);
  ("BIG5HKSCS_1999"%string, inl 39);
  ("EUC_TW"%string, inl 36);
  ("EBCDIC_297"%string, inl 146);
  ("UHC"%string, inl 44);
  ("EBCDIC_1156"%string, inl 181);
  ("GB18030_2022"%string, inl 32);
  ("UTF32"%string, inl 11);
  ("ATARIST"%string, inl 196);
  ("CP864"%string, inl 134);
  ("GB2312_80"%string, inl 111);
  ("UTF16LE"%string, inl 10);
  ("EBCDIC_1149"%string, inl 177);
  ("UTF16"%string, inl 8);
  ("UCS4LE"%string, inl 7);
  ("EBCDIC_924"%string, inl 157);
  ("EUC_KR"%string, inl 43);
  ("EBCDIC_1026"%string, inl 159);
  ("GB18030_2005"%string, inl 31);
  ("UCS4_INTERNAL"%string, inl 17);
  ("KOI8T"%string, inl 97);
  ("EBCDIC_280"%string, inl 142);
  ("UCS2LE"%string, inl 4);
  ("WINDOWS1258"%string, inl 75);
  ("EBCDIC_1157"%string, inl 182);
  ("UTF8"%string, inl 1);
  ("CP865"%string, inl 135);
  ("UCS4"%string, inl 5);
  ("CP858"%string, inl 130);
  ("HZ"%string, inl 35);
  ("CP863"%string, inl 133);
  ("ISO2022_KR"%string, inl 46);
  ("C99"%string, inl 19);
  ("IBM1163"%string, inl 122);
  ("ISO2022_CN"%string, inl 33);
  ("UTF32LE"%string, inl 13);
  ("ASCII"%string, inl 0);
  ("IBM862"%string, inl 77);
  ("UTF7"%string, inl 14);
  ("WINDOWS950"%string, inl 38);
  ("UCS2"%string, inl 2);
  ("ISO8859_14"%string, inl 61);
  ("IBM943"%string, inl 116);
  ("CP737"%string, inl 124);
  ("ISO2022_JP1"%string, inl 25);
  ("UCS2_SWAPPED"%string, inl 16);
  ("KOI8_R"%string, inl 64);
  ("UCS4_SWAPPED"%string, inl 18);
  ("RISCOS_LATIN1"%string, inl 197);
  ("JAVA"%string, inl 20);
  ("BIG5"%string, inl 37);
  ("UTF16BE"%string, inl 9);
  ("EBCDIC_871"%string, inl 153);
  ("UTF32BE"%string, inl 12);
  ("GEORGIANACADEMY"%string, inl 95);
  ("IBM932"%string, inl 23);
  ("CP860"%string, inl 131);
  ("MAC_ICELAND"%string, inl 82);
  ("ISO2022_JP"%string, inl 24);
  ("BIG5HKSCS_2004"%string, inl 41);
  ("GB2312"%string, inl 28);
  ("GBK"%string, inl 29);
  ("ISO8859_5"%string, inl 53);
  ("BIG5HKSCS_2008"%string, inl 42);
  ("CP852"%string, inl 126);
  ("UCS4BE"%string, inl 6);
  ("IBM866"%string, inl 78);
  ("EBCDIC_875"%string, inl 154);
  ("MAC_CROATIAN"%string, inl 83);
  ("MAC_UKRAINE"%string, inl 86);
  ("EUC_JP"%string, inl 21);
  ("ISO2022_JP2"%string, inl 26);
  ("ISO8859_11"%string, inl 59);
  ("KOI8_U"%string, inl 65);
  ("EBCDIC_1141"%string, inl 169);
  ("EBCDIC_838"%string, inl 151);
  ("MSGREEK"%string, inl 70);
  ("UCS2BE"%string, inl 3);
  ("ISO8859_13"%string, inl 60);
  ("BIG5_2003"%string, inl 194);
  ("JISX0208"%string, inl 108);
  ("EBCDIC_1146"%string, inl 174);
  ("ISO8859_15"%string, inl 62);
  ("ISO8859_16"%string, inl 63);
  ("IBM1046"%string, inl 117);
  ("KOI8_RU"%string, inl 66);
  ("CNGBISOIR165"%string, inl 112);
  ("MSCYRL"%string, inl 68);
  ("MSTURK"%string, inl 71);
  ("EBCDIC_1165"%string, inl 186);
  ("MSHEBR"%string, inl 72);
  ("CP855"%string, inl 128);
  ("MSARAB"%string, inl 73);
  ("VISCII"%string, inl 104);
  ("WINBALTRIM"%string, inl 74);
  ("EBCDIC_273"%string, inl 139);
  ("MACINTOSH"%string, inl 80);
  ("MAC_CENTRALEUROPE"%string, inl 81);
  ("MAC_CYRILLIC"%string, inl 85);
  ("MAC_GREEK"%string, inl 87);
  ("MAC_ARABIC"%string, inl 90);
  ("MAC_TURKISH"%string, inl 88);
  ("EBCDIC_1164"%string, inl 185);
  ("MAC_HEBREW"%string, inl 89);
  ("EBCDIC_16804"%string, inl 190);
  ("MAC_THAI"%string, inl 91);
  ("HPROMAN8"%string, inl 92);
  ("UCS2_INTERNAL"%string, inl 15);
  ("NEXTSTEP"%string, inl 93);
  ("ARMSCII8"%string, inl 94);
  ("ISO8859_2"%string, inl 50);
  ("GEORGIANPS"%string, inl 96);
  ("PT154"%string, inl 98);
  ("MAC_ROMANIA"%string, inl 84);
  ("IBM850"%string, inl 76);
  ("RK1048"%string, inl 99);
  ("ISO8859_9"%string, inl 57);
  ("MULELAO1"%string, inl 100);
  ("ISO2022_CN_EXT"%string, inl 34);
  ("IBMCP1133"%string, inl 101);
  ("EBCDIC_1130"%string, inl 165);
  ("TIS620"%string, inl 102);
  ("MSANSI"%string, inl 69);
  ("WINDOWS874"%string, inl 103);
  ("EBCDIC_870"%string, inl 152);
  ("JISX0201"%string, inl 107);
  ("TCVN"%string, inl 105);
  ("JP"%string, inl 106);
  ("JOHAB"%string, inl 45);
  ("ISO2022_JPMS"%string, inl 27);
  ("JISX0212"%string, inl 109);
  ("KOREAN"%string, inl 113);
  ("IBM856"%string, inl 114);
  ("IBM1124"%string, inl 118);
  ("CP936"%string, inl 30);
  ("IBM1129"%string, inl 119);
  ("IBM1162"%string, inl 121);
  ("CP437"%string, inl 123);
  ("CP1256"%string, inr "MSARAB"%string);
  ("MAC_ROMAN"%string, inr "MACINTOSH"%string);
  ("CP1258"%string, inr "WINDOWS1258"%string);
  ("CP1255"%string, inr "MSHEBR"%string);
  ("CP1254"%string, inr "MSTURK"%string);
  ("ATARI"%string, inr "ATARIST"%string);
  ("CP1253"%string, inr "MSGREEK"%string);
  ("CP1252"%string, inr "MSANSI"%string);
  ("CP1257"%string, inr "WINBALTRIM"%string);
  ("CP1251"%string, inr "MSCYRL"%string);
  ("CP1250"%string, inr "MSEE"%string);
  ("BIG5HKSCS"%string, inr "BIG5HKSCS_2008"%string);
  ("GB18030"%string, inr "GB18030_2022"%string)].
(* lib/generated/indexes.hpp.shippet:1-217 enum class Encodings *)
Definition public_cpp : list (string * (Z + string)) := [
  ("ISO2022_JP3"%string, inl 193);
  ("SHIFT_JISX0213"%string, inl 192);
  ("EUC_JISX0213"%string, inl 191);
  ("EBCDIC_12712"%string, inl 189);
  ("EBCDIC_4971"%string, inl 188);
  ("EBCDIC_1166"%string, inl 187);
  ("EBCDIC_1160"%string, inl 184);
  ("EBCDIC_1158"%string, inl 183);
  ("EBCDIC_1155"%string, inl 180);
  ("EBCDIC_1153"%string, inl 178);
  ("EBCDIC_1147"%string, inl 175);
  ("EBCDIC_1145"%string, inl 173);
  ("EBCDIC_1144"%string, inl 172);
  ("EBCDIC_1143"%string, inl 171);
  ("EBCDIC_1142"%string, inl 170);
  ("EBCDIC_1137"%string, inl 167);
  ("EBCDIC_1132"%string, inl 166);
  ("EBCDIC_1123"%string, inl 164);
  ("EBCDIC_1122"%string, inl 163);
  ("EBCDIC_1112"%string, inl 162);
  ("EBCDIC_1097"%string, inl 161);
  ("EBCDIC_1025"%string, inl 158);
  ("EBCDIC_905"%string, inl 156);
  ("EBCDIC_500"%string, inl 150);
  ("EBCDIC_425"%string, inl 149);
  ("EBCDIC_424"%string, inl 148);
  ("EBCDIC_285"%string, inl 145);
  ("EBCDIC_284"%string, inl 144);
  ("EBCDIC_282"%string, inl 143);
  ("EBCDIC_278"%string, inl 141);
  ("EBCDIC_277"%string, inl 140);
  ("CP1125"%string, inl 137);
  ("CP869"%string, inl 136);
  ("CP861"%string, inl 132);
  ("EBCDIC_1047"%string, inl 160);
  ("CP857"%string, inl 129);
  ("EBCDIC_423"%string, inl 147);
  ("CP853"%string, inl 127);
  ("ISO8859_8"%string, inl 56);
  ("EBCDIC_1154"%string, inl 179);
  ("GB1988_80"%string, inl 110);
  ("EBCDIC_1140"%string, inl 168);
  ("ISO8859_6"%string, inl 54);
  ("ISO8859_3"%string, inl 51);
  ("IBM922"%string, inl 115);
  ("ISO8859_1"%string, inl 49);
  ("ISO8859_10"%string, inl 58);
  ("DEC_HANYU"%string, inl 48);
  ("DEC_KANJI"%string, inl 47);
  ("ISO8859_4"%string, inl 52);
  ("SHIFT_JIS"%string, inl 22);
  ("IBM1131"%string, inl 79);
  ("EBCDIC_880"%string, inl 155);
  ("BIG5HKSCS_2001"%string, inl 40);
  ("MSEE"%string, inl 67);
  ("ISO8859_7"%string, inl 55);
  ("TDS565"%string, inl 195);
  ("EBCDIC_1148"%string, inl 176);
  ("IBM1161"%string, inl 120);
  ("EBCDIC_037"%string, inl 138);
  ("CP775"%string, inl 125);
  ("BIG5HKSCS_1999"%string, inl 39);
  ("EUC_TW"%string, inl 36);
  ("EBCDIC_297"%string, inl 146);
  ("UHC"%string, inl 44);
  ("EBCDIC_1156"%string, inl 181);
  ("GB18030_2022"%string, inl 32);
  ("UTF32"%string, inl 11);
  ("ATARIST"%string, inl 196);
  ("CP864"%string, inl 134);
  ("GB2312_80"%string, inl 111);
  ("UTF16LE"%string, inl 10);
  ("EBCDIC_1149"%string, inl 177);
  ("UTF16"%string, inl 8);
  ("UCS4LE"%string, inl 7);
  ("EBCDIC_924"%string, inl 157);
  ("EUC_KR"%string, inl 43);
  ("EBCDIC_1026"%string, inl 159);
  ("GB18030_2005"%string, inl 31);
  ("UCS4_INTERNAL"%string, inl 17);
  ("KOI8T"%string, inl 97);
  ("EBCDIC_280"%string, inl 142);
  ("UCS2LE"%string, inl 4);
  ("WINDOWS1258"%string, inl 75);
  ("EBCDIC_1157"%string, inl 182);
  ("UTF8"%string, inl 1);
  ("CP865"%string, inl 135);
  ("UCS4"%string, inl 5);
  ("CP858"%string, inl 130);
  ("HZ"%string, inl 35);
  ("CP863"%string, inl 133);
  ("ISO2022_KR"%string, inl 46);
  ("C99"%string, inl 19);
  ("IBM1163"%string, inl 122);
  ("ISO2022_CN"%string, inl 33);
  ("UTF32LE"%string, inl 13);
  ("ASCII"%string, inl 0);
  ("IBM862"%string, inl 77);
  ("UTF7"%string, inl 14);
  ("WINDOWS950"%string, inl 38);
  ("UCS2"%string, inl 2);
  ("ISO8859_14"%string, inl 61);
  ("IBM943"%string, inl 116);
  ("CP737"%string, inl 124);
  ("ISO2022_JP1"%string, inl 25);
  ("UCS2_SWAPPED"%string, inl 16);
  ("KOI8_R"%string, inl 64);
  ("UCS4_SWAPPED"%string, inl 18);
  ("RISCOS_LATIN1"%string, inl 197);
  ("JAVA"%string, inl 20);
  ("BIG5"%string, inl 37);
  ("UTF16BE"%string, inl 9);
  ("EBCDIC_871"%string, inl 153);
  ("UTF32BE"%string, inl 12);
  ("GEORGIANACADEMY"%string, inl 95);
  ("IBM932"%string, inl 23);
  ("CP860"%string, inl 131);
  ("MAC_ICELAND"%string, inl 82);
  ("ISO2022_JP"%string, inl 24);
  ("BIG5HKSCS_2004"%string, inl 41);
  ("GB2312"%string, inl 28);
  ("GBK"%string, inl 29);
  ("ISO8859_5"%string, inl 53);
  ("BIG5HKSCS_2008"%string, inl 42);
  ("CP852"%string, inl 126);
  ("UCS4BE"%string, inl 6);
  ("IBM866"%string, inl 78);
  ("EBCDIC_875"%string, inl 154);
  ("MAC_CROATIAN"%string, inl 83);
  ("MAC_UKRAINE"%string, inl 86);
  ("EUC_JP"%string, inl 21);
  ("ISO2022_JP2"%string, inl 26);
  ("ISO8859_11"%string, inl 59);
  ("KOI8_U"%string, inl 65);
  ("EBCDIC_1141"%string, inl 169);
  ("EBCDIC_838"%string, inl 151);
  ("MSGREEK"%string, inl 70);
  ("UCS2BE"%string, inl 3);
  ("ISO8859_13"%string, inl 60);
  ("BIG5_2003"%string, inl 194);
  ("JISX0208"%string, inl 108);
  ("EBCDIC_1146"%string, inl 174);
  ("ISO8859_15"%string, inl 62);
  ("ISO8859_16"%string, inl 63);
  ("IBM1046"%string, inl 117);
  ("KOI8_RU"%string, inl 66);
  ("CNGBISOIR165"%string, inl 112);
  ("MSCYRL"%string, inl 68);
  ("MSTURK"%string, inl 71);
  ("EBCDIC_1165"%string, inl 186);
  ("MSHEBR"%string, inl 72);
  ("CP855"%string, inl 128);
  ("MSARAB"%string, inl 73);
  ("VISCII"%string, inl 104);
  ("WINBALTRIM"%string, inl 74);
  ("EBCDIC_273"%string, inl 139);
  ("MACINTOSH"%string, inl 80);
  ("MAC_CENTRALEUROPE"%string, inl 81);
  ("MAC_CYRILLIC"%string, inl 85);
  ("MAC_GREEK"%string, inl 87);
  ("MAC_ARABIC"%string, inl 90);
  ("MAC_TURKISH"%string, inl 88);
  ("EBCDIC_1164"%string, inl 185);
  ("MAC_HEBREW"%string, inl 89);
  ("EBCDIC_16804"%string, inl 190);
  ("MAC_THAI"%string, inl 91);
  ("HPROMAN8"%string, inl 92);
  ("UCS2_INTERNAL"%string, inl 15);
  ("NEXTSTEP"%string, inl 93);
  ("ARMSCII8"%string, inl 94);
  ("ISO8859_2"%string, inl 50);
  ("GEORGIANPS"%string, inl 96);
  ("PT154"%string, inl 98);
  ("MAC_ROMANIA"%string, inl 84);
  ("IBM850"%string, inl 76);
  ("RK1048"%string, inl 99);
  ("ISO8859_9"%string, inl 57);
  ("MULELAO1"%string, inl 100);
  ("ISO2022_CN_EXT"%string, inl 34);
  ("IBMCP1133"%string, inl 101);
  ("EBCDIC_1130"%string, inl 165);
  ("TIS620"%string, inl 102);
  ("MSANSI"%string, inl 69);
  ("WINDOWS874"%string, inl 103);
  ("EBCDIC_870"%string, inl 152);
  ("JISX0201"%string, inl 107);
  ("TCVN"%string, inl 105);
  ("JP"%string, inl 106);
  ("JOHAB"%string, inl 45);
  ("ISO2022_JPMS"%string, inl 27);
  ("JISX0212"%string, inl 109);
  ("KOREAN"%string, inl 113);
  ("IBM856"%string, inl 114);
  ("IBM1124"%string, inl 118);
  ("CP936"%string, inl 30);
  ("IBM1129"%string, inl 119);
  ("IBM1162"%string, inl 121);
  ("CP437"%string, inl 123);
  ("CP1256"%string, inr "MSARAB"%string);
  ("MAC_ROMAN"%string, inr "MACINTOSH"%string);
  ("CP1258"%string, inr "WINDOWS1258"%string);
  ("CP1255"%string, inr "MSHEBR"%string);
  ("CP1254"%string, inr "MSTURK"%string);
  ("ATARI"%string, inr "ATARIST"%string);
  ("CP1253"%string, inr "MSGREEK"%string);
  ("CP1252"%string, inr "MSANSI"%string);
  ("CP1257"%string, inr "WINBALTRIM"%string);
  ("CP1251"%string, inr "MSCYRL"%string);
  ("CP1250"%string, inr "MSEE"%string);
  ("BIG5HKSCS"%string, inr "BIG5HKSCS_2008"%string);
  ("GB18030"%string, inr "GB18030_2022"%string)].
(* lib/encodings.h.snippet: DEFENCODING entries: constant name, encoding index, functions *)
Definition declared : list (string * Z * funcs) := [
  ("ASCII"%string, ei_ascii, enc_ascii);
  ("UTF8"%string, ei_utf8, enc_utf8);
  ("UCS2"%string, ei_ucs2, enc_ucs2);
  ("UCS2BE"%string, ei_ucs2be, enc_ucs2be);
  ("UCS2LE"%string, ei_ucs2le, enc_ucs2le);
  ("UCS4"%string, ei_ucs4, enc_ucs4);
  ("UCS4BE"%string, ei_ucs4be, enc_ucs4be);
  ("UCS4LE"%string, ei_ucs4le, enc_ucs4le);
  ("UTF16"%string, ei_utf16, enc_utf16);
  ("UTF16BE"%string, ei_utf16be, enc_utf16be);
  ("UTF16LE"%string, ei_utf16le, enc_utf16le);
  ("UTF32"%string, ei_utf32, enc_utf32);
  ("UTF32BE"%string, ei_utf32be, enc_utf32be);
  ("UTF32LE"%string, ei_utf32le, enc_utf32le);
  ("UTF7"%string, ei_utf7, enc_utf7);
  ("UCS2_INTERNAL"%string, ei_ucs2internal, enc_ucs2internal);
  ("UCS2_SWAPPED"%string, ei_ucs2swapped, enc_ucs2swapped);
  ("UCS4_INTERNAL"%string, ei_ucs4internal, enc_ucs4internal);
  ("UCS4_SWAPPED"%string, ei_ucs4swapped, enc_ucs4swapped);
  ("C99"%string, ei_c99, enc_c99);
  ("JAVA"%string, ei_java, enc_java);
  ("EUC_JP"%string, ei_euc_jp, enc_euc_jp);
  ("SHIFT_JIS"%string, ei_sjis, enc_sjis);
  ("IBM932"%string, ei_cp932, enc_cp932);
  ("ISO2022_JP"%string, ei_iso2022_jp, enc_iso2022_jp);
  ("ISO2022_JP1"%string, ei_iso2022_jp1, enc_iso2022_jp1);
  ("ISO2022_JP2"%string, ei_iso2022_jp2, enc_iso2022_jp2);
  ("ISO2022_JPMS"%string, ei_iso2022_jpms, enc_iso2022_jpms);
  ("GB2312"%string, ei_euc_cn, enc_euc_cn);
  ("GBK"%string, ei_ces_gbk, enc_ces_gbk);
  ("CP936"%string, ei_cp936, enc_cp936);
  ("GB18030_2005"%string, ei_gb18030_2005, enc_gb18030_2005);
  ("GB18030_2022"%string, ei_gb18030_2022, enc_gb18030_2022);
  ("ISO2022_CN"%string, ei_iso2022_cn, enc_iso2022_cn);
  ("ISO2022_CN_EXT"%string, ei_iso2022_cn_ext, enc_iso2022_cn_ext);
  ("HZ"%string, ei_hz, enc_hz);
  ("EUC_TW"%string, ei_euc_tw, enc_euc_tw);
  ("BIG5"%string, ei_ces_big5, enc_ces_big5);
  ("WINDOWS950"%string, ei_cp950, enc_cp950);
  ("BIG5HKSCS_1999"%string, ei_big5hkscs1999, enc_big5hkscs1999);
  ("BIG5HKSCS_2001"%string, ei_big5hkscs2001, enc_big5hkscs2001);
  ("BIG5HKSCS_2004"%string, ei_big5hkscs2004, enc_big5hkscs2004);
  ("BIG5HKSCS_2008"%string, ei_big5hkscs2008, enc_big5hkscs2008);
  ("EUC_KR"%string, ei_euc_kr, enc_euc_kr);
  ("UHC"%string, ei_cp949, enc_cp949);
  ("JOHAB"%string, ei_johab, enc_johab);
  ("ISO2022_KR"%string, ei_iso2022_kr, enc_iso2022_kr);
  ("DEC_KANJI"%string, ei_dec_kanji, enc_dec_kanji);
  ("DEC_HANYU"%string, ei_dec_hanyu, enc_dec_hanyu);
  ("ISO8859_1"%string, ei_iso8859_1, enc_iso8859_1);
  ("ISO8859_2"%string, ei_iso8859_2, enc_iso8859_2);
  ("ISO8859_3"%string, ei_iso8859_3, enc_iso8859_3);
  ("ISO8859_4"%string, ei_iso8859_4, enc_iso8859_4);
  ("ISO8859_5"%string, ei_iso8859_5, enc_iso8859_5);
  ("ISO8859_6"%string, ei_iso8859_6, enc_iso8859_6);
  ("ISO8859_7"%string, ei_iso8859_7, enc_iso8859_7);
  ("ISO8859_8"%string, ei_iso8859_8, enc_iso8859_8);
  ("ISO8859_9"%string, ei_iso8859_9, enc_iso8859_9);
  ("ISO8859_10"%string, ei_iso8859_10, enc_iso8859_10);
  ("ISO8859_11"%string, ei_iso8859_11, enc_iso8859_11);
  ("ISO8859_13"%string, ei_iso8859_13, enc_iso8859_13);
  ("ISO8859_14"%string, ei_iso8859_14, enc_iso8859_14);
  ("ISO8859_15"%string, ei_iso8859_15, enc_iso8859_15);
  ("ISO8859_16"%string, ei_iso8859_16, enc_iso8859_16);
  ("KOI8_R"%string, ei_koi8_r, enc_koi8_r);
  ("KOI8_U"%string, ei_koi8_u, enc_koi8_u);
  ("KOI8_RU"%string, ei_koi8_ru, enc_koi8_ru);
  ("MSEE"%string, ei_cp1250, enc_cp1250);
  ("MSCYRL"%string, ei_cp1251, enc_cp1251);
  ("MSANSI"%string, ei_cp1252, enc_cp1252);
  ("MSGREEK"%string, ei_cp1253, enc_cp1253);
  ("MSTURK"%string, ei_cp1254, enc_cp1254);
  ("MSHEBR"%string, ei_cp1255, enc_cp1255);
  ("MSARAB"%string, ei_cp1256, enc_cp1256);
  ("WINBALTRIM"%string, ei_cp1257, enc_cp1257);
  ("WINDOWS1258"%string, ei_cp1258, enc_cp1258);
  ("IBM850"%string, ei_cp850, enc_cp850);
  ("IBM862"%string, ei_cp862, enc_cp862);
  ("IBM866"%string, ei_cp866, enc_cp866);
  ("IBM1131"%string, ei_cp1131, enc_cp1131);
  ("MACINTOSH"%string, ei_mac_roman, enc_mac_roman);
  ("MAC_CENTRALEUROPE"%string, ei_mac_centraleurope, enc_mac_centraleurope);
  ("MAC_ICELAND"%string, ei_mac_iceland, enc_mac_iceland);
  ("MAC_CROATIAN"%string, ei_mac_croatian, enc_mac_croatian);
  ("MAC_ROMANIA"%string, ei_mac_romania, enc_mac_romania);
  ("MAC_CYRILLIC"%string, ei_mac_cyrillic, enc_mac_cyrillic);
  ("MAC_UKRAINE"%string, ei_mac_ukraine, enc_mac_ukraine);
  ("MAC_GREEK"%string, ei_mac_greek, enc_mac_greek);
  ("MAC_TURKISH"%string, ei_mac_turkish, enc_mac_turkish);
  ("MAC_HEBREW"%string, ei_mac_hebrew, enc_mac_hebrew);
  ("MAC_ARABIC"%string, ei_mac_arabic, enc_mac_arabic);
  ("MAC_THAI"%string, ei_mac_thai, enc_mac_thai);
  ("HPROMAN8"%string, ei_hp_roman8, enc_hp_roman8);
  ("NEXTSTEP"%string, ei_nextstep, enc_nextstep);
  ("ARMSCII8"%string, ei_armscii_8, enc_armscii_8);
  ("GEORGIANACADEMY"%string, ei_georgian_academy, enc_georgian_academy);
  ("GEORGIANPS"%string, ei_georgian_ps, enc_georgian_ps);
  ("KOI8T"%string, ei_koi8_t, enc_koi8_t);
  ("PT154"%string, ei_pt154, enc_pt154);
  ("RK1048"%string, ei_rk1048, enc_rk1048);
  ("MULELAO1"%string, ei_mulelao, enc_mulelao);
  ("IBMCP1133"%string, ei_cp1133, enc_cp1133);
  ("TIS620"%string, ei_tis620, enc_tis620);
  ("WINDOWS874"%string, ei_cp874, enc_cp874);
  ("VISCII"%string, ei_viscii, enc_viscii);
  ("TCVN"%string, ei_tcvn, enc_tcvn);
  ("JP"%string, ei_iso646_jp, enc_iso646_jp);
  ("JISX0201"%string, ei_jisx0201, enc_jisx0201);
  ("JISX0208"%string, ei_jisx0208, enc_jisx0208);
  ("JISX0212"%string, ei_jisx0212, enc_jisx0212);
  ("GB1988_80"%string, ei_iso646_cn, enc_iso646_cn);
  ("GB2312_80"%string, ei_gb2312, enc_gb2312);
  ("CNGBISOIR165"%string, ei_isoir165, enc_isoir165);
  ("KOREAN"%string, ei_ksc5601, enc_ksc5601);
  ("IBM856"%string, ei_cp856, enc_cp856);
  ("IBM922"%string, ei_cp922, enc_cp922);
  ("IBM943"%string, ei_cp943, enc_cp943);
  ("IBM1046"%string, ei_cp1046, enc_cp1046);
  ("IBM1124"%string, ei_cp1124, enc_cp1124);
  ("IBM1129"%string, ei_cp1129, enc_cp1129);
  ("IBM1161"%string, ei_cp1161, enc_cp1161);
  ("IBM1162"%string, ei_cp1162, enc_cp1162);
  ("IBM1163"%string, ei_cp1163, enc_cp1163);
  ("CP437"%string, ei_cp437, enc_cp437);
  ("CP737"%string, ei_cp737, enc_cp737);
  ("CP775"%string, ei_cp775, enc_cp775);
  ("CP852"%string, ei_cp852, enc_cp852);
  ("CP853"%string, ei_cp853, enc_cp853);
  ("CP855"%string, ei_cp855, enc_cp855);
  ("CP857"%string, ei_cp857, enc_cp857);
  ("CP858"%string, ei_cp858, enc_cp858);
  ("CP860"%string, ei_cp860, enc_cp860);
  ("CP861"%string, ei_cp861, enc_cp861);
  ("CP863"%string, ei_cp863, enc_cp863);
  ("CP864"%string, ei_cp864, enc_cp864);
  ("CP865"%string, ei_cp865, enc_cp865);
  ("CP869"%string, ei_cp869, enc_cp869);
  ("CP1125"%string, ei_cp1125, enc_cp1125);
  ("EBCDIC_037"%string, ei_ebcdic037, enc_ebcdic037);
  ("EBCDIC_273"%string, ei_ebcdic273, enc_ebcdic273);
  ("EBCDIC_277"%string, ei_ebcdic277, enc_ebcdic277);
  ("EBCDIC_278"%string, ei_ebcdic278, enc_ebcdic278);
  ("EBCDIC_280"%string, ei_ebcdic280, enc_ebcdic280);
  ("EBCDIC_282"%string, ei_ebcdic282, enc_ebcdic282);
  ("EBCDIC_284"%string, ei_ebcdic284, enc_ebcdic284);
  ("EBCDIC_285"%string, ei_ebcdic285, enc_ebcdic285);
  ("EBCDIC_297"%string, ei_ebcdic297, enc_ebcdic297);
  ("EBCDIC_423"%string, ei_ebcdic423, enc_ebcdic423);
  ("EBCDIC_424"%string, ei_ebcdic424, enc_ebcdic424);
  ("EBCDIC_425"%string, ei_ebcdic425, enc_ebcdic425);
  ("EBCDIC_500"%string, ei_ebcdic500, enc_ebcdic500);
  ("EBCDIC_838"%string, ei_ebcdic838, enc_ebcdic838);
  ("EBCDIC_870"%string, ei_ebcdic870, enc_ebcdic870);
  ("EBCDIC_871"%string, ei_ebcdic871, enc_ebcdic871);
  ("EBCDIC_875"%string, ei_ebcdic875, enc_ebcdic875);
  ("EBCDIC_880"%string, ei_ebcdic880, enc_ebcdic880);
  ("EBCDIC_905"%string, ei_ebcdic905, enc_ebcdic905);
  ("EBCDIC_924"%string, ei_ebcdic924, enc_ebcdic924);
  ("EBCDIC_1025"%string, ei_ebcdic1025, enc_ebcdic1025);
  ("EBCDIC_1026"%string, ei_ebcdic1026, enc_ebcdic1026);
  ("EBCDIC_1047"%string, ei_ebcdic1047, enc_ebcdic1047);
  ("EBCDIC_1097"%string, ei_ebcdic1097, enc_ebcdic1097);
  ("EBCDIC_1112"%string, ei_ebcdic1112, enc_ebcdic1112);
  ("EBCDIC_1122"%string, ei_ebcdic1122, enc_ebcdic1122);
  ("EBCDIC_1123"%string, ei_ebcdic1123, enc_ebcdic1123);
  ("EBCDIC_1130"%string, ei_ebcdic1130, enc_ebcdic1130);
  ("EBCDIC_1132"%string, ei_ebcdic1132, enc_ebcdic1132);
  ("EBCDIC_1137"%string, ei_ebcdic1137, enc_ebcdic1137);
  ("EBCDIC_1140"%string, ei_ebcdic1140, enc_ebcdic1140);
  ("EBCDIC_1141"%string, ei_ebcdic1141, enc_ebcdic1141);
  ("EBCDIC_1142"%string, ei_ebcdic1142, enc_ebcdic1142);
  ("EBCDIC_1143"%string, ei_ebcdic1143, enc_ebcdic1143);
  ("EBCDIC_1144"%string, ei_ebcdic1144, enc_ebcdic1144);
  ("EBCDIC_1145"%string, ei_ebcdic1145, enc_ebcdic1145);
  ("EBCDIC_1146"%string, ei_ebcdic1146, enc_ebcdic1146);
  ("EBCDIC_1147"%string, ei_ebcdic1147, enc_ebcdic1147);
  ("EBCDIC_1148"%string, ei_ebcdic1148, enc_ebcdic1148);
  ("EBCDIC_1149"%string, ei_ebcdic1149, enc_ebcdic1149);
  ("EBCDIC_1153"%string, ei_ebcdic1153, enc_ebcdic1153);
  ("EBCDIC_1154"%string, ei_ebcdic1154, enc_ebcdic1154);
  ("EBCDIC_1155"%string, ei_ebcdic1155, enc_ebcdic1155);
  ("EBCDIC_1156"%string, ei_ebcdic1156, enc_ebcdic1156);
  ("EBCDIC_1157"%string, ei_ebcdic1157, enc_ebcdic1157);
  ("EBCDIC_1158"%string, ei_ebcdic1158, enc_ebcdic1158);
  ("EBCDIC_1160"%string, ei_ebcdic1160, enc_ebcdic1160);
  ("EBCDIC_1164"%string, ei_ebcdic1164, enc_ebcdic1164);
  ("EBCDIC_1165"%string, ei_ebcdic1165, enc_ebcdic1165);
  ("EBCDIC_1166"%string, ei_ebcdic1166, enc_ebcdic1166);
  ("EBCDIC_4971"%string, ei_ebcdic4971, enc_ebcdic4971);
  ("EBCDIC_12712"%string, ei_ebcdic12712, enc_ebcdic12712);
  ("EBCDIC_16804"%string, ei_ebcdic16804, enc_ebcdic16804);
  ("EUC_JISX0213"%string, ei_euc_jisx0213, enc_euc_jisx0213);
  ("SHIFT_JISX0213"%string, ei_shift_jisx0213, enc_shift_jisx0213);
  ("ISO2022_JP3"%string, ei_iso2022_jp3, enc_iso2022_jp3);
  ("BIG5_2003"%string, ei_big5_2003, enc_big5_2003);
  ("TDS565"%string, ei_tds565, enc_tds565);
  ("ATARIST"%string, ei_atarist, enc_atarist);
  ("RISCOS_LATIN1"%string, ei_riscos1, enc_riscos1)].
(* lib/encodings.h.snippet: DEFINDEX entries *)
Definition declared_aliases : list (string * string) := [
  ("GB18030"%string, "GB18030_2022"%string);
  ("BIG5HKSCS"%string, "BIG5HKSCS_2008"%string);
  ("CP1250"%string, "MSEE"%string);
  ("CP1251"%string, "MSCYRL"%string);
  ("CP1252"%string, "MSANSI"%string);
  ("CP1253"%string, "MSGREEK"%string);
  ("CP1254"%string, "MSTURK"%string);
  ("CP1255"%string, "MSHEBR"%string);
  ("CP1256"%string, "MSARAB"%string);
  ("CP1257"%string, "WINBALTRIM"%string);
  ("CP1258"%string, "WINDOWS1258"%string);
  ("MAC_ROMAN"%string, "MACINTOSH"%string);
  ("ATARI"%string, "ATARIST"%string)].

(* lib/encodings.h.snippet: the names declared for each encoding (adjacent string literals joined, as in C) *)
Definition declared_names : list (Z * list string) := [
  (ei_ascii, ["USASCII"; "ASCII"; "ISO646US"; "ISO646.IRV:1991"; "ISOIR6"; "ANSIX3.41968"; "ANSIX3.41986"; "IBM367"; "US"; "CSASCII"; "367"; "CP367"; "646"]%string);
  (ei_utf8, ["UTF8"; "U8"; "CP65001"; "65001"]%string);
  (ei_ucs2, ["UCS2"; "ISO10646UCS2"; "CSUNICODE"]%string);
  (ei_ucs2be, ["UCS2BE"; "UNICODEBIG"; "UNICODE11"; "CSUNICODE11"; "UNICODEFFFE"; "CP1201"; "1201"]%string);
  (ei_ucs2le, ["UCS2LE"; "UNICODELITTLE"; "CP1200"; "1200"]%string);
  (ei_ucs4, ["UCS4"; "ISO10646UCS4"; "CSUCS4"]%string);
  (ei_ucs4be, ["UCS4BE"; "12001"; "CP12001"]%string);
  (ei_ucs4le, ["UCS4LE"; "CP12000"; "12000"]%string);
  (ei_utf16, ["UTF16"; "U16"]%string);
  (ei_utf16be, ["UTF16BE"; "U16BE"]%string);
  (ei_utf16le, ["UTF16LE"; "U16LE"]%string);
  (ei_utf32, ["UTF32"; "U32"]%string);
  (ei_utf32be, ["UTF32BE"; "U32BE"]%string);
  (ei_utf32le, ["UTF32LE"; "U32LE"]%string);
  (ei_utf7, ["UTF7"; "UNICODE11UTF7"; "CSUNICODE11UTF7"; "U7"; "CP65000"; "65000"]%string);
  (ei_ucs2internal, ["UCS2INTERNAL"]%string);
  (ei_ucs2swapped, ["UCS2SWAPPED"]%string);
  (ei_ucs4internal, ["UCS4INTERNAL"]%string);
  (ei_ucs4swapped, ["UCS4SWAPPED"]%string);
  (ei_c99, ["C99"]%string);
  (ei_java, ["JAVA"]%string);
  (ei_euc_jp, ["EUCJP"; "EXTENDEDUNIXCODEPACKEDFORMATFORJAPANESE"; "CSEUCPKDFMTJAPANESE"; "IBMEUCJP"; "SDECKANJI"; "CP51932"; "51932"]%string);
  (ei_sjis, ["SHIFTJIS"; "SJIS"; "MSKANJI"; "CSSHIFTJIS"; "PCK"]%string);
  (ei_cp932, ["IBM932"; "CP932"; "932"]%string);
  (ei_iso2022_jp, ["ISO2022JP"; "CSISO2022JP"; "CP50220"; "50220"; "CP50222"; "50222"]%string);
  (ei_iso2022_jp1, ["ISO2022JP1"]%string);
  (ei_iso2022_jp2, ["ISO2022JP2"; "CSISO2022JP2"]%string);
  (ei_iso2022_jpms, ["ISO2022JPMS"; "CP50221"; "50221"]%string);
  (ei_euc_cn, ["EUCCN"; "GB2312"; "CNGB"; "CSGB2312"; "CHINESE"; "IBMEUCCN"; "HP15CN"; "DECHANZI"]%string);
  (ei_ces_gbk, ["GBK"]%string);
  (ei_cp936, ["MS936"; "WINDOWS936"; "CP936"; "936"]%string);
  (ei_gb18030_2005, ["GB18030:2005"]%string);
  (ei_gb18030_2022, ["GB18030"; "CSGB18030"; "GB18030:2022"; "CP54936"; "54936"]%string);
  (ei_iso2022_cn, ["ISO2022CN"; "CSISO2022CN"; "CP50227"; "50227"; "XCP50227"]%string);
  (ei_iso2022_cn_ext, ["ISO2022CNEXT"]%string);
  (ei_hz, ["HZ"; "HZGB2312"; "CP52936"; "52936"]%string);
  (ei_euc_tw, ["EUCTW"; "CSEUCTW"; "IBMEUCTW"; "CNS11643"; "CP51950"; "51950"]%string);
  (ei_ces_big5, ["BIG5"; "BIGFIVE"; "CNBIG5"; "CSBIG5"]%string);
  (ei_cp950, ["WINDOWS950"; "CP950"; "950"]%string);
  (ei_big5hkscs1999, ["BIG5HKSCS:1999"]%string);
  (ei_big5hkscs2001, ["BIG5HKSCS:2001"]%string);
  (ei_big5hkscs2004, ["BIG5HKSCS:2004"]%string);
  (ei_big5hkscs2008, ["BIG5HKSCS"; "BIG5HKSCS:2008"]%string);
  (ei_euc_kr, ["EUCKR"; "CSEUCKR"; "IBMEUCKR"; "DECKOREAN"; "5601"; "CP51949"; "51949"]%string);
  (ei_cp949, ["UHC"; "CP949"; "949"; "KSC56011987"]%string);
  (ei_johab, ["JOHAB"; "KOKR.JOHAP92"; "CP1361"; "1361"]%string);
  (ei_iso2022_kr, ["ISO2022KR"; "CSISO2022KR"; "CP50225"; "50225"]%string);
  (ei_dec_kanji, ["DECKANJI"]%string);
  (ei_dec_hanyu, ["DECHANYU"]%string);
  (ei_iso8859_1, ["ISO88591"; "ISO88591:1987"; "ISOIR100"; "IBM819"; "LATIN1"; "L1"; "CSISOLATIN1"; "CP819"; "819"; "CP28591"; "28591"]%string);
  (ei_iso8859_2, ["ISO88592"; "ISO88592:1987"; "ISOIR101"; "LATIN2"; "L2"; "CSISOLATIN2"; "CP28592"; "28592"]%string);
  (ei_iso8859_3, ["ISO88593"; "ISO88593:1988"; "ISOIR109"; "LATIN3"; "L3"; "CSISOLATIN3"; "CP28593"; "28593"]%string);
  (ei_iso8859_4, ["ISO88594"; "ISO88594:1988"; "ISOIR110"; "LATIN4"; "L4"; "CSISOLATIN4"; "CP28594"; "28594"]%string);
  (ei_iso8859_5, ["ISO88595"; "ISO88595:1988"; "ISOIR144"; "CYRILLIC"; "CSISOLATINCYRILLIC"; "CP28595"; "28595"]%string);
  (ei_iso8859_6, ["ISO88596"; "ISO88596:1987"; "ISOIR127"; "ECMA114"; "ASMO708"; "ARABIC"; "CSISOLATINARABIC"; "CP28596"; "28596"]%string);
  (ei_iso8859_7, ["ISO88597"; "ISO88597:1987"; "ISO88597:2003"; "ISOIR126"; "ECMA118"; "ELOT928"; "GREEK8"; "GREEK"; "CSISOLATINGREEK"; "CP28597"; "28597"]%string);
  (ei_iso8859_8, ["ISO88598"; "ISO88598:1988"; "ISOIR138"; "HEBREW"; "CSISOLATINHEBREW"; "ISO88598I"; "CP28598"; "28598"; "CP38598"; "38598"]%string);
  (ei_iso8859_9, ["ISO88599"; "ISO88599:1989"; "ISOIR148"; "LATIN5"; "L5"; "CSISOLATIN5"; "CP28599"; "28599"]%string);
  (ei_iso8859_10, ["ISO885910"; "ISO885910:1992"; "ISOIR157"; "LATIN6"; "L6"; "CSISOLATIN6"]%string);
  (ei_iso8859_11, ["ISO885911"]%string);
  (ei_iso8859_13, ["ISO885913"; "ISOIR179"; "LATIN7"; "L7"; "IBM921CP28603"; "28603"]%string);
  (ei_iso8859_14, ["ISO885914"; "ISO885914:1998"; "ISOIR199"; "LATIN8"; "L8"; "ISOCELTIC"]%string);
  (ei_iso8859_15, ["ISO885915"; "ISO885915:1998"; "ISOIR203"; "LATIN9"; "L9"; "CSISO885915CP28605"; "28605"]%string);
  (ei_iso8859_16, ["ISO885916"; "ISO885916:2001"; "ISOIR226"; "LATIN10"; "L10"; "CSISOLATIN10"]%string);
  (ei_koi8_r, ["KOI8R"; "CSKOI8R"; "CP20866"; "20866"]%string);
  (ei_koi8_u, ["KOI8U"; "CSKOI8U"]%string);
  (ei_koi8_ru, ["KOI8RU"; "CSKOI8RU"; "IBM1168"; "CP21866"; "21866"]%string);
  (ei_cp1250, ["CP1250"; "CSWINDOWS1250"; "WINDOWS1250"; "IBM1250"; "MSEE"; "1250"]%string);
  (ei_cp1251, ["WINDOWS1251"; "CSWINDOWS1251"; "MSCYRL"; "ANSI1251"; "CP1251"; "1251"]%string);
  (ei_cp1252, ["WINDOWS1252"; "CSWINDOWS1252"; "IBM1252"; "MSANSI"; "CP1252"; "1252"]%string);
  (ei_cp1253, ["WINDOWS1253"; "CSWINDOWS1253"; "MSGREEK"; "CP1253"; "1253"]%string);
  (ei_cp1254, ["WINDOWS1254"; "CSWINDOWS1254"; "IBM1254"; "MSTURK"; "CP1254"; "1254"]%string);
  (ei_cp1255, ["WINDOWS1255"; "CSWINDOWS1255"; "MSHEBR"; "IBM1255"; "CP1255"; "1255"]%string);
  (ei_cp1256, ["WINDOWS1256"; "CSWINDOWS1256"; "IBM1256"; "MSARAB"; "CP1256"; "1256"]%string);
  (ei_cp1257, ["WINDOWS1257"; "CSWINDOWS1257"; "WINBALTRIM"; "IBM1257"; "CP1257"; "1257"]%string);
  (ei_cp1258, ["WINDOWS1258"; "CSWINDOWS1258"; "IBM1258"; "CP1258"; "1258"]%string);
  (ei_cp850, ["IBM850"; "850"; "CSPC850MULTILINGUAL"; "CP850"]%string);
  (ei_cp862, ["IBM862"; "862"; "CSPC862LATINHEBREW"; "DOS862"; "CP862"]%string);
  (ei_cp866, ["IBM866"; "866"; "CSIBM866"; "CP866"]%string);
  (ei_cp1131, ["IBM1131"; "CP1131"; "1131"]%string);
  (ei_mac_roman, ["MACROMAN"; "MACINTOSH"; "MAC"; "CSMACINTOSH"; "CP10000"; "10000"]%string);
  (ei_mac_centraleurope, ["MACCENTRALEUROPE"; "XMACCE"; "CP10029"; "10029"]%string);
  (ei_mac_iceland, ["MACICELAND"; "XMACICELANDIC"; "CP10079"; "10079"]%string);
  (ei_mac_croatian, ["MACCROATIAN"; "XMACCROATIAN"; "CP10082"; "10082"]%string);
  (ei_mac_romania, ["MACROMANIA"; "XMACROMANIAN"; "CP10010"; "10010"]%string);
  (ei_mac_cyrillic, ["MACCYRILLIC"; "XMACCYRILLIC"; "CP10007"; "10007"]%string);
  (ei_mac_ukraine, ["MACUKRAINE"; "XMACUKRAINIAN"; "CP10017"; "10017"]%string);
  (ei_mac_greek, ["MACGREEK"; "XMACGREEK"; "CP10006"; "10006"]%string);
  (ei_mac_turkish, ["MACTURKISH"; "XMACTURKISH"; "CP10081"; "10081"]%string);
  (ei_mac_hebrew, ["MACHEBREW"; "XMACHEBREW"; "CP10005"; "10005"]%string);
  (ei_mac_arabic, ["MACARABIC"; "XMACARABIC"; "CP10004"; "10004"]%string);
  (ei_mac_thai, ["MACTHAI"; "XMACTHAI"; "CP10021"; "10021"]%string);
  (ei_hp_roman8, ["HPROMAN8"; "ROMAN8"; "R8"; "CSHPROMAN8"; "CP1051"]%string);
  (ei_nextstep, ["NEXTSTEP"]%string);
  (ei_armscii_8, ["ARMSCII8"]%string);
  (ei_georgian_academy, ["GEORGIANACADEMY"]%string);
  (ei_georgian_ps, ["GEORGIANPS"]%string);
  (ei_koi8_t, ["KOI8T"]%string);
  (ei_pt154, ["PT154"; "PTCP154"; "CYRILLICASIAN"; "CSPTCP154"; "IBM1169"; "CYRIILLICASIAN"; "CP154"; "154"]%string);
  (ei_rk1048, ["RK1048"; "STRK10482002"; "KZ1048"; "CSKZ1048"]%string);
  (ei_mulelao, ["MULELAO1"]%string);
  (ei_cp1133, ["IBMCP1133"; "CP1133"; "1133"]%string);
  (ei_tis620, ["TIS620"; "TIS6200"; "TIS620.25291"; "TIS620.25330"; "TIS620.25331"; "ISOIR166"; "TACTIS"; "TIS620.2533"]%string);
  (ei_cp874, ["WINDOWS874"; "CSWINDOWS874"; "MS874"; "CP874"; "874"]%string);
  (ei_viscii, ["VISCII"; "VISCII1.11"; "CSVISCII"]%string);
  (ei_tcvn, ["TCVN"; "TCVN5712"; "TCVN57121"; "TCVN57121:1993"]%string);
  (ei_iso646_jp, ["JISC62201969RO"; "ISO646JP"; "ISOIR14"; "JP"; "CSISO14JISC6220RO"]%string);
  (ei_jisx0201, ["JISX0201"; "JISX02011976"; "X0201"; "CSHALFWIDTHKATAKANA"]%string);
  (ei_jisx0208, ["JISX0208"; "JISX02081983"; "JISX02081990"; "JIS0208"; "X0208"; "ISOIR87"; "JISC62261983"; "CSISO87JISX0208"]%string);
  (ei_jisx0212, ["JISX0212"; "JISX0212.19900"; "JISX02121990"; "X0212"; "ISOIR159"; "CSISO159JISX02121990"]%string);
  (ei_iso646_cn, ["GB198880"; "ISO646CN"; "ISOIR57"; "CN"; "CSISO57GB1988"]%string);
  (ei_gb2312, ["GB231280"; "ISOIR58"; "CSISO58GB231280"]%string);
  (ei_isoir165, ["ISOIR165"; "CNGBISOIR165"]%string);
  (ei_ksc5601, ["KSC5601"; "KSC56011987"; "KSC56011989"; "ISOIR149"; "CSKSC56011987"; "KOREAN"]%string);
  (ei_cp856, ["IBM856"; "CP856"; "856"]%string);
  (ei_cp922, ["IBM922"; "CP922"; "922"]%string);
  (ei_cp943, ["IBM943"; "CP943"; "943"]%string);
  (ei_cp1046, ["IBM1046"; "CP1046"; "1046"]%string);
  (ei_cp1124, ["IBM1124"; "CP1124"; "1124"]%string);
  (ei_cp1129, ["IBM1129"; "CP1129"; "1129"]%string);
  (ei_cp1161, ["IBM1161"; "CSIBM1161"; "CP1161"; "1161"]%string);
  (ei_cp1162, ["IBM1162"; "CSIBM1162"; "CP1162"; "1162"]%string);
  (ei_cp1163, ["IBM1163"; "CSIBM1163"; "CP1163"; "1163"]%string);
  (ei_cp437, ["IBM437"; "437"; "CSPC8CODEPAGE437"; "CP437"]%string);
  (ei_cp737, ["IBM737"; "CP737"; "737"]%string);
  (ei_cp775, ["IBM775"; "CSPC775BALTIC"; "CP775"; "775"]%string);
  (ei_cp852, ["IBM852"; "852"; "CSPCP852"; "CP852"]%string);
  (ei_cp853, ["IBM853"; "853"; "CCSID853"; "CSIBM853"; "CP853"]%string);
  (ei_cp855, ["IBM855"; "855"; "CSIBM855"; "CP855"]%string);
  (ei_cp857, ["IBM857"; "857"; "CSIBM857"; "CP857"]%string);
  (ei_cp858, ["IBM858"; "858"; "IBM00858"; "CP858"; "CCSID00858"; "CP00858"; "CSIBM858"]%string);
  (ei_cp860, ["IBM860"; "860"; "CSIBM860"; "CP860"]%string);
  (ei_cp861, ["IBM861"; "861"; "CP861"; "CPIS"; "CSIBM861"]%string);
  (ei_cp863, ["IBM863"; "863"; "CSIBM863"; "CP863"]%string);
  (ei_cp864, ["IBM864"; "CSIBM864"; "CP864"; "864"]%string);
  (ei_cp865, ["IBM865"; "865"; "CSIBM865"; "CP865"]%string);
  (ei_cp869, ["IBM869"; "869"; "CPGR"; "CSIBM869"; "CP869"; "CP-GR"]%string);
  (ei_cp1125, ["IBM1125"; "1125"; "SYSTEM1125"; "CSIBM1125"; "RUSCII"; "CP866U"; "CP1125"]%string);
  (ei_ebcdic037, ["IBM037"; "EBCDICCPUS"; "EBCDICCPCA"; "EBCDICCPWT"; "EBCDICCPNL"; "CSIBM037"; "CP037"; "CP0037"]%string);
  (ei_ebcdic273, ["IBM273"; "CSIBM273"; "CP273"; "273"]%string);
  (ei_ebcdic277, ["IBM277"; "EBCDICCPDK"; "EBCDICCPNO"; "CSIBM277"; "CP277"; "277"]%string);
  (ei_ebcdic278, ["IBM278"; "EBCDICCPFI"; "EBCDICCPSE"; "CSIBM278"; "CP278"; "278"]%string);
  (ei_ebcdic280, ["IBM280"; "EBCDICCPIT"; "CSIBM280"; "CP280"; "280"]%string);
  (ei_ebcdic282, ["IBM282"; "282"; "CP282"]%string);
  (ei_ebcdic284, ["IBM284"; "EBCDICCPES"; "CSIBM284"; "CP284"; "284"]%string);
  (ei_ebcdic285, ["IBM285"; "CP285"; "EBCDICCPGB"; "CSIBM285"; "285"]%string);
  (ei_ebcdic297, ["IBM297"; "EBCDICCPFR"; "CSIBM297"; "CP297"; "297"]%string);
  (ei_ebcdic423, ["IBM423"; "EBCDICCPGR"; "CSIBM423"; "CP423"; "423"]%string);
  (ei_ebcdic424, ["IBM424"; "EBCDICCPHE"; "CSIBM424"; "CP424"; "424"]%string);
  (ei_ebcdic425, ["IBM425"; "CP425"; "425"]%string);
  (ei_ebcdic500, ["IBM500"; "EBCDICCPBE"; "EBCDICCPCH"; "CSIBM500"; "CP500"; "500"]%string);
  (ei_ebcdic838, ["IBM838"; "IBMTHAI"; "CSIBMTHAI"; "CP838"; "838"]%string);
  (ei_ebcdic870, ["IBM870"; "CP870"; "EBCDICCPROECE"; "EBCDICCPYU"; "CSIBM870"; "870"]%string);
  (ei_ebcdic871, ["IBM871"; "EBCDICCPIS"; "CSIBM871"; "CP871"; "871"]%string);
  (ei_ebcdic875, ["IBM875"; "EBCDICGREEK"; "CP875"; "875"]%string);
  (ei_ebcdic880, ["IBM880"; "EBCDICCYRILLIC"; "CSIBM880"; "CP880"; "880"]%string);
  (ei_ebcdic905, ["IBM905"; "EBCDICCPTR"; "CSIBM905"]%string);
  (ei_ebcdic924, ["IBM924"; "IBM00924"; "CCSID00924"; "CP00924"; "EBCDICLATIN9EURO"; "CSIBM00924"; "CP924"; "924"]%string);
  (ei_ebcdic1025, ["IBM1025"; "CP1025"; "1025"]%string);
  (ei_ebcdic1026, ["IBM1026"; "CSIBM1026"; "CP1026"; "1026"]%string);
  (ei_ebcdic1047, ["IBM1047"; "CSIBM1047"; "CP1047"; "1047"]%string);
  (ei_ebcdic1097, ["IBM1097"; "CP1097"]%string);
  (ei_ebcdic1112, ["IBM1112"; "CP1112"; "1112"]%string);
  (ei_ebcdic1122, ["IBM1122"; "CP1122"; "1122"]%string);
  (ei_ebcdic1123, ["IBM1123"; "CP1123"; "1123"]%string);
  (ei_ebcdic1130, ["IBM1130"; "CP1130"; "1130"]%string);
  (ei_ebcdic1132, ["IBM1132"; "CP1132"; "1132"]%string);
  (ei_ebcdic1137, ["IBM1137"; "CP1137"; "1137"]%string);
  (ei_ebcdic1140, ["IBM1140"; "IBM01140"; "CCSID01140"; "CP01140"; "EBCDICUS37+EURO"; "CSIBM01140"; "CP1140"; "1140"]%string);
  (ei_ebcdic1141, ["IBM1141"; "IBM01141"; "CCSID01141"; "CP01141"; "EBCDICDE273+EURO"; "CSIBM01141"; "CP1141"; "1141"]%string);
  (ei_ebcdic1142, ["IBM1142"; "IBM01142"; "CCSID01142"; "CP01142"; "EBCDICDK277+EURO"; "EBCDICNO277+EURO"; "CSIBM01142"; "CP1142"; "1142"]%string);
  (ei_ebcdic1143, ["IBM1143"; "IBM01143"; "CCSID01143"; "CP01143"; "EBCDICFI278+EURO"; "EBCDICSE278+EURO"; "CSIBM01143"; "CP1143"; "1143"]%string);
  (ei_ebcdic1144, ["IBM1144"; "IBM01144"; "CCSID01144"; "CP01144"; "EBCDICIT280+EURO"; "CSPC8CODEPAGE1144"; "CP1144"; "1144"]%string);
  (ei_ebcdic1145, ["IBM1145"; "IBM01145"; "CCSID01145"; "CP01145"; "EBCDICES284+EURO"; "CSIBM01145"; "CP1145"; "1145"]%string);
  (ei_ebcdic1146, ["IBM1146"; "IBM01146"; "CCSID01146"; "CP01146"; "EBCDICGB285+EURO"; "CSPC8CODEPAGE1146"; "CP1146"; "1146"]%string);
  (ei_ebcdic1147, ["IBM1147"; "IBM01147"; "CCSID01147"; "CP01147"; "EBCDICFR297+EURO"; "CSIBM01147"; "CP1147"; "1147"]%string);
  (ei_ebcdic1148, ["IBM1148"; "IBM01148"; "CCSID01148"; "CP01148"; "EBCDICINTERNATIONAL500+EURO"; "CSIBM01148"; "CP1148"; "1148"]%string);
  (ei_ebcdic1149, ["IBM1149"; "IBM01149"; "CCSID01149"; "CP01149"; "EBCDICIS871+EURO"; "CSIBM01149"; "CP1149"; "1149"]%string);
  (ei_ebcdic1153, ["IBM1153"; "CP1153"; "1153"]%string);
  (ei_ebcdic1154, ["IBM1154"; "CP1154"; "1154"]%string);
  (ei_ebcdic1155, ["IBM1155"; "CP1155"; "1155"]%string);
  (ei_ebcdic1156, ["IBM1156"; "CP1156"; "1156"]%string);
  (ei_ebcdic1157, ["IBM1157"; "CP1157"; "1157"]%string);
  (ei_ebcdic1158, ["IBM1158"; "CP1158"; "1158"]%string);
  (ei_ebcdic1160, ["IBM1160"; "CP1160"; "1160"]%string);
  (ei_ebcdic1164, ["IBM1164"; "CP1164"; "1164"]%string);
  (ei_ebcdic1165, ["IBM1165"; "CP1165"; "1165"]%string);
  (ei_ebcdic1166, ["IBM1166"; "CP1166"; "1166"]%string);
  (ei_ebcdic4971, ["IBM4971"; "CP4971"; "4971"]%string);
  (ei_ebcdic12712, ["IBM12712"; "CP12712"; "12712"]%string);
  (ei_ebcdic16804, ["IBM16804"; "CP16804"; "16804"]%string);
  (ei_euc_jisx0213, ["EUCJISX0213"; "EUCJIS2004"]%string);
  (ei_shift_jisx0213, ["SHIFTJISX0213"; "SHIFTJIS2004"]%string);
  (ei_iso2022_jp3, ["ISO2022JP3"; "ISO2022JP2004"]%string);
  (ei_big5_2003, ["BIG52003"]%string);
  (ei_tds565, ["TDS565"; "ISOIR230"]%string);
  (ei_atarist, ["ATARIST"; "ATARI"]%string);
  (ei_riscos1, ["RISCOSLATIN1"]%string)].

(* lib/encodings.h.snippet: DEFCODEPAGE entries (lib/codepage_to_ei.h:16-18) *)
Definition declared_codepages : list (Z * Z) := [
  (367, ei_ascii);
  (65001, ei_utf8);
  (1201, ei_ucs2be);
  (1200, ei_ucs2le);
  (12001, ei_ucs4be);
  (12000, ei_ucs4le);
  (65000, ei_utf7);
  (51932, ei_euc_jp);
  (932, ei_cp932);
  (50220, ei_iso2022_jp);
  (50222, ei_iso2022_jp);
  (50221, ei_iso2022_jpms);
  (51936, ei_euc_cn);
  (936, ei_cp936);
  (54936, ei_gb18030_2022);
  (50227, ei_iso2022_cn);
  (52936, ei_hz);
  (51950, ei_euc_tw);
  (950, ei_cp950);
  (51949, ei_euc_kr);
  (949, ei_cp949);
  (1361, ei_johab);
  (50225, ei_iso2022_kr);
  (819, ei_iso8859_1);
  (28591, ei_iso8859_1);
  (28592, ei_iso8859_2);
  (28593, ei_iso8859_3);
  (28594, ei_iso8859_4);
  (28595, ei_iso8859_5);
  (28596, ei_iso8859_6);
  (28597, ei_iso8859_7);
  (28598, ei_iso8859_8);
  (38598, ei_iso8859_8);
  (28599, ei_iso8859_9);
  (28603, ei_iso8859_13);
  (28605, ei_iso8859_15);
  (20866, ei_koi8_r);
  (21866, ei_koi8_ru);
  (1250, ei_cp1250);
  (1251, ei_cp1251);
  (1252, ei_cp1252);
  (1253, ei_cp1253);
  (1254, ei_cp1254);
  (1255, ei_cp1255);
  (1256, ei_cp1256);
  (1257, ei_cp1257);
  (1258, ei_cp1258);
  (850, ei_cp850);
  (862, ei_cp862);
  (866, ei_cp866);
  (1131, ei_cp1131);
  (10000, ei_mac_roman);
  (10029, ei_mac_centraleurope);
  (10079, ei_mac_iceland);
  (10082, ei_mac_croatian);
  (10010, ei_mac_romania);
  (10007, ei_mac_cyrillic);
  (10017, ei_mac_ukraine);
  (10006, ei_mac_greek);
  (10081, ei_mac_turkish);
  (10005, ei_mac_hebrew);
  (10004, ei_mac_arabic);
  (10021, ei_mac_thai);
  (154, ei_pt154);
  (1133, ei_cp1133);
  (874, ei_cp874);
  (856, ei_cp856);
  (922, ei_cp922);
  (943, ei_cp943);
  (1046, ei_cp1046);
  (1124, ei_cp1124);
  (1129, ei_cp1129);
  (1161, ei_cp1161);
  (1162, ei_cp1162);
  (1163, ei_cp1163);
  (437, ei_cp437);
  (737, ei_cp737);
  (775, ei_cp775);
  (852, ei_cp852);
  (853, ei_cp853);
  (855, ei_cp855);
  (857, ei_cp857);
  (858, ei_cp858);
  (860, ei_cp860);
  (861, ei_cp861);
  (863, ei_cp863);
  (864, ei_cp864);
  (865, ei_cp865);
  (869, ei_cp869);
  (1125, ei_cp1125);
  (37, ei_ebcdic037);
  (273, ei_ebcdic273);
  (20273, ei_ebcdic273);
  (277, ei_ebcdic277);
  (20277, ei_ebcdic277);
  (278, ei_ebcdic278);
  (20278, ei_ebcdic278);
  (280, ei_ebcdic280);
  (20280, ei_ebcdic280);
  (282, ei_ebcdic282);
  (284, ei_ebcdic284);
  (20284, ei_ebcdic284);
  (285, ei_ebcdic285);
  (20285, ei_ebcdic285);
  (297, ei_ebcdic297);
  (20297, ei_ebcdic297);
  (423, ei_ebcdic423);
  (20423, ei_ebcdic423);
  (424, ei_ebcdic424);
  (20424, ei_ebcdic424);
  (425, ei_ebcdic425);
  (500, ei_ebcdic500);
  (838, ei_ebcdic838);
  (870, ei_ebcdic870);
  (871, ei_ebcdic871);
  (20871, ei_ebcdic871);
  (875, ei_ebcdic875);
  (880, ei_ebcdic880);
  (20880, ei_ebcdic880);
  (905, ei_ebcdic905);
  (20905, ei_ebcdic905);
  (924, ei_ebcdic924);
  (20924, ei_ebcdic924);
  (1025, ei_ebcdic1025);
  (1026, ei_ebcdic1026);
  (1047, ei_ebcdic1047);
  (1097, ei_ebcdic1097);
  (1112, ei_ebcdic1112);
  (1122, ei_ebcdic1122);
  (1123, ei_ebcdic1123);
  (1130, ei_ebcdic1130);
  (1132, ei_ebcdic1132);
  (1137, ei_ebcdic1137);
  (1140, ei_ebcdic1140);
  (1141, ei_ebcdic1141);
  (1142, ei_ebcdic1142);
  (1143, ei_ebcdic1143);
  (1144, ei_ebcdic1144);
  (1145, ei_ebcdic1145);
  (1146, ei_ebcdic1146);
  (1147, ei_ebcdic1147);
  (1148, ei_ebcdic1148);
  (1149, ei_ebcdic1149);
  (1153, ei_ebcdic1153);
  (1154, ei_ebcdic1154);
  (1155, ei_ebcdic1155);
  (1156, ei_ebcdic1156);
  (1157, ei_ebcdic1157);
  (1158, ei_ebcdic1158);
  (1160, ei_ebcdic1160);
  (1164, ei_ebcdic1164);
  (1165, ei_ebcdic1165);
  (1166, ei_ebcdic1166);
  (4971, ei_ebcdic4971);
  (12712, ei_ebcdic12712);
  (16804, ei_ebcdic16804)].
