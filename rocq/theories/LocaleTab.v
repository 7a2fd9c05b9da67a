(** Generated by tools/genlocale.py from lib/localecharset/locale_table.h and lib/localecharset/windows_getcp.h. *)
From Coq Require Import ZArith List String.
Import ListNotations.
Open Scope Z_scope.
Local Open Scope string_scope.

(** locale_table.h:36-108 locale_table[] (the FreeBSD branch): the members locale and canonical. *)
Definition locale_table : list (string * string) := [
  ("cs_CZ.ISO_8859-2", "ISO-8859-2");
  ("da_DK.DIS_8859-15", "ISO-8859-15");
  ("da_DK.ISO_8859-1", "ISO-8859-1");
  ("de_AT.DIS_8859-15", "ISO-8859-15");
  ("de_AT.ISO_8859-1", "ISO-8859-1");
  ("de_CH.DIS_8859-15", "ISO-8859-15");
  ("de_CH.ISO_8859-1", "ISO-8859-1");
  ("de_DE.DIS_8859-15", "ISO-8859-15");
  ("de_DE.ISO_8859-1", "ISO-8859-1");
  ("en_AU.DIS_8859-15", "ISO-8859-15");
  ("en_AU.ISO_8859-1", "ISO-8859-1");
  ("en_CA.DIS_8859-15", "ISO-8859-15");
  ("en_CA.ISO_8859-1", "ISO-8859-1");
  ("en_GB.DIS_8859-15", "ISO-8859-15");
  ("en_GB.ISO_8859-1", "ISO-8859-1");
  ("en_US.DIS_8859-15", "ISO-8859-15");
  ("en_US.ISO_8859-1", "ISO-8859-1");
  ("es_ES.DIS_8859-15", "ISO-8859-15");
  ("es_ES.ISO_8859-1", "ISO-8859-1");
  ("fi_FI.DIS_8859-15", "ISO-8859-15");
  ("fi_FI.ISO_8859-1", "ISO-8859-1");
  ("fr_BE.DIS_8859-15", "ISO-8859-15");
  ("fr_BE.ISO_8859-1", "ISO-8859-1");
  ("fr_CA.DIS_8859-15", "ISO-8859-15");
  ("fr_CA.ISO_8859-1", "ISO-8859-1");
  ("fr_CH.DIS_8859-15", "ISO-8859-15");
  ("fr_CH.ISO_8859-1", "ISO-8859-1");
  ("fr_FR.DIS_8859-15", "ISO-8859-15");
  ("fr_FR.ISO_8859-1", "ISO-8859-1");
  ("hr_HR.ISO_8859-2", "ISO-8859-2");
  ("hu_HU.ISO_8859-2", "ISO-8859-2");
  ("is_IS.DIS_8859-15", "ISO-8859-15");
  ("is_IS.ISO_8859-1", "ISO-8859-1");
  ("it_CH.DIS_8859-15", "ISO-8859-15");
  ("it_CH.ISO_8859-1", "ISO-8859-1");
  ("it_IT.DIS_8859-15", "ISO-8859-15");
  ("it_IT.ISO_8859-1", "ISO-8859-1");
  ("ja_JP.EUC", "EUC-JP");
  ("ja_JP.SJIS", "SHIFT_JIS");
  ("ja_JP.Shift_JIS", "SHIFT_JIS");
  ("ko_KR.EUC", "EUC-KR");
  ("la_LN.ASCII", "ASCII");
  ("la_LN.DIS_8859-15", "ISO-8859-15");
  ("la_LN.ISO_8859-1", "ISO-8859-1");
  ("la_LN.ISO_8859-2", "ISO-8859-2");
  ("la_LN.ISO_8859-4", "ISO-8859-4");
  ("lt_LN.ASCII", "ASCII");
  ("lt_LN.DIS_8859-15", "ISO-8859-15");
  ("lt_LN.ISO_8859-1", "ISO-8859-1");
  ("lt_LN.ISO_8859-2", "ISO-8859-2");
  ("lt_LT.ISO_8859-4", "ISO-8859-4");
  ("nl_BE.DIS_8859-15", "ISO-8859-15");
  ("nl_BE.ISO_8859-1", "ISO-8859-1");
  ("nl_NL.DIS_8859-15", "ISO-8859-15");
  ("nl_NL.ISO_8859-1", "ISO-8859-1");
  ("no_NO.DIS_8859-15", "ISO-8859-15");
  ("no_NO.ISO_8859-1", "ISO-8859-1");
  ("pl_PL.ISO_8859-2", "ISO-8859-2");
  ("pt_PT.DIS_8859-15", "ISO-8859-15");
  ("pt_PT.ISO_8859-1", "ISO-8859-1");
  ("ru_RU.CP866", "CP866");
  ("ru_RU.ISO_8859-5", "ISO-8859-5");
  ("ru_RU.KOI8-R", "KOI8-R");
  ("ru_SU.CP866", "CP866");
  ("ru_SU.ISO_8859-5", "ISO-8859-5");
  ("ru_SU.KOI8-R", "KOI8-R");
  ("sl_SI.ISO_8859-2", "ISO-8859-2");
  ("sv_SE.DIS_8859-15", "ISO-8859-15");
  ("sv_SE.ISO_8859-1", "ISO-8859-1");
  ("uk_UA.KOI8-U", "KOI8-U");
  ("zh_CN.EUC", "GB2312");
  ("zh_TW.BIG5", "BIG5");
  ("zh_TW.Big5", "BIG5")].

(** windows_getcp.h:42-341 the cases of the switch and the strings they return. *)
Definition windows_cases : list (Z * string) := [
  (65001, "UTF-8");
  (1200, "UCS2-LE");
  (1201, "UNICODE11");
  (12000, "UCS4-LE");
  (12001, "UCS4-BE");
  (65000, "UTF-7");
  (936, "CP936");
  (950, "BIG5");
  (10002, "X-MAC-CHINESETRAD");
  (10008, "X-MAC-CHINESESIMP");
  (20000, "X-CHINESE_CNS");
  (20002, "X_CHINESE-ETEN");
  (20936, "X-CP20936");
  (50227, "ISO-2022-CN");
  (51936, "EUC-CN");
  (52936, "HZ-GB-2312");
  (54936, "GB18030");
  (932, "SHIFT_JIS");
  (10001, "X-MAC-JAPANESE");
  (20290, "IBM290");
  (20932, "EUC-JP");
  (50220, "ISO-2022-JP");
  (50221, "ISO-2022-JP-MS");
  (50222, "ISO-2022-JP");
  (51932, "EUC-JP");
  (949, "KS_C_5601-1987");
  (1361, "JOHAB");
  (10003, "X-MAC-KOREAN");
  (20833, "X-EBCDIC-KOREANEXTENDED");
  (20949, "X-CP20949");
  (50225, "ISO-2022-KR");
  (51949, "EUC-KR");
  (37, "IBM037");
  (437, "IBM437");
  (500, "IBM500");
  (708, "ASMO-708");
  (720, "DOS-720");
  (737, "IBM737");
  (775, "IBM775");
  (850, "IBM850");
  (852, "IBM852");
  (855, "IBM855");
  (857, "IBM857");
  (858, "IBM00858");
  (860, "IBM860");
  (861, "IBM861");
  (862, "DOS-862");
  (863, "IBM863");
  (864, "IBM864");
  (865, "IBM865");
  (866, "CP866");
  (869, "IBM869");
  (870, "IBM870");
  (874, "WINDOWS-874");
  (875, "CP875");
  (1026, "IBM1026");
  (1140, "IBM1140");
  (1141, "IBM01141");
  (1142, "IBM01142");
  (1143, "IBM01143");
  (1144, "IBM01144");
  (1145, "IBM01145");
  (1146, "IBM01146");
  (1147, "IBM01147");
  (1148, "IBM01148");
  (1149, "IBM01149");
  (1250, "WINDOWS-1250");
  (1251, "WINDOWS-1251");
  (1252, "WINDOWS-1252");
  (1253, "WINDOWS-1253");
  (1254, "WINDOWS-1254");
  (1255, "WINDOWS-1255");
  (1256, "WINDOWS-1256");
  (1257, "WINDOWS-1257");
  (1258, "VISCII");
  (10000, "MACINTOSH");
  (10004, "X-MAC-ARABIC");
  (10005, "X-MAC-HEBREW");
  (10006, "X-MAC-GREEK");
  (10007, "X-MAC-CYRILLIC");
  (10010, "X-MAC-ROMANIAN");
  (10017, "X-MAC-UKRAINIAN");
  (10021, "X-MAC-THAI");
  (10029, "X-MAC-CE");
  (10079, "X-MAC-ICELANDIC");
  (10081, "X-MAC-TURKISH");
  (10082, "X-MAC-CROATIAN");
  (20001, "X-CP20001");
  (20003, "X-CP20003");
  (20004, "X-CP20004");
  (20005, "X-CP20005");
  (20105, "X-IA5");
  (20106, "X-IA5-GERMAN");
  (20107, "X-IA5-SWEDISH");
  (20108, "X-IA5-NORWEGIAN");
  (20127, "CP20127");
  (20261, "X-CP20261");
  (20269, "X-CP20269");
  (20273, "IBM273");
  (20277, "IBM277");
  (20278, "IBM278");
  (20280, "IBM280");
  (20284, "IBM284");
  (20285, "IBM285");
  (20297, "IBM297");
  (20420, "IBM420");
  (20423, "IBM423");
  (20424, "IBM424");
  (20866, "KOI8-R");
  (20871, "IBM871");
  (20880, "IBM880");
  (20905, "IBM905");
  (20924, "IBM00924");
  (21025, "CP1025");
  (21866, "KOI8-RU");
  (28591, "ISO-8859-1");
  (28592, "ISO-8859-2");
  (28593, "ISO-8859-3");
  (28594, "ISO-8859-4");
  (28595, "ISO-8859-5");
  (28596, "ISO-8859-6");
  (28597, "ISO-8859-7");
  (28598, "ISO-8859-8");
  (28599, "ISO-8859-9");
  (28603, "ISO-8859-13");
  (28605, "ISO-8859-15");
  (29001, "X-EUROPA");
  (38598, "ISO-8859-8-I");
  (57002, "X-ISCII-DE");
  (57003, "X-ISCII-BE");
  (57004, "X-ISCII-TA");
  (57005, "X-ISCII-TE");
  (57006, "X-ISCII-AS");
  (57007, "X-ISCII-OR");
  (57008, "X-ISCII-KA");
  (57009, "X-ISCII-MA");
  (57010, "X-ISCII-GU");
  (57011, "X-ISCII-PA")].
(** windows_getcp.h:342-343 the default case. *)
Definition windows_default : string := "ASCII".
