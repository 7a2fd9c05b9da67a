{
 "C01": {
  "note": "Proved for every pair of encodings except the target GB18030:2005, for which it is false: its encoder writes 4 bytes where it checked for 2 (C01_refuted*).",
  "status": "partial"
 },
 "C02": {
  "note": "Every pair of encodings except the target GB18030:2005 (C01_refuted).",
  "status": "proved"
 },
 "C03": {
  "note": "Every pair of encodings except the target GB18030:2005 (C01_refuted). static_size and convert: except when a character is held back and the buffer is exactly full, which is the undefined case of C14/C19.",
  "status": "proved"
 },
 "C04": {
  "note": "Every pair of encodings except the target GB18030:2005 (C01_refuted). For an unrepresentable character the two reported positions may differ by shift sequences; C04_same_stop says that the same text follows both.",
  "status": "proved"
 },
 "C05": {
  "note": "Every pair of encodings except the target GB18030:2005 (C01_refuted).",
  "status": "proved"
 },
 "C06": {
  "note": "Every pair of encodings except the target GB18030:2005 (C01_refuted). The constant is 16 bytes.",
  "status": "proved"
 },
 "C07": {
  "note": "Every pair of encodings except the target GB18030:2005 (C01_refuted).",
  "status": "proved"
 },
 "C08": {
  "note": "Every pair of encodings except the target GB18030:2005 (C01_refuted).",
  "status": "proved"
 },
 "C09": {
  "note": "Every pair of encodings except the target GB18030:2005 (C01_refuted).",
  "status": "proved"
 },
 "C10": {
  "note": "Every pair of encodings except the target GB18030:2005 (C01_refuted).",
  "status": "proved"
 },
 "C11": {
  "note": "False for sources with a byte order mark (C12_refuted); proved for all other sources, and the shift states are reset for all of them.",
  "status": "partial"
 },
 "C12": {
  "note": "The property is false: the byte order survives a reset.",
  "status": "partial"
 },
 "C13": {
  "note": "Every pair of encodings except the target GB18030:2005 (C01_refuted). The decoding half is proved where a round trip is (C31-C35, C38).",
  "status": "partial"
 },
 "C14": {
  "note": "False when no output space is left and a character is held back (C14_refuted, C14_refuted_abort); proved in all other cases.",
  "status": "partial"
 },
 "C15": {
  "note": "Every pair of encodings except the target GB18030:2005 (C01_refuted). Under the condition of C14.",
  "status": "proved"
 },
 "C16": {
  "note": "Every pair of encodings except the target GB18030:2005 (C01_refuted).",
  "status": "proved"
 },
 "C17": {
  "note": "Proved for success; false after a failure (C17_refuted).",
  "status": "partial"
 },
 "C18": {
  "note": "The buffer starts with the text and nothing behind the buffer is touched. That the rest inside the buffer is unchanged is false: a character that is left out may have been written in part (C18_rest_refuted).",
  "status": "partial"
 },
 "C19": {
  "note": "False for an empty buffer with a held back character (C19_refuted); proved otherwise.",
  "status": "partial"
 },
 "C20": {
  "note": "The property is false; C20_truncated_tail_is_dropped says what happens instead.",
  "status": "partial"
 },
 "C21": {
  "note": "False when a character at the end produces no output (C21_refuted); proved when every character produces output (plain).",
  "status": "partial"
 },
 "C22": {
  "note": "Proved for failures caused by the input; without memory the code writes through a null pointer (C22_no_memory_refuted).",
  "status": "partial"
 },
 "C23": {
  "note": "False for text that cannot be converted: std::length_error is thrown and the descriptor is lost (C23_bad_text, C23_refuted). Proved when every character is representable, for the encodings without byte order mark.",
  "status": "partial"
 },
 "C24": {
  "note": "For every C string, including those on which the lookup is undefined.",
  "status": "proved"
 },
 "C25": {
  "note": "Every index found is declared. Ten declared names are missing from the generated hash table (C25_complete_refuted); all others are found. Names of 7-bit characters with a canonical spelling of at most 40.",
  "status": "partial"
 },
 "C26": {
  "note": "False for canonical spellings longer than 40 characters and for bytes above 0x7f; proved for all other names.",
  "status": "partial"
 },
 "C27": {
  "note": "Proved for 0..65001; any other integer reads out of bounds (C27_refuted).",
  "status": "partial"
 },
 "C28": {
  "note": "For names and codepages on which the lookup is defined (C26, C27).",
  "status": "proved"
 },
 "C29": {
  "note": "Exact rule proved: //IGNORE at the end of fromcode, anywhere in tocode (C29_not_a_suffix shows that it need not be a suffix there).",
  "status": "partial"
 },
 "C30": {
  "note": "Against an independent definition of UTF-8 (UniSpec.v): what is consumed is exactly well-formed text, the characters are the ones written, errors only where no character starts; a truncated character gives EINVAL; well-formed text is never rejected. Finding: a byte that starts no character (F5) is reported as incomplete when it is last (C30_hopeless_start_is_incomplete).",
  "status": "proved"
 },
 "C31": {
  "note": "Output equals the independent definition of UTF-8; surrogates and values above 10FFFF are not written; the encoding is unique; round trip through every form that covers the source.",
  "status": "proved"
 },
 "C32": {
  "note": "UTF-16BE/LE, UTF-32BE/LE exact. UTF-16 and UTF-32: a mark selects the byte order anywhere in the text, big endian by default, written big endian with one mark, reads back. False: a U+FEFF inside the text is taken for a mark and lost (C32_inner_mark_refuted), U+FFFE cannot be written in UTF-16 (C32_fffe_refuted).",
  "status": "partial"
 },
 "C33": {
  "note": "UCS-2/UCS-4 BE, LE, INTERNAL, SWAPPED exact and round trip; UCS-2 and UCS-4: byte order marks anywhere, big endian by default, written without mark; UCS-4 reads back.",
  "status": "proved"
 },
 "C36": {
  "note": "All 137 stateless single-byte encodings (sb_tables in Tables.v), against the charmaps of tests/data; the combining single-byte encodings (CP1255, CP1258, TCVN) are under C38. Decoding never gives EINVAL; conversion is exactly what the charmaps say in both directions; irreversible pairs are the listed ones.",
  "status": "proved"
 },
 "C37": {
  "status": "partial",
  "note": "15 stateless multi-byte encodings (mb_tables in Tables.v), against the charmaps of tests/data; EUC-TW and the plain sets JISX0208, JISX0212, GB2312, KSC5601: a text written without loss is read back by every target (C37_cjk_reads_back). GB18030 (2022 edition) expresses every text and reads it back (C37_gb18030_*). False for GB18030 (2005 edition, C37_gb18030_2005_refuted) and for tag characters, which are dropped (C37_tag_refuted)."
 },
 "C40": {
  "note": "For every source and target with a proved contract, from a fresh descriptor and from any reachable corresponding states. Needs that the text is expressible in UTF-8 (shown necessary).",
  "status": "proved"
 },
 "C41": {
  "note": "For all pairs of encodings without shift state or held-back characters; shown false in general for shift states.",
  "status": "proved"
 },
 "C42": {
  "note": "For the listed ASCII supersets, with the bytes at which an encoding deviates from ASCII listed per encoding. UTF-7, GB18030, TDS565 and EBCDIC are outside the list.",
  "status": "proved"
 },
 "C43": {
  "note": "Every pair of encodings except the target GB18030:2005 (C01_refuted).",
  "status": "proved"
 },
 "C44": {
  "note": "The tables are those in the sources: snippet, generated C and C++ constants, all_encodings[]; the alias table is compared in C25.",
  "status": "proved"
 },
 "C34": {
  "note": "From any source: a text that converts to UTF-8 without loss can be written in UTF-7, is 7-bit, and converts onwards exactly like the original (to every target, with the same number of lost characters).",
  "status": "proved"
 },
 "C35": {
  "note": "From any source: a text that converts to UTF-8 without loss can be written as C99 or Java escapes; if it has no backslash it then converts onwards exactly like the original. Java output is 7-bit; C99 output is not (U+0080..U+009F are written as bytes: C35_c99_ascii_refuted). With backslashes the text need not come back (C35_backslash_refuted).",
  "status": "partial"
 },
 "C38": {
  "status": "partial",
  "note": "ISO-2022-KR, -CN, -CN-EXT, -JP, -JP-1, -JP-2, -JP-3, -JP-MS and HZ, EUC-JISX0213, Shift_JISX0213, the four BIG5-HKSCS, CP1255, CP1258 and TCVN, from any source: a text that is written without loss and has no steering character (ESC, SO, SI; the tilde in HZ), no combining mark that the reader joins (CP1255, CP1258, TCVN) and no language tag is read back as the same text, by every target. False with such characters (C38_hz_tilde_refuted, C38_escape_refuted, C38_cp1258_mark_refuted, C38_tcvn_accent_refuted) and for U+301D and part of the private use area in ISO-2022-JP-MS (C38_jpms_quote_refuted). All encodings of the property are covered; what is false is named."
 },
 "C39": {
  "status": "partial",
  "note": "181 encodings, those with byte order marks and shift states included (C39_each_call_all, C39_whole_text_all, C39_pivot_all): every character delivered by a call, by a whole text and by the second of two conversions is a scalar value. False for UCS-4 (above 10FFFF), UTF-7 (lone surrogate) and C99 (C39_ucs4_refuted, C39_utf7_refuted, C39_c99_refuted). Missing: the encodings that hold characters back."
 },
 "C45": {
  "status": "proved",
  "note": "For every environment; setlocale (LC_CTYPE, NULL) is assumed not to return NULL for the existence of a result. Platforms with nl_langinfo return what it returns."
 },
 "C46": {
  "status": "partial",
  "note": "Exact: holds for every code page the library knows except five misnamed ones (1258 is reported as VISCII, 949 as the bare set KS C 5601, 932 and 950 as SHIFT_JIS and BIG5 rather than CP932 and CP950, 38598 under a name that is not known) and those the switch does not list, which are reported as ASCII (C46_refuted)."
 },
 "C47": {
  "status": "partial",
  "note": "Windows: exact list of the code pages whose name is not accepted. Environment: every charset of the table, the default, and every codeset that is a documented name. Locales with a modifier are refuted: the modifier is reported as part of the charset, and no name with '@' is accepted."
 },
 "C48": {
  "status": "proved",
  "note": "C48_iconv, C48_result_size, C48_static_size and C48_convert hold for every descriptor, reachable or not, and also say that undefined behaviour or abort() occur alike. C48_bytes: the delivered bytes, for descriptors the library makes."
 }
}