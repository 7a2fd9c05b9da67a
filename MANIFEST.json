{
 "claims": [
  {
   "property": "C01",
   "status": "partial",
   "theorems": [
    "C01_iconv_memory_safe",
    "C01_refuted",
    "C01_refuted_abort"
   ],
   "note": "Proved for every pair of encodings except the target GB18030:2005, for which it is false: its encoder writes 4 bytes where it checked for 2 (C01_refuted*)."
  },
  {
   "property": "C02",
   "status": "proved",
   "theorems": [
    "C02_iconv_accounting"
   ],
   "note": "Every pair of encodings except the target GB18030:2005 (C01_refuted)."
  },
  {
   "property": "C03",
   "status": "proved",
   "theorems": [
    "C03_result_size_terminates",
    "C03_static_size_terminates",
    "C03_convert_terminates",
    "C03_iconv_terminates"
   ],
   "note": "Every pair of encodings except the target GB18030:2005 (C01_refuted). static_size and convert: except when a character is held back and the buffer is exactly full, which is the undefined case of C14/C19."
  },
  {
   "property": "C04",
   "status": "proved",
   "theorems": [
    "C04_input_cut_anywhere",
    "C04_unlimited_call",
    "C04_same_stop"
   ],
   "note": "Every pair of encodings except the target GB18030:2005 (C01_refuted). For an unrepresentable character the two reported positions may differ by shift sequences; C04_same_stop says that the same text follows both."
  },
  {
   "property": "C05",
   "status": "proved",
   "theorems": [
    "C05_E2BIG_loses_nothing",
    "C05_refill_ends"
   ],
   "note": "Every pair of encodings except the target GB18030:2005 (C01_refuted)."
  },
  {
   "property": "C06",
   "status": "proved",
   "theorems": [
    "C06_E2BIG_only_when_full",
    "C06_progress"
   ],
   "note": "Every pair of encodings except the target GB18030:2005 (C01_refuted). The constant is 16 bytes."
  },
  {
   "property": "C07",
   "status": "proved",
   "theorems": [
    "C07_EINVAL_incomplete_tail",
    "C07_EINVAL_resume"
   ],
   "note": "Every pair of encodings except the target GB18030:2005 (C01_refuted)."
  },
  {
   "property": "C08",
   "status": "proved",
   "theorems": [
    "C08_EILSEQ_output_exact",
    "C08_EILSEQ_again"
   ],
   "note": "Every pair of encodings except the target GB18030:2005 (C01_refuted)."
  },
  {
   "property": "C09",
   "status": "proved",
   "theorems": [
    "C09_discard_never_EILSEQ",
    "C09_discard_keeps_the_rest",
    "C09_skips_one_code_unit"
   ],
   "note": "Every pair of encodings except the target GB18030:2005 (C01_refuted)."
  },
  {
   "property": "C10",
   "status": "proved",
   "theorems": [
    "C10_count_of_lost_characters",
    "C10_zero_iff_all_representable"
   ],
   "note": "Every pair of encodings except the target GB18030:2005 (C01_refuted)."
  },
  {
   "property": "C11",
   "status": "partial",
   "theorems": [
    "C11_flush_resets_partial",
    "C11_null_resets_partial",
    "C11_flush_initial_states"
   ],
   "note": "False for sources with a byte order mark (C12_refuted); proved for all other sources, and the shift states are reset for all of them."
  },
  {
   "property": "C12",
   "status": "partial",
   "theorems": [
    "C12_refuted"
   ],
   "note": "The property is false: the byte order survives a reset."
  },
  {
   "property": "C13",
   "status": "partial",
   "theorems": [
    "C13_text_and_flush"
   ],
   "note": "Every pair of encodings except the target GB18030:2005 (C01_refuted). The decoding half is proved where a round trip is (C31-C35, C38)."
  },
  {
   "property": "C14",
   "status": "partial",
   "theorems": [
    "C14_flush_memory_safe_partial",
    "C14_refuted",
    "C14_refuted_abort"
   ],
   "note": "False when no output space is left and a character is held back (C14_refuted, C14_refuted_abort); proved in all other cases."
  },
  {
   "property": "C15",
   "status": "proved",
   "theorems": [
    "C15_flush_again",
    "C15_flush_room"
   ],
   "note": "Every pair of encodings except the target GB18030:2005 (C01_refuted). Under the condition of C14."
  },
  {
   "property": "C16",
   "status": "proved",
   "theorems": [
    "C16_result_size_exact",
    "C16_result_size_succeeds",
    "C16_converted_is_output"
   ],
   "note": "Every pair of encodings except the target GB18030:2005 (C01_refuted)."
  },
  {
   "property": "C17",
   "status": "partial",
   "theorems": [
    "C17_result_size_resets_partial",
    "C17_refuted",
    "C17_refuted_next_text"
   ],
   "note": "Proved for success; false after a failure (C17_refuted)."
  },
  {
   "property": "C18",
   "status": "partial",
   "theorems": [
    "C18_static_size_writes_text_partial",
    "C18_static_size_complete_partial",
    "C18_rest_refuted",
    "C18_static_size_succeeds"
   ],
   "note": "The buffer starts with the text and nothing behind the buffer is touched. That the rest inside the buffer is unchanged is false: a character that is left out may have been written in part (C18_rest_refuted)."
  },
  {
   "property": "C19",
   "status": "partial",
   "theorems": [
    "C19_too_small_is_reported_partial",
    "C19_refuted"
   ],
   "note": "False for an empty buffer with a held back character (C19_refuted); proved otherwise."
  },
  {
   "property": "C20",
   "status": "partial",
   "theorems": [
    "C20_refuted",
    "C20_truncated_tail_is_dropped"
   ],
   "note": "The property is false; C20_truncated_tail_is_dropped says what happens instead."
  },
  {
   "property": "C21",
   "status": "partial",
   "theorems": [
    "C21_convert_succeeds_partial",
    "C21_refuted"
   ],
   "note": "False when a character at the end produces no output (C21_refuted); proved when every character produces output (plain)."
  },
  {
   "property": "C22",
   "status": "partial",
   "theorems": [
    "C22_failure_leaves_no_dangling_pointer",
    "C22_bad_text",
    "C22_no_place_for_the_result",
    "C22_no_memory_refuted"
   ],
   "note": "Proved for failures caused by the input; without memory the code writes through a null pointer (C22_no_memory_refuted)."
  },
  {
   "property": "C23",
   "status": "partial",
   "theorems": [
    "C23_convert_returns_partial",
    "C23_right_or_thrown_partial",
    "C23_no_memory",
    "C23_agrees_with_c_partial",
    "C23_no_leak_partial",
    "C23_bad_text",
    "C23_refuted"
   ],
   "note": "False for text that cannot be converted: std::length_error is thrown and the descriptor is lost (C23_bad_text, C23_refuted). Proved when every character is representable, for the encodings without byte order mark."
  },
  {
   "property": "C24",
   "status": "proved",
   "theorems": [
    "C24_name_spelling",
    "C24_canonicalize"
   ],
   "note": "For every C string, including those on which the lookup is undefined."
  },
  {
   "property": "C25",
   "status": "partial",
   "theorems": [
    "C25_lookup_sound",
    "C25_lookup_complete_partial",
    "C25_complete_refuted",
    "C25_cpp_constructor"
   ],
   "note": "Every index found is declared. Ten declared names are missing from the generated hash table (C25_complete_refuted); all others are found. Names of 7-bit characters with a canonical spelling of at most 40."
  },
  {
   "property": "C26",
   "status": "partial",
   "theorems": [
    "C26_lookup_safe_partial",
    "C26_long_name_overflows",
    "C26_refuted_long",
    "C26_refuted_non_ascii"
   ],
   "note": "False for canonical spellings longer than 40 characters and for bytes above 0x7f; proved for all other names."
  },
  {
   "property": "C27",
   "status": "partial",
   "theorems": [
    "C27_codepage_partial",
    "C27_declared_codepage",
    "C27_refuted",
    "C27_cpp_constructor"
   ],
   "note": "Proved for 0..65001; any other integer reads out of bounds (C27_refuted)."
  },
  {
   "property": "C28",
   "status": "proved",
   "theorems": [
    "C28_open_from_name",
    "C28_open_from_codepage",
    "C28_open_from_index"
   ],
   "note": "For names and codepages on which the lookup is defined (C26, C27)."
  },
  {
   "property": "C29",
   "status": "partial",
   "theorems": [
    "C29_open"
   ],
   "note": "Exact rule proved: //IGNORE at the end of fromcode, anywhere in tocode (C29_not_a_suffix shows that it need not be a suffix there)."
  },
  {
   "property": "C30",
   "status": "proved",
   "theorems": [
    "C30_utf8_decoding",
    "C30_utf8_incomplete",
    "C30_utf8_accepted",
    "C30_hopeless_start_is_incomplete"
   ],
   "note": "Against an independent definition of UTF-8 (UniSpec.v): what is consumed is exactly well-formed text, the characters are the ones written, errors only where no character starts; a truncated character gives EINVAL; well-formed text is never rejected. Finding: a byte that starts no character (F5) is reported as incomplete when it is last (C30_hopeless_start_is_incomplete)."
  },
  {
   "property": "C31",
   "status": "proved",
   "theorems": [
    "C31_utf8_encoding",
    "C31_utf8_rejects",
    "C31_utf8_unique",
    "C31_utf8_round_trip"
   ],
   "note": "Output equals the independent definition of UTF-8; surrogates and values above 10FFFF are not written; the encoding is unique; round trip through every form that covers the source."
  },
  {
   "property": "C32",
   "status": "partial",
   "theorems": [
    "C32_mark_selects_byte_order",
    "C32_default_is_big_endian",
    "C32_marks_anywhere",
    "C32_written_with_mark",
    "C32_reads_back",
    "C32_inner_mark_refuted",
    "C32_fffe_refuted",
    "C32_decoding",
    "C32_incomplete",
    "C32_transcoding",
    "C32_rejects"
   ],
   "note": "UTF-16BE/LE, UTF-32BE/LE exact. UTF-16 and UTF-32: a mark selects the byte order anywhere in the text, big endian by default, written big endian with one mark, reads back. False: a U+FEFF inside the text is taken for a mark and lost (C32_inner_mark_refuted), U+FFFE cannot be written in UTF-16 (C32_fffe_refuted)."
  },
  {
   "property": "C33",
   "status": "proved",
   "theorems": [
    "C33_mark_selects_byte_order",
    "C33_default_is_big_endian",
    "C33_marks_anywhere",
    "C33_written_without_mark",
    "C33_ucs4_reads_back",
    "C33_decoding",
    "C33_incomplete",
    "C33_transcoding",
    "C33_round_trip"
   ],
   "note": "UCS-2/UCS-4 BE, LE, INTERNAL, SWAPPED exact and round trip; UCS-2 and UCS-4: byte order marks anywhere, big endian by default, written without mark; UCS-4 reads back."
  },
  {
   "property": "C34",
   "status": "proved",
   "theorems": [
    "C34_utf7_reads_back",
    "C34_utf7_expresses_everything",
    "C34_round_trip",
    "C34_utf7_is_ascii"
   ],
   "note": "From any source: a text that converts to UTF-8 without loss can be written in UTF-7, is 7-bit, and converts onwards exactly like the original (to every target, with the same number of lost characters)."
  },
  {
   "property": "C35",
   "status": "partial",
   "theorems": [
    "C35_escapes_read_back",
    "C35_escapes_express_everything",
    "C35_java_is_ascii",
    "C35_c99_bytes",
    "C35_c99_ascii_refuted",
    "C35_backslash_refuted"
   ],
   "note": "From any source: a text that converts to UTF-8 without loss can be written as C99 or Java escapes; if it has no backslash it then converts onwards exactly like the original. Java output is 7-bit; C99 output is not (U+0080..U+009F are written as bytes: C35_c99_ascii_refuted). With backslashes the text need not come back (C35_backslash_refuted)."
  },
  {
   "property": "C36",
   "status": "proved",
   "theorems": [
    "C36_one_byte_per_character",
    "C36_decoding",
    "C36_conversion_from",
    "C36_conversion_to",
    "C36_there_and_back",
    "C36_bytes_and_back"
   ],
   "note": "All 137 stateless single-byte encodings (sb_tables in Tables.v), against the charmaps of tests/data; the combining single-byte encodings (CP1255, CP1258, TCVN) are under C38. Decoding never gives EINVAL; conversion is exactly what the charmaps say in both directions; irreversible pairs are the listed ones."
  },
  {
   "property": "C37",
   "status": "partial",
   "theorems": [
    "C37_decoding_partial",
    "C37_conversion_from_partial",
    "C37_conversion_to_partial",
    "C37_there_and_back_partial",
    "C37_bytes_and_back_partial",
    "C37_cjk_reads_back",
    "C37_cjk_round_trip",
    "C37_tag_refuted",
    "C37_gb18030_2005_refuted",
    "C37_gb18030_reads_back",
    "C37_gb18030_expresses_everything",
    "C37_gb18030_round_trip"
   ],
   "note": "15 stateless multi-byte encodings (mb_tables in Tables.v), against the charmaps of tests/data; EUC-TW and the plain sets JISX0208, JISX0212, GB2312, KSC5601: a text written without loss is read back by every target (C37_cjk_reads_back). GB18030 (2022 edition) expresses every text and reads it back (C37_gb18030_*). False for GB18030 (2005 edition, C37_gb18030_2005_refuted) and for tag characters, which are dropped (C37_tag_refuted)."
  },
  {
   "property": "C38",
   "status": "partial",
   "theorems": [
    "C38_holding_reads_back",
    "C38_holding_round_trip",
    "C38_cp1258_mark_refuted",
    "C38_tcvn_accent_refuted",
    "C38_escaped_reads_back",
    "C38_jpms_reads_back",
    "C38_escaped_round_trip",
    "C38_jpms_round_trip",
    "C38_hz_tilde_refuted",
    "C38_escape_refuted",
    "C38_jpms_quote_refuted"
   ],
   "note": "ISO-2022-KR, -CN, -CN-EXT, -JP, -JP-1, -JP-2, -JP-3, -JP-MS and HZ, EUC-JISX0213, Shift_JISX0213, the four BIG5-HKSCS, CP1255, CP1258 and TCVN, from any source: a text that is written without loss and has no steering character (ESC, SO, SI; the tilde in HZ), no combining mark that the reader joins (CP1255, CP1258, TCVN) and no language tag is read back as the same text, by every target. False with such characters (C38_hz_tilde_refuted, C38_escape_refuted, C38_cp1258_mark_refuted, C38_tcvn_accent_refuted) and for U+301D and part of the private use area in ISO-2022-JP-MS (C38_jpms_quote_refuted). All encodings of the property are covered; what is false is named."
  },
  {
   "property": "C39",
   "status": "partial",
   "theorems": [
    "C39_each_call",
    "C39_whole_text",
    "C39_pivot",
    "C39_ucs4_refuted",
    "C39_utf7_refuted",
    "C39_c99_refuted",
    "C39_each_call_all",
    "C39_whole_text_all",
    "C39_pivot_all"
   ],
   "note": "181 encodings, those with byte order marks and shift states included (C39_each_call_all, C39_whole_text_all, C39_pivot_all): every character delivered by a call, by a whole text and by the second of two conversions is a scalar value. False for UCS-4 (above 10FFFF), UTF-7 (lone surrogate) and C99 (C39_ucs4_refuted, C39_utf7_refuted, C39_c99_refuted). Missing: the encodings that hold characters back."
  },
  {
   "property": "C40",
   "status": "proved",
   "theorems": [
    "C40_pivot_in_any_state",
    "C40_utf8_pivot",
    "C40_needs_scalar_values"
   ],
   "note": "For every source and target with a proved contract, from a fresh descriptor and from any reachable corresponding states. Needs that the text is expressible in UTF-8 (shown necessary)."
  },
  {
   "property": "C41",
   "status": "proved",
   "theorems": [
    "C41_concatenation",
    "C41_not_for_shift_states"
   ],
   "note": "For all pairs of encodings without shift state or held-back characters; shown false in general for shift states."
  },
  {
   "property": "C42",
   "status": "proved",
   "theorems": [
    "C42_ascii_preserved"
   ],
   "note": "For the listed ASCII supersets, with the bytes at which an encoding deviates from ASCII listed per encoding. UTF-7, GB18030, TDS565 and EBCDIC are outside the list."
  },
  {
   "property": "C43",
   "status": "proved",
   "theorems": [
    "C43_failed_write_keeps_state"
   ],
   "note": "Every pair of encodings except the target GB18030:2005 (C01_refuted)."
  },
  {
   "property": "C44",
   "status": "proved",
   "theorems": [
    "C44_tables_agree",
    "C44_constants_declared",
    "C44_c_and_cpp_agree",
    "C44_every_index_declared"
   ],
   "note": "The tables are those in the sources: snippet, generated C and C++ constants, all_encodings[]; the alias table is compared in C25."
  },
  {
   "property": "C45",
   "status": "proved",
   "theorems": [
    "C45_locale_charset",
    "C45_locale_charset_safe"
   ],
   "note": "For every environment; setlocale (LC_CTYPE, NULL) is assumed not to return NULL for the existence of a result. Platforms with nl_langinfo return what it returns."
  },
  {
   "property": "C46",
   "status": "partial",
   "theorems": [
    "C46_windows_charset_partial",
    "C46_refuted",
    "C46_other_code_pages"
   ],
   "note": "Exact: holds for every code page the library knows except five misnamed ones (1258 is reported as VISCII, 949 as the bare set KS C 5601, 932 and 950 as SHIFT_JIS and BIG5 rather than CP932 and CP950, 38598 under a name that is not known) and those the switch does not list, which are reported as ASCII (C46_refuted)."
  },
  {
   "property": "C47",
   "status": "partial",
   "theorems": [
    "C47_table_charsets",
    "C47_environment_partial",
    "C47_modifier_refuted",
    "C47_refuted",
    "C47_windows_names",
    "C47_always_utf8"
   ],
   "note": "Windows: exact list of the code pages whose name is not accepted. Environment: every charset of the table, the default, and every codeset that is a documented name. Locales with a modifier are refuted: the modifier is reported as part of the charset, and no name with '@' is accepted."
  },
  {
   "property": "C48",
   "status": "proved",
   "theorems": [
    "C48_iconv",
    "C48_bytes",
    "C48_result_size",
    "C48_static_size",
    "C48_convert"
   ],
   "note": "C48_iconv, C48_result_size, C48_static_size and C48_convert hold for every descriptor, reachable or not, and also say that undefined behaviour or abort() occur alike. C48_bytes: the delivered bytes, for descriptors the library makes."
  }
 ]
}
