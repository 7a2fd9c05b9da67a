(** The theorems proved about the properties of properties.jsonl, and what they rest on: one Print Assumptions
    for all of them together, so that what they share is traversed once. Generated by tools/genprops.py. *)
From Verif Require Import C_iconv C_api C_names C_cpp C_uni C_comb C_char C_round C_esc C_bom C_state C_scalar C_cjk C_gb18030 C_locale C_memory C_scalar2.

(** C_iconv.v *)
Definition props_C_iconv := (tt,
  @C01_iconv_memory_safe,
  @C02_iconv_accounting,
  @C03_iconv_terminates,
  @C04_input_cut_anywhere,
  @C04_unlimited_call,
  @C04_same_stop,
  @C05_E2BIG_loses_nothing,
  @C05_refill_ends,
  @C06_E2BIG_only_when_full,
  @C06_progress,
  @C07_EINVAL_incomplete_tail,
  @C07_EINVAL_resume,
  @C08_EILSEQ_output_exact,
  @C08_EILSEQ_again,
  @C09_discard_never_EILSEQ,
  @C09_discard_keeps_the_rest,
  @C10_count_of_lost_characters,
  @C10_zero_iff_all_representable,
  @C11_flush_resets_partial,
  @C11_null_resets_partial,
  @C11_flush_initial_states,
  @C13_text_and_flush,
  @C14_flush_memory_safe_partial,
  @C15_flush_again,
  @C15_flush_room,
  @C43_failed_write_keeps_state,
  @C01_refuted,
  @C01_refuted_abort,
  @C12_refuted,
  @C14_refuted,
  @C14_refuted_abort).

(** C_api.v *)
Definition props_C_api := (tt,
  @C03_result_size_terminates,
  @C03_static_size_terminates,
  @C16_result_size_exact,
  @C16_result_size_succeeds,
  @C16_converted_is_output,
  @C17_result_size_resets_partial,
  @C17_refuted,
  @C17_refuted_next_text,
  @C18_static_size_writes_text_partial,
  @C18_static_size_complete_partial,
  @C18_rest_refuted,
  @C18_static_size_succeeds,
  @C19_too_small_is_reported_partial,
  @C19_refuted,
  @C20_refuted,
  @C20_truncated_tail_is_dropped,
  @C21_convert_succeeds_partial,
  @C21_refuted,
  @C03_convert_terminates,
  @C22_failure_leaves_no_dangling_pointer,
  @C22_bad_text,
  @C22_no_place_for_the_result,
  @C22_no_memory_refuted).

(** C_names.v *)
Definition props_C_names := (tt,
  @C24_name_spelling,
  @C24_canonicalize,
  @C25_lookup_sound,
  @C25_lookup_complete_partial,
  @C25_complete_refuted,
  @C26_lookup_safe_partial,
  @C26_long_name_overflows,
  @C26_refuted_long,
  @C26_refuted_non_ascii,
  @C25_cpp_constructor,
  @C27_codepage_partial,
  @C27_declared_codepage,
  @C27_refuted,
  @C27_cpp_constructor,
  @C28_open_from_name,
  @C28_open_from_codepage,
  @C28_open_from_index,
  @C29_open,
  @C09_skips_one_code_unit,
  @C44_tables_agree,
  @C44_constants_declared,
  @C44_c_and_cpp_agree,
  @C44_every_index_declared).

(** C_cpp.v *)
Definition props_C_cpp := (tt,
  @C23_convert_returns_partial,
  @C23_right_or_thrown_partial,
  @C23_no_memory,
  @C23_agrees_with_c_partial,
  @C23_no_leak_partial,
  @C23_bad_text,
  @C23_refuted).

(** C_uni.v *)
Definition props_C_uni := (tt,
  @C30_utf8_decoding,
  @C30_utf8_incomplete,
  @C30_utf8_accepted,
  @C30_hopeless_start_is_incomplete,
  @C31_utf8_encoding,
  @C31_utf8_rejects,
  @C31_utf8_unique,
  @C31_utf8_round_trip,
  @C32_decoding,
  @C32_incomplete,
  @C32_transcoding,
  @C32_rejects,
  @C33_decoding,
  @C33_incomplete,
  @C33_transcoding,
  @C33_round_trip).

(** C_comb.v *)
Definition props_C_comb := (tt,
  @C40_pivot_in_any_state,
  @C40_utf8_pivot,
  @C41_concatenation,
  @C42_ascii_preserved,
  @C40_needs_scalar_values,
  @C41_not_for_shift_states).

(** C_char.v *)
Definition props_C_char := (tt,
  @C36_one_byte_per_character,
  @C36_decoding,
  @C36_conversion_from,
  @C36_conversion_to,
  @C36_there_and_back,
  @C36_bytes_and_back,
  @C37_decoding_partial,
  @C37_conversion_from_partial,
  @C37_conversion_to_partial,
  @C37_there_and_back_partial,
  @C37_bytes_and_back_partial).

(** C_round.v *)
Definition props_C_round := (tt,
  @C34_utf7_reads_back,
  @C34_utf7_expresses_everything,
  @C34_round_trip,
  @C34_utf7_is_ascii).

(** C_esc.v *)
Definition props_C_esc := (tt,
  @C35_escapes_read_back,
  @C35_escapes_express_everything,
  @C35_java_is_ascii,
  @C35_c99_bytes,
  @C35_c99_ascii_refuted,
  @C35_backslash_refuted).

(** C_bom.v *)
Definition props_C_bom := (tt,
  @C32_mark_selects_byte_order,
  @C32_default_is_big_endian,
  @C32_marks_anywhere,
  @C32_written_with_mark,
  @C32_reads_back,
  @C33_mark_selects_byte_order,
  @C33_default_is_big_endian,
  @C33_marks_anywhere,
  @C33_written_without_mark,
  @C33_ucs4_reads_back,
  @C32_inner_mark_refuted,
  @C32_fffe_refuted).

(** C_state.v *)
Definition props_C_state := (tt,
  @C38_escaped_reads_back,
  @C38_jpms_reads_back,
  @C38_escaped_round_trip,
  @C38_jpms_round_trip,
  @C38_hz_tilde_refuted,
  @C38_escape_refuted,
  @C38_jpms_quote_refuted).

(** C_scalar.v *)
Definition props_C_scalar := (tt,
  @C39_each_call,
  @C39_whole_text,
  @C39_pivot,
  @C39_ucs4_refuted,
  @C39_utf7_refuted,
  @C39_c99_refuted).

(** C_cjk.v *)
Definition props_C_cjk := (tt,
  @C37_cjk_reads_back,
  @C37_cjk_round_trip,
  @C37_tag_refuted,
  @C37_gb18030_2005_refuted,
  @C38_holding_reads_back,
  @C38_holding_round_trip,
  @C38_cp1258_mark_refuted,
  @C38_tcvn_accent_refuted).

(** C_gb18030.v *)
Definition props_C_gb18030 := (tt,
  @C37_gb18030_reads_back,
  @C37_gb18030_expresses_everything,
  @C37_gb18030_round_trip).

(** C_locale.v *)
Definition props_C_locale := (tt,
  @C45_locale_charset,
  @C45_locale_charset_safe,
  @C46_windows_charset_partial,
  @C46_refuted,
  @C46_other_code_pages,
  @C47_table_charsets,
  @C47_environment_partial,
  @C47_modifier_refuted,
  @C47_refuted,
  @C47_windows_names,
  @C47_always_utf8).

(** C_memory.v *)
Definition props_C_memory := (tt,
  @C48_iconv,
  @C48_bytes,
  @C48_result_size,
  @C48_static_size,
  @C48_convert).

(** C_scalar2.v *)
Definition props_C_scalar2 := (tt,
  @C39_each_call_all,
  @C39_whole_text_all,
  @C39_pivot_all).

Definition all_theorems := (tt, props_C_iconv, props_C_api, props_C_names, props_C_cpp, props_C_uni, props_C_comb, props_C_char, props_C_round, props_C_esc, props_C_bom, props_C_state, props_C_scalar, props_C_cjk, props_C_gb18030, props_C_locale, props_C_memory, props_C_scalar2).
Print Assumptions all_theorems.
