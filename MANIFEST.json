{
 "claims": [
  {
   "property": "C01",
   "status": "proved",
   "theorems": [
    "c01_sblist_refines_list",
    "c01_big_items_default_block_refuted"
   ],
   "note": "Proved for every history with blockitems>=1, or 0 with itemsize<=4096; the blockitems=0 default with larger items is outside the property's quantifier and shown broken by c01_big_items_default_block_refuted."
  },
  {
   "property": "C02",
   "status": "proved",
   "theorems": [
    "c02_oom_leaves_list_unchanged",
    "c02_size_wrap_refuted"
   ],
   "note": "Memory safety is the Ret outcome in c01_sblist_refines_list; OOM atomicity in c02_oom_leaves_list_unchanged. The size hypothesis is necessary: c02_size_wrap_refuted."
  },
  {
   "property": "C03",
   "status": "proved",
   "theorems": [
    "c03_insert_sorted",
    "c03_insert_sorted_r"
   ],
   "note": "Also terminates and stays in bounds for arbitrary comparators."
  },
  {
   "property": "C04",
   "status": "proved",
   "theorems": [
    "c04_bsearch",
    "c04_bsearch_r"
   ],
   "note": ""
  },
  {
   "property": "C05",
   "status": "partial",
   "theorems": [
    "c05_new_from_data_reads",
    "c05_growable_after_set_blockitems_partial",
    "c05_add_after_new_from_data_refuted"
   ],
   "note": "Reading proved; growth refuted for the documented use, proved after sblist_set_blockitems."
  },
  {
   "property": "C06",
   "status": "partial",
   "theorems": [
    "c06_free_values_frees_item_addresses",
    "c06_free_values_refuted",
    "c06_free_items"
   ],
   "note": "Refuted; the freed addresses are characterised for every list."
  },
  {
   "property": "C07",
   "status": "proved",
   "theorems": [
    "c07_iteration_visits_all",
    "c07_delete_while_iterating"
   ],
   "note": ""
  },
  {
   "property": "C08",
   "status": "proved",
   "theorems": [
    "c08_tglist_refines_list"
   ],
   "note": ""
  },
  {
   "property": "C09",
   "status": "proved",
   "theorems": [
    "c09_store_exact",
    "c09_store_size",
    "c09_tgilist_refines_list",
    "c09_values_never_move",
    "c09_index_type_overflow_refuted"
   ],
   "note": "The number of insertions is bounded by the index type, as the property says; c09_index_type_overflow_refuted shows what happens beyond. c09_store_exact gives the content of both internal lists."
  },
  {
   "property": "C10",
   "status": "proved",
   "theorems": [
    "c10_bmap_is_map_tglist",
    "c10_bmap_is_map_tgilist"
   ],
   "note": ""
  },
  {
   "property": "C11",
   "status": "partial",
   "theorems": [
    "c11_bmap_insert_failure_partial",
    "c11_bmap_insert_nocheck_failure",
    "c11_bmap_insert_nocheck_failure_tgilist",
    "c11_bmap_insert_failure_refuted"
   ],
   "note": "The map is unchanged in every case. bmap_insert_nocheck reports every failure; bmap_insert does except when the value list cannot grow, where it returns an index although nothing was stored (refuted)."
  },
  {
   "property": "C12",
   "status": "proved",
   "theorems": [
    "c12_hbmap_is_map_tglist",
    "c12_hbmap_is_map_tgilist",
    "c12_hbmap_insert_result"
   ],
   "note": ""
  },
  {
   "property": "C13",
   "status": "proved",
   "theorems": [
    "c13_foreach_visits_each_once",
    "c13_delete_loop_empties"
   ],
   "note": ""
  },
  {
   "property": "C14",
   "status": "proved",
   "theorems": [
    "c14_tlist_refines_list",
    "c14_tlist_free_releases_all"
   ],
   "note": ""
  },
  {
   "property": "C15",
   "status": "proved",
   "theorems": [
    "c15_tlist_is_treap"
   ],
   "note": ""
  },
  {
   "property": "C16",
   "status": "partial",
   "theorems": [
    "c16_free_items_deep_frees_interior_refuted",
    "c16_free_deep_frees_interior_refuted",
    "c16_get_out_of_range_partial",
    "c16_get_out_of_range_refuted",
    "c16_delete_deep_frees_interior_refuted"
   ],
   "note": "A wrong index below 2^32 is distinguishable from every item; NULL is refuted, and so is every index from 2^32 on, which wraps. tlist_delete_deep, tlist_free_items_deep and tlist_free_deep are refuted for every list: an address inside each item block reaches free."
  },
  {
   "property": "C17",
   "status": "proved",
   "theorems": [
    "c17_hashlist_get"
   ],
   "note": ""
  },
  {
   "property": "C18",
   "status": "partial",
   "theorems": [
    "c18_iteration_any",
    "c18_none_lost",
    "c18_hashlist_iteration",
    "c18_empty_bucket_refuted"
   ],
   "note": "Proved whenever no allocation failed while adding. c18_iteration_any gives the exact sequence for every pattern of failures: one NULL for each bucket left empty by a failed addition, so the iteration can end early (refuted), but no stored value is lost (c18_none_lost)."
  },
  {
   "property": "C19",
   "status": "proved",
   "theorems": [
    "c19_find_first",
    "c19_kv_find_first"
   ],
   "note": ""
  },
  {
   "property": "C20",
   "status": "proved",
   "theorems": [
    "c20_splitc",
    "c20_only_delimiters_change"
   ],
   "note": ""
  },
  {
   "property": "C21",
   "status": "proved",
   "theorems": [
    "c21_splits",
    "c21_empty_delimiter_hangs"
   ],
   "note": ""
  },
  {
   "property": "C22",
   "status": "proved",
   "theorems": [
    "c22_replace"
   ],
   "note": ""
  },
  {
   "property": "C23",
   "status": "proved",
   "theorems": [
    "c23_contains",
    "c23_here",
    "c23_empty_needle_everywhere",
    "c23_here_beyond_end_reads_outside"
   ],
   "note": ""
  },
  {
   "property": "C24",
   "status": "proved",
   "theorems": [
    "c24_chomp",
    "c24_chomp_split_exists",
    "c24_shiftleft",
    "c24_shiftright",
    "c24_shift_too_far"
   ],
   "note": ""
  },
  {
   "property": "C25",
   "status": "proved",
   "theorems": [
    "c25_rchr",
    "c25_rchr_not_a_char",
    "c25_getfilename"
   ],
   "note": ""
  },
  {
   "property": "C26",
   "status": "proved",
   "theorems": [
    "c26_hash_is_elf_hash",
    "c26_hash_range"
   ],
   "note": ""
  },
  {
   "property": "C27",
   "status": "proved",
   "theorems": [
    "c27_eq",
    "c27_eq_null",
    "c27_concat",
    "c27_copy",
    "c27_strdup",
    "c27_tostring",
    "c27_tostring_dos",
    "c27_out_of_memory",
    "c27_copy_out_of_memory_crashes"
   ],
   "note": ""
  },
  {
   "property": "C28",
   "status": "proved",
   "theorems": [
    "c28_base64enc_is_rfc4648"
   ],
   "note": ""
  },
  {
   "property": "C29",
   "status": "proved",
   "theorems": [
    "c29_base64dec_inverts_base64enc"
   ],
   "note": ""
  },
  {
   "property": "C30",
   "status": "partial",
   "theorems": [
    "c30_terminated_iff",
    "c30_base64dec_safe_and_strict",
    "c30_terminated_refuted"
   ],
   "note": "Safety, strictness and decoded bytes proved for every input; the NUL directly after the decoded bytes is refuted for non-canonical padding bits, and c30_terminated_iff says exactly when it is there."
  },
  {
   "property": "C31",
   "status": "proved",
   "theorems": [
    "c31_base64enc_str_complete_or_prefix"
   ],
   "note": ""
  },
  {
   "property": "C32",
   "status": "proved",
   "theorems": [
    "c32_raw2hex_writes_lowercase_hex",
    "c32_hex2raw_parses_hex",
    "c32_hex2raw_inverts_raw2hex",
    "c32_hex2raw_not_hex_refuted"
   ],
   "note": "Proved as stated, for strings of hex digits; c32_hex2raw_not_hex_refuted shows what happens to other strings."
  },
  {
   "property": "C33",
   "status": "proved",
   "theorems": [
    "c33_numberToString_exact",
    "c33_representation_unique",
    "c33_other_base_null",
    "c33_int64ToString_decimal",
    "c33_uint64ToString_decimal",
    "c33_intToString_decimal",
    "c33_uintToString_decimal"
   ],
   "note": ""
  },
  {
   "property": "C34",
   "status": "partial",
   "theorems": [
    "c34_numberToString_maxlen_partial",
    "c34_pad_only_if_requested_refuted"
   ],
   "note": "Digits, value, bounds and offset proved for every flag value; 'padded iff NTS_PAD' is refuted because any non-zero flags value pads."
  },
  {
   "property": "C35",
   "status": "proved",
   "theorems": [
    "c35_itoa_decimal",
    "c35_itoa_int_min_refuted"
   ],
   "note": "The statement excludes INT_MIN; c35_itoa_int_min_refuted shows the overflow there."
  },
  {
   "property": "C36",
   "status": "partial",
   "theorems": [
    "c36_utoa_decimal_partial",
    "c36_utoa_underflow_refuted"
   ],
   "note": "Proved for n <= 3294967296; for every larger n the model writes before the buffer (c36_utoa_underflow_refuted)."
  },
  {
   "property": "C37",
   "status": "proved",
   "theorems": [
    "c37_strtoint_inverts",
    "c37_strtoint64_inverts",
    "c37_strtoint_of_intToString",
    "c37_exact_up_to_18_digits",
    "c37_long_input_overflows"
   ],
   "note": "Exact result for up to 18 digits, overflow for 19 or more."
  },
  {
   "property": "C38",
   "status": "proved",
   "theorems": [
    "c38_stringfromipv4_dotted_quad",
    "c38_ipv4fromstring_inverts",
    "c38_isnumericipv4_accepts_canonical",
    "c38_ipv4fromstring_fields"
   ],
   "note": "Round trip for every address; the parser is characterised for every four fields of up to 18 digits."
  },
  {
   "property": "C39",
   "status": "partial",
   "theorems": [
    "c39_isnumericipv4_language",
    "c39_isnumericipv4_accepts_quads_partial",
    "c39_only_quads_accepted_refuted"
   ],
   "note": "The accepted language is characterised exactly; all canonical quads accepted; 'only dotted quads' refuted."
  },
  {
   "property": "C40",
   "status": "partial",
   "theorems": [
    "c40_strstr_uc_exact",
    "c40_strstar_exact",
    "c40_repeated_first",
    "c40_strstr_uc_complete_iff",
    "c40_strstar_complete_iff",
    "c40_strstr_uc_finds_occurrence",
    "c40_strstar_finds_occurrence",
    "c40_strstr_uc_char_complete",
    "c40_strstar_char_complete",
    "c40_strstr_uc_complete_partial",
    "c40_strstar_complete_partial",
    "c40_every_occurrence_found_refuted"
   ],
   "note": "Exact: the result is that of a scan that does not back up (c40_*_exact), and a needle is found wherever it occurs iff it repeats one byte, for strstar followed by stars only (c40_*_complete_iff). 'Every occurrence is found' is refuted for all others."
  },
  {
   "property": "C41",
   "status": "partial",
   "theorems": [
    "c41_findword_partial",
    "c41_findword_whole_word",
    "c41_findword_whole_word_refuted",
    "c41_findword_exact",
    "c41_findword_complete",
    "c41_findword_first",
    "c41_findword_separator_refuted"
   ],
   "note": "Exact result proved (c41_findword_exact). For words without separators that have two different bytes it is the first whole word, or none iff there is none. A word of one repeated byte can be reported inside a longer run, and a word with a separator can be missed (refuted)."
  },
  {
   "property": "C42",
   "status": "proved",
   "theorems": [
    "c42_character_classes",
    "c42_makelower_makeupper",
    "c42_hexval",
    "c42_containsChar",
    "c42_containsChar_nul",
    "c42_strends"
   ],
   "note": ""
  },
  {
   "property": "C43",
   "status": "proved",
   "theorems": [
    "c43_rc4_is_rc4",
    "c43_rc4_twice_in_place",
    "c43_rc4_empty_key_ub",
    "c43_same_key",
    "c43_key_twice",
    "c43_short_key",
    "c43_keylen_0",
    "c43_behind"
   ],
   "note": "In one memory, so equal and overlapping (dst below src) buffers are covered; dst behind src: exact output in c43_behind. Which key bytes count: c43_same_key. A key array shorter than keylen and than 256, or keylen 0, is read past its end (c43_short_key, c43_keylen_0)."
  },
  {
   "property": "C44",
   "status": "proved",
   "theorems": [
    "c44_crc32",
    "c44_crc32c"
   ],
   "note": ""
  },
  {
   "property": "C45",
   "status": "proved",
   "theorems": [
    "c45_md5",
    "c45_md5str"
   ],
   "note": ""
  },
  {
   "property": "C46",
   "status": "proved",
   "theorems": [
    "c46_sha512",
    "c46_any_sizes",
    "c46_digest_allowed",
    "c46_rest_ignored"
   ],
   "note": "Proved under the chunking rule; c46_any_sizes gives the digest for updates of any sizes, c46_rest_ignored shows why the rule is needed."
  },
  {
   "property": "C47",
   "status": "proved",
   "theorems": [
    "c47_normalizepath",
    "c47_normalizepath_cstr",
    "c47_variants_agree",
    "c47_relative_fails"
   ],
   "note": ""
  },
  {
   "property": "C48",
   "status": "proved",
   "theorems": [
    "c48_fixed_point",
    "c48_canonical",
    "c48_no_double_slash",
    "c48_no_trailing_slash",
    "c48_cstr_in_bounds",
    "c48_stack_overflow_refuted"
   ],
   "note": "The statement includes the overflow for paths of PATH_MAX bytes; c48_stack_overflow_refuted is its witness."
  },
  {
   "property": "C49",
   "status": "partial",
   "theorems": [
    "c49_getpathdiff_exact",
    "c49_getpathdiff_right_iff",
    "c49_getpathdiff_child_partial",
    "c49_getpathdiff_other_partial",
    "c49_equal_length_refuted",
    "c49_sibling_refuted"
   ],
   "note": "The result is given exactly for every pair of paths that normalise (c49_getpathdiff_exact), and it is the wanted one iff the paths are not equally long and different, and the first is not a byte prefix of the second without a '/' behind it (c49_getpathdiff_right_iff); those two cases are refuted."
  },
  {
   "property": "C50",
   "status": "partial",
   "theorems": [
    "c50_getFileExt_partial",
    "c50_no_dot_refuted"
   ],
   "note": "Proved for names with a dot; for names without one the result is refuted for every such name."
  },
  {
   "property": "C51",
   "status": "proved",
   "theorems": [
    "c51_readline_yields_lines",
    "c51_every_file_has_lines",
    "c51_long_line",
    "c51_read_error",
    "c51_seek_error",
    "c51_descriptor_zero_refused",
    "c51_getline",
    "c51_readline_seek_error"
   ],
   "note": ""
  },
  {
   "property": "C52",
   "status": "partial",
   "theorems": [
    "c52_getnextlinelength_partial",
    "c52_eof",
    "c52_multiple_of_1024_refuted"
   ],
   "note": "Everything but unterminated last lines of a positive multiple of 1024 bytes, for which the statement is refuted."
  },
  {
   "property": "C53",
   "status": "partial",
   "theorems": [
    "c53_tofile",
    "c53_tofile_prefix",
    "c53_roundtrip_partial",
    "c53_roundtrip_refuted",
    "c53_dup_entries",
    "c53_dup_entries_fails",
    "c53_roundtrip_exact",
    "c53_tofile_success",
    "c53_tofile_not_opened"
   ],
   "note": "Round trip for non-empty strings shorter than 1024 bytes, refuted for the others; c53_roundtrip_exact gives the exact result for every list without LF."
  },
  {
   "property": "C54",
   "status": "proved",
   "theorems": [
    "c54_tofile_all",
    "c54_tofile_prefix",
    "c54_tofile_zero_write_hangs",
    "c54_tofile_success",
    "c54_tofile_empty_refuted",
    "c54_fromfile_all",
    "c54_fromfile_outcomes",
    "c54_empty_file_is_null",
    "c54_shrunk_file_hangs",
    "c54_tofile_calls",
    "c54_fromfile_calls"
   ],
   "note": "Proved as stated; c54_tofile_empty_refuted adds that for an empty buffer success and failure to open look the same."
  },
  {
   "property": "C55",
   "status": "proved",
   "theorems": [
    "c55_vsnprintf",
    "c55_bounds",
    "c55_destsize_0_refuted",
    "c55_wide_refuted"
   ],
   "note": "Proved as stated, for destsize >= 1 and widths of at most one digit; outside of this refuted by c55_destsize_0_refuted and c55_wide_refuted."
  },
  {
   "property": "C56",
   "status": "proved",
   "theorems": [
    "c56_dry_run"
   ],
   "note": ""
  },
  {
   "property": "C57",
   "status": "proved",
   "theorems": [
    "c57_snprintf",
    "c57_subset_refuted",
    "c57_no_directive",
    "c57_null_string",
    "c57_hex_negative_refuted",
    "c57_low_digits_refuted",
    "c57_string_precision_refuted",
    "c57_precision_digits_refuted"
   ],
   "note": "Proved as stated, on the listed formats; the refuted theorems are the witnesses outside of them."
  },
  {
   "property": "C58",
   "status": "proved",
   "theorems": [
    "c58_section",
    "c58_next",
    "c58_headers",
    "c58_next_any",
    "c58_next_restarts"
   ],
   "note": "c58_next_any: the next section behind any place."
  },
  {
   "property": "C59",
   "status": "partial",
   "theorems": [
    "c59_value_at",
    "c59_value",
    "c59_file_as_section",
    "c59_count",
    "c59_count_refuted"
   ],
   "note": "getvalue, getvalue_at and file_as_section proved; count_sections counts the lines c59_count describes, which are not all header lines (refuted)."
  },
  {
   "property": "C60",
   "status": "proved",
   "theorems": [
    "c60_hasflag",
    "c60_get",
    "c60_combined_refuted",
    "c60_hasflag_exact",
    "c60_get_exact",
    "c60_dash_name",
    "c60_equals_name",
    "c60_empty_name",
    "c60_test"
   ],
   "note": "Proved as stated; the combined form is c60_combined_refuted. c60_hasflag_exact and c60_get_exact answer for every name; c60_test: the arguments of examples/optparser_test.c, whose assertions on r, s, t, c, m, d fail."
  },
  {
   "property": "C61",
   "status": "partial",
   "theorems": [
    "c61_histories",
    "c61_free_before_pool_refuted",
    "c61_exact",
    "c61_determined"
   ],
   "note": "Proved for every pointer the caller may hold; a pointer in front of the pool is undefined instead of ignored (refuted). c61_exact gives the block every allocation returns, for any pool size."
  },
  {
   "property": "C62",
   "status": "partial",
   "theorems": [
    "c62_check_accepts_even",
    "c62_refuted",
    "c62_safe_partial",
    "c62_all_refuted"
   ],
   "note": "Refuted for every accepted size that is not a multiple of 8 (c62_all_refuted); what remains true for every pool size is c62_safe_partial: distinct blocks inside the pool."
  },
  {
   "property": "C63",
   "status": "proved",
   "theorems": [
    "c63_get",
    "c63_get_swapped",
    "c63_set",
    "c63_size",
    "c63_bytem",
    "c63_bytel"
   ],
   "note": ""
  },
  {
   "property": "C64",
   "status": "proved",
   "theorems": [
    "c64_swap16",
    "c64_swap32",
    "c64_swap64",
    "c64_involution"
   ],
   "note": ""
  },
  {
   "property": "C65",
   "status": "partial",
   "theorems": [
    "c65_alloc",
    "c65_alloc_fail",
    "c65_free_partial",
    "c65_free_refuted"
   ],
   "note": "Placement, failure and freeing proved for every size; for multiples of the page size guard_free leaves the first page mapped (refuted for all of them)."
  },
  {
   "property": "C66",
   "status": "partial",
   "theorems": [
    "c66_open",
    "c66_wiring",
    "c66_succeeds",
    "c66_close",
    "c66_init_refuted",
    "c66_stdin_closed_refuted",
    "c66_opened_iff",
    "c66_failed_iff",
    "c66_std_closed",
    "c66_needs_std"
   ],
   "note": "Proved for every failing step but file_actions_init (its failure destroys an uninitialised object: refuted); with descriptor 0 closed refuted. c66_std_closed: with 0, 1 or 2 closed the call always fails, and what is left open is given exactly. c66_opened_iff, c66_failed_iff: when it succeeds and when it fails, exactly."
  },
  {
   "property": "C67",
   "status": "proved",
   "theorems": [
    "c67_parent",
    "c67_child",
    "c67_no_null"
   ],
   "note": ""
  },
  {
   "property": "C68",
   "status": "proved",
   "theorems": [
    "c68_msleep",
    "c68_microsleep",
    "c68_return"
   ],
   "note": ""
  },
  {
   "property": "C69",
   "status": "proved",
   "theorems": [
    "c69_timestamp",
    "c69_diff",
    "c69_mspassed",
    "c69_getutime"
   ],
   "note": ""
  },
  {
   "property": "C70",
   "status": "proved",
   "theorems": [
    "c70_pattern",
    "c70_literal",
    "c70_backslash_refuted",
    "c70_files",
    "c70_oom",
    "c70_no_mask",
    "c70_memory_exact",
    "c70_dot_lost_refuted"
   ],
   "note": "Proved for directories without backslash; with one c70_backslash_refuted. Out of memory: exact in c70_memory_exact; a \"./\" or \"../\" that could not be added is missing without an error (c70_dot_lost_refuted)."
  },
  {
   "property": "C71",
   "status": "proved",
   "theorems": [
    "c71_mkdtemp",
    "c71_mkdtemp_short",
    "c71_mkdtemp_forever",
    "c71_too_small",
    "c71_shm",
    "c71_tmp",
    "c71_mkdtemp_exact",
    "c71_shm_exact",
    "c71_tmp_exact"
   ],
   "note": ""
  },
  {
   "property": "C72",
   "status": "proved",
   "theorems": [
    "c72_log_put",
    "c72_numbers_total",
    "c72_log_puts",
    "c72_log_putc",
    "c72_null",
    "c72_log_putd",
    "c72_log_puterror",
    "c72_log_timestamp",
    "c72_op_printall"
   ],
   "note": ""
  },
  {
   "property": "C73",
   "status": "partial",
   "theorems": [
    "c73_read_stdin_line_partial",
    "c73_read_stdin_line_refuted",
    "c73_format",
    "c73_format_refuted",
    "c73_read_stdin_line_exact",
    "c73_strdup_n_whole",
    "c73_strdup_n_copies",
    "c73_strdup_n_terminates_refuted"
   ],
   "note": "Each helper proved under its guard and refuted outside. c73_read_stdin_line_exact covers every input, also with NUL bytes."
  },
  {
   "property": "C74",
   "status": "proved",
   "theorems": [
    "c74_fprintf",
    "c74_printf",
    "c74_rejected_refuted"
   ],
   "note": "Proved as stated, for accepted formats; rejected ones give write(2) SIZE_MAX as size (c74_rejected_refuted)."
  },
  {
   "property": "C75",
   "status": "proved",
   "theorems": [
    "c75_sblist_life",
    "c75_sblist_static",
    "c75_two_blocks",
    "c75_set",
    "c75_sptr_get",
    "c75_fits",
    "c75_tglist_fits",
    "c75_insert",
    "c75_delete",
    "c75_pop",
    "c75_has_block"
   ],
   "note": ""
  },
  {
   "property": "C76",
   "status": "proved",
   "theorems": [
    "c76_hashlist_life",
    "c76_add_result"
   ],
   "note": ""
  },
  {
   "property": "C77",
   "status": "partial",
   "theorems": [
    "c77_dup_entries",
    "c77_dup_freeall",
    "c77_failed_dup_refuted",
    "c77_freestrings_twice",
    "c77_add_strdup_partial",
    "c77_add_strdup_refuted",
    "c77_add_strdup_exact"
   ],
   "note": "add_strdup is balanced when no call fails; the lost copy on a failed growth is c77_add_strdup_refuted. c77_add_strdup_exact gives, for every answer of the allocator, the fate of each string and how many copies are left."
  },
  {
   "property": "C78",
   "status": "proved",
   "theorems": [
    "c78_add_dup",
    "c78_foreach"
   ],
   "note": ""
  },
  {
   "property": "C79",
   "status": "partial",
   "theorems": [
    "c79_bmap_fini",
    "c79_hbmap_fini",
    "c79_tgilist_deleted_refuted",
    "c79_fini_twice_refuted",
    "c79_tgilist_add",
    "c79_history",
    "c79_nocheck_result"
   ],
   "note": "Proved for all histories and flags; the refuted theorems record that tgilist storage keeps deleted values and that a second fini is a double free."
  },
  {
   "property": "C80",
   "status": "partial",
   "theorems": [
    "c80_filelist_exact",
    "c80_filelist_safe",
    "c80_replace_partial",
    "c80_replace_leaks_refuted",
    "c80_filelist_partial",
    "c80_filelist_failed_refuted",
    "c80_replace_exact",
    "c80_replace_leaks",
    "c80_filelist_result"
   ],
   "note": "stringptr_replace: bounded leak proved, leak itself refuted; filelist: balanced except after a failed addition. c80_replace_exact gives the number of blocks left for every answer of the allocator. c80_filelist_exact gives result, and what filelist_free does, for every answer of the allocator."
  },
  {
   "property": "C81",
   "status": "proved",
   "theorems": [
    "c81_hex"
   ],
   "note": ""
  },
  {
   "property": "C82",
   "status": "partial",
   "theorems": [
    "c82_exact",
    "c82_reported_fun",
    "c82_runs_iff",
    "c82_zero_iff_equal",
    "c82_runs_partial",
    "c82_last_byte_refuted",
    "c82_text"
   ],
   "note": "The exact report is proved for every two files (c82_exact); it consists of the maximal ranges iff each has room for as many bytes again (c82_runs_iff), the last-byte case being refuted for every file."
  },
  {
   "property": "C83",
   "status": "proved",
   "theorems": [
    "c83_jamcrc",
    "c83_complement"
   ],
   "note": ""
  },
  {
   "property": "C84",
   "status": "partial",
   "theorems": [
    "c84_same_size",
    "c84_compare",
    "c84_flat_partial",
    "c84_never_succeeds_refuted",
    "c84_slash_refuted",
    "c84_tree",
    "c84_tree_stops",
    "c84_unreadable_refuted",
    "c84_unlisted"
   ],
   "note": "Proved for one directory level and for whole trees. The value after the missing return is arbitrary in c84_tree; c84_never_succeeds_refuted and c84_unreadable_refuted record the defects."
  },
  {
   "property": "C85",
   "status": "proved",
   "theorems": [
    "c85_insert_sorted",
    "c85_sorted_from_empty"
   ],
   "note": ""
  },
  {
   "property": "C86",
   "status": "proved",
   "theorems": [
    "c86_sblist_sort",
    "c86_tglist_sort"
   ],
   "note": ""
  },
  {
   "property": "C87",
   "status": "partial",
   "theorems": [
    "c87_cut_total",
    "c87_lines_exact",
    "c87_lines_partial",
    "c87_line_equal",
    "c87_long_line_refuted",
    "c87_end_refuted",
    "c87_hash_one"
   ],
   "note": "Partial as stated: lines above 1022 bytes are split, recorded by c87_long_line_refuted; c87_lines_exact gives the exact result for every file."
  },
  {
   "property": "C88",
   "status": "partial",
   "theorems": [
    "c88_report_any",
    "c88_report_hbmap",
    "c88_report_partial",
    "c88_last_block_refuted",
    "c88_skip_refuted",
    "c88_zero_hangs_refuted",
    "c88_negative_refuted"
   ],
   "note": "Soundness, order, disjointness and termination proved; completeness only for blocks without their first line recurring and copies ending before the last line, the rest is refuted by c88_last_block_refuted and c88_skip_refuted. c88_report_any covers files with lines of any length and any bytes. c88_report_hbmap is the same with the map of hbmap.h itself instead of a list of bindings."
  },
  {
   "property": "C89",
   "status": "proved",
   "theorems": [
    "c89_lookup",
    "c89_ambiguous_refuted",
    "c89_no_memory_refuted"
   ],
   "note": "c89_lookup; the restrictions on names and keys are part of the statement, c89_ambiguous_refuted shows they are needed."
  },
  {
   "property": "C90",
   "status": "proved",
   "theorems": [
    "c90_find",
    "c90_find2",
    "c90_listing_unique",
    "c90_usage",
    "c90_unreadable_refuted",
    "c90_usage_text"
   ],
   "note": "c90_find, c90_find2 for every finite tree glob serves; unreadable directories: c90_unreadable_refuted."
  },
  {
   "property": "C91",
   "status": "proved",
   "theorems": [
    "c91_whole_file",
    "c91_first_bytes",
    "c91_overrun_refuted",
    "c91_usage",
    "c91_no_file_refuted"
   ],
   "note": "Proved as stated: the whole file, and counts 0..65536; other counts and missing files are the refuted theorems."
  },
  {
   "property": "C92",
   "status": "partial",
   "theorems": [
    "c92_usable_in_switch",
    "c92_sets",
    "c92_printable_refuted",
    "c92_c_literal",
    "c92_sh_literal",
    "c92_not_exchangeable_refuted"
   ],
   "note": "Sets, NoDup and literals proved; PRINTABLE is refuted as the set of printable characters."
  },
  {
   "property": "C93",
   "status": "partial",
   "theorems": [
    "c93_exact",
    "c93_complete_iff",
    "c93_prints_file",
    "c93_long_line_refuted",
    "c93_not_opened",
    "c93_descriptor_zero_refuted",
    "c93_open_result",
    "c93_close_result"
   ],
   "note": "Proved with descriptor 0 in use: c93_exact gives the output for every file, complete iff all lines are below 1024 bytes; the rest is refuted."
  },
  {
   "property": "C94",
   "status": "partial",
   "theorems": [
    "c94_sblist_set_partial",
    "c94_sblist_set_self_refuted",
    "c94_sblist_set_beyond",
    "c94_sblist_add_partial",
    "c94_sblist_add_grows_refuted",
    "c94_sblist_insert_partial",
    "c94_sblist_insert_refuted",
    "c94_tglist_add",
    "c94_tglist_insert_partial",
    "c94_tglist_insert_behind_refuted",
    "c94_tgilist_add",
    "c94_tgilist_insert",
    "c94_insert_sorted_partial",
    "c94_insert_sorted_refuted",
    "c94_insert_sorted_distinct_refuted"
   ],
   "note": "tglist_add, tgilist_add, tgilist_insert proved in full; the other operations under the stated restrictions, each refuted outside them."
  },
  {
   "property": "C95",
   "status": "partial",
   "theorems": [
    "c95_pieces",
    "c95_safe",
    "c95_lines_partial",
    "c95_short_read_refuted"
   ],
   "note": "Proved when each read delivers the whole next line, with shorter reads refuted; c95_pieces gives the exact result for any number of pieces, c95_safe covers all reads."
  },
  {
   "property": "C96",
   "status": "partial",
   "theorems": [
    "c96_fprintf_partial",
    "c96_fprintf_refuted",
    "c96_perror_partial",
    "c96_perror_empty_refuted",
    "c96_puts_refuted"
   ],
   "note": "fprintf with merged literals and perror of a non-empty text proved; puts, perror(\"\") and unmerged literals refuted."
  },
  {
   "property": "C97",
   "status": "proved",
   "theorems": [
    "c97_alone",
    "c97_after_init",
    "c97_during_init_refuted"
   ],
   "note": "Proved as stated, after InitTables has run; c97_during_init_refuted is the race before that."
  },
  {
   "property": "C98",
   "status": "proved",
   "theorems": [
    "c98_same",
    "c98_test",
    "c98_compare",
    "c98_test_oom_refuted"
   ],
   "note": "Proved as stated, when no allocation fails; c98_test_oom_refuted is the witness otherwise."
  },
  {
   "property": "C99",
   "status": "proved",
   "theorems": [
    "c99_heap",
    "c99_test",
    "c99_test_small_refuted",
    "c99_test_12_refuted"
   ],
   "note": "Proved as stated, for pools of a multiple of 8 elements of at least 6 bytes; the refuted theorems are the witnesses outside."
  },
  {
   "property": "C100",
   "status": "partial",
   "theorems": [
    "c100_tglist_free_values",
    "c100_tglist_free_values_size",
    "c100_tgilist_free_values_partial",
    "c100_tgilist_free_values_refuted",
    "c100_bmap_fini",
    "c100_bmap_fini_tgilist_partial",
    "c100_bmap_fini_tgilist_refuted",
    "c100_bmap_fini_flags_refuted",
    "c100_hbmap_fini"
   ],
   "note": "tglist and maps over tglist proved in full; with tgilist the deleted pointers are freed as well, which the refuted theorems record."
  },
  {
   "property": "C101",
   "status": "proved",
   "theorems": [
    "c101_bmap_bench",
    "c101_hbmap_bench",
    "c101_int_bench",
    "c101_bmap_bench_10000",
    "c101_hbmap_bench_1000000_refuted",
    "c101_bmap_bench_memory",
    "c101_hbmap_bench_memory",
    "c101_int_bench_memory",
    "c101_first_key_lost",
    "c101_x31"
   ],
   "note": "Proved as stated for all sizes; with failing allocations the result is the same or a failed assertion (c101_*_memory). The overflow of hbmap_bench is c101_hbmap_bench_1000000_refuted."
  },
  {
   "property": "C102",
   "status": "partial",
   "theorems": [
    "c102_next_section_lines",
    "c102_next_section_partial",
    "c102_next_section_all",
    "c102_empty_section_refuted",
    "c102_missing_file_refuted"
   ],
   "note": "Exact output proved for every file; 'every section of the name' holds if none of them is empty, otherwise refuted."
  },
  {
   "property": "C103",
   "status": "proved",
   "theorems": [
    "c103_sblist_test",
    "c103_sblist_test_each",
    "c103_sblist_test_big_refuted",
    "c103_tglist_test",
    "c103_tglist_test_no_memory_refuted",
    "c103_tglist_test_big_refuted",
    "c103_sptrlist_test"
   ],
   "note": "Proved as stated; the refuted theorems are the failures the statement names."
  },
  {
   "property": "C104",
   "status": "proved",
   "theorems": [
    "c104_signed_refines_list",
    "c104_limit",
    "c104_short_64k_refuted",
    "c104_insert_test",
    "c104_insert_test_32768_refuted"
   ],
   "note": "Proved as stated; the limits it names are c104_short_64k_refuted and c104_insert_test_32768_refuted."
  },
  {
   "property": "C105",
   "status": "partial",
   "theorems": [
    "c105_file_any",
    "c105_crypto_hash",
    "c105_to_str",
    "c105_step",
    "c105_prefixes",
    "c105_memcmp",
    "c105_strcmp",
    "c105_file_partial",
    "c105_file_short_read_refuted",
    "c105_file_empty_refuted",
    "c105_file_missing_refuted",
    "c105_read_error"
   ],
   "note": "All but the file mode proved in full; the file mode for reads of whole 128-byte blocks, otherwise refuted. c105_file_any gives the result for any reads: a complaint exactly if the digest of the pieces (c46_any_sizes) is not the SHA-512."
  },
  {
   "property": "C106",
   "status": "partial",
   "theorems": [
    "c106_md5_check",
    "c106_md5str_check",
    "c106_md5_tests",
    "c106_rc4_check",
    "c106_rc4_n",
    "c106_rc4_n_1",
    "c106_ciphersaber",
    "c106_ciphersaber_1",
    "c106_rc4_main_partial",
    "c106_rc4_main_long_refuted",
    "c106_crc_tests",
    "c106_raw2hex_tests",
    "c106_raw2hex_counts"
   ],
   "note": "All vectors and equivalences proved; the argument of rc4_test up to 2047 bytes, longer ones overflow (refuted)."
  },
  {
   "property": "C107",
   "status": "proved",
   "theorems": [
    "c107_no_repeat",
    "c107_period",
    "c107_all_seeds",
    "c107_priorities_differ",
    "c107_all_priorities",
    "c107_low_bit",
    "c107_insert_draws"
   ],
   "note": ""
  },
  {
   "property": "C108",
   "status": "proved",
   "theorems": [
    "c108_any_sblist_test",
    "c108_any_tglist_test",
    "c108_any_tgilist_test",
    "c108_sblist_insert_test",
    "c108_sblist_delete_test",
    "c108_tglist_delete_test",
    "c108_hashlist_test",
    "c108_tglist_insert_test",
    "c108_tgilist_insert_test"
   ],
   "note": ""
  },
  {
   "property": "C109",
   "status": "proved",
   "theorems": [
    "c109_base64_test",
    "c109_base64_round",
    "c109_ipv4fromstring_test",
    "c109_normalizepath_any",
    "c109_normalizepath_test",
    "c109_normalizepath_no_memory",
    "c109_numberToString_test",
    "c109_spformat_test",
    "c109_replace_any",
    "c109_replace_test",
    "c109_replace_no_memory",
    "c109_ip_check"
   ],
   "note": ""
  },
  {
   "property": "C110",
   "status": "proved",
   "theorems": [
    "c110_overrun",
    "c110_underrun_refuted",
    "c110_passes",
    "c110_leak_unnoticed_refuted",
    "c110_no_memory",
    "c110_passes_only",
    "c110_fork_fails_refuted",
    "c110_child"
   ],
   "note": "Proved as stated; the refuted theorems are the failures the statement names."
  },
  {
   "property": "C111",
   "status": "partial",
   "theorems": [
    "c111_crc32_burst",
    "c111_crc32c_burst",
    "c111_crc32_four_bytes",
    "c111_crc32c_parity",
    "c111_crc32_parity_refuted",
    "c111_final_partial",
    "c111_final_comment_refuted",
    "c111_residue",
    "c111_any_checksum"
   ],
   "note": "Bursts, parity of CRC32C and the residue proved; CRC32 has no parity and the comment on Final holds only with the stated correction (refuted otherwise)."
  },
  {
   "property": "C112",
   "status": "proved",
   "theorems": [
    "c112_cartesian",
    "c112_distinct",
    "c112_unique",
    "c112_insert_delete",
    "c112_delete_two",
    "c112_get_cost"
   ],
   "note": ""
  },
  {
   "property": "C113",
   "status": "proved",
   "theorems": [
    "c113_bsearch",
    "c113_bsearch_worst",
    "c113_insert_sorted",
    "c113_tglist_insert_sorted",
    "c113_optimal",
    "c113_bmap_comment_refuted"
   ],
   "note": "Proved as stated; the figure in bmap.h is c113_bmap_comment_refuted."
  },
  {
   "property": "C114",
   "status": "proved",
   "theorems": [
    "c114_tglist",
    "c114_sblist",
    "c114_sblist_adds"
   ],
   "note": ""
  },
  {
   "property": "C115",
   "status": "partial",
   "theorems": [
    "c115_modtime_partial",
    "c115_modtime_refuted",
    "c115_min_max_partial",
    "c115_min_max_refuted",
    "c115_test1",
    "c115_test1_exit_refuted"
   ],
   "note": "getFileModTime except for files of the epoch, MIN/MAX except for side effects; both exceptions refuted."
  },
  {
   "property": "C116",
   "status": "proved",
   "theorems": [
    "c116_bytes",
    "c116_insert_sorted",
    "c116_refines",
    "c116_overflow_refuted"
   ],
   "note": "Proved as stated, below a block size of 2^64; the wrap beyond is c116_overflow_refuted."
  },
  {
   "property": "C117",
   "status": "partial",
   "theorems": [
    "c117_drive_partial",
    "c117_root_refuted",
    "c117_refused",
    "c117_no_drive"
   ],
   "note": "All paths but the root of a drive, for which the drive name without slash is produced (refuted)."
  },
  {
   "property": "C118",
   "status": "partial",
   "theorems": [
    "c118_fuzz_exact",
    "c118_fuzz_total",
    "c118_fuzz_arg_overflow",
    "c118_process_exact",
    "c118_itoa",
    "c118_utoa",
    "c118_hex2raw",
    "c118_mktempdir",
    "c118_mktempdir_tmp",
    "c118_process_partial",
    "c118_process_refuted",
    "c118_fuzz_in_bounds",
    "c118_fuzz_line",
    "c118_fuzz_no_newline_refuted",
    "c118_fuzz_arg_partial",
    "c118_fuzz_arg_refuted",
    "c118_fuzz_other",
    "c118_mktempdir_name",
    "c118_process_not_started"
   ],
   "note": "itoa, utoa, hex2raw, mktempdir and the bounds of the fuzz target proved in full; process.c for a zero byte behind the answer, the fuzz argument below 64 bytes, both refuted otherwise. c118_process_exact covers the test of process.c for every answer and every content of the array. c118_fuzz_exact/_total: the output of the fuzz target for every file. c118_fuzz_arg_overflow: a family of arguments that overflow."
  },
  {
   "property": "C119",
   "status": "proved",
   "theorems": [
    "c119_splitc",
    "c119_splits",
    "c119_no_list",
    "c119_kept",
    "c119_lost_refuted",
    "c119_replace"
   ],
   "note": "The statement includes the losses; c119_lost_refuted refutes that every piece is stored."
  },
  {
   "property": "C120",
   "status": "partial",
   "theorems": [
    "c120_swap64",
    "c120_swap64_twice",
    "c120_stored",
    "c120_read",
    "c120_wide",
    "c120_int",
    "c120_le32_int_refuted",
    "c120_le32_int_le"
   ],
   "note": "Proved for unsigned arguments on both byte orders; le32 of an int is undefined on big-endian machines iff its lowest byte is 128 or more (c120_int), which refutes the last part."
  },
  {
   "property": "C121",
   "status": "proved",
   "theorems": [
    "c121_log_put",
    "c121_log_puterror",
    "c121_others",
    "c121_log_timestamp",
    "c121_op_printall",
    "c121_arrives",
    "c121_retried_refuted",
    "c121_errno"
   ],
   "note": "The statement includes what is lost; c121_retried_refuted refutes that a short write is completed."
  },
  {
   "property": "C122",
   "status": "proved",
   "theorems": [
    "c122_average",
    "c122_logarithmic",
    "c122_worst",
    "c122_ways",
    "c122_merge_calls",
    "c122_insert_calls",
    "c122_delete_calls",
    "c122_insert_average",
    "c122_delete_average"
   ],
   "note": "The priorities are those of the list's own generator; the average is over the places of the insertions. Exact for reading, lower and upper bounds for insertion and deletion (calls of split, merge, getitem and remove)."
  },
  {
   "property": "C123",
   "status": "proved",
   "theorems": [
    "c123_lookup",
    "c123_sections",
    "c123_early",
    "c123_wrong_section_refuted",
    "c123_merged",
    "c123_no_list_refuted"
   ],
   "note": "The statement includes its exception, recorded by c123_wrong_section_refuted and c123_merged; without memory for the list itself the programs read through NULL (c123_no_list_refuted)."
  },
  {
   "property": "C124",
   "status": "proved",
   "theorems": [
    "c124_history",
    "c124_values_stay",
    "c124_too_many_refuted"
   ],
   "note": "Proved as stated, below block sizes of 2^64; the exception at 256^n values is c124_too_many_refuted."
  },
  {
   "property": "C125",
   "status": "partial",
   "theorems": [
    "c125_read_fails",
    "c125_line_cut_refuted",
    "c125_seek_fails",
    "c125_skip_fails",
    "c125_line",
    "c125_last_line",
    "c125_no_faults"
   ],
   "note": "All failing calls described exactly; that the position survives a failure is refuted (c125_line_cut_refuted). The end-of-file cases without faults are C52."
  }
 ]
}