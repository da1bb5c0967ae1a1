{
 "claims": [
  {
   "property": "C01",
   "status": "proved",
   "theorems": [
    "C01_ber_decode_sound"
   ],
   "note": ""
  },
  {
   "property": "C02",
   "status": "proved",
   "theorems": [
    "C02_ber_decode_complete"
   ],
   "note": ""
  },
  {
   "property": "C03",
   "status": "proved",
   "theorems": [
    "C03_ber_decode_memory_safe"
   ],
   "note": ""
  },
  {
   "property": "C04",
   "status": "proved",
   "theorems": [
    "C04_ber_iteration_exact",
    "C04_ber_iteration_any_buffer"
   ],
   "note": ""
  },
  {
   "property": "C05",
   "status": "partial",
   "theorems": [
    "C05_indefinite_consumed_refuted",
    "C05_nested_indefinite_refuted",
    "C05_indefinite_value_partial"
   ],
   "note": "False of the code: the two end-of-contents octets are not consumed, and an inner end-of-contents ends the outer object (two refuting witnesses). Partial: the value and header are exact for definite-length contents."
  },
  {
   "property": "C06",
   "status": "proved",
   "theorems": [
    "C06_oid_decode_exact"
   ],
   "note": ""
  },
  {
   "property": "C07",
   "status": "partial",
   "theorems": [
    "C07_oid_out_of_bounds_refuted",
    "C07_oid_bounds_partial"
   ],
   "note": "False of the code: the loop bound is sizeof(value) (40) instead of the number of elements (10). Partial: exact characterisation of the inputs with an out-of-bounds write."
  },
  {
   "property": "C08",
   "status": "proved",
   "theorems": [
    "C08_tlv_list_history",
    "C08_tlv_list_released"
   ],
   "note": ""
  },
  {
   "property": "C09",
   "status": "proved",
   "theorems": [
    "C09_find_first",
    "C09_duplicate_exact"
   ],
   "note": ""
  },
  {
   "property": "C10",
   "status": "partial",
   "theorems": [
    "C10_self_append_refuted",
    "C10_self_append_always_loses"
   ],
   "note": "False of the code: appending a list to itself reports success, empties the list object and leaks every node, for every list and history."
  },
  {
   "property": "C11",
   "status": "proved",
   "theorems": [
    "C11_parse_flattens",
    "C11_parse_success_valid",
    "C11_parse_success_iff"
   ],
   "note": ""
  },
  {
   "property": "C12",
   "status": "proved",
   "theorems": [
    "C12_parse_keeps_prior"
   ],
   "note": ""
  },
  {
   "property": "C13",
   "status": "proved",
   "theorems": [
    "C13_format_n_round_trip"
   ],
   "note": ""
  },
  {
   "property": "C14",
   "status": "partial",
   "theorems": [
    "C14_format_n_overflow_refuted",
    "C14_format_n_decode_partial"
   ],
   "note": "False of the code: the value wraps modulo 2^32 and success is reported. Partial: exact modulo 2^32, and every non-decimal field is rejected."
  },
  {
   "property": "C15",
   "status": "proved",
   "theorems": [
    "C15_format_b_encode",
    "C15_format_b_decode"
   ],
   "note": ""
  },
  {
   "property": "C16",
   "status": "proved",
   "theorems": [
    "C16_ans_non_control",
    "C16_ans_alnum_space",
    "C16_binary_to_hex",
    "C16_empty_rejected"
   ],
   "note": ""
  },
  {
   "property": "C17",
   "status": "proved",
   "theorems": [
    "C17_dol_entries",
    "C17_dol_any_buffer",
    "C17_dol_data_length"
   ],
   "note": ""
  },
  {
   "property": "C18",
   "status": "proved",
   "theorems": [
    "C18_dol_build_exact",
    "C18_entry_data_unique"
   ],
   "note": ""
  },
  {
   "property": "C19",
   "status": "proved",
   "theorems": [
    "C19_dol_build_bounded"
   ],
   "note": ""
  },
  {
   "property": "C20",
   "status": "proved",
   "theorems": [
    "C20_compact_tlv_objects",
    "C20_compact_tlv_any_buffer"
   ],
   "note": ""
  },
  {
   "property": "C21",
   "status": "partial",
   "theorems": [
    "C21_apdu_case_extended_refuted",
    "C21_apdu_case_partial",
    "C21_apdu_case_safe"
   ],
   "note": "False of the code for extended lengths: case 3E/4E are tested at the wrong offsets (witnesses: a case 3E command is rejected, a non-command is classified 3E). Partial: exact for every string of at most 7 octets or with a non-zero fifth octet; safe for all strings."
  },
  {
   "property": "C22",
   "status": "proved",
   "theorems": [
    "C22_select_octets",
    "C22_select_next_octets",
    "C22_select_range",
    "C22_read_record_octets",
    "C22_read_record_range",
    "C22_gpo_octets",
    "C22_gpo_range"
   ],
   "note": ""
  },
  {
   "property": "C23",
   "status": "proved",
   "theorems": [
    "C23_trx_buffer_safe"
   ],
   "note": ""
  },
  {
   "property": "C24",
   "status": "proved",
   "theorems": [
    "C24_trx_chain",
    "C24_trx_warning",
    "C24_read_record_chain"
   ],
   "note": ""
  },
  {
   "property": "C25",
   "status": "partial",
   "theorems": [
    "C25_trx_termination_refuted",
    "C25_trx_termination_partial"
   ],
   "note": "False of the code: a card that always answers 61XX keeps the exchange going for ever. Partial: ends for every card that does not give that many continuing replies in a row."
  },
  {
   "property": "C26",
   "status": "partial",
   "theorems": [
    "C26_small_buffer_refuted",
    "C26_small_buffer_partial"
   ],
   "note": "False of the code: size 1 (2 octets are written). Partial: size 0 is rejected; sizes from 2 are C23."
  },
  {
   "property": "C27",
   "status": "partial",
   "theorems": [
    "C27_tpdu_data_once_refuted",
    "C27_tpdu_ack_all_partial"
   ],
   "note": "False of the code: after an octet-wise acknowledge the next data octet is taken for INS. Partial: data acknowledged at once is sent exactly once after the header."
  },
  {
   "property": "C28",
   "status": "proved",
   "theorems": [
    "C28_transport",
    "C28_select_status",
    "C28_directory",
    "C28_empty_unless_success",
    "C28_results_differ"
   ],
   "note": ""
  },
  {
   "property": "C29",
   "status": "partial",
   "theorems": [
    "C29_read_pse_ends_refuted",
    "C29_read_pse_ends_partial"
   ],
   "note": "False of the code: a card that answers every READ RECORD with, say, 6D00 is asked for ever (the 8-bit record number wraps). Partial: ends for every card that answers 6A83 or fails at some point."
  },
  {
   "property": "C30",
   "status": "proved",
   "theorems": [
    "C30_reads_as_listed",
    "C30_success",
    "C30_success_only",
    "C30_on_the_wire",
    "C30_success_on_the_wire"
   ],
   "note": ""
  },
  {
   "property": "C31",
   "status": "partial",
   "theorems": [
    "C31_read_afl_ends_refuted",
    "C31_read_afl_ends_partial"
   ],
   "note": "False of the code: an entry whose last record is 255 never ends. Partial: ends when all entries end before 255."
  },
  {
   "property": "C32",
   "status": "proved",
   "theorems": [
    "C32_afl_roundtrip",
    "C32_afl_any",
    "C32_afl_init"
   ],
   "note": ""
  },
  {
   "property": "C33",
   "status": "proved",
   "theorems": [
    "C33_decoded",
    "C33_every_outcome"
   ],
   "note": ""
  },
  {
   "property": "C34",
   "status": "partial",
   "theorems": [
    "C34_select_refuted",
    "C34_select_partial"
   ],
   "note": "False of the code only for a card that answers 9000 without data (C64). Partial: every other outcome is exactly as specified."
  },
  {
   "property": "C35",
   "status": "proved",
   "theorems": [
    "C35_supported"
   ],
   "note": ""
  },
  {
   "property": "C36",
   "status": "partial",
   "theorems": [
    "C36_sort_partial",
    "C36_stable_sort_refuted",
    "C36_sort_refines"
   ],
   "note": "False of the code for priority 0: each application without priority is inserted before the earlier ones, so they end up reversed. Partial: permutation, sorted, stable for priorities 1 to 15, priority 0 exactly reversed."
  },
  {
   "property": "C37",
   "status": "proved",
   "theorems": [
    "C37_remove_index"
   ],
   "note": ""
  },
  {
   "property": "C38",
   "status": "partial",
   "theorems": [
    "C38_all_supported_refuted",
    "C38_candidates_partial",
    "C38_honest_card_partial"
   ],
   "note": "Refuted: AID selection does not compare the DF name returned with the AID beyond its length. Proved: list is non-empty, sorted and its applications are supported or were returned for a supported AID of right length; for cards returning names that extend the selected one all are supported."
  },
  {
   "property": "C39",
   "status": "proved",
   "theorems": [
    "C39_all_or_nothing",
    "C39_accepted",
    "C39_outcome"
   ],
   "note": ""
  },
  {
   "property": "C40",
   "status": "partial",
   "theorems": [
    "C40_twice_refuted",
    "C40_after_success_partial",
    "C40_after_failure_partial"
   ],
   "note": "Refuted: after success the AID field belongs to the card data list, which the second call releases before using the AID. Proved: every call after a successful one fails this way; after a failed call the state is whole."
  },
  {
   "property": "C41",
   "status": "partial",
   "theorems": [
    "C41_no_ub_refuted",
    "C41_no_ub_partial",
    "C41_exactly_partial",
    "C41_length"
   ],
   "note": "False: T1=00 with one to three historical bytes underflows (witness 3B 01 00). Proved: without TD4 exactly then; with TD4 only when one to three historical bytes are indicated; otherwise parsing ends with acceptance or a positive error."
  },
  {
   "property": "C42",
   "status": "partial",
   "theorems": [
    "C42_check_byte_refuted",
    "C42_check_byte_partial",
    "C42_present_partial"
   ],
   "note": "False: TD4 is taken as the check byte (witness). Proved for all ATRs that do not indicate TD4."
  },
  {
   "property": "C43",
   "status": "partial",
   "theorems": [
    "C43_overflow_refuted",
    "C43_first_refuted",
    "C43_timing_partial"
   ],
   "note": "False: BWT overflows 32 bits for BWI=9, Di=64, and the last instead of the first TB for T=1 is used (witnesses). Proved without TD4: GT, CGT, WT always; CWT, BWT, IFSI, EDC with at most one T=1 group, BWT if 2^BWI*Di <= 12026."
  },
  {
   "property": "C44",
   "status": "partial",
   "theorems": [
    "C44_emv_refuted",
    "C44_emv_partial"
   ],
   "note": "False: an ATR indicating TD4 is accepted although incomplete (witness). Proved as an equivalence for all ATRs that do not indicate TD4."
  },
  {
   "property": "C45",
   "status": "proved",
   "theorems": [
    "C45_cvm_list",
    "C45_cvm_odd"
   ],
   "note": ""
  },
  {
   "property": "C46",
   "status": "partial",
   "theorems": [
    "C46_aid_jcb_refuted",
    "C46_aid_scheme_partial",
    "C46_aid_unknown",
    "C46_aid_length",
    "C46_schemes_differ"
   ],
   "note": "False of the code: the JCB branch does not return, so every JCB AID gives -1. Partial: exact scheme and product for every other known prefix; unknown prefixes and lengths are errors."
  },
  {
   "property": "C47",
   "status": "proved",
   "theorems": [
    "C47_utf8_exact",
    "C47_utf8_exists",
    "C47_utf8_control",
    "C47_utf8_codepage"
   ],
   "note": ""
  },
  {
   "property": "C48",
   "status": "partial",
   "theorems": [
    "C48_utf8_bounds_refuted",
    "C48_utf8_overflow",
    "C48_utf8_bounds_partial"
   ],
   "note": "False of the code (simple implementation): a text whose UTF-8 form exactly fills the buffer and ends in a two-octet character is terminated one octet behind the buffer. Partial: safe for buffers of more than twice the text size, and for ASCII text."
  },
  {
   "property": "C49",
   "status": "partial",
   "theorems": [
    "C49_date_time_in_bounds_refuted",
    "C49_date_time_exact_partial",
    "C49_date_time_text_partial"
   ],
   "note": "False of the code: date_str/time_str[7] is terminated at index 7, so every valid field with enough output room is undefined behaviour (exact characterisation). Partial: with a local array of 8 the text is right."
  },
  {
   "property": "C50",
   "status": "partial",
   "theorems": [
    "C50_number_formatting_refuted",
    "C50_number_formatting_partial",
    "C50_amount_text",
    "C50_numeric_text"
   ],
   "note": "False of the code: if the digits exactly fill the output buffer the NUL goes one past its end. Partial: exact in all other cases, UB exactly there; amounts and format n exact for buffers of at least 11."
  },
  {
   "property": "C51",
   "status": "partial",
   "theorems": [
    "C51_track2_in_bounds_refuted",
    "C51_track2_partial",
    "C51_track2_safe_size"
   ],
   "note": "False of the code: the output size is never checked. Partial: exact text if it fits, UB in all other cases; safe if the buffer is more than twice the field size."
  },
  {
   "property": "C52",
   "status": "proved",
   "theorems": [
    "C52_cn_round_trip",
    "C52_cn_inverse",
    "C52_cn_pack_all",
    "C52_cn_format_all"
   ],
   "note": ""
  },
  {
   "property": "C53",
   "status": "proved",
   "theorems": [
    "C53_numeric_packing",
    "C53_numeric_fits",
    "C53_numeric_invalid"
   ],
   "note": ""
  },
  {
   "property": "C54",
   "status": "partial",
   "theorems": [
    "C54_list_terminated_refuted",
    "C54_iso_list_cut_refuted",
    "C54_list_partial",
    "C54_iso_list_partial"
   ],
   "note": "False of the code: a list in fewer than three characters is not NUL terminated, and the ISO 7816 lists drop a text that does not fit and go on with later ones. Partial: exact results of any sequence of additions for both variants, never outside the buffer."
  },
  {
   "property": "C55",
   "status": "partial",
   "theorems": [
    "C55_capdu_in_bounds_refuted",
    "C55_capdu_partial",
    "C55_iso_capdu_safe"
   ],
   "note": "False of the code: the output size is compared with 4 instead of the command length. Partial: exactly the one-octet commands and the short GET DATA commands read out of bounds; all others return with a terminated output."
  },
  {
   "property": "C56",
   "status": "partial",
   "theorems": [
    "C56_property_found_partial",
    "C56_property_cut_partial",
    "C56_property_absent_partial",
    "C56_property_lists_partial",
    "C56_property_cut_other_partial",
    "C56_property_lookup_leaves_refuted",
    "C56_property_not_listed_refuted"
   ],
   "note": "False of the code: an element of another tag that is cut short makes the remaining length wrap, so the look up leaves the list (witnesses: outside the array, and a property found that is not in the list). Partial: exact for all other lists."
  },
  {
   "property": "C57",
   "status": "proved",
   "theorems": [
    "C57_iad_format",
    "C57_formats_differ"
   ],
   "note": ""
  },
  {
   "property": "C58",
   "status": "proved",
   "theorems": [
    "C58_reset",
    "C58_clear"
   ],
   "note": ""
  },
  {
   "property": "C59",
   "status": "proved",
   "theorems": [
    "C59_select",
    "C59_index"
   ],
   "note": ""
  },
  {
   "property": "C60",
   "status": "proved",
   "theorems": [
    "C60_hex_round_trip",
    "C60_hex_accepted"
   ],
   "note": ""
  },
  {
   "property": "C61",
   "status": "partial",
   "theorems": [
    "C61_tpdu_command_bounds_refuted",
    "C61_command_bounds_partial"
   ],
   "note": "False of the code for T=0 readers: out-of-bounds read and a leak of memory behind the command to the card. Partial: holds in APDU mode and for commands of at most 5 octets."
  },
  {
   "property": "C62",
   "status": "partial",
   "theorems": [
    "C62_wrong_le_repeat_refuted",
    "C62_wrong_le_repeat_partial"
   ],
   "note": "False of the code for case 4 commands (data dropped, or data octets sent as header). Partial: exact for case 2 commands in both modes."
  },
  {
   "property": "C63",
   "status": "proved",
   "theorems": [
    "C63_create_from_pse",
    "C63_create_from_fci"
   ],
   "note": ""
  },
  {
   "property": "C64",
   "status": "partial",
   "theorems": [
    "C64_empty_fci_refuted",
    "C64_nonempty_fci_partial"
   ],
   "note": "False of the code: for empty file control information (a card that answers 9000 without data) the uninitialised tlv is used. Partial: that is the only such input."
  },
  {
   "property": "C65",
   "status": "proved",
   "theorems": [
    "C65_push",
    "C65_pop",
    "C65_pop_empty",
    "C65_clear",
    "C65_selection_required",
    "C65_free"
   ],
   "note": ""
  },
  {
   "property": "C66",
   "status": "partial",
   "theorems": [
    "C66_find_ends_refuted",
    "C66_find_ends_partial",
    "C66_partial_matching_partial"
   ],
   "note": "False of the code: with partial matching, a card that keeps answering SELECT next is asked for ever. Partial: ends when no AID allows partial matching, and with it for every card that ends SELECT next after at most n answers."
  },
  {
   "property": "C67",
   "status": "partial",
   "theorems": [
    "C67_no_dangling_refuted",
    "C67_no_dangling_partial"
   ],
   "note": "False of the code: with AIP present and AFL missing in format 2 the AIP pointer refers to a released field. Partial: only then, and never the AFL pointer."
  },
  {
   "property": "C68",
   "status": "partial",
   "theorems": [
    "C68_records_safe_refuted",
    "C68_records_safe_partial"
   ],
   "note": "False of the code: a record without octets answered 9000 makes it read an uninitialised buffer. Partial: that is the only case."
  },
  {
   "property": "C69",
   "status": "proved",
   "theorems": [
    "C69_candidates_selected"
   ],
   "note": ""
  },
  {
   "property": "C70",
   "status": "proved",
   "theorems": [
    "C70_initiate"
   ],
   "note": ""
  },
  {
   "property": "C71",
   "status": "partial",
   "theorems": [
    "C71_gpo_afl_refuted",
    "C71_gpo_afl_partial"
   ],
   "note": "Refuted for FCIs with a field 94 (it shadows the AFL of the response). Proved for FCIs without."
  },
  {
   "property": "C72",
   "status": "partial",
   "theorems": [
    "C72_complete_refuted",
    "C72_rest_refuted",
    "C72_complete_partial"
   ],
   "note": "False: TD4 (incomplete ATR accepted) and trailing bytes (witnesses). Proved without TD4 up to trailing bytes."
  },
  {
   "property": "C73",
   "status": "partial",
   "theorems": [
    "C73_well_formed_refuted",
    "C73_well_formed_partial"
   ],
   "note": "False: category indicator 00 or 80 without any COMPACT-TLV object is refused (witness). Proved if there is an object and at most four groups of interface bytes."
  },
  {
   "property": "C74",
   "status": "partial",
   "theorems": [
    "C74_status_refuted",
    "C74_status_partial"
   ],
   "note": "False for ATRs that indicate TD4 (refuted with a witness: TD4 is taken for the category indicator); proved for all accepted ATRs that do not indicate TD4."
  },
  {
   "property": "C75",
   "status": "proved",
   "theorems": [
    "C75_text_formats"
   ],
   "note": ""
  },
  {
   "property": "C76",
   "status": "partial",
   "theorems": [
    "C76_value_text_in_bounds_refuted",
    "C76_value_text_partial",
    "C76_value_text_exact"
   ],
   "note": "False of the code: format n with a 4-character output and service code 1234 puts the NUL past the end. Partial: in bounds and terminated with at least 11 characters or an even maximum; exact text for the character formats."
  },
  {
   "property": "C77",
   "status": "partial",
   "theorems": [
    "C77_select_identifier_refuted",
    "C77_select_identifier_partial"
   ],
   "note": "False of the code: a 255-octet non-printable identifier loses its last hex digit. Partial: exact for all other identifiers."
  },
  {
   "property": "C78",
   "status": "partial",
   "theorems": [
    "C78_status_numbers_refuted",
    "C78_status_text_partial",
    "C78_status_meaning",
    "C78_status_unique"
   ],
   "note": "False of the code: 6100 and 6C00 show 0 octets instead of 256. Partial: class and truncation exact for every status word; numbers exact for all other values."
  },
  {
   "property": "C79",
   "status": "proved",
   "theorems": [
    "C79_read_record",
    "C79_read_record_all"
   ],
   "note": ""
  },
  {
   "property": "C80",
   "status": "partial",
   "theorems": [
    "C80_life_cycle_refuted",
    "C80_life_cycle_partial"
   ],
   "note": "False of the code: the reserved values 02 and 08 to 0B are described as proprietary. Partial: exact for all other values."
  },
  {
   "property": "C81",
   "status": "partial",
   "theorems": [
    "C81_has_feature_exact",
    "C81_get_feature_exact",
    "C81_features_safe",
    "C81_disconnect_unset_handle_refuted"
   ],
   "note": "False in one respect: after a failed connect a handle that was never set is passed to SCardDisconnect (witness). Look up and buffer safety are proved."
  },
  {
   "property": "C82",
   "status": "partial",
   "theorems": [
    "C82_wait_asks",
    "C82_wait_result",
    "C82_wait_specific",
    "C82_wait_again_refuted"
   ],
   "note": "False in one respect: after no card was found the index is SIZE_MAX, which does not mean any reader, so the repeated call ignores all readers (witness). The rest is proved."
  },
  {
   "property": "C83",
   "status": "proved",
   "theorems": [
    "C83_contact_card",
    "C83_contactless_card"
   ],
   "note": ""
  },
  {
   "property": "C84",
   "status": "proved",
   "theorems": [
    "C84_reader_safe",
    "C84_atr_exact"
   ],
   "note": ""
  },
  {
   "property": "C85",
   "status": "proved",
   "theorems": [
    "C85_reader_list"
   ],
   "note": ""
  },
  {
   "property": "C86",
   "status": "partial",
   "theorems": [
    "C86_failed_connect_releases_partial",
    "C86_uid_failure_keeps_reader_refuted"
   ],
   "note": "False of the code: a failure reading the UID keeps the reader connected (witness). Proved for failures of connect and status."
  },
  {
   "property": "C87",
   "status": "partial",
   "theorems": [
    "C87_hex_refused_partial",
    "C87_trailing_space_refuted"
   ],
   "note": "False in one respect: white space after the last digit is reported as an odd number of digits (witness). Partial: exact apart from that."
  },
  {
   "property": "C88",
   "status": "proved",
   "theorems": [
    "C88_file_loaded",
    "C88_load_safe"
   ],
   "note": ""
  },
  {
   "property": "C89",
   "status": "proved",
   "theorems": [
    "C89_ber_dump_complete",
    "C89_emv_dump_complete"
   ],
   "note": ""
  },
  {
   "property": "C90",
   "status": "partial",
   "theorems": [
    "C90_ber_dump_nested_partial",
    "C90_emv_dump_nested",
    "C90_after_long_oid_refuted"
   ],
   "note": "False of the BER dump: after an object identifier of 40 or more octets the rest of the data is called invalid (witness). Proved for the EMV dump, and for the BER dump of data whose object identifiers have at most ten arcs in fewer than 40 octets."
  },
  {
   "property": "C91",
   "status": "partial",
   "theorems": [
    "C91_ber_dump_safe_partial",
    "C91_many_arcs_refuted"
   ],
   "note": "False of the code: an object identifier of more than ten arcs is written outside the array (witness). Proved: nothing else can go wrong."
  },
  {
   "property": "C92",
   "status": "proved",
   "theorems": [
    "C92_debug_filter",
    "C92_debug_history"
   ],
   "note": ""
  },
  {
   "property": "C93",
   "status": "proved",
   "theorems": [
    "C93_bit_fields",
    "C93_form_factor_indicator",
    "C93_cryptogram_information",
    "C93_nothing_hidden"
   ],
   "note": ""
  },
  {
   "property": "C94",
   "status": "partial",
   "theorems": [
    "C94_additional_capabilities_refuted",
    "C94_additional_capabilities_partial"
   ],
   "note": "False of the code: a terminal without output is described with 'Terminal Data Input Capability' (witness). Partial: exact if any output bit is set; refusal of other lengths proved."
  },
  {
   "property": "C95",
   "status": "proved",
   "theorems": [
    "C95_afl_text",
    "C95_afl_refused"
   ],
   "note": ""
  },
  {
   "property": "C96",
   "status": "proved",
   "theorems": [
    "C96_cvm_list_text",
    "C96_cvm_results_text"
   ],
   "note": ""
  },
  {
   "property": "C97",
   "status": "partial",
   "theorems": [
    "C97_issuer_application_data_refuted",
    "C97_issuer_application_data_partial",
    "C97_unknown_format_partial"
   ],
   "note": "False of CCD data: the upper cumulative amount limit is taken from bit 6 instead of 5 (witness). Partial: exact for all other formats and for CCD data where the bits agree; unknown formats proved."
  },
  {
   "property": "C98",
   "status": "partial",
   "theorems": [
    "C98_third_party_data_refuted",
    "C98_third_party_text_partial",
    "C98_third_party_safe_partial"
   ],
   "note": "False of the code: five octets with bit 8 of the unique identifier clear are read past their end (witness). Partial: exact for the formats in the specification; safe for all other data."
  },
  {
   "property": "C99",
   "status": "partial",
   "theorems": [
    "C99_issuer_authentication_refuted",
    "C99_issuer_authentication_partial",
    "C99_issuer_authentication_safe_partial"
   ],
   "note": "False of the code: a letter is missing from the text on upper offline limits, and 17 to 32 octets are accepted (witnesses). Partial: exact for all other data of the specification; safe for all data."
  },
  {
   "property": "C100",
   "status": "partial",
   "theorems": [
    "C100_terminal_type_refuted",
    "C100_terminal_type_partial",
    "C100_terminal_type_two_lines_partial"
   ],
   "note": "False of the code: undefined types such as 51 and 29 are described as defined ones (witnesses). Partial: exact if the digits are at most 3 and 7."
  },
  {
   "property": "C101",
   "status": "proved",
   "theorems": [
    "C101_other_codes",
    "C101_unlisted_codes",
    "C101_response_code_text",
    "C101_response_code_any",
    "C101_response_code_refused"
   ],
   "note": ""
  },
  {
   "property": "C102",
   "status": "proved",
   "theorems": [
    "C102_registered_data_text",
    "C102_registered_data_refused"
   ],
   "note": ""
  },
  {
   "property": "C103",
   "status": "proved",
   "theorems": [
    "C103_single_octets"
   ],
   "note": ""
  },
  {
   "property": "C104",
   "status": "proved",
   "theorems": [
    "C104_candidates",
    "C104_select",
    "C104_initiate",
    "C104_read"
   ],
   "note": ""
  },
  {
   "property": "C105",
   "status": "proved",
   "theorems": [
    "C105_names",
    "C105_known",
    "C105_entries",
    "C105_lists"
   ],
   "note": ""
  },
  {
   "property": "C106",
   "status": "partial",
   "theorems": [
    "C106_info_in_bounds_refuted",
    "C106_info_partial",
    "C106_entries_partial"
   ],
   "note": "False of the code: empty fields with a code of one octet, dates, and a Data Object List entry 84 of length 14 access memory they must not (witnesses). Partial: exactly the listed fields do; numbers need a buffer of 11 chars. Lookups are arbitrary functions."
  },
  {
   "property": "C107",
   "status": "partial",
   "theorems": [
    "C107_df_name_refuted",
    "C107_df_name_partial"
   ],
   "note": "False of the code: the comparison is inverted, so every 14-octet AID is shown raw (witness). Partial: exact for the environment names and all other lengths (except JCB, see C108)."
  },
  {
   "property": "C108",
   "status": "partial",
   "theorems": [
    "C108_aid_text_refuted",
    "C108_aid_text_partial",
    "C108_one_text",
    "C108_fields_partial"
   ],
   "note": "False for JCB, for which emv_aid_get_info fails (witness). Partial: exact for all others."
  },
  {
   "property": "C109",
   "status": "partial",
   "theorems": [
    "C109_numeric_value_refuted",
    "C109_numeric_value_partial",
    "C109_binary_amounts"
   ],
   "note": "False for values of 2^32 or more (witness 50000000.00). Partial: exact below."
  },
  {
   "property": "C110",
   "status": "partial",
   "theorems": [
    "C110_digits_refuted",
    "C110_digits_partial"
   ],
   "note": "False of the code: leading zeros are dropped (witness). Partial: exact without leading zero and below 2^32."
  },
  {
   "property": "C111",
   "status": "proved",
   "theorems": [
    "C111_numeric_codes",
    "C111_letter_codes",
    "C111_languages",
    "C111_currencies"
   ],
   "note": ""
  },
  {
   "property": "C112",
   "status": "proved",
   "theorems": [
    "C112_name",
    "C112_unnamed",
    "C112_described",
    "C112_get_data",
    "C112_put_data"
   ],
   "note": ""
  },
  {
   "property": "C113",
   "status": "partial",
   "theorems": [
    "C113_T0",
    "C113_TD_partial",
    "C113_TD_refuted"
   ],
   "note": "False for TD4, after which no interface bytes are listed (witness). Partial: exact for all ATRs without TD4; T0 in full."
  },
  {
   "property": "C114",
   "status": "partial",
   "theorems": [
    "C114_TA1_partial",
    "C114_TA1_exact_partial",
    "C114_TA1_refuted"
   ],
   "note": "False when Di does not divide Fi: the cycles are rounded down and the bit rate is overstated (witness TA1 = 14). Partial: exact when Di divides Fi, and in general the bounds stated."
  },
  {
   "property": "C115",
   "status": "partial",
   "theorems": [
    "C115_first",
    "C115_specific_partial",
    "C115_specific_refuted",
    "C115_BWT_refuted"
   ],
   "note": "False when two groups are for the same protocol (the last one is described) and when the block waiting time exceeds 32 bits (witnesses). Partial: exact otherwise; TA2, TB1, TB2, TC1 and TC2 in full."
  },
  {
   "property": "C116",
   "status": "proved",
   "theorems": [
    "C116_safe"
   ],
   "note": ""
  },
  {
   "property": "C117",
   "status": "partial",
   "theorems": [
    "C117_TS_T1_partial",
    "C117_TS",
    "C117_T1_refuted"
   ],
   "note": "False for T1 when there is a TD4 (witness). Partial: exact without TD4; TS in full."
  },
  {
   "property": "C118",
   "status": "proved",
   "theorems": [
    "C118_service_data",
    "C118_capabilities",
    "C118_no_capabilities"
   ],
   "note": ""
  },
  {
   "property": "C119",
   "status": "proved",
   "theorems": [
    "C119_names"
   ],
   "note": ""
  },
  {
   "property": "C120",
   "status": "partial",
   "theorems": [
    "C120_dol_partial",
    "C120_dol_refuted",
    "C120_tag_list"
   ],
   "note": "False of the code: an entry with tag 84 and length 14 makes it use a NULL value (witness). Partial: exactly these lists cannot be printed; all others exact. Tag lists in full."
  },
  {
   "property": "C121",
   "status": "partial",
   "theorems": [
    "C121_data_refuted",
    "C121_data_partial",
    "C121_list_partial",
    "C121_safe_partial"
   ],
   "note": "False of the code: for the fields listed in C106 and Data Object Lists with an entry 84 of length 14 (witness). Partial: exact for all others."
  },
  {
   "property": "C122",
   "status": "proved",
   "theorems": [
    "C122_invalid",
    "C122_nested"
   ],
   "note": ""
  },
  {
   "property": "C123",
   "status": "partial",
   "theorems": [
    "C123_response",
    "C123_short_response",
    "C123_command_refuted",
    "C123_command_partial",
    "C123_no_command"
   ],
   "note": "False for commands of one octet, whose second octet is read (witness). Partial: exact for four octets and more; responses in full."
  },
  {
   "property": "C124",
   "status": "partial",
   "theorems": [
    "C124_atr_partial",
    "C124_uninitialised_refuted",
    "C124_beyond_refuted"
   ],
   "note": "False of the code: card capabilities of one octet 00 print an array that is not set, and card service data without octets describe the octet that follows (witnesses). Partial: exact for all ATRs without these and without TD4."
  },
  {
   "property": "C125",
   "status": "partial",
   "theorems": [
    "C125_nothing_set_refuted",
    "C125_cut_refuted",
    "C125_decoded_partial",
    "C125_fits_partial",
    "C125_fits_iad_partial",
    "C125_third_party",
    "C125_form_factor_versions",
    "C125_sizes",
    "C125_status",
    "C125_reader"
   ],
   "note": "False of the code: for a field with no bit set the uninitialised array is printed, and additional terminal capabilities, CVM lists and M/Chip issuer application data are cut off when longer than the array (witnesses). Partial: exact if there is a text and it fits (and outside C94, C97, C100); it fits for all other fields, for CCD and for VSDC formats 0, 1 and 3. Third party data and form factor indicators of other versions in full."
  },
  {
   "property": "C126",
   "status": "partial",
   "theorems": [
    "C126_hex",
    "C126_stdin",
    "C126_lookup",
    "C126_refused",
    "C126_several_refuted"
   ],
   "note": "False for more than one INPUT: the last one is decoded and the others ignored (witness). All other parts in full; INPUT with white space at its end is the subject of C87."
  },
  {
   "property": "C127",
   "status": "partial",
   "theorems": [
    "C127_codes_refuted",
    "C127_country_partial",
    "C127_currency_partial",
    "C127_language",
    "C127_merchant_category"
   ],
   "note": "False of the code: numbers of fewer digits, with spaces or with signs are taken as codes (witnesses). Partial: letters, three digits, and text that does not start like a number. Languages and merchant category codes in full."
  },
  {
   "property": "C128",
   "status": "partial",
   "theorems": [
    "C128_text_refuted",
    "C128_text_partial",
    "C128_control_partial",
    "C128_other_pages"
   ],
   "note": "False of the code: text that starts with a control character prints an empty line without a message, and 1024 accented letters overflow the array (witnesses). Partial: exact below that length and for control characters after the first character; other pages in full."
  },
  {
   "property": "C129",
   "status": "partial",
   "theorems": [
    "C129_type",
    "C129_amount",
    "C129_type_accepted_partial",
    "C129_amount_accepted_partial",
    "C129_type_refuted",
    "C129_amount_refuted"
   ],
   "note": "False of the code: the type may be hexadecimal digits or a digit after a space or sign, the amounts may have white space and a sign, and -18446744073709551615 is taken as 1 (witnesses). Digits in full; partial: what exactly is accepted."
  },
  {
   "property": "C130",
   "status": "partial",
   "theorems": [
    "C130_sources_partial",
    "C130_sources_refused",
    "C130_all_refuted",
    "C130_default",
    "C130_level"
   ],
   "note": "False of the code: ALL selects a bit that is no source, so that no event is passed on (witness). Partial: lists without ALL. Levels, the default and unknown names in full."
  },
  {
   "property": "C131",
   "status": "proved",
   "theorems": [
    "C131_parameters",
    "C131_typed"
   ],
   "note": ""
  },
  {
   "property": "C132",
   "status": "partial",
   "theorems": [
    "C132_messages_partial",
    "C132_zero_refuted"
   ],
   "note": "False of the code: after the message the transaction is performed with the zero amount (witness: the card is sent it). Partial: the messages."
  },
  {
   "property": "C133",
   "status": "proved",
   "theorems": [
    "C133_supported"
   ],
   "note": ""
  },
  {
   "property": "C134",
   "status": "partial",
   "theorems": [
    "C134_reader_partial",
    "C134_lcd_refuted"
   ],
   "note": "False of the code: a display of no characters and no lines is listed as one (witness). Partial: the exact text for lists without a cut element (C56)."
  },
  {
   "property": "C135",
   "status": "partial",
   "theorems": [
    "C135_line_partial",
    "C135_in_range",
    "C135_long_refuted"
   ],
   "note": "False of the code: input is taken three characters at a time, so that \"1002\" is refused and then selects application 2, and a number may be followed by other characters (witnesses). Partial: lines of one or two digits. That a choice is always in the menu is shown in full."
  },
  {
   "property": "C136",
   "status": "partial",
   "theorems": [
    "C136_end_of_input_refuted",
    "C136_rounds_partial",
    "C136_once"
   ],
   "note": "False of the code: at the end of the input the question is repeated for ever (witness). Partial: for enough lines \"1\", or if no choice is required. That no candidate is tried twice is shown in full."
  },
  {
   "property": "C137",
   "status": "partial",
   "theorems": [
    "C137_safe_partial",
    "C137_blank_refuted",
    "C137_printed",
    "C137_commands"
   ],
   "note": "False for cards that accept SELECT or READ RECORD with no data (C64, C68; witness). Partial: safety without these. What is printed and what is sent is shown in full, for readers that take whole commands."
  },
  {
   "property": "C138",
   "status": "proved",
   "theorems": [
    "C138_card_checked"
   ],
   "note": ""
  },
  {
   "property": "C139",
   "status": "proved",
   "theorems": [
    "C139_isocodes",
    "C139_accepts"
   ],
   "note": ""
  },
  {
   "property": "C140",
   "status": "proved",
   "theorems": [
    "C140_reports",
    "C140_before"
   ],
   "note": ""
  },
  {
   "property": "C141",
   "status": "partial",
   "theorems": [
    "C141_returns_partial",
    "C141_returns_refuted",
    "C141_empty_path_refuted",
    "C141_only_these"
   ],
   "note": "False of the code: a numeric code that is no number ends the program, and an empty path is undefined behaviour (witnesses). Partial: without these. That nothing else goes wrong is shown in full."
  },
  {
   "property": "C142",
   "status": "partial",
   "theorems": [
    "C142_again_partial",
    "C142_again_refuted",
    "C142_released",
    "C142_stale_refuted"
   ],
   "note": "False of the code: after a second successful call known country codes are looked up in released memory (witness; shown for every known code and all files), and records read before a failure stay (witness). Partial: a call that cannot read the first file changes nothing."
  },
  {
   "property": "C143",
   "status": "proved",
   "theorems": [
    "C143_mcc",
    "C143_failed"
   ],
   "note": ""
  },
  {
   "property": "C144",
   "status": "partial",
   "theorems": [
    "C144_strings_init",
    "C144_which_partial",
    "C144_which_refuted"
   ],
   "note": "False of the code: 1 and -1 are used for two files each (witness). Partial: the other results."
  },
  {
   "property": "C145",
   "status": "partial",
   "theorems": [
    "C145_iconv_exact",
    "C145_terminated_partial",
    "C145_terminated_refuted",
    "C145_iconv_safe"
   ],
   "note": "False of the code: iconv writes no NUL (witness). Partial: for cleared buffers that are longer than the text. Result and text are shown in full."
  },
  {
   "property": "C146",
   "status": "proved",
   "theorems": [
    "C146_boost_exact"
   ],
   "note": ""
  },
  {
   "property": "C147",
   "status": "partial",
   "theorems": [
    "C147_whole_partial",
    "C147_whole_refuted"
   ],
   "note": "False of the Boost implementation (witness). Partial: iconv."
  },
  {
   "property": "C148",
   "status": "proved",
   "theorems": [
    "C148_text_fields",
    "C148_filled_fields"
   ],
   "note": ""
  },
  {
   "property": "C149",
   "status": "partial",
   "theorems": [
    "C149_highlight_partial",
    "C149_white_space",
    "C149_marks_differ",
    "C149_layouts",
    "C149_wellformed",
    "C149_any",
    "C149_space_refuted"
   ],
   "note": "False of the code: white space in a block with other invalid characters is marked as if it was a character (witness). Partial: all other characters, and white space before the end of the valid data. What the layout of data is, and that it is unique, is shown in full."
  },
  {
   "property": "C150",
   "status": "partial",
   "theorems": [
    "C150_text_partial",
    "C150_text_refuted",
    "C150_first_refuted",
    "C150_same_text"
   ],
   "note": "False of the code: the first character that is not a hex digit is passed to isxdigit, which is undefined for characters above 255 (witness, and shown for all such texts). Partial: texts of characters below 256 (Latin-1), and fields whose description is defined (C105)."
  },
  {
   "property": "C151",
   "status": "partial",
   "theorems": [
    "C151_tree_partial",
    "C151_tree_refuted",
    "C151_agree"
   ],
   "note": "False for fields whose description is undefined behaviour (witness: a CDOL1 with an entry 84). Partial: all others; agreement with the highlighting is shown in full."
  },
  {
   "property": "C152",
   "status": "proved",
   "theorems": [
    "C152_toggle"
   ],
   "note": ""
  },
  {
   "property": "C153",
   "status": "proved",
   "theorems": [
    "C153_selection"
   ],
   "note": ""
  },
  {
   "property": "C154",
   "status": "proved",
   "theorems": [
    "C154_remaining"
   ],
   "note": ""
  },
  {
   "property": "C155",
   "status": "partial",
   "theorems": [
    "C155_agreement_refuted",
    "C155_iso_refuted",
    "C155_agreement_partial"
   ],
   "note": "False of the code: 15 octets after a multiple of 16 are padding in the viewer and an error in the tools, and 80 00 ... is shown as fields (witnesses). Partial: the other lengths."
  },
  {
   "property": "C156",
   "status": "proved",
   "theorems": [
    "C156_told"
   ],
   "note": ""
  },
  {
   "property": "C157",
   "status": "proved",
   "theorems": [
    "C157_line",
    "C157_recovered"
   ],
   "note": ""
  },
  {
   "property": "C158",
   "status": "partial",
   "theorems": [
    "C158_tlv_partial",
    "C158_fci_refuted"
   ],
   "note": "False of the code: file control information with a PDOL that contains the entry 84 0E is accepted, traced with the default settings of emv-tool, and printing it is undefined behaviour (null pointer). Partial: everything that contains no such field."
  },
  {
   "property": "C159",
   "status": "partial",
   "theorems": [
    "C159_display",
    "C159_follows",
    "C159_runs_partial",
    "C159_runs_refuted"
   ],
   "note": "The display follows in all sequences. That nothing makes the window fail is false: a field whose description is undefined behaviour (C105; witness: a CDOL1 with an entry 84) is reached when the timer runs. Partial: for Latin-1 texts without such fields no sequence of events fails."
  },
  {
   "property": "C160",
   "status": "partial",
   "theorems": [
    "C160_selected_partial",
    "C160_edit_refuted",
    "C160_soon_refuted",
    "C160_other_refuted",
    "C160_unpressed"
   ],
   "note": "False of the code, in three ways (witnesses): clearSelection is never called, so after an edit the old positions stay highlighted; an item pressed before the tree follows an edit is highlighted in the new text; and pressing a line that is no field leaves the field before highlighted. Partial: an item pressed when the tree is up to date, until the text or the padding option changes."
  },
  {
   "property": "C161",
   "status": "proved",
   "theorems": [
    "C161_kept",
    "C161_starts"
   ],
   "note": ""
  },
  {
   "property": "C162",
   "status": "partial",
   "theorems": [
    "C162_init",
    "C162_release",
    "C162_foreign_refuted",
    "C162_own_partial"
   ],
   "note": "Memory and the context of the service are as claimed. That no other context is released is false: if SCardEstablishContext fails, context 0 is released (witness). Partial: if it succeeds only that context is released."
  },
  {
   "property": "C163",
   "status": "proved",
   "theorems": [
    "C163_readers",
    "C163_exchange",
    "C163_state"
   ],
   "note": ""
  },
  {
   "property": "C164",
   "status": "partial",
   "theorems": [
    "C164_ber_text",
    "C164_every_partial",
    "C164_invalid",
    "C164_nested",
    "C164_oid_refuted"
   ],
   "note": "False of the code for object identifiers that are not decoded (empty, or 40 octets and more; C07 for more than ten arcs): the line is not ended, an error is reported and what follows is not listed. Proved: all well-formed data without such identifiers, and invalid octets at the top and inside constructed objects."
  },
  {
   "property": "C165",
   "status": "proved",
   "theorems": [
    "C165_decode",
    "C165_parse",
    "C165_record",
    "C165_deep"
   ],
   "note": "In full. The counting functions return what the model's functions return (same theorems)."
  },
  {
   "property": "C166",
   "status": "proved",
   "theorems": [
    "C166_candidates",
    "C166_selection",
    "C166_history",
    "C166_no_leak"
   ],
   "note": "In full, over a heap of application nodes that goes in step with the model over values. Allocation never fails. The fields inside an application are released with it (C08 for lists of fields)."
  },
  {
   "property": "C167",
   "status": "proved",
   "theorems": [
    "C167_gpo",
    "C167_records",
    "C167_initiate",
    "C167_read",
    "C167_history",
    "C167_aid",
    "C167_no_leak"
   ],
   "note": "In full, over the heap of field nodes of C08, in step with the model over sequences. Allocation never fails. Undefined behaviour is that of the model over sequences (C40: a second call uses the AID that the first part of it released), and is undefined over nodes as well."
  },
  {
   "property": "C168",
   "status": "partial",
   "theorems": [
    "C168_calls",
    "C168_status_partial",
    "C168_deactivated_partial",
    "C168_same",
    "C168_status_refuted",
    "C168_deactivated_refuted"
   ],
   "note": "False of the code: main has no return at its end, so every failure after the command line gives status 0 (C168_status_refuted), and only a completed transaction disconnects (C168_deactivated_refuted). Proved: what the status tells, when the card is deactivated and what is said about it, the order of the calls and the one release, and that the run is that of C137."
  },
  {
   "property": "C169",
   "status": "proved",
   "theorems": [
    "C169_from_fci",
    "C169_from_pse",
    "C169_candidates",
    "C169_selection",
    "C169_history",
    "C169_aids",
    "C169_no_leak"
   ],
   "note": "In full, over the heap of field nodes of C08, in step with the model over sequences, and together with the calls of C167 in any order. Allocation never fails. The list of applications is a sequence here (C166 has its nodes); the list of supported AIDs is only read. Undefined behaviour is that of the model over sequences (C40, C64) and is undefined over nodes as well."
  },
  {
   "property": "C170",
   "status": "partial",
   "theorems": [
    "C170_streams",
    "C170_status_partial",
    "C170_status_refuted"
   ],
   "note": "False of the code: main returns 0 after a complaint about the data, and when no decoding option is given (C170_status_refuted). Proved: all the rest, for the decodings of C125. What --version and the list of code pages print is not modelled, only that they end the program with 0."
  },
  {
   "property": "C171",
   "status": "partial",
   "theorems": [
    "C171_in_step",
    "C171_last_words",
    "C171_records_partial",
    "C171_tag_refuted"
   ],
   "note": "False of the code for a record that is not a template 70: src/emv_tal.c:243 prints the tag of a variable that has no value yet (C171_tag_refuted). Proved: all the rest, in step with the model of C28. Trace messages, levels and sources are not in this model."
  },
  {
   "property": "C172",
   "status": "partial",
   "theorems": [
    "C172_in_step",
    "C172_watched",
    "C172_told",
    "C172_which",
    "C172_used_partial",
    "C172_used_refuted"
   ],
   "note": "False of the code for the messages about use: oda_record_count is never looked at, and the flag that authentication is impossible starts anew with each AFL entry (C172_used_refuted). Proved: all the rest, and that within one entry no record is told to be used after an invalid one. In step with the model of C30. Trace messages, levels and sources are not in this model."
  },
  {
   "property": "C173",
   "status": "partial",
   "theorems": [
    "C173_in_step",
    "C173_overheard",
    "C173_search",
    "C173_selected",
    "C173_started",
    "C173_which",
    "C173_numbers",
    "C173_outcome_partial",
    "C173_outcome_refuted"
   ],
   "note": "False of the code for one outcome: of an application whose FCI is invalid nothing is said but the FCI itself (C173_outcome_refuted; the only message there is a trace message). Proved: all the rest, and the message in words for every other outcome. In step with the model of candidate building, selection and GET PROCESSING OPTIONS. Status words are taken to be 16 bits wide, as their C type is. Trace messages, levels and sources are not in this model."
  }
 ]
}