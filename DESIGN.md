# Formal model of emv-utils: design

## Approach

The C code in `/repo/src` (and parts of `/repo/tools`) is transcribed function by function
into total, computable Gallina functions. Each definition cites the file and lines it models and
says where it simplifies. Nothing is extracted, compiled or run: the only tie between model and
code is reading.

Conventions

* Integers are `Z`. Octets are `Z` values `0 <= b < 256` (`is_byte`). Where C arithmetic wraps
  (`uint8_t`, `uint32_t`, `size_t`, conversion to `int`) and this can be observed, the wrap is
  written out.
* A const buffer `(ptr, len)` is a `list Z` of length `len`. Every C array read is a checked read
  that yields the distinct outcome `UB` when the index is outside the buffer. Output buffers are
  lists of the buffer's size with checked writes. `UB` is never a normal return value, so
  "memory safe" is the statement "the result is not `UB`".
* `UB` stands for accesses outside an object, use of indeterminate values where said, use of NULL
  and of freed memory where modelled, and division by zero. Forming a pointer more than one past an
  array (without using it), alignment, and strict aliasing are not modelled.
* NULL arguments are modelled only where said; otherwise pointers are non-NULL and valid for the
  length passed with them. `malloc` never fails. `snprintf` and `vsnprintf` do not fail.
* Loops are structural recursion or recursion on fuel with a distinct `NoFuel` outcome; theorems
  exclude it or are stated for all sufficient fuel. Recursion depth (stack use) is modelled for
  decoding and `emv_tlv_parse` only (`Cost*`).
* The card and its reader are an arbitrary deterministic machine with any state type, universally
  quantified in every theorem; a recording wrapper (`logged`) gives the messages exchanged.
* What a local array contains before it is written is a parameter (`junk`, `loc`, `env`), so that a
  result that depends on it is visible.

Files: `*Model.v` (definitions only), `*Spec.v` (small independent specifications), `*Proofs.v` and
the other files (lemmas), `*Props.v` (property theorems, examples and `Print Assumptions`).
A theorem whose name ends in `_refuted` shows by a witness that the property is false of the model,
one that ends in `_partial` proves the part that holds and says in its statement what is needed.

## Trusted base

* Coq 8.16.1's kernel (including the VM used by `vm_compute`).
* Axioms: none (see the end of this file).
* The reading of the C code into the model (not machine checked).
* The specifications in `*Spec.v`, written from the headers of the library, EMV 4.4 and ISO 7816 as
  far as the sources cite them.
* Contract of the card reader callback: it writes at most the offered number of response octets.
  It need not set the length in any other way.

## Modelled parts

| Files | Code |
|---|---|
| `Base`, `BaseLemmas` | outcomes, checked memory, integer conversions |
| `Ber*` | `iso8825_ber.c`: all functions |
| `TlvList*` | `emv_tlv.c`: list functions at heap level (nodes, next pointers, front and back) |
| `Tlv*` | `emv_tlv.c`: `emv_tlv_parse` and the number and text conversions |
| `Dol*` | `emv_dol.c`: all functions; `iso7816_compact_tlv.c`: decoding and iteration |
| `Ttl*` | `emv_ttl.c`: all functions; `iso7816_apdu.h`: `iso7816_apdu_case`, status words |
| `Fields*` | `emv_fields.c`: all functions |
| `Iso8859*` | `iso8859_simple.c` (the Boost and iconv variants: `Conv*`) |
| `App*` | `emv_app.c`: all functions but `emv_app_list_is_empty`; ownership of the AID and label data |
| `Tal*` | `emv_tal.c`: all functions, over an arbitrary transport; `TalWire` joins it with `emv_ttl.c` |
| `Emv*` | `emv.c`: context, candidate list, selection, initiation, reading of data, `emv_atr_parse`; `EmvWire` joins it with `emv_tal.c` and `emv_ttl.c` |
| `Atr*` | `iso7816.c`: `iso7816_atr_parse`, historical bytes, timing |
| `Str*` | `emv_strings.c`: formats, numbers, dates, track 2, packing of digits, string lists |
| `Capdu*` | `iso7816_strings.c`, `emv_strings.c`: descriptions of commands, status words and life cycle |
| `Ins*` | statements about the instruction names in the descriptions of commands (model: `Capdu*`) |
| `AtrText*` | `iso7816.c`: descriptions of the characters of an ATR |
| `Card*` | `iso7816_strings.c`: card service data and capabilities; `iso7816_compact_tlv.c`: names of tags |
| `Status*` | statements about the exact texts of status words (model: `Capdu*`) |
| `Print*` | `tools/print_helpers.c`: printing of lists, ATRs, commands, responses, fields, Data Object Lists and tag lists |
| `AtrPrint*` | statements about the printing of an ATR (model: `Print*`) |
| `Pcsc*`, `Ctx*` | `pcsc.c`; the PC/SC service is an arbitrary record of functions on a state; `Ctx*` adds the memory and the context of `pcsc_init` and `pcsc_release` |
| `Decode*` | `tools/emv-decode.c`: `argp_parser_helper`, `main` (all decoding options) |
| `Cost*` | number of calls and frames of `iso8825_ber_decode` and `emv_tlv_parse` |
| `Own*` | the functions of `App*`, `Tal*` and `Emv*` that create, link and release applications, over a heap of nodes |
| `Hold*` | the functions of `Tlv*`, `Tal*` and `Emv*` that create, link, move and release fields of a context, over the heap of `TlvList*` |
| `Cand*` | the functions of `App*`, `Tal*` and `Emv*` that create, keep, select and release applications, over the heap of `TlvList*` (their fields) |
| `Exit*` | `tools/emv-tool.c`: the exit status of main and its calls of the PC/SC functions |
| `DecodeExit*` | `tools/emv-decode.c`: the exit status of main and the streams it writes to |
| `Dir*` | `src/emv_tal.c`: the messages of emv_tal_read_pse and emv_tal_parse_aef_record |
| `Rec*` | `src/emv_tal.c`: the messages of emv_tal_read_afl_records and emv_tal_read_sfi_records |
| `Sel*` | `src/emv_tal.c`: the messages of emv_tal_find_supported_apps, emv_tal_select_app and emv_tal_get_processing_options |
| `BerText*` | `tools/print_helpers.c`: the text of `print_ber_buf` |
| `Term*` | `tools/emv-tool.c`: options, configuration, transaction parameters, the text for each reader, the menu, the transaction and `main` from the options on; `print_emv_app`, `print_emv_app_list` |
| `Lookup*` | `src/isocodes_lookup.cpp`, `src/mcc_lookup.cpp`, `emv_strings_init`; std::vector, std::map and json_c_visit as far as used |
| `Conv*` | `src/iso8859_iconv.c`, `src/iso8859_boost.cpp` |
| `View*` | `viewer/emvhighlighter.cpp`, `viewer/emvtreeview.cpp`, `viewer/emvtreeitem.cpp` and what `viewer/emv-viewer-mainwindow.cpp` does with the data and with a pressed item |
| `Win*` | the slots and settings of `viewer/emv-viewer-mainwindow.cpp` as a machine driven by events, `viewer/emv-viewer.cpp` (options) |
| `Field*` | statements about text fields and response codes (model: `Info*`, `Flags*`) |
| `Tell*` | statements that join the command line of emv-tool with the commands of the card (model: `Term*`, `Emv*`, `Tal*`, `Ttl*`) |
| `Trace*` | `tools/print_helpers.c`: `print_emv_debug`, `print_emv_debug_verbose` |
| `Tools*` | `tools/emv-decode.c`: `parse_hex`, `load_from_file`; `tools/print_helpers.c`: the two dump functions; `emv_debug.c` |
| `Flags*` | `emv_strings.c`: all `..._get_string_list` functions and codes of one octet, as tables of statements |
| `Info*` | `emv_strings.c`: `emv_tlv_get_info` and the lookups it uses |

Simplifications

* The field `tag_desc` (prose) of `emv_tlv_get_info` is not modelled.
* The ISO code and merchant category tables are arbitrary functions from codes to texts.
* TLV lists above heap level are `list field`; application lists are `list emvapp`. `TlvList*`
  shows that the linked lists behave as sequences.
* In `Ttl*` the memory after the offered part of a buffer is the parameter `tail`.
* In `Flags*` a function is a table of statements run by an interpreter that makes the same checked
  reads in the same order and adds the same texts. Country names are an arbitrary function.
* In `Tools*` output is a list of lines; recursion in the dump functions is on fuel, and `isspace`
  and `isxdigit` are those of the C locale and answer "no" for octets above 7F, signed `char` or not.
* In `Print*` what is written to standard output is a list of characters. `print_atr` starts each
  description with the same array; C116 shows that its contents do not matter.
* In `Term*` standard input is a finite list of characters, the clock any calendar time, and
  `emv_strings_init` and `emv_debug_init` succeed; `print_emv_tlv_list` is an event with the list
  (its text: `Print*`). `usable`, `blank`, `session_cmd` and similar in `TermSession.v` are part of
  the statements of C136 and C137.
* In `Lookup*` the file system and the JSON parser are an arbitrary function from file names to trees;
  a map entry refers to an element of a vector by storage and index. In `Conv*` the libraries are arbitrary
  (iconv: character by character).
* In `View*` a QString is a list of UTF-16 units, a document a list of blocks, and a QTreeWidgetItem a node of
  a tree with the attributes the code sets. The highlighter is run over all blocks (Qt may rerun some of them).
* In `Win*` an event runs its slots to the end; that `rehighlight()` emits `textChanged` and that a check box reports changes only are facts about Qt
  that the model takes from the comments in the code. `highlight` and `show_data`, to which C159 compares the window, are specified by C149 - C155.
* Where the library calls `emv_debug_*` is modelled for reading the directory (`Dir*`), the application data (`Rec*`), candidate building by list, selection and GET PROCESSING OPTIONS (`Sel*`), not elsewhere; the filter is in `Tools*` and the printing of an event in `Trace*`. Two traces use values that need
  not be set (`tlv.tag` in `emv_tal_parse_aef_record`, `ctx` in
  `emv_initiate_application_processing` before it is checked).

## Plan per property

| Property | Model and proof |
|---|---|
| C01, C02, C03 | `iso8825_ber_tag_decode`, `iso8825_ber_decode` with checked reads; soundness and completeness against a separate grammar of identifier and length octets; induction on fuel for indefinite contents. |
| C04 | Iterator as a fold over the buffer; induction over the list of encodings and over buffer length. |
| C05 | Refuted with a witness buffer; what does hold is proved as partial. |
| C06, C07 | OID decoder with the output structure as checked memory; round trip by induction over components; C07 refuted with an 11-component witness and proved for short inputs. |
| C08, C09, C10 | TLV list at heap level (nodes with next pointers, front/back pointers), refinement to `list` by induction over histories; C10 refuted. |
| C11, C12 | `emv_tlv_parse` against a rose-tree specification; mutual induction over forests. |
| C13, C14, C15 | Numeric conversions with explicit wrap; positional-notation specification; C14 refuted for values of 2^32 and more. |
| C16 | Output buffer as checked memory, specification by `filter`/`map`. |
| C17, C18, C19 | DOL decode/compute/build with checked writes against an entry-wise specification. |
| C20 | As C04 for COMPACT-TLV. |
| C21 | `iso7816_apdu_case` against a grammar of command APDUs; extended cases refuted. |
| C22 | Command builders with a recording card. |
| C23 - C27, C61, C62 | `emv_ttl_trx` as a state machine over an arbitrary card; invariant on the remaining response space; C25, C26, C27 refuted with concrete cards, and proved for the cards where they hold. |
| C28 - C34, C66 - C69 | `emv_tal_*` over an arbitrary transport; decision tables; AFL reads as an explicit list of commands; C29, C31 refuted. |
| C35, C36, C37, C63 - C65 | `emv_app_*` functions; permutation, sortedness and stability. |
| C38 - C40, C58, C59, C70, C71, C104 | `emv_*` kernel functions over the transport and over the wire; C40 needs an ownership model and is refuted. |
| C41 - C44, C72 - C74 | `iso7816_atr_parse` and `emv_atr_parse` against a grammar of the ATR; C41 and C43 refuted in general and proved where they hold. |
| C112 | Names of commands: separate table of instruction bytes, every class byte and buffer. |
| C113 - C117 | Descriptions of an ATR: texts over the abstract layout of interface byte groups (AtrSpec), for every accepted ATR and buffer; TD4, repeated protocols, inexact rates and overflow refuted. |
| C32, C45, C46, C57 | `emv_fields.c` iterators, tables and format detection; C46 refuted for one scheme. |
| C47, C48 | `iso8859_simple.c`; independent UTF-8 specification; C48 refuted. |
| C49 - C55, C75 - C80 | `emv_strings.c`/`iso7816_strings.c` helpers with checked writes; C49, C50, C51, C55 refuted in general. |
| C56, C81 - C86 | `pcsc.c` over an arbitrary PC/SC service. |
| C60, C87 - C92 | `parse_hex` against hex printing with arbitrary spacing; dump functions against the nesting of the data; debug filter. |
| C93 - C103 | Statement tables against the tables of the specifications, by sweeps over octets lifted to whole fields. |
| C105 - C111 | `emv_tlv_get_info` as a table of tag, name, format and action, each action with its own lemma. |
| C78, C118, C119 | Texts of the tables of ISO 7816-4 against the model by sweeps over octets, and emission of lines into any buffer. |
| C120 - C123 | Printing against an inductive description of the text of nested data; induction over fuel and forests; what cannot be printed is characterised exactly. |
| C124 | Composition of C113 - C119 along the abstract layout of the ATR. |
| C125 - C128 | Composition of the description theorems with the command line and a computed bound on the length of a table's lines. |
| C129 - C131 | Characterisation of strtoul's result by the shape of the string; induction over lists of names; arithmetic of BCD. |
| C132 - C138 | Composition of the theorems on `emv.c` (C38, C59, C70, C104) with an invariant of the selection loop: applications stay usable, configuration and parameters unchanged. |
| C139 - C144 | The visit of a flat array as a loop; first-occurrence lemma for maps; generations of vector storage. C141, C142, C144 refuted. |
| C145 - C147 | Induction over the text with the buffer split at the write position; C145, C147 refuted. |
| C148 | Format of each field against a separate table; composition with C49 - C52. |
| C149 - C155 | The walk over the data against an inductive layout of tags, padding and errors with offsets; painting of a block as a fold over its characters; induction over the tree. C149, C150, C151, C155 refuted in part. |
| C156 | Composition of C129, C131, C17 - C19, C63, C70 and C104 along the selection loop. |
| C159 - C161 | An invariant of the window that every event preserves, with C152 for the decoding option and C153 for presses; C160 refuted. |
| C162, C163 | `pcsc_init` with a heap of live blocks and a trace of calls; every failing step. |
| C164 | The events of `Tools*` as text; induction over the data against an inductive description of the lines. |
| C165 | Functions that count calls and frames, equal to the model's; induction over fuel with bounds in the octets consumed. |
| C166 | The functions over nodes go in step with those over values (a relation on results, one lemma per list operation); induction over fuel and histories. |
| C167 | As C166, over field nodes; each allocated node is counted once among the owners, so that moves between lists are permutations. |
| C168 | Case analysis of main along `session`; induction over the selection loop for what is printed. Refuted in part. |
| C169 | As C167, with the fields of a list of applications among the owners; the lists of a context are one part of them, so that the lemmas of C167 apply with the candidates among the others. |
| C170 | Case analysis of every decoding option: each ends in one answer or one complaint; then of main. Refuted in part. |
| C171 | Induction over the objects of a record and over the records, as C28, with the messages collected; the result of each way out against its last message. Refuted in part. |
| C172 | Induction over the records of an entry and over the entries, with the messages and the requests collected. Refuted in part. |
| C173 | Induction over the steps of the search, with the messages and the names collected; case analysis for the two other functions. Refuted in part. |
| C157, C158 | Composition of C121 and C123; injectivity of the hexadecimal text. |

## Not modelled

json-c, iconv and Boost.Locale themselves, the PC/SC library itself, Qt itself and the windows, menus, description panel and clipboard of the viewer, the hidden options of `tools/emv-tool.c`,
and version strings.

## Print Assumptions

Every property theorem is followed by `Print Assumptions` in its file. All of them print
`Closed under the global context`: no axiom is used, not even one of the standard library.

* C01 (proved): `C01_ber_decode_sound`
* C02 (proved): `C02_ber_decode_complete`
* C03 (proved): `C03_ber_decode_memory_safe`
* C04 (proved): `C04_ber_iteration_exact`, `C04_ber_iteration_any_buffer`
* C05 (partial): `C05_indefinite_consumed_refuted`, `C05_nested_indefinite_refuted`, `C05_indefinite_value_partial`
* C06 (proved): `C06_oid_decode_exact`
* C07 (partial): `C07_oid_out_of_bounds_refuted`, `C07_oid_bounds_partial`
* C08 (proved): `C08_tlv_list_history`, `C08_tlv_list_released`
* C09 (proved): `C09_find_first`, `C09_duplicate_exact`
* C10 (partial): `C10_self_append_refuted`, `C10_self_append_always_loses`
* C11 (proved): `C11_parse_flattens`, `C11_parse_success_valid`, `C11_parse_success_iff`
* C12 (proved): `C12_parse_keeps_prior`
* C13 (proved): `C13_format_n_round_trip`
* C14 (partial): `C14_format_n_overflow_refuted`, `C14_format_n_decode_partial`
* C15 (proved): `C15_format_b_encode`, `C15_format_b_decode`
* C16 (proved): `C16_ans_non_control`, `C16_ans_alnum_space`, `C16_binary_to_hex`, `C16_empty_rejected`
* C17 (proved): `C17_dol_entries`, `C17_dol_any_buffer`, `C17_dol_data_length`
* C18 (proved): `C18_dol_build_exact`, `C18_entry_data_unique`
* C19 (proved): `C19_dol_build_bounded`
* C20 (proved): `C20_compact_tlv_objects`, `C20_compact_tlv_any_buffer`
* C21 (partial): `C21_apdu_case_extended_refuted`, `C21_apdu_case_partial`, `C21_apdu_case_safe`
* C22 (proved): `C22_select_octets`, `C22_select_next_octets`, `C22_select_range`, `C22_read_record_octets`, `C22_read_record_range`, `C22_gpo_octets`, `C22_gpo_range`
* C23 (proved): `C23_trx_buffer_safe`
* C24 (proved): `C24_trx_chain`, `C24_trx_warning`, `C24_read_record_chain`
* C25 (partial): `C25_trx_termination_refuted`, `C25_trx_termination_partial`
* C26 (partial): `C26_small_buffer_refuted`, `C26_small_buffer_partial`
* C27 (partial): `C27_tpdu_data_once_refuted`, `C27_tpdu_ack_all_partial`
* C28 (proved): `C28_transport`, `C28_select_status`, `C28_directory`, `C28_empty_unless_success`, `C28_results_differ`
* C29 (partial): `C29_read_pse_ends_refuted`, `C29_read_pse_ends_partial`
* C30 (proved): `C30_reads_as_listed`, `C30_success`, `C30_success_only`, `C30_on_the_wire`, `C30_success_on_the_wire`
* C31 (partial): `C31_read_afl_ends_refuted`, `C31_read_afl_ends_partial`
* C32 (proved): `C32_afl_roundtrip`, `C32_afl_any`, `C32_afl_init`
* C33 (proved): `C33_decoded`, `C33_every_outcome`
* C34 (partial): `C34_select_refuted`, `C34_select_partial`
* C35 (proved): `C35_supported`
* C36 (partial): `C36_sort_partial`, `C36_stable_sort_refuted`, `C36_sort_refines`
* C37 (proved): `C37_remove_index`
* C38 (partial): `C38_all_supported_refuted`, `C38_candidates_partial`, `C38_honest_card_partial`
* C39 (proved): `C39_all_or_nothing`, `C39_accepted`, `C39_outcome`
* C40 (partial): `C40_twice_refuted`, `C40_after_success_partial`, `C40_after_failure_partial`
* C41 (partial): `C41_no_ub_refuted`, `C41_no_ub_partial`, `C41_exactly_partial`, `C41_length`
* C42 (partial): `C42_check_byte_refuted`, `C42_check_byte_partial`, `C42_present_partial`
* C43 (partial): `C43_overflow_refuted`, `C43_first_refuted`, `C43_timing_partial`
* C44 (partial): `C44_emv_refuted`, `C44_emv_partial`
* C45 (proved): `C45_cvm_list`, `C45_cvm_odd`
* C46 (partial): `C46_aid_jcb_refuted`, `C46_aid_scheme_partial`, `C46_aid_unknown`, `C46_aid_length`, `C46_schemes_differ`
* C47 (proved): `C47_utf8_exact`, `C47_utf8_exists`, `C47_utf8_control`, `C47_utf8_codepage`
* C48 (partial): `C48_utf8_bounds_refuted`, `C48_utf8_overflow`, `C48_utf8_bounds_partial`
* C49 (partial): `C49_date_time_in_bounds_refuted`, `C49_date_time_exact_partial`, `C49_date_time_text_partial`
* C50 (partial): `C50_number_formatting_refuted`, `C50_number_formatting_partial`, `C50_amount_text`, `C50_numeric_text`
* C51 (partial): `C51_track2_in_bounds_refuted`, `C51_track2_partial`, `C51_track2_safe_size`
* C52 (proved): `C52_cn_round_trip`, `C52_cn_inverse`, `C52_cn_pack_all`, `C52_cn_format_all`
* C53 (proved): `C53_numeric_packing`, `C53_numeric_fits`, `C53_numeric_invalid`
* C54 (partial): `C54_list_terminated_refuted`, `C54_iso_list_cut_refuted`, `C54_list_partial`, `C54_iso_list_partial`
* C55 (partial): `C55_capdu_in_bounds_refuted`, `C55_capdu_partial`, `C55_iso_capdu_safe`
* C56 (partial): `C56_property_found_partial`, `C56_property_cut_partial`, `C56_property_absent_partial`, `C56_property_lists_partial`, `C56_property_cut_other_partial`, `C56_property_lookup_leaves_refuted`, `C56_property_not_listed_refuted`
* C57 (proved): `C57_iad_format`, `C57_formats_differ`
* C58 (proved): `C58_reset`, `C58_clear`
* C59 (proved): `C59_select`, `C59_index`
* C60 (proved): `C60_hex_round_trip`, `C60_hex_accepted`
* C61 (partial): `C61_tpdu_command_bounds_refuted`, `C61_command_bounds_partial`
* C62 (partial): `C62_wrong_le_repeat_refuted`, `C62_wrong_le_repeat_partial`
* C63 (proved): `C63_create_from_pse`, `C63_create_from_fci`
* C64 (partial): `C64_empty_fci_refuted`, `C64_nonempty_fci_partial`
* C65 (proved): `C65_push`, `C65_pop`, `C65_pop_empty`, `C65_clear`, `C65_selection_required`, `C65_free`
* C66 (partial): `C66_find_ends_refuted`, `C66_find_ends_partial`, `C66_partial_matching_partial`
* C67 (partial): `C67_no_dangling_refuted`, `C67_no_dangling_partial`
* C68 (partial): `C68_records_safe_refuted`, `C68_records_safe_partial`
* C69 (proved): `C69_candidates_selected`
* C70 (proved): `C70_initiate`
* C71 (partial): `C71_gpo_afl_refuted`, `C71_gpo_afl_partial`
* C72 (partial): `C72_complete_refuted`, `C72_rest_refuted`, `C72_complete_partial`
* C73 (partial): `C73_well_formed_refuted`, `C73_well_formed_partial`
* C74 (partial): `C74_status_refuted`, `C74_status_partial`
* C75 (proved): `C75_text_formats`
* C76 (partial): `C76_value_text_in_bounds_refuted`, `C76_value_text_partial`, `C76_value_text_exact`
* C77 (partial): `C77_select_identifier_refuted`, `C77_select_identifier_partial`
* C78 (partial): `C78_status_numbers_refuted`, `C78_status_text_partial`, `C78_status_meaning`, `C78_status_unique`
* C79 (proved): `C79_read_record`, `C79_read_record_all`
* C80 (partial): `C80_life_cycle_refuted`, `C80_life_cycle_partial`
* C81 (partial): `C81_has_feature_exact`, `C81_get_feature_exact`, `C81_features_safe`, `C81_disconnect_unset_handle_refuted`
* C82 (partial): `C82_wait_asks`, `C82_wait_result`, `C82_wait_specific`, `C82_wait_again_refuted`
* C83 (proved): `C83_contact_card`, `C83_contactless_card`
* C84 (proved): `C84_reader_safe`, `C84_atr_exact`
* C85 (proved): `C85_reader_list`
* C86 (partial): `C86_failed_connect_releases_partial`, `C86_uid_failure_keeps_reader_refuted`
* C87 (partial): `C87_hex_refused_partial`, `C87_trailing_space_refuted`
* C88 (proved): `C88_file_loaded`, `C88_load_safe`
* C89 (proved): `C89_ber_dump_complete`, `C89_emv_dump_complete`
* C90 (partial): `C90_ber_dump_nested_partial`, `C90_emv_dump_nested`, `C90_after_long_oid_refuted`
* C91 (partial): `C91_ber_dump_safe_partial`, `C91_many_arcs_refuted`
* C92 (proved): `C92_debug_filter`, `C92_debug_history`
* C93 (proved): `C93_bit_fields`, `C93_form_factor_indicator`, `C93_cryptogram_information`, `C93_nothing_hidden`
* C94 (partial): `C94_additional_capabilities_refuted`, `C94_additional_capabilities_partial`
* C95 (proved): `C95_afl_text`, `C95_afl_refused`
* C96 (proved): `C96_cvm_list_text`, `C96_cvm_results_text`
* C97 (partial): `C97_issuer_application_data_refuted`, `C97_issuer_application_data_partial`, `C97_unknown_format_partial`
* C98 (partial): `C98_third_party_data_refuted`, `C98_third_party_text_partial`, `C98_third_party_safe_partial`
* C99 (partial): `C99_issuer_authentication_refuted`, `C99_issuer_authentication_partial`, `C99_issuer_authentication_safe_partial`
* C100 (partial): `C100_terminal_type_refuted`, `C100_terminal_type_partial`, `C100_terminal_type_two_lines_partial`
* C101 (proved): `C101_other_codes`, `C101_unlisted_codes`, `C101_response_code_text`, `C101_response_code_any`, `C101_response_code_refused`
* C102 (proved): `C102_registered_data_text`, `C102_registered_data_refused`
* C103 (proved): `C103_single_octets`
* C104 (proved): `C104_candidates`, `C104_select`, `C104_initiate`, `C104_read`
* C105 (proved): `C105_names`, `C105_known`, `C105_entries`, `C105_lists`
* C106 (partial): `C106_info_in_bounds_refuted`, `C106_info_partial`, `C106_entries_partial`
* C107 (partial): `C107_df_name_refuted`, `C107_df_name_partial`
* C108 (partial): `C108_aid_text_refuted`, `C108_aid_text_partial`, `C108_one_text`, `C108_fields_partial`
* C109 (partial): `C109_numeric_value_refuted`, `C109_numeric_value_partial`, `C109_binary_amounts`
* C110 (partial): `C110_digits_refuted`, `C110_digits_partial`
* C111 (proved): `C111_numeric_codes`, `C111_letter_codes`, `C111_languages`, `C111_currencies`
* C112 (proved): `C112_name`, `C112_unnamed`, `C112_described`, `C112_get_data`, `C112_put_data`
* C113 (partial): `C113_T0`, `C113_TD_partial`, `C113_TD_refuted`
* C114 (partial): `C114_TA1_partial`, `C114_TA1_exact_partial`, `C114_TA1_refuted`
* C115 (partial): `C115_first`, `C115_specific_partial`, `C115_specific_refuted`, `C115_BWT_refuted`
* C116 (proved): `C116_safe`
* C117 (partial): `C117_TS_T1_partial`, `C117_TS`, `C117_T1_refuted`
* C118 (proved): `C118_service_data`, `C118_capabilities`, `C118_no_capabilities`
* C119 (proved): `C119_names`
* C120 (partial): `C120_dol_partial`, `C120_dol_refuted`, `C120_tag_list`
* C121 (partial): `C121_data_refuted`, `C121_data_partial`, `C121_list_partial`, `C121_safe_partial`
* C122 (proved): `C122_invalid`, `C122_nested`
* C123 (partial): `C123_response`, `C123_short_response`, `C123_command_refuted`, `C123_command_partial`, `C123_no_command`
* C124 (partial): `C124_atr_partial`, `C124_uninitialised_refuted`, `C124_beyond_refuted`
* C125 (partial): `C125_nothing_set_refuted`, `C125_cut_refuted`, `C125_decoded_partial`, `C125_fits_partial`, `C125_fits_iad_partial`, `C125_third_party`, `C125_form_factor_versions`, `C125_sizes`, `C125_status`, `C125_reader`
* C126 (partial): `C126_hex`, `C126_stdin`, `C126_lookup`, `C126_refused`, `C126_several_refuted`
* C127 (partial): `C127_codes_refuted`, `C127_country_partial`, `C127_currency_partial`, `C127_language`, `C127_merchant_category`
* C128 (partial): `C128_text_refuted`, `C128_text_partial`, `C128_control_partial`, `C128_other_pages`
* C129 (partial): `C129_type`, `C129_amount`, `C129_type_accepted_partial`, `C129_amount_accepted_partial`, `C129_type_refuted`, `C129_amount_refuted`
* C130 (partial): `C130_sources_partial`, `C130_sources_refused`, `C130_all_refuted`, `C130_default`, `C130_level`
* C131 (proved): `C131_parameters`, `C131_typed`
* C132 (partial): `C132_messages_partial`, `C132_zero_refuted`
* C133 (proved): `C133_supported`
* C134 (partial): `C134_reader_partial`, `C134_lcd_refuted`
* C135 (partial): `C135_line_partial`, `C135_in_range`, `C135_long_refuted`
* C136 (partial): `C136_end_of_input_refuted`, `C136_rounds_partial`, `C136_once`
* C137 (partial): `C137_safe_partial`, `C137_blank_refuted`, `C137_printed`, `C137_commands`
* C138 (proved): `C138_card_checked`
* C139 (proved): `C139_isocodes`, `C139_accepts`
* C140 (proved): `C140_reports`, `C140_before`
* C141 (partial): `C141_returns_partial`, `C141_returns_refuted`, `C141_empty_path_refuted`, `C141_only_these`
* C142 (partial): `C142_again_partial`, `C142_again_refuted`, `C142_released`, `C142_stale_refuted`
* C143 (proved): `C143_mcc`, `C143_failed`
* C144 (partial): `C144_strings_init`, `C144_which_partial`, `C144_which_refuted`
* C145 (partial): `C145_iconv_exact`, `C145_terminated_partial`, `C145_terminated_refuted`, `C145_iconv_safe`
* C146 (proved): `C146_boost_exact`
* C147 (partial): `C147_whole_partial`, `C147_whole_refuted`
* C148 (proved): `C148_text_fields`, `C148_filled_fields`
* C149 (partial): `C149_highlight_partial`, `C149_white_space`, `C149_marks_differ`, `C149_layouts`, `C149_wellformed`, `C149_any`, `C149_space_refuted`
* C150 (partial): `C150_text_partial`, `C150_text_refuted`, `C150_first_refuted`, `C150_same_text`
* C151 (partial): `C151_tree_partial`, `C151_tree_refuted`, `C151_agree`
* C152 (proved): `C152_toggle`
* C153 (proved): `C153_selection`
* C154 (proved): `C154_remaining`
* C155 (partial): `C155_agreement_refuted`, `C155_iso_refuted`, `C155_agreement_partial`
* C156 (proved): `C156_told`
* C157 (proved): `C157_line`, `C157_recovered`
* C158 (partial): `C158_tlv_partial`, `C158_fci_refuted`
* C159 (partial): `C159_display`, `C159_follows`, `C159_runs_partial`, `C159_runs_refuted`
* C160 (partial): `C160_selected_partial`, `C160_edit_refuted`, `C160_soon_refuted`, `C160_other_refuted`, `C160_unpressed`
* C161 (proved): `C161_kept`, `C161_starts`
* C162 (partial): `C162_init`, `C162_release`, `C162_foreign_refuted`, `C162_own_partial`
* C163 (proved): `C163_readers`, `C163_exchange`, `C163_state`
* C164 (partial): `C164_ber_text`, `C164_every_partial`, `C164_invalid`, `C164_nested`, `C164_oid_refuted`
* C165 (proved): `C165_decode`, `C165_parse`, `C165_record`, `C165_deep`
* C166 (proved): `C166_candidates`, `C166_selection`, `C166_history`, `C166_no_leak`
* C167 (proved): `C167_gpo`, `C167_records`, `C167_initiate`, `C167_read`, `C167_history`, `C167_aid`, `C167_no_leak`
* C168 (partial): `C168_calls`, `C168_status_partial`, `C168_deactivated_partial`, `C168_same`, `C168_status_refuted`, `C168_deactivated_refuted`
* C169 (proved): `C169_from_fci`, `C169_from_pse`, `C169_candidates`, `C169_selection`, `C169_history`, `C169_aids`, `C169_no_leak`
* C170 (partial): `C170_streams`, `C170_status_partial`, `C170_status_refuted`
* C171 (partial): `C171_in_step`, `C171_last_words`, `C171_records_partial`, `C171_tag_refuted`
* C172 (partial): `C172_in_step`, `C172_watched`, `C172_told`, `C172_which`, `C172_used_partial`, `C172_used_refuted`
* C173 (partial): `C173_in_step`, `C173_overheard`, `C173_search`, `C173_selected`, `C173_started`, `C173_which`, `C173_numbers`, `C173_outcome_partial`, `C173_outcome_refuted`
