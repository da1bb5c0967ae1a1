{"id": "C01", "title": "BER decode is sound for definite lengths", "statement": "If decoding a buffer as one BER object succeeds and the object uses a definite length, then the buffer starts with valid identifier octets for the returned tag, then a valid length field for the returned length, then exactly the returned value octets, and the number of octets reported as consumed is the sum of the three parts.", "quantifier": "every octet string of every length", "why_tests_cant": "Unit tests decode a handful of sample objects; the space of tag/length forms (multi-octet tags, non-minimal long lengths, truncations) times arbitrary trailing data is infinite.", "anchors": ["src/iso8825_ber.c: iso8825_ber_decode, iso8825_ber_tag_decode"]}
{"id": "C02", "title": "BER decode is complete for definite lengths (round trip)", "statement": "Encoding any tag of one to four identifier octets, any length in short form or in long form with one to four length octets, and a value of that length, followed by arbitrary data, then decoding it returns that tag, class/constructed flag, length and value, and consumes exactly the encoding.", "quantifier": "every well-formed tag, every value up to 2^31-1 minus header octets, every legal length form, every trailing data", "why_tests_cant": "A round trip for all values and all non-canonical length forms cannot be enumerated.", "anchors": ["src/iso8825_ber.c: iso8825_ber_decode"]}
{"id": "C03", "title": "BER decode never touches memory outside the input", "statement": "Decoding one tag or one BER object, definite or indefinite, nested to any depth, reads only octets inside the given buffer, and a returned value always lies inside the buffer.", "quantifier": "every buffer content and length, every nesting depth", "why_tests_cant": "A sanitizer run only witnesses the inputs it is given; the absence of an out-of-bounds read must hold for all inputs.", "anchors": ["src/iso8825_ber.c: iso8825_ber_tag_decode, iso8825_ber_decode"]}
{"id": "C04", "title": "BER iteration visits exactly the encoded objects in order", "statement": "Iterating over the concatenation of any finite list of definite-length BER encodings yields exactly those objects in order, then reports the end; on any buffer every successful step consumes at least two octets, the consumed octets of the steps are adjacent pieces of the buffer, and iteration always ends.", "quantifier": "every list of objects of every size, every buffer", "why_tests_cant": "Tests iterate over fixed lists; the claim is an induction over list length and over arbitrary malformed buffers.", "anchors": ["src/iso8825_ber.c: iso8825_ber_itr_init, iso8825_ber_itr_next"]}
{"id": "C05", "title": "Indefinite-length objects are consumed including their end-of-contents octets", "statement": "Decoding a constructed indefinite-length object consumes the header, the contents and the two end-of-contents octets, so that iteration continues with the octet after them, and a nested indefinite-length object does not end the outer one.", "quantifier": "every constructed indefinite-length object and everything that follows it", "why_tests_cant": "The existing tests use one sample at the end of a buffer, where the unconsumed end-of-contents octets go unnoticed.", "anchors": ["src/iso8825_ber.c: iso8825_ber_decode, iso8825_ber_itr_next"]}
{"id": "C06", "title": "OID decode returns the encoded object identifier", "statement": "Decoding the BER content octets of an object identifier with at most ten components, first component 0 to 2 and every component below 2^32, whose first octet holds the first two components, returns exactly the components.", "quantifier": "every object identifier with 2 to 10 components in range", "why_tests_cant": "Base-128 groups of every length and value cannot be enumerated.", "anchors": ["src/iso8825_ber.c: iso8825_ber_oid_decode"]}
{"id": "C07", "title": "OID decode never writes outside the caller's OID structure", "statement": "For any content octets OID decode either reports an error or fills at most the ten components of the output structure; it never writes beyond it.", "quantifier": "every octet string", "why_tests_cant": "Needs an input with more than ten components; the bug (element count compared with a byte size) is invisible to tests with short identifiers.", "anchors": ["src/iso8825_ber.c: iso8825_ber_oid_decode", "src/iso8825_ber.h: struct iso8825_oid_t"]}
{"id": "C08", "title": "Any history of TLV list operations behaves like a sequence", "statement": "Starting from an empty TLV list, any sequence of push, pop, append of another list and clear leaves the list holding exactly the sequence of fields that the same operations on a mathematical sequence give (push at the back, pop from the front, append empties the other list), touches only live memory, and after clear every allocated field has been released exactly once.", "quantifier": "every finite history of operations on two lists, every tag, length, value and flag", "why_tests_cant": "Tests replay a few short histories; linked-list corruption, leaks and double frees depend on the whole history.", "anchors": ["src/emv_tlv.c: emv_tlv_list_push, emv_tlv_list_pop, emv_tlv_list_append, emv_tlv_list_clear, emv_tlv_list_is_empty"]}
{"id": "C09", "title": "TLV find returns the first match and duplicate detection is exact", "statement": "Finding a tag in a TLV list returns the first field with that tag and nothing if no field has it; the duplicate check answers yes exactly if two different positions hold the same tag.", "quantifier": "every list content and every tag", "why_tests_cant": "Position and multiplicity of tags range over all lists.", "anchors": ["src/emv_tlv.c: emv_tlv_list_find, emv_tlv_list_find_const, emv_tlv_list_has_duplicate"]}
{"id": "C10", "title": "Appending a TLV list to itself keeps its fields", "statement": "Appending a TLV list to itself either is rejected or leaves the list's fields reachable.", "quantifier": "every list", "why_tests_cant": "Aliased arguments are not tested; the result is a silent loss and leak of all fields.", "anchors": ["src/emv_tlv.c: emv_tlv_list_append"]}
{"id": "C11", "title": "TLV parsing flattens the template tree", "statement": "Parsing a buffer of definite-length BER objects appends to the list exactly the primitive fields of the tree in depth-first order, each with its tag, length and value, and adds nothing for the templates; it succeeds exactly if the buffer and every nested template are completely valid.", "quantifier": "every forest of BER objects of every depth and size", "why_tests_cant": "Trees of unbounded depth and width.", "anchors": ["src/emv_tlv.c: emv_tlv_parse"]}
{"id": "C12", "title": "A TLV parse error never disturbs fields already in the list", "statement": "Whatever the buffer, after parsing the list starts with all the fields it held before, in the same order and unchanged, and what follows are fields of the buffer.", "quantifier": "every buffer and every prior list", "why_tests_cant": "The claim ranges over all malformed inputs and all prior states.", "anchors": ["src/emv_tlv.c: emv_tlv_parse, emv_tlv_list_push"]}
{"id": "C13", "title": "Numeric (format n) encoding round-trips", "statement": "Encoding any 32-bit number as format n into a field large enough and decoding it gives the number back, right justified with leading zeros; a field too small for the digits keeps the least significant digits.", "quantifier": "every value below 2^32 and every field length", "why_tests_cant": "2^32 values times all field lengths.", "anchors": ["src/emv_tlv.c: emv_uint_to_format_n, emv_format_n_to_uint"]}
{"id": "C14", "title": "Decoding a format n field never returns a wrong number", "statement": "Decoding a format n field returns its decimal value, or an error if the field is not decimal or the value does not fit 32 bits.", "quantifier": "every field content and length", "why_tests_cant": "Silent wrap-around needs values above 4294967295; a 6-byte amount field allows them but tests use small amounts.", "anchors": ["src/emv_tlv.c: emv_format_n_to_uint", "src/emv_strings.c: emv_format_n_get_string"]}
{"id": "C15", "title": "Binary (format b) encoding round-trips", "statement": "Encoding any 32-bit number as format b into a field of 1 to 4 bytes and decoding it gives the number modulo 256 to the field length, and decoding any field of 1 to 4 bytes gives its big-endian value; longer fields are rejected.", "quantifier": "every value and every field length", "why_tests_cant": "2^32 values times lengths.", "anchors": ["src/emv_tlv.c: emv_uint_to_format_b, emv_format_b_to_uint"]}
{"id": "C16", "title": "Text conversions are bounded, NUL terminated and exact", "statement": "Converting an ans or binary field to text writes only inside the output buffer, always terminates it, and the text is exactly the allowed characters of the field in order (or the hex digits), cut after as many characters as fit.", "quantifier": "every field content and length and every output buffer size", "why_tests_cant": "Off-by-one behaviour must be excluded for all size combinations.", "anchors": ["src/emv_tlv.c: emv_format_ans_to_non_control_str, emv_format_ans_to_alnum_space_str, emv_format_b_to_str"]}
{"id": "C17", "title": "DOL decoding and length computation", "statement": "For every list of DOL entries (tag of one to four octets, length 0 to 255) the encoded DOL iterates to exactly these entries and the computed data length is the sum of the entry lengths; a truncated or malformed DOL is reported as an error and never read out of bounds.", "quantifier": "every DOL", "why_tests_cant": "Entries of every number, tag size and length.", "anchors": ["src/emv_dol.c: emv_dol_decode, emv_dol_itr_next, emv_dol_compute_data_length"]}
{"id": "C18", "title": "DOL data is built exactly as EMV requires", "statement": "Building DOL data yields, entry by entry, the value of the first source list that has the field, truncated or padded to the requested length according to whether the field is numeric (left) or not (right), and zeros for fields that no source has.", "quantifier": "every DOL, every three source lists, every output buffer size", "why_tests_cant": "Combinations of lengths, formats and sources are unbounded.", "anchors": ["src/emv_dol.c: emv_dol_build_data"]}
{"id": "C19", "title": "DOL data building is bounded by the output buffer", "statement": "Building DOL data writes only inside the output buffer, succeeds exactly if the DOL is valid and the computed length fits, and reports exactly the computed length.", "quantifier": "every DOL, sources and buffer size", "why_tests_cant": "Buffer sizes and DOLs are unbounded.", "anchors": ["src/emv_dol.c: emv_dol_build_data, emv_dol_compute_data_length"]}
{"id": "C20", "title": "COMPACT-TLV iteration visits exactly the encoded objects", "statement": "Iterating over the concatenation of any list of COMPACT-TLV objects yields exactly these objects; on any buffer it reads only inside the buffer and ends.", "quantifier": "every list of objects and every buffer", "why_tests_cant": "Unbounded lists and malformed buffers.", "anchors": ["src/iso7816_compact_tlv.c: iso7816_compact_tlv_decode, iso7816_compact_tlv_itr_next"]}
{"id": "C21", "title": "Command APDU case classification", "statement": "Classifying a command APDU returns the ISO 7816-3 case (1, 2S, 3S, 4S, 2E, 3E, 4E) of every well-formed command and an error for every other octet string.", "quantifier": "every octet string", "why_tests_cant": "All header, length-field and body-length combinations; the extended cases are only sampled.", "anchors": ["src/iso7816_apdu.h: iso7816_apdu_case"]}
{"id": "C22", "title": "APDU commands are formed exactly as specified", "statement": "SELECT by DF name, SELECT next, READ RECORD and GET PROCESSING OPTIONS each send one command whose octets are exactly those of the EMV specification for the given parameters, and send nothing at all if a parameter is out of range.", "quantifier": "every AID, SFI, record number and PDOL data", "why_tests_cant": "All parameter values and lengths.", "anchors": ["src/emv_ttl.c: emv_ttl_select_by_df_name, emv_ttl_select_by_df_name_next, emv_ttl_read_record, emv_ttl_get_processing_options"]}
{"id": "C23", "title": "Exchanging an APDU never overflows the response buffer", "statement": "With a response buffer of at least two bytes, exchanging a command with any card writes only inside the response buffer, and the reported length never exceeds its size.", "quantifier": "every command, every card behaviour (any number of 61XX/6CXX/procedure bytes), every buffer size of at least 2", "why_tests_cant": "The card is an adversary producing unbounded response sequences.", "anchors": ["src/emv_ttl.c: emv_ttl_trx"]}
{"id": "C24", "title": "Chained responses are concatenated in order", "statement": "If a card answers a command with a chain of 61XX or 6CXX responses, the caller receives the data parts in the order they were received, followed by the final status, and GET RESPONSE is sent with the announced length.", "quantifier": "every chain of responses of every length in APDU mode", "why_tests_cant": "Chains of unbounded length.", "anchors": ["src/emv_ttl.c: emv_ttl_trx"]}
{"id": "C25", "title": "Exchanging an APDU always ends", "statement": "Exchanging a command with any card ends after finitely many exchanges.", "quantifier": "every infinite card behaviour", "why_tests_cant": "Non-termination cannot be observed by a finite test.", "anchors": ["src/emv_ttl.c: emv_ttl_trx"]}
{"id": "C26", "title": "A one-byte response buffer is refused", "statement": "A response buffer too small for the status bytes is rejected before anything is written.", "quantifier": "every buffer size", "why_tests_cant": "Not tested; the code only rejects size zero.", "anchors": ["src/emv_ttl.c: emv_ttl_trx"]}
{"id": "C27", "title": "T=0 command data is delivered completely for every sequence of procedure bytes", "statement": "In TPDU mode, whatever mix of acknowledge-one and acknowledge-all procedure bytes the card uses, the card receives the header followed by every command data byte exactly once in order.", "quantifier": "every command with data and every procedure byte sequence", "why_tests_cant": "The number of procedure byte sequences is exponential in the data length.", "anchors": ["src/emv_ttl.c: emv_ttl_trx"]}
{"id": "C28", "title": "PSE processing follows the EMV decision table", "statement": "Reading the PSE returns card blocked for 6A81, not found for 6A82, blocked for 6283, select failed for every other non-9000 status, and for 9000 reads records 1, 2, 3, ... of the SFI given in the FCI until 6A83; the resulting application list is empty unless success is returned.", "quantifier": "every card behaviour that ends the directory", "why_tests_cant": "All responses and any number of directory records.", "anchors": ["src/emv_tal.c: emv_tal_read_pse"]}
{"id": "C29", "title": "Reading the PSE always ends", "statement": "Reading the PSE ends for every card.", "quantifier": "every infinite card behaviour", "why_tests_cant": "Non-termination cannot be observed by a finite test; the record number is an 8-bit counter that wraps.", "anchors": ["src/emv_tal.c: emv_tal_read_pse"]}
{"id": "C30", "title": "AFL records are read exactly as listed", "statement": "Reading the records of a valid AFL whose entries end before record 255 sends READ RECORD for exactly the listed records in order (none more, none twice), and on success the result holds exactly the primitive fields of the records in order.", "quantifier": "every AFL and every card behaviour", "why_tests_cant": "All AFLs and record contents.", "anchors": ["src/emv_tal.c: emv_tal_read_afl_records, emv_tal_read_sfi_records", "src/emv_fields.c: emv_afl_itr_next"]}
{"id": "C31", "title": "Reading AFL records always ends", "statement": "Reading the records of any AFL accepted by the AFL parser ends.", "quantifier": "every AFL accepted by the parser", "why_tests_cant": "Needs an entry with last record 255 and a card that keeps answering.", "anchors": ["src/emv_tal.c: emv_tal_read_sfi_records", "src/emv_fields.c: emv_afl_itr_next"]}
{"id": "C32", "title": "AFL parsing accepts exactly the valid entries", "statement": "AFL iteration returns exactly the entries of the AFL in order, with SFI 1..30, first record at least 1, last record not below first, and not more authenticated records than listed; every other entry is an error.", "quantifier": "every AFL octet string", "why_tests_cant": "All 2^32 entries and all list lengths.", "anchors": ["src/emv_fields.c: emv_afl_itr_init, emv_afl_itr_next"]}
{"id": "C33", "title": "GET PROCESSING OPTIONS responses are decoded in both formats", "statement": "For every format 1 or format 2 response the AIP and AFL delivered are exactly those of the response; a response without AIP or AFL is an error.", "quantifier": "every AIP, AFL and response layout", "why_tests_cant": "All response layouts.", "anchors": ["src/emv_tal.c: emv_tal_get_processing_options"]}
{"id": "C34", "title": "Selecting an application checks that the card selected the requested AID", "statement": "Selecting an application succeeds only if the card answered 9000 with an FCI whose DF name equals the requested AID; otherwise the specified result is returned and no application is returned.", "quantifier": "every card response", "why_tests_cant": "All responses.", "anchors": ["src/emv_tal.c: emv_tal_select_app"]}
{"id": "C35", "title": "Supported-application matching", "statement": "An application is supported exactly if some configured AID either equals its AID or, when partial matching is indicated, is a prefix of it.", "quantifier": "every AID and every list of supported AIDs", "why_tests_cant": "All AIDs and lists.", "anchors": ["src/emv_app.c: emv_app_is_supported"]}
{"id": "C36", "title": "Candidate sorting is a stable sort by priority", "statement": "Sorting an application list permutes it such that priorities 1 to 15 come first in ascending order, priority 0 last, and applications of equal priority keep their relative order.", "quantifier": "every application list", "why_tests_cant": "All lists.", "anchors": ["src/emv_app.c: emv_app_list_sort_priority"]}
{"id": "C37", "title": "Removing a candidate by index removes exactly that one", "statement": "Removing the application at an index returns it and leaves the others in order; an index outside the list removes nothing.", "quantifier": "every list and every index", "why_tests_cant": "All lists and indices.", "anchors": ["src/emv_app.c: emv_app_list_remove_index"]}
{"id": "C38", "title": "Every candidate on the list is supported by the terminal", "statement": "After building the candidate list successfully every application on it matches a supported AID and the list is sorted by priority and not empty.", "quantifier": "every card behaviour and every supported AID list", "why_tests_cant": "All card behaviours.", "anchors": ["src/emv.c: emv_build_candidate_list", "src/emv_tal.c: emv_tal_find_supported_apps, emv_tal_parse_aef_record"]}
{"id": "C39", "title": "Application data is committed all or nothing", "statement": "If reading application data does not succeed the card data of the transaction is unchanged; if it succeeds the card data is extended by exactly the fields of the records, there is no duplicate field among the records, and the mandatory fields expiry date, PAN, CDOL1 and CDOL2 are present. Whatever the card does wrong is reported as an error of the card, except for an empty list of records (AFL), which is reported as an internal error.", "quantifier": "every card behaviour and prior state", "why_tests_cant": "All card behaviours.", "anchors": ["src/emv.c: emv_read_application_data"]}
{"id": "C40", "title": "Initiating application processing twice is memory safe", "statement": "Calling initiate application processing again with the same selected application never uses released memory.", "quantifier": "every two calls", "why_tests_cant": "Needs a history of two calls; tests start from a fresh context each time.", "anchors": ["src/emv.c: emv_initiate_application_processing"]}
{"id": "C41", "title": "ATR parsing never reads outside the ATR", "statement": "Parsing any ATR of the documented size reads only inside the ATR and inside the output structure.", "quantifier": "every ATR of 2 to 33 bytes", "why_tests_cant": "All ATRs; the failing ones need an unusual combination of T0 and T1.", "anchors": ["src/iso7816.c: iso7816_atr_parse, iso7816_atr_parse_historical_bytes"]}
{"id": "C42", "title": "An accepted ATR with a check byte has a correct check byte", "statement": "If an ATR is accepted and a check byte is required, the exclusive-or of all bytes from T0 to the check byte is zero.", "quantifier": "every ATR", "why_tests_cant": "All ATRs.", "anchors": ["src/iso7816.c: iso7816_atr_parse"]}
{"id": "C43", "title": "ATR timing parameters equal their defining formulas", "statement": "The waiting and guard times reported for an ATR equal the formulas of ISO 7816-3 for the indicated parameters.", "quantifier": "every combination of parameters an ATR can encode", "why_tests_cant": "All parameter combinations; overflow needs extreme ones.", "anchors": ["src/iso7816.c: iso7816_compute_gt, iso7816_compute_wt, iso7816_atr_parse"]}
{"id": "C44", "title": "EMV ATR acceptance equals the EMV rules", "statement": "An ATR is accepted for EMV exactly if its interface bytes satisfy the EMV Contact Interface rules for TA1, TB1, TC1, TD1, TA2, TB2, TC2, TD2, TA3, TB3 and TC3.", "quantifier": "every parsed ATR", "why_tests_cant": "All combinations of interface bytes.", "anchors": ["src/emv.c: emv_atr_parse"]}
{"id": "C45", "title": "CVM list iteration", "statement": "Iterating a CVM list returns the two amounts and exactly the rules in order; malformed lengths are errors.", "quantifier": "every CVM list", "why_tests_cant": "All lists.", "anchors": ["src/emv_fields.c: emv_cvmlist_itr_init, emv_cvmlist_itr_next"]}
{"id": "C46", "title": "AID lookup succeeds for every known scheme", "statement": "Looking up an AID whose registered identifier belongs to one of the supported schemes succeeds and returns that scheme.", "quantifier": "every AID of 5 to 16 bytes", "why_tests_cant": "All AIDs; the scheme whose lookup fails is not covered by tests.", "anchors": ["src/emv_fields.c: emv_aid_get_info"]}
{"id": "C47", "title": "ISO 8859-1 to UTF-8 conversion is exact", "statement": "Converting text of any code page that the simple converter supports to UTF-8 gives the UTF-8 encoding of exactly the printable characters of the text.", "quantifier": "every text and sufficient output buffer", "why_tests_cant": "All texts.", "anchors": ["src/iso8859_simple.c: iso8859_to_utf8"]}
{"id": "C48", "title": "UTF-8 conversion never writes outside the output buffer", "statement": "For every output buffer size the conversion writes only inside the output buffer.", "quantifier": "every text and every output buffer size", "why_tests_cant": "An off-by-one on the terminator needs an exact size coincidence.", "anchors": ["src/iso8859_simple.c: iso8859_to_utf8"]}
{"id": "C49", "title": "Date and time fields are formatted without writing outside local or output buffers", "statement": "Formatting a valid date or time field writes only inside the buffers involved.", "quantifier": "every 3-byte field and every output size", "why_tests_cant": "The stray write goes to a local array and is usually invisible.", "anchors": ["src/emv_strings.c: emv_date_get_string, emv_time_get_string"]}
{"id": "C50", "title": "Number formatting is exact and bounded", "statement": "Formatting a number as decimal text gives its decimal digits without leading zeros, or an error if the output buffer is too small, and never writes outside the output buffer.", "quantifier": "every 32-bit number and every output buffer size", "why_tests_cant": "All numbers and sizes.", "anchors": ["src/emv_strings.c: emv_uint_to_str, emv_amount_get_string, emv_format_n_get_string"]}
{"id": "C51", "title": "Track 2 formatting is bounded by the output buffer", "statement": "Formatting track 2 data writes only inside the output buffer.", "quantifier": "every track 2 field and every output buffer size", "why_tests_cant": "The function has a size parameter that it ignores; tests pass large buffers.", "anchors": ["src/emv_strings.c: emv_track2_equivalent_data_get_string"]}
{"id": "C52", "title": "PAN (format cn) text and field conversions are inverse", "statement": "Packing a digit string as format cn and formatting it back returns the digit string; packing pads with F.", "quantifier": "every digit string that fits and every field length", "why_tests_cant": "All digit strings.", "anchors": ["src/emv_strings.c: emv_str_to_format_cn, emv_format_cn_get_string"]}
{"id": "C53", "title": "Numeric text to format n field", "statement": "Packing a digit string as format n right-justifies it with leading zeros, and decoding the field gives the number of the digit string.", "quantifier": "every digit string that fits and every field length", "why_tests_cant": "All digit strings.", "anchors": ["src/emv_strings.c: emv_str_to_format_n", "src/emv_tlv.c: emv_format_n_to_uint"]}
{"id": "C54", "title": "String lists are bounded and NUL terminated after every addition", "statement": "Adding any sequence of texts to a string list writes only inside the output buffer, keeps it NUL terminated, and the list is the texts, each followed by a newline, truncated only when the buffer is full.", "quantifier": "every buffer size and every sequence of texts", "why_tests_cant": "All sequences and sizes.", "anchors": ["src/emv_strings.c: emv_str_list_add", "src/iso7816_strings.c: iso7816_str_list_add"]}
{"id": "C55", "title": "C-APDU description never reads outside the command", "statement": "Describing a command APDU reads only inside the command.", "quantifier": "every command length of at least 1", "why_tests_cant": "The length check is applied to the wrong length; tests use complete commands.", "anchors": ["src/emv_strings.c: emv_capdu_get_string", "src/iso7816_strings.c: iso7816_capdu_get_string"]}
{"id": "C56", "title": "PC/SC property lookup stays inside the property buffer", "statement": "Looking up a reader property reads only inside the property list that the reader returned.", "quantifier": "every property list content and length and every property", "why_tests_cant": "Needs a malformed list whose last element is longer than the list.", "anchors": ["src/pcsc.c: pcsc_reader_get_property"]}
{"id": "C57", "title": "IAD format detection", "statement": "The issuer application data format reported is the one whose length and marker bytes match, in the order CCD, M/Chip 4, M/Chip Advance, VSDC; detection reads only inside the field.", "quantifier": "every field of every length", "why_tests_cant": "All fields.", "anchors": ["src/emv_fields.c: emv_iad_get_format"]}
{"id": "C58", "title": "Context reset and clear", "statement": "Resetting a context clears the transaction state and keeps the configuration; clearing it clears both.", "quantifier": "every context state", "why_tests_cant": "All states.", "anchors": ["src/emv.c: emv_ctx_reset, emv_ctx_clear"]}
{"id": "C59", "title": "Final selection removes exactly the tried application", "statement": "Selecting an application by index removes exactly that application from the candidate list and either makes it the selected application or reports the outcome that EMV requires (try again while candidates remain).", "quantifier": "every candidate list, index and card behaviour", "why_tests_cant": "All lists and card behaviours.", "anchors": ["src/emv.c: emv_select_application"]}
{"id": "C60", "title": "Hex parsing round-trips", "statement": "Parsing the hexadecimal text of a byte string, with any white space between digits, gives the byte string.", "quantifier": "every byte string and spacing", "why_tests_cant": "All byte strings and spacings.", "anchors": ["tools/emv-decode.c: parse_hex"]}
{"id": "C61", "title": "Only octets of the command are read and transmitted", "statement": "During an exchange the library reads, and transmits to the card, no memory outside the command it was given (and the GET RESPONSE commands it builds), whatever the card replies.", "quantifier": "every command, card behaviour and response buffer", "why_tests_cant": "Needs a malicious card and a memory checker; which memory is read depends on the card's procedure bytes.", "anchors": ["src/emv_ttl.c: emv_ttl_trx"]}
{"id": "C62", "title": "A command answered with 6CXX is repeated unchanged but for Le", "statement": "If the card answers a command with status 6CXX, the library next sends the same command, including its data, with Le replaced by XX.", "quantifier": "every command and card", "why_tests_cant": "Cards that answer 6CXX to commands with data are rare in test beds; all commands and states of an exchange matter.", "anchors": ["src/emv_ttl.c: emv_ttl_trx"]}
{"id": "C63", "title": "An application says what its data says", "statement": "An application created from a PSE entry or from file control information has the identifier, display name and priority that its fields give: the preferred name in UTF-8 if its code table is supported, otherwise the printable characters of the label, otherwise the identifier in hex; the name is always a terminated string inside its buffer. Creation fails only for invalid data or a missing identifier.", "quantifier": "every entry, file control information and PSE field list", "why_tests_cant": "All field combinations and text contents; uninitialised and fixed-size buffers.", "anchors": ["src/emv_app.c: emv_app_create_from_pse, emv_app_create_from_fci, emv_app_extract_display_name, emv_app_extract_priority_indicator"]}
{"id": "C64", "title": "Creating an application uses only initialised data", "statement": "Creating an application from file control information never depends on uninitialised memory.", "quantifier": "every file control information", "why_tests_cant": "The result depends on stack garbage; a memory sanitizer and the right card response are needed.", "anchors": ["src/emv_app.c: emv_app_create_from_fci"]}
{"id": "C65", "title": "Application lists behave as sequences", "statement": "Pushing appends, popping removes the first application, clearing releases exactly the applications of the list; emv_app_free refuses an application that another one follows in a list and then changes nothing, and otherwise releases exactly the one it is given; a choice is required exactly if the list has two applications or one that asks for confirmation.", "quantifier": "every heap and list", "why_tests_cant": "All pointer structures.", "anchors": ["src/emv_app.c: emv_app_list_push, emv_app_list_pop, emv_app_list_clear, emv_app_list_selection_is_required, emv_app_free"]}
{"id": "C66", "title": "Searching the card for supported applications always ends", "statement": "Building the candidate list from the list of supported AIDs ends for every card.", "quantifier": "every infinite card behaviour and every list of supported AIDs", "why_tests_cant": "Non-termination cannot be observed by a finite test; needs partial matching and a card that keeps answering SELECT next with a longer name.", "anchors": ["src/emv_tal.c: emv_tal_find_supported_apps"]}
{"id": "C67", "title": "GET PROCESSING OPTIONS leaves no dangling pointers", "statement": "Whatever the card answers, the AIP and AFL pointers delivered by GET PROCESSING OPTIONS processing are NULL or refer to fields of the caller's list; in particular not to released fields when an error is returned.", "quantifier": "every card response", "why_tests_cant": "A dangling pointer is not observed by a test that ignores outputs after an error.", "anchors": ["src/emv_tal.c: emv_tal_get_processing_options"]}
{"id": "C68", "title": "Reading records is memory safe for every card", "statement": "Reading the records of any AFL from any card uses no uninitialised memory and stays within its buffers.", "quantifier": "every AFL and every card behaviour", "why_tests_cant": "All record contents, including empty ones; use of uninitialised memory is not observed by ordinary tests.", "anchors": ["src/emv_tal.c: emv_tal_read_afl_records, emv_tal_read_sfi_records"]}
{"id": "C69", "title": "Candidates found by AID selection were selected", "statement": "Every application that the search by supported AIDs adds to the candidate list was created from an FCI that the card returned with 9000 when that AID was selected, and its DF name has the length of the AID or the AID allows partial matching; earlier candidates are kept.", "quantifier": "every card behaviour and every list of supported AIDs", "why_tests_cant": "All card behaviours over any number of SELECT commands.", "anchors": ["src/emv_tal.c: emv_tal_find_supported_apps"]}
{"id": "C70", "title": "Initiate application processing sends the PDOL data and records the data", "statement": "Initiating application processing sends GET PROCESSING OPTIONS with the data requested by the card's PDOL, taken from transaction parameters, configuration and terminal data in this order (missing ones zero), or with the empty command template if there is no PDOL; sets the terminal data to TVR, TSI, the point-of-service entry mode and the AID; and on success sets the card data to the FCI fields followed by the fields of the response, otherwise leaves it empty with the outcome EMV requires.", "quantifier": "every card behaviour, context and selected application", "why_tests_cant": "All PDOLs, data and card behaviours.", "anchors": ["src/emv.c: emv_initiate_application_processing"]}
{"id": "C71", "title": "The AFL of the GET PROCESSING OPTIONS response determines the records read", "statement": "Reading application data after initiating application processing reads the records listed in the AFL that the card returned for GET PROCESSING OPTIONS.", "quantifier": "every card behaviour", "why_tests_cant": "Needs a card whose FCI contains a field with the tag of the AFL.", "anchors": ["src/emv.c: emv_read_application_data, emv_initiate_application_processing"]}
{"id": "C72", "title": "An accepted ATR is complete and has nothing extra", "statement": "If an ATR is accepted, it consists exactly of TS, T0, all interface bytes that are indicated, the indicated number of historical bytes and, if required, the check byte, with no reserved values in the interface bytes and well-formed historical bytes.", "quantifier": "every ATR of 2 to 33 bytes", "why_tests_cant": "All ATRs, including chains of interface bytes longer than any real card sends.", "anchors": ["src/iso7816.c: iso7816_atr_parse"]}
{"id": "C73", "title": "Every well-formed ATR is accepted", "statement": "An ATR with a valid initial character, valid interface bytes, well-formed historical bytes and correct check byte is accepted.", "quantifier": "every ATR of 2 to 33 bytes", "why_tests_cant": "All ATRs.", "anchors": ["src/iso7816.c: iso7816_atr_parse, iso7816_atr_parse_historical_bytes"]}
{"id": "C74", "title": "The status indicator of an ATR is extracted correctly", "statement": "After parsing, the life cycle status and SW1-SW2 are those of the last COMPACT-TLV object 8X of length 1, 2 or 3 in the historical bytes, or otherwise the last three historical bytes for category indicator 00, or otherwise zero.", "quantifier": "every accepted ATR", "why_tests_cant": "All sequences of historical COMPACT-TLV objects.", "anchors": ["src/iso7816.c: iso7816_atr_parse, iso7816_atr_parse_historical_bytes"]}
{"id": "C75", "title": "Text fields are shown exactly", "statement": "Formatting a field of format a, an or ans gives its characters as a NUL-terminated text if all of them belong to the format and the text fits, otherwise an error; an output that is too small is left unchanged.", "quantifier": "every field and every output size", "why_tests_cant": "All byte values at all positions and all sizes.", "anchors": ["src/emv_strings.c: emv_tlv_value_get_string, emv_format_a_get_string, emv_format_an_get_string, emv_format_ans_only_space_get_string, emv_format_ans_ccs_get_string"]}
{"id": "C76", "title": "Showing a field value stays inside the output buffer", "statement": "Showing the value of a field of format a, an, ans, cn or n as text with the field's maximum length writes only inside the output buffer, and the text is that of the format.", "quantifier": "every field value, maximum length and output size", "why_tests_cant": "The faulty sizes are those where the text just fills the buffer.", "anchors": ["src/emv_strings.c: emv_tlv_value_get_string"]}
{"id": "C77", "title": "SELECT descriptions show the whole file identifier", "statement": "The description of a SELECT command with data shows the occurrence given by P2 and the complete file identifier, as text if all its octets are printable and in hexadecimal otherwise, or names the master file for 3F00; if the output is too small it is this text cut off.", "quantifier": "every SELECT command with data and every output size", "why_tests_cant": "All identifiers of all lengths; the local buffer is only too small for the longest.", "anchors": ["src/iso7816_strings.c: iso7816_capdu_select_get_string, iso7816_capdu_get_string"]}
{"id": "C78", "title": "Status word descriptions agree with ISO 7816-4", "statement": "Every status word gets a NUL-terminated text that starts with its class in ISO 7816-4 (normal, warning, execution error, checking error, proprietary or invalid) and is the meaning of that status word in the standard's table if it has one, and the numbers of available octets and retries are shown in decimal; if the output is too small the text is cut off.", "quantifier": "every SW1 and SW2 and every output size", "why_tests_cant": "All 65536 status words for all output sizes.", "anchors": ["src/iso7816_strings.c: iso7816_sw1sw2_get_string"]}
{"id": "C79", "title": "READ RECORD descriptions show the record", "statement": "The description of a READ RECORD command shows the short file identifier in P2 and the record number or identifier in P1 in decimal, and which records are meant according to the low bits of P2.", "quantifier": "every READ RECORD command without data and every output size", "why_tests_cant": "All P1 and P2.", "anchors": ["src/iso7816_strings.c: iso7816_capdu_read_record_get_string"]}
{"id": "C80", "title": "Life cycle status descriptions agree with ISO 7816-4", "statement": "The description of a life cycle status octet is the state in ISO 7816-4 table 13, and is proprietary only for values of 10 and above.", "quantifier": "every octet", "why_tests_cant": "Reserved values are not in tests.", "anchors": ["src/iso7816_strings.c: iso7816_lcs_get_string"]}
{"id": "C81", "title": "Reader features are looked up exactly", "statement": "Asking a reader for a feature finds it exactly if it is in the feature list the reader returned, with the control code of the first entry of four octets; collecting the features and asking for any of them stays inside the buffers whatever the reader returns, and only handles that a successful connect returned are passed to the PC/SC service.", "quantifier": "every feature list, feature and behaviour of the PC/SC service", "why_tests_cant": "Needs readers with every possible feature list, and a service failing at every step.", "anchors": ["src/pcsc.c: pcsc_reader_populate_features, pcsc_reader_has_feature, pcsc_reader_get_feature"]}
{"id": "C82", "title": "Waiting for a card watches the reader asked for", "statement": "Waiting for a card on one reader or any reader asks the PC/SC service about just these readers, and reports the first reader with a card, no card or an error as the service answered; the call can be repeated after no card was found.", "quantifier": "every number of readers, reader index and answer of the service", "why_tests_cant": "Needs real readers and card movements.", "anchors": ["src/pcsc.c: pcsc_wait_for_card"]}
{"id": "C83", "title": "Contact and contactless cards are told apart", "statement": "Connecting classifies a card as contactless exactly if its ATR has the form PC/SC part 3 gives for contactless cards and the reader returns its UID; contact cards and contactless-looking cards whose reader does not support the UID command are contact cards.", "quantifier": "every ATR, reader and answer of the service", "why_tests_cant": "All ATRs and UIDs; tests have no readers.", "anchors": ["src/pcsc.c: pcsc_reader_connect, pcsc_reader_internal_get_uid"]}
{"id": "C84", "title": "ATR and UID buffers of a reader are never overrun", "statement": "In every state that connecting to and disconnecting from cards leads to, the ATR and UID of a reader stay inside their buffers; the ATR returned is that of the connected card, and there is none after disconnecting.", "quantifier": "every sequence of connects and disconnects and every behaviour of the service", "why_tests_cant": "Needs all sequences and faulty readers.", "anchors": ["src/pcsc.c: pcsc_reader_connect, pcsc_reader_disconnect, pcsc_reader_get_atr"]}
{"id": "C85", "title": "Reader names are those of the service", "statement": "The n-th reader of a context has the n-th name in the list the PC/SC service returned, and there are as many readers as names.", "quantifier": "every list of reader names", "why_tests_cant": "Any number of readers of any names.", "anchors": ["src/pcsc.c: pcsc_init, pcsc_get_reader, pcsc_reader_get_name"]}
{"id": "C86", "title": "A failed connect gives the reader back", "statement": "If connecting to a card fails, the reader is not left held by the failed connection.", "quantifier": "every reader and behaviour of the service", "why_tests_cant": "Needs a service that fails at each step.", "anchors": ["src/pcsc.c: pcsc_reader_connect"]}
{"id": "C87", "title": "Hex input that is not hex is refused with the right reason", "statement": "Input with a character that is neither a hex digit nor white space is refused as such, and input of an odd number of hex digits, with white space anywhere, is refused for that reason; nothing else is refused, and the buffer is not overrun.", "quantifier": "every text", "why_tests_cant": "All texts of all lengths.", "anchors": ["tools/emv-decode.c: parse_hex, argp_parser_helper"]}
{"id": "C88", "title": "Input files are read completely", "statement": "Reading a file gives its contents, whatever their size, and never writes outside the buffer whatever the stream does.", "quantifier": "every file and every stream", "why_tests_cant": "Sizes around multiples of the block size and streams that fail.", "anchors": ["tools/emv-decode.c: load_from_file"]}
{"id": "C89", "title": "A dump shows every octet of the input once", "statement": "The objects, padding and remaining data that a BER or EMV dump prints are together exactly the octets of the input, in order, each once.", "quantifier": "every input", "why_tests_cant": "All inputs, in particular invalid data inside nested objects.", "anchors": ["tools/print_helpers.c: print_ber_buf_internal, print_ber_buf, print_emv_buf_internal, print_emv_buf"]}
{"id": "C90", "title": "Well-formed data is listed as it is nested", "statement": "A dump of well-formed data lists every object with its tag, length and value at the depth of its nesting, before the objects inside it; strings are shown as text and object identifiers by their arcs; nothing is called invalid.", "quantifier": "every well-formed input", "why_tests_cant": "Any nesting and any number of objects.", "anchors": ["tools/print_helpers.c: print_ber_buf_internal, print_emv_buf_internal"]}
{"id": "C91", "title": "Dumping any data is safe", "statement": "Dumping any octets as BER ends and never reads or writes outside the buffers.", "quantifier": "every input", "why_tests_cant": "All inputs; the faulty ones need many arcs in an object identifier.", "anchors": ["tools/print_helpers.c: print_ber_buf_internal", "src/iso8825_ber.c: iso8825_ber_oid_decode"]}
{"id": "C92", "title": "Debug events are delivered exactly as configured", "statement": "A debug event is passed to the callback exactly if the last configuration has one, its source is in the mask and its level is not above the level set; it is passed with its source, level, type and data, the time in microseconds modulo 2^32 and its message, cut off after 1023 characters.", "quantifier": "every history of configurations and events", "why_tests_cant": "All histories and all combinations of masks and levels.", "anchors": ["src/emv_debug.c: emv_debug_init, emv_debug_internal"]}
{"id": "C93", "title": "Bit fields are described bit by bit", "statement": "The descriptions of terminal capabilities, AIP, AUC, TVR, TSI, terminal risk management data, TTQ, CTQ, enhanced contactless reader capabilities, form factor indicator and cryptogram information list exactly the texts the specification's table gives for the bits that are set, in order, cut off only where the buffer ends; a field of another length is refused with the buffer untouched; a set bit of TVR, TSI, AIP, AUC, CTQ or risk management data is never without a line.", "quantifier": "every field value and every buffer size", "why_tests_cant": "2^64 values of a field and all buffer sizes.", "anchors": ["src/emv_strings.c: emv_term_caps_get_string_list, emv_aip_get_string_list, emv_app_usage_control_get_string_list, emv_tvr_get_string_list, emv_tsi_get_string_list, emv_terminal_risk_management_data_get_string_list, emv_ttq_get_string_list, emv_ctq_get_string_list, emv_amex_enh_cl_reader_caps_get_string_list, emv_visa_form_factor_indicator_get_string_list, emv_cid_get_string_list"]}
{"id": "C94", "title": "Additional terminal capabilities are described bit by bit", "statement": "The description of additional terminal capabilities lists exactly the texts of the tables of Book 4 Annex A3 for the bits set.", "quantifier": "every value of five octets and every buffer", "why_tests_cant": "2^40 values.", "anchors": ["src/emv_strings.c: emv_addl_term_caps_get_string_list"]}
{"id": "C95", "title": "The text of an AFL names exactly its records", "statement": "A valid application file locator is described by one line per entry with its SFI, first and last record and number of records for offline data authentication; any other is refused, leaving the buffer untouched or an empty string.", "quantifier": "every application file locator", "why_tests_cant": "All entries and all numbers of entries.", "anchors": ["src/emv_strings.c: emv_afl_get_string_list"]}
{"id": "C96", "title": "CVM lists and results are described rule by rule", "statement": "Each rule of a CVM list is described by its condition (with the amounts X and Y of the list in decimal), its method and what happens if it fails; CVM results by method, condition and result. Lists of odd, too short or too long length are refused with the buffer untouched.", "quantifier": "every list and every result", "why_tests_cant": "All amounts, rules and list lengths.", "anchors": ["src/emv_strings.c: emv_cvmlist_get_string_list, emv_cvm_results_get_string_list, emv_cvm_code_get_string, emv_cvm_cond_code_get_string"]}
{"id": "C97", "title": "Issuer application data is described as its format defines", "statement": "Issuer application data in CCD, M/Chip 4, M/Chip Advance or VSDC format 0 to 4 is described by the application, the format and exactly the texts of that format's tables; other data is called unknown or invalid.", "quantifier": "every value of up to 32 octets", "why_tests_cant": "Data of 32 octets.", "anchors": ["src/emv_strings.c: emv_iad_get_string_list, emv_iad_ccd_append_string_list, emv_iad_mchip_append_string_list, emv_iad_vsdc_0_1_3_append_string_list, emv_iad_vsdc_2_4_append_string_list"]}
{"id": "C98", "title": "Third party data is described safely and exactly", "statement": "Third party data is never read past its end, and data of the formats not used, fleet card and transit is described by country, identifier, device type, product and exactly the texts of the product's table.", "quantifier": "every value and every country table", "why_tests_cant": "All values; the faulty one needs an exact length.", "anchors": ["src/emv_strings.c: emv_mastercard_third_party_data_get_string_list, emv_mastercard_device_type_get_string"]}
{"id": "C99", "title": "Issuer authentication data is described as its format defines", "statement": "Issuer authentication data of 8 to 16 octets is described by its cryptogram in hex and its response code, or its cryptogram, exactly the texts of the card status update and the size of the proprietary data; other lengths are refused.", "quantifier": "every value", "why_tests_cant": "Data of 16 octets and all lengths.", "anchors": ["src/emv_strings.c: emv_issuer_auth_data_get_string_list, emv_csu_append_string_list"]}
{"id": "C100", "title": "Terminal types are described as defined", "statement": "A terminal type is described by who controls it and its environment as the two digits say, and undefined digits as unknown.", "quantifier": "every octet and every buffer", "why_tests_cant": "All octets with all buffer sizes.", "anchors": ["src/emv_strings.c: emv_term_type_get_string_list"]}
{"id": "C101", "title": "Response codes are shown with their meaning", "statement": "An authorisation response code of two letters or digits is shown unchanged, followed by the description of the code if it is one of the common ISO 8583 codes and the buffer has ten characters; the text is cut off at the end of the buffer. Anything else is refused with an empty string.", "quantifier": "every code and every buffer", "why_tests_cant": "All codes and buffer sizes.", "anchors": ["src/emv_strings.c: emv_auth_response_code_get_string, emv_arc_get_desc"]}
{"id": "C102", "title": "Registered proprietary data is listed by registrant", "statement": "Application selection registered proprietary data is described by one line per entry; data that is not a sequence of entries is refused.", "quantifier": "every value", "why_tests_cant": "All sequences of entries and all ways to cut one short.", "anchors": ["src/emv_strings.c: emv_asrpd_get_string_list"]}
{"id": "C103", "title": "Codes of one octet are described as defined", "statement": "POS entry mode, transaction type, account type and contactless reader capabilities are described by the text defined for the octet, cut off at the end of the buffer; undefined ones are refused with the buffer untouched.", "quantifier": "every octet and every buffer", "why_tests_cant": "All octets with all buffer sizes.", "anchors": ["src/emv_strings.c: emv_pos_entry_mode_get_string, emv_transaction_type_get_string, emv_account_type_get_string, emv_amex_cl_reader_caps_get_string"]}
{"id": "C104", "title": "A transaction sends only the commands it is meant to send", "statement": "With a reader that accepts whole commands, building the candidate list, selecting an application, initiating processing and reading the application's data send the card only SELECT of the directory and of configured or chosen AIDs, READ RECORD of files 1 to 30, one GET PROCESSING OPTIONS carrying the data the PDOL asks for, and GET RESPONSE or repetitions with another Le that continue them.", "quantifier": "every card behaviour, configuration and state of the transaction", "why_tests_cant": "A claim about every message sent in every conversation with any card.", "anchors": ["src/emv.c: emv_build_candidate_list, emv_select_application, emv_initiate_application_processing, emv_read_application_data", "src/emv_tal.c", "src/emv_ttl.c: emv_ttl_trx"]}
{"id": "C105", "title": "Every field is given its documented name", "statement": "The description of a field gives the name that emv_tags.h documents for its tag; 9F66, 9F6D and 9F6E get the name of the kernel data object that the length and content identify, and an unknown field none, with return value 1 and an empty string. Entries of Data Object Lists, which have no value, are named by tag and length, and exactly CDOL1, CDOL2, PDOL and DDOL are marked as Data Object Lists and 9F4A as a tag list.", "quantifier": "every tag, value and buffer", "why_tests_cant": "All tags of 32 bits and all contents.", "anchors": ["src/emv_strings.c: emv_tlv_get_info"]}
{"id": "C106", "title": "Describing a field stays in bounds and leaves a string", "statement": "The description of a field never accesses memory outside its value and the buffer, whatever the card sent, and leaves a NUL-terminated string; an entry of a Data Object List can be described without a value.", "quantifier": "every tag, value and buffer, and every entry of a list", "why_tests_cant": "All tags with all contents and lengths.", "anchors": ["src/emv_strings.c: emv_tlv_get_info", "tools/print_helpers.c: print_emv_tlv_internal, print_emv_dol"]}
{"id": "C107", "title": "DF names are shown as what they are", "statement": "The names of the payment system environments are shown as text, and any other DF name as the description of the application it identifies.", "quantifier": "every DF name and buffer with room for it", "why_tests_cant": "All names of up to 16 octets.", "anchors": ["src/emv_strings.c: emv_tlv_get_info (tag 84)"]}
{"id": "C108", "title": "Application identifiers are described by product or provider", "statement": "An application identifier is described by the product whose registered identifier it begins with, or else by its registered application provider; others are refused with the buffer untouched.", "quantifier": "every identifier and buffer", "why_tests_cant": "All identifiers of 5 to 16 octets.", "anchors": ["src/emv_strings.c: emv_aid_get_string", "src/emv_fields.c: emv_aid_get_info"]}
{"id": "C109", "title": "Numeric fields are shown with their value", "statement": "Numeric and binary amounts and other numbers are shown as the decimal number the field contains, and a field with an invalid digit is refused with an empty string.", "quantifier": "every number the field can hold", "why_tests_cant": "10^12 amounts.", "anchors": ["src/emv_strings.c: emv_tlv_get_info, emv_tlv_value_get_string, emv_format_n_get_string", "src/emv_tlv.c: emv_format_n_to_uint"]}
{"id": "C110", "title": "Fields of digits are shown with all their digits", "statement": "Issuer identification numbers, service code, acquirer identifier and the last digits of a PAN are shown with all their digits.", "quantifier": "every such field", "why_tests_cant": "All digit strings.", "anchors": ["src/emv_strings.c: emv_tlv_get_info, emv_format_n_get_string"]}
{"id": "C111", "title": "Codes are described by what the tables say", "statement": "Numeric country, currency and merchant category codes are described by the table's text for the number, empty if there is none, cut off at the end of the buffer, and invalid digits are refused; country codes of letters by the country or else by the letters themselves; language preferences ignoring case and currency lists by one line for each code, \"Unknown\" if there is no text.", "quantifier": "every table, code and buffer", "why_tests_cant": "All codes with arbitrary tables.", "anchors": ["src/emv_strings.c: emv_country_alpha2_code_get_string, emv_country_alpha3_code_get_string, emv_country_numeric_code_get_string, emv_currency_numeric_code_get_string, emv_language_alpha2_code_get_string, emv_mcc_get_string, emv_app_reference_currency_get_string_list, emv_language_preference_get_string_list"]}
{"id": "C112", "title": "Commands are described by their names", "statement": "The description of a command begins with the name that ISO 7816-4 (interindustry classes) or EMV Book 3 (proprietary classes) gives to its class and instruction, and a command that they do not name gets no description.  Every command they name is described, GET DATA with the tag in P1-P2 and PUT DATA with the data object or file that P1-P2 refer to.", "quantifier": "every command and buffer", "why_tests_cant": "All classes, instructions, parameters and buffer lengths.", "anchors": ["src/iso7816_strings.c: iso7816_capdu_get_string, iso7816_capdu_put_data_get_string", "src/emv_strings.c: emv_capdu_get_string, emv_capdu_get_data_get_string"]}
{"id": "C113", "title": "The descriptions of T0 and TDi name the interface bytes that follow", "statement": "The text for T0 lists TA1 to TD1 as indicated in T0 (\"(none)\" if there are none) and the number of historical bytes; the text for TDi lists the interface bytes of the next group and the protocol.  There is none if TDi is absent.", "quantifier": "every accepted ATR, every i and every buffer", "why_tests_cant": "All ATRs and buffer lengths; the text depends on the whole chain of interface bytes.", "anchors": ["src/iso7816_strings.c: iso7816_atr_T0_get_string, iso7816_atr_TDi_get_string, iso7816_atr_Yi_write_string"]}
{"id": "C114", "title": "The description of TA1 gives the transmission rate", "statement": "The text for TA1 gives Fi, Di and f(max) of ISO 7816-3 tables 7 and 8 (the defaults if TA1 is absent), the Fi/Di clock cycles per ETU and the highest bit rate f(max)*Di/Fi.", "quantifier": "every accepted ATR and every buffer", "why_tests_cant": "All TA1 and buffer lengths.", "anchors": ["src/iso7816_strings.c: iso7816_atr_TAi_get_string"]}
{"id": "C115", "title": "The descriptions of the other interface bytes agree with ISO 7816-3", "statement": "The texts for TA2, TB1, TB2, TC1, TC2 and for TAi, TBi, TCi with i > 2 give the mode, the programming voltage and current, N and guard time, WI and waiting time, IFSI, CWT and BWT, the error detection code, and clock stop, classes and SPU, as ISO 7816-3 computes them from the octet itself, or the default if it is absent.", "quantifier": "every accepted ATR, every i and every buffer", "why_tests_cant": "All combinations of interface bytes and protocols.", "anchors": ["src/iso7816_strings.c: iso7816_atr_TAi_get_string, iso7816_atr_TBi_get_string, iso7816_atr_TCi_get_string"]}
{"id": "C116", "title": "Describing an ATR is safe", "statement": "For every ATR that was accepted, the descriptions of T0, TAi, TBi, TCi and TDi write only to the buffer given, end the text with NUL, do not divide by zero, and give NULL only for i out of range or TDi absent.", "quantifier": "every accepted ATR, every i and every buffer including the empty one", "why_tests_cant": "Memory safety for all ATRs and buffer lengths.", "anchors": ["src/iso7816_strings.c: iso7816_atr_T0_get_string, iso7816_atr_TAi_get_string, iso7816_atr_TBi_get_string, iso7816_atr_TCi_get_string, iso7816_atr_TDi_get_string"]}
{"id": "C117", "title": "Convention and category indicator are described correctly", "statement": "The text for TS is \"Direct convention\" for 3B and \"Inverse convention\" for 3F; the text for T1 is that of the first historical byte and there is none without historical bytes.", "quantifier": "every accepted ATR", "why_tests_cant": "All ATRs.", "anchors": ["src/iso7816_strings.c: iso7816_atr_TS_get_string, iso7816_atr_T1_get_string"]}
{"id": "C118", "title": "Card service data and card capabilities are described bit by bit", "statement": "The descriptions of card service data and of card capabilities list exactly the texts of ISO 7816-4 for the bits of the octets present, in order, as far as they fit; the buffer is untouched if there is nothing to list.  Card capabilities without octets, or with a reserved value for the logical channels, are refused.", "quantifier": "every octet of card service data, every value of card capabilities and every buffer", "why_tests_cant": "2^24 values and all buffer sizes.", "anchors": ["src/iso7816_strings.c: iso7816_card_service_data_get_string_list, iso7816_card_capabilities_get_string_list"]}
{"id": "C119", "title": "Data objects in historical bytes are named by their tags", "statement": "A COMPACT-TLV tag is named as the interindustry data object 41 to 4F it abbreviates, and \"Unknown\" exactly if there is none.", "quantifier": "every COMPACT-TLV tag", "why_tests_cant": "Completeness of the table for all tags, in both directions.", "anchors": ["src/iso7816_compact_tlv.c: iso7816_compact_tlv_tag_get_string"]}
{"id": "C120", "title": "Data Object Lists and tag lists are printed entry by entry", "statement": "For any octets, the printed list has one line for each entry up to the first that is invalid, with the tag in hexadecimal, the name of the field if it has one and, in a Data Object List, its length; printing accesses no other memory.", "quantifier": "every contents, indentation and depth", "why_tests_cant": "Lists of any length with any contents.", "anchors": ["tools/print_helpers.c: print_emv_dol, print_emv_tag_list"]}
{"id": "C121", "title": "EMV data is printed completely", "statement": "For valid BER data every field is printed in order and indented by its depth, with tag, name, length, octets and description, every template is followed by its contents, and fields that contain lists are printed as such; printing any data accesses no other memory.  The same holds for the fields of a parsed list.", "quantifier": "every data, nesting, prefix, depth and initial contents of the local arrays", "why_tests_cant": "Unbounded nesting and contents.", "anchors": ["tools/print_helpers.c: print_emv_buf, print_emv_tlv, print_emv_tlv_list, print_emv_tlv_internal"]}
{"id": "C122", "title": "Printing invalid EMV data says where it is", "statement": "When BER data is followed by octets that are no valid object, at the top or inside templates, everything before them is printed and then an error with the offset of the first of these octets and all remaining octets, or, if padding is to be ignored and the data is a multiple of 8 octets with fewer than 8 remaining, a line with the padding.  (Fields that cannot be printed are the subject of C121.)", "quantifier": "every valid data followed by invalid octets, at any depth", "why_tests_cant": "Unbounded data before and nesting around the invalid octets.", "anchors": ["tools/print_helpers.c: print_emv_buf, print_emv_buf_internal"]}
{"id": "C123", "title": "Commands and responses are printed with their meaning", "statement": "A command is printed in hexadecimal with its description if it has one, a response in hexadecimal with the description of its status word; nothing outside the command and response is read.", "quantifier": "every command and response and all initial contents of the local arrays", "why_tests_cant": "All commands and responses.", "anchors": ["tools/print_helpers.c: print_capdu, print_rapdu, print_sw1sw2"]}
{"id": "C124", "title": "An answer to reset is printed octet by octet", "statement": "The printed form of an accepted ATR shows TS, T0, all interface bytes present, the absent ones of the first two groups, the category indicator, each data object in the historical bytes with its name, octets and description, the life cycle and status word of the status indicator, and TCK, in order, each with its text, and depends on nothing but the ATR.", "quantifier": "every accepted ATR and all initial contents of the local arrays", "why_tests_cant": "All ATRs with all combinations of data objects.", "anchors": ["tools/print_helpers.c: print_atr, print_atr_historical_bytes"]}
{"id": "C125", "title": "emv-decode prints the whole description of a field and nothing else", "statement": "For a field of the right size, emv-decode prints exactly the lines that describe it (terminal type, capabilities, CVM list and results, TVR, TSI, issuer application data, TTQ, CTQ, form factor, reader capabilities, risk management data; the status word and reader capability on one line), whatever the local arrays held before, and nothing on standard error; for any other size it prints nothing but a message on standard error.", "quantifier": "every field and all initial contents of the local arrays", "why_tests_cant": "All fields, and independence from uninitialised memory.", "anchors": ["tools/emv-decode.c: main"]}
{"id": "C126", "title": "emv-decode decodes the INPUT it is given", "statement": "With one decoding option, the octets written in hexadecimal as INPUT, or read from standard input for \"-\", are what is decoded; INPUT that is not octets in hexadecimal, a missing INPUT, more than one INPUT and more than one decoding option are refused.", "quantifier": "every command line of options and arguments, and every standard input", "why_tests_cant": "Arguments of any length and number.", "anchors": ["tools/emv-decode.c: argp_parser_helper, main"]}
{"id": "C127", "title": "emv-decode looks up codes", "statement": "A country, currency or language code in letters, a country or currency code of three digits and a merchant category code of four digits print the name found for it; an unknown one prints \"Unknown\" and anything else is refused, both on standard error only.", "quantifier": "every argument and all contents of the code tables", "why_tests_cant": "All arguments and all tables.", "anchors": ["tools/emv-decode.c: main"]}
{"id": "C128", "title": "emv-decode converts ISO 8859-1 text to UTF-8", "statement": "Text of graphic characters of any length is printed in UTF-8 (up to a NUL); text with control characters and other code pages are refused on standard error.", "quantifier": "every text", "why_tests_cant": "Text of any length and contents.", "anchors": ["tools/emv-decode.c: main"]}
{"id": "C129", "title": "emv-tool takes a transaction type and amounts in digits only", "statement": "--txn-type accepts exactly two decimal digits and stores them as packed BCD; --txn-amount and --txn-amount-other accept exactly non-empty strings of decimal digits with a value below 2^32 and store that value.", "quantifier": "every argument string", "why_tests_cant": "Strings of any length and contents.", "anchors": ["tools/emv-tool.c: argp_parser_helper"]}
{"id": "C130", "title": "emv-tool passes on the selected debug events", "statement": "--debug-source takes a comma-separated list of names in any case and passes on exactly the events of the named sources (all for ALL); other names are refused. --debug-level takes exactly the known names and passes on the events up to that level.  Without these options events of all sources are passed on at the default level.", "quantifier": "every list of names, every event", "why_tests_cant": "All lists and all spellings.", "anchors": ["tools/emv-tool.c: argp_parser_helper, main", "src/emv_debug.c: emv_debug_init, emv_debug_internal"]}
{"id": "C131", "title": "The transaction parameters are those of the command line and the clock", "statement": "The parameter list contains the transaction type, the two amounts in numeric and binary format, the date YYMMDD and time of the clock, a sequence counter and currency 0978 with exponent 2; each of them once.", "quantifier": "every type, amount below 2^32, and time of the clock", "why_tests_cant": "All amounts and times.", "anchors": ["tools/emv-tool.c: emv_txn_load_params"]}
{"id": "C132", "title": "emv-tool performs no transaction with an amount it complains about", "statement": "A zero amount for a transaction other than an inquiry, and a zero other amount for a cashback, are reported, and nothing else is; after such a report nothing is sent to the card.", "quantifier": "every command line and card", "why_tests_cant": "All combinations of options, and what is sent afterwards.", "anchors": ["tools/emv-tool.c: main"]}
{"id": "C133", "title": "emv-tool supports the applications of two payment systems", "statement": "An AID is supported exactly if it begins with A00000000310, A00000000410 or A00000000430 or is A0000000032010 or A0000000032020.", "quantifier": "every AID of any length", "why_tests_cant": "All AIDs, in both directions.", "anchors": ["tools/emv-tool.c: emv_txn_load_config", "src/emv_app.c: emv_app_is_supported"]}
{"id": "C134", "title": "Readers are listed with their features, properties and state", "statement": "For each reader emv-tool prints the number, name, the features it has, the display layout, the sizes of display and PIN and the USB identification the driver tells, each if and only if it is told, and the state.", "quantifier": "every reader, feature list, property list and state, and all contents of the local arrays", "why_tests_cant": "All lists, and independence from uninitialised memory.", "anchors": ["tools/emv-tool.c: print_pcsc_readers, pcsc_get_reader_state_string"]}
{"id": "C135", "title": "The cardholder's choice is the number entered", "statement": "A line with a number of an application in the menu selects it, any other line is refused, and exactly one line is used.", "quantifier": "every input and number of applications", "why_tests_cant": "Input of any length and contents.", "anchors": ["tools/emv-tool.c: main"]}
{"id": "C136", "title": "Application selection ends", "statement": "The selection loop ends after at most as many rounds as there are candidates and invalid lines of input; no candidate is tried twice.", "quantifier": "every card that answers, every candidate list and input", "why_tests_cant": "Any number of candidates and all behaviours of the card.", "anchors": ["tools/emv-tool.c: main"]}
{"id": "C137", "title": "A transaction of emv-tool is safe and only prints data of a completed transaction", "statement": "Whatever the card answers, emv-tool accesses no memory it should not. 'ICC data' is printed only if an application of the candidate list was selected and initiated and its records were read with all mandatory fields and no duplicates, and then what is printed is the data of that application, including AIP and AFL. The only commands sent are SELECT for the directory, the supported AIDs and the candidates, READ RECORD, GET PROCESSING OPTIONS with the data the card's PDOL asks for from the transaction parameters, configuration and AID, and the continuations of these.", "quantifier": "every card, command line, clock and input", "why_tests_cant": "All behaviours of the card through a whole transaction.", "anchors": ["tools/emv-tool.c: main, print_emv_app, print_emv_app_list", "src/emv.c"]}
{"id": "C138", "title": "Only contact cards with an acceptable ATR are sent commands", "statement": "emv-tool starts a transaction only after valid options, a card presented in time and connected as a contact card, and an ATR that emv_atr_parse accepts.", "quantifier": "every command line, reader and ATR", "why_tests_cant": "All combinations of failures on the way.", "anchors": ["tools/emv-tool.c: main"]}
{"id": "C139", "title": "A code is answered with the name the ISO files give it", "statement": "After a first isocodes_init that returns 0, each of the seven lookups returns the name in the first record of its file that has the code, and NULL if no record has it. It returns 0 whenever the three files have the documented form.", "quantifier": "every content of the files, every path, every code", "why_tests_cant": "The lookups are tested with a handful of codes of the installed files.", "anchors": ["src/isocodes_lookup.cpp: isocodes_init, isocodes_lookup_country_by_alpha2, isocodes_lookup_country_by_alpha3, isocodes_lookup_country_by_numeric, isocodes_lookup_currency_by_alpha3, isocodes_lookup_currency_by_numeric, isocodes_lookup_language_by_alpha2, isocodes_lookup_language_by_alpha3"]}
{"id": "C140", "title": "isocodes_init reports which file failed and how", "statement": "The result 1, 2 or 3 means that the country, currency or language file could not be read, -1, -2 or -3 that it has not the documented form; the files before it are loaded, and lookups for the others return NULL.", "quantifier": "every content of the files and every path", "why_tests_cant": "Tests only load good files.", "anchors": ["src/isocodes_lookup.cpp: isocodes_init, build_country_list, build_currency_list, build_language_list"]}
{"id": "C141", "title": "Loading ISO files never ends the program", "statement": "isocodes_init returns to its caller with a result, whatever the files contain.", "quantifier": "every content of the files and every path", "why_tests_cant": "An exception in a noexcept function appears only with a record no test has.", "anchors": ["src/isocodes_lookup.cpp: isocodes_init, build_country_list, build_currency_list"]}
{"id": "C142", "title": "Initialisation can be repeated", "statement": "A second call of isocodes_init, after a success or a failure, gives the same lookups as a first call with these files.", "quantifier": "every pair of calls and every code", "why_tests_cant": "Tests initialise once per process; a dangling reference often still reads the old data.", "anchors": ["src/isocodes_lookup.cpp: isocodes_init, country_list, country_alpha2_map"]}
{"id": "C143", "title": "Merchant category codes are answered with the last description given", "statement": "After mcc_init returns 0, mcc_lookup returns the description in the last record with that code, and otherwise what it returned before the call. 1 means the file cannot be read and nothing has changed; -1 that a record has not the documented form, and then only records of the file may have changed answers.", "quantifier": "every content of the file, every path, every code and every earlier state", "why_tests_cant": "The lookup is tested with the bundled file only.", "anchors": ["src/mcc_lookup.cpp: mcc_init, mcc_map_add, build_mcc_list, mcc_lookup"]}
{"id": "C144", "title": "emv_strings_init succeeds only as a whole and names the file that failed", "statement": "emv_strings_init returns 0 exactly if the ISO files and the merchant category codes were loaded; another result identifies the file.", "quantifier": "every content of the files and every path", "why_tests_cant": "Tests only load good files.", "anchors": ["src/emv_strings.c: emv_strings_init"]}
{"id": "C145", "title": "Conversion with iconv gives the complete text, terminated", "statement": "iso8859_to_utf8 (iconv) returns 0 exactly if every character can be converted and the text fits, and leaves a NUL-terminated UTF-8 text; it never writes outside the buffer.", "quantifier": "every code page, text, buffer and iconv library", "why_tests_cant": "Tests clear the buffer before each conversion, which hides a missing terminator.", "anchors": ["src/iso8859_iconv.c: iso8859_to_utf8, iso8859_is_supported"]}
{"id": "C146", "title": "Conversion with Boost gives the text up to the size of the buffer, terminated", "statement": "iso8859_to_utf8 (Boost) returns 0 exactly if the library converts the text, and the buffer then holds as much of it as fits, terminated; otherwise the buffer holds the empty text.", "quantifier": "every code page, text, buffer and result of the library", "why_tests_cant": "Every length of text against every length of buffer.", "anchors": ["src/iso8859_boost.cpp: iso8859_to_utf8, iso8859_is_supported"]}
{"id": "C147", "title": "A converted text is never cut inside a character", "statement": "When the text does not fit, the buffer holds whole UTF-8 characters only.", "quantifier": "every code page, text and buffer, for both libraries", "why_tests_cant": "Only texts cut in the middle of a multi-octet character differ.", "anchors": ["src/iso8859_iconv.c: iso8859_to_utf8", "src/iso8859_boost.cpp: iso8859_to_utf8"]}
{"id": "C148", "title": "Text fields and account numbers are described with their text", "statement": "emv_tlv_get_info gives, for each text field of EMV Book 3 (Application Label, Cardholder Name, ...), exactly the value as text if its characters and length are those of the field's format, otherwise an error and the empty text; for the PAN it gives the digits without the filler.", "quantifier": "every text field, value and text buffer with room for it", "why_tests_cant": "Every value of every field; a wrong format or maximum length for one tag shows only for values that differ in it.", "anchors": ["src/emv_strings.c: emv_tlv_get_info, emv_tlv_value_get_string"]}
{"id": "C149", "title": "The viewer's highlighting marks exactly the tags, the padding, the invalid rest and characters that are not hex digits", "statement": "For hex digits that stand for octets: both digits of each octet of a tag are marked as tag, those of padding as padding, those after the valid data as invalid, those of the selected item as selected, and no others; other characters are marked as not hexadecimal; white space is not marked.", "quantifier": "every text in any number of lines, any spacing, any data, selection and setting", "why_tests_cant": "Lines break tags, octets and padding at every position.", "anchors": ["viewer/emvhighlighter.cpp: EmvHighlighter::parseBlocks, highlightBlock, parseBerData"]}
{"id": "C150", "title": "Any text may be typed into the viewer", "statement": "Whatever characters are typed or pasted, highlighting and decoding have defined behaviour.", "quantifier": "every text and setting", "why_tests_cant": "Undefined behaviour of isxdigit need not show; it depends on the first character that is not a hex digit.", "anchors": ["viewer/emvhighlighter.cpp: EmvHighlighter::parseBlocks", "viewer/emv-viewer-mainwindow.cpp: EmvViewerMainWindow::parseData"]}
{"id": "C151", "title": "The viewer's tree shows exactly the fields of the data, and agrees with the highlighting", "statement": "There is one item for each field, in the order and nesting of the data, with tag, name, length, value and description, a list for each Data Object List and tag list, and one for padding; the octets taken for valid and the places of fields are those that are highlighted.", "quantifier": "every data, well-formed or not, and every setting", "why_tests_cant": "Nesting, padding and errors at any place; two independent walks over the same data must agree.", "anchors": ["viewer/emvtreeview.cpp: EmvTreeView::populateItems", "viewer/emvtreeitem.cpp: EmvTreeItem", "viewer/emvhighlighter.cpp: parseBerData"]}
{"id": "C152", "title": "Switching the decoding of fields gives what decoding afresh would give", "statement": "After the setting is changed every item has the text and visibility it would have had if the data had been shown with the new setting.", "quantifier": "every data and both settings, before and after", "why_tests_cant": "Needs all kinds of items at every depth.", "anchors": ["viewer/emvtreeview.cpp: EmvTreeView::setDecodeFields", "viewer/emvtreeitem.cpp: EmvTreeItem::render"]}
{"id": "C153", "title": "Selecting an item of the tree highlights exactly the digits of its field", "statement": "When an item is pressed, the characters with the background of the selection are exactly the hex digits of the octets of its field, however they are spaced.", "quantifier": "every text, item, earlier selection and setting", "why_tests_cant": "Every spacing and line break of every field at every depth.", "anchors": ["viewer/emv-viewer-mainwindow.cpp: on_treeView_itemPressed", "viewer/emvhighlighter.cpp: EmvHighlighter::highlightBlock"]}
{"id": "C154", "title": "Nothing that is typed is left out of the tree", "statement": "The digits of the fields shown and the text after \"Remaining invalid data\" together are the whole text without white space.", "quantifier": "every text and setting", "why_tests_cant": "Odd numbers of digits, other characters and incomplete fields in any combination.", "anchors": ["viewer/emv-viewer-mainwindow.cpp: EmvViewerMainWindow::parseData"]}
{"id": "C155", "title": "The viewer and the tools recognise the same padding, and any padding", "statement": "When padding is ignored, the viewer takes an invalid rest for padding exactly if print_emv_buf does; and padding of ISO/IEC 9797-1 (80 and zeros) is never shown as fields.", "quantifier": "every well-formed data followed by a rest that is no field", "why_tests_cant": "The conditions differ for a single length of the rest.", "anchors": ["viewer/emvhighlighter.cpp: parseBerData", "viewer/emvtreeview.cpp", "tools/print_helpers.c: print_emv_buf_internal"]}
{"id": "C156", "title": "What is typed for type and amounts is what the card is told", "statement": "If emv-tool, started with two digits for the transaction type and decimal digits for the two amounts, prints the card's data, then after the SELECT that was answered with the application's file control information the card was sent a GET PROCESSING OPTIONS whose data follow the PDOL of that information entry by entry: the entries for the amounts (9F02, 9F03, and 81, 9F04 in full length) encode exactly the numbers typed (numeric ones modulo the length asked for), the entry for the type the digits typed, and date, time and currency those of the transaction; without PDOL it was sent 83 00.", "quantifier": "every card machine, clock, keyboard input, pair of digits, pair of decimal numbers below 2^32, PDOL and entry lengths", "why_tests_cant": "Parsing of options, encoding of parameters, search of the sources, padding and truncation and the transport are tested separately and for a few values; the card's PDOL is arbitrary.", "anchors": ["tools/emv-tool.c: main, argp_parser_helper, emv_txn_load_params", "src/emv.c: emv_initiate_application_processing", "src/emv_dol.c: emv_dol_build_data", "src/emv_ttl.c: emv_ttl_get_processing_options"]}
{"id": "C157", "title": "A line of the trace shows its origin and loses no data", "statement": "For every event with a message or with data, commands (of four octets or more) or answers, the debug callbacks print the source, with --debug-verbose also the time as ten digits and the level, then the message and, except for plain messages, all of the data in hexadecimal: two events with the same message and different data never print the same text.", "quantifier": "every source, level, type, 32-bit time, message and data", "why_tests_cant": "The callbacks are only run by eye on a few events; that no two data collide is a statement about pairs.", "anchors": ["tools/print_helpers.c: print_emv_debug, print_emv_debug_verbose"]}
{"id": "C158", "title": "Tracing data of a card never fails", "statement": "For every response of a card that the library traces as data objects, the callback prints its octets and its fields; no card can make the tool fail by what it answers.", "quantifier": "every octet string of the card", "why_tests_cant": "The contents are chosen by the card.", "anchors": ["tools/print_helpers.c: print_emv_debug_internal", "src/emv_tal.c: emv_tal_select_app", "src/emv_debug.c: emv_debug_internal"]}
{"id": "C159", "title": "The window of emv-viewer follows what the user does", "statement": "Whatever is typed, checked and pressed and in whatever order, the highlighting is that of the text and options now shown, and the tree is too once the update timer has run; the options and text are the last ones set. Nothing the user does makes the window fail.", "quantifier": "every sequence of edits, timeouts, changes of the options and presses", "why_tests_cant": "There are infinitely many sequences, and the tests have none: the parsed state, the formats, the tree and the options are updated by different slots, some of which cause others.", "anchors": ["viewer/emv-viewer-mainwindow.cpp: on_dataEdit_textChanged, on_updateTimer_timeout, on_tagsCheckBox_stateChanged, on_paddingCheckBox_stateChanged, on_decodeCheckBox_stateChanged, on_treeView_itemPressed, parseData", "viewer/emvhighlighter.cpp: highlightBlock", "viewer/emvtreeview.cpp: setDecodeFields"]}
{"id": "C160", "title": "The highlighted octets are those of the item pressed last", "statement": "After a field in the tree is pressed, the digits of its octets are highlighted and no others, and this stays true of the text and tree shown; before the first press nothing is highlighted.", "quantifier": "every sequence of events and every item", "why_tests_cant": "Needs all sequences of edits and presses.", "anchors": ["viewer/emv-viewer-mainwindow.cpp: on_treeView_itemPressed, on_dataEdit_textChanged", "viewer/emvhighlighter.h: setSelection, clearSelection"]}
{"id": "C161", "title": "emv-viewer starts as it was closed", "statement": "When emv-viewer is started again, each option is as it was when it was closed, except that --tlv and --ber set the decoding option and the text; --tlv wins over --ber. The text is not kept.", "quantifier": "every state of the window at closing and all command line options", "why_tests_cant": "The settings are written by one slot and read by another; only checked options are written, so this depends on the defaults.", "anchors": ["viewer/emv-viewer-mainwindow.cpp: EmvViewerMainWindow, loadSettings, saveSettings", "viewer/emv-viewer.cpp: main"]}
{"id": "C162", "title": "A PC/SC context is held or given back as a whole", "statement": "pcsc_init returns either success and a context that holds one context of the service and its memory, or an error and NULL, with all memory freed and every context of the service given back; pcsc_release then frees exactly what pcsc_init obtained and gives the context back. No context of the service is released that was not established.", "quantifier": "every behaviour of the service and every state of the heap", "why_tests_cant": "Failures of the service at each step cannot be provoked, and a leak or a double free shows no result.", "anchors": ["src/pcsc.c: pcsc_init, pcsc_release"]}
{"id": "C163", "title": "Reader count, reader state and exchanges are those of the service", "statement": "A context has as many readers as the service listed, in that order, and no reader beyond; an exchange with a card gives exactly the octets of its answer and their number and leaves the rest of the buffer alone, an exchange that fails leaves the length as it was; the state of a reader is the one the service gives.", "quantifier": "every list of names, command, answer and buffer", "why_tests_cant": "Every answer and size; tests have no readers.", "anchors": ["src/pcsc.c: pcsc_get_reader_count, pcsc_get_reader, pcsc_reader_get_name, pcsc_reader_trx, pcsc_reader_get_state"]}
{"id": "C164", "title": "emv-decode --ber prints every object of BER data in a line", "statement": "For all well-formed BER data emv-decode --ber prints one line for each object in order, indented by two spaces for each object it is in, with the identifier in hexadecimal, the length and, for primitive objects, the octets, followed by the text of a string up to its first NUL in quotation marks (dots for 1024 octets and more) or the arcs of an object identifier in braces.  Octets after it that are no object are printed after these lines as an error with their offset, at the top or inside constructed objects, or as padding if padding is to be ignored.", "quantifier": "every BER data, of every depth and size", "why_tests_cant": "Unbounded data; every tag and string.", "anchors": ["tools/print_helpers.c: print_ber_buf, print_ber_buf_internal", "tools/emv-decode.c: main"]}
{"id": "C165", "title": "Parsing data takes bounded time and stack", "statement": "iso8825_ber_decode calls itself, once for each object inside an object of indefinite length, and emv_tlv_parse calls itself for each template.  For data of n octets, whatever they are, decoding makes at most n + 1 calls with at most n / 2 + 1 frames on the stack, and emv_tlv_parse makes at most (n + 2)^2 / 4 calls of the decoder with at most n / 2 + 3 frames (131 for the largest response of a card).  The number of frames does grow with the data: n / 2 + 1 are reached for every even n.", "quantifier": "every buffer; every list parsed into", "why_tests_cant": "A bound over all data, of every nesting and length form; tests show single inputs.", "anchors": ["src/iso8825_ber.c: iso8825_ber_decode, iso8825_ber_itr_next", "src/emv_tlv.c: emv_tlv_parse"]}
{"id": "C166", "title": "Building candidate lists and selecting lose no application and release none twice", "statement": "Whatever the card answers and whatever the outcome, after emv_build_candidate_list and emv_select_application the applications that are allocated are exactly those in the caller's list, the one that the context holds as selected, and those that were allocated elsewhere before, which are unchanged; no application is released twice or used after it was released.  Applications that are blocked, not supported or not well formed, the one selected before and the one taken from the list are released.  So after any history of building, selecting, emv_ctx_reset and emv_app_list_clear, a reset and a clear release everything the library allocated.", "quantifier": "every card, list of supported AIDs, list, context and history of calls", "why_tests_cant": "A leak or a double release on one of the many ways out needs the answer of a card that takes it; the statement is about all histories and answers.", "anchors": ["src/emv.c: emv_build_candidate_list, emv_select_application, emv_ctx_reset", "src/emv_tal.c: emv_tal_read_pse, emv_tal_parse_aef_record, emv_tal_find_supported_apps, emv_tal_select_app", "src/emv_app.c: emv_app_create_from_pse, emv_app_create_from_fci, emv_app_free, emv_app_list_clear"]}
{"id": "C167", "title": "Processing an application and reading its data lose no field and release none twice", "statement": "Whatever the card answers and whatever the outcome, after emv_initiate_application_processing, emv_read_application_data and emv_ctx_reset each field that is allocated is in exactly one of the lists of the context (configuration, parameters, selected application, ICC data, terminal data) or was allocated elsewhere before and is unchanged; the lists are well formed and carry what the functions compute, and no field is released twice.  The AID pointer of the selected application is at the AID of that application, in its own list or in the ICC data, or at a released field; the pointers that emv_tal_get_processing_options gives out are at fields of the list or, where C67 says so, at a released one.  So after any history of these calls emv_ctx_clear releases every field that the library allocated.", "quantifier": "every card, buffer, context, list of fields and history of calls", "why_tests_cant": "A lost or twice released field on one of the many ways out needs the answer of a card that takes it; the statement is about all histories and answers.", "anchors": ["src/emv.c: emv_initiate_application_processing, emv_read_application_data, emv_ctx_reset, emv_ctx_clear", "src/emv_tal.c: emv_tal_get_processing_options, emv_tal_read_afl_records, emv_tal_read_sfi_records", "src/emv_tlv.c: emv_tlv_parse, emv_tlv_list_append, emv_tlv_list_clear"]}
{"id": "C168", "title": "emv-tool tells how it ended and leaves no card active", "statement": "The exit status of emv-tool is 0 if and only if the transaction was completed (or a version was asked for), and a card that emv-tool has activated is deactivated, once, before it ends.  The calls of the PC/SC functions are made in the order init, wait, connect, ATR, exchanges, disconnect, as far as the run goes, and the PC/SC context is released once at the end of every run that initialised it; nothing is sent to the card outside the transaction.", "quantifier": "every command line, card, reader and input", "why_tests_cant": "Which way out is taken depends on the card and the reader; tests do not run emv-tool with cards that fail.", "anchors": ["tools/emv-tool.c: main", "src/pcsc.h: pcsc_reader_disconnect, pcsc_release"]}
{"id": "C169", "title": "Candidates and selection lose no field of an application and release none twice", "statement": "Whatever the card answers and whatever the outcome, after emv_build_candidate_list and emv_select_application each field that is allocated belongs to exactly one of: the applications in the caller's list, the lists of the context (C167), and what was allocated elsewhere before, which is unchanged.  The fields of the FCI of the directory, of applications that are blocked, not supported or not well formed, of the application selected before and of the one that leaves the list are released, each once.  The AID pointer of every application in the list is at a field of that application which holds its AID.  So after any history of building, selecting, processing, reading, resetting and clearing, clearing the list and the context releases every field that the library allocated.", "quantifier": "every card, list of supported AIDs, list of applications, context and history of calls", "why_tests_cant": "A lost or twice released field on one of the many ways out needs the answer of a card that takes it; the statement is about all histories and answers.", "anchors": ["src/emv.c: emv_build_candidate_list, emv_select_application, emv_ctx_clear", "src/emv_tal.c: emv_tal_read_pse, emv_tal_parse_aef_record, emv_tal_find_supported_apps, emv_tal_select_app", "src/emv_app.c: emv_app_create_from_pse, emv_app_create_from_fci, emv_app_free, emv_app_list_clear"]}
{"id": "C170", "title": "emv-decode tells whether it decoded", "statement": "The exit status of emv-decode is 0 if and only if the data were decoded, or the version or the list of code pages was asked for and told.  For every decoding option an answer on standard output is never mixed with a complaint: either the complaint stream is empty (apart from the one warning about missing lookup data), or standard output is empty and one message line is on standard error.  The status is 1 for an empty command line, 64 for one that is refused, and 2, with nothing on standard output, if the lookups cannot be set up; and no other value.", "quantifier": "every command line, input, lookup and result of emv_strings_init", "why_tests_cant": "Scripts rely on the status for inputs nobody listed; the statement is about all command lines and all data.", "anchors": ["tools/emv-decode.c: main, argp_parser_helper"]}
{"id": "C171", "title": "The messages about the directory tell what became of each entry", "statement": "Whatever the card answers, the messages of emv_tal_read_pse do not change its result, the last one tells the result, and no two results end with the same message.  Once the directory is selected they tell of each record in turn and of each object in its template, in order, with one message: that it is no application template and which tag it has, that its content is invalid, or that the application is supported or not; there are exactly as many announcements of supported applications as there are applications added.  A record that is not a template 70 is told with the tag it has.", "quantifier": "every card, directory, list of supported AIDs and content of uninitialised memory", "why_tests_cant": "A message that misleads is seen only in the field, with a card that is not at hand; the statement is about all cards.", "anchors": ["src/emv_tal.c: emv_tal_read_pse, emv_tal_parse_aef_record", "src/emv_debug.h: emv_debug_error, emv_debug_info"]}
{"id": "C172", "title": "The messages about the application data tell which records were read and used", "statement": "Whatever the AFL and the card, the messages of emv_tal_read_afl_records do not change its result; they tell the records that are requested, each once and in order, and nothing else is requested.  An error result ends with a message that determines it.  The result says that offline data authentication is impossible if and only if a message said so of some record and reading went on to the end.  A record is told to be used for offline data authentication if and only if it is read, the AFL counts it for that, and authentication is still possible.", "quantifier": "every AFL, card and list of fields", "why_tests_cant": "A log is consulted for the card that failed in the field; the statement is about all AFLs and all records.", "anchors": ["src/emv_tal.c: emv_tal_read_afl_records, emv_tal_read_sfi_records", "src/emv_fields.h: struct emv_afl_entry_t (oda_record_count)"]}
{"id": "C173", "title": "The messages about selecting and starting an application tell what was asked and what came of it", "statement": "Whatever the card answers, the messages of emv_tal_find_supported_apps, emv_tal_select_app and emv_tal_get_processing_options do not change their results.  Every SELECT that the search makes is told, with its name, in order and as first or next, and the message after it tells in words what came of it; the applications told to be supported are exactly those added to the list.  Unless its arguments are refused, emv_tal_select_app and emv_tal_get_processing_options tell the request first and end with a message that determines the result; the application given back was made of the FCI told, and the AIP and the AFL told are those given back.  A status or a length that is told is the one the card sent.", "quantifier": "every card, list of supported AIDs, name, and command data", "why_tests_cant": "A log is consulted for the card that failed in the field; the statement is about all answers of all cards.", "anchors": ["src/emv_tal.c: emv_tal_find_supported_apps, emv_tal_select_app, emv_tal_get_processing_options"]}
