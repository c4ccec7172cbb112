{
 "claims": [
  {
   "property": "C01",
   "status": "proved",
   "theorems": [
    "C01_framing",
    "C01_one_item_each",
    "C01_file",
    "C01_pieces"
   ],
   "note": ""
  },
  {
   "property": "C02",
   "status": "proved",
   "theorems": [
    "C02_keeps_earlier",
    "C02_failing_packet",
    "C02_cut_packet",
    "C02_any_input",
    "C02_no_packet",
    "C02_every_input"
   ],
   "note": ""
  },
  {
   "property": "C03",
   "status": "proved",
   "theorems": [
    "C03_terminates",
    "C03_budget",
    "C03_nested_shorter"
   ],
   "note": ""
  },
  {
   "property": "C04",
   "status": "partial",
   "theorems": [
    "C04_panics_only_there",
    "C04_without_secret_keys",
    "C04_secret_keys_that_panic",
    "C04_never_panics_refuted"
   ],
   "note": "False of the code (C04_never_panics_refuted: five octets panic). Proved: every panic comes from a secret-key packet of the described kinds (C04_panics_only_there), inputs without secret keys never panic, and all keys of two large classes do panic."
  },
  {
   "property": "C05",
   "status": "proved",
   "theorems": [
    "C05_only_dumps_differ",
    "C05_options_add_dumps",
    "C05_debug_shows_all",
    "C05_gdump_has_no_effect",
    "C05_dumps_are_hex"
   ],
   "note": ""
  },
  {
   "property": "C06",
   "status": "partial",
   "theorems": [
    "C06_packet_partial",
    "C06_lengths",
    "C06_input_partial",
    "C06_bytes_partial",
    "C06_ocb_refuted",
    "C06_legacy_refuted",
    "C06_v5_refuted",
    "C06_checksum_refuted",
    "C06_armor_refuted",
    "C06_redacted_partial",
    "C06_redaction",
    "C06_same_redaction_partial",
    "C06_redacted_input_partial",
    "C06_redacted_octets_partial",
    "C06_hidden_whole",
    "C06_hidden_literal"
   ],
   "note": "Proved in two ways. (1) redact (SpecRedact) replaces secret and bulk octets of any octet string by zeros; every packet, well-formed or cut short, is shown (or fails) exactly as its redaction (C06_redacted_partial and the theorems on inputs beside it). (2) Inputs related by SpecHidden are shown alike. Partial because the code shows octets that the property calls secret: OCB nonces (C06_ocb_refuted), IVs of version 5 and of usages 1-252 (C06_v5_refuted, C06_legacy_refuted), the checksum of plain secret keys (C06_checksum_refuted), armor inside binary input (C06_armor_refuted). redact leaves alone areas of sub-packets and key blocks that do not split into whole sub-packets or packets, and compressed data."
  },
  {
   "property": "C07",
   "status": "proved",
   "theorems": [
    "C07_only_dates_differ",
    "C07_structure",
    "C07_utc_ignores_zone"
   ],
   "note": ""
  },
  {
   "property": "C08",
   "status": "proved",
   "theorems": [
    "C08_utc",
    "C08_local",
    "C08_zone_with_seconds",
    "C08_file_time"
   ],
   "note": ""
  },
  {
   "property": "C09",
   "status": "partial",
   "theorems": [
    "C09_expiration_date",
    "C09_expiration_date_local",
    "C09_overflow_refuted",
    "C09_expiration_modular",
    "C09_no_creation_time"
   ],
   "note": "False of the code when the sum passes 2^32-1 (C09_overflow_refuted); C09_expiration_modular says what is shown for every pair."
  },
  {
   "property": "C10",
   "status": "partial",
   "theorems": [
    "C10_history",
    "C10_shown",
    "C10_same_signature_partial",
    "C10_same_key_partial",
    "C10_refuted",
    "C10_key_refuted"
   ],
   "note": "False of the code (C10_refuted, C10_key_refuted). C10_history and C10_shown say exactly which time is used for every history of packets; the partial theorems give the cases in which it is the right one."
  },
  {
   "property": "C11",
   "status": "proved",
   "theorems": [
    "C11_label",
    "C11_inside"
   ],
   "note": ""
  },
  {
   "property": "C12",
   "status": "proved",
   "theorems": [
    "C12_text_shown",
    "C12_value_clean",
    "C12_invalid_text",
    "C12_user_id"
   ],
   "note": ""
  },
  {
   "property": "C13",
   "status": "partial",
   "theorems": [
    "C13_no_control_characters_partial",
    "C13_only_the_format_octet",
    "C13_no_control_characters_refuted"
   ],
   "note": "False of the code for the literal format octet only (C13_no_control_characters_refuted, C13_only_the_format_octet); proved for every input without such an octet."
  },
  {
   "property": "C14",
   "status": "proved",
   "theorems": [
    "C14_all_utf8"
   ],
   "note": ""
  },
  {
   "property": "C15",
   "status": "proved",
   "theorems": [
    "C15_dump_reads_back",
    "C15_dump_canonical",
    "C15_dump_injective"
   ],
   "note": ""
  },
  {
   "property": "C16",
   "status": "proved",
   "theorems": [
    "C16_keyid_text",
    "C16_keyid_injective"
   ],
   "note": ""
  },
  {
   "property": "C17",
   "status": "proved",
   "theorems": [
    "C17_mpi_exact",
    "C17_mpi_truncated",
    "C17_mpi_item"
   ],
   "note": ""
  },
  {
   "property": "C18",
   "status": "proved",
   "theorems": [
    "C18_lengths",
    "C18_symmetric",
    "C18_hash",
    "C18_public_key",
    "C18_compression",
    "C18_aead",
    "C18_s2k",
    "C18_signature_type",
    "C18_subpacket",
    "C18_tag",
    "C18_octet_recoverable"
   ],
   "note": ""
  },
  {
   "property": "C19",
   "status": "proved",
   "theorems": [
    "C19_s2k_count",
    "C19_s2k_count_increasing"
   ],
   "note": ""
  },
  {
   "property": "C20",
   "status": "proved",
   "theorems": [
    "C20_s2k_exact",
    "C20_s2k_lengths",
    "C20_private_without_marker"
   ],
   "note": ""
  },
  {
   "property": "C21",
   "status": "partial",
   "theorems": [
    "C21_ecdh_session_truncated",
    "C21_pubkey_session",
    "C21_pubkey_session_unknown",
    "C21_pubkey_session_truncated",
    "C21_pubkey_session_fixed_truncated",
    "C21_ecdh_session_truncated_refuted",
    "C21_symkey_session",
    "C21_symkey_session_other",
    "C21_symkey_session_truncated",
    "C21_one_pass",
    "C21_one_pass_truncated",
    "C21_encrypted",
    "C21_protected",
    "C21_mdc",
    "C21_aead_partial",
    "C21_aead_truncated",
    "C21_ocb_refuted"
   ],
   "note": "False of the code for OCB and for a cut ECDH session key (refuted theorems); proved for everything else."
  },
  {
   "property": "C22",
   "status": "proved",
   "theorems": [
    "C22_signature",
    "C22_unknown_algorithm",
    "C22_version_3",
    "C22_other_version"
   ],
   "note": ""
  },
  {
   "property": "C23",
   "status": "partial",
   "theorems": [
    "C23_truncated_partial",
    "C23_version_3_unreported",
    "C23_refuted"
   ],
   "note": "False of the code for version 3 (C23_refuted, C23_version_3_unreported); proved for versions 4 and 5."
  },
  {
   "property": "C24",
   "status": "partial",
   "theorems": [
    "C24_ecdh_truncated",
    "C24_v5_truncated",
    "C24_v5_short_count",
    "C24_v4",
    "C24_v3",
    "C24_v5",
    "C24_v5_surplus_refuted",
    "C24_unknown_algorithm",
    "C24_unknown_version",
    "C24_truncated",
    "C24_ecdh_truncated_refuted",
    "C24_v3_unknown_algorithm",
    "C24_v5_unknown_algorithm"
   ],
   "note": "False of the code for surplus octets in version 5 material and for a cut ECDH key (refuted theorems); proved for everything else."
  },
  {
   "property": "C25",
   "status": "partial",
   "theorems": [
    "C25_truncated",
    "C25_plain",
    "C25_encrypted",
    "C25_aead_partial",
    "C25_ocb_refuted",
    "C25_v5_plain",
    "C25_v5_encrypted_refuted",
    "C25_v5_own_iv_refuted",
    "C25_legacy_refuted",
    "C25_unknown_algorithm_plain",
    "C25_unknown_algorithm",
    "C25_unknown_version_plain",
    "C25_unknown_version",
    "C25_plain_truncated",
    "C25_encrypted_truncated",
    "C25_legacy_example_refuted",
    "C25_v5_refuted"
   ],
   "note": "False of the code for encrypted version 5 keys, usages 1-252 and OCB (refuted theorems, which say for all inputs what is shown instead); proved for versions 3 and 4 with usages 0, 254, 255 and 253 with EAX, for version 5 not encrypted, for unknown algorithms and unknown versions."
  },
  {
   "property": "C26",
   "status": "proved",
   "theorems": [
    "C26_split",
    "C26_one_way",
    "C26_zero_length",
    "C26_too_long",
    "C26_hashed_malformed",
    "C26_unhashed_malformed",
    "C26_sub_error",
    "C26_unhashed_sub_error",
    "C26_user_attribute",
    "C26_user_attribute_malformed"
   ],
   "note": ""
  },
  {
   "property": "C27",
   "status": "proved",
   "theorems": [
    "C27_critical",
    "C27_name"
   ],
   "note": ""
  },
  {
   "property": "C28",
   "status": "proved",
   "theorems": [
    "C28_unknown_packet",
    "C28_unknown_subpacket",
    "C28_unknown_attribute"
   ],
   "note": ""
  },
  {
   "property": "C29",
   "status": "partial",
   "theorems": [
    "C29_flags_tell",
    "C29_key_flags_partial",
    "C29_refuted",
    "C29_notation_tell",
    "C29_line_iff_set"
   ],
   "note": "False of the code for the numbering of key-flag octets from the third on (C29_refuted); proved that the items determine the bits of the first two octets and of all other flag kinds."
  },
  {
   "property": "C30",
   "status": "partial",
   "theorems": [
    "C30_chunk_size_shown_partial",
    "C30_chunk_size_partial",
    "C30_chunk_size_refuted",
    "C30_chunk_size_high"
   ],
   "note": "False of the code from c = 58 on (C30_chunk_size_refuted); proved below, and characterised for all octets."
  },
  {
   "property": "C31",
   "status": "partial",
   "theorems": [
    "C31_short_iv_refuted",
    "C31_every"
   ],
   "note": "C31_every gives the outcome for every body; the property as stated is false of the code when the IV is cut short (C31_short_iv_refuted)."
  },
  {
   "property": "C32",
   "status": "partial",
   "theorems": [
    "C32_shown",
    "C32_image_size_partial",
    "C32_refuted"
   ],
   "note": "False of the code (C32_refuted); C32_shown and C32_image_size_partial say what is shown."
  },
  {
   "property": "C33",
   "status": "partial",
   "theorems": [
    "C33_reported_partial",
    "C33_header_only",
    "C33_refuted",
    "C33_either",
    "C33_every"
   ],
   "note": "False of the code (C33_refuted); C33_every says for every cut what happens."
  },
  {
   "property": "C34",
   "status": "proved",
   "theorems": [
    "C34_complete",
    "C34_each"
   ],
   "note": ""
  },
  {
   "property": "C35",
   "status": "proved",
   "theorems": [
    "C35_expanded",
    "C35_cut_inside",
    "C35_no_packet_inside",
    "C35_failing_inside",
    "C35_too_large",
    "C35_bad_data",
    "C35_unknown_algorithm"
   ],
   "note": ""
  },
  {
   "property": "C36",
   "status": "proved",
   "theorems": [
    "C36_text",
    "C36_lines",
    "C36_line_count"
   ],
   "note": ""
  },
  {
   "property": "C37",
   "status": "partial",
   "theorems": [
    "C37_compact",
    "C37_indented_partial",
    "C37_too_deep",
    "C37_reads_back",
    "C37_injective",
    "C37_one_value",
    "C37_one_document",
    "C37_parse_reads_back",
    "C37_indented_refuted"
   ],
   "note": "Compact output: proved for every tree. Indented output: proved up to 4999 levels; deeper trees give an error instead of output (C37_too_deep), and such trees come from real inputs (C37_indented_refuted)."
  },
  {
   "property": "C38",
   "status": "partial",
   "theorems": [
    "C38_reads_are_exact",
    "C38_history_concatenates",
    "C38_huge_size_refuted"
   ],
   "note": "False of the code for sizes near 2^63, which panic (C38_huge_size_refuted); proved otherwise."
  },
  {
   "property": "C39",
   "status": "proved",
   "theorems": [
    "C39_seek"
   ],
   "note": ""
  },
  {
   "property": "C40",
   "status": "partial",
   "theorems": [
    "C40_rest_negative_refuted",
    "C40_cursor_in_buffer_partial",
    "C40_no_history_panics",
    "C40_read2eof",
    "C40_reads_past_end"
   ],
   "note": "False of the code after Read2EOF (C40_rest_negative_refuted); proved for all histories in which it is called at the start or the end of the buffer, and C40_read2eof says what it leaves otherwise."
  },
  {
   "property": "C41",
   "status": "proved",
   "theorems": [
    "C41_last_value",
    "C41_debug_implies",
    "C41_lookup_by_name",
    "C41_lookup_any_order",
    "C41_lookup_ignores_case",
    "C41_unknown_name",
    "C41_text"
   ],
   "note": ""
  },
  {
   "property": "C42",
   "status": "proved",
   "theorems": [
    "C42_extracts_first_block",
    "C42_fails_without_block",
    "C42_only_blocks",
    "C42_long_line"
   ],
   "note": ""
  },
  {
   "property": "C43",
   "status": "partial",
   "theorems": [
    "C43_complete_partial",
    "C43_rest_is_lost",
    "C43_long_line_refuted",
    "C43_read_error_refuted"
   ],
   "note": "False of the code for runs of 64 KiB without a line feed and for read errors (refuted theorems); proved otherwise; C43_rest_is_lost says what is lost."
  },
  {
   "property": "C44",
   "status": "partial",
   "theorems": [
    "C44_success",
    "C44_only_success",
    "C44_nothing_on_failure",
    "C44_ends",
    "C44_panic",
    "C44_raw",
    "C44_others",
    "C44_completion",
    "C44_debug_refuted",
    "C44_debug",
    "C44_debug_output",
    "C44_debug_error",
    "C44_read_error_refuted",
    "C44_raw_refuted"
   ],
   "note": "Proved for every command, flag and environment without --debug: status 0 exactly when everything went well, complete output then, none otherwise. False in the three ways of the refuted theorems. How the command line is read is C57."
  },
  {
   "property": "C45",
   "status": "proved",
   "theorems": [
    "C45_query",
    "C45_only_the_query",
    "C45_injective",
    "C45_printable",
    "C45_server",
    "C45_options"
   ],
   "note": "The URL text is modelled with Go's net/url escaping; the HTTP client is outside the model."
  },
  {
   "property": "C46",
   "status": "proved",
   "theorems": [
    "C46_found",
    "C46_no_key",
    "C46_failed",
    "C46_null_panics",
    "C46_exhaustive",
    "C46_no_key_exactly",
    "C46_never_ends",
    "C46_page_request",
    "C46_without_id"
   ],
   "note": "For key IDs of hexadecimal digits, with or without 0x. JSON decoding and HTTP are outside the model: a page is an error or a list of entries."
  },
  {
   "property": "C47",
   "status": "proved",
   "theorems": [
    "C47_known_curve",
    "C47_unknown_curve",
    "C47_names_distinct",
    "C47_curve_item"
   ],
   "note": ""
  },
  {
   "property": "C48",
   "status": "proved",
   "theorems": [
    "C48_version_labels",
    "C48_tests"
   ],
   "note": ""
  },
  {
   "property": "C49",
   "status": "proved",
   "theorems": [
    "C49_content",
    "C49_embedded"
   ],
   "note": ""
  },
  {
   "property": "C50",
   "status": "proved",
   "theorems": [
    "C50_too_short",
    "C50_only_then"
   ],
   "note": ""
  },
  {
   "property": "C51",
   "status": "proved",
   "theorems": [
    "C51_literal",
    "C51_text",
    "C51_literal_truncated",
    "C51_literal_every",
    "C51_marker",
    "C51_trust",
    "C51_user_id"
   ],
   "note": ""
  },
  {
   "property": "C52",
   "status": "partial",
   "theorems": [
    "C52_as_binary",
    "C52_packets",
    "C52_without_checksum",
    "C52_empty_header_refuted"
   ],
   "note": "Refuted for a header with an empty value (C52_empty_header_refuted); proved for headers with a visible first character of the value. armor.Decode is modelled from x/crypto, whose source is not in /repo."
  },
  {
   "property": "C53",
   "status": "partial",
   "theorems": [
    "C53_wrong_checksum",
    "C53_wrong_checksum_shows",
    "C53_damage",
    "C53_one_character",
    "C53_padding_refuted",
    "C53_long_line"
   ],
   "note": "Refuted when a padding character = is involved in the change (C53_padding_refuted); proved for all other changes."
  },
  {
   "property": "C54",
   "status": "proved",
   "theorems": [
    "C54_after_packets",
    "C54_same_item"
   ],
   "note": ""
  },
  {
   "property": "C55",
   "status": "proved",
   "theorems": [
    "C55_any_source",
    "C55_any_source_plain",
    "C55_items",
    "C55_any_octets",
    "C55_no_compression"
   ],
   "note": ""
  },
  {
   "property": "C56",
   "status": "proved",
   "theorems": [
    "C56_days",
    "C56_shown",
    "C56_one_value",
    "C56_order",
    "C56_injective",
    "C56_whole_days"
   ],
   "note": ""
  },
  {
   "property": "C57",
   "status": "partial",
   "theorems": [
    "C57_root",
    "C57_sub",
    "C57_same_root",
    "C57_same_sub",
    "C57_unknown",
    "C57_unknown_sub",
    "C57_number",
    "C57_number_next",
    "C57_no_positional",
    "C57_double_dash_refuted",
    "C57_test_refuted",
    "C57_grouped_value_refuted"
   ],
   "note": "Proved for every line of options, and for common options, a command name and any mix of options and arguments behind it. False in three ways: behind a double hyphen, and from -test. on, arguments are passed over without an error, and a group of letters whose last one takes its value from the next argument is refused. cobra and pflag are modelled from knowledge of their released versions."
  },
  {
   "property": "C58",
   "status": "partial",
   "theorems": [
    "C58_page",
    "C58_profile",
    "C58_requests",
    "C58_exactly",
    "C58_no_request",
    "C58_user",
    "C58_profile_user",
    "C58_distinct",
    "C58_cut_refuted",
    "C58_percent_refuted"
   ],
   "note": "Proved for the host, the scheme, the page and the page size for every name, and for the path of every name without control characters and without / ? # %. False for other names: what follows ? or # is cut from the path together with /gpg_keys (C58_cut_refuted), and percent signs are decoded (C58_percent_refuted). net/url is modelled from knowledge of Go 1.16."
  },
  {
   "property": "C59",
   "status": "proved",
   "theorems": [
    "C59_items",
    "C59_all",
    "C59_text",
    "C59_json",
    "C59_file",
    "C59_command",
    "C59_same_text",
    "C59_only_debug"
   ],
   "note": ""
  },
  {
   "property": "C60",
   "status": "proved",
   "theorems": [
    "C60_isolated",
    "C60_alone",
    "C60_again",
    "C60_grows",
    "C60_resumes"
   ],
   "note": ""
  },
  {
   "property": "C61",
   "status": "partial",
   "theorems": [
    "C61_any_context_partial",
    "C61_shared",
    "C61_shared_refuted"
   ],
   "note": "Proved for the outcome, and for the items but for the dates of expiration sub-packets and the kind of session key named for encrypted data, on inputs that are packets. False for those: a context keeps the creation time and the kind of session key of the inputs it was used for (C61_shared_refuted). C61_shared says exactly what a second input gives: what it gives as the continuation of the first."
  },
  {
   "property": "C62",
   "status": "partial",
   "theorems": [
    "C62_first",
    "C62_reading",
    "C62_without_debug",
    "C62_success",
    "C62_execute_partial",
    "C62_execute_refuted"
   ],
   "note": "Proved for every command that asks for packets, for every command after calls without --debug, and for every command that succeeds on its own. False for the rest: after a call with --debug a completion script for an unknown shell is refused with status 0 instead of 1 (C62_execute_refuted)."
  },
  {
   "property": "C63",
   "status": "proved",
   "theorems": [
    "C63_packet",
    "C63_input",
    "C63_same_packet",
    "C63_same_input",
    "C63_always",
    "C63_crash",
    "C63_command",
    "C63_command_armored",
    "C63_command_no_block"
   ],
   "note": ""
  },
  {
   "property": "C64",
   "status": "proved",
   "theorems": [
    "C64_item_string",
    "C64_info_string",
    "C64_one_tree",
    "C64_json",
    "C64_frame",
    "C64_nil"
   ],
   "note": ""
  },
  {
   "property": "C65",
   "status": "proved",
   "theorems": [
    "C65_json_indented",
    "C65_any_source",
    "C65_command",
    "C65_dumps",
    "C65_any_options",
    "C65_command_any",
    "C65_held",
    "C65_any_octets",
    "C65_text",
    "C65_json",
    "C65_json_linear"
   ],
   "note": ""
  },
  {
   "property": "C66",
   "status": "proved",
   "theorems": [
    "C66_bounded",
    "C66_pieces",
    "C66_short",
    "C66_text_linear"
   ],
   "note": ""
  },
  {
   "property": "C67",
   "status": "proved",
   "theorems": [
    "C67_command",
    "C67_command_json",
    "C67_bytes_all",
    "C67_command_all",
    "C67_packet",
    "C67_input",
    "C67_packet_all",
    "C67_input_all",
    "C67_one"
   ],
   "note": ""
  },
  {
   "property": "C68",
   "status": "proved",
   "theorems": [
    "C68_outcome",
    "C68_total",
    "C68_source",
    "C68_command",
    "C68_no_input",
    "C68_debug",
    "C68_no_input_debug"
   ],
   "note": ""
  },
  {
   "property": "C69",
   "status": "proved",
   "theorems": [
    "C69_input",
    "C69_shown",
    "C69_raw",
    "C69_nothing",
    "C69_page",
    "C69_refused",
    "C69_one_reading",
    "C69_strings",
    "C69_misfit",
    "C69_too_deep",
    "C69_cut",
    "C69_no_list",
    "C69_found",
    "C69_no_key",
    "C69_failed",
    "C69_times",
    "C69_rfc3339",
    "C69_page_times",
    "C69_refused_times"
   ],
   "note": ""
  },
  {
   "property": "C70",
   "status": "proved",
   "theorems": [
    "C70_levels",
    "C70_trees",
    "C70_same_text",
    "C70_command"
   ],
   "note": "Proved for every source that can be held, every option set and every indentation that the command can use."
  },
  {
   "property": "C71",
   "status": "proved",
   "theorems": [
    "C71_command",
    "C71_debug",
    "C71_misses",
    "C71_no_input",
    "C71_status",
    "C71_raw"
   ],
   "note": "Proved. The wording of errors, of panics, of the help and of what cobra refuses is a parameter."
  },
  {
   "property": "C72",
   "status": "proved",
   "theorems": [
    "C72_named",
    "C72_offline",
    "C72_nothing",
    "C72_both",
    "C72_bare",
    "C72_github",
    "C72_frame",
    "C72_contents"
   ],
   "note": "Proved for the effects modelled in Reach.v. What the operating system, the HTTP client (redirections, proxies) and the libraries do by themselves is not modelled."
  },
  {
   "property": "C73",
   "status": "proved",
   "theorems": [
    "C73_items",
    "C73_one",
    "C73_parse",
    "C73_command",
    "C73_text",
    "C73_well",
    "C73_enough"
   ],
   "note": "Proved for every input and every pair of command lines. With --debug, where errors end with status 0, for the runs in which everything goes well (C73_well)."
  },
  {
   "property": "C74",
   "status": "proved",
   "theorems": [
    "C74_source",
    "C74_stderr",
    "C74_debug",
    "C74_raw"
   ],
   "note": "Proved for every pair of dumping commands and every input. The model words an error by its kind; the hypotheses of C74_stderr and C74_debug keep the claims to errors for which the program does so too."
  },
  {
   "property": "C75",
   "status": "proved",
   "theorems": [
    "C75_parse",
    "C75_parse_any",
    "C75_command",
    "C75_command_any",
    "C75_json"
   ],
   "note": "Text output; with --json the items are joined inside one array (C75_parse and C73). C75_parse_any is for second files of any kind, damaged or not. C75_json: with --json."
  },
  {
   "property": "C76",
   "status": "proved",
   "theorems": [
    "C76_result",
    "C76_text",
    "C76_json",
    "C76_safe",
    "C76_no_escape"
   ],
   "note": "C76_text and C76_json say where every control character comes from; C76_safe and C76_no_escape are the consequences. C76_escape and C76_delete show that the exception for format octets (C13) is real."
  },
  {
   "property": "C77",
   "status": "proved",
   "theorems": [
    "C77_dump_options",
    "C77_fewer_dumps",
    "C77_utc",
    "C77_indent",
    "C77_indent_json",
    "C77_accepted"
   ],
   "note": "C77_dump_options and C77_fewer_dumps are (1), C77_utc (2), C77_indent and C77_indent_json (3), C77_accepted (4). In C77_dump_options the second command may have --debug."
  },
  {
   "property": "C78",
   "status": "proved",
   "theorems": [
    "C78_parse",
    "C78_command",
    "C78_debug",
    "C78_exactly",
    "C78_all"
   ],
   "note": "C78_exactly is the claim for the parser, C78_all for the command. C78_parse, C78_command and C78_debug are earlier, weaker forms with other bounds on sizes. The octets must not contain lines that are themselves an armored block, since the parser would decode those (C43)."
  },
  {
   "property": "C79",
   "status": "proved",
   "theorems": [
    "C79_noticed",
    "C79_between",
    "C79_armored",
    "C79_between_json"
   ],
   "note": "C79_noticed: a cut within a packet; C79_between and C79_between_json: a cut between packets; C79_armored: armored text without its end line. C79_not_noticed shows the two exceptions at work."
  },
  {
   "property": "C80",
   "status": "proved",
   "theorems": [
    "C80_parse",
    "C80_command",
    "C80_around",
    "C80_line_ends"
   ],
   "note": "C80_parse for the parser, C80_command for the command, C80_around for lines before and behind. C80_used has a second block behind the first."
  },
  {
   "property": "C81",
   "status": "proved",
   "theorems": [
    "C81_parse",
    "C81_command",
    "C81_signature",
    "C81_user_attribute"
   ],
   "note": "C81_parse for the parser, C81_command for the command; C81_used frames the key of C67 in other ways. C81_signature and C81_user_attribute for the lengths of sub-packets."
  },
  {
   "property": "C82",
   "status": "proved",
   "theorems": [
    "C82_texts",
    "C82_packets"
   ],
   "note": "C82_texts for the same octets, C82_packets for the same packets."
  }
 ]
}