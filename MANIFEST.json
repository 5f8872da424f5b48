{
 "claims": [
  {
   "property": "C01",
   "status": "proved",
   "theorems": [
    "C01_key_agreement_without_witness"
   ],
   "note": "For every field, bilinear groups, domain provider, hash, circuits and scalars."
  },
  {
   "property": "C02",
   "status": "proved",
   "theorems": [
    "C02_secret_exponents",
    "C02_full_synthesis_agreement_refuted",
    "C02_agreement_iff",
    "C02_one_beta_only",
    "C02_no_private_variables"
   ],
   "note": "Expectation REFUTED. Exponents on both sides, exact agreement condition, uniqueness of beta."
  },
  {
   "property": "C03",
   "status": "proved",
   "theorems": [
    "C03_confidentiality_refuted"
   ],
   "note": "Expectation REFUTED: one public function of the ciphertext returns the key of every successful encap."
  },
  {
   "property": "C04",
   "status": "proved",
   "theorems": [
    "C04_decap_succeeds_iff",
    "C04_decap_error_table",
    "C04_decap_never_panics"
   ],
   "note": ""
  },
  {
   "property": "C05",
   "status": "proved",
   "theorems": [
    "C05_public_inputs_recorded",
    "C05_witness_first_records_nothing"
   ],
   "note": ""
  },
  {
   "property": "C06",
   "status": "proved",
   "theorems": [
    "C06_encap_outcome",
    "C06_encap_draws"
   ],
   "note": ""
  },
  {
   "property": "C07",
   "status": "proved",
   "theorems": [
    "C07_circuit_binding_refuted",
    "C07_which_circuits_open"
   ],
   "note": "Expectation REFUTED; which circuits open is characterised by an iff."
  },
  {
   "property": "C08",
   "status": "proved",
   "theorems": [
    "C08_public_input_binding_refuted",
    "C08_which_public_inputs_open"
   ],
   "note": "Expectation REFUTED; which public inputs open is characterised by an iff."
  },
  {
   "property": "C09",
   "status": "proved",
   "theorems": [
    "C09_qap_evaluation_correct",
    "C09_bn254_domain_contract"
   ],
   "note": ""
  },
  {
   "property": "C10",
   "status": "proved",
   "theorems": [
    "C10_satisfaction_iff_divisibility"
   ],
   "note": ""
  },
  {
   "property": "C11",
   "status": "proved",
   "theorems": [
    "C11_verify_ciphertext_iff"
   ],
   "note": ""
  },
  {
   "property": "C12",
   "status": "proved",
   "theorems": [
    "C12_published_queries",
    "C12_variable_count"
   ],
   "note": ""
  },
  {
   "property": "C13",
   "status": "proved",
   "theorems": [
    "C13_keys_coincide_iff",
    "C13_distinct_beta_distinct_keys"
   ],
   "note": ""
  },
  {
   "property": "C14",
   "status": "proved",
   "theorems": [
    "C14_round_trip",
    "C14_size",
    "C14_strict_prefixes_rejected",
    "C14_injective",
    "C14_accepted_size",
    "C14_accepted_bytes"
   ],
   "note": "For every fixed-length point codec whose decoder inverts its encoder (codecT); vector lengths below 2^64."
  },
  {
   "property": "C15",
   "status": "proved",
   "theorems": [
    "C15_encap_size",
    "C15_constant_size_refuted"
   ],
   "note": "Documented size REFUTED; exact size proved for every circuit."
  },
  {
   "property": "C16",
   "status": "proved",
   "theorems": [
    "C16_reads_back_every_file",
    "C16_public_input_count"
   ],
   "note": ""
  },
  {
   "property": "C17",
   "status": "proved",
   "theorems": [
    "C17_accepted_files_are_encodings",
    "C17_announced_counts",
    "C17_wrong_magic_or_version",
    "C17_missing_sections",
    "C17_truncated_files",
    "C17_never_panics"
   ],
   "note": ""
  },
  {
   "property": "C18",
   "status": "proved",
   "theorems": [
    "C18_readers_agree"
   ],
   "note": ""
  },
  {
   "property": "C19",
   "status": "proved",
   "theorems": [
    "C19_wasm_reader_panics_refuted",
    "C19_panic_needs_a_huge_integer",
    "C19_panics_iff"
   ],
   "note": "Expectation REFUTED; panics characterised by an iff for all inputs below 2^31 bytes."
  },
  {
   "property": "C20",
   "status": "proved",
   "theorems": [
    "C20_reads_back_every_file",
    "C20_field_elements_round_trip",
    "C20_outcome_of_any_sections",
    "C20_accepted_files_carry_the_values",
    "C20_wrong_magic_or_version",
    "C20_panics_only_on_huge_sizes"
   ],
   "note": "Exact outcome for every sequence of sections, soundness on arbitrary bytes; the one panic (allocation of an announced size of 2^63 or more) is characterised."
  },
  {
   "property": "C21",
   "status": "proved",
   "theorems": [
    "C21_reads_back_every_file",
    "C21_field_elements_round_trip",
    "C21_outcome_of_any_sections",
    "C21_termination_refuted",
    "C21_truncated_files_panic",
    "C21_returns_iff",
    "C21_never_ends_iff",
    "C21_refuses_iff",
    "C21_cause_of_non_termination"
   ],
   "note": "Expectation (always ends, never panics) REFUTED; the outcome on every byte string below 2^31 is characterised by iffs."
  },
  {
   "property": "C22",
   "status": "proved",
   "theorems": [
    "C22_canonical_files_agree",
    "C22_other_files_disagree_refuted",
    "C22_layouts_disagree_refuted"
   ],
   "note": "Expectation REFUTED; agreement on standard files characterised in both directions, plus two layouts."
  },
  {
   "property": "C23",
   "status": "proved",
   "theorems": [
    "C23_r1cs_prime_refuted",
    "C23_witness_prime_refuted"
   ],
   "note": "Expectation REFUTED for both tools and both file kinds."
  },
  {
   "property": "C24",
   "status": "proved",
   "theorems": [
    "C24_synthesis_means_satisfaction",
    "C24_both_tools_build_the_same_program",
    "C24_wire_zero_is_ignored"
   ],
   "note": ""
  },
  {
   "property": "C25",
   "status": "proved",
   "theorems": [
    "C25_stops_at_the_first_missing_wire",
    "C25_unknown_wires_are_dropped",
    "C25_unknown_rows_always_hold"
   ],
   "note": ""
  },
  {
   "property": "C26",
   "status": "proved",
   "theorems": [
    "C26_coefficient_value",
    "C26_canonical_encodings_decode_to_themselves",
    "C26_short_strings_are_zero_padded"
   ],
   "note": ""
  },
  {
   "property": "C27",
   "status": "proved",
   "theorems": [
    "C27_symbol_file",
    "C27_covers_every_text",
    "C27_records_round_trip",
    "C27_js_agrees_on_accepted_files",
    "C27_tools_agree_refuted",
    "C27_js_symbol_file",
    "C27_js_covers_every_text",
    "C27_tools_differ"
   ],
   "note": "For every text; the JS parser agrees on every accepted text without U+0085/U+FEFF, and C27_tools_agree_refuted shows where it is more lenient."
  },
  {
   "property": "C28",
   "status": "proved",
   "theorems": [
    "C28_input_signals"
   ],
   "note": "For every map, bound and iteration order; one model for both tools."
  },
  {
   "property": "C29",
   "status": "proved",
   "theorems": [
    "C29_accepted_iff_every_leaf_is_numeric",
    "C29_other_documents_are_errors",
    "C29_never_panics",
    "C29_values",
    "C29_plain_keys_are_unambiguous",
    "C29_later_entries_win",
    "C29_wire_assignment"
   ],
   "note": "From the parsed JSON tree (the parser is C60); for every document, symbol map and hash order."
  },
  {
   "property": "C30",
   "status": "proved",
   "theorems": [
    "C30_order_does_not_matter",
    "C30_acceptance_does_not_depend_on_order",
    "C30_aliased_wires_refuted"
   ],
   "note": "REFUTED for two names on one wire, proved whenever distinct names are on distinct wires."
  },
  {
   "property": "C31",
   "status": "proved",
   "theorems": [
    "C31_numbers_in_the_cli",
    "C31_numbers_in_javascript",
    "C31_negative_numbers_refuted"
   ],
   "note": "REFUTED for negative JSON numbers in the CLI; all integers covered for the CLI; JS for 0..2^53 here, all other Numbers in C75."
  },
  {
   "property": "C32",
   "status": "proved",
   "theorems": [
    "C32_public_wires_are_assigned",
    "C32_public_outputs_refuted",
    "C32_ciphertext_records_too_few_refuted"
   ],
   "note": "Expectation REFUTED for circuits with public outputs; which wires are assigned is exact."
  },
  {
   "property": "C33",
   "status": "proved",
   "theorems": [
    "C33_tools_assign_the_same_values",
    "C33_nested_arrays_refuted",
    "C33_nested_values_are_lost"
   ],
   "note": "REFUTED for nested arrays; proved for scalars and flat arrays."
  },
  {
   "property": "C34",
   "status": "proved",
   "theorems": [
    "C34_round_trip_across_tools"
   ],
   "note": "For every part and every window of every buffer."
  },
  {
   "property": "C35",
   "status": "proved",
   "theorems": [
    "C35_round_trip_iff_lengths_fit",
    "C35_length_wraps_refuted"
   ],
   "note": "Expectation REFUTED from 2^32 bytes on; round trip characterised by an iff."
  },
  {
   "property": "C36",
   "status": "proved",
   "theorems": [
    "C36_decodes_exactly_the_files",
    "C36_errors",
    "C36_reencodes",
    "C36_js_decoder"
   ],
   "note": "For every byte string; also says where the JS decoder is more lenient."
  },
  {
   "property": "C37",
   "status": "proved",
   "theorems": [
    "C37_returns_the_embedded_input",
    "C37_returns_only_embedded_inputs"
   ],
   "note": "For every TextDecoder / JSON parser."
  },
  {
   "property": "C38",
   "status": "proved",
   "theorems": [
    "C38_round_trip",
    "C38_failures"
   ],
   "note": "For every block cipher, key, nonce and message of at most 2^36-32 bytes, for both tools and across them; all failures beyond. AES-256 itself and published vectors in Aes.v."
  },
  {
   "property": "C39",
   "status": "proved",
   "theorems": [
    "C39_accepts_iff",
    "C39_tools_agree",
    "C39_rejections",
    "C39_tag_change_rejected",
    "C39_ghash_multiplies_polynomials",
    "C39_ghash_field",
    "C39_forgery_bound",
    "C39_one_block_change_rejected",
    "C39_panics_iff"
   ],
   "note": "For every block cipher and byte string; the tag is NIST's GHASH (SpecGcm.v), its multiplication is polynomial multiplication modulo the GCM polynomial (SpecGhash.v), and modified ciphertexts are accepted for few hash keys."
  },
  {
   "property": "C40",
   "status": "proved",
   "theorems": [
    "C40_round_trip",
    "C40_total",
    "C40_malleable"
   ],
   "note": "For every block cipher, key, iv and message."
  },
  {
   "property": "C41",
   "status": "proved",
   "theorems": [
    "C41_encrypt_then_decrypt",
    "C41_encap_then_decap",
    "C41_encrypt_succeeds"
   ],
   "note": "For every file system, circuit with a wire beyond the public inputs and at most 2^24 public inputs, hash iteration order, JSON parser, curve encoding and cipher. The circuit's rows mention existing wires only."
  },
  {
   "property": "C42",
   "status": "proved",
   "theorems": [
    "C42_decrypt_effects",
    "C42_decrypt_succeeds_iff",
    "C42_decap_effects",
    "C42_recovering_files_are_satisfied"
   ],
   "note": "Over all executions with failing reads, failing or torn writes and kills at any point. Only a failing or interrupted final write can leave a part of the authenticated plaintext."
  },
  {
   "property": "C43",
   "status": "proved",
   "theorems": [
    "C43_encrypt_effects",
    "C43_encap_effects",
    "C43_atomicity_refuted",
    "C43_same_path_loses_the_ciphertext"
   ],
   "note": "Over all executions; the non-atomic behaviour the property describes is proved to exist (C43_atomicity_refuted)."
  },
  {
   "property": "C44",
   "status": "proved",
   "theorems": [
    "C44_js_to_js",
    "C44_js_to_cli",
    "C44_cli_to_js",
    "C44_js_encap_then_decap",
    "C44_js_encrypt_succeeds"
   ],
   "note": "For every pairing group, curve encoding, hash of 32 bytes, cipher, circuit with a wire beyond the public ones and at most 2^24 of those, input document, message, random draw and view handed to decrypt; files fit the WASM address space."
  },
  {
   "property": "C45",
   "status": "proved",
   "theorems": [
    "C45_circuit_round_trip",
    "C45_test_case_round_trip",
    "C45_injective",
    "C45_accepts_only_encodings",
    "C45_never_panics",
    "C45_cut_short_is_an_error",
    "C45_save_then_load",
    "C45_what_loads",
    "C45_unambiguous",
    "C45_load_bincode"
   ],
   "note": "bincode only: every circuit, witness and test case the Rust types can hold, every hash-map iteration order, every trailing data; saves under failing and torn writes and kills."
  },
  {
   "property": "C46",
   "status": "proved",
   "theorems": [
    "C46_conversion_is_faithful",
    "C46_injective_up_to_labels",
    "C46_export_pipeline"
   ],
   "note": "Every parsed circuit file."
  },
  {
   "property": "C47",
   "status": "proved",
   "theorems": [
    "C47_witness_prefix",
    "C47_serialised_file",
    "C47_read_back",
    "C47_value_preserved_iff",
    "C47_ordinary_values_preserved",
    "C47_negative_and_long_values_refuted"
   ],
   "note": "REFUTED for negative and longer values; exact condition proved for all integers."
  },
  {
   "property": "C48",
   "status": "proved",
   "theorems": [
    "C48_witness_iff",
    "C48_errors",
    "C48_same_witness_in_every_form",
    "C48_circuit_info",
    "C48_bn254_file",
    "C48_both_tools_read_the_witness",
    "C48_words",
    "C48_normalize",
    "C48_hash_text",
    "C48_no_collision_in_one_unit",
    "C48_which_error",
    "C48_one_error",
    "C48_numbers_of_a_value"
   ],
   "note": "For modules satisfying the circom contract module_ok (SpecWitnessCalc.v); the example module meets it."
  },
  {
   "property": "C49",
   "status": "proved",
   "theorems": [
    "C49_command_line_iff",
    "C49_any_order",
    "C49_encrypt_and_decrypt_letters",
    "C49_encap_and_decap_letters_refuted"
   ],
   "note": "REFUTED: encap and decap define -c twice. clap 4.5's parsing is modelled in CliArgs.v."
  },
  {
   "property": "C50",
   "status": "proved",
   "theorems": [
    "C50_one_initialisation",
    "C50_no_caller_before_the_end",
    "C50_same_fate",
    "C50_every_schedule_settles",
    "C50_failure_is_final"
   ],
   "note": ""
  },
  {
   "property": "C51",
   "status": "proved",
   "theorems": [
    "C51_reservations_refuted",
    "C51_total_reserved"
   ],
   "note": "Expectation REFUTED; upper bounds proved for every file."
  },
  {
   "property": "C52",
   "status": "proved",
   "theorems": [
    "C52_load_iff",
    "C52_counts_refuted",
    "C52_parse_inputs_iff",
    "C52_parse_inputs_errors"
   ],
   "note": "REFUTED: the counts do not come from the circuit. serde_json is a parameter here."
  },
  {
   "property": "C53",
   "status": "proved",
   "theorems": [
    "C53_cli_confidentiality_refuted"
   ],
   "note": "Confidentiality REFUTED: two files computed from the ciphertext file alone make decrypt write the message."
  },
  {
   "property": "C54",
   "status": "proved",
   "theorems": [
    "C54_js_confidentiality_refuted"
   ],
   "note": "Confidentiality REFUTED: a circuit and a witness file computed from the ciphertext alone make the JS decrypt return the message."
  },
  {
   "property": "C55",
   "status": "proved",
   "theorems": [
    "C55_all_public_agreement_refuted",
    "C55_all_public_circuits",
    "C55_js_all_public_circuits"
   ],
   "note": "Expectation REFUTED: for every circuit of public wires only it is decided when the secrets behind the keys agree (one beta, alpha = 0, or always). Conditions: delta and r not drawn zero, pairing non-degenerate; CLI: unambiguous input document."
  },
  {
   "property": "C56",
   "status": "proved",
   "theorems": [
    "C56_js_encap_then_decap",
    "C56_js_encrypt_then_decrypt",
    "C56_js_encrypt_then_cli_decrypt",
    "C56_cli_encrypt_then_js_decrypt",
    "C56_out_of_range_values_refuted",
    "C56_js_decap_iff",
    "C56_js_decrypt_iff"
   ],
   "note": "Files satisfy the contract `compiled` (SpecEndToEnd.v), met by the example circuit. REFUTED outside the stated range; for JS the condition is exact (C56_js_decap_iff, C56_js_decrypt_iff)."
  },
  {
   "property": "C57",
   "status": "proved",
   "theorems": [
    "C57_bigint_texts",
    "C57_one_reading",
    "C57_rendering_round_trip"
   ],
   "note": ""
  },
  {
   "property": "C58",
   "status": "proved",
   "theorems": [
    "C58_js_decap_iff",
    "C58_js_decrypt_iff",
    "C58_cli_decrypt_iff",
    "C58_js_decap_iff_any_document",
    "C58_js_decrypt_iff_any_document",
    "C58_cli_decrypt_iff_any_document",
    "C58_every_choice_can_happen"
   ],
   "note": "Conditions: a private wire exists (usable/js_usable, see C55 for the other case), no factor on a wire out of range; the _any_document theorems let several names be on one wire and names be given twice (JS: the last value counts; CLI: the hash map's order chooses one of the offered values, each choice can happen); the other theorems ask that no wire be given two values."
  },
  {
   "property": "C59",
   "status": "proved",
   "theorems": [
    "C59_only_named_outputs_change",
    "C59_encrypt_then_decrypt",
    "C59_decrypt_status_iff",
    "C59_failure_changes_nothing",
    "C59_help_iff",
    "C59_exit_status",
    "C59_help_is_no_command"
   ],
   "note": ""
  },
  {
   "property": "C60",
   "status": "proved",
   "theorems": [
    "C60_cli_reads_exactly",
    "C60_js_reads_exactly",
    "C60_unambiguous",
    "C60_objects",
    "C60_integers"
   ],
   "note": ""
  },
  {
   "property": "C61",
   "status": "proved",
   "theorems": [
    "C61_parse_stringify",
    "C61_public_input_comes_back"
   ],
   "note": ""
  },
  {
   "property": "C62",
   "status": "proved",
   "theorems": [
    "C62_circuit_round_trip",
    "C62_witness_round_trip",
    "C62_test_case_round_trip",
    "C62_save_then_load",
    "C62_save_then_load_witness",
    "C62_save_then_load_test_case",
    "C62_cut_short_is_an_error",
    "C62_what_loads",
    "C62_load_files"
   ],
   "note": ""
  },
  {
   "property": "C63",
   "status": "proved",
   "theorems": [
    "C63_both_tools_read_the_same"
   ],
   "note": ""
  },
  {
   "property": "C64",
   "status": "proved",
   "theorems": [
    "C64_same_witness",
    "C64_witness_files",
    "C64_long_witness_files_refuted",
    "C64_which_error_of_the_original",
    "C64_errors_that_differ"
   ],
   "note": "The original and the rewrite, error values included; which of several errors is reported first may differ on documents that are not all numbers, exactly as C64_errors_that_differ says. The expectation that the files always agree is refuted with the exact announced size."
  },
  {
   "property": "C65",
   "status": "proved",
   "theorems": [
    "C65_awaited_calls",
    "C65_undisturbed_call",
    "C65_overlapping_calls_refuted"
   ],
   "note": "Histories of starts and resumptions of one calculator object. The expectation that overlapping calls get their own witness is refuted."
  },
  {
   "property": "C66",
   "status": "proved",
   "theorems": [
    "C66_error_text",
    "C66_stale_messages_refuted",
    "C66_log_lines",
    "C66_log_determined"
   ],
   "note": "The expectation that an error only reports its own calculation's messages is refuted."
  },
  {
   "property": "C67",
   "status": "proved",
   "theorems": [
    "C67_values_in_order",
    "C67_same_documents_as_by_name",
    "C67_document_order_refuted",
    "C67_errors"
   ],
   "note": "The source comment's claim that the file's order is preserved is refuted for serde_json without preserve_order."
  },
  {
   "property": "C68",
   "status": "proved",
   "theorems": [
    "C68_accepts_iff",
    "C68_one_content",
    "C68_errors_iff",
    "C68_otherwise_io_error"
   ],
   "note": "Exact on every byte string."
  },
  {
   "property": "C69",
   "status": "proved",
   "theorems": [
    "C69_wasm_accepts_iff",
    "C69_readers_agree_on_any_bytes",
    "C69_covers_standard_files",
    "C69_readers_differ"
   ],
   "note": "The differences outside the stated conditions are witnessed."
  },
  {
   "property": "C70",
   "status": "proved",
   "theorems": [
    "C70_accepts_iff",
    "C70_field_elements_iff",
    "C70_errors_iff",
    "C70_otherwise_io_error",
    "C70_one_content",
    "C70_io_error_iff"
   ],
   "note": "Exact on every byte string."
  },
  {
   "property": "C71",
   "status": "proved",
   "theorems": [
    "C71_encap_ends",
    "C71_encrypt_ends",
    "C71_decap_ends",
    "C71_decrypt_ends"
   ],
   "note": "Total: each theorem is an equivalence for every result."
  },
  {
   "property": "C72",
   "status": "proved",
   "theorems": [
    "C72_decrypt_beside_others",
    "C72_decap_beside_others",
    "C72_encrypt_beside_others",
    "C72_encap_beside_others",
    "C72_circuit_gone",
    "C72_encrypt_two_circuits",
    "C72_encap_two_circuits",
    "C72_swap_unbinds"
   ],
   "note": "When the two reads of the circuit differ in the number of public inputs, only the order of the writes is claimed for encrypt and encap; writes of other processes to the same output are outside the claim."
  },
  {
   "property": "C73",
   "status": "proved",
   "theorems": [
    "C73_js_encap_ends",
    "C73_js_encrypt_ends",
    "C73_js_decap_ends",
    "C73_js_decrypt_ends"
   ],
   "note": "Conditions: the symbol text and circuit fit the model's machine word and fuel (room, calculates); the compiled circuit is over BN254."
  },
  {
   "property": "C74",
   "status": "proved",
   "theorems": [
    "C74_hash_is_the_tree",
    "C74_keys_have_32_bytes",
    "C74_different_secrets",
    "C74_cli_encrypt_then_decrypt",
    "C74_js_encrypt_then_decrypt"
   ],
   "note": "The encoding of the target group (ark-serialize) is a parameter; C74_different_secrets needs it injective."
  },
  {
   "property": "C75",
   "status": "proved",
   "theorems": [
    "C75_json_numbers",
    "C75_text_round_trip",
    "C75_stringify_parse",
    "C75_whole_numbers",
    "C75_exact_iff",
    "C75_fifteen_digits",
    "C75_lost_inputs",
    "C75_cli_and_js_literals"
   ],
   "note": "Doubles without the sign of zero; JSON.parse, toString and BigInt written out from ECMA-262 (JsNumber.v)."
  },
  {
   "property": "C76",
   "status": "proved",
   "theorems": [
    "C76_template_means_accepted",
    "C76_shipped_file_is_read",
    "C76_symbol_file",
    "C76_shipped_file_is_the_template",
    "C76_digits_may_be_replaced",
    "C76_solutions_are_accepted",
    "C76_only_solutions_are_accepted_refuted",
    "C76_unsolvable_puzzles_are_accepted_refuted",
    "C76_cli_decrypts_iff",
    "C76_cli_who_can_decrypt",
    "C76_js_decrypts_iff",
    "C76_generator_fits_the_files",
    "C76_js_inputs_decrypt_iff"
   ],
   "note": "The bytes of sudoku.r1cs and sudoku.sym are in SudokuFile.v as they are in the repository. That only solutions decrypt is false of the circuit; the exact set of grids that decrypt is proved instead. P_SudokuRun.v runs encrypt and decrypt on the fixture's puzzle."
  },
  {
   "property": "C77",
   "status": "proved",
   "theorems": [
    "C77_encryption_never_succeeds",
    "C77_encryption_attempts_fail",
    "C77_one_call_at_a_time",
    "C77_decrypt_shows",
    "C77_custom_decrypt_shows",
    "C77_shown_was_decrypted",
    "C77_message_text",
    "C77_upload_restores_the_puzzle",
    "C77_upload_of_an_encrypted_puzzle",
    "C77_custom_upload_restores_the_inputs",
    "C77_message_stays_refuted",
    "C77_cells",
    "C77_locked_cells_show_the_clue_refuted",
    "C77_inputs_are_merged_refuted",
    "C77_sudoku_decrypts_iff",
    "C77_upload_solve_decrypt",
    "C77_fields",
    "C77_input_fields",
    "C77_encrypt_calls",
    "C77_generate_and_solve",
    "C77_puzzle_cells",
    "C77_hidden_tabs_hear_nothing"
   ],
   "note": "Three expectations of the page's own texts are refuted and replaced by exact statements. The Sudoku theorems take the witness generator as read from the circom template (SudokuWasm.v), not from the bytes of sudoku.wasm; `fits_...` are size hypotheses met by W = 2^32 (Examples)."
  },
  {
   "property": "C78",
   "status": "proved",
   "theorems": [
    "C78_js_encrypt_cli_decrypt_iff",
    "C78_cli_encrypt_js_decrypt_iff",
    "C78_js_decrypt_any_inputs_iff",
    "C78_cli_decrypt_any_inputs_iff",
    "C78_cli_encrypt_any_inputs_iff",
    "C78_cli_encrypt_same_inputs_iff"
   ],
   "note": "The circom module is any that keeps the contract `compiled` (SpecEndToEnd.v): its witness satisfies the circuit and extends the inputs. `fits_...` are size hypotheses met by W = 2^32."
  },
  {
   "property": "C79",
   "status": "proved",
   "theorems": [
    "C79_range_check",
    "C79_selected_key",
    "C79_template_accepts_iff",
    "C79_two_of_three",
    "C79_range_is_enforced_refuted",
    "C79_two_signers_are_needed_refuted",
    "C79_rows_are_the_template",
    "C79_verifiers_reject_the_origin",
    "C79_rows_enforce_two_of_three",
    "C79_cli_needs_two_signers"
   ],
   "note": "EdDSAPoseidonVerifier (circomlib, not in /repo) is a parameter; of its 8414 compiled rows the 26 that reject the origin are used. The file is too large to be read inside Coq: the rows used are compared with its bytes at the stated offsets, and the command-line theorem is for every circuit that has these rows."
  },
  {
   "property": "C80",
   "status": "proved",
   "theorems": [
    "C80_encrypt_status",
    "C80_encrypt_then_decrypt_iff",
    "C80_sudoku"
   ],
   "note": "The pairing groups and the encodings of their elements remain parameters (any that satisfy the group laws and round-trip); which over-long number tokens serde_json refuses is a parameter."
  },
  {
   "property": "C81",
   "status": "proved",
   "theorems": [
    "C81_cipher_is_fips197",
    "C81_blocks_are_permuted",
    "C81_equal_blocks_look_different",
    "C81_equal_blocks_look_different_ctr"
   ],
   "note": "That the aes crate and Web Crypto implement FIPS 197 is trusted; Aes.v is the model of them."
  },
  {
   "property": "C82",
   "status": "proved",
   "theorems": [
    "C82_decap_evaluates_any_form",
    "C82_one_ciphertext_two_keys",
    "C82_one_file_two_messages",
    "C82_file_asks_any_question",
    "C82_questions_about_wires"
   ],
   "note": "The two-message theorem needs two secrets whose keys give different AES blocks of zeros; the example computes such a pair with BLAKE3 and AES-256."
  },
  {
   "property": "C83",
   "status": "proved",
   "theorems": [
    "C83_values_as_documents",
    "C83_number_forms",
    "C83_json_stringify",
    "C83_encrypt_without_inputs",
    "C83_encrypt_with_inputs",
    "C83_bigint_and_included_inputs",
    "C83_encrypt_then_decrypt",
    "C83_public_input_comes_back"
   ],
   "note": "Functions, symbols and objects with methods of their own (Date, toJSON) are not covered."
  },
  {
   "property": "C84",
   "status": "proved",
   "theorems": [
    "C84_encrypt_reads",
    "C84_encap_reads",
    "C84_decrypt_reads",
    "C84_decap_reads",
    "C84_calls_do_not_interfere",
    "C84_calls_end",
    "C84_every_reading_happens",
    "C84_changed_while_pending"
   ],
   "note": "A rejected promise ends the calls that await it without a further turn; the pieces between two awaits are atomic, as JavaScript guarantees; buffers shared between threads (SharedArrayBuffer) are not covered."
  },
  {
   "property": "C85",
   "status": "proved",
   "theorems": [
    "C85_same_nonce",
    "C85_known_message",
    "C85_few_hash_keys",
    "C85_forgery",
    "C85_overlapping_counters",
    "C85_same_draws",
    "C85_same_draws_js"
   ],
   "note": "For every block cipher; the random draws are arguments of the model, so repeating them is stated directly."
  },
  {
   "property": "C86",
   "status": "proved",
   "theorems": [
    "C86_encap_succeeds_iff",
    "C86_encrypt_succeeds_iff",
    "C86_public_input",
    "C86_decrypt_iff",
    "C86_the_program_opens",
    "C86_opens_the_programs_file",
    "C86_sudoku"
   ],
   "note": "The pairing groups and the encodings of their elements stay parameters; everything else is the built code with its primitives."
  },
  {
   "property": "C87",
   "status": "proved",
   "theorems": [
    "C87_printing_changes_nothing",
    "C87_encap_prints",
    "C87_encrypt_prints",
    "C87_encrypting_prints_no_values",
    "C87_decap_prints",
    "C87_decrypt_prints",
    "C87_decrypting_prints_no_witness",
    "C87_shown_public_input_can_be_forged",
    "C87_failures_are_told_apart",
    "C87_shown_public_input",
    "C87_broken_text_is_visible",
    "C87_wrong_witness_prints",
    "C87_cut_off_prints"
   ],
   "note": "The texts of underlying causes (Caused by:) and clap's own output are not modelled."
  },
  {
   "property": "C88",
   "status": "proved",
   "theorems": [
    "C88_progress_lines_are_true",
    "C88_the_screen_can_lie",
    "C88_a_kill_may_leave_any_part",
    "C88_a_failed_write_may_leave_any_part"
   ],
   "note": "Each println! is one step: it appears whole or not at all."
  }
 ]
}