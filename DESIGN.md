# Formal model of flyinglimao/zkenc in Rocq (Coq 8.16.1)

Source: /repo, read as text; nothing was built or run.  Model and proofs: rocq/theories.
Properties: properties.jsonl (88).  Status per property: MANIFEST.json (404 theorems).
Wrong programs tried against the theorems: seeded/LOG.jsonl.

## 1. How the development is organised

* **Model files** (`Core.v`, `R1cs.v`, `Commands.v`, ...) hold one Gallina function per function of
  the code.  Every definition has a comment with file and lines, and says what is simplified.
* **Specification files** (`Spec*.v`) say what the English property means without the model's
  helpers: file formats as encoders or as relations between bytes and contents, satisfaction of an
  R1CS, interpolation polynomials, the JSON grammar, NIST's GCM, what a command line says.
* **Proof files** (`*Facts.v`, `*More.v`, `*Iff.v`, ...) hold lemmas.
* **`P_*.v`** hold the property theorems `Cnn_...`, each followed by `Print Assumptions`, and
  `Example`s that exhibit concrete, non-trivial cases meeting the hypotheses.
* Where the natural expectation is false of the code, the property in properties.jsonl states what
  is true instead, and the theorem is called `..._refuted`: it is a proved universally quantified (or
  explicitly witnessed) statement that contradicts the expectation; where possible an iff beside
  it says exactly when the expectation holds.

Outcomes are `res E A := Ok a | Err e | Panic`: `Panic` stands for a Rust panic (slice out of range,
`unwrap`/`expect`, overflow where it is checked) and for a WASM trap.  A loop that may not end runs
on fuel; `never ends` is stated for every amount of fuel.  HashMaps are association lists visited
in an arbitrary order: each theorem that involves one quantifies over all permutations.  Random
draws are arguments.  File programs are trees of operations; executions include failing reads,
failing and torn writes and a kill at any point (FileSys.v).

## 2. Properties: what is modelled, how it is proved

| id | property | modelled in | proof | status, theorems (file) |
|----|----|----|----|----|
| C01 | Encap without a witness / decap with one agree on the key | CS.v, Qap.v, Core.v | algebra on the exponents of any bilinear group, induction over circuit programs and variable vectors; refutations give the exact field element by which the two secrets differ; C02, C13 and C55 compare the secrets before hashing (SpecSecrets.v) | proved: `C01_key_agreement_without_witness` (P_Core.v) |
| C02 | Encap that synthesises the full circuit and decap agree on the key only by luck | CS.v, Qap.v, Core.v | algebra on the exponents of any bilinear group, induction over circuit programs and variable vectors; refutations give the exact field element by which the two secrets differ; C02, C13 and C55 compare the secrets before hashing (SpecSecrets.v) | proved: `C02_secret_exponents`, `C02_full_synthesis_agreement_refuted`, `C02_agreement_iff` (P_Core.v); `C02_one_beta_only`, `C02_no_private_variables` (P_Luck.v) |
| C03 | The key is a public function of the ciphertext | Core.v | an explicit function of the ciphertext; its result computed by the bilinear group laws for every encap | proved: `C03_confidentiality_refuted` (P_Core.v) |
| C04 | Decap succeeds exactly on satisfied circuits with matching public inputs | CS.v, Core.v | case analysis and induction over circuit programs | proved: `C04_decap_succeeds_iff`, `C04_decap_error_table`, `C04_decap_never_panics` (P_Core.v) |
| C05 | Encap records the circuit's public inputs | CS.v, Core.v | case analysis and induction over circuit programs | proved: `C05_public_inputs_recorded`, `C05_witness_first_records_nothing` (P_Core.v) |
| C06 | Encap's outcome depends only on delta | CS.v, Core.v | case analysis and induction over circuit programs | proved: `C06_encap_outcome`, `C06_encap_draws` (P_Core.v) |
| C07 | Which circuits open a ciphertext | CS.v, Qap.v, Core.v | algebra on the exponents of any bilinear group, induction over circuit programs and variable vectors; refutations give the exact field element by which the two secrets differ; C02, C13 and C55 compare the secrets before hashing (SpecSecrets.v) | proved: `C07_circuit_binding_refuted`, `C07_which_circuits_open` (P_Core.v) |
| C08 | Which public inputs open a ciphertext | CS.v, Qap.v, Core.v | algebra on the exponents of any bilinear group, induction over circuit programs and variable vectors; refutations give the exact field element by which the two secrets differ; C02, C13 and C55 compare the secrets before hashing (SpecSecrets.v) | proved: `C08_public_input_binding_refuted`, `C08_which_public_inputs_open` (P_Core.v) |
| C09 | QAP evaluation equals the interpolated column polynomials | Poly.v, Qap.v, Domain.v, Bn254.v | uniqueness of interpolation (root counting), factor theorem; radix-2 domains shown to meet the domain contract, the BN254 modulus shown prime by Pocklington certificates | proved: `C09_qap_evaluation_correct`, `C09_bn254_domain_contract` (P_Core.v) |
| C10 | Satisfaction is divisibility by the vanishing polynomial | Poly.v, Qap.v, Domain.v, Bn254.v | uniqueness of interpolation (root counting), factor theorem; radix-2 domains shown to meet the domain contract, the BN254 modulus shown prime by Pocklington certificates | proved: `C10_satisfaction_iff_divisibility` (P_Core.v) |
| C11 | verify_ciphertext accepts exactly equal public inputs | CS.v, Core.v | case analysis and induction over circuit programs | proved: `C11_verify_ciphertext_iff` (P_Core.v) |
| C12 | Shape of the published query vectors | CS.v, Qap.v, Core.v | algebra on the exponents of any bilinear group, induction over circuit programs and variable vectors; refutations give the exact field element by which the two secrets differ; C02, C13 and C55 compare the secrets before hashing (SpecSecrets.v) | proved: `C12_published_queries`, `C12_variable_count` (P_Core.v) |
| C13 | Fresh randomness changes the key | CS.v, Qap.v, Core.v | algebra on the exponents of any bilinear group, induction over circuit programs and variable vectors; refutations give the exact field element by which the two secrets differ; C02, C13 and C55 compare the secrets before hashing (SpecSecrets.v) | proved: `C13_keys_coincide_iff`, `C13_distinct_beta_distinct_keys` (P_Core.v) |
| C14 | Ciphertext serialisation round trip and size | ArkSer.v over any fixed-size point codec | combinator round trip, strict prefix rejection, size by induction | proved: `C14_round_trip`, `C14_size`, `C14_strict_prefixes_rejected`, `C14_injective`, `C14_accepted_size`, `C14_accepted_bytes` (P_Ser.v) |
| C15 | The exact ciphertext size | ArkSer.v over any fixed-size point codec | combinator round trip, strict prefix rejection, size by induction | proved: `C15_encap_size`, `C15_constant_size_refuted` (P_Ser.v) |
| C16 | CLI r1cs reader reads back every well-formed file | R1cs.v (reader monad over bytes with a file cursor) | format as an encoder (SpecR1cs.v); induction over sections, constraints and factors, both directions | proved: `C16_reads_back_every_file`, `C16_public_input_count` (P_R1cs.v) |
| C17 | CLI r1cs reader rejects wrong files | R1cs.v (reader monad over bytes with a file cursor) | format as an encoder (SpecR1cs.v); induction over sections, constraints and factors, both directions | proved: `C17_accepted_files_are_encodings`, `C17_announced_counts`, `C17_wrong_magic_or_version`, `C17_missing_sections`, `C17_truncated_files`, `C17_never_panics` (P_R1cs.v) |
| C18 | CLI and WASM r1cs readers agree | R1csJs.v (32-bit address arithmetic) | same encoder; exact panic set by induction over the section walk | proved: `C18_readers_agree` (P_R1cs.v) |
| C19 | Exactly which files make the WASM r1cs reader panic | R1csJs.v (32-bit address arithmetic) | same encoder; exact panic set by induction over the section walk | proved: `C19_wasm_reader_panics_refuted`, `C19_panic_needs_a_huge_integer`, `C19_panics_iff` (P_R1cs.v) |
| C20 | CLI witness reader reads back every well-formed file | Wtns.v | format as an encoder (SpecWtns.v), induction over sections | proved: `C20_reads_back_every_file`, `C20_field_elements_round_trip`, `C20_outcome_of_any_sections`, `C20_accepted_files_carry_the_values`, `C20_wrong_magic_or_version`, `C20_panics_only_on_huge_sizes` (P_Wtns.v) |
| C21 | WASM witness reader: exact outcome on every byte string | Wtns.v: the WASM loop on fuel, addresses modulo 2^32 | the walk as an inductive relation; `never ends` is quantified over all fuel | proved: `C21_reads_back_every_file`, `C21_field_elements_round_trip`, `C21_outcome_of_any_sections`, `C21_termination_refuted`, `C21_truncated_files_panic`, `C21_returns_iff`, `C21_never_ends_iff`, `C21_refuses_iff`, `C21_cause_of_non_termination` (P_Wtns.v) |
| C22 | Which witness files the CLI and JS read alike | Wtns.v | format as an encoder (SpecWtns.v), induction over sections | proved: `C22_canonical_files_agree`, `C22_other_files_disagree_refuted`, `C22_layouts_disagree_refuted` (P_Wtns.v) |
| C23 | The declared prime is ignored | R1cs.v, R1csJs.v, Wtns.v | both readers return the same result whatever prime is declared | proved: `C23_r1cs_prime_refuted` (P_R1cs.v); `C23_witness_prime_refuted` (P_Wtns.v) |
| C24 | Circuit synthesis means satisfying the r1cs file | Circuit.v on CS.v | induction over wires and rows | proved: `C24_synthesis_means_satisfaction`, `C24_both_tools_build_the_same_program`, `C24_wire_zero_is_ignored` (P_Circuit.v) |
| C25 | Synthesis stops at the first missing wire and drops unknown wires | Circuit.v on CS.v | induction over wires and rows | proved: `C25_stops_at_the_first_missing_wire`, `C25_unknown_wires_are_dropped`, `C25_unknown_rows_always_hold` (P_Circuit.v) |
| C26 | Coefficient bytes become the right field element | Circuit.v on CS.v | induction over wires and rows | proved: `C26_coefficient_value`, `C26_canonical_encodings_decode_to_themselves`, `C26_short_strings_are_zero_padded` (P_Circuit.v) |
| C27 | Symbol file parsing | Sym.v, Text.v | lines described by composition (SpecSym.v); induction over lines, permutations for hash order | proved: `C27_symbol_file`, `C27_covers_every_text`, `C27_records_round_trip`, `C27_js_agrees_on_accepted_files`, `C27_tools_agree_refuted` (P_Sym.v); `C27_js_symbol_file`, `C27_js_covers_every_text`, `C27_tools_differ` (P_SymJs.v) |
| C28 | Input signal selection | Sym.v, Text.v | lines described by composition (SpecSym.v); induction over lines, permutations for hash order | proved: `C28_input_signals` (P_Sym.v) |
| C29 | JSON inputs are flattened to indexed names | Inputs.v | structural induction over JSON trees, permutations for map order | proved: `C29_accepted_iff_every_leaf_is_numeric`, `C29_other_documents_are_errors`, `C29_never_panics`, `C29_values`, `C29_plain_keys_are_unambiguous`, `C29_later_entries_win`, `C29_wire_assignment` (P_Inputs.v) |
| C30 | When inputs do not depend on key or hash order | Inputs.v | structural induction over JSON trees, permutations for map order | proved: `C30_order_does_not_matter`, `C30_acceptance_does_not_depend_on_order`, `C30_aliased_wires_refuted` (P_Inputs.v) |
| C31 | What a JSON number means | Inputs.v | structural induction over JSON trees, permutations for map order | proved: `C31_numbers_in_the_cli`, `C31_numbers_in_javascript`, `C31_negative_numbers_refuted` (P_Inputs.v) |
| C32 | Which public wires the CLI assigns | Inputs.v | structural induction over JSON trees, permutations for map order | proved: `C32_public_wires_are_assigned`, `C32_public_outputs_refuted`, `C32_ciphertext_records_too_few_refuted` (P_Inputs.v) |
| C33 | For which inputs CLI and JS assign the same values | Inputs.v | structural induction over JSON trees, permutations for map order | proved: `C33_tools_assign_the_same_values`, `C33_nested_arrays_refuted` (P_Inputs.v); `C33_nested_values_are_lost` (P_InputsMore.v) |
| C34 | Combined file round trip across tools | Combined.v | layout as concatenation (SpecCombined.v), arithmetic on lengths | proved: `C34_round_trip_across_tools` (P_Combined.v) |
| C35 | When length fields wrap | Combined.v | layout as concatenation (SpecCombined.v), arithmetic on lengths | proved: `C35_round_trip_iff_lengths_fit`, `C35_length_wraps_refuted` (P_Combined.v) |
| C36 | Combined file decoder is total and exact | Combined.v | layout as concatenation (SpecCombined.v), arithmetic on lengths | proved: `C36_decodes_exactly_the_files`, `C36_errors`, `C36_reencodes`, `C36_js_decoder` (P_Combined.v) |
| C37 | getPublicInput returns the embedded JSON | Combined.v | layout as concatenation (SpecCombined.v), arithmetic on lengths | proved: `C37_returns_the_embedded_input`, `C37_returns_only_embedded_inputs` (P_Combined.v) |
| C38 | AES-GCM round trip | Gcm.v over any block cipher, Aes.v, Gf128.v | NIST definitions byte by byte (SpecGcm.v, SpecGhash.v); GF(2^128) shown a field by a Berlekamp certificate, forgery bound by root counting | proved: `C38_round_trip`, `C38_failures` (P_Gcm.v) |
| C39 | AES-GCM accepts exactly what verifies | Gcm.v over any block cipher, Aes.v, Gf128.v | NIST definitions byte by byte (SpecGcm.v, SpecGhash.v); GF(2^128) shown a field by a Berlekamp certificate, forgery bound by root counting | proved: `C39_accepts_iff`, `C39_tools_agree`, `C39_rejections`, `C39_tag_change_rejected`, `C39_panics_iff` (P_Gcm.v); `C39_ghash_multiplies_polynomials`, `C39_ghash_field`, `C39_forgery_bound`, `C39_one_block_change_rejected` (P_Ghash.v) |
| C40 | AES-CTR round trip and malleability | Gcm.v over any block cipher, Aes.v, Gf128.v | NIST definitions byte by byte (SpecGcm.v, SpecGhash.v); GF(2^128) shown a field by a Berlekamp certificate, forgery bound by root counting | proved: `C40_round_trip`, `C40_total`, `C40_malleable` (P_Gcm.v) |
| C41 | CLI encrypt then decrypt returns the message | Commands.v on FileSys.v (failing reads, torn writes, kills at any point) | composition of the reader, input, circuit, core and crypto lemmas; effects by case analysis over executions | proved: `C41_encrypt_then_decrypt`, `C41_encap_then_decap`, `C41_encrypt_succeeds` (P_Commands.v) |
| C42 | Decrypt writes output only after authentication | Commands.v on FileSys.v (failing reads, torn writes, kills at any point) | composition of the reader, input, circuit, core and crypto lemmas; effects by case analysis over executions | proved: `C42_decrypt_effects`, `C42_decrypt_succeeds_iff`, `C42_decap_effects`, `C42_recovering_files_are_satisfied` (P_Commands.v) |
| C43 | Encap and encrypt change only their output files | Commands.v on FileSys.v (failing reads, torn writes, kills at any point) | composition of the reader, input, circuit, core and crypto lemmas; effects by case analysis over executions | proved: `C43_encrypt_effects`, `C43_encap_effects`, `C43_atomicity_refuted`, `C43_same_path_loses_the_ciphertext` (P_Commands.v) |
| C44 | JS encrypt then decrypt, and across tools | JsZkenc.v, Commands.v | composition; soundness and completeness of opening by the satisfaction lemmas | proved: `C44_js_to_js`, `C44_js_to_cli`, `C44_cli_to_js`, `C44_js_encap_then_decap`, `C44_js_encrypt_succeeds` (P_JsApi.v) |
| C45 | Serializable circuit bincode round trip | Serial.v | decoders are exact for the declarative format of SpecBincode.v; crash cases over FileSys.v | proved: `C45_circuit_round_trip`, `C45_test_case_round_trip`, `C45_injective`, `C45_accepts_only_encodings`, `C45_never_panics`, `C45_cut_short_is_an_error`, `C45_save_then_load` (P_Serial.v); `C45_what_loads`, `C45_unambiguous` (P_Bincode.v); `C45_load_bincode` (P_Loads.v) |
| C46 | Conversion to the serializable circuit is faithful | Serial.v, R1cs.v | structural induction | proved: `C46_conversion_is_faithful`, `C46_injective_up_to_labels`, `C46_export_pipeline` (P_Serial.v) |
| C47 | Which values survive in the JS witness prefix | JsZkenc.v, Wtns.v | arithmetic on 32-byte words | proved: `C47_witness_prefix`, `C47_serialised_file`, `C47_read_back`, `C47_value_preserved_iff`, `C47_ordinary_values_preserved`, `C47_negative_and_long_values_refuted` (P_JsZkenc.v) |
| C48 | Witness calculator helpers | WitnessCalc.v over any circom module keeping its contract | induction over inputs, words and witness entries; the error by running the calculation over the accepted prefix of the input (SpecWitnessErrors.v) | proved: `C48_witness_iff`, `C48_errors`, `C48_same_witness_in_every_form`, `C48_circuit_info`, `C48_bn254_file`, `C48_both_tools_read_the_witness`, `C48_words`, `C48_normalize`, `C48_hash_text`, `C48_no_collision_in_one_unit` (P_WitnessCalc.v); `C48_which_error`, `C48_one_error`, `C48_numbers_of_a_value` (P_WitnessErrors.v) |
| C49 | Command line | CliArgs.v (clap's derive and parser) | induction over the argument list; the option tables are data | proved: `C49_command_line_iff`, `C49_any_order`, `C49_encrypt_and_decrypt_letters`, `C49_encap_and_decap_letters_refuted` (P_CliArgs.v) |
| C50 | WASM initialisation runs at most once | WasmInit.v, small-step interleavings | invariant by induction over schedules | proved: `C50_one_initialisation`, `C50_no_caller_before_the_end`, `C50_same_fate`, `C50_every_schedule_settles`, `C50_failure_is_final` (P_WasmInit.v) |
| C51 | Memory reserved by the r1cs reader | R1cs.v with a ledger of reservations | bounds by induction over the reader | proved: `C51_reservations_refuted`, `C51_total_reserved` (P_R1cs.v) |
| C52 | circom helper functions | Circom.v | structural induction over JSON | proved: `C52_load_iff`, `C52_counts_refuted`, `C52_parse_inputs_iff`, `C52_parse_inputs_errors` (P_Circom.v) |
| C53 | Anybody can open a ciphertext file (CLI) | Commands.v on FileSys.v (failing reads, torn writes, kills at any point) | composition of the reader, input, circuit, core and crypto lemmas; effects by case analysis over executions | proved: `C53_cli_confidentiality_refuted` (P_Commands.v) |
| C54 | Anybody can open a ciphertext (JS) | JsZkenc.v, Commands.v | composition; soundness and completeness of opening by the satisfaction lemmas | proved: `C54_js_confidentiality_refuted` (P_JsApi.v) |
| C55 | Encap then decap on a circuit whose wires are all public | Commands.v on FileSys.v (failing reads, torn writes, kills at any point) | composition of the reader, input, circuit, core and crypto lemmas; effects by case analysis over executions | proved: `C55_all_public_agreement_refuted` (P_AllPublic.v); `C55_all_public_circuits`, `C55_js_all_public_circuits` (P_AllPublicMore.v) |
| C56 | From inputs to message, witness calculation included | JsFull.v, WitnessCalc.v, Commands.v | composition under the contract `compiled` (SpecEndToEnd.v) | proved: `C56_js_encap_then_decap`, `C56_js_encrypt_then_decrypt`, `C56_js_encrypt_then_cli_decrypt`, `C56_cli_encrypt_then_js_decrypt`, `C56_out_of_range_values_refuted` (P_EndToEnd.v); `C56_js_decap_iff`, `C56_js_decrypt_iff` (P_EndToEndExact.v) |
| C57 | Numbers given as texts | Text.v, Inputs.v | numerals described declaratively (SpecNumerals.v), induction over digits | proved: `C57_bigint_texts`, `C57_one_reading`, `C57_rendering_round_trip` (P_Numerals.v) |
| C58 | Exactly the solutions open the file | JsZkenc.v, Commands.v | composition; soundness and completeness of opening by the satisfaction lemmas | proved: `C58_js_decap_iff`, `C58_js_decrypt_iff`, `C58_cli_decrypt_iff` (P_Bound.v); `C58_js_decap_iff_any_document`, `C58_js_decrypt_iff_any_document` (P_JsReports.v); `C58_cli_decrypt_iff_any_document`, `C58_every_choice_can_happen` (P_BoundCli.v) |
| C59 | The zkenc program | Main.v, CliArgs.v, Commands.v, FileSys.v | composition of C41-C43, C49 | proved: `C59_only_named_outputs_change`, `C59_encrypt_then_decrypt`, `C59_decrypt_status_iff`, `C59_failure_changes_nothing` (P_Main.v); `C59_help_iff`, `C59_exit_status`, `C59_help_is_no_command` (P_Help.v) |
| C60 | Which input texts both tools accept, and what they mean | JsonText.v | grammar of RFC 8259 as inductive relations (SpecJson.v); parser exact by induction on size | proved: `C60_cli_reads_exactly`, `C60_js_reads_exactly`, `C60_unambiguous`, `C60_objects`, `C60_integers` (P_Json.v) |
| C61 | The embedded public input comes back from the real text encoding | JsonText.v | grammar of RFC 8259 as inductive relations (SpecJson.v); parser exact by induction on size | proved: `C61_parse_stringify`, `C61_public_input_comes_back` (P_Json.v) |
| C62 | Circuits, witnesses and test cases saved as JSON | SerialJson.v, JsonText.v | document shapes declaratively (SpecSerialJson.v); crash cases over FileSys.v | proved: `C62_circuit_round_trip`, `C62_witness_round_trip`, `C62_test_case_round_trip`, `C62_save_then_load`, `C62_save_then_load_witness`, `C62_save_then_load_test_case`, `C62_cut_short_is_an_error`, `C62_what_loads` (P_SerialJson.v); `C62_load_files` (P_Loads.v) |
| C63 | The CLI and JavaScript read the same data from one file | JsonText.v | grammar of RFC 8259 as inductive relations (SpecJson.v); parser exact by induction on size | proved: `C63_both_tools_read_the_same` (P_Json.v) |
| C64 | The original witness calculator and its TypeScript rewrite agree | WitnessCalcJs.v, WitnessCalc.v | the two runs compared step by step; hexadecimal digits of the size by induction; the exact error of the original (SpecWitnessErrorsJs.v) by running it over the accepted prefix of the document | proved: `C64_same_witness`, `C64_witness_files`, `C64_long_witness_files_refuted` (P_WitnessReuse.v); `C64_which_error_of_the_original`, `C64_errors_that_differ` (P_WitnessErrorsJs.v) |
| C65 | One witness calculator asked several times | WitnessCalcJs.v: events of one calculator (a call starts, a call resumes) | invariant over histories: the instance's memory only matters up to the last start | proved: `C65_awaited_calls`, `C65_undisturbed_call`, `C65_overlapping_calls_refuted` (P_WitnessReuse.v) |
| C66 | Error texts and log lines of the witness calculator | Runtime.v: callbacks of a calculation, calculations of a calculator | invariants over callback histories against a declarative log (SpecRuntime.v) | proved: `C66_error_text`, `C66_stale_messages_refuted`, `C66_log_lines`, `C66_log_determined` (P_Runtime.v) |
| C67 | Circuit inputs read as one list | Inputs.v, JsonText.v | mutual induction over documents | proved: `C67_values_in_order`, `C67_same_documents_as_by_name`, `C67_document_order_refuted`, `C67_errors` (P_InputList.v) |
| C68 | Exact outcome of the command-line r1cs reader | R1cs.v, R1csJs.v | the reader monad inverted step by step against a declarative section table (SpecR1csExact.v); uniqueness by decoding | proved: `C68_accepts_iff`, `C68_one_content`, `C68_errors_iff`, `C68_otherwise_io_error` (P_R1csExact.v) |
| C69 | Exact outcome of the WASM r1cs reader, and the two readers on arbitrary bytes | R1cs.v, R1csJs.v | the reader monad inverted step by step against a declarative section table (SpecR1csExact.v); uniqueness by decoding | proved: `C69_wasm_accepts_iff`, `C69_readers_agree_on_any_bytes`, `C69_covers_standard_files`, `C69_readers_differ` (P_R1csExact.v) |
| C70 | Exact outcome of the command-line witness reader | Wtns.v | induction over the announced sections against declarative encodings (SpecWtnsExact.v) | proved: `C70_accepts_iff`, `C70_field_elements_iff`, `C70_errors_iff`, `C70_otherwise_io_error`, `C70_one_content`, `C70_io_error_iff` (P_WtnsExact.v) |
| C71 | How each command ends | Commands.v (run), Circuit.v | the first true condition of an ordered list decides (SpecReports.v); synthesis shown well formed for every circuit file, so decap never panics | proved: `C71_encap_ends`, `C71_encrypt_ends`, `C71_decap_ends`, `C71_decrypt_ends` (P_Reports.v) |
| C72 | Commands beside other processes | Interfere.v over Commands.v | every read returns arbitrary content (Interfere.beside); inversion of each command; for two different circuits (P_Race.v) the partial-assignment argument of C58 with the limit of the first circuit | proved: `C72_decrypt_beside_others`, `C72_decap_beside_others`, `C72_encrypt_beside_others`, `C72_encap_beside_others`, `C72_circuit_gone` (P_Interfere.v); `C72_encrypt_two_circuits`, `C72_encap_two_circuits`, `C72_swap_unbinds` (P_Race.v) |
| C73 | How each JavaScript API call ends | JsZkenc.v, JsFull.v | the first condition met of an ordered list decides (SpecJsReports.v); documents as the list of their items in reading order; composition of C47, C48, C57, C04, C36, C39 | proved: `C73_js_encap_ends`, `C73_js_encrypt_ends`, `C73_js_decap_ends`, `C73_js_decrypt_ends` (P_JsReports.v) |
| C74 | Keys are BLAKE3 hashes of the secret | Blake3.v (the hash of the blake3 crate, from its specification) | the recursion equals the declarative tree of SpecBlake3.v (existence by induction on the length, uniqueness of the cut into blocks and of the split), then instances of C41 and C56; published vectors as Examples | proved: `C74_hash_is_the_tree`, `C74_keys_have_32_bytes`, `C74_different_secrets`, `C74_cli_encrypt_then_decrypt`, `C74_js_encrypt_then_decrypt` (P_Hash.v) |
| C75 | JavaScript Numbers as inputs | JsNumber.v (doubles, JSON number tokens, Number::toString, BigInt(number)), JsonText.v | rounding characterised as the nearest double of SpecJsNumber.v; digit search by induction on the number of digits; whole Numbers by monotonicity of rounding; the loss via the equivalences of C56 | proved: `C75_json_numbers`, `C75_text_round_trip`, `C75_stringify_parse`, `C75_whole_numbers`, `C75_exact_iff`, `C75_fifteen_digits`, `C75_lost_inputs`, `C75_cli_and_js_literals` (P_JsNumber.v) |
| C76 | What the shipped Sudoku circuit lets decrypt | Sudoku.v (the template), SudokuFile.v (the bytes of the shipped files), R1cs.v, R1csJs.v, Sym.v | the file's rows normalised to linear forms and matched with the template's by a checked computation; units by permutation of sums; then C58; the witness generator SudokuWasm.v meets the contract `compiled`, then C56 | proved: `C76_template_means_accepted`, `C76_shipped_file_is_read`, `C76_symbol_file`, `C76_shipped_file_is_the_template`, `C76_digits_may_be_replaced`, `C76_solutions_are_accepted`, `C76_only_solutions_are_accepted_refuted`, `C76_unsolvable_puzzles_are_accepted_refuted`, `C76_cli_decrypts_iff`, `C76_cli_who_can_decrypt`, `C76_js_decrypts_iff` (P_Sudoku.v); `C76_generator_fits_the_files`, `C76_js_inputs_decrypt_iff` (P_SudokuInputs.v) |
| C77 | What the playground page does and shows | Playground.v (PlaygroundClient.tsx as a page state and an event step), JsonText.v, Combined.v, SudokuWasm.v | invariants over event histories (SpecPlayground.v); the decryptions by composition with C76 | proved: `C77_encryption_never_succeeds`, `C77_encryption_attempts_fail`, `C77_one_call_at_a_time`, `C77_decrypt_shows`, `C77_custom_decrypt_shows`, `C77_shown_was_decrypted` (P_Playground.v); `C77_message_text`, `C77_upload_restores_the_puzzle`, `C77_upload_of_an_encrypted_puzzle`, `C77_custom_upload_restores_the_inputs`, `C77_message_stays_refuted`, `C77_cells`, `C77_locked_cells_show_the_clue_refuted`, `C77_inputs_are_merged_refuted`, `C77_sudoku_decrypts_iff`, `C77_upload_solve_decrypt` (P_PlaygroundMore.v); `C77_fields`, `C77_input_fields`, `C77_encrypt_calls`, `C77_generate_and_solve` (P_PlaygroundFields.v); `C77_puzzle_cells`, `C77_hidden_tabs_hear_nothing` (P_Tabs.v) |
| C78 | Across the tools exactly the right inputs open the file | JsZkenc.v, Commands.v, WitnessCalc.v | composition of the equivalences of C56 and C58 across the tools; the negative numbers by the readings of C33 and C57 | proved: `C78_js_encrypt_cli_decrypt_iff`, `C78_cli_encrypt_js_decrypt_iff`, `C78_js_decrypt_any_inputs_iff`, `C78_cli_decrypt_any_inputs_iff`, `C78_cli_encrypt_any_inputs_iff`, `C78_cli_encrypt_same_inputs_iff` (P_CrossTool.v) |
| C79 | What the shipped multi-signature circuit enforces | Signature.v (the templates as relations; 55 rows of signature.r1cs, bytes in SignatureFile.v) | field arithmetic: case analysis on bits and indices, construction of the internal wires; doublings of the origin; then C58 | proved: `C79_range_check`, `C79_selected_key`, `C79_template_accepts_iff`, `C79_two_of_three`, `C79_range_is_enforced_refuted`, `C79_two_signers_are_needed_refuted`, `C79_rows_are_the_template`, `C79_verifiers_reject_the_origin`, `C79_rows_enforce_two_of_three`, `C79_cli_needs_two_signers` (P_Signature.v) |
| C80 | The zkenc program, from the command line to the files | Program.v (main.rs with Blake3.v, Aes.v, Gcm.v, JsonText.v and Bn254.v put in) | composition of C49, C58, C59, C71, C74 and C76 | proved: `C80_encrypt_status`, `C80_encrypt_then_decrypt_iff`, `C80_sudoku` (P_Program.v) |
| C81 | The cipher is AES-256, and equal blocks look different | Aes.v (FIPS 197 computed byte by byte), Gcm.v | the standard as relations (SpecAes.v): byte products by polynomial division, the byte tables by going through all 256 bytes, schedule and rounds by induction; each step inverted, then the key stream of C38 and C40 | proved: `C81_cipher_is_fips197`, `C81_blocks_are_permuted`, `C81_equal_blocks_look_different`, `C81_equal_blocks_look_different_ctr` (P_Aes.v) |
| C82 | What a ciphertext file can do that encrypt did not write | nothing new: decap (Core.v), the file format and GCM (Combined.v, Gcm.v), both decrypts (Commands.v, JsZkenc.v) | the sender's ciphertext and file are written out; decap's secret is computed by bilinearity; the last block of the encrypted message solves a linear equation in GF(2^128) (Gf128.v: inverses, squaring is additive) | proved: `C82_decap_evaluates_any_form`, `C82_one_ciphertext_two_keys`, `C82_one_file_two_messages`, `C82_file_asks_any_question`, `C82_questions_about_wires` (P_Dishonest.v) |
| C83 | Inputs that are JavaScript values and not JSON | JsValues.v: the functions that look at an input (toString, flattenInput, mapInputsToWires, BigInt, flatArray, the calculator's loop, JSON.stringify, encap, encrypt, decap, decrypt) on JavaScript values instead of JSON | induction on the values: each function equals the one of the JSON model on the document the values amount to; JSON.stringify against the document that is written; then C56 and C37 | proved: `C83_values_as_documents`, `C83_number_forms`, `C83_json_stringify`, `C83_encrypt_without_inputs`, `C83_encrypt_with_inputs`, `C83_bigint_and_included_inputs`, `C83_encrypt_then_decrypt`, `C83_public_input_comes_back` (P_JsValues.v) |
| C84 | Objects changed while an API call is pending | Pending.v: the four API calls cut at their awaits, a page with any number of calls that changes its objects in between | every call is a tree of awaits; the result of a call depends on the states at its own turns only (induction on the history); the chain of awaits computed for each function; then C56, C83 and C37 | proved: `C84_encrypt_reads`, `C84_encap_reads`, `C84_decrypt_reads`, `C84_decap_reads`, `C84_calls_do_not_interfere`, `C84_calls_end`, `C84_every_reading_happens`, `C84_changed_while_pending` (P_Pending.v) |
| C85 | What a repeated nonce gives away | Gcm.v, Commands.v, JsZkenc.v | the mask of a byte depends on key, nonce and position only; the roots of the difference of the two GHASH polynomials (C39); the new tag computed in GF(2^128) | proved: `C85_same_nonce`, `C85_known_message`, `C85_few_hash_keys`, `C85_forgery`, `C85_overlapping_counters`, `C85_same_draws`, `C85_same_draws_js` (P_NonceReuse.v) |
| C86 | The zkenc-js package, alone and next to the zkenc program | Package.v, Program.v, SpecJsReports.v, SpecBound.v, SpecCrossTool.v | the reports of C73, the exact openings of C58, C76 and C78 and the round trip of C61, at the primitives of the built package and program; sizes below the module's memory replace the side conditions | proved: `C86_encap_succeeds_iff`, `C86_encrypt_succeeds_iff`, `C86_public_input`, `C86_decrypt_iff`, `C86_the_program_opens`, `C86_opens_the_programs_file`, `C86_sudoku` (P_Package.v) |
| C87 | What the commands print | Printing.v, PrintingFacts.v, SpecPrinting.v, Listings.v, SpecLossy.v, P_Lossy.v, SpecFailing.v, P_Failing.v | a second model of the commands in which every println! of the program and of the core is a step (which may stop the run or panic); erasing those steps gives the first model, by induction on the steps; the listings of a successful run are computed from the file contents by following the steps, and depend on nothing else; failure messages are compared by the step that produced them | proved: `C87_printing_changes_nothing`, `C87_encap_prints`, `C87_encrypt_prints`, `C87_encrypting_prints_no_values`, `C87_decap_prints`, `C87_decrypt_prints`, `C87_decrypting_prints_no_witness`, `C87_shown_public_input_can_be_forged`, `C87_failures_are_told_apart` (P_Printing.v); `C87_shown_public_input`, `C87_broken_text_is_visible` (P_Lossy.v); `C87_wrong_witness_prints`, `C87_cut_off_prints` (P_Failing.v) |
| C88 | Progress lines tell the truth, wherever a run stops | SpecProgress.v, Progress.v, P_Progress.v, P_Cut.v, Printing.v | the announcing and confirming lines are given by their beginnings, which every earlier line is computed not to have; each command is followed step by step up to the first announcement (every interruption before it leaves the files as they were), the rest by cases on where the execution stops; a run that changes a file has a last write of it, at which it is killed, and the first part says what was printed by then | proved: `C88_progress_lines_are_true`, `C88_the_screen_can_lie` (P_Progress.v); `C88_a_kill_may_leave_any_part`, `C88_a_failed_write_may_leave_any_part` (P_Cut.v) |

## 3. Trusted base

### 3.1 Logic

* Coq 8.16.1's kernel, including its virtual machine (`vm_compute` is used in certificates and
  examples).  No `native_compute`, no plugins, no kernel check switched off.
* `Print Assumptions` of each of the 404 theorems listed in MANIFEST.json prints
  `Closed under the global context`: no theorem depends on any axiom, neither of this development
  nor of the standard library.  (No function extensionality, no classical logic, no proof
  irrelevance, no primitive integers.)
* The axioms a whole-development check (coqchk) lists, `Coq.ssr.ssrunder.Under_rel.*`, are
  declared by Coq's own ssreflect library, which the standard library's `Lia`/`Ring` files load;
  none of the theorems uses them.
* Only Coq's standard library is used (no mathcomp, std++, Iris).
* No `Axiom`, `Parameter`, `Admitted`, functor or module type; `Section` variables are discharged
  and appear as explicit arguments or hypotheses of the theorems.

### 3.2 What the theorems take as parameters (visible in the statements)

* `fieldT`, `modT`, `pairingT` (Fld.v, Groups.v): any field, any three modules with generators and a
  bilinear map; non-degeneracy is a hypothesis of the theorems that need it (C02, C13, C55); they compare the
  secrets before hashing (SpecSecrets.v), so no theorem assumes the hash injective.  Instances: Z/pZ, BN254's scalar field, and a group model in
  the exponent, so the hypotheses are met.
* the evaluation domain: any provider satisfying `domain_ok`; radix-2 domains over BN254's scalar
  field are proved to satisfy it (`C09_bn254_domain_contract`).
* the curve point encoding (`codecT`): fixed length, decoder inverts encoder.
* the block cipher: any function; AES-256 (Aes.v) as an instance, shown equal to FIPS 197 as stated in SpecAes.v, with published vectors.
* the key hash: any function (into 32 bytes where the length matters); BLAKE3 (Blake3.v) with
  published vectors as the instance the code uses (C74).
* reading of number tokens that are not small integers: parameters `round`, `huge` of JsonText.v.
* the JSON text parser in the command models: any function; JsonText.v has the real ones.
* a circom module (`wmodule`) with the contract `module_ok` / `compiled` (WitnessCalc.v,
  SpecEndToEnd.v); an example module meets the contract.

### 3.3 External code whose behaviour is written out in the model (trusted transcription)

| library | where | notes |
|----|----|----|
| ark_relations constraint system | CS.v | no symbolic LCs, no lookup predicates; a failing allocation ends synthesis (as every synthesizer here does) |
| ark_poly domains | Domain.v | radix-2 only (BN254 declares no small subgroup) |
| ark_ff `from_le_bytes_mod_order`, `from_str`, `serialize` | Circuit.v, Inputs.v, ArkSer.v | as arithmetic modulo r; `Fr::from_str` as its num-bigint based reading |
| ark_serialize derive, `Vec` | ArkSer.v | the memory `Vec::deserialize` reserves in advance is not modelled |
| std::fs, `Seek`, `Read::read_exact` | Reader.v, R1cs.v, FileSys.v | a path names one file; no links, permissions or directories except that any operation may fail; concurrent modification only where a theorem says so |
| std `str` methods, `i32`/`u64` parsing, UTF-8 | Text.v, Utf8.v | from the documentation and Unicode table 3-7 |
| serde_json 1.0 | JsonText.v, SerialJson.v | nesting limit 128, no lone surrogates, last member wins, sorted or insertion order (feature `preserve_order` as a parameter); values of unknown fields read like the others (the library skips them with fewer checks); map keys compared after resolving escapes |
| ECMAScript `JSON`, `BigInt`, `Number`, typed arrays, `TextEncoder` | JsonText.v, JsNumber.v, Inputs.v, WitnessCalc.v, Utf8.v | texts are lists of Unicode scalar values and lone surrogates; Numbers are doubles, rounded and printed as ECMA-262 says (JsNumber.v; the sign of zero is not kept); little-endian typed arrays; no limit on array sizes |
| bincode 1.3 | Serial.v | 64-bit target, no size limit, trailing bytes allowed |
| aes-gcm, ctr, Web Crypto | Gcm.v | GCM/CTR chunk by chunk with 32-bit resp. 64-bit counters; length limit 2^36-32 with the panic window behind it |
| clap 4.5 | CliArgs.v | long/short options, `=`, attached values, `--`, required, duplicates, debug assertion on duplicate shorts, first match in release; help, version and error texts simplified |
| circom's generated WASM | WitnessCalc.v | exports used by the calculator |
| WebAssembly on 32-bit addresses | R1csJs.v, Wtns.v | release build: wrapping `usize` arithmetic, checked slices |

### 3.4 The repository's code: modelled and not modelled

Modelled, function by function:
`zkenc-core/src`: algorithm.rs (encap, decap, verify_ciphertext), r1cs_to_qap.rs, data_structures.rs,
serializable.rs (bincode and JSON, save/load).
(zkenc-cli/src/serializable.rs is the same text.)
`zkenc-cli/src`: r1cs.rs, witness.rs, circuit.rs, sym_parser.rs, crypto.rs, commands.rs (all
functions, the unused parse_circuit_inputs included), circom.rs, serializable.rs, main.rs.
`zkenc-js/src`: lib.rs (parse_r1cs, parse_witness, CircomCircuit, the two WASM entry points),
zkenc.ts, sym_parser.ts, witness.ts, witness_calculator.ts and witness_calculator.js (the CommonJS
original, C64), crypto.ts.

Not modelled:
* zkenc-core/src/wasm.rs (console hook and an unused result struct), index.ts and lib.rs re-exports.
* docs/ except the playground page (PlaygroundClient.tsx is modelled, C77: page state, handlers and
  what it shows; not its layout, its file pickers and its Sudoku generator and solver, which appear
  as events with arbitrary answers), test programs; of the circuits under tests/ the Sudoku circuit
  is modelled (source template, compiled file and symbol file, C76). The bytes of sudoku.wasm are not:
  its witness generator is read from the template (SudokuWasm.v). Of the signature circuit the source is
  modelled with the EdDSA verifier as a parameter, and 55 of its 8443 compiled rows (C79): its file is
  too large to be read inside Coq, and circomlib is not in /repo.
* log and progress output except the println!/eprintln! lines of the program's four commands and of
  the core's encap and decap (Printing.v, C87: `out`/`err` steps of a second command model, tied to the
  first by C87_printing_changes_nothing; the two streams are one list of lines, each println! is atomic and may stop
  the run or panic); texts of error messages except the context line of each failing step (error kinds are modelled):
  not the `Caused by:` lines, not clap's texts, not verify_ciphertext's prints.
* running time and memory, except C51 (reservations of the r1cs reader) and non-termination (C21).
* the quality of randomness, hardness assumptions and the security of AES, BLAKE3 and BN254: the
  refuted confidentiality properties (C03, C53, C54) need none of them.
* BigInt-valued public inputs in JavaScript objects (accepted by encap, rejected by
  JSON.stringify).
* debug builds' overflow checks, except where a theorem says so (C49's debug assertion).

## 4. Testing the theorems against wrong programs

seeded/LOG.jsonl has one line per attempt: the definition edited, the edit, the claim it breaks, the
theorems that failed, and what was tightened.  Edits were made in a scratch copy, the whole development
was rebuilt (with `make -k`), and survivors were examined: either the edit is equivalent (said so in
the log), or a theorem was strengthened and the attempt repeated.

## 5. The model against files the real programs wrote

Fixtures.v checks, by computation, the model against binary files in the repository: the witness file
that the real circuit made from sudoku_basic.json is, byte for byte, what the model's JSON reader,
witness calculator and the Sudoku generator (SudokuWasm.v, read from the template) write; and the
bincode test case that zkenc-cli exported loads in the model, has the circuit read from sudoku.r1cs and
the values of that witness file, and is written back to the same bytes.  These are examples that
support the transcription of sections 3.3 and 3.4, no property rests on them.
