{"id": "C01", "title": "Encap without a witness / decap with one agree on the key", "statement": "When encap is given a circuit whose public inputs are assigned and whose synthesis stops at its first unassigned private variable before any constraint was added, then decap of the resulting ciphertext, with any circuit whose constraints are satisfied and whose public inputs start with the same values, returns exactly the key encap returned.", "quantifier": "every scalar field, bilinear group, circuit program, public input list, private witness, and every choice of the five random scalars with delta non-zero", "why_tests_cant": "Tests run a handful of circuits with sampled randomness; the claim is over all circuits, assignments and random draws.", "anchors": ["packages/zkenc-core/src/algorithm.rs: encap", "packages/zkenc-core/src/algorithm.rs: decap", "packages/zkenc-core/src/r1cs_to_qap.rs: evaluate_qap_polynomials_at_x"]}
{"id": "C02", "title": "Encap that synthesises the full circuit and decap agree on the key only by luck", "statement": "A user would expect that when encap's circuit synthesises completely (witness present, or no private variables) decap with the same satisfied circuit returns the same key. It does not: for every pair of circuits the two secrets (the group elements whose hashes are the keys) differ by an explicit field element and are equal if and only if that element is zero (non-degenerate pairing), so the keys agree only then or if the hash collides; and for a fully synthesised satisfied circuit whose public U part is non-zero at x exactly one beta of the whole field makes it zero. If some constraint's A side, private variables left out, is not zero, that is so for all x but fewer than the evaluation domain has elements. Without private variables: if all A sides are zero and some B side is not, the secrets agree exactly when alpha is drawn zero (for all x but so few); if all A and B sides are zero they always agree.", "quantifier": "every field, bilinear group, pair of circuits, satisfying assignment and random scalars", "why_tests_cant": "A test only sees one random draw; the exact algebraic condition for agreement needs a proof.", "anchors": ["packages/zkenc-core/src/algorithm.rs: encap", "packages/zkenc-core/src/algorithm.rs: decap"]}
{"id": "C03", "title": "The key is a public function of the ciphertext", "statement": "A user would expect that the key cannot be computed from the ciphertext alone. In fact one fixed function, which uses neither circuit nor witness nor randomness, maps the ciphertext of every successful encap to its key.", "quantifier": "every field, bilinear group, hash, circuit, public input list and random draw", "why_tests_cant": "A test cannot show that one extractor works for all ciphertexts, nor that none exists.", "anchors": ["packages/zkenc-core/src/algorithm.rs: encap", "packages/zkenc-core/src/data_structures.rs: Ciphertext"]}
{"id": "C04", "title": "Decap succeeds exactly on satisfied circuits with matching public inputs", "statement": "decap returns a key exactly when the circuit synthesises without error, all its constraints hold under the given assignment, the assignment has the ciphertext's public inputs right after the constant one, and the three query vectors are non-empty; otherwise it returns SynthesisError, InvalidWitness or InvalidPublicInputs according to the first failing check, and never panics for a circuit whose constraints mention only allocated variables.", "quantifier": "every circuit program, every assignment and every ciphertext value (including adversarial ones)", "why_tests_cant": "The set of adversarial ciphertexts and circuits is infinite.", "anchors": ["packages/zkenc-core/src/algorithm.rs: decap", "packages/zkenc-core/src/algorithm.rs: Error"]}
{"id": "C05", "title": "Encap records the circuit's public inputs", "statement": "The ciphertext's public_inputs are exactly the values of the public inputs allocated before synthesis stopped, in allocation order, without the constant one; when all public inputs are allocated first they are all recorded.", "quantifier": "every circuit program and assignment", "why_tests_cant": "All allocation orders and abort points must be covered.", "anchors": ["packages/zkenc-core/src/algorithm.rs: encap"]}
{"id": "C06", "title": "Encap's outcome depends only on delta", "statement": "encap never returns an error: for every circuit whose constraints only mention allocated variables it returns a ciphertext and key when the sampled delta is non-zero and panics when it is zero.", "quantifier": "every circuit and every draw of the five scalars", "why_tests_cant": "delta = 0 has probability 2^-254: no test reaches it; error-freedom ranges over all circuits.", "anchors": ["packages/zkenc-core/src/algorithm.rs: encap"]}
{"id": "C07", "title": "Which circuits open a ciphertext", "statement": "A user would expect that only the circuit given to encap opens its ciphertext. In fact a ciphertext made without a witness (no constraint synthesised) is opened with its key by exactly the circuits that synthesise, whose constraints hold, and whose variables start with the recorded public inputs; encap's circuit plays no part, and the constraint-free circuit opens every such ciphertext.", "quantifier": "every pair of circuits, public input list and random draw", "why_tests_cant": "Needs a universally quantified statement over circuits unrelated to the encap circuit.", "anchors": ["packages/zkenc-core/src/algorithm.rs: decap", "packages/zkenc-core/src/algorithm.rs: encap"]}
{"id": "C08", "title": "Which public inputs open a ciphertext", "statement": "A user would expect that changing the public inputs stored in a ciphertext makes decap fail or give another key. In fact, for a ciphertext made without a witness and a satisfied circuit, decap after replacing them by any list gives the original key exactly when that list is a prefix of the circuit's variables, and whenever it gives a key at all it is the original one.", "quantifier": "every ciphertext made without witness, every replacement list, every satisfied circuit", "why_tests_cant": "Ranges over all forged ciphertexts.", "anchors": ["packages/zkenc-core/src/algorithm.rs: decap", "packages/zkenc-core/src/data_structures.rs: Ciphertext"]}
{"id": "C09", "title": "QAP evaluation equals the interpolated column polynomials", "statement": "For each variable i the value returned for u, v and w is the value at x of the unique polynomial of degree below the domain size that takes the variable's total coefficient in constraint j at the j-th domain point and zero at the remaining points.", "quantifier": "every constraint system, every domain that satisfies the evaluation domain contract, every x", "why_tests_cant": "Universally quantified over matrices, domain sizes and points.", "anchors": ["packages/zkenc-core/src/r1cs_to_qap.rs: evaluate_qap_polynomials_at_x"]}
{"id": "C10", "title": "Satisfaction is divisibility by the vanishing polynomial", "statement": "An assignment satisfies every constraint if and only if the vanishing polynomial of the domain divides U*V - W, where U, V, W are the assignment-weighted sums of the column polynomials.", "quantifier": "every constraint system, assignment and domain", "why_tests_cant": "An iff over all systems and assignments.", "anchors": ["packages/zkenc-core/src/r1cs_to_qap.rs: evaluate_qap_polynomials_at_x", "packages/zkenc-core/src/algorithm.rs: decap"]}
{"id": "C11", "title": "verify_ciphertext accepts exactly equal public inputs", "statement": "verify_ciphertext returns true if and only if the expected public inputs equal the ciphertext's list in length and in every position; it looks at nothing else in the ciphertext.", "quantifier": "every ciphertext and every expected list", "why_tests_cant": "All lists of all lengths.", "anchors": ["packages/zkenc-core/src/algorithm.rs: verify_ciphertext"]}
{"id": "C12", "title": "Shape of the published query vectors", "statement": "A successful encap publishes three query vectors with one entry per allocated variable (including the constant), an empty h query, and entries equal to the generator multiplied by r*u_i(x), r*v_i(x) and (r*beta*u_i(x)+r*alpha*v_i(x)+r^2*w_i(x))/delta.", "quantifier": "every circuit and random draw", "why_tests_cant": "All circuits, including those that abort in the middle.", "anchors": ["packages/zkenc-core/src/algorithm.rs: encap", "packages/zkenc-core/src/data_structures.rs: EncapKey"]}
{"id": "C13", "title": "Fresh randomness changes the key", "statement": "For two encaps of the same witness-less circuit, the pre-hash secrets are equal if and only if alpha*beta coincide; for a fixed non-zero alpha distinct beta give distinct secrets.", "quantifier": "every pair of random draws, every circuit that stops before its first constraint, non-degenerate pairings", "why_tests_cant": "All pairs of draws.", "anchors": ["packages/zkenc-core/src/algorithm.rs: encap"]}
{"id": "C14", "title": "Ciphertext serialisation round trip and size", "statement": "Deserialising the compressed serialisation of any ciphertext gives the ciphertext back and leaves exactly the bytes that followed it; its length is 200 + 32*|ru| + 64*|rv| + 32*|phi| + 32*|h| + 32*|public| bytes, and every strict prefix is rejected.", "quantifier": "every ciphertext value, every trailing byte string, every truncation point", "why_tests_cant": "All lengths of all five vectors and all cut points.", "anchors": ["packages/zkenc-core/src/data_structures.rs: Ciphertext", "packages/zkenc-cli/src/commands.rs: encap_command", "packages/zkenc-js/src/lib.rs: wasm_encap"]}
{"id": "C15", "title": "The exact ciphertext size", "statement": "Documentation claims the witness ciphertext is always 1576 bytes. In fact the size is 200 + 128*(variables) + 32*(public inputs) for every successful encap, and for a circom circuit that stops at its first private wire with l public wires exactly 456 + 160*l, which is 1576 only for l = 7.", "quantifier": "every circuit, input and random draw", "why_tests_cant": "A constant-size claim over all circuits.", "anchors": ["packages/zkenc-core/src/data_structures.rs: Ciphertext", "packages/zkenc-js/src/zkenc.ts: encrypt", "packages/zkenc-cli/src/commands.rs: encrypt_command"]}
{"id": "C16", "title": "CLI r1cs reader reads back every well-formed file", "statement": "For every r1cs content that fits the format's integer widths, reading the standard binary encoding (sections in any order, unknown sections in between, with or without the wire map) yields exactly that content, with public input count = outputs + public inputs.", "quantifier": "every circuit content, section order and set of extra sections", "why_tests_cant": "Sizes, section orders and coefficients are unbounded.", "anchors": ["packages/zkenc-cli/src/r1cs.rs: R1csFile::from_file", "packages/zkenc-cli/src/r1cs.rs: parse_header", "packages/zkenc-cli/src/r1cs.rs: parse_constraints", "packages/zkenc-cli/src/r1cs.rs: parse_lc"]}
{"id": "C17", "title": "CLI r1cs reader rejects wrong files", "statement": "Any file whose magic, version or required sections are missing, or that ends inside the header, a linear combination or the wire map, gives an error and never a circuit; whatever it accepts has exactly the number of constraints and wire labels its header announces.", "quantifier": "every byte string", "why_tests_cant": "All byte strings.", "anchors": ["packages/zkenc-cli/src/r1cs.rs: R1csFile::from_file"]}
{"id": "C18", "title": "CLI and WASM r1cs readers agree", "statement": "On every standard encoding both readers return the same public input count, wire count and constraints.", "quantifier": "every circuit content and section order that fits 32-bit memory", "why_tests_cant": "Two independent parsers over all inputs.", "anchors": ["packages/zkenc-cli/src/r1cs.rs: R1csFile::from_file", "packages/zkenc-js/src/lib.rs: parse_r1cs"]}
{"id": "C19", "title": "Exactly which files make the WASM r1cs reader panic", "statement": "A user would expect parse_r1cs to return Ok or Err on every byte string. On 32-bit addresses it panics exactly when a section other than the last ends in the last four bytes of the address space, or when, all section headers and the file header having been read, the first non-empty linear combination has its first coefficient end at or beyond 2^32; such files exist (24 and 72 bytes), and each contains a 32-bit integer within len+8 of 2^32.", "quantifier": "every byte string a 32-bit address space can hold as a slice (less than 2^31 bytes)", "why_tests_cant": "All byte strings and both address widths.", "anchors": ["packages/zkenc-js/src/lib.rs: parse_r1cs", "packages/zkenc-js/src/lib.rs: parse_linear_combination"]}
{"id": "C20", "title": "CLI witness reader reads back every well-formed file", "statement": "Reading the standard wtns encoding of a list of field elements gives exactly that list; wrong magic, version, missing header, missing data, or a data size different from count*width are errors.", "quantifier": "every list of field elements, every byte string for the rejections", "why_tests_cant": "All lengths and all byte strings.", "anchors": ["packages/zkenc-cli/src/witness.rs: WitnessFile::from_file", "packages/zkenc-cli/src/witness.rs: to_field_elements"]}
{"id": "C21", "title": "WASM witness reader: exact outcome on every byte string", "statement": "On every standard wtns encoding parse_witness returns the list. On every byte string below 2 GiB: it returns a list exactly when the announced sections can be walked (positions modulo 2^32) and then the values met on the walk; it refuses exactly on a wrong magic or version; it never ends exactly when the walk reaches a data section while the element width is zero; it panics otherwise. Every header+data file cut short panics.", "quantifier": "every list of field elements; every byte string below 2 GiB", "why_tests_cant": "Non-termination and panics on adversarial inputs.", "anchors": ["packages/zkenc-js/src/lib.rs: parse_witness"]}
{"id": "C22", "title": "Which witness files the CLI and JS read alike", "statement": "A user would expect both witness readers to give the same field elements for the same file. For standard files they do exactly when there is at least one value and every value is below r (otherwise the CLI refuses the file and the WASM reader reduces the values); files with two data sections, or data before the header, are read differently.", "quantifier": "every standard witness file; every pair of canonical values for the two other layouts", "why_tests_cant": "Two parsers over all inputs.", "anchors": ["packages/zkenc-cli/src/witness.rs: to_field_elements", "packages/zkenc-js/src/lib.rs: parse_witness"]}
{"id": "C23", "title": "The declared prime is ignored", "statement": "A user would expect a circuit or witness file that declares another prime than the curve's scalar field modulus to be rejected. In fact every byte string is accepted as the prime of an r1cs file, and witness files that differ in the declared prime only are read the same by both tools.", "quantifier": "every prime, every list of witness values", "why_tests_cant": "All primes.", "anchors": ["packages/zkenc-cli/src/r1cs.rs: parse_header", "packages/zkenc-cli/src/witness.rs: WitnessFile::from_file", "packages/zkenc-js/src/lib.rs: parse_r1cs"]}
{"id": "C24", "title": "Circuit synthesis means satisfying the r1cs file", "statement": "For an r1cs whose factors mention only existing wires and a complete witness map, synthesis succeeds and the constraint system is satisfied if and only if every A*B=C row of the file holds with wire 0 equal to one and other wires equal to the witness.", "quantifier": "every r1cs content and every witness map", "why_tests_cant": "All circuits and all assignments.", "anchors": ["packages/zkenc-cli/src/circuit.rs: CircomCircuit::generate_constraints", "packages/zkenc-js/src/lib.rs: CircomCircuit::generate_constraints"]}
{"id": "C25", "title": "Synthesis stops at the first missing wire and drops unknown wires", "statement": "If some wire 1..n-1 is missing from the witness map, synthesis fails with AssignmentMissing after having allocated exactly the smaller wires and no constraint; factors whose wire is out of range are silently dropped from the row.", "quantifier": "every r1cs content and every partial witness map", "why_tests_cant": "All partial maps.", "anchors": ["packages/zkenc-cli/src/circuit.rs: CircomCircuit::generate_constraints"]}
{"id": "C26", "title": "Coefficient bytes become the right field element", "statement": "bytes_to_fr of any byte string is the little-endian value of its first 32 bytes reduced modulo r; canonical 32-byte encodings decode to themselves.", "quantifier": "every byte string", "why_tests_cant": "2^256 values and all lengths.", "anchors": ["packages/zkenc-cli/src/circuit.rs: bytes_to_fr", "packages/zkenc-js/src/lib.rs: bytes_to_field"]}
{"id": "C27", "title": "Symbol file parsing", "statement": "In the CLI, parsing the text of any list of records label,wire,component,name yields the map from each name to the wire of its last record with a non-negative wire; records with negative wire and lines without exactly four fields are ignored; a wire field that is not a 32-bit integer is an error. The JavaScript package reads every text without error: the wire is the integer the field begins with, and lines without one are ignored. The maps are the same for every text the CLI accepts; JavaScript also gives wires where the CLI refuses the file.", "quantifier": "every list of symbol records and every text", "why_tests_cant": "All texts.", "anchors": ["packages/zkenc-cli/src/sym_parser.rs: parse_sym_file", "packages/zkenc-js/src/sym_parser.ts: parseSymFile"]}
{"id": "C28", "title": "Input signal selection", "statement": "get_input_signals returns exactly the symbols with wire at most the bound, with one leading 'main.' removed, and nothing else.", "quantifier": "every symbol map, bound and iteration order", "why_tests_cant": "All maps and hash orders.", "anchors": ["packages/zkenc-cli/src/sym_parser.rs: get_input_signals", "packages/zkenc-js/src/sym_parser.ts: getInputSignals"]}
{"id": "C29", "title": "JSON inputs are flattened to indexed names", "statement": "Parsing CLI inputs succeeds exactly when every leaf under every used key is a number or numeric string, and then every leaf at index path [i][j].. under key k with a known name is assigned its field value; unknown names are ignored.", "quantifier": "every JSON document of any nesting", "why_tests_cant": "Unbounded nesting and array lengths.", "anchors": ["packages/zkenc-cli/src/commands.rs: parse_circuit_inputs_with_keys"]}
{"id": "C30", "title": "When inputs do not depend on key or hash order", "statement": "Whether a JSON object is accepted never depends on the order of its keys. The wire assignment made from it does not depend on key order or hash iteration order whenever distinct names stand for distinct wires; for any two names on one wire with two values the outcome does depend on the hash order (the last one visited wins).", "quantifier": "every JSON object, symbol map and iteration order", "why_tests_cant": "All permutations.", "anchors": ["packages/zkenc-cli/src/commands.rs: parse_circuit_inputs_with_keys"]}
{"id": "C31", "title": "What a JSON number means", "statement": "A user would expect a JSON number n to mean n modulo r in both tools. In the CLI it does exactly for 0 <= n < 2^64: numbers from -2^63 to -1 mean n + 2^64, which is always a different field element, and all others are refused; decimal strings of any length and sign mean n modulo r. In JavaScript numbers 0 <= n < 2^53 are taken exactly (for larger ones see C75).", "quantifier": "every integer and every decimal string", "why_tests_cant": "2^64 values and unbounded strings.", "anchors": ["packages/zkenc-cli/src/commands.rs: parse_circuit_inputs_with_keys", "packages/zkenc-js/src/zkenc.ts: serializeWitnessSimple"]}
{"id": "C32", "title": "Which public wires the CLI assigns", "statement": "A user would expect the CLI's encrypt to assign every public wire whose signal the JSON names. It assigns the value to every such wire up to n_pub_in and nothing above, although the public wires go up to n_pub_out+n_pub_in; so for circuits with public outputs the ciphertext records at most n_pub_in public inputs.", "quantifier": "every circuit, symbol file, JSON, hash order and random draw", "why_tests_cant": "All shapes of circuits.", "anchors": ["packages/zkenc-cli/src/commands.rs: encrypt_command", "packages/zkenc-cli/src/sym_parser.rs: get_input_signals"]}
{"id": "C33", "title": "For which inputs CLI and JS assign the same values", "statement": "For inputs that are scalars or flat arrays of non-negative integers below 2^53 or decimal strings both tools assign the same values to the same wires. For every nested array around an integer they do not: JS assigns nothing where the CLI assigns the value.", "quantifier": "every such JSON object, symbol file and hash order", "why_tests_cant": "All inputs.", "anchors": ["packages/zkenc-cli/src/commands.rs: parse_circuit_inputs_with_keys", "packages/zkenc-js/src/sym_parser.ts: mapInputsToWires"]}
{"id": "C34", "title": "Combined file round trip across tools", "statement": "For every witness ciphertext, optional public-input JSON and encrypted message with lengths below 2^32, both the CLI decoder and the JS decoder recover exactly the parts that either encoder put in.", "quantifier": "every triple of byte strings, both encoders, both decoders", "why_tests_cant": "All lengths and contents.", "anchors": ["packages/zkenc-cli/src/commands.rs: encrypt_command", "packages/zkenc-cli/src/commands.rs: decrypt_command", "packages/zkenc-js/src/zkenc.ts: encrypt", "packages/zkenc-js/src/zkenc.ts: decrypt"]}
{"id": "C35", "title": "When length fields wrap", "statement": "A combined file written by encrypt decodes to the same parts exactly when the witness ciphertext, and the public input if included, have less than 2^32 bytes; for a longer ciphertext the length is written modulo 2^32 and the file decodes to other parts without an error.", "quantifier": "every choice of parts of every length", "why_tests_cant": "Needs 4 GiB inputs.", "anchors": ["packages/zkenc-cli/src/commands.rs: encrypt_command", "packages/zkenc-js/src/zkenc.ts: encrypt"]}
{"id": "C36", "title": "Combined file decoder is total and exact", "statement": "The CLI decoder returns the parts exactly when the file is at least five bytes, and the announced lengths fit; otherwise it returns an error and never panics; a decoded file re-encodes to itself when its flag is 0 or 1.", "quantifier": "every byte string", "why_tests_cant": "All byte strings.", "anchors": ["packages/zkenc-cli/src/commands.rs: decrypt_command"]}
{"id": "C37", "title": "getPublicInput returns the embedded JSON", "statement": "getPublicInput of a file made with the public input flag returns the JSON text that was embedded, and throws for files made without it or too short.", "quantifier": "every combined file", "why_tests_cant": "All byte strings.", "anchors": ["packages/zkenc-js/src/zkenc.ts: getPublicInput"]}
{"id": "C38", "title": "AES-GCM round trip", "statement": "For every 32-byte key, message and nonce, decryption of the encryption returns the message, and the output is 28 bytes longer than the message.", "quantifier": "every key, nonce and message length within the mode's limit", "why_tests_cant": "All lengths and contents.", "anchors": ["packages/zkenc-cli/src/crypto.rs: encrypt_gcm", "packages/zkenc-cli/src/crypto.rs: decrypt_gcm", "packages/zkenc-js/src/crypto.ts: aesGcmEncrypt", "packages/zkenc-js/src/crypto.ts: aesGcmDecrypt"]}
{"id": "C39", "title": "AES-GCM accepts exactly what verifies", "statement": "Decryption returns a message exactly when the key has 32 bytes, the input has at least 28 bytes and at most 2^36-32 bytes of ciphertext proper, and the tag equals the tag recomputed from key, nonce and ciphertext (the Rust one panics on a right tag over the 48 lengths above that); changing only tag bytes always fails; wrong key length and short inputs are errors.", "quantifier": "every key and byte string", "why_tests_cant": "All byte strings.", "anchors": ["packages/zkenc-cli/src/crypto.rs: decrypt_gcm", "packages/zkenc-js/src/crypto.ts: aesGcmDecrypt"]}
{"id": "C40", "title": "AES-CTR round trip and malleability", "statement": "decrypt_ctr inverts encrypt_ctr for every key, iv and message; it never fails on inputs of 16 bytes or more, and flipping ciphertext bits flips exactly the same plaintext bits.", "quantifier": "every key, iv and message", "why_tests_cant": "All lengths and contents.", "anchors": ["packages/zkenc-cli/src/crypto.rs: encrypt_ctr", "packages/zkenc-cli/src/crypto.rs: decrypt_ctr"]}
{"id": "C41", "title": "CLI encrypt then decrypt returns the message", "statement": "For every r1cs, symbol and JSON input accepted by encrypt on a circuit with at least one private wire, every message, and every witness file satisfying the circuit whose public wires equal the encrypted inputs, decrypt of the written file writes exactly the original message.", "quantifier": "every circuit, input, message, witness and random draw with delta non-zero", "why_tests_cant": "End-to-end over all files.", "anchors": ["packages/zkenc-cli/src/commands.rs: encrypt_command", "packages/zkenc-cli/src/commands.rs: decrypt_command"]}
{"id": "C42", "title": "Decrypt writes output only after authentication", "statement": "If any step of decrypt (parsing, witness check, key recovery, tag verification) fails, no file is created or changed; on success only the output path changes and holds the authenticated plaintext.", "quantifier": "every file system state and every command argument", "why_tests_cant": "All failure points.", "anchors": ["packages/zkenc-cli/src/commands.rs: decrypt_command", "packages/zkenc-cli/src/commands.rs: decap_command"]}
{"id": "C43", "title": "Encap and encrypt change only their output files", "statement": "encap and encrypt never modify a file other than their output paths; when they fail before writing nothing changes; a crash or failure between encap's two writes leaves the ciphertext without its key.", "quantifier": "every file system state, every failing operation", "why_tests_cant": "All crash points.", "anchors": ["packages/zkenc-cli/src/commands.rs: encap_command", "packages/zkenc-cli/src/commands.rs: encrypt_command"]}
{"id": "C44", "title": "JS encrypt then decrypt, and across tools", "statement": "For a circuit with a wire beyond the public ones, a file made by the JS encrypt decrypts with the JS decrypt and with the CLI decrypt, and a file made by the CLI encrypt with the JS decrypt, whenever the witness satisfies the circuit and matches the encrypted public inputs.", "quantifier": "every circuit, input, message and random draw", "why_tests_cant": "Cross-implementation claim over all inputs.", "anchors": ["packages/zkenc-js/src/zkenc.ts: encrypt", "packages/zkenc-js/src/zkenc.ts: decrypt", "packages/zkenc-js/src/lib.rs: wasm_encap", "packages/zkenc-js/src/lib.rs: wasm_decap"]}
{"id": "C45", "title": "Serializable circuit bincode round trip", "statement": "Decoding the bincode encoding of any serializable circuit or test case gives it back, for every hash iteration order; and the bytes that load, as a given circuit or test case, are exactly those that start with an encoding of it in the format (fixed-width little-endian integers, counted sequences, UTF-8 text, the last of several entries with one key counting), everything else being an error and never a panic.", "quantifier": "every circuit, witness and order", "why_tests_cant": "All values.", "anchors": ["packages/zkenc-core/src/serializable.rs: SerializableCircuit", "packages/zkenc-core/src/serializable.rs: SerializableWitness"]}
{"id": "C46", "title": "Conversion to the serializable circuit is faithful", "statement": "to_serializable keeps every constraint's A, B and C factors with their wires and coefficients and all counts; the wire labels and the label count are dropped, and nothing else is: two circuit files convert to the same value exactly when they agree on everything but labels.", "quantifier": "every r1cs content", "why_tests_cant": "All circuits.", "anchors": ["packages/zkenc-cli/src/r1cs.rs: to_serializable"]}
{"id": "C47", "title": "Which values survive in the JS witness prefix", "statement": "The witness JS encap builds from its wire map is [1, x1, ..], stopping at the first wire without a value and failing exactly on the first value that is no integer; serialised and read by the WASM reader it gives x mod 2^256 mod r for each x, which is x mod r exactly when r divides floor(x / 2^256): for all 0 <= x < 2^256, and for no negative or longer x of up to some 500 bits.", "quantifier": "every wire map and all integers, negative and huge ones included", "why_tests_cant": "All values.", "anchors": ["packages/zkenc-js/src/zkenc.ts: encap", "packages/zkenc-js/src/zkenc.ts: serializeWitnessSimple", "packages/zkenc-js/src/zkenc.ts: bigIntToLeBytes32", "packages/zkenc-js/src/lib.rs: parse_witness"]}
{"id": "C48", "title": "Witness calculator helpers", "statement": "For a compiled circuit module that keeps its contract, a calculation returns a witness exactly when the document names known inputs with the right number of values and all inputs are set, and then the number list, the binary witness and the wtns file all hold the module's witness for the values reduced modulo the field. Every other document gives the error of the first thing that goes wrong in it, and no other: going through the entries in order, a value that is no number, an unknown input, too few or too many values, an input that already has values, or, at the entry that fills the last input, a failing assertion of the circuit; after all entries, an input without values. flatArray flattens nested arrays in order, word splitting and joining are inverse, normalize maps every integer to its residue, the name hash is FNV-1a, and the wtns file is one that both the Rust tools and the JS library read back.", "quantifier": "every nested array, integer and witness length", "why_tests_cant": "All values.", "anchors": ["packages/zkenc-js/src/witness_calculator.ts: flatArray", "packages/zkenc-js/src/witness_calculator.ts: toArray32", "packages/zkenc-js/src/witness_calculator.ts: fromArray32", "packages/zkenc-js/src/witness_calculator.ts: calculateWTNSBin"]}
{"id": "C49", "title": "Command line", "statement": "A command line is carried out exactly when it gives every required option of its subcommand one value and no option two, whatever the order and the spelling (--name v, --name=v, -n v, -n=v, -nv), and the command gets the value given for each of its options. Within encrypt and decrypt no two options share a short letter; encap and decap define -c twice, so that a debug build panics on every use of them and a release build never accepts -c for the ciphertext.", "quantifier": "every subcommand and every list of arguments", "why_tests_cant": "A debug assertion only fires when the subcommand is parsed in a debug build.", "anchors": ["packages/zkenc-cli/src/main.rs: Commands"]}
{"id": "C50", "title": "WASM initialisation runs at most once", "statement": "Under every interleaving of concurrent callers the WASM module is initialised at most once, no caller proceeds before initialisation has finished, all callers meet the same fate, every schedule ends with every caller answered, and a failed initialisation is final.", "quantifier": "every number of callers and every schedule", "why_tests_cant": "All schedules.", "anchors": ["packages/zkenc-js/src/zkenc.ts: ensureWasmInit"]}
{"id": "C51", "title": "Memory reserved by the r1cs reader", "statement": "A user would expect the reader to reserve memory in proportion to the file. A successful read has reserved at most 9 bytes per byte of the file plus 8 per announced wire; any other read at most 8 per byte plus 114*2^32, and this is not idle: 68- and 28-byte files make it reserve 72*(2^32-1) and 2^32-1 bytes, and a 24-byte file has a section table of any announced length below 2^32.", "quantifier": "every byte string", "why_tests_cant": "Adversarial headers.", "anchors": ["packages/zkenc-cli/src/r1cs.rs: parse_header", "packages/zkenc-cli/src/r1cs.rs: parse_constraints", "packages/zkenc-cli/src/witness.rs: WitnessFile::from_file"]}
{"id": "C52", "title": "circom helper functions", "statement": "load_circom_circuit fails exactly when one of the two files cannot be read; otherwise the counts it reports depend on the length of the r1cs file only (length/1000 constraints, 3 public inputs, twice as many variables) and not on the circuit. parse_inputs gives for each key the texts of its leaves in order, objects left out, booleans and null as 1/0, and fails exactly on unreadable files, text that is no JSON, and JSON that is no object.", "quantifier": "every file, every JSON reader and document", "why_tests_cant": "All documents.", "anchors": ["packages/zkenc-cli/src/circom.rs: load_circom_circuit", "packages/zkenc-cli/src/circom.rs: parse_inputs", "packages/zkenc-cli/src/circom.rs: flatten_value"]}
{"id": "C53", "title": "Anybody can open a ciphertext file (CLI)", "statement": "A user would expect that nobody without a witness can make decrypt write the message of a ciphertext file. In fact one fixed function of the file gives a circuit file and a witness file with which decrypt writes the message of every file encrypt wrote for a circuit with a wire beyond the public inputs.", "quantifier": "every circuit, input, message, random draw and file system", "why_tests_cant": "Tests decrypt with the right witness or with one wrong witness; the claim is about every pair of files.", "anchors": ["packages/zkenc-cli/src/commands.rs: encrypt_command", "packages/zkenc-cli/src/commands.rs: decrypt_command"]}
{"id": "C54", "title": "Anybody can open a ciphertext (JS)", "statement": "A user would expect that nobody without a witness can make the JS decrypt return the message of a file. In fact one fixed function of the file gives a circuit and a witness with which decrypt returns the message of every file the JS encrypt made for a circuit with a wire beyond the public ones.", "quantifier": "every circuit, input document, message and random draw", "why_tests_cant": "Tests decrypt with the right witness or with one wrong witness; the claim is about every circuit and witness file.", "anchors": ["packages/zkenc-js/src/zkenc.ts: encrypt", "packages/zkenc-js/src/zkenc.ts: decrypt", "packages/zkenc-js/src/lib.rs: wasm_decap"]}
{"id": "C55", "title": "Encap then decap on a circuit whose wires are all public", "statement": "A user would expect that when every wire is public and all values are given, decap with the satisfying witness gives the key of encap. For every such circuit both calls succeed, in the CLI (wires are the public inputs) and in the JS API (public outputs and inputs), and each returns the hash of a secret, but: if the A side of some constraint is not zero on the witness, the two secrets are equal for exactly one value of the random scalar beta; if all A sides are zero but some B side is not, they are equal exactly when alpha is drawn zero; both for all values of the random scalar x but fewer than the evaluation domain has elements. If all A and B sides are zero they are always equal. For x*x = 9 with x public: one beta for every x outside the domain.", "quantifier": "every circuit file whose wires are all public (at most 2^24), symbol file, input document and satisfying witness, all random draws, every hash, every non-degenerate pairing", "why_tests_cant": "A test sees one draw; the claim is about all of them.", "anchors": ["packages/zkenc-cli/src/commands.rs: encap_command", "packages/zkenc-cli/src/commands.rs: decap_command"]}
{"id": "C57", "title": "Numbers given as texts", "statement": "The texts the JS side accepts as numbers are exactly the optionally signed decimal texts and the unsigned 0x/0o/0b texts, surrounded by any white space (the blank text being zero); each such text has one reading, and the text made from any integer reads back as that integer.", "quantifier": "every text and every integer", "why_tests_cant": "Infinitely many spellings.", "anchors": ["packages/zkenc-js/src/zkenc.ts: parseInputs", "packages/zkenc-js/src/zkenc.ts: BigInt(...)", "packages/zkenc-js/src/witness_calculator.ts: flatArray / BigInt"]}
{"id": "C56", "title": "From inputs to message, witness calculation included", "statement": "If the r1cs, sym and wasm files come from one circom source, and the full inputs have the circuit's shape, contain the public inputs used for encryption and solve the circuit, then JS decap/decrypt with the full inputs, or the CLI's decrypt with the witness the calculator writes, gives the key/message of the JS encap/encrypt, and JS decrypt opens what the CLI encrypted, for public inputs whose values are in 0..2^256-1 and, if Numbers beyond 2^53, printed exactly (JS), or whose numbers are not negative (CLI). For JS encap/encrypt followed by JS decap/decrypt this is sharpened to an equivalence: it succeeds exactly if the number each call reads for each public wire is the same field element. Outside this range it is false: for the circuit y*y = x and every x below 0 or from 2^256 on (up to some 500 bits) with a square root, JS encrypt succeeds and decrypt with the solving inputs never returns a message.", "quantifier": "every circuit, every input document of any shape and size, every message, all random draws", "why_tests_cant": "Unbounded circuits and input shapes, and secret randomness; tests fix a handful of circuits.", "anchors": ["packages/zkenc-js/src/zkenc.ts: encap", "packages/zkenc-js/src/zkenc.ts: decap", "packages/zkenc-js/src/zkenc.ts: encrypt", "packages/zkenc-js/src/zkenc.ts: decrypt", "packages/zkenc-js/src/witness.ts: calculateWitness"]}
{"id": "C58", "title": "Exactly the solutions open the file", "statement": "With the circuit a message was encrypted for, decap/decrypt succeeds exactly for a witness that satisfies every constraint and has the public inputs given at encryption on their wires, and then returns the encrypted message (the encapsulated key); with any other witness it fails and writes no output. (Where a document gives one wire several values, the one meant is the last for JS and any one of them, by the order of a hash map, for the CLI.)", "quantifier": "every circuit with a private wire, every input document, every witness file, all random draws", "why_tests_cant": "The refusal has to hold for every wrong witness, and the success for every right one.", "anchors": ["packages/zkenc-js/src/zkenc.ts: decap", "packages/zkenc-js/src/zkenc.ts: decrypt", "packages/zkenc-cli/src/commands.rs: decrypt_command"]}
{"id": "C59", "title": "The zkenc program", "statement": "Whatever the arguments, failing operations and crashes, zkenc changes no file but those its command line names as outputs; an undisturbed run with a non-zero exit status changes no file at all; zkenc encrypt followed by zkenc decrypt with a fitting witness ends with status 0 and writes the message, whatever the order and spelling of the options; zkenc decrypt exits with status 0 exactly when the named files open the ciphertext. Help is shown, with status 0, exactly when it is asked for (--help, -h or help at the top, a help flag after complete options of a command); otherwise a command line that is no command ends with status 2, and a command with 0, 1 or 101 as it succeeds, fails or panics.", "quantifier": "every argument list, file system, failure pattern, crash point and random draw", "why_tests_cant": "Argument lists, file systems and crash points are unbounded.", "anchors": ["packages/zkenc-cli/src/main.rs: main", "packages/zkenc-cli/src/commands.rs: encrypt_command", "packages/zkenc-cli/src/commands.rs: decrypt_command"]}
{"id": "C60", "title": "Which input texts both tools accept, and what they mean", "statement": "The CLI's JSON reading (serde_json) and the JavaScript one (JSON.parse) accept exactly the RFC 8259 documents (nested at most 127 deep and without lone surrogates in the CLI), give every text at most one value, take the last of several members with the same name, order members as documented (insertion or sorted order; integer-like keys first in JavaScript), and read 64-bit integers (up to 2^53 in JavaScript) exactly.", "quantifier": "every text", "why_tests_cant": "Texts are unbounded; a test sees a few.", "anchors": ["packages/zkenc-cli/src/commands.rs: encrypt_command", "packages/zkenc-cli/src/commands.rs: parse_circuit_inputs", "packages/zkenc-js/src/zkenc.ts: getPublicInput"]}
{"id": "C61", "title": "The embedded public input comes back from the real text encoding", "statement": "For every public input object JavaScript data can hold, parsing what JSON.stringify writes gives the object back, character by character encoding included; and getPublicInput of a ciphertext made by encrypt returns it.", "quantifier": "every JSON object with JavaScript data, every circuit, message and random draw", "why_tests_cant": "All strings with escapes, all nestings and all key orders.", "anchors": ["packages/zkenc-js/src/zkenc.ts: encrypt", "packages/zkenc-js/src/zkenc.ts: getPublicInput"]}
{"id": "C62", "title": "Circuits, witnesses and test cases saved as JSON", "statement": "Reading the JSON text of any serializable circuit, witness or test case gives it back, whatever the iteration order of the maps; a text loads exactly when it is JSON whose document has the documented shape (the named fields in any order or the fields in sequence, optional labels absent or null, unknown fields ignored, whole numbers in range), and then as what it says; a text cut short anywhere is an error; after saving, whatever failed and wherever the process was killed, the file is as before, or loads as what was saved, or is refused, and no other file changed; a save that reported success loads as what was saved.", "quantifier": "every value, hash iteration order, cut, failure and crash point", "why_tests_cant": "Values, orders, cuts and crash points are unbounded.", "anchors": ["packages/zkenc-core/src/serializable.rs: to_json", "packages/zkenc-core/src/serializable.rs: from_json", "packages/zkenc-core/src/serializable.rs: save_json", "packages/zkenc-core/src/serializable.rs: load_json"]}
{"id": "C63", "title": "The CLI and JavaScript read the same data from one file", "statement": "Every text the CLI accepts as JSON, JavaScript accepts too, and unless numbers beyond 2^53 or fractions occur both read the same data up to the order of object members.", "quantifier": "every text", "why_tests_cant": "All texts.", "anchors": ["packages/zkenc-cli/src/commands.rs: encrypt_command", "packages/zkenc-js/src/zkenc.ts: encrypt"]}
{"id": "C64", "title": "The original witness calculator and its TypeScript rewrite agree", "statement": "On every input document whose values are whole numbers, calculateWitness and calculateBinWitness of the shipped witness_calculator.js and of its TypeScript rewrite return the same result, errors included; on any other document both refuse. They report the first entry of the document that does not go through: both with the same error, except that the rewrite converts all values of an entry before looking at its name, their number, or whether the signal was given before, while the original does that first and converts the values one by one; so only there, and only about that same entry, may the two errors differ. Their witness files are equal byte for byte as long as the values take less than 2^32 bytes; beyond that they differ in the eight bytes announcing that size, where the original stores the first eight hexadecimal digits as the low word (so 2^32 to 2^36 bytes are announced as a sixteenth), and in nothing else.", "quantifier": "every compiled circuit keeping the module contract, every input document, every size", "why_tests_cant": "Circuits, documents and sizes are unbounded; nobody tests with 4 GB of witness.", "anchors": ["packages/zkenc-js/src/witness_calculator.js: calculateWitness", "packages/zkenc-js/src/witness_calculator.js: calculateWTNSBin", "packages/zkenc-js/src/witness_calculator.ts: calculateWitness", "packages/zkenc-js/src/witness_calculator.ts: calculateWTNSBin"]}
{"id": "C65", "title": "One witness calculator asked several times", "statement": "Calls on one calculator that are each awaited before the next begin all answer what a new calculator would, failed calls included. In any interleaving a call whose input has no witness is rejected as by a new calculator, and a call that no other call overtakes between its start and its resumption is answered as by a new calculator. A call overtaken by others with a witness is answered with the witness of the last one started instead of its own.", "quantifier": "every compiled circuit keeping the module contract, every list of requests and every interleaving of their starts and resumptions", "why_tests_cant": "Interleavings and request histories are unbounded.", "anchors": ["packages/zkenc-js/src/witness_calculator.ts: calculateWitness", "packages/zkenc-js/src/witness_calculator.ts: calculateBinWitness", "packages/zkenc-js/src/witness_calculator.ts: calculateWTNSBin", "packages/zkenc-js/src/witness_calculator.ts: _doCalculateWitness"]}
{"id": "C66", "title": "Error texts and log lines of the witness calculator", "statement": "The error a failing calculation reports is the name of the exception the circuit raised, followed by every error message printed since the calculator was built: by this calculation and by all earlier ones on the same calculator (so a reused calculator repeats stale messages, exactly when earlier calculations printed some). What the circuits log, over all calculations, is one log, and console.log receives exactly its complete lines, items separated by blanks; the unfinished line of a failed calculation starts the next one's first line.", "quantifier": "every sequence of calculations, every sequence of callbacks and messages", "why_tests_cant": "Histories of calculations and of callbacks are unbounded.", "anchors": ["packages/zkenc-js/src/witness_calculator.ts: witnessCalculatorBuilder", "packages/zkenc-js/src/witness_calculator.ts: exceptionHandler", "packages/zkenc-js/src/witness_calculator.ts: printErrorMessage", "packages/zkenc-js/src/witness_calculator.ts: writeBufferMessage", "packages/zkenc-js/src/witness_calculator.ts: showSharedRWMemory"]}
{"id": "C67", "title": "Circuit inputs read as one list", "statement": "Reading a JSON document into a list of field elements gives exactly the values its leaves stand for, in the order of the members as serde_json iterates them and of array elements; it is refused, never a panic, exactly when reading by name refuses it, and lists the same values. Both readings report the first value they refuse in reading order, with its own reason (a fraction or a number outside 64 bits, a string that is no integer numeral, any other kind of value), and refuse every document that is not an object. The order is the document's only if serde_json preserves order; otherwise the names' order.", "quantifier": "every JSON document", "why_tests_cant": "All documents and nestings.", "anchors": ["packages/zkenc-cli/src/commands.rs: parse_circuit_inputs", "packages/zkenc-cli/src/commands.rs: parse_circuit_inputs_with_keys"]}
{"id": "C68", "title": "Exact outcome of the command-line r1cs reader", "statement": "For every byte string: the command-line reader accepts it with a given content exactly when the string has the magic, version 1, an announced number of section headers reachable by walking (the length field counts as a signed 64-bit number, so it may also walk backwards), a first section of type 1 beginning with the header, a first section of type 2 beginning with all constraints, and a first section of type 3 beginning with the wire map (if there is none, the identity map). A string holds at most one content. Each named error is reported exactly in its own case (wrong magic, wrong version, no header section, no constraints section), and in all remaining cases an I/O error; there is no panic.", "quantifier": "every byte string up to the largest file offset", "why_tests_cant": "All byte strings, including adversarial ones.", "anchors": ["packages/zkenc-cli/src/r1cs.rs: from_file", "packages/zkenc-cli/src/r1cs.rs: parse_header", "packages/zkenc-cli/src/r1cs.rs: parse_constraints", "packages/zkenc-cli/src/r1cs.rs: parse_wire2label"]}
{"id": "C69", "title": "Exact outcome of the WASM r1cs reader, and the two readers on arbitrary bytes", "statement": "The WASM reader accepts exactly the byte strings (below 2^31 bytes) that hold the header and constraints as it reads them. On any byte string whose announced sections lie inside it, whatever the command line accepts the WASM reader accepts with the same header and constraints, and conversely unless the announced prime or the wire map does not fit the file. Outside these conditions they differ: a wire map that is too short is refused by the command line only, and a section length of 2^32 is skipped as zero by the WASM reader.", "quantifier": "every byte string below 2^31 bytes", "why_tests_cant": "All byte strings, including adversarial ones.", "anchors": ["packages/zkenc-js/src/lib.rs: parse_r1cs", "packages/zkenc-cli/src/r1cs.rs: from_file"]}
{"id": "C70", "title": "Exact outcome of the command-line witness reader", "statement": "For every byte string: the command-line witness reader accepts it with a given prime, count and values exactly when the string has the magic, version 2 and all announced sections one after the other, and the last header and the last data section are non-empty and fit (count times prime length bytes). Every error, and the panic (a non-header section announced as 2^63 bytes or more), is reported exactly in its own case. The field elements used are the values held, each of at least 32 bytes and canonical in its first 32.", "quantifier": "every byte string", "why_tests_cant": "All byte strings, including adversarial ones.", "anchors": ["packages/zkenc-cli/src/witness.rs: from_file", "packages/zkenc-cli/src/witness.rs: to_field_elements"]}
{"id": "C71", "title": "How each command ends", "statement": "A run of zkenc encap, decap, encrypt or decrypt that nothing disturbs ends with the report of the first thing that is wrong, in a fixed order. encap/encrypt: circuit unreadable or no r1cs file; symbol file not UTF-8 text; a symbol line with four fields and no wire number; input file not text; input no JSON object with numeric leaves; (delta drawn as zero: panic); for encrypt also message unreadable, longer than 2^36-32 bytes (panic up to 2^36, then an error). decap: circuit; a witness file announcing a section of 2^63 bytes (panic); no witness file; witness values not canonical; ciphertext unreadable; no ciphertext; no key for this witness. decrypt: the same after splitting the combined file, then a tag that does not verify (panic when it does verify on an over-long message). If nothing is wrong it succeeds. No other failure, in particular no other panic, occurs.", "quantifier": "every file system, argument, hash order and random draw", "why_tests_cant": "File contents are unbounded.", "anchors": ["packages/zkenc-cli/src/commands.rs: encap_command", "packages/zkenc-cli/src/commands.rs: decap_command", "packages/zkenc-cli/src/commands.rs: encrypt_command", "packages/zkenc-cli/src/commands.rs: decrypt_command"]}
{"id": "C72", "title": "Commands beside other processes", "statement": "While other processes change any files at any moment, decrypt still writes only to its output, only after it saw a ciphertext, a circuit and a witness that open that ciphertext, and only the message they open it to (a beginning of it if the write fails or the process dies); it reports success only after writing all of it. decap likewise with the key that the files it saw recover. encrypt and encap write only after all their reads; if the circuits they saw the two times they read it have the same number of public inputs, what they write is exactly what an undisturbed run on the second circuit and the other contents they saw writes, and encap writes the key only after the whole ciphertext. If the two circuits differ, the first only says how many wires take values from the document and the second is the circuit to satisfy: with the second circuit the file is opened exactly by the witnesses that satisfy it and have the document's values on its public wires up to the first without a value and at most as many as the first circuit has public inputs; so who swaps in a circuit without public inputs for the first read makes the file open to every witness of the second. A run that misses any of this writes nothing and does not report success; if the circuit is gone or unreadable the second time, the run ends with the error about creating the circuit.", "quantifier": "every behaviour of other processes, every crash point, every failing write, all file contents, hash orders and random draws", "why_tests_cant": "Interleavings and contents are unbounded; tests run alone.", "anchors": ["packages/zkenc-cli/src/commands.rs: encap_command", "packages/zkenc-cli/src/commands.rs: decap_command", "packages/zkenc-cli/src/commands.rs: encrypt_command", "packages/zkenc-cli/src/commands.rs: decrypt_command"]}
{"id": "C73", "title": "How each JavaScript API call ends", "statement": "encap, encrypt, decap and decrypt of the JavaScript API end with the report of the first thing that is wrong, in a fixed order. encap: a name known to the symbol file given null (TypeError); the first wire from 1 on whose last given text BigInt cannot read, all wires before it having numbers (SyntaxError); circuit bytes on which the WASM reader traps or which it refuses (C69 says which); the delta drawn being zero (trap). encrypt: the same, then a message longer than 2^36-32 bytes. decap: the witness cannot be calculated (C48); the circuit bytes; as many witness values as wires missing or exceeded; a ciphertext that does not deserialise; no wire beyond the public ones; a constraint the witness does not satisfy; recorded public inputs the witness does not start with; an empty query list. decrypt: fewer than 5 bytes; fewer than announced; the length of the public part missing; then as decap on the first part; then an encrypted part under 28 bytes; a wrong tag. If nothing is wrong the call succeeds. No other failure and no other trap occurs.", "quantifier": "every circuit, symbol text, input document, ciphertext, message, random draw and compiled circuit", "why_tests_cant": "Byte strings and documents are unbounded and may be adversarial.", "anchors": ["packages/zkenc-js/src/zkenc.ts: encap", "packages/zkenc-js/src/zkenc.ts: encrypt", "packages/zkenc-js/src/zkenc.ts: decap", "packages/zkenc-js/src/zkenc.ts: decrypt", "packages/zkenc-js/src/lib.rs: wasm_encap", "packages/zkenc-js/src/lib.rs: wasm_decap"]}
{"id": "C74", "title": "Keys are BLAKE3 hashes of the secret", "statement": "The key of encap and of decap is the BLAKE3 hash of the serialised pairing value: the hash is the tree of the BLAKE3 specification for inputs of every length, every key returned by encap or decap or written to a key file has 32 bytes, encrypt and decrypt with this hash and AES-256 give the message back under no further assumption on the hash, and where the secrets of encap and decap differ, equal keys are a collision of BLAKE3 on the two encodings.", "quantifier": "every input of the hash, circuit, input document, message, random draw and file system", "why_tests_cant": "All byte strings of all lengths and all random draws; tests hash a few vectors.", "anchors": ["packages/zkenc-core/src/algorithm.rs: encap", "packages/zkenc-core/src/algorithm.rs: decap", "packages/zkenc-cli/src/commands.rs: encap_command", "packages/zkenc-cli/src/commands.rs: decap_command"]}
{"id": "C75", "title": "JavaScript Numbers as inputs", "statement": "A JSON number is read in JavaScript as the double nearest to its decimal value, ties to even; every finite Number is printed as the shortest decimal that is read back as that Number (the nearest such, then the even one), so Numbers survive JSON.stringify and JSON.parse. A whole Number w beyond 2^53 given as an input has its exact value in the witness calculator, but encap/encrypt take the integer that is printed for it when w < 10^21 (which is w up to 15 significant digits, and may differ otherwise, e.g. for 2^60) and refuse it from 10^21 on. Where the printed integer is not w, encap/encrypt accept the public input and decap/decrypt with the same inputs never succeed, for every circuit. The CLI reads integer literals between 2^53 and 2^64 exactly, JavaScript as the nearest double.", "quantifier": "every number token, every finite double, every circuit and input document, all random draws", "why_tests_cant": "2^64 doubles and unbounded texts; the loss shows only for particular digits.", "anchors": ["packages/zkenc-js/src/zkenc.ts: encap", "packages/zkenc-js/src/zkenc.ts: encrypt", "packages/zkenc-js/src/zkenc.ts: getPublicInput", "packages/zkenc-js/src/sym_parser.ts: mapInputsToWires", "packages/zkenc-js/src/witness_calculator.ts: flatArray"]}
{"id": "C76", "title": "What the shipped Sudoku circuit lets decrypt", "statement": "The shipped files sudoku.r1cs and sudoku.sym are read by both tools, put the clue of cell i on wire i+1 and hold exactly when the constraints of sudoku.circom do. These hold exactly when the clues are respected and every row, column and box has the sum 45 and the sum of squares 285. So for a message encrypted for a puzzle, by the command line or in JavaScript, decryption succeeds, with the message, exactly for the witnesses that show such a grid. Every solution is one; but not only solutions (the comment 'each row contains 1-9 exactly once' and the playground's 'Only valid witnesses (correct solutions) can decrypt' are refuted): for every solved grid, replacing the digits 1, 5, 6 by 2, 3, 7 gives an accepted grid of digits that is no solution of any puzzle with clues among the other digits, and a puzzle that has no solution and can be decrypted. The witness generator of the template gives the circuit its witness for every puzzle and grid, so JavaScript's decrypt with a puzzle and a grid as inputs returns the message exactly for the accepted grids.", "quantifier": "every assignment of field elements to the wires, every puzzle, grid, message, witness file, file system and random draw", "why_tests_cant": "Assignments, puzzles and grids are far too many to enumerate (9^81 grids); tests try one puzzle.", "anchors": ["packages/zkenc-cli/tests/circuits/sudoku.circom: Sudoku", "packages/zkenc-cli/tests/r1cs/sudoku.r1cs", "packages/zkenc-cli/tests/r1cs/sudoku.sym", "docs/src/components/PlaygroundClient.tsx", "packages/zkenc-cli/src/commands.rs: decrypt_command", "packages/zkenc-js/src/zkenc.ts: decrypt"]}
{"id": "C77", "title": "What the playground page does and shows", "statement": "For every history of clicks, uploads, edits and settling library calls of the playground page: encrypting never succeeds on either tab (the page hands the library no symbol file; each attempt ends with the TypeError and the page is ready again), so the ciphertexts held are the files uploaded last; the library is called with the circuit files, message, inputs and checkbox that were loaded, typed or ticked last; 'Encryption successful!' shows on the custom tab exactly when a ciphertext was uploaded there. At most one library call is in flight, and the buttons are disabled exactly while it is. Clicking decrypt with everything present shows, when the call settles and whatever happened meanwhile, the text of what the library's decrypt returns for the circuit, ciphertext and inputs that were on the page at the click, or the error; and a text shown as decrypted always comes from the last decryption started on that tab, with the ciphertext uploaded last before it. A typed message reappears as typed exactly if it is not empty, has no lone surrogate and no leading U+FEFF. Uploading a ciphertext puts the embedded puzzle (public inputs) on the page and leaves the grids alone if there is none. With the shipped Sudoku circuit the message shows exactly for the grids the circuit accepts. Refuted: that the message goes away when another ciphertext is loaded, that a locked cell shows the clue, and that private inputs are merged with the public ones (decryption then fails). The cell of the puzzle grid that is typed in takes the digit (an emptied one a 0) and nothing else on the page changes; the grids and buttons of a tab do nothing while the other tab is open.", "quantifier": "every history of user actions and of answers of the library, every file, message, puzzle, grid and random draw", "why_tests_cant": "Histories interleave user actions with calls in flight and are unbounded; the page has no tests.", "anchors": ["docs/src/components/PlaygroundClient.tsx: PlaygroundClient", "docs/src/components/PlaygroundClient.tsx: handleEncrypt", "docs/src/components/PlaygroundClient.tsx: handleDecrypt", "docs/src/components/PlaygroundClient.tsx: handleCiphertextUpload", "docs/src/components/PlaygroundClient.tsx: handleCustomDecrypt"]}
{"id": "C78", "title": "Across the tools exactly the right inputs open the file", "statement": "A file made by JavaScript's encrypt is decrypted by the command line exactly with a witness file that satisfies the circuit and has the bound values on the public wires, and a file made by the command line's encrypt is decrypted in JavaScript exactly with a satisfying witness that has the values it chose from the document; the message, and nothing else, comes back. With a circuit compiled by circom and any inputs document whatever, decrypt in JavaScript, and in the command line with the witness file calculated from it, succeeds exactly if the circuit computes a witness from the document that has the bound values. If the document solves the circuit and contains the public inputs given to the command line's encrypt, JavaScript's decrypt returns the message exactly if no bound public input was a JSON number below 0.", "quantifier": "every circuit, symbol file, document, witness, message, random draw and file system", "why_tests_cant": "All documents and witnesses, the wrong ones included; tests use one right and one wrong input.", "anchors": ["packages/zkenc-js/src/zkenc.ts: encrypt", "packages/zkenc-js/src/zkenc.ts: decrypt", "packages/zkenc-cli/src/commands.rs: encrypt_command", "packages/zkenc-cli/src/commands.rs: decrypt_command", "packages/zkenc-js/src/witness_calculator.ts: calculateWitness"]}
{"id": "C79", "title": "What the shipped multi-signature circuit enforces", "statement": "MultiSig2of3's range check lets the indices -1, 0, 1 and 2 pass (not [0, 2] as its comment says), the key selected for an index is that key, and the origin for an index that is none of 0, 1, 2; so the template holds exactly if the two indices differ, are among -1, 0, 1, 2 and the signatures verify for the keys they select. With a verifier that rejects the origin as a key this is exactly the two-of-three rule: two different of the three key positions signed the message (the same key listed twice counts twice, so one signer can then decrypt alone). The first 29 rows of the compiled file mean exactly that, and the rows of its verifiers reject the origin; so every witness that decrypts, with the command line, a file encrypted with a circuit that has these rows names two different signers among 0, 1, 2, and the keys it checked are the ones encrypted for.", "quantifier": "every verifier relation, message, key, signature, index, assignment of field elements to wires, witness file, document, random draw and file system", "why_tests_cant": "Indices and assignments range over a 254-bit field; tests have one witness at most.", "anchors": ["packages/zkenc-cli/tests/circuits/signature.circom: MultiSig2of3", "packages/zkenc-cli/tests/circuits/signature.circom: SelectPublicKey", "packages/zkenc-cli/tests/r1cs/signature.r1cs", "packages/zkenc-cli/tests/r1cs/signature.sym", "packages/zkenc-cli/src/commands.rs: decrypt_command"]}
{"id": "C80", "title": "The zkenc program, from the command line to the files", "statement": "zkenc encrypt, called with its options written in any way and order, ends with exit status 0 exactly if the circuit, symbol and input files can be read as such and the message exists and fits the cipher (barring the random draw 0), and otherwise changes no file. After status 0, zkenc decrypt, run anywhere on that circuit and output, ends with status 0 exactly if the witness satisfies the circuit and has, on the public wires, the values the encryption chose from the document; it then writes the message and changes nothing else, and otherwise changes nothing. For the shipped Sudoku files that is exactly when the witness shows a grid the circuit accepts. BLAKE3, AES-256-GCM, the JSON reader and the BN254 scalar field are the real ones.", "quantifier": "every command line, file system, circuit, document, message, witness file, random draw, hash order, debug or release", "why_tests_cant": "Command lines, files and draws are unbounded; tests run a handful of fixed ones.", "anchors": ["packages/zkenc-cli/src/main.rs: main", "packages/zkenc-cli/src/commands.rs: encrypt_command", "packages/zkenc-cli/src/commands.rs: decrypt_command", "packages/zkenc-cli/src/crypto.rs: encrypt_gcm", "packages/zkenc-core/src/algorithm.rs: encap", "packages/zkenc-core/src/algorithm.rs: decap"]}
{"id": "C81", "title": "The cipher is AES-256, and equal blocks look different", "statement": "The block cipher behind encrypt and decrypt computes, for every 256-bit key and block, what FIPS 197 prescribes (S-box, row shifts, column mixing, key schedule, rounds), and under one key it never maps two blocks to one. So wherever two equal 16-byte blocks are encrypted under one key, in one message or in two messages with different nonces, the corresponding blocks of the encrypted files differ; the same for the counter-mode helpers within one message.", "quantifier": "every key, block, nonce, iv and pair of messages, every pair of block positions", "why_tests_cant": "2^256 keys and 2^128 blocks; test vectors fix a few.", "anchors": ["packages/zkenc-cli/src/crypto.rs: encrypt_gcm", "packages/zkenc-cli/src/crypto.rs: encrypt_ctr", "packages/zkenc-js/src/crypto.ts: aesGcmEncrypt"]}
{"id": "C82", "title": "What a ciphertext file can do that encrypt did not write", "statement": "A file that decrypt opens need not mean the same to all who open it, nor be silent about their witnesses. For every choice of coefficients there is a ciphertext for which decap, for every satisfied circuit, returns the hash of that quadratic form of the opener's values. For two keys with different AES-GCM hash keys there is one encrypted message both accept, showing byte by byte what the sender wants to the reader of its choice. So for two witnesses of one circuit that differ in some wire (even with equal public inputs, which the file records) there is one file that both tools open for both, to different messages as wanted; and for every quadratic question, among them whether a given wire has a given value, there is a file that opens to the chosen message if the opener's witness answers yes, and otherwise exactly if the key of another secret happens to give the same tag. (A file that encrypt wrote opens to one message only: C58.)", "quantifier": "every circuit, pair of witnesses, wire, coefficients, secrets, hash, cipher, nonce, message bytes wanted, embedded text and file system", "why_tests_cant": "Existence of a file for every circuit, witness pair and message; tests only use files that encrypt wrote.", "anchors": ["packages/zkenc-core/src/algorithm.rs: decap", "packages/zkenc-cli/src/commands.rs: decrypt_command", "packages/zkenc-cli/src/crypto.rs: decrypt_gcm", "packages/zkenc-js/src/zkenc.ts: decrypt", "packages/zkenc-js/src/crypto.ts: aesGcmDecrypt"]}
{"id": "C83", "title": "Inputs that are JavaScript values and not JSON", "statement": "encap, encrypt, decap and decrypt take any JavaScript object. A whole number may be given as a Number, as a BigInt of any size or as a string of its digits, anywhere in the inputs, with the same outcome of encap, decap, decrypt and of encrypt without embedded inputs; undefined is treated as null. With embedded inputs (the default) a BigInt anywhere in them makes encrypt fail with a TypeError, never succeed; without BigInts the file embeds the values with undefined members left out, and null for undefined elements, NaN and the infinities, and getPublicInput returns exactly that. A file made from such values opens with the same values and the private inputs.", "quantifier": "every nesting of JavaScript values, circuit, symbol file, message, random draw and buffer", "why_tests_cant": "The values, their nesting and the numbers are unbounded; tests pass strings and small numbers.", "anchors": ["packages/zkenc-js/src/zkenc.ts: encap", "packages/zkenc-js/src/zkenc.ts: encrypt", "packages/zkenc-js/src/zkenc.ts: decrypt", "packages/zkenc-js/src/sym_parser.ts: mapInputsToWires", "packages/zkenc-js/src/witness_calculator.ts: flatArray"]}
{"id": "C84", "title": "Objects changed while an API call is pending", "statement": "encap, encrypt, decap and decrypt are asynchronous and hold the caller's objects by reference. encrypt takes its options at the call; the circuit, the symbols and the inputs at one later moment; the message at a moment after that; and the inputs it embeds at a last one. decrypt copies the ciphertext at the call (decap reads it at the end) and takes the WASM code, the inputs and the circuit at three later moments. Nothing else the page or other calls do matters, and all four moments are really different: each can see a different state. A file made while the objects changed opens to the later message for solvers of the circuit for the earlier inputs, and shows the last inputs. Calls on objects that do not change give what each gives alone, in any order and number, unless the initialisation failed; every call ends after at most 13 pieces of work.", "quantifier": "every number and order of calls, every schedule of their pieces, every change of the objects between them", "why_tests_cant": "The interleavings of the calls' awaits with the page's changes are unbounded; tests await each call at once.", "anchors": ["packages/zkenc-js/src/zkenc.ts: encap", "packages/zkenc-js/src/zkenc.ts: encrypt", "packages/zkenc-js/src/zkenc.ts: decap", "packages/zkenc-js/src/zkenc.ts: decrypt", "packages/zkenc-js/src/zkenc.ts: ensureWasmInit", "packages/zkenc-js/src/crypto.ts: aesGcmEncrypt", "packages/zkenc-js/src/crypto.ts: aesGcmDecrypt", "packages/zkenc-js/src/witness_calculator.ts: witnessCalculatorBuilder"]}
{"id": "C85", "title": "What a repeated nonce gives away", "statement": "The random nonce is all that separates two messages under one key. If the random draws of two runs of encrypt (either tool) are the same, with the same circuit, symbols and inputs, the two files differ in the encrypted messages only, and their difference is that of the messages, byte for byte; so who knows one message reads the other, without witness or key, as far as the known one reaches. Two such files also determine a list of candidates for the authentication key, at most one longer than the longer message has blocks, and who has that key, a file and its message makes files that open to any chosen message not longer. For the CTR helpers even different counter blocks give the same away when their streams overlap.", "quantifier": "every key, nonce, pair of messages of any lengths, circuit and inputs, and every block cipher", "why_tests_cant": "The messages, keys and draws are unbounded, and tests never repeat a draw.", "anchors": ["packages/zkenc-cli/src/crypto.rs: encrypt_gcm", "packages/zkenc-cli/src/crypto.rs: encrypt_ctr", "packages/zkenc-js/src/crypto.ts: aesGcmEncrypt", "packages/zkenc-cli/src/commands.rs: encrypt_command", "packages/zkenc-js/src/zkenc.ts: encrypt"]}
{"id": "C86", "title": "The zkenc-js package, alone and next to the zkenc program", "statement": "encap and encrypt of the package, as built (WebAssembly memory of 32-bit addresses, BLAKE3 keys, AES-256-GCM, JSON), end with a result exactly if no name the symbol file knows is given null, every value is a number up to the first wire without one, the circuit bytes hold a circuit, and the message fits the cipher (barring the random draw 0). decrypt with any inputs then returns the message exactly if the circuit computes from them a witness with the public values used at encryption, and otherwise an error; getPublicInput gives back the embedded inputs. The zkenc program opens the package's file exactly with such a witness, and the package opens the program's file exactly from inputs whose witness has the values the program chose. With the shipped Sudoku circuit every 81 clues encrypt, and exactly the accepted grids decrypt.", "quantifier": "every circuit file, symbol file, input document, message, random draw, command line and file system, within the memory of the module", "why_tests_cant": "Only a handful of circuits and inputs are tried across the two tools, while the agreement must hold for all.", "anchors": ["packages/zkenc-js/src/zkenc.ts: encap", "packages/zkenc-js/src/zkenc.ts: encrypt", "packages/zkenc-js/src/zkenc.ts: decrypt", "packages/zkenc-js/src/zkenc.ts: getPublicInput", "packages/zkenc-js/src/lib.rs: wasm_encap", "packages/zkenc-js/src/lib.rs: wasm_decap", "packages/zkenc-cli/src/main.rs: main"]}
{"id": "C87", "title": "What the commands print", "statement": "The println! calls of the program and of the core change neither files nor results, wherever a run stops. A successful encap or encrypt prints exactly a fixed sequence of lines filled in from the circuit file's header, the number of names the inputs have, the first wire without a value and the sizes of the outputs: two encryptions with the same circuit, symbol file, input names and message size print the same, whatever the values, the messages, the random numbers, the visiting order and the file names. A successful decap or decrypt prints nothing of the witness but the element count its file declares, and nothing of the key or message but sizes; two working witnesses print the same. The embedded public input decrypt shows is not authenticated: any valid text can be put in its place, and the decryption then shows that text and writes the same message. What is no UTF-8 in it is shown as the Unicode standard recommends: each longest broken piece as one U+FFFD, everything else as it is, so that broken text is visible and no ASCII character is ever hidden. With a witness that breaks a constraint decap and decrypt say only that; with one for other public values they show the place of the first that differs; of a combined file that is cut off they show at most its first five bytes, as two numbers; no file is touched then. However a command fails, its message names the failing step, and no two kinds of failure share a message.", "quantifier": "every circuit, symbol, input, witness, ciphertext and message file, every random draw and visiting order, every file system and every point a run may stop at", "why_tests_cant": "A captured terminal shows a few runs; that the output leaks no value and never alters the outcome is a claim about every pair of runs and every stopping point.", "anchors": ["packages/zkenc-cli/src/commands.rs: encap_command", "packages/zkenc-cli/src/commands.rs: decap_command", "packages/zkenc-cli/src/commands.rs: encrypt_command", "packages/zkenc-cli/src/commands.rs: decrypt_command", "packages/zkenc-core/src/algorithm.rs: encap", "packages/zkenc-core/src/algorithm.rs: decap", "packages/zkenc-cli/src/main.rs: main"]}
{"id": "C88", "title": "Progress lines tell the truth, wherever a run stops", "statement": "Take any execution of a command: one that ends, one that is killed at any point (also in the middle of writing a file), or one in which any read, write or println! fails. If the line confirming an output file was printed, the same command with nothing disturbing it succeeds, and the file holds exactly what it would leave there. While the line announcing the file was not printed, the file is as it was. A command that ends successfully has printed every confirmation. No other file is touched. (encap's two output files are taken to be different.) In between, any part of the file may be there: for every n there is a place where a command that would change the file, killed, leaves its first n bytes (none of them for n = 0: the old contents are gone already), with the announcement printed and the confirmation not. A write that fails part-way (a full disk) does the same; the command then ends with the error naming that file. This is about the lines the program prints, not about the screen: for every valid text there is a ciphertext file with which decrypt shows that text before it looks for the circuit, and then fails without touching a file.", "quantifier": "every command, file system, random draw, visiting order and every point and way an execution may be interrupted", "why_tests_cant": "A test does not stop the program at every point, and cannot compare what was printed with what is on the disk there.", "anchors": ["packages/zkenc-cli/src/commands.rs: encap_command", "packages/zkenc-cli/src/commands.rs: decap_command", "packages/zkenc-cli/src/commands.rs: encrypt_command", "packages/zkenc-cli/src/commands.rs: decrypt_command", "packages/zkenc-cli/src/main.rs: main"]}
