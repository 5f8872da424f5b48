(** Specification: what a run of each command that ends well prints, line by line, in terms of the
    headers, the sizes and the names in its files. *)
From Coq Require Import List Bool NArith ZArith.
From Coq Require Import Strings.String Strings.Byte.
From Verif Require Import Res Bytes Text CS Core R1cs Wtns Sym Inputs SpecInputs Combined Commands Printing.
Import ListNotations.
Local Open Scope string_scope.
Local Open Scope list_scope.
Local Open Scope N_scope.

(** Public input [w] has a name the document gives a value. *)
Definition given (syms : hmap N) (kvs : list (text * json)) (n_in w : N) : Prop :=
  1 <= w <= n_in /\ exists name x, doc_leaf kvs name x /\ hm_get (lit "main." ++ name) syms = Some w.
(** The first wire that is no such public input. *)
Definition first_open (syms : hmap N) (kvs : list (text * json)) (n_in m : N) : Prop :=
  1 <= m /\ ~ given syms kvs n_in m /\ forall w, 1 <= w < m -> given syms kvs n_in w.
(** The document gives values to [n] different names. *)
Definition names (kvs : list (text * json)) (n : N) : Prop :=
  exists l, NoDup l /\ (forall name, In name l <-> exists x, doc_leaf kvs name x) /\ N.of_nat (List.length l) = n.

(** "{text}{n}{text}" *)
Definition with_number (a : string) (n : N) (b : string) : said := out (u8 a ++ dec_text n ++ u8 b).
Definition line (a : string) : said := out (u8 a).
(** A line that begins with an empty one. *)
Definition next (a : string) : said := out (10 :: u8 a).

Definition circuit_lines (r : r1cs_file) : list said :=
  [ line "📂 Loading R1CS circuit...";
    with_number "   - Constraints: " (r_n_constraints r) "";
    with_number "   - Public inputs: " (r_n_pub_in r) "";
    with_number "   - Wires: " (r_n_wires r) "" ].
Definition input_lines (n : N) : list said :=
  [ next "📂 Loading symbol file..."; next "📋 Loading public inputs from JSON...";
    with_number "   - Parsed " n " field elements" ].
(** The first open wire is [m]. *)
Definition encap_lines (m : N) : list said :=
  [ line "🔐 Starting Encap...";
    line "  ⚠ Circuit synthesis error (expected for encap without witness): AssignmentMissing";
    with_number "  ✓ Circuit setup: 0 constraints, " (m + 1) " variables";
    with_number "  ✓ Extracted " (m - 1) " public inputs";
    line "  ✓ Sampled random parameters (α, β, δ, r, x)";
    line "  ⏳ Evaluating QAP polynomials at x...";
    with_number "  ✓ Generated CRS with " (m + 1) " query elements";
    line "  ⏳ Computing pairing for key derivation...";
    line "  ✓ Derived key from pairing" ].
(** The bytes of a ciphertext. *)
Definition ciphertext_size (m : N) : N := 296 + 160 * m.

Definition encap_listing (r : r1cs_file) (n m : N) : list said :=
  circuit_lines r ++ input_lines n ++ [next "🔐 Running Encap..."] ++ encap_lines m ++
  [ next "💾 Saving ciphertext..."; with_number "   ✅ Ciphertext saved (" (ciphertext_size m) " bytes)";
    next "🔑 Saving key..."; line "   ✅ Key saved (32 bytes)" ].
(** [p]: the size of the input file when it is embedded. *)
Definition encrypt_listing (r : r1cs_file) (n m : N) (p : option N) (message : N) : list said :=
  [line "🔐 Step 1: Running Encap..."] ++ circuit_lines r ++ input_lines n ++ encap_lines m ++
  [ with_number "   ✅ Witness ciphertext generated (" (ciphertext_size m) " bytes)";
    next "� Step 2: Encrypting message...";
    with_number "   - Message size: " message " bytes";
    with_number "   ✅ Message encrypted (" (message + 28) " bytes)";
    next "� Step 3: Creating combined ciphertext...";
    with_number "   ✅ Combined ciphertext saved ("
      (match p with Some p => 9 + p | None => 5 end + ciphertext_size m + message + 28) " bytes)";
    match p with
    | Some _ => next "✨ Encryption complete! Public inputs are embedded in the ciphertext."
    | None => next "✨ Encryption complete! Remember to share the public inputs separately."
    end ].

Definition decap_lines (r : r1cs_file) : list said :=
  [ line "🔓 Starting Decap...";
    line "  ✓ Circuit synthesized and satisfied";
    with_number "  ✓ Extracted full assignment: " (r_n_wires r) " values";
    line "  ⏳ Computing A from witness and CRS...";
    line "  ⏳ Computing B from witness and CRS...";
    line "  ⏳ Computing C from witness and CRS...";
    line "  ⏳ Computing pairing for key recovery...";
    line "  ✓ Successfully recovered key" ].
(** [w]: the number of elements the witness file declares; [c]: the size of the ciphertext file. *)
Definition decap_listing (r : r1cs_file) (w c : N) : list said :=
  circuit_lines r ++
  [ next "📋 Loading witness from snarkjs..."; with_number "   - Witness elements: " w "";
    next "📦 Loading ciphertext..."; with_number "   - Ciphertext size: " c " bytes";
    next "🔓 Running Decap..." ] ++ decap_lines r ++
  [ next "🔑 Saving recovered key..."; line "   ✅ Key saved (32 bytes)" ].
(** [flag]: the first byte of the file; [p]: its parts. *)
Definition decrypt_listing (r : r1cs_file) (w flag : N) (p : parts) : list said :=
  [ line "� Step 1: Parsing combined ciphertext...";
    with_number "   - Flag: " flag "";
    with_number "   - Witness ciphertext: " (blen (p_witness p)) " bytes" ] ++
  match p_public p with Some b => [out (u8 "   - Public input: " ++ from_utf8_lossy b)] | None => [] end ++
  [ with_number "   - Encrypted message: " (blen (p_message p)) " bytes";
    next "🔓 Step 2: Running Decap..." ] ++ firstn 3 (circuit_lines r) ++
  [ next "📋 Loading witness from snarkjs..."; with_number "   - Witness elements: " w "" ] ++ decap_lines r ++
  [ line "   ✅ Key recovered from witness"; next "🔓 Step 3: Decrypting message...";
    with_number "   ✅ Decrypted message saved (" (blen (p_message p) - 28) " bytes)";
    next "✨ Decryption complete!" ].

(** A line that begins so was printed. *)
Definition printed (l : list said) (a : text) : Prop := exists m rest, In m l /\ words m = a ++ rest.

(** What main's "Error: " line says of each failure. *)
Definition reported (e : cmd_error) (t : text) : Prop :=
  match e with
  | ELoadR1cs => t = u8 "Failed to load R1CS circuit"
  | EReadSym => t = u8 "Failed to read symbol file"
  | EParseSym => t = u8 "Failed to parse symbol file"
  | EReadInput => t = u8 "Failed to read input JSON file"
  | EParseInput => t = u8 "Failed to parse input JSON"
  | ECreateCircuit => t = u8 "Failed to create circuit"
  | EEncap => exists c, t = u8 "Encap failed: " ++ core_error_text c
  | EWriteCiphertext => t = u8 "Failed to write ciphertext file"
  | EWriteKey => t = u8 "Failed to write key file"
  | ELoadWitness => t = u8 "Failed to load witness file"
  | EConvertWitness => t = u8 "Failed to convert witness to field elements"
  | EReadCiphertext => t = u8 "Failed to read ciphertext file"
  | EDeserialize => t = u8 "Failed to deserialize ciphertext" \/ t = u8 "Failed to deserialize witness ciphertext"
  | EDecap => exists c, t = u8 "Decap failed: " ++ core_error_text c
  | EReadMessage => t = u8 "Failed to read message file"
  | EEncryptMessage => t = u8 "Message encryption failed"
  | EWriteCombined => t = u8 "Failed to write combined ciphertext"
  | EInvalidCiphertext CTooShort => t = u8 "Invalid ciphertext: too short"
  | EInvalidCiphertext CWitnessMismatch => t = u8 "Invalid ciphertext: witness length mismatch"
  | EInvalidCiphertext CMissingPublic => t = u8 "Invalid ciphertext: missing public input length"
  | EInvalidCiphertext CPublicMismatch => t = u8 "Invalid ciphertext: public input length mismatch"
  | EDecryptMessage => t = u8 "Message decryption failed"
  | EWriteOutput => t = u8 "Failed to write decrypted file"
  end.
