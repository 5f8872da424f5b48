(** What the zkenc program prints: the four commands of Commands.v again, with their println! and
    eprintln! calls and with the message each failure is reported with. *)
From Coq Require Import List Bool NArith ZArith.
From Coq Require Import Strings.String Strings.Byte.
From Verif Require Import Res Bytes Text Utf8 Fld Groups Bn254 CS Qap Core R1cs Wtns Circuit ArkSer Sym Inputs Combined Gcm
  FileSys Commands CliArgs.
Import ListNotations.
Local Open Scope string_scope.
Local Open Scope list_scope.
Local Open Scope N_scope.

(** A string literal of the source, which is a UTF-8 file. *)
Definition u8 (s : string) : text := match utf8_decode (list_byte_of_string s) with Some t => t | None => [] end.
(** The "{}" of an unsigned integer. *)
Definition num (n : nat) : text := dec_text (N.of_nat n).

Inductive stream := Stdout | Stderr.
(** One println! or eprintln!: the text before the newline it adds. *)
Record said := Said { to : stream; words : text }.
Definition out (t : text) : said := Said Stdout t.
Definition err (t : text) : said := Said Stderr t.

(** A failure with the text that main's "Error: {:?}" begins with: the outermost context, or the whole
    message of an anyhow! and bail!.  The "Caused by:" lines that can follow are not modelled. *)
Definition failure : Type := cmd_error * text.

(** FileSys.cmd with printing. *)
Inductive talk :=
| TEnd (r : res failure unit)
| TSay (m : said) (k : talk)
| TRead (p : path) (k : option (list byte) -> talk)
| TWrite (p : path) (b : list byte) (k : bool -> talk).
Fixpoint says (l : list said) (k : talk) : talk := match l with [] => k | m :: l => TSay m (says l k) end.
Definition ttry {E' A} (x : res E' A) (f : E' -> failure) (k : A -> talk) : talk :=
  match x with Ok a => k a | Err e => TEnd (Err (f e)) | Panic => TEnd Panic end.
Definition ttry_opt {A} (x : option A) (e : failure) (k : A -> talk) : talk :=
  match x with Some a => k a | None => TEnd (Err e) end.
Definition twrite (p : path) (b : list byte) (e : failure) (k : talk) : talk :=
  TWrite p b (fun ok => if ok then k else TEnd (Err e)).

(** An undisturbed run: the files afterwards, what was printed, the result. *)
Fixpoint hear (c : talk) (s : fsys) : fsys * list said * res failure unit :=
  match c with
  | TEnd r => (s, [], r)
  | TSay m k => let '(s', l, r) := hear k s in (s', m :: l, r)
  | TRead p k => hear (k (s p)) s
  | TWrite p b k => hear (k true) (fs_write p b s)
  end.
(** Every possible execution, as FileSys.exec; println! panics when the stream is gone. *)
Inductive texec : talk -> fsys -> fsys -> list said -> outcome failure -> Prop :=
| tx_end r s : texec (TEnd r) s s [] (Finished r)
| tx_killed c s : texec c s s [] Killed
| tx_say m k s s' l o : texec k s s' l o -> texec (TSay m k) s s' (m :: l) o
| tx_say_fails m k s : texec (TSay m k) s s [] (Finished Panic)
| tx_read p k s s' l o : texec (k (s p)) s s' l o -> texec (TRead p k) s s' l o
| tx_read_fails p k s s' l o : texec (k None) s s' l o -> texec (TRead p k) s s' l o
| tx_write p b k s s' l o : texec (k true) (fs_write p b s) s' l o -> texec (TWrite p b k) s s' l o
| tx_write_fails p b k s s' l o : texec (k false) s s' l o -> texec (TWrite p b k) s s' l o
| tx_write_short p b n k s s' l o : texec (k false) (fs_write p (firstn n b) s) s' l o -> texec (TWrite p b k) s s' l o
| tx_write_killed p b n k s : texec (TWrite p b k) s (fs_write p (firstn n b) s) [] Killed.

(** String::from_utf8_lossy (commands.rs:347): what is no UTF-8 becomes U+FFFD, one for each longest
    piece that could begin a character.  Standard library code (core::str::lossy). *)
Fixpoint lossy_fuel (fuel : nat) (bs : list byte) : text :=
  match fuel with
  | O => []
  | S fuel =>
    match bs with
    | [] => []
    | b0 :: r =>
      if in_range 0 127 b0 then Byte.to_N b0 :: lossy_fuel fuel r
      else if in_range 194 223 b0 then
        match r with
        | b1 :: r' => if cont b1 then ((Byte.to_N b0 - 192) * 64 + low6 b1) :: lossy_fuel fuel r' else 65533 :: lossy_fuel fuel r
        | [] => [65533]
        end
      else if in_range 224 239 b0 then
        match r with
        | b1 :: r' =>
          if in_range (if Byte.to_N b0 =? 224 then 160 else 128) (if Byte.to_N b0 =? 237 then 159 else 191) b1 then
            match r' with
            | b2 :: r'' => if cont b2 then (((Byte.to_N b0 - 224) * 64 + low6 b1) * 64 + low6 b2) :: lossy_fuel fuel r''
                           else 65533 :: lossy_fuel fuel r'
            | [] => [65533]
            end
          else 65533 :: lossy_fuel fuel r
        | [] => [65533]
        end
      else if in_range 240 244 b0 then
        match r with
        | b1 :: r' =>
          if in_range (if Byte.to_N b0 =? 240 then 144 else 128) (if Byte.to_N b0 =? 244 then 143 else 191) b1 then
            match r' with
            | b2 :: r'' =>
              if cont b2 then
                match r'' with
                | b3 :: r3 =>
                  if cont b3 then ((((Byte.to_N b0 - 240) * 64 + low6 b1) * 64 + low6 b2) * 64 + low6 b3) :: lossy_fuel fuel r3
                  else 65533 :: lossy_fuel fuel r''
                | [] => [65533]
                end
              else 65533 :: lossy_fuel fuel r'
            | [] => [65533]
            end
          else 65533 :: lossy_fuel fuel r
        | [] => [65533]
        end
      else 65533 :: lossy_fuel fuel r
    end
  end.
Definition from_utf8_lossy (bs : list byte) : text := lossy_fuel (List.length bs) bs.

(** ** zkenc-core, built with its feature std (packages/zkenc-cli/Cargo.toml:20) *)

(** {:?} of ark_relations' SynthesisError; circom circuits end with AssignmentMissing only. *)
Definition serr_text (e : serr) : text := match e with AssignmentMissing => u8 "AssignmentMissing" | SOther _ => u8 "Unknown" end.
(** {:?} of zkenc_core::Error (derived, algorithm.rs:16): the String inside is quoted. *)
Definition core_error_text (e : core_error) : text :=
  match e with
  | SynthesisError e => u8 "SynthesisError(""" ++ serr_text e ++ u8 """)"
  | InvalidWitness => u8 "InvalidWitness"
  | InvalidPublicInputs => u8 "InvalidPublicInputs"
  | SerializationError => u8 "SerializationError"
  end.

Section CoreOut.
  Context {F : fieldT} {E : pairingT F} (D : domainT F) (kdf : GT E -> key).

  (** encap (algorithm.rs:47-216) with its println! calls: 54, 64, 71, 93, 103, 110, 141, 160, 213.
      Line 86 is for constraint systems without assignments, which encap never sets up. *)
  Definition encap_out (circuit : prog F) (alpha beta delta r x : F) : list said * res core_error (ciphertext F E * key) :=
    let '(cs, e) := synth circuit cs_new in
    let l1 := [out (u8 "🔐 Starting Encap...")] ++
              (match e with
               | Some e => [out (u8 "  ⚠ Circuit synthesis error (expected for encap without witness): " ++ serr_text e)]
               | None => [] end) ++
              [out (u8 "  ✓ Circuit setup: " ++ num (List.length (rows cs)) ++ u8 " constraints, " ++ num (num_variables cs) ++ u8 " variables")] in
    match inst cs with
    | [] => (l1, Panic)
    | _ :: pub =>
      let l2 := l1 ++ [out (u8 "  ✓ Extracted " ++ num (List.length pub) ++ u8 " public inputs");
                       out (u8 "  ✓ Sampled random parameters (α, β, δ, r, x)");
                       out (u8 "  ⏳ Evaluating QAP polynomials at x...")] in
      let '(u, v, w) := evaluate_qap D cs x in
      match crs_loop E (seq 0 (num_variables cs)) alpha beta delta r u v w with
      | Err e => (l2, Err e)
      | Panic => (l2, Panic)
      | Ok (qu, qv, qp) =>
        let l3 := l2 ++ [out (u8 "  ✓ Generated CRS with " ++ num (num_variables cs) ++ u8 " query elements");
                         out (u8 "  ⏳ Computing pairing for key derivation...")] in
        let ek := EncapKey (smul alpha (g1 E)) (smul beta (g2 E)) (smul delta (g2 E)) qu qv qp [] in
        let '(bs, ss) := collect qp 1 pub in
        let '(bases, scalars) := match qp with [] => (bs, ss) | p0 :: _ => (p0 :: bs, f1 :: ss) end in
        match (match bases with [] => Some (madd (g1 E) (mopp (g1 E))) | _ => msm bases scalars end) with
        | None => (l3, Err SerializationError)
        | Some phi_sum =>
          let s := madd (pair E (alpha_g1 ek) (beta_g2 ek)) (pair E phi_sum (g2 E)) in
          (l3 ++ [out (u8 "  ✓ Derived key from pairing")], Ok (Ciphertext ek pub, kdf s))
        end
      end
    end.

  (** The loop of algorithm.rs:274-281 with the index line 278 prints: [None]: out of range;
      [Some None]: all equal. *)
  Fixpoint mismatch (full : list F) (i : nat) (expected : list F) : option (option nat) :=
    match expected with
    | [] => Some None
    | e :: es => match nth_error full (i + 1) with
                 | Some a => if feqb a e then mismatch full (S i) es else Some (Some i)
                 | None => None
                 end
    end.

  (** decap (algorithm.rs:226-374) with its println! and eprintln! calls: 232, 243, 248, 265, 278, 285,
      308, 331, 351, 371. *)
  Definition decap_out (circuit : prog F) (ct : ciphertext F E) : list said * res core_error key :=
    let l0 := [out (u8 "🔓 Starting Decap...")] in
    let '(cs, e) := synth circuit cs_new in
    match e with
    | Some e => (l0, Err (SynthesisError e))
    | None =>
      match is_satisfied cs with
      | None => (l0, Panic)
      | Some false => (l0 ++ [err (u8 "  ✗ Circuit constraints not satisfied!")], Err InvalidWitness)
      | Some true =>
        let full := inst cs ++ wit cs in
        let l1 := l0 ++ [out (u8 "  ✓ Circuit synthesized and satisfied");
                         out (u8 "  ✓ Extracted full assignment: " ++ num (List.length full) ++ u8 " values")] in
        if Nat.ltb (List.length full) (1 + List.length (public_inputs ct)) then (l1, Err InvalidPublicInputs)
        else match mismatch full 0 (public_inputs ct) with
        | None => (l1, Panic)
        | Some (Some i) => (l1 ++ [err (u8 "  ✗ Public input mismatch at index " ++ num i)], Err InvalidPublicInputs)
        | Some None =>
          let ek := ct_key ct in
          let l2 := l1 ++ [out (u8 "  ⏳ Computing A from witness and CRS...")] in
          let '(ab, as_) := collect (r_u_query_g1 ek) 0 full in
          match ab with
          | [] => (l2, Err InvalidWitness)
          | _ =>
            match msm ab as_ with
            | None => (l2, Err SerializationError)
            | Some a_sum =>
              let a_point := madd (alpha_g1 ek) a_sum in
              let l3 := l2 ++ [out (u8 "  ⏳ Computing B from witness and CRS...")] in
              let '(bb, bs) := collect (r_v_query_g2 ek) 0 full in
              match bb with
              | [] => (l3, Err InvalidWitness)
              | _ =>
                match msm bb bs with
                | None => (l3, Err SerializationError)
                | Some b_sum =>
                  let b_point := madd (beta_g2 ek) b_sum in
                  let l4 := l3 ++ [out (u8 "  ⏳ Computing C from witness and CRS...")] in
                  let '(cb, cs_) := collect (phi_delta_query_g1 ek) 0 full in
                  match cb with
                  | [] => (l4, Err InvalidWitness)
                  | _ =>
                    match msm cb cs_ with
                    | None => (l4, Err SerializationError)
                    | Some c_point =>
                      let s := madd (pair E a_point b_point) (mopp (pair E c_point (delta_g2 ek))) in
                      (l4 ++ [out (u8 "  ⏳ Computing pairing for key recovery..."); out (u8 "  ✓ Successfully recovered key")], Ok (kdf s))
                    end
                  end
                end
              end
            end
          end
        end
      end
    end.
End CoreOut.

(** ** The commands *)
Section Printing.
  Context (E : pairingT Fr) (C : codecT E) (D : domainT Fr) (kdf : GT E -> key) (aes : cipherT)
          (json_parse : text -> option json) (max_off : N).

  Definition t_load_r1cs (p : path) (e : failure) (k : r1cs_file -> talk) : talk :=
    TRead p (fun c => ttry_opt c e (fun b => ttry (r1cs_from_bytes max_off b) (fun _ => e) k)).
  Definition t_read_string (p : path) (e : failure) (k : text -> talk) : talk :=
    TRead p (fun c => ttry_opt c e (fun b => ttry_opt (utf8_decode b) e k)).
  (** commands.rs:33-35, 108-110, 170-172; 362-363 without the last. *)
  Definition header_lines (r : r1cs_file) : list said :=
    [ out (u8 "   - Constraints: " ++ dec_text (r_n_constraints r));
      out (u8 "   - Public inputs: " ++ dec_text (r_n_pub_in r));
      out (u8 "   - Wires: " ++ dec_text (r_n_wires r)) ].

  (** The common beginning of encap_command (commands.rs:30-67) and encrypt_command
      (commands.rs:167-202); [before]: what line 64 prints, in encap_command only. *)
  Definition t_prepare (v : visits) (circuit_path sym_path input_path : path) (before : list said)
             (k : text -> circom -> talk) : talk :=
    TSay (out (u8 "📂 Loading R1CS circuit..."))
    (t_load_r1cs circuit_path (ELoadR1cs, u8 "Failed to load R1CS circuit") (fun r1cs =>
    says (header_lines r1cs ++ [out (10 :: u8 "📂 Loading symbol file...")])
    (t_read_string sym_path (EReadSym, u8 "Failed to read symbol file") (fun sym_content =>
    ttry (parse_sym_file sym_content) (fun _ => (EParseSym, u8 "Failed to parse symbol file")) (fun wire_map =>
    let input_signals := get_input_signals (visit_syms v wire_map) (Some (r_n_pub_in r1cs)) in
    TSay (out (10 :: u8 "📋 Loading public inputs from JSON..."))
    (t_read_string input_path (EReadInput, u8 "Failed to read input JSON file") (fun input_json =>
    ttry (parse_inputs_text json_parse input_json) (fun _ => (EParseInput, u8 "Failed to parse input JSON")) (fun inputs =>
    TSay (out (u8 "   - Parsed " ++ num (List.length inputs) ++ u8 " field elements"))
    (let witness := cli_witness input_signals (visit_inputs v inputs) in
    says before
    (t_load_r1cs circuit_path (ECreateCircuit, u8 "Failed to create circuit") (fun r1cs' =>
    k input_json (circom_of_cli r1cs' (fun w => nm_get w witness))))))))))))).

  Definition t_run_encap (co : coins) (c : circom) (k : ciphertext Fr E * key -> talk) : talk :=
    let '(l, r) := encap_out D kdf (circom_prog c) (c_alpha co) (c_beta co) (c_delta co) (c_r co) (c_x co) in
    says l (ttry r (fun e => (EEncap, u8 "Encap failed: " ++ core_error_text e)) k).
  Definition t_run_decap (c : circom) (ct : ciphertext Fr E) (k : key -> talk) : talk :=
    let '(l, r) := decap_out kdf (circom_prog c) ct in
    says l (ttry r (fun e => (EDecap, u8 "Decap failed: " ++ core_error_text e)) k).

  (** encap_command (commands.rs:23-96). *)
  Definition encap_talk (v : visits) (co : coins) (circuit_path sym_path input_path ciphertext_path key_path : path) : talk :=
    t_prepare v circuit_path sym_path input_path [out (10 :: u8 "🔐 Running Encap...")] (fun _ circuit =>
    t_run_encap co circuit (fun '(ct, k) =>
    let ciphertext_bytes := ct_bytes C ct in
    TSay (out (10 :: u8 "💾 Saving ciphertext..."))
    (twrite ciphertext_path ciphertext_bytes (EWriteCiphertext, u8 "Failed to write ciphertext file")
    (says [out (u8 "   ✅ Ciphertext saved (" ++ num (List.length ciphertext_bytes) ++ u8 " bytes)");
           out (10 :: u8 "🔑 Saving key...")]
    (twrite key_path (key_bytes k) (EWriteKey, u8 "Failed to write key file")
    (TSay (out (u8 "   ✅ Key saved (" ++ num (List.length (key_bytes k)) ++ u8 " bytes)"))
    (TEnd (Ok tt)))))))).

  (** WitnessFile::from_file then to_field_elements (commands.rs:113-122, 366-375). *)
  Definition t_load_witness (p : path) (k : list Fr -> talk) : talk :=
    TSay (out (10 :: u8 "📋 Loading witness from snarkjs..."))
    (TRead p (fun c => ttry_opt c (ELoadWitness, u8 "Failed to load witness file") (fun b =>
    ttry (wtns_from_bytes b) (fun _ => (ELoadWitness, u8 "Failed to load witness file")) (fun f =>
    TSay (out (u8 "   - Witness elements: " ++ dec_text (wf_n f)))
    (ttry (to_field_elements f) (fun _ => (EConvertWitness, u8 "Failed to convert witness to field elements")) k))))).

  (** decap_command (commands.rs:99-153). *)
  Definition decap_talk (circuit_path witness_path ciphertext_path key_path : path) : talk :=
    TSay (out (u8 "📂 Loading R1CS circuit..."))
    (t_load_r1cs circuit_path (ELoadR1cs, u8 "Failed to load R1CS circuit") (fun r1cs =>
    says (header_lines r1cs)
    (t_load_witness witness_path (fun witness =>
    TSay (out (10 :: u8 "📦 Loading ciphertext..."))
    (TRead ciphertext_path (fun c => ttry_opt c (EReadCiphertext, u8 "Failed to read ciphertext file") (fun ciphertext_bytes =>
    ttry_opt (ct_deserialize C ciphertext_bytes) (EDeserialize, u8 "Failed to deserialize ciphertext") (fun '(ct, _) =>
    says [out (u8 "   - Ciphertext size: " ++ num (List.length ciphertext_bytes) ++ u8 " bytes");
          out (10 :: u8 "🔓 Running Decap...")]
    (t_load_r1cs circuit_path (ECreateCircuit, u8 "Failed to create circuit") (fun r1cs' =>
    t_run_decap (circom_of_cli r1cs' (witness_of witness)) ct (fun k =>
    TSay (out (10 :: u8 "🔑 Saving recovered key..."))
    (twrite key_path (key_bytes k) (EWriteKey, u8 "Failed to write key file")
    (TSay (out (u8 "   ✅ Key saved (" ++ num (List.length (key_bytes k)) ++ u8 " bytes)"))
    (TEnd (Ok tt))))))))))))))).

  (** encrypt_command (commands.rs:157-283). *)
  Definition encrypt_talk (v : visits) (co : coins) (circuit_path sym_path input_path message_path output_path : path)
             (include_public_input : bool) : talk :=
    TSay (out (u8 "🔐 Step 1: Running Encap..."))
    (t_prepare v circuit_path sym_path input_path [] (fun input_json circuit =>
    t_run_encap co circuit (fun '(ct, k) =>
    let witness_ct_bytes := ct_bytes C ct in
    says [out (u8 "   ✅ Witness ciphertext generated (" ++ num (List.length witness_ct_bytes) ++ u8 " bytes)");
          out (10 :: u8 "� Step 2: Encrypting message...")]
    (TRead message_path (fun c => ttry_opt c (EReadMessage, u8 "Failed to read message file") (fun message =>
    TSay (out (u8 "   - Message size: " ++ num (List.length message) ++ u8 " bytes"))
    (ttry (encrypt_gcm aes k (c_nonce co) message) (fun _ => (EEncryptMessage, u8 "Message encryption failed")) (fun encrypted_message =>
    let combined := cli_combine include_public_input witness_ct_bytes (utf8_encode input_json) encrypted_message in
    says [out (u8 "   ✅ Message encrypted (" ++ num (List.length encrypted_message) ++ u8 " bytes)");
          out (10 :: u8 "� Step 3: Creating combined ciphertext...")]
    (twrite output_path combined (EWriteCombined, u8 "Failed to write combined ciphertext")
    (says [out (u8 "   ✅ Combined ciphertext saved (" ++ num (List.length combined) ++ u8 " bytes)");
           out (10 :: if include_public_input
                      then u8 "✨ Encryption complete! Public inputs are embedded in the ciphertext."
                      else u8 "✨ Encryption complete! Remember to share the public inputs separately.")]
    (TEnd (Ok tt)))))))))))).

  (** The bail! texts of commands.rs:298, 317, 330, 342. *)
  Definition comb_error_text (e : cli_comb_error) : text :=
    match e with
    | CTooShort => u8 "Invalid ciphertext: too short"
    | CWitnessMismatch => u8 "Invalid ciphertext: witness length mismatch"
    | CMissingPublic => u8 "Invalid ciphertext: missing public input length"
    | CPublicMismatch => u8 "Invalid ciphertext: public input length mismatch"
    end.
  (** What decrypt_command prints of the combined file while it splits it (commands.rs:324-325, 348, 355):
      the first byte and the number in the next four, then the public input, then the message's length. *)
  Definition split_lines (combined : list byte) : list said :=
    let first := [ out (u8 "   - Flag: " ++ dec_text (Byte.to_N (hd x00 combined)));
                   out (u8 "   - Witness ciphertext: " ++ dec_text (be_val (firstn 4 (tl combined))) ++ u8 " bytes") ] in
    match cli_split combined with
    | Err CTooShort | Err CWitnessMismatch | Panic => []
    | Err CMissingPublic | Err CPublicMismatch => first
    | Ok p =>
      first ++ (match p_public p with Some b => [out (u8 "   - Public input: " ++ from_utf8_lossy b)] | None => [] end) ++
      [out (u8 "   - Encrypted message: " ++ num (List.length (p_message p)) ++ u8 " bytes")]
    end.

  (** decrypt_command (commands.rs:287-404). *)
  Definition decrypt_talk (circuit_path witness_path ciphertext_path output_path : path) : talk :=
    TSay (out (u8 "� Step 1: Parsing combined ciphertext..."))
    (TRead ciphertext_path (fun c => ttry_opt c (EReadCiphertext, u8 "Failed to read ciphertext file") (fun combined =>
    says (split_lines combined)
    (ttry (cli_split combined) (fun e => (EInvalidCiphertext e, comb_error_text e)) (fun p =>
    says [out (10 :: u8 "🔓 Step 2: Running Decap..."); out (u8 "📂 Loading R1CS circuit...")]
    (t_load_r1cs circuit_path (ELoadR1cs, u8 "Failed to load R1CS circuit") (fun r1cs =>
    says (firstn 2 (header_lines r1cs))
    (t_load_witness witness_path (fun witness =>
    ttry_opt (ct_deserialize C (p_witness p)) (EDeserialize, u8 "Failed to deserialize witness ciphertext") (fun '(ct, _) =>
    t_load_r1cs circuit_path (ECreateCircuit, u8 "Failed to create circuit") (fun r1cs' =>
    t_run_decap (circom_of_cli r1cs' (witness_of witness)) ct (fun k =>
    says [out (u8 "   ✅ Key recovered from witness"); out (10 :: u8 "🔓 Step 3: Decrypting message...")]
    (ttry (decrypt_gcm aes k (p_message p)) (fun _ => (EDecryptMessage, u8 "Message decryption failed")) (fun plaintext =>
    twrite output_path plaintext (EWriteOutput, u8 "Failed to write decrypted file")
    (says [out (u8 "   ✅ Decrypted message saved (" ++ num (List.length plaintext) ++ u8 " bytes)");
           out (10 :: u8 "✨ Decryption complete!")]
    (TEnd (Ok tt))))))))))))))))).

  (** main.rs:97-135. *)
  Definition dispatch_talk (v : visits) (co : coins) (r : request) : talk :=
    match r with
    | DoEncap circuit sym input ciphertext key => encap_talk v co circuit sym input ciphertext key
    | DoDecap circuit witness ciphertext key => decap_talk circuit witness ciphertext key
    | DoEncrypt circuit sym input message output include_public_input =>
        encrypt_talk v co circuit sym input message output include_public_input
    | DoDecrypt circuit witness ciphertext output => decrypt_talk circuit witness ciphertext output
    end.
End Printing.
Arguments dispatch_talk {E}.
Arguments encap_talk {E}. Arguments decap_talk {E}. Arguments encrypt_talk {E}. Arguments decrypt_talk {E}.
Arguments t_run_encap {E}. Arguments t_run_decap {E}.

(** What a terminal that shows both streams receives: each text and its newline. *)
Definition shown (l : list said) : text := flat_map (fun m => words m ++ [10]) l.
