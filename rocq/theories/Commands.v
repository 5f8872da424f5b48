(** Model of the four commands of packages/zkenc-cli/src/commands.rs:23-404, in a release build.
    Parameters: the curve, its encoding, the key hash, the block cipher, the JSON text parser
    (serde_json::from_str), the largest seek offset; the random draws; the orders in which the two
    hash maps are visited. *)
From Coq Require Import List Bool NArith ZArith Permutation.
From Coq Require Import Strings.Byte.
From Verif Require Import Res Bytes Text Utf8 Fld Groups Bn254 Qap Core R1cs Wtns Circuit ArkSer Sym Inputs Combined Gcm FileSys.
Import ListNotations.
Local Open Scope N_scope.

(** What the commands report, by their context strings. *)
Inductive cmd_error :=
| ELoadR1cs | EReadSym | EParseSym | EReadInput | EParseInput | ECreateCircuit | EEncap
| EWriteCiphertext | EWriteKey
| ELoadWitness | EConvertWitness | EReadCiphertext | EDeserialize | EDecap
| EReadMessage | EEncryptMessage | EWriteCombined
| EInvalidCiphertext (e : cli_comb_error) | EDecryptMessage | EWriteOutput.

(** What OsRng gives: the scalars of encap and the nonce of encrypt_gcm. *)
Record coins := Coins { c_alpha : Fr; c_beta : Fr; c_delta : Fr; c_r : Fr; c_x : Fr; c_nonce : list byte }.

(** The orders in which HashMap::iter visits the symbol map and the input map. *)
Record visits := Visits {
  visit_syms : hmap N -> hmap N;
  visit_inputs : hmap Fr -> hmap Fr;
  visit_syms_ok : forall m, Permutation m (visit_syms m);
  visit_inputs_ok : forall m, Permutation m (visit_inputs m) }.

Section Commands.
  Context (E : pairingT Fr) (C : codecT E) (D : domainT Fr) (kdf : GT E -> key) (aes : cipherT)
          (json_parse : text -> option json) (max_off : N).

  (** R1csFile::from_file (r1cs.rs:96-173): commands.rs:31, 66, 107, 139, 167, 201, 359, 378. *)
  Definition load_r1cs (p : path) (e : cmd_error) (k : r1cs_file -> cmd cmd_error) : cmd cmd_error :=
    Read p (fun c => try_opt c e (fun b => try_ (r1cs_from_bytes max_off b) (fun _ => e) k)).
  (** fs::read_to_string: commands.rs:40, 47, 176, 183. *)
  Definition read_string (p : path) (e : cmd_error) (k : text -> cmd cmd_error) : cmd cmd_error :=
    Read p (fun c => try_opt c e (fun b => try_opt (utf8_decode b) e k)).
  (** parse_circuit_inputs_with_keys (commands.rs:456-504) on the text. *)
  Definition parse_inputs_text (t : text) : res input_error (hmap Fr) :=
    match json_parse t with Some doc => parse_inputs_with_keys doc | None => Err NotAnObject end.

  (** The common beginning of encap_command (commands.rs:30-67) and encrypt_command
      (commands.rs:166-202): the JSON text and the circuit with its partial witness. *)
  Definition prepare (v : visits) (circuit_path sym_path input_path : path)
             (k : text -> circom -> cmd cmd_error) : cmd cmd_error :=
    load_r1cs circuit_path ELoadR1cs (fun r1cs =>
    read_string sym_path EReadSym (fun sym_content =>
    try_ (parse_sym_file sym_content) (fun _ => EParseSym) (fun wire_map =>
    let input_signals := get_input_signals (visit_syms v wire_map) (Some (r_n_pub_in r1cs)) in
    read_string input_path EReadInput (fun input_json =>
    try_ (parse_inputs_text input_json) (fun _ => EParseInput) (fun inputs =>
    let witness := cli_witness input_signals (visit_inputs v inputs) in
    load_r1cs circuit_path ECreateCircuit (fun r1cs' =>
    k input_json (circom_of_cli r1cs' (fun w => nm_get w witness)))))))).

  Definition run_encap (co : coins) (c : circom) : res core_error (ciphertext Fr E * key) :=
    encap_with D kdf (circom_prog c) (c_alpha co) (c_beta co) (c_delta co) (c_r co) (c_x co).

  (** encap_command (commands.rs:23-96). *)
  Definition encap_command (v : visits) (co : coins)
             (circuit_path sym_path input_path ciphertext_path key_path : path) : cmd cmd_error :=
    prepare v circuit_path sym_path input_path (fun _ circuit =>
    try_ (run_encap co circuit) (fun _ => EEncap) (fun '(ct, k) =>
    write_ ciphertext_path (ct_bytes C ct) EWriteCiphertext (
    write_ key_path (key_bytes k) EWriteKey (
    Ret (Ok tt))))).

  (** The witness map of to_field_elements (witness.rs:123-137): element i for wire i. *)
  Definition witness_of (vals : list Fr) (w : N) : option Fr := nth_error vals (N.to_nat w).
  (** WitnessFile::from_file then to_field_elements (commands.rs:115-125, 366-374). *)
  Definition load_witness (p : path) (k : list Fr -> cmd cmd_error) : cmd cmd_error :=
    Read p (fun c => try_opt c ELoadWitness (fun b =>
    try_ (wtns_from_bytes b) (fun _ => ELoadWitness) (fun f =>
    try_ (to_field_elements f) (fun _ => EConvertWitness) k))).

  (** decap_command (commands.rs:99-153). *)
  Definition decap_command (circuit_path witness_path ciphertext_path key_path : path) : cmd cmd_error :=
    load_r1cs circuit_path ELoadR1cs (fun _ =>
    load_witness witness_path (fun witness =>
    Read ciphertext_path (fun c => try_opt c EReadCiphertext (fun ciphertext_bytes =>
    try_opt (ct_deserialize C ciphertext_bytes) EDeserialize (fun '(ct, _) =>
    load_r1cs circuit_path ECreateCircuit (fun r1cs =>
    try_ (decap kdf (circom_prog (circom_of_cli r1cs (witness_of witness))) ct) (fun _ => EDecap) (fun k =>
    write_ key_path (key_bytes k) EWriteKey (
    Ret (Ok tt))))))))).

  (** encrypt_command (commands.rs:157-283); input_json.as_bytes() is the text encoded again. *)
  Definition encrypt_command (v : visits) (co : coins)
             (circuit_path sym_path input_path message_path output_path : path)
             (include_public_input : bool) : cmd cmd_error :=
    prepare v circuit_path sym_path input_path (fun input_json circuit =>
    try_ (run_encap co circuit) (fun _ => EEncap) (fun '(ct, k) =>
    let witness_ct_bytes := ct_bytes C ct in
    Read message_path (fun c => try_opt c EReadMessage (fun message =>
    try_ (encrypt_gcm aes k (c_nonce co) message) (fun _ => EEncryptMessage) (fun encrypted_message =>
    write_ output_path
      (cli_combine include_public_input witness_ct_bytes (utf8_encode input_json) encrypted_message)
      EWriteCombined (
    Ret (Ok tt))))))).

  (** decrypt_command (commands.rs:287-404). *)
  Definition decrypt_command (circuit_path witness_path ciphertext_path output_path : path) : cmd cmd_error :=
    Read ciphertext_path (fun c => try_opt c EReadCiphertext (fun combined =>
    try_ (cli_split combined) EInvalidCiphertext (fun p =>
    load_r1cs circuit_path ELoadR1cs (fun _ =>
    load_witness witness_path (fun witness =>
    try_opt (ct_deserialize C (p_witness p)) EDeserialize (fun '(ct, _) =>
    load_r1cs circuit_path ECreateCircuit (fun r1cs =>
    try_ (decap kdf (circom_prog (circom_of_cli r1cs (witness_of witness))) ct) (fun _ => EDecap) (fun k =>
    try_ (decrypt_gcm aes k (p_message p)) (fun _ => EDecryptMessage) (fun plaintext =>
    write_ output_path plaintext EWriteOutput (
    Ret (Ok tt))))))))))).
End Commands.
Arguments encap_command {E}. Arguments decap_command {E}. Arguments encrypt_command {E}. Arguments decrypt_command {E}.
