(** Model of the JavaScript API: packages/zkenc-js/src/zkenc.ts:81-227, 248-266, 309-380, 405-456
    and the two WASM entry points it calls, packages/zkenc-js/src/lib.rs:384-487.
    A rejected promise is [Err], a WASM trap (a Rust panic) is [Panic].  Parameters: as in
    Commands.v, and JSON.stringify with TextEncoder; what calculateWitness returns is an argument
    here (the calculator's own code is modelled in WitnessCalc.v).  [W] is 2^(pointer width) of the
    WASM target; [fuel] bounds the iterations of the witness reader's loop (Wtns.v). *)
From Coq Require Import List Bool NArith ZArith.
From Coq Require Import Strings.Byte.
From Verif Require Import Res Bytes Text Fld Groups Bn254 Qap Core R1cs R1csJs Wtns Circuit ArkSer Sym Inputs Combined Gcm Commands.
Import ListNotations.
Local Open Scope N_scope.
Local Open Scope res_scope.

(** bigIntToLeBytes32 (zkenc.ts:219-227): [n] times, the low byte, then a shift by eight bits
    (arithmetic: negative numbers are infinite two's complement). *)
Fixpoint bigint_le_bytes (n : nat) (v : Z) : list byte :=
  match n with
  | O => []
  | S n => byte_of (Z.to_N (Z.land v 255)) :: bigint_le_bytes n (Z.shiftr v 8)
  end.
Definition bigint_to_le32 (v : Z) : list byte := bigint_le_bytes 32 v.

(** The literal of zkenc.ts:144-146. *)
Definition js_prime : Z := 21888242871839275222246405745257275088548364400416034343698204186575808495617%Z.

(** The loop over the values (zkenc.ts:207-211). *)
Fixpoint write_values (buf : list byte) (offset : N) (witness : list Z) : res js_comb_error (list byte) :=
  match witness with
  | [] => Ok buf
  | v :: witness =>
      let? buf := js_write buf offset (bigint_to_le32 v) in
      write_values buf (offset + 32) witness
  end.
(** serializeWitnessSimple (zkenc.ts:142-214).  setUint32 and setBigUint64 keep the low bits, as
    [le_bytes] does. *)
Definition serialize_witness (witness : list Z) : res js_comb_error (list byte) :=
  let header_size := 4 + 32 + 4 in
  let data_size := N.of_nat (length witness) * 32 in
  let total := 4 + 4 + 4 + 4 + 8 + header_size + 4 + 8 + data_size in
  let buf := repeat x00 (N.to_nat total) in
  let offset := 0 in
  let? buf := js_write buf offset [x77] in
  let offset := offset + 1 in
  let? buf := js_write buf offset [x74] in
  let offset := offset + 1 in
  let? buf := js_write buf offset [x6e] in
  let offset := offset + 1 in
  let? buf := js_write buf offset [x73] in
  let offset := offset + 1 in
  let? buf := js_write buf offset (le_bytes 4 2) in
  let offset := offset + 4 in
  let? buf := js_write buf offset (le_bytes 4 2) in
  let offset := offset + 4 in
  let? buf := js_write buf offset (le_bytes 4 1) in
  let offset := offset + 4 in
  let? buf := js_write buf offset (le_bytes 8 header_size) in
  let offset := offset + 8 in
  let? buf := js_write buf offset (le_bytes 4 32) in
  let offset := offset + 4 in
  let? buf := js_write buf offset (bigint_to_le32 js_prime) in
  let offset := offset + 32 in
  let? buf := js_write buf offset (le_bytes 4 (N.of_nat (length witness))) in
  let offset := offset + 4 in
  let? buf := js_write buf offset (le_bytes 4 2) in
  let offset := offset + 4 in
  let? buf := js_write buf offset (le_bytes 8 data_size) in
  let offset := offset + 8 in
  write_values buf offset witness.

(** What the promise is rejected with. *)
Inductive js_api_error :=
| AInput (e : js_throw) | ACombined (e : js_comb_error)
| AR1cs (e : js_error) | AWitness (e : js_error) | AEncap (e : core_error)
| ASizeMismatch | ADeserialize | ADecap (e : core_error) | ACrypt (e : crypt_error).

Section Api.
  Context (E : pairingT Fr) (C : codecT E) (D : domainT Fr) (kdf : GT E -> key) (aes : cipherT)
          (stringify : list (text * json) -> list byte) (W : N) (fuel : nat).

  (** wasm_encap (lib.rs:384-432); the scalars stand for StdRng::from_seed of the random seed. *)
  Definition wasm_encap (co : coins) (r1cs witness : list byte) : res js_api_error (list byte * key) :=
    let? hc := rmap_err AR1cs (js_parse_r1cs W r1cs) in
    let '(header, constraints) := hc in
    let? values := rmap_err AWitness (js_parse_witness W witness fuel) in
    let n_pub := js_n_public header in
    let map i := if (i <=? n_pub) && (i <? N.of_nat (length values)) then nth_error values (N.to_nat i) else None in
    let? ck := rmap_err AEncap (run_encap E D kdf co (circom_of_js header constraints map)) in
    Ok (ct_bytes C (fst ck), snd ck).

  (** wasm_decap (lib.rs:444-487). *)
  Definition wasm_decap (r1cs witness ciphertext : list byte) : res js_api_error key :=
    let? hc := rmap_err AR1cs (js_parse_r1cs W r1cs) in
    let '(header, constraints) := hc in
    let? values := rmap_err AWitness (js_parse_witness W witness fuel) in
    if negb (N.of_nat (length values) =? j_n_wires header) then Err ASizeMismatch
    else
      let? ct := of_option ADeserialize (ct_deserialize C ciphertext) in
      rmap_err ADecap (decap kdf (circom_prog (circom_of_js header constraints (fun i => nth_error values (N.to_nat i)))) (fst ct)).

  (** encap (zkenc.ts:81-122). *)
  Definition js_encap (co : coins) (r1cs : list byte) (sym : text) (inputs : list (text * json))
    : res js_api_error (list byte * key) :=
    let signals := get_input_signals (js_parse_sym_file sym) None in
    let? wires := rmap_err AInput (js_map_inputs inputs signals) in
    let? witness := rmap_err AInput (js_witness_array wires) in
    let? bytes := rmap_err ACombined (serialize_witness witness) in
    wasm_encap co r1cs bytes.

  (** encrypt (zkenc.ts:309-380): the combined ciphertext and the key. *)
  Definition js_encrypt (co : coins) (r1cs : list byte) (sym : text) (inputs : list (text * json))
             (message : list byte) (include_public_input : bool) : res js_api_error (list byte * key) :=
    let? ck := js_encap co r1cs sym inputs in
    let? encrypted := rmap_err ACrypt (aesGcmEncrypt aes (snd ck) (c_nonce co) message) in
    let? combined := rmap_err ACombined (js_combine include_public_input (fst ck) (stringify inputs) encrypted) in
    Ok (combined, snd ck).

  (** decap (zkenc.ts:248-266) and decrypt (zkenc.ts:405-456); [witness] is the result of
      calculateWitness. *)
  Definition js_decap (r1cs witness ciphertext : list byte) : res js_api_error key :=
    wasm_decap r1cs witness ciphertext.
  Definition js_decrypt (r1cs witness : list byte) (ciphertext : js_bytes) : res js_api_error (list byte) :=
    let? wm := rmap_err ACombined (js_split ciphertext) in
    let? k := js_decap r1cs witness (fst wm) in
    rmap_err ACrypt (aesGcmDecrypt aes k (snd wm)).
End Api.
