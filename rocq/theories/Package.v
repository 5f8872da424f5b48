(** The zkenc-js package as it is built: JsZkenc.v and JsFull.v with the primitives of its dependencies
    put in for their parameters. *)
From Coq Require Import List NArith.
From Coq Require Import Strings.Byte.
From Verif Require Import Res Bytes Text Fld Groups Bn254 Qap Core ArkSer Inputs JsNumber JsonText Combined Gcm Aes SpecBlake3 Commands JsZkenc WitnessCalc JsFull.
Local Open Scope N_scope.

(** packages/zkenc-js/src/zkenc.ts:81-122, 248-266, 309-380, 405-456, 500-531 with: a WebAssembly module of
    32-bit addresses (lib.rs:384-487, compiled for wasm32), the keys by BLAKE3 of the serialised secret
    (algorithm.rs:200-208, 359-366), AES-256-GCM (crypto.ts:12-99), JSON.stringify and JSON.parse with
    TextEncoder and TextDecoder (zkenc.ts:330-333, 520-523), and the evaluation domains of the BN254 scalar
    field (r1cs_to_qap.rs:78-86).  Left open: the pairing groups ([E]), the encodings of their elements
    ([C], [enc]), how JSON.parse rounds number tokens ([round]) and what TextDecoder makes of bytes that
    are no UTF-8 ([lossy]). *)
Definition addresses : N := 2 ^ 32.
(** A bound for the steps of the witness reader's loop (lib.rs:281-289), which no witness file the
    package writes in that memory comes near: not a limit of the code. *)
Definition loop_steps : nat := N.to_nat addresses.

Section Package.
  Context {E : pairingT Fr} (C : codecT E) (enc : GT E -> list byte).
  Definition package_encap (co : coins) (r1cs : list byte) (sym : text) (inputs : list (text * json)) : res js_api_error (list byte * key) :=
    js_encap E C bn_domain (blake3_key enc) addresses loop_steps co r1cs sym inputs.
  Definition package_encrypt (co : coins) (r1cs : list byte) (sym : text) (inputs : list (text * json)) (message : list byte) (include : bool)
    : res js_api_error (list byte * key) :=
    js_encrypt E C bn_domain (blake3_key enc) aes256 public_json addresses loop_steps co r1cs sym inputs message include.
  (** [m] is the circuit's compiled witness generator. *)
  Definition package_decap (m : wmodule) (r1cs ciphertext : list byte) (inputs : list (text * json)) : res js_full_error key :=
    decap_inputs E C (blake3_key enc) addresses loop_steps m r1cs ciphertext inputs.
  Definition package_decrypt (m : wmodule) (r1cs : list byte) (ciphertext : js_bytes) (inputs : list (text * json)) : res js_full_error (list byte) :=
    decrypt_inputs E C (blake3_key enc) aes256 addresses loop_steps m r1cs ciphertext inputs.
End Package.
Definition package_public_input (round : text -> json) (lossy : list byte -> text) (ciphertext : js_bytes) : res js_comb_error json :=
  get_public_input (text_decode lossy) (js_json_parse round) ciphertext.
