(** Model of decap and decrypt of the JavaScript package with the witness calculation inside:
    packages/zkenc-js/src/zkenc.ts:248-266, 405-456 and witness.ts:23-34.  A compiled circuit is a
    [wmodule] (WitnessCalc.v); WebAssembly.compile of its bytes and the one-time initialisation
    (ensureWasmInit) are not part of this model. *)
From Coq Require Import List NArith.
From Coq Require Import Strings.Byte.
From Verif Require Import Res Bytes Text Fld Groups Bn254 Qap Core ArkSer Inputs Combined Gcm JsZkenc WitnessCalc.
Import ListNotations.
Local Open Scope N_scope.
Local Open Scope res_scope.

(** What the promise is rejected with. *)
Inductive js_full_error := FApi (e : js_api_error) | FWitness (e : wc_error).

Section Full.
  Context (E : pairingT Fr) (C : codecT E) (kdf : GT E -> key) (aes : cipherT) (W : N) (fuel : nat).
  (** decap (zkenc.ts:248-266): the witness from the inputs, then wasm_decap. *)
  Definition decap_inputs (m : wmodule) (r1cs ciphertext : list byte) (inputs : list (text * json)) : res js_full_error key :=
    let? witness := rmap_err FWitness (calculate_wtns m inputs) in
    rmap_err FApi (js_decap E C kdf W fuel r1cs witness ciphertext).
  (** decrypt (zkenc.ts:405-456): the file is split before the witness is calculated. *)
  Definition decrypt_inputs (m : wmodule) (r1cs : list byte) (ciphertext : js_bytes) (inputs : list (text * json)) : res js_full_error (list byte) :=
    let? wm := rmap_err (fun e => FApi (ACombined e)) (js_split ciphertext) in
    let? k := decap_inputs m r1cs (fst wm) inputs in
    rmap_err (fun e => FApi (ACrypt e)) (aesGcmDecrypt aes k (snd wm)).
End Full.
