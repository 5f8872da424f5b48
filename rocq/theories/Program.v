(** The zkenc program as it is built: main.rs with the primitives of its dependencies put in for the
    parameters of Main.v. *)
From Coq Require Import List NArith.
From Coq Require Import Strings.Byte.
From Verif Require Import Text Fld Groups Bn254 Qap Core ArkSer Inputs JsonText Gcm Aes SpecBlake3 FileSys Commands CliArgs Main.

(** packages/zkenc-cli/src/main.rs:95-138 with: the keys by BLAKE3 of the serialised secret
    (algorithm.rs:200-208, 359-366), AES-256-GCM (crypto.rs:1-5, 25-45), serde_json (commands.rs:457), and the
    evaluation domains of the BN254 scalar field (r1cs_to_qap.rs:78-86).  Left open: the pairing groups
    ([E]), the encodings of their elements ([C], [enc]), the largest file offset [max_off], which number
    tokens serde_json finds too large ([huge]), its feature preserve_order, and debug or release. *)
Definition zkenc {E : pairingT Fr} (C : codecT E) (enc : GT E -> list byte) (huge : text -> bool) (preserve_order : bool) (max_off : N)
    (debug : bool) (v : visits) (co : coins) (args : list text) : cmd main_error :=
  main C bn_domain (blake3_key enc) aes256 (serde_parse huge preserve_order) max_off debug v co args.
