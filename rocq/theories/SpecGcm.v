(** AES-GCM and AES-CTR in NIST's terms, byte by byte, over any block cipher.  Independent of the
    loops in Gcm.v, except for the exclusive or of two bytes and the field multiplication
    (specified in SpecGhash.v). *)
From Coq Require Import List Arith NArith.
From Coq Require Import Strings.Byte.
From Verif Require Import Bytes Gcm.
Import ListNotations.
Local Open Scope N_scope.

(** Byte [i] of the key stream when block [j] of the stream is the encryption of [block j]. *)
Definition stream_byte (aes : cipherT) (key : list byte) (block : N -> list byte) (i : nat) : byte :=
  nth (i mod 16) (aes key (block (N.of_nat (i / 16)))) x00.

(** [c] is [m] masked with that key stream. *)
Definition masked (aes : cipherT) (key : list byte) (block : N -> list byte) (m c : list byte) : Prop :=
  length c = length m /\
  forall i, (i < length m)%nat -> nth i c x00 = bxor (nth i m x00) (stream_byte aes key block i).

(** GCM: block j of the stream encrypts nonce || (j + 2) in 32 bits, most significant byte first. *)
Definition gcm_masked (aes : cipherT) (key nonce : list byte) : list byte -> list byte -> Prop :=
  masked aes key (fun j => nonce ++ be_bytes 4 (j + 2)).

(** CTR: block j encrypts the iv read as two 64-bit words, the second one increased by j. *)
Definition ctr_masked (aes : cipherT) (key iv : list byte) : list byte -> list byte -> Prop :=
  masked aes key (fun j => firstn 8 iv ++ be_bytes 8 (be_val (skipn 8 iv) + j)).

(** The 16-byte blocks of [c], the last padded with zeros, then the block of bit lengths. *)
Definition block_of (c : list byte) (i : nat) : N :=
  be_val (map (fun k => nth (16 * i + k) c x00) (seq 0 16)).
Definition block_count (c : list byte) : nat := ((length c + 15) / 16)%nat.
Definition ghash_blocks (c : list byte) : list N :=
  map (block_of c) (seq 0 (block_count c)) ++ [8 * blen c].
(** GHASH is Horner's rule over these blocks, and the tag masks it with the first key-stream block. *)
Definition spec_tag (aes : cipherT) (key nonce c : list byte) : list byte :=
  let h := be_val (aes key (repeat x00 16)) in
  let s := fold_left (fun acc b => gf_mul (N.lxor acc b) h) (ghash_blocks c) 0 in
  map (fun i => bxor (nth i (be_bytes 16 s) x00) (nth i (aes key (nonce ++ be_bytes 4 1)) x00)) (seq 0 16).

(** Largest message the 32-bit block counter of GCM can mask. *)
Definition gcm_limit : N := 2 ^ 36 - 32.
