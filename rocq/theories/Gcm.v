(** Model of packages/zkenc-cli/src/crypto.rs and packages/zkenc-js/src/crypto.ts.
    The crates aes, aes-gcm, ctr and the Web Crypto API are external: AES-256 is a parameter (any
    function from a key and a block to a 16-byte block), GCM and CTR are written out as those
    libraries run them, chunk by chunk with a running counter.  Randomness (nonce, iv) is an
    argument. *)
From Coq Require Import List Bool Arith NArith.
From Coq Require Import Strings.Byte.
From Verif Require Import Res Bytes.
Import ListNotations.
Local Open Scope N_scope.

Definition bxor (a b : byte) : byte := byte_of (N.lxor (Byte.to_N a) (Byte.to_N b)).
Fixpoint xor_bytes (a b : list byte) : list byte :=
  match a, b with x :: a, y :: b => bxor x y :: xor_bytes a b | _, _ => [] end.

(** A block cipher with 16-byte blocks: aes::Aes256. *)
Record cipherT := CipherT {
  enc_block :> list byte -> list byte -> list byte;
  enc_block_len : forall k b, length (enc_block k b) = 16%nat
}.

(** ** GHASH: multiplication in GF(2^128) with the bit order of GCM (most significant bit first). *)
Definition gcm_r : N := N.shiftl 225 120.
Fixpoint gf_mul_loop (fuel : nat) (x z v : N) : N :=
  match fuel with
  | O => z
  | S i => gf_mul_loop i x (if N.testbit x (N.of_nat i) then N.lxor z v else z)
             (if N.testbit v 0 then N.lxor (N.shiftr v 1) gcm_r else N.shiftr v 1)
  end.
Definition gf_mul (x y : N) : N := gf_mul_loop 128 x 0 y.
(** One step of GHASH per 16-byte chunk, the last one padded with zeros. *)
Fixpoint ghash_chunks (fuel : nat) (h acc : N) (data : list byte) : N :=
  match fuel, data with
  | O, _ => acc
  | _, [] => acc
  | S fuel, _ =>
      let chunk := firstn 16 (firstn 16 data ++ repeat x00 16) in
      ghash_chunks fuel h (gf_mul (N.lxor acc (be_val chunk)) h) (skipn 16 data)
  end.
Definition ghash (h : N) (c : list byte) : N :=
  let acc := ghash_chunks (length c) h 0 c in
  (* no associated data: 64-bit lengths of nothing and of the ciphertext, in bits *)
  gf_mul (N.lxor acc (be_val (be_bytes 8 0 ++ be_bytes 8 (8 * blen c)))) h.

Section Modes.
  Context (aes : cipherT).

  (** Counter mode: [next] is the counter block for the current chunk. *)
  Fixpoint ctr_loop (fuel : nat) (key : list byte) (block_at : N -> list byte) (i : N) (data : list byte) : list byte :=
    match fuel, data with
    | O, _ => []
    | _, [] => []
    | S fuel, _ => xor_bytes (firstn 16 data) (aes key (block_at i)) ++ ctr_loop fuel key block_at (i + 1) (skipn 16 data)
    end.
  Definition apply_keystream (key : list byte) (block_at : N -> list byte) (i : N) (data : list byte) : list byte :=
    ctr_loop (length data) key block_at i data.

  (** Ctr32BE of aes-gcm: nonce then a 32-bit counter; block 1 masks the tag, data from block 2. *)
  Definition gcm_block (nonce : list byte) (i : N) : list byte := nonce ++ be_bytes 4 i.
  Definition gcm_tag (key nonce c : list byte) : list byte :=
    let h := be_val (aes key (repeat x00 16)) in
    xor_bytes (be_bytes 16 (ghash h c)) (aes key (gcm_block nonce 1)).

  Inductive crypt_error := BadKeyLength | DataTooShort | CipherError.

  (** Limits of aes-gcm 0.10: P_MAX = 2^36 bytes of plaintext, C_MAX = 2^36 + 16; the 32-bit block
      counter behind them runs out at 2^32 - 1 blocks, one of which masks the tag, and
      apply_keystream_partial then panics. *)
  Definition p_max : N := 2 ^ 36.
  Definition c_max : N := 2 ^ 36 + 16.
  Definition ctr32_max : N := 2 ^ 36 - 32.
  Definition keystream32 (key nonce data : list byte) : res crypt_error (list byte) :=
    if ctr32_max <? blen data then Panic else Ok (apply_keystream key (gcm_block nonce) 2 data).

  (** encrypt_gcm (crypto.rs:25-47), [nonce] being what OsRng gives. *)
  Definition encrypt_gcm (key nonce plaintext : list byte) : res crypt_error (list byte) :=
    if negb (Nat.eqb (length key) 32) then Err BadKeyLength
    else if p_max <? blen plaintext then Err CipherError
    else
      rbind (keystream32 key nonce plaintext) (fun c =>
      Ok (nonce ++ (c ++ gcm_tag key nonce c))).

  Definition bytes_eq (a b : list byte) : bool := if list_eq_dec Byte.byte_eq_dec a b then true else false.

  (** decrypt_gcm (crypto.rs:57-86). *)
  Definition decrypt_gcm (key data : list byte) : res crypt_error (list byte) :=
    if negb (Nat.eqb (length key) 32) then Err BadKeyLength
    else if Nat.ltb (length data) 28 then Err DataTooShort
    else
      let nonce := firstn 12 data in
      let ciphertext := skipn 12 data in
      (* aead: the tag is the last 16 bytes *)
      let n := (length ciphertext - 16)%nat in
      let c := firstn n ciphertext in
      let tag := skipn n ciphertext in
      if c_max <? blen c then Err CipherError
      else if bytes_eq (gcm_tag key nonce c) tag then keystream32 key nonce c
      else Err CipherError.

  (** aesGcmEncrypt (crypto.ts:12-49), [nonce] being what getRandomValues gives.  Web Crypto refuses
      more than 2^39 - 256 bits. *)
  Definition aesGcmEncrypt (key nonce data : list byte) : res crypt_error (list byte) :=
    if negb (Nat.eqb (length key) 32) then Err BadKeyLength
    else if ctr32_max <? blen data then Err CipherError
    else
      let c := apply_keystream key (gcm_block nonce) 2 data in
      let encrypted := c ++ gcm_tag key nonce c in
      Ok (nonce ++ encrypted).

  (** aesGcmDecrypt (crypto.ts:58-99): every failure of subtle.decrypt becomes one error. *)
  Definition aesGcmDecrypt (key encrypted : list byte) : res crypt_error (list byte) :=
    if negb (Nat.eqb (length key) 32) then Err BadKeyLength
    else if Nat.ltb (length encrypted) (12 + 16) then Err DataTooShort
    else
      let nonce := firstn 12 encrypted in
      let ciphertext := skipn 12 encrypted in
      let n := (length ciphertext - 16)%nat in
      let tag := skipn n ciphertext in
      let actual := firstn n ciphertext in
      if ctr32_max <? blen actual then Err CipherError
      else if bytes_eq (gcm_tag key nonce actual) tag then Ok (apply_keystream key (gcm_block nonce) 2 actual)
      else Err CipherError.

  (** Ctr64BE: the last eight bytes of the iv are a counter modulo 2^64. *)
  Definition ctr_block (iv : list byte) (i : N) : list byte :=
    firstn 8 iv ++ be_bytes 8 (be_val (skipn 8 iv) + i).

  (** encrypt_ctr (crypto.rs:102-125) with the iv drawn from thread_rng. *)
  Definition encrypt_ctr (key iv plaintext : list byte) : res crypt_error (list byte) :=
    if negb (Nat.eqb (length key) 32) then Err BadKeyLength
    else Ok (iv ++ apply_keystream key (ctr_block iv) 0 plaintext).
  (** decrypt_ctr (crypto.rs:135-160). *)
  Definition decrypt_ctr (key data : list byte) : res crypt_error (list byte) :=
    if negb (Nat.eqb (length key) 32) then Err BadKeyLength
    else if Nat.ltb (length data) 16 then Err DataTooShort
    else
      let iv := firstn 16 data in
      let ciphertext := skipn 16 data in
      Ok (apply_keystream key (ctr_block iv) 0 ciphertext).
End Modes.
