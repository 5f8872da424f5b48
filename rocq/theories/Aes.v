(** AES-256 (FIPS 197), the block cipher that crypto.rs (Aes256Gcm, Aes256Ctr; lines 1-10) and
    crypto.ts (Web Crypto AES-GCM with a 256-bit key) get from their libraries.  The mode theorems
    hold for any block cipher; this one makes them concrete and lets the published vectors check
    the model of GCM and CTR. *)
From Coq Require Import List Bool Arith NArith.
From Coq Require Import Strings.Byte.
From Verif Require Import Res Bytes Gcm.
Import ListNotations.
Local Open Scope N_scope.

(** GF(2^8) with x^8 + x^4 + x^3 + x + 1. *)
Definition xtime (a : N) : N := let b := 2 * a in if 256 <=? b then N.lxor (b - 256) 27 else b.
Fixpoint gmul_loop (fuel : nat) (a b acc : N) : N :=
  match fuel with O => acc | S f => gmul_loop f (xtime a) (b / 2) (if N.odd b then N.lxor acc a else acc) end.
Definition gmul (a b : N) : N := gmul_loop 8 a b 0.
Definition ginv (a : N) : N := (* a^254 *)
  fold_left (fun acc _ => gmul acc a) (seq 0 253) a.
Definition rotl8 (a : N) (k : N) : N := (N.shiftl a k + N.shiftr a (8 - k)) mod 256.
Definition sub_byte (a : N) : N :=
  let b := ginv a in
  N.lxor (N.lxor (N.lxor (N.lxor (N.lxor b (rotl8 b 1)) (rotl8 b 2)) (rotl8 b 3)) (rotl8 b 4)) 99.
Definition sbox : list N := Eval vm_compute in map (fun n => sub_byte (N.of_nat n)) (seq 0 256).
Definition sb (a : N) : N := nth (N.to_nat a) sbox 0.

(** Key expansion: 60 words of four bytes. *)
Definition word := list N.
Definition wxor (a b : word) : word := map (fun i => N.lxor (nth i a 0) (nth i b 0)) (seq 0 4).
Definition rcon (i : nat) : N := Nat.iter (i - 1) xtime 1.
(** [ws] holds the words so far, last first. *)
Fixpoint expand (fuel : nat) (i : nat) (ws : list word) : list word :=
  match fuel with
  | O => ws
  | S f =>
      let temp := nth 0 ws [] in
      let t := if Nat.eqb (i mod 8) 0 then
                 let r := [nth 1 temp 0; nth 2 temp 0; nth 3 temp 0; nth 0 temp 0] in
                 wxor (map sb r) [rcon (i / 8); 0; 0; 0]
               else if Nat.eqb (i mod 8) 4 then map sb temp else temp in
      expand f (S i) (wxor (nth 7 ws []) t :: ws)
  end.
Definition key_words (key : list byte) : list word :=
  let k := map Byte.to_N key in
  let first := map (fun i => map (fun j => nth (4 * i + j) k 0) (seq 0 4)) (seq 0 8) in
  rev (expand 52 8 (rev first)).

Definition add_round_key (ws : list word) (round : nat) (s : list N) : list N :=
  map (fun i => N.lxor (nth i s 0) (nth (i mod 4) (nth (4 * round + i / 4) ws []) 0)) (seq 0 16).
Definition shift_rows (s : list N) : list N :=
  map (fun i => nth (i mod 4 + 4 * ((i / 4 + i mod 4) mod 4)) s 0) (seq 0 16).
Definition mix_columns (s : list N) : list N :=
  map (fun i => let c := (4 * (i / 4))%nat in
    let at_ k := nth (c + (i + k) mod 4) s 0 in
    N.lxor (N.lxor (gmul 2 (at_ 0%nat)) (gmul 3 (at_ 1%nat))) (N.lxor (at_ 2%nat) (at_ 3%nat))) (seq 0 16).
Definition aes_round (ws : list word) (s : list N) (round : nat) : list N :=
  add_round_key ws round (mix_columns (shift_rows (map sb s))).
Definition aes256_encrypt (key block : list byte) : list byte :=
  let ws := key_words key in
  let s := add_round_key ws 0 (map Byte.to_N block) in
  let s := fold_left (aes_round ws) (seq 1 13) s in
  map byte_of (add_round_key ws 14 (shift_rows (map sb s))).

Lemma aes256_length k b : length (aes256_encrypt k b) = 16%nat.
Proof. unfold aes256_encrypt. rewrite map_length. unfold add_round_key. rewrite map_length. apply seq_length. Qed.

(** The cipher the code uses. *)
Definition aes256 : cipherT := CipherT aes256_encrypt aes256_length.

(** FIPS 197 appendix C.3. *)
Example fips197_c3 :
  aes256_encrypt (map (fun n => byte_of (N.of_nat n)) (seq 0 32)) (map (fun n => byte_of (17 * N.of_nat n)) (seq 0 16))
  = be_bytes 16 0x8ea2b7ca516745bfeafc49904b496089.
Proof. vm_compute. reflexivity. Qed.

(** GCM test cases 13, 14 (McGrew and Viega): zero key, zero nonce, no data and sixteen zero bytes. *)
Example gcm_case_13 :
  encrypt_gcm aes256 (repeat x00 32) (repeat x00 12) []
  = Ok (repeat x00 12 ++ be_bytes 16 0x530f8afbc74536b9a963b4f1c4cb738b).
Proof. vm_compute. reflexivity. Qed.
Example gcm_case_14 :
  encrypt_gcm aes256 (repeat x00 32) (repeat x00 12) (repeat x00 16)
  = Ok (repeat x00 12 ++ be_bytes 16 0xcea7403d4d606b6e074ec5d3baf39d18 ++ be_bytes 16 0xd0d1c8a799996bf0265b98b5d48ab919).
Proof. vm_compute. reflexivity. Qed.
(** Test case 15: four blocks. *)
Example gcm_case_15 :
  encrypt_gcm aes256
    (be_bytes 16 0xfeffe9928665731c6d6a8f9467308308 ++ be_bytes 16 0xfeffe9928665731c6d6a8f9467308308)
    (be_bytes 12 0xcafebabefacedbaddecaf888)
    (be_bytes 16 0xd9313225f88406e5a55909c5aff5269a ++ be_bytes 16 0x86a7a9531534f7da2e4c303d8a318a72
     ++ be_bytes 16 0x1c3c0c95956809532fcf0e2449a6b525 ++ be_bytes 16 0xb16aedf5aa0de657ba637b391aafd255)
  = Ok (be_bytes 12 0xcafebabefacedbaddecaf888
     ++ be_bytes 16 0x522dc1f099567d07f47f37a32a84427d ++ be_bytes 16 0x643a8cdcbfe5c0c97598a2bd2555d1aa
     ++ be_bytes 16 0x8cb08e48590dbb3da7b08b1056828838 ++ be_bytes 16 0xc5f61e6393ba7a0abcc9f662898015ad
     ++ be_bytes 16 0xb094dac5d93471bdec1a502270e3cc6c).
Proof. vm_compute. reflexivity. Qed.
(** SP 800-38A F.5.5, first block of AES-256 in counter mode. *)
Example ctr_f55 :
  encrypt_ctr aes256
    (be_bytes 16 0x603deb1015ca71be2b73aef0857d7781 ++ be_bytes 16 0x1f352c073b6108d72d9810a30914dff4)
    (be_bytes 16 0xf0f1f2f3f4f5f6f7f8f9fafbfcfdfeff)
    (be_bytes 16 0x6bc1bee22e409f96e93d7e117393172a)
  = Ok (be_bytes 16 0xf0f1f2f3f4f5f6f7f8f9fafbfcfdfeff ++ be_bytes 16 0x601ec313775789a5b7a7f504bbf3d228).
Proof. vm_compute. reflexivity. Qed.
