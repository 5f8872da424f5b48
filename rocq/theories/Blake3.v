(** BLAKE3 in hash mode (the blake3 crate: blake3::hash), with which encap and decap turn the
    serialised pairing value into the key: algorithm.rs:200-208, 359-366.  The library's code is not
    part of the repository; this is the function its specification gives.  The theorems about encap
    and decap hold for any hash; this one makes the key derivation concrete. *)
From Coq Require Import List Bool Arith NArith Lia.
From Coq Require Import Strings.Byte.
From Verif Require Import Bytes.
Import ListNotations.
Local Open Scope N_scope.

(** 32-bit words. *)
Definition w32 (a : N) : N := a mod 2 ^ 32.
Definition rotr32 (a : N) (k : N) : N := N.lor (N.shiftr a k) (w32 (N.shiftl a (32 - k))).
Definition iv3 : list N :=
  [0x6A09E667; 0xBB67AE85; 0x3C6EF372; 0xA54FF53A; 0x510E527F; 0x9B05688C; 0x1F83D9AB; 0x5BE0CD19].
Definition msg_permutation : list nat := [2; 6; 3; 10; 7; 0; 4; 13; 1; 11; 12; 5; 9; 14; 15; 8]%nat.
Definition chunk_start := 1.
Definition chunk_end := 2.
Definition parent_flag := 4.
Definition root_flag := 8.

Fixpoint set_at (i : nat) (v : N) (l : list N) : list N :=
  match l, i with
  | [], _ => []
  | _ :: l, O => v :: l
  | a :: l, S i => a :: set_at i v l
  end.
Definition at3 (s : list N) (i : nat) : N := nth i s 0.

(** The quarter round. *)
Definition mix3 (s : list N) (ia ib ic id : nat) (mx my : N) : list N :=
  let a := w32 (at3 s ia + at3 s ib + mx) in
  let d := rotr32 (N.lxor (at3 s id) a) 16 in
  let c := w32 (at3 s ic + d) in
  let b := rotr32 (N.lxor (at3 s ib) c) 12 in
  let a := w32 (a + b + my) in
  let d := rotr32 (N.lxor d a) 8 in
  let c := w32 (c + d) in
  let b := rotr32 (N.lxor b c) 7 in
  set_at id d (set_at ic c (set_at ib b (set_at ia a s))).
Definition round3 (s m : list N) : list N :=
  let w := at3 m in
  let s := mix3 s 0 4 8 12 (w 0%nat) (w 1%nat) in
  let s := mix3 s 1 5 9 13 (w 2%nat) (w 3%nat) in
  let s := mix3 s 2 6 10 14 (w 4%nat) (w 5%nat) in
  let s := mix3 s 3 7 11 15 (w 6%nat) (w 7%nat) in
  let s := mix3 s 0 5 10 15 (w 8%nat) (w 9%nat) in
  let s := mix3 s 1 6 11 12 (w 10%nat) (w 11%nat) in
  let s := mix3 s 2 7 8 13 (w 12%nat) (w 13%nat) in
  mix3 s 3 4 9 14 (w 14%nat) (w 15%nat).
Definition permute3 (m : list N) : list N := map (at3 m) msg_permutation.
Fixpoint rounds3 (n : nat) (s m : list N) : list N :=
  match n with
  | O => s
  | S O => round3 s m
  | S n => rounds3 n (round3 s m) (permute3 m)
  end.
(** The compression function; only its first eight output words are used by a 32-byte hash. *)
Definition compress3 (cv block : list N) (counter len flags : N) : list N :=
  let s := rounds3 7 (firstn 8 cv ++ firstn 4 iv3 ++ [counter mod 2 ^ 32; (counter / 2 ^ 32) mod 2 ^ 32; len; flags]) block in
  map (fun i => N.lxor (at3 s i) (at3 s (i + 8))) (seq 0 8).

(** A node before its compression: it is compressed with the root flag if it is the root. *)
Record node3 := Node3 { n_cv : list N; n_block : list N; n_counter : N; n_len : N; n_flags : N }.
Definition cv_of (n : node3) : list N := compress3 (n_cv n) (n_block n) (n_counter n) (n_len n) (n_flags n).
Definition root_bytes (n : node3) : list byte :=
  flat_map (le_bytes 4) (compress3 (n_cv n) (n_block n) 0 (n_len n) (N.lor (n_flags n) root_flag)).

(** The words of a block, filled with zeros to 64 bytes. *)
Definition words3 (b : list byte) : list N :=
  let b := b ++ repeat x00 (64 - length b) in
  map (fun i => le_val (firstn 4 (skipn (4 * i) b))) (seq 0 16).
(** A chunk of at most 1024 bytes: its blocks are chained, the last one is the node. *)
Fixpoint chunk_loop (fuel : nat) (cv : list N) (counter start : N) (b : list byte) : node3 :=
  match fuel with
  | S f =>
      if Nat.ltb 64 (length b)
      then chunk_loop f (compress3 cv (words3 (firstn 64 b)) counter 64 start) counter 0 (skipn 64 b)
      else Node3 cv (words3 b) counter (N.of_nat (length b)) (N.lor start chunk_end)
  | O => Node3 cv (words3 b) counter (N.of_nat (length b)) (N.lor start chunk_end)
  end.
Definition chunk_node (counter : N) (b : list byte) : node3 := chunk_loop 16 iv3 counter chunk_start b.
Definition parent_node (l r : node3) : node3 := Node3 iv3 (cv_of l ++ cv_of r) 0 64 parent_flag.

(** The length of the left subtree of an input of [len] > 1024 bytes: the largest 1024 * 2^k below [len]. *)
Definition left_len (len : nat) : nat := (1024 * 2 ^ Nat.log2 ((len - 1) / 1024))%nat.
Fixpoint tree3 (fuel : nat) (counter : N) (b : list byte) : node3 :=
  match fuel with
  | S f =>
      if Nat.ltb 1024 (length b)
      then let k := left_len (length b) in
           parent_node (tree3 f counter (firstn k b)) (tree3 f (counter + N.of_nat (k / 1024)) (skipn k b))
      else chunk_node counter b
  | O => chunk_node counter b
  end.
Definition blake3 (b : list byte) : list byte := root_bytes (tree3 (length b) 0 b).
