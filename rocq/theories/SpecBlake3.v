(** Specification vocabulary for C74: the BLAKE3 hash as a tree over the input, without the recursion
    of Blake3.v (the compression function, the words of a block and the encoding of the result are
    shared).  algorithm.rs:200-208, 359-366 hash with blake3::hash. *)
From Coq Require Import List Arith NArith.
From Coq Require Import Strings.Byte.
From Verif Require Import Bytes Blake3.
Import ListNotations.
Local Open Scope N_scope.

(** Chaining over full blocks of 64 bytes: [chain first cv bs cv' first'] leads from [cv] to [cv'];
    only the first block of the chunk carries the start flag. *)
Inductive chain (counter : N) : N -> list N -> list (list byte) -> N -> list N -> Prop :=
| chain_nil f cv : chain counter f cv [] f cv
| chain_cons f cv b bs f' cv' :
    length b = 64%nat -> chain counter 0 (compress3 cv (words3 b) counter 64 f) bs f' cv' ->
    chain counter f cv (b :: bs) f' cv'.

(** A chunk: at most 1024 bytes, cut into full blocks and a last block, which is empty only if the
    chunk is; the last block is the node of the chunk and carries the end flag. *)
Inductive chunk (counter : N) (b : list byte) : node3 -> Prop :=
| chunk_intro bs last f cv :
    (length b <= 1024)%nat -> b = concat bs ++ last -> (length last <= 64)%nat -> (last = [] -> bs = []) ->
    chain counter chunk_start iv3 bs f cv ->
    chunk counter b (Node3 cv (words3 last) counter (N.of_nat (length last)) (f + chunk_end)).

(** The tree: more than 1024 bytes are split so that the left part is a complete subtree (a power of
    two of chunks) and the right part is not empty and not longer. *)
Inductive subtree : N -> list byte -> node3 -> Prop :=
| subtree_chunk counter b n : chunk counter b n -> subtree counter b n
| subtree_parent counter l r k nl nr :
    length l = (1024 * 2 ^ k)%nat -> r <> [] -> (length r <= length l)%nat ->
    subtree counter l nl -> subtree (counter + 2 ^ N.of_nat k) r nr ->
    subtree counter (l ++ r) (parent_node nl nr).

Definition is_blake3 (b h : list byte) : Prop := exists n, subtree 0 b n /\ h = root_bytes n.

(** The key derivation of encap and decap: the hash of the serialised pairing value.  [enc] is
    ark-serialize's compressed encoding of the target group (algorithm.rs:200-208, 359-366). *)
Definition blake3_key {T : Type} (enc : T -> list byte) (s : T) : list byte := blake3 (enc s).
