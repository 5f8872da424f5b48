(** Specification: which byte strings the command-line witness reader accepts. *)
From Coq Require Import List Bool Arith NArith ZArith Lia.
From Coq Require Import Strings.Byte.
From Verif Require Import Bytes SpecR1cs SpecWtns.
Import ListNotations.
Local Open Scope N_scope.

(** The bytes of one section as the reader takes them: the length field of a header section can
    be anything; of any other section it must be the number of bytes, below 2^63. *)
Inductive wsec_enc : wsec -> list byte -> Prop :=
| enc_header p n len : blen p < 2 ^ 32 -> n < 2 ^ 32 -> len < 2 ^ 64 ->
    wsec_enc (WHeader p n) (u32 1 ++ u64 len ++ u32 (blen p) ++ p ++ u32 n)
| enc_data d : blen d < 2 ^ 63 -> wsec_enc (WData d) (u32 2 ++ u64 (blen d) ++ d)
| enc_other ty pl : ty <> 1 -> ty <> 2 -> ty < 2 ^ 32 -> blen pl < 2 ^ 63 ->
    wsec_enc (WOther ty pl) (u32 ty ++ u64 (blen pl) ++ pl).

(** The file announces [n] sections and begins with the sections [secs], then [after]. *)
Definition begins_with (file : list byte) (n : N) (secs : list wsec) (after : list byte) : Prop :=
  n < 2 ^ 32 /\ exists encs, Forall2 wsec_enc secs encs /\
    starts_with file (ascii_wtns ++ u32 2 ++ u32 n ++ concat encs ++ after).

(** All announced sections are there. *)
Definition has_sections (file : list byte) (secs : list wsec) : Prop :=
  begins_with file (N.of_nat (length secs)) secs [].

(** The file holds the witness [vals] under the prime [prime]: the last header and the last
    data section count. *)
Definition wtns_holds (file : list byte) (prime : list byte) (n : N) (vals : list (list byte)) : Prop :=
  exists secs, has_sections file secs /\ last_header secs = (prime, n) /\ prime <> [] /\
    last_data secs <> [] /\ elements (blen prime) (last_data secs) vals /\ N.of_nat (length vals) = n.
