(** Specification for C45: which bytes stand for a circuit, a witness and a test case in the bincode
    format (fixed-width little-endian integers, counts of eight bytes). *)
From Coq Require Import List Bool NArith.
From Coq Require Import Strings.Byte.
From Verif Require Import Bytes Text Utf8 Inputs Serial.
Import ListNotations.
Local Open Scope N_scope.

(** The number [v] in [w] bytes, the least significant first. *)
Fixpoint number_of (bs : list byte) : N := match bs with [] => 0 | b :: bs => Byte.to_N b + 256 * number_of bs end.
Definition bin_uint (w : nat) (bs : list byte) (v : N) : Prop := length bs = w /\ number_of bs = v.
(** A sequence: how many, then one after another. *)
Definition bin_seq {A} (bin : list byte -> A -> Prop) (bs : list byte) (l : list A) : Prop :=
  exists count items, bs = count ++ concat items /\ bin_uint 8 count (N.of_nat (length l)) /\ Forall2 bin items l.
Definition bin_bytes (bs l : list byte) : Prop := exists count, bs = count ++ l /\ bin_uint 8 count (N.of_nat (length l)).
(** A text: the bytes of its UTF-8. *)
Definition bin_text (bs : list byte) (t : text) : Prop := Forall scalar t /\ bin_bytes bs (utf8_encode t).
Definition bin_option {A} (bin : list byte -> A -> Prop) (bs : list byte) (o : option A) : Prop :=
  match o with None => bs = [x00] | Some a => exists r, bs = x01 :: r /\ bin r a end.
Definition bin_pair {A B} (bin : list byte -> A -> Prop) (bin' : list byte -> B -> Prop) (bs : list byte) (p : A * B) : Prop :=
  exists x y, bs = x ++ y /\ bin x (fst p) /\ bin' y (snd p).
(** A map: a sequence of entries; of several with one key the last counts. *)
Definition bin_map {V} (bin : list byte -> V -> Prop) (bs : list byte) (m : nmap V) : Prop :=
  exists l, bin_seq (bin_pair (bin_uint 4) bin) bs l /\ NoDup (map fst m) /\
    forall k x, In (k, x) m <-> exists a b, l = a ++ (k, x) :: b /\ ~ In k (map fst b).

Definition bin_factor (bs : list byte) (f : s_factor) : Prop :=
  exists x y, bs = x ++ y /\ bin_uint 4 x (f_wire_id f) /\ bin_bytes y (f_coefficient_bytes f).
Definition bin_lc (bs : list byte) (l : s_lc) : Prop := bin_seq bin_factor bs (lc_factors l).
Definition bin_constraint (bs : list byte) (c : s_constraint) : Prop :=
  exists x y z, bs = x ++ y ++ z /\ bin_lc x (sc_a c) /\ bin_lc y (sc_b c) /\ bin_lc z (sc_c c).
Definition bin_circuit (bs : list byte) (c : s_circuit) : Prop :=
  exists x1 x2 x3 x4 x5 x6 x7 x8 x9, bs = x1 ++ x2 ++ x3 ++ x4 ++ x5 ++ x6 ++ x7 ++ x8 ++ x9 /\
    bin_uint 4 x1 (s_field_size c) /\ bin_bytes x2 (s_prime_bytes c) /\ bin_uint 4 x3 (s_n_wires c) /\
    bin_uint 4 x4 (s_n_pub_out c) /\ bin_uint 4 x5 (s_n_pub_in c) /\ bin_uint 4 x6 (s_n_prv_in c) /\
    bin_uint 4 x7 (s_n_constraints c) /\ bin_seq bin_constraint x8 (s_constraints c) /\
    bin_option (bin_map bin_text) x9 (s_wire_labels c).
Definition bin_witness (bs : list byte) (w : s_witness) : Prop := bin_map bin_bytes bs (s_assignments w).
Definition bin_test_case (bs : list byte) (t : s_test_case) : Prop :=
  exists x1 x2 x3 x4, bs = x1 ++ x2 ++ x3 ++ x4 /\ bin_circuit x1 (tc_circuit t) /\ bin_witness x2 (tc_witness t) /\
    bin_text x3 (tc_name t) /\ bin_option bin_text x4 (tc_description t).
