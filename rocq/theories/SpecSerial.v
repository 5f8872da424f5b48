(** Specification vocabulary for C45 and C46: which circuits and witnesses the Rust types can
    hold, and when two of them are the same value. *)
From Coq Require Import List Bool NArith Permutation.
From Coq Require Import Strings.Byte.
From Verif Require Import Bytes Text Utf8 R1cs Inputs Serial.
Import ListNotations.
Local Open Scope N_scope.

Definition is_u32 (n : N) : Prop := n < 2 ^ 32.
Definition fits64 {A} (l : list A) : Prop := N.of_nat (length l) < 2 ^ 64.
(** A String: Unicode scalar values, less than 2^64 bytes of UTF-8. *)
Definition is_string (t : text) : Prop := Forall scalar t /\ fits64 (utf8_encode t).
(** A HashMap<u32, V>: u32 keys, each at most once. *)
Definition is_map {V} (ok : V -> Prop) (m : nmap V) : Prop :=
  NoDup (map fst m) /\ fits64 m /\ Forall (fun kv => is_u32 (fst kv) /\ ok (snd kv)) m.
Definition same_map {V} (m m' : nmap V) : Prop := forall k, nm_get k m = nm_get k m'.

Definition is_lc (l : s_lc) : Prop :=
  fits64 (lc_factors l) /\ Forall (fun f => is_u32 (f_wire_id f) /\ fits64 (f_coefficient_bytes f)) (lc_factors l).
Definition is_constraint (c : s_constraint) : Prop := is_lc (sc_a c) /\ is_lc (sc_b c) /\ is_lc (sc_c c).
Definition is_circuit (c : s_circuit) : Prop :=
  is_u32 (s_field_size c) /\ fits64 (s_prime_bytes c) /\ is_u32 (s_n_wires c) /\ is_u32 (s_n_pub_out c) /\
  is_u32 (s_n_pub_in c) /\ is_u32 (s_n_prv_in c) /\ is_u32 (s_n_constraints c) /\
  fits64 (s_constraints c) /\ Forall is_constraint (s_constraints c) /\
  (forall m, s_wire_labels c = Some m -> is_map is_string m).
Definition is_witness (w : s_witness) : Prop := is_map fits64 (s_assignments w).
Definition is_test_case (t : s_test_case) : Prop :=
  is_circuit (tc_circuit t) /\ is_witness (tc_witness t) /\ is_string (tc_name t) /\
  (forall d, tc_description t = Some d -> is_string d).

(** Equal as Rust values: maps are compared by their content. *)
Definition same_labels (a b : option (nmap text)) : Prop :=
  match a, b with None, None => True | Some m, Some m' => same_map m m' | _, _ => False end.
Definition same_circuit (c d : s_circuit) : Prop :=
  s_field_size c = s_field_size d /\ s_prime_bytes c = s_prime_bytes d /\ s_n_wires c = s_n_wires d /\
  s_n_pub_out c = s_n_pub_out d /\ s_n_pub_in c = s_n_pub_in d /\ s_n_prv_in c = s_n_prv_in d /\
  s_n_constraints c = s_n_constraints d /\ s_constraints c = s_constraints d /\
  same_labels (s_wire_labels c) (s_wire_labels d).
Definition same_test_case (t u : s_test_case) : Prop :=
  same_circuit (tc_circuit t) (tc_circuit u) /\
  same_map (s_assignments (tc_witness t)) (s_assignments (tc_witness u)) /\
  tc_name t = tc_name u /\ tc_description t = tc_description u.

(** The same values with their maps visited in other orders: what serialization may see. *)
Definition reordered_labels (a b : option (nmap text)) : Prop :=
  match a, b with None, None => True | Some m, Some m' => Permutation m m' | _, _ => False end.
Definition reordered (c d : s_circuit) : Prop :=
  exists ls, reordered_labels (s_wire_labels c) ls /\
    d = SCircuit (s_field_size c) (s_prime_bytes c) (s_n_wires c) (s_n_pub_out c) (s_n_pub_in c) (s_n_prv_in c)
                 (s_n_constraints c) (s_constraints c) ls.
Definition reordered_test_case (t u : s_test_case) : Prop :=
  exists c m, reordered (tc_circuit t) c /\ Permutation (s_assignments (tc_witness t)) m /\
    u = STestCase c (SWitness m) (tc_name t) (tc_description t).
