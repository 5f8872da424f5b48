(** Specification for C62: what a JSON value says about a circuit, a witness and a test case. *)
From Coq Require Import List Bool NArith ZArith.
From Coq Require Import Strings.String Strings.Byte.
From Verif Require Import Bytes Text Inputs Serial JsonText SpecJson.
Import ListNotations.
Local Open Scope N_scope.

(** The one member of an object with a name, if there is one. *)
Definition the_member (kvs : list (text * json)) (name : text) (o : option json) : Prop :=
  match o with
  | None => ~ In name (map fst kvs)
  | Some v => exists a b, kvs = a ++ (name, v) :: b /\ ~ In name (map fst (a ++ b))
  end.
(** A struct is an object with each of the names at most once (other members are ignored), or an array
    of exactly its fields in order. *)
Definition says_fields (names : list text) (v : json) (fields : list (option json)) : Prop :=
  (exists kvs, v = JObj kvs /\ Forall2 (the_member kvs) names fields) \/
  (exists l, v = JArr l /\ List.length l = List.length names /\ fields = map Some l).

Definition says_u32 (v : json) (n : N) : Prop := v = JInt (Z.of_N n) /\ n < 2 ^ 32.
Definition says_byte (v : json) (b : byte) : Prop := v = JInt (Z.of_N (Byte.to_N b)).
Definition says_text (v : json) (t : text) : Prop := v = JStr t.
Definition says_list {A} (says : json -> A -> Prop) (v : json) (l : list A) : Prop := exists js, v = JArr js /\ Forall2 says js l.
Definition says_bytes : json -> list byte -> Prop := says_list says_byte.
(** A map is an object whose keys are u32 numerals without leading zeros; the last member wins. *)
Definition says_key (k : text) (n : N) : Prop := int_part k /\ n = digits_value k /\ n < 2 ^ 32.
Definition says_map {V} (says : json -> V -> Prop) (v : json) (m : nmap V) : Prop :=
  exists kvs l, v = JObj kvs /\ Forall2 (fun kv e => says_key (fst kv) (fst e) /\ says (snd kv) (snd e)) kvs l /\
    NoDup (map fst m) /\
    forall k x, In (k, x) m <-> exists a b, l = a ++ (k, x) :: b /\ ~ In k (map fst b).
(** A field that must be there, and one that may be missing or null. *)
Definition required {A} (says : json -> A -> Prop) (o : option json) (a : A) : Prop := exists v, o = Some v /\ says v a.
Definition optional {A} (says : json -> A -> Prop) (o : option json) (x : option A) : Prop :=
  match x with None => o = None \/ o = Some JNull | Some a => required says o a end.

Definition says_factor (v : json) (f : s_factor) : Prop :=
  exists w c, says_fields [lit "wire_id"; lit "coefficient_bytes"] v [w; c] /\
    required says_u32 w (f_wire_id f) /\ required says_bytes c (f_coefficient_bytes f).
Definition says_lc (v : json) (l : s_lc) : Prop :=
  exists fs, says_fields [lit "factors"] v [fs] /\ required (says_list says_factor) fs (lc_factors l).
Definition says_constraint (v : json) (x : s_constraint) : Prop :=
  exists a b c, says_fields [lit "a"; lit "b"; lit "c"] v [a; b; c] /\
    required says_lc a (sc_a x) /\ required says_lc b (sc_b x) /\ required says_lc c (sc_c x).
Definition says_circuit (v : json) (c : s_circuit) : Prop :=
  exists fs pb nw po pi pv nc cs wl,
    says_fields [lit "field_size"; lit "prime_bytes"; lit "n_wires"; lit "n_pub_out"; lit "n_pub_in"; lit "n_prv_in";
                 lit "n_constraints"; lit "constraints"; lit "wire_labels"] v [fs; pb; nw; po; pi; pv; nc; cs; wl] /\
    required says_u32 fs (s_field_size c) /\ required says_bytes pb (s_prime_bytes c) /\ required says_u32 nw (s_n_wires c) /\
    required says_u32 po (s_n_pub_out c) /\ required says_u32 pi (s_n_pub_in c) /\ required says_u32 pv (s_n_prv_in c) /\
    required says_u32 nc (s_n_constraints c) /\ required (says_list says_constraint) cs (s_constraints c) /\
    optional (says_map says_text) wl (s_wire_labels c).
Definition says_witness (v : json) (w : s_witness) : Prop :=
  exists a, says_fields [lit "assignments"] v [a] /\ required (says_map says_bytes) a (s_assignments w).
Definition says_test_case (v : json) (t : s_test_case) : Prop :=
  exists c w n d, says_fields [lit "circuit"; lit "witness"; lit "name"; lit "description"] v [c; w; n; d] /\
    required says_circuit c (tc_circuit t) /\ required says_witness w (tc_witness t) /\
    required says_text n (tc_name t) /\ optional says_text d (tc_description t).
(** The document a text holds, as serde_json reads it with every member of every object kept. *)
Definition holds (huge : text -> bool) (t : text) (v : json) : Prop := document (serde_number huge) (fun kvs => kvs) false 127 t v.
