(** Specification vocabulary for the JavaScript API (C44): files both tools read, circuits it
    handles, the names and texts it takes from an input document. *)
From Coq Require Import List Bool NArith ZArith.
From Coq Require Import Strings.String Strings.Byte.
From Verif Require Import Bytes Text Fld Bn254 R1cs SpecR1cs Wtns SpecWtns P_Wtns Circuit SpecCircuit Sym Inputs.
Import ListNotations.
Local Open Scope N_scope.

(** A well formed circuit file with this content, and a well formed witness file with these
    values: header and data among any other sections. *)
Definition circuit_file (cb : list byte) (r : r1cs_file) : Prop :=
  exists secs, cb = r1cs_bytes secs /\ r1cs_ok r /\ carries secs r /\
    N.of_nat (List.length secs) < 2 ^ 32 /\ Forall (fun s => fst s < 2 ^ 32) secs.
Definition witness_file (wb : list byte) (vals : list Fr) : Prop :=
  exists prime secs, wb = wtns_bytes secs /\ blen prime = 32 /\ standard_file prime (map encode_fr vals) secs.

(** There is a wire besides the public outputs and inputs, and there are at most 2^24 of those. *)
Definition js_usable (r : r1cs_file) : Prop :=
  r_n_pub_out r + r_n_pub_in r + 1 < r_n_wires r /\ r_n_pub_out r + r_n_pub_in r <= 2 ^ 24.

(** [js_leaf_at key v name t]: reading value [v] under [key], the JavaScript package gives the
    text [t] to [name].  Elements of an array are converted to text whatever they are. *)
Inductive js_leaf_at : text -> json -> text -> text -> Prop :=
| jl_scalar key v t : (forall l, v <> JArr l) -> (forall o, v <> JObj o) -> js_to_string v = Some t ->
    js_leaf_at key v key t
| jl_item key l i x t : nth_error l i = Some x -> js_to_string x = Some t ->
    js_leaf_at key (JArr l) (key ++ lit "[" ++ dec_text (N.of_nat i) ++ lit "]") t
| jl_entry key o k x name t : In (k, x) o ->
    js_leaf_at (match key with [] => k | _ => key ++ lit "." ++ k end) x name t ->
    js_leaf_at key (JObj o) name t.
Definition js_doc_leaf (kvs : list (text * json)) (name t : text) : Prop :=
  exists k v, In (k, v) kvs /\ js_leaf_at k v name t.

(** The witness has, on every public wire the document names, the integer given there (an integer
    outside 0 .. 2^256 - 1 counts modulo 2^256, see C47). *)
Definition js_inputs_agree (sym : text) (kvs : list (text * json)) (n_pub : N) (vals : list Fr) : Prop :=
  forall name t z w, js_doc_leaf kvs name t -> js_bigint t = Some z ->
    hm_get (lit "main." ++ name) (js_parse_sym_file sym) = Some w -> 1 <= w <= n_pub ->
    nth_error vals (N.to_nat w) = Some (fr (z mod 2 ^ 256)).

(** Memory: the files fit the address space of the WASM target ([W] addresses), with room for the
    reader's arithmetic; [fuel] only bounds the model's loop. *)
Definition fits_encrypt (W : N) (fuel : nat) (cb : list byte) (sym : text) : Prop :=
  let n := N.of_nat (List.length (js_parse_sym_file sym)) in
  blen cb < W /\ W <= 2 ^ 64 /\ n < 2 ^ 32 - 1 /\ 2 * (108 + 32 * n) < W /\ 108 + 32 * n < N.of_nat fuel.
Definition fits_decrypt (W : N) (fuel : nat) (cb wb : list byte) : Prop :=
  blen cb < W /\ 2 * blen wb < W /\ W <= 2 ^ 64 /\ (List.length wb < fuel)%nat.
