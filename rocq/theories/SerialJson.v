(** Model of the JSON side of packages/zkenc-core/src/serializable.rs:79-101, 127-165
    (packages/zkenc-cli/src/serializable.rs is the same text).  What serde's derive and serde_json do
    with the structs is library code, modelled here: a struct is an object with its fields in order, a
    HashMap<u32, _> an object with decimal keys, a Vec an array, None is null.  Simplified: values of
    unknown fields are read like the others (serde_json skips them without limits on nesting, number
    size and surrogates), and the keys of maps are compared after resolving escapes. *)
From Coq Require Import List Bool Arith NArith ZArith.
From Coq Require Import Strings.String Strings.Byte.
From Verif Require Import Res Bytes Text Utf8 Inputs JsonText Serial FileSys.
Import ListNotations.
Local Open Scope N_scope.

(** ** Writing: derive(Serialize) *)
Definition j_num (n : N) : json := JInt (Z.of_N n).
Definition j_bytes (l : list byte) : json := JArr (map (fun b => j_num (Byte.to_N b)) l).
Definition j_map {V} (enc : V -> json) (m : nmap V) : json := JObj (map (fun kv => (dec_text (fst kv), enc (snd kv))) m).
Definition j_opt {A} (enc : A -> json) (o : option A) : json := match o with None => JNull | Some a => enc a end.
(** serializable.rs:8-29 *)
Definition j_factor (f : s_factor) : json :=
  JObj [(lit "wire_id", j_num (f_wire_id f)); (lit "coefficient_bytes", j_bytes (f_coefficient_bytes f))].
Definition j_lc (l : s_lc) : json := JObj [(lit "factors", JArr (map j_factor (lc_factors l)))].
Definition j_constraint (c : s_constraint) : json :=
  JObj [(lit "a", j_lc (sc_a c)); (lit "b", j_lc (sc_b c)); (lit "c", j_lc (sc_c c))].
(** serializable.rs:31-60 *)
Definition j_circuit (c : s_circuit) : json :=
  JObj [(lit "field_size", j_num (s_field_size c)); (lit "prime_bytes", j_bytes (s_prime_bytes c)); (lit "n_wires", j_num (s_n_wires c));
        (lit "n_pub_out", j_num (s_n_pub_out c)); (lit "n_pub_in", j_num (s_n_pub_in c)); (lit "n_prv_in", j_num (s_n_prv_in c));
        (lit "n_constraints", j_num (s_n_constraints c)); (lit "constraints", JArr (map j_constraint (s_constraints c)));
        (lit "wire_labels", j_opt (j_map JStr) (s_wire_labels c))].
(** serializable.rs:62-78 *)
Definition j_witness (w : s_witness) : json := JObj [(lit "assignments", j_map j_bytes (s_assignments w))].
Definition j_test_case (t : s_test_case) : json :=
  JObj [(lit "circuit", j_circuit (tc_circuit t)); (lit "witness", j_witness (tc_witness t)); (lit "name", JStr (tc_name t));
        (lit "description", j_opt JStr (tc_description t))].
(** to_json (serializable.rs:81-83, 129-131; 155): serde_json::to_string_pretty. *)
Definition to_json (c : s_circuit) : text := pretty 0 (j_circuit c).
Definition witness_to_json (w : s_witness) : text := pretty 0 (j_witness w).
Definition test_case_to_json (t : s_test_case) : text := pretty 0 (j_test_case t).

(** ** Reading: derive(Deserialize) *)
Definition obind {A B} (o : option A) (f : A -> option B) : option B := match o with Some a => f a | None => None end.
Fixpoint omap {A B} (f : A -> option B) (l : list A) : option (list B) :=
  match l with [] => Some [] | x :: l => obind (f x) (fun y => obind (omap f l) (fun ys => Some (y :: ys))) end.
(** The fields of a struct: an object may have them in any order, each at most once, and others
    besides; an array must have exactly them, in order. *)
Definition count_key (k : text) (kvs : list (text * json)) : nat := List.length (filter (fun kv => text_eqb (fst kv) k) kvs).
Definition fields_of (names : list text) (v : json) : option (list (option json)) :=
  match v with
  | JObj kvs => if forallb (fun n => (count_key n kvs <=? 1)%nat) names then Some (map (fun n => hm_get n kvs) names) else None
  | JArr l => if (List.length l =? List.length names)%nat then Some (map Some l) else None
  | _ => None
  end.
Definition r_uint (bound : N) (v : json) : option N :=
  match v with JInt z => if ((0 <=? z) && (z <? Z.of_N bound))%Z then Some (Z.to_N z) else None | _ => None end.
Definition r_u32 : json -> option N := r_uint (2 ^ 32).
Definition r_byte (v : json) : option byte := option_map byte_of (r_uint 256 v).
Definition r_list {A} (f : json -> option A) (v : json) : option (list A) := match v with JArr l => omap f l | _ => None end.
Definition r_str (v : json) : option text := match v with JStr t => Some t | _ => None end.
Definition r_opt {A} (f : json -> option A) (v : json) : option (option A) :=
  match v with JNull => Some None | _ => option_map Some (f v) end.
(** A map's keys: JSON integers in quotes. *)
Definition r_key (k : text) : option N :=
  if all_digits k && text_eqb (dec_text (digits_value k)) k && (digits_value k <? 2 ^ 32) then Some (digits_value k) else None.
Definition r_map {V} (f : json -> option V) (v : json) : option (nmap V) :=
  match v with
  | JObj kvs => obind (omap (fun kv => obind (r_key (fst kv)) (fun k => obind (f (snd kv)) (fun x => Some (k, x)))) kvs)
                      (fun l => Some (fold_left (fun m kv => nm_insert (fst kv) (snd kv) m) l []))
  | _ => None
  end.
(** A field that must be there; one that may be missing. *)
Definition need {A} (f : json -> option A) (o : option json) : option A := obind o f.
Definition may {A} (f : json -> option A) (o : option json) : option (option A) := match o with None => Some None | Some v => r_opt f v end.
Definition r_factor (v : json) : option s_factor :=
  match fields_of [lit "wire_id"; lit "coefficient_bytes"] v with
  | Some [w; c] => obind (need r_u32 w) (fun w => obind (need (r_list r_byte) c) (fun c => Some (SFactor w c)))
  | _ => None
  end.
Definition r_lc (v : json) : option s_lc :=
  match fields_of [lit "factors"] v with Some [f] => obind (need (r_list r_factor) f) (fun f => Some (SLC f)) | _ => None end.
Definition r_constraint (v : json) : option s_constraint :=
  match fields_of [lit "a"; lit "b"; lit "c"] v with
  | Some [a; b; c] => obind (need r_lc a) (fun a => obind (need r_lc b) (fun b => obind (need r_lc c) (fun c => Some (SConstraint a b c))))
  | _ => None
  end.
Definition r_circuit (v : json) : option s_circuit :=
  match fields_of [lit "field_size"; lit "prime_bytes"; lit "n_wires"; lit "n_pub_out"; lit "n_pub_in"; lit "n_prv_in"; lit "n_constraints"; lit "constraints"; lit "wire_labels"] v with
  | Some [fs; pb; nw; po; pi; pv; nc; cs; wl] =>
      obind (need r_u32 fs) (fun fs => obind (need (r_list r_byte) pb) (fun pb => obind (need r_u32 nw) (fun nw => obind (need r_u32 po) (fun po =>
      obind (need r_u32 pi) (fun pi => obind (need r_u32 pv) (fun pv => obind (need r_u32 nc) (fun nc =>
      obind (need (r_list r_constraint) cs) (fun cs => obind (may (r_map r_str) wl) (fun wl =>
      Some (SCircuit fs pb nw po pi pv nc cs wl))))))))))
  | _ => None
  end.
Definition r_witness (v : json) : option s_witness :=
  match fields_of [lit "assignments"] v with Some [a] => obind (need (r_map (r_list r_byte)) a) (fun a => Some (SWitness a)) | _ => None end.
Definition r_test_case (v : json) : option s_test_case :=
  match fields_of [lit "circuit"; lit "witness"; lit "name"; lit "description"] v with
  | Some [c; w; n; d] =>
      obind (need r_circuit c) (fun c => obind (need r_witness w) (fun w => obind (need r_str n) (fun n => obind (may r_str d) (fun d =>
      Some (STestCase c w n d)))))
  | _ => None
  end.
(** from_json (serializable.rs:86-88, 134-136; 163): serde_json::from_str.  The members of objects are
    met one by one, none is dropped. *)
Definition serde_tree (huge : text -> bool) (t : text) : option json := read_json (serde_number huge) (fun kvs => kvs) false 127 t.
Definition from_json (huge : text -> bool) (t : text) : option s_circuit := obind (serde_tree huge t) r_circuit.
Definition witness_from_json (huge : text -> bool) (t : text) : option s_witness := obind (serde_tree huge t) r_witness.
Definition test_case_from_json (huge : text -> bool) (t : text) : option s_test_case := obind (serde_tree huge t) r_test_case.

(** ** Files *)
(** save_json (serializable.rs:91-95, 139-143, 154-158): fs::write of the whole text. *)
Definition save_text (t : text) (p : path) : cmd save_error := write_ p (utf8_encode t) SaveFailed (Ret (Ok tt)).
Definition save_json (c : s_circuit) (p : path) : cmd save_error := save_text (to_json c) p.
Definition save_witness_json (w : s_witness) (p : path) : cmd save_error := save_text (witness_to_json w) p.
Definition save_test_case_json (t : s_test_case) (p : path) : cmd save_error := save_text (test_case_to_json t) p.
(** load_json (serializable.rs:98-101, 146-149, 161-164): fs::read_to_string, then from_json; the error
    is not told apart. *)
Definition load_text {A} (parse : text -> option A) (s : fsys) (p : path) : option A :=
  obind (s p) (fun b => obind (utf8_decode b) parse).
Definition load_json (huge : text -> bool) (s : fsys) (p : path) : option s_circuit := load_text (from_json huge) s p.
Definition load_witness_json (huge : text -> bool) (s : fsys) (p : path) : option s_witness := load_text (witness_from_json huge) s p.
Definition load_test_case_json (huge : text -> bool) (s : fsys) (p : path) : option s_test_case := load_text (test_case_from_json huge) s p.
