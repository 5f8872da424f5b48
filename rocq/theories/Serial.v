(** Model of packages/zkenc-core/src/serializable.rs:7-127 (packages/zkenc-cli/src/serializable.rs is
    the same text) and of R1csFile::to_serializable (packages/zkenc-cli/src/r1cs.rs:41-93).
    The bincode 1.3 format the [to_bincode] / [from_bincode] pair uses (bincode::serialize and
    ::deserialize: fixed-width little-endian integers, u64 lengths, trailing bytes allowed, no
    size limit) is library code; it is modelled here, on a 64-bit target. *)
From Coq Require Import List Bool Arith NArith.
From Coq Require Import Strings.Byte.
From Verif Require Import Res Bytes Text Utf8 R1cs Inputs.
Import ListNotations.
Local Open Scope N_scope.
Local Open Scope res_scope.

(** SerializableFactor, SerializableLC, SerializableConstraint (serializable.rs:8-29). *)
Record s_factor := SFactor { f_wire_id : N; f_coefficient_bytes : list byte }.
Record s_lc := SLC { lc_factors : list s_factor }.
Record s_constraint := SConstraint { sc_a : s_lc; sc_b : s_lc; sc_c : s_lc }.
(** SerializableCircuit (serializable.rs:31-60).  A HashMap is a list of entries in the order in
    which the map is iterated. *)
Record s_circuit := SCircuit {
  s_field_size : N; s_prime_bytes : list byte; s_n_wires : N; s_n_pub_out : N; s_n_pub_in : N;
  s_n_prv_in : N; s_n_constraints : N; s_constraints : list s_constraint;
  s_wire_labels : option (nmap text) }.
(** SerializableWitness and SerializableTestCase (serializable.rs:62-78). *)
Record s_witness := SWitness { s_assignments : nmap (list byte) }.
Record s_test_case := STestCase { tc_circuit : s_circuit; tc_witness : s_witness; tc_name : text; tc_description : option text }.

(** to_serializable (r1cs.rs:41-93). *)
Definition lc_to_serializable (l : lc_t) : s_lc := SLC (map (fun f => SFactor (fst f) (snd f)) l).
Definition constraint_to_serializable (c : constraint_t) : s_constraint :=
  SConstraint (lc_to_serializable (c_a c)) (lc_to_serializable (c_b c)) (lc_to_serializable (c_c c)).
Definition to_serializable (r : r1cs_file) : s_circuit :=
  SCircuit (r_field_size r) (r_prime r) (r_n_wires r) (r_n_pub_out r) (r_n_pub_in r) (r_n_prv_in r)
           (r_n_constraints r) (map constraint_to_serializable (r_constraints r)) None.

(** ** bincode: writing *)
Section Encode.
  Definition b_u32 (n : N) : list byte := le_bytes 4 n.
  Definition b_u64 (n : N) : list byte := le_bytes 8 n.
  (** Sequences and maps: a u64 count, then the items (a Vec<u8> is a sequence of u8). *)
  Definition b_seq {A} (enc : A -> list byte) (l : list A) : list byte :=
    b_u64 (N.of_nat (length l)) ++ flat_map enc l.
  Definition b_bytes (l : list byte) : list byte := b_seq (fun b => [b]) l.
  (** Strings: a u64 length in bytes, then UTF-8. *)
  Definition b_str (t : text) : list byte := b_bytes (utf8_encode t).
  Definition b_opt {A} (enc : A -> list byte) (o : option A) : list byte :=
    match o with None => [x00] | Some a => x01 :: enc a end.
  Definition b_factor (f : s_factor) : list byte := b_u32 (f_wire_id f) ++ b_bytes (f_coefficient_bytes f).
  Definition b_lc (l : s_lc) : list byte := b_seq b_factor (lc_factors l).
  Definition b_constraint (c : s_constraint) : list byte := b_lc (sc_a c) ++ b_lc (sc_b c) ++ b_lc (sc_c c).
  Definition b_map {V} (enc : V -> list byte) (m : nmap V) : list byte := b_seq (fun kv => b_u32 (fst kv) ++ enc (snd kv)) m.
  (** to_bincode (serializable.rs:104-106): the fields in order. *)
  Definition to_bincode (c : s_circuit) : list byte :=
    b_u32 (s_field_size c) ++ b_bytes (s_prime_bytes c) ++ b_u32 (s_n_wires c) ++ b_u32 (s_n_pub_out c) ++
    b_u32 (s_n_pub_in c) ++ b_u32 (s_n_prv_in c) ++ b_u32 (s_n_constraints c) ++
    b_seq b_constraint (s_constraints c) ++ b_opt (b_map b_str) (s_wire_labels c).
  Definition witness_bincode (w : s_witness) : list byte := b_map b_bytes (s_assignments w).
  Definition test_case_bincode (t : s_test_case) : list byte :=
    to_bincode (tc_circuit t) ++ witness_bincode (tc_witness t) ++ b_str (tc_name t) ++ b_opt b_str (tc_description t).
End Encode.

(** ** bincode: reading *)
Inductive bincode_error := BEof | BTag (n : N) | BUtf8.
Definition dec A := list byte -> res bincode_error (A * list byte).
Section Decode.
  Definition d_ret {A} (a : A) : dec A := fun bs => Ok (a, bs).
  Definition d_bind {A B} (d : dec A) (f : A -> dec B) : dec B :=
    fun bs => let? p := d bs in f (fst p) (snd p).
  (** [n] bytes, or UnexpectedEof. *)
  Definition d_take (n : nat) : dec (list byte) :=
    fun bs => if (n <=? length bs)%nat then Ok (firstn n bs, skipn n bs) else Err BEof.
  Definition d_u8 : dec N := d_bind (d_take 1) (fun b => d_ret (le_val b)).
  Definition d_u32 : dec N := d_bind (d_take 4) (fun b => d_ret (le_val b)).
  Definition d_u64 : dec N := d_bind (d_take 8) (fun b => d_ret (le_val b)).
  Fixpoint d_items {A} (d : dec A) (n : nat) : dec (list A) :=
    match n with
    | O => d_ret []
    | S n => d_bind d (fun a => d_bind (d_items d n) (fun l => d_ret (a :: l)))
    end.
  Definition d_seq {A} (d : dec A) : dec (list A) := d_bind d_u64 (fun n => d_items d (N.to_nat n)).
  Definition d_byte : dec byte := d_bind d_u8 (fun n => d_ret (byte_of n)).
  Definition d_bytes : dec (list byte) := d_seq d_byte.
  (** Strings are taken as one slice, then checked. *)
  Definition d_str : dec text :=
    d_bind d_u64 (fun n => d_bind (d_take (N.to_nat n)) (fun b =>
    match utf8_decode b with Some t => d_ret t | None => fun _ => Err BUtf8 end)).
  Definition d_opt {A} (d : dec A) : dec (option A) :=
    d_bind d_u8 (fun t => if t =? 0 then d_ret None
                          else if t =? 1 then d_bind d (fun a => d_ret (Some a)) else fun _ => Err (BTag t)).
  Definition d_factor : dec s_factor :=
    d_bind d_u32 (fun w => d_bind d_bytes (fun c => d_ret (SFactor w c))).
  Definition d_lc : dec s_lc := d_bind (d_seq d_factor) (fun l => d_ret (SLC l)).
  Definition d_constraint : dec s_constraint :=
    d_bind d_lc (fun a => d_bind d_lc (fun b => d_bind d_lc (fun c => d_ret (SConstraint a b c)))).
  Definition d_entry {V} (d : dec V) : dec (N * V) := d_bind d_u32 (fun k => d_bind d (fun v => d_ret (k, v))).
  (** Entries are inserted one by one: a later entry replaces an earlier one with the same key. *)
  Definition d_map {V} (d : dec V) : dec (nmap V) :=
    d_bind (d_seq (d_entry d)) (fun l => d_ret (fold_left (fun m kv => nm_insert (fst kv) (snd kv) m) l [])).
  Definition d_circuit : dec s_circuit :=
    d_bind d_u32 (fun fs => d_bind d_bytes (fun pr => d_bind d_u32 (fun nw => d_bind d_u32 (fun po =>
    d_bind d_u32 (fun pi => d_bind d_u32 (fun pv => d_bind d_u32 (fun nc =>
    d_bind (d_seq d_constraint) (fun cs => d_bind (d_opt (d_map d_str)) (fun ls =>
    d_ret (SCircuit fs pr nw po pi pv nc cs ls)))))))))).
  Definition d_witness : dec s_witness := d_bind (d_map d_bytes) (fun m => d_ret (SWitness m)).
  Definition d_test_case : dec s_test_case :=
    d_bind d_circuit (fun c => d_bind d_witness (fun w => d_bind d_str (fun n => d_bind (d_opt d_str) (fun d =>
    d_ret (STestCase c w n d))))).
  (** from_bincode (serializable.rs:109-111): trailing bytes are ignored. *)
  Definition from_bincode (bs : list byte) : res bincode_error s_circuit := let? p := d_circuit bs in Ok (fst p).
  (** bincode::deserialize::<SerializableTestCase> (packages/zkenc-core/tests/circom_circuit.rs:31). *)
  Definition test_case_from_bincode (bs : list byte) : res bincode_error s_test_case := let? p := d_test_case bs in Ok (fst p).
End Decode.

(** ** Files *)
From Verif Require Import FileSys.
Inductive save_error := SaveFailed.
(** save_bincode (serializable.rs:114-118): fs::write of the whole encoding. *)
Definition save_bincode (c : s_circuit) (p : path) : cmd save_error := write_ p (to_bincode c) SaveFailed (Ret (Ok tt)).
(** load_bincode (serializable.rs:121-124). *)
Inductive load_error := LoadUnreadable | LoadDecode (e : bincode_error).
Definition load_bincode (s : fsys) (p : path) : res load_error s_circuit :=
  match s p with None => Err LoadUnreadable | Some bs => rmap_err LoadDecode (from_bincode bs) end.
