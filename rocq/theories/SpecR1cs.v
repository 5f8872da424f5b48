(** Specification: the iden3 r1cs binary format as an encoder, independent of the readers.
    (https://github.com/iden3/r1csfile, cited by r1cs.rs:9-12.) *)
From Coq Require Import List Bool Arith NArith Lia.
From Coq Require Import Strings.Byte.
From Verif Require Import Bytes R1cs.
Import ListNotations.
Local Open Scope N_scope.

Definition u32 (v : N) : list byte := le_bytes 4 v.
Definition u64 (v : N) : list byte := le_bytes 8 v.

Definition factor_bytes (f : N * list byte) : list byte := u32 (fst f) ++ snd f.
Definition lc_bytes (l : lc_t) : list byte := u32 (N.of_nat (length l)) ++ flat_map factor_bytes l.
Definition constraint_bytes (c : constraint_t) : list byte :=
  lc_bytes (c_a c) ++ lc_bytes (c_b c) ++ lc_bytes (c_c c).

Definition header_payload (r : r1cs_file) : list byte :=
  u32 (r_field_size r) ++ r_prime r ++ u32 (r_n_wires r) ++ u32 (r_n_pub_out r)
  ++ u32 (r_n_pub_in r) ++ u32 (r_n_prv_in r) ++ u64 (r_n_labels r) ++ u32 (r_n_constraints r).
Definition constraints_payload (r : r1cs_file) : list byte := flat_map constraint_bytes (r_constraints r).
Definition labels_payload (r : r1cs_file) : list byte := flat_map u64 (r_wire2label r).

(** Content that fits the integer widths of the format. *)
Definition lc_ok (fs : N) (l : lc_t) : Prop :=
  N.of_nat (length l) < 2 ^ 32 /\ Forall (fun f => fst f < 2 ^ 32 /\ blen (snd f) = fs) l.
Definition constraint_ok (fs : N) (c : constraint_t) : Prop :=
  lc_ok fs (c_a c) /\ lc_ok fs (c_b c) /\ lc_ok fs (c_c c).
Record r1cs_ok (r : r1cs_file) : Prop := {
  ok_fs : r_field_size r < 2 ^ 32;
  ok_prime : blen (r_prime r) = r_field_size r;
  ok_nw : r_n_wires r < 2 ^ 32;
  ok_npo : r_n_pub_out r < 2 ^ 32;
  ok_npi : r_n_pub_in r < 2 ^ 32;
  ok_nprv : r_n_prv_in r < 2 ^ 32;
  ok_nl : r_n_labels r < 2 ^ 64;
  ok_nc : r_n_constraints r < 2 ^ 32;
  ok_cs : Forall (constraint_ok (r_field_size r)) (r_constraints r);
  ok_cs_len : N.of_nat (length (r_constraints r)) = r_n_constraints r;
  ok_wl : Forall (fun l => l < 2 ^ 64) (r_wire2label r);
  ok_wl_len : N.of_nat (length (r_wire2label r)) = r_n_wires r
}.

(** A file is a sequence of (type, payload) sections. *)
Definition section_bytes (s : N * list byte) : list byte :=
  u32 (fst s) ++ u64 (blen (snd s)) ++ snd s.
Definition ascii_r1cs : list byte := ["r"; "1"; "c"; "s"]%byte.
Definition r1cs_bytes (secs : list (N * list byte)) : list byte :=
  ascii_r1cs ++ u32 1 ++ u32 (N.of_nat (length secs)) ++ flat_map section_bytes secs.

(** The payload of the first section with the given type. *)
Definition payload_of (ty : N) (secs : list (N * list byte)) : option (list byte) :=
  match find (fun s => fst s =? ty) secs with Some s => Some (snd s) | None => None end.

Definition starts_with (bs p : list byte) : Prop := exists rest, bs = p ++ rest.

(** The sections carry the content [r]: any order, unknown sections anywhere, the wire map
    optional (then labels are 0,1,2,..), trailing bytes inside a section allowed. *)
Definition carries (secs : list (N * list byte)) (r : r1cs_file) : Prop :=
  (exists p, payload_of 1 secs = Some p /\ starts_with p (header_payload r)) /\
  (exists p, payload_of 2 secs = Some p /\ starts_with p (constraints_payload r)) /\
  match payload_of 3 secs with
  | Some p => starts_with p (labels_payload r)
  | None => r_wire2label r = map N.of_nat (seq 0 (N.to_nat (r_n_wires r)))
  end.

(** The bytes [bs] occur in the file at offset [p]. *)
Definition occurs (file : list byte) (p : N) (bs : list byte) : Prop :=
  exists pre rest, file = pre ++ bs ++ rest /\ blen pre = p.

(** The same, except that no bytes at all occur anywhere, even past the end. *)
Definition occurs_or_empty (file : list byte) (p : N) (bs : list byte) : Prop :=
  bs = [] \/ occurs file p bs.

(** Bytes [payload] follow a section header of type [ty] somewhere in the file. *)
Definition section_in (f : list byte) (ty : N) (payload : list byte) : Prop :=
  exists p sz, occurs f p (u32 ty ++ u64 sz) /\ occurs_or_empty f (p + 12) payload.
