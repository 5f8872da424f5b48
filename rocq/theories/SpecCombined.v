(** Specification of the combined file: its layout. *)
From Coq Require Import List NArith.
From Coq Require Import Strings.Byte.
From Verif Require Import Bytes Combined.
Import ListNotations.
Local Open Scope N_scope.

(** A block announced by its length: four bytes, most significant first. *)
Definition block (b : list byte) : list byte := be_bytes 4 (blen b) ++ b.
Definition layout (flag : byte) (p : parts) : list byte :=
  flag :: block (p_witness p) ++ match p_public p with Some q => block q | None => [] end ++ p_message p.
(** Lengths that a four-byte field can hold. *)
Definition fits (p : parts) : Prop :=
  blen (p_witness p) < 2 ^ 32 /\ (forall q, p_public p = Some q -> blen q < 2 ^ 32).
(** The file has a public input exactly when its flag is 1. *)
Definition file_of (p : parts) (file : list byte) : Prop :=
  fits p /\ exists flag, (flag = x01 <-> p_public p <> None) /\ file = layout flag p.
