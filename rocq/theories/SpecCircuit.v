(** Specification: what it means for an assignment of values to wires to satisfy the rows of an
    r1cs file. *)
From Coq Require Import List NArith ZArith.
From Coq Require Import Strings.Byte.
From Verif Require Import Bytes Fld Bn254 R1cs SpecWtns.
Import ListNotations.
Local Open Scope fld_scope.

(** The coefficient stored in a factor: the residue of its first 32 bytes, little endian. *)
Definition coefficient (b : list byte) : Fr := residue (firstn 32 b).

(** Value of a linear combination under an assignment. *)
Fixpoint combination (a : N -> Fr) (l : lc_t) : Fr :=
  match l with
  | [] => (0 : Fr)
  | (wire, coeff) :: l => (coefficient coeff * a wire + combination a l)
  end.
Definition row_true (a : N -> Fr) (c : constraint_t) : Prop :=
  combination a (c_a c) * combination a (c_b c) = combination a (c_c c).
Definition satisfies (a : N -> Fr) (cs : list constraint_t) : Prop := Forall (row_true a) cs.

(** Wire 0 is the constant one; the others have the witness's value. *)
Definition wires (w : N -> option Fr) (i : N) : Fr :=
  if N.eqb i 0 then (1 : Fr) else match w i with Some x => x | None => (0 : Fr) end.

(** A row without the factors on wires that do not exist. *)
Definition keep_wires (n : N) (l : lc_t) : lc_t := filter (fun f => N.ltb (fst f) n) l.
Definition drop_unknown (n : N) (c : constraint_t) : constraint_t :=
  Constraint (keep_wires n (c_a c)) (keep_wires n (c_b c)) (keep_wires n (c_c c)).
Definition factors_below (n : N) (cs : list constraint_t) : Prop :=
  Forall (fun c => Forall (fun f => (fst f < n)%N) (c_a c ++ c_b c ++ c_c c)) cs.
