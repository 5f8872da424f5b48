(** Specification vocabulary for C82: ciphertext files that were not written by encrypt. *)
From Coq Require Import List NArith.
From Coq Require Import Strings.Byte.
From Verif Require Import Fld Bn254.
Import ListNotations.
Local Open Scope fld_scope.

(** The values on the wires of a circuit with [n] wires: one, then the witness's values from wire 1 on. *)
Definition wire_values (n : N) (vals : list Fr) : list Fr := f1 :: firstn (N.to_nat n - 1) (tl vals).

(** A quadratic question about a list of values. *)
Definition answer {F : fieldT} (a b c x : list F) : F := dot x a * dot x b - dot x c.

(** [wants] says, byte by byte, which of two readers is to see which byte: the first ([true]) or the
    second ([false]).  [p1] and [p2] are messages in which the readers see that. *)
Definition as_wanted (wants : list (bool * byte)) (p1 p2 : list byte) : Prop :=
  (length wants <= length p1 <= length wants + 31)%nat /\ length p1 = length p2 /\
  forall i (who : bool) b, nth_error wants i = Some (who, b) -> nth_error (if who then p1 else p2) i = Some b.
