(** Specification: two signatures out of three keys.  [V key R8 S message] says that a signature
    (R8, S) of a message verifies for a key; which scheme that is does not matter here. *)
From Coq Require Import List Arith ZArith.
From Verif Require Import Fld Bn254.
Import ListNotations.

Definition point : Type := Fr * Fr.
Definition verifier : Type := point -> point -> Fr -> Fr -> Prop.
Definition origin : point := (fr 0, fr 0).

(** Two different of the three keys have signed the message; [i] and [j] are their numbers. *)
Definition two_of_three (V : verifier) (message : Fr) (keys : nat -> point) (R8 : nat -> point) (S : nat -> Fr)
    (indices : nat -> Fr) : Prop :=
  exists i j, i < 3 /\ j < 3 /\ i <> j /\
    indices 0 = fr (Z.of_nat i) /\ indices 1 = fr (Z.of_nat j) /\
    V (keys i) (R8 0) (S 0) message /\ V (keys j) (R8 1) (S 1) message.

(** The key an index stands for: keys 0, 1 and 2, and the origin for every other field element. *)
Definition key_at (keys : nat -> point) (index : Fr) (k : point) : Prop :=
  (exists i, i < 3 /\ index = fr (Z.of_nat i) /\ k = keys i) \/
  ((forall i, i < 3 -> index <> fr (Z.of_nat i)) /\ k = origin).
