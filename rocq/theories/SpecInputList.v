(** Specification vocabulary for C67: the values of a document in reading order. *)
From Coq Require Import List Bool NArith ZArith.
From Verif Require Import Text Bn254 Inputs SpecInputs.
Import ListNotations.

(** The values that are not arrays, from the first to the last. *)
Inductive in_order : json -> list json -> Prop :=
| io_one v : (forall l, v <> JArr l) -> in_order v [v]
| io_array l vs : in_order_all l vs -> in_order (JArr l) vs
with in_order_all : list json -> list json -> Prop :=
| io_nil : in_order_all [] []
| io_cons x l a b : in_order x a -> in_order_all l b -> in_order_all (x :: l) (a ++ b).

(** Why a value is refused: a fraction or an integer outside -2^63 .. 2^64-1; a string that is no
    integer numeral; null, a boolean, an object. *)
Inductive refused : json -> input_error -> Prop :=
| rf_range z : (z < - 2 ^ 63 \/ 2 ^ 64 <= z)%Z -> refused (JInt z) UnsupportedNumber
| rf_float f : refused (JFloat f) UnsupportedNumber
| rf_str t : (forall z, ~ numeral t z) -> refused (JStr t) (BadFieldElement t)
| rf_null : refused JNull UnsupportedType
| rf_bool b : refused (JBool b) UnsupportedType
| rf_obj kvs : refused (JObj kvs) UnsupportedType.
(** [e] is the reason for the first refused value of [ls]. *)
Definition first_refused (ls : list json) (e : input_error) : Prop :=
  exists before x after, ls = before ++ x :: after /\ (forall y, In y before -> exists a, numeric y a) /\ refused x e.
