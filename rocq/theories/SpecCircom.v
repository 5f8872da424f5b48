(** Specification vocabulary for C52. *)
From Coq Require Import List NArith ZArith.
From Coq Require Import Strings.String.
From Verif Require Import Text Inputs.
Import ListNotations.
Local Open Scope N_scope.

(** [scalar_text f v t]: a value that is neither array nor object is written [t]; [f] gives the texts
    of the numbers that are no 64-bit integers. *)
Inductive scalar_text (f : json -> text) : json -> text -> Prop :=
| st_text t : scalar_text f (JStr t) t
| st_int z : (- 2 ^ 63 <= z < 2 ^ 64)%Z -> scalar_text f (JInt z) (dec_text_z z)
| st_large z : ~ (- 2 ^ 63 <= z < 2 ^ 64)%Z -> scalar_text f (JInt z) (f (JInt z))
| st_float t : scalar_text f (JFloat t) (f (JFloat t))
| st_true : scalar_text f (JBool true) (lit "1")
| st_false : scalar_text f (JBool false) (lit "0")
| st_null : scalar_text f JNull (lit "0").
(** [leaves v xs]: the values of [v] that are no arrays, from left to right, objects left out. *)
Inductive leaves : json -> list json -> Prop :=
| lv_scalar v : (forall l, v <> JArr l) -> (forall o, v <> JObj o) -> leaves v [v]
| lv_object o : leaves (JObj o) []
| lv_array l xss : Forall2 leaves l xss -> leaves (JArr l) (List.concat xss).
(** The texts of an entry. *)
Definition entry_texts (f : json -> text) (v : json) (ts : list text) : Prop :=
  exists xs, leaves v xs /\ Forall2 (scalar_text f) xs ts.
