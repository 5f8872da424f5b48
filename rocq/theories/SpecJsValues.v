(** Specification vocabulary for C83: which document a JavaScript value amounts to.  In [json] an
    integer is exact, of any size; JFloat stands for a Number by its toString. *)
From Coq Require Import List Bool NArith ZArith.
From Coq Require Import Strings.String.
From Verif Require Import Text Inputs JsValues.
Import ListNotations.
Local Open Scope N_scope.

(** A value holds a BigInt somewhere. *)
Inductive holds_bigint : jsval -> Prop :=
| hb_here z : holds_bigint (VBigInt z)
| hb_array l x : In x l -> holds_bigint x -> holds_bigint (VArray l)
| hb_object kvs k x : In (k, x) kvs -> holds_bigint x -> holds_bigint (VObject kvs).

(** The document the inputs amount to when values are put on wires: a BigInt is its number, undefined
    is as good as null. *)
Fixpoint seen_as (v : jsval) : json :=
  match v with
  | VUndefined | VNull => JNull
  | VBool b => JBool b
  | VNumber z | VBigInt z => JInt z
  | VDouble t => JFloat t
  | VNaN => JFloat (lit "NaN")
  | VInfinity true => JFloat (lit "-Infinity")
  | VInfinity false => JFloat (lit "Infinity")
  | VString t => JStr t
  | VArray l => JArr (map seen_as l)
  | VObject kvs => JObj (map (fun kv => match kv with (k, x) => (k, seen_as x) end) kvs)
  end.
Definition seen (kvs : list (text * jsval)) : list (text * json) := map (fun kv => (fst kv, seen_as (snd kv))) kvs.

(** The document that is written into the file, for values without BigInts: null for Numbers that are
    not finite and for undefined elements of arrays; members that are undefined are left out. *)
Definition is_undefined (v : jsval) : bool := match v with VUndefined => true | _ => false end.
Fixpoint written_as (v : jsval) : json :=
  match v with
  | VUndefined | VNull | VNaN | VInfinity _ => JNull
  | VBool b => JBool b
  | VNumber z | VBigInt z => JInt z
  | VDouble t => JFloat t
  | VString t => JStr t
  | VArray l => JArr (map written_as l)
  | VObject kvs =>
      JObj (flat_map (fun kv => match kv with (k, x) => if is_undefined x then [] else [(k, written_as x)] end) kvs)
  end.
Definition written (kvs : list (text * jsval)) : list (text * json) :=
  map (fun kv => (fst kv, written_as (snd kv))) (filter (fun kv => negb (is_undefined (snd kv))) kvs).

(** The text JavaScript writes for a finite Number holds a digit. *)
Inductive numbers_finite : jsval -> Prop :=
| nf_double t : existsb is_digit t = true -> numbers_finite (VDouble t)
| nf_array l : Forall numbers_finite l -> numbers_finite (VArray l)
| nf_object kvs : Forall (fun kv => numbers_finite (snd kv)) kvs -> numbers_finite (VObject kvs)
| nf_other v : (forall t, v <> VDouble t) -> (forall l, v <> VArray l) -> (forall kvs, v <> VObject kvs) -> numbers_finite v.

(** A whole number as a Number, as a BigInt, or as a string of its decimal digits. *)
Inductive number_form (z : Z) : jsval -> Prop :=
| form_number : number_form z (VNumber z)
| form_bigint : number_form z (VBigInt z)
| form_string : number_form z (VString (dec_text_z z)).
(** The same values up to the forms of their whole numbers. *)
Inductive alike : jsval -> jsval -> Prop :=
| al_same v : alike v v
| al_number z v v' : number_form z v -> number_form z v' -> alike v v'
| al_array l l' : Forall2 alike l l' -> alike (VArray l) (VArray l')
| al_object kvs kvs' : Forall2 (fun a b => fst a = fst b /\ alike (snd a) (snd b)) kvs kvs' -> alike (VObject kvs) (VObject kvs').
Definition alike_inputs (kvs kvs' : list (text * jsval)) : Prop :=
  Forall2 (fun a b => fst a = fst b /\ alike (snd a) (snd b)) kvs kvs'.
