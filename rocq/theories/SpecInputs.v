(** Specification of JSON circuit inputs: which names a document gives and what values mean. *)
From Coq Require Import List Bool NArith ZArith.
From Coq Require Import Strings.String.
From Verif Require Import Text Fld Bn254 Inputs.
Import ListNotations.
Local Open Scope N_scope.

(** [leaf_of key v name x]: under [key] the value [v] has the non-array value [x] at [name], the
    key followed by one [\[i\]] per array crossed. *)
Inductive leaf_of : text -> json -> text -> json -> Prop :=
| leaf_here k v : (forall l, v <> JArr l) -> leaf_of k v k v
| leaf_in k l i x name v :
    nth_error l i = Some x ->
    leaf_of (k ++ lit "[" ++ dec_text (N.of_nat i) ++ lit "]") x name v ->
    leaf_of k (JArr l) name v.
Definition doc_leaf (kvs : list (text * json)) (name : text) (x : json) : Prop :=
  exists k v, In (k, v) kvs /\ leaf_of k v name x.

(** An integer numeral as num_bigint reads it: an optional sign, then digits and underscores
    beginning with a digit. *)
Definition numeral (t : text) (z : Z) : Prop :=
  exists c r, 48 <= c <= 57 /\ Forall (fun x => 48 <= x <= 57 \/ x = c_under) r /\
    let v := Z.of_N (digits_value (filter (fun x => negb (x =? c_under)) (c :: r))) in
    ((t = c :: r /\ z = v) \/ (t = c_plus :: c :: r /\ z = v) \/ (t = c_minus :: c :: r /\ z = (- v)%Z)).

(** The field element a leaf stands for in the CLI. *)
Inductive numeric : json -> Fr -> Prop :=
| num_nat z : (0 <= z < 2 ^ 64)%Z -> numeric (JInt z) (fr z)
| num_neg z : (- 2 ^ 63 <= z < 0)%Z -> numeric (JInt z) (fr (z + 2 ^ 64))
| num_str t z : numeral t z -> numeric (JStr t) (fr z).

(** No two leaves with different values share a name. *)
Definition unambiguous (kvs : list (text * json)) : Prop :=
  forall name x x', doc_leaf kvs name x -> doc_leaf kvs name x' -> x = x'.
(** No two names given by the document are on the same wire. *)
Definition separate (kvs : list (text * json)) (signals : text -> option N) : Prop :=
  forall n n' x x' w, doc_leaf kvs n x -> doc_leaf kvs n' x' ->
    signals n = Some w -> signals n' = Some w -> n = n'.
(** Keys without brackets, all different: every JSON object written for a circom circuit. *)
Definition plain_keys (kvs : list (text * json)) : Prop :=
  NoDup (map fst kvs) /\ Forall (fun k => free_of 91 k) (map fst kvs).
