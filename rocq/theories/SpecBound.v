(** Specification vocabulary for C58: the public wires an encryption binds. *)
From Coq Require Import List NArith ZArith.
From Coq Require Import Strings.String Strings.Byte.
From Verif Require Import Text Fld Bn254 Sym Inputs SpecInputs SpecJs.
Import ListNotations.
Local Open Scope N_scope.

(** JavaScript: the document gives the text [t] to wire [w]; no wire is given two texts; and wire [w]
    is bound to the integer [z]: it is public, has [z] and all wires before it have something. *)
Definition js_gives (sym : text) (kvs : list (text * json)) (w : N) (t : text) : Prop :=
  exists name, js_doc_leaf kvs name t /\ hm_get (lit "main." ++ name) (js_parse_sym_file sym) = Some w.
Definition js_single (sym : text) (kvs : list (text * json)) : Prop :=
  forall w t t', js_gives sym kvs w t -> js_gives sym kvs w t' -> t = t'.
Definition js_bound (sym : text) (kvs : list (text * json)) (n_pub w : N) (z : Z) : Prop :=
  1 <= w <= n_pub /\ (forall j, 1 <= j <= w -> exists t, js_gives sym kvs j t) /\
  exists t, js_gives sym kvs w t /\ js_bigint t = Some z.

(** The CLI: the same with field elements and the CLI's reading of names. *)
Definition cli_gives (syms : hmap N) (kvs : list (text * json)) (w : N) (a : Fr) : Prop :=
  exists name x, doc_leaf kvs name x /\ hm_get (lit "main." ++ name) syms = Some w /\ numeric x a.
Definition cli_bound (syms : hmap N) (kvs : list (text * json)) (n_in w : N) (a : Fr) : Prop :=
  1 <= w <= n_in /\ (forall j, 1 <= j <= w -> exists b, cli_gives syms kvs j b) /\ cli_gives syms kvs w a.

(** Any document, names given twice and wires with two names included.  The values the CLI reads, in
    this order, with their names: an array's elements under "key[i]", arrays in arrays likewise. *)
Fixpoint named_values (key : text) (v : json) : list (text * json) :=
  match v with
  | JArr l => (fix go (i : nat) (l : list json) : list (text * json) :=
                 match l with
                 | [] => []
                 | x :: l => named_values (key ++ lit "[" ++ dec_text (N.of_nat i) ++ lit "]") x ++ go (S i) l
                 end) O l
  | _ => [(key, v)]
  end.
Definition cli_values (kvs : list (text * json)) : list (text * json) := flat_map (fun kv => named_values (fst kv) (snd kv)) kvs.
(** The last value of a name counts.  Wire [w] is offered [a]: a name of [w] has the value [a]. *)
Definition last_value (kvs : list (text * json)) (name : text) (x : json) : Prop :=
  exists pre post, cli_values kvs = pre ++ (name, x) :: post /\ ~ In name (map fst post).
Definition cli_offers (syms : hmap N) (kvs : list (text * json)) (w : N) (a : Fr) : Prop :=
  exists name x, last_value kvs name x /\ hm_get (lit "main." ++ name) syms = Some w /\ numeric x a.
(** A choice takes one of the offers for every public input that has any. *)
Definition choice (syms : hmap N) (kvs : list (text * json)) (n_in : N) (chosen : N -> option Fr) : Prop :=
  forall w, 1 <= w <= n_in -> match chosen w with Some a => cli_offers syms kvs w a | None => forall a, ~ cli_offers syms kvs w a end.
(** A witness has the chosen values on the public inputs up to the first without one. *)
Definition has_chosen (chosen : N -> option Fr) (n_in : N) (vals : list Fr) : Prop :=
  forall w, 1 <= w <= n_in -> (forall j, 1 <= j <= w -> chosen j <> None) -> nth_error vals (N.to_nat w) = chosen w.
