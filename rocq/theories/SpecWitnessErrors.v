(** Specification vocabulary for the exact error of the witness calculator (C48).  The numbers of a
    value, the settings of an entry and complete inputs are in SpecWitnessCalc.v. *)
From Coq Require Import List Bool Arith NArith ZArith Permutation.
From Verif Require Import Bytes Text Inputs JsNumber SpecNumerals SpecJsNumber WitnessCalc SpecWitnessCalc.
Import ListNotations.
Local Open Scope N_scope.

(** What JavaScript throws for a value, not an array, that is no number: null is a TypeError, a
    number that is not whole a RangeError, a text that spells no integer and an object SyntaxErrors. *)
Inductive bad_number : json -> js_throw -> Prop :=
| bn_null : bad_number JNull JsTypeError
| bn_number t : (forall z, ~ whole_number (JFloat t) z) -> bad_number (JFloat t) JsRangeError
| bn_text t : (forall z, ~ bigint_text t z) -> bad_number (JStr t) JsSyntaxError
| bn_object o : bad_number (JObj o) JsSyntaxError.
(** In nested arrays the first value at fault counts. *)
Inductive no_numbers : json -> js_throw -> Prop :=
| nn_bad v e : bad_number v e -> no_numbers v e
| nn_array l1 x l2 zs e : numbers_of l1 zs -> no_numbers x e -> no_numbers (JArr (l1 ++ x :: l2)) e.

(** What is wrong with one entry, in this order: a value that is no number, an unknown name, too few
    or too many values. *)
Inductive entry_error (m : wmodule) (k : text) (v : json) : wc_error -> Prop :=
| ee_value e : no_numbers v e -> entry_error m k v (WcValue e)
| ee_unknown zs : numbers v zs -> ~ In (name_hash k) (map fst (md_signals m)) -> entry_error m k v (WcSignalNotFound k)
| ee_few zs n : numbers v zs -> In (name_hash k, n) (md_signals m) -> N.of_nat (List.length zs) < n -> entry_error m k v (WcNotEnough k)
| ee_many zs n : numbers v zs -> In (name_hash k, n) (md_signals m) -> n < N.of_nat (List.length zs) -> entry_error m k v (WcTooMany k).

(** The entries [pre] all go through, with the settings [gs]: each is faultless, no slot is set
    twice, and if they fill every slot, no assertion of the circuit fails. *)
Definition accepted (m : wmodule) (pre : list (text * json)) (gs : list setting) : Prop :=
  exists per, Forall2 (entry_settings m) pre per /\ gs = List.concat per /\ NoDup (map fst gs) /\
    (Permutation (map fst gs) (slots m) -> md_compute m gs <> None).

(** [stops_with m input e]: the calculation ends with the error [e]. *)
Inductive stops_with (m : wmodule) (input : list (text * json)) : wc_error -> Prop :=
(* A circuit without inputs runs at once. *)
| sw_init : slots m = [] -> md_compute m [] = None -> stops_with m input WcInit
(* The first entry that does not go through is faulty itself, *)
| sw_entry pre k v post gs e : input = pre ++ (k, v) :: post -> accepted m pre gs -> entry_error m k v e ->
    stops_with m input e
(* or its signal already has values: setting its first one fails, *)
| sw_twice pre k v post gs g : input = pre ++ (k, v) :: post -> accepted m pre gs -> entry_settings m (k, v) g ->
    In (name_hash k, 0) (map fst gs) -> stops_with m input (WcSet k 0)
(* or it fills the last slot and an assertion of the circuit fails: setting its last value fails. *)
| sw_assertion pre k v post gs g j : input = pre ++ (k, v) :: post -> accepted m pre gs -> entry_settings m (k, v) g ->
    complete_input m (pre ++ [(k, v)]) (gs ++ g) -> md_compute m (gs ++ g) = None -> N.of_nat (List.length g) = j + 1 ->
    stops_with m input (WcSet k j)
(* All entries go through but leave a slot without a value. *)
| sw_missing gs slot : accepted m input gs -> In slot (slots m) -> ~ In slot (map fst gs) ->
    stops_with m input WcNotAllInputs.
