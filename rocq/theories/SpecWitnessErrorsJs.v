(** Specification vocabulary for the exact error of the original witness calculator (C64).  Numbers,
    bad numbers, settings, slots and accepted entries are those of SpecWitnessCalc.v and
    SpecWitnessErrors.v. *)
From Coq Require Import List Bool Arith NArith ZArith Permutation.
From Verif Require Import Bytes Text Inputs JsNumber SpecNumerals SpecJsNumber WitnessCalc SpecWitnessCalc SpecWitnessErrors.
Import ListNotations.
Local Open Scope N_scope.

(** The values in a value that are not arrays, arrays of any depth flattened in order. *)
Inductive flattens : json -> list json -> Prop :=
| fl_one v : (forall l, v <> JArr l) -> flattens v [v]
| fl_array l xs : flattens_all l xs -> flattens (JArr l) xs
with flattens_all : list json -> list json -> Prop :=
| fl_nil : flattens_all [] []
| fl_cons v l xs xs' : flattens v xs -> flattens_all l xs' -> flattens_all (v :: l) (xs ++ xs').

(** What is wrong with one entry, looking at its name and the number of its values only. *)
Inductive shape_error (m : wmodule) (k : text) (v : json) : wc_error -> Prop :=
| se_unknown : ~ In (name_hash k) (map fst (md_signals m)) -> shape_error m k v (WcSignalNotFound k)
| se_few xs n : flattens v xs -> In (name_hash k, n) (md_signals m) -> N.of_nat (List.length xs) < n -> shape_error m k v (WcNotEnough k)
| se_many xs n : flattens v xs -> In (name_hash k, n) (md_signals m) -> n < N.of_nat (List.length xs) -> shape_error m k v (WcTooMany k).

(** [original_stops m input e]: the calculation of the original ends with the error [e]. *)
Inductive original_stops (m : wmodule) (input : list (text * json)) : wc_error -> Prop :=
(* A circuit without inputs runs at once. *)
| os_init : slots m = [] -> md_compute m [] = None -> original_stops m input WcInit
(* The first entry that does not go through has an unknown name, or too few or too many values, *)
| os_shape pre k v post gs e : input = pre ++ (k, v) :: post -> accepted m pre gs -> shape_error m k v e ->
    original_stops m input e
(* or its first value at fault is no number, and its signal has no values yet (or that is the first value), *)
| os_value pre k v post gs x1 x x2 zs e : input = pre ++ (k, v) :: post -> accepted m pre gs ->
    flattens v (x1 ++ x :: x2) -> In (name_hash k, N.of_nat (List.length (x1 ++ x :: x2))) (md_signals m) ->
    Forall2 whole_number x1 zs -> bad_number x e -> (x1 = [] \/ ~ In (name_hash k, 0) (map fst gs)) ->
    original_stops m input (WcValue e)
(* or its first value is a number and its signal already has values: setting that one fails, *)
| os_twice pre k v post gs x xs z : input = pre ++ (k, v) :: post -> accepted m pre gs ->
    flattens v (x :: xs) -> In (name_hash k, N.of_nat (List.length (x :: xs))) (md_signals m) ->
    whole_number x z -> In (name_hash k, 0) (map fst gs) -> original_stops m input (WcSet k 0)
(* or it fills the last slot and an assertion of the circuit fails: setting its last value fails. *)
| os_assertion pre k v post gs g j : input = pre ++ (k, v) :: post -> accepted m pre gs -> entry_settings m (k, v) g ->
    complete_input m (pre ++ [(k, v)]) (gs ++ g) -> md_compute m (gs ++ g) = None -> N.of_nat (List.length g) = j + 1 ->
    original_stops m input (WcSet k j)
(* All entries go through but leave a slot without a value. *)
| os_missing gs slot : accepted m input gs -> In slot (slots m) -> ~ In slot (map fst gs) ->
    original_stops m input WcNotAllInputs.
