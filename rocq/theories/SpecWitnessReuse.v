(** Specification vocabulary for C64 and C65: documents of numbers, histories of one calculator. *)
From Coq Require Import List Bool Arith NArith ZArith.
From Coq Require Import Strings.String Strings.Byte.
From Verif Require Import Res Bytes Text Inputs WitnessCalc SpecWitnessCalc WitnessCalcJs.
Import ListNotations.

(** Every value of the document is made of whole numbers (in any notation, in arrays of any depth). *)
Definition all_numbers (input : list (text * json)) : Prop := Forall (fun kv => exists zs, numbers (snd kv) zs) input.

(** What a new calculator answers to a request. *)
Definition new_calculator (m : wmodule) (q : request) : answer :=
  match q with
  | AskNumbers x => Numbers (calculate_witness m x)
  | AskBytes x => Binary (calculate_bin_witness m x)
  | AskFile x => Binary (calculate_wtns m x)
  end.
(** The same form of answer for another input. *)
Definition on_input (q : request) (x : list (text * json)) : request :=
  match q with AskNumbers _ => AskNumbers x | AskBytes _ => AskBytes x | AskFile _ => AskFile x end.
Definition has_witness (m : wmodule) (q : request) : Prop := exists zs, calculate_witness m (input_of q) = Ok zs.
(** Events without a call starting; the events of calls each awaited before the next. *)
Definition nothing_starts (evs : list event) : Prop := forall i q, ~ In (Start i q) evs.
Fixpoint one_by_one (i : nat) (qs : list request) : list event :=
  match qs with [] => [] | q :: qs => Start i q :: Finish i :: one_by_one (S i) qs end.
