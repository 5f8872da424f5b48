(** Model of the witness generator circom makes from packages/zkenc-cli/tests/circuits/sudoku.circom
    (tests/r1cs/sudoku.wasm; docs/static/circuits/sudoku.wasm is the same program): the values given for
    the two input signals, [<==] computes the squares (lines 12-16), every [===] and [<==] is asserted
    (lines 14-73), and the wires are those the shipped symbol file names.  Read from the template, not
    from the WebAssembly bytes; the order of the assertions is not modelled (one failure is all the
    caller sees). *)
From Coq Require Import List Bool Arith NArith ZArith.
From Coq Require Import Strings.String.
From Verif Require Import Text Fld Bn254 Sudoku SudokuFile SudokuFacts WitnessCalc SpecWitnessCalc P_Sudoku.
Import ListNotations.
Local Open Scope N_scope.

(** The value given for index [i] of the signal with hash [h] (sudoku.circom:9-10). *)
Definition slot_value (gs : list setting) (h : N) (i : nat) : Fr :=
  match find (fun g => (fst (fst g) =? h) && (snd (fst g) =? N.of_nat i)) gs with
  | Some g => fr (Z.of_N (snd g))
  | None => (f0 : Fr)
  end.
(** The signals of the template (sudoku.circom:9-16). *)
Definition computed (p g : nat -> Fr) (s : signal) : Fr :=
  match s with Puzzle i => p i | Solution i => g i | Squared i => fmul (g i) (g i) end.
(** The assertions (sudoku.circom:14-73). *)
Definition asserted (v : signal -> Fr) : bool :=
  forallb (fun c => feqb (fmul (lexp_value v (t_a c)) (lexp_value v (t_b c))) (lexp_value v (t_c c))) sudoku_template.
(** The computation; a witness value is written as a number below the prime. *)
Definition element_value (x : Fr) : N := Z.to_N (fr_val x).
Definition sudoku_compute (gs : list setting) : option (list N) :=
  let p := slot_value gs (name_hash (lit "puzzle")) in
  let g := slot_value gs (name_hash (lit "solution")) in
  if asserted (computed p g) then Some (map element_value (witness_values p g)) else None.
(** component main {public [puzzle]} = Sudoku() (sudoku.circom:76). *)
Definition sudoku_module : wmodule :=
  WModule 2 8 (Z.to_N bn_r) [(name_hash (lit "puzzle"), 81); (name_hash (lit "solution"), 81)] 202 sudoku_compute.
