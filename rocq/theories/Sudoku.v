(** Model of the Sudoku circuit, packages/zkenc-cli/tests/circuits/sudoku.circom: the template as
    the list of constraints its loops state.  (The circom language's [<==] and [===].) *)
From Coq Require Import List Bool Arith NArith ZArith.
From Coq Require Import Strings.String.
From Verif Require Import Text Fld Bn254.
Import ListNotations.

(** The signals (sudoku.circom:9-13); [None] below stands for the constant 1. *)
Inductive signal := Puzzle (i : nat) | Solution (i : nat) | Squared (i : nat).
(** Linear expressions and constraints a * b = c. *)
Definition lexp := list (Z * option signal).
Record tconstraint := TC { t_a : lexp; t_b : lexp; t_c : lexp }.

(** solutionSquared[i] <== solution[i] * solution[i] (sudoku.circom:14-16). *)
Definition squares_part : list tconstraint :=
  map (fun i => TC [(1%Z, Some (Solution i))] [(1%Z, Some (Solution i))] [(1%Z, Some (Squared i))]) (seq 0 81).
(** puzzle[i] * (puzzle[i] - solution[i]) === 0 (sudoku.circom:19-25). *)
Definition clues_part : list tconstraint :=
  map (fun i => TC [(1%Z, Some (Puzzle i))] [(1%Z, Some (Puzzle i)); ((-1)%Z, Some (Solution i))] []) (seq 0 81).
(** sum === 45; sumSquares === 285, for the cells [idx] of one unit (sudoku.circom:29-39). *)
Definition unit_part (idx : list nat) : list tconstraint :=
  [TC [] [] (map (fun i => (1%Z, Some (Solution i))) idx ++ [((-45)%Z, None)]);
   TC [] [] (map (fun i => (1%Z, Some (Squared i))) idx ++ [((-285)%Z, None)])].
(** Rows (sudoku.circom:28-40), columns (sudoku.circom:43-53), boxes (sudoku.circom:56-73). *)
Definition rows_part : list tconstraint :=
  flat_map (fun row => unit_part (map (fun col => row * 9 + col) (seq 0 9))) (seq 0 9).
Definition cols_part : list tconstraint :=
  flat_map (fun col => unit_part (map (fun row => row * 9 + col) (seq 0 9))) (seq 0 9).
Definition boxes_part : list tconstraint :=
  flat_map (fun box_row => flat_map (fun box_col =>
    unit_part (flat_map (fun i => map (fun j => (box_row * 3 + i) * 9 + (box_col * 3 + j)) (seq 0 3)) (seq 0 3)))
    (seq 0 3)) (seq 0 3).
(** template Sudoku (sudoku.circom:8-74). *)
Definition sudoku_template : list tconstraint :=
  squares_part ++ clues_part ++ rows_part ++ cols_part ++ boxes_part.

(** Truth of a template under values of its signals. *)
Local Open Scope fld_scope.
Definition signal_value (v : signal -> Fr) (s : option signal) : Fr :=
  match s with Some s => v s | None => (1 : Fr) end.
Fixpoint lexp_value (v : signal -> Fr) (e : lexp) : Fr :=
  match e with [] => (0 : Fr) | (k, s) :: e => fr k * signal_value v s + lexp_value v e end.
Definition tconstraint_true (v : signal -> Fr) (c : tconstraint) : Prop :=
  lexp_value v (t_a c) * lexp_value v (t_b c) = lexp_value v (t_c c).
Definition template_true (v : signal -> Fr) (l : list tconstraint) : Prop := Forall (tconstraint_true v) l.

(** The names of the signals in the symbol file (component main, sudoku.circom:76). *)
Definition signal_name (s : signal) : text :=
  match s with
  | Puzzle i => (lit "main.puzzle[" ++ dec_text (N.of_nat i) ++ lit "]")%list
  | Solution i => (lit "main.solution[" ++ dec_text (N.of_nat i) ++ lit "]")%list
  | Squared i => (lit "main.solutionSquared[" ++ dec_text (N.of_nat i) ++ lit "]")%list
  end.
