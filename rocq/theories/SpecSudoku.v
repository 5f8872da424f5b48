(** Specification: the Sudoku puzzle, and what the circuit shipped with the tools checks. *)
From Coq Require Import List Arith ZArith Permutation.
From Verif Require Import Fld Bn254.
Import ListNotations.

(** The 81 cells are numbered row by row. *)
Definition all_cells : list nat := seq 0 81.
Definition row_of (i : nat) : nat := i / 9.
Definition col_of (i : nat) : nat := i mod 9.
Definition box_of (i : nat) : nat := row_of i / 3 * 3 + col_of i / 3.
Definition in_unit (kind : nat -> nat) (k : nat) : list nat := filter (fun i => kind i =? k) all_cells.
(** [unit u]: [u] is the list of the cells of a row, a column or a box. *)
Definition unit (u : list nat) : Prop :=
  exists k, k < 9 /\ (u = in_unit row_of k \/ u = in_unit col_of k \/ u = in_unit box_of k).

(** A solved Sudoku: each digit once in each row, column and box, and the clues respected (a puzzle
    has 0 in its blank cells). *)
Definition digits : list nat := [1; 2; 3; 4; 5; 6; 7; 8; 9].
Definition solved (puzzle grid : nat -> nat) : Prop :=
  (forall u, unit u -> Permutation (map grid u) digits) /\
  (forall i, i < 81 -> puzzle i = 0 \/ grid i = puzzle i).

(** What the circuit checks, over field elements: the clues, and for each row, column and box the
    sum and the sum of the squares. *)
Local Open Scope fld_scope.
Definition total (f : nat -> Fr) (u : list nat) : Fr := fold_right (fun i t => f i + t) (0 : Fr) u.
Definition sums_right (grid : nat -> Fr) : Prop :=
  forall u, unit u -> total grid u = fr 45 /\ total (fun i => grid i * grid i) u = fr 285.
Definition accepted (puzzle grid : nat -> Fr) : Prop :=
  (forall i, i < 81 -> puzzle i = (0 : Fr) \/ grid i = puzzle i) /\ sums_right grid.

(** Digits as field elements. *)
Definition digit (n : nat) : Fr := fr (Z.of_nat n).
