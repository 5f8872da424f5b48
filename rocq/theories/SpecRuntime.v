(** Specification vocabulary for C66: what a calculation reports, and what is logged. *)
From Coq Require Import List Bool Arith NArith ZArith.
From Coq Require Import Strings.String Strings.Byte.
From Verif Require Import Text WitnessCalc Runtime.
Import ListNotations.
Local Open Scope N_scope.

(** A calculation that ends normally, or with exception [code] after the callbacks [before]. *)
Definition quiet (cs : list callback) : Prop := forall code, ~ In (Exception code) cs.
Inductive outcome (r : list callback) : list callback -> option Z -> Prop :=
| normal : quiet r -> outcome r r None
| raised before code after : r = before ++ Exception code :: after -> quiet before -> outcome r before (Some code).

(** Characters as JavaScript strings keep them. *)
Definition chars (m : list N) : text := map (fun c => c mod 65536) m.
(** The error messages among callbacks, each on its line. *)
Definition error_lines (cs : list callback) : text :=
  flat_map (fun c => match c with PrintError m => chars m ++ [10] | _ => [] end) cs.
Definition code_name (code : Z) (t : text) : Prop :=
  (code = 1%Z /\ t = lit "Signal not found.") \/ (code = 2%Z /\ t = lit "Too many signals set.") \/
  (code = 3%Z /\ t = lit "Signal already set.") \/ (code = 4%Z /\ t = lit "Assert Failed.") \/
  (code = 5%Z /\ t = lit "Not enough memory.") \/ (code = 6%Z /\ t = lit "Input signal array access exceeds the size.") \/
  (~ (1 <= code <= 6)%Z /\ t = lit "Unknown error.").

(** What a circuit logs: items and line ends. *)
Inductive logged := Item (t : text) | LineEnd.
Inductive logs : callback -> list logged -> Prop :=
| lg_end m : chars m = [10] -> logs (WriteBuffer m) [LineEnd]
| lg_item m : chars m <> [10] -> logs (WriteBuffer m) [Item (chars m)]
| lg_value ws : logs (ShowShared ws) [Item (dec_text_z (from_array32 (rev (map u32_of ws))))]
| lg_error m : logs (PrintError m) []
| lg_exception c : logs (Exception c) [].
(** A line: the items separated by blanks, those before the first non-empty one dropped. *)
Fixpoint joined (items : list text) : text :=
  match items with [] => [] | [t] => t | t :: items => t ++ [32] ++ joined items end.
Inductive line_of : list text -> text -> Prop :=
| line_skip items t : line_of items t -> line_of ([] :: items) t
| line_none : line_of [] []
| line_items c t items : line_of ((c :: t) :: items) (joined ((c :: t) :: items)).
(** The complete lines of a log. *)
Inductive lines_of : list logged -> list text -> Prop :=
| lines_none items : lines_of (map Item items) []
| lines_one items l t lines : line_of items t -> lines_of l lines -> lines_of (map Item items ++ LineEnd :: l) (t :: lines).
