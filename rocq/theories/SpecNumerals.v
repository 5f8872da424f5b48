(** Specification: the texts JavaScript's BigInt reads as integers, and decimal texts (C57). *)
From Coq Require Import List NArith ZArith.
From Verif Require Import Text.
Import ListNotations.
Local Open Scope N_scope.

(** A digit character and its value. *)
Inductive digit_char : N -> N -> Prop :=
| dc_09 d : d < 10 -> digit_char (48 + d) d
| dc_lower d : 10 <= d < 16 -> digit_char (97 + (d - 10)) d
| dc_upper d : 10 <= d < 16 -> digit_char (65 + (d - 10)) d.
(** [spelled r t v]: the digits [t] spell [v] in radix [r], most significant first. *)
Inductive spelled (r : N) : text -> N -> Prop :=
| sp_first c d : digit_char c d -> d < r -> spelled r [c] d
| sp_next t v c d : spelled r t v -> digit_char c d -> d < r -> spelled r (t ++ [c]) (v * r + d).
(** White space: tab to carriage return, space, no-break space, byte order mark, the Unicode spaces
    and line separators. *)
Definition blank (c : N) : Prop :=
  9 <= c <= 13 \/ In c [32; 160; 5760; 8232; 8233; 8239; 8287; 12288; 65279] \/ 8192 <= c <= 8202.
Inductive integer_literal : text -> Z -> Prop :=
| il_decimal t v : spelled 10 t v -> integer_literal t (Z.of_N v)
| il_plus t v : spelled 10 t v -> integer_literal (43 :: t) (Z.of_N v)
| il_minus t v : spelled 10 t v -> integer_literal (45 :: t) (- Z.of_N v)
| il_hex x t v : x = 120 \/ x = 88 -> spelled 16 t v -> integer_literal (48 :: x :: t) (Z.of_N v)
| il_octal x t v : x = 111 \/ x = 79 -> spelled 8 t v -> integer_literal (48 :: x :: t) (Z.of_N v)
| il_binary x t v : x = 98 \/ x = 66 -> spelled 2 t v -> integer_literal (48 :: x :: t) (Z.of_N v).
(** A text BigInt accepts: blanks only (zero), or a literal with blanks around it. *)
Inductive bigint_text : text -> Z -> Prop :=
| bt_blank t : Forall blank t -> bigint_text t 0
| bt_literal p l q z : Forall blank p -> integer_literal l z -> Forall blank q -> bigint_text (p ++ l ++ q) z.
