(** Specification: how bytes that may be no UTF-8 are shown (Unicode 15, section 3.9, "U+FFFD substitution
    of maximal subparts"). *)
From Coq Require Import List NArith.
From Coq Require Import Strings.Byte.
From Verif Require Import Text Utf8.
Import ListNotations.
Local Open Scope N_scope.

(** [p] is the beginning, or all, of an encoded character. *)
Definition begins_char (p : list byte) : Prop := exists c q, scalar c /\ utf8_char c = p ++ q.
(** [p], which [rest] follows, is broken: no encoded character stands there, and [p] is the longest piece
    that could still have become one, or one byte if there is none. *)
Definition broken (p rest : list byte) : Prop :=
  p <> [] /\
  (forall c q, scalar c -> p ++ rest <> utf8_char c ++ q) /\
  (List.length p = 1%nat \/ begins_char p) /\
  (forall p' q, p ++ rest = p' ++ q -> begins_char p' -> (List.length p' <= List.length p)%nat).
Inductive shown_as : list byte -> text -> Prop :=
| shown_nothing : shown_as [] []
| shown_char c b t : scalar c -> shown_as b t -> shown_as (utf8_char c ++ b) (c :: t)
| shown_broken p b t : broken p b -> shown_as b t -> shown_as (p ++ b) (65533 :: t).
