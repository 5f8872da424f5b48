(** Specification of .sym files as the JavaScript package reads them (C27): what a line says. *)
From Coq Require Import List Bool Arith NArith ZArith.
From Verif Require Import Text SpecSym.
Import ListNotations.
Local Open Scope N_scope.

(** The field begins, after white space, with a decimal numeral of value [z], all its digits taken;
    anything may follow. *)
Definition leading_numeral (f : text) (z : Z) : Prop :=
  exists p sign ds rest, f = p ++ sign ++ ds ++ rest /\ all_ws js_ws p /\
    ds <> [] /\ Forall (fun c => 48 <= c <= 57) ds /\ (forall c r, rest = c :: r -> ~ 48 <= c <= 57) /\
    ((sign = [] /\ z = Z.of_N (digits_value ds)) \/ (sign = [c_plus] /\ z = Z.of_N (digits_value ds)) \/
     (sign = [c_minus] /\ z = (- Z.of_N (digits_value ds))%Z)).

(** No line is bad: it names a wire, or it says nothing. *)
Inductive js_says : text -> said -> Prop :=
| js_says_no_fields l : (forall f0 f1 f2 f3, ~ four_fields l f0 f1 f2 f3) -> js_says l Nothing
| js_says_no_numeral l f0 f1 f2 f3 : four_fields l f0 f1 f2 f3 -> (forall z, ~ leading_numeral f1 z) -> js_says l Nothing
| js_says_record l f0 f1 f2 f3 z name :
    four_fields l f0 f1 f2 f3 -> leading_numeral f1 z -> padded js_ws name f3 -> js_says l (Record z name).
