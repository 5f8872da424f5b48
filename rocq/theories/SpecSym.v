(** Specification of .sym files: what a line says and what the whole text means.  Lines are
    described by how they are put together, not by how a program takes them apart. *)
From Coq Require Import List Bool Arith NArith ZArith.
From Verif Require Import Text.
Import ListNotations.
Local Open Scope N_scope.

Section SpecSym.
  Context (ws : N -> bool).

  (** [f] is white space around [t], and [t] has none at its ends. *)
  Definition padded (t f : text) : Prop :=
    exists p q, f = p ++ t ++ q /\ all_ws ws p /\ all_ws ws q /\ tight ws t.

  (** A decimal numeral with an optional sign. *)
  Definition signed_numeral (t : text) (z : Z) : Prop :=
    exists ds, ds <> [] /\ Forall (fun c => 48 <= c <= 57) ds /\
      ((t = ds /\ z = Z.of_N (digits_value ds)) \/
       (t = c_plus :: ds /\ z = Z.of_N (digits_value ds)) \/
       (t = c_minus :: ds /\ z = (- Z.of_N (digits_value ds))%Z)).

  (** A wire field: a numeral in the i32 range, with white space around it. *)
  Definition wire_field (f : text) (z : Z) : Prop :=
    (exists t, padded t f /\ signed_numeral t z) /\ (- 2 ^ 31 <= z < 2 ^ 31)%Z.

  Inductive said := Nothing | Record (wire : Z) (name : text) | Bad.

  (** Four fields without commas. *)
  Definition four_fields (l f0 f1 f2 f3 : text) : Prop :=
    l = f0 ++ c_comma :: f1 ++ c_comma :: f2 ++ c_comma :: f3 /\
    Forall (free_of c_comma) [f0; f1; f2; f3].

  Inductive says : text -> said -> Prop :=
  | says_nothing l : (forall f0 f1 f2 f3, ~ four_fields l f0 f1 f2 f3) -> says l Nothing
  | says_record l f0 f1 f2 f3 z name :
      four_fields l f0 f1 f2 f3 -> wire_field f1 z -> padded name f3 -> says l (Record z name)
  | says_bad l f0 f1 f2 f3 :
      four_fields l f0 f1 f2 f3 -> (forall z, ~ wire_field f1 z) -> says l Bad.

  (** The wire of [name]: that of the last record for it with a non-negative wire. *)
  Fixpoint wire_of (name : text) (ss : list said) : option N :=
    match ss with
    | [] => None
    | s :: ss =>
        match wire_of name ss with
        | Some w => Some w
        | None => match s with
                  | Record z n => if text_eqb name n && (0 <=? z)%Z then Some (Z.to_N z) else None
                  | _ => None
                  end
        end
    end.
End SpecSym.
