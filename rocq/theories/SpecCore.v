(** Specification vocabulary for the core properties (C01-C13): what a circuit program
    assigns, which constraints it states, and when they hold.  Everything is read off the
    program text; nothing here refers to encap, decap or the constraint-system state. *)
From Coq Require Import List.
From Verif Require Import Fld CS.
Import ListNotations.

Section SpecCore.
  Context {F : fieldT}.
  (** Public / private values the program allocates (before it stops). *)
  Definition public_values (c : prog F) : list F := inputs_of 1 0 c.
  Definition private_values (c : prog F) : list F := witnesses_of 1 0 c.
  (** Constraints the program states (before it stops). *)
  Definition constraints_stated (c : prog F) : list (row F) := rows_of 1 0 c.
  (** The error the program stops with, if any. *)
  Definition stops_with (c : prog F) : option serr := error_of 1 0 c.
  Definition completes (c : prog F) : Prop := stops_with c = None.
  (** Every stated constraint holds for the program's own values. *)
  Definition constraints_hold (c : prog F) : Prop :=
    Forall (row_holds (assignment_val (public_values c) (private_values c))) (constraints_stated c).
  (** Constraints mention only variables allocated before. *)
  Definition well_formed (c : prog F) : Prop := wf_prog c.
  (** A complete, satisfied circuit. *)
  Definition satisfied (c : prog F) : Prop := well_formed c /\ completes c /\ constraints_hold c.
  Definition is_prefix {A} (a b : list A) : Prop := exists rest, b = a ++ rest.
  (** The circuit that only declares the given public inputs. *)
  Fixpoint trivial_circuit (pub : list F) : prog F :=
    match pub with [] => Done | a :: r => AllocInput (inl a) (fun _ => trivial_circuit r) end.
End SpecCore.
