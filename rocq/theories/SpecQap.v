(** What the QAP of a constraint system is, stated without the evaluation code. *)
From Coq Require Import List Bool Arith.
From Verif Require Import Fld CS Poly.
Import ListNotations.
Local Open Scope fld_scope.

Section SpecQap.
  Context (F : fieldT).

  (** Total coefficient of variable number [i] (0 = the constant, then the public inputs,
      then the private ones, with [ni] public ones including the constant) in a linear
      combination. *)
  Definition index_of (ni : nat) (v : var) : nat :=
    match v with VOne => 0%nat | VInst k => k | VWit k => (ni + k)%nat end.
  Definition coeff_of (ni i : nat) (l : lc F) : F :=
    fsum (map (fun cv => if index_of ni (snd cv) =? i then fst cv else 0) l).

  (** [interpolates ds ys p]: p has degree below the domain size, takes the value y_j at
      the j-th point and 0 at the points beyond the list of values. *)
  Definition interpolates (ds ys : list F) (p : poly F) : Prop :=
    length p <= length ds /\
    forall j, j < length ds -> peval p (nth j ds 0) = nth j ys 0.

  (** Column of variable i in the matrix selected by [sel]. *)
  Definition column (s : csys F) (sel : row F -> lc F) (i : nat) : list F :=
    map (fun r => coeff_of (n_inst s) i (sel r)) (rows s).
End SpecQap.
Arguments index_of ni v : clear implicits.
Arguments coeff_of {F}. Arguments interpolates {F}. Arguments column {F}.
