(** Specification vocabulary for C78. *)
From Coq Require Import List NArith ZArith.
From Coq Require Import Strings.String Strings.Byte.
From Verif Require Import Bytes Text Fld Bn254 Inputs SpecInputs WitnessCalc SpecWitnessCalc SpecBound.
Import ListNotations.
Local Open Scope N_scope.

(** From the inputs [full] the compiled circuit computes the wire values [vals] (wire 0 first). *)
Definition computes (m : wmodule) (full : list (text * json)) (vals : list Fr) : Prop :=
  exists gs w, complete_input m full gs /\ md_compute m gs = Some w /\ vals = map (fun v => fr (Z.of_N v)) w.
(** A public input that the command line binds is given by a JSON number below 0. *)
Definition negative_bound (syms : hmap N) (pub : list (text * json)) (n_in : N) : Prop :=
  exists w a name z, cli_bound syms pub n_in w a /\ doc_leaf pub name (JInt z) /\
    hm_get (lit "main." ++ name) syms = Some w /\ (z < 0)%Z.
