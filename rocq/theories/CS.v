(** Model of the arkworks constraint system (ark_relations::gr1cs) as used by
    zkenc-core/src/algorithm.rs and the two CircomCircuit implementations, and of an
    arbitrary [ConstraintSynthesizer] as a program that allocates variables and enforces
    rank-1 constraints.  External crate: the behaviour written here is part of the trusted
    base (see DESIGN.md). Simplifications: no symbolic linear combinations, no lookup
    predicates, and an allocation whose closure fails ends the program with that error
    (every synthesizer of the repository propagates it with [?]). *)
From Coq Require Import List Bool Arith Lia Ring.
From Verif Require Import Fld.
Import ListNotations.
Local Open Scope fld_scope.

(** ark_relations SynthesisError (only the shape matters to the callers). *)
Inductive serr := AssignmentMissing | SOther (n : nat).

(** ark_relations Variable: One, Instance(i) (first allocated input has index 1), Witness(i). *)
Inductive var := VOne | VInst (i : nat) | VWit (i : nat).

Section CS.
  Context (F : fieldT).

  Definition lc := list (F * var).
  Record row := Row { rA : lc; rB : lc; rC : lc }.

  (** A ConstraintSynthesizer (algorithm.rs:49, circuit.rs:120-190). *)
  Inductive prog : Type :=
  | Done
  | Fail (e : serr)
  | AllocInput (v : F + serr) (k : var -> prog)
  | AllocWitness (v : F + serr) (k : var -> prog)
  | Enforce (a b c : lc) (k : prog).

  Record csys := CSys {
    n_inst : nat;        (* num_instance_variables *)
    n_wit : nat;         (* num_witness_variables *)
    inst : list F;       (* instance_assignment *)
    wit : list F;        (* witness_assignment *)
    rows : list row      (* the R1CS predicate's constraints, in order *)
  }.

  (** ConstraintSystem::new_ref() (algorithm.rs:57, 235): one instance variable, the constant 1. *)
  Definition cs_new : csys := CSys 1 0 [f1] [] [].

  (** new_input_variable: the counter is incremented before the closure runs. *)
  Definition cs_count_input (s : csys) : csys :=
    CSys (S (n_inst s)) (n_wit s) (inst s) (wit s) (rows s).
  Definition cs_push_input (s : csys) (x : F) : csys :=
    CSys (S (n_inst s)) (n_wit s) (inst s ++ [x]) (wit s) (rows s).
  (** new_witness_variable, likewise. *)
  Definition cs_count_wit (s : csys) : csys :=
    CSys (n_inst s) (S (n_wit s)) (inst s) (wit s) (rows s).
  Definition cs_push_wit (s : csys) (x : F) : csys :=
    CSys (n_inst s) (S (n_wit s)) (inst s) (wit s ++ [x]) (rows s).
  (** enforce_r1cs_constraint. *)
  Definition cs_enforce (s : csys) (a b c : lc) : csys :=
    CSys (n_inst s) (n_wit s) (inst s) (wit s) (rows s ++ [Row a b c]).

  (** circuit.generate_constraints(cs.clone()) (algorithm.rs:58, 236-238): the final system
      and the synthesis error if any. *)
  Fixpoint synth (p : prog) (s : csys) : csys * option serr :=
    match p with
    | Done => (s, None)
    | Fail e => (s, Some e)
    | AllocInput (inl x) k => synth (k (VInst (n_inst s))) (cs_push_input s x)
    | AllocInput (inr e) _ => (cs_count_input s, Some e)
    | AllocWitness (inl x) k => synth (k (VWit (n_wit s))) (cs_push_wit s x)
    | AllocWitness (inr e) _ => (cs_count_wit s, Some e)
    | Enforce a b c k => synth k (cs_enforce s a b c)
    end.

  (** assigned_value. *)
  Definition var_val (s : csys) (v : var) : option F :=
    match v with
    | VOne => Some f1
    | VInst i => nth_error (inst s) i
    | VWit i => nth_error (wit s) i
    end.

  Fixpoint lc_val (s : csys) (l : lc) : option F :=
    match l with
    | [] => Some 0
    | (c, v) :: r =>
        match var_val s v, lc_val s r with
        | Some x, Some y => Some (c * x + y)
        | _, _ => None
        end
    end.

  (** One R1CS row; [None] when a variable has no value. *)
  Definition row_sat (s : csys) (r : row) : option bool :=
    match lc_val s (rA r), lc_val s (rB r), lc_val s (rC r) with
    | Some a, Some b, Some c => Some (feqb (a * b) c)
    | _, _, _ => None
    end.

  (** cs.is_satisfied() (algorithm.rs:242): [None] stands for the panic/error that a row
      over an unallocated variable causes; rows are checked in order and the first
      violated row ends the check. *)
  Fixpoint rows_sat (s : csys) (rs : list row) : option bool :=
    match rs with
    | [] => Some true
    | r :: rs' =>
        match row_sat s r with
        | None => None
        | Some false => Some false
        | Some true => rows_sat s rs'
        end
    end.
  Definition is_satisfied (s : csys) : option bool := rows_sat s (rows s).

  (** to_matrices: variable indices (One -> 0, Instance i -> i, Witness i -> n_inst + i);
      zero coefficients are dropped by make_row. *)
  Definition var_index (s : csys) (v : var) : nat :=
    match v with VOne => 0 | VInst i => i | VWit i => (n_inst s + i)%nat end.
  Definition make_row (s : csys) (l : lc) : list (F * nat) :=
    map (fun cv => (fst cv, var_index s (snd cv))) (filter (fun cv => negb (feqb (fst cv) 0)) l).

  (** A program whose constraints only mention variables allocated before (any program
      written against the arkworks API without smuggling variables between systems). *)
  Definition var_ok (ni nw : nat) (v : var) : Prop :=
    match v with VOne => True | VInst i => i < ni | VWit i => i < nw end.
  Definition lc_ok (ni nw : nat) (l : lc) : Prop := Forall (fun cv => var_ok ni nw (snd cv)) l.
  Fixpoint prog_ok (ni nw : nat) (p : prog) : Prop :=
    match p with
    | Done | Fail _ => True
    | AllocInput (inl x) k => prog_ok (S ni) nw (k (VInst ni))
    | AllocWitness (inl x) k => prog_ok ni (S nw) (k (VWit nw))
    | AllocInput (inr _) _ | AllocWitness (inr _) _ => True
    | Enforce a b c k => lc_ok ni nw a /\ lc_ok ni nw b /\ lc_ok ni nw c /\ prog_ok ni nw k
    end.
  Definition wf_prog (p : prog) : Prop := prog_ok 1 0 p.

  (** Specification view: the values a program allocates, read off the program text. *)
  Fixpoint inputs_of (ni nw : nat) (p : prog) : list F :=
    match p with
    | Done | Fail _ => []
    | AllocInput (inl x) k => x :: inputs_of (S ni) nw (k (VInst ni))
    | AllocWitness (inl x) k => inputs_of ni (S nw) (k (VWit nw))
    | AllocInput (inr _) _ | AllocWitness (inr _) _ => []
    | Enforce a b c k => inputs_of ni nw k
    end.
  Fixpoint witnesses_of (ni nw : nat) (p : prog) : list F :=
    match p with
    | Done | Fail _ => []
    | AllocInput (inl x) k => witnesses_of (S ni) nw (k (VInst ni))
    | AllocWitness (inl x) k => x :: witnesses_of ni (S nw) (k (VWit nw))
    | AllocInput (inr _) _ | AllocWitness (inr _) _ => []
    | Enforce a b c k => witnesses_of ni nw k
    end.
  Fixpoint rows_of (ni nw : nat) (p : prog) : list row :=
    match p with
    | Done | Fail _ => []
    | AllocInput (inl x) k => rows_of (S ni) nw (k (VInst ni))
    | AllocWitness (inl x) k => rows_of ni (S nw) (k (VWit nw))
    | AllocInput (inr _) _ | AllocWitness (inr _) _ => []
    | Enforce a b c k => Row a b c :: rows_of ni nw k
    end.
  Fixpoint error_of (ni nw : nat) (p : prog) : option serr :=
    match p with
    | Done => None
    | Fail e => Some e
    | AllocInput (inl x) k => error_of (S ni) nw (k (VInst ni))
    | AllocWitness (inl x) k => error_of ni (S nw) (k (VWit nw))
    | AllocInput (inr e) _ | AllocWitness (inr e) _ => Some e
    | Enforce a b c k => error_of ni nw k
    end.
  (** Number of variables counted although their value was missing (0 or 1). *)
  Fixpoint extra_of (ni nw : nat) (p : prog) : nat * nat :=
    match p with
    | Done | Fail _ => (0, 0)%nat
    | AllocInput (inl x) k => extra_of (S ni) nw (k (VInst ni))
    | AllocWitness (inl x) k => extra_of ni (S nw) (k (VWit nw))
    | AllocInput (inr _) _ => (1, 0)%nat
    | AllocWitness (inr _) _ => (0, 1)%nat
    | Enforce a b c k => extra_of ni nw k
    end.

  (** The specification's own notion of satisfaction: [val] gives a value to each variable. *)
  Definition lc_value (val : var -> F) (l : lc) : F :=
    fsum (map (fun cv => fst cv * val (snd cv)) l).
  Definition row_holds (val : var -> F) (r : row) : Prop :=
    lc_value val (rA r) * lc_value val (rB r) = lc_value val (rC r).
  Definition assignment_val (ins wits : list F) (v : var) : F :=
    match v with VOne => 1 | VInst i => nth i (1 :: ins) 0 | VWit i => nth i wits 0 end.
  (** All constraints of the program hold under the values the program itself assigns. *)
  Definition prog_satisfied (p : prog) : Prop :=
    Forall (row_holds (assignment_val (inputs_of 1 0 p) (witnesses_of 1 0 p))) (rows_of 1 0 p).
End CS.

Arguments Done {F}. Arguments Fail {F} e. Arguments AllocInput {F} v k.
Arguments AllocWitness {F} v k. Arguments Enforce {F} a b c k.
Arguments Row {F}. Arguments rA {F}. Arguments rB {F}. Arguments rC {F}.
Arguments CSys {F}. Arguments n_inst {F}. Arguments n_wit {F}. Arguments inst {F}.
Arguments wit {F}. Arguments rows {F}. Arguments cs_new {F}. Arguments synth {F}.
Arguments is_satisfied {F}. Arguments rows_sat {F}. Arguments row_sat {F}. Arguments lc_val {F}. Arguments var_val {F}.
Arguments make_row {F}. Arguments var_index {F}.
Arguments wf_prog {F}. Arguments prog_ok {F}. Arguments lc_ok {F}. Arguments inputs_of {F}. Arguments witnesses_of {F}.
Arguments rows_of {F}. Arguments error_of {F}. Arguments extra_of {F}. Arguments prog_satisfied {F}.
Arguments lc_value {F}. Arguments row_holds {F}. Arguments assignment_val {F}.
Arguments cs_push_input {F}. Arguments cs_push_wit {F}. Arguments cs_count_input {F}.
Arguments cs_count_wit {F}. Arguments cs_enforce {F}.
