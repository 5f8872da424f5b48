(** Model of the two CircomCircuit implementations: packages/zkenc-cli/src/circuit.rs:70-150
    and packages/zkenc-js/src/lib.rs:303-369 (the same program on the same data). *)
From Coq Require Import List Bool Arith NArith ZArith Lia.
From Coq Require Import Strings.Byte.
From Verif Require Import Res Bytes Fld Bn254 CS R1cs R1csJs Wtns.
Import ListNotations.
Local Open Scope N_scope.

(** CircomCircuit (circuit.rs:17-20; lib.rs:303-307): the fields synthesis uses.  The witness
    HashMap is a partial function. *)
Record circom := Circom {
  cc_n_public : N;                    (* n_public_inputs() *)
  cc_n_wires : N;
  cc_constraints : list constraint_t;
  cc_witness : N -> option Fr
}.

(** from_r1cs + set_witness (circuit.rs:24-38) in a release build; CircomCircuit {..} of
    lib.rs:409-413 and 470-474. *)
Definition circom_of_cli (r : r1cs_file) (w : N -> option Fr) : circom :=
  Circom ((r_n_pub_out r + r_n_pub_in r) mod 2 ^ 32) (r_n_wires r) (r_constraints r) w.
Definition circom_of_js (h : js_header) (cs : list constraint_t) (w : N -> option Fr) : circom :=
  Circom (js_n_public h) (j_n_wires h) cs w.

(** The [variables: HashMap<u32, Variable>] (circuit.rs:74-75; lib.rs:322-323). *)
Definition vmap := N -> option var.
Definition vmap_init : vmap := fun i => if i =? 0 then Some VOne else None.
Definition vmap_insert (i : N) (v : var) (m : vmap) : vmap := fun j => if j =? i then Some v else m j.

(** [value.ok_or(SynthesisError::AssignmentMissing)] (circuit.rs:80-81, 87-88). *)
Definition wire_source (w : N -> option Fr) (i : N) : Fr + serr :=
  match w i with Some x => inl x | None => inr AssignmentMissing end.

(** The two allocation loops (circuit.rs:78-90; lib.rs:326-338). *)
Fixpoint alloc_inputs (w : N -> option Fr) (ids : list N) (vars : vmap) (k : vmap -> prog Fr) : prog Fr :=
  match ids with
  | [] => k vars
  | id :: ids => AllocInput (wire_source w id) (fun v => alloc_inputs w ids (vmap_insert id v vars) k)
  end.
Fixpoint alloc_witnesses (w : N -> option Fr) (ids : list N) (vars : vmap) (k : vmap -> prog Fr) : prog Fr :=
  match ids with
  | [] => k vars
  | id :: ids => AllocWitness (wire_source w id) (fun v => alloc_witnesses w ids (vmap_insert id v vars) k)
  end.

(** The closures a_closure, b_closure, c_closure (circuit.rs:103-139) and build_lc
    (lib.rs:358-369).  ark merges equal variables of a linear combination; here terms are
    kept apart, which has the same value. *)
Definition build_lc (vars : vmap) (fs : lc_t) : lc Fr :=
  flat_map (fun f => match vars (fst f) with Some v => [(bytes_to_fr (snd f), v)] | None => [] end) fs.

(** The constraint loop (circuit.rs:93-147; lib.rs:341-353). *)
Fixpoint enforce_all (vars : vmap) (cs : list constraint_t) : prog Fr :=
  match cs with
  | [] => Done
  | c :: cs => Enforce (build_lc vars (c_a c)) (build_lc vars (c_b c)) (build_lc vars (c_c c)) (enforce_all vars cs)
  end.

(** [lo..hi]. *)
Definition range (lo hi : N) : list N := map N.of_nat (seq (N.to_nat lo) (N.to_nat (hi - lo))).

(** generate_constraints (circuit.rs:71-150; lib.rs:320-356).  [n_public + 1] wraps in a
    release build. *)
Definition circom_prog (c : circom) : prog Fr :=
  alloc_inputs (cc_witness c) (range 1 (cc_n_public c + 1)) vmap_init (fun vars =>
  alloc_witnesses (cc_witness c) (range ((cc_n_public c + 1) mod 2 ^ 32) (cc_n_wires c)) vars (fun vars =>
  enforce_all vars (cc_constraints c))).
