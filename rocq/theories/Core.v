(** Model of zkenc-core/src/algorithm.rs and data_structures.rs. *)
From Coq Require Import List Bool Arith.
From Coq Require Import Strings.Byte.
From Verif Require Import Res Fld Groups CS Qap.
Import ListNotations.
Local Open Scope fld_scope.

(** algorithm.rs:17-26 *)
Inductive core_error :=
| SynthesisError (e : serr)
| InvalidWitness
| InvalidPublicInputs
| SerializationError.

Section Core.
  Context (F : fieldT) (E : pairingT F).

  (** data_structures.rs:18-39 *)
  Record encap_key := EncapKey {
    alpha_g1 : G1 E; beta_g2 : G2 E; delta_g2 : G2 E;
    r_u_query_g1 : list (G1 E); r_v_query_g2 : list (G2 E);
    phi_delta_query_g1 : list (G1 E); h_query_g1 : list (G1 E) }.
  (** data_structures.rs:43-49 *)
  Record ciphertext := Ciphertext { ct_key : encap_key; public_inputs : list F }.

  (** data_structures.rs:53 [Key([u8;32])]: a byte string (length 32 is a fact about the hash). *)
  Definition key := list byte.

  (** The evaluation-domain provider and blake3(serialize_compressed(s))
      (algorithm.rs:198-207, 356-366) as one function of the pairing value; serialisation of
      a pairing output into a Vec cannot fail, so the map_err branch is not modelled. *)
  Context (D : domainT F) (kdf : GT E -> key).

  (** The loop "for (i, &a_i) in l.iter().enumerate()" that pushes base query[i] and scalar
      a_i when i < query.len() (algorithm.rs:176-182 with offset 1, 286-291, 308-313,
      330-335 with offset 0). *)
  Fixpoint collect {A} (q : list A) (i : nat) (l : list F) : list A * list F :=
    match l with
    | [] => ([], [])
    | a :: l' =>
        let '(bs, ss) := collect q (S i) l' in
        match nth_error q i with
        | Some b => (b :: bs, a :: ss)
        | None => (bs, ss)
        end
    end.

  (** algorithm.rs:123-132: one iteration per variable; u_evals[i] etc. panic out of range;
      delta.inverse().expect(..) panics for zero. *)
  Fixpoint crs_loop (is : list nat) (alpha beta delta r : F) (u v w : list F)
    : res core_error (list (G1 E) * list (G2 E) * list (G1 E)) :=
    match is with
    | [] => Ok ([], [], [])
    | i :: is' =>
        match nth_error u i, nth_error v i, nth_error w i with
        | Some ui, Some vi, Some wi =>
            let r_u_i := r * ui in
            let r_v_i := r * vi in
            let phi_i := r * beta * ui + r * alpha * vi + r * r * wi in
            if feqb delta 0 then Panic
            else
              let phi_i_delta := phi_i * finv delta in
              match crs_loop is' alpha beta delta r u v w with
              | Ok (qu, qv, qp) =>
                  Ok (smul r_u_i (g1 E) :: qu, smul r_v_i (g2 E) :: qv, smul phi_i_delta (g1 E) :: qp)
              | Err e => Err e
              | Panic => Panic
              end
        | _, _, _ => Panic
        end
    end.

  (** encap (algorithm.rs:47-216) after the five scalars have been sampled (lines 96-100). *)
  Definition encap_with (circuit : prog F) (alpha beta delta r x : F)
    : res core_error (ciphertext * key) :=
    let cs := fst (synth circuit cs_new) in       (* the synthesis error is dropped: 57-69 *)
    match inst cs with                             (* assignment[1..].to_vec(): 81-82 *)
    | [] => Panic
    | _ :: pub =>
        let '(u, v, w) := evaluate_qap D cs x in
        match crs_loop (seq 0 (num_variables cs)) alpha beta delta r u v w with
        | Err e => Err e
        | Panic => Panic
        | Ok (qu, qv, qp) =>
            let ek := EncapKey (smul alpha (g1 E)) (smul beta (g2 E)) (smul delta (g2 E)) qu qv qp [] in
            let '(bs, ss) := collect qp 1 pub in
            let '(bases, scalars) :=                (* constant one first: 169-173 *)
              match qp with
              | [] => (bs, ss)
              | p0 :: _ => (p0 :: bs, 1 :: ss)
              end in
            match (match bases with
                   | [] => Some (madd (g1 E) (mopp (g1 E)))      (* 187-190 *)
                   | _ => msm bases scalars
                   end) with
            | None => Err SerializationError
            | Some phi_sum =>
                let s := madd (pair E (alpha_g1 ek) (beta_g2 ek)) (pair E phi_sum (g2 E)) in
                Ok (Ciphertext ek pub, kdf s)
            end
        end
    end.

  (** encap with its random number generator: five draws in the order of lines 96-100. *)
  Definition encap {R : Type} (next : R -> F * R) (circuit : prog F) (rng : R)
    : res core_error (ciphertext * key) * R :=
    let '(alpha, rng) := next rng in
    let '(beta, rng) := next rng in
    let '(delta, rng) := next rng in
    let '(r, rng) := next rng in
    let '(x, rng) := next rng in
    (encap_with circuit alpha beta delta r x, rng).

  (** algorithm.rs:274-281: compare full[i + 1] with the i-th expected public input; [None]: the
      index is out of range, a panic. *)
  Fixpoint pub_check (full : list F) (i : nat) (expected : list F) : option bool :=
    match expected with
    | [] => Some true
    | e :: es => match nth_error full (i + 1) with
                 | Some a => if feqb a e then pub_check full (S i) es else Some false
                 | None => None
                 end
    end.

  (** decap (algorithm.rs:226-374). *)
  Definition decap (circuit : prog F) (ct : ciphertext) : res core_error key :=
    let '(cs, err) := synth circuit cs_new in
    match err with
    | Some e => Err (SynthesisError e)                                   (* 236-239 *)
    | None =>
        match is_satisfied cs with
        | None => Panic                  (* row over an unallocated variable, see CS.v *)
        | Some false => Err InvalidWitness                               (* 242-246 *)
        | Some true =>
            let full := inst cs ++ wit cs in                             (* 252-264 *)
            if Nat.ltb (length full) (1 + length (public_inputs ct))
            then Err InvalidPublicInputs                                 (* 271-273 *)
            else match pub_check full 0 (public_inputs ct) with
            | None => Panic
            | Some false => Err InvalidPublicInputs                      (* 274-281 *)
            | Some true =>
              let ek := ct_key ct in
              let '(ab, as_) := collect (r_u_query_g1 ek) 0 full in
              match ab with
              | [] => Err InvalidWitness                                 (* 297-301 *)
              | _ =>
                match msm ab as_ with
                | None => Err SerializationError
                | Some a_sum =>
                  let a_point := madd (alpha_g1 ek) a_sum in
                  let '(bb, bs) := collect (r_v_query_g2 ek) 0 full in
                  match bb with
                  | [] => Err InvalidWitness
                  | _ =>
                    match msm bb bs with
                    | None => Err SerializationError
                    | Some b_sum =>
                      let b_point := madd (beta_g2 ek) b_sum in
                      let '(cb, cs_) := collect (phi_delta_query_g1 ek) 0 full in
                      match cb with
                      | [] => Err InvalidWitness
                      | _ =>
                        match msm cb cs_ with
                        | None => Err SerializationError
                        | Some c_point =>
                          let s := madd (pair E a_point b_point)
                                        (mopp (pair E c_point (delta_g2 ek))) in
                          Ok (kdf s)
                        end
                      end
                    end
                  end
                end
              end
            end
        end
    end.

  (** verify_ciphertext (algorithm.rs:384-415). *)
  Definition verify_ciphertext (ct : ciphertext) (expected : list F) : bool :=
    if negb (Nat.eqb (length (public_inputs ct)) (length expected)) then false
    else forallb (fun ab => feqb (fst ab) (snd ab)) (combine (public_inputs ct) expected).
End Core.

Arguments EncapKey {F E}. Arguments alpha_g1 {F E}. Arguments beta_g2 {F E}.
Arguments delta_g2 {F E}. Arguments r_u_query_g1 {F E}. Arguments r_v_query_g2 {F E}.
Arguments phi_delta_query_g1 {F E}. Arguments h_query_g1 {F E}.
Arguments Ciphertext {F E}. Arguments ct_key {F E}. Arguments public_inputs {F E}.
Arguments collect {F A}. Arguments crs_loop {F}. Arguments encap_with {F E}. Arguments encap {F E}.
Arguments pub_check {F}. Arguments decap {F E}. Arguments verify_ciphertext {F E}.
