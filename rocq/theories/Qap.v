(** Model of zkenc-core/src/r1cs_to_qap.rs. *)
From Coq Require Import List Bool Arith Lia.
From Verif Require Import Fld CS.
Import ListNotations.
Local Open Scope fld_scope.

Section Qap.
  Context (F : fieldT).

  (** ark_poly GeneralEvaluationDomain::new (r1cs_to_qap.rs:77-84): for a requested size the
      points of the chosen domain, or None.  External crate: the contract used by the
      theorems is [domain_ok]. *)
  Record domainT := DomainT { dom_new : nat -> option (list F) }.
  Definition domain_ok (D : domainT) : Prop :=
    forall n ds, dom_new D n = Some ds -> n <= length ds /\ NoDup ds.

  (** domain.evaluate_all_lagrange_coefficients(x) (r1cs_to_qap.rs:88): L_j(x) for every j,
      written as the textbook product (arkworks uses a faster equivalent formula). *)
  Definition others (j : nat) (ds : list F) : list F := firstn j ds ++ skipn (S j) ds.
  Definition lagrange_at (ds : list F) (j : nat) (x : F) : F :=
    fold_right fmul 1 (map (fun e => (x - e) / (nth j ds 0 - e)) (others j ds)).
  Definition lagrange_all (ds : list F) (x : F) : list F :=
    map (fun j => lagrange_at ds j x) (seq 0 (length ds)).

  (** num_public_inputs, num_variables, num_constraints (r1cs_to_qap.rs:12-29).
      "public inputs" here includes the constant one. *)
  Definition num_public_inputs (s : csys F) : nat := n_inst s.
  Definition num_variables (s : csys F) : nat := (num_public_inputs s + n_wit s)%nat.
  Definition num_constraints (s : csys F) : nat := length (rows s).

  (** [evals[index] += y] (r1cs_to_qap.rs:103,110,117). *)
  Fixpoint add_at (l : list F) (i : nat) (y : F) : list F :=
    match l, i with
    | [], _ => []
    | a :: r, O => (a + y) :: r
    | a :: r, S i' => a :: add_at r i' y
    end.

  (** One matrix row: for (coeff, index), guarded by index < m (r1cs_to_qap.rs:101-105). *)
  Definition acc_row (m : nat) (lag : F) (mrow : list (F * nat)) (evals : list F) : list F :=
    fold_left (fun ev ci => if snd ci <? m then add_at ev (snd ci) (lag * fst ci) else ev) mrow evals.

  (** The accumulation loop for one matrix over the first n_constraints coefficients
      (r1cs_to_qap.rs:98-120; the three matrices are independent accumulators, so the model
      runs one loop per matrix). *)
  Definition acc_matrix (m : nat) (lags : list F) (mat : list (list (F * nat))) : list F :=
    fold_left (fun ev lr => acc_row m (fst lr) (snd lr) ev) (combine lags mat) (repeat 0 m).

  (** evaluate_qap_polynomials_at_x (r1cs_to_qap.rs:54-124).  The R1CS predicate is always
      registered with three matrices, so the first two early returns (lines 63-75) are not
      reachable; the third (domain too large, lines 78-84) is modelled. *)
  Definition evaluate_qap (D : domainT) (s : csys F) (x : F) : list F * list F * list F :=
    let m := num_variables s in
    match dom_new D (num_constraints s + num_public_inputs s) with
    | None => (repeat 0 m, repeat 0 m, repeat 0 m)
    | Some ds =>
        let lags := firstn (num_constraints s) (lagrange_all ds x) in
        (acc_matrix m lags (map (fun r => make_row s (rA r)) (rows s)),
         acc_matrix m lags (map (fun r => make_row s (rB r)) (rows s)),
         acc_matrix m lags (map (fun r => make_row s (rC r)) (rows s)))
    end.
End Qap.
Arguments DomainT {F}. Arguments dom_new {F}. Arguments domain_ok {F}.
Arguments lagrange_at {F}. Arguments lagrange_all {F}. Arguments others {F}.
Arguments num_public_inputs {F}. Arguments num_variables {F}. Arguments num_constraints {F}.
Arguments add_at {F}. Arguments acc_row {F}. Arguments acc_matrix {F}. Arguments evaluate_qap {F}.
