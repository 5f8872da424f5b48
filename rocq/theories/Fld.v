(** Scalar fields (arkworks [PrimeField]) as an algebraic record.  The model is
    parameterised by one; concrete instances are in Zp.v and Bn254.v. *)
From Coq Require Import List Bool Field_theory Field Ring_theory Ring Lia.
Import ListNotations.

Record fieldT := FieldT {
  fcar :> Type;
  f0 : fcar; f1 : fcar;
  fadd : fcar -> fcar -> fcar;
  fmul : fcar -> fcar -> fcar;
  fsub : fcar -> fcar -> fcar;
  fopp : fcar -> fcar;
  fdiv : fcar -> fcar -> fcar;
  finv : fcar -> fcar;
  f_th : field_theory f0 f1 fadd fmul fsub fopp fdiv finv eq;
  feqb : fcar -> fcar -> bool;
  feqb_spec : forall x y, reflect (x = y) (feqb x y)
}.

Arguments f0 {_}. Arguments f1 {_}.
Arguments fadd {_} _ _. Arguments fmul {_} _ _. Arguments fsub {_} _ _.
Arguments fopp {_} _. Arguments fdiv {_} _ _. Arguments finv {_} _.
Arguments feqb {_} _ _. Arguments feqb_spec {_} _ _.

Declare Scope fld_scope.
Delimit Scope fld_scope with fld.
Notation "0" := f0 : fld_scope.
Notation "1" := f1 : fld_scope.
Infix "+" := fadd : fld_scope.
Infix "*" := fmul : fld_scope.
Infix "-" := fsub : fld_scope.
Infix "/" := fdiv : fld_scope.
Notation "- x" := (fopp x) : fld_scope.

Section FieldFacts.
  Context (F : fieldT).
  Local Open Scope fld_scope.
  Add Field Ffld : (f_th F).

  Lemma f_1_neq_0 : (f1 : F) <> f0.
  Proof. exact (F_1_neq_0 (f_th F)). Qed.

  Lemma feqb_refl (x : F) : feqb x x = true.
  Proof. destruct (feqb_spec x x); congruence. Qed.

  Lemma feqb_true (x y : F) : feqb x y = true <-> x = y.
  Proof. destruct (feqb_spec x y); split; congruence. Qed.

  Lemma feqb_false (x y : F) : feqb x y = false <-> x <> y.
  Proof. destruct (feqb_spec x y); split; congruence. Qed.

  Lemma f_eq_dec (x y : F) : {x = y} + {x <> y}.
  Proof. destruct (feqb_spec x y); auto. Qed.

  Lemma fmul_0_l (x : F) : 0 * x = 0. Proof. ring. Qed.
  Lemma fmul_0_r (x : F) : x * 0 = 0. Proof. ring. Qed.
  Lemma fadd_0_l (x : F) : 0 + x = x. Proof. ring. Qed.
  Lemma fadd_0_r (x : F) : x + 0 = x. Proof. ring. Qed.
  Lemma fmul_1_l (x : F) : 1 * x = x. Proof. ring. Qed.
  Lemma fmul_1_r (x : F) : x * 1 = x. Proof. ring. Qed.
  Lemma fsub_diag (x : F) : x - x = 0. Proof. ring. Qed.

  Lemma fmul_inv_r (x : F) : x <> 0 -> x * finv x = 1.
  Proof. intros Hx. field. exact Hx. Qed.

  Lemma fmul_eq_0 (x y : F) : x * y = 0 -> x = 0 \/ y = 0.
  Proof.
    intros H. destruct (f_eq_dec x 0) as [|Hx]; [auto|right].
    replace y with (finv x * (x * y)) by (field; exact Hx). rewrite H. ring.
  Qed.

  Lemma fmul_neq_0 (x y : F) : x <> 0 -> y <> 0 -> x * y <> 0.
  Proof. intros Hx Hy H. destruct (fmul_eq_0 _ _ H); auto. Qed.

  Lemma fmul_cancel_l (x y z : F) : x <> 0 -> x * y = x * z -> y = z.
  Proof.
    intros Hx H. replace y with (finv x * (x * y)) by (field; exact Hx).
    rewrite H. field. exact Hx.
  Qed.

  Lemma fsub_eq_0 (x y : F) : x - y = 0 <-> x = y.
  Proof.
    split; intros H.
    - replace x with ((x - y) + y) by ring. rewrite H. ring.
    - subst. ring.
  Qed.

  Lemma fadd_cancel_l (x y z : F) : x + y = x + z -> y = z.
  Proof.
    intros H. replace y with ((x + y) - x) by ring. rewrite H. ring.
  Qed.

  Lemma finv_neq_0 (x : F) : x <> 0 -> finv x <> 0.
  Proof.
    intros Hx H. apply f_1_neq_0. rewrite <- (fmul_inv_r x Hx), H. ring.
  Qed.

  (** Finite sums and inner products (specification vocabulary). *)
  Fixpoint fsum (l : list F) : F :=
    match l with [] => 0 | x :: r => x + fsum r end.

  Lemma fsum_app l1 l2 : fsum (l1 ++ l2) = fsum l1 + fsum l2.
  Proof. induction l1 as [|x l IH]; simpl; [ring|rewrite IH; ring]. Qed.

  Lemma fsum_repeat_0 n : fsum (repeat 0 n) = 0.
  Proof. induction n as [|n IH]; simpl; [reflexivity|rewrite IH; ring]. Qed.

  (** [dot a b] = Σ a_i b_i over the common length. *)
  Fixpoint dot (a b : list F) : F :=
    match a, b with
    | x :: a', y :: b' => x * y + dot a' b'
    | _, _ => 0
    end.

  Lemma dot_nil_r a : dot a [] = 0.
  Proof. destruct a; reflexivity. Qed.

  Lemma dot_zeros a n : dot a (repeat 0 n) = 0.
  Proof.
    revert n; induction a as [|x a IH]; intros [|n]; simpl; auto. rewrite IH. ring.
  Qed.

  Lemma dot_map_scale a b c : dot a (map (fun y => c * y) b) = c * dot a b.
  Proof.
    revert b; induction a as [|x a IH]; intros [|y b]; simpl; try ring. rewrite IH. ring.
  Qed.
End FieldFacts.

Arguments fsum {F} l.
Arguments dot {F} a b.
