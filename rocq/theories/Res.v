(** Outcomes of a Rust function: a value, an error value, or a panic.
    Not a function of the repository: this is the shared vocabulary of the model. *)
From Coq Require Import List NArith.
Import ListNotations.

Inductive res (E A : Type) : Type :=
| Ok (a : A)          (* Rust [Ok(a)], JS normal return *)
| Err (e : E)         (* Rust [Err(e)], JS [throw] *)
| Panic.              (* Rust panic / wasm trap *)
Arguments Ok {E A} a.
Arguments Err {E A} e.
Arguments Panic {E A}.

Definition rbind {E A B} (x : res E A) (f : A -> res E B) : res E B :=
  match x with Ok a => f a | Err e => Err e | Panic => Panic end.

(** Rust's [map_err]. *)
Definition rmap_err {E E' A} (f : E -> E') (x : res E A) : res E' A :=
  match x with Ok a => Ok a | Err e => Err (f e) | Panic => Panic end.

Definition rmap {E A B} (f : A -> B) (x : res E A) : res E B :=
  match x with Ok a => Ok (f a) | Err e => Err e | Panic => Panic end.

Definition of_option {E A} (e : E) (x : option A) : res E A :=
  match x with Some a => Ok a | None => Err e end.

Declare Scope res_scope.
Delimit Scope res_scope with res.
Notation "'let?' x ':=' e 'in' k" := (rbind e (fun x => k))
  (at level 200, x pattern, e at level 100, k at level 200, right associativity) : res_scope.
Notation "'guard' b 'else' er 'in' k" := (if b then k else Err er)
  (at level 200, b at level 100, er at level 100, k at level 200, right associativity) : res_scope.

Lemma rbind_ok {E A B} (x : res E A) (f : A -> res E B) b :
  rbind x f = Ok b -> exists a, x = Ok a /\ f a = Ok b.
Proof. destruct x; simpl; intros H; try discriminate; eauto. Qed.

Lemma rbind_assoc {E A B C} (x : res E A) (f : A -> res E B) (g : B -> res E C) :
  rbind (rbind x f) g = rbind x (fun a => rbind (f a) g).
Proof. destruct x; reflexivity. Qed.

Definition is_ok {E A} (x : res E A) : Prop := match x with Ok _ => True | _ => False end.
Definition is_err {E A} (x : res E A) : Prop := match x with Err _ => True | _ => False end.
Definition no_panic {E A} (x : res E A) : Prop := match x with Panic => False | _ => True end.
