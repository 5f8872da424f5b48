(** The reader monad of the file parsers: state survives errors; counted loops.
    Not a function of the repository: Rust's [?] operator and [for _ in 0..n]. *)
From Coq Require Import List Bool Arith NArith PArith Lia.
From Verif Require Import Res.
Import ListNotations.

Definition M (S E A : Type) := S -> res E A * S.

Definition ret {S E A} (a : A) : M S E A := fun s => (Ok a, s).
Definition fail {S E A} (e : E) : M S E A := fun s => (Err e, s).
Definition mbind {S E A B} (m : M S E A) (k : A -> M S E B) : M S E B :=
  fun s => match m s with
           | (Ok a, s') => k a s'
           | (Err e, s') => (Err e, s')
           | (Panic, s') => (Panic, s')
           end.
Declare Scope rd_scope.
Delimit Scope rd_scope with rd.
Notation "'do' x <- m ; k" := (mbind m (fun x => k))
  (at level 200, x pattern, m at level 100, k at level 200, right associativity) : rd_scope.
Notation "'check' b 'else' er ; k" := (if b then k else fail er)
  (at level 200, b at level 100, er at level 100, k at level 200, right associativity) : rd_scope.
Local Open Scope rd_scope.

(** [for _ in 0..n { v.push(m?) }]: the first error ends the loop.  Written by halving so that
    a loop over 2^32 elements that fails early can be computed. *)
Fixpoint pos_rep {S E A} (p : positive) (body : A -> M S E A) (a : A) : M S E A :=
  match p with
  | xH => body a
  | xO q => do a1 <- pos_rep q body a ; pos_rep q body a1
  | xI q => do a1 <- body a ; do a2 <- pos_rep q body a1 ; pos_rep q body a2
  end.
Definition n_rep {S E A} (n : N) (body : A -> M S E A) (a : A) : M S E A :=
  match n with N0 => ret a | Npos p => pos_rep p body a end.
Definition mmany {S E A} (n : N) (m : M S E A) : M S E (list A) :=
  do l <- n_rep n (fun acc => do x <- m ; ret (x :: acc)) [] ; ret (rev l).

(** The plain recursive reading of the same loop. *)
Fixpoint nat_rep {S E A} (n : nat) (body : A -> M S E A) (a : A) : M S E A :=
  match n with O => ret a | Datatypes.S n => do a1 <- body a ; nat_rep n body a1 end.
Fixpoint mlist {S E A} (n : nat) (m : M S E A) : M S E (list A) :=
  match n with
  | O => ret []
  | Datatypes.S n => do x <- m ; do l <- mlist n m ; ret (x :: l)
  end.

Lemma mbind_ok {S E A B} (m : M S E A) (k : A -> M S E B) s b s' :
  mbind m k s = (Ok b, s') -> exists a s1, m s = (Ok a, s1) /\ k a s1 = (Ok b, s').
Proof.
  unfold mbind. destruct (m s) as [[a|e|] s1]; intros H; try discriminate. eauto.
Qed.

Lemma mbind_assoc {S E A B C} (m : M S E A) (k : A -> M S E B) (h : B -> M S E C) s :
  mbind (mbind m k) h s = mbind m (fun a => mbind (k a) h) s.
Proof. unfold mbind. destruct (m s) as [[a|e|] s1]; reflexivity. Qed.

Lemma mbind_ext {S E A B} (m m' : M S E A) (k k' : A -> M S E B) s :
  m s = m' s -> (forall a s1, k a s1 = k' a s1) -> mbind m k s = mbind m' k' s.
Proof. intros H H'. unfold mbind. rewrite H. destruct (m' s) as [[a|e|] s1]; auto. Qed.

Lemma nat_rep_add {S E A} n n' (body : A -> M S E A) a s :
  nat_rep (n + n') body a s = (do a1 <- nat_rep n body a ; nat_rep n' body a1) s.
Proof.
  revert a s; induction n; intros a s; [reflexivity|].
  cbn [nat_rep Nat.add]. rewrite mbind_assoc. apply mbind_ext; auto.
Qed.

Lemma pos_rep_nat {S E A} p (body : A -> M S E A) a s :
  pos_rep p body a s = nat_rep (Pos.to_nat p) body a s.
Proof.
  revert a s; induction p; intros a s; cbn [pos_rep].
  - rewrite Pos2Nat.inj_xI. cbn [nat_rep]. apply mbind_ext; [reflexivity|]. intros a1 s1.
    replace (2 * Pos.to_nat p)%nat with (Pos.to_nat p + Pos.to_nat p)%nat by lia.
    rewrite nat_rep_add. apply mbind_ext; auto.
  - rewrite Pos2Nat.inj_xO.
    replace (2 * Pos.to_nat p)%nat with (Pos.to_nat p + Pos.to_nat p)%nat by lia.
    rewrite nat_rep_add. apply mbind_ext; auto.
  - change (Pos.to_nat 1) with 1%nat. cbn [nat_rep]. unfold mbind.
    destruct (body a s) as [[x|e|] s1]; reflexivity.
Qed.

Lemma n_rep_nat {S E A} n (body : A -> M S E A) a s :
  n_rep n body a s = nat_rep (N.to_nat n) body a s.
Proof. destruct n; [reflexivity|apply pos_rep_nat]. Qed.

Lemma nat_rep_mlist {S E A} n (m : M S E A) acc s :
  nat_rep n (fun acc => do x <- m ; ret (x :: acc)) acc s =
  (do l <- mlist n m ; ret (rev l ++ acc)) s.
Proof.
  revert acc s; induction n; intros acc s; [reflexivity|].
  cbn [nat_rep mlist]. rewrite !mbind_assoc. apply mbind_ext; [reflexivity|].
  intros x s1. rewrite mbind_assoc. unfold mbind at 1; cbn [ret]. rewrite IHn.
  apply mbind_ext; [reflexivity|]. intros l s2. unfold mbind, ret.
  cbn [rev]. rewrite <- app_assoc. reflexivity.
Qed.

Lemma mmany_spec {S E A} n (m : M S E A) s : mmany n m s = mlist (N.to_nat n) m s.
Proof.
  unfold mmany. transitivity ((do l <- (do l <- mlist (N.to_nat n) m ; ret (rev l ++ [])) ; ret (rev l)) s).
  - apply mbind_ext; [|reflexivity]. rewrite n_rep_nat. apply nat_rep_mlist.
  - rewrite mbind_assoc. unfold mbind, ret.
    destruct (mlist (N.to_nat n) m s) as [[l|e|] s1]; auto.
    rewrite app_nil_r, rev_involutive. reflexivity.
Qed.

Lemma mlist_length {S E A} n (m : M S E A) s l s' : mlist n m s = (Ok l, s') -> length l = n.
Proof.
  revert s l s'; induction n; intros s l s' H.
  - injection H as <- _. reflexivity.
  - cbn [mlist] in H. apply mbind_ok in H. destruct H as (x&s1&_&H).
    apply mbind_ok in H. destruct H as (l1&s2&H1&H). injection H as <- _. cbn. f_equal. eapply IHn. exact H1.
Qed.

(** A property of states kept by every step is kept by the loop, on every outcome. *)
Lemma mlist_inv {S E A} (P : S -> Prop) (m : M S E A) :
  (forall s, P s -> P (snd (m s))) -> forall n s, P s -> P (snd (mlist n m s)).
Proof.
  intros Hm n; induction n; intros s Hs; [exact Hs|].
  cbn [mlist]. unfold mbind. pose proof (Hm s Hs) as H1.
  destruct (m s) as [[a|e|] s1]; cbn in *; auto.
  specialize (IHn s1 H1). destruct (mlist n m s1) as [[l|e|] s2]; cbn in *; auto.
Qed.

Lemma mlist_no_panic {S E A} (P : S -> Prop) (m : M S E A) :
  (forall s, P s -> fst (m s) <> Panic /\ P (snd (m s))) ->
  forall n s, P s -> fst (mlist n m s) <> Panic /\ P (snd (mlist n m s)).
Proof.
  intros Hm n; induction n; intros s Hs; [split; [discriminate|exact Hs]|].
  cbn [mlist]. unfold mbind. destruct (Hm s Hs) as [H1 H2].
  destruct (m s) as [[a|e|] s1]; cbn in *; try (split; [discriminate|assumption]).
  - destruct (IHn s1 H2) as [H3 H4]. destruct (mlist n m s1) as [[l|e|] s2]; cbn in *;
      (split; [congruence|assumption]).
  - congruence.
Qed.
