(** Radix-2 evaluation domains (ark_poly Radix2EvaluationDomain, the only variant
    GeneralEvaluationDomain::new can pick for BN254's scalar field, which declares no small
    subgroup).  Used in r1cs_to_qap.rs:77-84.  We prove that they meet [domain_ok]. *)
From Coq Require Import List Bool Arith Lia Ring Field.
From Verif Require Import Fld CS Qap.
Import ListNotations.
Local Open Scope fld_scope.

Section Domain.
  Context (F : fieldT).
  Add Field FfldD : (f_th F).

  Fixpoint fpow (x : F) (n : nat) : F := match n with O => 1 | S n' => x * fpow x n' end.
  (** x squared k times: x^(2^k). *)
  Fixpoint fsq (x : F) (k : nat) : F := match k with O => x | S k' => fsq (x * x) k' end.

  (** Points of the size-2^lg subgroup generated by g: 1, g, g^2, ...  *)
  Fixpoint powers (g cur : F) (n : nat) : list F :=
    match n with O => [] | S n' => cur :: powers g (cur * g) n' end.

  (** Radix2EvaluationDomain::new: the size is the next power of two (1 for 0); None when its
      logarithm exceeds the two-adicity; the generator is the two-adic root squared down. *)
  Definition radix2_new (root : F) (two_adicity n : nat) : option (list F) :=
    let lg := Nat.log2_up n in
    if (two_adicity <? lg)%nat then None
    else Some (powers (fsq root (two_adicity - lg)) 1 (2 ^ lg)).
  Definition radix2 (root : F) (two_adicity : nat) : domainT F := DomainT (radix2_new root two_adicity).

  Lemma fpow_add x a b : fpow x (a + b) = fpow x a * fpow x b.
  Proof. induction a as [|a IH]; simpl; [ring|rewrite IH; ring]. Qed.
  Lemma fpow_mul x a b : fpow x (a * b) = fpow (fpow x a) b.
  Proof.
    induction b as [|b IH]; simpl; [rewrite Nat.mul_0_r; reflexivity|].
    replace (a * S b)%nat with (a + a * b)%nat by lia. rewrite fpow_add, IH. reflexivity.
  Qed.
  Lemma fpow_1 n : fpow 1 n = 1.
  Proof. induction n as [|n IH]; simpl; [reflexivity|rewrite IH; ring]. Qed.
  Lemma fpow_neq_0 x n : x <> 0 -> fpow x n <> 0.
  Proof.
    intros Hx. induction n as [|n IH]; simpl; [apply f_1_neq_0|]. apply fmul_neq_0; assumption.
  Qed.
  Lemma fsq_pow x k : fsq x k = fpow x (2 ^ k).
  Proof.
    revert x; induction k as [|k IH]; intros x; [simpl; ring|].
    cbn [fsq]. rewrite IH. replace (2 ^ S k)%nat with (2 * 2 ^ k)%nat by (simpl; lia).
    rewrite fpow_mul. f_equal. simpl. ring.
  Qed.
  Lemma fsq_add x a b : fsq x (a + b) = fsq (fsq x a) b.
  Proof. rewrite !fsq_pow, Nat.pow_add_r, fpow_mul. reflexivity. Qed.

  Lemma powers_spec g cur n : powers g cur n = map (fun i => cur * fpow g i) (seq 0 n).
  Proof.
    revert cur; induction n as [|n IH]; intros cur; [reflexivity|].
    cbn [powers seq map]. f_equal; [simpl; ring|].
    rewrite IH, <- seq_shift, map_map. apply map_ext. intros i. simpl. ring.
  Qed.

  Lemma fpow_minus1_odd n : Nat.odd n = true -> fpow (- (1)) n = - (1).
  Proof.
    intros H. apply Nat.odd_spec in H. destruct H as [k ->].
    rewrite fpow_add, fpow_mul. simpl.
    replace (- (1) * (- (1) * 1)) with (1 : F) by ring. rewrite fpow_1. ring.
  Qed.

  (** d = 2^t * odd *)
  Lemma two_part d : d <> 0%nat -> exists t o, d = (2 ^ t * o)%nat /\ Nat.odd o = true.
  Proof.
    induction d as [d IH] using lt_wf_ind. intros Hd.
    destruct (Nat.odd d) eqn:Ho.
    - exists 0%nat, d. simpl. split; [lia|exact Ho].
    - assert (He : Nat.even d = true) by (rewrite <- Nat.negb_odd, Ho; reflexivity).
      apply Nat.even_spec in He. destruct He as [k ->].
      destruct (IH k) as (t&o&Hk&Hodd); [lia|lia|].
      exists (S t), o. split; [|exact Hodd]. rewrite Hk. simpl. lia.
  Qed.

  (** An element whose 2^(k)-th power is -1 has order exactly 2^(k+1). *)
  Lemma order_two_power g k d :
    (1 : F) <> - (1) -> fsq g k = - (1) -> (0 < d < 2 ^ S k)%nat -> fpow g d <> 1.
  Proof.
    intros Hchar Hg Hd H1. destruct (two_part d ltac:(lia)) as (t&o&Hdt&Ho).
    assert (Ht : t <= k).
    { destruct (le_lt_dec t k) as [|Hlt]; [assumption|].
      assert (2 ^ S k <= 2 ^ t)%nat by (apply Nat.pow_le_mono_r; lia).
      assert (o <> 0)%nat by (intros ->; discriminate). nia. }
    apply Hchar. symmetry.
    rewrite <- (fpow_minus1_odd o Ho), <- Hg, fsq_pow.
    replace k with (t + (k - t))%nat by lia. rewrite Nat.pow_add_r, <- fpow_mul.
    replace (2 ^ t * 2 ^ (k - t) * o)%nat with (d * 2 ^ (k - t))%nat by (rewrite Hdt; lia).
    rewrite fpow_mul, H1. apply fpow_1.
  Qed.

  Lemma powers_nodup g k :
    (1 : F) <> - (1) -> g <> 0 -> (k = 0%nat \/ exists k', k = S k' /\ fsq g k' = - (1)) ->
    NoDup (powers g 1 (2 ^ k)).
  Proof.
    intros Hchar Hg0 Hk. rewrite powers_spec.
    assert (Hinj : forall i j, (i < j < 2 ^ k)%nat -> fpow g i <> fpow g j).
    { intros i j Hij H. destruct Hk as [->|(k'&->&Hk)]; [simpl in Hij; lia|].
      apply (order_two_power g k' (j - i)); [exact Hchar|exact Hk|lia|].
      assert (Hi : fpow g i <> 0) by (apply fpow_neq_0; exact Hg0).
      apply (fmul_cancel_l F (fpow g i)); [exact Hi|].
      rewrite <- fpow_add. replace (i + (j - i))%nat with j by lia. rewrite <- H. ring. }
    apply (NoDup_nth _ 0). rewrite map_length, seq_length. intros i j Hi Hj.
    rewrite !(nth_indep _ 0 (1 * fpow g 0)) by (rewrite map_length, seq_length; assumption).
    rewrite !(map_nth (fun i => 1 * fpow g i)), !seq_nth by assumption. simpl.
    intros Heq. destruct (Nat.lt_trichotomy i j) as [Hlt|[|Hlt]]; [|assumption|]; exfalso.
    - apply (Hinj i j); [lia|]. rewrite <- (fmul_1_l F (fpow g i)), Heq. ring.
    - apply (Hinj j i); [lia|]. rewrite <- (fmul_1_l F (fpow g j)), <- Heq. ring.
  Qed.

  Lemma powers_length g cur n : length (powers g cur n) = n.
  Proof. revert cur; induction n as [|n IH]; intros cur; simpl; auto. Qed.

  (** The contract holds whenever the root really has order 2^two_adicity. *)
  Lemma radix2_ok root s :
    (1 : F) <> - (1) -> root <> 0 -> fsq root (s - 1) = - (1) -> (0 < s)%nat ->
    domain_ok (radix2 root s).
  Proof.
    intros Hchar Hr0 Hroot Hs n ds. unfold radix2, radix2_new; simpl.
    destruct (Nat.ltb_spec s (Nat.log2_up n)) as [|Hle]; [discriminate|].
    intros H; injection H as <-. rewrite powers_length. split.
    - destruct (le_lt_dec n 1) as [Hn|Hn].
      + pose proof (Nat.pow_nonzero 2 (Nat.log2_up n) ltac:(lia)). lia.
      + apply (Nat.log2_up_spec n Hn).
    - apply powers_nodup; [exact Hchar| |].
      + rewrite fsq_pow. apply fpow_neq_0. exact Hr0.
      + destruct (Nat.log2_up n) as [|lg]; [left; reflexivity|right].
        exists lg. split; [reflexivity|]. rewrite <- fsq_add.
        replace (s - S lg + lg)%nat with (s - 1)%nat by lia. exact Hroot.
  Qed.
End Domain.
Arguments fpow {F}. Arguments fsq {F}. Arguments radix2 {F}. Arguments radix2_new {F}. Arguments powers {F}.
