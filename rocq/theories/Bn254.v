(** The scalar field of BN254 (ark_bn254::Fr), used by the CLI (circuit.rs:7, commands.rs:7)
    and the WASM bindings (zkenc-js/src/lib.rs:6): its modulus is prime, and its radix-2
    evaluation domains meet the contract of Qap.v. *)
From Coq Require Import ZArith Znumtheory List Lia.
From Verif Require Import Fld Zp Fermat Pocklington CS Qap Domain.
Import ListNotations.
Local Open Scope Z_scope.

(** ark_bn254 FrConfig MODULUS. *)
Definition bn_r : Z := 21888242871839275222246405745257275088548364400416034343698204186575808495617.

Lemma prime_93001 : prime 93001. Proof. apply trial_prime_correct. vm_compute. reflexivity. Qed.
Lemma prime_661 : prime 661. Proof. apply trial_prime_correct. vm_compute. reflexivity. Qed.
Lemma prime_12048837557 : prime 12048837557.
Proof.
  apply (pocklington _ 2 [(93001, 1); (661, 1)]).
  - apply Forall_cons; [exact prime_93001|]. apply Forall_cons; [exact prime_661|]. constructor.
  - vm_compute. reflexivity.
Qed.
Lemma prime_5156902474397 : prime 5156902474397.
Proof.
  apply (pocklington _ 2 [(12048837557, 1)]).
  - constructor; [exact prime_12048837557|constructor].
  - vm_compute. reflexivity.
Qed.
Lemma prime_1670836401704629 : prime 1670836401704629.
Proof.
  apply (pocklington _ 2 [(5156902474397, 1)]).
  - constructor; [exact prime_5156902474397|constructor].
  - vm_compute. reflexivity.
Qed.

Lemma prime_853 : prime 853. Proof. apply trial_prime_correct. vm_compute. reflexivity. Qed.
Lemma prime_1637 : prime 1637. Proof. apply trial_prime_correct. vm_compute. reflexivity. Qed.
Lemma prime_639533339 : prime 639533339.
Proof.
  apply (pocklington _ 2 [(853, 1); (1637, 1)]).
  - apply Forall_cons; [exact prime_853|]. apply Forall_cons; [exact prime_1637|]. constructor.
  - vm_compute. reflexivity.
Qed.
Lemma prime_65865678001877903 : prime 65865678001877903.
Proof.
  apply (pocklington _ 2 [(639533339, 1)]).
  - constructor; [exact prime_639533339|constructor].
  - vm_compute. reflexivity.
Qed.
Lemma prime_13818364434197438864469338081 : prime 13818364434197438864469338081.
Proof.
  apply (pocklington _ 2 [(65865678001877903, 1)]).
  - constructor; [exact prime_65865678001877903|constructor].
  - vm_compute. reflexivity.
Qed.

Theorem bn_r_prime : prime bn_r.
Proof.
  apply (pocklington _ 2 [(13818364434197438864469338081, 1); (1670836401704629, 1)]).
  - constructor; [exact prime_13818364434197438864469338081|].
    constructor; [exact prime_1670836401704629|constructor].
  - vm_compute. reflexivity.
Qed.

Definition Fr : fieldT := Zp bn_r bn_r_prime.
Definition fr (z : Z) : Fr := zp bn_r bn_r_prime z.
Definition fr_val (x : Fr) : Z := @zval bn_r x.

(** ark_bn254 FrConfig: TWO_ADICITY = 28 and TWO_ADIC_ROOT_OF_UNITY = 5^((r-1)/2^28). *)
Definition bn_root_z : Z := 19103219067921713944291392827692070036145651957329286315305642004821462161904.
Definition bn_root : Fr := fr bn_root_z.
Definition bn_domain : domainT Fr := radix2 bn_root 28.

Lemma bn_domain_ok : domain_ok bn_domain.
Proof.
  apply radix2_ok.
  - apply (proj1 (feqb_false Fr _ _)). vm_compute. reflexivity.
  - apply (proj1 (feqb_false Fr _ _)). vm_compute. reflexivity.
  - apply (proj1 (feqb_true Fr _ _)). vm_compute. reflexivity.
  - lia.
Qed.
Lemma bn_domain_some n : (n <= 2 ^ 4)%nat -> exists ds, dom_new bn_domain n = Some ds.
Proof.
  intros Hn. unfold bn_domain, radix2, radix2_new; simpl dom_new.
  destruct (Nat.ltb_spec 28 (Nat.log2_up n)) as [H|H]; [|eauto].
  pose proof (Nat.log2_up_le_mono _ _ Hn) as Hm. rewrite Nat.log2_up_pow2 in Hm by lia. lia.
Qed.
