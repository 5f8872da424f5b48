(** Specification vocabulary for C02, C13, C55: the secrets behind the keys.  encap and decap return
    the hash of a group element (algorithm.rs:194-210, 352-368).  No hash into 32 bytes is injective on
    all inputs, so the properties compare the group elements themselves: [secrets c0 c ... S S'] says
    that encap of [c0] with these draws returns the hash of [S], and decap of [c] on its ciphertext
    the hash of [S'], whatever the hash. *)
From Coq Require Import List.
From Verif Require Import Res Fld Groups CS Qap Core.
Import ListNotations.

Section Secrets.
  Context {F : fieldT} {E : pairingT F} (D : domainT F).
  Definition encap_secret (c0 : prog F) (alpha beta delta r x : F) (S : GT E) : Prop :=
    forall kdf : GT E -> key, exists ct, encap_with D kdf c0 alpha beta delta r x = Ok (ct, kdf S).
  Definition secrets (c0 c : prog F) (alpha beta delta r x : F) (S S' : GT E) : Prop :=
    forall kdf : GT E -> key, exists ct,
      encap_with D kdf c0 alpha beta delta r x = Ok (ct, kdf S) /\ decap kdf c ct = Ok (kdf S').
End Secrets.

(** Both calls succeed, and their secrets are equal exactly if [P]. *)
Definition equal_exactly_if {F : fieldT} (E : pairingT F) (D : domainT F) (c0 c : prog F) (alpha beta delta r x : F) (P : Prop) : Prop :=
  exists S S' : GT E, secrets D c0 c alpha beta delta r x S S' /\ (S = S' <-> P).

(** What this means for the keys under a given hash: if [P], they are equal; if the hash does not take
    the same value on these two secrets without their being equal, the keys are equal only if [P]. *)
Lemma equal_secrets_keys {F : fieldT} (E : pairingT F) (D : domainT F) c0 c alpha beta delta r x P :
  equal_exactly_if E D c0 c alpha beta delta r x P ->
  exists S S' : GT E, forall kdf : GT E -> key, exists ct,
    encap_with D kdf c0 alpha beta delta r x = Ok (ct, kdf S) /\ decap kdf c ct = Ok (kdf S') /\ 
    (P -> kdf S = kdf S') /\ ((kdf S = kdf S' -> S = S') -> (kdf S = kdf S' <-> P)).
Proof.
  intros (S&S'&H&HP). exists S, S'. intros kdf. destruct (H kdf) as (ct&H1&H2). exists ct.
  split; [exact H1|]. split; [exact H2|]. split.
  - intros p. apply HP in p. rewrite p. reflexivity.
  - intros Hi. split; [intros Hk; apply HP, Hi, Hk|]. intros p. apply HP in p. rewrite p. reflexivity.
Qed.
