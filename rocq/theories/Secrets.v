(** Lemmas for SpecSecrets.v: the secrets of encap and decap and when they are equal. *)
From Coq Require Import List Field.
From Verif Require Import Res Fld Groups CS CSFacts Poly Qap SpecQap QapFacts Core CoreFacts SpecSecrets.
Import ListNotations.
Local Open Scope fld_scope.

Section Secrets.
  Context (F : fieldT) (E : pairingT F) (D : domainT F).
  Add Field SecF : (f_th F).

  Lemma secrets_are c0 c alpha beta delta r x :
    wf_prog c -> error_of 1 0 c = None -> prog_satisfied c -> delta <> 0 ->
    prefix F (inputs_of 1 0 c0) (inputs_of 1 0 c ++ witnesses_of 1 0 c) ->
    secrets (E := E) D c0 c alpha beta delta r x
      (smul (enc_exponent F D c0 alpha beta delta r x) (pair E (g1 E) (g2 E)))
      (smul (alpha * beta + r * r * (dot (full_of F c) (enc_u F D c0 x) * dot (full_of F c) (enc_v F D c0 x) - dot (full_of F c) (enc_w F D c0 x))) (pair E (g1 E) (g2 E))).
  Proof.
    intros Hwf He Hs Hd Hpre h. eexists. split.
    - apply (encap_with_ok F E D h). exact Hd.
    - apply (decap_of_encap F E D h c0 c alpha beta delta r x _ _ (encap_with_ok F E D h c0 alpha beta delta r x Hd) Hwf He Hs Hpre).
  Qed.

  Lemma agreement_condition c alpha beta delta r x :
    nondegenerate E ->
    wf_prog c -> error_of 1 0 c = None -> prog_satisfied c -> delta <> 0 ->
    equal_exactly_if E D c c alpha beta delta r x
     (delta * (r * r * (dot (full_of F c) (enc_u F D c x) * dot (full_of F c) (enc_v F D c x) - dot (full_of F c) (enc_w F D c x)))
      = r * beta * pubdot F c (enc_u F D c x) + r * alpha * pubdot F c (enc_v F D c x) + r * r * pubdot F c (enc_w F D c x)).
  Proof.
    intros Hnd Hwf He Hs Hd. do 2 eexists. split; [apply secrets_are; try assumption; eexists; reflexivity|].
    set (Q := r * r * (dot (full_of F c) (enc_u F D c x) * dot (full_of F c) (enc_v F D c x) - dot (full_of F c) (enc_w F D c x))).
    set (P := r * beta * pubdot F c (enc_u F D c x) + r * alpha * pubdot F c (enc_v F D c x) + r * r * pubdot F c (enc_w F D c x)).
    split.
    - intros Hk. apply Hnd in Hk. rewrite enc_exponent_eq in Hk. fold P in Hk. apply fadd_cancel_l in Hk.
      rewrite <- Hk. field. exact Hd.
    - intros Heq. f_equal. rewrite enc_exponent_eq. fold P. rewrite <- Heq. field. exact Hd.
  Qed.
  Lemma exactly_if_iff c0 c alpha beta delta r x (P Q : Prop) : (P <-> Q) ->
    equal_exactly_if E D c0 c alpha beta delta r x P -> equal_exactly_if E D c0 c alpha beta delta r x Q.
  Proof. intros H (S&S'&H1&H2). exists S, S'. split; [exact H1|]. rewrite H2. exact H. Qed.

  Lemma agreement_unique_beta c alpha delta r x :
    nondegenerate E ->
    wf_prog c -> error_of 1 0 c = None -> prog_satisfied c -> delta <> 0 -> r <> 0 ->
    pubdot F c (enc_u F D c x) <> 0 ->
    exists beta0, forall beta, equal_exactly_if E D c c alpha beta delta r x (beta = beta0).
  Proof.
    intros Hnd Hwf He Hs Hd Hr Hu.
    set (Q := delta * (r * r * (dot (full_of F c) (enc_u F D c x) * dot (full_of F c) (enc_v F D c x) - dot (full_of F c) (enc_w F D c x)))).
    exists ((Q - r * alpha * pubdot F c (enc_v F D c x) - r * r * pubdot F c (enc_w F D c x)) / (r * pubdot F c (enc_u F D c x))).
    intros beta. eapply exactly_if_iff; [|apply agreement_condition; assumption]. fold Q. split.
    - intros ->. field. split; assumption.
    - intros ->. field. split; assumption.
  Qed.
End Secrets.
