(** Property theorems C01-C13 about encap / decap / verify_ciphertext and the QAP evaluation.
    Every theorem quantifies over the field, the bilinear groups, the domain provider and the
    hash.  Vocabulary: SpecCore.v, SpecQap.v. *)
From Coq Require Import List Bool Arith ZArith.
From Coq Require Import Strings.Byte.
From Verif Require Import Res Fld Groups CS Poly Qap SpecQap Core SpecCore CoreFacts SpecSecrets Secrets CoreMore Zp Domain Bn254.
Import ListNotations.
Local Open Scope fld_scope.

(** C01 *)
Theorem C01_key_agreement_without_witness :
  forall (F : fieldT) (E : pairingT F) (D : domainT F) (kdf : GT E -> key)
         (c0 c : prog F) (alpha beta delta r x : F) ct k,
    constraints_stated c0 = [] ->
    encap_with D kdf c0 alpha beta delta r x = Ok (ct, k) ->
    satisfied c ->
    is_prefix (public_values c0) (public_values c ++ private_values c) ->
    decap kdf c ct = Ok k.
Proof. exact agreement_witnessless. Qed.
Print Assumptions C01_key_agreement_without_witness.

Example C01_nonvacuous :
  exists ct k,
    constraints_stated (square_circuit (f17 9) None) = [] /\
    encap_with (E := ex_pairing) ex_domain ex_kdf (square_circuit (f17 9) None)
      (f17 2) (f17 3) (f17 5) (f17 7) (f17 11) = Ok (ct, k) /\
    satisfied (square_circuit (fmul (f17 3) (f17 3)) (Some (f17 3))) /\
    public_values (square_circuit (f17 9) None) =
      public_values (square_circuit (fmul (f17 3) (f17 3)) (Some (f17 3))).
Proof.
  do 2 eexists. split; [reflexivity|]. split.
  - apply encap_with_ok. apply (proj1 (feqb_false F17 _ _)). vm_compute. reflexivity.
  - split; [apply square_satisfied|]. cbn. f_equal.
Qed.

(** C02: the exact secrets on both sides, for every pair of circuits. *)
Theorem C02_secret_exponents :
  forall (F : fieldT) (E : pairingT F) (D : domainT F) (kdf : GT E -> key)
         (c0 c : prog F) (alpha beta delta r x : F) ct k,
    encap_with D kdf c0 alpha beta delta r x = Ok (ct, k) ->
    satisfied c -> is_prefix (public_values c0) (public_values c ++ private_values c) ->
    let '(u, v, w) := evaluate_qap D (fst (synth c0 cs_new)) x in
    let full := 1 :: public_values c ++ private_values c in
    let pub := 1 :: public_values c0 in
    let e := pair E (g1 E) (g2 E) in
    k = kdf (smul (alpha * beta + (r * beta * dot pub u + r * alpha * dot pub v + r * r * dot pub w) * finv delta) e) /\
    decap kdf c ct = Ok (kdf (smul (alpha * beta + r * r * (dot full u * dot full v - dot full w)) e)).
Proof. exact agreement_exponents. Qed.
Print Assumptions C02_secret_exponents.

(** The exact condition for agreement, with a non-degenerate pairing (so that different exponents give
    different secrets): the two exponents are equal.  Nothing in the code makes it so. *)
Theorem C02_agreement_iff :
  forall (F : fieldT) (E : pairingT F) (D : domainT F) (c0 c : prog F) (alpha beta delta r x : F),
    nondegenerate E -> delta <> 0 ->
    satisfied c -> is_prefix (public_values c0) (public_values c ++ private_values c) ->
    let '(u, v, w) := evaluate_qap D (fst (synth c0 cs_new)) x in
    let full := 1 :: public_values c ++ private_values c in
    let pub := 1 :: public_values c0 in
    equal_exactly_if E D c0 c alpha beta delta r x
      ((r * beta * dot pub u + r * alpha * dot pub v + r * r * dot pub w) * finv delta
       = r * r * (dot full u * dot full v - dot full w)).
Proof.
  intros F E D c0 c alpha beta delta r x Hnd Hd (Hwf&Hco&Hho) Hp. rewrite QapFacts.evaluate_qap_sel. cbv zeta.
  do 2 eexists. split; [apply secrets_are; assumption|]. split.
  - intros H. apply Hnd in H. rewrite enc_exponent_eq in H. apply fadd_cancel_l in H. exact H.
  - intros H. f_equal. rewrite enc_exponent_eq. f_equal. exact H.
Qed.
Print Assumptions C02_agreement_iff.

(** C02 refuted: for a fully synthesised satisfied circuit whose public part of U is non-zero at x, the
    secrets are equal for exactly one beta of the whole field. *)
Theorem C02_full_synthesis_agreement_refuted :
  forall (F : fieldT) (E : pairingT F) (D : domainT F) (c : prog F) (alpha delta r x : F),
    nondegenerate E ->
    well_formed c -> completes c -> constraints_hold c -> delta <> 0 -> r <> 0 ->
    dot (1 :: public_values c) (fst (fst (evaluate_qap D (fst (synth c cs_new)) x))) <> 0 ->
    exists beta0, forall beta, equal_exactly_if E D c c alpha beta delta r x (beta = beta0).
Proof.
  intros F E D c alpha delta r x. rewrite QapFacts.evaluate_qap_sel.
  exact (agreement_unique_beta F E D c alpha delta r x).
Qed.
Print Assumptions C02_full_synthesis_agreement_refuted.

(** A concrete failing run meeting these hypotheses: public a = 3, private b = 9, a*a = b. *)
Example C02_refuted_instance :
  satisfied (public_square_circuit (f17 3) (fmul (f17 3) (f17 3))) /\
  feqb (dot (1 :: public_values (public_square_circuit (f17 3) (fmul (f17 3) (f17 3))))
     (fst (fst (evaluate_qap ex_domain (fst (synth (public_square_circuit (f17 3) (fmul (f17 3) (f17 3))) cs_new)) (f17 11))))) 0 = false /\
  match encap_with (E := ex_pairing) ex_domain ex_kdf (public_square_circuit (f17 3) (fmul (f17 3) (f17 3)))
          (f17 2) (f17 3) (f17 5) (f17 7) (f17 11) with
  | Ok (ct, k) => k = [x08] /\
      decap (E := ex_pairing) ex_kdf (public_square_circuit (f17 3) (fmul (f17 3) (f17 3))) ct = Ok [x02]
  | _ => False
  end.
Proof. split; [apply public_square_satisfied|]. vm_compute. auto. Qed.

(** C03 refuted: one function of the ciphertext returns the key of every successful encap. *)
Theorem C03_confidentiality_refuted :
  forall (F : fieldT) (E : pairingT F) (kdf : GT E -> key),
    exists extractor : ciphertext F E -> key,
      forall (D : domainT F) (c : prog F) (alpha beta delta r x : F) ct k,
        encap_with D kdf c alpha beta delta r x = Ok (ct, k) -> extractor ct = k.
Proof. intros F E kdf. exists (extract F E kdf). intros D. exact (extract_correct F E D kdf). Qed.
Print Assumptions C03_confidentiality_refuted.

(** C04 *)
Theorem C04_decap_succeeds_iff :
  forall (F : fieldT) (E : pairingT F) (kdf : GT E -> key) (c : prog F) (ct : ciphertext F E),
    well_formed c ->
    ((exists k, decap kdf c ct = Ok k) <->
     completes c /\ constraints_hold c /\
     is_prefix (public_inputs ct) (public_values c ++ private_values c) /\
     r_u_query_g1 (ct_key ct) <> [] /\ r_v_query_g2 (ct_key ct) <> [] /\ phi_delta_query_g1 (ct_key ct) <> []).
Proof. exact decap_ok_iff. Qed.
Print Assumptions C04_decap_succeeds_iff.

Theorem C04_decap_error_table :
  forall (F : fieldT) (E : pairingT F) (kdf : GT E -> key) (c : prog F) (ct : ciphertext F E),
    well_formed c ->
    (forall e, stops_with c = Some e -> decap kdf c ct = Err (SynthesisError e)) /\
    (completes c -> ~ constraints_hold c -> decap kdf c ct = Err InvalidWitness) /\
    (completes c -> constraints_hold c ->
       ~ is_prefix (public_inputs ct) (public_values c ++ private_values c) ->
       decap kdf c ct = Err InvalidPublicInputs) /\
    (completes c -> constraints_hold c ->
       is_prefix (public_inputs ct) (public_values c ++ private_values c) ->
       (r_u_query_g1 (ct_key ct) = [] \/ r_v_query_g2 (ct_key ct) = [] \/ phi_delta_query_g1 (ct_key ct) = []) ->
       decap kdf c ct = Err InvalidWitness) /\
    (completes c -> constraints_hold c ->
       is_prefix (public_inputs ct) (public_values c ++ private_values c) ->
       r_u_query_g1 (ct_key ct) <> [] -> r_v_query_g2 (ct_key ct) <> [] -> phi_delta_query_g1 (ct_key ct) <> [] ->
       exists k, decap kdf c ct = Ok k).
Proof. exact decap_table. Qed.
Print Assumptions C04_decap_error_table.

Theorem C04_decap_never_panics :
  forall (F : fieldT) (E : pairingT F) (kdf : GT E -> key) (c : prog F) (ct : ciphertext F E),
    well_formed c -> decap kdf c ct <> Panic /\ decap kdf c ct <> Err SerializationError.
Proof. exact decap_no_panic. Qed.
Print Assumptions C04_decap_never_panics.

Example C04_nonvacuous : (* a satisfied and an unsatisfied well-formed circuit *)
  satisfied (square_circuit (fmul (f17 3) (f17 3)) (Some (f17 3))) /\
  well_formed (square_circuit (f17 9) (Some (f17 4))) /\ completes (square_circuit (f17 9) (Some (f17 4))) /\
  ~ constraints_hold (square_circuit (f17 9) (Some (f17 4))).
Proof.
  split; [apply square_satisfied|]. split.
  - unfold well_formed, wf_prog, square_circuit; cbn [prog_ok]. repeat split; repeat constructor.
  - split; [reflexivity|]. intros H. apply Forall_inv in H.
    apply (proj2 (feqb_true F17 _ _)) in H. vm_compute in H. discriminate.
Qed.

(** C05 *)
Theorem C05_public_inputs_recorded :
  forall (F : fieldT) (E : pairingT F) (D : domainT F) (kdf : GT E -> key)
         (c : prog F) (alpha beta delta r x : F) ct k,
    encap_with D kdf c alpha beta delta r x = Ok (ct, k) -> public_inputs ct = public_values c.
Proof.
  intros F E D kdf c alpha beta delta r x ct k H. apply encap_with_inv in H.
  destruct H as [_ H]. injection H as -> _. reflexivity.
Qed.
Print Assumptions C05_public_inputs_recorded.

(** C05, the silent truncation: a circuit that allocates a private variable first and stops
    there yields a ciphertext with no public inputs at all, whatever inputs come later. *)
Theorem C05_witness_first_records_nothing :
  forall (F : fieldT) (E : pairingT F) (D : domainT F) (kdf : GT E -> key) (k' : var -> prog F) e
         (alpha beta delta r x : F),
    delta <> 0 ->
    exists ct k, encap_with D kdf (AllocWitness (inr e) k') alpha beta delta r x = Ok (ct, k) /\
                 public_inputs ct = [].
Proof.
  intros. do 2 eexists. split; [apply encap_with_ok; assumption|reflexivity].
Qed.
Print Assumptions C05_witness_first_records_nothing.

(** C06 *)
Theorem C06_encap_outcome :
  forall (F : fieldT) (E : pairingT F) (D : domainT F) (kdf : GT E -> key)
         (c : prog F) (alpha beta delta r x : F),
    (delta <> 0 -> exists ct k, encap_with D kdf c alpha beta delta r x = Ok (ct, k)) /\
    (delta = 0 -> encap_with D kdf c alpha beta delta r x = Panic) /\
    (forall e, encap_with D kdf c alpha beta delta r x <> Err e).
Proof.
  intros F E D kdf c alpha beta delta r x.
  assert (H1 : delta <> 0 -> exists ct k, encap_with D kdf c alpha beta delta r x = Ok (ct, k)).
  { intros Hd. do 2 eexists. apply encap_with_ok. exact Hd. }
  assert (H2 : delta = 0 -> encap_with D kdf c alpha beta delta r x = Panic).
  { intros ->. apply encap_with_panic. }
  split; [exact H1|]. split; [exact H2|].
  intros e He. destruct (f_eq_dec F delta 0) as [Hd|Hd].
  - rewrite (H2 Hd) in He. discriminate.
  - destruct (H1 Hd) as (ct&k&H). rewrite H in He. discriminate.
Qed.
Print Assumptions C06_encap_outcome.

(** C06 for the entry point that draws the scalars: five draws, in the order alpha, beta,
    delta, r, x, and nothing else depends on the generator. *)
Theorem C06_encap_draws :
  forall (F : fieldT) (E : pairingT F) (D : domainT F) (kdf : GT E -> key) (R : Type)
         (next : R -> F * R) (c : prog F) (r0 : R),
    let d1 := next r0 in let d2 := next (snd d1) in let d3 := next (snd d2) in
    let d4 := next (snd d3) in let d5 := next (snd d4) in
    encap D kdf R next c r0 =
      (encap_with D kdf c (fst d1) (fst d2) (fst d3) (fst d4) (fst d5), snd d5).
Proof.
  intros. unfold encap. subst d1 d2 d3 d4 d5.
  destruct (next r0) as [a r1]; cbn [fst snd]. destruct (next r1) as [b r2]; cbn [fst snd].
  destruct (next r2) as [d r3]; cbn [fst snd]. destruct (next r3) as [rr r4]; cbn [fst snd].
  destruct (next r4) as [x r5]. reflexivity.
Qed.
Print Assumptions C06_encap_draws.

(** C07 refuted: the circuit with no constraints at all opens every witness-less ciphertext. *)
Theorem C07_circuit_binding_refuted :
  forall (F : fieldT) (E : pairingT F) (D : domainT F) (kdf : GT E -> key)
         (c0 : prog F) (alpha beta delta r x : F) ct k,
    constraints_stated c0 = [] ->
    encap_with D kdf c0 alpha beta delta r x = Ok (ct, k) ->
    decap kdf (trivial_circuit (public_inputs ct)) ct = Ok k.
Proof. exact trivial_opens. Qed.
Print Assumptions C07_circuit_binding_refuted.

(** Exactly which circuits open a ciphertext made without witness: encap's circuit has no part in it. *)
Theorem C07_which_circuits_open :
  forall (F : fieldT) (E : pairingT F) (D : domainT F) (kdf : GT E -> key)
         (c0 c : prog F) (alpha beta delta r x : F) ct k,
    constraints_stated c0 = [] -> encap_with D kdf c0 alpha beta delta r x = Ok (ct, k) -> well_formed c ->
    (decap kdf c ct = Ok k <->
     completes c /\ constraints_hold c /\ is_prefix (public_values c0) (public_values c ++ private_values c)).
Proof.
  intros F E D kdf c0 c alpha beta delta r x ct k H0 He Hw.
  assert (Hi : public_inputs ct = public_values c0) by (apply encap_with_inv in He as [_ He]; injection He as -> _; reflexivity). split.
  - intros H. destruct (proj1 (decap_ok_iff F E kdf c ct Hw) (ex_intro _ k H)) as (H1&H2&H3&_). rewrite Hi in H3. auto.
  - intros (H1&H2&H3). eapply agreement_witnessless; [exact H0|exact He|split; [exact Hw|split; assumption]|exact H3].
Qed.
Print Assumptions C07_which_circuits_open.

(** C08 refuted: after replacing the recorded public inputs by any list, every satisfied
    circuit that starts with that list recovers the same key. *)
Theorem C08_public_input_binding_refuted :
  forall (F : fieldT) (E : pairingT F) (D : domainT F) (kdf : GT E -> key)
         (c0 c : prog F) (alpha beta delta r x : F) ct k forged,
    constraints_stated c0 = [] ->
    encap_with D kdf c0 alpha beta delta r x = Ok (ct, k) ->
    satisfied c -> is_prefix forged (public_values c ++ private_values c) ->
    decap kdf c (Ciphertext (ct_key ct) forged) = Ok k.
Proof. exact agreement_forged. Qed.
Print Assumptions C08_public_input_binding_refuted.
Theorem C08_which_public_inputs_open :
  forall (F : fieldT) (E : pairingT F) (D : domainT F) (kdf : GT E -> key)
         (c0 c : prog F) (alpha beta delta r x : F) ct k forged,
    constraints_stated c0 = [] -> encap_with D kdf c0 alpha beta delta r x = Ok (ct, k) -> satisfied c ->
    (decap kdf c (Ciphertext (ct_key ct) forged) = Ok k <-> is_prefix forged (public_values c ++ private_values c)) /\
    ((exists k', decap kdf c (Ciphertext (ct_key ct) forged) = Ok k') -> decap kdf c (Ciphertext (ct_key ct) forged) = Ok k).
Proof.
  intros F E D kdf c0 c alpha beta delta r x ct k forged H0 He Hs.
  assert (Hn : (exists k', decap kdf c (Ciphertext (ct_key ct) forged) = Ok k') -> is_prefix forged (public_values c ++ private_values c)).
  { intros H. apply (proj1 (decap_ok_iff F E kdf c _ (proj1 Hs))) in H. apply H. }
  split; [split|].
  - intros H. apply Hn. exists k. exact H.
  - intros H. exact (agreement_forged F E D kdf c0 c alpha beta delta r x ct k forged H0 He Hs H).
  - intros H. exact (agreement_forged F E D kdf c0 c alpha beta delta r x ct k forged H0 He Hs (Hn H)).
Qed.
Print Assumptions C08_which_public_inputs_open.

(** C09 *)
Theorem C09_qap_evaluation_correct :
  forall (F : fieldT) (D : domainT F) (s : csys F) (x : F) ds i,
    domain_ok D -> dom_new D (num_constraints s + num_public_inputs s) = Some ds ->
    (i < num_variables s)%nat ->
    let '(u, v, w) := evaluate_qap D s x in
    exists pu pv pw,
      (interpolates ds (column s rA i) pu /\ (forall q, interpolates ds (column s rA i) q -> peq q pu) /\
       nth i u 0 = peval pu x) /\
      (interpolates ds (column s rB i) pv /\ (forall q, interpolates ds (column s rB i) q -> peq q pv) /\
       nth i v 0 = peval pv x) /\
      (interpolates ds (column s rC i) pw /\ (forall q, interpolates ds (column s rC i) q -> peq q pw) /\
       nth i w 0 = peval pw x).
Proof. exact qap_correct. Qed.
Print Assumptions C09_qap_evaluation_correct.

(** C09: the domain contract is met by the code's domains for BN254. *)
Theorem C09_bn254_domain_contract : domain_ok bn_domain.
Proof. exact bn_domain_ok. Qed.
Print Assumptions C09_bn254_domain_contract.

Example C09_nonvacuous :
  let s := fst (synth (square_circuit (f17 9) (Some (f17 3))) cs_new) in
  domain_ok ex_domain /\
  (exists ds, dom_new ex_domain (num_constraints s + num_public_inputs s) = Some ds /\ length ds = 4%nat) /\
  num_variables s = 3%nat.
Proof. split; [apply ex_domain_ok|]. split; [|reflexivity]. eexists. split; reflexivity. Qed.

(** C10 *)
Theorem C10_satisfaction_iff_divisibility :
  forall (F : fieldT) (D : domainT F) (c : prog F) ds (u v w : nat -> poly F),
    let s := fst (synth c cs_new) in
    well_formed c -> completes c -> domain_ok D ->
    dom_new D (num_constraints s + num_public_inputs s) = Some ds ->
    (forall i, (i < num_variables s)%nat -> interpolates ds (column s rA i) (u i)) ->
    (forall i, (i < num_variables s)%nat -> interpolates ds (column s rB i) (v i)) ->
    (forall i, (i < num_variables s)%nat -> interpolates ds (column s rC i) (w i)) ->
    let wsum (q : nat -> poly F) :=
      psum (map (fun i => pscale (nth i (1 :: public_values c ++ private_values c) 0) (q i))
                (seq 0 (num_variables s))) in
    constraints_hold c <-> pdivides (pvanish ds) (psub (pmul (wsum u) (wsum v)) (wsum w)).
Proof. exact qap_satisfaction. Qed.
Print Assumptions C10_satisfaction_iff_divisibility.

(** C11 *)
Theorem C11_verify_ciphertext_iff :
  forall (F : fieldT) (E : pairingT F) (ct : ciphertext F E) expected,
    verify_ciphertext ct expected = true <-> public_inputs ct = expected.
Proof. exact verify_iff. Qed.
Print Assumptions C11_verify_ciphertext_iff.

(** C12 *)
Theorem C12_published_queries :
  forall (F : fieldT) (E : pairingT F) (D : domainT F) (kdf : GT E -> key)
         (c : prog F) (alpha beta delta r x : F) ct k,
    encap_with D kdf c alpha beta delta r x = Ok (ct, k) ->
    let '(u, v, w) := evaluate_qap D (fst (synth c cs_new)) x in
    let m := num_variables (fst (synth c cs_new)) in
    length u = m /\ length v = m /\ length w = m /\
    alpha_g1 (ct_key ct) = smul alpha (g1 E) /\ beta_g2 (ct_key ct) = smul beta (g2 E) /\
    delta_g2 (ct_key ct) = smul delta (g2 E) /\
    length (r_u_query_g1 (ct_key ct)) = m /\ length (r_v_query_g2 (ct_key ct)) = m /\
    length (phi_delta_query_g1 (ct_key ct)) = m /\ h_query_g1 (ct_key ct) = [] /\
    forall i, (i < m)%nat ->
      nth_error (r_u_query_g1 (ct_key ct)) i = Some (smul (r * nth i u 0) (g1 E)) /\
      nth_error (r_v_query_g2 (ct_key ct)) i = Some (smul (r * nth i v 0) (g2 E)) /\
      nth_error (phi_delta_query_g1 (ct_key ct)) i =
        Some (smul ((r * beta * nth i u 0 + r * alpha * nth i v 0 + r * r * nth i w 0) / delta) (g1 E)).
Proof. exact crs_shape. Qed.
Print Assumptions C12_published_queries.

Theorem C12_variable_count :
  forall (F : fieldT) (c : prog F),
    num_variables (fst (synth c cs_new)) =
    (1 + length (public_values c) + length (private_values c)
     + match stops_with c with
       | None => 0 | Some _ => fst (extra_of 1 0 c) + snd (extra_of 1 0 c) end)%nat.
Proof. exact num_variables_count. Qed.
Print Assumptions C12_variable_count.

(** C13 *)
Theorem C13_keys_coincide_iff :
  forall (F : fieldT) (E : pairingT F) (D : domainT F) (c0 : prog F) (a b d r x a' b' d' r' x' : F),
    nondegenerate E -> constraints_stated c0 = [] -> d <> 0 -> d' <> 0 ->
    exists S S' : GT E, encap_secret D c0 a b d r x S /\ encap_secret D c0 a' b' d' r' x' S' /\
      (S = S' <-> a * b = a' * b').
Proof.
  intros F E D c0 a b d r x a' b' d' r' x' Hnd Hc Hd Hd'.
  exists (smul (a * b) (pair E (g1 E) (g2 E))), (smul (a' * b') (pair E (g1 E) (g2 E))). split; [|split].
  - intros kdf. eexists. rewrite (encap_with_ok F E D kdf c0 a b d r x Hd), (enc_exponent_aborted F D) by exact Hc. reflexivity.
  - intros kdf. eexists. rewrite (encap_with_ok F E D kdf c0 a' b' d' r' x' Hd'), (enc_exponent_aborted F D) by exact Hc. reflexivity.
  - split; [apply Hnd|]. intros ->. reflexivity.
Qed.
Print Assumptions C13_keys_coincide_iff.

Theorem C13_distinct_beta_distinct_keys :
  forall (F : fieldT) (E : pairingT F) (D : domainT F) (c0 : prog F) (a b d r x b' d' r' x' : F),
    nondegenerate E -> constraints_stated c0 = [] -> d <> 0 -> d' <> 0 -> a <> 0 -> b <> b' ->
    exists S S' : GT E, encap_secret D c0 a b d r x S /\ encap_secret D c0 a b' d' r' x' S' /\ S <> S'.
Proof.
  intros F E D c0 a b d r x b' d' r' x' Hnd Hc Hd Hd' Ha Hb.
  destruct (C13_keys_coincide_iff F E D c0 a b d r x a b' d' r' x' Hnd Hc Hd Hd') as (S&S'&H1&H2&H3).
  exists S, S'. split; [exact H1|]. split; [exact H2|]. intros H. apply H3 in H. apply Hb. exact (fmul_cancel_l F a b b' Ha H).
Qed.
Print Assumptions C13_distinct_beta_distinct_keys.

Example C13_nonvacuous : nondegenerate ex_pairing /\ constraints_stated (square_circuit (f17 9) None) = [].
Proof. split; [apply selfPairing_nondegenerate|reflexivity]. Qed.
