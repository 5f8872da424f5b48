(** Remaining lemmas behind the core property theorems, in the vocabulary of SpecCore.v,
    and the concrete instances used in the examples. *)
From Coq Require Import List Bool Arith Lia Ring Field ZArith.
From Coq Require Import Strings.Byte.
From Verif Require Import Res Fld Groups CS CSFacts Poly Qap SpecQap QapFacts Core CoreFacts SpecCore Zp Domain.
Import ListNotations.
Local Open Scope fld_scope.

Section CoreMore.
  Context (F : fieldT) (E : pairingT F) (D : domainT F) (kdf : GT E -> key).
  Add Field FfldCM : (f_th F).
  Implicit Types (c : prog F) (alpha beta delta r x : F).

  Lemma trivial_circuit_facts (pub : list F) ni nw :
    inputs_of ni nw (trivial_circuit pub) = pub /\ witnesses_of ni nw (trivial_circuit pub) = [] /\
    rows_of ni nw (trivial_circuit pub) = [] /\ error_of ni nw (trivial_circuit pub) = None /\
    prog_ok ni nw (trivial_circuit pub).
  Proof.
    revert ni nw; induction pub as [|a pub IH]; intros ni nw; simpl; [repeat split|].
    destruct (IH (S ni) nw) as (H1&H2&H3&H4&H5). rewrite H1. auto.
  Qed.

  Lemma trivial_satisfied (pub : list F) : satisfied (trivial_circuit pub).
  Proof.
    destruct (trivial_circuit_facts pub 1 0) as (H1&H2&H3&H4&H5).
    split; [exact H5|]. split; [exact H4|].
    unfold constraints_hold, constraints_stated. rewrite H3. constructor.
  Qed.

  Lemma agreement_forged c0 c alpha beta delta r x ct k pub :
    constraints_stated c0 = [] ->
    encap_with D kdf c0 alpha beta delta r x = Ok (ct, k) ->
    satisfied c -> is_prefix pub (public_values c ++ private_values c) ->
    decap kdf c (Ciphertext (ct_key ct) pub) = Ok k.
  Proof.
    intros Hr He (Hwf&Hc&Hs) Hp.
    exact (key_agreement_aborted F E D kdf c0 c alpha beta delta r x ct k pub Hr He Hwf Hc Hs Hp).
  Qed.

  Lemma agreement_witnessless c0 c alpha beta delta r x ct k :
    constraints_stated c0 = [] ->
    encap_with D kdf c0 alpha beta delta r x = Ok (ct, k) ->
    satisfied c -> is_prefix (public_values c0) (public_values c ++ private_values c) ->
    decap kdf c ct = Ok k.
  Proof.
    intros Hr He Hs Hp.
    pose proof (agreement_forged c0 c alpha beta delta r x ct k (public_values c0) Hr He Hs Hp) as H.
    apply encap_with_inv in He. destruct He as [_ Heq]. injection Heq as -> _. exact H.
  Qed.

  Lemma trivial_opens c0 alpha beta delta r x ct k :
    constraints_stated c0 = [] ->
    encap_with D kdf c0 alpha beta delta r x = Ok (ct, k) ->
    decap kdf (trivial_circuit (public_inputs ct)) ct = Ok k.
  Proof.
    intros Hr He. pose proof He as He'. apply encap_with_inv in He'. destruct He' as [_ Heq].
    injection Heq as Hct _.
    apply (agreement_witnessless c0 (trivial_circuit (public_inputs ct)) alpha beta delta r x ct k Hr He).
    - apply trivial_satisfied.
    - destruct (trivial_circuit_facts (public_inputs ct) 1 0) as (H1&_).
      unfold public_values at 2. rewrite H1. rewrite Hct. eexists; reflexivity.
  Qed.

  (** The full decision table of decap. *)
  Lemma decap_table c (ct : ciphertext F E) :
    well_formed c ->
    (forall e, stops_with c = Some e -> decap kdf c ct = Err (SynthesisError e)) /\
    (completes c -> ~ constraints_hold c -> decap kdf c ct = Err InvalidWitness) /\
    (completes c -> constraints_hold c ->
       ~ is_prefix (public_inputs ct) (public_values c ++ private_values c) ->
       decap kdf c ct = Err InvalidPublicInputs) /\
    (completes c -> constraints_hold c ->
       is_prefix (public_inputs ct) (public_values c ++ private_values c) ->
       (r_u_query_g1 (ct_key ct) = [] \/ r_v_query_g2 (ct_key ct) = [] \/ phi_delta_query_g1 (ct_key ct) = []) ->
       decap kdf c ct = Err InvalidWitness) /\
    (completes c -> constraints_hold c ->
       is_prefix (public_inputs ct) (public_values c ++ private_values c) ->
       r_u_query_g1 (ct_key ct) <> [] -> r_v_query_g2 (ct_key ct) <> [] -> phi_delta_query_g1 (ct_key ct) <> [] ->
       exists k, decap kdf c ct = Ok k).
  Proof.
    intros Hwf. pose proof (decap_unfold F E kdf c ct Hwf) as Hun.
    unfold completes, stops_with in *.
    split; [|split; [|split; [|split]]].
    - intros e He. rewrite Hun, He. reflexivity.
    - intros He Hns. rewrite Hun, He.
      destruct (is_satisfied_synth F c Hwf He) as (b&Hb&Hbt). rewrite Hb.
      destruct b; [exfalso; apply Hns, Hbt; reflexivity|reflexivity].
    - intros He Hs Hnp. rewrite Hun, He.
      destruct (is_satisfied_synth F c Hwf He) as (b&Hb&Hbt). rewrite Hb, (proj2 Hbt Hs).
      destruct (pub_match F _ _) eqn:Hpm; [|reflexivity].
      exfalso. apply Hnp. apply pub_match_prefix in Hpm. exact Hpm.
    - intros He Hs Hp Hq. rewrite Hun, He.
      destruct (is_satisfied_synth F c Hwf He) as (b&Hb&Hbt). rewrite Hb, (proj2 Hbt Hs).
      assert (Hpm : pub_match F (inputs_of 1 0 c ++ witnesses_of 1 0 c) (public_inputs ct) = true)
        by (apply pub_match_prefix; exact Hp).
      rewrite Hpm.
      destruct (r_u_query_g1 (ct_key ct)); [reflexivity|].
      destruct (r_v_query_g2 (ct_key ct)); [reflexivity|].
      destruct (phi_delta_query_g1 (ct_key ct)); [reflexivity|].
      destruct Hq as [|[|]]; discriminate.
    - intros He Hs Hp Hu Hv Hw. eexists. apply (decap_ok F E kdf c ct Hwf He Hs Hp).
      repeat split; assumption.
  Qed.

  Lemma constraints_hold_dec c : constraints_hold c \/ ~ constraints_hold c.
  Proof.
    unfold constraints_hold. generalize (constraints_stated c).
    set (val := assignment_val _ _). intros l. induction l as [|r0 l IH]; [left; constructor|].
    destruct IH as [IH|IH].
    - destruct (f_eq_dec F (lc_value val (rA r0) * lc_value val (rB r0)) (lc_value val (rC r0))) as [H|H].
      + left. constructor; assumption.
      + right. intros HF. inversion HF; contradiction.
    - right. intros HF. inversion HF; contradiction.
  Qed.

  Lemma is_prefix_dec (a b : list F) : is_prefix a b \/ ~ is_prefix a b.
  Proof.
    destruct (pub_match F b a) eqn:H.
    - left. apply pub_match_prefix in H. exact H.
    - right. intros Hp. assert (pub_match F b a = true) by (apply pub_match_prefix; exact Hp). congruence.
  Qed.

  Lemma decap_ok_iff c (ct : ciphertext F E) :
    well_formed c ->
    ((exists k, decap kdf c ct = Ok k) <->
     completes c /\ constraints_hold c /\
     is_prefix (public_inputs ct) (public_values c ++ private_values c) /\
     r_u_query_g1 (ct_key ct) <> [] /\ r_v_query_g2 (ct_key ct) <> [] /\ phi_delta_query_g1 (ct_key ct) <> []).
  Proof.
    intros Hwf. destruct (decap_table c ct Hwf) as (H1&H2&H3&H4&H5). split.
    - intros (k&Hk).
      destruct (stops_with c) as [e|] eqn:He; [rewrite (H1 e eq_refl) in Hk; discriminate|].
      split; [exact He|].
      destruct (constraints_hold_dec c) as [Hs|Hs]; [|rewrite (H2 He Hs) in Hk; discriminate].
      split; [exact Hs|].
      destruct (is_prefix_dec (public_inputs ct) (public_values c ++ private_values c)) as [Hp|Hp];
        [|rewrite (H3 He Hs Hp) in Hk; discriminate].
      split; [exact Hp|].
      repeat split; intros Hq; rewrite (H4 He Hs Hp) in Hk; try discriminate; auto.
    - intros (He&Hs&Hp&Hu&Hv&Hw). auto.
  Qed.

  Lemma decap_no_panic c (ct : ciphertext F E) :
    well_formed c -> decap kdf c ct <> Panic /\ decap kdf c ct <> Err SerializationError.
  Proof.
    intros Hwf. rewrite decap_unfold by exact Hwf.
    destruct (error_of 1 0 c) eqn:He; [split; discriminate|].
    destruct (is_satisfied_synth F c Hwf He) as (b&Hb&_). rewrite Hb.
    destruct b; [|split; discriminate].
    destruct (pub_match F _ _); [|split; discriminate].
    destruct (r_u_query_g1 (ct_key ct)), (r_v_query_g2 (ct_key ct)), (phi_delta_query_g1 (ct_key ct));
      split; discriminate.
  Qed.

  (** Every well-formed, complete, satisfied program stays in the domain of the secret
      formula. *)
  Lemma agreement_exponents c0 c alpha beta delta r x ct k :
    encap_with D kdf c0 alpha beta delta r x = Ok (ct, k) ->
    satisfied c -> is_prefix (public_values c0) (public_values c ++ private_values c) ->
    let '(u, v, w) := evaluate_qap D (fst (synth c0 cs_new)) x in
    let full := 1 :: public_values c ++ private_values c in
    let pub := 1 :: public_values c0 in
    let e := pair E (g1 E) (g2 E) in
    k = kdf (smul (alpha * beta + (r * beta * dot pub u + r * alpha * dot pub v + r * r * dot pub w) * finv delta) e) /\
    decap kdf c ct = Ok (kdf (smul (alpha * beta + r * r * (dot full u * dot full v - dot full w)) e)).
  Proof.
    intros He (Hwf&Hc&Hs) Hp.
    pose proof (decap_of_encap F E D kdf c0 c alpha beta delta r x ct k He Hwf Hc Hs Hp) as Hd.
    rewrite evaluate_qap_sel. cbv zeta. split; [|exact Hd].
    apply encap_with_inv in He. destruct He as [_ Heq]. injection Heq as _ ->.
    rewrite enc_exponent_eq. reflexivity.
  Qed.

  Lemma crs_shape c alpha beta delta r x ct k :
    encap_with D kdf c alpha beta delta r x = Ok (ct, k) ->
    let '(u, v, w) := evaluate_qap D (fst (synth c cs_new)) x in
    let m := num_variables (fst (synth c cs_new)) in
    length u = m /\ length v = m /\ length w = m /\
    alpha_g1 (ct_key ct) = smul alpha (g1 E) /\ beta_g2 (ct_key ct) = smul beta (g2 E) /\
    delta_g2 (ct_key ct) = smul delta (g2 E) /\
    length (r_u_query_g1 (ct_key ct)) = m /\ length (r_v_query_g2 (ct_key ct)) = m /\
    length (phi_delta_query_g1 (ct_key ct)) = m /\ h_query_g1 (ct_key ct) = [] /\
    forall i, i < m ->
      nth_error (r_u_query_g1 (ct_key ct)) i = Some (smul (r * nth i u 0) (g1 E)) /\
      nth_error (r_v_query_g2 (ct_key ct)) i = Some (smul (r * nth i v 0) (g2 E)) /\
      nth_error (phi_delta_query_g1 (ct_key ct)) i =
        Some (smul ((r * beta * nth i u 0 + r * alpha * nth i v 0 + r * r * nth i w 0) / delta) (g1 E)).
  Proof.
    intros H. apply encap_with_inv in H. destruct H as [Hd Heq]. injection Heq as -> _.
    rewrite evaluate_qap_sel. cbv zeta. unfold enc_ct; cbn [ct_key alpha_g1 beta_g2 delta_g2
      r_u_query_g1 r_v_query_g2 phi_delta_query_g1 h_query_g1].
    fold (enc_u F D c x) (enc_v F D c x) (enc_w F D c x) (nvars F c).
    rewrite !map_length. unfold enc_phi. rewrite phi_evals_length.
    rewrite enc_u_length, enc_v_length, enc_w_length.
    do 10 (split; [reflexivity|]). intros i Hi.
    assert (Hnth : forall (l : list F) (A : Type) (f : F -> A), length l = nvars F c ->
              nth_error (map f l) i = Some (f (nth i l 0))).
    { intros l A f Hl. rewrite nth_error_map, (nth_error_nth' l 0) by lia. reflexivity. }
    rewrite (Hnth (enc_u F D c x)) by apply enc_u_length.
    rewrite (Hnth (enc_v F D c x)) by apply enc_v_length.
    rewrite (Hnth (phi_evals _ _ _ _ _ _ _)) by (rewrite phi_evals_length; apply enc_u_length).
    repeat split. f_equal. f_equal. unfold phi_evals.
    rewrite nth_map_seq by (rewrite enc_u_length; exact Hi). field. exact Hd.
  Qed.

  Lemma num_variables_count c :
    num_variables (fst (synth c cs_new)) =
    (1 + length (public_values c) + length (private_values c)
     + match stops_with c with
       | None => 0 | Some _ => fst (extra_of 1 0 c) + snd (extra_of 1 0 c) end)%nat.
  Proof.
    change (num_variables (fst (synth c cs_new))) with (nvars F c).
    rewrite nvars_eq. unfold public_values, private_values, stops_with.
    destruct (error_of 1 0 c) eqn:He; [lia|]. rewrite (extra_no_error F 1 0 c He). simpl. lia.
  Qed.

  Lemma qap_correct (s : csys F) x ds i :
    domain_ok D -> dom_new D (num_constraints s + num_public_inputs s) = Some ds ->
    i < num_variables s ->
    let '(u, v, w) := evaluate_qap D s x in
    exists pu pv pw,
      (interpolates ds (column s rA i) pu /\ (forall q, interpolates ds (column s rA i) q -> peq q pu) /\
       nth i u 0 = peval pu x) /\
      (interpolates ds (column s rB i) pv /\ (forall q, interpolates ds (column s rB i) q -> peq q pv) /\
       nth i v 0 = peval pv x) /\
      (interpolates ds (column s rC i) pw /\ (forall q, interpolates ds (column s rC i) q -> peq q pw) /\
       nth i w 0 = peval pw x).
  Proof.
    intros HD Hds Hi. rewrite evaluate_qap_sel. destruct (HD _ _ Hds) as [_ Hnd].
    assert (H : forall sel, exists p, interpolates ds (column s sel i) p /\
      (forall q, interpolates ds (column s sel i) q -> peq q p) /\
      nth i (sel_evals F D s x sel) 0 = peval p x).
    { intros sel. destruct (columns_interpolable F D s sel ds i HD Hds) as (p&Hp).
      exists p. split; [exact Hp|]. split.
      - intros q Hq. exact (interpolates_unique F ds _ q p Hnd Hq Hp).
      - exact (sel_evals_correct F D s x sel ds i p HD Hds Hi Hp). }
    destruct (H rA) as (pu&Hu). destruct (H rB) as (pv&Hv). destruct (H rC) as (pw&Hw).
    exists pu, pv, pw. auto.
  Qed.

  Lemma qap_satisfaction c ds (u v w : nat -> poly F) :
    let s := fst (synth c cs_new) in
    well_formed c -> completes c -> domain_ok D ->
    dom_new D (num_constraints s + num_public_inputs s) = Some ds ->
    (forall i, i < num_variables s -> interpolates ds (column s rA i) (u i)) ->
    (forall i, i < num_variables s -> interpolates ds (column s rB i) (v i)) ->
    (forall i, i < num_variables s -> interpolates ds (column s rC i) (w i)) ->
    let wsum (q : nat -> poly F) :=
      psum (map (fun i => pscale (nth i (1 :: public_values c ++ private_values c) 0) (q i))
                (seq 0 (num_variables s))) in
    constraints_hold c <-> pdivides (pvanish ds) (psub (pmul (wsum u) (wsum v)) (wsum w)).
  Proof.
    intros s Hwf Hc HD Hds Hu Hv Hw. destruct (HD _ _ Hds) as [Hn Hnd].
    pose proof (extra_no_error F 1 0 c Hc) as Hx.
    assert (Hs : s = CSys (S (length (inputs_of 1 0 c))) (length (witnesses_of 1 0 c))
                  (1 :: inputs_of 1 0 c) (witnesses_of 1 0 c) (rows_of 1 0 c)).
    { unfold s. rewrite synth_new, Hx. cbn [fst snd]. f_equal; lia. }
    assert (Hrows : rows s = rows_of 1 0 c) by (rewrite Hs; reflexivity).
    unfold constraints_hold, constraints_stated. rewrite <- Hrows.
    apply (satisfied_iff_divides F s (inputs_of 1 0 c) (witnesses_of 1 0 c) ds u v w); auto.
    - rewrite Hs. reflexivity.
    - rewrite Hs. reflexivity.
    - rewrite Hrows. exact (rows_of_ok F 1 0 c Hwf).
    - unfold num_constraints in Hn. lia.
  Qed.
End CoreMore.

(* ---------- concrete instances for the examples ---------- *)
(** F_17 with its radix-2 domains (3 generates the group of order 16 = 2^4). *)
Definition ex_domain : domainT F17 := radix2 (f17 3) 4.
Lemma ex_domain_ok : domain_ok ex_domain.
Proof.
  apply radix2_ok.
  - apply (proj1 (feqb_false F17 _ _)). vm_compute. reflexivity.
  - apply (proj1 (feqb_false F17 _ _)). vm_compute. reflexivity.
  - apply (proj1 (feqb_true F17 _ _)). vm_compute. reflexivity.
  - lia.
Qed.
Definition ex_pairing : pairingT F17 := selfPairing F17.
(** An injective stand-in for the hash. *)
Definition byte_of_Z (z : Z) : byte := match Byte.of_N (Z.to_N z) with Some b => b | None => x00 end.
Definition ex_kdf (s : GT ex_pairing) : key := [byte_of_Z (@zval 17 s)].
Lemma ex_kdf_inj s s' : ex_kdf s = ex_kdf s' -> s = s'.
Proof.
  unfold ex_kdf. intros H. injection H as H. apply zval_inj.
  pose proof (zval_range 17 s) as Hs. pose proof (zval_range 17 s') as Hs'.
  unfold byte_of_Z in H.
  destruct (Byte.of_N (Z.to_N (zval s))) as [b|] eqn:Eb.
  2:{ apply Byte.of_N_None_iff in Eb. lia. }
  destruct (Byte.of_N (Z.to_N (zval s'))) as [b'|] eqn:Eb'.
  2:{ apply Byte.of_N_None_iff in Eb'. lia. }
  apply Byte.to_of_N in Eb, Eb'. subst b'. rewrite Eb in Eb'. lia.
Qed.

(** A circuit "public y, private a, a*a = y", with or without the private value. *)
Definition square_circuit {F : fieldT} (y : F) (a : option F) : prog F :=
  AllocInput (inl y) (fun vy =>
  AllocWitness (match a with Some a => inl a | None => inr AssignmentMissing end) (fun va =>
  Enforce [(f1, va)] [(f1, va)] [(f1, vy)] Done)).
(** "public a, private b, a*a = b". *)
Definition public_square_circuit {F : fieldT} (a b : F) : prog F :=
  AllocInput (inl a) (fun va =>
  AllocWitness (inl b) (fun vb =>
  Enforce [(f1, va)] [(f1, va)] [(f1, vb)] Done)).

Lemma square_satisfied {F : fieldT} (a : F) : satisfied (square_circuit (a * a) (Some a)).
Proof.
  assert (H : forall z : F, 1 * z + 0 = z) by (intros z; rewrite fmul_1_l; apply fadd_0_r).
  split; [|split].
  - unfold well_formed, wf_prog, square_circuit; cbn [prog_ok].
    repeat split; repeat constructor.
  - reflexivity.
  - unfold constraints_hold, constraints_stated; simpl. constructor; [|constructor].
    unfold row_holds, lc_value; simpl. rewrite !H. reflexivity.
Qed.
Lemma public_square_satisfied {F : fieldT} (a : F) : satisfied (public_square_circuit a (a * a)).
Proof.
  assert (H : forall z : F, 1 * z + 0 = z) by (intros z; rewrite fmul_1_l; apply fadd_0_r).
  split; [|split].
  - unfold well_formed, wf_prog, public_square_circuit; cbn [prog_ok].
    repeat split; repeat constructor.
  - reflexivity.
  - unfold constraints_hold, constraints_stated; simpl. constructor; [|constructor].
    unfold row_holds, lc_value; simpl. rewrite !H. reflexivity.
Qed.
