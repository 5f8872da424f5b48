(** Encapsulating a circuit whose assignment stops at some wire, then decapsulating with a full
    assignment that agrees up to there.  Used for the CLI commands and the JavaScript API. *)
From Coq Require Import List Bool Arith NArith ZArith Lia.
From Coq Require Import Strings.Byte.
From Verif Require Import Res Bytes Fld Zp Groups Bn254 CS CSFacts Qap SpecCore Core CoreFacts CoreMore P_Core
  R1cs SpecR1cs Circuit SpecCircuit CircuitFacts P_Circuit ArkSer ArkSerFacts P_Ser.
Import ListNotations.
Local Open Scope N_scope.

(** The first wire from 1 on that has no value. *)
Lemma first_missing (f : N -> option Fr) b : f (b + 1) = None ->
  exists m, 1 <= m <= b + 1 /\ f m = None /\ (forall i, 1 <= i < m -> f i <> None).
Proof.
  intros Hb. assert (G : forall k, exists m, 1 <= m <= N.of_nat k + 1 /\
    (forall i, 1 <= i < m -> f i <> None) /\ (m = N.of_nat k + 1 \/ f m = None)).
  { clear. induction k as [|k (m&H1&H2&H3)].
    - exists 1. split; [lia|]. split; [intros i Hi; lia|]. left. reflexivity.
    - destruct H3 as [->|H3].
      + destruct (f (N.of_nat k + 1)) as [v|] eqn:Ev.
        * exists (N.of_nat (S k) + 1). split; [lia|]. split; [|auto]. intros i Hi.
          destruct (N.eq_dec i (N.of_nat k + 1)) as [->|Hne]; [rewrite Ev; discriminate|]. apply H2. lia.
        * exists (N.of_nat k + 1). split; [lia|]. auto.
      + exists m. split; [lia|]. auto. }
  destruct (G (N.to_nat b)) as (m&H1&H2&H3). rewrite N2Nat.id in *. exists m. split; [exact H1|]. split; [|exact H2].
  destruct H3 as [->|H3]; assumption.
Qed.

Section Partial.
  Context (E : pairingT Fr) (C : codecT E) (D : domainT Fr) (kdf : GT E -> key).

  Lemma partial_encap c m alpha beta delta r x ct k :
    cc_n_public c < cc_n_wires c -> cc_n_wires c < 2 ^ 32 ->
    1 <= m <= cc_n_public c + 1 -> m < cc_n_wires c -> m <= 2 ^ 24 + 1 ->
    cc_witness c m = None -> (forall i, 1 <= i < m -> cc_witness c i <> None) ->
    encap_with D kdf (circom_prog c) alpha beta delta r x = Ok (ct, k) ->
    lengths_ok ct /\ blen (ct_bytes C ct) < 2 ^ 32 /\
    (constraints_stated (circom_prog c) = [] /\ public_inputs ct = public_values (circom_prog c) /\
     public_inputs ct = map (wires (cc_witness c)) (range 1 m)) /\
    forall c2, cc_n_public c2 = cc_n_public c -> cc_n_wires c2 = cc_n_wires c ->
      factors_below (cc_n_wires c2) (cc_constraints c2) ->
      (forall i, 1 <= i < cc_n_wires c2 -> cc_witness c2 i <> None) ->
      satisfies (wires (cc_witness c2)) (cc_constraints c2) ->
      (forall i, 1 <= i < m -> cc_witness c2 i = cc_witness c i) ->
      decap kdf (circom_prog c2) ct = Ok k.
  Proof.
    intros Hu2 Hnw Hm1 Hmw Hm24 Hm2 Hm3 He.
    set (np := cc_n_public c) in *. set (nw := cc_n_wires c) in *. set (a := cc_witness c) in *.
    destruct (circom_stops c m) as (_&S1&S2&S3&S4&S5).
    { fold np. clear - Hu2 Hnw. lia. }
    { unfold n_alloc. fold nw np. clear - Hmw Hm1. lia. }
    { exact Hm2. }
    { exact Hm3. }
    fold a np in S3, S4. fold np in S5. rewrite N.min_l in S3 by (clear - Hm1; lia).
    assert (Hpub : List.length (public_values (circom_prog c)) = N.to_nat (m - 1)).
    { rewrite S3, map_length, range_length. reflexivity. }
    assert (Hpriv : private_values (circom_prog c) = []).
    { rewrite S4. replace (range (np + 1) m) with (@nil N); [reflexivity|].
      symmetry. apply length_zero_iff_nil. rewrite range_length. clear - Hm1. lia. }
    pose proof (num_variables_count Fr (circom_prog c)) as Hnv. rewrite S1, Hpub, Hpriv, S5 in Hnv. cbn [List.length] in Hnv.
    pose proof (C05_public_inputs_recorded Fr E D kdf _ _ _ _ _ _ _ _ He) as Hpi.
    pose proof (C15_encap_size E C D kdf _ _ _ _ _ _ _ _ He) as Hsz. rewrite Hpub in Hsz.
    pose proof (C12_published_queries Fr E D kdf _ _ _ _ _ _ _ _ He) as Hq.
    destruct (evaluate_qap D (fst (synth (circom_prog c) cs_new)) x) as [[u vv] ww]. cbv zeta in Hq.
    destruct Hq as (_&_&_&_&_&_&L1&L2&L3&L4&_).
    set (nv := num_variables (fst (synth (circom_prog c) cs_new))) in *.
    assert (Hnv' : (N.of_nat nv <= 2 ^ 24 + 2)).
    { rewrite Hnv. destruct (m <=? _); cbn [fst snd]; clear - Hm1 Hm24; lia. }
    assert (Hlen : lengths_ok ct).
    { unfold lengths_ok. rewrite L1, L2, L3, L4, Hpi, Hpub. cbn [List.length].
      clear - Hnv' Hm1 Hm24. change (2 ^ 24) with 16777216 in *. change (2 ^ 64) with 18446744073709551616.
      repeat split; lia. }
    split; [exact Hlen|]. split.
    { unfold blen. rewrite Hsz. clear - Hnv' Hm1 Hm24. change (2 ^ 24) with 16777216 in *. change (2 ^ 32) with 4294967296. lia. }
    split.
    { split; [exact S2|]. split; [exact Hpi|]. rewrite Hpi. exact S3. }
    intros c2 Hnp2 Hnw2 Hv2 Hall Hv3 Hag.
    destruct (C24_synthesis_means_satisfaction c2) as (W1&W2&W3&W4&(b&Hb&Hiff)).
    { rewrite Hnp2, Hnw2. exact Hu2. }
    { rewrite Hnw2. clear - Hnw. lia. }
    { exact Hv2. }
    { exact Hall. }
    destruct (is_satisfied_synth _ _ W1 W2) as (b'&Hb'&Hsat).
    assert (b' = true).
    { assert (b = true) by (apply Hiff; exact Hv3). congruence. }
    subst b'. apply (C01_key_agreement_without_witness Fr E D kdf (circom_prog c) (circom_prog c2) _ _ _ _ _ _ _ S2 He).
    - split; [exact W1|]. split; [exact W2|]. apply Hsat. reflexivity.
    - rewrite S3, W3, W4, Hnp2, Hnw2. fold np nw.
      rewrite <- map_app, <- range_split by (clear - Hu2; lia).
      exists (map (wires (cc_witness c2)) (range m nw)).
      rewrite (range_split 1 m nw) by (clear - Hm1 Hmw; lia). rewrite map_app. f_equal.
      apply map_ext_in. intros i Hi. apply range_in in Hi. unfold wires. rewrite (Hag i Hi). reflexivity.
  Qed.
End Partial.
