(** Property theorems C14 and C15. *)
From Coq Require Import List Bool Arith NArith ZArith Lia.
From Coq Require Import Strings.Byte.
From Verif Require Import Res Bytes Reader Fld Groups Bn254 Zp CS CSFacts Qap Core CoreFacts CoreMore P_Core SpecCore SpecWtns R1csFacts Wtns WtnsFacts P_Wtns
  R1cs Circuit SpecCircuit CircuitFacts ArkSer ArkSerFacts.
Import ListNotations.
Local Open Scope N_scope.

(** ** C14 *)
Theorem C14_round_trip :
  forall (E : pairingT Fr) (C : codecT E) (c : ciphertext Fr E) (rest : list byte),
    lengths_ok c -> ct_deserialize C (ct_bytes C c ++ rest) = Some (c, rest).
Proof.
  intros E C c rest H. unfold ct_deserialize. rewrite (proj1 (ct_inverts C c H)). reflexivity.
Qed.
Print Assumptions C14_round_trip.

Theorem C14_size :
  forall (E : pairingT Fr) (C : codecT E) (c : ciphertext Fr E),
    length (ct_bytes C c) =
    (200 + 32 * length (r_u_query_g1 (ct_key c)) + 64 * length (r_v_query_g2 (ct_key c))
     + 32 * length (phi_delta_query_g1 (ct_key c)) + 32 * length (h_query_g1 (ct_key c))
     + 32 * length (public_inputs c))%nat.
Proof. intros. apply ct_bytes_length. Qed.
Print Assumptions C14_size.

(** Every truncation of a serialised ciphertext is rejected. *)
Theorem C14_strict_prefixes_rejected :
  forall (E : pairingT Fr) (C : codecT E) (c : ciphertext Fr E) (p q : list byte),
    lengths_ok c -> ct_bytes C c = p ++ q -> q <> [] -> ct_deserialize C p = None.
Proof.
  intros E C c p q H Heq Hq. unfold ct_deserialize.
  destruct (proj2 (ct_inverts C c H) p q Heq Hq) as (s&->). reflexivity.
Qed.
Print Assumptions C14_strict_prefixes_rejected.

(** The bytes determine the ciphertext. *)
Theorem C14_injective :
  forall (E : pairingT Fr) (C : codecT E) (c c' : ciphertext Fr E),
    lengths_ok c -> lengths_ok c' -> ct_bytes C c = ct_bytes C c' -> c = c'.
Proof.
  intros E C c c' H H' Heq. pose proof (C14_round_trip E C c [] H) as H1.
  pose proof (C14_round_trip E C c' [] H') as H2. rewrite Heq in H1. congruence.
Qed.
Print Assumptions C14_injective.

(** Whatever is accepted was read from the front of the input, exactly its size many bytes. *)
Theorem C14_accepted_size :
  forall (E : pairingT Fr) (C : codecT E) (bs : list byte) (c : ciphertext Fr E) (rest : list byte),
    ct_deserialize C bs = Some (c, rest) ->
    exists used, bs = used ++ rest /\
      length used =
      (200 + 32 * length (r_u_query_g1 (ct_key c)) + 64 * length (r_v_query_g2 (ct_key c))
       + 32 * length (phi_delta_query_g1 (ct_key c)) + 32 * length (h_query_g1 (ct_key c))
       + 32 * length (public_inputs c))%nat.
Proof.
  intros E C bs c rest H. unfold ct_deserialize in H. pose proof (ct_consumes C bs) as Hc.
  destruct (ds_ct E C bs) as [[c'|e|] r]; try discriminate. injection H as -> ->. exact Hc.
Qed.
Print Assumptions C14_accepted_size.

(** If the point decoders accept canonical encodings only, so does the ciphertext decoder: every
    accepted input is the serialisation of the result followed by the unread bytes. *)
Theorem C14_accepted_bytes :
  forall (E : pairingT Fr) (C : codecT E) (bs : list byte) (c : ciphertext Fr E) (rest : list byte),
    (forall b p, length b = 32%nat -> dec1 C b = Some p -> enc1 C p = b) ->
    (forall b p, length b = 64%nat -> dec2 C b = Some p -> enc2 C p = b) ->
    ct_deserialize C bs = Some (c, rest) -> bs = ct_bytes C c ++ rest.
Proof.
  intros E C bs c rest H1 H2 H. unfold ct_deserialize in H.
  destruct (ds_ct E C bs) as [[c'|e|] r] eqn:Ed; try discriminate. injection H as -> ->.
  exact (ct_faithful C H1 H2 bs c rest Ed).
Qed.
Print Assumptions C14_accepted_bytes.

(** A concrete codec (scalars as points) and a non-trivial ciphertext. *)
Definition fr_pairing : pairingT Fr := selfPairing Fr.
Lemma ex_codec_dec x : fr_deserialize (fr_bytes x) = Some x.
Proof.
  destruct (encode_fr_value x) as (H1&H2&_). change (fr_bytes x) with (encode_fr x).
  destruct (fr_deserialize (encode_fr x)) as [y|] eqn:E.
  - apply fr_deserialize_val in E. congruence.
  - exfalso. apply (proj2 (fr_deserialize_spec _) H2). exact E.
Qed.
Definition ex_codec : codecT fr_pairing.
Proof.
  refine (CodecT fr_pairing fr_bytes fr_deserialize
    (fun x => fr_bytes x ++ repeat x00 32)
    (fun b => if bytes_eqb (skipn 32 b) (repeat x00 32) then fr_deserialize (firstn 32 b) else None) _ _ _ _).
  - intros p. apply le_bytes_length.
  - intros p. rewrite app_length. unfold fr_bytes. rewrite le_bytes_length. reflexivity.
  - apply ex_codec_dec.
  - intros p. assert (Hl : length (fr_bytes p) = 32%nat) by apply le_bytes_length.
    assert (Hf : forall z, firstn 32 (fr_bytes p ++ z) = fr_bytes p).
    { intros z. rewrite <- Hl, firstn_app, firstn_all, Nat.sub_diag. apply app_nil_r. }
    assert (Hs : forall z, skipn 32 (fr_bytes p ++ z) = z).
    { intros z. rewrite <- Hl, skipn_app, skipn_all, Nat.sub_diag. reflexivity. }
    rewrite Hf, Hs. replace (bytes_eqb (repeat x00 32) (repeat x00 32)) with true by reflexivity. apply ex_codec_dec.
Defined.
Definition ex_ct : ciphertext Fr fr_pairing :=
  Ciphertext (EncapKey (E := fr_pairing) (fr 1) (fr 2) (fr 3) [fr 4; fr 5] [fr 6; fr 7] [fr 8; fr 9] []) [fr 10].
Example C14_nonvacuous : lengths_ok ex_ct /\ length (ct_bytes ex_codec ex_ct) = 488%nat /\
  (forall b p, length b = 32%nat -> dec1 ex_codec b = Some p -> enc1 ex_codec p = b) /\
  (forall b p, length b = 64%nat -> dec2 ex_codec b = Some p -> enc2 ex_codec p = b).
Proof.
  assert (F : forall b p, length b = 32%nat -> fr_deserialize b = Some p -> fr_bytes p = b).
  { intros b p Hb Hd.
    assert (Hx : ds_fr b = (Ok p, [])).
    { unfold ds_fr, ds_elem, mbind, ds_take. rewrite Hb. cbn [Nat.ltb Nat.leb].
      rewrite firstn_all2, skipn_all2 by lia. rewrite Hd. reflexivity. }
    apply fr_faithful in Hx. rewrite app_nil_r in Hx. symmetry. exact Hx. }
  split; [repeat split|]. split; [reflexivity|]. split; [exact F|].
  intros b p Hb. cbn [dec2 enc2 ex_codec].
  destruct (bytes_eqb (skipn 32 b) (repeat x00 32)) eqn:Eb; [|discriminate]. intros Hd.
  apply bytes_eqb_eq in Eb.
  assert (Hf : length (firstn 32 b) = 32%nat) by (rewrite firstn_length, Hb; reflexivity).
  rewrite (F _ _ Hf Hd), <- Eb. apply firstn_skipn.
Qed.

(** ** C15 *)
(** The size of every ciphertext that encap returns. *)
Theorem C15_encap_size :
  forall (E : pairingT Fr) (C : codecT E) (D : domainT Fr) (kdf : GT E -> key)
         (c : prog Fr) (alpha beta delta r x : Fr) ct k,
    encap_with D kdf c alpha beta delta r x = Ok (ct, k) ->
    length (ct_bytes C ct) =
    (200 + 128 * num_variables (fst (synth c cs_new)) + 32 * length (public_values c))%nat.
Proof.
  intros E C D kdf c alpha beta delta r x ct k H.
  pose proof (crs_shape Fr E D kdf c alpha beta delta r x ct k H) as Hs.
  destruct (evaluate_qap D (fst (synth c cs_new)) x) as [[u v] w].
  destruct Hs as (_&_&_&_&_&_&H1&H2&H3&H4&_).
  rewrite ct_bytes_length. unfold ct_size. rewrite H1, H2, H3, H4.
  rewrite (C05_public_inputs_recorded Fr E D kdf c alpha beta delta r x ct k H). cbn [length].
  clear. lia.
Qed.
Print Assumptions C15_encap_size.

(** Refuted: a circom circuit with [l] public wires that encap can run without private values has
    ciphertexts of 456 + 160 l bytes, so 1576 bytes only for l = 7. *)
Theorem C15_constant_size_refuted :
  forall (E : pairingT Fr) (C : codecT E) (D : domainT Fr) (kdf : GT E -> key)
         (c : circom) (alpha beta delta r x : Fr) ct k,
    let l := cc_n_public c in
    l + 1 < 2 ^ 32 -> l + 1 < cc_n_wires c ->
    (forall i, 1 <= i <= l -> cc_witness c i <> None) -> cc_witness c (l + 1) = None ->
    encap_with D kdf (circom_prog c) alpha beta delta r x = Ok (ct, k) ->
    N.of_nat (length (ct_bytes C ct)) = 456 + 160 * l /\
    (length (ct_bytes C ct) = 1576%nat <-> l = 7).
Proof.
  intros E C D kdf c alpha beta delta r x ct k l Hl Hw Hk Hm H.
  assert (Hs : N.of_nat (length (ct_bytes C ct)) = 456 + 160 * l).
  { rewrite (C15_encap_size E C D kdf _ _ _ _ _ _ _ _ H).
    destruct (circom_stops c (l + 1) Hl ltac:(unfold n_alloc; fold l; lia) Hm ltac:(intros i Hi; apply Hk; lia))
      as (_&S1&S2&S3&S4&S5).
    rewrite num_variables_count, S1, S3, S4, S5. fold l.
    destruct (N.leb_spec (l + 1) l); [lia|]. cbn [fst snd].
    rewrite !map_length, !range_length. rewrite N.min_id. lia. }
  split; [exact Hs|]. split; intros Hx; [|rewrite Hx in Hs]; lia.
Qed.
Print Assumptions C15_constant_size_refuted.

Example C15_nonvacuous :
  let c := Circom 1 4 [] (fun i => if i =? 1 then Some (fr 5) else None) in
  1 + 1 < cc_n_wires c /\ (forall i, 1 <= i <= 1 -> cc_witness c i <> None) /\ cc_witness c (1 + 1) = None /\
  (forall (E : pairingT Fr) (D : domainT Fr) (kdf : GT E -> key) alpha beta r x,
     exists ct k, encap_with D kdf (circom_prog c) alpha beta (fr 1) r x = Ok (ct, k)).
Proof.
  cbn zeta. split; [reflexivity|]. split; [|split; [reflexivity|]].
  - intros i Hi. replace i with 1 by lia. discriminate.
  - intros E D kdf alpha beta r x. do 2 eexists. apply encap_with_ok.
    apply (proj1 (feqb_false Fr _ _)). vm_compute. reflexivity.
Qed.
