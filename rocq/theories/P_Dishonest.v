(** Property theorems for C82: what a ciphertext file can do that was not written by encrypt.  decap
    evaluates whatever quadratic form the file's points encode at the opener's own witness, and AES-GCM
    does not commit to its key; so one file can open to two messages for two openers, and whether a
    file opens can depend on any quadratic question about the opener's witness. *)
From Coq Require Import List Bool Arith NArith ZArith Lia Ring Field.
From Coq Require Import Strings.String Strings.Byte.
From Verif Require Import Res Bytes Text Utf8 Fld Zp Groups Bn254 CS CSFacts Qap SpecCore Core CoreFacts CoreMore P_Core
  R1cs SpecR1cs R1csFacts P_R1cs Wtns SpecWtns WtnsFacts P_Wtns Circuit SpecCircuit CircuitFacts P_Circuit
  ArkSer ArkSerFacts P_Ser Combined SpecCombined CombinedFacts P_Combined Gcm SpecGcm GcmFacts P_Gcm TwoKeys FileSys Commands
  SpecCommands CommandsFacts P_Commands JsZkenc SpecJs C44Facts P_JsZkenc P_JsApi SpecBound P_Bound P_EndToEnd Aes Blake3 SpecBlake3 P_Hash SpecDishonest.
Import ListNotations.

(** ** The ciphertext a dishonest sender writes *)
Section Craft.
  Context {F : fieldT} (E : pairingT F).
  Add Field Ffld82 : (f_th F).
  Local Open Scope fld_scope.

  Definition crafted (a b c pub : list F) : ciphertext F E :=
    Ciphertext
      (EncapKey (smul 0 (g1 E)) (smul 0 (g2 E)) (g2 E)
                (map (fun x => smul x (g1 E)) a) (map (fun x => smul x (g2 E)) b) (map (fun x => smul x (g1 E)) c) [])
      pub.

  Lemma crafted_secret a b c pub full :
    dec_secret F E (crafted a b c pub) full = smul (answer a b c full) (pair E (g1 E) (g2 E)).
  Proof.
    unfold dec_secret, crafted. cbn [ct_key alpha_g1 beta_g2 delta_g2 r_u_query_g1 r_v_query_g2 phi_delta_query_g1].
    rewrite !msum_smul_map, <- !(smul_add_l F), pair_gen, (pair_smul_l F E), <- smul_sub. f_equal. unfold answer. ring.
  Qed.

  Lemma dot_two (x : F) l e t k v : nth_error l k = Some v -> dot (x :: l) (e :: repeat 0 k ++ [t]) = x * e + t * v.
  Proof.
    intros H. cbn [dot]. f_equal. revert k H. induction l as [|y l IH]; intros [|k] H; cbn in H; try discriminate.
    - injection H as ->. cbn [repeat app dot]. destruct l; cbn [dot]; ring.
    - cbn [repeat app dot]. rewrite (IH k H). ring.
  Qed.
  Lemma dot_const (x : F) l e : dot (x :: l) [e] = x * e.
  Proof. cbn [dot]. destruct l; cbn [dot]; ring. Qed.
  Lemma dot_shift (x : F) l e c0 c : dot (x :: l) ((c0 + e) :: c) = dot (x :: l) (c0 :: c) + x * e.
  Proof. cbn [dot]. ring. Qed.
End Craft.

Lemma crafted_decap (F : fieldT) (E : pairingT F) (kdf : GT E -> key) (a b c pub : list F) (circuit : prog F) :
  a <> [] -> b <> [] -> c <> [] ->
  satisfied circuit -> is_prefix pub (public_values circuit ++ private_values circuit) ->
  decap kdf circuit (crafted E a b c pub) =
  Ok (kdf (smul (answer a b c (f1 :: public_values circuit ++ private_values circuit)) (pair E (g1 E) (g2 E)))).
Proof.
  intros Ha Hb Hc (Hwf&Hcm&Hs) Hp. rewrite (decap_ok F E kdf circuit (crafted E a b c pub)); try assumption.
  - rewrite crafted_secret. reflexivity.
  - unfold queries_nonempty, crafted. cbn [ct_key r_u_query_g1 r_v_query_g2 phi_delta_query_g1].
    split; [destruct a; [congruence|discriminate]|]. split; [destruct b; [congruence|discriminate]|destruct c; [congruence|discriminate]].
Qed.

(** decap returns the hash of any quadratic form of the opener's values that the ciphertext encodes. *)
Theorem C82_decap_evaluates_any_form :
  forall (F : fieldT) (E : pairingT F) (a b c pub : list F),
    a <> [] -> b <> [] -> c <> [] ->
    exists ct : ciphertext F E, public_inputs ct = pub /\
      forall (kdf : GT E -> key) (circuit : prog F),
        satisfied circuit -> is_prefix pub (public_values circuit ++ private_values circuit) ->
        decap kdf circuit ct =
        Ok (kdf (smul (answer a b c (f1 :: public_values circuit ++ private_values circuit)) (pair E (g1 E) (g2 E)))).
Proof.
  intros F E a b c pub Ha Hb Hc. exists (crafted E a b c pub). split; [reflexivity|].
  intros kdf circuit. apply crafted_decap; assumption.
Qed.
Print Assumptions C82_decap_evaluates_any_form.

Local Open Scope N_scope.

(** AES-GCM does not commit to the key: for two keys with different hash keys, and byte by byte a
    choice which reader is to see which byte, there is one encrypted message both accept. *)
Theorem C82_one_ciphertext_two_keys :
  forall (aes : cipherT) (k1 k2 nonce : list byte) (wants : list (bool * byte)),
    List.length k1 = 32%nat -> List.length k2 = 32%nat -> List.length nonce = 12%nat ->
    aes k1 (repeat x00 16) <> aes k2 (repeat x00 16) -> N.of_nat (List.length wants) + 31 <= gcm_limit ->
    exists data p1 p2,
      as_wanted wants p1 p2 /\
      decrypt_gcm aes k1 data = Ok p1 /\ decrypt_gcm aes k2 data = Ok p2 /\
      aesGcmDecrypt aes k1 data = Ok p1 /\ aesGcmDecrypt aes k2 data = Ok p2.
Proof.
  intros aes k1 k2 nonce wants L1 L2 Ln Hne Hlim.
  destruct (two_keys aes k1 k2 nonce wants Hne Hlim) as (c&tag&p1&p2&Hc1&Hc2&T1&T2&M1&M2&Hw).
  exists (nonce ++ c ++ tag), p1, p2.
  assert (Lc : blen c <= gcm_limit) by (unfold blen; clear - Hc2 Hlim; lia).
  destruct M1 as [Lp1 M1']. destruct M2 as [Lp2 M2'].
  split.
  { split; [rewrite Lp1; lia|]. split; [congruence|exact Hw]. }
  assert (D1 : decrypt_gcm aes k1 (nonce ++ c ++ tag) = Ok p1).
  { apply C39_accepts_iff. split; [exact L1|]. exists nonce, c. rewrite T1. repeat split; assumption. }
  assert (D2 : decrypt_gcm aes k2 (nonce ++ c ++ tag) = Ok p2).
  { apply C39_accepts_iff. split; [exact L2|]. exists nonce, c. rewrite T2. repeat split; assumption. }
  split; [exact D1|]. split; [exact D2|].
  split; apply (C39_tools_agree aes); assumption.
Qed.
Print Assumptions C82_one_ciphertext_two_keys.

(** ** Files *)
Add Field FrField82 : (f_th Fr).
Lemma wire_values_are n vals : 1 <= n -> n <= N.of_nat (List.length vals) ->
  map (wires (fun w => nth_error vals (N.to_nat w))) (range 1 n) = tl (wire_values n vals).
Proof.
  intros H1 H2. unfold wire_values. cbn [tl]. apply nth_error_ext'. intros i. rewrite nth_error_map.
  destruct (Nat.lt_ge_cases i (N.to_nat n - 1)) as [Hi|Hi].
  - rewrite range_nth by (clear - Hi; lia). cbn [option_map]. unfold wires.
    destruct (N.eqb_spec (1 + N.of_nat i) 0) as [Hx|_]; [clear - Hx; lia|].
    replace (N.to_nat (1 + N.of_nat i)) with (S i) by (clear; lia).
    destruct vals as [|v0 vals]; [cbn [List.length] in H2; clear - H1 H2; lia|]. cbn [nth_error tl].
    cbn [List.length] in H2. assert (Hl : (i < List.length vals)%nat) by (clear - Hi H2; lia).
    destruct (nth_error vals i) as [x|] eqn:Ex; [|apply nth_error_None in Ex; clear - Ex Hl; lia].
    rewrite <- Ex. symmetry. clear - Hi. set (k := (N.to_nat n - 1)%nat) in *. clearbody k. revert i k Hi.
    induction vals as [|v vals IH]; intros i k Hi; [rewrite firstn_nil; reflexivity|].
    destruct k as [|k]; [lia|]. destruct i as [|i]; [reflexivity|]. cbn [firstn nth_error]. apply IH. lia.
  - replace (nth_error (range 1 n) i) with (@None N).
    2:{ symmetry. apply nth_error_None. rewrite range_length. clear - Hi. lia. }
    cbn [option_map]. symmetry. apply nth_error_None. rewrite firstn_length. clear - Hi. lia.
Qed.

Lemma crafted_cli_decap (E : pairingT Fr) (kdf : GT E -> key) r vals (a b c pub : list Fr) :
  r_n_pub_out r + r_n_pub_in r < r_n_wires r -> r_n_wires r < 2 ^ 32 -> opens_circuit r vals ->
  is_prefix pub (tl (wire_values (r_n_wires r) vals)) -> a <> [] -> b <> [] -> c <> [] ->
  decap kdf (circom_prog (circom_of_cli r (fun w => nth_error vals (N.to_nat w)))) (crafted E a b c pub) =
  Ok (kdf (smul (answer a b c (wire_values (r_n_wires r) vals)) (pair E (g1 E) (g2 E)))).
Proof.
  intros Hp Hnw (O1&O2&O3) Hpre Ha Hb Hc. set (c2 := circom_of_cli r (fun w => nth_error vals (N.to_nat w))).
  assert (Hnp : cc_n_public c2 = r_n_pub_out r + r_n_pub_in r).
  { cbn [c2 cc_n_public circom_of_cli]. apply N.mod_small. clear - Hp Hnw. lia. }
  destruct (C24_synthesis_means_satisfaction c2) as (W1&W2&W3&W4&(y&Hy&Hiff)).
  { rewrite Hnp. exact Hp. }
  { cbn [c2 cc_n_wires circom_of_cli]. clear - Hnw. lia. }
  { exact O2. }
  { intros i Hi. cbn [c2 cc_n_wires circom_of_cli cc_witness] in *. apply nth_error_Some. clear - Hi O1. lia. }
  destruct (is_satisfied_synth _ _ W1 W2) as (y'&Hy'&Hsat).
  assert (y = true) by (apply Hiff; exact O3). assert (y' = true) by congruence. subst y'.
  assert (Hall : public_values (circom_prog c2) ++ private_values (circom_prog c2) = tl (wire_values (r_n_wires r) vals)).
  { rewrite W3, W4, <- map_app, <- range_split.
    - cbn [c2 cc_witness cc_n_wires circom_of_cli]. apply wire_values_are; [clear - Hp; lia|exact O1].
    - clear; lia.
    - rewrite Hnp. cbn [c2 cc_n_wires circom_of_cli]. clear - Hp. lia. }
  rewrite crafted_decap; try assumption.
  - rewrite Hall. reflexivity.
  - split; [exact W1|]. split; [exact W2|]. apply Hsat. reflexivity.
  - rewrite Hall. exact Hpre.
Qed.

Lemma crafted_sizes (E : pairingT Fr) (C : codecT E) (a b c pub : list Fr) :
  N.of_nat (List.length a) <= 2 ^ 25 -> N.of_nat (List.length b) <= 2 ^ 24 -> N.of_nat (List.length c) <= 2 ^ 24 ->
  N.of_nat (List.length pub) <= 2 ^ 24 ->
  lengths_ok (crafted E a b c pub) /\ blen (ct_bytes C (crafted E a b c pub)) < 2 ^ 32.
Proof.
  change (2 ^ 24) with 16777216. change (2 ^ 25) with 33554432. intros Ha Hb Hc Hp. split.
  - unfold lengths_ok, crafted. cbn [ct_key r_u_query_g1 r_v_query_g2 phi_delta_query_g1 h_query_g1 public_inputs].
    rewrite !map_length. cbn [List.length]. change (2 ^ 64) with 18446744073709551616. repeat split; clear - Ha Hb Hc Hp; lia.
  - unfold blen. rewrite C14_size. unfold crafted. cbn [ct_key r_u_query_g1 r_v_query_g2 phi_delta_query_g1 h_query_g1 public_inputs].
    rewrite !map_length. cbn [List.length]. change (2 ^ 32) with 4294967296. clear - Ha Hb Hc Hp. lia.
Qed.

(** A crafted file with the encrypted part [enc]: the key both tools get from it. *)
Definition crafted_file {E : pairingT Fr} (C : codecT E) (a b c pub : list Fr) (inc : bool) (q enc : list byte) : list byte :=
  cli_combine inc (ct_bytes C (crafted E a b c pub)) q enc.

Section Opened.
  Context (E : pairingT Fr) (C : codecT E) (kdf : GT E -> key) (aes : cipherT) (a b c pub : list Fr) (inc : bool) (q : list byte).
  Context (Ha : a <> []) (Hb : b <> []) (Hc : c <> []).
  Context (La : N.of_nat (List.length a) <= 2 ^ 25) (Lb : N.of_nat (List.length b) <= 2 ^ 24) (Lc : N.of_nat (List.length c) <= 2 ^ 24).
  Context (Lp : N.of_nat (List.length pub) <= 2 ^ 24) (Hq : inc = true -> blen q < 2 ^ 32).
  Context (r : r1cs_file) (vals : list Fr) (Hnp : r_n_pub_out r + r_n_pub_in r < r_n_wires r) (Hop : opens_circuit r vals).
  Context (Hpre : is_prefix pub (tl (wire_values (r_n_wires r) vals))).

  Let k := kdf (smul (answer a b c (wire_values (r_n_wires r) vals)) (pair E (g1 E) (g2 E))).

  Lemma crafted_cli enc max_off cb wb cp wp ctp op s :
    r1cs_from_bytes max_off cb = Ok r -> cli_read_witness wb = Ok vals ->
    s cp = Some cb -> s wp = Some wb -> s ctp = Some (crafted_file C a b c pub inc q enc) ->
    (forall m, decrypt_gcm aes k enc = Ok m -> run (decrypt_command C kdf aes max_off cp wp ctp op) s = (fs_write op m s, Ok tt)) /\
    (forall s', run (decrypt_command C kdf aes max_off cp wp ctp op) s = (s', Ok tt) -> exists m, decrypt_gcm aes k enc = Ok m).
  Proof using Ha Hb Hc Hnp Hop Hpre Hq La Lb Lc Lp.
    intros Hr Hw H1 H2 H3. set (ct := crafted E a b c pub).
    destruct (crafted_sizes E C a b c pub La Lb Lc Lp) as [Hl Hs]. fold ct in Hl, Hs.
    destruct (C34_round_trip_across_tools inc (ct_bytes C ct) q enc Hs Hq) as (f'&Hf'&_&Hsp&_).
    assert (Hff : crafted_file C a b c pub inc q enc = f') by exact Hf'. rewrite Hff in H3.
    pose proof (C14_round_trip E C ct [] Hl) as Hds. rewrite app_nil_r in Hds.
    destruct (r1cs_sound _ _ _ Hr) as [Hok _]. pose proof (ok_nw _ Hok) as Hnw.
    assert (Hk : decap kdf (circom_prog (circom_of_cli r (fun w => nth_error vals (N.to_nat w)))) ct = Ok k)
      by (apply crafted_cli_decap; assumption).
    split.
    - intros m Hm. eapply run_decrypt_command; [exact H1|exact H2|exact H3|].
      exists (parts_of inc (ct_bytes C ct) q enc), k. split; [exact Hsp|]. split; [|exact Hm].
      exists r, vals, ct, []. auto.
    - intros s' Hrun. apply run_exec' in Hrun. apply exec_decrypt in Hrun as [[_ Ho]|(cb'&wb'&f&m&X1&X2&X3&(p&k'&Y1&Y2&Y3)&_)].
      + exfalso. congruence.
      + assert (cb' = cb) by congruence. assert (wb' = wb) by congruence. assert (f = f') by congruence. subst cb' wb' f.
        rewrite Hsp in Y1. assert (Y1' : p = parts_of inc (ct_bytes C ct) q enc) by congruence. subst p. cbn [p_witness p_message parts_of] in *.
        destruct Y2 as (r'&vals'&ct'&rest&Z1&Z2&Z3&Z4).
        assert (r' = r) by congruence. assert (vals' = vals) by congruence. subst r' vals'.
        rewrite Hds in Z3. assert (ct' = ct) by congruence. subst ct'. assert (k' = k) by congruence. subst k'. exists m. exact Y3.
  Qed.

  Lemma crafted_js enc W fuel cb wb arr :
    circuit_file cb r -> witness_file wb vals -> N.of_nat (List.length vals) = r_n_wires r -> fits_decrypt W fuel cb wb ->
    jb_valid arr -> jb_window arr = crafted_file C a b c pub inc q enc ->
    js_decrypt E C kdf aes W fuel cb wb arr = rmap_err ACrypt (aesGcmDecrypt aes k enc).
  Proof using Ha Hb Hc Hnp Hop Hpre Hq La Lb Lc Lp.
    intros Hr Hw Hn (F1&F2&F3&F4) Hva Hwa. set (ct := crafted E a b c pub).
    destruct (crafted_sizes E C a b c pub La Lb Lc Lp) as [Hl Hs]. fold ct in Hl, Hs.
    destruct (C34_round_trip_across_tools inc (ct_bytes C ct) q enc Hs Hq) as (f'&Hf'&_&_&Hsp).
    assert (Hff : crafted_file C a b c pub inc q enc = f') by exact Hf'. rewrite Hff in Hwa.
    pose proof (C14_round_trip E C ct [] Hl) as Hds. rewrite app_nil_r in Hds.
    pose proof (circuit_wires cb r Hr) as Hnw.
    assert (Hk : decap kdf (circom_prog (circom_of_cli r (fun w => nth_error vals (N.to_nat w)))) ct = Ok k)
      by (apply crafted_cli_decap; assumption).
    unfold js_decrypt. rewrite (Hsp arr Hva Hwa). cbn [rmap_err rbind fst snd]. unfold js_decap.
    rewrite (wasm_decap_ok E C kdf W fuel cb wb (ct_bytes C ct) r vals ct [] k); try assumption. reflexivity.
  Qed.
End Opened.

(** One file, two messages: two openers whose witnesses differ in a wire, two secrets whose keys have
    different hash keys, a choice byte by byte of who is to see what: some file opens for both, to
    messages as wanted, in both tools. *)
Theorem C82_one_file_two_messages :
  forall (E : pairingT Fr) (C : codecT E) (kdf : GT E -> key) (aes : cipherT)
         (r : r1cs_file) (v1 v2 pub : list Fr) (w : N) (x1 x2 e1 e2 : Fr) (inc : bool) (q nonce : list byte) (wants : list (bool * byte)),
    (forall g, List.length (kdf g) = 32%nat) -> List.length nonce = 12%nat ->
    r_n_pub_out r + r_n_pub_in r < r_n_wires r -> opens_circuit r v1 -> opens_circuit r v2 ->
    1 <= w < r_n_wires r -> w <= 2 ^ 24 ->
    nth_error v1 (N.to_nat w) = Some x1 -> nth_error v2 (N.to_nat w) = Some x2 -> x1 <> x2 ->
    is_prefix pub (tl (wire_values (r_n_wires r) v1)) -> is_prefix pub (tl (wire_values (r_n_wires r) v2)) ->
    N.of_nat (List.length pub) <= 2 ^ 24 -> (inc = true -> blen q < 2 ^ 32) ->
    let key_of e := kdf (smul e (pair E (g1 E) (g2 E))) in
    aes (key_of e1) (repeat x00 16) <> aes (key_of e2) (repeat x00 16) ->
    N.of_nat (List.length wants) + 31 <= gcm_limit ->
    exists f p1 p2, as_wanted wants p1 p2 /\
      forall vals p, (vals = v1 /\ p = p1) \/ (vals = v2 /\ p = p2) ->
        (forall max_off cb wb cp wp ctp op s,
           r1cs_from_bytes max_off cb = Ok r -> cli_read_witness wb = Ok vals ->
           s cp = Some cb -> s wp = Some wb -> s ctp = Some f ->
           run (decrypt_command C kdf aes max_off cp wp ctp op) s = (fs_write op p s, Ok tt)) /\
        (forall W fuel cb wb arr,
           circuit_file cb r -> witness_file wb vals -> N.of_nat (List.length vals) = r_n_wires r ->
           fits_decrypt W fuel cb wb -> jb_valid arr -> jb_window arr = f ->
           js_decrypt E C kdf aes W fuel cb wb arr = Ok p).
Proof.
  intros E C kdf aes r v1 v2 pub w x1 x2 e1 e2 inc q nonce wants Hkdf Hn Hp O1 O2 Hw Hw24 N1 N2 Hx P1 P2 Lp Hq key_of Hne Hlim.
  destruct (C82_one_ciphertext_two_keys aes (key_of e1) (key_of e2) nonce wants (Hkdf _) (Hkdf _) Hn Hne Hlim) as (enc&p1&p2&Hwant&D1&D2&J1&J2).
  set (t := fmul (fsub e1 e2) (finv (fsub x1 x2))).
  set (k := (N.to_nat w - 1)%nat).
  set (a := fsub e1 (fmul t x1) :: repeat f0 k ++ [t]). set (b := [f1 : Fr]). set (c := [f0 : Fr]).
  assert (Hd : fsub x1 x2 <> f0).
  { intros Hz. apply Hx. replace x1 with (fadd (fsub x1 x2) x2) by ring. rewrite Hz. ring. }
  assert (Hans : forall vals v, nth_error vals (N.to_nat w) = Some v -> r_n_wires r <= N.of_nat (List.length vals) ->
            answer a b c (wire_values (r_n_wires r) vals) = fadd (fsub e1 (fmul t x1)) (fmul t v)).
  { intros vals v Hv Hl. unfold answer, wire_values, a, b, c. rewrite (dot_two f1 _ _ t k v), !dot_const; [ring|].
    rewrite <- Hv. destruct vals as [|v0 vals]; [destruct (N.to_nat w); discriminate Hv|]. cbn [tl].
    replace (N.to_nat w) with (S k) by (unfold k; clear - Hw; lia). cbn [nth_error].
    assert (Hk : (k < N.to_nat (r_n_wires r) - 1)%nat) by (unfold k; clear - Hw; lia).
    clear - Hk. generalize dependent (N.to_nat (r_n_wires r) - 1)%nat. generalize k. clear.
    induction vals as [|y vals IH]; intros i j Hi; [rewrite firstn_nil; reflexivity|].
    destruct j as [|j]; [lia|]. destruct i as [|i]; [reflexivity|]. cbn [firstn nth_error]. apply IH. lia. }
  assert (A1 : answer a b c (wire_values (r_n_wires r) v1) = e1).
  { rewrite (Hans v1 x1 N1 (proj1 O1)). ring. }
  assert (A2 : answer a b c (wire_values (r_n_wires r) v2) = e2).
  { rewrite (Hans v2 x2 N2 (proj1 O2)). unfold t. field. exact Hd. }
  assert (Ha : a <> []) by discriminate. assert (Hb : b <> []) by discriminate. assert (Hc : c <> []) by discriminate.
  assert (La : N.of_nat (List.length a) <= 2 ^ 25).
  { unfold a. cbn [List.length]. rewrite app_length, repeat_length. cbn [List.length]. change (2 ^ 25) with 33554432.
    change (2 ^ 24) with 16777216 in Hw24. unfold k. clear - Hw24. lia. }
  assert (Lb : N.of_nat (List.length b) <= 2 ^ 24) by (vm_compute; discriminate).
  assert (Lc : N.of_nat (List.length c) <= 2 ^ 24) by (vm_compute; discriminate).
  exists (crafted_file C a b c pub inc q enc), p1, p2. split; [exact Hwant|].
  intros vals p [[-> ->]|[-> ->]].
  - split.
    + intros max_off cb wb cp wp ctp op s Hr Hv S1 S2 S3.
      apply (crafted_cli E C kdf aes a b c pub inc q Ha Hb Hc La Lb Lc Lp Hq r v1 Hp O1 P1 enc max_off cb wb cp wp ctp op s Hr Hv S1 S2 S3).
      rewrite A1. exact D1.
    + intros W fuel cb wb arr Hr Hv Hl Hf Hva Hwa.
      rewrite (crafted_js E C kdf aes a b c pub inc q Ha Hb Hc La Lb Lc Lp Hq r v1 Hp O1 P1 enc W fuel cb wb arr Hr Hv Hl Hf Hva Hwa).
      rewrite A1. fold (key_of e1). rewrite J1. reflexivity.
  - split.
    + intros max_off cb wb cp wp ctp op s Hr Hv S1 S2 S3.
      apply (crafted_cli E C kdf aes a b c pub inc q Ha Hb Hc La Lb Lc Lp Hq r v2 Hp O2 P2 enc max_off cb wb cp wp ctp op s Hr Hv S1 S2 S3).
      rewrite A2. exact D2.
    + intros W fuel cb wb arr Hr Hv Hl Hf Hva Hwa.
      rewrite (crafted_js E C kdf aes a b c pub inc q Ha Hb Hc La Lb Lc Lp Hq r v2 Hp O2 P2 enc W fuel cb wb arr Hr Hv Hl Hf Hva Hwa).
      rewrite A2. fold (key_of e2). rewrite J2. reflexivity.
Qed.
Print Assumptions C82_one_file_two_messages.

(** A file that asks: for any quadratic question there is a file that opens, to the chosen message, for
    every opener whose witness answers zero; for any other answer the key comes from a different
    secret, and the file opens exactly if that key happens to give the same tag. *)
Theorem C82_file_asks_any_question :
  forall (E : pairingT Fr) (C : codecT E) (kdf : GT E -> key) (aes : cipherT)
         (a b c pub : list Fr) (e : Fr) (inc : bool) (q nonce m : list byte),
    (forall g, List.length (kdf g) = 32%nat) -> List.length nonce = 12%nat -> blen m <= gcm_limit ->
    a <> [] -> b <> [] -> c <> [] ->
    N.of_nat (List.length a) <= 2 ^ 24 -> N.of_nat (List.length b) <= 2 ^ 24 -> N.of_nat (List.length c) <= 2 ^ 24 ->
    N.of_nat (List.length pub) <= 2 ^ 24 -> (inc = true -> blen q < 2 ^ 32) ->
    let key_of s := kdf (smul s (pair E (g1 E) (g2 E))) in
    exists f masked_m, gcm_masked aes (key_of e) nonce m masked_m /\
      forall r vals, r_n_pub_out r + r_n_pub_in r < r_n_wires r -> opens_circuit r vals ->
        is_prefix pub (tl (wire_values (r_n_wires r) vals)) ->
        let ans := answer a b c (wire_values (r_n_wires r) vals) in
        let same_tag := spec_tag aes (key_of (fadd e ans)) nonce masked_m = spec_tag aes (key_of e) nonce masked_m in
        (forall max_off cb wb cp wp ctp op s,
           r1cs_from_bytes max_off cb = Ok r -> cli_read_witness wb = Ok vals ->
           s cp = Some cb -> s wp = Some wb -> s ctp = Some f ->
           (ans = f0 -> run (decrypt_command C kdf aes max_off cp wp ctp op) s = (fs_write op m s, Ok tt)) /\
           ((exists s', run (decrypt_command C kdf aes max_off cp wp ctp op) s = (s', Ok tt)) <-> same_tag)) /\
        (forall W fuel cb wb arr,
           circuit_file cb r -> witness_file wb vals -> N.of_nat (List.length vals) = r_n_wires r ->
           fits_decrypt W fuel cb wb -> jb_valid arr -> jb_window arr = f ->
           (ans = f0 -> js_decrypt E C kdf aes W fuel cb wb arr = Ok m) /\
           ((exists p, js_decrypt E C kdf aes W fuel cb wb arr = Ok p) <-> same_tag)).
Proof.
  intros E C kdf aes a b c pub e inc q nonce m Hkdf Hn Hm Ha Hb Hc La Lb Lc Lp Hq key_of.
  destruct c as [|c0 c]; [congruence|]. set (c' := fadd c0 (fopp e) :: c).
  destruct (masked_exists aes (key_of e) (fun j => nonce ++ be_bytes 4 (j + 2)) m) as (y&My).
  set (tag := spec_tag aes (key_of e) nonce y). set (enc := nonce ++ y ++ tag).
  assert (Ly : blen y <= gcm_limit). { unfold blen. rewrite (proj1 My). exact Hm. }
  assert (Lt : List.length tag = 16%nat) by apply spec_tag_length.
  assert (Hc' : c' <> []) by discriminate. assert (Lc' : N.of_nat (List.length c') <= 2 ^ 24) by exact Lc.
  assert (La' : N.of_nat (List.length a) <= 2 ^ 25) by (change (2 ^ 24) with 16777216 in La; change (2 ^ 25) with 33554432; clear - La; lia).
  exists (crafted_file C a b c' pub inc q enc), y. split; [exact My|].
  intros r vals Hp Hop Hpre ans same_tag.
  assert (Hans : answer a b c' (wire_values (r_n_wires r) vals) = fadd e ans).
  { unfold ans, answer, c', wire_values. rewrite dot_shift. ring. }
  assert (Hdec : forall p, decrypt_gcm aes (key_of (fadd e ans)) enc = Ok p <-> same_tag /\ gcm_masked aes (key_of (fadd e ans)) nonce y p).
  { intros p. unfold enc. rewrite decrypt_gcm_split by (try apply Hkdf; try assumption; apply limit_c_max; exact Ly).
    rewrite keystream32_ok by exact Ly. unfold same_tag, tag.
    destruct (bytes_eq (spec_tag aes (key_of (fadd e ans)) nonce y) (spec_tag aes (key_of e) nonce y)) eqn:Eb.
    - apply bytes_eq_iff in Eb. split.
      + intros [= <-]. split; [exact Eb|]. apply gcm_stream.
      + intros [_ Hmk]. f_equal. apply gcm_stream_is. exact Hmk.
    - split; [discriminate|]. intros [Heq _]. apply bytes_eq_iff in Heq. congruence. }
  assert (Hzero : ans = f0 -> decrypt_gcm aes (key_of (fadd e ans)) enc = Ok m).
  { intros Hz. apply Hdec. assert (Ez : fadd e ans = e) by (rewrite Hz; ring). unfold same_tag. rewrite Ez.
    split; [reflexivity|]. apply masked_sym. exact My. }
  assert (Hany : same_tag -> exists p, decrypt_gcm aes (key_of (fadd e ans)) enc = Ok p).
  { intros Hs. destruct (masked_exists aes (key_of (fadd e ans)) (fun j => nonce ++ be_bytes 4 (j + 2)) y) as (p&Mp).
    exists p. apply Hdec. split; assumption. }
  split.
  - intros max_off cb wb cp wp ctp op s Hr Hv S1 S2 S3.
    destruct (crafted_cli E C kdf aes a b c' pub inc q Ha Hb Hc' La' Lb Lc' Lp Hq r vals Hp Hop Hpre enc max_off cb wb cp wp ctp op s Hr Hv S1 S2 S3) as [G1' G2'].
    rewrite Hans in G1', G2'. fold (key_of (fadd e ans)) in G1', G2'. split.
    + intros Hz. apply G1'. apply Hzero. exact Hz.
    + split.
      * intros (s'&Hs'). destruct (G2' s' Hs') as (p&Hpp). apply Hdec in Hpp. tauto.
      * intros Hs. destruct (Hany Hs) as (p&Hpp). exists (fs_write op p s). apply G1'. exact Hpp.
  - intros W fuel cb wb arr Hr Hv Hl Hf Hva Hwa.
    rewrite (crafted_js E C kdf aes a b c' pub inc q Ha Hb Hc' La' Lb Lc' Lp Hq r vals Hp Hop Hpre enc W fuel cb wb arr Hr Hv Hl Hf Hva Hwa).
    rewrite Hans. fold (key_of (fadd e ans)). split.
    + intros Hz. rewrite (proj2 (C39_tools_agree aes _ _ _) (Hzero Hz)). reflexivity.
    + split.
      * intros (p&Hpp). destruct (aesGcmDecrypt aes (key_of (fadd e ans)) enc) as [p'|err|] eqn:Ed; try discriminate Hpp.
        apply C39_tools_agree in Ed. apply Hdec in Ed. tauto.
      * intros Hs. destruct (Hany Hs) as (p&Hpp). exists p. rewrite (proj2 (C39_tools_agree aes _ _ _) Hpp). reflexivity.
Qed.
Print Assumptions C82_file_asks_any_question.

(** Which questions: among them whether a wire has a value, and whether a product of two wires equals a
    third. *)
Theorem C82_questions_about_wires :
  (forall (w : N) (x : Fr), 1 <= w -> exists a b c,
     a <> [] /\ b <> [] /\ c <> [] /\ N.of_nat (List.length a) <= w + 1 /\ List.length b = 1%nat /\ List.length c = 1%nat /\
     forall n vals v, w < n -> nth_error vals (N.to_nat w) = Some v ->
       (answer a b c (wire_values n vals) = f0 <-> v = x)) /\
  (forall w1 w2 w3 : N, 1 <= w1 -> 1 <= w2 -> 1 <= w3 -> exists a b c,
     a <> [] /\ b <> [] /\ c <> [] /\ N.of_nat (List.length a) <= w1 + 1 /\ N.of_nat (List.length b) <= w2 + 1 /\ N.of_nat (List.length c) <= w3 + 1 /\
     forall n vals x1 x2 x3, w1 < n -> w2 < n -> w3 < n ->
       nth_error vals (N.to_nat w1) = Some x1 -> nth_error vals (N.to_nat w2) = Some x2 -> nth_error vals (N.to_nat w3) = Some x3 ->
       (answer a b c (wire_values n vals) = f0 <-> fmul x1 x2 = x3)).
Proof.
  assert (P : forall n (vals : list Fr) w v, 1 <= w -> w < n -> nth_error vals (N.to_nat w) = Some v ->
    nth_error (firstn (N.to_nat n - 1) (tl vals)) (N.to_nat w - 1) = Some v).
  { intros n vals w v H1 H2 Hv. rewrite <- Hv. destruct vals as [|v0 vals]; [destruct (N.to_nat w); discriminate Hv|]. cbn [tl].
    replace (N.to_nat w) with (S (N.to_nat w - 1)) by (clear - H1; lia). cbn [nth_error]. rewrite Nat.sub_succ, Nat.sub_0_r.
    assert (Hk : (N.to_nat w - 1 < N.to_nat n - 1)%nat) by (clear - H1 H2; lia).
    clear - Hk. generalize dependent (N.to_nat n - 1)%nat. generalize (N.to_nat w - 1)%nat. clear.
    induction vals as [|y vals IH]; intros i j Hi; [rewrite firstn_nil; reflexivity|].
    destruct j as [|j]; [lia|]. destruct i as [|i]; [reflexivity|]. cbn [firstn nth_error]. apply IH. lia. }
  assert (Z : forall u v : Fr, fsub u v = f0 <-> u = v).
  { intros u v. split; [|intros ->; ring]. intros H. replace u with (fadd (fsub u v) v) by ring. rewrite H. ring. }
  assert (L : forall (e t : Fr) w, 1 <= w -> N.of_nat (List.length (e :: repeat f0 (N.to_nat w - 1) ++ [t])) <= w + 1).
  { intros e t w H. cbn [List.length]. rewrite app_length, repeat_length. cbn [List.length]. clear - H. lia. }
  split.
  - intros w x Hw. exists (fopp x :: repeat f0 (N.to_nat w - 1) ++ [f1]), [f1], [f0].
    split; [discriminate|]. split; [discriminate|]. split; [discriminate|]. split; [apply L; exact Hw|]. split; [reflexivity|]. split; [reflexivity|].
    intros n vals v Hn Hv. unfold answer, wire_values. rewrite (dot_two f1 _ _ f1 _ v) by (apply P; assumption). rewrite !dot_const.
    rewrite <- (Z v x). replace (fsub v x) with (fsub (fmul (fadd (fmul f1 (fopp x)) (fmul f1 v)) (fmul f1 f1)) (fmul f1 f0)) by ring. reflexivity.
  - intros w1 w2 w3 H1 H2 H3.
    exists (f0 :: repeat f0 (N.to_nat w1 - 1) ++ [f1]), (f0 :: repeat f0 (N.to_nat w2 - 1) ++ [f1]), (f0 :: repeat f0 (N.to_nat w3 - 1) ++ [f1]).
    split; [discriminate|]. split; [discriminate|]. split; [discriminate|]. split; [apply L; exact H1|]. split; [apply L; exact H2|]. split; [apply L; exact H3|].
    intros n vals x1 x2 x3 N1 N2 N3 V1 V2 V3. unfold answer, wire_values.
    rewrite (dot_two f1 _ _ f1 _ x1), (dot_two f1 _ _ f1 _ x2), (dot_two f1 _ _ f1 _ x3) by (apply P; assumption).
    rewrite <- (Z (fmul x1 x2) x3).
    replace (fsub (fmul x1 x2) x3) with
      (fsub (fmul (fadd (fmul f1 f0) (fmul f1 x1)) (fadd (fmul f1 f0) (fmul f1 x2))) (fadd (fmul f1 f0) (fmul f1 x3))) by ring.
    reflexivity.
Qed.
Print Assumptions C82_questions_about_wires.

(** A concrete case: x = y * y with x = 9 public and recorded in the file.  Of two openers with the
    same public input, y = 3 reads "YES", y = -3 reads "NO" after three other bytes. *)
Lemma ex_opens_82 (y : Fr) : feqb (fmul y y) (fr 9) = true -> opens_circuit ex_circuit [fr 1; fr 9; y].
Proof.
  intros H. apply (proj1 (feqb_true Fr _ _)) in H. split; [vm_compute; discriminate|]. split; [repeat constructor|].
  constructor; [|constructor]. unfold row_true. cbn [c_a c_b c_c combination].
  assert (Hone : coefficient one32 = f1) by (apply (proj1 (feqb_true Fr _ _)); vm_compute; reflexivity).
  rewrite Hone. unfold wires. cbn [N.eqb Pos.eqb]. 
  change (nth_error [fr 1; fr 9; y] (N.to_nat 2)) with (Some y). change (nth_error [fr 1; fr 9; y] (N.to_nat 1)) with (Some (fr 9)).
  rewrite <- H. ring.
Qed.
Example C82_nonvacuous :
  exists f p1 p2,
    firstn 3 p1 = [x59; x45; x53] /\ firstn 2 (skipn 3 p2) = [x4e; x4f] /\
    js_decrypt fr_pairing ex_codec (blake3_key ex_enc) aes256 (2 ^ 32) 1000 ex_circuit_file (ex_values_file [fr 1; fr 9; fr 3]) (whole f) = Ok p1 /\
    js_decrypt fr_pairing ex_codec (blake3_key ex_enc) aes256 (2 ^ 32) 1000 ex_circuit_file (ex_values_file [fr 1; fr 9; fr (-3)]) (whole f) = Ok p2.
Proof.
  destruct (C82_one_file_two_messages fr_pairing ex_codec (blake3_key ex_enc) aes256 ex_circuit [fr 1; fr 9; fr 3] [fr 1; fr 9; fr (-3)] [fr 9] 2
    (fr 3) (fr (-3)) (fr 1) (fr 2) false [] (repeat x00 12) [(true, x59); (true, x45); (true, x53); (false, x4e); (false, x4f)])
    as (f&p1&p2&(Hl&Hl2&Hw)&H).
  { apply blake3_key_length. } { reflexivity. } { reflexivity. }
  { apply ex_opens_82. vm_compute. reflexivity. }
  { apply ex_opens_82. vm_compute. reflexivity. }
  { split; [discriminate|reflexivity]. } { discriminate. } { reflexivity. } { reflexivity. }
  { intros Hx. apply (proj2 (feqb_true Fr _ _)) in Hx. vm_compute in Hx. discriminate. }
  { exists [fr 3]. reflexivity. } { exists [fr (-3)]. reflexivity. } { discriminate. } { discriminate. }
  { intros Hx. apply bytes_eq_iff in Hx. vm_compute in Hx. discriminate. }
  { vm_compute. discriminate. }
  exists f, p1, p2. cbn [List.length] in Hl.
  pose proof (Hw 0%nat _ _ eq_refl) as W0. pose proof (Hw 1%nat _ _ eq_refl) as W1. pose proof (Hw 2%nat _ _ eq_refl) as W2.
  pose proof (Hw 3%nat _ _ eq_refl) as W3. pose proof (Hw 4%nat _ _ eq_refl) as W4. cbn [fst snd] in *.
  assert (Hfd : forall vals, List.length vals = 3%nat -> fits_decrypt (2 ^ 32) 1000 ex_circuit_file (ex_values_file vals)).
  { intros [|a [|b [|c [|d vals]]]] Hln; try discriminate Hln.
    assert (L : blen (ex_values_file [a; b; c]) = 172).
    { unfold ex_values_file. rewrite wtns_two_len. cbn [map List.concat]. rewrite !blen_app. unfold encode_fr. rewrite !blen_le_bytes. reflexivity. }
    unfold fits_decrypt. rewrite L. unfold blen in L. split; [vm_compute; reflexivity|]. split; [reflexivity|]. split; [discriminate|]. lia. }
  assert (Hwin : jb_valid (whole f)) by (unfold jb_valid, whole; cbn [jb_offset jb_length jb_buffer]; apply N.le_refl).
  split; [|split; [|split]].
  - destruct p1 as [|y0 [|y1 [|y2 p1]]]; cbn in W0, W1, W2; try discriminate. cbn [firstn]. congruence.
  - destruct p2 as [|y0 [|y1 [|y2 [|y3 [|y4 p2]]]]]; cbn in W3, W4; try discriminate. cbn [firstn skipn]. congruence.
  - apply (proj2 (H _ _ (or_introl (conj eq_refl eq_refl)))); [exact ex_circuit_is_file|apply ex_values_is_file; reflexivity|reflexivity|apply Hfd; reflexivity|exact Hwin|apply window_whole].
  - apply (proj2 (H _ _ (or_intror (conj eq_refl eq_refl)))); [exact ex_circuit_is_file|apply ex_values_is_file; reflexivity|reflexivity|apply Hfd; reflexivity|exact Hwin|apply window_whole].
Qed.
