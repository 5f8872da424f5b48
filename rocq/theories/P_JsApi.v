(** Property theorems C44 and C54: encrypting and decrypting with the JavaScript package, alone and
    with the CLI.  Vocabulary: SpecJs.v, SpecCommands.v. *)
From Coq Require Import List Bool Arith NArith ZArith Lia Permutation.
From Coq Require Import Strings.String Strings.Byte.
From Verif Require Import Res Bytes Text Utf8 Fld Zp Groups Bn254 CS CSFacts Qap SpecCore Core CoreFacts CoreMore P_Core
  R1cs SpecR1cs R1csFacts R1csJs R1csJsFacts P_R1cs Wtns SpecWtns WtnsFacts P_Wtns Circuit SpecCircuit CircuitFacts P_Circuit
  ArkSer ArkSerFacts P_Ser Sym SpecSym SymFacts P_Sym Inputs SpecInputs InputsFacts P_Inputs
  Combined SpecCombined CombinedFacts P_Combined Gcm SpecGcm GcmFacts P_Gcm FileSys Commands SpecCommands CommandsFacts
  PartialEncap P_Commands JsZkenc JsZkencFacts P_JsZkenc SpecJs C44Facts.
Import ListNotations.
Local Open Scope N_scope.

Lemma js_encap_key (E : pairingT Fr) (C : codecT E) (D : domainT Fr) (kdf : GT E -> key) W fuel co cb sym inputs ctb k :
  js_encap E C D kdf W fuel co cb sym inputs = Ok (ctb, k) -> exists g, k = kdf g.
Proof.
  unfold js_encap, wasm_encap. intros H.
  repeat match type of H with
  | rbind (rmap_err ?f ?x) _ = _ => destruct x as [?|?|]; cbn [rmap_err rbind] in H; [|discriminate..]
  end.
  match type of H with (let '(_, _) := ?p in _) = _ => destruct p as [h cs] end.
  repeat match type of H with
  | rbind (rmap_err ?f ?x) _ = _ => destruct x as [?|?|] eqn:?; cbn [rmap_err rbind] in H; [|discriminate..]
  end.
  match goal with Hx : run_encap _ _ _ _ _ = Ok ?ck |- _ => destruct ck as [ct k']; apply encap_key in Hx as [g Hg] end.
  cbn [fst snd] in H. exists g. congruence.
Qed.

(** What encrypt returns: the combined file of the encapsulation and of the encrypted message. *)
Lemma js_encrypt_inv (E : pairingT Fr) (C : codecT E) (D : domainT Fr) (kdf : GT E -> key) (aes : cipherT) stringify W fuel
  co cb sym inputs message inc f k :
  (forall g, List.length (kdf g) = 32%nat) -> List.length (c_nonce co) = 12%nat ->
  js_encrypt E C D kdf aes stringify W fuel co cb sym inputs message inc = Ok (f, k) ->
  exists ctb enc, js_encap E C D kdf W fuel co cb sym inputs = Ok (ctb, k) /\
    js_combine inc ctb (stringify inputs) enc = Ok f /\
    decrypt_gcm aes k enc = Ok message /\ aesGcmDecrypt aes k enc = Ok message.
Proof.
  intros Hkdf Hn H. unfold js_encrypt in H.
  destruct (js_encap E C D kdf W fuel co cb sym inputs) as [[ctb k']|e|] eqn:He; cbn [rbind] in H; [|discriminate..].
  cbn [fst snd] in H. assert (Hk : List.length k' = 32%nat) by (apply js_encap_key in He as [g ->]; apply Hkdf).
  destruct (N.lt_ge_cases gcm_limit (blen message)) as [Hbig|Hsm].
  { exfalso. destruct (C38_failures aes k' (c_nonce co) message) as (_&_&_&F). rewrite F in H by assumption. discriminate. }
  destruct (C38_round_trip aes k' (c_nonce co) message Hk Hn Hsm) as (cc&_&_&R1&_&R2&R3). rewrite R1 in H. cbn [rmap_err rbind] in H.
  destruct (js_combine inc ctb (stringify inputs) _) as [f'|e|] eqn:Ec; cbn [rmap_err rbind] in H; [|discriminate..].
  assert (f' = f /\ k' = k) as [-> ->] by (split; congruence). eauto 8.
Qed.

(** ** C44 *)
(** JavaScript encap, then decap with the right witness: the same key. *)
Theorem C44_js_encap_then_decap :
  forall (E : pairingT Fr) (C : codecT E) (D : domainT Fr) (kdf : GT E -> key) W fuel co cb sym inputs ctb k r wb vals,
    circuit_file cb r -> js_usable r -> fits_encrypt W fuel cb sym ->
    js_encap E C D kdf W fuel co cb sym inputs = Ok (ctb, k) ->
    witness_file wb vals -> fits_decrypt W fuel cb wb -> N.of_nat (List.length vals) = r_n_wires r ->
    opens_circuit r vals -> js_inputs_agree sym inputs (r_n_pub_out r + r_n_pub_in r) vals ->
    js_decap E C kdf W fuel cb wb ctb = Ok k.
Proof.
  intros E C D kdf W fuel co cb sym inputs ctb k r wb vals Hcf Hu (W1&W2&W3&W4&W5) He Hwf (V1&V2&V3&V4) Hlen Ho Ha.
  destruct (js_encap_facts E C D kdf W fuel co sym inputs cb ctb k r Hcf Hu W1 W2 W3 W4 W5 He) as (ct&c&->&Hl&_&_&_&_&_&Hrec).
  unfold js_decap. apply wasm_decap_ok with (r := r) (vals := vals) (ct := ct) (rest := []); auto.
  rewrite <- (app_nil_r (ct_bytes C ct)). apply C14_round_trip. exact Hl.
Qed.
Print Assumptions C44_js_encap_then_decap.

(** JavaScript to JavaScript; the array handed to decrypt may be a view into a larger buffer. *)
Theorem C44_js_to_js :
  forall (E : pairingT Fr) (C : codecT E) (D : domainT Fr) (kdf : GT E -> key) (aes : cipherT) stringify W fuel
         co cb sym inputs message inc f k r wb vals a,
    (forall g, List.length (kdf g) = 32%nat) -> List.length (c_nonce co) = 12%nat ->
    (inc = true -> blen (stringify inputs) < 2 ^ 32) ->
    circuit_file cb r -> js_usable r -> fits_encrypt W fuel cb sym ->
    js_encrypt E C D kdf aes stringify W fuel co cb sym inputs message inc = Ok (f, k) ->
    witness_file wb vals -> fits_decrypt W fuel cb wb -> N.of_nat (List.length vals) = r_n_wires r ->
    opens_circuit r vals -> js_inputs_agree sym inputs (r_n_pub_out r + r_n_pub_in r) vals ->
    jb_valid a -> jb_window a = f ->
    js_decrypt E C kdf aes W fuel cb wb a = Ok message.
Proof.
  intros E C D kdf aes stringify W fuel co cb sym inputs message inc f k r wb vals a
    Hkdf Hn Hq Hcf Hu HW He Hwf HV Hlen Ho Ha Hva Hwa.
  apply js_encrypt_inv in He as (ctb&enc&He&Hc&_&Hd); [|assumption..].
  assert (Hs : blen ctb < 2 ^ 32).
  { destruct HW as (W1&W2&W3&W4&W5).
    destruct (js_encap_facts E C D kdf W fuel co sym inputs cb ctb k r Hcf Hu W1 W2 W3 W4 W5 He) as (ct&c&_&_&Hs&_). exact Hs. }
  destruct (C34_round_trip_across_tools inc ctb (stringify inputs) enc Hs Hq) as (f'&_&Hf&_&Hsp).
  assert (Hff : f' = f) by congruence. rewrite Hff in Hsp. unfold js_decrypt. rewrite (Hsp a Hva Hwa). cbn [rmap_err rbind fst snd].
  rewrite (C44_js_encap_then_decap E C D kdf W fuel co cb sym inputs ctb k r wb vals) by assumption. cbn [rbind].
  rewrite Hd. reflexivity.
Qed.
Print Assumptions C44_js_to_js.

(** JavaScript to the CLI: put in files, the ciphertext decrypts with the decrypt command. *)
Theorem C44_js_to_cli :
  forall (E : pairingT Fr) (C : codecT E) (D : domainT Fr) (kdf : GT E -> key) (aes : cipherT) stringify W fuel
         co cb sym inputs message inc f k r wb vals max_off s cp wp ctp op,
    (forall g, List.length (kdf g) = 32%nat) -> List.length (c_nonce co) = 12%nat ->
    (inc = true -> blen (stringify inputs) < 2 ^ 32) ->
    circuit_file cb r -> js_usable r -> fits_encrypt W fuel cb sym ->
    js_encrypt E C D kdf aes stringify W fuel co cb sym inputs message inc = Ok (f, k) ->
    witness_file wb vals -> max_off < 2 ^ 63 -> blen cb <= max_off -> blen wb < 2 ^ 63 ->
    opens_circuit r vals -> js_inputs_agree sym inputs (r_n_pub_out r + r_n_pub_in r) vals ->
    s cp = Some cb -> s wp = Some wb -> s ctp = Some f ->
    run (decrypt_command C kdf aes max_off cp wp ctp op) s = (fs_write op message s, Ok tt).
Proof.
  intros E C D kdf aes stringify W fuel co cb sym inputs message inc f k r wb vals max_off s cp wp ctp op
    Hkdf Hn Hq Hcf Hu (W1&W2&W3&W4&W5) He Hwf M1 M2 M3 Ho Ha Hs1 Hs2 Hs3.
  apply js_encrypt_inv in He as (ctb&enc&He&Hc&Hd&_); [|assumption..].
  destruct (js_encap_facts E C D kdf W fuel co sym inputs cb ctb k r Hcf Hu W1 W2 W3 W4 W5 He) as (ct&c&->&Hl&Hs&_&_&_&_&Hrec).
  destruct (C34_round_trip_across_tools inc (ct_bytes C ct) (stringify inputs) enc Hs Hq) as (f'&_&Hf&Hsp&_).
  assert (Hff : f' = f) by congruence. rewrite Hff in Hsp.
  destruct (files_read max_off cb wb r vals) as [R1 R2]; try assumption.
  { destruct Ho as [Hv _]. destruct Hu as [Hu _]. intros ->. cbn [List.length] in Hv. clear - Hv Hu. lia. }
  apply run_decrypt_command with (cb := cb) (wb := wb) (f := f); auto.
  exists (parts_of inc (ct_bytes C ct) (stringify inputs) enc), k. split; [exact Hsp|]. split; [|exact Hd].
  exists r, vals, ct, []. split; [exact R1|]. split; [exact R2|]. cbn [p_witness parts_of]. split.
  - rewrite <- (app_nil_r (ct_bytes C ct)). apply C14_round_trip. exact Hl.
  - apply Hrec; assumption.
Qed.
Print Assumptions C44_js_to_cli.

(** The CLI to JavaScript: what the encrypt command wrote decrypts with the package. *)
Theorem C44_cli_to_js :
  forall (E : pairingT Fr) (C : codecT E) (D : domainT Fr) (kdf : GT E -> key) (aes : cipherT) W fuel
         json_parse max_off v co cp sp ip mp op inc s s' cb sb ib mb f r wb vals a,
    (forall g, List.length (kdf g) = 32%nat) -> List.length (c_nonce co) = 12%nat ->
    s cp = Some cb -> s sp = Some sb -> s ip = Some ib -> s mp = Some mb ->
    circuit_file cb r -> usable r -> max_off < 2 ^ 63 -> blen cb <= max_off -> (inc = true -> blen ib < 2 ^ 32) ->
    run (encrypt_command C D kdf aes json_parse max_off v co cp sp ip mp op inc) s = (s', Ok tt) -> s' op = Some f ->
    witness_file wb vals -> fits_decrypt W fuel cb wb -> N.of_nat (List.length vals) = r_n_wires r ->
    opens_circuit r vals -> inputs_agree json_parse sb ib (r_n_pub_in r) vals ->
    jb_valid a -> jb_window a = f ->
    js_decrypt E C kdf aes W fuel cb wb a = Ok mb.
Proof.
  intros E C D kdf aes W fuel json_parse max_off v co cp sp ip mp op inc s s' cb sb ib mb f r wb vals a
    Hkdf Hn H1 H2 H3 H4 Hcf Hu M1 M2 Hib Hrun Hf Hwf (V1&V2&V3&V4) Hlen Ho Ha Hva Hwa.
  assert (Hr : r1cs_from_bytes max_off cb = Ok r).
  { destruct Hcf as (secs&->&Hok&Hca&Hls&Ht). apply C16_reads_back_every_file; assumption. }
  apply run_exec' in Hrun. apply exec_encrypt in Hrun as [[_ Hx]|Hrun]; [congruence|].
  destruct Hrun as (cb'&sb'&ib'&mb'&t&c&ct&k&enc&E1&E2&E3&E4&Hp&He&Hg&Hcase). cbv zeta in Hcase.
  assert (cb' = cb) by congruence. assert (sb' = sb) by congruence. assert (ib' = ib) by congruence.
  assert (mb' = mb) by congruence. subst cb' sb' ib' mb'. clear E1 E2 E3 E4.
  destruct Hcase as [[_ [Hx|Hx]]|[-> _]]; [congruence|congruence|].
  rewrite fs_write_same in Hf.
  destruct (encap_facts E C D kdf json_parse max_off v co cb sb ib t c ct k r Hp Hr Hu He) as (Hl&Hs&_&Hrec).
  assert (Hutf : utf8_encode t = ib).
  { destruct Hp as (r0&st&syms&ins&_&_&_&Ht&_). apply utf8_decode_sound in Ht as [-> _]. reflexivity. }
  destruct (C34_round_trip_across_tools inc (ct_bytes C ct) (utf8_encode t) enc Hs) as (f'&Hf'&_&_&Hsp).
  { rewrite Hutf. exact Hib. }
  assert (Hff : f' = f) by congruence. rewrite Hff in Hsp.
  assert (Hk : List.length k = 32%nat) by (apply encap_key in He as [g ->]; apply Hkdf).
  assert (Hm : aesGcmDecrypt aes k enc = Ok mb).
  { destruct (N.lt_ge_cases gcm_limit (blen mb)) as [Hbig|Hsm].
    - exfalso. destruct (C38_failures aes k (c_nonce co) mb) as (_&F1&F2&_).
      destruct (N.le_gt_cases (blen mb) (2 ^ 36)) as [Hx|Hx]; [rewrite F1 in Hg by assumption|rewrite F2 in Hg by assumption]; discriminate.
    - destruct (C38_round_trip aes k (c_nonce co) mb Hk Hn Hsm) as (cc&_&R1&_&_&_&R2). rewrite Hg in R1. injection R1 as ->. exact R2. }
  destruct (files_read max_off cb wb r vals) as [_ R2]; try assumption.
  { intros ->. destruct Hu as (Hu&_). cbn [List.length] in Hlen. clear - Hlen Hu. lia. }
  { clear - V2 V3. change (2 ^ 64) with (2 * 2 ^ 63) in V3. lia. }
  unfold js_decrypt. rewrite (Hsp a Hva Hwa). cbn [rmap_err rbind fst snd].
  destruct (Hrec wb vals [] R2 Ho Ha) as (r2&vals2&ct2&rest2&Q1&Q2&Q3&Q4).
  assert (r2 = r) by congruence. assert (vals2 = vals) by congruence. subst r2 vals2. rewrite app_nil_r in Q3.
  unfold js_decap. rewrite (wasm_decap_ok E C kdf W fuel cb wb (ct_bytes C ct) r vals ct2 rest2 k) by assumption.
  cbn [rbind]. rewrite Hm. reflexivity.
Qed.
Print Assumptions C44_cli_to_js.

(** JavaScript encrypt succeeds when every text that reaches a wire is an integer. *)
Lemma js_encrypt_from_map (E : pairingT Fr) (C : codecT E) (D : domainT Fr) (kdf : GT E -> key) (aes : cipherT) stringify W fuel
         co cb sym inputs message inc r :
  (forall g, List.length (kdf g) = 32%nat) -> List.length (c_nonce co) = 12%nat -> c_delta co <> f0 ->
  circuit_file cb r -> fits_encrypt W fuel cb sym ->
  (exists m, js_map_inputs inputs (get_input_signals (js_parse_sym_file sym) None) = Ok m /\
     forall w t, nm_get w m = Some t -> exists z, js_bigint t = Some z) -> blen message <= gcm_limit ->
  exists f k, js_encrypt E C D kdf aes stringify W fuel co cb sym inputs message inc = Ok (f, k).
Proof.
  intros Hkdf Hn Hd Hcf (W1&W2&W3&W4&W5) Hmap Hm.
  set (sg := get_input_signals (js_parse_sym_file sym) None) in *.
  destruct Hmap as (m&Hmap&Hbig).
  pose proof (C47_witness_prefix m) as Hw. destruct (js_witness_array m) as [l|e|] eqn:Ea; [|exfalso|contradiction].
  2:{ destruct Hw as (_&i&t&_&_&Ht&Hb). destruct (Hbig _ _ Ht) as [z Hz]. congruence. }
  destruct Hw as (zs&->&Hz). pose proof (prefix_short sym inputs m zs Hmap Hz) as Hs.
  destruct (C47_read_back W fuel (1%Z :: zs)) as (file&Hf&_&Hrd).
  { cbn [List.length]. clear - Hs W4. lia. } { exact W2. }
  { cbn [List.length]. clear - Hs W3. change (2 ^ 32) with 4294967296 in *. lia. } { cbn [List.length]. clear - Hs W5. lia. }
  destruct Hcf as (secs&->&Hok&Hca&Hl&Ht).
  assert (Henc : exists ctb k, js_encap E C D kdf W fuel co (r1cs_bytes secs) sym inputs = Ok (ctb, k)).
  { unfold js_encap. fold sg. rewrite Hmap. cbn [rmap_err rbind]. rewrite Ea. cbn [rmap_err rbind].
    rewrite Hf. cbn [rmap_err rbind]. unfold wasm_encap.
    rewrite (js_r1cs_roundtrip W secs r Hok Hca Hl Ht W1 W2). cbn [rmap_err rbind]. rewrite Hrd. cbn [rmap_err rbind].
    match goal with |- context [run_encap E D kdf co ?c] =>
      destruct (proj1 (C06_encap_outcome Fr E D kdf (circom_prog c) (c_alpha co) (c_beta co) (c_delta co) (c_r co) (c_x co)) Hd) as (ct&k&He);
      unfold run_encap at 1; rewrite He end.
    cbn [rmap_err rbind]. eauto. }
  destruct Henc as (ctb&k&He). unfold js_encrypt. rewrite He. cbn [rbind fst snd].
  assert (Hk : List.length k = 32%nat) by (apply js_encap_key in He as [g ->]; apply Hkdf).
  destruct (C38_round_trip aes k (c_nonce co) message Hk Hn Hm) as (cc&_&_&R1&_). rewrite R1. cbn [rmap_err rbind].
  rewrite js_combine_layout. cbn [rmap_err rbind]. eauto.
Qed.
(** JavaScript encrypt succeeds on documents of integers and digit strings (or arrays of them),
    unless the random delta is zero or the message is longer than 2^36 - 32 bytes. *)
Theorem C44_js_encrypt_succeeds :
  forall (E : pairingT Fr) (C : codecT E) (D : domainT Fr) (kdf : GT E -> key) (aes : cipherT) stringify W fuel
         co cb sym inputs message inc r,
    (forall g, List.length (kdf g) = 32%nat) -> List.length (c_nonce co) = 12%nat -> c_delta co <> f0 ->
    circuit_file cb r -> fits_encrypt W fuel cb sym -> flat_doc inputs -> blen message <= gcm_limit ->
    exists f k, js_encrypt E C D kdf aes stringify W fuel co cb sym inputs message inc = Ok (f, k).
Proof.
  intros E C D kdf aes stringify W fuel co cb sym inputs message inc r Hkdf Hn Hd Hcf (W1&W2&W3&W4&W5) Hfl Hm.
  set (sg := get_input_signals (js_parse_sym_file sym) None).
  assert (Hmap : exists m, js_map_inputs inputs sg = Ok m /\
            forall w t, nm_get w m = Some t -> exists z, js_bigint t = Some z).
  { eexists. split.
    - unfold js_map_inputs. apply js_map_inputs_put. eapply Forall_impl; [|exact Hfl]. cbn beta. intros kv [H|(l&Hl&H)].
      + left. apply common_js. exact H.
      + right. exists l. split; [exact Hl|]. eapply Forall_impl; [|exact H]. intros x. apply common_js.
    - intros w t Ht.
      destruct (put_spec (fun n => hm_get n sg) (map js_leaf (doc_leaves inputs)) [] w) as (P1&_&_).
      destruct (P1 t Ht) as [(n&Hin&_)|[Hx _]]; [|discriminate].
      apply in_map_iff in Hin as ([n' x]&Hx&Hin). unfold js_leaf in Hx. cbn [fst snd] in Hx.
      assert (t = js_txt x) by congruence. subst t.
      destruct (common_value x) as (z&Hz&_); [|eauto]. eapply flat_leaves; [exact Hfl|]. apply doc_leaves_spec. exact Hin. }
  eapply js_encrypt_from_map; try eassumption. repeat split; assumption.
Qed.
Print Assumptions C44_js_encrypt_succeeds.

(** A concrete case, y * y = x again: encrypted in JavaScript for x = "9", opened by both. *)
Lemma ex_circuit_is_file : circuit_file ex_circuit_file ex_circuit.
Proof.
  exists [(1, header_payload ex_circuit); (2, constraints_payload ex_circuit)]. split; [reflexivity|].
  split; [|split; [|split; [reflexivity|repeat constructor]]].
  - destruct (r1cs_sound _ _ _ ex_circuit_reads) as [Hok _]. exact Hok.
  - split; [|split].
    + eexists. split; [reflexivity|]. exists []. symmetry. apply app_nil_r.
    + eexists. split; [reflexivity|]. exists []. symmetry. apply app_nil_r.
    + reflexivity.
Qed.
Lemma ex_witness_is_file : witness_file ex_witness_file ex_witness.
Proof.
  exists ex_prime32, [WHeader ex_prime32 3; WData (List.concat (map encode_fr ex_witness))].
  split; [reflexivity|]. split; [reflexivity|]. split; [|split; [|split; [|split]]].
  - exists [], [], []. split; [constructor|]. reflexivity.
  - repeat constructor.
  - reflexivity.
  - discriminate.
  - repeat constructor; apply encode_fr_value.
Qed.
Definition ex_sym_text : text := lit "1,1,1,main.x" ++ [10] ++ lit "2,2,1,main.y".
Definition ex_js_inputs : list (text * json) := [(lit "x", JStr (lit "9"))].
Lemma ex_opens : opens_circuit ex_circuit ex_witness.
Proof.
  split; [vm_compute; discriminate|]. split; [repeat constructor|].
  constructor; [|constructor]. apply (proj1 (feqb_true Fr _ _)). vm_compute. reflexivity.
Qed.
Lemma ex_js_agree : js_inputs_agree ex_sym_text ex_js_inputs 1 ex_witness.
Proof.
  intros name t z w (k&v&[Hin|[]]&Hl) Hb Hw Hw1. assert (k = lit "x" /\ v = JStr (lit "9")) as [-> ->] by (split; congruence).
  remember (JStr (lit "9")) as v eqn:Hv. assert (t = lit "9").
  { destruct Hl as [key v t H1 H2 Ht|key l i x t H1 H2|key o k x name t H1 H2]; [|discriminate..]. subst v. cbn [js_to_string] in Ht. congruence. }
  subst t. assert (z = 9%Z). { revert Hb. vm_compute. congruence. } subst z.
  assert (w = 1) by (clear - Hw1; lia). subst w. reflexivity.
Qed.
Example C44_nonvacuous : forall (aes : cipherT) (inc : bool) (stringify : list (text * json) -> list byte),
  (inc = true -> blen (stringify ex_js_inputs) < 2 ^ 32) ->
  exists f k,
    js_encrypt fr_pairing ex_codec bn_domain ex_kdf32 aes stringify (2 ^ 32) 1000 ex_coins ex_circuit_file ex_sym_text
      ex_js_inputs [x68; x69] inc = Ok (f, k) /\
    js_decrypt fr_pairing ex_codec ex_kdf32 aes (2 ^ 32) 1000 ex_circuit_file ex_witness_file (whole f) = Ok [x68; x69] /\
    forall s, s (lit "c") = Some ex_circuit_file -> s (lit "w") = Some ex_witness_file -> s (lit "f") = Some f ->
      run (decrypt_command ex_codec ex_kdf32 aes (2 ^ 63 - 1) (lit "c") (lit "w") (lit "f") (lit "o")) s =
      (fs_write (lit "o") [x68; x69] s, Ok tt).
Proof.
  intros aes inc stringify Hq.
  assert (Hkdf : forall g, List.length (ex_kdf32 g) = 32%nat) by (intros g; apply le_bytes_length).
  assert (Hfe : fits_encrypt (2 ^ 32) 1000 ex_circuit_file ex_sym_text).
  { repeat split; vm_compute; auto; discriminate. }
  assert (Hu : js_usable ex_circuit) by (split; vm_compute; auto; discriminate).
  assert (Hfd : fits_decrypt (2 ^ 32) 1000 ex_circuit_file ex_witness_file).
  { repeat split; try (vm_compute; auto; discriminate). apply Nat.ltb_lt. vm_compute. reflexivity. }
  destruct (C44_js_encrypt_succeeds fr_pairing ex_codec bn_domain ex_kdf32 aes stringify (2 ^ 32) 1000 ex_coins ex_circuit_file
    ex_sym_text ex_js_inputs [x68; x69] inc ex_circuit Hkdf eq_refl) as (f&k&He).
  { intros Hd. apply (proj2 (feqb_true Fr _ _)) in Hd. vm_compute in Hd. discriminate. }
  { exact ex_circuit_is_file. } { exact Hfe. }
  { constructor; [left; cbn [snd]; constructor; [discriminate|]; repeat constructor; vm_compute; discriminate|constructor]. }
  { vm_compute. discriminate. }
  exists f, k. split; [exact He|]. split.
  - apply (C44_js_to_js fr_pairing ex_codec bn_domain ex_kdf32 aes stringify (2 ^ 32) 1000 ex_coins ex_circuit_file ex_sym_text
      ex_js_inputs [x68; x69] inc f k ex_circuit ex_witness_file ex_witness);
      [exact Hkdf|reflexivity|exact Hq|exact ex_circuit_is_file|exact Hu|exact Hfe|exact He|exact ex_witness_is_file|exact Hfd|reflexivity|
       exact ex_opens|exact ex_js_agree| |apply window_whole].
    unfold jb_valid, whole. cbn [jb_offset jb_length jb_buffer]. apply N.le_refl.
  - intros s S1 S2 S3.
    apply (C44_js_to_cli fr_pairing ex_codec bn_domain ex_kdf32 aes stringify (2 ^ 32) 1000 ex_coins ex_circuit_file ex_sym_text
      ex_js_inputs [x68; x69] inc f k ex_circuit ex_witness_file ex_witness);
      [exact Hkdf|reflexivity|exact Hq|exact ex_circuit_is_file|exact Hu|exact Hfe|exact He|exact ex_witness_is_file|reflexivity|
       vm_compute; discriminate|vm_compute; reflexivity|exact ex_opens|exact ex_js_agree|exact S1|exact S2|exact S3].
Qed.

(** ** C54 *)
Lemma trivial_is_file n : n <= 2 ^ 24 -> circuit_file (trivial_r1cs_file n) (trivial_r1cs n) /\ blen (trivial_r1cs_file n) <= 2 ^ 10.
Proof.
  intros Hn.
  assert (Hlen : blen (trivial_r1cs_file n) <= 2 ^ 10).
  { unfold trivial_r1cs_file, r1cs_bytes, section_bytes, blen. cbn [flat_map fst snd].
    rewrite !app_length. unfold header_payload, u32, u64. rewrite !app_length, !le_bytes_length.
    cbn [trivial_r1cs r_prime]. unfold ex_prime32. rewrite le_bytes_length. vm_compute. discriminate. }
  split; [|exact Hlen].
  exists [(1, header_payload (trivial_r1cs n)); (2, [])]. split; [reflexivity|].
  split; [|split; [|split; [reflexivity|repeat constructor]]].
  - destruct (r1cs_sound _ _ _ (trivial_reads (2 ^ 10) n Hn eq_refl (N.le_refl _))) as [Hok _]. exact Hok.
  - split; [|split].
    + eexists. split; [reflexivity|]. exists []. symmetry. apply app_nil_r.
    + eexists. split; [reflexivity|]. exists []. reflexivity.
    + reflexivity.
Qed.
Lemma values_is_file vals : N.of_nat (List.length vals) <= 2 ^ 25 ->
  witness_file (values_file vals) vals /\ blen (values_file vals) = 76 + 32 * N.of_nat (List.length vals).
Proof.
  intros Hn. change (2 ^ 25) with 33554432 in Hn.
  assert (Hc : List.length (List.concat (map encode_fr vals)) = (32 * List.length vals)%nat).
  { clear. induction vals as [|x l IH]; [reflexivity|]. cbn [map List.concat]. rewrite app_length, IH.
    unfold encode_fr at 1. rewrite le_bytes_length. cbn [List.length]. lia. }
  split.
  - exists ex_prime32, [WHeader ex_prime32 (N.of_nat (List.length vals)); WData (List.concat (map encode_fr vals))].
    split; [reflexivity|]. split; [reflexivity|]. split; [|split; [|split; [|split]]].
    + exists [], [], []. split; [constructor|]. rewrite map_length. reflexivity.
    + constructor; [|constructor; [exact I|constructor]]. split; [reflexivity|]. change (2 ^ 32) with 4294967296. clear - Hn. lia.
    + reflexivity.
    + discriminate.
    + apply Forall_map, Forall_forall. intros x _. apply encode_fr_value.
  - unfold values_file. rewrite wtns_two_len. unfold ex_prime32 at 1. rewrite blen_le_bytes. unfold blen. rewrite Hc. clear. lia.
Qed.

(** Refuted: the message of every file the JavaScript encrypt makes comes out of the JavaScript
    decrypt with a circuit and a witness made from that file alone. *)
Theorem C54_js_confidentiality_refuted :
  forall (E : pairingT Fr) (C : codecT E) (kdf : GT E -> key) (aes : cipherT),
    (forall g, List.length (kdf g) = 32%nat) ->
    exists attacker : list byte -> list byte * list byte,
      forall (D : domainT Fr) stringify W fuel co cb sym inputs message inc f k r fuel' a,
        List.length (c_nonce co) = 12%nat -> (inc = true -> blen (stringify inputs) < 2 ^ 32) ->
        circuit_file cb r -> js_usable r -> fits_encrypt W fuel cb sym -> 2 ^ 32 <= W ->
        js_encrypt E C D kdf aes stringify W fuel co cb sym inputs message inc = Ok (f, k) ->
        jb_valid a -> jb_window a = f -> (List.length (snd (attacker f)) < fuel')%nat ->
        js_decrypt E C kdf aes W fuel' (fst (attacker f)) (snd (attacker f)) a = Ok message.
Proof.
  intros E C kdf aes Hkdf. exists (attack C).
  intros D stringify W fuel co cb sym inputs message inc f k r fuel' a Hn Hq Hcf Hu (W1&W2&W3&W4&W5) HW He Hva Hwa Hfu.
  apply js_encrypt_inv in He as (ctb&enc&He&Hc&_&Hd); [|assumption..].
  destruct (js_encap_facts E C D kdf W fuel co sym inputs cb ctb k r Hcf Hu W1 W2 W3 W4 W5 He) as (ct&c&->&Hl&Hs&Hrun&Hnil&Hpub&Hlen&_).
  destruct (C34_round_trip_across_tools inc (ct_bytes C ct) (stringify inputs) enc Hs Hq) as (f'&_&Hf&Hcs&Hsp).
  assert (Hff : f' = f) by congruence. rewrite Hff in Hsp, Hcs. clear Hf Hff f'.
  pose proof (C14_round_trip E C ct [] Hl) as Hds. rewrite app_nil_r in Hds.
  set (n := N.of_nat (List.length (public_inputs ct))) in *.
  assert (Hat : attack C f = (trivial_r1cs_file n, values_file (fr 1 :: public_inputs ct))).
  { unfold attack. rewrite Hcs. cbn [p_witness parts_of]. rewrite Hds. reflexivity. }
  rewrite Hat in Hfu |- *. cbn [fst snd] in *. clear Hat.
  unfold js_decrypt. rewrite (Hsp a Hva Hwa). cbn [rmap_err rbind fst snd]. unfold js_decap.
  destruct (trivial_is_file n Hlen) as [T1 T2].
  assert (Hlen' : N.of_nat (List.length (fr 1 :: public_inputs ct)) = 1 + n) by (cbn [List.length]; unfold n; clear; lia).
  change (2 ^ 24) with 16777216 in Hlen. change (2 ^ 32) with 4294967296 in HW.
  destruct (values_is_file (fr 1 :: public_inputs ct)) as [T3 T4].
  { rewrite Hlen'. change (2 ^ 25) with 33554432. clear - Hlen. lia. }
  rewrite Hlen' in T4.
  rewrite (wasm_decap_ok E C kdf W fuel' (trivial_r1cs_file n) (values_file (fr 1 :: public_inputs ct)) (ct_bytes C ct)
             (trivial_r1cs n) (fr 1 :: public_inputs ct) ct [] k).
  - cbn [rbind]. rewrite Hd. reflexivity.
  - exact T1.
  - exact T3.
  - exact Hlen'.
  - change (2 ^ 10) with 1024 in T2. clear - T2 HW. lia.
  - rewrite T4. clear - Hlen HW. lia.
  - exact W2.
  - exact Hfu.
  - exact Hds.
  - apply (trivial_decap E D kdf co c); assumption.
Qed.
Print Assumptions C54_js_confidentiality_refuted.
