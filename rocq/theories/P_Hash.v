(** Property theorems C74: the key is the BLAKE3 hash of the serialised secret, and what the properties
    of encap, decap, encrypt and decrypt say with it and with AES-256.  Vocabulary: SpecBlake3.v,
    SpecSecrets.v, SpecCommands.v, SpecJs.v, SpecEndToEnd.v. *)
From Coq Require Import List Bool Arith NArith ZArith Lia Permutation.
From Coq Require Import Strings.String Strings.Byte.
From Verif Require Import Res Bytes Text Utf8 Fld Zp Groups Bn254 CS Qap Core SpecSecrets Domain
  R1cs SpecR1cs R1csJs Wtns SpecWtns WtnsJs Circuit SpecCircuit ArkSer P_Ser Sym Inputs SpecInputs Combined Gcm Aes FileSys Commands SpecCommands CommandsFacts
  P_Commands JsZkenc SpecJs C44Facts P_JsApi JsIff SpecBound WitnessCalc SpecWitnessCalc JsFull SpecEndToEnd P_EndToEnd
  Blake3 SpecBlake3 Blake3Facts.
Import ListNotations.
Local Open Scope N_scope.

(** The hash model is BLAKE3's tree over the input, for inputs of any length. *)
Theorem C74_hash_is_the_tree : forall b h, blake3 b = h <-> is_blake3 b h.
Proof. exact blake3_spec. Qed.
Print Assumptions C74_hash_is_the_tree.

(** Published vectors: the empty input, one byte, a full chunk, one byte more, 3 and 5 chunks (the
    input bytes count 0, 1, ..., 250, 0, 1, ...). *)
Definition b3_input (n : nat) : list byte := map (fun i => byte_of (N.of_nat (Nat.modulo i 251))) (seq 0 n).
Example blake3_empty : blake3 [] = be_bytes 32 0xaf1349b9f5f9a1a6a0404dea36dcc9499bcb25c9adc112b7cc9a93cae41f3262.
Proof. vm_compute. reflexivity. Qed.
Example blake3_1 : blake3 (b3_input 1) = be_bytes 32 0x2d3adedff11b61f14c886e35afa036736dcd87a74d27b5c1510225d0f592e213.
Proof. vm_compute. reflexivity. Qed.
Example blake3_1024 : blake3 (b3_input 1024) = be_bytes 32 0x42214739f095a406f3fc83deb889744ac00df831c10daa55189b5d121c855af7.
Proof. vm_compute. reflexivity. Qed.
Example blake3_1025 : blake3 (b3_input 1025) = be_bytes 32 0xd00278ae47eb27b34faecf67b4fe263f82d5412916c1ffd97c8cb7fb814b8444.
Proof. vm_compute. reflexivity. Qed.
Example blake3_3072 : blake3 (b3_input 3072) = be_bytes 32 0xb98cb0ff3623be03326b373de6b9095218513e64f1ee2edd2525c7ad1e5cffd2.
Proof. vm_compute. reflexivity. Qed.
Example blake3_5120 : blake3 (b3_input (5 * 1024)) = be_bytes 32 0x9cadc15fed8b5d854562b26a9536d9707cadeda9b143978f319ab34230535833.
Proof. vm_compute. reflexivity. Qed.

Lemma blake3_key_length {T : Type} (enc : T -> list byte) (s : T) : List.length (blake3_key enc s) = 32%nat.
Proof. apply blake3_length. Qed.
Lemma decap_key (F : fieldT) (E : pairingT F) (kdf : GT E -> key) c ct k : decap kdf c ct = Ok k -> exists g, k = kdf g.
Proof.
  unfold decap. intros H.
  repeat match type of H with
  | rbind ?x _ = _ => destruct x as [?|?|]; cbn [rbind] in H; [|discriminate..]
  | (let '(_, _) := ?p in _) = _ => destruct p as [? ?]
  | (if ?b then _ else _) = _ => destruct b; try discriminate
  | match ?x with _ => _ end = _ => destruct x; try discriminate
  end; injection H as <-; eexists; reflexivity.
Qed.

(** Every key has 32 bytes: of encap and decap, in the CLI's key files, and of the JavaScript calls. *)
Theorem C74_keys_have_32_bytes :
  forall (E : pairingT Fr) (C : codecT E) (D : domainT Fr) (enc : GT E -> list byte),
    (forall c alpha beta delta r x ct k, encap_with D (blake3_key enc) c alpha beta delta r x = Ok (ct, k) -> List.length k = 32%nat) /\
    (forall c ct k, decap (blake3_key enc) c ct = Ok k -> List.length k = 32%nat) /\
    (forall json_parse max_off v co cp sp ip ctp kp s s',
       run (encap_command C D (blake3_key enc) json_parse max_off v co cp sp ip ctp kp) s = (s', Ok tt) ->
       exists k, s' kp = Some k /\ List.length k = 32%nat) /\
    (forall max_off cp wp ctp kp s s',
       run (decap_command C (blake3_key enc) max_off cp wp ctp kp) s = (s', Ok tt) ->
       exists k, s' kp = Some k /\ List.length k = 32%nat) /\
    (forall W fuel co cb sym inputs ctb k,
       js_encap E C D (blake3_key enc) W fuel co cb sym inputs = Ok (ctb, k) -> List.length k = 32%nat) /\
    (forall W fuel cb wb ctb k, js_decap E C (blake3_key enc) W fuel cb wb ctb = Ok k -> List.length k = 32%nat).
Proof.
  intros E C D enc.
  assert (Hd : forall c ct k, decap (blake3_key enc) c ct = Ok k -> List.length k = 32%nat).
  { intros c ct k H. apply decap_key in H as [g ->]. apply blake3_length. }
  split; [|split; [exact Hd|split; [|split; [|split]]]].
  - intros c alpha beta delta r x ct k H. apply encap_key in H as [g ->]. apply blake3_length.
  - intros json_parse max_off v co cp sp ip ctp kp s s1 Hrun.
    apply run_exec' in Hrun. apply exec_encap in Hrun as [[_ Ho]|H]; [congruence|].
    destruct H as (cb&sb&ib&t&c&ct&k&E1&E2&E3&Hp&He&H).
    destruct H as [[_ [Ho|Ho]]|[[_ [Ho|Ho]]|[-> _]]]; [congruence..|].
    exists k. rewrite fs_write_same. split; [reflexivity|]. apply encap_key in He as [g ->]. apply blake3_length.
  - intros max_off cp wp ctp kp s s1 Hrun.
    apply run_exec' in Hrun. apply C42_decap_effects in Hrun as (_&_&Hr&_).
    destruct (Hr eq_refl) as (k&(cb&wb&bs&_&_&_&Hrec)&Hk). exists k. split; [exact Hk|].
    destruct Hrec as (r&vals&ct&rest&_&_&_&Hdk). apply (Hd _ _ _ Hdk).
  - intros W fuel co cb sym inputs ctb k H. apply js_encap_key in H as [g ->]. apply blake3_length.
  - intros W fuel cb wb ctb k H. unfold js_decap, wasm_decap in H.
    destruct (js_parse_r1cs W cb) as [[h cs]|e|]; cbn [rmap_err rbind] in H; [|discriminate..].
    destruct (js_parse_witness W wb fuel) as [vals|e|]; cbn [rmap_err rbind] in H; [|discriminate..].
    destruct (negb _); [discriminate|].
    destruct (ct_deserialize C ctb) as [[ct rest]|]; cbn [of_option rbind] in H; [|discriminate].
    destruct (decap (blake3_key enc) _ _) as [k'|e|] eqn:Hk; cbn [rmap_err] in H; [|discriminate..].
    injection H as <-. apply (Hd _ _ _ Hk).
Qed.
Print Assumptions C74_keys_have_32_bytes.

(** Where the secrets of encap and decap differ (C02, C55), the two keys are different, or they are one
    BLAKE3 value of two different byte strings, the encodings of the two secrets. *)
Theorem C74_different_secrets :
  forall (F : fieldT) (E : pairingT F) (D : domainT F) (enc : GT E -> list byte) c0 c alpha beta delta r x (P : Prop),
    (forall g g', enc g = enc g' -> g = g') ->
    equal_exactly_if E D c0 c alpha beta delta r x P -> ~ P ->
    exists ct k k' b b', encap_with D (blake3_key enc) c0 alpha beta delta r x = Ok (ct, k) /\
      decap (blake3_key enc) c ct = Ok k' /\ b <> b' /\ is_blake3 b k /\ is_blake3 b' k'.
Proof.
  intros F E D enc c0 c alpha beta delta r x P Hinj (S&S'&H&HP) Hn.
  destruct (H (blake3_key enc)) as (ct&H1&H2).
  exists ct, (blake3_key enc S), (blake3_key enc S'), (enc S), (enc S').
  split; [exact H1|]. split; [exact H2|]. split; [intros He; apply Hn, HP, Hinj, He|].
  split; apply blake3_spec; reflexivity.
Qed.
Print Assumptions C74_different_secrets.

(** Encrypt and decrypt with BLAKE3 and AES-256, the CLI (C41). *)
Theorem C74_cli_encrypt_then_decrypt :
  forall (E : pairingT Fr) (C : codecT E) (D : domainT Fr) (enc : GT E -> list byte)
         json_parse max_off v co cp sp ip mp op inc s1 s1' s2 cp' wp ctp op' cb sb ib mb wb r vals,
    List.length (c_nonce co) = 12%nat ->
    s1 cp = Some cb -> s1 sp = Some sb -> s1 ip = Some ib -> s1 mp = Some mb ->
    r1cs_from_bytes max_off cb = Ok r -> usable r -> (inc = true -> blen ib < 2 ^ 32) ->
    run (encrypt_command C D (blake3_key enc) aes256 json_parse max_off v co cp sp ip mp op inc) s1 = (s1', Ok tt) ->
    s2 cp' = Some cb -> s2 ctp = s1' op -> s2 wp = Some wb -> cli_read_witness wb = Ok vals ->
    opens_circuit r vals -> inputs_agree json_parse sb ib (r_n_pub_in r) vals ->
    run (decrypt_command C (blake3_key enc) aes256 max_off cp' wp ctp op') s2 = (fs_write op' mb s2, Ok tt).
Proof.
  intros E C D enc json_parse max_off v co cp sp ip mp op inc s1 s1' s2 cp' wp ctp op' cb sb ib mb wb r vals.
  apply (C41_encrypt_then_decrypt E C D (blake3_key enc) aes256 json_parse max_off v co cp sp ip mp op inc s1 s1' s2
    cp' wp ctp op' cb sb ib mb wb r vals). apply blake3_key_length.
Qed.
Print Assumptions C74_cli_encrypt_then_decrypt.

(** The same for the JavaScript package, witness calculation included (C56). *)
Theorem C74_js_encrypt_then_decrypt :
  forall (E : pairingT Fr) (C : codecT E) (D : domainT Fr) (enc : GT E -> list byte) stringify W fuel
         co cb sym pub full message inc f k m r ins a,
    List.length (c_nonce co) = 12%nat ->
    (inc = true -> blen (stringify pub) < 2 ^ 32) ->
    compiled m r ins (js_wires sym) -> circuit_file cb r -> js_usable r ->
    fits_encrypt W fuel cb sym -> fits_calculated W fuel cb r ->
    js_encrypt E C D (blake3_key enc) aes256 stringify W fuel co cb sym pub message inc = Ok (f, k) ->
    shaped_doc ins full -> solves m full -> incl pub full -> ordinary pub ->
    jb_valid a -> jb_window a = f ->
    decrypt_inputs E C (blake3_key enc) aes256 W fuel m cb a full = Ok message.
Proof.
  intros E C D enc stringify W fuel co cb sym pub full message inc f k m r ins a.
  apply (C56_js_encrypt_then_decrypt E C D (blake3_key enc) aes256 stringify W fuel co cb sym pub full message inc f k m r ins a).
  apply blake3_key_length.
Qed.
Print Assumptions C74_js_encrypt_then_decrypt.

(** The whole path on bytes: x = y*y with x = 9, BN254's scalar field and groups in the exponent, the
    message "hi"; decrypt with the witness gives it back. *)
Definition ex_enc (g : GT fr_pairing) : list byte := le_bytes 384 (Z.to_N (fr_val g)).
Example C74_nonvacuous : forall inc : bool,
  let '(s1, r1) := run (encrypt_command ex_codec bn_domain (blake3_key ex_enc) aes256 ex_json (2 ^ 63 - 1) ex_visits ex_coins
           (lit "c") (lit "s") (lit "i") (lit "m") (lit "o") inc) ex_fs in
  let '(s2, r2) := run (decrypt_command ex_codec (blake3_key ex_enc) aes256 (2 ^ 63 - 1) (lit "c") (lit "w") (lit "o") (lit "p")) s1 in
  (r1, r2, s2 (lit "p")) = (Ok tt, Ok tt, Some [x68; x69]).
Proof. intros [|]; vm_compute; reflexivity. Qed.
