(** Property theorems C41-C43: the four commands of the CLI.  Vocabulary: SpecCommands.v,
    executions with failures and crashes: FileSys.v. *)
From Coq Require Import List Bool Arith NArith ZArith Lia Permutation.
From Coq Require Import Strings.String Strings.Byte.
From Verif Require Import Res Bytes Text Utf8 Fld Zp Groups Bn254 CS CSFacts Qap SpecCore Core CoreFacts CoreMore P_Core
  R1cs SpecR1cs R1csFacts P_R1cs Wtns SpecWtns WtnsFacts P_Wtns Circuit SpecCircuit CircuitFacts P_Circuit
  ArkSer ArkSerFacts P_Ser Sym SpecSym SymFacts P_Sym Inputs SpecInputs InputsFacts P_Inputs
  Combined SpecCombined CombinedFacts P_Combined Gcm SpecGcm GcmFacts P_Gcm FileSys Commands SpecCommands CommandsFacts PartialEncap.
Import ListNotations.
Local Open Scope N_scope.

Lemma nth_error_ext' {A} : forall l l' : list A, (forall i, nth_error l i = nth_error l' i) -> l = l'.
Proof.
  induction l as [|x l IH]; intros [|y l'] H; [reflexivity|discriminate (H 0%nat)|discriminate (H 0%nat)|].
  pose proof (H 0%nat) as H0. cbn in H0. injection H0 as ->. f_equal. apply IH. intros i. exact (H (S i)).
Qed.
Lemma encap_key (F : fieldT) (E : pairingT F) (D : domainT F) (kdf : GT E -> key) c alpha beta delta r x ct k :
  encap_with D kdf c alpha beta delta r x = Ok (ct, k) -> exists g, k = kdf g.
Proof. intros H. apply encap_with_inv in H. destruct H as [_ H]. injection H as _ ->. eauto. Qed.

Section C41.
  Context (E : pairingT Fr) (C : codecT E) (D : domainT Fr) (kdf : GT E -> key) (aes : cipherT)
          (json_parse : text -> option json) (max_off : N).

  (** Every value in the assignment comes from a named leaf. *)
  Lemma assignment_source v r st syms t inputs w a :
    parse_sym_file st = Ok syms -> parse_inputs_text json_parse t = Ok inputs -> 1 <= w ->
    nm_get w (cli_witness (get_input_signals (visit_syms v syms) (Some (r_n_pub_in r))) (visit_inputs v inputs)) = Some a ->
    exists kvs name x, json_parse t = Some (JObj kvs) /\ doc_leaf kvs name x /\ numeric x a /\
      hm_get (lit "main." ++ name) syms = Some w /\ w <= r_n_pub_in r.
  Proof.
    intros Hs Hi Hw H. unfold parse_inputs_text in Hi. destruct (json_parse t) as [doc|]; [|discriminate].
    destruct doc as [|b|z|f|u|l|kvs]; try discriminate Hi.
    pose proof (parse_sym_file_wf _ _ Hs) as Hwf.
    pose proof (C28_input_signals syms (visit_syms v syms) (Some (r_n_pub_in r)) Hwf (visit_syms_ok v syms)) as Hsig.
    destruct (parsed_values kvs inputs Hi) as (Hwi&H1&_). rewrite cli_witness_put in H.
    destruct (put_spec (fun n => hm_get n (get_input_signals (visit_syms v syms) (Some (r_n_pub_in r)))) (visit_inputs v inputs) [(0, fr 1)] w) as (P1&_&_).
    destruct (P1 a H) as [(n&Hin&Hn)|[Hg _]].
    - apply Hsig in Hn. destruct Hn as [Hn Hb]. specialize (Hb _ eq_refl).
      assert (Hin' : In (n, a) inputs) by (eapply Permutation_in; [apply Permutation_sym, visit_inputs_ok|exact Hin]).
      apply (hm_get_in n a inputs Hwi) in Hin'. destruct (H1 n a Hin') as (x&Hl&Hx). exists kvs, n, x. auto.
    - cbn [nm_get] in Hg. destruct (N.eqb_spec w 0) as [->|_]; [lia|discriminate].
  Qed.

  Lemma encap_facts v co cb sb ib t c ct k r :
    prepared json_parse max_off v cb sb ib t c -> r1cs_from_bytes max_off cb = Ok r -> usable r ->
    run_encap E D kdf co c = Ok (ct, k) ->
    lengths_ok ct /\ blen (ct_bytes C ct) < 2 ^ 32 /\
    (constraints_stated (circom_prog c) = [] /\ public_inputs ct = public_values (circom_prog c) /\
     N.of_nat (List.length (public_inputs ct)) <= 2 ^ 24) /\
    forall wb vals rest, cli_read_witness wb = Ok vals -> opens_circuit r vals ->
      inputs_agree json_parse sb ib (r_n_pub_in r) vals ->
      recovers C kdf max_off cb wb (ct_bytes C ct ++ rest) k.
  Proof.
    intros (r'&st&syms&inputs&Hr'&Hst&Hsy&Ht&Hin&Hc) Hr (Hu1&Hu2&Hu3) He.
    assert (r' = r) by congruence. subst r'. clear Hr'.
    destruct (r1cs_sound _ _ _ Hr) as [Hok _]. pose proof (ok_nw _ Hok) as Hnw.
    unfold run_encap in He. set (a := fun w => nm_get w _) in Hc.
    assert (Hnp : cc_n_public c = r_n_pub_out r + r_n_pub_in r).
    { rewrite Hc. cbn [cc_n_public circom_of_cli]. apply N.mod_small. clear - Hu2 Hnw. lia. }
    assert (Hw : cc_witness c = a) by (rewrite Hc; reflexivity).
    assert (Hnws : cc_n_wires c = r_n_wires r) by (rewrite Hc; reflexivity).
    assert (Hmiss : a (r_n_pub_in r + 1) = None).
    { destruct (a (r_n_pub_in r + 1)) as [x|] eqn:Ex; [|reflexivity]. exfalso.
      destruct (assignment_source v r st syms t inputs (r_n_pub_in r + 1) x Hsy Hin ltac:(clear; lia) Ex) as (_&_&_&_&_&_&_&Hb). clear - Hb. lia. }
    destruct (first_missing a _ Hmiss) as (m&Hm1&Hm2&Hm3).
    destruct (partial_encap E C D kdf c m (c_alpha co) (c_beta co) (c_delta co) (c_r co) (c_x co) ct k) as (Hlen&Hsz&(S2&Hpi&Hpi')&Hrec).
    { rewrite Hnp, Hnws. exact Hu2. } { rewrite Hnws. exact Hnw. } { rewrite Hnp. clear - Hm1. lia. }
    { rewrite Hnws. clear - Hm1 Hu1. lia. } { clear - Hm1 Hu3. lia. }
    { rewrite Hw. exact Hm2. } { rewrite Hw. exact Hm3. } { exact He. }
    split; [exact Hlen|]. split; [exact Hsz|]. split.
    { split; [exact S2|]. split; [exact Hpi|]. rewrite Hpi', map_length, range_length. clear - Hm1 Hu3. lia. }
    intros wb vals rest Hvals (Hv1&Hv2&Hv3) Hag.
    exists r, vals, ct, rest. split; [exact Hr|]. split; [exact Hvals|].
    split; [apply C14_round_trip; exact Hlen|].
    apply Hrec; cbn [cc_n_wires cc_witness cc_constraints circom_of_cli].
    - rewrite Hc. reflexivity.
    - rewrite Hc. reflexivity.
    - exact Hv2.
    - intros i Hi. apply nth_error_Some. clear - Hi Hv1. lia.
    - exact Hv3.
    - intros i Hi. rewrite Hw. destruct (a i) as [x|] eqn:Ex; [|exfalso; apply (Hm3 i Hi); exact Ex].
      destruct (assignment_source v r st syms t inputs i x Hsy Hin ltac:(clear - Hi; lia) Ex) as (kvs&n&y&Hj&Hl&Hx&Hn&Hbb).
      apply (Hag st syms t kvs n y x i Hst Hsy Ht Hj Hl Hx Hn). clear - Hi Hbb. lia.
  Qed.
End C41.

(** ** C41 *)
(** Encrypt, then (later, in any file system where the circuit is the same file and the ciphertext
    file is what encrypt wrote) decrypt with any witness that satisfies the circuit and has the
    encrypted inputs: the output file is the message, and nothing else changes. *)
Theorem C41_encrypt_then_decrypt :
  forall (E : pairingT Fr) (C : codecT E) (D : domainT Fr) (kdf : GT E -> key) (aes : cipherT)
         json_parse max_off v co cp sp ip mp op inc s1 s1' s2 cp' wp ctp op' cb sb ib mb wb r vals,
    (forall g, List.length (kdf g) = 32%nat) -> List.length (c_nonce co) = 12%nat ->
    s1 cp = Some cb -> s1 sp = Some sb -> s1 ip = Some ib -> s1 mp = Some mb ->
    r1cs_from_bytes max_off cb = Ok r -> usable r -> (inc = true -> blen ib < 2 ^ 32) ->
    run (encrypt_command C D kdf aes json_parse max_off v co cp sp ip mp op inc) s1 = (s1', Ok tt) ->
    s2 cp' = Some cb -> s2 ctp = s1' op -> s2 wp = Some wb -> cli_read_witness wb = Ok vals ->
    opens_circuit r vals -> inputs_agree json_parse sb ib (r_n_pub_in r) vals ->
    run (decrypt_command C kdf aes max_off cp' wp ctp op') s2 = (fs_write op' mb s2, Ok tt).
Proof.
  intros E C D kdf aes json_parse max_off v co cp sp ip mp op inc s1 s1' s2 cp' wp ctp op' cb sb ib mb wb r vals
    Hkdf Hn H1 H2 H3 H4 Hr Hu Hib Hrun Hc Hct Hw Hv Ho Ha.
  apply run_exec' in Hrun. apply exec_encrypt in Hrun as [[_ Hx]|Hrun]; [congruence|].
  destruct Hrun as (cb'&sb'&ib'&mb'&t&c&ct&k&enc&E1&E2&E3&E4&Hp&He&Hg&Hcase). cbv zeta in Hcase.
  assert (cb' = cb) by congruence. assert (sb' = sb) by congruence. assert (ib' = ib) by congruence.
  assert (mb' = mb) by congruence. subst cb' sb' ib' mb'. clear E1 E2 E3 E4.
  destruct Hcase as [[_ [Hx|Hx]]|[-> _]]; [congruence|congruence|].
  rewrite fs_write_same in Hct.
  destruct (encap_facts E C D kdf json_parse max_off v co cb sb ib t c ct k r Hp Hr Hu He) as (Hl&Hs&_&Hrec).
  assert (Hutf : utf8_encode t = ib).
  { destruct Hp as (r0&st&syms&inputs&_&_&_&Ht&_). apply utf8_decode_sound in Ht as [-> _]. reflexivity. }
  destruct (C34_round_trip_across_tools inc (ct_bytes C ct) (utf8_encode t) enc Hs) as (f&Hf&_&Hsp&_).
  { rewrite Hutf. exact Hib. }
  rewrite Hf in Hct.
  assert (Hk : List.length k = 32%nat).
  { apply encap_key in He as [g ->]. apply Hkdf. }
  assert (Hm : decrypt_gcm aes k enc = Ok mb).
  { destruct (N.lt_ge_cases gcm_limit (blen mb)) as [Hbig|Hsm].
    - exfalso. destruct (C38_failures aes k (c_nonce co) mb) as (_&F1&F2&_).
      destruct (N.le_gt_cases (blen mb) (2 ^ 36)) as [Hx|Hx]; [rewrite F1 in Hg by assumption|rewrite F2 in Hg by assumption]; discriminate.
    - destruct (C38_round_trip aes k (c_nonce co) mb Hk Hn Hsm) as (cc&_&R1&_&_&R2&_). rewrite Hg in R1. injection R1 as ->. exact R2. }
  apply run_decrypt_command with (cb := cb) (wb := wb) (f := f); auto.
  exists (parts_of inc (ct_bytes C ct) (utf8_encode t) enc), k. split; [exact Hsp|]. split; [|exact Hm].
  cbn [p_witness parts_of]. rewrite <- (app_nil_r (ct_bytes C ct)). apply (Hrec wb vals []); assumption.
Qed.
Print Assumptions C41_encrypt_then_decrypt.

(** The same for encap and decap: the key file decap writes is the one encap wrote. *)
Theorem C41_encap_then_decap :
  forall (E : pairingT Fr) (C : codecT E) (D : domainT Fr) (kdf : GT E -> key)
         json_parse max_off v co cp sp ip ctp kp s1 s1' s2 cp' wp ctp' kp' cb sb ib wb r vals,
    s1 cp = Some cb -> s1 sp = Some sb -> s1 ip = Some ib -> ctp <> kp ->
    r1cs_from_bytes max_off cb = Ok r -> usable r ->
    run (encap_command C D kdf json_parse max_off v co cp sp ip ctp kp) s1 = (s1', Ok tt) ->
    s2 cp' = Some cb -> s2 ctp' = s1' ctp -> s2 wp = Some wb -> cli_read_witness wb = Ok vals ->
    opens_circuit r vals -> inputs_agree json_parse sb ib (r_n_pub_in r) vals ->
    exists k, s1' kp = Some k /\
      run (decap_command C kdf max_off cp' wp ctp' kp') s2 = (fs_write kp' k s2, Ok tt).
Proof.
  intros E C D kdf json_parse max_off v co cp sp ip ctp kp s1 s1' s2 cp' wp ctp' kp' cb sb ib wb r vals
    H1 H2 H3 Hne Hr Hu Hrun Hc Hct Hw Hv Ho Ha.
  apply run_exec' in Hrun. apply exec_encap in Hrun as [[_ Hx]|Hrun]; [congruence|].
  destruct Hrun as (cb'&sb'&ib'&t&c&ct&k&E1&E2&E3&Hp&He&Hcase).
  assert (cb' = cb) by congruence. assert (sb' = sb) by congruence. assert (ib' = ib) by congruence.
  subst cb' sb' ib'. clear E1 E2 E3.
  destruct Hcase as [[_ [Hx|Hx]]|[[_ [Hx|Hx]]|[-> _]]]; [congruence..|].
  rewrite fs_write_other, fs_write_same in Hct by exact Hne.
  destruct (encap_facts E C D kdf json_parse max_off v co cb sb ib t c ct k r Hp Hr Hu He) as (Hl&Hs&_&Hrec).
  exists k. split; [apply fs_write_same|].
  apply run_decap_command with (cb := cb) (wb := wb) (bs := ct_bytes C ct); auto.
  rewrite <- (app_nil_r (ct_bytes C ct)). apply (Hrec wb vals []); assumption.
Qed.
Print Assumptions C41_encap_then_decap.

(** Encrypt succeeds whenever the files parse, delta is not zero and the message is at most
    2^36 - 32 bytes; whatever the two hash maps' iteration orders. *)
Theorem C41_encrypt_succeeds :
  forall (E : pairingT Fr) (C : codecT E) (D : domainT Fr) (kdf : GT E -> key) (aes : cipherT)
         json_parse max_off v co cp sp ip mp op inc s cb sb ib mb r st syms it inputs,
    (forall g, List.length (kdf g) = 32%nat) -> List.length (c_nonce co) = 12%nat -> c_delta co <> f0 ->
    s cp = Some cb -> s sp = Some sb -> s ip = Some ib -> s mp = Some mb ->
    r1cs_from_bytes max_off cb = Ok r -> utf8_decode sb = Some st -> parse_sym_file st = Ok syms ->
    utf8_decode ib = Some it -> parse_inputs_text json_parse it = Ok inputs -> blen mb <= gcm_limit ->
    exists out, run (encrypt_command C D kdf aes json_parse max_off v co cp sp ip mp op inc) s = (fs_write op out s, Ok tt).
Proof.
  intros E C D kdf aes json_parse max_off v co cp sp ip mp op inc s cb sb ib mb r st syms it inputs
    Hkdf Hn Hd H1 H2 H3 H4 Hr Hst Hsy Hit Hin Hm.
  assert (exists c, prepared json_parse max_off v cb sb ib it c) as [c Hp].
  { eexists. exists r, st, syms, inputs. repeat (split; [eassumption|]). reflexivity. }
  assert (exists ct k, run_encap E D kdf co c = Ok (ct, k)) as (ct&k&He).
  { apply (C06_encap_outcome Fr E D kdf). exact Hd. }
  assert (Hk : List.length k = 32%nat).
  { apply encap_key in He as [g ->]. apply Hkdf. }
  destruct (C38_round_trip aes k (c_nonce co) mb Hk Hn Hm) as (cc&_&R1&_). 
  eexists. apply run_encrypt_command with (cb := cb) (sb := sb) (ib := ib) (mb := mb) (t := it) (c := c) (k := k); eauto.
Qed.
Print Assumptions C41_encrypt_succeeds.

(** A concrete case: y * y = x with x public, encrypted for x = 9, opened with y = 3. *)
Definition ex_prime32 : list byte := le_bytes 32 (Z.to_N bn_r).
Definition one32 : list byte := x01 :: repeat x00 31.
Definition ex_circuit : r1cs_file :=
  R1csFile 32 ex_prime32 3 0 1 1 3 1 [Constraint [(2, one32)] [(2, one32)] [(1, one32)]] [0; 1; 2].
Definition ex_circuit_file : list byte :=
  r1cs_bytes [(1, header_payload ex_circuit); (2, constraints_payload ex_circuit)].
Definition ex_witness : list Fr := [fr 1; fr 9; fr 3].
Definition ex_witness_file : list byte :=
  wtns_bytes [WHeader ex_prime32 3; WData (List.concat (map encode_fr ex_witness))].
Definition ex_sym_file : list byte := utf8_encode (lit "1,1,1,main.x" ++ [10] ++ lit "2,2,1,main.y").
Definition ex_input_file : list byte := utf8_encode (lit "{}").
Definition ex_json (t : text) : option json := Some (JObj [(lit "x", JInt 9)]).
Definition ex_kdf32 : GT fr_pairing -> key := fun g => le_bytes 32 (Z.to_N (fr_val g)).
Definition ex_coins : coins := Coins (fr 2) (fr 3) (fr 5) (fr 7) (fr 11) (repeat x42 12).
Definition ex_visits : visits := Visits (fun m => m) (fun m => m) (fun m => Permutation_refl m) (fun m => Permutation_refl m).
Definition ex_fs : fsys :=
  fs_write (lit "c") ex_circuit_file (fs_write (lit "s") ex_sym_file (fs_write (lit "i") ex_input_file
  (fs_write (lit "m") [x68; x69] (fs_write (lit "w") ex_witness_file (fun _ => None))))).

Lemma ex_circuit_reads : r1cs_from_bytes (2 ^ 63 - 1) ex_circuit_file = Ok ex_circuit.
Proof. vm_compute. reflexivity. Qed.
Lemma ex_witness_reads : cli_read_witness ex_witness_file = Ok ex_witness.
Proof.
  apply C20_field_elements_round_trip with (prime := ex_prime32).
  - vm_compute. reflexivity.
  - discriminate.
  - split; [|split; [|split; [|split]]].
    + exists [], [], []. split; [constructor|]. reflexivity.
    + repeat constructor.
    + reflexivity.
    + discriminate.
    + repeat constructor; apply encode_fr_value.
  - vm_compute. reflexivity.
Qed.
Example C41_nonvacuous : forall (aes : cipherT) (inc : bool),
  exists s1',
    run (encrypt_command ex_codec bn_domain ex_kdf32 aes ex_json (2 ^ 63 - 1) ex_visits ex_coins
           (lit "c") (lit "s") (lit "i") (lit "m") (lit "o") inc) ex_fs = (s1', Ok tt) /\
    usable ex_circuit /\ opens_circuit ex_circuit ex_witness /\
    inputs_agree ex_json ex_sym_file ex_input_file (r_n_pub_in ex_circuit) ex_witness /\
    run (decrypt_command ex_codec ex_kdf32 aes (2 ^ 63 - 1) (lit "c") (lit "w") (lit "o") (lit "p")) s1' =
      (fs_write (lit "p") [x68; x69] s1', Ok tt).
Proof.
  intros aes inc.
  assert (Hkdf : forall g, List.length (ex_kdf32 g) = 32%nat) by (intros g; apply le_bytes_length).
  assert (Hu : usable ex_circuit) by (repeat split; vm_compute; auto; discriminate).
  assert (Hin : exists l, parse_inputs_text ex_json (lit "{}") = Ok l).
  { eexists. reflexivity. }
  destruct Hin as [inputs Hin].
  assert (Hsym : exists syms, parse_sym_file (lit "1,1,1,main.x" ++ [10] ++ lit "2,2,1,main.y") = Ok syms /\
     hm_get (lit "main.x") syms = Some 1).
  { eexists. split; vm_compute; reflexivity. }
  destruct Hsym as (syms&Hsym&Hx).
  assert (Ho : opens_circuit ex_circuit ex_witness).
  { split; [vm_compute; discriminate|]. split; [repeat constructor|].
    constructor; [|constructor]. apply (proj1 (feqb_true Fr _ _)). vm_compute. reflexivity. }
  assert (Ha : inputs_agree ex_json ex_sym_file ex_input_file (r_n_pub_in ex_circuit) ex_witness).
  { intros st sy it kvs name x a w Hst Hsy Hit Hj Hl Hn Hg Hw.
    assert (st = lit "1,1,1,main.x" ++ [10] ++ lit "2,2,1,main.y").
    { vm_compute in Hst. vm_compute. congruence. }
    subst st. assert (sy = syms) by congruence. subst sy.
    change (r_n_pub_in ex_circuit) with 1 in Hw. assert (w = 1) by lia. subst w.
    change (ex_json it) with (Some (JObj [(lit "x", JInt 9)])) in Hj. 
    assert (kvs = [(lit "x", JInt 9)]) by congruence. subst kvs.
    apply doc_leaves_spec in Hl. vm_compute in Hl. destruct Hl as [Hl|[]].
    assert (x = JInt 9) by congruence. subst x. 
    assert (a = fr 9).
    { clear - Hn. remember (JInt 9) as j. destruct Hn as [z Hz|z Hz|t z Hz]; [congruence| |discriminate]. 
      exfalso. assert (z = 9%Z) by congruence. lia. }
    subst a. reflexivity. }
  destruct (C41_encrypt_succeeds fr_pairing ex_codec bn_domain ex_kdf32 aes ex_json (2 ^ 63 - 1) ex_visits ex_coins
    (lit "c") (lit "s") (lit "i") (lit "m") (lit "o") inc ex_fs ex_circuit_file ex_sym_file ex_input_file [x68; x69]
    ex_circuit (lit "1,1,1,main.x" ++ [10] ++ lit "2,2,1,main.y") syms (lit "{}") inputs Hkdf eq_refl) as [out Hout];
    [intros Hd; apply (proj2 (feqb_true Fr _ _)) in Hd; vm_compute in Hd; discriminate|reflexivity..|exact ex_circuit_reads| |exact Hsym| |exact Hin|vm_compute; discriminate|].
  { vm_compute. reflexivity. } { vm_compute. reflexivity. }
  eexists. split; [exact Hout|]. split; [exact Hu|]. split; [exact Ho|]. split; [exact Ha|].
  apply (C41_encrypt_then_decrypt fr_pairing ex_codec bn_domain ex_kdf32 aes ex_json (2 ^ 63 - 1) ex_visits ex_coins
    (lit "c") (lit "s") (lit "i") (lit "m") (lit "o") inc ex_fs (fs_write (lit "o") out ex_fs) (fs_write (lit "o") out ex_fs)
    (lit "c") (lit "w") (lit "o") (lit "p") ex_circuit_file ex_sym_file ex_input_file [x68; x69] ex_witness_file ex_circuit ex_witness);
    [exact Hkdf|reflexivity|reflexivity|reflexivity|reflexivity|reflexivity|exact ex_circuit_reads|exact Hu|
     intros _; vm_compute; reflexivity|exact Hout|reflexivity|reflexivity|reflexivity|exact ex_witness_reads|exact Ho|exact Ha].
Qed.

(** ** C42 *)
Lemma opened_iff (E : pairingT Fr) (C : codecT E) kdf (aes : cipherT) max_off cb wb f m :
  opened E C kdf aes max_off cb wb f m <-> opens C kdf aes max_off cb wb f m.
Proof.
  split.
  - intros (p&k&Hp&Hr&Hm). apply C39_accepts_iff in Hm as (Hk&nonce&c&Hn&Hl&Hd&Hmask).
    exists p, k, nonce, c. repeat (split; [assumption|]). exact Hmask.
  - intros (p&k&nonce&c&Hp&Hr&Hk&Hn&Hl&Hd&Hmask). exists p, k. split; [exact Hp|]. split; [exact Hr|].
    apply C39_accepts_iff. split; [exact Hk|]. exists nonce, c. auto.
Qed.

(** Every execution of decrypt, whatever fails and wherever it is killed: no path but the output
    changes; the output has its old content or a part, from the beginning, of a message the files
    open; success means the whole message; every failure but that of the final write leaves all
    files alone. *)
Theorem C42_decrypt_effects :
  forall (E : pairingT Fr) (C : codecT E) (kdf : GT E -> key) (aes : cipherT) max_off cp wp ctp op s s' o,
    exec (decrypt_command C kdf aes max_off cp wp ctp op) s s' o ->
    let opens_to m := exists cb wb f, s cp = Some cb /\ s wp = Some wb /\ s ctp = Some f /\
                                      opens C kdf aes max_off cb wb f m in
    only_changed [op] s s' /\
    (s' op = s op \/ exists m n, opens_to m /\ s' op = Some (firstn n m)) /\
    (o = Finished (Ok tt) -> exists m, opens_to m /\ s' op = Some m) /\
    (forall r, o = Finished r -> r <> Ok tt -> r <> Err EWriteOutput -> unchanged s s').
Proof.
  intros E C kdf aes max_off cp wp ctp op s s' o H opens_to.
  apply exec_decrypt in H as [[-> Ho]|(cb&wb&f&m&H1&H2&H3&Hop&H)].
  { split; [intros q _; reflexivity|]. split; [left; reflexivity|]. split; [contradiction|]. intros r _ _ _ q. reflexivity. }
  assert (Hm : opens_to m) by (exists cb, wb, f; apply opened_iff in Hop; auto). clearbody opens_to. clear H1 H2 H3 Hop.
  assert (Hch : forall b, only_changed [op] s (fs_write op b s)).
  { intros b q Hq. apply fs_write_other. intros ->. apply Hq. left. reflexivity. }
  destruct H as [[[->|[n ->]] Ho]|[-> Ho]].
  - split; [intros q _; reflexivity|]. split; [left; reflexivity|]. split; [destruct Ho; congruence|].
    intros r _ _ _ q. reflexivity.
  - split; [apply Hch|]. rewrite fs_write_same. split; [right; eauto|]. split; [destruct Ho; congruence|].
    intros r Hr _ Hne. destruct Ho; congruence.
  - split; [apply Hch|]. rewrite fs_write_same. split; [right; exists m, (List.length m); rewrite firstn_all; auto|].
    split; [eauto|]. intros r Hr Hne. destruct Ho; congruence.
Qed.
Print Assumptions C42_decrypt_effects.

(** Without failures: decrypt succeeds exactly when the files open the ciphertext. *)
Theorem C42_decrypt_succeeds_iff :
  forall (E : pairingT Fr) (C : codecT E) (kdf : GT E -> key) (aes : cipherT) max_off cp wp ctp op s m,
    (exists s', run (decrypt_command C kdf aes max_off cp wp ctp op) s = (s', Ok tt) /\ s' op = Some m) <->
    (exists cb wb f, s cp = Some cb /\ s wp = Some wb /\ s ctp = Some f /\ opens C kdf aes max_off cb wb f m).
Proof.
  intros E C kdf aes max_off cp wp ctp op s m. split.
  - intros (s'&H&Hm). apply run_exec' in H. apply exec_decrypt in H as [[-> Ho]|(cb&wb&f&m'&H1&H2&H3&Hop&H)]; [congruence|].
    destruct H as [[_ [Ho|Ho]]|[-> _]]; [congruence..|]. rewrite fs_write_same in Hm.
    assert (m' = m) by congruence. subst. apply opened_iff in Hop. exists cb, wb, f. auto.
  - intros (cb&wb&f&H1&H2&H3&Hop). apply opened_iff in Hop.
    exists (fs_write op m s). split; [apply run_decrypt_command with (cb := cb) (wb := wb) (f := f); auto|apply fs_write_same].
Qed.
Print Assumptions C42_decrypt_succeeds_iff.

(** The same for decap and its key file. *)
Theorem C42_decap_effects :
  forall (E : pairingT Fr) (C : codecT E) (kdf : GT E -> key) max_off cp wp ctp kp s s' o,
    exec (decap_command C kdf max_off cp wp ctp kp) s s' o ->
    let gives k := exists cb wb bs, s cp = Some cb /\ s wp = Some wb /\ s ctp = Some bs /\
                                    recovers C kdf max_off cb wb bs k in
    only_changed [kp] s s' /\
    (s' kp = s kp \/ exists k n, gives k /\ s' kp = Some (firstn n k)) /\
    (o = Finished (Ok tt) -> exists k, gives k /\ s' kp = Some k) /\
    (forall r, o = Finished r -> r <> Ok tt -> r <> Err EWriteKey -> unchanged s s').
Proof.
  intros E C kdf max_off cp wp ctp op s s' o H gives.
  apply exec_decap in H as [[-> Ho]|(cb&wb&f&m&H1&H2&H3&Hop&H)].
  { split; [intros q _; reflexivity|]. split; [left; reflexivity|]. split; [contradiction|]. intros r _ _ _ q. reflexivity. }
  assert (Hm : gives m) by (exists cb, wb, f; auto). clearbody gives. clear H1 H2 H3 Hop.
  assert (Hch : forall b, only_changed [op] s (fs_write op b s)).
  { intros b q Hq. apply fs_write_other. intros ->. apply Hq. left. reflexivity. }
  destruct H as [[[->|[n ->]] Ho]|[-> Ho]].
  - split; [intros q _; reflexivity|]. split; [left; reflexivity|]. split; [destruct Ho; congruence|].
    intros r _ _ _ q. reflexivity.
  - split; [apply Hch|]. rewrite fs_write_same. split; [right; eauto|]. split; [destruct Ho; congruence|].
    intros r Hr _ Hne. destruct Ho; congruence.
  - split; [apply Hch|]. rewrite fs_write_same. split; [right; exists m, (List.length m); rewrite firstn_all; auto|].
    split; [eauto|]. intros r Hr Hne. destruct Ho; congruence.
Qed.
Print Assumptions C42_decap_effects.

(** Files that give a key hold a witness of the circuit in that file, whose first wires are the
    public inputs recorded in the ciphertext: every wire has a value and every row holds, rows read
    without the wires the file does not have. *)
Theorem C42_recovering_files_are_satisfied :
  forall (E : pairingT Fr) (C : codecT E) (kdf : GT E -> key) max_off cb wb bs k,
    recovers C kdf max_off cb wb bs k ->
    exists r vals ct rest,
      r1cs_from_bytes max_off cb = Ok r /\ cli_read_witness wb = Ok vals /\ ct_deserialize C bs = Some (ct, rest) /\
      (r_n_pub_out r + r_n_pub_in r < r_n_wires r ->
       r_n_wires r <= N.of_nat (List.length vals) \/ r_n_wires r = 1) /\
      (r_n_pub_out r + r_n_pub_in r < r_n_wires r ->
       satisfies (wires (fun w => nth_error vals (N.to_nat w))) (map (drop_unknown (r_n_wires r)) (r_constraints r)) /\
       exists others, map (wires (fun w => nth_error vals (N.to_nat w))) (range 1 (r_n_wires r)) = public_inputs ct ++ others).
Proof.
  intros E C kdf max_off cb wb bs k (r&vals&ct&rest&Hr&Hv&Hct&Hk).
  exists r, vals, ct, rest. repeat (split; [assumption|]).
  destruct (r1cs_sound _ _ _ Hr) as [Hok _]. pose proof (ok_nw _ Hok) as Hnw.
  set (w := fun w : N => nth_error vals (N.to_nat w)) in *. set (c := circom_of_cli r w) in *.
  enough (Hgoal : r_n_pub_out r + r_n_pub_in r < r_n_wires r ->
     (forall i, 1 <= i < r_n_wires r -> w i <> None) /\
     satisfies (wires w) (map (drop_unknown (r_n_wires r)) (r_constraints r)) /\
     exists others, map (wires w) (range 1 (r_n_wires r)) = public_inputs ct ++ others).
  { split; intros Hp; destruct (Hgoal Hp) as (Hall&G); [|exact G].
    destruct (N.eq_dec (r_n_wires r) 1) as [H1|H1]; [right; exact H1|left].
    assert (Hx : w (r_n_wires r - 1) <> None) by (apply Hall; clear - Hp H1; lia).
    unfold w in Hx. apply nth_error_Some in Hx. clear - Hx Hp. lia. }
  intros Hp.
  assert (Hnp : cc_n_public c = r_n_pub_out r + r_n_pub_in r).
  { cbn [c cc_n_public circom_of_cli]. apply N.mod_small. clear - Hp Hnw. lia. }
  assert (Hna : n_alloc c = r_n_wires r).
  { unfold n_alloc. rewrite Hnp. cbn [c cc_n_wires circom_of_cli]. clear - Hp. lia. }
  assert (Hall : forall i, 1 <= i < r_n_wires r -> w i <> None).
  { intros i Hi Hnone.
    destruct (first_missing w (i - 1)) as (m&Hm1&Hm2&Hm3).
    { replace (i - 1 + 1) with i by (clear - Hi; lia). exact Hnone. }
    destruct (circom_stops c m) as (Hwf&S1&_).
    { rewrite Hnp. clear - Hp Hnw. lia. }
    { rewrite Hna. clear - Hm1 Hi. lia. }
    { exact Hm2. } { exact Hm3. }
    destruct (C04_decap_error_table Fr E kdf (circom_prog c) ct Hwf) as (Herr&_). rewrite (Herr _ S1) in Hk. congruence. }
  split; [exact Hall|].
  destruct (circom_synthesis c) as (Hwf&Hcomp&Hpub&Hpriv&Hhold).
  { rewrite Hnp. clear - Hp Hnw. lia. }
  { rewrite Hna. exact Hall. }
  destruct (proj1 (C04_decap_succeeds_iff Fr E kdf (circom_prog c) ct Hwf) (ex_intro _ k Hk)) as (_&Hch&[others Hpre]&_).
  split.
  - rewrite Hna in Hhold. apply Hhold. exact Hch.
  - exists others. rewrite <- Hpre, Hpub, Hpriv, Hnp. cbn [c cc_n_wires cc_witness circom_of_cli].
    rewrite <- map_app, <- range_split by (clear - Hp; lia). reflexivity.
Qed.
Print Assumptions C42_recovering_files_are_satisfied.

(** ** C43 *)
(** Every execution of encrypt: only the output changes; success means it holds the whole combined
    file; failures before the write change nothing. *)
Theorem C43_encrypt_effects :
  forall (E : pairingT Fr) (C : codecT E) (D : domainT Fr) (kdf : GT E -> key) (aes : cipherT)
         json_parse max_off v co cp sp ip mp op inc s s' o,
    exec (encrypt_command C D kdf aes json_parse max_off v co cp sp ip mp op inc) s s' o ->
    only_changed [op] s s' /\
    (forall r, o = Finished r -> r <> Ok tt -> r <> Err EWriteCombined -> unchanged s s') /\
    (o = Finished (Ok tt) ->
       s' op = fst (run (encrypt_command C D kdf aes json_parse max_off v co cp sp ip mp op inc) s) op /\
       snd (run (encrypt_command C D kdf aes json_parse max_off v co cp sp ip mp op inc) s) = Ok tt).
Proof.
  intros E C D kdf aes json_parse max_off v co cp sp ip mp op inc s s' o H.
  apply exec_encrypt in H as [[-> Ho]|H].
  { split; [intros q _; reflexivity|]. split; [intros r _ _ _ q; reflexivity|contradiction]. }
  destruct H as (cb&sb&ib&mb&t&c&ct&k&enc&E1&E2&E3&E4&Hp&He&Hg&H). cbv zeta in H.
  pose proof (run_encrypt_command E C D kdf aes json_parse max_off v co cp sp ip mp op inc s cb sb ib mb t c ct k enc E1 E2 E3 E4 Hp He Hg) as Hrun.
  set (f := cli_combine _ _ _ _) in *. clearbody f. rewrite Hrun. cbn [fst snd].
  assert (Hch : forall b, only_changed [op] s (fs_write op b s)).
  { intros b q Hq. apply fs_write_other. intros ->. apply Hq. left. reflexivity. }
  destruct H as [[[->|[n ->]] Ho]|[-> Ho]].
  - split; [intros q _; reflexivity|]. split; [intros r _ _ _ q; reflexivity|]. destruct Ho; congruence.
  - split; [apply Hch|]. split; [|destruct Ho; congruence]. intros r Hr _ Hne. destruct Ho; congruence.
  - split; [apply Hch|]. split; [intros r Hr Hne; destruct Ho; congruence|]. intros _. auto.
Qed.
Print Assumptions C43_encrypt_effects.

(** Every execution of encap: only the two outputs change, and the key file changes only after the
    complete ciphertext has been written. *)
Theorem C43_encap_effects :
  forall (E : pairingT Fr) (C : codecT E) (D : domainT Fr) (kdf : GT E -> key)
         json_parse max_off v co cp sp ip ctp kp s s' o,
    exec (encap_command C D kdf json_parse max_off v co cp sp ip ctp kp) s s' o -> ctp <> kp ->
    let whole := fst (run (encap_command C D kdf json_parse max_off v co cp sp ip ctp kp) s) in
    only_changed [ctp; kp] s s' /\
    (s' kp = s kp \/ s' ctp = whole ctp) /\
    (o = Finished (Ok tt) -> s' ctp = whole ctp /\ s' kp = whole kp) /\
    (forall r, o = Finished r -> r <> Ok tt -> r <> Err EWriteCiphertext -> r <> Err EWriteKey -> unchanged s s').
Proof.
  intros E C D kdf json_parse max_off v co cp sp ip ctp kp s s' o H Hne.
  apply exec_encap in H as [[-> Ho]|H]; cbv zeta.
  { split; [intros q _; reflexivity|]. split; [left; reflexivity|]. split; [contradiction|]. intros r _ _ _ _ q. reflexivity. }
  destruct H as (cb&sb&ib&t&c&ct&k&E1&E2&E3&Hp&He&H).
  rewrite (run_encap_command E C D kdf json_parse max_off v co cp sp ip ctp kp s cb sb ib t c ct k E1 E2 E3 Hp He).
  cbn [fst]. set (f := ct_bytes C ct) in *. clearbody f.
  assert (W1 : forall b, only_changed [ctp; kp] s (fs_write ctp b s)).
  { intros b q Hq. apply fs_write_other. intros ->. apply Hq. left. reflexivity. }
  assert (W2 : forall b, only_changed [ctp; kp] s (fs_write kp b (fs_write ctp f s))).
  { intros b q Hq. rewrite !fs_write_other; [reflexivity| |]; intros ->; apply Hq; [left|right; left]; reflexivity. }
  destruct H as [[[->|[n ->]] Ho]|[[[->|[n ->]] Ho]|[-> Ho]]].
  - split; [intros q _; reflexivity|]. split; [left; reflexivity|]. split; [destruct Ho; congruence|]. intros r _ _ _ _ q. reflexivity.
  - split; [apply W1|]. split; [left; apply fs_write_other; congruence|]. split; [destruct Ho; congruence|].
    intros r Hr _ Hx. destruct Ho; congruence.
  - split; [apply W1|]. split; [left; apply fs_write_other; congruence|]. split; [destruct Ho; congruence|].
    intros r Hr _ _ Hx. destruct Ho; congruence.
  - split; [apply W2|]. split; [right; rewrite !(fs_write_other kp) by exact Hne; reflexivity|].
    split; [destruct Ho; congruence|]. intros r Hr _ _ Hx. destruct Ho; congruence.
  - split; [apply W2|]. split; [right; reflexivity|]. split; [auto|]. intros r Hr Hx. destruct Ho; congruence.
Qed.
Print Assumptions C43_encap_effects.

(** The two writes are not atomic: whenever encap would succeed, being killed between them leaves
    the new ciphertext beside the old key file (or none), and a failing write may leave an empty
    file where the previous ciphertext was. *)
Theorem C43_atomicity_refuted :
  forall (E : pairingT Fr) (C : codecT E) (D : domainT Fr) (kdf : GT E -> key)
         json_parse max_off v co cp sp ip ctp kp s s1,
    run (encap_command C D kdf json_parse max_off v co cp sp ip ctp kp) s = (s1, Ok tt) -> ctp <> kp ->
    (exists s', exec (encap_command C D kdf json_parse max_off v co cp sp ip ctp kp) s s' Killed /\
                s' ctp = s1 ctp /\ s' kp = s kp) /\
    (exists s', exec (encap_command C D kdf json_parse max_off v co cp sp ip ctp kp) s s' (Finished (Err EWriteCiphertext)) /\
                s' ctp = Some [] /\ s' kp = s kp).
Proof.
  intros E C D kdf json_parse max_off v co cp sp ip ctp kp s s1 Hrun Hne.
  pose proof Hrun as Hx. apply run_exec' in Hx. apply exec_encap in Hx as [[_ Ho]|H]; [congruence|].
  destruct H as (cb&sb&ib&t&c&ct&k&E1&E2&E3&Hp&He&_).
  rewrite (run_encap_command E C D kdf json_parse max_off v co cp sp ip ctp kp s cb sb ib t c ct k E1 E2 E3 Hp He) in Hrun.
  assert (Hs1 : s1 = fs_write kp k (fs_write ctp (ct_bytes C ct) s)) by congruence. subst s1. clear Hrun.
  assert (Hstart : forall s' o,
    exec (write_ ctp (ct_bytes C ct) EWriteCiphertext (write_ kp k EWriteKey (Ret (Ok tt)))) s s' o ->
    exec (encap_command C D kdf json_parse max_off v co cp sp ip ctp kp) s s' o).
  { intros s' o H. unfold encap_command, prepare, load_r1cs, read_string.
    destruct Hp as (r&st&syms&inp&Hr&Hst&Hsy&Ht&Hin&Hc).
    apply ex_read. rewrite E1. cbn [try_opt]. rewrite Hr. cbn [try_].
    apply ex_read. rewrite E2. cbn [try_opt]. rewrite Hst. cbn [try_opt]. rewrite Hsy. cbn [try_].
    apply ex_read. rewrite E3. cbn [try_opt]. rewrite Ht. cbn [try_opt]. rewrite Hin. cbn [try_].
    apply ex_read. rewrite E1. cbn [try_opt]. rewrite Hr. cbn [try_]. rewrite <- Hc, He. cbn [try_]. exact H. }
  split.
  - exists (fs_write ctp (ct_bytes C ct) s). split; [|split].
    + apply Hstart. apply ex_write. apply ex_killed.
    + rewrite (fs_write_other kp) by exact Hne. reflexivity.
    + apply fs_write_other. congruence.
  - exists (fs_write ctp (firstn 0 (ct_bytes C ct)) s). split; [|split].
    + apply Hstart. eapply ex_write_short. apply ex_ret.
    + rewrite fs_write_same. reflexivity.
    + apply fs_write_other. congruence.
Qed.
Print Assumptions C43_atomicity_refuted.

(** With the same path for both outputs encap succeeds and the ciphertext is lost. *)
Theorem C43_same_path_loses_the_ciphertext :
  forall (E : pairingT Fr) (C : codecT E) (D : domainT Fr) (kdf : GT E -> key)
         json_parse max_off v co cp sp ip p s s1,
    (forall g, List.length (kdf g) = 32%nat) ->
    run (encap_command C D kdf json_parse max_off v co cp sp ip p p) s = (s1, Ok tt) ->
    exists k, s1 p = Some k /\ List.length k = 32%nat.
Proof.
  intros E C D kdf json_parse max_off v co cp sp ip p s s1 Hkdf Hrun.
  apply run_exec' in Hrun. apply exec_encap in Hrun as [[_ Ho]|H]; [congruence|].
  destruct H as (cb&sb&ib&t&c&ct&k&E1&E2&E3&Hp&He&H).
  destruct H as [[_ [Ho|Ho]]|[[_ [Ho|Ho]]|[-> _]]]; [congruence..|].
  exists k. rewrite fs_write_same. split; [reflexivity|]. apply encap_key in He as [g ->]. apply Hkdf.
Qed.
Print Assumptions C43_same_path_loses_the_ciphertext.

(** ** C53 *)
(** The circuit without constraints and the witness made of the recorded public inputs. *)
Definition trivial_r1cs (n : N) : r1cs_file :=
  R1csFile 32 ex_prime32 (1 + n) 0 n 0 (1 + n) 0 [] (map N.of_nat (seq 0 (N.to_nat (1 + n)))).
Definition trivial_r1cs_file (n : N) : list byte :=
  r1cs_bytes [(1, header_payload (trivial_r1cs n)); (2, [])].
Definition values_file (vals : list Fr) : list byte :=
  wtns_bytes [WHeader ex_prime32 (N.of_nat (List.length vals)); WData (List.concat (map encode_fr vals))].
(** What an attacker makes of a ciphertext file: nothing but its own content is used. *)
Definition attack {E : pairingT Fr} (C : codecT E) (f : list byte) : list byte * list byte :=
  match cli_split f with
  | Ok p => match ct_deserialize C (p_witness p) with
            | Some (ct, _) => (trivial_r1cs_file (N.of_nat (List.length (public_inputs ct))), values_file (fr 1 :: public_inputs ct))
            | None => ([], [])
            end
  | _ => ([], [])
  end.

Lemma trivial_reads max_off n : n <= 2 ^ 24 -> max_off < 2 ^ 63 -> 2 ^ 10 <= max_off ->
  r1cs_from_bytes max_off (trivial_r1cs_file n) = Ok (trivial_r1cs n).
Proof.
  intros Hn Hm Hl. assert (Hb : 1 + n < 2 ^ 32).
  { change (2 ^ 24) with 16777216 in Hn. change (2 ^ 32) with 4294967296. clear - Hn. lia. }
  assert (Hs : 2 ^ 32 < 2 ^ 64) by reflexivity.
  apply C16_reads_back_every_file.
  - constructor; cbn [trivial_r1cs r_field_size r_prime r_n_wires r_n_pub_out r_n_pub_in r_n_prv_in r_n_labels r_n_constraints r_constraints r_wire2label].
    + reflexivity.
    + reflexivity.
    + exact Hb.
    + reflexivity.
    + clear - Hb. lia.
    + reflexivity.
    + clear - Hb Hs. lia.
    + reflexivity.
    + constructor.
    + reflexivity.
    + apply Forall_forall. intros x Hx. apply in_map_iff in Hx as (i&<-&Hi). apply in_seq in Hi. clear - Hi Hb Hs. lia.
    + rewrite map_length, seq_length. clear. lia.
  - split; [|split].
    + eexists. split; [reflexivity|]. exists []. symmetry. apply app_nil_r.
    + eexists. split; [reflexivity|]. exists []. reflexivity.
    + reflexivity.
  - reflexivity.
  - repeat constructor.
  - exact Hm.
  - refine (N.le_trans _ _ _ _ Hl). unfold r1cs_bytes, section_bytes, blen. cbn [flat_map fst snd].
    rewrite !app_length. unfold header_payload, u32, u64. rewrite !app_length, !le_bytes_length.
    cbn [trivial_r1cs r_prime]. unfold ex_prime32. rewrite le_bytes_length. vm_compute. discriminate.
Qed.
Lemma values_read vals : vals <> [] -> N.of_nat (List.length vals) <= 2 ^ 25 -> cli_read_witness (values_file vals) = Ok vals.
Proof.
  intros Hne Hn. change (2 ^ 25) with 33554432 in Hn.
  assert (Hc : List.length (List.concat (map encode_fr vals)) = (32 * List.length vals)%nat).
  { clear. induction vals as [|x l IH]; [reflexivity|]. cbn [map List.concat]. rewrite app_length, IH.
    unfold encode_fr at 1. rewrite le_bytes_length. cbn [List.length]. lia. }
  apply C20_field_elements_round_trip with (prime := ex_prime32).
  - reflexivity.
  - exact Hne.
  - split; [|split; [|split; [|split]]].
    + exists [], [], []. split; [constructor|]. rewrite map_length. reflexivity.
    + constructor; [|constructor; [exact I|constructor]]. split; [reflexivity|]. change (2 ^ 32) with 4294967296. clear - Hn. lia.
    + reflexivity.
    + discriminate.
    + apply Forall_map, Forall_forall. intros x _. apply encode_fr_value.
  - unfold wtns_bytes, section_bytes, blen. cbn [flat_map fst snd wsec_payload]. unfold u32, u64.
    rewrite !app_length, !le_bytes_length, Hc. unfold ex_prime32. rewrite le_bytes_length. cbn [List.length ascii_wtns].
    change (2 ^ 63) with 9223372036854775808. clear - Hn. lia.
Qed.

(** The trivial circuit with these values opens any ciphertext made without constraints. *)
Lemma trivial_decap (E : pairingT Fr) (D : domainT Fr) (kdf : GT E -> key) co c ct k :
  run_encap E D kdf co c = Ok (ct, k) -> constraints_stated (circom_prog c) = [] ->
  public_inputs ct = public_values (circom_prog c) -> N.of_nat (List.length (public_inputs ct)) <= 2 ^ 24 ->
  decap kdf (circom_prog (circom_of_cli (trivial_r1cs (N.of_nat (List.length (public_inputs ct))))
                            (fun w => nth_error (fr 1 :: public_inputs ct) (N.to_nat w)))) ct = Ok k.
Proof.
  intros He Hnil Hpub Hlen. set (n := N.of_nat (List.length (public_inputs ct))) in *.
  set (w := fun w0 : N => nth_error (fr 1 :: public_inputs ct) (N.to_nat w0)).
  set (c2 := circom_of_cli (trivial_r1cs n) w).
  assert (Hnb : 1 + n <= 2 ^ 32 - 1).
  { change (2 ^ 24) with 16777216 in Hlen. change (2 ^ 32) with 4294967296. clear - Hlen. lia. }
  assert (Hnp2 : cc_n_public c2 = n).
  { cbn [c2 cc_n_public circom_of_cli trivial_r1cs r_n_pub_out r_n_pub_in]. rewrite N.add_0_l. apply N.mod_small. clear - Hnb. lia. }
  destruct (C24_synthesis_means_satisfaction c2) as (W1&W2&W3&W4&(b&Hb&Hiff)).
  { rewrite Hnp2. cbn [c2 cc_n_wires circom_of_cli trivial_r1cs r_n_wires]. clear. lia. }
  { exact Hnb. }
  { constructor. }
  { intros i Hi. cbn [c2 cc_n_wires circom_of_cli cc_witness trivial_r1cs r_n_wires] in *. unfold w. apply nth_error_Some.
    cbn [List.length]. unfold n in Hi. clear - Hi. lia. }
  destruct (is_satisfied_synth _ _ W1 W2) as (b'&Hb'&Hsat).
  assert (b = true) by (apply Hiff; constructor). assert (b' = true) by congruence. subst b'.
  apply (C01_key_agreement_without_witness Fr E D kdf (circom_prog c) (circom_prog c2) _ _ _ _ _ _ _ Hnil He).
  - split; [exact W1|]. split; [exact W2|]. apply Hsat. reflexivity.
  - exists (private_values (circom_prog c2)). f_equal. rewrite <- Hpub, W3, Hnp2. cbn [c2 cc_witness circom_of_cli].
    clear. unfold n. apply nth_error_ext'. intros i. rewrite nth_error_map.
    destruct (Nat.lt_ge_cases i (List.length (public_inputs ct))) as [Hi|Hi].
    + rewrite range_nth by lia. cbn [option_map]. unfold wires, w.
      destruct (N.eqb_spec (1 + N.of_nat i) 0) as [Hx|_]; [lia|].
      replace (N.to_nat (1 + N.of_nat i)) with (S i) by lia. cbn [nth_error].
      destruct (nth_error (public_inputs ct) i) as [x|] eqn:Ex; [reflexivity|]. apply nth_error_None in Ex. lia.
    + replace (nth_error (range 1 (N.of_nat (List.length (public_inputs ct)) + 1)) i) with (@None N).
      * cbn [option_map]. apply nth_error_None in Hi. symmetry. exact Hi.
      * symmetry. apply nth_error_None. rewrite range_length. lia.
Qed.

(** Refuted: the message of every ciphertext file that encrypt writes comes out of decrypt with two
    files made from the ciphertext file alone. *)
Theorem C53_cli_confidentiality_refuted :
  forall (E : pairingT Fr) (C : codecT E) (kdf : GT E -> key) (aes : cipherT),
    (forall g, List.length (kdf g) = 32%nat) ->
    exists attacker : list byte -> list byte * list byte,
      forall (D : domainT Fr) json_parse max_off v co cp sp ip mp op inc s1 s1' s2 cp' wp ctp op' cb ib mb f r,
        List.length (c_nonce co) = 12%nat -> max_off < 2 ^ 63 -> 2 ^ 10 <= max_off ->
        s1 cp = Some cb -> s1 ip = Some ib -> s1 mp = Some mb ->
        r1cs_from_bytes max_off cb = Ok r -> usable r -> (inc = true -> blen ib < 2 ^ 32) ->
        run (encrypt_command C D kdf aes json_parse max_off v co cp sp ip mp op inc) s1 = (s1', Ok tt) ->
        s1' op = Some f ->
        s2 ctp = Some f -> s2 cp' = Some (fst (attacker f)) -> s2 wp = Some (snd (attacker f)) ->
        run (decrypt_command C kdf aes max_off cp' wp ctp op') s2 = (fs_write op' mb s2, Ok tt).
Proof.
  intros E C kdf aes Hkdf. exists (attack C).
  intros D json_parse max_off v co cp sp ip mp op inc s1 s1' s2 cp' wp ctp op' cb ib mb f r
    Hn Hmx1 Hmx2 H1 H3 H4 Hr Hu Hib Hrun Hf Hct Hc Hw.
  apply run_exec' in Hrun. apply exec_encrypt in Hrun as [[_ Hx]|Hrun]; [congruence|].
  destruct Hrun as (cb'&sb&ib'&mb'&t&c&ct&k&enc&E1&E2&E3&E4&Hp&He&Hg&Hcase). cbv zeta in Hcase.
  assert (cb' = cb) by congruence. assert (ib' = ib) by congruence.
  assert (mb' = mb) by congruence. subst cb' ib' mb'. clear E1 E2 E3 E4.
  destruct Hcase as [[_ [Hx|Hx]]|[-> _]]; [congruence|congruence|].
  rewrite fs_write_same in Hf.
  destruct (encap_facts E C D kdf json_parse max_off v co cb sb ib t c ct k r Hp Hr Hu He) as (Hl&Hs&(Hnil&Hpub&Hlen)&_).
  assert (Hutf : utf8_encode t = ib).
  { destruct Hp as (r0&st&syms&inputs&_&_&_&Ht&_). apply utf8_decode_sound in Ht as [-> _]. reflexivity. }
  destruct (C34_round_trip_across_tools inc (ct_bytes C ct) (utf8_encode t) enc Hs) as (f'&Hf'&_&Hsp&_).
  { rewrite Hutf. exact Hib. }
  assert (Hff : f' = f) by congruence. rewrite Hff in Hsp. clear Hf Hf' Hff f'.
  pose proof (C14_round_trip E C ct [] Hl) as Hds. rewrite app_nil_r in Hds.
  assert (Hat : attack C f = (trivial_r1cs_file (N.of_nat (List.length (public_inputs ct))), values_file (fr 1 :: public_inputs ct))).
  { unfold attack. rewrite Hsp. cbn [p_witness parts_of]. rewrite Hds. reflexivity. }
  rewrite Hat in Hc, Hw. cbn [fst snd] in Hc, Hw. clear Hat.
  assert (Hk : List.length k = 32%nat).
  { pose proof He as He'. apply encap_key in He' as [g ->]. apply Hkdf. }
  assert (Hm : decrypt_gcm aes k enc = Ok mb).
  { destruct (N.lt_ge_cases gcm_limit (blen mb)) as [Hbig|Hsm].
    - exfalso. destruct (C38_failures aes k (c_nonce co) mb) as (_&F1&F2&_).
      destruct (N.le_gt_cases (blen mb) (2 ^ 36)) as [Hx|Hx]; [rewrite F1 in Hg by assumption|rewrite F2 in Hg by assumption]; discriminate.
    - destruct (C38_round_trip aes k (c_nonce co) mb Hk Hn Hsm) as (cc&_&R1&_&_&R2&_). rewrite Hg in R1. injection R1 as ->. exact R2. }
  set (n := N.of_nat (List.length (public_inputs ct))) in *.
  eapply run_decrypt_command; [exact Hc|exact Hw|exact Hct|].
  exists (parts_of inc (ct_bytes C ct) (utf8_encode t) enc), k. split; [exact Hsp|]. split; [|exact Hm].
  cbn [p_witness parts_of]. exists (trivial_r1cs n), (fr 1 :: public_inputs ct), ct, [].
  split; [apply trivial_reads; assumption|].
  split; [apply values_read; [discriminate|]; cbn [List.length]; fold n; rewrite Nat2N.inj_succ; fold n; change (2 ^ 24) with 16777216 in Hlen; change (2 ^ 25) with 33554432; clear - Hlen; lia|].
  split; [exact Hds|].
  apply (trivial_decap E D kdf co c); assumption.
Qed.
Print Assumptions C53_cli_confidentiality_refuted.
