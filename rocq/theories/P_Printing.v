(** Property theorems C87: what the commands print.  Vocabulary: SpecPrinting.v, SpecCommands.v. *)
From Coq Require Import List Bool Arith NArith ZArith Lia Permutation.
From Coq Require Import Strings.String Strings.Byte.
From Verif Require Import Res Bytes Text Utf8 Fld Zp Groups Bn254 CS CSFacts Qap SpecCore Core CoreFacts CoreMore P_Core
  R1cs SpecR1cs R1csFacts P_R1cs Wtns SpecWtns WtnsFacts P_Wtns Circuit SpecCircuit CircuitFacts P_Circuit
  ArkSer ArkSerFacts P_Ser Sym SpecSym SymFacts P_Sym Inputs SpecInputs InputsFacts P_Inputs
  Combined SpecCombined CombinedFacts P_Combined Gcm SpecGcm GcmFacts P_Gcm FileSys Commands SpecCommands CommandsFacts
  PartialEncap P_Commands SpecJs SpecBound P_Bound P_BoundCli CliArgs Main Printing PrintingFacts SpecPrinting Listings.
Import ListNotations.
Local Open Scope string_scope.
Local Open Scope list_scope.
Local Open Scope N_scope.

(** Printing changes nothing the other properties speak about: with the same files, random numbers and
    visiting orders, the files and the result are those of the commands without their println! calls; and
    every execution of a printing command, wherever it stops and whichever println! panics, leaves the
    files as some execution of the command without them. *)
Theorem C87_printing_changes_nothing :
  forall (E : pairingT Fr) (C : codecT E) (D : domainT Fr) (kdf : GT E -> key) (aes : cipherT)
         json_parse max_off v co q,
    let talks := dispatch_talk C D kdf aes json_parse max_off v co q in
    let quiet := dispatch C D kdf aes json_parse max_off v co q in
    (forall s s' l r, hear talks s = (s', l, r) -> run quiet s = (s', rmap_err fst r)) /\
    (forall s s' l o, texec talks s s' l o ->
       exec quiet s s' Killed \/ exec quiet s s' (match o with Finished r => Finished (rmap_err fst r) | Killed => Killed end)).
Proof.
  intros E C D kdf aes json_parse max_off v co q talks quiet.
  assert (Hs : same talks quiet).
  { unfold talks, quiet. destruct q; cbn [dispatch_talk dispatch].
    - apply same_encap.
    - apply same_decap.
    - apply same_encrypt.
    - apply same_decrypt. }
  split.
  - intros s s' l r H. rewrite (same_hear _ _ Hs), H. reflexivity.
  - intros s s' l o H. exact (same_texec _ _ _ _ _ H _ Hs).
Qed.
Print Assumptions C87_printing_changes_nothing.

Section Work.
  Context (E : pairingT Fr) (C : codecT E) (D : domainT Fr) (kdf : GT E -> key) (aes : cipherT)
          (json_parse : text -> option json) (max_off : N).

  (** What encap's circuit is, and what it prints of it. *)
  Lemma prepared_lines v co cb sb ib t c ct k r st syms it kvs :
    prepared json_parse max_off v cb sb ib t c -> run_encap E D kdf co c = Ok (ct, k) ->
    r1cs_from_bytes max_off cb = Ok r -> usable r ->
    utf8_decode sb = Some st -> parse_sym_file st = Ok syms -> utf8_decode ib = Some it -> json_parse it = Some (JObj kvs) ->
    t = it /\ utf8_encode it = ib /\
    exists inputs, parse_inputs_text json_parse it = Ok inputs /\ parse_inputs_with_keys (JObj kvs) = Ok inputs /\
    c = circom_of_cli r (fun w => nm_get w (cli_witness (get_input_signals (visit_syms v syms) (Some (r_n_pub_in r))) (visit_inputs v inputs))) /\
    (exists m, first_open syms kvs (r_n_pub_in r) m) /\
    (forall m, first_open syms kvs (r_n_pub_in r) m ->
       core_encap_lines (circom_prog c) = encap_lines m /\ N.of_nat (List.length (ct_bytes C ct)) = ciphertext_size m).
  Proof using Type.
    intros (r'&st'&syms'&inputs&R1&R2&R3&R4&R5&Hc) He Hr (Hu1&Hu2&_) Hst Hsy Hit Hj.
    assert (r' = r) by congruence. assert (st' = st) by congruence. subst r' st'. assert (syms' = syms) by congruence.
    assert (t = it) by congruence. subst syms' t. clear R1 R2 R3 R4.
    assert (Hwf := parse_sym_file_wf _ _ Hsy).
    split; [reflexivity|]. split; [apply utf8_decode_sound in Hit as [-> _]; reflexivity|].
    exists inputs. split; [exact R5|]. split; [unfold parse_inputs_text in R5; rewrite Hj in R5; exact R5|].
    split; [exact Hc|].
    destruct (r1cs_sound _ _ _ Hr) as [Hok _]. pose proof (ok_nw _ Hok) as Hnw.
    assert (Hgiv := fun w => given_iff json_parse v syms (r_n_pub_in r) it kvs Hwf Hj inputs w R5).
    set (a := fun w => nm_get w (cli_witness _ _)) in Hc. 
    change (forall w, 1 <= w -> (a w <> None <-> given syms kvs (r_n_pub_in r) w)) in Hgiv.
    assert (Hnp : cc_n_public c = r_n_pub_out r + r_n_pub_in r).
    { rewrite Hc. cbn [cc_n_public circom_of_cli]. apply N.mod_small. clear - Hu2 Hnw. lia. }
    assert (Hw : cc_witness c = a) by (rewrite Hc; reflexivity).
    assert (Hnws : cc_n_wires c = r_n_wires r) by (rewrite Hc; reflexivity).
    clearbody a.
    split.
    { assert (Hmiss : a (r_n_pub_in r + 1) = None).
      { destruct (a (r_n_pub_in r + 1)) as [x|] eqn:Ex; [|reflexivity]. exfalso.
        destruct (proj1 (Hgiv (r_n_pub_in r + 1) ltac:(clear; lia))) as [Hx _]; [congruence|]. clear - Hx. lia. }
      destruct (first_missing a _ Hmiss) as (m&Hm1&Hm2&Hm3). exists m. split; [apply Hm1|]. split.
      - intros Hg. apply (Hgiv m (proj1 Hm1)) in Hg. congruence.
      - intros w Hww. apply Hgiv; [apply Hww|]. apply Hm3. exact Hww. }
    intros m (Hm1&Hm2&Hm3).
    assert (Hmn : m <= r_n_pub_in r + 1).
    { destruct (N.le_gt_cases m (r_n_pub_in r + 1)) as [H|H]; [exact H|]. exfalso.
      destruct (Hm3 (r_n_pub_in r + 1)) as [Hx _]; [clear - H; lia|]. clear - Hx. lia. }
    destruct (stopping_lines c m) as (L1&L2&L3).
    { rewrite Hnp, Hnws. exact Hu2. } { rewrite Hnws. exact Hnw. } { exact Hm1. } { rewrite Hnws. clear - Hmn Hu1. lia. }
    { rewrite Hnp. clear - Hmn. lia. }
    { rewrite Hw. destruct (a m) eqn:Ea; [|reflexivity]. exfalso. apply Hm2. apply Hgiv; [exact Hm1|]. congruence. }
    { intros i Hi. rewrite Hw. apply Hgiv; [apply Hi|]. apply Hm3. exact Hi. }
    split; [exact L1|]. unfold run_encap in He.
    rewrite (C15_encap_size E C D kdf _ _ _ _ _ _ _ _ He). unfold ciphertext_size. clear - L2 L3 Hm1. lia.
  Qed.
  Lemma encap_key_length co c ct k : (forall g, List.length (kdf g) = 32%nat) -> run_encap E D kdf co c = Ok (ct, k) -> List.length k = 32%nat.
  Proof using Type. intros Hk He. unfold run_encap in He. apply encap_key in He as [g ->]. apply Hk. Qed.

  Lemma enc_length k nonce m e : List.length k = 32%nat -> List.length nonce = 12%nat -> encrypt_gcm aes k nonce m = Ok e ->
    List.length e = (List.length m + 28)%nat.
  Proof using Type.
    intros Hk Hn Hg. destruct (N.lt_ge_cases gcm_limit (blen m)) as [Hbig|Hsm].
    - exfalso. destruct (C38_failures aes k nonce m) as (_&F1&F2&_).
      destruct (N.le_gt_cases (blen m) (2 ^ 36)) as [Hx|Hx]; [rewrite F1 in Hg by assumption|rewrite F2 in Hg by assumption]; discriminate.
    - destruct (C38_round_trip aes k nonce m Hk Hn Hsm) as (cc&_&R1&_&R3&_). rewrite Hg in R1.
      assert (R : e = nonce ++ cc ++ spec_tag aes k nonce cc) by congruence. rewrite R. exact R3.
  Qed.
End Work.
Local Opaque u8 dec_text.
Local Opaque core_encap_lines core_decap_lines.

(** encap, when it succeeds, prints exactly this: the three numbers of the circuit file's header, how many
    names the inputs have, where its synthesis stopped (the first wire without a value: the notice it
    prints there is the rule), and the size of the ciphertext. *)
Theorem C87_encap_prints :
  forall (E : pairingT Fr) (C : codecT E) (D : domainT Fr) (kdf : GT E -> key)
         json_parse max_off v co cp sp ip ctp kp s s' l cb sb ib r st syms it kvs n m,
    (forall g, List.length (kdf g) = 32%nat) ->
    s cp = Some cb -> s sp = Some sb -> s ip = Some ib -> r1cs_from_bytes max_off cb = Ok r -> usable r ->
    utf8_decode sb = Some st -> parse_sym_file st = Ok syms -> utf8_decode ib = Some it -> json_parse it = Some (JObj kvs) ->
    names kvs n -> first_open syms kvs (r_n_pub_in r) m ->
    hear (encap_talk C D kdf json_parse max_off v co cp sp ip ctp kp) s = (s', l, Ok tt) -> l = encap_listing r n m.
Proof.
  intros E C D kdf json_parse max_off v co cp sp ip ctp kp s s' l cb sb ib r st syms it kvs n m
    Hkdf H1 H2 H3 Hr Hu Hst Hsy Hit Hj Hn Hm Hhear.
  assert (Hrun := same_hear _ _ (same_encap E C D kdf json_parse max_off v co cp sp ip ctp kp) s). rewrite Hhear in Hrun. cbn [fst snd rmap_err] in Hrun.
  apply run_exec' in Hrun. apply exec_encap in Hrun as [[_ Hx]|Hrun]; [congruence|].
  destruct Hrun as (cb'&sb'&ib'&t&c&ct&k&E1&E2&E3&Hp&He&_).
  assert (cb' = cb) by congruence. assert (sb' = sb) by congruence. assert (ib' = ib) by congruence. subst cb' sb' ib'. clear E1 E2 E3.
  destruct (prepared_lines E C D kdf json_parse max_off v co cb sb ib t c ct k r st syms it kvs Hp He Hr Hu Hst Hsy Hit Hj)
    as (->&_&inputs&Hin&Hin'&Hc&_&Hlines).
  destruct (Hlines m Hm) as [L1 L2]. clear Hlines.
  unfold encap_talk in Hhear. rewrite (hear_prepare json_parse max_off v cp sp ip _ _ s cb sb ib r st syms it inputs H1 H2 H3 Hr Hst Hsy Hit Hin) in Hhear.
  rewrite <- Hc in Hhear. rewrite (hear_run_encap E D kdf co c _ s (ct, k) He) in Hhear. cbn [hear says twrite] in Hhear.
  rewrite L1, (num_of _ _ L2) in Hhear. unfold key_bytes in Hhear. rewrite (encap_key_length E D kdf co c ct k Hkdf He), text_key_saved in Hhear.
  rewrite (parsed_count kvs inputs n Hin' Hn) in Hhear. apply pair_equal_spec in Hhear as [Hhear _]. apply pair_equal_spec in Hhear as [_ <-].
  reflexivity.
Qed.
Print Assumptions C87_encap_prints.

(** The same for encrypt. *)
Theorem C87_encrypt_prints :
  forall (E : pairingT Fr) (C : codecT E) (D : domainT Fr) (kdf : GT E -> key) (aes : cipherT)
         json_parse max_off v co cp sp ip mp op inc s s' l cb sb ib mb r st syms it kvs n m,
    (forall g, List.length (kdf g) = 32%nat) -> List.length (c_nonce co) = 12%nat ->
    s cp = Some cb -> s sp = Some sb -> s ip = Some ib -> s mp = Some mb -> r1cs_from_bytes max_off cb = Ok r -> usable r ->
    utf8_decode sb = Some st -> parse_sym_file st = Ok syms -> utf8_decode ib = Some it -> json_parse it = Some (JObj kvs) ->
    names kvs n -> first_open syms kvs (r_n_pub_in r) m ->
    hear (encrypt_talk C D kdf aes json_parse max_off v co cp sp ip mp op inc) s = (s', l, Ok tt) ->
    l = encrypt_listing r n m (if inc then Some (blen ib) else None) (blen mb).
Proof.
  intros E C D kdf aes json_parse max_off v co cp sp ip mp op inc s s' l cb sb ib mb r st syms it kvs n m
    Hkdf Hnon H1 H2 H3 H4 Hr Hu Hst Hsy Hit Hj Hn Hm Hhear.
  assert (Hrun := same_hear _ _ (same_encrypt E C D kdf aes json_parse max_off v co cp sp ip mp op inc) s). rewrite Hhear in Hrun. cbn [fst snd rmap_err] in Hrun.
  apply run_exec' in Hrun. apply exec_encrypt in Hrun as [[_ Hx]|Hrun]; [congruence|].
  destruct Hrun as (cb'&sb'&ib'&mb'&t&c&ct&k&enc&E1&E2&E3&E4&Hp&He&Hg&_).
  assert (cb' = cb) by congruence. assert (sb' = sb) by congruence. assert (ib' = ib) by congruence.
  assert (mb' = mb) by congruence. subst cb' sb' ib' mb'. clear E1 E2 E3 E4.
  destruct (prepared_lines E C D kdf json_parse max_off v co cb sb ib t c ct k r st syms it kvs Hp He Hr Hu Hst Hsy Hit Hj)
    as (->&Hutf&inputs&Hin&Hin'&Hc&_&Hlines).
  destruct (Hlines m Hm) as [L1 L2]. clear Hlines.
  assert (Lm : N.of_nat (List.length mb) = blen mb) by reflexivity.
  assert (Le : N.of_nat (List.length enc) = blen mb + 28).
  { rewrite (enc_length aes k (c_nonce co) mb enc (encap_key_length E D kdf co c ct k Hkdf He) Hnon Hg). unfold blen. clear. lia. }
  assert (Lf : N.of_nat (List.length (cli_combine inc (ct_bytes C ct) (utf8_encode it) enc)) =
    match (if inc then Some (blen ib) else None) with Some p => 9 + p | None => 5 end + ciphertext_size m + blen mb + 28).
  { rewrite cli_combine_layout. unfold layout, block. cbn [p_witness p_public p_message]. rewrite Hutf.
    destruct inc; cbn [List.length app]; rewrite ?app_length, ?be_bytes_length; cbn [List.length]; unfold blen in *; clear - L2 Le; lia. }
  unfold encrypt_talk in Hhear. rewrite hear_say, (hear_prepare json_parse max_off v cp sp ip _ _ s cb sb ib r st syms it inputs H1 H2 H3 Hr Hst Hsy Hit Hin) in Hhear.
  rewrite <- Hc in Hhear. rewrite (hear_run_encap E D kdf co c _ s (ct, k) He) in Hhear.
  cbv zeta in Hhear. rewrite hear_says, hear_read, H4 in Hhear. cbn [ttry_opt] in Hhear. rewrite hear_say, Hg in Hhear. cbn [ttry] in Hhear.
  rewrite hear_says, hear_twrite, hear_says in Hhear. cbn [hear] in Hhear.
  rewrite L1, (num_of _ _ L2), (num_of _ _ Le), (num_of _ _ Lm), (num_of _ _ Lf) in Hhear.
  rewrite (parsed_count kvs inputs n Hin' Hn) in Hhear. apply pair_equal_spec in Hhear as [Hhear _]. apply pair_equal_spec in Hhear as [_ <-].
  unfold encrypt_listing. destruct inc; reflexivity.
Qed.
Print Assumptions C87_encrypt_prints.

(** So the screen shows nothing of the values of the inputs, of the message or of the random numbers: two
    encryptions with the same circuit, the same symbol file, inputs with the same names and messages of the
    same size print the same, whatever the values, the messages, the coins, the hash map's order and the
    file names; encap likewise. *)
Theorem C87_encrypting_prints_no_values :
  forall (E : pairingT Fr) (C : codecT E) (D : domainT Fr) (kdf : GT E -> key) (aes : cipherT) json_parse max_off
         cb sb r it1 it2 kvs1 kvs2,
    (forall g, List.length (kdf g) = 32%nat) ->
    r1cs_from_bytes max_off cb = Ok r -> usable r ->
    json_parse it1 = Some (JObj kvs1) -> json_parse it2 = Some (JObj kvs2) ->
    (forall name, (exists x, doc_leaf kvs1 name x) <-> (exists x, doc_leaf kvs2 name x)) ->
    (forall v1 v2 co1 co2 cp1 cp2 sp1 sp2 ip1 ip2 mp1 mp2 op1 op2 inc s1 s2 s1' s2' l1 l2 ib1 ib2 mb1 mb2,
       List.length (c_nonce co1) = 12%nat -> List.length (c_nonce co2) = 12%nat ->
       s1 cp1 = Some cb -> s2 cp2 = Some cb -> s1 sp1 = Some sb -> s2 sp2 = Some sb ->
       s1 ip1 = Some ib1 -> s2 ip2 = Some ib2 -> utf8_decode ib1 = Some it1 -> utf8_decode ib2 = Some it2 ->
       s1 mp1 = Some mb1 -> s2 mp2 = Some mb2 -> blen mb1 = blen mb2 -> (inc = true -> blen ib1 = blen ib2) ->
       hear (encrypt_talk C D kdf aes json_parse max_off v1 co1 cp1 sp1 ip1 mp1 op1 inc) s1 = (s1', l1, Ok tt) ->
       hear (encrypt_talk C D kdf aes json_parse max_off v2 co2 cp2 sp2 ip2 mp2 op2 inc) s2 = (s2', l2, Ok tt) -> l1 = l2) /\
    (forall v1 v2 co1 co2 cp1 cp2 sp1 sp2 ip1 ip2 ctp1 ctp2 kp1 kp2 s1 s2 s1' s2' l1 l2 ib1 ib2,
       s1 cp1 = Some cb -> s2 cp2 = Some cb -> s1 sp1 = Some sb -> s2 sp2 = Some sb ->
       s1 ip1 = Some ib1 -> s2 ip2 = Some ib2 -> utf8_decode ib1 = Some it1 -> utf8_decode ib2 = Some it2 ->
       hear (encap_talk C D kdf json_parse max_off v1 co1 cp1 sp1 ip1 ctp1 kp1) s1 = (s1', l1, Ok tt) ->
       hear (encap_talk C D kdf json_parse max_off v2 co2 cp2 sp2 ip2 ctp2 kp2) s2 = (s2', l2, Ok tt) -> l1 = l2).
Proof.
  intros E C D kdf aes json_parse max_off cb sb r it1 it2 kvs1 kvs2 Hkdf Hr Hu Hj1 Hj2 Hnames.
  assert (Hn : forall n, names kvs1 n -> names kvs2 n).
  { intros n (l&Ha&Hb&Hc). exists l. split; [exact Ha|]. split; [|exact Hc]. intros name. rewrite Hb. apply Hnames. }
  assert (Hg : forall syms w, given syms kvs1 (r_n_pub_in r) w <-> given syms kvs2 (r_n_pub_in r) w).
  { intros syms w. unfold given. split; intros (Hw&name&x&Hx&Hy); (split; [exact Hw|]); exists name.
    - destruct (proj1 (Hnames name)) as (x'&Hx'); [eauto|]. eauto.
    - destruct (proj2 (Hnames name)) as (x'&Hx'); [eauto|]. eauto. }
  assert (Hm : forall syms m, first_open syms kvs1 (r_n_pub_in r) m -> first_open syms kvs2 (r_n_pub_in r) m).
  { intros syms m (Ha&Hb&Hc). split; [exact Ha|]. split; [rewrite <- Hg; exact Hb|]. intros w Hw. apply Hg. apply Hc. exact Hw. }
  split.
  - intros v1 v2 co1 co2 cp1 cp2 sp1 sp2 ip1 ip2 mp1 mp2 op1 op2 inc s1 s2 s1' s2' l1 l2 ib1 ib2 mb1 mb2
      N1 N2 A1 A2 B1 B2 C1 C2 D1 D2 M1 M2 Hlm Hli R1 R2.
    assert (Hrun := same_hear _ _ (same_encrypt E C D kdf aes json_parse max_off v1 co1 cp1 sp1 ip1 mp1 op1 inc) s1).
    rewrite R1 in Hrun. cbn [fst snd rmap_err] in Hrun.
    apply run_exec' in Hrun. apply exec_encrypt in Hrun as [[_ Hx]|Hrun]; [congruence|].
    destruct Hrun as (cb'&sb'&ib'&mb'&t&c&ct&k&enc&E1&E2&E3&E4&Hp&He&_).
    assert (cb' = cb) by congruence. assert (sb' = sb) by congruence. assert (ib' = ib1) by congruence. subst cb' sb' ib'.
    destruct Hp as (r'&st&syms&inputs&P1&P2&P3&P4&P5&P6).
    destruct (prepared_lines E C D kdf json_parse max_off v1 co1 cb sb ib1 t c ct k r st syms it1 kvs1
      (ex_intro _ r' (ex_intro _ st (ex_intro _ syms (ex_intro _ inputs (conj P1 (conj P2 (conj P3 (conj P4 (conj P5 P6)))))))))
      He Hr Hu P2 P3 D1 Hj1) as (_&_&inputs'&_&Hin&_&(m&Hfo)&_).
    destruct (parsed_has_names kvs1 inputs' Hin) as (n&Hnm).
    rewrite (C87_encrypt_prints E C D kdf aes json_parse max_off v1 co1 cp1 sp1 ip1 mp1 op1 inc s1 s1' l1 cb sb ib1 mb1 r st syms it1 kvs1 n m
      Hkdf N1 A1 B1 C1 M1 Hr Hu P2 P3 D1 Hj1 Hnm Hfo R1).
    rewrite (C87_encrypt_prints E C D kdf aes json_parse max_off v2 co2 cp2 sp2 ip2 mp2 op2 inc s2 s2' l2 cb sb ib2 mb2 r st syms it2 kvs2 n m
      Hkdf N2 A2 B2 C2 M2 Hr Hu P2 P3 D2 Hj2 (Hn n Hnm) (Hm syms m Hfo) R2).
    rewrite Hlm. destruct inc; [rewrite (Hli eq_refl)|]; reflexivity.
  - intros v1 v2 co1 co2 cp1 cp2 sp1 sp2 ip1 ip2 ctp1 ctp2 kp1 kp2 s1 s2 s1' s2' l1 l2 ib1 ib2 A1 A2 B1 B2 C1 C2 D1 D2 R1 R2.
    assert (Hrun := same_hear _ _ (same_encap E C D kdf json_parse max_off v1 co1 cp1 sp1 ip1 ctp1 kp1) s1).
    rewrite R1 in Hrun. cbn [fst snd rmap_err] in Hrun.
    apply run_exec' in Hrun. apply exec_encap in Hrun as [[_ Hx]|Hrun]; [congruence|].
    destruct Hrun as (cb'&sb'&ib'&t&c&ct&k&E1&E2&E3&Hp&He&_).
    assert (cb' = cb) by congruence. assert (sb' = sb) by congruence. assert (ib' = ib1) by congruence. subst cb' sb' ib'.
    destruct Hp as (r'&st&syms&inputs&P1&P2&P3&P4&P5&P6).
    destruct (prepared_lines E C D kdf json_parse max_off v1 co1 cb sb ib1 t c ct k r st syms it1 kvs1
      (ex_intro _ r' (ex_intro _ st (ex_intro _ syms (ex_intro _ inputs (conj P1 (conj P2 (conj P3 (conj P4 (conj P5 P6)))))))))
      He Hr Hu P2 P3 D1 Hj1) as (_&_&inputs'&_&Hin&_&(m&Hfo)&_).
    destruct (parsed_has_names kvs1 inputs' Hin) as (n&Hnm).
    rewrite (C87_encap_prints E C D kdf json_parse max_off v1 co1 cp1 sp1 ip1 ctp1 kp1 s1 s1' l1 cb sb ib1 r st syms it1 kvs1 n m
      Hkdf A1 B1 C1 Hr Hu P2 P3 D1 Hj1 Hnm Hfo R1).
    rewrite (C87_encap_prints E C D kdf json_parse max_off v2 co2 cp2 sp2 ip2 ctp2 kp2 s2 s2' l2 cb sb ib2 r st syms it2 kvs2 n m
      Hkdf A2 B2 C2 Hr Hu P2 P3 D2 Hj2 (Hn n Hnm) (Hm syms m Hfo) R2).
    reflexivity.
Qed.
Print Assumptions C87_encrypting_prints_no_values.

Section Recover.
  Context (E : pairingT Fr) (C : codecT E) (kdf : GT E -> key) (aes : cipherT) (max_off : N).

  Lemma recovering_lines r vals ct k cb : r1cs_from_bytes max_off cb = Ok r -> r_n_pub_out r + r_n_pub_in r < r_n_wires r ->
    decap kdf (circom_prog (circom_of_cli r (witness_of vals))) ct = Ok k ->
    core_decap_lines (circom_prog (circom_of_cli r (witness_of vals))) = decap_lines r.
  Proof using Type.
    intros Hr Hp Hk. destruct (r1cs_sound _ _ _ Hr) as [Hok _]. pose proof (ok_nw _ Hok) as Hnw.
    set (c := circom_of_cli r (witness_of vals)) in *.
    assert (Hnp : cc_n_public c = r_n_pub_out r + r_n_pub_in r).
    { cbn [c cc_n_public circom_of_cli]. apply N.mod_small. clear - Hp Hnw. lia. }
    assert (Hall : forall i, 1 <= i < cc_n_wires c -> cc_witness c i <> None).
    { intros i Hi Hnone. destruct (first_missing (cc_witness c) (i - 1)) as (m&Hm1&Hm2&Hm3).
      { replace (i - 1 + 1) with i by (clear - Hi; lia). exact Hnone. }
      destruct (circom_stops c m) as (Hwf&S1&_).
      { rewrite Hnp. clear - Hp Hnw. lia. }
      { unfold n_alloc. clear - Hm1 Hi. lia. } { exact Hm2. } { exact Hm3. }
      destruct (C04_decap_error_table Fr E kdf (circom_prog c) ct Hwf) as (Herr&_). rewrite (Herr _ S1) in Hk. congruence. }
    assert (Hc := completing_values c). rewrite Hnp in Hc. specialize (Hc Hp Hnw Hall).
    Local Transparent core_decap_lines. unfold core_decap_lines, decap_lines, with_number, line. rewrite Hc.
    unfold num. rewrite N2Nat.id. reflexivity.
  Qed.
End Recover.
Local Opaque core_decap_lines.

(** decap, when it succeeds, prints exactly this; nothing of the witness but how many elements its file
    declares, nothing of the key. *)
Theorem C87_decap_prints :
  forall (E : pairingT Fr) (C : codecT E) (kdf : GT E -> key) max_off cp wp ctp kp s s' l cb wb bs r wf,
    (forall g, List.length (kdf g) = 32%nat) ->
    s cp = Some cb -> s wp = Some wb -> s ctp = Some bs -> r1cs_from_bytes max_off cb = Ok r ->
    r_n_pub_out r + r_n_pub_in r < r_n_wires r -> wtns_from_bytes wb = Ok wf ->
    hear (decap_talk C kdf max_off cp wp ctp kp) s = (s', l, Ok tt) -> l = decap_listing r (wf_n wf) (blen bs).
Proof.
  intros E C kdf max_off cp wp ctp kp s s' l cb wb bs r wf Hkdf H1 H2 H3 Hr Hu Hwf Hhear.
  assert (Hrun := same_hear _ _ (same_decap E C kdf max_off cp wp ctp kp) s). rewrite Hhear in Hrun. cbn [fst snd rmap_err] in Hrun.
  apply run_exec' in Hrun. apply exec_decap in Hrun as [[_ Hx]|Hrun]; [congruence|].
  destruct Hrun as (cb'&wb'&bs'&k&E1&E2&E3&(r'&vals&ct&rest&R1&R2&R3&R4)&_).
  assert (cb' = cb) by congruence. assert (wb' = wb) by congruence. assert (bs' = bs) by congruence. subst cb' wb' bs'.
  assert (r' = r) by congruence. subst r'. clear E1 E2 E3 R1.
  unfold cli_read_witness in R2. rewrite Hwf in R2. cbn [rbind] in R2.
  assert (Lk : List.length k = 32%nat).
  { apply decap_key in R4 as [g ->]. apply Hkdf. }
  unfold decap_talk in Hhear. rewrite hear_say, (hear_load_r1cs max_off _ _ _ _ _ _ H1 Hr), hear_says,
    (hear_load_witness wp _ s wb wf vals H2 Hwf R2), hear_say, hear_read, H3 in Hhear. cbn [ttry_opt] in Hhear. rewrite R3 in Hhear.
  cbn [ttry_opt] in Hhear. rewrite hear_says, (hear_load_r1cs max_off _ _ _ _ _ _ H1 Hr) in Hhear.
  change (fun w => nth_error vals (N.to_nat w)) with (witness_of vals) in R4.
  rewrite (hear_run_decap E kdf (circom_of_cli r (witness_of vals)) ct _ s k R4) in Hhear.
  rewrite hear_say, hear_twrite, hear_say in Hhear. cbn [hear] in Hhear.
  rewrite (recovering_lines E kdf max_off r vals ct k cb Hr Hu R4) in Hhear.
  unfold key_bytes in Hhear. rewrite Lk, text_key_saved in Hhear.
  apply pair_equal_spec in Hhear as [Hhear _]. apply pair_equal_spec in Hhear as [_ <-].
  unfold decap_listing. rewrite <- header_eq. rewrite <- !app_assoc. reflexivity.
Qed.
Print Assumptions C87_decap_prints.

(** decrypt, when it succeeds, prints exactly this. *)
Theorem C87_decrypt_prints :
  forall (E : pairingT Fr) (C : codecT E) (kdf : GT E -> key) (aes : cipherT) max_off cp wp ctp op s s' l cb wb f r wf p,
    s cp = Some cb -> s wp = Some wb -> s ctp = Some f -> r1cs_from_bytes max_off cb = Ok r ->
    r_n_pub_out r + r_n_pub_in r < r_n_wires r -> wtns_from_bytes wb = Ok wf -> cli_split f = Ok p ->
    hear (decrypt_talk C kdf aes max_off cp wp ctp op) s = (s', l, Ok tt) ->
    l = decrypt_listing r (wf_n wf) (Byte.to_N (hd x00 f)) p.
Proof.
  intros E C kdf aes max_off cp wp ctp op s s' l cb wb f r wf p H1 H2 H3 Hr Hu Hwf Hsp Hhear.
  assert (Hrun := same_hear _ _ (same_decrypt E C kdf aes max_off cp wp ctp op) s). rewrite Hhear in Hrun. cbn [fst snd rmap_err] in Hrun.
  apply run_exec' in Hrun. apply exec_decrypt in Hrun as [[_ Hx]|Hrun]; [congruence|].
  destruct Hrun as (cb'&wb'&f'&m&E1&E2&E3&Hop&_).
  assert (cb' = cb) by congruence. assert (wb' = wb) by congruence. assert (f' = f) by congruence. subst cb' wb' f'.
  assert (Lm : N.of_nat (List.length m) = blen (p_message p) - 28).
  { assert (Ho := proj1 (opened_iff E C kdf aes max_off cb wb f m) Hop).
    destruct Ho as (p'&k'&nonce&c&Hp'&_&_&Hn&_&Hm&Hmask&_). assert (p' = p) by congruence. subst p'.
    rewrite Hm. unfold blen. rewrite !app_length, spec_tag_length, Hn, Hmask. clear. lia. }
  destruct Hop as (p'&k&Hp&(r'&vals&ct&rest&R1&R2&R3&R4)&Hd).
  assert (p' = p) by congruence. subst p'.
  assert (r' = r) by congruence. subst r'. clear E1 E2 E3 R1 Hp.
  unfold cli_read_witness in R2. rewrite Hwf in R2. cbn [rbind] in R2.
  assert (Hsl : split_lines f =
    [ with_number "   - Flag: " (Byte.to_N (hd x00 f)) ""; with_number "   - Witness ciphertext: " (blen (p_witness p)) " bytes" ] ++
    match p_public p with Some b => [out (u8 "   - Public input: " ++ from_utf8_lossy b)] | None => [] end ++
    [ with_number "   - Encrypted message: " (blen (p_message p)) " bytes" ]).
  { unfold split_lines. cbv zeta. rewrite Hsp.
    assert (Hl : be_val (firstn 4 (tl f)) = blen (p_witness p)).
    { destruct (split_fits f p Hsp) as ((Hw&_)&flag&_&->). unfold layout, block. cbn [tl].
      rewrite <- app_assoc, firstn_app, be_bytes_length. change (4 - 4)%nat with O. change (firstn 0 (p_witness p ++ match p_public p with Some q => be_bytes 4 (blen q) ++ q | None => [] end ++ p_message p)) with (@nil byte). rewrite app_nil_r.
      rewrite firstn_all2 by (rewrite be_bytes_length; apply le_n). apply be4_val. exact Hw. }
    rewrite Hl. unfold with_number. rewrite u8_nil, app_nil_r. reflexivity. }
  unfold decrypt_talk in Hhear. rewrite hear_say, hear_read, H3 in Hhear. cbn [ttry_opt] in Hhear.
  rewrite hear_says, Hsp in Hhear. cbn [ttry] in Hhear. rewrite hear_says, (hear_load_r1cs max_off _ _ _ _ _ _ H1 Hr), hear_says,
    (hear_load_witness wp _ s wb wf vals H2 Hwf R2) in Hhear. rewrite R3 in Hhear.
  cbn [ttry_opt] in Hhear. rewrite (hear_load_r1cs max_off _ _ _ _ _ _ H1 Hr) in Hhear.
  change (fun w => nth_error vals (N.to_nat w)) with (witness_of vals) in R4.
  rewrite (hear_run_decap E kdf (circom_of_cli r (witness_of vals)) ct _ s k R4) in Hhear.
  rewrite hear_says, Hd in Hhear. cbn [ttry] in Hhear. rewrite hear_twrite, hear_says in Hhear. cbn [hear] in Hhear.
  rewrite (recovering_lines E kdf max_off r vals ct k cb Hr Hu R4) in Hhear.
  rewrite (num_of _ _ Lm), Hsl in Hhear.
  apply pair_equal_spec in Hhear as [Hhear _]. apply pair_equal_spec in Hhear as [_ <-].
  unfold decrypt_listing. rewrite <- header_eq. rewrite <- !app_assoc. reflexivity.
Qed.
Print Assumptions C87_decrypt_prints.

(** Two witnesses that both open the file print the same (when their files declare as many elements): the
    screen does not tell which was used. *)
Theorem C87_decrypting_prints_no_witness :
  forall (E : pairingT Fr) (C : codecT E) (kdf : GT E -> key) (aes : cipherT) max_off cb f r wb1 wb2 wf1 wf2,
    r1cs_from_bytes max_off cb = Ok r -> r_n_pub_out r + r_n_pub_in r < r_n_wires r ->
    wtns_from_bytes wb1 = Ok wf1 -> wtns_from_bytes wb2 = Ok wf2 -> wf_n wf1 = wf_n wf2 ->
    forall cp1 cp2 wp1 wp2 ctp1 ctp2 op1 op2 s1 s2 s1' s2' l1 l2,
      s1 cp1 = Some cb -> s2 cp2 = Some cb -> s1 wp1 = Some wb1 -> s2 wp2 = Some wb2 -> s1 ctp1 = Some f -> s2 ctp2 = Some f ->
      ((forall g, List.length (kdf g) = 32%nat) ->
       hear (decap_talk C kdf max_off cp1 wp1 ctp1 op1) s1 = (s1', l1, Ok tt) ->
       hear (decap_talk C kdf max_off cp2 wp2 ctp2 op2) s2 = (s2', l2, Ok tt) -> l1 = l2) /\
      (hear (decrypt_talk C kdf aes max_off cp1 wp1 ctp1 op1) s1 = (s1', l1, Ok tt) ->
       hear (decrypt_talk C kdf aes max_off cp2 wp2 ctp2 op2) s2 = (s2', l2, Ok tt) -> l1 = l2).
Proof.
  intros E C kdf aes max_off cb f r wb1 wb2 wf1 wf2 Hr Hu Hw1 Hw2 Hw cp1 cp2 wp1 wp2 ctp1 ctp2 op1 op2 s1 s2 s1' s2' l1 l2 A1 A2 B1 B2 C1 C2.
  split.
  - intros Hkdf R1 R2.
    rewrite (C87_decap_prints E C kdf max_off cp1 wp1 ctp1 op1 s1 s1' l1 cb wb1 f r wf1 Hkdf A1 B1 C1 Hr Hu Hw1 R1).
    rewrite (C87_decap_prints E C kdf max_off cp2 wp2 ctp2 op2 s2 s2' l2 cb wb2 f r wf2 Hkdf A2 B2 C2 Hr Hu Hw2 R2).
    rewrite Hw. reflexivity.
  - intros R1 R2.
    assert (Hsp : exists p, cli_split f = Ok p).
    { assert (Hrun := same_hear _ _ (same_decrypt E C kdf aes max_off cp1 wp1 ctp1 op1) s1). rewrite R1 in Hrun. cbn [fst snd rmap_err] in Hrun.
      apply run_exec' in Hrun. apply exec_decrypt in Hrun as [[_ Hx]|Hrun]; [congruence|].
      destruct Hrun as (cb'&wb'&f'&m&E1&E2&E3&(p&k&Hp&_)&_). exists p. congruence. }
    destruct Hsp as [p Hp].
    rewrite (C87_decrypt_prints E C kdf aes max_off cp1 wp1 ctp1 op1 s1 s1' l1 cb wb1 f r wf1 p A1 B1 C1 Hr Hu Hw1 Hp R1).
    rewrite (C87_decrypt_prints E C kdf aes max_off cp2 wp2 ctp2 op2 s2 s2' l2 cb wb2 f r wf2 p A2 B2 C2 Hr Hu Hw2 Hp R2).
    rewrite Hw. reflexivity.
Qed.
Print Assumptions C87_decrypting_prints_no_witness.

(** The public input decrypt shows is not authenticated: any valid text can be put in its place; the
    decryption works as before, writes the same message, and shows that text. *)
Theorem C87_shown_public_input_can_be_forged :
  forall f p t, cli_split f = Ok p -> Forall scalar t -> blen (utf8_encode t) < 2 ^ 32 ->
    exists f', cli_split f' = Ok (Parts (p_witness p) (Some (utf8_encode t)) (p_message p)) /\
      forall (E : pairingT Fr) (C : codecT E) (kdf : GT E -> key) (aes : cipherT) max_off cp wp ctp op s s' l,
        ctp <> cp -> ctp <> wp -> s ctp = Some f ->
        hear (decrypt_talk C kdf aes max_off cp wp ctp op) s = (s', l, Ok tt) ->
        exists l' m,
          hear (decrypt_talk C kdf aes max_off cp wp ctp op) (fs_write ctp f' s) = (fs_write op m (fs_write ctp f' s), l', Ok tt) /\
          s' = fs_write op m s /\ In (out (u8 "   - Public input: " ++ t)) l'.
Proof.
  intros f p t Hsp Ht Hlt. destruct (split_fits f p Hsp) as ((Hw&_)&_).
  exists (x01 :: block (p_witness p) ++ block (utf8_encode t) ++ p_message p).
  set (f' := x01 :: _). assert (Hsp' : cli_split f' = Ok (Parts (p_witness p) (Some (utf8_encode t)) (p_message p))).
  { apply cli_split_full; assumption. }
  clearbody f'. split; [exact Hsp'|].
  intros E C kdf aes max_off cp wp ctp op s s' l Hc1 Hc2 H3 Hhear.
  assert (Hrun := same_hear _ _ (same_decrypt E C kdf aes max_off cp wp ctp op) s). rewrite Hhear in Hrun. cbn [fst snd rmap_err] in Hrun.
  pose proof Hrun as Hrun0. apply run_exec' in Hrun. apply exec_decrypt in Hrun as [[_ Hx]|Hrun]; [congruence|].
  destruct Hrun as (cb&wb&f0&m&E1&E2&E3&Hop&_). assert (f0 = f) by congruence. subst f0.
  assert (Hs' : s' = fs_write op m s).
  { rewrite (run_decrypt_command E C kdf aes max_off cp wp ctp op s cb wb f m E1 E2 H3 Hop) in Hrun0.
    apply pair_equal_spec in Hrun0 as [Hx _]. symmetry. exact Hx. }
  assert (Hop' : opened E C kdf aes max_off cb wb f' m).
  { destruct Hop as (p'&k&Hp&Hk&Hd). assert (p' = p) by congruence. subst p'.
    exists (Parts (p_witness p) (Some (utf8_encode t)) (p_message p)), k. split; [exact Hsp'|]. split; assumption. }
  set (s2 := fs_write ctp f' s).
  assert (F1 : s2 cp = Some cb) by (unfold s2; rewrite fs_write_other by (intros ->; contradiction); exact E1).
  assert (F2 : s2 wp = Some wb) by (unfold s2; rewrite fs_write_other by (intros ->; contradiction); exact E2).
  assert (F3 : s2 ctp = Some f') by apply fs_write_same.
  assert (Hrun2 := run_decrypt_command E C kdf aes max_off cp wp ctp op s2 cb wb f' m F1 F2 F3 Hop').
  rewrite (same_hear _ _ (same_decrypt E C kdf aes max_off cp wp ctp op) s2) in Hrun2.
  destruct (hear (decrypt_talk C kdf aes max_off cp wp ctp op) s2) as [[s3 l'] o] eqn:Eh. cbn [fst snd] in Hrun2.
  apply pair_equal_spec in Hrun2 as [-> Ho]. exists l', m. split; [|split; [exact Hs'|]].
  - f_equal. destruct o as [[]|e|]; [reflexivity|discriminate..].
  - unfold decrypt_talk in Eh. rewrite hear_say, hear_read, F3 in Eh. cbn [ttry_opt] in Eh. rewrite hear_says in Eh.
    set (tail := ttry (cli_split f') _ _) in Eh. destruct (hear tail s2) as [[s4 l4] o4].
    apply pair_equal_spec in Eh as [Eh _]. apply pair_equal_spec in Eh as [_ <-]. right. apply in_app_iff. left.
    unfold split_lines. rewrite Hsp'. cbn [p_public]. rewrite lossy_encode by exact Ht. right. right. left. reflexivity.
Qed.
Print Assumptions C87_shown_public_input_can_be_forged.

(** ** Failures *)
Section Failures.
  Context (E : pairingT Fr) (C : codecT E) (D : domainT Fr) (kdf : GT E -> key) (aes : cipherT)
          (json_parse : text -> option json) (max_off : N).
  Let P : failure -> Prop := fun f => reported (fst f) (snd f).
  Ltac said := solve [reflexivity | left; reflexivity | right; reflexivity | eexists; reflexivity].
  Lemma ends_load_r1cs p e k : P e -> (forall r, ends P (k r)) -> ends P (t_load_r1cs max_off p e k).
  Proof using Type. intros He Hk. constructor. intros x. apply ends_try_opt; [exact He|]. intros b. apply ends_try; [intros _; exact He|exact Hk]. Qed.
  Lemma ends_read_string p e k : P e -> (forall r, ends P (k r)) -> ends P (t_read_string p e k).
  Proof using Type. intros He Hk. constructor. intros x. apply ends_try_opt; [exact He|]. intros b. apply ends_try_opt; [exact He|exact Hk]. Qed.
  Lemma ends_load_witness p k : (forall l, ends P (k l)) -> ends P (t_load_witness p k).
  Proof using Type.
    intros Hk. do 2 constructor. intros x. apply ends_try_opt; [said|]. intros b. apply ends_try; [intros _; said|]. intros f. constructor.
    apply ends_try; [intros _; said|exact Hk].
  Qed.
  Lemma ends_prepare v cp sp ip before k : (forall t c, ends P (k t c)) -> ends P (t_prepare json_parse max_off v cp sp ip before k).
  Proof using Type.
    intros Hk. constructor. apply ends_load_r1cs; [said|]. intros r. apply ends_says. apply ends_read_string; [said|]. intros st.
    apply ends_try; [intros _; said|]. intros syms. cbv zeta. constructor. apply ends_read_string; [said|]. intros it.
    apply ends_try; [intros _; said|]. intros inputs. constructor. apply ends_says. apply ends_load_r1cs; [said|]. intros r'. apply Hk.
  Qed.
  Lemma ends_run_encap co c k : (forall x, ends P (k x)) -> ends P (t_run_encap D kdf co c k).
  Proof using Type.
    intros Hk. unfold t_run_encap. destruct (encap_out D kdf (circom_prog c) (c_alpha co) (c_beta co) (c_delta co) (c_r co) (c_x co)) as [l r].
    apply ends_says. apply ends_try; [intros e; said|exact Hk].
  Qed.
  Lemma ends_run_decap c ct k : (forall x, ends P (k x)) -> ends P (t_run_decap kdf c ct k).
  Proof using Type.
    intros Hk. unfold t_run_decap. destruct (decap_out kdf (circom_prog c) ct) as [l r]. apply ends_says. apply ends_try; [intros e; said|exact Hk].
  Qed.
  Lemma ends_dispatch v co q : ends P (dispatch_talk C D kdf aes json_parse max_off v co q).
  Proof using Type.
    destruct q; cbn [dispatch_talk].
    - apply ends_prepare. intros t c. apply ends_run_encap. intros [ct k]. cbv zeta. constructor. apply ends_twrite; [said|]. apply ends_says.
      apply ends_twrite; [said|]. constructor. apply ends_ok.
    - constructor. apply ends_load_r1cs; [said|]. intros r. apply ends_says. apply ends_load_witness. intros l. do 2 constructor.
      intros x. apply ends_try_opt; [said|]. intros bs. apply ends_try_opt; [said|]. intros [ct rest]. apply ends_says.
      apply ends_load_r1cs; [said|]. intros r'. apply ends_run_decap. intros k. constructor. apply ends_twrite; [said|]. constructor. apply ends_ok.
    - constructor. apply ends_prepare. intros t c. apply ends_run_encap. intros [ct k]. cbv zeta. apply ends_says. constructor. intros x.
      apply ends_try_opt; [said|]. intros m. constructor. apply ends_try; [intros _; said|]. intros e. apply ends_says.
      apply ends_twrite; [said|]. apply ends_says. apply ends_ok.
    - do 2 constructor. intros x. apply ends_try_opt; [said|]. intros f. apply ends_says. apply ends_try; [intros [| | |]; said|]. intros p.
      apply ends_says. apply ends_load_r1cs; [said|]. intros r. apply ends_says. apply ends_load_witness. intros l.
      apply ends_try_opt; [said|]. intros [ct rest]. apply ends_load_r1cs; [said|]. intros r'. apply ends_run_decap. intros k.
      apply ends_says. apply ends_try; [intros _; said|]. intros m. apply ends_twrite; [said|]. apply ends_says. apply ends_ok.
  Qed.
End Failures.

(** The failure a text belongs to. *)
Definition core_texts : list text :=
  map core_error_text [SynthesisError AssignmentMissing; SynthesisError (SOther 0); InvalidWitness; InvalidPublicInputs; SerializationError].
Definition table : list (text * cmd_error) :=
  [ (u8 "Failed to load R1CS circuit", ELoadR1cs); (u8 "Failed to read symbol file", EReadSym); (u8 "Failed to parse symbol file", EParseSym);
    (u8 "Failed to read input JSON file", EReadInput); (u8 "Failed to parse input JSON", EParseInput); (u8 "Failed to create circuit", ECreateCircuit);
    (u8 "Failed to write ciphertext file", EWriteCiphertext); (u8 "Failed to write key file", EWriteKey);
    (u8 "Failed to load witness file", ELoadWitness); (u8 "Failed to convert witness to field elements", EConvertWitness);
    (u8 "Failed to read ciphertext file", EReadCiphertext); (u8 "Failed to deserialize ciphertext", EDeserialize);
    (u8 "Failed to deserialize witness ciphertext", EDeserialize); (u8 "Failed to read message file", EReadMessage);
    (u8 "Message encryption failed", EEncryptMessage); (u8 "Failed to write combined ciphertext", EWriteCombined);
    (u8 "Invalid ciphertext: too short", EInvalidCiphertext CTooShort);
    (u8 "Invalid ciphertext: witness length mismatch", EInvalidCiphertext CWitnessMismatch);
    (u8 "Invalid ciphertext: missing public input length", EInvalidCiphertext CMissingPublic);
    (u8 "Invalid ciphertext: public input length mismatch", EInvalidCiphertext CPublicMismatch);
    (u8 "Message decryption failed", EDecryptMessage); (u8 "Failed to write decrypted file", EWriteOutput) ] ++
  map (fun t => (u8 "Encap failed: " ++ t, EEncap)) core_texts ++ map (fun t => (u8 "Decap failed: " ++ t, EDecap)) core_texts.
Definition cause (t : text) : option cmd_error := hm_get t table.
Lemma reported_cause e t : reported e t -> cause t = Some e.
Proof.
  destruct e as [| | | | | | | | | | | | | | | | |[| | |]| |]; cbn [reported];
    try (intros ->; vm_compute; reflexivity).
  - intros (c&->). destruct c as [[|n]| | |]; vm_compute; reflexivity.
  - intros [-> | ->]; vm_compute; reflexivity.
  - intros (c&->). destruct c as [[|n]| | |]; vm_compute; reflexivity.
Qed.

(** However a command fails, its message names the step that failed, and no two kinds of failure share a
    message. *)
Theorem C87_failures_are_told_apart :
  (forall (E : pairingT Fr) (C : codecT E) (D : domainT Fr) (kdf : GT E -> key) (aes : cipherT)
          json_parse max_off v co q s s' l e t,
     texec (dispatch_talk C D kdf aes json_parse max_off v co q) s s' l (Finished (Err (e, t))) -> reported e t) /\
  (forall e1 e2 t, reported e1 t -> reported e2 t -> e1 = e2).
Proof.
  split.
  - intros E C D kdf aes json_parse max_off v co q s s' l e t H.
    exact (ends_texec _ _ _ _ _ _ H (ends_dispatch E C D kdf aes json_parse max_off v co q) (e, t) eq_refl).
  - intros e1 e2 t H1 H2. apply reported_cause in H1, H2. congruence.
Qed.
Print Assumptions C87_failures_are_told_apart.

(** The screens of encrypt and decrypt for y * y = x with x = 9: the circuit of C41's example. *)
Example C87_nonvacuous :
  (let '(s1, l1, _) := hear (encrypt_talk ex_codec bn_domain ex_kdf32 Aes.aes256 ex_json (2 ^ 63 - 1) ex_visits ex_coins
       (lit "c") (lit "s") (lit "i") (lit "m") (lit "o") true) ex_fs in
   let '(_, l2, _) := hear (decrypt_talk ex_codec ex_kdf32 Aes.aes256 (2 ^ 63 - 1) (lit "c") (lit "w") (lit "o") (lit "p")) s1 in
   (shown l1, shown l2)) =
  (u8 "🔐 Step 1: Running Encap...
📂 Loading R1CS circuit...
   - Constraints: 1
   - Public inputs: 1
   - Wires: 3

📂 Loading symbol file...

📋 Loading public inputs from JSON...
   - Parsed 1 field elements
🔐 Starting Encap...
  ⚠ Circuit synthesis error (expected for encap without witness): AssignmentMissing
  ✓ Circuit setup: 0 constraints, 3 variables
  ✓ Extracted 1 public inputs
  ✓ Sampled random parameters (α, β, δ, r, x)
  ⏳ Evaluating QAP polynomials at x...
  ✓ Generated CRS with 3 query elements
  ⏳ Computing pairing for key derivation...
  ✓ Derived key from pairing
   ✅ Witness ciphertext generated (616 bytes)

� Step 2: Encrypting message...
   - Message size: 2 bytes
   ✅ Message encrypted (30 bytes)

� Step 3: Creating combined ciphertext...
   ✅ Combined ciphertext saved (657 bytes)

✨ Encryption complete! Public inputs are embedded in the ciphertext.
",
   u8 "� Step 1: Parsing combined ciphertext...
   - Flag: 1
   - Witness ciphertext: 616 bytes
   - Public input: {}
   - Encrypted message: 30 bytes

🔓 Step 2: Running Decap...
📂 Loading R1CS circuit...
   - Constraints: 1
   - Public inputs: 1

📋 Loading witness from snarkjs...
   - Witness elements: 3
🔓 Starting Decap...
  ✓ Circuit synthesized and satisfied
  ✓ Extracted full assignment: 3 values
  ⏳ Computing A from witness and CRS...
  ⏳ Computing B from witness and CRS...
  ⏳ Computing C from witness and CRS...
  ⏳ Computing pairing for key recovery...
  ✓ Successfully recovered key
   ✅ Key recovered from witness

🔓 Step 3: Decrypting message...
   ✅ Decrypted message saved (2 bytes)

✨ Decryption complete!
").
Proof. vm_compute. reflexivity. Qed.
