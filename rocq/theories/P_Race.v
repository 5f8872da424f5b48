(** C72, when the circuit file is replaced between the two reads of encrypt or encap: exactly who can
    open what was written.  The first circuit only says how many of the first wires take their values
    from the input document; the second is the circuit that has to be satisfied. *)
From Coq Require Import List Bool Arith NArith ZArith Lia Permutation.
From Coq Require Import Strings.String Strings.Byte.
From Verif Require Import Res Bytes Text Utf8 Fld Zp Groups Bn254 CS CSFacts Qap SpecCore Core CoreFacts CoreMore P_Core
  R1cs SpecR1cs R1csFacts R1csJs R1csJsFacts P_R1cs Wtns SpecWtns WtnsFacts P_Wtns Circuit SpecCircuit CircuitFacts P_Circuit
  ArkSer ArkSerFacts P_Ser Sym SpecSym SymFacts P_Sym Inputs SpecInputs InputsFacts P_Inputs
  Combined SpecCombined CombinedFacts P_Combined Gcm SpecGcm GcmFacts P_Gcm FileSys Commands SpecCommands CommandsFacts
  PartialEncap P_Commands JsIff SpecBound P_Bound P_BoundCli Interfere P_Interfere.
Import ListNotations.
Local Open Scope N_scope.

(** The second circuit has more wires than the first has public inputs (and than public wires). *)
Definition follows (r1 r2 : r1cs_file) : Prop :=
  r_n_pub_in r1 + 1 < r_n_wires r2 /\ r_n_pub_out r2 + r_n_pub_in r2 < r_n_wires r2 /\ r_n_pub_in r1 <= 2 ^ 24.
(** The wires that can be bound: those offered a value by the first circuit that are public in the second. *)
Definition bindable (r1 r2 : r1cs_file) : N := N.min (r_n_pub_in r1) (r_n_pub_out r2 + r_n_pub_in r2).

Section Any.
  Context (E : pairingT Fr) (C : codecT E) (D : domainT Fr) (kdf : GT E -> key).

  (** partial_encap (PartialEncap.v) for an assignment that may also reach private wires. *)
  Lemma any_encap c m alpha beta delta r x ct k :
    cc_n_public c < cc_n_wires c -> cc_n_wires c < 2 ^ 32 ->
    1 <= m -> m < cc_n_wires c -> m <= 2 ^ 24 + 1 ->
    cc_witness c m = None -> (forall i, 1 <= i < m -> cc_witness c i <> None) ->
    encap_with D kdf (circom_prog c) alpha beta delta r x = Ok (ct, k) ->
    lengths_ok ct /\ blen (ct_bytes C ct) < 2 ^ 32 /\
    forall c2 k2, cc_n_public c2 = cc_n_public c -> cc_n_wires c2 = cc_n_wires c ->
      factors_below (cc_n_wires c2) (cc_constraints c2) ->
      (decap kdf (circom_prog c2) ct = Ok k2 <->
       k2 = k /\ (forall i, 1 <= i < cc_n_wires c2 -> cc_witness c2 i <> None) /\
       satisfies (wires (cc_witness c2)) (cc_constraints c2) /\
       (forall i, 1 <= i < N.min m (cc_n_public c + 1) -> cc_witness c2 i = cc_witness c i)).
  Proof.
    intros Hu2 Hnw Hm1 Hmw Hm24 Hm2 Hm3 He.
    set (np := cc_n_public c) in *. set (nw := cc_n_wires c) in *. set (a := cc_witness c) in *.
    destruct (circom_stops c m) as (_&S1&S2&S3&S4&S5).
    { fold np. clear - Hu2 Hnw. lia. }
    { unfold n_alloc. fold nw np. clear - Hmw Hm1. lia. }
    { exact Hm2. }
    { exact Hm3. }
    fold a np in S3, S4. fold np in S5. set (b := N.min m (np + 1)) in *.
    assert (Hb1 : 1 <= b <= np + 1 /\ b <= m) by (clear - Hm1; subst b; lia).
    assert (Hpub : List.length (public_values (circom_prog c)) = N.to_nat (b - 1)).
    { rewrite S3, map_length, range_length. reflexivity. }
    assert (Hpriv : List.length (private_values (circom_prog c)) = N.to_nat (m - (np + 1))).
    { rewrite S4, map_length, range_length. reflexivity. }
    pose proof (num_variables_count Fr (circom_prog c)) as Hnv. rewrite S1, Hpub, Hpriv, S5 in Hnv.
    pose proof (C05_public_inputs_recorded Fr E D kdf _ _ _ _ _ _ _ _ He) as Hpi.
    pose proof (C15_encap_size E C D kdf _ _ _ _ _ _ _ _ He) as Hsz. rewrite Hpub in Hsz.
    pose proof (C12_published_queries Fr E D kdf _ _ _ _ _ _ _ _ He) as Hq.
    destruct (evaluate_qap D (fst (synth (circom_prog c) cs_new)) x) as [[u vv] ww]. cbv zeta in Hq.
    destruct Hq as (_&_&_&_&_&_&L1&L2&L3&L4&_).
    set (nv := num_variables (fst (synth (circom_prog c) cs_new))) in *.
    assert (Hnv' : (N.of_nat nv <= 2 ^ 24 + 2)).
    { rewrite Hnv. subst b. destruct (m <=? np); cbn [fst snd]; clear - Hm1 Hm24; lia. }
    assert (Hlen : lengths_ok ct).
    { unfold lengths_ok. rewrite L1, L2, L3, L4, Hpi, Hpub. cbn [List.length].
      clear - Hnv' Hb1 Hm24. change (2 ^ 24) with 16777216 in *. change (2 ^ 64) with 18446744073709551616.
      repeat split; lia. }
    split; [exact Hlen|]. split.
    { unfold blen. rewrite Hsz. clear - Hnv' Hb1 Hm24. change (2 ^ 24) with 16777216 in *. change (2 ^ 32) with 4294967296. lia. }
    intros c2 k2 Hnp2 Hnw2 Hv2. assert (Hpi' : public_inputs ct = map (wires a) (range 1 b)) by (rewrite Hpi; exact S3).
    assert (Hback : (forall i, 1 <= i < cc_n_wires c2 -> cc_witness c2 i <> None) -> satisfies (wires (cc_witness c2)) (cc_constraints c2) ->
      (forall i, 1 <= i < b -> cc_witness c2 i = a i) -> decap kdf (circom_prog c2) ct = Ok k).
    { intros Hall Hsat Hag.
      destruct (C24_synthesis_means_satisfaction c2) as (W1&W2&W3&W4&(b0&Hb0&Hiff)).
      { rewrite Hnp2, Hnw2. exact Hu2. } { rewrite Hnw2. clear - Hnw. lia. } { exact Hv2. } { exact Hall. }
      destruct (is_satisfied_synth _ _ W1 W2) as (b'&Hb'&Hsat').
      assert (b' = true) by (assert (b0 = true) by (apply Hiff; exact Hsat); congruence). subst b'.
      apply (C01_key_agreement_without_witness Fr E D kdf (circom_prog c) (circom_prog c2) _ _ _ _ _ _ _ S2 He).
      + split; [exact W1|]. split; [exact W2|]. apply Hsat'. reflexivity.
      + rewrite S3, W3, W4, Hnp2, Hnw2. fold np nw. rewrite <- map_app, <- range_split by (clear - Hu2; lia).
        exists (map (wires (cc_witness c2)) (range b nw)).
        rewrite (range_split 1 b nw) by (clear - Hb1 Hmw; lia). rewrite map_app. f_equal.
        apply map_ext_in. intros i Hi. apply range_in in Hi. unfold wires. rewrite (Hag i Hi). reflexivity.
    }
    split.
    - intros Hk. destruct (decap_satisfied E kdf c2 ct k2) as (Hall&Hsat&others&Hpre); try assumption; try (rewrite ?Hnp2, ?Hnw2; assumption).
      assert (Hag : forall i, 1 <= i < b -> cc_witness c2 i = a i).
      { intros i Hi. rewrite Hpi' in Hpre.
        assert (Hn := f_equal (fun l => nth_error l (N.to_nat (i - 1))) Hpre). cbn beta in Hn.
        rewrite nth_error_app1 in Hn by (rewrite map_length, range_length; clear - Hi; lia).
        rewrite !nth_error_map, !range_nth in Hn by (rewrite ?Hnw2; fold nw; clear - Hi Hmw Hb1; lia). cbn [option_map] in Hn.
        replace (1 + N.of_nat (N.to_nat (i - 1))) with i in Hn by (clear - Hi; lia).
        assert (Hw : forall x y : Fr, Some x = Some y -> x = y) by (intros; congruence). apply Hw in Hn. unfold wires in Hn.
        rewrite (proj2 (N.eqb_neq i 0)) in Hn by (clear - Hi; lia).
        specialize (Hall i ltac:(rewrite Hnw2; fold nw; clear - Hi Hmw Hb1; lia)). specialize (Hm3 i ltac:(clear - Hi Hb1; lia)).
        destruct (cc_witness c2 i); [|congruence]. destruct (a i); [|congruence]. congruence. }
      split; [|auto].
      assert (Hk' := Hback Hall Hsat Hag). congruence.
    - intros (->&Hall&Hsat&Hag). auto.
  Qed.
End Any.

Section Race.
  Context (E : pairingT Fr) (C : codecT E) (D : domainT Fr) (kdf : GT E -> key) (aes : cipherT)
          (json_parse : text -> option json) (max_off : N).

  (** The assignment made with the limit of the first circuit, given to the second. *)
  Lemma race_encap v co r1 cb2 r2 st syms it kvs inputs ct k :
    r1cs_from_bytes max_off cb2 = Ok r2 -> follows r1 r2 -> factors_below (r_n_wires r2) (r_constraints r2) ->
    parse_sym_file st = Ok syms -> json_parse it = Some (JObj kvs) -> parse_inputs_text json_parse it = Ok inputs ->
    run_encap E D kdf co (circom_of_cli r2 (fun w => nm_get w (cli_witness (get_input_signals (visit_syms v syms) (Some (r_n_pub_in r1)))
      (visit_inputs v inputs)))) = Ok (ct, k) ->
    lengths_ok ct /\ blen (ct_bytes C ct) < 2 ^ 32 /\
    exists chosen, choice syms kvs (r_n_pub_in r1) chosen /\
    forall wb vals rest k2, cli_read_witness wb = Ok vals ->
      (recovers C kdf max_off cb2 wb (ct_bytes C ct ++ rest) k2 <->
       k2 = k /\ opens_circuit r2 vals /\ has_chosen chosen (bindable r1 r2) vals).
  Proof.
    intros Hr (Hu1&Hu2&Hu3) Hfb Hsy Hj Hin He.
    assert (Hwf := parse_sym_file_wf _ _ Hsy). set (sig := get_input_signals _ _) in He. set (a := fun w => nm_get w _) in He.
    set (c := circom_of_cli r2 a) in He.
    destruct (r1cs_sound _ _ _ Hr) as [Hok _]. pose proof (ok_nw _ Hok) as Hnw.
    assert (Hnp : cc_n_public c = r_n_pub_out r2 + r_n_pub_in r2).
    { apply N.mod_small. clear - Hu2 Hnw. lia. }
    assert (Hlim : forall w x, a w = Some x -> 1 <= w -> w <= r_n_pub_in r1) by (intros w x Hx Hw; exact (visit_limit v syms _ Hwf inputs w x Hx Hw)).
    assert (Hmiss : a (r_n_pub_in r1 + 1) = None).
    { destruct (a (r_n_pub_in r1 + 1)) as [x|] eqn:Ex; [|reflexivity]. exfalso. apply Hlim in Ex; clear - Ex; lia. }
    destruct (first_missing a _ Hmiss) as (m&Hm1&Hm2&Hm3).
    assert (Hany := any_encap E C D kdf c m (c_alpha co) (c_beta co) (c_delta co) (c_r co) (c_x co) ct k).
    rewrite Hnp in Hany. change (cc_n_wires c) with (r_n_wires r2) in Hany. change (cc_witness c) with a in Hany.
    destruct (Hany Hu2 Hnw ltac:(clear - Hm1; lia) ltac:(clear - Hm1 Hu1; lia) ltac:(clear - Hm1 Hu3; lia) Hm2 Hm3 He) as (Hlen&Hsz&Hiff). clear Hany.
    split; [exact Hlen|]. split; [exact Hsz|]. exists a. split.
    { intros w Hw. exact (visit_offers json_parse v syms _ it kvs Hwf Hj inputs w (proj1 Hw) (proj2 Hw) Hin). }
    intros wb vals rest k2 Hvals.
    specialize (Hiff (circom_of_cli r2 (fun w => nth_error vals (N.to_nat w))) k2).
    specialize (Hiff ltac:(cbn [cc_n_public circom_of_cli]; apply N.mod_small; clear - Hu2 Hnw; lia) eq_refl Hfb).
    cbn [cc_n_wires cc_witness cc_constraints circom_of_cli] in Hiff.
    assert (Hrec : recovers C kdf max_off cb2 wb (ct_bytes C ct ++ rest) k2 <->
      decap kdf (circom_prog (circom_of_cli r2 (fun w => nth_error vals (N.to_nat w)))) ct = Ok k2).
    { unfold recovers. rewrite (C14_round_trip E C ct rest Hlen). split.
      - intros (r'&vals2&ct2&rest2&R1&R2&R3&R4). assert (r' = r2) by congruence. subst r'. assert (vals2 = vals) by congruence. subst vals2.
        assert (ct2 = ct) by congruence. subst ct2. exact R4.
      - intros R4. exists r2, vals, ct, rest. auto. }
    rewrite Hrec, Hiff.
    assert (Hag : (forall i, 1 <= i < N.min m (r_n_pub_out r2 + r_n_pub_in r2 + 1) -> nth_error vals (N.to_nat i) = a i) <->
      has_chosen a (bindable r1 r2) vals).
    { unfold has_chosen, bindable. split.
      - intros G w Hw Hall. apply G. destruct (N.lt_ge_cases w m) as [Hlt|Hge]; [clear - Hw Hlt; lia|]. exfalso.
        apply (Hall m ltac:(clear - Hge Hm1; lia)). exact Hm2.
      - intros G i Hi. apply G.
        + clear - Hi Hm1. lia.
        + intros j Hjj. apply Hm3. clear - Hi Hjj. lia. }
    rewrite Hag. unfold opens_circuit. split.
    - intros (K&A&S&G). split; [exact K|]. split; [|exact G]. split; [|split; [exact Hfb|exact S]].
      assert (Hx := A (r_n_wires r2 - 1) ltac:(clear - Hu1; lia)). apply nth_error_Some in Hx. clear - Hx Hu1. lia.
    - intros (K&(A&_&S)&G). split; [exact K|]. split; [|split; [exact S|exact G]].
      intros i Hi. apply nth_error_Some. clear - Hi A. lia.
  Qed.
End Race.

(** encrypt beside other processes wrote a complete file: it saw a first circuit, a symbol file, an
    input document, a second circuit and a message, and a witness opens the file with the second
    circuit exactly if it satisfies the second circuit and has the values chosen from the document on
    the public wires up to the number of public inputs of the FIRST circuit. *)
Theorem C72_encrypt_two_circuits :
  forall (E : pairingT Fr) (C : codecT E) (D : domainT Fr) (kdf : GT E -> key) (aes : cipherT)
         json_parse max_off v co cp sp ip mp op inc l o f,
    (forall g, List.length (kdf g) = 32%nat) -> List.length (c_nonce co) = 12%nat ->
    beside (encrypt_command C D kdf aes json_parse max_off v co cp sp ip mp op inc) l o ->
    In (Wrote op f true) l ->
    exists cb1 r1 sb ib cb2 r2 mb st syms it kvs,
      l = [Saw cp (Some cb1); Saw sp (Some sb); Saw ip (Some ib); Saw cp (Some cb2); Saw mp (Some mb); Wrote op f true] /\
      r1cs_from_bytes max_off cb1 = Ok r1 /\ r1cs_from_bytes max_off cb2 = Ok r2 /\
      utf8_decode sb = Some st /\ parse_sym_file st = Ok syms /\ utf8_decode ib = Some it /\ json_parse it = Some (JObj kvs) /\
      (follows r1 r2 -> factors_below (r_n_wires r2) (r_constraints r2) -> (inc = true -> blen ib < 2 ^ 32) ->
       exists chosen, choice syms kvs (r_n_pub_in r1) chosen /\
       forall wb vals m, cli_read_witness wb = Ok vals ->
         (opens C kdf aes max_off cb2 wb f m <->
          m = mb /\ opens_circuit r2 vals /\ has_chosen chosen (bindable r1 r2) vals)).
Proof.
  intros E C D kdf aes jp mx v co cp sp ip mp op inc l o f Hkdf Hnon H Hw. unfold encrypt_command, prepare in H.
  assert (Q : forall l' : list event, quiet l' o -> In (Wrote op f true) l' -> False) by (intros l' [X _] Y; exact (X _ _ _ Y)).
  apply beside_r1cs in H as [H|(cb1&r1&l1&->&Hr1&H)]; [destruct (Q _ H Hw)|]. destruct Hw as [Hw|Hw]; [discriminate|].
  apply beside_string in H as [H|(sb&st&l2&->&Hst&H)]; [destruct (Q _ H Hw)|]. destruct Hw as [Hw|Hw]; [discriminate|].
  apply beside_try in H as [H|(syms&Hsy&H)]; [destruct (Q _ H Hw)|]. cbv zeta in H.
  apply beside_string in H as [H|(ib&it&l3&->&Hit&H)]; [destruct (Q _ H Hw)|]. destruct Hw as [Hw|Hw]; [discriminate|].
  apply beside_try in H as [H|(inp&Hin&H)]; [destruct (Q _ H Hw)|].
  apply beside_r1cs in H as [H|(cb2&r2&l4&->&Hr2&H)]; [destruct (Q _ H Hw)|]. destruct Hw as [Hw|Hw]; [discriminate|].
  apply beside_try in H as [H|([ct k]&He&H)]; [destruct (Q _ H Hw)|].
  apply beside_read in H as [H|(mb&l5&->&H)]; [destruct (Q _ H Hw)|]. destruct Hw as [Hw|Hw]; [discriminate|].
  apply beside_try in H as [H|(enc&Hg&H)]; [destruct (Q _ H Hw)|].
  apply (write_last []) in H. cbn [app] in H.
  assert (Hkvs : exists kvs, jp it = Some (JObj kvs)).
  { clear - Hin. unfold parse_inputs_text in Hin. destruct (jp it) as [d|]; [|discriminate]. destruct d; try discriminate Hin. eauto. }
  destruct Hkvs as [kvs Hkvs].
  exists cb1, r1, sb, ib, cb2, r2, mb, st, syms, it, kvs.
  assert (Hf : f = cli_combine inc (ct_bytes C ct) (utf8_encode it) enc /\ l5 = [Wrote op f true]).
  { inversion H as [o' Ho X1 X2|n o' Ho X1 X2|o' Ho X1 X2]; subst; cbn [app] in *.
    - destruct Hw.
    - destruct Hw as [Hw|[]]. discriminate Hw.
    - destruct Hw as [Hw|[]]. split; congruence. }
  destruct Hf as [Hf ->]. split; [reflexivity|]. do 6 (split; [assumption|]).
  intros Hfol Hfb Hinc.
  destruct (race_encap E C D kdf jp mx v co r1 cb2 r2 st syms it kvs inp ct k Hr2 Hfol Hfb Hsy Hkvs Hin He) as (Hlen&Hsz&chosen&Hch&Hiff).
  exists chosen. split; [exact Hch|]. intros wb vals m Hvals.
  assert (Hutf : utf8_encode it = ib) by (apply utf8_decode_sound in Hit as [-> _]; reflexivity).
  destruct (C34_round_trip_across_tools inc (ct_bytes C ct) (utf8_encode it) enc Hsz) as (f'&Hf'&_&Hsp&_).
  { rewrite Hutf. exact Hinc. }
  assert (f' = f) by congruence. subst f'.
  assert (Hk : List.length k = 32%nat).
  { apply encap_key in He as [g ->]. apply Hkdf. }
  assert (Hm : decrypt_gcm aes k enc = Ok mb).
  { destruct (N.lt_ge_cases gcm_limit (blen mb)) as [Hbig|Hsm].
    - exfalso. destruct (C38_failures aes k (c_nonce co) mb) as (_&F1&F2&_).
      destruct (N.le_gt_cases (blen mb) (2 ^ 36)) as [Hx|Hx]; [rewrite F1 in Hg by assumption|rewrite F2 in Hg by assumption]; discriminate.
    - destruct (C38_round_trip aes k (c_nonce co) mb Hk Hnon Hsm) as (cc&_&R1&_&_&R2&_). rewrite Hg in R1. injection R1 as ->. exact R2. }
  specialize (Hiff wb vals []). rewrite app_nil_r in Hiff. split.
  - intros Hop. apply opened_iff in Hop as (p&k2&Hp2&Hrec&Hm2).
    assert (Hpp : p = parts_of inc (ct_bytes C ct) (utf8_encode it) enc) by congruence. rewrite Hpp in *.
    cbn [p_witness p_message parts_of] in *. apply (Hiff k2 Hvals) in Hrec as (->&R). split; [congruence|exact R].
  - intros (->&R). apply opened_iff. exists (parts_of inc (ct_bytes C ct) (utf8_encode it) enc), k. split; [congruence|].
    split; [|exact Hm]. cbn [p_witness parts_of]. apply (Hiff k Hvals). auto.
Qed.
Print Assumptions C72_encrypt_two_circuits.

(** encap likewise. *)
Theorem C72_encap_two_circuits :
  forall (E : pairingT Fr) (C : codecT E) (D : domainT Fr) (kdf : GT E -> key)
         json_parse max_off v co cp sp ip ctp kp l o k,
    beside (encap_command C D kdf json_parse max_off v co cp sp ip ctp kp) l o ->
    o = Finished (Ok tt) -> (exists before, l = before ++ [Wrote kp k true]) ->
    exists cb1 r1 sb ib cb2 r2 ct st syms it kvs,
      l = [Saw cp (Some cb1); Saw sp (Some sb); Saw ip (Some ib); Saw cp (Some cb2); Wrote ctp ct true; Wrote kp k true] /\
      r1cs_from_bytes max_off cb1 = Ok r1 /\ r1cs_from_bytes max_off cb2 = Ok r2 /\
      utf8_decode sb = Some st /\ parse_sym_file st = Ok syms /\ utf8_decode ib = Some it /\ json_parse it = Some (JObj kvs) /\
      (follows r1 r2 -> factors_below (r_n_wires r2) (r_constraints r2) ->
       exists chosen, choice syms kvs (r_n_pub_in r1) chosen /\
       forall wb vals k2, cli_read_witness wb = Ok vals ->
         (recovers C kdf max_off cb2 wb ct k2 <->
          k2 = k /\ opens_circuit r2 vals /\ has_chosen chosen (bindable r1 r2) vals)).
Proof.
  intros E C D kdf jp mx v co cp sp ip ctp kp l o k H Ho Hk. unfold encap_command, prepare in H.
  assert (Q : forall l' : list event, quiet l' o -> False) by (intros l' [_ X]; exact (X Ho)).
  apply beside_r1cs in H as [H|(cb1&r1&l1&->&Hr1&H)]; [destruct (Q _ H)|].
  apply beside_string in H as [H|(sb&st&l2&->&Hst&H)]; [destruct (Q _ H)|].
  apply beside_try in H as [H|(syms&Hsy&H)]; [destruct (Q _ H)|]. cbv zeta in H.
  apply beside_string in H as [H|(ib&it&l3&->&Hit&H)]; [destruct (Q _ H)|].
  apply beside_try in H as [H|(inp&Hin&H)]; [destruct (Q _ H)|].
  apply beside_r1cs in H as [H|(cb2&r2&l4&->&Hr2&H)]; [destruct (Q _ H)|].
  apply beside_try in H as [H|([ct k1]&He&H)]; [destruct (Q _ H)|]. unfold key_bytes in H.
  apply beside_write in H as [[_ [X|X]]|(l5&->&H)]; [congruence|congruence|].
  apply beside_write in H as [[_ [X|X]]|(l6&->&H)]; [congruence|congruence|].
  apply beside_ret in H as [-> _].
  assert (Hkvs : exists kvs, jp it = Some (JObj kvs)).
  { clear - Hin. unfold parse_inputs_text in Hin. destruct (jp it) as [d|]; [|discriminate]. destruct d; try discriminate Hin. eauto. }
  destruct Hkvs as [kvs Hkvs].
  assert (k1 = k).
  { destruct Hk as [before Hk]. change (before ++ [Wrote kp k true]) with (before ++ [Wrote kp k true]) in Hk.
    apply (f_equal (fun x => last x (Wrote kp k true))) in Hk. rewrite last_last in Hk. cbn [last] in Hk. congruence. }
  subst k1.
  exists cb1, r1, sb, ib, cb2, r2, (ct_bytes C ct), st, syms, it, kvs.
  split; [reflexivity|]. do 6 (split; [assumption|]). intros Hfol Hfb.
  destruct (race_encap E C D kdf jp mx v co r1 cb2 r2 st syms it kvs inp ct k Hr2 Hfol Hfb Hsy Hkvs Hin He) as (_&_&chosen&Hch&Hiff).
  exists chosen. split; [exact Hch|]. intros wb vals k2 Hvals. specialize (Hiff wb vals [] k2 Hvals). rewrite app_nil_r in Hiff. exact Hiff.
Qed.
Print Assumptions C72_encap_two_circuits.

(** Who swaps in, for the first read, a circuit without public inputs makes encrypt bind nothing:
    every witness of the circuit opens the file, whatever the document says. *)
Theorem C72_swap_unbinds :
  forall (E : pairingT Fr) (C : codecT E) (D : domainT Fr) (kdf : GT E -> key) (aes : cipherT)
         json_parse max_off v co cp sp ip mp op inc f cb1 r1 sb ib cb2 r2 mb o,
    (forall g, List.length (kdf g) = 32%nat) -> List.length (c_nonce co) = 12%nat ->
    beside (encrypt_command C D kdf aes json_parse max_off v co cp sp ip mp op inc)
      [Saw cp (Some cb1); Saw sp (Some sb); Saw ip (Some ib); Saw cp (Some cb2); Saw mp (Some mb); Wrote op f true] o ->
    r1cs_from_bytes max_off cb1 = Ok r1 -> r_n_pub_in r1 = 0 ->
    r1cs_from_bytes max_off cb2 = Ok r2 -> usable r2 -> factors_below (r_n_wires r2) (r_constraints r2) ->
    (inc = true -> blen ib < 2 ^ 32) ->
    forall wb vals, cli_read_witness wb = Ok vals -> opens_circuit r2 vals -> opens C kdf aes max_off cb2 wb f mb.
Proof.
  intros E C D kdf aes jp mx v co cp sp ip mp op inc f cb1 r1 sb ib cb2 r2 mb o Hkdf Hnon H Hr1 H0 Hr2 (U1&U2&U3) Hfb Hinc wb vals Hv Ho.
  destruct (C72_encrypt_two_circuits E C D kdf aes jp mx v co cp sp ip mp op inc _ o f Hkdf Hnon H) as
    (cb1'&r1'&sb'&ib'&cb2'&r2'&mb'&st&syms&it&kvs&Hl&R1&R2&_&_&_&_&Hopen).
  { do 5 right. left. reflexivity. }
  assert (cb1' = cb1) by congruence. assert (ib' = ib) by congruence. assert (cb2' = cb2) by congruence. assert (mb' = mb) by congruence. subst.
  assert (r1' = r1) by congruence. assert (r2' = r2) by congruence. subst.
  destruct Hopen as (chosen&_&Hiff); [unfold follows; rewrite H0; clear - U1 U2; repeat split; lia|exact Hfb|exact Hinc|].
  apply (Hiff wb vals mb Hv). split; [reflexivity|]. split; [exact Ho|].
  intros w Hw. exfalso. unfold bindable in Hw. rewrite H0 in Hw. clear - Hw. lia.
Qed.
Print Assumptions C72_swap_unbinds.

(** The document says x = 9; the first read saw a circuit file with no public inputs, the second the
    circuit y * y = x.  The file is opened by y = 4, x = 16 (a file from an undisturbed run is not:
    C58_nonvacuous). *)
Definition ex_zero : r1cs_file :=
  R1csFile 32 ex_prime32 3 0 0 2 3 1 [Constraint [(2, one32)] [(2, one32)] [(1, one32)]] [0; 1; 2].
Definition ex_zero_file : list byte := r1cs_bytes [(1, header_payload ex_zero); (2, constraints_payload ex_zero)].
Lemma ex_zero_reads : r1cs_from_bytes (2 ^ 63 - 1) ex_zero_file = Ok ex_zero.
Proof. vm_compute. reflexivity. Qed.
Example C72_swap_nonvacuous : forall (aes : cipherT), exists f,
  beside (encrypt_command ex_codec bn_domain ex_kdf32 aes ex_json (2 ^ 63 - 1) ex_visits ex_coins
            (lit "c") (lit "s") (lit "i") (lit "m") (lit "o") true)
    [Saw (lit "c") (Some ex_zero_file); Saw (lit "s") (Some ex_sym_file); Saw (lit "i") (Some ex_input_file);
     Saw (lit "c") (Some ex_circuit_file); Saw (lit "m") (Some [x68; x69]); Wrote (lit "o") f true] (Finished (Ok tt)) /\
  opens ex_codec ex_kdf32 aes (2 ^ 63 - 1) ex_circuit_file (values_file [fr 1; fr 16; fr 4]) f [x68; x69].
Proof.
  intros aes.
  assert (Hkdf : forall g, List.length (ex_kdf32 g) = 32%nat) by (intros g; apply le_bytes_length).
  assert (Hin : exists l, parse_inputs_text ex_json (lit "{}") = Ok l) by (eexists; reflexivity).
  destruct Hin as [inputs Hin].
  assert (Hsym : exists syms, parse_sym_file (lit "1,1,1,main.x" ++ [10] ++ lit "2,2,1,main.y") = Ok syms)
    by (eexists; vm_compute; reflexivity).
  destruct Hsym as (syms&Hsym).
  assert (Hs : utf8_decode ex_sym_file = Some (lit "1,1,1,main.x" ++ [10] ++ lit "2,2,1,main.y")) by (vm_compute; reflexivity).
  assert (Hi : utf8_decode ex_input_file = Some (lit "{}")) by (vm_compute; reflexivity).
  set (c := circom_of_cli ex_circuit (fun w => nm_get w (cli_witness (get_input_signals (visit_syms ex_visits syms) (Some 0)) (visit_inputs ex_visits inputs)))).
  assert (He : exists ct k, run_encap fr_pairing bn_domain ex_kdf32 ex_coins c = Ok (ct, k) /\ List.length k = 32%nat).
  { do 2 eexists. split; [unfold run_encap; apply encap_with_ok|apply Hkdf].
    intros Hd. apply (proj2 (feqb_true Fr _ _)) in Hd. vm_compute in Hd. discriminate. }
  destruct He as (ct&k&He&Hk).
  destruct (C38_round_trip aes k (c_nonce ex_coins) [x68; x69] Hk eq_refl) as (m&_&Hm&_); [vm_compute; discriminate|].
  exists (cli_combine true (ct_bytes ex_codec ct) (utf8_encode (lit "{}")) (c_nonce ex_coins ++ m ++ spec_tag aes k (c_nonce ex_coins) m)).
  match goal with |- ?A /\ _ => assert (HA : A) end.
  { unfold encrypt_command, prepare, load_r1cs, read_string.
    apply bs_read. cbn [try_opt]. rewrite ex_zero_reads. cbn [try_].
    apply bs_read. cbn [try_opt]. rewrite Hs. cbn [try_opt]. rewrite Hsym. cbn [try_].
    apply bs_read. cbn [try_opt]. rewrite Hi. cbn [try_opt]. rewrite Hin. cbn [try_].
    apply bs_read. cbn [try_opt]. rewrite ex_circuit_reads. cbn [try_]. change (r_n_pub_in ex_zero) with 0. fold c. rewrite He. cbn [try_].
    apply bs_read. cbn [try_opt]. rewrite Hm. cbn [try_]. unfold write_. apply bs_write. apply bs_ret. }
  split; [exact HA|].
  eapply (C72_swap_unbinds fr_pairing ex_codec bn_domain ex_kdf32 aes ex_json (2 ^ 63 - 1) ex_visits ex_coins
    (lit "c") (lit "s") (lit "i") (lit "m") (lit "o") true);
    [exact Hkdf|reflexivity|exact HA|exact ex_zero_reads|reflexivity|exact ex_circuit_reads| |repeat constructor| | |].
  - repeat split; vm_compute; auto; discriminate.
  - intros _. vm_compute. reflexivity.
  - apply values_read; [discriminate|]. vm_compute. discriminate.
  - split; [vm_compute; discriminate|]. split; [repeat constructor|].
    constructor; [|constructor]. apply (proj1 (feqb_true Fr _ _)). vm_compute. reflexivity.
Qed.
