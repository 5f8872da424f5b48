(** Property theorems C78: encrypted by one tool, decrypted by the other, with any witness or any
    inputs.  Vocabulary: SpecBound.v, SpecJsReports.v, SpecEndToEnd.v, SpecCrossTool.v. *)
From Coq Require Import List Bool Arith NArith ZArith Lia Permutation.
From Coq Require Import Strings.String Strings.Byte.
From Verif Require Import Res Bytes Text Utf8 Fld Zp Groups Bn254 CS CSFacts Qap SpecCore Core CoreFacts CoreMore P_Core
  R1cs SpecR1cs R1csFacts R1csJs R1csJsFacts P_R1cs Wtns SpecWtns WtnsFacts P_Wtns Circuit SpecCircuit CircuitFacts P_Circuit
  ArkSer ArkSerFacts P_Ser Sym SpecSym SymFacts P_Sym Inputs SpecInputs InputsFacts P_Inputs
  Combined SpecCombined CombinedFacts P_Combined Gcm SpecGcm GcmFacts P_Gcm FileSys Commands SpecCommands CommandsFacts
  PartialEncap P_Commands JsZkenc JsZkencFacts P_JsZkenc SpecJs C44Facts P_JsApi JsIff SpecBound P_Bound P_BoundCli
  SpecNumerals P_Numerals WitnessCalc SpecWitnessCalc WitnessCalcFacts P_WitnessCalc JsFull SpecEndToEnd EndToEndFacts P_EndToEnd
  SpecJsReports P_JsReports P_EndToEndExact SpecCrossTool.
Import ListNotations.
Local Open Scope N_scope.

Lemma js_encap_binds (E : pairingT Fr) (C : codecT E) (D : domainT Fr) (kdf : GT E -> key) W fuel co cb sym inputs ctb k r :
  circuit_file cb r -> js_usable r -> factors_below (r_n_wires r) (r_constraints r) -> fits_encrypt W fuel cb sym ->
  js_encap E C D kdf W fuel co cb sym inputs = Ok (ctb, k) ->
  exists ct, ctb = ct_bytes C ct /\ lengths_ok ct /\ blen ctb < 2 ^ 32 /\
    forall vals k2, decap kdf (circom_prog (circom_of_cli r (fun w => nth_error vals (N.to_nat w)))) ct = Ok k2 <->
      k2 = k /\ opens_circuit r vals /\
      forall w z, binds sym inputs (r_n_pub_out r + r_n_pub_in r) w z -> nth_error vals (N.to_nat w) = Some (fr (z mod 2 ^ 256)).
Proof.
  intros Hcf Hu Hfb (W1&W2&W3&W4&W5) He.
  destruct (js_encap_iff E C D kdf W fuel co sym inputs cb ctb k r Hcf Hu W1 W2 W3 W4 W5 Hfb He) as (ct&m&zs&->&Hl&Hs&Hm&Hz&Hiff).
  exists ct. split; [reflexivity|]. split; [exact Hl|]. split; [exact Hs|]. intros vals k2. rewrite Hiff.
  assert (Hsrc := leaves_texts sym inputs m Hm).
  assert (Hb : (forall i z, nth_error zs i = Some z -> N.of_nat i < r_n_pub_out r + r_n_pub_in r -> nth_error vals (S i) = Some (fr (z mod 2 ^ 256))) <->
    (forall w z, binds sym inputs (r_n_pub_out r + r_n_pub_in r) w z -> nth_error vals (N.to_nat w) = Some (fr (z mod 2 ^ 256)))).
  { destruct Hz as [Hz1 Hz2]. split.
    - intros GG w z Hb. apply binds_bound in Hb. destruct Hb as (Hw&Hall&t&Ht&Hzt). apply Hsrc in Ht.
      assert (Hlt : (N.to_nat (w - 1) < List.length zs)%nat).
      { destruct (le_lt_dec (List.length zs) (N.to_nat (w - 1))) as [Hge|Hlt]; [|exact Hlt]. exfalso.
        destruct (Hall (1 + N.of_nat (List.length zs)) ltac:(clear - Hge Hw; lia)) as (t'&Ht'). apply Hsrc in Ht'. congruence. }
      destruct (nth_error zs (N.to_nat (w - 1))) as [z'|] eqn:Ez; [|apply nth_error_None in Ez; clear - Ez Hlt; lia].
      destruct (Hz1 _ _ Ez) as (t'&Ht'&Hz'). replace (1 + N.of_nat (N.to_nat (w - 1))) with w in Ht' by (clear - Hw; lia).
      assert (t' = t) by congruence. subst t'. assert (z' = z) by congruence. subst z'.
      replace (N.to_nat w) with (S (N.to_nat (w - 1))) by (clear - Hw; lia). apply GG; [exact Ez|clear - Hw; lia].
    - intros GG i z Hi Hn. replace (S i) with (N.to_nat (1 + N.of_nat i)) by (clear; lia). apply GG. apply binds_bound.
      assert (Hil : (i < List.length zs)%nat) by (apply nth_error_Some; congruence).
      split; [clear - Hn; lia|]. split.
      + intros j Hj. destruct (nth_error zs (N.to_nat (j - 1))) as [z'|] eqn:Ez; [|apply nth_error_None in Ez; clear - Ez Hil Hj; lia].
        destruct (Hz1 _ _ Ez) as (t'&Ht'&_). replace (1 + N.of_nat (N.to_nat (j - 1))) with j in Ht' by (clear - Hj; lia).
        exists t'. apply Hsrc. exact Ht'.
      + destruct (Hz1 _ _ Hi) as (t&Ht&Hzt). exists t. split; [apply Hsrc; exact Ht|exact Hzt]. }
  rewrite Hb. tauto.
Qed.

(** JavaScript encrypt, the command line's decrypt: it succeeds exactly for a satisfying witness that has
    the bound values, and then writes the message and nothing else. *)
Theorem C78_js_encrypt_cli_decrypt_iff :
  forall (E : pairingT Fr) (C : codecT E) (D : domainT Fr) (kdf : GT E -> key) (aes : cipherT) stringify W fuel
         co cb sym inputs message inc f k r max_off s cp wp ctp op wb vals,
    (forall g, List.length (kdf g) = 32%nat) -> List.length (c_nonce co) = 12%nat ->
    (inc = true -> blen (stringify inputs) < 2 ^ 32) ->
    circuit_file cb r -> js_usable r -> factors_below (r_n_wires r) (r_constraints r) -> fits_encrypt W fuel cb sym ->
    js_encrypt E C D kdf aes stringify W fuel co cb sym inputs message inc = Ok (f, k) ->
    max_off < 2 ^ 63 -> blen cb <= max_off ->
    s cp = Some cb -> s wp = Some wb -> s ctp = Some f -> cli_read_witness wb = Ok vals ->
    ((exists s', run (decrypt_command C kdf aes max_off cp wp ctp op) s = (s', Ok tt)) <->
     opens_circuit r vals /\
     forall w z, binds sym inputs (r_n_pub_out r + r_n_pub_in r) w z -> nth_error vals (N.to_nat w) = Some (fr (z mod 2 ^ 256))) /\
    (forall s', run (decrypt_command C kdf aes max_off cp wp ctp op) s = (s', Ok tt) -> s' = fs_write op message s).
Proof.
  intros E C D kdf aes stringify W fuel co cb sym inputs message inc f k r max_off s cp wp ctp op wb vals
    Hkdf Hn Hq Hcf Hu Hfb HW He M1 M2 Hs1 Hs2 Hs3 Hv.
  apply js_encrypt_inv in He as (ctb&enc&He&Hc&Hd&_); [|assumption..].
  destruct (js_encap_binds E C D kdf W fuel co cb sym inputs ctb k r Hcf Hu Hfb HW He) as (ct&->&Hl&Hs&Hiff).
  destruct (C34_round_trip_across_tools inc (ct_bytes C ct) (stringify inputs) enc Hs Hq) as (f'&_&Hf&Hsp&_).
  assert (Hff : f' = f) by congruence. rewrite Hff in Hsp.
  assert (Hr : r1cs_from_bytes max_off cb = Ok r).
  { destruct Hcf as (secs&->&Hok&Hca&Hls&Ht). apply C16_reads_back_every_file; assumption. }
  assert (Hde : ct_deserialize C (ct_bytes C ct) = Some (ct, [])).
  { rewrite <- (app_nil_r (ct_bytes C ct)) at 1. apply C14_round_trip. exact Hl. }
  assert (Hrec : forall k2, recovers C kdf max_off cb wb (ct_bytes C ct) k2 <->
    decap kdf (circom_prog (circom_of_cli r (fun w => nth_error vals (N.to_nat w)))) ct = Ok k2).
  { intros k2. unfold recovers. split.
    - intros (r2&vals2&ct2&rest2&R1&R2&R3&R4). assert (r2 = r) by congruence. assert (vals2 = vals) by congruence.
      assert (ct2 = ct) by congruence. subst r2 vals2 ct2. exact R4.
    - intros R4. exists r, vals, ct, []. auto. }
  assert (Hok : forall s', run (decrypt_command C kdf aes max_off cp wp ctp op) s = (s', Ok tt) ->
    s' = fs_write op message s /\ recovers C kdf max_off cb wb (ct_bytes C ct) k).
  { intros s' H. apply run_exec' in H. apply exec_decrypt in H as [[_ Ho]|(cb2&wb2&f2&m2&G1&G2&G3&Hop&H)]; [congruence|].
    destruct H as [[_ [Ho|Ho]]|[-> _]]; [congruence..|].
    assert (cb2 = cb) by congruence. assert (wb2 = wb) by congruence. assert (f2 = f) by congruence. subst cb2 wb2 f2.
    destruct Hop as (p&k2&Hp2&Hr2&Hm2). assert (Hpp : p = parts_of inc (ct_bytes C ct) (stringify inputs) enc) by congruence. rewrite Hpp in *.
    cbn [p_witness p_message parts_of] in *. assert (k2 = k) by (apply Hrec, Hiff in Hr2; apply Hr2). subst k2. split; [congruence|exact Hr2]. }
  split.
  - split.
    + intros (s'&H). destruct (Hok s' H) as [_ Hr2]. apply Hrec, Hiff in Hr2. apply Hr2.
    + intros H. exists (fs_write op message s). apply run_decrypt_command with (cb := cb) (wb := wb) (f := f); auto.
      exists (parts_of inc (ct_bytes C ct) (stringify inputs) enc), k. split; [exact Hsp|]. split; [|exact Hd].
      cbn [p_witness parts_of]. apply Hrec, Hiff. auto.
  - intros s' H. apply (Hok s' H).
Qed.
Print Assumptions C78_js_encrypt_cli_decrypt_iff.

(** The command line's encrypt, JavaScript decrypt. *)
Definition opened_in_js {E : pairingT Fr} (C : codecT E) (kdf : GT E -> key) (aes : cipherT) W fuel
  (cb : list byte) (r : r1cs_file) (f : list byte) (mb : list byte) (right : list Fr -> Prop) : Prop :=
  forall wb vals a message', witness_file wb vals -> fits_decrypt W fuel cb wb -> jb_valid a -> jb_window a = f ->
    (js_decrypt E C kdf aes W fuel cb wb a = Ok message' <->
     message' = mb /\ N.of_nat (List.length vals) = r_n_wires r /\ opens_circuit r vals /\ right vals).

Lemma cli_opened_in_js (E : pairingT Fr) (C : codecT E) (D : domainT Fr) (kdf : GT E -> key) (aes : cipherT) W fuel
         json_parse max_off v co cp sp ip mp op inc s s' cb sb ib mb f r st syms it (gives : N -> Fr -> Prop) :
    (forall g, List.length (kdf g) = 32%nat) -> List.length (c_nonce co) = 12%nat ->
    s cp = Some cb -> s sp = Some sb -> s ip = Some ib -> s mp = Some mb ->
    circuit_file cb r -> usable r -> factors_below (r_n_wires r) (r_constraints r) ->
    max_off < 2 ^ 63 -> blen cb <= max_off -> (inc = true -> blen ib < 2 ^ 32) ->
    utf8_decode sb = Some st -> parse_sym_file st = Ok syms -> utf8_decode ib = Some it ->
    (forall inputs w x, 1 <= w -> parse_inputs_text json_parse it = Ok inputs ->
       (nm_get w (cli_witness (get_input_signals (visit_syms v syms) (Some (r_n_pub_in r))) (visit_inputs v inputs)) = Some x <->
        w <= r_n_pub_in r /\ gives w x)) ->
    run (encrypt_command C D kdf aes json_parse max_off v co cp sp ip mp op inc) s = (s', Ok tt) -> s' op = Some f ->
    opened_in_js C kdf aes W fuel cb r f mb
      (fun vals => forall w a, given_bound gives (r_n_pub_in r) w a -> nth_error vals (N.to_nat w) = Some a).
Proof.
  intros Hkdf Hn H1 H2 H3 H4 Hcf Hu Hfb M1 M2 Hib Hst Hsy Hit Hgiv Hrun Hf wb vals a message' Hwf HV Hva Hwa.
  assert (Hr : r1cs_from_bytes max_off cb = Ok r).
  { destruct Hcf as (secs&->&Hok&Hca&Hls&Ht). apply C16_reads_back_every_file; assumption. }
  apply run_exec' in Hrun. apply exec_encrypt in Hrun as [[_ Hx]|Hrun]; [congruence|].
  destruct Hrun as (cb'&sb'&ib'&mb'&t&c&ct&k&enc&E1&E2&E3&E4&Hp&He&Hg&Hcase). cbv zeta in Hcase.
  assert (cb' = cb) by congruence. assert (sb' = sb) by congruence. assert (ib' = ib) by congruence.
  assert (mb' = mb) by congruence. subst cb' sb' ib' mb'. clear E1 E2 E3 E4.
  destruct Hcase as [[_ [Hx|Hx]]|[-> _]]; [congruence|congruence|].
  rewrite fs_write_same in Hf.
  destruct (encap_facts E C D kdf json_parse max_off v co cb sb ib t c ct k r Hp Hr Hu He) as (Hl&Hs&_&_).
  assert (Hutf : utf8_encode t = ib /\ t = it).
  { destruct Hp as (r0&st0&syms0&ins&_&_&_&Ht&_). split; [apply utf8_decode_sound in Ht as [-> _]; reflexivity|congruence]. }
  destruct Hutf as [Hutf ->].
  destruct (C34_round_trip_across_tools inc (ct_bytes C ct) (utf8_encode it) enc Hs) as (f'&Hf'&_&_&Hsp).
  { rewrite Hutf. exact Hib. }
  assert (Hff : f' = f) by congruence. rewrite Hff in Hsp.
  assert (Hk : List.length k = 32%nat) by (apply encap_key in He as [g ->]; apply Hkdf).
  assert (Hm : aesGcmDecrypt aes k enc = Ok mb).
  { destruct (N.lt_ge_cases gcm_limit (blen mb)) as [Hbig|Hsm].
    - exfalso. destruct (C38_failures aes k (c_nonce co) mb) as (_&F1&F2&_).
      destruct (N.le_gt_cases (blen mb) (2 ^ 36)) as [Hx|Hx]; [rewrite F1 in Hg by assumption|rewrite F2 in Hg by assumption]; discriminate.
    - destruct (C38_round_trip aes k (c_nonce co) mb Hk Hn Hsm) as (cc&_&R1&_&_&_&R2). rewrite Hg in R1. injection R1 as ->. exact R2. }
  assert (Hde : ct_deserialize C (ct_bytes C ct) = Some (ct, [])).
  { rewrite <- (app_nil_r (ct_bytes C ct)) at 1. apply C14_round_trip. exact Hl. }
  assert (HI : forall k2, js_decap E C kdf W fuel cb wb (ct_bytes C ct) = Ok k2 <->
    k2 = k /\ N.of_nat (List.length vals) = r_n_wires r /\ opens_circuit r vals /\
    forall w a, given_bound gives (r_n_pub_in r) w a -> nth_error vals (N.to_nat w) = Some a).
  { intros k2. unfold js_decap. rewrite (wasm_decap_iff E C kdf W fuel cb wb (ct_bytes C ct) r vals ct [] k2 Hcf Hwf HV Hde).
    destruct (N.eq_dec (N.of_nat (List.length vals)) (r_n_wires r)) as [Hlen|Hlen]; [|split; [intros [H _]|intros (_&H&_)]; contradiction].
    destruct (files_read max_off cb wb r vals) as [_ R2]; try assumption.
    { intros ->. destruct Hu as (Hu&_). cbn [List.length] in Hlen. clear - Hlen Hu. lia. }
    { destruct HV as (V1&V2&V3&V4). clear - V2 V3. change (2 ^ 64) with (2 * 2 ^ 63) in V3. lia. }
    assert (Hiff := encap_iff_given E C D kdf json_parse max_off v co cb sb ib st syms it c ct k r gives Hp Hr Hu Hfb Hst Hsy Hgiv He wb vals [] k2 R2).
    rewrite app_nil_r in Hiff.
    assert (Hrec : recovers C kdf max_off cb wb (ct_bytes C ct) k2 <->
      decap kdf (circom_prog (circom_of_cli r (fun w => nth_error vals (N.to_nat w)))) ct = Ok k2).
    { unfold recovers. split.
      - intros (r2&vals2&ct2&rest2&Q1&Q2&Q3&Q4). assert (r2 = r) by congruence. assert (vals2 = vals) by congruence.
        assert (ct2 = ct) by congruence. subst r2 vals2 ct2. exact Q4.
      - intros Q4. exists r, vals, ct, []. auto. }
    rewrite <- Hrec, Hiff. tauto. }
  unfold js_decrypt. rewrite (Hsp a Hva Hwa). cbn [rmap_err rbind fst snd].
  destruct (js_decap E C kdf W fuel cb wb (ct_bytes C ct)) as [k'|e|] eqn:Ek; cbn [rbind].
  - destruct (proj1 (HI k') eq_refl) as (->&H). rewrite Hm. cbn [rmap_err]. split; [intros [= <-]; auto|intros [-> _]; reflexivity].
  - split; [discriminate|]. intros (_&H). assert (Hx := proj2 (HI k) (conj eq_refl H)). discriminate.
  - split; [discriminate|]. intros (_&H). assert (Hx := proj2 (HI k) (conj eq_refl H)). discriminate.
Qed.

(** Any document: one of the offered values is chosen for each public input (C58), and decrypt succeeds
    exactly for a satisfying witness that has the chosen values. *)
Theorem C78_cli_encrypt_js_decrypt_iff :
  forall (E : pairingT Fr) (C : codecT E) (D : domainT Fr) (kdf : GT E -> key) (aes : cipherT) W fuel
         json_parse max_off v co cp sp ip mp op inc s s' cb sb ib mb f r st syms it kvs,
    (forall g, List.length (kdf g) = 32%nat) -> List.length (c_nonce co) = 12%nat ->
    s cp = Some cb -> s sp = Some sb -> s ip = Some ib -> s mp = Some mb ->
    circuit_file cb r -> usable r -> factors_below (r_n_wires r) (r_constraints r) ->
    max_off < 2 ^ 63 -> blen cb <= max_off -> (inc = true -> blen ib < 2 ^ 32) ->
    utf8_decode sb = Some st -> parse_sym_file st = Ok syms -> utf8_decode ib = Some it -> json_parse it = Some (JObj kvs) ->
    run (encrypt_command C D kdf aes json_parse max_off v co cp sp ip mp op inc) s = (s', Ok tt) -> s' op = Some f ->
    exists chosen, choice syms kvs (r_n_pub_in r) chosen /\ opened_in_js C kdf aes W fuel cb r f mb (has_chosen chosen (r_n_pub_in r)).
Proof.
  intros E C D kdf aes W fuel json_parse max_off v co cp sp ip mp op inc s s' cb sb ib mb f r st syms it kvs
    Hkdf Hn H1 H2 H3 H4 Hcf Hu Hfb M1 M2 Hib Hst Hsy Hit Hj Hrun Hf.
  assert (Hwf := parse_sym_file_wf _ _ Hsy).
  assert (Hin : exists inputs, parse_inputs_text json_parse it = Ok inputs).
  { pose proof Hrun as Hx. apply run_exec' in Hx. apply exec_encrypt in Hx as [[_ Hx]|Hx]; [congruence|].
    destruct Hx as (cb'&sb'&ib'&mb'&t&c&ct&k&enc&E1&E2&E3&E4&Hp&_).
    destruct Hp as (r0&st0&syms0&inputs&_&_&_&Ht&Hin&_). exists inputs. assert (t = it) by congruence. subst t. exact Hin. }
  destruct Hin as [inputs Hin].
  exists (fun w => nm_get w (cli_witness (get_input_signals (visit_syms v syms) (Some (r_n_pub_in r))) (visit_inputs v inputs))).
  split.
  { intros w Hw. exact (visit_offers json_parse v syms (r_n_pub_in r) it kvs Hwf Hj inputs w (proj1 Hw) (proj2 Hw) Hin). }
  set (chosen := fun w => nm_get w _).
  intros wb vals a message' A1 A2 A3 A4. rewrite <- chosen_bound.
  apply (cli_opened_in_js E C D kdf aes W fuel json_parse max_off v co cp sp ip mp op inc s s' cb sb ib mb f r st syms it
    (fun w a => chosen w = Some a) Hkdf Hn H1 H2 H3 H4 Hcf Hu Hfb M1 M2 Hib Hst Hsy Hit); try assumption.
  apply (chosen_given json_parse v syms (r_n_pub_in r) it kvs chosen Hwf Hj).
  intros inputs' w _ Hin'. assert (inputs' = inputs) by congruence. subst inputs'. reflexivity.
Qed.
Print Assumptions C78_cli_encrypt_js_decrypt_iff.

(** ** With inputs instead of a witness *)
Section Computes.
  Context (m : wmodule) (r : r1cs_file) (ins : list (text * list N)) (wires : text -> option N).
  Hypothesis Hc : compiled m r ins wires.
  Context (cb : list byte) (Hcf : circuit_file cb r) (full : list (text * json)).
  Lemma computes_fun vals vals' : computes m full vals -> computes m full vals' -> vals = vals'.
  Proof using Hc.
    intros (gs&w&H1&H2&->) (gs'&w'&H1'&H2'&->).
    assert (A : calculate_witness m full = Ok (map Z.of_N w)) by (apply C48_witness_iff; [exact (cp_module _ _ _ _ Hc)|eauto]).
    assert (A' : calculate_witness m full = Ok (map Z.of_N w')) by (apply C48_witness_iff; [exact (cp_module _ _ _ _ Hc)|eauto]).
    assert (Eq : map Z.of_N w = map Z.of_N w') by congruence.
    rewrite <- (map_map Z.of_N fr w), <- (map_map Z.of_N fr w'), Eq. reflexivity.
  Qed.
  Lemma computes_opens vals : computes m full vals -> opens_circuit r vals.
  Proof using Hc.
    intros (gs&w&Hci&Hw&->).
    assert (Hperm : Permutation (map fst gs) (slots m)) by (destruct Hci as (per&_&_&H); exact H).
    assert (Hrange : Forall (fun g => snd g < md_prime m) gs).
    { destruct Hci as (per&Hper&->&_). clear - Hc Hper. apply Forall_concat. induction Hper as [|kv g kvs per Hg _ IH]; [constructor|].
      constructor; [|exact IH]. destruct Hg as (zs&n&_&_&_&->). apply Forall_forall. intros x Hx. apply in_map_iff in Hx as (p&<-&_). cbn [snd].
      pose proof (mo_prime _ (cp_module _ _ _ _ Hc)) as Hp.
      pose proof (Z.mod_pos_bound (snd p) (Z.of_N (md_prime m)) ltac:(lia)). lia. }
    apply (cp_solves _ _ _ _ Hc gs w Hperm Hrange Hw).
  Qed.
  Lemma computes_file vals : computes m full vals ->
    exists wb, calculate_wtns m full = Ok wb /\ witness_file wb vals /\ N.of_nat (List.length vals) = r_n_wires r /\ blen wb = 76 + 32 * r_n_wires r.
  Proof using Hc Hcf.
    intros (gs&w&Hci&Hw&->). destruct (calculated_file m r ins wires Hc full gs w Hci Hw) as (wb&H).
    { rewrite (cp_size _ _ _ _ Hc). eapply circuit_wires. exact Hcf. }
    exists wb. exact H.
  Qed.
  Lemma file_computes wb : calculate_wtns m full = Ok wb -> exists vals, computes m full vals.
  Proof using Hc.
    intros H. assert (Hm := cp_module _ _ _ _ Hc). assert (F := C48_same_witness_in_every_form m full Hm).
    destruct (calculate_witness m full) as [zs|e|] eqn:Ec; [|destruct F as [_ F]; congruence|contradiction].
    apply C48_witness_iff in Ec; [|exact Hm]. destruct Ec as (gs&w&H1&H2&_). eexists. exists gs, w. eauto.
  Qed.
  (** decrypt with inputs, if decrypt with a witness is decided by [right]. *)
  Lemma inputs_opened (E : pairingT Fr) (C : codecT E) (kdf : GT E -> key) (aes : cipherT) W fuel f mb right a message' :
    fits_calculated W fuel cb r -> opened_in_js C kdf aes W fuel cb r f mb right -> jb_valid a -> jb_window a = f ->
    (decrypt_inputs E C kdf aes W fuel m cb a full = Ok message' <->
     message' = mb /\ exists vals, computes m full vals /\ right vals).
  Proof using Hc Hcf.
    intros Hfit Ho Hva Hwa. destruct (calculate_wtns m full) as [wb|e|] eqn:Ew.
    - destruct (file_computes wb Ew) as (vals&Hv). destruct (computes_file vals Hv) as (wb'&Hwb&Hwf&Hlen&Hbl).
      assert (wb' = wb) by congruence. subst wb'.
      rewrite (decrypt_inputs_ok E C kdf aes W fuel m cb a full wb message' Ew).
      rewrite (Ho wb vals a message' Hwf (fits_calc W fuel cb r wb Hfit Hbl) Hva Hwa). split.
      + intros (H1&_&_&H2). split; [exact H1|]. exists vals. auto.
      + intros (H1&vals'&Hv'&H2). assert (vals' = vals) by (eapply computes_fun; eassumption). subst vals'.
        split; [exact H1|]. split; [exact Hlen|]. split; [apply computes_opens; exact Hv|exact H2].
    - split.
      + unfold decrypt_inputs, decap_inputs. rewrite Ew. destruct (js_split a); cbn [rmap_err rbind]; discriminate.
      + intros (_&vals&Hv&_). destruct (computes_file vals Hv) as (wb'&Hwb&_). congruence.
    - split.
      + unfold decrypt_inputs, decap_inputs. rewrite Ew. destruct (js_split a); cbn [rmap_err rbind]; discriminate.
      + intros (_&vals&Hv&_). destruct (computes_file vals Hv) as (wb'&Hwb&_). congruence.
  Qed.
End Computes.

(** JavaScript encrypt, JavaScript decrypt with any inputs whatever: the message comes back exactly if the
    circuit computes a witness from them that has the bound values on the public wires. *)
Theorem C78_js_decrypt_any_inputs_iff :
  forall (E : pairingT Fr) (C : codecT E) (D : domainT Fr) (kdf : GT E -> key) (aes : cipherT) stringify W fuel
         co cb sym pub full message inc f k m r ins a message',
    (forall g, List.length (kdf g) = 32%nat) -> List.length (c_nonce co) = 12%nat ->
    (inc = true -> blen (stringify pub) < 2 ^ 32) ->
    compiled m r ins (js_wires sym) -> circuit_file cb r -> js_usable r -> factors_below (r_n_wires r) (r_constraints r) ->
    fits_encrypt W fuel cb sym -> fits_calculated W fuel cb r ->
    js_encrypt E C D kdf aes stringify W fuel co cb sym pub message inc = Ok (f, k) ->
    jb_valid a -> jb_window a = f ->
    (decrypt_inputs E C kdf aes W fuel m cb a full = Ok message' <->
     message' = message /\ exists vals, computes m full vals /\
       forall w z, binds sym pub (r_n_pub_out r + r_n_pub_in r) w z -> nth_error vals (N.to_nat w) = Some (fr (z mod 2 ^ 256))).
Proof.
  intros E C D kdf aes stringify W fuel co cb sym pub full message inc f k m r ins a message'
    Hkdf Hn Hq Hc Hcf Hu Hfb Hf1 Hf2 He Hva Hwa.
  apply (inputs_opened m r ins (js_wires sym) Hc cb Hcf full E C kdf aes W fuel f message
    (fun vals => forall w z, binds sym pub (r_n_pub_out r + r_n_pub_in r) w z -> nth_error vals (N.to_nat w) = Some (fr (z mod 2 ^ 256))) a message' Hf2);
    [|exact Hva|exact Hwa].
  intros wb vals a0 m0 H1 H2 H3 H4.
  exact (C58_js_decrypt_iff_any_document E C D kdf aes stringify W fuel co cb sym pub message inc f k r wb vals a0 m0
    Hkdf Hn Hq Hcf Hu Hfb Hf1 He H1 H2 H3 H4).
Qed.
Print Assumptions C78_js_decrypt_any_inputs_iff.

(** The command line's decrypt with the witness file the calculator makes from any inputs. *)
Theorem C78_cli_decrypt_any_inputs_iff :
  forall (E : pairingT Fr) (C : codecT E) (D : domainT Fr) (kdf : GT E -> key) (aes : cipherT) stringify W fuel
         co cb sym pub full message inc f k m r ins max_off s cp wp ctp op wb,
    (forall g, List.length (kdf g) = 32%nat) -> List.length (c_nonce co) = 12%nat ->
    (inc = true -> blen (stringify pub) < 2 ^ 32) ->
    compiled m r ins (js_wires sym) -> circuit_file cb r -> js_usable r -> factors_below (r_n_wires r) (r_constraints r) ->
    fits_encrypt W fuel cb sym -> max_off < 2 ^ 63 -> blen cb <= max_off ->
    js_encrypt E C D kdf aes stringify W fuel co cb sym pub message inc = Ok (f, k) ->
    calculate_wtns m full = Ok wb -> s cp = Some cb -> s wp = Some wb -> s ctp = Some f ->
    ((exists s', run (decrypt_command C kdf aes max_off cp wp ctp op) s = (s', Ok tt)) <->
     exists vals, computes m full vals /\
       forall w z, binds sym pub (r_n_pub_out r + r_n_pub_in r) w z -> nth_error vals (N.to_nat w) = Some (fr (z mod 2 ^ 256))) /\
    (forall s', run (decrypt_command C kdf aes max_off cp wp ctp op) s = (s', Ok tt) -> s' = fs_write op message s).
Proof.
  intros E C D kdf aes stringify W fuel co cb sym pub full message inc f k m r ins max_off s cp wp ctp op wb
    Hkdf Hn Hq Hc Hcf Hu Hfb Hf1 M1 M2 He Hwb Hs1 Hs2 Hs3.
  destruct (file_computes m r ins _ Hc full wb Hwb) as (vals&Hv).
  destruct (computes_file m r ins _ Hc cb Hcf full vals Hv) as (wb'&Hwb'&Hwf&Hlen&Hbl). assert (wb' = wb) by congruence. subst wb'.
  destruct (files_read max_off cb wb r vals) as [_ R2]; try assumption.
  { intros ->. destruct Hu as (Hu&_). cbn [List.length] in Hlen. clear - Hlen Hu. lia. }
  { rewrite Hbl. pose proof (circuit_wires _ _ Hcf) as Hx. clear - Hx. change (2 ^ 63) with 9223372036854775808. change (2 ^ 32) with 4294967296 in Hx. lia. }
  destruct (C78_js_encrypt_cli_decrypt_iff E C D kdf aes stringify W fuel co cb sym pub message inc f k r max_off s cp wp ctp op wb vals
    Hkdf Hn Hq Hcf Hu Hfb Hf1 He M1 M2 Hs1 Hs2 Hs3 R2) as [A B]. split; [|exact B]. rewrite A. split.
  - intros [_ H]. exists vals. auto.
  - intros (vals'&Hv'&H). assert (vals' = vals) by (eapply computes_fun; eassumption). subst vals'.
    split; [eapply computes_opens; eassumption|exact H].
Qed.
Print Assumptions C78_cli_decrypt_any_inputs_iff.

(** The command line's encrypt with any document, JavaScript decrypt with any inputs. *)
Theorem C78_cli_encrypt_any_inputs_iff :
  forall (E : pairingT Fr) (C : codecT E) (D : domainT Fr) (kdf : GT E -> key) (aes : cipherT) W fuel
         json_parse max_off v co cp sp ip mp op inc s s' cb sb ib mb f st syms it pub m r ins,
    (forall g, List.length (kdf g) = 32%nat) -> List.length (c_nonce co) = 12%nat ->
    s cp = Some cb -> s sp = Some sb -> s ip = Some ib -> s mp = Some mb ->
    utf8_decode sb = Some st -> parse_sym_file st = Ok syms ->
    compiled m r ins (fun name => hm_get (lit "main." ++ name) syms) -> circuit_file cb r -> usable r -> factors_below (r_n_wires r) (r_constraints r) ->
    max_off < 2 ^ 63 -> blen cb <= max_off -> (inc = true -> blen ib < 2 ^ 32) -> fits_calculated W fuel cb r ->
    run (encrypt_command C D kdf aes json_parse max_off v co cp sp ip mp op inc) s = (s', Ok tt) -> s' op = Some f ->
    utf8_decode ib = Some it -> json_parse it = Some (JObj pub) ->
    exists chosen, choice syms pub (r_n_pub_in r) chosen /\
      forall full a message', jb_valid a -> jb_window a = f ->
        (decrypt_inputs E C kdf aes W fuel m cb a full = Ok message' <->
         message' = mb /\ exists vals, computes m full vals /\ has_chosen chosen (r_n_pub_in r) vals).
Proof.
  intros E C D kdf aes W fuel json_parse max_off v co cp sp ip mp op inc s s' cb sb ib mb f st syms it pub m r ins
    Hkdf Hn H1 H2 H3 H4 Hst Hsy Hc Hcf Hu Hfb M1 M2 Hib Hf2 Hrun Hf Hit Hj.
  destruct (C78_cli_encrypt_js_decrypt_iff E C D kdf aes W fuel json_parse max_off v co cp sp ip mp op inc s s' cb sb ib mb f r st syms it pub
    Hkdf Hn H1 H2 H3 H4 Hcf Hu Hfb M1 M2 Hib Hst Hsy Hit Hj Hrun Hf) as (chosen&Hch&Ho).
  exists chosen. split; [exact Hch|]. intros full a message' Hva Hwa.
  exact (inputs_opened m r ins _ Hc cb Hcf full E C kdf aes W fuel f mb _ a message' Hf2 Ho Hva Hwa).
Qed.
Print Assumptions C78_cli_encrypt_any_inputs_iff.

Lemma fr_shift z : (- 2 ^ 63 <= z < 0)%Z -> fr (z + 2 ^ 64) <> fr z.
Proof.
  intros Hz H. apply (f_equal fr_val) in H. change ((z + 2 ^ 64) mod bn_r = z mod bn_r)%Z in H.
  rewrite (Z.mod_small (z + 2 ^ 64)) in H by (split; [lia|apply Z.lt_trans with (2 ^ 64)%Z; [lia|reflexivity]]).
  assert (Hr : (2 ^ 64 < bn_r)%Z) by reflexivity.
  rewrite <- (Z.mod_add z 1 bn_r) in H by (intros X; rewrite X in Hr; discriminate).
  rewrite (Z.mod_small (z + 1 * bn_r)) in H by lia. lia.
Qed.

Lemma numeric_negative z x : numeric (JInt z) x -> (z < 0)%Z -> (- 2 ^ 63 <= z)%Z /\ x = fr (z + 2 ^ 64).
Proof.
  intros H Hz. remember (JInt z) as y eqn:Ey. destruct H as [z' Hr|z' Hr|t z' Hr]; [| |discriminate].
  - assert (z' = z) by congruence. lia.
  - assert (Hzz : z' = z) by congruence. rewrite <- Hzz. split; [lia|reflexivity].
Qed.

(** The command line's encrypt, JavaScript decrypt with inputs that solve the circuit and contain the
    public inputs: the message comes back exactly if no bound public input is a JSON number below 0. *)
Theorem C78_cli_encrypt_same_inputs_iff :
  forall (E : pairingT Fr) (C : codecT E) (D : domainT Fr) (kdf : GT E -> key) (aes : cipherT) W fuel
         json_parse max_off v co cp sp ip mp op inc s s' cb sb ib mb f st syms it pub full m r ins a message',
    (forall g, List.length (kdf g) = 32%nat) -> List.length (c_nonce co) = 12%nat ->
    s cp = Some cb -> s sp = Some sb -> s ip = Some ib -> s mp = Some mb ->
    utf8_decode sb = Some st -> parse_sym_file st = Ok syms ->
    compiled m r ins (fun name => hm_get (lit "main." ++ name) syms) -> circuit_file cb r -> usable r -> factors_below (r_n_wires r) (r_constraints r) ->
    max_off < 2 ^ 63 -> blen cb <= max_off -> (inc = true -> blen ib < 2 ^ 32) -> fits_calculated W fuel cb r ->
    run (encrypt_command C D kdf aes json_parse max_off v co cp sp ip mp op inc) s = (s', Ok tt) -> s' op = Some f ->
    utf8_decode ib = Some it -> json_parse it = Some (JObj pub) ->
    unambiguous pub -> separate pub (fun n => hm_get (lit "main." ++ n) syms) ->
    shaped_doc ins full -> solves m full -> incl pub full ->
    jb_valid a -> jb_window a = f ->
    (decrypt_inputs E C kdf aes W fuel m cb a full = Ok message' <->
     message' = mb /\ ~ negative_bound syms pub (r_n_pub_in r)).
Proof.
  intros E C D kdf aes W fuel json_parse max_off v co cp sp ip mp op inc s s' cb sb ib mb f st syms it pub full m r ins a message'
    Hkdf Hn H1 H2 H3 H4 Hst Hsy Hc Hcf Hu Hfb M1 M2 Hib Hf2 Hrun Hf Hit Hj Hun Hse Hsh (gs&w&Hci&Hw) Hin Hva Hwa.
  assert (Ho := cli_opened_in_js E C D kdf aes W fuel json_parse max_off v co cp sp ip mp op inc s s' cb sb ib mb f r st syms it
    (cli_gives syms pub) Hkdf Hn H1 H2 H3 H4 Hcf Hu Hfb M1 M2 Hib Hst Hsy Hit (plain_given json_parse v st syms it pub r Hsy Hj Hun Hse) Hrun Hf).
  rewrite (inputs_opened m r ins _ Hc cb Hcf full E C kdf aes W fuel f mb _ a message' Hf2 Ho Hva Hwa).
  destruct (witness_carries m r ins _ Hc full Hsh gs w Hci Hw) as [_ Hcar]. cbv zeta in Hcar.
  set (vals := map (fun v => fr (Z.of_N v)) w) in *.
  assert (Hv : computes m full vals) by (exists gs, w; auto).
  assert (Hval : forall name x wire, doc_leaf pub name x -> hm_get (lit "main." ++ name) syms = Some wire ->
    exists z, whole_number x z /\ nth_error vals (N.to_nat wire) = Some (fr z)).
  { intros name x wire (k&v0&Hkv&Hl) Hwire. destruct (Hcar k v0 name x wire (Hin _ Hkv) Hl Hwire) as (z&zs&_&_&Hz&Hnz). eauto. }
  split.
  - intros (->&vals'&Hv'&Hb). split; [reflexivity|]. assert (vals' = vals) by (eapply computes_fun; eassumption). subst vals'.
    intros (wi&x&name&z&Hbd&Hl&Hwi&Hz). assert (Hb' := Hb wi x Hbd). destruct Hbd as (_&_&name'&y&Hl'&Hwi'&Hy).
    assert (name' = name) by (eapply Hse; eassumption). subst name'. assert (y = JInt z) by (eapply Hun; eassumption). subst y.
    destruct (Hval name (JInt z) wi Hl Hwi) as (z'&Hz'&Hv2). inversion Hz'; subst z'.
    rewrite Hb' in Hv2. assert (Hx : x = fr z) by congruence. destruct (numeric_negative z x Hy Hz) as [Hr Hx2].
    apply (fr_shift z); [split; [exact Hr|exact Hz]|congruence].
  - intros (->&Hneg). split; [reflexivity|]. exists vals. split; [exact Hv|]. intros wi x Hbd.
    assert (Hbd' := Hbd). destruct Hbd' as (_&_&name&y&Hl&Hwi&Hy). destruct (Hval name y wi Hl Hwi) as (z&Hz&Hnz). rewrite Hnz. f_equal. symmetry.
    eapply numeric_number; [exact Hy|exact Hz|]. intros n ->. destruct (Z.lt_ge_cases n 0) as [Hlt|Hge]; [|exact Hge].
    exfalso. apply Hneg. exists wi, x, name, n. auto.
Qed.
Print Assumptions C78_cli_encrypt_same_inputs_iff.

(** The circuit y * y = x.  Encrypted by the command line for x = [z] and decrypted in JavaScript with the
    inputs [full]; encrypted in JavaScript for x = 9 and decrypted by the command line with the witness
    file at [wp]. *)
Definition cli_js (z : Z) (full : list (text * json)) : option (list byte) :=
  match run (encrypt_command ex_codec bn_domain ex_kdf32 Aes.aes256 (fun _ => Some (JObj [(lit "x", JInt z)])) (2 ^ 63 - 1)
     ex_visits ex_coins (lit "c") (lit "s") (lit "i") (lit "m") (lit "o") true) ex_fs with
  | (s, Ok _) => match s (lit "o") with
      | Some f => match decrypt_inputs fr_pairing ex_codec ex_kdf32 Aes.aes256 (2 ^ 32) 1000 ex_wmodule ex_circuit_file (whole f) full with Ok m => Some m | _ => Some [] end
      | None => None
      end
  | _ => None
  end.
Definition js_cli (wp : text) : option (option (list byte)) :=
  match js_encrypt fr_pairing ex_codec bn_domain ex_kdf32 Aes.aes256 (fun _ => []) (2 ^ 32) 1000 ex_coins ex_circuit_file ex_sym_text [(lit "x", JInt 9)] [x68; x69] false with
  | Ok (f, _) =>
      let '(s, _) := run (decrypt_command ex_codec ex_kdf32 Aes.aes256 (2 ^ 63 - 1) (lit "c") wp (lit "o") (lit "p")) (fs_write (lit "o") f two_fs) in Some (s (lit "p"))
  | _ => None
  end.
Example C78_nonvacuous :
  cli_js 9 [(lit "y", JInt (-3)); (lit "x", JInt 9)] = Some [x68; x69] /\ cli_js 9 [(lit "y", JInt 4); (lit "x", JInt 16)] = Some [] /\
  cli_js (-1) [(lit "x", JInt (-1)); (lit "y", JStr (lit "21888242871839275217838484774961031246007050428528088939761107053157389710902"))] = Some [] /\
  js_cli (lit "3") = Some (Some [x68; x69]) /\ js_cli (lit "4") = Some None.
Proof. vm_compute. repeat split. Qed.
