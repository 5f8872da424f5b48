(** Property theorems C58: decrypting with the circuit the message was encrypted for succeeds exactly
    for a satisfying witness that has the bound public inputs, and gives the message.  Vocabulary:
    SpecBound.v. *)
From Coq Require Import List Bool Arith NArith ZArith Lia Permutation.
From Coq Require Import Strings.String Strings.Byte.
From Verif Require Import Res Bytes Text Utf8 Fld Zp Groups Bn254 CS CSFacts Qap SpecCore Core CoreFacts CoreMore P_Core
  R1cs SpecR1cs R1csFacts R1csJs R1csJsFacts P_R1cs Wtns SpecWtns WtnsFacts P_Wtns Circuit SpecCircuit CircuitFacts P_Circuit
  ArkSer ArkSerFacts P_Ser Sym SpecSym SymFacts P_Sym Inputs SpecInputs InputsFacts P_Inputs
  Combined SpecCombined CombinedFacts P_Combined Gcm SpecGcm GcmFacts P_Gcm FileSys Commands SpecCommands CommandsFacts
  PartialEncap P_Commands JsZkenc JsZkencFacts P_JsZkenc SpecJs C44Facts P_JsApi JsIff SpecBound.
Import ListNotations.
Local Open Scope N_scope.

(** ** Every leaf leaves its mark *)
Section Has.
  Context (signals : hmap N).
  Notation has w m := (nm_get w m <> None).
  Lemma has_insert {V} w0 (t : V) m w : has w m -> has w (nm_insert w0 t m).
  Proof. rewrite nm_get_insert. destruct (w =? w0); [discriminate|auto]. Qed.
  Lemma js_set_has key x m m' : js_set signals key x m = Ok m' ->
    (forall w, has w m -> has w m') /\ (forall w, hm_get key signals = Some w -> has w m').
  Proof.
    unfold js_set. destruct (hm_get key signals) as [w0|] eqn:Ew.
    - destruct (js_to_string x) as [t0|]; [|discriminate]. intros [= <-]. split; [intros w; apply has_insert|].
      intros w [= <-]. rewrite nm_get_insert, N.eqb_refl. discriminate.
    - intros [= <-]. split; [auto|discriminate].
  Qed.
  Lemma js_array_has key l : forall i m m', js_array signals key i l m = Ok m' ->
    (forall w, has w m -> has w m') /\
    (forall j w, (j < List.length l)%nat -> hm_get (index_key key (i + N.of_nat j)) signals = Some w -> has w m').
  Proof.
    induction l as [|x l IH]; intros i m m' H; cbn [js_array] in H.
    - injection H as <-. split; [auto|]. intros j w Hj. inversion Hj.
    - destruct (js_set signals (index_key key i) x m) as [m1|e|] eqn:E1; try discriminate.
      destruct (js_set_has _ _ _ _ E1) as [A1 A2]. destruct (IH _ _ _ H) as [B1 B2]. split; [auto|].
      intros [|j] w Hj Hw.
      + rewrite N.add_0_r in Hw. apply B1, A2. exact Hw.
      + apply (B2 j w); [cbn [List.length] in Hj; lia|]. rewrite <- Hw. f_equal. f_equal. lia.
  Qed.
  Lemma js_flatten_has v : forall key m m', js_flatten signals v key m = Ok m' ->
    (forall w, has w m -> has w m') /\
    (forall name t w, js_leaf_at key v name t -> hm_get name signals = Some w -> has w m').
  Proof.
    induction v as [|b|z|f|s|l IH|o IH] using json_ind'; intros key m m' H; cbn [js_flatten] in H;
      try (destruct (js_set_has _ _ _ _ H) as [A1 A2]; split; [exact A1|]; intros name t w Hl; inversion Hl; subst; apply A2).
    - destruct (js_array_has _ _ _ _ _ H) as [A1 A2]. split; [exact A1|]. intros name t w Hl Hw.
      inversion Hl as [? ? ? Hna|? ? i x ? Hx Ht|]; subst; [exfalso; eapply Hna; reflexivity|].
      apply (A2 i w); [apply nth_error_Some; congruence|]. rewrite N.add_0_l. exact Hw.
    - assert (G : forall kvs, incl kvs o -> forall m m',
        (fix go (kvs : list (text * json)) (m : nmap text) : res js_throw (nmap text) :=
           match kvs with
           | [] => Ok m
           | (k, x) :: kvs => match js_flatten signals x (js_full_key key k) m with
                              | Ok m => go kvs m | Err e => Err e | Panic => Panic end
           end) kvs m = Ok m' ->
        (forall w, has w m -> has w m') /\
        (forall k x name t w, In (k, x) kvs -> js_leaf_at (js_full_key key k) x name t -> hm_get name signals = Some w -> has w m')).
      { clear H m m'. induction kvs as [|[k x] kvs IHk]; intros Hincl m m' H.
        - injection H as <-. split; [auto|contradiction].
        - destruct (js_flatten signals x (js_full_key key k) m) as [m1|e|] eqn:E1; try discriminate.
          destruct (IHk (fun y Hy => Hincl y (or_intror Hy)) _ _ H) as [B1 B2].
          rewrite Forall_forall in IH. destruct (IH _ (Hincl _ (or_introl eq_refl)) _ _ _ E1) as [A1 A2]. cbn [snd] in *.
          split; [auto|]. intros k' x' name t w [Hi|Hi] Hl Hw; [|eapply B2; eassumption].
          assert (k = k' /\ x = x') as [-> ->] by (split; congruence). apply B1. eapply A2; eassumption. }
      destruct (G o (incl_refl o) _ _ H) as [A1 A2]. split; [exact A1|]. intros name t w Hl Hw.
      inversion Hl as [? ? ? ? Hno| |? ? k x ? ? Hi Hl']; subst; [exfalso; eapply Hno; reflexivity|]. eapply A2; eassumption.
  Qed.
  Lemma js_map_has kvs m : js_map_inputs kvs signals = Ok m ->
    forall name t w, js_doc_leaf kvs name t -> hm_get name signals = Some w -> has w m.
  Proof.
    unfold js_map_inputs. generalize (@nil (N * text)). revert m. induction kvs as [|[k v] l IH]; intros m m0 H name t w (k'&v'&Hi&Hl) Hw;
      [contradiction|]. cbn [js_map_inputs_loop] in H.
    destruct (js_flatten signals v k m0) as [m1|e|] eqn:E1; try discriminate. destruct (js_flatten_has _ _ _ _ E1) as [A1 A2].
    destruct Hi as [Hi|Hi].
    - assert (k = k' /\ v = v') as [-> ->] by (split; congruence).
      assert (Hm1 : has w m1) by (eapply A2; eassumption). clear - H Hm1. revert m1 H Hm1.
      induction l as [|[k v] l IH]; intros m1 H Hm1; cbn [js_map_inputs_loop] in H; [congruence|].
      destruct (js_flatten signals v k m1) as [m2|e|] eqn:E2; try discriminate. apply (IH m2 H).
      apply (proj1 (js_flatten_has _ _ _ _ E2)). exact Hm1.
    - eapply (IH m m1 H); [exists k', v'; eauto|exact Hw].
  Qed.
End Has.

Section Bridge.
  Context (E : pairingT Fr) (C : codecT E) (kdf : GT E -> key) (W : N) (fuel : nat).
  Lemma wasm_decap_iff cb wb bs r vals ct rest k :
    circuit_file cb r -> witness_file wb vals -> fits_decrypt W fuel cb wb ->
    ct_deserialize C bs = Some (ct, rest) ->
    (wasm_decap E C kdf W fuel cb wb bs = Ok k <->
     N.of_nat (List.length vals) = r_n_wires r /\
     decap kdf (circom_prog (circom_of_cli r (fun w => nth_error vals (N.to_nat w)))) ct = Ok k).
  Proof.
    intros (secs&->&Hok&Hca&Hl&Ht) (prime&ws&->&Hp&Hst) (HW1&HW2&HW3&Hfu) Hct. unfold wasm_decap.
    rewrite (js_r1cs_roundtrip W secs r Hok Hca Hl Ht HW1 HW3). cbn [rmap_err rbind].
    rewrite (C21_field_elements_round_trip W prime vals ws fuel Hp Hst HW2 HW3 Hfu). cbn [rmap_err rbind j_n_wires].
    destruct (N.eqb_spec (N.of_nat (List.length vals)) (r_n_wires r)) as [Hn|Hn]; cbn [negb].
    - rewrite Hct. cbn [of_option rbind fst].
      match goal with |- rmap_err _ ?x = _ <-> _ => change x with (decap kdf (circom_prog (circom_of_cli r (fun w => nth_error vals (N.to_nat w)))) ct) end.
      destruct (decap kdf _ ct); cbn [rmap_err]; split; [intros [= <-]; auto|intros [_ [= <-]]; reflexivity|discriminate|intros [_ H]; discriminate
        |discriminate|intros [_ H]; discriminate].
    - split; [discriminate|]. intros [H _]. contradiction.
  Qed.
End Bridge.

(** ** JavaScript *)
(** [G] being the texts the inputs give to the wires. *)
Definition bound_by (G : N -> text -> Prop) (n_pub w : N) (z : Z) : Prop :=
  1 <= w <= n_pub /\ (forall j, 1 <= j <= w -> exists t, G j t) /\ exists t, G w t /\ js_bigint t = Some z.
Definition texts_of (sym : text) (inputs : list (text * json)) (G : N -> text -> Prop) : Prop :=
  forall m, js_map_inputs inputs (get_input_signals (js_parse_sym_file sym) None) = Ok m -> forall w t, nm_get w m = Some t <-> G w t.
Lemma js_decap_given (E : pairingT Fr) (C : codecT E) (D : domainT Fr) (kdf : GT E -> key) W fuel co cb sym inputs G ctb k r wb vals k' :
    circuit_file cb r -> js_usable r -> factors_below (r_n_wires r) (r_constraints r) ->
    fits_encrypt W fuel cb sym -> texts_of sym inputs G ->
    js_encap E C D kdf W fuel co cb sym inputs = Ok (ctb, k) ->
    witness_file wb vals -> fits_decrypt W fuel cb wb ->
    (js_decap E C kdf W fuel cb wb ctb = Ok k' <->
     k' = k /\ N.of_nat (List.length vals) = r_n_wires r /\ opens_circuit r vals /\
     forall w z, bound_by G (r_n_pub_out r + r_n_pub_in r) w z ->
       nth_error vals (N.to_nat w) = Some (fr (z mod 2 ^ 256))).
Proof.
  intros Hcf Hu Hfb (W1&W2&W3&W4&W5) HG He Hwf HV.
  destruct (js_encap_iff E C D kdf W fuel co sym inputs cb ctb k r Hcf Hu W1 W2 W3 W4 W5 Hfb He) as (ct&m&zs&->&Hl&_&Hm&Hz&Hiff).
  unfold js_decap. rewrite (wasm_decap_iff E C kdf W fuel cb wb (ct_bytes C ct) r vals ct [] k' Hcf Hwf HV).
  2:{ rewrite <- (app_nil_r (ct_bytes C ct)). apply C14_round_trip. exact Hl. }
  rewrite Hiff.
  specialize (HG m Hm). rename HG into Hsrc.
  assert (Hb : (forall i z, nth_error zs i = Some z -> N.of_nat i < r_n_pub_out r + r_n_pub_in r -> nth_error vals (S i) = Some (fr (z mod 2 ^ 256))) <->
    (forall w z, bound_by G (r_n_pub_out r + r_n_pub_in r) w z -> nth_error vals (N.to_nat w) = Some (fr (z mod 2 ^ 256)))).
  { destruct Hz as [Hz1 Hz2]. split.
    - intros GG w z (Hw&Hall&t&Ht&Hzt). apply Hsrc in Ht.
      assert (Hlt : (N.to_nat (w - 1) < List.length zs)%nat).
      { destruct (le_lt_dec (List.length zs) (N.to_nat (w - 1))) as [Hge|Hlt]; [|exact Hlt]. exfalso.
        destruct (Hall (1 + N.of_nat (List.length zs)) ltac:(clear - Hge Hw; lia)) as (t'&Ht'). apply Hsrc in Ht'. congruence. }
      destruct (nth_error zs (N.to_nat (w - 1))) as [z'|] eqn:Ez; [|apply nth_error_None in Ez; clear - Ez Hlt; lia].
      destruct (Hz1 _ _ Ez) as (t'&Ht'&Hz'). replace (1 + N.of_nat (N.to_nat (w - 1))) with w in Ht' by (clear - Hw; lia).
      assert (t' = t) by congruence. subst t'. assert (z' = z) by congruence. subst z'.
      replace (N.to_nat w) with (S (N.to_nat (w - 1))) by (clear - Hw; lia). apply GG; [exact Ez|clear - Hw; lia].
    - intros GG i z Hi Hn. replace (S i) with (N.to_nat (1 + N.of_nat i)) by (clear; lia). apply GG.
      assert (Hil : (i < List.length zs)%nat) by (apply nth_error_Some; congruence).
      split; [clear - Hn; lia|]. split.
      + intros j Hj. destruct (nth_error zs (N.to_nat (j - 1))) as [z'|] eqn:Ez; [|apply nth_error_None in Ez; clear - Ez Hil Hj; lia].
        destruct (Hz1 _ _ Ez) as (t'&Ht'&_). replace (1 + N.of_nat (N.to_nat (j - 1))) with j in Ht' by (clear - Hj; lia).
        exists t'. apply Hsrc. exact Ht'.
      + destruct (Hz1 _ _ Hi) as (t&Ht&Hzt). exists t. split; [apply Hsrc; exact Ht|exact Hzt]. }
  rewrite Hb. tauto.
Qed.
Lemma js_decrypt_given (E : pairingT Fr) (C : codecT E) (D : domainT Fr) (kdf : GT E -> key) (aes : cipherT) stringify W fuel
         co cb sym inputs G message inc f k r wb vals a message' :
    (forall g, List.length (kdf g) = 32%nat) -> List.length (c_nonce co) = 12%nat ->
    (inc = true -> blen (stringify inputs) < 2 ^ 32) ->
    circuit_file cb r -> js_usable r -> factors_below (r_n_wires r) (r_constraints r) ->
    fits_encrypt W fuel cb sym -> texts_of sym inputs G ->
    js_encrypt E C D kdf aes stringify W fuel co cb sym inputs message inc = Ok (f, k) ->
    witness_file wb vals -> fits_decrypt W fuel cb wb -> jb_valid a -> jb_window a = f ->
    (js_decrypt E C kdf aes W fuel cb wb a = Ok message' <->
     message' = message /\ N.of_nat (List.length vals) = r_n_wires r /\ opens_circuit r vals /\
     forall w z, bound_by G (r_n_pub_out r + r_n_pub_in r) w z ->
       nth_error vals (N.to_nat w) = Some (fr (z mod 2 ^ 256))).
Proof.
  intros Hkdf Hn Hq Hcf Hu Hfb HW HG He Hwf HV Hva Hwa.
  apply js_encrypt_inv in He as (ctb&enc&He&Hc&_&Hd); [|assumption..].
  assert (Hs : blen ctb < 2 ^ 32).
  { destruct HW as (W1&W2&W3&W4&W5).
    destruct (js_encap_facts E C D kdf W fuel co sym inputs cb ctb k r Hcf Hu W1 W2 W3 W4 W5 He) as (ct&c&_&_&Hs&_). exact Hs. }
  destruct (C34_round_trip_across_tools inc ctb (stringify inputs) enc Hs Hq) as (f'&_&Hf&_&Hsp).
  assert (Hff : f' = f) by congruence. rewrite Hff in Hsp. unfold js_decrypt. rewrite (Hsp a Hva Hwa). cbn [rmap_err rbind fst snd].
  assert (HI := fun k' => js_decap_given E C D kdf W fuel co cb sym inputs G ctb k r wb vals k' Hcf Hu Hfb HW HG He Hwf HV).
  destruct (js_decap E C kdf W fuel cb wb ctb) as [k'|e|] eqn:Ek; cbn [rbind].
  - destruct (proj1 (HI k') eq_refl) as (->&H). rewrite Hd. cbn [rmap_err]. split; [intros [= <-]; auto|intros [-> _]; reflexivity].
  - split; [discriminate|]. intros (_&H). assert (Hx := proj2 (HI k) (conj eq_refl H)). discriminate.
  - split; [discriminate|]. intros (_&H). assert (Hx := proj2 (HI k) (conj eq_refl H)). discriminate.
Qed.
Lemma single_texts sym inputs : js_single sym inputs -> texts_of sym inputs (js_gives sym inputs).
Proof.
  intros Hone m Hm.
  intros w t. split.
    - intros H. destruct (js_map_source _ _ _ Hm _ _ H) as (name&H1&H2). exists name. split; [exact H1|]. apply signal_wire. exact H2.
    - intros H. assert (Hh : nm_get w m <> None) by (destruct H as (name&H1&H2); eapply (js_map_has _ _ _ Hm); [exact H1|apply signal_wire; exact H2]).
      destruct (nm_get w m) as [t'|] eqn:Et; [|congruence]. f_equal. apply (Hone w); [|exact H].
      destruct (js_map_source _ _ _ Hm _ _ Et) as (name&H1&H2). exists name. split; [exact H1|]. apply signal_wire. exact H2.
Qed.

(** decap of what encap made for the same circuit file: exactly the satisfying witnesses with the
    bound values give a key, and it is encap's. *)
Theorem C58_js_decap_iff :
  forall (E : pairingT Fr) (C : codecT E) (D : domainT Fr) (kdf : GT E -> key) W fuel co cb sym inputs ctb k r wb vals k',
    circuit_file cb r -> js_usable r -> factors_below (r_n_wires r) (r_constraints r) ->
    fits_encrypt W fuel cb sym -> js_single sym inputs ->
    js_encap E C D kdf W fuel co cb sym inputs = Ok (ctb, k) ->
    witness_file wb vals -> fits_decrypt W fuel cb wb ->
    (js_decap E C kdf W fuel cb wb ctb = Ok k' <->
     k' = k /\ N.of_nat (List.length vals) = r_n_wires r /\ opens_circuit r vals /\
     forall w z, js_bound sym inputs (r_n_pub_out r + r_n_pub_in r) w z ->
       nth_error vals (N.to_nat w) = Some (fr (z mod 2 ^ 256))).
Proof.
  intros E C D kdf W fuel co cb sym inputs ctb k r wb vals k' Hcf Hu Hfb HW Hone.
  apply js_decap_given; try assumption. apply single_texts. exact Hone.
Qed.
Print Assumptions C58_js_decap_iff.

Theorem C58_js_decrypt_iff :
  forall (E : pairingT Fr) (C : codecT E) (D : domainT Fr) (kdf : GT E -> key) (aes : cipherT) stringify W fuel
         co cb sym inputs message inc f k r wb vals a message',
    (forall g, List.length (kdf g) = 32%nat) -> List.length (c_nonce co) = 12%nat ->
    (inc = true -> blen (stringify inputs) < 2 ^ 32) ->
    circuit_file cb r -> js_usable r -> factors_below (r_n_wires r) (r_constraints r) ->
    fits_encrypt W fuel cb sym -> js_single sym inputs ->
    js_encrypt E C D kdf aes stringify W fuel co cb sym inputs message inc = Ok (f, k) ->
    witness_file wb vals -> fits_decrypt W fuel cb wb -> jb_valid a -> jb_window a = f ->
    (js_decrypt E C kdf aes W fuel cb wb a = Ok message' <->
     message' = message /\ N.of_nat (List.length vals) = r_n_wires r /\ opens_circuit r vals /\
     forall w z, js_bound sym inputs (r_n_pub_out r + r_n_pub_in r) w z ->
       nth_error vals (N.to_nat w) = Some (fr (z mod 2 ^ 256))).
Proof.
  intros E C D kdf aes stringify W fuel co cb sym inputs message inc f k r wb vals a message' Hkdf Hn Hq Hcf Hu Hfb HW Hone.
  apply js_decrypt_given; try assumption. apply single_texts. exact Hone.
Qed.
Print Assumptions C58_js_decrypt_iff.

(** ** The CLI *)
Section Cli.
  Context (E : pairingT Fr) (C : codecT E) (D : domainT Fr) (kdf : GT E -> key) (aes : cipherT)
          (json_parse : text -> option json) (max_off : N).

  Definition given_bound (gives : N -> Fr -> Prop) (n_in w : N) (a : Fr) : Prop :=
    1 <= w <= n_in /\ (forall j, 1 <= j <= w -> exists b, gives j b) /\ gives w a.
  Lemma encap_iff_given v co cb sb ib st syms t c ct k r (gives : N -> Fr -> Prop) :
    prepared json_parse max_off v cb sb ib t c -> r1cs_from_bytes max_off cb = Ok r -> usable r ->
    factors_below (r_n_wires r) (r_constraints r) ->
    utf8_decode sb = Some st -> parse_sym_file st = Ok syms ->
    (forall inputs w x, 1 <= w -> parse_inputs_text json_parse t = Ok inputs ->
       (nm_get w (cli_witness (get_input_signals (visit_syms v syms) (Some (r_n_pub_in r))) (visit_inputs v inputs)) = Some x <->
        w <= r_n_pub_in r /\ gives w x)) ->
    run_encap E D kdf co c = Ok (ct, k) ->
    forall wb vals rest k2, cli_read_witness wb = Ok vals ->
      (recovers C kdf max_off cb wb (ct_bytes C ct ++ rest) k2 <->
       k2 = k /\ opens_circuit r vals /\
       forall w a, given_bound gives (r_n_pub_in r) w a -> nth_error vals (N.to_nat w) = Some a).
  Proof.
    intros Hprep Hr Hu Hfb Hst0 Hsy0 Hgiv He wb vals rest k2 Hvals.
    destruct (encap_facts E C D kdf json_parse max_off v co cb sb ib t c ct k r Hprep Hr Hu He) as (Hlen&_).
    destruct Hprep as (r'&st'&syms'&inputs&Hr'&Hst&Hsy&Ht&Hin&Hc). destruct Hu as (Hu1&Hu2&Hu3).
    assert (r' = r) by congruence. subst r'. assert (st' = st) by congruence. subst st'. assert (syms' = syms) by congruence. subst syms'. clear Hr' Hst Hsy.
    destruct (r1cs_sound _ _ _ Hr) as [Hok _]. pose proof (ok_nw _ Hok) as Hnw.
    unfold run_encap in He. set (sig := get_input_signals _ _) in Hc. set (a := fun w => nm_get w _) in Hc.
    assert (Ha : forall w x, 1 <= w -> (a w = Some x <-> w <= r_n_pub_in r /\ gives w x)) by (intros w x Hw1; apply (Hgiv inputs w x Hw1 Hin)).
    assert (Hnp : cc_n_public c = r_n_pub_out r + r_n_pub_in r).
    { rewrite Hc. cbn [cc_n_public circom_of_cli]. apply N.mod_small. clear - Hu2 Hnw. lia. }
    assert (Hw : cc_witness c = a) by (rewrite Hc; reflexivity).
    assert (Hnws : cc_n_wires c = r_n_wires r) by (rewrite Hc; reflexivity).
    assert (Hmiss : a (r_n_pub_in r + 1) = None).
    { destruct (a (r_n_pub_in r + 1)) as [x|] eqn:Ex; [|reflexivity]. exfalso.
      apply Ha in Ex; [|clear; lia]. destruct Ex as [Hx _]. clear - Hx. lia. }
    destruct (first_missing a _ Hmiss) as (m&Hm1&Hm2&Hm3).
    assert (Hiff := partial_iff E C D kdf c m (c_alpha co) (c_beta co) (c_delta co) (c_r co) (c_x co) ct k).
    rewrite Hnp, Hnws, Hw in Hiff.
    specialize (Hiff Hu2 Hnw ltac:(clear - Hm1; lia) ltac:(clear - Hm1 Hu1; lia) ltac:(clear - Hm1 Hu3; lia) Hm2 Hm3 He
      (circom_of_cli r (fun w => nth_error vals (N.to_nat w))) k2).
    specialize (Hiff ltac:(cbn [cc_n_public circom_of_cli]; apply N.mod_small; clear - Hu2 Hnw; lia) eq_refl Hfb).
    cbn [cc_n_wires cc_witness cc_constraints circom_of_cli] in Hiff.
    assert (Hrec : recovers C kdf max_off cb wb (ct_bytes C ct ++ rest) k2 <->
      decap kdf (circom_prog (circom_of_cli r (fun w => nth_error vals (N.to_nat w)))) ct = Ok k2).
    { unfold recovers. rewrite (C14_round_trip E C ct rest Hlen). split.
      - intros (r2&vals2&ct2&rest2&R1&R2&R3&R4). assert (r2 = r) by congruence. subst r2. assert (vals2 = vals) by congruence. subst vals2.
        assert (ct2 = ct) by congruence. subst ct2. exact R4.
      - intros R4. exists r, vals, ct, rest. auto. }
    rewrite Hrec, Hiff.
    assert (Hag : (forall i, 1 <= i < m -> nth_error vals (N.to_nat i) = a i) <->
      (forall w x, given_bound gives (r_n_pub_in r) w x -> nth_error vals (N.to_nat w) = Some x)).
    { split.
      - intros G w x (Hwr&Hall&Hgx). assert (Hax : a w = Some x) by (apply Ha; [clear - Hwr; lia|split; [clear - Hwr; lia|exact Hgx]]).
        rewrite <- Hax. apply G. split; [clear - Hwr; lia|]. destruct (N.lt_ge_cases w m) as [Hlt|Hge]; [exact Hlt|exfalso].
        destruct (Hall m ltac:(clear - Hge Hm1; lia)) as (b&Hb).
        assert (Hab : a m = Some b) by (apply Ha; [clear - Hm1; lia|split; [clear - Hge Hwr; lia|exact Hb]]). congruence.
      - intros G i Hi. destruct (a i) as [x|] eqn:Ex; [|exfalso; apply (Hm3 i Hi); exact Ex].
        assert (Hax := proj1 (Ha i x ltac:(clear - Hi; lia)) Ex). apply G. split; [clear - Hi Hax; lia|]. split; [|apply Hax].
        intros j Hjr. destruct (a j) as [y|] eqn:Ey; [|exfalso; apply (Hm3 j ltac:(clear - Hjr Hi; lia)); exact Ey].
        apply Ha in Ey; [|clear - Hjr; lia]. exists y. apply Ey. }
    rewrite Hag. unfold opens_circuit. split.
    - intros (K&A&S&G). split; [exact K|]. split; [|exact G]. split; [|split; [exact Hfb|exact S]].
      assert (Hx := A (r_n_wires r - 1) ltac:(clear - Hu1; lia)). apply nth_error_Some in Hx. clear - Hx Hu1. lia.
    - intros (K&(A&_&S)&G). split; [exact K|]. split; [|split; [exact S|exact G]].
      intros i Hi. apply nth_error_Some. clear - Hi A. lia.
  Qed.

  Lemma plain_given v st syms t kvs r : parse_sym_file st = Ok syms -> json_parse t = Some (JObj kvs) ->
    unambiguous kvs -> separate kvs (fun n => hm_get (lit "main." ++ n) syms) ->
    forall inputs w x, 1 <= w -> parse_inputs_text json_parse t = Ok inputs ->
       (nm_get w (cli_witness (get_input_signals (visit_syms v syms) (Some (r_n_pub_in r))) (visit_inputs v inputs)) = Some x <->
        w <= r_n_pub_in r /\ cli_gives syms kvs w x).
  Proof.
    intros Hsy0 Hj Hun Hse inputs w x Hw1 Hin. set (sig := get_input_signals _ _).
    assert (Hwf := parse_sym_file_wf _ _ Hsy0).
    assert (Hsig := C28_input_signals syms (visit_syms v syms) (Some (r_n_pub_in r)) Hwf (visit_syms_ok v syms)).
    change (get_input_signals (visit_syms v syms) (Some (r_n_pub_in r))) with sig in Hsig.
    assert (Hpi : parse_inputs_with_keys (JObj kvs) = Ok inputs).
    { unfold parse_inputs_text in Hin. rewrite Hj in Hin. exact Hin. }
    rewrite (C29_wire_assignment kvs inputs (visit_inputs v inputs) sig Hun).
    - split.
      + intros [(n&y&Hl&Hn&Hx)|(H0&_)]; [|clear - Hw1 H0; lia]. apply Hsig in Hn. destruct Hn as [Hn Hbd].
          split; [apply Hbd; reflexivity|]. exists n, y. auto.
      + intros (Hw&n&y&Hl&Hn&Hx). left. exists n, y. split; [exact Hl|]. split; [|exact Hx]. apply Hsig. split; [exact Hn|].
          intros b [= <-]. exact Hw.
    - intros n n' y y' w' H H' Hn1 Hn2. apply Hsig in Hn1, Hn2. destruct Hn1 as [Hn1 _], Hn2 as [Hn2 _]. eapply Hse; eauto.
    - exact Hpi.
    - apply visit_inputs_ok.
  Qed.
End Cli.

Lemma cli_decrypt_given :
  forall (E : pairingT Fr) (C : codecT E) (D : domainT Fr) (kdf : GT E -> key) (aes : cipherT)
         json_parse max_off v co cp sp ip mp op inc s1 s1' s2 cp' wp ctp op' cb sb ib mb wb r vals st syms it (gives : N -> Fr -> Prop),
    (forall g, List.length (kdf g) = 32%nat) -> List.length (c_nonce co) = 12%nat ->
    s1 cp = Some cb -> s1 sp = Some sb -> s1 ip = Some ib -> s1 mp = Some mb ->
    r1cs_from_bytes max_off cb = Ok r -> usable r -> factors_below (r_n_wires r) (r_constraints r) ->
    (inc = true -> blen ib < 2 ^ 32) ->
    utf8_decode sb = Some st -> parse_sym_file st = Ok syms -> utf8_decode ib = Some it ->
    (forall inputs w x, 1 <= w -> parse_inputs_text json_parse it = Ok inputs ->
       (nm_get w (cli_witness (get_input_signals (visit_syms v syms) (Some (r_n_pub_in r))) (visit_inputs v inputs)) = Some x <->
        w <= r_n_pub_in r /\ gives w x)) ->
    run (encrypt_command C D kdf aes json_parse max_off v co cp sp ip mp op inc) s1 = (s1', Ok tt) ->
    s2 cp' = Some cb -> s2 ctp = s1' op -> s2 wp = Some wb -> cli_read_witness wb = Ok vals ->
    ((exists s3, run (decrypt_command C kdf aes max_off cp' wp ctp op') s2 = (s3, Ok tt)) <->
     opens_circuit r vals /\
     forall w a, given_bound gives (r_n_pub_in r) w a -> nth_error vals (N.to_nat w) = Some a) /\
    (forall s3, run (decrypt_command C kdf aes max_off cp' wp ctp op') s2 = (s3, Ok tt) -> s3 = fs_write op' mb s2).
Proof.
  intros E C D kdf aes json_parse max_off v co cp sp ip mp op inc s1 s1' s2 cp' wp ctp op' cb sb ib mb wb r vals st syms it gives
    Hkdf Hn H1 H2 H3 H4 Hr Hu Hfb Hib Hst Hsy Hit Hgiv Hrun Hc Hct Hw Hv.
  apply run_exec' in Hrun. apply exec_encrypt in Hrun as [[_ Hx]|Hrun]; [congruence|].
  destruct Hrun as (cb'&sb'&ib'&mb'&t&c&ct&k&enc&E1&E2&E3&E4&Hp&He&Hg&Hcase). cbv zeta in Hcase.
  assert (cb' = cb) by congruence. assert (sb' = sb) by congruence. assert (ib' = ib) by congruence.
  assert (mb' = mb) by congruence. subst cb' sb' ib' mb'. clear E1 E2 E3 E4.
  destruct Hcase as [[_ [Hx|Hx]]|[-> _]]; [congruence|congruence|].
  rewrite fs_write_same in Hct.
  assert (Hutf : utf8_encode t = ib /\ t = it).
  { destruct Hp as (r0&st0&syms0&inputs&_&_&_&Ht&_). split; [apply utf8_decode_sound in Ht as [-> _]; reflexivity|congruence]. }
  destruct Hutf as [Hutf ->].
  destruct (encap_facts E C D kdf json_parse max_off v co cb sb ib it c ct k r Hp Hr Hu He) as (Hl&Hs&_).
  assert (Hiff := fun rest k2 => encap_iff_given E C D kdf json_parse max_off v co cb sb ib st syms it c ct k r gives Hp Hr Hu Hfb Hst Hsy Hgiv He wb vals rest k2 Hv).
  destruct (C34_round_trip_across_tools inc (ct_bytes C ct) (utf8_encode it) enc Hs) as (f&Hf&_&Hsp&_).
  { rewrite Hutf. exact Hib. }
  rewrite Hf in Hct.
  assert (Hk : List.length k = 32%nat).
  { apply encap_key in He as [g ->]. apply Hkdf. }
  assert (Hm : decrypt_gcm aes k enc = Ok mb).
  { destruct (N.lt_ge_cases gcm_limit (blen mb)) as [Hbig|Hsm].
    - exfalso. destruct (C38_failures aes k (c_nonce co) mb) as (_&F1&F2&_).
      destruct (N.le_gt_cases (blen mb) (2 ^ 36)) as [Hx|Hx]; [rewrite F1 in Hg by assumption|rewrite F2 in Hg by assumption]; discriminate.
    - destruct (C38_round_trip aes k (c_nonce co) mb Hk Hn Hsm) as (cc&_&R1&_&_&R2&_). rewrite Hg in R1. injection R1 as ->. exact R2. }
  specialize (Hiff []). rewrite app_nil_r in Hiff.
  assert (Hok : forall s3, run (decrypt_command C kdf aes max_off cp' wp ctp op') s2 = (s3, Ok tt) ->
    s3 = fs_write op' mb s2 /\ recovers C kdf max_off cb wb (ct_bytes C ct) k).
  { intros s3 H. apply run_exec' in H. apply exec_decrypt in H as [[_ Ho]|(cb2&wb2&f2&m2&G1&G2&G3&Hop&H)]; [congruence|].
    destruct H as [[_ [Ho|Ho]]|[-> _]]; [congruence..|].
    assert (cb2 = cb) by congruence. assert (wb2 = wb) by congruence. assert (f2 = f) by congruence. subst cb2 wb2 f2.
    destruct Hop as (p&k2&Hp2&Hr2&Hm2). assert (Hpp : p = parts_of inc (ct_bytes C ct) (utf8_encode it) enc) by congruence. rewrite Hpp in *.
    cbn [p_witness p_message parts_of] in *. destruct (proj1 (Hiff k2) Hr2) as (->&_). split; [congruence|exact Hr2]. }
  split.
  - split.
    + intros (s3&H). destruct (Hok s3 H) as [_ Hr2]. apply Hiff in Hr2. apply Hr2.
    + intros H. exists (fs_write op' mb s2). apply run_decrypt_command with (cb := cb) (wb := wb) (f := f); auto.
      exists (parts_of inc (ct_bytes C ct) (utf8_encode it) enc), k. split; [exact Hsp|]. split; [|exact Hm].
      cbn [p_witness parts_of]. apply Hiff. auto.
  - intros s3 H. apply (Hok s3 H).
Qed.

(** Encrypt, then decrypt with the same circuit: decrypt succeeds exactly for a satisfying witness that
    has the bound values, and then writes the message. *)
Theorem C58_cli_decrypt_iff :
  forall (E : pairingT Fr) (C : codecT E) (D : domainT Fr) (kdf : GT E -> key) (aes : cipherT)
         json_parse max_off v co cp sp ip mp op inc s1 s1' s2 cp' wp ctp op' cb sb ib mb wb r vals st syms it kvs,
    (forall g, List.length (kdf g) = 32%nat) -> List.length (c_nonce co) = 12%nat ->
    s1 cp = Some cb -> s1 sp = Some sb -> s1 ip = Some ib -> s1 mp = Some mb ->
    r1cs_from_bytes max_off cb = Ok r -> usable r -> factors_below (r_n_wires r) (r_constraints r) ->
    (inc = true -> blen ib < 2 ^ 32) ->
    utf8_decode sb = Some st -> parse_sym_file st = Ok syms -> utf8_decode ib = Some it -> json_parse it = Some (JObj kvs) ->
    unambiguous kvs -> separate kvs (fun n => hm_get (lit "main." ++ n) syms) ->
    run (encrypt_command C D kdf aes json_parse max_off v co cp sp ip mp op inc) s1 = (s1', Ok tt) ->
    s2 cp' = Some cb -> s2 ctp = s1' op -> s2 wp = Some wb -> cli_read_witness wb = Ok vals ->
    ((exists s3, run (decrypt_command C kdf aes max_off cp' wp ctp op') s2 = (s3, Ok tt)) <->
     opens_circuit r vals /\
     forall w a, cli_bound syms kvs (r_n_pub_in r) w a -> nth_error vals (N.to_nat w) = Some a) /\
    (forall s3, run (decrypt_command C kdf aes max_off cp' wp ctp op') s2 = (s3, Ok tt) -> s3 = fs_write op' mb s2).
Proof.
  intros E C D kdf aes json_parse max_off v co cp sp ip mp op inc s1 s1' s2 cp' wp ctp op' cb sb ib mb wb r vals st syms it kvs
    Hkdf Hn H1 H2 H3 H4 Hr Hu Hfb Hib Hst Hsy Hit Hj Hun Hse Hrun Hc Hct Hw Hv.
  exact (cli_decrypt_given E C D kdf aes json_parse max_off v co cp sp ip mp op inc s1 s1' s2 cp' wp ctp op' cb sb ib mb wb r vals st syms it
    (cli_gives syms kvs) Hkdf Hn H1 H2 H3 H4 Hr Hu Hfb Hib Hst Hsy Hit (plain_given json_parse v st syms it kvs r Hsy Hj Hun Hse) Hrun Hc Hct Hw Hv).
Qed.
Print Assumptions C58_cli_decrypt_iff.

(** The y * y = x circuit with x = 9 encrypted: the witness (1, 16, 4) satisfies the circuit but has
    another x, so it is refused; (1, 9, 3) and (1, 9, -3) open the file. *)
Definition ex_values_file (vals : list Fr) : list byte :=
  wtns_bytes [WHeader ex_prime32 (N.of_nat (List.length vals)); WData (List.concat (map encode_fr vals))].
Lemma ex_single : js_single ex_sym_text ex_js_inputs.
Proof.
  assert (G : forall w t, js_gives ex_sym_text ex_js_inputs w t -> t = lit "9").
  { intros w t (name&(k&v&[Hi|[]]&Hl)&_). assert (v = JStr (lit "9")) by congruence. subst v.
    remember (JStr (lit "9")) as v eqn:Hv.
    destruct Hl as [key v t H1 H2 Ht|key l i x t H1 H2|key o k' x name t H1 H2]; [|discriminate..]. subst v. cbn [js_to_string] in Ht. congruence. }
  intros w t t' H H'. rewrite (G w t H), (G w t' H'). reflexivity.
Qed.
Lemma ex_bound w z : js_bound ex_sym_text ex_js_inputs 1 w z <-> w = 1 /\ z = 9%Z.
Proof.
  assert (Hg : js_gives ex_sym_text ex_js_inputs 1 (lit "9")).
  { exists (lit "x"). split; [|vm_compute; reflexivity]. exists (lit "x"), (JStr (lit "9")). split; [left; reflexivity|].
    apply jl_scalar; [discriminate|discriminate|reflexivity]. }
  split.
  - intros (Hw&_&t&Ht&Hz). assert (w = 1) by lia. subst w. rewrite (ex_single 1 t (lit "9") Ht Hg) in Hz. vm_compute in Hz. split; congruence.
  - intros [-> ->]. split; [lia|]. split; [|exists (lit "9"); split; [exact Hg|vm_compute; reflexivity]].
    intros j Hj. exists (lit "9"). replace j with 1 by lia. exact Hg.
Qed.
Lemma ex_values_is_file vals : N.of_nat (List.length vals) < 2 ^ 32 -> witness_file (ex_values_file vals) vals.
Proof.
  intros H. exists ex_prime32, [WHeader ex_prime32 (N.of_nat (List.length vals)); WData (List.concat (map encode_fr vals))].
  split; [reflexivity|]. split; [reflexivity|]. rewrite <- (map_length encode_fr vals) in *. apply standard_of; [reflexivity| |exact H].
  apply Forall_map, Forall_forall. intros x _. apply encode_fr_value.
Qed.
Example C58_nonvacuous : forall (aes : cipherT) (inc : bool) (stringify : list (text * json) -> list byte),
  (inc = true -> blen (stringify ex_js_inputs) < 2 ^ 32) ->
  exists f k,
    js_encrypt fr_pairing ex_codec bn_domain ex_kdf32 aes stringify (2 ^ 32) 1000 ex_coins ex_circuit_file ex_sym_text
      ex_js_inputs [x68; x69] inc = Ok (f, k) /\
    js_decrypt fr_pairing ex_codec ex_kdf32 aes (2 ^ 32) 1000 ex_circuit_file (ex_values_file [fr 1; fr 9; fr 3]) (whole f) = Ok [x68; x69] /\
    opens_circuit ex_circuit [fr 1; fr 16; fr 4] /\
    forall m, js_decrypt fr_pairing ex_codec ex_kdf32 aes (2 ^ 32) 1000 ex_circuit_file (ex_values_file [fr 1; fr 16; fr 4]) (whole f) <> Ok m.
Proof.
  intros aes inc stringify Hq.
  assert (Hkdf : forall g, List.length (ex_kdf32 g) = 32%nat) by (intros g; apply le_bytes_length).
  assert (Hfe : fits_encrypt (2 ^ 32) 1000 ex_circuit_file ex_sym_text).
  { repeat split; vm_compute; auto; discriminate. }
  assert (Hu : js_usable ex_circuit) by (split; vm_compute; auto; discriminate).
  destruct (C44_js_encrypt_succeeds fr_pairing ex_codec bn_domain ex_kdf32 aes stringify (2 ^ 32) 1000 ex_coins ex_circuit_file
    ex_sym_text ex_js_inputs [x68; x69] inc ex_circuit Hkdf eq_refl) as (f&k&He).
  { intros Hd. apply (proj2 (feqb_true Fr _ _)) in Hd. vm_compute in Hd. discriminate. }
  { exact ex_circuit_is_file. } { exact Hfe. }
  { constructor; [left; cbn [snd]; constructor; [discriminate|]; repeat constructor; vm_compute; discriminate|constructor]. }
  { vm_compute. discriminate. }
  exists f, k. split; [exact He|].
  assert (Hfb : factors_below (r_n_wires ex_circuit) (r_constraints ex_circuit)) by (repeat constructor).
  assert (Hwin : jb_valid (whole f)) by (unfold jb_valid, whole; cbn [jb_offset jb_length jb_buffer]; apply N.le_refl).
  assert (HI := fun vals wb m Hw Hd => C58_js_decrypt_iff fr_pairing ex_codec bn_domain ex_kdf32 aes stringify (2 ^ 32) 1000 ex_coins ex_circuit_file
    ex_sym_text ex_js_inputs [x68; x69] inc f k ex_circuit wb vals (whole f) m Hkdf eq_refl Hq ex_circuit_is_file Hu Hfb Hfe ex_single He Hw Hd Hwin (window_whole f)).
  assert (Hfd : forall vals, List.length vals = 3%nat -> fits_decrypt (2 ^ 32) 1000 ex_circuit_file (ex_values_file vals)).
  { intros [|a [|b [|c [|d vals]]]] Hl; try discriminate Hl.
    assert (L : blen (ex_values_file [a; b; c]) = 172).
    { unfold ex_values_file. rewrite wtns_two_len. cbn [map List.concat]. rewrite !blen_app. unfold encode_fr. rewrite !blen_le_bytes. reflexivity. }
    unfold fits_decrypt. rewrite L. unfold blen in L. split; [vm_compute; reflexivity|]. split; [reflexivity|]. split; [discriminate|]. lia. }
  split.
  - apply (HI [fr 1; fr 9; fr 3]); [apply ex_values_is_file; reflexivity|apply Hfd; reflexivity|].
    split; [reflexivity|]. split; [reflexivity|]. split.
    + split; [vm_compute; discriminate|]. split; [repeat constructor|].
      constructor; [|constructor]. apply (proj1 (feqb_true Fr _ _)). vm_compute. reflexivity.
    + intros w z Hb. apply ex_bound in Hb as [-> ->]. reflexivity.
  - split.
    + split; [vm_compute; discriminate|]. split; [repeat constructor|].
      constructor; [|constructor]. apply (proj1 (feqb_true Fr _ _)). vm_compute. reflexivity.
    + intros m Hd. apply (HI [fr 1; fr 16; fr 4]) in Hd; [|apply ex_values_is_file; reflexivity|apply Hfd; reflexivity].
      destruct Hd as (_&_&_&Hb). specialize (Hb 1 9%Z (proj2 (ex_bound 1 9%Z) (conj eq_refl eq_refl))).
      change (nth_error [fr 1; fr 16; fr 4] (N.to_nat 1)) with (Some (fr 16)) in Hb.
      assert (Hx : fr 16 = fr (9 mod 2 ^ 256)) by congruence. apply (proj2 (feqb_true Fr _ _)) in Hx. vm_compute in Hx. discriminate.
Qed.
