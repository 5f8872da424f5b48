(** C73: how each call of the JavaScript API ends.  Vocabulary: SpecJsReports.v. *)
From Coq Require Import List Bool Arith NArith ZArith Lia Permutation.
From Coq Require Import Strings.String Strings.Byte.
From Verif Require Import Res Bytes Text Utf8 Fld Zp Groups Bn254 CS CSFacts Qap SpecCore Core CoreFacts CoreMore P_Core
  R1cs SpecR1cs R1csFacts R1csJs R1csJsFacts P_R1cs Wtns SpecWtns WtnsFacts P_Wtns Circuit SpecCircuit CircuitFacts P_Circuit
  ArkSer ArkSerFacts P_Ser Sym SpecSym SymFacts P_Sym Inputs SpecInputs InputsFacts P_Inputs
  Combined SpecCombined CombinedFacts P_Combined Gcm SpecGcm GcmFacts P_Gcm FileSys Commands SpecCommands CommandsFacts
  PartialEncap P_Commands JsZkenc JsZkencFacts P_JsZkenc SpecJs C44Facts P_JsApi JsIff SpecBound P_Bound SpecReports P_Reports
  SpecNumerals P_Numerals WitnessCalc SpecWitnessCalc WitnessCalcFacts P_WitnessCalc JsFull SpecEndToEnd EndToEndFacts P_EndToEnd SpecJsReports.
Import ListNotations.
Local Open Scope N_scope.

(** ** The first of a list of conditions *)
Definition functional {R} (P : R -> Prop) : Prop := forall a b, P a -> P b -> a = b.
Lemma first_of_det {R} (l : list (R -> Prop)) a b : Forall functional l -> first_of l a -> first_of l b -> a = b.
Proof.
  intros HF H. revert b HF. induction H as [P l r HP|P l r HP H IH]; intros b HF X; inversion X; subst; inversion HF; subst.
  - eauto.
  - exfalso. eapply H1; eassumption.
  - exfalso. eapply HP; eassumption.
  - auto.
Qed.
Lemma first_of_iff {R} (l : list (R -> Prop)) a b : Forall functional l -> first_of l a -> (a = b <-> first_of l b).
Proof. intros HF H. split; [intros <-; exact H|apply first_of_det; assumption]. Qed.
Lemma because_functional {R} (P : Prop) (r : R) : functional (because P r).
Proof. intros a b [_ ->] [_ ->]. reflexivity. Qed.
Lemma fo_yes {R} (P : Prop) (r : R) l : P -> first_of (because P r :: l) r.
Proof. intros H. apply fo_here. split; [exact H|reflexivity]. Qed.
Lemma fo_no {R} (P : Prop) (r r0 : R) l : ~ P -> first_of l r -> first_of (because P r0 :: l) r.
Proof. intros H. apply fo_next. intros r' [X _]. exact (H X). Qed.

(** ** The values of a document, in order *)
Section Items.
  Context (signals : hmap N).
  Fixpoint set_items (l : list (text * json)) (m : nmap text) : res js_throw (nmap text) :=
    match l with
    | [] => Ok m
    | (k, x) :: l => match js_set signals k x m with Ok m => set_items l m | Err e => Err e | Panic => Panic end
    end.
  Lemma set_items_app l1 l2 : forall m, set_items (l1 ++ l2) m =
    match set_items l1 m with Ok m => set_items l2 m | Err e => Err e | Panic => Panic end.
  Proof.
    induction l1 as [|[k x] l1 IH]; intros m; cbn [app set_items]; [reflexivity|].
    destruct (js_set signals k x m); [apply IH|reflexivity..].
  Qed.
  Lemma array_items key l : forall i m, js_array signals key (N.of_nat i) l m =
    set_items (map (fun ix => (key ++ lit "[" ++ dec_text (N.of_nat (fst ix)) ++ lit "]", snd ix)) (combine (seq i (List.length l)) l)) m.
  Proof.
    induction l as [|x l IH]; intros i m; cbn [js_array List.length seq combine map set_items fst snd]; [reflexivity|].
    change (index_key key (N.of_nat i)) with (key ++ lit "[" ++ dec_text (N.of_nat i) ++ lit "]").
    destruct (js_set signals _ x m); [|reflexivity..]. replace (N.of_nat i + 1) with (N.of_nat (S i)) by lia. apply IH.
  Qed.
  Lemma flatten_items v : forall key m, js_flatten signals v key m = set_items (value_items key v) m.
  Proof.
    induction v as [|b|z|f|s|l IH|o IH] using json_ind'; intros key m; cbn [js_flatten value_items];
      try (cbn [set_items]; destruct (js_set signals key _ m); reflexivity).
    - apply (array_items key l 0 m).
    - revert m. induction o as [|[k x] o IHo]; intros m; [reflexivity|].
      inversion IH as [|? ? H1 H2]; subst. cbn [snd] in H1. rewrite set_items_app.
      change (js_full_key key k) with (match key with [] => k | _ => key ++ lit "." ++ k end). rewrite H1.
      destruct (set_items (value_items _ x) m) as [m'|e|]; [|reflexivity..]. apply IHo. exact H2.
  Qed.
  Lemma map_items kvs : js_map_inputs kvs signals = set_items (doc_items kvs) [].
  Proof.
    unfold js_map_inputs, doc_items. generalize (@nil (N * text)). intros m. change (nmap text) with (list (N * text)) in *. revert m.
    induction kvs as [|[k v] kvs IH]; intros m; cbn [js_map_inputs_loop flat_map fst snd]; [reflexivity|].
    rewrite set_items_app, flatten_items. destruct (set_items (value_items k v) m) as [m'|e|]; [apply IH|reflexivity..].
  Qed.

  Lemma string_none x : js_to_string x = None <-> x = JNull.
  Proof. destruct x; cbn [js_to_string]; split; congruence. Qed.
  Lemma set_items_outcome l : forall m,
    ((exists name w, In (name, JNull) l /\ hm_get name signals = Some w) /\ set_items l m = Err JsTypeError) \/
    (~ (exists name w, In (name, JNull) l /\ hm_get name signals = Some w) /\ exists m', set_items l m = Ok m').
  Proof.
    induction l as [|[k x] l IH]; intros m; cbn [set_items].
    - right. split; [intros (name&w&[]&_)|eauto].
    - unfold js_set. destruct (hm_get k signals) as [w|] eqn:Ek.
      + destruct (js_to_string x) as [t|] eqn:Et.
        * destruct (IH (nm_insert w t m)) as [[(name&w'&H1&H2) H3]|[H1 H2]].
          -- left. split; [exists name, w'; split; [right; exact H1|exact H2]|exact H3].
          -- right. split; [|exact H2]. intros (name&w'&[X|X]&Y); [|eauto]. injection X as -> ->. discriminate.
        * left. apply string_none in Et. subst x. split; [|reflexivity]. exists k, w. split; [left; reflexivity|exact Ek].
      + destruct (IH m) as [[(name&w'&H1&H2) H3]|[H1 H2]].
        * left. split; [exists name, w'; split; [right; exact H1|exact H2]|exact H3].
        * right. split; [|exact H2]. intros (name&w'&[X|X]&Y); [congruence|eauto].
  Qed.
  Definition left_on (l : list (text * json)) (w : N) (t : text) : Prop :=
    exists pre name x post, l = pre ++ (name, x) :: post /\ hm_get name signals = Some w /\ js_to_string x = Some t /\
      forall name' x', In (name', x') post -> hm_get name' signals <> Some w.
  Lemma set_items_get l : forall m m', set_items l m = Ok m' -> forall w t,
    nm_get w m' = Some t <-> left_on l w t \/ ((forall name x, In (name, x) l -> hm_get name signals <> Some w) /\ nm_get w m = Some t).
  Proof.
    induction l as [|[k x] l IH]; intros m m' H w t; cbn [set_items] in H.
    - injection H as <-. split.
      + intros Hw. right. split; [intros name x []|exact Hw].
      + intros [(pre&name&x&post&Hx&_)|[_ Hw]]; [destruct pre; discriminate|exact Hw].
    - unfold js_set in H. 
      assert (Hl : forall w t, left_on l w t -> left_on ((k, x) :: l) w t).
      { intros w0 t0 (pre&name&y&post&->&H1&H2&H3). exists ((k, x) :: pre), name, y, post. auto. }
      destruct (hm_get k signals) as [w0|] eqn:Ek.
      + destruct (js_to_string x) as [t0|] eqn:Et; [|discriminate]. rewrite (IH _ _ H w t). rewrite nm_get_insert. split.
        * intros [HL|[HN HG]]; [left; auto|]. destruct (N.eqb_spec w w0) as [->|Hne].
          -- left. exists [], k, x, l. split; [reflexivity|]. split; [exact Ek|]. split; [congruence|exact HN].
          -- right. split; [|exact HG]. intros name y [X|X]; [|eauto]. injection X as <- <-. congruence.
        * intros [(pre&name&y&post&Hx&H1&H2&H3)|[HN HG]].
          -- destruct pre as [|p pre]; cbn [app] in Hx.
             ++ injection Hx as <- <- <-. assert (w = w0) by congruence. subst w. right. split; [exact H3|]. rewrite N.eqb_refl. congruence.
             ++ left. injection Hx as _ ->. exists pre, name, y, post. auto.
          -- right. split; [intros name y X; eapply HN; right; exact X|]. destruct (N.eqb_spec w w0) as [->|_]; [|exact HG].
             exfalso. exact (HN k x (or_introl eq_refl) Ek).
      + rewrite (IH _ _ H w t). split.
        * intros [HL|[HN HG]]; [left; auto|]. right. split; [|exact HG]. intros name y [X|X]; [|eauto]. injection X as <- <-. congruence.
        * intros [(pre&name&y&post&Hx&H1&H2&H3)|[HN HG]].
          -- destruct pre as [|p pre]; cbn [app] in Hx; [injection Hx as <- <- <-; congruence|].
             left. injection Hx as _ ->. exists pre, name, y, post. auto.
          -- right. split; [intros name y X; eapply HN; right; exact X|exact HG].
  Qed.
End Items.

(** ** The wire values of a document *)
Section Wires.
  Context (sym : text) (kvs : list (text * json)).
  Notation signals := (get_input_signals (js_parse_sym_file sym) None).
  Lemma on_wire_iff name w : on_wire sym name w <-> hm_get name signals = Some w.
  Proof. symmetry. apply signal_wire. Qed.
  Lemma wires_outcome :
    (null_given sym kvs /\ js_map_inputs kvs signals = Err JsTypeError) \/
    (~ null_given sym kvs /\ exists m, js_map_inputs kvs signals = Ok m /\ forall w t, nm_get w m = Some t <-> leaves sym kvs w t).
  Proof.
    rewrite map_items. destruct (set_items_outcome signals (doc_items kvs) []) as [[(name&w&H1&H2) H3]|[H1 (m&H2)]].
    - left. split; [|exact H3]. exists name, w. split; [exact H1|]. apply on_wire_iff. exact H2.
    - right. split.
      + intros (name&w&X&Y). apply H1. exists name, w. split; [exact X|]. apply on_wire_iff. exact Y.
      + exists m. split; [exact H2|]. intros w t. rewrite (set_items_get signals _ _ _ H2 w t). unfold left_on, leaves. split.
        * intros [(pre&name&x&post&X1&X2&X3&X4)|[_ X]]; [|discriminate].
          exists pre, name, x, post. split; [exact X1|]. split; [apply on_wire_iff; exact X2|]. split; [exact X3|].
          intros name' x' Hin Ho. apply on_wire_iff in Ho. exact (X4 name' x' Hin Ho).
        * intros (pre&name&x&post&X1&X2&X3&X4). left.
          exists pre, name, x, post. split; [exact X1|]. split; [apply on_wire_iff; exact X2|]. split; [exact X3|].
          intros name' x' Hin Ho. apply on_wire_iff in Ho. exact (X4 name' x' Hin Ho).
  Qed.
  Lemma no_number t : js_bigint t = None <-> forall z, ~ bigint_text t z.
  Proof.
    split.
    - intros H z Hz. apply C57_bigint_texts in Hz. congruence.
    - intros H. destruct (js_bigint t) as [z|] eqn:E; [|reflexivity]. exfalso. apply (H z). apply C57_bigint_texts. exact E.
  Qed.
  Lemma array_outcome m : (forall w t, nm_get w m = Some t <-> leaves sym kvs w t) ->
    (bad_number sym kvs /\ js_witness_array m = Err JsSyntaxError) \/
    (~ bad_number sym kvs /\ exists zs, js_witness_array m = Ok (1%Z :: zs) /\ prefix_values m zs).
  Proof.
    intros Hm. pose proof (C47_witness_prefix m) as H. destruct (js_witness_array m) as [l|e|]; [| |contradiction].
    - right. destruct H as (zs&->&Hz). split; [|eauto]. intros (w&t&Hw&Ht&Hb&Hbefore). destruct Hz as [Hz1 Hz2].
      apply Hm in Ht. destruct (N.lt_ge_cases (N.of_nat (List.length zs)) (w - 1)) as [Hlt|Hge].
      + destruct (Hbefore (1 + N.of_nat (List.length zs)) ltac:(lia)) as (t'&z'&Hl&_). apply Hm in Hl. congruence.
      + destruct (N.eq_dec (N.of_nat (List.length zs)) (w - 1)) as [Heq|Hne].
        * replace (1 + N.of_nat (List.length zs)) with w in Hz2 by lia. congruence.
        * destruct (nth_error zs (N.to_nat (w - 1))) as [z|] eqn:Ez; [|apply nth_error_None in Ez; lia].
          destruct (Hz1 _ _ Ez) as (t'&Ht'&Hb'). replace (1 + N.of_nat (N.to_nat (w - 1))) with w in Ht' by lia.
          assert (t' = t) by congruence. subst t'. apply (Hb z). apply C57_bigint_texts. exact Hb'.
    - left. destruct H as (->&i&t&H1&H2&H3&H4). split; [|reflexivity]. exists i, t. split; [exact H2|].
      split; [apply Hm; exact H3|]. split; [apply no_number; exact H4|]. intros v Hv. destruct (H1 v Hv) as (t'&z'&X&Y).
      exists t', z'. split; [apply Hm; exact X|apply C57_bigint_texts; exact Y].
  Qed.
End Wires.

(** Room in the address space for the values the inputs give ([fits_encrypt] without the circuit file). *)
Definition room (W : N) (fuel : nat) (sym : text) : Prop :=
  let n := N.of_nat (List.length (js_parse_sym_file sym)) in
  W <= 2 ^ 64 /\ n < 2 ^ 32 - 1 /\ 2 * (108 + 32 * n) < W /\ 108 + 32 * n < N.of_nat fuel.

Notation outcome := (rmap (fun _ => tt)).
Section Encap.
  Context (E : pairingT Fr) (C : codecT E) (D : domainT Fr) (kdf : GT E -> key) (aes : cipherT)
          (stringify : list (text * json) -> list byte) (W : N) (fuel : nat).

  Lemma encap_first co cb sym kvs rest r : room W fuel sym ->
    (forall ck, js_encap E C D kdf W fuel co cb sym kvs = Ok ck -> (exists g, snd ck = kdf g) -> first_of rest r) ->
    (forall e, js_encap E C D kdf W fuel co cb sym kvs = Err e -> r = Err e) ->
    (js_encap E C D kdf W fuel co cb sym kvs = Panic -> r = Panic) ->
    first_of (js_encap_reports W co cb sym kvs ++ rest) r.
  Proof.
    intros (HW2&Hn&HW3&Hfu) HO HE HP. unfold js_encap_reports, circuit_reports. cbn [app].
    unfold js_encap in HO, HE, HP.
    destruct (wires_outcome sym kvs) as [[H1 H2]|(H1&m&H2&Hm)]; rewrite H2 in HO, HE, HP; cbn [rmap_err rbind] in HO, HE, HP.
    { rewrite (HE _ eq_refl). apply fo_yes. exact H1. }
    apply fo_no; [exact H1|].
    destruct (array_outcome sym kvs m Hm) as [[H3 H4]|(H3&zs&H4&Hz)]; rewrite H4 in HO, HE, HP; cbn [rmap_err rbind] in HO, HE, HP.
    { rewrite (HE _ eq_refl). apply fo_yes. exact H3. }
    apply fo_no; [exact H3|].
    pose proof (prefix_short sym kvs m zs H2 Hz) as Hs.
    destruct (C47_read_back W fuel (1%Z :: zs)) as (file&Hf&_&Hrd).
    { cbn [List.length]. clear - Hs HW3. lia. } { exact HW2. }
    { cbn [List.length]. clear - Hs Hn. change (2 ^ 32) with 4294967296 in *. lia. } { cbn [List.length]. clear - Hs Hfu. lia. }
    rewrite Hf in HO, HE, HP. cbn [rmap_err rbind] in HO, HE, HP. unfold wasm_encap in HO, HE, HP.
    destruct (js_parse_r1cs W cb) as [[h cs]|e|] eqn:Er; cbn [rmap_err rbind] in HO, HE, HP.
    - apply fo_no; [discriminate|]. apply fo_next; [intros r' (e&X&_); discriminate|].
      rewrite Hrd in HO, HE, HP. cbn [rmap_err rbind] in HO, HE, HP. cbv zeta in HO, HE, HP.
      match type of HE with context [run_encap E D kdf co ?c] => set (c0 := c) in * end.
      destruct (run_encap_outcome E D kdf co c0) as [[X1 X2]|(X1&ct&k&X2)]; rewrite X2 in HO, HE, HP; cbn [rmap_err rbind fst snd] in HO, HE, HP.
      + rewrite (HP eq_refl). apply fo_yes. exact X1.
      + apply fo_no; [exact X1|]. apply (HO (ct_bytes C ct, k) eq_refl). apply encap_key in X2 as [g ->]. exists g. reflexivity.
    - apply fo_no; [discriminate|]. rewrite (HE _ eq_refl). apply fo_here. eauto.
    - rewrite (HP eq_refl). apply fo_yes. reflexivity.
  Qed.

  Lemma js_encap_ends co cb sym kvs : room W fuel sym ->
    first_of (js_encap_reports W co cb sym kvs ++ fine) (outcome (js_encap E C D kdf W fuel co cb sym kvs)).
  Proof.
    intros Hr. apply encap_first; [exact Hr| | |].
    - intros ck -> _. apply fo_yes. exact I.
    - intros e ->. reflexivity.
    - intros ->. reflexivity.
  Qed.
  Lemma js_encrypt_ends co cb sym kvs message inc : (forall g, List.length (kdf g) = 32%nat) -> room W fuel sym ->
    first_of (js_encrypt_reports W co cb sym kvs message ++ fine)
             (outcome (js_encrypt E C D kdf aes stringify W fuel co cb sym kvs message inc)).
  Proof.
    intros Hkdf Hr. unfold js_encrypt_reports. rewrite <- app_assoc. unfold js_encrypt. apply encap_first; [exact Hr| | |].
    - intros [ctb k] -> [g Hg]. cbn [rbind fst snd] in *. subst k. specialize (Hkdf g). cbn [app].
      change (2 ^ 36 - 32) with gcm_limit. destruct (C38_failures aes (kdf g) (c_nonce co) message) as (_&_&_&F).
      destruct (N.lt_ge_cases gcm_limit (blen message)) as [Hl|Hl].
      + rewrite F by assumption. apply fo_yes. exact Hl.
      + apply fo_no; [apply N.le_ngt; exact Hl|]. unfold aesGcmEncrypt. rewrite key_ok by exact Hkdf. change ctr32_max with gcm_limit.
        rewrite (proj2 (N.ltb_ge _ _) Hl). cbn [rmap_err rbind]. rewrite js_combine_layout. apply fo_yes. exact I.
    - intros e ->. reflexivity.
    - intros ->. reflexivity.
  Qed.
End Encap.

(** ** Rows and values beyond the last wire *)
Lemma combination_keep (a : N -> Fr) n l : (forall i, n <= i -> a i = f0) -> combination a (keep_wires n l) = combination a l.
Proof.
  intros Ha. induction l as [|[i b] l IH]; [reflexivity|]. unfold keep_wires in *. cbn [filter fst]. destruct (N.ltb_spec i n) as [H|H].
  - cbn [combination]. rewrite IH. reflexivity.
  - rewrite IH. cbn [combination]. rewrite (Ha i H). rewrite (fmul_0_r Fr), (fadd_0_l Fr). reflexivity.
Qed.
Lemma satisfies_drop (a : N -> Fr) n cs : (forall i, n <= i -> a i = f0) ->
  (satisfies a (map (drop_unknown n) cs) <-> satisfies a cs).
Proof.
  intros Ha. unfold satisfies. rewrite Forall_map.
  split; intros H; (eapply Forall_impl; [|exact H]); intros d Hd; unfold row_true, drop_unknown in *; cbn [c_a c_b c_c] in *;
    rewrite !combination_keep in * by exact Ha; exact Hd.
Qed.
Lemma satisfies_dec (a : N -> Fr) cs : satisfies a cs \/ ~ satisfies a cs.
Proof.
  unfold satisfies. induction cs as [|d cs [IH|IH]]; [left; constructor| |right; intros X; inversion X; contradiction].
  destruct (feqb_spec (fmul (combination a (c_a d)) (combination a (c_b d))) (combination a (c_c d))) as [H|H].
  - left. constructor; assumption.
  - right. intros X. inversion X; contradiction.
Qed.
Lemma prefix_dec (p l : list Fr) : (exists others, l = p ++ others) \/ ~ (exists others, l = p ++ others).
Proof.
  revert l. induction p as [|x p IH]; intros l; [left; exists l; reflexivity|].
  destruct l as [|y l]; [right; intros (o&X); discriminate|].
  destruct (feqb_spec x y) as [->|Hne]; [|right; intros (o&X); injection X as X _; congruence].
  destruct (IH l) as [(o&->)|Hn]; [left; exists o; reflexivity|right; intros (o&X); injection X as X; apply Hn; exists o; exact X].
Qed.

(** A circuit all of whose [nw] wires have values. *)
Lemma too_many_public c : 1 <= cc_n_wires c <= cc_n_public c ->
  (forall i, 1 <= i < cc_n_wires c -> cc_witness c i <> None) -> cc_witness c (cc_n_wires c) = None ->
  stops_with (circom_prog c) = Some AssignmentMissing.
Proof.
  intros Hn Hk Hmiss. unfold stops_with, circom_prog. set (nw := cc_n_wires c) in *. set (np := cc_n_public c) in *.
  rewrite (range_split 1 nw (np + 1)) by (clear - Hn; lia). rewrite (range_cons nw (np + 1)) by (clear - Hn; lia).
  assert (Hkn : known (cc_witness c) (range 1 nw)).
  { apply Forall_forall. intros i Hi. apply range_in in Hi. apply Hk. exact Hi. }
  match goal with |- context [alloc_inputs _ _ _ ?k] => destruct (inputs_stop (cc_witness c) (range 1 nw) nw (range (nw + 1) (np + 1)) Hkn Hmiss 1 0 vmap_init k) as (_&_&_&H4&_) end.
  exact H4.
Qed.

Lemma decap_key (E : pairingT Fr) (kdf : GT E -> key) c (ct : ciphertext Fr E) k : decap kdf c ct = Ok k -> exists g, k = kdf g.
Proof.
  unfold decap. repeat match goal with |- context [match ?x with _ => _ end] => destruct x end; try discriminate; intros X; injection X as <-; eauto.
Qed.

Section Decap.
  Context (E : pairingT Fr) (C : codecT E) (kdf : GT E -> key) (aes : cipherT) (W : N) (fuel : nat)
          (m : wmodule) (cb : list byte) (full : list (text * json)).
  Hypotheses (Hmod : module_ok m) (Hprime : md_prime m = Z.to_N bn_r) (Hn32 : md_n32 m = 8%nat) (Hsize : 0 < md_wsize m < 2 ^ 32)
             (HW : 2 * (76 + 32 * md_wsize m) < W) (HW2 : W <= 2 ^ 64) (Hfu : 76 + 32 * md_wsize m < N.of_nat fuel).

  Lemma witness_outcome :
    (exists e, calculate_witness m full = Err e /\ calculate_wtns m full = Err e) \/
    (exists vals file, (forall e, calculate_witness m full <> Err e) /\ has_witness m full vals /\
      (forall vals', has_witness m full vals' -> vals' = vals) /\ N.of_nat (List.length vals) = md_wsize m /\
      calculate_wtns m full = Ok file /\ js_parse_witness W file fuel = Ok vals).
  Proof.
    pose proof (C48_same_witness_in_every_form m full Hmod) as H.
    destruct (calculate_witness m full) as [zs|e|] eqn:Ec; [|left; exists e; split; [reflexivity|apply H]|contradiction].
    right. destruct H as (H1&H2&_&H3). set (file := wtns_bytes _) in H3.
    destruct (proj1 (C48_witness_iff m full zs Hmod) Ec) as (gs&w&Hg&Hw&Hzs).
    destruct (C48_bn254_file m full zs file Hmod Hprime Hn32 (proj2 Hsize) Ec H3) as [_ Hlen]. rewrite H1 in Hlen.
    assert (Hmap : map fr zs = map (fun v => fr (Z.of_N v)) w) by (rewrite Hzs, map_map; reflexivity).
    exists (map fr zs), file. split; [discriminate|]. split.
    { exists gs, w. auto. }
    split.
    { intros vals' (gs'&w'&Hg'&Hw'&->).
      assert (X : calculate_witness m full = Ok (map Z.of_N w')) by (apply C48_witness_iff; [exact Hmod|eauto]).
      rewrite Ec in X. assert (Y : zs = map Z.of_N w') by congruence. rewrite Y, map_map. reflexivity. }
    split; [rewrite map_length; exact H1|]. split; [exact H3|].
    apply (C48_both_tools_read_the_witness m full zs file W fuel Hmod Hprime Hn32 Hsize Ec H3).
    - rewrite Hlen. exact HW.
    - exact HW2.
    - unfold blen in Hlen. clear - Hlen Hfu. lia.
  Qed.

  Lemma decap_first ctb rest r :
    (forall k, decap_inputs E C kdf W fuel m cb ctb full = Ok k -> (exists g, k = kdf g) -> first_of rest r) ->
    (forall e, decap_inputs E C kdf W fuel m cb ctb full = Err e -> r = Err e) ->
    (decap_inputs E C kdf W fuel m cb ctb full = Panic -> r = Panic) ->
    first_of (js_decap_reports E C W m cb full ctb ++ rest) r.
  Proof.
    intros HO HE HP. unfold js_decap_reports, circuit_reports. cbn [app]. unfold decap_inputs, js_decap, wasm_decap in HO, HE, HP.
    destruct witness_outcome as [(e&H1&H2)|(vals&file&H1&Hv&Hu&Hl&H2&H3)]; rewrite H2 in HO, HE, HP; cbn [rmap_err rbind] in HO, HE, HP.
    { rewrite (HE _ eq_refl). apply fo_here. eauto. }
    apply fo_next. { intros r' (e&X&_). exact (H1 e X). }
    destruct (js_parse_r1cs W cb) as [[h cs]|e|] eqn:Er; cbn [rmap_err rbind] in HO, HE, HP.
    3:{ rewrite (HP eq_refl). apply fo_yes. reflexivity. }
    2:{ apply fo_no; [discriminate|]. rewrite (HE _ eq_refl). apply fo_here. eauto. }
    apply fo_no; [discriminate|]. apply fo_next; [intros r' (e&X&_); discriminate|].
    assert (Hrd : forall h' cs', reads_as W cb h' cs' -> h' = h /\ cs' = cs).
    { unfold reads_as. intros h' cs' X. split; congruence. }
    rewrite H3 in HO, HE, HP. cbn [rmap_err rbind] in HO, HE, HP.
    destruct (N.eqb_spec (N.of_nat (List.length vals)) (j_n_wires h)) as [Heq|Hne]; cbn [negb] in HO, HE, HP.
    2:{ rewrite (HE _ eq_refl). apply fo_yes. exists h, cs, vals. auto. }
    apply fo_no. { intros (h'&cs'&vals'&X1&X2&X3). destruct (Hrd _ _ X1) as [-> ->]. rewrite (Hu _ X2) in X3. contradiction. }
    destruct (ct_deserialize C ctb) as [[ct tl_]|] eqn:Ect; cbn [of_option rmap_err rbind fst] in HO, HE, HP.
    2:{ rewrite (HE _ eq_refl). apply fo_yes. reflexivity. }
    apply fo_no; [discriminate|].
    set (w := fun i => nth_error vals (N.to_nat i)) in *. set (c := circom_of_js h cs w) in *.
    assert (Hw : forall i, w i <> None <-> i < j_n_wires h).
    { intros i. unfold w. rewrite nth_error_Some. clear - Heq. lia. }
    pose proof (circom_well_formed c) as Hwf.
    destruct (C04_decap_error_table Fr E kdf (circom_prog c) ct Hwf) as (T1&T2&T3&T4&T5).
    assert (Hh : forall P : js_header -> list constraint_t -> Prop, (exists h' cs', reads_as W cb h' cs' /\ P h' cs') -> P h cs).
    { intros P (h'&cs'&X&Y). destruct (Hrd _ _ X) as [-> ->]. exact Y. }
    destruct (N.le_gt_cases (j_n_wires h) ((j_n_pub_out h + j_n_pub_in h) mod 2 ^ 32)) as [Hp|Hp].
    { assert (S : stops_with (circom_prog c) = Some AssignmentMissing).
      { apply too_many_public.
        - cbn [cc_n_wires cc_n_public c circom_of_js]. split; [clear - Heq Hl Hsize; lia|exact Hp].
        - intros i Hi. apply Hw. apply Hi.
        - cbn [cc_n_wires c circom_of_js cc_witness]. destruct (w (j_n_wires h)) eqn:Ex; [|reflexivity]. exfalso.
          assert (Y : j_n_wires h < j_n_wires h) by (apply Hw; congruence). clear - Y. lia. }
      rewrite (T1 _ S) in HE. cbn [rmap_err rbind] in HE. rewrite (HE _ eq_refl). apply fo_yes. exists h, cs. split; [exact Er|exact Hp]. }
    apply fo_no. { intros (h'&cs'&X&Y). destruct (Hrd _ _ X) as [-> ->]. clear - Hp Y. lia. }
    assert (Hna : n_alloc c = j_n_wires h).
    { unfold n_alloc. cbn [cc_n_wires cc_n_public c circom_of_js]. unfold js_n_public. clear - Hp. lia. }
    destruct (circom_synthesis c) as (_&Hcomp&Hpub&Hpriv&Hhold).
    { cbn [cc_n_public c circom_of_js]. unfold js_n_public. clear - Hp Heq Hl Hsize. lia. }
    { rewrite Hna. intros i Hi. apply Hw. apply Hi. }
    rewrite Hna, satisfies_drop in Hhold.
    2:{ intros i Hi. unfold wires. destruct (N.eqb_spec i 0) as [->|_]; [exfalso; clear - Hi Heq Hl Hsize; lia|].
        cbn [cc_witness c circom_of_js]. destruct (w i) eqn:Ex; [|reflexivity]. exfalso.
        assert (Y : i < j_n_wires h) by (apply Hw; congruence). clear - Y Hi. lia. }
    cbn [cc_witness c circom_of_js cc_constraints] in Hhold.
    destruct (satisfies_dec (wires w) cs) as [Hs|Hs].
    2:{ rewrite T2 in HE by (auto; intros X; apply Hs, Hhold; exact X). cbn [rmap_err rbind] in HE. rewrite (HE _ eq_refl).
        apply fo_yes. exists h, cs, vals. split; [exact Er|]. split; [exact Hv|exact Hs]. }
    apply fo_no. { intros (h'&cs'&vals'&X1&X2&X3). destruct (Hrd _ _ X1) as [-> ->]. rewrite (Hu _ X2) in X3. exact (X3 Hs). }
    apply Hhold in Hs.
    assert (Htl : public_values (circom_prog c) ++ private_values (circom_prog c) = tl vals).
    { rewrite Hpub, Hpriv. cbn [cc_n_public c circom_of_js cc_n_wires cc_witness]. rewrite <- map_app, <- range_split.
      2:{ clear. apply N.le_add_l. }
      2:{ unfold js_n_public. rewrite N.add_1_r. apply N.le_succ_l. exact Hp. }
      destruct vals as [|v0 vals]; [cbn [List.length] in Hl; clear - Hl Hsize; lia|]. cbn [tl].
      assert (G : forall i, nth_error (map (wires w) (range 1 (j_n_wires h))) i = nth_error vals i).
      { intros i. destruct (Nat.lt_ge_cases i (List.length vals)) as [Hi|Hi].
        - rewrite nth_error_map, range_nth by (cbn [List.length] in Heq; clear - Heq Hi; lia). cbn [option_map].
          unfold wires. rewrite (proj2 (N.eqb_neq (1 + N.of_nat i) 0)) by (clear; lia). unfold w.
          replace (N.to_nat (1 + N.of_nat i)) with (S i) by (clear; lia). cbn [nth_error].
          destruct (nth_error vals i) eqn:Ei; [reflexivity|]. apply nth_error_None in Ei. clear - Ei Hi. lia.
        - rewrite !(proj2 (nth_error_None _ _)); [reflexivity|exact Hi|].
          rewrite map_length, range_length. cbn [List.length] in Heq. clear - Heq Hi. lia. }
      clear - G. revert G. generalize (map (wires w) (range 1 (j_n_wires h))). clear. intros l. revert vals.
      induction l as [|x l IH]; intros [|y vals] G; [reflexivity|specialize (G 0%nat); discriminate|specialize (G 0%nat); discriminate|].
      assert (X : Some x = Some y) by exact (G 0%nat). f_equal; [congruence|]. apply IH. intros i. exact (G (S i)). }
    rewrite Htl in T3, T4, T5.
    destruct (prefix_dec (public_inputs ct) (tl vals)) as [Hx|Hx].
    2:{ rewrite (T3 Hcomp Hs Hx) in HE. cbn [rmap_err rbind] in HE. rewrite (HE _ eq_refl).
        apply fo_yes. exists ct, tl_, vals. auto. }
    apply fo_no. { intros (ct'&tl'&vals'&X1&X2&X3). rewrite (Hu _ X2) in X3. assert (ct' = ct) by congruence. subst ct'. exact (X3 Hx). }
    assert (Hq : (r_u_query_g1 (ct_key ct) = [] \/ r_v_query_g2 (ct_key ct) = [] \/ phi_delta_query_g1 (ct_key ct) = []) \/
      (r_u_query_g1 (ct_key ct) <> [] /\ r_v_query_g2 (ct_key ct) <> [] /\ phi_delta_query_g1 (ct_key ct) <> [])).
    { destruct (r_u_query_g1 (ct_key ct)); [left; auto|]. destruct (r_v_query_g2 (ct_key ct)); [left; auto|].
      destruct (phi_delta_query_g1 (ct_key ct)); [left; auto|]. right. repeat split; discriminate. }
    destruct Hq as [Hq|(Q1&Q2&Q3)].
    { rewrite (T4 Hcomp Hs Hx Hq) in HE. cbn [rmap_err rbind] in HE. rewrite (HE _ eq_refl). apply fo_yes. eauto. }
    apply fo_no. { intros (ct'&tl'&X1&X2). assert (ct' = ct) by congruence. subst ct'. destruct X2 as [X|[X|X]]; contradiction. }
    destruct (T5 Hcomp Hs Hx Q1 Q2 Q3) as (k&Hk). rewrite Hk in HO. cbn [rmap_err rbind] in HO. apply (HO k eq_refl).
    apply decap_key in Hk. exact Hk.
  Qed.
End Decap.

(** ** Taking a combined file apart *)
Lemma skip_app (a b : list byte) n : blen a = n -> from (a ++ b) n = b.
Proof. intros <-. unfold from, blen. rewrite Nat2N.id, skipn_app, skipn_all, Nat.sub_diag. reflexivity. Qed.
Lemma skip_past (a : list byte) n : blen a <= n -> from a n = [].
Proof. intros H. unfold from, blen in *. apply skipn_all2. lia. Qed.
Lemma file_head flag w r : blen w < 2 ^ 32 ->
  length_field (flag :: block w ++ r) 1 = blen w /\ witness_part (flag :: block w ++ r) = w /\
  (with_public (flag :: block w ++ r) <-> flag = x01) /\ blen (flag :: block w ++ r) = 5 + blen w + blen r /\
  forall n, from (flag :: block w ++ r) (5 + blen w + n) = from r n.
Proof.
  intros Hw.
  assert (L : length_field (flag :: block w ++ r) 1 = blen w).
  { unfold block. rewrite <- app_assoc.
    rewrite (announced_app [flag] (be_bytes 4 (blen w)) (w ++ r) 1 eq_refl (be_bytes_length 4 _) : length_field (flag :: be_bytes 4 (blen w) ++ w ++ r) 1 = _).
    apply be4_val. exact Hw. }
  split; [exact L|]. split; [|split; [|split]].
  - unfold witness_part. rewrite L. unfold block. rewrite <- app_assoc.
    change (flag :: be_bytes 4 (blen w) ++ w ++ r) with ((flag :: be_bytes 4 (blen w)) ++ w ++ r).
    rewrite skip_app by (rewrite blen_cons, blen4; reflexivity). unfold blen. rewrite Nat2N.id, firstn_app, Nat.sub_diag, firstn_all.
    cbn [firstn]. apply app_nil_r.
  - unfold with_public. cbn [nth_error]. split; [congruence|intros ->; reflexivity].
  - rewrite blen_cons, blen_app, block_len. lia.
  - intros n. unfold from. change (flag :: block w ++ r) with ((flag :: block w) ++ r). rewrite skipn_app.
    assert (X : List.length (flag :: block w) = N.to_nat (5 + blen w)).
    { pose proof (block_len w) as B. unfold blen in *. cbn [List.length]. lia. }
    rewrite skipn_all2 by lia. cbn [app]. f_equal. lia.
Qed.
Lemma split_outcome f :
  (blen f < 5 /\ js_split (whole f) = Err JTooShort) \/
  (5 <= blen f /\ blen f < 5 + length_field f 1 /\ js_split (whole f) = Err JLengthMismatch) \/
  (5 <= blen f /\ 5 + length_field f 1 <= blen f /\ (with_public f /\ blen f < 9 + length_field f 1) /\ js_split (whole f) = Err JMissingPublic) \/
  (5 <= blen f /\ 5 + length_field f 1 <= blen f /\ ~ (with_public f /\ blen f < 9 + length_field f 1) /\
   exists b, is_message_part f b /\ js_split (whole f) = Ok (witness_part f, b)).
Proof.
  destruct (shape_total f) as [b Hs|flag l4 r H4 Hr|flag w r Hf Hw|w r Hw Hr|w l4 r Hw H4 Hr|w q r Hw Hq].
  - left. split; [exact Hs|apply js_split_short; exact Hs].
  - right. left. rewrite js_split_no_witness by assumption.
    rewrite (announced_app [flag] l4 r 1 eq_refl H4 : length_field (flag :: l4 ++ r) 1 = _). rewrite head_len by exact H4.
    clear - Hr. split; [lia|]. split; [lia|reflexivity].
  - do 3 right. rewrite js_split_plain by assumption. destruct (file_head flag w r Hw) as (L1&L2&L3&L4&L5). rewrite L1, L2, L4.
    split; [lia|]. split; [lia|]. split; [intros [X _]; apply L3 in X; contradiction|]. exists r. split; [|reflexivity].
    right. rewrite L1. split; [intros X; apply L3 in X; contradiction|]. specialize (L5 0). rewrite N.add_0_r in L5. rewrite L5. reflexivity.
  - right. right. left. rewrite js_split_no_length by assumption. destruct (file_head x01 w r Hw) as (L1&L2&L3&L4&L5). rewrite L1, L4.
    split; [lia|]. split; [lia|]. split; [split; [apply L3; reflexivity|lia]|reflexivity].
  - do 3 right. rewrite js_split_no_public by assumption. destruct (file_head x01 w (l4 ++ r) Hw) as (L1&L2&L3&L4&L5). rewrite L1, L2, L4.
    assert (B4 : blen l4 = 4) by (unfold blen; rewrite H4; reflexivity). rewrite blen_app, B4.
    split; [lia|]. split; [lia|]. split; [intros [_ X]; lia|]. exists []. split; [|reflexivity].
    left. rewrite L1. split; [apply L3; reflexivity|].
    assert (A : length_field (x01 :: block w ++ l4 ++ r) (5 + blen w) = be_val l4).
    { apply (announced_app (x01 :: block w) l4 r (5 + blen w)); [|exact H4]. rewrite blen_cons, block_len. lia. }
    rewrite A. replace (9 + blen w + be_val l4) with (5 + blen w + (4 + be_val l4)) by lia. rewrite L5.
    symmetry. apply skip_past. rewrite blen_app, B4. lia.
  - do 3 right. rewrite js_split_full by assumption. destruct (file_head x01 w (block q ++ r) Hw) as (L1&L2&L3&L4&L5). rewrite L1, L2, L4.
    rewrite blen_app, block_len.
    split; [lia|]. split; [lia|]. split; [intros [_ X]; lia|]. exists r. split; [|reflexivity].
    left. rewrite L1. split; [apply L3; reflexivity|].
    assert (A : length_field (x01 :: block w ++ block q ++ r) (5 + blen w) = blen q).
    { unfold block at 2. rewrite <- app_assoc.
      rewrite (announced_app (x01 :: block w) (be_bytes 4 (blen q)) (q ++ r) (5 + blen w) : _ -> _ -> length_field (x01 :: block w ++ be_bytes 4 (blen q) ++ q ++ r) (5 + blen w) = _).
      - apply be4_val. exact Hq.
      - rewrite blen_cons, block_len. lia.
      - apply be_bytes_length. }
    rewrite A. replace (9 + blen w + blen q) with (5 + blen w + (4 + blen q)) by lia. rewrite L5. symmetry. apply skip_app. apply block_len.
Qed.

Section Decrypt.
  Context (E : pairingT Fr) (C : codecT E) (kdf : GT E -> key) (aes : cipherT) (W : N) (fuel : nat)
          (m : wmodule) (cb : list byte) (full : list (text * json)).
  Hypotheses (Hmod : module_ok m) (Hprime : md_prime m = Z.to_N bn_r) (Hn32 : md_n32 m = 8%nat) (Hsize : 0 < md_wsize m < 2 ^ 32)
             (HW : 2 * (76 + 32 * md_wsize m) < W) (HW2 : W <= 2 ^ 64) (Hfu : 76 + 32 * md_wsize m < N.of_nat fuel).

  Lemma js_decap_ends ctb :
    first_of (js_decap_reports E C W m cb full ctb ++ fine) (outcome (decap_inputs E C kdf W fuel m cb ctb full)).
  Proof.
    apply (decap_first E C kdf W fuel m cb full Hmod Hprime Hn32 Hsize HW HW2 Hfu).
    - intros k -> _. apply fo_yes. exact I.
    - intros e ->. reflexivity.
    - intros ->. reflexivity.
  Qed.
  Lemma message_part_unique f b b' : is_message_part f b -> is_message_part f b' -> b' = b.
  Proof. unfold is_message_part. intros [[X ->]|[X ->]] [[Y ->]|[Y ->]]; try contradiction; reflexivity. Qed.
  Lemma aes_outcome k b : List.length k = 32%nat ->
    (blen b < 28 /\ aesGcmDecrypt aes k b = Err DataTooShort) \/
    (28 <= blen b /\ ~ authentic aes k b /\ aesGcmDecrypt aes k b = Err CipherError) \/
    (28 <= blen b /\ authentic aes k b /\ exists msg, aesGcmDecrypt aes k b = Ok msg).
  Proof.
    intros Hk. destruct (N.lt_ge_cases (blen b) 28) as [Hs|Hs].
    - left. split; [exact Hs|]. destruct (C39_rejections aes k) as (_&R&_). apply (R b Hk). unfold blen in Hs. clear - Hs. lia.
    - assert (A : authentic aes k b <-> exists msg, aesGcmDecrypt aes k b = Ok msg).
      { unfold authentic. change (2 ^ 36 - 32) with gcm_limit. split.
        - intros (nonce&c&H1&H2&H3).
          exists (apply_keystream aes k (gcm_block nonce) 2 c). apply C39_tools_agree, C39_accepts_iff. split; [exact Hk|].
          exists nonce, c. split; [exact H1|]. split; [exact H2|]. split; [exact H3|]. apply gcm_stream.
        - intros (msg&H). apply C39_tools_agree in H. apply C39_accepts_iff in H as (_&nonce&c&H1&H2&H3&_). eauto 6. }
      destruct (aesGcmDecrypt aes k b) as [msg|e|] eqn:Ea.
      + right. right. split; [exact Hs|]. split; [apply A; eauto|eauto].
      + right. left. split; [exact Hs|]. split; [intros X; apply A in X as (msg&X); discriminate|].
        unfold aesGcmDecrypt in Ea. rewrite key_ok in Ea by exact Hk. change (12 + 16)%nat with 28%nat in Ea.
        rewrite (proj2 (Nat.ltb_ge _ _)) in Ea by (unfold blen in Hs; clear - Hs; lia).
        destruct (ctr32_max <? _); [congruence|]. destruct (bytes_eq _ _); congruence.
      + exfalso. unfold aesGcmDecrypt in Ea. rewrite key_ok in Ea by exact Hk.
        destruct (Nat.ltb _ _); [discriminate|]. destruct (ctr32_max <? _); [discriminate|]. destruct (bytes_eq _ _); discriminate.
  Qed.

  Lemma js_decrypt_ends a : (forall g, List.length (kdf g) = 32%nat) -> jb_valid a ->
    first_of (js_decrypt_reports E C kdf aes W fuel m cb full (jb_window a) ++ fine)
             (outcome (decrypt_inputs E C kdf aes W fuel m cb a full)).
  Proof.
    intros Hkdf Ha. unfold decrypt_inputs. rewrite js_split_window by exact Ha. generalize (jb_window a). clear a Ha. intros f.
    unfold js_decrypt_reports. cbn [app].
    destruct (split_outcome f) as [[H1 ->]|[(H1&H2&->)|[(H1&H2&H3&->)|(H1&H2&H3&b&Hb&->)]]]; cbn [rmap_err rbind rmap fst snd].
    - apply fo_yes. exact H1.
    - apply fo_no; [apply N.le_ngt; exact H1|]. apply fo_yes. exact H2.
    - apply fo_no; [apply N.le_ngt; exact H1|]. apply fo_no; [apply N.le_ngt; exact H2|]. apply fo_yes. exact H3.
    - apply fo_no; [apply N.le_ngt; exact H1|]. apply fo_no; [apply N.le_ngt; exact H2|]. apply fo_no; [exact H3|].
      rewrite <- app_assoc. apply (decap_first E C kdf W fuel m cb full Hmod Hprime Hn32 Hsize HW HW2 Hfu).
      + intros k Hk [g Hg]. rewrite Hk. cbn [rbind app]. assert (Hl : List.length k = 32%nat) by (rewrite Hg; apply Hkdf).
        destruct (aes_outcome k b Hl) as [(A1&A2)|[(A1&A2&A3)|(A1&A2&msg&A3)]].
        * rewrite A2. apply fo_yes. eauto.
        * rewrite A3. apply fo_no. { intros (b'&X&Y). rewrite (message_part_unique f b b' Hb X) in Y. clear - A1 Y. lia. }
          apply fo_yes. exists b, k. auto.
        * rewrite A3. apply fo_no. { intros (b'&X&Y). rewrite (message_part_unique f b b' Hb X) in Y. clear - A1 Y. lia. }
          apply fo_no. { intros (b'&k'&X&Y&Z). rewrite (message_part_unique f b b' Hb X) in Z. assert (k' = k) by congruence. subst k'. exact (Z A2). }
          apply fo_yes. exact I.
      + intros e ->. reflexivity.
      + intros ->. reflexivity.
  Qed.
End Decrypt.

(** ** C73 *)
Ltac functional := repeat apply Forall_cons; try apply Forall_nil; try apply because_functional;
  intros ? ? (?&?&->) (?&?&->); congruence.
Lemma fine_functional A : Forall functional (@fine A).
Proof. functional. Qed.
Lemma encap_functional W co cb sym kvs : Forall functional (js_encap_reports W co cb sym kvs).
Proof. unfold js_encap_reports, circuit_reports. cbn [app]. functional. Qed.
Lemma decap_functional E C W m cb full ctb : Forall functional (js_decap_reports E C W m cb full ctb).
Proof. unfold js_decap_reports, circuit_reports. cbn [app]. functional. Qed.

Theorem C73_js_encap_ends :
  forall (E : pairingT Fr) (C : codecT E) (D : domainT Fr) (kdf : GT E -> key) W fuel co cb sym kvs r,
    room W fuel sym ->
    (rmap (fun _ => tt) (js_encap E C D kdf W fuel co cb sym kvs) = r <-> first_of (js_encap_reports W co cb sym kvs ++ fine) r).
Proof.
  intros. apply first_of_iff; [|apply js_encap_ends; assumption].
  apply Forall_app. split; [apply encap_functional|apply fine_functional].
Qed.
Print Assumptions C73_js_encap_ends.

Theorem C73_js_encrypt_ends :
  forall (E : pairingT Fr) (C : codecT E) (D : domainT Fr) (kdf : GT E -> key) (aes : cipherT) stringify W fuel co cb sym kvs message inc r,
    (forall g, List.length (kdf g) = 32%nat) -> room W fuel sym ->
    (rmap (fun _ => tt) (js_encrypt E C D kdf aes stringify W fuel co cb sym kvs message inc) = r <->
     first_of (js_encrypt_reports W co cb sym kvs message ++ fine) r).
Proof.
  intros. apply first_of_iff; [|apply js_encrypt_ends; assumption].
  unfold js_encrypt_reports. rewrite <- app_assoc. apply Forall_app. split; [apply encap_functional|]. cbn [app fine]. functional.
Qed.
Print Assumptions C73_js_encrypt_ends.

(** A compiled circuit over BN254 whose witness, as a file of 76 + 32 bytes per element, fits. *)
Definition calculates (W : N) (fuel : nat) (m : wmodule) : Prop :=
  module_ok m /\ md_prime m = Z.to_N bn_r /\ md_n32 m = 8%nat /\ 0 < md_wsize m < 2 ^ 32 /\
  2 * (76 + 32 * md_wsize m) < W /\ W <= 2 ^ 64 /\ 76 + 32 * md_wsize m < N.of_nat fuel.

Theorem C73_js_decap_ends :
  forall (E : pairingT Fr) (C : codecT E) (kdf : GT E -> key) W fuel m cb ctb full r,
    calculates W fuel m ->
    (rmap (fun _ => tt) (decap_inputs E C kdf W fuel m cb ctb full) = r <->
     first_of (js_decap_reports E C W m cb full ctb ++ fine) r).
Proof.
  intros E C kdf W fuel m cb ctb full r (H1&H2&H3&H4&H5&H6&H7). apply first_of_iff.
  - apply Forall_app. split; [apply decap_functional|apply fine_functional].
  - apply js_decap_ends; assumption.
Qed.
Print Assumptions C73_js_decap_ends.

Theorem C73_js_decrypt_ends :
  forall (E : pairingT Fr) (C : codecT E) (kdf : GT E -> key) (aes : cipherT) W fuel m cb a full r,
    (forall g, List.length (kdf g) = 32%nat) -> calculates W fuel m -> jb_valid a ->
    (rmap (fun _ => tt) (decrypt_inputs E C kdf aes W fuel m cb a full) = r <->
     first_of (js_decrypt_reports E C kdf aes W fuel m cb full (jb_window a) ++ fine) r).
Proof.
  intros E C kdf aes W fuel m cb a full r Hk (H1&H2&H3&H4&H5&H6&H7) Ha. apply first_of_iff.
  - unfold js_decrypt_reports. cbn [app]. do 3 (apply Forall_cons; [apply because_functional|]). rewrite <- app_assoc. apply Forall_app.
    split; [apply decap_functional|]. cbn [app fine]. functional.
  - apply js_decrypt_ends; assumption.
Qed.
Print Assumptions C73_js_decrypt_ends.

(** ** C58 for every document: where several names are on one wire, the last value counts *)
Lemma leaves_texts sym kvs : texts_of sym kvs (leaves sym kvs).
Proof.
  intros m Hm. destruct (wires_outcome sym kvs) as [[_ H]|(_&m'&H1&H2)]; [congruence|].
  assert (m' = m) by congruence. subst m'. exact H2.
Qed.
Lemma binds_bound sym kvs n w z : binds sym kvs n w z <-> bound_by (leaves sym kvs) n w z.
Proof.
  unfold binds, bound_by. split; intros (H1&H2&t&H3&H4); (split; [exact H1|]; split; [exact H2|]; exists t; split; [exact H3|]; apply C57_bigint_texts; exact H4).
Qed.
Theorem C58_js_decap_iff_any_document :
  forall (E : pairingT Fr) (C : codecT E) (D : domainT Fr) (kdf : GT E -> key) W fuel co cb sym inputs ctb k r wb vals k',
    circuit_file cb r -> js_usable r -> factors_below (r_n_wires r) (r_constraints r) ->
    fits_encrypt W fuel cb sym ->
    js_encap E C D kdf W fuel co cb sym inputs = Ok (ctb, k) ->
    witness_file wb vals -> fits_decrypt W fuel cb wb ->
    (js_decap E C kdf W fuel cb wb ctb = Ok k' <->
     k' = k /\ N.of_nat (List.length vals) = r_n_wires r /\ opens_circuit r vals /\
     forall w z, binds sym inputs (r_n_pub_out r + r_n_pub_in r) w z ->
       nth_error vals (N.to_nat w) = Some (fr (z mod 2 ^ 256))).
Proof.
  intros E C D kdf W fuel co cb sym inputs ctb k r wb vals k' Hcf Hu Hfb HW He Hwf HV.
  rewrite (js_decap_given E C D kdf W fuel co cb sym inputs (leaves sym inputs) ctb k r wb vals k' Hcf Hu Hfb HW (leaves_texts sym inputs) He Hwf HV).
  split; intros (H1&H2&H3&H4); (split; [exact H1|]; split; [exact H2|]; split; [exact H3|]); intros w z Hb; apply H4; apply binds_bound; exact Hb.
Qed.
Print Assumptions C58_js_decap_iff_any_document.
Theorem C58_js_decrypt_iff_any_document :
  forall (E : pairingT Fr) (C : codecT E) (D : domainT Fr) (kdf : GT E -> key) (aes : cipherT) stringify W fuel
         co cb sym inputs message inc f k r wb vals a message',
    (forall g, List.length (kdf g) = 32%nat) -> List.length (c_nonce co) = 12%nat ->
    (inc = true -> blen (stringify inputs) < 2 ^ 32) ->
    circuit_file cb r -> js_usable r -> factors_below (r_n_wires r) (r_constraints r) ->
    fits_encrypt W fuel cb sym ->
    js_encrypt E C D kdf aes stringify W fuel co cb sym inputs message inc = Ok (f, k) ->
    witness_file wb vals -> fits_decrypt W fuel cb wb -> jb_valid a -> jb_window a = f ->
    (js_decrypt E C kdf aes W fuel cb wb a = Ok message' <->
     message' = message /\ N.of_nat (List.length vals) = r_n_wires r /\ opens_circuit r vals /\
     forall w z, binds sym inputs (r_n_pub_out r + r_n_pub_in r) w z ->
       nth_error vals (N.to_nat w) = Some (fr (z mod 2 ^ 256))).
Proof.
  intros E C D kdf aes stringify W fuel co cb sym inputs message inc f k r wb vals a message' Hkdf Hn Hq Hcf Hu Hfb HW He Hwf HV Hva Hwa.
  rewrite (js_decrypt_given E C D kdf aes stringify W fuel co cb sym inputs (leaves sym inputs) message inc f k r wb vals a message'
    Hkdf Hn Hq Hcf Hu Hfb HW (leaves_texts sym inputs) He Hwf HV Hva Hwa).
  split; intros (H1&H2&H3&H4); (split; [exact H1|]; split; [exact H2|]; split; [exact H3|]); intros w z Hb; apply H4; apply binds_bound; exact Hb.
Qed.
Print Assumptions C58_js_decrypt_iff_any_document.

(** Two names on wire 1 (main.x and main.z): the value read last is the bound one. *)
Example C58_last_value :
  let sym := ex_sym_text ++ [10] ++ lit "3,1,1,main.z" in
  let kvs := [(lit "z", JInt 5); (lit "x", JInt 9)] in
  binds sym kvs 1 1 9 /\ ~ binds sym kvs 1 1 5 /\ ~ js_single sym kvs.
Proof.
  cbv zeta.
  assert (B : binds (ex_sym_text ++ [10] ++ lit "3,1,1,main.z") [(lit "z", JInt 5); (lit "x", JInt 9)] 1 1 9).
  { assert (L : leaves (ex_sym_text ++ [10] ++ lit "3,1,1,main.z") [(lit "z", JInt 5); (lit "x", JInt 9)] 1 (lit "9")).
    { exists [(lit "z", JInt 5)], (lit "x"), (JInt 9), []. split; [reflexivity|]. split; [vm_compute; reflexivity|]. split; [reflexivity|]. intros n x []. }
    split; [lia|]. split; [|exists (lit "9"); split; [exact L|apply C57_bigint_texts; vm_compute; reflexivity]].
    intros j Hj. assert (j = 1) by lia. subst j. eauto. }
  split; [exact B|]. split.
  - intros (_&_&t&Ht&Hz). destruct B as (_&_&t'&Ht'&Hz'). 
    destruct (wires_outcome (ex_sym_text ++ [10] ++ lit "3,1,1,main.z") [(lit "z", JInt 5); (lit "x", JInt 9)]) as [[_ X]|(_&m&X1&X2)]; [vm_compute in X; discriminate|].
    apply X2 in Ht, Ht'. assert (t' = t) by congruence. subst t'. pose proof (C57_one_reading t 5 9 Hz Hz'). discriminate.
  - intros H. assert (X : lit "9" = lit "5"); [|discriminate].
    apply (H 1).
    + exists (lit "x"). split; [|vm_compute; reflexivity]. exists (lit "x"), (JInt 9). split; [right; left; reflexivity|].
      apply jl_scalar; [discriminate..|reflexivity].
    + exists (lit "z"). split; [|vm_compute; reflexivity]. exists (lit "z"), (JInt 5). split; [left; reflexivity|].
      apply jl_scalar; [discriminate..|reflexivity].
Qed.

(** Instances: calls that succeed, and some that do not. *)
Lemma ex_room : room (2 ^ 32) 1000 ex_sym_text.
Proof. repeat split; vm_compute; auto; discriminate. Qed.
Lemma ex_calculates : calculates (2 ^ 32) 1000 ex_wmodule.
Proof. split; [exact ex_wmodule_ok|]. repeat split; vm_compute; auto; discriminate. Qed.
Example C73_instances : forall aes : cipherT,
  let encap co cb kvs := first_of (js_encap_reports (2 ^ 32) co cb ex_sym_text kvs ++ fine) in
  let decap cb ctb full := first_of (js_decap_reports fr_pairing ex_codec (2 ^ 32) ex_wmodule cb full ctb ++ fine) in
  let decrypt f full := first_of (js_decrypt_reports fr_pairing ex_codec ex_kdf32 aes (2 ^ 32) 1000 ex_wmodule ex_circuit_file full f ++ fine) in
  encap ex_coins ex_circuit_file [(lit "x", JNull)] (Err (AInput JsTypeError)) /\
  encap ex_coins ex_circuit_file [(lit "unknown", JNull); (lit "x", JStr (lit "nine"))] (Err (AInput JsSyntaxError)) /\
  encap ex_coins [] [(lit "x", JInt 9)] (Err (AR1cs JsWrongMagic)) /\
  decap [] [] [(lit "x", JInt 9)] (Err (FWitness WcNotAllInputs)) /\
  decap ex_circuit_file [] [(lit "y", JInt (-3)); (lit "x", JInt 9)] (Err (FApi ADeserialize)) /\
  decrypt [x00; x00] [] (Err (FApi (ACombined JTooShort))) /\
  (exists f, decrypt f [(lit "y", JInt (-3)); (lit "x", JStr (lit "9"))] (Ok tt)).
Proof.
  intros aes. cbv zeta.
  assert (He := fun co cb kvs r => C73_js_encap_ends fr_pairing ex_codec bn_domain ex_kdf32 (2 ^ 32) 1000 co cb ex_sym_text kvs r ex_room).
  assert (Hd := fun cb ctb full r => C73_js_decap_ends fr_pairing ex_codec ex_kdf32 (2 ^ 32) 1000 ex_wmodule cb ctb full r ex_calculates).
  assert (Hkdf : forall g, List.length (ex_kdf32 g) = 32%nat) by (intros g; apply le_bytes_length).
  assert (Hw : forall f, jb_valid (whole f) /\ jb_window (whole f) = f).
  { intros f. split; [unfold jb_valid, whole; cbn [jb_offset jb_length jb_buffer]; apply N.le_refl|apply window_whole]. }
  split; [apply He; vm_compute; reflexivity|]. split; [apply He; vm_compute; reflexivity|]. split; [apply He; vm_compute; reflexivity|].
  split; [apply Hd; vm_compute; reflexivity|]. split; [apply Hd; vm_compute; reflexivity|]. split.
  - destruct (Hw [x00; x00]) as [H1 H2].
    pose proof (proj1 (C73_js_decrypt_ends fr_pairing ex_codec ex_kdf32 aes (2 ^ 32) 1000 ex_wmodule ex_circuit_file (whole [x00; x00]) []
      (Err (FApi (ACombined JTooShort))) Hkdf ex_calculates H1)) as G. rewrite H2 in G. apply G. reflexivity.
  - destruct (C56_nonvacuous aes false (fun _ => []) ltac:(intros kvs; vm_compute; reflexivity)) as [(f&k&_&Hk) _].
    exists f. destruct (Hw f) as [H1 H2].
    pose proof (proj1 (C73_js_decrypt_ends fr_pairing ex_codec ex_kdf32 aes (2 ^ 32) 1000 ex_wmodule ex_circuit_file (whole f) [(lit "y", JInt (-3)); (lit "x", JStr (lit "9"))]
      (Ok tt) Hkdf ex_calculates H1)) as G. rewrite H2 in G. apply G. rewrite Hk. reflexivity.
Qed.
