(** Lemmas for C44. *)
From Coq Require Import List Bool Arith NArith ZArith Lia Permutation.
From Coq Require Import Strings.String Strings.Byte.
From Verif Require Import Res Bytes Text Utf8 Fld Zp Groups Bn254 CS CSFacts Qap SpecCore Core CoreFacts CoreMore P_Core
  R1cs SpecR1cs R1csFacts R1csJs R1csJsFacts P_R1cs Wtns SpecWtns WtnsFacts P_Wtns Circuit SpecCircuit CircuitFacts P_Circuit
  ArkSer ArkSerFacts P_Ser Sym SpecSym SymFacts P_Sym Inputs SpecInputs InputsFacts P_Inputs
  Combined SpecCombined CombinedFacts P_Combined Gcm SpecGcm GcmFacts P_Gcm FileSys Commands SpecCommands CommandsFacts
  PartialEncap P_Commands JsZkenc JsZkencFacts P_JsZkenc SpecJs.
Import ListNotations.
Local Open Scope N_scope.

(** ** Where the wire values come from *)
Section Source.
  Context (signals : hmap N).
  Notation from P m := (forall w t, nm_get w m = Some t -> (exists name, P name t /\ hm_get name signals = Some w)).

  Lemma js_set_source key x m m' : js_set signals key x m = Ok m' ->
    forall w t, nm_get w m' = Some t ->
      (js_to_string x = Some t /\ hm_get key signals = Some w) \/ nm_get w m = Some t.
  Proof.
    unfold js_set. destruct (hm_get key signals) as [w0|] eqn:Ew; [|intros [= <-]; auto].
    destruct (js_to_string x) as [t0|]; [|discriminate]. intros [= <-] w t H. rewrite nm_get_insert in H.
    destruct (N.eqb_spec w w0) as [->|_]; [left; split; [congruence|reflexivity]|auto].
  Qed.
  Lemma js_array_source key l : forall i m m', js_array signals key i l m = Ok m' ->
    forall w t, nm_get w m' = Some t ->
      (exists j x, nth_error l j = Some x /\ js_to_string x = Some t /\
                   hm_get (index_key key (i + N.of_nat j)) signals = Some w) \/ nm_get w m = Some t.
  Proof.
    induction l as [|x l IH]; intros i m m' H w t Hw; cbn [js_array] in H.
    - right. congruence.
    - destruct (js_set signals (index_key key i) x m) as [m1|e|] eqn:E1; try discriminate.
      destruct (IH _ _ _ H w t Hw) as [(j&y&Hj&Ht&Hk)|Hm].
      + left. exists (S j), y. split; [exact Hj|]. split; [exact Ht|]. rewrite <- Hk. f_equal. f_equal. lia.
      + destruct (js_set_source _ _ _ _ E1 w t Hm) as [[Ht Hk]|Hm']; [|auto].
        left. exists 0%nat, x. split; [reflexivity|]. split; [exact Ht|]. rewrite N.add_0_r. exact Hk.
  Qed.
  Lemma js_flatten_source v : forall key m m', js_flatten signals v key m = Ok m' ->
    forall w t, nm_get w m' = Some t ->
      (exists name, js_leaf_at key v name t /\ hm_get name signals = Some w) \/ nm_get w m = Some t.
  Proof.
    induction v as [|b|z|f|s|l IH|o IH] using json_ind'; intros key m m' H w t Hw; cbn [js_flatten] in H;
      try (destruct (js_set_source _ _ _ _ H w t Hw) as [[Ht Hk]|Hm]; [left; exists key; split; [|exact Hk];
           apply jl_scalar; [intros ?; discriminate|intros ?; discriminate|exact Ht]|right; exact Hm]).
    - destruct (js_array_source _ _ _ _ _ H w t Hw) as [(j&x&Hj&Ht&Hk)|Hm]; [|auto].
      left. eexists. split; [eapply jl_item; eassumption|]. rewrite N.add_0_l in Hk. exact Hk.
    - assert (G : forall kvs, incl kvs o -> forall m m',
        (fix go (kvs : list (text * json)) (m : nmap text) : res js_throw (nmap text) :=
           match kvs with
           | [] => Ok m
           | (k, x) :: kvs => match js_flatten signals x (js_full_key key k) m with
                              | Ok m => go kvs m | Err e => Err e | Panic => Panic end
           end) kvs m = Ok m' ->
        forall w t, nm_get w m' = Some t ->
          (exists name, js_leaf_at key (JObj o) name t /\ hm_get name signals = Some w) \/ nm_get w m = Some t).
      { clear H Hw m m' w t. induction kvs as [|[k x] kvs IHk]; intros Hincl m m' H w t Hw.
        - right. congruence.
        - destruct (js_flatten signals x (js_full_key key k) m) as [m1|e|] eqn:E1; try discriminate.
          destruct (IHk (fun y Hy => Hincl y (or_intror Hy)) _ _ H w t Hw) as [Hl|Hm]; [auto|].
          rewrite Forall_forall in IH. pose proof (Hincl _ (or_introl eq_refl)) as Hin.
          destruct (IH _ Hin (js_full_key key k) _ _ E1 w t Hm) as [(name&Hl&Hk)|Hm']; [|auto].
          left. exists name. split; [|exact Hk]. eapply jl_entry; [exact Hin|exact Hl]. }
      eapply (G o (incl_refl o)); eassumption.
  Qed.
  Lemma js_map_source kvs m : js_map_inputs kvs signals = Ok m ->
    forall w t, nm_get w m = Some t -> exists name, js_doc_leaf kvs name t /\ hm_get name signals = Some w.
  Proof.
    unfold js_map_inputs. intros H w t Hw.
    assert (G : forall l, incl l kvs -> forall m m', js_map_inputs_loop signals l m = Ok m' ->
      nm_get w m' = Some t -> (exists name, js_doc_leaf kvs name t /\ hm_get name signals = Some w) \/ nm_get w m = Some t).
    { clear. induction l as [|[k v] l IH]; intros Hincl m m' H Hw; cbn [js_map_inputs_loop] in H.
      - right. congruence.
      - destruct (js_flatten signals v k m) as [m1|e|] eqn:E1; try discriminate.
        destruct (IH (fun y Hy => Hincl y (or_intror Hy)) _ _ H Hw) as [Hl|Hm]; [auto|].
        destruct (js_flatten_source _ _ _ _ E1 w t Hm) as [(name&Hl&Hk)|Hm']; [|auto].
        left. exists name. split; [|exact Hk]. exists k, v. split; [apply Hincl; left; reflexivity|exact Hl]. }
    destruct (G kvs (incl_refl _) _ _ H Hw) as [G'|G']; [exact G'|discriminate].
  Qed.
End Source.

Lemma hm_get_key {V} k (v : V) m : hm_get k m = Some v -> In k (map fst m).
Proof.
  induction m as [|[k' v'] m IH]; cbn [hm_get map fst]; [discriminate|].
  destruct (text_eqb k k') eqn:Ek; [left; symmetry; apply text_eqb_eq; exact Ek|right; auto].
Qed.
Lemma hm_get_value {V} k (v : V) m : hm_get k m = Some v -> In v (map snd m).
Proof.
  induction m as [|[k' v'] m IH]; cbn [hm_get map snd]; [discriminate|].
  destruct (text_eqb k k'); [left; congruence|right; auto].
Qed.

Section Encap.
  Context (E : pairingT Fr) (C : codecT E) (D : domainT Fr) (kdf : GT E -> key) (W : N) (fuel : nat).
  Context (co : coins) (sym : text) (inputs : list (text * json)).
  Notation signals := (get_input_signals (js_parse_sym_file sym) None).
  Notation nsyms := (N.of_nat (List.length (js_parse_sym_file sym))).

  Lemma signal_wire name w : hm_get name signals = Some w <-> hm_get (lit "main." ++ name) (js_parse_sym_file sym) = Some w.
  Proof.
    rewrite (C28_input_signals (js_parse_sym_file sym) _ None (js_parse_wf sym) (Permutation_refl _)).
    split; [intros [H _]; exact H|]. intros H. split; [exact H|]. discriminate.
  Qed.

  Lemma prefix_short m zs : js_map_inputs inputs signals = Ok m -> prefix_values m zs -> N.of_nat (List.length zs) <= nsyms.
  Proof.
    intros Hm [Hz _].
    assert (Hincl : incl (map (fun j => 1 + N.of_nat j) (seq 0 (List.length zs))) (map snd (js_parse_sym_file sym))).
    { intros k Hk. apply in_map_iff in Hk as (j&<-&Hj). apply in_seq in Hj.
      destruct (nth_error zs j) as [z|] eqn:Ez; [|apply nth_error_None in Ez; lia].
      destruct (Hz j z Ez) as (t&Ht&_). destruct (js_map_source _ _ _ Hm _ _ Ht) as (name&_&Hn).
      apply signal_wire in Hn. eapply hm_get_value. exact Hn. }
    apply NoDup_incl_length in Hincl.
    - rewrite !map_length, seq_length in Hincl. lia.
    - apply FinFun.Injective_map_NoDup; [intros a b Hab; lia|apply seq_NoDup].
  Qed.

  Lemma js_encap_inv cb ctb k r :
    circuit_file cb r -> blen cb < W -> W <= 2 ^ 64 ->
    nsyms < 2 ^ 32 - 1 -> 2 * (108 + 32 * nsyms) < W -> 108 + 32 * nsyms < N.of_nat fuel ->
    js_encap E C D kdf W fuel co cb sym inputs = Ok (ctb, k) ->
    exists m zs ct, js_map_inputs inputs signals = Ok m /\ prefix_values m zs /\ ctb = ct_bytes C ct /\
      let values := fr 1 :: map (fun z => fr (z mod 2 ^ 256)) zs in
      let map_ i := if (i <=? (r_n_pub_out r + r_n_pub_in r) mod 2 ^ 32) && (i <? N.of_nat (List.length values))
                    then nth_error values (N.to_nat i) else None in
      run_encap E D kdf co (circom_of_cli r map_) = Ok (ct, k).
  Proof.
    intros (secs&->&Hok&Hca&Hl&Ht) HW1 HW2 Hn HW3 Hfu H. unfold js_encap in H.
    destruct (js_map_inputs inputs signals) as [m|e|] eqn:Em; cbn [rmap_err rbind] in H; [|discriminate..].
    pose proof (C47_witness_prefix m) as Hw. destruct (js_witness_array m) as [l|e|]; cbn [rmap_err rbind] in H; [|discriminate|contradiction].
    destruct Hw as (zs&->&Hz). pose proof (prefix_short m zs Em Hz) as Hs.
    destruct (C47_read_back W fuel (1%Z :: zs)) as (file&Hf&_&Hrd).
    { cbn [List.length]. clear - Hs HW3. lia. } { exact HW2. }
    { cbn [List.length]. clear - Hs Hn. change (2 ^ 32) with 4294967296 in *. lia. } { cbn [List.length]. clear - Hs Hfu. lia. }
    rewrite Hf in H. cbn [rmap_err rbind] in H. unfold wasm_encap in H.
    rewrite (js_r1cs_roundtrip W secs r Hok Hca Hl Ht HW1 HW2) in H. cbn [rmap_err rbind] in H.
    rewrite Hrd in H. cbn [rmap_err rbind] in H.
    match type of H with context [run_encap E D kdf co ?c] => destruct (run_encap E D kdf co c) as [[ct k']|e|] eqn:He end;
      cbn [rmap_err rbind fst snd] in H; [|discriminate..].
    exists m, zs, ct. split; [reflexivity|]. split; [exact Hz|].
    assert (Hk : ctb = ct_bytes C ct /\ k' = k) by (split; congruence). destruct Hk as [-> ->]. split; [reflexivity|].
    cbv zeta. exact He.
  Qed.

  Lemma js_encap_facts cb ctb k r :
    circuit_file cb r -> js_usable r -> blen cb < W -> W <= 2 ^ 64 ->
    nsyms < 2 ^ 32 - 1 -> 2 * (108 + 32 * nsyms) < W -> 108 + 32 * nsyms < N.of_nat fuel ->
    js_encap E C D kdf W fuel co cb sym inputs = Ok (ctb, k) ->
    exists ct c, ctb = ct_bytes C ct /\ lengths_ok ct /\ blen ctb < 2 ^ 32 /\
      run_encap E D kdf co c = Ok (ct, k) /\ constraints_stated (circom_prog c) = [] /\
      public_inputs ct = public_values (circom_prog c) /\ N.of_nat (List.length (public_inputs ct)) <= 2 ^ 24 /\
      forall vals, opens_circuit r vals -> js_inputs_agree sym inputs (r_n_pub_out r + r_n_pub_in r) vals ->
        decap kdf (circom_prog (circom_of_cli r (fun w => nth_error vals (N.to_nat w)))) ct = Ok k.
  Proof.
    intros Hcf (Hu1&Hu2) HW1 HW2 Hn HW3 Hfu H.
    assert (Hok : r1cs_ok r) by (destruct Hcf as (?&_&Hok&_); exact Hok). pose proof (ok_nw _ Hok) as Hnw.
    destruct (js_encap_inv cb ctb k r Hcf HW1 HW2 Hn HW3 Hfu H) as (m&zs&ct&Hm&Hz&Hctb&He). cbv zeta in He.
    set (values := fr 1 :: map _ zs) in *. match type of He with context [circom_of_cli r ?f] => set (a := f) in He end.
    set (c := circom_of_cli r a) in *. exists ct, c. split; [exact Hctb|]. rewrite Hctb. clear H Hctb ctb.
    set (np := r_n_pub_out r + r_n_pub_in r) in *.
    assert (Hmod : np mod 2 ^ 32 = np) by (apply N.mod_small; clear - Hu1 Hnw; lia).
    assert (Hnp : cc_n_public c = np) by exact Hmod.
    set (L := N.of_nat (List.length values)). set (mm := N.min L (np + 1)).
    assert (HL1 : 1 <= L) by (unfold L, values; cbn [List.length]; clear; lia).
    assert (Ha : forall i, 1 <= i < mm -> exists z t, nth_error zs (N.to_nat (i - 1)) = Some z /\ a i = Some (fr (z mod 2 ^ 256)) /\
       nm_get i m = Some t /\ js_bigint t = Some z).
    { intros i Hi. unfold a. rewrite Hmod. rewrite (proj2 (N.leb_le i np)) by (clear - Hi; lia).
      fold L. rewrite (proj2 (N.ltb_lt i L)) by (clear - Hi; lia). cbn [andb].
      destruct (nth_error zs (N.to_nat (i - 1))) as [z|] eqn:Ez.
      - destruct (proj1 Hz _ _ Ez) as (t&Ht&Hb). exists z, t. split; [reflexivity|]. split.
        + unfold values. replace (N.to_nat i) with (S (N.to_nat (i - 1))) by (clear - Hi; lia). cbn [nth_error].
          apply (map_nth_error (fun z => fr (z mod 2 ^ 256)) _ zs Ez).
        + split; [|exact Hb]. rewrite <- Ht. f_equal. clear - Hi. lia.
      - exfalso. apply nth_error_None in Ez. unfold mm, L, values in Hi. cbn [List.length] in Hi. rewrite map_length in Hi.
        clear - Hi Ez. lia. }
    assert (Hmiss : a mm = None).
    { unfold a. rewrite Hmod. fold L. destruct (N.leb_spec mm np); [|reflexivity]. destruct (N.ltb_spec mm L); [|reflexivity].
      exfalso. unfold mm in *. clearbody L. lia. }
    destruct (partial_encap E C D kdf c mm (c_alpha co) (c_beta co) (c_delta co) (c_r co) (c_x co) ct k) as (Hlen&Hsz&(S2&Hpi&Hpi')&Hrec).
    { rewrite Hnp. cbn [cc_n_wires c circom_of_cli]. clear - Hu1. lia. } { exact Hnw. }
    { rewrite Hnp. unfold mm. clearbody L. clear - HL1. lia. }
    { cbn [cc_n_wires c circom_of_cli]. unfold mm. clear - Hu1. lia. }
    { unfold mm. clear - Hu2. lia. }
    { exact Hmiss. }
    { intros i Hi. destruct (Ha i Hi) as (z&t&_&Hai&_). cbn [cc_witness c circom_of_cli]. rewrite Hai. discriminate. }
    { exact He. }
    split; [exact Hlen|]. split; [exact Hsz|]. split; [exact He|]. split; [exact S2|]. split; [exact Hpi|]. split.
    { rewrite Hpi', map_length, range_length. unfold mm. clear - Hu2. lia. }
    intros vals (Hv1&Hv2&Hv3) Hag.
    apply Hrec; cbn [cc_n_wires cc_witness cc_constraints circom_of_cli c].
    - reflexivity.
    - reflexivity.
    - exact Hv2.
    - intros i Hi. apply nth_error_Some. clear - Hi Hv1. lia.
    - exact Hv3.
    - intros i Hi. destruct (Ha i Hi) as (z&t&_&Hai&Ht&Hb). rewrite Hai.
      destruct (js_map_source _ _ _ Hm _ _ Ht) as (name&Hl&Hw). apply signal_wire in Hw.
      apply (Hag name t z i Hl Hb Hw). unfold mm in Hi. clear - Hi. lia.
  Qed.
End Encap.

Section Bridge.
  Context (E : pairingT Fr) (C : codecT E) (kdf : GT E -> key) (W : N) (fuel : nat).
  Lemma wasm_decap_ok cb wb bs r vals ct rest k :
    circuit_file cb r -> witness_file wb vals -> N.of_nat (List.length vals) = r_n_wires r ->
    blen cb < W -> 2 * blen wb < W -> W <= 2 ^ 64 -> (List.length wb < fuel)%nat ->
    ct_deserialize C bs = Some (ct, rest) ->
    decap kdf (circom_prog (circom_of_cli r (fun w => nth_error vals (N.to_nat w)))) ct = Ok k ->
    wasm_decap E C kdf W fuel cb wb bs = Ok k.
  Proof.
    intros (secs&->&Hok&Hca&Hl&Ht) (prime&ws&->&Hp&Hst) Hlen HW1 HW2 HW3 Hfu Hct Hk. unfold wasm_decap.
    rewrite (js_r1cs_roundtrip W secs r Hok Hca Hl Ht HW1 HW3). cbn [rmap_err rbind].
    rewrite (C21_field_elements_round_trip W prime vals ws fuel Hp Hst HW2 HW3 Hfu). cbn [rmap_err rbind j_n_wires].
    rewrite Hlen, N.eqb_refl. cbn [negb]. rewrite Hct. cbn [of_option rbind fst].
    change (rmap_err ADecap (decap kdf (circom_prog (circom_of_cli r (fun w => nth_error vals (N.to_nat w)))) ct) = Ok k).
    rewrite Hk. reflexivity.
  Qed.
  Lemma files_read max_off cb wb r vals :
    circuit_file cb r -> witness_file wb vals -> vals <> [] -> max_off < 2 ^ 63 -> blen cb <= max_off -> blen wb < 2 ^ 63 ->
    r1cs_from_bytes max_off cb = Ok r /\ cli_read_witness wb = Ok vals.
  Proof.
    intros (secs&->&Hok&Hca&Hl&Ht) (prime&ws&->&Hp&Hst) Hne H1 H2 H3. split.
    - apply C16_reads_back_every_file; assumption.
    - eapply C20_field_elements_round_trip; eassumption.
  Qed.
End Bridge.
