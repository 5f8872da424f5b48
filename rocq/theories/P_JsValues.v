(** Property theorems C83: inputs that are JavaScript values and not JSON.  Vocabulary: SpecJsValues.v,
    SpecEndToEnd.v, SpecJson.v. *)
From Coq Require Import List Bool Arith NArith ZArith Lia Permutation.
From Coq Require Import Strings.String Strings.Byte.
From Verif Require Import Res Bytes Text Utf8 Fld Zp Groups Bn254 CS CSFacts Qap SpecCore Core CoreFacts CoreMore P_Core
  R1cs SpecR1cs R1csFacts R1csJs R1csJsFacts P_R1cs Wtns SpecWtns WtnsFacts P_Wtns Circuit SpecCircuit CircuitFacts P_Circuit
  ArkSer ArkSerFacts P_Ser Sym SpecSym SymFacts P_Sym Reader JsNumber Inputs SpecInputs InputsFacts P_Inputs
  Combined SpecCombined CombinedFacts P_Combined Gcm SpecGcm GcmFacts P_Gcm FileSys Commands SpecCommands CommandsFacts
  PartialEncap P_Commands JsZkenc JsZkencFacts P_JsZkenc SpecJs C44Facts P_JsApi JsIff SpecBound P_Bound
  SpecNumerals P_Numerals WitnessCalc SpecWitnessCalc WitnessCalcFacts P_WitnessCalc JsFull SpecEndToEnd EndToEndFacts P_EndToEnd
  JsonText SpecJson JsonFacts JsonMore JsonObj JsonWrite P_Json JsValues SpecJsValues.
Import ListNotations.
Local Open Scope N_scope.

Lemma jsval_ind' (P : jsval -> Prop) :
  P VUndefined -> P VNull -> (forall b, P (VBool b)) -> (forall z, P (VNumber z)) -> (forall t, P (VDouble t)) ->
  P VNaN -> (forall n, P (VInfinity n)) -> (forall z, P (VBigInt z)) ->
  (forall t, P (VString t)) -> (forall l, Forall P l -> P (VArray l)) ->
  (forall l, Forall (fun kv => P (snd kv)) l -> P (VObject l)) -> forall v, P v.
Proof.
  intros H1 H2 H3 H4 H5 H6 H7 H8 H9 H10 H11. fix IH 1. intros [| |b|z|t| |n|z|t|l|l].
  - exact H1.
  - exact H2.
  - apply H3.
  - apply H4.
  - apply H5.
  - exact H6.
  - apply H7.
  - apply H8.
  - apply H9.
  - apply H10. induction l as [|x l IHl]; constructor; [apply IH|exact IHl].
  - apply H11. induction l as [|x l IHl]; constructor; [apply IH|exact IHl].
Qed.

(** ** Values on wires *)
Lemma to_string_seen v : v_to_string v = js_to_string (seen_as v).
Proof.
  induction v as [| |b|z|t| |[]|z|t|l IH|l IH] using jsval_ind'; try reflexivity.
  cbn. do 2 f_equal. induction IH as [|x l H _ IHl]; [reflexivity|]. cbn. rewrite H, IHl. reflexivity.
Qed.
Lemma set_seen signals key x m : v_set signals key x m = js_set signals key (seen_as x) m.
Proof. unfold v_set, js_set. rewrite to_string_seen. reflexivity. Qed.
Lemma array_seen signals key l : forall i m, v_array signals key i l m = js_array signals key i (map seen_as l) m.
Proof.
  induction l as [|x l IH]; intros i m; [reflexivity|]. cbn [v_array js_array map]. rewrite set_seen.
  destruct (js_set signals (index_key key i) (seen_as x) m); [apply IH|reflexivity..].
Qed.
Lemma flatten_seen signals v : forall full m, v_flatten signals v full m = js_flatten signals (seen_as v) full m.
Proof.
  induction v as [| |b|z|t| |[]|z|t|l IH|l IH] using jsval_ind'; intros full m; try (cbn [v_flatten js_flatten seen_as]; apply set_seen).
  - cbn [v_flatten js_flatten seen_as]. apply array_seen.
  - cbn [v_flatten js_flatten seen_as]. revert m. induction IH as [|[k x] l H _ IHl]; intros m; [reflexivity|].
    cbn [map]. cbn [snd] in H. rewrite H. destruct (js_flatten signals (seen_as x) (js_full_key full k) m); [apply IHl|reflexivity..].
Qed.
Lemma map_inputs_seen kvs signals : v_map_inputs kvs signals = js_map_inputs (seen kvs) signals.
Proof.
  unfold v_map_inputs, js_map_inputs. generalize ([] : nmap text). induction kvs as [|[k v] kvs IH]; intros m; [reflexivity|].
  cbn [v_map_inputs_loop seen map js_map_inputs_loop fst snd]. rewrite flatten_seen.
  destruct (js_flatten signals (seen_as v) k m); [apply IH|reflexivity..].
Qed.

(** ** The witness calculator *)
Lemma bigint_seen v : v_bigint v = bigint_value (seen_as v).
Proof. destruct v as [| |b|z|t| |[]|z|t|l|l]; reflexivity. Qed.
Lemma fill_seen v : forall acc, v_fill_array acc v = fill_array acc (seen_as v).
Proof.
  induction v as [| |b|z|t| |[]|z|t|l IH|l IH] using jsval_ind'; intros acc; try reflexivity.
  cbn [v_fill_array fill_array seen_as]. revert acc. induction IH as [|x l H _ IHl]; intros acc; [reflexivity|].
  cbn [map]. rewrite H. destruct (fill_array acc (seen_as x)); [apply IHl|reflexivity..].
Qed.
Lemma set_key_seen m prime k v s : v_set_key m prime k v s = set_key m prime k (seen_as v) s.
Proof. unfold v_set_key, set_key, v_flat_array, flat_array. rewrite fill_seen. reflexivity. Qed.
Lemma set_keys_seen m prime kvs : forall s, v_set_keys m prime kvs s = set_keys m prime (seen kvs) s.
Proof.
  induction kvs as [|[k v] kvs IH]; intros s; [reflexivity|]. cbn [v_set_keys seen map set_keys fst snd]. unfold mbind at 1 3.
  rewrite set_key_seen. destruct (set_key m prime k (seen_as v) s) as [[a|e|] s']; [|reflexivity..].
  unfold mbind. rewrite IH. reflexivity.
Qed.
Lemma calculate_seen m kvs : v_calculate_wtns m kvs = calculate_wtns m (seen kvs).
Proof.
  unfold v_calculate_wtns, calculate_wtns, v_do_calculate, do_calculate.
  assert (H : forall s, mbind (v_set_keys m (wc_prime m (state0 m)) kvs) (fun count => if count <? input_size m then fail WcNotAllInputs else ret tt) s
     = mbind (set_keys m (wc_prime m (state0 m)) (seen kvs)) (fun count => if count <? input_size m then fail WcNotAllInputs else ret tt) s).
  { intros s. unfold mbind. rewrite set_keys_seen. reflexivity. }
  unfold mbind at 1 3. destruct (lift_opt (x_init m) WcInit (x_raw_prime m (state0 m))) as [[u|e|] s']; [|reflexivity..].
  rewrite H. reflexivity.
Qed.

Section Api.
  Context (E : pairingT Fr) (C : codecT E) (D : domainT Fr) (kdf : GT E -> key) (aes : cipherT) (W : N) (fuel : nat).
  Lemma encap_seen co cb sym inputs : v_encap E C D kdf W fuel co cb sym inputs = js_encap E C D kdf W fuel co cb sym (seen inputs).
  Proof. unfold v_encap, js_encap. rewrite map_inputs_seen. reflexivity. Qed.
  Lemma decap_seen m cb ct inputs : v_decap E C kdf W fuel m cb ct inputs = decap_inputs E C kdf W fuel m cb ct (seen inputs).
  Proof. unfold v_decap, decap_inputs. rewrite calculate_seen. reflexivity. Qed.
  Lemma decrypt_seen m cb a inputs : v_decrypt E C kdf aes W fuel m cb a inputs = decrypt_inputs E C kdf aes W fuel m cb a (seen inputs).
  Proof. unfold v_decrypt, decrypt_inputs. destruct (js_split a) as [wm|e|]; [|reflexivity..]. cbn [rmap_err rbind]. rewrite decap_seen. reflexivity. Qed.
End Api.

(** encap, decap and decrypt treat the values as the document they amount to: a BigInt is its exact
    number, of any size; undefined is null. *)
Theorem C83_values_as_documents :
  forall (E : pairingT Fr) (C : codecT E) (D : domainT Fr) (kdf : GT E -> key) (aes : cipherT) W fuel,
    (forall co cb sym inputs,
       v_encap E C D kdf W fuel co cb sym inputs = js_encap E C D kdf W fuel co cb sym (seen inputs)) /\
    (forall m cb ct inputs, v_decap E C kdf W fuel m cb ct inputs = decap_inputs E C kdf W fuel m cb ct (seen inputs)) /\
    (forall m cb a inputs, v_decrypt E C kdf aes W fuel m cb a inputs = decrypt_inputs E C kdf aes W fuel m cb a (seen inputs)).
Proof. intros. split; [|split]; intros; [apply encap_seen|apply decap_seen|apply decrypt_seen]. Qed.
Print Assumptions C83_values_as_documents.

(** ** The forms of whole numbers are interchangeable *)
Lemma to_string_alike v : forall v', alike v v' -> v_to_string v = v_to_string v'.
Proof.
  induction v as [| |b|z|t| |n|z|t|l IH|l IH] using jsval_ind'; intros v' H; inversion H as [?|z0 ? ? F F'|l0 l' HF|l0 l' HF]; subst; try reflexivity;
    try (inversion F; subst; inversion F'; subst; reflexivity).
  cbn [v_to_string]. do 2 f_equal. clear H. revert l' HF. induction IH as [|x l Hx _ IHl]; intros l' HF; inversion HF; subst; [reflexivity|].
  erewrite Hx by eassumption. f_equal. apply IHl. assumption.
Qed.
Lemma array_alike signals key l l' : Forall2 alike l l' -> forall i m, v_array signals key i l m = v_array signals key i l' m.
Proof.
  induction 1 as [|x y l l' H _ IH]; intros i m; [reflexivity|]. cbn [v_array]. unfold v_set. rewrite (to_string_alike _ _ H).
  match goal with |- match ?e with _ => _ end = _ => destruct e end; [apply IH|reflexivity..].
Qed.
Lemma flatten_alike signals v : forall v', alike v v' -> forall full m, v_flatten signals v full m = v_flatten signals v' full m.
Proof.
  induction v as [| |b|z|t| |n|z|t|l IH|l IH] using jsval_ind'; intros v' H full m; inversion H as [?|z0 ? ? F F'|l0 l' HF|l0 l' HF]; subst; try reflexivity;
    try (inversion F; subst; inversion F'; subst; reflexivity).
  - cbn [v_flatten]. apply array_alike. exact HF.
  - cbn [v_flatten]. clear H. revert l' HF m. induction IH as [|[k x] l Hx _ IHl]; intros l' HF m; inversion HF as [|? [k' x'] ? l2 [E1 E2] HF2]; subst; [reflexivity|].
    cbn [fst snd] in *. subst k'. rewrite (Hx _ E2). match goal with |- match ?e with _ => _ end = _ => destruct e end; [apply IHl; exact HF2|reflexivity..].
Qed.
Lemma fill_alike v : forall v', alike v v' -> forall acc, v_fill_array acc v = v_fill_array acc v'.
Proof.
  assert (N : forall z v, number_form z v -> v_bigint v = Ok z).
  { intros z w [| |]; try reflexivity. cbn [v_bigint]. rewrite (proj1 (C57_rendering_round_trip z)). reflexivity. }
  assert (A : forall z v acc, number_form z v -> v_fill_array acc v = Ok (acc ++ [z])).
  { intros z w acc F. assert (G := N z w F). destruct F; cbn [v_fill_array]; rewrite G; reflexivity. }
  induction v as [| |b|z|t| |n|z|t|l IH|l IH] using jsval_ind'; intros v' H acc; inversion H as [?|z0 ? ? F F'|l0 l' HF|l0 l' HF]; subst; try reflexivity;
    try (rewrite (A _ _ acc F), (A _ _ acc F'); reflexivity).
  cbn [v_fill_array]. clear H. revert l' HF acc. induction IH as [|x l Hx _ IHl]; intros l' HF acc; inversion HF; subst; [reflexivity|].
  erewrite Hx by eassumption. match goal with |- match ?e with _ => _ end = _ => destruct e end; [apply IHl; assumption|reflexivity..].
Qed.
Lemma map_inputs_alike kvs kvs' signals : alike_inputs kvs kvs' -> v_map_inputs kvs signals = v_map_inputs kvs' signals.
Proof.
  intros H. unfold v_map_inputs. generalize ([] : nmap text). induction H as [|[k v] [k' v'] kvs kvs' [E1 E2] _ IH]; intros m; [reflexivity|].
  cbn [fst snd v_map_inputs_loop] in *. subst k'. rewrite (flatten_alike _ _ _ E2). match goal with |- match ?e with _ => _ end = _ => destruct e end; [apply IH|reflexivity..].
Qed.
Lemma set_keys_alike m prime kvs kvs' : alike_inputs kvs kvs' -> forall s, v_set_keys m prime kvs s = v_set_keys m prime kvs' s.
Proof.
  induction 1 as [|[k v] [k' v'] kvs kvs' [E1 E2] _ IH]; intros s; [reflexivity|]. cbn [fst snd v_set_keys] in *. subst k'. unfold mbind at 1 3.
  assert (K : v_set_key m prime k v s = v_set_key m prime k v' s) by (unfold v_set_key, v_flat_array; rewrite (fill_alike _ _ E2); reflexivity).
  rewrite K. destruct (v_set_key m prime k v' s) as [[a|e|] s']; [|reflexivity..]. unfold mbind. rewrite IH. reflexivity.
Qed.
Lemma calculate_alike m kvs kvs' : alike_inputs kvs kvs' -> v_calculate_wtns m kvs = v_calculate_wtns m kvs'.
Proof.
  intros A. unfold v_calculate_wtns, v_do_calculate.
  assert (H : forall s, mbind (v_set_keys m (wc_prime m (state0 m)) kvs) (fun count => if count <? input_size m then fail WcNotAllInputs else ret tt) s
     = mbind (v_set_keys m (wc_prime m (state0 m)) kvs') (fun count => if count <? input_size m then fail WcNotAllInputs else ret tt) s).
  { intros s. unfold mbind. rewrite (set_keys_alike _ _ _ _ A). reflexivity. }
  unfold mbind at 1 3. destruct (lift_opt (x_init m) WcInit (x_raw_prime m (state0 m))) as [[u|e|] s']; [|reflexivity..].
  rewrite H. reflexivity.
Qed.
Theorem C83_number_forms :
  forall (E : pairingT Fr) (C : codecT E) (D : domainT Fr) (kdf : GT E -> key) (aes : cipherT) W fuel inputs inputs',
    alike_inputs inputs inputs' ->
    (forall co cb sym, v_encap E C D kdf W fuel co cb sym inputs = v_encap E C D kdf W fuel co cb sym inputs') /\
    (forall co cb sym message, v_encrypt E C D kdf aes W fuel co cb sym inputs message false = v_encrypt E C D kdf aes W fuel co cb sym inputs' message false) /\
    (forall m cb ct, v_decap E C kdf W fuel m cb ct inputs = v_decap E C kdf W fuel m cb ct inputs') /\
    (forall m cb a, v_decrypt E C kdf aes W fuel m cb a inputs = v_decrypt E C kdf aes W fuel m cb a inputs').
Proof.
  intros E C D kdf aes W fuel inputs inputs' A.
  assert (H1 : forall co cb sym, v_encap E C D kdf W fuel co cb sym inputs = v_encap E C D kdf W fuel co cb sym inputs').
  { intros. unfold v_encap. rewrite (map_inputs_alike _ _ _ A). reflexivity. }
  assert (H2 : forall m cb ct, v_decap E C kdf W fuel m cb ct inputs = v_decap E C kdf W fuel m cb ct inputs').
  { intros. unfold v_decap. rewrite (calculate_alike _ _ _ A). reflexivity. }
  split; [exact H1|]. split; [intros; unfold v_encrypt; rewrite H1; reflexivity|]. split; [exact H2|].
  intros. unfold v_decrypt. destruct (js_split a) as [wm|e|]; [|reflexivity..]. cbn [rmap_err rbind]. rewrite H2. reflexivity.
Qed.
Print Assumptions C83_number_forms.

(** ** What is written *)
Lemma written_unfold kvs : written_as (VObject kvs) = JObj (written kvs).
Proof.
  cbn [written_as]. f_equal. induction kvs as [|[k x] kvs IH]; [reflexivity|]. cbn [flat_map written filter map fst snd].
  destruct (is_undefined x); cbn [negb app map fst snd]; [exact IH|]. rewrite IH. reflexivity.
Qed.
Definition bigint_free (v : jsval) : Prop := ~ holds_bigint v.
Lemma stringify_written v : numbers_finite v -> ~ holds_bigint v ->
  v_stringify v = Ok (if is_undefined v then None else Some (stringify (written_as v))).
Proof.
  induction v as [| |b|z|t| |n|z|t|l IH|l IH] using jsval_ind'; intros Hf Hb; try reflexivity.
  - inversion Hf as [? Ht| | |v H _ _]; subst; [|exfalso; eapply H; reflexivity]. cbn. rewrite Ht. reflexivity.
  - exfalso. apply Hb. constructor.
  - assert (Hl : Forall numbers_finite l) by (inversion Hf as [| l0 H| |v _ H _]; subst; [exact H|exfalso; eapply H; reflexivity]).
    assert (Hn : Forall bigint_free l) by (apply Forall_forall; intros x Hx Hh; apply Hb; eapply hb_array; eassumption).
    clear Hf Hb. cbn [v_stringify is_undefined written_as stringify].
    match goal with |- rbind ?g _ = _ => assert (G : g = Ok (map stringify (map written_as l))) end.
    { induction IH as [|x l H _ IHl]; [reflexivity|]. inversion Hl; subst. inversion Hn; subst. rewrite H by assumption. cbn [rbind].
      rewrite IHl by assumption. cbn [rbind map]. destruct x; reflexivity. }
    rewrite G. reflexivity.
  - assert (Hl : Forall (fun kv => numbers_finite (snd kv)) l) by (inversion Hf as [| |l0 H|v _ _ H]; subst; [exact H|exfalso; eapply H; reflexivity]).
    assert (Hn : Forall (fun kv => bigint_free (snd kv)) l) by (apply Forall_forall; intros [k x] Hx Hh; apply Hb; eapply hb_object; eassumption).
    clear Hf Hb. rewrite written_unfold. cbn [v_stringify is_undefined stringify].
    match goal with |- rbind ?g _ = _ => assert (G : g = Ok (map (fun kv => match kv with (k, v) => write_string k ++ lit ":" ++ stringify v end) (written l))) end.
    { induction IH as [|[k x] l H _ IHl]; [reflexivity|]. inversion Hl; subst. inversion Hn; subst. cbn [snd] in *. rewrite H by assumption. cbn [rbind].
      rewrite IHl by assumption. cbn [rbind]. unfold written. cbn [filter snd]. destruct (is_undefined x); reflexivity. }
    rewrite G. reflexivity.
Qed.
Lemma rbind_err {E A B} (x : res E A) (f : A -> res E B) e : x = Err e -> rbind x f = Err e.
Proof. intros ->. reflexivity. Qed.
Lemma stringify_never_panics v : v_stringify v <> Panic.
Proof.
  induction v as [| |b|z|t| |n|z|t|l IH|l IH] using jsval_ind'; try discriminate; cbn [v_stringify]; intros H.
  - match type of H with rbind ?g _ = _ => assert (G : g <> Panic) end.
    { clear H. induction IH as [|x l Hx _ IHl]; [discriminate|]. destruct (v_stringify x); cbn [rbind]; [|discriminate|contradiction].
      match goal with |- rbind ?g _ <> _ => destruct g end; cbn [rbind]; [discriminate..|contradiction]. }
    match type of H with rbind ?g _ = _ => destruct g end; cbn [rbind] in H; [discriminate..|contradiction].
  - match type of H with rbind ?g _ = _ => assert (G : g <> Panic) end.
    { clear H. induction IH as [|[k x] l Hx _ IHl]; [discriminate|]. cbn [snd] in Hx. destruct (v_stringify x); cbn [rbind]; [|discriminate|contradiction].
      match goal with |- rbind ?g _ <> _ => destruct g end; cbn [rbind]; [discriminate..|contradiction]. }
    match type of H with rbind ?g _ = _ => destruct g end; cbn [rbind] in H; [discriminate..|contradiction].
Qed.
Lemma stringify_type_error v : forall e, v_stringify v = Err e -> e = JsTypeError.
Proof.
  induction v as [| |b|z|t| |n|z|t|l IH|l IH] using jsval_ind'; intros e; try discriminate; cbn [v_stringify]; intros H; try (injection H as <-; reflexivity).
  - match type of H with rbind ?g _ = _ => assert (G : forall e', g = Err e' -> e' = JsTypeError) end.
    { clear H. induction IH as [|x l Hx _ IHl]; intros e' H; [discriminate|]. destruct (v_stringify x) as [t|e0|]; cbn [rbind] in H; [|injection H as <-; apply Hx; reflexivity|discriminate].
      match type of H with rbind ?g _ = _ => destruct g end; cbn [rbind] in H; [discriminate|injection H as <-; apply IHl; reflexivity|discriminate]. }
    match type of H with rbind ?g _ = _ => destruct g end; cbn [rbind] in H; [discriminate|injection H as <-; apply G; reflexivity|discriminate].
  - match type of H with rbind ?g _ = _ => assert (G : forall e', g = Err e' -> e' = JsTypeError) end.
    { clear H. induction IH as [|[k x] l Hx _ IHl]; intros e' H; [discriminate|]. cbn [snd] in Hx. destruct (v_stringify x) as [t|e0|]; cbn [rbind] in H; [|injection H as <-; apply Hx; reflexivity|discriminate].
      match type of H with rbind ?g _ = _ => destruct g end; cbn [rbind] in H; [discriminate|injection H as <-; apply IHl; reflexivity|discriminate]. }
    match type of H with rbind ?g _ = _ => destruct g end; cbn [rbind] in H; [discriminate|injection H as <-; apply G; reflexivity|discriminate].
Qed.
Lemma stringify_bigint v : holds_bigint v -> forall r, v_stringify v <> Ok r.
Proof.
  induction v as [| |b|z|t| |n|z|t|l IH|l IH] using jsval_ind'; intros Hh r; inversion Hh as [?|l0 x Hx Hhx|l0 k x Hx Hhx]; subst; try discriminate; cbn [v_stringify]; intros H.
  - match type of H with rbind ?g _ = _ => assert (G : forall r', g <> Ok r') end.
    { clear H r Hh. rewrite Forall_forall in IH. induction l as [|y l IHl]; intros r' H; [contradiction|].
      destruct Hx as [->|Hx].
      - destruct (v_stringify x) as [t|e0|] eqn:E; cbn [rbind] in H; try discriminate. exact (IH x (or_introl eq_refl) Hhx t E).
      - destruct (v_stringify y) as [t|e0|]; cbn [rbind] in H; try discriminate.
        match type of H with rbind ?g _ = _ => destruct g eqn:Eg end; cbn [rbind] in H; try discriminate.
        exact (IHl (fun z Hz => IH z (or_intror Hz)) Hx _ eq_refl). }
    match type of H with rbind ?g _ = _ => destruct g end; cbn [rbind] in H; [eapply G; reflexivity|discriminate..].
  - match type of H with rbind ?g _ = _ => assert (G : forall r', g <> Ok r') end.
    { clear H r Hh. rewrite Forall_forall in IH. induction l as [|[ky y] l IHl]; intros r' H; [contradiction|].
      destruct Hx as [Hx|Hx].
      - injection Hx as -> ->. destruct (v_stringify x) as [t|e0|] eqn:E; cbn [rbind] in H; try discriminate. exact (IH (k, x) (or_introl eq_refl) Hhx t E).
      - destruct (v_stringify y) as [t|e0|]; cbn [rbind] in H; try discriminate.
        match type of H with rbind ?g _ = _ => destruct g eqn:Eg end; cbn [rbind] in H; try discriminate.
        exact (IHl (fun z Hz => IH z (or_intror Hz)) Hx _ eq_refl). }
    match type of H with rbind ?g _ = _ => destruct g end; cbn [rbind] in H; [eapply G; reflexivity|discriminate..].
Qed.
Theorem C83_json_stringify :
  forall v,
    (holds_bigint v -> v_stringify v = Err JsTypeError) /\
    (~ holds_bigint v -> numbers_finite v ->
     v_stringify v = Ok (if is_undefined v then None else Some (stringify (written_as v)))).
Proof.
  intros v. split; [|intros; apply stringify_written; assumption]. intros H. destruct (v_stringify v) as [r|e|] eqn:E.
  - exfalso. exact (stringify_bigint v H r E).
  - f_equal. apply (stringify_type_error v). exact E.
  - exfalso. exact (stringify_never_panics v E).
Qed.
Print Assumptions C83_json_stringify.

(** ** encrypt *)
(** Without the inputs in the file, BigInts are as good as any other number. *)
Theorem C83_encrypt_without_inputs :
  forall (E : pairingT Fr) (C : codecT E) (D : domainT Fr) (kdf : GT E -> key) (aes : cipherT) W fuel stringify co cb sym inputs message,
    v_encrypt E C D kdf aes W fuel co cb sym inputs message false =
    js_encrypt E C D kdf aes stringify W fuel co cb sym (seen inputs) message false.
Proof.
  intros. unfold v_encrypt, js_encrypt. rewrite encap_seen. destruct (js_encap _ _ _ _ _ _ _ _ _ _) as [[ct k]|e|]; [|reflexivity..].
  cbn [rbind fst snd]. destruct (rmap_err ACrypt (aesGcmEncrypt aes k (c_nonce co) message)) as [enc|e|]; reflexivity.
Qed.
Print Assumptions C83_encrypt_without_inputs.
(** With the inputs in the file, and no BigInt among them: the inputs amount to one document, and the
    file holds another. *)
Theorem C83_encrypt_with_inputs :
  forall (E : pairingT Fr) (C : codecT E) (D : domainT Fr) (kdf : GT E -> key) (aes : cipherT) W fuel co cb sym inputs message,
    ~ holds_bigint (VObject inputs) -> numbers_finite (VObject inputs) ->
    v_encrypt E C D kdf aes W fuel co cb sym inputs message true =
    js_encrypt E C D kdf aes (fun _ => public_json (written inputs)) W fuel co cb sym (seen inputs) message true.
Proof.
  intros E C D kdf aes W fuel co cb sym inputs message Hb Hf. unfold v_encrypt, js_encrypt. rewrite encap_seen.
  destruct (js_encap _ _ _ _ _ _ _ _ _ _) as [[ct k]|e|]; [|reflexivity..].
  cbn [rbind fst snd]. destruct (rmap_err ACrypt (aesGcmEncrypt aes k (c_nonce co) message)) as [enc|e|]; [|reflexivity..]. cbn [rbind].
  rewrite (stringify_written _ Hf Hb). cbn [is_undefined rmap_err rbind]. rewrite written_unfold. reflexivity.
Qed.
Print Assumptions C83_encrypt_with_inputs.
(** With a BigInt among them encryption never succeeds: where the same call without the inputs in the
    file succeeds, or gets as far as the file, it is a TypeError. *)
Theorem C83_bigint_and_included_inputs :
  forall (E : pairingT Fr) (C : codecT E) (D : domainT Fr) (kdf : GT E -> key) (aes : cipherT) W fuel co cb sym inputs message,
    holds_bigint (VObject inputs) ->
    (forall fk, v_encrypt E C D kdf aes W fuel co cb sym inputs message false = Ok fk ->
       v_encrypt E C D kdf aes W fuel co cb sym inputs message true = Err (AInput JsTypeError)) /\
    (forall fk, v_encrypt E C D kdf aes W fuel co cb sym inputs message true <> Ok fk).
Proof.
  intros E C D kdf aes W fuel co cb sym inputs message Hb. destruct (C83_json_stringify (VObject inputs)) as [S _]. specialize (S Hb).
  unfold v_encrypt. destruct (v_encap _ _ _ _ _ _ _ _ _ _) as [[ct k]|e|]; cbn [rbind fst snd]; [|split; intros; discriminate..].
  destruct (rmap_err ACrypt (aesGcmEncrypt aes k (c_nonce co) message)) as [enc|e|]; cbn [rbind]; [|split; intros; discriminate..].
  rewrite S. cbn [rmap_err rbind]. split; [reflexivity|discriminate].
Qed.
Print Assumptions C83_bigint_and_included_inputs.

(** ** Round trips *)
Lemma seen_incl pub full : incl pub full -> incl (seen pub) (seen full).
Proof. intros H x Hx. unfold seen in *. apply in_map_iff in Hx as (y&<-&Hy). apply in_map_iff. exists y. split; [reflexivity|apply H; exact Hy]. Qed.
(** Encrypted with BigInts (or any values) and without the inputs in the file, decrypted with the same
    values and the private ones: the message. *)
Theorem C83_encrypt_then_decrypt :
  forall (E : pairingT Fr) (C : codecT E) (D : domainT Fr) (kdf : GT E -> key) (aes : cipherT) W fuel
         co cb sym pub full message inc f k m r ins a,
    (forall g, List.length (kdf g) = 32%nat) -> List.length (c_nonce co) = 12%nat ->
    (inc = true -> blen (public_json (written pub)) < 2 ^ 32 /\ numbers_finite (VObject pub)) ->
    compiled m r ins (js_wires sym) -> circuit_file cb r -> js_usable r ->
    fits_encrypt W fuel cb sym -> fits_calculated W fuel cb r ->
    v_encrypt E C D kdf aes W fuel co cb sym pub message inc = Ok (f, k) ->
    shaped_doc ins (seen full) -> solves m (seen full) -> incl pub full -> ordinary (seen pub) ->
    jb_valid a -> jb_window a = f ->
    v_decrypt E C kdf aes W fuel m cb a full = Ok message.
Proof.
  intros E C D kdf aes W fuel co cb sym pub full message inc f k m r ins a Hk Hn Hq Hc Hcf Hu Hfe Hfc He Hsh Hso Hi Ho Hv Hw.
  rewrite decrypt_seen. apply seen_incl in Hi. destruct inc.
  - destruct (Hq eq_refl) as [Hq1 Hq2].
    assert (Hb : ~ holds_bigint (VObject pub)).
    { intros Hb. destruct (C83_bigint_and_included_inputs E C D kdf aes W fuel co cb sym pub message Hb) as [_ H]. exact (H _ He). }
    rewrite (C83_encrypt_with_inputs _ _ _ _ _ _ _ _ _ _ _ _ Hb Hq2) in He.
    exact (C56_js_encrypt_then_decrypt E C D kdf aes _ W fuel co cb sym (seen pub) (seen full) message true f k m r ins a Hk Hn (fun _ => Hq1) Hc Hcf Hu Hfe Hfc He Hsh Hso Hi Ho Hv Hw).
  - rewrite (C83_encrypt_without_inputs E C D kdf aes W fuel (fun _ => [])) in He.
    refine (C56_js_encrypt_then_decrypt E C D kdf aes _ W fuel co cb sym (seen pub) (seen full) message false f k m r ins a Hk Hn _ Hc Hcf Hu Hfe Hfc He Hsh Hso Hi Ho Hv Hw).
    discriminate.
Qed.
Print Assumptions C83_encrypt_then_decrypt.
(** What getPublicInput gives back: the document that was written, without the undefined members and
    with null for Numbers that are not finite. *)
Theorem C83_public_input_comes_back :
  forall (E : pairingT Fr) (C : codecT E) (D : domainT Fr) (kdf : GT E -> key) (aes : cipherT) W fuel round lossy
         co cb sym inputs message f k r a,
    (forall g, List.length (kdf g) = 32%nat) -> List.length (c_nonce co) = 12%nat ->
    circuit_file cb r -> js_usable r -> fits_encrypt W fuel cb sym ->
    numbers_finite (VObject inputs) -> js_data round (JObj (written inputs)) -> blen (public_json (written inputs)) < 2 ^ 32 ->
    v_encrypt E C D kdf aes W fuel co cb sym inputs message true = Ok (f, k) ->
    jb_valid a -> jb_window a = f ->
    get_public_input (text_decode lossy) (js_json_parse round) a = Ok (JObj (written inputs)).
Proof.
  intros E C D kdf aes W fuel round lossy co cb sym inputs message f k r a Hkdf Hn Hcf Hu HW Hfin Hj Hq He Hva Hwa.
  assert (Hb : ~ holds_bigint (VObject inputs)).
  { intros Hb. destruct (C83_bigint_and_included_inputs E C D kdf aes W fuel co cb sym inputs message Hb) as [_ H]. exact (H _ He). }
  rewrite (C83_encrypt_with_inputs _ _ _ _ _ _ _ _ _ _ _ _ Hb Hfin) in He.
  apply js_encrypt_inv in He as (ctb&enc&He&Hc&_&_); [|assumption..]. cbn beta in Hc.
  assert (Hs : blen ctb < 2 ^ 32).
  { destruct HW as (W1&W2&W3&W4&W5).
    destruct (js_encap_facts E C D kdf W fuel co sym (seen inputs) cb ctb k r Hcf Hu W1 W2 W3 W4 W5 He) as (ct&c&_&_&Hs&_). exact Hs. }
  destruct (C34_round_trip_across_tools true ctb (public_json (written inputs)) enc Hs (fun _ => Hq)) as (f'&Hf1&Hf&_&_).
  assert (Hff : f' = f) by congruence. subst f'.
  destruct (C37_returns_the_embedded_input _ _ (text_decode lossy) (js_json_parse round) ctb (public_json (written inputs)) enc a Hs Hq Hva) as (H&_&_).
  rewrite H by congruence. rewrite public_json_read by exact Hj. reflexivity.
Qed.
Print Assumptions C83_public_input_comes_back.

(** The hypotheses are met: x = 9n (a BigInt) and y = -3 in the y * y = x circuit; and inputs with an
    undefined member and a NaN, which the symbol file does not know, come back without the one and
    with null for the other. *)
Definition ex_big : list (text * jsval) := [(lit "x", VBigInt 9)].
Definition ex_big_full : list (text * jsval) := [(lit "y", VNumber (-3)); (lit "x", VBigInt 9)].
Definition ex_odd : list (text * jsval) := [(lit "x", VNumber 9); (lit "z", VUndefined); (lit "w", VNaN)].
Example C83_forms : alike_inputs [(lit "x", VBigInt 9); (lit "l", VArray [VNumber (-1); VString (lit "7")])]
                                  [(lit "x", VString (lit "9")); (lit "l", VArray [VBigInt (-1); VNumber 7])].
Proof.
  repeat constructor; cbn [snd].
  - apply (al_number 9); [constructor|apply (form_string 9)].
  - apply (al_number (-1)); constructor.
  - apply (al_number 7); [apply (form_string 7)|constructor].
Qed.
Example C83_nonvacuous : forall (aes : cipherT) lossy,
  (exists f k,
    v_encrypt fr_pairing ex_codec bn_domain ex_kdf32 aes (2 ^ 32) 1000 ex_coins ex_circuit_file ex_sym_text ex_big [x68; x69] false = Ok (f, k) /\
    v_decrypt fr_pairing ex_codec ex_kdf32 aes (2 ^ 32) 1000 ex_wmodule ex_circuit_file (whole f) ex_big_full = Ok [x68; x69] /\
    v_encrypt fr_pairing ex_codec bn_domain ex_kdf32 aes (2 ^ 32) 1000 ex_coins ex_circuit_file ex_sym_text ex_big [x68; x69] true = Err (AInput JsTypeError)) /\
  (exists f k,
    v_encrypt fr_pairing ex_codec bn_domain ex_kdf32 aes (2 ^ 32) 1000 ex_coins ex_circuit_file ex_sym_text ex_odd [x68; x69] true = Ok (f, k) /\
    get_public_input (text_decode lossy) (js_json_parse JFloat) (whole f) = Ok (JObj [(lit "x", JInt 9); (lit "w", JNull)])).
Proof.
  intros aes lossy.
  assert (Hkdf : forall g, List.length (ex_kdf32 g) = 32%nat) by (intros g; apply le_bytes_length).
  assert (Hfe : fits_encrypt (2 ^ 32) 1000 ex_circuit_file ex_sym_text) by (repeat split; vm_compute; auto; discriminate).
  assert (Hfc : fits_calculated (2 ^ 32) 1000 ex_circuit_file ex_circuit) by (repeat split; vm_compute; auto; discriminate).
  assert (Hde : c_delta ex_coins <> f0).
  { intros Hd. apply (proj2 (feqb_true Fr _ _)) in Hd. vm_compute in Hd. discriminate. }
  assert (Hu : js_usable ex_circuit) by (split; vm_compute; auto; discriminate).
  assert (Hms : blen [x68; x69] <= gcm_limit) by (vm_compute; discriminate).
  assert (Hfl : flat_doc [(lit "x", JInt 9)]).
  { constructor; [left; cbn [snd]; apply com_int; split; [discriminate|reflexivity]|constructor]. }
  assert (Hv : forall f, jb_valid (whole f)) by (intros f; unfold jb_valid, whole; cbn [jb_offset jb_length jb_buffer]; apply N.le_refl).
  split.
  - destruct (C44_js_encrypt_succeeds fr_pairing ex_codec bn_domain ex_kdf32 aes (fun _ => []) (2 ^ 32) 1000 ex_coins ex_circuit_file
      ex_sym_text (seen ex_big) [x68; x69] false ex_circuit Hkdf eq_refl Hde ex_circuit_is_file Hfe Hfl Hms) as (f&k&He).
    assert (He' := He). rewrite <- C83_encrypt_without_inputs in He'. exists f, k. split; [exact He'|].
    split.
    + refine (C83_encrypt_then_decrypt fr_pairing ex_codec bn_domain ex_kdf32 aes (2 ^ 32) 1000 ex_coins ex_circuit_file ex_sym_text
        ex_big ex_big_full [x68; x69] false f k ex_wmodule ex_circuit ex_ins (whole f) Hkdf eq_refl _ ex_compiled ex_circuit_is_file
        Hu Hfe Hfc He' _ _ _ _ (Hv f) (window_whole f)).
      * discriminate.
      * intros k' v [H|[H|[]]]; injection H as <- <-; exists []; (split; [cbn; auto|constructor; discriminate]).
      * set (h := Z.to_N (-3 mod bn_r)). exists [(name_hash (lit "y"), 0, h); (name_hash (lit "x"), 0, 9)], [1; 9; h]. split.
        -- exists [[(name_hash (lit "y"), 0, h)]; [(name_hash (lit "x"), 0, 9)]]. split; [|split; [reflexivity|apply perm_swap]].
           constructor; [|constructor; [|constructor]].
           ++ exists [(-3)%Z], 1. split; [repeat constructor|]. split; [right; left; reflexivity|]. split; reflexivity.
           ++ exists [9%Z], 1. split; [repeat constructor|]. split; [left; reflexivity|]. split; reflexivity.
        -- vm_compute. reflexivity.
      * intros e [<-|[]]. right. left. reflexivity.
      * split.
        -- intros k' v zs z [H|[]] Hn Hz. injection H as <- <-.
           assert (zs = [9%Z]) by (eapply numbers_fun; [exact Hn|repeat constructor]). subst zs. destruct Hz as [<-|[]]. split; [lia|reflexivity].
        -- intros name t (k'&v&[H|[]]&Hl). injection H as <- <-. inversion Hl.
    + assert (Hb : holds_bigint (VObject ex_big)) by (eapply hb_object; [left; reflexivity|constructor]).
      destruct (C83_bigint_and_included_inputs fr_pairing ex_codec bn_domain ex_kdf32 aes (2 ^ 32) 1000 ex_coins ex_circuit_file ex_sym_text ex_big [x68; x69] Hb) as [H _].
      exact (H _ He').
  - destruct (C44_js_encrypt_succeeds fr_pairing ex_codec bn_domain ex_kdf32 aes (fun _ => public_json (written ex_odd)) (2 ^ 32) 1000 ex_coins ex_circuit_file
      ex_sym_text [(lit "x", JInt 9)] [x68; x69] true ex_circuit Hkdf eq_refl Hde ex_circuit_is_file Hfe Hfl Hms) as (f&k&He).
    assert (Hb : ~ holds_bigint (VObject ex_odd)).
    { intros Hb. inversion Hb as [| |? k' x Hin Hx]; subst. destruct Hin as [H|[H|[H|[]]]]; injection H as <- <-; inversion Hx. }
    assert (Hfin : numbers_finite (VObject ex_odd)).
    { apply nf_object. repeat constructor; discriminate. }
    assert (He' : v_encrypt fr_pairing ex_codec bn_domain ex_kdf32 aes (2 ^ 32) 1000 ex_coins ex_circuit_file ex_sym_text ex_odd [x68; x69] true = Ok (f, k)).
    { rewrite (C83_encrypt_with_inputs _ _ _ _ _ _ _ _ _ _ _ _ Hb Hfin). rewrite <- He. unfold js_encrypt.
      assert (J : js_encap fr_pairing ex_codec bn_domain ex_kdf32 (2 ^ 32) 1000 ex_coins ex_circuit_file ex_sym_text (seen ex_odd)
                = js_encap fr_pairing ex_codec bn_domain ex_kdf32 (2 ^ 32) 1000 ex_coins ex_circuit_file ex_sym_text [(lit "x", JInt 9)]).
      { unfold js_encap. assert (M : js_map_inputs (seen ex_odd) (get_input_signals (js_parse_sym_file ex_sym_text) None) =
          js_map_inputs [(lit "x", JInt 9)] (get_input_signals (js_parse_sym_file ex_sym_text) None)) by (vm_compute; reflexivity). rewrite M. reflexivity. }
      rewrite J. reflexivity. }
    exists f, k. split; [exact He'|].
    refine (C83_public_input_comes_back fr_pairing ex_codec bn_domain ex_kdf32 aes (2 ^ 32) 1000 JFloat lossy ex_coins ex_circuit_file ex_sym_text ex_odd
      [x68; x69] f k ex_circuit (whole f) Hkdf eq_refl ex_circuit_is_file Hu Hfe Hfin _ _ He' (Hv f) (window_whole f)).
    + assert (Hone : forall c : N, c < 128 -> js_string [c]).
      { intros c Hc. split; [|repeat constructor; lia]. intros a b hi lo E. destruct a as [|? [|? a]]; discriminate E. }
      apply jd_obj.
      * repeat constructor; cbn; intuition discriminate.
      * exists [], [lit "x"; lit "w"]. split; [reflexivity|]. split; [constructor|]. split; [intros k' []|]. split.
        { intros k' n [<-|[<-|[]]] Hi; apply array_index_iff in Hi; discriminate Hi. }
        split; [reflexivity|]. exists keep_other. split; [apply keep_other_iff|]. vm_compute. reflexivity.
      * repeat (apply Forall_cons || apply Forall_nil); cbn [fst snd]; (split; [apply Hone; reflexivity|]); [apply jd_int; discriminate|constructor].
    + vm_compute. reflexivity.
Qed.
