(** Property theorems C56, exactly: which public inputs survive the way from encryption to decryption
    with the same inputs.  Vocabulary: SpecEndToEnd.v, SpecJsReports.v. *)
From Coq Require Import List Bool Arith NArith ZArith Lia Permutation.
From Coq Require Import Strings.String Strings.Byte.
From Verif Require Import Res Bytes Text Utf8 Fld Zp Groups Bn254 CS CSFacts Qap SpecCore Core CoreFacts CoreMore P_Core
  R1cs SpecR1cs R1csFacts R1csJs R1csJsFacts P_R1cs Wtns SpecWtns WtnsFacts P_Wtns Circuit SpecCircuit CircuitFacts P_Circuit
  ArkSer ArkSerFacts P_Ser Sym SpecSym SymFacts P_Sym Inputs SpecInputs InputsFacts P_Inputs
  Combined SpecCombined CombinedFacts P_Combined Gcm SpecGcm GcmFacts P_Gcm FileSys Commands SpecCommands CommandsFacts
  PartialEncap P_Commands JsZkenc JsZkencFacts P_JsZkenc SpecJs C44Facts P_JsApi JsIff SpecBound P_Bound
  SpecNumerals P_Numerals WitnessCalc SpecWitnessCalc WitnessCalcFacts P_WitnessCalc JsFull SpecEndToEnd EndToEndFacts P_EndToEnd
  SpecJsReports P_JsReports.
Import ListNotations.
Local Open Scope N_scope.

Lemma whole_number_fun v z z' : whole_number v z -> whole_number v z' -> z = z'.
Proof. intros H H'. assert (X : [z] = [z']) by (eapply numbers_fun; constructor; eassumption). congruence. Qed.

Section Leaves.
  Context (m : wmodule) (r : r1cs_file) (ins : list (text * list N)) (sym : text) (Hc : compiled m r ins (js_wires sym)).
  Context (pub full : list (text * json)) (Hsh : shaped_doc ins full) (Hin : incl pub full).
  Context (gs : list setting) (Hci : complete_input m full gs).
  (** A named value the encapsulation reads is a leaf of the document. *)
  Lemma item_is_leaf name x wire : In (name, x) (doc_items pub) -> js_wires sym name = Some wire -> doc_leaf pub name x.
  Proof.
    intros Hi Hw. unfold doc_items in Hi. apply in_flat_map in Hi as ([k v]&Hkv&Hi). cbn [fst snd] in Hi. exists k, v. split; [exact Hkv|].
    destruct v as [|b|y|t|t|l|o]; cbn [value_items] in Hi.
    1-5: destruct Hi as [Hi|[]]; injection Hi as <- <-; apply leaf_here; discriminate.
    - apply in_map_iff in Hi as ([i y]&He&Hi). cbn [fst snd] in He. injection He as <- <-.
      assert (Hx : nth_error l i = Some y).
      { clear - Hi. assert (G : forall s, In (i, y) (combine (seq s (List.length l)) l) -> (s <= i)%nat /\ nth_error l (i - s) = Some y).
        { revert Hi. clear. intros _. induction l as [|a l IH]; intros s; cbn [List.length seq combine]; [intros []|].
          intros [E|H]; [injection E as <- <-; rewrite Nat.sub_diag; auto|]. destruct (IH (S s) H) as [A B].
          split; [lia|]. replace (i - s)%nat with (S (i - S s)) by lia. exact B. }
        destruct (G 0%nat Hi) as [_ G0]. rewrite Nat.sub_0_r in G0. exact G0. }
      destruct (Hsh k (JArr l) (Hin _ Hkv)) as (dims&Hd&Hv). inversion Hv as [v' Hv'|d ds l' Hdl Hf]; subst; [exfalso; eapply Hv'; reflexivity|].
      assert (Hix : indexed k 1 (item k (N.of_nat i))) by (eapply ix_more; apply ix_none).
      assert (Hwn : js_wires sym (item k (N.of_nat i)) <> None) by (intros X; assert (Y := eq_trans (eq_sym X) Hw); discriminate Y).
      assert (Hlen := cp_names _ _ _ _ Hc k _ 1%nat _ Hd Hix Hwn).
      destruct ds as [|d' ds]; [|discriminate Hlen].
      assert (Hxs : shaped [] y) by (rewrite Forall_forall in Hf; apply Hf; eapply nth_error_In; exact Hx).
      eapply leaf_in; [exact Hx|]. apply leaf_here. inversion Hxs; assumption.
    - exfalso. assert (Hnum : exists zs, numbers (JObj o) zs).
      { destruct Hci as (per&Hper&_&_). assert (Hi' := Hin _ Hkv). clear - Hper Hi'. induction Hper as [|kv g kvs per Hg _ IH]; [contradiction|].
        destruct Hi' as [->|Hi']; [|apply IH; exact Hi']. destruct Hg as (zs&n&Hn&_). exists zs. exact Hn. }
      destruct Hnum as (zs&Hn). inversion Hn as [v' z' Hz'|]; subst. inversion Hz'.
  Qed.
  (** The values of the witness against those the encapsulation binds. *)
  Lemma same_reading_iff w n_pub : md_compute m gs = Some w ->
    ((forall wire z, binds sym pub n_pub wire z -> nth_error (map (fun v => fr (Z.of_N v)) w) (N.to_nat wire) = Some (fr (z mod 2 ^ 256))) <->
     same_reading sym pub n_pub).
  Proof.
    intros Hw. destruct (witness_carries m r ins (js_wires sym) Hc full Hsh gs w Hci Hw) as [_ Hcar]. split.
    - intros H wire z Hb name v z' (k&v0&Hkv&Hl) Hwire Hz'. specialize (H wire z Hb).
      destruct (Hcar k v0 name v wire (Hin _ Hkv) Hl Hwire) as (z''&zs&_&_&Hz''&Hn).
      assert (z'' = z') by (eapply whole_number_fun; eassumption). subst z''. congruence.
    - intros H wire z Hb. assert (Hb' := Hb). destruct Hb' as (_&_&t&(pre&name&x&post&Hd&Hon&Hstr&_)&_).
      assert (Hl : doc_leaf pub name x) by (eapply item_is_leaf; [rewrite Hd; apply in_or_app; right; left; reflexivity|exact Hon]).
      assert (Hl' := Hl). destruct Hl' as (k&v0&Hkv&Hlf).
      destruct (Hcar k v0 name x wire (Hin _ Hkv) Hlf Hon) as (z'&zs&_&_&Hz'&Hn). rewrite Hn. f_equal. symmetry.
      exact (H wire z Hb name x z' Hl Hon Hz').
  Qed.
End Leaves.

(** JavaScript encap, then JavaScript decap with the full inputs: it returns the key exactly if both
    calls read the same public inputs. *)
Theorem C56_js_decap_iff :
  forall (E : pairingT Fr) (C : codecT E) (D : domainT Fr) (kdf : GT E -> key) W fuel co cb sym pub full ctb k m r ins k',
    compiled m r ins (js_wires sym) -> circuit_file cb r -> js_usable r -> factors_below (r_n_wires r) (r_constraints r) ->
    fits_encrypt W fuel cb sym -> fits_calculated W fuel cb r ->
    js_encap E C D kdf W fuel co cb sym pub = Ok (ctb, k) ->
    shaped_doc ins full -> solves m full -> incl pub full ->
    (decap_inputs E C kdf W fuel m cb ctb full = Ok k' <->
     k' = k /\ same_reading sym pub (r_n_pub_out r + r_n_pub_in r)).
Proof.
  intros E C D kdf W fuel co cb sym pub full ctb k m r ins k' Hc Hcf Hu Hfb Hf1 Hf2 He Hsh Hso Hin.
  destruct (calculated m r ins (js_wires sym) Hc cb Hcf full Hsh Hso) as (gs&w&wb&Hci&Hw&Hwb&Hwf&Hlen&Hbl&Ho).
  assert (A := C58_js_decap_iff_any_document E C D kdf W fuel co cb sym pub ctb k r wb _ k' Hcf Hu Hfb Hf1 He Hwf (fits_calc W fuel cb r wb Hf2 Hbl)).
  assert (B := same_reading_iff m r ins sym Hc pub full Hsh Hin gs Hci w (r_n_pub_out r + r_n_pub_in r) Hw).
  assert (T : decap_inputs E C kdf W fuel m cb ctb full = Ok k' <-> js_decap E C kdf W fuel cb wb ctb = Ok k').
  { unfold decap_inputs. rewrite Hwb. cbn [rmap_err rbind]. destruct (js_decap E C kdf W fuel cb wb ctb) as [x|e|]; cbn [rmap_err]; split; congruence. }
  rewrite T, A. tauto.
Qed.
Print Assumptions C56_js_decap_iff.

(** JavaScript encrypt, then JavaScript decrypt with the full inputs: the message comes back exactly
    if both calls read the same public inputs; nothing else ever does. *)
Theorem C56_js_decrypt_iff :
  forall (E : pairingT Fr) (C : codecT E) (D : domainT Fr) (kdf : GT E -> key) (aes : cipherT) stringify W fuel
         co cb sym pub full message inc f k m r ins a message',
    (forall g, List.length (kdf g) = 32%nat) -> List.length (c_nonce co) = 12%nat ->
    (inc = true -> blen (stringify pub) < 2 ^ 32) ->
    compiled m r ins (js_wires sym) -> circuit_file cb r -> js_usable r -> factors_below (r_n_wires r) (r_constraints r) ->
    fits_encrypt W fuel cb sym -> fits_calculated W fuel cb r ->
    js_encrypt E C D kdf aes stringify W fuel co cb sym pub message inc = Ok (f, k) ->
    shaped_doc ins full -> solves m full -> incl pub full ->
    jb_valid a -> jb_window a = f ->
    (decrypt_inputs E C kdf aes W fuel m cb a full = Ok message' <->
     message' = message /\ same_reading sym pub (r_n_pub_out r + r_n_pub_in r)).
Proof.
  intros E C D kdf aes stringify W fuel co cb sym pub full message inc f k m r ins a message'
    Hkdf Hn Hq Hc Hcf Hu Hfb Hf1 Hf2 He Hsh Hso Hin Hva Hwa.
  destruct (calculated m r ins (js_wires sym) Hc cb Hcf full Hsh Hso) as (gs&w&wb&Hci&Hw&Hwb&Hwf&Hlen&Hbl&Ho).
  assert (A := C58_js_decrypt_iff_any_document E C D kdf aes stringify W fuel co cb sym pub message inc f k r wb _ a message'
    Hkdf Hn Hq Hcf Hu Hfb Hf1 He Hwf (fits_calc W fuel cb r wb Hf2 Hbl) Hva Hwa).
  assert (B := same_reading_iff m r ins sym Hc pub full Hsh Hin gs Hci w (r_n_pub_out r + r_n_pub_in r) Hw).
  assert (T := decrypt_inputs_ok E C kdf aes W fuel m cb a full wb message' Hwb).
  rewrite T, A. tauto.
Qed.
Print Assumptions C56_js_decrypt_iff.

(** Both sides occur: with the public input "9" encap and calculator read the same, with -1 they do not
    (encap takes -1 modulo 2^256). *)
Example C56_iff_nonvacuous :
  same_reading ex_sym_text [(lit "x", JStr (lit "9"))] 1 /\ ~ same_reading ex_sym_text [(lit "x", JInt (-1))] 1 /\
  exists k, js_encap fr_pairing ex_codec bn_domain ex_kdf32 (2 ^ 32) 1000 ex_coins ex_circuit_file ex_sym_text [(lit "x", JStr (lit "9"))] = Ok k.
Proof.
  assert (L : forall v t w, js_to_string v = Some t -> (forall l, v <> JArr l) -> (forall o, v <> JObj o) ->
    forall t', leaves ex_sym_text [(lit "x", v)] w t' -> t' = t).
  { intros v t w Hs Ha Ho t' (pre&name&x&post&Hd&_&Hx&_). assert (In (name, x) (doc_items [(lit "x", v)])) by (rewrite Hd; apply in_or_app; right; left; reflexivity).
    assert (E : doc_items [(lit "x", v)] = [(lit "x", v)]) by (destruct v; try reflexivity; [destruct (Ha l eq_refl)|destruct (Ho l eq_refl)]).
    rewrite E in H. destruct H as [H|[]]. injection H as <- <-. congruence. }
  split; [|split].
  - intros wire z (_&_&t&Hl&Hz) name v z' (k&v0&[Hi|[]]&Hlf) Hw Hz'. injection Hi as <- <-. apply (L _ (lit "9")) in Hl; [|reflexivity|discriminate..]. subst t.
    inversion Hlf as [k v1 Hna|k l i x name' v1 Hn Hl']; subst. inversion Hz' as [| | | |t y Hy]; subst.
    assert (z = z') by (eapply C57_one_reading; eassumption). subst z'. apply C57_bigint_texts in Hz. vm_compute in Hz. injection Hz as <-. reflexivity.
  - intros H. assert (Lv : leaves ex_sym_text [(lit "x", JInt (-1))] 1 (lit "-1")).
    { exists [], (lit "x"), (JInt (-1)), []. split; [reflexivity|]. split; [reflexivity|]. split; [reflexivity|]. intros ? ? []. }
    assert (B : binds ex_sym_text [(lit "x", JInt (-1))] 1 1 (-1)).
    { split; [lia|]. split; [intros j Hj; assert (j = 1) by lia; subst j; eexists; exact Lv|]. exists (lit "-1"). split; [exact Lv|]. apply C57_bigint_texts. vm_compute. reflexivity. }
    assert (X := H 1 (-1)%Z B (lit "x") (JInt (-1)) (-1)%Z). apply (C47_negative_and_long_values_refuted (-1)).
    + left. split; [vm_compute; discriminate|reflexivity].
    + apply X; [|reflexivity|constructor]. exists (lit "x"), (JInt (-1)). split; [left; reflexivity|]. apply leaf_here. discriminate.
  - destruct (js_encap fr_pairing ex_codec bn_domain ex_kdf32 (2 ^ 32) 1000 ex_coins ex_circuit_file ex_sym_text [(lit "x", JStr (lit "9"))]) as [k|e|] eqn:E; [eauto|exfalso..];
      vm_compute in E; discriminate E.
Qed.
