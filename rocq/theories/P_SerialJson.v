(** Property theorem C62: circuits, witnesses and test cases saved as JSON.  Vocabulary: SpecSerial.v. *)
From Coq Require Import List Bool Arith NArith ZArith Lia Permutation.
From Coq Require Import Strings.String Strings.Byte.
From Verif Require Import Res Bytes Text Utf8 R1cs R1csFacts SpecR1cs Inputs InputsFacts Serial SpecSerial SerialFacts FileSys SpecCommands P_Serial P_Json
  JsonText SpecJson JsonFacts JsonMore JsonObj JsonWrite SerialJson SpecSerialJson SerialJsonIff.
Import ListNotations.
Local Open Scope N_scope.

(** ** Trees *)
Lemma omap_map {A B C} (f : B -> option C) (g : A -> B) (h : A -> C) l : (forall x, In x l -> f (g x) = Some (h x)) -> omap f (map g l) = Some (map h l).
Proof.
  induction l as [|x l IH]; intros H; [reflexivity|]. cbn [map omap]. rewrite (H x (or_introl eq_refl)). cbn [obind]. rewrite IH by (intros; apply H; right; assumption). reflexivity.
Qed.
Lemma r_uint_num b n : n < b -> r_uint b (j_num n) = Some n.
Proof.
  intros H. unfold r_uint, j_num. assert (E : ((0 <=? Z.of_N n) && (Z.of_N n <? Z.of_N b))%Z = true).
  { apply andb_true_intro. split; [apply Z.leb_le|apply Z.ltb_lt]; lia. }
  rewrite E, N2Z.id. reflexivity.
Qed.
Lemma r_u32_num n : is_u32 n -> r_u32 (j_num n) = Some n.
Proof. apply r_uint_num. Qed.
Lemma r_bytes_ok l : r_list r_byte (j_bytes l) = Some l.
Proof.
  unfold r_list, j_bytes. rewrite (omap_map r_byte (fun b => j_num (Byte.to_N b)) (fun b => b)), map_id; [reflexivity|]. intros b _. unfold r_byte.
  rewrite r_uint_num; [|pose proof (Byte.to_N_bounded b); lia]. cbn [option_map]. rewrite (byte_eq_of b _ eq_refl). reflexivity.
Qed.
Lemma r_key_dec n : is_u32 n -> r_key (dec_text n) = Some n.
Proof.
  intros H. unfold r_key. destruct (dec_text_spec n) as (H1&H2&H3). rewrite H3, text_eqb_refl. apply N.ltb_lt in H. rewrite H.
  unfold all_digits. destruct (dec_text n) eqn:E; [congruence|]. rewrite <- E, H2 in *. reflexivity.
Qed.
Lemma insert_all {V} (m : nmap V) : NoDup (map fst m) -> fold_left (fun m kv => nm_insert (fst kv) (snd kv) m) m [] = m.
Proof.
  assert (G : forall (b a : nmap V), NoDup (map fst (a ++ b)) -> fold_left (fun m kv => nm_insert (fst kv) (snd kv) m) b a = a ++ b).
  { induction b as [|[k v] b IH]; intros a Hn; [cbn; rewrite app_nil_r; reflexivity|]. cbn [fold_left fst snd].
    assert (E : nm_insert k v a = a ++ [(k, v)]).
    { rewrite map_app in Hn. cbn [map fst] in Hn. apply NoDup_remove_2 in Hn. assert (Hk : ~ In k (map fst a)) by (intros H; apply Hn; apply in_or_app; auto).
      clear - Hk. induction a as [|[k' v'] a IH]; [reflexivity|]. cbn in *. destruct (N.eqb_spec k k'); [subst; tauto|]. rewrite IH by tauto. reflexivity. }
    rewrite E, IH; [rewrite <- app_assoc; reflexivity|]. rewrite <- app_assoc. exact Hn. }
  apply (G m []).
Qed.
Lemma r_map_ok {V} (f : json -> option V) (enc : V -> json) (ok : V -> Prop) m : (forall v, ok v -> f (enc v) = Some v) -> is_map ok m -> r_map f (j_map enc m) = Some m.
Proof.
  intros Hf (Hn&_&Ho). unfold r_map, j_map.
  rewrite (omap_map _ (fun kv => (dec_text (fst kv), enc (snd kv))) (fun kv => kv)).
  - rewrite map_id. cbn [obind]. rewrite insert_all by exact Hn. reflexivity.
  - intros [k v] Hi. rewrite Forall_forall in Ho. destruct (Ho _ Hi) as [H1 H2]. cbn [fst snd] in *. rewrite r_key_dec by exact H1. cbn [obind]. rewrite Hf by exact H2. reflexivity.
Qed.
Lemma r_factor_ok f : is_u32 (f_wire_id f) -> r_factor (j_factor f) = Some f.
Proof.
  intros H. destruct f as [w c]. unfold r_factor, j_factor. cbn [f_wire_id f_coefficient_bytes] in *.
  change (fields_of _ _) with (Some [Some (j_num w); Some (j_bytes c)]). cbv iota beta. cbn [need obind]. rewrite r_u32_num by exact H. cbn [obind]. rewrite r_bytes_ok. reflexivity.
Qed.
Lemma r_lc_ok l : is_lc l -> r_lc (j_lc l) = Some l.
Proof.
  intros [_ H]. destruct l as [fs]. unfold r_lc, j_lc. cbn [lc_factors] in *. change (fields_of _ _) with (Some [Some (JArr (map j_factor fs))]). cbv iota beta. cbn [need obind r_list].
  rewrite (omap_map r_factor j_factor (fun f => f)), map_id; [reflexivity|]. intros f Hf. rewrite Forall_forall in H. apply r_factor_ok. apply (H _ Hf).
Qed.
Lemma r_constraint_ok c : is_constraint c -> r_constraint (j_constraint c) = Some c.
Proof.
  intros (H1&H2&H3). destruct c as [a b c]. unfold r_constraint, j_constraint. cbn [sc_a sc_b sc_c] in *.
  change (fields_of _ _) with (Some [Some (j_lc a); Some (j_lc b); Some (j_lc c)]). cbv iota beta. cbn [need obind]. rewrite !r_lc_ok by assumption. reflexivity.
Qed.
Lemma may_opt {A} (f : json -> option A) (enc : A -> json) o : (forall a, o = Some a -> f (enc a) = Some a /\ enc a <> JNull) -> may f (Some (j_opt enc o)) = Some o.
Proof.
  intros H. unfold may, j_opt, r_opt. destruct o as [a|]; [|reflexivity]. destruct (H a eq_refl) as [H1 H2]. rewrite H1. destruct (enc a); try reflexivity. congruence.
Qed.
Lemma r_circuit_ok c : is_circuit c -> r_circuit (j_circuit c) = Some c.
Proof.
  intros (H1&_&H2&H3&H4&H5&H6&_&H7&H8). destruct c as [fs pb nw po pi pv nc cs wl].
  unfold r_circuit, j_circuit. cbn [s_field_size s_prime_bytes s_n_wires s_n_pub_out s_n_pub_in s_n_prv_in s_n_constraints s_constraints s_wire_labels] in *.
  change (fields_of _ _) with (Some [Some (j_num fs); Some (j_bytes pb); Some (j_num nw); Some (j_num po); Some (j_num pi); Some (j_num pv); Some (j_num nc);
    Some (JArr (map j_constraint cs)); Some (j_opt (j_map JStr) wl)]). cbv iota beta. cbn [need obind]. rewrite !r_u32_num by assumption. cbn [obind]. rewrite r_bytes_ok. cbn [obind r_list].
  rewrite (omap_map r_constraint j_constraint (fun f => f)), map_id by (intros x Hx; apply r_constraint_ok; rewrite Forall_forall in H7; auto). cbn [obind].
  rewrite may_opt; [reflexivity|]. intros m ->. split; [|discriminate]. apply (r_map_ok r_str JStr is_string); [reflexivity|]. apply H8. reflexivity.
Qed.
Lemma r_witness_ok w : is_witness w -> r_witness (j_witness w) = Some w.
Proof.
  intros H. destruct w as [m]. unfold r_witness, j_witness. cbn [s_assignments]. change (fields_of _ _) with (Some [Some (j_map j_bytes m)]). cbv iota beta. cbn [need obind].
  rewrite (r_map_ok (r_list r_byte) j_bytes fits64); [reflexivity|intros; apply r_bytes_ok|exact H].
Qed.
Lemma r_test_case_ok t : is_test_case t -> r_test_case (j_test_case t) = Some t.
Proof.
  intros (H1&H2&H3&H4). destruct t as [c w n d]. unfold r_test_case, j_test_case. cbn [tc_circuit tc_witness tc_name tc_description] in *.
  change (fields_of _ _) with (Some [Some (j_circuit c); Some (j_witness w); Some (JStr n); Some (j_opt JStr d)]). cbv iota beta. cbn [need obind].
  rewrite r_circuit_ok, r_witness_ok by assumption. cbn [obind r_str]. rewrite may_opt; [reflexivity|]. intros a _. split; [reflexivity|discriminate].
Qed.

(** ** Texts *)
Section Texts.
  Context (huge : text -> bool).
  Notation plain := (plain (serde_number huge) (fun kvs => kvs) false).
  Lemma plain_num d b n : n < b -> b <= 2 ^ 32 -> plain d (j_num n).
  Proof.
    intros H Hb. apply p_scalar. apply serde_number_dec. assert (E : (Z.of_N n < 2 ^ 32)%Z) by (change (2 ^ 32)%Z with (Z.of_N (2 ^ 32)); lia).
    assert (2 ^ 32 < 2 ^ 64)%Z by reflexivity. assert (- 2 ^ 63 < 0)%Z by reflexivity. lia.
  Qed.
  Lemma plain_u32 d n : is_u32 n -> plain d (j_num n).
  Proof. intros H. apply (plain_num d (2 ^ 32)); [exact H|reflexivity]. Qed.
  Lemma plain_bytes d l : plain (S d) (j_bytes l).
  Proof. apply p_arr, Forall_map, Forall_forall. intros b _. apply (plain_num d 256); [pose proof (Byte.to_N_bounded b); lia|discriminate]. Qed.
  Lemma lit_ok s : string_ok false (lit s).
  Proof. cbn. unfold no_surrogates. induction s as [|a s IH]; [constructor|]. cbn. constructor; [|exact IH]. unfold high, low. pose proof (Ascii.N_ascii_bounded a). lia. Qed.
  Lemma plain_obj d kvs : Forall (fun kv => string_ok false (fst kv) /\ plain d (snd kv)) kvs -> plain (S d) (JObj kvs).
  Proof. intros H. apply p_obj; [reflexivity|exact H]. Qed.
  Lemma dec_ok n : string_ok false (dec_text n).
  Proof.
    cbn. destruct (dec_text_spec n) as (_&H&_). apply digits_ok in H. eapply Forall_impl; [|exact H]. intros c Hc. unfold digit, high, low in *. lia.
  Qed.
  Lemma plain_map {V} d (enc : V -> json) (ok : V -> Prop) m : (forall v, ok v -> plain d (enc v)) -> is_map ok m -> plain (S d) (j_map enc m).
  Proof.
    intros He (_&_&Ho). apply plain_obj, Forall_map. eapply Forall_impl; [|exact Ho]. intros kv [_ H]. cbn [fst snd]. split; [apply dec_ok|apply He; exact H].
  Qed.
  Lemma plain_str d t : is_string t -> plain d (JStr t).
  Proof. intros [H _]. apply p_scalar. cbn. eapply Forall_impl; [|exact H]. intros c Hc. unfold scalar, high, low in *. lia. Qed.
  Lemma plain_opt {A} d (enc : A -> json) o : (forall a, o = Some a -> plain d (enc a)) -> plain d (j_opt enc o).
  Proof. intros H. destruct o as [a|]; [apply H; reflexivity|apply p_scalar; exact I]. Qed.
  Ltac members := repeat (apply Forall_cons || apply Forall_nil); cbn [fst snd]; (split; [apply lit_ok|]).
  Lemma plain_lc d l : is_lc l -> plain (4 + d) (j_lc l).
  Proof.
    intros [_ H]. apply plain_obj. members. apply p_arr, Forall_map. eapply Forall_impl; [|exact H]. intros f [Hw _].
    apply plain_obj. members; [apply plain_u32; exact Hw|apply plain_bytes].
  Qed.
  Lemma plain_circuit d c : is_circuit c -> plain (7 + d) (j_circuit c).
  Proof.
    intros (H1&_&H2&H3&H4&H5&H6&_&H7&H8). apply plain_obj. members; try (apply plain_u32; assumption); try apply plain_bytes.
    - apply p_arr, Forall_map. eapply Forall_impl; [|exact H7]. intros x (A1&A2&A3). apply plain_obj. members; apply plain_lc; assumption.
    - apply plain_opt. intros m Hm. apply (plain_map _ JStr is_string); [intros; apply plain_str; assumption|apply H8; exact Hm].
  Qed.
  Lemma plain_witness d w : is_witness w -> plain (3 + d) (j_witness w).
  Proof. intros H. apply plain_obj. members. apply (plain_map _ j_bytes fits64); [intros; apply plain_bytes|exact H]. Qed.
  Lemma plain_test_case d t : is_test_case t -> plain (8 + d) (j_test_case t).
  Proof.
    intros (H1&H2&H3&H4). apply plain_obj. members.
    - apply (plain_circuit d). exact H1.
    - apply (plain_witness (4 + d)). exact H2.
    - apply plain_str. exact H3.
    - apply plain_opt. intros a Ha. apply plain_str. apply H4. exact Ha.
  Qed.
  Lemma tree_pretty v : plain 127 v -> serde_tree huge (pretty 0 v) = Some v.
  Proof.
    intros H. apply read_json_iff. exists [], (pretty 0 v), []. split; [rewrite app_nil_r; reflexivity|]. split; [constructor|]. split; [constructor|].
    apply JsonWrite.write_values. exact H.
  Qed.
  (** No part of the text of an object is a document. *)
  Lemma tree_prefix v p q : plain 127 v -> (exists kvs, v = JObj kvs) -> pretty 0 v = p ++ q -> q <> [] -> serde_tree huge p = None.
  Proof.
    intros H (kvs&->) E Hq. destruct (serde_tree huge p) as [v'|] eqn:Et; [|reflexivity]. exfalso. apply read_json_iff in Et. revert Et.
    apply (no_prefix _ _ _ 127 127 (pretty 0 (JObj kvs)) (JObj kvs) p q v'); [apply JsonWrite.write_values; exact H| |exact E|exact Hq].
    destruct kvs; eexists; eexists; (split; [reflexivity|]); auto.
  Qed.
End Texts.

(** ** C62 *)
(** Whatever order the maps are visited in, reading back gives the same value. *)
Theorem C62_circuit_round_trip :
  forall huge c d, is_circuit c -> reordered c d -> exists c', from_json huge (to_json d) = Some c' /\ same_circuit c c'.
Proof.
  intros huge c d Hc Hr. destruct (reordered_ok c d Hc Hr) as [Hd Hs]. exists d. split; [|exact Hs].
  unfold from_json, to_json. rewrite tree_pretty by (apply (plain_circuit huge 120); exact Hd). apply r_circuit_ok. exact Hd.
Qed.
Print Assumptions C62_circuit_round_trip.
Theorem C62_witness_round_trip :
  forall huge w m, is_witness w -> Permutation (s_assignments w) m ->
    exists w', witness_from_json huge (witness_to_json (SWitness m)) = Some w' /\ same_map (s_assignments w) (s_assignments w').
Proof.
  intros huge w m Hw Hp. exists (SWitness m). split; [|apply same_map_perm; [apply Hw|exact Hp]].
  assert (Hm : is_witness (SWitness m)) by (eapply is_map_perm; [exact Hw|exact Hp]).
  unfold witness_from_json, witness_to_json. rewrite tree_pretty by (apply (plain_witness huge 124); exact Hm). apply r_witness_ok. exact Hm.
Qed.
Print Assumptions C62_witness_round_trip.
Lemma reordered_test_case_ok t u : is_test_case t -> reordered_test_case t u -> is_test_case u /\ same_test_case t u.
Proof.
  intros (H1&H2&H3&H4) (c&m&Hc&Hm&->). destruct (reordered_ok _ _ H1 Hc) as [Hd Hs]. split.
  - split; [exact Hd|]. split; [eapply is_map_perm; [exact H2|exact Hm]|]. auto.
  - split; [exact Hs|]. split; [apply same_map_perm; [apply H2|exact Hm]|]. auto.
Qed.
Theorem C62_test_case_round_trip :
  forall huge t u, is_test_case t -> reordered_test_case t u ->
    exists t', test_case_from_json huge (test_case_to_json u) = Some t' /\ same_test_case t t'.
Proof.
  intros huge t u Ht Hr. destruct (reordered_test_case_ok t u Ht Hr) as [Hu Hs]. exists u. split; [|exact Hs].
  unfold test_case_from_json, test_case_to_json. rewrite tree_pretty by (apply (plain_test_case huge 119); exact Hu). apply r_test_case_ok. exact Hu.
Qed.
Print Assumptions C62_test_case_round_trip.

(** Saving under failures and kills: afterwards the file is as before, or loading it gives what was
    saved or an error. *)
Lemma utf8_prefix t n t' : Forall scalar t -> utf8_decode (firstn n (utf8_encode t)) = Some t' -> exists r, t = t' ++ r.
Proof.
  intros Ht H. apply utf8_decode_sound in H as [E Hs']. 
  assert (G : forall t' t rest, Forall scalar t -> Forall scalar t' -> utf8_encode t = utf8_encode t' ++ rest -> exists r, t = t' ++ r).
  { clear. induction t' as [|c t' IH]; intros t rest Ht Ht' E; [exists t; reflexivity|]. inversion Ht' as [|? ? Hc Ht'']; subst.
    assert (D := utf8_decode_encode t Ht). unfold utf8_decode in D. rewrite E in D. cbn [utf8_encode flat_map] in D.
    change (flat_map utf8_char t') with (utf8_encode t') in D. rewrite <- app_assoc in D.
    remember (List.length (utf8_char c ++ utf8_encode t' ++ rest)) as fuel eqn:Ef. destruct fuel as [|fuel].
    { exfalso. rewrite app_length in Ef. pose proof (utf8_char_length c). lia. }
    rewrite (utf8_decode_char fuel c _ Hc) in D. destruct (utf8_decode_fuel fuel (utf8_encode t' ++ rest)) as [t2|] eqn:E2; [|discriminate]. cbn in D. injection D as <-.
    inversion Ht as [|? ? _ Ht2]; subst.
    apply utf8_decode_fuel_sound in E2 as [E2 _]. destruct (IH t2 rest Ht2 Ht'' (eq_sym E2)) as (r&->). exists r. reflexivity. }
  eapply (G t' t (skipn n (utf8_encode t)) Ht Hs'). rewrite <- E. symmetry. apply firstn_skipn.
Qed.
Section Saved.
  Context {A : Type} (huge : text -> bool) (v : json) (a : A) (r : json -> option A).
  Context (Hp : plain (serde_number huge) (fun kvs => kvs) false 127 v) (Ho : exists kvs, v = JObj kvs) (Hr : r v = Some a)
          (Hs : Forall scalar (pretty 0 v)).
  Notation parse := (fun t => obind (serde_tree huge t) r).
  Lemma saved_whole s p : load_text parse (fs_write p (utf8_encode (pretty 0 v)) s) p = Some a.
  Proof. unfold load_text, fs_write. rewrite text_eqb_refl. cbn [obind]. rewrite (utf8_decode_encode _ Hs). cbn [obind]. rewrite tree_pretty by exact Hp. exact Hr. Qed.
  Lemma saved_part s p n : load_text parse (fs_write p (firstn n (utf8_encode (pretty 0 v))) s) p = Some a \/
                           load_text parse (fs_write p (firstn n (utf8_encode (pretty 0 v))) s) p = None.
  Proof.
    destruct (Nat.lt_ge_cases n (List.length (utf8_encode (pretty 0 v)))) as [Hn|Hn]; [|left; rewrite firstn_all2 by exact Hn; apply saved_whole].
    right. unfold load_text, fs_write. rewrite text_eqb_refl. cbn [obind]. destruct (utf8_decode (firstn n (utf8_encode (pretty 0 v)))) as [t'|] eqn:E; [|reflexivity].
    cbn [obind]. destruct (utf8_prefix _ _ _ Hs E) as (q&Eq). rewrite (tree_prefix huge v t' q Hp Ho Eq); [reflexivity|].
    intros ->. rewrite app_nil_r in Eq. apply utf8_decode_sound in E as [E _]. rewrite <- Eq in E. apply (f_equal (@List.length _)) in E. rewrite firstn_length in E. lia.
  Qed.
  Lemma saved_then_loaded p s s' o : exec (save_text (pretty 0 v) p) s s' o ->
    only_changed [p] s s' /\ (s' p = s p \/ load_text parse s' p = Some a \/ load_text parse s' p = None) /\ (o = Finished (Ok tt) -> load_text parse s' p = Some a).
  Proof.
    intros H. unfold save_text, write_ in H.
    assert (Hw : forall b, only_changed [p] s (fs_write p b s)).
    { intros b q Hq. unfold fs_write. destruct (text_eqb q p) eqn:E; [|reflexivity]. apply text_eqb_eq in E. subst q. exfalso. apply Hq. left. reflexivity. }
    assert (Hss : only_changed [p] s s) by (intros q _; reflexivity).
    inversion H as [|? ?| | |? ? ? ? ? ? H'|? ? ? ? ? ? H'|? ? n ? ? ? ? H'|? ? n ? ?]; subst.
    - split; [exact Hss|]. split; [auto|]. discriminate.
    - inversion H'; subst; (split; [apply Hw|]; split; [right; left; apply saved_whole|intros _; apply saved_whole]).
    - inversion H'; subst; (split; [exact Hss|]; split; [auto|]; discriminate).
    - inversion H'; subst; (split; [apply Hw|]; split; [right; apply saved_part|]; discriminate).
    - split; [apply Hw|]. split; [right; apply saved_part|]. discriminate.
  Qed.
End Saved.

(** Every character written is one. *)
Inductive texts_ok : json -> Prop :=
| to_num n : texts_ok (j_num n)
| to_null : texts_ok JNull
| to_str t : Forall scalar t -> texts_ok (JStr t)
| to_arr l : Forall texts_ok l -> texts_ok (JArr l)
| to_obj kvs : Forall (fun kv => Forall scalar (fst kv) /\ texts_ok (snd kv)) kvs -> texts_ok (JObj kvs).
Lemma indent_scalar n : Forall scalar (indent n).
Proof.
  unfold indent. repeat (apply Forall_app; split); try apply lit_scalar; try (repeat constructor; left; vm_compute; reflexivity).
  all: try (apply Forall_cons; [left; vm_compute; reflexivity|]). all: try (apply Forall_forall; intros x Hx; apply repeat_spec in Hx; subst; left; vm_compute; reflexivity).
Qed.
Lemma string_scalar t : Forall scalar t -> Forall scalar (write_string t).
Proof. intros H. apply write_string_scalar. eapply Forall_impl; [|exact H]. intros c Hc. unfold scalar in Hc. lia. Qed.
Lemma pretty_scalar v : texts_ok v -> forall n, Forall scalar (pretty n v).
Proof.
  induction v as [|b|z|t|t|l IH|l IH] using json_ind'; intros H n; inversion H as [m| |t0 Ht|l0 Hl|l0 Hl]; subst; cbn [pretty write_scalar]; try apply lit_scalar.
  - apply number_scalar. eapply int_value_number_token, dec_z_value.
  - apply string_scalar. exact Ht.
  - destruct l as [|x l]; [apply lit_scalar|]. repeat (apply Forall_app; split); try apply lit_scalar; try apply indent_scalar.
    apply sep_by_scalar; [apply Forall_app; split; [apply lit_scalar|apply indent_scalar]|]. apply Forall_map. rewrite Forall_forall in *. intros y Hy. apply IH; auto.
  - destruct l as [|x l]; [apply lit_scalar|]. repeat (apply Forall_app; split); try apply lit_scalar; try apply indent_scalar.
    apply sep_by_scalar; [apply Forall_app; split; [apply lit_scalar|apply indent_scalar]|]. apply Forall_map. rewrite Forall_forall in *. intros [k y] Hy.
    destruct (Hl _ Hy) as [H1 H2]. cbn [fst snd] in *. apply Forall_app; split; [apply string_scalar; exact H1|]. apply Forall_app; split; [apply lit_scalar|]. apply (IH _ Hy). exact H2.
Qed.
Lemma dec_scalar n : Forall scalar (dec_text n).
Proof. destruct (dec_text_spec n) as (_&H&_). apply digits_ok in H. apply digits_scalar. exact H. Qed.
Lemma to_bytes l : texts_ok (j_bytes l).
Proof. apply to_arr, Forall_map, Forall_forall. intros; apply to_num. Qed.
Lemma to_map {V} (enc : V -> json) (ok : V -> Prop) m : (forall v, ok v -> texts_ok (enc v)) -> is_map ok m -> texts_ok (j_map enc m).
Proof. intros He (_&_&Ho). apply to_obj, Forall_map. eapply Forall_impl; [|exact Ho]. intros kv [_ H]. cbn [fst snd]. split; [apply dec_scalar|auto]. Qed.
Lemma to_opt {A} (enc : A -> json) o : (forall a, o = Some a -> texts_ok (enc a)) -> texts_ok (j_opt enc o).
Proof. destruct o; intros H; [apply H; reflexivity|constructor]. Qed.
Ltac mems := repeat (apply Forall_cons || apply Forall_nil); cbn [fst snd]; (split; [apply lit_scalar|]); try apply to_num; try apply to_bytes.
Lemma to_lc l : texts_ok (j_lc l).
Proof. apply to_obj. mems. apply to_arr, Forall_map, Forall_forall. intros f _. apply to_obj. mems. Qed.
Lemma to_circuit c : is_circuit c -> texts_ok (j_circuit c).
Proof.
  intros (_&_&_&_&_&_&_&_&_&H8). apply to_obj. mems.
  - apply to_arr, Forall_map, Forall_forall. intros x _. apply to_obj. mems; apply to_lc.
  - apply to_opt. intros m Hm. apply (to_map JStr is_string); [intros v [Hv _]; apply to_str; exact Hv|apply H8; exact Hm].
Qed.
Lemma to_witness w : is_witness w -> texts_ok (j_witness w).
Proof. intros H. apply to_obj. mems. apply (to_map j_bytes fits64); [intros; apply to_bytes|exact H]. Qed.
Lemma to_test_case t : is_test_case t -> texts_ok (j_test_case t).
Proof.
  intros (H1&H2&H3&H4). apply to_obj. mems; [apply to_circuit; exact H1|apply to_witness; exact H2|apply to_str; apply H3|].
  apply to_opt. intros a Ha. apply to_str. apply H4. exact Ha.
Qed.

Theorem C62_save_then_load :
  forall huge c p s s' o, is_circuit c -> exec (save_json c p) s s' o ->
    only_changed [p] s s' /\ (s' p = s p \/ load_json huge s' p = Some c \/ load_json huge s' p = None) /\
    (o = Finished (Ok tt) -> load_json huge s' p = Some c).
Proof.
  intros huge c p s s' o Hc H.
  apply (saved_then_loaded huge (j_circuit c) c r_circuit (plain_circuit huge 120 c Hc) (ex_intro _ _ eq_refl) (r_circuit_ok c Hc)
           (pretty_scalar _ (to_circuit c Hc) 0%nat) p s s' o H).
Qed.
Print Assumptions C62_save_then_load.
Theorem C62_save_then_load_witness :
  forall huge w p s s' o, is_witness w -> exec (save_witness_json w p) s s' o ->
    only_changed [p] s s' /\ (s' p = s p \/ load_witness_json huge s' p = Some w \/ load_witness_json huge s' p = None) /\
    (o = Finished (Ok tt) -> load_witness_json huge s' p = Some w).
Proof.
  intros huge w p s s' o Hc H.
  apply (saved_then_loaded huge (j_witness w) w r_witness (plain_witness huge 124 w Hc) (ex_intro _ _ eq_refl) (r_witness_ok w Hc)
           (pretty_scalar _ (to_witness w Hc) 0%nat) p s s' o H).
Qed.
Print Assumptions C62_save_then_load_witness.
Theorem C62_save_then_load_test_case :
  forall huge t p s s' o, is_test_case t -> exec (save_test_case_json t p) s s' o ->
    only_changed [p] s s' /\ (s' p = s p \/ load_test_case_json huge s' p = Some t \/ load_test_case_json huge s' p = None) /\
    (o = Finished (Ok tt) -> load_test_case_json huge s' p = Some t).
Proof.
  intros huge t p s s' o Hc H.
  apply (saved_then_loaded huge (j_test_case t) t r_test_case (plain_test_case huge 119 t Hc) (ex_intro _ _ eq_refl) (r_test_case_ok t Hc)
           (pretty_scalar _ (to_test_case t Hc) 0%nat) p s s' o H).
Qed.
Print Assumptions C62_save_then_load_test_case.
(** A text cut short is an error, wherever the cut. *)
Theorem C62_cut_short_is_an_error :
  forall huge, (forall c n, is_circuit c -> (n < List.length (to_json c))%nat -> from_json huge (firstn n (to_json c)) = None) /\
    (forall w n, is_witness w -> (n < List.length (witness_to_json w))%nat -> witness_from_json huge (firstn n (witness_to_json w)) = None) /\
    (forall t n, is_test_case t -> (n < List.length (test_case_to_json t))%nat -> test_case_from_json huge (firstn n (test_case_to_json t)) = None).
Proof.
  intros huge.
  assert (G : forall v n, plain (serde_number huge) (fun kvs => kvs) false 127 v -> (exists kvs, v = JObj kvs) -> (n < List.length (pretty 0 v))%nat -> serde_tree huge (firstn n (pretty 0 v)) = None).
  { intros v n Hp Ho Hn. apply (tree_prefix huge v _ (skipn n (pretty 0 v)) Hp Ho); [symmetry; apply firstn_skipn|].
    intros E. apply (f_equal (@List.length _)) in E. rewrite skipn_length in E. cbn [List.length] in E. lia. }
  split; [|split].
  - intros c n H Hn. unfold from_json, to_json in *. rewrite (G _ n (plain_circuit huge 120 c H) (ex_intro _ _ eq_refl) Hn). reflexivity.
  - intros c n H Hn. unfold witness_from_json, witness_to_json in *. rewrite (G _ n (plain_witness huge 124 c H) (ex_intro _ _ eq_refl) Hn). reflexivity.
  - intros c n H Hn. unfold test_case_from_json, test_case_to_json in *. rewrite (G _ n (plain_test_case huge 119 c H) (ex_intro _ _ eq_refl) Hn). reflexivity.
Qed.
Print Assumptions C62_cut_short_is_an_error.
(** What loads, and as what: exactly the texts whose document says a circuit (a witness, a test case),
    in the sense of SpecSerialJson.v. *)
Theorem C62_what_loads :
  forall huge t,
    (forall c, from_json huge t = Some c -> exists v, holds huge t v /\ says_circuit v c) /\
    (forall v c, holds huge t v -> says_circuit v c -> exists c', from_json huge t = Some c' /\ same_circuit c c') /\
    (forall w, witness_from_json huge t = Some w -> exists v, holds huge t v /\ says_witness v w) /\
    (forall v w, holds huge t v -> says_witness v w -> exists w', witness_from_json huge t = Some w' /\ same_map (s_assignments w) (s_assignments w')) /\
    (forall x, test_case_from_json huge t = Some x -> exists v, holds huge t v /\ says_test_case v x) /\
    (forall v x, holds huge t v -> says_test_case v x -> exists x', test_case_from_json huge t = Some x' /\ same_test_case x x').
Proof.
  intros huge t.
  assert (G : forall (A : Type) (same : A -> A -> Prop) r (says : json -> A -> Prop), reads_upto same r says ->
    (forall a, obind (serde_tree huge t) r = Some a -> exists v, holds huge t v /\ says v a) /\
    (forall v a, holds huge t v -> says v a -> exists a', obind (serde_tree huge t) r = Some a' /\ same a a')).
  { intros A same r says [H1 H2]. split.
    - intros a H. apply obind_iff in H as (v&Hv&Ha). apply read_json_iff in Hv. exists v. auto.
    - intros v a Hv Ha. apply read_json_iff in Hv. unfold serde_tree. rewrite Hv. cbn [obind]. exact (H2 v a Ha). }
  destruct (G _ _ _ _ reads_circuit) as [C1 C2], (G _ _ _ _ reads_witness) as [W1 W2], (G _ _ _ _ reads_test_case) as [T1 T2].
  repeat split; assumption.
Qed.
Print Assumptions C62_what_loads.
(** An array of the nine fields says a circuit; so does an object without the optional labels, with its
    members in another order and a stranger among them. *)
Example C62_what_loads_nonvacuous :
  (exists v, says_circuit v (SCircuit 1 [x07] 1 0 0 0 0 [] None) /\ exists l, v = JArr l) /\
  (exists v, says_circuit v (SCircuit 1 [x07] 1 0 0 0 0 [] None) /\ exists kvs, v = JObj kvs /\ map fst kvs <> [] /\ ~ In (lit "wire_labels") (map fst kvs)).
Proof.
  pose (n := fun k => JInt (Z.of_N k)).
  assert (U : forall k, k < 2 ^ 32 -> required says_u32 (Some (n k)) k) by (intros k Hk; exists (n k); split; [reflexivity|split; [reflexivity|exact Hk]]).
  assert (B : required says_bytes (Some (JArr [n 7])) [x07]) by (eexists; split; [reflexivity|]; exists [n 7]; split; [reflexivity|constructor; [reflexivity|constructor]]).
  assert (L : required (says_list says_constraint) (Some (JArr [])) []) by (eexists; split; [reflexivity|]; exists []; split; [reflexivity|constructor]).
  split.
  - exists (JArr [n 1; JArr [n 7]; n 1; n 0; n 0; n 0; n 0; JArr []; JNull]). split; [|eexists; reflexivity].
    exists (Some (n 1)), (Some (JArr [n 7])), (Some (n 1)), (Some (n 0)), (Some (n 0)), (Some (n 0)), (Some (n 0)), (Some (JArr [])), (Some JNull).
    split; [right; eexists; split; [reflexivity|]; split; reflexivity|].
    repeat split; try (apply U; reflexivity); try exact B; try exact L. right. reflexivity.
  - exists (JObj [(lit "constraints", JArr []); (lit "prime_bytes", JArr [n 7]); (lit "x", JNull); (lit "n_wires", n 1); (lit "n_pub_out", n 0); (lit "n_pub_in", n 0);
      (lit "n_prv_in", n 0); (lit "n_constraints", n 0); (lit "field_size", n 1)]). split.
    + exists (Some (n 1)), (Some (JArr [n 7])), (Some (n 1)), (Some (n 0)), (Some (n 0)), (Some (n 0)), (Some (n 0)), (Some (JArr [])), None.
      split; [apply fields_iff; vm_compute; reflexivity|].
      repeat split; try (apply U; reflexivity); try exact B; try exact L. left. reflexivity.
    + eexists. split; [reflexivity|]. split; [discriminate|]. vm_compute. intuition discriminate.
Qed.
Example C62_nonvacuous :
  is_test_case ex_test_case /\
  test_case_from_json (fun _ => false) (test_case_to_json ex_test_case) = Some ex_test_case /\
  load_json (fun _ => false) (fun p => if text_eqb p (lit "x") then Some (utf8_encode (to_json ex_s_circuit)) else None) (lit "x") = Some ex_s_circuit /\
  witness_from_json (fun _ => false) (lit "{""assignments"":{""7"":[1,255],""7"":[2]}}") = Some (SWitness [(7, [x02])]) /\
  witness_from_json (fun _ => false) (lit "{""assignments"":{},""assignments"":{}}") = None /\
  witness_from_json (fun _ => false) (lit "{""assignments"":{""4294967296"":[]}}") = None /\
  witness_from_json (fun _ => false) (lit "{""assignments"":{""1"":[256]}}") = None /\
  witness_from_json (fun _ => false) (lit "{""other"":1,""assignments"":{}}") = Some (SWitness []) /\
  witness_from_json (fun _ => false) (lit "[{}]") = Some (SWitness []) /\
  from_json (fun _ => false) (lit "{""field_size"":1,""prime_bytes"":[7],""n_wires"":1,""n_pub_out"":0,""n_pub_in"":0,""n_prv_in"":0,""n_constraints"":0,""constraints"":[]}")
    = Some (SCircuit 1 [x07] 1 0 0 0 0 [] None).
Proof. split; [apply C45_nonvacuous|]. vm_compute. repeat (split; [reflexivity|]). reflexivity. Qed.
