(** Property theorems C60, C61 and C63: JSON texts.  Vocabulary: SpecJson.v. *)
From Coq Require Import List Bool Arith NArith ZArith Lia Sorted Permutation.
From Coq Require Import Strings.String Strings.Byte.
From Verif Require Import Res Bytes Text Utf8 Fld Zp Groups Bn254 CS CSFacts Qap SpecCore Core CoreFacts CoreMore P_Core
  R1cs SpecR1cs R1csFacts R1csJs R1csJsFacts P_R1cs Wtns SpecWtns WtnsFacts P_Wtns Circuit SpecCircuit CircuitFacts P_Circuit
  ArkSer ArkSerFacts P_Ser Sym SpecSym SymFacts P_Sym Inputs SpecInputs InputsFacts P_Inputs
  Combined SpecCombined CombinedFacts P_Combined Gcm SpecGcm GcmFacts P_Gcm FileSys Commands SpecCommands CommandsFacts
  PartialEncap P_Commands JsZkenc JsZkencFacts P_JsZkenc SpecJs C44Facts P_JsApi JsIff SpecBound
  JsonText SpecJson JsonFacts JsonMore JsonObj JsonWrite.
Import ListNotations.
Local Open Scope N_scope.

(** ** C60 *)
Theorem C60_cli_reads_exactly :
  forall huge preserve_order t v,
    serde_parse huge preserve_order t = Some v <->
    document (serde_number huge) (serde_object preserve_order) false 127 t v.
Proof. intros. apply read_json_iff. Qed.
Print Assumptions C60_cli_reads_exactly.
Theorem C60_js_reads_exactly :
  forall round t v, js_json_parse round t = Some v <-> exists d, document (js_number round) js_object true d t v.
Proof. intros. unfold js_json_parse. rewrite read_json_iff. symmetry. apply document_length. Qed.
Print Assumptions C60_js_reads_exactly.
(** A text has at most one value. *)
Theorem C60_unambiguous :
  forall number object lone d d' t v v', document number object lone d t v -> document number object lone d' t v' -> v = v'.
Proof.
  intros number object lone d d' t v v' H H'.
  assert (H1 := proj1 (document_length number object lone t v) (ex_intro _ d H)).
  assert (H2 := proj1 (document_length number object lone t v') (ex_intro _ d' H')).
  apply read_json_iff in H1, H2. congruence.
Qed.
Print Assumptions C60_unambiguous.
(** The objects: the last of several members with one name counts, in both tools; the orders. *)
Theorem C60_objects :
  forall kvs,
    (forall preserve_order, last_values kvs (serde_object preserve_order kvs)) /\ last_values kvs (js_object kvs) /\
    map fst (serde_object true kvs) = firsts (map fst kvs) /\
    StronglySorted lex_lt (map fst (serde_object false kvs)) /\
    property_order (map fst kvs) (map fst (js_object kvs)).
Proof.
  intros kvs. split; [intros; apply serde_last_values|]. split; [apply js_last_values|]. split; [apply serde_preserves|]. split; [apply serde_sorts|apply js_order].
Qed.
Print Assumptions C60_objects.
(** The numbers: integers of 64 bits in the CLI, up to 2^53 in JavaScript, are exact. *)
Theorem C60_integers :
  forall t z, number_token t -> int_value t z ->
    (forall huge, (- 2 ^ 63 <= z < 2 ^ 64)%Z -> t <> lit "-0" -> serde_number huge t = Some (JInt z)) /\
    (forall round, (- 2 ^ 53 <= z <= 2 ^ 53)%Z -> js_number round t = Some (JInt z)).
Proof.
  intros t z _ H. apply int_value_token in H. split.
  - intros huge Hz Hn. unfold serde_number. rewrite H. apply text_eqb_neq in Hn. rewrite Hn.
    assert (E : is_64_bit z = true) by (unfold is_64_bit; apply andb_true_intro; split; [apply Z.leb_le|apply Z.ltb_lt]; apply Hz). rewrite E. reflexivity.
  - intros round Hz. unfold js_number. rewrite H. assert (E : (Z.abs z <=? 2 ^ 53)%Z = true) by (apply Z.leb_le; lia). rewrite E. reflexivity.
Qed.
Print Assumptions C60_integers.
Example C60_nonvacuous :
  serde_parse (fun _ => false) false (lit " {""b"" : [1, -2,true ] , ""a"":null,""b"":""\u0041\n""}  ") =
    Some (JObj [(lit "a", JNull); (lit "b", JStr [65; 10])]) /\
  js_json_parse JFloat (lit "{""b"":1,""10"":2,""9"":3,""b"":{}}") = Some (JObj [(lit "9", JInt 3); (lit "10", JInt 2); (lit "b", JObj [])]) /\
  serde_parse (fun _ => false) true (lit "{""a"":01}") = None /\ serde_parse (fun _ => false) true (lit "[1,]") = None /\
  serde_parse (fun _ => false) true (lit """\ud800""") = None /\ js_json_parse JFloat (lit """\ud800""") = Some (JStr [55296]) /\
  serde_parse (fun _ => false) true (repeat 91 128 ++ repeat 93 128) = None /\
  js_json_parse JFloat (repeat 91 128 ++ repeat 93 128) <> None.
Proof. vm_compute. repeat (split; [reflexivity|]). discriminate. Qed.

(** ** C61 *)
Lemma js_data_plain round v : js_data round v -> exists d, plain (js_number round) js_object true d v.
Proof.
  induction v as [|b|z|t|t|l IH|l IH] using json_ind'; intros H; inversion H as [|?|? Hz|? Hn Hi Hr|? Hs|? Hl|? Hnd Ho Hl]; subst.
  - exists O. apply p_scalar. exact I.
  - exists O. apply p_scalar. exact I.
  - exists O. apply p_scalar. apply js_number_dec. exact Hz.
  - exists O. apply p_scalar. split; [exact Hn|]. unfold js_number. destruct (int_token t) as [z|] eqn:E; [|rewrite Hr; reflexivity].
    apply (token_int_value t z Hn) in E. apply Hi in E. assert (Ez : (Z.abs z <=? 2 ^ 53)%Z = false) by (apply Z.leb_gt; exact E). rewrite Ez, Hr. reflexivity.
  - exists O. apply p_scalar. apply Hs.
  - assert (exists d, Forall (plain (js_number round) js_object true d) l) as [d Hd].
    { clear - IH Hl. induction l as [|x l IHl]; [exists O; constructor|]. inversion IH as [|? ? I1 I2]; subst. inversion Hl as [|? ? J1 J2]; subst.
      destruct (I1 J1) as [d1 D1]. destruct (IHl I2 J2) as [d2 D2]. exists (Nat.max d1 d2). constructor; [eapply plain_mono; [exact D1|lia]|].
      eapply Forall_impl; [|exact D2]. intros y Hy. eapply plain_mono; [exact Hy|lia]. }
    exists (S d). apply p_arr. exact Hd.
  - assert (exists d, Forall (fun kv => string_ok true (fst kv) /\ plain (js_number round) js_object true d (snd kv)) l) as [d Hd].
    { clear - IH Hl. induction l as [|x l IHl]; [exists O; constructor|]. inversion IH as [|? ? I1 I2]; subst. inversion Hl as [|? ? [K1 J1] J2]; subst.
      destruct (I1 J1) as [d1 D1]. destruct (IHl I2 J2) as [d2 D2]. exists (Nat.max d1 d2). constructor; [split; [apply K1|eapply plain_mono; [exact D1|lia]]|].
      eapply Forall_impl; [|exact D2]. intros y [Hy1 Hy2]. split; [exact Hy1|]. eapply plain_mono; [exact Hy2|lia]. }
    exists (S d). apply p_obj; [|exact Hd]. apply js_object_id; assumption.
Qed.
Theorem C61_parse_stringify : forall round v, js_data round v -> js_json_parse round (stringify v) = Some v.
Proof.
  intros round v H. apply js_data_plain in H as [d H]. apply C60_js_reads_exactly. exists d, [], (stringify v), [].
  split; [rewrite app_nil_r; reflexivity|]. split; [constructor|]. split; [constructor|]. apply JsonWrite.write_values. exact H.
Qed.
Print Assumptions C61_parse_stringify.

Lemma lit_scalar s : Forall scalar (lit s).
Proof.
  induction s as [|a s IH]; [constructor|]. cbn. constructor; [|exact IH]. left. pose proof (Ascii.N_ascii_bounded a). lia.
Qed.
Lemma forall_flat {A B} (P : B -> Prop) (f : A -> list B) l : (forall x, In x l -> Forall P (f x)) -> Forall P (flat_map f l).
Proof. induction l as [|x l IH]; intros H; [constructor|]. cbn. apply Forall_app. split; [apply H; left; reflexivity|apply IH; intros; apply H; right; assumption]. Qed.
Lemma small_scalar t : Forall (fun c => c < 128) t -> Forall scalar t.
Proof. intros H. eapply Forall_impl; [|exact H]. intros c Hc. left. cbn beta in Hc. lia. Qed.
Lemma write_string_scalar t : Forall (fun c => c < 1114112) t -> Forall scalar (write_string t).
Proof.
  intros H. unfold write_string. apply Forall_app. split; [repeat constructor|]. apply Forall_app. split; [|repeat constructor].
  apply forall_flat. intros c Hc. rewrite Forall_forall in H. apply H in Hc. unfold write_char.
  repeat match goal with |- context [if ?x =? ?y then _ else _] => destruct (x =? y); [repeat constructor; left; vm_compute; reflexivity|] end.
  destruct (is_high c) eqn:E1; [|destruct (is_low c) eqn:E2].
  - rewrite orb_true_r. cbn [orb]. apply small_scalar. assert (G : forall x, hex_digit (x mod 16) < 128).
    { intros x. assert (M : x mod 16 < 16) by (apply N.mod_lt; discriminate). unfold hex_digit. revert M. generalize (x mod 16). intros n M. destruct (n <? 10); lia. }
    unfold u_escape. repeat constructor; try apply G.
  - rewrite orb_true_r. apply small_scalar. assert (G : forall x, hex_digit (x mod 16) < 128).
    { intros x. assert (M : x mod 16 < 16) by (apply N.mod_lt; discriminate). unfold hex_digit. revert M. generalize (x mod 16). intros n M. destruct (n <? 10); lia. }
    unfold u_escape. repeat constructor; try apply G.
  - rewrite !orb_false_r. destruct (c <? 32).
    + apply small_scalar. assert (G : forall x, hex_digit (x mod 16) < 128).
      { intros x. assert (M : x mod 16 < 16) by (apply N.mod_lt; discriminate). unfold hex_digit. revert M. generalize (x mod 16). intros n M. destruct (n <? 10); lia. }
      unfold u_escape. repeat constructor; try apply G.
    + constructor; [|constructor]. apply is_high_false in E1. apply is_low_false in E2. unfold scalar, high, low in *. lia.
Qed.
Lemma sep_by_scalar s l : Forall scalar s -> Forall (Forall scalar) l -> Forall scalar (sep_by s l).
Proof.
  intros Hs. induction 1 as [|x l Hx Hl IH]; [constructor|]. destruct l as [|y l]; [exact Hx|].
  change (sep_by s (x :: y :: l)) with (x ++ s ++ sep_by s (y :: l)). apply Forall_app. split; [exact Hx|]. apply Forall_app. auto.
Qed.
Lemma digits_scalar t : Forall digit t -> Forall scalar t.
Proof. intros H. eapply Forall_impl; [|exact H]. intros c Hc. left. unfold digit in Hc. lia. Qed.
Lemma number_scalar t : number_token t -> Forall scalar t.
Proof.
  intros (s&i&f&e&->&Hs&Hi&Hf&He). apply int_part_digits in Hi as [_ Hi].
  apply Forall_app. split; [destruct Hs as [-> | ->]; [constructor|apply lit_scalar]|]. apply Forall_app. split; [apply digits_scalar; exact Hi|]. apply Forall_app. split.
  - destruct Hf as [->|(ds&->&_&Hd)]; [constructor|]. apply Forall_app. split; [apply lit_scalar|apply digits_scalar; exact Hd].
  - destruct He as [->|(x&sg&ds&->&Hx&Hsg&_&Hd)]; [constructor|]. apply Forall_app. split; [destruct Hx as [-> | ->]; apply lit_scalar|]. apply Forall_app.
    split; [destruct Hsg as [->|[-> | ->]]; [constructor|apply lit_scalar|apply lit_scalar]|apply digits_scalar; exact Hd].
Qed.
Lemma stringify_scalar round v : js_data round v -> Forall scalar (stringify v).
Proof.
  induction v as [|b|z|t|t|l IH|l IH] using json_ind'; intros H; inversion H as [|?|? Hz|? Hn Hi Hr|? Hs|? Hl|? Hnd Ho Hl]; subst; cbn [stringify write_scalar].
  - apply lit_scalar.
  - destruct b; apply lit_scalar.
  - apply number_scalar. eapply int_value_number_token, dec_z_value.
  - rewrite (token_has_digit t Hn). apply number_scalar. exact Hn.
  - apply write_string_scalar. apply Hs.
  - apply Forall_app. split; [apply lit_scalar|]. apply Forall_app. split; [|apply lit_scalar]. apply sep_by_scalar; [apply lit_scalar|]. apply Forall_map.
    rewrite Forall_forall in *. intros x Hx. apply IH; auto.
  - apply Forall_app. split; [apply lit_scalar|]. apply Forall_app. split; [|apply lit_scalar]. apply sep_by_scalar; [apply lit_scalar|]. apply Forall_map.
    rewrite Forall_forall in *. intros [k x] Hx. destruct (Hl _ Hx) as [[_ Hk] Hv]. cbn [fst snd] in *.
    apply Forall_app. split; [apply write_string_scalar; exact Hk|]. apply Forall_app. split; [apply lit_scalar|]. apply (IH _ Hx). exact Hv.
Qed.
(** What encrypt embeds is read back as it was. *)
Lemma public_json_read round lossy inputs : js_data round (JObj inputs) ->
  js_json_parse round (text_decode lossy (public_json inputs)) = Some (JObj inputs).
Proof.
  intros H. unfold public_json, text_encode.
  assert (Hs := stringify_scalar round _ H).
  assert (E : map (fun c => if is_high c || is_low c then 65533 else c) (stringify (JObj inputs)) = stringify (JObj inputs)).
  { revert Hs. generalize (stringify (JObj inputs)). induction 1 as [|c t Hc _ IH]; [reflexivity|]. cbn [map]. rewrite IH.
    assert (Eh : is_high c = false) by (apply is_high_false; unfold scalar, high in *; lia).
    assert (El : is_low c = false) by (apply is_low_false; unfold scalar, low in *; lia). rewrite Eh, El. reflexivity. }
  rewrite E. unfold text_decode. rewrite (utf8_decode_encode _ Hs). rewrite <- (C61_parse_stringify round (JObj inputs) H).
  cbn [stringify lit app]. reflexivity.
Qed.
Theorem C61_public_input_comes_back :
  forall (E : pairingT Fr) (C : codecT E) (D : domainT Fr) (kdf : GT E -> key) (aes : cipherT) W fuel round lossy
         co cb sym inputs message f k r a,
    (forall g, List.length (kdf g) = 32%nat) -> List.length (c_nonce co) = 12%nat ->
    circuit_file cb r -> js_usable r -> fits_encrypt W fuel cb sym ->
    js_data round (JObj inputs) -> blen (public_json inputs) < 2 ^ 32 ->
    js_encrypt E C D kdf aes public_json W fuel co cb sym inputs message true = Ok (f, k) ->
    jb_valid a -> jb_window a = f ->
    get_public_input (text_decode lossy) (js_json_parse round) a = Ok (JObj inputs).
Proof.
  intros E C D kdf aes W fuel round lossy co cb sym inputs message f k r a Hkdf Hn Hcf Hu HW Hj Hq He Hva Hwa.
  apply js_encrypt_inv in He as (ctb&enc&He&Hc&_&_); [|assumption..].
  assert (Hs : blen ctb < 2 ^ 32).
  { destruct HW as (W1&W2&W3&W4&W5).
    destruct (js_encap_facts E C D kdf W fuel co sym inputs cb ctb k r Hcf Hu W1 W2 W3 W4 W5 He) as (ct&c&_&_&Hs&_). exact Hs. }
  destruct (C34_round_trip_across_tools true ctb (public_json inputs) enc Hs (fun _ => Hq)) as (f'&Hf1&Hf&_&_).
  assert (Hff : f' = f) by congruence. subst f'.
  destruct (C37_returns_the_embedded_input _ _ (text_decode lossy) (js_json_parse round) ctb (public_json inputs) enc a Hs Hq Hva) as (H&_&_).
  rewrite H by congruence. rewrite public_json_read by exact Hj. reflexivity.
Qed.
Print Assumptions C61_public_input_comes_back.
Example C61_nonvacuous :
  let v := JObj [(lit "7", JArr [JInt (-5); JStr [34; 55296; 8364; 128512; 10]]); (lit "x", JStr (lit "9")); (lit "", JFloat (lit "0.5"))] in
  js_data JFloat v /\ js_json_parse JFloat (stringify v) = Some v.
Proof.
  cbv zeta. assert (D : js_data JFloat (JObj [(lit "7", JArr [JInt (-5); JStr [34; 55296; 8364; 128512; 10]]); (lit "x", JStr (lit "9")); (lit "", JFloat (lit "0.5"))])).
  { assert (Hlit : forall s, js_string (lit s)).
    { intros s. split.
      - intros a b hi lo E H. exfalso. assert (Hl : Forall (fun c => c < 256) (lit s)) by (clear; induction s as [|c s IH]; [constructor|cbn; constructor; [apply Ascii.N_ascii_bounded|exact IH]]).
        rewrite E in Hl. apply Forall_app in Hl as [_ Hl]. inversion Hl; subst. unfold high in H. lia.
      - induction s as [|c s IH]; [constructor|cbn; constructor; [pose proof (Ascii.N_ascii_bounded c); lia|exact IH]]. }
    apply jd_obj.
    - repeat constructor; cbn; intuition discriminate.
    - exists [lit "7"], [lit "x"; lit ""]. split; [reflexivity|]. split; [repeat constructor|]. split.
      { intros k [<-|[]]. exists 7. split; reflexivity. } split.
      { intros k n [<-|[<-|[]]] Hi; apply array_index_iff in Hi; discriminate Hi. }
      split; [reflexivity|]. exists keep_other. split; [apply keep_other_iff|]. vm_compute. reflexivity.
    - repeat (apply Forall_cons || apply Forall_nil); cbn [fst snd]; (split; [apply Hlit|]).
      + apply jd_arr. apply Forall_cons; [apply jd_int; discriminate|]. apply Forall_cons; [|apply Forall_nil]. apply jd_str. split.
        * intros a b hi lo E Hh Hl. destruct a as [|? [|? [|? [|? [|? a]]]]]; injection E as; subst; unfold high, low in *; try lia; destruct a; discriminate.
        * repeat constructor.
      + apply jd_str, Hlit.
      + apply jd_float; [|intros z Hz; apply int_value_token in Hz; discriminate Hz|reflexivity].
        exists [], (lit "0"), (lit ".5"), []. split; [reflexivity|]. split; [auto|]. split; [left; reflexivity|]. split; [|left; reflexivity].
        right. exists (lit "5"). split; [reflexivity|]. split; [discriminate|]. repeat constructor; discriminate. }
  split; [exact D|apply C61_parse_stringify; exact D].
Qed.

(** ** C63 *)
Definition rel (v v' : json) : Prop := exact_numbers v -> same_data v v'.
Lemma last_value_rel l l' k v : Forall2 (fun a b : text * json => fst a = fst b /\ rel (snd a) (snd b)) l l' ->
  last_value k l v -> exists v', last_value k l' v' /\ rel v v'.
Proof.
  intros HF (a&b&->&Hn). apply Forall2_app_inv_l in HF as (a'&b0&Ha&Hb&->). inversion Hb as [|x y ? b' [H1 H2] Hb']; subst. destruct y as [k' v']. cbn [fst snd] in *. subst k'.
  exists v'. split; [|exact H2]. exists a', b'. split; [reflexivity|].
  assert (E : map fst b' = map fst b) by (clear - Hb'; induction Hb' as [|x y b b' [H _] _ IH]; cbn; congruence). rewrite E. exact Hn.
Qed.
Lemma last_value_rel' l l' k v' : Forall2 (fun a b : text * json => fst a = fst b /\ rel (snd a) (snd b)) l l' ->
  last_value k l' v' -> exists v, last_value k l v /\ rel v v'.
Proof.
  intros HF (a'&b'&->&Hn). apply Forall2_app_inv_r in HF as (a&b0&Ha&Hb&->). inversion Hb as [|x y b ? [H1 H2] Hb']; subst. destruct x as [k' v]. cbn [fst snd] in *. subst k'.
  exists v. split; [|exact H2]. exists a, b. split; [reflexivity|].
  assert (E : map fst b' = map fst b) by (clear - Hb'; induction Hb' as [|x y b b' [H _] _ IH]; cbn; congruence). rewrite <- E. exact Hn.
Qed.
Lemma rel_object l l' m m' : Forall2 (fun a b : text * json => fst a = fst b /\ rel (snd a) (snd b)) l l' ->
  last_values l m -> last_values l' m' -> rel (JObj m) (JObj m').
Proof.
  intros HF [Hn Hi] [Hn' Hi'] He. inversion He as [| | | | |? Hm]; subst. rewrite Forall_forall in Hm.
  assert (C : forall r, (forall x, In x r -> In x m') -> exists m'', Forall2 (fun a b => fst a = fst b /\ same_data (snd a) (snd b)) m'' r /\ (forall x, In x m'' -> In x m)).
  { induction r as [|[k v'] r IH]; intros Hr; [exists []; split; [constructor|intros x []]|].
    destruct (IH (fun x Hx => Hr x (or_intror Hx))) as (m''&H1&H2). assert (Hk := Hr _ (or_introl eq_refl)). apply Hi' in Hk.
    apply (last_value_rel' _ _ _ _ HF) in Hk as (v&Hv&Hrel). apply Hi in Hv. exists ((k, v) :: m''). split.
    - constructor; [|exact H1]. split; [reflexivity|]. apply Hrel. apply (Hm _ Hv).
    - intros x [<-|Hx]; auto. }
  destruct (C m' (fun x H => H)) as (m''&H1&H2). apply (sd_obj m m' m''); [|exact H1].
  assert (K : map fst m'' = map fst m') by (clear - H1; induction H1 as [|x y b b' [H _] _ IH]; cbn; congruence).
  assert (Nk : NoDup (map fst m'')) by (rewrite K; exact Hn').
  apply NoDup_Permutation; [eapply NoDup_map_inv; exact Hn|eapply NoDup_map_inv; exact Nk|]. intros [k v]. split; [|apply H2].
  intros Hx. assert (Hl := proj1 (Hi k v) Hx). apply (last_value_rel _ _ _ _ HF) in Hl as (v'&Hl&_). apply Hi' in Hl.
  assert (Hk : In k (map fst m'')) by (rewrite K; apply in_map_iff; exists (k, v'); auto). apply in_map_iff in Hk as ([k2 v2]&E&Hk). cbn [fst] in E. subst k2.
  assert (Hk2 := H2 _ Hk). apply (hm_get_in k v m Hn) in Hx. apply (hm_get_in k v2 m Hn) in Hk2. congruence.
Qed.
Lemma string_body_lone s t : string_body false s t -> string_body true s t.
Proof. induction 1; [constructor|apply sb_plain|apply sb_short|apply sb_unicode|apply sb_pair|discriminate]; assumption. Qed.
Lemma string_text_lone s t : string_text false s t -> string_text true s t.
Proof. intros (b&->&H). exists b. split; [reflexivity|]. apply string_body_lone. exact H. Qed.
Section Both.
  Context (huge : text -> bool) (po : bool) (round : text -> json).
  Notation sn := (serde_number huge). Notation so := (serde_object po). Notation jn := (js_number round).
  Lemma both_read :
    (forall d s v, value sn so false d s v -> exists v', value jn js_object true d s v' /\ rel v v') /\
    (forall d s l, elements sn so false d s l -> exists l', elements jn js_object true d s l' /\ Forall2 rel l l') /\
    (forall d s l, members sn so false d s l -> exists l', members jn js_object true d s l' /\ Forall2 (fun a b => fst a = fst b /\ rel (snd a) (snd b)) l l').
  Proof.
    apply json_mut.
    - intros d. eexists. split; [constructor|]. intros _. constructor.
    - intros d. eexists. split; [constructor|]. intros _. constructor.
    - intros d. eexists. split; [constructor|]. intros _. constructor.
    - intros d t v Ht Hv. eexists. split; [apply v_number; [exact Ht|reflexivity]|]. intros He. unfold serde_number in Hv.
      destruct (int_token t) as [z|]; [|destruct (huge t); [discriminate|]; injection Hv as <-; inversion He].
      destruct (is_64_bit z && negb (text_eqb t (lit "-0"))).
      + injection Hv as <-. inversion He as [| |? Hz| | |]; subst. apply Z.leb_le in Hz. rewrite Hz. constructor.
      + destruct (huge t); [discriminate|]. injection Hv as <-. destruct (is_64_bit z); inversion He as [| |? Hz| | |]; subst. apply Z.leb_le in Hz. rewrite Hz. constructor.
    - intros d s t Hs. exists (JStr t). split; [apply v_string, string_text_lone; exact Hs|]. intros _. constructor.
    - intros d w Hw. eexists. split; [apply v_array_empty; exact Hw|]. intros _. apply sd_arr. constructor.
    - intros d s l _ (l'&He&HF). exists (JArr l'). split; [apply v_array; exact He|]. intros Hx. inversion Hx as [| | | |? Hl|]; subst. apply sd_arr.
      clear - HF Hl. induction HF as [|x y l l' H _ IH]; [constructor|]. inversion Hl; subst. constructor; [apply H|apply IH]; assumption.
    - intros d w Hw. eexists. split; [apply v_object_empty; exact Hw|].
      apply (rel_object [] []); [constructor|apply serde_last_values|apply js_last_values].
    - intros d s l _ (l'&He&HF). exists (JObj (js_object l')). split; [apply v_object; exact He|].
      apply (rel_object l l'); [exact HF|apply serde_last_values|apply js_last_values].
    - intros d w s w' v H1 H2 _ (v'&Hv&Hr). exists [v']. split; [apply el_last; assumption|]. repeat constructor. exact Hr.
    - intros d w s w' rest v l H1 H2 _ (v'&Hv&Hr) _ (l'&Hl&HF). exists (v' :: l'). split; [apply el_more; assumption|]. constructor; assumption.
    - intros d w k s w1 w2 w3 x v H1 H2 H3 H4 Hk _ (v'&Hv&Hr). exists [(x, v')]. split; [apply me_last; try assumption; apply string_text_lone; exact Hk|].
      constructor; [split; [reflexivity|exact Hr]|constructor].
    - intros d w k s w1 w2 w3 rest x v l H1 H2 H3 H4 Hk _ (v'&Hv&Hr) _ (l'&Hl&HF). exists ((x, v') :: l').
      split; [apply me_more; try assumption; apply string_text_lone; exact Hk|]. constructor; [split; [reflexivity|exact Hr]|exact HF].
  Qed.
End Both.
(** What the CLI reads, JavaScript reads too, and gets the same data. *)
Theorem C63_both_tools_read_the_same :
  forall huge preserve_order round t v, serde_parse huge preserve_order t = Some v ->
    exists v', js_json_parse round t = Some v' /\ (exact_numbers v -> same_data v v').
Proof.
  intros huge po round t v H. apply C60_cli_reads_exactly in H as (w&s&w'&->&Hw&Hw'&Hv). apply (proj1 (both_read huge po round)) in Hv as (v'&Hv'&Hr).
  exists v'. split; [|exact Hr]. apply C60_js_reads_exactly. exists 127%nat, w, s, w'. auto.
Qed.
Print Assumptions C63_both_tools_read_the_same.
Example C63_nonvacuous :
  exists v v', serde_parse (fun _ => false) false (lit "{""y"":[1,{}],""x"":""3"",""10"":null}") = Some v /\ exact_numbers v /\
    js_json_parse JFloat (lit "{""y"":[1,{}],""x"":""3"",""10"":null}") = Some v' /\ same_data v v'.
Proof.
  destruct (C63_both_tools_read_the_same (fun _ => false) false JFloat (lit "{""y"":[1,{}],""x"":""3"",""10"":null}")
    (JObj [(lit "10", JNull); (lit "x", JStr (lit "3")); (lit "y", JArr [JInt 1; JObj []])])) as (v'&H1&H2); [vm_compute; reflexivity|].
  eexists. exists v'. split; [vm_compute; reflexivity|].
  assert (X : exact_numbers (JObj [(lit "10", JNull); (lit "x", JStr (lit "3")); (lit "y", JArr [JInt 1; JObj []])])) by (repeat constructor; discriminate).
  split; [exact X|]. split; [exact H1|]. exact (H2 X).
Qed.
