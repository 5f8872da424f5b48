(** Property theorems C52: the helper functions of circom.rs.  Vocabulary: SpecCircom.v. *)
From Coq Require Import List Bool Arith NArith ZArith Lia.
From Coq Require Import Strings.String Strings.Byte.
From Verif Require Import Res Bytes Text Utf8 Fld Bn254 R1cs SpecR1cs Inputs SpecInputs InputsFacts FileSys Circom SpecCircom SpecJs P_Commands P_JsApi.
Import ListNotations.
Local Open Scope N_scope.

(** load_circom_circuit succeeds exactly when both files can be read, changes nothing, and its
    answer depends on the length of the first file only. *)
Theorem C52_load_iff :
  forall s rp wp, 
    (forall n p v, load_circom_circuit s rp wp = Ok (n, p, v) <->
      exists rb wb, s rp = Some rb /\ s wp = Some wb /\ 1000 * n <= blen rb < 1000 * (n + 1) /\ p = 3 /\ v = 2 * n) /\
    (load_circom_circuit s rp wp = Err CReadR1cs <-> s rp = None) /\
    (load_circom_circuit s rp wp = Err CReadWasm <-> s rp <> None /\ s wp = None) /\
    load_circom_circuit s rp wp <> Panic.
Proof.
  intros s rp wp. unfold load_circom_circuit.
  assert (Hd : forall a n, a / 1000 = n <-> 1000 * n <= a < 1000 * (n + 1)).
  { intros a n. split.
    - intros <-. split; [apply N.mul_div_le; discriminate|]. rewrite N.add_1_r. apply N.mul_succ_div_gt. discriminate.
    - intros [H1 H2]. symmetry. apply (N.div_unique a 1000 n (a - 1000 * n)); lia. }
  destruct (s rp) as [rb|]; [destruct (s wp) as [wb|]|]; repeat split; try discriminate; try congruence.
  - intros H. assert (n = blen rb / 1000) by congruence. assert (p = 3) by congruence. assert (v = blen rb / 1000 * 2) by congruence.
    exists rb, wb. repeat (split; [reflexivity|]). split; [apply Hd; congruence|]. split; [assumption|]. subst. apply N.mul_comm.
  - intros (rb'&wb'&H1&H2&H3&->&->). assert (rb' = rb) by congruence. subst rb'. apply Hd in H3. rewrite H3, N.mul_comm. reflexivity.
  - intros [H1 H2]. discriminate.
  - intros (rb'&wb'&_&H&_). discriminate.
  - intros (rb'&wb'&H&_). discriminate.
  - intros [H _]. contradiction.
Qed.
Print Assumptions C52_load_iff.

(** It does not report the circuit's counts: a circuit with constraints whose file is shorter than
    1000 bytes is reported to have none, and the number of public inputs is always 3. *)
Theorem C52_counts_refuted :
  (forall s rp wp rb r n p v, s rp = Some rb -> circuit_file rb r -> blen rb < 1000 ->
     load_circom_circuit s rp wp = Ok (n, p, v) -> n = 0 /\ p = 3 /\ v = 0) /\
  exists rb r, circuit_file rb r /\ blen rb < 1000 /\ List.length (r_constraints r) = 1%nat /\ r_n_pub_in r = 1 /\ r_n_wires r = 3.
Proof.
  split.
  - intros s rp wp rb r n p v Hs _ Hl H. apply C52_load_iff in H as (rb'&wb&H1&_&H2&->&->). assert (rb' = rb) by congruence. subst rb'.
    split; [|split; [reflexivity|]]; lia.
  - exists ex_circuit_file, ex_circuit. split; [exact ex_circuit_is_file|]. vm_compute. repeat split.
Qed.
Print Assumptions C52_counts_refuted.

Lemma text_eqb_spec a b : reflect (a = b) (text_eqb a b).
Proof. destruct (text_eqb a b) eqn:E; constructor; [apply text_eqb_eq; exact E|apply text_eqb_neq; exact E]. Qed.
Section Flatten.
  Context (f : json -> text).
  Lemma flatten_texts_arr l : flatten_texts f (JArr l) = flat_map (flatten_texts f) l.
  Proof. cbn [flatten_texts]. induction l as [|x l IH]; [reflexivity|]. cbn [flat_map]. rewrite IH. reflexivity. Qed.
  Lemma entry_texts_flatten v : entry_texts f v (flatten_texts f v).
  Proof.
    assert (S1 : forall v t, (forall l, v <> JArr l) -> (forall o, v <> JObj o) -> scalar_text f v t -> entry_texts f v [t]).
    { intros w t H1 H2 H. exists [w]. split; [constructor; assumption|]. constructor; [exact H|constructor]. }
    induction v as [|b|z|t|t|l IH|o IH] using json_ind'.
    - apply S1; try discriminate. constructor.
    - apply S1; try discriminate. destruct b; constructor.
    - apply S1; try discriminate. unfold number_text. destruct (Z.leb_spec (- 2 ^ 63) z), (Z.ltb_spec z (2 ^ 64)); cbn [andb]; constructor; lia.
    - apply S1; try discriminate. constructor.
    - apply S1; try discriminate. constructor.
    - rewrite flatten_texts_arr. assert (H : exists xss, Forall2 leaves l xss /\ Forall2 (scalar_text f) (List.concat xss) (flat_map (flatten_texts f) l)).
      { induction IH as [|x l (xs&H1&H2) _ (xss&H3&H4)]; [exists []; split; constructor|]. exists (xs :: xss). split; [constructor; assumption|].
        cbn [List.concat flat_map]. apply Forall2_app; assumption. }
      destruct H as (xss&H1&H2). exists (List.concat xss). split; [constructor; exact H1|exact H2].
    - exists []. split; constructor.
  Qed.
  Lemma leaves_fun v : forall xs xs', leaves v xs -> leaves v xs' -> xs = xs'.
  Proof.
    induction v as [|b|z|t|t|l IH|o IH] using json_ind'; intros xs xs' H H'; inversion H; subst; inversion H'; subst; try reflexivity;
      try (exfalso; match goal with Hn : forall l, JArr ?x <> JArr l |- _ => exact (Hn _ eq_refl) | Hn : forall o, JObj ?x <> JObj o |- _ => exact (Hn _ eq_refl) end).
    f_equal. clear H H'. match goal with H1 : Forall2 leaves l ?a, H2 : Forall2 leaves l ?b |- _ => rename H1 into G1; rename H2 into G2 end.
    revert G2. generalize xss0. induction G1 as [|x y l xss Hx _ IHf]; intros ys G2; inversion G2; subst; [reflexivity|].
    inversion IH as [|? ? Hx1 Hx2]; subst. f_equal; [apply Hx1; assumption|]. apply IHf; assumption.
  Qed.
  Lemma scalar_text_fun v t t' : scalar_text f v t -> scalar_text f v t' -> t = t'.
  Proof. intros H H'. inversion H; subst; inversion H'; subst; (reflexivity || contradiction). Qed.
  Lemma entry_texts_fun v ts ts' : entry_texts f v ts -> entry_texts f v ts' -> ts = ts'.
  Proof.
    intros (xs&H1&H2) (xs'&H1'&H2'). rewrite <- (leaves_fun _ _ _ H1 H1') in H2'. revert ts' H2'. clear - H2.
    induction H2 as [|x t xs ts Hx _ IH]; intros ts' H'; inversion H'; subst; [reflexivity|].
    f_equal; [eapply scalar_text_fun; eassumption|apply IH; assumption].
  Qed.
End Flatten.

(** parse_inputs gives every entry of the object the texts of its leaves, in order. *)
Theorem C52_parse_inputs_iff :
  forall (json_parse : text -> option json) (f : json -> text) s p b t kvs,
    s p = Some b -> utf8_decode b = Some t -> json_parse t = Some (JObj kvs) -> NoDup (map fst kvs) ->
    exists m, parse_inputs json_parse f s p = Ok m /\
      forall k ts, hm_get k m = Some ts <-> exists v, In (k, v) kvs /\ entry_texts f v ts.
Proof.
  intros json_parse f s p b t kvs Hs Ht Hj Hnd. unfold parse_inputs. rewrite Hs, Ht, Hj. eexists. split; [reflexivity|].
  intros k ts.
  assert (G : forall m0, (forall k, In k (map fst kvs) -> hm_get k m0 = None) ->
    hm_get k (fold_left (fun m kv => hm_insert (fst kv) (flatten_texts f (snd kv)) m) kvs m0) = Some ts <->
    hm_get k m0 = Some ts \/ exists v, In (k, v) kvs /\ flatten_texts f v = ts).
  { clear Hj. induction kvs as [|[k' v'] kvs IH]; intros m0 H0; cbn [fold_left fst snd].
    - split; [auto|]. intros [H|(v&[]&_)]. exact H.
    - cbn [map fst] in Hnd. inversion Hnd as [|? ? Hni Hnd']; subst. rewrite IH; [|exact Hnd'|].
      + rewrite hm_get_insert. destruct (text_eqb_spec k k') as [->|Hne].
        * split.
          -- intros [H|(v&Hi&_)]; [right; exists v'; split; [left; reflexivity|congruence]|]. exfalso. apply Hni. apply in_map_iff. exists (k', v). auto.
          -- intros [H|(v&[Hi|Hi]&Hv)]; [rewrite H0 in H by (left; reflexivity); discriminate|left; congruence|].
             exfalso. apply Hni. apply in_map_iff. exists (k', v). auto.
        * split.
          -- intros [H|(v&Hi&Hv)]; [auto|right; exists v; split; [right; exact Hi|exact Hv]].
          -- intros [H|(v&[Hi|Hi]&Hv)]; [auto|congruence|right; eauto].
      + intros q Hq. rewrite hm_get_insert. destruct (text_eqb_spec q k') as [->|_]; [contradiction|]. apply H0. right. exact Hq. }
  rewrite G by reflexivity. cbn [hm_get]. split.
  - intros [H|(v&Hi&<-)]; [discriminate|]. exists v. split; [exact Hi|apply entry_texts_flatten].
  - intros (v&Hi&Hv). right. exists v. split; [exact Hi|]. eapply entry_texts_fun; [apply entry_texts_flatten|exact Hv].
Qed.
Print Assumptions C52_parse_inputs_iff.
(** It fails exactly on a file that cannot be read as UTF-8, or is no JSON object. *)
Theorem C52_parse_inputs_errors :
  forall (json_parse : text -> option json) (f : json -> text) s p,
    (parse_inputs json_parse f s p = Err CReadInput <-> forall b, s p = Some b -> utf8_decode b = None) /\
    (parse_inputs json_parse f s p = Err CParseJson <-> exists b t, s p = Some b /\ utf8_decode b = Some t /\ json_parse t = None) /\
    (parse_inputs json_parse f s p = Err CNotObject <->
       exists b t v, s p = Some b /\ utf8_decode b = Some t /\ json_parse t = Some v /\ forall kvs, v <> JObj kvs) /\
    parse_inputs json_parse f s p <> Panic.
Proof.
  intros json_parse f s p. unfold parse_inputs. destruct (s p) as [b|]; [destruct (utf8_decode b) as [t|] eqn:Eb; [destruct (json_parse t) as [v|] eqn:Ev|]|].
  - assert (Hv : (exists kvs, v = JObj kvs) \/ (forall kvs, v <> JObj kvs)) by (destruct v; eauto; right; discriminate).
    destruct Hv as [(kvs&->)|Hv].
    + repeat split; try discriminate.
      * intros H. specialize (H b eq_refl). congruence.
      * intros (b'&t'&H1&H2&H3). congruence.
      * intros (b'&t'&v'&H1&H2&H3&H4). exfalso. apply (H4 kvs). congruence.
    + assert (E : (match v with JObj obj => Ok (fold_left (fun m kv => hm_insert (fst kv) (flatten_texts f (snd kv)) m) obj []) | _ => Err CNotObject end) = (Err CNotObject : res circom_error (hmap (list text)))).
      { destruct v; try reflexivity. exfalso. eapply Hv. reflexivity. }
      rewrite E. repeat split; try discriminate.
      * intros H. specialize (H b eq_refl). congruence.
      * intros (b'&t'&H1&H2&H3). congruence.
      * intros _. exists b, t, v. auto.
  - repeat split; try discriminate.
    + intros H. specialize (H b eq_refl). congruence.
    + intros _. exists b, t. auto.
    + intros (b'&t'&v'&H1&H2&H3&_). congruence.
  - repeat split; try discriminate.
    + intros _ b' H. congruence.
    + intros (b'&t'&H1&H2&_). congruence.
    + intros (b'&t'&v'&H1&H2&_). congruence.
  - repeat split; try discriminate.
    + intros (b'&t'&H1&_). congruence.
    + intros (b'&t'&v'&H1&_). congruence.
Qed.
Print Assumptions C52_parse_inputs_errors.

Example C52_nonvacuous : forall f,
  let doc := [(lit "a", JArr [JArr [JInt (-7); JBool true]; JObj [(lit "z", JInt 1)]; JNull]); (lit "b", JStr (lit "0x1"))] in
  parse_inputs (fun _ => Some (JObj doc)) f (fun _ => Some []) (lit "p") =
    Ok [(lit "a", [lit "-7"; lit "1"; lit "0"]); (lit "b", [lit "0x1"])] /\
  NoDup (map fst doc) /\ load_circom_circuit (fun _ => Some (repeat x00 2500)) (lit "r") (lit "w") = Ok (2, 3, 4).
Proof.
  intros f. cbv zeta. split; [reflexivity|]. split; [|reflexivity]. cbn [map fst].
  constructor; [intros [H|[]]; discriminate|constructor; [intros []|constructor]].
Qed.
