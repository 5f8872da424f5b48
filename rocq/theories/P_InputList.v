(** Property theorems C67: circuit inputs as one list.  Vocabulary: SpecInputs.v, SpecInputList.v. *)
From Coq Require Import List Bool Arith NArith ZArith Lia.
From Coq Require Import Strings.String Strings.Byte.
From Verif Require Import Res Bytes Text Fld Zp Bn254 Inputs SpecInputs InputsFacts P_Inputs SpecInputList JsonText SpecJson P_Json.
Import ListNotations.
Local Open Scope N_scope.

Scheme in_order_mind := Induction for in_order Sort Prop with in_order_all_mind := Induction for in_order_all Sort Prop.
Fixpoint flatten_list (l : list json) : res input_error (list Fr) :=
  match l with
  | [] => Ok []
  | x :: l => match flatten_plain x with
              | Ok a => match flatten_list l with Ok b => Ok (a ++ b) | Err e => Err e | Panic => Panic end
              | Err e => Err e
              | Panic => Panic
              end
  end.
Lemma flatten_plain_arr l : flatten_plain (JArr l) = flatten_list l.
Proof. cbn [flatten_plain]. induction l as [|x l IH]; [reflexivity|]. cbn [flatten_list]. rewrite IH. reflexivity. Qed.
Lemma entries_list kvs : flatten_plain_entries kvs = flatten_list (map snd kvs).
Proof. induction kvs as [|[k v] kvs IH]; [reflexivity|]. cbn [flatten_plain_entries map snd flatten_list]. rewrite IH. reflexivity. Qed.
Lemma flatten_scalar v : (forall l, v <> JArr l) -> flatten_plain v = match scalar_value v with Ok x => Ok [x] | Err e => Err e | Panic => Panic end.
Proof. intros H. destruct v; try reflexivity. destruct (H l eq_refl). Qed.

Lemma in_order_ex : forall v, exists ls, in_order v ls.
Proof.
  assert (one : forall v, (forall l, v <> JArr l) -> exists ls, in_order v ls) by (intros v H; exists [v]; constructor; exact H).
  induction v as [|b|z|f|t|l IH|kvs IH] using json_ind'; try (apply one; discriminate).
  assert (G : exists ls, in_order_all l ls). { induction IH as [|x l (a&Ha) _ (b&Hb)]; [exists []; constructor|exists (a ++ b); constructor; assumption]. }
  destruct G as (ls&G). exists ls. constructor. exact G.
Qed.
Lemma in_order_all_ex : forall l, exists ls, in_order_all l ls.
Proof. induction l as [|x l (b&Hb)]; [exists []; constructor|]. destruct (in_order_ex x) as (a&Ha). exists (a ++ b). constructor; assumption. Qed.

Lemma list_sound : (forall v ls, in_order v ls -> forall xs, flatten_plain v = Ok xs <-> Forall2 numeric ls xs) /\
  (forall l ls, in_order_all l ls -> forall xs, flatten_list l = Ok xs <-> Forall2 numeric ls xs).
Proof.
  assert (G : forall v ls (H : in_order v ls), forall xs, flatten_plain v = Ok xs <-> Forall2 numeric ls xs).
  { apply (in_order_mind (fun v ls _ => forall xs, flatten_plain v = Ok xs <-> Forall2 numeric ls xs) (fun l ls _ => forall xs, flatten_list l = Ok xs <-> Forall2 numeric ls xs)).
    - intros v Hv xs. rewrite flatten_scalar by exact Hv. split.
      + destruct (scalar_value v) as [a| |] eqn:E; try discriminate. intros [= <-]. constructor; [|constructor]. apply scalar_spec. exact E.
      + intros H. inversion H as [|? a ? ? Ha Hn]; subst. inversion Hn; subst. apply scalar_spec in Ha. rewrite Ha. reflexivity.
    - intros l vs _ IH xs. rewrite flatten_plain_arr. apply IH.
    - intros xs. cbn [flatten_list]. split; [intros [= <-]; constructor|]. intros H. inversion H. reflexivity.
    - intros x l a b _ IHa _ IHb xs. cbn [flatten_list]. split.
      + destruct (flatten_plain x) as [ya| |]; try discriminate. destruct (flatten_list l) as [yb| |]; try discriminate. intros [= <-].
        apply Forall2_app; [apply IHa; reflexivity|apply IHb; reflexivity].
      + intros H. apply Forall2_app_inv_l in H as (ya&yb&Ha&Hb&->). apply IHa in Ha. apply IHb in Hb. rewrite Ha, Hb. reflexivity. }
  split; [exact G|]. intros l ls H xs. rewrite <- flatten_plain_arr. apply G. constructor. exact H.
Qed.
Lemma in_order_leaf : forall v ls, in_order v ls -> forall k, (forall name x, leaf_of k v name x -> In x ls) /\ (forall x, In x ls -> exists name, leaf_of k v name x).
Proof.
  apply (in_order_mind (fun v ls _ => forall k, (forall name x, leaf_of k v name x -> In x ls) /\ (forall x, In x ls -> exists name, leaf_of k v name x))
    (fun l ls _ => (forall i y k name x, nth_error l i = Some y -> leaf_of k y name x -> In x ls) /\
       (forall f x, In x ls -> exists i y name, nth_error l i = Some y /\ leaf_of (f i) y name x))).
  - intros v Hv k. split.
    + intros name x H. inversion H as [? ? _|? l i y ? ? _ _]; subst; [left; reflexivity|destruct (Hv l eq_refl)].
    + intros x [<-|[]]. exists k. constructor. exact Hv.
  - intros l vs _ (IH1&IH2) k. split.
    + intros name x H. inversion H as [? ? Hn|? ? i y ? ? Hi Hl]; subst; [destruct (Hn l eq_refl)|]. eapply IH1; eassumption.
    + intros x Hx. destruct (IH2 (fun i => k ++ lit "[" ++ dec_text (N.of_nat i) ++ lit "]") x Hx) as (i&y&name&Hi&Hl). exists name. econstructor; eassumption.
  - split; [intros [|i]; discriminate|intros f x []].
  - intros x l a b _ IHa _ (IH1&IH2). split.
    + intros [|i] y k name z Hi Hl; cbn in Hi; apply in_or_app; [left; injection Hi as ->; eapply (IHa k); exact Hl|right; eapply IH1; eassumption].
    + intros f z Hz. apply in_app_or in Hz as [Hz|Hz].
      * destruct (proj2 (IHa (f 0%nat)) z Hz) as (name&Hl). exists 0%nat, x, name. auto.
      * destruct (IH2 (fun i => f (S i)) z Hz) as (i&y&name&Hi&Hl). exists (S i), y, name. auto.
Qed.

(** An object gives exactly the field elements its values stand for, in the order of its members and,
    within an array, of its elements; it is an error if a value is no number. *)
Theorem C67_values_in_order :
  forall kvs ls, in_order_all (map snd kvs) ls ->
    (forall xs, parse_circuit_inputs (JObj kvs) = Ok xs <-> Forall2 numeric ls xs) /\
    parse_circuit_inputs (JObj kvs) <> Panic.
Proof.
  intros kvs ls H. cbn [parse_circuit_inputs]. rewrite entries_list. split; [intros xs; apply (proj2 list_sound); exact H|].
  assert (P : forall v, flatten_plain v <> Panic).
  { assert (one : forall v, (forall l, v <> JArr l) -> flatten_plain v <> Panic).
    { intros v Hv. rewrite flatten_scalar by exact Hv. destruct v as [| |z|f|t|l|]; cbn [scalar_value]; try discriminate; unfold of_option; [destruct (number_value z)|destruct (fr_from_str t)]; discriminate. }
    induction v as [|b|z|f|t|l IH|o IH] using json_ind'; try (apply one; discriminate). rewrite flatten_plain_arr.
    induction IH as [|x l Hx _ IHl]; [discriminate|]. cbn [flatten_list]. destruct (flatten_plain x); [|discriminate|contradiction]. destruct (flatten_list l); [discriminate|discriminate|contradiction]. }
  clear H. induction (map snd kvs) as [|x l IH]; [discriminate|]. cbn [flatten_list]. specialize (P x). destruct (flatten_plain x); [|discriminate|contradiction].
  destruct (flatten_list l); [discriminate|discriminate|contradiction].
Qed.
Print Assumptions C67_values_in_order.

(** It accepts the documents the reading by name accepts, and lists the same values. *)
Theorem C67_same_documents_as_by_name :
  forall doc,
    ((exists xs, parse_circuit_inputs doc = Ok xs) <-> (exists m, parse_inputs_with_keys doc = Ok m)) /\
    (forall kvs xs m, doc = JObj kvs -> unambiguous kvs -> parse_circuit_inputs doc = Ok xs -> parse_inputs_with_keys doc = Ok m ->
       forall a, In a xs <-> exists name, hm_get name m = Some a).
Proof.
  intros doc.
  assert (L : forall kvs ls, in_order_all (map snd kvs) ls -> forall x, In x ls <-> exists name, doc_leaf kvs name x).
  { induction kvs as [|[k v] kvs IH]; intros ls H x; inversion H as [|? ? a b Ha Hb]; subst.
    - split; [intros []|]. intros (name&k&v&[]&_).
    - rewrite in_app_iff. destruct (in_order_leaf v a Ha k) as [H1 H2]. rewrite (IH b Hb). split.
      + intros [Hx|(name&k'&v'&Hi&Hl)]; [destruct (H2 x Hx) as (name&Hl); exists name, k, v; split; [left; reflexivity|exact Hl]|exists name, k', v'; split; [right; exact Hi|exact Hl]].
      + intros (name&k'&v'&[E|Hi]&Hl); [injection E as <- <-; left; eapply H1; exact Hl|right; exists name, k', v'; auto]. }
  split.
  - destruct doc as [| | | | | |kvs]; try (split; intros (x&H); discriminate).
    destruct (in_order_all_ex (map snd kvs)) as (ls&Hls). rewrite C29_accepted_iff_every_leaf_is_numeric. split.
    + intros (xs&H). apply (proj1 (C67_values_in_order kvs ls Hls)) in H. intros name x Hl.
      assert (Hx : In x ls) by (apply (L kvs ls Hls); eauto). clear - H Hx. induction H as [|y a ls xs Ha _ IH]; [destruct Hx|]. destruct Hx as [<-|Hx]; eauto.
    + intros H. assert (G : exists xs, Forall2 numeric ls xs).
      { assert (A : forall x, In x ls -> exists a, numeric x a) by (intros x Hx; apply (L kvs ls Hls) in Hx as (name&Hl); eauto). clear - A.
        induction ls as [|x ls IH]; [exists []; constructor|]. destruct (A x (or_introl eq_refl)) as (a&Ha). destruct IH as (xs&IH); [intros y Hy; apply A; right; exact Hy|]. exists (a :: xs). constructor; assumption. }
      destruct G as (xs&G). exists xs. apply (proj1 (C67_values_in_order kvs ls Hls)). exact G.
  - intros kvs xs m -> Hu H Hm a. destruct (in_order_all_ex (map snd kvs)) as (ls&Hls). apply (proj1 (C67_values_in_order kvs ls Hls)) in H.
    assert (I : In a xs <-> exists x, In x ls /\ numeric x a).
    { clear - H. induction H as [|x b ls xs Hb _ IH]; [split; [intros []|intros (x&[]&_)]|]. cbn [In]. rewrite IH. split.
      - intros [<-|(y&Hy&Ha)]; eauto.
      - intros (y&[<-|Hy]&Ha); [left; eapply numeric_fun; eassumption|right; eauto]. }
    rewrite I. split.
    + intros (x&Hx&Ha). apply (L kvs ls Hls) in Hx as (name&Hl). exists name. apply (C29_values kvs m Hu Hm). eauto.
    + intros (name&Hg). apply (C29_values kvs m Hu Hm) in Hg as (x&Hl&Ha). exists x. split; [apply (L kvs ls Hls); eauto|exact Ha].
Qed.
Print Assumptions C67_same_documents_as_by_name.

(** The first value that is refused is the one reported, by both readings. *)
Lemma scalar_err v e : (forall l, v <> JArr l) -> scalar_value v = Err e <-> refused v e.
Proof.
  intros Hv. split.
  - intros H. destruct v as [|b|z|f|t|l|o]; cbn [scalar_value] in H; try (assert (E : e = UnsupportedType) by congruence; rewrite E; constructor).
    + destruct (number_value z) as [a|] eqn:En; cbn [of_option] in H; [discriminate|]. assert (E : e = UnsupportedNumber) by congruence. rewrite E. constructor.
      unfold number_value in En.
      destruct ((0 <=? z) && (z <? 2 ^ 64))%Z eqn:E1; [discriminate|]. destruct ((- 2 ^ 63 <=? z) && (z <? 2 ^ 63))%Z eqn:E2; [discriminate|].
      apply andb_false_iff in E1, E2. rewrite ?Z.leb_gt, ?Z.ltb_ge in *. clear - E1 E2. lia.
    + assert (E : e = UnsupportedNumber) by congruence. rewrite E. constructor.
    + destruct (fr_from_str t) as [a|] eqn:En; cbn [of_option] in H; [discriminate|]. assert (E : e = BadFieldElement t) by congruence. rewrite E. constructor.
      intros z Hz. apply bigint_spec in Hz. unfold fr_from_str in En. rewrite Hz in En. discriminate.
    + destruct (Hv l eq_refl).
  - intros H. destruct H as [z Hz|f|t Ht| |b|o]; cbn [scalar_value]; try reflexivity.
    + unfold number_value. replace ((0 <=? z) && (z <? 2 ^ 64))%Z with false.
      2:{ symmetry. apply andb_false_iff. rewrite Z.leb_gt, Z.ltb_ge. clear - Hz. lia. }
      replace ((- 2 ^ 63 <=? z) && (z <? 2 ^ 63))%Z with false; [reflexivity|].
      symmetry. apply andb_false_iff. rewrite Z.leb_gt, Z.ltb_ge. clear - Hz. lia.
    + unfold fr_from_str. destruct (bigint_from_str t) as [z|] eqn:E; [|reflexivity]. apply bigint_spec in E. destruct (Ht z E).
Qed.
Lemma first_refused_cons x ls e : first_refused (x :: ls) e <-> refused x e \/ ((exists a, numeric x a) /\ first_refused ls e).
Proof.
  split.
  - intros ([|y b]&z&l2&E&Hb&Hr); injection E as <- ->; [left; exact Hr|]. right. split; [apply Hb; left; reflexivity|]. exists b, z, l2. repeat split; auto.
    intros w Hw. apply Hb. right. exact Hw.
  - intros [Hr|(Hn&b&z&l2&->&Hb&Hr)]; [exists [], x, ls; repeat split; [intros y []|exact Hr]|].
    exists (x :: b), z, l2. repeat split; auto. intros y [<-|Hy]; auto.
Qed.
Lemma numeric_not_refused x a e : numeric x a -> ~ refused x e.
Proof.
  intros H1 H2. apply scalar_spec in H1.
  assert (Hv : forall l, x <> JArr l) by (intros l ->; discriminate H1). apply (scalar_err x e Hv) in H2. congruence.
Qed.
Lemma first_refused_app a b e : first_refused (a ++ b) e <-> first_refused a e \/ ((forall y, In y a -> exists v, numeric y v) /\ first_refused b e).
Proof.
  induction a as [|x a IH]; cbn [app].
  - split; [intros H; right; split; [intros y []|exact H]|]. intros [([|? ?]&?&?&E&_)|(_&H)]; [discriminate E|discriminate E|exact H].
  - rewrite !first_refused_cons, IH. split.
    + intros [H|(Hn&[H|(Ha&H)])]; auto. right. split; [|exact H]. intros y [<-|Hy]; auto.
    + intros [[H|(Hn&H)]|(Ha&H)]; auto. right. split; [apply Ha; left; reflexivity|]. right. split; [|exact H]. intros y Hy. apply Ha. right. exact Hy.
Qed.
Lemma ok_all_numeric ls xs : Forall2 numeric ls xs -> forall y, In y ls -> exists v, numeric y v.
Proof. induction 1 as [|x a ls xs Ha _ IH]; intros y Hy; [destruct Hy|]. destruct Hy as [<-|Hy]; eauto. Qed.
Lemma refused_first_not_ok ls e xs : first_refused ls e -> ~ Forall2 numeric ls xs.
Proof.
  intros (b&x&c&->&_&Hr) H. assert (Hx : exists v, numeric x v) by (eapply ok_all_numeric; [exact H|apply in_or_app; right; left; reflexivity]).
  destruct Hx as (v&Hx). exact (numeric_not_refused x v e Hx Hr).
Qed.
Lemma list_errors : (forall v ls, in_order v ls -> forall e, flatten_plain v = Err e <-> first_refused ls e) /\
  (forall l ls, in_order_all l ls -> forall e, flatten_list l = Err e <-> first_refused ls e).
Proof.
  assert (G : forall v ls (H : in_order v ls), forall e, flatten_plain v = Err e <-> first_refused ls e).
  { apply (in_order_mind (fun v ls _ => forall e, flatten_plain v = Err e <-> first_refused ls e) (fun l ls _ => forall e, flatten_list l = Err e <-> first_refused ls e)).
    - intros v Hv e. rewrite flatten_scalar by exact Hv. rewrite first_refused_cons, <- (scalar_err v e Hv). split.
      + destruct (scalar_value v) as [a|e'|]; try discriminate. intros [= ->]. left. reflexivity.
      + intros [->|(_&[|? ?]&?&?&E&_)]; [reflexivity|discriminate E|discriminate E].
    - intros l vs _ IH e. rewrite flatten_plain_arr. apply IH.
    - intros e. cbn [flatten_list]. split; [discriminate|]. intros ([|? ?]&?&?&E&_); discriminate E.
    - intros x l a b Hx IHa Hl IHb e. cbn [flatten_list]. rewrite first_refused_app, <- IHa, <- IHb.
      destruct (flatten_plain x) as [ya|ea|] eqn:Ex.
      + pose proof (proj1 (proj1 list_sound x a Hx ya) Ex) as Hn. split.
        * intros H. right. split; [eapply ok_all_numeric; exact Hn|]. destruct (flatten_list l); [discriminate|exact H|discriminate].
        * intros [H|(_&H)]; [discriminate|]. destruct (flatten_list l); [discriminate|exact H|discriminate].
      + split; [intros H; left; exact H|]. intros [H|(Hn&_)]; [exact H|]. exfalso.
        assert (Hf : first_refused a ea) by (apply IHa; reflexivity). destruct Hf as (b1&y&b2&->&_&Hr).
        destruct (Hn y) as (v&Hv); [apply in_or_app; right; left; reflexivity|]. exact (numeric_not_refused y v ea Hv Hr).
      + split; [discriminate|]. intros [H|(Hn&_)]; [discriminate|]. exfalso. clear IHa IHb.
        assert (Hok : exists xs, Forall2 numeric a xs).
        { clear - Hn. induction a as [|y a IH]; [exists []; constructor|]. destruct (Hn y (or_introl eq_refl)) as (v&Hv).
          destruct IH as (xs&IH); [intros z Hz; apply Hn; right; exact Hz|]. exists (v :: xs). constructor; assumption. }
        destruct Hok as (xs&Hok). apply (proj1 list_sound x a Hx xs) in Hok. congruence. }
  split; [exact G|]. intros l ls H e. rewrite <- flatten_plain_arr. apply G. constructor. exact H.
Qed.
Lemma leaves_in_order : forall v ls, in_order v ls -> forall k, map snd (leaves v k) = ls.
Proof.
  apply (in_order_mind (fun v ls _ => forall k, map snd (leaves v k) = ls) (fun l ls _ => forall k i, map snd (leaves_arr k i l) = ls)).
  - intros v Hv k. destruct v; try reflexivity. destruct (Hv l eq_refl).
  - intros l vs _ IH k. rewrite leaves_arr_eq. apply IH.
  - reflexivity.
  - intros x l a b _ IHa _ IHb k i. cbn [leaves_arr]. rewrite map_app, IHa, IHb. reflexivity.
Qed.
Lemma doc_leaves_in_order : forall kvs ls, in_order_all (map snd kvs) ls -> map snd (doc_leaves kvs) = ls.
Proof.
  induction kvs as [|[k v] kvs IH]; intros ls H; inversion H as [|? ? a b Ha Hb]; subst; [reflexivity|].
  unfold doc_leaves. cbn [flat_map fst snd]. rewrite map_app, (leaves_in_order v a Ha k). f_equal. apply IH. exact Hb.
Qed.
Lemma in_order_no_array : forall v ls, in_order v ls -> forall x, In x ls -> forall l, x <> JArr l.
Proof.
  apply (in_order_mind (fun v ls _ => forall x, In x ls -> forall l, x <> JArr l) (fun _ ls _ => forall x, In x ls -> forall l, x <> JArr l)).
  - intros v Hv x [<-|[]]. exact Hv.
  - auto.
  - intros x [].
  - intros x l a b _ IHa _ IHb y Hy. apply in_app_or in Hy as [Hy|Hy]; auto.
Qed.
Lemma insert_leaves_err : forall l m e, (forall n x, In (n, x) l -> forall a, x <> JArr a) -> insert_leaves l m = Err e <-> first_refused (map snd l) e.
Proof.
  induction l as [|[n x] l IH]; intros m e Hl; cbn [insert_leaves map snd].
  - split; [discriminate|]. intros ([|? ?]&?&?&E&_); discriminate E.
  - rewrite first_refused_cons, <- (scalar_err x e (Hl n x (or_introl eq_refl))). destruct (scalar_value x) as [a|e'|] eqn:E.
    + rewrite IH by (intros n' x' Hi; apply (Hl n'); right; exact Hi). apply scalar_spec in E. split; [intros H; right; split; [eauto|exact H]|intros [H|(_&H)]; [discriminate|exact H]].
    + split; [intros [= ->]; left; reflexivity|]. intros [[= ->]|((a&Ha)&_)]; [reflexivity|]. apply scalar_spec in Ha. congruence.
    + exfalso. exact (scalar_no_panic x E).
Qed.
Theorem C67_errors :
  forall kvs ls, in_order_all (map snd kvs) ls ->
    (forall e, parse_circuit_inputs (JObj kvs) = Err e <-> first_refused ls e) /\
    (forall e, parse_inputs_with_keys (JObj kvs) = Err e <-> first_refused ls e) /\
    (forall doc, (forall o, doc <> JObj o) -> parse_circuit_inputs doc = Err NotAnObject /\ parse_inputs_with_keys doc = Err NotAnObject).
Proof.
  intros kvs ls H. split; [|split].
  - intros e. cbn [parse_circuit_inputs]. rewrite entries_list. apply (proj2 list_errors). exact H.
  - intros e. cbn [parse_inputs_with_keys]. rewrite flatten_entries_leaves. rewrite insert_leaves_err; [rewrite (doc_leaves_in_order kvs ls H); reflexivity|].
    intros n x Hx. apply (in_order_no_array (JArr (map snd kvs)) ls (io_array _ _ H)). rewrite <- (doc_leaves_in_order kvs ls H). apply (in_map snd) in Hx. exact Hx.
  - intros doc Hd. destruct doc as [| | | | | |o]; try (split; reflexivity). destruct (Hd o eq_refl).
Qed.
Print Assumptions C67_errors.

(** "serde_json preserves the order from the JSON file" (commands.rs:446-447) holds only when
    serde_json is built with its preserve_order feature: without it the same file gives the values in
    the order of the names. *)
Theorem C67_document_order_refuted :
  forall huge, exists t a b,
    serde_parse huge true t = Some a /\ serde_parse huge false t = Some b /\
    parse_circuit_inputs a = Ok [fr 7; fr 3] /\ parse_circuit_inputs b = Ok [fr 3; fr 7].
Proof.
  intros huge. exists (lit "{""y"":7,""x"":[3]}"). eexists. eexists. split; [vm_compute; reflexivity|]. split; [vm_compute; reflexivity|].
  split; cbn [parse_circuit_inputs flatten_plain_entries flatten_plain scalar_value of_option app]; reflexivity.
Qed.
Print Assumptions C67_document_order_refuted.
Example C67_nonvacuous :
  let kvs := [(lit "b", JArr [JInt 1; JArr [JStr (lit "2"); JInt 3]]); (lit "a", JInt 4)] in
  in_order_all (map snd kvs) [JInt 1; JStr (lit "2"); JInt 3; JInt 4] /\ unambiguous kvs /\
  parse_circuit_inputs (JObj kvs) = Ok [fr 1; fr 2; fr 3; fr 4] /\
  (exists m, parse_inputs_with_keys (JObj kvs) = Ok m) /\
  parse_circuit_inputs (JObj [(lit "a", JNull)]) = Err UnsupportedType /\
  first_refused [JInt 1; JFloat (lit "1.5"); JNull] UnsupportedNumber.
Proof.
  cbv zeta. split.
  { apply (io_cons _ _ [JInt 1; JStr (lit "2"); JInt 3] [JInt 4]).
    - constructor. apply (io_cons _ _ [JInt 1] [JStr (lit "2"); JInt 3]); [constructor; discriminate|].
      apply (io_cons _ _ [JStr (lit "2"); JInt 3] []); [|constructor]. constructor.
      apply (io_cons _ _ [JStr (lit "2")] [JInt 3]); [constructor; discriminate|]. apply (io_cons _ _ [JInt 3] []); [constructor; discriminate|constructor].
    - apply (io_cons _ _ [JInt 4] []); [constructor; discriminate|constructor]. }
  split.
  { apply C29_plain_keys_are_unambiguous. split.
    - constructor; [intros [E|[]]; discriminate|]. constructor; [intros []|constructor].
    - repeat constructor; vm_compute; intros H; discriminate. }
  split; [reflexivity|]. split; [eexists; reflexivity|]. split; [reflexivity|].
  exists [JInt 1], (JFloat (lit "1.5")), [JNull]. split; [reflexivity|]. split; [|constructor].
  intros y [<-|[]]. exists (fr 1). constructor. lia.
Qed.
