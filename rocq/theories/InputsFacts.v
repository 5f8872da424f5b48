(** Facts about JSON input flattening (Inputs.v) against SpecInputs.v. *)
From Coq Require Import List Bool Arith NArith ZArith Lia Permutation.
From Coq Require Import Strings.String.
From Verif Require Import Res Text Fld Bn254 Inputs SpecInputs.
Import ListNotations.
Local Open Scope N_scope.

(** ** Induction on documents *)
Lemma json_ind' (P : json -> Prop) :
  P JNull -> (forall b, P (JBool b)) -> (forall z, P (JInt z)) -> (forall t, P (JFloat t)) ->
  (forall t, P (JStr t)) -> (forall l, Forall P l -> P (JArr l)) ->
  (forall l, Forall (fun kv => P (snd kv)) l -> P (JObj l)) -> forall v, P v.
Proof.
  intros H1 H2 H3 H4 H5 H6 H7. fix IH 1. intros [|b|z|t|t|l|l].
  - exact H1.
  - apply H2.
  - apply H3.
  - apply H4.
  - apply H5.
  - apply H6. induction l as [|x l IHl]; constructor; [apply IH|exact IHl].
  - apply H7. induction l as [|x l IHl]; constructor; [apply IH|exact IHl].
Qed.

(** ** Maps keyed by wires *)
Section NMapFacts.
  Context {V : Type}.
  Lemma nm_get_insert k (v : V) m k' : nm_get k' (nm_insert k v m) = if k' =? k then Some v else nm_get k' m.
  Proof.
    induction m as [|[k1 v1] m IH]; cbn; [reflexivity|].
    destruct (N.eqb_spec k k1) as [->|E1]; cbn.
    - destruct (N.eqb_spec k' k1); reflexivity.
    - destruct (N.eqb_spec k' k1) as [->|E2].
      + destruct (N.eqb_spec k1 k); [congruence|reflexivity].
      + exact IH.
  Qed.
  Lemma nm_insert_keys k (v : V) m x : In x (map fst (nm_insert k v m)) <-> x = k \/ In x (map fst m).
  Proof.
    induction m as [|[k1 v1] m IH]; cbn.
    - intuition.
    - destruct (N.eqb_spec k k1) as [->|E1]; cbn; [intuition|]. rewrite IH. intuition.
  Qed.
  Lemma nm_insert_nodup k (v : V) m : NoDup (map fst m) -> NoDup (map fst (nm_insert k v m)).
  Proof.
    induction m as [|[k1 v1] m IH]; cbn; intros H.
    - constructor; [auto|constructor].
    - inversion H as [|x l Hn Hd]; subst. destruct (N.eqb_spec k k1) as [->|E1]; cbn.
      + constructor; assumption.
      + constructor; [|auto]. rewrite nm_insert_keys. intros [->|Hin]; [congruence|auto].
  Qed.
  Lemma nm_get_none k (m : nmap V) : nm_get k m = None <-> ~ In k (map fst m).
  Proof.
    induction m as [|[k1 v1] m IH]; cbn; [intuition|].
    destruct (N.eqb_spec k k1) as [->|E1].
    - split; [discriminate|]. intros H. exfalso. auto.
    - rewrite IH. split; intros H; [intros [H'|H']; congruence|auto].
  Qed.
End NMapFacts.

(** ** Leaves *)
Fixpoint leaves (v : json) (key : text) : list (text * json) :=
  match v with
  | JArr l =>
      (fix go (idx : N) (l : list json) : list (text * json) :=
         match l with [] => [] | x :: l => leaves x (index_key key idx) ++ go (idx + 1) l end) 0 l
  | _ => [(key, v)]
  end.
Fixpoint leaves_arr (key : text) (idx : N) (l : list json) : list (text * json) :=
  match l with [] => [] | x :: l => leaves x (index_key key idx) ++ leaves_arr key (idx + 1) l end.
Lemma leaves_arr_eq l key : leaves (JArr l) key = leaves_arr key 0 l.
Proof.
  cbn. generalize 0. induction l as [|x l IH]; intros i; [reflexivity|]. cbn. rewrite IH. reflexivity.
Qed.
Definition doc_leaves (kvs : list (text * json)) : list (text * json) := flat_map (fun kv => leaves (snd kv) (fst kv)) kvs.

Lemma leaves_arr_in key l : forall idx n x, In (n, x) (leaves_arr key idx l) <->
  exists i y, nth_error l i = Some y /\ In (n, x) (leaves y (index_key key (idx + N.of_nat i))).
Proof.
  induction l as [|y l IH]; intros idx n x.
  - cbn. split; [contradiction|]. intros (i&y&H&_). destruct i; discriminate.
  - cbn [leaves_arr]. rewrite in_app_iff, IH. split.
    + intros [H|(i&z&Hi&H)].
      * exists 0%nat, y. split; [reflexivity|]. rewrite N.add_0_r. exact H.
      * exists (S i), z. split; [exact Hi|].
        replace (idx + N.of_nat (S i)) with (idx + 1 + N.of_nat i) by lia. exact H.
    + intros (i&z&Hi&H). destruct i as [|i].
      * left. injection Hi as ->. rewrite N.add_0_r in H. exact H.
      * right. exists i, z. split; [exact Hi|].
        replace (idx + 1 + N.of_nat i) with (idx + N.of_nat (S i)) by lia. exact H.
Qed.
Lemma leaves_spec v : forall key n x, In (n, x) (leaves v key) <-> leaf_of key v n x.
Proof.
  induction v as [|b|z|t|t|l IH|l IH] using json_ind'; intros key n x;
    try (cbn; split; [intros [H|[]]; injection H as -> <-; constructor; intros l'; discriminate
                     |intros H; inversion H; subst; auto]).
  rewrite leaves_arr_eq, leaves_arr_in. split.
  - intros (i&y&Hi&H). eapply leaf_in; [exact Hi|]. rewrite Forall_forall in IH.
    apply (IH y (nth_error_In _ _ Hi)). exact H.
  - intros H. inversion H as [k v Hn|k l' i y n' v Hi Hl]; subst; [exfalso; eapply Hn; reflexivity|].
    exists i, y. split; [exact Hi|]. rewrite Forall_forall in IH. apply (IH y (nth_error_In _ _ Hi)). exact Hl.
Qed.
Lemma doc_leaves_spec kvs n x : In (n, x) (doc_leaves kvs) <-> doc_leaf kvs n x.
Proof.
  unfold doc_leaves, doc_leaf. rewrite in_flat_map. split.
  - intros ((k&v)&Hi&H). exists k, v. split; [exact Hi|]. apply leaves_spec. exact H.
  - intros (k&v&Hi&H). exists (k, v). split; [exact Hi|]. apply leaves_spec. exact H.
Qed.

(** ** Values *)
Lemma forallb_ext' {A} (f : A -> bool) (P : A -> Prop) l :
  (forall x, f x = true <-> P x) -> (forallb f l = true <-> Forall P l).
Proof. intros H. rewrite forallb_forall, Forall_forall. split; intros G x Hx; apply H; auto. Qed.
Lemma digits_under_spec t : digits_under t = true <->
  exists c r, t = c :: r /\ 48 <= c <= 57 /\ Forall (fun x => 48 <= x <= 57 \/ x = c_under) r.
Proof.
  destruct t as [|c r]; cbn [digits_under].
  - split; [discriminate|]. intros (c&r&H&_). discriminate.
  - rewrite andb_true_iff, is_digit_range.
    rewrite (forallb_ext' _ (fun x => 48 <= x <= 57 \/ x = c_under)).
    + split; [intros [H1 H2]; exists c, r; auto|]. intros (c'&r'&H&H1&H2). injection H as -> ->. auto.
    + intros x. rewrite orb_true_iff, is_digit_range, N.eqb_eq. reflexivity.
Qed.
Lemma bigint_spec t z : bigint_from_str t = Some z <-> numeral t z.
Proof.
  unfold numeral. split.
  - intros H. unfold bigint_from_str in H.
    destruct t as [|c t].
    { cbn in H. discriminate. }
    destruct (N.eqb_spec c c_minus) as [->|Hm].
    + cbv beta iota zeta in H.
      (* minus *)
      assert (Hs : forall u, digits_under u = true -> Some (- Z.of_N (digits_value (drop_under u)))%Z = Some z ->
                exists c r, 48 <= c <= 57 /\ Forall (fun x => 48 <= x <= 57 \/ x = c_under) r /\
                u = c :: r /\ z = (- Z.of_N (digits_value (drop_under (c :: r))))%Z).
      { intros u Hu Hz. apply digits_under_spec in Hu. destruct Hu as (c&r&->&H1&H2). exists c, r.
        split; [exact H1|]. split; [exact H2|]. split; [reflexivity|]. injection Hz as <-. reflexivity. }
      destruct t as [|d t]; [cbn in H; discriminate|].
      destruct (N.eqb_spec d c_plus) as [->|Hd].
      * change (c_minus =? c_plus) with false in H. cbv beta iota in H.
        destruct (digits_under (c_minus :: c_plus :: t)) eqn:E; [|discriminate].
        apply digits_under_spec in E. destruct E as (c&r&E&H1&_). injection E as <- _. unfold c_minus in H1. lia.
      * destruct (N.eqb_spec d c_plus) as [|_]; [contradiction|].
        destruct (digits_under (d :: t)) eqn:E; [|discriminate].
        destruct (Hs _ E H) as (c&r&H1&H2&H3&H4). exists c, r. split; [exact H1|]. split; [exact H2|].
        right. right. split; [congruence|exact H4].
    + cbv beta iota zeta in H.
      assert (Hs : forall u, digits_under u = true -> Some (Z.of_N (digits_value (drop_under u)))%Z = Some z ->
                exists c r, 48 <= c <= 57 /\ Forall (fun x => 48 <= x <= 57 \/ x = c_under) r /\
                u = c :: r /\ z = (Z.of_N (digits_value (drop_under (c :: r))))%Z).
      { intros u Hu Hz. apply digits_under_spec in Hu. destruct Hu as (c'&r&->&H1&H2). exists c', r.
        split; [exact H1|]. split; [exact H2|]. split; [reflexivity|]. injection Hz as <-. reflexivity. }
      destruct (N.eqb_spec c c_plus) as [->|Hp].
      * destruct t as [|d t]; [cbn in H; discriminate|].
        destruct (N.eqb_spec d c_plus) as [->|Hd].
        -- destruct (digits_under (c_plus :: c_plus :: t)) eqn:E; [|discriminate].
           apply digits_under_spec in E. destruct E as (c&r&E&H1&_). injection E as <- _. unfold c_plus in H1. lia.
        -- destruct (digits_under (d :: t)) eqn:E; [|discriminate].
           destruct (Hs _ E H) as (c&r&H1&H2&H3&H4). exists c, r. split; [exact H1|]. split; [exact H2|].
           right. left. split; [congruence|exact H4].
      * destruct (digits_under (c :: t)) eqn:E; [|discriminate].
        destruct (Hs _ E H) as (c'&r&H1&H2&H3&H4). exists c', r. split; [exact H1|]. split; [exact H2|].
        left. split; [congruence|exact H4].
  - intros (c&r&H1&H2&H3).
    assert (Hd : digits_under (c :: r) = true) by (apply digits_under_spec; exists c, r; auto).
    assert (Hcm : (c =? c_minus) = false) by (apply N.eqb_neq; unfold c_minus; lia).
    assert (Hcp : (c =? c_plus) = false) by (apply N.eqb_neq; unfold c_plus; lia).
    unfold bigint_from_str.
    destruct H3 as [(->&->)|[(->&->)|(->&->)]].
    + rewrite Hcm. rewrite Hcp. rewrite Hd. reflexivity.
    + change (c_plus =? c_minus) with false. cbv beta iota zeta. change (c_plus =? c_plus) with true.
      cbv beta iota. rewrite Hcp, Hd. reflexivity.
    + change (c_minus =? c_minus) with true. cbv beta iota zeta. rewrite Hcp, Hcp, Hd. reflexivity.
Qed.
Lemma numeral_fun t z z' : numeral t z -> numeral t z' -> z = z'.
Proof. intros H H'. apply bigint_spec in H, H'. congruence. Qed.

Lemma scalar_spec v a : scalar_value v = Ok a <-> numeric v a.
Proof.
  split.
  - destruct v; cbn [scalar_value]; intros H; try discriminate.
    + unfold number_value in H.
      destruct ((0 <=? z) && (z <? 2 ^ 64))%Z eqn:E1; cbn [of_option] in H.
      * apply andb_prop in E1. destruct E1 as [E1 E2]. apply Z.leb_le in E1. apply Z.ltb_lt in E2.
        assert (Ha : a = fr z) by congruence. rewrite Ha. constructor. auto.
      * destruct ((- 2 ^ 63 <=? z) && (z <? 2 ^ 63))%Z eqn:E3; cbn [of_option] in H; [|discriminate].
        apply andb_prop in E3. destruct E3 as [E3 E4]. apply Z.leb_le in E3. apply Z.ltb_lt in E4.
        apply andb_false_iff in E1. rewrite Z.leb_gt, Z.ltb_ge in E1.
        assert (Ha : a = fr (z mod 2 ^ 64)%Z) by congruence. rewrite Ha.
        assert (Hz : (- 2 ^ 63 <= z < 0)%Z).
        { split; [exact E3|]. destruct E1 as [E1|E1]; [exact E1|]. exfalso. clear - E1 E4. lia. }
        assert (Hm : (z mod 2 ^ 64 = z + 2 ^ 64)%Z).
        { symmetry. apply (Z.mod_unique_pos _ _ (-1)); clear - Hz; lia. }
        rewrite Hm. constructor. exact Hz.
    + unfold fr_from_str in H. destruct (bigint_from_str t) as [z|] eqn:E; cbn in H; [|discriminate].
      assert (Ha : a = fr z) by congruence. rewrite Ha. constructor. apply bigint_spec. exact E.
  - intros H. destruct H as [z Hz|z Hz|t z Hz]; cbn.
    + unfold number_value. replace ((0 <=? z) && (z <? 2 ^ 64))%Z with true; [reflexivity|].
      symmetry. apply andb_true_intro. rewrite Z.leb_le, Z.ltb_lt. exact Hz.
    + unfold number_value. replace ((0 <=? z) && (z <? 2 ^ 64))%Z with false.
      2:{ symmetry. apply andb_false_iff. left. apply Z.leb_gt. apply Hz. }
      replace ((- 2 ^ 63 <=? z) && (z <? 2 ^ 63))%Z with true.
      2:{ symmetry. apply andb_true_intro. rewrite Z.leb_le, Z.ltb_lt. clear - Hz. lia. }
      assert (Hm : (z mod 2 ^ 64 = z + 2 ^ 64)%Z).
      { symmetry. apply (Z.mod_unique_pos _ _ (-1)); clear - Hz; lia. }
      rewrite Hm. reflexivity.
    + unfold fr_from_str. apply bigint_spec in Hz. rewrite Hz. reflexivity.
Qed.
Lemma scalar_no_panic v : scalar_value v <> Panic.
Proof.
  destruct v; cbn; try discriminate.
  - destruct (number_value z); discriminate.
  - destruct (fr_from_str t); discriminate.
Qed.

(** ** Flattening is an insertion of the leaves, in order *)
Fixpoint insert_leaves (ls : list (text * json)) (m : hmap Fr) : res input_error (hmap Fr) :=
  match ls with
  | [] => Ok m
  | (k, x) :: ls => match scalar_value x with
                    | Ok a => insert_leaves ls (hm_insert k a m)
                    | Err e => Err e
                    | Panic => Panic
                    end
  end.
Lemma insert_leaves_app a b m :
  insert_leaves (a ++ b) m =
  match insert_leaves a m with Ok m => insert_leaves b m | Err e => Err e | Panic => Panic end.
Proof.
  revert m; induction a as [|[k x] a IH]; intros m; cbn; [reflexivity|].
  destruct (scalar_value x); auto.
Qed.
Lemma flatten_value_leaves v : forall key m, flatten_value v key m = insert_leaves (leaves v key) m.
Proof.
  induction v as [|b|z|t|t|l IH|l IH] using json_ind'; intros key m; try reflexivity.
  rewrite leaves_arr_eq. cbn [flatten_value]. generalize 0. revert m.
    induction IH as [|x l Hx Hl IHl]; intros m i; [reflexivity|].
    cbn [leaves_arr]. rewrite insert_leaves_app, Hx.
    destruct (insert_leaves (leaves x (index_key key i)) m); [|reflexivity|reflexivity]. apply IHl.
Qed.
Lemma flatten_entries_leaves kvs : forall m, flatten_entries kvs m = insert_leaves (doc_leaves kvs) m.
Proof.
  induction kvs as [|[k v] kvs IH]; intros m; [reflexivity|].
  cbn [flatten_entries doc_leaves flat_map fst snd]. rewrite insert_leaves_app, flatten_value_leaves.
  destruct (insert_leaves (leaves v k) m); [apply IH|reflexivity|reflexivity].
Qed.

(** The last leaf with a given name. *)
Fixpoint last_leaf (n : text) (ls : list (text * json)) : option json :=
  match ls with
  | [] => None
  | (k, x) :: ls => match last_leaf n ls with
                    | Some y => Some y
                    | None => if text_eqb n k then Some x else None
                    end
  end.
Lemma last_leaf_in n ls x : last_leaf n ls = Some x -> In (n, x) ls.
Proof.
  induction ls as [|[k y] ls IH]; cbn; [discriminate|]. destruct (last_leaf n ls) as [z|].
  - intros H. right. auto.
  - destruct (text_eqb n k) eqn:E; [|discriminate]. intros H. left. apply text_eqb_eq in E. congruence.
Qed.
Lemma last_leaf_none n ls : last_leaf n ls = None -> forall x, ~ In (n, x) ls.
Proof.
  induction ls as [|[k y] ls IH]; cbn; intros H x; [auto|]. destruct (last_leaf n ls) as [z|]; [discriminate|].
  destruct (text_eqb n k) eqn:E; [discriminate|]. intros [Hx|Hx]; [|eapply IH; eauto].
  injection Hx as -> _. rewrite text_eqb_refl in E. discriminate.
Qed.
Lemma insert_leaves_ok ls : forall m m', insert_leaves ls m = Ok m' -> hm_wf m ->
  hm_wf m' /\ (forall k x, In (k, x) ls -> exists a, numeric x a) /\
  forall n, match last_leaf n ls with
            | Some x => exists a, numeric x a /\ hm_get n m' = Some a
            | None => hm_get n m' = hm_get n m
            end.
Proof.
  induction ls as [|[k x] ls IH]; intros m m' H Hwf.
  - cbn in H. assert (E : m' = m) by congruence. rewrite E. split; [exact Hwf|]. split; [contradiction|]. reflexivity.
  - cbn in H. destruct (scalar_value x) as [a| |] eqn:Ea; [|discriminate|discriminate].
    destruct (IH _ _ H (hm_insert_wf k a m Hwf)) as (H1&H2&H3). split; [exact H1|]. split.
    + intros k' x' [Hx|Hx]; [|eauto]. exists a. apply scalar_spec. congruence.
    + intros n. specialize (H3 n). cbn [last_leaf]. destruct (last_leaf n ls) as [y|]; [exact H3|].
      rewrite H3, hm_get_insert. destruct (text_eqb n k); [|reflexivity].
      exists a. split; [apply scalar_spec; exact Ea|reflexivity].
Qed.
Lemma insert_leaves_total ls : forall m, (forall k x, In (k, x) ls -> exists a, numeric x a) ->
  exists m', insert_leaves ls m = Ok m'.
Proof.
  induction ls as [|[k x] ls IH]; intros m H; [exists m; reflexivity|].
  destruct (H _ _ (or_introl eq_refl)) as (a&Ha). apply scalar_spec in Ha. cbn [insert_leaves]. rewrite Ha.
  apply IH. intros k' x' Hx. apply (H k'). right. exact Hx.
Qed.
Lemma insert_leaves_no_panic ls : forall m, insert_leaves ls m <> Panic.
Proof.
  induction ls as [|[k x] ls IH]; intros m; [discriminate|]. cbn.
  destruct (scalar_value x) eqn:E; [apply IH|discriminate|]. exfalso. exact (scalar_no_panic x E).
Qed.

(** ** Names *)
Lemma leaf_name k v n x : leaf_of k v n x -> exists s, n = k ++ s /\ (s = [] \/ exists r, s = 91 :: r).
Proof.
  induction 1 as [k v Hn|k l i y n v Hi Hl IH].
  - exists []. rewrite app_nil_r. auto.
  - destruct IH as (s&->&_). rewrite <- app_assoc. eexists. split; [reflexivity|]. right.
    cbn. eexists. reflexivity.
Qed.
Lemma free_prefix c : forall a b s s', free_of c a -> free_of c b ->
  (s = [] \/ exists r, s = c :: r) -> (s' = [] \/ exists r, s' = c :: r) -> a ++ s = b ++ s' -> a = b /\ s = s'.
Proof.
  induction a as [|x a IH]; intros b s s' Ha Hb Hs Hs' H; destruct b as [|y b].
  - auto.
  - cbn in H. destruct Hs as [->|(r&->)]; [discriminate|]. injection H as <- _.
    apply Forall_inv in Hb. congruence.
  - cbn in H. destruct Hs' as [->|(r&->)]; [discriminate|]. injection H as -> _.
    apply Forall_inv in Ha. congruence.
  - cbn in H. injection H as -> H. apply Forall_cons_iff in Ha, Hb. destruct (IH b s s') as [-> ->]; try tauto; auto.
Qed.
Lemma dec_free c n : ~ (48 <= c <= 57) -> free_of c (dec_text n).
Proof.
  intros Hc. destruct (dec_text_spec n) as (_&H&_). apply Forall_forall. intros x Hx. rewrite forallb_forall in H.
  specialize (H x Hx). apply is_digit_range in H. intros ->. contradiction.
Qed.
Lemma leaf_of_fun k v n x : leaf_of k v n x -> forall x', leaf_of k v n x' -> x = x'.
Proof.
  induction 1 as [k v Hn|k l i y n v Hi Hl IH]; intros x' H'.
  - inversion H' as [k' v' Hn'|k' l' i' y' n' v' Hi' Hl']; subst; [reflexivity|]. exfalso. eapply Hn. reflexivity.
  - inversion H' as [k' v' Hn'|k' l' i' y' n' v' Hi' Hl']; subst; [exfalso; eapply Hn'; reflexivity|].
    pose proof (leaf_name _ _ _ _ Hl) as (s&Es&_). pose proof (leaf_name _ _ _ _ Hl') as (s'&Es'&_).
    assert (E : dec_text (N.of_nat i) ++ 93 :: s = dec_text (N.of_nat i') ++ 93 :: s').
    { rewrite Es in Es'. rewrite <- !app_assoc in Es'. apply app_inv_head in Es'.
      change (lit "[") with [91] in Es'. change (lit "]") with [93] in Es'. cbn [app] in Es'.
      injection Es' as E. exact E. }
    apply (free_prefix 93) in E; [|apply dec_free; lia|apply dec_free; lia|eauto|eauto].
    destruct E as [E _]. apply dec_text_inj in E. apply Nat2N.inj in E. subst i'.
    rewrite Hi in Hi'. injection Hi' as <-. apply IH. exact Hl'.
Qed.
Lemma nodup_key {V} (kvs : list (text * V)) k v v' : NoDup (map fst kvs) -> In (k, v) kvs -> In (k, v') kvs -> v = v'.
Proof.
  intros Hn H H'. apply (hm_get_in k v kvs Hn) in H. apply (hm_get_in k v' kvs Hn) in H'. congruence.
Qed.
Lemma plain_keys_unambiguous kvs : plain_keys kvs -> unambiguous kvs.
Proof.
  intros [Hn Hf] n x x' (k&v&Hi&Hl) (k'&v'&Hi'&Hl').
  destruct (leaf_name _ _ _ _ Hl) as (s&Es&Hs). destruct (leaf_name _ _ _ _ Hl') as (s'&Es'&Hs').
  rewrite Forall_forall in Hf.
  assert (Hk : free_of 91 k) by (apply Hf; apply in_map_iff; exists (k, v); auto).
  assert (Hk' : free_of 91 k') by (apply Hf; apply in_map_iff; exists (k', v'); auto).
  rewrite Es in Es'. destruct (free_prefix 91 k k' s s' Hk Hk' Hs Hs' Es') as [<- <-].
  assert (v = v') by (eapply nodup_key; eauto). subst v'. eapply leaf_of_fun; eauto.
Qed.

(** ** The witness map of the CLI *)
Section Witness.
  Context {V : Type} (signals : text -> option N).
  Definition put (w : nmap V) (kv : text * V) : nmap V :=
    match signals (fst kv) with Some wire => nm_insert wire (snd kv) w | None => w end.
  Lemma put_spec (it : list (text * V)) : forall w0 w,
    (forall a, nm_get w (fold_left put it w0) = Some a ->
       (exists n, In (n, a) it /\ signals n = Some w) \/
       (nm_get w w0 = Some a /\ forall n b, In (n, b) it -> signals n <> Some w)) /\
    ((exists n b, In (n, b) it /\ signals n = Some w) -> exists a, nm_get w (fold_left put it w0) = Some a) /\
    ((forall n b, In (n, b) it -> signals n <> Some w) -> nm_get w (fold_left put it w0) = nm_get w w0).
  Proof.
    induction it as [|[k v] it IH]; intros w0 w; cbn [fold_left].
    - repeat split.
      + intros a H. right. split; [exact H|]. contradiction.
      + intros (n&b&[]&_).
    - destruct (IH (put w0 (k, v)) w) as (H1&H2&H3).
      assert (Hp : nm_get w (put w0 (k, v)) =
        if match signals k with Some w' => w =? w' | None => false end then Some v else nm_get w w0).
      { unfold put. cbn [fst snd]. destruct (signals k) as [w'|]; [apply nm_get_insert|reflexivity]. }
      assert (Hk : match signals k with Some w' => w =? w' | None => false end = true <-> signals k = Some w).
      { destruct (signals k) as [w'|]; [|split; discriminate]. rewrite N.eqb_eq. split; congruence. }
      repeat split.
      + intros a Ha. destruct (H1 a Ha) as [(n&Hi&Hs)|(Hg&Hno)].
        * left. exists n. split; [right; exact Hi|exact Hs].
        * rewrite Hp in Hg. destruct (match signals k with Some w' => w =? w' | None => false end) eqn:E.
          -- left. exists k. split; [left; congruence|]. apply Hk. reflexivity.
          -- right. split; [exact Hg|]. intros n b [Hb|Hb]; [|eauto]. injection Hb as <- <-.
             intros C. apply Hk in C. discriminate.
      + intros (n&b&[Hb|Hb]&Hs).
        * injection Hb as -> ->.
          (* either a later one, or this *)
          destruct (nm_get w (fold_left put it (put w0 (n, b)))) as [a|] eqn:Ea; [eauto|].
          assert (Hno : forall n' b', In (n', b') it -> signals n' <> Some w).
          { intros n' b' Hi' Hs'. destruct (H2 (ex_intro _ n' (ex_intro _ b' (conj Hi' Hs')))) as (a&Ha). congruence. }
          pose proof (H3 Hno) as Hg. rewrite Hp in Hg. apply Hk in Hs. rewrite Hs in Hg. discriminate Hg.
        * apply H2. eauto.
      + intros Hno. rewrite H3; [|intros n b Hb; apply (Hno n b); right; exact Hb].
        rewrite Hp. destruct (match signals k with Some w' => w =? w' | None => false end) eqn:E; [|reflexivity].
        exfalso. apply (Hno k v (or_introl eq_refl)). apply Hk. reflexivity.
  Qed.
End Witness.
Lemma cli_witness_put signals it :
  cli_witness signals it = fold_left (put (fun n => hm_get n signals)) it [(0, fr 1)].
Proof. reflexivity. Qed.

Lemma put_exact {V} (signals : text -> option N) (it : list (text * V)) w0 w :
  (forall n n' a b, In (n, a) it -> In (n', b) it -> signals n = Some w -> signals n' = Some w -> a = b) ->
  forall a, nm_get w (fold_left (put signals) it w0) = Some a <->
    (exists n, In (n, a) it /\ signals n = Some w) \/
    (nm_get w w0 = Some a /\ forall n b, In (n, b) it -> signals n <> Some w).
Proof.
  intros Hs a. destruct (put_spec signals it w0 w) as (H1&H2&H3). split; [apply H1|].
  intros [(n&Hi&Hn)|(Hg&Hno)].
  - destruct (H2 (ex_intro _ n (ex_intro _ a (conj Hi Hn)))) as (b&Hb).
    rewrite Hb. f_equal. destruct (H1 b Hb) as [(n'&Hi'&Hn')|(_&Hno)].
    + eapply Hs; eauto.
    + exfalso. exact (Hno n a Hi Hn).
  - rewrite (H3 Hno). exact Hg.
Qed.

(** ** JavaScript: the same leaves, as texts *)
Definition js_common (x : json) (t : text) : Prop :=
  js_to_string x = Some t /\ (forall l, x <> JArr l) /\ (forall o, x <> JObj o).
Definition flat_value (P : json -> Prop) (v : json) : Prop :=
  P v \/ exists l, v = JArr l /\ Forall P l.
Definition js_txt (x : json) : text := match js_to_string x with Some t => t | None => [] end.
Definition js_leaf (kv : text * json) : text * text := (fst kv, js_txt (snd kv)).
Lemma js_array_put signals key l : forall i m, Forall (fun x => exists t, js_common x t) l ->
  js_array signals key i l m =
  Ok (fold_left (put (fun n => hm_get n signals)) (map js_leaf (leaves_arr key i l)) m).
Proof.
  induction l as [|x l IH]; intros i m H; [reflexivity|].
  apply Forall_cons_iff in H. destruct H as [(t&Hx&Ha&Ho) Hl].
  cbn [js_array leaves_arr]. unfold js_set. rewrite map_app, fold_left_app.
  assert (Hlv : leaves x (index_key key i) = [(index_key key i, x)]).
  { destruct x; try reflexivity. exfalso. eapply Ha. reflexivity. }
  assert (Hput : put (fun n => hm_get n signals) m (js_leaf (index_key key i, x)) =
    match hm_get (index_key key i) signals with Some w => nm_insert w t m | None => m end).
  { unfold put, js_leaf, js_txt. cbn [fst snd]. rewrite Hx. reflexivity. }
  rewrite Hlv. cbn [map fold_left]. rewrite Hput, Hx.
  destruct (hm_get (index_key key i) signals); apply IH; exact Hl.
Qed.
Lemma js_flatten_put signals v : forall key m, flat_value (fun x => exists t, js_common x t) v ->
  js_flatten signals v key m =
  Ok (fold_left (put (fun n => hm_get n signals)) (map js_leaf (leaves v key)) m).
Proof.
  intros key m [(t&Hx&Ha&Ho)|(l&->&Hl)].
  - assert (Hf : js_flatten signals v key m = js_set signals key v m).
    { destruct v; try reflexivity; exfalso; [eapply Ha|eapply Ho]; reflexivity. }
    assert (Hlv : leaves v key = [(key, v)]).
    { destruct v; try reflexivity. exfalso. eapply Ha. reflexivity. }
    rewrite Hf, Hlv. unfold js_set, put, js_leaf, js_txt. cbn [map fold_left fst snd]. rewrite Hx.
    destruct (hm_get key signals); reflexivity.
  - rewrite leaves_arr_eq. cbn [js_flatten]. apply js_array_put. exact Hl.
Qed.
Lemma js_map_inputs_put signals kvs : forall m,
  Forall (fun kv => flat_value (fun x => exists t, js_common x t) (snd kv)) kvs ->
  js_map_inputs_loop signals kvs m =
  Ok (fold_left (put (fun n => hm_get n signals)) (map js_leaf (doc_leaves kvs)) m).
Proof.
  induction kvs as [|[k v] kvs IH]; intros m H; [reflexivity|].
  apply Forall_cons_iff in H. destruct H as [Hv Hk]. cbn [snd] in Hv.
  cbn [js_map_inputs_loop doc_leaves flat_map fst snd]. rewrite js_flatten_put by exact Hv.
  rewrite map_app, fold_left_app. apply IH. exact Hk.
Qed.

(** ** BigInt of digits *)
Lemma digit_not_js_ws c : 48 <= c <= 57 -> js_ws c = false.
Proof.
  intros Hc. unfold js_ws.
  repeat match goal with
  | |- context [?a <=? ?b] => destruct (N.leb_spec a b); try lia
  | |- context [?a =? ?b] => destruct (N.eqb_spec a b); try lia
  end; reflexivity.
Qed.
Lemma trim_no_ws ws t : Forall (fun c => ws c = false) t -> trim ws t = t.
Proof.
  intros H. pose proof (trim_tight_pad ws [] t []) as E. cbn [app] in E. rewrite app_nil_r in E. apply E; [constructor|constructor|].
  split; intros c r ->.
  - apply Forall_inv in H. exact H.
  - apply Forall_app in H. destruct H as [_ H]. apply Forall_inv in H. exact H.
Qed.
Lemma js_bigint_digits t : t <> [] -> Forall (fun c => 48 <= c <= 57) t -> js_bigint t = Some (Z.of_N (digits_value t)).
Proof.
  intros Hne Hd. unfold js_bigint. rewrite trim_no_ws.
  2:{ eapply Forall_impl; [|exact Hd]. exact digit_not_js_ws. }
  destruct t as [|c t]; [contradiction|]. pose proof (Forall_inv Hd) as Hc. cbn beta in Hc.
  destruct t as [|d t].
  - replace (is_digit c) with true by (symmetry; apply is_digit_range; exact Hc). reflexivity.
  - assert (Hall : forallb is_digit (c :: d :: t) = true).
    { apply forallb_forall. intros x Hx. rewrite Forall_forall in Hd. apply is_digit_range. apply Hd. exact Hx. }
    replace (c =? c_minus) with false by (symmetry; apply N.eqb_neq; unfold c_minus; lia).
    replace (c =? c_plus) with false by (symmetry; apply N.eqb_neq; unfold c_plus; lia).
    rewrite Hall. reflexivity.
Qed.
Lemma dec_digits_range n : Forall (fun c => 48 <= c <= 57) (dec_text n).
Proof.
  destruct (dec_text_spec n) as (_&H&_). apply Forall_forall. intros x Hx. rewrite forallb_forall in H.
  apply is_digit_range. apply H. exact Hx.
Qed.
Lemma js_bigint_dec z : (0 <= z)%Z -> js_bigint (dec_text_z z) = Some z.
Proof.
  intros Hz. unfold dec_text_z. replace (z <? 0)%Z with false by (symmetry; apply Z.ltb_ge; exact Hz).
  rewrite js_bigint_digits; [|apply dec_text_spec|apply dec_digits_range].
  f_equal. destruct (dec_text_spec (Z.to_N z)) as (_&_&->). apply Z2N.id. exact Hz.
Qed.
Lemma digits_numeral t : t <> [] -> Forall (fun c => 48 <= c <= 57) t -> numeral t (Z.of_N (digits_value t)).
Proof.
  intros Hne Hd. destruct t as [|c t]; [contradiction|]. apply Forall_cons_iff in Hd. destruct Hd as [Hc Ht].
  exists c, t. split; [exact Hc|]. split; [eapply Forall_impl; [|exact Ht]; auto|]. cbn zeta. left. split; [reflexivity|].
  f_equal. f_equal. symmetry. assert (Hf : forall l, Forall (fun c => 48 <= c <= 57) l -> filter (fun x => negb (x =? c_under)) l = l).
  { induction 1 as [|x l Hx Hl IH]; [reflexivity|]. cbn [filter]. replace (x =? c_under) with false by (symmetry; apply N.eqb_neq; unfold c_under; lia).
    cbn [negb]. rewrite IH. reflexivity. }
  apply Hf. constructor; assumption.
Qed.
