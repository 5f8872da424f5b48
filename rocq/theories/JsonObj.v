(** The objects the two readers make of a list of members. *)
From Coq Require Import List Bool Arith NArith ZArith Lia Sorted.
From Coq Require Import Strings.String.
From Verif Require Import Res Text Inputs JsonText SpecJson JsonFacts JsonMore.
Import ListNotations.
Local Open Scope N_scope.

Lemma last_value_rev {V} k (kvs : list (text * V)) v : last_value k kvs v <-> hm_get k (rev kvs) = Some v.
Proof.
  unfold last_value. induction kvs as [|[k' v'] kvs IH] using rev_ind.
  - cbn. split; [intros (a&b&H&_); destruct a; discriminate|discriminate].
  - rewrite rev_app_distr. cbn [rev app hm_get]. destruct (text_eqb k k') eqn:E.
    + apply text_eqb_eq in E. subst k'. split.
      * intros (a&b&H&Hn). destruct (exists_last (l := (k, v) :: b) ltac:(discriminate)) as (b'&x&Eb). rewrite Eb, app_assoc in H.
        apply app_inj_tail in H as [_ <-]. destruct b as [|y b]; [destruct b' as [|? [|]]; try discriminate; injection Eb as <-; reflexivity|].
        exfalso. apply Hn. destruct b' as [|z b']; [discriminate|]. injection Eb as _ Eb. rewrite Eb, map_app. apply in_or_app. right. left. reflexivity.
      * intros H. injection H as ->. exists kvs, []. split; [reflexivity|]. intros [].
    + apply text_eqb_neq in E. rewrite <- IH. split.
      * intros (a&b&H&Hn). destruct (exists_last (l := (k, v) :: b) ltac:(discriminate)) as (b'&x&Eb). rewrite Eb, app_assoc in H.
        apply app_inj_tail in H as [H Hx]. subst x. destruct b' as [|z b']; [injection Eb; intros; congruence|].
        cbn [app] in Eb. injection Eb as <- Eb. exists a, b'. split; [exact H|]. intros Hi. apply Hn. rewrite Eb, map_app. apply in_or_app. auto.
      * intros (a&b&->&Hn). exists a, (b ++ [(k', v')]). split; [rewrite <- app_assoc; reflexivity|].
        rewrite map_app, in_app_iff. cbn. intros [H|[H|[]]]; [contradiction|congruence].
Qed.
Section Fold.
  Context {V : Type} (put : list (text * V) -> text * V -> list (text * V)) (I : list (text * V) -> Prop).
  Context (Hwf : forall m, I m -> hm_wf m) (Hput : forall m kv, I m -> I (put m kv))
          (Hget : forall m k v k', I m -> hm_get k' (put m (k, v)) = if text_eqb k' k then Some v else hm_get k' m).
  Lemma fold_put kvs : forall m, I m -> I (fold_left put kvs m) /\
    forall k, hm_get k (fold_left put kvs m) = match hm_get k (rev kvs) with Some v => Some v | None => hm_get k m end.
  Proof.
    induction kvs as [|[k v] kvs IH]; intros m Hm; [split; [exact Hm|reflexivity]|]. cbn [fold_left rev].
    destruct (IH (put m (k, v)) (Hput _ _ Hm)) as [H1 H2]. split; [exact H1|]. intros k'. rewrite H2, Hget by exact Hm.
    assert (Ha : hm_get k' (rev kvs ++ [(k, v)]) = match hm_get k' (rev kvs) with Some x => Some x | None => if text_eqb k' k then Some v else None end).
    { clear. induction (rev kvs) as [|[a b] r IHr]; cbn [app hm_get]; [destruct (text_eqb k' k); reflexivity|]. destruct (text_eqb k' a); [reflexivity|exact IHr]. }
    rewrite Ha. destruct (hm_get k' (rev kvs)); [reflexivity|]. destruct (text_eqb k' k); reflexivity.
  Qed.
  Lemma fold_last_values kvs : I [] -> last_values kvs (fold_left put kvs []).
  Proof.
    intros H0. destruct (fold_put kvs [] H0) as [H1 H2]. assert (W := Hwf _ H1). split; [exact W|]. intros k v.
    rewrite <- (hm_get_in k v _ W), H2, last_value_rev. destruct (hm_get k (rev kvs)); [reflexivity|]. cbn. split; discriminate.
  Qed.
End Fold.

(** ** preserve_order *)
Lemma insert_keys_eq {V} k (v : V) m : map fst (hm_insert k v m) = map fst m ++ (if existsb (text_eqb k) (map fst m) then [] else [k]).
Proof.
  induction m as [|[k' v'] m IH]; [reflexivity|]. cbn [hm_insert map fst existsb]. destruct (text_eqb k k') eqn:E; cbn [orb map fst app].
  - apply text_eqb_eq in E. subst. rewrite app_nil_r. reflexivity.
  - rewrite IH. reflexivity.
Qed.
Definition fresh (ks : list text) (k : text) : bool := negb (existsb (text_eqb k) ks).
Lemma filter_filter {A} (f g : A -> bool) l : filter f (filter g l) = filter (fun x => g x && f x) l.
Proof. induction l as [|x l IH]; [reflexivity|]. cbn. destruct (g x); cbn; [destruct (f x); rewrite IH; reflexivity|exact IH]. Qed.
Lemma text_eqb_sym a b : text_eqb a b = text_eqb b a.
Proof. destruct (text_eqb a b) eqn:E; symmetry; [apply text_eqb_eq in E; subst; apply text_eqb_refl|]. apply text_eqb_neq in E. apply text_eqb_neq. congruence. Qed.
Lemma fold_insert_keys {V} (kvs : list (text * V)) : forall m,
  map fst (fold_left (fun m kv => hm_insert (fst kv) (snd kv) m) kvs m) = map fst m ++ filter (fresh (map fst m)) (firsts (map fst kvs)).
Proof.
  induction kvs as [|[k v] kvs IH]; intros m; [cbn; rewrite app_nil_r; reflexivity|]. cbn [fold_left map fst snd firsts filter].
  rewrite IH, insert_keys_eq, <- app_assoc. f_equal. rewrite filter_filter. unfold fresh at 2.
  destruct (existsb (text_eqb k) (map fst m)) eqn:E; cbn [negb app].
  - rewrite app_nil_r. apply filter_ext_in. intros x _. unfold fresh. destruct (text_eqb x k) eqn:Ex; [|reflexivity].
    apply text_eqb_eq in Ex. subst. rewrite E. reflexivity.
  - f_equal. apply filter_ext_in. intros x _. unfold fresh. rewrite existsb_app. cbn [existsb]. rewrite orb_false_r, negb_orb. apply andb_comm.
Qed.
Lemma firsts_in k ks : In k (firsts ks) <-> In k ks.
Proof.
  induction ks as [|x ks IH]; [reflexivity|]. cbn [firsts In]. rewrite filter_In, IH. destruct (text_eqb k x) eqn:E.
  - apply text_eqb_eq in E. subst. cbn. intuition.
  - cbn. intuition.
Qed.
Lemma firsts_nodup ks : NoDup ks -> firsts ks = ks.
Proof.
  induction 1 as [|k ks Hk H IH]; [reflexivity|]. cbn [firsts]. rewrite IH. f_equal.
  assert (G : forall l, ~ In k l -> filter (fun x => negb (text_eqb x k)) l = l).
  { clear. induction l as [|x l IH]; intros H; [reflexivity|]. cbn in *. destruct (text_eqb x k) eqn:E; [apply text_eqb_eq in E; subst; tauto|]. cbn. rewrite IH by tauto. reflexivity. }
  apply G. exact Hk.
Qed.

(** ** BTreeMap *)
Lemma text_ltb_lex a b : text_ltb a b = true <-> lex_lt a b.
Proof.
  revert b. induction a as [|x a IH]; intros [|y b]; cbn [text_ltb]; split; intros H; try discriminate; try reflexivity; try (inversion H; fail); try (apply lex_nil).
  - destruct (N.eqb_spec x y) as [->|Hn]; [apply lex_tail, IH, H|]. apply lex_head, N.ltb_lt, H.
  - inversion H as [|? ? ? ? Hl|? ? ? Hl]; subst.
    + destruct (N.eqb_spec x y); [lia|]. apply N.ltb_lt. exact Hl.
    + rewrite N.eqb_refl. apply IH. exact Hl.
Qed.
Lemma lex_trans a b c : lex_lt a b -> lex_lt b c -> lex_lt a c.
Proof.
  intros H. revert c. induction H as [x t|x y s t Hl|x s t Hl IH]; intros c H2; inversion H2; subst;
    first [apply lex_nil|apply lex_head; lia|apply lex_tail; apply IH; assumption].
Qed.
Lemma lex_irrefl a : ~ lex_lt a a.
Proof. induction a as [|x a IH]; intros H; inversion H; subst; [lia|auto]. Qed.
Lemma lex_total a b : a = b \/ lex_lt a b \/ lex_lt b a.
Proof.
  revert b. induction a as [|x a IH]; intros [|y b]; auto; try (right; left; constructor; fail); try (right; right; constructor; fail).
  destruct (N.lt_trichotomy x y) as [H|[->|H]].
  - right. left. apply lex_head. exact H.
  - destruct (IH b) as [->|[H|H]]; [auto|right; left|right; right]; apply lex_tail; exact H.
  - right. right. apply lex_head. exact H.
Qed.
Definition sorted_keys {V} (m : list (text * V)) : Prop := StronglySorted lex_lt (map fst m).
Lemma bt_keys {V} k (v : V) m x : In x (map fst (bt_insert k v m)) <-> x = k \/ In x (map fst m).
Proof.
  induction m as [|[k' v'] m IH]; [cbn; intuition|]. cbn [bt_insert]. destruct (text_ltb k k'); [cbn; intuition|].
  destruct (text_eqb k k') eqn:E; [apply text_eqb_eq in E; subst; cbn; intuition|]. cbn [map fst In]. rewrite IH. intuition.
Qed.
Lemma bt_sorted {V} k (v : V) m : sorted_keys m -> sorted_keys (bt_insert k v m).
Proof.
  unfold sorted_keys. induction m as [|[k' v'] m IH]; intros H; [repeat constructor|]. cbn [map fst] in H. apply StronglySorted_inv in H as [H1 H2].
  cbn [bt_insert]. destruct (text_ltb k k') eqn:El.
  - apply text_ltb_lex in El. cbn [map fst]. constructor; [constructor; assumption|]. constructor; [exact El|].
    eapply Forall_impl; [|exact H2]. intros z Hz. eapply lex_trans; eassumption.
  - destruct (text_eqb k k') eqn:E; cbn [map fst]; [constructor; assumption|].
    constructor; [apply IH; exact H1|]. apply Forall_forall. intros z Hz. apply bt_keys in Hz as [->|Hz].
    + destruct (lex_total k k') as [->|[Hl|Hl]]; [rewrite text_eqb_refl in E; discriminate|apply text_ltb_lex in Hl; congruence|exact Hl].
    + rewrite Forall_forall in H2. apply H2. exact Hz.
Qed.
Lemma sorted_wf {V} (m : list (text * V)) : sorted_keys m -> hm_wf m.
Proof.
  unfold sorted_keys, hm_wf. intros H. induction H as [|k ks H IH Hf]; constructor; [|exact IH].
  intros Hi. rewrite Forall_forall in Hf. apply (lex_irrefl k). apply Hf. exact Hi.
Qed.
Lemma bt_get {V} k (v : V) m k' : hm_get k' (bt_insert k v m) = if text_eqb k' k then Some v else hm_get k' m.
Proof.
  induction m as [|[a b] m IH]; [reflexivity|]. cbn [bt_insert]. destruct (text_ltb k a); [reflexivity|]. destruct (text_eqb k a) eqn:E.
  - apply text_eqb_eq in E. subst a. cbn. destruct (text_eqb k' k); reflexivity.
  - cbn [hm_get]. rewrite IH. destruct (text_eqb k' a) eqn:E2; [|reflexivity]. apply text_eqb_eq in E2. subst a. rewrite text_eqb_sym, E. reflexivity.
Qed.
Lemma serde_last_values po kvs : last_values kvs (serde_object po kvs).
Proof.
  unfold serde_object. destruct po.
  - apply (fold_last_values (fun m kv => hm_insert (fst kv) (snd kv) m) hm_wf); [auto|intros; apply hm_insert_wf; assumption|intros; apply hm_get_insert|constructor].
  - apply (fold_last_values (fun m kv => bt_insert (fst kv) (snd kv) m) sorted_keys); [intros; apply sorted_wf; assumption|intros; apply bt_sorted; assumption|intros; apply bt_get|constructor].
Qed.
Lemma serde_preserves kvs : map fst (serde_object true kvs) = firsts (map fst kvs).
Proof.
  unfold serde_object. rewrite fold_insert_keys. cbn [map app]. assert (G : forall l, filter (fresh []) l = l).
  { induction l as [|x l IH]; [reflexivity|]. cbn. rewrite IH. reflexivity. }
  apply G.
Qed.
Lemma serde_sorts kvs : StronglySorted lex_lt (map fst (serde_object false kvs)).
Proof.
  unfold serde_object. assert (G : forall m, sorted_keys m -> sorted_keys (fold_left (fun m kv => bt_insert (fst kv) (snd kv) m) kvs m)).
  { induction kvs as [|kv kvs IH]; intros m Hm; [exact Hm|]. cbn [fold_left]. apply IH, bt_sorted, Hm. }
  apply G. constructor.
Qed.

(** ** JavaScript *)
Lemma array_index_iff k n : array_index k = Some n <-> is_index n k.
Proof.
  unfold array_index, is_index. split.
  - destruct (all_digits k) eqn:E; [|discriminate]. destruct ((digits_value k <? 2 ^ 32 - 1) && text_eqb (dec_text (digits_value k)) k) eqn:E2; [|discriminate].
    intros H. injection H as <-. apply andb_prop in E2 as [H1 H2]. apply N.ltb_lt in H1. apply text_eqb_eq in H2. auto.
  - intros [-> Hn]. destruct (dec_text_spec n) as (H1&H2&H3). unfold all_digits. destruct (dec_text n) eqn:E; [congruence|]. rewrite <- E in *. rewrite H2, H3, text_eqb_refl.
    apply N.ltb_lt in Hn. rewrite Hn. reflexivity.
Qed.
Lemma array_index_none k : array_index k = None <-> forall n, ~ is_index n k.
Proof.
  destruct (array_index k) as [n|] eqn:E; split; intros H; try discriminate; try reflexivity.
  - apply array_index_iff in E. exfalso. eapply H; exact E.
  - intros n Hn. apply array_index_iff in Hn. congruence.
Qed.
Lemma index_inj n k k' : is_index n k -> is_index n k' -> k = k'.
Proof. intros [-> _] [-> _]. reflexivity. Qed.
Lemma index_fun n m k : is_index n k -> is_index m k -> n = m.
Proof. intros H1 H2. apply array_index_iff in H1, H2. congruence. Qed.
Definition keep_other (k : text) : bool := match array_index k with Some _ => false | None => true end.
Lemma keep_other_iff k : keep_other k = false <-> exists n, is_index n k.
Proof.
  unfold keep_other. destruct (array_index k) as [n|] eqn:E; split; intros H; try reflexivity; try discriminate.
  - exists n. apply array_index_iff. exact E.
  - destruct H as [n Hn]. apply array_index_iff in Hn. congruence.
Qed.
(** The entries of an object: indices first, sorted. *)
Definition js_wf (m : list (text * json)) : Prop :=
  exists a b, m = a ++ b /\ StronglySorted index_lt (map fst a) /\ Forall (fun k => keep_other k = false) (map fst a) /\ Forall (fun k => keep_other k = true) (map fst b) /\ hm_wf b.
Lemma index_lt_trans a b c : index_lt a b -> index_lt b c -> index_lt a c.
Proof. intros (n&m&H1&H2&H3) (m'&p&H4&H5&H6). assert (m = m') by (eapply index_fun; eassumption). subst m'. exists n, p. split; [exact H1|]. split; [exact H5|lia]. Qed.
Lemma index_lt_irrefl a : ~ index_lt a a.
Proof. intros (n&m&H1&H2&H3). assert (n = m) by (eapply index_fun; eassumption). lia. Qed.
Lemma sorted_idx_nodup ks : StronglySorted index_lt ks -> NoDup ks.
Proof. induction 1 as [|k ks H IH Hf]; constructor; [|exact IH]. intros Hi. rewrite Forall_forall in Hf. apply (index_lt_irrefl k). auto. Qed.
Lemma js_wf_wf m : js_wf m -> hm_wf m.
Proof.
  intros (a&b&->&H1&H2&H3&H4). unfold hm_wf in *. rewrite map_app. apply sorted_idx_nodup in H1.
  rewrite Forall_forall in H2, H3. revert H1 H2. generalize (map fst a). clear - H3 H4. induction l as [|k l IH]; intros H1 H2; [exact H4|].
  inversion H1 as [|? ? Hk Hl]; subst. cbn [app]. constructor; [|apply IH; [exact Hl|intros x Hx; apply H2; right; exact Hx]].
  rewrite in_app_iff. intros [H|H]; [contradiction|]. apply H3 in H. specialize (H2 k (or_introl eq_refl)). congruence.
Qed.
Lemma index_insert_wf n k v : is_index n k -> forall a b, StronglySorted index_lt (map fst a) -> Forall (fun k => keep_other k = false) (map fst a) ->
  Forall (fun k => keep_other k = true) (map fst b) ->
  exists a', index_insert n k v (a ++ b) = a' ++ b /\ StronglySorted index_lt (map fst a') /\ (forall x, In x (map fst a') <-> x = k \/ In x (map fst a)).
Proof.
  intros Hk. induction a as [|[k1 v1] a IH]; intros b H1 H2 H3.
  - cbn [app]. exists [(k, v)]. split; [|split; [repeat constructor|cbn; intuition]]. destruct b as [|[k' v'] b]; [reflexivity|]. cbn [index_insert].
    inversion H3 as [|? ? Hx _]; subst. cbn [fst] in Hx. unfold keep_other in Hx. destruct (array_index k'); [discriminate|reflexivity].
  - cbn [map fst] in *. apply StronglySorted_inv in H1 as [H1 Hf]. inversion H2 as [|? ? Hx H2']; subst. apply keep_other_iff in Hx as [n1 Hn1].
    cbn [app index_insert]. assert (E := proj2 (array_index_iff k1 n1) Hn1). rewrite E. destruct (N.ltb_spec n n1) as [Hl|Hl].
    + exists ((k, v) :: (k1, v1) :: a). split; [reflexivity|]. split; [|cbn; intuition]. cbn [map fst]. constructor; [constructor; assumption|].
      assert (Hkk : index_lt k k1) by (exists n, n1; auto). constructor; [exact Hkk|]. eapply Forall_impl; [|exact Hf]. intros z Hz. eapply index_lt_trans; eassumption.
    + destruct (N.eqb_spec n n1) as [->|Hne].
      * assert (k = k1) by (eapply index_inj; eassumption). subst k1. exists ((k, v) :: a). split; [reflexivity|]. split; [cbn [map fst]; constructor; assumption|cbn; intuition].
      * destruct (IH b H1 H2' H3) as (a'&E'&S'&I'). rewrite E'. exists ((k1, v1) :: a'). split; [reflexivity|]. split.
        -- cbn [map fst]. constructor; [exact S'|]. apply Forall_forall. intros x Hx. apply I' in Hx as [->|Hx]; [exists n1, n; repeat split; try apply Hn1; try apply Hk; lia|].
           rewrite Forall_forall in Hf. apply Hf. exact Hx.
        -- intros x. cbn [map fst In]. rewrite I'. intuition.
Qed.
Lemma hm_insert_app k (v : json) a b : ~ In k (map fst a) -> hm_insert k v (a ++ b) = a ++ hm_insert k v b.
Proof.
  induction a as [|[k1 v1] a IH]; intros H; [reflexivity|]. cbn in H |- *. destruct (text_eqb k k1) eqn:E; [apply text_eqb_eq in E; subst; tauto|].
  rewrite IH by tauto. reflexivity.
Qed.
Lemma js_put_wf m kv : js_wf m -> js_wf (js_put m kv).
Proof.
  intros (a&b&->&H1&H2&H3&H4). destruct kv as [k v]. unfold js_put. cbn [fst snd]. destruct (array_index k) as [n|] eqn:E.
  - apply array_index_iff in E. destruct (index_insert_wf n k v E a b H1 H2 H3) as (a'&E'&S'&I'). exists a', b. split; [exact E'|]. split; [exact S'|]. split; [|auto].
    apply Forall_forall. intros x Hx. apply I' in Hx as [->|Hx]; [apply keep_other_iff; eauto|]. rewrite Forall_forall in H2. auto.
  - assert (Hk : keep_other k = true) by (unfold keep_other; rewrite E; reflexivity).
    rewrite hm_insert_app by (intros Hi; rewrite Forall_forall in H2; apply H2 in Hi; congruence).
    exists a, (hm_insert k v b). split; [reflexivity|]. split; [exact H1|]. split; [exact H2|]. split; [|apply hm_insert_wf; exact H4].
    apply Forall_forall. intros x Hx. apply hm_insert_keys in Hx as [->|Hx]; [exact Hk|]. rewrite Forall_forall in H3. auto.
Qed.
Lemma index_insert_get n k v : is_index n k -> forall m k', hm_get k' (index_insert n k v m) = if text_eqb k' k then Some v else hm_get k' m.
Proof.
  intros Hk. induction m as [|[k1 v1] m IH]; intros k'; [reflexivity|]. cbn [index_insert].
  destruct (array_index k1) as [n1|] eqn:E1; [|reflexivity]. destruct (n <? n1); [reflexivity|]. apply array_index_iff in E1. destruct (N.eqb_spec n n1) as [->|Hne].
  - assert (k = k1) by (eapply index_inj; eassumption). subst k1. cbn. destruct (text_eqb k' k); reflexivity.
  - cbn [hm_get]. rewrite IH. destruct (text_eqb k' k1) eqn:E2; [|reflexivity]. apply text_eqb_eq in E2. subst k1.
    destruct (text_eqb k' k) eqn:E3; [|reflexivity]. apply text_eqb_eq in E3. subst k'. exfalso. apply Hne. eapply index_fun; eassumption.
Qed.
Lemma js_put_get m k v k' : js_wf m -> hm_get k' (js_put m (k, v)) = if text_eqb k' k then Some v else hm_get k' m.
Proof.
  intros _. unfold js_put. cbn [fst snd]. destruct (array_index k) as [n|] eqn:E; [apply array_index_iff in E; apply (index_insert_get n k v E)|apply hm_get_insert].
Qed.
Lemma js_wf_nil : js_wf [].
Proof. exists [], []. repeat (split; [constructor|]). constructor. Qed.
Lemma js_last_values kvs : last_values kvs (js_object kvs).
Proof. apply (fold_last_values js_put js_wf js_wf_wf js_put_wf js_put_get). apply js_wf_nil. Qed.
(** The keys that are no indices stay in their order. *)
Lemma js_put_others m k v : js_wf m -> filter keep_other (map fst (js_put m (k, v))) =
  filter keep_other (map fst m) ++ (if keep_other k then if existsb (text_eqb k) (map fst m) then [] else [k] else []).
Proof.
  intros Hm. unfold js_put. cbn [fst snd]. destruct (array_index k) as [n|] eqn:E.
  - assert (Ek : keep_other k = false) by (unfold keep_other; rewrite E; reflexivity). rewrite Ek, app_nil_r. apply array_index_iff in E.
    destruct Hm as (a&b&->&H1&H2&H3&_). destruct (index_insert_wf n k v E a b H1 H2 H3) as (a'&E'&S'&I'). rewrite E', !map_app, !filter_app. f_equal.
    assert (G : forall l, Forall (fun k => keep_other k = false) l -> filter keep_other l = []) by (induction 1 as [|x l Hx _ IH]; [reflexivity|cbn; rewrite Hx; exact IH]).
    rewrite G, G; [reflexivity|exact H2|]. apply Forall_forall. intros x Hx. apply I' in Hx as [->|Hx]; [exact Ek|]. rewrite Forall_forall in H2. auto.
  - assert (Ek : keep_other k = true) by (unfold keep_other; rewrite E; reflexivity). rewrite Ek, insert_keys_eq, filter_app. f_equal.
    destruct (existsb (text_eqb k) (map fst m)); cbn; [reflexivity|]. rewrite Ek. reflexivity.
Qed.
Lemma js_fold_others kvs : forall m, js_wf m -> filter keep_other (map fst (fold_left js_put kvs m)) =
  filter keep_other (map fst m) ++ filter (fun k => keep_other k && fresh (map fst m) k) (firsts (map fst kvs)).
Proof.
  induction kvs as [|[k v] kvs IH]; intros m Hm; [cbn; rewrite app_nil_r; reflexivity|]. cbn [fold_left map fst firsts filter].
  rewrite IH by (apply js_put_wf; exact Hm). rewrite js_put_others by exact Hm. rewrite <- app_assoc. f_equal. rewrite filter_filter.
  assert (Hf : forall x, keep_other x = true -> fresh (map fst (js_put m (k, v))) x = negb (text_eqb x k) && fresh (map fst m) x).
  { intros x _. unfold fresh. rewrite <- negb_orb. f_equal.
    assert (G : forall (m : list (text * json)) x, existsb (text_eqb x) (map fst m) = match hm_get x m with Some _ => true | None => false end).
    { clear. induction m as [|[a b] m IH]; intros x; [reflexivity|]. cbn. destruct (text_eqb x a); [reflexivity|apply IH]. }
    rewrite !G, js_put_get by exact Hm. destruct (text_eqb x k); reflexivity. }
  destruct (keep_other k) eqn:Ek; cbn [andb].
  - assert (Efk : fresh (map fst m) k = negb (existsb (text_eqb k) (map fst m))) by reflexivity. rewrite Efk.
    destruct (existsb (text_eqb k) (map fst m)) eqn:Ex; cbn [negb app].
    + apply filter_ext_in. intros x _. destruct (keep_other x) eqn:Kx; cbn [andb]; [|rewrite andb_false_r; reflexivity]. rewrite Hf by exact Kx. reflexivity.
    + f_equal. apply filter_ext_in. intros x _. destruct (keep_other x) eqn:Kx; cbn [andb]; [|rewrite andb_false_r; reflexivity]. rewrite Hf by exact Kx. reflexivity.
  - cbn [app]. apply filter_ext_in. intros x _. destruct (keep_other x) eqn:Kx; cbn [andb]; [|rewrite andb_false_r; reflexivity]. rewrite Hf by exact Kx. reflexivity.
Qed.
Lemma js_order kvs : property_order (map fst kvs) (map fst (js_object kvs)).
Proof.
  assert (W : js_wf (js_object kvs)) by (apply (fold_put js_put js_wf js_put_wf js_put_get kvs [] js_wf_nil)).
  assert (O := js_fold_others kvs [] js_wf_nil). fold (js_object kvs) in O. cbn [map filter app] in O.
  destruct (js_last_values kvs) as [Hnd Hin].
  assert (K : forall k, In k (map fst kvs) <-> In k (map fst (js_object kvs))).
  { intros k. split; intros H.
    - apply in_map_iff in H as ([k' v]&<-&H). cbn [fst]. destruct (hm_get k' (rev kvs)) as [v'|] eqn:E.
      + apply last_value_rev in E. apply Hin in E. apply in_map_iff. exists (k', v'). auto.
      + apply hm_get_none in E. exfalso. apply E. rewrite map_rev, <- in_rev. apply in_map_iff. exists (k', v). auto.
    - apply in_map_iff in H as ([k' v]&<-&H). apply Hin in H as (a&b&->&_). cbn [fst]. rewrite map_app. apply in_or_app. right. left. reflexivity. }
  destruct W as (a&b&E&H1&H2&H3&_). rewrite E in *. rewrite map_app in *. exists (map fst a), (map fst b). split; [reflexivity|]. split; [exact H1|].
  rewrite Forall_forall in H2, H3. split; [intros k Hk; apply keep_other_iff; auto|]. split.
  { intros k n Hk Hi. apply H3 in Hk. assert (keep_other k = false) by (apply keep_other_iff; eauto). congruence. }
  split; [exact K|]. exists keep_other. split; [apply keep_other_iff|].
  rewrite filter_app in O.
  assert (G1 : filter keep_other (map fst a) = []).
  { revert H2. clear. induction (map fst a) as [|x l IH]; intros H; [reflexivity|]. cbn. rewrite (H x (or_introl eq_refl)). apply IH. intros; apply H; right; assumption. }
  assert (G2 : filter keep_other (map fst b) = map fst b).
  { revert H3. clear. induction (map fst b) as [|x l IH]; intros H; [reflexivity|]. cbn. rewrite (H x (or_introl eq_refl)). f_equal. apply IH. intros; apply H; right; assumption. }
  rewrite G1, G2 in O. cbn [app] in O. rewrite O. apply filter_ext. intros x. unfold fresh. cbn. apply andb_true_r.
Qed.
(** An object in property order stays as it is. *)
Lemma index_insert_end n k v : is_index n k -> forall a, (forall x, In x (map fst a) -> index_lt x k) -> index_insert n k v a = a ++ [(k, v)].
Proof.
  intros Hk. induction a as [|[k1 v1] a IH]; intros H; [reflexivity|]. cbn [index_insert app]. destruct (H k1 (or_introl eq_refl)) as (n1&n'&I1&I2&Hl).
  assert (n' = n) by (eapply index_fun; eassumption). subst n'. rewrite (proj2 (array_index_iff k1 n1) I1).
  destruct (N.ltb_spec n n1); [lia|]. destruct (N.eqb_spec n n1); [lia|]. rewrite IH; [reflexivity|]. intros x Hx. apply H. right. exact Hx.
Qed.
Lemma hm_insert_end k (v : json) a : ~ In k (map fst a) -> hm_insert k v a = a ++ [(k, v)].
Proof. intros H. rewrite <- (app_nil_r a) at 1. rewrite hm_insert_app by exact H. reflexivity. Qed.
Lemma js_object_id kvs : NoDup (map fst kvs) -> property_order (map fst kvs) (map fst kvs) -> js_object kvs = kvs.
Proof.
  intros Hnd (idx&others&E&H1&H2&H3&_). assert (exists a b, kvs = a ++ b /\ map fst a = idx /\ map fst b = others) as (a&b&->&<-&<-).
  { clear - E. revert kvs E. induction idx as [|k idx IH]; intros kvs E; [exists [], kvs; auto|]. destruct kvs as [|[k' v'] kvs]; [discriminate|]. cbn in E. injection E as -> E.
    destruct (IH _ E) as (a&b&->&<-&<-). exists ((k, v') :: a), b. auto. }
  clear E. unfold js_object. rewrite fold_left_app. rewrite map_app in Hnd.
  assert (Ga : forall a m, StronglySorted index_lt (map fst (m ++ a)) -> (forall k, In k (map fst a) -> exists n, is_index n k) -> fold_left js_put a m = m ++ a).
  { clear. induction a as [|[k v] a IH]; intros m Hs Hi; [cbn; rewrite app_nil_r; reflexivity|]. cbn [fold_left].
    destruct (Hi k (or_introl eq_refl)) as [n Hn]. unfold js_put at 2. cbn [fst snd]. rewrite (proj2 (array_index_iff k n) Hn).
    rewrite (index_insert_end n k v Hn).
    - rewrite IH; [rewrite <- app_assoc; reflexivity|rewrite <- app_assoc; exact Hs|intros; apply Hi; right; assumption].
    - rewrite map_app in Hs. revert Hs. clear. cbn [map fst]. generalize (map fst m). induction l as [|y l IH]; intros Hs x Hx; [contradiction|].
      cbn [app] in Hs. apply StronglySorted_inv in Hs as [Hs Hf]. destruct Hx as [->|Hx]; [|apply IH; assumption].
      rewrite Forall_forall in Hf. apply Hf. apply in_or_app. right. left. reflexivity. }
  rewrite (Ga a [] H1 H2). cbn [app].
  assert (Gb : forall b m, NoDup (map fst (m ++ b)) -> (forall k n, In k (map fst b) -> ~ is_index n k) -> fold_left js_put b m = m ++ b).
  { clear. induction b as [|[k v] b IH]; intros m Hn Hi; [cbn; rewrite app_nil_r; reflexivity|]. cbn [fold_left].
    assert (En : array_index k = None) by (apply array_index_none; intros n; apply Hi; left; reflexivity). unfold js_put at 2. cbn [fst snd]. rewrite En.
    rewrite hm_insert_end.
    - rewrite IH; [rewrite <- app_assoc; reflexivity|rewrite <- app_assoc; exact Hn|intros; apply Hi; right; assumption].
    - rewrite map_app in Hn. cbn [map fst] in Hn. apply NoDup_remove_2 in Hn. intros H. apply Hn. apply in_or_app. auto. }
  apply Gb; [rewrite map_app; exact Hnd|exact H3].
Qed.
Lemma serde_object_id kvs : NoDup (map fst kvs) -> serde_object true kvs = kvs.
Proof.
  intros Hnd. unfold serde_object.
  assert (Gb : forall b m : list (text * json), NoDup (map fst (m ++ b)) -> fold_left (fun m kv => hm_insert (fst kv) (snd kv) m) b m = m ++ b).
  { clear. induction b as [|[k v] b IH]; intros m Hn; [cbn; rewrite app_nil_r; reflexivity|]. cbn [fold_left fst snd].
    rewrite hm_insert_end.
    - rewrite IH; [rewrite <- app_assoc; reflexivity|rewrite <- app_assoc; exact Hn].
    - rewrite map_app in Hn. cbn [map fst] in Hn. apply NoDup_remove_2 in Hn. intros H. apply Hn. apply in_or_app. auto. }
  apply (Gb kvs []). exact Hnd.
Qed.
