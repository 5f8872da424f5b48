(** The JSON readers of SerialJson.v accept exactly what SpecSerialJson.v says. *)
From Coq Require Import List Bool Arith NArith ZArith Lia.
From Coq Require Import Strings.String Strings.Byte.
From Verif Require Import Res Bytes R1cs R1csFacts Text Inputs InputsFacts Serial SpecSerial SpecJson JsonText JsonFacts JsonMore JsonObj SerialJson SpecSerialJson.
Import ListNotations.
Local Open Scope N_scope.

Definition reads {A} (f : json -> option A) (says : json -> A -> Prop) : Prop := forall v a, f v = Some a <-> says v a.
(** The same up to the order of maps. *)
Definition reads_upto {A} (same : A -> A -> Prop) (f : json -> option A) (says : json -> A -> Prop) : Prop :=
  (forall v a, f v = Some a -> says v a) /\ (forall v a, says v a -> exists a', f v = Some a' /\ same a a').

Lemma obind_iff {A B} (o : option A) (f : A -> option B) b : obind o f = Some b <-> exists a, o = Some a /\ f a = Some b.
Proof. destruct o; cbn; split; [eauto|intros (?&[= ->]&H); exact H|discriminate|intros (?&[=]&_)]. Qed.
Lemma omap_iff {A B} (f : A -> option B) l l' : omap f l = Some l' <-> Forall2 (fun x y => f x = Some y) l l'.
Proof.
  revert l'. induction l as [|x l IH]; intros l'; cbn [omap].
  - split; [intros [= <-]; constructor|intros H; inversion H; reflexivity].
  - rewrite obind_iff. split.
    + intros (y&Hy&H). apply obind_iff in H as (ys&Hys&[= <-]). constructor; [exact Hy|apply IH; exact Hys].
    + intros H. inversion H as [|? y ? ys Hy Hys]; subst. exists y. split; [exact Hy|]. apply IH in Hys. rewrite Hys. reflexivity.
Qed.
Lemma Forall2_iff {A B} (P Q : A -> B -> Prop) l l' : (forall x y, P x y <-> Q x y) -> (Forall2 P l l' <-> Forall2 Q l l').
Proof. intros H. split; intros G; induction G; constructor; auto; apply H; assumption. Qed.
Lemma reads_list {A} (f : json -> option A) says : reads f says -> reads (r_list f) (says_list says).
Proof.
  intros H v l. unfold r_list, says_list. destruct v; try (split; [discriminate|intros (?&[=]&_)]).
  rewrite omap_iff, (Forall2_iff _ says _ _ H). split; [intros G; eauto|intros (?&[= <-]&G); exact G].
Qed.
Lemma reads_uint b : reads (r_uint b) (fun v n => v = JInt (Z.of_N n) /\ n < b).
Proof.
  intros v n. unfold r_uint. destruct v; try (split; [discriminate|intros ([=]&_)]).
  destruct (Z.leb_spec 0 z), (Z.ltb_spec z (Z.of_N b)); cbn [andb]; (split; [|intros [[= ->] Hb]]); try discriminate; try lia.
  - intros [= <-]. split; [f_equal|]; lia.
  - f_equal. lia.
Qed.
Lemma reads_u32 : reads r_u32 says_u32.
Proof. apply reads_uint. Qed.
Lemma reads_byte : reads r_byte says_byte.
Proof.
  intros v b. unfold r_byte, says_byte. destruct (r_uint 256 v) as [n|] eqn:E; cbn [option_map].
  - apply reads_uint in E as [-> Hn]. split.
    + intros [= <-]. rewrite to_N_byte_of, N.mod_small by exact Hn. reflexivity.
    + intros [= H]. apply N2Z.inj in H. subst n. rewrite byte_of_to_N. reflexivity.
  - split; [discriminate|]. intros ->. rewrite (proj2 (reads_uint 256 _ (Byte.to_N b))) in E; [discriminate|].
    split; [reflexivity|]. pose proof (Byte.to_N_bounded b). lia.
Qed.
Lemma reads_bytes : reads (r_list r_byte) says_bytes.
Proof. apply reads_list, reads_byte. Qed.
Lemma reads_text : reads r_str says_text.
Proof. intros v t. unfold r_str, says_text. destruct v; split; congruence. Qed.
Lemma member_iff kvs n o : (count_key n kvs <= 1)%nat /\ hm_get n kvs = o <-> the_member kvs n o.
Proof.
  assert (Z : forall l : list (text * json), count_key n l = 0%nat <-> ~ In n (map fst l)).
  { induction l as [|[k v] l IH]; [cbn; tauto|]. unfold count_key in *. cbn [filter map fst]. destruct (text_eqb k n) eqn:E.
    - apply text_eqb_eq in E. subst k. cbn [List.length]. split; [discriminate|]. intros H. exfalso. apply H. left. reflexivity.
    - rewrite IH. cbn [In]. split; [|tauto]. intros H [->|H']; [rewrite text_eqb_refl in E; discriminate|tauto]. }
  unfold the_member. revert o. induction kvs as [|[k v] kvs IH]; intros o.
  - cbn. destruct o as [v|]; (split; [intros [_ G]; try discriminate; tauto|]); [intros (a&b&H&_); destruct a; discriminate|]. intros _. split; [lia|reflexivity].
  - unfold count_key in *. cbn [filter map fst hm_get]. destruct (text_eqb k n) eqn:E.
    + apply text_eqb_eq in E. subst k. rewrite text_eqb_refl. cbn [List.length]. split.
      * intros [Hc <-]. exists [], kvs. split; [reflexivity|]. apply Z. apply Nat.le_0_r, le_S_n. exact Hc.
      * destruct o as [w|]; [|intros H; exfalso; apply H; left; reflexivity].
        intros (a&b&H&Hn). destruct a as [|[k' v'] a].
        -- injection H as -> ->. split; [|reflexivity]. apply Z in Hn. unfold count_key in Hn. cbn [app] in Hn. apply le_n_S, Nat.eq_le_incl. exact Hn.
        -- injection H as <- _ _. exfalso. apply Hn. left. reflexivity.
    + assert (E' : text_eqb n k = false).
      { destruct (text_eqb n k) eqn:E'; [|reflexivity]. apply text_eqb_eq in E'. subst k. rewrite text_eqb_refl in E. discriminate. }
      rewrite E', IH. destruct o as [w|].
      * split.
        -- intros (a&b&->&Hn). exists ((k, v) :: a), b. split; [reflexivity|]. cbn. intros [->|H]; [rewrite text_eqb_refl in E; discriminate|exact (Hn H)].
        -- intros (a&b&H&Hn). destruct a as [|[k' v'] a]; [injection H as -> _ _; rewrite text_eqb_refl in E; discriminate|].
           injection H as -> -> ->. exists a, b. split; [reflexivity|]. intros H. apply Hn. right. exact H.
      * cbn [In]. split; [|tauto]. intros H [->|H']; [rewrite text_eqb_refl in E; discriminate|tauto].
Qed.
Lemma fields_iff names v fields : fields_of names v = Some fields <-> says_fields names v fields.
Proof.
  unfold fields_of, says_fields. destruct v; try (split; [discriminate|intros [(?&[=]&_)|(?&[=]&_)]]).
  - destruct (Nat.eqb_spec (List.length l) (List.length names)) as [E|E].
    + split; [intros [= <-]; right; exists l; auto|]. intros [(?&[=]&_)|(l'&[= <-]&_&->)]. reflexivity.
    + split; [discriminate|]. intros [(?&[=]&_)|(l'&[= <-]&H&_)]. congruence.
  - assert (G : (if forallb (fun n => (count_key n l <=? 1)%nat) names then Some (map (fun n => hm_get n l) names) else None) = Some fields <->
      Forall2 (the_member l) names fields).
    { revert fields. induction names as [|n names IH]; intros fields.
      - cbn. split; [intros [= <-]; constructor|intros H; inversion H; reflexivity].
      - cbn [forallb map]. destruct (Nat.leb_spec (count_key n l) 1) as [Hc|Hc]; cbn [andb].
        + split.
          * destruct (forallb _ names) eqn:Ef; [|discriminate]. intros [= <-]. constructor; [apply member_iff; auto|]. apply IH. reflexivity.
          * intros H. inversion H as [|? o ? fs Ho Hf]; subst. apply IH in Hf. apply member_iff in Ho as [_ Ho].
            destruct (forallb _ names) eqn:Ef; [|discriminate]. injection Hf as <-. rewrite Ho. reflexivity.
        + split; [discriminate|]. intros H. inversion H as [|? o ? fs Ho Hf]; subst. apply member_iff in Ho as [Ho _]. lia. }
    rewrite G. split; [intros H; left; exists l; auto|]. intros [(kvs&[= <-]&H)|(?&[=]&_)]. exact H.
Qed.
Lemma need_iff {A} (f : json -> option A) says : reads f says -> forall o a, need f o = Some a <-> required says o a.
Proof. intros H o a. unfold need, required. rewrite obind_iff. split; intros (v&E&G); exists v; (split; [exact E|apply H; exact G]). Qed.
Lemma may_iff {A} (f : json -> option A) says : reads f says -> (forall a, ~ says JNull a) -> forall o a, may f o = Some a <-> optional says o a.
Proof.
  intros H Hn o a. unfold may, optional, r_opt, required. destruct o as [v|].
  - assert (D : v = JNull \/ v <> JNull) by (destruct v; (left; reflexivity) || (right; discriminate)). destruct D as [->|D].
    + destruct a as [a|]; split; auto; [discriminate|intros (v&[= <-]&G); destruct (Hn a G)].
    + replace (match v with JNull => Some None | _ => option_map Some (f v) end) with (option_map Some (f v)) by (destruct v; congruence || reflexivity).
      destruct a as [a|].
      * destruct (f v) as [x|] eqn:E; cbn [option_map].
        -- split; [intros [= ->]; exists v; split; [reflexivity|apply H; exact E]|]. intros (v'&[= <-]&G). apply H in G. congruence.
        -- split; [discriminate|]. intros (v'&[= <-]&G). apply H in G. congruence.
      * destruct (f v); cbn [option_map]; split; try discriminate; intros [G|G]; congruence.
  - destruct a as [a|]; split; auto; [discriminate|intros (v&[=]&_)].
Qed.
Lemma reads_factor : reads r_factor says_factor.
Proof.
  intros v f. unfold r_factor, says_factor. split.
  - destruct (fields_of _ v) as [[|w [|c [|]]]|] eqn:E; try discriminate. apply fields_iff in E. intros H.
    apply obind_iff in H as (x&Hx&H). apply obind_iff in H as (y&Hy&[= <-]). exists w, c. split; [exact E|].
    split; [apply (need_iff _ _ reads_u32); exact Hx|apply (need_iff _ _ reads_bytes); exact Hy].
  - intros (w&c&E&Hw&Hc). apply fields_iff in E. rewrite E. apply (need_iff _ _ reads_u32) in Hw. apply (need_iff _ _ reads_bytes) in Hc.
    rewrite Hw. cbn [obind]. rewrite Hc. cbn [obind]. destruct f. reflexivity.
Qed.
Lemma reads_lc : reads r_lc says_lc.
Proof.
  pose proof (need_iff _ _ (reads_list _ _ reads_factor)) as Hn. intros v f. unfold r_lc, says_lc. split.
  - destruct (fields_of _ v) as [[|w [|]]|] eqn:E; try discriminate. apply fields_iff in E. intros H.
    apply obind_iff in H as (x&Hx&[= <-]). exists w. split; [exact E|]. apply Hn. exact Hx.
  - intros (w&E&Hw). apply fields_iff in E. rewrite E. apply Hn in Hw. rewrite Hw. destruct f. reflexivity.
Qed.
Lemma reads_constraint : reads r_constraint says_constraint.
Proof.
  pose proof (need_iff _ _ reads_lc) as Hn. intros v f. unfold r_constraint, says_constraint. split.
  - destruct (fields_of _ v) as [[|a [|b [|c [|]]]]|] eqn:E; try discriminate. apply fields_iff in E. intros H.
    apply obind_iff in H as (x&Hx&H). apply obind_iff in H as (y&Hy&H). apply obind_iff in H as (z&Hz&[= <-]).
    exists a, b, c. split; [exact E|]. split; [apply Hn; exact Hx|]. split; [apply Hn; exact Hy|apply Hn; exact Hz].
  - intros (a&b&c&E&Ha&Hb&Hc). apply fields_iff in E. rewrite E. apply Hn in Ha, Hb, Hc. rewrite Ha, Hb, Hc. destruct f. reflexivity.
Qed.

(** Maps. *)
Lemma key_iff k n : r_key k = Some n <-> says_key k n.
Proof.
  unfold r_key, says_key. split.
  - destruct (all_digits k && _ && _) eqn:E; [|discriminate]. intros [= <-]. apply andb_prop in E as [E Hn]. apply andb_prop in E as [E1 E2].
    apply text_eqb_eq in E2. apply N.ltb_lt in Hn. split; [rewrite <- E2; apply dec_int_part|]. auto.
  - intros (H1&->&Hn). rewrite (int_part_all k H1), (int_part_canonical k H1), text_eqb_refl. apply N.ltb_lt in Hn. rewrite Hn. reflexivity.
Qed.
Lemma inserted {V} (l : list (N * V)) m : NoDup (map fst m) ->
  let m' := fold_left (fun m kv => nm_insert (fst kv) (snd kv) m) l m in
  NoDup (map fst m') /\ forall k x, nm_get k m' = Some x <->
    (exists a b, l = a ++ (k, x) :: b /\ ~ In k (map fst b)) \/ (nm_get k m = Some x /\ ~ In k (map fst l)).
Proof.
  revert m. induction l as [|[k0 x0] l IH]; intros m Hm; cbn [fold_left fst snd map].
  - split; [exact Hm|]. intros k x. cbn. split; [intros H; right; auto|]. intros [(a&b&H&_)|[H _]]; [destruct a; discriminate|exact H].
  - destruct (IH (nm_insert k0 x0 m) (nm_insert_nodup _ _ _ Hm)) as [H1 H2]. split; [exact H1|]. intros k x. rewrite H2, nm_get_insert. split.
    + intros [(a&b&->&Hn)|[Hg Hn]]; [left; exists ((k0, x0) :: a), b; auto|]. destruct (N.eqb_spec k k0) as [->|Hk].
      * injection Hg as ->. left. exists [], l. auto.
      * right. split; [exact Hg|]. intros [H|H]; [congruence|exact (Hn H)].
    + intros [(a&b&E&Hn)|[Hg Hn]].
      * destruct a as [|e a].
        -- injection E as -> -> ->. right. rewrite N.eqb_refl. auto.
        -- injection E as <- ->. left. exists a, b. auto.
      * right. cbn [In] in Hn. destruct (N.eqb_spec k k0) as [->|Hk]; [exfalso; apply Hn; left; reflexivity|]. split; [exact Hg|]. tauto.
Qed.
Lemma get_in {V} k (x : V) m : NoDup (map fst m) -> (nm_get k m = Some x <-> In (k, x) m).
Proof.
  induction m as [|[k0 x0] m IH]; intros Hn; [cbn; split; [discriminate|tauto]|]. cbn [map fst nm_get In] in *. inversion Hn as [|? ? H1 H2]; subst.
  destruct (N.eqb_spec k k0) as [->|Hk].
  - split; [intros [= ->]; auto|]. intros [[= ->]|H]; [reflexivity|]. exfalso. apply H1. apply (in_map fst) in H. exact H.
  - rewrite (IH H2). split; [auto|]. intros [[= -> _]|H]; [congruence|exact H].
Qed.
Lemma pairs_iff {V} (f : json -> option V) says : reads f says -> forall (kvs : list (text * json)) (l : list (N * V)),
  omap (fun kv => obind (r_key (fst kv)) (fun k => obind (f (snd kv)) (fun x => Some (k, x)))) kvs = Some l <->
  Forall2 (fun kv e => says_key (fst kv) (fst e) /\ says (snd kv) (snd e)) kvs l.
Proof.
  intros H kvs l. rewrite omap_iff. apply Forall2_iff. intros [k v] [n x]. cbn [fst snd]. rewrite obind_iff. split.
  - intros (n'&Hn&G). apply obind_iff in G as (x'&Hx&[= <- <-]). split; [apply key_iff; exact Hn|apply H; exact Hx].
  - intros [H1 H2]. apply key_iff in H1. apply H in H2. exists n. split; [exact H1|]. rewrite H2. reflexivity.
Qed.
Lemma reads_map {V} (f : json -> option V) says : reads f says -> reads_upto same_map (r_map f) (says_map says).
Proof.
  intros H. split.
  - intros v m. unfold r_map. destruct v; try discriminate. intros G. apply obind_iff in G as (l'&Hl&[= <-]). apply (pairs_iff f says H) in Hl.
    destruct (inserted l' ([] : nmap V) (NoDup_nil _)) as [H1 H2]. exists l, l'. split; [reflexivity|]. split; [exact Hl|]. split; [exact H1|].
    intros k x. rewrite <- get_in by exact H1. rewrite H2. split; [intros [G|[[=] _]]; exact G|auto].
  - intros v m (kvs&l&->&Hl&Hn&Hm). apply (pairs_iff f says H) in Hl. unfold r_map. rewrite Hl. cbn [obind].
    destruct (inserted l ([] : nmap V) (NoDup_nil _)) as [H1 H2]. eexists. split; [reflexivity|]. intros k.
    destruct (nm_get k m) as [x|] eqn:E.
    + symmetry. apply H2. left. apply Hm. apply get_in; assumption.
    + match goal with |- _ = nm_get k ?q => set (mm := q) in * end. destruct (nm_get k mm) as [x|] eqn:E'; [|reflexivity]. exfalso. apply H2 in E' as [E'|[[=] _]].
      apply Hm in E'. apply get_in in E'; [congruence|exact Hn].
Qed.
Lemma need_upto {A} same (f : json -> option A) says : reads_upto same f says ->
  (forall o a, need f o = Some a -> required says o a) /\ (forall o a, required says o a -> exists a', need f o = Some a' /\ same a a').
Proof.
  intros [H1 H2]. split.
  - intros o a H. apply obind_iff in H as (v&E&G). exists v. auto.
  - intros o a (v&->&G). exact (H2 v a G).
Qed.
Lemma may_upto {A} (same : A -> A -> Prop) (f : json -> option A) says : reads_upto same f says -> (forall a, ~ says JNull a) ->
  (forall o a, may f o = Some a -> optional says o a) /\
  (forall o a, optional says o a -> exists a', may f o = Some a' /\ match a, a' with None, None => True | Some x, Some y => same x y | _, _ => False end).
Proof.
  intros [H1 H2] Hn. split.
  - intros [v|] a H; cbn [may] in H; [|injection H as <-; left; reflexivity].
    unfold r_opt in H. assert (D : v = JNull \/ option_map Some (f v) = Some a) by (destruct v; auto). destruct D as [->|D].
    + injection H as <-. right. reflexivity.
    + destruct (f v) as [x|] eqn:E; [|discriminate]. injection D as <-. exists v. auto.
  - intros o [a|] H.
    + destruct H as (v&->&G). destruct (H2 v a G) as (a'&E&S). exists (Some a'). split; [|exact S]. cbn [may]. unfold r_opt.
      destruct v; try (rewrite E; reflexivity). destruct (Hn a G).
    + exists None. split; [|exact I]. destruct H as [->| ->]; reflexivity.
Qed.
Lemma reads_circuit : reads_upto same_circuit r_circuit says_circuit.
Proof.
  pose proof (need_iff _ _ reads_u32) as Hu. pose proof (need_iff _ _ reads_bytes) as Hb.
  pose proof (need_iff _ _ (reads_list _ _ reads_constraint)) as Hc.
  destruct (may_upto same_map _ _ (reads_map _ _ reads_text)) as [Hm1 Hm2]; [intros a (?&?&[=]&_)|].
  unfold r_circuit, says_circuit. split.
  - intros v c. destruct (fields_of _ v) as [[|fs [|pb [|nw [|po [|pi [|pv [|nc [|cs [|wl [|]]]]]]]]]]|] eqn:E; try discriminate. apply fields_iff in E. intros H.
    apply obind_iff in H as (x1&H1&H). apply obind_iff in H as (x2&H2&H). apply obind_iff in H as (x3&H3&H). apply obind_iff in H as (x4&H4&H).
    apply obind_iff in H as (x5&H5&H). apply obind_iff in H as (x6&H6&H). apply obind_iff in H as (x7&H7&H). apply obind_iff in H as (x8&H8&H).
    apply obind_iff in H as (x9&H9&[= <-]). apply Hu in H1, H3, H4, H5, H6, H7. apply Hb in H2. apply Hc in H8. apply Hm1 in H9.
    exists fs, pb, nw, po, pi, pv, nc, cs, wl. cbn [s_field_size s_prime_bytes s_n_wires s_n_pub_out s_n_pub_in s_n_prv_in s_n_constraints s_constraints s_wire_labels]. tauto.
  - intros v c (fs&pb&nw&po&pi&pv&nc&cs&wl&E&H1&H2&H3&H4&H5&H6&H7&H8&H9). apply fields_iff in E. rewrite E.
    apply Hu in H1, H3, H4, H5, H6, H7. apply Hb in H2. apply Hc in H8. apply Hm2 in H9 as (ls&H9&S).
    rewrite H1, H2, H3, H4, H5, H6, H7, H8, H9. cbn [obind]. eexists. split; [reflexivity|].
    unfold same_circuit, same_labels. cbn [s_field_size s_prime_bytes s_n_wires s_n_pub_out s_n_pub_in s_n_prv_in s_n_constraints s_constraints s_wire_labels]. tauto.
Qed.
Definition same_witness (w w' : s_witness) : Prop := same_map (s_assignments w) (s_assignments w').
Lemma reads_witness : reads_upto same_witness r_witness says_witness.
Proof.
  destruct (need_upto same_map _ _ (reads_map _ _ reads_bytes)) as [H1 H2]. unfold r_witness, says_witness. split.
  - intros v w. destruct (fields_of _ v) as [[|a [|]]|] eqn:E; try discriminate. apply fields_iff in E. intros H.
    apply obind_iff in H as (x&Hx&[= <-]). exists a. split; [exact E|]. apply H1. exact Hx.
  - intros v w (a&E&H). apply fields_iff in E. rewrite E. apply H2 in H as (m&H&S). rewrite H. cbn [obind]. eexists. split; [reflexivity|exact S].
Qed.
Lemma reads_test_case : reads_upto same_test_case r_test_case says_test_case.
Proof.
  destruct (need_upto _ _ _ reads_circuit) as [C1 C2], (need_upto _ _ _ reads_witness) as [W1 W2].
  pose proof (need_iff _ _ reads_text) as Ht. pose proof (may_iff _ _ reads_text ltac:(intros a; discriminate)) as Hm.
  unfold r_test_case, says_test_case. split.
  - intros v t. destruct (fields_of _ v) as [[|c [|w [|n [|d [|]]]]]|] eqn:E; try discriminate. apply fields_iff in E. intros H.
    apply obind_iff in H as (x1&H1&H). apply obind_iff in H as (x2&H2&H). apply obind_iff in H as (x3&H3&H). apply obind_iff in H as (x4&H4&[= <-]).
    apply C1 in H1. apply W1 in H2. apply Ht in H3. apply Hm in H4. exists c, w, n, d. cbn [tc_circuit tc_witness tc_name tc_description]. tauto.
  - intros v t (c&w&n&d&E&H1&H2&H3&H4). apply fields_iff in E. rewrite E. apply C2 in H1 as (c'&H1&S1). apply W2 in H2 as (w'&H2&S2). apply Ht in H3. apply Hm in H4.
    rewrite H1, H2, H3, H4. cbn [obind]. eexists. split; [reflexivity|]. unfold same_test_case. cbn [tc_circuit tc_witness tc_name tc_description]. auto.
Qed.
