From Coq Require Import List Bool Arith NArith ZArith Lia.
From Coq Require Import Strings.Byte.
From Verif Require Import Res Bytes Reader Fld Groups Bn254 Zp Core Wtns SpecWtns P_Wtns ArkSer.
Import ListNotations.
Local Open Scope N_scope.
Local Open Scope rd_scope.

(** A reader that inverts a writer and fails on every strict prefix of what was written. *)
Definition inverts {A} (m : Ds A) (a : A) (b : list byte) : Prop :=
  (forall rest, m (b ++ rest) = (Ok a, rest)) /\
  (forall p q, b = p ++ q -> q <> [] -> exists s, m p = (Err tt, s)).
(** A reader that never panics and only consumes from the front. *)
Definition consumes {A} (m : Ds A) (size : A -> nat) : Prop :=
  forall bs, match m bs with
             | (Ok a, rest) => exists used, bs = used ++ rest /\ length used = size a
             | (Err _, _) => True
             | (Panic, _) => False
             end.

Lemma take_inverts b : inverts (ds_take (length b)) b b.
Proof.
  split.
  - intros rest. unfold ds_take. rewrite app_length.
    destruct (Nat.ltb_spec (length b + length rest) (length b)); [lia|].
    rewrite firstn_app, skipn_app, firstn_all, skipn_all, Nat.sub_diag. cbn. rewrite app_nil_r. reflexivity.
  - intros p q -> Hq. unfold ds_take. rewrite app_length.
    destruct q; [congruence|]. cbn [length].
    destruct (Nat.ltb_spec (length p) (length p + S (length q))); [eauto|lia].
Qed.

Lemma take_consumes n : consumes (ds_take n) (fun _ => n).
Proof.
  intros bs. unfold ds_take. destruct (Nat.ltb_spec (length bs) n); [exact I|].
  exists (firstn n bs). rewrite firstn_skipn, firstn_length. split; [reflexivity|lia].
Qed.

(** Splitting a strict prefix of a concatenation. *)
Lemma prefix_split {A} (b1 b2 p q : list A) : b1 ++ b2 = p ++ q -> q <> [] ->
  (exists q1, b1 = p ++ q1 /\ q1 <> []) \/ (exists p2, p = b1 ++ p2 /\ b2 = p2 ++ q).
Proof.
  revert p; induction b1 as [|x b1 IH]; intros p Heq Hq.
  - right. exists p. auto.
  - destruct p as [|y p]; [left; exists (x :: b1); split; [reflexivity|discriminate]|].
    cbn in Heq. injection Heq as -> Heq. destruct (IH p Heq Hq) as [(q1&->&H)|(p2&->&H)].
    + left. exists q1. auto.
    + right. exists p2. auto.
Qed.

Lemma bind_inverts {A B} (m : Ds A) (k : A -> Ds B) a b b1 b2 :
  inverts m a b1 -> inverts (k a) b b2 -> inverts (mbind m k) b (b1 ++ b2).
Proof.
  intros [H1 H1'] [H2 H2']. split.
  - intros rest. unfold mbind. rewrite <- app_assoc, H1. apply H2.
  - intros p q Heq Hq. unfold mbind. destruct (prefix_split _ _ _ _ Heq Hq) as [(q1&->&Hq1)|(p2&->&->)].
    + destruct (H1' p q1 eq_refl Hq1) as (s&->). eauto.
    + rewrite H1. eapply H2'; eauto.
Qed.
Lemma ret_inverts {A} (a : A) : inverts (ret a) a [].
Proof.
  split; [reflexivity|]. intros p q Heq Hq. symmetry in Heq. apply app_eq_nil in Heq. destruct Heq as [_ ->]. congruence.
Qed.
Lemma opt_inverts {A} (x : option A) a : x = Some a -> inverts (ds_opt x) a [].
Proof. intros ->. apply ret_inverts. Qed.

Lemma inverts_app_nil {A} (m : Ds A) a b : inverts m a (b ++ []) -> inverts m a b.
Proof. rewrite app_nil_r. auto. Qed.

Lemma elem_inverts {A} size (dec : list byte -> option A) a b :
  length b = size -> dec b = Some a -> inverts (ds_elem size dec) a b.
Proof.
  intros <- H. apply inverts_app_nil. unfold ds_elem. eapply bind_inverts; [apply take_inverts|].
  apply opt_inverts. exact H.
Qed.

Lemma u64_inverts n : n < 2 ^ 64 -> inverts ds_u64 n (le_bytes 8 n).
Proof.
  intros Hn. apply inverts_app_nil. unfold ds_u64. eapply bind_inverts.
  - pose proof (take_inverts (le_bytes 8 n)) as H. rewrite le_bytes_length in H. exact H.
  - rewrite le_val_small by exact Hn. apply ret_inverts.
Qed.

Lemma list_inverts {A} (m : Ds A) enc : (forall a, inverts m a (enc a)) ->
  forall l, inverts (mlist (length l) m) l (concat (map enc l)).
Proof.
  intros Hm l. induction l as [|a l IH]; [apply ret_inverts|].
  cbn [length mlist map concat]. eapply bind_inverts; [apply Hm|].
  apply inverts_app_nil. eapply bind_inverts; [exact IH|apply ret_inverts].
Qed.

Lemma inverts_ext {A} (m m' : Ds A) a b : (forall s, m s = m' s) -> inverts m a b -> inverts m' a b.
Proof. intros H [H1 H2]. split; intros; rewrite <- H; eauto. Qed.

Lemma vec_inverts {A} (m : Ds A) enc l : (forall a, inverts m a (enc a)) ->
  N.of_nat (length l) < 2 ^ 64 -> inverts (ds_vec m) l (vec_bytes enc l).
Proof.
  intros Hm Hl. unfold ds_vec, vec_bytes. eapply bind_inverts; [apply u64_inverts; exact Hl|].
  eapply inverts_ext; [intros s; symmetry; apply mmany_spec|]. rewrite Nat2N.id. apply list_inverts. exact Hm.
Qed.

Lemma bind_consumes {A B} (m : Ds A) (k : A -> Ds B) s1 s2 s :
  consumes m s1 -> (forall a, consumes (k a) (s2 a)) ->
  (forall a b bs bs', m bs = (Ok a, bs') -> forall bs'', k a bs' = (Ok b, bs'') -> (s1 a + s2 a b)%nat = s b) ->
  consumes (mbind m k) s.
Proof.
  intros Hm Hk Hs bs. unfold mbind. pose proof (Hm bs) as H1. destruct (m bs) as [[a|e|] bs'] eqn:E1; auto.
  destruct H1 as (u1&->&Hl1). pose proof (Hk a bs') as H2.
  destruct (k a bs') as [[b|e|] bs''] eqn:E2; auto. destruct H2 as (u2&->&Hl2).
  exists (u1 ++ u2). rewrite <- app_assoc, app_length. split; [reflexivity|].
  rewrite Hl1, Hl2. eapply Hs; eauto.
Qed.
Lemma ret_consumes {A} (a : A) : consumes (ret a) (fun _ => 0%nat).
Proof. intros bs. exists []. auto. Qed.
Lemma opt_consumes {A} (x : option A) : consumes (ds_opt x) (fun _ => 0%nat).
Proof. destruct x; [apply ret_consumes|]. intros bs. exact I. Qed.
Lemma elem_consumes {A} size (dec : list byte -> option A) : consumes (ds_elem size dec) (fun _ => size).
Proof.
  unfold ds_elem. eapply bind_consumes; [apply take_consumes|intros a; apply opt_consumes|]. intros. cbn. lia.
Qed.
Lemma list_consumes {A} (m : Ds A) size : consumes m (fun _ => size) ->
  forall n, consumes (mlist n m) (fun l => length l * size)%nat.
Proof.
  intros Hm n. induction n; [intros bs; exists []; auto|].
  cbn [mlist]. apply (bind_consumes m _ (fun _ => size) (fun _ l => (length l - 1) * size)%nat).
  - exact Hm.
  - intros a. eapply bind_consumes; [exact IHn|intros l; apply ret_consumes|].
    intros l b bs bs' _ bs'' H. injection H as <- _. cbn [length]. rewrite Nat.sub_succ, Nat.sub_0_r. lia.
  - intros a b bs bs' _ bs'' H. apply mbind_ok in H. destruct H as (l&s1&_&H). injection H as <- _.
    cbn [length]. rewrite Nat.sub_succ, Nat.sub_0_r. lia.
Qed.
Lemma vec_consumes {A} (m : Ds A) size : consumes m (fun _ => size) ->
  consumes (ds_vec m) (fun l => 8 + length l * size)%nat.
Proof.
  intros Hm. unfold ds_vec. apply (bind_consumes ds_u64 _ (fun _ => 8%nat) (fun _ l => length l * size)%nat).
  - unfold ds_u64. eapply bind_consumes; [apply take_consumes|intros; apply ret_consumes|]. intros; reflexivity.
  - intros n bs. rewrite mmany_spec. apply list_consumes. exact Hm.
  - reflexivity.
Qed.

Lemma fr_bytes_inverts x : inverts ds_fr x (fr_bytes x).
Proof.
  apply elem_inverts; [apply le_bytes_length|].
  destruct (encode_fr_value x) as (H1&H2&_). change (fr_bytes x) with (encode_fr x).
  destruct (fr_deserialize (encode_fr x)) as [y|] eqn:E.
  - apply fr_deserialize_val in E. congruence.
  - exfalso. apply (proj2 (fr_deserialize_spec _) H2). exact E.
Qed.

Section Facts.
  Context {E : pairingT Fr} (C : codecT E).

  Definition lengths_ok (c : ciphertext Fr E) : Prop :=
    let k := ct_key c in
    N.of_nat (length (r_u_query_g1 k)) < 2 ^ 64 /\ N.of_nat (length (r_v_query_g2 k)) < 2 ^ 64 /\
    N.of_nat (length (phi_delta_query_g1 k)) < 2 ^ 64 /\ N.of_nat (length (h_query_g1 k)) < 2 ^ 64 /\
    N.of_nat (length (public_inputs c)) < 2 ^ 64.
  Definition ct_size (c : ciphertext Fr E) : nat :=
    let k := ct_key c in
    (200 + 32 * length (r_u_query_g1 k) + 64 * length (r_v_query_g2 k) + 32 * length (phi_delta_query_g1 k)
     + 32 * length (h_query_g1 k) + 32 * length (public_inputs c))%nat.

  Lemma g1_inverts p : inverts (ds_g1 E C) p (enc1 C p).
  Proof. apply elem_inverts; [apply enc1_len|apply dec1_enc1]. Qed.
  Lemma g2_inverts p : inverts (ds_g2 E C) p (enc2 C p).
  Proof. apply elem_inverts; [apply enc2_len|apply dec2_enc2]. Qed.

  Lemma ct_inverts c : lengths_ok c -> inverts (ds_ct E C) c (ct_bytes C c).
  Proof.
    intros (H1&H2&H3&H4&H5). unfold ds_ct, ct_bytes. destruct c as [k pub]; cbn [ct_key public_inputs] in *.
    destruct k as [a b d ru rv ph h]; cbn [r_u_query_g1 r_v_query_g2 phi_delta_query_g1 h_query_g1] in *.
    eapply bind_inverts.
    - unfold ds_ek, ek_bytes. cbn [alpha_g1 beta_g2 delta_g2 r_u_query_g1 r_v_query_g2 phi_delta_query_g1 h_query_g1].
      eapply bind_inverts; [apply g1_inverts|].
      eapply bind_inverts; [apply g2_inverts|].
      eapply bind_inverts; [apply g2_inverts|].
      eapply bind_inverts; [apply vec_inverts; [apply g1_inverts|exact H1]|].
      eapply bind_inverts; [apply vec_inverts; [apply g2_inverts|exact H2]|].
      eapply bind_inverts; [apply vec_inverts; [apply g1_inverts|exact H3]|].
      apply inverts_app_nil. eapply bind_inverts; [apply vec_inverts; [apply g1_inverts|exact H4]|].
      apply ret_inverts.
    - apply inverts_app_nil. eapply bind_inverts; [apply vec_inverts; [apply fr_bytes_inverts|exact H5]|].
      apply ret_inverts.
  Qed.

  Lemma concat_map_length {A} (enc : A -> list byte) n l : (forall a, length (enc a) = n) ->
    length (concat (map enc l)) = (n * length l)%nat.
  Proof. intros H. induction l; cbn; [lia|]. rewrite app_length, IHl, H. lia. Qed.
  Lemma vec_bytes_length {A} (enc : A -> list byte) n l : (forall a, length (enc a) = n) ->
    length (vec_bytes enc l) = (8 + n * length l)%nat.
  Proof. intros H. unfold vec_bytes. rewrite app_length, le_bytes_length, (concat_map_length enc n) by exact H. lia. Qed.

  Lemma ct_bytes_length c : length (ct_bytes C c) = ct_size c.
  Proof.
    unfold ct_bytes, ek_bytes, ct_size. rewrite !app_length, (enc1_len E C), !(enc2_len E C).
    rewrite !(vec_bytes_length (enc1 C) 32) by apply enc1_len.
    rewrite (vec_bytes_length (enc2 C) 64) by apply enc2_len.
    rewrite (vec_bytes_length fr_bytes 32) by (intros; apply le_bytes_length). lia.
  Qed.

  Lemma ct_consumes : consumes (ds_ct E C) ct_size.
  Proof.
    assert (G1 : consumes (ds_g1 E C) (fun _ => 32%nat)) by apply elem_consumes.
    assert (G2 : consumes (ds_g2 E C) (fun _ => 64%nat)) by apply elem_consumes.
    assert (GF : consumes ds_fr (fun _ => 32%nat)) by apply elem_consumes.
    unfold ds_ct, ds_ek. intros bs. unfold mbind.
    pose proof (G1 bs) as H. destruct (ds_g1 E C bs) as [[a0|e|] b0]; [|exact I|exact H].
    destruct H as (u0&->&Hu0).
    pose proof (G2 b0) as H. destruct (ds_g2 E C b0) as [[a1|e|] b1]; [|exact I|exact H].
    destruct H as (u1&->&Hu1).
    pose proof (G2 b1) as H. destruct (ds_g2 E C b1) as [[a2|e|] b2]; [|exact I|exact H].
    destruct H as (u2&->&Hu2).
    pose proof ((vec_consumes _ _ G1) b2) as H. destruct (ds_vec (ds_g1 E C) b2) as [[a3|e|] b3]; [|exact I|exact H].
    destruct H as (u3&->&Hu3).
    pose proof ((vec_consumes _ _ G2) b3) as H. destruct (ds_vec (ds_g2 E C) b3) as [[a4|e|] b4]; [|exact I|exact H].
    destruct H as (u4&->&Hu4).
    pose proof ((vec_consumes _ _ G1) b4) as H. destruct (ds_vec (ds_g1 E C) b4) as [[a5|e|] b5]; [|exact I|exact H].
    destruct H as (u5&->&Hu5).
    pose proof ((vec_consumes _ _ G1) b5) as H. destruct (ds_vec (ds_g1 E C) b5) as [[a6|e|] b6]; [|exact I|exact H].
    destruct H as (u6&->&Hu6).
    unfold ret.
    pose proof ((vec_consumes _ _ GF) b6) as H. destruct (ds_vec ds_fr b6) as [[a7|e|] b7]; [|exact I|exact H].
    destruct H as (u7&->&Hu7).
    match goal with |- exists used, ?l = used ++ ?r /\ _ =>
      exists (u0 ++ u1 ++ u2 ++ u3 ++ u4 ++ u5 ++ u6 ++ u7) end.
    rewrite <- !app_assoc, !app_length. split; [reflexivity|].
    unfold ct_size. cbn [ct_key public_inputs r_u_query_g1 r_v_query_g2 phi_delta_query_g1 h_query_g1]. lia.
  Qed.
End Facts.

(** Readers that only accept what the writer produces. *)
Definition faithful {A} (m : Ds A) (enc : A -> list byte) : Prop :=
  forall bs a rest, m bs = (Ok a, rest) -> bs = enc a ++ rest.

Lemma take_ok n bs b rest : ds_take n bs = (Ok b, rest) -> bs = b ++ rest /\ length b = n.
Proof.
  unfold ds_take. destruct (Nat.ltb_spec (length bs) n); intros H'; [discriminate|].
  injection H' as <- <-. rewrite firstn_skipn, firstn_length. split; [reflexivity|lia].
Qed.
Lemma elem_faithful {A} size (dec : list byte -> option A) enc :
  (forall b a, length b = size -> dec b = Some a -> enc a = b) -> faithful (ds_elem size dec) enc.
Proof.
  intros Hd bs a rest H. apply mbind_ok in H. destruct H as (b&s1&H1&H). apply take_ok in H1.
  destruct H1 as [-> Hl]. destruct (dec b) as [a'|] eqn:Ed; [|discriminate].
  injection H as -> <-. rewrite (Hd b a Hl Ed). reflexivity.
Qed.
Lemma list_faithful {A} (m : Ds A) enc : faithful m enc -> forall n, faithful (mlist n m) (fun l => concat (map enc l)).
Proof.
  intros Hm n. induction n; intros bs l rest H.
  - injection H as <- <-. reflexivity.
  - cbn [mlist] in H. apply mbind_ok in H. destruct H as (a&s1&H1&H). apply Hm in H1. subst bs.
    apply mbind_ok in H. destruct H as (l'&s2&H2&H). apply IHn in H2. subst s1. injection H as <- <-.
    cbn. rewrite <- app_assoc. reflexivity.
Qed.
Lemma vec_faithful {A} (m : Ds A) enc : faithful m enc -> faithful (ds_vec m) (vec_bytes enc).
Proof.
  intros Hm bs l rest H. unfold ds_vec in H. apply mbind_ok in H. destruct H as (n&s1&H1&H).
  apply mbind_ok in H1. destruct H1 as (b&s2&H1&H1'). apply take_ok in H1. destruct H1 as [-> Hb].
  injection H1' as <- <-. rewrite mmany_spec in H. pose proof (mlist_length _ _ _ _ _ H) as Hl.
  apply list_faithful with (enc := enc) in H; [|exact Hm]. subst s2.
  unfold vec_bytes. rewrite Hl, N2Nat.id, <- app_assoc. f_equal.
  pose proof (le_bytes_le_val b) as Hv. rewrite Hb in Hv. symmetry. exact Hv.
Qed.
Lemma fr_faithful : faithful ds_fr fr_bytes.
Proof.
  apply elem_faithful. intros b a Hl H. unfold fr_deserialize in H.
  destruct (blen b <? 32) eqn:E1; [discriminate|].
  rewrite firstn_all2 in H by (rewrite Hl; apply le_n).
  destruct (Z.ltb_spec (Z.of_N (le_val b)) bn_r) as [Hlt|]; [|discriminate].
  assert (Ha : a = fr (Z.of_N (le_val b))) by congruence. clear H. subst a.
  assert (Hv0 : fr_val (fr (Z.of_N (le_val b))) = Z.of_N (le_val b)).
  { unfold fr_val, fr. rewrite zval_zp. apply Z.mod_small. split; [apply N2Z.is_nonneg|exact Hlt]. }
  unfold fr_bytes. rewrite Hv0, N2Z.id. pose proof (le_bytes_le_val b) as Hv. rewrite Hl in Hv. exact Hv.
Qed.

Section Faithful.
  Context {E : pairingT Fr} (C : codecT E).
  Context (c1 : forall b p, length b = 32%nat -> dec1 C b = Some p -> enc1 C p = b)
          (c2 : forall b p, length b = 64%nat -> dec2 C b = Some p -> enc2 C p = b).
  Lemma ct_faithful : faithful (ds_ct E C) (ct_bytes C).
  Proof.
    assert (F1 : faithful (ds_g1 E C) (enc1 C)) by (apply elem_faithful; exact c1).
    assert (F2 : faithful (ds_g2 E C) (enc2 C)) by (apply elem_faithful; exact c2).
    intros bs c rest H. unfold ds_ct in H. apply mbind_ok in H. destruct H as (k&s&Hk&H).
    apply mbind_ok in H. destruct H as (pub&s'&Hp&H). injection H as <- <-.
    apply (vec_faithful _ _ fr_faithful) in Hp. subst s. unfold ds_ek in Hk.
    apply mbind_ok in Hk. destruct Hk as (a&t1&H1&Hk). apply F1 in H1.
    apply mbind_ok in Hk. destruct Hk as (b&t2&H2&Hk). apply F2 in H2.
    apply mbind_ok in Hk. destruct Hk as (d&t3&H3&Hk). apply F2 in H3.
    apply mbind_ok in Hk. destruct Hk as (ru&t4&H4&Hk). apply (vec_faithful _ _ F1) in H4.
    apply mbind_ok in Hk. destruct Hk as (rv&t5&H5&Hk). apply (vec_faithful _ _ F2) in H5.
    apply mbind_ok in Hk. destruct Hk as (ph&t6&H6&Hk). apply (vec_faithful _ _ F1) in H6.
    apply mbind_ok in Hk. destruct Hk as (h&t7&H7&Hk). apply (vec_faithful _ _ F1) in H7.
    assert (Ek : k = EncapKey a b d ru rv ph h) by (unfold ret in Hk; congruence).
    assert (Et : t7 = vec_bytes fr_bytes pub ++ s') by (unfold ret in Hk; congruence).
    clear Hk. subst k t7. rewrite H1, H2, H3, H4, H5, H6, H7. unfold ct_bytes, ek_bytes.
    cbn [ct_key public_inputs alpha_g1 beta_g2 delta_g2 r_u_query_g1 r_v_query_g2 phi_delta_query_g1 h_query_g1].
    rewrite <- !app_assoc. reflexivity.
  Qed.
End Faithful.
