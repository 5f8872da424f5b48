(** Facts about the two witness readers. *)
From Coq Require Import List Bool Arith NArith ZArith Lia.
From Coq Require Import Strings.Byte.
From Verif Require Import Res Bytes Reader R1cs SpecR1cs R1csFacts R1csJs R1csJsFacts Fld Bn254 Zp Wtns SpecWtns.
Import ListNotations.
Local Open Scope N_scope.
Local Open Scope rd_scope.

Ltac pair_lia := match goal with |- (_, ?a) = (_, ?b) => replace a with b by lia; reflexivity end.

(** ** Generic *)
Lemma le_val_zeros n : le_val (repeat x00 n) = 0.
Proof. induction n; cbn [repeat le_val]; [reflexivity|]. rewrite IHn. reflexivity. Qed.
Lemma le_val_array32 b : le_val (array32 b) = le_val (firstn 32 b).
Proof.
  unfold array32. rewrite le_val_app.
  assert (Hz : le_val (skipn (Nat.min (length b) 32) (repeat x00 32)) = 0).
  { generalize (Nat.min (length b) 32) as k. intros k.
    assert (Hs : skipn k (repeat x00 32) = repeat x00 (32 - k)).
    { rewrite <- (repeat_length x00 32) at 2. generalize 32%nat. clear. intros n.
      revert k; induction n; intros [|k]; cbn; try reflexivity.
      - rewrite repeat_length. reflexivity.
      - rewrite IHn, !repeat_length. reflexivity. }
    rewrite Hs. apply le_val_zeros. }
  rewrite Hz. replace (firstn (Nat.min (length b) 32) b) with (firstn 32 b); [lia|].
  destruct (Nat.le_gt_cases (length b) 32) as [H|H].
  - rewrite Nat.min_l, firstn_all, firstn_all2 by lia. reflexivity.
  - rewrite Nat.min_r by lia. reflexivity.
Qed.
Lemma bytes_to_fr_value b : bytes_to_fr b = element_value b.
Proof. unfold bytes_to_fr, element_value, residue. rewrite le_val_array32. reflexivity. Qed.

Lemma chunks_spec d fs n : length d = (n * fs)%nat ->
  concat (chunks d fs n) = d /\ Forall (fun v => length v = fs) (chunks d fs n) /\ length (chunks d fs n) = n.
Proof.
  intros H. unfold chunks. rewrite map_length, seq_length. split; [|split; [|reflexivity]].
  - assert (Hg : forall k m, (m + k = n)%nat -> concat (map (chunk d fs) (seq m k)) = skipn (m * fs) d).
    { induction k; intros m Hm; cbn [seq map concat].
      - symmetry. apply skipn_all2. rewrite H. nia.
      - rewrite IHk by lia. unfold chunk.
        replace (skipn (S m * fs) d) with (skipn fs (skipn (m * fs) d)); [apply firstn_skipn|].
        rewrite skipn_skipn'. reflexivity. }
    rewrite Hg by lia. reflexivity.
  - apply Forall_map, Forall_forall. intros i Hi. apply in_seq in Hi. unfold chunk.
    rewrite firstn_length, skipn_length, H. nia.
Qed.

Lemma concat_inj {A} fs (l l' : list (list A)) : (0 < fs)%nat ->
  Forall (fun v => length v = fs) l -> Forall (fun v => length v = fs) l' ->
  concat l = concat l' -> l = l'.
Proof.
  intros Hfs H. revert l'. induction H as [|v l Hv Hl IH]; intros l' H' E.
  - destruct l' as [|v' l']; [reflexivity|]. apply Forall_inv in H'. destruct v'; cbn in *; [lia|discriminate].
  - destruct l' as [|v' l'].
    + destruct v; cbn in *; [lia|discriminate].
    + inversion H' as [|? ? Hv' Hl']; subst. cbn in E. apply app_inj_len in E; [|congruence].
      destruct E as [-> E]. f_equal. auto.
Qed.

Lemma concat_length_const {A} fs (l : list (list A)) :
  Forall (fun v => length v = fs) l -> length (concat l) = (length l * fs)%nat.
Proof. induction 1 as [|v l Hv Hl IH]; [reflexivity|]. cbn. rewrite app_length, IH, Hv. reflexivity. Qed.

Lemma nat_rep_err {S E A} n (body : A -> M S E A) a s e s' :
  nat_rep n body a s = (Err e, s') ->
  exists k a1 s1, (k < n)%nat /\ nat_rep k body a s = (Ok a1, s1) /\ body a1 s1 = (Err e, s').
Proof.
  revert a s; induction n; intros a s H; [discriminate|].
  cbn [nat_rep] in H. unfold mbind in H. destruct (body a s) as [[a1|e1|] s1] eqn:E1.
  - destruct (IHn _ _ H) as (k&a2&s2&Hk&H1&H2). exists (Datatypes.S k), a2, s2. split; [lia|].
    split; [|exact H2]. cbn [nat_rep]. unfold mbind. rewrite E1. exact H1.
  - injection H as -> ->. exists 0%nat, a, s. split; [lia|]. split; [reflexivity|exact E1].
  - discriminate.
Qed.

Lemma nat_rep_acc_inv {S E A} (P : A -> Prop) (body : A -> M S E A) :
  (forall a s a' s', P a -> body a s = (Ok a', s') -> P a') ->
  forall n a s a' s', P a -> nat_rep n body a s = (Ok a', s') -> P a'.
Proof.
  intros H n; induction n; intros a s a' s' Ha Hr.
  - injection Hr as <- _. exact Ha.
  - cbn [nat_rep] in Hr. apply mbind_ok in Hr. destruct Hr as (a1&s1&H1&H2). eauto.
Qed.

(** ** CLI reader *)
Section Cli.
  Variable f : list byte.

  Lemma w_read_ok p bs n : blen bs = n -> occurs f p bs -> w_read f n p = (Ok bs, p + n).
  Proof.
    intros <- H. unfold w_read. destruct (N.eqb_spec (blen bs) 0) as [Hz|Hz].
    - destruct bs; [|rewrite blen_cons in Hz; lia]. rewrite blen_nil, N.add_0_r. reflexivity.
    - apply occurs_slice in H. rewrite H. reflexivity.
  Qed.
  Lemma w_u32_ok p v : v < 2 ^ 32 -> occurs f p (u32 v) -> w_u32 f p = (Ok v, p + 4).
  Proof.
    intros Hv H. unfold w_u32, mbind. rewrite (w_read_ok p (u32 v) 4 (blen_u32 v) H).
    unfold ret. rewrite u32_val by exact Hv. reflexivity.
  Qed.
  Lemma w_u64_ok p v : v < 2 ^ 64 -> occurs f p (u64 v) -> w_u64 f p = (Ok v, p + 8).
  Proof.
    intros Hv H. unfold w_u64, mbind. rewrite (w_read_ok p (u64 v) 8 (blen_u64 v) H).
    unfold ret. rewrite u64_val by exact Hv. reflexivity.
  Qed.

  Definition cli_step (acc : wacc) (s : wsec) : wacc :=
    let '(p, n, d) := acc in
    match s with WHeader p' n' => (p', n', d) | WData d' => (p, n, d') | WOther _ _ => acc end.

  Lemma w_section_ok acc s p :
    wsec_ok s -> blen f < 2 ^ 63 -> occurs f p (section_bytes (wsec_type s, wsec_payload s)) ->
    w_section f acc p = (Ok (cli_step acc s), p + blen (section_bytes (wsec_type s, wsec_payload s))).
  Proof.
    intros Hs Hf H. pose proof (occurs_le _ _ _ H) as Hlen. rewrite blen_section in *. cbn [snd] in *.
    unfold section_bytes in H. cbn [fst snd] in H. apply occurs_app in H. destruct H as [H1 H].
    apply occurs_app in H. destruct H as [H2 H3]. rewrite blen_u32, ?blen_u64 in *.
    assert (Hty : wsec_type s < 2 ^ 32).
    { destruct s; cbn in *; [reflexivity|reflexivity|tauto]. }
    assert (Hsz : blen (wsec_payload s) < 2 ^ 63) by (clear - Hlen Hf; lia).
    destruct acc as [[pr n] d]. unfold w_section.
    unfold mbind at 1. rewrite (w_u32_ok _ _ Hty H1).
    unfold mbind at 1. rewrite (w_u64_ok _ (blen (wsec_payload s)) ltac:(clear - Hsz; lia) H2).
    destruct s as [pr' n'|d'|ty pl]; cbn [wsec_type wsec_payload cli_step] in *.
    - change (1 =? 1) with true. cbv iota. destruct Hs as [Hp Hn].
      apply occurs_app in H3. destruct H3 as [H3 H4]. apply occurs_app in H4. destruct H4 as [H4 H5].
      rewrite blen_u32 in *.
      unfold mbind at 1. rewrite (w_u32_ok _ _ Hp H3).
      unfold mbind at 1. rewrite (w_read_ok _ _ _ eq_refl H4).
      unfold mbind at 1. rewrite (w_u32_ok _ _ Hn H5). unfold ret.
      rewrite !blen_app, !blen_u32. pair_lia.
    - change (2 =? 1) with false. change (2 =? 2) with true. cbv iota.
      unfold mbind at 1, w_alloc. apply N.ltb_lt in Hsz. rewrite Hsz.
      unfold mbind at 1. rewrite (w_read_ok _ _ _ eq_refl H3). unfold ret. pair_lia.
    - destruct Hs as (Hne1&Hne2&_). apply N.eqb_neq in Hne1. apply N.eqb_neq in Hne2.
      rewrite Hne1, Hne2.
      unfold mbind at 1, w_alloc. apply N.ltb_lt in Hsz. rewrite Hsz.
      unfold mbind at 1. rewrite (w_read_ok _ _ _ eq_refl H3). unfold ret. pair_lia.
  Qed.

  Lemma w_sections_ok secs acc p :
    Forall wsec_ok secs -> blen f < 2 ^ 63 ->
    occurs f p (flat_map (fun s => section_bytes (wsec_type s, wsec_payload s)) secs) ->
    exists q, nat_rep (length secs) (w_section f) acc p = (Ok (fold_left cli_step secs acc), q).
  Proof.
    intros H Hf. revert acc p. induction H as [|s secs Hs Hl IH]; intros acc p Ho.
    - exists p. reflexivity.
    - cbn [length nat_rep flat_map fold_left] in *. apply occurs_app in Ho. destruct Ho as [Ho1 Ho2].
      unfold mbind. rewrite (w_section_ok acc s p Hs Hf Ho1). apply IH. exact Ho2.
  Qed.
End Cli.

Lemma cli_fold secs p n d :
  fold_left cli_step secs (p, n, d) =
  (fold_left (fun a s => match s with WHeader p n => (p, n) | _ => a end) secs (p, n),
   fold_left (fun a s => match s with WData d => d | _ => a end) secs d).
Proof.
  revert p n d. induction secs as [|s secs IH]; intros p n d; [reflexivity|].
  cbn [fold_left]. destruct s; cbn [cli_step]; apply IH.
Qed.

Lemma occurs_wtns secs :
  let f := wtns_bytes secs in
  occurs f 0 ascii_wtns /\ occurs f 4 (u32 2) /\ occurs f 8 (u32 (N.of_nat (length secs))) /\
  occurs f 12 (flat_map (fun s => section_bytes (wsec_type s, wsec_payload s)) secs).
Proof.
  intros f. assert (H : occurs f 0 (wtns_bytes secs)).
  { exists [], []. rewrite app_nil_r. split; reflexivity. }
  unfold wtns_bytes in H. apply occurs_app in H. destruct H as [H1 H].
  apply occurs_app in H. destruct H as [H2 H]. apply occurs_app in H. destruct H as [H3 H].
  rewrite !blen_u32 in *. change (blen ascii_wtns) with 4 in *. cbn [N.add Pos.add] in *. auto.
Qed.

Lemma wtns_run secs :
  Forall wsec_ok secs -> N.of_nat (length secs) < 2 ^ 32 -> blen (wtns_bytes secs) < 2 ^ 63 ->
  wtns_from_bytes (wtns_bytes secs) =
  fst (w_finish (last_header secs, last_data secs) 0).
Proof.
  intros Hs Hn Hf. set (f := wtns_bytes secs) in *.
  destruct (occurs_wtns secs) as (H1&H2&H3&H4). fold f in H1, H2, H3, H4.
  unfold wtns_from_bytes, w_from_bytes_m.
  unfold mbind at 1. rewrite (w_read_ok f 0 ascii_wtns 4 eq_refl H1).
  replace (bytes_eqb ascii_wtns magic_wtns) with true by reflexivity.
  unfold mbind at 1. change (0 + 4) with 4. rewrite (w_u32_ok f 4 2 ltac:(reflexivity) H2).
  change (2 =? 2) with true. cbv iota.
  unfold mbind at 1. change (4 + 4) with 8. rewrite (w_u32_ok f _ _ Hn H3).
  unfold mbind at 1. change (8 + 4) with 12. rewrite n_rep_nat, Nat2N.id.
  destruct (w_sections_ok f secs ([], 0, []) 12 Hs Hf H4) as [q E]. rewrite E, cli_fold.
  fold (last_header secs). fold (last_data secs).
  destruct (last_header secs) as [p n]. unfold w_finish, ret, fail.
  destruct (negb (blen p =? 0)); [|reflexivity].
  destruct (negb (blen (last_data secs) =? 0)); [|reflexivity].
  destruct (blen (last_data secs) =? n * blen p); reflexivity.
Qed.

Theorem wtns_exact secs p n d :
  Forall wsec_ok secs -> N.of_nat (length secs) < 2 ^ 32 -> blen (wtns_bytes secs) < 2 ^ 63 ->
  last_header secs = (p, n) -> last_data secs = d ->
  (p = [] -> wtns_from_bytes (wtns_bytes secs) = Err WNoHeader) /\
  (p <> [] -> d = [] -> wtns_from_bytes (wtns_bytes secs) = Err WNoData) /\
  (p <> [] -> d <> [] -> blen d <> n * blen p -> wtns_from_bytes (wtns_bytes secs) = Err WSizeMismatch) /\
  (forall vals, p <> [] -> d <> [] -> blen d = n * blen p -> elements (blen p) d vals ->
     wtns_from_bytes (wtns_bytes secs) = Ok (WitnessFile p n vals)).
Proof.
  intros Hs Hn Hf Hh Hd. rewrite (wtns_run secs Hs Hn Hf), Hh, Hd. unfold w_finish.
  assert (Hnz : forall l : list byte, l <> [] -> negb (blen l =? 0) = true).
  { intros [|b l] H; [contradiction|]. rewrite blen_cons. destruct (N.eqb_spec (1 + blen l) 0); [lia|reflexivity]. }
  split; [|split; [|split]].
  - intros ->. reflexivity.
  - intros Hp ->. rewrite (Hnz p Hp). reflexivity.
  - intros Hp Hd0 Hm. rewrite (Hnz p Hp), (Hnz d Hd0). apply N.eqb_neq in Hm. rewrite Hm. reflexivity.
  - intros vals Hp Hd0 Hm [Hc Hl]. rewrite (Hnz p Hp), (Hnz d Hd0).
    pose proof Hm as Hm'. apply N.eqb_eq in Hm. rewrite Hm. cbn. f_equal. f_equal.
    assert (Hlen : length d = (N.to_nat n * length p)%nat) by (unfold blen in Hm'; lia).
    destruct (chunks_spec d (length p) (N.to_nat n) Hlen) as (C1&C2&C3).
    apply (concat_inj (length p)).
    + destruct p; [contradiction|cbn; lia].
    + exact C2.
    + eapply Forall_impl; [|exact Hl]. cbn. unfold blen. intros v Hv. lia.
    + congruence.
Qed.

(** Soundness on arbitrary bytes. *)
Lemma w_read_sound f n p b q : w_read f n p = (Ok b, q) ->
  blen b = n /\ occurs_or_empty f p b /\ q = p + n.
Proof.
  unfold w_read. destruct (N.eqb_spec n 0) as [->|Hn].
  - intros H. injection H as <- <-. repeat split; [left; reflexivity|lia].
  - destruct (slice f p n) as [s|] eqn:E; [|discriminate]. intros H. injection H as <- <-.
    apply slice_some in E. destruct E as (pre&rest&Hf&Hp&Hl). repeat split; [exact Hl|].
    right. exists pre, rest. auto.
Qed.
Lemma w_u32_sound f p v q : w_u32 f p = (Ok v, q) -> v < 2 ^ 32 /\ occurs f p (u32 v) /\ q = p + 4.
Proof.
  intros H. apply mbind_ok in H. destruct H as (b&s1&H1&H). injection H as <- <-.
  apply w_read_sound in H1. destruct H1 as (Hl&Ho&->).
  assert (H4 : length b = 4%nat) by (unfold blen in Hl; lia).
  assert (Hb : u32 (le_val b) = b) by (unfold u32; rewrite <- H4; apply le_bytes_le_val).
  rewrite Hb. split.
  - pose proof (le_val_bound b) as Hv. rewrite H4 in Hv. exact Hv.
  - split; [|reflexivity]. destruct Ho as [->|Ho]; [discriminate|exact Ho].
Qed.

Theorem wtns_sound f w : wtns_from_bytes f = Ok w ->
  starts_with f (ascii_wtns ++ u32 2) /\
  wf_prime w <> [] /\ N.of_nat (length (wf_values w)) = wf_n w /\
  Forall (fun v => blen v = blen (wf_prime w)) (wf_values w) /\
  (exists p, occurs f p (u32 (blen (wf_prime w)) ++ wf_prime w ++ u32 (wf_n w))) /\
  (exists p, occurs f p (concat (wf_values w))).
Proof.
  unfold wtns_from_bytes. destruct (w_from_bytes_m f 0) as [x q9] eqn:E. cbn [fst]. intros ->.
  unfold w_from_bytes_m in E. apply mbind_ok in E. destruct E as (m&q1&E1&E).
  destruct (bytes_eqb m magic_wtns) eqn:Em; [|discriminate]. apply bytes_eqb_eq in Em. subst m.
  apply mbind_ok in E. destruct E as (v&q2&E2&E). destruct (N.eqb_spec v 2) as [->|]; [|discriminate].
  apply mbind_ok in E. destruct E as (n&q3&E3&E). apply mbind_ok in E. destruct E as ([[p nn] d]&q4&E4&E).
  apply w_read_sound in E1. destruct E1 as (_&O1&->). apply w_u32_sound in E2. destruct E2 as (_&O2&->).
  destruct O1 as [O1|O1]; [discriminate|].
  assert (Hst : starts_with f (ascii_wtns ++ u32 2)).
  { assert (H : occurs f 0 (ascii_wtns ++ u32 2)) by (apply occurs_app; split; [exact O1|exact O2]).
    destruct H as (pre&rest&Hf&Hp). destruct pre; [|rewrite blen_cons in Hp; lia]. exists rest. exact Hf. }
  set (P := fun acc : wacc => let '(p, n, d) := acc in
     (p = [] \/ exists q, occurs f q (u32 (blen p) ++ p ++ u32 n)) /\ (d = [] \/ exists q, occurs f q d)).
  assert (HP : P (p, nn, d)).
  { rewrite n_rep_nat in E4.
    refine (nat_rep_acc_inv P (w_section f) _ (N.to_nat n) ([], 0, []) q3 _ q4 _ E4); [|cbn; auto].
    intros [[pa na] da] s [[pb nb] db] s' [Ha1 Ha2] H. unfold w_section in H.
    apply mbind_ok in H. destruct H as (ty&sa&_&H). apply mbind_ok in H. destruct H as (sz&sb&_&H).
    destruct (ty =? 1); [|destruct (ty =? 2)].
    - apply mbind_ok in H. destruct H as (fs&sc&Hc&H). apply mbind_ok in H. destruct H as (pp&sd&Hd&H).
      apply mbind_ok in H. destruct H as (n'&se&He&H). injection H as <- <- <- <-.
      apply w_u32_sound in Hc. destruct Hc as (_&Oc&->). apply w_read_sound in Hd. destruct Hd as (Hl&Od&->).
      apply w_u32_sound in He. destruct He as (_&Oe&_). split; [|exact Ha2].
      destruct Od as [->|Od]; [left; reflexivity|]. right. exists sb.
      rewrite Hl. apply occurs_app. split; [exact Oc|]. rewrite blen_u32. apply occurs_app.
      split; [exact Od|]. rewrite Hl. exact Oe.
    - apply mbind_ok in H. destruct H as (u&sc&Hc&H). apply mbind_ok in H. destruct H as (d'&sd&Hd&H).
      injection H as <- <- <- <-. apply w_read_sound in Hd. destruct Hd as (_&Od&_). split; [exact Ha1|].
      destruct Od as [->|Od]; [auto|]. right. eauto.
    - apply mbind_ok in H. destruct H as (u&sc&Hc&H). apply mbind_ok in H. destruct H as (d'&sd&Hd&H).
      injection H as <- <- <- <-. split; assumption. }
  unfold w_finish in E. destruct (N.eqb_spec (blen p) 0) as [|Hp]; [discriminate|]. cbn [negb] in E.
  destruct (N.eqb_spec (blen d) 0) as [|Hd]; [discriminate|]. cbn [negb] in E.
  destruct (N.eqb_spec (blen d) (nn * blen p)) as [Hm|]; [|discriminate]. injection E as <- _.
  cbn [wf_prime wf_n wf_values].
  assert (Hlen : length d = (N.to_nat nn * length p)%nat) by (unfold blen in Hm; lia).
  destruct (chunks_spec d (length p) (N.to_nat nn) Hlen) as (C1&C2&C3).
  split; [exact Hst|]. split; [intros ->; apply Hp; reflexivity|]. split; [rewrite C3; apply N2Nat.id|].
  split; [eapply Forall_impl; [|exact C2]; cbn; unfold blen; intros v Hv; lia|].
  rewrite C1. destruct HP as [[->|H1] [->|H2]]; try (exfalso; auto; fail); auto.
Qed.

(** Panics only through an announced size of 2^63 or more. *)
Theorem wtns_no_panic f : wtns_from_bytes f = Panic ->
  exists p b, occurs f p b /\ blen b = 8 /\ 2 ^ 63 <= le_val b.
Proof.
  unfold wtns_from_bytes.
  set (Q := exists p b, occurs f p b /\ blen b = 8 /\ 2 ^ 63 <= le_val b).
  assert (Hb : forall A B (m : Wm A) (k : A -> Wm B) p, (fst (m p) = Panic -> Q) ->
    (forall a q, m p = (Ok a, q) -> fst (k a q) = Panic -> Q) -> fst (mbind m k p) = Panic -> Q).
  { intros A B m k p H1 H2. unfold mbind. destruct (m p) as [[a|e|] q]; cbn [fst] in *; [eauto|intros Hx; discriminate Hx|auto]. }
  assert (Hr : forall n p, fst (w_read f n p) = Panic -> Q).
  { intros n p. unfold w_read. destruct (n =? 0); [discriminate|]. destruct (slice f p n); discriminate. }
  assert (Hu : forall p, fst (w_u32 f p) = Panic -> Q).
  { intros p. apply Hb; [apply Hr|]. intros; discriminate. }
  assert (Hu8 : forall p, fst (w_u64 f p) = Panic -> Q).
  { intros p. apply Hb; [apply Hr|]. intros; discriminate. }
  assert (Hal : forall sz p q, w_u64 f p = (Ok sz, q) -> forall q', fst (w_alloc sz q') = Panic -> Q).
  { intros sz p q H q'. unfold w_alloc. destruct (N.ltb_spec sz (2 ^ 63)) as [|Hge]; [discriminate|]. intros _.
    apply mbind_ok in H. destruct H as (b&s1&H1&H). injection H as <- <-.
    apply w_read_sound in H1. destruct H1 as (Hl&Ho&_). exists p, b. split; [|auto].
    destruct Ho as [->|Ho]; [discriminate|exact Ho]. }
  assert (Hsec : forall acc p, fst (w_section f acc p) = Panic -> Q).
  { intros [[pa na] da] p. unfold w_section. apply Hb; [apply Hu|]. intros ty q _.
    apply Hb; [apply Hu8|]. intros sz q' Hsz. destruct (ty =? 1); [|destruct (ty =? 2)].
    - apply Hb; [apply Hu|]. intros. revert H0. apply Hb; [apply Hr|]. intros. revert H1.
      apply Hb; [apply Hu|]. intros; discriminate.
    - apply Hb; [eapply Hal; exact Hsz|]. intros. revert H0. apply Hb; [apply Hr|]. intros; discriminate.
    - apply Hb; [eapply Hal; exact Hsz|]. intros. revert H0. apply Hb; [apply Hr|]. intros; discriminate. }
  assert (Hrep : forall n acc p, fst (nat_rep n (w_section f) acc p) = Panic -> Q).
  { induction n; intros acc p; [discriminate|]. cbn [nat_rep]. apply Hb; [apply Hsec|]. intros; eapply IHn; eauto. }
  unfold w_from_bytes_m. apply Hb; [apply Hr|]. intros m q1 _.
  destruct (bytes_eqb m magic_wtns); [|discriminate]. apply Hb; [apply Hu|]. intros v q2 _.
  destruct (v =? 2); [|discriminate]. apply Hb; [apply Hu|]. intros n q3 _.
  apply Hb; [rewrite n_rep_nat; apply Hrep|]. intros [[pa na] da] q4 _. unfold w_finish.
  destruct (negb (blen pa =? 0)); [|discriminate]. destruct (negb (blen da =? 0)); [|discriminate].
  destruct (blen da =? na * blen pa); discriminate.
Qed.
