(** The command-line witness reader: exact outcome on every byte string. *)
From Coq Require Import List Bool Arith NArith ZArith Lia.
From Coq Require Import Strings.Byte.
From Verif Require Import Res Bytes Reader R1cs SpecR1cs R1csFacts R1csExact R1csErrors Wtns SpecWtns WtnsFacts SpecWtnsExact R1csJsPanic.
Import ListNotations.
Local Open Scope N_scope.
Local Open Scope rd_scope.

Lemma w_u64_sound f p v q : w_u64 f p = (Ok v, q) -> v < 2 ^ 64 /\ occurs f p (u64 v) /\ q = p + 8.
Proof.
  intros H. apply mbind_ok in H. destruct H as (b&s1&H1&H). injection H as <- <-.
  apply w_read_sound in H1. destruct H1 as (Hl&Ho&->).
  assert (H4 : length b = 8%nat) by (unfold blen in Hl; lia).
  assert (Hb : u64 (le_val b) = b) by (unfold u64; rewrite <- H4; apply le_bytes_le_val).
  rewrite Hb. split.
  - pose proof (le_val_bound b) as Hv. rewrite H4 in Hv. exact Hv.
  - split; [|reflexivity]. destruct Ho as [->|Ho]; [discriminate|exact Ho].
Qed.
Lemma w_read_err f n p e q : w_read f n p = (Err e, q) -> e = WIo.
Proof. unfold w_read. destruct (n =? 0); [discriminate|]. destruct (slice f p n); [discriminate|]. intros H. injection H as <- _. reflexivity. Qed.
Lemma w_read_panic f n p q : w_read f n p <> (Panic, q).
Proof. unfold w_read. destruct (n =? 0); [discriminate|]. destruct (slice f p n); discriminate. Qed.
Lemma w_u32_err f p e q : w_u32 f p = (Err e, q) -> e = WIo.
Proof. intros H. apply mbind_err in H as [H|(?&?&_&H)]; [exact (w_read_err _ _ _ _ _ H)|discriminate]. Qed.
Lemma w_u64_err f p e q : w_u64 f p = (Err e, q) -> e = WIo.
Proof. intros H. apply mbind_err in H as [H|(?&?&_&H)]; [exact (w_read_err _ _ _ _ _ H)|discriminate]. Qed.
Lemma w_u32_panic f p q : w_u32 f p <> (Panic, q).
Proof. intros H. apply mbind_panic in H as [H|(?&?&_&H)]; [exact (w_read_panic _ _ _ _ H)|discriminate]. Qed.
Lemma w_u64_panic f p q : w_u64 f p <> (Panic, q).
Proof. intros H. apply mbind_panic in H as [H|(?&?&_&H)]; [exact (w_read_panic _ _ _ _ H)|discriminate]. Qed.

Section Cli.
  Variable f : list byte.

  Lemma ty_size (p ty sz s1 s2 : N) : w_u32 f p = (Ok ty, s1) -> w_u64 f s1 = (Ok sz, s2) ->
    ty < 2 ^ 32 /\ sz < 2 ^ 64 /\ occurs f p (u32 ty ++ u64 sz) /\ s2 = p + 12 /\ s2 <= blen f.
  Proof.
    intros H1 H2. apply w_u32_sound in H1 as (Wt&Ot&->). apply w_u64_sound in H2 as (Ws&Os&->).
    split; [exact Wt|]. split; [exact Ws|]. split; [apply occurs_app; rewrite blen_u32; auto|]. split; [lia|].
    apply occurs_le in Os. rewrite blen_u64 in Os. exact Os.
  Qed.

  Lemma section_iff acc p acc' q : w_section f acc p = (Ok acc', q) <->
    exists s enc, wsec_enc s enc /\ occurs f p enc /\ acc' = cli_step acc s /\ q = p + blen enc.
  Proof.
    destruct acc as [[pr n] d]. split.
    - intros H. unfold w_section in H. apply mbind_ok in H as (ty&s1&H1&H). apply mbind_ok in H as (sz&s2&H2&H).
      destruct (ty_size _ _ _ _ _ H1 H2) as (Wt&Ws&O&->&L). clear H1 H2.
      destruct (N.eqb_spec ty 1) as [->|N1]; [|destruct (N.eqb_spec ty 2) as [->|N2]].
      + apply mbind_ok in H as (fs&s3&H3&H). apply mbind_ok in H as (pp&s4&H4&H). apply mbind_ok in H as (n'&s5&H5&H). injection H as <- <-.
        apply w_u32_sound in H3 as (W3&O3&->). apply w_read_sound in H4 as (L4&O4&->). apply w_u32_sound in H5 as (W5&O5&->).
        subst fs. exists (WHeader pp n'), (u32 1 ++ u64 sz ++ u32 (blen pp) ++ pp ++ u32 n'). split; [constructor; assumption|].
        apply occ_here in O4. 2: { apply occurs_le in O3. rewrite blen_u32 in O3. exact O3. }
        split; [|split; [reflexivity|rewrite !blen_app, !blen_u32, blen_u64; lia]].
        rewrite app_assoc. apply occurs_app. split; [exact O|]. rewrite blen_app, blen_u32, blen_u64.
        apply occurs_app. split; [exact O3|]. rewrite blen_u32. apply occurs_app. split; [exact O4|exact O5].
      + apply mbind_ok in H as (u&s3&H3&H). unfold w_alloc in H3. destruct (N.ltb_spec sz (2 ^ 63)) as [Hs|]; [|discriminate]. injection H3 as _ <-.
        apply mbind_ok in H as (d'&s4&H4&H). injection H as <- <-. apply w_read_sound in H4 as (L4&O4&->). subst sz.
        exists (WData d'), (u32 2 ++ u64 (blen d') ++ d'). split; [constructor; exact Hs|].
        apply occ_here in O4; [|exact L]. split; [|split; [reflexivity|rewrite !blen_app, blen_u32, blen_u64; lia]].
        rewrite app_assoc. apply occurs_app. split; [exact O|exact O4].
      + apply mbind_ok in H as (u&s3&H3&H). unfold w_alloc in H3. destruct (N.ltb_spec sz (2 ^ 63)) as [Hs|]; [|discriminate]. injection H3 as _ <-.
        apply mbind_ok in H as (d'&s4&H4&H). injection H as <- <-. apply w_read_sound in H4 as (L4&O4&->). subst sz.
        exists (WOther ty d'), (u32 ty ++ u64 (blen d') ++ d'). split; [constructor; assumption|].
        apply occ_here in O4; [|exact L]. split; [|split; [reflexivity|rewrite !blen_app, blen_u32, blen_u64; lia]].
        rewrite app_assoc. apply occurs_app. split; [exact O|exact O4].
    - intros (s&enc&He&O&->&->). unfold w_section. destruct He as [p' n' len Hp Hn Hl|d' Hd|ty pl N1 N2 Ht Hd].
      + apply occurs_app in O as [O1 O]. apply occurs_app in O as [O2 O]. apply occurs_app in O as [O3 O]. apply occurs_app in O as [O4 O5]. repeat rewrite blen_u32 in O2. repeat rewrite blen_u32 in O3. repeat rewrite blen_u32 in O4. repeat rewrite blen_u32 in O5. repeat rewrite blen_u64 in O3. repeat rewrite blen_u64 in O4. repeat rewrite blen_u64 in O5.
        unfold mbind at 1. rewrite (w_u32_ok f _ 1 eq_refl O1). unfold mbind at 1. rewrite (w_u64_ok f _ _ Hl O2).
        change (1 =? 1) with true. cbv iota. unfold mbind at 1. rewrite (w_u32_ok f _ _ Hp O3). unfold mbind at 1. rewrite (w_read_ok f _ _ _ eq_refl O4).
        unfold mbind at 1. rewrite (w_u32_ok f _ _ Hn O5). unfold ret. cbn [cli_step]. apply pair_equal_spec. split; [reflexivity|]. rewrite !blen_app, !blen_u32, blen_u64. lia.
      + apply occurs_app in O as [O1 O]. apply occurs_app in O as [O2 O3]. rewrite blen_u32 in *. rewrite blen_u64 in *.
        unfold mbind at 1. rewrite (w_u32_ok f _ 2 eq_refl O1). unfold mbind at 1.
        rewrite (w_u64_ok f _ (blen d') ltac:(eapply N.lt_trans; [exact Hd|reflexivity]) O2).
        change (2 =? 1) with false. change (2 =? 2) with true. cbv iota. unfold mbind at 1, w_alloc. pose proof Hd as Hd'. apply N.ltb_lt in Hd'. rewrite Hd'.
        unfold mbind at 1. rewrite (w_read_ok f _ _ _ eq_refl O3). unfold ret. cbn [cli_step]. apply pair_equal_spec. split; [reflexivity|]. rewrite !blen_app, !blen_u32, blen_u64. lia.
      + apply occurs_app in O as [O1 O]. apply occurs_app in O as [O2 O3]. rewrite blen_u32 in *. rewrite blen_u64 in *.
        unfold mbind at 1. rewrite (w_u32_ok f _ ty Ht O1). unfold mbind at 1.
        rewrite (w_u64_ok f _ (blen pl) ltac:(eapply N.lt_trans; [exact Hd|reflexivity]) O2).
        apply N.eqb_neq in N1, N2. rewrite N1, N2. unfold mbind at 1, w_alloc. pose proof Hd as Hd'. apply N.ltb_lt in Hd'. rewrite Hd'.
        unfold mbind at 1. rewrite (w_read_ok f _ _ _ eq_refl O3). unfold ret. cbn [cli_step]. apply pair_equal_spec. split; [reflexivity|]. rewrite !blen_app, !blen_u32, blen_u64. lia.
  Qed.

  Lemma section_panic_iff acc p : (exists q, w_section f acc p = (Panic, q)) <->
    exists ty len, ty <> 1 /\ ty < 2 ^ 32 /\ 2 ^ 63 <= len /\ len < 2 ^ 64 /\ occurs f p (u32 ty ++ u64 len).
  Proof.
    destruct acc as [[pr n] d]. split.
    - intros [q H]. unfold w_section in H. apply mbind_panic in H as [H|(ty&s1&H1&H)]; [exfalso; exact (w_u32_panic _ _ _ H)|].
      apply mbind_panic in H as [H|(sz&s2&H2&H)]; [exfalso; exact (w_u64_panic _ _ _ H)|].
      destruct (ty_size _ _ _ _ _ H1 H2) as (Wt&Ws&O&->&L).
      destruct (N.eqb_spec ty 1) as [->|N1].
      { exfalso. apply mbind_panic in H as [H|(?&?&_&H)]; [exact (w_u32_panic _ _ _ H)|].
        apply mbind_panic in H as [H|(?&?&_&H)]; [exact (w_read_panic _ _ _ _ H)|].
        apply mbind_panic in H as [H|(?&?&_&H)]; [exact (w_u32_panic _ _ _ H)|discriminate]. }
      exists ty, sz. split; [exact N1|]. split; [exact Wt|]. split; [|auto].
      destruct (N.ltb_spec sz (2 ^ 63)) as [Hs|Hs]; [exfalso|exact Hs].
      destruct (ty =? 2); (apply mbind_panic in H as [H|(?&?&_&H)]; [unfold w_alloc in H; apply N.ltb_lt in Hs; rewrite Hs in H; discriminate|];
        apply mbind_panic in H as [H|(?&?&_&H)]; [exact (w_read_panic _ _ _ _ H)|discriminate]).
    - intros (ty&len&N1&Wt&Hl&Ws&O). exists (p + 12). unfold w_section. apply occurs_app in O as [O1 O2].
      unfold mbind at 1. rewrite (w_u32_ok f _ ty Wt O1). rewrite blen_u32 in *. unfold mbind at 1. rewrite (w_u64_ok f _ _ Ws O2).
      apply N.eqb_neq in N1. rewrite N1. apply N.ltb_ge in Hl. replace (p + 12) with (p + 4 + 8) by lia. destruct (ty =? 2); unfold mbind at 1, w_alloc; rewrite Hl; reflexivity.
  Qed.
  Lemma section_err acc p e q : w_section f acc p = (Err e, q) -> e = WIo.
  Proof.
    destruct acc as [[pr n] d]. intros H. unfold w_section in H. apply mbind_err in H as [H|(ty&s1&_&H)]; [exact (w_u32_err _ _ _ _ H)|].
    apply mbind_err in H as [H|(sz&s2&_&H)]; [exact (w_u64_err _ _ _ _ H)|].
    destruct (ty =? 1); [|destruct (ty =? 2)].
    - apply mbind_err in H as [H|(?&?&_&H)]; [exact (w_u32_err _ _ _ _ H)|]. apply mbind_err in H as [H|(?&?&_&H)]; [exact (w_read_err _ _ _ _ _ H)|].
      apply mbind_err in H as [H|(?&?&_&H)]; [exact (w_u32_err _ _ _ _ H)|discriminate].
    - apply mbind_err in H as [H|(?&?&_&H)]; [unfold w_alloc in H; destruct (sz <? 2 ^ 63); discriminate|].
      apply mbind_err in H as [H|(?&?&_&H)]; [exact (w_read_err _ _ _ _ _ H)|discriminate].
    - apply mbind_err in H as [H|(?&?&_&H)]; [unfold w_alloc in H; destruct (sz <? 2 ^ 63); discriminate|].
      apply mbind_err in H as [H|(?&?&_&H)]; [exact (w_read_err _ _ _ _ _ H)|discriminate].
  Qed.

  Lemma sections_iff n : forall acc p acc' q, p <= blen f ->
    (nat_rep n (w_section f) acc p = (Ok acc', q) <->
     exists secs encs, length secs = n /\ Forall2 wsec_enc secs encs /\ occurs f p (concat encs) /\
       acc' = fold_left cli_step secs acc /\ q = p + blen (concat encs)).
  Proof.
    induction n as [|n IH]; intros acc p acc' q Hp; split.
    - intros H. injection H as <- <-. exists [], []. split; [reflexivity|]. split; [constructor|]. split; [apply occ_here; [exact Hp|left; reflexivity]|].
      split; [reflexivity|]. cbn. lia.
    - intros (secs&encs&Hl&HF&O&->&->). destruct secs; [|discriminate]. inversion HF; subst. cbn [nat_rep fold_left concat]. rewrite blen_nil, N.add_0_r. reflexivity.
    - intros H. cbn [nat_rep] in H. apply mbind_ok in H as (a1&s1&H1&H). apply section_iff in H1 as (s&enc&He&O&->&->).
      pose proof (occurs_le _ _ _ O) as L. apply IH in H as (secs&encs&Hl&HF&O2&->&->); [|exact L].
      exists (s :: secs), (enc :: encs). split; [cbn; congruence|]. split; [constructor; assumption|]. cbn [concat fold_left].
      split; [apply occurs_app; auto|]. split; [reflexivity|]. rewrite blen_app. lia.
    - intros (secs&encs&Hl&HF&O&->&->). destruct secs as [|s secs]; [discriminate|]. inversion HF as [|? enc ? encs' He HF']; subst. cbn [concat fold_left] in *.
      apply occurs_app in O as [O1 O2]. injection Hl as Hl. cbn [nat_rep]. unfold mbind.
      rewrite (proj2 (section_iff acc p (cli_step acc s) (p + blen enc))) by (exists s, enc; auto).
      apply IH; [exact (occurs_le _ _ _ O1)|]. exists secs, encs'. rewrite blen_app. split; [exact Hl|]. split; [exact HF'|]. split; [exact O2|]. split; [reflexivity|lia].
  Qed.

  Lemma nat_rep_panic {S E A} n (body : A -> M S E A) a s s' : nat_rep n body a s = (Panic, s') ->
    exists k a1 s1, (k < n)%nat /\ nat_rep k body a s = (Ok a1, s1) /\ body a1 s1 = (Panic, s').
  Proof.
    revert a s; induction n; intros a s H; [discriminate|]. cbn [nat_rep] in H. apply mbind_panic in H as [H|(a1&s1&H1&H)].
    - exists 0%nat, a, s. split; [lia|]. split; [reflexivity|exact H].
    - destruct (IHn _ _ H) as (k&a2&s2&Hk&E1&E2). exists (Datatypes.S k), a2, s2. split; [lia|]. split; [|exact E2]. cbn [nat_rep]. unfold mbind. rewrite H1. exact E1.
  Qed.
  Lemma nat_rep_panic_intro {S E A} n (body : A -> M S E A) k a s a1 s1 s' : (k < n)%nat -> nat_rep k body a s = (Ok a1, s1) -> body a1 s1 = (Panic, s') ->
    nat_rep n body a s = (Panic, s').
  Proof.
    revert k a s. induction n; intros k a s Hk E1 E2; [lia|]. cbn [nat_rep]. unfold mbind. destruct k as [|k].
    - injection E1 as <- <-. rewrite E2. reflexivity.
    - cbn [nat_rep] in E1. apply mbind_ok in E1 as (a2&s2&H&E1). rewrite H. eapply IHn; [|exact E1|exact E2]. lia.
  Qed.

  (** The start of the file. *)
  Lemma starts_occurs bs : starts_with f bs <-> occurs f 0 bs.
  Proof.
    split.
    - intros [rest ->]. exists [], rest. auto.
    - intros (pre&rest&E&L). destruct pre; [|rewrite blen_cons in L; lia]. exists rest. exact E.
  Qed.
  Definition prologue : Wm N :=
    do m <- w_read f 4 ; check bytes_eqb m magic_wtns else WMagic ; do v <- w_u32 f ; check v =? 2 else WVersion ; w_u32 f.
  Lemma whole : w_from_bytes_m f 0 = (do n <- prologue ; do acc <- n_rep n (w_section f) ([], 0, []) ; w_finish acc) 0.
  Proof.
    unfold w_from_bytes_m, prologue, mbind. destruct (w_read f 4 0) as [[m|e|] s1]; try reflexivity.
    destruct (bytes_eqb m magic_wtns); [|reflexivity]. destruct (w_u32 f s1) as [[v|e|] s2]; try reflexivity. destruct (v =? 2); reflexivity.
  Qed.
  Lemma prologue_ok n q : prologue 0 = (Ok n, q) <-> n < 2 ^ 32 /\ occurs f 0 (ascii_wtns ++ u32 2 ++ u32 n) /\ q = 12.
  Proof.
    unfold prologue. split.
    - intros H. apply mbind_ok in H as (m&s1&H1&H). destruct (bytes_eqb m magic_wtns) eqn:Em; [|discriminate]. apply bytes_eqb_eq in Em. subst m.
      apply w_read_sound in H1 as (_&O1&->). destruct O1 as [O1|O1]; [discriminate O1|].
      apply mbind_ok in H as (v&s2&H2&H). apply w_u32_sound in H2 as (_&O2&->). destruct (N.eqb_spec v 2) as [->|]; [|discriminate].
      apply w_u32_sound in H as (Wn&O3&->). split; [exact Wn|]. split; [|reflexivity]. apply occurs_app. split; [exact O1|]. apply occurs_app. split; [exact O2|exact O3].
    - intros (Wn&O&->). apply occurs_app in O as [O1 O]. apply occurs_app in O as [O2 O3]. rewrite blen_u32 in O3.
      unfold mbind at 1. rewrite (w_read_ok f 0 ascii_wtns 4 eq_refl O1). change (bytes_eqb ascii_wtns magic_wtns) with true. cbv iota.
      unfold mbind at 1. rewrite (w_u32_ok f (0 + 4) 2 eq_refl O2). change (2 =? 2) with true. cbv iota. exact (w_u32_ok f _ n Wn O3).
  Qed.
  Lemma prologue_err e q : prologue 0 = (Err e, q) ->
    e = WIo \/ (e = WMagic /\ exists b, blen b = 4 /\ starts_with f b /\ b <> ascii_wtns) \/
    (e = WVersion /\ exists v, v < 2 ^ 32 /\ v <> 2 /\ starts_with f (ascii_wtns ++ u32 v)).
  Proof.
    unfold prologue. intros H. apply mbind_err in H as [H|(m&s1&H1&H)]; [left; exact (w_read_err _ _ _ _ _ H)|].
    apply w_read_sound in H1 as (L1&O1&->). destruct O1 as [->|O1]; [discriminate L1|].
    destruct (bytes_eqb m magic_wtns) eqn:Em.
    2: { right. left. injection H as <- _. split; [reflexivity|]. exists m. split; [exact L1|]. split; [apply starts_occurs; exact O1|].
         intros ->. change (bytes_eqb ascii_wtns magic_wtns) with true in Em. discriminate. }
    apply bytes_eqb_eq in Em. subst m. apply mbind_err in H as [H|(v&s2&H2&H)]; [left; exact (w_u32_err _ _ _ _ H)|].
    apply w_u32_sound in H2 as (Wv&O2&->). destruct (N.eqb_spec v 2) as [->|Nv]; [left; exact (w_u32_err _ _ _ _ H)|].
    right. right. injection H as <- _. split; [reflexivity|]. exists v. split; [exact Wv|]. split; [exact Nv|]. apply starts_occurs, occurs_app. auto.
  Qed.
  Lemma prologue_panic q : prologue 0 <> (Panic, q).
  Proof.
    unfold prologue. intros H. apply mbind_panic in H as [H|(m&s1&_&H)]; [exact (w_read_panic _ _ _ _ H)|]. destruct (bytes_eqb m magic_wtns); [|discriminate].
    apply mbind_panic in H as [H|(v&s2&_&H)]; [exact (w_u32_panic _ _ _ H)|]. destruct (v =? 2); [exact (w_u32_panic _ _ _ H)|discriminate].
  Qed.

  (** All sections read: the accumulator. *)
  Definition all_read (acc : wacc) : Prop := exists n q, prologue 0 = (Ok n, 12) /\ n_rep n (w_section f) ([], 0, []) 12 = (Ok acc, q).
  Lemma begins_run n secs after : begins_with f n secs after <->
    prologue 0 = (Ok n, 12) /\ exists encs, Forall2 wsec_enc secs encs /\ occurs f 12 (concat encs ++ after).
  Proof.
    unfold begins_with. split.
    - intros (Hn&encs&HF&O). apply starts_occurs in O. rewrite app_assoc in O. rewrite app_assoc in O. apply occurs_app in O as [O1 O2]. rewrite <- app_assoc in O1.
      split; [apply prologue_ok; auto|]. exists encs. split; [exact HF|]. exact O2.
    - intros (Hp&encs&HF&O). apply prologue_ok in Hp as (Hn&O1&_). split; [exact Hn|]. exists encs. split; [exact HF|]. apply starts_occurs.
      rewrite app_assoc. rewrite app_assoc. apply occurs_app. rewrite <- app_assoc. split; [exact O1|exact O].
  Qed.
  Lemma all_read_iff acc : all_read acc <-> exists secs, has_sections f secs /\ acc = (last_header secs, last_data secs).
  Proof.
    unfold all_read, has_sections. split.
    - intros (n&q&Hp&H). rewrite n_rep_nat in H. pose proof Hp as Hp'. apply prologue_ok in Hp' as (Hn&O&_).
      apply sections_iff in H as (secs&encs&Hl&HF&Oc&->&->); [|apply occurs_le in O; rewrite !blen_app, !blen_u32 in O; exact O].
      exists secs. split; [|apply cli_fold]. apply begins_run. rewrite Hl, N2Nat.id. split; [exact Hp|]. exists encs. rewrite app_nil_r. auto.
    - intros (secs&H&->). apply begins_run in H as (Hp&encs&HF&O). rewrite app_nil_r in O. exists (N.of_nat (length secs)), (12 + blen (concat encs)).
      split; [exact Hp|]. rewrite n_rep_nat, Nat2N.id. apply prologue_ok in Hp as (Hn&O1&_).
      apply sections_iff; [apply occurs_le in O1; rewrite !blen_app, !blen_u32 in O1; exact O1|].
      exists secs, encs. split; [reflexivity|]. split; [exact HF|]. split; [exact O|]. split; [symmetry; apply cli_fold|reflexivity].
  Qed.

  Lemma run_finish acc : all_read acc -> wtns_from_bytes f = fst (w_finish acc 0).
  Proof.
    intros (n&q&Hp&H). unfold wtns_from_bytes. rewrite whole. unfold mbind at 1. rewrite Hp. unfold mbind. rewrite H.
    destruct acc as [[p k] d]. unfold w_finish. destruct (negb (blen p =? 0)); [|reflexivity]. destruct (negb (blen d =? 0)); [|reflexivity].
    destruct (blen d =? k * blen p); reflexivity.
  Qed.
  (** Every outcome that is not a reading error comes from a finished walk, the prologue, or a
      huge announced size. *)
  Lemma outcomes :
    (exists acc, all_read acc) \/
    wtns_from_bytes f = Err WIo \/
    (wtns_from_bytes f = Err WMagic /\ exists b, blen b = 4 /\ starts_with f b /\ b <> ascii_wtns) \/
    (wtns_from_bytes f = Err WVersion /\ exists v, v < 2 ^ 32 /\ v <> 2 /\ starts_with f (ascii_wtns ++ u32 v)) \/
    (wtns_from_bytes f = Panic /\ exists n secs ty len, N.of_nat (length secs) < n /\ ty <> 1 /\ ty < 2 ^ 32 /\ 2 ^ 63 <= len /\ len < 2 ^ 64 /\
        begins_with f n secs (u32 ty ++ u64 len)).
  Proof.
    destruct (prologue 0) as [[n|e|] q] eqn:Hp.
    - pose proof Hp as Hp'. apply prologue_ok in Hp' as (Hn&O&->).
      assert (L12 : 12 <= blen f) by (apply occurs_le in O; rewrite !blen_app, !blen_u32 in O; exact O).
      destruct (n_rep n (w_section f) ([], 0, []) 12) as [[acc|e|] q] eqn:H.
      + left. exists acc, n, q. auto.
      + right. left. pose proof H as H'. rewrite n_rep_nat in H'. apply nat_rep_err in H' as (k&a1&s1&_&_&He). apply section_err in He. subst e.
        unfold wtns_from_bytes. rewrite whole. unfold mbind at 1. rewrite Hp. unfold mbind. rewrite H. reflexivity.
      + right. right. right. right. split.
        * unfold wtns_from_bytes. rewrite whole. unfold mbind at 1. rewrite Hp. unfold mbind. rewrite H. reflexivity.
        * rewrite n_rep_nat in H. apply nat_rep_panic in H as (k&a1&s1&Hk&H1&H2). apply sections_iff in H1 as (secs&encs&Hl&HF&Oc&->&->); [|exact L12].
          destruct (proj1 (section_panic_iff _ _) (ex_intro _ _ H2)) as (ty&len&N1&Wt&Hlen&Wl&O2).
          exists n, secs, ty, len. split; [lia|]. do 4 (split; [assumption|]). apply begins_run. split; [exact Hp|]. exists encs. split; [exact HF|].
          apply occurs_app. auto.
    - right. apply prologue_err in Hp as Hc.
      assert (Hw : wtns_from_bytes f = Err e) by (unfold wtns_from_bytes; rewrite whole; unfold mbind at 1; rewrite Hp; reflexivity).
      destruct Hc as [->|[[-> H]|[-> H]]]; [left; exact Hw|right; left; auto|right; right; left; auto].
    - exfalso. exact (prologue_panic _ Hp).
  Qed.
End Cli.

Lemma elements_chunks d p n vals : p <> [] -> blen d = n * blen p -> elements (blen p) d vals -> N.of_nat (length vals) = n ->
  chunks d (length p) (N.to_nat n) = vals.
Proof.
  intros Hp Hm [Hc Hl] Hn. assert (Hlen : length d = (N.to_nat n * length p)%nat) by (unfold blen in Hm; lia).
  destruct (chunks_spec d (length p) (N.to_nat n) Hlen) as (C1&C2&C3). apply (concat_inj (length p)).
  - destruct p; [contradiction|cbn; lia].
  - exact C2.
  - eapply Forall_impl; [|exact Hl]. cbn. unfold blen. intros v Hv. lia.
  - congruence.
Qed.
Lemma nonempty_blen (l : list byte) : (blen l =? 0) = true <-> l = [].
Proof. destruct l; [split; reflexivity|]. rewrite blen_cons. split; [|discriminate]. intros H. apply N.eqb_eq in H. lia. Qed.
Lemma nonempty_blen' (l : list byte) : (blen l =? 0) = false <-> l <> [].
Proof. rewrite <- nonempty_blen. destruct (blen l =? 0); split; intros H; try discriminate; try reflexivity. exfalso; apply H; reflexivity. Qed.

(** Outcome of [w_finish] on what was collected. *)
Lemma finish_cases f secs p n : has_sections f secs -> last_header secs = (p, n) ->
  (p = [] /\ wtns_from_bytes f = Err WNoHeader) \/
  (p <> [] /\ last_data secs = [] /\ wtns_from_bytes f = Err WNoData) \/
  (p <> [] /\ last_data secs <> [] /\ blen (last_data secs) <> n * blen p /\ wtns_from_bytes f = Err WSizeMismatch) \/
  (p <> [] /\ last_data secs <> [] /\ blen (last_data secs) = n * blen p /\
     wtns_from_bytes f = Ok (WitnessFile p n (chunks (last_data secs) (length p) (N.to_nat n)))).
Proof.
  intros H E. assert (R : all_read f (last_header secs, last_data secs)) by (apply all_read_iff; eauto).
  rewrite (run_finish f _ R), E. unfold w_finish.
  destruct (blen p =? 0) eqn:E1; cbn [negb]; [apply nonempty_blen in E1; left; split; [exact E1|reflexivity]|apply nonempty_blen' in E1].
  right. destruct (blen (last_data secs) =? 0) eqn:E2; cbn [negb]; [apply nonempty_blen in E2; left; auto|apply nonempty_blen' in E2].
  right. destruct (N.eqb_spec (blen (last_data secs)) (n * blen p)) as [E3|E3]; [right|left]; auto.
Qed.

Lemma has_sections_outcome f secs : has_sections f secs ->
  wtns_from_bytes f <> Err WIo /\ wtns_from_bytes f <> Err WMagic /\ wtns_from_bytes f <> Err WVersion /\ wtns_from_bytes f <> Panic.
Proof.
  intros H. destruct (last_header secs) as [p n] eqn:E.
  destruct (finish_cases f secs p n H E) as [[_ ->]|[(_&_&->)|[(_&_&_&->)|(_&_&_&->)]]]; repeat split; discriminate.
Qed.
Lemma has_sections_unique f secs secs' : has_sections f secs -> has_sections f secs' -> 
  last_header secs = last_header secs' /\ last_data secs = last_data secs'.
Proof.
  intros H H'. assert (R : all_read f (last_header secs, last_data secs)) by (apply all_read_iff; eauto).
  assert (R' : all_read f (last_header secs', last_data secs')) by (apply all_read_iff; eauto).
  destruct R as (n&q&Hp&R). destruct R' as (n'&q'&Hp'&R'). rewrite Hp in Hp'. injection Hp' as <-. rewrite R in R'.
  injection R' as Hh Hd _. auto.
Qed.

Theorem wtns_accepts_iff f w : wtns_from_bytes f = Ok w <-> wtns_holds f (wf_prime w) (wf_n w) (wf_values w).
Proof.
  split.
  - intros H. destruct (outcomes f) as [[acc R]|[E|[[E _]|[[E _]|[E _]]]]]; try (rewrite E in H; discriminate).
    apply all_read_iff in R as (secs&Hs&->). destruct (last_header secs) as [p n] eqn:Eh.
    destruct (finish_cases f secs p n Hs Eh) as [[_ E]|[(_&_&E)|[(_&_&_&E)|(Hp&Hd&Hm&E)]]]; rewrite E in H; try discriminate.
    injection H as <-. cbn [wf_prime wf_n wf_values]. exists secs. split; [exact Hs|]. split; [exact Eh|]. split; [exact Hp|]. split; [exact Hd|].
    assert (Hlen : length (last_data secs) = (N.to_nat n * length p)%nat) by (unfold blen in Hm; lia).
    destruct (chunks_spec _ _ _ Hlen) as (C1&C2&C3). split; [split; [exact C1|]|rewrite C3; apply N2Nat.id].
    eapply Forall_impl; [|exact C2]. cbn. unfold blen. intros v Hv. lia.
  - intros (secs&Hs&Eh&Hp&Hd&He&Hn).
    assert (Hm : blen (last_data secs) = wf_n w * blen (wf_prime w)).
    { destruct He as [Hc Hl]. rewrite <- Hc, <- Hn. unfold blen at 1. rewrite (concat_length_const (length (wf_prime w))).
      - unfold blen. lia.
      - eapply Forall_impl; [|exact Hl]. cbn. unfold blen. intros v Hv. lia. }
    destruct (finish_cases f secs _ _ Hs Eh) as [[E0 _]|[(_&E0&_)|[(_&_&E0&_)|(_&_&_&E)]]]; try contradiction.
    rewrite E, (elements_chunks _ _ _ _ Hp Hm He Hn). destruct w; reflexivity.
Qed.

Theorem wtns_errors_iff f :
  (wtns_from_bytes f = Err WMagic <-> exists b, blen b = 4 /\ starts_with f b /\ b <> ascii_wtns) /\
  (wtns_from_bytes f = Err WVersion <-> exists v, v < 2 ^ 32 /\ v <> 2 /\ starts_with f (ascii_wtns ++ u32 v)) /\
  (wtns_from_bytes f = Err WNoHeader <-> exists secs, has_sections f secs /\ fst (last_header secs) = []) /\
  (wtns_from_bytes f = Err WNoData <-> exists secs, has_sections f secs /\ fst (last_header secs) <> [] /\ last_data secs = []) /\
  (wtns_from_bytes f = Err WSizeMismatch <-> exists secs p n, has_sections f secs /\ last_header secs = (p, n) /\ p <> [] /\
     last_data secs <> [] /\ blen (last_data secs) <> n * blen p) /\
  (wtns_from_bytes f = Panic <-> exists n secs ty len, N.of_nat (length secs) < n /\ ty <> 1 /\ ty < 2 ^ 32 /\ 2 ^ 63 <= len /\ len < 2 ^ 64 /\
        begins_with f n secs (u32 ty ++ u64 len)).
Proof.
  assert (Hcase : forall o, wtns_from_bytes f = o -> (exists secs p n, has_sections f secs /\ last_header secs = (p, n)) \/ 
     o = Err WIo \/ (o = Err WMagic /\ exists b, blen b = 4 /\ starts_with f b /\ b <> ascii_wtns) \/
    (o = Err WVersion /\ exists v, v < 2 ^ 32 /\ v <> 2 /\ starts_with f (ascii_wtns ++ u32 v)) \/
    (o = Panic /\ exists n secs ty len, N.of_nat (length secs) < n /\ ty <> 1 /\ ty < 2 ^ 32 /\ 2 ^ 63 <= len /\ len < 2 ^ 64 /\
        begins_with f n secs (u32 ty ++ u64 len))).
  { intros o <-. destruct (outcomes f) as [[acc R]|R]; [left|right; exact R]. apply all_read_iff in R as (secs&Hs&_).
    destruct (last_header secs) as [p n] eqn:E. exists secs, p, n. auto. }
  split; [|split; [|split; [|split; [|split]]]].
  - split.
    + intros H. destruct (Hcase _ H) as [(secs&p&n&Hs&_)|[E|[[_ E]|[[E _]|[E _]]]]]; try discriminate; [|exact E].
      exfalso. exact (proj1 (proj2 (has_sections_outcome f secs Hs)) H).
    + intros (b&L&S&N). apply starts_occurs in S. unfold wtns_from_bytes, w_from_bytes_m. unfold mbind at 1. rewrite (w_read_ok f 0 b 4 L S).
      destruct (bytes_eqb b magic_wtns) eqn:Em; [exfalso; apply bytes_eqb_eq in Em; exact (N Em)|]. reflexivity.
  - split.
    + intros H. destruct (Hcase _ H) as [(secs&p&n&Hs&_)|[E|[[E _]|[[_ E]|[E _]]]]]; try discriminate; [|exact E].
      exfalso. exact (proj1 (proj2 (proj2 (has_sections_outcome f secs Hs))) H).
    + intros (v&Wv&Nv&S). apply starts_occurs in S. apply occurs_app in S as [O1 O2]. unfold wtns_from_bytes, w_from_bytes_m. unfold mbind at 1.
      rewrite (w_read_ok f 0 ascii_wtns 4 eq_refl O1). change (bytes_eqb ascii_wtns magic_wtns) with true. cbv iota.
      unfold mbind at 1. rewrite (w_u32_ok f (0 + 4) v Wv O2). apply N.eqb_neq in Nv. rewrite Nv. reflexivity.
  - split.
    + intros H. destruct (Hcase _ H) as [(secs&p&n&Hs&Eh)|[E|[[E _]|[[E _]|[E _]]]]]; try discriminate.
      destruct (finish_cases f secs p n Hs Eh) as [[Hp _]|[(_&_&E)|[(_&_&_&E)|(_&_&_&E)]]]; try (rewrite E in H; discriminate).
      exists secs. rewrite Eh. auto.
    + intros (secs&Hs&Hp). destruct (last_header secs) as [p n] eqn:Eh. cbn [fst] in Hp.
      destruct (finish_cases f secs p n Hs Eh) as [[_ E]|[(E&_&_)|[(E&_&_&_)|(E&_&_&_)]]]; [exact E|contradiction..].
  - split.
    + intros H. destruct (Hcase _ H) as [(secs&p&n&Hs&Eh)|[E|[[E _]|[[E _]|[E _]]]]]; try discriminate.
      destruct (finish_cases f secs p n Hs Eh) as [[_ E]|[(Hp&Hd&E)|[(_&_&_&E)|(_&_&_&E)]]]; try (rewrite E in H; discriminate).
      exists secs. rewrite Eh. auto.
    + intros (secs&Hs&Hp&Hd). destruct (last_header secs) as [p n] eqn:Eh. cbn [fst] in Hp.
      destruct (finish_cases f secs p n Hs Eh) as [[E _]|[(_&_&E)|[(_&E&_&_)|(_&E&_&_)]]]; [contradiction|exact E|contradiction..].
  - split.
    + intros H. destruct (Hcase _ H) as [(secs&p&n&Hs&Eh)|[E|[[E _]|[[E _]|[E _]]]]]; try discriminate.
      destruct (finish_cases f secs p n Hs Eh) as [[_ E]|[(_&_&E)|[(Hp&Hd&Hm&E)|(_&_&_&E)]]]; try (rewrite E in H; discriminate).
      exists secs, p, n. auto.
    + intros (secs&p&n&Hs&Eh&Hp&Hd&Hm).
      destruct (finish_cases f secs p n Hs Eh) as [[E _]|[(_&E&_)|[(_&_&_&E)|(_&_&E&_)]]]; [contradiction..|exact E|contradiction].
  - split.
    + intros H. destruct (Hcase _ H) as [(secs&p&n&Hs&_)|[E|[[E _]|[[E _]|[_ E]]]]]; try discriminate; [|exact E].
      exfalso. exact (proj2 (proj2 (proj2 (has_sections_outcome f secs Hs))) H).
    + intros (n&secs&ty&len&Hl&N1&Wt&H63&H64&Hb). apply begins_run in Hb as (Hp&encs&HF&O). apply occurs_app in O as [O1 O2].
      pose proof Hp as Hp'. apply prologue_ok in Hp' as (_&Op&_). 
      assert (L12 : 12 <= blen f) by (apply occurs_le in Op; rewrite !blen_app, !blen_u32 in Op; exact Op).
      assert (E1 : nat_rep (length secs) (w_section f) ([], 0, []) 12 = (Ok (fold_left cli_step secs ([], 0, [])), 12 + blen (concat encs))).
      { apply sections_iff; [exact L12|]. exists secs, encs. auto. }
      destruct (proj2 (section_panic_iff f (fold_left cli_step secs ([], 0, [])) (12 + blen (concat encs)))) as [q E2]; [exists ty, len; auto 10|].
      unfold wtns_from_bytes. rewrite whole. unfold mbind at 1. rewrite Hp. unfold mbind. rewrite n_rep_nat.
      rewrite (nat_rep_panic_intro (N.to_nat n) (w_section f) (length secs) _ _ _ _ q ltac:(lia) E1 E2). reflexivity.
Qed.
