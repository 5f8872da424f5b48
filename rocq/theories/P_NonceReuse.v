(** Property theorems C85: what two messages encrypted under the same key and the same nonce (or
    counter block) give away, and what somebody without the key can then forge. *)
From Coq Require Import List Bool Arith NArith Lia.
From Coq Require Import Strings.String Strings.Byte.
From Verif Require Import Res Bytes Text Utf8 Fld Groups Bn254 Qap Core R1cs Circuit Inputs Combined Gcm SpecGcm GcmFacts Aes P_Gcm Gf128 SpecGhash GhashFacts P_Ghash P_Ser
  ArkSer FileSys Commands CommandsFacts P_Commands SpecCombined CombinedFacts JsZkenc.
Lemma some_eq0 {A} (x y : A) : Some x = Some y -> x = y.
Proof. intros [= ->]. reflexivity. Qed.
Lemma ok_eq0 {E A} (x y : A) : @Ok E A x = Ok y -> x = y.
Proof. intros [= ->]. reflexivity. Qed.
Import ListNotations.
Local Open Scope N_scope.
Local Opaque gf_mul.

(** [out] is what encrypt_gcm (Rust) or aesGcmEncrypt (JavaScript) made of [m]. *)
Definition gcm_output (aes : cipherT) (key nonce m out : list byte) : Prop :=
  encrypt_gcm aes key nonce m = Ok out \/ aesGcmEncrypt aes key nonce m = Ok out.
(** GHASH of a ciphertext under a hash key: Horner's rule over its blocks. *)
Definition ghash_under (h : N) (c : list byte) : N := fold_left (fun acc b => gf_mul (N.lxor acc b) h) (ghash_blocks c) 0.

Lemma gcm_output_shape aes key nonce m out : List.length nonce = 12%nat -> gcm_output aes key nonce m out ->
  List.length key = 32%nat /\ blen m <= gcm_limit /\
  exists c, gcm_masked aes key nonce m c /\ out = nonce ++ c ++ spec_tag aes key nonce c.
Proof.
  intros Hn H. destruct (C38_failures aes key nonce m) as (F1&F2&F3&F4).
  destruct (Nat.eq_dec (List.length key) 32) as [Hk|Hk].
  2: { exfalso. destruct (F1 Hk) as [A B]. destruct H; congruence. }
  destruct (N.le_gt_cases (blen m) gcm_limit) as [Hm|Hm].
  2: { exfalso. specialize (F4 Hk Hm). destruct H as [H|H]; [|congruence].
       destruct (N.le_gt_cases (blen m) (2 ^ 36)) as [H2|H2]; [rewrite (F2 Hk Hm H2) in H|rewrite (F3 Hk H2) in H]; discriminate. }
  destruct (C38_round_trip aes key nonce m Hk Hn Hm) as (c&Hc&R1&R2&_). cbv zeta in *.
  split; [exact Hk|]. split; [exact Hm|]. exists c. split; [exact Hc|]. destruct H as [H|H]; [rewrite R1 in H|rewrite R2 in H]; injection H as <-; reflexivity.
Qed.
Lemma nth_after {A} (d : A) a b i : nth (List.length a + i) (a ++ b) d = nth i b d.
Proof. rewrite app_nth2 by lia. f_equal. lia. Qed.
Lemma nth_before {A} (d : A) a b i : (i < List.length a)%nat -> nth i (a ++ b) d = nth i a d.
Proof. intros H. apply app_nth1. exact H. Qed.
Lemma two_masks x y k : bxor (bxor x k) (bxor y k) = bxor x y.
Proof. rewrite (bxor_assoc x k), (bxor_comm k), bxor_bxor. reflexivity. Qed.

(** The difference of the two files is the difference of the two messages, byte for byte, whichever
    tool made each. *)
Theorem C85_same_nonce :
  forall aes key nonce m m' out out', List.length nonce = 12%nat ->
    gcm_output aes key nonce m out -> gcm_output aes key nonce m' out' ->
    forall i, (i < List.length m)%nat -> (i < List.length m')%nat ->
      bxor (nth (12 + i) out x00) (nth (12 + i) out' x00) = bxor (nth i m x00) (nth i m' x00).
Proof.
  intros aes key nonce m m' out out' Hn H H' i Hi Hi'.
  apply gcm_output_shape in H as (_&_&c&[Hl Hc]&->); [|exact Hn]. apply gcm_output_shape in H' as (_&_&c'&[Hl' Hc']&->); [|exact Hn].
  rewrite <- Hn, !nth_after, !nth_before by lia. rewrite Hc, Hc' by assumption. apply two_masks.
Qed.
Print Assumptions C85_same_nonce.

(** So who has both files and one message reads the other as far as the known one reaches. *)
Theorem C85_known_message :
  forall aes key nonce m m' out out', List.length nonce = 12%nat ->
    gcm_output aes key nonce m out -> gcm_output aes key nonce m' out' -> (List.length m' <= List.length m)%nat ->
    m' = firstn (List.length out' - 28) (xor_bytes (xor_bytes (skipn 12 out) (skipn 12 out')) m).
Proof.
  intros aes key nonce m m' out out' Hn H H' Hle.
  assert (S := C85_same_nonce aes key nonce m m' out out' Hn H H').
  apply gcm_output_shape in H as (_&_&c&[Hl Hc]&->); [|exact Hn]. apply gcm_output_shape in H' as (_&_&c'&[Hl' Hc']&->); [|exact Hn].
  assert (L : List.length (nonce ++ c' ++ spec_tag aes key nonce c') = (List.length m' + 28)%nat) by (rewrite !app_length, spec_tag_length; lia).
  assert (L1 : List.length (skipn 12 (nonce ++ c ++ spec_tag aes key nonce c)) = (List.length m + 16)%nat) by (rewrite skipn_length, !app_length, spec_tag_length; lia).
  assert (L2 : List.length (skipn 12 (nonce ++ c' ++ spec_tag aes key nonce c')) = (List.length m' + 16)%nat) by (rewrite skipn_length, L; lia).
  assert (X : forall l i, nth i (skipn 12 (nonce ++ l)) x00 = nth (12 + i) (nonce ++ l) x00).
  { intros l i. rewrite <- Hn, nth_after, skipn_app, skipn_all, Nat.sub_diag. reflexivity. }
  apply (nth_ext _ _ x00 x00).
  - rewrite firstn_length, !xor_bytes_length, L1, L2, L. lia.
  - intros i Hi. rewrite nth_firstn by lia. rewrite xor_bytes_nth by (rewrite ?xor_bytes_length, ?L1, ?L2; lia).
    rewrite xor_bytes_nth by (rewrite ?L1, ?L2; lia). rewrite !X, S by lia.
    rewrite (bxor_comm (nth i m x00)), bxor_bxor. reflexivity.
Qed.
Print Assumptions C85_known_message.

(** ** Forgery *)
(** The elements below a bound that pass a test. *)
Lemma filtered (p : N -> bool) B : exists l, NoDup l /\ forall h, In h l <-> h < B /\ p h = true.
Proof.
  induction B as [|B (l&Hnd&Hl)] using N.peano_ind.
  - exists []. split; [constructor|]. intros h. split; [intros []|lia].
  - destruct (p B) eqn:E.
    + exists (B :: l). split; [constructor; [rewrite Hl; lia|exact Hnd]|]. intros h. cbn [In]. rewrite Hl. split.
      * intros [<-|[H1 H2]]; [split; [lia|exact E]|split; [lia|exact H2]].
      * intros [H1 H2]. destruct (N.eq_dec B h) as [->|Hne]; [left; reflexivity|right; split; [lia|exact H2]].
    + exists l. split; [exact Hnd|]. intros h. rewrite Hl. split; intros [H1 H2]; (split; [|exact H2]); [lia|].
      destruct (N.eq_dec h B) as [->|Hne]; [congruence|lia].
Qed.
Lemma tag_lxor aes key nonce c : blen c <= gcm_limit -> 
  be_val (spec_tag aes key nonce c) = N.lxor (ghash_under (hash_key aes key) c) (be_val (aes key (nonce ++ be_bytes 4 1))).
Proof. exact (tag_val aes key nonce c). Qed.

(** Two different files with one nonce that one key accepts leave few candidates for the hash key (the
    encryption of the zero block): the files alone determine a list, at most one longer than the longer
    ciphertext has blocks, that holds the hash key of every such key. *)
Theorem C85_few_hash_keys :
  forall (nonce c c' tag tag' : list byte), List.length nonce = 12%nat -> List.length tag = 16%nat -> List.length tag' = 16%nat -> c <> c' ->
    exists candidates : list N,
      (List.length candidates <= Nat.max (block_count c) (block_count c') + 1)%nat /\
      forall aes key m m', decrypt_gcm aes key (nonce ++ c ++ tag) = Ok m -> decrypt_gcm aes key (nonce ++ c' ++ tag') = Ok m' ->
        In (be_val (aes key (repeat x00 16))) candidates.
Proof.
  intros nonce c c' tag tag' Hn Ht Ht' Hne.
  destruct (filtered (fun h => N.eqb (N.lxor (ghash_under h c) (ghash_under h c')) (N.lxor (be_val tag) (be_val tag'))) (2 ^ 128)) as (l&Hnd&Hl).
  destruct (N.le_gt_cases (blen c) gcm_limit) as [Hc|Hc].
  2: { exists []. split; [cbn; lia|]. intros aes key m m' A _. exfalso.
       destruct (accepted_tag aes key nonce c tag Hn Ht) as (H&_); [rewrite A; exact I|]. lia. }
  destruct (N.le_gt_cases (blen c') gcm_limit) as [Hc'|Hc'].
  2: { exists []. split; [cbn; lia|]. intros aes key m m' _ B. exfalso.
       destruct (accepted_tag aes key nonce c' tag' Hn Ht') as (H&_); [rewrite B; exact I|]. lia. }
  exists l. split.
  - apply (ghash_universal c c' (N.lxor (be_val tag) (be_val tag')) l Hc Hc' Hne Hnd).
    intros h Hh. apply Hl in Hh as [H1 H2]. apply N.eqb_eq in H2. split; [exact H1|exact H2].
  - intros aes key m m' A B. apply Hl. split; [apply hash_key_lt|]. apply N.eqb_eq.
    destruct (accepted_tag aes key nonce c tag Hn Ht) as (_&EA&_); [rewrite A; exact I|].
    destruct (accepted_tag aes key nonce c' tag' Hn Ht') as (_&EB&_); [rewrite B; exact I|].
    rewrite EA, EB, !tag_lxor by assumption. change (be_val (aes key (repeat x00 16))) with (hash_key aes key).
    rewrite swap4, N.lxor_nilpotent, N.lxor_0_r. reflexivity.
Qed.
Print Assumptions C85_few_hash_keys.

(** And who knows the hash key, one file and its message makes a file for any message not longer, with
    that nonce: it is accepted and opens to the chosen message. *)
Theorem C85_forgery :
  forall aes key nonce c tag m m', List.length nonce = 12%nat -> List.length tag = 16%nat ->
    decrypt_gcm aes key (nonce ++ c ++ tag) = Ok m -> (List.length m' <= List.length m)%nat ->
    let h := be_val (aes key (repeat x00 16)) in
    let c' := xor_bytes (xor_bytes c m) m' in
    let tag' := be_bytes 16 (N.lxor (be_val tag) (N.lxor (ghash_under h c) (ghash_under h c'))) in
    decrypt_gcm aes key (nonce ++ c' ++ tag') = Ok m' /\ aesGcmDecrypt aes key (nonce ++ c' ++ tag') = Ok m'.
Proof.
  intros aes key nonce c tag m m' Hn Ht H Hle h c' tag'.
  destruct (accepted_tag aes key nonce c tag Hn Ht) as (Hc&Etag&Hk); [rewrite H; exact I|].
  assert (Hmask : gcm_masked aes key nonce c m).
  { apply C39_accepts_iff in H as (_&nonce2&c2&Hn2&_&E&Hm). apply app_inj_len in E; [|congruence]. destruct E as [<- E].
    assert (Hl : List.length c = List.length c2) by (apply (f_equal (@List.length byte)) in E; rewrite !app_length, spec_tag_length in E; lia).
    apply app_inj_len in E; [|exact Hl]. destruct E as [<- _]. exact Hm. }
  destruct Hmask as [Hl Hmask].
  assert (L : List.length c' = List.length m') by (unfold c'; rewrite !xor_bytes_length; lia).
  assert (M : gcm_masked aes key nonce m' c').
  { split; [exact L|]. intros i Hi. unfold c'. rewrite xor_bytes_nth by (rewrite ?xor_bytes_length; lia). rewrite xor_bytes_nth by lia.
    rewrite Hmask by lia. rewrite (bxor_comm (nth i c x00) (bxor _ _)), (bxor_comm (nth i c x00)), bxor_bxor. apply bxor_comm. }
  assert (Hc' : blen c' <= gcm_limit) by (unfold blen in *; lia).
  assert (T : tag' = spec_tag aes key nonce c').
  { apply block_val_inj; [apply be_bytes_length|apply spec_tag_length|]. unfold tag'. rewrite be_val_be_bytes.
    rewrite tag_lxor by exact Hc'. rewrite Etag, tag_lxor by exact Hc. fold h. change (hash_key aes key) with h.
    set (k := be_val (aes key (nonce ++ be_bytes 4 1))). set (x := ghash_under h c). set (y := ghash_under h c').
    assert (B : N.lxor (N.lxor x k) (N.lxor x y) = N.lxor y k).
    { rewrite (N.lxor_comm x k), N.lxor_assoc, <- (N.lxor_assoc x x y), N.lxor_nilpotent, N.lxor_0_l. apply N.lxor_comm. }
    rewrite B. apply N.mod_small. change (256 ^ N.of_nat 16) with (2 ^ 128). apply GcmFacts.lxor_lt.
    - apply spec_ghash_lt; [apply hash_key_lt|exact Hc'].
    - apply be_val_16, enc_block_len. }
  assert (R : decrypt_gcm aes key (nonce ++ c' ++ tag') = Ok m').
  { apply C39_accepts_iff. split; [exact Hk|]. exists nonce, c'. split; [exact Hn|]. split; [exact Hc'|]. split; [rewrite T; reflexivity|].
    apply masked_sym. exact M. }
  split; [exact R|]. apply C39_tools_agree. exact R.
Qed.
Print Assumptions C85_forgery.

(** ** Counter mode *)
Lemma ctr_output_shape aes key iv m out : List.length iv = 16%nat -> encrypt_ctr aes key iv m = Ok out ->
  exists c, ctr_masked aes key iv m c /\ out = iv ++ c.
Proof.
  intros Hi H. destruct (Nat.eq_dec (List.length key) 32) as [Hk|Hk].
  - destruct (C40_round_trip aes key iv m Hk Hi) as (c&Hc&E&_). exists c. split; [exact Hc|congruence].
  - exfalso. unfold encrypt_ctr in H. apply Nat.eqb_neq in Hk. rewrite Hk in H. discriminate.
Qed.
(** Here two different counter blocks are not enough: if the second one is [d] blocks further (modulo
    2^64, with the same first half), the streams overlap from block [d] of the first message on. *)
Theorem C85_overlapping_counters :
  forall aes key iv iv' m m' out out' (d : nat), List.length iv = 16%nat -> List.length iv' = 16%nat ->
    firstn 8 iv' = firstn 8 iv -> be_val (skipn 8 iv') = (be_val (skipn 8 iv) + N.of_nat d) mod 2 ^ 64 ->
    encrypt_ctr aes key iv m = Ok out -> encrypt_ctr aes key iv' m' = Ok out' ->
    forall i, (16 * d + i < List.length m)%nat -> (i < List.length m')%nat ->
      bxor (nth (16 + (16 * d + i)) out x00) (nth (16 + i) out' x00) = bxor (nth (16 * d + i) m x00) (nth i m' x00).
Proof.
  intros aes key iv iv' m m' out out' d Hv Hv' Hf Hd H H' i Hi Hi'.
  apply ctr_output_shape in H as (c&[Hl Hc]&->); [|exact Hv]. apply ctr_output_shape in H' as (c'&[Hl' Hc']&->); [|exact Hv'].
  rewrite <- Hv at 1. rewrite <- Hv' at 2. rewrite !nth_after. rewrite Hc, Hc' by assumption.
  assert (S : stream_byte aes key (fun j => firstn 8 iv' ++ be_bytes 8 (be_val (skipn 8 iv') + j)) i =
              stream_byte aes key (fun j => firstn 8 iv ++ be_bytes 8 (be_val (skipn 8 iv) + j)) (16 * d + i)).
  { unfold stream_byte. rewrite Hf, Hd. replace (16 * d + i)%nat with (i + d * 16)%nat by lia. rewrite Nat.mod_add, Nat.div_add by lia.
    assert (B : be_bytes 8 ((be_val (skipn 8 iv) + N.of_nat d) mod 2 ^ 64 + N.of_nat (i / 16)) = be_bytes 8 (be_val (skipn 8 iv) + N.of_nat (i / 16 + d))).
    { rewrite <- (be_bytes_be_val (be_bytes 8 (_ mod _ + _))), <- (be_bytes_be_val (be_bytes 8 (be_val (skipn 8 iv) + N.of_nat (i / 16 + d)))).
      rewrite !be_bytes_length, !be_val_be_bytes. f_equal. change (256 ^ N.of_nat 8) with (2 ^ 64).
      rewrite N.add_mod_idemp_l by (apply N.pow_nonzero; discriminate). f_equal. lia. }
    rewrite B. reflexivity. }
  rewrite S. apply two_masks.
Qed.
Print Assumptions C85_overlapping_counters.

(** ** The command *)
(** Two runs of encrypt with the same random draws on the same circuit, symbol and input files: the two
    output files differ in the encrypted messages only, and the difference is that of the messages. *)
Theorem C85_same_draws :
  forall (E : pairingT Fr) (C : codecT E) (D : domainT Fr) (kdf : GT E -> Core.key) (aes : cipherT)
         json_parse max_off v co cp sp ip mp op inc s1 s1' cp2 sp2 ip2 mp2 op2 s2 s2' m m',
    List.length (c_nonce co) = 12%nat ->
    s2 cp2 = s1 cp -> s2 sp2 = s1 sp -> s2 ip2 = s1 ip -> s1 mp = Some m -> s2 mp2 = Some m' ->
    run (encrypt_command C D kdf aes json_parse max_off v co cp sp ip mp op inc) s1 = (s1', Ok tt) ->
    run (encrypt_command C D kdf aes json_parse max_off v co cp2 sp2 ip2 mp2 op2 inc) s2 = (s2', Ok tt) ->
    exists front e e', s1' op = Some (front ++ e) /\ s2' op2 = Some (front ++ e') /\
      List.length e = (List.length m + 28)%nat /\ List.length e' = (List.length m' + 28)%nat /\
      forall i, (i < List.length m)%nat -> (i < List.length m')%nat ->
        bxor (nth (12 + i) e x00) (nth (12 + i) e' x00) = bxor (nth i m x00) (nth i m' x00).
Proof.
  intros E C D kdf aes jp mx v co cp sp ip mp op inc s1 s1' cp2 sp2 ip2 mp2 op2 s2 s2' m m' Hn Q1 Q2 Q3 M1 M2 R1 R2.
  apply run_exec', exec_encrypt in R1 as [[_ X]|(cb&sb&ib&mb&t&c&ct&k&enc&A1&A2&A3&A4&A5&A6&A7&R1)]; [congruence|].
  apply run_exec', exec_encrypt in R2 as [[_ X]|(cb2&sb2&ib2&mb2&t2&c2&ct2&k2&enc2&B1&B2&B3&B4&B5&B6&B7&R2)]; [congruence|].
  cbv zeta in R1, R2. destruct R1 as [[_ [X|X]]|[-> _]]; [discriminate..|]. destruct R2 as [[_ [X|X]]|[-> _]]; [discriminate..|].
  rewrite Q1, A1 in B1. apply some_eq0 in B1. rewrite Q2, A2 in B2. apply some_eq0 in B2. rewrite Q3, A3 in B3. apply some_eq0 in B3. subst cb2 sb2 ib2.
  rewrite M1 in A4. apply some_eq0 in A4. rewrite M2 in B4. apply some_eq0 in B4. subst mb mb2.
  assert (P : t2 = t /\ c2 = c).
  { destruct A5 as (r&st&syms&inp&D1&D2&D3&D4&D5&->). destruct B5 as (r'&st'&syms'&inp'&F1&F2&F3&F4&F5&->).
    rewrite D1 in F1. apply ok_eq0 in F1. rewrite D2 in F2. apply some_eq0 in F2. subst r' st'. rewrite D3 in F3. apply ok_eq0 in F3.
    rewrite D4 in F4. apply some_eq0 in F4. subst syms' t2. rewrite D5 in F5. apply ok_eq0 in F5. subst inp'. split; reflexivity. }
  destruct P as [-> ->]. rewrite A6 in B6. apply ok_eq0 in B6. apply pair_equal_spec in B6 as [<- <-].
  exists (cli_combine inc (ct_bytes C ct) (utf8_encode t) []), enc, enc2.
  assert (F : forall x, cli_combine inc (ct_bytes C ct) (utf8_encode t) x = cli_combine inc (ct_bytes C ct) (utf8_encode t) [] ++ x).
  { intros x. unfold cli_combine. rewrite app_nil_r. reflexivity. }
  split; [rewrite fs_write_same, F; reflexivity|]. split; [rewrite fs_write_same, F; reflexivity|].
  assert (G1 : gcm_output aes k (c_nonce co) m enc) by (left; exact A7). assert (G2 : gcm_output aes k (c_nonce co) m' enc2) by (left; exact B7).
  split; [|split; [|exact (C85_same_nonce aes k (c_nonce co) m m' enc enc2 Hn G1 G2)]].
  - apply gcm_output_shape in G1 as (_&_&x&[L _]&->); [|exact Hn]. rewrite !app_length, spec_tag_length. lia.
  - apply gcm_output_shape in G2 as (_&_&x&[L _]&->); [|exact Hn]. rewrite !app_length, spec_tag_length. lia.
Qed.
Print Assumptions C85_same_draws.

(** And two calls of the JavaScript encrypt with the same random draws, circuit, symbols and inputs. *)
Theorem C85_same_draws_js :
  forall (E : pairingT Fr) (C : codecT E) (D : domainT Fr) (kdf : GT E -> Core.key) (aes : cipherT) stringify W fuel
         co cb sym inputs m m' inc f f' k k',
    List.length (c_nonce co) = 12%nat ->
    js_encrypt E C D kdf aes stringify W fuel co cb sym inputs m inc = Ok (f, k) ->
    js_encrypt E C D kdf aes stringify W fuel co cb sym inputs m' inc = Ok (f', k') ->
    k' = k /\
    exists front e e', f = front ++ e /\ f' = front ++ e' /\
      List.length e = (List.length m + 28)%nat /\ List.length e' = (List.length m' + 28)%nat /\
      forall i, (i < List.length m)%nat -> (i < List.length m')%nat ->
        bxor (nth (12 + i) e x00) (nth (12 + i) e' x00) = bxor (nth i m x00) (nth i m' x00).
Proof.
  intros E C D kdf aes stringify W fuel co cb sym inputs m m' inc f f' k k' Hn H H'. unfold js_encrypt in H, H'.
  destruct (js_encap E C D kdf W fuel co cb sym inputs) as [[ctb k0]|e|]; cbn [rbind fst snd] in H, H'; [|discriminate..].
  destruct (aesGcmEncrypt aes k0 (c_nonce co) m) as [enc|e|] eqn:G; cbn [rmap_err rbind] in H; [|discriminate..].
  destruct (aesGcmEncrypt aes k0 (c_nonce co) m') as [enc'|e|] eqn:G'; cbn [rmap_err rbind] in H'; [|discriminate..].
  rewrite js_combine_layout in H, H'. cbn [rmap_err rbind] in H, H'.
  apply ok_eq0, pair_equal_spec in H as [<- <-]. apply ok_eq0, pair_equal_spec in H' as [<- <-].
  assert (G1 : gcm_output aes k0 (c_nonce co) m enc) by (right; exact G). assert (G2 : gcm_output aes k0 (c_nonce co) m' enc') by (right; exact G').
  split; [reflexivity|].
  exists (layout (if inc then x01 else x00) (Parts ctb (if inc then Some (stringify inputs) else None) [])), enc, enc'.
  assert (F : forall t w q x, layout t (Parts w q x) = layout t (Parts w q []) ++ x).
  { intros t w q x. unfold layout. destruct q; cbn [p_witness p_public p_message app]; rewrite ?app_nil_r, <- ?app_assoc; reflexivity. }
  split; [apply F|]. split; [apply F|].
  split; [|split; [|exact (C85_same_nonce aes k0 (c_nonce co) m m' enc enc' Hn G1 G2)]].
  - apply gcm_output_shape in G1 as (_&_&x&[L _]&->); [|exact Hn]. rewrite !app_length, spec_tag_length. lia.
  - apply gcm_output_shape in G2 as (_&_&x&[L _]&->); [|exact Hn]. rewrite !app_length, spec_tag_length. lia.
Qed.
Print Assumptions C85_same_draws_js.

(** The real cipher: "hi there" and "HELLO" under one key and nonce; the second is read off the first,
    and with the hash key a file opening to "bye" is forged from the first one. *)
Definition ex_reuse_key : list byte := repeat x07 32.
Definition ex_reuse_nonce : list byte := repeat x0b 12.
Definition ex_hi : list byte := [x68; x69; x20; x74; x68; x65; x72; x65].
Definition ex_hello : list byte := [x48; x45; x4c; x4c; x4f].
Definition ex_bye : list byte := [x62; x79; x65].
Definition ex_out (m : list byte) : list byte := match encrypt_gcm aes256 ex_reuse_key ex_reuse_nonce m with Ok o => o | _ => [] end.
Lemma ex_out_made m : blen m <= gcm_limit -> exists c, gcm_masked aes256 ex_reuse_key ex_reuse_nonce m c /\
  encrypt_gcm aes256 ex_reuse_key ex_reuse_nonce m = Ok (ex_out m) /\ ex_out m = ex_reuse_nonce ++ c ++ spec_tag aes256 ex_reuse_key ex_reuse_nonce c /\
  decrypt_gcm aes256 ex_reuse_key (ex_out m) = Ok m.
Proof.
  intros H. destruct (C38_round_trip aes256 ex_reuse_key ex_reuse_nonce m eq_refl eq_refl H) as (c&Hc&E&_&_&R&_). exists c. unfold ex_out. rewrite E. auto.
Qed.
Example C85_nonvacuous :
  gcm_output aes256 ex_reuse_key ex_reuse_nonce ex_hi (ex_out ex_hi) /\ gcm_output aes256 ex_reuse_key ex_reuse_nonce ex_hello (ex_out ex_hello) /\
  ex_hello = firstn (List.length (ex_out ex_hello) - 28) (xor_bytes (xor_bytes (skipn 12 (ex_out ex_hi)) (skipn 12 (ex_out ex_hello))) ex_hi) /\
  (exists c c' tag tag', c <> c' /\ List.length tag = 16%nat /\ List.length tag' = 16%nat /\
     decrypt_gcm aes256 ex_reuse_key (ex_reuse_nonce ++ c ++ tag) = Ok ex_hi /\ decrypt_gcm aes256 ex_reuse_key (ex_reuse_nonce ++ c' ++ tag') = Ok ex_bye) /\
  (exists out out', encrypt_ctr aes256 ex_reuse_key (repeat x00 16) (repeat x41 40) = Ok out /\
     encrypt_ctr aes256 ex_reuse_key (repeat x00 15 ++ [x01]) ex_hi = Ok out' /\
     bxor (nth 32 out x00) (nth 16 out' x00) = bxor x41 x68).
Proof.
  assert (G : forall m, blen m <= gcm_limit -> gcm_output aes256 ex_reuse_key ex_reuse_nonce m (ex_out m)).
  { intros m H. destruct (ex_out_made m H) as (c&_&E&_). left. exact E. }
  assert (L1 : blen ex_hi <= gcm_limit) by (vm_compute; discriminate). assert (L2 : blen ex_hello <= gcm_limit) by (vm_compute; discriminate).
  split; [apply G; exact L1|]. split; [apply G; exact L2|].
  split; [exact (C85_known_message aes256 ex_reuse_key ex_reuse_nonce ex_hi ex_hello _ _ eq_refl (G _ L1) (G _ L2) ltac:(vm_compute; repeat constructor))|].
  split.
  - destruct (ex_out_made ex_hi L1) as (c&_&_&E&R). rewrite E in R.
    assert (F := C85_forgery aes256 ex_reuse_key ex_reuse_nonce c _ ex_hi ex_bye eq_refl (spec_tag_length _ _ _ _) R ltac:(vm_compute; repeat constructor)).
    cbv zeta in F. destruct F as [F _]. eexists c, _, _, _. split; [|split; [apply spec_tag_length|split; [apply be_bytes_length|split; [exact R|exact F]]]].
    intros X. apply (f_equal (@List.length byte)) in X. apply C39_accepts_iff in R as (_&n2&c2&Hn2&_&E2&[L _]).
    assert (Lc : List.length c = 8%nat).
    { apply (f_equal (@List.length byte)) in E2. rewrite !app_length, !spec_tag_length in E2. change (List.length ex_reuse_nonce) with 12%nat in E2.
      change (List.length ex_hi) with 8%nat in L. lia. }
    rewrite !xor_bytes_length, Lc in X. vm_compute in X. discriminate.
  - destruct (C40_round_trip aes256 ex_reuse_key (repeat x00 16) (repeat x41 40) eq_refl eq_refl) as (c&_&E&_).
    destruct (C40_round_trip aes256 ex_reuse_key (repeat x00 15 ++ [x01]) ex_hi eq_refl eq_refl) as (c'&_&E'&_).
    exists (repeat x00 16 ++ c), ((repeat x00 15 ++ [x01]) ++ c'). split; [exact E|]. split; [exact E'|].
    exact (C85_overlapping_counters aes256 ex_reuse_key (repeat x00 16) (repeat x00 15 ++ [x01]) (repeat x41 40) ex_hi _ _ 1 eq_refl eq_refl eq_refl eq_refl E E' 0 ltac:(vm_compute; repeat constructor) ltac:(vm_compute; repeat constructor)).
Qed.

(** The command, run twice with one set of draws. *)
Example C85_same_draws_nonvacuous : forall aes : cipherT,
  exists s1' s2',
    run (encrypt_command ex_codec bn_domain ex_kdf32 aes ex_json (2 ^ 63 - 1) ex_visits ex_coins
           (lit "c") (lit "s") (lit "i") (lit "m") (lit "o") true) ex_fs = (s1', Ok tt) /\
    run (encrypt_command ex_codec bn_domain ex_kdf32 aes ex_json (2 ^ 63 - 1) ex_visits ex_coins
           (lit "c") (lit "s") (lit "i") (lit "m") (lit "o2") true) (fs_write (lit "m") ex_hello ex_fs) = (s2', Ok tt) /\
    ex_fs (lit "m") <> Some ex_hello.
Proof.
  intros aes. destruct (C41_nonvacuous aes true) as (s1'&R&_). exists s1'.
  assert (R0 := R). apply run_exec', exec_encrypt in R0 as [[_ X]|(cb&sb&ib&mb&t&c&ct&k&enc&A1&A2&A3&A4&A5&A6&A7&_)]; [congruence|].
  assert (Hk : List.length k = 32%nat) by (apply encap_key in A6 as [g ->]; apply le_bytes_length).
  assert (L : blen ex_hello <= gcm_limit) by (vm_compute; discriminate).
  destruct (C38_round_trip aes k (c_nonce ex_coins) ex_hello Hk eq_refl L) as (x&_&Ex&_).
  eexists. split; [exact R|]. split; [|vm_compute; discriminate].
  eapply run_encrypt_command; [exact A1|exact A2|exact A3|reflexivity|exact A5|exact A6|exact Ex].
Qed.
