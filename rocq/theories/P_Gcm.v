(** Property theorems C38-C40: AES-GCM and AES-CTR.  Specification: SpecGcm.v (and SpecGhash.v for
    the field).  Every theorem holds for every block cipher; Aes.v has AES-256 itself and the
    published vectors. *)
From Coq Require Import List Bool Arith NArith Lia.
From Coq Require Import Strings.Byte.
From Verif Require Import Res Bytes Gcm SpecGcm GcmFacts Aes.
Import ListNotations.
Local Open Scope N_scope.

(** ** C38 *)
Lemma key_ok (key : list byte) : length key = 32%nat -> negb (Nat.eqb (length key) 32) = false.
Proof. intros ->. reflexivity. Qed.
Lemma key_bad (key : list byte) : length key <> 32%nat -> negb (Nat.eqb (length key) 32) = true.
Proof. intros H. apply Nat.eqb_neq in H. rewrite H. reflexivity. Qed.
Lemma blen_len (a b : list byte) : length a = length b -> blen a = blen b.
Proof. unfold blen. congruence. Qed.
Lemma limit_bits c : blen c <= c_max -> 8 * blen c < 2 ^ 64.
Proof. change c_max with 68719476752. change (2 ^ 64) with 18446744073709551616. lia. Qed.
Lemma limit_c_max n : n <= gcm_limit -> n <= c_max.
Proof. change gcm_limit with 68719476704. change c_max with 68719476752. lia. Qed.
Lemma split3 (nonce c tag : list byte) : length nonce = 12%nat -> length tag = 16%nat ->
  firstn 12 (nonce ++ c ++ tag) = nonce /\ skipn 12 (nonce ++ c ++ tag) = c ++ tag /\
  (length (c ++ tag) - 16)%nat = length c /\ firstn (length c) (c ++ tag) = c /\ skipn (length c) (c ++ tag) = tag /\
  Nat.ltb (length (nonce ++ c ++ tag)) 28 = false.
Proof.
  intros Hn Ht. rewrite <- Hn. rewrite !firstn_app, !skipn_app, !firstn_all, !skipn_all, !Nat.sub_diag.
  rewrite !firstn_O, !skipn_O, !app_nil_r. cbn [app]. repeat split.
  - rewrite app_length. lia.
  - apply Nat.ltb_ge. rewrite !app_length. lia.
Qed.
Lemma unsplit3 (data : list byte) : (28 <= length data)%nat ->
  exists nonce c tag, data = nonce ++ c ++ tag /\ length nonce = 12%nat /\ length tag = 16%nat.
Proof.
  intros H. exists (firstn 12 data), (firstn (length data - 28) (skipn 12 data)), (skipn (length data - 28) (skipn 12 data)).
  rewrite !firstn_skipn. split; [reflexivity|]. rewrite firstn_length, !skipn_length. lia.
Qed.
Lemma keystream32_ok aes key nonce m : blen m <= gcm_limit -> keystream32 aes key nonce m = Ok (apply_keystream aes key (gcm_block nonce) 2 m).
Proof. intros H. unfold keystream32. change ctr32_max with gcm_limit. apply N.ltb_ge in H. rewrite H. reflexivity. Qed.
Lemma keystream32_panics aes key nonce m : gcm_limit < blen m -> keystream32 aes key nonce m = Panic.
Proof. intros H. unfold keystream32. change ctr32_max with gcm_limit. apply N.ltb_lt in H. rewrite H. reflexivity. Qed.

Lemma decrypt_gcm_split aes key nonce c tag :
  length key = 32%nat -> length nonce = 12%nat -> length tag = 16%nat -> blen c <= c_max ->
  decrypt_gcm aes key (nonce ++ c ++ tag) =
  if bytes_eq (spec_tag aes key nonce c) tag then keystream32 aes key nonce c else Err CipherError.
Proof.
  intros Hk Hn Ht Hc. unfold decrypt_gcm. rewrite key_ok by exact Hk.
  destruct (split3 nonce c tag Hn Ht) as (E1&E2&E3&E4&E5&E6).
  rewrite E1, E2, E3, E4, E5, E6. cbv zeta.
  rewrite (proj2 (N.ltb_ge _ _) Hc). rewrite gcm_tag_is by (apply limit_bits; exact Hc). reflexivity.
Qed.
Lemma decrypt_gcm_huge aes key nonce c tag :
  length key = 32%nat -> length nonce = 12%nat -> length tag = 16%nat -> c_max < blen c ->
  decrypt_gcm aes key (nonce ++ c ++ tag) = Err CipherError.
Proof.
  intros Hk Hn Ht Hc. unfold decrypt_gcm. rewrite key_ok by exact Hk.
  destruct (split3 nonce c tag Hn Ht) as (E1&E2&E3&E4&E5&E6).
  rewrite E1, E2, E3, E4, E5, E6. cbv zeta.
  rewrite (proj2 (N.ltb_lt _ _) Hc). reflexivity.
Qed.
Lemma aesGcmDecrypt_split aes key nonce c tag :
  length key = 32%nat -> length nonce = 12%nat -> length tag = 16%nat -> blen c <= gcm_limit ->
  aesGcmDecrypt aes key (nonce ++ c ++ tag) =
  if bytes_eq (spec_tag aes key nonce c) tag then Ok (apply_keystream aes key (gcm_block nonce) 2 c) else Err CipherError.
Proof.
  intros Hk Hn Ht Hc. unfold aesGcmDecrypt. rewrite key_ok by exact Hk.
  destruct (split3 nonce c tag Hn Ht) as (E1&E2&E3&E4&E5&E6). change (12 + 16)%nat with 28%nat.
  rewrite E1, E2, E3, E4, E5, E6. cbv zeta. change ctr32_max with gcm_limit.
  rewrite (proj2 (N.ltb_ge _ _) Hc). rewrite gcm_tag_is by (apply limit_bits, limit_c_max; exact Hc). reflexivity.
Qed.
Lemma aesGcmDecrypt_huge aes key nonce c tag :
  length key = 32%nat -> length nonce = 12%nat -> length tag = 16%nat -> gcm_limit < blen c ->
  aesGcmDecrypt aes key (nonce ++ c ++ tag) = Err CipherError.
Proof.
  intros Hk Hn Ht Hc. unfold aesGcmDecrypt. rewrite key_ok by exact Hk.
  destruct (split3 nonce c tag Hn Ht) as (E1&E2&E3&E4&E5&E6). change (12 + 16)%nat with 28%nat.
  rewrite E1, E2, E3, E4, E5, E6. cbv zeta. change ctr32_max with gcm_limit.
  rewrite (proj2 (N.ltb_lt _ _) Hc). reflexivity.
Qed.
Lemma encrypt_gcm_ok aes key nonce m : length key = 32%nat -> blen m <= gcm_limit ->
  exists c, gcm_masked aes key nonce m c /\ encrypt_gcm aes key nonce m = Ok (nonce ++ c ++ spec_tag aes key nonce c).
Proof.
  intros Hk Hm. pose proof (gcm_stream aes key nonce m) as Hc. set (c := apply_keystream _ _ _ _ m) in *.
  exists c. split; [exact Hc|]. unfold encrypt_gcm. rewrite key_ok by exact Hk.
  assert (Hp : p_max <? blen m = false).
  { apply N.ltb_ge. revert Hm. change gcm_limit with 68719476704. change p_max with 68719476736. lia. }
  rewrite Hp, keystream32_ok by exact Hm. cbn [rbind]. fold c. rewrite gcm_tag_is; [reflexivity|].
  apply limit_bits, limit_c_max. rewrite (blen_len c m); [exact Hm|]. apply Hc.
Qed.

(** The Rust and the JavaScript encryption give nonce, masked message and tag; each decryption gives
    the message back.  The output is 28 bytes longer. *)
Theorem C38_round_trip :
  forall aes key nonce m,
    length key = 32%nat -> length nonce = 12%nat -> blen m <= gcm_limit ->
    exists c,
      gcm_masked aes key nonce m c /\
      let out := nonce ++ c ++ spec_tag aes key nonce c in
      encrypt_gcm aes key nonce m = Ok out /\ aesGcmEncrypt aes key nonce m = Ok out /\
      length out = (length m + 28)%nat /\
      decrypt_gcm aes key out = Ok m /\ aesGcmDecrypt aes key out = Ok m.
Proof.
  intros aes key nonce m Hk Hn Hm. destruct (encrypt_gcm_ok aes key nonce m Hk Hm) as (c&Hc&He).
  exists c. split; [exact Hc|]. cbv zeta. split; [exact He|].
  assert (Hl : length c = length m) by apply Hc.
  assert (Hb : blen c <= gcm_limit) by (rewrite (blen_len c m Hl); exact Hm).
  assert (Hi : apply_keystream aes key (gcm_block nonce) 2 c = m) by (apply gcm_stream_is, masked_sym; exact Hc).
  assert (Ht : bytes_eq (spec_tag aes key nonce c) (spec_tag aes key nonce c) = true) by (apply bytes_eq_iff; reflexivity).
  split; [|split; [|split]].
  - unfold aesGcmEncrypt. rewrite key_ok by exact Hk. change ctr32_max with gcm_limit. rewrite (proj2 (N.ltb_ge _ _) Hm).
    rewrite (gcm_stream_is _ _ _ _ _ Hc). rewrite gcm_tag_is by (apply limit_bits, limit_c_max; exact Hb). reflexivity.
  - rewrite !app_length, spec_tag_length. lia.
  - rewrite decrypt_gcm_split by (auto using spec_tag_length; apply limit_c_max; exact Hb).
    rewrite Ht, keystream32_ok by exact Hb. rewrite Hi. reflexivity.
  - rewrite aesGcmDecrypt_split by auto using spec_tag_length. rewrite Ht, Hi. reflexivity.
Qed.
Print Assumptions C38_round_trip.

(** Every other input of the encryption: which failure it is.  (Rust panics in the last 32 bytes
    below its own limit of 2^36 bytes.) *)
Theorem C38_failures :
  forall aes key nonce m,
    (length key <> 32%nat -> encrypt_gcm aes key nonce m = Err BadKeyLength /\ aesGcmEncrypt aes key nonce m = Err BadKeyLength) /\
    (length key = 32%nat -> gcm_limit < blen m -> blen m <= 2 ^ 36 -> encrypt_gcm aes key nonce m = Panic) /\
    (length key = 32%nat -> 2 ^ 36 < blen m -> encrypt_gcm aes key nonce m = Err CipherError) /\
    (length key = 32%nat -> gcm_limit < blen m -> aesGcmEncrypt aes key nonce m = Err CipherError).
Proof.
  intros aes key nonce m. split; [|split; [|split]].
  - intros H. unfold encrypt_gcm, aesGcmEncrypt. rewrite key_bad by exact H. split; reflexivity.
  - intros Hk Hl Hp. unfold encrypt_gcm. rewrite key_ok by exact Hk. unfold p_max. rewrite (proj2 (N.ltb_ge _ _) Hp).
    rewrite keystream32_panics by exact Hl. reflexivity.
  - intros Hk Hp. unfold encrypt_gcm. rewrite key_ok by exact Hk. unfold p_max. rewrite (proj2 (N.ltb_lt _ _) Hp). reflexivity.
  - intros Hk Hl. unfold aesGcmEncrypt. rewrite key_ok by exact Hk. change ctr32_max with gcm_limit.
    rewrite (proj2 (N.ltb_lt _ _) Hl). reflexivity.
Qed.
Print Assumptions C38_failures.

Example C38_nonvacuous :
  let key := repeat x41 32 in let nonce := repeat x42 12 in let m := repeat x43 37 in
  blen m <= gcm_limit /\
  match encrypt_gcm aes256 key nonce m with
  | Ok out => length out = 65%nat /\ decrypt_gcm aes256 key out = Ok m /\ aesGcmDecrypt aes256 key out = Ok m
  | _ => False
  end.
Proof. vm_compute. split; [discriminate|]. repeat split. Qed.

(** ** C39 *)
(** Acceptance is exactly the shape nonce || c || tag with the right tag. *)
Theorem C39_accepts_iff :
  forall aes key data m,
    decrypt_gcm aes key data = Ok m <->
    length key = 32%nat /\
    exists nonce c,
      length nonce = 12%nat /\ blen c <= gcm_limit /\
      data = nonce ++ c ++ spec_tag aes key nonce c /\ gcm_masked aes key nonce c m.
Proof.
  intros aes key data m. split.
  - intros H. destruct (Nat.eq_dec (length key) 32) as [Hk|Hk].
    2:{ unfold decrypt_gcm in H. rewrite key_bad in H by exact Hk. discriminate. }
    split; [exact Hk|].
    destruct (Nat.lt_ge_cases (length data) 28) as [Hs|Hs].
    { unfold decrypt_gcm in H. rewrite key_ok in H by exact Hk. rewrite (proj2 (Nat.ltb_lt _ _) Hs) in H. discriminate. }
    destruct (unsplit3 data Hs) as (nonce&c&tag&->&Hn&Ht).
    destruct (N.lt_ge_cases c_max (blen c)) as [Hc|Hc].
    { rewrite decrypt_gcm_huge in H by assumption. discriminate. }
    rewrite decrypt_gcm_split in H by assumption.
    destruct (bytes_eq (spec_tag aes key nonce c) tag) eqn:E; [|discriminate]. apply bytes_eq_iff in E.
    destruct (N.lt_ge_cases gcm_limit (blen c)) as [Hl|Hl].
    { rewrite keystream32_panics in H by exact Hl. discriminate. }
    rewrite keystream32_ok in H by exact Hl. injection H as <-.
    exists nonce, c. split; [exact Hn|]. split; [exact Hl|]. split; [rewrite E; reflexivity|]. apply gcm_stream.
  - intros (Hk&nonce&c&Hn&Hl&->&Hm).
    rewrite decrypt_gcm_split by (auto using spec_tag_length; apply limit_c_max; exact Hl).
    rewrite (proj2 (bytes_eq_iff _ _) eq_refl), keystream32_ok by exact Hl.
    rewrite (gcm_stream_is _ _ _ _ _ Hm). reflexivity.
Qed.
Print Assumptions C39_accepts_iff.

(** The Rust decryption panics exactly on a right tag over 2^36 - 31 to 2^36 + 16 bytes. *)
Theorem C39_panics_iff :
  forall aes key data,
    decrypt_gcm aes key data = Panic <->
    length key = 32%nat /\
    exists nonce c,
      length nonce = 12%nat /\ gcm_limit < blen c <= 2 ^ 36 + 16 /\ data = nonce ++ c ++ spec_tag aes key nonce c.
Proof.
  intros aes key data. split.
  - intros H. destruct (Nat.eq_dec (length key) 32) as [Hk|Hk].
    2:{ unfold decrypt_gcm in H. rewrite key_bad in H by exact Hk. discriminate. }
    split; [exact Hk|].
    destruct (Nat.lt_ge_cases (length data) 28) as [Hs|Hs].
    { unfold decrypt_gcm in H. rewrite key_ok in H by exact Hk. rewrite (proj2 (Nat.ltb_lt _ _) Hs) in H. discriminate. }
    destruct (unsplit3 data Hs) as (nonce&c&tag&->&Hn&Ht).
    destruct (N.lt_ge_cases c_max (blen c)) as [Hc|Hc].
    { rewrite decrypt_gcm_huge in H by assumption. discriminate. }
    rewrite decrypt_gcm_split in H by assumption.
    destruct (bytes_eq (spec_tag aes key nonce c) tag) eqn:E; [|discriminate]. apply bytes_eq_iff in E.
    destruct (N.lt_ge_cases gcm_limit (blen c)) as [Hl|Hl]; [|rewrite keystream32_ok in H by exact Hl; discriminate].
    exists nonce, c. split; [exact Hn|]. split; [split; [exact Hl|unfold c_max in Hc; exact Hc]|]. rewrite E. reflexivity.
  - intros (Hk&nonce&c&Hn&[Hl Hc]&->).
    rewrite decrypt_gcm_split by (auto using spec_tag_length).
    rewrite (proj2 (bytes_eq_iff _ _) eq_refl). apply keystream32_panics. exact Hl.
Qed.
Print Assumptions C39_panics_iff.

(** The JavaScript decryption accepts the same inputs with the same results. *)
Theorem C39_tools_agree :
  forall aes key data m, aesGcmDecrypt aes key data = Ok m <-> decrypt_gcm aes key data = Ok m.
Proof.
  intros aes key data m.
  destruct (Nat.eq_dec (length key) 32) as [Hk|Hk].
  2:{ unfold decrypt_gcm, aesGcmDecrypt. rewrite key_bad by exact Hk. split; discriminate. }
  destruct (Nat.lt_ge_cases (length data) 28) as [Hs|Hs].
  { unfold decrypt_gcm, aesGcmDecrypt. rewrite key_ok by exact Hk. change (12 + 16)%nat with 28%nat.
    rewrite (proj2 (Nat.ltb_lt _ _) Hs). split; discriminate. }
  destruct (unsplit3 data Hs) as (nonce&c&tag&->&Hn&Ht).
  destruct (N.lt_ge_cases gcm_limit (blen c)) as [Hl|Hl].
  - rewrite aesGcmDecrypt_huge by assumption.
    destruct (N.lt_ge_cases c_max (blen c)) as [Hc|Hc].
    + rewrite decrypt_gcm_huge by assumption. split; discriminate.
    + rewrite decrypt_gcm_split by assumption. rewrite keystream32_panics by exact Hl.
      destruct (bytes_eq _ _); split; discriminate.
  - rewrite decrypt_gcm_split by (auto; apply limit_c_max; exact Hl). rewrite aesGcmDecrypt_split by assumption.
    rewrite keystream32_ok by exact Hl. destruct (bytes_eq _ _); reflexivity.
Qed.
Print Assumptions C39_tools_agree.

(** All rejections: wrong key length, short input, and any tag other than the right one (in
    particular every change confined to the tag of a valid input). *)
Theorem C39_rejections :
  forall aes key,
    (forall data, length key <> 32%nat -> decrypt_gcm aes key data = Err BadKeyLength /\ aesGcmDecrypt aes key data = Err BadKeyLength) /\
    (forall data, length key = 32%nat -> (length data < 28)%nat ->
       decrypt_gcm aes key data = Err DataTooShort /\ aesGcmDecrypt aes key data = Err DataTooShort) /\
    (forall nonce c tag, length key = 32%nat -> length nonce = 12%nat -> length tag = 16%nat ->
       tag <> spec_tag aes key nonce c -> blen c <= gcm_limit ->
       decrypt_gcm aes key (nonce ++ c ++ tag) = Err CipherError /\ aesGcmDecrypt aes key (nonce ++ c ++ tag) = Err CipherError).
Proof.
  intros aes key. split; [|split].
  - intros data H. unfold decrypt_gcm, aesGcmDecrypt. rewrite key_bad by exact H. split; reflexivity.
  - intros data Hk Hs. unfold decrypt_gcm, aesGcmDecrypt. rewrite key_ok by exact Hk. change (12 + 16)%nat with 28%nat.
    rewrite (proj2 (Nat.ltb_lt _ _) Hs). split; reflexivity.
  - intros nonce c tag Hk Hn Ht Hd Hl.
    assert (E : bytes_eq (spec_tag aes key nonce c) tag = false).
    { destruct (bytes_eq _ tag) eqn:E; [|reflexivity]. apply bytes_eq_iff in E. congruence. }
    rewrite decrypt_gcm_split by (auto; apply limit_c_max; exact Hl). rewrite aesGcmDecrypt_split by assumption.
    rewrite E. split; reflexivity.
Qed.
Print Assumptions C39_rejections.

(** An accepted file altered in the tag only is rejected. *)
Theorem C39_tag_change_rejected :
  forall aes key data data' m,
    decrypt_gcm aes key data = Ok m ->
    length data' = length data ->
    firstn (length data - 16) data' = firstn (length data - 16) data ->
    data' <> data ->
    decrypt_gcm aes key data' = Err CipherError /\ aesGcmDecrypt aes key data' = Err CipherError.
Proof.
  intros aes key data data' m H Hl Hf Hd. apply C39_accepts_iff in H. destruct H as (Hk&nonce&c&Hn&Hc&->&Hm).
  set (tag := spec_tag aes key nonce c) in *. assert (Ht : length tag = 16%nat) by apply spec_tag_length.
  assert (Hlen : length (nonce ++ c ++ tag) = (28 + length c)%nat) by (rewrite !app_length; lia).
  rewrite Hlen in *. destruct (unsplit3 data') as (nonce'&c'&tag'&->&Hn'&Ht'); [lia|].
  assert (Hc' : length c' = length c). { rewrite !app_length in Hl. lia. }
  assert (E : nonce' = nonce /\ c' = c).
  { revert Hf. replace (28 + length c - 16)%nat with (12 + length c)%nat by lia.
    rewrite !app_assoc. rewrite (firstn_app _ (nonce' ++ c')), (firstn_app _ (nonce ++ c)). rewrite (firstn_all2 (nonce' ++ c')), (firstn_all2 (nonce ++ c)) by (rewrite app_length; lia).
    rewrite !app_length, Hn, Hn', Hc'. rewrite !Nat.sub_diag, !firstn_O, !app_nil_r.
    intros Hf. apply app_inj_len in Hf; [exact Hf|congruence]. }
  destruct E as [-> ->]. apply (C39_rejections aes key); auto.
  intros E. apply Hd. rewrite E. reflexivity.
Qed.
Print Assumptions C39_tag_change_rejected.

Example C39_nonvacuous :
  let key := repeat x41 32 in
  match encrypt_gcm aes256 key (repeat x42 12) (repeat x43 20) with
  | Ok out =>
      is_ok (decrypt_gcm aes256 key out) /\
      decrypt_gcm aes256 key (firstn 47 out ++ [bxor (nth 47 out x00) x01]) = Err CipherError /\
      decrypt_gcm aes256 key (firstn 27 out) = Err DataTooShort
  | _ => False
  end.
Proof. vm_compute. auto. Qed.

(** ** C40 *)
Theorem C40_round_trip :
  forall aes key iv m,
    length key = 32%nat -> length iv = 16%nat ->
    exists c,
      ctr_masked aes key iv m c /\ encrypt_ctr aes key iv m = Ok (iv ++ c) /\
      length (iv ++ c) = (length m + 16)%nat /\ decrypt_ctr aes key (iv ++ c) = Ok m.
Proof.
  intros aes key iv m Hk Hi. pose proof (ctr_stream aes key iv m) as Hc.
  eexists. split; [exact Hc|]. set (c := apply_keystream _ _ _ _ m) in *. clearbody c.
  assert (Hl : length c = length m) by apply Hc.
  split; [|split].
  - unfold encrypt_ctr. rewrite key_ok by exact Hk. rewrite (ctr_stream_is _ _ _ _ _ Hc). reflexivity.
  - rewrite app_length. lia.
  - unfold decrypt_ctr. rewrite key_ok by exact Hk.
    assert (E : Nat.ltb (length (iv ++ c)) 16 = false) by (apply Nat.ltb_ge; rewrite app_length; lia).
    rewrite E. cbv zeta. rewrite <- Hi, firstn_app, skipn_app, firstn_all, skipn_all, Nat.sub_diag. cbn [firstn skipn app].
    rewrite app_nil_r. rewrite (ctr_stream_is _ _ _ _ _ (masked_sym _ _ _ _ _ Hc)). reflexivity.
Qed.
Print Assumptions C40_round_trip.

(** Decryption fails on a wrong key length or fewer than 16 bytes and on nothing else. *)
Theorem C40_total :
  forall aes key data,
    (length key <> 32%nat -> decrypt_ctr aes key data = Err BadKeyLength) /\
    (length key = 32%nat -> (length data < 16)%nat -> decrypt_ctr aes key data = Err DataTooShort) /\
    (length key = 32%nat -> (16 <= length data)%nat ->
       exists m, decrypt_ctr aes key data = Ok m /\ ctr_masked aes key (firstn 16 data) (skipn 16 data) m).
Proof.
  intros aes key data. unfold decrypt_ctr. split; [|split].
  - intros H. rewrite key_bad by exact H. reflexivity.
  - intros Hk Hs. rewrite key_ok by exact Hk. rewrite (proj2 (Nat.ltb_lt _ _) Hs). reflexivity.
  - intros Hk Hs. rewrite key_ok by exact Hk. rewrite (proj2 (Nat.ltb_ge _ _) Hs).
    eexists. split; [reflexivity|]. apply ctr_stream.
Qed.
Print Assumptions C40_total.

(** Malleability: for any change of the ciphertext, accepted by construction, each plaintext byte
    changes by exactly the same difference. *)
Theorem C40_malleable :
  forall aes key iv c c' m,
    length iv = 16%nat -> length c' = length c ->
    decrypt_ctr aes key (iv ++ c) = Ok m ->
    exists m', decrypt_ctr aes key (iv ++ c') = Ok m' /\ length m' = length m /\
      forall i, (i < length m)%nat ->
        bxor (nth i m' x00) (nth i m x00) = bxor (nth i c' x00) (nth i c x00).
Proof.
  intros aes key iv c c' m Hi Hl H.
  destruct (Nat.eq_dec (length key) 32) as [Hk|Hk].
  2:{ unfold decrypt_ctr in H. rewrite key_bad in H by exact Hk. discriminate. }
  assert (F : forall x : list byte, firstn 16 (iv ++ x) = iv /\ skipn 16 (iv ++ x) = x).
  { intros x. rewrite <- Hi, firstn_app, skipn_app, firstn_all, skipn_all, Nat.sub_diag. cbn [firstn skipn app].
    rewrite app_nil_r. auto. }
  destruct (proj2 (proj2 (C40_total aes key (iv ++ c))) Hk) as (m0&E0&Hm); [rewrite app_length; lia|].
  destruct (proj2 (proj2 (C40_total aes key (iv ++ c'))) Hk) as (m'&E'&Hm'); [rewrite app_length; lia|].
  rewrite E0 in H. injection H as ->.
  destruct (F c) as [F1 F2]. destruct (F c') as [F1' F2']. rewrite F1, F2 in Hm. rewrite F1', F2' in Hm'.
  destruct Hm as [Hml Hm]. destruct Hm' as [Hml' Hm'].
  exists m'. split; [exact E'|]. split; [congruence|]. intros i Hlt. rewrite Hm, Hm' by lia.
  set (s := stream_byte _ _ _ i). rewrite (bxor_comm (nth i c x00) s). rewrite bxor_assoc, <- (bxor_assoc s s).
  assert (Z : forall a b, bxor (bxor a a) b = b).
  { intros a b. rewrite bxor_assoc, (bxor_comm a b), bxor_comm. apply bxor_bxor. }
  rewrite Z. reflexivity.
Qed.
Print Assumptions C40_malleable.

Example C40_nonvacuous :
  let key := repeat x41 32 in let iv := repeat xff 16 in
  match encrypt_ctr aes256 key iv (repeat x43 40) with
  | Ok out => decrypt_ctr aes256 key out = Ok (repeat x43 40) /\
              decrypt_ctr aes256 key (firstn 55 out ++ [bxor (nth 55 out x00) x01]) = Ok (repeat x43 39 ++ [x42])
  | _ => False
  end.
Proof. vm_compute. auto. Qed.
