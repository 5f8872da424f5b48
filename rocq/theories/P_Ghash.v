(** Property theorems for C39 that go down to the field GF(2^128): the multiplication is the one of
    SpecGhash.v, and modifying a ciphertext is detected for all but a few hash keys. *)
From Coq Require Import List Bool Arith NArith Lia.
From Coq Require Import Strings.Byte.
From Verif Require Import Res Bytes Gcm SpecGcm GcmFacts Aes P_Gcm Gf128 SpecGhash GhashFacts.
Import ListNotations.
Local Open Scope N_scope.
Local Opaque gf_mul.

(** The multiplication of the model multiplies polynomials modulo x^128 + x^7 + x^2 + x + 1. *)
Theorem C39_ghash_multiplies_polynomials :
  forall a b, a < 2 ^ 128 -> b < 2 ^ 128 ->
    gf_mul a b < 2 ^ 128 /\
    poly_multiple gcm_poly (N.lxor (poly_times (block_poly a) (block_poly b)) (block_poly (gf_mul a b))).
Proof. intros a b Ha Hb. split; [apply gf_lt; exact Hb|apply gf_mul_poly; assumption]. Qed.
Print Assumptions C39_ghash_multiplies_polynomials.

(** It has no zero divisors. *)
Theorem C39_ghash_field :
  forall a b, a < 2 ^ 128 -> b < 2 ^ 128 -> gf_mul a b = 0 -> a = 0 \/ b = 0.
Proof. exact gf_integral. Qed.
Print Assumptions C39_ghash_field.

Lemma lxor_split x a y b : x < 256 -> y < 256 -> N.lxor (x + 256 * a) (y + 256 * b) = N.lxor x y + 256 * N.lxor a b.
Proof.
  assert (S : forall x a, x < 256 -> x + 256 * a = N.lxor x (N.shiftl a 8)).
  { intros x0 a0 H. rewrite N.shiftl_mul_pow2. change (2 ^ 8) with 256. rewrite (N.mul_comm a0).
    apply N.add_nocarry_lxor. apply N.bits_inj_0. intros j. rewrite N.land_spec, (N.mul_comm 256). change 256 with (2 ^ 8).
    destruct (N.lt_ge_cases j 8) as [Hj|Hj]; [rewrite N.mul_pow2_bits_low by exact Hj; apply andb_false_r|].
    destruct (N.eq_dec x0 0) as [->|Hz]; [rewrite N.bits_0; reflexivity|].
    rewrite N.bits_above_log2; [reflexivity|]. apply N.lt_le_trans with 8; [|exact Hj]. apply N.log2_lt_pow2; [lia|exact H]. }
  intros Hx Hy. rewrite !S; [|apply (lxor_lt _ _ 8); assumption|exact Hy|exact Hx].
  rewrite N.shiftl_lxor. apply swap4.
Qed.
Lemma le_val_xor a b : length a = length b -> le_val (xor_bytes a b) = N.lxor (le_val a) (le_val b).
Proof.
  revert b. induction a as [|x a IH]; intros [|y b] H; cbn in H; try lia; [reflexivity|].
  cbn [xor_bytes le_val]. rewrite lxor_split, to_N_bxor, IH by (apply to_N_lt || lia). reflexivity.
Qed.
Lemma xor_bytes_app a a' b b' : length a = length b -> xor_bytes (a ++ a') (b ++ b') = xor_bytes a b ++ xor_bytes a' b'.
Proof.
  revert b. induction a as [|x a IH]; intros [|y b] H; cbn in H; try lia; [reflexivity|].
  cbn [app xor_bytes]. rewrite IH by lia. reflexivity.
Qed.
Lemma xor_bytes_rev a b : length a = length b -> rev (xor_bytes a b) = xor_bytes (rev a) (rev b).
Proof.
  revert b. induction a as [|x a IH]; intros [|y b] H; cbn in H; try lia; [reflexivity|].
  cbn [xor_bytes rev]. rewrite xor_bytes_app by (rewrite !rev_length; lia). rewrite IH by lia. reflexivity.
Qed.
Lemma be_val_xor a b : length a = length b -> be_val (xor_bytes a b) = N.lxor (be_val a) (be_val b).
Proof.
  intros H. unfold be_val. rewrite xor_bytes_rev by exact H. apply le_val_xor. rewrite !rev_length. exact H.
Qed.
Lemma be_val_16 (l : list byte) : length l = 16%nat -> be_val l < 2 ^ 128.
Proof. intros H. pose proof (be_val_bound l) as B. rewrite H in B. exact B. Qed.
Lemma block_val_inj (a b : list byte) : length a = 16%nat -> length b = 16%nat -> be_val a = be_val b -> a = b.
Proof. intros Ha Hb E. rewrite <- (be_bytes_be_val a), <- (be_bytes_be_val b), E, Ha, Hb. reflexivity. Qed.
Definition hash_key (aes : cipherT) (key : list byte) : N := be_val (aes key (repeat x00 16)).
Lemma hash_key_lt aes key : hash_key aes key < 2 ^ 128.
Proof. apply be_val_16, enc_block_len. Qed.
Lemma tag_val aes key nonce c : blen c <= gcm_limit ->
  be_val (spec_tag aes key nonce c) = N.lxor (spec_ghash (hash_key aes key) c) (be_val (aes key (nonce ++ be_bytes 4 1))).
Proof.
  intros Hc. rewrite <- gcm_tag_is by (apply limit_bits, limit_c_max; exact Hc). unfold gcm_tag.
  rewrite be_val_xor by (rewrite be_bytes_length, enc_block_len; reflexivity).
  rewrite be_val_be_bytes, ghash_is by (apply limit_bits, limit_c_max; exact Hc).
  fold (hash_key aes key). fold (spec_ghash (hash_key aes key) c). unfold gcm_block.
  rewrite N.mod_small; [reflexivity|]. apply spec_ghash_lt; [apply hash_key_lt|exact Hc].
Qed.
Lemma accepted_tag aes key nonce c tag : length nonce = 12%nat -> length tag = 16%nat ->
  is_ok (decrypt_gcm aes key (nonce ++ c ++ tag)) -> blen c <= gcm_limit /\ tag = spec_tag aes key nonce c /\ length key = 32%nat.
Proof.
  intros Hn Ht H. destruct (decrypt_gcm aes key (nonce ++ c ++ tag)) as [m| |] eqn:E; try contradiction.
  apply C39_accepts_iff in E. destruct E as (Hk&nonce'&c'&Hn'&Hc&E&_).
  apply app_inj_len in E; [|congruence]. destruct E as [<- E].
  assert (Hl : length c = length c').
  { apply (f_equal (@length byte)) in E. rewrite !app_length, spec_tag_length in E. lia. }
  apply app_inj_len in E; [|exact Hl]. destruct E as [-> E]. auto.
Qed.

(** Forgery bound: two different ciphertexts under the same nonce, whatever their lengths and tags,
    are both accepted under few keys: any list of such keys with pairwise different hash keys has
    at most one more element than the longer ciphertext has blocks. *)
Theorem C39_forgery_bound :
  forall (aes : cipherT) nonce c c' tag tag' keys,
    length nonce = 12%nat -> length tag = 16%nat -> length tag' = 16%nat -> c <> c' ->
    (forall key, In key keys ->
       is_ok (decrypt_gcm aes key (nonce ++ c ++ tag)) /\ is_ok (decrypt_gcm aes key (nonce ++ c' ++ tag'))) ->
    NoDup (map (fun key => aes key (repeat x00 16)) keys) ->
    (length keys <= Nat.max (block_count c) (block_count c') + 1)%nat.
Proof.
  intros aes nonce c c' tag tag' keys Hn Ht Ht' Hne Hall Hnd.
  destruct keys as [|k0 ks]; [cbn; lia|].
  assert (Hc : blen c <= gcm_limit /\ blen c' <= gcm_limit).
  { destruct (Hall k0 (or_introl eq_refl)) as [A B]. split; [exact (proj1 (accepted_tag _ _ _ _ _ Hn Ht A))|exact (proj1 (accepted_tag _ _ _ _ _ Hn Ht' B))]. }
  destruct Hc as [Hc Hc'].
  rewrite <- (map_length (hash_key aes)).
  apply (ghash_universal c c' (be_val (xor_bytes tag tag'))); auto.
  - revert Hnd. generalize (k0 :: ks). clear. intros l. induction l as [|k l IH]; intros H; [constructor|].
    cbn [map] in *. inversion H as [|? ? Hni Hnd]; subst. constructor; [|apply IH; exact Hnd].
    intros Hin. apply Hni. apply in_map_iff in Hin. destruct Hin as (k'&E&Hin). apply in_map_iff. exists k'. split; [|exact Hin].
    apply block_val_inj; [apply enc_block_len|apply enc_block_len|exact E].
  - intros h Hin. apply in_map_iff in Hin. destruct Hin as (k&<-&Hin). split; [apply hash_key_lt|].
    destruct (Hall k Hin) as [A B]. apply accepted_tag in A; auto. apply accepted_tag in B; auto.
    destruct A as (_&EA&_), B as (_&EB&_). rewrite be_val_xor by congruence. rewrite EA, EB, !tag_val by assumption.
    rewrite swap4, N.lxor_nilpotent, N.lxor_0_r. reflexivity.
Qed.
Print Assumptions C39_forgery_bound.

(** Any change confined to one 16-byte block of an accepted ciphertext is rejected (unless the hash
    key is the zero block, for which GHASH is constant). *)
Theorem C39_one_block_change_rejected :
  forall (aes : cipherT) key nonce c c' tag i,
    length nonce = 12%nat -> length tag = 16%nat ->
    aes key (repeat x00 16) <> repeat x00 16 ->
    is_ok (decrypt_gcm aes key (nonce ++ c ++ tag)) ->
    length c' = length c -> c' <> c ->
    (forall j, (j / 16)%nat <> i -> nth j c' x00 = nth j c x00) ->
    decrypt_gcm aes key (nonce ++ c' ++ tag) = Err CipherError /\
    aesGcmDecrypt aes key (nonce ++ c' ++ tag) = Err CipherError.
Proof.
  intros aes key nonce c c' tag i Hn Ht Hz Hok Hl Hne Hsame.
  destruct (accepted_tag _ _ _ _ _ Hn Ht Hok) as (Hc&Etag&Hk).
  assert (Hc' : blen c' <= gcm_limit) by (rewrite (blen_len c' c Hl); exact Hc).
  apply (C39_rejections aes key); auto. intros E. rewrite Etag in E.
  apply (f_equal be_val) in E. rewrite !tag_val in E by assumption.
  set (mask := be_val (aes key (nonce ++ be_bytes 4 1))) in *. clearbody mask.
  assert (E' : spec_ghash (hash_key aes key) c = spec_ghash (hash_key aes key) c').
  { apply (f_equal (fun v => N.lxor v mask)) in E. rewrite !N.lxor_assoc, N.lxor_nilpotent, !N.lxor_0_r in E. exact E. }
  clear E.
  assert (Hb : forall j, j <> i -> block_of c' j = block_of c j).
  { intros j Hj. unfold block_of. f_equal. apply map_ext_in. intros k Hin. apply in_seq in Hin. apply Hsame.
    rewrite Nat.mul_comm, Nat.div_add_l by lia. rewrite Nat.div_small by lia. lia. }
  assert (Hcount : block_count c' = block_count c) by (unfold block_count; rewrite Hl; reflexivity).
  assert (Hi : (i < block_count c)%nat).
  { destruct (Nat.lt_ge_cases i (block_count c)) as [|Hge]; [assumption|]. exfalso. apply Hne.
    apply (nth_ext _ _ x00 x00 Hl). intros n Hlt. apply Hsame.
    pose proof (block_count_bound c' n Hlt). lia. }
  assert (Hd : block_of c i <> block_of c' i).
  { intros Eb. apply Hne. apply blocks_inj. unfold ghash_blocks. rewrite Hcount, (blen_len c' c Hl). f_equal.
    apply map_ext_in. intros j _. destruct (Nat.eq_dec j i) as [->|Hj]; [symmetry; exact Eb|apply Hb; exact Hj]. }
  assert (Hs : seq 0 (block_count c) = seq 0 i ++ i :: seq (S i) (block_count c - S i)).
  { replace (block_count c) with (i + S (block_count c - S i))%nat at 1 by lia. rewrite seq_app. reflexivity. }
  assert (Hm : forall l, ~ In i l -> map (block_of c') l = map (block_of c) l).
  { intros l Hin. apply map_ext_in. intros j Hj. apply Hb. intros ->. contradiction. }
  revert E'. unfold spec_ghash, ghash_blocks. rewrite Hcount, (blen_len c' c Hl), Hs, !map_app, !map_cons.
  rewrite (Hm (seq 0 i)), (Hm (seq (S i) _)) by (rewrite in_seq; lia).
  rewrite <- !app_assoc, <- !app_comm_cons.
  apply fold_change; auto using hash_key_lt, block_of_lt.
  intros E0. apply Hz. unfold hash_key in E0.
  apply block_val_inj; [apply enc_block_len|reflexivity|]. rewrite E0. vm_compute. reflexivity.
Qed.
Print Assumptions C39_one_block_change_rejected.

(** A concrete case of both: AES-256, a 20-byte message, one bit of the second block flipped. *)
Example C39_forgery_nonvacuous :
  let key := repeat x41 32 in let nonce := repeat x42 12 in
  match encrypt_gcm aes256 key nonce (repeat x43 20) with
  | Ok out =>
      let c := firstn 20 (skipn 12 out) in let tag := skipn 32 out in
      let c' := firstn 17 c ++ [bxor (nth 17 c x00) x04] ++ skipn 18 c in
      out = nonce ++ c ++ tag /\ aes256 key (repeat x00 16) <> repeat x00 16 /\ block_count c = 2%nat /\
      is_ok (decrypt_gcm aes256 key (nonce ++ c ++ tag)) /\ length c' = length c /\ c' <> c /\
      decrypt_gcm aes256 key (nonce ++ c' ++ tag) = Err CipherError
  | _ => False
  end.
Proof. vm_compute. repeat split; discriminate. Qed.
