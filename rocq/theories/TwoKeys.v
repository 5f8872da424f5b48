(** Proofs for C82 about AES-GCM: one ciphertext that two keys accept. *)
From Coq Require Import List Bool Arith NArith Lia.
From Coq Require Import Strings.Byte.
From Verif Require Import Res Bytes Gcm SpecGcm GcmFacts P_Gcm Gf128 SpecGhash GhashFacts P_Ghash.
Import ListNotations.
Local Open Scope N_scope.
Local Infix "(+)" := N.lxor (at level 50, left associativity).
Local Opaque gf_mul gf_inv.

(** Horner's rule over the whole blocks of [c0]. *)
Definition whole_hash (h : N) (n : nat) (c0 : list byte) : N :=
  fold_left (fun a b => gf_mul (a (+) b) h) (map (block_of c0) (seq 0 n)) 0.

Lemma whole_hash_lt h n c0 : h < 2 ^ 128 -> whole_hash h n c0 < 2 ^ 128.
Proof.
  intros Hh. unfold whole_hash.
  assert (G : forall l a, a < 2 ^ 128 -> fold_left (fun a b => gf_mul (a (+) b) h) l a < 2 ^ 128).
  { induction l as [|x l IH]; intros a Ha; [exact Ha|]. rewrite fold_left_cons. apply IH. apply gf_lt. exact Hh. }
  apply G. reflexivity.
Qed.

Lemma block_of_front c0 b i n : length c0 = (16 * n)%nat -> (i < n)%nat -> block_of (c0 ++ b) i = block_of c0 i.
Proof.
  intros H Hi. unfold block_of. f_equal. apply map_ext_in. intros k Hk. apply in_seq in Hk. rewrite app_nth1 by lia. reflexivity.
Qed.
Lemma block_of_back c0 b n : length c0 = (16 * n)%nat -> length b = 16%nat -> block_of (c0 ++ b) n = be_val b.
Proof.
  intros H Hb. unfold block_of. f_equal.
  apply (nth_ext _ _ x00 x00); [rewrite map_length, seq_length; lia|].
  intros k Hk. rewrite map_length, seq_length in Hk.
  rewrite (nth_indep _ x00 (nth (16 * n + 0) (c0 ++ b) x00)) by (rewrite map_length, seq_length; exact Hk).
  rewrite (map_nth (fun k => nth (16 * n + k) (c0 ++ b) x00)), seq_nth by exact Hk.
  rewrite app_nth2 by lia. f_equal. lia.
Qed.

Lemma spec_ghash_snoc h c0 b n : length c0 = (16 * n)%nat -> length b = 16%nat ->
  spec_ghash h (c0 ++ b) = gf_mul (gf_mul (whole_hash h n c0 (+) be_val b) h (+) 8 * blen (c0 ++ b)) h.
Proof.
  intros H Hb. unfold spec_ghash, ghash_blocks.
  assert (E : block_count (c0 ++ b) = (n + 1)%nat).
  { unfold block_count. rewrite app_length, H, Hb. replace (16 * n + 16 + 15)%nat with (15 + (n + 1) * 16)%nat by lia.
    rewrite Nat.div_add by lia. reflexivity. }
  rewrite E, seq_app, map_app. cbn [seq map Nat.add]. rewrite (block_of_back c0 b n H Hb).
  rewrite <- app_assoc. rewrite fold_left_app. cbn [app]. rewrite !fold_left_cons. change (fold_left _ [] ?x) with x. cbv beta.
  f_equal. f_equal. f_equal. unfold whole_hash.
  f_equal. f_equal. apply map_ext_in. intros i Hi. apply in_seq in Hi. apply (block_of_front c0 b i n H). lia.
Qed.

(** Some block makes the two hashes differ by any given amount. *)
Lemma block_solves h1 h2 a1 a2 l d : h1 < 2 ^ 128 -> h2 < 2 ^ 128 -> a1 < 2 ^ 128 -> a2 < 2 ^ 128 -> l < 2 ^ 128 -> d < 2 ^ 128 -> h1 <> h2 ->
  exists x, x < 2 ^ 128 /\
    gf_mul (gf_mul (a1 (+) x) h1 (+) l) h1 = gf_mul (gf_mul (a2 (+) x) h2 (+) l) h2 (+) d.
Proof.
  intros H1 H2 A1 A2 Hl Hd Hne.
  set (s := h1 (+) h2). assert (Hs : s < 2 ^ 128) by (apply lxor_lt; assumption).
  assert (Hs0 : s <> 0). { unfold s. intros E. apply xor_0 in E. contradiction. }
  assert (Hq : gf_sq s <> 0). { unfold gf_sq. intros E. apply gf_integral in E; tauto. }
  assert (Hql : gf_sq s < 2 ^ 128) by (apply gf_sq_lt; exact Hs).
  set (rhs := (gf_mul (gf_mul a1 h1 (+) l) h1 (+) gf_mul (gf_mul a2 h2 (+) l) h2) (+) d).
  assert (Hr : rhs < 2 ^ 128).
  { unfold rhs. repeat apply lxor_lt; try assumption; apply gf_lt; assumption. }
  exists (gf_mul rhs (gf_inv (gf_sq s))).
  set (x := gf_mul rhs (gf_inv (gf_sq s))).
  assert (Hi : gf_inv (gf_sq s) < 2 ^ 128) by (apply gf_inv_lt; exact Hql).
  assert (Hx : x < 2 ^ 128) by (apply gf_lt; exact Hi).
  split; [exact Hx|].
  assert (Ex : gf_mul x (gf_sq s) = rhs).
  { unfold x. rewrite <- gf_assoc by assumption. rewrite gf_inv_l by assumption. apply gf_one_r. exact Hr. }
  assert (Esq : gf_sq s = gf_mul h1 h1 (+) gf_mul h2 h2).
  { unfold s. rewrite gf_sq_add by assumption. reflexivity. }
  rewrite Esq, gf_add_r in Ex.
  rewrite !gf_add_l. rewrite <- !gf_assoc by assumption.
  unfold rhs in Ex. rewrite !gf_add_l, <- !gf_assoc in Ex by assumption.
  revert Ex. generalize (gf_mul x (gf_mul h1 h1)) (gf_mul x (gf_mul h2 h2)) (gf_mul a1 (gf_mul h1 h1)) (gf_mul a2 (gf_mul h2 h2)) (gf_mul l h1) (gf_mul l h2).
  clear. intros u v p q m n E. apply N.lxor_eq. rewrite <- (N.lxor_nilpotent (u (+) v)). rewrite E at 2.
  apply N.bits_inj. intros i. rewrite !N.lxor_spec.
  generalize (N.testbit u i) (N.testbit v i) (N.testbit p i) (N.testbit q i) (N.testbit m i) (N.testbit n i) (N.testbit d i).
  intros [] [] [] [] [] [] []; reflexivity.
Qed.

(** A last block that makes the tags under two keys equal. *)
Lemma common_tag (aes : cipherT) k1 k2 nonce c0 n :
  aes k1 (repeat x00 16) <> aes k2 (repeat x00 16) -> length c0 = (16 * n)%nat -> blen c0 + 16 <= gcm_limit ->
  exists b, length b = 16%nat /\ spec_tag aes k1 nonce (c0 ++ b) = spec_tag aes k2 nonce (c0 ++ b).
Proof.
  intros Hne Hc Hlim.
  set (h1 := hash_key aes k1). set (h2 := hash_key aes k2).
  assert (Hh : h1 <> h2).
  { unfold h1, h2, hash_key. intros E. apply Hne. apply block_val_inj; [apply enc_block_len|apply enc_block_len|exact E]. }
  assert (B1 : h1 < 2 ^ 128) by apply hash_key_lt. assert (B2 : h2 < 2 ^ 128) by apply hash_key_lt.
  set (t1 := be_val (aes k1 (nonce ++ be_bytes 4 1))). set (t2 := be_val (aes k2 (nonce ++ be_bytes 4 1))).
  assert (T1 : t1 < 2 ^ 128) by apply be_val_16, enc_block_len. assert (T2 : t2 < 2 ^ 128) by apply be_val_16, enc_block_len.
  assert (Hl : 8 * (blen c0 + 16) < 2 ^ 128).
  { revert Hlim. generalize (blen c0). intros v Hv. unfold gcm_limit in Hv. change (2 ^ 36 - 32) with 68719476704 in Hv.
    change (2 ^ 128) with 340282366920938463463374607431768211456. lia. }
  destruct (block_solves h1 h2 (whole_hash h1 n c0) (whole_hash h2 n c0) (8 * (blen c0 + 16)) (t1 (+) t2)) as (x&Hx&E);
    try assumption; try (apply whole_hash_lt; assumption); [apply lxor_lt; assumption|].
  exists (be_bytes 16 x). assert (Lb : length (be_bytes 16 x) = 16%nat) by apply be_bytes_length. split; [exact Lb|].
  assert (Eb : be_val (be_bytes 16 x) = x).
  { rewrite be_val_be_bytes. apply N.mod_small. exact Hx. }
  assert (Bl : blen (c0 ++ be_bytes 16 x) = blen c0 + 16).
  { unfold blen. rewrite app_length, Lb. lia. }
  apply block_val_inj; [apply spec_tag_length|apply spec_tag_length|].
  rewrite !tag_val by (rewrite Bl; exact Hlim). fold h1 h2 t1 t2.
  rewrite !(spec_ghash_snoc _ c0 _ n Hc Lb), Eb, Bl, E.
  rewrite N.lxor_assoc. f_equal. rewrite (N.lxor_comm t1 t2), N.lxor_assoc, N.lxor_nilpotent, N.lxor_0_r. reflexivity.
Qed.

(** The ciphertext bytes that give one of two readers the bytes asked for. *)
Definition stream_at (aes : cipherT) (k nonce : list byte) (i : nat) : byte :=
  stream_byte aes k (fun j => nonce ++ be_bytes 4 (j + 2)) i.
Definition wanted_bytes (aes : cipherT) (k1 k2 nonce : list byte) (wants : list (bool * byte)) : list byte :=
  map (fun i => bxor (snd (nth i wants (true, x00))) (stream_at aes (if fst (nth i wants (true, x00)) then k1 else k2) nonce i))
      (seq 0 (16 * ((length wants + 15) / 16))).

Lemma two_keys (aes : cipherT) k1 k2 nonce wants :
  aes k1 (repeat x00 16) <> aes k2 (repeat x00 16) -> N.of_nat (length wants) + 31 <= gcm_limit ->
  exists c tag p1 p2,
    (length wants <= length c)%nat /\ (length c <= length wants + 31)%nat /\
    tag = spec_tag aes k1 nonce c /\ tag = spec_tag aes k2 nonce c /\
    gcm_masked aes k1 nonce c p1 /\ gcm_masked aes k2 nonce c p2 /\
    (forall i (who : bool) b, nth_error wants i = Some (who, b) -> nth_error (if who then p1 else p2) i = Some b).
Proof.
  intros Hne Hlim. set (n := ((length wants + 15) / 16)%nat). set (c0 := wanted_bytes aes k1 k2 nonce wants).
  assert (Hn1 : (length wants <= 16 * n)%nat /\ (16 * n <= length wants + 15)%nat).
  { unfold n. assert (H16 : 16%nat <> 0%nat) by discriminate.
    pose proof (Nat.div_mod (length wants + 15) 16 H16) as D.
    pose proof (Nat.mod_upper_bound (length wants + 15) 16 H16) as M. lia. }
  assert (Lc : length c0 = (16 * n)%nat) by (unfold c0, wanted_bytes; rewrite map_length, seq_length; reflexivity).
  destruct (common_tag aes k1 k2 nonce c0 n Hne Lc) as (b&Lb&Et).
  { unfold blen. rewrite Lc. clear - Hlim Hn1. lia. }
  destruct (masked_exists aes k1 (fun j => nonce ++ be_bytes 4 (j + 2)) (c0 ++ b)) as (p1&M1).
  destruct (masked_exists aes k2 (fun j => nonce ++ be_bytes 4 (j + 2)) (c0 ++ b)) as (p2&M2).
  exists (c0 ++ b), (spec_tag aes k1 nonce (c0 ++ b)), p1, p2.
  rewrite app_length, Lc, Lb. split; [lia|]. split; [lia|]. split; [reflexivity|]. split; [exact Et|].
  split; [exact M1|]. split; [exact M2|].
  intros i who y Hi. assert (Hlt : (i < length wants)%nat) by (apply nth_error_Some; congruence).
  assert (Ec : nth i (c0 ++ b) x00 = bxor y (stream_at aes (if who then k1 else k2) nonce i)).
  { rewrite app_nth1 by lia. unfold c0, wanted_bytes. fold n.
    set (f := fun i => bxor (snd (nth i wants (true, x00))) (stream_at aes (if fst (nth i wants (true, x00)) then k1 else k2) nonce i)).
    rewrite (nth_indep _ x00 (f 0%nat)) by (rewrite map_length, seq_length; lia).
    rewrite map_nth, seq_nth by lia. unfold f. cbn [Nat.add].
    rewrite (nth_error_nth _ _ (true, x00) Hi). reflexivity. }
  assert (G : forall k p, masked aes k (fun j => nonce ++ be_bytes 4 (j + 2)) (c0 ++ b) p -> k = (if who then k1 else k2) -> nth_error p i = Some y).
  { intros k p [Lp Hp] ->. assert (Li : (i < length p)%nat) by (rewrite Lp, app_length; lia).
    rewrite (nth_error_nth' _ x00 Li). rewrite Hp by (rewrite <- Lp; exact Li). rewrite Ec.
    unfold stream_at. rewrite bxor_bxor. reflexivity. }
  destruct who; [exact (G k1 p1 M1 eq_refl)|exact (G k2 p2 M2 eq_refl)].
Qed.
