(** Facts about Gcm.v. *)
From Coq Require Import List Bool Arith NArith Lia.
From Coq Require Import Strings.Byte.
From Verif Require Import Res Bytes Gcm SpecGcm.
Import ListNotations.
Local Open Scope N_scope.

Lemma lxor_lt a b n : a < 2 ^ n -> b < 2 ^ n -> N.lxor a b < 2 ^ n.
Proof.
  intros Ha Hb. destruct (N.eq_dec (N.lxor a b) 0) as [->|Hz]; [lia|].
  apply N.log2_lt_pow2; [lia|].
  pose proof (N.log2_lxor a b) as H.
  destruct (N.eq_dec n 0) as [->|Hn].
  { change (2 ^ 0) with 1 in *. assert (a = 0) by lia. assert (b = 0) by lia. subst. exfalso. apply Hz. reflexivity. }
  assert (N.log2 a < n). { destruct (N.eq_dec a 0) as [->|]; [cbn; lia|]. apply N.log2_lt_pow2; lia. }
  assert (N.log2 b < n). { destruct (N.eq_dec b 0) as [->|]; [cbn; lia|]. apply N.log2_lt_pow2; lia. }
  lia.
Qed.
Lemma to_N_bxor a b : Byte.to_N (bxor a b) = N.lxor (Byte.to_N a) (Byte.to_N b).
Proof.
  unfold bxor. rewrite to_N_byte_of, N.mod_small; [reflexivity|].
  apply (lxor_lt _ _ 8); apply to_N_lt.
Qed.
Lemma to_N_inj a b : Byte.to_N a = Byte.to_N b -> a = b.
Proof. intros H. rewrite <- (byte_of_to_N a), <- (byte_of_to_N b), H. reflexivity. Qed.
Lemma bxor_bxor a b : bxor (bxor a b) b = a.
Proof. apply to_N_inj. rewrite !to_N_bxor, N.lxor_assoc, N.lxor_nilpotent, N.lxor_0_r. reflexivity. Qed.
Lemma bxor_comm a b : bxor a b = bxor b a.
Proof. apply to_N_inj. rewrite !to_N_bxor. apply N.lxor_comm. Qed.
Lemma bxor_assoc a b c : bxor (bxor a b) c = bxor a (bxor b c).
Proof. apply to_N_inj. rewrite !to_N_bxor. apply N.lxor_assoc. Qed.
Lemma bxor_inj a b k : bxor a k = bxor b k -> a = b.
Proof. intros H. rewrite <- (bxor_bxor a k), H. apply bxor_bxor. Qed.

Lemma xor_bytes_length a b : length (xor_bytes a b) = Nat.min (length a) (length b).
Proof. revert b. induction a as [|x a IH]; intros [|y b]; cbn; auto. Qed.
Lemma xor_bytes_nth a b i : (i < length a)%nat -> (i < length b)%nat ->
  nth i (xor_bytes a b) x00 = bxor (nth i a x00) (nth i b x00).
Proof.
  revert b i. induction a as [|x a IH]; intros [|y b] [|i] Ha Hb; cbn in *; try lia; [reflexivity|].
  apply IH; lia.
Qed.

Lemma nth_firstn {A} n i (l : list A) d : (i < n)%nat -> nth i (firstn n l) d = nth i l d.
Proof. revert i l. induction n as [|n IH]; intros [|i] [|x l] H; cbn; try lia; auto. apply IH. lia. Qed.
Lemma nth_skipn {A} n i (l : list A) d : nth i (skipn n l) d = nth (n + i) l d.
Proof. revert l. induction n as [|n IH]; intros l; [reflexivity|]. destruct l; cbn; [destruct i; reflexivity|apply IH]. Qed.

Lemma fold_left_cons {A B} (f : A -> B -> A) x l a : fold_left f (x :: l) a = fold_left f l (f a x).
Proof. reflexivity. Qed.

Section Modes.
  Context (aes : cipherT).

  Lemma ctr_loop_length fuel key blk i data : (length data <= fuel)%nat ->
    length (ctr_loop aes fuel key blk i data) = length data.
  Proof.
    revert i data. induction fuel as [|fuel IH]; intros i data H.
    - destruct data; [reflexivity|cbn in H; lia].
    - destruct data as [|b data]; [reflexivity|].
      change (ctr_loop aes (S fuel) key blk i (b :: data)) with
        (xor_bytes (firstn 16 (b :: data)) (aes key (blk i)) ++ ctr_loop aes fuel key blk (i + 1) (skipn 16 (b :: data))).
      rewrite app_length, xor_bytes_length, enc_block_len, IH, firstn_length, skipn_length.
      + cbn [length]. lia.
      + rewrite skipn_length. cbn [length] in *. lia.
  Qed.

  Lemma ctr_loop_nth fuel key blk c data i : (length data <= fuel)%nat -> (i < length data)%nat ->
    nth i (ctr_loop aes fuel key blk c data) x00
    = bxor (nth i data x00) (nth (i mod 16) (aes key (blk (c + N.of_nat (i / 16)))) x00).
  Proof.
    revert c data i. induction fuel as [|fuel IH]; intros c data i H Hi; [lia|].
    destruct data as [|b data]; [cbn in Hi; lia|].
    change (ctr_loop aes (S fuel) key blk c (b :: data)) with
      (xor_bytes (firstn 16 (b :: data)) (aes key (blk c)) ++ ctr_loop aes fuel key blk (c + 1) (skipn 16 (b :: data))).
    set (d := b :: data) in *. assert (Hl : (length d <= S fuel)%nat) by exact H. assert (Hp : (1 <= length d)%nat) by (subst d; cbn; lia).
    clearbody d. clear H.
    assert (Hx : length (xor_bytes (firstn 16 d) (aes key (blk c))) = Nat.min 16 (length d)).
    { rewrite xor_bytes_length, enc_block_len, firstn_length. lia. }
    destruct (Nat.lt_ge_cases i 16) as [H16|H16].
    - rewrite app_nth1 by (rewrite Hx; lia). rewrite Nat.div_small, Nat.mod_small by exact H16.
      change (N.of_nat 0) with 0. rewrite N.add_0_r. rewrite xor_bytes_nth, nth_firstn; auto.
      + rewrite firstn_length. lia.
      + rewrite enc_block_len. exact H16.
    - rewrite app_nth2 by (rewrite Hx; lia). rewrite Hx. replace (Nat.min 16 (length d)) with 16%nat by lia.
      rewrite IH by (rewrite skipn_length; lia). rewrite nth_skipn.
      replace (16 + (i - 16))%nat with i by lia.
      assert (E : i = ((i - 16) + 1 * 16)%nat) by lia.
      assert (Ed : (i / 16 = (i - 16) / 16 + 1)%nat). { rewrite E at 1. rewrite Nat.div_add by lia. reflexivity. }
      assert (Em : (i mod 16 = (i - 16) mod 16)%nat). { rewrite E at 1. rewrite Nat.mod_add by lia. reflexivity. }
      rewrite Ed, Em, Nat2N.inj_add. change (N.of_nat 1) with 1.
      rewrite <- N.add_assoc. rewrite (N.add_comm 1). reflexivity.
  Qed.

  Lemma masked_keystream key blk c data :
    masked aes key (fun j => blk (c + j)) data (apply_keystream aes key blk c data).
  Proof.
    split; [apply ctr_loop_length; lia|]. intros i Hi. apply ctr_loop_nth; auto.
  Qed.
  Lemma masked_unique key blk m c c' : masked aes key blk m c -> masked aes key blk m c' -> c = c'.
  Proof.
    intros [Hl H] [Hl' H']. apply (nth_ext _ _ x00 x00); [congruence|].
    intros i Hi. rewrite H, H' by congruence. reflexivity.
  Qed.
  Lemma masked_sym key blk m c : masked aes key blk m c -> masked aes key blk c m.
  Proof.
    intros [Hl H]. split; [congruence|]. intros i Hi. rewrite H by congruence. rewrite bxor_bxor. reflexivity.
  Qed.
  Lemma masked_ext key blk blk' m c : (forall j, blk j = blk' j) -> masked aes key blk m c -> masked aes key blk' m c.
  Proof.
    intros He [Hl H]. split; [exact Hl|]. intros i Hi. rewrite H by exact Hi. unfold stream_byte. rewrite He. reflexivity.
  Qed.
  Lemma masked_exists key blk m : exists c, masked aes key blk m c.
  Proof. eexists. apply (masked_ext _ (fun j => blk (0 + j))); [reflexivity|]. apply masked_keystream. Qed.

  Lemma gcm_stream key nonce data : gcm_masked aes key nonce data (apply_keystream aes key (gcm_block nonce) 2 data).
  Proof.
    unfold gcm_masked. apply (masked_ext _ (fun j => gcm_block nonce (2 + j))); [|apply masked_keystream].
    intros j. unfold gcm_block. rewrite N.add_comm. reflexivity.
  Qed.
  Lemma ctr_stream key iv data : ctr_masked aes key iv data (apply_keystream aes key (ctr_block iv) 0 data).
  Proof.
    unfold ctr_masked. apply (masked_ext _ (fun j => ctr_block iv (0 + j))); [|apply masked_keystream].
    intros j. reflexivity.
  Qed.
  Lemma gcm_stream_is key nonce m c : gcm_masked aes key nonce m c -> apply_keystream aes key (gcm_block nonce) 2 m = c.
  Proof. intros H. eapply masked_unique; [apply gcm_stream|exact H]. Qed.
  Lemma ctr_stream_is key iv m c : ctr_masked aes key iv m c -> apply_keystream aes key (ctr_block iv) 0 m = c.
  Proof. intros H. eapply masked_unique; [apply ctr_stream|exact H]. Qed.

  (** GHASH *)
  Lemma chunk_eq (d : list byte) : firstn 16 (firstn 16 d ++ repeat x00 16) = map (fun k => nth k d x00) (seq 0 16).
  Proof.
    apply (nth_ext _ _ x00 x00).
    - rewrite firstn_length, app_length, repeat_length, map_length, seq_length. lia.
    - intros i Hi. rewrite firstn_length, app_length, repeat_length in Hi. assert (Hi16 : (i < 16)%nat) by lia. clear Hi.
      rewrite nth_firstn by exact Hi16.
      rewrite (nth_indep (map _ _) x00 (nth 0 d x00)) by (rewrite map_length, seq_length; exact Hi16).
      rewrite (map_nth (fun k => nth k d x00)). rewrite seq_nth by exact Hi16. rewrite Nat.add_0_l.
      destruct (Nat.lt_ge_cases i (length (firstn 16 d))) as [H|H].
      + rewrite app_nth1 by exact H. apply nth_firstn. exact Hi16.
      + rewrite app_nth2 by exact H. rewrite (nth_overflow d).
        * destruct (nth_in_or_default (i - length (firstn 16 d)) (repeat x00 16) x00) as [Hin|Hd]; [|exact Hd].
          apply repeat_spec in Hin. exact Hin.
        * rewrite firstn_length in H. lia.
  Qed.

  Lemma block_of_skip d i : block_of (skipn 16 d) i = block_of d (S i).
  Proof.
    unfold block_of. f_equal. apply map_ext. intros k. rewrite nth_skipn. f_equal. lia.
  Qed.
  Lemma block_of_0 d : be_val (map (fun k => nth k d x00) (seq 0 16)) = block_of d 0.
  Proof. reflexivity. Qed.
  Lemma block_count_skip d : (0 < length d)%nat -> block_count d = S (block_count (skipn 16 d)).
  Proof.
    intros H. unfold block_count. rewrite skipn_length.
    destruct (Nat.lt_ge_cases (length d) 16) as [Hs|Hs].
    - replace (length d - 16)%nat with 0%nat by lia. change ((0 + 15) / 16)%nat with 0%nat.
      symmetry. apply (Nat.div_unique _ _ 1 (length d - 1)); lia.
    - replace (length d + 15)%nat with ((length d - 16 + 15) + 1 * 16)%nat by lia.
      rewrite Nat.div_add by lia. lia.
  Qed.

  Lemma ghash_chunks_S fuel h acc d : (0 < length d)%nat ->
    ghash_chunks (S fuel) h acc d
    = ghash_chunks fuel h (gf_mul (N.lxor acc (be_val (firstn 16 (firstn 16 d ++ repeat x00 16)))) h) (skipn 16 d).
  Proof. destruct d; [cbn [length]; lia|]. intros _. reflexivity. Qed.
  Lemma ghash_chunks_fold fuel h acc d : (length d <= fuel)%nat ->
    ghash_chunks fuel h acc d
    = fold_left (fun a b => gf_mul (N.lxor a b) h) (map (block_of d) (seq 0 (block_count d))) acc.
  Proof.
    revert acc d. induction fuel as [|fuel IH]; intros acc d H.
    - destruct d; [reflexivity|cbn in H; lia].
    - assert (E : d = [] \/ (0 < length d)%nat) by (destruct d; cbn; [left; reflexivity|right; lia]).
      destruct E as [->|Hp]; [reflexivity|].
      rewrite ghash_chunks_S by exact Hp. rename d into e.
      rewrite IH by (rewrite skipn_length; lia). rewrite chunk_eq.
      rewrite block_of_0. rewrite (block_count_skip e Hp). rewrite <- cons_seq. rewrite map_cons.
      rewrite fold_left_cons.
      f_equal.
      rewrite <- seq_shift, map_map. apply map_ext. intros i. apply block_of_skip.
  Qed.

  Lemma be_val_app l l' : be_val (l ++ l') = be_val l * 256 ^ N.of_nat (length l') + be_val l'.
  Proof. unfold be_val. rewrite rev_app_distr, le_val_app, rev_length. lia. Qed.

  Lemma ghash_is h c : 8 * blen c < 2 ^ 64 ->
    ghash h c = fold_left (fun a b => gf_mul (N.lxor a b) h) (ghash_blocks c) 0.
  Proof.
    intros H. unfold ghash, ghash_blocks. rewrite fold_left_app, fold_left_cons. change (fold_left _ [] ?x) with x. cbv beta.
    rewrite ghash_chunks_fold by lia. f_equal. f_equal.
    rewrite be_val_app, !be_val_be_bytes. rewrite be_bytes_length.
    change (256 ^ N.of_nat 8) with (2 ^ 64).
    rewrite (N.mod_small (8 * blen c)) by exact H. rewrite N.mod_0_l by (vm_compute; discriminate). reflexivity.
  Qed.

  Lemma gcm_tag_is key nonce c : 8 * blen c < 2 ^ 64 -> gcm_tag aes key nonce c = spec_tag aes key nonce c.
  Proof.
    intros H. unfold gcm_tag, spec_tag. rewrite ghash_is by exact H. fold (gcm_block nonce 1).
    set (s := be_bytes 16 _). set (k := aes key (gcm_block nonce 1)).
    assert (Hs : length s = 16%nat) by apply be_bytes_length.
    assert (Hk : length k = 16%nat) by apply enc_block_len. clearbody s k.
    apply (nth_ext _ _ x00 (bxor (nth 0 s x00) (nth 0 k x00))).
    - rewrite xor_bytes_length, map_length, seq_length. lia.
    - intros i Hi. rewrite xor_bytes_length in Hi.
      rewrite (map_nth (fun i => bxor (nth i s x00) (nth i k x00))), seq_nth by lia.
      apply xor_bytes_nth; lia.
  Qed.
  Lemma spec_tag_length key nonce c : length (spec_tag aes key nonce c) = 16%nat.
  Proof. unfold spec_tag. rewrite map_length, seq_length. reflexivity. Qed.
End Modes.

Lemma bytes_eq_iff a b : bytes_eq a b = true <-> a = b.
Proof. unfold bytes_eq. destruct (list_eq_dec _ a b); split; congruence. Qed.
