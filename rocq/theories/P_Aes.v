(** C81: the block cipher is AES-256; what its being a permutation means for the encrypted message. *)
From Coq Require Import List Bool Arith NArith Lia.
From Coq Require Import Strings.Byte.
From Verif Require Import Res Bytes Gcm SpecGcm GcmFacts P_Gcm Aes SpecGhash SpecAes AesFacts AesFips AesPerm.
Import ListNotations.
Local Open Scope N_scope.

(** The block cipher of both tools computes what FIPS 197 prescribes, for every key and block. *)
Theorem C81_cipher_is_fips197 :
  forall key block out, length key = 32%nat -> length block = 16%nat ->
    (aes256 key block = out <-> fips197 key block out).
Proof. intros key block out. exact (aes_fips key block out). Qed.
Print Assumptions C81_cipher_is_fips197.

(** Under one key, two different blocks never have the same encryption. *)
Theorem C81_blocks_are_permuted :
  forall key block block', length block = 16%nat -> length block' = 16%nat ->
    aes256 key block = aes256 key block' -> block = block'.
Proof. intros key b b'. exact (aes_inj key b b'). Qed.
Print Assumptions C81_blocks_are_permuted.

(** Sixteen bytes of [l] from position [p]. *)
Definition block_at (l : list byte) (p : nat) : list byte := firstn 16 (skipn p l).

Lemma block_at_nth l p k : (k < 16)%nat -> (p + 16 <= length l)%nat -> nth k (block_at l p) x00 = nth (p + k) l x00.
Proof.
  intros Hk Hp. unfold block_at. rewrite <- (firstn_skipn p l) at 2. rewrite app_nth2; rewrite firstn_length_le by lia; [|lia].
  replace (p + k - p)%nat with k by lia. rewrite <- (firstn_skipn 16 (skipn p l)) at 2. rewrite app_nth1; [reflexivity|].
  rewrite firstn_length_le; [exact Hk|]. rewrite skipn_length. lia.
Qed.
Lemma bxor_cancel a b c : bxor a b = bxor a c -> b = c.
Proof.
  intros H. rewrite <- (byte_of_to_N b), <- (byte_of_to_N c). f_equal. apply (f_equal Byte.to_N) in H. unfold bxor in H.
  rewrite !to_N_byte_of, !N.mod_small in H by (apply lxor_lt; apply to_N_lt).
  apply (f_equal (N.lxor (Byte.to_N a))) in H. rewrite <- !N.lxor_assoc, !N.lxor_nilpotent, !N.lxor_0_l in H. exact H.
Qed.
Lemma stream_block (aes : cipherT) key block i k : (k < 16)%nat -> stream_byte aes key block (16 * i + k) = nth k (aes key (block (N.of_nat i))) x00.
Proof.
  intros H. unfold stream_byte. rewrite (Nat.mul_comm 16 i), Nat.add_comm. rewrite Nat.mod_add, Nat.mod_small by lia.
  rewrite Nat.div_add, Nat.div_small by lia. reflexivity.
Qed.
(** Equal blocks masked to equal blocks come from equal stream blocks. *)
Lemma masked_blocks key f f' m m' c c' i j : masked aes256 key f m c -> masked aes256 key f' m' c' ->
  (16 * i + 16 <= length m)%nat -> (16 * j + 16 <= length m')%nat ->
  length (f (N.of_nat i)) = 16%nat -> length (f' (N.of_nat j)) = 16%nat ->
  block_at m (16 * i) = block_at m' (16 * j) -> block_at c (16 * i) = block_at c' (16 * j) -> f (N.of_nat i) = f' (N.of_nat j).
Proof.
  intros [L H] [L' H'] Hi Hj F F' Em Ec. apply (C81_blocks_are_permuted key); [exact F|exact F'|].
  apply nth_ext with (d := x00) (d' := x00); [rewrite !enc_block_len; reflexivity|]. intros k Hk. rewrite enc_block_len in Hk.
  rewrite <- !stream_block by exact Hk.
  apply (bxor_cancel (nth (16 * i + k) m x00)). rewrite <- H by lia.
  assert (A : nth (16 * i + k) m x00 = nth (16 * j + k) m' x00).
  { rewrite <- (block_at_nth m (16 * i) k Hk Hi), <- (block_at_nth m' (16 * j) k Hk Hj), Em. reflexivity. }
  rewrite A, <- H' by lia. rewrite <- (block_at_nth c (16 * i) k Hk) by lia. rewrite <- (block_at_nth c' (16 * j) k Hk) by lia. rewrite Ec. reflexivity.
Qed.
Lemma be_bytes_inj n a b : a < 256 ^ N.of_nat n -> b < 256 ^ N.of_nat n -> be_bytes n a = be_bytes n b -> a = b.
Proof.
  intros Ha Hb H. unfold be_bytes in H. apply (f_equal (@rev byte)) in H. rewrite !rev_involutive in H.
  rewrite <- (le_val_small n a Ha), <- (le_val_small n b Hb), H. reflexivity.
Qed.
Lemma app_eq_len {A} (a b c d : list A) : length a = length b -> a ++ c = b ++ d -> a = b /\ c = d.
Proof.
  revert b. induction a as [|x a IH]; intros [|y b] L H; try discriminate L; [auto|]. cbn [app] in H. injection H as -> H.
  injection L as L. destruct (IH b L H) as [-> ->]. auto.
Qed.
Lemma gcm_encrypted aes key nonce m out : length nonce = 12%nat -> encrypt_gcm aes key nonce m = Ok out ->
  length key = 32%nat /\ blen m <= gcm_limit /\ exists c, gcm_masked aes key nonce m c /\ out = nonce ++ c ++ spec_tag aes key nonce c.
Proof.
  intros Hn H. destruct (C38_failures aes key nonce m) as (F1&F2&F3&_).
  destruct (Nat.eq_dec (length key) 32) as [Lk|Lk]; [|destruct (F1 Lk) as [X _]; congruence].
  assert (Lm : blen m <= gcm_limit).
  { destruct (N.le_gt_cases (blen m) gcm_limit) as [X|X]; [exact X|exfalso].
    destruct (N.le_gt_cases (blen m) (2 ^ 36)) as [Y|Y]; [specialize (F2 Lk X Y)|specialize (F3 Lk Y)]; congruence. }
  split; [exact Lk|]. split; [exact Lm|]. destruct (C38_round_trip aes key nonce m Lk Hn Lm) as (c&Hc&Ho). cbv zeta in Ho.
  exists c. split; [exact Hc|]. destruct Ho as (Ho&_). congruence.
Qed.
Lemma block_at_inside n a c t p : length a = n -> (p + 16 <= length c)%nat -> block_at (a ++ c ++ t) (n + p) = block_at c p.
Proof.
  intros <- H. unfold block_at. rewrite skipn_app. rewrite skipn_all2 by lia. cbn [app]. replace (length a + p - length a)%nat with p by lia.
  rewrite skipn_app, firstn_app. rewrite skipn_length. replace (16 - (length c - p))%nat with 0%nat by lia.
  rewrite firstn_O, app_nil_r. reflexivity.
Qed.

(** Of two places encrypted under one key - in one message, or in two with different nonces - equal
    blocks of the messages are different blocks of the files. *)
Theorem C81_equal_blocks_look_different :
  forall key nonce nonce' m m' out out' i j,
    length nonce = 12%nat -> length nonce' = 12%nat ->
    encrypt_gcm aes256 key nonce m = Ok out -> encrypt_gcm aes256 key nonce' m' = Ok out' ->
    (16 * i + 16 <= length m)%nat -> (16 * j + 16 <= length m')%nat -> (nonce, i) <> (nonce', j) ->
    block_at m (16 * i) = block_at m' (16 * j) ->
    block_at out (12 + 16 * i) <> block_at out' (12 + 16 * j).
Proof.
  intros key nonce nonce' m m' out out' i j Hn Hn' E E' Hi Hj Hne Hm Ho.
  apply gcm_encrypted in E as (_&Lm&c&Hc&->); [|exact Hn]. apply gcm_encrypted in E' as (_&Lm'&c'&Hc'&->); [|exact Hn'].
  assert (Lc : length c = length m) by apply Hc. assert (Lc' : length c' = length m') by apply Hc'.
  rewrite (block_at_inside 12 nonce c _ _ Hn) in Ho by lia. rewrite (block_at_inside 12 nonce' c' _ _ Hn') in Ho by lia.
  apply (masked_blocks key _ _ m m' c c' i j Hc Hc') in Ho; try assumption;
    [|rewrite app_length, be_bytes_length; lia|rewrite app_length, be_bytes_length; lia].
  apply app_eq_len in Ho; [|congruence]. destruct Ho as [-> Ho]. apply Hne. f_equal.
  unfold blen, gcm_limit in Lm, Lm'. apply be_bytes_inj in Ho; [lia| |]; change (256 ^ N.of_nat 4) with 4294967296; change (2 ^ 36 - 32) with 68719476704 in *; lia.
Qed.
Print Assumptions C81_equal_blocks_look_different.

(** The counter mode helpers: in one message of at most 2^64 blocks. *)
Theorem C81_equal_blocks_look_different_ctr :
  forall key iv m out i j,
    length iv = 16%nat -> encrypt_ctr aes256 key iv m = Ok out ->
    (16 * i + 16 <= length m)%nat -> (16 * j + 16 <= length m)%nat -> i <> j -> blen m <= 2 ^ 68 ->
    block_at m (16 * i) = block_at m (16 * j) ->
    block_at out (16 + 16 * i) <> block_at out (16 + 16 * j).
Proof.
  intros key iv m out i j Hv E Hi Hj Hne Lm Hm Ho.
  assert (Lk : length key = 32%nat). { unfold encrypt_ctr in E. destruct (Nat.eqb_spec (length key) 32) as [X|X]; [exact X|discriminate E]. }
  destruct (C40_round_trip aes256 key iv m Lk Hv) as (c&Hc&E'&_). assert (out = iv ++ c ++ []) by (rewrite app_nil_r; congruence). subst out.
  assert (Lc : length c = length m) by apply Hc. rewrite !(block_at_inside 16 iv c _ _ Hv) in Ho by lia.
  assert (L8 : forall x, length (firstn 8 iv ++ be_bytes 8 x) = 16%nat) by (intros x; rewrite app_length, be_bytes_length, firstn_length_le by lia; reflexivity).
  apply (masked_blocks key _ _ m m c c i j Hc Hc) in Ho; try assumption; try apply L8.
  apply app_inv_head in Ho. unfold be_bytes in Ho. apply (f_equal (@rev byte)) in Ho. rewrite !rev_involutive in Ho. apply (f_equal le_val) in Ho.
  rewrite !le_val_le_bytes in Ho. change (256 ^ N.of_nat 8) with (2 ^ 64) in Ho. unfold blen in Lm.
  assert (Bi : N.of_nat i < 2 ^ 64) by (change (2 ^ 68) with (16 * 2 ^ 64) in Lm; lia).
  assert (Bj : N.of_nat j < 2 ^ 64) by (change (2 ^ 68) with (16 * 2 ^ 64) in Lm; lia).
  set (v := be_val (skipn 8 iv)) in *. clearbody v. apply Hne. apply Nat2N.inj.
  set (a := N.of_nat i) in *. set (b := N.of_nat j) in *. clearbody a b.
  pose proof (N.div_mod (v + a) (2 ^ 64) ltac:(discriminate)) as D1. pose proof (N.div_mod (v + b) (2 ^ 64) ltac:(discriminate)) as D2. rewrite Ho in D1.
  set (q := (v + a) / 2 ^ 64) in *. set (q' := (v + b) / 2 ^ 64) in *. set (r := (v + b) mod 2 ^ 64) in *. clearbody q q' r.
  change (2 ^ 64) with 18446744073709551616 in *. clear - Bi Bj D1 D2. assert (q = q') by lia. subst q'. lia.
Qed.
Print Assumptions C81_equal_blocks_look_different_ctr.

(** FIPS 197 appendix C.3, as a case of the specification; and two equal blocks of one message. *)
Example C81_nonvacuous :
  fips197 (map (fun n => byte_of (N.of_nat n)) (seq 0 32)) (map (fun n => byte_of (17 * N.of_nat n)) (seq 0 16))
    (be_bytes 16 0x8ea2b7ca516745bfeafc49904b496089) /\
  exists out, encrypt_gcm aes256 (repeat x00 32) (repeat x00 12) (repeat x41 40) = Ok out /\
    block_at (repeat x41 40) (16 * 0) = block_at (repeat x41 40) (16 * 1) /\ block_at out 12 <> block_at out 28.
Proof.
  split.
  - apply C81_cipher_is_fips197; [reflexivity|reflexivity|]. exact fips197_c3.
  - destruct (encrypt_gcm aes256 (repeat x00 32) (repeat x00 12) (repeat x41 40)) as [out| |] eqn:E.
    + exists out. split; [reflexivity|]. split; [reflexivity|].
      apply (C81_equal_blocks_look_different (repeat x00 32) (repeat x00 12) (repeat x00 12) (repeat x41 40) (repeat x41 40) out out 0 1); try exact E; try reflexivity;
        [rewrite repeat_length; lia|rewrite repeat_length; lia|discriminate].
    + exfalso. vm_compute in E. discriminate.
    + exfalso. vm_compute in E. discriminate.
Qed.
