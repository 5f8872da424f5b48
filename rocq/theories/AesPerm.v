(** AES-256 permutes the blocks: every step of the cipher can be undone. *)
From Coq Require Import List Bool Arith NArith Lia Ring.
From Coq Require Import Strings.Byte.
From Verif Require Import Res Bytes Gcm Aes SpecGhash SpecAes AesFacts AesFips.
Import ListNotations.
Local Open Scope N_scope.
Local Infix "(+)" := N.lxor (at level 50, left associativity).

Lemma half_xor a b : (a (+) b) / 2 = a / 2 (+) b / 2.
Proof. rewrite <- !N.div2_div, !N.div2_spec. apply N.shiftr_lxor. Qed.
Lemma gmul_loop_add f a b b' acc acc' :
  gmul_loop f a (b (+) b') (acc (+) acc') = gmul_loop f a b acc (+) gmul_loop f a b' acc'.
Proof.
  revert a b b' acc acc'. induction f as [|f IH]; intros a b b' acc acc'; [reflexivity|].
  cbn [gmul_loop]. rewrite half_xor. rewrite <- IH. f_equal.
  rewrite <- !N.bit0_odd, N.lxor_spec.
  destruct (N.testbit b 0), (N.testbit b' 0); cbn [xorb]; apply N.bits_inj; intros k; rewrite !N.lxor_spec;
    destruct (N.testbit acc k), (N.testbit acc' k), (N.testbit a k); reflexivity.
Qed.
Lemma gmul_add a b b' : gmul a (b (+) b') = gmul a b (+) gmul a b'.
Proof. unfold gmul. rewrite <- (gmul_loop_add 8 a b b' 0 0). reflexivity. Qed.

(** 5.3.3 of FIPS 197: the matrix 14, 11, 13, 9 undoes the matrix 2, 3, 1, 1. *)
Lemma unmix_is : all_bytes (fun x =>
  (gmul 14 (gmul 2 x) (+) gmul 11 x (+) gmul 13 x (+) gmul 9 (gmul 3 x) =? x) &&
  (gmul 14 (gmul 3 x) (+) gmul 11 (gmul 2 x) (+) gmul 13 x (+) gmul 9 x =? 0) &&
  (gmul 14 x (+) gmul 11 (gmul 3 x) (+) gmul 13 (gmul 2 x) (+) gmul 9 x =? 0) &&
  (gmul 14 x (+) gmul 11 x (+) gmul 13 (gmul 3 x) (+) gmul 9 (gmul 2 x) =? 0)) = true.
Proof. vm_compute. reflexivity. Qed.
Lemma unmix x0 x1 x2 x3 : x0 < 256 -> x1 < 256 -> x2 < 256 -> x3 < 256 ->
  gmul 14 (gmul 2 x0 (+) gmul 3 x1 (+) (x2 (+) x3)) (+) gmul 11 (gmul 2 x1 (+) gmul 3 x2 (+) (x3 (+) x0)) (+)
  gmul 13 (gmul 2 x2 (+) gmul 3 x3 (+) (x0 (+) x1)) (+) gmul 9 (gmul 2 x3 (+) gmul 3 x0 (+) (x1 (+) x2)) = x0.
Proof.
  intros H0 H1 H2 H3. rewrite !gmul_add.
  pose proof (all_bytes_spec _ unmix_is x0 H0) as A0. pose proof (all_bytes_spec _ unmix_is x1 H1) as A1.
  pose proof (all_bytes_spec _ unmix_is x2 H2) as A2. pose proof (all_bytes_spec _ unmix_is x3 H3) as A3. cbv beta in A0, A1, A2, A3.
  rewrite !andb_true_iff, !N.eqb_eq in A0, A1, A2, A3.
  destruct A0 as (((A0&_)&_)&_). destruct A1 as (((_&A1)&_)&_). destruct A2 as (((_&_)&A2)&_). destruct A3 as (((_&_)&_)&A3).
  match type of A0 with ?e0 = _ => match type of A1 with ?e1 = _ => match type of A2 with ?e2 = _ => match type of A3 with ?e3 = _ =>
    transitivity (e0 (+) e1 (+) e2 (+) e3) end end end end.
  - clear. apply N.bits_inj. intros k. rewrite !N.lxor_spec.
    repeat match goal with |- context [N.testbit ?a ?i] => generalize (N.testbit a i); intros ? end. ring.
  - rewrite A0, A1, A2, A3, !N.lxor_0_r. reflexivity.
Qed.

Definition unsb_table : list N := Eval vm_compute in
  map (fun b => match find (fun a => sb a =? N.of_nat b) (map N.of_nat (seq 0 256)) with Some a => a | None => 0 end) (seq 0 256).
Definition unsb (b : N) : N := nth (N.to_nat b) unsb_table 0.
Lemma unsb_is : all_bytes (fun a => unsb (sb a) =? a) = true.
Proof. vm_compute. reflexivity. Qed.
Lemma sb_inj a b : a < 256 -> b < 256 -> sb a = sb b -> a = b.
Proof.
  intros Ha Hb H. pose proof (all_bytes_spec _ unsb_is a Ha) as A. pose proof (all_bytes_spec _ unsb_is b Hb) as B.
  apply N.eqb_eq in A. apply N.eqb_eq in B. congruence.
Qed.
Local Opaque gmul sb.

Lemma is16_ext l l' : is16 l -> is16 l' -> (forall r c, (r < 4)%nat -> (c < 4)%nat -> nth (r + 4 * c) l 0 = nth (r + 4 * c) l' 0) -> l = l'.
Proof. intros H H' E. apply (rep_inj (state_of l)); [exact H|exact H'|apply rep_state_of|]. intros r c Hr Hc. unfold state_of. apply E; assumption. Qed.
Lemma sub_inj l l' : is16 l -> is16 l' -> map sb l = map sb l' -> l = l'.
Proof.
  intros [L B] [L' B'] H. apply nth_ext with (d := 0) (d' := 0); [congruence|]. intros i Hi. apply sb_inj; [apply B|apply B'|].
  rewrite <- !(map_nth sb). rewrite H. reflexivity.
Qed.
Lemma shift_at l r c : (r < 4)%nat -> (c < 4)%nat -> nth (r + 4 * c) (shift_rows l) 0 = nth (r + 4 * ((c + r) mod 4)) l 0.
Proof.
  intros Hr Hc. destruct (cell r c Hr Hc) as (Hi&Hm&Hd). unfold shift_rows. rewrite nth_map_seq by exact Hi. rewrite Hm, Hd. reflexivity.
Qed.
Lemma shift_inj l l' : is16 l -> is16 l' -> shift_rows l = shift_rows l' -> l = l'.
Proof.
  intros H H' E. apply is16_ext; [exact H|exact H'|]. intros r c Hr Hc.
  assert (X : nth (r + 4 * ((c + (4 - r)) mod 4)) (shift_rows l) 0 = nth (r + 4 * ((c + (4 - r)) mod 4)) (shift_rows l') 0) by (rewrite E; reflexivity).
  rewrite !shift_at in X by (try exact Hr; apply Nat.mod_upper_bound; lia).
  rewrite Nat.add_mod_idemp_l in X by lia. replace (c + (4 - r) + r)%nat with (c + 1 * 4)%nat in X by lia.
  rewrite Nat.mod_add in X by lia. rewrite Nat.mod_small in X by exact Hc. exact X.
Qed.
Lemma mix_at l r c : (r < 4)%nat -> (c < 4)%nat ->
  nth (r + 4 * c) (mix_columns l) 0 =
  gmul 2 (nth (r + 4 * c) l 0) (+) gmul 3 (nth ((r + 1) mod 4 + 4 * c) l 0) (+) (nth ((r + 2) mod 4 + 4 * c) l 0 (+) nth ((r + 3) mod 4 + 4 * c) l 0).
Proof.
  intros Hr Hc. destruct (cell r c Hr Hc) as (Hi&Hm&Hd). unfold mix_columns. rewrite nth_map_seq by exact Hi. cbv zeta. rewrite Hd.
  assert (A : forall k, nth (4 * c + (r + 4 * c + k) mod 4) l 0 = nth ((r + k) mod 4 + 4 * c) l 0).
  { intros k. f_equal. replace (r + 4 * c + k)%nat with (r + k + c * 4)%nat by lia. rewrite Nat.mod_add by lia. lia. }
  rewrite !A. rewrite Nat.add_0_r, (Nat.mod_small r 4) by exact Hr. reflexivity.
Qed.
Lemma mix_undo l r c : is16 l -> (r < 4)%nat -> (c < 4)%nat ->
  let m k := nth ((r + k) mod 4 + 4 * c) (mix_columns l) 0 in
  nth (r + 4 * c) l 0 = gmul 14 (m 0%nat) (+) gmul 11 (m 1%nat) (+) gmul 13 (m 2%nat) (+) gmul 9 (m 3%nat).
Proof.
  intros [_ B] Hr Hc. cbv beta zeta. rewrite !mix_at by (try exact Hc; apply Nat.mod_upper_bound; lia).
  destruct r as [|[|[|[|r]]]]; [| | | |lia];
    match goal with |- nth (?r + _) _ _ = _ =>
      change ((r + 0) mod 4)%nat with (r)%nat; change ((r + 1) mod 4)%nat with ltac:(let x := eval vm_compute in ((r + 1) mod 4)%nat in exact x);
      change ((r + 2) mod 4)%nat with ltac:(let x := eval vm_compute in ((r + 2) mod 4)%nat in exact x);
      change ((r + 3) mod 4)%nat with ltac:(let x := eval vm_compute in ((r + 3) mod 4)%nat in exact x) end;
    repeat match goal with |- context [((?a + ?b) mod 4)%nat] => let x := eval vm_compute in ((a + b) mod 4)%nat in change ((a + b) mod 4)%nat with x end;
    symmetry; apply unmix; apply B.
Qed.
Lemma mix_inj l l' : is16 l -> is16 l' -> mix_columns l = mix_columns l' -> l = l'.
Proof.
  intros H H' E. apply is16_ext; [exact H|exact H'|]. intros r c Hr Hc. rewrite (mix_undo l r c H Hr Hc), (mix_undo l' r c H' Hr Hc), E. reflexivity.
Qed.
Lemma key_inj ws n l l' : is16 l -> is16 l' -> add_round_key ws n l = add_round_key ws n l' -> l = l'.
Proof.
  intros [L _] [L' _] E. apply nth_ext with (d := 0) (d' := 0); [congruence|]. intros i Hi. rewrite L in Hi.
  assert (X : nth i (add_round_key ws n l) 0 = nth i (add_round_key ws n l') 0) by (rewrite E; reflexivity).
  unfold add_round_key in X. rewrite !nth_map_seq in X by exact Hi. revert X. generalize (nth (i mod 4) (nth (4 * n + i / 4) ws []) 0). intros k X.
  apply (f_equal (fun x => x (+) k)) in X. rewrite !N.lxor_assoc, !N.lxor_nilpotent, !N.lxor_0_r in X. exact X.
Qed.
Lemma rounds_inj ws b b' n : bytes_words ws -> is16 b -> is16 b' -> rounds ws b n = rounds ws b' n -> b = b'.
Proof.
  intros W H H'. induction n as [|n IH]; intros E.
  - apply (key_inj ws 0); assumption.
  - rewrite !rounds_S in E. unfold aes_round in E. apply IH.
    assert (R := rounds_is16 ws b n W H). assert (R' := rounds_is16 ws b' n W H').
    apply sub_inj; [exact R|exact R'|]. apply shift_inj; [apply sub_is16, R|apply sub_is16, R'|].
    apply mix_inj; [apply shift_is16, sub_is16, R|apply shift_is16, sub_is16, R'|].
    apply (key_inj ws (S n)); [apply mix_is16, shift_is16, sub_is16, R|apply mix_is16, shift_is16, sub_is16, R'|exact E].
Qed.
Lemma aes_inj key b b' : length b = 16%nat -> length b' = 16%nat -> aes256_encrypt key b = aes256_encrypt key b' -> b = b'.
Proof.
  intros L L' E. rewrite !aes256_is in E. set (ws := key_words key) in *. assert (W : bytes_words ws) by apply key_words_bytes.
  assert (H := block_is16 b L). assert (H' := block_is16 b' L').
  assert (R := rounds_is16 ws _ 13 W H). assert (R' := rounds_is16 ws _ 13 W H').
  apply (f_equal (map Byte.to_N)) in E. rewrite !to_N_map_byte_of in E by (apply last_is16; assumption). unfold last_round in E.
  apply key_inj in E; [|apply shift_is16, sub_is16, R|apply shift_is16, sub_is16, R'].
  apply shift_inj in E; [|apply sub_is16, R|apply sub_is16, R']. apply sub_inj in E; [|exact R|exact R'].
  apply rounds_inj in E; [|exact W|exact H|exact H'].
  assert (X : map byte_of (map Byte.to_N b) = map byte_of (map Byte.to_N b')) by (rewrite E; reflexivity).
  rewrite !map_map in X. rewrite (map_ext _ (fun x => x) byte_of_to_N b), (map_ext _ (fun x => x) byte_of_to_N b'), !map_id in X. exact X.
Qed.
