(** The model of AES-256 computes what FIPS 197 (SpecAes.v) describes; it permutes the blocks. *)
From Coq Require Import List Bool Arith NArith Lia.
From Coq Require Import Strings.Byte.
From Verif Require Import Res Bytes Gcm Aes SpecGhash GhashFacts SpecAes.
Import ListNotations.
Local Open Scope N_scope.
Local Infix "(+)" := N.lxor (at level 50, left associativity).

(** ** Multiples of the AES polynomial *)
Definition mulp (q : N) : N := N.shiftl q 8 (+) N.shiftl q 4 (+) N.shiftl q 3 (+) N.shiftl q 1 (+) q.
Lemma swap5 a b c d e a' b' c' d' e' :
  (a (+) a') (+) (b (+) b') (+) (c (+) c') (+) (d (+) d') (+) (e (+) e') =
  (a (+) b (+) c (+) d (+) e) (+) (a' (+) b' (+) c' (+) d' (+) e').
Proof.
  apply N.bits_inj. intros k. rewrite !N.lxor_spec.
  destruct (N.testbit a k), (N.testbit b k), (N.testbit c k), (N.testbit d k), (N.testbit e k),
    (N.testbit a' k), (N.testbit b' k), (N.testbit c' k), (N.testbit d' k), (N.testbit e' k); reflexivity.
Qed.
Lemma mulp_add a b : mulp (a (+) b) = mulp a (+) mulp b.
Proof. unfold mulp. rewrite !N.shiftl_lxor. apply swap5. Qed.
Lemma mulp_shift n : mulp (N.shiftl 1 n) = N.shiftl aes_poly n.
Proof.
  unfold mulp. rewrite !N.shiftl_shiftl. rewrite !(N.add_comm n). rewrite <- !N.shiftl_shiftl.
  rewrite <- !N.shiftl_lxor. reflexivity.
Qed.
Lemma multiple_mulp t : poly_multiple aes_poly t -> exists q, t = mulp q.
Proof.
  intros (shifts&->). induction shifts as [|n shifts (q&IH)].
  - exists 0. reflexivity.
  - exists (N.shiftl 1 n (+) q). rewrite mulp_add, mulp_shift, <- IH. reflexivity.
Qed.
Lemma mulp_small q : mulp q < 256 -> q = 0.
Proof.
  intros H. destruct (N.eq_dec q 0) as [E|E]; [exact E|exfalso].
  assert (B : N.testbit (mulp q) (N.log2 q + 8) = true).
  { unfold mulp. rewrite !N.lxor_spec.
    rewrite (N.shiftl_spec_high' q 8) by lia. rewrite (N.shiftl_spec_high' q 4) by lia.
    rewrite (N.shiftl_spec_high' q 3) by lia. rewrite (N.shiftl_spec_high' q 1) by lia.
    replace (N.log2 q + 8 - 8) with (N.log2 q) by lia. rewrite N.bit_log2 by exact E.
    rewrite !(N.bits_above_log2 q) by lia. reflexivity. }
  assert (Hz : mulp q <> 0). { intros Z. rewrite Z in B. rewrite N.bits_0 in B. discriminate. }
  assert (N.log2 (mulp q) < 8). { apply N.log2_lt_pow2; [lia|exact H]. }
  rewrite N.bits_above_log2 in B by lia. discriminate.
Qed.
Lemma multiple_small t : poly_multiple aes_poly t -> t < 256 -> t = 0.
Proof. intros H L. apply multiple_mulp in H as (q&->). rewrite (mulp_small q L). reflexivity. Qed.
Lemma lxor_lt a b : a < 256 -> b < 256 -> a (+) b < 256.
Proof.
  intros Ha Hb. destruct (N.eq_dec (a (+) b) 0) as [E|E]; [lia|].
  apply (N.log2_lt_pow2 _ 8); [lia|]. eapply N.le_lt_trans; [apply N.log2_lxor|].
  destruct (N.eq_dec a 0) as [->|]; destruct (N.eq_dec b 0) as [->|];
    apply N.max_lub_lt; try (cbn; lia); apply N.log2_lt_pow2; lia.
Qed.
Lemma lxor_eq_0 a b : a (+) b = 0 -> a = b.
Proof. apply N.lxor_eq. Qed.
Lemma times_det a b c c' : times a b c -> times a b c' -> c = c'.
Proof.
  intros [L H] [L' H']. apply lxor_eq_0. apply multiple_small; [|apply lxor_lt; assumption].
  replace (c (+) c') with ((poly_times a b (+) c) (+) (poly_times a b (+) c')).
  - apply multiple_add; assumption.
  - apply N.bits_inj. intros k. rewrite !N.lxor_spec. destruct (N.testbit (poly_times a b) k), (N.testbit c k), (N.testbit c' k); reflexivity.
Qed.

(** ** The multiplication of the model *)
Lemma xtime_lt a : a < 256 -> xtime a < 256.
Proof.
  intros H. unfold xtime. cbv zeta. destruct (256 <=? 2 * a) eqn:E.
  - apply N.leb_le in E. apply lxor_lt; lia.
  - apply N.leb_gt in E. exact E.
Qed.
Lemma xtime_shift a : a < 256 -> poly_multiple aes_poly (N.shiftl a 1 (+) xtime a).
Proof.
  intros H. unfold xtime. cbv zeta. rewrite N.shiftl_mul_pow2. change (2 ^ 1) with 2. rewrite (N.mul_comm a 2).
  destruct (256 <=? 2 * a) eqn:E.
  - apply N.leb_le in E. replace (2 * a (+) (2 * a - 256 (+) 27)) with aes_poly; [apply multiple_self|].
    assert (S : 2 * a = 256 (+) (2 * a - 256)).
    { rewrite <- (N.add_nocarry_lxor 256 (2 * a - 256)); [lia|].
      apply N.bits_inj. intros k. rewrite N.land_spec, N.bits_0. destruct (N.eq_dec k 8) as [->|Hk].
      - rewrite (N.bits_above_log2 (2 * a - 256)); [apply andb_false_r|].
        destruct (N.eq_dec (2 * a - 256) 0) as [->|Hz]; [cbn; lia|]. apply N.log2_lt_pow2; lia.
      - change 256 with (2 ^ 8). rewrite N.pow2_bits_false by congruence. reflexivity. }
    rewrite S at 1. rewrite <- N.lxor_assoc, (N.lxor_assoc 256), N.lxor_nilpotent, N.lxor_0_r. reflexivity.
  - rewrite N.lxor_nilpotent. apply multiple_0.
Qed.
Lemma gmul_loop_lt f a b acc : a < 256 -> acc < 256 -> gmul_loop f a b acc < 256.
Proof.
  revert a b acc. induction f as [|f IH]; intros a b acc Ha Hc; [exact Hc|].
  cbn [gmul_loop]. apply IH; [apply xtime_lt; exact Ha|]. destruct (N.odd b); [apply lxor_lt; assumption|exact Hc].
Qed.
Lemma gmul_lt a b : a < 256 -> gmul a b < 256.
Proof. intros H. apply gmul_loop_lt; [exact H|reflexivity]. Qed.
Definition partial_product (f : nat) (a b : N) : N :=
  xor_all (map (fun i => if N.testbit b (N.of_nat i) then N.shiftl a (N.of_nat i) else 0) (seq 0 f)).
Lemma partial_product_S f a b :
  partial_product (S f) a b = (if N.odd b then a else 0) (+) partial_product f (N.shiftl a 1) (b / 2).
Proof.
  unfold partial_product. cbn [seq map xor_all fold_right]. fold xor_all.
  change (N.of_nat 0) with 0. rewrite N.bit0_odd, N.shiftl_0_r. f_equal.
  change (fold_right N.lxor 0) with xor_all. rewrite <- seq_shift, map_map. f_equal. apply map_ext. intros i.
  rewrite Nat2N.inj_succ. rewrite <- N.div2_div, N.div2_spec, N.shiftr_spec by lia.
  rewrite N.shiftl_shiftl. rewrite <- N.add_1_r, (N.add_comm 1). reflexivity.
Qed.
Lemma partial_product_congr f a a' b : poly_multiple aes_poly (a (+) a') ->
  poly_multiple aes_poly (partial_product f a b (+) partial_product f a' b).
Proof.
  intros H. unfold partial_product. rewrite <- xor_all_add. apply multiple_all. intros i _.
  destruct (N.testbit b (N.of_nat i)); [|apply multiple_0]. rewrite <- N.shiftl_lxor. apply multiple_shift. exact H.
Qed.
Lemma gmul_loop_spec f a b acc : a < 256 ->
  poly_multiple aes_poly (partial_product f a b (+) acc (+) gmul_loop f a b acc).
Proof.
  revert a b acc. induction f as [|f IH]; intros a b acc Ha.
  - unfold partial_product. cbn [seq map xor_all fold_right gmul_loop]. rewrite N.lxor_0_l, N.lxor_nilpotent. apply multiple_0.
  - rewrite partial_product_S. cbn [gmul_loop].
    pose proof (IH (xtime a) (b / 2) (if N.odd b then acc (+) a else acc) (xtime_lt a Ha)) as H.
    pose proof (partial_product_congr f _ _ (b / 2) (xtime_shift a Ha)) as H2.
    pose proof (multiple_add _ _ _ H H2) as H3. clear H H2.
    set (g := gmul_loop f _ _ _) in *. clearbody g. set (p1 := partial_product f (xtime a) (b / 2)) in *. set (p2 := partial_product f (N.shiftl a 1) (b / 2)) in *.
    clearbody p1 p2. match goal with |- poly_multiple _ ?x => match type of H3 with poly_multiple _ ?y => replace x with y; [exact H3|] end end.
    apply N.bits_inj. intros k. destruct (N.odd b); rewrite !N.lxor_spec, ?N.bits_0;
      destruct (N.testbit p1 k), (N.testbit p2 k), (N.testbit acc k), (N.testbit a k), (N.testbit g k); reflexivity.
Qed.
Lemma poly_times_8 a b : b < 256 -> poly_times b a = partial_product 8 a b.
Proof.
  intros H. unfold poly_times, partial_product. change 128%nat with (8 + 120)%nat. rewrite seq_app, map_app, xor_all_app.
  rewrite <- N.lxor_0_r. f_equal. rewrite (map_ext_in _ (fun _ => 0)).
  - generalize (seq (0 + 8) 120). intros l. induction l as [|x l IH]; [reflexivity|]. cbn [map xor_all fold_right]. fold xor_all. rewrite N.lxor_0_l. exact IH.
  - intros i Hi. apply in_seq in Hi. rewrite N.bits_above_log2; [reflexivity|].
    destruct (N.eq_dec b 0) as [->|Hz]; [cbn; lia|]. assert (N.log2 b < 8) by (apply N.log2_lt_pow2; lia). lia.
Qed.
Lemma gmul_times a b : a < 256 -> b < 256 -> times b a (gmul a b).
Proof.
  intros Ha Hb. split; [apply gmul_lt; exact Ha|]. rewrite (poly_times_8 a b Hb).
  pose proof (gmul_loop_spec 8 a b 0 Ha) as H. rewrite N.lxor_0_r in H. exact H.
Qed.
Lemma times_iff a b c : a < 256 -> b < 256 -> (times b a c <-> c = gmul a b).
Proof.
  intros Ha Hb. split; [intros H; exact (times_det _ _ _ _ H (gmul_times a b Ha Hb))|intros ->; apply gmul_times; assumption].
Qed.

(** ** Facts about all 256 bytes, each settled by going through them *)
Definition all_bytes (P : N -> bool) : bool := forallb (fun n => P (N.of_nat n)) (seq 0 256).
Lemma all_bytes_spec P : all_bytes P = true -> forall a, a < 256 -> P a = true.
Proof.
  intros H a Ha. unfold all_bytes in H. rewrite forallb_forall in H. rewrite <- (N2Nat.id a). apply H. apply in_seq. lia.
Qed.
Definition inv_table : list N := Eval vm_compute in map (fun n => ginv (N.of_nat n)) (seq 0 256).
Definition inv8 (a : N) : N := nth (N.to_nat a) inv_table 0.
Lemma inv8_is : all_bytes (fun a => (inv8 a <? 256) && (if a =? 0 then inv8 a =? 0 else gmul a (inv8 a) =? 1)) = true.
Proof. vm_compute. reflexivity. Qed.
Lemma one_inverse : all_bytes (fun a => all_bytes (fun b => if gmul a b =? 1 then b =? inv8 a else true)) = true.
Proof. vm_compute. reflexivity. Qed.
Definition affine_bit (i k : N) : bool :=
  let bit j := N.testbit i ((k + j) mod 8) in
  xorb (xorb (xorb (xorb (xorb (bit 0) (bit 4)) (bit 5)) (bit 6)) (bit 7)) (N.testbit 0x63 k).
Definition below8 : list N := [0; 1; 2; 3; 4; 5; 6; 7].
Lemma in_below8 k : k < 8 -> In k below8.
Proof. intros H. unfold below8. cbn [In]. lia. Qed.
Lemma sb_is : all_bytes (fun a => (sb a <? 256) && forallb (fun k => Bool.eqb (N.testbit (sb a) k) (affine_bit (inv8 a) k)) below8) = true.
Proof. vm_compute. reflexivity. Qed.
Lemma sb_lt a : a < 256 -> sb a < 256.
Proof. intros H. pose proof (all_bytes_spec _ sb_is a H) as X. apply andb_prop in X as [X _]. apply N.ltb_lt. exact X. Qed.
Lemma inverse_inv8 a : a < 256 -> inverse a (inv8 a).
Proof.
  intros H. pose proof (all_bytes_spec _ inv8_is a H) as X. cbv beta in X. apply andb_prop in X as [X Y]. apply N.ltb_lt in X.
  split; [exact X|]. destruct (a =? 0) eqn:E.
  - left. apply N.eqb_eq in E. apply N.eqb_eq in Y. auto.
  - right. apply N.eqb_eq in Y. apply times_iff; [exact H|exact X|]. symmetry. exact Y.
Qed.
Lemma inverse_det a b : a < 256 -> inverse a b -> b = inv8 a.
Proof.
  intros Ha [Hb [[-> ->]|H]]; [reflexivity|]. apply (times_iff a b 1 Ha Hb) in H.
  pose proof (all_bytes_spec _ (all_bytes_spec _ one_inverse a Ha) b Hb) as X. cbv beta in X. rewrite <- H in X.
  apply N.eqb_eq. exact X.
Qed.
Lemma byte_ext a b : a < 256 -> b < 256 -> (forall k, k < 8 -> N.testbit a k = N.testbit b k) -> a = b.
Proof.
  intros Ha Hb H. apply N.bits_inj. intros k. destruct (N.lt_ge_cases k 8) as [L|L]; [exact (H k L)|].
  assert (Z : forall x, x < 256 -> N.testbit x k = false).
  { intros x Hx. apply N.bits_above_log2. destruct (N.eq_dec x 0) as [->|Hz]; [cbn; lia|].
    apply N.lt_le_trans with 8; [|exact L]. apply N.log2_lt_pow2; [lia|exact Hx]. }
  rewrite (Z a Ha), (Z b Hb). reflexivity.
Qed.
Lemma sb_bits a k : a < 256 -> k < 8 -> N.testbit (sb a) k = affine_bit (inv8 a) k.
Proof.
  intros Ha Hk. pose proof (all_bytes_spec _ sb_is a Ha) as X. cbv beta in X. apply andb_prop in X as [_ X].
  rewrite forallb_forall in X. apply eqb_prop. apply X. apply in_below8. exact Hk.
Qed.
Lemma s_box_iff a b : a < 256 -> (s_box a b <-> b = sb a).
Proof.
  intros Ha. split.
  - intros (Hb&i&Hi&H). apply byte_ext; [exact Hb|apply sb_lt; exact Ha|]. intros k Hk. rewrite (sb_bits a k Ha Hk).
    rewrite <- (inverse_det a i Ha Hi). exact (H k Hk).
  - intros ->. split; [apply sb_lt; exact Ha|]. exists (inv8 a). split; [apply inverse_inv8; exact Ha|].
    intros k Hk. exact (sb_bits a k Ha Hk).
Qed.
