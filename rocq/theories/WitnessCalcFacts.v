(** Facts about the witness calculator. *)
From Coq Require Import List Bool Arith NArith ZArith Lia Permutation.
From Coq Require Import Strings.String Strings.Byte.
From Verif Require Import Res Bytes Text Reader Inputs Combined InputsFacts CombinedFacts SpecNumerals P_Numerals SpecJsNumber JsNumber JsNumberText WitnessCalc SpecWitnessCalc.
Import ListNotations.
Local Open Scope N_scope.
Local Open Scope rd_scope.

(** ** Words *)
Lemma words_of_length n v : List.length (words_of n v) = n.
Proof. revert v. induction n as [|n IH]; intros v; [reflexivity|]. cbn [words_of List.length]. rewrite IH. reflexivity. Qed.
Lemma words_of_small n v : Forall (fun w => w < 2 ^ 32) (words_of n v).
Proof.
  revert v. induction n as [|n IH]; intros v; [constructor|]. cbn [words_of]. constructor; [|apply IH].
  apply N.mod_lt. discriminate.
Qed.
Lemma pow32_S n : 2 ^ (32 * N.of_nat (S n)) = 2 ^ 32 * 2 ^ (32 * N.of_nat n).
Proof. rewrite <- N.pow_add_r. f_equal. lia. Qed.
Lemma words_val_of n v : v < 2 ^ (32 * N.of_nat n) -> words_val (words_of n v) = v.
Proof.
  revert v. induction n as [|n IH]; intros v H.
  - cbn in H. cbn [words_of words_val]. lia.
  - cbn [words_of words_val]. rewrite pow32_S in H. rewrite IH.
    + rewrite (N.div_mod v (2 ^ 32)) at 3 by discriminate. lia.
    + apply N.div_lt_upper_bound; [discriminate|exact H].
Qed.
Lemma words_val_lt ws : Forall (fun w => w < 2 ^ 32) ws -> words_val ws < 2 ^ (32 * N.of_nat (List.length ws)).
Proof.
  induction 1 as [|w ws Hw _ IH]; [cbn; lia|]. cbn [words_val List.length]. rewrite pow32_S.
  generalize dependent (2 ^ (32 * N.of_nat (List.length ws))). intros P IH. clear - Hw IH. change (2 ^ 32) with 4294967296 in *. nia.
Qed.
Lemma words_of_val ws : Forall (fun w => w < 2 ^ 32) ws -> words_of (List.length ws) (words_val ws) = ws.
Proof.
  induction 1 as [|w ws Hw _ IH]; [reflexivity|]. cbn [words_val List.length words_of].
  rewrite (N.mul_comm (2 ^ 32)), N.mod_add, N.div_add by discriminate. rewrite N.mod_small, N.div_small, N.add_0_l, IH by exact Hw. reflexivity.
Qed.
Lemma words_of_zero n : words_of n 0 = repeat 0 n.
Proof. induction n as [|n IH]; [reflexivity|]. cbn [words_of repeat]. change (0 mod 2 ^ 32) with 0. change (0 / 2 ^ 32) with 0. rewrite IH. reflexivity. Qed.

Lemma repeat_rev {A} (a : A) n : rev (repeat a n) = repeat a n.
Proof.
  induction n as [|n IH]; [reflexivity|]. cbn [repeat rev]. rewrite IH. clear IH.
  induction n as [|n IH]; [reflexivity|]. cbn [repeat app]. rewrite IH. reflexivity.
Qed.
Lemma map_repeat' {A B} (f : A -> B) a n : map f (repeat a n) = repeat (f a) n.
Proof. induction n as [|n IH]; [reflexivity|]. cbn [repeat map]. rewrite IH. reflexivity. Qed.
Lemma to_array32_loop_spec : forall fuel n (v : N) res, v < 2 ^ (32 * N.of_nat n) -> v < 2 ^ N.of_nat fuel ->
  exists ws, to_array32_loop fuel (Z.of_N v) res = ws ++ res /\ (List.length ws <= n)%nat /\
    repeat 0%Z (n - List.length ws) ++ ws = map Z.of_N (rev (words_of n v)).
Proof.
  induction fuel as [|fuel IH]; intros n v res Hn Hf.
  - change (2 ^ N.of_nat 0) with 1 in Hf. assert (v = 0) as -> by lia. exists []. split; [reflexivity|].
    split; [cbn; lia|]. cbn [List.length]. rewrite Nat.sub_0_r, app_nil_r, words_of_zero, repeat_rev, map_repeat'. reflexivity.
  - cbn [to_array32_loop]. destruct (Z.of_N v =? 0)%Z eqn:E.
    + apply Z.eqb_eq in E. assert (v = 0) as -> by lia. exists []. split; [reflexivity|].
      split; [cbn; lia|]. cbn [List.length]. rewrite Nat.sub_0_r, app_nil_r, words_of_zero, repeat_rev, map_repeat'. reflexivity.
    + apply Z.eqb_neq in E. destruct n as [|n].
      { exfalso. change (2 ^ (32 * N.of_nat 0)) with 1 in Hn. lia. }
      change (2 ^ 32)%Z with (Z.of_N (2 ^ 32)). rewrite <- N2Z.inj_quot, <- N2Z.inj_rem.
      destruct (IH n (v / 2 ^ 32) (Z.of_N (v mod 2 ^ 32) :: res)) as (ws&H1&H2&H3).
      * rewrite pow32_S in Hn. apply N.div_lt_upper_bound; [discriminate|exact Hn].
      * rewrite Nat2N.inj_succ, N.pow_succ_r' in Hf. apply N.div_lt_upper_bound; [discriminate|].
        eapply N.lt_le_trans; [exact Hf|]. apply N.mul_le_mono_r. discriminate.
      * exists (ws ++ [Z.of_N (v mod 2 ^ 32)]). rewrite H1, <- app_assoc. split; [reflexivity|].
        rewrite app_length. cbn [List.length]. split; [lia|].
        cbn [words_of rev]. rewrite map_app, <- H3, <- app_assoc. cbn [map]. f_equal. f_equal. lia.
Qed.
Lemma to_array32_spec n (v : N) : v < 2 ^ (32 * N.of_nat n) ->
  to_array32 (Z.of_N v) n = map Z.of_N (rev (words_of n v)).
Proof.
  intros H. unfold to_array32.
  destruct (to_array32_loop_spec (S (Z.to_nat (Z.log2 (Z.abs (Z.of_N v))))) n v [] H) as (ws&H1&H2&H3).
  - rewrite Z.abs_eq by lia. destruct (N.eq_dec v 0) as [->|Hv]; [reflexivity|].
    assert (L := Z.log2_spec (Z.of_N v) ltac:(lia)). assert (P := Z.log2_nonneg (Z.of_N v)).
    apply N2Z.inj_lt. rewrite N2Z.inj_pow. change (Z.of_N 2) with 2%Z.
    replace (Z.of_N (N.of_nat (S (Z.to_nat (Z.log2 (Z.of_N v)))))) with (Z.succ (Z.log2 (Z.of_N v))) by lia. lia.
  - rewrite H1, app_nil_r. exact H3.
Qed.
Lemma from_array32_rev ws : from_array32 (rev ws) = Z.of_N (words_val ws).
Proof.
  unfold from_array32. rewrite <- fold_left_rev_right, rev_involutive.
  induction ws as [|w ws IH]; [reflexivity|]. cbn [fold_right words_val]. rewrite IH, N2Z.inj_add, N2Z.inj_mul.
  change (Z.of_N (2 ^ 32)) with (2 ^ 32)%Z. ring.
Qed.

Lemma u32_i32 w : w < 2 ^ 32 -> u32_of (i32_of w) = w.
Proof.
  intros H. unfold u32_of, i32_of. rewrite N.mod_small by exact H.
  destruct (w <? 2 ^ 31).
  - rewrite Z.mod_small; [apply N2Z.id|]. change (2 ^ 32)%Z with (Z.of_N (2 ^ 32)). lia.
  - replace (Z.of_N w - 2 ^ 32)%Z with (Z.of_N w + (-1) * 2 ^ 32)%Z by ring.
    rewrite Z.mod_add by discriminate. rewrite Z.mod_small; [apply N2Z.id|]. change (2 ^ 32)%Z with (Z.of_N (2 ^ 32)). lia.
Qed.
Lemma u32_of_N w : w < 2 ^ 32 -> u32_of (Z.of_N w) = w.
Proof.
  intros H. unfold u32_of. rewrite Z.mod_small; [apply N2Z.id|]. change (2 ^ 32)%Z with (Z.of_N (2 ^ 32)). lia.
Qed.
Lemma map_nth_seq {A} (d : A) l : map (fun j => nth j l d) (seq 0 (List.length l)) = l.
Proof.
  induction l as [|a l IH]; [reflexivity|]. cbn [List.length seq map nth]. f_equal.
  rewrite <- seq_shift, map_map. exact IH.
Qed.
Lemma read_words s ws : ws_shared s = ws -> Forall (fun w => w < 2 ^ 32) ws ->
  map (fun j => u32_of (x_read s j)) (seq 0 (List.length ws)) = ws.
Proof.
  intros <- H. rewrite <- (map_nth_seq 0 (ws_shared s)) at 2. apply map_ext_in. intros j Hj. apply in_seq in Hj.
  unfold x_read. apply u32_i32. rewrite Forall_forall in H. apply H. apply nth_In. lia.
Qed.

(** ** Reading numbers *)
Lemma normalize_mod z p : (0 < p)%Z -> normalize z p = (z mod p)%Z.
Proof.
  intros Hp. unfold normalize. destruct (Z.rem z p <? 0)%Z eqn:E.
  - apply Z.ltb_lt in E. assert (H := Z.rem_bound_abs z p ltac:(lia)). rewrite (Z.abs_eq p) in H by lia.
    assert (Q := Z.quot_rem z p ltac:(lia)). apply (Z.mod_unique z p (Z.quot z p - 1)); [left; lia|lia].
  - apply Z.ltb_ge in E. assert (H := Z.rem_bound_abs z p ltac:(lia)). rewrite (Z.abs_eq p) in H by lia.
    assert (Q := Z.quot_rem z p ltac:(lia)). apply (Z.mod_unique z p (Z.quot z p)); [left; lia|lia].
Qed.

Lemma bigint_value_spec v z : (forall l, v <> JArr l) -> (bigint_value v = Ok z <-> whole_number v z).
Proof.
  intros Ha. split.
  - destruct v as [|b|n|f|t|l|o]; cbn; intros H; try discriminate.
    + destruct b; injection H as <-; constructor.
    + injection H as <-. constructor.
    + destruct (number_bigint f) eqn:E; [|discriminate]. injection H as <-. apply number_bigint_iff in E. destruct E as (neg&d&k&m&w&A&B&C&D&->). econstructor; eassumption.
    + destruct (js_bigint t) eqn:E; [|discriminate]. injection H as <-. constructor. apply C57_bigint_texts. exact E.
  - intros H. inversion H as [y|t neg d k x w A B C D| | |t y A]; subst; cbn; try reflexivity.
    + assert (E : number_bigint t = Some (signed neg w)) by (apply number_bigint_iff; exists neg, d, k, (w * 2 ^ 1074), w; auto). rewrite E. reflexivity.
    + apply C57_bigint_texts in A. rewrite A. reflexivity.
Qed.
Definition fill_list := fix go (acc : list Z) (l : list json) : res js_throw (list Z) :=
         match l with
         | [] => Ok acc
         | x :: l => match fill_array acc x with Ok acc => go acc l | Err e => Err e | Panic => Panic end
         end.
Lemma fill_array_arr acc l : fill_array acc (JArr l) = fill_list acc l.
Proof. reflexivity. Qed.

Lemma fill_array_spec v : forall acc r, fill_array acc v = Ok r <-> exists zs, numbers v zs /\ r = acc ++ zs.
Proof.
  induction v as [|b|z|t|t|l IH|o IH] using json_ind'; intros acc r.
  6: { rewrite fill_array_arr. transitivity (exists zs, numbers_of l zs /\ r = acc ++ zs).
       - revert acc r. induction IH as [|x l Hx _ IHl]; intros acc r; cbn [fill_list].
         + split; [intros [= <-]; exists []; rewrite app_nil_r; split; [constructor|reflexivity]|].
           intros (zs&Hn&->). inversion Hn. rewrite app_nil_r. reflexivity.
         + destruct (fill_array acc x) as [acc'|e|] eqn:E.
           * apply Hx in E as (z1&Hz1&->). rewrite IHl. split.
             -- intros (z2&Hz2&->). exists (z1 ++ z2). rewrite app_assoc. split; [constructor; assumption|reflexivity].
             -- intros (z2&Hz2&->). inversion Hz2 as [|? ? z1' z2' Ha Hb]; subst.
                assert (z1' = z1) as ->.
                { assert (A1 : fill_array acc x = Ok (acc ++ z1')) by (apply Hx; eauto).
                  assert (A2 : fill_array acc x = Ok (acc ++ z1)) by (apply Hx; eauto).
                  rewrite A1 in A2. injection A2 as A2. apply app_inv_head in A2. exact A2. }
                exists z2'. rewrite app_assoc. split; [assumption|reflexivity].
           * split; [discriminate|]. intros (zs&Hn&->). inversion Hn; subst.
             assert (A1 : fill_array acc x = Ok (acc ++ zs0)) by (apply Hx; eauto). congruence.
           * split; [discriminate|]. intros (zs&Hn&->). inversion Hn; subst.
             assert (A1 : fill_array acc x = Ok (acc ++ zs0)) by (apply Hx; eauto). congruence.
       - split; intros (zs&Hn&->); exists zs; (split; [|reflexivity]).
         + constructor. exact Hn.
         + inversion Hn as [v z Hw|l' zs' Hl]; subst; [inversion Hw|exact Hl]. }
  all: cbn [fill_array]; match goal with |- context [bigint_value ?v] =>
      assert (Hs := fun z => bigint_value_spec v z ltac:(discriminate)); destruct (bigint_value v) as [z0|e|] eqn:E end;
    split; [intros [= <-]|intros (zs&Hn&->); inversion Hn as [? z' Hw|]; subst; apply Hs in Hw; injection Hw as ->; reflexivity|discriminate|
      intros (zs&Hn&->); inversion Hn as [? z' Hw|]; subst; apply Hs in Hw; discriminate|discriminate|
      intros (zs&Hn&->); inversion Hn as [? z' Hw|]; subst; apply Hs in Hw; discriminate].
  all: exists [z0]; split; [constructor; apply Hs; reflexivity|reflexivity].
Qed.
Lemma flat_array_spec v zs : flat_array v = Ok zs <-> numbers v zs.
Proof.
  unfold flat_array. rewrite fill_array_spec. split; [intros (z&H&->); exact H|intros H; exists zs; split; [exact H|reflexivity]].
Qed.
Lemma flat_array_no_panic v : flat_array v <> Panic.
Proof.
  unfold flat_array. generalize (@nil Z). induction v as [|b|z|t|t|l IH|o IH] using json_ind'; intros acc; try (cbn; discriminate).
  - cbn [fill_array bigint_value]. destruct (number_bigint t); discriminate.
  - cbn. destruct (js_bigint t); discriminate.
  - rewrite fill_array_arr. revert acc. induction IH as [|x l Hx _ IHl]; intros acc; cbn [fill_list]; [discriminate|].
    specialize (Hx acc). destruct (fill_array acc x); [apply IHl|discriminate|exact Hx].
Qed.

(** ** Hashes *)
Lemma fnv_units_lt cs : fnv_units cs < 2 ^ 64.
Proof.
  unfold fnv_units. assert (H : 14695981039346656037 < 2 ^ 64) by reflexivity. revert H. generalize 14695981039346656037.
  induction cs as [|c cs IH]; intros h H; [exact H|]. cbn [fold_left]. apply IH. unfold fnv_step. apply N.mod_lt. discriminate.
Qed.
Lemma name_hash_units k : name_hash k = fnv_units (utf16 k).
Proof. reflexivity. Qed.
Definition is_hex (c : N) := (48 <= c <= 57) \/ (97 <= c <= 102).
(** The last [n] hexadecimal digits, most significant first. *)
Fixpoint nibs (n : nat) (v : N) : list N := match n with O => [] | S n => nibs n (v / 16) ++ [v mod 16] end.
Lemma nibs_length n v : List.length (nibs n v) = n.
Proof. revert v. induction n as [|n IH]; intros v; [reflexivity|]. cbn [nibs]. rewrite app_length, IH. cbn. lia. Qed.
Lemma nibs_app a b v : nibs (a + b) v = nibs a (v / 16 ^ N.of_nat b) ++ nibs b v.
Proof.
  revert v. induction b as [|b IH]; intros v.
  - rewrite Nat.add_0_r. cbn [nibs]. rewrite app_nil_r. f_equal. change (16 ^ N.of_nat 0) with 1. rewrite N.div_1_r. reflexivity.
  - rewrite Nat.add_succ_r. cbn [nibs]. rewrite IH, app_assoc. do 3 f_equal.
    rewrite Nat2N.inj_succ, N.pow_succ_r', N.div_div; [reflexivity|discriminate|apply N.pow_nonzero; discriminate].
Qed.
Lemma nibs_zero n : nibs n 0 = repeat 0 n.
Proof.
  induction n as [|n IH]; [reflexivity|]. cbn [nibs]. change (0 / 16) with 0. rewrite IH. clear IH.
  change (0 mod 16) with 0. induction n as [|n IH]; [reflexivity|]. cbn [repeat app]. rewrite IH. reflexivity.
Qed.
Lemma hex_loop_spec : forall fuel n v acc, v < 16 ^ N.of_nat (S n) -> v < 2 ^ N.of_nat (S fuel) ->
  exists t, hex_loop (S fuel) v acc = t ++ acc /\ (List.length t <= S n)%nat /\
    repeat 48 (S n - List.length t) ++ t = map hex_char (nibs (S n) v).
Proof.
  induction fuel as [|fuel IH]; intros n v acc Hn Hf.
  - change (2 ^ N.of_nat 1) with 2 in Hf. assert (Hq : v / 16 = 0) by (apply N.div_small; lia).
    cbn [hex_loop]. rewrite Hq. cbn [N.eqb]. exists [hex_char (v mod 16)]. split; [reflexivity|]. split; [cbn; lia|].
    cbn [nibs List.length]. rewrite Hq, nibs_zero, map_app, map_repeat'. cbn [Nat.sub]. rewrite Nat.sub_0_r. reflexivity.
  - assert (Hstep : hex_loop (S (S fuel)) v acc =
      if v / 16 =? 0 then hex_char (v mod 16) :: acc else hex_loop (S fuel) (v / 16) (hex_char (v mod 16) :: acc)) by reflexivity.
    rewrite Hstep. clear Hstep. destruct (N.eqb_spec (v / 16) 0) as [Hq|Hq].
    + exists [hex_char (v mod 16)]. split; [reflexivity|]. split; [cbn; lia|].
      cbn [nibs List.length]. rewrite Hq, nibs_zero, map_app, map_repeat'. cbn [Nat.sub]. rewrite Nat.sub_0_r. reflexivity.
    + destruct n as [|n].
      { exfalso. change (16 ^ N.of_nat 1) with 16 in Hn. apply Hq. apply N.div_small. exact Hn. }
      destruct (IH n (v / 16) (hex_char (v mod 16) :: acc)) as (t&H1&H2&H3).
      * rewrite Nat2N.inj_succ, N.pow_succ_r' in Hn. apply N.div_lt_upper_bound; [discriminate|exact Hn].
      * rewrite Nat2N.inj_succ, N.pow_succ_r' in Hf. apply N.div_lt_upper_bound; [discriminate|].
        eapply N.lt_le_trans; [exact Hf|]. apply N.mul_le_mono_r. discriminate.
      * exists (t ++ [hex_char (v mod 16)]). rewrite H1, <- app_assoc. split; [reflexivity|].
        rewrite app_length. cbn [List.length]. split; [lia|].
        change (nibs (S (S n)) v) with (nibs (S n) (v / 16) ++ [v mod 16]). rewrite map_app, <- H3, <- app_assoc. cbn [map]. f_equal. f_equal. lia.
Qed.
Lemma fnv_hash_digits k : fnv_hash k = map hex_char (nibs 16 (name_hash k)).
Proof.
  unfold fnv_hash. rewrite <- name_hash_units. set (v := name_hash k).
  assert (Hv : v < 2 ^ 64) by apply fnv_units_lt.
  unfold to_hex. destruct (hex_loop_spec (N.to_nat (N.log2 v)) 15 v []) as (t&H1&H2&H3).
  - exact Hv.
  - destruct (N.eq_dec v 0) as [->|Hz]; [reflexivity|].
    assert (L := N.log2_spec v ltac:(lia)). rewrite Nat2N.inj_succ, N2Nat.id. apply L.
  - rewrite H1, app_nil_r. exact H3.
Qed.
Lemma radix_hex_char d : d < 16 -> radix_digit 16 (hex_char d) = Some d.
Proof.
  intros H. unfold hex_char.
  assert (In d [0;1;2;3;4;5;6;7;8;9;10;11;12;13;14;15]) as Hin.
  { clear - H. cbn [In]. lia. }
  cbn [In] in Hin. repeat (destruct Hin as [<-|Hin]; [reflexivity|]). contradiction.
Qed.
Lemma radix_app r a b : forall acc, radix_value r (a ++ b) acc =
  match radix_value r a acc with Some v => radix_value r b v | None => None end.
Proof. induction a as [|c a IH]; intros acc; [reflexivity|]. cbn [app radix_value]. destruct (radix_digit r c); [apply IH|reflexivity]. Qed.
Lemma radix_nibs n : forall v acc, radix_value 16 (map hex_char (nibs n v)) acc = Some (acc * 16 ^ N.of_nat n + v mod 16 ^ N.of_nat n).
Proof.
  induction n as [|n IH]; intros v acc.
  - cbn [nibs map radix_value]. change (16 ^ N.of_nat 0) with 1. rewrite N.mod_1_r. f_equal. lia.
  - cbn [nibs]. rewrite map_app, radix_app, IH. cbn [map radix_value]. rewrite radix_hex_char by (apply N.mod_lt; discriminate).
    f_equal. rewrite Nat2N.inj_succ, N.pow_succ_r', N.mod_mul_r by (try discriminate; apply N.pow_nonzero; discriminate).
    generalize (16 ^ N.of_nat n). intros P. generalize ((v / 16) mod P). intros. ring.
Qed.
Lemma hash_msb k : parse_hex (firstn 8 (fnv_hash k)) = name_hash k / 2 ^ 32.
Proof.
  rewrite fnv_hash_digits, (nibs_app 8 8), map_app, firstn_app, map_length, nibs_length.
  rewrite firstn_all2 by (rewrite map_length, nibs_length; lia). cbn [Nat.sub firstn]. rewrite app_nil_r.
  unfold parse_hex. rewrite radix_nibs. change (16 ^ N.of_nat 8) with (2 ^ 32). rewrite N.mod_small; [reflexivity|].
  apply N.div_lt_upper_bound; [discriminate|]. change (2 ^ 32 * 2 ^ 32) with (2 ^ 64). apply fnv_units_lt.
Qed.
Lemma hash_lsb k : parse_hex (firstn 8 (skipn 8 (fnv_hash k))) = name_hash k mod 2 ^ 32.
Proof.
  rewrite fnv_hash_digits, (nibs_app 8 8), map_app, skipn_app, map_length, nibs_length.
  rewrite skipn_all2 by (rewrite map_length, nibs_length; lia). cbn [Nat.sub skipn app].
  rewrite firstn_all2 by (rewrite map_length, nibs_length; lia).
  unfold parse_hex. rewrite radix_nibs. reflexivity.
Qed.
Lemma join_hash h : h < 2 ^ 64 -> join64 (h / 2 ^ 32) (h mod 2 ^ 32) = h.
Proof.
  intros H. unfold join64. rewrite N.mod_mod by discriminate.
  rewrite N.mod_small by (apply N.div_lt_upper_bound; [discriminate|exact H]).
  rewrite (N.div_mod h (2 ^ 32)) at 3 by discriminate. ring.
Qed.
(** The hash is one to one in each single code unit. *)
Lemma fnv_mult_inj a b : a < 2 ^ 64 -> b < 2 ^ 64 -> (a * 1099511628211) mod 2 ^ 64 = (b * 1099511628211) mod 2 ^ 64 -> a = b.
Proof.
  intros Ha Hb H.
  assert (U : forall x, x < 2 ^ 64 -> ((x * 1099511628211) mod 2 ^ 64 * 14886173955864302971) mod 2 ^ 64 = x).
  { intros x Hx. rewrite N.mul_mod_idemp_l by discriminate. rewrite <- N.mul_assoc.
    rewrite <- N.mul_mod_idemp_r by discriminate. change ((1099511628211 * 14886173955864302971) mod 2 ^ 64) with 1.
    rewrite N.mul_1_r. apply N.mod_small. exact Hx. }
  rewrite <- (U a Ha), <- (U b Hb), H. reflexivity.
Qed.
Lemma lxor_lt n a b : a < 2 ^ n -> b < 2 ^ n -> N.lxor a b < 2 ^ n.
Proof.
  intros Ha Hb. destruct (N.eq_dec (N.lxor a b) 0) as [->|Hz]; [apply N.neq_0_lt_0, N.pow_nonzero; discriminate|].
  apply N.log2_lt_pow2; [lia|]. eapply N.le_lt_trans; [apply N.log2_lxor|].
  apply N.max_lub_lt.
  - destruct (N.eq_dec a 0) as [->|]; [|apply N.log2_lt_pow2; lia]. cbn. destruct n; [|lia].
    exfalso. apply Hz. change (2 ^ 0) with 1 in *. replace b with 0 by lia. reflexivity.
  - destruct (N.eq_dec b 0) as [->|]; [|apply N.log2_lt_pow2; lia]. cbn. destruct n; [|lia].
    exfalso. apply Hz. change (2 ^ 0) with 1 in *. replace a with 0 by lia. reflexivity.
Qed.
Lemma lxor_cancel a b c : N.lxor a c = N.lxor b c -> a = b.
Proof.
  intros H. rewrite <- (N.lxor_0_r a), <- (N.lxor_nilpotent c), <- N.lxor_assoc, H, N.lxor_assoc, N.lxor_nilpotent, N.lxor_0_r. reflexivity.
Qed.
Lemma fnv_step_inj_state h h' c : h < 2 ^ 64 -> h' < 2 ^ 64 -> c < 2 ^ 64 -> fnv_step h c = fnv_step h' c -> h = h'.
Proof.
  intros H1 H2 Hc H. unfold fnv_step in H. apply fnv_mult_inj in H; [|apply lxor_lt; assumption..].
  apply lxor_cancel in H. exact H.
Qed.
Lemma fnv_step_inj_unit h c c' : h < 2 ^ 64 -> c < 2 ^ 64 -> c' < 2 ^ 64 -> fnv_step h c = fnv_step h c' -> c = c'.
Proof.
  intros H1 H2 Hc H. unfold fnv_step in H. apply fnv_mult_inj in H; [|apply lxor_lt; assumption..].
  rewrite (N.lxor_comm h c), (N.lxor_comm h c') in H. apply lxor_cancel in H. exact H.
Qed.
Lemma fnv_step_lt h c : fnv_step h c < 2 ^ 64.
Proof. apply N.mod_lt. discriminate. Qed.
Lemma fnv_fold_inj cs : forall h h', Forall (fun c => c < 2 ^ 64) cs -> h < 2 ^ 64 -> h' < 2 ^ 64 ->
  fold_left fnv_step cs h = fold_left fnv_step cs h' -> h = h'.
Proof.
  induction cs as [|c cs IH]; intros h h' Hc H1 H2 H; [exact H|]. cbn [fold_left] in H. inversion Hc; subst.
  apply IH in H; try apply fnv_step_lt; try assumption. apply fnv_step_inj_state in H; assumption.
Qed.
Lemma fnv_one_unit pre c c' post : Forall (fun c => c < 2 ^ 16) (pre ++ c :: post) -> c' < 2 ^ 16 -> c <> c' ->
  fnv_units (pre ++ c :: post) <> fnv_units (pre ++ c' :: post).
Proof.
  intros H Hc Hne E. unfold fnv_units in E. rewrite !fold_left_app in E. cbn [fold_left] in E.
  assert (Hpre : fold_left fnv_step pre 14695981039346656037 < 2 ^ 64) by apply (fnv_units_lt pre).
  apply Forall_app in H as [_ H]. inversion H as [|? ? Hcc Hpost]; subst.
  assert (B : forall x, x < 2 ^ 16 -> x < 2 ^ 64) by (intros x Hx; eapply N.lt_trans; [exact Hx|reflexivity]).
  apply fnv_fold_inj in E; try apply fnv_step_lt.
  - apply fnv_step_inj_unit in E; auto.
  - eapply Forall_impl; [|exact Hpost]. auto.
Qed.

Lemma skipn_plus {A} a b : forall l : list A, skipn b (skipn a l) = skipn (a + b) l.
Proof.
  induction a as [|a IH]; intros l; [reflexivity|]. destruct l as [|x l]; [destruct b; reflexivity|]. cbn [skipn Nat.add]. apply IH.
Qed.

(** ** The state of the compiled circuit *)
Section Run.
  Context (m : wmodule) (Hm : module_ok m).
  Notation n32 := (md_n32 m).

  Lemma find_signal_in h n : find_signal m h = Some n <-> In (h, n) (md_signals m).
  Proof.
    assert (Hd := mo_hashes _ Hm). unfold find_signal. revert Hd. induction (md_signals m) as [|[h' n'] l IH]; intros Hd.
    - cbn. split; [discriminate|contradiction].
    - cbn [find map fst In] in *. inversion Hd as [|? ? Hni Hd']; subst. destruct (N.eqb_spec h' h) as [->|Hne].
      + split; [intros [= <-]; left; reflexivity|]. intros [E|Hin]; [congruence|].
        exfalso. apply Hni. apply (in_map fst) in Hin. exact Hin.
      + rewrite (IH Hd'). split; [intros H; right; exact H|]. intros [E|H]; [congruence|exact H].
  Qed.
  Lemma find_signal_none h : find_signal m h = None <-> ~ In h (map fst (md_signals m)).
  Proof.
    destruct (find_signal m h) as [n|] eqn:E.
    - apply find_signal_in in E. split; [discriminate|]. intros H. exfalso. apply H. apply (in_map fst) in E. exact E.
    - split; [|reflexivity]. intros _ Hin. apply in_map_iff in Hin as ([h' n]&Hh&Hin). cbn in Hh. subst h'.
      apply find_signal_in in Hin. congruence.
  Qed.

  Lemma write_fold arr : forall c a s, (a + c <= List.length (ws_shared s))%nat ->
    fold_left (fun s j => x_write s j (nth (n32 - 1 - j) arr 0%Z)) (seq a c) s =
    WState (firstn a (ws_shared s) ++ map (fun j => u32_of (nth (n32 - 1 - j) arr 0%Z)) (seq a c) ++ skipn (a + c) (ws_shared s))
      (ws_given s) (ws_witness s).
  Proof.
    induction c as [|c IH]; intros a s H.
    - cbn [seq fold_left map app]. rewrite Nat.add_0_r, firstn_skipn. destruct s; reflexivity.
    - cbn [seq fold_left map]. set (u := u32_of (nth (n32 - 1 - a) arr 0%Z)).
      assert (Hl : List.length (firstn a (ws_shared s)) = a) by (rewrite firstn_length; lia).
      rewrite IH.
      + unfold x_write at 1 2 3 4. cbn [ws_shared ws_given ws_witness]. fold u. f_equal.
        assert (E1 : firstn (S a) (firstn a (ws_shared s) ++ u :: skipn (S a) (ws_shared s)) = firstn a (ws_shared s) ++ [u]).
        { rewrite firstn_app, Hl. rewrite firstn_all2 by lia. replace (S a - a)%nat with 1%nat by lia. reflexivity. }
        rewrite E1. rewrite <- app_assoc. cbn [app]. do 3 f_equal.
        rewrite skipn_app, Hl. rewrite skipn_all2 by lia. cbn [app].
        replace (S a + c - a)%nat with (S c) by lia. change (skipn (S c) (u :: skipn (S a) (ws_shared s))) with (skipn c (skipn (S a) (ws_shared s))). rewrite skipn_plus. f_equal. lia.
      + unfold x_write. cbn [ws_shared]. rewrite app_length. cbn [List.length]. rewrite skipn_length, Hl. lia.
  Qed.
  Lemma write_words_ok s v : List.length (ws_shared s) = n32 -> v < 2 ^ (32 * N.of_nat n32) ->
    write_words m (to_array32 (Z.of_N v) n32) s = (Ok tt, WState (words_of n32 v) (ws_given s) (ws_witness s)).
  Proof.
    intros Hl Hv. unfold write_words, lift_state. rewrite write_fold by lia. do 2 f_equal.
    cbn [firstn app]. rewrite Nat.add_0_l, skipn_all2 by lia. rewrite app_nil_r.
    rewrite to_array32_spec by exact Hv.
    transitivity (map (fun j => nth j (words_of n32 v) 0) (seq 0 (List.length (words_of n32 v)))).
    - rewrite words_of_length. apply map_ext_in. intros j Hj. apply in_seq in Hj.
      change 0%Z with (Z.of_N 0). rewrite map_nth, rev_nth by (rewrite words_of_length; lia). rewrite words_of_length.
      replace (n32 - S (n32 - 1 - j))%nat with j by lia. apply u32_of_N.
      assert (F := words_of_small n32 v). rewrite Forall_forall in F. apply F, nth_In. rewrite words_of_length. lia.
    - apply map_nth_seq.
  Qed.

  (** One assignment, on the assignments so far and the computed witness. *)
  Definition push (gw : list setting * option (list N)) (x : setting) : option (list setting * option (list N)) :=
    if existsb (fun g => (fst (fst g) =? fst (fst x)) && (snd (fst g) =? snd (fst x))) (fst gw) then None
    else if N.of_nat (List.length (fst gw ++ [x])) =? input_size m
    then match md_compute m (fst gw ++ [x]) with Some w => Some (fst gw ++ [x], Some w) | None => None end
    else Some (fst gw ++ [x], snd gw).
  Fixpoint pushes (gw : list setting * option (list N)) (xs : list setting) : option (list setting * option (list N)) :=
    match xs with [] => Some gw | x :: xs => match push gw x with Some gw => pushes gw xs | None => None end end.
  Lemma pushes_app xs : forall gw ys, pushes gw (xs ++ ys) = match pushes gw xs with Some gw => pushes gw ys | None => None end.
  Proof. induction xs as [|x xs IH]; intros gw ys; [reflexivity|]. cbn [app pushes]. destruct (push gw x); [apply IH|reflexivity]. Qed.

  Definition gw_of (s : wstate) := (ws_given s, ws_witness s).
  Definition shape (s : wstate) := List.length (ws_shared s) = n32.
  Lemma set_signal_push s msb lsb i v n : shape s -> ws_shared s = words_of n32 v -> v < 2 ^ (32 * N.of_nat n32) ->
    find_signal m (join64 msb lsb) = Some n -> i < n ->
    x_set_signal m s msb lsb i =
    match push (gw_of s) (join64 msb lsb, i, v) with Some (g, w) => Some (WState (ws_shared s) g w) | None => None end.
  Proof.
    intros Hs Hw Hv Hf Hi. unfold x_set_signal. rewrite Hf. destruct (N.leb_spec n i) as [|_]; [lia|].
    unfold already_set, push, gw_of. cbn [fst snd]. match goal with |- context [existsb ?f ?l] => destruct (existsb f l) end; [reflexivity|].
    unfold x_run. cbn [ws_given ws_shared ws_witness]. rewrite Hw, words_val_of by exact Hv. unfold setting in *.
    match goal with |- context [?x =? input_size m] => destruct (x =? input_size m) end; [|reflexivity]. match goal with |- context [md_compute m ?x] => destruct (md_compute m x) end; reflexivity.
  Qed.

  Definition value_of (z : Z) : N := Z.to_N (z mod Z.of_N (md_prime m)).
  Fixpoint vals_settings (h i : N) (zs : list Z) : list setting :=
    match zs with [] => [] | z :: zs => (h, i, value_of z) :: vals_settings h (i + 1) zs end.
  Lemma vals_settings_length h : forall zs i, List.length (vals_settings h i zs) = List.length zs.
  Proof. induction zs as [|z zs IH]; intros i; [reflexivity|]. cbn. rewrite IH. reflexivity. Qed.
  Lemma vals_settings_map h : forall zs a,
    vals_settings h (N.of_nat a) zs =
    map (fun p => (h, N.of_nat (fst p), Z.to_N (snd p mod Z.of_N (md_prime m)))) (combine (seq a (List.length zs)) zs).
  Proof.
    induction zs as [|z zs IH]; intros a; [reflexivity|]. cbn [vals_settings List.length seq combine map fst snd].
    f_equal. rewrite <- IH. f_equal. lia.
  Qed.
  Lemma prime_pos : (0 < Z.of_N (md_prime m))%Z.
  Proof. destruct (mo_prime _ Hm) as [H _]. lia. Qed.
  Lemma value_of_lt z : value_of z < md_prime m.
  Proof. unfold value_of. assert (H := Z.mod_pos_bound z _ prime_pos). lia. Qed.
  Lemma value_of_fits z : value_of z < 2 ^ (32 * N.of_nat n32).
  Proof. eapply N.lt_trans; [apply value_of_lt|]. apply (mo_prime _ Hm). Qed.
  Lemma normalize_value z : normalize z (Z.of_N (md_prime m)) = Z.of_N (value_of z).
  Proof.
    rewrite normalize_mod by apply prime_pos. unfold value_of. rewrite Z2N.id; [reflexivity|].
    apply Z.mod_pos_bound, prime_pos.
  Qed.

  Lemma set_values_push k msb lsb n : find_signal m (join64 msb lsb) = Some n -> forall zs i s,
    shape s -> i + N.of_nat (List.length zs) <= n ->
    match pushes (gw_of s) (vals_settings (join64 msb lsb) i zs) with
    | Some gw => exists s', set_values m (Z.of_N (md_prime m)) k msb lsb i zs s = (Ok (N.of_nat (List.length zs)), s') /\ shape s' /\ gw_of s' = gw
    | None => exists j s', set_values m (Z.of_N (md_prime m)) k msb lsb i zs s = (Err (WcSet k j), s')
    end.
  Proof.
    intros Hf. induction zs as [|z zs IH]; intros i s Hs Hi.
    - cbn [vals_settings pushes set_values]. exists s. split; [reflexivity|]. split; [exact Hs|reflexivity].
    - assert (Heq : set_values m (Z.of_N (md_prime m)) k msb lsb i (z :: zs) s =
        match push (gw_of s) (join64 msb lsb, i, value_of z) with
        | Some (g, w) => (do n <- set_values m (Z.of_N (md_prime m)) k msb lsb (i + 1) zs ; ret (1 + n)) (WState (words_of n32 (value_of z)) g w)
        | None => (Err (WcSet k i), WState (words_of n32 (value_of z)) (ws_given s) (ws_witness s))
        end).
      { cbn [set_values]. unfold mbind at 1. rewrite normalize_value, write_words_ok by (try exact Hs; apply value_of_fits).
        cbn [List.length] in Hi. unfold mbind at 1, lift_opt.
        rewrite (set_signal_push _ msb lsb i (value_of z) n); [|unfold shape; cbn [ws_shared]; apply words_of_length|reflexivity|apply value_of_fits|exact Hf|lia].
        change (gw_of (WState (words_of n32 (value_of z)) (ws_given s) (ws_witness s))) with (gw_of s).
        destruct (push (gw_of s) _) as [[g w]|]; reflexivity. }
      rewrite Heq. clear Heq. cbn [vals_settings pushes List.length] in *. destruct (push (gw_of s) _) as [[g w]|]; [|eauto].
      cbn [ws_shared]. specialize (IH (i + 1) (WState (words_of n32 (value_of z)) g w)).
      unfold gw_of in IH at 1. cbn [ws_given ws_witness] in IH.
      assert (Hs' : shape (WState (words_of n32 (value_of z)) g w)) by apply words_of_length.
      specialize (IH Hs' ltac:(lia)). destruct (pushes (g, w) _) as [gw|].
      + destruct IH as (s'&E&Hsh&Hg). exists s'. unfold mbind. cbn [ws_shared]. rewrite E. unfold ret. split; [|split; assumption].
        do 2 f_equal. cbn [List.length]. lia.
      + destruct IH as (j&s'&E). exists j, s'. unfold mbind. cbn [ws_shared]. rewrite E. reflexivity.
  Qed.

  (** Each key. *)
  Lemma hash_join k : join64 (parse_hex (firstn 8 (fnv_hash k))) (parse_hex (firstn 8 (skipn 8 (fnv_hash k)))) = name_hash k.
  Proof. rewrite hash_msb, hash_lsb. apply join_hash. apply fnv_units_lt. Qed.
  Definition entry_set (kv : text * json) (g : list setting) : Prop :=
    exists zs, numbers (snd kv) zs /\ In (name_hash (fst kv), N.of_nat (List.length zs)) (md_signals m) /\
      g = vals_settings (name_hash (fst kv)) 0 zs.
  Lemma entry_settings_iff kv g : entry_settings m kv g <-> entry_set kv g.
  Proof.
    unfold entry_settings, entry_set. split.
    - intros (zs&n&H1&H2&<-&->). exists zs. split; [exact H1|]. split; [exact H2|]. symmetry. apply (vals_settings_map _ zs 0).
    - intros (zs&H1&H2&->). exists zs, (N.of_nat (List.length zs)). split; [exact H1|]. split; [exact H2|]. split; [reflexivity|].
      apply (vals_settings_map _ zs 0).
  Qed.
  Lemma numbers_fun v zs zs' : numbers v zs -> numbers v zs' -> zs = zs'.
  Proof. intros H H'. apply flat_array_spec in H, H'. congruence. Qed.
  Lemma entry_set_fun kv g g' : entry_set kv g -> entry_set kv g' -> g = g'.
  Proof.
    intros (zs&H1&_&->) (zs'&H1'&_&->). rewrite (numbers_fun _ _ _ H1 H1'). reflexivity.
  Qed.
  Lemma set_key_cases k v s : shape s ->
    (exists g, entry_set (k, v) g /\
      match pushes (gw_of s) g with
      | Some gw => exists s', set_key m (Z.of_N (md_prime m)) k v s = (Ok (N.of_nat (List.length g)), s') /\ shape s' /\ gw_of s' = gw
      | None => exists j s', set_key m (Z.of_N (md_prime m)) k v s = (Err (WcSet k j), s')
      end) \/
    (exists e s', set_key m (Z.of_N (md_prime m)) k v s = (Err e, s') /\ entry_fault m k v e /\ forall g, ~ entry_set (k, v) g).
  Proof.
    intros Hs. unfold set_key, mbind, lift_res. destruct (flat_array v) as [zs|e|] eqn:Ef.
    2: { right. exists (WcValue e), s. split; [reflexivity|].
         assert (Hno : forall zs, ~ numbers v zs) by (intros zs Hz; apply flat_array_spec in Hz; congruence).
         split; [constructor; exact Hno|]. intros g (zs&Hz&_). exact (Hno zs Hz). }
    2: { exfalso. exact (flat_array_no_panic v Ef). }
    apply flat_array_spec in Ef. unfold x_signal_size. rewrite hash_join.
    assert (HJ := hash_join k).
    destruct (find_signal m (name_hash k)) as [n|] eqn:Ff.
    2: { right. exists (WcSignalNotFound k), s. split; [reflexivity|]. apply find_signal_none in Ff.
         split; [econstructor; eauto|]. intros g (zs'&Hz&Hin&_). apply Ff. apply (in_map fst) in Hin. exact Hin. }
    destruct (Z.of_N n <? 0)%Z eqn:E0; [apply Z.ltb_lt in E0; lia|].
    assert (Hin := Ff). apply find_signal_in in Hin.
    assert (Huniq : forall g, entry_set (k, v) g -> n = N.of_nat (List.length zs)).
    { intros g (zs'&Hz&Hin'&_). cbn [fst snd] in *. rewrite (numbers_fun _ _ _ Ef Hz). apply find_signal_in in Hin'. congruence. }
    destruct (Z.of_nat (List.length zs) <? Z.of_N n)%Z eqn:E1.
    { apply Z.ltb_lt in E1. right. exists (WcNotEnough k), s. split; [reflexivity|]. split; [eapply ef_few; eauto; lia|].
      intros g Hg. apply Huniq in Hg. lia. }
    destruct (Z.of_N n <? Z.of_nat (List.length zs))%Z eqn:E2.
    { apply Z.ltb_lt in E2. right. exists (WcTooMany k), s. split; [reflexivity|]. split; [eapply ef_many; eauto; lia|].
      intros g Hg. apply Huniq in Hg. lia. }
    apply Z.ltb_ge in E1, E2. left. exists (vals_settings (name_hash k) 0 zs).
    split; [exists zs; cbn [fst snd]; split; [exact Ef|]; split; [|reflexivity]; replace (N.of_nat (List.length zs)) with n by lia; exact Hin|].
    rewrite vals_settings_length.
    assert (H := set_values_push k (parse_hex (firstn 8 (fnv_hash k))) (parse_hex (firstn 8 (skipn 8 (fnv_hash k)))) n).
    rewrite HJ in H. apply H; [exact Ff|exact Hs|lia].
  Qed.

  Lemma set_keys_cases : forall kvs s, shape s ->
    (exists per gw s', Forall2 entry_set kvs per /\ pushes (gw_of s) (List.concat per) = Some gw /\
       set_keys m (Z.of_N (md_prime m)) kvs s = (Ok (N.of_nat (List.length (List.concat per))), s') /\ shape s' /\ gw_of s' = gw) \/
    (exists pre k v post per gw e s', kvs = pre ++ (k, v) :: post /\ Forall2 entry_set pre per /\
       pushes (gw_of s) (List.concat per) = Some gw /\ set_keys m (Z.of_N (md_prime m)) kvs s = (Err e, s') /\
       (entry_fault m k v e /\ (forall g, ~ entry_set (k, v) g) \/
        exists g j, entry_set (k, v) g /\ pushes gw g = None /\ e = WcSet k j)).
  Proof.
    induction kvs as [|[k v] kvs IH]; intros s Hs.
    - left. exists [], (gw_of s), s. split; [constructor|]. split; [reflexivity|]. split; [reflexivity|]. split; [exact Hs|reflexivity].
    - cbn [set_keys]. unfold mbind. destruct (set_key_cases k v s Hs) as [(g&Hg&Hp)|(e&s'&E&Hk&Hn)].
      + destruct (pushes (gw_of s) g) as [gw|] eqn:Ep.
        * destruct Hp as (s1&E1&Hs1&<-). rewrite E1.
          destruct (IH s1 Hs1) as [(per&gw&s2&Hper&Hp&E2&Hs2&Hgw)|(pre&k'&v'&post&per&gw&e&s2&->&Hper&Hp&E2&Hk)].
          -- left. exists (g :: per), gw, s2. split; [constructor; assumption|]. cbn [List.concat]. rewrite pushes_app, Ep.
             split; [exact Hp|]. rewrite E2. unfold ret. split; [|split; assumption]. rewrite app_length. do 2 f_equal. lia.
          -- right. exists ((k, v) :: pre), k', v', post, (g :: per), gw, e, s2. split; [reflexivity|]. split; [constructor; assumption|].
             cbn [List.concat]. rewrite pushes_app, Ep, E2. split; [exact Hp|]. split; [reflexivity|exact Hk].
        * destruct Hp as (j&s1&E1). rewrite E1. right. exists [], k, v, kvs, [], (gw_of s), (WcSet k j), s1.
          split; [reflexivity|]. split; [constructor|]. split; [reflexivity|]. split; [reflexivity|]. right. eauto.
      + right. exists [], k, v, kvs, [], (gw_of s), e, s'. rewrite E.
        split; [reflexivity|]. split; [constructor|]. split; [reflexivity|]. split; [reflexivity|]. left. auto.
  Qed.

  Lemma slots_length : N.of_nat (List.length (slots m)) = input_size m.
  Proof.
    unfold slots, input_size. induction (md_signals m) as [|[h n] l IH]; [reflexivity|].
    cbn [flat_map fold_right fst snd]. rewrite app_length, map_length, seq_length. lia.
  Qed.
  Lemma slots_in h i : In (h, i) (slots m) <-> exists n, In (h, n) (md_signals m) /\ i < n.
  Proof.
    unfold slots. rewrite in_flat_map. split.
    - intros ([h' n]&Hin&Hx). apply in_map_iff in Hx as (j&E&Hj). apply in_seq in Hj. cbn [fst snd] in *.
      injection E as -> <-. exists n. split; [exact Hin|lia].
    - intros (n&Hin&Hi). exists (h, n). split; [exact Hin|]. apply in_map_iff. exists (N.to_nat i). cbn [fst snd].
      rewrite N2Nat.id. split; [reflexivity|]. apply in_seq. lia.
  Qed.
  Lemma nodup_app {A} (l l' : list A) : NoDup l -> NoDup l' -> (forall x, In x l -> ~ In x l') -> NoDup (l ++ l').
  Proof.
    induction 1 as [|x l Hx _ IH]; intros H' Hd; [exact H'|]. cbn [app]. constructor.
    - rewrite in_app_iff. intros [H|H]; [exact (Hx H)|]. exact (Hd x (or_introl eq_refl) H).
    - apply IH; [exact H'|]. intros y Hy. apply Hd. right. exact Hy.
  Qed.
  Lemma slots_nodup : NoDup (slots m).
  Proof.
    assert (Hd := mo_hashes _ Hm). unfold slots. induction (md_signals m) as [|[h n] l IH]; [constructor|].
    cbn [flat_map map fst snd] in *. inversion Hd as [|? ? Hni Hd']; subst. apply nodup_app.
    - apply FinFun.Injective_map_NoDup; [|apply seq_NoDup]. intros a b E. injection E as E. lia.
    - apply IH. exact Hd'.
    - intros [h' i] Hx Hy. apply in_map_iff in Hx as (j&E&_). injection E as -> _.
      apply in_flat_map in Hy as ([h2 n2]&Hin&Hy). apply in_map_iff in Hy as (j2&E&_). cbn [fst snd] in E. injection E as -> _.
      apply Hni. apply (in_map fst) in Hin. exact Hin.
  Qed.

  Lemma existsb_slot (x : setting) (g : list setting) :
    existsb (fun g => (fst (fst g) =? fst (fst x)) && (snd (fst g) =? snd (fst x))) g = true <-> In (fst x) (map fst g).
  Proof.
    rewrite existsb_exists. rewrite in_map_iff. split.
    - intros (y&Hy&E). apply andb_true_iff in E as [E1 E2]. apply N.eqb_eq in E1, E2. exists y. split; [|exact Hy].
      destruct y as [[a b] c], x as [[a' b'] c']. cbn in *. congruence.
    - intros (y&E&Hy). exists y. split; [exact Hy|]. rewrite E, !N.eqb_refl. reflexivity.
  Qed.
  Lemma full_slot (g : list setting) x : NoDup (map fst g) -> incl (map fst g) (slots m) -> N.of_nat (List.length g) = input_size m ->
    In x (slots m) -> In x (map fst g).
  Proof.
    intros H1 H2 H3 H4. refine (NoDup_length_incl H1 _ H2 x H4). rewrite map_length. assert (L := slots_length). unfold setting in *. lia.
  Qed.
  Lemma nodup_snoc {A} (l : list A) x : NoDup (l ++ [x]) <-> NoDup l /\ ~ In x l.
  Proof.
    split.
    - intros H. apply NoDup_remove in H as [H1 H2]. rewrite app_nil_r in *. split; assumption.
    - intros [H1 H2]. apply nodup_app; [exact H1|constructor; [intros []|constructor]|]. intros y Hy [<-|[]]. exact (H2 Hy).
  Qed.
  Lemma nodup_app_l {A} (l l' : list A) : NoDup (l ++ l') -> NoDup l.
  Proof. induction l as [|x l IH]; intros H; [constructor|]. inversion H; subst. constructor; [|apply IH; assumption]. intros Hx. apply H2. apply in_or_app. left. exact Hx. Qed.
  Lemma pushes_spec : forall (xs g : list setting) (w : option (list N)), NoDup (map fst g) -> incl (map fst (g ++ xs)) (slots m) ->
    match pushes (g, w) xs with
    | Some (g', w') => g' = g ++ xs /\ NoDup (map fst (g ++ xs)) /\
        (xs = [] /\ w' = w \/
         xs <> [] /\ if N.of_nat (List.length (g ++ xs)) =? input_size m then exists w0, md_compute m (g ++ xs) = Some w0 /\ w' = Some w0 else w' = w)
    | None => ~ NoDup (map fst (g ++ xs)) \/
        (NoDup (map fst (g ++ xs)) /\ N.of_nat (List.length (g ++ xs)) = input_size m /\ xs <> [] /\ md_compute m (g ++ xs) = None)
    end.
  Proof.
    induction xs as [|x xs IH]; intros g w Hnd Hin.
    - cbn [pushes]. rewrite app_nil_r in *. auto.
    - cbn [pushes]. unfold push. cbn [fst snd]. match goal with |- context [existsb ?f g] => destruct (existsb f g) eqn:Ex end.
      + apply existsb_slot in Ex. left. rewrite map_app. cbn [map]. intros H. apply NoDup_remove_2 in H. apply H. apply in_or_app. left. exact Ex.
      + assert (Hni : ~ In (fst x) (map fst g)) by (rewrite <- existsb_slot; congruence).
        assert (Heq : g ++ x :: xs = (g ++ [x]) ++ xs) by (rewrite <- app_assoc; reflexivity).
        assert (Hnd1 : NoDup (map fst (g ++ [x]))) by (rewrite map_app; apply nodup_snoc; auto).
        rewrite Heq in *. assert (Hin1 : incl (map fst (g ++ [x])) (slots m)).
        { intros y Hy. apply Hin. rewrite map_app. apply in_or_app. left. exact Hy. }
        destruct (N.eqb_spec (N.of_nat (List.length (g ++ [x]))) (input_size m)) as [Hfull|Hnot].
        * assert (Hdup : xs <> [] -> ~ NoDup (map fst ((g ++ [x]) ++ xs))).
          { intros Hne H. destruct xs as [|y ys]; [contradiction|]. rewrite map_app in H. cbn [map] in H. apply NoDup_remove_2 in H. apply H.
            apply in_or_app. left. apply full_slot; try assumption. apply Hin. rewrite map_app. apply in_or_app. right. left. reflexivity. }
          destruct (md_compute m (g ++ [x])) as [w0|] eqn:Ec.
          -- specialize (IH (g ++ [x]) (Some w0) Hnd1 Hin). destruct (pushes (g ++ [x], Some w0) xs) as [[g' w']|].
             ++ destruct IH as (Hg'&Hn&Hc). split; [exact Hg'|]. split; [exact Hn|]. right. split; [destruct g; discriminate|].
                destruct xs as [|y ys]; [|exfalso; apply Hdup; [discriminate|exact Hn]].
                rewrite app_nil_r, Hfull, N.eqb_refl. destruct Hc as [[_ ->]|[Hc _]]; [|congruence]. eauto.
             ++ left. destruct IH as [H|(H&_&Hne&_)]; [exact H|]. apply Hdup. exact Hne.
          -- destruct xs as [|y ys]; [|left; apply Hdup; discriminate]. right. rewrite app_nil_r. split; [assumption|]. split; [assumption|].
             split; [discriminate|exact Ec].
        * specialize (IH (g ++ [x]) w Hnd1 Hin). destruct (pushes (g ++ [x], w) xs) as [[g' w']|].
          -- destruct IH as (->&Hn&Hc). split; [reflexivity|]. split; [exact Hn|]. right. split; [discriminate|].
             destruct Hc as [[-> ->]|[_ Hc]]; [|exact Hc]. rewrite app_nil_r. destruct (N.eqb_spec (N.of_nat (List.length (g ++ [x]))) (input_size m)); [congruence|reflexivity].
          -- destruct IH as [H|(H1&H2&_&H4)]; [left; exact H|]. right. split; [exact H1|]. split; [exact H2|]. split; [discriminate|exact H4].
  Qed.
  Lemma vals_settings_slots h n : In (h, n) (md_signals m) -> forall zs i, i + N.of_nat (List.length zs) <= n ->
    incl (map fst (vals_settings h i zs)) (slots m).
  Proof.
    intros Hin. induction zs as [|z zs IH]; intros i Hi; [intros x []|]. cbn [vals_settings map fst List.length] in *.
    intros x [<-|Hx]; [apply slots_in; exists n; split; [exact Hin|lia]|]. revert x Hx. apply IH. lia.
  Qed.
  Lemma entries_slots kvs per : Forall2 entry_set kvs per -> incl (map fst (List.concat per)) (slots m).
  Proof.
    induction 1 as [|kv g kvs per Hg _ IH]; [intros x []|]. cbn [List.concat]. rewrite map_app. apply incl_app; [|exact IH].
    destruct Hg as (zs&_&Hin&->). eapply vals_settings_slots; [exact Hin|lia].
  Qed.
  Lemma entries_fun kvs per per' : Forall2 entry_set kvs per -> Forall2 entry_set kvs per' -> per = per'.
  Proof.
    intros H. revert per'. induction H as [|kv g kvs per Hg _ IH]; intros per' H'; inversion H'; subst; [reflexivity|].
    f_equal; [eapply entry_set_fun; eassumption|apply IH; assumption].
  Qed.
  Lemma complete_iff input gs : complete_input m input gs <->
    exists per, Forall2 entry_set input per /\ gs = List.concat per /\ NoDup (map fst gs) /\ N.of_nat (List.length gs) = input_size m.
  Proof.
    unfold complete_input. split; intros (per&H1&H2&H3).
    - exists per. assert (H1' : Forall2 entry_set input per).
      { clear - H1. induction H1; constructor; [apply entry_settings_iff|]; assumption. }
      split; [exact H1'|]. split; [exact H2|]. split.
      + eapply Permutation_NoDup; [apply Permutation_sym; exact H3|apply slots_nodup].
      + apply Permutation_length in H3. rewrite map_length in H3. rewrite <- slots_length. unfold setting in *. lia.
    - destruct H3 as [H3 H4]. exists per. split; [clear - H1; induction H1; constructor; [apply entry_settings_iff|]; assumption|].
      split; [exact H2|]. apply NoDup_Permutation_bis; [exact H3| |].
      + rewrite map_length. assert (L := slots_length). unfold setting in *. lia.
      + subst gs. eapply entries_slots. exact H1.
  Qed.

  Lemma entries_iff kvs per : Forall2 (entry_settings m) kvs per <-> Forall2 entry_set kvs per.
  Proof. split; intros H; induction H; constructor; try apply entry_settings_iff; assumption. Qed.
  Lemma do_calculate_cases input s : shape s ->
    match do_calculate m (Z.of_N (md_prime m)) input s with
    | (Ok _, s') => shape s' /\ exists gs w, complete_input m input gs /\ md_compute m gs = Some w /\ ws_witness s' = Some w
    | (Err e, _) => calc_error m input e /\ forall gs w, complete_input m input gs -> md_compute m gs <> Some w
    | (Panic, _) => False
    end.
  Proof.
    intros Hs. unfold do_calculate, mbind, lift_opt, x_init, x_run. cbn [ws_given List.length].
    assert (Hrest : forall w0 s0, shape s0 -> gw_of s0 = ([], w0) ->
      (input_size m = 0 -> exists w, md_compute m [] = Some w /\ w0 = Some w) ->
      match (match set_keys m (Z.of_N (md_prime m)) input s0 with
                | (Ok a, s) => (if a <? input_size m then fail WcNotAllInputs else ret tt) s
                | (Err e, s) => (Err e, s)
                | (Panic, s) => (Panic, s)
                end) with
      | (Ok _, s') => shape s' /\ exists gs w, complete_input m input gs /\ md_compute m gs = Some w /\ ws_witness s' = Some w
      | (Err e, _) => calc_error m input e /\ forall gs w, complete_input m input gs -> md_compute m gs <> Some w
      | (Panic, _) => False
      end).
    { intros w0 s0 Hs0 Hgw Hz.
      destruct (set_keys_cases input s0 Hs0) as [(per&gw&s'&Hper&Hp&E&Hs'&Hg')|(pre&k&v&post&per&gw&e&s'&Hi&Hper&Hp&E&Hk)];
        rewrite Hgw in Hp; rewrite E; assert (P := pushes_spec (List.concat per) [] w0); cbn [app map] in P;
        specialize (P ltac:(constructor) (entries_slots _ _ Hper)); rewrite Hp in P; destruct gw as [g' w']; destruct P as (->&Hnd&Hw).
      - assert (Hle : N.of_nat (List.length (List.concat per)) <= input_size m).
        { assert (L := NoDup_incl_length Hnd (entries_slots _ _ Hper)). rewrite map_length in L. assert (L2 := slots_length). unfold setting in *. lia. }
        destruct (N.ltb_spec (N.of_nat (List.length (List.concat per))) (input_size m)) as [Hlt|Hge]; cbn.
        + split.
          * destruct (Exists_dec (fun x => ~ In x (map fst (List.concat per))) (slots m)) as [Hx|Hx].
            { intros x. destruct (in_dec (fun a b : N * N => ltac:(decide equality; apply N.eq_dec) : {a = b} + {a <> b}) x (map fst (List.concat per))); [right|left]; tauto. }
            -- apply Exists_exists in Hx as (slot&Hin&Hni). eapply ce_missing; [apply entries_iff; exact Hper|exact Hnd|exact Hin|exact Hni].
            -- exfalso. assert (I : incl (slots m) (map fst (List.concat per))).
               { intros x Hin. destruct (in_dec (fun a b : N * N => ltac:(decide equality; apply N.eq_dec) : {a = b} + {a <> b}) x (map fst (List.concat per))) as [Hy|Hn]; [exact Hy|].
                 exfalso. apply Hx. apply Exists_exists. eauto. }
               assert (L := NoDup_incl_length slots_nodup I). rewrite map_length in L. assert (L2 := slots_length). unfold setting in *. lia.
          * intros gs w Hc. apply complete_iff in Hc as (per'&Hper'&->&_&Hlen). rewrite (entries_fun _ _ _ Hper Hper') in Hlt. lia.
        + split; [exact Hs'|]. assert (Hw2 : exists w, md_compute m (List.concat per) = Some w /\ w' = Some w).
          { destruct Hw as [[Hnil ->]|[Hne Hw]].
            - rewrite Hnil in *. cbn [List.length] in *. apply Hz. lia.
            - replace (N.of_nat (List.length (List.concat per)) =? input_size m) with true in Hw by (symmetry; apply N.eqb_eq; lia). exact Hw. }
          destruct Hw2 as (w&Hc&->). exists (List.concat per), w. split; [|split; [exact Hc|unfold gw_of in Hg'; congruence]].
          apply complete_iff. exists per. split; [exact Hper|]. split; [reflexivity|]. split; [exact Hnd|lia].
      - destruct Hk as [[Hf Hno]|(g&j&Hg&Hpn&->)].
        + split; [eapply ce_entry; eauto; apply entries_iff; exact Hper|].
          intros gs w Hc _. apply complete_iff in Hc as (per'&Hper'&_). rewrite Hi in Hper'.
          apply Forall2_app_inv_l in Hper' as (l1&l2&_&H2&_). inversion H2; subst. eapply Hno. eassumption.
        + assert (Hper1 : Forall2 entry_set (pre ++ [(k, v)]) (per ++ [g])) by (apply Forall2_app; [exact Hper|constructor; [exact Hg|constructor]]).
          assert (Hc1 : List.concat (per ++ [g]) = List.concat per ++ g) by (rewrite concat_app; cbn; rewrite app_nil_r; reflexivity).
          assert (Hsl : incl (map fst (List.concat per ++ g)) (slots m)) by (rewrite <- Hc1; eapply entries_slots; exact Hper1).
          assert (P := pushes_spec g (List.concat per) w' Hnd Hsl). rewrite Hpn in P. split.
          * destruct P as [P|(P1&P2&_&P4)].
            -- eapply ce_twice; eauto; [apply entries_iff; exact Hper|apply entry_settings_iff; exact Hg].
            -- eapply ce_assertion; [exact Hi| |exact P4]. apply complete_iff. exists (per ++ [g]). rewrite Hc1. auto.
          * intros gs w Hc Hcomp. apply complete_iff in Hc as (per'&Hper'&->&Hnd'&Hlen'). rewrite Hi in Hper'.
            replace (pre ++ (k, v) :: post) with ((pre ++ [(k, v)]) ++ post) in Hper' by (rewrite <- app_assoc; reflexivity).
            apply Forall2_app_inv_l in Hper' as (l1&l2&H1&H2&->). rewrite (entries_fun _ _ _ H1 Hper1) in Hnd', Hlen', Hcomp.
            rewrite concat_app, Hc1 in Hnd', Hlen', Hcomp. destruct P as [P|(P1&P2&_&P4)].
            -- apply P. rewrite map_app in Hnd'. eapply nodup_app_l. exact Hnd'.
            -- rewrite app_length in Hlen'. assert (Hl2 : List.length (List.concat l2) = 0%nat) by lia.
               apply length_zero_iff_nil in Hl2. rewrite Hl2, app_nil_r in Hcomp. congruence. }
    destruct (N.eqb_spec (N.of_nat 0) (input_size m)) as [Hz|Hz].
    - destruct (md_compute m []) as [w|] eqn:Ec.
      + apply (Hrest (Some w)); [exact Hs|reflexivity|]. intros _. eauto.
      + split.
        * apply ce_no_inputs; [|exact Ec]. apply length_zero_iff_nil. assert (L := slots_length). lia.
        * intros gs w Hc Hcomp. apply complete_iff in Hc as (per&_&->&_&Hlen).
          assert (Hl : List.length (List.concat per) = 0%nat) by lia. apply length_zero_iff_nil in Hl. rewrite Hl in Hcomp. congruence.
    - apply (Hrest None); [exact Hs|reflexivity|]. intros Hz'. exfalso. apply Hz. rewrite Hz'. reflexivity.
  Qed.
End Run.

(** ** Reading the witness and laying out the file *)
Lemma le_bytes_app a : forall b v, le_bytes (a + b) v = le_bytes a v ++ le_bytes b (v / 256 ^ N.of_nat a).
Proof.
  induction a as [|a IH]; intros b v.
  - cbn [Nat.add le_bytes app]. change (256 ^ N.of_nat 0) with 1. rewrite N.div_1_r. reflexivity.
  - cbn [Nat.add le_bytes app]. rewrite IH, Nat2N.inj_succ, N.pow_succ_r', N.div_div; [reflexivity|discriminate|apply N.pow_nonzero; discriminate].
Qed.
Lemma words_bytes n : forall v, flat_map (le_bytes 4) (words_of n v) = le_bytes (4 * n) v.
Proof.
  induction n as [|n IHn]; intros v; [reflexivity|]. cbn [words_of flat_map]. rewrite IHn.
  replace (4 * S n)%nat with (4 + 4 * n)%nat by lia. rewrite le_bytes_app. change (256 ^ N.of_nat 4) with (2 ^ 32).
  f_equal. change (2 ^ 32) with (256 ^ N.of_nat 4). apply le_bytes_mod.
Qed.
Section Output.
  Context (m : wmodule) (Hm : module_ok m).
  Notation n32 := (md_n32 m).
  Lemma wc_prime_ok s : wc_prime m s = Z.of_N (md_prime m).
  Proof.
    unfold wc_prime, read_reversed.
    assert (R := read_words (x_raw_prime m s) (words_of n32 (md_prime m)) eq_refl (words_of_small _ _)). rewrite words_of_length in R.
    rewrite R, from_array32_rev, words_val_of; [reflexivity|]. apply (mo_prime _ Hm).
  Qed.
  Lemma get_witness_words s w i : ws_witness s = Some w ->
    map (fun j => u32_of (x_read (x_get_witness m s i) j)) (seq 0 n32) = words_of n32 (nth i w 0).
  Proof.
    intros Hw. assert (R := read_words (x_get_witness m s i) (words_of n32 (nth i w 0))). rewrite words_of_length in R.
    apply R; [unfold x_get_witness; rewrite Hw; reflexivity|apply words_of_small].
  Qed.
  Lemma read_witness_ok w : Forall (fun v => v < 2 ^ (32 * N.of_nat n32)) w -> forall ixs s, ws_witness s = Some w ->
    exists s', read_witness m ixs s = (Ok (map (fun i => Z.of_N (nth i w 0)) ixs), s').
  Proof.
    intros Hw. induction ixs as [|i ixs IHn]; intros s Hs; [exists s; reflexivity|].
    cbn [read_witness]. unfold mbind, lift_state. destruct (IHn (x_get_witness m s i) Hs) as (s'&E). rewrite E.
    exists s'. unfold ret, read_reversed. rewrite (get_witness_words s w i Hs), from_array32_rev, words_val_of; [reflexivity|].
    destruct (nth_in_or_default i w 0) as [Hin| ->].
    - rewrite Forall_forall in Hw. apply Hw. exact Hin.
    - apply N.neq_0_lt_0, N.pow_nonzero. discriminate.
  Qed.

  Lemma put32_at pre rem idx v : blen pre = 4 * idx -> (4 <= rem)%nat ->
    put32 (pre ++ repeat x00 rem) idx v = (pre ++ le_bytes 4 v) ++ repeat x00 (rem - 4).
  Proof.
    intros H Hr. unfold put32. rewrite (js_write_at pre rem (4 * idx) (rem - 4) (le_bytes 4 v) H); [reflexivity|].
    rewrite le_bytes_length. lia.
  Qed.
  Lemma put8_at pre rem idx v : blen pre = idx -> (1 <= rem)%nat ->
    put8 (pre ++ repeat x00 rem) idx v = (pre ++ [v]) ++ repeat x00 (rem - 1).
  Proof.
    intros H Hr. unfold put8. rewrite (js_write_at pre rem idx (rem - 1) [v] H); [reflexivity|]. cbn [List.length]. lia.
  Qed.
  Lemma put_big64_at pre rem idx v : blen pre = idx -> (8 <= rem)%nat ->
    put_big64 (pre ++ repeat x00 rem) idx v = Ok ((pre ++ le_bytes 8 v) ++ repeat x00 (rem - 8)).
  Proof.
    intros H Hr. unfold put_big64. rewrite (js_write_at pre rem idx (rem - 8) (le_bytes 8 v) H); [reflexivity|].
    rewrite le_bytes_length. lia.
  Qed.
  Lemma put_words_at (f : nat -> N) : forall c a pre rem pos, blen pre = 4 * (pos + N.of_nat a) -> (4 * c <= rem)%nat ->
    fold_left (fun buf j => put32 buf (pos + N.of_nat j) (f j)) (seq a c) (pre ++ repeat x00 rem) =
    (pre ++ flat_map (le_bytes 4) (map f (seq a c))) ++ repeat x00 (rem - 4 * c).
  Proof.
    induction c as [|c IHn]; intros a pre rem pos Hp Hr.
    - cbn [seq fold_left map flat_map]. rewrite app_nil_r. f_equal. f_equal. lia.
    - cbn [seq fold_left map flat_map]. rewrite put32_at by (try exact Hp; lia). rewrite IHn.
      + rewrite <- !app_assoc. do 4 f_equal. lia.
      + rewrite blen_app, Hp, blen_le_bytes. lia.
      + lia.
  Qed.
  Lemma put_shared_at s v pre rem pos : map (fun j => u32_of (x_read s j)) (seq 0 n32) = words_of n32 v ->
    blen pre = 4 * pos -> (4 * n32 <= rem)%nat ->
    put_shared m s (pre ++ repeat x00 rem) pos = (pre ++ le_bytes (4 * n32) v) ++ repeat x00 (rem - 4 * n32).
  Proof.
    intros Hw Hp Hr. unfold put_shared. rewrite put_words_at by (try lia). rewrite Hw, words_bytes. reflexivity.
  Qed.
  Lemma put_witness_at w : forall ixs s pre rem pos, ws_witness s = Some w -> blen pre = 4 * pos -> (4 * n32 * List.length ixs <= rem)%nat ->
    put_witness m s ixs (pre ++ repeat x00 rem) pos =
    (pre ++ flat_map (fun i => le_bytes (4 * n32) (nth i w 0)) ixs) ++ repeat x00 (rem - 4 * n32 * List.length ixs).
  Proof.
    induction ixs as [|i ixs IHn]; intros s pre rem pos Hs Hp Hr.
    - cbn [put_witness flat_map List.length]. rewrite app_nil_r. f_equal. f_equal. lia.
    - cbn [put_witness flat_map List.length] in *. rewrite (put_shared_at _ (nth i w 0)); [|apply get_witness_words; exact Hs|exact Hp|nia].
      rewrite IHn; [|exact Hs| |nia].
      + rewrite <- !app_assoc. do 4 f_equal. nia.
      + rewrite blen_app, Hp, blen_le_bytes. lia.
  Qed.
  Definition value_bytes (v : N) : list byte := le_bytes (4 * n32) v.
  Lemma flat_map_nth w : flat_map (fun i => value_bytes (nth i w 0)) (seq 0 (List.length w)) = flat_map value_bytes w.
  Proof. rewrite !flat_map_concat_map, <- map_map with (f := fun i => nth i w 0), map_nth_seq. reflexivity. Qed.

  Lemma witness_fits w gs : md_compute m gs = Some w -> Forall (fun v => v < 2 ^ (32 * N.of_nat n32)) w.
  Proof.
    intros H. apply (mo_witness _ Hm) in H as [_ H]. eapply Forall_impl; [|exact H]. intros v Hv. cbn beta in Hv.
    eapply N.lt_trans; [exact Hv|]. apply (mo_prime _ Hm).
  Qed.
  Lemma witness_count w gs : md_compute m gs = Some w -> N.to_nat (md_wsize m) = List.length w.
  Proof. intros H. apply (mo_witness _ Hm) in H as [<- _]. lia. Qed.
  Lemma shape0 : shape m (x_raw_prime m (state0 m)).
  Proof. apply words_of_length. Qed.

  Lemma calculate_witness_cases input :
    match calculate_witness m input with
    | Ok zs => exists gs w, complete_input m input gs /\ md_compute m gs = Some w /\ zs = map Z.of_N w
    | Err e => calc_error m input e /\ forall gs w, complete_input m input gs -> md_compute m gs <> Some w
    | Panic => False
    end.
  Proof.
    unfold calculate_witness, calculate_witness_m, mbind. rewrite wc_prime_ok.
    assert (H := do_calculate_cases m Hm input (x_raw_prime m (state0 m)) shape0).
    destruct (do_calculate m (Z.of_N (md_prime m)) input (x_raw_prime m (state0 m))) as [[[]|e|] s']; [|exact H|exact H].
    destruct H as (_&gs&w&H1&H2&H3).
    destruct (read_witness_ok w (witness_fits w gs H2) (seq 0 (N.to_nat (md_wsize m))) s' H3) as (s2&E). rewrite E. cbn [fst].
    exists gs, w. split; [exact H1|]. split; [exact H2|].
    rewrite (witness_count w gs H2), <- map_map with (f := fun i => nth i w 0), map_nth_seq. reflexivity.
  Qed.
  Lemma calculate_bin_cases input :
    match calculate_bin_witness m input with
    | Ok bs => exists gs w, complete_input m input gs /\ md_compute m gs = Some w /\ bs = flat_map value_bytes w
    | Err e => calc_error m input e /\ forall gs w, complete_input m input gs -> md_compute m gs <> Some w
    | Panic => False
    end.
  Proof.
    unfold calculate_bin_witness. rewrite wc_prime_ok.
    assert (H := do_calculate_cases m Hm input (x_raw_prime m (state0 m)) shape0).
    destruct (do_calculate m (Z.of_N (md_prime m)) input (x_raw_prime m (state0 m))) as [[[]|e|] s']; [|exact H|exact H].
    destruct H as (_&gs&w&H1&H2&H3). exists gs, w. split; [exact H1|]. split; [exact H2|].
    rewrite (witness_count w gs H2).
    assert (P := put_witness_at w (seq 0 (List.length w)) s' [] (4 * (List.length w * n32)) 0 H3 eq_refl).
    rewrite seq_length in P. specialize (P ltac:(nia)). cbn [app] in P. rewrite P.
    change (fun i => le_bytes (4 * n32) (nth i w 0)) with (fun i => value_bytes (nth i w 0)).
    rewrite flat_map_nth. replace (4 * (List.length w * n32) - 4 * n32 * List.length w)%nat with 0%nat by nia. apply app_nil_r.
  Qed.
  Lemma wtns_layout_ok s w gs : md_compute m gs = Some w -> ws_witness s = Some w ->
    wtns_layout m s = Ok ([x77; x74; x6e; x73] ++ le_bytes 4 2 ++ le_bytes 4 2
      ++ le_bytes 4 1 ++ le_bytes 8 (8 + N.of_nat n32 * 4) ++ le_bytes 4 (N.of_nat n32 * 4) ++ value_bytes (md_prime m) ++ le_bytes 4 (md_wsize m)
      ++ le_bytes 4 2 ++ le_bytes 8 (N.of_nat n32 * 4 * md_wsize m) ++ flat_map value_bytes w).
  Proof.
    intros Hc Hs. unfold wtns_layout. set (W := N.to_nat (md_wsize m)).
    set (T := (4 * (W * n32 + n32 + 11))%nat).
    change (repeat x00 T) with ([] ++ repeat x00 T).
    assert (HT : T = (44 + 4 * n32 + 4 * n32 * W)%nat) by (unfold T; nia). clearbody T.
    rewrite put8_at by (try reflexivity; lia). rewrite put8_at by (try reflexivity; lia). rewrite put8_at by (try reflexivity; lia). rewrite put8_at by (try reflexivity; lia).
    rewrite put32_at by (try (rewrite !blen_app, ?blen_le_bytes; reflexivity); lia).
    rewrite put32_at by (try (rewrite !blen_app, ?blen_le_bytes; reflexivity); lia).
    rewrite put32_at by (try (rewrite !blen_app, ?blen_le_bytes; reflexivity); lia).
    rewrite put_big64_at by (try (rewrite !blen_app, ?blen_le_bytes; reflexivity); lia). cbn [rbind].
    rewrite put32_at by (try (rewrite !blen_app, ?blen_le_bytes; reflexivity); lia).
    rewrite (put_shared_at (x_raw_prime m s) (md_prime m)).
    2: { assert (R := read_words (x_raw_prime m s) (words_of n32 (md_prime m)) eq_refl (words_of_small _ _)). rewrite words_of_length in R. exact R. }
    2: { rewrite !blen_app, ?blen_le_bytes. reflexivity. }
    2: lia.
    rewrite put32_at; [|rewrite !blen_app, ?blen_le_bytes; change (blen [x77]) with 1; change (blen [x74]) with 1; change (blen [x6e]) with 1; change (blen [x73]) with 1; change (blen []) with 0; lia|lia].
    rewrite put32_at; [|rewrite !blen_app, ?blen_le_bytes; change (blen [x77]) with 1; change (blen [x74]) with 1; change (blen [x6e]) with 1; change (blen [x73]) with 1; change (blen []) with 0; lia|lia].
    rewrite put_big64_at; [|rewrite !blen_app, ?blen_le_bytes; change (blen [x77]) with 1; change (blen [x74]) with 1; change (blen [x6e]) with 1; change (blen [x73]) with 1; change (blen []) with 0; lia|lia].
    cbn [rbind]. rewrite (put_witness_at w); [|exact Hs|rewrite !blen_app, ?blen_le_bytes; change (blen [x77]) with 1; change (blen [x74]) with 1; change (blen [x6e]) with 1; change (blen [x73]) with 1; change (blen []) with 0; lia|rewrite seq_length; lia].
    rewrite seq_length. assert (HW : W = List.length w) by (eapply witness_count; exact Hc). rewrite HW at 1.
    change (fun i => le_bytes (4 * n32) (nth i w 0)) with (fun i => value_bytes (nth i w 0)). rewrite flat_map_nth.
    match goal with |- Ok (_ ++ repeat x00 ?n) = _ => replace n with 0%nat by lia end.
    cbn [repeat]. rewrite app_nil_r. f_equal. rewrite <- !app_assoc. reflexivity.
  Qed.
End Output.
