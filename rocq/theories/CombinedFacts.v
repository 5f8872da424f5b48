(** The combined file readers and writers on every shape of input. *)
From Coq Require Import List Bool Arith NArith Lia.
From Coq Require Import Strings.Byte.
From Verif Require Import Res Bytes Combined SpecCombined.
Import ListNotations.
Local Open Scope N_scope.

Lemma split_at n (l : list byte) : n <= blen l -> exists a b, l = a ++ b /\ blen a = n.
Proof.
  intros H. exists (firstn (N.to_nat n) l), (skipn (N.to_nat n) l). split; [symmetry; apply firstn_skipn|].
  unfold blen in *. rewrite firstn_length. lia.
Qed.
Lemma be4_val n : n < 2 ^ 32 -> be_val (be_bytes 4 n) = n.
Proof. intros H. rewrite be_val_be_bytes. apply N.mod_small. exact H. Qed.
Lemma be4_of l : length l = 4%nat -> be_bytes 4 (be_val l) = l.
Proof. intros H. rewrite <- H. apply be_bytes_be_val. Qed.
Lemma be_val_lt l : length l = 4%nat -> be_val l < 2 ^ 32.
Proof. intros H. pose proof (be_val_bound l) as B. rewrite H in B. exact B. Qed.
Lemma blen4 n : blen (be_bytes 4 n) = 4. Proof. unfold blen. rewrite be_bytes_length. reflexivity. Qed.

(** Every file has one of these shapes. *)
Inductive shape : list byte -> Prop :=
| ShShort b : blen b < 5 -> shape b
| ShNoWitness flag l4 r : length l4 = 4%nat -> blen r < be_val l4 -> shape (flag :: l4 ++ r)
| ShPlain flag w r : flag <> x01 -> blen w < 2 ^ 32 -> shape (flag :: block w ++ r)
| ShNoLength w r : blen w < 2 ^ 32 -> blen r < 4 -> shape (x01 :: block w ++ r)
| ShNoPublic w l4 r : blen w < 2 ^ 32 -> length l4 = 4%nat -> blen r < be_val l4 -> shape (x01 :: block w ++ l4 ++ r)
| ShFull w q r : blen w < 2 ^ 32 -> blen q < 2 ^ 32 -> shape (x01 :: block w ++ block q ++ r).

Lemma take4 (l : list byte) : 4 <= blen l -> exists l4 r, l = l4 ++ r /\ length l4 = 4%nat.
Proof.
  intros H. destruct (split_at 4 l H) as (a&b&E&L). exists a, b. split; [exact E|]. unfold blen in L. lia.
Qed.
Lemma take_block l4 (r : list byte) : length l4 = 4%nat -> be_val l4 <= blen r ->
  exists w r', l4 ++ r = block w ++ r' /\ blen w < 2 ^ 32 /\ w ++ r' = r.
Proof.
  intros H4 H. destruct (split_at _ _ H) as (w&r'&->&L). exists w, r'. split; [|split; [|reflexivity]].
  - unfold block. rewrite L, be4_of by exact H4. rewrite <- app_assoc. reflexivity.
  - rewrite L. apply be_val_lt. exact H4.
Qed.
Lemma shape_total b : shape b.
Proof.
  destruct (N.lt_ge_cases (blen b) 5) as [H|H]; [constructor; exact H|].
  destruct b as [|flag b]; [unfold blen in H; cbn in H; lia|].
  assert (H4 : 4 <= blen b) by (rewrite blen_cons in H; lia).
  destruct (take4 b H4) as (l4&r&->&L4).
  destruct (N.lt_ge_cases (blen r) (be_val l4)) as [Hw|Hw]; [constructor; assumption|].
  destruct (take_block l4 r L4 Hw) as (w&r'&->&Lw&_).
  destruct (Byte.byte_eq_dec flag x01) as [->|Hf]; [|constructor; assumption].
  destruct (N.lt_ge_cases (blen r') 4) as [Hl|Hl]; [constructor; assumption|].
  destruct (take4 r' Hl) as (m4&s&->&M4).
  destruct (N.lt_ge_cases (blen s) (be_val m4)) as [Hp|Hp]; [constructor; assumption|].
  destruct (take_block m4 s M4 Hp) as (q&s'&->&Lq&_). constructor; assumption.
Qed.

(** ** CLI *)
Lemma at_app {E} pre x rest o : blen pre = o -> @at_ E (pre ++ x :: rest) o = Ok x.
Proof.
  intros <-. unfold at_, blen. rewrite Nat2N.id, nth_error_app2 by lia. rewrite Nat.sub_diag. reflexivity.
Qed.
Lemma u32_app {E} pre l4 rest o : blen pre = o -> length l4 = 4%nat ->
  @be_u32_at E (pre ++ l4 ++ rest) o = Ok (be_val l4).
Proof.
  intros Ho H4. destruct l4 as [|b0 [|b1 [|b2 [|b3 [|b4 l]]]]]; try discriminate H4. cbn [app].
  unfold be_u32_at. rewrite (at_app pre b0 (b1 :: b2 :: b3 :: rest) o Ho). cbn [rbind].
  pose proof (@at_app E (pre ++ [b0]) b1 (b2 :: b3 :: rest) (o + 1)) as H1. rewrite <- app_assoc in H1. cbn [app] in H1.
  rewrite H1 by (rewrite blen_app, Ho; reflexivity). cbn [rbind].
  pose proof (@at_app E (pre ++ [b0; b1]) b2 (b3 :: rest) (o + 2)) as H2. rewrite <- app_assoc in H2. cbn [app] in H2.
  rewrite H2 by (rewrite blen_app, Ho; reflexivity). cbn [rbind].
  pose proof (@at_app E (pre ++ [b0; b1; b2]) b3 rest (o + 3)) as H3. rewrite <- app_assoc in H3. cbn [app] in H3.
  rewrite H3 by (rewrite blen_app, Ho; reflexivity). reflexivity.
Qed.
Lemma range_app {E} pre mid rest a b : blen pre = a -> a + blen mid = b ->
  @range_ E (pre ++ mid ++ rest) a b = Ok mid.
Proof.
  intros Ha Hb. unfold range_. rewrite !blen_app.
  replace (a <=? b) with true by (symmetry; apply N.leb_le; lia).
  replace (b <=? blen pre + (blen mid + blen rest)) with true by (symmetry; apply N.leb_le; lia). cbn [andb].
  replace (b - a) with (blen mid) by lia. rewrite <- Ha. unfold blen. rewrite !Nat2N.id.
  rewrite skipn_app, skipn_all, Nat.sub_diag. cbn [skipn app]. rewrite firstn_app, firstn_all, Nat.sub_diag.
  cbn [firstn]. rewrite app_nil_r. reflexivity.
Qed.
Lemma range_end {E} pre rest a n : blen pre = a -> n = blen (pre ++ rest) -> @range_ E (pre ++ rest) a n = Ok rest.
Proof.
  intros Ha ->. pose proof (@range_app E pre rest [] a (blen (pre ++ rest)) Ha) as H. rewrite app_nil_r in H.
  apply H. rewrite blen_app, Ha. reflexivity.
Qed.
Lemma ltb_true a b : a < b -> (a <? b) = true. Proof. apply N.ltb_lt. Qed.
Lemma ltb_false a b : b <= a -> (a <? b) = false. Proof. apply N.ltb_ge. Qed.
Lemma eqb_x01 f : f <> x01 -> Byte.eqb f x01 = false.
Proof. intros H. destruct (Byte.eqb f x01) eqn:E; [|reflexivity]. apply Byte.byte_dec_bl in E. contradiction. Qed.

Lemma cli_split_short b : blen b < 5 -> cli_split b = Err CTooShort.
Proof. intros H. unfold cli_split. rewrite ltb_true by exact H. reflexivity. Qed.
Lemma head_len flag l4 r : length l4 = 4%nat -> blen (flag :: l4 ++ r) = 5 + blen r.
Proof. intros H. rewrite blen_cons, blen_app. unfold blen at 1. rewrite H. lia. Qed.
Lemma block_len w : blen (block w) = 4 + blen w.
Proof. unfold block. rewrite blen_app, blen4. reflexivity. Qed.

Lemma cli_split_no_witness flag l4 r : length l4 = 4%nat -> blen r < be_val l4 ->
  cli_split (flag :: l4 ++ r) = Err CWitnessMismatch.
Proof.
  intros H4 H. unfold cli_split. rewrite head_len by exact H4. rewrite ltb_false by lia.
  rewrite (at_app [] flag (l4 ++ r) 0 eq_refl : @at_ _ (flag :: l4 ++ r) 0 = _). cbn [rbind].
  change (0 + 1) with 1. rewrite (u32_app [flag] l4 r 1 eq_refl H4 : @be_u32_at _ (flag :: l4 ++ r) 1 = _). cbn [rbind].
  change (1 + 4) with 5. rewrite ltb_true by lia. reflexivity.
Qed.

(** What happens after the witness block. *)
Lemma cli_split_witness flag w r : blen w < 2 ^ 32 ->
  cli_split (flag :: block w ++ r) =
  let file := flag :: block w ++ r in
  let offset := 5 + blen w in
  if Byte.eqb flag x01 then
    if blen file <? offset + 4 then Err CMissingPublic
    else rbind (be_u32_at file offset) (fun public_len =>
         let offset := offset + 4 in
         if blen file <? offset + public_len then Err CPublicMismatch
         else rbind (range_ file offset (offset + public_len)) (fun public =>
              let offset := offset + public_len in
              rbind (range_ file offset (blen file)) (fun message => Ok (Parts w (Some public) message))))
  else rbind (range_ file offset (blen file)) (fun message => Ok (Parts w None message)).
Proof.
  intros Hw. unfold cli_split.
  assert (E : flag :: block w ++ r = flag :: be_bytes 4 (blen w) ++ w ++ r).
  { unfold block. rewrite <- app_assoc. reflexivity. }
  assert (L : blen (flag :: block w ++ r) = 5 + blen w + blen r).
  { rewrite blen_cons, blen_app, block_len. lia. }
  assert (H4 : length (be_bytes 4 (blen w)) = 4%nat) by apply be_bytes_length.
  rewrite L. rewrite ltb_false by lia.
  rewrite (at_app [] flag (block w ++ r) 0 eq_refl : @at_ _ (flag :: block w ++ r) 0 = _). cbn [rbind].
  change (0 + 1) with 1.
  assert (U : @be_u32_at cli_comb_error (flag :: block w ++ r) 1 = Ok (blen w)).
  { rewrite E. rewrite (u32_app [flag] (be_bytes 4 (blen w)) (w ++ r) 1 eq_refl H4 : @be_u32_at _ (flag :: be_bytes 4 (blen w) ++ w ++ r) 1 = _).
    rewrite be4_val by exact Hw. reflexivity. }
  rewrite U. cbn [rbind]. change (1 + 4) with 5. rewrite ltb_false by lia.
  assert (R : @range_ cli_comb_error (flag :: block w ++ r) 5 (5 + blen w) = Ok w).
  { rewrite E. pose proof (@range_app cli_comb_error (flag :: be_bytes 4 (blen w)) w r 5 (5 + blen w)) as R.
    apply R; [rewrite blen_cons, blen4; reflexivity|reflexivity]. }
  rewrite R. cbn [rbind]. reflexivity.
Qed.
Lemma cli_split_plain flag w r : flag <> x01 -> blen w < 2 ^ 32 ->
  cli_split (flag :: block w ++ r) = Ok (Parts w None r).
Proof.
  intros Hf Hw. rewrite cli_split_witness by exact Hw. cbv zeta. rewrite eqb_x01 by exact Hf.
  change (flag :: block w ++ r) with ((flag :: block w) ++ r).
  rewrite range_end; [reflexivity| |reflexivity]. rewrite blen_cons, block_len. lia.
Qed.
Lemma cli_split_no_length w r : blen w < 2 ^ 32 -> blen r < 4 -> cli_split (x01 :: block w ++ r) = Err CMissingPublic.
Proof.
  intros Hw Hr. rewrite cli_split_witness by exact Hw. cbv zeta. change (Byte.eqb x01 x01) with true.
  rewrite ltb_true; [reflexivity|]. rewrite blen_cons, blen_app, block_len. lia.
Qed.
Lemma cli_split_no_public w l4 r : blen w < 2 ^ 32 -> length l4 = 4%nat -> blen r < be_val l4 ->
  cli_split (x01 :: block w ++ l4 ++ r) = Err CPublicMismatch.
Proof.
  intros Hw H4 Hr. rewrite cli_split_witness by exact Hw. cbv zeta. change (Byte.eqb x01 x01) with true.
  assert (L : blen (x01 :: block w ++ l4 ++ r) = 5 + blen w + 4 + blen r).
  { rewrite blen_cons, !blen_app, block_len. unfold blen at 2. rewrite H4. lia. }
  rewrite L. rewrite ltb_false by lia.
  rewrite (u32_app (x01 :: block w) l4 r (5 + blen w) : blen (x01 :: block w) = 5 + blen w -> _ -> @be_u32_at _ (x01 :: block w ++ l4 ++ r) _ = _);
    [|rewrite blen_cons, block_len; lia|exact H4].
  cbn [rbind]. rewrite ltb_true by lia. reflexivity.
Qed.
Lemma cli_split_full w q r : blen w < 2 ^ 32 -> blen q < 2 ^ 32 ->
  cli_split (x01 :: block w ++ block q ++ r) = Ok (Parts w (Some q) r).
Proof.
  intros Hw Hq. rewrite cli_split_witness by exact Hw. cbv zeta. change (Byte.eqb x01 x01) with true.
  assert (H4 : length (be_bytes 4 (blen q)) = 4%nat) by apply be_bytes_length.
  assert (L : blen (x01 :: block w ++ block q ++ r) = 5 + blen w + 4 + blen q + blen r).
  { rewrite blen_cons, !blen_app, !block_len. lia. }
  assert (E : block q ++ r = be_bytes 4 (blen q) ++ q ++ r) by (unfold block; rewrite <- app_assoc; reflexivity).
  rewrite L. rewrite ltb_false by lia.
  assert (U : @be_u32_at cli_comb_error (x01 :: block w ++ block q ++ r) (5 + blen w) = Ok (blen q)).
  { rewrite E. rewrite (u32_app (x01 :: block w) _ (q ++ r) (5 + blen w) : blen (x01 :: block w) = 5 + blen w -> _ -> @be_u32_at _ (x01 :: block w ++ be_bytes 4 (blen q) ++ q ++ r) _ = _);
    [|rewrite blen_cons, block_len; lia|exact H4]. rewrite be4_val by exact Hq. reflexivity. }
  rewrite U. cbn [rbind]. rewrite ltb_false by lia.
  assert (R : @range_ cli_comb_error (x01 :: block w ++ block q ++ r) (5 + blen w + 4) (5 + blen w + 4 + blen q) = Ok q).
  { replace (x01 :: block w ++ block q ++ r) with ((x01 :: block w ++ be_bytes 4 (blen q)) ++ q ++ r).
    - apply range_app; [|reflexivity]. rewrite blen_cons, blen_app, block_len, blen4. lia.
    - rewrite E. cbn [app]. rewrite <- !app_assoc. reflexivity. }
  rewrite R. cbn [rbind].
  rewrite <- L.
  replace (x01 :: block w ++ block q ++ r) with ((x01 :: block w ++ block q) ++ r) by (cbn [app]; rewrite <- app_assoc; reflexivity).
  rewrite range_end; [reflexivity| |reflexivity]. rewrite blen_cons, blen_app, !block_len. lia.
Qed.

(** ** Writers *)
Lemma cli_combine_layout inc w q m :
  cli_combine inc w q m = layout (if inc then x01 else x00) (Parts w (if inc then Some q else None) m).
Proof.
  unfold cli_combine, layout, block. cbn [p_witness p_public p_message]. destruct inc; cbn [app];
    rewrite <- ?app_assoc; cbn [app]; rewrite <- ?app_assoc; reflexivity.
Qed.
Lemma js_write_app pre hole rest bs : length hole = length bs ->
  js_write (pre ++ hole ++ rest) (blen pre) bs = Ok (pre ++ bs ++ rest).
Proof.
  intros H. unfold js_write. rewrite !blen_app.
  replace (blen pre + blen bs <=? blen pre + (blen hole + blen rest)) with true.
  2:{ symmetry. apply N.leb_le. unfold blen. rewrite H. lia. }
  f_equal. unfold blen. rewrite Nat2N.id, firstn_app, firstn_all, Nat.sub_diag. cbn [firstn]. rewrite app_nil_r. f_equal. f_equal.
  rewrite <- H, <- Nat2N.inj_add, Nat2N.id, <- app_length.
  rewrite app_assoc, skipn_app, skipn_all, Nat.sub_diag. reflexivity.
Qed.
Lemma js_write_next pre n k bs : length bs = n ->
  js_write (pre ++ repeat x00 (n + k)) (blen pre) bs = Ok ((pre ++ bs) ++ repeat x00 k).
Proof.
  intros H. rewrite repeat_app, js_write_app by (rewrite repeat_length; symmetry; exact H). rewrite app_assoc. reflexivity.
Qed.
Lemma js_write_at pre n o k bs : blen pre = o -> n = (length bs + k)%nat ->
  js_write (pre ++ repeat x00 n) o bs = Ok ((pre ++ bs) ++ repeat x00 k).
Proof. intros <- ->. apply js_write_next. reflexivity. Qed.
Lemma js_combine_layout inc w q m :
  js_combine inc w q m = Ok (layout (if inc then x01 else x00) (Parts w (if inc then Some q else None) m)).
Proof.
  unfold js_combine. destruct inc.
  - set (total := N.to_nat (9 + blen w + blen q + blen m)).
    assert (Ht : total = (1 + (4 + (length w + (4 + (length q + (length m + 0))))))%nat) by (unfold total, blen; lia).
    rewrite (js_write_at [] total 0 (4 + (length w + (4 + (length q + (length m + 0))))) [x01] eq_refl Ht : js_write (repeat x00 total) 0 _ = _). cbn [rbind app].
    rewrite (js_write_at [x01] _ 1 (length w + (4 + (length q + (length m + 0)))) (be_bytes 4 (blen w)) eq_refl
      : _ -> js_write (x01 :: repeat x00 (4 + (length w + (4 + (length q + (length m + 0)))))) (0 + 1) _ = _) by (rewrite be_bytes_length; reflexivity).
    cbn [rbind].
    rewrite (js_write_at ([x01] ++ be_bytes 4 (blen w)) _ (0 + 1 + 4) (4 + (length q + (length m + 0))) w); [|rewrite blen_app, blen4; reflexivity|reflexivity].
    cbn [rbind].
    rewrite (js_write_at (([x01] ++ be_bytes 4 (blen w)) ++ w) _ (0 + 1 + 4 + blen w) (length q + (length m + 0)) (be_bytes 4 (blen q)));
      [|rewrite !blen_app, blen4; reflexivity|rewrite be_bytes_length; reflexivity].
    cbn [rbind].
    rewrite (js_write_at ((([x01] ++ be_bytes 4 (blen w)) ++ w) ++ be_bytes 4 (blen q)) _ (0 + 1 + 4 + blen w + 4) (length m + 0) q);
      [|rewrite !blen_app, !blen4; reflexivity|reflexivity].
    cbn [rbind fst snd].
    rewrite (js_write_at (((([x01] ++ be_bytes 4 (blen w)) ++ w) ++ be_bytes 4 (blen q)) ++ q) _ (0 + 1 + 4 + blen w + 4 + blen q) 0 m);
      [|rewrite !blen_app, !blen4; reflexivity|reflexivity].
    cbn [repeat]. rewrite app_nil_r. unfold layout, block. cbn [p_witness p_public p_message]. rewrite <- !app_assoc. reflexivity.
  - set (total := N.to_nat (5 + blen w + blen [] + blen m)).
    assert (Ht : total = (1 + (4 + (length w + (length m + 0))))%nat) by (unfold total, blen; cbn [length]; lia).
    rewrite (js_write_at [] total 0 (4 + (length w + (length m + 0))) [x00] eq_refl Ht : js_write (repeat x00 total) 0 _ = _). cbn [rbind app].
    rewrite (js_write_at [x00] _ 1 (length w + (length m + 0)) (be_bytes 4 (blen w)) eq_refl
      : _ -> js_write (x00 :: repeat x00 (4 + (length w + (length m + 0)))) (0 + 1) _ = _) by (rewrite be_bytes_length; reflexivity).
    cbn [rbind].
    rewrite (js_write_at ([x00] ++ be_bytes 4 (blen w)) _ (0 + 1 + 4) (length m + 0) w); [|rewrite blen_app, blen4; reflexivity|reflexivity].
    cbn [rbind fst snd].
    rewrite (js_write_at (([x00] ++ be_bytes 4 (blen w)) ++ w) _ (0 + 1 + 4 + blen w) 0 m); [|rewrite !blen_app, blen4; reflexivity|reflexivity].
    cbn [repeat]. rewrite app_nil_r. unfold layout, block. cbn [p_witness p_public p_message]. rewrite <- !app_assoc. reflexivity.
Qed.

(** ** JavaScript readers: only the window matters *)
Definition whole (b : list byte) : js_bytes := JsBytes b 0 (blen b).
Lemma window_whole b : jb_window (whole b) = b.
Proof. unfold jb_window, whole. cbn. unfold blen. rewrite Nat2N.id. apply firstn_all. Qed.
Lemma window_len a : jb_valid a -> blen (jb_window a) = jb_length a.
Proof.
  unfold jb_valid, jb_window, blen. intros H. rewrite firstn_length, skipn_length. lia.
Qed.
Lemma slice_window a o n : jb_valid a -> o + n <= jb_length a ->
  slice (jb_buffer a) (jb_offset a + o) n = slice (jb_window a) o n.
Proof.
  intros Hv H. unfold slice. rewrite (window_len a Hv). unfold jb_valid in Hv.
  replace (jb_offset a + o + n <=? blen (jb_buffer a)) with true by (symmetry; apply N.leb_le; lia).
  replace (o + n <=? jb_length a) with true by (symmetry; apply N.leb_le; lia). f_equal. unfold jb_window.
  rewrite skipn_firstn_comm, firstn_firstn, skipn_skipn'. f_equal; [lia|]. f_equal. lia.
Qed.
Lemma dv_window a o n : jb_valid a -> o + n <= jb_length a ->
  dv_bytes a o n = dv_bytes (whole (jb_window a)) o n.
Proof.
  intros Hv H. unfold dv_bytes at 1. rewrite slice_window by assumption.
  unfold dv_bytes, whole. cbn [jb_buffer jb_offset]. rewrite N.add_0_l. reflexivity.
Qed.
Lemma js_slice_window a x y : jb_valid a -> js_slice a x y = js_slice (whole (jb_window a)) x y.
Proof. intros Hv. unfold js_slice. rewrite window_whole. unfold whole. cbn [jb_length]. rewrite (window_len a Hv). reflexivity. Qed.
Lemma js_split_window a : jb_valid a -> js_split a = js_split (whole (jb_window a)).
Proof.
  intros Hv. unfold js_split. replace (jb_length (whole (jb_window a))) with (jb_length a) by (symmetry; apply window_len; exact Hv).
  destruct (N.ltb_spec (jb_length a) 5) as [H5|H5]; [reflexivity|].
  unfold dv_u8, dv_u32. rewrite (dv_window a 0 1 Hv) by lia. rewrite (dv_window a 1 4 Hv) by lia.
  set (W := whole (jb_window a)).
  destruct (dv_bytes W 0 1) as [l| |]; cbn [rbind]; try reflexivity. destruct l as [|flag l]; cbn [rbind]; [reflexivity|].
  destruct (dv_bytes W 1 4) as [l4| |]; cbn [rbind]; try reflexivity.
  destruct (N.ltb_spec (jb_length a) (5 + be_val l4)) as [Hw|Hw]; [reflexivity|].
  rewrite (js_slice_window a 5 _ Hv). fold W.
  destruct (Byte.eqb flag x01); cbn [rbind].
  - destruct (N.ltb_spec (jb_length a) (5 + be_val l4 + 4)) as [Hp|Hp]; [reflexivity|].
    rewrite (dv_window a _ 4 Hv) by lia. fold W. destruct (dv_bytes W (5 + be_val l4) 4) as [m4| |]; cbn [rbind]; try reflexivity.
    rewrite (js_slice_window a _ _ Hv). reflexivity.
  - rewrite (js_slice_window a _ _ Hv). reflexivity.
Qed.
Lemma get_public_window {T J} (dec : list byte -> T) (pj : T -> option J) a : jb_valid a ->
  get_public_input dec pj a = get_public_input dec pj (whole (jb_window a)).
Proof.
  intros Hv. unfold get_public_input. replace (jb_length (whole (jb_window a))) with (jb_length a) by (symmetry; apply window_len; exact Hv).
  destruct (N.ltb_spec (jb_length a) 5) as [H5|H5]; [reflexivity|].
  unfold dv_u8, dv_u32. rewrite (dv_window a 0 1 Hv) by lia. rewrite (dv_window a 1 4 Hv) by lia.
  set (W := whole (jb_window a)).
  destruct (dv_bytes W 0 1) as [l| |]; cbn [rbind]; try reflexivity. destruct l as [|flag l]; cbn [rbind]; [reflexivity|].
  destruct (Byte.eqb flag x01); cbn [negb]; [|reflexivity].
  destruct (dv_bytes W 1 4) as [l4| |]; cbn [rbind]; try reflexivity.
  destruct (N.ltb_spec (jb_length a) (5 + be_val l4)) as [Hw|Hw]; [reflexivity|].
  destruct (N.ltb_spec (jb_length a) (5 + be_val l4 + 4)) as [Hp|Hp]; [reflexivity|].
  rewrite (dv_window a _ 4 Hv) by lia. fold W. destruct (dv_bytes W (5 + be_val l4) 4) as [m4| |]; cbn [rbind]; try reflexivity.
  destruct (N.ltb_spec (jb_length a) (5 + be_val l4 + 4 + be_val m4)) as [Hq|Hq]; [reflexivity|].
  rewrite (js_slice_window a _ _ Hv). reflexivity.
Qed.

(** ** JavaScript readers on whole arrays, by shape *)
Lemma dv_app pre mid rest o n : blen pre = o -> blen mid = n -> dv_bytes (whole (pre ++ mid ++ rest)) o n = Ok mid.
Proof. intros <- <-. unfold dv_bytes, whole. cbn [jb_buffer jb_offset]. rewrite N.add_0_l, slice_app. reflexivity. Qed.
Lemma js_slice_app pre mid rest x y : blen pre = x -> x + blen mid = y -> js_slice (whole (pre ++ mid ++ rest)) x y = mid.
Proof.
  intros Hx Hy. unfold js_slice. rewrite window_whole. unfold whole. cbn [jb_length]. rewrite !blen_app.
  rewrite !N.min_l by lia. replace (y - x) with (blen mid) by lia. rewrite <- Hx. unfold blen. rewrite !Nat2N.id.
  rewrite skipn_app, skipn_all, Nat.sub_diag. cbn [skipn app]. rewrite firstn_app, firstn_all, Nat.sub_diag.
  cbn [firstn]. apply app_nil_r.
Qed.
Lemma js_slice_end pre rest x n : blen pre = x -> n = blen (pre ++ rest) -> js_slice (whole (pre ++ rest)) x n = rest.
Proof.
  intros Hx ->. pose proof (js_slice_app pre rest [] x (blen (pre ++ rest)) Hx) as H. rewrite app_nil_r in H.
  apply H. rewrite blen_app, Hx. reflexivity.
Qed.
Lemma js_slice_past b x n : blen b <= x -> js_slice (whole b) x n = [].
Proof.
  intros H. unfold js_slice. rewrite window_whole. unfold whole. cbn [jb_length]. rewrite (N.min_r x) by exact H.
  replace (N.min n (blen b) - blen b) with 0 by lia. reflexivity.
Qed.
Lemma dv_head flag r : dv_u8 (whole (flag :: r)) 0 = Ok flag.
Proof. unfold dv_u8. rewrite (dv_app [] [flag] r 0 1 eq_refl eq_refl : dv_bytes (whole (flag :: r)) 0 1 = _). reflexivity. Qed.
Lemma dv_len flag l4 r : length l4 = 4%nat -> dv_u32 (whole (flag :: l4 ++ r)) 1 = Ok (be_val l4).
Proof.
  intros H4. unfold dv_u32. rewrite (dv_app [flag] l4 r 1 4 eq_refl : _ -> dv_bytes (whole (flag :: l4 ++ r)) 1 4 = _); [reflexivity|].
  unfold blen. rewrite H4. reflexivity.
Qed.
Lemma dv_witness flag w r : blen w < 2 ^ 32 -> dv_u32 (whole (flag :: block w ++ r)) 1 = Ok (blen w).
Proof.
  intros Hw. unfold block. rewrite <- app_assoc, dv_len by apply be_bytes_length. rewrite be4_val by exact Hw. reflexivity.
Qed.
Lemma dv_public flag w l4 r o : length l4 = 4%nat -> o = 5 + blen w ->
  dv_u32 (whole (flag :: block w ++ l4 ++ r)) o = Ok (be_val l4).
Proof.
  intros H4 ->. unfold dv_u32.
  rewrite (dv_app (flag :: block w) l4 r (5 + blen w) 4 : _ -> _ -> dv_bytes (whole (flag :: block w ++ l4 ++ r)) (5 + blen w) 4 = _);
    [reflexivity|rewrite blen_cons, block_len; lia|unfold blen; rewrite H4; reflexivity].
Qed.
Lemma whole_len b : jb_length (whole b) = blen b. Proof. reflexivity. Qed.

Lemma js_split_short b : blen b < 5 -> js_split (whole b) = Err JTooShort.
Proof. intros H. unfold js_split. rewrite whole_len, ltb_true by exact H. reflexivity. Qed.
Lemma js_split_no_witness flag l4 r : length l4 = 4%nat -> blen r < be_val l4 ->
  js_split (whole (flag :: l4 ++ r)) = Err JLengthMismatch.
Proof.
  intros H4 H. unfold js_split. rewrite whole_len, head_len by exact H4. rewrite ltb_false by lia.
  rewrite dv_head. cbn [rbind]. rewrite dv_len by exact H4. cbn [rbind]. rewrite ltb_true by lia. reflexivity.
Qed.
Lemma js_witness_slice flag w r : js_slice (whole (flag :: block w ++ r)) 5 (5 + blen w) = w.
Proof.
  unfold block. rewrite <- app_assoc.
  apply (js_slice_app (flag :: be_bytes 4 (blen w)) w r 5 (5 + blen w)); [rewrite blen_cons, blen4; reflexivity|reflexivity].
Qed.
Lemma js_split_plain flag w r : flag <> x01 -> blen w < 2 ^ 32 ->
  js_split (whole (flag :: block w ++ r)) = Ok (w, r).
Proof.
  intros Hf Hw. assert (L : blen (flag :: block w ++ r) = 5 + blen w + blen r) by (rewrite blen_cons, blen_app, block_len; lia).
  unfold js_split. rewrite whole_len, L. rewrite ltb_false by lia. rewrite dv_head. cbn [rbind].
  rewrite dv_witness by exact Hw. cbn [rbind]. rewrite ltb_false by lia. rewrite js_witness_slice, eqb_x01 by exact Hf. cbn [rbind].
  rewrite <- L. change (flag :: block w ++ r) with ((flag :: block w) ++ r).
  rewrite js_slice_end; [reflexivity| |reflexivity]. rewrite blen_cons, block_len. lia.
Qed.
Lemma js_split_no_length w r : blen w < 2 ^ 32 -> blen r < 4 -> js_split (whole (x01 :: block w ++ r)) = Err JMissingPublic.
Proof.
  intros Hw Hr. assert (L : blen (x01 :: block w ++ r) = 5 + blen w + blen r) by (rewrite blen_cons, blen_app, block_len; lia).
  unfold js_split. rewrite whole_len, L. rewrite ltb_false by lia. rewrite dv_head. cbn [rbind].
  rewrite dv_witness by exact Hw. cbn [rbind]. rewrite ltb_false by lia. change (Byte.eqb x01 x01) with true. cbn [rbind].
  rewrite ltb_true by lia. reflexivity.
Qed.
(** JavaScript does not check the public input's length: the message is then empty. *)
Lemma js_split_no_public w l4 r : blen w < 2 ^ 32 -> length l4 = 4%nat -> blen r < be_val l4 ->
  js_split (whole (x01 :: block w ++ l4 ++ r)) = Ok (w, []).
Proof.
  intros Hw H4 Hr. assert (L : blen (x01 :: block w ++ l4 ++ r) = 5 + blen w + 4 + blen r).
  { rewrite blen_cons, !blen_app, block_len. unfold blen at 2. rewrite H4. lia. }
  unfold js_split. rewrite whole_len, L. rewrite ltb_false by lia. rewrite dv_head. cbn [rbind].
  rewrite dv_witness by exact Hw. cbn [rbind]. rewrite ltb_false by lia. change (Byte.eqb x01 x01) with true. cbn [rbind].
  rewrite ltb_false by lia. rewrite dv_public by auto. cbn [rbind].
  rewrite js_witness_slice, js_slice_past by lia. reflexivity.
Qed.
Lemma js_split_full w q r : blen w < 2 ^ 32 -> blen q < 2 ^ 32 ->
  js_split (whole (x01 :: block w ++ block q ++ r)) = Ok (w, r).
Proof.
  intros Hw Hq. assert (L : blen (x01 :: block w ++ block q ++ r) = 5 + blen w + 4 + blen q + blen r).
  { rewrite blen_cons, !blen_app, !block_len. lia. }
  assert (U : dv_u32 (whole (x01 :: block w ++ block q ++ r)) (5 + blen w) = Ok (blen q)).
  { unfold block at 2. rewrite <- app_assoc. rewrite dv_public by (try apply be_bytes_length; reflexivity). rewrite be4_val by exact Hq. reflexivity. }
  unfold js_split. rewrite whole_len, L. rewrite ltb_false by lia. rewrite dv_head. cbn [rbind].
  rewrite dv_witness by exact Hw. cbn [rbind]. rewrite ltb_false by lia. change (Byte.eqb x01 x01) with true. cbn [rbind].
  rewrite ltb_false by lia. rewrite U. cbn [rbind]. rewrite js_witness_slice. rewrite <- L.
  replace (x01 :: block w ++ block q ++ r) with ((x01 :: block w ++ block q) ++ r) by (cbn [app]; rewrite <- app_assoc; reflexivity).
  rewrite js_slice_end; [reflexivity| |reflexivity]. rewrite blen_cons, blen_app, !block_len. lia.
Qed.
