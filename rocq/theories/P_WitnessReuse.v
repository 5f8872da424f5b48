(** Property theorems C64 and C65: the two witness calculators, and one calculator asked several
    times.  Vocabulary: SpecWitnessCalc.v, SpecWitnessReuse.v; the events of a calculator:
    WitnessCalcJs.v. *)
From Coq Require Import List Bool Arith NArith ZArith Lia.
From Coq Require Import Strings.String Strings.Byte.
From Verif Require Import Res Bytes Text Reader Fld Zp Bn254 SpecWtns Inputs InputsFacts WitnessCalc SpecWitnessCalc WitnessCalcFacts P_WitnessCalc
  WitnessCalcJs WitnessReuse SpecWitnessReuse.
Import ListNotations.
Local Open Scope N_scope.
Local Open Scope rd_scope.

(** ** C64: the original calculator and its rewrite *)
(** Reading the leaves one by one, as the original does, or all of them first. *)
Fixpoint all_bigint (l : list json) : res js_throw (list Z) :=
  match l with
  | [] => Ok []
  | v :: l => rbind (bigint_value v) (fun z => rbind (all_bigint l) (fun zs => Ok (z :: zs)))
  end.
Lemma all_bigint_app a b : all_bigint (a ++ b) = rbind (all_bigint a) (fun x => rbind (all_bigint b) (fun y => Ok (x ++ y))).
Proof.
  induction a as [|v a IH]; cbn [app all_bigint rbind].
  - destruct (all_bigint b); reflexivity.
  - rewrite IH. destruct (bigint_value v) as [z| |]; cbn [rbind]; [|reflexivity..]. destruct (all_bigint a) as [x| |]; cbn [rbind]; [|reflexivity..].
    destruct (all_bigint b); reflexivity.
Qed.
Lemma leaves_arr l : leaves (JArr l) = flat_map leaves l.
Proof. cbn [leaves]. induction l as [|x l IH]; [reflexivity|]. cbn [flat_map]. rewrite <- IH. reflexivity. Qed.
Lemma fill_leaves v : forall acc, fill_array acc v = rbind (all_bigint (leaves v)) (fun zs => Ok (acc ++ zs)).
Proof.
  assert (one : forall v acc, (forall l, v <> JArr l) -> fill_array acc v = rbind (all_bigint [v]) (fun zs => Ok (acc ++ zs))).
  { intros w acc Hw. destruct w; try (exfalso; eapply Hw; reflexivity);
      cbn [fill_array all_bigint]; match goal with |- context [bigint_value ?x] => destruct (bigint_value x) end; reflexivity. }
  induction v as [|b|z|f|t|l IH|kvs IH] using json_ind'; intros acc; try (apply one; discriminate).
  rewrite leaves_arr, fill_array_arr. revert acc IH. induction l as [|x l IHl]; intros acc IH.
  - cbn. rewrite app_nil_r. reflexivity.
  - inversion IH as [|? ? Hx Hl]; subst. cbn [flat_map]. rewrite all_bigint_app. cbn [fill_list]. rewrite Hx.
    destruct (all_bigint (leaves x)) as [zs| |]; cbn [rbind]; [|reflexivity..]. rewrite IHl by exact Hl.
    destruct (all_bigint (flat_map leaves l)); cbn [rbind]; [|reflexivity..]. rewrite app_assoc. reflexivity.
Qed.
Lemma flat_leaves v : flat_array v = all_bigint (leaves v).
Proof. unfold flat_array. rewrite fill_leaves. destruct (all_bigint (leaves v)); reflexivity. Qed.
Lemma all_bigint_length l zs : all_bigint l = Ok zs -> List.length zs = List.length l.
Proof.
  revert zs. induction l as [|v l IH]; intros zs H; cbn [all_bigint] in H; [injection H as <-; reflexivity|].
  destruct (bigint_value v) as [z| |]; cbn [rbind] in H; try discriminate. destruct (all_bigint l) as [y| |]; cbn [rbind] in H; try discriminate.
  injection H as <-. cbn [List.length]. rewrite (IH y eq_refl). reflexivity.
Qed.

Section Two.
  Context (m : wmodule).
  Lemma set_values_two p k msb lsb : forall l zs i s, all_bigint l = Ok zs ->
    set_values_js m p k msb lsb i l s = set_values m p k msb lsb i zs s.
  Proof.
    induction l as [|v l IH]; intros zs i s H; cbn [all_bigint] in H; [injection H as <-; reflexivity|].
    destruct (bigint_value v) as [z| |] eqn:Ev; cbn [rbind] in H; try discriminate. destruct (all_bigint l) as [y| |] eqn:El; cbn [rbind] in H; try discriminate.
    injection H as <-. cbn [set_values_js set_values]. unfold mbind at 1. rewrite Ev. cbn [lift_res].
    apply mbind_ext; [reflexivity|]. intros [] s1. apply mbind_ext; [reflexivity|]. intros [] s2. apply mbind_ext; [|reflexivity]. apply IH. reflexivity.
  Qed.
  Lemma set_key_two p k v s : (exists zs, numbers v zs) -> set_key_js m p k v s = set_key m p k v s.
  Proof.
    intros (zs&H). apply flat_array_spec in H. rewrite flat_leaves in H. unfold set_key_js, set_key. unfold mbind at 1, lift_res. rewrite flat_leaves, H.
    rewrite <- (all_bigint_length _ _ H). cbv zeta.
    destruct (_ <? 0)%Z; [reflexivity|]. destruct (_ <? _)%Z; [reflexivity|]. destruct (_ <? _)%Z; [reflexivity|]. apply set_values_two. exact H.
  Qed.
  Lemma set_keys_two p : forall kvs s, all_numbers kvs -> set_keys_js m p kvs s = set_keys m p kvs s.
  Proof.
    induction kvs as [|[k v] kvs IH]; intros s H; [reflexivity|]. inversion H as [|? ? H1 H2]; subst. cbn [set_keys_js set_keys].
    apply mbind_ext; [apply set_key_two; exact H1|]. intros a s1. apply mbind_ext; [apply IH; exact H2|reflexivity].
  Qed.
  Lemma do_two p kvs s : all_numbers kvs -> do_calculate_js m p kvs s = do_calculate m p kvs s.
  Proof.
    intros H. unfold do_calculate_js, do_calculate. apply mbind_ext; [reflexivity|]. intros [] s1. apply mbind_ext; [apply set_keys_two; exact H|reflexivity].
  Qed.
  Lemma set_values_js_numbers p k msb lsb : forall l i s n s', set_values_js m p k msb lsb i l s = (Ok n, s') -> exists zs, all_bigint l = Ok zs.
  Proof.
    induction l as [|v l IH]; intros i s n s' H; [exists []; reflexivity|]. cbn [set_values_js] in H.
    apply mbind_ok in H as (z&s1&H1&H). apply mbind_ok in H as ([]&s2&_&H). apply mbind_ok in H as ([]&s3&_&H). apply mbind_ok in H as (n'&s4&H&_).
    apply IH in H as (zs&H). unfold lift_res in H1. destruct (bigint_value v) as [z'| |] eqn:Ev; try discriminate. exists (z' :: zs). cbn [all_bigint]. rewrite Ev, H. reflexivity.
  Qed.
  Lemma set_keys_js_numbers p : forall kvs s n s', set_keys_js m p kvs s = (Ok n, s') -> all_numbers kvs.
  Proof.
    induction kvs as [|[k v] kvs IH]; intros s n s' H; [constructor|]. cbn [set_keys_js] in H.
    apply mbind_ok in H as (a&s1&H1&H). apply mbind_ok in H as (b&s2&H2&_). constructor; [|eapply IH; exact H2]. cbn [snd].
    unfold set_key_js in H1. destruct (_ <? 0)%Z; [discriminate|]. destruct (_ <? _)%Z; [discriminate|]. destruct (_ <? _)%Z; [discriminate|].
    apply set_values_js_numbers in H1 as (zs&H1). exists zs. apply flat_array_spec. rewrite flat_leaves. exact H1.
  Qed.
  Lemma do_js_numbers p kvs s s' : do_calculate_js m p kvs s = (Ok tt, s') -> all_numbers kvs.
  Proof. unfold do_calculate_js. intros H. apply mbind_ok in H as ([]&s1&_&H). apply mbind_ok in H as (n&s2&H&_). eapply set_keys_js_numbers. exact H. Qed.
  Lemma do_js_no_panic p kvs s : fst (do_calculate m p kvs s) <> Panic -> fst (do_calculate_js m p kvs s) = Ok tt \/ exists e, fst (do_calculate_js m p kvs s) = Err e.
  Proof.
    intros _. assert (V : forall k msb lsb l i s, fst (set_values_js m p k msb lsb i l s) <> Panic).
    { intros k msb lsb. induction l as [|v l IH]; intros i t; [discriminate|]. cbn [set_values_js]. unfold mbind, lift_res, write_words, lift_state, lift_opt.
      destruct (bigint_value v) as [z| |] eqn:Ev; cbn [fst]; [|discriminate|].
      - destruct (x_set_signal m _ msb lsb i) as [s1|]; [|discriminate].
        specialize (IH (i + 1) s1). destruct (set_values_js m p k msb lsb (i + 1) l s1) as [[n| |] s2]; cbn in *; congruence.
      - exfalso. destruct v as [| | |t'|t'| |]; cbn [bigint_value] in Ev; try discriminate; [destruct (JsNumber.number_bigint t'); discriminate|destruct (js_bigint t'); discriminate]. }
    assert (K : forall kvs s, fst (set_keys_js m p kvs s) <> Panic).
    { induction kvs0 as [|[k v] l IH]; intros t; [discriminate|]. cbn [set_keys_js]. unfold mbind.
      assert (G : fst (set_key_js m p k v t) <> Panic).
      { unfold set_key_js. destruct (_ <? 0)%Z; [discriminate|]. destruct (_ <? _)%Z; [discriminate|]. destruct (_ <? _)%Z; [discriminate|]. apply V. }
      destruct (set_key_js m p k v t) as [[a| |] s1]; cbn in G; try congruence; [|discriminate]. specialize (IH s1).
      destruct (set_keys_js m p l s1) as [[b| |] s2]; cbn in *; congruence. }
    unfold do_calculate_js, mbind, lift_opt. destruct (x_init m s) as [s1|]; [|right; eexists; reflexivity]. specialize (K kvs s1).
    destruct (set_keys_js m p kvs s1) as [[n| |] s2]; cbn in *; [|right; eexists; reflexivity|congruence]. destruct (n <? input_size m); cbn; [right; eexists; reflexivity|left; reflexivity].
  Qed.
End Two.

(** On documents of numbers the original and the rewrite give the same result, errors included; on
    any other document both refuse.  (Which error they report first may differ.) *)
Theorem C64_same_witness :
  forall m input, module_ok m ->
    (all_numbers input ->
       calculate_witness_js m input = calculate_witness m input /\
       calculate_bin_witness_js m input = calculate_bin_witness m input) /\
    (~ all_numbers input ->
       (exists e, calculate_witness_js m input = Err e) /\ (exists e, calculate_witness m input = Err e) /\
       (exists e, calculate_bin_witness_js m input = Err e) /\ (exists e, calculate_bin_witness m input = Err e)).
Proof.
  intros m input Hm. split.
  - intros H. unfold calculate_witness_js, calculate_witness, calculate_witness_m, calculate_bin_witness_js, calculate_bin_witness. split.
    + f_equal. apply mbind_ext; [apply do_two; exact H|reflexivity].
    + rewrite do_two by exact H. reflexivity.
  - intros H.
    assert (J : exists e, fst (do_calculate_js m (wc_prime m (state0 m)) input (x_raw_prime m (state0 m))) = Err e).
    { destruct (do_js_no_panic m (wc_prime m (state0 m)) input (x_raw_prime m (state0 m))) as [E|E]; [|exfalso|exact E].
      - rewrite (wc_prime_ok m Hm). assert (G := do_calculate_cases m Hm input (x_raw_prime m (state0 m)) (shape0 m)).
        destruct (do_calculate m _ input _) as [[[]|e|] s]; cbn; congruence.
      - destruct (do_calculate_js m _ input _) as [r s] eqn:Ed. cbn in E. subst r. apply H. eapply do_js_numbers. exact Ed. }
    assert (T : exists e, fst (do_calculate m (wc_prime m (state0 m)) input (x_raw_prime m (state0 m))) = Err e).
    { rewrite (wc_prime_ok m Hm). assert (G := do_calculate_cases m Hm input (x_raw_prime m (state0 m)) (shape0 m)).
      destruct (do_calculate m _ input _) as [[[]|e|] s]; [exfalso|eexists; reflexivity|contradiction].
      destruct G as (_&gs&w&(per&Hper&_)&_). apply H. clear - Hper. induction Hper as [|kv g l per (zs&n&Hz&_) Hr IH]; constructor; eauto. }
    destruct J as (e&J), T as (e'&T). unfold calculate_witness_js, calculate_witness, calculate_witness_m, calculate_bin_witness_js, calculate_bin_witness, mbind.
    destruct (do_calculate_js m _ input _) as [r s]. destruct (do_calculate m _ input _) as [r' s']. cbn in J, T. subst r r'. cbn. eauto 10.
Qed.
Print Assumptions C64_same_witness.

(** The witness files are the same but for the eight bytes that announce the size of the values.  The
    original writes the first eight hexadecimal digits of the size in the low word and the others in
    the high word: right below 2^32, and for [8 + e] digits the size divided by 16^e, plus 2^32 times
    the remainder. *)
Definition original_length (len announced : N) : Prop :=
  (len < 2 ^ 32 /\ announced = len) \/
  exists e, 0 < e <= 8 /\ 16 ^ (7 + e) <= len < 16 ^ (8 + e) /\ announced = len / 16 ^ e + 2 ^ 32 * (len mod 16 ^ e).

Lemma parse_nibs n v : parse_hex (map hex_char (nibs n v)) = v mod 16 ^ N.of_nat n.
Proof. unfold parse_hex. rewrite radix_nibs. reflexivity. Qed.
Lemma parse_zeros k t : parse_hex (repeat 48 k ++ t) = parse_hex t.
Proof.
  unfold parse_hex. rewrite radix_app. assert (E : radix_value 16 (repeat 48 k) 0 = Some 0).
  { induction k as [|k IH]; [reflexivity|]. cbn [repeat radix_value]. change (radix_digit 16 48) with (Some 0). cbn [N.mul N.add]. exact IH. }
  rewrite E. reflexivity.
Qed.
Lemma to_hex_pad v n : v < 16 ^ N.of_nat (S n) -> (List.length (to_hex v) <= S n)%nat /\
  repeat 48 (S n - List.length (to_hex v)) ++ to_hex v = map hex_char (nibs (S n) v).
Proof.
  intros Hlt. unfold to_hex.
  assert (Hf : v < 2 ^ N.of_nat (S (N.to_nat (N.log2 v)))).
  { rewrite Nat2N.inj_succ, N2Nat.id. destruct (N.eq_dec v 0) as [->|Hv]; [reflexivity|]. apply N.log2_spec. lia. }
  destruct (hex_loop_spec (N.to_nat (N.log2 v)) n v [] Hlt Hf) as (t&E&H1&H2). rewrite E, app_nil_r. auto.
Qed.
Lemma to_hex_full v n : 16 ^ N.of_nat n <= v < 16 ^ N.of_nat (S n) -> to_hex v = map hex_char (nibs (S n) v).
Proof.
  intros [Hge Hlt]. destruct (to_hex_pad v n Hlt) as [H1 H2].
  destruct (Nat.eq_dec (List.length (to_hex v)) (S n)) as [E|Hne]; [rewrite E, Nat.sub_diag in H2; exact H2|]. exfalso.
  assert (Hl : (List.length (to_hex v) <= n)%nat) by lia.
  assert (E : parse_hex (to_hex v) = v).
  { rewrite <- (parse_zeros (S n - List.length (to_hex v))), H2, parse_nibs. apply N.mod_small. exact Hlt. }
  assert (B : forall t acc r, radix_value 16 t acc = Some r -> r < (acc + 1) * 16 ^ N.of_nat (List.length t)).
  { clear. induction t as [|c t IH]; intros acc r H; cbn [radix_value List.length] in *.
    - injection H as <-. change (16 ^ N.of_nat 0) with 1. lia.
    - destruct (radix_digit 16 c) as [d|] eqn:Ed; [|discriminate]. apply IH in H. rewrite Nat2N.inj_succ, N.pow_succ_r'.
      assert (Hd : d < 16).
      { unfold radix_digit in Ed. repeat match type of Ed with context [if ?b then _ else _] => destruct b eqn:? end; try discriminate; injection Ed as <-;
          repeat match goal with H : _ && _ = true |- _ => apply andb_true_iff in H as [? ?] end;
          rewrite ?N.ltb_lt, ?N.leb_le in *; lia. }
      nia. }
  unfold parse_hex in E. destruct (radix_value 16 (to_hex v) 0) as [r|] eqn:Er.
  - apply B in Er. subst r. rewrite N.add_0_l, N.mul_1_l in Er.
    assert (P : 16 ^ N.of_nat (List.length (to_hex v)) <= 16 ^ N.of_nat n) by (apply N.pow_le_mono_r; [discriminate|lia]). lia.
  - subst v. assert (P : 0 < 16 ^ N.of_nat n) by (apply N.neq_0_lt_0, N.pow_nonzero; discriminate). lia.
Qed.
Lemma hex_words len : len < 2 ^ 64 -> original_length len (parse_hex (firstn 8 (to_hex len)) + 2 ^ 32 * parse_hex (firstn 8 (skipn 8 (to_hex len)))) /\
  parse_hex (firstn 8 (to_hex len)) < 2 ^ 32 /\ parse_hex (firstn 8 (skipn 8 (to_hex len))) < 2 ^ 32.
Proof.
  intros H64. destruct (N.lt_ge_cases len (2 ^ 32)) as [Hlt|Hge].
  - destruct (to_hex_pad len 7 Hlt) as [H1 H2]. rewrite (skipn_all2 (to_hex len) H1), (firstn_all2 (to_hex len) H1).
    assert (E : parse_hex (to_hex len) = len).
    { rewrite <- (parse_zeros (8 - List.length (to_hex len))), H2, parse_nibs. apply N.mod_small. exact Hlt. }
    rewrite E. change (parse_hex (firstn 8 [])) with 0. split; [left; split; [exact Hlt|lia]|]. split; [exact Hlt|reflexivity].
  - assert (Hd : exists e, (e <= 7)%nat /\ 16 ^ N.of_nat (8 + e) <= len < 16 ^ N.of_nat (S (8 + e))).
    { assert (G : forall k, len < 16 ^ N.of_nat (S (8 + k)) -> exists e, (e <= k)%nat /\ 16 ^ N.of_nat (8 + e) <= len < 16 ^ N.of_nat (S (8 + e))).
      { induction k as [|k IH]; intros Hk.
        - exists 0%nat. split; [lia|]. split; [exact Hge|exact Hk].
        - destruct (N.lt_ge_cases len (16 ^ N.of_nat (8 + S k))) as [Hl|Hg].
          + replace (8 + S k)%nat with (S (8 + k)) in Hl by lia. destruct (IH Hl) as (e&H1&H2). exists e. split; [lia|exact H2].
          + exists (S k). split; [lia|]. split; assumption. }
      apply (G 7%nat). exact H64. }
    destruct Hd as (e0&He0&Hb). assert (Hx := to_hex_full len (8 + e0) Hb).
    replace (S (8 + e0)) with (8 + S e0)%nat in * by lia. set (e := S e0) in *.
    rewrite nibs_app, map_app in Hx.
    assert (L8 : List.length (map hex_char (nibs 8 (len / 16 ^ N.of_nat e))) = 8%nat) by (rewrite map_length; apply nibs_length).
    rewrite Hx, firstn_app, skipn_app, L8, Nat.sub_diag, firstn_all2, skipn_all2 by (rewrite L8; apply Nat.le_refl).
    rewrite firstn_O, skipn_O, app_nil_r. cbn [app]. rewrite (firstn_all2 (n := 8)) by (rewrite map_length, nibs_length; unfold e; lia).
    rewrite !parse_nibs. change (16 ^ N.of_nat 8) with (2 ^ 32).
    assert (Hq : len / 16 ^ N.of_nat e < 2 ^ 32).
    { apply N.div_lt_upper_bound; [apply N.pow_nonzero; discriminate|]. change (2 ^ 32) with (16 ^ N.of_nat 8). rewrite <- N.pow_add_r, <- Nat2N.inj_add, Nat.add_comm. apply Hb. }
    rewrite (N.mod_small _ _ Hq). split; [|split; [exact Hq|]].
    + right. exists (N.of_nat e). split; [unfold e; lia|]. split; [|reflexivity].
      replace (7 + N.of_nat e) with (N.of_nat (8 + e0)) by (unfold e; lia). replace (8 + N.of_nat e) with (N.of_nat (8 + e)) by lia. exact Hb.
    + eapply N.lt_le_trans; [apply N.mod_lt, N.pow_nonzero; discriminate|]. change (2 ^ 32) with (16 ^ N.of_nat 8). apply N.pow_le_mono_r; [discriminate|unfold e; lia].
Qed.
Lemma put_hex64_at pre rem idx v : v < 2 ^ 64 -> blen pre = 4 * idx -> (8 <= rem)%nat ->
  exists a, original_length v a /\ put_hex64 (pre ++ repeat x00 rem) idx v = (pre ++ le_bytes 8 a) ++ repeat x00 (rem - 8).
Proof.
  intros Hv Hp Hr. destruct (hex_words v Hv) as (H1&H2&H3). eexists. split; [exact H1|]. unfold put_hex64.
  rewrite put32_at by (try exact Hp; lia). rewrite put32_at by (rewrite ?blen_app, ?blen_le_bytes, ?Hp; lia).
  rewrite <- !app_assoc. f_equal. rewrite app_assoc. f_equal; [|f_equal; lia].
  change 8%nat with (4 + 4)%nat. rewrite le_bytes_app. change (256 ^ N.of_nat 4) with (2 ^ 32).
  set (x := parse_hex (firstn (4 + 4) (to_hex v))) in *. set (y := parse_hex (firstn (4 + 4) (skipn (4 + 4) (to_hex v)))) in *.
  f_equal.
  - rewrite <- (le_bytes_mod 4 (x + 2 ^ 32 * y)). change (256 ^ N.of_nat 4) with (2 ^ 32).
    rewrite N.mul_comm, N.mod_add, N.mod_small by (try discriminate; exact H2). reflexivity.
  - f_equal. rewrite N.mul_comm, N.div_add, N.div_small by (try discriminate; exact H2). reflexivity.
Qed.
Lemma original_small v a : v < 2 ^ 32 -> original_length v a -> a = v.
Proof.
  intros Hv [[_ ->]|(e&He&[Hb _]&_)]; [reflexivity|]. exfalso. assert (P : 16 ^ 8 <= 16 ^ (7 + e)) by (apply N.pow_le_mono_r; [discriminate|lia]).
  change (16 ^ 8) with (2 ^ 32) in P. lia.
Qed.
Lemma wtns_js_layout m (Hm : module_ok m) s w gs : md_compute m gs = Some w -> ws_witness s = Some w ->
  8 + N.of_nat (md_n32 m) * 4 < 2 ^ 32 -> N.of_nat (md_n32 m) * 4 * md_wsize m < 2 ^ 64 ->
  exists a, original_length (N.of_nat (md_n32 m) * 4 * md_wsize m) a /\
    wtns_layout_js m s = [x77; x74; x6e; x73] ++ le_bytes 4 2 ++ le_bytes 4 2
      ++ le_bytes 4 1 ++ le_bytes 8 (8 + N.of_nat (md_n32 m) * 4) ++ le_bytes 4 (N.of_nat (md_n32 m) * 4) ++ value_bytes m (md_prime m) ++ le_bytes 4 (md_wsize m)
      ++ le_bytes 4 2 ++ le_bytes 8 a ++ flat_map (value_bytes m) w.
Proof.
  intros Hc Hs Hn1 Hn2. unfold wtns_layout_js. set (W := N.to_nat (md_wsize m)). set (n32 := md_n32 m) in *.
  set (T := (4 * (W * n32 + n32 + 11))%nat).
  change (repeat x00 T) with ([] ++ repeat x00 T).
  assert (HT : T = (44 + 4 * n32 + 4 * n32 * W)%nat) by (unfold T; nia). clearbody T.
  rewrite put8_at by (try reflexivity; lia). rewrite put8_at by (try reflexivity; lia). rewrite put8_at by (try reflexivity; lia). rewrite put8_at by (try reflexivity; lia).
  rewrite put32_at by (try (rewrite !blen_app, ?blen_le_bytes; reflexivity); lia).
  rewrite put32_at by (try (rewrite !blen_app, ?blen_le_bytes; reflexivity); lia).
  rewrite put32_at by (try (rewrite !blen_app, ?blen_le_bytes; reflexivity); lia).
  match goal with |- context [put_hex64 (?p ++ repeat x00 ?r) 4 ?v] =>
    destruct (put_hex64_at p r 4 v) as (a1&A1&E1); [change (2 ^ 64) with (2 ^ 32 * 2 ^ 32); lia|rewrite !blen_app, ?blen_le_bytes; reflexivity|lia|] end.
  apply (original_small _ _ Hn1) in A1. subst a1. rewrite E1. clear E1.
  rewrite put32_at by (try (rewrite !blen_app, ?blen_le_bytes; reflexivity); lia).
  rewrite (put_shared_at m (x_raw_prime m s) (md_prime m)).
  2: { assert (R := read_words (x_raw_prime m s) (words_of n32 (md_prime m)) eq_refl (words_of_small _ _)). rewrite words_of_length in R. exact R. }
  2: { rewrite !blen_app, ?blen_le_bytes. reflexivity. }
  2: { fold n32. lia. }
  fold n32.
  rewrite put32_at; [|rewrite !blen_app, ?blen_le_bytes; change (blen [x77]) with 1; change (blen [x74]) with 1; change (blen [x6e]) with 1; change (blen [x73]) with 1; change (blen []) with 0; lia|lia].
  rewrite put32_at; [|rewrite !blen_app, ?blen_le_bytes; change (blen [x77]) with 1; change (blen [x74]) with 1; change (blen [x6e]) with 1; change (blen [x73]) with 1; change (blen []) with 0; lia|lia].
  match goal with |- context [put_hex64 (?p ++ repeat x00 ?r) ?i ?v] =>
    destruct (put_hex64_at p r i v) as (a2&A2&E2); [exact Hn2|rewrite !blen_app, ?blen_le_bytes; change (blen [x77]) with 1; change (blen [x74]) with 1; change (blen [x6e]) with 1; change (blen [x73]) with 1; change (blen []) with 0; lia|lia|] end.
  exists a2. split; [exact A2|]. rewrite E2. clear E2.
  rewrite (put_witness_at m w); [|exact Hs|rewrite !blen_app, ?blen_le_bytes; change (blen [x77]) with 1; change (blen [x74]) with 1; change (blen [x6e]) with 1; change (blen [x73]) with 1; change (blen []) with 0; lia|rewrite seq_length; fold n32; lia].
  rewrite seq_length. assert (HW : W = List.length w) by (eapply witness_count; [exact Hm|exact Hc]). rewrite HW at 1.
  change (fun i => le_bytes (4 * md_n32 m) (nth i w 0)) with (fun i => value_bytes m (nth i w 0)). rewrite flat_map_nth.
  match goal with |- (_ ++ repeat x00 ?n) = _ => replace n with 0%nat by (fold n32; lia) end.
  cbn [repeat]. rewrite app_nil_r. rewrite <- !app_assoc. reflexivity.
Qed.

Theorem C64_witness_files :
  forall m input, module_ok m -> all_numbers input ->
    8 + 4 * N.of_nat (md_n32 m) < 2 ^ 32 -> 4 * N.of_nat (md_n32 m) * md_wsize m < 2 ^ 64 ->
    match calculate_wtns m input with
    | Ok file => exists head data announced, blen data = 4 * N.of_nat (md_n32 m) * md_wsize m /\
        original_length (blen data) announced /\
        file = head ++ le_bytes 8 (blen data) ++ data /\
        calculate_wtns_js m input = Ok (head ++ le_bytes 8 announced ++ data)
    | Err e => calculate_wtns_js m input = Err e
    | Panic => False
    end.
Proof.
  intros m input Hm Hall Hn1 Hn2. unfold calculate_wtns, calculate_wtns_js. rewrite do_two by exact Hall. rewrite (wc_prime_ok m Hm).
  assert (G := do_calculate_cases m Hm input (x_raw_prime m (state0 m)) (shape0 m)).
  destruct (do_calculate m (Z.of_N (md_prime m)) input (x_raw_prime m (state0 m))) as [[[]|e|] s]; [|reflexivity|contradiction].
  destruct G as (_&gs&w&_&Hc&Hw). rewrite (wtns_layout_ok m Hm s w gs Hc Hw).
  rewrite (N.mul_comm 4) in Hn1, Hn2 |- *.
  destruct (wtns_js_layout m Hm s w gs Hc Hw Hn1 Hn2) as (a&Ha&E). rewrite E.
  assert (Hv : blen (flat_map (value_bytes m) w) = N.of_nat (md_n32 m) * 4 * md_wsize m).
  { destruct (mo_witness m Hm gs w Hc) as [Hl _]. rewrite <- Hl. unfold blen. clear. induction w as [|v w IH]; [cbn; lia|]. cbn [flat_map List.length]. rewrite app_length.
    unfold value_bytes at 1. rewrite le_bytes_length. nia. }
  eexists ([x77; x74; x6e; x73] ++ le_bytes 4 2 ++ le_bytes 4 2
      ++ le_bytes 4 1 ++ le_bytes 8 (8 + N.of_nat (md_n32 m) * 4) ++ le_bytes 4 (N.of_nat (md_n32 m) * 4) ++ value_bytes m (md_prime m) ++ le_bytes 4 (md_wsize m)
      ++ le_bytes 4 2), (flat_map (value_bytes m) w), a.
  rewrite Hv. split; [reflexivity|]. split; [exact Ha|]. split; [rewrite <- !app_assoc; reflexivity|]. f_equal. rewrite <- !app_assoc. reflexivity.
Qed.
Print Assumptions C64_witness_files.

(** So the files are equal below 2^32 bytes of values, and from there to 2^36 the original's is wrong
    for every field whose elements take a multiple of 16 bytes. *)
Theorem C64_long_witness_files_refuted :
  forall m input file, module_ok m -> all_numbers input -> 8 + 4 * N.of_nat (md_n32 m) < 2 ^ 32 ->
    calculate_wtns m input = Ok file ->
    let len := 4 * N.of_nat (md_n32 m) * md_wsize m in
    (len < 2 ^ 32 -> calculate_wtns_js m input = Ok file) /\
    (2 ^ 32 <= len < 2 ^ 36 -> len mod 16 = 0 ->
       exists head data file', file = head ++ le_bytes 8 len ++ data /\ blen data = len /\
         calculate_wtns_js m input = Ok file' /\ file' = head ++ le_bytes 8 (len / 16) ++ data /\ file' <> file).
Proof.
  intros m input file Hm Hall Hn1 E len.
  assert (G : len < 2 ^ 64 -> exists head data announced, blen data = len /\ original_length len announced /\
        file = head ++ le_bytes 8 len ++ data /\ calculate_wtns_js m input = Ok (head ++ le_bytes 8 announced ++ data)).
  { intros Hn2. assert (H := C64_witness_files m input Hm Hall Hn1 Hn2). rewrite E in H. destruct H as (head&data&a&Hl&Ha&Hf&Hj).
    rewrite Hl in Ha, Hf. exists head, data, a. auto. }
  clearbody len. split.
  - intros Hlt. destruct G as (head&data&a&_&Ha&->&->); [change (2 ^ 64) with (2 ^ 32 * 2 ^ 32); lia|]. apply (original_small _ _ Hlt) in Ha. subst a. reflexivity.
  - intros [Hge Hlt] Hmod. destruct G as (head&data&a&Hl&Ha&Hf&Hj); [change (2 ^ 64) with (2 ^ 36 * 2 ^ 28); lia|].
    assert (Ea : a = len / 16).
    { destruct Ha as [[Hb _]|(e&He&[Hb1 Hb2]&->)]; [lia|]. assert (e = 1) as ->.
      { destruct (N.lt_ge_cases 1 e) as [He1|He1]; [|lia]. exfalso. assert (P : 16 ^ 9 <= 16 ^ (7 + e)) by (apply N.pow_le_mono_r; [discriminate|lia]).
        change (16 ^ 9) with (2 ^ 36) in P. lia. }
      change (16 ^ 1) with 16. rewrite Hmod. lia. }
    subst a. exists head, data, (head ++ le_bytes 8 (len / 16) ++ data). split; [exact Hf|]. split; [exact Hl|]. split; [exact Hj|]. split; [reflexivity|].
    intros Eq. rewrite Hf in Eq. apply app_inv_head in Eq. apply app_inv_tail in Eq. apply (f_equal le_val) in Eq.
    assert (Hq : len / 16 < 2 ^ 32) by (apply N.div_lt_upper_bound; [discriminate|]; change (16 * 2 ^ 32) with (2 ^ 36); exact Hlt).
    rewrite !le_val_small in Eq by (change (256 ^ N.of_nat 8) with (2 ^ 64); change (2 ^ 64) with (2 ^ 36 * 2 ^ 28); lia).
    rewrite Eq in Hq. lia.
Qed.
Print Assumptions C64_long_witness_files_refuted.

(** The hypotheses hold of a circuit without inputs with 2^27 values of 32 bytes. *)
Definition ex_long : wmodule := WModule 2 8 (Z.to_N bn_r) [] (2 ^ 27) (fun _ => Some (repeat 1 (N.to_nat (2 ^ 27)))).
Lemma no_inputs_file m w : module_ok m -> md_signals m = [] -> md_compute m [] = Some w -> exists file, calculate_wtns m [] = Ok file.
Proof.
  intros Hm Hs Hc. unfold calculate_wtns. assert (E : exists s, do_calculate m (wc_prime m (state0 m)) [] (x_raw_prime m (state0 m)) = (Ok tt, s) /\ ws_witness s = Some w).
  { unfold do_calculate, mbind, lift_opt, x_init, x_run, input_size. rewrite Hs. cbn [ws_given List.length map fold_right N.of_nat N.eqb ws_witness]. rewrite Hc. cbn [set_keys ret].
    eexists. split; [reflexivity|reflexivity]. }
  destruct E as (s&E&Hw). rewrite E. rewrite (wtns_layout_ok m Hm s w [] Hc Hw). eexists. reflexivity.
Qed.
Example C64_long_nonvacuous :
  module_ok ex_long /\ all_numbers [] /\ 8 + 4 * N.of_nat (md_n32 ex_long) < 2 ^ 32 /\ (exists file, calculate_wtns ex_long [] = Ok file) /\
  (let len := 4 * N.of_nat (md_n32 ex_long) * md_wsize ex_long in 2 ^ 32 <= len < 2 ^ 36 /\ len mod 16 = 0).
Proof.
  assert (Hm : module_ok ex_long).
  { constructor; [split; vm_compute; reflexivity|constructor|constructor|].
    intros gs w H. change (md_compute ex_long gs) with (Some (repeat 1 (N.to_nat (2 ^ 27)))) in H. apply (f_equal (fun o => match o with Some x => x | None => [] end)) in H. subst w. split.
    - rewrite repeat_length. apply N2Nat.id.
    - change (md_prime ex_long) with (Z.to_N bn_r). apply Forall_forall. intros x Hx. apply repeat_spec in Hx. subst x. vm_compute. reflexivity. }
  split; [exact Hm|]. split; [constructor|]. split; [reflexivity|]. split; [|split; [split; [discriminate|reflexivity]|reflexivity]].
  eapply no_inputs_file; [exact Hm|reflexivity|reflexivity].
Qed.
Example C64_nonvacuous :
  let good := [(lit "y", JArr [JArr []; JInt (-3)]); (lit "x", JStr (lit "0x9"))] in
  module_ok ex_wmodule /\ all_numbers good /\
  calculate_witness_js ex_wmodule good = Ok [1; 9; bn_r - 3]%Z /\
  8 + 4 * N.of_nat (md_n32 ex_wmodule) < 2 ^ 32 /\ 4 * N.of_nat (md_n32 ex_wmodule) * md_wsize ex_wmodule < 2 ^ 64 /\
  ~ all_numbers [(lit "x", JNull)] /\
  (* which error comes first: the value, or the name *)
  calculate_witness ex_wmodule [(lit "z", JNull)] = Err (WcValue JsTypeError) /\
  calculate_witness_js ex_wmodule [(lit "z", JNull)] = Err (WcSignalNotFound (lit "z")).
Proof.
  cbv zeta. split; [exact ex_wmodule_ok|]. split.
  { repeat constructor; cbn [snd]; eexists; apply flat_array_spec; vm_compute; reflexivity. }
  split; [vm_compute; reflexivity|]. split; [reflexivity|]. split; [reflexivity|]. split; [|split; vm_compute; reflexivity].
  intros H. inversion H as [|? ? (zs&Hz) _]; subst. apply flat_array_spec in Hz. cbn in Hz. discriminate.
Qed.

(** ** C65: one calculator, several calls *)
Lemma no_start_spec evs : nothing_starts evs <-> no_start evs.
Proof.
  unfold nothing_starts, no_start. rewrite Forall_forall. split.
  - intros H [i q|i] Hi; [exact (H i q Hi)|exact I].
  - intros H i q Hi. exact (H _ Hi).
Qed.
Lemma fresh_new m q : module_ok m -> fresh m q = new_calculator m q.
Proof. intros Hm. rewrite (fresh_spec m Hm). destruct q; reflexivity. Qed.
Lemma start_ids_spec evs i : In i (start_ids evs) <-> exists q, In (Start i q) evs.
Proof.
  unfold start_ids. rewrite in_flat_map. split.
  - intros ([j q|j]&H1&H2); [|destruct H2]. destruct H2 as [E|[]]. subst j. eauto.
  - intros (q&H). exists (Start i q). split; [exact H|left; reflexivity].
Qed.

(** Calls each awaited before the next start: every call gets what a new calculator would have
    answered, in order, whatever the calls before it did, fail included. *)
Theorem C65_awaited_calls :
  forall m qs, module_ok m ->
    answers m (one_by_one 0 qs) = combine (seq 0 (List.length qs)) (map (new_calculator m) qs).
Proof.
  intros m qs Hm. assert (E : forall qs i, one_by_one i qs = awaited i qs) by (induction qs0 as [|q l IH]; intros i; [reflexivity|]; cbn; rewrite IH; reflexivity).
  rewrite E. unfold answers, history. rewrite (wc_prime_ok m Hm). rewrite (awaited_answers m Hm); [|apply shape0|reflexivity]. cbn [answered app].
  f_equal. apply map_ext. intros q. apply fresh_new. exact Hm.
Qed.
Print Assumptions C65_awaited_calls.

(** In any history, a call is answered as by a new calculator if no other starts before it resumes;
    and a call whose input has no witness always is, at once. *)
Theorem C65_undisturbed_call :
  forall m i q pre fin post, module_ok m ->
    (~ has_witness m q -> In (i, new_calculator m q) (answers m (pre ++ Start i q :: post))) /\
    (has_witness m q -> nothing_starts fin -> ~ In (Finish i) fin ->
       In (i, new_calculator m q) (answers m (pre ++ Start i q :: fin ++ Finish i :: post))).
Proof.
  intros m i q pre fin post Hm. split.
  - intros H. rewrite <- fresh_new by exact Hm. apply rejected_answer; [exact Hm|]. intros Hs. apply (succeeds_iff m Hm) in Hs. exact (H Hs).
  - intros H Hn Hf. rewrite <- fresh_new by exact Hm. apply undisturbed_answer; [exact Hm|apply (succeeds_iff m Hm); exact H|exact Hf|apply no_start_spec; exact Hn].
Qed.
Print Assumptions C65_undisturbed_call.

(** But when another call with a witness starts before it resumes, it is answered with the witness of
    the last one started. *)
Theorem C65_overlapping_calls_refuted :
  forall m i q j q' pre mid fin post, module_ok m -> has_witness m q -> has_witness m q' ->
    nothing_starts fin -> ~ In (Finish i) (mid ++ Start j q' :: fin) -> (forall q0, ~ In (Start i q0) (mid ++ Start j q' :: fin)) ->
    In (i, new_calculator m (on_input q (input_of q'))) (answers m (pre ++ Start i q :: mid ++ Start j q' :: fin ++ Finish i :: post)).
Proof.
  intros m i q j q' pre mid fin post Hm Hq Hq' Hn Hf Hi. rewrite <- fresh_new by exact Hm.
  assert (E : on_input q (input_of q') = with_input q (input_of q')) by (destruct q; reflexivity). rewrite E.
  apply (resumed_answer m Hm); [right; exact I|apply history_shape; exact Hm|apply (succeeds_iff m Hm); exact Hq|apply (succeeds_iff m Hm); exact Hq'| |exact Hf|apply no_start_spec; exact Hn].
  rewrite start_ids_spec. intros (q0&H). exact (Hi q0 H).
Qed.
Print Assumptions C65_overlapping_calls_refuted.

(** Two inputs with different witnesses: awaited, and overlapping as with Promise.all. *)
Definition ex_three : list (text * json) := [(lit "y", JInt 3); (lit "x", JInt 9)].
Definition ex_four : list (text * json) := [(lit "y", JInt 4); (lit "x", JInt 16)].
Example C65_nonvacuous :
  module_ok ex_wmodule /\
  answers ex_wmodule (one_by_one 0 [AskNumbers ex_three; AskNumbers [(lit "y", JInt 4)]; AskNumbers ex_four])
    = [(0%nat, Numbers (Ok [1; 9; 3]%Z)); (1%nat, Numbers (Err WcNotAllInputs)); (2%nat, Numbers (Ok [1; 16; 4]%Z))] /\
  answers ex_wmodule [Start 0 (AskNumbers ex_three); Start 1 (AskNumbers ex_four); Finish 0; Finish 1]
    = [(0%nat, Numbers (Ok [1; 16; 4]%Z)); (1%nat, Numbers (Ok [1; 16; 4]%Z))] /\
  has_witness ex_wmodule (AskNumbers ex_three) /\ has_witness ex_wmodule (AskNumbers ex_four) /\
  ~ has_witness ex_wmodule (AskNumbers [(lit "y", JInt 4)]).
Proof.
  split; [exact ex_wmodule_ok|]. split; [vm_compute; reflexivity|]. split; [vm_compute; reflexivity|].
  split; [eexists; vm_compute; reflexivity|]. split; [eexists; vm_compute; reflexivity|]. intros (zs&H). vm_compute in H. discriminate.
Qed.
