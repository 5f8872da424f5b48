(** Property theorems C34-C37.  Layout of the combined file: SpecCombined.v. *)
From Coq Require Import List Bool Arith NArith Lia.
From Coq Require Import Strings.Byte.
From Verif Require Import Res Bytes Combined SpecCombined CombinedFacts.
Import ListNotations.
Local Open Scope N_scope.

Definition parts_of (inc : bool) (w q m : list byte) : parts := Parts w (if inc then Some q else None) m.

(** ** C34 *)
(** Both encoders write the same bytes; both decoders, the JavaScript one on any window of any
    buffer, give back the parts. *)
Theorem C34_round_trip_across_tools :
  forall (inc : bool) (w q m : list byte),
    blen w < 2 ^ 32 -> (inc = true -> blen q < 2 ^ 32) ->
    exists file,
      cli_combine inc w q m = file /\ js_combine inc w q m = Ok file /\
      cli_split file = Ok (parts_of inc w q m) /\
      forall a, jb_valid a -> jb_window a = file -> js_split a = Ok (w, m).
Proof.
  intros inc w q m Hw Hq. exists (cli_combine inc w q m). split; [reflexivity|].
  rewrite js_combine_layout, cli_combine_layout. split; [reflexivity|]. unfold parts_of, layout. cbn [p_witness p_public p_message].
  destruct inc.
  - specialize (Hq eq_refl). split; [apply cli_split_full; assumption|].
    intros a Ha Hf. rewrite js_split_window, Hf by exact Ha. apply js_split_full; assumption.
  - cbn [app]. split; [apply cli_split_plain; [discriminate|exact Hw]|].
    intros a Ha Hf. rewrite js_split_window, Hf by exact Ha. apply js_split_plain; [discriminate|exact Hw].
Qed.
Print Assumptions C34_round_trip_across_tools.

Example C34_nonvacuous :
  let a := JsBytes (cli_combine true [xaa; xbb] [x7b; x7d] [x01; x02; x03] ++ [xff; xff]) 0 16 in
  jb_valid a /\ jb_window a = cli_combine true [xaa; xbb] [x7b; x7d] [x01; x02; x03] /\
  js_split a = Ok ([xaa; xbb], [x01; x02; x03]).
Proof. vm_compute. split; [discriminate|]. auto. Qed.

(** ** C35 *)
Lemma split_fits file p : cli_split file = Ok p -> file_of p file.
Proof.
  intros H. destruct (shape_total file) as [b Hs|flag l4 r H4 Hr|flag w r Hf Hw|w r Hw Hr|w l4 r Hw H4 Hr|w q r Hw Hq].
  - rewrite cli_split_short in H by exact Hs. discriminate.
  - rewrite cli_split_no_witness in H by assumption. discriminate.
  - rewrite cli_split_plain in H by assumption. injection H as <-. split; [split; [exact Hw|discriminate]|].
    exists flag. split; [|reflexivity]. split; [intros ->; contradiction|]. intros H. exfalso. apply H. reflexivity.
  - rewrite cli_split_no_length in H by assumption. discriminate.
  - rewrite cli_split_no_public in H by assumption. discriminate.
  - rewrite cli_split_full in H by assumption. injection H as <-. split.
    + split; [exact Hw|]. intros q' Hq'. injection Hq' as <-. exact Hq.
    + exists x01. split; [|reflexivity]. split; [discriminate|reflexivity].
Qed.
(** A written file decodes to what was written exactly when the lengths fit in 32 bits. *)
Theorem C35_round_trip_iff_lengths_fit :
  forall (inc : bool) (w q m : list byte),
    cli_split (cli_combine inc w q m) = Ok (parts_of inc w q m) <->
    blen w < 2 ^ 32 /\ (inc = true -> blen q < 2 ^ 32).
Proof.
  intros inc w q m. split.
  - intros H. apply split_fits in H. destruct H as [[H1 H2] _]. split; [exact H1|].
    intros ->. apply H2. reflexivity.
  - intros [H1 H2]. destruct (C34_round_trip_across_tools inc w q m H1 H2) as (f&<-&_&H&_). exact H.
Qed.
Print Assumptions C35_round_trip_iff_lengths_fit.

(** Refuted: for every witness ciphertext of 2^32 bytes or more the decoder cuts it at its length
    modulo 2^32 and takes the rest as the encrypted message. *)
Theorem C35_length_wraps_refuted :
  forall (w q m : list byte),
    2 ^ 32 <= blen w ->
    let n := N.to_nat (blen w mod 2 ^ 32) in
    cli_split (cli_combine false w q m) = Ok (Parts (firstn n w) None (skipn n w ++ m)) /\ firstn n w <> w.
Proof.
  intros w q m Hw n.
  assert (Hlt : blen w mod 2 ^ 32 < 2 ^ 32) by (apply N.mod_lt; discriminate).
  assert (Hn : (n < length w)%nat).
  { unfold n. unfold blen in Hw. revert Hlt. generalize (blen w mod 2 ^ 32). intros k Hk.
    clear - Hw Hk. lia. }
  assert (Hf : blen (firstn n w) = blen w mod 2 ^ 32).
  { unfold blen at 1. rewrite firstn_length, Nat.min_l by lia. unfold n. apply N2Nat.id. }
  split.
  - rewrite cli_combine_layout. unfold layout. cbn [p_witness p_public p_message app].
    assert (E : block w ++ m = block (firstn n w) ++ skipn n w ++ m).
    { unfold block. rewrite Hf. unfold be_bytes. change (2 ^ 32) with (256 ^ N.of_nat 4). rewrite le_bytes_mod.
      rewrite <- !app_assoc. f_equal. rewrite app_assoc, firstn_skipn. reflexivity. }
    rewrite E. apply cli_split_plain; [discriminate|]. rewrite Hf. exact Hlt.
  - intros E. rewrite <- E, firstn_length in Hn. lia.
Qed.
Print Assumptions C35_length_wraps_refuted.
Example C35_nonvacuous : exists w : list byte, 2 ^ 32 <= blen w.
Proof. exists (repeat x00 (N.to_nat (2 ^ 32))). unfold blen. rewrite repeat_length, N2Nat.id. apply N.le_refl. Qed.

(** ** C36 *)
Theorem C36_decodes_exactly_the_files :
  forall (file : list byte) (p : parts), cli_split file = Ok p <-> file_of p file.
Proof.
  intros file p. split; [apply split_fits|]. intros [[Hw Hq] (flag&Hf&->)]. destruct p as [w [q|] m]; cbn [p_public p_witness p_message] in *.
  - assert (flag = x01) by (apply Hf; discriminate). subst flag. unfold layout. cbn [p_witness p_public p_message].
    apply cli_split_full; [exact Hw|]. apply Hq. reflexivity.
  - unfold layout. cbn [p_witness p_public p_message app]. apply cli_split_plain; [|exact Hw].
    intros E. apply Hf in E. apply E. reflexivity.
Qed.
Print Assumptions C36_decodes_exactly_the_files.

(** The value of the four bytes at an offset. *)
Definition announced (file : list byte) (o : N) : N := be_val (firstn 4 (skipn (N.to_nat o) file)).
Lemma announced_app pre l4 r o : blen pre = o -> length l4 = 4%nat -> announced (pre ++ l4 ++ r) o = be_val l4.
Proof.
  intros <- H4. unfold announced, blen. rewrite Nat2N.id, skipn_app, skipn_all, Nat.sub_diag. cbn [skipn app].
  rewrite <- H4, firstn_app, firstn_all, Nat.sub_diag. cbn [firstn]. rewrite app_nil_r. reflexivity.
Qed.
Theorem C36_errors :
  forall file : list byte,
    let n := announced file 1 in
    let k := announced file (5 + n) in
    let with_public := nth_error file 0 = Some x01 in
    (cli_split file = Err CTooShort <-> blen file < 5) /\
    (cli_split file = Err CWitnessMismatch <-> 5 <= blen file < 5 + n) /\
    (cli_split file = Err CMissingPublic <-> with_public /\ 5 + n <= blen file < 5 + n + 4) /\
    (cli_split file = Err CPublicMismatch <-> with_public /\ 5 + n + 4 <= blen file < 5 + n + 4 + k) /\
    cli_split file <> Panic.
Proof.
  intros file n k with_public.
  assert (Lb : forall flag w r, blen (flag :: block w ++ r) = 5 + blen w + blen r).
  { intros. rewrite blen_cons, blen_app, block_len. lia. }
  assert (Nb : forall flag w r, blen w < 2 ^ 32 -> announced (flag :: block w ++ r) 1 = blen w).
  { intros flag w r Hw. unfold block. rewrite <- app_assoc.
    rewrite (announced_app [flag] (be_bytes 4 (blen w)) (w ++ r) 1 eq_refl (be_bytes_length 4 _) : announced (flag :: be_bytes 4 (blen w) ++ w ++ r) 1 = _).
    apply be4_val. exact Hw. }
  unfold k, n, with_public. clear with_public. clear k. clear n.
  destruct (shape_total file) as [b Hs|flag l4 r H4 Hr|flag w r Hf Hw|w r Hw Hr|w l4 r Hw H4 Hr|w q r Hw Hq].
  - rewrite cli_split_short by exact Hs. repeat split; intros; try discriminate; try exact Hs; try reflexivity;
      repeat match goal with H : _ /\ _ |- _ => destruct H end; lia.
  - rewrite cli_split_no_witness by assumption.
    rewrite (announced_app [flag] l4 r 1 eq_refl H4 : announced (flag :: l4 ++ r) 1 = _).
    rewrite (head_len flag l4 r H4). repeat split; intros; try discriminate; try reflexivity; try lia;
      repeat match goal with H : _ /\ _ |- _ => destruct H end; lia.
  - rewrite cli_split_plain by assumption. rewrite Nb, Lb by exact Hw.
    repeat split; intros; try discriminate; try lia; repeat match goal with H : _ /\ _ |- _ => destruct H end; try lia;
      cbn [nth_error] in *; congruence.
  - rewrite cli_split_no_length by assumption. rewrite Nb, Lb by exact Hw.
    repeat split; intros; try discriminate; try reflexivity; try lia; repeat match goal with H : _ /\ _ |- _ => destruct H end; lia.
  - rewrite cli_split_no_public by assumption. rewrite Nb, Lb by exact Hw. rewrite blen_app.
    assert (B4 : blen l4 = 4) by (unfold blen; rewrite H4; reflexivity). rewrite B4.
    assert (A : announced (x01 :: block w ++ l4 ++ r) (5 + blen w) = be_val l4).
    { apply (announced_app (x01 :: block w) l4 r (5 + blen w)); [|exact H4]. rewrite blen_cons, block_len. lia. }
    rewrite A. repeat split; intros; try discriminate; try reflexivity; try lia; repeat match goal with H : _ /\ _ |- _ => destruct H end; lia.
  - rewrite cli_split_full by assumption. rewrite Nb, Lb by exact Hw. rewrite blen_app, block_len.
    assert (A : announced (x01 :: block w ++ block q ++ r) (5 + blen w) = blen q).
    { unfold block at 2. rewrite <- app_assoc. rewrite <- (be4_val (blen q) Hq) at 2.
      apply (announced_app (x01 :: block w) (be_bytes 4 (blen q)) (q ++ r) (5 + blen w)); [|apply be_bytes_length].
      rewrite blen_cons, block_len. lia. }
    rewrite A. repeat split; intros; try discriminate; try lia; repeat match goal with H : _ /\ _ |- _ => destruct H end; lia.
Qed.
Print Assumptions C36_errors.

(** A decoded file whose flag is 0 or 1 re-encodes to itself. *)
Theorem C36_reencodes :
  forall file p, cli_split file = Ok p -> nth_error file 0 = Some x00 \/ nth_error file 0 = Some x01 ->
    cli_combine (match p_public p with Some _ => true | None => false end) (p_witness p)
                (match p_public p with Some q => q | None => [] end) (p_message p) = file.
Proof.
  intros file p H Hf. apply split_fits in H. destruct H as [_ (flag&Hflag&->)].
  rewrite cli_combine_layout. destruct p as [w [q|] m]; cbn [p_public p_witness p_message] in *.
  - assert (flag = x01) by (apply Hflag; discriminate). subst flag. reflexivity.
  - assert (flag = x00).
    { cbn [layout nth_error] in Hf. destruct Hf as [E|E]; [congruence|]. exfalso.
      assert (F : flag = x01) by congruence. apply Hflag in F. apply F. reflexivity. }
    subst flag. reflexivity.
Qed.
Print Assumptions C36_reencodes.

(** JavaScript accepts the same files with the same parts; the only other files it accepts lack
    part of their public input, and their message is then empty (so authentication fails, C39). *)
Theorem C36_js_decoder :
  forall a, jb_valid a ->
    (forall p, cli_split (jb_window a) = Ok p -> js_split a = Ok (p_witness p, p_message p)) /\
    (forall w m, js_split a = Ok (w, m) ->
       (exists q, cli_split (jb_window a) = Ok (Parts w q m)) \/
       (cli_split (jb_window a) = Err CPublicMismatch /\ m = [])).
Proof.
  intros a Ha. rewrite js_split_window by exact Ha. generalize (jb_window a). clear a Ha. intros file.
  destruct (shape_total file) as [b Hs|flag l4 r H4 Hr|flag w r Hf Hw|w r Hw Hr|w l4 r Hw H4 Hr|w q r Hw Hq].
  - rewrite cli_split_short, js_split_short by exact Hs. split; intros; discriminate.
  - rewrite cli_split_no_witness, js_split_no_witness by assumption. split; intros; discriminate.
  - rewrite cli_split_plain, js_split_plain by assumption. split.
    + intros p Hp. injection Hp as <-. reflexivity.
    + intros w' m Hm. injection Hm as <- <-. left. eexists. reflexivity.
  - rewrite cli_split_no_length, js_split_no_length by assumption. split; intros; discriminate.
  - rewrite cli_split_no_public, js_split_no_public by assumption. split; [discriminate|].
    intros w' m Hm. injection Hm as <- <-. right. auto.
  - rewrite cli_split_full, js_split_full by assumption. split.
    + intros p Hp. injection Hp as <-. reflexivity.
    + intros w' m Hm. injection Hm as <- <-. left. eexists. reflexivity.
Qed.
Print Assumptions C36_js_decoder.

Example C36_nonvacuous :
  cli_split [x00; x00; x00; x00] = Err CTooShort /\
  cli_split [x00; x00; x00; x00; x02; xaa] = Err CWitnessMismatch /\
  cli_split [x01; x00; x00; x00; x01; xaa; x00] = Err CMissingPublic /\
  cli_split [x01; x00; x00; x00; x01; xaa; x00; x00; x00; x02; x7b] = Err CPublicMismatch /\
  cli_split [x02; x00; x00; x00; x01; xaa; xbb] = Ok (Parts [xaa] None [xbb]).
Proof. vm_compute. auto. Qed.

(** ** C37 *)
Section C37.
  Context {T J : Type} (text_decode : list byte -> T) (json_parse : T -> option J).
  Lemma get_public_short b : blen b < 5 -> get_public_input text_decode json_parse (whole b) = Err JTooShort.
  Proof. intros H. unfold get_public_input. rewrite whole_len, ltb_true by exact H. reflexivity. Qed.
  Lemma get_public_no_flag flag b : 5 <= blen (flag :: b) -> flag <> x01 ->
    get_public_input text_decode json_parse (whole (flag :: b)) = Err JNotIncluded.
  Proof.
    intros H Hf. unfold get_public_input. rewrite whole_len, ltb_false by exact H. rewrite dv_head. cbn [rbind].
    rewrite eqb_x01 by exact Hf. reflexivity.
  Qed.
  Lemma get_public_full w q r : blen w < 2 ^ 32 -> blen q < 2 ^ 32 ->
    get_public_input text_decode json_parse (whole (x01 :: block w ++ block q ++ r)) =
    match json_parse (text_decode q) with Some j => Ok j | None => Err JBadJson end.
  Proof.
    intros Hw Hq. assert (L : blen (x01 :: block w ++ block q ++ r) = 5 + blen w + 4 + blen q + blen r).
    { rewrite blen_cons, !blen_app, !block_len. lia. }
    assert (U : dv_u32 (whole (x01 :: block w ++ block q ++ r)) (5 + blen w) = Ok (blen q)).
    { unfold block at 2. rewrite <- app_assoc. rewrite dv_public by (try apply be_bytes_length; reflexivity). rewrite be4_val by exact Hq. reflexivity. }
    unfold get_public_input. rewrite whole_len, L. rewrite ltb_false by lia. rewrite dv_head. cbn [rbind].
    change (Byte.eqb x01 x01) with true. cbn [negb].
    rewrite dv_witness by exact Hw. cbn [rbind]. rewrite ltb_false by lia. rewrite ltb_false by lia. rewrite U. cbn [rbind].
    rewrite ltb_false by lia.
    assert (S : js_slice (whole (x01 :: block w ++ block q ++ r)) (5 + blen w + 4) (5 + blen w + 4 + blen q) = q).
    { replace (x01 :: block w ++ block q ++ r) with ((x01 :: block w ++ be_bytes 4 (blen q)) ++ q ++ r).
      - apply js_slice_app; [|reflexivity]. rewrite blen_cons, blen_app, block_len, blen4. lia.
      - unfold block at 3. cbn [app]. rewrite <- !app_assoc. reflexivity. }
    rewrite S. reflexivity.
  Qed.
  Lemma get_public_inv file j : get_public_input text_decode json_parse (whole file) = Ok j ->
    exists w q r, blen w < 2 ^ 32 /\ blen q < 2 ^ 32 /\ file = x01 :: block w ++ block q ++ r /\ json_parse (text_decode q) = Some j.
  Proof.
    destruct (shape_total file) as [b Hs|flag l4 r H4 Hr|flag w r Hf Hw|w r Hw Hr|w l4 r Hw H4 Hr|w q r Hw Hq].
    - rewrite get_public_short by exact Hs. discriminate.
    - destruct (Byte.byte_eq_dec flag x01) as [->|Hf].
      + unfold get_public_input. rewrite whole_len, head_len by exact H4. rewrite ltb_false by lia. rewrite dv_head. cbn [rbind].
        change (Byte.eqb x01 x01) with true. cbn [negb]. rewrite dv_len by exact H4. cbn [rbind]. rewrite ltb_true by lia. discriminate.
      + rewrite get_public_no_flag; [discriminate| |exact Hf]. rewrite head_len by exact H4. lia.
    - rewrite get_public_no_flag; [discriminate| |exact Hf]. rewrite blen_cons, blen_app, block_len. lia.
    - assert (L : blen (x01 :: block w ++ r) = 5 + blen w + blen r) by (rewrite blen_cons, blen_app, block_len; lia).
      unfold get_public_input. rewrite whole_len, L. rewrite ltb_false by lia. rewrite dv_head. cbn [rbind].
      change (Byte.eqb x01 x01) with true. cbn [negb]. rewrite dv_witness by exact Hw. cbn [rbind].
      rewrite ltb_false by lia. rewrite ltb_true by lia. discriminate.
    - assert (L : blen (x01 :: block w ++ l4 ++ r) = 5 + blen w + 4 + blen r).
      { rewrite blen_cons, !blen_app, block_len. unfold blen at 2. rewrite H4. lia. }
      unfold get_public_input. rewrite whole_len, L. rewrite ltb_false by lia. rewrite dv_head. cbn [rbind].
      change (Byte.eqb x01 x01) with true. cbn [negb]. rewrite dv_witness by exact Hw. cbn [rbind].
      rewrite ltb_false by lia. rewrite ltb_false by lia. rewrite dv_public by auto. cbn [rbind]. rewrite ltb_true by lia. discriminate.
    - rewrite get_public_full by assumption. destruct (json_parse (text_decode q)) as [j'|] eqn:Ej; [|discriminate].
      intros H. exists w, q, r. repeat split; try assumption. congruence.
  Qed.
End C37.

(** Whatever decoder and JSON parser are used, on any window of any buffer. *)
Theorem C37_returns_the_embedded_input :
  forall (T J : Type) (text_decode : list byte -> T) (json_parse : T -> option J) (w q m : list byte) a,
    blen w < 2 ^ 32 -> blen q < 2 ^ 32 -> jb_valid a ->
    (jb_window a = cli_combine true w q m ->
       get_public_input text_decode json_parse a =
       match json_parse (text_decode q) with Some j => Ok j | None => Err JBadJson end) /\
    (jb_window a = cli_combine false w q m -> get_public_input text_decode json_parse a = Err JNotIncluded) /\
    (jb_length a < 5 -> get_public_input text_decode json_parse a = Err JTooShort).
Proof.
  intros T J dec pj w q m a Hw Hq Ha. rewrite get_public_window by exact Ha. rewrite !cli_combine_layout. unfold layout.
  cbn [p_witness p_public p_message]. split; [|split].
  - intros ->. apply get_public_full; assumption.
  - intros ->. apply get_public_no_flag; [|discriminate]. rewrite blen_cons, blen_app, block_len. lia.
  - intros H. apply get_public_short. rewrite window_len by exact Ha. exact H.
Qed.
Print Assumptions C37_returns_the_embedded_input.
(** It returns nothing else: a result is the parsed public input of a file that the CLI decodes. *)
Theorem C37_returns_only_embedded_inputs :
  forall (T J : Type) (text_decode : list byte -> T) (json_parse : T -> option J) a j, jb_valid a ->
    (get_public_input text_decode json_parse a = Ok j <->
     exists w q m, cli_split (jb_window a) = Ok (Parts w (Some q) m) /\ json_parse (text_decode q) = Some j).
Proof.
  intros T J dec pj a j Ha. rewrite get_public_window by exact Ha. split.
  - intros H. apply get_public_inv in H. destruct H as (w&q&r&Hw&Hq&->&Hj). exists w, q, r. split; [|exact Hj].
    apply cli_split_full; assumption.
  - intros (w&q&m&Hs&Hj). apply split_fits in Hs. destruct Hs as [[Hw Hq] (flag&Hf&->)]. cbn [p_witness p_public] in *.
    assert (flag = x01) by (apply Hf; discriminate). subst flag. unfold layout. cbn [p_witness p_public p_message].
    rewrite get_public_full by (try exact Hw; apply Hq; reflexivity). rewrite Hj. reflexivity.
Qed.
Print Assumptions C37_returns_only_embedded_inputs.
Example C37_nonvacuous :
  get_public_input (fun b => b) (fun b => Some (blen b)) (whole (cli_combine true [xaa] [x7b; x7d] [x01])) = Ok 2 /\
  get_public_input (fun b => b) (fun b => Some (blen b)) (whole (cli_combine false [xaa] [x7b; x7d] [x01])) = Err JNotIncluded.
Proof. vm_compute. auto. Qed.
