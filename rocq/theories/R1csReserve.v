(** Upper bounds on the memory the CLI's r1cs reader reserves up front. *)
From Coq Require Import List Bool Arith NArith ZArith Lia.
From Coq Require Import Strings.Byte.
From Verif Require Import Res Bytes Reader R1cs SpecR1cs R1csFacts R1csMore.
Import ListNotations.
Local Open Scope N_scope.
Local Open Scope rd_scope.

(** Sum of a list of reservations. *)
Fixpoint sum (l : list N) : N := match l with [] => 0 | x :: l => x + sum l end.

Lemma sum_app l l' : sum (l ++ l') = sum l + sum l'.
Proof. induction l; cbn [sum app]; lia. Qed.
Lemma sum_rev l : sum (rev l) = sum l.
Proof. induction l; cbn [sum rev]; [reflexivity|]. rewrite sum_app. cbn [sum]. lia. Qed.

Section Bounds.
  Variable file : list byte.

  (** Reserved bytes minus eight times the position. *)
  Definition phi (s : rstate) : Z := (Z.of_N (sum (reserved s)) - 8 * Z.of_N (rpos s))%Z.
  (** The step lowers [phi] by [d] when it succeeds, raises it by at most [c] otherwise, and
      reads inside the file only. *)
  Definition pays {A} (d c : Z) (m : R A) : Prop :=
    forall s, (rpos s <= rpos (snd (m s)) <= N.max (rpos s) (blen file)) /\
      match fst (m s) with
      | Ok _ => (phi (snd (m s)) <= phi s - d)%Z
      | _ => (phi (snd (m s)) <= phi s + c)%Z
      end.

  Lemma pays_weak {A} d d' c c' (m : R A) : pays d c m -> (d' <= d)%Z -> (c <= c')%Z -> pays d' c' m.
  Proof.
    intros H Hd Hc s. destruct (H s) as [H1 H2]. split; [exact H1|]. destruct (fst (m s)); lia.
  Qed.

  Lemma pays_bind {A B} (P : A -> Prop) d1 c1 d2 c2 (m : R A) (k : A -> R B) :
    pays d1 c1 m -> (forall s a s', m s = (Ok a, s') -> P a) -> (forall a, P a -> pays d2 c2 (k a)) ->
    pays (d1 + d2) (Z.max c1 (c2 - d1)) (mbind m k).
  Proof.
    intros Hm HP Hk s. destruct (Hm s) as [H1 H2]. unfold mbind. destruct (m s) as [[a|e|] s1] eqn:E; cbn [fst snd] in *.
    - destruct (Hk a (HP _ _ _ E) s1) as [H3 H4]. split; [lia|]. destruct (fst (k a s1)); lia.
    - split; lia.
    - split; lia.
  Qed.

  Lemma pays_ret {A} (a : A) : pays 0 0 (ret a).
  Proof. intros s. cbn. lia. Qed.

  Lemma pays_reserve b : pays (- Z.of_N b) 0 (reserve b).
  Proof. intros s. unfold reserve, phi. cbn [fst snd rpos reserved sum]. lia. Qed.

  Lemma pays_read_exact n : pays (8 * Z.of_N n) 0 (read_exact file n).
  Proof.
    intros s. unfold read_exact. destruct (N.eqb_spec n 0) as [->|Hn]; cbn [fst snd].
    - lia.
    - destruct (slice file (rpos s) n) as [b|] eqn:Es; cbn [fst snd rpos reserved].
      + unfold phi. cbn [rpos reserved]. apply slice_some in Es as (l1&l2&Ef&Hl1&Hl).
        assert (blen file = rpos s + n + blen l2) by (rewrite Ef, !blen_app; lia). lia.
      + unfold phi. lia.
  Qed.

  Lemma read_exact_len n s b s' : read_exact file n s = (Ok b, s') -> blen b = n.
  Proof.
    unfold read_exact. destruct (N.eqb_spec n 0) as [->|Hn]; [intros H; injection H as <- _; reflexivity|].
    destruct slice eqn:Es; [|discriminate]. intros H. injection H as <- _. apply slice_some in Es. destruct Es as (?&?&_&_&Hl). exact Hl.
  Qed.
  Lemma pays_u32 : pays 32 0 (read_u32 file).
  Proof.
    eapply pays_weak; [apply (pays_bind (fun _ => True) (8 * Z.of_N 4) 0 0 0); [apply pays_read_exact|auto|intros; apply pays_ret]| |]; lia.
  Qed.
  Lemma read_u32_lt s v s' : read_u32 file s = (Ok v, s') -> v < 2 ^ 32.
  Proof.
    intros H. apply mbind_ok in H as (b&s1&H1&H). injection H as <- _. apply read_exact_len in H1.
    pose proof (le_val_bound b) as Hv. unfold blen in H1. rewrite H1 in Hv. exact Hv.
  Qed.
  Lemma pays_u64 : pays 64 0 (read_u64 file).
  Proof.
    eapply pays_weak; [apply (pays_bind (fun _ => True) (8 * Z.of_N 8) 0 0 0); [apply pays_read_exact|auto|intros; apply pays_ret]| |]; lia.
  Qed.

  Lemma pays_mlist {A} d c (m : R A) : (0 <= d)%Z -> (0 <= c)%Z -> pays d c m ->
    forall n, pays (Z.of_nat n * d) c (mlist n m).
  Proof.
    intros Hd Hc Hm. induction n as [|n IH]; cbn [mlist].
    - eapply pays_weak; [apply pays_ret| |]; lia.
    - eapply pays_weak.
      + apply (pays_bind (fun _ => True) d c (Z.of_nat n * d + 0) (Z.max c (0 - Z.of_nat n * d))); [exact Hm|auto|].
        intros a _. apply (pays_bind (fun _ => True)); [exact IH|auto|]. intros; apply pays_ret.
      + lia.
      + nia.
  Qed.
  Lemma pays_mmany {A} d c n (m : R A) : (0 <= d)%Z -> (0 <= c)%Z -> pays d c m -> pays (Z.of_N n * d) c (mmany n m).
  Proof.
    intros Hd Hc Hm s. rewrite mmany_spec. replace (Z.of_N n) with (Z.of_nat (N.to_nat n)) by lia. apply pays_mlist; assumption.
  Qed.

  Lemma pays_factor fs : fs < 2 ^ 32 -> pays 32 (2 ^ 32) (parse_factor file fs).
  Proof.
    intros Hf. eapply pays_weak.
    - apply (pays_bind (fun _ => True)); [apply pays_u32|auto|]. intros w _.
      apply (pays_bind (fun _ => True)); [apply pays_reserve|auto|]. intros _ _.
      apply (pays_bind (fun _ => True)); [apply pays_read_exact|auto|]. intros; apply pays_ret.
    - lia.
    - change (2 ^ 32) with 4294967296 in Hf. lia.
  Qed.

  Lemma pays_lc fs : fs < 2 ^ 32 -> pays 32 (33 * 2 ^ 32) (parse_lc file fs).
  Proof.
    intros Hf. eapply pays_weak.
    - apply (pays_bind (fun n => n < 2 ^ 32) 32 0 0 (33 * 2 ^ 32)); [apply pays_u32|apply read_u32_lt|]. intros n Hn.
      eapply pays_weak.
      + apply (pays_bind (fun _ => True)); [apply pays_reserve|auto|]. intros _ _.
        apply pays_mmany; [| |apply pays_factor; exact Hf]; lia.
      + lia.
      + change (2 ^ 32) with 4294967296 in Hn. lia.
    - lia.
    - lia.
  Qed.

  Lemma pays_constraint fs : fs < 2 ^ 32 -> pays 96 (33 * 2 ^ 32) (parse_constraint file fs).
  Proof.
    intros Hf. eapply pays_weak.
    - apply (pays_bind (fun _ => True)); [apply pays_lc, Hf|auto|]. intros a _.
      apply (pays_bind (fun _ => True)); [apply pays_lc, Hf|auto|]. intros b _.
      apply (pays_bind (fun _ => True)); [apply pays_lc, Hf|auto|]. intros; apply pays_ret.
    - lia.
    - lia.
  Qed.

  Lemma pays_constraints n fs : n < 2 ^ 32 -> fs < 2 ^ 32 -> pays 0 (105 * 2 ^ 32) (parse_constraints file n fs).
  Proof.
    intros Hn Hf. eapply pays_weak.
    - apply (pays_bind (fun _ => True)); [apply pays_reserve|auto|]. intros _ _.
      apply pays_mmany; [| |apply pays_constraint; exact Hf]; lia.
    - lia.
    - change (2 ^ 32) with 4294967296 in Hn. lia.
  Qed.

  (** Steps that reserve nothing. *)
  Definition idle {A} (m : R A) : Prop := forall s, reserved (snd (m s)) = reserved s.
  Lemma idle_bind {A B} (m : R A) (k : A -> R B) : idle m -> (forall a, idle (k a)) -> idle (mbind m k).
  Proof. intros H1 H2 s. unfold mbind. specialize (H1 s). destruct (m s) as [[a|e|] s1]; cbn in *; [rewrite H2|..]; exact H1. Qed.
  Lemma idle_ret {A} (a : A) : idle (ret a). Proof. intros s. reflexivity. Qed.
  Lemma idle_fail {A} e : idle (fail (A := A) e). Proof. intros s. reflexivity. Qed.
  Lemma idle_read_exact n : idle (read_exact file n).
  Proof. intros s. unfold read_exact. destruct (n =? 0); [reflexivity|]. destruct slice; reflexivity. Qed.
  Lemma idle_u32 : idle (read_u32 file). Proof. apply idle_bind; [apply idle_read_exact|intros; apply idle_ret]. Qed.
  Lemma idle_u64 : idle (read_u64 file). Proof. apply idle_bind; [apply idle_read_exact|intros; apply idle_ret]. Qed.
  Lemma idle_seek_start mx p : idle (seek_start mx p). Proof. intros s. unfold seek_start. destruct (p <=? mx); reflexivity. Qed.
  Lemma idle_seek_rel mx d : idle (seek_relative mx d). Proof. intros s. unfold seek_relative. destruct (_ && _)%bool; reflexivity. Qed.
  Lemma idle_get_pos : idle get_pos. Proof. intros s. reflexivity. Qed.
  Lemma idle_mmany {A} n (m : R A) : idle m -> idle (mmany n m).
  Proof.
    intros H s. rewrite mmany_spec. apply (mlist_inv (fun s' => reserved s' = reserved s)); [|reflexivity].
    intros s1 H1. rewrite H. exact H1.
  Qed.
  Lemma idle_sections mx : idle (read_sections file mx).
  Proof.
    apply idle_bind; [apply idle_read_exact|]. intros m. destruct bytes_eqb; [|apply idle_fail].
    apply idle_bind; [apply idle_u32|]. intros v. destruct (v =? 1); [|apply idle_fail].
    apply idle_bind; [apply idle_u32|]. intros n. apply idle_mmany.
    repeat (apply idle_bind; [first [apply idle_u32|apply idle_u64|apply idle_get_pos|apply idle_seek_rel]|intros]). apply idle_ret.
  Qed.

  (** The header: reserves the announced field size, which a success has read. *)
  Lemma header_cost s :
    sum (reserved (snd (parse_header file s))) < sum (reserved s) + 2 ^ 32 /\
    forall h s', parse_header file s = (Ok h, s') ->
      sum (reserved s') <= sum (reserved s) + blen file /\ h_field_size h < 2 ^ 32 /\
      h_n_wires h < 2 ^ 32 /\ h_n_constraints h < 2 ^ 32.
  Proof.
    assert (Hrest : forall fs prime, idle (do nw <- read_u32 file ;
      do npo <- read_u32 file ; do npi <- read_u32 file ; do nprv <- read_u32 file ;
      do nl <- read_u64 file ; do nc <- read_u32 file ; ret (R1csHeader fs prime nw npo npi nprv nl nc))).
    { intros fs prime. repeat (apply idle_bind; [first [apply idle_u32|apply idle_u64]|intros]). apply idle_ret. }
    unfold parse_header. split.
    - unfold mbind at 1. pose proof (idle_u32 s) as H0. destruct (read_u32 file s) as [[fs|e|] s1] eqn:E; cbn [snd] in *;
        [|rewrite H0; lia..].
      apply read_u32_lt in E. unfold mbind at 1. cbn [reserve].
      match goal with |- context [mbind (read_exact file fs) ?k ?t] =>
        assert (Hi : idle (mbind (read_exact file fs) k)) by (apply idle_bind; [apply idle_read_exact|intros; apply Hrest]);
        rewrite (Hi t) end.
      cbn [reserved sum]. rewrite H0. lia.
    - intros h s' H. apply mbind_ok in H as (fs&s1&H1&H). pose proof (idle_u32 s) as I1. rewrite H1 in I1. cbn [snd] in I1.
      apply read_u32_lt in H1. apply mbind_ok in H as (u&s2&H2&H). injection H2 as <- <-.
      apply mbind_ok in H as (pr&s3&H3&H). pose proof (idle_read_exact fs (RState (rpos s1) (fs :: reserved s1))) as I3.
      rewrite H3 in I3. cbn [snd reserved] in I3.
      assert (Hfs : fs <= blen file).
      { unfold read_exact in H3. destruct (N.eqb_spec fs 0) as [->|Hn]; [lia|]. destruct slice as [b|] eqn:Es; [|discriminate].
        apply slice_some in Es as (l1&l2&Ef&_&Hl). rewrite Ef, !blen_app. lia. }
      pose proof (Hrest fs pr s3) as I4. rewrite H in I4. cbn [snd] in I4. rewrite I4, I3. cbn [sum]. rewrite I1.
      repeat (apply mbind_ok in H as (?&?&?&H)). injection H as <- _. cbn [h_field_size h_n_wires h_n_constraints].
      split; [lia|]. split; [exact H1|]. split; eapply read_u32_lt; eassumption.
  Qed.

  Lemma idle_labels n : idle (mmany n (read_u64 file)).
  Proof. apply idle_mmany, idle_u64. Qed.

  Lemma constraints_cost n fs s : n < 2 ^ 32 -> fs < 2 ^ 32 ->
    sum (reserved (snd (parse_constraints file n fs s))) <= sum (reserved s) + 8 * blen file + 105 * 2 ^ 32 /\
    forall l s', parse_constraints file n fs s = (Ok l, s') -> sum (reserved s') <= sum (reserved s) + 8 * blen file.
  Proof.
    intros Hn Hf. destruct (pays_constraints n fs Hn Hf s) as [H1 H2]. unfold phi in H2.
    split.
    - destruct (fst _); lia.
    - intros l s' E. rewrite E in H1, H2. cbn [fst snd] in H1, H2. lia.
  Qed.

  Lemma total_bounds_aux mx o s' :
    from_bytes_m file mx (RState 0 []) = (o, s') ->
    sum (reserved s') <= 8 * blen file + 114 * 2 ^ 32 /\
    forall r, o = Ok r -> sum (reserved s') <= 9 * blen file + 8 * r_n_wires r.
  Proof.
    unfold from_bytes_m. set (s0 := RState 0 []). assert (H0 : sum (reserved s0) = 0) by reflexivity. clearbody s0.
    unfold mbind at 1. pose proof (idle_sections mx s0) as I1.
    destruct (read_sections file mx s0) as [[secs|e|] s1]; cbn [fst snd] in *;
      [|intros H; injection H as <- <-; rewrite I1; split; [lia|discriminate]..].
    destruct (find_section 1 secs) as [p|]; [|intros H; injection H as <- <-; rewrite I1; split; [lia|discriminate]].
    unfold mbind at 1. pose proof (idle_seek_start mx p s1) as I2.
    destruct (seek_start mx p s1) as [[u|e|] s2]; cbn [fst snd] in *;
      [|intros H; injection H as <- <-; rewrite I2, I1; split; [lia|discriminate]..].
    unfold mbind at 1. destruct (header_cost s2) as [Hc1 Hc2].
    destruct (parse_header file s2) as [[h|e|] s3]; cbn [fst snd] in *;
      [|intros H; injection H as <- <-; rewrite I2, I1 in Hc1; split; [lia|discriminate]..].
    destruct (Hc2 h s3 eq_refl) as (Hc3&Hfs&Hnw&Hnc). rewrite I2, I1 in Hc1, Hc3.
    destruct (find_section 2 secs) as [p2|]; [|intros H; injection H as <- <-; split; [lia|discriminate]].
    unfold mbind at 1. pose proof (idle_seek_start mx p2 s3) as I4.
    destruct (seek_start mx p2 s3) as [[u'|e|] s4]; cbn [fst snd] in *;
      [|intros H; injection H as <- <-; rewrite I4; split; [lia|discriminate]..].
    unfold mbind at 1. destruct (constraints_cost (h_n_constraints h) (h_field_size h) s4 Hnc Hfs) as [Hd1 Hd2].
    destruct (parse_constraints file _ _ s4) as [[cs|e|] s5]; cbn [fst snd] in *;
      [|intros H; injection H as <- <-; rewrite I4 in Hd1; split; [lia|discriminate]..].
    specialize (Hd2 cs s5 eq_refl). rewrite I4 in Hd2.
    destruct (find_section 3 secs) as [p3|].
    - unfold mbind. pose proof (idle_seek_start mx p3 s5) as I6.
      destruct (seek_start mx p3 s5) as [[u6|e|] s6]; cbn [fst snd] in *;
        [|intros H; injection H as <- <-; rewrite I6; split; [lia|discriminate]..].
      unfold parse_wire2label. unfold mbind, reserve, ret.
      match goal with |- context [mmany ?n ?m ?s] => pose proof (idle_labels n s) as I7; destruct (mmany n m s) as [[wl|e|] s7] end;
        cbn [fst snd ret reserved] in *; intros H; injection H as <- <-; rewrite I7; cbn [sum]; rewrite I6; (split; [lia|]); intros r Hr;
        try discriminate. injection Hr as <-. cbn [r_n_wires]. lia.
    - unfold mbind, reserve, ret. cbn [fst snd reserved]. intros H; injection H as <- <-. cbn [reserved sum].
      split; [lia|]. intros r Hr. injection Hr as <-. cbn [r_n_wires]. lia.
  Qed.

  Lemma total_bounds mx :
    sum (r1cs_reservations mx file) <= 8 * blen file + 114 * 2 ^ 32 /\
    forall r, r1cs_from_bytes mx file = Ok r -> sum (r1cs_reservations mx file) <= 9 * blen file + 8 * r_n_wires r.
  Proof.
    unfold r1cs_reservations, r1cs_from_bytes. rewrite sum_rev.
    destruct (from_bytes_m file mx (RState 0 [])) as [o s'] eqn:E. apply total_bounds_aux in E. exact E.
  Qed.
End Bounds.
