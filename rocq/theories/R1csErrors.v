(** Which error the command-line r1cs reader gives. *)
From Coq Require Import List Bool Arith NArith ZArith Lia.
From Coq Require Import Strings.Byte.
From Verif Require Import Res Bytes Reader R1cs SpecR1cs R1csFacts R1csMore R1csJs R1csJsFacts R1csJsPanic SpecR1csExact R1csExact.
Import ListNotations.
Local Open Scope N_scope.
Local Open Scope rd_scope.

Lemma mbind_err {S E A B} (m : M S E A) (k : A -> M S E B) s e s' :
  mbind m k s = (Err e, s') -> m s = (Err e, s') \/ exists a s1, m s = (Ok a, s1) /\ k a s1 = (Err e, s').
Proof. unfold mbind. destruct (m s) as [[a|e'|] s1]; intros H; [right; eauto|left; injection H as <- <-; reflexivity|discriminate]. Qed.

Definition only_io {A} (m : R A) : Prop := forall s e s', m s = (Err e, s') -> e = IoError.
Lemma oi_bind {A B} (m : R A) (k : A -> R B) : only_io m -> (forall a, only_io (k a)) -> only_io (mbind m k).
Proof. intros Hm Hk s e s' H. apply mbind_err in H as [H|(a&s1&_&H)]; [exact (Hm _ _ _ H)|exact (Hk _ _ _ _ H)]. Qed.
Lemma oi_ret {A} (a : A) : only_io (ret a). Proof. intros s e s' H. discriminate. Qed.
Lemma oi_read f n : only_io (read_exact f n).
Proof. intros s e s'. unfold read_exact. destruct (n =? 0); [discriminate|]. destruct (slice _ _ _); [discriminate|]. intros H. injection H as <- _. reflexivity. Qed.
Lemma oi_reserve n : only_io (reserve n). Proof. intros s e s' H. discriminate. Qed.
Lemma oi_pos : only_io get_pos. Proof. intros s e s' H. discriminate. Qed.
Lemma oi_start mx p : only_io (seek_start mx p).
Proof. intros s e s'. unfold seek_start. destruct (_ <=? _); [discriminate|]. intros H. injection H as <- _. reflexivity. Qed.
Lemma oi_rel mx d : only_io (seek_relative mx d).
Proof. intros s e s'. unfold seek_relative. destruct (_ && _); [discriminate|]. intros H. injection H as <- _. reflexivity. Qed.
Create HintDb oi. #[export] Hint Resolve oi_ret oi_read oi_reserve oi_pos oi_start oi_rel : oi.
Lemma oi_mlist {A} n (m : R A) : only_io m -> only_io (mlist n m).
Proof. intros Hm. induction n; [apply oi_ret|]. cbn [mlist]. apply oi_bind; [exact Hm|]. intros a. apply oi_bind; [exact IHn|]. auto with oi. Qed.
Lemma oi_mmany {A} n (m : R A) : only_io m -> only_io (mmany n m).
Proof. intros Hm s e s'. rewrite mmany_spec. apply oi_mlist, Hm. Qed.
Lemma oi_u32 f : only_io (read_u32 f). Proof. apply oi_bind; auto with oi. Qed.
Lemma oi_u64 f : only_io (read_u64 f). Proof. apply oi_bind; auto with oi. Qed.
#[export] Hint Resolve oi_u32 oi_u64 : oi.
Ltac oi := repeat (first [apply oi_bind; [solve [auto with oi]|intros ?] | solve [auto with oi]]).
Lemma oi_section f mx : only_io (read_section f mx). Proof. unfold read_section. oi. Qed.
Lemma oi_header f : only_io (parse_header f). Proof. unfold parse_header. oi. Qed.
Lemma oi_factor f fs : only_io (parse_factor f fs). Proof. unfold parse_factor. oi. Qed.
Lemma oi_lc f fs : only_io (parse_lc f fs). Proof. unfold parse_lc. oi. apply oi_mmany, oi_factor. Qed.
#[export] Hint Resolve oi_section oi_header oi_factor oi_lc : oi.
Lemma oi_constraint f fs : only_io (parse_constraint f fs). Proof. unfold parse_constraint. oi. Qed.
Lemma oi_constraints f n fs : only_io (parse_constraints f n fs). Proof. unfold parse_constraints. oi. apply oi_mmany, oi_constraint. Qed.
Lemma oi_labels f n : only_io (parse_wire2label f n). Proof. unfold parse_wire2label. oi. apply oi_mmany, oi_u64. Qed.

Lemma header_fits_iff f p log : p <= blen f -> ((exists h s, parse_header f (RState p log) = (Ok h, s)) <-> header_fits f p).
Proof.
  intros Hp. split.
  - intros (h&s&H). apply sound_header in H as (Oe&Hf&Hl&_). specialize (Oe [] []). cbn [rpos] in Oe.
    apply occ_here in Oe; [|exact Hp]. unfold header_payload in Oe.
    cbn [r_field_size r_prime r_n_wires r_n_pub_out r_n_pub_in r_n_prv_in r_n_labels r_n_constraints] in Oe.
    exists (h_field_size h). split; [exact Hf|]. split; [apply occurs_app in Oe; tauto|].
    apply occurs_le in Oe. rewrite !blen_app, !blen_u32, !blen_u64, Hl in Oe. lia.
  - intros (fs&Hf&Ho&Hl).
    assert (Hcut : forall q k, q + k <= blen f -> exists b, occurs f q b /\ blen b = k).
    { intros q k H. destruct (slice f q k) as [b|] eqn:E; [|apply slice_none in E; lia].
      apply slice_some in E as (pre&rest&Hff&Hpp&Hb). exists b. split; [exists pre, rest; auto|exact Hb]. }
    assert (H4 : forall q, q + 4 <= blen f -> exists v, v < 2 ^ 32 /\ occurs f q (u32 v)).
    { intros q H. destruct (Hcut q 4 H) as (b&Ob&Lb). exists (le_val b). unfold blen in Lb. unfold u32.
      replace 4%nat with (List.length b) by lia. rewrite le_bytes_le_val. split; [|exact Ob].
      pose proof (le_val_bound b) as Hv. rewrite Lb in Hv. exact Hv. }
    assert (H8 : forall q, q + 8 <= blen f -> exists v, v < 2 ^ 64 /\ occurs f q (u64 v)).
    { intros q H. destruct (Hcut q 8 H) as (b&Ob&Lb). exists (le_val b). unfold blen in Lb. unfold u64.
      replace 8%nat with (List.length b) by lia. rewrite le_bytes_le_val. split; [|exact Ob].
      pose proof (le_val_bound b) as Hv. rewrite Lb in Hv. exact Hv. }
    destruct (Hcut (p + 4) fs ltac:(lia)) as (prime&O0&L0).
    destruct (H4 (p + 4 + fs) ltac:(lia)) as (v1&B1&O1). destruct (H4 (p + 4 + fs + 4) ltac:(lia)) as (v2&B2&O2).
    destruct (H4 (p + 4 + fs + 4 + 4) ltac:(lia)) as (v3&B3&O3). destruct (H4 (p + 4 + fs + 4 + 4 + 4) ltac:(lia)) as (v4&B4&O4).
    destruct (H8 (p + 4 + fs + 4 + 4 + 4 + 4) ltac:(lia)) as (v5&B5&O5). destruct (H4 (p + 4 + fs + 4 + 4 + 4 + 4 + 8) ltac:(lia)) as (v6&B6&O6).
    set (r := R1csFile fs prime v1 v2 v3 v4 v5 v6 (repeat (Constraint [] [] []) (N.to_nat v6)) (repeat 0 (N.to_nat v1))).
    assert (Hr : r1cs_ok r).
    { constructor; cbn [r r_field_size r_prime r_n_wires r_n_pub_out r_n_pub_in r_n_prv_in r_n_labels r_n_constraints r_constraints r_wire2label]; auto.
      - apply Forall_forall. intros c Hc. apply repeat_spec in Hc. subst c. repeat split; constructor.
      - rewrite repeat_length. apply N2Nat.id.
      - apply Forall_forall. intros c Hc. apply repeat_spec in Hc. subst c. reflexivity.
      - rewrite repeat_length. apply N2Nat.id. }
    destruct (yields_header f r Hr (RState p log)) as [log' E]; [|eexists _, _; exact E].
    unfold header_payload, r. cbn [rpos r_field_size r_prime r_n_wires r_n_pub_out r_n_pub_in r_n_prv_in r_n_labels r_n_constraints].
    apply occurs_app. rewrite blen_u32. split; [exact Ho|]. apply occurs_app. rewrite L0. split; [exact O0|].
    apply occurs_app. rewrite blen_u32. split; [exact O1|]. apply occurs_app. rewrite blen_u32. split; [exact O2|].
    apply occurs_app. rewrite blen_u32. split; [exact O3|]. apply occurs_app. rewrite blen_u32. split; [exact O4|].
    apply occurs_app. rewrite blen_u64. split; [exact O5|exact O6].
Qed.

Lemma err_ne_io {A} (m : R A) s e s' : only_io m -> m s = (Err e, s') -> e <> IoError -> False.
Proof. intros H E N. apply N. exact (H _ _ _ E). Qed.

(** The first pass on its own. *)
Lemma sections_errors f mx e s' : read_sections f mx (RState 0 []) = (Err e, s') ->
  e = IoError \/
  (e = WrongMagic /\ exists b, blen b = 4 /\ occurs f 0 b /\ b <> ascii_r1cs) \/
  (e = WrongVersion /\ exists v, v < 2 ^ 32 /\ v <> 1 /\ occurs f 0 (ascii_r1cs ++ u32 v)).
Proof.
  intros H. unfold read_sections in H. apply mbind_err in H as [H|(m&s1&H1&H)]; [left; exact (oi_read _ _ _ _ _ H)|].
  pose proof (sound_read_exact _ _ _ _ _ H1) as (Lm&O1&P1). cbn [rpos] in *.
  assert (Hp : s1 = RState 4 []).
  { unfold read_exact in H1. change (4 =? 0) with false in H1. cbv iota in H1. destruct (slice _ _ _); [|discriminate]. injection H1 as _ <-. reflexivity. }
  destruct O1 as [O1|O1]; [subst m; discriminate Lm|].
  destruct (bytes_eqb m magic_r1cs) eqn:Em.
  2: { injection H as <- _. right. left. split; [reflexivity|]. exists m. split; [exact Lm|]. split; [exact O1|].
       intros ->. change (bytes_eqb ascii_r1cs magic_r1cs) with true in Em. discriminate. }
  apply bytes_eqb_eq in Em. subst m. subst s1.
  apply mbind_err in H as [H|(v&s2&H2&H)]; [left; exact (oi_u32 _ _ _ _ H)|]. apply u32_at_iff in H2 as (Wv&O2&->).
  destruct (N.eqb_spec v 1) as [->|Hv].
  2: { injection H as <- _. right. right. split; [reflexivity|]. exists v. split; [exact Wv|]. split; [exact Hv|]. apply occurs_app. auto. }
  left. apply mbind_err in H as [H|(n&s3&_&H)]; [exact (oi_u32 _ _ _ _ H)|]. exact (oi_mmany _ _ (oi_section f mx) _ _ _ H).
Qed.

Section Errors.
  Variable f : list byte.
  Variable mx : N.
  Hypothesis Hmax : blen f <= mx.

  Lemma magic_here m : occurs f 0 m -> blen m = 4 -> read_exact f 4 (RState 0 []) = (Ok m, RState 4 []).
  Proof. intros O L. unfold read_exact. change (4 =? 0) with false. cbv iota. cbn [rpos reserved]. apply occurs_slice in O. rewrite L in O. rewrite O. reflexivity. Qed.

  Theorem wrong_magic_iff : r1cs_from_bytes mx f = Err WrongMagic <-> exists b, blen b = 4 /\ occurs f 0 b /\ b <> ascii_r1cs.
  Proof.
    unfold r1cs_from_bytes. split.
    - destruct (from_bytes_m f mx (RState 0 [])) as [o s] eqn:E. cbn [fst]. intros ->. unfold from_bytes_m in E.
      apply mbind_err in E as [E|(tab&s1&_&E)].
      { apply sections_errors in E as [E|[[_ E]|[E _]]]; [discriminate|exact E|discriminate]. }
      exfalso. destruct (find_section 1 tab); [|discriminate].
      apply mbind_err in E as [E|(?&?&_&E)]; [apply oi_start in E; discriminate|].
      apply mbind_err in E as [E|(?&?&_&E)]; [apply oi_header in E; discriminate|].
      destruct (find_section 2 tab); [|discriminate].
      apply mbind_err in E as [E|(?&?&_&E)]; [apply oi_start in E; discriminate|].
      apply mbind_err in E as [E|(?&?&_&E)]; [apply oi_constraints in E; discriminate|].
      apply mbind_err in E as [E|(?&?&_&E)]; [|discriminate]. destruct (find_section 3 tab); [|discriminate].
      apply mbind_err in E as [E|(?&?&_&E)]; [apply oi_start in E; discriminate|]. apply oi_labels in E. discriminate.
    - intros (b&Lb&Ob&Nb). unfold from_bytes_m, read_sections. unfold mbind at 1. unfold mbind at 1. rewrite (magic_here b Ob Lb).
      destruct (bytes_eqb b magic_r1cs) eqn:Em; [exfalso; apply bytes_eqb_eq in Em; exact (Nb Em)|]. reflexivity.
  Qed.
  Theorem wrong_version_iff : r1cs_from_bytes mx f = Err WrongVersion <->
    exists v, v < 2 ^ 32 /\ v <> 1 /\ occurs f 0 (ascii_r1cs ++ u32 v).
  Proof.
    unfold r1cs_from_bytes. split.
    - destruct (from_bytes_m f mx (RState 0 [])) as [o s] eqn:E. cbn [fst]. intros ->. unfold from_bytes_m in E.
      apply mbind_err in E as [E|(tab&s1&_&E)].
      { apply sections_errors in E as [E|[[E _]|[_ E]]]; [discriminate|discriminate|exact E]. }
      exfalso. destruct (find_section 1 tab); [|discriminate].
      apply mbind_err in E as [E|(?&?&_&E)]; [apply oi_start in E; discriminate|].
      apply mbind_err in E as [E|(?&?&_&E)]; [apply oi_header in E; discriminate|].
      destruct (find_section 2 tab); [|discriminate].
      apply mbind_err in E as [E|(?&?&_&E)]; [apply oi_start in E; discriminate|].
      apply mbind_err in E as [E|(?&?&_&E)]; [apply oi_constraints in E; discriminate|].
      apply mbind_err in E as [E|(?&?&_&E)]; [|discriminate]. destruct (find_section 3 tab); [|discriminate].
      apply mbind_err in E as [E|(?&?&_&E)]; [apply oi_start in E; discriminate|]. apply oi_labels in E. discriminate.
    - intros (v&Wv&Nv&O). apply occurs_app in O as [O1 O2]. unfold from_bytes_m, read_sections. unfold mbind at 1. unfold mbind at 1.
      rewrite (magic_here _ O1 eq_refl). change (bytes_eqb ascii_r1cs magic_r1cs) with true. cbv iota. unfold mbind at 1.
      rewrite (proj2 (u32_at_iff f 4 [] v (RState (4 + 4) [])) (conj Wv (conj O2 eq_refl))).
      destruct (N.eqb_spec v 1) as [E|_]; [exfalso; exact (Nv E)|]. reflexivity.
  Qed.
  Theorem no_header_iff : r1cs_from_bytes mx f = Err HeaderNotFound <-> exists l, cli_table f mx l /\ ~ In 1 (map fst l).
  Proof.
    unfold r1cs_from_bytes. split.
    - destruct (from_bytes_m f mx (RState 0 [])) as [o s] eqn:E. cbn [fst]. intros ->. unfold from_bytes_m in E.
      apply mbind_err in E as [E|(tab&s1&E1&E)].
      { apply sections_errors in E as [E|[[E _]|[E _]]]; discriminate. }
      apply table_iff in E1. destruct (find_section 1 tab) eqn:F1; [exfalso|exists (map entry tab); split; [exact E1|apply find_none_first; exact F1]].
      apply mbind_err in E as [E|(?&?&_&E)]; [apply oi_start in E; discriminate|].
      apply mbind_err in E as [E|(?&?&_&E)]; [apply oi_header in E; discriminate|].
      destruct (find_section 2 tab); [|discriminate].
      apply mbind_err in E as [E|(?&?&_&E)]; [apply oi_start in E; discriminate|].
      apply mbind_err in E as [E|(?&?&_&E)]; [apply oi_constraints in E; discriminate|].
      apply mbind_err in E as [E|(?&?&_&E)]; [|discriminate]. destruct (find_section 3 tab); [|discriminate].
      apply mbind_err in E as [E|(?&?&_&E)]; [apply oi_start in E; discriminate|]. apply oi_labels in E. discriminate.
    - intros (l&T&H1). destruct (table_found f mx l T) as (tab&q&E&El). rewrite <- El in H1. apply find_none_first in H1.
      unfold from_bytes_m. unfold mbind at 1. rewrite E, H1. reflexivity.
  Qed.
  Theorem no_constraints_iff : r1cs_from_bytes mx f = Err ConstraintsNotFound <->
    exists l p1, cli_table f mx l /\ first_of 1 l p1 /\ header_fits f p1 /\ ~ In 2 (map fst l).
  Proof.
    unfold r1cs_from_bytes. split.
    - destruct (from_bytes_m f mx (RState 0 [])) as [o s] eqn:E. cbn [fst]. intros ->. unfold from_bytes_m in E.
      apply mbind_err in E as [E|(tab&s1&E1&E)].
      { apply sections_errors in E as [E|[[E _]|[E _]]]; discriminate. }
      apply table_iff in E1. destruct (find_section 1 tab) as [p1|] eqn:F1; [|discriminate]. apply find_first in F1.
      pose proof (table_start _ _ _ _ _ E1 F1) as L1.
      apply mbind_err in E as [E|(?&?&Es&E)]; [apply oi_start in E; discriminate|]. rewrite seek_start_ok in Es by lia. injection Es as _ <-.
      apply mbind_err in E as [E|(h&?&Eh&E)]; [apply oi_header in E; discriminate|].
      destruct (find_section 2 tab) eqn:F2.
      2: { exists (map entry tab), p1. split; [exact E1|]. split; [exact F1|]. split; [|apply find_none_first; exact F2].
           apply (header_fits_iff f p1 (reserved s1) L1). eexists _, _; exact Eh. }
      exfalso. apply mbind_err in E as [E|(?&?&_&E)]; [apply oi_start in E; discriminate|].
      apply mbind_err in E as [E|(?&?&_&E)]; [apply oi_constraints in E; discriminate|].
      apply mbind_err in E as [E|(?&?&_&E)]; [|discriminate]. destruct (find_section 3 tab); [|discriminate].
      apply mbind_err in E as [E|(?&?&_&E)]; [apply oi_start in E; discriminate|]. apply oi_labels in E. discriminate.
    - intros (l&p1&T&F1&Hh&H2). pose proof (table_start _ _ _ _ _ T F1) as L1. destruct (table_found f mx l T) as (tab&q&E&El).
      rewrite <- El in F1, H2. apply find_first in F1. apply find_none_first in H2.
      unfold from_bytes_m. unfold mbind at 1. rewrite E, F1. unfold mbind at 1. rewrite seek_start_ok by lia. cbn [reserved].
      apply (header_fits_iff f p1 [] L1) in Hh as (h&s&Eh). unfold mbind at 1. rewrite Eh, H2. reflexivity.
  Qed.
End Errors.
