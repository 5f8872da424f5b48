(** Truncation, missing sections, absence of panics and reservations of the CLI r1cs reader. *)
From Coq Require Import List Bool Arith NArith ZArith Lia.
From Coq Require Import Strings.Byte.
From Verif Require Import Res Bytes Reader R1cs SpecR1cs R1csFacts.
Import ListNotations.
Local Open Scope N_scope.
Local Open Scope rd_scope.

(** ** No panic *)
Definition never_panics {A} (m : R A) : Prop := forall s, fst (m s) <> Panic.

Lemma np_bind {A B} (m : R A) (k : A -> R B) :
  never_panics m -> (forall a, never_panics (k a)) -> never_panics (mbind m k).
Proof.
  intros H1 H2 s. unfold mbind. specialize (H1 s). destruct (m s) as [[a|e|] s1]; cbn in *.
  - apply H2.
  - discriminate.
  - congruence.
Qed.
Lemma np_ret {A} (a : A) : never_panics (ret a). Proof. intros s. discriminate. Qed.
Lemma np_fail {A} e : never_panics (fail (A := A) e). Proof. intros s. discriminate. Qed.
Lemma np_read_exact f n : never_panics (read_exact f n).
Proof. intros s. unfold read_exact. destruct (n =? 0); [discriminate|]. destruct slice; discriminate. Qed.
Lemma np_reserve n : never_panics (reserve n). Proof. intros s. discriminate. Qed.
Lemma np_seek_start mx p : never_panics (seek_start mx p).
Proof. intros s. unfold seek_start. destruct (p <=? mx); discriminate. Qed.
Lemma np_seek_rel mx d : never_panics (seek_relative mx d).
Proof. intros s. unfold seek_relative. destruct (_ && _)%bool; discriminate. Qed.
Lemma np_get_pos : never_panics get_pos. Proof. intros s. discriminate. Qed.
Lemma np_mmany {A} n (m : R A) : never_panics m -> never_panics (mmany n m).
Proof.
  intros H s. rewrite mmany_spec.
  refine (proj1 (mlist_no_panic (fun _ => True) m _ (N.to_nat n) s I)). auto.
Qed.
Opaque mmany.
Create HintDb np.
#[global] Hint Resolve np_bind np_ret np_fail np_read_exact np_reserve np_seek_start np_seek_rel np_get_pos np_mmany : np.
Lemma np_u32 f : never_panics (read_u32 f). Proof. apply np_bind; auto with np. Qed.
Lemma np_u64 f : never_panics (read_u64 f). Proof. apply np_bind; auto with np. Qed.
#[global] Hint Resolve np_u32 np_u64 : np.
Lemma np_section f mx : never_panics (read_section f mx).
Proof. unfold read_section. repeat (apply np_bind; auto with np; intros). Qed.
Lemma np_header f : never_panics (parse_header f).
Proof. unfold parse_header. repeat (apply np_bind; auto with np; intros). Qed.
Lemma np_lc f fs : never_panics (parse_lc f fs).
Proof.
  unfold parse_lc. repeat (apply np_bind; auto with np; intros). apply np_mmany.
  unfold parse_factor. repeat (apply np_bind; auto with np; intros).
Qed.
Lemma np_constraints f n fs : never_panics (parse_constraints f n fs).
Proof.
  unfold parse_constraints. apply np_bind; auto with np; intros _. apply np_mmany.
  unfold parse_constraint. repeat (apply np_bind; auto using np_lc with np; intros).
Qed.
Lemma np_sections f mx : never_panics (read_sections f mx).
Proof.
  unfold read_sections. apply np_bind; auto with np; intros m.
  destruct (bytes_eqb m magic_r1cs); auto with np.
  apply np_bind; auto with np; intros v. destruct (v =? 1); auto with np.
  apply np_bind; auto with np; intros n. apply np_mmany. apply np_section.
Qed.

Theorem r1cs_no_panic max_off f : r1cs_from_bytes max_off f <> Panic.
Proof.
  unfold r1cs_from_bytes. generalize (RState 0 []).
  enough (H : never_panics (from_bytes_m f max_off)) by exact H.
  unfold from_bytes_m. apply np_bind; [apply np_sections|]. intros secs.
  destruct (find_section 1 secs) as [p|]; auto with np.
  apply np_bind; auto with np; intros _. apply np_bind; [apply np_header|]. intros h.
  destruct (find_section 2 secs) as [p2|]; auto with np.
  apply np_bind; auto with np; intros _. apply np_bind; [apply np_constraints|]. intros cs.
  apply np_bind; [|auto with np]. destruct (find_section 3 secs) as [p3|].
  - apply np_bind; auto with np. intros _. unfold parse_wire2label. apply np_bind; auto with np.
  - apply np_bind; auto with np.
Qed.

(** ** Reading a prefix of a file: success carries over to the longer file. *)
Section Mono.
  Variables (g t : list byte) (mx : N).
  Let f := g ++ t.
  Definition mono {A} (m m' : R A) : Prop := forall s a s', m s = (Ok a, s') -> m' s = (Ok a, s').

  Lemma mono_refl {A} (m : R A) : mono m m. Proof. intros s a s' H; exact H. Qed.
  Lemma mono_bind {A B} (m m' : R A) (k k' : A -> R B) :
    mono m m' -> (forall a, mono (k a) (k' a)) -> mono (mbind m k) (mbind m' k').
  Proof.
    intros H1 H2 s b s' H. apply mbind_ok in H. destruct H as (a&s1&E1&E2).
    unfold mbind. rewrite (H1 _ _ _ E1). apply H2. exact E2.
  Qed.
  Lemma mono_read_exact n : mono (read_exact g n) (read_exact f n).
  Proof.
    intros s a s'. unfold read_exact. destruct (n =? 0); [auto|].
    destruct (slice g (rpos s) n) as [b|] eqn:E; [|discriminate].
    unfold f. rewrite (slice_mono _ _ _ _ _ E). auto.
  Qed.
  Lemma mono_mlist {A} (m m' : R A) n : mono m m' -> mono (mlist n m) (mlist n m').
  Proof.
    intros H. induction n; cbn [mlist]; [apply mono_refl|].
    apply mono_bind; [exact H|]. intros a. apply mono_bind; [exact IHn|]. intros; apply mono_refl.
  Qed.
  Lemma mono_mmany {A} (m m' : R A) n : mono m m' -> mono (mmany n m) (mmany n m').
  Proof. intros H s a s'. rewrite !mmany_spec. apply mono_mlist. exact H. Qed.
  Lemma mono_u32 : mono (read_u32 g) (read_u32 f).
  Proof. apply mono_bind; [apply mono_read_exact|intros; apply mono_refl]. Qed.
  Lemma mono_u64 : mono (read_u64 g) (read_u64 f).
  Proof. apply mono_bind; [apply mono_read_exact|intros; apply mono_refl]. Qed.
  Ltac mono_tac := repeat first
    [ apply mono_refl | apply mono_u32 | apply mono_u64 | apply mono_read_exact
    | apply mono_bind; [|intros] ].
  Lemma mono_section : mono (read_section g mx) (read_section f mx).
  Proof. unfold read_section. mono_tac. Qed.
  Lemma mono_header : mono (parse_header g) (parse_header f).
  Proof. unfold parse_header. mono_tac. Qed.
  Lemma mono_lc fs : mono (parse_lc g fs) (parse_lc f fs).
  Proof. unfold parse_lc. mono_tac. apply mono_mmany. unfold parse_factor. mono_tac. Qed.
  Lemma mono_constraints n fs : mono (parse_constraints g n fs) (parse_constraints f n fs).
  Proof.
    unfold parse_constraints. apply mono_bind; [apply mono_refl|intros _]. apply mono_mmany.
    unfold parse_constraint. do 3 (apply mono_bind; [apply mono_lc|intros]). apply mono_refl.
  Qed.
  Lemma mono_labels n : mono (parse_wire2label g n) (parse_wire2label f n).
  Proof. unfold parse_wire2label. mono_tac. apply mono_mmany. mono_tac. Qed.
  Lemma mono_sections : mono (read_sections g mx) (read_sections f mx).
  Proof.
    unfold read_sections. apply mono_bind; [apply mono_read_exact|intros m].
    destruct (bytes_eqb m magic_r1cs); [|apply mono_refl].
    apply mono_bind; [apply mono_u32|intros v]. destruct (v =? 1); [|apply mono_refl].
    apply mono_bind; [apply mono_u32|intros n]. apply mono_mmany. apply mono_section.
  Qed.
  Lemma mono_from_bytes r : r1cs_from_bytes mx g = Ok r -> r1cs_from_bytes mx f = Ok r.
  Proof.
    unfold r1cs_from_bytes. destruct (from_bytes_m g mx (RState 0 [])) as [x s9] eqn:E.
    cbn [fst]. intros ->.
    assert (H : mono (from_bytes_m g mx) (from_bytes_m f mx)).
    { unfold from_bytes_m. apply mono_bind; [apply mono_sections|intros secs].
      destruct (find_section 1 secs) as [p|]; [|apply mono_refl].
      apply mono_bind; [apply mono_refl|intros _]. apply mono_bind; [apply mono_header|intros h].
      destruct (find_section 2 secs) as [p2|]; [|apply mono_refl].
      apply mono_bind; [apply mono_refl|intros _]. apply mono_bind; [apply mono_constraints|intros cs].
      apply mono_bind; [|intros; apply mono_refl]. destruct (find_section 3 secs) as [p3|]; [|apply mono_refl].
      apply mono_bind; [apply mono_refl|intros _]. apply mono_labels. }
    rewrite (H _ _ _ E). reflexivity.
  Qed.
End Mono.

(** ** Truncation *)
Lemma table_app p a b : table p (a ++ b) = table p a ++ table (p + blen (flat_map section_bytes a)) b.
Proof.
  revert p; induction a as [|x a IH]; intros p; cbn [app table flat_map].
  - rewrite blen_nil, N.add_0_r. reflexivity.
  - rewrite IH, blen_app, N.add_assoc. reflexivity.
Qed.

Lemma find_table_split ty p before payload after :
  ~ In ty (map fst before) ->
  find_section ty (table p (before ++ (ty, payload) :: after)) =
  Some (p + blen (flat_map section_bytes before) + 12).
Proof.
  intros H. unfold find_section. rewrite table_app.
  assert (E : find (fun x : N * N * N => fst (fst x) =? ty) (table p before) = None).
  { clear - H. revert p H. induction before as [|x l IH]; intros p H; [reflexivity|].
    cbn [table find fst]. destruct (N.eqb_spec (fst x) ty) as [E|E].
    - exfalso. apply H. left. exact E.
    - apply IH. intros Hc. apply H. right. exact Hc. }
  assert (Ef : forall (A : Type) (q : A -> bool) l l', find q l = None -> find q (l ++ l') = find q l').
  { intros A q l l'. induction l as [|y l IH]; cbn; [auto|]. destruct (q y); [discriminate|auto]. }
  rewrite Ef by exact E. cbn [table find fst snd]. rewrite N.eqb_refl. reflexivity.
Qed.

Lemma payload_of_split ty before payload after :
  ~ In ty (map fst before) -> payload_of ty (before ++ (ty, payload) :: after) = Some payload.
Proof.
  intros H. unfold payload_of. induction before as [|x l IH].
  - cbn. rewrite N.eqb_refl. reflexivity.
  - cbn [app find]. destruct (N.eqb_spec (fst x) ty) as [E|E].
    + exfalso. apply H. left. exact E.
    + apply IH. intros Hc. apply H. right. exact Hc.
Qed.

(** The content of the section of type [ty] that the reader needs. *)
Definition needed (ty : N) (r : r1cs_file) : option (list byte) :=
  if ty =? 1 then Some (header_payload r) else if ty =? 2 then Some (constraints_payload r)
  else if ty =? 3 then Some (labels_payload r) else None.

Theorem r1cs_truncated max_off r before payload after ty content g :
  let secs := before ++ (ty, payload) :: after in
  r1cs_ok r -> carries secs r ->
  N.of_nat (length secs) < 2 ^ 32 -> Forall (fun s => fst s < 2 ^ 32) secs ->
  max_off < 2 ^ 63 -> blen (r1cs_bytes secs) <= max_off ->
  ~ In ty (map fst before) -> needed ty r = Some content ->
  starts_with (r1cs_bytes secs) g ->
  blen g < blen (ascii_r1cs ++ u32 1 ++ u32 0 ++ flat_map section_bytes before ++ u32 ty ++ u64 0 ++ content) ->
  is_err (r1cs_from_bytes max_off g).
Proof.
  intros secs Hr Hc Hn Ht Hm Hf Hnin Hneed [t Hg] Hlen.
  pose proof (r1cs_no_panic max_off g) as Hnp.
  destruct (r1cs_from_bytes max_off g) as [r'|e|] eqn:E; [exfalso|exact I|congruence]. clear Hnp.
  assert (Er : r' = r).
  { pose proof (r1cs_roundtrip max_off secs r Hr Hc Hn Ht Hm Hf) as H1.
    rewrite Hg in H1. rewrite (mono_from_bytes g t max_off r' E) in H1. congruence. }
  subst r'.
  set (q := 12 + blen (flat_map section_bytes before) + 12).
  assert (Hq : q + blen content <= blen g -> False).
  { intros H. rewrite !blen_app, !blen_u32, blen_u64 in Hlen. change (blen ascii_r1cs) with 4 in Hlen.
    unfold q in H. lia. }
  unfold r1cs_from_bytes in E. destruct (from_bytes_m g max_off (RState 0 [])) as [x s9] eqn:E'.
  cbn [fst] in E. subst x. unfold from_bytes_m in E'.
  apply mbind_ok in E'. destruct E' as (tab&s1&E1&E).
  destruct (read_sections_ok max_off secs Hn Ht Hm Hf) as [s0 E0].
  pose proof (mono_sections g t max_off _ _ _ E1) as E1'. rewrite <- Hg in E1'.
  rewrite E0 in E1'. injection E1' as <- <-.
  pose proof (find_table_split ty 12 before payload after Hnin) as Hfind. fold secs in Hfind. fold q in Hfind.
  assert (Hpos : q <= blen g).
  { unfold read_sections in E1. apply mbind_ok in E1. destruct E1 as (mg&sa&_&E1).
    destruct (bytes_eqb mg magic_r1cs); [|discriminate].
    apply mbind_ok in E1. destruct E1 as (v&sb&_&E1). destruct (v =? 1); [|discriminate].
    apply mbind_ok in E1. destruct E1 as (n&sc&_&E1). rewrite mmany_spec in E1.
    apply sections_sound in E1. apply find_section_in in Hfind. destruct Hfind as [sz Hin].
    rewrite Forall_forall in E1. specialize (E1 _ Hin). cbn [fst snd] in E1. destruct E1 as [_ Ho].
    apply occurs_le in Ho. rewrite blen_app, blen_u32, blen_u64 in Ho. unfold q in *. lia. }
  assert (Hocc : occurs_or_empty g q content -> False).
  { intros [->|Ho]; apply Hq.
    - rewrite blen_nil. lia.
    - apply occurs_le. exact Ho. }
  destruct (find_section 1 (table 12 secs)) as [p1|] eqn:F1; [|discriminate].
  apply mbind_ok in E. destruct E as (u1&s2&Es1&E). apply mbind_ok in E. destruct E as (h&s3&Eh&E).
  destruct (find_section 2 (table 12 secs)) as [p2|] eqn:F2; [|discriminate].
  apply mbind_ok in E. destruct E as (u2&s4&Es2&E). apply mbind_ok in E. destruct E as (cs&s5&Ecs&E).
  apply mbind_ok in E. destruct E as (wl&s6&Ewl&E). injection E as Er _.
  unfold seek_start in Es1, Es2.
  destruct (p1 <=? max_off); [|discriminate]. destruct (p2 <=? max_off); [|discriminate].
  injection Es1 as _ <-. injection Es2 as _ <-.
  unfold needed in Hneed.
  destruct (N.eqb_spec ty 1) as [->|N1]; [|destruct (N.eqb_spec ty 2) as [->|N2]; [|destruct (N.eqb_spec ty 3) as [->|N3]; [|discriminate]]];
    injection Hneed as <-; rewrite Hfind in *.
  - injection F1 as <-. apply sound_header in Eh. destruct Eh as (Oe&_). cbn [rpos] in Oe.
    apply Hocc. rewrite <- Er. apply Oe.
  - injection F2 as <-. unfold parse_constraints in Ecs. apply mbind_ok in Ecs. destruct Ecs as (u3&s7&Er2&Ecs).
    apply reserve_ok in Er2. cbn [rpos] in Er2.
    apply (sound_mmany _ _ _ _ _ (sound_constraint g (h_field_size h))) in Ecs.
    destruct Ecs as (_&Oc&_). rewrite Er2 in Oc. apply Hocc. unfold constraints_payload. rewrite <- Er. exact Oc.
  - apply mbind_ok in Ewl. destruct Ewl as (u4&s8&Es3&Ewl). unfold seek_start in Es3.
    destruct (q <=? max_off); [|discriminate]. injection Es3 as _ <-.
    unfold parse_wire2label in Ewl. apply mbind_ok in Ewl. destruct Ewl as (u5&s10&Er3&Ewl).
    apply reserve_ok in Er3. cbn [rpos] in Er3.
    apply (sound_mmany _ _ _ _ _ (sound_u64 g)) in Ewl. destruct Ewl as (_&Ol&_).
    rewrite Er3 in Ol. apply Hocc. unfold labels_payload. rewrite <- Er. exact Ol.
Qed.

(** ** Missing sections *)
Theorem r1cs_missing_section max_off secs :
  N.of_nat (length secs) < 2 ^ 32 -> Forall (fun s => fst s < 2 ^ 32) secs ->
  max_off < 2 ^ 63 -> blen (r1cs_bytes secs) <= max_off ->
  (payload_of 1 secs = None -> r1cs_from_bytes max_off (r1cs_bytes secs) = Err HeaderNotFound) /\
  (payload_of 2 secs = None -> is_err (r1cs_from_bytes max_off (r1cs_bytes secs))).
Proof.
  intros Hn Ht Hm Hf. set (f := r1cs_bytes secs) in *.
  destruct (read_sections_ok max_off secs Hn Ht Hm Hf) as [s0 E0]. fold f in E0.
  assert (Ho : occurs f 12 (flat_map section_bytes secs)).
  { exists (ascii_r1cs ++ u32 1 ++ u32 (N.of_nat (length secs))), [].
    rewrite app_nil_r, <- !app_assoc. split; [reflexivity|].
    rewrite !blen_app, !blen_u32. reflexivity. }
  split; intros Hp.
  - pose proof (find_table f 1 12 secs Ho) as F. rewrite Hp in F.
    unfold r1cs_from_bytes, from_bytes_m, mbind. rewrite E0, F. reflexivity.
  - pose proof (find_table f 2 12 secs Ho) as F. rewrite Hp in F.
    pose proof (r1cs_no_panic max_off f) as Hnp.
    destruct (r1cs_from_bytes max_off f) as [r'|e|] eqn:E; [exfalso|exact I|congruence].
    unfold r1cs_from_bytes in E. destruct (from_bytes_m f max_off (RState 0 [])) as [x s9] eqn:E'.
    cbn [fst] in E. subst x. unfold from_bytes_m in E'. apply mbind_ok in E'.
    destruct E' as (tab&s1&E1&E). rewrite E0 in E1. injection E1 as <- <-. rewrite F in E.
    destruct (find_section 1 (table 12 secs)); [|discriminate].
    apply mbind_ok in E. destruct E as (?&?&?&E). apply mbind_ok in E. destruct E as (?&?&?&E). discriminate.
Qed.

(** ** Reservations *)
Definition tiny_header (fs nc : N) : list byte :=
  u32 fs ++ u32 1 ++ u32 0 ++ u32 0 ++ u32 0 ++ u64 0 ++ u32 nc.
(** A file of 68 bytes: an empty-field header announcing [nc] constraints and an empty
    constraints section. *)
Definition greedy_file (nc : N) : list byte :=
  r1cs_bytes [(1, tiny_header 0 nc); (2, [])].
(** A file of 28 bytes announcing a field of [fs] bytes. *)
Definition greedy_field_file (fs : N) : list byte := r1cs_bytes [(1, u32 fs)].

(** A file of 24 bytes whose only section jumps back to itself, announced [n] times. *)
Definition looping_file (n : N) : list byte :=
  ascii_r1cs ++ u32 1 ++ u32 n ++ u32 0 ++ u64 (2 ^ 64 - 12).

Lemma looping_step n s : rpos s = 12 -> 
  read_section (looping_file n) (2 ^ 63 - 1) s = (Ok (0, 2 ^ 64 - 12, 24), s).
Proof.
  intros Hs. destruct s as [p l]. cbn [rpos] in Hs. subst p.
  set (f := looping_file n).
  assert (Ho : occurs f 12 (u32 0 ++ u64 (2 ^ 64 - 12))).
  { exists (ascii_r1cs ++ u32 1 ++ u32 n), []. unfold f, looping_file.
    rewrite app_nil_r, <- !app_assoc. split; [reflexivity|]. rewrite !blen_app, !blen_u32. reflexivity. }
  apply occurs_app in Ho. destruct Ho as [H1 H2].
  unfold read_section, mbind at 1.
  assert (E1 : read_u32 f (RState 12 l) = (Ok 0, RState 16 l)).
  { apply occurs_slice in H1. unfold read_u32, mbind, read_exact. cbn [rpos reserved N.eqb Pos.eqb].
    change (slice f 12 4) with (slice f 12 (blen (u32 0))). rewrite H1. reflexivity. }
  rewrite E1. unfold mbind at 1.
  assert (E2 : read_u64 f (RState 16 l) = (Ok (2 ^ 64 - 12), RState 24 l)).
  { apply occurs_slice in H2. unfold read_u64, mbind, read_exact. cbn [rpos reserved N.eqb Pos.eqb].
    change (slice f 16 8) with (slice f (12 + blen (u32 0)) (blen (u64 (2 ^ 64 - 12)))). rewrite H2. reflexivity. }
  rewrite E2. reflexivity.
Qed.

Theorem looping_sections n : n < 2 ^ 32 ->
  blen (looping_file n) = 24 /\
  exists s l, read_sections (looping_file n) (2 ^ 63 - 1) (RState 0 []) = (Ok l, s) /\
              N.of_nat (length l) = n.
Proof.
  intros Hn. split.
  { unfold looping_file. rewrite !blen_app, !blen_u32, blen_u64. reflexivity. }
  set (f := looping_file n).
  assert (Ho : occurs f 0 (ascii_r1cs ++ u32 1 ++ u32 n)).
  { exists [], (u32 0 ++ u64 (2 ^ 64 - 12)). unfold f, looping_file. rewrite <- !app_assoc. split; reflexivity. }
  apply occurs_app in Ho. destruct Ho as [H1 Ho]. apply occurs_app in Ho. destruct Ho as [H2 H3].
  unfold read_sections.
  destruct (yields_read_exact f ascii_r1cs 4 eq_refl (RState 0 []) H1) as [l1 E1].
  unfold mbind at 1. rewrite E1. replace (bytes_eqb ascii_r1cs magic_r1cs) with true by reflexivity.
  destruct (yields_u32 f 1 ltac:(reflexivity) (RState (0 + blen ascii_r1cs) l1) H2) as [l2 E2].
  unfold mbind at 1. cbn [rpos] in *. rewrite E2. change (1 =? 1) with true. cbv iota.
  destruct (yields_u32 f n Hn (RState (0 + blen ascii_r1cs + blen (u32 1)) l2) H3) as [l3 E3].
  unfold mbind at 1. cbn [rpos] in *. rewrite E3, mmany_spec.
  assert (Hgen : forall k s, rpos s = 12 ->
    mlist k (read_section f (2 ^ 63 - 1)) s = (Ok (repeat (0, 2 ^ 64 - 12, 24) k), s)).
  { induction k; intros s Hs; [reflexivity|]. cbn [mlist repeat]. unfold mbind at 1.
    unfold f. rewrite looping_step by exact Hs. unfold mbind. fold f. rewrite IHk by exact Hs. reflexivity. }
  rewrite !blen_u32. change (blen ascii_r1cs) with 4. rewrite Hgen by reflexivity.
  do 2 eexists. split; [reflexivity|]. rewrite repeat_length. apply N2Nat.id.
Qed.
