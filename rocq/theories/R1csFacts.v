(** Round trip and soundness of the CLI r1cs reader. *)
From Coq Require Import List Bool Arith NArith ZArith Lia.
From Coq Require Import Strings.Byte.
From Verif Require Import Res Bytes Reader R1cs SpecR1cs.
Import ListNotations.
Local Open Scope N_scope.
Local Open Scope rd_scope.

Lemma u32_val v : v < 2 ^ 32 -> le_val (u32 v) = v.
Proof. intros H. apply le_val_small. exact H. Qed.
Lemma u64_val v : v < 2 ^ 64 -> le_val (u64 v) = v.
Proof. intros H. apply le_val_small. exact H. Qed.
Lemma blen_u32 v : blen (u32 v) = 4. Proof. apply blen_le_bytes. Qed.
Lemma blen_u64 v : blen (u64 v) = 8. Proof. apply blen_le_bytes. Qed.

Lemma occurs_slice f p bs : occurs f p bs <-> slice f p (blen bs) = Some bs.
Proof.
  split.
  - intros (pre&rest&->&<-). apply slice_app.
  - intros H. apply slice_some in H. destruct H as (pre&rest&->&<-&_). exists pre, rest. auto.
Qed.

Lemma occurs_app f p a b : occurs f p (a ++ b) <-> occurs f p a /\ occurs f (p + blen a) b.
Proof.
  split.
  - intros (pre&rest&->&<-). split.
    + exists pre, (b ++ rest). rewrite <- app_assoc. auto.
    + exists (pre ++ a), rest. rewrite blen_app, <- !app_assoc. auto.
  - intros [(pre&rest&->&<-) (pre'&rest'&H&H')].
    exists pre, rest'. split; [|reflexivity].
    rewrite <- blen_app in H'.
    assert (E : pre ++ a = pre' /\ rest = b ++ rest').
    { rewrite app_assoc in H. unfold blen in H'. apply Nat2N.inj in H'.
      apply app_inj_len; [auto|exact H]. }
    destruct E as [E1 E2]. rewrite E2, <- app_assoc. reflexivity.
Qed.

Lemma occurs_starts f p bs a : starts_with bs a -> occurs f p bs -> occurs f p a.
Proof. intros [rest ->] H. apply occurs_app in H. tauto. Qed.

Lemma occurs_prefix f g p bs : starts_with f g -> occurs g p bs -> occurs f p bs.
Proof. intros [t ->] (pre&rest&->&<-). exists pre, (rest ++ t). rewrite <- !app_assoc. auto. Qed.

Section Facts.
  Variable f : list byte.
  Variable max_off : N.

  (** [m] run where [enc] occurs returns [a] and stops right after [enc]. *)
  Definition yields {A} (m : R A) (a : A) (enc : list byte) : Prop :=
    forall s, occurs f (rpos s) enc ->
      exists log, m s = (Ok a, RState (rpos s + blen enc) log).
  Lemma yields_bind {A B} (m : R A) (k : A -> R B) a b e1 e2 :
    yields m a e1 -> yields (k a) b e2 -> yields (mbind m k) b (e1 ++ e2).
  Proof.
    intros H1 H2 s H. apply occurs_app in H. destruct H as [Ha Hb].
    destruct (H1 s Ha) as [l1 E1].
    destruct (H2 (RState (rpos s + blen e1) l1) Hb) as [l2 E2].
    exists l2. unfold mbind. rewrite E1, E2. cbn [rpos]. rewrite blen_app, N.add_assoc. reflexivity.
  Qed.

  Lemma occurs_end p bs : occurs f p bs -> occurs f (p + blen bs) [].
  Proof.
    intros (pre&rest&->&<-). exists (pre ++ bs), rest. rewrite <- blen_app, <- app_assoc. auto.
  Qed.

  Lemma yields_ret_last {A B} (m : R A) (g : A -> B) a e :
    yields m a e -> yields (mbind m (fun x => ret (g x))) (g a) e.
  Proof. intros H s Hs. destruct (H s Hs) as [l E]. exists l. unfold mbind. rewrite E. reflexivity. Qed.

  Lemma yields_silent {A B} (m : R A) (k : A -> R B) a b e :
    (forall s, exists log, m s = (Ok a, RState (rpos s) log)) ->
    yields (k a) b e -> yields (mbind m k) b e.
  Proof.
    intros H1 H2 s Hs. destruct (H1 s) as [l E]. destruct (H2 (RState (rpos s) l) Hs) as [l2 E2].
    exists l2. unfold mbind. rewrite E. exact E2.
  Qed.

  Lemma yields_read_exact bs n : blen bs = n -> yields (read_exact f n) bs bs.
  Proof.
    intros <- s H. apply occurs_slice in H. unfold read_exact.
    destruct (N.eqb_spec (blen bs) 0) as [Hz|Hz].
    - destruct bs; [|rewrite blen_cons in Hz; lia]. exists (reserved s).
      rewrite blen_nil, N.add_0_r. destruct s; reflexivity.
    - rewrite H. eauto.
  Qed.

  Lemma yields_u32 v : v < 2 ^ 32 -> yields (read_u32 f) v (u32 v).
  Proof.
    intros H. unfold read_u32. rewrite <- (u32_val v H) at 1.
    apply yields_ret_last. apply yields_read_exact. apply blen_u32.
  Qed.
  Lemma yields_u64 v : v < 2 ^ 64 -> yields (read_u64 f) v (u64 v).
  Proof.
    intros H. unfold read_u64. rewrite <- (u64_val v H) at 1.
    apply yields_ret_last. apply yields_read_exact. apply blen_u64.
  Qed.

  Lemma yields_reserve {B} n (k : unit -> R B) b e : yields (k tt) b e -> yields (mbind (reserve n) k) b e.
  Proof. apply yields_silent. intros s. eexists. reflexivity. Qed.

  Lemma yields_mlist {A} (m : R A) (enc : A -> list byte) l :
    Forall (fun a => yields m a (enc a)) l -> l <> [] -> yields (mlist (length l) m) l (flat_map enc l).
  Proof.
    intros H Hne. induction H as [|a l Ha Hl IH]; [contradiction|].
    cbn [length mlist flat_map]. apply yields_bind with (a := a); [exact Ha|].
    destruct l as [|a' l'].
    - intros s _. exists (reserved s). change (blen (flat_map enc [])) with 0. rewrite N.add_0_r. destruct s; reflexivity.
    - intros s Hs. destruct (IH ltac:(discriminate) s Hs) as [lg E]. exists lg.
      unfold mbind at 1. rewrite E. reflexivity.
  Qed.

  Lemma yields_mmany {A} (m : R A) (enc : A -> list byte) l n :
    N.of_nat (length l) = n -> Forall (fun a => yields m a (enc a)) l ->
    yields (mmany n m) l (flat_map enc l).
  Proof.
    intros Hn H s Hs. rewrite mmany_spec, <- Hn, Nat2N.id. destruct l as [|a l].
    - exists (reserved s). change (blen (flat_map enc [])) with 0. rewrite N.add_0_r. destruct s; reflexivity.
    - apply (yields_mlist m enc); [exact H|discriminate|exact Hs].
  Qed.

  Lemma yields_ext {A} (m m' : R A) a e : (forall s, m s = m' s) -> yields m a e -> yields m' a e.
  Proof. intros H H1 s Hs. rewrite <- H. auto. Qed.

  Lemma yields_factor fs x : fst x < 2 ^ 32 -> blen (snd x) = fs ->
    yields (parse_factor f fs) x (factor_bytes x).
  Proof.
    intros H1 H2. destruct x as [w v]. unfold parse_factor, factor_bytes. cbn [fst snd] in *.
    apply yields_bind with (a := w); [apply yields_u32; exact H1|].
    apply yields_reserve. apply (yields_ret_last _ (fun v => (w, v))). apply yields_read_exact. exact H2.
  Qed.

  Lemma yields_lc fs l : lc_ok fs l -> yields (parse_lc f fs) l (lc_bytes l).
  Proof.
    intros [H1 H2]. unfold parse_lc, lc_bytes.
    apply yields_bind with (a := N.of_nat (length l)); [apply yields_u32; exact H1|].
    apply yields_reserve. apply yields_mmany; [reflexivity|].
    eapply Forall_impl; [|exact H2]. intros x [Hx Hy]. apply yields_factor; assumption.
  Qed.

  Lemma yields_constraint fs c : constraint_ok fs c -> yields (parse_constraint f fs) c (constraint_bytes c).
  Proof.
    intros (H1&H2&H3). destruct c as [a b c]. unfold parse_constraint, constraint_bytes. cbn [c_a c_b c_c] in *.
    apply yields_bind with (a := a); [apply yields_lc; exact H1|].
    apply yields_bind with (a := b); [apply yields_lc; exact H2|].
    apply (yields_ret_last _ (fun c => Constraint a b c)). apply yields_lc; exact H3.
  Qed.

  Definition header_of (r : r1cs_file) : r1cs_header :=
    R1csHeader (r_field_size r) (r_prime r) (r_n_wires r) (r_n_pub_out r) (r_n_pub_in r)
      (r_n_prv_in r) (r_n_labels r) (r_n_constraints r).

  Lemma yields_header r : r1cs_ok r -> yields (parse_header f) (header_of r) (header_payload r).
  Proof.
    intros [? ? ? ? ? ? ? ? _ _ _ _]. unfold parse_header, header_payload, header_of.
    eapply yields_bind; [apply yields_u32; assumption|].
    apply yields_reserve. eapply yields_bind; [apply yields_read_exact; assumption|].
    do 4 (eapply yields_bind; [apply yields_u32; assumption|]).
    eapply yields_bind; [apply yields_u64; assumption|].
    apply (yields_ret_last _ (fun c => R1csHeader _ _ _ _ _ _ _ c)). apply yields_u32; assumption.
  Qed.

  Lemma yields_constraints r : r1cs_ok r ->
    yields (parse_constraints f (r_n_constraints r) (r_field_size r)) (r_constraints r) (constraints_payload r).
  Proof.
    intros H. unfold parse_constraints, constraints_payload. apply yields_reserve.
    apply yields_mmany; [apply (ok_cs_len r H)|].
    eapply Forall_impl; [|apply (ok_cs r H)]. intros c. apply yields_constraint.
  Qed.

  Lemma yields_labels r : r1cs_ok r ->
    yields (parse_wire2label f (r_n_wires r)) (r_wire2label r) (labels_payload r).
  Proof.
    intros H. unfold parse_wire2label, labels_payload. apply yields_reserve.
    apply yields_mmany; [apply (ok_wl_len r H)|].
    eapply Forall_impl; [|apply (ok_wl r H)]. intros c. apply yields_u64.
  Qed.

  (** First pass on a well-formed section sequence. *)
  Fixpoint table (p : N) (secs : list (N * list byte)) : list (N * N * N) :=
    match secs with
    | [] => []
    | s :: secs => (fst s, blen (snd s), p + 12) :: table (p + blen (section_bytes s)) secs
    end.

  Lemma blen_section s : blen (section_bytes s) = 12 + blen (snd s).
  Proof. unfold section_bytes. rewrite !blen_app, blen_u32, blen_u64. lia. Qed.

  Lemma yields_section s (st : rstate) :
    fst s < 2 ^ 32 -> max_off < 2 ^ 63 -> blen f <= max_off ->
    occurs f (rpos st) (section_bytes s) ->
    exists log, read_section f max_off st =
      (Ok (fst s, blen (snd s), rpos st + 12), RState (rpos st + blen (section_bytes s)) log).
  Proof.
    intros Ht Hmax Hf H.
    assert (Hlen : rpos st + blen (section_bytes s) <= blen f).
    { destruct H as (pre&rest&->&<-). rewrite !blen_app. lia. }
    rewrite blen_section in Hlen.
    unfold section_bytes in H. apply occurs_app in H. destruct H as [H1 H].
    apply occurs_app in H. destruct H as [H2 _].
    rewrite blen_u32 in H2.
    destruct (yields_u32 (fst s) Ht st H1) as [l1 E1]. rewrite blen_u32 in E1.
    assert (Hb : blen (snd s) < 2 ^ 63) by (revert Hlen Hf Hmax; clear; intros; lia).
    destruct (yields_u64 (blen (snd s)) ltac:(clear -Hb; lia) (RState (rpos st + 4) l1) H2) as [l2 E2].
    rewrite blen_u64 in E2. cbn [rpos] in E2.
    unfold read_section. unfold mbind at 1. rewrite E1. unfold mbind at 1. rewrite E2.
    unfold mbind at 1, get_pos. unfold mbind at 1, seek_relative, as_i64.
    cbn [rpos reserved].
    replace (blen (snd s) <? 2 ^ 63) with true by (symmetry; apply N.ltb_lt; exact Hb).
    replace ((0 <=? Z.of_N (rpos st + 4 + 8) + Z.of_N (blen (snd s)))
       && (Z.of_N (rpos st + 4 + 8) + Z.of_N (blen (snd s)) <=? Z.of_N max_off))%Z with true.
    - exists l2. unfold ret. rewrite blen_section. f_equal.
      + f_equal. f_equal. clear; lia.
      + f_equal. clear; lia.
    - symmetry. apply andb_true_iff. split; apply Z.leb_le; clear - Hlen Hf; lia.
  Qed.

  Lemma yields_sections secs st :
    Forall (fun s => fst s < 2 ^ 32) secs -> max_off < 2 ^ 63 -> blen f <= max_off ->
    occurs f (rpos st) (flat_map section_bytes secs) ->
    exists log, mlist (length secs) (read_section f max_off) st =
      (Ok (table (rpos st) secs), RState (rpos st + blen (flat_map section_bytes secs)) log).
  Proof.
    intros H Hm Hf. revert st. induction H as [|s secs Hs Hl IH]; intros st Ho.
    - exists (reserved st). change (blen (flat_map section_bytes [])) with 0. rewrite N.add_0_r. destruct st; reflexivity.
    - cbn [length mlist flat_map table] in *. apply occurs_app in Ho. destruct Ho as [Ho1 Ho2].
      destruct (yields_section s st Hs Hm Hf Ho1) as [l1 E1].
      destruct (IH (RState (rpos st + blen (section_bytes s)) l1) Ho2) as [l2 E2].
      exists l2. unfold mbind at 1. rewrite E1. unfold mbind at 1. rewrite E2.
      unfold ret. cbn [rpos]. rewrite blen_app, N.add_assoc. reflexivity.
  Qed.

  Lemma find_table ty p secs :
    occurs f p (flat_map section_bytes secs) ->
    match payload_of ty secs with
    | Some bs => exists q, find_section ty (table p secs) = Some q /\ occurs f q bs
    | None => find_section ty (table p secs) = None
    end.
  Proof.
    revert p. induction secs as [|s secs IH]; intros p H; [reflexivity|].
    cbn [flat_map] in H. apply occurs_app in H. destruct H as [H1 H2].
    unfold payload_of, find_section in *. cbn [find table fst snd].
    destruct (fst s =? ty).
    - exists (p + 12). split; [reflexivity|].
      unfold section_bytes in H1. apply occurs_app in H1. destruct H1 as [_ H1].
      apply occurs_app in H1. destruct H1 as [_ H1]. rewrite blen_u32, blen_u64 in H1.
      replace (p + 12) with (p + 4 + 8) by lia. exact H1.
    - apply IH. exact H2.
  Qed.
End Facts.

Lemma bytes_eqb_eq a b : bytes_eqb a b = true <-> a = b.
Proof. unfold bytes_eqb. destruct (list_eq_dec byte_eq_dec a b); split; intros; auto; discriminate. Qed.

Lemma occurs_le f p bs : occurs f p bs -> p + blen bs <= blen f.
Proof. intros (pre&rest&->&<-). rewrite !blen_app. lia. Qed.

Lemma seek_start_ok max_off p s : p <= max_off -> seek_start max_off p s = (Ok tt, RState p (reserved s)).
Proof. intros H. unfold seek_start. apply N.leb_le in H. rewrite H. reflexivity. Qed.

Lemma read_sections_ok max_off secs :
  let f := r1cs_bytes secs in
  N.of_nat (length secs) < 2 ^ 32 -> Forall (fun s => fst s < 2 ^ 32) secs ->
  max_off < 2 ^ 63 -> blen f <= max_off ->
  exists s', read_sections f max_off (RState 0 []) = (Ok (table 12 secs), s').
Proof.
  intros f Hn Ht Hm Hf.
  assert (Ho : occurs f 0 (r1cs_bytes secs)).
  { exists [], []. rewrite app_nil_r. split; reflexivity. }
  unfold r1cs_bytes in Ho. apply occurs_app in Ho. destruct Ho as [H1 Ho].
  apply occurs_app in Ho. destruct Ho as [H2 Ho]. apply occurs_app in Ho. destruct Ho as [H3 H4].
  rewrite !blen_u32 in *. change (blen ascii_r1cs) with 4 in *.
  unfold read_sections.
  destruct (yields_read_exact f ascii_r1cs 4 eq_refl (RState 0 []) H1) as [l1 E1].
  unfold mbind at 1. rewrite E1. replace (bytes_eqb ascii_r1cs magic_r1cs) with true by reflexivity.
  destruct (yields_u32 f 1 ltac:(reflexivity) (RState (0 + 4) l1) H2) as [l2 E2].
  unfold mbind at 1. cbn [rpos] in *. change (blen ascii_r1cs) with 4. rewrite E2, blen_u32.
  change (1 =? 1) with true. cbv iota.
  destruct (yields_u32 f (N.of_nat (length secs)) Hn (RState (0 + 4 + 4) l2) H3) as [l3 E3].
  unfold mbind at 1. cbn [rpos] in *. rewrite E3, blen_u32, mmany_spec, Nat2N.id.
  destruct (yields_sections f max_off secs (RState (0 + 4 + 4 + 4) l3) Ht Hm Hf H4) as [l4 E4].
  rewrite E4. eexists. reflexivity.
Qed.

Theorem r1cs_roundtrip max_off secs r :
  r1cs_ok r -> carries secs r ->
  N.of_nat (length secs) < 2 ^ 32 -> Forall (fun s => fst s < 2 ^ 32) secs ->
  max_off < 2 ^ 63 -> blen (r1cs_bytes secs) <= max_off ->
  r1cs_from_bytes max_off (r1cs_bytes secs) = Ok r.
Proof.
  intros Hr (Hc1&Hc2&Hc3) Hn Ht Hm Hf. set (f := r1cs_bytes secs) in *.
  destruct (read_sections_ok max_off secs Hn Ht Hm Hf) as [s0 E0]. fold f in E0.
  assert (Ho : occurs f 12 (flat_map section_bytes secs)).
  { exists (ascii_r1cs ++ u32 1 ++ u32 (N.of_nat (length secs))), [].
    rewrite app_nil_r, <- !app_assoc. split; [reflexivity|].
    rewrite !blen_app, !blen_u32. reflexivity. }
  destruct Hc1 as (p1&Hp1&Hs1). destruct Hc2 as (p2&Hp2&Hs2).
  pose proof (find_table f 1 12 secs Ho) as F1. rewrite Hp1 in F1. destruct F1 as (q1&F1&O1).
  pose proof (find_table f 2 12 secs Ho) as F2. rewrite Hp2 in F2. destruct F2 as (q2&F2&O2).
  pose proof (find_table f 3 12 secs Ho) as F3.
  apply (occurs_starts _ _ _ _ Hs1) in O1. apply (occurs_starts _ _ _ _ Hs2) in O2.
  unfold r1cs_from_bytes, from_bytes_m. unfold mbind at 1. rewrite E0, F1.
  assert (Hq : forall q bs, occurs f q bs -> q <= max_off).
  { intros q bs Hq. apply occurs_le in Hq. lia. }
  unfold mbind at 1. rewrite (seek_start_ok _ _ _ (Hq _ _ O1)).
  destruct (yields_header f r Hr (RState q1 (reserved s0)) O1) as [l1 E1].
  unfold mbind at 1. rewrite E1, F2.
  unfold mbind at 1. rewrite (seek_start_ok _ _ _ (Hq _ _ O2)).
  cbn [header_of h_n_constraints h_field_size h_n_wires reserved].
  destruct (yields_constraints f r Hr (RState q2 l1) O2) as [l2 E2].
  unfold mbind at 1. rewrite E2.
  assert (E3 : exists s3, (match find_section 3 (table 12 secs) with
                 | Some p => do _ <- seek_start max_off p ; parse_wire2label f (r_n_wires r)
                 | None => do _ <- reserve (r_n_wires r * 8) ; ret (default_labels (r_n_wires r))
                 end) (RState (q2 + blen (constraints_payload r)) l2) = (Ok (r_wire2label r), s3)).
  { destruct (payload_of 3 secs) as [p3|].
    - destruct F3 as (q3&F3&O3). rewrite F3. apply (occurs_starts _ _ _ _ Hc3) in O3.
      unfold mbind at 1. rewrite (seek_start_ok _ _ _ (Hq _ _ O3)).
      cbn [reserved]. destruct (yields_labels f r Hr (RState q3 l2) O3) as [l3 E3]. rewrite E3. eauto.
    - rewrite F3. unfold mbind, reserve, ret. rewrite Hc3. unfold default_labels. eauto. }
  destruct E3 as [s3 E3]. unfold mbind at 1. cbn [rpos] in *. rewrite E3.
  destruct r. reflexivity.
Qed.

(** ** Soundness: whatever is accepted occurs in the file. *)
Lemma oe_app f p a b :
  occurs_or_empty f p (a ++ b) <-> occurs_or_empty f p a /\ occurs_or_empty f (p + blen a) b.
Proof.
  unfold occurs_or_empty. split.
  - intros [H|H].
    + apply app_eq_nil in H. destruct H as [-> ->]. auto.
    + apply occurs_app in H. tauto.
  - intros [[->|Ha] [->|Hb]]; cbn [app]; rewrite ?app_nil_r; auto.
    + rewrite blen_nil, N.add_0_r in Hb. auto.
    + right. apply occurs_app. auto.
Qed.

Section Sound.
  Variable f : list byte.
  Variable max_off : N.

  (** Whatever [m] returns is well formed and its encoding occurs where [m] started. *)
  Definition sound {A} (m : R A) (enc : A -> list byte) (wf : A -> Prop) : Prop :=
    forall s a s', m s = (Ok a, s') ->
      wf a /\ occurs_or_empty f (rpos s) (enc a) /\ rpos s' = rpos s + blen (enc a).

  Lemma sound_read_exact n : sound (read_exact f n) (fun b => b) (fun b => blen b = n).
  Proof.
    intros s a s'. unfold read_exact. destruct (N.eqb_spec n 0) as [->|Hn].
    - intros H. injection H as <- <-. rewrite blen_nil, N.add_0_r. repeat split. left; reflexivity.
    - destruct (slice f (rpos s) n) as [b|] eqn:E; intros H; [|discriminate].
      injection H as <- <-. apply slice_some in E. destruct E as (pre&rest&Hf&Hp&Hl).
      cbn [rpos]. rewrite Hl. repeat split. right. exists pre, rest. auto.
  Qed.

  Lemma sound_u32 : sound (read_u32 f) u32 (fun v => v < 2 ^ 32).
  Proof.
    intros s a s' H. apply mbind_ok in H. destruct H as (b&s1&H1&H). injection H as <- <-.
    apply sound_read_exact in H1. destruct H1 as (Hl&Ho&Hp).
    assert (Hb : u32 (le_val b) = b).
    { unfold u32. replace 4%nat with (length b) by (unfold blen in Hl; lia). apply le_bytes_le_val. }
    rewrite Hb. repeat split; auto.
    pose proof (le_val_bound b) as Hv. replace (length b) with 4%nat in Hv by (unfold blen in Hl; lia).
    exact Hv.
  Qed.
  Lemma sound_u64 : sound (read_u64 f) u64 (fun v => v < 2 ^ 64).
  Proof.
    intros s a s' H. apply mbind_ok in H. destruct H as (b&s1&H1&H). injection H as <- <-.
    apply sound_read_exact in H1. destruct H1 as (Hl&Ho&Hp).
    assert (Hb : u64 (le_val b) = b).
    { unfold u64. replace 8%nat with (length b) by (unfold blen in Hl; lia). apply le_bytes_le_val. }
    rewrite Hb. repeat split; auto.
    pose proof (le_val_bound b) as Hv. replace (length b) with 8%nat in Hv by (unfold blen in Hl; lia).
    exact Hv.
  Qed.

  Lemma sound_mlist {A} (m : R A) enc wf : sound m enc wf ->
    forall n, sound (mlist n m) (flat_map enc) (fun l => length l = n /\ Forall wf l).
  Proof.
    intros Hm n. induction n; intros s l s' H.
    - injection H as <- <-. cbn [flat_map]. rewrite blen_nil, N.add_0_r. repeat split; auto. left; reflexivity.
    - cbn [mlist] in H. apply mbind_ok in H. destruct H as (x&s1&H1&H).
      apply mbind_ok in H. destruct H as (l1&s2&H2&H). injection H as <- <-.
      apply Hm in H1. destruct H1 as (W1&O1&P1). apply IHn in H2. destruct H2 as ((W2&W2')&O2&P2).
      cbn [flat_map length]. repeat split; auto.
      + apply oe_app. rewrite <- P1. auto.
      + rewrite blen_app, P2, P1. lia.
  Qed.

  Lemma sound_mmany {A} (m : R A) enc wf n : sound m enc wf ->
    sound (mmany n m) (flat_map enc) (fun l => N.of_nat (length l) = n /\ Forall wf l).
  Proof.
    intros Hm s l s' H. rewrite mmany_spec in H. apply (sound_mlist m enc wf Hm) in H.
    destruct H as ((H1&H2)&H3&H4). repeat split; auto. rewrite H1. apply N2Nat.id.
  Qed.

  Lemma reserve_ok n s a s' : reserve n s = (Ok a, s') -> rpos s' = rpos s.
  Proof. intros H. injection H as _ <-. reflexivity. Qed.

  Ltac step H :=
    let x := fresh "x" in let s1 := fresh "st" in let H1 := fresh "H" in
    apply mbind_ok in H; destruct H as (x&s1&H1&H).

  Lemma sound_factor fs : sound (parse_factor f fs) factor_bytes (fun x => fst x < 2 ^ 32 /\ blen (snd x) = fs).
  Proof.
    intros s a s' H. unfold parse_factor in H. step H. step H. step H. injection H as <- <-.
    apply sound_u32 in H0. apply reserve_ok in H1. apply sound_read_exact in H2.
    destruct H0 as (W0&O0&P0). destruct H2 as (W2&O2&P2).
    unfold factor_bytes. cbn [fst snd]. repeat split; auto.
    - apply oe_app. rewrite <- P0, <- H1. auto.
    - rewrite blen_app, P2, H1, P0. lia.
  Qed.

  Lemma sound_lc fs : sound (parse_lc f fs) lc_bytes (lc_ok fs).
  Proof.
    intros s a s' H. unfold parse_lc in H. step H. step H.
    apply sound_u32 in H0. apply reserve_ok in H1.
    apply (sound_mmany _ _ _ _ (sound_factor fs)) in H.
    destruct H0 as (W0&O0&P0). destruct H as ((W2&W3)&O2&P2).
    unfold lc_bytes, lc_ok. rewrite W2. repeat split; auto.
    - apply oe_app. rewrite <- P0, <- H1. auto.
    - rewrite blen_app, P2, H1, P0. lia.
  Qed.

  Lemma sound_constraint fs : sound (parse_constraint f fs) constraint_bytes (constraint_ok fs).
  Proof.
    intros s a s' H. unfold parse_constraint in H. step H. step H. step H. injection H as <- <-.
    apply sound_lc in H0. apply sound_lc in H1. apply sound_lc in H2.
    destruct H0 as (W0&O0&P0). destruct H1 as (W1&O1&P1). destruct H2 as (W2&O2&P2).
    split; [split; [exact W0|split; [exact W1|exact W2]]|]. unfold constraint_bytes; cbn [c_a c_b c_c]. split.
    - apply oe_app. split; [auto|]. apply oe_app. rewrite <- P0. split; [auto|]. rewrite <- P1. auto.
    - rewrite !blen_app, P2, P1, P0. lia.
  Qed.

  Lemma sound_header s h s' : parse_header f s = (Ok h, s') ->
    (forall cs wl, occurs_or_empty f (rpos s) (header_payload (R1csFile (h_field_size h) (h_prime h) (h_n_wires h) (h_n_pub_out h)
                 (h_n_pub_in h) (h_n_prv_in h) (h_n_labels h) (h_n_constraints h) cs wl))) /\
      h_field_size h < 2 ^ 32 /\ blen (h_prime h) = h_field_size h /\ h_n_wires h < 2 ^ 32 /\
      h_n_pub_out h < 2 ^ 32 /\ h_n_pub_in h < 2 ^ 32 /\ h_n_prv_in h < 2 ^ 32 /\
      h_n_labels h < 2 ^ 64 /\ h_n_constraints h < 2 ^ 32.
  Proof.
    intros H. unfold parse_header in H. do 9 step H. injection H as <- _.
    apply sound_u32 in H0. apply reserve_ok in H1. apply sound_read_exact in H2.
    apply sound_u32 in H3. apply sound_u32 in H4. apply sound_u32 in H5. apply sound_u32 in H6.
    apply sound_u64 in H7. apply sound_u32 in H8.
    destruct H0 as (W0&O0&P0). destruct H2 as (W2&O2&P2). destruct H3 as (W3&O3&P3).
    destruct H4 as (W4&O4&P4). destruct H5 as (W5&O5&P5). destruct H6 as (W6&O6&P6).
    destruct H7 as (W7&O7&P7). destruct H8 as (W8&O8&P8).
    cbn [h_field_size h_prime h_n_wires h_n_pub_out h_n_pub_in h_n_prv_in h_n_labels h_n_constraints].
    split; [|repeat split; auto]. intros cs wl. unfold header_payload.
    cbn [r_field_size r_prime r_n_wires r_n_pub_out r_n_pub_in r_n_prv_in r_n_labels r_n_constraints].
    rewrite P7, P6, P5, P4, P3, P2, H1, P0 in O8. rewrite P6, P5, P4, P3, P2, H1, P0 in O7.
    rewrite P5, P4, P3, P2, H1, P0 in O6. rewrite P4, P3, P2, H1, P0 in O5.
    rewrite P3, P2, H1, P0 in O4. rewrite P2, H1, P0 in O3. rewrite H1, P0 in O2.
    repeat (apply oe_app; split; [assumption|]). assumption.
  Qed.
End Sound.

(** Positions recorded by the first pass: right after the section's type and length. *)
Lemma sections_sound f max_off n s l s' :
  mlist n (read_section f max_off) s = (Ok l, s') ->
  Forall (fun x => 12 <= snd x /\ occurs f (snd x - 12) (u32 (fst (fst x)) ++ u64 (snd (fst x)))) l.
Proof.
  revert s l s'; induction n; intros s l s' H.
  - injection H as <- <-. constructor.
  - cbn [mlist] in H. apply mbind_ok in H. destruct H as (x&s1&H1&H).
    apply mbind_ok in H. destruct H as (l1&s2&H2&H). injection H as <- <-.
    constructor; [|eapply IHn; exact H2].
    unfold read_section in H1. apply mbind_ok in H1. destruct H1 as (t&sa&Ha&H1).
    apply mbind_ok in H1. destruct H1 as (sz&sb&Hb&H1). apply mbind_ok in H1. destruct H1 as (p&sc&Hc&H1).
    injection Hc as <- <-. apply mbind_ok in H1. destruct H1 as (u&sd&_&H1). injection H1 as <- <-.
    apply sound_u32 in Ha. apply sound_u64 in Hb. destruct Ha as (_&Oa&Pa). destruct Hb as (_&Ob&Pb).
    cbn [fst snd]. rewrite blen_u32 in Pa. rewrite blen_u64 in Pb. split; [lia|].
    replace (rpos sb - 12) with (rpos s) by lia. apply occurs_app.
    destruct Oa as [Oa|Oa]; [discriminate Oa|]. destruct Ob as [Ob|Ob]; [discriminate Ob|].
    split; [exact Oa|]. rewrite blen_u32, <- Pa. exact Ob.
Qed.

Lemma find_section_in ty secs p : find_section ty secs = Some p ->
  exists sz, In (ty, sz, p) secs.
Proof.
  unfold find_section. destruct (find _ secs) as [[[t sz] q]|] eqn:E; [|discriminate].
  intros H. injection H as ->. apply find_some in E. destruct E as [Hin He].
  cbn in He. apply N.eqb_eq in He. subst t. eauto.
Qed.

Lemma find_section_none ty secs : find_section ty secs = None -> forall sz p, ~ In (ty, sz, p) secs.
Proof.
  unfold find_section. destruct (find _ secs) as [[[t sz] q]|] eqn:E; [discriminate|].
  intros _ sz p Hin. apply (find_none _ _ E) in Hin. cbn in Hin. rewrite N.eqb_refl in Hin. discriminate.
Qed.


Lemma section_in_of f ty secs p payload n mx s s' :
  mlist n (read_section f mx) s = (Ok secs, s') ->
  find_section ty secs = Some p -> occurs_or_empty f p payload -> section_in f ty payload.
Proof.
  intros Hs Hf Ho. apply sections_sound in Hs.
  apply find_section_in in Hf. destruct Hf as [sz Hin].
  rewrite Forall_forall in Hs. specialize (Hs _ Hin). cbn [fst snd] in Hs. destruct Hs as [H1 H2].
  exists (p - 12), sz. split; [exact H2|]. replace (p - 12 + 12) with p by lia. exact Ho.
Qed.

Theorem r1cs_sound max_off f r :
  r1cs_from_bytes max_off f = Ok r ->
  r1cs_ok r /\ starts_with f (ascii_r1cs ++ u32 1) /\
  section_in f 1 (header_payload r) /\ section_in f 2 (constraints_payload r) /\
  (section_in f 3 (labels_payload r) \/
   r_wire2label r = map N.of_nat (seq 0 (N.to_nat (r_n_wires r)))).
Proof.
  unfold r1cs_from_bytes. destruct (from_bytes_m f max_off (RState 0 [])) as [x s9] eqn:E.
  cbn [fst]. intros ->. unfold from_bytes_m in E.
  apply mbind_ok in E. destruct E as (secs&s1&E1&E).
  unfold read_sections in E1. apply mbind_ok in E1. destruct E1 as (mg&sa&Ea&E1).
  destruct (bytes_eqb mg magic_r1cs) eqn:Emg; [|discriminate]. apply bytes_eqb_eq in Emg. subst mg.
  apply mbind_ok in E1. destruct E1 as (v&sb&Eb&E1).
  destruct (N.eqb_spec v 1) as [->|]; [|discriminate].
  apply mbind_ok in E1. destruct E1 as (n&sc&Ec&E1). rewrite mmany_spec in E1.
  apply sound_read_exact in Ea. destruct Ea as (_&Oa&Pa). cbn [rpos] in *.
  apply sound_u32 in Eb. destruct Eb as (_&Ob&_). rewrite Pa in Ob.
  destruct Oa as [Oa|Oa]; [discriminate Oa|]. destruct Ob as [Ob|Ob]; [discriminate Ob|].
  assert (Hst : starts_with f (ascii_r1cs ++ u32 1)).
  { assert (H : occurs f 0 (ascii_r1cs ++ u32 1)) by (apply occurs_app; split; [exact Oa|exact Ob]).
    destruct H as (pre&rest&Hf&Hp). destruct pre; [|rewrite blen_cons in Hp; lia].
    exists rest. exact Hf. }
  destruct (find_section 1 secs) as [p1|] eqn:F1; [|discriminate].
  apply mbind_ok in E. destruct E as (u1&s2&Es1&E). apply mbind_ok in E. destruct E as (h&s3&Eh&E).
  destruct (find_section 2 secs) as [p2|] eqn:F2; [|discriminate].
  apply mbind_ok in E. destruct E as (u2&s4&Es2&E). apply mbind_ok in E. destruct E as (cs&s5&Ecs&E).
  apply mbind_ok in E. destruct E as (wl&s6&Ewl&E). injection E as <- _.
  unfold seek_start in Es1, Es2.
  destruct (p1 <=? max_off); [|discriminate]. destruct (p2 <=? max_off); [|discriminate].
  injection Es1 as _ <-. injection Es2 as _ <-.
  apply sound_header in Eh. destruct Eh as (Oe&?&?&?&?&?&?&?&?). cbn [rpos] in *.
  unfold parse_constraints in Ecs. apply mbind_ok in Ecs. destruct Ecs as (u3&s7&Er&Ecs).
  apply reserve_ok in Er. cbn [rpos] in Er.
  apply (sound_mmany _ _ _ _ _ (sound_constraint f (h_field_size h))) in Ecs.
  destruct Ecs as ((Wc1&Wc2)&Oc&_). rewrite Er in Oc.
  assert (Hwl : N.of_nat (length wl) = h_n_wires h /\ Forall (fun l => l < 2 ^ 64) wl /\
     (section_in f 3 (flat_map u64 wl) \/ wl = map N.of_nat (seq 0 (N.to_nat (h_n_wires h))))).
  { destruct (find_section 3 secs) as [p3|] eqn:F3.
    - apply mbind_ok in Ewl. destruct Ewl as (u4&s8&Es3&Ewl). unfold seek_start in Es3.
      destruct (p3 <=? max_off); [|discriminate]. injection Es3 as _ <-.
      unfold parse_wire2label in Ewl. apply mbind_ok in Ewl. destruct Ewl as (u5&s10&Er3&Ewl).
      apply reserve_ok in Er3. cbn [rpos] in Er3.
      apply (sound_mmany _ _ _ _ _ (sound_u64 f)) in Ewl. destruct Ewl as ((Wl1&Wl2)&Ol&_).
      rewrite Er3 in Ol. repeat split; auto. left. eapply section_in_of; eassumption.
    - injection Ewl as <- _. unfold default_labels. rewrite map_length, seq_length, N2Nat.id.
      repeat split; auto. apply Forall_map. apply Forall_forall. intros x Hx. apply in_seq in Hx.
      assert (Hw : h_n_wires h < 2 ^ 32) by assumption. clear - Hx Hw.
      assert (N.of_nat x < h_n_wires h) by lia. eapply N.lt_trans; [exact H|].
      eapply N.lt_trans; [exact Hw|]. reflexivity. }
  destruct Hwl as (Hl1&Hl2&Hl3).
  split; [constructor; assumption|]. split; [exact Hst|].
  split; [eapply section_in_of; [exact E1|exact F1|apply Oe]|].
  split; [eapply section_in_of; [exact E1|exact F2|exact Oc]|]. exact Hl3.
Qed.
