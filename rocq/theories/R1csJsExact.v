(** The WASM r1cs reader: exactly which byte strings it accepts; agreement with the
    command-line reader on arbitrary bytes. *)
From Coq Require Import List Bool Arith NArith ZArith Lia.
From Coq Require Import Strings.Byte.
From Verif Require Import Res Bytes Reader R1cs SpecR1cs R1csFacts R1csMore R1csJs R1csJsFacts R1csJsPanic SpecR1csExact R1csExact.
Import ListNotations.
Local Open Scope N_scope.
Local Open Scope rd_scope.

Section Js.
  Variable f : list byte.
  Hypothesis Hlen : blen f < 2 ^ 31.
  Local Notation W := (2 ^ 32).

  (** Whatever the reader returns is well formed, its encoding is where it started, and it
      stops right after it. *)
  Definition jsound {A} (m : J A) (enc : A -> list byte) (wf : A -> Prop) : Prop :=
    forall p a q, p <= blen f -> m p = (Ok a, q) -> wf a /\ occurs f p (enc a) /\ q = p + blen (enc a).
  Lemma jsound_le {A} (m : J A) enc wf : jsound m enc wf -> forall p a q, p <= blen f -> m p = (Ok a, q) -> q <= blen f.
  Proof. intros H p a q Hp E. destruct (H p a q Hp E) as (_&O&->). exact (occurs_le _ _ _ O). Qed.

  Lemma jsound_index k e : jsound (js_index W f k e) (fun b => b) (fun b => blen b = k).
  Proof.
    intros p b q Hp. unfold js_index. destruct (_ <? _); [discriminate|].
    destruct (slice f p k) as [b'|] eqn:E; [|discriminate]. intros H. injection H as <- <-.
    apply slice_some in E as (pre&rest&Hf&Hpre&Hb). split; [exact Hb|]. split; [exists pre, rest; auto|].
    assert (blen f = p + k + blen rest) by (rewrite Hf, !blen_app; lia). pose proof (len32 f Hlen).
    unfold wadd. rewrite N.mod_small by lia. lia.
  Qed.
  Lemma jsound_u32 : jsound (js_u32 W f) u32 (fun v => v < 2 ^ 32).
  Proof.
    intros p v q Hp H. apply mbind_ok in H as (b&s1&H1&H). injection H as <- <-.
    apply jsound_index in H1 as (Hl&Ho&->); [|exact Hp]. destruct (bytes_u32 f Hlen b Hl) as [E V]. rewrite E. auto.
  Qed.
  Lemma jsound_u64 : jsound (js_u64 W f) u64 (fun v => v < 2 ^ 64).
  Proof.
    intros p v q Hp H. apply mbind_ok in H as (b&s1&H1&H). injection H as <- <-.
    apply jsound_index in H1 as (Hl&Ho&->); [|exact Hp]. destruct (bytes_u64 f Hlen b Hl) as [E V]. rewrite E. auto.
  Qed.
  Lemma jsound_mmany {A} (m : J A) enc wf n : jsound m enc wf ->
    jsound (mmany n m) (flat_map enc) (fun l => N.of_nat (length l) = n /\ Forall wf l).
  Proof.
    intros Hm p l q Hp H. rewrite mmany_spec in H. rewrite <- (N2Nat.id n). revert p l q Hp H.
    induction (N.to_nat n) as [|k IH]; intros p l q Hp H.
    - injection H as <- <-. cbn [flat_map]. split; [auto|]. split; [apply occ_here; [exact Hp|left; reflexivity]|]. rewrite blen_nil. lia.
    - cbn [mlist] in H. apply mbind_ok in H as (x&s1&H1&H). apply mbind_ok in H as (l1&s2&H2&H). injection H as <- <-.
      pose proof (jsound_le _ _ _ Hm _ _ _ Hp H1) as L1. apply Hm in H1 as (W1&O1&->); [|exact Hp].
      apply IH in H2 as ((W2&W3)&O2&->); [|exact L1]. cbn [flat_map List.length]. split; [split; [lia|constructor; assumption]|].
      split; [apply occurs_app; auto|]. rewrite blen_app. lia.
  Qed.
  Lemma jsound_factor fs : jsound (js_factor W f fs) factor_bytes (fun x => fst x < 2 ^ 32 /\ blen (snd x) = fs).
  Proof.
    intros p x q Hp H. unfold js_factor in H. apply mbind_ok in H as (w&s1&H1&H). apply mbind_ok in H as (v&s2&H2&H). injection H as <- <-.
    pose proof (jsound_le _ _ _ jsound_u32 _ _ _ Hp H1) as L1. apply jsound_u32 in H1 as (W1&O1&->); [|exact Hp].
    apply jsound_index in H2 as (W2&O2&->); [|exact L1]. unfold factor_bytes. cbn [fst snd].
    split; [auto|]. split; [apply occurs_app; auto|]. rewrite blen_app. lia.
  Qed.
  Lemma jsound_lc fs : jsound (js_lc W f fs) lc_bytes (lc_ok fs).
  Proof.
    intros p x q Hp H. unfold js_lc in H. apply mbind_ok in H as (n&s1&H1&H).
    pose proof (jsound_le _ _ _ jsound_u32 _ _ _ Hp H1) as L1. apply jsound_u32 in H1 as (W1&O1&->); [|exact Hp].
    apply (jsound_mmany _ _ _ _ (jsound_factor fs)) in H as ((W2&W3)&O2&->); [|exact L1]. unfold lc_bytes, lc_ok. rewrite W2.
    split; [auto|]. split; [apply occurs_app; auto|]. rewrite blen_app. lia.
  Qed.
  Lemma jsound_constraint fs : jsound (js_constraint W f fs) constraint_bytes (constraint_ok fs).
  Proof.
    intros p x q Hp H. unfold js_constraint in H.
    apply mbind_ok in H as (a&s1&H1&H). pose proof (jsound_le _ _ _ (jsound_lc fs) _ _ _ Hp H1) as L1. apply jsound_lc in H1 as (W1&O1&->); [|exact Hp].
    apply mbind_ok in H as (b&s2&H2&H). pose proof (jsound_le _ _ _ (jsound_lc fs) _ _ _ L1 H2) as L2. apply jsound_lc in H2 as (W2&O2&->); [|exact L1].
    apply mbind_ok in H as (c&s3&H3&H). apply jsound_lc in H3 as (W3&O3&->); [|exact L2]. injection H as <- <-.
    unfold constraint_ok, constraint_bytes. cbn [c_a c_b c_c]. split; [auto|]. split.
    - apply occurs_app. split; [exact O1|]. apply occurs_app. auto.
    - rewrite !blen_app. lia.
  Qed.

  Lemma js_header_iff p h : p <= blen f -> ((exists q, js_parse_header W f p = (Ok h, q)) <-> js_header_at f p h).
  Proof.
    intros Hp. split.
    - intros [q H]. unfold js_parse_header in H. apply mbind_ok in H as (fs&s1&H1&H). apply jsound_u32 in H1 as (Hf&Ho&->); [|exact Hp].
      rewrite blen_u32 in H. unfold mbind at 1 in H. cbn [js_get] in H. destruct (N.ltb_spec (blen f) (wadd W (p + 4) fs)) as [Hl|Hl]; cbn [negb] in H; [discriminate|].
      unfold mbind at 1 in H. cbn [js_goto] in H. change (wadd W (p + 4) fs) with ((p + 4 + fs) mod W) in *.
      assert (Hfs : j_field_size h = fs).
      { do 6 (apply mbind_ok in H as (?&?&_&H)). injection H as <- _. reflexivity. }
      unfold js_header_at. rewrite Hfs. set (s2 := (p + 4 + fs) mod W) in *. clearbody s2. clear Hp.
      apply mbind_ok in H as (v1&s3&H1&H). pose proof (jsound_le _ _ _ jsound_u32 _ _ _ Hl H1) as L1. apply jsound_u32 in H1 as (V1&O1&->); [|exact Hl].
      apply mbind_ok in H as (v2&s3&H1&H). pose proof (jsound_le _ _ _ jsound_u32 _ _ _ L1 H1) as L2. apply jsound_u32 in H1 as (V2&O2&->); [|exact L1].
      apply mbind_ok in H as (v3&s3&H1&H). pose proof (jsound_le _ _ _ jsound_u32 _ _ _ L2 H1) as L3. apply jsound_u32 in H1 as (V3&O3&->); [|exact L2].
      apply mbind_ok in H as (v4&s3&H1&H). pose proof (jsound_le _ _ _ jsound_u32 _ _ _ L3 H1) as L4. apply jsound_u32 in H1 as (V4&O4&->); [|exact L3].
      apply mbind_ok in H as (v5&s3&H1&H). pose proof (jsound_le _ _ _ jsound_u64 _ _ _ L4 H1) as L5. apply jsound_u64 in H1 as (V5&O5&->); [|exact L4].
      apply mbind_ok in H as (v6&s3&H1&H). apply jsound_u32 in H1 as (V6&O6&->); [|exact L5]. injection H as <- _.
      cbn [j_field_size j_n_wires j_n_pub_out j_n_pub_in j_n_constraints].
      do 6 (split; [assumption|]). exists (u32 v4 ++ u64 v5). rewrite blen_app, blen_u32, blen_u64. split; [reflexivity|].
      repeat rewrite <- app_assoc. apply occurs_app. split; [exact O1|]. apply occurs_app. split; [exact O2|].
      apply occurs_app. split; [exact O3|]. apply occurs_app. split; [exact O4|]. apply occurs_app. split; [exact O5|exact O6].
    - intros (Hf&V1&V2&V3&V6&Ho&sk&Hsk&H).
      destruct (split_bytes f Hlen 4 sk ltac:(lia)) as (b4&b5&->&B4). rewrite blen_app in Hsk. assert (B5 : blen b5 = 8) by lia. clear Hsk.
      destruct (bytes_u32 f Hlen b4 B4) as [U4 V4], (bytes_u64 f Hlen b5 B5) as [U5 V5].
      rewrite <- app_assoc in H. set (s2 := (p + 4 + j_field_size h) mod W) in *.
      apply occurs_app in H as [O1 H]. apply occurs_app in H as [O2 H]. apply occurs_app in H as [O3 H].
      apply occurs_app in H as [O4 H]. apply occurs_app in H as [O5 O6]. rewrite B4 in *. rewrite B5 in *. rewrite !blen_u32 in *.
      rewrite <- U4 in O4. rewrite <- U5 in O5. pose proof (occurs_le _ _ _ O6) as L6. rewrite blen_u32 in L6.
      eexists. unfold js_parse_header. unfold mbind at 1. rewrite (u32_at f Hlen _ _ Hf Ho). unfold mbind at 1. cbn [js_get].
      change (wadd W (p + 4) (j_field_size h)) with s2.
      replace (blen f <? s2) with false by (symmetry; apply N.ltb_ge; lia). cbn [negb]. unfold mbind at 1. cbn [js_goto].
      unfold mbind at 1. rewrite (u32_at f Hlen _ _ V1 O1). unfold mbind at 1. rewrite (u32_at f Hlen _ _ V2 O2).
      unfold mbind at 1. rewrite (u32_at f Hlen _ _ V3 O3). unfold mbind at 1. rewrite (u32_at f Hlen _ _ V4 O4).
      unfold mbind at 1. rewrite (u64_at f Hlen _ _ V5 O5). unfold mbind at 1. rewrite (u32_at f Hlen _ _ V6 O6). destruct h. reflexivity.
  Qed.

  Lemma js_table_of tab q : js_sections W f 0 = (Ok tab, q) -> js_table f (map entry tab).
  Proof.
    intros H. unfold js_sections in H. apply mbind_ok in H as (m&s1&H1&H). apply jsound_index in H1 as (_&O1&->); [|lia].
    destruct (bytes_eqb m magic_r1cs) eqn:Em; [|discriminate]. apply bytes_eqb_eq in Em. subst m. pose proof (occurs_le _ _ _ O1) as L1.
    apply mbind_ok in H as (v&s2&H2&H). pose proof (jsound_le _ _ _ jsound_u32 _ _ _ L1 H2) as L2. apply jsound_u32 in H2 as (_&O2&->); [|exact L1].
    destruct (N.eqb_spec v 1) as [->|]; [|discriminate].
    apply mbind_ok in H as (n&s3&H3&H). apply jsound_u32 in H3 as (Wn&O3&->); [|exact L2].
    rewrite mmany_spec in H. change (0 + blen magic_r1cs + blen (u32 1) + blen (u32 n)) with 12 in H. apply (sections_ok f Hlen) in H as (Hw&Hl&_); [|reflexivity].
    exists n, q. split; [|split; [exact Hw|rewrite map_length; lia]]. split; [exact Wn|].
    apply occurs_app. split; [exact O1|]. apply occurs_app. auto.
  Qed.
  Lemma js_table_found l : js_table f l -> exists tab q, js_sections W f 0 = (Ok tab, q) /\ map entry tab = l.
  Proof.
    intros (n&q&(Hn&Ha)&Hw&Hl). destruct (sections_at f Hlen l 12 q Hw) as (tab&Ht&E). exists tab, q. split; [|exact E].
    apply occurs_app in Ha as [A1 Ha]. apply occurs_app in Ha as [A2 A3]. rewrite blen_u32 in A3.
    unfold js_sections. unfold mbind at 1. rewrite (jyields_index W f (HWf f Hlen) ascii_r1cs 4 _ eq_refl 0 A1).
    change (bytes_eqb ascii_r1cs magic_r1cs) with true. cbv iota.
    unfold mbind at 1. rewrite (u32_at f Hlen _ 1 eq_refl A2). change (1 =? 1) with true. cbv iota.
    unfold mbind at 1. rewrite (u32_at f Hlen _ n Hn A3), mmany_spec. replace (N.to_nat n) with (List.length l) by lia. exact Ht.
  Qed.
  Lemma js_table_start l ty s : js_table f l -> first_of ty l s -> s <= blen f.
  Proof. intros (n&q&_&Hw&_). exact (first_start f Hlen _ _ _ _ _ Hw). Qed.

  Theorem js_accepts_iff h cs : js_parse_r1cs W f = Ok (h, cs) <-> js_holds f h cs.
  Proof.
    unfold js_parse_r1cs. split.
    - destruct (js_parse_r1cs_m W f 0) as [x s9] eqn:E. cbn [fst]. intros ->. unfold js_parse_r1cs_m in E.
      apply mbind_ok in E as (tab&s1&E1&E). apply js_table_of in E1.
      destruct (find_section 1 tab) as [p1|] eqn:F1; [|discriminate]. apply find_first in F1. pose proof (js_table_start _ _ _ E1 F1) as L1.
      unfold mbind at 1 in E. cbn [js_goto] in E. apply mbind_ok in E as (h'&s3&Eh&E).
      destruct (find_section 2 tab) as [p2|] eqn:F2; [|discriminate]. apply find_first in F2. pose proof (js_table_start _ _ _ E1 F2) as L2.
      unfold mbind at 1 in E. cbn [js_goto] in E. apply mbind_ok in E as (cs'&s5&Ecs&E). injection E as -> -> _.
      apply (jsound_mmany _ _ _ _ (jsound_constraint (j_field_size h))) in Ecs as ((Wc&Wf)&Oc&_); [|exact L2].
      exists (map entry tab), p1, p2. split; [exact E1|]. split; [exact F1|]. split; [apply js_header_iff; [exact L1|exists s3; exact Eh]|].
      split; [exact F2|]. split; [exact Oc|]. auto.
    - intros (l&p1&p2&Ht&F1&Hh&F2&Oc&Wc&Wf). pose proof (js_table_start _ _ _ Ht F1) as L1.
      destruct (js_table_found l Ht) as (tab&q&E&El). rewrite <- El in F1, F2. apply find_first in F1, F2.
      apply js_header_iff in Hh as [s Hh]; [|exact L1].
      unfold js_parse_r1cs_m. unfold mbind at 1. rewrite E, F1. unfold mbind at 1. cbn [js_goto]. unfold mbind at 1. rewrite Hh, F2.
      unfold mbind at 1. cbn [js_goto]. unfold mbind at 1.
      rewrite (jyields_mmany f (js_constraint W f (j_field_size h)) constraint_bytes cs _ Wc) with (p := p2); [reflexivity| |exact Oc].
      eapply Forall_impl; [|exact Wf]. intros c. apply jyields_constraint. exact (HWf f Hlen).
  Qed.
End Js.

(** ** Both readers *)
Lemma inside_cli f max_off p l : blen f <= max_off -> blen f < 2 ^ 63 -> inside f p l -> exists q, cli_walks f max_off p l q.
Proof.
  intros Hm H63. induction 1 as [p|p t len l Ht Ho Hl Hi (q&IH)]; [eexists; constructor|].
  exists q. assert (len < 2 ^ 63) by (clear - Hl H63; lia).
  eapply cli_walks_cons with (next := p + 12 + len); eauto.
  - eapply N.lt_trans; [exact H|reflexivity].
  - rewrite signed64_as_i64 by (eapply N.lt_trans; [exact H|reflexivity]). unfold as_i64.
    destruct (N.ltb_spec len (2 ^ 63)); [lia|]. exfalso. apply N.lt_nge in H. apply H. assumption.
  - lia.
Qed.
Lemma inside_js f p l : blen f < 2 ^ 31 -> inside f p l -> exists q, walks f p l q.
Proof.
  intros H31. pose proof (len32 f H31) as H32. induction 1 as [p|p t len l Ht Ho Hl Hi (q&IH)]; [eexists; constructor|].
  exists q. econstructor; eauto.
  - eapply N.lt_trans with (2 ^ 32); [lia|reflexivity].
  - rewrite N.mod_small by lia. exact IH.
Qed.
Lemma announces_unique f n m : announces f n -> announces f m -> n = m.
Proof.
  intros [Hn (p1&r1&E1&L1)] [Hm (p2&r2&E2&L2)].
  destruct p1; [|rewrite blen_cons in L1; lia]. destruct p2; [|rewrite blen_cons in L2; lia]. cbn [app] in *.
  rewrite E1 in E2. repeat rewrite <- app_assoc in E2. apply app_inv_head in E2. apply app_inv_head in E2.
  apply app_inj_len in E2 as [E2 _]; [|reflexivity]. rewrite <- (u32_val n Hn), <- (u32_val m Hm), E2. reflexivity.
Qed.
Lemma occurs_same f p a b : occurs f p a -> occurs f p b -> blen a = blen b -> a = b.
Proof. intros Ha Hb E. apply occurs_slice in Ha, Hb. rewrite E in Ha. congruence. Qed.
Lemma header_bytes_same f p t len t' len' : t < 2 ^ 32 -> len < 2 ^ 64 -> t' < 2 ^ 32 -> len' < 2 ^ 64 ->
  occurs f p (u32 t ++ u64 len) -> occurs f p (u32 t' ++ u64 len') -> t = t' /\ len = len'.
Proof.
  intros H1 H2 H3 H4 O O'. pose proof (occurs_same _ _ _ _ O O' ltac:(rewrite !blen_app, !blen_u32, !blen_u64; reflexivity)) as E.
  apply app_inj_len in E as [E1 E2]; [|reflexivity].
  split; [rewrite <- (u32_val t H1), <- (u32_val t' H3), E1; reflexivity|rewrite <- (u64_val len H2), <- (u64_val len' H4), E2; reflexivity].
Qed.
Lemma cli_walks_unique f mx p l q : cli_walks f mx p l q -> forall l' q', cli_walks f mx p l' q' -> length l = length l' -> l = l'.
Proof.
  induction 1 as [p|p t len next l q Ht Hl Ho En Hn Hw IH]; intros l' q' H' L; inversion H'; subst; try discriminate; [reflexivity|].
  destruct (header_bytes_same f p t len t0 len0) as [-> ->]; auto.
  assert (next = next0) by lia. subst next0. f_equal. eapply IH; eauto.
Qed.
Lemma walks_unique f p l q : walks f p l q -> forall l' q', walks f p l' q' -> length l = length l' -> l = l'.
Proof.
  induction 1 as [p|p t len l q Ht Hl Ho Hw IH]; intros l' q' H' L; inversion H'; subst; try discriminate; [reflexivity|].
  destruct (header_bytes_same f p t len t0 len0) as [-> ->]; auto. f_equal. eapply IH; eauto.
Qed.
Lemma cli_table_unique f mx l l' : cli_table f mx l -> cli_table f mx l' -> l = l'.
Proof. intros (n&q&A&Hw&L) (n'&q'&A'&Hw'&L'). pose proof (announces_unique _ _ _ A A'). eapply cli_walks_unique; [exact Hw|exact Hw'|lia]. Qed.
Lemma js_table_unique f l l' : js_table f l -> js_table f l' -> l = l'.
Proof. intros (n&q&A&Hw&L) (n'&q'&A'&Hw'&L'). pose proof (announces_unique _ _ _ A A'). eapply walks_unique; [exact Hw|exact Hw'|lia]. Qed.

Lemma pow63 f : blen f < 2 ^ 31 -> blen f < 2 ^ 63.
Proof. intros H. eapply N.lt_trans; [exact H|reflexivity]. Qed.

Theorem same_files f max_off l :
  blen f < 2 ^ 31 -> blen f <= max_off -> table_inside f l ->
  (forall r, r1cs_from_bytes max_off f = Ok r -> js_parse_r1cs (2 ^ 32) f = Ok (js_header_of r, r_constraints r)) /\
  (forall h cs, js_parse_r1cs (2 ^ 32) f = Ok (h, cs) ->
     j_field_size h <= blen f ->
     (forall p3, first_of 3 l p3 -> p3 + 8 * j_n_wires h <= blen f) ->
     exists r, r1cs_from_bytes max_off f = Ok r /\ js_header_of r = h /\ r_constraints r = cs).
Proof.
  intros H31 Hm [Ha Hi]. pose proof (len32 f H31) as H32.
  assert (Tc : cli_table f max_off l) by (destruct (inside_cli f max_off 12 l Hm (pow63 f H31) Hi) as [q Hq]; exists (N.of_nat (length l)), q; auto).
  assert (Tj : js_table f l) by (destruct (inside_js f 12 l H31 Hi) as [q Hq]; exists (N.of_nat (length l)), q; auto).
  split.
  - intros r Hr. apply (cli_accepts_iff f max_off Hm) in Hr as (Hok&l'&p1&p2&T&F1&O1&F2&O2&_).
    pose proof (cli_table_unique _ _ _ _ T Tc) as ->. apply (js_accepts_iff f H31). exists l, p1, p2.
    split; [exact Tj|]. split; [exact F1|]. split; [|split; [exact F2|]; split; [exact O2|]; split; [exact (ok_cs_len r Hok)|exact (ok_cs r Hok)]].
    apply (js_header_iff f H31); [exact (js_table_start f H31 _ _ _ Tj F1)|].
    eexists. apply (jyields_header (2 ^ 32) f (HWf f H31) r Hok p1 O1).
  - intros h cs Hj Hfs H3. apply (js_accepts_iff f H31) in Hj as (l'&p1&p2&T&F1&Hh&F2&O2&Wc&Wf).
    pose proof (js_table_unique _ _ _ T Tj) as ->.
    destruct Hh as (Bf&Bw&Bo&Bi&Bc&Of&sk&Hsk&Oh). pose proof (occurs_le _ _ _ Of) as Lf. rewrite blen_u32 in Lf.
    rewrite N.mod_small in Oh by lia.
    destruct (split_bytes f H31 4 sk ltac:(lia)) as (b4&b5&->&B4). rewrite blen_app in Hsk. assert (B5 : blen b5 = 8) by lia. clear Hsk.
    destruct (bytes_u32 f H31 b4 B4) as [U4 V4], (bytes_u64 f H31 b5 B5) as [U5 V5].
    pose proof (occurs_le _ _ _ Oh) as Lh.
    destruct (occurs_slice_len f H31 (p1 + 4) (j_field_size h)) as (prime&Op&Lp); [lia|].
    assert (Hlab : exists wl, N.of_nat (length wl) = j_n_wires h /\ Forall (fun x => x < 2 ^ 64) wl /\
       ((exists p3, first_of 3 l p3 /\ occurs f p3 (flat_map u64 wl)) \/ (~ In 3 (map fst l) /\ wl = map N.of_nat (seq 0 (N.to_nat (j_n_wires h)))))).
    { destruct (in_dec N.eq_dec 3 (map fst l)) as [Hin|Hin].
      - assert (F3 : exists p3, first_of 3 l p3).
        { clear - Hin. induction l as [|[t p] l IH]; [destruct Hin|]. destruct (N.eq_dec t 3) as [->|Ht].
          - exists p, [], l. split; [reflexivity|intros []].
          - destruct IH as (p3&l1&l2&->&Hn); [destruct Hin as [Hin|Hin]; [exfalso; exact (Ht Hin)|exact Hin]|].
            exists p3, ((t, p) :: l1), l2. split; [reflexivity|]. intros [E|E]; [exact (Ht E)|exact (Hn E)]. }
        destruct F3 as [p3 F3]. specialize (H3 p3 F3).
        assert (Hw : forall k p, p + 8 * N.of_nat k <= blen f -> exists wl, length wl = k /\ Forall (fun x => x < 2 ^ 64) wl /\ occurs f p (flat_map u64 wl)).
        { clear - H31. induction k as [|k IH]; intros p Hp.
          - exists []. split; [reflexivity|]. split; [constructor|]. apply occ_here; [lia|left; reflexivity].
          - destruct (occurs_slice_len f H31 p 8) as (b&Ob&Lb); [lia|]. destruct (bytes_u64 f H31 b Lb) as [E V].
            destruct (IH (p + 8) ltac:(lia)) as (wl&L&Fw&Ow). exists (le_val b :: wl). split; [cbn; congruence|]. split; [constructor; assumption|].
            cbn [flat_map]. rewrite E. apply occurs_app. rewrite Lb. auto. }
        destruct (Hw (N.to_nat (j_n_wires h)) p3 ltac:(lia)) as (wl&L&Fw&Ow). exists wl. split; [lia|]. split; [exact Fw|]. left. exists p3. auto.
      - exists (map N.of_nat (seq 0 (N.to_nat (j_n_wires h)))). rewrite map_length, seq_length. split; [lia|]. split; [|right; auto].
        apply Forall_map. apply Forall_forall. intros x Hx. apply in_seq in Hx.
        assert (N.of_nat x < j_n_wires h) by lia. eapply N.lt_trans; [exact H|]. eapply N.lt_trans; [exact Bw|reflexivity]. }
    destruct Hlab as (wl&Lw&Fw&Hw).
    set (r := R1csFile (j_field_size h) prime (j_n_wires h) (j_n_pub_out h) (j_n_pub_in h) (le_val b4) (le_val b5) (j_n_constraints h) cs wl).
    exists r. split; [|split; [destruct h; reflexivity|reflexivity]].
    apply (cli_accepts_iff f max_off Hm). split; [constructor; assumption|]. exists l, p1, p2. split; [exact Tc|]. split; [exact F1|].
    split; [|split; [exact F2|]; split; [exact O2|]; exact Hw].
    unfold header_payload, r. cbn [r_field_size r_prime r_n_wires r_n_pub_out r_n_pub_in r_n_prv_in r_n_labels r_n_constraints].
    rewrite U4, U5. apply occurs_app. split; [exact Of|]. rewrite blen_u32. apply occurs_app. split; [exact Op|]. rewrite Lp.
    repeat rewrite <- app_assoc in Oh. exact Oh.
Qed.

(** Every standard encoding has its sections inside. *)
Lemma standard_inside f p secs : Forall (fun s => fst s < 2 ^ 32) secs -> occurs f p (flat_map section_bytes secs) ->
  inside f p (map entry (table p secs)).
Proof.
  intros Ht. revert p. induction Ht as [|s secs Hs _ IH]; intros p Ho; [constructor|]. cbn [flat_map] in Ho. apply occurs_app in Ho as [H1 H2].
  pose proof (occurs_le _ _ _ H1) as L. rewrite blen_section in L, H2. cbn [table map]. unfold entry at 1. cbn [fst snd].
  unfold section_bytes in H1. rewrite app_assoc in H1. apply occurs_app in H1 as [H1 _].
  rewrite blen_section. replace (p + (12 + blen (snd s))) with (p + 12 + blen (snd s)) in * by lia.
  eapply inside_cons with (len := blen (snd s)); [exact Hs|exact H1|lia|]. apply IH. exact H2.
Qed.
Lemma standard_table secs : N.of_nat (length secs) < 2 ^ 32 -> Forall (fun s => fst s < 2 ^ 32) secs ->
  table_inside (r1cs_bytes secs) (map entry (table 12 secs)).
Proof.
  intros Hn Ht. assert (L : forall p, length (table p secs) = length secs) by (clear; induction secs; intros p; cbn [table length]; [reflexivity|rewrite IHsecs; reflexivity]).
  assert (O : occurs (r1cs_bytes secs) 0 (r1cs_bytes secs)) by (exists [], []; rewrite app_nil_r; auto).
  unfold r1cs_bytes at 2 in O. split.
  - rewrite map_length, L. split; [exact Hn|]. rewrite app_assoc in O. rewrite app_assoc in O. apply occurs_app in O as [O _]. rewrite <- app_assoc in O. exact O.
  - apply standard_inside; [exact Ht|]. apply occurs_app in O as [_ O]. apply occurs_app in O as [_ O]. apply occurs_app in O as [_ O]. exact O.
Qed.
