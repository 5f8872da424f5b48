(** Exactly which byte strings the two r1cs readers accept, and with which error the
    command-line reader refuses. *)
From Coq Require Import List Bool Arith NArith ZArith Lia.
From Coq Require Import Strings.Byte.
From Verif Require Import Res Bytes Reader R1cs SpecR1cs R1csFacts R1csMore R1csJs R1csJsFacts R1csJsPanic SpecR1csExact.
Import ListNotations.
Local Open Scope N_scope.
Local Open Scope rd_scope.

Lemma signed64_as_i64 len : len < 2 ^ 64 -> signed64 len = as_i64 len.
Proof.
  intros H. unfold signed64, as_i64. change (2 ^ 64) with 18446744073709551616 in H. change (2 ^ 63) with 9223372036854775808.
  change (2 ^ 63)%Z with 9223372036854775808%Z. change (2 ^ 64)%Z with 18446744073709551616%Z.
  destruct (N.ltb_spec len 9223372036854775808) as [L|L].
  - rewrite Z.mod_small; lia.
  - replace ((Z.of_N len + 9223372036854775808) mod 18446744073709551616)%Z with (Z.of_N len + 9223372036854775808 - 18446744073709551616)%Z; [lia|].
    apply Z.mod_unique with 1%Z; [left|]; lia.
Qed.

Lemma find_none_first ty l : find_section ty l = None <-> ~ In ty (map fst (map entry l)).
Proof.
  rewrite map_map. unfold find_section. split.
  - intros H. destruct (find (fun x => fst (fst x) =? ty) l) as [[[t n] p]|] eqn:E; [discriminate|].
    intros Hin. apply in_map_iff in Hin as (x&Ex&Hx). apply (find_none _ _ E) in Hx. cbn in *. apply N.eqb_neq in Hx. apply Hx. exact Ex.
  - intros H. destruct (find (fun x => fst (fst x) =? ty) l) as [[[t n] p]|] eqn:E; [exfalso|reflexivity].
    apply find_some in E as [E1 E2]. apply H. apply in_map_iff. exists (t, n, p). split; [|exact E1]. apply N.eqb_eq in E2. exact E2.
Qed.

Lemma first_unique ty l p p' : first_of ty l p -> first_of ty l p' -> p = p'.
Proof.
  intros (a&b&E&Ha) (c&d&E'&Hc). revert l c E E' Ha Hc. induction a as [|x a IH]; intros l c E E' Ha Hc.
  - subst l. destruct c as [|y c]; [injection E' as E' _; exact E'|]. exfalso. injection E' as <- _. apply Hc. left. reflexivity.
  - subst l. destruct c as [|y c].
    + exfalso. injection E' as -> _. apply Ha. left. reflexivity.
    + injection E' as <- E'. apply (IH _ c eq_refl E'); [intros H; apply Ha; right; exact H|intros H; apply Hc; right; exact H].
Qed.
Lemma first_in ty l p : first_of ty l p -> In ty (map fst l).
Proof. intros (a&b&->&_). rewrite map_app. apply in_or_app. right. left. reflexivity. Qed.

Lemma occ_here f p bs : p <= blen f -> occurs_or_empty f p bs -> occurs f p bs.
Proof.
  intros Hp [->|H]; [|exact H]. apply occurs_slice. change (blen []) with 0.
  destruct (slice f p 0) as [b|] eqn:E; [|apply slice_none in E; lia].
  apply slice_some in E as (pre&rest&_&_&Hb). destruct b; [reflexivity|rewrite blen_cons in Hb; lia].
Qed.

Section Cli.
  Variable f : list byte.
  Variable max_off : N.

  Lemma section_iff p log x s' :
    read_section f max_off (RState p log) = (Ok x, s') <->
    exists t len, t < 2 ^ 32 /\ len < 2 ^ 64 /\ occurs f p (u32 t ++ u64 len) /\ x = (t, len, p + 12) /\
      exists next, Z.of_N next = (Z.of_N (p + 12) + signed64 len)%Z /\ next <= max_off /\ s' = RState next log.
  Proof.
    split.
    - intros H. unfold read_section in H. apply mbind_ok in H as (t&s1&H1&H).
      pose proof (sound_u32 _ _ _ _ H1) as (Wt&Ot&Pt). cbn [rpos] in *. rewrite blen_u32 in Pt.
      apply mbind_ok in H as (len&s2&H2&H).
      pose proof (sound_u64 _ _ _ _ H2) as (Wl&Ol&Pl). rewrite blen_u64 in Pl.
      assert (L : reserved s2 = log).
      { apply mbind_ok in H1 as (b&z&H1&Hr). injection Hr as _ <-. apply mbind_ok in H2 as (b2&z2&H2&Hr). injection Hr as _ <-.
        unfold read_exact in H1, H2. cbn [N.eqb] in H1, H2. change (4 =? 0) with false in H1. change (8 =? 0) with false in H2. cbv iota in H1, H2.
        cbn [rpos reserved] in H1. destruct (slice f p 4) as [c|]; [|discriminate]. injection H1 as _ <-.
        cbn [rpos reserved] in H2. destruct (slice f (p + 4) 8) as [d|]; [|discriminate]. injection H2 as _ <-. reflexivity. }
      exists t, len. split; [exact Wt|]. split; [exact Wl|].
      destruct Ot as [Ot|Ot]; [discriminate Ot|]. destruct Ol as [Ol|Ol]; [discriminate Ol|].
      split; [apply occurs_app; rewrite blen_u32, <- Pt; auto|].
      unfold mbind, get_pos, seek_relative, ret in H.
      destruct ((0 <=? Z.of_N (rpos s2) + as_i64 len) && (Z.of_N (rpos s2) + as_i64 len <=? Z.of_N max_off))%Z eqn:B; [|discriminate].
      injection H as <- <-. apply andb_prop in B as [B1 B2]. apply Z.leb_le in B1, B2. rewrite L.
      replace (rpos s2) with (p + 12) in * by lia. split; [reflexivity|].
      exists (Z.to_N (Z.of_N (p + 12) + as_i64 len)). rewrite (signed64_as_i64 len Wl). split; [rewrite Z2N.id by exact B1; reflexivity|]. split; [lia|reflexivity].
    - intros (t&len&Wt&Wl&O&->&next&En&Hn&->). apply occurs_app in O as [O1 O2]. rewrite blen_u32 in O2.
      unfold read_section, mbind, get_pos, seek_relative, ret, read_u32, read_u64, mbind, read_exact.
      change (4 =? 0) with false. change (8 =? 0) with false. cbv iota. cbn [rpos reserved].
      apply occurs_slice in O1, O2. rewrite blen_u32 in O1. rewrite blen_u64 in O2. rewrite O1. cbn [ret rpos reserved]. rewrite O2.
      cbn [ret rpos reserved]. rewrite (u32_val t Wt), (u64_val len Wl).
      rewrite (signed64_as_i64 len Wl) in En. replace (p + 4 + 8) with (p + 12) by lia. rewrite <- En.
      replace ((0 <=? Z.of_N next) && (Z.of_N next <=? Z.of_N max_off))%Z with true.
      + rewrite N2Z.id. reflexivity.
      + symmetry. apply andb_true_intro. split; apply Z.leb_le; lia.
  Qed.

  Lemma sections_iff n : forall p log l s',
    (exists tab, mlist n (read_section f max_off) (RState p log) = (Ok tab, s') /\ map entry tab = l) <->
    exists q, cli_walks f max_off p l q /\ length l = n /\ s' = RState q log.
  Proof.
    induction n as [|n IH]; intros p log l s'.
    - split.
      + intros (tab&H&E). injection H as <- <-. subst l. exists p. split; [constructor|]. auto.
      + intros (q&H&L&->). destruct l; [|discriminate]. inversion H; subst. exists []. split; reflexivity.
    - split.
      + intros (tab&H&E). cbn [mlist] in H. apply mbind_ok in H as (x&s1&H1&H). apply mbind_ok in H as (tab1&s2&H2&H). injection H as <- <-.
        apply section_iff in H1 as (t&len&Wt&Wl&O&->&next&En&Hn&->).
        destruct (proj1 (IH next log (map entry tab1) s2)) as (q&Hw&L&->); [exists tab1; auto|].
        subst l. exists q. split; [|split; [cbn [map List.length]; congruence|reflexivity]].
        cbn [map]. unfold entry at 1. cbn [fst snd]. econstructor; eauto.
      + intros (q&H&L&->). inversion H; subst; [discriminate|]. cbn [length] in L. injection L as L.
        destruct (proj2 (IH next log l0 (RState q log))) as (tab&Ht&E); [exists q; auto|].
        exists ((t, len, p + 12) :: tab). cbn [mlist map]. split; [|rewrite E; reflexivity].
        unfold mbind at 1. rewrite (proj2 (section_iff p log (t, len, p + 12) (RState next log))).
        * unfold mbind. rewrite Ht. reflexivity.
        * exists t, len. repeat split; auto. exists next. auto.
  Qed.

  (** The first twelve bytes. *)
  Lemma u32_at_iff p log v s' : read_u32 f (RState p log) = (Ok v, s') <->
    v < 2 ^ 32 /\ occurs f p (u32 v) /\ s' = RState (p + 4) log.
  Proof.
    split.
    - intros H. pose proof (sound_u32 _ _ _ _ H) as (Wv&Ov&Pv). split; [exact Wv|].
      destruct Ov as [Ov|Ov]; [discriminate Ov|]. split; [exact Ov|].
      apply mbind_ok in H as (b&z&H&Hr). injection Hr as _ <-. unfold read_exact in H. change (4 =? 0) with false in H. cbv iota in H.
      cbn [rpos reserved] in H. destruct (slice f p 4); [|discriminate]. injection H as _ <-. reflexivity.
    - intros (Wv&Ov&->). apply occurs_slice in Ov. rewrite blen_u32 in Ov. unfold read_u32, mbind, read_exact.
      change (4 =? 0) with false. cbv iota. cbn [rpos reserved]. rewrite Ov. cbn [ret]. unfold ret. rewrite (u32_val v Wv). reflexivity.
  Qed.

  Lemma table_iff tab s' : read_sections f max_off (RState 0 []) = (Ok tab, s') ->
    cli_table f max_off (map entry tab).
  Proof.
    intros H. unfold read_sections in H. apply mbind_ok in H as (m&s1&H1&H).
    destruct (bytes_eqb m magic_r1cs) eqn:Em; [|discriminate]. apply bytes_eqb_eq in Em. subst m.
    pose proof (sound_read_exact _ _ _ _ _ H1) as (_&O1&P1). destruct O1 as [O1|O1]; [discriminate O1|]. cbn [rpos] in *.
    change (blen magic_r1cs) with 4 in P1. destruct s1 as [p1 l1]. cbn [rpos] in P1. subst p1.
    apply mbind_ok in H as (v&s2&H2&H). apply u32_at_iff in H2 as (_&O2&->).
    destruct (N.eqb_spec v 1) as [->|]; [|discriminate]. apply mbind_ok in H as (n&s3&H3&H). apply u32_at_iff in H3 as (Wn&O3&->).
    rewrite mmany_spec in H. change (0 + 4 + 4 + 4) with 12 in H.
    destruct (proj1 (sections_iff (N.to_nat n) 12 l1 (map entry tab) s')) as (q&Hw&L&->); [exists tab; auto|].
    exists n, q. split; [|split; [exact Hw|lia]]. split; [exact Wn|].
    apply occurs_app. split; [exact O1|]. apply occurs_app. split; [exact O2|exact O3].
  Qed.
  Lemma table_found l : cli_table f max_off l ->
    exists tab q, read_sections f max_off (RState 0 []) = (Ok tab, RState q []) /\ map entry tab = l.
  Proof.
    intros (n&q&(Wn&O)&Hw&L). apply occurs_app in O as [O1 O]. apply occurs_app in O as [O2 O3]. rewrite blen_u32 in O3.
    destruct (proj2 (sections_iff (N.to_nat n) 12 [] l (RState q []))) as (tab&Ht&E); [exists q; repeat split; auto; lia|].
    exists tab, q. split; [|exact E]. unfold read_sections. unfold mbind at 1.
    unfold read_exact. change (4 =? 0) with false. cbv iota. cbn [rpos reserved]. apply occurs_slice in O1. change (blen ascii_r1cs) with 4 in O1. rewrite O1.
    change (bytes_eqb ascii_r1cs magic_r1cs) with true. cbv iota. unfold mbind at 1.
    rewrite (proj2 (u32_at_iff (0 + 4) [] 1 _) (conj eq_refl (conj O2 eq_refl))). change (1 =? 1) with true. cbv iota.
    unfold mbind at 1. change (0 + blen ascii_r1cs + 4) with (0 + 4 + 4) in O3.
    rewrite (proj2 (u32_at_iff (0 + 4 + 4) [] n _) (conj Wn (conj O3 eq_refl))), mmany_spec. exact Ht.
  Qed.

  Lemma cli_start p l q ty s : cli_walks f max_off p l q -> first_of ty l s -> s <= blen f.
  Proof.
    intros Hw (l1&l2&E&_). assert (Hin : In (ty, s) l) by (rewrite E; apply in_or_app; right; left; reflexivity). clear E.
    induction Hw as [|p t len next l q Ht Hl Ho En Hn Hw IH]; [destruct Hin|]. destruct Hin as [Hin|Hin]; [|exact (IH Hin)].
    injection Hin as _ <-. apply occurs_le in Ho. rewrite blen_app, blen_u32, blen_u64 in Ho. lia.
  Qed.

  Lemma table_start l ty s : cli_table f max_off l -> first_of ty l s -> s <= blen f.
  Proof. intros (n&q&_&Hw&_). exact (cli_start _ _ _ _ _ Hw). Qed.

  Hypothesis Hmax : blen f <= max_off.

  Theorem cli_accepts_iff r : r1cs_from_bytes max_off f = Ok r <-> cli_holds f max_off r.
  Proof.
    unfold r1cs_from_bytes. split.
    - destruct (from_bytes_m f max_off (RState 0 [])) as [x s9] eqn:E. cbn [fst]. intros ->. 
      assert (Hr : r1cs_from_bytes max_off f = Ok r) by (unfold r1cs_from_bytes; rewrite E; reflexivity).
      apply r1cs_sound in Hr as (Hok&_). split; [exact Hok|]. clear Hok.
      unfold from_bytes_m in E. apply mbind_ok in E as (tab&s1&E1&E). apply table_iff in E1.
      destruct (find_section 1 tab) as [p1|] eqn:F1; [|discriminate]. apply find_first in F1.
      pose proof (table_start _ _ _ E1 F1) as L1.
      apply mbind_ok in E as (u1&s2&Es1&E). apply mbind_ok in E as (h&s3&Eh&E).
      destruct (find_section 2 tab) as [p2|] eqn:F2; [|discriminate]. apply find_first in F2.
      pose proof (table_start _ _ _ E1 F2) as L2.
      apply mbind_ok in E as (u2&s4&Es2&E). apply mbind_ok in E as (cs&s5&Ecs&E).
      apply mbind_ok in E as (wl&s6&Ewl&E). injection E as <- _.
      rewrite seek_start_ok in Es1 by lia. rewrite seek_start_ok in Es2 by lia. injection Es1 as _ <-. injection Es2 as _ <-.
      apply sound_header in Eh as (Oe&_). cbn [rpos] in *.
      unfold parse_constraints in Ecs. apply mbind_ok in Ecs as (u3&s7&Er&Ecs). apply reserve_ok in Er. cbn [rpos] in Er.
      apply (sound_mmany _ _ _ _ _ (sound_constraint f (h_field_size h))) in Ecs as (_&Oc&_). rewrite Er in Oc.
      exists (map entry tab), p1, p2. split; [exact E1|]. split; [exact F1|]. split; [apply occ_here; [exact L1|apply Oe]|].
      split; [exact F2|]. split; [apply occ_here; [exact L2|exact Oc]|].
      destruct (find_section 3 tab) as [p3|] eqn:F3.
      + left. apply find_first in F3. pose proof (table_start _ _ _ E1 F3) as L3.
        apply mbind_ok in Ewl as (u4&s8&Es3&Ewl). rewrite seek_start_ok in Es3 by lia. injection Es3 as _ <-.
        unfold parse_wire2label in Ewl. apply mbind_ok in Ewl as (u5&s10&Er3&Ewl). apply reserve_ok in Er3. cbn [rpos] in Er3.
        apply (sound_mmany _ _ _ _ _ (sound_u64 f)) in Ewl as (_&Ol&_). rewrite Er3 in Ol.
        exists p3. split; [exact F3|]. apply occ_here; [exact L3|exact Ol].
      + right. apply find_none_first in F3. split; [exact F3|]. injection Ewl as <- _. reflexivity.
    - intros (Hok&l&p1&p2&Ht&F1&O1&F2&O2&F3). destruct (table_found l Ht) as (tab&q&E&El).
      pose proof (table_start _ _ _ Ht F1) as L1. pose proof (table_start _ _ _ Ht F2) as L2.
      rewrite <- El in F1, F2, F3, Ht. apply find_first in F1, F2.
      unfold from_bytes_m. unfold mbind at 1. rewrite E, F1. unfold mbind at 1. rewrite seek_start_ok by lia. cbn [reserved].
      destruct (yields_header f r Hok (RState p1 []) O1) as [l1 E1]. unfold mbind at 1. rewrite E1, F2.
      unfold mbind at 1. rewrite seek_start_ok by lia. cbn [header_of h_n_constraints h_field_size h_n_wires reserved].
      destruct (yields_constraints f r Hok (RState p2 l1) O2) as [l2 E2]. unfold mbind at 1. rewrite E2.
      assert (E3 : exists s3, (match find_section 3 tab with
                 | Some p => do _ <- seek_start max_off p ; parse_wire2label f (r_n_wires r)
                 | None => do _ <- reserve (r_n_wires r * 8) ; ret (default_labels (r_n_wires r))
                 end) (RState (p2 + blen (constraints_payload r)) l2) = (Ok (r_wire2label r), s3)).
      { destruct F3 as [(p3&F3&O3)|[F3 Hw]].
        - pose proof (table_start _ _ _ Ht F3) as L3. apply find_first in F3. rewrite F3. unfold mbind at 1. rewrite seek_start_ok by lia.
          cbn [reserved]. destruct (yields_labels f r Hok (RState p3 l2) O3) as [l3 E3]. rewrite E3. eexists; reflexivity.
        - apply find_none_first in F3. rewrite F3. unfold mbind, reserve, ret. rewrite Hw. eexists; reflexivity. }
      destruct E3 as [s3 E3]. unfold mbind at 1. cbn [rpos] in *. rewrite E3. destruct r. reflexivity.
  Qed.
End Cli.
