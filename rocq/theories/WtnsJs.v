(** Facts about the WASM witness reader. *)
From Coq Require Import List Bool Arith NArith ZArith Lia.
From Coq Require Import Strings.Byte.
From Verif Require Import Res Bytes Reader R1cs SpecR1cs R1csFacts R1csJs R1csJsFacts Fld Bn254 Zp Wtns SpecWtns WtnsFacts.
Import ListNotations.
Local Open Scope N_scope.
Local Open Scope rd_scope.

Section Js.
  Variable W : N.
  Variable f : list byte.
  Hypothesis Hf : 2 * blen f < W.

  Lemma jw_index_ok p bs k : blen bs = k -> occurs f p bs -> jw_index W f k p = (Ok bs, p + k).
  Proof.
    intros <- H. pose proof (occurs_le _ _ _ H) as Hl. unfold jw_index, wadd.
    apply occurs_slice in H. rewrite H. rewrite N.mod_small by lia. reflexivity.
  Qed.
  Lemma jw_u32_ok p v : v < 2 ^ 32 -> occurs f p (u32 v) -> jw_u32 W f p = (Ok v, p + 4).
  Proof.
    intros Hv H. unfold jw_u32, mbind. rewrite (jw_index_ok p (u32 v) 4 (blen_u32 v) H).
    unfold ret. rewrite u32_val by exact Hv. reflexivity.
  Qed.
  Lemma jw_u64_ok p v : v < 2 ^ 64 -> occurs f p (u64 v) -> jw_u64 W f p = (Ok v, p + 8).
  Proof.
    intros Hv H. unfold jw_u64, mbind. rewrite (jw_index_ok p (u64 v) 8 (blen_u64 v) H).
    unfold ret. rewrite u64_val by exact Hv. reflexivity.
  Qed.

  Lemma bytes_to_fr_firstn v m : blen v = m ->
    bytes_to_fr (firstn (N.to_nat (N.min m 32)) v) = element_value v.
  Proof.
    intros H. rewrite bytes_to_fr_value. unfold element_value, residue. rewrite firstn_firstn.
    replace (firstn (Nat.min 32 (N.to_nat (N.min m 32))) v) with (firstn 32 v); [reflexivity|].
    destruct (N.le_gt_cases 32 m) as [Hm|Hm].
    - replace (Nat.min 32 (N.to_nat (N.min m 32))) with 32%nat by lia. reflexivity.
    - unfold blen in H. rewrite !firstn_all2 by lia. reflexivity.
  Qed.

  Lemma jw_loop_ok n8 vals tail fuel acc p :
    n8 <> 0 -> n8 <= blen f -> Forall (fun v => blen v = n8) vals -> blen tail < n8 ->
    occurs f p (concat vals ++ tail) -> (length vals < fuel)%nat ->
    exists q, jw_loop W f fuel n8 (p + blen (concat vals ++ tail)) acc p
              = (Ok (acc ++ map element_value vals), q).
  Proof.
    intros Hn Hnf Hv Ht. revert p fuel acc. induction Hv as [|v vals Hv Hvs IH]; intros p fuel acc Ho Hfu.
    - destruct fuel as [|fuel]; [cbn in Hfu; lia|]. cbn [jw_loop concat app map] in *.
      pose proof (occurs_le _ _ _ Ho) as Hl. unfold wadd. rewrite N.mod_small by lia.
      destruct (N.leb_spec (p + n8) (p + blen tail)); [lia|]. exists p. rewrite app_nil_r. reflexivity.
    - destruct fuel as [|fuel]; [cbn in Hfu; lia|]. cbn [jw_loop concat app map] in *.
      pose proof (occurs_le _ _ _ Ho) as Hl. rewrite <- app_assoc in *. rewrite blen_app in *.
      unfold wadd. rewrite N.mod_small by lia. rewrite Hv in *.
      destruct (N.leb_spec (p + n8) (p + (n8 + blen (concat vals ++ tail)))); [|lia].
      apply occurs_app in Ho. destruct Ho as [Ho1 Ho2]. rewrite Hv in Ho2.
      assert (Hs : slice f p (N.min n8 32) = Some (firstn (N.to_nat (N.min n8 32)) v)).
      { assert (Hx : occurs f p (firstn (N.to_nat (N.min n8 32)) v)).
        { rewrite <- (firstn_skipn (N.to_nat (N.min n8 32)) v) in Ho1. apply occurs_app in Ho1. tauto. }
        apply occurs_slice in Hx. rewrite <- Hx. f_equal. unfold blen in *. rewrite firstn_length. lia. }
      rewrite Hs, (bytes_to_fr_firstn v n8 Hv).
      destruct (IH (p + n8) fuel (acc ++ [element_value v]) Ho2 ltac:(cbn in Hfu; lia)) as [q Hq].
      exists q. rewrite <- app_assoc in Hq. cbn [app] in Hq. rewrite ?blen_app in *. rewrite N.add_assoc. exact Hq.
  Qed.

  Lemma jw_loop_zero fuel send acc p : p <= send -> p <= blen f ->
    jw_loop W f fuel 0 send acc p = (Err JsOutOfFuel, p).
  Proof.
    intros H1 H2. revert acc. induction fuel as [|fuel IH]; intros acc; [reflexivity|].
    cbn [jw_loop]. unfold wadd. rewrite N.add_0_r, N.mod_small by lia.
    destruct (N.leb_spec p send); [|lia]. unfold slice. cbn [N.min].
    rewrite N.add_0_r. destruct (N.leb_spec p (blen f)); [|lia]. apply IH.
  Qed.

  (** One well-formed section. *)
  Lemma jw_section_ok n8 w s p fuel :
    wsec_ok s -> W <= 2 ^ 64 -> occurs f p (section_bytes (wsec_type s, wsec_payload s)) ->
    (length f < fuel)%nat -> n8 <= blen f ->
    match s with
    | WHeader pr _ => jw_section W f fuel (n8, w) p = (Ok (blen pr, w), p + blen (section_bytes (wsec_type s, wsec_payload s))) /\ blen pr <= blen f
    | WOther _ _ => jw_section W f fuel (n8, w) p = (Ok (n8, w), p + blen (section_bytes (wsec_type s, wsec_payload s)))
    | WData d => 
        (n8 = 0 -> fst (jw_section W f fuel (n8, w) p) = Err JsOutOfFuel) /\
        (forall vals tail, n8 <> 0 -> d = concat vals ++ tail -> Forall (fun v => blen v = n8) vals ->
           blen tail < n8 ->
           jw_section W f fuel (n8, w) p = (Ok (n8, w ++ map element_value vals), p + blen (section_bytes (wsec_type s, wsec_payload s))))
    end.
  Proof.
    intros Hs HW H Hfuel Hn8. pose proof (occurs_le _ _ _ H) as Hlen. rewrite blen_section in *. cbn [snd] in *.
    unfold section_bytes in H. cbn [fst snd] in H. apply occurs_app in H. destruct H as [H1 H].
    apply occurs_app in H. destruct H as [H2 H3]. rewrite blen_u32, ?blen_u64 in *.
    assert (Hty : wsec_type s < 2 ^ 32).
    { destruct s; cbn in *; [reflexivity|reflexivity|tauto]. }
    assert (Hsz : blen (wsec_payload s) < 2 ^ 64) by (clear - Hlen Hf HW; lia).
    assert (Hsend : wadd W (p + 4 + 8) (blen (wsec_payload s) mod W) = p + 4 + 8 + blen (wsec_payload s)).
    { unfold wadd. rewrite (N.mod_small (blen _)) by (clear - Hlen Hf; lia).
      apply N.mod_small. clear - Hlen Hf. lia. }
    assert (Heq : jw_section W f fuel (n8, w) p =
      (do acc' <- (if wsec_type s =? 1 then do n8' <- jw_u32 W f ; ret (n8', w)
                else if wsec_type s =? 2 then do w' <- jw_loop W f fuel n8 (p + 4 + 8 + blen (wsec_payload s)) w ; ret (n8, w')
                else ret (n8, w)) ;
       do _ <- js_goto (p + 4 + 8 + blen (wsec_payload s)) ; ret acc') (p + 4 + 8)).
    { unfold jw_section.
      unfold mbind at 1. rewrite (jw_u32_ok _ _ Hty H1).
      unfold mbind at 1. rewrite (jw_u64_ok _ (blen (wsec_payload s)) Hsz H2).
      unfold mbind at 1. unfold js_get at 1. rewrite Hsend. reflexivity. }
    destruct s as [pr n|d|ty pl]; cbn [wsec_type wsec_payload] in *.
    - change (1 =? 1) with true in *. cbv iota in *. destruct Hs as [Hp Hn].
      apply occurs_app in H3. destruct H3 as [H3 H4]. rewrite !blen_app in *. split; [|clear - Hlen; lia].
      rewrite Heq. unfold mbind. rewrite (jw_u32_ok _ _ Hp H3). unfold ret, js_goto. pair_lia.
    - change (2 =? 1) with false in *. change (2 =? 2) with true in *. cbv iota in *. split.
      + intros ->. rewrite Heq. unfold mbind. rewrite jw_loop_zero; [reflexivity|lia|lia].
      + intros vals tail Hnz -> Hv Ht.
        assert (Hl : (length vals <= length f)%nat).
        { rewrite blen_app in Hlen. unfold blen in Hlen.
          assert (Hc : length (concat vals) = (length vals * N.to_nat n8)%nat).
          { apply concat_length_const. eapply Forall_impl; [|exact Hv]. cbn. unfold blen. intros; lia. }
          rewrite Hc in Hlen. clear - Hlen Hnz. nia. }
        destruct (jw_loop_ok n8 vals tail fuel w (p + 4 + 8) Hnz Hn8 Hv Ht H3 ltac:(lia)) as [q Hq].
        rewrite Heq. unfold mbind. rewrite Hq. unfold ret, js_goto. pair_lia.
    - destruct Hs as (Hne1&Hne2&_). apply N.eqb_neq in Hne1, Hne2. rewrite Hne1, Hne2 in *.
      rewrite Heq. unfold mbind, ret, js_goto. pair_lia.
  Qed.

  Lemma jw_sections_ok n8 secs r : js_reads n8 secs r -> forall w p fuel,
    Forall wsec_ok secs -> W <= 2 ^ 64 ->
    occurs f p (flat_map (fun s => section_bytes (wsec_type s, wsec_payload s)) secs) ->
    (length f < fuel)%nat -> n8 <= blen f ->
    match r with
    | Some l => exists n8' q, nat_rep (length secs) (jw_section W f fuel) (n8, w) p = (Ok (n8', w ++ l), q)
    | None => fst (nat_rep (length secs) (jw_section W f fuel) (n8, w) p) = Err JsOutOfFuel
    end.
  Proof.
    intros Hr. induction Hr; intros w0 p0 fuel Hs HW Ho Hfu Hn8.
    - exists w, p0. rewrite app_nil_r. reflexivity.
    - inversion Hs as [|? ? Hs1 Hs2]; subst. cbn [flat_map] in Ho. apply occurs_app in Ho. destruct Ho as [Ho1 Ho2].
      cbn [length nat_rep]. unfold mbind.
      destruct (jw_section_ok w w0 _ _ fuel Hs1 HW Ho1 Hfu Hn8) as [E Hle]. rewrite E. apply IHHr; assumption.
    - inversion Hs as [|? ? Hs1 Hs2]; subst. cbn [flat_map] in Ho. apply occurs_app in Ho. destruct Ho as [Ho1 Ho2].
      cbn [length nat_rep]. unfold mbind.
      rewrite (jw_section_ok w w0 _ _ fuel Hs1 HW Ho1 Hfu Hn8). apply IHHr; assumption.
    - inversion Hs as [|? ? Hs1 Hs2]; subst. cbn [flat_map] in Ho. apply occurs_app in Ho. destruct Ho as [Ho1 Ho2].
      cbn [length nat_rep]. unfold mbind.
      destruct (jw_section_ok 0 w0 _ _ fuel Hs1 HW Ho1 Hfu Hn8) as [E _]. specialize (E eq_refl).
      destruct (jw_section W f fuel (0, w0) p0) as [[a|e|] s']; cbn in E |- *; try discriminate. exact E.
    - inversion Hs as [|? ? Hs1 Hs2]; subst. cbn [flat_map] in Ho. apply occurs_app in Ho. destruct Ho as [Ho1 Ho2].
      cbn [length nat_rep]. unfold mbind.
      destruct (jw_section_ok w w0 _ _ fuel Hs1 HW Ho1 Hfu Hn8) as [_ E].
      rewrite (E vals tail) by auto.
      specialize (IHHr (w0 ++ map element_value vals) (p0 + blen (section_bytes (wsec_type (WData (concat vals ++ tail)), wsec_payload (WData (concat vals ++ tail))))) fuel Hs2 HW Ho2 Hfu Hn8).
      destruct r as [l|]; [|exact IHHr]. rewrite <- app_assoc in IHHr. exact IHHr.
  Qed.
End Js.

Theorem js_wtns_exact W secs r fuel :
  js_reads 0 secs r -> Forall wsec_ok secs -> N.of_nat (length secs) < 2 ^ 32 ->
  2 * blen (wtns_bytes secs) < W -> W <= 2 ^ 64 -> (length (wtns_bytes secs) < fuel)%nat ->
  js_parse_witness W (wtns_bytes secs) fuel = match r with Some l => Ok l | None => Err JsOutOfFuel end.
Proof.
  intros Hr Hs Hn Hf HW Hfuel. set (f := wtns_bytes secs) in *.
  destruct (occurs_wtns secs) as (H1&H2&H3&H4). fold f in H1, H2, H3, H4.
  unfold js_parse_witness, jw_parse_m.
  unfold mbind at 1. rewrite (jyields_index W f ltac:(lia) ascii_wtns 4 JsWrongMagic eq_refl 0 H1).
  replace (bytes_eqb ascii_wtns magic_wtns) with true by reflexivity.
  unfold mbind at 1. change (0 + blen ascii_wtns) with 4. rewrite (jw_u32_ok W f Hf 4 2 ltac:(reflexivity) H2).
  change (2 =? 2) with true. cbv iota.
  unfold mbind at 1. change (4 + 4) with 8. rewrite (jw_u32_ok W f Hf _ _ Hn H3).
  unfold mbind at 1. change (8 + 4) with 12. rewrite n_rep_nat, Nat2N.id.
  pose proof (jw_sections_ok W f Hf 0 secs r Hr [] 12 fuel Hs HW H4 Hfuel ltac:(lia)) as E.
  destruct r as [l|].
  - destruct E as (n8&q&->). reflexivity.
  - destruct (nat_rep _ _ _ _) as [[a|e|] q]; cbn in E |- *; try discriminate. injection E as ->. reflexivity.
Qed.

(** Every sequence of sections has a reading. *)
Lemma js_reads_total secs w : exists r, js_reads w secs r.
Proof.
  revert w; induction secs as [|s secs IH]; intros w; [eexists; constructor|].
  destruct s as [p n|d|ty pl].
  - destruct (IH (blen p)) as [r Hr]. exists r. constructor. exact Hr.
  - destruct (N.eq_dec w 0) as [->|Hw]; [eexists; constructor|]. destruct (IH w) as [r Hr].
    set (k := (length d / N.to_nat w)%nat).
    assert (Hwn : N.to_nat w <> 0%nat) by lia.
    pose proof (Nat.div_mod (length d) (N.to_nat w) Hwn) as Hdm. fold k in Hdm.
    pose proof (Nat.mod_upper_bound (length d) (N.to_nat w) Hwn) as Hub.
    assert (Hlen : length (firstn (k * N.to_nat w) d) = (k * N.to_nat w)%nat).
    { rewrite firstn_length. lia. }
    destruct (chunks_spec (firstn (k * N.to_nat w) d) (N.to_nat w) k Hlen) as (C1&C2&C3).
    eexists. eapply JRdata with (vals := chunks (firstn (k * N.to_nat w) d) (N.to_nat w) k)
      (tail := skipn (k * N.to_nat w) d); [exact Hw| | | |exact Hr].
    + rewrite C1. symmetry. apply firstn_skipn.
    + eapply Forall_impl; [|exact C2]. cbn. unfold blen. intros; lia.
    + unfold blen. rewrite skipn_length. lia.
  - destruct (IH w) as [r Hr]. exists r. constructor. exact Hr.
Qed.

(** ** Termination on arbitrary bytes (wasm32) *)
Section Term.
  Let W := 2 ^ 32.
  Variable f : list byte.
  Hypothesis Hf : blen f < 2 ^ 31.

  Lemma loop_up fuel n8 send acc p : n8 <> 0 -> n8 <= 2 ^ 31 -> blen f < p + N.of_nat fuel -> (0 < fuel)%nat ->
    fst (jw_loop W f fuel n8 send acc p) <> Err JsOutOfFuel.
  Proof.
    intros Hn Hle. revert acc p. induction fuel as [|fuel IH]; intros acc p Hm Hpos; [lia|].
    cbn [jw_loop]. destruct (wadd W p n8 <=? send); [|discriminate].
    destruct (slice f p (N.min n8 32)) as [b|] eqn:E; [|discriminate].
    assert (Hp : p + N.min n8 32 <= blen f).
    { unfold slice in E. destruct (N.leb_spec (p + N.min n8 32) (blen f)); [assumption|discriminate]. }
    assert (E' : wadd W p n8 = p + n8).
    { unfold wadd. apply N.mod_small. unfold W. clear - Hp Hf Hle. lia. }
    rewrite E'. apply IH; clear - Hm Hp Hn; lia.
  Qed.

  Lemma loop_down fuel n8 send acc p : 2 ^ 31 < n8 -> n8 < W -> p + 1 < N.of_nat fuel \/ blen f < p /\ (0 < fuel)%nat ->
    fst (jw_loop W f fuel n8 send acc p) <> Err JsOutOfFuel.
  Proof.
    intros Hn HW. revert acc p. induction fuel as [|fuel IH]; intros acc p Hm; [lia|].
    cbn [jw_loop]. destruct (wadd W p n8 <=? send); [|discriminate].
    destruct (slice f p (N.min n8 32)) as [b|] eqn:E; [|discriminate].
    assert (Hp : p + N.min n8 32 <= blen f).
    { unfold slice in E. destruct (N.leb_spec (p + N.min n8 32) (blen f)); [assumption|discriminate]. }
    destruct (N.lt_ge_cases (p + n8) W) as [Hlt|Hge].
    - assert (E' : wadd W p n8 = p + n8) by (unfold wadd; apply N.mod_small; exact Hlt).
      rewrite E'. apply IH. right. unfold W in *. clear - Hn Hf Hm Hp. lia.
    - assert (E' : wadd W p n8 = p + n8 - W).
      { unfold wadd. replace (p + n8) with (p + n8 - W + 1 * W) at 1 by (clear - Hge; lia).
        rewrite N.mod_add by (unfold W; lia). apply N.mod_small. unfold W in *. clear - Hp Hf HW Hn. lia. }
      rewrite E'. apply IH. left. unfold W in *. clear - Hm Hp HW Hge. lia.
  Qed.

  Lemma loop_ends fuel n8 send acc p : n8 <> 0 -> n8 < W -> (length f + 3 <= fuel)%nat ->
    fst (jw_loop W f fuel n8 send acc p) <> Err JsOutOfFuel.
  Proof.
    intros H1 H2 H3. unfold blen in *. destruct (N.le_gt_cases n8 (2 ^ 31)) as [H|H].
    - apply loop_up; [assumption..| |lia]. unfold blen. lia.
    - apply loop_down; [assumption..|]. unfold blen.
      destruct (N.le_gt_cases p (N.of_nat (length f))) as [Hp|Hp]; [left; lia|right; lia].
  Qed.

  Lemma jw_index_sound k p b q : jw_index W f k p = (Ok b, q) -> blen b = k /\ occurs f p b /\ q = wadd W p k.
  Proof.
    unfold jw_index. destruct (slice f p k) as [s|] eqn:E; [|discriminate]. intros H. injection H as <- <-.
    apply slice_some in E. destruct E as (pre&rest&E1&E2&E3). split; [exact E3|]. split; [|reflexivity].
    exists pre, rest. auto.
  Qed.
  Lemma wadd_small p bs : occurs f p bs -> wadd W p (blen bs) = p + blen bs.
  Proof. intros H. apply occurs_le in H. unfold wadd. apply N.mod_small. unfold W. clear - H Hf. lia. Qed.
  Lemma jw_u32_sound p v q : jw_u32 W f p = (Ok v, q) -> v < 2 ^ 32 /\ occurs f p (u32 v) /\ q = p + 4.
  Proof.
    intros H. apply mbind_ok in H. destruct H as (b&s1&H1&H). injection H as <- <-.
    apply jw_index_sound in H1. destruct H1 as (Hl&Ho&->).
    assert (H4 : length b = 4%nat) by (unfold blen in Hl; lia).
    assert (Hb : u32 (le_val b) = b) by (unfold u32; rewrite <- H4; apply le_bytes_le_val).
    rewrite Hb. split.
    - pose proof (le_val_bound b) as Hv. rewrite H4 in Hv. exact Hv.
    - split; [exact Ho|]. rewrite <- Hl. apply wadd_small. exact Ho.
  Qed.
  Lemma jw_u64_sound p v q : jw_u64 W f p = (Ok v, q) -> occurs f p (u64 v) /\ q = p + 8.
  Proof.
    intros H. apply mbind_ok in H. destruct H as (b&s1&H1&H). injection H as <- <-.
    apply jw_index_sound in H1. destruct H1 as (Hl&Ho&->).
    assert (H4 : length b = 8%nat) by (unfold blen in Hl; lia).
    assert (Hb : u64 (le_val b) = b) by (unfold u64; rewrite <- H4; apply le_bytes_le_val).
    rewrite Hb. split; [exact Ho|]. rewrite <- Hl. apply wadd_small. exact Ho.
  Qed.

  (** Running out of iterations happens only in a data section with width zero. *)
  Lemma jw_section_stuck fuel n8 w p q :
    (length f + 3 <= fuel)%nat -> n8 < W ->
    jw_section W f fuel (n8, w) p = (Err JsOutOfFuel, q) ->
    n8 = 0 /\ exists sz, occurs f p (u32 2 ++ u64 sz).
  Proof.
    intros Hfu HW H. unfold jw_section in H.
    destruct (N.eq_dec n8 0) as [->|Hnz].
    - split; [reflexivity|]. unfold mbind at 1 in H.
      destruct (jw_u32 W f p) as [[ty|e|] s1] eqn:E1; [| |discriminate].
      2:{ exfalso. unfold jw_u32, mbind, jw_index in E1. destruct (slice f p 4); [discriminate|]. discriminate. }
      apply jw_u32_sound in E1. destruct E1 as (Hty&O1&->).
      unfold mbind at 1 in H. destruct (jw_u64 W f (p + 4)) as [[sl|e|] s2] eqn:E2; [| |discriminate].
      2:{ exfalso. unfold jw_u64, mbind, jw_index in E2. destruct (slice f (p + 4) 8); discriminate. }
      apply jw_u64_sound in E2. destruct E2 as (O2&->).
      unfold mbind at 1, js_get at 1 in H.
      destruct (ty =? 1).
      + exfalso. unfold mbind in H. unfold jw_u32, mbind, jw_index in H.
        destruct (slice f (p + 4 + 8) 4); discriminate.
      + destruct (N.eqb_spec ty 2) as [->|]; [|discriminate].
        exists sl. apply occurs_app. split; [exact O1|rewrite blen_u32; exact O2].
    - exfalso. unfold mbind at 1 in H.
      destruct (jw_u32 W f p) as [[ty|e|] s1] eqn:E1; [| |discriminate].
      2:{ unfold jw_u32, mbind, jw_index in E1. destruct (slice f p 4); discriminate. }
      unfold mbind at 1 in H. destruct (jw_u64 W f s1) as [[sl|e|] s2] eqn:E2; [| |discriminate].
      2:{ unfold jw_u64, mbind, jw_index in E2. destruct (slice f s1 8); discriminate. }
      unfold mbind at 1, js_get at 1 in H.
      destruct (ty =? 1).
      + unfold mbind in H. unfold jw_u32, mbind, jw_index in H.
        destruct (slice f s2 4); discriminate.
      + destruct (ty =? 2); [|discriminate]. unfold mbind at 1 2 in H.
        pose proof (loop_ends fuel n8 (wadd W s2 (sl mod W)) w s2 Hnz HW Hfu) as Hl.
        destruct (jw_loop W f fuel n8 _ w s2) as [[a|e|] s3]; cbn in *; [discriminate|injection H as -> _; apply Hl; reflexivity|discriminate].
  Qed.

  Lemma jw_section_acc fuel n8 w p n8' w' q :
    jw_section W f fuel (n8, w) p = (Ok (n8', w'), q) ->
    n8' = n8 \/ n8' < 2 ^ 32 /\ exists sz, occurs f p (u32 1 ++ u64 sz ++ u32 n8').
  Proof.
    intros H. unfold jw_section in H. apply mbind_ok in H. destruct H as (ty&s1&E1&H).
    apply mbind_ok in H. destruct H as (sl&s2&E2&H). apply mbind_ok in H. destruct H as (p0&s3&E3&H).
    injection E3 as <- <-. apply mbind_ok in H. destruct H as ([n w1]&s4&E4&H).
    injection H as -> -> _. apply jw_u32_sound in E1. destruct E1 as (_&O1&->).
    apply jw_u64_sound in E2. destruct E2 as (O2&->).
    destruct (N.eqb_spec ty 1) as [->|]; [|destruct (ty =? 2)].
    - apply mbind_ok in E4. destruct E4 as (n2&s5&E5&E4). injection E4 as -> -> _.
      apply jw_u32_sound in E5. destruct E5 as (Hn&O5&_). right. split; [exact Hn|]. exists sl.
      apply occurs_app. split; [exact O1|]. rewrite blen_u32. apply occurs_app. split; [exact O2|].
      rewrite blen_u64. exact O5.
    - apply mbind_ok in E4. destruct E4 as (n2&s5&E5&E4). injection E4 as -> -> _. auto.
    - injection E4 as -> -> _. auto.
  Qed.

  Theorem js_wtns_stuck fuel :
    (length f + 3 <= fuel)%nat -> js_parse_witness W f fuel = Err JsOutOfFuel ->
    (exists p sz, occurs f p (u32 2 ++ u64 sz)) /\
    ((exists p sz, occurs f p (u32 1 ++ u64 sz ++ u32 0)) \/ ~ exists sz, occurs f 12 (u32 1 ++ u64 sz)).
  Proof.
    intros Hfu. unfold js_parse_witness. destruct (jw_parse_m W f fuel 0) as [r q9] eqn:E. cbn [fst].
    intros ->. unfold jw_parse_m in E. unfold mbind at 1 in E.
    destruct (js_index W f 4 JsWrongMagic 0) as [[m|e|] q1] eqn:E1; [| |discriminate].
    2:{ exfalso. unfold js_index in E1. destruct (blen f <? wadd W 0 4); [injection E1 as <- <-; discriminate|].
        destruct (slice f 0 4); discriminate. }
    assert (Hq1 : q1 = 4).
    { unfold js_index in E1. destruct (blen f <? wadd W 0 4); [discriminate|].
      destruct (slice f 0 4); [|discriminate]. injection E1 as _ <-. reflexivity. }
    subst q1.
    destruct (bytes_eqb m magic_wtns); [|discriminate]. unfold mbind at 1 in E.
    destruct (jw_u32 W f 4) as [[v|e|] q2] eqn:E2; [| |discriminate].
    2:{ exfalso. unfold jw_u32, mbind, jw_index in E2. destruct (slice f 4 4); discriminate. }
    apply jw_u32_sound in E2. destruct E2 as (_&_&->). destruct (v =? 2); [|discriminate].
    change (4 + 4) with 8 in E. unfold mbind at 1 in E.
    destruct (jw_u32 W f 8) as [[n|e|] q2] eqn:E2; [| |discriminate].
    2:{ exfalso. unfold jw_u32, mbind, jw_index in E2. destruct (slice f 8 4); discriminate. }
    apply jw_u32_sound in E2. destruct E2 as (_&_&->). change (8 + 4) with 12 in E.
    unfold mbind in E. rewrite n_rep_nat in E.
    destruct (nat_rep (N.to_nat n) (jw_section W f fuel) (0, []) 12) as [[[n8 w]|e|] q3] eqn:E3; [discriminate| |discriminate].
    injection E as -> ->. apply nat_rep_err in E3. destruct E3 as (k&[n8 w]&s1&_&Hk&Hb).
    set (P := fun acc : N * list Fr => fst acc < W /\ (fst acc = 0 -> exists p sz, occurs f p (u32 1 ++ u64 sz ++ u32 0))).
    set (P0 := fun acc : N * list Fr => fst acc < W).
    assert (HP0 : P0 (n8, w)).
    { refine (nat_rep_acc_inv P0 _ _ k (0, []) 12 _ s1 _ Hk).
      - intros [a1 a2] s [b1 b2] s' Ha Hx. unfold P0 in *. cbn [fst] in *.
        apply jw_section_acc in Hx. destruct Hx as [->|[Hx _]]; [exact Ha|exact Hx].
      - unfold P0, W. cbn. lia. }
    destruct (jw_section_stuck fuel n8 w s1 _ Hfu HP0 Hb) as (->&sz&Hocc).
    split; [eauto|].
    destruct k as [|k].
    - injection Hk as _ <-. right. intros (sz'&H1).
      apply occurs_app in H1. apply occurs_app in Hocc. destruct H1 as [H1 _]. destruct Hocc as [H2 _].
      apply occurs_slice in H1. apply occurs_slice in H2. rewrite !blen_u32 in *. rewrite H1 in H2.
      injection H2. vm_compute. discriminate.
    - cbn [nat_rep] in Hk. apply mbind_ok in Hk. destruct Hk as ([n1 w1]&s2&Hf1&Hk).
      assert (Hstep : forall a s a' s', P a -> jw_section W f fuel a s = (Ok a', s') -> P a').
      { intros [a1 a2] s [b1 b2] s' [Ha1 Ha2] Hx. unfold P in *. cbn [fst] in *.
        apply jw_section_acc in Hx. destruct Hx as [->|[Hx (sz'&Ho)]]; [auto|]. split; [exact Hx|].
        intros ->. eauto. }
      destruct (N.eq_dec n1 0) as [->|Hn1].
      + unfold jw_section in Hf1. apply mbind_ok in Hf1. destruct Hf1 as (ty&t1&F1&Hf1).
        apply mbind_ok in Hf1. destruct Hf1 as (sl&t2&F2&Hf1). apply mbind_ok in Hf1. destruct Hf1 as (p0&t3&F3&Hf1).
        injection F3 as <- <-. apply mbind_ok in Hf1. destruct Hf1 as ([nx w2]&t4&F4&Hf1).
        injection Hf1 as -> _ _. apply jw_u32_sound in F1. destruct F1 as (Htyb&O1&->).
        apply jw_u64_sound in F2. destruct F2 as (O2&->).
        destruct (N.eqb_spec ty 1) as [->|Hty].
        * left. apply mbind_ok in F4. destruct F4 as (n2&t5&F5&F4). injection F4 as -> _ _.
          apply jw_u32_sound in F5. destruct F5 as (_&O5&_). exists 12, sl.
          apply occurs_app. split; [exact O1|]. rewrite blen_u32. apply occurs_app. split; [exact O2|].
          rewrite blen_u64. exact O5.
        * right. intros (sz'&H1). apply occurs_app in H1. destruct H1 as [H1 _].
          apply occurs_slice in H1. apply occurs_slice in O1. rewrite !blen_u32 in *. rewrite H1 in O1.
          assert (O1' : u32 1 = u32 ty) by congruence. apply Hty. rewrite <- (u32_val ty Htyb), <- O1'. reflexivity.
      + left. assert (HP : P (0, w)).
        { refine (nat_rep_acc_inv P _ Hstep k (n1, w1) s2 _ s1 _ Hk).
          unfold P. cbn [fst]. split; [|intros; contradiction].
          apply jw_section_acc in Hf1. destruct Hf1 as [->|[Hx _]]; [contradiction|exact Hx]. }
        destruct HP as [_ HP]. apply HP. reflexivity.
  Qed.
End Term.

(** ** Truncated files *)
Section Trunc.
  Variable W : N.
  Variables f g t : list byte.
  Hypothesis Hf : 2 * blen f < W.
  Hypothesis Hfg : f = g ++ t.
  Hypothesis Ht : t <> [].

  Lemma blen_g : blen g < blen f.
  Proof using Hfg Ht. clear Hf. rewrite Hfg, blen_app. destruct t; [contradiction|]. rewrite blen_cons. lia. Qed.
  Lemma slice_pre p k : slice g p k = if p + k <=? blen g then slice f p k else None.
  Proof using Hfg.
    clear Hf Ht.
    destruct (N.leb_spec (p + k) (blen g)) as [H|H].
    - rewrite Hfg. destruct (slice g p k) as [s|] eqn:E.
      + symmetry. apply slice_mono. exact E.
      + apply slice_none in E. lia.
    - apply slice_none. exact H.
  Qed.
  Lemma jw_u32_pre p v : v < 2 ^ 32 -> occurs f p (u32 v) ->
    jw_u32 W g p = if p + 4 <=? blen g then (Ok v, p + 4) else (Panic, p).
  Proof using Hf Hfg.
    intros Hv Ho. pose proof (jw_u32_ok W f Hf p v Hv Ho) as E. unfold jw_u32, mbind, jw_index in *.
    rewrite slice_pre. destruct (p + 4 <=? blen g); [exact E|reflexivity].
  Qed.
  Lemma jw_u64_pre p v : v < 2 ^ 64 -> occurs f p (u64 v) ->
    jw_u64 W g p = if p + 8 <=? blen g then (Ok v, p + 8) else (Panic, p).
  Proof using Hf Hfg.
    intros Hv Ho. pose proof (jw_u64_ok W f Hf p v Hv Ho) as E. unfold jw_u64, mbind, jw_index in *.
    rewrite slice_pre. destruct (p + 8 <=? blen g); [exact E|reflexivity].
  Qed.

  Lemma jw_loop_trunc n8 vals fuel acc p :
    n8 <> 0 -> n8 <= 32 -> n8 <= blen f -> Forall (fun v => blen v = n8) vals ->
    occurs f p (concat vals) -> p + blen (concat vals) = blen f -> p <= blen g -> (length vals < fuel)%nat ->
    fst (jw_loop W g fuel n8 (blen f) acc p) = Panic.
  Proof.
    intros Hn H32 Hnf Hv. revert p fuel acc. induction Hv as [|v vals Hv Hvs IH]; intros p fuel acc Ho He Hp Hfu.
    - exfalso. cbn [concat] in He. rewrite blen_nil in He. pose proof blen_g. lia.
    - destruct fuel as [|fuel]; [cbn in Hfu; lia|]. cbn [jw_loop concat] in *.
      rewrite blen_app, Hv in *. apply occurs_app in Ho. destruct Ho as [Ho1 Ho2]. rewrite Hv in Ho2.
      unfold wadd. rewrite N.mod_small by lia.
      destruct (N.leb_spec (p + n8) (blen f)); [|lia]. rewrite slice_pre, N.min_l by exact H32.
      destruct (N.leb_spec (p + n8) (blen g)) as [Hin|Hout]; [|reflexivity].
      apply occurs_slice in Ho1. rewrite Hv in Ho1. rewrite Ho1.
      apply IH; [exact Ho2|lia|exact Hin|cbn in Hfu; lia].
  Qed.
End Trunc.

Theorem js_wtns_truncated W prime n vals g t fuel :
  let f := wtns_bytes [WHeader prime n; WData (concat vals)] in
  prime <> [] -> blen prime <= 32 -> n < 2 ^ 32 -> Forall (fun v => blen v = blen prime) vals ->
  2 * blen f < W -> W <= 2 ^ 64 -> f = g ++ t -> t <> [] -> 4 <= blen g -> (length f < fuel)%nat ->
  js_parse_witness W g fuel = Panic.
Proof.
  intros f Hp H32 Hn Hv Hf HW Hfg Ht Hg Hfuel.
  destruct (occurs_wtns [WHeader prime n; WData (concat vals)]) as (H1&H2&H3&H4).
  fold f in H1, H2, H3, H4. cbn [flat_map wsec_type wsec_payload] in H4. rewrite app_nil_r in H4.
  assert (Hlast : occurs f 12 (section_bytes (1, u32 (blen prime) ++ prime ++ u32 n) ++ section_bytes (2, concat vals)) /\
     12 + blen (section_bytes (1, u32 (blen prime) ++ prime ++ u32 n) ++ section_bytes (2, concat vals)) = blen f).
  { split; [exact H4|]. unfold f, wtns_bytes. cbn [flat_map wsec_type wsec_payload]. rewrite app_nil_r.
    rewrite !blen_app, !blen_u32. change (blen ascii_wtns) with 4. lia. }
  destruct Hlast as [_ He]. apply occurs_app in H4. destruct H4 as [Ha Hb].
  rewrite blen_app in He. rewrite !blen_section in He. rewrite blen_section in Hb. cbn [snd] in *.
  unfold section_bytes in Ha, Hb. cbn [fst snd] in Ha, Hb.
  apply occurs_app in Ha. destruct Ha as [A1 Ha]. apply occurs_app in Ha. destruct Ha as [A2 Ha].
  apply occurs_app in Ha. destruct Ha as [A3 _].
  apply occurs_app in Hb. destruct Hb as [B1 Hb]. apply occurs_app in Hb. destruct Hb as [B2 B3].
  rewrite !blen_u32, ?blen_u64 in *. change (12 + 4) with 16 in *.
  change (16 + 8) with 24 in *.
  set (L := blen (u32 (blen prime) ++ prime ++ u32 n)) in *.
  assert (HL : L = 8 + blen prime). { unfold L. rewrite !blen_app, !blen_u32. lia. }
  assert (Hpl : blen prime < 2 ^ 32) by (clear - H32; lia).
  assert (Hpz : blen prime <> 0). { destruct prime; [contradiction|]. rewrite blen_cons. lia. }
  unfold js_parse_witness, jw_parse_m. unfold mbind at 1.
  assert (Hm : js_index W g 4 JsWrongMagic 0 = (Ok ascii_wtns, 4)).
  { unfold js_index, wadd. change (0 + 4) with 4. rewrite N.mod_small by lia.
    destruct (N.ltb_spec (blen g) 4); [lia|]. rewrite (slice_pre f g t Hfg).
    destruct (N.leb_spec (0 + 4) (blen g)); [|lia]. apply occurs_slice in H1.
    change (blen ascii_wtns) with 4 in H1. rewrite H1. reflexivity. }
  rewrite Hm. replace (bytes_eqb ascii_wtns magic_wtns) with true by reflexivity.
  unfold mbind at 1. rewrite (jw_u32_pre W f g t Hf Hfg 4 2 ltac:(reflexivity) H2).
  destruct (4 + 4 <=? blen g); [|reflexivity]. change (2 =? 2) with true. cbv iota.
  unfold mbind at 1. change (4 + 4) with 8. rewrite (jw_u32_pre W f g t Hf Hfg 8 2 ltac:(reflexivity) H3).
  destruct (8 + 4 <=? blen g); [|reflexivity]. change (8 + 4) with 12.
  unfold mbind at 1. rewrite n_rep_nat. change (N.to_nat 2) with 2%nat. cbn [nat_rep].
  (* the header section *)
  unfold mbind at 1. unfold jw_section at 1.
  unfold mbind at 1. rewrite (jw_u32_pre W f g t Hf Hfg 12 1 ltac:(reflexivity) A1).
  destruct (12 + 4 <=? blen g); [|reflexivity].
  assert (HL64 : L < 2 ^ 64) by (clear - HL H32; lia).
  unfold mbind at 1. change (12 + 4) with 16. rewrite (jw_u64_pre W f g t Hf Hfg 16 L HL64 A2).
  destruct (16 + 8 <=? blen g); [|reflexivity]. change (16 + 8) with 24.
  unfold mbind at 1, js_get at 1. change (1 =? 1) with true. cbv iota.
  unfold mbind.
  rewrite (jw_u32_pre W f g t Hf Hfg 24 (blen prime) Hpl A3).
  destruct (24 + 4 <=? blen g); [|reflexivity].
  unfold ret at 1. unfold js_goto at 1.
  assert (Hs1 : wadd W 24 (L mod W) = 12 + (12 + L)).
  { unfold wadd. rewrite (N.mod_small L) by (clear - He Hf; lia). rewrite N.mod_small by (clear - He Hf; lia). lia. }
  rewrite Hs1. unfold ret.
  (* the data section *)
  unfold jw_section at 1.
  unfold mbind at 1. rewrite (jw_u32_pre W f g t Hf Hfg _ 2 ltac:(reflexivity) B1).
  destruct (12 + (12 + L) + 4 <=? blen g); [|reflexivity].
  assert (HC64 : blen (concat vals) < 2 ^ 64) by (clear - He Hf HW; lia).
  unfold mbind at 1. rewrite (jw_u64_pre W f g t Hf Hfg _ _ HC64 B2).
  destruct (N.leb_spec (12 + (12 + L) + 4 + 8) (blen g)) as [Hin|]; [|reflexivity].
  unfold mbind at 1, js_get at 1. change (2 =? 1) with false. change (2 =? 2) with true. cbv iota.
  assert (Hs2 : wadd W (12 + (12 + L) + 4 + 8) (blen (concat vals) mod W) = blen f).
  { unfold wadd. rewrite (N.mod_small (blen _)) by (clear - He Hf; lia).
    rewrite N.mod_small by (clear - He Hf; lia). clear - He. lia. }
  rewrite Hs2. unfold mbind.
  assert (Hlen : (length vals <= length f)%nat).
  { assert (Hc : length (concat vals) = (length vals * length prime)%nat).
    { apply concat_length_const. eapply Forall_impl; [|exact Hv]. cbn. unfold blen. intros; lia. }
    unfold blen in He. rewrite Hc in He. clear - He Hpz. unfold blen in *. nia. }
  pose proof (jw_loop_trunc W f g t Hf Hfg Ht (blen prime) vals fuel [] (12 + (12 + L) + 4 + 8) Hpz H32
     ltac:(clear - He HL; lia) Hv B3 ltac:(clear - He; lia) Hin ltac:(lia)) as E.
  destruct (jw_loop W g fuel (blen prime) (blen f) [] _) as [[a|e|] q]; cbn in E; try discriminate. reflexivity.
Qed.
