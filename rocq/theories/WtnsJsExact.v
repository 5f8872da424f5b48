(** The outcome of the WASM witness reader on arbitrary bytes (32-bit addresses). *)
From Coq Require Import List Bool Arith NArith ZArith Lia.
From Coq Require Import Strings.Byte.
From Verif Require Import Res Bytes Reader R1cs SpecR1cs R1csFacts R1csJs R1csJsFacts R1csJsPanic Fld Bn254 Zp Wtns SpecWtns WtnsFacts WtnsJs.
Import ListNotations.
Local Open Scope N_scope.
Local Open Scope rd_scope.

(** ** Proofs *)
Lemma nat_rep_err {S E A} (body : A -> M S E A) n a s e s' :
  nat_rep n body a s = (Err e, s') -> exists j a1 s1, (j < n)%nat /\ nat_rep j body a s = (Ok a1, s1) /\ body a1 s1 = (Err e, s').
Proof.
  revert a s. induction n as [|n IH]; intros a s H; [discriminate|]. cbn [nat_rep] in H. unfold mbind in H.
  destruct (body a s) as [[a1|e1|] s1] eqn:E1; [| |discriminate].
  - destruct (IH _ _ H) as (j&a2&s2&Hj&H1&H2). exists (Datatypes.S j), a2, s2. split; [lia|]. split; [|exact H2].
    cbn [nat_rep]. unfold mbind. rewrite E1. exact H1.
  - injection H as -> ->. exists 0%nat, a, s. split; [lia|]. split; [reflexivity|exact E1].
Qed.
Lemma nat_rep_err_intro {S E A} (body : A -> M S E A) j n a s a1 s1 e s' :
  (j < n)%nat -> nat_rep j body a s = (Ok a1, s1) -> body a1 s1 = (Err e, s') -> nat_rep n body a s = (Err e, s').
Proof.
  revert j a s. induction n as [|n IH]; intros j a s Hj H1 H2; [lia|]. cbn [nat_rep]. unfold mbind. destruct j as [|j].
  - injection H1 as <- <-. rewrite H2. reflexivity.
  - cbn [nat_rep] in H1. apply mbind_ok in H1 as (a2&s2&H1&H3). rewrite H1. apply (IH j); [lia|exact H3|exact H2].
Qed.

Section Exact.
  Local Notation W := (2 ^ 32).
  Variable f : list byte.
  Hypothesis Hf : blen f < 2 ^ 31.
  Variable fuel : nat.
  Hypothesis Hfuel : (List.length f + 3 <= fuel)%nat.

  Lemma Hf2 : 2 * blen f < W.
  Proof. change (2 ^ 31) with 2147483648 in Hf. change (2 ^ 32) with 4294967296. lia. Qed.

  Lemma loop_sound n w e : forall acc p l q, jw_loop W f n w e acc p = (Ok l, q) -> exists vs, l = acc ++ vs /\ data_run f w e p vs.
  Proof.
    induction n as [|n IH]; intros acc p l q H; [discriminate|]. cbn [jw_loop] in H. unfold wadd in H.
    destruct (N.leb_spec ((p + w) mod W) e) as [Hl|Hl].
    - destruct (slice f p (N.min w 32)) as [b|] eqn:Es; [|discriminate]. apply IH in H as (vs&->&Hr).
      apply slice_some in Es as (pre&rest&E1&E2&E3). exists (element_value b :: vs). split.
      + rewrite <- app_assoc. cbn [app]. rewrite bytes_to_fr_value. reflexivity.
      + apply run_step; [exact Hl|exists pre, rest; auto|exact E3|exact Hr].
    - injection H as <- _. exists []. split; [symmetry; apply app_nil_r|]. constructor. exact Hl.
  Qed.
  Lemma loop_complete w e p vs : data_run f w e p vs -> forall n acc,
    (exists q, jw_loop W f n w e acc p = (Ok (acc ++ vs), q)) \/ fst (jw_loop W f n w e acc p) = Err JsOutOfFuel.
  Proof.
    induction 1 as [p Hl|p b l Hl Ho Hb Hr IH]; intros n acc; (destruct n as [|n]; [right; reflexivity|]); cbn [jw_loop]; unfold wadd.
    - left. exists p. rewrite app_nil_r. destruct (N.leb_spec ((p + w) mod W) e); [lia|reflexivity].
    - destruct (N.leb_spec ((p + w) mod W) e); [|lia]. apply occurs_slice in Ho. rewrite Hb in Ho. rewrite Ho.
      rewrite bytes_to_fr_value. fold (element_value b). destruct (IH n (acc ++ [element_value b])) as [[q Hq]|Hq]; [left|right; exact Hq].
      exists q. rewrite Hq, <- app_assoc. reflexivity.
  Qed.
  Lemma zero_run e p vs : p < W -> data_run f 0 e p vs -> vs = [] /\ e < p.
  Proof.
    intros Hp H. remember 0 as w eqn:Ew. induction H as [p Hl|p b l Hl Ho Hb Hr IH]; subst w; rewrite N.add_0_r, N.mod_small in * by exact Hp.
    - auto.
    - destruct (IH Hp) as [_ Hc]. lia.
  Qed.
  Lemma loop_exact w e p vs acc : w < W -> p < W -> data_run f w e p vs -> exists q, jw_loop W f fuel w e acc p = (Ok (acc ++ vs), q).
  Proof.
    intros Hw Hp Hr. destruct (N.eq_dec w 0) as [->|Hn].
    - destruct (zero_run _ _ _ Hp Hr) as [-> He]. destruct fuel as [|n] eqn:En; [lia|]. exists p. cbn [jw_loop]. unfold wadd.
      rewrite N.add_0_r, N.mod_small by exact Hp. destruct (N.leb_spec p e); [lia|]. rewrite app_nil_r. reflexivity.
    - destruct (loop_complete _ _ _ _ Hr fuel acc) as [H|H]; [exact H|]. exfalso. exact (loop_ends f Hf fuel w e acc p Hn Hw Hfuel H).
  Qed.

  Definition send_is p len : wadd W (p + 4 + 8) (len mod W) = (p + 12 + len) mod W.
  Proof. unfold wadd. rewrite N.add_mod_idemp_r by discriminate. f_equal. lia. Qed.

  Lemma u64_lt p v q : jw_u64 W f p = (Ok v, q) -> v < 2 ^ 64.
  Proof.
    intros H. apply mbind_ok in H as (b&s1&H1&H). injection H as <- _. unfold jw_index in H1.
    destruct (slice f p 8) as [b'|] eqn:Es; [|discriminate]. injection H1 as <- _. apply slice_length in Es.
    pose proof (le_val_bound b') as Hv. rewrite Es in Hv. exact Hv.
  Qed.

  Lemma section_sound w l p w' l' q : jw_section W f fuel (w, l) p = (Ok (w', l'), q) ->
    exists vs, l' = l ++ vs /\ passes1 f w p w' q vs.
  Proof.
    intros H. unfold jw_section in H. apply mbind_ok in H as (ty&s1&H1&H). apply (jw_u32_sound f Hf) in H1 as (Ht&O1&->).
    apply mbind_ok in H as (len&s2&H2&H). pose proof (u64_lt _ _ _ H2) as Hn. apply (jw_u64_sound f Hf) in H2 as (O2&->).
    unfold mbind at 1, js_get at 1 in H. rewrite send_is in H. apply mbind_ok in H as ([w1 l1]&s3&H3&H).
    unfold mbind, js_goto, ret in H. injection H as <- <- <-.
    assert (Oh : occurs f p (u32 ty ++ u64 len)) by (apply occurs_app; rewrite blen_u32; auto).
    destruct (N.eqb_spec ty 1) as [->|T1]; [|destruct (N.eqb_spec ty 2) as [->|T2]].
    - apply mbind_ok in H3 as (n&s4&H4&H3). injection H3 as <- <- _. apply (jw_u32_sound f Hf) in H4 as (Hw&O4&_).
      exists []. split; [symmetry; apply app_nil_r|]. apply pass_header; [exact Hn|exact Hw|].
      apply occurs_app. split; [exact O1|]. rewrite blen_u32. apply occurs_app. split; [exact O2|]. rewrite blen_u64. exact O4.
    - apply mbind_ok in H3 as (n&s4&H4&H3). injection H3 as <- <- _. apply loop_sound in H4 as (vs&->&Hr). exists vs. split; [reflexivity|].
      apply pass_data; [exact Hn|exact Oh|]. replace (p + 12) with (p + 4 + 8) by lia. replace (p + 4 + 8 + len) with (p + 12 + len) by lia. exact Hr.
    - injection H3 as <- <- _. exists []. split; [symmetry; apply app_nil_r|]. eapply pass_other; eassumption.
  Qed.

  Lemma section_head p t len : t < 2 ^ 32 -> len < 2 ^ 64 -> occurs f p (u32 t ++ u64 len) -> forall w l,
    jw_section W f fuel (w, l) p =
      (do acc' <- (if t =? 1 then do n8' <- jw_u32 W f ; ret (n8', l)
                else if t =? 2 then do w' <- jw_loop W f fuel w ((p + 12 + len) mod W) l ; ret (w, w')
                else ret (w, l)) ;
       do _ <- js_goto ((p + 12 + len) mod W) ; ret acc') (p + 12).
  Proof.
    intros Ht Hn Ho w l. apply occurs_app in Ho as [O1 O2]. rewrite blen_u32 in O2.
    unfold jw_section. unfold mbind at 1. rewrite (jw_u32_ok W f Hf2 _ _ Ht O1). unfold mbind at 1. rewrite (jw_u64_ok W f Hf2 _ _ Hn O2).
    unfold mbind at 1, js_get at 1. rewrite send_is. replace (p + 4 + 8) with (p + 12) by lia. reflexivity.
  Qed.
  Lemma head_pos p b c : occurs f p (b ++ c) -> blen b = 4 -> blen c = 8 -> p + 12 < W /\ p + 12 <= blen f.
  Proof.
    intros Ho H1 H2. apply occurs_le in Ho. rewrite blen_app, H1, H2 in Ho. pose proof Hf2. lia.
  Qed.

  Lemma section_complete w p w' q vs l : w < W -> passes1 f w p w' q vs -> jw_section W f fuel (w, l) p = (Ok (w', l ++ vs), q).
  Proof.
    intros Hw H. inversion H as [a1 a2 len a4 Hn Hw' Ho|a1 a2 len a4 Hn Ho Hr|a1 a2 t len Hn Ht T1 T2 Ho]; subst.
    - rewrite app_assoc in Ho. apply occurs_app in Ho as [Ho O3]. rewrite blen_app, blen_u32, blen_u64 in O3.
      rewrite (section_head p 1 len eq_refl Hn Ho). change (1 =? 1) with true. cbv iota. unfold mbind.
      rewrite (jw_u32_ok W f Hf2 (p + 12) w' Hw' O3). unfold ret, js_goto. rewrite app_nil_r. reflexivity.
    - rewrite (section_head p 2 len eq_refl Hn Ho). change (2 =? 1) with false. change (2 =? 2) with true. cbv iota. unfold mbind.
      destruct (head_pos _ _ _ Ho (blen_u32 _) (blen_u64 _)) as [Hp _].
      destruct (loop_exact w' _ (p + 12) vs l Hw Hp Hr) as [q Hq]. rewrite Hq. reflexivity.
    - rewrite (section_head p t len Ht Hn Ho). apply N.eqb_neq in T1, T2. rewrite T1, T2. rewrite app_nil_r. reflexivity.
  Qed.

  Lemma section_stuck w l p : w < W ->
    ((exists q, jw_section W f fuel (w, l) p = (Err JsOutOfFuel, q)) <-> w = 0 /\ endless f p).
  Proof.
    intros Hw. split.
    - intros [q H]. destruct (jw_section_stuck f Hf fuel w l p q Hfuel Hw H) as [-> [sz0 _]]. split; [reflexivity|].
      unfold jw_section in H. unfold mbind at 1 in H.
      destruct (jw_u32 W f p) as [[ty|e|] s1] eqn:E1; [| |discriminate].
      2:{ exfalso. unfold jw_u32, mbind, jw_index in E1. destruct (slice f p 4); discriminate. }
      apply (jw_u32_sound f Hf) in E1 as (Ht&O1&->). unfold mbind at 1 in H.
      destruct (jw_u64 W f (p + 4)) as [[len|e|] s2] eqn:E2; [| |discriminate].
      2:{ exfalso. unfold jw_u64, mbind, jw_index in E2. destruct (slice f (p + 4) 8); discriminate. }
      pose proof (u64_lt _ _ _ E2) as Hn. apply (jw_u64_sound f Hf) in E2 as (O2&->).
      unfold mbind at 1, js_get at 1 in H. rewrite send_is in H. destruct (ty =? 1).
      + exfalso. unfold mbind in H. unfold jw_u32, mbind, jw_index in H. destruct (slice f (p + 4 + 8) 4); discriminate.
      + destruct (N.eqb_spec ty 2) as [->|]; [|discriminate]. exists len. split; [exact Hn|].
        assert (Oh : occurs f p (u32 2 ++ u64 len)) by (apply occurs_app; rewrite blen_u32; auto). split; [exact Oh|].
        destruct (head_pos _ _ _ Oh (blen_u32 _) (blen_u64 _)) as [Hp _].
        destruct (N.le_gt_cases (p + 12) ((p + 12 + len) mod W)) as [Hc|Hc]; [exact Hc|exfalso].
        replace (p + 4 + 8) with (p + 12) in H by lia.
        assert (Hr : data_run f 0 ((p + 12 + len) mod W) (p + 12) []) by (constructor; rewrite N.add_0_r, (N.mod_small (p + 12)) by exact Hp; exact Hc).
        destruct (loop_exact 0 _ (p + 12) [] l ltac:(reflexivity) Hp Hr) as [q' Hq]. unfold mbind in H. rewrite Hq in H. discriminate.
    - intros [-> (len&Hn&Ho&Hc)]. destruct (head_pos _ _ _ Ho (blen_u32 _) (blen_u64 _)) as [Hp Hp'].
      exists (p + 12). rewrite (section_head p 2 len eq_refl Hn Ho). change (2 =? 1) with false. change (2 =? 2) with true. cbv iota. unfold mbind.
      rewrite (jw_loop_zero W f Hf2); [reflexivity|exact Hc|exact Hp'].
  Qed.
  Lemma section_err w l p e q : jw_section W f fuel (w, l) p = (Err e, q) -> e = JsOutOfFuel.
  Proof.
    assert (Hl : forall n w e acc p o q, jw_loop W f n w e acc p = (o, q) -> forall e', o = Err e' -> e' = JsOutOfFuel).
    { clear. induction n as [|n IH]; intros w e acc p o q H e' Ho; cbn [jw_loop] in H; [congruence|].
      destruct (_ <=? _); [|congruence]. destruct slice; [eapply IH; eassumption|congruence]. }
    unfold jw_section, mbind. unfold jw_u32, jw_u64, mbind, jw_index, ret, js_get, js_goto.
    destruct (slice f p 4); [|discriminate]. destruct (slice f _ 8); [|discriminate].
    destruct (_ =? 1); [destruct slice; discriminate|]. destruct (_ =? 2); [|discriminate].
    destruct (jw_loop _ _ _ _ _ _ _) as [o s] eqn:E. pose proof (Hl _ _ _ _ _ _ _ E) as H. destruct o; intros H1; try discriminate.
    injection H1 as <- _. apply H. reflexivity.
  Qed.

  Lemma passes_sound n : forall w l p w' l' q, w < W -> nat_rep n (jw_section W f fuel) (w, l) p = (Ok (w', l'), q) ->
    w' < W /\ exists vs, l' = l ++ vs /\ passes f w p n w' q vs.
  Proof.
    induction n as [|n IH]; intros w l p w' l' q Hw H.
    - injection H as <- <- <-. split; [exact Hw|]. exists []. split; [symmetry; apply app_nil_r|constructor].
    - cbn [nat_rep] in H. apply mbind_ok in H as ([w1 l1]&s1&H1&H). apply section_sound in H1 as (v1&->&P1).
      assert (Hw1 : w1 < W) by (inversion P1; subst; assumption).
      destruct (IH _ _ _ _ _ _ Hw1 H) as (Hw2&v2&->&P2). split; [exact Hw2|]. exists (v1 ++ v2). split; [symmetry; apply app_assoc|].
      econstructor; eassumption.
  Qed.
  Lemma passes_complete n w p w' q vs : passes f w p n w' q vs -> forall l, w < W ->
    w' < W /\ nat_rep n (jw_section W f fuel) (w, l) p = (Ok (w', l ++ vs), q).
  Proof.
    induction 1 as [w p|w p n w1 p1 l1 w2 p2 l2 P1 P2 IH]; intros l Hw.
    - split; [exact Hw|]. rewrite app_nil_r. reflexivity.
    - assert (Hw1 : w1 < W) by (inversion P1; subst; assumption).
      destruct (IH (l ++ l1) Hw1) as [Hw2 E]. split; [exact Hw2|]. cbn [nat_rep]. unfold mbind. rewrite (section_complete _ _ _ _ _ l Hw P1), E.
      rewrite <- app_assoc. reflexivity.
  Qed.

  (** The start of the file. *)
  Lemma start_cases :
    (exists n, wtns_announces f n /\
       js_parse_witness W f fuel = match nat_rep (N.to_nat n) (jw_section W f fuel) (0, []) 12 with
                              | (Ok a, _) => Ok (snd a) | (Err e, _) => Err e | (Panic, _) => Panic end) \/
    ((forall n, ~ wtns_announces f n) /\ js_parse_witness W f fuel <> Err JsOutOfFuel /\ forall l, js_parse_witness W f fuel <> Ok l).
  Proof.
    pose proof Hf2 as H2. unfold js_parse_witness, jw_parse_m.
    assert (Hno : forall (P : Prop), (forall n, wtns_announces f n -> P) -> (forall n, ~ wtns_announces f n) \/ P).
    { intros P HP. destruct (slice f 0 12) as [b|] eqn:Es.
      - destruct (list_eq_dec Byte.byte_eq_dec (firstn 8 b) (ascii_wtns ++ u32 2)) as [E|E].
        + right. apply (HP (le_val (skipn 8 b))). apply slice_some in Es as (pre&rest&E1&E2&E3).
          assert (Hb : b = (ascii_wtns ++ u32 2) ++ skipn 8 b) by (rewrite <- E; symmetry; apply firstn_skipn).
          assert (Hl : blen (skipn 8 b) = 4) by (unfold blen in *; rewrite skipn_length; lia).
          destruct (bytes_u32 f Hf _ Hl) as [U V]. split; [exact V|]. rewrite U. rewrite app_assoc, <- Hb. exists pre, rest. auto.
        + left. intros n [_ Ho]. apply occurs_slice in Ho. rewrite !blen_app, !blen_u32 in Ho. change (blen ascii_wtns) with 4 in Ho.
          change (4 + (4 + 4)) with 12 in Ho. rewrite Es in Ho. injection Ho as ->. apply E. reflexivity.
      - left. intros n [_ Ho]. apply occurs_slice in Ho. rewrite !blen_app, !blen_u32 in Ho. change (blen ascii_wtns) with 4 in Ho.
        change (4 + (4 + 4)) with 12 in Ho. congruence. }
    destruct (Hno (exists n, wtns_announces f n)) as [Hn|[n Hn]]; [eauto| |].
    - right. split; [exact Hn|].
      assert (Hz : forall o q, (do m <- js_index W f 4 JsWrongMagic ; check bytes_eqb m magic_wtns else JsWrongMagic ; do v <- jw_u32 W f ;
        check v =? 2 else JsWrongVersion ; do n <- jw_u32 W f ; do acc <- n_rep n (jw_section W f fuel) (0, []) ; ret (snd acc)) 0 = (o, q) ->
        o <> Err JsOutOfFuel /\ forall l, o <> Ok l).
      { intros o q H. unfold mbind at 1 in H. destruct (js_index W f 4 JsWrongMagic 0) as [[m|e|] s1] eqn:E1.
        - apply (index_ok f) in E1 as (O1&L1&->); [|reflexivity]. unfold bytes_eqb in H.
          destruct (list_eq_dec _ m magic_wtns) as [->|]; [|injection H as <- _; split; [discriminate|intros; discriminate]].
          unfold mbind at 1 in H. destruct (jw_u32 W f (0 + 4)) as [[v|e|] s2] eqn:E2.
          + apply (jw_u32_sound f Hf) in E2 as (Hv&O2&->). destruct (N.eqb_spec v 2) as [->|]; [|injection H as <- _; split; [discriminate|intros; discriminate]].
            unfold mbind at 1 in H. destruct (jw_u32 W f (0 + 4 + 4)) as [[n|e|] s3] eqn:E3.
            * exfalso. apply (jw_u32_sound f Hf) in E3 as (Hv3&O3&->). apply (Hn n). split; [exact Hv3|].
              apply occurs_app. split; [exact O1|]. apply occurs_app. split; [exact O2|exact O3].
            * exfalso. unfold jw_u32, mbind, jw_index in E3. destruct (slice f (0 + 4 + 4) 4); discriminate.
            * injection H as <- _. split; [discriminate|intros; discriminate].
          + exfalso. unfold jw_u32, mbind, jw_index in E2. destruct (slice f (0 + 4) 4); discriminate.
          + injection H as <- _. split; [discriminate|intros; discriminate].
        - unfold js_index in E1. destruct (blen f <? _); [injection E1 as <- _; injection H as <- _; split; [discriminate|intros; discriminate]|].
          destruct slice; discriminate.
        - injection H as <- _. split; [discriminate|intros; discriminate]. }
      match goal with |- fst ?x <> _ /\ _ => destruct x as [o q] eqn:E end. cbn [fst]. exact (Hz o q eq_refl).
    - left. exists n. split; [exact Hn|]. destruct Hn as [Hn Ho]. apply occurs_app in Ho as [A1 Ho]. apply occurs_app in Ho as [A2 A3]. rewrite blen_u32 in A3.
      assert (HWf' : blen f < W) by lia.
      unfold mbind at 1. rewrite (jyields_index W f HWf' ascii_wtns 4 _ eq_refl 0 A1). change (bytes_eqb ascii_wtns magic_wtns) with true. cbv iota.
      unfold mbind at 1. rewrite (jw_u32_ok W f Hf2 _ 2 eq_refl A2). change (2 =? 2) with true. cbv iota.
      unfold mbind at 1. rewrite (jw_u32_ok W f Hf2 _ n Hn A3). unfold mbind. rewrite n_rep_nat.
      change (0 + blen ascii_wtns + 4 + 4) with 12. destruct (nat_rep _ _ _ _) as [[a|e|] q]; reflexivity.
  Qed.

  Theorem outcome_ok l : js_parse_witness W f fuel = Ok l <-> exists n w q, wtns_announces f n /\ passes f 0 12 (N.to_nat n) w q l.
  Proof.
    destruct start_cases as [(n&Hn&E)|(Hn&_&E)].
    - rewrite E. split.
      + destruct (nat_rep _ _ _ _) as [[[w l']|e|] q] eqn:Er; intros H; try discriminate. injection H as <-.
        apply passes_sound in Er as (_&vs&->&P); [|reflexivity]. exists n, w, q. split; [exact Hn|exact P].
      + intros (n'&w&q&Hn'&P).
        assert (n' = n) as ->.
        { destruct Hn as [Hb Ho], Hn' as [Hb' Ho']. apply occurs_app in Ho as [_ Ho]. apply occurs_app in Ho as [_ Ho].
          apply occurs_app in Ho' as [_ Ho']. apply occurs_app in Ho' as [_ Ho']. apply occurs_slice in Ho. apply occurs_slice in Ho'.
          rewrite !blen_u32 in *. rewrite Ho in Ho'. injection Ho' as Ho'. rewrite <- (u32_val n Hb), <- (u32_val n' Hb').
          unfold u32. cbn [le_bytes]. congruence. }
        destruct (passes_complete _ _ _ _ _ _ P [] ltac:(reflexivity)) as [_ E']. rewrite E'. reflexivity.
    - split; [intros H; destruct (E l H)|]. intros (n&w&q&H&_). destruct (Hn n H).
  Qed.

  Theorem outcome_endless : js_parse_witness W f fuel = Err JsOutOfFuel <->
    exists n j p l, wtns_announces f n /\ N.of_nat j < n /\ passes f 0 12 j 0 p l /\ endless f p.
  Proof.
    destruct start_cases as [(n&Hn&E)|(Hn&E&_)].
    - rewrite E. split.
      + destruct (nat_rep _ _ _ _) as [[a|e|] q] eqn:Er; intros H; try discriminate. injection H as ->.
        apply nat_rep_err in Er as (j&[w l]&p&Hj&Er&Es). apply passes_sound in Er as (Hw&vs&_&P); [|reflexivity].
        apply (ex_intro (fun q' => jw_section W f fuel (w, l) p = (Err JsOutOfFuel, q'))) in Es. apply section_stuck in Es as [-> He]; [|exact Hw].
        exists n, j, p, vs. split; [exact Hn|]. split; [lia|]. split; [exact P|exact He].
      + intros (n'&j&p&l&Hn'&Hj&P&He).
        assert (n' = n) as ->.
        { destruct Hn as [Hb Ho], Hn' as [Hb' Ho']. apply occurs_app in Ho as [_ Ho]. apply occurs_app in Ho as [_ Ho].
          apply occurs_app in Ho' as [_ Ho']. apply occurs_app in Ho' as [_ Ho']. apply occurs_slice in Ho. apply occurs_slice in Ho'.
          rewrite !blen_u32 in *. rewrite Ho in Ho'. injection Ho' as Ho'. rewrite <- (u32_val n Hb), <- (u32_val n' Hb').
          unfold u32. cbn [le_bytes]. congruence. }
        destruct (passes_complete _ _ _ _ _ _ P [] ltac:(reflexivity)) as [_ E'].
        destruct (proj2 (section_stuck 0 ([] ++ l) p ltac:(reflexivity)) (conj eq_refl He)) as [q Es].
        assert (Er : nat_rep (N.to_nat n) (jw_section W f fuel) (0, []) 12 = (Err JsOutOfFuel, q)) by (eapply nat_rep_err_intro; [|exact E'|exact Es]; lia).
        rewrite Er. reflexivity.
    - split; [intros H; destruct (E H)|]. intros (n&j&p&l&H&_). destruct (Hn n H).
  Qed.
  (** Refusals: the wrong magic (or fewer than four bytes) and the wrong version. *)
  Theorem outcome_refused : (exists e, e <> JsOutOfFuel /\ js_parse_witness W f fuel = Err e) <->
    ~ occurs f 0 ascii_wtns \/ exists v, v < 2 ^ 32 /\ v <> 2 /\ occurs f 0 (ascii_wtns ++ u32 v).
  Proof.
    pose proof Hf2 as H2. split.
    - intros (e&He&H). unfold js_parse_witness, jw_parse_m in H. unfold mbind at 1 in H.
      destruct (js_index W f 4 JsWrongMagic 0) as [[m|e1|] s1] eqn:E1; [| |discriminate].
      + apply (index_ok f) in E1 as (O1&L1&->); [|reflexivity]. unfold bytes_eqb in H.
        destruct (list_eq_dec _ m magic_wtns) as [->|Hm].
        * right. unfold mbind at 1 in H. destruct (jw_u32 W f (0 + 4)) as [[v|e2|] s2] eqn:E2; [| |discriminate].
          -- apply (jw_u32_sound f Hf) in E2 as (Hv&O2&->). destruct (N.eqb_spec v 2) as [->|Hv2].
             ++ exfalso. unfold mbind at 1 in H. destruct (jw_u32 W f (0 + 4 + 4)) as [[n|e3|] s3] eqn:E3; [| |discriminate].
                ** unfold mbind in H. rewrite n_rep_nat in H. destruct (nat_rep _ _ _ _) as [[a|e4|] q] eqn:Er; try discriminate.
                   injection H as ->. apply nat_rep_err in Er as (j&[w l]&p&_&_&Es). apply section_err in Es. exact (He Es).
                ** unfold jw_u32, mbind, jw_index in E3. destruct (slice f (0 + 4 + 4) 4); discriminate.
             ++ exists v. split; [exact Hv|]. split; [exact Hv2|]. apply occurs_app. split; [exact O1|exact O2].
          -- exfalso. unfold jw_u32, mbind, jw_index in E2. destruct (slice f (0 + 4) 4); discriminate.
        * left. intros O. apply Hm. apply occurs_slice in O. apply occurs_slice in O1. rewrite L1 in O1. change (blen ascii_wtns) with 4 in O.
          rewrite O1 in O. injection O as ->. reflexivity.
      + left. intros O. assert (HWf' : blen f < W) by lia.
        rewrite (jyields_index W f HWf' ascii_wtns 4 JsWrongMagic eq_refl 0 O) in E1. discriminate.
    - intros [Hm|(v&Hv&Hv2&Ho)].
      + exists JsWrongMagic. split; [discriminate|]. unfold js_parse_witness, jw_parse_m. unfold mbind at 1.
        unfold js_index, wadd. change ((0 + 4) mod W) with 4. destruct (N.ltb_spec (blen f) 4) as [Hl|Hl]; [reflexivity|].
        destruct (slice f 0 4) as [b|] eqn:Es.
        * unfold bytes_eqb. destruct (list_eq_dec _ b magic_wtns) as [->|]; [|reflexivity]. exfalso. apply Hm.
          apply slice_some in Es as (pre&rest&E1&E2&E3). exists pre, rest. auto.
        * exfalso. unfold slice in Es. destruct (N.leb_spec (0 + 4) (blen f)); [discriminate|lia].
      + exists JsWrongVersion. split; [discriminate|]. apply occurs_app in Ho as [A1 A2]. unfold js_parse_witness, jw_parse_m.
        assert (HWf' : blen f < W) by lia.
        unfold mbind at 1. rewrite (jyields_index W f HWf' ascii_wtns 4 _ eq_refl 0 A1). change (bytes_eqb ascii_wtns magic_wtns) with true. cbv iota.
        unfold mbind at 1. rewrite (jw_u32_ok W f Hf2 _ v Hv A2). apply N.eqb_neq in Hv2. rewrite Hv2. reflexivity.
  Qed.
End Exact.
