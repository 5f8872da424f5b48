(** Property theorems C64, continued: which error the original witness calculator ends with, and where
    that differs from its rewrite.  Vocabulary: SpecWitnessErrorsJs.v, SpecWitnessErrors.v and
    SpecWitnessCalc.v. *)
From Coq Require Import List Bool Arith NArith ZArith Lia Permutation.
From Coq Require Import Strings.String.
From Verif Require Import Res Bytes Text Fld Zp Bn254 Reader Inputs InputsFacts JsNumber JsNumberFacts SpecNumerals P_Numerals SpecJsNumber
  WitnessCalc SpecWitnessCalc WitnessCalcFacts P_WitnessCalc SpecWitnessErrors P_WitnessErrors WitnessCalcJs WitnessReuse SpecWitnessReuse P_WitnessReuse
  SpecWitnessErrorsJs.
Import ListNotations.
Local Open Scope N_scope.
Local Open Scope rd_scope.

(** ** Values *)
Lemma forall2_len {A B} (R : A -> B -> Prop) l l' : Forall2 R l l' -> List.length l = List.length l'.
Proof. induction 1; cbn [List.length]; congruence. Qed.
Lemma flattens_leaves v : flattens v (leaves v).
Proof.
  induction v as [|b|z|f|t|l IH|o IH] using json_ind'; try (apply fl_one; discriminate).
  rewrite leaves_arr. constructor. induction IH as [|x l Hx _ IHl]; cbn [flat_map]; constructor; assumption.
Qed.
Lemma leaves_flattens v : forall xs, flattens v xs -> xs = leaves v.
Proof.
  induction v as [|b|z|f|t|l IH|o IH] using json_ind'; intros xs H; inversion H as [v' Ha|l' xs' Hl]; subst; try reflexivity.
  - exfalso. exact (Ha l eq_refl).
  - rewrite leaves_arr. clear H. revert xs Hl. induction IH as [|x l Hx _ IHl]; intros xs Hl; inversion Hl; subst; [reflexivity|].
    cbn [flat_map]. f_equal; [apply Hx; assumption|apply IHl; assumption].
Qed.
Lemma leaves_plain v x : In x (leaves v) -> forall l, x <> JArr l.
Proof.
  induction v as [|b|z|f|t|l IH|o IH] using json_ind'; try (cbn [leaves]; intros [<-|[]] l'; discriminate).
  rewrite leaves_arr, in_flat_map. intros (y&Hy&Hx). rewrite Forall_forall in IH. exact (IH y Hy Hx).
Qed.
Lemma all_bigint_numbers xs zs : Forall2 whole_number xs zs -> all_bigint xs = Ok zs.
Proof.
  induction 1 as [|x z xs zs H _ IH]; [reflexivity|]. cbn [all_bigint].
  assert (E : bigint_value x = Ok z) by (apply bigint_value_spec; [destruct H; discriminate|exact H]). rewrite E, IH. reflexivity.
Qed.
Lemma numbers_all_bigint xs : (forall x, In x xs -> forall l, x <> JArr l) -> forall zs, all_bigint xs = Ok zs -> Forall2 whole_number xs zs.
Proof.
  intros Hp. induction xs as [|x xs IH]; intros zs H; cbn [all_bigint] in H; [injection H as <-; constructor|].
  destruct (bigint_value x) as [z| |] eqn:Ex; cbn [rbind] in H; try discriminate. destruct (all_bigint xs) as [y| |] eqn:El; cbn [rbind] in H; try discriminate.
  injection H as <-. constructor; [apply bigint_value_spec; [apply Hp; left; reflexivity|exact Ex]|]. apply IH; [intros w Hw; apply Hp; right; exact Hw|reflexivity].
Qed.
Lemma numbers_leaves v zs : numbers v zs <-> Forall2 whole_number (leaves v) zs.
Proof.
  rewrite <- flat_array_spec, flat_leaves. split; [apply numbers_all_bigint, leaves_plain|apply all_bigint_numbers].
Qed.
(** The leaves are numbers, or there is a first one that is none. *)
Lemma all_bigint_err xs e : (forall x, In x xs -> forall l, x <> JArr l) -> all_bigint xs = Err e ->
  exists x1 x x2 zs, xs = x1 ++ x :: x2 /\ Forall2 whole_number x1 zs /\ bad_number x e.
Proof.
  intros Hp. induction xs as [|x xs IH]; intros H; cbn [all_bigint] in H; [discriminate|].
  assert (Hx : forall l, x <> JArr l) by (apply Hp; left; reflexivity).
  destruct (bigint_value x) as [z|e'|] eqn:Ex; cbn [rbind] in H; [|injection H as ->|discriminate].
  - destruct (all_bigint xs) as [y|e'|] eqn:El; cbn [rbind] in H; [discriminate| |discriminate]. injection H as ->.
    destruct IH as (x1&y&x2&zs&->&H1&H2); [intros w Hw; apply Hp; right; exact Hw|reflexivity|].
    exists (x :: x1), y, x2, (z :: zs). split; [reflexivity|]. split; [constructor; [apply bigint_value_spec; assumption|exact H1]|exact H2].
  - exists [], x, xs, []. split; [reflexivity|]. split; [constructor|]. apply bigint_value_err; assumption.
Qed.
Lemma bad_first v e x1 x x2 zs e' : no_numbers v e -> leaves v = x1 ++ x :: x2 -> Forall2 whole_number x1 zs -> bad_number x e' -> e' = e.
Proof.
  intros H E H1 H2. apply fill_array_err with (acc := []) in H. rewrite fill_leaves, E, all_bigint_app, (all_bigint_numbers _ _ H1) in H. cbn [rbind all_bigint] in H.
  apply bigint_value_err in H2; [|destruct H2; discriminate]. rewrite H2 in H. cbn [rbind] in H. congruence.
Qed.
Lemma no_numbers_leaves v e : no_numbers v e -> exists x1 x x2 zs, leaves v = x1 ++ x :: x2 /\ Forall2 whole_number x1 zs /\ bad_number x e.
Proof.
  intros H. apply all_bigint_err; [apply leaves_plain|]. apply fill_array_err with (acc := []) in H. rewrite fill_leaves in H.
  destruct (all_bigint (leaves v)); cbn [rbind] in H; congruence.
Qed.

Section Original.
  Context (m : wmodule) (Hm : module_ok m).
  Notation prime := (Z.of_N (md_prime m)).

  (** ** One entry *)
  Lemma set_key_shape k v e s : shape_error m k v e -> fst (set_key_js m prime k v s) = Err e.
  Proof using Hm.
    intros H. unfold set_key_js. unfold x_signal_size. rewrite hash_join.
    destruct H as [Hn|xs n H Hin Hlt|xs n H Hin Hlt].
    - assert (F : find_signal m (name_hash k) = None) by (apply find_signal_none; assumption). rewrite F. reflexivity.
    - apply leaves_flattens in H. subst xs. assert (F : find_signal m (name_hash k) = Some n) by (apply find_signal_in; assumption). rewrite F.
      replace (Z.of_N n <? 0)%Z with false by (symmetry; apply Z.ltb_ge; lia).
      replace (Z.of_nat (List.length (leaves v)) <? Z.of_N n)%Z with true by (symmetry; apply Z.ltb_lt; lia). reflexivity.
    - apply leaves_flattens in H. subst xs. assert (F : find_signal m (name_hash k) = Some n) by (apply find_signal_in; assumption). rewrite F.
      replace (Z.of_N n <? 0)%Z with false by (symmetry; apply Z.ltb_ge; lia).
      replace (Z.of_nat (List.length (leaves v)) <? Z.of_N n)%Z with false by (symmetry; apply Z.ltb_ge; lia).
      replace (Z.of_N n <? Z.of_nat (List.length (leaves v)))%Z with true by (symmetry; apply Z.ltb_lt; lia). reflexivity.
  Qed.
  (** An entry with the right number of values sets them one by one. *)
  Lemma set_key_sized k v s : In (name_hash k, N.of_nat (List.length (leaves v))) (md_signals m) ->
    set_key_js m prime k v s = set_values_js m prime k (parse_hex (firstn 8 (fnv_hash k))) (parse_hex (firstn 8 (skipn 8 (fnv_hash k)))) 0 (leaves v) s.
  Proof using Hm.
    intros Hin. unfold set_key_js. unfold x_signal_size. rewrite hash_join. apply find_signal_in in Hin; [|exact Hm]. rewrite Hin.
    replace (Z.of_N (N.of_nat (List.length (leaves v))) <? 0)%Z with false by (symmetry; apply Z.ltb_ge; lia).
    replace (Z.of_nat (List.length (leaves v)) <? Z.of_N (N.of_nat (List.length (leaves v))))%Z with false by (symmetry; apply Z.ltb_ge; lia).
    replace (Z.of_N (N.of_nat (List.length (leaves v))) <? Z.of_nat (List.length (leaves v)))%Z with false by (symmetry; apply Z.ltb_ge; lia).
    reflexivity.
  Qed.
  Lemma set_values_js_app k msb lsb : forall x1 zs x2 i s, Forall2 whole_number x1 zs ->
    set_values_js m prime k msb lsb i (x1 ++ x2) s =
    match set_values m prime k msb lsb i zs s with
    | (Ok a, s') => match set_values_js m prime k msb lsb (i + N.of_nat (List.length x1)) x2 s' with (Ok b, s2) => (Ok (a + b), s2) | r => r end
    | r => r
    end.
  Proof.
    induction x1 as [|x x1 IH]; intros zs x2 i s H; inversion H as [|? z ? zs' Hx Hr]; subst.
    - cbn [app set_values List.length]. unfold ret. change (N.of_nat 0) with 0. rewrite N.add_0_r.
      destruct (set_values_js m prime k msb lsb i x2 s) as [[b|e|] s2]; reflexivity.
    - cbn [app set_values_js set_values List.length]. assert (E : bigint_value x = Ok z) by (apply bigint_value_spec; [destruct Hx; discriminate|exact Hx]).
      unfold mbind at 1. rewrite E. cbn [lift_res]. unfold mbind at 1 4.
      destruct (write_words m (to_array32 (normalize z prime) (md_n32 m)) s) as [[[]|e|] s1]; [|reflexivity..].
      unfold mbind at 1 3. destruct (lift_opt _ _ s1) as [[[]|e|] s2]; [|reflexivity..].
      unfold mbind, ret. rewrite (IH zs' x2 (i + 1) s2 Hr).
      replace (i + N.of_nat (S (List.length x1))) with (i + 1 + N.of_nat (List.length x1)) by lia.
      destruct (set_values m prime k msb lsb (i + 1) zs' s2) as [[a|e|] s3]; [|reflexivity..].
      destruct (set_values_js m prime k msb lsb (i + 1 + N.of_nat (List.length x1)) x2 s3) as [[b|e|] s4]; [|reflexivity..]. rewrite N.add_assoc. reflexivity.
  Qed.

  Lemma set_keys_js_app kvs : forall rest s,
    set_keys_js m prime (kvs ++ rest) s =
    match set_keys_js m prime kvs s with
    | (Ok a, s') => match set_keys_js m prime rest s' with (Ok b, s2) => (Ok (a + b), s2) | r => r end
    | r => r
    end.
  Proof.
    induction kvs as [|[k v] kvs IH]; intros rest s.
    - cbn [app set_keys_js]. unfold ret. destruct (set_keys_js m prime rest s) as [[b|e|] s2]; reflexivity.
    - cbn [app set_keys_js]. unfold mbind, ret. destruct (set_key_js m prime k v s) as [[a|e|] s1]; [|reflexivity..].
      rewrite IH. destruct (set_keys_js m prime kvs s1) as [[a2|e|] s2]; [|reflexivity..].
      destruct (set_keys_js m prime rest s2) as [[b|e|] s3]; [|reflexivity..]. rewrite N.add_assoc. reflexivity.
  Qed.
  Lemma entries_numbers pre per : Forall2 (entry_settings m) pre per -> all_numbers pre.
  Proof. induction 1 as [|kv g pre per (zs&n&H&_) _ IH]; constructor; [exists zs; exact H|exact IH]. Qed.
  Lemma accepted_numbers pre gs : accepted m pre gs -> all_numbers pre.
  Proof. intros (per&H&_). eapply entries_numbers. exact H. Qed.

  (** After accepted entries their settings are the ones made, and the rest goes on from there. *)
  Lemma after_accepted_js pre gs post s : shape m s -> accepted m pre gs ->
    exists s1 w, shape m s1 /\ gw_of s1 = (gs, w) /\
      fst (do_calculate_js m prime (pre ++ post) s) =
      match fst (set_keys_js m prime post s1) with
      | Ok b => if N.of_nat (List.length gs) + b <? input_size m then Err WcNotAllInputs else Ok tt
      | Err e => Err e
      | Panic => Panic
      end.
  Proof using Hm.
    intros Hs Ha. destruct (start m Hm s Hs (accepted_start m pre gs Ha)) as (w0&s1&E1&Hs1&Hg1).
    destruct (accepted_pushes m Hm pre gs w0 Ha) as (w&Hp). assert (Hnum := accepted_numbers _ _ Ha). destruct Ha as (per&Hper&->&_&_). apply entries_iff in Hper.
    rewrite <- Hg1 in Hp. destruct (set_keys_ok m Hm pre per s1 _ Hs1 Hper Hp) as (s2&E2&Hs2&Hg2).
    exists s2, w. split; [exact Hs2|]. split; [exact Hg2|].
    unfold do_calculate_js, mbind, lift_opt. rewrite E1, set_keys_js_app, (set_keys_two m prime pre s1 Hnum), E2.
    destruct (set_keys_js m prime post s2) as [[b|e|] s3]; cbn [fst]; [|reflexivity..].
    destruct (N.of_nat (List.length (List.concat per)) + b <? input_size m); reflexivity.
  Qed.
  (** An error other than a missing input comes before the rest is looked at. *)
  Lemma error_stays pre post s e : fst (do_calculate_js m prime pre s) = Err e -> e <> WcNotAllInputs -> fst (do_calculate_js m prime (pre ++ post) s) = Err e.
  Proof.
    unfold do_calculate_js, mbind, lift_opt. destruct (x_init m s) as [s1|]; [|trivial]. rewrite set_keys_js_app.
    destruct (set_keys_js m prime pre s1) as [[a|e'|] s2]; cbn [fst]; [|trivial..]. destruct (a <? input_size m); intros [= <-] H. contradiction.
  Qed.

  (** The values before the faulty one go in. *)
  Lemma earlier_values_set gs w k v x1 x x2 zs per pre : Forall2 (entry_settings m) pre per -> gs = List.concat per -> NoDup (map fst gs) ->
    leaves v = x1 ++ x :: x2 -> In (name_hash k, N.of_nat (List.length (leaves v))) (md_signals m) -> Forall2 whole_number x1 zs ->
    ~ In (name_hash k, 0) (map fst gs) -> exists w', pushes m (gs, w) (vals_settings m (name_hash k) 0 zs) = Some (gs ++ vals_settings m (name_hash k) 0 zs, w').
  Proof using Hm.
    intros Hper Hgs Hnd Hl Hin Hz Hno. assert (Hlen := forall2_len _ _ _ Hz).
    assert (Hlt : N.of_nat (List.length zs) < N.of_nat (List.length (leaves v))) by (rewrite Hl, app_length; cbn [List.length]; lia).
    assert (Hinc0 : incl (map fst gs) (slots m)) by (subst gs; eapply entries_incl; exact Hper).
    assert (Hfree : forall i, ~ In (name_hash k, i) (map fst gs)).
    { intros i Hi. apply Hno. subst gs. eapply slot_zero; [apply entries_iff; exact Hper|exact Hi]. }
    assert (Hinc : incl (map fst (gs ++ vals_settings m (name_hash k) 0 zs)) (slots m)).
    { rewrite map_app. apply incl_app; [exact Hinc0|]. intros [h i] Hy. apply vals_slots in Hy as [Hy1 Hy2]. cbn [fst snd] in *. subst h.
      apply slots_in. eexists. split; [exact Hin|lia]. }
    assert (Hnd2 : NoDup (map fst (gs ++ vals_settings m (name_hash k) 0 zs))).
    { rewrite map_app. apply nodup_app; [exact Hnd|apply vals_nodup|]. intros [h i] Hx Hv. apply vals_slots in Hv as [Hv _]. cbn [fst] in Hv. subst h. exact (Hfree i Hx). }
    assert (P := pushes_spec m (vals_settings m (name_hash k) 0 zs) gs w Hnd Hinc).
    destruct (pushes m (gs, w) (vals_settings m (name_hash k) 0 zs)) as [[g w']|]; [destruct P as (->&_); eauto|].
    exfalso. destruct P as [P|(_&P&_)]; [exact (P Hnd2)|].
    assert (Hslot : In (name_hash k, N.of_nat (List.length zs)) (slots m)) by (apply slots_in; eexists; split; [exact Hin|exact Hlt]).
    assert (F := full_slot m _ _ Hnd2 Hinc P Hslot). rewrite map_app in F. apply in_app_or in F as [F|F]; [exact (Hfree _ F)|].
    apply vals_slots in F as [_ F]. cbn [snd] in F. lia.
  Qed.

  Lemma original_do input e s : shape m s -> original_stops m input e -> fst (do_calculate_js m prime input s) = Err e.
  Proof using Hm.
    intros Hs H.
    destruct H as [H0 Hc|pre k v post gs e -> Ha He|pre k v post gs x1 x x2 zs e -> Ha Hl Hin Hz Hb Hfirst|pre k v post gs x xs z -> Ha Hl Hin Hz Hset|pre k v post gs g j -> Ha Hg Hcomp Hc Hj|gs slot Ha Hin Hni].
    - unfold do_calculate_js, mbind, lift_opt, x_init, x_run. cbn [ws_given ws_shared].
      assert (L := slots_length m). rewrite H0 in L. cbn [List.length] in *. rewrite <- L, N.eqb_refl, Hc. reflexivity.
    - destruct (after_accepted_js pre gs ((k, v) :: post) s Hs Ha) as (s1&w&Hs1&Hg1&->).
      cbn [set_keys_js]. unfold mbind. assert (F := set_key_shape k v e s1 He). destruct (set_key_js m prime k v s1) as [[a|e1|] s2]; cbn [fst] in *; try discriminate F.
      injection F as ->. reflexivity.
    - destruct (after_accepted_js pre gs ((k, v) :: post) s Hs Ha) as (s1&w&Hs1&Hg1&->).
      apply leaves_flattens in Hl. symmetry in Hl. rewrite <- Hl in Hin.
      cbn [set_keys_js]. unfold mbind at 1. rewrite (set_key_sized k v s1 Hin), Hl, (set_values_js_app k _ _ x1 zs (x :: x2) 0 s1 Hz).
      assert (P : exists a s2, set_values m prime k (parse_hex (firstn 8 (fnv_hash k))) (parse_hex (firstn 8 (skipn 8 (fnv_hash k)))) 0 zs s1 = (Ok a, s2)).
      { assert (W : exists w', pushes m (gs, w) (vals_settings m (name_hash k) 0 zs) = Some (gs ++ vals_settings m (name_hash k) 0 zs, w')).
        { destruct Hfirst as [->|Hfirst].
          - inversion Hz; subst. cbn. rewrite app_nil_r. eauto.
          - destruct Ha as (per&Hper&Hgs&Hnd&_). eapply earlier_values_set; eassumption. }
        destruct W as (w'&W). rewrite <- Hg1 in W.
        assert (F := Hin). apply find_signal_in in F; [|exact Hm]. rewrite <- hash_join in F.
        assert (Hn : 0 + N.of_nat (List.length zs) <= N.of_nat (List.length (leaves v))) by (rewrite Hl, app_length, (forall2_len _ _ _ Hz); lia).
        assert (V := set_values_push m Hm k _ _ _ F zs 0 s1 Hs1 Hn). rewrite hash_join in V. fold vals_settings in V.
        rewrite W in V. destruct V as (s2&V&_). eauto. }
      destruct P as (a&s2&->). cbn [set_values_js]. unfold mbind at 1, lift_res.
      assert (E : bigint_value x = Err e) by (apply bigint_value_err; [destruct Hb; discriminate|exact Hb]). rewrite E. reflexivity.
    - destruct (after_accepted_js pre gs ((k, v) :: post) s Hs Ha) as (s1&w&Hs1&Hg1&->).
      apply leaves_flattens in Hl. symmetry in Hl. rewrite <- Hl in Hin.
      cbn [set_keys_js]. unfold mbind at 1. rewrite (set_key_sized k v s1 Hin), Hl.
      cbn [set_values_js]. unfold mbind at 1, lift_res.
      assert (E : bigint_value x = Ok z) by (apply bigint_value_spec; [destruct Hz; discriminate|exact Hz]). rewrite E.
      unfold mbind at 1. rewrite (normalize_value m Hm), (write_words_ok m) by (try exact Hs1; apply value_of_fits; exact Hm).
      unfold mbind at 1, lift_opt.
      assert (F := Hin). apply find_signal_in in F; [|exact Hm]. rewrite <- hash_join in F.
      rewrite (set_signal_push m _ _ _ 0 (value_of m z) (N.of_nat (List.length (leaves v)))); [|unfold shape; cbn [ws_shared]; apply words_of_length|reflexivity|apply value_of_fits; exact Hm|exact F|rewrite Hl; cbn [List.length]; lia].
      rewrite hash_join. change (gw_of (WState (words_of (md_n32 m) (value_of m z)) (ws_given s1) (ws_witness s1))) with (gw_of s1). rewrite Hg1.
      assert (Hx : push m (gs, w) (name_hash k, 0, value_of m z) = None).
      { unfold push. cbn [fst snd].
        match goal with |- context [existsb ?f ?l] => assert (X : existsb f l = true) by (apply (existsb_slot (name_hash k, 0, value_of m z)); exact Hset); rewrite X end.
        reflexivity. }
      rewrite Hx. reflexivity.
    - change ((k, v) :: post) with ([(k, v)] ++ post). rewrite app_assoc. apply error_stays; [|discriminate].
      assert (Hnum : all_numbers (pre ++ [(k, v)])).
      { apply Forall_app. split; [eapply accepted_numbers; exact Ha|]. constructor; [|constructor]. destruct Hg as (zs&n&Hg&_). exists zs. exact Hg. }
      rewrite (do_two m prime _ s Hnum). apply stops_do; [exact Hm|exact Hs|]. eapply sw_assertion; try eassumption. reflexivity.
    - rewrite (do_two m prime input s (accepted_numbers _ _ Ha)). apply stops_do; [exact Hm|exact Hs|]. eapply sw_missing; eassumption.
  Qed.

  (** ** Every error is one of those *)
  Lemma sized_or k v : (exists e, shape_error m k v e) \/ In (name_hash k, N.of_nat (List.length (leaves v))) (md_signals m).
  Proof using Hm.
    assert (L := flattens_leaves v). destruct (find_signal m (name_hash k)) as [n|] eqn:F.
    - apply find_signal_in in F; [|exact Hm]. destruct (N.lt_trichotomy (N.of_nat (List.length (leaves v))) n) as [H|[H|H]].
      + left. eexists. eapply se_few; eassumption.
      + right. rewrite H. exact F.
      + left. eexists. eapply se_many; eassumption.
    - left. eexists. apply se_unknown. apply find_signal_none in F; assumption.
  Qed.
  Lemma slot_in_dec (x : N * N) l : In x l \/ ~ In x l.
  Proof. assert (Dec : forall a b : N * N, {a = b} + {a <> b}) by (decide equality; apply N.eq_dec). destruct (in_dec Dec x l); [left|right]; assumption. Qed.
  (** An entry that is not made of numbers, after accepted ones. *)
  Lemma bad_entry pre k v post gs ex : accepted m pre gs -> no_numbers v ex ->
    exists e, original_stops m (pre ++ (k, v) :: post) e /\
      (e = WcValue ex \/ e = WcSignalNotFound k \/ e = WcNotEnough k \/ e = WcTooMany k \/ e = WcSet k 0).
  Proof using Hm.
    intros Ha Hb. destruct (sized_or k v) as [(e&He)|Hin].
    { exists e. split; [eapply os_shape; [reflexivity|eassumption..]|]. destruct He; auto. }
    destruct (no_numbers_leaves v ex Hb) as (x1&x&x2&zs&Hl&H1&H2). assert (L := flattens_leaves v). rewrite Hl in L, Hin.
    destruct x1 as [|x0 x1].
    - exists (WcValue ex). split; [|auto]. eapply os_value with (x1 := []); [reflexivity|eassumption..|left; reflexivity].
    - destruct (slot_in_dec (name_hash k, 0) (map fst gs)) as [Hs|Hs].
      + exists (WcSet k 0). split; [|auto]. inversion H1 as [|? z ? ? Hz _]; subst. eapply os_twice; [reflexivity|exact Ha|exact L|exact Hin|exact Hz|exact Hs].
      + exists (WcValue ex). split; [|auto]. eapply os_value with (x1 := x0 :: x1); [reflexivity|eassumption..|right; exact Hs].
  Qed.
  (** The rewrite's errors, translated. *)
  Lemma stops_original input e : stops_with m input e ->
    original_stops m input e \/
    exists pre k v post gs ex, input = pre ++ (k, v) :: post /\ accepted m pre gs /\ no_numbers v ex /\ e = WcValue ex.
  Proof using Hm.
    intros [H0 Hc|pre k v post gs e0 -> Ha He|pre k v post gs g -> Ha Hg Hin|pre k v post gs g j -> Ha Hg Hcomp Hc Hj|gs slot Ha Hin Hni].
    - left. apply os_init; assumption.
    - destruct He as [ex He|zs H Hn|zs n H Hin Hlt|zs n H Hin Hlt]; [right; exists pre, k, v, post, gs, ex; auto|left; eapply os_shape; [reflexivity|exact Ha|]..].
      + apply se_unknown. exact Hn.
      + apply numbers_leaves, forall2_len in H. eapply se_few; [apply flattens_leaves|exact Hin|]. rewrite H. exact Hlt.
      + apply numbers_leaves, forall2_len in H. eapply se_many; [apply flattens_leaves|exact Hin|]. rewrite H. exact Hlt.
    - left. destruct Hg as (zs&n&Hz&Hsig&Hl&_). cbn [fst snd] in *. apply numbers_leaves in Hz. assert (L := flattens_leaves v).
      assert (Hpos : 0 < n).
      { destruct Ha as (per&Hper&->&_). apply entries_incl in Hper. apply Hper, slots_in in Hin as (n'&Hin'&Hlt).
        apply find_signal_in in Hin'; [|exact Hm]. apply find_signal_in in Hsig; [|exact Hm]. assert (n' = n) by congruence. lia. }
      destruct (leaves v) as [|x xs] eqn:El; inversion Hz as [|? z ? zs' Hz1 Hz2]; subst; [cbn in Hpos; lia|].
      eapply os_twice; [reflexivity|exact Ha|exact L| |exact Hz1|exact Hin].
      cbn [List.length] in *. rewrite (forall2_len _ _ _ Hz2). exact Hsig.
    - left. eapply os_assertion; [reflexivity|eassumption..].
    - left. eapply os_missing; eassumption.
  Qed.
  Lemma do_original input e s : shape m s -> fst (do_calculate_js m prime input s) = Err e -> exists e', original_stops m input e'.
  Proof using Hm.
    intros Hs E.
    assert (D : exists e0, fst (do_calculate m prime input s) = Err e0).
    { destruct (fst (do_calculate m prime input s)) as [[]|e0|] eqn:F; [|eauto|].
      - exfalso. assert (N : all_numbers input).
        { assert (C := do_calculate_cases m Hm input s Hs). destruct (do_calculate m prime input s) as [[[]|?|] s']; cbn [fst] in F; try discriminate.
          destruct C as (_&gs&w&(per&Hper&_)&_). eapply entries_numbers. exact Hper. }
        rewrite (do_two m prime input s N) in E. congruence.
      - exfalso. assert (C := do_calculate_cases m Hm input s Hs). destruct (do_calculate m prime input s) as [[[]|?|] s']; cbn [fst] in F; try discriminate. exact C. }
    destruct D as (e0&D). destruct (do_stops m Hm input e0 s Hs D) as (e1&H1).
    destruct (stops_original input e1 H1) as [H|(pre&k&v&post&gs&ex&->&Ha&Hn&_)]; [eauto|].
    destruct (bad_entry pre k v post gs ex Ha Hn) as (e'&He&_). eauto.
  Qed.
  Lemma calculate_do_js input e : calculate_witness_js m input = Err e <-> fst (do_calculate_js m prime input (x_raw_prime m (state0 m))) = Err e.
  Proof using Hm.
    destruct (fst (do_calculate_js m prime input (x_raw_prime m (state0 m)))) as [[]|e'|] eqn:E.
    - assert (N : all_numbers input).
      { destruct (do_calculate_js m prime input (x_raw_prime m (state0 m))) as [r s'] eqn:F. cbn [fst] in E. subst r. eapply do_js_numbers. exact F. }
      rewrite (proj1 (proj1 (C64_same_witness m input Hm) N)). rewrite (calculate_do m Hm). rewrite <- (do_two m prime input _ N), E. reflexivity.
    - unfold calculate_witness_js, mbind. rewrite (wc_prime_ok m Hm). destruct (do_calculate_js m prime input (x_raw_prime m (state0 m))) as [[?|e1|] s']; cbn [fst] in *; try discriminate E.
      injection E as ->. cbn [fst]. split; intros [= ->]; reflexivity.
    - unfold calculate_witness_js, mbind. rewrite (wc_prime_ok m Hm). destruct (do_calculate_js m prime input (x_raw_prime m (state0 m))) as [[?|e1|] s']; cbn [fst] in *; try discriminate E.
      split; discriminate.
  Qed.
End Original.

(** The error of the original, exactly; so at most one error is possible for an input. *)
Theorem C64_which_error_of_the_original :
  forall m input e, module_ok m -> (calculate_witness_js m input = Err e <-> original_stops m input e).
Proof.
  intros m input e Hm. rewrite (calculate_do_js m Hm). assert (Hs := shape0 m). split; intros H.
  - destruct (do_original m Hm input e _ Hs H) as (e'&He). assert (E := original_do m Hm input e' _ Hs He). congruence.
  - apply original_do; assumption.
Qed.
Print Assumptions C64_which_error_of_the_original.

(** The original and the rewrite report different errors only about the same entry, the first one that
    does not go through: the rewrite that one of its values is no number, the original that its name
    is unknown, that it has too few or too many values, or that its signal has values already. *)
Theorem C64_errors_that_differ :
  forall m input e e', module_ok m -> calculate_witness m input = Err e -> calculate_witness_js m input = Err e' -> e <> e' ->
    exists pre k v post gs ex, input = pre ++ (k, v) :: post /\ accepted m pre gs /\ no_numbers v ex /\ e = WcValue ex /\
      (e' = WcSignalNotFound k \/ e' = WcNotEnough k \/ e' = WcTooMany k \/ e' = WcSet k 0).
Proof.
  intros m input e e' Hm H H' Hne. assert (H0 := H). apply C48_which_error in H0; [|exact Hm].
  destruct (stops_original m Hm input e H0) as [G|(pre&k&v&post&gs&ex&->&Ha&Hn&->)].
  - apply C64_which_error_of_the_original in G; [|exact Hm]. congruence.
  - destruct (bad_entry m Hm pre k v post gs ex Ha Hn) as (e1&G&D). apply C64_which_error_of_the_original in G; [|exact Hm].
    assert (e1 = e') by congruence. subst e1. exists pre, k, v, post, gs, ex. repeat (split; [auto; fail|]).
    destruct D as [->|D]; [congruence|exact D].
Qed.
Print Assumptions C64_errors_that_differ.

(** The circuit y * y = x: where the two differ, and where they agree. *)
Example C64_errors_nonvacuous :
  module_ok ex_wmodule /\
  original_stops ex_wmodule [(lit "z", JNull)] (WcSignalNotFound (lit "z")) /\ stops_with ex_wmodule [(lit "z", JNull)] (WcValue JsTypeError) /\
  original_stops ex_wmodule [(lit "y", JArr [JInt 1; JNull])] (WcTooMany (lit "y")) /\ stops_with ex_wmodule [(lit "y", JArr [JInt 1; JNull])] (WcValue JsTypeError) /\
  original_stops ex_wmodule [(lit "y", JArr [])] (WcNotEnough (lit "y")) /\ stops_with ex_wmodule [(lit "y", JArr [])] (WcNotEnough (lit "y")) /\
  original_stops ex_wmodule [(lit "y", JInt 3); (lit "y", JStr (lit "3x"))] (WcValue JsSyntaxError) /\
  original_stops ex_wmodule [(lit "y", JInt 4); (lit "x", JInt 9)] (WcSet (lit "x") 0) /\
  original_stops ex_wmodule [(lit "y", JInt 4)] WcNotAllInputs.
Proof.
  split; [exact ex_wmodule_ok|].
  repeat (split; [first [apply C64_which_error_of_the_original|apply C48_which_error]; [exact ex_wmodule_ok|vm_compute; reflexivity]|]).
  apply C64_which_error_of_the_original; [exact ex_wmodule_ok|vm_compute; reflexivity].
Qed.
