(** Property theorems C48, continued: which error the witness calculator ends with.  Vocabulary:
    SpecWitnessErrors.v and SpecWitnessCalc.v. *)
From Coq Require Import List Bool Arith NArith ZArith Lia Permutation.
From Coq Require Import Strings.String.
From Verif Require Import Res Bytes Text Fld Zp Bn254 Reader Inputs InputsFacts JsNumber JsNumberFacts SpecNumerals P_Numerals SpecJsNumber
  WitnessCalc SpecWitnessCalc WitnessCalcFacts P_WitnessCalc SpecWitnessErrors.
Import ListNotations.
Local Open Scope N_scope.

(** ** Values *)
Lemma bigint_value_err v e : (forall l, v <> JArr l) -> (bigint_value v = Err e <-> bad_number v e).
Proof.
  intros Ha. split.
  - intros H. destruct v as [|b|n|t|t|l|o]; cbn in H; try discriminate.
    + injection H as <-. constructor.
    + assert (F : bigint_value (JFloat t) = Err e) by exact H.
      destruct (number_bigint t) eqn:E; [discriminate|]. injection H as <-. constructor.
      intros z Hz. apply bigint_value_spec in Hz; [congruence|discriminate].
    + destruct (js_bigint t) eqn:E; [discriminate|]. injection H as <-. constructor.
      intros z Hz. apply C57_bigint_texts in Hz. congruence.
    + exfalso. exact (Ha l eq_refl).
    + injection H as <-. constructor.
  - intros H. destruct H as [|t H|t H|o]; cbn; try reflexivity.
    + destruct (number_bigint t) eqn:E; [|reflexivity]. exfalso. apply (H z).
      apply bigint_value_spec; [discriminate|]. cbn. rewrite E. reflexivity.
    + destruct (js_bigint t) eqn:E; [|reflexivity]. exfalso. apply (H z). apply C57_bigint_texts. exact E.
Qed.
Lemma fill_list_app l1 : forall acc l2 zs, numbers_of l1 zs -> fill_list acc (l1 ++ l2) = fill_list (acc ++ zs) l2.
Proof.
  induction l1 as [|x l1 IH]; intros acc l2 zs H.
  - inversion H. subst. rewrite app_nil_r. reflexivity.
  - inversion H as [|? ? za zb Ha Hb]; subst. cbn [app fill_list].
    assert (E : fill_array acc x = Ok (acc ++ za)) by (apply fill_array_spec; eauto). rewrite E.
    rewrite (IH _ _ _ Hb), app_assoc. reflexivity.
Qed.
Lemma fill_array_err v : forall acc e, fill_array acc v = Err e <-> no_numbers v e.
Proof.
  induction v as [|b|z|t|t|l IH|o IH] using json_ind'; intros acc e.
  6: { rewrite fill_array_arr. split.
       - intros H. enough (G : exists l1 x l2 zs, l = l1 ++ x :: l2 /\ numbers_of l1 zs /\ no_numbers x e)
           by (destruct G as (l1&x&l2&zs&->&G1&G2); econstructor; eassumption).
         revert acc H. induction IH as [|x l Hx _ IHl]; intros acc H; cbn [fill_list] in H; [discriminate|].
         destruct (fill_array acc x) as [acc'|e'|] eqn:E.
         + apply fill_array_spec in E as (z1&Hz1&->). destruct (IHl _ H) as (l1&y&l2&zs&->&G1&G2).
           exists (x :: l1), y, l2, (z1 ++ zs). split; [reflexivity|]. split; [constructor; assumption|exact G2].
         + injection H as ->. apply Hx in E. exists [], x, l, []. split; [reflexivity|]. split; [constructor|exact E].
         + discriminate.
       - intros H. inversion H as [v e' B|l1 x l2 zs e' B1 B2]; subst; [inversion B|].
         rewrite (fill_list_app _ _ _ _ B1). cbn [fill_list].
         assert (Hx : forall acc e, fill_array acc x = Err e <-> no_numbers x e).
         { rewrite Forall_forall in IH. apply IH. apply in_or_app. right. left. reflexivity. }
         apply Hx with (acc := acc ++ zs) in B2. rewrite B2. reflexivity. }
  all: cbn [fill_array]; match goal with |- context [bigint_value ?v] =>
      assert (Hs := fun e => bigint_value_err v e ltac:(discriminate)); destruct (bigint_value v) as [z0|e0|] eqn:E end;
    split; intros H; try discriminate;
    try (constructor; apply Hs; congruence);
    inversion H; subst; match goal with B : bad_number _ _ |- _ => apply Hs in B; congruence end.
Qed.
(** BigInt of every number in a value, as the calculator flattens it: the numbers, or the first error. *)
Theorem C48_numbers_of_a_value :
  forall v, match flat_array v with Ok zs => numbers v zs | Err e => no_numbers v e | Panic => False end.
Proof.
  intros v. destruct (flat_array v) as [zs|e|] eqn:E.
  - apply flat_array_spec. exact E.
  - unfold flat_array in E. apply fill_array_err in E. exact E.
  - exact (flat_array_no_panic v E).
Qed.
Print Assumptions C48_numbers_of_a_value.

(** ** The calculation *)
Section Errors.
  Context (m : wmodule) (Hm : module_ok m).
  Notation prime := (Z.of_N (md_prime m)).

  Lemma set_values_fails k msb lsb n : find_signal m (join64 msb lsb) = Some n -> forall z1 z z2 i s gw1,
    shape m s -> i + N.of_nat (List.length (z1 ++ z :: z2)) <= n ->
    pushes m (gw_of s) (vals_settings m (join64 msb lsb) i z1) = Some gw1 ->
    push m gw1 (join64 msb lsb, i + N.of_nat (List.length z1), value_of m z) = None ->
    fst (set_values m prime k msb lsb i (z1 ++ z :: z2) s) = Err (WcSet k (i + N.of_nat (List.length z1))).
  Proof using Hm.
    intros Hf. induction z1 as [|z0 z1 IH]; intros z z2 i s gw1 Hs Hi Hp Hx.
    - cbn [app List.length vals_settings pushes] in *. injection Hp as <-. change (N.of_nat 0) with 0 in *. rewrite N.add_0_r in *.
      cbn [set_values]. unfold mbind at 1. rewrite (normalize_value m Hm), (write_words_ok m) by (try exact Hs; apply value_of_fits; exact Hm).
      unfold mbind at 1, lift_opt.
      rewrite (set_signal_push m _ msb lsb i (value_of m z) n); [|unfold shape; cbn [ws_shared]; apply words_of_length|reflexivity|apply value_of_fits; exact Hm|exact Hf|lia].
      change (gw_of (WState (words_of (md_n32 m) (value_of m z)) (ws_given s) (ws_witness s))) with (gw_of s).
      rewrite Hx. reflexivity.
    - cbn [app List.length vals_settings pushes] in *.
      destruct (push m (gw_of s) (join64 msb lsb, i, value_of m z0)) as [[g w]|] eqn:Ep; [|discriminate].
      cbn [set_values]. unfold mbind at 1. rewrite (normalize_value m Hm), (write_words_ok m) by (try exact Hs; apply value_of_fits; exact Hm).
      unfold mbind at 1, lift_opt.
      rewrite (set_signal_push m _ msb lsb i (value_of m z0) n); [|unfold shape; cbn [ws_shared]; apply words_of_length|reflexivity|apply value_of_fits; exact Hm|exact Hf|lia].
      change (gw_of (WState (words_of (md_n32 m) (value_of m z0)) (ws_given s) (ws_witness s))) with (gw_of s).
      rewrite Ep. cbn [ws_shared].
      specialize (IH z z2 (i + 1) (WState (words_of (md_n32 m) (value_of m z0)) g w) gw1).
      assert (E : i + 1 + N.of_nat (List.length z1) = i + N.of_nat (S (List.length z1))) by lia.
      rewrite E in IH. specialize (IH ltac:(apply words_of_length) ltac:(lia) Hp Hx). unfold mbind.
      match type of IH with fst ?t = _ => destruct t as [[x|e0|] s2] end; cbn [fst] in *; try discriminate IH. exact IH.
  Qed.

  Lemma set_key_faults k v e s : entry_error m k v e -> fst (set_key m prime k v s) = Err e.
  Proof using Hm.
    intros H. unfold set_key, mbind, lift_res.
    destruct H as [e H|zs H Hn|zs n H Hin Hlt|zs n H Hin Hlt].
    - assert (E : flat_array v = Err e) by (unfold flat_array; apply fill_array_err; exact H). rewrite E. reflexivity.
    - apply flat_array_spec in H. rewrite H. unfold x_signal_size. rewrite hash_join.
      assert (F : find_signal m (name_hash k) = None) by (apply find_signal_none; assumption). rewrite F. reflexivity.
    - apply flat_array_spec in H. rewrite H. unfold x_signal_size. rewrite hash_join.
      assert (F : find_signal m (name_hash k) = Some n) by (apply find_signal_in; assumption). rewrite F.
      replace (Z.of_N n <? 0)%Z with false by (symmetry; apply Z.ltb_ge; lia).
      replace (Z.of_nat (List.length zs) <? Z.of_N n)%Z with true by (symmetry; apply Z.ltb_lt; lia). reflexivity.
    - apply flat_array_spec in H. rewrite H. unfold x_signal_size. rewrite hash_join.
      assert (F : find_signal m (name_hash k) = Some n) by (apply find_signal_in; assumption). rewrite F.
      replace (Z.of_N n <? 0)%Z with false by (symmetry; apply Z.ltb_ge; lia).
      replace (Z.of_nat (List.length zs) <? Z.of_N n)%Z with false by (symmetry; apply Z.ltb_ge; lia).
      replace (Z.of_N n <? Z.of_nat (List.length zs))%Z with true by (symmetry; apply Z.ltb_lt; lia). reflexivity.
  Qed.
  (** A faultless entry sets its values one by one. *)
  Lemma set_key_fails k v zs n z1 z z2 s gw1 : numbers v zs -> In (name_hash k, n) (md_signals m) -> N.of_nat (List.length zs) = n ->
    zs = z1 ++ z :: z2 -> shape m s -> pushes m (gw_of s) (vals_settings m (name_hash k) 0 z1) = Some gw1 ->
    push m gw1 (name_hash k, N.of_nat (List.length z1), value_of m z) = None ->
    fst (set_key m prime k v s) = Err (WcSet k (N.of_nat (List.length z1))).
  Proof using Hm.
    intros H Hin Hl -> Hs Hp Hx. apply flat_array_spec in H. unfold set_key, mbind, lift_res. rewrite H.
    unfold x_signal_size. rewrite hash_join.
    assert (F : find_signal m (name_hash k) = Some n) by (apply find_signal_in; assumption). rewrite F.
    replace (Z.of_N n <? 0)%Z with false by (symmetry; apply Z.ltb_ge; lia).
    replace (Z.of_nat (List.length (z1 ++ z :: z2)) <? Z.of_N n)%Z with false by (symmetry; apply Z.ltb_ge; lia).
    replace (Z.of_N n <? Z.of_nat (List.length (z1 ++ z :: z2)))%Z with false by (symmetry; apply Z.ltb_ge; lia).
    assert (P := set_values_fails k (parse_hex (firstn 8 (fnv_hash k))) (parse_hex (firstn 8 (skipn 8 (fnv_hash k)))) n).
    rewrite hash_join in P. specialize (P F z1 z z2 0 s gw1 Hs ltac:(lia) Hp). rewrite N.add_0_l in P. exact (P Hx).
  Qed.

  Lemma set_keys_app kvs : forall rest s, 
    set_keys m prime (kvs ++ rest) s =
    match set_keys m prime kvs s with
    | (Ok a, s') => match set_keys m prime rest s' with (Ok b, s2) => (Ok (a + b), s2) | r => r end
    | r => r
    end.
  Proof.
    induction kvs as [|[k v] kvs IH]; intros rest s.
    - cbn [app set_keys]. unfold ret. destruct (set_keys m prime rest s) as [[b|e|] s2]; reflexivity.
    - cbn [app set_keys]. unfold mbind, ret. destruct (set_key m prime k v s) as [[a|e|] s1]; [|reflexivity..].
      rewrite IH. destruct (set_keys m prime kvs s1) as [[a2|e|] s2]; [|reflexivity..].
      destruct (set_keys m prime rest s2) as [[b|e|] s3]; [|reflexivity..]. rewrite N.add_assoc. reflexivity.
  Qed.
  Lemma set_keys_ok kvs per s gw : shape m s -> Forall2 (entry_set m) kvs per -> pushes m (gw_of s) (List.concat per) = Some gw ->
    exists s', set_keys m prime kvs s = (Ok (N.of_nat (List.length (List.concat per))), s') /\ shape m s' /\ gw_of s' = gw.
  Proof using Hm.
    intros Hs Hper Hp. destruct (set_keys_cases m Hm kvs s Hs) as [(per'&gw'&s'&H1&H2&H3&H4&H5)|(pre&k&v&post&per'&gw'&e&s'&->&H1&H2&H3&H4)].
    - rewrite (entries_fun m _ _ _ Hper H1) in *. exists s'. split; [exact H3|]. split; [exact H4|congruence].
    - exfalso. apply Forall2_app_inv_l in Hper as (l1&l2&K1&K2&->). rewrite (entries_fun m _ _ _ K1 H1) in *.
      inversion K2 as [|? g ? l2' G1 G2]; subst. rewrite concat_app, pushes_app, H2 in Hp. cbn [List.concat] in Hp. rewrite pushes_app in Hp.
      destruct H4 as [[_ H4]|(g'&j&H4&H5&_)]; [exact (H4 g G1)|].
      rewrite (entry_set_fun m _ _ _ H4 G1) in H5. rewrite H5 in Hp. discriminate.
  Qed.

  Lemma full_iff (gs : list setting) : NoDup (map fst gs) -> incl (map fst gs) (slots m) ->
    (Permutation (map fst gs) (slots m) <-> N.of_nat (List.length gs) = input_size m).
  Proof using Hm.
    intros H1 H2. assert (L := slots_length m). split; intros H.
    - apply Permutation_length in H. rewrite map_length in H. unfold setting in *. lia.
    - apply NoDup_Permutation_bis; [exact H1|rewrite map_length; unfold setting in *; lia|exact H2].
  Qed.
  Lemma entries_incl kvs per : Forall2 (entry_settings m) kvs per -> incl (map fst (List.concat per)) (slots m).
  Proof. intros H. apply entries_iff in H. eapply entries_slots. exact H. Qed.
  Lemma accepted_pushes pre gs w0 : accepted m pre gs -> exists w, pushes m ([], w0) gs = Some (gs, w).
  Proof using Hm.
    intros (per&Hper&->&Hnd&Hc). assert (Hin := entries_incl _ _ Hper).
    assert (P := pushes_spec m (List.concat per) [] w0 ltac:(constructor) Hin). cbn [app] in P.
    destruct (pushes m ([], w0) (List.concat per)) as [[g w]|].
    - destruct P as (->&_). eauto.
    - exfalso. destruct P as [P|(_&P&_&P2)]; [exact (P Hnd)|]. apply Hc; [|exact P2]. apply full_iff; assumption.
  Qed.
  Lemma pushes_accepted pre per w0 gw : Forall2 (entry_settings m) pre per -> pushes m ([], w0) (List.concat per) = Some gw ->
    (slots m = [] -> md_compute m [] <> None) -> accepted m pre (List.concat per) /\ fst gw = List.concat per.
  Proof using Hm.
    intros Hper Hp H0. assert (Hin := entries_incl _ _ Hper).
    assert (P := pushes_spec m (List.concat per) [] w0 ltac:(constructor) Hin). cbn [app] in P. rewrite Hp in P.
    destruct gw as [g w]. destruct P as (->&Hnd&P). split; [|reflexivity].
    exists per. split; [exact Hper|]. split; [reflexivity|]. split; [exact Hnd|]. intros Hfull.
    destruct P as [[E _]|[_ P]].
    - rewrite E in *. cbn [map] in Hfull. apply Permutation_nil in Hfull. exact (H0 Hfull).
    - apply full_iff in Hfull; [|assumption..]. rewrite Hfull, N.eqb_refl in P. destruct P as (w1&P&_). congruence.
  Qed.

  (** After the start of the calculation: nothing is set. *)
  Lemma start s : shape m s -> (slots m = [] -> md_compute m [] <> None) ->
    exists w0 s1, x_init m s = Some s1 /\ shape m s1 /\ gw_of s1 = ([], w0).
  Proof using Hm.
    intros Hs H0. unfold x_init, x_run. cbn [ws_given List.length ws_shared ws_witness].
    destruct (N.eqb_spec (N.of_nat 0) (input_size m)) as [Hz|Hz].
    - assert (Hnil : slots m = []) by (apply length_zero_iff_nil; assert (L := slots_length m); lia).
      specialize (H0 Hnil). destruct (md_compute m []) as [w|]; [|contradiction]. eexists _, _. split; [reflexivity|]. split; [exact Hs|reflexivity].
    - eexists _, _. split; [reflexivity|]. split; [exact Hs|reflexivity].
  Qed.
  Lemma accepted_start pre gs : accepted m pre gs -> slots m = [] -> md_compute m [] <> None.
  Proof.
    intros (per&Hper&->&Hnd&Hc) Hs. assert (Hin := entries_incl _ _ Hper). rewrite Hs in *.
    destruct (List.concat per) as [|x l] eqn:E; [apply Hc; constructor|]. exfalso. exact (Hin (fst x) (or_introl eq_refl)).
  Qed.

  (** After accepted entries their settings are the ones made, and the rest goes on from there. *)
  Lemma after_accepted pre gs post s : shape m s -> accepted m pre gs ->
    exists s1 w, shape m s1 /\ gw_of s1 = (gs, w) /\
      fst (do_calculate m prime (pre ++ post) s) =
      match fst (set_keys m prime post s1) with
      | Ok b => if N.of_nat (List.length gs) + b <? input_size m then Err WcNotAllInputs else Ok tt
      | Err e => Err e
      | Panic => Panic
      end.
  Proof using Hm.
    intros Hs Ha. destruct (start s Hs (accepted_start pre gs Ha)) as (w0&s1&E1&Hs1&Hg1).
    destruct (accepted_pushes pre gs w0 Ha) as (w&Hp). destruct Ha as (per&Hper&->&_&_). apply entries_iff in Hper.
    rewrite <- Hg1 in Hp. destruct (set_keys_ok pre per s1 _ Hs1 Hper Hp) as (s2&E2&Hs2&Hg2).
    exists s2, w. split; [exact Hs2|]. split; [exact Hg2|].
    unfold do_calculate, mbind, lift_opt. rewrite E1, set_keys_app, E2.
    destruct (set_keys m prime post s2) as [[b|e|] s3]; cbn [fst]; [|reflexivity..].
    destruct (N.of_nat (List.length (List.concat per)) + b <? input_size m); reflexivity.
  Qed.
  Lemma calculate_do input e : calculate_witness m input = Err e <-> fst (do_calculate m prime input (x_raw_prime m (state0 m))) = Err e.
  Proof using Hm.
    unfold calculate_witness, calculate_witness_m, mbind. rewrite (wc_prime_ok m Hm).
    assert (H := do_calculate_cases m Hm input (x_raw_prime m (state0 m)) (shape0 m)).
    destruct (do_calculate m prime input (x_raw_prime m (state0 m))) as [[[]|e'|] s']; [|cbn [fst]; split; intros [= ->]; reflexivity|contradiction].
    destruct H as (_&gs&w&H1&H2&H3).
    destruct (read_witness_ok m w (witness_fits m Hm w gs H2) (seq 0 (N.to_nat (md_wsize m))) s' H3) as (s2&E). rewrite E.
    cbn [fst]. split; discriminate.
  Qed.

  Lemma vals_slots h : forall zs i x, In x (map fst (vals_settings m h i zs)) <-> fst x = h /\ i <= snd x < i + N.of_nat (List.length zs).
  Proof.
    induction zs as [|z zs IH]; intros i [a b]; cbn [vals_settings map List.length In fst snd].
    - split; [contradiction|lia].
    - rewrite IH. cbn [fst snd]. split.
      + intros [E|[-> H]]; [injection E as <- <-; split; [reflexivity|lia]|split; [reflexivity|lia]].
      + intros [-> H]. destruct (N.eq_dec b i) as [->|Hne]; [left; reflexivity|right; split; [reflexivity|lia]].
  Qed.
  Lemma slot_zero kvs per h i : Forall2 (entry_set m) kvs per -> In (h, i) (map fst (List.concat per)) -> In (h, 0) (map fst (List.concat per)).
  Proof.
    induction 1 as [|kv g kvs per Hg _ IH]; [contradiction|]. cbn [List.concat]. rewrite map_app, !in_app_iff.
    intros [H|H]; [left|right; apply IH; exact H]. destruct Hg as (zs&_&_&->). apply vals_slots in H as [H1 H2]. cbn [fst snd] in *.
    apply vals_slots. cbn [fst snd]. split; [exact H1|]. clear - H2. lia.
  Qed.
  Lemma vals_nodup h : forall zs i, NoDup (map fst (vals_settings m h i zs)).
  Proof.
    induction zs as [|z zs IH]; intros i; cbn [vals_settings map fst]; constructor; [|apply IH].
    intros H. apply vals_slots in H as [_ H]. cbn [snd] in H. lia.
  Qed.
  Lemma vals_app h : forall z1 i z2, vals_settings m h i (z1 ++ z2) = vals_settings m h i z1 ++ vals_settings m h (i + N.of_nat (List.length z1)) z2.
  Proof.
    induction z1 as [|z z1 IH]; intros i z2.
    - cbn [app vals_settings List.length]. change (N.of_nat 0) with 0. rewrite N.add_0_r. reflexivity.
    - cbn [app vals_settings List.length]. rewrite IH. replace (i + N.of_nat (S (List.length z1))) with (i + 1 + N.of_nat (List.length z1)) by lia. reflexivity.
  Qed.

  Lemma stops_do input e s : shape m s -> stops_with m input e -> fst (do_calculate m prime input s) = Err e.
  Proof using Hm.
    intros Hs H. destruct H as [H0 Hc|pre k v post gs e -> Ha He|pre k v post gs g -> Ha Hg Hin|pre k v post gs g j -> Ha Hg Hcomp Hc Hj|gs slot Ha Hin Hni].
    - unfold do_calculate, mbind, lift_opt, x_init, x_run. cbn [ws_given ws_shared].
      assert (L := slots_length m). rewrite H0 in L. cbn [List.length] in *. rewrite <- L, N.eqb_refl, Hc. reflexivity.
    - destruct (after_accepted pre gs ((k, v) :: post) s Hs Ha) as (s1&w&Hs1&Hg1&->).
      cbn [set_keys]. unfold mbind. assert (F := set_key_faults k v e s1 He). destruct (set_key m prime k v s1) as [[a|e1|] s2]; cbn [fst] in *; try discriminate F.
      injection F as ->. reflexivity.
    - destruct (after_accepted pre gs ((k, v) :: post) s Hs Ha) as (s1&w&Hs1&Hg1&->).
      cbn [set_keys]. unfold mbind. destruct Hg as (zs&n&Hz&Hsig&Hl&_). cbn [fst snd] in *.
      assert (Hpos : (0 < List.length zs)%nat).
      { destruct Ha as (per&Hper&->&_). apply entries_incl in Hper. apply Hper, slots_in in Hin as (n'&Hin'&Hlt).
        apply find_signal_in in Hin'; [|exact Hm]. apply find_signal_in in Hsig; [|exact Hm]. assert (n' = n) by congruence. lia. }
      destruct zs as [|z zs]; [cbn in Hpos; lia|].
      assert (F := set_key_fails k v (z :: zs) n [] z zs s1 (gs, w) Hz Hsig Hl eq_refl Hs1). cbn [vals_settings pushes List.length] in F.
      rewrite Hg1 in F. specialize (F eq_refl). change (N.of_nat 0) with 0 in F.
      assert (Hx : push m (gs, w) (name_hash k, 0, value_of m z) = None).
      { unfold push. cbn [fst snd].
        match goal with |- context [existsb ?f ?l] => assert (X : existsb f l = true) by (apply (existsb_slot (name_hash k, 0, value_of m z)); exact Hin); rewrite X end.
        reflexivity. }
      specialize (F Hx). destruct (set_key m prime k v s1) as [[a|e1|] s2]; cbn [fst] in *; try discriminate F. injection F as ->. reflexivity.
    - destruct (after_accepted pre gs ((k, v) :: post) s Hs Ha) as (s1&w&Hs1&Hg1&->).
      cbn [set_keys]. unfold mbind. apply entry_settings_iff in Hg. destruct Hg as (zs&Hz&Hsig&->). cbn [fst snd] in *.
      rewrite vals_settings_length in Hj.
      destruct (exists_last (l := zs)) as (z1&z&->); [intros ->; cbn in Hj; lia|].
      rewrite app_length in Hj. cbn [List.length] in Hj. replace j with (N.of_nat (List.length z1)) by lia.
      rewrite vals_app, app_assoc in Hcomp, Hc. cbn [vals_settings] in Hcomp, Hc. rewrite N.add_0_l in Hcomp, Hc.
      apply complete_iff in Hcomp as (per&Hper&Hgs&Hnd&Hlen); [|exact Hm].
      assert (Hinc := entries_slots m _ _ Hper). rewrite <- Hgs in Hinc. clear per Hper Hgs.
      set (g1 := vals_settings m (name_hash k) 0 z1) in *.
      assert (Hnd1 : NoDup (map fst (gs ++ g1))) by (rewrite map_app in Hnd; eapply nodup_app_l; exact Hnd).
      assert (Hinc1 : incl (map fst (gs ++ g1)) (slots m)).
      { intros y Hy. apply Hinc. rewrite map_app. apply in_or_app. left. exact Hy. }
      assert (Hnd0 : NoDup (map fst gs)) by (rewrite map_app in Hnd1; eapply nodup_app_l; exact Hnd1).
      assert (P := pushes_spec m g1 gs w Hnd0 Hinc1). rewrite app_length in Hlen. cbn [List.length] in Hlen.
      destruct (pushes m (gs, w) g1) as [[g' w']|] eqn:Ep.
      2: { exfalso. destruct P as [P|(_&P&_)]; [exact (P Hnd1)|]. clear - P Hlen. unfold setting in *. lia. }
      destruct P as (->&_). rewrite <- Hg1 in Ep.
      assert (F := set_key_fails k v (z1 ++ [z]) _ z1 z [] s1 _ Hz Hsig eq_refl eq_refl Hs1 Ep).
      assert (Hx : push m (gs ++ g1, w') (name_hash k, N.of_nat (List.length z1), value_of m z) = None).
      { unfold push. cbn [fst snd]. match goal with |- context [existsb ?f ?l] => destruct (existsb f l) end; [reflexivity|].
        assert (Hl2 : N.of_nat (List.length ((gs ++ g1) ++ [(name_hash k, N.of_nat (List.length z1), value_of m z)])) = input_size m)
          by (rewrite <- Hlen, app_length; reflexivity).
        unfold setting in *. rewrite Hl2, N.eqb_refl, Hc. reflexivity. }
      specialize (F Hx). destruct (set_key m prime k v s1) as [[a|e1|] s2]; cbn [fst] in *; try discriminate F. injection F as ->. reflexivity.
    - destruct (after_accepted input gs [] s Hs Ha) as (s1&w&Hs1&Hg1&E). rewrite app_nil_r in E. rewrite E.
      cbn [set_keys]. unfold ret. cbn [fst]. rewrite N.add_0_r.
      assert (Hlt : N.of_nat (List.length gs) < input_size m).
      { destruct Ha as (per&Hper&->&Hnd&_). assert (Hinc := entries_incl _ _ Hper).
        assert (L := NoDup_incl_length Hnd Hinc). rewrite map_length in L. assert (L2 := slots_length m).
        assert (Hne : N.of_nat (List.length (List.concat per)) <> input_size m); [|unfold setting in *; lia].
        intros Hf. apply Hni. exact (full_slot m (List.concat per) slot Hnd Hinc Hf Hin). }
      apply N.ltb_lt in Hlt. rewrite Hlt. reflexivity.
  Qed.

  Lemma entry_error_exists k v e : entry_fault m k v e -> exists e', entry_error m k v e'.
  Proof.
    intros [e0 H|zs H1 H2|zs n H1 H2 H3|zs n H1 H2 H3].
    - assert (F := C48_numbers_of_a_value v). destruct (flat_array v) as [zs|e'|]; [exfalso; exact (H zs F)|eexists; constructor; exact F|contradiction].
    - eexists. eapply ee_unknown; eassumption.
    - eexists. eapply ee_few; eassumption.
    - eexists. eapply ee_many; eassumption.
  Qed.
  Lemma slots_none_or : {slots m = [] /\ md_compute m [] = None} + {slots m = [] -> md_compute m [] <> None}.
  Proof.
    destruct (slots m) as [|x l]; [|right; intros; discriminate]. destruct (md_compute m []) as [w|]; [right; intros _; discriminate|left; split; reflexivity].
  Qed.
  Lemma do_stops input e s : shape m s -> fst (do_calculate m prime input s) = Err e -> exists e', stops_with m input e'.
  Proof using Hm.
    intros Hs E. destruct slots_none_or as [[H0 Hc]|H0]; [eexists; apply sw_init; assumption|].
    destruct (start s Hs H0) as (w0&s1&E1&Hs1&Hg1).
    unfold do_calculate, mbind, lift_opt in E. rewrite E1 in E.
    destruct (set_keys_cases m Hm input s1 Hs1) as [(per&gw&s2&H1&H2&H3&H4&H5)|(pre&k&v&post&per&gw&e1&s2&->&H1&H2&H3&H4)];
      rewrite Hg1 in H2; apply entries_iff in H1; destruct (pushes_accepted _ per w0 gw H1 H2 H0) as [Ha Hgs].
    - rewrite H3 in E. destruct (N.ltb_spec (N.of_nat (List.length (List.concat per))) (input_size m)) as [Hlt|Hge]; [|discriminate].
      assert (Dec : forall a b : N * N, {a = b} + {a <> b}) by (decide equality; apply N.eq_dec).
      destruct (Exists_dec (fun x => ~ In x (map fst (List.concat per))) (slots m)) as [Hx|Hx].
      { intros x. destruct (in_dec Dec x (map fst (List.concat per))); [right|left]; tauto. }
      + apply Exists_exists in Hx as (slot&Hin&Hni). eexists. eapply sw_missing; eassumption.
      + exfalso. assert (I : incl (slots m) (map fst (List.concat per))).
        { intros x Hin. destruct (in_dec Dec x (map fst (List.concat per))) as [Hy|Hn]; [exact Hy|].
          exfalso. apply Hx. apply Exists_exists. eauto. }
        assert (L := NoDup_incl_length (slots_nodup m Hm) I). rewrite map_length in L. assert (L2 := slots_length m). unfold setting in *. lia.
    - destruct H4 as [[Hf _]|(g&j&Hg&Hp&->)].
      + apply entry_error_exists in Hf as (e'&He). eexists. eapply sw_entry; [reflexivity|exact Ha|exact He].
      + destruct gw as [g0 w1]. cbn [fst] in Hgs. subst g0.
        assert (Hper1 : Forall2 (entry_set m) (pre ++ [(k, v)]) (per ++ [g])).
        { apply Forall2_app; [apply entries_iff; exact H1|constructor; [exact Hg|constructor]]. }
        assert (Hc1 : List.concat (per ++ [g]) = List.concat per ++ g) by (rewrite concat_app; cbn; rewrite app_nil_r; reflexivity).
        assert (Hsl : incl (map fst (List.concat per ++ g)) (slots m)) by (rewrite <- Hc1; eapply entries_slots; exact Hper1).
        assert (Hnd : NoDup (map fst (List.concat per))) by (destruct Ha as (?&_&->&Hnd&_); exact Hnd).
        assert (P := pushes_spec m g (List.concat per) w1 Hnd Hsl). rewrite Hp in P.
        assert (Hg' := Hg). apply entry_settings_iff in Hg'. destruct P as [P|(P1&P2&P3&P4)].
        * destruct Hg as (zs&Hz&Hsig&->). cbn [fst snd] in *. eexists. eapply sw_twice; [reflexivity|exact Ha|exact Hg'|].
          assert (Dec : forall a b : N * N, {a = b} + {a <> b}) by (decide equality; apply N.eq_dec).
          destruct (in_dec Dec (name_hash k, 0) (map fst (List.concat per))) as [Hy|Hn]; [exact Hy|].
          exfalso. apply P. rewrite map_app. apply nodup_app; [exact Hnd|apply vals_nodup|].
          intros [h i] Hx Hv. apply vals_slots in Hv as [Hv _]. cbn [fst] in Hv. subst h. apply Hn.
          eapply slot_zero; [apply entries_iff; exact H1|exact Hx].
        * destruct g as [|x g]; [contradiction|]. eexists. eapply sw_assertion with (g := x :: g) (j := N.of_nat (List.length g)); [reflexivity|exact Ha|exact Hg'| |exact P4|].
          -- apply complete_iff; [exact Hm|]. exists (per ++ [x :: g]). rewrite Hc1. auto.
          -- cbn [List.length]. lia.
  Qed.
End Errors.

(** The error, exactly: the calculation ends with [e] if and only if [stops_with m input e]; so at
    most one error is possible for an input. *)
Theorem C48_which_error :
  forall m input e, module_ok m -> (calculate_witness m input = Err e <-> stops_with m input e).
Proof.
  intros m input e Hm. rewrite (calculate_do m Hm). assert (Hs := shape0 m). split; intros H.
  - destruct (do_stops m Hm input e _ Hs H) as (e'&He). assert (E := stops_do m Hm input e' _ Hs He). congruence.
  - apply stops_do; assumption.
Qed.
Print Assumptions C48_which_error.
Theorem C48_one_error :
  forall m input e e', module_ok m -> stops_with m input e -> stops_with m input e' -> e = e'.
Proof. intros m input e e' Hm H H'. apply C48_which_error in H, H'; try assumption. congruence. Qed.
Print Assumptions C48_one_error.

(** The circuit y * y = x of P_WitnessCalc.v: the first problem counts, whatever follows. *)
Example C48_which_error_nonvacuous :
  module_ok ex_wmodule /\
  stops_with ex_wmodule [(lit "y", JInt 4); (lit "x", JInt 9); (lit "z", JNull)] (WcSet (lit "x") 0) /\
  stops_with ex_wmodule [(lit "y", JInt 3); (lit "x", JInt 9); (lit "z", JArr [JInt 1; JNull; JObj []])] (WcValue JsTypeError) /\
  stops_with ex_wmodule [(lit "y", JArr [JArr [JInt 3; JStr (lit "3x")]; JNull])] (WcValue JsSyntaxError) /\
  stops_with ex_wmodule [(lit "y", JFloat (lit "1.5"))] (WcValue JsRangeError) /\
  stops_with ex_wmodule [(lit "x", JInt 9)] WcNotAllInputs /\
  stops_with ex_wmodule [(lit "y", JInt 3); (lit "y", JInt 3); (lit "z", JNull)] (WcSet (lit "y") 0) /\
  ~ stops_with ex_wmodule [(lit "y", JInt 3); (lit "x", JInt 9)] WcNotAllInputs.
Proof.
  split; [exact ex_wmodule_ok|].
  repeat (split; [apply C48_which_error; [exact ex_wmodule_ok|vm_compute; reflexivity]|]).
  intros H. apply C48_which_error in H; [|exact ex_wmodule_ok]. vm_compute in H. discriminate H.
Qed.
