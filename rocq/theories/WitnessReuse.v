(** One calculator asked several times: lemmas for C65. *)
From Coq Require Import List Bool Arith NArith ZArith Lia.
From Coq Require Import Strings.String Strings.Byte.
From Verif Require Import Res Bytes Text Reader Inputs Combined WitnessCalc SpecWitnessCalc WitnessCalcFacts WitnessCalcJs.
Import ListNotations.
Local Open Scope N_scope.
Local Open Scope rd_scope.

Section Reuse.
  Context (m : wmodule) (Hm : module_ok m).
  Notation n32 := (md_n32 m).
  Notation P := (Z.of_N (md_prime m)).
  Notation shape := (shape m).
  Definition alike (s s' : wstate) : Prop := shape s /\ shape s' /\ gw_of s = gw_of s'.
  Definition same_run {A} (x y : res wc_error A * wstate) : Prop := fst x = fst y /\ alike (snd x) (snd y).

  Lemma run_shape s s' : shape s -> x_run m s = Some s' -> shape s'.
  Proof.
    unfold x_run, WitnessCalcFacts.shape. intros Hs. match goal with |- context [?a =? ?b] => destruct (a =? b) end.
    - destruct (md_compute m (ws_given s)); [|discriminate]. intros [= <-]. exact Hs.
    - intros [= <-]. exact Hs.
  Qed.
  Lemma set_signal_shape s msb lsb i s' : shape s -> x_set_signal m s msb lsb i = Some s' -> shape s'.
  Proof.
    unfold x_set_signal. intros Hs. destruct (find_signal m _) as [n|]; [|discriminate].
    destruct (n <=? i); [discriminate|]. destruct (already_set _ _ _); [discriminate|]. apply run_shape. exact Hs.
  Qed.
  Lemma write_value z s : shape s -> write_words m (to_array32 (normalize z P) n32) s = (Ok tt, WState (words_of n32 (value_of m z)) (ws_given s) (ws_witness s)).
  Proof. intros Hs. rewrite normalize_value by exact Hm. apply write_words_ok; [exact Hs|]. apply value_of_fits; exact Hm. Qed.
  Lemma set_values_shape k msb lsb : forall vals i s, shape s -> shape (snd (set_values m P k msb lsb i vals s)).
  Proof.
    induction vals as [|z vals IH]; intros i s Hs; [exact Hs|]. cbn [set_values]. unfold mbind at 1. rewrite write_value by exact Hs.
    set (s1 := WState (words_of n32 (value_of m z)) (ws_given s) (ws_witness s)).
    assert (Hs1 : shape s1) by apply words_of_length. unfold mbind at 1, lift_opt.
    destruct (x_set_signal m s1 msb lsb i) as [s2|] eqn:E; [|exact Hs1].
    assert (Hs2 := set_signal_shape _ _ _ _ _ Hs1 E). specialize (IH (i + 1) s2 Hs2). unfold mbind.
    destruct (set_values m P k msb lsb (i + 1) vals s2) as [[n|e|] s3]; exact IH.
  Qed.
  Lemma set_values_same k msb lsb vals i s s' : alike s s' ->
    same_run (set_values m P k msb lsb i vals s) (set_values m P k msb lsb i vals s').
  Proof.
    intros (H1&H2&H3). destruct vals as [|z vals]; [split; [reflexivity|]; repeat split; assumption|].
    assert (E : set_values m P k msb lsb i (z :: vals) s = set_values m P k msb lsb i (z :: vals) s').
    { cbn [set_values]. unfold mbind at 1 4. rewrite !write_value by assumption. unfold gw_of in H3. injection H3 as -> ->. reflexivity. }
    rewrite <- E. split; [reflexivity|]. pose proof (set_values_shape k msb lsb (z :: vals) i s H1). repeat split; assumption.
  Qed.
  Lemma set_key_same k v s s' : alike s s' -> same_run (set_key m P k v s) (set_key m P k v s').
  Proof.
    intros H. unfold set_key, mbind, lift_res. destruct (flat_array v) as [zs|e|]; [|split; [reflexivity|exact H]..].
    destruct (_ <? 0)%Z; [split; [reflexivity|exact H]|]. destruct (_ <? _)%Z; [split; [reflexivity|exact H]|].
    destruct (_ <? _)%Z; [split; [reflexivity|exact H]|]. apply set_values_same. exact H.
  Qed.
  Lemma set_keys_same : forall kvs s s', alike s s' -> same_run (set_keys m P kvs s) (set_keys m P kvs s').
  Proof.
    induction kvs as [|[k v] kvs IH]; intros s s' H; [split; [reflexivity|exact H]|]. cbn [set_keys]. unfold mbind.
    destruct (set_key_same k v s s' H) as [E1 E2].
    destruct (set_key m P k v s) as [[a|e|] s1], (set_key m P k v s') as [[a'|e'|] s1']; cbn [fst snd] in E1, E2; try discriminate E1; try (split; assumption).
    injection E1 as <-. destruct (IH s1 s1' E2) as [F1 F2].
    destruct (set_keys m P kvs s1) as [[b|e|] s2], (set_keys m P kvs s1') as [[b'|e'|] s2']; cbn [fst snd] in F1, F2; try discriminate F1; try (split; assumption).
    injection F1 as <-. split; [reflexivity|exact F2].
  Qed.
  (** What came before does not matter. *)
  Lemma do_calculate_same input s s' : shape s -> shape s' ->
    let x := do_calculate m P input s in let y := do_calculate m P input s' in
    fst x = fst y /\ shape (snd x) /\ shape (snd y) /\ (fst x = Ok tt -> ws_witness (snd x) = ws_witness (snd y)).
  Proof.
    intros Hs Hs'. unfold do_calculate, mbind, lift_opt, x_init, x_run. cbn [ws_given ws_shared ws_witness List.length].
    assert (G : forall w, let f := fun s => match set_keys m P input (WState (ws_shared s) [] w) with
                | (Ok a, s) => (if a <? input_size m then fail WcNotAllInputs else ret tt) s
                | (Err e, s) => (Err e, s)
                | (Panic, s) => (Panic, s)
                end in fst (f s) = fst (f s') /\ shape (snd (f s)) /\ shape (snd (f s')) /\ (fst (f s) = Ok tt -> ws_witness (snd (f s)) = ws_witness (snd (f s')))).
    { intros w f. unfold f. destruct (set_keys_same input (WState (ws_shared s) [] w) (WState (ws_shared s') [] w)) as [E1 (E2&E3&E4)]; [repeat split; assumption|].
      destruct (set_keys m P input (WState (ws_shared s) [] w)) as [[a|e|] s1], (set_keys m P input (WState (ws_shared s') [] w)) as [[a'|e'|] s1']; cbn [fst snd] in *; try discriminate E1.
      - injection E1 as <-. unfold gw_of in E4. injection E4 as _ E4. destruct (a <? input_size m); cbn; auto.
      - injection E1 as <-. split; [reflexivity|]. split; [exact E2|]. split; [exact E3|]. discriminate.
      - split; [reflexivity|]. split; [exact E2|]. split; [exact E3|]. discriminate. }
    match goal with |- context [?a =? ?b] => destruct (a =? b) end.
    - destruct (md_compute m []) as [w|]; [exact (G (Some w))|]. cbn. split; [reflexivity|]. split; [exact Hs|]. split; [exact Hs'|]. discriminate.
    - exact (G None).
  Qed.

  (** Reading depends on the computed witness only, and keeps it. *)
  Lemma read_witness_same : forall ixs s s', ws_witness s = ws_witness s' ->
    fst (read_witness m ixs s) = fst (read_witness m ixs s') /\ ws_witness (snd (read_witness m ixs s)) = ws_witness s /\
    (shape s -> shape (snd (read_witness m ixs s))).
  Proof.
    induction ixs as [|i ixs IH]; intros s s' H; [repeat split; auto|]. cbn [read_witness]. unfold mbind, lift_state.
    assert (Hw : ws_witness (x_get_witness m s i) = ws_witness (x_get_witness m s' i)) by exact H.
    assert (Hr : read_reversed m (x_get_witness m s i) = read_reversed m (x_get_witness m s' i)).
    { unfold read_reversed, x_read, x_get_witness. cbn [ws_shared]. rewrite H. reflexivity. }
    destruct (IH _ _ Hw) as (E1&E2&E3). rewrite Hr.
    assert (Hsh : shape (x_get_witness m s i)) by apply words_of_length. specialize (E3 Hsh).
    destruct (read_witness m ixs (x_get_witness m s i)) as [[a|e|] s1], (read_witness m ixs (x_get_witness m s' i)) as [[a'|e'|] s1']; cbn [fst snd] in *; try discriminate E1;
      (split; [unfold ret; cbn [fst]; congruence|]; split; [exact E2|auto]).
  Qed.
  Lemma put_witness_same : forall ixs s s' buf pos, ws_witness s = ws_witness s' -> put_witness m s ixs buf pos = put_witness m s' ixs buf pos.
  Proof.
    induction ixs as [|i ixs IH]; intros s s' buf pos H; [reflexivity|]. cbn [put_witness].
    assert (Hp : put_shared m (x_get_witness m s i) buf pos = put_shared m (x_get_witness m s' i) buf pos).
    { unfold put_shared, x_read, x_get_witness. cbn [ws_shared]. rewrite H. reflexivity. }
    rewrite Hp. apply IH. exact H.
  Qed.
  Lemma after_reading_keeps s : ws_witness (after_reading m s) = ws_witness s /\ (shape s -> shape (after_reading m s)).
  Proof.
    unfold after_reading. generalize (seq 0 (N.to_nat (md_wsize m))). intros l. revert s. induction l as [|i l IH]; intros s; [auto|].
    cbn [fold_left]. destruct (IH (x_get_witness m s i)) as [E1 E2]. split; [exact E1|]. intros _. apply E2. apply words_of_length.
  Qed.
  Lemma finish_same q s s' : ws_witness s = ws_witness s' ->
    fst (finish m q s) = fst (finish m q s') /\ ws_witness (snd (finish m q s)) = ws_witness s /\ (shape s -> shape (snd (finish m q s))).
  Proof.
    intros H. destruct q as [x|x|x]; cbn [finish].
    - destruct (read_witness_same (seq 0 (N.to_nat (md_wsize m))) s s' H) as (E1&E2&E3).
      destruct (read_witness m _ s) as [r s1], (read_witness m _ s') as [r' s1']. cbn [fst snd] in *. subst r'. auto.
    - cbn [fst snd]. rewrite (put_witness_same _ s s') by exact H. destruct (after_reading_keeps s). auto.
    - cbn [fst snd]. destruct (after_reading_keeps (x_raw_prime m s)) as [E1 E2]. split; [|split; [exact E1|intros _; apply E2; apply words_of_length]].
      f_equal. unfold wtns_layout. destruct (put_big64 _ _ _) as [b| |]; [|reflexivity..]. cbn [rbind].
      change (put_shared m (x_raw_prime m s')) with (put_shared m (x_raw_prime m s)).
      destruct (put_big64 _ _ _) as [b'| |]; [|reflexivity..]. cbn [rbind]. f_equal. apply put_witness_same. exact H.
  Qed.

  (** The answer of a new calculator. *)
  Definition fresh (q : request) : answer :=
    match do_calculate m P (input_of q) (x_raw_prime m (state0 m)) with
    | (Ok _, s) => fst (finish m q s)
    | (Err e, _) => rejected q e
    | (Panic, _) => stuck q
    end.
  Lemma fresh_spec q : fresh q =
    match q with
    | AskNumbers x => Numbers (calculate_witness m x)
    | AskBytes x => Binary (calculate_bin_witness m x)
    | AskFile x => Binary (calculate_wtns m x)
    end.
  Proof.
    unfold fresh, calculate_witness, calculate_witness_m, calculate_bin_witness, calculate_wtns, mbind.
    destruct q as [x|x|x]; cbn [input_of finish rejected stuck]; rewrite (wc_prime_ok m Hm);
      destruct (do_calculate m P x (x_raw_prime m (state0 m))) as [[[]|e|] s]; try reflexivity.
    cbn. destruct (read_witness m _ s) as [r s1]. reflexivity.
  Qed.

  Definition no_start (evs : list event) : Prop := Forall (fun e => match e with Start _ _ => False | Finish _ => True end) evs.
  Definition start_ids (evs : list event) : list nat := flat_map (fun e => match e with Start i _ => [i] | Finish _ => [] end) evs.
  Definition started (evs : list event) (i : nat) (q : request) : Prop := In (Start i q) evs.

  (** After every history the shape is right; the waiting calls have been started. *)
  Lemma history_app a b : history m (a ++ b) = fold_left (step m (wc_prime m (state0 m))) b (history m a).
  Proof. unfold history. apply fold_left_app. Qed.
  Lemma step_shape c e : shape (instance c) -> shape (instance (step m P c e)).
  Proof.
    intros Hs. destruct e as [i q|i]; cbn [step].
    - destruct (do_calculate_same (input_of q) (instance c) (instance c) Hs Hs) as (_&H&_).
      destruct (do_calculate m P (input_of q) (instance c)) as [[[]|e|] s]; exact H.
    - destruct (find _ _) as [[j q]|]; [|exact Hs]. destruct (finish_same q (instance c) (instance c) eq_refl) as (_&_&H).
      destruct (finish m q (instance c)) as [a s]. exact (H Hs).
  Qed.
  Lemma steps_shape : forall evs c, shape (instance c) -> shape (instance (fold_left (step m P) evs c)).
  Proof. induction evs as [|e evs IH]; intros c Hs; [exact Hs|]. cbn [fold_left]. apply IH, step_shape. exact Hs. Qed.
  Lemma history_shape evs : shape (instance (history m evs)).
  Proof. unfold history. rewrite (wc_prime_ok m Hm). apply steps_shape. apply shape0. Qed.

  (** Who waits: a call whose start succeeded and that was not resumed since. *)
  Lemma waits_step c e i q : ~ In i (start_ids [e]) -> e <> Finish i ->
    (find (fun w => Nat.eqb (fst w) i) (waiting c) = Some (i, q) ->
     find (fun w => Nat.eqb (fst w) i) (waiting (step m P c e)) = Some (i, q)).
  Proof.
    intros Hi Hf H. destruct e as [j q'|j]; cbn [step start_ids flat_map app] in *.
    - destruct (do_calculate m P (input_of q') (instance c)) as [[[]|e|] s]; try exact H.
      cbn [waiting find fst]. destruct (Nat.eqb_spec j i) as [->|Hne]; [|exact H]. exfalso. apply Hi. left. reflexivity.
    - destruct (find (fun w => Nat.eqb (fst w) j) (waiting c)) as [[j' q']|]; [|exact H].
      destruct (finish m q' (instance c)) as [a s]. cbn [waiting].
      assert (Hne : j <> i) by congruence. clear - H Hne. induction (waiting c) as [|[k qk] l IH]; [discriminate|].
      cbn [find fst filter] in *. destruct (Nat.eqb_spec k i) as [->|Hk].
      + destruct (Nat.eqb_spec i j) as [Hx|_]; [congruence|]. cbn [negb find fst]. rewrite Nat.eqb_refl. exact H.
      + destruct (Nat.eqb_spec k j) as [Hx|_]; cbn [negb]; [exact (IH H)|]. cbn [find fst]. destruct (Nat.eqb_spec k i); [contradiction|exact (IH H)].
  Qed.
  Lemma waits_steps i q : forall evs c, ~ In i (start_ids evs) -> ~ In (Finish i) evs ->
    find (fun w => Nat.eqb (fst w) i) (waiting c) = Some (i, q) ->
    find (fun w => Nat.eqb (fst w) i) (waiting (fold_left (step m P) evs c)) = Some (i, q).
  Proof.
    induction evs as [|e evs IH]; intros c Hi Hf H; [exact H|]. cbn [fold_left]. unfold start_ids in Hi. cbn [flat_map] in Hi. rewrite in_app_iff in Hi.
    cbn [In] in Hf. apply IH; [tauto|tauto|]. apply waits_step; [|tauto|exact H]. unfold start_ids. cbn [flat_map]. rewrite app_nil_r. tauto.
  Qed.
  (** Resuming calls keeps the computed witness. *)
  Lemma finishes_keep : forall evs c, no_start evs -> ws_witness (instance (fold_left (step m P) evs c)) = ws_witness (instance c).
  Proof.
    induction evs as [|e evs IH]; intros c H; [reflexivity|]. inversion H as [|? ? He Hr]; subst. cbn [fold_left]. rewrite IH by exact Hr.
    destruct e as [j q|j]; [contradiction|]. cbn [step]. destruct (find _ _) as [[k q]|]; [|reflexivity].
    destruct (finish_same q (instance c) (instance c) eq_refl) as (_&E&_). destruct (finish m q (instance c)). exact E.
  Qed.
  Lemma answered_grow : forall evs c a, In a (answered c) -> In a (answered (fold_left (step m P) evs c)).
  Proof.
    induction evs as [|e evs IH]; intros c a H; [exact H|]. cbn [fold_left]. apply IH. destruct e as [j q|j]; cbn [step].
    - destruct (do_calculate m P (input_of q) (instance c)) as [[[]|e|] s]; cbn [answered]; [exact H|apply in_or_app; left; exact H..].
    - destruct (find _ _) as [[k q]|]; [|exact H]. destruct (finish m q (instance c)). cbn [answered]. apply in_or_app. left. exact H.
  Qed.
  Definition with_input (q : request) (x : list (text * json)) : request :=
    match q with AskNumbers _ => AskNumbers x | AskBytes _ => AskBytes x | AskFile _ => AskFile x end.
  Definition succeeds (q : request) : Prop := exists s, do_calculate m P (input_of q) (x_raw_prime m (state0 m)) = (Ok tt, s).
  Lemma succeeds_iff q : succeeds q <-> exists zs, calculate_witness m (input_of q) = Ok zs.
  Proof.
    unfold succeeds, calculate_witness, calculate_witness_m, mbind. rewrite (wc_prime_ok m Hm).
    assert (H := do_calculate_cases m Hm (input_of q) (x_raw_prime m (state0 m)) (shape0 m)).
    destruct (do_calculate m P (input_of q) (x_raw_prime m (state0 m))) as [[[]|e|] s].
    - destruct H as (_&gs&w&_&Hw&Hs). destruct (read_witness_ok m w (witness_fits m Hm w gs Hw) (seq 0 (N.to_nat (md_wsize m))) s Hs) as (s2&E).
      rewrite E. split; intros _; eexists; reflexivity.
    - split; intros (x&E); discriminate.
    - contradiction.
  Qed.

  Lemma start_ok c i q : shape (instance c) -> succeeds q ->
    exists s, step m P c (Start i q) = Calls (answered c) ((i, q) :: waiting c) s /\ shape s /\
      ws_witness s = ws_witness (snd (do_calculate m P (input_of q) (x_raw_prime m (state0 m)))).
  Proof.
    intros Hs (s0&E0). destruct (do_calculate_same (input_of q) (instance c) (x_raw_prime m (state0 m)) Hs (shape0 m)) as (E1&E2&_&E4).
    rewrite E0 in *. cbn [fst snd] in *. cbn [step]. destruct (do_calculate m P (input_of q) (instance c)) as [r s]. cbn [fst snd] in *. subst r.
    exists s. auto.
  Qed.
  Lemma start_fails c i q : shape (instance c) -> ~ succeeds q ->
    exists s, step m P c (Start i q) = Calls (answered c ++ [(i, fresh q)]) (waiting c) s /\ shape s.
  Proof.
    intros Hs Hn. unfold succeeds in Hn. destruct (do_calculate_same (input_of q) (instance c) (x_raw_prime m (state0 m)) Hs (shape0 m)) as (E1&E2&_&_).
    unfold fresh. cbn [step]. destruct (do_calculate m P (input_of q) (x_raw_prime m (state0 m))) as [r0 s0]. cbn [fst snd] in *.
    destruct (do_calculate m P (input_of q) (instance c)) as [r s]. cbn [fst snd] in *. subst r.
    destruct r0 as [[]|e|]; [exfalso; apply Hn; eauto|eauto..].
  Qed.
  Lemma finish_now c i q x s0 : shape (instance c) -> find (fun w => Nat.eqb (fst w) i) (waiting c) = Some (i, q) ->
    do_calculate m P x (x_raw_prime m (state0 m)) = (Ok tt, s0) -> ws_witness (instance c) = ws_witness s0 ->
    In (i, fresh (with_input q x)) (answered (step m P c (Finish i))).
  Proof.
    intros Hs Hw E Hx. cbn [step]. rewrite Hw. destruct (finish m q (instance c)) as [a s] eqn:Ea. cbn [answered]. apply in_or_app. right. left. f_equal.
    unfold fresh. assert (Hi : input_of (with_input q x) = x) by (destruct q; reflexivity). rewrite Hi, E.
    destruct (finish_same q (instance c) s0 Hx) as (F&_). rewrite Ea in F. cbn [fst] in F. rewrite F. destruct q; reflexivity.
  Qed.
  Lemma resumed_answer pre i q mid j q' fin post : start_ids mid = [] \/ True ->
    shape (instance (history m pre)) -> succeeds q -> succeeds q' ->
    ~ In i (start_ids (mid ++ [Start j q'] ++ fin)) -> ~ In (Finish i) (mid ++ [Start j q'] ++ fin) -> no_start fin ->
    In (i, fresh (with_input q (input_of q'))) (answers m (pre ++ Start i q :: mid ++ Start j q' :: fin ++ Finish i :: post)).
  Proof.
    intros _ Hs Hq Hq' Hi Hf Hno. unfold answers. rewrite history_app. rewrite (wc_prime_ok m Hm).
    change (Start i q :: mid ++ Start j q' :: fin ++ Finish i :: post) with ([Start i q] ++ mid ++ [Start j q'] ++ fin ++ [Finish i] ++ post).
    rewrite fold_left_app. cbn [fold_left]. destruct (start_ok (history m pre) i q Hs Hq) as (s1&E1&Hs1&_). rewrite E1.
    set (c1 := Calls _ _ s1). assert (W1 : find (fun w => Nat.eqb (fst w) i) (waiting c1) = Some (i, q)) by (cbn; rewrite Nat.eqb_refl; reflexivity).
    assert (W2 := waits_steps i q (mid ++ [Start j q'] ++ fin) c1 Hi Hf W1).
    assert (Hs1' : shape (instance c1)) by exact Hs1. clearbody c1.
    assert (Hsh := steps_shape (mid ++ [Start j q'] ++ fin) c1 Hs1').
    set (c3 := fold_left (step m P) (mid ++ [Start j q'] ++ fin) c1) in *.
    destruct Hq' as (s0&E0).
    assert (HW : ws_witness (instance c3) = ws_witness s0).
    { unfold c3. rewrite fold_left_app, fold_left_app. rewrite finishes_keep by exact Hno. cbn [fold_left].
      destruct (start_ok (fold_left (step m P) mid c1) j q' (steps_shape mid c1 Hs1') (ex_intro _ s0 E0)) as (s2&E2&_&HW). rewrite E2. cbn [instance].
      rewrite HW, E0. reflexivity. }
    replace (mid ++ [Start j q'] ++ fin ++ [Finish i] ++ post) with ((mid ++ [Start j q'] ++ fin) ++ [Finish i] ++ post) by (rewrite <- !app_assoc; reflexivity).
    rewrite fold_left_app. fold c3. rewrite fold_left_app. apply answered_grow. cbn [fold_left].
    eapply finish_now; eassumption.
  Qed.
  Lemma undisturbed_answer pre i q fin post : succeeds q -> ~ In (Finish i) fin -> no_start fin ->
    In (i, fresh q) (answers m (pre ++ Start i q :: fin ++ Finish i :: post)).
  Proof.
    intros Hq Hf Hno. assert (Hs := history_shape pre). unfold answers. rewrite history_app, (wc_prime_ok m Hm).
    change (Start i q :: fin ++ Finish i :: post) with ([Start i q] ++ fin ++ [Finish i] ++ post).
    rewrite fold_left_app. cbn [fold_left]. destruct (start_ok (history m pre) i q Hs Hq) as (s1&E1&Hs1&HW1). rewrite E1.
    set (c1 := Calls _ _ s1). assert (W1 : find (fun w => Nat.eqb (fst w) i) (waiting c1) = Some (i, q)) by (cbn; rewrite Nat.eqb_refl; reflexivity).
    assert (Hids : ~ In i (start_ids fin)).
    { clear - Hno. induction fin as [|[j q'|j] fin IH]; [intros []| |].
      - inversion Hno; contradiction.
      - inversion Hno; subst. exact (IH H2). }
    assert (W2 := waits_steps i q fin c1 Hids Hf W1).
    assert (Hsh := steps_shape fin c1 Hs1). rewrite fold_left_app, fold_left_app. apply answered_grow. cbn [fold_left].
    destruct Hq as (s0&E0). rewrite E0 in HW1. cbn [snd] in HW1.
    assert (F := finish_now (fold_left (step m P) fin c1) i q (input_of q) s0 Hsh W2 E0).
    assert (Hwi : with_input q (input_of q) = q) by (destruct q; reflexivity). rewrite Hwi in F. apply F.
    rewrite finishes_keep by exact Hno. exact HW1.
  Qed.
  Lemma rejected_answer pre i q post : ~ succeeds q ->
    In (i, fresh q) (answers m (pre ++ Start i q :: post)).
  Proof.
    intros Hq. assert (Hs := history_shape pre). unfold answers. rewrite history_app, (wc_prime_ok m Hm).
    cbn [fold_left]. destruct (start_fails (history m pre) i q Hs Hq) as (s1&E1&_). rewrite E1. apply answered_grow.
    cbn [answered]. apply in_or_app. right. left. reflexivity.
  Qed.

  (** Awaiting every call. *)
  Fixpoint awaited (i : nat) (qs : list request) : list event :=
    match qs with [] => [] | q :: qs => Start i q :: Finish i :: awaited (S i) qs end.
  Lemma awaited_answers : forall qs i c, shape (instance c) -> waiting c = [] ->
    answered (fold_left (step m P) (awaited i qs) c) = answered c ++ combine (seq i (List.length qs)) (map fresh qs).
  Proof.
    induction qs as [|q qs IH]; intros i c Hs Hw; [cbn; rewrite app_nil_r; reflexivity|].
    cbn [awaited List.length seq map combine]. cbn [fold_left].
    assert (Hd : succeeds q \/ ~ succeeds q).
    { unfold succeeds. destruct (do_calculate m P (input_of q) (x_raw_prime m (state0 m))) as [[[]|e|] s]; [left; eauto|right; intros (x&E); discriminate..]. }
    destruct Hd as [Hq|Hq].
    - destruct (start_ok c i q Hs Hq) as (s1&E1&Hs1&HW). rewrite E1. destruct Hq as (s0&E0). rewrite E0 in HW. cbn [snd] in HW.
      cbn [step waiting find fst]. rewrite Nat.eqb_refl. cbn [instance answered].
      destruct (finish_same q s1 s0 HW) as (F1&_&F3). specialize (F3 Hs1). destruct (finish m q s1) as [a s2] eqn:Ea. cbn [fst snd] in *.
      rewrite IH; [|exact F3|cbn [waiting filter fst]; rewrite Nat.eqb_refl, Hw; reflexivity]. cbn [answered]. rewrite <- app_assoc. cbn [app].
      f_equal. f_equal. f_equal. unfold fresh. rewrite E0, F1. reflexivity.
    - destruct (start_fails c i q Hs Hq) as (s1&E1&Hs1). rewrite E1. cbn [step waiting]. rewrite Hw. cbn [find].
      rewrite IH; [|exact Hs1|reflexivity]. cbn [answered]. rewrite <- app_assoc. reflexivity.
  Qed.
End Reuse.
