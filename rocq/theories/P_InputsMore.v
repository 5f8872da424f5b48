(** Property theorem C33, continued: values inside nested arrays, in every document.  Vocabulary:
    SpecInputs.v. *)
From Coq Require Import List Bool Arith NArith ZArith Lia Permutation.
From Coq Require Import Strings.String Strings.Byte.
From Verif Require Import Res Bytes Text Fld Zp Bn254 Sym SpecSym SymFacts P_Sym Inputs SpecInputs InputsFacts P_Inputs SpecJs C44Facts
  SpecJsReports P_JsReports.
Import ListNotations.
Local Open Scope N_scope.

(** How many opening brackets a name has. *)
Definition brackets (t : text) : nat := List.length (filter (fun c => c =? 91) t).
Lemma brackets_app t u : brackets (t ++ u) = (brackets t + brackets u)%nat.
Proof. unfold brackets. rewrite filter_app, app_length. reflexivity. Qed.
Lemma brackets_free t : free_of 91 t -> brackets t = 0%nat.
Proof.
  unfold brackets. induction 1 as [|c t H _ IH]; [reflexivity|]. cbn [filter]. destruct (N.eqb_spec c 91); [contradiction|exact IH].
Qed.
Lemma brackets_index k i : brackets (k ++ lit "[" ++ dec_text i ++ lit "]") = S (brackets k).
Proof.
  rewrite !brackets_app. rewrite (brackets_free (dec_text i)) by (apply dec_free; lia).
  change (brackets (lit "[")) with 1%nat. change (brackets (lit "]")) with 0%nat. lia.
Qed.
Lemma leaf_brackets k v name x : leaf_of k v name x -> (brackets k <= brackets name)%nat.
Proof. induction 1 as [k v H|k l i x name v Hn Hl IH]; [lia|]. rewrite brackets_index in IH. lia. Qed.

(** What JavaScript looks at in a document that the CLI accepts: leaves of at most one index, and
    arrays inside arrays. *)
Lemma accepted_item kvs m name x : parse_inputs_with_keys (JObj kvs) = Ok m -> In (name, x) (doc_items kvs) ->
  exists k v, In (k, v) kvs /\
    ((doc_leaf kvs name x /\ (exists a, numeric x a) /\ (brackets name <= S (brackets k))%nat) \/
     exists l i r, v = JArr l /\ nth_error l i = Some (JArr r) /\ x = JArr r /\ name = k ++ lit "[" ++ dec_text (N.of_nat i) ++ lit "]").
Proof.
  intros Hm Hin. pose proof (proj1 (C29_accepted_iff_every_leaf_is_numeric kvs) (ex_intro _ m Hm)) as Hnum.
  unfold doc_items in Hin. apply in_flat_map in Hin as ((k&v)&Hk&Hi). cbn [fst snd] in Hi. exists k, v. split; [exact Hk|].
  assert (sc : (forall l, v <> JArr l) -> In (name, x) [(k, v)] -> doc_leaf kvs name x /\ (exists a, numeric x a) /\ (brackets name <= S (brackets k))%nat).
  { intros Hl [X|[]]. injection X as <- <-. assert (D : doc_leaf kvs k v) by (exists k, v; split; [exact Hk|constructor; exact Hl]).
    split; [exact D|]. split; [eapply Hnum; exact D|lia]. }
  destruct v as [|b|z|t|t|l|o]; cbn [value_items] in Hi; try (left; apply sc; [discriminate|exact Hi]).
  - apply in_map_iff in Hi as ((i&y)&E&H). cbn [fst snd] in E.
    assert (Hy : nth_error l i = Some y).
    { clear - H. assert (G : forall (l : list json) s, In (i, y) (combine (seq s (List.length l)) l) -> (s <= i)%nat /\ nth_error l (i - s) = Some y).
      { clear. induction l as [|z l IH]; intros s; cbn [List.length seq combine In]; [intros []|]. intros [X|X].
        - injection X as -> ->. split; [lia|]. rewrite Nat.sub_diag. reflexivity.
        - apply IH in X as [X1 X2]. split; [lia|]. replace (i - s)%nat with (S (i - S s)) by lia. exact X2. }
      apply G in H as [_ H]. rewrite Nat.sub_0_r in H. exact H. }
    apply pair_equal_spec in E as [En Ex]. subst name x.
    assert (D : (forall r, y <> JArr r) -> doc_leaf kvs (k ++ lit "[" ++ dec_text (N.of_nat i) ++ lit "]") y).
    { intros X. exists k, (JArr l). split; [exact Hk|]. eapply leaf_in; [exact Hy|]. constructor. exact X. }
    destruct y as [|b|z|t|t|r|o]; try (left; split; [apply D; discriminate|split; [eapply Hnum; apply D; discriminate|rewrite brackets_index; lia]]).
    right. exists l, i, r. split; [reflexivity|]. split; [exact Hy|]. split; reflexivity.
  - exfalso. destruct (Hnum k (JObj o)) as (a&Ha); [|inversion Ha]. exists k, (JObj o). split; [exact Hk|]. constructor. discriminate.
Qed.

(** A value inside an array inside an array, anywhere in any document that the CLI accepts: the CLI
    assigns it to its wire; JavaScript leaves the wire without a value (as long as no array inside an
    array is itself named as a signal of that wire, which circom's files never do). *)
Theorem C33_nested_values_are_lost :
  forall (sym : text) (kvs : list (text * json)) (bound : N) syms entries m it k rows i row name x a w,
    Forall plain_char sym -> parse_sym_file sym = Ok syms -> Permutation syms entries ->
    plain_keys kvs -> separate kvs (fun n => hm_get (lit "main." ++ n) syms) ->
    parse_inputs_with_keys (JObj kvs) = Ok m -> Permutation m it ->
    In (k, JArr rows) kvs -> nth_error rows i = Some (JArr row) ->
    leaf_of (k ++ lit "[" ++ dec_text (N.of_nat i) ++ lit "]") (JArr row) name x -> numeric x a ->
    hm_get (lit "main." ++ name) syms = Some w -> w <= bound ->
    (forall k' rows' i' row', In (k', JArr rows') kvs -> nth_error rows' i' = Some (JArr row') ->
       hm_get (lit "main." ++ k' ++ lit "[" ++ dec_text (N.of_nat i') ++ lit "]") syms <> Some w) ->
    nm_get w (cli_witness (get_input_signals entries (Some bound)) it) = Some a /\
    exists js, js_map_inputs kvs (get_input_signals (js_parse_sym_file sym) None) = Ok js /\ nm_get w js = None.
Proof.
  intros sym kvs bound syms entries m it k rows i row name x a w Hpc Hsym Hp Hpk Hs Hm Hit Hk Hi Hl Ha Hw Hb Hno.
  pose proof (parse_sym_file_wf _ _ Hsym) as Hwf.
  assert (Dl : doc_leaf kvs name x) by (exists k, (JArr rows); split; [exact Hk|]; eapply leaf_in; eassumption).
  assert (Hc : forall n w, hm_get n (get_input_signals entries (Some bound)) = Some w <-> hm_get (lit "main." ++ n) syms = Some w /\ w <= bound).
  { intros n w'. rewrite (C28_input_signals syms entries (Some bound) Hwf Hp). split.
    - intros [H1 H2]. split; [exact H1|]. apply H2. reflexivity.
    - intros [H1 H2]. split; [exact H1|]. intros b Hb'. injection Hb' as <-. exact H2. }
  assert (Hname : (2 <= brackets name)%nat).
  { inversion Hl as [? ? X|? l i2 y n' v' Hn Hl2]; subst.
    - exfalso. eapply X. reflexivity.
    - apply leaf_brackets in Hl2. rewrite !brackets_index in Hl2. lia. }
  split.
  - apply (C29_wire_assignment kvs m it).
    + apply C29_plain_keys_are_unambiguous. exact Hpk.
    + intros n n' y y' w' D1 D2 H1 H2. apply Hc in H1 as [H1 _]. apply Hc in H2 as [H2 _]. eapply Hs; eassumption.
    + exact Hm.
    + exact Hit.
    + left. exists name, x. split; [exact Dl|]. split; [apply Hc; auto|exact Ha].
  - assert (Hj : forall n w', on_wire sym n w' <-> hm_get (lit "main." ++ n) syms = Some w').
    { intros n w'. unfold on_wire. rewrite (C27_js_agrees_on_accepted_files sym syms Hpc Hsym). reflexivity. }
    destruct (wires_outcome sym kvs) as [[(n&w'&Hnull&_) _]|[_ (js&Ejs&Hjs)]].
    { exfalso. destruct (accepted_item kvs m n JNull Hm Hnull) as (k'&v&_&[(_&(a'&Ha')&_)|(l&j&r&_&_&E&_)]); [inversion Ha'|discriminate E]. }
    exists js. split; [exact Ejs|]. destruct (nm_get w js) as [t|] eqn:E; [|reflexivity]. exfalso.
    apply Hjs in E as (pre&n&y&post&Edoc&Hon&_&_). apply Hj in Hon.
    assert (Hin : In (n, y) (doc_items kvs)) by (rewrite Edoc; apply in_app_iff; right; left; reflexivity).
    destruct (accepted_item kvs m n y Hm Hin) as (k'&v&Hk'&[(D&_&B)|(l&j&r&->&Hn&->&->)]).
    + assert (n = name) by (eapply Hs; eassumption). subst n.
      destruct Hpk as [_ Hfree]. rewrite Forall_forall in Hfree.
      assert (F : brackets k' = 0%nat) by (apply brackets_free, Hfree, in_map_iff; exists (k', v); auto). lia.
    + exact (Hno k' l j r Hk' Hn Hon).
Qed.
Print Assumptions C33_nested_values_are_lost.

(** A grid: the second number of the first row; and a scalar beside it. *)
Definition ex_grid : list (text * json) := [(lit "n", JInt 7); (lit "grid", JArr [JArr [JInt 1; JInt 2]; JArr [JStr (lit "-3")]])].
Definition ex_grid_sym : text := lit "1,1,1,main.n
2,2,1,main.grid[0][0]
3,3,1,main.grid[0][1]
4,4,1,main.grid[1][0]
".
Example C33_nested_nonvacuous :
  exists syms m js, parse_sym_file ex_grid_sym = Ok syms /\ parse_inputs_with_keys (JObj ex_grid) = Ok m /\
    js_map_inputs ex_grid (get_input_signals (js_parse_sym_file ex_grid_sym) None) = Ok js /\
    nm_get 1 js = Some (lit "7") /\ nm_get 3 js = None /\ nm_get 3 (cli_witness (get_input_signals syms (Some 4)) m) = Some (fr 2).
Proof.
  assert (Esym : exists syms, parse_sym_file ex_grid_sym = Ok syms) by (eexists; vm_compute; reflexivity).
  destruct Esym as (syms&Esym).
  assert (Hnames : forall n x, doc_leaf ex_grid n x -> In (n, x) [(lit "n", JInt 7); (lit "grid[0][0]", JInt 1); (lit "grid[0][1]", JInt 2); (lit "grid[1][0]", JStr (lit "-3"))]).
  { intros n x H. apply doc_leaves_spec in H. exact H. }
  assert (Ein : exists m, parse_inputs_with_keys (JObj ex_grid) = Ok m).
  { apply C29_accepted_iff_every_leaf_is_numeric. intros n x H. apply Hnames in H. destruct H as [X|[X|[X|[X|[]]]]]; apply pair_equal_spec in X as [_ <-].
    - exists (fr 7). constructor. lia.
    - exists (fr 1). constructor. lia.
    - exists (fr 2). constructor. lia.
    - exists (fr (-3)). constructor. exists 51, []. split; [lia|]. split; [constructor|]. right. right. split; reflexivity. }
  destruct Ein as (m&Ein).
  assert (Hw : forall n w, hm_get (lit "main." ++ n) syms = Some w -> forall x, doc_leaf ex_grid n x ->
     (n, w) = (lit "n", 1) \/ (n, w) = (lit "grid[0][0]", 2) \/ (n, w) = (lit "grid[0][1]", 3) \/ (n, w) = (lit "grid[1][0]", 4)).
  { intros n w Hw x Hx. apply Hnames in Hx. assert (Es : Ok syms = parse_sym_file ex_grid_sym) by congruence. clear Esym. revert Es. vm_compute (parse_sym_file ex_grid_sym).
    intros Es. injection Es as ->. cbn [In] in Hx. destruct Hx as [X|[X|[X|[X|[]]]]]; injection X as <- _; vm_compute in Hw; injection Hw as <-; auto. }
  assert (F : Forall plain_char ex_grid_sym) by (vm_compute; repeat constructor; discriminate).
  assert (PK : plain_keys ex_grid).
  { split; [|repeat constructor; discriminate]. repeat constructor; cbn; intros H; repeat (destruct H as [H|H]; [discriminate H|]); exact H. }
  destruct (C33_nested_values_are_lost ex_grid_sym ex_grid 4 syms syms m m (lit "grid") [JArr [JInt 1; JInt 2]; JArr [JStr (lit "-3")]] 0 [JInt 1; JInt 2]
    (lit "grid[0][1]") (JInt 2) (fr 2) 3 F Esym (Permutation_refl _) PK) as (H1&js&H2&H3).
  - intros n n' x x' w D D' H H'. destruct (Hw _ _ H _ D) as [X|[X|[X|X]]]; injection X as -> ->; destruct (Hw _ _ H' _ D') as [Y|[Y|[Y|Y]]]; injection Y; intros; subst; try reflexivity; discriminate.
  - exact Ein.
  - apply Permutation_refl.
  - right. left. reflexivity.
  - reflexivity.
  - eapply (leaf_in _ _ 1); [reflexivity|]. change (leaf_of (lit "grid[0][1]") (JInt 2) (lit "grid[0][1]") (JInt 2)). constructor. discriminate.
  - constructor. lia.
  - assert (Es : Ok syms = parse_sym_file ex_grid_sym) by congruence. clear Esym. revert Es. vm_compute (parse_sym_file ex_grid_sym). intros Es. injection Es as ->. vm_compute. reflexivity.
  - lia.
  - intros k' rows' i' row' Hin Hn. assert (Es : Ok syms = parse_sym_file ex_grid_sym) by congruence. clear Esym. revert Es. vm_compute (parse_sym_file ex_grid_sym). intros Es. injection Es as ->.
    destruct Hin as [X|[X|[]]]; [discriminate X|]. injection X as <- <-. destruct i' as [|[|i']]; [vm_compute; discriminate..|]. destruct i'; discriminate Hn.
  - exists syms, m, js. repeat split; try assumption. revert H2. vm_compute (js_map_inputs _ _). intros [= <-]. vm_compute. reflexivity.
Qed.
