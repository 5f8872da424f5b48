(** Property theorems C66: what the witness calculator reports and logs.  Vocabulary: SpecRuntime.v. *)
From Coq Require Import List Bool Arith NArith ZArith Lia.
From Coq Require Import Strings.String Strings.Byte.
From Verif Require Import Res Bytes Text Reader Inputs WitnessCalc Runtime SpecRuntime.
Import ListNotations.
Local Open Scope N_scope.

Lemma text_eqb_spec a b : reflect (a = b) (text_eqb a b).
Proof. unfold text_eqb. destruct (list_eq_dec N.eq_dec a b); constructor; assumption. Qed.
Lemma exception_text_spec code : exists name, code_name code name /\ exception_text code = name ++ [10].
Proof.
  unfold exception_text, code_name, newline. eexists. split; [|reflexivity].
  repeat match goal with |- context [(code =? ?k)%Z] => destruct (Z.eqb_spec code k) as [->|] end; try tauto.
  right. right. right. right. right. right. split; [lia|reflexivity].
Qed.
Lemma code_name_unique code a b : code_name code a -> code_name code b -> a = b.
Proof. unfold code_name. intros Ha Hb. repeat (destruct Ha as [[Ha ->]|Ha]; [repeat (destruct Hb as [[Hb ->]|Hb]; [first [reflexivity|exfalso; lia]|]); destruct Hb as [Hb ->]; exfalso; lia|]).
  destruct Ha as [Ha ->]. repeat (destruct Hb as [[Hb ->]|Hb]; [exfalso; lia|]). destruct Hb as [_ ->]. reflexivity. Qed.

Lemma error_lines_app a b : error_lines (a ++ b) = error_lines a ++ error_lines b.
Proof. apply flat_map_app. Qed.
Lemma quiet_cons c cs : quiet (c :: cs) -> quiet cs /\ forall code, c <> Exception code.
Proof. intros H. split; [intros code Hi; exact (H code (or_intror Hi))|intros code ->; exact (H code (or_introl eq_refl))]. Qed.
Lemma run_quiet : forall cs s rest, quiet cs -> exists s', run_callbacks s (cs ++ rest) = run_callbacks s' rest /\ err_str s' = err_str s ++ error_lines cs.
Proof.
  induction cs as [|c cs IH]; intros s rest H; [exists s; split; [reflexivity|]; cbn; rewrite app_nil_r; reflexivity|].
  destruct (quiet_cons c cs H) as [Hq Hc]. cbn [app run_callbacks].
  assert (E : exists s1, call_back s c = (s1, None) /\ err_str s1 = err_str s ++ error_lines [c]).
  { destruct c as [m|m|ws|code]; [..|destruct (Hc code eq_refl)]; cbn [call_back].
    - eexists. split; [reflexivity|]. unfold error_lines. cbn [flat_map err_str]. rewrite app_nil_r. reflexivity.
    - cbv zeta. destruct (text_eqb _ _); eexists; (split; [reflexivity|]); cbn; rewrite app_nil_r; reflexivity.
    - eexists. split; [reflexivity|]. cbn. rewrite app_nil_r. reflexivity. }
  destruct E as (s1&E&E1). rewrite E. destruct (IH s1 rest Hq) as (s2&E2&E3). exists s2. split; [exact E2|].
  rewrite E3, E1, <- app_assoc, <- error_lines_app. reflexivity.
Qed.
Lemma run_outcome s r b o : outcome r b o ->
  err_str (fst (run_callbacks s r)) = err_str s ++ error_lines b /\
  snd (run_callbacks s r) = match o with None => None | Some code => Some (exception_text code ++ err_str s ++ error_lines b) end.
Proof.
  intros [Hq|before code after -> Hq].
  - destruct (run_quiet r s [] Hq) as (s'&E&E1). rewrite app_nil_r in E. rewrite E. cbn. auto.
  - destruct (run_quiet before s (Exception code :: after) Hq) as (s'&E&E1). rewrite E. cbn. rewrite E1. auto.
Qed.
Lemma run_all_app : forall a b s, run_all s (a ++ b) =
  (fst (run_all (fst (run_all s a)) b), snd (run_all s a) ++ snd (run_all (fst (run_all s a)) b)).
Proof.
  induction a as [|r a IH]; intros b s; cbn [app run_all]; [cbn [fst snd app]; destruct (run_all s b); reflexivity|].
  destruct (run_callbacks s r) as [s1 e]. rewrite IH. destruct (run_all s1 a) as [s2 es]. cbn. reflexivity.
Qed.
Lemma run_all_err : forall runs befores s, Forall2 (fun r b => exists o, outcome r b o) runs befores ->
  err_str (fst (run_all s runs)) = err_str s ++ error_lines (List.concat befores).
Proof.
  induction runs as [|r runs IH]; intros befores s H; inversion H as [|? b ? bs (o&Ho) Hr]; subst; [cbn; rewrite app_nil_r; reflexivity|].
  cbn [run_all List.concat]. destruct (run_outcome s r b o Ho) as [E _]. destruct (run_callbacks s r) as [s1 e]. cbn [fst] in E.
  specialize (IH bs s1 Hr). destruct (run_all s1 runs) as [s2 es]. cbn [fst] in *. rewrite IH, E, error_lines_app, app_assoc. reflexivity.
Qed.

(** The error of a calculation: the name of the exception, then every error message printed since
    the calculator was built, by this calculation and by those before it. *)
Theorem C66_error_text :
  forall runs befores r before o,
    Forall2 (fun r b => exists o, outcome r b o) runs befores -> outcome r before o ->
    match o with
    | None => errors_of (runs ++ [r]) = errors_of runs ++ [None]
    | Some code => exists name, code_name code name /\
        errors_of (runs ++ [r]) = errors_of runs ++ [Some (name ++ [10] ++ error_lines (List.concat befores) ++ error_lines before)]
    end.
Proof.
  intros runs befores r before o Hr Ho. unfold errors_of. rewrite run_all_app. cbn [snd run_all].
  assert (E := run_all_err runs befores rt0 Hr). cbn [rt0 err_str app] in E. destruct (run_outcome (fst (run_all rt0 runs)) r before o Ho) as [_ E2].
  destruct (run_callbacks (fst (run_all rt0 runs)) r) as [s e]. cbn [fst snd] in *. subst e. destruct o as [code|]; [|reflexivity].
  destruct (exception_text_spec code) as (name&Hn&Ht). exists name. split; [exact Hn|]. rewrite Ht, E, <- !app_assoc. reflexivity.
Qed.
Print Assumptions C66_error_text.

(** So on a reused calculator an error repeats the messages of earlier calculations: it is what a new
    calculator reports exactly when they printed none. *)
Theorem C66_stale_messages_refuted :
  forall runs befores r before code,
    Forall2 (fun r b => exists o, outcome r b o) runs befores -> outcome r before (Some code) ->
    (errors_of (runs ++ [r]) = errors_of runs ++ errors_of [r] <-> error_lines (List.concat befores) = []).
Proof.
  intros runs befores r before code Hr Ho.
  destruct (C66_error_text runs befores r before (Some code) Hr Ho) as (name&Hn&E). rewrite E.
  destruct (C66_error_text [] [] r before (Some code) ltac:(constructor) Ho) as (name'&Hn'&E'). cbn [app] in E'. rewrite E'.
  rewrite (code_name_unique _ _ _ Hn' Hn). cbn [errors_of run_all snd rt0 List.concat app error_lines flat_map]. split.
  - intros H. apply app_inv_head in H. injection H as H. apply app_inv_head in H. injection H as H. apply (f_equal (@List.length N)) in H. rewrite app_length in H.
    destruct (error_lines (List.concat befores)); [reflexivity|]. cbn in H. lia.
  - intros ->. reflexivity.
Qed.
Print Assumptions C66_stale_messages_refuted.

(** ** The log *)
(** What is written of the current line: the items so far. *)
Lemma joined_snoc x items t : joined ((x :: items) ++ [t]) = joined (x :: items) ++ [32] ++ t.
Proof.
  revert x. induction items as [|y items IH]; intros x; [reflexivity|].
  change ((x :: y :: items) ++ [t]) with (x :: (y :: items) ++ [t]). change (joined (x :: y :: items)) with (x ++ [32] ++ joined (y :: items)).
  change (joined (x :: (y :: items) ++ [t])) with (x ++ [32] ++ joined ((y :: items) ++ [t])). rewrite IH, <- !app_assoc. reflexivity.
Qed.
Lemma line_cases items t : line_of items t -> (t = [] /\ Forall (fun x => x = []) items) \/
  exists pre c u rest, items = pre ++ (c :: u) :: rest /\ Forall (fun x => x = []) pre /\ t = joined ((c :: u) :: rest).
Proof.
  induction 1 as [items t H IH| |c u rest].
  - destruct IH as [[-> IH]|(pre&c&u&rest&->&Hp&->)]; [left; auto|right]. exists ([] :: pre), c, u, rest. auto.
  - left. auto.
  - right. exists [], c, u, rest. auto.
Qed.
Lemma line_pre pre items t : Forall (fun x => x = []) pre -> line_of items t -> line_of (pre ++ items) t.
Proof. induction 1 as [|x pre -> Hp IH]; intros H; [exact H|]. cbn [app]. constructor. auto. Qed.
Lemma line_append items t x : line_of items t -> line_of (items ++ [x]) (append_item t x).
Proof.
  intros H. apply line_cases in H as [[-> H]|(pre&c&u&rest&->&Hp&->)]; unfold append_item.
  - destruct (text_eqb_spec [] []) as [_|Hn]; [|congruence]. apply line_pre; [exact H|]. destruct x as [|c x]; [apply line_skip, line_none|apply line_items].
  - destruct (text_eqb_spec (joined ((c :: u) :: rest)) []) as [E|Hn].
    + exfalso. destruct rest; cbn in E; discriminate.
    + rewrite <- app_assoc. apply line_pre; [exact Hp|]. change (((c :: u) :: rest) ++ [x]) with ((c :: u) :: (rest ++ [x])).
      change (lit " " ++ x) with ([32] ++ x). rewrite <- joined_snoc. apply line_items.
Qed.
Lemma line_unique items t t' : line_of items t -> line_of items t' -> t = t'.
Proof. intros H. revert t'. induction H as [items t H IH| |c u rest]; intros t' H'; inversion H'; subst; auto. Qed.

(** The state of the console after some log: the complete lines, and the line being written. *)
Definition console_at (l : list logged) (s : rt) : Prop :=
  exists done items, lines_of done (console s) /\ (done = [] \/ exists d, done = d ++ [LineEnd]) /\
    l = done ++ map Item items /\ line_of items (msg_str s).
Lemma lines_items items l lines : lines_of l lines -> (l = [] \/ exists d, l = d ++ [LineEnd]) -> lines_of (l ++ map Item items) lines.
Proof.
  intros H. induction H as [its|its l t lines Hl H IH]; intros He.
  - assert (its = []) as ->; [|apply (lines_none items)]. destruct He as [He|(d&He)]; [destruct its; [reflexivity|discriminate]|].
    exfalso. assert (In LineEnd (map Item its)) as Hi by (rewrite He; apply in_or_app; right; left; reflexivity). apply in_map_iff in Hi as (?&?&_). discriminate.
  - rewrite <- app_assoc. cbn [app]. constructor; [exact Hl|]. apply IH. destruct He as [He|(d&He)]; [destruct its; discriminate|].
    destruct l as [|x l] using rev_ind; [left; reflexivity|right]. rewrite app_comm_cons, app_assoc in He. apply app_inj_tail in He as [_ ->]. eauto.
Qed.
Lemma lines_snoc items t l lines : lines_of l lines -> (l = [] \/ exists d, l = d ++ [LineEnd]) -> line_of items t ->
  lines_of (l ++ map Item items ++ [LineEnd]) (lines ++ [t]).
Proof.
  intros H. induction H as [its|its l t' lines Hl H IH]; intros He Ht.
  - assert (its = []) as ->.
    { destruct He as [He|(d&He)]; [destruct its; [reflexivity|discriminate]|].
      exfalso. assert (In LineEnd (map Item its)) as Hi by (rewrite He; apply in_or_app; right; left; reflexivity). apply in_map_iff in Hi as (?&?&_). discriminate. }
    cbn [app map]. apply (lines_one items [] t []); [exact Ht|apply (lines_none [])].
  - rewrite <- app_assoc. cbn [app]. constructor; [exact Hl|]. apply IH; [|exact Ht]. destruct He as [He|(d&He)]; [destruct its; discriminate|].
    destruct l as [|x l] using rev_ind; [left; reflexivity|right]. rewrite app_comm_cons, app_assoc in He. apply app_inj_tail in He as [_ ->]. eauto.
Qed.
Lemma call_console s c l lc : console_at l s -> logs c lc -> console_at (l ++ lc) (fst (call_back s c)).
Proof.
  intros (done&items&H1&H2&->&H4) H.
  assert (keep : console_at ((done ++ map Item items) ++ []) s) by (rewrite app_nil_r; exists done, items; auto).
  assert (add : forall x, console_at ((done ++ map Item items) ++ [Item x]) (Rt (err_str s) (append_item (msg_str s) x) (console s))).
  { intros x. exists done, (items ++ [x]). split; [exact H1|]. split; [exact H2|]. split; [rewrite map_app, app_assoc; reflexivity|]. apply line_append. exact H4. }
  destruct H as [m E|m E|ws|m|code]; cbn [call_back fst]; try exact keep.
  - cbv zeta. change (get_message m) with (chars m). destruct (text_eqb_spec (chars m) newline) as [_|Hn]; [|contradiction]. cbn [fst].
    exists (done ++ map Item items ++ [LineEnd]), []. split; [apply lines_snoc; assumption|]. split; [right; rewrite app_assoc; eauto|].
    split; [cbn [map]; rewrite app_nil_r, app_assoc; reflexivity|constructor].
  - cbv zeta. change (get_message m) with (chars m). destruct (text_eqb_spec (chars m) newline) as [Hn|_]; [contradiction|]. apply add.
  - apply add.
Qed.
Lemma quiet_console : forall cs s l ls rest, quiet cs -> console_at l s -> Forall2 logs cs ls ->
  exists s', run_callbacks s (cs ++ rest) = run_callbacks s' rest /\ console_at (l ++ List.concat ls) s'.
Proof.
  induction cs as [|c cs IH]; intros s l ls rest Hq Hs H; inversion H as [|? lc ? ls' Hc Hr]; subst; [exists s; cbn; rewrite app_nil_r; auto|].
  destruct (quiet_cons c cs Hq) as [Hq' Hn]. cbn [app run_callbacks List.concat].
  assert (G := call_console s c l lc Hs Hc). destruct (call_back s c) as [s1 e] eqn:Ec. cbn [fst] in G.
  assert (e = None) as ->. { destruct c as [m|m|ws|code]; cbn [call_back] in Ec; [..|destruct (Hn code eq_refl)]; [injection Ec as <- <-; reflexivity| |injection Ec as <- <-; reflexivity].
    cbv zeta in Ec. destruct (text_eqb _ _); injection Ec as <- <-; reflexivity. }
  rewrite app_assoc. apply IH; assumption.
Qed.
Lemma outcome_console s r b o l ls : outcome r b o -> console_at l s -> Forall2 logs b ls -> console_at (l ++ List.concat ls) (fst (run_callbacks s r)).
Proof.
  intros [Hq|before code after -> Hq] Hs H.
  - destruct (quiet_console r s l ls [] Hq Hs H) as (s'&E&G). rewrite app_nil_r in E. rewrite E. exact G.
  - destruct (quiet_console before s l ls (Exception code :: after) Hq Hs H) as (s'&E&G). rewrite E. exact G.
Qed.
Lemma all_console : forall runs befores s l ls, Forall2 (fun r b => exists o, outcome r b o) runs befores -> console_at l s ->
  Forall2 logs (List.concat befores) ls -> console_at (l ++ List.concat ls) (fst (run_all s runs)).
Proof.
  induction runs as [|r runs IH]; intros befores s l ls H Hs Hl; inversion H as [|? b ? bs (o&Ho) Hr]; subst.
  - inversion Hl; subst. cbn. rewrite app_nil_r. exact Hs.
  - cbn [List.concat] in Hl. apply Forall2_app_inv_l in Hl as (l1&l2&Hl1&Hl2&->). cbn [run_all].
    assert (G := outcome_console s r b o l l1 Ho Hs Hl1). destruct (run_callbacks s r) as [s1 e]. cbn [fst] in G.
    assert (G2 := IH bs s1 _ l2 Hr G Hl2). destruct (run_all s1 runs) as [s2 es]. cbn [fst] in *. rewrite concat_app, app_assoc. exact G2.
Qed.

(** Everything logged, by all calculations in order, is one log: console.log gets exactly its complete
    lines.  (So what a failing calculation logged without ending the line starts the next one's first
    line.) *)
Theorem C66_log_lines :
  forall runs befores ls, Forall2 (fun r b => exists o, outcome r b o) runs befores ->
    Forall2 logs (List.concat befores) ls -> lines_of (List.concat ls) (console_of runs).
Proof.
  intros runs befores ls H Hl.
  assert (H0 : console_at [] rt0) by (exists [], []; split; [apply (lines_none [])|split; [left; reflexivity|split; [reflexivity|constructor]]]).
  destruct (all_console runs befores rt0 [] ls H H0 Hl) as (done&items&H1&H2&E&_). cbn [app] in E. rewrite E. apply lines_items; assumption.
Qed.
Print Assumptions C66_log_lines.
(** A log has exactly one list of lines, every calculation exactly one outcome and every callback
    logs exactly one thing. *)
Theorem C66_log_determined :
  (forall l a b, lines_of l a -> lines_of l b -> a = b) /\ (forall l, exists a, lines_of l a) /\
  (forall c, exists! l, logs c l) /\ (forall r, exists b o, outcome r b o /\ forall b' o', outcome r b' o' -> b' = b /\ o' = o).
Proof.
  assert (no_end : forall i, ~ In LineEnd (map Item i)) by (intros i Hi; apply in_map_iff in Hi as (?&?&_); discriminate).
  assert (split_end : forall a b x y, map Item a ++ LineEnd :: x = map Item b ++ LineEnd :: y -> a = b /\ x = y).
  { induction a as [|t a IH]; intros [|u b] x y E; cbn in E; try discriminate; [injection E as <-; auto|]. injection E as <- E. apply IH in E as [<- <-]. auto. }
  split; [|split; [|split]].
  - intros l a b H. revert b. induction H as [i|i l t lines Hl H IH]; intros b Hb.
    + inversion Hb as [i2 E|i2 l2 t2 lines2 Hl2 H2 E]; [reflexivity|]. exfalso. apply (no_end i). rewrite <- E. apply in_or_app. right. left. reflexivity.
    + inversion Hb as [i2 E|i2 l2 t2 lines2 Hl2 H2 E].
      * exfalso. apply (no_end i2). rewrite E. apply in_or_app. right. left. reflexivity.
      * apply split_end in E as [-> ->]. f_equal; [eapply line_unique; eassumption|apply IH; exact H2].
  - assert (ex_line : forall items, exists t, line_of items t).
    { induction items as [|[|c t] items (u&IH)]; [exists []; constructor|exists u; constructor; exact IH|eexists; apply line_items]. }
    assert (G : forall l, exists a items rest, lines_of rest a /\ ((l = map Item items /\ rest = [] /\ a = []) \/ l = map Item items ++ LineEnd :: rest)).
    { induction l as [|[t|] l (a&items&rest&H&E)].
      - exists [], [], []. split; [apply (lines_none [])|]. left. auto.
      - exists a, (t :: items), rest. split; [exact H|]. destruct E as [(->&->&->)| ->]; [left|right]; auto.
      - destruct E as [(->&->&->)| ->].
        + exists [], [], (map Item items). split; [apply lines_none|right; reflexivity].
        + destruct (ex_line items) as (t&Ht). exists (t :: a), [], (map Item items ++ LineEnd :: rest). split; [constructor; assumption|right; reflexivity]. }
    intros l. destruct (G l) as (a&items&rest&H&[(->&->&->)| ->]); [eexists; apply lines_none|]. destruct (ex_line items) as (t&Ht). exists (t :: a). constructor; assumption.
  - intros c. destruct c as [m|m|ws|code].
    + exists []. split; [constructor|]. intros y H. inversion H; reflexivity.
    + destruct (text_eqb_spec (chars m) [10]) as [E|E].
      * exists [LineEnd]. split; [constructor; exact E|]. intros y H. inversion H; [reflexivity|contradiction].
      * exists [Item (chars m)]. split; [constructor; exact E|]. intros y H. inversion H; [contradiction|reflexivity].
    + eexists. split; [constructor|]. intros y H. inversion H; reflexivity.
    + exists []. split; [constructor|]. intros y H. inversion H; reflexivity.
  - intros r.
    assert (D : quiet r \/ exists before code after, r = before ++ Exception code :: after /\ quiet before).
    { induction r as [|c r IH]; [left; intros code []|]. destruct c as [m|m|ws|code]; [..|right; exists [], code, r; split; [reflexivity|intros x []]];
        (destruct IH as [IH|(b&code&a&->&IH)]; [left; intros code [Hc|Hi]; [discriminate|exact (IH code Hi)]|right; eexists (_ :: b), code, a; split; [reflexivity|]; intros x [Hc|Hi]; [discriminate|exact (IH x Hi)]]). }
    assert (U : forall b c a b' c' a', b ++ Exception c :: a = b' ++ Exception c' :: a' -> quiet b -> quiet b' -> b = b' /\ c = c').
    { induction b as [|x b IH]; intros c a [|x' b'] c' a' E Hb Hb'; cbn in E.
      - injection E as -> _. auto.
      - injection E as <- _. exfalso. exact (Hb' c (or_introl eq_refl)).
      - injection E as -> _. exfalso. exact (Hb c' (or_introl eq_refl)).
      - injection E as <- E. apply IH in E as [-> ->]; [auto|intros k Hk; exact (Hb k (or_intror Hk))|intros k Hk; exact (Hb' k (or_intror Hk))]. }
    destruct D as [Hq|(before&code&after&->&Hq)].
    + exists r, None. split; [constructor; exact Hq|]. intros b' o' [H|b c a E H]; [auto|]. exfalso. apply (Hq c). rewrite E. apply in_or_app. right. left. reflexivity.
    + exists before, (Some code). split; [econstructor; [reflexivity|exact Hq]|]. intros b' o' [H|b c a E H].
      * exfalso. apply (H code). apply in_or_app. right. left. reflexivity.
      * symmetry in E. apply U in E as [-> ->]; auto.
Qed.
Print Assumptions C66_log_determined.

(** An assertion fails in the first calculation, which was logging; the second fails for another
    reason and repeats the first one's message. *)
Definition ex_first : list callback := [WriteBuffer (lit "x ="); ShowShared [5; 0]%Z; WriteBuffer [10]; WriteBuffer (lit "half"); PrintError (lit "line 7"); Exception 4; WriteBuffer [10]].
Definition ex_second : list callback := [WriteBuffer [10]; WriteBuffer []; WriteBuffer (lit "a"); WriteBuffer []; WriteBuffer (lit "b"); WriteBuffer [10]; Exception 3].
Example C66_nonvacuous :
  errors_of [ex_first; ex_second] = [Some (lit "Assert Failed." ++ [10] ++ lit "line 7" ++ [10]); Some (lit "Signal already set." ++ [10] ++ lit "line 7" ++ [10])] /\
  console_of [ex_first; ex_second] = [lit "x = 5"; lit "half"; lit "a  b"] /\
  outcome ex_first [WriteBuffer (lit "x ="); ShowShared [5; 0]%Z; WriteBuffer [10]; WriteBuffer (lit "half"); PrintError (lit "line 7")] (Some 4%Z).
Proof.
  split; [vm_compute; reflexivity|]. split; [vm_compute; reflexivity|].
  eapply (raised _ _ _ [WriteBuffer [10]]); [reflexivity|]. intros code H. repeat (destruct H as [H|H]; [discriminate|]). destruct H.
Qed.
