(** Property theorems C50: one initialisation, whatever the schedule. *)
From Coq Require Import List Bool Arith Lia.
From Verif Require Import WasmInit.
Import ListNotations.

Lemma set_nth_length l : forall i c, List.length (set_nth l i c) = List.length l.
Proof. induction l as [|x l IH]; intros [|i] c; cbn [set_nth List.length]; auto. Qed.
Lemma set_nth_same l : forall i c x, nth_error l i = Some x -> nth_error (set_nth l i c) i = Some c.
Proof. induction l as [|y l IH]; intros [|i] c x H; cbn [set_nth nth_error] in *; try discriminate; eauto. Qed.
Lemma set_nth_other l : forall i j c, i <> j -> nth_error (set_nth l i c) j = nth_error l j.
Proof. induction l as [|y l IH]; intros [|i] [|j] c H; cbn [set_nth nth_error]; try reflexivity; try congruence. apply IH. congruence. Qed.

Lemma event_dec (a b : event) : {a = b} + {a <> b}.
Proof. decide equality; try apply Nat.eq_dec. apply bool_dec. Qed.
(** [e] comes before every [e']. *)
Definition always_after (e e' : event) (tr : list event) : Prop :=
  forall k, nth_error tr k = Some e' -> exists j, j < k /\ nth_error tr j = Some e.
Lemma always_after_app e e' tr es : always_after e e' tr ->
  (forall k, nth_error es k = Some e' -> In e tr \/ exists j, j < k /\ nth_error es j = Some e) -> always_after e e' (tr ++ es).
Proof.
  intros H He k Hk. destruct (Nat.lt_ge_cases k (List.length tr)) as [L|L].
  - rewrite nth_error_app1 in Hk by exact L. destruct (H k Hk) as (j&Hj&Ej). exists j. split; [exact Hj|]. rewrite nth_error_app1 by lia. exact Ej.
  - rewrite nth_error_app2 in Hk by exact L. destruct (He _ Hk) as [Hi|(j&Hj&Ej)].
    + apply In_nth_error in Hi as [j Ej]. exists j. assert (j < List.length tr) by (apply nth_error_Some; congruence). split; [lia|].
      rewrite nth_error_app1 by assumption. exact Ej.
    + exists (List.length tr + j). split; [lia|]. rewrite nth_error_app2 by lia. replace (List.length tr + j - List.length tr) with j by lia. exact Ej.
Qed.

Record inv (n : nat) (tr : list event) (w : world) : Prop := {
  i_len : List.length (callers w) = n;
  i_start : count_occ event_dec tr InitStart = match prom w with PNull => 0 | _ => 1 end;
  i_flag : flag w = true <-> prom w = PResolved;
  i_ok : count_occ event_dec tr (InitEnd true) = match prom w with PResolved => 1 | _ => 0 end;
  i_bad : count_occ event_dec tr (InitEnd false) = match prom w with PRejected => 1 | _ => 0 end;
  i_index : forall i, In (Call i) tr \/ In (Return i) tr \/ In (Throw i) tr -> i < n;
  i_caller : forall i c, nth_error (callers w) i = Some c ->
    count_occ event_dec tr (Call i) = match c with Before => 0 | _ => 1 end /\
    count_occ event_dec tr (Return i) = match c with Returned => 1 | _ => 0 end /\
    count_occ event_dec tr (Throw i) = match c with Threw => 1 | _ => 0 end /\
    (c = Returned -> prom w = PResolved) /\ (c = Threw -> prom w = PRejected);
  i_order : forall i, always_after (InitEnd true) (Return i) tr /\ always_after (InitEnd false) (Throw i) tr /\
    always_after (Call i) (Return i) tr /\ always_after (Call i) (Throw i) tr;
  i_order_init : forall b, always_after InitStart (InitEnd b) tr
}.
Lemma count_in tr e : (count_occ event_dec tr e = 1 -> In e tr).
Proof. intros H. apply (count_occ_In event_dec). lia. Qed.

Lemma count_ne tr e e' : e <> e' -> count_occ event_dec (tr ++ [e']) e = count_occ event_dec tr e.
Proof. intros H. rewrite count_occ_app. cbn [count_occ]. destruct (event_dec e' e); [congruence|lia]. Qed.
Lemma count_eq tr e : count_occ event_dec (tr ++ [e]) e = S (count_occ event_dec tr e).
Proof. rewrite count_occ_app. cbn [count_occ]. destruct (event_dec e e); [lia|congruence]. Qed.
Lemma after_one e e' tr x : always_after e e' tr -> (e' = x -> In e tr) -> always_after e e' (tr ++ [x]).
Proof. intros H He. apply always_after_app; [exact H|]. intros [|k] Hk; cbn [nth_error] in Hk; [|destruct k; discriminate]. left. apply He. congruence. Qed.

(** One event at a time. *)
Inductive tick : world -> event -> world -> Prop :=
| t_call_init i w : nth_error (callers w) i = Some Before -> prom w = PNull -> flag w = false ->
    tick w (Call i) (World (flag w) PNull (set_nth (callers w) i Awaiting))
| t_init w : prom w = PNull -> tick w InitStart (World (flag w) PPending (callers w))
| t_call i w : nth_error (callers w) i = Some Before -> prom w <> PNull ->
    tick w (Call i) (World (flag w) (prom w) (set_nth (callers w) i Awaiting))
| t_end ok w : prom w = PPending -> tick w (InitEnd ok) (World ok (if ok then PResolved else PRejected) (callers w))
| t_return i w : nth_error (callers w) i = Some Awaiting -> prom w = PResolved ->
    tick w (Return i) (World (flag w) (prom w) (set_nth (callers w) i Returned))
| t_throw i w : nth_error (callers w) i = Some Awaiting -> prom w = PRejected ->
    tick w (Throw i) (World (flag w) (prom w) (set_nth (callers w) i Threw)).

Ltac call i Hi C Hp :=
  intros j c Hj; destruct (Nat.eq_dec i j) as [<-|Hne];
  [ rewrite (set_nth_same _ _ _ _ Hi) in Hj; injection Hj as <-; destruct (C i _ Hi) as (C1&C2&C3&C4&C5);
    rewrite ?count_eq; rewrite ?count_ne by congruence; rewrite ?C1, ?C2, ?C3; repeat split; intros; congruence
  | rewrite set_nth_other in Hj by exact Hne; destruct (C j c Hj) as (C1&C2&C3&C4&C5);
    rewrite !count_ne by congruence; repeat split; try assumption; intros; (congruence || (rewrite <- ?Hp; auto)) ].
Ltac still C Hp :=
  intros j c Hj; destruct (C j c Hj) as (C1&C2&C3&C4&C5); rewrite !count_ne by congruence; repeat split; try assumption;
  intros ->; exfalso; (specialize (C4 eq_refl) || specialize (C5 eq_refl)); congruence.
Ltac ord P :=
  intros j; first [destruct (P j) as (P1&P2&P3&P4); repeat split; (apply after_one; [assumption|discriminate]) | apply after_one; [apply P|discriminate]].
Lemma tick_inv n tr w e w' : inv n tr w -> tick w e w' -> inv n (tr ++ [e]) w'.
Proof.
  intros [L S F O B X C P Q] Ht.
  assert (HX : forall i c, nth_error (callers w) i = Some c -> e = Call i \/ e = Return i \/ e = Throw i \/ e = InitStart \/ (exists b, e = InitEnd b) ->
    forall j, In (Call j) (tr ++ [e]) \/ In (Return j) (tr ++ [e]) \/ In (Throw j) (tr ++ [e]) -> j < n).
  { intros i c Hi He j Hj. assert (i < n) by (rewrite <- L; apply nth_error_Some; congruence). 
    rewrite !in_app_iff in Hj. cbn [In] in Hj.
    assert (D : (In (Call j) tr \/ In (Return j) tr \/ In (Throw j) tr) \/ (e = Call j \/ e = Return j \/ e = Throw j)) by tauto.
    destruct D as [D|D]; [apply X; exact D|]. destruct He as [-> |[-> |[-> |[-> |(b&->)]]]]; destruct D as [D|[D|D]]; try discriminate; injection D as ->; assumption. }
  assert (HX0 : e = InitStart \/ (exists b, e = InitEnd b) ->
    forall j, In (Call j) (tr ++ [e]) \/ In (Return j) (tr ++ [e]) \/ In (Throw j) (tr ++ [e]) -> j < n).
  { intros He j Hj. rewrite !in_app_iff in Hj. cbn [In] in Hj. apply X. destruct He as [-> |(b&->)]; intuition discriminate. }
  inversion Ht as [i w0 Hi Hp Hf|w0 Hp|i w0 Hi Hp|ok w0 Hp|i w0 Hi Hp|i w0 Hi Hp]; subst w0 e w'; constructor; cbn [flag prom callers];
    rewrite ?set_nth_length, ?count_ne by discriminate; try assumption; try (apply (HX i _ Hi); auto; fail); try (apply HX0; eauto; fail).
  (* call, the first *)
  - rewrite S, Hp. reflexivity.
  - rewrite F, Hp. tauto.
  - rewrite O, Hp. reflexivity.
  - rewrite B, Hp. reflexivity.
  - call i Hi C Hp.
  - ord P.
  - ord Q.
  (* wasmInit is called *)
  - rewrite count_eq, S, Hp. reflexivity.
  - rewrite F, Hp. split; discriminate.
  - rewrite O, Hp. reflexivity.
  - rewrite B, Hp. reflexivity.
  - still C Hp.
  - ord P.
  - ord Q.
  (* call, a later one *)
  - call i Hi C Hp.
  - ord P.
  - ord Q.
  (* wasmInit ends *)
  - rewrite S, Hp. destruct ok; reflexivity.
  - destruct ok; split; congruence.
  - destruct ok; [rewrite count_eq|rewrite count_ne by congruence]; rewrite O, Hp; reflexivity.
  - destruct ok; [rewrite count_ne by congruence|rewrite count_eq]; rewrite B, Hp; reflexivity.
  - still C Hp.
  - ord P.
  - intros b. apply after_one; [apply Q|]. intros _. apply count_in. rewrite S, Hp. reflexivity.
  (* a caller returns *)
  - call i Hi C Hp.
  - intros j. destruct (P j) as (P1&P2&P3&P4). repeat split; (apply after_one; [assumption|]); intros E; try discriminate E; injection E as ->; apply count_in.
    + rewrite O, Hp. reflexivity.
    + destruct (C i _ Hi) as (C1&_). exact C1.
  - ord Q.
  (* a caller throws *)
  - call i Hi C Hp.
  - intros j. destruct (P j) as (P1&P2&P3&P4). repeat split; (apply after_one; [assumption|]); intros E; try discriminate E; injection E as ->; apply count_in.
    + rewrite B, Hp. reflexivity.
    + destruct (C i _ Hi) as (C1&_). exact C1.
  - ord Q.
Qed.

(** A step of the model is one or two of these. *)
Lemma runs_inv n tr w : runs n tr w -> inv n tr w.
Proof.
  induction 1 as [|tr w es w' _ IH Hs].
  - constructor; cbn [flag prom callers count_occ]; try (split; discriminate); try reflexivity.
    + apply repeat_length.
    + cbn [In]. tauto.
    + intros i c H. assert (c = Before) by (apply nth_error_In in H; apply repeat_spec in H; exact H). subst c. repeat split; congruence.
    + intros i. repeat split; intros k H; destruct k; discriminate.
    + intros b k H. destruct k; discriminate.
  - assert (F := i_flag _ _ _ IH). destruct Hs as [i w Hi|ok w Hp|i w w' es Hi Hw].
    + assert (Hset : forall l c c', set_nth (set_nth l i c) i c' = set_nth l i c').
      { clear. induction i as [|i IHi]; intros [|x l] c c'; cbn [set_nth]; try reflexivity. f_equal. apply IHi. }
      unfold ensure. destruct (flag w) eqn:Ef; [|destruct (prom w) eqn:Ep]; cbn [fst snd].
      * change [Call i; Return i] with ([Call i] ++ [Return i]). rewrite app_assoc.
        assert (Hp : prom w = PResolved) by tauto.
        assert (H1 := tick_inv _ _ _ _ _ IH (t_call i w Hi ltac:(congruence))).
        assert (H2 := tick_inv _ _ _ _ _ H1 (t_return i (World (flag w) (prom w) (set_nth (callers w) i Awaiting)) (set_nth_same _ _ Awaiting _ Hi) Hp)). cbn [flag prom callers] in H2. rewrite Hset, Ef in H2. exact H2.
      * change [Call i; InitStart] with ([Call i] ++ [InitStart]). rewrite app_assoc.
        assert (H1 := tick_inv _ _ _ _ _ IH (t_call_init i w Hi Ep Ef)).
        assert (H2 := tick_inv _ _ _ _ _ H1 (t_init (World (flag w) PNull (set_nth (callers w) i Awaiting)) eq_refl)). cbn [flag prom callers] in H2. rewrite Ef in H2. exact H2.
      * assert (H1 := tick_inv _ _ _ _ _ IH (t_call i w Hi ltac:(congruence))). rewrite Ef, Ep in H1. exact H1.
      * exfalso. destruct F as [_ F]. specialize (F eq_refl). discriminate.
      * assert (H1 := tick_inv _ _ _ _ _ IH (t_call i w Hi ltac:(congruence))). rewrite Ef, Ep in H1. exact H1.
    + assert (H1 := tick_inv _ _ _ _ _ IH (t_end ok w Hp)). unfold init_ends. destruct ok; [exact H1|].
      cbn [fst snd]. destruct (flag w); [|exact H1]. exfalso. destruct F as [F _]. specialize (F eq_refl). congruence.
    + unfold wakes in Hw. destruct (prom w) eqn:Ep; try discriminate; injection Hw as <- <-.
      * assert (H1 := tick_inv _ _ _ _ _ IH (t_return i w Hi Ep)). rewrite Ep in H1. exact H1.
      * assert (H1 := tick_inv _ _ _ _ _ IH (t_throw i w Hi Ep)). rewrite Ep in H1. exact H1.
Qed.
Lemma runs_live n tr w : runs n tr w -> prom w = PNull -> forall i c, nth_error (callers w) i = Some c -> c = Before.
Proof.
  induction 1 as [|tr w es w' Hr IH Hs]; intros Hp i c H.
  - apply nth_error_In in H. apply repeat_spec in H. exact H.
  - exfalso. assert (F := i_flag _ _ _ (runs_inv _ _ _ Hr)). destruct Hs as [j w Hj|ok w Hj|j w w' es Hj Hw].
    + unfold ensure in Hp. destruct (flag w) eqn:Ef; [|destruct (prom w) eqn:Ep]; cbn [fst prom] in Hp; try congruence.
      assert (prom w = PResolved) by tauto. congruence.
    + unfold init_ends in Hp. destruct ok; discriminate.
    + unfold wakes in Hw. destruct (prom w) eqn:Ep; try discriminate; injection Hw as <- <-; cbn [prom] in Hp; discriminate.
Qed.

(** What is left to happen. *)
Definition left_of (c : caller) : nat := match c with Before => 2 | Awaiting => 1 | _ => 0 end.
Definition total_left (w : world) : nat :=
  list_sum (map left_of (callers w)) + match prom w with PNull => 2 | PPending => 1 | _ => 0 end.
Lemma sum_set l : forall i c c', nth_error l i = Some c -> list_sum (map left_of (set_nth l i c')) + left_of c = list_sum (map left_of l) + left_of c'.
Proof.
  induction l as [|x l IH]; intros [|i] c c' H; cbn [nth_error] in H; try discriminate.
  - injection H as ->. unfold list_sum. cbn [set_nth map fold_right]. lia.
  - specialize (IH i c c' H). unfold list_sum in *. cbn [set_nth map fold_right]. lia.
Qed.
Lemma runs_measure n tr w : runs n tr w -> List.length tr + total_left w = 2 * n + 2.
Proof.
  induction 1 as [|tr w es w' Hr IH Hs].
  - unfold total_left. cbn [prom callers List.length]. assert (list_sum (map left_of (repeat Before n)) = 2 * n); [|lia].
    induction n as [|n IHn]; [reflexivity|]. unfold list_sum in *. cbn [repeat map fold_right left_of]. lia.
  - rewrite app_length. unfold total_left in *. assert (F := i_flag _ _ _ (runs_inv _ _ _ Hr)). destruct Hs as [i w Hi|ok w Hp|i w w' es Hi Hw].
    + assert (S1 := sum_set _ _ _ Awaiting Hi). assert (S2 := sum_set _ _ _ Returned Hi). cbn [left_of] in S1, S2.
      unfold ensure. destruct (flag w) eqn:Ef; [|destruct (prom w) eqn:Ep]; cbn [fst snd List.length callers prom]; try lia.
    + unfold init_ends. rewrite Hp in IH. destruct ok; cbn [fst snd List.length callers prom]; lia.
    + assert (S1 := sum_set _ _ _ Threw Hi). assert (S2 := sum_set _ _ _ Returned Hi). cbn [left_of] in S1, S2.
      unfold wakes in Hw. destruct (prom w) eqn:Ep; try discriminate; injection Hw as <- <-; cbn [List.length callers prom]; lia.
Qed.

(** wasmInit is called at most once, however many callers there are and in whatever order they run. *)
Theorem C50_one_initialisation :
  forall n tr w, runs n tr w -> count_occ event_dec tr InitStart <= 1.
Proof. intros n tr w H. rewrite (i_start _ _ _ (runs_inv _ _ _ H)). destruct (prom w); lia. Qed.
Print Assumptions C50_one_initialisation.
(** No caller goes on before wasmInit has ended well, none throws before it has failed, and none does
    either twice or without having called. *)
Theorem C50_no_caller_before_the_end :
  forall n tr w, runs n tr w ->
    (forall i, always_after (InitEnd true) (Return i) tr /\ always_after (Call i) (Return i) tr) /\
    (forall i, always_after (InitEnd false) (Throw i) tr /\ always_after (Call i) (Throw i) tr) /\
    (forall b, always_after InitStart (InitEnd b) tr) /\
    (forall i, count_occ event_dec tr (Return i) + count_occ event_dec tr (Throw i) <= 1).
Proof.
  intros n tr w H. assert (I := runs_inv _ _ _ H). split; [|split; [|split]].
  - intros i. destruct (i_order _ _ _ I i) as (H1&H2&H3&H4). split; assumption.
  - intros i. destruct (i_order _ _ _ I i) as (H1&H2&H3&H4). split; assumption.
  - apply (i_order_init _ _ _ I).
  - intros i. destruct (nth_error (callers w) i) as [c|] eqn:E.
    + destruct (i_caller _ _ _ I i c E) as (_&->&->&_). destruct c; lia.
    + apply nth_error_None in E. rewrite (i_len _ _ _ I) in E.
      assert (Z : forall e, e = Return i \/ e = Throw i -> count_occ event_dec tr e = 0).
      { intros e He. apply count_occ_not_In. intros Hin. assert (i < n); [|lia]. apply (i_index _ _ _ I). destruct He as [-> | ->]; auto. }
      rewrite !Z by auto. lia.
Qed.
Print Assumptions C50_no_caller_before_the_end.
(** All callers share the fate of the one initialisation: some caller returned means none throws. *)
Theorem C50_same_fate :
  forall n tr w i j, runs n tr w -> ~ (In (Return i) tr /\ In (Throw j) tr).
Proof.
  intros n tr w i j H [Hi Hj]. assert (I := runs_inv _ _ _ H).
  apply In_nth_error in Hi as [k Hk]. apply In_nth_error in Hj as [l Hl].
  destruct (i_order _ _ _ I i) as (O1&_). destruct (i_order _ _ _ I j) as (_&O2&_).
  destruct (O1 k Hk) as (a&_&Ha). destruct (O2 l Hl) as (b&_&Hb).
  apply nth_error_In in Ha. apply nth_error_In in Hb. apply (count_occ_In event_dec) in Ha. apply (count_occ_In event_dec) in Hb.
  rewrite (i_ok _ _ _ I) in Ha. rewrite (i_bad _ _ _ I) in Hb. destruct (prom w); lia.
Qed.
Print Assumptions C50_same_fate.
(** Every schedule ends, and when it does every caller has returned or thrown. *)
Theorem C50_every_schedule_settles :
  forall n tr w, runs n tr w ->
    List.length tr <= 2 * n + 2 /\
    ((forall es w', ~ step w es w') -> forall i, i < n -> In (Return i) tr \/ In (Throw i) tr).
Proof.
  intros n tr w H. assert (I := runs_inv _ _ _ H). split.
  - assert (M := runs_measure _ _ _ H). lia.
  - intros Hno i Hi. destruct (nth_error (callers w) i) as [c|] eqn:E.
    2:{ apply nth_error_None in E. rewrite (i_len _ _ _ I) in E. lia. }
    destruct (i_caller _ _ _ I i c E) as (_&C2&C3&_). destruct c.
    + exfalso. eapply Hno. apply (s_ensure i). exact E.
    + exfalso. destruct (prom w) eqn:Ep.
      * assert (Hx := runs_live _ _ _ H Ep i _ E). discriminate.
      * eapply Hno. apply (s_init true). exact Ep.
      * eapply Hno. eapply (s_wakes i); [exact E|]. unfold wakes. rewrite Ep. reflexivity.
      * eapply Hno. eapply (s_wakes i); [exact E|]. unfold wakes. rewrite Ep. reflexivity.
    + left. apply count_in. exact C2.
    + right. apply count_in. exact C3.
Qed.
Print Assumptions C50_every_schedule_settles.
(** A failed initialisation is final: wasmInit is not called again, and whoever calls throws. *)
Theorem C50_failure_is_final :
  forall n tr w es w', runs n tr w -> In (InitEnd false) tr -> step w es w' ->
    ~ In InitStart es /\ forall i, ~ In (Return i) (tr ++ es).
Proof.
  intros n tr w es w' H Hf Hs. assert (H' := r_step _ _ _ _ _ H Hs). assert (I := runs_inv _ _ _ H). assert (I' := runs_inv _ _ _ H').
  split.
  - intros Hi. assert (Hst : In InitStart tr).
    { apply In_nth_error in Hf as [k Hk]. destruct (i_order_init _ _ _ I false k Hk) as (j&_&Hj). eapply nth_error_In. exact Hj. }
    assert (C := C50_one_initialisation _ _ _ H'). rewrite count_occ_app in C.
    apply (count_occ_In event_dec) in Hi. apply (count_occ_In event_dec) in Hst. lia.
  - intros i Hi. assert (Hb : In (InitEnd false) (tr ++ es)) by (apply in_or_app; auto). apply (count_occ_In event_dec) in Hb. rewrite (i_bad _ _ _ I') in Hb.
    apply In_nth_error in Hi as [k Hk]. destruct (i_order _ _ _ I' i) as (O1&_). destruct (O1 k Hk) as (a&_&Ha). apply nth_error_In in Ha.
    apply (count_occ_In event_dec) in Ha. rewrite (i_ok _ _ _ I') in Ha. destruct (prom w'); lia.
Qed.
Print Assumptions C50_failure_is_final.

(** Three callers, one of them after the initialisation; and a failure. *)
Example C50_nonvacuous :
  (exists w, runs 3 [Call 1; InitStart; Call 0; InitEnd true; Return 0; Call 2; Return 2; Return 1] w) /\
  (exists w, runs 2 [Call 1; InitStart; InitEnd false; Call 0; Throw 0; Throw 1] w).
Proof.
  split; eexists.
  - change [Call 1; InitStart; Call 0; InitEnd true; Return 0; Call 2; Return 2; Return 1] with
      (((((([] ++ [Call 1; InitStart]) ++ [Call 0]) ++ [InitEnd true]) ++ [Return 0]) ++ [Call 2; Return 2]) ++ [Return 1]).
    eapply r_step; [eapply r_step; [eapply r_step; [eapply r_step; [eapply r_step; [eapply r_step; [apply r_start|]|]|]|]|]|].
    + apply (s_ensure 1). reflexivity.
    + apply (s_ensure 0). reflexivity.
    + apply (s_init true). reflexivity.
    + apply (s_wakes 0); reflexivity.
    + apply (s_ensure 2). reflexivity.
    + apply (s_wakes 1); reflexivity.
  - change [Call 1; InitStart; InitEnd false; Call 0; Throw 0; Throw 1] with
      ((((([] ++ [Call 1; InitStart]) ++ [InitEnd false]) ++ [Call 0]) ++ [Throw 0]) ++ [Throw 1]).
    eapply r_step; [eapply r_step; [eapply r_step; [eapply r_step; [eapply r_step; [apply r_start|]|]|]|]|].
    + apply (s_ensure 1). reflexivity.
    + apply (s_init false). reflexivity.
    + apply (s_ensure 0). reflexivity.
    + apply (s_wakes 0); reflexivity.
    + apply (s_wakes 1); reflexivity.
Qed.

