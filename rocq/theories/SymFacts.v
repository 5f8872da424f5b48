From Coq Require Import List Bool Arith NArith ZArith Lia Permutation.
From Verif Require Import Res Text Sym SpecSym.
Import ListNotations.
Local Open Scope N_scope.

Lemma forallb_digits ds : forallb is_digit ds = true <-> Forall (fun c => 48 <= c <= 57) ds.
Proof.
  rewrite forallb_forall, Forall_forall. split; intros H x Hx; apply is_digit_range; auto.
Qed.
Lemma all_digits_spec ds : all_digits ds = true <-> ds <> [] /\ Forall (fun c => 48 <= c <= 57) ds.
Proof.
  unfold all_digits. destruct ds as [|c ds].
  - split; [discriminate|]. intros [H _]. contradiction.
  - rewrite forallb_digits. split; [intros H; split; [discriminate|exact H]|intros [_ H]; exact H].
Qed.

Lemma digit_not_sign c : 48 <= c <= 57 -> (c =? c_minus) = false /\ (c =? c_plus) = false.
Proof. intros H. unfold c_minus, c_plus. split; apply N.eqb_neq; lia. Qed.

Lemma parse_i32_spec t z : parse_i32 t = Some z <-> signed_numeral t z /\ (- 2 ^ 31 <= z < 2 ^ 31)%Z.
Proof.
  assert (Hr : forall z0 : Z, (if ((- 2 ^ 31 <=? z0) && (z0 <? 2 ^ 31))%Z then Some z0 else None) = Some z <->
    z0 = z /\ (- 2 ^ 31 <= z < 2 ^ 31)%Z).
  { intros z0. destruct (Z.leb_spec (- 2 ^ 31) z0), (Z.ltb_spec z0 (2 ^ 31)); cbn [andb];
      (split; [intros E; try discriminate; injection E as ->; auto|intros [-> ?]; try reflexivity; lia]). }
  unfold parse_i32, signed_numeral. split.
  - destruct t as [|c r]; [cbn; discriminate|].
    destruct (N.eqb_spec c c_minus) as [->|H1]; [|destruct (N.eqb_spec c c_plus) as [->|H2]].
    + destruct (all_digits r) eqn:Ed; [|discriminate]. rewrite Hr. intros [E ?]. split; [|assumption].
      apply all_digits_spec in Ed. destruct Ed. exists r. repeat split; auto.
    + destruct (all_digits r) eqn:Ed; [|discriminate]. rewrite Hr. intros [E ?]. split; [|assumption].
      apply all_digits_spec in Ed. destruct Ed. exists r. repeat split; auto.
    + destruct (all_digits (c :: r)) eqn:Ed; [|discriminate]. rewrite Hr. intros [E ?]. split; [|assumption].
      apply all_digits_spec in Ed. destruct Ed. exists (c :: r). repeat split; auto.
  - intros ((ds&Hne&Hd&Hs)&Hz).
    assert (Ha : all_digits ds = true) by (apply all_digits_spec; auto).
    destruct Hs as [[-> ->]|[[-> ->]|[-> ->]]].
    + destruct ds as [|c ds]; [contradiction|]. pose proof (Forall_inv Hd) as Hc. apply digit_not_sign in Hc.
      destruct Hc as [-> ->]. rewrite Ha. apply Hr. auto.
    + cbn [N.eqb]. replace (c_plus =? c_minus) with false by reflexivity. rewrite N.eqb_refl, Ha. apply Hr. auto.
    + rewrite N.eqb_refl, Ha. apply Hr. auto.
Qed.

Lemma padded_trim ws t f : padded ws t f <-> trim ws f = t.
Proof.
  split.
  - intros (p&q&->&Hp&Hq&Ht). apply trim_tight_pad; assumption.
  - intros <-. destruct (trim_split ws f) as (p&q&Hp&Hq&Hf&Ht). exists p, q. auto.
Qed.
Lemma wire_field_spec ws f z : wire_field ws f z <-> parse_i32 (trim ws f) = Some z.
Proof.
  rewrite parse_i32_spec. unfold wire_field. split.
  - intros ((t&Hp&Hs)&Hz). apply padded_trim in Hp. subst t. auto.
  - intros [Hs Hz]. split; [|exact Hz]. exists (trim ws f). split; [apply padded_trim; reflexivity|exact Hs].
Qed.
Lemma four_fields_spec l f0 f1 f2 f3 : four_fields l f0 f1 f2 f3 <-> split_on c_comma l = [f0; f1; f2; f3].
Proof.
  unfold four_fields. split.
  - intros [-> H]. apply (split_join c_comma [f0; f1; f2; f3]); [discriminate|exact H].
  - intros H. destruct (split_spec c_comma l) as (_&H1&H2). rewrite H in H1, H2. split; [symmetry; exact H2|exact H1].
Qed.

Section Trimmed.
  Context (ws : N -> bool) (Hcomma : ws c_comma = false).

  Lemma trim_start_mid f c rest : ws c = false -> trim_start ws (f ++ c :: rest) = trim_start ws f ++ c :: rest.
  Proof.
    intros Hc. induction f as [|x f IH]; cbn; [rewrite Hc; reflexivity|]. destruct (ws x); [exact IH|reflexivity].
  Qed.
  Lemma trim_end_mid x c f : ws c = false -> trim_end ws (x ++ c :: f) = x ++ c :: trim_end ws f.
  Proof.
    intros Hc. unfold trim_end. rewrite rev_app_distr. cbn [rev]. rewrite <- app_assoc. cbn [app].
    rewrite trim_start_mid by exact Hc. rewrite rev_app_distr. cbn [rev]. rewrite rev_involutive.
    rewrite <- app_assoc. reflexivity.
  Qed.
  Lemma trim_of_trim_end f : trim ws (trim_end ws f) = trim ws f.
  Proof.
    destruct (trim_end_split ws f) as (q&Hq&Hf&_). destruct (trim_split ws (trim_end ws f)) as (p'&q'&Hp'&Hq'&Hf'&Ht').
    rewrite Hf at 2. rewrite Hf' at 2. rewrite <- !app_assoc. symmetry. apply trim_tight_pad; [exact Hp'| |exact Ht'].
    apply Forall_app. auto.
  Qed.
  Lemma free_trim_start f : free_of c_comma f -> free_of c_comma (trim_start ws f).
  Proof.
    intros H. destruct (trim_start_split ws f) as (p&_&Hf&_). rewrite Hf in H. apply Forall_app in H. apply H.
  Qed.
  Lemma free_trim_end f : free_of c_comma f -> free_of c_comma (trim_end ws f).
  Proof.
    intros H. destruct (trim_end_split ws f) as (p&_&Hf&_). rewrite Hf in H. apply Forall_app in H. apply H.
  Qed.
  Lemma free_ws p : all_ws ws p -> free_of c_comma p.
  Proof. unfold all_ws, free_of. apply Forall_impl. intros c Hc ->. congruence. Qed.

  Lemma fields_trim l f0 f1 f2 f3 : four_fields l f0 f1 f2 f3 ->
    four_fields (trim ws l) (trim_start ws f0) f1 f2 (trim_end ws f3).
  Proof.
    intros [-> H]. apply Forall_cons_iff in H. destruct H as [H0 H]. apply Forall_cons_iff in H. destruct H as [H1 H].
    apply Forall_cons_iff in H. destruct H as [H2 H]. apply Forall_inv in H. rename H into H3. split.
    - unfold trim. rewrite trim_start_mid by exact Hcomma.
      replace (trim_start ws f0 ++ c_comma :: f1 ++ c_comma :: f2 ++ c_comma :: f3)
        with ((trim_start ws f0 ++ c_comma :: f1 ++ c_comma :: f2) ++ c_comma :: f3)
        by (rewrite <- app_assoc; cbn; rewrite <- app_assoc; reflexivity).
      rewrite trim_end_mid by exact Hcomma. rewrite <- app_assoc; cbn; rewrite <- app_assoc; reflexivity.
    - repeat constructor; auto using free_trim_start, free_trim_end.
  Qed.
  Lemma fields_untrim l g0 g1 g2 g3 : four_fields (trim ws l) g0 g1 g2 g3 ->
    exists f0 f3, four_fields l f0 g1 g2 f3.
  Proof.
    intros [E H]. destruct (trim_split ws l) as (p&q&Hp&Hq&Hl&_). exists (p ++ g0), (g3 ++ q).
    apply Forall_cons_iff in H. destruct H as [H0 H]. apply Forall_cons_iff in H. destruct H as [H1 H].
    apply Forall_cons_iff in H. destruct H as [H2 H]. apply Forall_inv in H. rename H into H3. split.
    - rewrite Hl, E. rewrite <- !app_assoc. cbn. rewrite <- !app_assoc. cbn. rewrite <- !app_assoc. reflexivity.
    - apply free_ws in Hp. apply free_ws in Hq. repeat constructor; auto; apply Forall_app; auto.
  Qed.
End Trimmed.

(** Every line says exactly one thing. *)
Lemma says_total ws l : exists s, says ws l s.
Proof.
  destruct (split_on c_comma l) as [|f0 [|f1 [|f2 [|f3 [|f4 rest]]]]] eqn:E;
    try (exists Nothing; constructor; intros g0 g1 g2 g3 H; apply four_fields_spec in H; congruence).
  apply four_fields_spec in E. destruct (parse_i32 (trim ws f1)) as [z|] eqn:Ez.
  - exists (Record z (trim ws f3)). econstructor; [exact E|apply wire_field_spec; exact Ez|apply padded_trim; reflexivity].
  - exists Bad. econstructor; [exact E|]. intros z Hz. apply wire_field_spec in Hz. congruence.
Qed.

Lemma says_step l s m : says rust_ws l s ->
  sym_step m l = match s with
                 | Nothing => Ok m
                 | Record z name => if (z <? 0)%Z then Ok m else Ok (hm_insert name (Z.to_N z) m)
                 | Bad => Err SymBadWire
                 end.
Proof.
  intros H. unfold sym_step.
  assert (Hne : forall f0 f1 f2 f3, four_fields l f0 f1 f2 f3 -> trim rust_ws l <> []).
  { intros f0 f1 f2 f3 Hf E. apply fields_trim with (ws := rust_ws) in Hf; [|reflexivity]. destruct Hf as [Hf _].
    rewrite E in Hf. destruct (trim_start rust_ws f0); discriminate. }
  destruct H as [l Hno|l f0 f1 f2 f3 z name Hf Hz Hn|l f0 f1 f2 f3 Hf Hz].
  - destruct (trim rust_ws l) as [|c r] eqn:Et; [reflexivity|]. rewrite <- Et.
    destruct (split_on c_comma (trim rust_ws l)) as [|g0 [|g1 [|g2 [|g3 [|g4 rest]]]]] eqn:E; try reflexivity.
    exfalso. apply four_fields_spec in E. destruct (fields_untrim rust_ws eq_refl _ _ _ _ _ E) as (f0&f3&Hf).
    exact (Hno _ _ _ _ Hf).
  - pose proof (Hne _ _ _ _ Hf) as Ht. destruct (trim rust_ws l) as [|c r] eqn:Et; [contradiction|]. rewrite <- Et.
    apply fields_trim with (ws := rust_ws) in Hf; [|reflexivity]. apply four_fields_spec in Hf. rewrite Hf.
    apply wire_field_spec in Hz. rewrite Hz. rewrite trim_of_trim_end. apply padded_trim in Hn. rewrite Hn. reflexivity.
  - pose proof (Hne _ _ _ _ Hf) as Ht. destruct (trim rust_ws l) as [|c r] eqn:Et; [contradiction|]. rewrite <- Et.
    apply fields_trim with (ws := rust_ws) in Hf; [|reflexivity]. apply four_fields_spec in Hf. rewrite Hf.
    destruct (parse_i32 (trim rust_ws f1)) as [z|] eqn:Ez; [|reflexivity].
    exfalso. apply (Hz z). apply wire_field_spec. exact Ez.
Qed.

Lemma sym_loop_spec ls ss : Forall2 (says rust_ws) ls ss -> forall m, hm_wf m ->
  (~ In Bad ss -> exists m', sym_loop ls m = Ok m' /\ hm_wf m' /\
     forall n, hm_get n m' = match wire_of n ss with Some w => Some w | None => hm_get n m end) /\
  (In Bad ss -> sym_loop ls m = Err SymBadWire).
Proof.
  induction 1 as [|l s ls ss Hs Hss IH]; intros m Hm; cbn [sym_loop].
  - split; [|intros []]. intros _. exists m. auto.
  - rewrite (says_step l s m Hs). destruct s as [|z name|].
    + destruct (IH m Hm) as [H1 H2]. split.
      * intros Hn. destruct H1 as (m'&E&Hw&Hg); [intros Hb; apply Hn; right; exact Hb|].
        exists m'. split; [exact E|]. split; [exact Hw|]. intros n. rewrite Hg. cbn [wire_of].
        destruct (wire_of n ss); reflexivity.
      * intros [Hb|Hb]; [discriminate|auto].
    + destruct (Z.ltb_spec z 0) as [Hz|Hz].
      * destruct (IH m Hm) as [H1 H2]. split.
        -- intros Hn. destruct H1 as (m'&E&Hw&Hg); [intros Hb; apply Hn; right; exact Hb|].
           exists m'. split; [exact E|]. split; [exact Hw|]. intros n. rewrite Hg. cbn [wire_of].
           destruct (wire_of n ss); [reflexivity|]. destruct (Z.leb_spec 0 z); [lia|]. rewrite andb_false_r. reflexivity.
        -- intros [Hb|Hb]; [discriminate|auto].
      * destruct (IH (hm_insert name (Z.to_N z) m) (hm_insert_wf _ _ _ Hm)) as [H1 H2]. split.
        -- intros Hn. destruct H1 as (m'&E&Hw&Hg); [intros Hb; apply Hn; right; exact Hb|].
           exists m'. split; [exact E|]. split; [exact Hw|]. intros n. rewrite Hg. cbn [wire_of].
           destruct (wire_of n ss); [reflexivity|]. rewrite hm_get_insert.
           destruct (Z.leb_spec 0 z); [|lia]. rewrite andb_true_r. destruct (text_eqb n name); reflexivity.
        -- intros [Hb|Hb]; [discriminate|auto].
    + split; [|reflexivity]. intros Hn. exfalso. apply Hn. left. reflexivity.
Qed.

(** Lines as the Rust iterator yields them say the same as the pieces between line feeds. *)
Lemma ws_cr_step ws c l s : ws c_comma = false -> ws c = true -> says ws (l ++ [c]) s -> says ws l s.
Proof.
  intros Hcm Hc H.
  assert (Hfw : forall f0 f1 f2 f3, four_fields l f0 f1 f2 f3 -> four_fields (l ++ [c]) f0 f1 f2 (f3 ++ [c])).
  { intros f0 f1 f2 f3 [-> Hf]. split; [rewrite <- !app_assoc; cbn; rewrite <- !app_assoc; cbn; rewrite <- !app_assoc; reflexivity|].
    apply Forall_cons_iff in Hf. destruct Hf as [H0 Hf]. apply Forall_cons_iff in Hf. destruct Hf as [H1 Hf].
    apply Forall_cons_iff in Hf. destruct Hf as [H2 Hf]. apply Forall_inv in Hf.
    repeat constructor; auto. apply Forall_app. split; [exact Hf|]. repeat constructor. intros ->. congruence. }
  assert (Hbw : forall f0 f1 f2 f3, four_fields (l ++ [c]) f0 f1 f2 f3 ->
     exists f3', f3 = f3' ++ [c] /\ four_fields l f0 f1 f2 f3').
  { intros f0 f1 f2 f3 [E Hf].
    apply Forall_cons_iff in Hf. destruct Hf as [H0 Hf]. apply Forall_cons_iff in Hf. destruct Hf as [H1 Hf].
    apply Forall_cons_iff in Hf. destruct Hf as [H2 Hf]. apply Forall_inv in Hf.
    replace (f0 ++ c_comma :: f1 ++ c_comma :: f2 ++ c_comma :: f3)
      with ((f0 ++ c_comma :: f1 ++ c_comma :: f2 ++ [c_comma]) ++ f3) in E
      by (rewrite <- !app_assoc; cbn; rewrite <- !app_assoc; cbn; rewrite <- !app_assoc; reflexivity).
    destruct f3 as [|x f3] using rev_ind.
    - exfalso. rewrite app_nil_r in E.
      replace (f0 ++ c_comma :: f1 ++ c_comma :: f2 ++ [c_comma])
        with ((f0 ++ c_comma :: f1 ++ c_comma :: f2) ++ [c_comma]) in E
        by (rewrite <- !app_assoc; cbn; rewrite <- !app_assoc; reflexivity).
      apply app_inj_tail in E. destruct E as [_ ->]. congruence.
    - rewrite app_assoc in E. apply app_inj_tail in E. destruct E as [E ->]. exists f3. split; [reflexivity|].
      split; [rewrite E; rewrite <- !app_assoc; cbn; rewrite <- !app_assoc; cbn; rewrite <- !app_assoc; reflexivity|].
      apply Forall_app in Hf. destruct Hf as [Hf _]. repeat constructor; auto. }
  remember (l ++ [c]) as l' eqn:El. destruct H as [l' Hno|l' f0 f1 f2 f3 z name Hf Hz Hn|l' f0 f1 f2 f3 Hf Hz]; subst l'.
  - constructor. intros f0 f1 f2 f3 Hf. exact (Hno _ _ _ _ (Hfw _ _ _ _ Hf)).
  - destruct (Hbw _ _ _ _ Hf) as (f3'&->&Hf'). econstructor; [exact Hf'|exact Hz|].
    apply padded_trim in Hn. apply padded_trim. rewrite <- Hn.
    destruct (trim_split ws f3') as (p&q&Hp&Hq&Hff&Ht). rewrite Hff at 2. rewrite <- !app_assoc. symmetry.
    apply trim_tight_pad; [exact Hp| |exact Ht]. apply Forall_app. split; [exact Hq|]. repeat constructor. exact Hc.
  - destruct (Hbw _ _ _ _ Hf) as (f3'&->&Hf'). econstructor; [exact Hf'|exact Hz].
Qed.
Lemma strip_cr_says l s : says rust_ws l s -> says rust_ws (strip_cr l) s.
Proof.
  intros H. unfold strip_cr. destruct (rev l) as [|c r] eqn:E; [exact H|].
  destruct (N.eqb_spec c c_cr) as [->|]; [|exact H].
  assert (El : l = rev r ++ [c_cr]) by (rewrite <- (rev_involutive l), E; reflexivity).
  rewrite El in H. apply (ws_cr_step rust_ws c_cr); [reflexivity|reflexivity|exact H].
Qed.
Lemma says_empty ws s : says ws [] s -> s = Nothing.
Proof.
  intros H. remember [] as l eqn:El. destruct H as [l _|l f0 f1 f2 f3 z name Hf _ _|l f0 f1 f2 f3 Hf _]; [reflexivity| |];
    subst l; destruct Hf as [E _]; destruct f0; discriminate.
Qed.

Lemma lines_says t ls ss : ls <> [] -> Forall (free_of c_nl) ls -> t = join c_nl ls ->
  Forall2 (says rust_ws) ls ss ->
  exists ss', Forall2 (says rust_ws) (rust_lines t) ss' /\ (In Bad ss' <-> In Bad ss) /\
    forall n, wire_of n ss' = wire_of n ss.
Proof.
  intros Hne Hf -> H2. unfold rust_lines. rewrite split_join by assumption. clear Hne Hf.
  induction H2 as [|l s ls ss Hs Hss IH].
  - exists []. cbn. split; [constructor|]. split; [reflexivity|reflexivity].
  - destruct ls as [|l' ls].
    + inversion Hss; subst. cbn [drop_last_empty]. destruct l as [|c l].
      * apply says_empty in Hs. subst s. exists []. cbn. split; [constructor|]. split; [|reflexivity].
        split; [intros []|]. intros [H|[]]; discriminate.
      * exists [s]. cbn [map]. split; [constructor; [apply strip_cr_says; exact Hs|constructor]|]. split; reflexivity.
    + destruct IH as (ss'&H1&H2&H3). exists (s :: ss'). change (drop_last_empty (l :: l' :: ls)) with (l :: drop_last_empty (l' :: ls)).
      cbn [map]. split; [constructor; [apply strip_cr_says; exact Hs|exact H1]|]. split.
      * cbn. rewrite H2. reflexivity.
      * intros n. cbn [wire_of]. rewrite H3. reflexivity.
Qed.

Theorem parse_sym_spec t ls ss : ls <> [] -> Forall (free_of c_nl) ls -> t = join c_nl ls ->
  Forall2 (says rust_ws) ls ss ->
  (~ In Bad ss -> exists m, parse_sym_file t = Ok m /\ hm_wf m /\ forall n, hm_get n m = wire_of n ss) /\
  (In Bad ss -> parse_sym_file t = Err SymBadWire).
Proof.
  intros Hne Hf Ht H2. destruct (lines_says t ls ss Hne Hf Ht H2) as (ss'&H1&Hb&Hw).
  destruct (sym_loop_spec _ _ H1 [] ltac:(constructor)) as [HA HB]. unfold parse_sym_file. split.
  - intros Hn. rewrite <- Hb in Hn. destruct (HA Hn) as (m&E&Hwf&Hg). exists m. split; [exact E|]. split; [exact Hwf|].
    intros n. rewrite Hg, Hw. cbn. destruct (wire_of n ss); reflexivity.
  - intros Hi. apply HB. apply Hb. exact Hi.
Qed.

(** ** JavaScript *)
Lemma fold_split_trim_start (f : hmap N -> text -> hmap N) p t m :
  (forall m, f m [] = m) -> (forall m c h, js_ws c = true -> c <> c_nl -> f m (c :: h) = f m h) ->
  all_ws js_ws p -> fold_left f (split_on c_nl (p ++ t)) m = fold_left f (split_on c_nl t) m.
Proof.
  intros H0 H1 Hp. revert m. induction Hp as [|c p Hc Hp IH]; intros m; [reflexivity|].
  cbn [app split_on]. destruct (N.eqb_spec c c_nl) as [->|Hn].
  - cbn [fold_left]. rewrite H0. apply IH.
  - rewrite <- IH. destruct (split_spec c_nl (p ++ t)) as (Hne&_&_).
    destruct (split_on c_nl (p ++ t)) as [|h tl]; [contradiction|]. cbn [fold_left].
    rewrite (H1 m c h Hc Hn). reflexivity.
Qed.
Lemma split_snoc_eq c t : split_on c (t ++ [c]) = split_on c t ++ [[]].
Proof.
  induction t as [|x t IH]; cbn; [rewrite N.eqb_refl; reflexivity|].
  destruct (N.eqb_spec x c); [rewrite IH; reflexivity|]. rewrite IH.
  destruct (split_spec c t) as (Hne&_&_). destruct (split_on c t); [contradiction|]. reflexivity.
Qed.
Lemma split_snoc_neq c x t : x <> c -> exists init l, split_on c t = init ++ [l] /\ split_on c (t ++ [x]) = init ++ [l ++ [x]].
Proof.
  intros Hx. induction t as [|y t (init&l&E1&E2)].
  - exists [], []. cbn. destruct (N.eqb_spec x c); [contradiction|]. auto.
  - cbn [app split_on]. rewrite E1, E2. destruct (N.eqb_spec y c).
    + exists ([] :: init), l. auto.
    + destruct init as [|i init]; cbn.
      * exists [], (y :: l). auto.
      * exists ((y :: i) :: init), l. auto.
Qed.
Lemma fold_split_trim_end (f : hmap N -> text -> hmap N) q t m :
  (forall m, f m [] = m) -> (forall m c h, js_ws c = true -> c <> c_nl -> f m (h ++ [c]) = f m h) ->
  all_ws js_ws q -> fold_left f (split_on c_nl (t ++ q)) m = fold_left f (split_on c_nl t) m.
Proof.
  intros H0 H1 Hq. revert t. induction Hq as [|c q Hc Hq IH]; intros t; [rewrite app_nil_r; reflexivity|].
  replace (t ++ c :: q) with ((t ++ [c]) ++ q) by (rewrite <- app_assoc; reflexivity). rewrite IH.
  destruct (N.eq_dec c c_nl) as [->|Hn].
  - rewrite split_snoc_eq, fold_left_app. cbn [fold_left]. apply H0.
  - destruct (split_snoc_neq c_nl c t Hn) as (init&l&E1&E2). rewrite E1, E2, !fold_left_app. cbn [fold_left].
    apply H1; assumption.
Qed.

Lemma js_step_front m c h : js_ws c = true -> js_sym_step m (c :: h) = js_sym_step m h.
Proof.
  intros Hc. unfold js_sym_step. cbn [split_on].
  destruct (N.eqb_spec c c_comma) as [->|_]; [discriminate Hc|].
  destruct (split_spec c_comma h) as (Hne&_&_).
  destruct (split_on c_comma h) as [|f0 [|f1 [|f2 [|f3 [|f4 rest]]]]]; reflexivity.
Qed.
Lemma trim_snoc ws f c : ws c = true -> trim ws (f ++ [c]) = trim ws f.
Proof.
  intros Hc. destruct (trim_split ws f) as (p&q&Hp&Hq&Hf&Ht). rewrite Hf at 1. rewrite <- !app_assoc.
  apply trim_tight_pad; [exact Hp| |exact Ht]. apply Forall_app. split; [exact Hq|]. repeat constructor. exact Hc.
Qed.
Lemma js_step_back m c h : js_ws c = true -> js_sym_step m (h ++ [c]) = js_sym_step m h.
Proof.
  intros Hc. assert (Hn : c <> c_comma) by (intros ->; discriminate).
  unfold js_sym_step. destruct (split_snoc_neq c_comma c h Hn) as (init&l&E1&E2). rewrite E1, E2.
  destruct init as [|f0 [|f1 [|f2 [|f3 [|f4 rest]]]]]; try reflexivity. cbn [app].
  destruct (js_parse_int f1); [|reflexivity]. rewrite trim_snoc by exact Hc. reflexivity.
Qed.

Lemma js_parse_sym_lines t : js_parse_sym_file t = fold_left js_sym_step (split_on c_nl t) [].
Proof.
  unfold js_parse_sym_file. destruct (trim_split js_ws t) as (p&q&Hp&Hq&Ht&_). rewrite Ht at 2.
  rewrite fold_split_trim_start; [|reflexivity|intros; apply js_step_front; assumption|exact Hp].
  rewrite fold_split_trim_end; [reflexivity|reflexivity|intros; apply js_step_back; assumption|exact Hq].
Qed.

(** Characters on which the two notions of white space agree. *)
Definition plain_char (c : N) : Prop := c <> 133 /\ c <> 65279.
Lemma plain_ws c : plain_char c -> js_ws c = rust_ws c.
Proof.
  intros [H1 H2]. unfold js_ws, rust_ws. apply N.eqb_neq in H1, H2. rewrite H1, H2, !orb_false_r. reflexivity.
Qed.
Lemma plain_trim_start t : Forall plain_char t -> trim_start js_ws t = trim_start rust_ws t.
Proof. induction 1 as [|c t Hc Ht IH]; cbn; [reflexivity|]. rewrite (plain_ws c Hc), IH. reflexivity. Qed.
Lemma Forall_rev' {A} (P : A -> Prop) l : Forall P l -> Forall P (rev l).
Proof. rewrite !Forall_forall. intros H x Hx. apply H. apply in_rev. exact Hx. Qed.
Lemma plain_trim t : Forall plain_char t -> trim js_ws t = trim rust_ws t.
Proof.
  intros H. unfold trim, trim_end. rewrite (plain_trim_start t H). f_equal. apply plain_trim_start.
  destruct (trim_start_split rust_ws t) as (p&_&Ht&_). rewrite Ht in H. apply Forall_app in H. apply Forall_rev', H.
Qed.

Lemma take_digits_app ds q : Forall (fun c => 48 <= c <= 57) ds ->
  (forall c r, q = c :: r -> is_digit c = false) -> take_digits (ds ++ q) = ds.
Proof.
  intros Hd Hq. induction Hd as [|c ds Hc Hd IH]; cbn.
  - destruct q as [|c r]; [reflexivity|]. cbn. rewrite (Hq c r eq_refl). reflexivity.
  - apply is_digit_range in Hc. rewrite Hc, IH. reflexivity.
Qed.
Lemma ws_not_digit c : js_ws c = true -> is_digit c = false.
Proof.
  intros H. destruct (is_digit c) eqn:E; [|reflexivity]. exfalso. apply is_digit_range in E.
  assert (Hx : forall P : N -> bool, (forall c, 48 <= c <= 57 -> P c = false) -> P c = true -> False).
  { intros P HP. rewrite (HP c E). discriminate. }
  revert H. apply Hx. clear. intros c Hc. unfold js_ws.
  repeat match goal with
  | |- context [?a <=? ?b] => destruct (N.leb_spec a b); try lia
  | |- context [?a =? ?b] => destruct (N.eqb_spec a b); try lia
  end; reflexivity.
Qed.
Lemma js_wire_field f z : wire_field js_ws f z -> js_parse_int f = Some z.
Proof.
  intros ((t&(p&q&->&Hp&Hq&Ht)&Hs)&_). unfold js_parse_int. rewrite trim_start_pad by exact Hp.
  destruct Hs as (ds&Hne&Hd&Hs).
  assert (Hqd : forall c r, q = c :: r -> is_digit c = false).
  { intros c r ->. apply ws_not_digit. apply Forall_inv in Hq. exact Hq. }
  assert (Htd : take_digits (ds ++ q) = ds) by (apply take_digits_app; assumption).
  assert (Htne : t <> []) by (destruct Hs as [[-> _]|[[-> _]|[-> _]]]; [exact Hne|discriminate|discriminate]).
  rewrite trim_start_tight.
  2:{ intros c r E. destruct Ht as [Ht _]. destruct t as [|c' t]; [contradiction|]. cbn in E. injection E as -> _.
      apply (Ht c t eq_refl). }
  destruct ds as [|d ds]; [contradiction|].
  destruct Hs as [[-> ->]|[[-> ->]|[-> ->]]]; cbn [app].
  - pose proof (Forall_inv Hd) as Hc. apply digit_not_sign in Hc. destruct Hc as [-> ->].
    cbn [app] in Htd. rewrite Htd. reflexivity.
  - replace (c_plus =? c_minus) with false by reflexivity. rewrite N.eqb_refl. cbn [app] in Htd. rewrite Htd. reflexivity.
  - rewrite N.eqb_refl. cbn [app] in Htd. rewrite Htd. reflexivity.
Qed.

Lemma plain_free_field l f0 f1 f2 f3 : Forall plain_char l -> four_fields l f0 f1 f2 f3 ->
  Forall plain_char f1 /\ Forall plain_char f3.
Proof.
  intros H [-> _]. apply Forall_app in H. destruct H as [_ H]. apply Forall_cons_iff in H. destruct H as [_ H].
  apply Forall_app in H. destruct H as [H1 H]. apply Forall_cons_iff in H. destruct H as [_ H].
  apply Forall_app in H. destruct H as [_ H]. apply Forall_cons_iff in H. destruct H as [_ H]. auto.
Qed.
Lemma js_says_step l s m : Forall plain_char l -> says rust_ws l s -> s <> Bad ->
  js_sym_step m l = match s with
                    | Record z name => if (z <? 0)%Z then m else hm_insert name (Z.to_N z) m
                    | _ => m
                    end.
Proof.
  intros Hpl H Hb. unfold js_sym_step. destruct H as [l Hno|l f0 f1 f2 f3 z name Hf Hz Hn|l f0 f1 f2 f3 Hf Hz].
  - destruct (split_on c_comma l) as [|g0 [|g1 [|g2 [|g3 [|g4 rest]]]]] eqn:E; try reflexivity.
    exfalso. apply four_fields_spec in E. exact (Hno _ _ _ _ E).
  - destruct (plain_free_field _ _ _ _ _ Hpl Hf) as [Hp1 Hp3].
    apply four_fields_spec in Hf. rewrite Hf.
    assert (Hz' : wire_field js_ws f1 z).
    { apply wire_field_spec. rewrite plain_trim by exact Hp1. apply wire_field_spec. exact Hz. }
    rewrite (js_wire_field _ _ Hz'). rewrite plain_trim by exact Hp3. apply padded_trim in Hn. rewrite Hn.
    destruct (Z.leb_spec 0 z), (Z.ltb_spec z 0); try lia; reflexivity.
  - congruence.
Qed.

Theorem js_parse_sym_spec t ls ss : ls <> [] -> Forall (free_of c_nl) ls -> t = join c_nl ls ->
  Forall plain_char t -> Forall2 (says rust_ws) ls ss -> ~ In Bad ss ->
  hm_wf (js_parse_sym_file t) /\ forall n, hm_get n (js_parse_sym_file t) = wire_of n ss.
Proof.
  intros Hne Hf Ht Hp H2 Hb. rewrite js_parse_sym_lines, Ht, split_join by assumption.
  assert (Hpl : Forall (Forall plain_char) ls).
  { rewrite Ht in Hp. clear - Hp. induction ls as [|l ls IH]; [constructor|].
    destruct ls as [|l' ls]; [repeat constructor; exact Hp|]. cbn [join] in Hp. apply Forall_app in Hp.
    destruct Hp as [H1 H2]. apply Forall_cons_iff in H2. destruct H2 as [_ H2]. constructor; auto. }
  clear Ht Hp Hne Hf t.
  assert (G : forall m, hm_wf m -> hm_wf (fold_left js_sym_step ls m) /\
    forall n, hm_get n (fold_left js_sym_step ls m) = match wire_of n ss with Some w => Some w | None => hm_get n m end).
  { induction H2 as [|l s ls ss Hs Hss IH]; intros m Hm; [split; [exact Hm|reflexivity]|].
    apply Forall_cons_iff in Hpl. destruct Hpl as [Hl Hpl]. cbn [fold_left].
    assert (Hsb : s <> Bad) by (intros ->; apply Hb; left; reflexivity).
    assert (Hb' : ~ In Bad ss) by (intros Hi; apply Hb; right; exact Hi).
    rewrite (js_says_step l s m Hl Hs Hsb). specialize (IH Hb' Hpl). destruct s as [|z name|]; [| |congruence].
    - destruct (IH m Hm) as [I1 I2]. split; [exact I1|]. intros n. rewrite I2. cbn [wire_of]. destruct (wire_of n ss); reflexivity.
    - destruct (Z.ltb_spec z 0) as [Hz|Hz].
      + destruct (IH m Hm) as [I1 I2]. split; [exact I1|]. intros n. rewrite I2. cbn [wire_of].
        destruct (wire_of n ss); [reflexivity|]. destruct (Z.leb_spec 0 z); [lia|]. rewrite andb_false_r. reflexivity.
      + destruct (IH (hm_insert name (Z.to_N z) m) (hm_insert_wf _ _ _ Hm)) as [I1 I2]. split; [exact I1|].
        intros n. rewrite I2. cbn [wire_of]. destruct (wire_of n ss); [reflexivity|]. rewrite hm_get_insert.
        destruct (Z.leb_spec 0 z); [|lia]. rewrite andb_true_r. destruct (text_eqb n name); reflexivity. }
  destruct (G [] ltac:(constructor)) as [G1 G2]. split; [exact G1|]. intros n. rewrite G2. cbn. destruct (wire_of n ss); reflexivity.
Qed.

(** ** get_input_signals *)
Lemma strip_prefix_spec p t s : strip_prefix p t = Some s <-> t = p ++ s.
Proof.
  revert t; induction p as [|a p IH]; intros t; cbn.
  - split; [intros H; injection H as ->; reflexivity|intros ->; reflexivity].
  - destruct t as [|b t]; [split; discriminate|]. destruct (N.eqb_spec a b) as [->|Hn].
    + rewrite IH. split; [intros ->; reflexivity|intros H; injection H as ->; reflexivity].
    + split; [discriminate|]. intros H. injection H as -> _. contradiction.
Qed.

Lemma input_signals_spec entries mx : NoDup (map fst entries) ->
  hm_wf (get_input_signals entries mx) /\
  forall k w, hm_get k (get_input_signals entries mx) = Some w <->
    In (main_dot ++ k, w) entries /\ (forall m, mx = Some m -> w <= m).
Proof.
  unfold get_input_signals. induction entries as [|[name wire] es IH] using rev_ind; intros Hd.
  - cbn. split; [constructor|]. intros k w. split; [discriminate|intros [[] _]].
  - rewrite map_app in Hd. cbn [map] in Hd.
    assert (Hd' : NoDup (map fst es) /\ ~ In name (map fst es)).
    { apply NoDup_remove in Hd. rewrite app_nil_r in Hd. exact Hd. }
    destruct Hd' as [Hd1 Hd2]. destruct (IH Hd1) as [I1 I2]. rewrite fold_left_app. cbn [fold_left].
    clear IH Hd. match goal with |- context [fold_left ?f es []] => set (acc := fold_left f es []) in * end. clearbody acc.
    assert (Hin : forall k w, In (main_dot ++ k, w) (es ++ [(name, wire)]) <->
       In (main_dot ++ k, w) es \/ (main_dot ++ k = name /\ w = wire)).
    { intros k w. rewrite in_app_iff. cbn [In]. split.
      - intros [H|[H|[]]]; [left; exact H|right]. split; congruence.
      - intros [H|[-> ->]]; [left; exact H|right; left; reflexivity]. }
    destruct (match mx with Some m => m <? wire | None => false end) eqn:Em.
    + split; [exact I1|]. intros k w. rewrite I2, Hin. split; intros [H1 H2]; split; auto.
      destruct H1 as [H1|[H1 ->]]; [exact H1|]. exfalso. destruct mx as [m|]; [|discriminate].
      specialize (H2 m eq_refl). apply N.ltb_lt in Em. lia.
    + assert (Hle : forall m, mx = Some m -> wire <= m).
      { intros m ->. apply N.ltb_ge in Em. exact Em. }
      destruct (strip_prefix main_dot name) as [s|] eqn:Es.
      * apply strip_prefix_spec in Es. subst name. split; [apply hm_insert_wf; exact I1|]. intros k w.
        rewrite hm_get_insert, Hin. destruct (text_eqb k s) eqn:Ek.
        -- apply text_eqb_eq in Ek. subst k. split.
           ++ intros H. injection H as <-. split; [right; auto|exact Hle].
           ++ intros [[H|[_ ->]] _]; [|reflexivity]. exfalso. apply Hd2. apply in_map_iff.
              exists (main_dot ++ s, w). auto.
        -- apply text_eqb_neq in Ek. rewrite I2. split.
           ++ intros [H1 H2]. auto.
           ++ intros [[H|[H _]] H2]; [auto|]. apply app_inv_head in H. contradiction.
      * split; [exact I1|]. intros k w. rewrite I2, Hin. split; intros [H1 H2]; split; auto.
        destruct H1 as [H1|[H1 _]]; [exact H1|]. symmetry in H1. apply strip_prefix_spec in H1. congruence.
Qed.
