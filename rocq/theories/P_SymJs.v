(** Property theorems C27, continued: the JavaScript parser of .sym files on every text.  Vocabulary:
    SpecSym.v, SpecSymJs.v. *)
From Coq Require Import List Bool Arith NArith ZArith Lia Permutation.
From Coq Require Import Strings.String.
From Verif Require Import Res Text Sym SpecSym SymFacts P_Sym SpecSymJs.
Import ListNotations.
Local Open Scope N_scope.

Lemma take_digits_spec t : exists rest, t = take_digits t ++ rest /\ Forall (fun c => 48 <= c <= 57) (take_digits t) /\
  forall c r, rest = c :: r -> is_digit c = false.
Proof.
  induction t as [|c t (rest&H1&H2&H3)]; cbn [take_digits].
  - exists []. repeat split; [constructor|discriminate].
  - destruct (is_digit c) eqn:E.
    + exists rest. cbn [app]. rewrite <- H1. repeat split; [constructor; [apply is_digit_range; exact E|exact H2]|exact H3].
    + exists (c :: t). repeat split; [constructor|]. intros c' r [= <- <-]. exact E.
Qed.
Lemma not_digit c : is_digit c = false <-> ~ 48 <= c <= 57.
Proof. rewrite <- is_digit_range. destruct (is_digit c); split; congruence. Qed.
Lemma sign_not_ws c : c = c_plus \/ c = c_minus -> js_ws c = false.
Proof. intros [->| ->]; reflexivity. Qed.
Lemma digit_not_js_ws c : 48 <= c <= 57 -> js_ws c = false.
Proof. intros H. destruct (js_ws c) eqn:E; [|reflexivity]. apply ws_not_digit in E. apply is_digit_range in H. congruence. Qed.

Lemma leading_spec f z : leading_numeral f z <-> js_parse_int f = Some z.
Proof.
  split.
  - intros (p&sign&ds&rest&->&Hp&Hne&Hd&Hr&Hs). unfold js_parse_int. rewrite trim_start_pad by exact Hp.
    assert (Ht : take_digits (ds ++ rest) = ds). { apply take_digits_app; [exact Hd|]. intros c r E. apply not_digit. eapply Hr; exact E. }
    destruct ds as [|d ds]; [contradiction|]. pose proof (Forall_inv Hd) as Hc. cbn beta in Hc.
    destruct Hs as [[-> ->]|[[-> ->]|[-> ->]]]; cbn [app].
    + rewrite trim_start_tight by (intros c r [= <- <-]; apply digit_not_js_ws; exact Hc).
      apply digit_not_sign in Hc as [-> ->]. cbn [app] in Ht. rewrite Ht. reflexivity.
    + rewrite trim_start_tight by (intros c r [= <- <-]; reflexivity).
      replace (c_plus =? c_minus) with false by reflexivity. rewrite N.eqb_refl. cbn [app] in Ht. rewrite Ht. reflexivity.
    + rewrite trim_start_tight by (intros c r [= <- <-]; reflexivity).
      rewrite N.eqb_refl. cbn [app] in Ht. rewrite Ht. reflexivity.
  - unfold js_parse_int. intros H. destruct (trim_start_split js_ws f) as (p&Hp&Hf&_).
    destruct (trim_start js_ws f) as [|c r] eqn:E; [discriminate H|].
    assert (G : forall sign t, f = p ++ sign ++ t ->
      match take_digits t with [] => None | ds => Some (if (match sign with [c] => c =? c_minus | _ => false end) : bool then (- Z.of_N (digits_value ds))%Z else Z.of_N (digits_value ds)) end = Some z ->
      sign = [] \/ sign = [c_plus] \/ sign = [c_minus] -> leading_numeral f z).
    { intros sign t Ef Hz Hs. destruct (take_digits_spec t) as (rest&H1&H2&H3).
      destruct (take_digits t) as [|d ds] eqn:Ed; [discriminate Hz|].
      exists p, sign, (d :: ds), rest. rewrite <- H1. split; [exact Ef|]. split; [exact Hp|]. split; [discriminate|]. split; [exact H2|].
      split; [intros c' r' X; apply not_digit; eapply H3; exact X|].
      destruct Hs as [->|[->| ->]]; cbn in Hz; injection Hz as <-; auto. }
    destruct (N.eqb_spec c c_minus) as [->|Hm].
    + apply (G [c_minus] r); [exact Hf| |auto]. rewrite N.eqb_refl. exact H.
    + destruct (N.eqb_spec c c_plus) as [->|Hpl].
      * apply (G [c_plus] r); [exact Hf| |auto]. replace (c_plus =? c_minus) with false by reflexivity. exact H.
      * apply (G [] (c :: r)); [exact Hf|exact H|auto].
Qed.

Lemma js_says_total l : exists s, js_says l s.
Proof.
  destruct (split_on c_comma l) as [|g0 [|g1 [|g2 [|g3 [|g4 rest]]]]] eqn:E;
    try (exists Nothing; apply js_says_no_fields; intros f0 f1 f2 f3 H; apply four_fields_spec in H; congruence).
  apply four_fields_spec in E. destruct (js_parse_int g1) as [z|] eqn:Ez.
  - exists (Record z (trim js_ws g3)). eapply js_says_record; [exact E|apply leading_spec; exact Ez|apply padded_trim; reflexivity].
  - exists Nothing. eapply js_says_no_numeral; [exact E|]. intros z Hz. apply leading_spec in Hz. congruence.
Qed.
Lemma js_step l s m : js_says l s ->
  js_sym_step m l = match s with Record z name => if (0 <=? z)%Z then hm_insert name (Z.to_N z) m else m | _ => m end.
Proof.
  intros H. unfold js_sym_step. destruct H as [l H|l f0 f1 f2 f3 H Hz|l f0 f1 f2 f3 z name H Hz Hn].
  - destruct (split_on c_comma l) as [|g0 [|g1 [|g2 [|g3 [|g4 rest]]]]] eqn:E; try reflexivity.
    exfalso. apply four_fields_spec in E. exact (H _ _ _ _ E).
  - apply four_fields_spec in H. rewrite H. destruct (js_parse_int f1) as [z|] eqn:E; [|reflexivity].
    apply leading_spec in E. destruct (Hz _ E).
  - apply four_fields_spec in H. rewrite H. apply leading_spec in Hz. rewrite Hz. apply padded_trim in Hn. rewrite Hn. reflexivity.
Qed.

(** JavaScript, on any text: the map takes each name to the wire of the last line that names it, lines
    being read by SpecSymJs.v; nothing is an error. *)
Theorem C27_js_symbol_file :
  forall (ls : list text) (ss : list said),
    ls <> [] -> Forall (free_of c_nl) ls -> Forall2 js_says ls ss ->
    forall name, hm_get name (js_parse_sym_file (join c_nl ls)) = wire_of name ss.
Proof.
  intros ls ss Hne Hf H2 name. rewrite js_parse_sym_lines, split_join by assumption. clear Hne Hf.
  assert (G : forall m, hm_get name (fold_left js_sym_step ls m) = match wire_of name ss with Some w => Some w | None => hm_get name m end).
  { induction H2 as [|l s ls ss Hs Hss IH]; intros m; [reflexivity|]. cbn [fold_left wire_of]. rewrite IH, (js_step l s m Hs).
    destruct (wire_of name ss); [reflexivity|]. destruct s as [|z n|]; [reflexivity| |reflexivity].
    destruct (Z.leb_spec 0 z); [|rewrite andb_false_r; reflexivity]. rewrite hm_get_insert, andb_true_r. destruct (text_eqb name n); reflexivity. }
  rewrite G. destruct (wire_of name ss); reflexivity.
Qed.
Print Assumptions C27_js_symbol_file.

(** Every text can be seen that way, and in one way only. *)
Theorem C27_js_covers_every_text :
  forall t : text,
    (exists ls ss, ls <> [] /\ Forall (free_of c_nl) ls /\ join c_nl ls = t /\ Forall2 js_says ls ss) /\
    forall s s', js_says t s -> js_says t s' -> s = s'.
Proof.
  intros t. split.
  - destruct (split_spec c_nl t) as (H1&H2&H3). exists (split_on c_nl t).
    assert (Hs : exists ss, Forall2 js_says (split_on c_nl t) ss).
    { clear. induction (split_on c_nl t) as [|l ls (ss&IH)]; [exists []; constructor|].
      destruct (js_says_total l) as (s&Hs). exists (s :: ss). constructor; assumption. }
    destruct Hs as (ss&Hs). exists ss. auto.
  - intros s s' H H'. destruct H as [l H|l f0 f1 f2 f3 H Hz|l f0 f1 f2 f3 z name H Hz Hn];
      destruct H' as [l H'|l g0 g1 g2 g3 H' Hz'|l g0 g1 g2 g3 z' name' H' Hz' Hn']; try reflexivity.
    + destruct (H _ _ _ _ H').
    + apply four_fields_spec in H. apply four_fields_spec in H'. rewrite H in H'. injection H' as <- <- <- <-. destruct (Hz _ Hz').
    + destruct (H' _ _ _ _ H).
    + apply four_fields_spec in H. apply four_fields_spec in H'. rewrite H in H'. injection H' as <- <- <- <-. destruct (Hz' _ Hz).
    + apply four_fields_spec in H. apply four_fields_spec in H'. rewrite H in H'. injection H' as <- <- <- <-.
      apply leading_spec in Hz. apply leading_spec in Hz'. apply padded_trim in Hn. apply padded_trim in Hn'. congruence.
Qed.
Print Assumptions C27_js_covers_every_text.

(** Where the tools differ: a file with a line whose wire field begins with a non-negative integer but
    is not a 32-bit integer is refused by the CLI, while JavaScript gives the name a wire. *)
Theorem C27_tools_differ :
  forall (ls : list text) l f0 f1 f2 f3 z name,
    Forall (free_of c_nl) ls -> In l ls -> four_fields l f0 f1 f2 f3 -> padded js_ws name f3 ->
    leading_numeral f1 z -> (0 <= z)%Z -> (forall z', ~ wire_field rust_ws f1 z') ->
    parse_sym_file (join c_nl ls) = Err SymBadWire /\
    exists w, hm_get name (js_parse_sym_file (join c_nl ls)) = Some w.
Proof.
  intros ls l f0 f1 f2 f3 z name Hf Hin Hl Hn Hz H0 Hbad. assert (Hne : ls <> []) by (intros ->; destruct Hin). split.
  - assert (Hs : exists ss, Forall2 (says rust_ws) ls ss /\ In Bad ss).
    { clear - Hin Hl Hbad. induction ls as [|x ls IH]; [destruct Hin|]. destruct Hin as [->|Hin].
      - assert (Hs : exists ss, Forall2 (says rust_ws) ls ss).
        { clear. induction ls as [|y ls (ss&IH)]; [exists []; constructor|]. destruct (says_total rust_ws y) as (s&Hs). exists (s :: ss). constructor; assumption. }
        destruct Hs as (ss&Hs). exists (Bad :: ss). split; [constructor; [eapply says_bad; eassumption|exact Hs]|left; reflexivity].
      - destruct (IH Hin) as (ss&H1&H2). destruct (says_total rust_ws x) as (s&Hs). exists (s :: ss). split; [constructor; assumption|right; exact H2]. }
    destruct Hs as (ss&H1&H2). exact (proj2 (C27_symbol_file ls ss Hne Hf H1) H2).
  - assert (Hs : exists ss, Forall2 js_says ls ss /\ In (Record z name) ss).
    { clear - Hin Hl Hn Hz. induction ls as [|x ls IH]; [destruct Hin|]. destruct Hin as [->|Hin].
      - assert (Hs : exists ss, Forall2 js_says ls ss).
        { clear. induction ls as [|y ls (ss&IH)]; [exists []; constructor|]. destruct (js_says_total y) as (s&Hs). exists (s :: ss). constructor; assumption. }
        destruct Hs as (ss&Hs). exists (Record z name :: ss). split; [constructor; [eapply js_says_record; eassumption|exact Hs]|left; reflexivity].
      - destruct (IH Hin) as (ss&H1&H2). destruct (js_says_total x) as (s&Hs). exists (s :: ss). split; [constructor; assumption|right; exact H2]. }
    destruct Hs as (ss&H1&H2). rewrite (C27_js_symbol_file ls ss Hne Hf H1).
    clear - H2 H0. induction ss as [|s ss IH]; [destruct H2|]. cbn [wire_of]. destruct (wire_of name ss) as [w|] eqn:E; [eauto|].
    destruct H2 as [->|H2]; [|destruct (IH H2); discriminate]. rewrite text_eqb_refl. destruct (Z.leb_spec 0 z); [|lia]. cbn. eauto.
Qed.
Print Assumptions C27_tools_differ.

(** "1,5x,3,main.a" and "1,4294967295,3,main.a". *)
Example C27_js_nonvacuous :
  js_says (lit "1, 5x,3,main.a ") (Record 5 (lit "main.a")) /\ js_says (lit "1,-1,3,main.b") (Record (-1) (lit "main.b")) /\
  js_says (lit "junk") Nothing /\ js_says (lit "1,x5,3,main.a") Nothing /\
  (forall z', ~ wire_field rust_ws (lit " 5x") z') /\ (forall z', ~ wire_field rust_ws (lit "4294967295") z') /\
  leading_numeral (lit " 5x") 5 /\ leading_numeral (lit "4294967295") 4294967295.
Proof.
  assert (Hf : forall l f0 f1 f2 f3, split_on c_comma l = [f0; f1; f2; f3] -> four_fields l f0 f1 f2 f3) by (intros; apply four_fields_spec; assumption).
  split; [|split; [|split; [|split; [|split; [|split; [|split]]]]]].
  - eapply js_says_record; [apply Hf; reflexivity|apply leading_spec; reflexivity|apply padded_trim; reflexivity].
  - eapply js_says_record; [apply Hf; reflexivity|apply leading_spec; reflexivity|apply padded_trim; reflexivity].
  - apply js_says_no_fields. intros f0 f1 f2 f3 H. apply four_fields_spec in H. discriminate H.
  - eapply js_says_no_numeral; [apply Hf; reflexivity|]. intros z H. apply leading_spec in H. discriminate H.
  - intros z H. apply wire_field_spec in H. discriminate H.
  - intros z H. apply wire_field_spec in H. discriminate H.
  - apply leading_spec. reflexivity.
  - apply leading_spec. reflexivity.
Qed.
