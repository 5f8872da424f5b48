(** The reader of JsonText.v accepts exactly the texts of SpecJson.v. *)
From Coq Require Import List Bool Arith NArith ZArith Lia.
From Coq Require Import Strings.String.
From Verif Require Import Res Text Inputs JsonText SpecJson.
Import ListNotations.
Local Open Scope N_scope.

Lemma j_ws_iff c : j_ws c = true <-> c = 32 \/ c = 9 \/ c = 10 \/ c = 13.
Proof. unfold j_ws. rewrite !orb_true_iff, !N.eqb_eq. tauto. Qed.
Lemma blanks_app a b : blanks (a ++ b) <-> blanks a /\ blanks b.
Proof. apply Forall_app. Qed.
Lemma skip_blanks w t : blanks w -> skip_ws (w ++ t) = skip_ws t.
Proof. induction 1 as [|c w H _ IH]; [reflexivity|]. cbn [app trim_start]. apply j_ws_iff in H. rewrite H. exact IH. Qed.
Lemma skip_split t : exists w, blanks w /\ t = w ++ skip_ws t.
Proof.
  induction t as [|c t (w&Hw&Ht)]; [exists []; split; [constructor|reflexivity]|]. cbn [trim_start]. destruct (j_ws c) eqn:E.
  - exists (c :: w). split; [constructor; [apply j_ws_iff; exact E|exact Hw]|]. cbn [app]. congruence.
  - exists []. split; [constructor|reflexivity].
Qed.
Definition starts_tight (t : text) : Prop := match t with [] => True | c :: _ => j_ws c = false end.
Lemma skip_tight t : starts_tight t -> skip_ws t = t.
Proof. destruct t as [|c t]; intros H; [reflexivity|]. cbn in *. rewrite H. reflexivity. Qed.
Lemma skip_starts t : starts_tight (skip_ws t).
Proof. induction t as [|c t IH]; [exact I|]. cbn [trim_start]. destruct (j_ws c) eqn:E; [exact IH|exact E]. Qed.
Lemma skip_le t : (List.length (skip_ws t) <= List.length t)%nat.
Proof. destruct (skip_split t) as (w&_&H). rewrite H at 2. rewrite app_length. lia. Qed.

(** ** Strings *)
Lemma hex_val_iff c n : hex_val c = Some n <-> hex_digit_is c n.
Proof.
  unfold hex_val. split.
  - destruct (is_digit c) eqn:E; [apply is_digit_range in E; intros H; injection H as <-; constructor; lia|].
    destruct ((97 <=? c) && (c <=? 102)) eqn:E1; [|destruct ((65 <=? c) && (c <=? 70)) eqn:E2; [|discriminate]].
    + apply andb_prop in E1 as [H1 H2]. apply N.leb_le in H1, H2. intros H. injection H as <-.
      replace (c - 87) with (c - 97 + 10) by lia. apply hd_lower. lia.
    + apply andb_prop in E2 as [H1 H2]. apply N.leb_le in H1, H2. intros H. injection H as <-.
      replace (c - 55) with (c - 65 + 10) by lia. apply hd_upper. lia.
  - intros H. inversion H as [c' Hc|c' Hc|c' Hc]; subst.
    + apply is_digit_range in Hc. rewrite Hc. reflexivity.
    + assert (E : is_digit c = false) by (destruct (is_digit c) eqn:E; [apply is_digit_range in E; lia|reflexivity]). rewrite E.
      assert (E1 : (97 <=? c) && (c <=? 102) = true) by (apply andb_true_intro; split; apply N.leb_le; lia). rewrite E1. f_equal. lia.
    + assert (E : is_digit c = false) by (destruct (is_digit c) eqn:E; [apply is_digit_range in E; lia|reflexivity]). rewrite E.
      assert (E1 : (97 <=? c) = false) by (apply N.leb_gt; lia). rewrite E1. cbn [andb].
      assert (E2 : (65 <=? c) && (c <=? 70) = true) by (apply andb_true_intro; split; apply N.leb_le; lia). rewrite E2. f_equal. lia.
Qed.
Lemma hex4_iff a b c d n : hex4 a b c d = Some n <-> hex4_is [a; b; c; d] n.
Proof.
  unfold hex4, hex4_is. split.
  - destruct (hex_val a) as [a'|] eqn:Ea; [|discriminate]. destruct (hex_val b) as [b'|] eqn:Eb; [|discriminate].
    destruct (hex_val c) as [c'|] eqn:Ec; [|discriminate]. destruct (hex_val d) as [d'|] eqn:Ed; [|discriminate].
    intros H. injection H as <-. exists a, b, c, d, a', b', c', d'. rewrite <- !hex_val_iff. repeat (split; [first [reflexivity|assumption]|]). lia.
  - intros (x&y&z&u&a'&b'&c'&d'&E&H1&H2&H3&H4&->). injection E as <- <- <- <-. apply hex_val_iff in H1, H2, H3, H4.
    rewrite H1, H2, H3, H4. f_equal. lia.
Qed.
Lemma hex4_is_inv h n : hex4_is h n -> exists a b c d, h = [a; b; c; d] /\ hex4 a b c d = Some n.
Proof. intros H. pose proof H as (a&b&c&d&_&_&_&_&->&_). exists a, b, c, d. split; [reflexivity|]. apply hex4_iff. exact H. Qed.
Lemma is_high_iff n : is_high n = true <-> high n.
Proof. unfold is_high, high. rewrite andb_true_iff, !N.leb_le. tauto. Qed.
Lemma is_low_iff n : is_low n = true <-> low n.
Proof. unfold is_low, low. rewrite andb_true_iff, !N.leb_le. tauto. Qed.
Lemma is_high_false n : is_high n = false <-> ~ high n.
Proof. rewrite <- is_high_iff. destruct (is_high n); split; congruence. Qed.
Lemma is_low_false n : is_low n = false <-> ~ low n.
Proof. rewrite <- is_low_iff. destruct (is_low n); split; congruence. Qed.
Lemma short_escape_iff e c : short_escape e = Some c <-> In (e, c) escapes.
Proof.
  unfold short_escape, escapes, c_quote, c_back. split.
  - repeat match goal with |- context [?x =? ?y] => destruct (N.eqb_spec x y) as [->|] end; intros H; try discriminate; injection H as <-; cbn [In]; tauto.
  - cbn [In]. intros H. repeat (destruct H as [H|H]; [injection H as <- <-; reflexivity|]). contradiction.
Qed.
Lemma push_some c x t r : push c x = Some (t, r) <-> exists t', x = Some (t', r) /\ t = c :: t'.
Proof.
  unfold push. destruct x as [[t' r']|]; split.
  - intros H. injection H as <- <-. eauto.
  - intros (y&H&->). injection H as -> ->. reflexivity.
  - discriminate.
  - intros (y&H&_). discriminate.
Qed.

Section Strings.
  Context (lone : bool).
  Notation body := (string_body lone).
  Lemma read_string_sound : forall m t s r, read_string_body lone t = Some (s, r) -> (List.length t <= m)%nat ->
    exists b, t = b ++ [34] ++ r /\ body b s.
  Proof.
    induction m as [|m IH]; intros t s r H Hm.
    - destruct t; [discriminate|cbn in Hm; lia].
    - destruct t as [|c t]; [discriminate|]. cbn [List.length] in Hm. cbn [read_string_body] in H. unfold c_quote, c_back in H.
      destruct (N.eqb_spec c 34) as [->|H34]; [injection H as <- <-; exists []; split; [reflexivity|constructor]|].
      destruct (N.eqb_spec c 92) as [->|H92].
      2:{ destruct (N.ltb_spec c 32) as [|H32]; [discriminate|]. apply push_some in H as (s'&H&->).
          destruct (IH _ _ _ H ltac:(lia)) as (b&->&Hb). exists (c :: b). split; [reflexivity|]. apply sb_plain; assumption. }
      destruct t as [|e t]; [discriminate|]. cbn [List.length] in Hm.
      destruct (N.eqb_spec e 117) as [->|Hu].
      2:{ destruct (short_escape e) as [x|] eqn:Ee; [|discriminate]. apply push_some in H as (s'&H&->).
          destruct (IH _ _ _ H ltac:(lia)) as (b&->&Hb). exists ([92; e] ++ b). split; [reflexivity|]. apply sb_short; [apply short_escape_iff; exact Ee|exact Hb]. }
      destruct t as [|h1 [|h2 [|h3 [|h4 t]]]]; try discriminate. cbn [List.length] in Hm.
      destruct (hex4 h1 h2 h3 h4) as [n|] eqn:Eh; [|discriminate]. apply hex4_iff in Eh.
      assert (Hlone : (high n \/ low n) -> (high n -> forall h' k s', t = [92; 117] ++ h' ++ s' -> hex4_is h' k -> ~ low k) ->
        (if lone then push n (read_string_body lone t) else None) = Some (s, r) ->
        exists b, 92 :: 117 :: h1 :: h2 :: h3 :: h4 :: t = b ++ [34] ++ r /\ body b s).
      { intros Hn Hnp H'. destruct lone eqn:El; [|discriminate]. rewrite <- El in *. apply push_some in H' as (s'&H'&->).
        destruct (IH _ _ _ H' ltac:(lia)) as (b&->&Hb). exists ([92; 117] ++ [h1; h2; h3; h4] ++ b). split; [reflexivity|].
        apply sb_lone; [exact El|exact Eh|exact Hn| |exact Hb].
        intros Hh h' k s2 -> Hk. apply (Hnp Hh h' k (s2 ++ [34] ++ r)); [|exact Hk]. rewrite <- !app_assoc. reflexivity. }
      destruct (is_high n) eqn:Ehi.
      + apply is_high_iff in Ehi.
        assert (Hnopair : (forall h' k s', t = [92; 117] ++ h' ++ s' -> hex4_is h' k -> ~ low k) ->
          (if lone then push n (read_string_body lone t) else None) = Some (s, r) ->
          exists b, 92 :: 117 :: h1 :: h2 :: h3 :: h4 :: t = b ++ [34] ++ r /\ body b s) by auto.
        destruct t as [|x [|u [|l1 [|l2 [|l3 [|l4 t]]]]]];
          try (apply Hnopair; [intros h' k s' E Hk; apply hex4_is_inv in Hk as (?&?&?&?&->&_); discriminate E|exact H]).
        destruct ((x =? 92) && (u =? 117)) eqn:Exu.
        * apply andb_prop in Exu as [E1 E2]. apply N.eqb_eq in E1, E2. subst x u.
          destruct (hex4 l1 l2 l3 l4) as [k|] eqn:El.
          -- destruct (is_low k) eqn:Elo.
             ++ apply hex4_iff in El. apply is_low_iff in Elo. apply push_some in H as (s'&H&->). cbn [List.length] in Hm.
                destruct (IH _ _ _ H ltac:(lia)) as (b&->&Hb). exists ([92; 117] ++ [h1; h2; h3; h4] ++ [92; 117] ++ [l1; l2; l3; l4] ++ b).
                split; [reflexivity|]. apply sb_pair; assumption.
             ++ apply Hnopair; [|exact H]. intros h' k' s' E Hk. apply hex4_is_inv in Hk as (?&?&?&?&->&Hk). injection E as <- <- <- <- <-.
                rewrite El in Hk. injection Hk as <-. apply is_low_false. exact Elo.
          -- apply Hnopair; [|exact H]. intros h' k' s' E Hk. apply hex4_is_inv in Hk as (?&?&?&?&->&Hk). injection E as <- <- <- <- <-. congruence.
        * apply Hnopair; [|exact H]. intros h' k' s' E Hk. apply hex4_is_inv in Hk as (?&?&?&?&->&Hk). injection E as -> -> _ _ _ _ _. discriminate Exu.
      + apply is_high_false in Ehi. destruct (is_low n) eqn:Elo.
        * apply is_low_iff in Elo. apply Hlone; [auto|contradiction|exact H].
        * apply is_low_false in Elo. apply push_some in H as (s'&H&->). destruct (IH _ _ _ H ltac:(lia)) as (b&->&Hb).
          exists ([92; 117] ++ [h1; h2; h3; h4] ++ b). split; [reflexivity|]. apply sb_unicode; assumption.
  Qed.
  Lemma read_string_complete b s r : body b s -> read_string_body lone (b ++ [34] ++ r) = Some (s, r).
  Proof.
    induction 1 as [|c b s H1 H2 H3 Hb IH|e c b s He Hb IH|h n b s Hh Hn1 Hn2 Hb IH|h hi h' lo b s Hh Hhi Hh' Hlo Hb IH|h n b s El Hh Hn Hnp Hb IH].
    - reflexivity.
    - cbn [app read_string_body]. unfold c_quote, c_back. apply N.eqb_neq in H2, H3. rewrite H2, H3.
      assert (E : c <? 32 = false) by (apply N.ltb_ge; exact H1). rewrite E. cbn [app] in IH. rewrite IH. reflexivity.
    - cbn [app read_string_body]. unfold c_quote, c_back. cbn [N.eqb Pos.eqb]. assert (Eu : e =? 117 = false).
      { apply N.eqb_neq. intros ->. cbn [In escapes] in He. repeat (destruct He as [He|He]; [discriminate|]). contradiction. }
      rewrite Eu. apply short_escape_iff in He. rewrite He. cbn [app] in IH. rewrite IH. reflexivity.
    - apply hex4_is_inv in Hh as (x&y&z&u&->&Hh). cbn [app read_string_body]. unfold c_quote, c_back. cbn [N.eqb Pos.eqb].
      rewrite Hh. apply is_high_false in Hn1. apply is_low_false in Hn2. rewrite Hn1, Hn2. cbn [app] in IH. rewrite IH. reflexivity.
    - apply hex4_is_inv in Hh as (x&y&z&u&->&Hh). apply hex4_is_inv in Hh' as (x'&y'&z'&u'&->&Hh').
      cbn [app read_string_body]. unfold c_quote, c_back. cbn [N.eqb Pos.eqb andb].
      rewrite Hh. apply is_high_iff in Hhi. apply is_low_iff in Hlo. rewrite Hhi, Hh', Hlo. cbn [app] in IH. rewrite IH. reflexivity.
    - apply hex4_is_inv in Hh as (x&y&z&u&->&Hh). rewrite El in *.
      assert (G : push n (read_string_body true (b ++ [34] ++ r)) = Some (n :: s, r)) by (rewrite IH; reflexivity).
      cbn [app] in G |- *. cbn [read_string_body]. unfold c_quote, c_back. cbn [N.eqb Pos.eqb]. rewrite Hh.
      destruct (is_high n) eqn:Ehi.
      + apply is_high_iff in Ehi. specialize (Hnp Ehi).
        destruct (b ++ 34 :: r) as [|x1 [|x2 [|l1 [|l2 [|l3 [|l4 t]]]]]] eqn:Et; try exact G.
        destruct ((x1 =? 92) && (x2 =? 117)) eqn:Exu; [|exact G]. destruct (hex4 l1 l2 l3 l4) as [k|] eqn:Ek; [|exact G].
        destruct (is_low k) eqn:Elo; [|exact G]. exfalso. apply andb_prop in Exu as [E1 E2]. apply N.eqb_eq in E1, E2. subst x1 x2.
        apply hex4_iff in Ek. apply is_low_iff in Elo.
        (* the four digits are all in b, since a quote is no hexadecimal digit *)
        assert (Hd : forall c v, hex_digit_is c v -> c <> 34) by (intros c v Hc; inversion Hc; subst; lia).
        pose proof Ek as (a1&a2&a3&a4&v1&v2&v3&v4&E4&D1&D2&D3&D4&_). injection E4 as <- <- <- <-.
        apply Hd in D1, D2, D3, D4.
        destruct b as [|b1 [|b2 [|b3 [|b4 [|b5 [|b6 b]]]]]]; cbn [app] in Et; try (injection Et; intros; subst; congruence).
        injection Et as -> -> -> -> -> -> _. apply (Hnp [l1; l2; l3; l4] k b); [reflexivity|exact Ek|exact Elo].
      + destruct Hn as [Hn|Hn]; [apply is_high_iff in Hn; congruence|]. apply is_low_iff in Hn. rewrite Hn. exact G.
  Qed.
End Strings.

(** ** Numbers *)
Definition ends (r : text) : Prop := match r with [] => True | c :: _ => ~ digit c /\ c <> 46 /\ c <> 101 /\ c <> 69 end.
Definition no_digit (r : text) : Prop := match r with [] => True | c :: _ => ~ digit c end.
Lemma is_digit_iff c : is_digit c = true <-> digit c.
Proof. apply is_digit_range. Qed.
Lemma is_digit_false c : is_digit c = false <-> ~ digit c.
Proof. rewrite <- is_digit_iff. destruct (is_digit c); split; congruence. Qed.
Lemma span_sound t : forall a b, span_digits t = (a, b) -> t = a ++ b /\ Forall digit a /\ no_digit b.
Proof.
  induction t as [|c t IH]; intros a b H; cbn [span_digits] in H.
  - injection H as <- <-. repeat constructor.
  - destruct (is_digit c) eqn:E.
    + destruct (span_digits t) as [a' b']. injection H as <- <-. destruct (IH _ _ eq_refl) as (->&H1&H2).
      split; [reflexivity|]. split; [constructor; [apply is_digit_iff; exact E|exact H1]|exact H2].
    + injection H as <- <-. split; [reflexivity|]. split; [constructor|]. apply is_digit_false. exact E.
Qed.
Lemma span_complete a b : Forall digit a -> no_digit b -> span_digits (a ++ b) = (a, b).
Proof.
  induction 1 as [|c a Hc _ IH]; intros Hb; cbn [app span_digits].
  - destruct b as [|c b]; [reflexivity|]. cbn [span_digits]. apply is_digit_false in Hb. rewrite Hb. reflexivity.
  - apply is_digit_iff in Hc. rewrite Hc, (IH Hb). reflexivity.
Qed.
Lemma digits1_sound t a b : lex_digits1 t = Some (a, b) -> t = a ++ b /\ digits a.
Proof.
  unfold lex_digits1. destruct (span_digits t) as [a' b'] eqn:E. apply span_sound in E as (->&H1&_).
  destruct a' as [|c a']; [discriminate|]. intros H. injection H as <- <-. split; [reflexivity|]. split; [discriminate|exact H1].
Qed.
Lemma digits1_complete a b : digits a -> no_digit b -> lex_digits1 (a ++ b) = Some (a, b).
Proof. intros [Hn Ha] Hb. unfold lex_digits1. rewrite span_complete by assumption. destruct a; [congruence|reflexivity]. Qed.
Lemma lex_number_sound t tok r : lex_number t = Some (tok, r) -> t = tok ++ r /\ number_token tok.
Proof.
  unfold lex_number. destruct (lex_sign t) as [s t1] eqn:Es. destruct (lex_int t1) as [[i t2]|] eqn:Ei; [|discriminate].
  destruct (lex_frac t2) as [[f t3]|] eqn:Ef; [|discriminate]. destruct (lex_exp t3) as [[e t4]|] eqn:Ee; [|discriminate].
  intros H. injection H as <- <-.
  assert (S1 : t = s ++ t1 /\ (s = [] \/ s = lit "-")).
  { unfold lex_sign in Es. destruct t as [|c t]; [injection Es as <- <-; auto|]. unfold c_minus in Es.
    destruct (N.eqb_spec c 45) as [->|]; injection Es as <- <-; auto. }
  assert (S2 : t1 = i ++ t2 /\ int_part i).
  { unfold lex_int in Ei. destruct t1 as [|c t1]; [discriminate|]. destruct (N.eqb_spec c 48) as [->|Hc].
    - injection Ei as <- <-. split; [reflexivity|]. left. reflexivity.
    - apply digits1_sound in Ei as (E&Hi1&Hi2). split; [exact E|]. right. destruct i as [|x i]; [congruence|].
      cbn [app] in E. injection E as <- _. exists c, i. inversion Hi2 as [|? ? Hd Hi]; subst. split; [reflexivity|]. split; [unfold digit in Hd; lia|exact Hi]. }
  assert (S3 : t2 = f ++ t3 /\ frac_part f).
  { unfold lex_frac in Ef. destruct t2 as [|c t2]; [injection Ef as <- <-; split; [reflexivity|left; reflexivity]|]. unfold c_dot in Ef.
    destruct (N.eqb_spec c 46) as [->|Hc].
    - destruct (lex_digits1 t2) as [[ds r']|] eqn:Ed; [|discriminate]. injection Ef as <- <-. apply digits1_sound in Ed as (->&Hd).
      split; [reflexivity|]. right. exists ds. auto.
    - injection Ef as <- <-. split; [reflexivity|left; reflexivity]. }
  assert (S4 : t3 = e ++ t4 /\ exp_part e).
  { unfold lex_exp in Ee. destruct t3 as [|c t3]; [injection Ee as <- <-; split; [reflexivity|left; reflexivity]|].
    destruct ((c =? 101) || (c =? 69)) eqn:Ec.
    - set (p := match t3 with [] => ([], []) | d :: r' => if (d =? c_plus) || (d =? c_minus) then ([d], r') else ([], t3) end) in Ee.
      assert (Hp : t3 = fst p ++ snd p /\ (fst p = [] \/ fst p = lit "+" \/ fst p = lit "-")).
      { unfold p. destruct t3 as [|d r']; [auto|]. destruct ((d =? c_plus) || (d =? c_minus)) eqn:Ed; [|auto]. split; [reflexivity|].
        apply orb_prop in Ed as [Ed|Ed]; apply N.eqb_eq in Ed; subst d; auto. }
      destruct p as [sg r1]. cbn [fst snd] in Hp. destruct Hp as [-> Hsg]. destruct (lex_digits1 r1) as [[ds r']|] eqn:Ed; [|discriminate].
      injection Ee as <- <-. apply digits1_sound in Ed as (->&Hd). split; [cbn [app]; rewrite <- app_assoc; reflexivity|].
      right. exists [c], sg, ds. split; [reflexivity|]. split; [|auto]. apply orb_prop in Ec as [Ec|Ec]; apply N.eqb_eq in Ec; subst c; auto.
    - injection Ee as <- <-. split; [reflexivity|left; reflexivity]. }
  destruct S1 as [-> S1], S2 as [-> S2], S3 as [-> S3], S4 as [-> S4].
  split; [rewrite <- !app_assoc; reflexivity|]. exists s, i, f, e. auto.
Qed.
Lemma lex_exp_complete e r : exp_part e -> ends r -> lex_exp (e ++ r) = Some (e, r).
Proof.
  intros [->|(x&sg&ds&->&Hx&Hs&Hd)] Hr.
  - cbn [app]. unfold lex_exp. destruct r as [|c r]; [reflexivity|]. destruct Hr as (_&_&H1&H2). apply N.eqb_neq in H1, H2. rewrite H1, H2. reflexivity.
  - assert (Hnd : no_digit r) by (destruct r as [|c r]; [exact I|apply Hr]).
    assert (Hc : exists c, x = [c] /\ (c =? 101) || (c =? 69) = true) by (destruct Hx as [-> | ->]; eexists; split; reflexivity).
    destruct Hc as (c&->&Hc). cbn [app]. unfold lex_exp. rewrite Hc, <- app_assoc.
    pose proof Hd as Hd0. destruct Hd0 as [Hne Hdf]. destruct ds as [|d ds]; [congruence|]. inversion Hdf as [|? ? Hd1 _]; subst.
    destruct Hs as [->|[->| ->]]; cbn [app].
    + assert (E1 : (d =? c_plus) || (d =? c_minus) = false).
      { unfold c_plus, c_minus, digit in *. apply orb_false_intro; apply N.eqb_neq; lia. }
      rewrite E1. change (d :: ds ++ r) with ((d :: ds) ++ r). rewrite digits1_complete by assumption. reflexivity.
    + cbn. change (d :: ds ++ r) with ((d :: ds) ++ r). rewrite digits1_complete by assumption. reflexivity.
    + cbn. change (d :: ds ++ r) with ((d :: ds) ++ r). rewrite digits1_complete by assumption. reflexivity.
Qed.
Lemma lex_number_complete tok r : number_token tok -> ends r -> lex_number (tok ++ r) = Some (tok, r).
Proof.
  intros (s&i&f&e&->&Hs&Hi&Hf&He) Hr. unfold lex_number. rewrite <- !app_assoc.
  assert (N4 : no_digit r) by (destruct r as [|c r]; [exact I|apply Hr]).
  assert (N3 : no_digit (e ++ r)).
  { destruct He as [->|(x&sg&ds&->&Hx&_)]; [exact N4|]. unfold digit. destruct Hx as [-> | ->]; cbn; unfold digit; lia. }
  assert (D3 : forall c t, e ++ r = c :: t -> c <> 46).
  { intros c t E. destruct He as [->|(x&sg&ds&->&Hx&_)].
    - cbn [app] in E. subst r. apply Hr.
    - destruct Hx as [-> | ->]; cbn in E; injection E as <- _; lia. }
  assert (N2 : no_digit (f ++ e ++ r)).
  { destruct Hf as [->|(ds&->&_)]; [exact N3|]. cbn. unfold digit. lia. }
  assert (Es : lex_sign (s ++ i ++ f ++ e ++ r) = (s, i ++ f ++ e ++ r)).
  { destruct Hs as [-> | ->]; [|reflexivity]. cbn [app]. unfold lex_sign, c_minus. destruct Hi as [->|(c&t&->&Hc&_)]; [reflexivity|]. cbn [app].
    assert (Hx : c =? 45 = false) by (apply N.eqb_neq; lia). rewrite Hx. reflexivity. }
  rewrite Es.
  assert (Ei : lex_int (i ++ f ++ e ++ r) = Some (i, f ++ e ++ r)).
  { destruct Hi as [->|(c&t&->&Hc&Ht)]; [reflexivity|]. unfold lex_int. cbn [app]. assert (Hx : c =? 48 = false) by (apply N.eqb_neq; lia). rewrite Hx.
    change (c :: t ++ f ++ e ++ r) with ((c :: t) ++ f ++ e ++ r). apply digits1_complete; [|exact N2]. split; [discriminate|]. constructor; [unfold digit; lia|exact Ht]. }
  rewrite Ei.
  assert (Ef : lex_frac (f ++ e ++ r) = Some (f, e ++ r)).
  { destruct Hf as [->|(ds&->&Hd)].
    - cbn [app]. unfold lex_frac. destruct (e ++ r) as [|c t] eqn:E; [reflexivity|]. assert (Hx : c =? c_dot = false) by (apply N.eqb_neq; apply (D3 c t eq_refl)).
      rewrite Hx. reflexivity.
    - cbn. rewrite digits1_complete by assumption. reflexivity. }
  rewrite Ef, lex_exp_complete by assumption. reflexivity.
Qed.
Lemma keyword_sound k v t v' r : keyword k v t = Some (v', r) -> t = k ++ r /\ v' = v.
Proof.
  unfold keyword. destruct (text_eqb _ k) eqn:E; [|discriminate]. intros H. injection H as <- <-. apply text_eqb_eq in E.
  split; [|reflexivity]. rewrite <- E at 1. symmetry. apply firstn_skipn.
Qed.
Lemma keyword_complete k v r : keyword k v (k ++ r) = Some (v, r).
Proof.
  unfold keyword. rewrite firstn_app, Nat.sub_diag, firstn_all, firstn_O, app_nil_r, text_eqb_refl.
  rewrite skipn_app, Nat.sub_diag, skipn_all. reflexivity.
Qed.

(** ** Values *)
Scheme value_mut := Minimality for value Sort Prop
  with elements_mut := Minimality for elements Sort Prop
  with members_mut := Minimality for members Sort Prop.
Combined Scheme json_mut from value_mut, elements_mut, members_mut.

Section Values.
  Context (number : text -> option json) (object : list (text * json) -> list (text * json)) (lone : bool).
  Notation value := (value number object lone).
  Notation elements := (elements number object lone).
  Notation members := (members number object lone).
  Notation read_value := (read_value number object lone).
  Notation read_elements := (read_elements number object lone).
  Notation read_members := (read_members number object lone).

  Lemma read_value_S n d t : read_value (S n) d t =

        match t with
        | [] => None
        | c :: r =>
            if c =? c_quote then match read_string_body lone r with Some (s, r) => Some (JStr s, r) | None => None end
            else if c =? c_lbrack then
              match d with
              | O => None
              | S d => match skip_ws r with
                       | [] => None
                       | x :: r' => if x =? c_rbrack then Some (JArr [], r')
                                    else match read_elements n d (x :: r') with Some (l, r) => Some (JArr l, r) | None => None end
                       end
              end
            else if c =? c_lbrace then
              match d with
              | O => None
              | S d => match skip_ws r with
                       | [] => None
                       | x :: r' => if x =? c_rbrace then Some (JObj (object []), r')
                                    else match read_members n d (x :: r') with Some (l, r) => Some (JObj (object l), r) | None => None end
                       end
              end
            else if c =? 110 then keyword (lit "null") JNull t
            else if c =? 116 then keyword (lit "true") (JBool true) t
            else if c =? 102 then keyword (lit "false") (JBool false) t
            else match lex_number t with
                 | Some (tok, r) => match number tok with Some v => Some (v, r) | None => None end
                 | None => None
                 end
        end.
  Proof. reflexivity. Qed.
  Lemma read_elements_S n d t : read_elements (S n) d t =

        match read_value n d t with
        | None => None
        | Some (v, r) =>
            match skip_ws r with
            | [] => None
            | c :: r => if c =? c_comma then match read_elements n d (skip_ws r) with Some (l, r) => Some (v :: l, r) | None => None end
                        else if c =? c_rbrack then Some ([v], r) else None
            end
        end.
  Proof. reflexivity. Qed.
  Lemma read_members_S n d t : read_members (S n) d t =

        match t with
        | [] => None
        | q :: r =>
            if q =? c_quote then
              match read_string_body lone r with
              | None => None
              | Some (k, r) =>
                  match skip_ws r with
                  | [] => None
                  | c :: r =>
                      if c =? c_colon then
                        match read_value n d (skip_ws r) with
                        | None => None
                        | Some (v, r) =>
                            match skip_ws r with
                            | [] => None
                            | c :: r => if c =? c_comma then match read_members n d (skip_ws r) with Some (l, r) => Some ((k, v) :: l, r) | None => None end
                                        else if c =? c_rbrace then Some ([(k, v)], r) else None
                            end
                        end
                      else None
                  end
              end
            else None
        end.
  Proof. reflexivity. Qed.

  Ltac assoc := cbn [lit app]; repeat (rewrite <- app_assoc; cbn [app]); reflexivity.
  Definition sound_at (n : nat) : Prop :=
    (forall d t v r, read_value n d t = Some (v, r) -> exists s, t = s ++ r /\ value d s v) /\
    (forall d t l r, read_elements n d t = Some (l, r) -> exists s, t = s ++ [93] ++ r /\ elements d s l) /\
    (forall d t l r, read_members n d t = Some (l, r) -> exists s, t = s ++ [125] ++ r /\ members d s l).
  Lemma no_blanks : blanks []. Proof. constructor. Qed.
  Lemma read_sound : forall n, sound_at n.
  Proof.
    induction n as [|n (IHv&IHe&IHm)]; [split; [|split]; intros d t v r H; discriminate H|]. split; [|split].
    - intros d t v r H. destruct t as [|c t]; [discriminate|]. rewrite read_value_S in H. unfold c_quote, c_lbrack, c_lbrace, c_rbrack, c_rbrace in H.
      destruct (N.eqb_spec c 34) as [->|_].
      { destruct (read_string_body lone t) as [[s r']|] eqn:Es; [|discriminate]. injection H as <- <-.
        destruct (read_string_sound lone (List.length t) t s r' Es (le_n _)) as (b&->&Hb).
        exists (34 :: b ++ [34]). split; [cbn [app]; rewrite <- app_assoc; reflexivity|]. apply v_string. exists b. auto. }
      destruct (N.eqb_spec c 91) as [->|_].
      { destruct d as [|d]; [discriminate|]. destruct (skip_split t) as (w&Hw&Ht). destruct (skip_ws t) as [|x r'] eqn:Es; [discriminate|].
        destruct (N.eqb_spec x 93) as [->|_].
        - injection H as <- <-. exists (lit "[" ++ w ++ lit "]"). split; [|apply v_array_empty; exact Hw]. rewrite Ht. cbn. rewrite <- app_assoc. reflexivity.
        - destruct (read_elements n d (x :: r')) as [[l r1]|] eqn:El; [|discriminate]. injection H as <- <-.
          apply IHe in El as (s&Hs&Hel). rewrite Ht, Hs. exists (lit "[" ++ (w ++ s) ++ lit "]").
          split; [cbn; rewrite <- !app_assoc; reflexivity|]. apply v_array.
          inversion Hel as [d' w0 s0 w' v0 B1 B2 Hv|d' w0 s0 w' rest v0 l0 B1 B2 Hv Hl]; subst; rewrite app_assoc.
          + apply el_last; [apply blanks_app; auto|assumption..].
          + apply el_more; [apply blanks_app; auto|assumption..]. }
      destruct (N.eqb_spec c 123) as [->|_].
      { destruct d as [|d]; [discriminate|]. destruct (skip_split t) as (w&Hw&Ht). destruct (skip_ws t) as [|x r'] eqn:Es; [discriminate|].
        destruct (N.eqb_spec x 125) as [->|_].
        - injection H as <- <-. exists (lit "{" ++ w ++ lit "}"). split; [|apply v_object_empty; exact Hw]. rewrite Ht. cbn. rewrite <- app_assoc. reflexivity.
        - destruct (read_members n d (x :: r')) as [[l r1]|] eqn:El; [|discriminate]. injection H as <- <-.
          apply IHm in El as (s&Hs&Hel). rewrite Ht, Hs. exists (lit "{" ++ (w ++ s) ++ lit "}").
          split; [cbn; rewrite <- !app_assoc; reflexivity|]. apply v_object.
          inversion Hel; subst; rewrite app_assoc; [apply me_last|apply me_more]; try assumption; apply blanks_app; auto. }
      destruct (N.eqb_spec c 110) as [->|_]; [apply keyword_sound in H as [-> ->]; eexists; split; [reflexivity|apply v_null]|].
      destruct (N.eqb_spec c 116) as [->|_]; [apply keyword_sound in H as [-> ->]; eexists; split; [reflexivity|apply v_true]|].
      destruct (N.eqb_spec c 102) as [->|_]; [apply keyword_sound in H as [-> ->]; eexists; split; [reflexivity|apply v_false]|].
      destruct (lex_number (c :: t)) as [[tok r']|] eqn:El; [|discriminate]. destruct (number tok) as [v'|] eqn:En; [|discriminate].
      injection H as <- <-. apply lex_number_sound in El as [E Hn]. exists tok. split; [exact E|]. apply v_number; assumption.
    - intros d t l r H. rewrite read_elements_S in H. destruct (read_value n d t) as [[v r1]|] eqn:Ev; [|discriminate].
      apply IHv in Ev as (s&->&Hv). destruct (skip_split r1) as (w&Hw&Hr1). rewrite Hr1. clear Hr1. destruct (skip_ws r1) as [|c r2]; [discriminate|]. unfold c_comma, c_rbrack in H.
      destruct (N.eqb_spec c 44) as [->|_].
      + destruct (skip_split r2) as (w2&Hw2&Hr2). destruct (read_elements n d (skip_ws r2)) as [[l' r3]|] eqn:El; [|discriminate]. injection H as <- <-.
        apply IHe in El as (s'&Hs'&Hel). rewrite Hs' in Hr2. rewrite Hr2.
        exists ([] ++ s ++ w ++ lit "," ++ (w2 ++ s')). split; [assoc|].
        apply el_more; [apply no_blanks|exact Hw|exact Hv|].
        inversion Hel as [d' w0 s0 w' v0 B1 B2 Hv'|d' w0 s0 w' rest v0 l0 B1 B2 Hv' Hl]; subst; rewrite app_assoc.
        * apply el_last; [apply blanks_app; auto|assumption..].
        * apply el_more; [apply blanks_app; auto|assumption..].
      + destruct (N.eqb_spec c 93) as [->|_]; [|discriminate]. injection H as <- <-.
        exists ([] ++ s ++ w). split; [cbn [app]; rewrite <- !app_assoc; reflexivity|]. apply el_last; [apply no_blanks|assumption..].
    - intros d t l r H. rewrite read_members_S in H. destruct t as [|q t]; [discriminate|]. unfold c_quote, c_colon, c_comma, c_rbrace in H.
      destruct (N.eqb_spec q 34) as [->|_]; [|discriminate]. destruct (read_string_body lone t) as [[k r0]|] eqn:Ek; [|discriminate].
      destruct (read_string_sound lone (List.length t) t k r0 Ek (le_n _)) as (b&->&Hb).
      destruct (skip_split r0) as (w1&Hw1&Hr0). rewrite Hr0. clear Hr0 Ek. destruct (skip_ws r0) as [|c r1]; [discriminate|].
      destruct (N.eqb_spec c 58) as [->|_]; [|discriminate]. destruct (skip_split r1) as (w2&Hw2&Hr1). rewrite Hr1. clear Hr1.
      destruct (read_value n d (skip_ws r1)) as [[v r2]|] eqn:Ev; [|discriminate]. apply IHv in Ev as (s&->&Hv).
      destruct (skip_split r2) as (w3&Hw3&Hr2). rewrite Hr2. clear Hr2. destruct (skip_ws r2) as [|c r3]; [discriminate|].
      assert (Hkt : string_text lone (34 :: b ++ [34]) k) by (exists b; split; [reflexivity|exact Hb]).
      destruct (N.eqb_spec c 44) as [->|_].
      + destruct (skip_split r3) as (w4&Hw4&Hr3). destruct (read_members n d (skip_ws r3)) as [[l' r4]|] eqn:El; [|discriminate]. injection H as <- <-.
        apply IHm in El as (s'&Hs'&Hel). rewrite Hs' in Hr3. rewrite Hr3.
        exists ([] ++ (34 :: b ++ [34]) ++ w1 ++ lit ":" ++ w2 ++ s ++ w3 ++ lit "," ++ (w4 ++ s')).
        split; [assoc|].
        apply me_more; try assumption; [apply no_blanks|].
        inversion Hel; subst; rewrite app_assoc; [apply me_last|apply me_more]; try assumption; apply blanks_app; auto.
      + destruct (N.eqb_spec c 125) as [->|_]; [|discriminate]. injection H as <- <-.
        exists ([] ++ (34 :: b ++ [34]) ++ w1 ++ lit ":" ++ w2 ++ s ++ w3).
        split; [assoc|]. apply me_last; try assumption. apply no_blanks.
  Qed.

  (** The first character of a value. *)
  Lemma number_start t : number_token t -> exists c r, t = c :: r /\ (c = 45 \/ digit c).
  Proof.
    intros (s&i&f&e&->&Hs&Hi&_). destruct Hs as [-> | ->]; [|eexists; eexists; split; [reflexivity|left; reflexivity]].
    destruct Hi as [->|(c&r&->&Hc&_)].
    - exists 48, (f ++ e). split; [reflexivity|]. right. split; discriminate.
    - exists c, (r ++ f ++ e). split; [reflexivity|]. right. unfold digit. lia.
  Qed.
  Lemma value_start d s v : value d s v -> exists c r, s = c :: r /\
    (c = 110 \/ c = 116 \/ c = 102 \/ c = 34 \/ c = 91 \/ c = 123 \/ (number_token s /\ (c = 45 \/ digit c))).
  Proof.
    destruct 1 as [d|d|d|d t v Hn Hv|d s t (b&->&Hb)|d w Hw|d s l He|d w Hw|d s l Hm]; try (eexists; eexists; split; [reflexivity|cbn; tauto]).
    destruct (number_start t Hn) as (c&r&->&Hc). exists c, r. tauto.
  Qed.
  Lemma value_tight d s v t : value d s v -> skip_ws (s ++ t) = s ++ t.
  Proof.
    intros H. apply value_start in H as (c&r&->&Hc). apply skip_tight. cbn. destruct (j_ws c) eqn:E; [|reflexivity].
    apply j_ws_iff in E. unfold digit in Hc. lia.
  Qed.
  Lemma value_not d s v t x : value d s v -> x = 93 \/ x = 125 \/ x = 44 -> exists c r, s ++ t = c :: r /\ (c =? x) = false.
  Proof.
    intros H Hx. apply value_start in H as (c&r&->&Hc). exists c, (r ++ t). split; [reflexivity|]. apply N.eqb_neq. unfold digit in Hc. lia.
  Qed.
  Definition safe (s r : text) : Prop := number_token s -> ends r.
  Lemma blanks_ends w c r : blanks w -> c = 44 \/ c = 93 \/ c = 125 -> ends (w ++ c :: r).
  Proof. intros Hw Hc. destruct Hw as [|x w Hx _]; cbn; unfold digit; lia. Qed.

  Definition ok_v (d : nat) (s : text) (v : json) : Prop := value d s v /\
    forall r n, (2 * List.length s < n)%nat -> safe s r -> read_value n d (s ++ r) = Some (v, r).
  Definition ok_e (d : nat) (s : text) (l : list json) : Prop := elements d s l /\
    forall r n, (2 * List.length s + 1 < n)%nat -> read_elements n d (skip_ws (s ++ 93 :: r)) = Some (l, r).
  Definition ok_m (d : nat) (s : text) (l : list (text * json)) : Prop := members d s l /\
    forall r n, (2 * List.length s + 1 < n)%nat -> read_members n d (skip_ws (s ++ 125 :: r)) = Some (l, r).
  Lemma elements_start d s l t : elements d s l -> exists c r, skip_ws (s ++ t) = c :: r /\ (c =? 93) = false.
  Proof.
    destruct 1 as [d w s w' v B1 B2 Hv|d w s w' rest v l B1 B2 Hv Hl]; rewrite <- !app_assoc, skip_blanks by assumption;
      rewrite (value_tight _ _ _ _ Hv); apply (value_not _ _ _ _ 93 Hv); auto.
  Qed.
  Lemma members_start d s l t : members d s l -> exists r, skip_ws (s ++ t) = 34 :: r.
  Proof.
    destruct 1 as [d w k s w1 w2 w3 x v B1 B2 B3 B4 (b&->&Hb) Hv|d w k s w1 w2 w3 rest x v l B1 B2 B3 B4 (b&->&Hb) Hv Hl];
      rewrite <- !app_assoc, skip_blanks by assumption; eexists; reflexivity.
  Qed.
  Lemma read_complete :
    (forall d s v, value d s v -> ok_v d s v) /\ (forall d s l, elements d s l -> ok_e d s l) /\ (forall d s l, members d s l -> ok_m d s l).
  Proof.
    apply json_mut.
    - intros d. split; [constructor|]. intros r n Hn _. destruct n; [lia|]. exact (keyword_complete (lit "null") JNull r).
    - intros d. split; [constructor|]. intros r n Hn _. destruct n; [lia|]. exact (keyword_complete (lit "true") (JBool true) r).
    - intros d. split; [constructor|]. intros r n Hn _. destruct n; [lia|]. exact (keyword_complete (lit "false") (JBool false) r).
    - intros d t v Ht Hv. split; [constructor; assumption|]. intros r n Hn Hs. destruct n as [|n]; [lia|]. specialize (Hs Ht).
      pose proof (lex_number_complete t r Ht Hs) as Hl. destruct (number_start t Ht) as (c&t'&->&Hc). cbn [app]. rewrite read_value_S.
      unfold c_quote, c_lbrack, c_lbrace.
      assert (E1 : (c =? 34) = false) by (apply N.eqb_neq; unfold digit in Hc; lia).
      assert (E2 : (c =? 91) = false) by (apply N.eqb_neq; unfold digit in Hc; lia).
      assert (E3 : (c =? 123) = false) by (apply N.eqb_neq; unfold digit in Hc; lia).
      assert (E4 : (c =? 110) = false) by (apply N.eqb_neq; unfold digit in Hc; lia).
      assert (E5 : (c =? 116) = false) by (apply N.eqb_neq; unfold digit in Hc; lia).
      assert (E6 : (c =? 102) = false) by (apply N.eqb_neq; unfold digit in Hc; lia).
      rewrite E1, E2, E3, E4, E5, E6. cbn [app] in Hl. rewrite Hl, Hv. reflexivity.
    - intros d s t Hs. split; [constructor; assumption|]. intros r n Hn _. destruct n as [|n]; [lia|]. destruct Hs as (b&->&Hb).
      cbn [app]. rewrite read_value_S. change (34 =? c_quote) with true. cbv iota. rewrite <- app_assoc. rewrite read_string_complete with (s := t) by exact Hb. reflexivity.
    - intros d w Hw. split; [constructor; assumption|]. intros r n Hn _. destruct n as [|n]; [lia|].
      cbn [app lit]. rewrite read_value_S. cbn -[JsonText.read_elements JsonText.read_members]. rewrite <- app_assoc, skip_blanks by exact Hw. reflexivity.
    - intros d s l He [_ IH]. split; [constructor; assumption|]. intros r n Hn _. destruct n as [|n]; [lia|].
      rewrite !app_length in Hn. cbn in Hn. specialize (IH r n ltac:(lia)).
      destruct (elements_start d s l (93 :: r) He) as (c&r'&Es&Ec). change (lit "[" ++ s ++ lit "]") with (91 :: s ++ [93]). cbn [app]. rewrite read_value_S.
      change (91 =? c_quote) with false. change (91 =? c_lbrack) with true. cbv iota. rewrite <- app_assoc. cbn [app].
      rewrite Es in IH |- *. unfold c_rbrack. rewrite Ec, IH. reflexivity.
    - intros d w Hw. split; [constructor; assumption|]. intros r n Hn _. destruct n as [|n]; [lia|].
      cbn [app lit]. rewrite read_value_S. cbn -[JsonText.read_elements JsonText.read_members]. rewrite <- app_assoc, skip_blanks by exact Hw. reflexivity.
    - intros d s l He [_ IH]. split; [constructor; assumption|]. intros r n Hn _. destruct n as [|n]; [lia|].
      rewrite !app_length in Hn. cbn in Hn. specialize (IH r n ltac:(lia)).
      destruct (members_start d s l (125 :: r) He) as (r'&Es). change (lit "{" ++ s ++ lit "}") with (123 :: s ++ [125]). cbn [app]. rewrite read_value_S.
      change (123 =? c_quote) with false. change (123 =? c_lbrack) with false. change (123 =? c_lbrace) with true. cbv iota. rewrite <- app_assoc. cbn [app].
      rewrite Es in IH |- *. change (34 =? c_rbrace) with false. cbv iota. rewrite IH. reflexivity.
    - intros d w s w' v B1 B2 Hv [_ IH]. split; [constructor; assumption|]. intros r n Hn. destruct n as [|n]; [lia|]. rewrite !app_length in Hn.
      rewrite <- !app_assoc, skip_blanks, (value_tight _ _ _ _ Hv) by assumption. rewrite read_elements_S.
      rewrite IH; [|lia|intros _; apply blanks_ends; auto]. rewrite skip_blanks by assumption. reflexivity.
    - intros d w s w' rest v l B1 B2 Hv [_ IHv] Hl [_ IHl]. split; [constructor; assumption|]. intros r n Hn. destruct n as [|n]; [lia|].
      rewrite !app_length in Hn. cbn in Hn.
      rewrite <- !app_assoc, skip_blanks, (value_tight _ _ _ _ Hv) by assumption. rewrite read_elements_S.
      rewrite IHv; [|lia|intros _; apply blanks_ends; auto]. rewrite skip_blanks by assumption. cbn [lit app].
      rewrite skip_tight by reflexivity. change (_ =? c_comma) with true. cbv iota. rewrite IHl by lia. reflexivity.
    - intros d w k s w1 w2 w3 x v B1 B2 B3 B4 Hk Hv [_ IH]. split; [constructor; assumption|]. intros r n Hn. destruct n as [|n]; [lia|].
      rewrite !app_length in Hn. cbn in Hn. destruct Hk as (b&->&Hb).
      rewrite <- !app_assoc, skip_blanks by assumption. cbn [app]. rewrite skip_tight by reflexivity. rewrite read_members_S.
      change (34 =? c_quote) with true. cbv iota. change (34 :: w1 ++ lit ":" ++ w2 ++ s ++ w3 ++ 125 :: r) with ([34] ++ (w1 ++ lit ":" ++ w2 ++ s ++ w3 ++ 125 :: r)).
      rewrite read_string_complete with (s := x) by exact Hb. rewrite skip_blanks by assumption. cbn [lit app]. rewrite skip_tight by reflexivity.
      change (_ =? c_colon) with true. cbv iota. rewrite skip_blanks, (value_tight _ _ _ _ Hv) by assumption.
      rewrite IH; [|lia|intros _; apply blanks_ends; auto]. rewrite skip_blanks by assumption. reflexivity.
    - intros d w k s w1 w2 w3 rest x v l B1 B2 B3 B4 Hk Hv [_ IH] Hl [_ IHl]. split; [constructor; assumption|]. intros r n Hn. destruct n as [|n]; [lia|].
      rewrite !app_length in Hn. cbn in Hn. destruct Hk as (b&->&Hb).
      rewrite <- !app_assoc, skip_blanks by assumption. cbn [app]. rewrite skip_tight by reflexivity. rewrite read_members_S.
      change (34 =? c_quote) with true. cbv iota.
      match goal with |- context [b ++ 34 :: ?z] => change (34 :: z) with ([34] ++ z) end.
      rewrite read_string_complete with (s := x) by exact Hb. rewrite skip_blanks by assumption. cbn [lit app]. rewrite skip_tight by reflexivity.
      change (_ =? c_colon) with true. cbv iota. rewrite skip_blanks, (value_tight _ _ _ _ Hv) by assumption.
      rewrite IH; [|lia|intros _; apply blanks_ends; auto]. rewrite skip_blanks by assumption. rewrite skip_tight by reflexivity. change (_ =? c_comma) with true. cbv iota.
      rewrite IHl by lia. reflexivity.
  Qed.

  Theorem read_json_iff d t v : read_json number object lone d t = Some v <-> document number object lone d t v.
  Proof.
    unfold read_json. split.
    - destruct (skip_split t) as (w&Hw&Ht). destruct (read_value _ d (skip_ws t)) as [[v' r]|] eqn:Ev; [|discriminate].
      destruct (skip_ws r) as [|] eqn:Er; [|discriminate]. intros H. injection H as <-. apply read_sound in Ev as (s&Hs&Hv).
      destruct (skip_split r) as (w'&Hw'&Hr). rewrite Er, app_nil_r in Hr. subst r. exists w, s, w'. split; [congruence|]. auto.
    - intros (w&s&w'&->&Hw&Hw'&Hv). rewrite skip_blanks, (value_tight _ _ _ _ Hv) by exact Hw.
      destruct (proj1 read_complete d s v Hv) as [_ Hc]. rewrite Hc.
      + assert (E : skip_ws w' = []) by (rewrite <- (app_nil_r w'), skip_blanks by exact Hw'; reflexivity). rewrite E. reflexivity.
      + rewrite !app_length. lia.
      + intros _. destruct Hw' as [|x w' Hx _]; [exact I|]. cbn. unfold digit. lia.
  Qed.
End Values.
