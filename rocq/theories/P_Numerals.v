(** Property theorems C57: numbers given as texts.  Vocabulary: SpecNumerals.v. *)
From Coq Require Import List Bool Arith NArith ZArith Lia.
From Coq Require Import Strings.String.
From Verif Require Import Res Text Inputs InputsFacts SpecNumerals.
Import ListNotations.
Local Open Scope N_scope.

Lemma digit_char_range c d : digit_char c d -> d < 16 /\ (48 <= c <= 57 \/ 97 <= c <= 102 \/ 65 <= c <= 70).
Proof. intros H. inversion H; subst; lia. Qed.
Lemma radix_digit_spec r c d : radix_digit r c = Some d <-> digit_char c d /\ d < r.
Proof.
  unfold radix_digit. destruct (is_digit c) eqn:E1.
  - apply is_digit_range in E1. destruct (N.ltb_spec (c - 48) r) as [H|H]; split.
    + intros [= <-]. split; [|exact H]. replace c with (48 + (c - 48)) at 1 by lia. constructor. lia.
    + intros [Hd _]. inversion Hd; subst; f_equal; lia.
    + discriminate.
    + intros [Hd Hr]. inversion Hd; subst; lia.
  - assert (N1 : ~ (48 <= c <= 57)) by (rewrite <- is_digit_range; congruence).
    destruct (N.leb_spec 97 c) as [A1|A1]; destruct (N.leb_spec c 102) as [A2|A2]; cbn [andb];
    destruct (N.leb_spec 65 c) as [A3|A3]; destruct (N.leb_spec c 70) as [A4|A4]; cbn [andb]; try lia.
    all: try (split; [discriminate|]; intros [Hd _]; inversion Hd; subst; lia).
    all: match goal with |- context [?a <? ?b] => destruct (N.ltb_spec a b) as [H|H] end; split;
      [intros [= <-]; split; [|exact H]| intros [Hd _]; inversion Hd; subst; f_equal; lia|discriminate|intros [Hd Hr]; inversion Hd; subst; lia].
    + replace c with (97 + (c - 87 - 10)) at 1 by lia. apply dc_lower. lia.
    + replace c with (65 + (c - 55 - 10)) at 1 by lia. apply dc_upper. lia.
Qed.
Lemma radix_value_app r a b : forall acc, radix_value r (a ++ b) acc =
  match radix_value r a acc with Some v => radix_value r b v | None => None end.
Proof. induction a as [|c a IH]; intros acc; [reflexivity|]. cbn [app radix_value]. destruct (radix_digit r c); [apply IH|reflexivity]. Qed.
Lemma radix_value_spec r t v : t <> [] -> (radix_value r t 0 = Some v <-> spelled r t v).
Proof.
  revert v. induction t as [|c t IH] using rev_ind; intros v Hne; [contradiction|]. clear Hne.
  rewrite radix_value_app. destruct t as [|c0 t0].
  - cbn [app radix_value]. split.
    + destruct (radix_digit r c) as [d|] eqn:E; [|discriminate]. intros [= <-]. apply radix_digit_spec in E as [E1 E2].
      rewrite ?N.mul_0_l, ?N.add_0_l. constructor; assumption.
    + intros H. inversion H as [c' d Hd Hr|t' v' c' d Hs Hd Hr]; subst.
      * rewrite (proj2 (radix_digit_spec r c v)) by auto. reflexivity.
      * exfalso. destruct t'; [inversion Hs; destruct t; discriminate|]. destruct t'; discriminate.
  - set (t := c0 :: t0) in *. assert (Ht : t <> []) by discriminate. split.
    + destruct (radix_value r t 0) as [a|] eqn:Ea; [|discriminate]. cbn [radix_value].
      destruct (radix_digit r c) as [d|] eqn:E; [|discriminate]. intros [= <-]. apply radix_digit_spec in E as [E1 E2].
      constructor; [apply IH; auto|exact E1|exact E2].
    + intros H. inversion H as [c' d Hd Hr|t' v' c' d Hs Hd Hr]; subst.
      * destruct t0; discriminate.
      * change (t' ++ [c'] = t ++ [c]) in H0. apply app_inj_tail in H0 as [-> ->]. rewrite (proj2 (IH v' Ht) Hs). cbn [radix_value].
        rewrite (proj2 (radix_digit_spec r c d)) by auto. reflexivity.
Qed.
Lemma radix10 t : forall acc, radix_value 10 t acc = if forallb is_digit t then Some (fold_left (fun a c => 10 * a + (c - 48)) t acc) else None.
Proof.
  induction t as [|c t IH]; intros acc; [reflexivity|]. cbn [radix_value forallb fold_left].
  assert (E : radix_digit 10 c = if is_digit c then Some (c - 48) else None).
  { unfold radix_digit. destruct (is_digit c) eqn:Ed.
    - apply is_digit_range in Ed. replace (c - 48 <? 10) with true by (symmetry; apply N.ltb_lt; lia). reflexivity.
    - assert (N1 : ~ (48 <= c <= 57)) by (rewrite <- is_digit_range; congruence).
      destruct (N.leb_spec 97 c); destruct (N.leb_spec c 102); cbn [andb]; destruct (N.leb_spec 65 c); destruct (N.leb_spec c 70); cbn [andb]; try lia;
      repeat match goal with |- context [?a <? 10] => destruct (N.ltb_spec a 10) end; try lia; reflexivity. }
  rewrite E. destruct (is_digit c); [|reflexivity]. cbn [andb]. rewrite IH. replace (acc * 10 + (c - 48)) with (10 * acc + (c - 48)) by lia. reflexivity.
Qed.
(** Decimal digits mean what they spell (digits_value is the reading used in C16-C33 as well). *)
Lemma decimal_spelled t v : spelled 10 t v <-> t <> [] /\ forallb is_digit t = true /\ v = digits_value t.
Proof.
  assert (Hne : forall v, spelled 10 t v -> t <> []) by (intros v' H; inversion H; [discriminate|destruct t0; discriminate]).
  split.
  - intros H. assert (Ht := Hne v H). split; [exact Ht|]. apply radix_value_spec in H; [|exact Ht]. rewrite radix10 in H.
    destruct (forallb is_digit t); [|discriminate]. injection H as <-. split; reflexivity.
  - intros (Ht&Hd&->). apply radix_value_spec; [exact Ht|]. rewrite radix10, Hd. reflexivity.
Qed.
Lemma blank_spec c : js_ws c = true <-> blank c.
Proof.
  unfold js_ws, blank. cbn [In]. rewrite !orb_true_iff, !andb_true_iff, !N.leb_le, !N.eqb_eq. intuition auto.
Qed.
Lemma all_blank t : all_ws js_ws t <-> Forall blank t.
Proof.
  unfold all_ws. rewrite !Forall_forall. split; intros H c Hc; specialize (H c Hc).
  - apply blank_spec. exact H.
  - apply blank_spec. exact H.
Qed.
Lemma spelled_no_blank r t v : spelled r t v -> Forall (fun c => js_ws c = false) t.
Proof.
  assert (D : forall c d, digit_char c d -> js_ws c = false).
  { intros c d H. destruct (js_ws c) eqn:E; [|reflexivity]. apply blank_spec in E. apply digit_char_range in H as [_ H].
    unfold blank in E. cbn [In] in E. destruct E as [E|[E|E]]; [lia| |lia]. repeat (destruct E as [<-|E]; [lia|]). contradiction. }
  induction 1; [constructor; [eapply D; eassumption|constructor]|]. apply Forall_app. split; [assumption|]. constructor; [eapply D; eassumption|constructor].
Qed.
Lemma literal_no_blank t z : integer_literal t z -> t <> [] /\ Forall (fun c => js_ws c = false) t.
Proof.
  intros H. inversion H as [? v Hs|? v Hs|? v Hs|x ? v Hx Hs|x ? v Hx Hs|x ? v Hx Hs]; subst; (split; [|]);
    try discriminate; try (inversion Hs; subst; [discriminate|destruct t0; discriminate]);
    try exact (spelled_no_blank _ _ _ Hs);
    try (constructor; [reflexivity|]; exact (spelled_no_blank _ _ _ Hs));
    (constructor; [reflexivity|constructor; [|exact (spelled_no_blank _ _ _ Hs)]]); destruct Hx as [-> | ->]; reflexivity.
Qed.
Definition bigint_core (t : text) : option Z :=
  match t with
  | [] => Some 0%Z
  | [c] => if is_digit c then Some (Z.of_N (c - 48)) else None
  | c :: ((d :: ds) as r) =>
      if c =? c_minus then (if forallb is_digit r then Some (- Z.of_N (digits_value r))%Z else None)
      else if c =? c_plus then (if forallb is_digit r then Some (Z.of_N (digits_value r)) else None)
      else if forallb is_digit (c :: r) then Some (Z.of_N (digits_value (c :: r)))
      else if c =? 48 then
        let radix := if (d =? 120) || (d =? 88) then Some 16
                     else if (d =? 111) || (d =? 79) then Some 8
                     else if (d =? 98) || (d =? 66) then Some 2 else None in
        match radix, ds with
        | Some r, _ :: _ => option_map Z.of_N (radix_value r ds 0)
        | _, _ => None
        end
      else None
  end.
Lemma bigint_core_spec t z : t <> [] -> (bigint_core t = Some z <-> integer_literal t z).
Proof.
  intros Hne. destruct t as [|c [|d ds]]; [contradiction| |].
  - cbn [bigint_core]. split.
    + destruct (is_digit c) eqn:E; [|discriminate]. intros [= <-]. constructor. apply decimal_spelled. split; [discriminate|].
      cbn [forallb]. rewrite E. split; reflexivity.
    + intros H. inversion H as [? v Hs|? v Hs|? v Hs| | |]; subst.
      * apply decimal_spelled in Hs as (_&Hd&->). cbn [forallb] in Hd. destruct (is_digit c); [reflexivity|discriminate].
      * apply decimal_spelled in Hs as (Hx&_). contradiction.
      * apply decimal_spelled in Hs as (Hx&_). contradiction.
  - set (r := d :: ds). assert (Hr : r <> []) by discriminate.
    change (bigint_core (c :: r)) with
     (if c =? c_minus then (if forallb is_digit r then Some (- Z.of_N (digits_value r))%Z else None)
      else if c =? c_plus then (if forallb is_digit r then Some (Z.of_N (digits_value r)) else None)
      else if forallb is_digit (c :: r) then Some (Z.of_N (digits_value (c :: r)))
      else if c =? 48 then
        let radix := if (d =? 120) || (d =? 88) then Some 16
                     else if (d =? 111) || (d =? 79) then Some 8
                     else if (d =? 98) || (d =? 66) then Some 2 else None in
        match radix, ds with
        | Some r, _ :: _ => option_map Z.of_N (radix_value r ds 0)
        | _, _ => None
        end
      else None).
    assert (Hdec : forall l v, spelled 10 l v -> forallb is_digit l = true) by (intros l v H; apply decimal_spelled in H; tauto).
    assert (Hlet : forall l v R, spelled R l v -> l <> []) by (intros l v R H; inversion H; [discriminate|destruct t; discriminate]).
    destruct (N.eqb_spec c c_minus) as [-> |N1].
    { split.
      - destruct (forallb is_digit r) eqn:E; [|discriminate]. intros [= <-]. apply il_minus. apply decimal_spelled. auto.
      - intros H. inversion H as [? v Hs|? v Hs|? v Hs|x t' v Hx Hs|x t' v Hx Hs|x t' v Hx Hs]; subst.
        + apply Hdec in Hs. cbn [forallb] in Hs. discriminate.
        + apply decimal_spelled in Hs as (_&->&->). reflexivity. }
    destruct (N.eqb_spec c c_plus) as [-> |N2].
    { split.
      - destruct (forallb is_digit r) eqn:E; [|discriminate]. intros [= <-]. apply il_plus. apply decimal_spelled. auto.
      - intros H. inversion H as [? v Hs|? v Hs|? v Hs|x t' v Hx Hs|x t' v Hx Hs|x t' v Hx Hs]; subst.
        + apply Hdec in Hs. cbn [forallb] in Hs. discriminate.
        + apply decimal_spelled in Hs as (_&->&->). reflexivity. }
    destruct (forallb is_digit (c :: r)) eqn:E.
    { split.
      - intros [= <-]. apply il_decimal. apply decimal_spelled. split; [discriminate|auto].
      - intros H. assert (Hx : forall x t', r = x :: t' -> is_digit x = true).
        { intros x t' ->. cbn [forallb] in E. apply andb_true_iff in E as [_ E]. apply andb_true_iff in E as [E _]. exact E. }
        inversion H as [? v Hs|? v Hs|? v Hs|x t' v Hy Hs|x t' v Hy Hs|x t' v Hy Hs]; subst;
          try (unfold c_plus, c_minus in *; lia).
        + apply decimal_spelled in Hs as (_&_&->). reflexivity.
        + exfalso. assert (Hd := Hx d ds eq_refl). apply is_digit_range in Hd. lia.
        + exfalso. assert (Hd := Hx d ds eq_refl). apply is_digit_range in Hd. lia.
        + exfalso. assert (Hd := Hx d ds eq_refl). apply is_digit_range in Hd. lia. }
    destruct (N.eqb_spec c 48) as [-> |N3].
    2: { split; [discriminate|]. intros H. exfalso. inversion H as [? v Hs|? v Hs|? v Hs|x t' v Hy Hs|x t' v Hy Hs|x t' v Hy Hs]; subst;
           try (unfold c_plus, c_minus in *; lia). apply Hdec in Hs. congruence. }
    cbv zeta. split.
    + intros H.
      destruct (N.eqb_spec d 120) as [Ha|Ha]; [|destruct (N.eqb_spec d 88) as [Hb|Hb]]; cbn [orb] in H.
      1,2: destruct ds as [|d0 ds]; [discriminate|]; destruct (radix_value 16 (d0 :: ds) 0) as [v|] eqn:Ev; [|discriminate];
        cbn [option_map] in H; injection H as <-; apply il_hex; [auto|]; apply radix_value_spec; [discriminate|exact Ev].
      destruct (N.eqb_spec d 111) as [Hc|Hc]; [|destruct (N.eqb_spec d 79) as [He|He]]; cbn [orb] in H.
      1,2: destruct ds as [|d0 ds]; [discriminate|]; destruct (radix_value 8 (d0 :: ds) 0) as [v|] eqn:Ev; [|discriminate];
        cbn [option_map] in H; injection H as <-; apply il_octal; [auto|]; apply radix_value_spec; [discriminate|exact Ev].
      destruct (N.eqb_spec d 98) as [Hf|Hf]; [|destruct (N.eqb_spec d 66) as [Hg|Hg]]; cbn [orb] in H; [| |discriminate].
      1,2: destruct ds as [|d0 ds]; [discriminate|]; destruct (radix_value 2 (d0 :: ds) 0) as [v|] eqn:Ev; [|discriminate];
        cbn [option_map] in H; injection H as <-; apply il_binary; [auto|]; apply radix_value_spec; [discriminate|exact Ev].
    + intros H. inversion H as [? v Hs|? v Hs|? v Hs|x t' v Hy Hs|x t' v Hy Hs|x t' v Hy Hs]; subst.
      * apply Hdec in Hs. congruence.
      * assert (Hn := Hlet _ _ _ Hs). apply radix_value_spec in Hs; [|exact Hn]. destruct ds as [|d0 ds]; [contradiction|].
        destruct Hy as [-> | ->]; cbn -[radix_value]; rewrite Hs; reflexivity.
      * assert (Hn := Hlet _ _ _ Hs). apply radix_value_spec in Hs; [|exact Hn]. destruct ds as [|d0 ds]; [contradiction|].
        destruct Hy as [-> | ->]; cbn -[radix_value]; rewrite Hs; reflexivity.
      * assert (Hn := Hlet _ _ _ Hs). apply radix_value_spec in Hs; [|exact Hn]. destruct ds as [|d0 ds]; [contradiction|].
        destruct Hy as [-> | ->]; cbn -[radix_value]; rewrite Hs; reflexivity.
Qed.

(** ** C57 *)
(** The package reads a text as a number exactly when JavaScript's grammar does, as the integer it
    spells. *)
Theorem C57_bigint_texts :
  forall t z, js_bigint t = Some z <-> bigint_text t z.
Proof.
  intros t z. change (js_bigint t) with (bigint_core (trim js_ws t)).
  destruct (trim_split js_ws t) as (p&q&Hp&Hq&Ht&Htight). split.
  - intros H. destruct (trim js_ws t) as [|c r] eqn:E.
    + cbn in H. injection H as <-. apply bt_blank. rewrite Ht. cbn [app]. apply Forall_app. split; apply all_blank; assumption.
    + rewrite Ht. apply bt_literal; [apply all_blank; exact Hp| |apply all_blank; exact Hq].
      apply bigint_core_spec; [discriminate|exact H].
  - intros H. inversion H as [t' Hb|p' l q' z' Hp' Hl Hq']; subst.
    + apply all_blank in Hb. assert (E := trim_tight_pad js_ws t [] []). cbn [app] in E. rewrite app_nil_r in E.
      rewrite E; [reflexivity|exact Hb|constructor|]. split; intros c r Hx; [discriminate|destruct r; discriminate].
    + apply all_blank in Hp', Hq'. destruct (literal_no_blank l z Hl) as [Hne Hnb].
      rewrite (trim_tight_pad js_ws p' l q' Hp' Hq').
      * apply bigint_core_spec; assumption.
      * split; intros c r ->; [inversion Hnb; assumption|]. apply Forall_app in Hnb as [_ Hnb]. inversion Hnb. assumption.
Qed.
Print Assumptions C57_bigint_texts.

(** No text has two readings. *)
Theorem C57_one_reading :
  forall t z z', bigint_text t z -> bigint_text t z' -> z = z'.
Proof. intros t z z' H H'. apply C57_bigint_texts in H, H'. congruence. Qed.
Print Assumptions C57_one_reading.

(** The decimal rendering of every integer, negative ones included, is read back. *)
Theorem C57_rendering_round_trip :
  forall z, js_bigint (dec_text_z z) = Some z /\ bigint_text (dec_text_z z) z.
Proof.
  intros z. assert (H : js_bigint (dec_text_z z) = Some z); [|split; [exact H|apply C57_bigint_texts; exact H]].
  destruct (Z.ltb_spec z 0) as [Hz|Hz]; [|apply js_bigint_dec; exact Hz].
  apply C57_bigint_texts. unfold dec_text_z. replace (z <? 0)%Z with true by (symmetry; apply Z.ltb_lt; exact Hz).
  assert (L : integer_literal (c_minus :: dec_text (Z.to_N (- z))) z).
  { replace z with (- Z.of_N (Z.to_N (- z)))%Z at 2 by lia. apply il_minus. apply decimal_spelled.
    destruct (dec_text_spec (Z.to_N (- z))) as (H1&H2&H3). split; [exact H1|]. split; [exact H2|symmetry; exact H3]. }
  assert (B := bt_literal [] _ [] z (Forall_nil _) L (Forall_nil _)). rewrite app_nil_r in B. exact B.
Qed.
Print Assumptions C57_rendering_round_trip.

Example C57_nonvacuous :
  js_bigint (lit " 0xfF ") = Some 255%Z /\ js_bigint (lit "-12") = Some (-12)%Z /\ js_bigint (lit "") = Some 0%Z /\
  js_bigint (lit "-0x1") = None /\ js_bigint (lit "1.0") = None /\ js_bigint (lit "1 2") = None /\ js_bigint (lit "0b102") = None.
Proof. repeat split; vm_compute; reflexivity. Qed.
