(** What the writers write is the text of the value written. *)
From Coq Require Import List Bool Arith NArith ZArith Lia Sorted.
From Coq Require Import Strings.String.
From Verif Require Import Res Text Inputs InputsFacts JsonText SpecJson JsonFacts JsonMore JsonObj.
Import ListNotations.
Local Open Scope N_scope.

(** ** Strings *)
Lemma hex_digit_ok x : x < 16 -> hex_digit_is (hex_digit x) x.
Proof.
  intros H. unfold hex_digit. destruct (N.ltb_spec x 10) as [Hl|Hl].
  - replace x with (48 + x - 48) at 2 by lia. apply hd_digit. lia.
  - replace x with (87 + x - 97 + 10) at 2 by lia. apply hd_lower. lia.
Qed.
Lemma u_escape_ok n : n < 65536 -> exists h, u_escape n = [92; 117] ++ h /\ hex4_is h n.
Proof.
  intros Hn. eexists. split; [reflexivity|]. exists (hex_digit (n / 4096 mod 16)), (hex_digit (n / 256 mod 16)), (hex_digit (n / 16 mod 16)), (hex_digit (n mod 16)).
  exists (n / 4096 mod 16), (n / 256 mod 16), (n / 16 mod 16), (n mod 16). split; [reflexivity|].
  assert (M : forall x, x mod 16 < 16) by (intros; apply N.mod_lt; discriminate).
  repeat (split; [apply hex_digit_ok, M|]).
  assert (E1 : n / 256 = n / 16 / 16) by (rewrite N.div_div by discriminate; reflexivity).
  assert (E2 : n / 4096 = n / 16 / 16 / 16) by (rewrite !N.div_div by discriminate; reflexivity).
  assert (L : n / 16 / 16 / 16 < 16) by (rewrite !N.div_div by discriminate; apply N.div_lt_upper_bound; [discriminate|exact Hn]).
  rewrite E1, E2. rewrite (N.mod_small _ _ L).
  pose proof (N.div_mod' n 16) as D1. pose proof (N.div_mod' (n / 16) 16) as D2. pose proof (N.div_mod' (n / 16 / 16) 16) as D3.
  revert D1 D2 D3. generalize (n mod 16) (n / 16 mod 16) (n / 16 / 16 mod 16). generalize (n / 16 / 16 / 16). generalize (n / 16 / 16). generalize (n / 16). clear. intros. lia.
Qed.
Definition string_ok (lone : bool) (t : text) : Prop := if lone then well_paired t else no_surrogates t.
Lemma string_ok_tail lone c t : string_ok lone (c :: t) -> string_ok lone t.
Proof.
  destruct lone; cbn; [intros H a b hi lo ->; apply (H (c :: a) b hi lo); reflexivity|]. intros H. inversion H; assumption.
Qed.
Lemma in_escapes e c : short_escape e = Some c -> In (e, c) escapes. Proof. apply short_escape_iff. Qed.
(** The first characters of what is written for a character. *)
Lemma write_char_u c r h s m : write_char c ++ r = [92; 117] ++ h ++ s -> hex4_is h m -> m = c \/ ~ low m.
Proof.
  intros E Hm. unfold write_char in E. unfold c_quote, c_back in E.
  destruct (N.eqb_spec c 34); [discriminate E|]. destruct (N.eqb_spec c 92); [discriminate E|]. destruct (N.eqb_spec c 8); [discriminate E|].
  destruct (N.eqb_spec c 12); [discriminate E|]. destruct (N.eqb_spec c 10); [discriminate E|]. destruct (N.eqb_spec c 13); [discriminate E|].
  destruct (N.eqb_spec c 9); [discriminate E|]. destruct ((c <? 32) || is_high c || is_low c) eqn:Ec.
  - left. assert (Hc : c < 65536).
    { apply orb_prop in Ec as [Ec|Ec]; [apply orb_prop in Ec as [Ec|Ec]|].
      - apply N.ltb_lt in Ec. lia.
      - apply is_high_iff in Ec. unfold high in Ec. lia.
      - apply is_low_iff in Ec. unfold low in Ec. lia. }
    destruct (u_escape_ok c Hc) as (h'&Eh&H'). rewrite Eh, <- app_assoc in E.
    apply hex4_is_inv in Hm as (x&y&z&u&->&Hm). apply hex4_is_inv in H' as (x'&y'&z'&u'&->&H'). cbn [app] in E. injection E as <- <- <- <- _. congruence.
  - injection E as -> _. congruence.
Qed.
Lemma write_string_body lone t : string_ok lone t -> string_body lone (flat_map write_char t) t.
Proof.
  induction t as [|c t IH]; intros H; [constructor|]. specialize (IH (string_ok_tail _ _ _ H)). cbn [flat_map].
  unfold write_char at 1. unfold c_quote, c_back.
  destruct (N.eqb_spec c 34) as [->|H34]; [apply (sb_short lone 34 34); [apply in_escapes; reflexivity|exact IH]|].
  destruct (N.eqb_spec c 92) as [->|H92]; [apply (sb_short lone 92 92); [apply in_escapes; reflexivity|exact IH]|].
  destruct (N.eqb_spec c 8) as [->|H8]; [apply (sb_short lone 98 8); [apply in_escapes; reflexivity|exact IH]|].
  destruct (N.eqb_spec c 12) as [->|H12]; [apply (sb_short lone 102 12); [apply in_escapes; reflexivity|exact IH]|].
  destruct (N.eqb_spec c 10) as [->|H10]; [apply (sb_short lone 110 10); [apply in_escapes; reflexivity|exact IH]|].
  destruct (N.eqb_spec c 13) as [->|H13]; [apply (sb_short lone 114 13); [apply in_escapes; reflexivity|exact IH]|].
  destruct (N.eqb_spec c 9) as [->|H9]; [apply (sb_short lone 116 9); [apply in_escapes; reflexivity|exact IH]|].
  destruct (is_high c) eqn:Eh; [|destruct (is_low c) eqn:El].
  - apply is_high_iff in Eh. rewrite orb_true_r. cbn [orb]. destruct (u_escape_ok c) as (h&->&Hh); [unfold high in Eh; lia|]. rewrite <- app_assoc.
    destruct lone; [|exfalso; cbn in H; inversion H as [|? ? [Hx _] _]; subst; contradiction].
    apply sb_lone; [reflexivity|exact Hh|auto| |exact IH]. intros _ h' m s' E Hm Hl.
    destruct t as [|c' t]; [discriminate E|]. cbn [flat_map] in E. destruct (write_char_u c' _ h' s' m E Hm) as [->|Hn]; [|contradiction].
    apply (H [] t c c' eq_refl Eh). exact Hl.
  - apply is_low_iff in El. rewrite orb_true_r. cbn [orb]. destruct (u_escape_ok c) as (h&->&Hh); [unfold low in El; lia|]. rewrite <- app_assoc.
    destruct lone; [|exfalso; cbn in H; inversion H as [|? ? [_ Hx] _]; subst; contradiction].
    apply sb_lone; [reflexivity|exact Hh|auto| |exact IH]. intros Hx. exfalso. unfold high, low in *. lia.
  - rewrite !orb_false_r. apply is_high_false in Eh. apply is_low_false in El. destruct (N.ltb_spec c 32) as [Hl|Hl].
    + destruct (u_escape_ok c) as (h&->&Hh); [lia|]. rewrite <- app_assoc. apply sb_unicode; assumption.
    + apply sb_plain; assumption.
Qed.
Lemma write_string_ok lone t : string_ok lone t -> string_text lone (write_string t) t.
Proof. intros H. exists (flat_map write_char t). split; [reflexivity|]. apply write_string_body. exact H. Qed.

(** ** Values *)
Section Write.
  Context (number : text -> option json) (object : list (text * json) -> list (text * json)) (lone : bool).
  Notation value := (value number object lone).
  Notation elements := (elements number object lone).
  Notation members := (members number object lone).
  Definition scalar_ok (v : json) : Prop :=
    match v with
    | JNull | JBool _ => True
    | JInt z => number (dec_text_z z) = Some v
    | JFloat t => number_token t /\ number t = Some v
    | JStr t => string_ok lone t
    | _ => False
    end.
  Inductive plain : nat -> json -> Prop :=
  | p_scalar d v : scalar_ok v -> plain d v
  | p_arr d l : Forall (plain d) l -> plain (S d) (JArr l)
  | p_obj d kvs : object kvs = kvs -> Forall (fun kv => string_ok lone (fst kv) /\ plain d (snd kv)) kvs -> plain (S d) (JObj kvs).
  Lemma plain_mono v : forall d d', plain d v -> (d <= d')%nat -> plain d' v.
  Proof.
    induction v as [|b|z|t|t|l IH|l IH] using json_ind'; intros d d' H Hd; inversion H as [? ? Hs|d0 l0 Hl|d0 l0 Ho Hl]; subst; try (apply p_scalar; exact Hs); try contradiction.
    - destruct d' as [|d']; [lia|]. apply p_arr. rewrite Forall_forall in *. intros x Hx. eapply IH; [exact Hx|apply Hl; exact Hx|lia].
    - destruct d' as [|d']; [lia|]. apply p_obj; [exact Ho|]. rewrite Forall_forall in *. intros x Hx. destruct (Hl x Hx) as [H1 H2]. split; [exact H1|].
      eapply IH; [exact Hx|exact H2|lia].
  Qed.
  Lemma scalar_value d v : scalar_ok v -> value d (write_scalar v) v.
  Proof.
    destruct v as [|b|z|t|t|l|l]; intros H; cbn [write_scalar scalar_ok] in *; try contradiction.
    - constructor.
    - destruct b; constructor.
    - apply v_number; [eapply int_value_number_token, dec_z_value|exact H].
    - rewrite (token_has_digit t (proj1 H)). apply v_number; apply H.
    - apply v_string, write_string_ok, H.
  Qed.
  Lemma elements_sep d w w1 : blanks w -> blanks w1 -> forall items : list (text * json), items <> [] -> Forall (fun i => value d (fst i) (snd i)) items ->
    elements d (w ++ sep_by (lit "," ++ w) (map fst items) ++ w1) (map snd items).
  Proof.
    intros Hw Hw1. induction items as [|[s v] items IH]; intros Hn Hf; [congruence|]. inversion Hf as [|? ? Hv Hf']; subst. cbn [fst snd] in Hv.
    destruct items as [|i items].
    - cbn [map sep_by fst snd]. apply el_last; assumption.
    - cbn [map fst snd]. specialize (IH ltac:(discriminate) Hf'). cbn [map fst snd] in IH.
      change (sep_by (lit "," ++ w) (s :: fst i :: map fst items)) with (s ++ (lit "," ++ w) ++ sep_by (lit "," ++ w) (fst i :: map fst items)).
      rewrite <- !app_assoc. apply (el_more number object lone d w s [] (w ++ sep_by (lit "," ++ w) (fst i :: map fst items) ++ w1)); try assumption. constructor.
  Qed.
  Lemma members_sep d w w1 w2 : blanks w -> blanks w1 -> blanks w2 -> forall items : list (text * (text * json)), items <> [] ->
    Forall (fun i => string_ok lone (fst (snd i)) /\ value d (fst i) (snd (snd i))) items ->
    members d (w ++ sep_by (lit "," ++ w) (map (fun i => write_string (fst (snd i)) ++ lit ":" ++ w2 ++ fst i) items) ++ w1) (map snd items).
  Proof.
    intros Hw Hw1 Hw2. induction items as [|[s [k v]] items IH]; intros Hn Hf; [congruence|]. inversion Hf as [|? ? [Hk Hv] Hf']; subst. cbn [fst snd] in Hk, Hv.
    apply write_string_ok in Hk. destruct items as [|i items].
    - cbn [map sep_by fst snd]. rewrite <- !app_assoc. apply (me_last number object lone d w (write_string k) s [] w2 w1); try assumption. constructor.
    - cbn [map fst snd]. specialize (IH ltac:(discriminate) Hf'). cbn [map fst snd] in IH.
      match goal with |- context [sep_by ?x (?a :: ?b :: ?r)] => change (sep_by x (a :: b :: r)) with (a ++ x ++ sep_by x (b :: r)) end.
      rewrite <- !app_assoc.
      match type of IH with members _ ?t _ => apply (me_more number object lone d w (write_string k) s [] w2 [] t) end; try assumption; constructor.
  Qed.
  Lemma indent_blanks n : blanks (indent n).
  Proof. unfold indent. constructor; [right; right; left; reflexivity|]. apply Forall_forall. intros x Hx. apply repeat_spec in Hx. left. exact Hx. Qed.
  Lemma space_blanks : blanks (lit " ").
  Proof. constructor; [left; reflexivity|constructor]. Qed.
  Lemma write_values v : forall d, plain d v -> value d (stringify v) v /\ forall n, value d (pretty n v) v.
  Proof.
    induction v as [|b|z|t|t|l IH|l IH] using json_ind'; intros d H; inversion H as [? ? Hs|d0 l0 Hl|d0 l0 Ho Hl]; subst;
      try (assert (G := scalar_value d _ Hs); split; [exact G|intros n; exact G]); try contradiction.
    - assert (F1 : Forall (fun i => value d0 (fst i) (snd i)) (map (fun v => (stringify v, v)) l)).
      { apply Forall_map. rewrite Forall_forall in *. intros x Hx. cbn. apply (IH x Hx). apply Hl. exact Hx. }
      assert (F2 : forall n, Forall (fun i => value d0 (fst i) (snd i)) (map (fun v => (pretty n v, v)) l)).
      { intros n. apply Forall_map. rewrite Forall_forall in *. intros x Hx. cbn. apply (IH x Hx). apply Hl. exact Hx. }
      destruct l as [|x l].
      + split; [|intros n]; apply (v_array_empty number object lone d0 []); constructor.
      + split.
        * cbn [stringify]. apply v_array.
          assert (G := elements_sep d0 [] [] no_blanks no_blanks (map _ (x :: l)) (fun E => eq_ind (map _ (x :: l)) (fun q => match q with [] => False | _ => True end) I [] E) F1). rewrite !map_map in G. cbn [fst snd] in G. rewrite map_id, app_nil_r in G. exact G.
        * intros n. change (pretty n (JArr (x :: l))) with (lit "[" ++ indent (S n) ++ sep_by (lit "," ++ indent (S n)) (map (pretty (S n)) (x :: l)) ++ indent n ++ lit "]").
          assert (G := elements_sep d0 (indent (S n)) (indent n) (indent_blanks _) (indent_blanks _) (map _ (x :: l)) (fun E => eq_ind (map _ (x :: l)) (fun q => match q with [] => False | _ => True end) I [] E) (F2 (S n))). rewrite !map_map in G. cbn [fst snd] in G. rewrite map_id in G.
          apply v_array in G. rewrite <- !app_assoc in G. exact G.
    - assert (F1 : Forall (fun i => string_ok lone (fst (snd i)) /\ value d0 (fst i) (snd (snd i))) (map (fun kv => (stringify (snd kv), kv)) l)).
      { apply Forall_map. rewrite Forall_forall in *. intros x Hx. cbn. destruct (Hl x Hx) as [H1 H2]. split; [exact H1|]. apply (IH x Hx). exact H2. }
      assert (F2 : forall n, Forall (fun i => string_ok lone (fst (snd i)) /\ value d0 (fst i) (snd (snd i))) (map (fun kv => (pretty n (snd kv), kv)) l)).
      { intros n. apply Forall_map. rewrite Forall_forall in *. intros x Hx. cbn. destruct (Hl x Hx) as [H1 H2]. split; [exact H1|]. apply (IH x Hx). exact H2. }
      rewrite <- Ho at 2. destruct l as [|x l].
      + split; [|intros n]; [|rewrite <- Ho at 2]; apply (v_object_empty number object lone d0 []); constructor.
      + split.
        * cbn [stringify]. apply v_object.
          assert (G := members_sep d0 [] [] [] no_blanks no_blanks no_blanks (map _ (x :: l)) (fun E => eq_ind (map _ (x :: l)) (fun q => match q with [] => False | _ => True end) I [] E) F1). rewrite !map_map in G. cbn [fst snd app] in G. rewrite map_id, app_nil_r in G.
          erewrite map_ext; [exact G|]. intros [k y]. reflexivity.
        * intros n. rewrite <- Ho at 2.
          assert (G := members_sep d0 (indent (S n)) (indent n) (lit " ") (indent_blanks _) (indent_blanks _) space_blanks (map _ (x :: l)) (fun E => eq_ind (map _ (x :: l)) (fun q => match q with [] => False | _ => True end) I [] E) (F2 (S n))).
          rewrite !map_map in G. cbn [fst snd] in G. rewrite map_id in G. apply v_object in G. rewrite <- !app_assoc in G.
          change (pretty n (JObj (x :: l))) with (lit "{" ++ indent (S n) ++
            sep_by (lit "," ++ indent (S n)) (map (fun kv => match kv with (k, v) => write_string k ++ lit ": " ++ pretty (S n) v end) (x :: l)) ++ indent n ++ lit "}").
          erewrite map_ext; [exact G|]. intros [k y]. reflexivity.
  Qed.
End Write.
