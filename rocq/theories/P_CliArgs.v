(** Property theorems C49: the command line.  Vocabulary: SpecCliArgs.v. *)
From Coq Require Import List Bool Arith NArith Lia Permutation.
From Coq Require Import Strings.String.
From Verif Require Import Res Text CliArgs SpecCliArgs.
Import ListNotations.
Local Open Scope N_scope.

(** What the parser needs of a table: long names distinct, not empty, without "=", not "help"; no
    letter is a dash or "=". *)
Record table_ok (os : list option_t) : Prop := {
  tb_long : NoDup (map o_long os);
  tb_name : Forall (fun o => o_long o <> [] /\ ~ In 61 (o_long o) /\ o_long o <> lit "help") os;
  tb_short : Forall (fun o => o_short o <> Some 45) os;
  tb_flag : Forall (fun o => o_value o = false -> o_short o = None) os
}.
Lemma options_ok c : table_ok (options c).
Proof.
  destruct c; constructor; cbn [options map field o_long o_short o_value];
    try (repeat constructor; cbn; intuition discriminate);
    try (repeat (constructor; [intros H; cbn [In] in H; repeat (destruct H as [H|H]; [discriminate|]); exact H|]); constructor).
Qed.

Section Table.
  Context (os : list option_t) (Hos : table_ok os).
  Lemma find_long_in name o : find_long os name = Some o <-> In o os /\ o_long o = name.
  Proof.
    unfold find_long. split.
    - intros H. apply find_some in H as [H1 H2]. apply text_eqb_eq in H2. auto.
    - intros [Hi <-]. assert (Hn := tb_long _ Hos). clear Hos. induction os as [|x l IH]; [contradiction|]. cbn [find map] in *.
      inversion Hn as [|? ? Hni Hn']; subst. destruct Hi as [->|Hi]; [rewrite text_eqb_refl; reflexivity|].
      destruct (text_eqb (o_long x) (o_long o)) eqn:E; [|apply IH; assumption].
      exfalso. apply Hni. apply text_eqb_eq in E. rewrite E. apply in_map. exact Hi.
  Qed.
  Lemma find_short_owns s o : find_short os s = Some o <-> owns os o s.
  Proof.
    unfold find_short, owns. clear Hos. induction os as [|x l IH]; cbn [find].
    - split; [discriminate|]. intros (b&a&H&_). destruct b; discriminate.
    - destruct (o_short x) as [t|] eqn:Ex; [destruct (N.eqb_spec t s) as [->|Hne]|].
      + split.
        * intros H. assert (x = o) by congruence. subst o. exists [], l. auto.
        * intros (b&a&H&H1&H2). destruct b as [|y b]; cbn [app] in H; injection H as <- H; [reflexivity|]. inversion H2; subst. congruence.
      + rewrite IH. split; intros (b&a&H&H1&H2).
        * exists (x :: b), a. subst l. repeat split; auto. constructor; [congruence|exact H2].
        * destruct b as [|y b]; cbn [app] in H; injection H as <- H; [congruence|]. inversion H2; subst. exists b, a. auto.
      + rewrite IH. split; intros (b&a&H&H1&H2).
        * exists (x :: b), a. subst l. repeat split; auto. constructor; [congruence|exact H2].
        * destruct b as [|y b]; cbn [app] in H; injection H as <- H; [congruence|]. inversion H2; subst. exists b, a. auto.
  Qed.
  Lemma owns_in o s : owns os o s -> In o os.
  Proof. intros (b&a&->&_). apply in_or_app. right. left. reflexivity. Qed.
  Lemma cut_eq_spec t : forall n v, cut_eq t = (n, v) <-> ~ In 61 n /\ t = n ++ match v with Some v => 61 :: v | None => [] end.
  Proof.
    induction t as [|c t IH]; intros n v; cbn [cut_eq].
    - split.
      + intros H. injection H as <- <-. auto.
      + intros [_ H]. destruct n; [|discriminate]. destruct v; [discriminate|reflexivity].
    - unfold c_eq. destruct (N.eqb_spec c 61) as [->|Hc].
      + split.
        * intros H. injection H as <- <-. auto.
        * intros [Hn H]. destruct n as [|d n].
          -- destruct v as [v|]; [|discriminate]. cbn [app] in H. injection H as ->. reflexivity.
          -- cbn [app] in H. injection H as <- H. exfalso. apply Hn. left. reflexivity.
      + destruct (cut_eq t) as [n' v'] eqn:Ec. destruct (proj1 (IH n' v') eq_refl) as [H1 H2]. split.
        * intros H. injection H as <- <-. split; [intros [H|H]; [congruence|contradiction]|]. cbn [app]. congruence.
        * intros [Hn H]. destruct n as [|d n].
          -- destruct v as [v|]; [cbn [app] in H; congruence|discriminate].
          -- cbn [app] in H. injection H as <- H. assert (Hx : (n', v') = (n, v)) by (apply IH; split; [intros Hi; apply Hn; right; exact Hi|exact H]).
             injection Hx as Hx1 Hx2. rewrite Hx1, Hx2. reflexivity.
  Qed.
  Lemma looks_new_spec v : looks_new v = false <-> not_an_option v.
  Proof.
    unfold looks_new, not_an_option, c_dash. destruct v as [|c [|d r]].
    - split; auto.
    - split; [|auto]. intros _. destruct (N.eq_dec c 45) as [->|H]; [auto|]. right. right. eauto.
    - destruct (N.eqb_spec c 45) as [->|H]; split; auto; try discriminate.
      + intros [H|[H|(c'&r'&H&Hn)]]; [discriminate|discriminate|]. congruence.
      + intros _. right. right. eauto.
  Qed.

  (** The first argument, read as an option. *)
  Inductive first (o : option_t) : option text -> text -> Prop :=
  | f_long : first o None (lit "--" ++ o_long o)
  | f_long_eq v : first o (Some v) (lit "--" ++ o_long o ++ lit "=" ++ v)
  | f_short s : owns os o s -> first o None [45; s]
  | f_short_eq s v : owns os o s -> first o (Some v) ([45; s] ++ lit "=" ++ v)
  | f_attached s c r : owns os o s -> c <> 61 -> first o (Some (c :: r)) ([45; s] ++ c :: r).
  Lemma kind_option a o v : arg_kind_of os a = KOption o v <-> In o os /\ first o v a.
  Proof.
    split.
    - unfold arg_kind_of, c_dash. destruct a as [|c [|d r]]; try discriminate. destruct (N.eqb_spec c 45) as [->|]; [|discriminate].
      destruct (N.eqb_spec d 45) as [->|Hd].
      + destruct r as [|x r]; [discriminate|]. destruct (cut_eq (x :: r)) as [n v'] eqn:Ec. apply cut_eq_spec in Ec as [_ Ec]. rewrite Ec.
        destruct (find_long os n) as [o'|] eqn:Ef; [|destruct (text_eqb n _); destruct v'; discriminate].
        intros H. injection H as -> ->. apply find_long_in in Ef as [Hi <-]. split; [exact Hi|].
        destruct v as [v|]; [exact (f_long_eq o v)|]. rewrite app_nil_r. exact (f_long o).
      + destruct (find_short os d) as [o'|] eqn:Ef; [|destruct (d =? 104); discriminate].
        intros H. injection H as -> <-. apply find_short_owns in Ef. split; [eapply owns_in; exact Ef|].
        unfold attached, c_eq. destruct r as [|x r]; [exact (f_short o d Ef)|]. destruct (N.eqb_spec x 61) as [->|Hx].
        * exact (f_short_eq o d r Ef).
        * exact (f_attached o d x r Ef Hx).
    - intros [Hi Hf]. assert (Hn := tb_name _ Hos). rewrite Forall_forall in Hn. destruct (Hn o Hi) as (Hn1&Hn2&_).
      assert (Hlong : forall v, arg_kind_of os (45 :: 45 :: o_long o ++ match v with Some v => 61 :: v | None => [] end) = KOption o v).
      { intros v0. unfold arg_kind_of, c_dash. rewrite !N.eqb_refl.
        assert (Hc : cut_eq (o_long o ++ match v0 with Some v => 61 :: v | None => [] end) = (o_long o, v0)) by (apply cut_eq_spec; auto).
        assert (Hl : find_long os (o_long o) = Some o) by (apply find_long_in; auto).
        destruct (o_long o ++ match v0 with Some v => 61 :: v | None => [] end) as [|x r] eqn:Ee.
        - exfalso. destruct (o_long o); [congruence|discriminate].
        - rewrite Hc, Hl. reflexivity. }
      assert (Hshort : forall s r, owns os o s -> arg_kind_of os (45 :: s :: r) = KOption o (attached r)).
      { intros s r Ho. unfold arg_kind_of, c_dash. rewrite N.eqb_refl. assert (Hs : s <> 45).
        { intros ->. assert (Ht := tb_short _ Hos). rewrite Forall_forall in Ht. apply (Ht o (owns_in _ _ Ho)). destruct Ho as (b&c&_&H&_). exact H. }
        apply N.eqb_neq in Hs. rewrite Hs. apply find_short_owns in Ho. rewrite Ho. reflexivity. }
      inversion Hf as [E1 E2|v' E1 E2|s Ho E1 E2|s v' Ho E1 E2|s c r Ho Hc E1 E2]; subst.
      + rewrite <- (app_nil_r (o_long o)) at 1. exact (Hlong None).
      + exact (Hlong (Some v')).
      + rewrite Hshort by exact Ho. reflexivity.
      + cbn [app]. rewrite Hshort by exact Ho. reflexivity.
      + cbn [app]. rewrite Hshort by exact Ho. unfold attached, c_eq. apply N.eqb_neq in Hc. rewrite Hc. reflexivity.
  Qed.
  Lemma kind_escape a : arg_kind_of os a = KEscape <-> a = lit "--".
  Proof.
    split; [|intros ->; reflexivity]. unfold arg_kind_of, c_dash. destruct a as [|c [|d r]]; try discriminate. destruct (N.eqb_spec c 45) as [->|]; [|discriminate].
    destruct (N.eqb_spec d 45) as [->|Hd].
    - destruct r as [|x r]; [reflexivity|]. destruct (cut_eq (x :: r)) as [n v]. destruct (find_long os n); [discriminate|].
      destruct (text_eqb n _); destruct v; discriminate.
    - destruct (find_short os d); [discriminate|]. destruct (d =? 104); discriminate.
  Qed.
  Lemma put_match_spec o v m m' : put_match o v m = Ok m' <-> ~ In (o_long o) (map fst m) /\ m' = (o_long o, v) :: m.
  Proof.
    unfold put_match. destruct (existsb _ m) eqn:E.
    - split; [discriminate|]. intros [H _]. exfalso. apply existsb_exists in E as (kv&H1&H2). apply text_eqb_eq in H2. apply H. rewrite <- H2. apply in_map. exact H1.
    - split; [|intros [_ ->]; reflexivity]. intros H. injection H as <-. split; [|reflexivity]. intros Hi. apply in_map_iff in Hi as (kv&H1&H2).
      assert (Hx : existsb (fun kv => text_eqb (fst kv) (o_long o)) m = true) by (apply existsb_exists; exists kv; split; [exact H2|rewrite H1; apply text_eqb_refl]).
      congruence.
  Qed.
  Lemma first_gives o v p : In o os -> o_value o = true ->
    (gives (o_long o) (owns os o) v p <-> (exists a, p = [a] /\ first o (Some v) a) \/ (exists a, p = [a; v] /\ first o None a /\ looks_new v = false)).
  Proof.
    intros Hi Hv. split.
    - intros H. inversion H as [H1 E|E|s H1 H2 E|s H1 E|s c r H1 H2 H3 E]; subst.
      + right. eexists. split; [reflexivity|]. split; [constructor|apply looks_new_spec; exact H1].
      + left. eexists. split; [reflexivity|constructor].
      + right. eexists. split; [reflexivity|]. split; [constructor; exact H1|apply looks_new_spec; exact H2].
      + left. eexists. split; [reflexivity|constructor; exact H1].
      + left. eexists. split; [reflexivity|constructor; assumption].
    - intros [(a&->&Hf)|(a&->&Hf&Hl)].
      + inversion Hf as [E1 E2|v' E1 E2|s Ho E1 E2|s v' Ho E1 E2|s c r Ho Hc E1 E2]; subst.
        * apply gv_long_eq.
        * apply gv_short_eq. exact Ho.
        * apply gv_attached with (c := c) (r := r); auto.
      + apply looks_new_spec in Hl. inversion Hf as [E1 E2|v' E1 E2|s Ho E1 E2|s v' Ho E1 E2|s c r Ho Hc E1 E2]; subst.
        * apply gv_long. exact Hl.
        * apply gv_short; assumption.
  Qed.
  (** A flag cannot be written with a letter (none has one). *)
  Lemma first_flag o a : In o os -> o_value o = false -> first o None a -> a = lit "--" ++ o_long o.
  Proof.
    intros Hi Hv Hf. inversion Hf as [E1 E2|v' E1 E2|s Ho E1 E2|s v' Ho E1 E2|s c r Ho Hc E1 E2]; subst; [reflexivity|].
    exfalso. assert (Ht := tb_flag _ Hos). rewrite Forall_forall in Ht. specialize (Ht o Hi Hv). destruct Ho as (b&c&_&H&_). congruence.
  Qed.

  Lemma parse_args_sound : forall args m m', parse_args os args m = Ok m' ->
    exists l, writes os l args /\ m' = rev l ++ m /\ (NoDup (map fst m) -> NoDup (map fst m')).
  Proof.
    fix IH 1. intros [|a rest] m m' H; cbn [parse_args] in H.
    - injection H as <-. exists []. split; [constructor|]. auto.
    - destruct (arg_kind_of os a) as [| |o v| |] eqn:Ek; try discriminate.
      + destruct rest; [|discriminate]. injection H as <-. apply kind_escape in Ek. subst a. exists []. split; [constructor|]. auto.
      + apply kind_option in Ek as [Hi Hf].
        assert (Hnd : forall v, ~ In (o_long o) (map fst m) -> NoDup (map fst m) -> NoDup (map fst ((o_long o, v) :: m))).
        { intros v0 H1 H2. cbn [map fst]. constructor; assumption. }
        destruct (o_value o) eqn:Eo.
        * destruct v as [v|].
          -- destruct (put_match o v m) as [m1| |] eqn:Ep; try discriminate. apply put_match_spec in Ep as [Hn ->].
             destruct (IH rest _ _ H) as (l&Hw&->&Hd). exists ((o_long o, v) :: l).
             split; [apply (w_value os o v [a] l rest Hi Eo); [apply first_gives; eauto|exact Hw]|].
             split; [cbn [rev]; rewrite <- app_assoc; reflexivity|]. auto.
          -- destruct rest as [|v rest]; [discriminate|]. destruct (looks_new v) eqn:El; [discriminate|].
             destruct (put_match o v m) as [m1| |] eqn:Ep; try discriminate. apply put_match_spec in Ep as [Hn ->].
             destruct (IH rest _ _ H) as (l&Hw&->&Hd). exists ((o_long o, v) :: l).
             split; [apply (w_value os o v [a; v] l rest Hi Eo); [apply first_gives; eauto|exact Hw]|].
             split; [cbn [rev]; rewrite <- app_assoc; reflexivity|]. auto.
        * destruct v as [v|]; [discriminate|].
          destruct (put_match o (lit "true") m) as [m1| |] eqn:Ep; try discriminate. apply put_match_spec in Ep as [Hn ->].
          destruct (IH rest _ _ H) as (l&Hw&->&Hd). exists ((o_long o, lit "true") :: l).
          split; [rewrite (first_flag o a Hi Eo Hf); apply w_flag; assumption|].
          split; [cbn [rev]; rewrite <- app_assoc; reflexivity|]. auto.
  Qed.
  Lemma parse_args_complete l args : writes os l args -> forall m, NoDup (map fst (rev l ++ m)) -> parse_args os args m = Ok (rev l ++ m).
  Proof.
    induction 1 as [| |o v p l args Hi Ho Hg Hw IH|o l args Hi Ho Hw IH]; intros m Hn.
    - reflexivity.
    - reflexivity.
    - assert (Hn' : NoDup (map fst (rev l ++ (o_long o, v) :: m))) by (cbn [rev] in Hn; rewrite <- app_assoc in Hn; exact Hn).
      assert (Hp : put_match o v m = Ok ((o_long o, v) :: m)).
      { apply put_match_spec. split; [|reflexivity]. rewrite map_app in Hn'. cbn [map fst] in Hn'. apply NoDup_remove_2 in Hn'.
        intros H. apply Hn'. apply in_or_app. right. exact H. }
      specialize (IH _ Hn'). cbn [rev]. rewrite <- app_assoc. cbn [app].
      apply first_gives in Hg as [(a&->&Hf)|(a&->&Hf&Hl)]; [| |exact Hi|exact Ho].
      + cbn [app parse_args]. rewrite (proj2 (kind_option a o (Some v)) (conj Hi Hf)), Ho, Hp. exact IH.
      + cbn [app parse_args]. rewrite (proj2 (kind_option a o None) (conj Hi Hf)), Ho, Hl, Hp. exact IH.
    - set (v := lit "true") in *.
      assert (Hn' : NoDup (map fst (rev l ++ (o_long o, v) :: m))) by (cbn [rev] in Hn; rewrite <- app_assoc in Hn; exact Hn).
      assert (Hp : put_match o v m = Ok ((o_long o, v) :: m)).
      { apply put_match_spec. split; [|reflexivity]. rewrite map_app in Hn'. cbn [map fst] in Hn'. apply NoDup_remove_2 in Hn'.
        intros H. apply Hn'. apply in_or_app. right. exact H. }
      specialize (IH _ Hn'). cbn [rev]. rewrite <- app_assoc. cbn [app parse_args].
      rewrite (proj2 (kind_option _ o None) (conj Hi (f_long o))), Ho. fold v. rewrite Hp. exact IH.
  Qed.
End Table.

Lemma get_match_in m name v : NoDup (map fst m) -> (get_match name m = Some v <-> In (lit name, v) m).
Proof. intros Hn. apply hm_get_in. exact Hn. Qed.
Lemma get_match_none m name : get_match name m = None <-> ~ In (lit name) (map fst m).
Proof. apply hm_get_none. Qed.
Lemma to_request_iff c m r : NoDup (map fst m) -> (to_request c m = Ok r <-> asks m c r).
Proof.
  intros Hn. assert (G := fun name v => get_match_in m name v Hn). assert (G0 := get_match_none m "no-public-input"). unfold says.
  split.
  - unfold to_request, need. intros H. destruct c;
      repeat match type of H with context [get_match ?n m] => 
        let E := fresh "E" in destruct (get_match n m) eqn:E; [apply G in E|try discriminate H] end;
      injection H as <-; econstructor; try eassumption.
    + apply (in_map fst) in E4. exact E4.
    + apply G0. reflexivity.
  - intros H. unfold to_request, need. inversion H as [c' s i ct k H1 H2 H3 H4 H5|c' w ct k H1 H2 H3 H4|c' s i msg o H1 H2 H3 H4 H5 H6|c' s i msg o H1 H2 H3 H4 H5 H6|c' w ct o H1 H2 H3 H4]; subst;
      apply G in H1; apply G in H2; apply G in H3; apply G in H4; try apply G in H5.
    + rewrite H1, H2, H3, H4, H5. reflexivity.
    + rewrite H1, H2, H3, H4. reflexivity.
    + apply G0 in H6. rewrite H1, H2, H3, H4, H5, H6. reflexivity.
    + rewrite H1, H2, H3, H4, H5. destruct (get_match "no-public-input" m); [reflexivity|]. exfalso. apply G0; [reflexivity|exact H6].
    + rewrite H1, H2, H3, H4. reflexivity.
Qed.
Lemma asks_same m m' c r : (forall x, In x m <-> In x m') -> asks m c r -> asks m' c r.
Proof.
  intros H. assert (H' : forall k, In k (map fst m) <-> In k (map fst m')).
  { intros k. rewrite !in_map_iff. split; intros (x&Hx&Hi); exists x; (split; [exact Hx|apply H; exact Hi]). }
  intros Ha. inversion Ha; subst; unfold says in *; econstructor; unfold says; try (apply H; eassumption).
  - rewrite <- H'. assumption.
  - rewrite <- H'. assumption.
Qed.
Lemma find_name c : find_subcommand (subcommand_name c) = Some c.
Proof. destruct c; reflexivity. Qed.

(** A release build carries out a command line exactly when it gives every required option one value
    and no option two; the command gets the value given for each of its fields. *)
Theorem C49_command_line_iff :
  forall c args r,
    cli_parse false (subcommand_name c :: args) = Ok r <->
    exists l, writes (options c) l args /\ NoDup (map fst l) /\ asks l c r.
Proof.
  intros c args r. unfold cli_parse. rewrite find_name. cbn [andb]. assert (Hok := options_ok c).
  assert (Hrev : forall (l : list (text * text)) x, In x (rev l ++ []) <-> In x l) by (intros l x; rewrite app_nil_r; symmetry; apply in_rev).
  assert (Hnd : forall l : list (text * text), NoDup (map fst (rev l ++ [])) <-> NoDup (map fst l)).
  { intros l. rewrite app_nil_r, map_rev. split; intros H; [rewrite <- (rev_involutive (map fst l))|]; apply NoDup_rev; exact H. }
  split.
  - destruct (parse_args (options c) args []) as [m| |] eqn:E; try discriminate. intros H.
    destruct (parse_args_sound _ Hok _ _ _ E) as (l&Hw&->&Hn). specialize (Hn (NoDup_nil _)). exists l. split; [exact Hw|].
    split; [apply Hnd; exact Hn|]. apply to_request_iff in H; [|exact Hn]. eapply asks_same; [|exact H]. apply Hrev.
  - intros (l&Hw&Hn&Ha). rewrite (parse_args_complete _ Hok l args Hw []) by (apply Hnd; exact Hn).
    apply to_request_iff; [apply Hnd; exact Hn|]. eapply asks_same; [|exact Ha]. intros x. symmetry. apply Hrev.
Qed.
Print Assumptions C49_command_line_iff.
(** The order of the options does not matter. *)
Theorem C49_any_order :
  forall c l l' args args' r, writes (options c) l args -> writes (options c) l' args' -> Permutation l l' -> NoDup (map fst l) ->
    cli_parse false (subcommand_name c :: args) = Ok r -> cli_parse false (subcommand_name c :: args') = Ok r.
Proof.
  intros c l l' args args' r Hw Hw' Hp Hn H. apply C49_command_line_iff.
  assert (Hn' : NoDup (map fst l')) by (eapply Permutation_NoDup; [apply Permutation_map; exact Hp|exact Hn]).
  exists l'. split; [exact Hw'|]. split; [exact Hn'|].
  unfold cli_parse in H. rewrite find_name in H. cbn [andb] in H.
  assert (Hnr : NoDup (map fst (rev l ++ []))) by (rewrite app_nil_r, map_rev; apply NoDup_rev; exact Hn).
  rewrite (parse_args_complete _ (options_ok c) l args Hw []) in H by exact Hnr.
  apply to_request_iff in H; [|exact Hnr]. eapply asks_same; [|exact H]. intros x. rewrite app_nil_r, <- in_rev.
  split; apply Permutation_in; [exact Hp|symmetry; exact Hp].
Qed.
Print Assumptions C49_any_order.
(** encrypt and decrypt: every letter belongs to one option, in debug builds too. *)
Theorem C49_encrypt_and_decrypt_letters :
  forall c, c = Encrypt \/ c = Decrypt ->
    (forall o o' s, In o (options c) -> In o' (options c) -> o_short o = Some s -> o_short o' = Some s -> o = o') /\
    forall args, cli_parse true (subcommand_name c :: args) = cli_parse false (subcommand_name c :: args).
Proof.
  intros c Hc. split; [|intros args; destruct Hc as [-> | ->]; reflexivity].
  intros o o' s Hi Hi' Hs Hs'. destruct Hc as [-> | ->]; cbn [options In] in Hi, Hi';
    repeat (destruct Hi as [<-|Hi]; [repeat (destruct Hi' as [<-|Hi']; [try reflexivity; exfalso; cbn in Hs, Hs'; congruence|]); contradiction|]); contradiction.
Qed.
Print Assumptions C49_encrypt_and_decrypt_letters.
(** encap and decap: -c is the letter of both circuit and ciphertext.  A debug build panics whatever
    the arguments; in a release build no command line succeeds without the long name of ciphertext. *)
Theorem C49_encap_and_decap_letters_refuted :
  forall c, c = Encap \/ c = Decap ->
    (exists o o' s, In o (options c) /\ In o' (options c) /\ o <> o' /\ o_short o = Some s /\ o_short o' = Some s) /\
    (forall args, cli_parse true (subcommand_name c :: args) = Panic) /\
    (forall args r, cli_parse false (subcommand_name c :: args) = Ok r ->
       exists a rest, In a args /\ a = lit "--ciphertext" ++ rest).
Proof.
  intros c Hc. split; [|split].
  - exists (field "circuit"), (field "ciphertext"), 99. repeat split; try reflexivity; try discriminate; destruct Hc as [-> | ->]; cbn [options In]; auto.
  - intros args. destruct Hc as [-> | ->]; reflexivity.
  - intros args r H. apply C49_command_line_iff in H as (l&Hw&_&Ha).
    assert (Hct : exists v, In (lit "ciphertext", v) l).
    { destruct Hc as [-> | ->]; inversion Ha; subst; unfold says in *; eauto. }
    destruct Hct as (v&Hv). clear Ha. remember (options c) as os eqn:Eo.
    induction Hw as [| |o v' p l args Hi Ho Hg Hw IH|o l args Hi Ho Hw IH]; try contradiction.
    + destruct Hv as [Hv|Hv].
      * assert (El : o_long o = lit "ciphertext") by congruence. rewrite El in Hg.
        assert (Hno : forall s, ~ owns os o s).
        { intros s (b&a&E&Hs&Hb). assert (Hin : In (field "circuit") b).
          { destruct b as [|x b]; [|left; destruct Hc as [-> | ->]; rewrite Eo in E; cbn [options app] in E; congruence].
            exfalso. destruct Hc as [-> | ->]; rewrite Eo in E; cbn [options app] in E; injection E as <- _; discriminate El. }
          rewrite Forall_forall in Hb. apply (Hb _ Hin). cbn [field o_short]. rewrite <- Hs.
          assert (Ho' : o = field "ciphertext").
          { destruct Hc as [-> | ->]; rewrite Eo in Hi; cbn [options In] in Hi; repeat (destruct Hi as [<-|Hi]; [try discriminate El; try reflexivity|]); contradiction. }
          rewrite Ho'. reflexivity. }
        inversion Hg as [H1 E|E|s H1 H2 E|s H1 E|s x r' H1 H2 H3 E]; subst p; try (exfalso; eapply Hno; eassumption).
        -- exists (lit "--" ++ lit "ciphertext"), []. split; [left; reflexivity|reflexivity].
        -- eexists. exists (lit "=" ++ v'). split; [left; reflexivity|reflexivity].
      * destruct (IH Hv) as (a&rest&Hin&Ea). exists a, rest. split; [apply in_or_app; right; exact Hin|exact Ea].
    + destruct Hv as [Hv|Hv].
      * exists (lit "--" ++ o_long o), []. assert (El : o_long o = lit "ciphertext") by congruence. rewrite El. split; [left; reflexivity|reflexivity].
      * destruct (IH Hv) as (a&rest&Hin&Ea). exists a, rest. split; [right; exact Hin|exact Ea].
Qed.
Print Assumptions C49_encap_and_decap_letters_refuted.

Example C49_nonvacuous :
  cli_parse true [lit "encrypt"; lit "-mmsg"; lit "--no-public-input"; lit "--sym=a.sym"; lit "-o"; lit "-"; lit "-i=in"; lit "-c"; lit "c.r1cs"; lit "--"] =
    Ok (DoEncrypt (lit "c.r1cs") (lit "a.sym") (lit "in") (lit "msg") (lit "-") false) /\
  cli_parse true [lit "decrypt"; lit "-i"; lit "f"; lit "-w"; lit "w"; lit "-o"; lit "o"; lit "-c"; lit "c"] = Ok (DoDecrypt (lit "c") (lit "w") (lit "f") (lit "o")) /\
  cli_parse false [lit "decap"; lit "-c"; lit "c"; lit "-w"; lit "w"; lit "-c"; lit "ct"; lit "-k"; lit "k"] = Err UsedTwice /\
  cli_parse false [lit "decap"; lit "-c"; lit "c"; lit "-w"; lit "w"; lit "--ciphertext"; lit "ct"; lit "-k"; lit "k"] = Ok (DoDecap (lit "c") (lit "w") (lit "ct") (lit "k")) /\
  cli_parse false [lit "decrypt"; lit "-i"; lit "-f"; lit "-w"; lit "w"] = Err MissingValue.
Proof. repeat split; reflexivity. Qed.
