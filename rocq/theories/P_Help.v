(** C59: help and exit statuses.  Vocabulary: SpecHelp.v. *)
From Coq Require Import List Bool Arith NArith Lia Permutation.
From Coq Require Import Strings.String.
From Verif Require Import Res Bytes Text Fld Groups Bn254 Qap Core ArkSer Inputs Gcm FileSys Commands CliArgs Main SpecCommands SpecCliArgs SpecHelp P_CliArgs P_Main.
Import ListNotations.
Local Open Scope N_scope.

Section Table.
  Context (os : list option_t) (Hos : table_ok os)
          (Hnoh : Forall (fun o => o_short o <> Some 104) os).
  Lemma kind_help a : arg_kind_of os a = KHelp <-> help_flag a.
  Proof.
    split.
    - unfold arg_kind_of, c_dash. destruct a as [|c [|d r]]; try discriminate. destruct (N.eqb_spec c 45) as [->|]; [|discriminate].
      destruct (N.eqb_spec d 45) as [->|Hd].
      + destruct r as [|x r]; [discriminate|]. destruct (cut_eq (x :: r)) as [n v] eqn:Ec. apply cut_eq_spec in Ec as [_ Ec].
        destruct (find_long os n); [discriminate|]. destruct (text_eqb n (lit "help")) eqn:En; destruct v; try discriminate.
        apply text_eqb_eq in En. subst n. rewrite app_nil_r in Ec. rewrite Ec. intros _. exact hf_long.
      + destruct (find_short os d); [discriminate|]. destruct (N.eqb_spec d 104) as [->|]; [|discriminate].
        intros _. exact (hf_short r).
    - intros H. inversion H as [E|r E]; subst.
      + change (lit "--help") with (45 :: 45 :: lit "help"). unfold arg_kind_of, c_dash. rewrite !N.eqb_refl.
        change (lit "help") with [104; 101; 108; 112]. cbn [cut_eq N.eqb Pos.eqb c_eq].
        change [104; 101; 108; 112] with (lit "help").
        destruct (find_long os (lit "help")) as [o|] eqn:Ef; [|rewrite text_eqb_refl; reflexivity].
        exfalso. apply (find_long_in os Hos) in Ef as [Hi Hn]. pose proof (tb_name _ Hos) as X. rewrite Forall_forall in X.
        destruct (X o Hi) as (_&_&X'). exact (X' Hn).
      + change (lit "-h" ++ r) with (45 :: 104 :: r). unfold arg_kind_of, c_dash. rewrite N.eqb_refl.
        change (104 =? 45) with false. cbv iota. destruct (find_short os 104) as [o|] eqn:Ef; [|reflexivity].
        exfalso. apply find_short_owns in Ef as (b&a&->&Ho&_). rewrite Forall_forall in Hnoh.
        apply (Hnoh o); [apply in_or_app; right; left; reflexivity|exact Ho].
  Qed.
  Lemma put_match_err o v m e : put_match o v m = Err e -> e = UsedTwice.
  Proof. unfold put_match. destruct (existsb _ m); congruence. Qed.
  Lemma first_not_dashes o v a : In o os -> first os o v a -> a <> lit "--".
  Proof.
    intros Hi Hf. pose proof (proj2 (kind_option os Hos a o v) (conj Hi Hf)) as Hk. intros ->. discriminate Hk.
  Qed.
  Lemma help_sound : forall args m, parse_args os args m = Err DisplayHelp -> NoDup (map fst m) ->
    exists l before h after, args = before ++ h :: after /\ writes os l before /\ NoDup (map fst (rev l ++ m)) /\
      ~ In (lit "--") before /\ help_flag h.
  Proof.
    fix IH 1. intros [|a rest] m H Hm; cbn [parse_args] in H; [discriminate|].
    destruct (arg_kind_of os a) as [| |o v| |] eqn:Ek; try discriminate.
    - destruct rest; discriminate.
    - exists [], [], a, rest. split; [reflexivity|]. split; [constructor|]. split; [exact Hm|]. split; [intros []|]. apply kind_help. exact Ek.
    - apply (kind_option os Hos) in Ek as [Hi Hf].
      destruct (o_value o) eqn:Eo.
      + destruct v as [v|].
        * destruct (put_match o v m) as [m1|e|] eqn:Ep; try discriminate; [|apply put_match_err in Ep; congruence].
          apply put_match_spec in Ep as [Hn ->].
          destruct (IH rest _ H) as (l&b&h&af&->&Hw&Hd&Hdd&Hh); [cbn [map fst]; constructor; assumption|].
          exists ((o_long o, v) :: l), (a :: b), h, af. split; [reflexivity|].
          split; [apply (w_value os o v [a] l b Hi Eo); [apply first_gives; eauto|exact Hw]|].
          split; [cbn [rev]; rewrite <- app_assoc; exact Hd|]. split; [|exact Hh].
          intros [X|X]; [exact (first_not_dashes o _ a Hi Hf X)|exact (Hdd X)].
        * destruct rest as [|v rest]; [discriminate|]. destruct (looks_new v) eqn:El; [discriminate|].
          destruct (put_match o v m) as [m1|e|] eqn:Ep; try discriminate; [|apply put_match_err in Ep; congruence].
          apply put_match_spec in Ep as [Hn ->].
          destruct (IH rest _ H) as (l&b&h&af&->&Hw&Hd&Hdd&Hh); [cbn [map fst]; constructor; assumption|].
          exists ((o_long o, v) :: l), (a :: v :: b), h, af. split; [reflexivity|].
          split; [apply (w_value os o v [a; v] l b Hi Eo); [apply first_gives; eauto|exact Hw]|].
          split; [cbn [rev]; rewrite <- app_assoc; exact Hd|]. split; [|exact Hh].
          intros [X|[X|X]]; [exact (first_not_dashes o _ a Hi Hf X)|subst v; discriminate El|exact (Hdd X)].
      + destruct v as [v|]; [discriminate|].
        destruct (put_match o (lit "true") m) as [m1|e|] eqn:Ep; try discriminate; [|apply put_match_err in Ep; congruence].
        apply put_match_spec in Ep as [Hn ->].
        destruct (IH rest _ H) as (l&b&h&af&->&Hw&Hd&Hdd&Hh); [cbn [map fst]; constructor; assumption|].
        exists ((o_long o, lit "true") :: l), (a :: b), h, af. split; [reflexivity|].
        split; [rewrite (first_flag os Hos o a Hi Eo Hf); apply w_flag; assumption|].
        split; [cbn [rev]; rewrite <- app_assoc; exact Hd|]. split; [|exact Hh].
        intros [X|X]; [exact (first_not_dashes o _ a Hi Hf X)|exact (Hdd X)].
  Qed.
  (** Complete options before something else. *)
  Lemma parse_args_app l args tl : writes os l args -> ~ In (lit "--") args ->
    forall m, NoDup (map fst (rev l ++ m)) -> parse_args os (args ++ tl) m = parse_args os tl (rev l ++ m).
  Proof.
    induction 1 as [| |o v p l args Hi Ho Hg Hw IH|o l args Hi Ho Hw IH]; intros Hdd m Hn.
    - reflexivity.
    - exfalso. apply Hdd. left. reflexivity.
    - assert (Hn' : NoDup (map fst (rev l ++ (o_long o, v) :: m))) by (cbn [rev] in Hn; rewrite <- app_assoc in Hn; exact Hn).
      assert (Hp : put_match o v m = Ok ((o_long o, v) :: m)).
      { apply put_match_spec. split; [|reflexivity]. rewrite map_app in Hn'. cbn [map fst] in Hn'. apply NoDup_remove_2 in Hn'.
        intros H. apply Hn'. apply in_or_app. right. exact H. }
      assert (Hd' : ~ In (lit "--") args) by (intros H; apply Hdd, in_or_app; right; exact H).
      specialize (IH Hd' _ Hn'). cbn [rev]. rewrite <- !app_assoc. cbn [app].
      apply (first_gives os) in Hg as [(a&->&Hf)|(a&->&Hf&Hl)]; [| |exact Hi|exact Ho].
      + cbn [app parse_args]. rewrite (proj2 (kind_option os Hos a o (Some v)) (conj Hi Hf)), Ho, Hp. exact IH.
      + cbn [app parse_args]. rewrite (proj2 (kind_option os Hos a o None) (conj Hi Hf)), Ho, Hl, Hp. exact IH.
    - set (v := lit "true") in *.
      assert (Hn' : NoDup (map fst (rev l ++ (o_long o, v) :: m))) by (cbn [rev] in Hn; rewrite <- app_assoc in Hn; exact Hn).
      assert (Hp : put_match o v m = Ok ((o_long o, v) :: m)).
      { apply put_match_spec. split; [|reflexivity]. rewrite map_app in Hn'. cbn [map fst] in Hn'. apply NoDup_remove_2 in Hn'.
        intros H. apply Hn'. apply in_or_app. right. exact H. }
      assert (Hd' : ~ In (lit "--") args) by (intros H; apply Hdd; right; exact H).
      specialize (IH Hd' _ Hn'). cbn [rev]. rewrite <- app_assoc. cbn [app parse_args].
      rewrite (proj2 (kind_option os Hos _ o None) (conj Hi (f_long os o))), Ho. fold v. rewrite Hp. exact IH.
  Qed.
End Table.

Lemma no_h c : Forall (fun o => o_short o <> Some 104) (options c).
Proof. destruct c; repeat constructor; discriminate. Qed.
Lemma find_subcommand_name c : find_subcommand (subcommand_name c) = Some c.
Proof. destruct c; reflexivity. Qed.
Lemma find_subcommand_some a c : find_subcommand a = Some c -> a = subcommand_name c.
Proof. intros H. apply find_some in H as [_ H]. apply text_eqb_eq in H. congruence. Qed.
Lemma to_request_no_help c m : to_request c m <> Err DisplayHelp.
Proof.
  unfold to_request, need. destruct c; repeat match goal with |- context [get_match ?n m] => destruct (get_match n m) end; discriminate.
Qed.
Lemma parse_args_no_panic os : forall args m, parse_args os args m <> Panic.
Proof.
  fix IH 1. intros [|a rest] m; cbn [parse_args]; [discriminate|].
  assert (Hp : forall o v, put_match o v m <> Panic) by (intros o v; unfold put_match; destruct (existsb _ m); discriminate).
  destruct (arg_kind_of os a) as [| |o v| |]; try discriminate; [destruct rest; discriminate|].
  destruct (o_value o).
  - destruct v as [v|].
    + specialize (Hp o v). destruct (put_match o v m); [apply IH|discriminate|congruence].
    + destruct rest as [|v rest]; [discriminate|]. destruct (looks_new v); [discriminate|].
      specialize (Hp o v). destruct (put_match o v m); [apply IH|discriminate|congruence].
  - destruct v as [v|]; [discriminate|]. specialize (Hp o (lit "true")). destruct (put_match o (lit "true") m); [apply IH|discriminate|congruence].
Qed.
Lemma cli_parse_no_panic args : cli_parse false args <> Panic.
Proof.
  destruct args as [|a rest]; cbn [cli_parse]; [discriminate|]. destruct (find_subcommand a) as [c|].
  - cbn [andb]. pose proof (parse_args_no_panic (options c) rest []) as H. destruct (parse_args (options c) rest []) as [m|e|]; [|discriminate|congruence].
    unfold to_request, need. destruct c; repeat match goal with |- context [get_match ?n m] => destruct (get_match n m) end; discriminate.
  - destruct (asks_for_help a rest); discriminate.
Qed.

Lemma help_dec e : e = DisplayHelp \/ e <> DisplayHelp.
Proof. destruct e; auto; right; discriminate. Qed.

(** Help is shown exactly when it is asked for. *)
Theorem C59_help_iff :
  forall args, cli_parse false args = Err DisplayHelp <-> wants_help args.
Proof.
  intros args. split.
  - destruct args as [|a rest]; cbn [cli_parse]; [discriminate|]. destruct (find_subcommand a) as [c|] eqn:Ec.
    + cbn [andb]. apply find_subcommand_some in Ec. subst a.
      destruct (parse_args (options c) rest []) as [m|e|] eqn:Ep.
      * intros H. exfalso. exact (to_request_no_help c m H).
      * intros H. injection H as ->. destruct (help_sound _ (options_ok c) (no_h c) rest [] Ep ltac:(constructor)) as (l&b&h&af&->&Hw&Hd&Hdd&Hh).
        apply (wh_sub c l b h af Hw); [|exact Hdd|exact Hh]. rewrite app_nil_r, map_rev in Hd. apply NoDup_rev in Hd. rewrite rev_involutive in Hd. exact Hd.
      * discriminate.
    + destruct (asks_for_help a rest) eqn:Eh; [|discriminate]. intros _. apply wh_top. unfold asks_for_help in Eh.
      apply orb_prop in Eh as [Eh|Eh]; [apply orb_prop in Eh as [Eh|Eh]; apply text_eqb_eq in Eh; subst a; constructor|].
      apply andb_prop in Eh as [Ea Eh]. apply text_eqb_eq in Ea. subst a. destruct rest as [|b [|? ?]]; [constructor| |discriminate].
      apply orb_prop in Eh as [Eh|Eh]; [apply text_eqb_eq in Eh; subst b; constructor|].
      destruct (find_subcommand b) as [c|] eqn:E; [|discriminate]. apply find_subcommand_some in E. subst b. constructor.
  - intros H. destruct H as [args H|c l b h af Hw Hn Hdd Hh].
    + destruct H as [rest|rest| | |c]; try reflexivity. destruct c; reflexivity.
    + cbn [cli_parse]. rewrite find_subcommand_name. cbn [andb].
      rewrite (parse_args_app _ (options_ok c) l b (h :: af) Hw Hdd []).
      * cbn [parse_args]. rewrite (proj2 (kind_help _ (options_ok c) (no_h c) h) Hh). reflexivity.
      * rewrite app_nil_r, map_rev. apply NoDup_rev. exact Hn.
Qed.
Print Assumptions C59_help_iff.

(** The exit status of a run of a release build that nothing disturbs: a command line that asks for
    help ends with 0 and changes nothing; one that asks for a command does what the command does and
    ends with 0, 1 or 101 as that succeeds, fails or panics; any other ends with 2 and changes
    nothing. *)
Theorem C59_exit_status :
  forall (E : pairingT Fr) (C : codecT E) (D : domainT Fr) (kdf : GT E -> key) (aes : cipherT) json_parse max_off v co args s,
    let ended := run (main C D kdf aes json_parse max_off false v co args) s in
    (wants_help args /\ fst ended = s /\ exit_status (snd ended) = 0) \/
    (exists c rest l q, args = subcommand_name c :: rest /\ writes (options c) l rest /\ NoDup (map fst l) /\ asks l c q /\
       let done := run (dispatch C D kdf aes json_parse max_off v co q) s in
       fst ended = fst done /\
       exit_status (snd ended) = match snd done with Ok _ => 0 | Err _ => 1 | Panic => 101 end) \/
    (~ wants_help args /\
     (forall c rest l q, args = subcommand_name c :: rest -> writes (options c) l rest -> NoDup (map fst l) -> ~ asks l c q) /\
     fst ended = s /\ exit_status (snd ended) = 2).
Proof.
  intros E C D kdf aes jp mx v co args s ended.
  destruct (cli_parse false args) as [q|e|] eqn:Ep.
  - right. left. destruct args as [|a rest]; [discriminate|]. destruct (find_subcommand a) as [c|] eqn:Ec.
    2:{ cbn [cli_parse] in Ep. rewrite Ec in Ep. destruct (asks_for_help a rest); discriminate. }
    apply find_subcommand_some in Ec. subst a. pose proof (proj1 (C49_command_line_iff c rest q) Ep) as (l&Hw&Hn&Ha).
    exists c, rest, l, q. split; [reflexivity|]. split; [exact Hw|]. split; [exact Hn|]. split; [exact Ha|]. cbv zeta.
    subst ended. unfold main. rewrite Ep.
    assert (Hm : forall (k : cmd cmd_error) s0, run (map_cmd Failed k) s0 = (fst (run k s0), rmap_err Failed (snd (run k s0)))).
    { induction k as [r|p k IH|p b k IH]; intros s0; cbn [map_cmd run]; [reflexivity|apply IH|apply IH]. }
    rewrite Hm. cbn [fst snd]. split; [reflexivity|]. destruct (snd (run _ s)); reflexivity.
  - assert (Hd : ended = (s, Err (Usage e))) by (subst ended; unfold main; rewrite Ep; reflexivity).
    assert (Hh : wants_help args <-> e = DisplayHelp).
    { rewrite <- C59_help_iff, Ep. split; intros X; [congruence|subst e; reflexivity]. }
    destruct (help_dec e) as [->|Hne].
    + left. split; [apply Hh; reflexivity|]. rewrite Hd. split; reflexivity.
    + right. right. split; [intros X; apply Hne, Hh, X|]. split.
      * intros c rest l q -> Hw Hn Ha. rewrite (proj2 (C49_command_line_iff c rest q)) in Ep by eauto. discriminate.
      * rewrite Hd. split; [reflexivity|]. cbn [snd exit_status]. destruct e; congruence.
  - exfalso. exact (cli_parse_no_panic args Ep).
Qed.
Print Assumptions C59_exit_status.

(** The three cases exclude each other: a line that asks for help asks for no command. *)
Theorem C59_help_is_no_command :
  forall args c rest l q, wants_help args -> args = subcommand_name c :: rest -> writes (options c) l rest -> NoDup (map fst l) -> ~ asks l c q.
Proof.
  intros args c rest l q Hh -> Hw Hn Ha. apply C59_help_iff in Hh. rewrite (proj2 (C49_command_line_iff c rest q)) in Hh by eauto. discriminate.
Qed.
Print Assumptions C59_help_is_no_command.

Example C59_help_instances :
  wants_help [lit "-h"] /\ wants_help [lit "help"; lit "decap"] /\
  wants_help [lit "decrypt"; lit "-o"; lit "out"; lit "--help"; lit "junk"] /\
  ~ wants_help [lit "decrypt"; lit "--"; lit "--help"].
Proof.
  split; [apply wh_top; constructor|]. split; [apply wh_top; exact (th_of Decap)|].
  split; [apply C59_help_iff; reflexivity|]. intros H. apply C59_help_iff in H. discriminate.
Qed.
