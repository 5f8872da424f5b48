(** Property theorems C59: the program zkenc, from its arguments to the files.  Vocabulary:
    SpecCliArgs.v (what a command line says), SpecCommands.v, executions: FileSys.v. *)
From Coq Require Import List Bool Arith NArith ZArith Lia Permutation.
From Coq Require Import Strings.String Strings.Byte.
From Verif Require Import Res Bytes Text Utf8 Fld Groups Bn254 Qap Core R1cs Wtns SpecWtns Circuit ArkSer Inputs Gcm FileSys Commands
  P_Ser SpecCommands CommandsFacts P_Commands CliArgs SpecCliArgs P_CliArgs Main.
Import ListNotations.
Local Open Scope N_scope.

Lemma exec_map {E E'} (f : E -> E') : forall (c : cmd E) s s' o,
  exec (map_cmd f c) s s' o -> exists o', exec c s s' o' /\ o = map_outcome f o'.
Proof.
  induction c as [r|p k IH|p b k IH]; intros s s' o H; cbn [map_cmd] in H; inversion H; subst.
  - exists (Finished r). split; [constructor|reflexivity].
  - exists Killed. split; [constructor|reflexivity].
  - exists Killed. split; [constructor|reflexivity].
  - destruct (IH _ _ _ _ H5) as (o'&H1&->). exists o'. split; [apply ex_read; exact H1|reflexivity].
  - destruct (IH _ _ _ _ H5) as (o'&H1&->). exists o'. split; [apply ex_read_fails; exact H1|reflexivity].
  - exists Killed. split; [constructor|reflexivity].
  - destruct (IH _ _ _ _ H6) as (o'&H1&->). exists o'. split; [apply ex_write; exact H1|reflexivity].
  - destruct (IH _ _ _ _ H6) as (o'&H1&->). exists o'. split; [apply ex_write_fails; exact H1|reflexivity].
  - destruct (IH _ _ _ _ H6) as (o'&H1&->). exists o'. split; [eapply ex_write_short; exact H1|reflexivity].
  - exists Killed. split; [apply ex_write_killed|reflexivity].
Qed.
Lemma run_map {E E'} (f : E -> E') : forall (c : cmd E) s, run (map_cmd f c) s = (fst (run c s), rmap_err f (snd (run c s))).
Proof. induction c as [r|p k IH|p b k IH]; intros s; cbn [map_cmd run fst snd]; [reflexivity|apply IH|apply IH]. Qed.

(** The paths a command line names as outputs. *)
Definition outputs (c : subcommand) (l : list (text * text)) (p : path) : Prop :=
  match c with
  | Encap => says l "ciphertext" p \/ says l "key" p
  | Decap => says l "key" p
  | Encrypt | Decrypt => says l "output" p
  end.

Lemma cli_parse_sub debug args r : cli_parse debug args = Ok r ->
  exists c rest, args = subcommand_name c :: rest /\ cli_parse false (subcommand_name c :: rest) = Ok r.
Proof.
  intros H. destruct args as [|a rest]; [discriminate|]. pose proof H as H'. unfold cli_parse in H.
  destruct (find_subcommand a) as [c|] eqn:Ef; [|destruct (asks_for_help a rest); discriminate].
  assert (Ha : a = subcommand_name c).
  { unfold find_subcommand in Ef. apply find_some in Ef as [_ Ef]. apply text_eqb_eq in Ef. congruence. }
  subst a. exists c, rest. split; [reflexivity|]. unfold cli_parse in *. rewrite Ef in *. cbn [andb].
  destruct (debug && negb (unique_shorts (options c))); [discriminate|exact H].
Qed.

(** Whatever the arguments, failures and crashes: only files named as outputs change.  A run whose
    arguments are not a command line changes nothing. *)
Theorem C59_only_named_outputs_change :
  forall (E : pairingT Fr) (C : codecT E) (D : domainT Fr) (kdf : GT E -> key) (aes : cipherT) json_parse max_off debug v co args s s' o,
    exec (main C D kdf aes json_parse max_off debug v co args) s s' o ->
    unchanged s s' \/
    exists c rest l, args = subcommand_name c :: rest /\ writes (options c) l rest /\ NoDup (map fst l) /\
      forall p, s' p <> s p -> outputs c l p.
Proof.
  intros E C D kdf aes json_parse max_off debug v co args s s' o H. unfold main in H.
  destruct (cli_parse debug args) as [r|e|] eqn:Ep; try (left; inversion H; subst; intros q; reflexivity).
  right. destruct (cli_parse_sub _ _ _ Ep) as (c&rest&->&Hp). apply C49_command_line_iff in Hp as (l&Hw&Hn&Ha).
  exists c, rest, l. repeat (split; [first [reflexivity|assumption]|]). apply exec_map in H as (o'&H&_).
  assert (G : forall ps, only_changed ps s s' -> forall p, s' p <> s p -> In p ps).
  { intros ps Hc p Hd. destruct (in_dec (list_eq_dec N.eq_dec) p ps) as [Hi|Hi]; [exact Hi|]. exfalso. apply Hd. apply Hc. exact Hi. }
  inversion Ha; subst; cbn [dispatch] in H; cbn [outputs]; intros p Hd.
  - apply exec_encap in H.
    assert (W1 : forall b, only_changed [ct; k] s (fs_write ct b s)).
    { intros b q Hq. apply fs_write_other. intros ->. apply Hq. left. reflexivity. }
    assert (W2 : forall f b, only_changed [ct; k] s (fs_write k b (fs_write ct f s))).
    { intros f b q Hq. rewrite !fs_write_other; [reflexivity| |]; intros ->; apply Hq; [left|right; left]; reflexivity. }
    assert (Hoc : only_changed [ct; k] s s').
    { destruct H as [[Hs _]|(cb&sb&ib&t&c'&ct'&k'&_&_&_&_&_&Hc)]; [intros q _; rewrite Hs; reflexivity|].
      destruct Hc as [[[->|[n ->]] _]|[[[->|[n ->]] _]|[-> _]]]; auto. intros q _. reflexivity. }
    destruct (G _ Hoc p Hd) as [<-|[<-|[]]]; [left|right]; assumption.
  - destruct (C42_decap_effects _ _ _ _ _ _ _ _ _ _ _ H) as (Hoc&_). destruct (G _ Hoc p Hd) as [<-|[]]. assumption.
  - destruct (C43_encrypt_effects _ _ _ _ _ _ _ _ _ _ _ _ _ _ _ _ _ _ H) as (Hoc&_). destruct (G _ Hoc p Hd) as [<-|[]]. assumption.
  - destruct (C43_encrypt_effects _ _ _ _ _ _ _ _ _ _ _ _ _ _ _ _ _ _ H) as (Hoc&_). destruct (G _ Hoc p Hd) as [<-|[]]. assumption.
  - destruct (C42_decrypt_effects _ _ _ _ _ _ _ _ _ _ _ _ H) as (Hoc&_). destruct (G _ Hoc p Hd) as [<-|[]]. assumption.
Qed.
Print Assumptions C59_only_named_outputs_change.

Lemma main_of_line E C D kdf aes json_parse max_off debug v co c l args r :
  (c = Encrypt \/ c = Decrypt \/ debug = false) -> writes (options c) l args -> NoDup (map fst l) -> asks l c r ->
  @main E C D kdf aes json_parse max_off debug v co (subcommand_name c :: args) =
  map_cmd Failed (dispatch C D kdf aes json_parse max_off v co r).
Proof.
  intros Hc Hw Hn Ha. unfold main. assert (Hp : cli_parse false (subcommand_name c :: args) = Ok r) by (apply C49_command_line_iff; eauto).
  assert (Hd : cli_parse debug (subcommand_name c :: args) = cli_parse false (subcommand_name c :: args)).
  { destruct Hc as [->|[->| ->]]; [| |reflexivity]; (destruct debug; [|reflexivity]); apply C49_encrypt_and_decrypt_letters; auto. }
  rewrite Hd, Hp. reflexivity.
Qed.
Lemma status_ok (r : res cmd_error unit) : exit_status (rmap_err Failed r) = 0 <-> r = Ok tt.
Proof. destruct r as [[]|e|]; cbn; split; congruence. Qed.

(** zkenc encrypt ... ended with status 0; later zkenc decrypt ..., on the same circuit and ciphertext
    files and with a witness that solves the circuit for the encrypted inputs, ends with status 0 and
    its output file is the message.  Options in any order and spelling, any build. *)
Theorem C59_encrypt_then_decrypt :
  forall (E : pairingT Fr) (C : codecT E) (D : domainT Fr) (kdf : GT E -> key) (aes : cipherT)
         json_parse max_off debug v co v' co' args l args' l' cp sp ip mp op cp' wp ctp op' s1 s1' r1 s2 cb sb ib mb wb r vals,
    (forall g, List.length (kdf g) = 32%nat) -> List.length (c_nonce co) = 12%nat ->
    writes (options Encrypt) l args -> NoDup (map fst l) ->
    says l "circuit" cp -> says l "sym" sp -> says l "input" ip -> says l "message" mp -> says l "output" op ->
    writes (options Decrypt) l' args' -> NoDup (map fst l') ->
    says l' "circuit" cp' -> says l' "witness" wp -> says l' "ciphertext" ctp -> says l' "output" op' ->
    s1 cp = Some cb -> s1 sp = Some sb -> s1 ip = Some ib -> s1 mp = Some mb -> blen ib < 2 ^ 32 ->
    r1cs_from_bytes max_off cb = Ok r -> usable r ->
    run (main C D kdf aes json_parse max_off debug v co (lit "encrypt" :: args)) s1 = (s1', r1) -> exit_status r1 = 0 ->
    s2 cp' = Some cb -> s2 ctp = s1' op -> s2 wp = Some wb -> cli_read_witness wb = Ok vals ->
    opens_circuit r vals -> inputs_agree json_parse sb ib (r_n_pub_in r) vals ->
    exists r2, run (main C D kdf aes json_parse max_off debug v' co' (lit "decrypt" :: args')) s2 = (fs_write op' mb s2, r2) /\ exit_status r2 = 0.
Proof.
  intros E C D kdf aes json_parse max_off debug v co v' co' args l args' l' cp sp ip mp op cp' wp ctp op' s1 s1' r1 s2 cb sb ib mb wb r vals
    Hk Hnc Hw Hn A1 A2 A3 A4 A5 Hw' Hn' B1 B2 B3 B4 F1 F2 F3 F4 Hib Hr Hu Hrun Hst G1 G2 G3 Hv Ho Hi.
  assert (exists inc, asks l Encrypt (DoEncrypt cp sp ip mp op inc)) as [inc Ha].
  { destruct (in_dec (list_eq_dec N.eq_dec) (lit "no-public-input") (map fst l)) as [Hx|Hx]; eexists; [apply as_encrypt_without|apply as_encrypt]; assumption. }
  change (lit "encrypt") with (subcommand_name Encrypt) in Hrun. rewrite (main_of_line _ _ _ _ _ _ _ _ _ _ Encrypt l args _ (or_introl eq_refl) Hw Hn Ha) in Hrun.
  rewrite run_map in Hrun. apply pair_equal_spec in Hrun as [H1 H2]. rewrite <- H2 in Hst. apply status_ok in Hst. cbn [dispatch] in H1, Hst.
  change (lit "decrypt") with (subcommand_name Decrypt).
  rewrite (main_of_line _ _ _ _ _ _ _ _ _ _ Decrypt l' args' (DoDecrypt cp' wp ctp op') (or_intror (or_introl eq_refl)) Hw' Hn') by (apply as_decrypt; assumption).
  rewrite run_map. cbn [dispatch].
  assert (Hd : run (decrypt_command C kdf aes max_off cp' wp ctp op') s2 = (fs_write op' mb s2, Ok tt)).
  { apply (C41_encrypt_then_decrypt E C D kdf aes json_parse max_off v co cp sp ip mp op inc s1 s1' s2 cp' wp ctp op' cb sb ib mb wb r vals); try assumption.
    - intros _. exact Hib.
    - rewrite (surjective_pairing (run _ s1)), Hst. f_equal. exact H1. }
  rewrite Hd. exists (Ok tt). split; reflexivity.
Qed.
Print Assumptions C59_encrypt_then_decrypt.

(** zkenc decrypt ends with status 0 exactly when the files named open the ciphertext (or help was
    asked for, which is no command line). *)
Theorem C59_decrypt_status_iff :
  forall (E : pairingT Fr) (C : codecT E) (D : domainT Fr) (kdf : GT E -> key) (aes : cipherT)
         json_parse max_off debug v co args l cp wp ctp op s m,
    writes (options Decrypt) l args -> NoDup (map fst l) ->
    says l "circuit" cp -> says l "witness" wp -> says l "ciphertext" ctp -> says l "output" op ->
    (exists s' r, run (main C D kdf aes json_parse max_off debug v co (lit "decrypt" :: args)) s = (s', r) /\ exit_status r = 0 /\ s' op = Some m) <->
    (exists cb wb f, s cp = Some cb /\ s wp = Some wb /\ s ctp = Some f /\ opens C kdf aes max_off cb wb f m).
Proof.
  intros E C D kdf aes json_parse max_off debug v co args l cp wp ctp op s m Hw Hn B1 B2 B3 B4.
  rewrite <- (C42_decrypt_succeeds_iff E C kdf aes max_off cp wp ctp op s m).
  change (lit "decrypt") with (subcommand_name Decrypt).
  rewrite (main_of_line _ _ _ _ _ _ _ _ _ _ Decrypt l args (DoDecrypt cp wp ctp op) (or_intror (or_introl eq_refl)) Hw Hn) by (apply as_decrypt; assumption).
  rewrite run_map. cbn [dispatch]. destruct (run (decrypt_command C kdf aes max_off cp wp ctp op) s) as [s1 r1]. cbn [fst snd]. split.
  - intros (s'&r&H&Hs&Hm). injection H as <- <-. apply status_ok in Hs. subst r1. exists s1. auto.
  - intros (s'&H&Hm). injection H as <- ->. exists s1, (Ok tt). auto.
Qed.
Print Assumptions C59_decrypt_status_iff.

(** Commands that only write once nothing can go wrong any more. *)
Fixpoint ends_well {E} (c : cmd E) : Prop :=
  match c with Ret r => r = Ok tt | Read _ _ => False | Write _ _ k => ends_well (k true) end.
Fixpoint tidy {E} (c : cmd E) : Prop :=
  match c with Ret _ => True | Read _ k => forall x, tidy (k x) | Write _ _ k => ends_well (k true) end.
Lemma ends_well_run {E} : forall (c : cmd E) s, ends_well c -> snd (run c s) = Ok tt.
Proof. induction c as [r|p k IH|p b k IH]; intros s H; cbn [run ends_well snd] in *; [exact H|contradiction|apply IH; exact H]. Qed.
Lemma tidy_run {E} : forall (c : cmd E) s, tidy c -> snd (run c s) <> Ok tt -> fst (run c s) = s.
Proof.
  induction c as [r|p k IH|p b k IH]; intros s H Hn; cbn [run tidy fst snd] in *; [reflexivity|apply IH; auto|].
  exfalso. apply Hn. apply ends_well_run. exact H.
Qed.
Lemma tidy_try {E E' A} (x : res E' A) (f : E' -> E) k : (forall a, tidy (k a)) -> tidy (try_ x f k).
Proof. intros H. destruct x; cbn [try_]; [apply H|exact I|exact I]. Qed.
Lemma tidy_try_opt {E A} (x : option A) (e : E) k : (forall a, tidy (k a)) -> tidy (try_opt x e k).
Proof. intros H. destruct x; cbn [try_opt]; [apply H|exact I]. Qed.
Lemma dispatch_tidy E C D kdf aes json_parse max_off v co q : tidy (@dispatch E C D kdf aes json_parse max_off v co q).
Proof.
  destruct q; cbn [dispatch]; unfold encap_command, decap_command, encrypt_command, decrypt_command, prepare, load_r1cs, load_witness, read_string, write_.
  all: repeat first [apply tidy_try | apply tidy_try_opt | intros [? ?] | intros ? | progress cbn [tidy ends_well] | reflexivity].
Qed.
(** When a run that nothing disturbs ends with a status other than 0 - a wrong command line, a file
    that cannot be read, a witness that does not fit, a failed authentication - no file has changed. *)
Theorem C59_failure_changes_nothing :
  forall (E : pairingT Fr) (C : codecT E) (D : domainT Fr) (kdf : GT E -> key) (aes : cipherT) json_parse max_off debug v co args s s' r,
    run (main C D kdf aes json_parse max_off debug v co args) s = (s', r) -> exit_status r <> 0 -> unchanged s s'.
Proof.
  intros E C D kdf aes json_parse max_off debug v co args s s' r H Hs. unfold main in H.
  destruct (cli_parse debug args) as [q|e|]; [|injection H as <- _; intros p; reflexivity..].
  rewrite run_map in H. apply pair_equal_spec in H as [<- <-]. rewrite tidy_run; [intros p; reflexivity|apply dispatch_tidy|].
  intros Hy. apply Hs, status_ok, Hy.
Qed.
Print Assumptions C59_failure_changes_nothing.

Example C59_nonvacuous : forall (aes : cipherT) v' co',
  exists s1',
    run (main ex_codec bn_domain ex_kdf32 aes ex_json (2 ^ 63 - 1) true ex_visits ex_coins
           [lit "encrypt"; lit "-oo"; lit "--circuit=c"; lit "-s"; lit "s"; lit "--no-public-input"; lit "--input"; lit "i"; lit "-m=m"]) ex_fs = (s1', Ok tt) /\
    run (main ex_codec bn_domain ex_kdf32 aes ex_json (2 ^ 63 - 1) true v' co'
           [lit "decrypt"; lit "-w"; lit "w"; lit "-io"; lit "-cc"; lit "--output"; lit "p"]) s1' = (fs_write (lit "p") [x68; x69] s1', Ok tt) /\
    run (main ex_codec bn_domain ex_kdf32 aes ex_json (2 ^ 63 - 1) true v' co' [lit "decrypt"; lit "-w"; lit "w"]) s1' =
      (s1', Err (Usage MissingRequired)).
Proof.
  intros aes v' co'. destruct (C41_nonvacuous aes false) as (s1'&H1&_&_&_&H2). exists s1'. split; [|split].
  - unfold main. match goal with |- context [cli_parse ?d ?a] => change (cli_parse d a) with (@Ok cli_error _ (DoEncrypt (lit "c") (lit "s") (lit "i") (lit "m") (lit "o") false)) end.
    cbv beta iota. rewrite run_map. cbn [dispatch]. rewrite H1. reflexivity.
  - unfold main. match goal with |- context [cli_parse ?d ?a] => change (cli_parse d a) with (@Ok cli_error _ (DoDecrypt (lit "c") (lit "w") (lit "o") (lit "p"))) end.
    cbv beta iota. rewrite run_map. cbn [dispatch]. rewrite H2. reflexivity.
  - reflexivity.
Qed.
