(** C80: the zkenc program with its real primitives. *)
From Coq Require Import List Bool Arith NArith ZArith Lia Permutation.
From Coq Require Import Strings.String Strings.Byte.
From Verif Require Import P_Sudoku.
From Verif Require Import Res Bytes Text Utf8 Fld Groups Bn254 Qap Core R1cs SpecR1cs Wtns SpecWtns Circuit SpecCircuit ArkSer Sym SpecSym Inputs SpecInputs Gcm Aes
  Blake3 SpecBlake3 P_Hash FileSys Commands P_Ser SpecCommands SpecReports P_Reports CommandsFacts P_Commands CliArgs SpecCliArgs P_CliArgs Main P_Main
  SpecBound P_Bound P_BoundCli JsonText Sudoku SpecSudoku SudokuFile Program.
Import ListNotations.
Local Open Scope N_scope.

Section Program.
  Context (E : pairingT Fr) (C : codecT E) (enc : GT E -> list byte) (huge : text -> bool) (preserve_order : bool) (max_off : N).
  Notation kdf := (blake3_key enc).
  Notation parse := (serde_parse huge preserve_order).
  Lemma kdf_length : forall g, List.length (kdf g) = 32%nat.
  Proof using. intros g. apply blake3_key_length. Qed.
  Lemma encrypt_line debug v co args l cp sp ip mp op : writes (options Encrypt) l args -> NoDup (map fst l) ->
    says l "circuit" cp -> says l "sym" sp -> says l "input" ip -> says l "message" mp -> says l "output" op ->
    exists inc, (inc = true <-> ~ In (lit "no-public-input") (map fst l)) /\
      zkenc C enc huge preserve_order max_off debug v co (lit "encrypt" :: args) =
      map_cmd Failed (encrypt_command C bn_domain kdf aes256 parse max_off v co cp sp ip mp op inc).
  Proof using.
    intros Hw Hn A1 A2 A3 A4 A5.
    assert (exists inc, (inc = true <-> ~ In (lit "no-public-input") (map fst l)) /\ asks l Encrypt (DoEncrypt cp sp ip mp op inc)) as (inc&Hi&Ha).
    { destruct (in_dec (list_eq_dec N.eq_dec) (lit "no-public-input") (map fst l)) as [Hx|Hx].
      - exists false. split; [split; [discriminate|contradiction]|]. apply as_encrypt_without; assumption.
      - exists true. split; [tauto|]. apply as_encrypt; assumption. }
    exists inc. split; [exact Hi|]. unfold zkenc. change (lit "encrypt") with (subcommand_name Encrypt).
    exact (main_of_line E C bn_domain kdf aes256 parse max_off debug v co Encrypt l args _ (or_introl eq_refl) Hw Hn Ha).
  Qed.
  Lemma decrypt_line debug v co args l cp wp ctp op : writes (options Decrypt) l args -> NoDup (map fst l) ->
    says l "circuit" cp -> says l "witness" wp -> says l "ciphertext" ctp -> says l "output" op ->
    zkenc C enc huge preserve_order max_off debug v co (lit "decrypt" :: args) =
    map_cmd Failed (decrypt_command C kdf aes256 max_off cp wp ctp op).
  Proof using.
    intros Hw Hn A1 A2 A3 A4. unfold zkenc. change (lit "decrypt") with (subcommand_name Decrypt).
    refine (main_of_line E C bn_domain kdf aes256 parse max_off debug v co Decrypt l args (DoDecrypt cp wp ctp op) (or_intror (or_introl eq_refl)) Hw Hn _).
    apply as_decrypt; assumption.
  Qed.
  Lemma program_run {E0} (c : cmd E0) (f : E0 -> main_error) s s' r : run (map_cmd f c) s = (s', r) <-> s' = fst (run c s) /\ r = rmap_err f (snd (run c s)).
  Proof using. rewrite run_map. rewrite pair_equal_spec. split; intros [H1 H2]; split; symmetry; assumption. Qed.
End Program.

(** zkenc encrypt ends with status 0 exactly if the circuit, symbol and input files can be read and the
    message fits the cipher (and delta, drawn at random, is not 0); otherwise no file has changed. *)
Theorem C80_encrypt_status :
  forall (E : pairingT Fr) (C : codecT E) (enc : GT E -> list byte) huge preserve_order max_off debug v co args l cp sp ip mp op s s' r,
    writes (options Encrypt) l args -> NoDup (map fst l) ->
    says l "circuit" cp -> says l "sym" sp -> says l "input" ip -> says l "message" mp -> says l "output" op ->
    c_delta co <> f0 ->
    run (zkenc C enc huge preserve_order max_off debug v co (lit "encrypt" :: args)) s = (s', r) ->
    (exit_status r = 0 <->
     is_circuit max_off s cp /\ (exists t, is_text s sp t /\ ~ has_bad_line t) /\ is_input (serde_parse huge preserve_order) s ip /\
     exists m, s mp = Some m /\ blen m <= 2 ^ 36 - 32) /\
    (exit_status r <> 0 -> unchanged s s').
Proof.
  intros E C enc huge po mo debug v co args l cp sp ip mp op s s' r Hw Hn A1 A2 A3 A4 A5 Hd Hrun.
  split; [|exact (C59_failure_changes_nothing E C bn_domain (blake3_key enc) aes256 (serde_parse huge po) mo debug v co _ s s' r Hrun)].
  destruct (encrypt_line E C enc huge po mo debug v co args l cp sp ip mp op Hw Hn A1 A2 A3 A4 A5) as (inc&_&El).
  rewrite El in Hrun. apply program_run in Hrun. destruct Hrun as [_ Hr]. subst r. rewrite status_ok.
  rewrite (C71_encrypt_ends E C bn_domain (blake3_key enc) aes256 (serde_parse huge po) mo v co cp sp ip mp op inc s (Ok tt) (kdf_length E enc)).
  unfold encrypt_reports, prepare_reports. cbn [app].
  assert (S : forall (P : Prop) (x y : res cmd_error Datatypes.unit) rest, x <> y -> (first_that ((P, x) :: rest) y <-> ~ P /\ first_that rest y)).
  { intros P x y rest Hne. split.
    - intros H. remember ((P, x) :: rest) as L eqn:EL. destruct H as [P0 x0 rest0 HP|P0 x0 rest0 y0 HP Hr].
      + exfalso. apply Hne. congruence.
      + assert (P0 = P) by congruence. assert (rest0 = rest) by congruence. subst. split; assumption.
    - intros [H1 H2]. apply ft_next; assumption. }
  assert (L : forall (P : Prop) (y : res cmd_error Datatypes.unit) , P -> (first_that [(P, y)] y <-> True)).
  { intros P y HP. split; [trivial|]. intros _. apply ft_here. exact HP. }
  rewrite !S by discriminate. rewrite (L True (Ok tt) I). clear S L.
  destruct (is_circuit_dec mo s cp) as [(cb&r&Hcb&Hr)|[Hnc _]]; [|clear - Hnc; tauto].
  assert (Hc : is_circuit mo s cp) by (exists cb, r; auto).
  destruct (is_text_dec s sp) as [(st&Hst&_)|[Hns _]]; [|split; [clear - Hns; tauto|intros (_&(t&Ht&_)&_); exfalso; apply Hns; exists t; exact Ht]].
  destruct (is_text_dec s ip) as [(it&Hit&_)|[Hni _]].
  2:{ split; [clear - Hni; tauto|]. intros (_&_&(t&kvs&Ht&_)&_). exfalso. apply Hni. exists t. exact Ht. }
  assert (Hbad : (~ exists t, is_text s sp t /\ has_bad_line t) <-> exists t, is_text s sp t /\ ~ has_bad_line t).
  { split.
    - intros H. exists st. split; [exact Hst|]. intros Hb. apply H. exists st. auto.
    - intros (t&Ht&Hb) (t'&Ht'&Hb'). rewrite (is_text_det s sp t' t Ht' Ht) in Hb'. contradiction. }
  rewrite Hbad. clear Hbad.
  assert (Hdec : is_input (serde_parse huge po) s ip \/ ~ is_input (serde_parse huge po) s ip).
  { rewrite (is_input_iff (serde_parse huge po) s ip it Hit). destruct (parse_inputs_text (serde_parse huge po) it) as [m|e|]; [left; eauto|right|right]; intros (m&X); discriminate. }
  split.
  - intros (_&_&Hb&_&Hin&_&Hm&Hp1&Hp2&_). split; [exact Hc|]. split; [exact Hb|].
    split; [destruct Hdec as [X|X]; [exact X|contradiction]|].
    destruct (s mp) as [m|] eqn:Em; [|exfalso; apply Hm; reflexivity]. exists m. split; [reflexivity|].
    destruct (N.le_gt_cases (blen m) (2 ^ 36 - 32)) as [X|X]; [exact X|exfalso].
    destruct (N.le_gt_cases (blen m) (2 ^ 36)) as [Y|Y]; [apply Hp1|apply Hp2]; exists m; auto.
  - intros (_&Hb&Hin&m&Hm&Hlen).
    split; [intros X; apply X; exact Hc|]. split; [intros X; apply X; eauto|]. split; [exact Hb|]. split; [intros X; apply X; eauto|].
    split; [intros X; apply X; exact Hin|]. split; [exact Hd|]. split; [congruence|].
    split; [intros (m'&X&Y); assert (m' = m) by congruence; subst m'; clear - Hlen Y; lia|].
    split; [intros (m'&X&Y); assert (m' = m) by congruence; subst m'; clear - Hlen Y; lia|trivial].
Qed.
Print Assumptions C80_encrypt_status.

(** zkenc encrypt ended with status 0.  It has chosen, for each public input, one of the values the
    document offers (the only one if there is one, C58), and from then on zkenc decrypt, wherever its
    files are, ends with status 0 exactly if the witness satisfies the circuit and has these values; it
    then writes the message to its output and changes nothing else, and otherwise changes nothing. *)
Theorem C80_encrypt_then_decrypt_iff :
  forall (E : pairingT Fr) (C : codecT E) (enc : GT E -> list byte) huge preserve_order max_off debug v co args l cp sp ip mp op s1 s1' r1
         cb sb ib mb r st syms it kvs,
    writes (options Encrypt) l args -> NoDup (map fst l) ->
    says l "circuit" cp -> says l "sym" sp -> says l "input" ip -> says l "message" mp -> says l "output" op ->
    List.length (c_nonce co) = 12%nat ->
    s1 cp = Some cb -> s1 sp = Some sb -> s1 ip = Some ib -> s1 mp = Some mb -> blen ib < 2 ^ 32 ->
    r1cs_from_bytes max_off cb = Ok r -> usable r -> factors_below (r_n_wires r) (r_constraints r) ->
    utf8_decode sb = Some st -> parse_sym_file st = Ok syms -> utf8_decode ib = Some it -> serde_parse huge preserve_order it = Some (JObj kvs) ->
    run (zkenc C enc huge preserve_order max_off debug v co (lit "encrypt" :: args)) s1 = (s1', r1) -> exit_status r1 = 0 ->
    exists chosen, choice syms kvs (r_n_pub_in r) chosen /\
    forall debug' v' co' args' l' cp' wp ctp op' s2 s3 r2 wb vals,
      writes (options Decrypt) l' args' -> NoDup (map fst l') ->
      says l' "circuit" cp' -> says l' "witness" wp -> says l' "ciphertext" ctp -> says l' "output" op' ->
      s2 cp' = Some cb -> s2 ctp = s1' op -> s2 wp = Some wb -> cli_read_witness wb = Ok vals ->
      run (zkenc C enc huge preserve_order max_off debug' v' co' (lit "decrypt" :: args')) s2 = (s3, r2) ->
      (exit_status r2 = 0 <-> opens_circuit r vals /\ has_chosen chosen (r_n_pub_in r) vals) /\
      (exit_status r2 = 0 -> s3 = fs_write op' mb s2) /\ (exit_status r2 <> 0 -> unchanged s2 s3).
Proof.
  intros E C enc huge po mo debug v co args l cp sp ip mp op s1 s1' r1 cb sb ib mb r st syms it kvs
    Hw Hn A1 A2 A3 A4 A5 Hnonce H1 H2 H3 H4 Hib Hr Hu Hfb Hst Hsy Hit Hj Hrun Hs.
  destruct (encrypt_line E C enc huge po mo debug v co args l cp sp ip mp op Hw Hn A1 A2 A3 A4 A5) as (inc&_&El).
  rewrite El in Hrun. apply program_run in Hrun. destruct Hrun as [Es Er]. subst r1. apply status_ok in Hs.
  assert (Hrun : run (encrypt_command C bn_domain (blake3_key enc) aes256 (serde_parse huge po) mo v co cp sp ip mp op inc) s1 = (s1', Ok tt)).
  { rewrite (surjective_pairing (run _ s1)), Hs, <- Es. reflexivity. }
  destruct (C58_cli_decrypt_iff_any_document E C bn_domain (blake3_key enc) aes256 (serde_parse huge po) mo v co cp sp ip mp op inc s1 s1' cb sb ib mb r st syms it kvs
    (kdf_length E enc) Hnonce H1 H2 H3 H4 Hr Hu Hfb (fun _ => Hib) Hst Hsy Hit Hj Hrun) as (chosen&Hch&Hopen).
  exists chosen. split; [exact Hch|].
  intros debug' v' co' args' l' cp' wp ctp op' s2 s3 r2 wb vals Hw' Hn' B1 B2 B3 B4 Hcp Hct Hwp Hv Hrun2.
  assert (Hfail := C59_failure_changes_nothing E C bn_domain (blake3_key enc) aes256 (serde_parse huge po) mo debug' v' co' _ s2 s3 r2 Hrun2).
  rewrite (decrypt_line E C enc huge po mo debug' v' co' args' l' cp' wp ctp op' Hw' Hn' B1 B2 B3 B4) in Hrun2.
  apply program_run in Hrun2. destruct Hrun2 as [Es2 Er2].
  destruct (Hopen s2 cp' wp ctp op' wb vals Hcp Hct Hwp Hv) as [I1 I2].
  assert (Hx : exit_status r2 = 0 <-> exists s3, run (decrypt_command C (blake3_key enc) aes256 mo cp' wp ctp op') s2 = (s3, Ok tt)).
  { subst r2. rewrite status_ok. split.
    - intros X. exists (fst (run (decrypt_command C (blake3_key enc) aes256 mo cp' wp ctp op') s2)).
      rewrite (surjective_pairing (run _ s2)), X. reflexivity.
    - intros (s4&X). rewrite X. reflexivity. }
  split; [rewrite Hx; exact I1|]. split; [|exact Hfail].
  intros X. apply Hx in X. destruct X as (s4&X). rewrite <- (I2 s4 X). rewrite Es2, X. reflexivity.
Qed.
Print Assumptions C80_encrypt_then_decrypt_iff.

(** The shipped Sudoku circuit: after zkenc encrypt with a puzzle document, zkenc decrypt ends with
    status 0, and writes the message, exactly if the witness shows a grid the circuit accepts. *)
Theorem C80_sudoku :
  forall (E : pairingT Fr) (C : codecT E) (enc : GT E -> list byte) huge preserve_order max_off debug v co args l cp sp ip mp op s1 s1' r1
         debug' v' co' args' l' cp' wp ctp op' s2 s3 r2 sb ib mb wb vals names it kvs clues,
    51696 <= max_off < 2 ^ 63 -> List.length (c_nonce co) = 12%nat ->
    writes (options Encrypt) l args -> NoDup (map fst l) ->
    says l "circuit" cp -> says l "sym" sp -> says l "input" ip -> says l "message" mp -> says l "output" op ->
    writes (options Decrypt) l' args' -> NoDup (map fst l') ->
    says l' "circuit" cp' -> says l' "witness" wp -> says l' "ciphertext" ctp -> says l' "output" op' ->
    s1 cp = Some sudoku_r1cs_file -> s1 sp = Some sb -> utf8_decode sb = Some sudoku_sym_file -> parse_sym_file sudoku_sym_file = Ok names ->
    s1 ip = Some ib -> utf8_decode ib = Some it -> serde_parse huge preserve_order it = Some (JObj kvs) -> puzzle_document kvs clues ->
    blen ib < 2 ^ 32 -> s1 mp = Some mb ->
    run (zkenc C enc huge preserve_order max_off debug v co (lit "encrypt" :: args)) s1 = (s1', r1) -> exit_status r1 = 0 ->
    s2 cp' = Some sudoku_r1cs_file -> s2 ctp = s1' op -> s2 wp = Some wb -> cli_read_witness wb = Ok vals ->
    run (zkenc C enc huge preserve_order max_off debug' v' co' (lit "decrypt" :: args')) s2 = (s3, r2) ->
    (exit_status r2 = 0 <-> (202 <= List.length vals)%nat /\ exists grid, accepted (clue clues) grid /\ shows names vals (clue clues) grid) /\
    (exit_status r2 = 0 -> s3 = fs_write op' mb s2) /\ (exit_status r2 <> 0 -> unchanged s2 s3).
Proof.
  intros E C enc huge po mo debug v co args l cp sp ip mp op s1 s1' r1 debug' v' co' args' l' cp' wp ctp op' s2 s3 r2 sb ib mb wb vals names it kvs clues
    Hm Hnonce Hw Hn A1 A2 A3 A4 A5 Hw' Hn' B1 B2 B3 B4 Hcp Hsp Hsb Hnames Hip Hib Hj Hdoc Hlen Hmp Hrun Hs Hcp' Hct Hwp Hv Hrun2.
  destruct (encrypt_line E C enc huge po mo debug v co args l cp sp ip mp op Hw Hn A1 A2 A3 A4 A5) as (inc&_&El).
  rewrite El in Hrun. apply program_run in Hrun. destruct Hrun as [Es Er]. subst r1. apply status_ok in Hs.
  assert (Hrun : run (encrypt_command C bn_domain (blake3_key enc) aes256 (serde_parse huge po) mo v co cp sp ip mp op inc) s1 = (s1', Ok tt)).
  { rewrite (surjective_pairing (run _ s1)), Hs, <- Es. reflexivity. }
  assert (Hfail := C59_failure_changes_nothing E C bn_domain (blake3_key enc) aes256 (serde_parse huge po) mo debug' v' co' _ s2 s3 r2 Hrun2).
  rewrite (decrypt_line E C enc huge po mo debug' v' co' args' l' cp' wp ctp op' Hw' Hn' B1 B2 B3 B4) in Hrun2.
  apply program_run in Hrun2. destruct Hrun2 as [Es2 Er2].
  destruct (C76_cli_decrypts_iff E C bn_domain (blake3_key enc) aes256 (serde_parse huge po) mo v co cp sp ip mp op inc s1 s1' s2 cp' wp ctp op'
    sb ib mb wb vals names it kvs clues (kdf_length E enc) Hnonce Hm Hcp Hsp Hsb Hnames Hip Hib Hj Hdoc (fun _ => Hlen) Hmp Hrun Hcp' Hct Hwp Hv) as [I1 I2].
  assert (Hx : exit_status r2 = 0 <-> exists s3, run (decrypt_command C (blake3_key enc) aes256 mo cp' wp ctp op') s2 = (s3, Ok tt)).
  { subst r2. rewrite status_ok. split.
    - intros X. exists (fst (run (decrypt_command C (blake3_key enc) aes256 mo cp' wp ctp op') s2)).
      rewrite (surjective_pairing (run _ s2)), X. reflexivity.
    - intros (s4&X). rewrite X. reflexivity. }
  split; [rewrite Hx; exact I1|]. split; [|exact Hfail].
  intros X. apply Hx in X. destruct X as (s4&X). rewrite <- (I2 s4 X). rewrite Es2, X. reflexivity.
Qed.
Print Assumptions C80_sudoku.

(** Whole runs, from the words of the command line to the bytes of the files: x = y * y for x = 9, with
    the input file ["{ \"x\": 9 }"]; the witness (9, 3) opens it, (16, 4) and (9, 4) do not, nor does the
    program encrypt for a damaged document. *)
Definition program_fs : fsys :=
  fs_write (lit "i") (utf8_encode (lit "{ ""x"": 9 }")) (fs_write (lit "j") (utf8_encode (lit "{ ""x"": }"))
  (fs_write (lit "3") (ex_values_file [fr 1; fr 9; fr 3]) (fs_write (lit "4") (ex_values_file [fr 1; fr 16; fr 4])
  (fs_write (lit "5") (ex_values_file [fr 1; fr 9; fr 4]) ex_fs)))).
Definition program (args : list text) (s : fsys) : fsys * res main_error Datatypes.unit :=
  run (zkenc ex_codec ex_enc (fun _ => false) false (2 ^ 63 - 1) false ex_visits ex_coins args) s.
Definition program_opens (wp : string) : N * option (list byte) :=
  let '(s1, _) := program [lit "encrypt"; lit "-oo"; lit "--circuit=c"; lit "-s"; lit "s"; lit "--input"; lit "i"; lit "-m=m"] program_fs in
  let '(s2, r) := program [lit "decrypt"; lit "-w"; lit wp; lit "-io"; lit "-cc"; lit "--output"; lit "p"] s1 in
  (exit_status r, s2 (lit "p")).
Example C80_nonvacuous :
  exit_status (snd (program [lit "encrypt"; lit "-oo"; lit "--circuit=c"; lit "-s"; lit "s"; lit "--input"; lit "i"; lit "-m=m"] program_fs)) = 0 /\
  exit_status (snd (program [lit "encrypt"; lit "-oo"; lit "--circuit=c"; lit "-s"; lit "s"; lit "--input"; lit "j"; lit "-m=m"] program_fs)) = 1 /\
  program_opens "3" = (0, Some [x68; x69]) /\ program_opens "4" = (1, None) /\ program_opens "5" = (1, None).
Proof. vm_compute. repeat split. Qed.
