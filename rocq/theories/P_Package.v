(** C86: the zkenc-js package with its real primitives, alone and together with the zkenc program. *)
From Coq Require Import List Bool Arith NArith ZArith Lia Permutation.
From Coq Require Import Strings.String Strings.Byte.
From Verif Require Import P_Sudoku.
From Verif Require Import Res Bytes Text Utf8 Fld Groups Bn254 Qap Core R1cs SpecR1cs R1csJs SpecR1csExact P_R1csExact Wtns SpecWtns Circuit SpecCircuit P_Circuit
  ArkSer ArkSerFacts P_Ser Sym SpecSym Inputs SpecInputs Combined SpecCombined CombinedFacts Gcm SpecGcm Aes Blake3 SpecBlake3 P_Hash FileSys Commands SpecCommands SpecReports P_Reports CommandsFacts P_Commands
  P_Inputs JsZkenc SpecJs P_JsApi WitnessCalc SpecWitnessCalc P_WitnessCalc JsFull SpecEndToEnd P_EndToEnd SpecBound P_Bound P_BoundCli SpecCrossTool P_CrossTool
  CliArgs SpecCliArgs P_CliArgs Main P_Main Program P_Program SpecSudoku Sudoku SudokuFile SudokuFacts SudokuWasm P_SudokuRun P_SudokuInputs
  SpecJsReports P_JsReports JsNumber JsonText SpecJson P_Json Package.
Import ListNotations.
Local Open Scope N_scope.

Lemma loop_steps_value : N.of_nat loop_steps = 4294967296.
Proof. unfold loop_steps. rewrite N2Nat.id. reflexivity. Qed.
Global Opaque loop_steps.
Lemma addresses_value : addresses = 4294967296.
Proof. reflexivity. Qed.

(** The circuit file and the symbol map fit the memory of the WebAssembly module: a file below 2 GiB, at
    most 67108860 names; with a circuit of at most that many wires, its witness fits too. *)
Definition small (cb : list byte) (sym : text) : Prop :=
  blen cb < 2 ^ 31 /\ N.of_nat (List.length (js_parse_sym_file sym)) <= 67108860.
Definition few_wires (r : r1cs_file) : Prop := r_n_wires r <= 67108860.

Lemma small_room cb sym : small cb sym -> room addresses loop_steps sym.
Proof.
  intros [_ H]. unfold room. rewrite addresses_value, loop_steps_value. cbv zeta.
  change (2 ^ 64) with 18446744073709551616. change (2 ^ 32 - 1) with 4294967295.
  revert H. generalize (N.of_nat (List.length (js_parse_sym_file sym))). intros n H. lia.
Qed.
Lemma small_fits cb sym : small cb sym -> fits_encrypt addresses loop_steps cb sym.
Proof.
  intros H. destruct (small_room cb sym H) as (H1&H2&H3&H4). destruct H as [Hc _].
  split; [|exact (conj H1 (conj H2 (conj H3 H4)))]. rewrite addresses_value. change (2 ^ 31) with 2147483648 in Hc. lia.
Qed.
Lemma few_fits cb sym r : small cb sym -> few_wires r -> fits_calculated addresses loop_steps cb r.
Proof.
  intros [Hc _] H. unfold few_wires in H. unfold fits_calculated. rewrite addresses_value, loop_steps_value.
  change (2 ^ 31) with 2147483648 in Hc. change (2 ^ 64) with 18446744073709551616.
  revert H. generalize (r_n_wires r). intros n H. lia.
Qed.

Lemma first_of_done {R : Type} (l : list (R -> Prop)) (r : R) (P : R -> Prop) :
  P r -> Forall (fun Q => ~ Q r) l ->
  (first_of (l ++ [P]) r <-> Forall (fun Q : R -> Prop => forall r', ~ Q r') l).
Proof.
  intros HP. induction l as [|Q l IH]; intros Hl; cbn [app].
  - split; [constructor|]. intros _. apply fo_here. exact HP.
  - inversion Hl as [|Q0 l0 HQ Hl']. subst Q0 l0. split.
    + intros H. remember (Q :: l ++ [P]) as L eqn:EL. destruct H as [P0 l0 r0 H0|P0 l0 r0 H0 H1].
      * exfalso. apply HQ. assert (P0 = Q) by congruence. subst P0. exact H0.
      * assert (P0 = Q) by congruence. assert (l0 = l ++ [P]) by congruence. subst P0 l0.
        constructor; [exact H0|]. apply IH; assumption.
    + intros H. inversion H as [|Q0 l0 HQ' Hl0]. subst Q0 l0. apply fo_next; [exact HQ'|]. apply IH; assumption.
Qed.
Lemma outcome_ok {E A} (x : res E A) : rmap (fun _ => tt) x = Ok tt <-> exists a, x = Ok a.
Proof. destruct x as [a|e|]; cbn; split; try discriminate; try (intros (b&H); discriminate); [exists a; reflexivity|reflexivity]. Qed.
Lemma because_never {R : Type} (P : Prop) (r0 : R) : (forall r', ~ because P r0 r') <-> ~ P.
Proof. unfold because. split; [intros H HP; exact (H r0 (conj HP eq_refl))|intros H r' [HP _]; contradiction]. Qed.

Lemma circuit_reads cb : blen cb < 2 ^ 31 ->
  ((js_parse_r1cs addresses cb <> Panic /\ forall e, js_parse_r1cs addresses cb <> Err e) <-> exists h cs, js_holds cb h cs).
Proof.
  intros H. assert (W : forall h cs, js_parse_r1cs addresses cb = Ok (h, cs) <-> js_holds cb h cs) by (intros h cs; apply C69_wasm_accepts_iff; exact H).
  split.
  - intros [H1 H2]. destruct (js_parse_r1cs addresses cb) as [[h cs]|e|] eqn:Ep; [|exfalso; apply (H2 e); reflexivity|contradiction].
    exists h, cs. apply W. reflexivity.
  - intros (h&cs&Hh). apply W in Hh. rewrite Hh. split; [discriminate|intros e; discriminate].
Qed.

(** encap and encrypt end with a result exactly if no known name is given null, the values of the
    public inputs are numbers as far as they are used, the circuit file can be read, and the message
    fits the cipher (and delta, drawn at random, is not 0). *)
Theorem C86_encap_succeeds_iff :
  forall (E : pairingT Fr) (C : codecT E) (enc : GT E -> list byte) co cb sym inputs,
    small cb sym ->
    ((exists ctb k, package_encap C enc co cb sym inputs = Ok (ctb, k)) <->
     ~ null_given sym inputs /\ ~ bad_number sym inputs /\ (exists h cs, js_holds cb h cs) /\ c_delta co <> f0).
Proof.
  intros E C enc co cb sym inputs Hs.
  assert (A : (exists ctb k, package_encap C enc co cb sym inputs = Ok (ctb, k)) <-> rmap (fun _ => tt) (package_encap C enc co cb sym inputs) = Ok tt).
  { rewrite outcome_ok. split; [intros (f&k&H); exists (f, k); exact H|intros ([f k]&H); exists f, k; exact H]. }
  rewrite A. clear A. unfold package_encap.
  rewrite (C73_js_encap_ends E C bn_domain (blake3_key enc) addresses loop_steps co cb sym inputs (Ok tt) (small_room cb sym Hs)).
  unfold fine. rewrite first_of_done.
  - unfold js_encap_reports, circuit_reports. cbn [app]. rewrite !Forall_cons_iff, !because_never. rewrite <- (circuit_reads cb (proj1 Hs)).
    assert (B : (forall r' : res js_api_error Datatypes.unit, ~ (exists e, js_parse_r1cs addresses cb = Err e /\ r' = Err (AR1cs e))) <-> forall e, js_parse_r1cs addresses cb <> Err e).
    { split; [intros H e He; exact (H _ (ex_intro _ e (conj He eq_refl)))|intros H r' (e&He&_); exact (H e He)]. }
    rewrite B. assert (Z : Forall (fun Q : res js_api_error Datatypes.unit -> Prop => forall r', ~ Q r') [] <-> True) by (split; [trivial|constructor]).
    rewrite Z. unfold not. tauto.
  - split; [trivial|reflexivity].
  - unfold js_encap_reports, circuit_reports, because. cbn [app]. repeat constructor; try (intros [_ H]; discriminate). intros (e&_&H); discriminate.
Qed.
Print Assumptions C86_encap_succeeds_iff.
Theorem C86_encrypt_succeeds_iff :
  forall (E : pairingT Fr) (C : codecT E) (enc : GT E -> list byte) co cb sym inputs message include,
    small cb sym ->
    ((exists f k, package_encrypt C enc co cb sym inputs message include = Ok (f, k)) <->
     ~ null_given sym inputs /\ ~ bad_number sym inputs /\ (exists h cs, js_holds cb h cs) /\ c_delta co <> f0 /\
     blen message <= 2 ^ 36 - 32).
Proof.
  intros E C enc co cb sym inputs message inc Hs.
  assert (A : (exists f k, package_encrypt C enc co cb sym inputs message inc = Ok (f, k)) <-> rmap (fun _ => tt) (package_encrypt C enc co cb sym inputs message inc) = Ok tt).
  { rewrite outcome_ok. split; [intros (f&k&H); exists (f, k); exact H|intros ([f k]&H); exists f, k; exact H]. }
  rewrite A. clear A. unfold package_encrypt.
  rewrite (C73_js_encrypt_ends E C bn_domain (blake3_key enc) aes256 public_json addresses loop_steps co cb sym inputs message inc (Ok tt) (kdf_length E enc) (small_room cb sym Hs)).
  unfold fine. rewrite first_of_done.
  - unfold js_encrypt_reports, js_encap_reports, circuit_reports. cbn [app]. rewrite !Forall_cons_iff, !because_never. rewrite <- (circuit_reads cb (proj1 Hs)).
    assert (B : (forall r' : res js_api_error Datatypes.unit, ~ (exists e, js_parse_r1cs addresses cb = Err e /\ r' = Err (AR1cs e))) <-> forall e, js_parse_r1cs addresses cb <> Err e).
    { split; [intros H e He; exact (H _ (ex_intro _ e (conj He eq_refl)))|intros H r' (e&He&_); exact (H e He)]. }
    rewrite B. assert (Z : Forall (fun Q : res js_api_error Datatypes.unit -> Prop => forall r', ~ Q r') [] <-> True) by (split; [trivial|constructor]).
    rewrite Z, N.nlt_ge. unfold not. tauto.
  - split; [trivial|reflexivity].
  - unfold js_encrypt_reports, js_encap_reports, circuit_reports, because. cbn [app]. repeat constructor; try (intros [_ H]; discriminate). intros (e&_&H); discriminate.
Qed.
Print Assumptions C86_encrypt_succeeds_iff.

(** The embedded inputs: getPublicInput gives them back. *)
Theorem C86_public_input :
  forall (E : pairingT Fr) (C : codecT E) (enc : GT E -> list byte) round lossy co cb sym inputs message f k r a,
    List.length (c_nonce co) = 12%nat -> circuit_file cb r -> js_usable r -> small cb sym ->
    js_data round (JObj inputs) -> blen (public_json inputs) < 2 ^ 32 ->
    package_encrypt C enc co cb sym inputs message true = Ok (f, k) ->
    jb_valid a -> jb_window a = f ->
    package_public_input round lossy a = Ok (JObj inputs).
Proof.
  intros E C enc round lossy co cb sym inputs message f k r a Hn Hcf Hu Hs Hd Hlen He Hv Hw.
  exact (C61_public_input_comes_back E C bn_domain (blake3_key enc) aes256 addresses loop_steps round lossy co cb sym inputs message f k r a
    (kdf_length E enc) Hn Hcf Hu (small_fits cb sym Hs) Hd Hlen He Hv Hw).
Qed.
Print Assumptions C86_public_input.

(** decrypt with any inputs whatever returns the message exactly if the circuit computes a witness from
    them that has the values bound at encryption on the public wires; it returns nothing else. *)
Theorem C86_decrypt_iff :
  forall (E : pairingT Fr) (C : codecT E) (enc : GT E -> list byte) co cb sym inputs message include f k m r ins a full message',
    List.length (c_nonce co) = 12%nat -> (include = true -> blen (public_json inputs) < 2 ^ 32) ->
    compiled m r ins (js_wires sym) -> circuit_file cb r -> js_usable r -> factors_below (r_n_wires r) (r_constraints r) ->
    small cb sym -> few_wires r ->
    package_encrypt C enc co cb sym inputs message include = Ok (f, k) ->
    jb_valid a -> jb_window a = f ->
    (package_decrypt C enc m cb a full = Ok message' <->
     message' = message /\ exists vals, computes m full vals /\
       forall w z, binds sym inputs (r_n_pub_out r + r_n_pub_in r) w z -> nth_error vals (N.to_nat w) = Some (fr (z mod 2 ^ 256))).
Proof.
  intros E C enc co cb sym inputs message inc f k m r ins a full message' Hn Hinc Hc Hcf Hu Hfb Hs Hfw He Hv Hw.
  exact (C78_js_decrypt_any_inputs_iff E C bn_domain (blake3_key enc) aes256 public_json addresses loop_steps co cb sym inputs full message inc f k m r ins a message'
    (kdf_length E enc) Hn Hinc Hc Hcf Hu Hfb (small_fits cb sym Hs) (few_fits cb sym r Hs Hfw) He Hv Hw).
Qed.
Print Assumptions C86_decrypt_iff.

(** The zkenc program on a file of the package: status 0 exactly for a satisfying witness with the bound
    values, and then the message is in the output file and nothing else has changed. *)
Theorem C86_the_program_opens :
  forall (E : pairingT Fr) (C : codecT E) (enc : GT E -> list byte) co cb sym inputs message include f k r
         huge preserve_order max_off debug v co' args l cp wp ctp op s s' res wb vals,
    List.length (c_nonce co) = 12%nat -> (include = true -> blen (public_json inputs) < 2 ^ 32) ->
    circuit_file cb r -> js_usable r -> factors_below (r_n_wires r) (r_constraints r) -> small cb sym ->
    package_encrypt C enc co cb sym inputs message include = Ok (f, k) ->
    blen cb <= max_off < 2 ^ 63 ->
    writes (options Decrypt) l args -> NoDup (map fst l) ->
    says l "circuit" cp -> says l "witness" wp -> says l "ciphertext" ctp -> says l "output" op ->
    s cp = Some cb -> s wp = Some wb -> s ctp = Some f -> cli_read_witness wb = Ok vals ->
    run (zkenc C enc huge preserve_order max_off debug v co' (lit "decrypt" :: args)) s = (s', res) ->
    (exit_status res = 0 <->
     opens_circuit r vals /\
     forall w z, binds sym inputs (r_n_pub_out r + r_n_pub_in r) w z -> nth_error vals (N.to_nat w) = Some (fr (z mod 2 ^ 256))) /\
    (exit_status res = 0 -> s' = fs_write op message s) /\ (exit_status res <> 0 -> unchanged s s').
Proof.
  intros E C enc co cb sym inputs message inc f k r huge po mo debug v co' args l cp wp ctp op s s' x wb vals
    Hn Hinc Hcf Hu Hfb Hs He [Hm1 Hm2] Hw Hnd B1 B2 B3 B4 Hcp Hwp Hct Hv Hrun.
  assert (Hfail := C59_failure_changes_nothing E C bn_domain (blake3_key enc) aes256 (serde_parse huge po) mo debug v co' _ s s' x Hrun).
  rewrite (decrypt_line E C enc huge po mo debug v co' args l cp wp ctp op Hw Hnd B1 B2 B3 B4) in Hrun.
  apply program_run in Hrun. destruct Hrun as [Es Er].
  destruct (C78_js_encrypt_cli_decrypt_iff E C bn_domain (blake3_key enc) aes256 public_json addresses loop_steps co cb sym inputs message inc f k r mo s cp wp ctp op wb vals
    (kdf_length E enc) Hn Hinc Hcf Hu Hfb (small_fits cb sym Hs) He Hm2 Hm1 Hcp Hwp Hct Hv) as [I1 I2].
  assert (Hx : exit_status x = 0 <-> exists s3, run (decrypt_command C (blake3_key enc) aes256 mo cp wp ctp op) s = (s3, Ok tt)).
  { subst x. rewrite status_ok. split.
    - intros X. exists (fst (run (decrypt_command C (blake3_key enc) aes256 mo cp wp ctp op) s)).
      rewrite (surjective_pairing (run _ s)), X. reflexivity.
    - intros (s4&X). rewrite X. reflexivity. }
  split; [rewrite Hx; exact I1|]. split; [|exact Hfail].
  intros X. apply Hx in X. destruct X as (s4&X). rewrite <- (I2 s4 X). rewrite Es, X. reflexivity.
Qed.
Print Assumptions C86_the_program_opens.

(** The package on a file of the zkenc program: the program has chosen one of the offered values for each
    public input, and decrypt returns the message exactly if the circuit computes a witness with these. *)
Theorem C86_opens_the_programs_file :
  forall (E : pairingT Fr) (C : codecT E) (enc : GT E -> list byte) huge preserve_order max_off debug v co args l cp sp ip mp op s s' res
         cb sb ib mb f st syms it kvs m r ins,
    writes (options Encrypt) l args -> NoDup (map fst l) ->
    says l "circuit" cp -> says l "sym" sp -> says l "input" ip -> says l "message" mp -> says l "output" op ->
    List.length (c_nonce co) = 12%nat ->
    s cp = Some cb -> s sp = Some sb -> s ip = Some ib -> s mp = Some mb -> blen ib < 2 ^ 32 ->
    blen cb < 2 ^ 31 -> few_wires r -> blen cb <= max_off < 2 ^ 63 ->
    utf8_decode sb = Some st -> parse_sym_file st = Ok syms ->
    compiled m r ins (fun name => hm_get (lit "main." ++ name) syms) ->
    circuit_file cb r -> usable r -> factors_below (r_n_wires r) (r_constraints r) ->
    utf8_decode ib = Some it -> serde_parse huge preserve_order it = Some (JObj kvs) ->
    run (zkenc C enc huge preserve_order max_off debug v co (lit "encrypt" :: args)) s = (s', res) -> exit_status res = 0 ->
    s' op = Some f ->
    exists chosen, choice syms kvs (r_n_pub_in r) chosen /\
      forall full a message', jb_valid a -> jb_window a = f ->
        (package_decrypt C enc m cb a full = Ok message' <->
         message' = mb /\ exists vals, computes m full vals /\ has_chosen chosen (r_n_pub_in r) vals).
Proof.
  intros E C enc huge po mo debug v co args l cp sp ip mp op s s' x cb sb ib mb f st syms it kvs m r ins
    Hw Hnd A1 A2 A3 A4 A5 Hn H1 H2 H3 H4 Hib Hcb Hfw [Hm1 Hm2] Hst Hsy Hcomp Hcf Hu Hfb Hit Hj Hrun Hx Hf.
  destruct (encrypt_line E C enc huge po mo debug v co args l cp sp ip mp op Hw Hnd A1 A2 A3 A4 A5) as (inc&_&El).
  rewrite El in Hrun. apply program_run in Hrun. destruct Hrun as [Es Er]. subst x. apply status_ok in Hx.
  assert (Hrun : run (encrypt_command C bn_domain (blake3_key enc) aes256 (serde_parse huge po) mo v co cp sp ip mp op inc) s = (s', Ok tt)).
  { rewrite (surjective_pairing (run _ s)), Hx, <- Es. reflexivity. }
  assert (Hsm : small cb []) by (split; [exact Hcb|vm_compute; discriminate]).
  exact (C78_cli_encrypt_any_inputs_iff E C bn_domain (blake3_key enc) aes256 addresses loop_steps (serde_parse huge po) mo v co cp sp ip mp op inc s s' cb sb ib mb f st syms it kvs m r ins
    (kdf_length E enc) Hn H1 H2 H3 H4 Hst Hsy Hcomp Hcf Hu Hfb Hm2 Hm1 (fun _ => Hib) (few_fits cb [] r Hsm Hfw) Hrun Hf Hit Hj).
Qed.
Print Assumptions C86_opens_the_programs_file.

(** The shipped Sudoku circuit: encrypting for any 81 clues works, and decrypting with these clues and a
    grid returns the message exactly if the circuit accepts the grid for the puzzle. *)
Theorem C86_sudoku :
  forall (E : pairingT Fr) (C : codecT E) (enc : GT E -> list byte) co clues message include,
    List.length (c_nonce co) = 12%nat -> c_delta co <> f0 ->
    List.length clues = 81%nat -> Forall (fun z => (0 <= z < 2 ^ 53)%Z) clues ->
    (include = true -> blen (public_json (puzzle_inputs clues)) < 2 ^ 32) -> blen message <= 2 ^ 36 - 32 ->
    exists f k, package_encrypt C enc co sudoku_r1cs_file sudoku_sym_file (puzzle_inputs clues) message include = Ok (f, k) /\
      forall solution zs a message', Forall2 whole_number solution zs -> List.length zs = 81%nat -> jb_valid a -> jb_window a = f ->
        (package_decrypt C enc sudoku_module sudoku_r1cs_file a (sudoku_full (map JInt clues) solution) = Ok message' <->
         message' = message /\ accepted (clue clues) (clue zs)).
Proof.
  intros E C enc co clues message inc Hn Hd Hl Hc Hinc Hm.
  assert (HL : 100000 <= N.of_nat loop_steps) by (rewrite loop_steps_value; discriminate).
  assert (Hfl : flat_doc (puzzle_inputs clues)).
  { constructor; [|constructor]. right. eexists. split; [reflexivity|]. apply Forall_forall. intros x Hx.
    apply in_map_iff in Hx. destruct Hx as (z&<-&Hz). apply com_int. rewrite Forall_forall in Hc. exact (Hc z Hz). }
  assert (Hc' : Forall (fun z => (0 <= z < 2 ^ 256)%Z) clues).
  { eapply Forall_impl; [|exact Hc]. cbv beta. intros z [Z1 Z2]. split; [exact Z1|]. apply Z.lt_trans with (2 ^ 53)%Z; [exact Z2|reflexivity]. }
  destruct (C44_js_encrypt_succeeds E C bn_domain (blake3_key enc) aes256 public_json addresses loop_steps co sudoku_r1cs_file sudoku_sym_file
    (puzzle_inputs clues) message inc sudoku_content (kdf_length E enc) Hn Hd sudoku_circuit_file (sudoku_fits_encrypt loop_steps HL) Hfl Hm) as (f&k&He).
  exists f, k. split; [exact He|]. intros sol zs a message' Hso Hlz Hv Hw.
  exact (C76_js_inputs_decrypt_iff E C bn_domain (blake3_key enc) aes256 public_json addresses loop_steps co clues sol zs message inc f k a message'
    (kdf_length E enc) Hn Hinc Hl Hc' Hso Hlz (sudoku_fits_encrypt loop_steps HL) (sudoku_fits_calculated loop_steps HL) He Hv Hw).
Qed.
Print Assumptions C86_sudoku.

(** The circuit y * y = x: encrypting for x = 9 gives a file, with the inputs in it; decrypting with
    y = -3 gives the message, with x = 16 and y = 4 an error; the program opens it with (9, 3) only.
    (Computed with a lower bound of the model's loop.) *)
Definition nine : list (text * json) := [(lit "x", JInt 9)].
Definition ex_package (full : list (text * json)) (wp : text) : option (option json * (option (list byte) * option (list byte))) :=
  match js_encrypt fr_pairing ex_codec bn_domain (blake3_key ex_enc) aes256 public_json addresses 1000 ex_coins ex_circuit_file ex_sym_text nine [x68; x69] true with
  | Ok (f, _) =>
      let '(s, _) := run (zkenc ex_codec ex_enc (fun _ => false) false (2 ^ 63 - 1) false ex_visits ex_coins
                            [lit "decrypt"; lit "-w"; wp; lit "-io"; lit "-cc"; lit "--output"; lit "p"]) (fs_write (lit "o") f program_fs) in
      Some (match package_public_input (fun _ => JNull) (fun _ => []) (whole f) with Ok j => Some j | _ => None end,
           (match decrypt_inputs fr_pairing ex_codec (blake3_key ex_enc) aes256 addresses 1000 ex_wmodule ex_circuit_file (whole f) full with Ok m => Some m | _ => None end,
            s (lit "p")))
  | _ => None
  end.
Example C86_nonvacuous :
  small ex_circuit_file ex_sym_text /\ few_wires ex_circuit /\ ex_package [(lit "y", JInt (-3)); (lit "x", JInt 9)] (lit "3") = Some (Some (JObj nine), (Some [x68; x69], Some [x68; x69])) /\ ex_package [(lit "y", JInt 4); (lit "x", JInt 16)] (lit "4") = Some (Some (JObj nine), (None, None)).
Proof. split; [split; [reflexivity|vm_compute; discriminate]|]. split; [vm_compute; discriminate|]. split; vm_compute; reflexivity. Qed.
Example C86_sudoku_nonvacuous :
  exists f k, package_encrypt ex_codec ex_enc ex_coins sudoku_r1cs_file sudoku_sym_file (puzzle_inputs (clues_of general_puzzle)) [x68; x69] true = Ok (f, k) /\
    package_decrypt ex_codec ex_enc sudoku_module sudoku_r1cs_file (whole f)
      (sudoku_full (map JInt (clues_of general_puzzle)) (map JInt (clues_of general_solution))) = Ok [x68; x69].
Proof.
  assert (Hd : c_delta ex_coins <> (f0 : Fr)).
  { intros Hd. apply (proj2 (feqb_true Fr _ _)) in Hd. vm_compute in Hd. discriminate. }
  assert (H9 : Forall (fun z => (0 <= z < 2 ^ 53)%Z) (clues_of general_puzzle)).
  { apply Forall_forall. intros z Hz. assert (H : ((0 <=? z) && (z <=? 9))%Z = true).
    { revert z Hz. apply forallb_forall. vm_compute. reflexivity. }
    apply andb_prop in H as [H1 H2]. apply Z.leb_le in H1, H2. split; [exact H1|]. apply Z.le_lt_trans with 9%Z; [exact H2|reflexivity]. }
  assert (Hj : blen (public_json (puzzle_inputs (clues_of general_puzzle))) < 2 ^ 32) by (vm_compute; reflexivity).
  assert (Hg : blen [x68; x69] <= 2 ^ 36 - 32) by (vm_compute; discriminate).
  destruct (C86_sudoku fr_pairing ex_codec ex_enc ex_coins (clues_of general_puzzle) [x68; x69] true eq_refl Hd (proj1 general_clues) H9 (fun _ => Hj) Hg) as (f&k&He&Hiff).
  exists f, k. split; [exact He|].
  assert (Hv : jb_valid (whole f)) by apply N.le_refl.
  apply (Hiff _ (clues_of general_solution) (whole f) [x68; x69] (ints_whole _) eq_refl Hv (window_whole f)).
  split; [reflexivity|exact general_accepted].
Qed.
