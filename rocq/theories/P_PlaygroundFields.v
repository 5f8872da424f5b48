(** Property theorems C77, continued: the fields of the page and what the library is called with.
    Vocabulary: SpecPlayground.v. *)
From Coq Require Import List Bool Arith NArith ZArith Lia.
From Coq Require Import Strings.String Strings.Byte.
From Verif Require Import Res Bytes Text Utf8 Inputs Combined SpecNumerals P_Numerals JsonText SpecJson JsonFacts JsonMore JsonObj JsonWrite P_Json
  Playground SpecPlayground P_Playground.
Import ListNotations.
Local Open Scope nat_scope.

Ltac opened := unfold auto_solve, edit_puzzle, edit_solution, put_cell, upload, public_file, private_file, custom_upload, upload_r1cs, upload_wasm, generate,
      click_encrypt, click_decrypt, click_custom_encrypt, click_custom_decrypt, settle_nth, Playground.settle, start.
Ltac cases := repeat match goal with
    | |- context [if ?b then _ else _] => destruct b eqn:?
    | |- context [match ?x with _ => _ end] => destruct x eqn:?
    end.

Section Steps.
  Context {coins enc_error dec_error : Type}.
  Context (lib_encrypt : coins -> list byte -> text -> json -> list byte -> bool -> res enc_error (list byte)).
  Context (lib_decrypt : list byte -> list byte -> list byte -> json -> res dec_error (list byte)).
  Context (round : text -> json) (lossy : list byte -> text).
  Notation page := (@page coins enc_error dec_error).
  Notation step := (step lib_encrypt lib_decrypt round lossy).
  Notation run_page := (run_page lib_encrypt lib_decrypt round lossy).

  Definition held (o : option files) (r w : option (list byte)) : Prop :=
    o = match r, w with
        | None, None => None
        | _, _ => Some (Files (match r with Some b => b | None => [] end) (match w with Some b => b | None => [] end) None)
        end.
  Lemma files_kept (s : page) e : (forall b, e <> UploadR1cs b) -> (forall b, e <> UploadWasm b) -> c_files (step s e) = c_files s.
  Proof.
    intros H1 H2. destruct e; try (contradiction (H1 b eq_refl)); try (contradiction (H2 b eq_refl)); clear H1 H2; cbn [Playground.step].
    all: opened; cases; destruct s; cbn in *; congruence || reflexivity.
  Qed.
  Lemma files_step (s : page) e r w : held (c_files s) r w ->
    held (c_files (step s e)) (match e with UploadR1cs b => Some b | _ => r end) (match e with UploadWasm b => Some b | _ => w end).
  Proof.
    intros H. destruct e.
    13:{ unfold held in *. cbn [Playground.step]. unfold upload_r1cs. rewrite H. destruct s; cbn. destruct r; destruct w; reflexivity. }
    13:{ unfold held in *. cbn [Playground.step]. unfold upload_wasm. rewrite H. destruct s; cbn. destruct r; destruct w; reflexivity. }
    all: rewrite files_kept by (intros ?; discriminate); exact H.
  Qed.
  Lemma circuit_step (s : page) e :
    p_circuit (step s e) = match e with CircuitLoaded r w => Some (Files r w None) | _ => p_circuit s end.
  Proof. destruct e; cbn [Playground.step]; opened; cases; destruct s; cbn in *; congruence || reflexivity. Qed.
  Lemma message_step (s : page) e : p_message (step s e) = match e with TypeMessage t => t | _ => p_message s end.
  Proof. destruct e; cbn [Playground.step]; opened; cases; destruct s; cbn in *; congruence || reflexivity. Qed.
  Lemma cmessage_step (s : page) e : c_message (step s e) = match e with TypeCustomMessage t => t | _ => c_message s end.
  Proof. destruct e; cbn [Playground.step]; opened; cases; destruct s; cbn in *; congruence || reflexivity. Qed.
  Lemma include_step (s : page) e : c_include (step s e) = match e with Include b => b | _ => c_include s end.
  Proof. destruct e; cbn [Playground.step]; opened; cases; destruct s; cbn in *; congruence || reflexivity. Qed.
  Lemma private_step (s : page) e :
    c_private (step s e) = match e with TypePrivate t => t
                           | PrivateFile t => match js_json_parse round t with Some v => pretty 0 v | None => c_private s end
                           | _ => c_private s end.
  Proof. destruct e; cbn [Playground.step]; opened; cases; destruct s; cbn in *; congruence || reflexivity. Qed.
  Lemma public_step (s : page) e :
    c_public (step s e) = match e with TypePublic t => t
                           | PublicFile t => match js_json_parse round t with Some v => pretty 0 v | None => c_public s end
                           | CustomUpload b => match read_public round lossy b with Ok v => pretty 0 v | _ => c_public s end
                           | _ => c_public s end.
  Proof. destruct e; cbn [Playground.step]; opened; cases; destruct s; cbn in *; congruence || reflexivity. Qed.
  Lemma private_rest h q : (forall e, In e q -> ~ touches_private e) -> c_private (run_page (h ++ q)) = c_private (run_page h).
  Proof.
    revert h. induction q as [|e q IH]; intros h H; [rewrite app_nil_r; reflexivity|].
    change (e :: q) with ([e] ++ q). rewrite app_assoc, IH by (intros e' He'; apply H; right; exact He').
    rewrite run_snoc, private_step. assert (N := H e (or_introl eq_refl)).
    destruct e; try reflexivity; contradiction N; eexists; eauto.
  Qed.
  Lemma public_rest h q : (forall e, In e q -> ~ touches_public e) -> c_public (run_page (h ++ q)) = c_public (run_page h).
  Proof.
    revert h. induction q as [|e q IH]; intros h H; [rewrite app_nil_r; reflexivity|].
    change (e :: q) with ([e] ++ q). rewrite app_assoc, IH by (intros e' He'; apply H; right; exact He').
    rewrite run_snoc, public_step. assert (N := H e (or_introl eq_refl)).
    destruct e; try reflexivity; contradiction N; unfold touches_public; try (exists []; right; right; eexists; reflexivity); eexists; eauto.
  Qed.
  Lemma pretty_reads v : js_data round v -> js_json_parse round (pretty 0 v) = Some v.
  Proof.
    intros Hj. apply js_data_plain in Hj as [d Hj]. apply C60_js_reads_exactly. exists d, [], (pretty 0 v), [].
    repeat split; [rewrite app_nil_r; reflexivity|constructor|constructor|]. apply (write_values _ _ _ v d Hj).
  Qed.
End Steps.

(** ** C77: the fields *)
(** The circuit, the messages and the checkbox are what was loaded, uploaded, typed or ticked last.  The
    two files of a custom circuit can be uploaded in any order, and again. *)
Theorem C77_fields :
  forall coins enc_error dec_error
         (lib_encrypt : coins -> list byte -> text -> json -> list byte -> bool -> res enc_error (list byte))
         (lib_decrypt : list byte -> list byte -> list byte -> json -> res dec_error (list byte)) round lossy h,
    let s := run_page lib_encrypt lib_decrypt round lossy h in
    p_circuit s = option_map (fun rw => Files (fst rw) (snd rw) None) (last_circuit h) /\
    p_message s = last_typed h /\ c_message s = last_typed_custom h /\ c_include s = last_include h /\
    (forall r w, last_r1cs h = Some r -> last_wasm h = Some w -> c_files s = Some (Files r w None)) /\
    (last_r1cs h = None -> last_wasm h = None -> c_files s = None) /\
    (last_r1cs h = None \/ last_wasm h = None -> both_files s = None).
Proof.
  intros coins EE DE le ld rd lo h s.
  assert (H : p_circuit s = option_map (fun rw => Files (fst rw) (snd rw) None) (last_circuit h) /\
    p_message s = last_typed h /\ c_message s = last_typed_custom h /\ c_include s = last_include h /\ held (c_files s) (last_r1cs h) (last_wasm h)).
  { unfold s. clear s. induction h as [|e h IH] using rev_ind; [repeat split|].
    destruct IH as (H1&H2&H3&H4&H5). rewrite run_snoc. unfold last_circuit, last_typed, last_typed_custom, last_include, last_r1cs, last_wasm in *.
    rewrite !fold_left_app. cbn [fold_left]. split; [|split; [|split; [|split]]].
    - rewrite circuit_step. destruct e; try exact H1. reflexivity.
    - rewrite message_step. destruct e; try exact H2. reflexivity.
    - rewrite cmessage_step. destruct e; try exact H3. reflexivity.
    - rewrite include_step. destruct e; try exact H4. reflexivity.
    - apply files_step. exact H5. }
  destruct H as (H1&H2&H3&H4&H5). repeat (split; [assumption|]). unfold held in H5. split; [|split].
  - intros r w E1 E2. rewrite H5, E1, E2. reflexivity.
  - intros E1 E2. rewrite H5, E1, E2. reflexivity.
  - unfold both_files. rewrite H5. intros [E| E]; rewrite E; destruct (last_r1cs h) as [r|]; destruct (last_wasm h) as [w|]; try discriminate; try reflexivity.
    cbn [f_r1cs f_wasm]. destruct r; reflexivity.
Qed.
Print Assumptions C77_fields.

(** The fields for inputs: a document typed or loaded from a file stays until the field is changed
    again; a file that is no JSON changes nothing and is reported. *)
Theorem C77_input_fields :
  forall coins enc_error dec_error
         (lib_encrypt : coins -> list byte -> text -> json -> list byte -> bool -> res enc_error (list byte))
         (lib_decrypt : list byte -> list byte -> list byte -> json -> res dec_error (list byte)) round lossy h,
    let run := run_page lib_encrypt lib_decrypt round lossy in
    let parse := js_json_parse round in
    (forall e q v, js_data round v -> sets_private parse e v -> (forall e', In e' q -> ~ touches_private e') ->
       parse (c_private (run (h ++ [e] ++ q))) = Some v) /\
    (forall e q v, js_data round v -> sets_public parse e v -> (forall e', In e' q -> ~ touches_public e') ->
       parse (c_public (run (h ++ [e] ++ q))) = Some v) /\
    (forall t e, e = PrivateFile t \/ e = PublicFile t ->
       (parse t = None -> run (h ++ [e]) = set_error (Some InvalidFile) (run h)) /\
       (parse t <> None -> p_error (run (h ++ [e])) = None)).
Proof.
  intros coins EE DE le ld rd lo h run parse. split; [|split].
  - intros e q v Hj (t&He&Hp) Hq. unfold run. rewrite app_assoc, private_rest by exact Hq. rewrite run_snoc, private_step.
    destruct He as [-> | ->]; [exact Hp|]. fold parse. rewrite Hp. apply pretty_reads. exact Hj.
  - intros e q v Hj (t&He&Hp) Hq. unfold run. rewrite app_assoc, public_rest by exact Hq. rewrite run_snoc, public_step.
    destruct He as [-> | ->]; [exact Hp|]. fold parse. rewrite Hp. apply pretty_reads. exact Hj.
  - intros t e He. unfold run. rewrite run_snoc. destruct He as [-> | ->]; cbn [step]; unfold private_file, public_file; fold parse.
    + split; intros Hp; [rewrite Hp; reflexivity|]. destruct (parse t); [|congruence]. destruct (run_page _ _ _ _ h); reflexivity.
    + split; intros Hp; [rewrite Hp; reflexivity|]. destruct (parse t); [|congruence]. destruct (run_page _ _ _ _ h); reflexivity.
Qed.
Print Assumptions C77_input_fields.

(** A click on encrypt calls the library's encrypt with the message, the puzzle (the document in the
    field) and the circuit that are on the page; or it calls nothing.  On the Sudoku tab the puzzle is
    always embedded, on the custom tab the inputs are if the box is ticked. *)
Theorem C77_encrypt_calls :
  forall coins enc_error dec_error
         (lib_encrypt : coins -> list byte -> text -> json -> list byte -> bool -> res enc_error (list byte))
         (lib_decrypt : list byte -> list byte -> list byte -> json -> res dec_error (list byte)) round lossy h co,
    let run := run_page lib_encrypt lib_decrypt round lossy in
    (encrypt_starts (run h) -> forall r w, last_circuit h = Some (r, w) ->
       p_calls (run (h ++ [ClickEncrypt co])) =
         [CallEncrypt co (Files r w None) (JObj [(lit "puzzle", JArr (p_puzzle (run h)))]) (text_encode (last_typed h)) true]) /\
    (~ encrypt_starts (run h) -> p_calls (run (h ++ [ClickEncrypt co])) = p_calls (run h)) /\
    (custom_encrypt_starts (js_json_parse round) (run h) -> forall r w v, last_r1cs h = Some r -> last_wasm h = Some w ->
       js_json_parse round (c_public (run h)) = Some v ->
       p_calls (run (h ++ [ClickCustomEncrypt co])) =
         [CallCustomEncrypt co (Files r w None) v (text_encode (last_typed_custom h)) (last_include h)]) /\
    (~ custom_encrypt_starts (js_json_parse round) (run h) -> p_calls (run (h ++ [ClickCustomEncrypt co])) = p_calls (run h)).
Proof.
  intros coins EE DE le ld rd lo h co run.
  destruct (C77_fields coins EE DE le ld rd lo h) as (F1&F2&F3&F4&F5&_). fold run in F1, F2, F3, F4, F5.
  assert (HI := inv_run le ld rd lo h). fold run in HI.
  assert (R1 : run (h ++ [ClickEncrypt co]) = click_encrypt co (run h)) by (unfold run; rewrite run_snoc; reflexivity).
  assert (R2 : run (h ++ [ClickCustomEncrypt co]) = click_custom_encrypt rd co (run h)) by (unfold run; rewrite run_snoc; reflexivity).
  rewrite R1, R2. split; [|split; [|split]].
  - intros Hs r w Hc. destruct (encrypt_cases co (run h)) as [(fs&ins&_&E1&E2&E3&_)|[N _]]; [|contradiction].
    rewrite E3, E2, F2. rewrite F1, Hc in E1. cbn in E1. rewrite (not_loading _ HI) by apply Hs.
    replace fs with (Files r w None) by congruence. reflexivity.
  - intros Hs. destruct (encrypt_cases co (run h)) as [(fs&ins&E0&_)|[_ N]]; [contradiction|]. apply N.
  - intros Hs r w v Hr Hw Hv. destruct (custom_encrypt_cases rd co (run h)) as [(fs&ins&_&E1&E2&E3&_)|[N _]]; [|contradiction].
    rewrite E3, F3, F4. rewrite (F5 r w Hr Hw) in E1. rewrite (not_loading _ HI) by apply Hs.
    replace fs with (Files r w None) by congruence. replace ins with v by congruence. reflexivity.
  - intros Hs. destruct (custom_encrypt_cases rd co (run h)) as [(fs&ins&E0&_)|[_ N]]; [contradiction|]. apply N.
Qed.
Print Assumptions C77_encrypt_calls.

(** A new puzzle has a 0 for each blank and no solution; "solve" puts the solver's answer into the
    grid, or empties it and reports if there is none. *)
Theorem C77_generate_and_solve :
  forall coins enc_error dec_error
         (lib_encrypt : coins -> list byte -> text -> json -> list byte -> bool -> res enc_error (list byte))
         (lib_decrypt : list byte -> list byte -> list byte -> json -> res dec_error (list byte)) round lossy h,
    let run := run_page lib_encrypt lib_decrypt round lossy in
    (forall cells, let s := run (h ++ [Generate cells]) in
       Forall2 (fun z x => (z = -1 /\ x = JInt 0 \/ z <> -1 /\ x = JInt z)%Z) cells (p_puzzle s) /\ p_solution s = [] /\ p_error s = None) /\
    (forall cells, p_tab (run h) = Sudoku -> p_mode (run h) = Decrypt -> p_loading (run h) = false -> p_puzzle (run h) <> [] ->
       let s := run (h ++ [AutoSolve (Some cells)]) in
       (~ In (-1)%Z cells -> p_solution s = map JInt cells /\ p_error s = None) /\
       (In (-1)%Z cells -> p_solution s = [] /\ p_error s = Some Unsolvable)) /\
    (p_tab (run h) = Sudoku -> p_mode (run h) = Decrypt -> p_loading (run h) = false -> p_puzzle (run h) <> [] ->
       let s := run (h ++ [AutoSolve None]) in p_solution s = [] /\ p_error s = Some Unsolvable) /\
    (forall e, (exists cells, e = Generate cells) \/ (exists a, e = AutoSolve a) ->
       let s := run (h ++ [e]) in p_calls s = p_calls (run h) /\ p_decrypted s = p_decrypted (run h) /\ p_message s = p_message (run h) /\
         ((exists a, e = AutoSolve a) -> p_puzzle s = p_puzzle (run h))).
Proof.
  intros coins EE DE le ld rd lo h run.
  assert (Hin : forall cells, existsb (fun n => (n =? -1)%Z) cells = true <-> In (-1)%Z cells).
  { intros cells. rewrite existsb_exists. split; [intros (x&Hx&E); apply Z.eqb_eq in E; subst; exact Hx|]. intros H. exists (-1)%Z. split; [exact H|reflexivity]. }
  assert (Hs : forall a, p_tab (run h) = Sudoku -> p_mode (run h) = Decrypt -> p_loading (run h) = false -> p_puzzle (run h) <> [] ->
    negb (is_tab (run h) Sudoku && is_mode (run h) Decrypt) || p_loading (run h) || Nat.eqb (List.length (p_puzzle (run h))) 0 = a -> a = false).
  { intros a H1 H2 H3 H4 <-. unfold is_tab, is_mode. rewrite H1, H2, H3. destruct (p_puzzle (run h)); [congruence|reflexivity]. }
  split; [|split; [|split]].
  - intros cells s. unfold s, run. rewrite run_snoc. cbn [step]. unfold generate. split; [|destruct (run_page _ _ _ _ h); split; reflexivity].
    replace (p_puzzle _) with (map (fun n => JInt (if (n =? -1)%Z then 0 else n)%Z) cells) by (destruct (run_page _ _ _ _ h); reflexivity).
    induction cells as [|z cells IH]; constructor; [|exact IH]. destruct (Z.eqb_spec z (-1)); [left|right]; split; auto.
  - intros cells H1 H2 H3 H4 s.
    assert (Es : s = auto_solve (Some cells) (run h)) by (unfold s, run; rewrite run_snoc; reflexivity).
    rewrite Es. unfold auto_solve. rewrite (Hs _ H1 H2 H3 H4 eq_refl). split; intros Hc.
    + assert (E : existsb (fun n => (n =? -1)%Z) cells = false) by (apply not_true_is_false; rewrite Hin; exact Hc). rewrite E. destruct (run h); split; reflexivity.
    + apply Hin in Hc. rewrite Hc. destruct (run h); split; reflexivity.
  - intros H1 H2 H3 H4 s.
    assert (Es : s = auto_solve None (run h)) by (unfold s, run; rewrite run_snoc; reflexivity).
    rewrite Es. unfold auto_solve. rewrite (Hs _ H1 H2 H3 H4 eq_refl). destruct (run h); split; reflexivity.
  - intros e He s. unfold s, run. rewrite run_snoc. destruct He as [[cells ->]|[a ->]]; cbn [step]; unfold generate, auto_solve.
    + destruct (run_page _ _ _ _ h). repeat split. intros [a Ha]. discriminate.
    + cases; destruct (run_page _ _ _ _ h); repeat split.
Qed.
Print Assumptions C77_generate_and_solve.

(** Concrete histories: both files in the other order, a document from a file, a custom encryption that
    is called with them; a generated puzzle solved. *)
Example C77_fields_nonvacuous :
  let run := run_page (fun (_ : unit) _ _ _ _ _ => Err (E := unit) tt) (fun _ _ _ _ => Err (E := unit) tt) (fun _ => JNull) (fun _ => []) in
  let h := [SelectTab Custom; UploadWasm [x02]; PublicFile (lit "{""a"":1}"); UploadR1cs [x01]; TypeCustomMessage (lit "m"); Include false] in
  custom_encrypt_starts (js_json_parse (fun _ => JNull)) (run h) /\
  p_calls (run (h ++ [ClickCustomEncrypt tt])) =
    [CallCustomEncrypt tt (Files [x01] [x02] None) (JObj [(lit "a", JInt 1)]) [x6d] false] /\
  p_solution (run [SelectMode Decrypt; Generate [-1; 2]%Z; AutoSolve (Some [1; 2]%Z)]) = [JInt 1; JInt 2].
Proof.
  cbv zeta. split; [|split; vm_compute; reflexivity].
  repeat split; try (vm_compute; congruence). eexists. split; [vm_compute; reflexivity|]. split; discriminate.
Qed.
