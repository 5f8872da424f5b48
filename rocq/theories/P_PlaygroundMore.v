(** Property theorems C77, continued: texts, uploads, locked cells, and the page with the library
    behind it.  Vocabulary: SpecPlayground.v, SpecJson.v, SpecEndToEnd.v. *)
From Coq Require Import List Bool Arith NArith ZArith Lia Permutation.
From Coq Require Import Strings.String Strings.Byte.
From Verif Require Import Res Bytes Text Utf8 Fld Zp Groups Bn254 CS CSFacts Qap SpecCore Core CoreFacts CoreMore P_Core
  R1cs SpecR1cs R1csFacts R1csJs R1csJsFacts P_R1cs Wtns SpecWtns WtnsFacts P_Wtns Circuit SpecCircuit CircuitFacts P_Circuit
  ArkSer ArkSerFacts P_Ser Sym SpecSym SymFacts P_Sym Inputs SpecInputs InputsFacts P_Inputs
  Combined SpecCombined CombinedFacts P_Combined Gcm SpecGcm GcmFacts P_Gcm FileSys Commands SpecCommands CommandsFacts
  PartialEncap P_Commands JsZkenc JsZkencFacts P_JsZkenc SpecJs C44Facts P_JsApi JsIff SpecBound P_Bound
  SpecNumerals P_Numerals WitnessCalc SpecWitnessCalc WitnessCalcFacts P_WitnessCalc JsFull SpecEndToEnd EndToEndFacts P_EndToEnd
  SpecJsReports P_JsReports P_EndToEndExact
  SpecSudoku Sudoku SudokuFile SudokuFacts P_Sudoku P_SudokuRun SudokuWasm P_SudokuInputs
  JsonText SpecJson JsonFacts JsonMore JsonObj JsonWrite P_Json Playground SpecPlayground P_Playground.
Import ListNotations.
Local Open Scope N_scope.

(** ** What is left of a message *)
Definition replaced (c : N) : N := if is_high c || is_low c then 65533 else c.
Lemma replaced_written c : written c (replaced c).
Proof.
  unfold replaced, written. destruct (is_high c) eqn:Eh; [apply is_high_iff in Eh; left; split; [left; exact Eh|reflexivity]|].
  apply is_high_false in Eh. destruct (is_low c) eqn:El; [apply is_low_iff in El; left; split; [right; exact El|reflexivity]|].
  apply is_low_false in El. right. repeat split; assumption.
Qed.
Lemma written_replaced c c' : written c c' -> c' = replaced c.
Proof.
  unfold replaced. intros [[[H|H] ->]|(H1&H2&->)].
  - apply is_high_iff in H. rewrite H. reflexivity.
  - apply is_low_iff in H. rewrite H. rewrite orb_true_r. reflexivity.
  - apply is_high_false in H1. apply is_low_false in H2. rewrite H1, H2. reflexivity.
Qed.
Lemma all_written m : Forall2 written m (map replaced m).
Proof. induction m as [|c m IH]; constructor; [apply replaced_written|exact IH]. Qed.
Lemma written_all m u : Forall2 written m u -> u = map replaced m.
Proof. induction 1 as [|c c' m u Hc _ IH]; [reflexivity|]. cbn [map]. f_equal; [apply written_replaced; exact Hc|exact IH]. Qed.
Lemma replaced_scalar m : Forall (fun c => c < 1114112) m -> Forall scalar (map replaced m).
Proof.
  intros H. apply Forall_map. eapply Forall_impl; [|exact H]. intros c Hc. cbn beta in Hc. unfold replaced, scalar.
  destruct (is_high c) eqn:Eh; [cbn; lia|]. apply is_high_false in Eh. destruct (is_low c) eqn:El; [cbn; lia|]. apply is_low_false in El.
  cbn [orb]. unfold high, low in *. lia.
Qed.
Lemma replaced_same m : map replaced m = m -> no_surrogates m.
Proof.
  induction m as [|c m IH]; [constructor|]. cbn [map]. intros E. assert (E1 : replaced c = c) by congruence. assert (E2 : map replaced m = m) by congruence.
  constructor; [|apply IH; exact E2]. destruct (replaced_written c) as [[H E3]|(H1&H2&_)]; [|split; assumption].
  rewrite E1 in E3. subst c. unfold high, low in H. lia.
Qed.
Lemma same_replaced m : no_surrogates m -> map replaced m = m.
Proof. induction 1 as [|c m [H1 H2] _ IH]; [reflexivity|]. cbn [map]. rewrite IH. f_equal. symmetry. apply written_replaced. right. repeat split; assumption. Qed.

(** The text shown for a typed message that was encrypted as it is (TextEncoder) and decrypted: what
    survives of it, or the fixed text if nothing does.  It is the message exactly if that is not
    empty, has no surrogates without partner and does not begin with U+FEFF. *)
Theorem C77_message_text :
  forall lossy m, js_string m ->
    (exists t, survives m t) /\
    (forall t, survives m t -> shown_text lossy (text_encode m) = match t with [] => lit "Decryption successful!" | _ => t end) /\
    (shown_text lossy (text_encode m) = m <-> m <> [] /\ no_surrogates m /\ forall r, m <> 65279 :: r).
Proof.
  intros lossy m [_ Hr]. assert (Hs := replaced_scalar m Hr).
  assert (Hd : forall t, survives m t -> text_decode lossy (text_encode m) = t).
  { intros t (u&Hu&Ht). apply written_all in Hu. unfold text_encode. fold replaced. change (fun c => if is_high c || is_low c then 65533 else c) with replaced.
    unfold text_decode. rewrite (utf8_decode_encode _ Hs). rewrite <- Hu. destruct Ht as [->|[Hn ->]]; [reflexivity|].
    destruct t as [|c t]; [reflexivity|]. destruct (N.eqb_spec c 65279) as [->|Hc]; [contradiction (Hn t); reflexivity|reflexivity]. }
  assert (Hx : exists t, survives m t).
  { destruct (map replaced m) as [|c t] eqn:Em.
    - exists []. exists []. split; [rewrite <- Em; apply all_written|]. right. split; [discriminate|reflexivity].
    - destruct (N.eq_dec c 65279) as [->|Hc].
      + exists t, (65279 :: t). split; [rewrite <- Em; apply all_written|left; reflexivity].
      + exists (c :: t), (c :: t). split; [rewrite <- Em; apply all_written|]. right. split; [congruence|reflexivity]. }
  split; [exact Hx|]. split.
  - intros t Ht. unfold shown_text. rewrite (Hd t Ht). destruct t; reflexivity.
  - destruct Hx as [t Ht]. unfold shown_text. rewrite (Hd t Ht). destruct Ht as (u&Hu&Ht). apply written_all in Hu. split.
    + intros E. assert (Hne : t = u /\ t <> [] \/ t = [] /\ u = [] \/ u = 65279 :: t).
      { destruct Ht as [Ht|[_ <-]]; [right; right; exact Ht|]. destruct u; [right; left; split; reflexivity|left; split; [reflexivity|discriminate]]. }
      assert (Hl : List.length u = List.length m) by (rewrite Hu; apply map_length).
      destruct Hne as [[-> Hne]|[[-> ->]| ->]].
      * destruct u as [|c u]; [contradiction Hne; reflexivity|]. cbn [nonempty] in E. split; [subst m; discriminate|]. split; [apply replaced_same; congruence|].
        intros r Er. destruct Ht as [Ht|[Hn _]]; [|apply (Hn r); congruence].
        apply (f_equal (@List.length N)) in Ht. cbn in Ht. lia.
      * destruct m; [discriminate E|discriminate Hl].
      * exfalso. destruct t as [|c t]; [cbn in E; subst m; discriminate Hl|]. cbn [nonempty] in E. subst m. cbn in Hl. lia.
    + intros (Hne&Hns&Hf). rewrite (same_replaced m Hns) in Hu. subst u. destruct Ht as [Ht|[_ <-]]; [contradiction (Hf t)|].
      destruct m; [contradiction Hne; reflexivity|reflexivity].
Qed.
Print Assumptions C77_message_text.
Example C77_message_text_nonvacuous : forall lossy,
  shown_text lossy (text_encode (lit "hi")) = lit "hi" /\ shown_text lossy (text_encode [65279; 104]) = [104] /\
  shown_text lossy (text_encode [55296; 104]) = [65533; 104] /\ shown_text lossy (text_encode [65279]) = lit "Decryption successful!".
Proof. intros. repeat split; reflexivity. Qed.

(** ** Uploads *)
Lemma whole_valid b : jb_valid (whole b).
Proof. unfold jb_valid, whole. cbn. lia. Qed.
(** A ciphertext file puts the puzzle that is embedded in it into both grids and leaves them alone if
    there is none; the page changes to decryption in either case. *)
Theorem C77_upload_restores_the_puzzle :
  forall coins enc_error dec_error
         (lib_encrypt : coins -> list byte -> text -> json -> list byte -> bool -> res enc_error (list byte))
         (lib_decrypt : list byte -> list byte -> list byte -> json -> res dec_error (list byte)) round lossy h b,
    let run := run_page lib_encrypt lib_decrypt round lossy in
    let s := run (h ++ [Upload b]) in
    let embedded cells := exists w q m kvs, cli_split b = Ok (Parts w (Some q) m) /\
      js_json_parse round (text_decode lossy q) = Some (JObj kvs) /\ hm_get (lit "puzzle") kvs = Some (JArr cells) in
    p_mode s = Decrypt /\ p_uploaded s = Some b /\
    (forall cells, embedded cells -> p_puzzle s = cells /\ p_solution s = cells /\ p_error s = None) /\
    ((forall cells, ~ embedded cells) -> p_puzzle s = p_puzzle (run h) /\ p_solution s = p_solution (run h) /\ p_error s = p_error (run h)).
Proof.
  intros coins EE DE le ld rd lo h b run s embedded. assert (Hs : s = upload rd lo b (run h)) by (unfold s, run; rewrite run_snoc; reflexivity).
  assert (V := whole_valid b).
  assert (R : forall v, read_public rd lo b = Ok v <-> exists w q m, cli_split b = Ok (Parts w (Some q) m) /\ js_json_parse rd (text_decode lo q) = Some v).
  { intros v. unfold read_public. fold (whole b). rewrite (C37_returns_only_embedded_inputs _ _ (text_decode lo) (js_json_parse rd) (whole b) v V).
    rewrite window_whole. reflexivity. }
  rewrite Hs. unfold upload. split; [|split; [|split]].
  - destruct (read_public rd lo b) as [[]| |]; try destruct (hm_get _ _) as [[]|]; destruct (run h); reflexivity.
  - destruct (read_public rd lo b) as [[]| |]; try destruct (hm_get _ _) as [[]|]; destruct (run h); reflexivity.
  - intros cells (w&q&m&kvs&H1&H2&H3). assert (E : read_public rd lo b = Ok (JObj kvs)) by (apply R; eauto). rewrite E, H3. destruct (run h). repeat split.
  - intros Hn. destruct (read_public rd lo b) as [v| |] eqn:Er; [|destruct (run h); repeat split..].
    destruct v as [| | | | | |kvs]; try (destruct (run h); repeat split; fail).
    destruct (hm_get (lit "puzzle") kvs) as [v|] eqn:Eg; [|destruct (run h); repeat split]. destruct v as [| | | | |cells|]; try (destruct (run h); repeat split; fail).
    exfalso. apply (Hn cells). destruct (proj1 (R (JObj kvs)) eq_refl) as (w&q&m&H1&H2). exists w, q, m, kvs. repeat split; assumption.
Qed.
Print Assumptions C77_upload_restores_the_puzzle.

(** The file may come from JavaScript's encrypt. *)
Theorem C77_upload_of_an_encrypted_puzzle :
  forall (E : pairingT Fr) (C : codecT E) (D : domainT Fr) (kdf : GT E -> key) (aes : cipherT) W fuel round lossy
         co cb sym cells message f k r
         coins enc_error dec_error
         (lib_encrypt : coins -> list byte -> text -> json -> list byte -> bool -> res enc_error (list byte))
         (lib_decrypt : list byte -> list byte -> list byte -> json -> res dec_error (list byte)) h,
    (forall g, List.length (kdf g) = 32%nat) -> List.length (c_nonce co) = 12%nat ->
    circuit_file cb r -> js_usable r -> fits_encrypt W fuel cb sym ->
    let inputs := [(lit "puzzle", JArr cells)] in
    js_data round (JObj inputs) -> blen (public_json inputs) < 2 ^ 32 ->
    js_encrypt E C D kdf aes public_json W fuel co cb sym inputs message true = Ok (f, k) ->
    let s := run_page lib_encrypt lib_decrypt round lossy (h ++ [Upload f]) in
    p_mode s = Decrypt /\ p_uploaded s = Some f /\ p_puzzle s = cells /\ p_solution s = cells /\ p_error s = None.
Proof.
  intros E C D kdf aes W fuel rd lo co cb sym cells message f k r coins EE DE le ld h Hk Hn Hcf Hu HW inputs Hj Hq He s.
  destruct (C77_upload_restores_the_puzzle coins EE DE le ld rd lo h f) as (H1&H2&H3&_). fold s in H1, H2, H3.
  split; [exact H1|]. split; [exact H2|]. apply H3.
  assert (G := C61_public_input_comes_back E C D kdf aes W fuel rd lo co cb sym inputs message f k r (whole f) Hk Hn Hcf Hu HW Hj Hq He (whole_valid f) (window_whole f)).
  apply C37_returns_only_embedded_inputs in G; [|apply whole_valid]. rewrite window_whole in G. destruct G as (w&q&m&G1&G2).
  exists w, q, m, inputs. split; [exact G1|]. split; [exact G2|]. reflexivity.
Qed.
Print Assumptions C77_upload_of_an_encrypted_puzzle.

(** On the custom tab the field for public inputs gets a text that reads as the embedded document. *)
Theorem C77_custom_upload_restores_the_inputs :
  forall coins enc_error dec_error
         (lib_encrypt : coins -> list byte -> text -> json -> list byte -> bool -> res enc_error (list byte))
         (lib_decrypt : list byte -> list byte -> list byte -> json -> res dec_error (list byte)) round lossy h b,
    let run := run_page lib_encrypt lib_decrypt round lossy in
    let s := run (h ++ [CustomUpload b]) in
    let embedded v := exists w q m, cli_split b = Ok (Parts w (Some q) m) /\ js_json_parse round (text_decode lossy q) = Some v in
    p_mode s = Decrypt /\ c_ciphertext s = Some b /\ c_private s = c_private (run h) /\
    (forall v, embedded v -> js_data round v -> js_json_parse round (c_public s) = Some v /\ p_error s = None) /\
    ((forall v, ~ embedded v) -> c_public s = c_public (run h) /\ p_error s = p_error (run h)).
Proof.
  intros coins EE DE le ld rd lo h b run s embedded. assert (Hs : s = custom_upload rd lo b (run h)) by (unfold s, run; rewrite run_snoc; reflexivity).
  assert (V := whole_valid b).
  assert (R : forall v, read_public rd lo b = Ok v <-> embedded v).
  { intros v. unfold read_public, embedded. fold (whole b). rewrite (C37_returns_only_embedded_inputs _ _ (text_decode lo) (js_json_parse rd) (whole b) v V).
    rewrite window_whole. reflexivity. }
  rewrite Hs. unfold custom_upload. split; [|split; [|split; [|split]]].
  - destruct (read_public rd lo b); destruct (run h); reflexivity.
  - destruct (read_public rd lo b); destruct (run h); reflexivity.
  - destruct (read_public rd lo b); destruct (run h); reflexivity.
  - intros v Hv Hj. apply R in Hv. rewrite Hv.
    assert (G : js_json_parse rd (pretty 0 v) = Some v).
    { apply js_data_plain in Hj as [d Hj]. apply C60_js_reads_exactly. exists d, [], (pretty 0 v), []. repeat split; [rewrite app_nil_r; reflexivity|constructor|constructor|].
      apply (write_values _ _ _ v d Hj). }
    destruct (run h). split; [exact G|reflexivity].
  - intros Hn. destruct (read_public rd lo b) as [v| |] eqn:Er; [contradiction (Hn v); apply (R v); reflexivity|destruct (run h); split; reflexivity..].
Qed.
Print Assumptions C77_custom_upload_restores_the_inputs.

(** ** What the page says afterwards *)
(** The page shows what it decrypted, not what is loaded: a new ciphertext leaves the message where it is. *)
Theorem C77_message_stays_refuted :
  forall coins enc_error dec_error
         (lib_encrypt : coins -> list byte -> text -> json -> list byte -> bool -> res enc_error (list byte))
         (lib_decrypt : list byte -> list byte -> list byte -> json -> res dec_error (list byte)) round lossy h t b,
    let run := run_page lib_encrypt lib_decrypt round lossy in
    says_decrypted (run h) = Some t ->
    (p_tab (run h) = Sudoku -> says_decrypted (run (h ++ [Upload b])) = Some t /\ p_uploaded (run (h ++ [Upload b])) = Some b) /\
    (p_tab (run h) = Custom -> says_decrypted (run (h ++ [CustomUpload b])) = Some t /\ c_ciphertext (run (h ++ [CustomUpload b])) = Some b).
Proof.
  intros coins EE DE le ld rd lo h t b run Hs. unfold run. rewrite !run_snoc. fold run. cbn [step]. unfold says_decrypted in *.
  split; intros Ht; rewrite Ht in Hs; unfold upload, custom_upload.
  - destruct (read_public rd lo b) as [[]| |]; try destruct (hm_get _ _) as [[]|]; destruct (run h); cbn in *; rewrite Ht; (destruct p_mode; [discriminate|]); split; auto.
  - destruct (read_public rd lo b); destruct (run h); cbn in *; rewrite Ht; (destruct p_mode; [discriminate|]); split; auto.
Qed.
Print Assumptions C77_message_stays_refuted.

(** ** Locked cells *)
Lemma nth_error_firstn_lt {A} (l : list A) i j : (j < i)%nat -> nth_error (firstn i l) j = nth_error l j.
Proof. revert i j. induction l as [|x l IH]; intros [|i] [|j] H; try lia; try reflexivity. cbn [firstn nth_error]. apply IH. lia. Qed.
Lemma nth_error_skipn_add {A} (l : list A) i j : nth_error (skipn i l) j = nth_error l (i + j).
Proof. revert i. induction l as [|x l IH]; intros [|i]; try reflexivity; [destruct j; reflexivity|]. cbn [skipn Nat.add nth_error]. apply IH. Qed.
(** In the solution grid, a cell the puzzle gives cannot be edited; a blank one takes the digit typed. *)
Theorem C77_cells :
  forall coins enc_error dec_error
         (lib_encrypt : coins -> list byte -> text -> json -> list byte -> bool -> res enc_error (list byte))
         (lib_decrypt : list byte -> list byte -> list byte -> json -> res dec_error (list byte)) round lossy h i,
    let run := run_page lib_encrypt lib_decrypt round lossy in
    let s := run h in
    (forall x t, nth_error (p_puzzle s) i = Some x -> x <> JInt 0 -> run (h ++ [EditSolution i t]) = s) /\
    (forall d, p_tab s = Sudoku -> p_mode s = Decrypt -> nth_error (p_puzzle s) i = Some (JInt 0) ->
       (i < List.length (p_solution s))%nat -> 0 <= d <= 9 ->
       let s' := run (h ++ [EditSolution i [48 + d]]) in
       forall j, nth_error (p_solution s') j = if Nat.eqb j i then Some (JInt (Z.of_N d)) else nth_error (p_solution s) j).
Proof.
  intros coins EE DE le ld rd lo h i run s. unfold run. split.
  - intros x t Hx Hz. rewrite run_snoc. fold run. cbn [step]. fold s. unfold edit_solution, locked. rewrite Hx.
    assert (E : is_zero x = false) by (destruct x as [| |z| | | |]; try reflexivity; cbn; apply Z.eqb_neq; intros ->; apply Hz; reflexivity).
    rewrite E. cbn [negb]. rewrite andb_false_r. reflexivity.
  - intros d Ht Hm Hx Hl Hd j. rewrite run_snoc. fold run. fold s. cbn [step]. clearbody s. clear run. unfold edit_solution, locked, is_tab, is_mode, grid_shown.
    rewrite Ht, Hm, Hx. cbn [is_zero negb].
    assert (Hg : match p_solution s with [] => p_puzzle s | _ => p_solution s end = p_solution s).
    { destruct (p_solution s); [cbn in Hl; lia|reflexivity]. }
    rewrite Hg. apply Nat.ltb_lt in Hl as Hl'. rewrite Hl'. cbn [andb]. unfold put_cell.
    assert (Hp : js_parse_int [48 + d] = Some (Z.of_N d)).
    { assert (Hc : d = 0 \/ d = 1 \/ d = 2 \/ d = 3 \/ d = 4 \/ d = 5 \/ d = 6 \/ d = 7 \/ d = 8 \/ d = 9) by lia.
      repeat (destruct Hc as [-> |Hc]; [reflexivity|]). rewrite Hc. reflexivity. }
    rewrite Hp. assert (B : ((0 <=? Z.of_N d) && (Z.of_N d <=? 9))%Z = true) by (apply andb_true_intro; split; apply Z.leb_le; lia).
    rewrite B. change (0 =? 0)%Z with true. cbn [negb]. assert (Es : forall l (q : @page coins EE DE), p_solution (set_solution l q) = l) by (intros l []; reflexivity). rewrite Es.
    destruct (Nat.eqb_spec j i) as [-> |Hj].
    + rewrite nth_error_app2 by (rewrite firstn_length; lia). rewrite firstn_length, Nat.min_l by lia. rewrite Nat.sub_diag. reflexivity.
    + destruct (Nat.lt_ge_cases j i) as [Hlt|Hge].
      * rewrite nth_error_app1 by (rewrite firstn_length; lia). apply nth_error_firstn_lt. exact Hlt.
      * rewrite nth_error_app2 by (rewrite firstn_length; lia). rewrite firstn_length, Nat.min_l by lia.
        destruct (j - i)%nat as [|n] eqn:En; [lia|]. cbn [app nth_error]. rewrite nth_error_skipn_add. f_equal. lia.
Qed.
Print Assumptions C77_cells.
(** Refuted: "a locked cell shows the clue".  The puzzle can be changed under a solution: generate,
    solve, retype a clue; the locked cell keeps the old digit. *)
Theorem C77_locked_cells_show_the_clue_refuted :
  forall coins enc_error dec_error
         (lib_encrypt : coins -> list byte -> text -> json -> list byte -> bool -> res enc_error (list byte))
         (lib_decrypt : list byte -> list byte -> list byte -> json -> res dec_error (list byte)) round lossy puzzle solution d e,
    (1 <= d <= 9)%Z -> (1 <= e <= 9)%Z -> d <> e -> Forall (fun z => 1 <= z <= 9)%Z solution ->
    let h := [SelectMode Decrypt; Generate (d :: puzzle); AutoSolve (Some (d :: solution)); EditPuzzle 0 [48 + Z.to_N e]] in
    let s := run_page lib_encrypt lib_decrypt round lossy h in
    nth_error (p_puzzle s) 0 = Some (JInt e) /\ nth_error (p_solution s) 0 = Some (JInt d) /\
    forall t, run_page lib_encrypt lib_decrypt round lossy (h ++ [EditSolution 0 t]) = s.
Proof.
  intros coins EE DE le ld rd lo puzzle solution d e Hd He Hne Hs h s.
  assert (Hp : js_parse_int [48 + Z.to_N e] = Some e).
  { assert (Hc : (e = 1 \/ e = 2 \/ e = 3 \/ e = 4 \/ e = 5 \/ e = 6 \/ e = 7 \/ e = 8 \/ e = 9)%Z) by lia.
    repeat (destruct Hc as [-> |Hc]; [reflexivity|]). rewrite Hc. reflexivity. }
  assert (Hx : existsb (fun n => (n =? -1)%Z) (d :: solution) = false).
  { destruct (existsb (fun n => (n =? -1)%Z) (d :: solution)) eqn:Ex; [|reflexivity]. apply existsb_exists in Ex as (z&Hz&E). apply Z.eqb_eq in E. subst z.
    destruct Hz as [Hz|Hz]; [lia|]. rewrite Forall_forall in Hs. apply Hs in Hz. lia. }
  assert (Ed : (d =? -1)%Z = false) by (apply Z.eqb_neq; lia).
  assert (B : ((0 <=? e) && (e <=? 9))%Z = true) by (apply andb_true_intro; split; apply Z.leb_le; lia).
  assert (E : exists rest, p_puzzle s = JInt e :: rest /\ p_solution s = map JInt (d :: solution)).
  { assert (A : forall q : @page coins EE DE, p_tab q = Sudoku -> p_mode q = Decrypt -> p_loading q = false -> p_puzzle q <> [] ->
      auto_solve (Some (d :: solution)) q = set_error None (set_solution (map JInt (d :: solution)) q)).
    { intros q H1 H2 H3 H4. unfold auto_solve, is_tab, is_mode. rewrite H1, H2, H3, Hx. destruct (p_puzzle q); [contradiction H4; reflexivity|reflexivity]. }
    subst s h. unfold run_page. cbn [fold_left step]. rewrite A by (reflexivity || discriminate).
    unfold edit_puzzle, put_cell. rewrite Hp, B. eexists. split; reflexivity. }
  destruct E as (rest&E1&E2). split; [rewrite E1; reflexivity|]. split; [rewrite E2; reflexivity|].
  intros t. apply (proj1 (C77_cells coins EE DE le ld rd lo h 0%nat) (JInt e) t).
  - fold s. rewrite E1. reflexivity.
  - intros X. assert (e = 0%Z) by congruence. lia.
Qed.
Print Assumptions C77_locked_cells_show_the_clue_refuted.

(** ** The page with the library behind it *)
(** decrypt of the package (JsFull.v); [module_of]: the program in the uploaded WASM file, [other]: what
    decrypt does with inputs that are no object. *)
Definition the_library (E : pairingT Fr) (C : codecT E) (kdf : GT E -> key) (aes : cipherT) (W : N) (fuel : nat)
  (module_of : list byte -> wmodule) (other : list byte -> list byte -> list byte -> json -> res js_full_error (list byte))
  (r1cs wasm ct : list byte) (inputs : json) : res js_full_error (list byte) :=
  match inputs with
  | JObj kvs => decrypt_inputs E C kdf aes W fuel (module_of wasm) r1cs (whole ct) kvs
  | v => other r1cs wasm ct v
  end.
Lemma decrypts_solves (E : pairingT Fr) (C : codecT E) (kdf : GT E -> key) aes W fuel m cb a full message : module_ok m ->
  decrypt_inputs E C kdf aes W fuel m cb a full = Ok message -> solves m full.
Proof.
  intros Hm Hd. unfold decrypt_inputs, decap_inputs in Hd. destruct (js_split a) as [wm| |]; cbn [rmap_err rbind] in Hd; [|discriminate Hd..].
  destruct (calculate_wtns m full) as [wb| |] eqn:Ew; cbn [rmap_err rbind] in Hd; [|discriminate Hd..].
  pose proof (C48_same_witness_in_every_form m full Hm) as H.
  destruct (calculate_witness m full) as [ws|e|] eqn:Ec; [|destruct H as [_ H]; rewrite H in Ew; discriminate Ew|contradiction].
  apply (C48_witness_iff m _ ws Hm) in Ec as (gs&w&H1&H2&_). exists gs, w. split; assumption.
Qed.

(** Refuted: the custom tab's hint "If you only have private signals, they will be merged with public
    inputs".  If the field for private inputs lacks a signal of the circuit, decryption fails, whatever
    the other field has. *)
Theorem C77_inputs_are_merged_refuted :
  forall (E : pairingT Fr) (C : codecT E) (kdf : GT E -> key) (aes : cipherT) W fuel module_of other round lossy
         coins enc_error (lib_encrypt : coins -> list byte -> text -> json -> list byte -> bool -> res enc_error (list byte))
         h meanwhile r1cs wasm ct private signal n,
    let run := run_page lib_encrypt (the_library E C kdf aes W fuel module_of other) round lossy in
    custom_decrypt_starts (js_json_parse round) (run h) r1cs wasm ct (JObj private) -> c_private (run h) <> [] ->
    module_ok (module_of wasm) -> In (signal, n) (md_signals (module_of wasm)) -> 0 < n ->
    (forall k v, In (k, v) private -> name_hash k <> signal) ->
    none_settles meanwhile ->
    let s := run (h ++ [ClickCustomDecrypt] ++ meanwhile ++ [Settles 0]) in
    c_decrypted s = [] /\ exists e, p_error s = Some (DecryptFailed e).
Proof.
  intros E C kdf aes W fuel mo other rd lo coins EE le h q r w ct priv sg n run Hs _ Hm Hi Hn Hk Hq s.
  destruct (C77_custom_decrypt_shows coins EE _ le (the_library E C kdf aes W fuel mo other) rd lo h q r w ct (JObj priv) Hs Hq) as (_&_&H).
  fold run in H. fold s in H. cbn [the_library] in H.
  destruct (decrypt_inputs E C kdf aes W fuel (mo w) r (whole ct) priv) as [b|e|] eqn:Ed; [|split; [apply H|eexists; apply H]..].
  exfalso. apply decrypts_solves in Ed; [|exact Hm]. destruct Ed as (gs&wt&(per&Hf&->&Hp)&_).
  assert (Hslot : In (sg, 0) (map fst (List.concat per))).
  { apply (Permutation_in _ (Permutation_sym Hp)). unfold slots. apply in_flat_map. exists (sg, n). split; [exact Hi|]. apply in_map_iff. exists 0%nat.
    split; [reflexivity|]. apply in_seq. cbn [snd]. lia. }
  apply in_map_iff in Hslot as (g&Eg&Hg). apply in_concat in Hg as (l&Hl&Hgl).
  assert (Hex : exists kv, In kv priv /\ entry_settings (mo w) kv l).
  { clear - Hf Hl. induction Hf as [|kv l' kvs per Hkv _ IH]; [destruct Hl|]. destruct Hl as [<-|Hl]; [exists kv; split; [left; reflexivity|exact Hkv]|].
    destruct (IH Hl) as (kv'&H1&H2). exists kv'. split; [right; exact H1|exact H2]. }
  destruct Hex as ([k v]&Hkv&(zs&n'&_&_&_&->)). apply in_map_iff in Hgl as (p&<-&_). cbn [fst snd] in Eg. apply (Hk k v Hkv). congruence.
Qed.
Print Assumptions C77_inputs_are_merged_refuted.

(** The shipped Sudoku circuit is loaded and a message was encrypted for a puzzle with it (in JavaScript).
    Decrypting with that ciphertext, the puzzle and a grid on the page shows the message, if the circuit
    accepts the grid, and an error otherwise. *)
Theorem C77_sudoku_decrypts_iff :
  forall (E : pairingT Fr) (C : codecT E) (D : domainT Fr) (kdf : GT E -> key) (aes : cipherT) stringify W fuel module_of other round lossy
         coins enc_error (lib_encrypt : coins -> list byte -> text -> json -> list byte -> bool -> res enc_error (list byte))
         co clues zs m inc f k h meanwhile wasm,
    (forall g, List.length (kdf g) = 32%nat) -> List.length (c_nonce co) = 12%nat ->
    (inc = true -> blen (stringify (puzzle_inputs clues)) < 2 ^ 32) ->
    List.length clues = 81%nat -> Forall (fun z => (0 <= z < 2 ^ 256)%Z) clues ->
    fits_encrypt W fuel sudoku_r1cs_file sudoku_sym_file -> fits_calculated W fuel sudoku_r1cs_file sudoku_content ->
    js_encrypt E C D kdf aes stringify W fuel co sudoku_r1cs_file sudoku_sym_file (puzzle_inputs clues) (text_encode m) inc = Ok (f, k) ->
    module_of wasm = sudoku_module ->
    let run := run_page lib_encrypt (the_library E C kdf aes W fuel module_of other) round lossy in
    decrypt_starts (run h) sudoku_r1cs_file wasm f (JObj (sudoku_full (map JInt clues) (map JInt zs))) -> none_settles meanwhile ->
    let s := run (h ++ [ClickDecrypt] ++ meanwhile ++ [Settles 0]) in
    (accepted (clue clues) (clue zs) -> p_decrypted s = shown_text lossy (text_encode m)) /\
    (~ accepted (clue clues) (clue zs) -> p_decrypted s = [] /\ exists e, p_error s = Some (DecryptFailed e)).
Proof.
  intros E C D kdf aes st W fuel mo other rd lo coins EE le co clues zs m inc f k h q wasm Hk Hn Hinc Hl Hc Hfe Hfc He Hm run Hs Hq s.
  assert (Hz : List.length zs = 81%nat).
  { destruct Hs as (_&_&_&_&_&H1&_&H2). assert (E0 : p_solution (run h) = map JInt zs) by (unfold sudoku_full in H2; congruence).
    rewrite E0, map_length in H1. exact H1. }
  destruct (C77_decrypt_shows coins EE _ le (the_library E C kdf aes W fuel mo other) rd lo h q sudoku_r1cs_file wasm f _ Hs Hq) as (_&_&H).
  fold run in H. fold s in H. cbn [the_library] in H. rewrite Hm in H.
  pose proof (fun m' => C76_js_inputs_decrypt_iff E C D kdf aes st W fuel co clues (map JInt zs) zs (text_encode m) inc f k (whole f) m' Hk Hn Hinc Hl Hc
    (ints_whole zs) Hz Hfe Hfc He (whole_valid f) (window_whole f)) as G. split.
  - intros Ha. rewrite (proj2 (G (text_encode m)) (conj eq_refl Ha)) in H. exact H.
  - intros Ha. destruct (decrypt_inputs E C kdf aes W fuel sudoku_module sudoku_r1cs_file (whole f) (sudoku_full (map JInt clues) (map JInt zs))) as [b|e|] eqn:Ed.
    + exfalso. apply Ha. apply (G b). reflexivity.
    + split; [apply H|eexists; apply H].
    + split; [apply H|eexists; apply H].
Qed.
Print Assumptions C77_sudoku_decrypts_iff.

Lemma decrypt_keeps {coins EE DE} (le : coins -> list byte -> text -> json -> list byte -> bool -> res EE (list byte)) (ld : list byte -> list byte -> list byte -> json -> res DE (list byte)) rd lo s :
  p_mode (step le ld rd lo (step le ld rd lo s ClickDecrypt) (Settles 0)) = p_mode s /\
  p_tab (step le ld rd lo (step le ld rd lo s ClickDecrypt) (Settles 0)) = p_tab s.
Proof.
  assert (K : forall s : @page coins EE DE, p_mode (click_decrypt s) = p_mode s /\ p_tab (click_decrypt s) = p_tab s).
  { intros q. unfold click_decrypt, start. destruct (_ || _); [split; reflexivity|]. destruct (ciphertext_to_use q); [|split; reflexivity].
    destruct (p_circuit q); [|destruct q; split; reflexivity]. destruct (existsb _ _); [destruct q; split; reflexivity|].
    destruct (negb _); destruct q; split; reflexivity. }
  assert (S0 : forall s i, p_mode (settle_nth le ld lo i s) = p_mode s /\ p_tab (settle_nth le ld lo i s) = p_tab s).
  { intros q i. unfold settle_nth, settle. destruct (nth_error (p_calls q) i) as [[co fs x y b|fs ct x|co fs x y b|fs ct x]|]; [..|split; reflexivity].
    - destruct (call_encrypt le co fs x y b); destruct q; split; reflexivity.
    - destruct (ld (f_r1cs fs) (f_wasm fs) ct x); destruct q; split; reflexivity.
    - destruct (call_encrypt le co fs x y b); destruct q; split; reflexivity.
    - destruct (ld (f_r1cs fs) (f_wasm fs) ct x); destruct q; split; reflexivity. }
  cbn [step]. destruct (K s) as [K1 K2], (S0 (click_decrypt s) 0%nat) as [S1 S2]. split; congruence.
Qed.
Lemma ready_starts {coins EE DE} (q : @page coins EE DE) r w y f sol :
  p_tab q = Sudoku -> p_mode q = Decrypt -> p_loading q = false -> p_circuit q = Some (Files r w y) -> p_uploaded q = Some f ->
  List.length sol = 81%nat -> ~ In (JInt 0) sol ->
  decrypt_starts (set_error None (set_solution sol q)) r w f (JObj [(lit "puzzle", JArr (p_puzzle q)); (lit "solution", JArr sol)]).
Proof.
  intros H1 H2 H3 H4 H5 H6 H7. destruct q. cbn in H1, H2, H3, H4, H5. subst. unfold decrypt_starts. cbn.
  split; [reflexivity|]. split; [reflexivity|]. split; [reflexivity|]. split; [eexists; reflexivity|]. split; [left; reflexivity|].
  split; [exact H6|]. split; [exact H7|reflexivity].
Qed.
Lemma set_keeps {coins EE DE} (q : @page coins EE DE) e sol : p_mode (set_error e (set_solution sol q)) = p_mode q /\ p_tab (set_error e (set_solution sol q)) = p_tab q.
Proof. destruct q. split; reflexivity. Qed.
Lemma accepted_dec clues zs : accepted (clue clues) (clue zs) \/ ~ accepted (clue clues) (clue zs).
Proof.
  destruct (asserted (computed (clue clues) (clue zs))) eqn:Ea; [left; apply computed_accepted; exact Ea|right].
  intros H. apply computed_accepted in H. congruence.
Qed.
(** From a new page: load the circuit, upload the file, press "solve", press "decrypt".  Whatever the
    solver answers (81 digits), the page shows the message exactly if the circuit accepts the answer for
    the puzzle; every right answer is accepted. *)
Theorem C77_upload_solve_decrypt :
  forall (E : pairingT Fr) (C : codecT E) (D : domainT Fr) (kdf : GT E -> key) (aes : cipherT) W fuel module_of other round lossy
         coins enc_error (lib_encrypt : coins -> list byte -> text -> json -> list byte -> bool -> res enc_error (list byte))
         co clues zs m f k wasm,
    (forall g, List.length (kdf g) = 32%nat) -> List.length (c_nonce co) = 12%nat ->
    blen (public_json (puzzle_inputs clues)) < 2 ^ 32 ->
    List.length clues = 81%nat -> Forall (fun z => (0 <= z <= 9)%Z) clues ->
    List.length zs = 81%nat -> Forall (fun z => (1 <= z <= 9)%Z) zs ->
    fits_encrypt W fuel sudoku_r1cs_file sudoku_sym_file -> fits_calculated W fuel sudoku_r1cs_file sudoku_content ->
    js_encrypt E C D kdf aes public_json W fuel co sudoku_r1cs_file sudoku_sym_file (puzzle_inputs clues) (text_encode m) true = Ok (f, k) ->
    module_of wasm = sudoku_module ->
    let s := run_page lib_encrypt (the_library E C kdf aes W fuel module_of other) round lossy
      [CircuitLoaded sudoku_r1cs_file wasm; Upload f; AutoSolve (Some zs); ClickDecrypt; Settles 0] in
    (says_decrypted s = Some (shown_text lossy (text_encode m)) <-> accepted (clue clues) (clue zs)) /\
    (solved (fun i => Z.to_nat (nth i clues 0%Z)) (fun i => Z.to_nat (nth i zs 0%Z)) -> accepted (clue clues) (clue zs)).
Proof.
  intros E C D kdf aes W fuel mo other rd lo coins EE le co clues zs m f k wasm Hk Hn Hq Hl Hc Hlz Hz Hfe Hfc He Hm s.
  set (run := run_page le (the_library E C kdf aes W fuel mo other) rd lo) in *.
  assert (Hj : js_data rd (JObj (puzzle_inputs clues))).
  { apply jd_obj.
    - constructor; [intros []|constructor].
    - exists [], [lit "puzzle"]. split; [reflexivity|]. split; [constructor|]. split; [intros k0 []|]. split.
      + intros k0 n0 [<-|[]] Hi. apply array_index_iff in Hi. discriminate Hi.
      + split; [reflexivity|]. exists keep_other. split; [apply keep_other_iff|]. vm_compute. reflexivity.
    - constructor; [|constructor]. cbn [fst snd]. split.
      + split; [|repeat (constructor; [vm_compute; reflexivity|]); constructor].
        intros a b hi lo' E0 H. exfalso. assert (Hlt : Forall (fun c => c < 55296) (lit "puzzle")) by (repeat (constructor; [vm_compute; reflexivity|]); constructor).
        rewrite E0 in Hlt. apply Forall_app in Hlt as [_ Hlt]. inversion Hlt; subst. unfold high in H. lia.
      + apply jd_arr. apply Forall_map. eapply Forall_impl; [|exact Hc]. intros z Hz0. cbn beta in Hz0. apply jd_int. lia. }
  assert (Hc256 : Forall (fun z => (0 <= z < 2 ^ 256)%Z) clues).
  { eapply Forall_impl; [|exact Hc]. intros z [H1 H2]. split; [exact H1|]. apply Z.le_lt_trans with 9%Z; [exact H2|reflexivity]. }
  set (h := [CircuitLoaded sudoku_r1cs_file wasm; Upload f] : list (@event coins)).
  assert (Hu : let u := run h in p_mode u = Decrypt /\ p_uploaded u = Some f /\ p_puzzle u = map JInt clues /\ p_solution u = map JInt clues /\ p_error u = None).
  { exact (C77_upload_of_an_encrypted_puzzle E C D kdf aes W fuel rd lo co sudoku_r1cs_file sudoku_sym_file (map JInt clues) (text_encode m) f k sudoku_content
      coins EE _ le (the_library E C kdf aes W fuel mo other) [CircuitLoaded sudoku_r1cs_file wasm] Hk Hn sudoku_circuit_file sudoku_js_usable Hfe Hj Hq He). }
  assert (Hrest : p_tab (run h) = Sudoku /\ p_loading (run h) = false /\ p_circuit (run h) = Some (Files sudoku_r1cs_file wasm None) /\ p_calls (run h) = []).
  { unfold run, h, run_page. cbn [fold_left step]. unfold upload, first_page, set_circuit, set_uploaded.
    destruct (read_public rd lo f) as [[]| |]; try destruct (hm_get _ _) as [[]|]; repeat split. }
  destruct Hu as (U1&U2&U3&U4&U5), Hrest as (R1&R2&R3&R4).
  set (h2 := h ++ [AutoSolve (Some zs)]).
  assert (Hx : existsb (fun n => (n =? -1)%Z) zs = false).
  { destruct (existsb (fun n => (n =? -1)%Z) zs) eqn:Ex; [|reflexivity]. apply existsb_exists in Ex as (z&Hin&E0). apply Z.eqb_eq in E0. subst z.
    rewrite Forall_forall in Hz. apply Hz in Hin. lia. }
  assert (Ha : run h2 = set_error None (set_solution (map JInt zs) (run h))).
  { unfold h2, run. rewrite run_snoc. fold run. cbn [step]. unfold auto_solve, is_tab, is_mode. rewrite U1, U3, R1, R2, Hx, map_length, Hl. reflexivity. }
  assert (Hs : decrypt_starts (run h2) sudoku_r1cs_file wasm f (JObj (sudoku_full (map JInt clues) (map JInt zs)))).
  { rewrite Ha. unfold sudoku_full. rewrite <- U3. apply (ready_starts (run h) sudoku_r1cs_file wasm None f (map JInt zs) R1 U1 R2 R3 U2); [rewrite map_length; exact Hlz|].
    intros Hin. apply in_map_iff in Hin as (z&E0&Hin). assert (z = 0%Z) by congruence. subst z.
    rewrite Forall_forall in Hz. apply Hz in Hin. lia. }
  assert (Hno : none_settles (@nil (@event coins))) by (intros i []).
  destruct (C77_sudoku_decrypts_iff E C D kdf aes public_json W fuel mo other rd lo coins EE le co clues zs m true f k h2 [] wasm Hk Hn (fun _ => Hq) Hl Hc256 Hfe Hfc He Hm Hs Hno) as [D1 D2].
  fold run in D1, D2. assert (Eh : h2 ++ [ClickDecrypt] ++ [] ++ [Settles 0] = [CircuitLoaded sudoku_r1cs_file wasm; Upload f; AutoSolve (Some zs); ClickDecrypt; Settles 0]) by reflexivity.
  cbv zeta in D1, D2. rewrite Eh in D1, D2. fold s in D1, D2.
  assert (Hmode : p_mode s = Decrypt /\ p_tab s = Sudoku).
  { assert (Es : s = step le (the_library E C kdf aes W fuel mo other) rd lo (step le (the_library E C kdf aes W fuel mo other) rd lo (run h2) ClickDecrypt) (Settles 0)) by reflexivity.
    destruct (decrypt_keeps le (the_library E C kdf aes W fuel mo other) rd lo (run h2)) as [K1 K2]. rewrite Es. rewrite K1, K2, Ha. destruct (set_keeps (run h) None (map JInt zs)) as [K3 K4]. rewrite K3, K4. split; assumption. }
  destruct Hmode as [M1 M2]. split.
  - unfold says_decrypted. rewrite M1, M2. split.
    + intros Hsay. destruct (accepted_dec clues zs) as [A|A]; [exact A|]. exfalso. destruct (D2 A) as [X _]. rewrite X in Hsay. discriminate Hsay.
    + intros A. rewrite (D1 A). destruct (nonempty (shown_text lo (text_encode m))) eqn:En; [reflexivity|].
      exfalso. unfold shown_text in En. destruct (nonempty (text_decode lo (text_encode m))) eqn:En'; [congruence|discriminate En].
  - intros Hsol. apply C76_solutions_are_accepted in Hsol.
    apply (accepted_ext2 (fun i => SpecSudoku.digit (Z.to_nat (nth i clues 0%Z))) _ (fun i => SpecSudoku.digit (Z.to_nat (nth i zs 0%Z)))); [| |exact Hsol].
    + intros i Hi. unfold clue, SpecSudoku.digit. rewrite Z2Nat.id; [reflexivity|]. rewrite Forall_forall in Hc. apply (Hc (nth i clues 0%Z)). apply nth_In. rewrite Hl. exact Hi.
    + intros i Hi. unfold clue, SpecSudoku.digit. rewrite Z2Nat.id; [reflexivity|]. rewrite Forall_forall in Hz. assert (B := Hz (nth i zs 0%Z) (nth_In zs 0%Z ltac:(rewrite Hlz; exact Hi))). cbn beta in B. lia.
Qed.
Print Assumptions C77_upload_solve_decrypt.

(** ** The hypotheses are met *)
(** The puzzle of C76's examples, uploaded, solved and decrypted on the page. *)
Example C77_sudoku_nonvacuous :
  forall (aes : cipherT) other round lossy coins enc_error
         (lib_encrypt : coins -> list byte -> text -> json -> list byte -> bool -> res enc_error (list byte)) wasm fuel,
    100000 <= N.of_nat fuel ->
    exists f k,
      js_encrypt fr_pairing ex_codec bn_domain ex_kdf32 aes public_json (2 ^ 32) fuel ex_coins sudoku_r1cs_file sudoku_sym_file
        (puzzle_inputs (clues_of general_puzzle)) (text_encode (lit "hi")) true = Ok (f, k) /\
      let run zs := run_page lib_encrypt (the_library fr_pairing ex_codec ex_kdf32 aes (2 ^ 32) fuel (fun _ => sudoku_module) other) round lossy
        [CircuitLoaded sudoku_r1cs_file wasm; Upload f; AutoSolve (Some zs); ClickDecrypt; Settles 0] in
      says_decrypted (run (clues_of general_solution)) = Some (lit "hi") /\
      says_decrypted (run (repeat 5%Z 81)) <> Some (lit "hi").
Proof.
  intros aes other rd lo coins EE le wasm fuel Hf. destruct (general_encrypts aes public_json true fuel Hf) as (f&k&He). exists f, k. split; [exact He|].
  assert (Hkdf : forall g, List.length (ex_kdf32 g) = 32%nat) by (intros g; apply le_bytes_length).
  assert (Hn : List.length (c_nonce ex_coins) = 12%nat) by reflexivity.
  assert (Hq : blen (public_json (puzzle_inputs (clues_of general_puzzle))) < 2 ^ 32) by (vm_compute; reflexivity).
  assert (Hc : Forall (fun z => (0 <= z <= 9)%Z) (clues_of general_puzzle)).
  { apply Forall_forall. intros z Hz. assert (H : ((0 <=? z) && (z <=? 9))%Z = true) by (revert z Hz; apply forallb_forall; vm_compute; reflexivity).
    apply andb_prop in H as [H1 H2]. apply Z.leb_le in H1, H2. split; assumption. }
  assert (Hl : List.length (clues_of general_puzzle) = 81%nat) by reflexivity.
  pose proof (fun zs Hlz Hz => C77_upload_solve_decrypt fr_pairing ex_codec bn_domain ex_kdf32 aes (2 ^ 32) fuel (fun _ => sudoku_module) other rd lo coins EE le ex_coins
    (clues_of general_puzzle) zs (lit "hi") f k wasm Hkdf Hn Hq Hl Hc Hlz Hz (sudoku_fits_encrypt fuel Hf) (sudoku_fits_calculated fuel Hf) He eq_refl) as G.
  cbv zeta in G. change (shown_text lo (text_encode (lit "hi"))) with (lit "hi") in G. split.
  - apply G; [reflexivity| |exact general_accepted].
    apply Forall_forall. intros z Hz. assert (H : ((1 <=? z) && (z <=? 9))%Z = true) by (revert z Hz; apply forallb_forall; vm_compute; reflexivity).
    apply andb_prop in H as [H1 H2]. apply Z.leb_le in H1, H2. split; assumption.
  - intros H. apply G in H.
    + destruct H as [_ Hs]. destruct (Hs _ first_row) as [_ H]. apply (proj2 (feqb_true Fr _ _)) in H. vm_compute in H. discriminate H.
    + reflexivity.
    + apply Forall_forall. intros z Hz. apply repeat_spec in Hz. subst z. split; discriminate.
Qed.
(** Both encrypt buttons can be clicked; so can the custom tab's decrypt button, with a private document
    that lacks the circuit's public signal x. *)
Example C77_clicks_nonvacuous :
  forall (aes : cipherT) other round lossy coins enc_error
         (lib_encrypt : coins -> list byte -> text -> json -> list byte -> bool -> res enc_error (list byte)) fuel,
    let run := run_page lib_encrypt (the_library fr_pairing ex_codec ex_kdf32 aes (2 ^ 32) fuel (fun _ => ex_wmodule) other) round lossy in
    encrypt_starts (run [CircuitLoaded [x01] [x02]; Generate (repeat (-1)%Z 81); TypeMessage (lit "hi")]) /\
    custom_encrypt_starts (js_json_parse round)
      (run [SelectTab Custom; UploadR1cs [x01]; UploadWasm [x02]; TypePublic (lit "{}"); TypeCustomMessage (lit "hi")]) /\
    let h := [SelectTab Custom; UploadR1cs [x01]; UploadWasm [x02]; CustomUpload [x00]; TypePublic (lit "{""x"": 9}"); TypePrivate (lit "{""y"": 3}")] in
    custom_decrypt_starts (js_json_parse round) (run h) [x01] [x02] [x00] (JObj [(lit "y", JInt 3)]) /\
    c_private (run h) <> [] /\ module_ok ex_wmodule /\ In (name_hash (lit "x"), 1) (md_signals ex_wmodule) /\
    (forall k v, In (k, v) [(lit "y", JInt 3)] -> name_hash k <> name_hash (lit "x")).
Proof.
  intros aes other rd lo coins EE le fuel run. split; [|split; [|split; [|split; [|split; [|split]]]]].
  - repeat split; try discriminate; try reflexivity.
  - split; [reflexivity|]. split; [reflexivity|]. split; [reflexivity|]. split; [discriminate|]. split; [discriminate|]. split.
    + assert (E0 : js_json_parse rd (lit "{}") = Some (JObj [])) by (vm_compute; reflexivity). intros H. change (js_json_parse rd (lit "{}") = None) in H. rewrite E0 in H. discriminate H.
    + eexists. split; [reflexivity|]. split; discriminate.
  - split; [reflexivity|]. split; [reflexivity|]. split; [reflexivity|]. split; [eexists; reflexivity|]. split; [discriminate|]. split; [discriminate|].
    split; [reflexivity|]. left. split; [discriminate|]. change (js_json_parse rd (lit "{""y"": 3}") = Some (JObj [(lit "y", JInt 3)])). vm_compute. reflexivity.
  - discriminate.
  - exact ex_wmodule_ok.
  - left. reflexivity.
  - intros k v [H|[]]. assert (Ek := f_equal fst H). cbn [fst] in Ek. subst k. intros X. apply ex_hash_ne. symmetry. exact X.
Qed.
(** A message is shown, and stays when another file is uploaded (any library that decrypts). *)
Example C77_message_stays_nonvacuous :
  forall coins enc_error dec_error
         (lib_encrypt : coins -> list byte -> text -> json -> list byte -> bool -> res enc_error (list byte)) round lossy,
    let run := run_page lib_encrypt (fun _ _ _ _ => @Ok dec_error _ [x68; x69]) round lossy in
    let h := [CircuitLoaded [x01] [x02]; Generate (repeat (-1)%Z 81); SelectMode Decrypt; AutoSolve (Some (repeat 1%Z 81)); Upload [x00]; ClickDecrypt; Settles 0] in
    says_decrypted (run h) = Some (lit "hi") /\ says_decrypted (run (h ++ [Upload [x00; x01]])) = Some (lit "hi").
Proof. intros. split; reflexivity. Qed.
