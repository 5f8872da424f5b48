(** Property theorems C77, continued: the puzzle grid, and which tab hears the user.
    Vocabulary: SpecPlayground.v. *)
From Coq Require Import List Bool Arith NArith ZArith Lia Permutation.
From Coq Require Import Strings.String Strings.Byte.
From Verif Require Import Res Bytes Text Utf8 Fld Zp Groups Bn254 CS CSFacts Qap SpecCore Core CoreFacts CoreMore P_Core
  R1cs SpecR1cs R1csFacts R1csJs R1csJsFacts P_R1cs Wtns SpecWtns WtnsFacts P_Wtns Circuit SpecCircuit CircuitFacts P_Circuit
  ArkSer ArkSerFacts P_Ser Sym SpecSym SymFacts P_Sym Inputs SpecInputs InputsFacts P_Inputs
  Combined SpecCombined CombinedFacts P_Combined Gcm SpecGcm GcmFacts P_Gcm FileSys Commands SpecCommands CommandsFacts
  PartialEncap P_Commands JsZkenc JsZkencFacts P_JsZkenc SpecJs C44Facts P_JsApi JsIff SpecBound P_Bound
  SpecNumerals P_Numerals WitnessCalc SpecWitnessCalc WitnessCalcFacts P_WitnessCalc JsFull SpecEndToEnd EndToEndFacts P_EndToEnd
  SpecJsReports P_JsReports P_EndToEndExact
  SpecSudoku Sudoku SudokuFile SudokuFacts P_Sudoku P_SudokuRun SudokuWasm P_SudokuInputs
  JsonText SpecJson JsonFacts JsonMore JsonObj JsonWrite P_Json Playground SpecPlayground P_Playground P_PlaygroundMore.
Import ListNotations.
Local Open Scope string_scope.
Local Open Scope list_scope.
Local Open Scope N_scope.

Lemma put_digit {A} (cells : list A) i x j : (i < List.length cells)%nat ->
  nth_error (firstn i cells ++ [x] ++ skipn (S i) cells) j = if Nat.eqb j i then Some x else nth_error cells j.
Proof.
  intros Hl. destruct (Nat.eqb_spec j i) as [-> |Hj].
  - rewrite nth_error_app2 by (rewrite firstn_length; lia). rewrite firstn_length, Nat.min_l by lia. rewrite Nat.sub_diag. reflexivity.
  - destruct (Nat.lt_ge_cases j i) as [Hlt|Hge].
    + rewrite nth_error_app1 by (rewrite firstn_length; lia). apply nth_error_firstn_lt. exact Hlt.
    + rewrite nth_error_app2 by (rewrite firstn_length; lia). rewrite firstn_length, Nat.min_l by lia.
      destruct (j - i)%nat as [|n] eqn:En; [lia|]. cbn [app nth_error]. rewrite nth_error_skipn_add. f_equal. lia.
Qed.

(** The puzzle grid, on the Sudoku tab, whether encrypting or decrypting: the cell typed in takes the digit,
    an emptied cell is blank (0); no other cell and no cell of the solution changes. *)
Theorem C77_puzzle_cells :
  forall coins enc_error dec_error
         (lib_encrypt : coins -> list byte -> text -> json -> list byte -> bool -> res enc_error (list byte))
         (lib_decrypt : list byte -> list byte -> list byte -> json -> res dec_error (list byte)) round lossy h i typed d,
    let run := run_page lib_encrypt lib_decrypt round lossy in
    let s := run h in
    p_tab s = Sudoku -> (i < List.length (p_puzzle s))%nat ->
    (typed = [48 + d] /\ d <= 9 \/ typed = [] /\ d = 0) ->
    let s' := run (h ++ [EditPuzzle i typed]) in
    (forall j, nth_error (p_puzzle s') j = if Nat.eqb j i then Some (JInt (Z.of_N d)) else nth_error (p_puzzle s) j) /\
    s' = set_puzzle (p_puzzle s') s.
Proof.
  intros coins EE DE le ld rd lo h i typed d run s Ht Hl Hd s'.
  assert (Es : s' = set_puzzle (firstn i (p_puzzle s) ++ [JInt (Z.of_N d)] ++ skipn (S i) (p_puzzle s)) s).
  { unfold s', run. rewrite run_snoc. fold run. fold s. cbn [step]. clearbody s. clear s' run. unfold edit_puzzle, is_tab. rewrite Ht.
    apply Nat.ltb_lt in Hl as Hl'. rewrite Hl'. cbn [andb]. unfold put_cell.
    assert (Hp : match js_parse_int typed with Some z => z | None => 0%Z end = Z.of_N d).
    { destruct Hd as [(->&Hd)|(->&->)]; [|reflexivity].
      assert (Hc : d = 0 \/ d = 1 \/ d = 2 \/ d = 3 \/ d = 4 \/ d = 5 \/ d = 6 \/ d = 7 \/ d = 8 \/ d = 9) by lia.
      repeat (destruct Hc as [-> |Hc]; [reflexivity|]). rewrite Hc. reflexivity. }
    rewrite Hp. assert (Hd9 : d <= 9) by (destruct Hd as [(_&Hd)|(_&->)]; [exact Hd|discriminate]).
    assert (B : ((0 <=? Z.of_N d) && (Z.of_N d <=? 9))%Z = true) by (apply andb_true_intro; split; apply Z.leb_le; lia).
    rewrite B. reflexivity. }
  assert (Ep : forall l (q : @page coins EE DE), p_puzzle (set_puzzle l q) = l) by (intros l []; reflexivity).
  rewrite Es, Ep. split; [|reflexivity]. intros j. apply put_digit. exact Hl.
Qed.
Print Assumptions C77_puzzle_cells.

(** The grids and buttons of a tab do nothing while the other tab is open (they are not on the page). *)
Theorem C77_hidden_tabs_hear_nothing :
  forall coins enc_error dec_error
         (lib_encrypt : coins -> list byte -> text -> json -> list byte -> bool -> res enc_error (list byte))
         (lib_decrypt : list byte -> list byte -> list byte -> json -> res dec_error (list byte)) round lossy h e,
    let run := run_page lib_encrypt lib_decrypt round lossy in
    (p_tab (run h) = Custom /\
       ((exists i t, e = EditPuzzle i t) \/ (exists i t, e = EditSolution i t) \/ (exists a, e = AutoSolve a) \/
        (exists co, e = ClickEncrypt co) \/ e = ClickDecrypt) \/
     p_tab (run h) = Sudoku /\ ((exists co, e = ClickCustomEncrypt co) \/ e = ClickCustomDecrypt)) ->
    run (h ++ [e]) = run h.
Proof.
  intros coins EE DE le ld rd lo h e run He. unfold run. rewrite run_snoc. fold run. set (s := run h) in *. clearbody s. clear run.
  destruct He as [(Ht&[(i&t&->)|[(i&t&->)|[(a&->)|[(co&->)| ->]]]])|(Ht&[(co&->)| ->])]; cbn [step];
    unfold edit_puzzle, edit_solution, auto_solve, click_encrypt, click_decrypt, click_custom_encrypt, click_custom_decrypt, is_tab;
    rewrite Ht; reflexivity.
Qed.
Print Assumptions C77_hidden_tabs_hear_nothing.

(** The theorems' hypotheses are met: a puzzle of two cells, its second cell retyped, then emptied; then on
    the custom tab. *)
Example C77_puzzle_cells_nonvacuous :
  forall coins enc_error dec_error
         (lib_encrypt : coins -> list byte -> text -> json -> list byte -> bool -> res enc_error (list byte))
         (lib_decrypt : list byte -> list byte -> list byte -> json -> res dec_error (list byte)) round lossy,
    let run := run_page lib_encrypt lib_decrypt round lossy in
    let h := [Generate [5; -1]%Z] in
    p_tab (run h) = Sudoku /\ (1 < List.length (p_puzzle (run h)))%nat /\
    p_puzzle (run (h ++ [EditPuzzle 1 [55]])) = [JInt 5; JInt 7] /\
    p_puzzle (run ((h ++ [EditPuzzle 1 [55]]) ++ [EditPuzzle 1 []])) = [JInt 5; JInt 0] /\
    p_tab (run (h ++ [SelectTab Custom])) = Custom.
Proof. intros. cbn. repeat split; try reflexivity. auto. Qed.
