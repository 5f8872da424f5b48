(** C76, continued: concrete runs that meet the hypotheses of its theorems; the puzzle is the one in
    packages/zkenc-cli/tests/inputs/sudoku_general.json. *)
From Coq Require Import List Bool Arith NArith ZArith Lia Permutation.
From Coq Require Import Strings.String Strings.Byte.
From Verif Require Import Res Bytes Text Fld Zp Groups Bn254 CS Qap Domain Core R1cs R1csJs SpecR1cs P_R1cs
  Wtns SpecWtns P_Wtns Circuit SpecCircuit ArkSer P_Ser Gcm SpecGcm Sym Inputs SpecInputs InputsFacts P_Inputs
  Utf8 FileSys Commands SpecCommands Combined SpecCombined CombinedFacts JsZkenc P_JsZkenc SpecJs C44Facts P_JsApi
  SpecBound P_Bound P_Commands CommandsFacts Sudoku SpecSudoku SudokuFile SudokuFacts P_Sudoku.
Import ListNotations.
Local Open Scope nat_scope.

Definition general_puzzle : list nat :=
  [5; 3; 0; 0; 7; 0; 0; 0; 0;  6; 0; 0; 1; 9; 5; 0; 0; 0;  0; 9; 8; 0; 0; 0; 0; 6; 0;
   8; 0; 0; 0; 6; 0; 0; 0; 3;  4; 0; 0; 8; 0; 3; 0; 0; 1;  7; 0; 0; 0; 2; 0; 0; 0; 6;
   0; 6; 0; 0; 0; 0; 2; 8; 0;  0; 0; 0; 4; 1; 9; 0; 0; 5;  0; 0; 0; 0; 8; 0; 0; 7; 9].
Definition general_solution : list nat :=
  [5; 3; 4; 6; 7; 8; 9; 1; 2;  6; 7; 2; 1; 9; 5; 3; 4; 8;  1; 9; 8; 3; 4; 2; 5; 6; 7;
   8; 5; 9; 7; 6; 1; 4; 2; 3;  4; 2; 6; 8; 5; 3; 7; 9; 1;  7; 1; 3; 9; 2; 4; 8; 5; 6;
   9; 6; 1; 5; 3; 7; 2; 8; 4;  2; 8; 7; 4; 1; 9; 6; 3; 5;  3; 4; 5; 2; 8; 6; 1; 7; 9].
Definition at_cell (l : list nat) (i : nat) : nat := nth i l 0.

Definition once_each (l : list nat) : bool :=
  (List.length l =? 9) && forallb (fun d => existsb (Nat.eqb d) l) digits.
Lemma once_each_ok l : once_each l = true -> Permutation l digits.
Proof.
  unfold once_each. intros H. apply andb_prop in H. destruct H as [H1 H2]. apply Nat.eqb_eq in H1. symmetry.
  apply NoDup_Permutation_bis.
  - repeat constructor; cbn; intuition discriminate.
  - rewrite H1. apply le_n.
  - intros d Hd. rewrite forallb_forall in H2. specialize (H2 d Hd). apply existsb_exists in H2. destruct H2 as (x&Hx&E).
    apply Nat.eqb_eq in E. subst. exact Hx.
Qed.
Definition check_solved (p g : nat -> nat) : bool :=
  forallb (fun u => once_each (map g u)) units27 && forallb (fun i => (p i =? 0) || (g i =? p i)) (seq 0 81).
Lemma check_solved_ok p g : check_solved p g = true -> solved p g.
Proof.
  unfold check_solved. intros H. apply andb_prop in H. destruct H as [H1 H2]. rewrite forallb_forall in H1, H2. split.
  - intros u Hu. apply once_each_ok, H1. apply units27_spec. exact Hu.
  - intros i Hi. specialize (H2 i (proj2 (in_seq 81 0 i) ltac:(lia))). apply orb_prop in H2.
    destruct H2 as [H2|H2]; apply Nat.eqb_eq in H2; auto.
Qed.
Example general_is_solved : solved (at_cell general_puzzle) (at_cell general_solution).
Proof. apply check_solved_ok. vm_compute. reflexivity. Qed.
(** The puzzle whose clues are the digits 2, 3, 4, 7, 8, 9 of that solution:
    C76_only_solutions_are_accepted_refuted applies to it. *)
Definition without_156 (d : nat) : nat := match d with 1 => 0 | 5 => 0 | 6 => 0 | _ => d end.
Example C76_refuted_nonvacuous :
  let puzzle i := without_156 (at_cell general_solution i) in
  solved puzzle (at_cell general_solution) /\
  (forall i, i < 81 -> puzzle i <> 1 /\ puzzle i <> 5 /\ puzzle i <> 6) /\
  exists other, accepted (fun i => digit (puzzle i)) (fun i => digit (other i)) /\ ~ solved puzzle other /\
    map other (seq 0 9) = [3; 3; 4; 7; 7; 8; 9; 2; 2].
Proof.
  intros puzzle.
  assert (H : solved puzzle (at_cell general_solution)) by (apply check_solved_ok; vm_compute; reflexivity).
  assert (N : forall i, i < 81 -> puzzle i <> 1 /\ puzzle i <> 5 /\ puzzle i <> 6).
  { intros i _. unfold puzzle. destruct (at_cell general_solution i) as [|[|[|[|[|[|[|n]]]]]]]; cbn; repeat split; lia. }
  split; [exact H|]. split; [exact N|]. exists (fun i => replace_156 (at_cell general_solution i)).
  destruct (proj1 (C76_only_solutions_are_accepted_refuted _ _ H) N) as (A&_&B). split; [exact A|]. split; [exact B|]. reflexivity.
Qed.

(** The command line on the shipped files. *)
Local Open Scope N_scope.
Definition sudoku_sym_bytes : list byte := utf8_encode sudoku_sym_file.
Definition clues_of (l : list nat) : list Z := map Z.of_nat l.
Definition sudoku_doc (l : list nat) : list (text * json) := [(lit "puzzle", JArr (map JInt (clues_of l)))].
Definition sudoku_json (l : list nat) (t : text) : option json := Some (JObj (sudoku_doc l)).
Definition sudoku_fs : fsys :=
  fs_write (lit "c") sudoku_r1cs_file (fs_write (lit "s") sudoku_sym_bytes (fs_write (lit "i") ex_input_file
  (fs_write (lit "m") [x68; x69] (fun _ => None)))).
Lemma sudoku_sym_ascii : forallb (fun c => c <? 128) sudoku_sym_file = true.
Proof. vm_compute. reflexivity. Qed.
Lemma sudoku_sym_decodes : utf8_decode sudoku_sym_bytes = Some sudoku_sym_file.
Proof.
  unfold sudoku_sym_bytes. apply utf8_decode_encode. apply Forall_forall. intros c Hc. pose proof sudoku_sym_ascii as H.
  rewrite forallb_forall in H. specialize (H c Hc). apply N.ltb_lt in H. unfold scalar. clear - H. lia.
Qed.
Lemma nat_clues_ok l : Forall (fun n => (n <= 9)%nat) l -> Forall (fun z => (0 <= z < 2 ^ 64)%Z) (clues_of l).
Proof. intros H. apply Forall_map. eapply Forall_impl; [|exact H]. intros n Hn. cbn beta in Hn. split; [apply Zle_0_nat|]. apply Z.le_lt_trans with 9%Z; [clear - Hn; lia|reflexivity]. Qed.
Lemma sudoku_document l : List.length l = 81%nat -> Forall (fun n => (n <= 9)%nat) l -> puzzle_document (sudoku_doc l) (clues_of l).
Proof.
  intros H1 H2. split; [|split; [left; reflexivity|split; [unfold clues_of; rewrite map_length; exact H1|apply nat_clues_ok; exact H2]]].
  split; [repeat constructor; intros []|]. repeat constructor; vm_compute; discriminate.
Qed.
Lemma clue_digit l i : clue (clues_of l) i = digit (at_cell l i).
Proof. unfold clue, clues_of, digit, at_cell. change 0%Z with (Z.of_nat 0). rewrite map_nth. reflexivity. Qed.
Lemma accepted_ext p p' g : (forall i, (i < 81)%nat -> p' i = p i) -> accepted p g -> accepted p' g.
Proof. intros E [H1 H2]. split; [|exact H2]. intros i Hi. rewrite (E i Hi). apply H1. exact Hi. Qed.

Lemma sudoku_encrypts (aes : cipherT) inc l : List.length l = 81%nat -> Forall (fun n => (n <= 9)%nat) l ->
  exists out, run (encrypt_command ex_codec bn_domain ex_kdf32 aes (sudoku_json l) (2 ^ 63 - 1) ex_visits ex_coins
    (lit "c") (lit "s") (lit "i") (lit "m") (lit "o") inc) sudoku_fs = (fs_write (lit "o") out sudoku_fs, Ok tt).
Proof.
  intros H1 H2. destruct C76_shipped_file_is_read as (r&Hr&_).
  destruct (proj2 (C29_accepted_iff_every_leaf_is_numeric (sudoku_doc l))) as (m&Hm).
  { intros name x (k&v&[E|[]]&Hl). injection E as <- <-. inversion Hl as [|k' l' i y nm v' Hi Hy]; subst.
    - exfalso. apply (H (map JInt (clues_of l))). reflexivity.
    - rewrite nth_error_map in Hi. destruct (nth_error (clues_of l) i) as [z|] eqn:Ez; [|discriminate].
      cbn [option_map] in Hi. apply some_eq in Hi. subst y. inversion Hy; subst. exists (fr z). apply num_nat.
      pose proof (nat_clues_ok l H2) as F. rewrite Forall_forall in F. apply F. apply (nth_error_In _ _ Ez). }
  apply (C41_encrypt_succeeds fr_pairing ex_codec bn_domain ex_kdf32 aes (sudoku_json l) (2 ^ 63 - 1) ex_visits ex_coins
    (lit "c") (lit "s") (lit "i") (lit "m") (lit "o") inc sudoku_fs sudoku_r1cs_file sudoku_sym_bytes ex_input_file [x68; x69]
    r sudoku_sym_file syms (lit "{}") m).
  - intros g. apply le_bytes_length.
  - reflexivity.
  - intros Hd; apply (proj2 (feqb_true Fr _ _)) in Hd; vm_compute in Hd; discriminate.
  - reflexivity.
  - reflexivity.
  - reflexivity.
  - reflexivity.
  - apply Hr. split; [discriminate|reflexivity].
  - exact sudoku_sym_decodes.
  - exact syms_ok.
  - vm_compute. reflexivity.
  - exact Hm.
  - vm_compute. discriminate.
Qed.
(** Encrypt for the fixture's puzzle: its solution decrypts.  Encrypt for the puzzle without solution
    (C76_unsolvable_puzzles_are_accepted_refuted): there is a witness file that decrypts as well. *)
Definition unsolvable_puzzle : list nat := map replace_156 general_solution.
Lemma decrypts (aes : cipherT) inc l grid : List.length l = 81%nat -> Forall (fun n => (n <= 9)%nat) l ->
  accepted (fun i => digit (at_cell l i)) grid ->
  exists s1 wb s3,
    run (encrypt_command ex_codec bn_domain ex_kdf32 aes (sudoku_json l) (2 ^ 63 - 1) ex_visits ex_coins
      (lit "c") (lit "s") (lit "i") (lit "m") (lit "o") inc) sudoku_fs = (s1, Ok tt) /\
    run (decrypt_command ex_codec ex_kdf32 aes (2 ^ 63 - 1) (lit "c") (lit "w") (lit "o") (lit "p")) (fs_write (lit "w") wb s1) = (s3, Ok tt) /\
    s3 (lit "p") = Some [x68; x69].
Proof.
  intros H1 H2 Ha. destruct (sudoku_encrypts aes inc l H1 H2) as (out&Hout).
  set (s1 := fs_write (lit "o") out sudoku_fs) in *.
  assert (HC : sudoku_fs (lit "c") = Some sudoku_r1cs_file) by apply fs_write_same.
  assert (HC1 : s1 (lit "c") = Some sudoku_r1cs_file).
  { unfold s1. rewrite fs_write_other by discriminate. exact HC. }
  assert (HS : sudoku_fs (lit "s") = Some sudoku_sym_bytes).
  { unfold sudoku_fs. rewrite fs_write_other by discriminate. apply fs_write_same. }
  assert (HI : sudoku_fs (lit "i") = Some ex_input_file).
  { unfold sudoku_fs. rewrite fs_write_other by discriminate. rewrite fs_write_other by discriminate. apply fs_write_same. }
  assert (HM : sudoku_fs (lit "m") = Some [x68; x69]).
  { unfold sudoku_fs. do 3 rewrite fs_write_other by discriminate. apply fs_write_same. }
  assert (HJ : sudoku_json l (lit "{}") = Some (JObj (sudoku_doc l))) by reflexivity.
  assert (HU : utf8_decode ex_input_file = Some (lit "{}")) by (vm_compute; reflexivity).
  assert (HB : inc = true -> blen ex_input_file < 2 ^ 32) by (intros _; vm_compute; reflexivity).
  assert (HX : 51696 <= 2 ^ 63 - 1 < 2 ^ 63) by (split; [vm_compute; discriminate|vm_compute; reflexivity]).
  assert (HN : List.length (c_nonce ex_coins) = 12%nat) by reflexivity.
  assert (HK : forall g, List.length (ex_kdf32 g) = 32%nat) by (intros g; apply le_bytes_length).
  assert (N1 : lit "c" <> lit "w") by discriminate. assert (N2 : lit "o" <> lit "w") by discriminate.
  pose proof (C76_cli_who_can_decrypt fr_pairing ex_codec bn_domain ex_kdf32 aes (sudoku_json l) (2 ^ 63 - 1) ex_visits ex_coins
    (lit "c") (lit "s") (lit "i") (lit "m") (lit "o") inc sudoku_fs s1 s1
    (lit "c") (lit "w") (lit "o") (lit "p") sudoku_sym_bytes ex_input_file [x68; x69] (lit "{}") (sudoku_doc l) (clues_of l)
    HK HN HX HC HS sudoku_sym_decodes HI HU HJ (sudoku_document l H1 H2) HB HM Hout HC1 eq_refl N1 N2) as T.
  destruct T as [_ T].
  assert (G : exists grid, accepted (clue (clues_of l)) grid).
  { exists grid. apply (accepted_ext (fun i => digit (at_cell l i))); [intros i _; apply clue_digit|exact Ha]. }
  destruct (T G) as (wb&s3&Hr&Ho).
  exists s1, wb, s3. split; [exact Hout|]. split; [exact Hr|exact Ho].
Qed.
Example C76_cli_nonvacuous : forall (aes : cipherT) (inc : bool),
  (exists s1 wb s3,
    run (encrypt_command ex_codec bn_domain ex_kdf32 aes (sudoku_json general_puzzle) (2 ^ 63 - 1) ex_visits ex_coins
      (lit "c") (lit "s") (lit "i") (lit "m") (lit "o") inc) sudoku_fs = (s1, Ok tt) /\
    run (decrypt_command ex_codec ex_kdf32 aes (2 ^ 63 - 1) (lit "c") (lit "w") (lit "o") (lit "p")) (fs_write (lit "w") wb s1) = (s3, Ok tt) /\
    s3 (lit "p") = Some [x68; x69]) /\
  (forall grid, ~ solved (at_cell unsolvable_puzzle) grid) /\
  (exists s1 wb s3,
    run (encrypt_command ex_codec bn_domain ex_kdf32 aes (sudoku_json unsolvable_puzzle) (2 ^ 63 - 1) ex_visits ex_coins
      (lit "c") (lit "s") (lit "i") (lit "m") (lit "o") inc) sudoku_fs = (s1, Ok tt) /\
    run (decrypt_command ex_codec ex_kdf32 aes (2 ^ 63 - 1) (lit "c") (lit "w") (lit "o") (lit "p")) (fs_write (lit "w") wb s1) = (s3, Ok tt) /\
    s3 (lit "p") = Some [x68; x69]).
Proof.
  intros aes inc.
  assert (EU : forall i, (i < 81)%nat -> at_cell unsolvable_puzzle i = replace_156 (at_cell general_solution i)).
  { intros i _. unfold at_cell, unsolvable_puzzle. change 0%nat with (replace_156 0) at 1. apply map_nth. }
  destruct (C76_unsolvable_puzzles_are_accepted_refuted _ _ general_is_solved) as [U1 U2]. split; [|split].
  - apply (decrypts aes inc general_puzzle (fun i => digit (at_cell general_solution i))).
    + reflexivity.
    + apply Forall_forall. intros n Hn. apply Nat.leb_le. revert n Hn. apply forallb_forall. vm_compute. reflexivity.
    + apply C76_solutions_are_accepted. exact general_is_solved.
  - intros grid [Hu Hp]. apply (U1 grid). split; [exact Hu|]. intros i Hi. cbn beta. rewrite <- (EU i Hi). apply Hp. exact Hi.
  - apply (decrypts aes inc unsolvable_puzzle (fun i => digit (replace_156 (at_cell general_solution i)))).
    + reflexivity.
    + apply Forall_forall. intros n Hn. apply Nat.leb_le. revert n Hn. apply forallb_forall. vm_compute. reflexivity.
    + apply (accepted_ext (fun i => digit (replace_156 (at_cell general_solution i)))); [intros i Hi; rewrite (EU i Hi); reflexivity|exact U2].
Qed.

(** The JavaScript package: the solution decrypts; a grid that is not accepted does not. *)
Lemma puzzle_leaves l name t : js_doc_leaf (sudoku_doc l) name t ->
  exists i n, nth_error l i = Some n /\ name = lit "puzzle" ++ lit "[" ++ dec_text (N.of_nat i) ++ lit "]" /\ t = dec_text_z (Z.of_nat n).
Proof.
  intros (k&v&[E|[]]&Hl). assert (k = lit "puzzle") by congruence. assert (v = JArr (map JInt (clues_of l))) by congruence. subst k v. clear E.
  remember (JArr (map JInt (clues_of l))) as v eqn:Ev. destruct Hl as [key v t H1 H2 H3|key xs i x t H1 H2|key o k x name t H1 H2].
  - exfalso. apply (H1 _ Ev).
  - assert (xs = map JInt (clues_of l)) by congruence. subst xs. unfold clues_of in H1. rewrite map_map, nth_error_map in H1.
    destruct (nth_error l i) as [n|] eqn:En; [|discriminate H1]. cbn [option_map] in H1. apply some_eq in H1. subst x.
    exists i, n. split; [exact En|]. split; [reflexivity|]. cbn [js_to_string] in H2. symmetry. apply some_eq. exact H2.
  - discriminate Ev.
Qed.
Lemma sudoku_single l : js_single sudoku_sym_file (sudoku_doc l).
Proof.
  intros w t t' (n1&L1&W1) (n2&L2&W2). destruct C76_symbol_file as (names&_&Hj&_&Hinj). rewrite Hj in W1, W2.
  pose proof (Hinj _ _ _ W1 W2) as En. apply app_inv_head in En. subst n2.
  destruct (puzzle_leaves l n1 t L1) as (i&n&Hn&E1&Et). destruct (puzzle_leaves l n1 t' L2) as (i'&n'&Hn'&E2&Et').
  rewrite E1 in E2. do 2 apply app_inv_head in E2. apply app_inv_tail in E2.
  assert (i = i') by (apply Nat2N.inj; apply dec_text_inj; exact E2). subst i'. rewrite Hn in Hn'. apply some_eq in Hn'. subst n'.
  rewrite Et, Et'. reflexivity.
Qed.
Lemma sudoku_flat l : Forall (fun n => (n <= 9)%nat) l -> flat_doc (sudoku_doc l).
Proof.
  intros H. constructor; [|constructor]. right. exists (map JInt (clues_of l)). split; [reflexivity|].
  unfold clues_of. rewrite map_map. apply Forall_map. eapply Forall_impl; [|exact H]. intros n Hn. cbn beta in *. constructor.
  change (2 ^ 53)%Z with 9007199254740992%Z. clear - Hn. lia.
Qed.
Lemma sudoku_fits_encrypt fuel : 100000 <= N.of_nat fuel -> fits_encrypt (2 ^ 32) fuel sudoku_r1cs_file sudoku_sym_file.
Proof.
  intros Hf. unfold fits_encrypt. rewrite js_syms_ok. assert (L : List.length syms = 201%nat) by (vm_compute; reflexivity). rewrite L. clear L.
  split; [vm_compute; reflexivity|]. split; [discriminate|]. split; [reflexivity|]. split; [reflexivity|].
  apply N.lt_le_trans with 100000; [reflexivity|exact Hf].
Qed.
Example C76_js_nonvacuous :
  forall (aes : cipherT) (inc : bool) (stringify : list (text * json) -> list byte) fuel,
  100000 <= N.of_nat fuel -> (inc = true -> blen (stringify (sudoku_doc general_puzzle)) < 2 ^ 32) ->
  exists f k wb,
    js_encrypt fr_pairing ex_codec bn_domain ex_kdf32 aes stringify (2 ^ 32) fuel ex_coins sudoku_r1cs_file sudoku_sym_file
      (sudoku_doc general_puzzle) [x68; x69] inc = Ok (f, k) /\
    js_decrypt fr_pairing ex_codec ex_kdf32 aes (2 ^ 32) fuel sudoku_r1cs_file wb (whole f) = Ok [x68; x69].
Proof.
  intros aes inc st fuel Hfuel Hinc.
  assert (Hl : List.length general_puzzle = 81%nat) by reflexivity.
  assert (H9 : Forall (fun n => (n <= 9)%nat) general_puzzle).
  { apply Forall_forall. intros n Hn. apply Nat.leb_le. revert n Hn. apply forallb_forall. vm_compute. reflexivity. }
  assert (Hkdf : forall g, List.length (ex_kdf32 g) = 32%nat) by (intros g; apply le_bytes_length).
  assert (Hn : List.length (c_nonce ex_coins) = 12%nat) by reflexivity.
  pose proof (sudoku_fits_encrypt fuel Hfuel) as Hfe.
  assert (Hd : c_delta ex_coins <> (f0 : Fr)).
  { intros Hd. apply (proj2 (feqb_true Fr _ _)) in Hd. vm_compute in Hd. discriminate. }
  assert (Hg : blen [x68; x69] <= gcm_limit) by (vm_compute; discriminate).
  destruct (C44_js_encrypt_succeeds fr_pairing ex_codec bn_domain ex_kdf32 aes st (2 ^ 32) fuel ex_coins sudoku_r1cs_file sudoku_sym_file
    (sudoku_doc general_puzzle) [x68; x69] inc sudoku_content Hkdf Hn Hd sudoku_circuit_file Hfe (sudoku_flat _ H9) Hg) as (f&k&He).
  set (g := fun i => digit (at_cell general_solution i)). set (vals := witness_values (clue (clues_of general_puzzle)) g).
  assert (Hlv : List.length vals = 202%nat) by (unfold vals, witness_values; rewrite map_length, seq_length; reflexivity).
  assert (Hlen : N.of_nat (List.length vals) < 2 ^ 32) by (rewrite Hlv; reflexivity).
  pose proof (ex_values_is_file vals Hlen) as Hwf. pose proof (values_file_len vals Hlv) as Hb.
  exists f, k, (ex_values_file vals). split; [exact He|].
  assert (Hwin : jb_valid (whole f)) by (unfold jb_valid, whole; cbn [jb_offset jb_length jb_buffer]; apply N.le_refl).
  assert (Hin : In (lit "puzzle", JArr (map JInt (clues_of general_puzzle))) (sudoku_doc general_puzzle)) by (left; reflexivity).
  assert (Hcl : List.length (clues_of general_puzzle) = 81%nat) by reflexivity.
  assert (Hc : Forall (fun z => (0 <= z < 2 ^ 256)%Z) (clues_of general_puzzle)).
  { eapply Forall_impl; [|apply (nat_clues_ok _ H9)]. intros z Hz. cbn beta in Hz. split; [apply Hz|]. apply Z.lt_trans with (2 ^ 64)%Z; [apply Hz|reflexivity]. }
  assert (Hfd : fits_decrypt (2 ^ 32) fuel sudoku_r1cs_file (ex_values_file vals)).
  { split; [vm_compute; reflexivity|]. rewrite Hb. split; [reflexivity|]. split; [discriminate|].
    unfold blen in Hb. clear - Hb Hfuel. lia. }
  apply (C76_js_decrypts_iff fr_pairing ex_codec bn_domain ex_kdf32 aes st (2 ^ 32) fuel ex_coins (sudoku_doc general_puzzle)
    (clues_of general_puzzle) [x68; x69] inc f k (ex_values_file vals) vals (whole f) [x68; x69] Hkdf Hn Hinc Hin Hcl Hc
    (sudoku_single general_puzzle) Hfe He Hwf Hfd Hwin (window_whole f)).
  split; [reflexivity|]. split; [exact Hlv|]. exists g. split.
  - apply (accepted_ext (fun i => digit (at_cell general_puzzle i))); [intros i _; apply clue_digit|].
    apply C76_solutions_are_accepted. exact general_is_solved.
  - rewrite js_syms_ok. apply witness_shows.
Qed.
