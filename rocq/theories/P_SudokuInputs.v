(** Property theorems C76, continued: the whole of JavaScript's decrypt, from the puzzle and a solution
    given as inputs, with the witness generator of the shipped circuit (SudokuWasm.v). *)
From Coq Require Import List Bool Arith NArith ZArith Lia Permutation.
From Coq Require Import Strings.String Strings.Byte.
From Verif Require Import Res Bytes Text Utf8 Fld Zp Groups Bn254 CS CSFacts Qap SpecCore Core CoreFacts CoreMore P_Core
  R1cs SpecR1cs R1csFacts R1csJs R1csJsFacts P_R1cs Wtns SpecWtns WtnsFacts P_Wtns Circuit SpecCircuit CircuitFacts P_Circuit
  ArkSer ArkSerFacts P_Ser Sym SpecSym SymFacts P_Sym Inputs SpecInputs InputsFacts P_Inputs
  Combined SpecCombined CombinedFacts P_Combined Gcm SpecGcm GcmFacts P_Gcm FileSys Commands SpecCommands CommandsFacts
  PartialEncap P_Commands JsZkenc JsZkencFacts P_JsZkenc SpecJs C44Facts P_JsApi JsIff SpecBound P_Bound
  SpecNumerals P_Numerals WitnessCalc SpecWitnessCalc WitnessCalcFacts P_WitnessCalc JsFull SpecEndToEnd EndToEndFacts P_EndToEnd
  SpecJsReports P_JsReports P_EndToEndExact
  SpecSudoku Sudoku SudokuFile SudokuFacts P_Sudoku P_SudokuRun SudokuWasm.
Import ListNotations.
Local Open Scope N_scope.

Definition sudoku_ins : list (text * list N) := [(lit "puzzle", [81]); (lit "solution", [81])].
Definition hp := name_hash (lit "puzzle").
Definition hs := name_hash (lit "solution").
Lemma hashes_differ : hp <> hs.
Proof. intros H. apply N.eqb_eq in H. vm_compute in H. discriminate. Qed.
Lemma element_fr (x : Fr) : fr (Z.of_N (element_value x)) = x.
Proof.
  unfold element_value, fr_val. rewrite Z2N.id by apply (zval_range bn_r). apply zp_zval.
Qed.
Lemma element_small v : v < Z.to_N bn_r -> element_value (fr (Z.of_N v)) = v.
Proof.
  intros H. unfold element_value, fr_val, fr. rewrite zval_zp. rewrite Z.mod_small; [apply N2Z.id|]. split; [apply N2Z.is_nonneg|].
  apply N2Z.inj_lt in H. rewrite Z2N.id in H by discriminate. exact H.
Qed.
Lemma element_below (x : Fr) : element_value x < Z.to_N bn_r.
Proof. unfold element_value, fr_val. pose proof (zval_range bn_r x) as [H1 H2]. apply Z2N.inj_lt; [exact H1|discriminate|exact H2]. Qed.
Lemma asserted_iff v : asserted v = true <-> template_true v sudoku_template.
Proof.
  unfold asserted, template_true, tconstraint_true. rewrite forallb_forall, Forall_forall.
  split; intros H c Hc; specialize (H c Hc); apply (feqb_true Fr); exact H.
Qed.
Lemma computed_accepted p g : asserted (computed p g) = true <-> accepted p g.
Proof.
  rewrite asserted_iff, C76_template_means_accepted. cbn [computed]. split; [intros [_ H]; exact H|intros H; split; [reflexivity|exact H]].
Qed.
Lemma total_ext (f f' : nat -> Fr) u : (forall i, In i u -> f i = f' i) -> SpecSudoku.total f u = SpecSudoku.total f' u.
Proof. exact (ftotal_ext Fr f f' u). Qed.
Lemma nodup_app {A} (l l' : list A) : NoDup l -> NoDup l' -> (forall x, In x l -> In x l' -> False) -> NoDup (l ++ l').
Proof.
  induction 1 as [|x l Hx Hl IH]; intros Hl' Hd; [exact Hl'|]. cbn [app]. constructor.
  - rewrite in_app_iff. intros [H|H]; [exact (Hx H)|apply (Hd x); [left; reflexivity|exact H]].
  - apply IH; [exact Hl'|]. intros y H1 H2. apply (Hd y); [right; exact H1|exact H2].
Qed.
Lemma accepted_ext2 p p' g g' : (forall i, (i < 81)%nat -> p' i = p i) -> (forall i, (i < 81)%nat -> g' i = g i) -> accepted p g -> accepted p' g'.
Proof.
  intros Hp Hg [H1 H2]. split.
  - intros i Hi. rewrite (Hp i Hi), (Hg i Hi). apply H1. exact Hi.
  - intros u Hu. destruct (H2 u Hu) as [A B]. rewrite <- A, <- B. split; apply total_ext; intros i Hi; apply (unit_below u i Hu) in Hi; rewrite (Hg i Hi); reflexivity.
Qed.
Lemma slot_value_in gs h i v : NoDup (map fst gs) -> In (h, N.of_nat i, v) gs -> slot_value gs h i = fr (Z.of_N v).
Proof.
  unfold slot_value. induction gs as [|[[h' i'] v'] gs IH]; [contradiction|]. cbn [map fst]. intros Hn Hin.
  inversion Hn as [|? ? Hni Hn']; subst. cbn [find fst snd]. destruct ((h' =? h) && (i' =? N.of_nat i)) eqn:E.
  - apply andb_prop in E. destruct E as [E1 E2]. apply N.eqb_eq in E1, E2. subst h' i'. destruct Hin as [Hin|Hin].
    + assert (v' = v) by congruence. subst v'. reflexivity.
    + exfalso. apply Hni. apply in_map_iff. exists (h, N.of_nat i, v). split; [reflexivity|exact Hin].
  - destruct Hin as [Hin|Hin]; [|exact (IH Hn' Hin)]. exfalso. assert (h' = h /\ i' = N.of_nat i) as [-> ->] by (split; congruence).
    rewrite !N.eqb_refl in E. discriminate E.
Qed.
Lemma syms_one_index : forallb (fun kw => Nat.eqb (count_occ N.eq_dec (fst kw) 91) 1) syms = true.
Proof. vm_compute. reflexivity. Qed.
Lemma dec_text_no_bracket n : count_occ N.eq_dec (dec_text n) 91 = 0%nat.
Proof.
  apply count_occ_not_In. intros H. assert (Hd : Forall (fun c => 48 <= c <= 57) (dec_text n)) by apply dec_digits_range.
  rewrite Forall_forall in Hd. apply Hd in H. lia.
Qed.
Lemma indexed_brackets k n name : indexed k n name -> count_occ N.eq_dec name 91 = (count_occ N.eq_dec k 91%N + n)%nat.
Proof.
  induction 1 as [k|k n i name _ IH]; [lia|]. rewrite IH. unfold item. rewrite !count_occ_app, dec_text_no_bracket. cbn. lia.
Qed.
Lemma hm_get_in {V} (m : hmap V) k w : hm_get k m = Some w -> In (k, w) m.
Proof.
  induction m as [|[k1 w1] m IH]; cbn [hm_get]; [discriminate|]. destruct (text_eqb k k1) eqn:E.
  - apply text_eqb_eq in E. subst k1. intros H. apply some_eq in H. subst. left. reflexivity.
  - intros H. right. apply IH. exact H.
Qed.
Lemma sudoku_module_ok : module_ok sudoku_module.
Proof.
  constructor.
  - split; vm_compute; reflexivity.
  - cbn [sudoku_module md_signals map fst]. constructor; [intros [H|[]]; apply hashes_differ; symmetry; exact H|]. constructor; [intros []|constructor].
  - cbn [sudoku_module md_signals]. repeat constructor; vm_compute; reflexivity.
  - cbn [sudoku_module md_compute md_wsize md_prime]. unfold sudoku_compute. cbv zeta. intros gs w.
    destruct (asserted _); [|discriminate]. intros H. apply some_eq in H. subst w. split.
    + rewrite map_length. unfold witness_values. rewrite map_length, seq_length. reflexivity.
    + apply Forall_map. apply Forall_forall. intros x _. apply element_below.
Qed.
Lemma sudoku_slots (gs : list setting) : Permutation (map fst gs) (slots sudoku_module) -> NoDup (map fst gs).
Proof.
  intros Hp. eapply Permutation_NoDup; [symmetry; exact Hp|]. unfold slots. cbn [sudoku_module md_signals flat_map fst snd]. fold hp hs.
  rewrite app_nil_r. apply nodup_app.
  - apply FinFun.Injective_map_NoDup; [intros a b E; apply Nat2N.inj; congruence|apply seq_NoDup].
  - apply FinFun.Injective_map_NoDup; [intros a b E; apply Nat2N.inj; congruence|apply seq_NoDup].
  - intros x H1 H2. apply in_map_iff in H1 as (a&E1&_). apply in_map_iff in H2 as (b&E2&_). apply hashes_differ. congruence.
Qed.
Lemma witness_elements p g : map (fun v => fr (Z.of_N v)) (map element_value (witness_values p g)) = witness_values p g.
Proof.
  rewrite map_map. transitivity (map (fun x : Fr => x) (witness_values p g)); [apply map_ext; exact element_fr|apply map_id].
Qed.
Lemma sudoku_compute_some gs w : sudoku_compute gs = Some w ->
  accepted (slot_value gs hp) (slot_value gs hs) /\ w = map element_value (witness_values (slot_value gs hp) (slot_value gs hs)).
Proof.
  unfold sudoku_compute. cbv zeta. fold hp hs. intros Hw.
  destruct (asserted (computed (slot_value gs hp) (slot_value gs hs))) eqn:Ea; [|discriminate Hw]. apply some_eq in Hw.
  apply computed_accepted in Ea. split; [exact Ea|symmetry; exact Hw].
Qed.
Lemma accepted_opens p g : accepted p g -> opens_circuit sudoku_content (witness_values p g).
Proof.
  intros H. apply opens_shown. split; [unfold witness_values; rewrite map_length, seq_length; apply le_n|].
  exists p, g. split; [exact H|apply witness_shows].
Qed.
Lemma sudoku_carries (gs : list setting) : Permutation (map fst gs) (slots sudoku_module) -> Forall (fun g => snd g < Z.to_N bn_r) gs ->
  forall k dims i name v wire, In (k, dims) sudoku_ins -> element dims k i name -> In (name_hash k, i, v) gs ->
      hm_get (lit "main." ++ name) syms = Some wire ->
      nth_error (map element_value (witness_values (slot_value gs hp) (slot_value gs hs))) (N.to_nat wire) = Some v.
Proof.
  intros Hp Hr k dims i name v wire Hk Hel Hi Hwire. apply sudoku_slots in Hp as Hnd.
  assert (dims = [81]) by (destruct Hk as [Hk|[Hk|[]]]; congruence). subst dims.
  inversion Hel as [|d ds k0 i0 j nm Hlt Hin E1 E2 E3 E4]. subst d ds k0 nm. inversion Hin as [k1 E5 E6 E7|]. subst k1 j. cbn [SpecEndToEnd.total] in E3. rewrite N.mul_1_r, N.add_0_r in E3. subst i0.
  set (n := N.to_nat i). assert (Ei : i = N.of_nat n) by (symmetry; apply N2Nat.id). assert (Hn : (n < 81)%nat) by (clear - Hlt Ei; lia). clearbody n. subst i.
  assert (Hv : v < Z.to_N bn_r) by (rewrite Forall_forall in Hr; apply (Hr _ Hi)).
  destruct (witness_shows (slot_value gs hp) (slot_value gs hs) n Hn) as (Hp1&Hs1&_).
  rewrite nth_error_map. destruct Hk as [Hk|[Hk|[]]]; assert (Ek := f_equal fst Hk); cbn [fst] in Ek; subst k name.
  - assert (En : lit "main." ++ item (lit "puzzle") (N.of_nat n) = signal_name (Puzzle n)) by reflexivity. rewrite En in Hwire. rewrite (puzzle_wire_ok n Hn) in Hwire.
    apply some_eq in Hwire. subst wire. rewrite Nat2N.id, Hp1. cbn [option_map]. rewrite (slot_value_in gs hp n v Hnd Hi). f_equal. apply element_small. exact Hv.
  - assert (En : lit "main." ++ item (lit "solution") (N.of_nat n) = signal_name (Solution n)) by reflexivity. rewrite En in Hwire.
    rewrite (Hs1 wire Hwire). cbn [option_map]. rewrite (slot_value_in gs hs n v Hnd Hi). f_equal. apply element_small. exact Hv.
Qed.
Lemma sudoku_names k dims n name : In (k, dims) sudoku_ins -> indexed k n name -> hm_get (lit "main." ++ name) syms <> None -> n = List.length dims.
Proof.
  intros Hk Hix Hw. 
    destruct (hm_get (lit "main." ++ name) syms) as [w|] eqn:Eg; [|contradiction Hw; reflexivity].
  apply hm_get_in in Eg. pose proof syms_one_index as H1. rewrite forallb_forall in H1. specialize (H1 _ Eg). cbn [fst] in H1. apply Nat.eqb_eq in H1.
  rewrite count_occ_app in H1. rewrite (indexed_brackets _ _ _ Hix) in H1.
  destruct Hk as [Hk|[Hk|[]]]; assert (Ek := f_equal fst Hk); assert (Ed := f_equal snd Hk); cbn [fst snd] in Ek, Ed; subst k dims; cbn in H1; cbn; lia.
Qed.
(** The witness generator, the shipped circuit file and the shipped symbol file belong together. *)
Theorem C76_generator_fits_the_files : compiled sudoku_module sudoku_content sudoku_ins (js_wires sudoku_sym_file).
Proof.
  constructor.
  - exact sudoku_module_ok.
  - reflexivity.
  - reflexivity.
  - reflexivity.
  - reflexivity.
  - intros gs w Hp Hr Hw. apply sudoku_compute_some in Hw as [Ha ->]. split.
    + rewrite witness_elements. apply accepted_opens. exact Ha.
    + unfold js_wires. rewrite js_syms_ok. apply (sudoku_carries gs Hp Hr).
  - unfold js_wires. rewrite js_syms_ok. exact sudoku_names.
Qed.
Print Assumptions C76_generator_fits_the_files.

(** ** Which solutions decrypt *)
Definition sudoku_full (puzzle solution : list json) : list (text * json) := [(lit "puzzle", JArr puzzle); (lit "solution", JArr solution)].
Lemma numbers_flat l zs : Forall2 whole_number l zs -> numbers (JArr l) zs.
Proof.
  intros H. constructor. induction H as [|v z l zs Hv _ IH]; [constructor|]. change (z :: zs) with ([z] ++ zs). constructor; [constructor; exact Hv|exact IH].
Qed.
Definition entries (h : N) (zs : list Z) : list setting :=
  map (fun p => (h, N.of_nat (fst p), Z.to_N (snd p mod Z.of_N (md_prime sudoku_module)))) (combine (seq 0 (List.length zs)) zs).
Lemma entries_slots h zs : map fst (entries h zs) = map (fun i => (h, N.of_nat i)) (seq 0 (List.length zs)).
Proof.
  unfold entries. rewrite map_map. cbn [fst]. generalize 0%nat. induction zs as [|z zs IH]; intros s; [reflexivity|].
  cbn [List.length seq combine map fst]. f_equal. apply IH.
Qed.
Lemma entry_settings_iff k n v zs g : numbers v zs -> In (name_hash k, n) (md_signals sudoku_module) -> N.of_nat (List.length zs) = n ->
  (entry_settings sudoku_module (k, v) g <-> g = entries (name_hash k) zs).
Proof.
  intros Hv Hi Hl. split.
  - intros (zs'&n'&H1&H2&H3&->). cbn [fst snd] in *. rewrite (numbers_fun _ _ _ H1 Hv). reflexivity.
  - intros ->. exists zs, n. split; [exact Hv|]. split; [exact Hi|]. split; [exact Hl|reflexivity].
Qed.
Lemma entries_value h zs i : (i < List.length zs)%nat -> exists v, In (h, N.of_nat i, v) (entries h zs) /\ fr (Z.of_N v) = fr (nth i zs 0%Z).
Proof.
  intros Hi. exists (Z.to_N (nth i zs 0%Z mod Z.of_N (md_prime sudoku_module))). split.
  - unfold entries. apply in_map_iff. exists (i, nth i zs 0%Z). split; [reflexivity|]. apply (in_range_combine zs i (nth i zs 0%Z) (nth_error_nth' zs 0%Z Hi) 0%nat).
  - exact (fr_mod (nth i zs 0%Z)).
Qed.
Lemma sudoku_gs p zp s zs gs : Forall2 whole_number p zp -> Forall2 whole_number s zs -> List.length zp = 81%nat -> List.length zs = 81%nat ->
  (complete_input sudoku_module (sudoku_full p s) gs <-> gs = entries hp zp ++ entries hs zs).
Proof.
  intros Hp Hs Lp Ls. apply numbers_flat in Hp, Hs.
  assert (Hip : In (name_hash (lit "puzzle"), 81) (md_signals sudoku_module)) by (left; reflexivity).
  assert (His : In (name_hash (lit "solution"), 81) (md_signals sudoku_module)) by (right; left; reflexivity).
  assert (Ep : N.of_nat (List.length zp) = 81) by (rewrite Lp; reflexivity). assert (Es : N.of_nat (List.length zs) = 81) by (rewrite Ls; reflexivity).
  pose proof (fun g => entry_settings_iff (lit "puzzle") 81 (JArr p) zp g Hp Hip Ep) as P1.
  pose proof (fun g => entry_settings_iff (lit "solution") 81 (JArr s) zs g Hs His Es) as P2. fold hp in P1. fold hs in P2. split.
  - intros (per&Hf&Hg&_). unfold sudoku_full in Hf. inversion Hf as [|? g1 ? per1 F1 F2 E1 E2]. subst per. inversion F2 as [|? g2 ? per2 F3 F4 E3 E4]. subst per1. inversion F4. subst per2.
    apply P1 in F1. apply P2 in F3. rewrite Hg, F1, F3. cbn [List.concat]. rewrite app_nil_r. reflexivity.
  - intros ->. exists [entries hp zp; entries hs zs]. split; [constructor; [apply P1; reflexivity|constructor; [apply P2; reflexivity|constructor]]|].
    split; [cbn [List.concat]; rewrite app_nil_r; reflexivity|]. rewrite map_app, !entries_slots, Lp, Ls. unfold slots. cbn [sudoku_module md_signals flat_map fst snd].
    rewrite app_nil_r. apply Permutation_refl.
Qed.
(** The generator computes a witness exactly for the grids the circuit accepts. *)
Lemma sudoku_solves p zp s zs : Forall2 whole_number p zp -> Forall2 whole_number s zs -> List.length zp = 81%nat -> List.length zs = 81%nat ->
  (solves sudoku_module (sudoku_full p s) <-> accepted (clue zp) (clue zs)).
Proof.
  intros Hp Hs Lp Ls. pose proof (fun gs => sudoku_gs p zp s zs gs Hp Hs Lp Ls) as G.
  assert (Hnd : NoDup (map fst (entries hp zp ++ entries hs zs))).
  { destruct (proj2 (G _) eq_refl) as (per&_&_&Hperm). apply sudoku_slots. exact Hperm. }
  assert (V1 : forall i, (i < 81)%nat -> slot_value (entries hp zp ++ entries hs zs) hp i = clue zp i).
  { intros i Hi. rewrite <- Lp in Hi. destruct (entries_value hp zp i Hi) as (v&Hv&Ev). rewrite (slot_value_in _ hp i v Hnd); [exact Ev|]. apply in_or_app. left. exact Hv. }
  assert (V2 : forall i, (i < 81)%nat -> slot_value (entries hp zp ++ entries hs zs) hs i = clue zs i).
  { intros i Hi. rewrite <- Ls in Hi. destruct (entries_value hs zs i Hi) as (v&Hv&Ev). rewrite (slot_value_in _ hs i v Hnd); [exact Ev|]. apply in_or_app. right. exact Hv. }
  split.
  - intros (gs&w&Hc&Hw). apply G in Hc. subst gs. apply sudoku_compute_some in Hw as [Ha _].
    apply (accepted_ext2 (slot_value (entries hp zp ++ entries hs zs) hp) _ (slot_value (entries hp zp ++ entries hs zs) hs)); [intros i Hi; symmetry; exact (V1 i Hi)|intros i Hi; symmetry; exact (V2 i Hi)|exact Ha].
  - intros Ha. exists (entries hp zp ++ entries hs zs).
    exists (map element_value (witness_values (slot_value (entries hp zp ++ entries hs zs) hp) (slot_value (entries hp zp ++ entries hs zs) hs))).
    split; [apply G; reflexivity|]. cbn [sudoku_module md_compute]. unfold sudoku_compute. cbv zeta. fold hp hs.
    assert (Ea : asserted (computed (slot_value (entries hp zp ++ entries hs zs) hp) (slot_value (entries hp zp ++ entries hs zs) hs)) = true).
    { apply computed_accepted. apply (accepted_ext2 (clue zp) _ (clue zs)); [exact V1|exact V2|exact Ha]. }
    rewrite Ea. reflexivity.
Qed.

Lemma whole_length l zs : Forall2 whole_number l zs -> List.length l = List.length zs.
Proof. induction 1 as [|v z l zs _ _ IH]; [reflexivity|]. cbn [List.length]. rewrite IH. reflexivity. Qed.
Lemma in_combine_nth {A} (l : list A) i x : In (i, x) (combine (seq 0 (List.length l)) l) -> nth_error l i = Some x.
Proof.
  assert (G : forall s, In (i, x) (combine (seq s (List.length l)) l) -> (s <= i)%nat /\ nth_error l (i - s) = Some x).
  { induction l as [|y l IH]; intros s; [intros []|]. cbn [List.length seq combine]. intros [H|H].
    - assert (s = i) by congruence. assert (y = x) by congruence. subst. split; [apply le_n|]. rewrite Nat.sub_diag. reflexivity.
    - destruct (IH (S s) H) as [H1 H2]. split; [lia|]. replace (i - s)%nat with (S (i - S s)) by lia. exact H2. }
  intros H. destruct (G 0%nat H) as [_ H2]. rewrite Nat.sub_0_r in H2. exact H2.
Qed.
Definition puzzle_inputs (clues : list Z) : list (text * json) := [(lit "puzzle", JArr (map JInt clues))].
Lemma clue_item name x clues : In (name, x) (doc_items (puzzle_inputs clues)) ->
  exists i, (i < List.length clues)%nat /\ name = lit "puzzle" ++ lit "[" ++ dec_text (N.of_nat i) ++ lit "]" /\ x = JInt (nth i clues 0%Z).
Proof.
  unfold doc_items, puzzle_inputs. cbn [flat_map fst snd value_items]. rewrite app_nil_r. intros H. apply in_map_iff in H as ((i&y)&E&H). cbn [fst snd] in E.
  assert (En : name = lit "puzzle" ++ lit "[" ++ dec_text (N.of_nat i) ++ lit "]") by congruence. assert (Ex : x = y) by congruence. subst name y. clear E.
  apply (in_combine_nth (map JInt clues) i x) in H. rewrite nth_error_map in H. destruct (nth_error clues i) as [z|] eqn:Ez; [|discriminate H].
  exists i. split; [apply nth_error_Some; congruence|]. split; [reflexivity|]. apply some_eq in H. rewrite <- H. f_equal. symmetry. apply nth_error_nth. exact Ez.
Qed.
Lemma clue_leaf name x clues : doc_leaf (puzzle_inputs clues) name x ->
  exists i, (i < List.length clues)%nat /\ name = lit "puzzle" ++ lit "[" ++ dec_text (N.of_nat i) ++ lit "]" /\ x = JInt (nth i clues 0%Z).
Proof.
  intros (k&v&[E|[]]&Hl). assert (k = lit "puzzle") by congruence. assert (v = JArr (map JInt clues)) by congruence. subst k v. clear E.
  inversion Hl as [k v Hv|k l i y nm v Hi Hy]; subst; [exfalso; apply (Hv _ eq_refl)|]. rewrite nth_error_map in Hi.
  destruct (nth_error clues i) as [z|] eqn:Ez; [|discriminate Hi]. cbn [option_map] in Hi. apply some_eq in Hi. subst y.
  inversion Hy; subst. exists i. split; [apply nth_error_Some; congruence|]. split; [reflexivity|]. f_equal. symmetry. apply nth_error_nth. exact Ez.
Qed.
Lemma puzzle_same_reading clues n : Forall (fun z => (0 <= z < 2 ^ 256)%Z) clues -> same_reading sudoku_sym_file (puzzle_inputs clues) n.
Proof.
  intros Hc wire z (_&_&t&(pre&nm&x&post&Ed&Hw&Ht&_)&Hb) name v z' Hl Hw' Hn.
  destruct C76_symbol_file as (names&_&Hj&_&Hinj). unfold on_wire in Hw, Hw'. rewrite Hj in Hw, Hw'.
  pose proof (Hinj _ _ _ Hw Hw') as En. apply app_inv_head in En. subst nm.
  assert (Hi : In (name, x) (doc_items (puzzle_inputs clues))) by (rewrite Ed; apply in_or_app; right; left; reflexivity). clear Ed Hj Hinj Hw Hw'.
  apply clue_item in Hi as (i&Hi&E1&->). apply clue_leaf in Hl as (j&Hlt&E2&->). rewrite E1 in E2.
  do 2 apply app_inv_head in E2. apply app_inv_tail in E2. assert (i = j) by (apply Nat2N.inj; apply dec_text_inj; exact E2). subst j.
  cbn [js_to_string] in Ht. apply some_eq in Ht. subst t. inversion Hn as [z0 E3 E4| | | |]. subst z'.
  apply C57_bigint_texts in Hb. rewrite (proj1 (C57_rendering_round_trip _)) in Hb. apply some_eq in Hb. subst z.
  rewrite Z.mod_small; [reflexivity|]. rewrite Forall_forall in Hc. apply Hc. apply nth_In. exact Hi.
Qed.
(** Encrypt a message for a puzzle with the shipped files, in JavaScript; then decrypt with the puzzle
    and a grid as inputs returns the message exactly if the circuit accepts the grid for the puzzle
    (and returns nothing otherwise). *)
Theorem C76_js_inputs_decrypt_iff :
  forall (E : pairingT Fr) (C : codecT E) (D : domainT Fr) (kdf : GT E -> key) (aes : cipherT) stringify W fuel
         co clues solution zs message inc f k a message',
    (forall g, List.length (kdf g) = 32%nat) -> List.length (c_nonce co) = 12%nat ->
    (inc = true -> blen (stringify (puzzle_inputs clues)) < 2 ^ 32) ->
    List.length clues = 81%nat -> Forall (fun z => (0 <= z < 2 ^ 256)%Z) clues ->
    Forall2 whole_number solution zs -> List.length zs = 81%nat ->
    fits_encrypt W fuel sudoku_r1cs_file sudoku_sym_file -> fits_calculated W fuel sudoku_r1cs_file sudoku_content ->
    js_encrypt E C D kdf aes stringify W fuel co sudoku_r1cs_file sudoku_sym_file (puzzle_inputs clues) message inc = Ok (f, k) ->
    jb_valid a -> jb_window a = f ->
    (decrypt_inputs E C kdf aes W fuel sudoku_module sudoku_r1cs_file a (sudoku_full (map JInt clues) solution) = Ok message' <->
     message' = message /\ accepted (clue clues) (clue zs)).
Proof.
  intros E C D kdf aes st W fuel co clues sol zs message inc f k a message' Hk Hn Hinc Hl Hc Hs Hls Hfe Hfc He Hv Hw.
  assert (Hp : Forall2 whole_number (map JInt clues) clues).
  { clear. induction clues as [|z clues IH]; [constructor|]. cbn [map]. constructor; [constructor|exact IH]. }
  assert (Hso := sudoku_solves (map JInt clues) clues sol zs Hp Hs Hl Hls).
  assert (Hsh : shaped_doc sudoku_ins (sudoku_full (map JInt clues) sol)).
  { assert (A : forall l zs, Forall2 whole_number l zs -> List.length zs = 81%nat -> shaped [81] (JArr l)).
    { intros l ys H Hy. constructor; [rewrite (whole_length l ys H), Hy; reflexivity|]. clear Hy. induction H as [|v z l ys Hv' _ IH]; [constructor|].
      constructor; [|exact IH]. constructor. intros l' ->. inversion Hv'. }
    intros k0 v [E0|[E0|[]]]; assert (k1 := f_equal fst E0); assert (v1 := f_equal snd E0); cbn [fst snd] in k1, v1; subst k0 v; exists [81].
    - split; [left; reflexivity|apply (A _ clues Hp Hl)].
    - split; [right; left; reflexivity|apply (A _ zs Hs Hls)]. }
  assert (Hin : incl (puzzle_inputs clues) (sudoku_full (map JInt clues) sol)) by (intros x [<-|[]]; left; reflexivity).
  assert (Main : solves sudoku_module (sudoku_full (map JInt clues) sol) ->
    (decrypt_inputs E C kdf aes W fuel sudoku_module sudoku_r1cs_file a (sudoku_full (map JInt clues) sol) = Ok message' <-> message' = message)).
  { intros Hs'. rewrite (C56_js_decrypt_iff E C D kdf aes st W fuel co sudoku_r1cs_file sudoku_sym_file (puzzle_inputs clues)
      (sudoku_full (map JInt clues) sol) message inc f k sudoku_module sudoku_content sudoku_ins a message' Hk Hn Hinc C76_generator_fits_the_files
      sudoku_circuit_file sudoku_js_usable rows_below Hfe Hfc He Hsh Hs' Hin Hv Hw).
    split; [intros [H _]; exact H|intros H; split; [exact H|apply puzzle_same_reading; exact Hc]]. }
  split.
  - intros Hd. assert (Hs' : solves sudoku_module (sudoku_full (map JInt clues) sol)).
    { unfold decrypt_inputs, decap_inputs in Hd. destruct (js_split a) as [wm| |]; cbn [rmap_err rbind] in Hd; [|discriminate Hd..].
      destruct (calculate_wtns sudoku_module (sudoku_full (map JInt clues) sol)) as [wb| |] eqn:Ew; cbn [rmap_err rbind] in Hd; [|discriminate Hd..].
      pose proof (C48_same_witness_in_every_form sudoku_module (sudoku_full (map JInt clues) sol) sudoku_module_ok) as H.
      destruct (calculate_witness sudoku_module (sudoku_full (map JInt clues) sol)) as [ws|e|] eqn:Ec; [|destruct H as [_ H]; rewrite H in Ew; discriminate Ew|contradiction].
      apply (C48_witness_iff sudoku_module _ ws sudoku_module_ok) in Ec as (gs&w&H1&H2&_). exists gs, w. split; assumption. }
    split; [apply Main; assumption|apply Hso; exact Hs'].
  - intros [-> Ha]. apply Hso in Ha. apply Main; [exact Ha|reflexivity].
Qed.
Print Assumptions C76_js_inputs_decrypt_iff.
(** A solution decrypts, a grid of fives does not. *)
Lemma general_encrypts (aes : cipherT) stringify inc fuel : 100000 <= N.of_nat fuel ->
  exists f k, js_encrypt fr_pairing ex_codec bn_domain ex_kdf32 aes stringify (2 ^ 32) fuel ex_coins sudoku_r1cs_file sudoku_sym_file
    (puzzle_inputs (clues_of general_puzzle)) [x68; x69] inc = Ok (f, k).
Proof.
  intros Hfuel. assert (H9 : Forall (fun n => (n <= 9)%nat) general_puzzle).
  { apply Forall_forall. intros n Hn. apply Nat.leb_le. revert n Hn. apply forallb_forall. vm_compute. reflexivity. }
  assert (Hkdf : forall g, List.length (ex_kdf32 g) = 32%nat) by (intros g; apply le_bytes_length).
  assert (Hn : List.length (c_nonce ex_coins) = 12%nat) by reflexivity.
  assert (Hd : c_delta ex_coins <> (f0 : Fr)).
  { intros Hd. apply (proj2 (feqb_true Fr _ _)) in Hd. vm_compute in Hd. discriminate. }
  assert (Hg : blen [x68; x69] <= gcm_limit) by (vm_compute; discriminate).
  exact (C44_js_encrypt_succeeds fr_pairing ex_codec bn_domain ex_kdf32 aes stringify (2 ^ 32) fuel ex_coins sudoku_r1cs_file sudoku_sym_file
    (sudoku_doc general_puzzle) [x68; x69] inc sudoku_content Hkdf Hn Hd sudoku_circuit_file (sudoku_fits_encrypt fuel Hfuel) (sudoku_flat _ H9) Hg).
Qed.
Lemma sudoku_fits_calculated fuel : 100000 <= N.of_nat fuel -> fits_calculated (2 ^ 32) fuel sudoku_r1cs_file sudoku_content.
Proof.
  intros H. split; [vm_compute; reflexivity|]. split; [reflexivity|]. split; [discriminate|]. apply N.lt_le_trans with 100000; [reflexivity|exact H].
Qed.
Lemma ints_whole l : Forall2 whole_number (map JInt l) l.
Proof. induction l as [|z l IH]; [constructor|]. cbn [map]. constructor; [constructor|exact IH]. Qed.
Lemma general_clues : List.length (clues_of general_puzzle) = 81%nat /\ Forall (fun z => (0 <= z < 2 ^ 256)%Z) (clues_of general_puzzle).
Proof.
  split; [reflexivity|]. apply Forall_forall. intros z Hz. assert (H : ((0 <=? z) && (z <=? 9))%Z = true).
  { revert z Hz. apply forallb_forall. vm_compute. reflexivity. }
  apply andb_prop in H as [H1 H2]. apply Z.leb_le in H1, H2. split; [exact H1|]. apply Z.le_lt_trans with 9%Z; [exact H2|reflexivity].
Qed.
Lemma general_accepted : accepted (clue (clues_of general_puzzle)) (clue (clues_of general_solution)).
Proof.
  apply (accepted_ext2 (fun i => digit (at_cell general_puzzle i)) _ (fun i => digit (at_cell general_solution i)));
    [intros i _; apply clue_digit|intros i _; apply clue_digit|]. apply C76_solutions_are_accepted. exact general_is_solved.
Qed.
Example C76_js_inputs_nonvacuous :
  forall (aes : cipherT) (inc : bool) (stringify : list (text * json) -> list byte) fuel,
  100000 <= N.of_nat fuel -> (inc = true -> blen (stringify (puzzle_inputs (clues_of general_puzzle))) < 2 ^ 32) ->
  exists f k,
    js_encrypt fr_pairing ex_codec bn_domain ex_kdf32 aes stringify (2 ^ 32) fuel ex_coins sudoku_r1cs_file sudoku_sym_file
      (puzzle_inputs (clues_of general_puzzle)) [x68; x69] inc = Ok (f, k) /\
    decrypt_inputs fr_pairing ex_codec ex_kdf32 aes (2 ^ 32) fuel sudoku_module sudoku_r1cs_file (whole f)
      (sudoku_full (map JInt (clues_of general_puzzle)) (map JInt (clues_of general_solution))) = Ok [x68; x69] /\
    forall m, decrypt_inputs fr_pairing ex_codec ex_kdf32 aes (2 ^ 32) fuel sudoku_module sudoku_r1cs_file (whole f)
      (sudoku_full (map JInt (clues_of general_puzzle)) (map JInt (repeat 5%Z 81))) <> Ok m.
Proof.
  intros aes inc st fuel Hf Hinc. destruct (general_encrypts aes st inc fuel Hf) as (f&k&He). exists f, k. split; [exact He|].
  assert (Hkdf : forall g, List.length (ex_kdf32 g) = 32%nat) by (intros g; apply le_bytes_length).
  assert (Hn : List.length (c_nonce ex_coins) = 12%nat) by reflexivity.
  assert (Hwin : jb_valid (whole f)) by (unfold jb_valid, whole; cbn [jb_offset jb_length jb_buffer]; apply N.le_refl).
  destruct general_clues as [Hl Hc].
  pose proof (fun sol zs m Hs Hz => C76_js_inputs_decrypt_iff fr_pairing ex_codec bn_domain ex_kdf32 aes st (2 ^ 32) fuel ex_coins (clues_of general_puzzle) sol zs [x68; x69] inc f k
    (whole f) m Hkdf Hn Hinc Hl Hc Hs Hz (sudoku_fits_encrypt fuel Hf) (sudoku_fits_calculated fuel Hf) He Hwin (window_whole f)) as G.
  split.
  - assert (Hz : List.length (clues_of general_solution) = 81%nat) by reflexivity.
    apply (G (map JInt (clues_of general_solution)) (clues_of general_solution) [x68; x69] (ints_whole _) Hz).
    split; [reflexivity|exact general_accepted].
  - intros m Hm. assert (Hz : List.length (repeat 5%Z 81) = 81%nat) by reflexivity.
    apply (G (map JInt (repeat 5%Z 81)) (repeat 5%Z 81) m (ints_whole _) Hz) in Hm as [_ [_ Hs]].
    destruct (Hs _ first_row) as [_ H]. apply (proj2 (feqb_true Fr _ _)) in H. vm_compute in H. discriminate H.
Qed.
