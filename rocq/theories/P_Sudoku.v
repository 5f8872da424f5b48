(** C76: the Sudoku circuit that is shipped with the tools. *)
From Coq Require Import List Bool Arith NArith ZArith Lia Permutation.
From Coq Require Import Strings.String Strings.Byte.
From Verif Require Import Res Bytes Text Fld Zp Groups Bn254 CS Qap Domain Core R1cs R1csJs SpecR1cs R1csJsExact SpecR1csExact P_R1cs P_R1csExact
  Wtns SpecWtns P_Wtns Circuit SpecCircuit CircuitFacts ArkSer Gcm Sym Inputs SpecInputs InputsFacts P_Inputs
  Utf8 FileSys Commands SpecCommands SpecJs SpecBound Combined SpecCombined JsZkenc P_JsZkenc C44Facts P_Bound P_Commands CommandsFacts Sudoku SpecSudoku SudokuFile SudokuFacts.
Import ListNotations.
Local Open Scope N_scope.

(** ** The source template. *)
Section Template.
  Local Open Scope fld_scope.
  Add Field FrT : (f_th Fr).
  Lemma lexp_app v e e' : lexp_value v (e ++ e')%list = lexp_value v e + lexp_value v e'.
  Proof. induction e as [|[k s] e IH]; cbn [app lexp_value]; [ring|]. rewrite IH. ring. Qed.
  Lemma lexp_sum v (mk : nat -> signal) idx :
    lexp_value v (map (fun i => (1%Z, Some (mk i))) idx) = total (fun i => v (mk i)) idx.
  Proof.
    induction idx as [|i idx IH]; [reflexivity|]. unfold total in *. cbn [map lexp_value fold_right signal_value].
    rewrite IH. change (fr 1) with (1 : Fr). ring.
  Qed.
  Lemma fr_neg k : fr (- k) = fopp (fr k).
  Proof. replace (- k)%Z with (-1 * k)%Z by lia. rewrite fr_mul_z. change (fr (-1)) with (fopp (fr 1)). change (fr 1) with (1 : Fr). ring. Qed.
  Lemma unit_part_true v idx : template_true v (unit_part idx) <->
    total (fun i => v (Solution i)) idx = fr 45 /\ total (fun i => v (Squared i)) idx = fr 285.
  Proof.
    assert (G : forall t k, (0 : Fr) * (0 : Fr) = t + (fr (- k) * (1 : Fr) + (0 : Fr)) <-> t = fr k).
    { intros t k. rewrite fr_neg. split; intros H; [|rewrite H; ring].
      replace t with (t + (fopp (fr k) * (1 : Fr) + (0 : Fr)) + fr k) by ring. rewrite <- H. ring. }
    unfold template_true, unit_part. rewrite !Forall_cons_iff. unfold tconstraint_true. cbn [t_a t_b t_c].
    rewrite !lexp_app, !lexp_sum. cbn [lexp_value signal_value].
    change (-45)%Z with (- (45))%Z. change (-285)%Z with (- (285))%Z. rewrite !G. intuition constructor.
  Qed.
  Lemma square_true v i :
    tconstraint_true v (TC [(1%Z, Some (Solution i))] [(1%Z, Some (Solution i))] [(1%Z, Some (Squared i))]) <->
    v (Squared i) = v (Solution i) * v (Solution i).
  Proof.
    unfold tconstraint_true. cbn [t_a t_b t_c lexp_value signal_value]. change (fr 1) with (1 : Fr).
    generalize (v (Solution i)) (v (Squared i)). intros x y. split; intros H.
    - replace y with (1 * y + 0) by ring. rewrite <- H. ring.
    - rewrite H. ring.
  Qed.
  Lemma clue_true v i :
    tconstraint_true v (TC [(1%Z, Some (Puzzle i))] [(1%Z, Some (Puzzle i)); ((-1)%Z, Some (Solution i))] []) <->
    (v (Puzzle i) = (0 : Fr) \/ v (Solution i) = v (Puzzle i)).
  Proof.
    unfold tconstraint_true. cbn [t_a t_b t_c lexp_value signal_value]. change (fr (-1)) with (fopp (fr 1)). change (fr 1) with (1 : Fr).
    generalize (v (Solution i)) (v (Puzzle i)). intros x y. split; intros H.
    - assert (H' : y * (y - x) = 0) by (rewrite <- H; ring). apply (fmul_eq_0 Fr) in H'.
      destruct H' as [H'|H']; [left; exact H'|right]. replace x with (y - (y - x)) by ring. rewrite H'. ring.
    - destruct H as [-> | ->]; ring.
  Qed.
  Lemma template_app v l l' : template_true v (l ++ l') <-> template_true v l /\ template_true v l'.
  Proof. apply Forall_app. Qed.
  Lemma template_flat_map {A} v (f : A -> list tconstraint) l :
    template_true v (flat_map f l) <-> forall x, In x l -> template_true v (f x).
  Proof.
    induction l as [|x l IH]; cbn [flat_map]; [split; [intros _ y []|intros _; constructor]|].
    rewrite template_app, IH. split; [intros [H1 H2] y [<-|Hy]; auto|intros H; split; [apply H; cbn; auto|intros y Hy; apply H; cbn; auto]].
  Qed.
End Template.
Lemma rows_in_unit : forall k, (k < 9)%nat -> map (fun col => k * 9 + col)%nat (seq 0 9) = in_unit row_of k.
Proof. intros k Hk. do 9 (destruct k as [|k]; [vm_compute; reflexivity|]). lia. Qed.
Lemma cols_in_unit : forall k, (k < 9)%nat -> map (fun row => row * 9 + k)%nat (seq 0 9) = in_unit col_of k.
Proof. intros k Hk. do 9 (destruct k as [|k]; [vm_compute; reflexivity|]). lia. Qed.
Lemma boxes_in_unit : forall r c, (r < 3)%nat -> (c < 3)%nat ->
  flat_map (fun i => map (fun j => (r * 3 + i) * 9 + (c * 3 + j))%nat (seq 0 3)) (seq 0 3) = in_unit box_of (r * 3 + c).
Proof. intros r c Hr Hc. do 3 (destruct r as [|r]; [do 3 (destruct c as [|c]; [vm_compute; reflexivity|]); lia|]). lia. Qed.

Lemma squares_part_true v : template_true v squares_part <->
  (forall i, (i < 81)%nat -> v (Squared i) = fmul (v (Solution i)) (v (Solution i))).
Proof.
  unfold template_true, squares_part. generalize 81%nat. intros n. rewrite Forall_map, Forall_forall. split.
  - intros H i Hi. apply square_true. apply H. apply in_seq. lia.
  - intros H i Hi. apply in_seq in Hi. apply square_true, H. lia.
Qed.
Lemma clues_part_true v : template_true v clues_part <->
  (forall i, (i < 81)%nat -> v (Puzzle i) = (f0 : Fr) \/ v (Solution i) = v (Puzzle i)).
Proof.
  unfold template_true, clues_part. generalize 81%nat. intros n. rewrite Forall_map, Forall_forall. split.
  - intros H i Hi. apply clue_true. apply H. apply in_seq. lia.
  - intros H i Hi. apply in_seq in Hi. apply clue_true, H. lia.
Qed.
Lemma rows_part_true v : template_true v rows_part <-> forall k, (k < 9)%nat -> template_true v (unit_part (in_unit row_of k)).
Proof.
  unfold rows_part. rewrite template_flat_map. split.
  - intros H k Hk. rewrite <- (rows_in_unit k Hk). apply H. apply in_seq. lia.
  - intros H k Hk. apply in_seq in Hk. rewrite (rows_in_unit k ltac:(lia)). apply H. lia.
Qed.
Lemma cols_part_true v : template_true v cols_part <-> forall k, (k < 9)%nat -> template_true v (unit_part (in_unit col_of k)).
Proof.
  unfold cols_part. rewrite template_flat_map. split.
  - intros H k Hk. rewrite <- (cols_in_unit k Hk). apply H. apply in_seq. lia.
  - intros H k Hk. apply in_seq in Hk. rewrite (cols_in_unit k ltac:(lia)). apply H. lia.
Qed.
Lemma boxes_part_true v : template_true v boxes_part <-> forall k, (k < 9)%nat -> template_true v (unit_part (in_unit box_of k)).
Proof.
  unfold boxes_part. rewrite template_flat_map. split.
  - intros H k Hk.
    assert (Hr : (k / 3 < 3)%nat) by (apply Nat.div_lt_upper_bound; lia).
    assert (Hc : (k mod 3 < 3)%nat) by (apply Nat.mod_upper_bound; lia).
    assert (Ek : (k = k / 3 * 3 + k mod 3)%nat) by (rewrite Nat.mul_comm; apply Nat.div_mod; lia).
    set (r := (k / 3)%nat) in *. set (c := (k mod 3)%nat) in *. clearbody r c. rewrite Ek.
    rewrite <- (boxes_in_unit r c Hr Hc).
    specialize (H r (proj2 (in_seq 3 0 r) ltac:(lia))). rewrite template_flat_map in H. apply H, in_seq. lia.
  - intros H r Hr. rewrite template_flat_map. intros c Hc. apply in_seq in Hr, Hc. rewrite (boxes_in_unit r c ltac:(lia) ltac:(lia)). apply H. lia.
Qed.
Lemma in_unit_in kind k i : In i (in_unit kind k) <-> (i < 81)%nat /\ kind i = k.
Proof.
  unfold in_unit, all_cells. generalize 81%nat. intros n. rewrite filter_In, in_seq, Nat.eqb_eq. split; intros [H1 H2]; (split; [lia|exact H2]).
Qed.
Lemma unit_below u i : unit u -> In i u -> (i < 81)%nat.
Proof.
  intros (k&_&Hu) Hi. destruct Hu as [E|[E|E]]; rewrite E in Hi; apply (in_unit_in _ k i) in Hi; exact (proj1 Hi).
Qed.
Lemma units_part_true v : template_true v rows_part /\ template_true v cols_part /\ template_true v boxes_part <->
  forall u, unit u -> template_true v (unit_part u).
Proof.
  rewrite rows_part_true, cols_part_true, boxes_part_true. split.
  - intros (H1&H2&H3) u (k&Hk&[E|[E|E]]); rewrite E; auto.
  - intros H. split; [|split]; intros k Hk; apply H; exists k; (split; [exact Hk|]);
      [left|right; left|right; right]; exact eq_refl.
Qed.

(** The constraints of the template mean: the clues are respected, each row, column and box has the
    sum 45 and the sum of squares 285. *)
Theorem C76_template_means_accepted :
  forall v : signal -> Fr,
    template_true v sudoku_template <->
    (forall i, (i < 81)%nat -> v (Squared i) = fmul (v (Solution i)) (v (Solution i))) /\
    accepted (fun i => v (Puzzle i)) (fun i => v (Solution i)).
Proof.
  intros v. unfold sudoku_template. rewrite !template_app, units_part_true, squares_part_true, clues_part_true.
  assert (Sq : (forall i, (i < 81)%nat -> v (Squared i) = fmul (v (Solution i)) (v (Solution i))) ->
               forall u, unit u -> total (fun i => v (Squared i)) u = total (fun i => fmul (v (Solution i)) (v (Solution i))) u).
  { intros H u Hu. apply (ftotal_ext Fr). intros i Hi. apply H. apply (unit_below u i Hu Hi). }
  split.
  - intros (H1&H2&H3). split; [exact H1|]. split; [exact H2|]. intros u Hu. rewrite <- (Sq H1 u Hu). apply unit_part_true. apply H3. exact Hu.
  - intros (H1&H2&H3). split; [exact H1|]. split; [exact H2|]. intros u Hu. apply unit_part_true. rewrite (Sq H1 u Hu). apply H3. exact Hu.
Qed.
Print Assumptions C76_template_means_accepted.

(** ** The shipped circuit file. *)
Theorem C76_shipped_file_is_read :
  exists r,
    (forall max_off, 51696 <= max_off < 2 ^ 63 -> r1cs_from_bytes max_off sudoku_r1cs_file = Ok r) /\
    js_parse_r1cs (2 ^ 32) sudoku_r1cs_file =
      Ok (JsHeader (r_field_size r) (r_n_wires r) (r_n_pub_out r) (r_n_pub_in r) (r_n_constraints r), r_constraints r) /\
    circuit_file sudoku_r1cs_file r /\
    r_n_wires r = 202 /\ r_n_pub_out r = 0 /\ r_n_pub_in r = 81 /\ r_n_prv_in r = 81 /\ r_n_constraints r = 162 /\
    r_prime r = le_bytes 32 (Z.to_N bn_r) /\ factors_below 202 (r_constraints r).
Proof.
  assert (S1 : N.of_nat (List.length sudoku_secs) < 2 ^ 32) by reflexivity.
  assert (S2 : Forall (fun s => fst s < 2 ^ 32) sudoku_secs) by (repeat constructor).
  assert (R : forall max_off, 51696 <= max_off < 2 ^ 63 -> r1cs_from_bytes max_off sudoku_r1cs_file = Ok sudoku_content).
  { intros m [H1 H2]. rewrite sudoku_file_bytes. apply C16_reads_back_every_file;
      [exact sudoku_content_ok|exact sudoku_carries|exact S1|exact S2|exact H2|].
    rewrite <- sudoku_file_bytes, sudoku_file_len. exact H1. }
  exists sudoku_content. split; [exact R|]. split.
  - destruct (C69_covers_standard_files sudoku_secs S1 S2) as (l&Hl). rewrite <- sudoku_file_bytes in Hl.
    apply (proj1 (C69_readers_agree_on_any_bytes (2 ^ 62) sudoku_r1cs_file l
      ltac:(rewrite sudoku_file_len; reflexivity) ltac:(rewrite sudoku_file_len; discriminate) Hl)).
    apply R. split; [discriminate|reflexivity].
  - split; [|repeat split; try reflexivity; exact rows_below].
    exists sudoku_secs. split; [exact sudoku_file_bytes|]. split; [exact sudoku_content_ok|]. split; [exact sudoku_carries|]. split; [exact S1|exact S2].
Qed.
Print Assumptions C76_shipped_file_is_read.

Lemma ok_eq {E A} (x y : A) : @Ok E A x = Ok y -> x = y.
Proof. intros H. congruence. Qed.
Lemma read_is_content max_off r : 51696 <= max_off < 2 ^ 63 -> r1cs_from_bytes max_off sudoku_r1cs_file = Ok r -> r = sudoku_content.
Proof.
  intros [H1 H2] H. assert (E : r1cs_from_bytes max_off sudoku_r1cs_file = Ok sudoku_content).
  { rewrite sudoku_file_bytes. apply C16_reads_back_every_file;
      [exact sudoku_content_ok|exact sudoku_carries|reflexivity|repeat constructor|exact H2|].
    rewrite <- sudoku_file_bytes, sudoku_file_len. exact H1. }
  rewrite E in H. apply ok_eq in H. symmetry. exact H.
Qed.

(** ** The shipped symbol file, read by either tool. *)
Lemma js_syms_ok : js_parse_sym_file sudoku_sym_file = syms.
Proof. vm_compute. reflexivity. Qed.
Lemma some_eq {A} (x y : A) : Some x = Some y -> x = y.
Proof. intros H. congruence. Qed.
Lemma map_seq_nth {A} (f : nat -> A) n l i : map f (seq 0 n) = l -> (i < n)%nat -> nth_error l i = Some (f i).
Proof. intros <- H. rewrite nth_error_map, (nth_error_nth' _ 0%nat) by (rewrite seq_length; exact H). rewrite seq_nth by exact H. reflexivity. Qed.
Lemma sol_wire_ok i : (i < 81)%nat -> sol_wire i = hm_get (signal_name (Solution i)) syms.
Proof. intros H. unfold sol_wire. apply nth_error_nth. apply (map_seq_nth _ _ _ _ solution_wires_ok H). Qed.
Lemma sq_wire_ok i : (i < 81)%nat -> sq_wire i = hm_get (signal_name (Squared i)) syms.
Proof. intros H. unfold sq_wire. apply nth_error_nth. apply (map_seq_nth _ _ _ _ squared_wires_ok H). Qed.
Lemma puzzle_wire_ok i : (i < 81)%nat -> hm_get (signal_name (Puzzle i)) syms = Some (N.of_nat (S i)).
Proof.
  intros H. pose proof (map_seq_nth _ _ _ _ puzzle_wires_ok H) as E.
  rewrite (map_seq_nth (fun i => Some (N.of_nat (S i))) 81 _ i eq_refl H) in E. symmetry. exact (some_eq _ _ E).
Qed.

(** [carried a v]: every signal of the template that has a wire has its value there. *)
Definition carried (names : hmap N) (a : N -> Fr) (v : signal -> Fr) : Prop :=
  forall i s w, (i < 81)%nat -> s = Puzzle i \/ s = Solution i \/ s = Squared i ->
    hm_get (signal_name s) names = Some w -> a w = v s.

(** Both tools read the symbol file to the same names; the clues are on wires 1 to 81; no wire has
    two names. *)
Lemma syms_wires_nodup : forallb (fun w => Nat.eqb (count_occ N.eq_dec (map snd syms) w) 1) (map snd syms) = true.
Proof. vm_compute. reflexivity. Qed.
Lemma syms_one_name k k' w : hm_get k syms = Some w -> hm_get k' syms = Some w -> k = k'.
Proof.
  assert (G : forall (m : hmap N) k w, hm_get k m = Some w -> In (k, w) m).
  { induction m as [|[k1 w1] m IH]; intros k0 w0; cbn [hm_get]; [discriminate|]. destruct (text_eqb k0 k1) eqn:E.
    - intros H. apply some_eq in H. apply text_eqb_eq in E. subst. left. reflexivity.
    - intros H. right. apply IH. exact H. }
  assert (ND : NoDup (map snd syms)).
  { apply (NoDup_count_occ' N.eq_dec). intros x Hx. pose proof syms_wires_nodup as H. rewrite forallb_forall in H.
    apply Nat.eqb_eq. apply H. exact Hx. }
  intros H1 H2. apply G in H1, H2. revert ND H1 H2. generalize syms. induction h as [|[k1 w1] m IH]; cbn [map snd]; intros ND H1 H2; [destruct H1|].
  inversion ND as [|x l Hn Hd]; subst. destruct H1 as [H1|H1], H2 as [H2|H2].
  - congruence.
  - exfalso. apply Hn. replace w1 with w by congruence. apply (in_map snd _ _ H2).
  - exfalso. apply Hn. replace w1 with w by congruence. apply (in_map snd _ _ H1).
  - apply (IH Hd H1 H2).
Qed.
Theorem C76_symbol_file :
  exists names,
    parse_sym_file sudoku_sym_file = Ok names /\ js_parse_sym_file sudoku_sym_file = names /\
    (forall i, (i < 81)%nat -> hm_get (signal_name (Puzzle i)) names = Some (N.of_nat (S i))) /\
    (forall k k' w, hm_get k names = Some w -> hm_get k' names = Some w -> k = k').
Proof. exists syms. split; [exact syms_ok|]. split; [exact js_syms_ok|]. split; [exact puzzle_wire_ok|exact syms_one_name]. Qed.
Print Assumptions C76_symbol_file.

Lemma satisfied_forms a : a 0 = f1 ->
  (satisfies a sudoku_rows <->
   exists grid, accepted (fun i => a (N.of_nat (S i))) grid /\
     forall i w, (i < 81)%nat ->
       (hm_get (signal_name (Solution i)) syms = Some w -> a w = grid i) /\
       (hm_get (signal_name (Squared i)) syms = Some w -> a w = fmul (grid i) (grid i))).
Proof.
  intros H0. rewrite rows_true. split.
  - intros H. exists (fun i => fval a (cell i)). split.
    + split; [intros i Hi; apply (H i Hi)|]. intros u Hu. apply units27_spec in Hu as Hin. split.
      * apply (units_total Fr fr eq_refl eq_refl fr_add_z fr_mul_z cells units27 45 a u cells_units H0 Hin).
      * rewrite <- (units_total Fr fr eq_refl eq_refl fr_add_z fr_mul_z squares units27 285 a u squares_units H0 Hin).
        apply (ftotal_ext Fr). intros i Hi. apply H. apply (unit_below u i Hu Hi).
    + intros i w Hi. split; intros Hw; symmetry.
      * rewrite <- sol_wire_ok in Hw by exact Hi. apply (wire_val Fr fr eq_refl eq_refl fr_add_z fr_mul_z cells sol_wire a i w cells_wires Hi Hw).
      * rewrite <- sq_wire_ok in Hw by exact Hi. destruct (H i Hi) as [-> _].
        apply (wire_val Fr fr eq_refl eq_refl fr_add_z fr_mul_z squares sq_wire a i w squares_wires Hi Hw).
  - intros (g&(Hc&Hs)&Hw).
    assert (C : forall i, (i < 81)%nat -> fval a (cell i) = g i).
    { apply (form_val Fr fr eq_refl eq_refl fr_add_z fr_mul_z cells sol_wire units27 45 certs a g cells_certs H0).
      - intros u Hu. apply units27_spec in Hu. apply (Hs u Hu).
      - intros i w Hi Hi'. rewrite sol_wire_ok in Hi' by exact Hi. apply (Hw i w Hi). exact Hi'. }
    assert (S : forall i, (i < 81)%nat -> fval a (square i) = fmul (g i) (g i)).
    { apply (form_val Fr fr eq_refl eq_refl fr_add_z fr_mul_z squares sq_wire units27 285 certs a (fun i => fmul (g i) (g i)) squares_certs H0).
      - intros u Hu. apply units27_spec in Hu. apply (Hs u Hu).
      - intros i w Hi Hi'. rewrite sq_wire_ok in Hi' by exact Hi. apply (Hw i w Hi). exact Hi'. }
    intros i Hi. rewrite (C i Hi), (S i Hi). split; [reflexivity|]. apply Hc. exact Hi.
Qed.

(** Compiling was right: the rows of the shipped file hold exactly when the template's constraints
    hold for some values of its signals that are on the wires the symbol file names. *)
Theorem C76_shipped_file_is_the_template :
  forall max_off r names (a : N -> Fr),
    51696 <= max_off < 2 ^ 63 -> r1cs_from_bytes max_off sudoku_r1cs_file = Ok r ->
    parse_sym_file sudoku_sym_file = Ok names -> a 0 = (f1 : Fr) ->
    (satisfies a (r_constraints r) <-> exists v, template_true v sudoku_template /\ carried names a v).
Proof.
  intros m r names a Hm Hr Hn H0. rewrite syms_ok in Hn. apply ok_eq in Hn. subst names. rewrite (read_is_content m r Hm Hr). change (r_constraints sudoku_content) with sudoku_rows.
  rewrite (satisfied_forms a H0). split.
  - intros (g&Ha&Hw). exists (fun s => match s with Puzzle i => a (N.of_nat (S i)) | Solution i => g i | Squared i => fmul (g i) (g i) end).
    split; [apply C76_template_means_accepted; split; [reflexivity|exact Ha]|].
    intros i s w Hi Hs E. destruct Hs as [->|[->| ->]].
    + rewrite (puzzle_wire_ok i Hi) in E. apply some_eq in E. rewrite E. reflexivity.
    + apply (Hw i w Hi). exact E.
    + apply (Hw i w Hi). exact E.
  - intros (v&Ht&Hv). apply C76_template_means_accepted in Ht. destruct Ht as [Hq [Hc Hs]].
    exists (fun i => v (Solution i)). split.
    + split; [|exact Hs]. intros i Hi. rewrite (Hv i (Puzzle i) (N.of_nat (S i)) Hi (or_introl eq_refl) (puzzle_wire_ok i Hi)).
      apply Hc. exact Hi.
    + intros i w Hi. split; intros E.
      * apply (Hv i _ w Hi (or_intror (or_introl eq_refl)) E).
      * rewrite <- (Hq i Hi). apply (Hv i _ w Hi (or_intror (or_intror eq_refl)) E).
Qed.
Print Assumptions C76_shipped_file_is_the_template.

(** ** Solutions, and other grids the circuit accepts. *)
Lemma total_map (h : nat -> nat) (f : nat -> Fr) u : total (fun i => f (h i)) u = total f (map h u).
Proof. induction u as [|i u IH]; [reflexivity|]. unfold total in *. cbn [map fold_right]. rewrite IH. reflexivity. Qed.
Section TotalPerm.
  Local Open Scope fld_scope.
  Add Field FrP : (f_th Fr).
  Lemma total_perm (f : nat -> Fr) u u' : Permutation u u' -> total f u = total f u'.
  Proof. induction 1; unfold total in *; cbn [fold_right]; [reflexivity|rewrite IHPermutation; reflexivity|ring|congruence]. Qed.
End TotalPerm.

(** Take a solved Sudoku and write [f d] for the digit [d] everywhere: the circuit accepts it for every
    puzzle whose clues [f] does not change, if [f] keeps the sum and the sum of squares. *)
Theorem C76_digits_may_be_replaced :
  forall (puzzle grid : nat -> nat) (f : nat -> Fr),
    solved puzzle grid ->
    total f digits = fr 45 -> total (fun d => fmul (f d) (f d)) digits = fr 285 ->
    (forall i, (i < 81)%nat -> puzzle i <> 0%nat -> f (puzzle i) = digit (puzzle i)) ->
    accepted (fun i => digit (puzzle i)) (fun i => f (grid i)).
Proof.
  intros p g f [Hu Hp] H1 H2 Hc. split.
  - intros i Hi. destruct (Nat.eq_dec (p i) 0) as [E|E]; [left; rewrite E; reflexivity|right].
    destruct (Hp i Hi) as [E'|E']; [contradiction|]. rewrite E'. apply Hc; assumption.
  - intros u Hun. split.
    + rewrite (total_map g f u), (total_perm f _ _ (Hu u Hun)). exact H1.
    + rewrite (total_map g (fun d => fmul (f d) (f d)) u), (total_perm _ _ _ (Hu u Hun)). exact H2.
Qed.
Print Assumptions C76_digits_may_be_replaced.
Lemma fr_eq_compute (x y : Fr) : feqb x y = true -> x = y.
Proof. apply (proj1 (feqb_true Fr x y)). Qed.

Theorem C76_solutions_are_accepted :
  forall puzzle grid, solved puzzle grid -> accepted (fun i => digit (puzzle i)) (fun i => digit (grid i)).
Proof.
  intros p g H. apply (C76_digits_may_be_replaced p g digit H).
  - apply fr_eq_compute. vm_compute. reflexivity.
  - apply fr_eq_compute. vm_compute. reflexivity.
  - reflexivity.
Qed.
Print Assumptions C76_solutions_are_accepted.

(** 1 -> 2, 5 -> 3, 6 -> 7 keeps both sums; and so does 1 -> 0, 2 -> 4, 6 -> 5. *)
Definition replace_156 (d : nat) : nat := match d with 1 => 2 | 5 => 3 | 6 => 7 | _ => d end%nat.
Definition replace_126 (d : nat) : nat := match d with 1 => 0 | 2 => 4 | 6 => 5 | _ => d end%nat.
Lemma first_row : unit (in_unit row_of 0).
Proof. exists 0%nat. split; [lia|]. left. exact eq_refl. Qed.
Lemma solved_digit puzzle grid i : solved puzzle grid -> (i < 81)%nat -> In (grid i) digits.
Proof.
  intros [Hu _] Hi. assert (Hr : (row_of i < 9)%nat) by (unfold row_of; apply Nat.div_lt_upper_bound; lia).
  assert (U : unit (in_unit row_of (row_of i))) by (exists (row_of i); split; [exact Hr|left; exact eq_refl]).
  apply (Permutation_in _ (Hu _ U)). apply in_map. apply in_unit_in. split; [exact Hi|exact eq_refl].
Qed.

(** Refuted: "only a correct solution decrypts".  For every solved Sudoku whose clues are among the
    other digits, the circuit accepts a grid of digits 1..9 that is not a solution (and another one
    with zeros in it). *)
Theorem C76_only_solutions_are_accepted_refuted :
  forall puzzle grid, solved puzzle grid ->
    ((forall i, (i < 81)%nat -> puzzle i <> 1 /\ puzzle i <> 5 /\ puzzle i <> 6)%nat ->
     let other i := replace_156 (grid i) in
     accepted (fun i => digit (puzzle i)) (fun i => digit (other i)) /\
     (forall i, (i < 81)%nat -> (1 <= other i <= 9)%nat) /\ ~ solved puzzle other) /\
    ((forall i, (i < 81)%nat -> puzzle i <> 1 /\ puzzle i <> 2 /\ puzzle i <> 6)%nat ->
     let other i := replace_126 (grid i) in
     accepted (fun i => digit (puzzle i)) (fun i => digit (other i)) /\
     exists i, (i < 81)%nat /\ other i = 0%nat).
Proof.
  intros p g H. split.
  - intros Hc other. split; [|split].
    + apply (C76_digits_may_be_replaced p g (fun d => digit (replace_156 d)) H).
      * apply fr_eq_compute. vm_compute. reflexivity.
      * apply fr_eq_compute. vm_compute. reflexivity.
      * intros i Hi _. destruct (Hc i Hi) as (H1&H2&H3). f_equal. destruct (p i) as [|[|[|[|[|[|[|n]]]]]]]; try reflexivity; congruence.
    + intros i Hi. unfold other. assert (D := solved_digit p g i H Hi). cbn in D.
      repeat destruct D as [D|D]; try (rewrite <- D; cbn; lia). destruct D.
    + intros [Hu _]. specialize (Hu _ first_row). apply Permutation_sym in Hu.
      assert (In 1%nat (map other (in_unit row_of 0))) as Hin by (apply (Permutation_in _ Hu); left; reflexivity).
      apply in_map_iff in Hin. destruct Hin as (i&E&Hi). apply in_unit_in in Hi. destruct Hi as [Hi _].
      unfold other in E. destruct (g i) as [|[|[|[|[|[|[|n]]]]]]]; cbn in E; congruence.
  - intros Hc other. split.
    + apply (C76_digits_may_be_replaced p g (fun d => digit (replace_126 d)) H).
      * apply fr_eq_compute. vm_compute. reflexivity.
      * apply fr_eq_compute. vm_compute. reflexivity.
      * intros i Hi _. destruct (Hc i Hi) as (H1&H2&H3). f_equal. destruct (p i) as [|[|[|[|[|[|[|n]]]]]]]; try reflexivity; congruence.
    + destruct H as [Hu _]. specialize (Hu _ first_row). apply Permutation_sym in Hu.
      assert (In 1%nat (map g (in_unit row_of 0))) as Hin by (apply (Permutation_in _ Hu); left; reflexivity).
      apply in_map_iff in Hin. destruct Hin as (i&E&Hi). apply in_unit_in in Hi. destruct Hi as [Hi _].
      exists i. split; [exact Hi|]. unfold other. rewrite E. reflexivity.
Qed.
Print Assumptions C76_only_solutions_are_accepted_refuted.

(** Refuted: "a puzzle without a solution cannot be opened": each solved grid gives one that has none,
    and that the circuit accepts. *)
Theorem C76_unsolvable_puzzles_are_accepted_refuted :
  forall puzzle0 grid0, solved puzzle0 grid0 ->
    let puzzle i := replace_156 (grid0 i) in
    (forall grid, ~ solved puzzle grid) /\ accepted (fun i => digit (puzzle i)) (fun i => digit (puzzle i)).
Proof.
  intros p g H puzzle. split.
  - intros g' [Hu Hp]. specialize (Hu _ first_row). apply Permutation_sym in Hu.
    assert (In 1%nat (map g' (in_unit row_of 0))) as Hin by (apply (Permutation_in _ Hu); left; reflexivity).
    apply in_map_iff in Hin. destruct Hin as (i&E&Hi). apply in_unit_in in Hi. destruct Hi as [Hi _].
    assert (D := solved_digit p g i H Hi). specialize (Hp i Hi). unfold puzzle in Hp. rewrite E in Hp. cbn in D.
    repeat destruct D as [D|D]; try (rewrite <- D in Hp; cbn in Hp; lia). destruct D.
  - assert (A : accepted (fun _ => digit 0) (fun i => digit (puzzle i))).
    { destruct H as [Hu _]. apply (C76_digits_may_be_replaced (fun _ => 0%nat) g (fun d => digit (replace_156 d))).
      - split; [exact Hu|left; reflexivity].
      - apply fr_eq_compute. vm_compute. reflexivity.
      - apply fr_eq_compute. vm_compute. reflexivity.
      - intros i _ C. congruence. }
    split; [intros i _; right; reflexivity|exact (proj2 A)].
Qed.
Print Assumptions C76_unsolvable_puzzles_are_accepted_refuted.

(** ** Encrypting for a puzzle, decrypting with a witness. *)
(** A list of wire values shows [grid] for [puzzle]: the clues are on wires 1 to 81, and the values
    and squares of the cells that have wires are on those. *)
Definition shows (names : hmap N) (vals : list Fr) (puzzle grid : nat -> Fr) : Prop :=
  forall i, (i < 81)%nat ->
    nth_error vals (S i) = Some (puzzle i) /\
    (forall w, hm_get (signal_name (Solution i)) names = Some w -> nth_error vals (N.to_nat w) = Some (grid i)) /\
    (forall w, hm_get (signal_name (Squared i)) names = Some w -> nth_error vals (N.to_nat w) = Some (fmul (grid i) (grid i))).
Lemma syms_bound_check : forallb (fun w => (1 <=? w) && (w <? 202)) (map snd syms) = true.
Proof. vm_compute. reflexivity. Qed.
Lemma syms_bound k w : hm_get k syms = Some w -> 1 <= w < 202.
Proof.
  pose proof syms_bound_check as H. rewrite forallb_forall in H. intros Hw.
  assert (G : forall (m : hmap N) k w, hm_get k m = Some w -> In w (map snd m)).
  { clear. induction m as [|[k1 w1] m IH]; intros k w; cbn [hm_get map snd]; [discriminate|]. destruct (text_eqb k k1).
    - intros H. apply some_eq in H. left. exact H.
    - intros H. right. apply (IH k). exact H. }
  specialize (H w (G syms k w Hw)). apply andb_prop in H. destruct H as [H1 H2]. apply N.leb_le in H1. apply N.ltb_lt in H2. split; assumption.
Qed.
Lemma wires_at vals w x : 1 <= w -> (w < N.of_nat (List.length vals)) ->
  (wires (fun w => nth_error vals (N.to_nat w)) w = x <-> nth_error vals (N.to_nat w) = Some x).
Proof.
  intros H1 H2. unfold wires. replace (w =? 0) with false by (symmetry; apply N.eqb_neq; clear - H1; lia).
  destruct (nth_error vals (N.to_nat w)) as [y|] eqn:E.
  - split; [intros ->; reflexivity|intros H; apply some_eq in H; exact H].
  - exfalso. apply nth_error_None in E. clear - E H2. lia.
Qed.
Lemma opens_shown vals :
  opens_circuit sudoku_content vals <->
  (202 <= List.length vals)%nat /\ exists puzzle grid, accepted puzzle grid /\ shows syms vals puzzle grid.
Proof.
  unfold opens_circuit. change (r_n_wires sudoku_content) with 202. change (r_constraints sudoku_content) with sudoku_rows.
  rewrite (satisfied_forms (wires (fun w => nth_error vals (N.to_nat w))) eq_refl). split.
  - intros (Hl&_&g&Ha&Hw). assert (Hl' : (202 <= List.length vals)%nat) by (clear - Hl; lia). split; [exact Hl'|].
    exists (fun i => wires (fun w => nth_error vals (N.to_nat w)) (N.of_nat (S i))), g. split; [exact Ha|].
    intros i Hi. split; [|split].
    + pose proof (proj1 (wires_at vals (N.of_nat (S i)) _ ltac:(clear; lia) ltac:(clear - Hl Hi; lia)) eq_refl) as E.
      rewrite Nat2N.id in E at 1. exact E.
    + intros w E. destruct (syms_bound _ _ E) as [B1 B2]. apply wires_at; [exact B1|clear - B2 Hl; lia|]. apply (Hw i w Hi). exact E.
    + intros w E. destruct (syms_bound _ _ E) as [B1 B2]. apply wires_at; [exact B1|clear - B2 Hl; lia|]. apply (Hw i w Hi). exact E.
  - intros (Hl&p&g&[Hc Hs]&Hsh). split; [clear - Hl; lia|]. split; [exact rows_below|]. exists g.
    assert (P : forall i, (i < 81)%nat -> wires (fun w => nth_error vals (N.to_nat w)) (N.of_nat (S i)) = p i).
    { intros i Hi. apply wires_at; [clear; lia|clear - Hl Hi; lia|]. rewrite Nat2N.id. apply (Hsh i Hi). }
    split; [split; [|exact Hs]|].
    + intros i Hi. rewrite (P i Hi). apply Hc. exact Hi.
    + intros i w Hi. split; intros E; destruct (syms_bound _ _ E) as [B1 B2];
        (apply wires_at; [exact B1|clear - B2 Hl; lia|]); apply (Hsh i Hi); exact E.
Qed.
Lemma shows_puzzle vals p p' g : shows syms vals p g -> (forall i, (i < 81)%nat -> nth_error vals (S i) = Some (p' i)) ->
  accepted p g -> accepted p' g /\ shows syms vals p' g.
Proof.
  intros Hsh Hp [Hc Hs].
  assert (E : forall i, (i < 81)%nat -> p' i = p i).
  { intros i Hi. apply some_eq. rewrite <- (Hp i Hi). apply (Hsh i Hi). }
  split; [split; [intros i Hi; rewrite (E i Hi); apply Hc; exact Hi|exact Hs]|].
  intros i Hi. destruct (Hsh i Hi) as (_&A&B). split; [apply Hp; exact Hi|]. split; [exact A|exact B].
Qed.

(** Every accepted grid has a witness. *)
Definition from_table (tb : list (N * N)) (f : nat -> Fr) (w : N) (other : Fr) : Fr :=
  match renum tb w with Some i => f (pred (N.to_nat i)) | None => other end.
Definition witness_at (p g : nat -> Fr) (w : N) : Fr :=
  if w =? 0 then f1 else if w <=? 81 then p (pred (N.to_nat w))
  else from_table (tbl sol_wire) g w (from_table (tbl sq_wire) (fun i => fmul (g i) (g i)) w f0).
Definition witness_values (p g : nat -> Fr) : list Fr := map (fun i => witness_at p g (N.of_nat i)) (seq 0 202).
Definition tables_good : bool :=
  forallb (fun i => match sol_wire i with Some w => match renum (tbl sol_wire) w with Some j => j =? N.of_nat (S i) | None => false end && (81 <? w)
                    | None => true end &&
                    match sq_wire i with Some w => match renum (tbl sol_wire) w with Some _ => false | None => true end &&
                       match renum (tbl sq_wire) w with Some j => j =? N.of_nat (S i) | None => false end && (81 <? w)
                    | None => true end) (seq 0 81).
Lemma tables_good_ok : tables_good = true. Proof. vm_compute. reflexivity. Qed.
Lemma witness_values_at p g w : w < 202 -> nth_error (witness_values p g) (N.to_nat w) = Some (witness_at p g w).
Proof.
  intros H. unfold witness_values. rewrite nth_error_map, (nth_error_nth' _ 0%nat) by (rewrite seq_length; clear - H; lia).
  rewrite seq_nth by (clear - H; lia). cbn [option_map]. rewrite Nat.add_0_l, N2Nat.id. reflexivity.
Qed.
Lemma witness_shows p g : shows syms (witness_values p g) p g.
Proof.
  intros i Hi. pose proof tables_good_ok as T. unfold tables_good in T. rewrite forallb_forall in T.
  specialize (T i (proj2 (in_seq 81 0 i) ltac:(lia))). apply andb_prop in T. destruct T as [T1 T2]. split; [|split].
  - rewrite <- (Nat2N.id (S i)). rewrite witness_values_at by (clear - Hi; lia). unfold witness_at.
    replace (N.of_nat (S i) =? 0) with false by (symmetry; apply N.eqb_neq; clear; lia).
    replace (N.of_nat (S i) <=? 81) with true by (symmetry; apply N.leb_le; clear - Hi; lia). rewrite Nat2N.id. reflexivity.
  - intros w E. rewrite witness_values_at by (apply (syms_bound _ _ E)). rewrite <- (sol_wire_ok i Hi) in E. rewrite E in T1.
    apply andb_prop in T1. destruct T1 as [T1 T3]. apply N.ltb_lt in T3. unfold witness_at.
    replace (w =? 0) with false by (symmetry; apply N.eqb_neq; clear - T3; lia).
    replace (w <=? 81) with false by (symmetry; apply N.leb_gt; exact T3). unfold from_table at 1.
    destruct (renum (tbl sol_wire) w) as [j|]; [|discriminate]. apply N.eqb_eq in T1. rewrite T1, Nat2N.id. reflexivity.
  - intros w E. rewrite witness_values_at by (apply (syms_bound _ _ E)). rewrite <- (sq_wire_ok i Hi) in E. rewrite E in T2.
    apply andb_prop in T2. destruct T2 as [T2 T3]. apply andb_prop in T2. destruct T2 as [T2 T4]. apply N.ltb_lt in T3. unfold witness_at.
    replace (w =? 0) with false by (symmetry; apply N.eqb_neq; clear - T3; lia).
    replace (w <=? 81) with false by (symmetry; apply N.leb_gt; exact T3). unfold from_table at 1.
    destruct (renum (tbl sol_wire) w) as [j|]; [discriminate|]. unfold from_table.
    destruct (renum (tbl sq_wire) w) as [j|]; [|discriminate]. apply N.eqb_eq in T4. rewrite T4, Nat2N.id. reflexivity.
Qed.

(** The clues of an input document: its entry "puzzle" is an array of 81 integers. *)
Definition clue (clues : list Z) (i : nat) : Fr := fr (nth i clues 0%Z).
Definition puzzle_document (kvs : list (text * json)) (clues : list Z) : Prop :=
  plain_keys kvs /\ In (lit "puzzle", JArr (map JInt clues)) kvs /\
  List.length clues = 81%nat /\ Forall (fun z => (0 <= z < 2 ^ 64)%Z) clues.
Lemma puzzle_leaf kvs clues i : puzzle_document kvs clues -> (i < 81)%nat ->
  doc_leaf kvs (lit "puzzle" ++ lit "[" ++ dec_text (N.of_nat i) ++ lit "]") (JInt (nth i clues 0%Z)).
Proof.
  intros (_&H&Hl&_) Hi. exists (lit "puzzle"), (JArr (map JInt clues)). split; [exact H|].
  apply (leaf_in _ _ i (JInt (nth i clues 0%Z))).
  - rewrite nth_error_map, (nth_error_nth' _ 0%Z) by (rewrite Hl; exact Hi). reflexivity.
  - apply leaf_here. discriminate.
Qed.
Lemma puzzle_name i : signal_name (Puzzle i) = lit "main." ++ (lit "puzzle" ++ lit "[" ++ dec_text (N.of_nat i) ++ lit "]").
Proof. reflexivity. Qed.
Lemma clue_numeric kvs clues i : puzzle_document kvs clues -> (i < 81)%nat -> numeric (JInt (nth i clues 0%Z)) (clue clues i).
Proof.
  intros (_&_&Hl&Hf) Hi. apply num_nat. rewrite Forall_forall in Hf. apply Hf. apply nth_In. rewrite Hl. exact Hi.
Qed.
Lemma numeric_int z a b : numeric (JInt z) a -> numeric (JInt z) b -> a = b.
Proof. intros H1 H2. inversion H1; inversion H2; subst; try reflexivity; exfalso; clear H1 H2; lia. Qed.
Lemma bound_is_clue kvs clues w a : puzzle_document kvs clues ->
  (cli_bound syms kvs 81 w a <-> exists i, (i < 81)%nat /\ w = N.of_nat (S i) /\ a = clue clues i).
Proof.
  intros Hd. assert (HU := C29_plain_keys_are_unambiguous kvs (proj1 Hd)).
  assert (G : forall i, (i < 81)%nat -> cli_gives syms kvs (N.of_nat (S i)) (clue clues i)).
  { intros i Hi. eexists _, _. split; [apply (puzzle_leaf kvs clues i Hd Hi)|]. split; [|apply (clue_numeric kvs clues i Hd Hi)].
    rewrite <- puzzle_name. apply puzzle_wire_ok. exact Hi. }
  split.
  - intros (Hw&_&name&x&Hl&Hg&Hn). exists (pred (N.to_nat w)). assert (Hi : (pred (N.to_nat w) < 81)%nat) by (clear - Hw; lia).
    split; [exact Hi|]. assert (Ew : w = N.of_nat (S (pred (N.to_nat w)))) by (clear - Hw; lia). split; [exact Ew|].
    set (i := pred (N.to_nat w)) in *. clearbody i. subst w.
    pose proof (syms_one_name _ _ _ Hg (puzzle_wire_ok i Hi)) as E. rewrite puzzle_name in E. apply app_inv_head in E.
    rewrite E in Hl. rewrite (HU _ _ _ Hl (puzzle_leaf kvs clues i Hd Hi)) in Hn.
    apply (numeric_int _ _ _ Hn (clue_numeric kvs clues i Hd Hi)).
  - intros (i&Hi&E&Ea). subst w a. split; [clear - Hi; lia|]. split; [|apply G; exact Hi].
    intros j Hj. exists (clue clues (pred (N.to_nat j))). assert (Ej : j = N.of_nat (S (pred (N.to_nat j)))) by (clear - Hj; lia).
    rewrite Ej at 1. apply G. clear - Hj Hi. lia.
Qed.
Lemma names_separate kvs : separate kvs (fun n => hm_get (lit "main." ++ n) syms).
Proof. intros n n' x x' w _ _ H1 H2. pose proof (syms_one_name _ _ _ H1 H2) as E. apply app_inv_head in E. exact E. Qed.

Lemma sudoku_usable : usable sudoku_content.
Proof.
  unfold usable. change (r_n_pub_in sudoku_content) with 81. change (r_n_pub_out sudoku_content) with 0. change (r_n_wires sudoku_content) with 202.
  split; [reflexivity|]. split; [reflexivity|discriminate].
Qed.

(** The command line: encrypt a message with the shipped circuit and symbol files for a puzzle.  Then
    decrypt with a witness file succeeds, and writes the message, exactly when the witness shows a grid
    the circuit accepts for the puzzle. *)
Theorem C76_cli_decrypts_iff :
  forall (E : pairingT Fr) (C : codecT E) (D : domainT Fr) (kdf : GT E -> key) (aes : cipherT)
         json_parse max_off v co cp sp ip mp op inc s1 s1' s2 cp' wp ctp op' sb ib mb wb vals names it kvs clues,
    (forall g, List.length (kdf g) = 32%nat) -> List.length (c_nonce co) = 12%nat -> 51696 <= max_off < 2 ^ 63 ->
    s1 cp = Some sudoku_r1cs_file -> s1 sp = Some sb -> utf8_decode sb = Some sudoku_sym_file ->
    parse_sym_file sudoku_sym_file = Ok names ->
    s1 ip = Some ib -> utf8_decode ib = Some it -> json_parse it = Some (JObj kvs) -> puzzle_document kvs clues ->
    (inc = true -> blen ib < 2 ^ 32) -> s1 mp = Some mb ->
    run (encrypt_command C D kdf aes json_parse max_off v co cp sp ip mp op inc) s1 = (s1', Ok tt) ->
    s2 cp' = Some sudoku_r1cs_file -> s2 ctp = s1' op -> s2 wp = Some wb -> cli_read_witness wb = Ok vals ->
    ((exists s3, run (decrypt_command C kdf aes max_off cp' wp ctp op') s2 = (s3, Ok tt)) <->
     (202 <= List.length vals)%nat /\ exists grid, accepted (clue clues) grid /\ shows names vals (clue clues) grid) /\
    (forall s3, run (decrypt_command C kdf aes max_off cp' wp ctp op') s2 = (s3, Ok tt) -> s3 = fs_write op' mb s2).
Proof.
  intros E C D kdf aes jp mo v co cp sp ip mp op inc s1 s1' s2 cp' wp ctp op' sb ib mb wb vals names it kvs clues
    Hk Hn Hm Hcp Hsp Hsb Hnames Hip Hib Hjp Hd Hinc Hmp Hrun Hcp' Hctp Hwp Hwb.
  rewrite syms_ok in Hnames. apply ok_eq in Hnames. subst names.
  destruct C76_shipped_file_is_read as (r&Hr&_&_&_). pose proof (Hr mo Hm) as Hrd. pose proof (read_is_content mo r Hm Hrd) as Er. subst r.
  destruct (C58_cli_decrypt_iff E C D kdf aes jp mo v co cp sp ip mp op inc s1 s1' s2 cp' wp ctp op' sudoku_r1cs_file sb ib mb wb
    sudoku_content vals sudoku_sym_file syms it kvs Hk Hn Hcp Hsp Hip Hmp Hrd
    sudoku_usable rows_below Hinc Hsb syms_ok Hib Hjp (C29_plain_keys_are_unambiguous kvs (proj1 Hd))
    (names_separate kvs) Hrun Hcp' Hctp Hwp Hwb) as [H1 H2].
  split; [|exact H2]. rewrite H1. change (r_n_pub_in sudoku_content) with 81. rewrite opens_shown. split.
  - intros [(Hl&p&g&Ha&Hs) Hb]. split; [exact Hl|]. exists g. apply (shows_puzzle vals p (clue clues) g Hs); [|exact Ha].
    intros i Hi. rewrite <- (Nat2N.id (S i)) at 1. apply Hb. apply (bound_is_clue kvs clues _ _ Hd). exists i. split; [exact Hi|]. split; reflexivity.
  - intros (Hl&g&Ha&Hs). split; [split; [exact Hl|]; exists (clue clues), g; split; [exact Ha|exact Hs]|].
    intros w a Hb. apply (bound_is_clue kvs clues w a Hd) in Hb. destruct Hb as (i&Hi&E1&E2). subst w a. rewrite Nat2N.id. apply (Hs i Hi).
Qed.
Print Assumptions C76_cli_decrypts_iff.

Lemma concat_fr_len vals : blen (List.concat (map encode_fr vals)) = 32 * N.of_nat (List.length vals).
Proof.
  induction vals as [|x vals IH]; [reflexivity|]. cbn [map List.concat List.length]. rewrite blen_app, IH, Nat2N.inj_succ.
  rewrite (proj2 (proj2 (encode_fr_value x))). clear. lia.
Qed.
Lemma values_file_len vals : List.length vals = 202%nat -> blen (ex_values_file vals) = 6540.
Proof.
  intros H. unfold ex_values_file. rewrite wtns_two_len, concat_fr_len, H. reflexivity.
Qed.

(** Who can decrypt: there is a witness file that decrypts exactly when there is a grid the circuit
    accepts for the puzzle, solution or not. *)
Theorem C76_cli_who_can_decrypt :
  forall (E : pairingT Fr) (C : codecT E) (D : domainT Fr) (kdf : GT E -> key) (aes : cipherT)
         json_parse max_off v co cp sp ip mp op inc s1 s1' s2 cp' wp ctp op' sb ib mb it kvs clues,
    (forall g, List.length (kdf g) = 32%nat) -> List.length (c_nonce co) = 12%nat -> 51696 <= max_off < 2 ^ 63 ->
    s1 cp = Some sudoku_r1cs_file -> s1 sp = Some sb -> utf8_decode sb = Some sudoku_sym_file ->
    s1 ip = Some ib -> utf8_decode ib = Some it -> json_parse it = Some (JObj kvs) -> puzzle_document kvs clues ->
    (inc = true -> blen ib < 2 ^ 32) -> s1 mp = Some mb ->
    run (encrypt_command C D kdf aes json_parse max_off v co cp sp ip mp op inc) s1 = (s1', Ok tt) ->
    s2 cp' = Some sudoku_r1cs_file -> s2 ctp = s1' op -> cp' <> wp -> ctp <> wp ->
    ((exists wb s3, run (decrypt_command C kdf aes max_off cp' wp ctp op') (fs_write wp wb s2) = (s3, Ok tt) /\ s3 op' = Some mb) <->
     exists grid, accepted (clue clues) grid).
Proof.
  intros E C D kdf aes jp mo v co cp sp ip mp op inc s1 s1' s2 cp' wp ctp op' sb ib mb it kvs clues
    Hk Hn Hm Hcp Hsp Hsb Hip Hib Hjp Hd Hinc Hmp Hrun Hcp' Hctp Hne1 Hne2.
  assert (W : forall wb vals, cli_read_witness wb = Ok vals ->
    ((exists s3, run (decrypt_command C kdf aes mo cp' wp ctp op') (fs_write wp wb s2) = (s3, Ok tt)) <->
     (202 <= List.length vals)%nat /\ exists grid, accepted (clue clues) grid /\ shows syms vals (clue clues) grid) /\
    (forall s3, run (decrypt_command C kdf aes mo cp' wp ctp op') (fs_write wp wb s2) = (s3, Ok tt) -> s3 = fs_write op' mb (fs_write wp wb s2))).
  { intros wb vals Hwb. apply (C76_cli_decrypts_iff E C D kdf aes jp mo v co cp sp ip mp op inc s1 s1' (fs_write wp wb s2) cp' wp ctp op' sb ib mb wb vals syms it kvs clues);
      try assumption; [exact syms_ok| | |].
    - rewrite fs_write_other by congruence. exact Hcp'.
    - rewrite fs_write_other by congruence. exact Hctp.
    - apply fs_write_same. }
  split.
  - intros (wb&s3&Hr&Ho).
    destruct (proj1 (C42_decrypt_succeeds_iff E C kdf aes mo cp' wp ctp op' (fs_write wp wb s2) mb) (ex_intro _ s3 (conj Hr Ho)))
      as (cb&wb'&f&_&Hw&_&p&k&nonce&c&_&(r&vals&ct&rest&_&Hv&_)&_).
    rewrite fs_write_same in Hw. apply some_eq in Hw. subst wb'.
    destruct (proj1 (proj1 (W wb vals Hv)) (ex_intro _ s3 Hr)) as (_&g&Hg&_). exists g. exact Hg.
  - intros (g&Ha). pose (vals := witness_values (clue clues) g).
    assert (Hl : List.length vals = 202%nat) by (unfold vals, witness_values; rewrite map_length, seq_length; reflexivity).
    assert (Hlen : N.of_nat (List.length vals) < 2 ^ 32) by (rewrite Hl; reflexivity).
    destruct (ex_values_is_file vals Hlen) as (prime&secs&Ew&Hp&Hst).
    assert (Hv : cli_read_witness (wtns_bytes secs) = Ok vals).
    { apply (C20_field_elements_round_trip prime vals secs Hp).
      - intros C0. rewrite C0 in Hl. discriminate Hl.
      - exact Hst.
      - rewrite <- Ew. apply N.lt_trans with (2 ^ 32); [|reflexivity].
        replace (blen (ex_values_file vals)) with 6540; [reflexivity|]. symmetry. apply values_file_len. exact Hl. }
    destruct (W _ vals Hv) as [W1 W2].
    destruct (proj2 W1) as (s3&Hs3).
    { split; [rewrite Hl; apply le_n|]. exists g. split; [exact Ha|apply witness_shows]. }
    exists (wtns_bytes secs), s3. split; [exact Hs3|]. rewrite (W2 s3 Hs3). apply fs_write_same.
Qed.
Print Assumptions C76_cli_who_can_decrypt.

(** ** The JavaScript package. *)
Lemma sudoku_circuit_file : circuit_file sudoku_r1cs_file sudoku_content.
Proof.
  exists sudoku_secs. split; [exact sudoku_file_bytes|]. split; [exact sudoku_content_ok|]. split; [exact sudoku_carries|].
  split; [reflexivity|repeat constructor].
Qed.
Lemma sudoku_js_usable : js_usable sudoku_content.
Proof.
  unfold js_usable. change (r_n_pub_in sudoku_content) with 81. change (r_n_pub_out sudoku_content) with 0. change (r_n_wires sudoku_content) with 202.
  split; [reflexivity|discriminate].
Qed.
Lemma js_bound_is_clue kvs clues w z : In (lit "puzzle", JArr (map JInt clues)) kvs ->
  List.length clues = 81%nat -> (forall i, (i < 81)%nat -> (0 <= nth i clues 0)%Z) -> js_single sudoku_sym_file kvs ->
  (js_bound sudoku_sym_file kvs 81 w z <-> exists i, (i < 81)%nat /\ w = N.of_nat (S i) /\ z = nth i clues 0%Z).
Proof.
  intros Hin Hl Hz0 Hs.
  assert (G : forall i, (i < 81)%nat -> js_gives sudoku_sym_file kvs (N.of_nat (S i)) (dec_text_z (nth i clues 0%Z))).
  { intros i Hi. exists (lit "puzzle" ++ lit "[" ++ dec_text (N.of_nat i) ++ lit "]"). split.
    - exists (lit "puzzle"), (JArr (map JInt clues)). split; [exact Hin|]. apply (jl_item _ _ _ (JInt (nth i clues 0%Z))); [|reflexivity].
      rewrite nth_error_map, (nth_error_nth' _ 0%Z) by (rewrite Hl; exact Hi). reflexivity.
    - rewrite js_syms_ok, <- puzzle_name. apply puzzle_wire_ok. exact Hi. }
  split.
  - intros (Hw&_&t&Ht&Hz). exists (pred (N.to_nat w)). assert (Hi : (pred (N.to_nat w) < 81)%nat) by (clear - Hw; lia).
    split; [exact Hi|]. assert (Ew : w = N.of_nat (S (pred (N.to_nat w)))) by (clear - Hw; lia). split; [exact Ew|].
    set (i := pred (N.to_nat w)) in *. clearbody i. subst w. rewrite (Hs _ _ _ Ht (G i Hi)) in Hz. rewrite (js_bigint_dec _ (Hz0 i Hi)) in Hz.
    apply some_eq in Hz. symmetry. exact Hz.
  - intros (i&Hi&E&Ea). subst w z. split; [clear - Hi; lia|]. split.
    + intros j Hj. exists (dec_text_z (nth (pred (N.to_nat j)) clues 0%Z)).
      assert (Ej : j = N.of_nat (S (pred (N.to_nat j)))) by (clear - Hj; lia). rewrite Ej at 1. apply G. clear - Hj Hi. lia.
    + eexists. split; [apply G; exact Hi|apply js_bigint_dec; apply Hz0; exact Hi].
Qed.

(** encrypt for a puzzle, then decrypt with a witness, in JavaScript. *)
Theorem C76_js_decrypts_iff :
  forall (E : pairingT Fr) (C : codecT E) (D : domainT Fr) (kdf : GT E -> key) (aes : cipherT) stringify W fuel
         co inputs clues message inc f k wb vals a message',
    (forall g, List.length (kdf g) = 32%nat) -> List.length (c_nonce co) = 12%nat ->
    (inc = true -> blen (stringify inputs) < 2 ^ 32) ->
    In (lit "puzzle", JArr (map JInt clues)) inputs -> List.length clues = 81%nat ->
    Forall (fun z => (0 <= z < 2 ^ 256)%Z) clues -> js_single sudoku_sym_file inputs ->
    fits_encrypt W fuel sudoku_r1cs_file sudoku_sym_file ->
    js_encrypt E C D kdf aes stringify W fuel co sudoku_r1cs_file sudoku_sym_file inputs message inc = Ok (f, k) ->
    witness_file wb vals -> fits_decrypt W fuel sudoku_r1cs_file wb -> jb_valid a -> jb_window a = f ->
    (js_decrypt E C kdf aes W fuel sudoku_r1cs_file wb a = Ok message' <->
     message' = message /\ List.length vals = 202%nat /\
     exists grid, accepted (clue clues) grid /\ shows (js_parse_sym_file sudoku_sym_file) vals (clue clues) grid).
Proof.
  intros E C D kdf aes st W fuel co inputs clues message inc f k wb vals a message' Hk Hn Hinc Hin Hl Hf Hs Hfe Hrun Hwf Hfd Hv Ha.
  rewrite (C58_js_decrypt_iff E C D kdf aes st W fuel co sudoku_r1cs_file sudoku_sym_file inputs message inc f k sudoku_content wb vals a message'
    Hk Hn Hinc sudoku_circuit_file sudoku_js_usable rows_below Hfe Hs Hrun Hwf Hfd Hv Ha).
  change (r_n_pub_out sudoku_content + r_n_pub_in sudoku_content) with 81. change (r_n_wires sudoku_content) with 202.
  rewrite opens_shown, js_syms_ok. rewrite Forall_forall in Hf.
  assert (Hm : forall i, (i < 81)%nat -> fr (nth i clues 0%Z mod 2 ^ 256)%Z = clue clues i).
  { intros i Hi. unfold clue. rewrite Z.mod_small; [reflexivity|]. apply Hf. apply nth_In. rewrite Hl. exact Hi. }
  assert (Hp : forall i, (i < 81)%nat -> (0 <= nth i clues 0)%Z) by (intros i Hi; apply (Hf (nth i clues 0%Z)); apply nth_In; rewrite Hl; exact Hi).
  split.
  - intros (E1&E2&(Hlen&p&g&Hacc&Hsh)&Hb). split; [exact E1|]. split; [clear - E2; lia|]. exists g.
    apply (shows_puzzle vals p (clue clues) g Hsh); [|exact Hacc]. intros i Hi. rewrite <- (Nat2N.id (S i)) at 1. rewrite <- (Hm i Hi).
    apply Hb. apply (js_bound_is_clue inputs clues _ _ Hin Hl Hp Hs). exists i. split; [exact Hi|]. split; reflexivity.
  - intros (E1&E2&g&Hacc&Hsh). split; [exact E1|]. split; [clear - E2; lia|]. split.
    + split; [rewrite E2; apply le_n|]. exists (clue clues), g. split; [exact Hacc|exact Hsh].
    + intros w z Hb. apply (js_bound_is_clue inputs clues w z Hin Hl Hp Hs) in Hb. destruct Hb as (i&Hi&Ew&Ez). subst w z.
      rewrite (Hm i Hi), Nat2N.id. apply (Hsh i Hi).
Qed.
Print Assumptions C76_js_decrypts_iff.
