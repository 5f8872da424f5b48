(** Property theorems C24-C26. *)
From Coq Require Import List Bool Arith NArith ZArith Lia.
From Coq Require Import Strings.Byte.
From Verif Require Import Res Bytes Fld Bn254 Zp CS CSFacts SpecCore Core CoreFacts Groups R1cs SpecR1cs R1csJs Wtns SpecWtns
  WtnsFacts P_Wtns Circuit SpecCircuit CircuitFacts.
Import ListNotations.
Local Open Scope N_scope.

(** ** C24 *)
(** [n] wires; every wire but wire 0 has a value; rows mention wires below [n] only. *)
Theorem C24_synthesis_means_satisfaction :
  forall c : circom,
    cc_n_public c < cc_n_wires c -> cc_n_wires c <= 2 ^ 32 - 1 ->
    factors_below (cc_n_wires c) (cc_constraints c) ->
    (forall i, 1 <= i < cc_n_wires c -> cc_witness c i <> None) ->
    let a := wires (cc_witness c) in
    well_formed (circom_prog c) /\ completes (circom_prog c) /\
    public_values (circom_prog c) = map a (range 1 (cc_n_public c + 1)) /\
    private_values (circom_prog c) = map a (range (cc_n_public c + 1) (cc_n_wires c)) /\
    (exists b, is_satisfied (fst (synth (circom_prog c) cs_new)) = Some b /\
               (b = true <-> satisfies a (cc_constraints c))).
Proof.
  intros c Hp Hn Hf Hw a.
  assert (Hna : n_alloc c = cc_n_wires c) by (unfold n_alloc; lia).
  destruct (circom_synthesis c ltac:(clear - Hp Hn; lia)) as (H1&H2&H3&H4&H5).
  { rewrite Hna. exact Hw. }
  split; [exact H1|]. split; [exact H2|]. split; [exact H3|]. split; [exact H4|].
  destruct (is_satisfied_synth _ _ H1 H2) as (b&Hb&Hiff). exists b. split; [exact Hb|].
  rewrite Hiff. fold (constraints_hold (circom_prog c)). unfold constraints_hold in H5.
  change (prog_satisfied (circom_prog c)) with (constraints_hold (circom_prog c)). unfold constraints_hold.
  rewrite H5, Hna, drop_unknown_id by exact Hf. reflexivity.
Qed.
Print Assumptions C24_synthesis_means_satisfaction.

(** Both tools build the same program from the same file content (cf. C18). *)
Theorem C24_both_tools_build_the_same_program :
  forall (r : r1cs_file) (w : N -> option Fr),
    circom_prog (circom_of_cli r w) =
    circom_prog (circom_of_js (JsHeader (r_field_size r) (r_n_wires r) (r_n_pub_out r) (r_n_pub_in r)
                                        (r_n_constraints r)) (r_constraints r) w).
Proof. reflexivity. Qed.
Print Assumptions C24_both_tools_build_the_same_program.

(** The value stored for wire 0 has no influence. *)
Theorem C24_wire_zero_is_ignored :
  forall c w', (forall i, i <> 0 -> w' i = cc_witness c i) -> cc_n_public c + 1 < 2 ^ 32 ->
    let c' := Circom (cc_n_public c) (cc_n_wires c) (cc_constraints c) w' in
    synth (circom_prog c') cs_new = synth (circom_prog c) cs_new.
Proof.
  intros c w' Hw Hnp c'. rewrite (prog_eq c Hnp), (prog_eq c' Hnp). unfold c'. cbn [cc_n_public cc_n_wires cc_constraints cc_witness].
  assert (Hs : forall i, i <> 0 -> wire_source w' i = wire_source (cc_witness c) i).
  { intros i Hi. unfold wire_source. rewrite Hw by exact Hi. reflexivity. }
  assert (H1 : forall ids, Forall (fun i => i <> 0) ids -> forall vars k k' s,
    (forall v s, synth (k v) s = synth (k' v) s) ->
    synth (alloc_inputs w' ids vars k) s = synth (alloc_inputs (cc_witness c) ids vars k') s).
  { induction 1 as [|i ids Hi Hids IH]; intros vars k k' s Hk; [apply Hk|].
    cbn [alloc_inputs]. rewrite (Hs i Hi). destruct (wire_source (cc_witness c) i); cbn [synth]; [|reflexivity].
    apply IH. exact Hk. }
  assert (H2 : forall ids, Forall (fun i => i <> 0) ids -> forall vars k s,
    synth (alloc_witnesses w' ids vars k) s = synth (alloc_witnesses (cc_witness c) ids vars k) s).
  { induction 1 as [|i ids Hi Hids IH]; intros vars k s; [reflexivity|].
    cbn [alloc_witnesses]. rewrite (Hs i Hi). destruct (wire_source (cc_witness c) i); cbn [synth]; [|reflexivity].
    apply IH. }
  apply H1.
  - apply Forall_forall. intros i Hi. apply range_in in Hi. lia.
  - intros v s. apply H2. apply Forall_forall. intros i Hi. apply range_in in Hi. lia.
Qed.
Print Assumptions C24_wire_zero_is_ignored.

(** A concrete circuit: wires 0..3, public wire 1, one row w2 * w3 = w1. *)
Definition ex_circom (x y z : Fr) : circom :=
  Circom 1 4 [Constraint [(2, [x01])] [(3, [x01])] [(1, [x01])]]
    (fun i => if i =? 1 then Some x else if i =? 2 then Some y else if i =? 3 then Some z else None).
Example C24_nonvacuous : forall x y z,
  cc_n_public (ex_circom x y z) < cc_n_wires (ex_circom x y z) /\
  factors_below 4 (cc_constraints (ex_circom x y z)) /\
  (forall i, 1 <= i < 4 -> cc_witness (ex_circom x y z) i <> None) /\
  (satisfies (wires (cc_witness (ex_circom x y z))) (cc_constraints (ex_circom x y z)) <-> fmul y z = x).
Proof.
  intros x y z. split; [reflexivity|]. split; [repeat constructor|]. split.
  - intros i Hi. assert (Hc : i = 1 \/ i = 2 \/ i = 3) by lia.
    destruct Hc as [->|[->| ->]]; discriminate.
  - assert (H1 : coefficient [x01] = f1).
    { apply (proj1 (feqb_true Fr _ _)). vm_compute. reflexivity. }
    assert (Hone : forall a : Fr, fadd (fmul f1 a) f0 = a) by (intros a; rewrite fmul_1_l, fadd_0_r; reflexivity).
    unfold satisfies, ex_circom. cbn [cc_constraints cc_witness].
    split.
    + intros H. apply Forall_inv in H. unfold row_true in H. cbn [c_a c_b c_c combination] in H.
      rewrite !H1, !Hone in H. exact H.
    + intros H. constructor; [|constructor]. unfold row_true. cbn [c_a c_b c_c combination].
      rewrite !H1, !Hone. exact H.
Qed.

(** ** C25 *)
(** The first missing wire [m]: synthesis fails there; the constraint system then holds exactly
    the smaller wires, one more variable is counted, and there is no constraint. *)
Theorem C25_stops_at_the_first_missing_wire :
  forall c m,
    let a := wires (cc_witness c) in
    let np := cc_n_public c in
    np + 1 < 2 ^ 32 -> 1 <= m -> (m <= np \/ m < cc_n_wires c) ->
    cc_witness c m = None -> (forall i, 1 <= i < m -> cc_witness c i <> None) ->
    let '(s, e) := synth (circom_prog c) cs_new in
    e = Some AssignmentMissing /\ rows s = [] /\
    inst s = f1 :: map a (range 1 (N.min m (np + 1))) /\ wit s = map a (range (np + 1) m) /\
    N.of_nat (n_inst s + n_wit s) = m + 1.
Proof.
  intros c m a np Hnp Hm Hm2 Hmiss Hb.
  destruct (circom_stops c m Hnp ltac:(unfold n_alloc; fold np; lia) Hmiss Hb) as (_&H2&H3&H4&H5&H6).
  rewrite synth_new. cbn [rows inst wit n_inst n_wit].
  unfold stops_with, constraints_stated, public_values, private_values in *. fold np in H4, H5, H6.
  rewrite H2, H3, H4, H5, H6. repeat split.
  rewrite !map_length, !range_length. destruct (N.leb_spec m np); cbn [fst snd]; lia.
Qed.
Print Assumptions C25_stops_at_the_first_missing_wire.

(** Factors on wires that do not exist are dropped from the row. *)
Theorem C25_unknown_wires_are_dropped :
  forall c : circom,
    cc_n_public c < cc_n_wires c -> cc_n_wires c <= 2 ^ 32 - 1 ->
    (forall i, 1 <= i < cc_n_wires c -> cc_witness c i <> None) ->
    completes (circom_prog c) /\
    (constraints_hold (circom_prog c) <->
     satisfies (wires (cc_witness c)) (map (drop_unknown (cc_n_wires c)) (cc_constraints c))).
Proof.
  intros c Hp Hn Hw. assert (Hna : n_alloc c = cc_n_wires c) by (unfold n_alloc; lia).
  destruct (circom_synthesis c ltac:(clear - Hp Hn; lia)) as (_&H2&_&_&H5).
  { rewrite Hna. exact Hw. }
  rewrite Hna in H5. auto.
Qed.
Print Assumptions C25_unknown_wires_are_dropped.

(** Consequence: a row whose only factors are unknown is satisfied by every witness, and so is
    the ciphertext's circuit check. *)
Theorem C25_unknown_rows_always_hold :
  forall np nw b w,
    np < nw -> nw <= 2 ^ 32 - 1 -> (forall i, 1 <= i < nw -> w i <> None) ->
    constraints_hold (circom_prog (Circom np nw [Constraint [(nw, b)] [(nw, b)] [(nw, b)]] w)).
Proof.
  intros np nw b w Hp Hn Hw.
  apply (C25_unknown_wires_are_dropped (Circom np nw _ w) Hp Hn Hw).
  cbn [cc_n_wires cc_constraints map]. constructor; [|constructor].
  unfold row_true, drop_unknown, keep_wires. cbn [c_a c_b c_c filter fst]. rewrite N.ltb_irrefl. cbn [combination].
  apply fmul_0_l.
Qed.
Print Assumptions C25_unknown_rows_always_hold.

Example C25_nonvacuous : forall x,
  let c := Circom 2 5 [] (fun i => if i =? 1 then Some x else None) in
  cc_witness c 2 = None /\ (forall i, 1 <= i < 2 -> cc_witness c i <> None) /\ 2 <= cc_n_public c.
Proof.
  intros x c. split; [reflexivity|]. split; [|discriminate].
  intros i Hi. assert (i = 1) by lia. subst. discriminate.
Qed.

(** ** C26 *)
(** The positional value of the first 32 bytes, least significant first. *)
Definition positional32 (b : list byte) : Z :=
  fold_right Z.add 0%Z (map (fun i => (Z.of_N (Byte.to_N (nth i b x00)) * 256 ^ Z.of_nat i)%Z) (seq 0 32)).

Lemma le_val_positional b n : (length b <= n)%nat ->
  Z.of_N (le_val b) =
  fold_right Z.add 0%Z (map (fun i => (Z.of_N (Byte.to_N (nth i b x00)) * 256 ^ Z.of_nat i)%Z) (seq 0 n)).
Proof.
  revert b; induction n as [|n IH]; intros b Hb.
  - destruct b; [reflexivity|cbn in Hb; lia].
  - cbn [seq map fold_right]. rewrite <- seq_shift, map_map.
    assert (Hmul : forall l : list Z, (256 * fold_right Z.add 0 l = fold_right Z.add 0 (map (Z.mul 256) l))%Z).
    { induction l as [|z l IHl]; [reflexivity|]. cbn [fold_right map]. rewrite <- IHl. ring. }
    destruct b as [|x b].
    + assert (Hz : forall m s, fold_right Z.add 0%Z (map (fun i => (Z.of_N (Byte.to_N (nth (S i) [] x00)) * 256 ^ Z.of_nat (S i))%Z) (seq s m)) = 0%Z).
      { induction m; intros s; [reflexivity|]. cbn [seq map fold_right]. rewrite IHm. reflexivity. }
      rewrite Hz. reflexivity.
    + cbn [le_val nth]. rewrite N2Z.inj_add, N2Z.inj_mul. change (Z.of_N 256) with 256%Z.
      rewrite (IH b) by (cbn in Hb; lia). rewrite Hmul, map_map. change (Z.of_nat 0) with 0%Z.
      rewrite Z.pow_0_r, Z.mul_1_r. f_equal. f_equal. apply map_ext. intros i.
      rewrite Nat2Z.inj_succ, Z.pow_succ_r by lia. ring.
Qed.

Theorem C26_coefficient_value :
  forall b, fr_val (bytes_to_fr b) = (positional32 b mod bn_r)%Z.
Proof.
  intros b. unfold bytes_to_fr. rewrite le_val_array32.
  rewrite (le_val_positional (firstn 32 b) 32) by (rewrite firstn_length; lia).
  unfold fr_val, fr. rewrite zval_zp. f_equal. unfold positional32. f_equal. apply map_ext_in. intros i Hi.
  apply in_seq in Hi. f_equal. f_equal. f_equal.
  rewrite <- (firstn_skipn 32 b) at 2. destruct (Nat.lt_ge_cases i (length (firstn 32 b))) as [H|H].
  - rewrite app_nth1 by exact H. reflexivity.
  - rewrite firstn_length in H. rewrite (firstn_all2 b), (skipn_all2 b) by lia. rewrite app_nil_r. reflexivity.
Qed.
Print Assumptions C26_coefficient_value.

Theorem C26_canonical_encodings_decode_to_themselves :
  forall (x : Fr) (trailing : list byte), bytes_to_fr (encode_fr x ++ trailing) = x.
Proof.
  intros x t. rewrite bytes_to_fr_value. unfold element_value. rewrite firstn_app.
  assert (Hl : length (encode_fr x) = 32%nat) by apply le_bytes_length.
  rewrite Hl, Nat.sub_diag. cbn [firstn]. rewrite app_nil_r. apply encode_fr_value.
Qed.
Print Assumptions C26_canonical_encodings_decode_to_themselves.

Theorem C26_short_strings_are_zero_padded :
  forall b n, (length b <= 32)%nat -> bytes_to_fr (b ++ repeat x00 n) = bytes_to_fr b.
Proof.
  intros b n Hb. rewrite !bytes_to_fr_value. unfold element_value, residue. f_equal. f_equal.
  rewrite firstn_app, (firstn_all2 b) by exact Hb. rewrite le_val_app.
  assert (Hz : forall k m, le_val (firstn k (repeat x00 m)) = 0).
  { intros k m. revert k; induction m; intros [|k]; cbn [firstn repeat le_val]; try reflexivity.
    rewrite IHm. reflexivity. }
  rewrite Hz. lia.
Qed.
Print Assumptions C26_short_strings_are_zero_padded.
