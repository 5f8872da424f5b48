(** C79: the multi-signature circuit that is shipped with the tests. *)
From Coq Require Import List Bool Arith NArith ZArith Lia Field.
From Coq Require Import Strings.String Strings.Byte.
From Verif Require Import Res Bytes Text Fld Zp Groups Bn254 CS Qap Domain Core R1cs SpecR1cs Wtns SpecWtns P_Wtns Circuit SpecCircuit
  ArkSer Gcm Sym Inputs SpecInputs Utf8 FileSys Commands SpecCommands SpecBound P_Bound P_Commands SudokuFile SpecSignature Signature SignatureFile.
Import ListNotations.
Local Open Scope N_scope.

Section Fields.
  Local Open Scope fld_scope.
  Add Field FrT : (f_th Fr).
  Lemma fr0 : fr 0 = (0 : Fr). Proof. reflexivity. Qed.
  Lemma fr1 : fr 1 = (1 : Fr). Proof. reflexivity. Qed.
  Lemma fr_two : fr 2 = (1 : Fr) + 1.
  Proof. apply (proj1 (feqb_true Fr _ _)). vm_compute. reflexivity. Qed.
  Lemma fr_three : fr 3 = (1 : Fr) + 1 + 1.
  Proof. apply (proj1 (feqb_true Fr _ _)). vm_compute. reflexivity. Qed.
  Lemma fr_m1 : fr (-1) = fopp (1 : Fr). Proof. reflexivity. Qed.
  Lemma fr_mul_z x y : fr (x * y) = (fr x * fr y : Fr).
  Proof. apply zval_inj. change ((x * y) mod bn_r = (x mod bn_r * (y mod bn_r)) mod bn_r)%Z. apply Z.mul_mod. discriminate. Qed.
  Lemma fr_opp k : fr (- k) = fopp (fr k).
  Proof. replace (- k)%Z with (-1 * k)%Z by lia. rewrite fr_mul_z, fr_m1. ring. Qed.
  Lemma half_two : fr half * ((1 : Fr) + 1) = 1.
  Proof. apply (proj1 (feqb_true Fr _ _)). vm_compute. reflexivity. Qed.
  Lemma small_ne j k : (0 <= j < 4)%Z -> (0 <= k < 4)%Z -> j <> k -> fr (j - 1) <> fr (k - 1).
  Proof.
    intros Hj Hk Hn.
    assert (Cj : (j = 0 \/ j = 1 \/ j = 2 \/ j = 3)%Z) by lia. assert (Ck : (k = 0 \/ k = 1 \/ k = 2 \/ k = 3)%Z) by lia.
    apply (proj1 (feqb_false Fr _ _)).
    destruct Cj as [ -> |[ -> |[ -> | -> ]]], Ck as [ -> |[ -> |[ -> | -> ]]]; try (exfalso; apply Hn; reflexivity); vm_compute; reflexivity.
  Qed.
  Lemma bool_cases (b : Fr) : b * (b - fr 1) = fr 0 <-> b = 0 \/ b = 1.
  Proof.
    rewrite fr0, fr1. split.
    - intros H. apply (fmul_eq_0 Fr) in H. destruct H as [H|H]; [left; exact H|right]. replace b with (b - 1 + 1) by ring. rewrite H. ring.
    - intros [ -> | -> ]; ring.
  Qed.

  Lemma is_zero_iff (x out : Fr) : is_zero x out <-> (x = 0 /\ out = 1) \/ (x <> 0 /\ out = 0).
  Proof.
    unfold is_zero. rewrite fr0, fr1. split.
    - intros (inv&H1&H2). apply (fmul_eq_0 Fr) in H2. destruct (feqb x (0 : Fr)) eqn:Ex.
      + apply (feqb_true Fr) in Ex. left. split; [exact Ex|]. rewrite H1, Ex. ring.
      + apply (feqb_false Fr) in Ex. right. split; [exact Ex|]. destruct H2 as [H2|H2]; [contradiction|exact H2].
    - intros [[-> ->]|[Hx ->]].
      + exists (0 : Fr). split; ring.
      + exists (finv x). split; field; exact Hx.
  Qed.
  Lemma is_equal_iff (x y out : Fr) : is_equal x y out <-> (x = y /\ out = 1) \/ (x <> y /\ out = 0).
  Proof.
    unfold is_equal. rewrite is_zero_iff.
    assert (G : y - x = 0 <-> x = y). { split; intros H; [replace x with (y - (y - x)) by ring; rewrite H; ring|rewrite H; ring]. }
    rewrite G. tauto.
  Qed.
End Fields.
Add Field FrT : (f_th Fr).

(** The comparison [LessEqThan(2)] with 2 lets through -1, 0, 1 and 2. *)
Theorem C79_range_check :
  forall x : Fr, less_eq_than 2 x (fr 2) (fr 1) <-> x = fr (-1) \/ x = fr 0 \/ x = fr 1 \/ x = fr 2.
Proof.
  assert (F4 : fr (2 ^ Z.of_nat 2) = fadd (fadd (fadd (f1 : Fr) f1) f1) f1) by (apply (proj1 (feqb_true Fr _ _)); vm_compute; reflexivity).
  intros x. unfold less_eq_than, less_than, num2bits. rewrite F4, fr_two, fr1, fr0, fr_m1. split.
  - intros (bits&(Hl&Hb&Hs)&Ho).
    destruct bits as [|b0 [|b1 [|b2 [|? ?]]]]; try discriminate Hl.
    apply Forall_cons_iff in Hb. destruct Hb as [B0 Hb]. apply Forall_cons_iff in Hb. destruct Hb as [B1 Hb].
    rewrite <- fr1 in B0, B1. change (f0 : Fr) with (fr 0) in B0, B1. apply bool_cases in B0. apply bool_cases in B1.
    cbn [nth] in Ho. assert (E2 : b2 = (f0 : Fr)). { replace b2 with (fsub f1 (fsub f1 b2)) by ring. rewrite <- Ho. ring. }
    cbn [bits_sum] in Hs. rewrite fr0 in Hs.
    assert (Ex : x = fsub (fadd b0 (fadd b1 b1)) f1).
    { replace x with (fsub (fadd (fsub (fadd x (fadd (fadd (fadd f1 f1) f1) f1)) (fadd (fadd f1 f1) f1)) f0) f1) by ring.
      rewrite <- Hs, E2. ring. }
    destruct B0 as [E0|E0], B1 as [E1|E1]; rewrite Ex, E0, E1.
    + left. ring.
    + right. right. left. ring.
    + right. left. ring.
    + right. right. right. ring.
  - assert (B : forall b0 b1 : Fr, (b0 = f0 \/ b0 = f1) -> (b1 = f0 \/ b1 = f1) -> x = fsub (fadd b0 (fadd b1 b1)) f1 ->
      exists bits, (List.length bits = 3%nat /\ Forall (fun b : Fr => fmul b (fsub b f1) = f0) bits /\
        bits_sum bits f1 = fsub (fadd x (fadd (fadd (fadd f1 f1) f1) f1)) (fadd (fadd f1 f1) f1)) /\ f1 = fsub f1 (nth 2 bits f0)).
    { intros b0 b1 H0 H1 Ex. exists [b0; b1; (f0 : Fr)]. split.
      - split; [reflexivity|]. split.
        + repeat apply Forall_cons; [rewrite <- fr1; change (f0 : Fr) with (fr 0); apply bool_cases; assumption..| |constructor]. ring.
        + cbn [bits_sum]. rewrite fr0, Ex. ring.
      - cbn [nth]. ring. }
    intros [E|[E|[E|E]]].
    + apply (B f0 f0); [auto|auto|rewrite E; ring].
    + apply (B f1 f0); [auto|auto|rewrite E; ring].
    + apply (B f0 f1); [auto|auto|rewrite E; ring].
    + apply (B f1 f1); [auto|auto|rewrite E; ring].
Qed.
Print Assumptions C79_range_check.

Lemma index_is i : (i < 3)%nat -> fr (Z.of_nat i) = fr 0 \/ fr (Z.of_nat i) = fr 1 \/ fr (Z.of_nat i) = fr 2.
Proof. intros Hi. assert (H : (i = 0 \/ i = 1 \/ i = 2)%nat) by lia. destruct H as [ -> |[ -> | -> ]]; auto. Qed.
Lemma n01 : fr 0 <> fr 1. Proof. apply (small_ne 1 2); lia. Qed.
Lemma n02 : fr 0 <> fr 2. Proof. apply (small_ne 1 3); lia. Qed.
Lemma n12 : fr 1 <> fr 2. Proof. apply (small_ne 2 3); lia. Qed.
Lemma nm0 : fr (-1) <> fr 0. Proof. apply (small_ne 0 1); lia. Qed.
Lemma nm1 : fr (-1) <> fr 1. Proof. apply (small_ne 0 2); lia. Qed.
Lemma nm2 : fr (-1) <> fr 2. Proof. apply (small_ne 0 3); lia. Qed.

(** The key selected is the one the index stands for; the origin, if it stands for none. *)
Theorem C79_selected_key :
  forall keys index A, select_public_key keys index A <-> key_at keys index A.
Proof.
  intros keys x [ax ay]. unfold select_public_key, key_at. cbn [fst snd]. split.
  - intros (e0&e1&e2&H0&H1&H2&Hx&Hy). apply is_equal_iff in H0. apply is_equal_iff in H1. apply is_equal_iff in H2.
    destruct H0 as [[X0 E0]|[X0 E0]].
    { assert (E1 : e1 = f0) by (destruct H1 as [[X1 _]|[_ H1]]; [exfalso; apply n01; congruence|exact H1]).
      assert (E2 : e2 = f0) by (destruct H2 as [[X2 _]|[_ H2]]; [exfalso; apply n02; congruence|exact H2]).
      left. exists 0%nat. split; [lia|]. split; [exact X0|]. rewrite (surjective_pairing (keys 0%nat)).
      rewrite Hx, Hy, E0, E1, E2. f_equal; ring. }
    destruct H1 as [[X1 E1]|[X1 E1]].
    { assert (E2 : e2 = f0) by (destruct H2 as [[X2 _]|[_ H2]]; [exfalso; apply n12; congruence|exact H2]).
      left. exists 1%nat. split; [lia|]. split; [exact X1|]. rewrite (surjective_pairing (keys 1%nat)).
      rewrite Hx, Hy, E0, E1, E2. f_equal; ring. }
    destruct H2 as [[X2 E2]|[X2 E2]].
    { left. exists 2%nat. split; [lia|]. split; [exact X2|]. rewrite (surjective_pairing (keys 2%nat)).
      rewrite Hx, Hy, E0, E1, E2. f_equal; ring. }
    right. split.
    + intros i Hi C. destruct (index_is i Hi) as [E|[E|E]]; rewrite E in C; contradiction.
    + unfold origin. rewrite Hx, Hy, E0, E1, E2, fr0. f_equal; ring.
  - intros [(i&Hi&Ex&EA)|[Hn EA]].
    + assert (Ci : (i = 0 \/ i = 1 \/ i = 2)%nat) by lia. rewrite (surjective_pairing (keys i)) in EA.
      assert (Eax : ax = fst (keys i)) by congruence. assert (Eay : ay = snd (keys i)) by congruence. clear EA. subst ax ay.
      destruct Ci as [ -> |[ -> | -> ]].
      * change (fr (Z.of_nat 0)) with (fr 0) in Ex. subst x. exists f1, f0, f0. pose proof n01. pose proof n02.
        rewrite !is_equal_iff. repeat split; auto; ring.
      * change (fr (Z.of_nat 1)) with (fr 1) in Ex. subst x. exists f0, f1, f0. pose proof n01. pose proof n12.
        rewrite !is_equal_iff. repeat split; auto; ring.
      * change (fr (Z.of_nat 2)) with (fr 2) in Ex. subst x. exists f0, f0, f1. pose proof n02. pose proof n12.
        rewrite !is_equal_iff. repeat split; auto; ring.
    + unfold origin in EA. assert (Eax : ax = fr 0) by congruence. assert (Eay : ay = fr 0) by congruence. subst ax ay.
      pose proof (Hn 0%nat ltac:(lia)) as N0. pose proof (Hn 1%nat ltac:(lia)) as N1. pose proof (Hn 2%nat ltac:(lia)) as N2.
      exists f0, f0, f0. rewrite !is_equal_iff, fr0. repeat split; auto; ring.
Qed.
Print Assumptions C79_selected_key.

(** What the template checks: both indices are among -1, 0, 1, 2 and differ, and the signatures verify
    for the keys they stand for, -1 standing for the origin. *)
Theorem C79_template_accepts_iff :
  forall (V : verifier) message keys R8 S indices,
    multisig V message keys R8 S indices <->
    (forall n, (n < 2)%nat -> indices n = fr (-1) \/ indices n = fr 0 \/ indices n = fr 1 \/ indices n = fr 2) /\
    indices 0%nat <> indices 1%nat /\
    (forall n, (n < 2)%nat -> exists k, key_at keys (indices n) k /\ V k (R8 n) (S n) message).
Proof.
  intros V m keys R8 S x. unfold multisig. rewrite !C79_range_check, is_zero_iff.
  assert (Two : forall P : nat -> Prop, (forall n, (n < 2)%nat -> P n) <-> P 0%nat /\ P 1%nat).
  { intros P. split; [intros H; split; apply H; lia|]. intros [H0 H1] n Hn. assert (C : (n = 0 \/ n = 1)%nat) by lia. destruct C; subst; assumption. }
  rewrite !Two.
  assert (Z : (fsub (x 0%nat) (x 1%nat) = f0 /\ fr 0 = f1 \/ fsub (x 0%nat) (x 1%nat) <> f0 /\ fr 0 = f0) <-> x 0%nat <> x 1%nat).
  { split.
    - intros [[_ C]|[H _]]; [exfalso; apply n01; exact C|]. intros C. apply H. rewrite C. ring.
    - intros H. right. split; [|reflexivity]. intros C. apply H. replace (x 0%nat) with (fadd (fsub (x 0%nat) (x 1%nat)) (x 1%nat)) by ring. rewrite C. ring. }
  rewrite Z. split.
  - intros (H0&H1&Hd&A0&A1&S0&S1&V0&V1). apply C79_selected_key in S0. apply C79_selected_key in S1. eauto 10.
  - intros ((H0&H1)&Hd&(A0&S0&V0)&(A1&S1&V1)). apply C79_selected_key in S0. apply C79_selected_key in S1. eauto 12.
Qed.
Print Assumptions C79_template_accepts_iff.

(** If the verifier rejects the origin as a key, the template is the two-of-three rule. *)
Theorem C79_two_of_three :
  forall (V : verifier) message keys R8 S indices,
    (forall r s m, ~ V origin r s m) ->
    (multisig V message keys R8 S indices <-> two_of_three V message keys R8 S indices).
Proof.
  intros V m keys R8 S x Ho. rewrite C79_template_accepts_iff. split.
  - intros (_&Hd&Hv).
    destruct (Hv 0%nat ltac:(lia)) as (k0&K0&V0). destruct (Hv 1%nat ltac:(lia)) as (k1&K1&V1).
    destruct K0 as [(i&Hi&Ei&->)|[_ ->]]; [|exfalso; apply (Ho _ _ _ V0)].
    destruct K1 as [(j&Hj&Ej&->)|[_ ->]]; [|exfalso; apply (Ho _ _ _ V1)].
    exists i, j. repeat split; try assumption. intros C. subst j. congruence.
  - intros (i&j&Hi&Hj&Hij&Ei&Ej&V0&V1). split; [|split].
    + intros n Hn. assert (C : (n = 0 \/ n = 1)%nat) by lia.
      destruct C; subst n; [rewrite Ei; destruct (index_is i Hi) as [E|[E|E]]|rewrite Ej; destruct (index_is j Hj) as [E|[E|E]]]; rewrite E; auto.
    + rewrite Ei, Ej.
      assert (G : forall i j, (i < 3)%nat -> (j < 3)%nat -> i <> j -> fr (Z.of_nat i) <> fr (Z.of_nat j)).
      { clear. intros i j Hi Hj Hij. replace (Z.of_nat i) with (Z.of_nat (i + 1) - 1)%Z by lia. replace (Z.of_nat j) with (Z.of_nat (j + 1) - 1)%Z by lia.
        apply small_ne; lia. }
      apply G; assumption.
    + intros n Hn. assert (C : (n = 0 \/ n = 1)%nat) by lia. destruct C; subst n.
      * exists (keys i). split; [left; eauto|exact V0].
      * exists (keys j). split; [left; eauto|exact V1].
Qed.
Print Assumptions C79_two_of_three.

(** Refuted: "the indices are in range [0, 2]".  For every verifier that accepts some signature for the
    origin, the template accepts the index -1: one signature of a key and that one will do. *)
Theorem C79_range_is_enforced_refuted :
  forall (V : verifier) message keys r0 s0 r1 s1 i,
    V origin r0 s0 message -> (i < 3)%nat -> V (keys i) r1 s1 message ->
    multisig V message keys (fun n => if (n =? 0)%nat then r0 else r1) (fun n => if (n =? 0)%nat then s0 else s1)
      (fun n => if (n =? 0)%nat then fr (-1) else fr (Z.of_nat i)) /\
    (forall j, (j < 3)%nat -> fr (-1) <> fr (Z.of_nat j)).
Proof.
  intros V m keys r0 s0 r1 s1 i H0 Hi H1.
  assert (Hm : forall j, (j < 3)%nat -> fr (-1) <> fr (Z.of_nat j)).
  { intros j Hj C. destruct (index_is j Hj) as [E|[E|E]]; rewrite E in C; [apply nm0|apply nm1|apply nm2]; exact C. }
  split; [|exact Hm]. apply C79_template_accepts_iff. split; [|split].
  - intros n Hn. destruct (n =? 0)%nat; [left; reflexivity|]. right. apply index_is. exact Hi.
  - cbn [Nat.eqb]. apply Hm. exact Hi.
  - intros n Hn. destruct (n =? 0)%nat.
    + exists origin. split; [right; split; [exact Hm|reflexivity]|exact H0].
    + exists (keys i). split; [left; eauto|exact H1].
Qed.
Print Assumptions C79_range_is_enforced_refuted.

(** Refuted: "two signers are needed".  The indices differ, the keys need not: whoever can sign for a
    key that is listed twice needs nobody else, and may even use the same signature twice. *)
Theorem C79_two_signers_are_needed_refuted :
  forall (V : verifier) message keys r s i j,
    (i < 3)%nat -> (j < 3)%nat -> i <> j -> keys i = keys j -> V (keys i) r s message ->
    two_of_three V message keys (fun _ => r) (fun _ => s) (fun n => if (n =? 0)%nat then fr (Z.of_nat i) else fr (Z.of_nat j)) /\
    multisig V message keys (fun _ => r) (fun _ => s) (fun n => if (n =? 0)%nat then fr (Z.of_nat i) else fr (Z.of_nat j)).
Proof.
  intros V m keys r s i j Hi Hj Hij Hk Hv.
  assert (T : two_of_three V m keys (fun _ => r) (fun _ => s) (fun n => if (n =? 0)%nat then fr (Z.of_nat i) else fr (Z.of_nat j))).
  { exists i, j. rewrite <- Hk. repeat split; assumption. }
  split; [exact T|].
  (* the two-of-three rule for the verifier restricted to the key *)
  apply C79_template_accepts_iff. split; [|split].
  - intros n Hn. right. destruct (n =? 0)%nat; apply index_is; assumption.
  - cbn [Nat.eqb]. destruct T as (i'&j'&Hi'&Hj'&Hij'&Ei&Ej&_). cbn [Nat.eqb] in Ei, Ej.
    replace (Z.of_nat i) with (Z.of_nat (i + 1) - 1)%Z by (clear; lia). replace (Z.of_nat j) with (Z.of_nat (j + 1) - 1)%Z by (clear; lia).
    apply small_ne; clear - Hi Hj Hij; lia.
  - intros n Hn. destruct (n =? 0)%nat; [exists (keys i)|exists (keys j)]; (split; [left; eauto|]); [exact Hv|rewrite <- Hk; exact Hv].
Qed.
Print Assumptions C79_two_signers_are_needed_refuted.

(** ** The compiled rows. *)
Fixpoint zsum (a : N -> Fr) (l : list (N * Z)) : Fr :=
  match l with [] => f0 | (w, k) :: l => fadd (fmul (fr k) (a w)) (zsum a l) end.
Lemma coefficient_lc k : coefficient (le_bytes 32 (Z.to_N (k mod bn_r))) = fr k.
Proof.
  assert (Hb : (0 <= k mod bn_r < bn_r)%Z) by (apply Z.mod_pos_bound; reflexivity).
  unfold coefficient, residue. rewrite firstn_all2 by (rewrite le_bytes_length; apply le_n).
  rewrite le_val_small.
  - rewrite Z2N.id by apply Hb. apply zp_eq_iff. apply Z.mod_mod. discriminate.
  - apply N.lt_trans with (Z.to_N bn_r); [apply Z2N.inj_lt; [apply Hb|discriminate|apply Hb]|reflexivity].
Qed.
Lemma combination_lc a l : combination a (lc l) = zsum a l.
Proof.
  induction l as [|[w k] l IH]; [reflexivity|]. unfold lc in *. cbn [map fst snd combination zsum]. rewrite coefficient_lc, IH. reflexivity.
Qed.
Lemma row_iff a x y z : row_true a (row x y z) <-> fmul (zsum a x) (zsum a y) = zsum a z.
Proof. unfold row_true, row. cbn [c_a c_b c_c]. rewrite !combination_lc. reflexivity. Qed.
Lemma satisfies_cons a c cs : satisfies a (c :: cs) <-> row_true a c /\ satisfies a cs.
Proof. apply Forall_cons_iff. Qed.
Lemma satisfies_app a cs cs' : satisfies a (cs ++ cs') <-> satisfies a cs /\ satisfies a cs'.
Proof. apply Forall_app. Qed.
Lemma satisfies_nil a : satisfies a [] <-> True.
Proof. split; [trivial|intros _; constructor]. Qed.

Lemma different_iff a : a 0 = (f1 : Fr) -> (satisfies a different_rows <-> fmul (fsub (a 14) (a 15)) (a 16) = f1).
Proof.
  intros H0. unfold different_rows. rewrite satisfies_cons, satisfies_nil, row_iff. cbn [zsum]. rewrite fr_m1, fr1, H0.
  generalize (a 14) (a 15) (a 16). intros x y i. split; [intros [H _]|intros H; split; [|trivial]].
  - replace (fmul (fsub x y) i) with (fmul (fadd (fmul f1 x) (fadd (fmul (fopp f1) y) f0)) (fadd (fmul f1 i) f0)) by ring. rewrite H. ring.
  - replace (fmul (fadd (fmul f1 x) (fadd (fmul (fopp f1) y) f0)) (fadd (fmul f1 i) f0)) with (fmul (fsub x y) i) by ring. rewrite H. ring.
Qed.
Lemma range_iff a i b : a 0 = (f1 : Fr) ->
  (satisfies a (range_rows i b) <-> (a b = f0 /\ (a i = fr (-1) \/ a i = fr 1)) \/ (a b = f1 /\ (a i = fr 0 \/ a i = fr 2))).
Proof.
  intros H0. unfold range_rows. rewrite !satisfies_cons, satisfies_nil, !row_iff. cbn [zsum]. rewrite !fr_opp, fr_m1, fr1, H0.
  generalize (a b) (a i). intros y x. pose proof half_two as Hh. revert Hh. generalize (fr half). intros h Hh.
  assert (E1 : fmul (fadd (fmul (fopp f1) f1) (fadd (fmul f1 y) f0)) (fadd (fmul f1 y) f0) = fmul y (fsub y f1)) by ring.
  assert (E2 : fmul (fadd (fmul (fopp h) f1) (fadd (fmul h x) (fadd (fmul (fopp h) y) f0))) (fadd (fmul h f1) (fadd (fmul h x) (fadd (fmul (fopp h) y) f0)))
               = fmul (fmul h h) (fmul (fsub x (fadd y f1)) (fsub x (fsub y f1)))) by ring.
  rewrite E1, E2. clear E1 E2.
  assert (Hnz : h <> (f0 : Fr)). { intros C. apply n01. rewrite fr0, fr1, <- Hh, C. ring. }
  assert (B : forall u v : Fr, fsub u v = f0 -> u = v). { intros u v H. replace u with (fadd (fsub u v) v) by ring. rewrite H. ring. }
  split.
  - intros (H1&H2&_). apply (fmul_eq_0 Fr) in H1. apply (fmul_eq_0 Fr) in H2.
    assert (Hx : x = fadd y f1 \/ x = fsub y f1).
    { destruct H2 as [H2|H2]; [apply (fmul_eq_0 Fr) in H2; destruct H2; contradiction|].
      apply (fmul_eq_0 Fr) in H2. destruct H2 as [H2|H2]; [left|right]; apply B; exact H2. }
    destruct H1 as [Ey|Ey]; [left|right; apply B in Ey]; (split; [exact Ey|]); rewrite Ey in Hx; destruct Hx as [ -> | -> ]; rewrite ?fr_m1, ?fr_two, ?fr0, ?fr1.
    + right. ring.
    + left. ring.
    + right. ring.
    + left. ring.
  - intros [[ -> [ -> | -> ]]|[ -> [ -> | -> ]]]; rewrite ?fr_m1, ?fr_two, ?fr0, ?fr1; (split; [ring|split; [ring|trivial]]).
Qed.

Lemma select_iff a i o : a 0 = (f1 : Fr) ->
  (satisfies a (select_rows i o) <->
   ((a (o + 2) = fmul (a (o + 6)) (a 2) /\ a (o + 3) = fmul (a (o + 8)) (a 4) /\ a o = fadd (fadd (a (o + 2)) (a (o + 3))) (fmul (a (o + 10)) (a 6))) /\
    (a (o + 4) = fmul (a (o + 6)) (a 3) /\ a (o + 5) = fmul (a (o + 8)) (a 5) /\ a (o + 1) = fadd (fadd (a (o + 4)) (a (o + 5))) (fmul (a (o + 10)) (a 7)))) /\
   (a (o + 6) = fadd (fmul (fopp (fsub f0 (a i))) (a (o + 7))) f1 /\ fmul (fsub f0 (a i)) (a (o + 6)) = f0) /\
   (a (o + 8) = fadd (fmul (fopp (fsub f1 (a i))) (a (o + 9))) f1 /\ fmul (fsub f1 (a i)) (a (o + 8)) = f0) /\
   (a (o + 10) = fadd (fmul (fopp (fsub (fr 2) (a i))) (a (o + 11))) f1 /\ fmul (fsub (fr 2) (a i)) (a (o + 10)) = f0)).
Proof.
  intros H0. unfold select_rows. rewrite !satisfies_cons, satisfies_nil, !row_iff. cbn [zsum]. rewrite !fr_m1, !fr1, H0.
  assert (T : forall x y z u v : Fr, u = fopp (fmul x y) -> v = fopp z -> (u = v <-> z = fmul x y)).
  { intros x y z u v Hu Hv. split; intros H.
    - replace z with (fopp (fopp z)) by ring. rewrite <- Hv, <- H, Hu. ring.
    - rewrite Hu, Hv, H. reflexivity. }
  assert (U : forall x y z s t u v : Fr, u = fopp (fmul x y) -> v = fadd (fopp z) (fadd s t) -> (u = v <-> z = fadd (fadd s t) (fmul x y))).
  { intros x y z s t u v Hu Hv. split; intros H.
    - replace z with (fsub (fadd s t) (fadd (fopp z) (fadd s t))) by ring. rewrite <- Hv, <- H, Hu. ring.
    - rewrite Hu, Hv, H. ring. }
  assert (Q : forall x y e u v : Fr, u = fmul x y -> v = fsub f1 e -> (u = v <-> e = fadd (fmul (fopp x) y) f1)).
  { intros x y e u v Hu Hv. split; intros H.
    - replace e with (fsub f1 (fsub f1 e)) by ring. rewrite <- Hv, <- H, Hu. ring.
    - rewrite Hu, Hv, H. ring. }
  assert (R : forall x y u : Fr, u = fmul x y -> (u = f0 <-> fmul x y = f0)) by (intros x y u ->; reflexivity).
  split.
  - intros (H1&H2&H3&H4&H5&H6&H7&H8&H9&H10&H11&H12&_).
    apply (T (a (o + 6)) (a 2) (a (o + 2))) in H1; [|ring..].
    apply (T (a (o + 8)) (a 4) (a (o + 3))) in H2; [|ring..].
    apply (U (a (o + 10)) (a 6) (a o) (a (o + 2)) (a (o + 3))) in H3; [|ring..].
    apply (T (a (o + 6)) (a 3) (a (o + 4))) in H4; [|ring..].
    apply (T (a (o + 8)) (a 5) (a (o + 5))) in H5; [|ring..].
    apply (U (a (o + 10)) (a 7) (a (o + 1)) (a (o + 4)) (a (o + 5))) in H6; [|ring..].
    apply (Q (fsub f0 (a i)) (a (o + 7)) (a (o + 6))) in H7; [|ring..].
    apply (R (fsub f0 (a i)) (a (o + 6))) in H8; [|ring..].
    apply (Q (fsub f1 (a i)) (a (o + 9)) (a (o + 8))) in H9; [|ring..].
    apply (R (fsub f1 (a i)) (a (o + 8))) in H10; [|ring..].
    apply (Q (fsub (fr 2) (a i)) (a (o + 11)) (a (o + 10))) in H11; [|ring..].
    apply (R (fsub (fr 2) (a i)) (a (o + 10))) in H12; [|ring..].
    tauto.
  - intros (((H1&H2&H3)&H4&H5&H6)&(H7&H8)&(H9&H10)&(H11&H12)).
    split; [apply (T (a (o + 6)) (a 2) (a (o + 2))); [ring..|exact H1]|].
    split; [apply (T (a (o + 8)) (a 4) (a (o + 3))); [ring..|exact H2]|].
    split; [apply (U (a (o + 10)) (a 6) (a o) (a (o + 2)) (a (o + 3))); [ring..|exact H3]|].
    split; [apply (T (a (o + 6)) (a 3) (a (o + 4))); [ring..|exact H4]|].
    split; [apply (T (a (o + 8)) (a 5) (a (o + 5))); [ring..|exact H5]|].
    split; [apply (U (a (o + 10)) (a 7) (a (o + 1)) (a (o + 4)) (a (o + 5))); [ring..|exact H6]|].
    split; [apply (Q (fsub f0 (a i)) (a (o + 7)) (a (o + 6))); [ring..|exact H7]|].
    split; [apply (R (fsub f0 (a i)) (a (o + 6))); [ring..|exact H8]|].
    split; [apply (Q (fsub f1 (a i)) (a (o + 9)) (a (o + 8))); [ring..|exact H9]|].
    split; [apply (R (fsub f1 (a i)) (a (o + 8))); [ring..|exact H10]|].
    split; [apply (Q (fsub (fr 2) (a i)) (a (o + 11)) (a (o + 10))); [ring..|exact H11]|].
    split; [apply (R (fsub (fr 2) (a i)) (a (o + 10))); [ring..|exact H12]|].
    trivial.
Qed.

(** The keys on the wires. *)
Definition wire_keys (a : N -> Fr) (n : nat) : point := (a (2 + 2 * N.of_nat n), a (3 + 2 * N.of_nat n)).
Lemma select_selects a i o : a 0 = (f1 : Fr) -> satisfies a (select_rows i o) -> key_at (wire_keys a) (a i) (a o, a (o + 1)).
Proof.
  intros H0 H. apply select_iff in H; [|exact H0]. destruct H as (((X1&X2&X3)&Y1&Y2&Y3)&E0&E1&E2).
  apply C79_selected_key. exists (a (o + 6)), (a (o + 8)), (a (o + 10)). unfold is_equal, is_zero.
  split; [exists (a (o + 7)); exact E0|]. split; [exists (a (o + 9)); exact E1|]. split; [exists (a (o + 11)); exact E2|].
  cbn [fst snd]. rewrite X3, X1, X2, Y3, Y1, Y2. split; reflexivity.
Qed.

(** Rows 0 to 28 of the file say about the input wires what the template says, and leave the selected
    keys on the wires 19, 20 and 31, 32. *)
Theorem C79_rows_are_the_template :
  forall (g : N -> Fr) k0 k1, g 0 = fr 1 ->
    ((exists a, (forall w, w <= 15 -> a w = g w) /\ satisfies a front_rows /\ (a 19, a 20) = k0 /\ (a 31, a 32) = k1) <->
     ((forall w, w = 14 \/ w = 15 -> g w = fr (-1) \/ g w = fr 0 \/ g w = fr 1 \/ g w = fr 2) /\ g 14 <> g 15 /\
      key_at (wire_keys g) (g 14) k0 /\ key_at (wire_keys g) (g 15) k1)).
Proof.
  intros g k0 k1 H0. split.
  - intros (a&Hg&Hs&K0&K1).
    assert (Ha0 : a 0 = (f1 : Fr)) by (rewrite Hg by (clear; lia); exact H0).
    unfold front_rows in Hs. rewrite !satisfies_app in Hs. destruct Hs as (D&R0&R1&S0&S1).
    apply different_iff in D; [|exact Ha0]. apply range_iff in R0; [|exact Ha0]. apply range_iff in R1; [|exact Ha0].
    apply select_selects in S0; [|exact Ha0]. apply select_selects in S1; [|exact Ha0].
    rewrite !(Hg 14), !(Hg 15) in * by (clear; lia). change (19 + 1) with 20 in S0. change (31 + 1) with 32 in S1. rewrite K0 in S0. rewrite K1 in S1.
    assert (Ek : forall x k, key_at (wire_keys a) x k -> key_at (wire_keys g) x k).
    { intros x k [(i&Hi&Ex&->)|Hn]; [left|right; exact Hn]. exists i. split; [exact Hi|]. split; [exact Ex|].
      unfold wire_keys. rewrite !Hg by (clear - Hi; lia). reflexivity. }
    split; [|split; [|split; apply Ek; assumption]].
    + intros w [ -> | -> ]; [clear - R0|clear - R1]; tauto.
    + intros C. apply n01. rewrite fr0, fr1, <- D, C. ring.
  - intros (Hr&Hd&K0&K1).
    apply C79_selected_key in K0. apply C79_selected_key in K1.
    destruct K0 as (e0&e1&e2&(i0&E0)&(i1&E1)&(i2&E2)&X&Y). destruct K1 as (e0'&e1'&e2'&(i0'&E0')&(i1'&E1')&(i2'&E2')&X'&Y').
    destruct k0 as [kx ky]. destruct k1 as [kx' ky'].
    assert (B : forall w, w = 14 \/ w = 15 -> exists b : Fr, (b = f0 /\ (g w = fr (-1) \/ g w = fr 1)) \/ (b = f1 /\ (g w = fr 0 \/ g w = fr 2))).
    { intros w Hw. destruct (Hr w Hw) as [E|[E|[E|E]]]; [exists f0|exists f1|exists f0|exists f1]; clear - E; tauto. }
    destruct (B 14 (or_introl eq_refl)) as (b0&B0). destruct (B 15 (or_intror eq_refl)) as (b1&B1). clear B.
    pose (l := [finv (fsub (g 14) (g 15)); b0; b1;
      kx; ky; fmul e0 (g 2); fmul e1 (g 4); fmul e0 (g 3); fmul e1 (g 5); e0; i0; e1; i1; e2; i2;
      kx'; ky'; fmul e0' (g 2); fmul e1' (g 4); fmul e0' (g 3); fmul e1' (g 5); e0'; i0'; e1'; i1'; e2'; i2']).
    pose (a := fun w => if w <=? 15 then g w else nth (N.to_nat (w - 16)) l (f0 : Fr)).
    assert (Hg : forall w, w <= 15 -> a w = g w) by (intros w Hw; unfold a; rewrite (proj2 (N.leb_le w 15) Hw); reflexivity).
    exists a. split; [exact Hg|].
    assert (Ha0 : a 0 = (f1 : Fr)) by (rewrite Hg by (clear; lia); exact H0).
    split; [|split; reflexivity].
    unfold front_rows. rewrite !satisfies_app.
    split; [|split; [|split; [|split]]].
    + apply different_iff; [exact Ha0|]. change (a 14) with (g 14). change (a 15) with (g 15). change (a 16) with (finv (fsub (g 14) (g 15))).
      assert (Hn : fsub (g 14) (g 15) <> f0).
      { intros C. apply Hd. replace (g 14) with (fadd (fsub (g 14) (g 15)) (g 15)) by ring. rewrite C. ring. }
      generalize dependent (fsub (g 14) (g 15)). intros. field. assumption.
    + apply range_iff; [exact Ha0|]. exact B0.
    + apply range_iff; [exact Ha0|]. exact B1.
    + apply select_iff; [exact Ha0|]. split; [split|split; [exact E0|split; [exact E1|exact E2]]].
      * split; [reflexivity|]. split; [reflexivity|]. exact X.
      * split; [reflexivity|]. split; [reflexivity|]. exact Y.
    + apply select_iff; [exact Ha0|]. split; [split|split; [exact E0'|split; [exact E1'|exact E2']]].
      * split; [reflexivity|]. split; [reflexivity|]. exact X'.
      * split; [reflexivity|]. split; [reflexivity|]. exact Y'.
Qed.
Print Assumptions C79_rows_are_the_template.

(** A doubling of the origin is the origin. *)
Lemma double_origin a x x' d : a 0 = (f1 : Fr) -> a x = f0 -> a x' = f0 -> satisfies a (double_rows x x' d) -> a d = f0 /\ a (d + 1) = f0.
Proof.
  intros H0 Hx Hx' H. unfold double_rows in H. rewrite !satisfies_cons, satisfies_nil, !row_iff in H. cbn [zsum] in H.
  destruct H as (H1&H2&H3&H4&H5&H6&_). rewrite Hx, Hx' in *. rewrite fr_m1, ?fr1, ?H0 in *.
  revert H1 H2 H3 H4 H5 H6. generalize (a d) (a (d + 1)) (a (d + 2)) (a (d + 3)) (a (d + 4)) (a (d + 5)). intros u v b c e t.
  generalize (fr 168700) (fr 168696) (fr (-168696)). intros ka kb kc H1 H2 H3 H4 H5 H6.
  assert (M : forall s y : Fr, s = f0 -> s = fadd (fmul (fopp f1) y) f0 -> y = f0).
  { intros s y Es E. replace y with (fopp (fadd (fmul (fopp f1) y) f0)) by ring. rewrite <- E, Es. ring. }
  assert (Eb : b = f0) by (refine (M _ b _ H1); ring).
  assert (Ec : c = f0) by (refine (M _ c _ H2); ring).
  assert (Ee : e = f0) by (refine (M _ e _ H3); ring).
  subst b c e. assert (Et : t = f0) by (refine (M _ t _ H4); ring). subst t. split.
  - replace u with (fmul (fadd (fmul f1 f1) (fadd (fmul kb f0) f0)) (fadd (fmul f1 u) f0)) by ring. rewrite H5. ring.
  - replace v with (fmul (fadd (fmul f1 f1) (fadd (fmul kc f0) f0)) (fadd (fmul f1 v) f0)) by ring. rewrite H6. ring.
Qed.
Lemma key_nonzero a x d d' inv : a 0 = (f1 : Fr) ->
  satisfies a (double_rows x (x + 1) d ++ double_rows d (d + 1) d' ++ [nonzero_row d' inv]) -> (a x, a (x + 1)) <> origin.
Proof.
  intros H0 H C. rewrite !satisfies_app in H. destruct H as (H1&H2&H3). unfold origin in C.
  assert (Ex : a x = fr 0) by congruence. assert (Ex' : a (x + 1) = fr 0) by congruence.
  destruct (double_origin a x (x + 1) d H0 Ex Ex' H1) as [E1 E1'].
  destruct (double_origin a d (d + 1) d' H0 E1 E1' H2) as [E2 _].
  unfold nonzero_row in H3. rewrite satisfies_cons, row_iff in H3. destruct H3 as [H3 _]. cbn [zsum] in H3. rewrite E2, H0, fr1 in H3.
  apply n01. rewrite fr0, fr1.
  transitivity (fadd (fmul (f1 : Fr) f1) f0); [|ring]. rewrite <- H3. ring.
Qed.

(** The verifiers of the shipped circuit reject the origin: whatever satisfies these rows has selected a
    key that is not the origin.  So an index is one of 0, 1 and 2 unless that key is the origin. *)
Theorem C79_verifiers_reject_the_origin :
  forall a, a 0 = fr 1 ->
    (satisfies a key_rows0 -> (a 19, a 20) <> origin) /\ (satisfies a key_rows1 -> (a 31, a 32) <> origin).
Proof.
  intros a H0. split; intros H.
  - apply (key_nonzero a 19 562 568 1416 H0 H).
  - apply (key_nonzero a 31 4765 4771 5619 H0 H).
Qed.
Print Assumptions C79_verifiers_reject_the_origin.

(** So the shipped circuit asks for two different of the three keys. *)
Theorem C79_rows_enforce_two_of_three :
  forall a, a 0 = fr 1 -> satisfies a signature_rows ->
    exists i j, (i < 3)%nat /\ (j < 3)%nat /\ i <> j /\ a 14 = fr (Z.of_nat i) /\ a 15 = fr (Z.of_nat j) /\
      (a 19, a 20) = wire_keys a i /\ (a 31, a 32) = wire_keys a j.
Proof.
  intros a H0 H. unfold signature_rows in H. rewrite !satisfies_app in H. destruct H as (Hf&H1&H2).
  apply (proj1 (C79_verifiers_reject_the_origin a H0)) in H1. apply (proj2 (C79_verifiers_reject_the_origin a H0)) in H2.
  destruct (proj1 (C79_rows_are_the_template a (a 19, a 20) (a 31, a 32) H0)) as (_&Hd&K0&K1).
  { exists a. repeat split; auto. }
  destruct K0 as [(i&Hi&Ei&E0)|[_ C]]; [|contradiction]. destruct K1 as [(j&Hj&Ej&E1)|[_ C]]; [|contradiction].
  exists i, j. repeat split; try assumption. intros C. subst j. congruence.
Qed.
Print Assumptions C79_rows_enforce_two_of_three.

(** The command line: encrypt with any circuit file that has these rows; a witness file that decrypts
    has two different signer indices, and the selected keys are the ones encrypted for, where the input
    document gives them. *)
Theorem C79_cli_needs_two_signers :
  forall (E : pairingT Fr) (C : codecT E) (D : domainT Fr) (kdf : GT E -> key) (aes : cipherT)
         json_parse max_off v co cp sp ip mp op inc s1 s1' s2 s3 cp' wp ctp op' cb sb ib mb wb r vals st syms it kvs,
    (forall g, List.length (kdf g) = 32%nat) -> List.length (c_nonce co) = 12%nat ->
    s1 cp = Some cb -> s1 sp = Some sb -> s1 ip = Some ib -> s1 mp = Some mb ->
    r1cs_from_bytes max_off cb = Ok r -> usable r -> factors_below (r_n_wires r) (r_constraints r) ->
    incl signature_rows (r_constraints r) ->
    (inc = true -> blen ib < 2 ^ 32) ->
    utf8_decode sb = Some st -> parse_sym_file st = Ok syms -> utf8_decode ib = Some it -> json_parse it = Some (JObj kvs) ->
    unambiguous kvs -> separate kvs (fun n => hm_get (lit "main." ++ n) syms) ->
    run (encrypt_command C D kdf aes json_parse max_off v co cp sp ip mp op inc) s1 = (s1', Ok tt) ->
    s2 cp' = Some cb -> s2 ctp = s1' op -> s2 wp = Some wb -> cli_read_witness wb = Ok vals ->
    run (decrypt_command C kdf aes max_off cp' wp ctp op') s2 = (s3, Ok tt) ->
    exists i j, (i < 3)%nat /\ (j < 3)%nat /\ i <> j /\
      nth_error vals 14 = Some (fr (Z.of_nat i)) /\ nth_error vals 15 = Some (fr (Z.of_nat j)) /\
      (forall x y, cli_bound syms kvs (r_n_pub_in r) (2 + 2 * N.of_nat i) x -> cli_bound syms kvs (r_n_pub_in r) (3 + 2 * N.of_nat i) y ->
         nth_error vals 19 = Some x /\ nth_error vals 20 = Some y) /\
      (forall x y, cli_bound syms kvs (r_n_pub_in r) (2 + 2 * N.of_nat j) x -> cli_bound syms kvs (r_n_pub_in r) (3 + 2 * N.of_nat j) y ->
         nth_error vals 31 = Some x /\ nth_error vals 32 = Some y).
Proof.
  intros E C D kdf aes jp mo v co cp sp ip mp op inc s1 s1' s2 s3 cp' wp ctp op' cb sb ib mb wb r vals st syms it kvs
    Hk Hn H1 H2 H3 H4 Hr Hu Hfb Hinc Hib Hst Hsy Hit Hj Hun Hse Hrun Hcp Hct Hw Hv Hd.
  destruct (C58_cli_decrypt_iff E C D kdf aes jp mo v co cp sp ip mp op inc s1 s1' s2 cp' wp ctp op' cb sb ib mb wb r vals st syms it kvs
    Hk Hn H1 H2 H3 H4 Hr Hu Hfb Hib Hst Hsy Hit Hj Hun Hse Hrun Hcp Hct Hw Hv) as [[F _] _].
  destruct (F (ex_intro _ s3 Hd)) as [(Hlen&_&Hsat) Hbound]. clear F.
  set (a := wires (fun w => nth_error vals (N.to_nat w))) in *.
  assert (Hin : satisfies a signature_rows).
  { apply Forall_forall. intros c Hc. exact (proj1 (Forall_forall _ _) Hsat c (Hinc c Hc)). }
  assert (Hbig : 5619 < r_n_wires r).
  { pose proof (proj1 (Forall_forall _ _) Hfb (nonzero_row 4771 5619)) as G.
    assert (Gi : In (nonzero_row 4771 5619) (r_constraints r)).
    { apply Hinc. unfold signature_rows, key_rows1. apply in_or_app. right. apply in_or_app. right. apply in_or_app. right. apply in_or_app. right. left. reflexivity. }
    specialize (G Gi). unfold nonzero_row, row, lc in G. cbn [c_a c_b c_c map app fst snd] in G.
    apply Forall_cons_iff in G. destruct G as [_ G]. apply Forall_cons_iff in G. destruct G as [G _]. exact G. }
  destruct (C79_rows_enforce_two_of_three a eq_refl Hin) as (i&j&Hi&Hj'&Hij&Ei&Ej&E0&E1).
  assert (V : forall w, 1 <= w <= 5619 -> nth_error vals (N.to_nat w) = Some (a w)).
  { intros w Hw'. destruct (nth_error vals (N.to_nat w)) as [x|] eqn:Ex.
    - unfold a, wires. rewrite (proj2 (N.eqb_neq w 0)) by (clear - Hw'; lia). rewrite Ex. reflexivity.
    - exfalso. apply nth_error_None in Ex. clear - Hw' Ex Hlen Hbig. lia. }
  assert (K : forall n x y, (n < 3)%nat -> cli_bound syms kvs (r_n_pub_in r) (2 + 2 * N.of_nat n) x ->
    cli_bound syms kvs (r_n_pub_in r) (3 + 2 * N.of_nat n) y -> wire_keys a n = (x, y)).
  { intros n x y Hn' Bx By. apply Hbound in Bx. apply Hbound in By. rewrite V in Bx, By by (clear - Hn'; lia). unfold wire_keys. congruence. }
  exists i, j. split; [exact Hi|]. split; [exact Hj'|]. split; [exact Hij|].
  split; [|split; [|split]].
  - change 14%nat with (N.to_nat 14). rewrite V by (clear; lia). rewrite Ei. reflexivity.
  - change 15%nat with (N.to_nat 15). rewrite V by (clear; lia). rewrite Ej. reflexivity.
  - intros x y Bx By. rewrite (K i x y Hi Bx By) in E0. change 20%nat with (N.to_nat 20). change 19%nat with (N.to_nat 19).
    rewrite !V by (clear; lia). split; f_equal; [exact (f_equal fst E0)|exact (f_equal snd E0)].
  - intros x y Bx By. rewrite (K j x y Hj' Bx By) in E1. change 32%nat with (N.to_nat 32). change 31%nat with (N.to_nat 31).
    rewrite !V by (clear; lia). split; f_equal; [exact (f_equal fst E1)|exact (f_equal snd E1)].
Qed.
Print Assumptions C79_cli_needs_two_signers.

(** ** Checks against the files. *)
(** The rows are bytes of signature.r1cs. *)
Fixpoint same_bytes (l l' : list byte) : bool :=
  match l, l' with [], [] => true | x :: l, y :: l' => Byte.eqb x y && same_bytes l l' | _, _ => false end.
Definition rows_bytes (cs : list constraint_t) : list byte := flat_map constraint_bytes cs.
Example ex_front_rows_are_in_the_file : same_bytes (rows_bytes front_rows) bytes_rows_0_28 = true.
Proof. vm_compute. reflexivity. Qed.
Example ex_key_rows_are_in_the_file :
  same_bytes (rows_bytes key_rows0) (bytes_rows_295_306 ++ bytes_row_1149) = true /\
  same_bytes (rows_bytes key_rows1) (bytes_rows_4502_4513 ++ bytes_row_5356) = true.
Proof. split; vm_compute; reflexivity. Qed.

(** Signers 2 and 0 of three keys: an assignment that satisfies the rows, a circuit with these rows and
    the command line's requirements, and a witness that opens it. *)
Definition lookup (w : N) : Z := match find (fun f => fst f =? w) wire_table with Some f => snd f | None => 0%Z end.
Definition sig_values : list Fr := map (fun n => fr (lookup (N.of_nat n))) (seq 0 (N.to_nat 5620)).
Definition sig_circuit : r1cs_file := R1csFile 32 (le_bytes 32 (Z.to_N bn_r)) 5620 0 7 8 5620 (N.of_nat (List.length signature_rows)) signature_rows [].
Definition row_trueb (a : N -> Fr) (c : constraint_t) : bool :=
  feqb (fmul (combination a (c_a c)) (combination a (c_b c))) (combination a (c_c c)).
Lemma row_trueb_ok a c : row_trueb a c = true -> row_true a c.
Proof. intros H. exact (proj1 (feqb_true Fr _ _) H). Qed.
Lemma sig_wires_value w : w < 5620 -> wires (fun w => nth_error sig_values (N.to_nat w)) w = fr (lookup w).
Proof.
  intros H. unfold wires. destruct (w =? 0) eqn:E0.
  - apply N.eqb_eq in E0. subst w. reflexivity.
  - unfold sig_values. rewrite nth_error_map.
    assert (En : nth_error (seq 0 (N.to_nat 5620)) (N.to_nat w) = Some (N.to_nat w)).
    { rewrite (nth_error_nth' _ 0%nat) by (rewrite seq_length; clear - H; lia). rewrite seq_nth by (clear - H; lia). reflexivity. }
    rewrite En. cbn [option_map]. rewrite N2Nat.id. reflexivity.
Qed.
Lemma combination_ext n a b l : Forall (fun f => fst f < n) l -> (forall w, w < n -> a w = b w) -> combination a l = combination b l.
Proof.
  intros H Hab. induction H as [|[w k] l Hw Hl IH]; [reflexivity|]. cbn [combination]. rewrite IH, (Hab w Hw). reflexivity.
Qed.
Definition below_b (n : N) (cs : list constraint_t) : bool :=
  forallb (fun c => forallb (fun f => fst f <? n) (c_a c ++ c_b c ++ c_c c)) cs.
Lemma below_b_ok n cs : below_b n cs = true -> factors_below n cs.
Proof.
  intros H. apply Forall_forall. intros c Hc. apply Forall_forall. intros f Hf.
  unfold below_b in H. rewrite forallb_forall in H. specialize (H c Hc). rewrite forallb_forall in H. apply N.ltb_lt. exact (H f Hf).
Qed.
Example ex_two_signers_open :
  usable sig_circuit /\ factors_below (r_n_wires sig_circuit) (r_constraints sig_circuit) /\
  incl signature_rows (r_constraints sig_circuit) /\ opens_circuit sig_circuit sig_values.
Proof.
  assert (Hb : factors_below 5620 signature_rows) by (apply below_b_ok; vm_compute; reflexivity).
  split; [unfold usable; cbn; clear; lia|]. split; [exact Hb|]. split; [intros c Hc; exact Hc|].
  split; [unfold sig_values; rewrite map_length, seq_length; cbn [r_n_wires sig_circuit]; clear; lia|]. split; [exact Hb|].
  assert (H : forallb (row_trueb (fun w => fr (lookup w))) signature_rows = true) by (vm_compute; reflexivity).
  apply Forall_forall. intros c Hc. rewrite forallb_forall in H. pose proof (row_trueb_ok _ c (H c Hc)) as Ht.
  pose proof (proj1 (Forall_forall _ _) Hb c Hc) as Hf. cbn beta in Hf. rewrite !Forall_app in Hf. destruct Hf as (F1&F2&F3).
  unfold row_true in *. rewrite !(combination_ext 5620 _ _ _ F1 sig_wires_value), !(combination_ext 5620 _ _ _ F2 sig_wires_value), !(combination_ext 5620 _ _ _ F3 sig_wires_value).
  exact Ht.
Qed.
(** The refutations' hypotheses are met, e.g. by the verifier that accepts S = 1 for every key, and by
    one that accepts only key (1, 2), listed twice. *)
Example ex_origin_accepted : exists (V : verifier) message r s, V origin r s message /\ V (fr 1, fr 2) r s message.
Proof. exists (fun _ _ s _ => s = fr 1), (fr 5), origin, (fr 1). split; reflexivity. Qed.
Example ex_key_listed_twice :
  let V : verifier := fun k _ s _ => k = (fr 1, fr 2) /\ s = fr 1 in
  let keys n := if (n =? 2)%nat then (fr 3, fr 4) else (fr 1, fr 2) in
  keys 0%nat = keys 1%nat /\ V (keys 0%nat) origin (fr 1) (fr 9) /\ (forall r s m, ~ V origin r s m).
Proof.
  split; [reflexivity|]. split; [split; reflexivity|]. intros r s m [C _]. apply n01. exact (f_equal fst C).
Qed.
