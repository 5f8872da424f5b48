(** Prime fields Z/pZ as instances of [fieldT] (model of ark_ff prime fields: canonical
    residues).  The inverse is computed by the extended Euclidean algorithm. *)
From Coq Require Import ZArith Znumtheory Lia Bool Eqdep_dec Field_theory Ring_theory Field Ring.
From Verif Require Import Fld.
Local Open Scope Z_scope.

Section Egcd.
  (** Loop state: r0 = s0*a and r1 = s1*a modulo p. *)
  Fixpoint egcd (fuel : nat) (r0 r1 s0 s1 : Z) : Z :=
    match fuel with
    | O => s0
    | S f => if r1 =? 0 then s0 else egcd f r1 (r0 mod r1) s1 (s0 - (r0 / r1) * s1)
    end.

  Lemma egcd_spec p a fuel r0 r1 s0 s1 :
    0 <= r1 < r0 -> r0 * r1 < 2 ^ (Z.of_nat fuel) ->
    (p | s0 * a - r0) -> (p | s1 * a - r1) -> Z.gcd r0 r1 = 1 ->
    (p | egcd fuel r0 r1 s0 s1 * a - 1).
  Proof.
    revert r0 r1 s0 s1; induction fuel as [|f IH]; intros r0 r1 s0 s1 Hr Hm H0 H1 Hg.
    - simpl in *. assert (r1 = 0) by nia. subst r1. rewrite Z.gcd_0_r in Hg.
      rewrite Z.abs_eq in Hg by lia. subst r0. exact H0.
    - cbn [egcd]. destruct (Z.eqb_spec r1 0) as [->|Hne].
      + rewrite Z.gcd_0_r in Hg. rewrite Z.abs_eq in Hg by lia. subst r0. exact H0.
      + pose proof (Z.div_mod r0 r1 Hne) as Hdm.
        pose proof (Z.mod_pos_bound r0 r1 ltac:(lia)) as Hmb.
        assert (Hq : 1 <= r0 / r1) by (apply Z.div_le_lower_bound; lia).
        apply IH.
        * lia.
        * rewrite Nat2Z.inj_succ, Z.pow_succ_r in Hm by lia. nia.
        * exact H1.
        * replace ((s0 - r0 / r1 * s1) * a - r0 mod r1)
            with ((s0 * a - r0) - (r0 / r1) * (s1 * a - r1)) by lia.
          apply Z.divide_sub_r; [exact H0|]. apply Z.divide_mul_r. exact H1.
        * rewrite Z.gcd_comm, Z.gcd_mod by exact Hne. rewrite Z.gcd_comm. exact Hg.
  Qed.
End Egcd.

Section Zp.
  Context (p : Z) (Hp : prime p).

  Definition in_range (z : Z) : bool := (0 <=? z) && (z <? p).
  Definition zpT := { z : Z | in_range z = true }.

  Lemma p_gt_1 : 1 < p.
  Proof. destruct Hp; assumption. Qed.

  Lemma mod_in_range z : in_range (z mod p) = true.
  Proof.
    pose proof p_gt_1. pose proof (Z.mod_pos_bound z p ltac:(lia)).
    unfold in_range. apply andb_true_iff. rewrite Z.leb_le, Z.ltb_lt. lia.
  Qed.

  Definition zp (z : Z) : zpT := exist _ (z mod p) (mod_in_range z).
  Definition zval (x : zpT) : Z := proj1_sig x.

  Lemma zval_range x : 0 <= zval x < p.
  Proof.
    destruct x as [z Hz]; simpl. unfold in_range in Hz. apply andb_true_iff in Hz.
    rewrite Z.leb_le, Z.ltb_lt in Hz. lia.
  Qed.
  Lemma zval_inj x y : zval x = zval y -> x = y.
  Proof.
    destruct x as [a Ha], y as [b Hb]; simpl. intros ->. f_equal.
    apply UIP_dec. apply bool_dec.
  Qed.
  Lemma zval_zp z : zval (zp z) = z mod p.
  Proof. reflexivity. Qed.
  Lemma zp_zval x : zp (zval x) = x.
  Proof.
    apply zval_inj. rewrite zval_zp. apply Z.mod_small. apply zval_range.
  Qed.
  Lemma zp_eq_iff a b : zp a = zp b <-> a mod p = b mod p.
  Proof. split; intros H; [exact (f_equal zval H)|apply zval_inj; exact H]. Qed.

  Definition zp_inv (x : zpT) : zpT :=
    zp (egcd (Z.to_nat (2 * Z.log2 p + 2)) p (zval x) 0 1).

  Lemma zp_inv_l x : x <> zp 0 -> zp (zval (zp_inv x) * zval x) = zp 1.
  Proof.
    intros Hx. pose proof p_gt_1 as Hp1. pose proof (zval_range x) as Hr.
    assert (Hnz : zval x <> 0).
    { intros H. apply Hx. apply zval_inj. rewrite H, zval_zp. reflexivity. }
    unfold zp_inv. rewrite zval_zp.
    set (i := egcd _ _ _ _ _).
    assert (Hd : (p | i * zval x - 1)).
    { apply egcd_spec.
      - lia.
      - pose proof (Z.log2_spec p ltac:(lia)) as [_ Hl].
        rewrite Z2Nat.id by (pose proof (Z.log2_nonneg p); lia).
        replace (2 * Z.log2 p + 2) with (Z.succ (Z.log2 p) + Z.succ (Z.log2 p)) by lia.
        rewrite Z.pow_add_r by (pose proof (Z.log2_nonneg p); lia). nia.
      - exists (-1). lia.
      - exists 0. lia.
      - apply Zgcd_1_rel_prime. apply prime_rel_prime; [exact Hp|].
        intros Hdv. apply Z.divide_pos_le in Hdv; lia. }
    apply zval_inj. rewrite !zval_zp, Z.mul_mod_idemp_l by lia.
    destruct Hd as [k Hk]. replace (i * zval x) with (1 + k * p) by lia.
    apply Z.mod_add. lia.
  Qed.

  Lemma zp_field_theory :
    field_theory (zp 0) (zp 1) (fun x y => zp (zval x + zval y)) (fun x y => zp (zval x * zval y))
      (fun x y => zp (zval x - zval y)) (fun x => zp (- zval x))
      (fun x y => zp (zval x * zval (zp_inv y))) zp_inv eq.
  Proof.
    pose proof p_gt_1 as Hp1.
    constructor.
    - constructor; intros; apply zval_inj; rewrite ?zval_zp;
        rewrite ?Z.add_mod_idemp_l, ?Z.add_mod_idemp_r, ?Z.mul_mod_idemp_l, ?Z.mul_mod_idemp_r by lia;
        rewrite ?Zminus_mod_idemp_l, ?Zminus_mod_idemp_r.
      + rewrite Z.add_0_l. apply Z.mod_small, zval_range.
      + f_equal; lia.
      + f_equal; lia.
      + rewrite Z.mul_1_l. apply Z.mod_small, zval_range.
      + f_equal; lia.
      + f_equal; lia.
      + f_equal; lia.
      + reflexivity.
      + f_equal; lia.
    - intros H. apply (f_equal zval) in H. rewrite !zval_zp in H.
      rewrite Z.mod_small, Z.mod_small in H by lia. lia.
    - reflexivity.
    - intros x Hx. apply zp_inv_l. exact Hx.
  Qed.

  Lemma zp_eqb_spec (x y : zpT) : reflect (x = y) (zval x =? zval y).
  Proof.
    destruct (Z.eqb_spec (zval x) (zval y)); constructor.
    - apply zval_inj; assumption.
    - intros ->; contradiction.
  Qed.

  Definition Zp : fieldT :=
    FieldT zpT (zp 0) (zp 1) _ _ _ _ _ _ zp_field_theory _ zp_eqb_spec.
End Zp.
Arguments zval {p} x.

(** A small prime field for examples. *)
Lemma prime_17 : prime 17.
Proof.
  constructor; [lia|]. intros n Hn. apply Zgcd_1_rel_prime.
  assert (H : n = 1 \/ n = 2 \/ n = 3 \/ n = 4 \/ n = 5 \/ n = 6 \/ n = 7 \/ n = 8 \/ n = 9 \/ n = 10
    \/ n = 11 \/ n = 12 \/ n = 13 \/ n = 14 \/ n = 15 \/ n = 16) by lia.
  repeat (destruct H as [->|H]; [reflexivity|]). subst; reflexivity.
Qed.
Definition F17 : fieldT := Zp 17 prime_17.
Definition f17 (z : Z) : F17 := zp 17 prime_17 z.
