(** Fermat's little theorem over Z, from the standard library only: multiplication by a
    permutes the non-zero residues. *)
From Coq Require Import ZArith Znumtheory Lia List Permutation.
Import ListNotations.
Local Open Scope Z_scope.

Definition residues (q : Z) : list Z := map Z.of_nat (seq 1 (Z.to_nat (q - 1))).
Definition zprod (l : list Z) : Z := fold_right Z.mul 1 l.

Lemma in_residues q x : In x (residues q) <-> 1 <= x < q.
Proof.
  unfold residues. rewrite in_map_iff. split.
  - intros (n & <- & H). apply in_seq in H. lia.
  - intros H. exists (Z.to_nat x). split; [lia|]. apply in_seq. lia.
Qed.

Lemma residues_NoDup q : NoDup (residues q).
Proof.
  unfold residues. apply FinFun.Injective_map_NoDup; [|apply seq_NoDup].
  intros a b. apply Nat2Z.inj.
Qed.

Lemma zprod_perm l l' : Permutation l l' -> zprod l = zprod l'.
Proof.
  induction 1; cbn.
  - reflexivity.
  - unfold zprod in IHPermutation. rewrite IHPermutation. reflexivity.
  - ring.
  - congruence.
Qed.

Lemma zprod_coprime q l : prime q -> Forall (fun x => ~ (q | x)) l -> ~ (q | zprod l).
Proof.
  intros Hq. induction 1 as [|x l Hx _ IH]; cbn.
  - intros Hd. destruct Hq as [H1 _]. apply Z.divide_1_r_nonneg in Hd; lia.
  - intros Hd. apply prime_mult in Hd; [|exact Hq]. tauto.
Qed.

Lemma zprod_map_mod q a l : 0 < q ->
  (q | zprod (map (fun x => (a * x) mod q) l) - a ^ Z.of_nat (length l) * zprod l).
Proof.
  intros Hq. induction l as [|x l IH].
  - cbn. exists 0. ring.
  - cbn [map zprod fold_right length]. fold (zprod l).
    fold (zprod (map (fun x => (a * x) mod q) l)).
    rewrite Nat2Z.inj_succ, Z.pow_succ_r by lia.
    set (P := zprod (map _ l)) in *. set (w := a ^ Z.of_nat (length l)) in *. clearbody w.
    destruct IH as [k Hk].
    pose proof (Z_div_mod_eq_full (a * x) q) as Hdm.
    set (d := (a * x) / q) in *. set (m := (a * x) mod q) in *. clearbody d m.
    exists (m * k - d * w * zprod l).
    replace P with (k * q + w * zprod l) by lia.
    replace m with (a * x - q * d) by lia. ring.
Qed.

Lemma mod_mul_inj q a x y : prime q -> ~ (q | a) -> 1 <= x < q -> 1 <= y < q ->
  (a * x) mod q = (a * y) mod q -> x = y.
Proof.
  intros Hq Ha Hx Hy H.
  assert (Hd : (q | a * (x - y))).
  { replace (a * (x - y)) with (a * x - a * y) by ring.
    apply Z.mod_divide; [lia|]. rewrite Zminus_mod, H, Z.sub_diag. apply Z.mod_0_l. lia. }
  apply prime_mult in Hd; [|exact Hq]. destruct Hd as [Hd|[k Hk]]; [tauto|].
  assert (k = 0) by nia. subst k. lia.
Qed.

Lemma fermat_unit q a : prime q -> ~ (q | a) -> (q | a ^ (q - 1) - 1).
Proof.
  intros Hq Ha. assert (H1 : 1 < q) by (destruct Hq; assumption).
  set (L := residues q). set (M := map (fun x => (a * x) mod q) L).
  assert (HM : Permutation M L).
  { apply NoDup_Permutation_bis.
    - assert (Hgen : forall l, (forall x, In x l -> 1 <= x < q) -> NoDup l ->
                               NoDup (map (fun x => (a * x) mod q) l)).
      { induction l as [|x l IH]; intros Hin Hnd; cbn; constructor.
        - intros Hc. apply in_map_iff in Hc. destruct Hc as (y & Heq & Hy).
          assert (y = x). { apply (mod_mul_inj q a); auto; apply Hin; cbn; auto. }
          subst y. inversion Hnd. contradiction.
        - apply IH; [intros y Hy; apply Hin; right; exact Hy|]. inversion Hnd; assumption. }
      apply Hgen; [|apply residues_NoDup]. intros x. apply in_residues.
    - unfold M. rewrite map_length. lia.
    - intros z Hz. apply in_map_iff in Hz. destruct Hz as (x & <- & Hx).
      apply in_residues. apply in_residues in Hx.
      pose proof (Z.mod_pos_bound (a * x) q). 
      assert ((a * x) mod q <> 0).
      { intros H0. apply Z.mod_divide in H0; [|lia]. apply prime_mult in H0; [|exact Hq].
        destruct H0 as [H0|H0]; [tauto|]. apply Z.divide_pos_le in H0; lia. }
      lia. }
  pose proof (zprod_map_mod q a L ltac:(lia)) as Hp.
  fold M in Hp. rewrite (zprod_perm _ _ HM) in Hp.
  assert (Hlen : Z.of_nat (length L) = q - 1).
  { unfold L, residues. rewrite map_length, seq_length. lia. }
  rewrite Hlen in Hp.
  replace (zprod L - a ^ (q - 1) * zprod L) with ((1 - a ^ (q - 1)) * zprod L) in Hp by ring.
  apply prime_mult in Hp; [|exact Hq]. destruct Hp as [Hp|Hp].
  - replace (a ^ (q - 1) - 1) with (- (1 - a ^ (q - 1))) by ring. apply Z.divide_opp_r. exact Hp.
  - exfalso. revert Hp. apply zprod_coprime; [exact Hq|]. apply Forall_forall.
    intros x Hx. apply in_residues in Hx. intros H0. apply Z.divide_pos_le in H0; lia.
Qed.

Lemma fermat_Z (q a : Z) : prime q -> 0 <= a -> (q | a ^ q - a).
Proof.
  intros Hq _. assert (H1 : 1 < q) by (destruct Hq; assumption).
  replace (a ^ q) with (a * a ^ (q - 1)).
  - replace (a * a ^ (q - 1) - a) with (a * (a ^ (q - 1) - 1)) by ring.
    destruct (Zdivide_dec q a) as [Hd|Hd].
    + apply Z.divide_mul_l. exact Hd.
    + apply Z.divide_mul_r. apply fermat_unit; assumption.
  - rewrite <- Z.pow_succ_r by lia. f_equal. lia.
Qed.
