(** Pocklington's criterion, with boolean checkers, to certify large primes in the kernel. *)
From Coq Require Import ZArith Znumtheory Zpow_facts Lia List Bool.
From Verif Require Import Fermat.
Import ListNotations.
Local Open Scope Z_scope.

(* ---------- small primes by trial division ---------- *)
Fixpoint no_div_from (fuel : nat) (d n : Z) : bool :=
  match fuel with
  | O => false
  | S f => if n <? d * d then true else if n mod d =? 0 then false else no_div_from f (d + 1) n
  end.
Definition trial_prime (n : Z) : bool := (1 <? n) && no_div_from (Z.to_nat (Z.sqrt n + 2)) 2 n.

Lemma no_div_from_spec fuel d n :
  2 <= d -> no_div_from fuel d n = true ->
  forall e, d <= e -> e * e <= n -> n mod e <> 0.
Proof.
  revert d; induction fuel as [|f IH]; intros d Hd H e He Hee; [discriminate|].
  cbn [no_div_from] in H. destruct (Z.ltb_spec n (d * d)) as [Hlt|Hge]; [nia|].
  destruct (Z.eqb_spec (n mod d) 0) as [|Hnd]; [discriminate|].
  destruct (Z.eq_dec e d) as [->|]; [exact Hnd|].
  apply (IH (d + 1)); try lia. exact H.
Qed.

(** A number > 1 without divisor 1 < e <= sqrt n is prime. *)
Lemma prime_of_no_small_divisor n :
  1 < n -> (forall e, 1 < e -> e * e <= n -> ~ (e | n)) -> prime n.
Proof.
  intros Hn H. apply prime_alt. split; [exact Hn|]. intros a Ha Hdiv.
  destruct Hdiv as [b Hb].
  destruct (Z.le_gt_cases (a * a) n) as [Hle|Hgt].
  - apply (H a); [lia|exact Hle|exists b; exact Hb].
  - apply (H b); [nia|nia|exists a; lia].
Qed.

Lemma trial_prime_correct n : trial_prime n = true -> prime n.
Proof.
  unfold trial_prime. intros H. apply andb_true_iff in H. destruct H as [Hn H].
  apply Z.ltb_lt in Hn. apply prime_of_no_small_divisor; [exact Hn|].
  intros e He Hee Hd. apply (no_div_from_spec _ 2 n ltac:(lia) H e ltac:(lia) Hee).
  apply Z.mod_divide; [lia|exact Hd].
Qed.

Lemma exists_prime_divisor n : 1 < n -> exists q, prime q /\ (q | n).
Proof.
  intros Hn. assert (H0 : 0 <= n) by lia. revert Hn. pattern n. apply Z_lt_induction; [|exact H0].
  clear n H0. intros n IH Hn.
  destruct (prime_dec n) as [Hp|Hp]; [exists n; split; [exact Hp|apply Z.divide_refl]|].
  destruct (not_prime_divide n Hn Hp) as (d&Hd&Hdiv).
  destruct (IH d ltac:(lia) ltac:(lia)) as (q&Hq&Hqd).
  exists q. split; [exact Hq|]. eapply Z.divide_trans; eassumption.
Qed.

(* ---------- powers modulo q ---------- *)
Lemma pow_mod_1_mul q b m k : 1 < q -> 0 <= m -> 0 <= k -> b ^ m mod q = 1 -> b ^ (m * k) mod q = 1.
Proof.
  intros Hq Hm Hk H. rewrite Z.pow_mul_r by assumption.
  rewrite Zpower_mod by lia. rewrite H, Z.pow_1_l by assumption. apply Z.mod_1_l. lia.
Qed.

Lemma pow_mod_1_mod q b m n :
  1 < q -> 0 <= m -> 0 < n -> b ^ m mod q = 1 -> b ^ n mod q = 1 -> b ^ (m mod n) mod q = 1.
Proof.
  intros Hq Hm Hn H1 H2.
  pose proof (Z.mod_pos_bound m n Hn). pose proof (Z.div_pos m n Hm Hn).
  rewrite (Z.div_mod m n) in H1 by lia. rewrite Z.pow_add_r in H1 by nia.
  rewrite Z.mul_mod in H1 by lia. rewrite (pow_mod_1_mul q b n (m / n)) in H1 by (auto; lia).
  rewrite Z.mul_1_l, Z.mod_mod in H1 by lia. exact H1.
Qed.

Lemma pow_mod_1_gcd q b : 1 < q -> forall n m, 0 <= n -> 0 <= m ->
  b ^ m mod q = 1 -> b ^ n mod q = 1 -> b ^ (Z.gcd m n) mod q = 1.
Proof.
  intros Hq n m Hn. revert m. pattern n. apply Z_lt_induction; [|exact Hn].
  clear n Hn. intros n IH m Hm H1 H2.
  destruct (Z.eq_dec n 0) as [->|Hn0].
  - rewrite Z.gcd_0_r, Z.abs_eq by exact Hm. exact H1.
  - destruct (Z.lt_ge_cases n 0) as [Hneg|Hpos].
    { rewrite Z.pow_neg_r in H2 by exact Hneg. rewrite Z.mod_0_l in H2 by lia. discriminate. }
    rewrite Z.gcd_comm. rewrite <- Z.gcd_mod by lia. rewrite Z.gcd_comm.
    pose proof (Z.mod_pos_bound m n ltac:(lia)).
    apply IH; [lia|lia|exact H2|apply pow_mod_1_mod; auto; lia].
Qed.

(* ---------- Pocklington ---------- *)
Definition divides_b (d n : Z) : bool := n mod d =? 0.

(** [fs] lists primes with exponents; their product must be [f]. *)
Definition prod_pows (fs : list (Z * Z)) : Z :=
  fold_right (fun pe acc => fst pe ^ snd pe * acc) 1 fs.

Definition pock_check (n a : Z) (fs : list (Z * Z)) : bool :=
  let f := prod_pows fs in
  (1 <? n) && (n <? f * f) && ((n - 1) mod f =? 0) && (0 <=? a) &&
  forallb (fun pe => (1 <=? snd pe) &&
    let y := Zpow_mod a ((n - 1) / fst pe) n in
    (Zpow_mod y (fst pe) n =? 1) && (Z.gcd (y - 1) n =? 1)) fs.

Lemma prime_div_prod_pows p fs :
  prime p -> Forall (fun pe => prime (fst pe) /\ 1 <= snd pe) fs -> (p | prod_pows fs) ->
  exists pe, In pe fs /\ p = fst pe.
Proof.
  intros Hp HF. induction HF as [|[q e] fs [Hq He] HF IH]; intros Hd.
  - simpl in Hd. apply Z.divide_1_r_nonneg in Hd; [|destruct Hp; lia]. destruct Hp; lia.
  - simpl in Hd. apply prime_mult in Hd; [|exact Hp]. destruct Hd as [Hd|Hd].
    + simpl in Hq, He. exists (q, e). split; [left; reflexivity|]. simpl.
      apply (prime_power_prime p q e); auto; lia.
    + destruct (IH Hd) as (pe&Hin&Heq). exists pe. split; [right; exact Hin|exact Heq].
Qed.

Lemma prod_pows_pos fs : Forall (fun pe => prime (fst pe) /\ 1 <= snd pe) fs -> 0 < prod_pows fs.
Proof.
  induction 1 as [|[q e] fs [Hq He] HF IH]; simpl in *; [lia|].
  destruct Hq as [Hq _]. assert (0 < q ^ e) by (apply Z.pow_pos_nonneg; lia). nia.
Qed.

Lemma mod_of_divisor n q x : 1 < q -> 1 < n -> (q | n) -> x mod n = 1 -> x mod q = 1.
Proof.
  intros Hq Hn [k Hk] H. rewrite (Z.div_mod x n) by lia. rewrite H, Hk.
  replace (k * q * (x / (k * q)) + 1) with (1 + (k * (x / (k * q))) * q) by ring.
  rewrite Z.mod_add by lia. apply Z.mod_1_l. lia.
Qed.

Lemma mod_1_divide q x : 1 < q -> x mod q = 1 <-> (q | x - 1).
Proof.
  intros Hq. split.
  - intros H. exists (x / q). rewrite (Z.div_mod x q) at 1 by lia. lia.
  - intros [k Hk]. replace x with (1 + k * q) by lia. rewrite Z.mod_add by lia. apply Z.mod_1_l. lia.
Qed.

(* small arithmetic facts, proved in empty contexts *)
Lemma ar_factor_pos t g f : f = t * g -> 0 < f -> 0 < g -> 1 <= t.
Proof. intros. nia. Qed.
Lemma ar_contra f q e n : n < f * f -> f <= q - 1 -> q <= e -> e * e <= n -> 0 < f -> False.
Proof. intros. nia. Qed.
Lemma ar_pos t t' p : t = t' * p -> 1 <= t -> 1 < p -> 0 < t'.
Proof. intros. nia. Qed.

(** [lia] without hypotheses about powers (zify's saturation on Z.pow is unreliable in 8.16). *)
Ltac nopow := repeat match goal with H : context [Z.pow _ _] |- _ => clear H end; lia.

Theorem pocklington n a fs :
  Forall (fun pe => prime (fst pe)) fs -> pock_check n a fs = true -> prime n.
Proof.
  intros Hps Hc. unfold pock_check in Hc. rewrite !andb_true_iff in Hc.
  destruct Hc as ((((Hn&Hff)&Hdf)&Ha)&Hall).
  apply Z.ltb_lt in Hn, Hff. apply Z.eqb_eq in Hdf. apply Z.leb_le in Ha.
  rewrite forallb_forall in Hall. cbv zeta in Hall.
  assert (HF : Forall (fun pe => prime (fst pe) /\ 1 <= snd pe) fs).
  { apply Forall_forall. intros pe Hin. rewrite Forall_forall in Hps. split; [auto|].
    specialize (Hall pe Hin). apply andb_true_iff in Hall. destruct Hall as [Hall _].
    apply Z.leb_le in Hall. exact Hall. }
  pose proof (prod_pows_pos fs HF) as Hfpos.
  remember (prod_pows fs) as f eqn:Hfdef.
  assert (Hpow : a ^ (n - 1) mod n = 1).
  { destruct fs as [|[p e] fs']; [simpl in Hfdef; rewrite Hfdef in Hff; clear - Hff Hn; nopow|].
    pose proof (Hall (p, e) (or_introl eq_refl)) as Hpe. cbn [fst snd] in Hpe.
    rewrite !andb_true_iff in Hpe. destruct Hpe as (He&Hpp&_). apply Z.eqb_eq in Hpp.
    apply Z.leb_le in He.
    pose proof (Forall_inv Hps) as Hpr. cbn [fst] in Hpr. destruct Hpr as [Hp1 _].
    rewrite !Zpow_mod_correct in Hpp by nopow. rewrite <- Zpower_mod in Hpp by nopow.
    assert (Hpn : (n - 1) mod p = 0).
    { apply Z.mod_divide; [nopow|]. apply Z.mod_divide in Hdf; [|nopow].
      eapply Z.divide_trans; [|exact Hdf]. rewrite Hfdef; simpl.
      replace e with (Z.succ (e - 1)) by nopow. rewrite Z.pow_succ_r by nopow.
      exists (p ^ (e - 1) * prod_pows fs'). unfold prod_pows. ring. }
    assert (Hdp : 0 <= (n - 1) / p) by (apply Z.div_pos; nopow).
    rewrite <- Z.pow_mul_r in Hpp by nopow.
    replace ((n - 1) / p * p) with (n - 1) in Hpp; [exact Hpp|].
    rewrite (Z.div_mod (n - 1) p) at 1 by nopow. nopow. }
  assert (HRex : exists R, n - 1 = f * R /\ 0 <= R).
  { exists ((n - 1) / f). split; [rewrite (Z.div_mod (n - 1) f) at 1 by nopow; nopow|apply Z.div_pos; nopow]. }
  destruct HRex as (R&HR&HRpos).
  apply prime_of_no_small_divisor; [exact Hn|]. intros e He Hee Hen.
  destruct (exists_prime_divisor e He) as (q&Hq&Hqe).
  assert (Hq1 : 1 < q) by (destruct Hq; assumption).
  assert (Hqn : (q | n)) by (eapply Z.divide_trans; eassumption).
  assert (Hqle : q <= e) by (apply Z.divide_pos_le; [nopow|exact Hqe]).
  assert (Hpq : a ^ (n - 1) mod q = 1) by (apply (mod_of_divisor n); assumption).
  assert (Hqa : ~ (q | a)).
  { intros [k Hk]. subst a. replace (n - 1) with (Z.succ (n - 2)) in Hpq by nopow.
    rewrite Z.pow_succ_r in Hpq by nopow.
    replace (k * q * (k * q) ^ (n - 2)) with ((k * (k * q) ^ (n - 2)) * q) in Hpq by ring.
    rewrite Z.mod_mul in Hpq by nopow. discriminate. }
  assert (Hfer : a ^ (q - 1) mod q = 1).
  { apply mod_1_divide; [exact Hq1|].
    pose proof (fermat_Z _ _ Hq Ha) as Hfz.
    replace (a ^ q - a) with (a * (a ^ (q - 1) - 1)) in Hfz.
    2:{ replace q with (Z.succ (q - 1)) at 2 by nopow. rewrite Z.pow_succ_r by nopow. ring. }
    apply prime_mult in Hfz; [|exact Hq]. destruct Hfz; [contradiction|assumption]. }
  remember (a ^ R) as b eqn:Hbdef.
  assert (Hbf : b ^ f mod q = 1).
  { rewrite Hbdef. rewrite <- Z.pow_mul_r by nopow. rewrite Z.mul_comm, <- HR. exact Hpq. }
  assert (Hbq : b ^ (q - 1) mod q = 1).
  { rewrite Hbdef. rewrite <- Z.pow_mul_r by nopow. rewrite Z.mul_comm.
    apply pow_mod_1_mul; auto; nopow. }
  pose proof (pow_mod_1_gcd q b Hq1 (q - 1) f ltac:(nopow) ltac:(nopow) Hbf Hbq) as Hbg.
  remember (Z.gcd f (q - 1)) as g eqn:Hgdef.
  assert (Hgpos : 0 < g).
  { pose proof (Z.gcd_nonneg f (q - 1)) as Hnn. rewrite <- Hgdef in Hnn.
    destruct (Z.eq_dec g 0) as [Hz|]; [|nopow]. rewrite Hgdef in Hz. apply Z.gcd_eq_0_l in Hz. nopow. }
  destruct (Z.gcd_divide_l f (q - 1)) as [t Ht]. rewrite <- Hgdef in Ht.
  assert (Htpos : 1 <= t) by (exact (ar_factor_pos t g f Ht Hfpos Hgpos)).
  destruct (Z.eq_dec t 1) as [->|Ht1].
  - (* f | q - 1 *)
    assert (Hfq : (f | q - 1)).
    { rewrite Ht, Z.mul_1_l, Hgdef. apply Z.gcd_divide_r. }
    apply Z.divide_pos_le in Hfq; [|clear - Hq1; nopow]. exact (ar_contra f q e n Hff Hfq Hqle Hee Hfpos).
  - destruct (exists_prime_divisor t ltac:(nopow)) as (p&Hp&[t' Ht']).
    assert (Hpf : (p | f)) by (exists (t' * g); rewrite Ht, Ht'; ring).
    rewrite Hfdef in Hpf. destruct (prime_div_prod_pows p fs Hp HF Hpf) as (pe&Hin&Hpe).
    specialize (Hall pe Hin). rewrite !andb_true_iff in Hall. destruct Hall as (_&_&Hg).
    apply Z.eqb_eq in Hg. rewrite Zpow_mod_correct in Hg by nopow. rewrite <- Hpe in Hg.
    assert (Hp1 : 1 < p) by (destruct Hp; assumption).
    assert (Ht'pos : 0 < t') by (exact (ar_pos t t' p Ht' Htpos Hp1)).
    assert (Hfp : (n - 1) / p = (t' * g) * R).
    { rewrite HR, Ht, Ht'. replace (t' * p * g * R) with (t' * g * R * p) by ring.
      apply Z.div_mul. nopow. }
    assert (H1 : a ^ ((n - 1) / p) mod q = 1).
    { rewrite Hfp. replace (t' * g * R) with (R * (g * t')) by ring.
      rewrite Z.pow_mul_r; [|exact HRpos|apply Z.mul_nonneg_nonneg; clear - Hgpos Ht'pos; nopow].
      rewrite <- Hbdef. apply pow_mod_1_mul; auto; clear - Hgpos Ht'pos; nopow. }
    assert (Hdq : (q | a ^ ((n - 1) / p) mod n - 1)).
    { apply mod_1_divide; [exact Hq1|]. destruct Hqn as [k Hk].
      rewrite (Z.div_mod (a ^ ((n - 1) / p)) n) in H1 by nopow.
      rewrite Hk in H1 at 1.
      replace (k * q * (a ^ ((n - 1) / p) / n) + a ^ ((n - 1) / p) mod n)
        with (a ^ ((n - 1) / p) mod n + (k * (a ^ ((n - 1) / p) / n)) * q) in H1 by ring.
      rewrite Z.mod_add in H1 by nopow. exact H1. }
    assert (Hq1' : (q | 1)) by (rewrite <- Hg; apply Z.gcd_greatest; assumption).
    apply Z.divide_1_r_nonneg in Hq1'; nopow.
Qed.
