(** Facts about rounding and printing of doubles (JsNumber.v). *)
From Coq Require Import List Bool Arith NArith ZArith Lia.
From Coq Require Import Strings.String.
From Verif Require Import Text SpecJson JsNumber SpecJsNumber.
Import ListNotations.
Local Open Scope N_scope.

(** ** Rounding *)
Lemma pow2_pos e : 0 < 2 ^ e. Proof. assert (H := N.pow_nonzero 2 e ltac:(lia)). lia. Qed.
Lemma pow10_pos e : 0 < 10 ^ e. Proof. assert (H := N.pow_nonzero 10 e ltac:(lia)). lia. Qed.
Lemma pow2_le a b : a <= b -> 2 ^ a <= 2 ^ b. Proof. intros H. apply N.pow_le_mono_r; lia. Qed.
Lemma pow2_split a b : a <= b -> 2 ^ b = 2 ^ (b - a) * 2 ^ a.
Proof. intros H. rewrite <- N.pow_add_r. f_equal. lia. Qed.

Lemma size_bounds v : 0 < v -> 2 ^ (N.size v - 1) <= v < 2 ^ N.size v.
Proof.
  intros Hv. rewrite N.size_log2 by lia. destruct (N.log2_spec v Hv) as [A B].
  replace (N.succ (N.log2 v) - 1) with (N.log2 v) by lia. split; assumption.
Qed.

(** The two neighbours of a fraction. *)
Record around (p q m e : N) : Prop := {
  ar_q : 0 < q;
  ar_low : q * (m * 2 ^ e) <= p;
  ar_high : p < q * ((m + 1) * 2 ^ e);
  ar_m : m < 2 ^ 53;
  ar_norm : e = 0 \/ 2 ^ 52 <= m
}.
Lemma around_exists p q : 0 < q -> around p q (p / (q * 2 ^ (N.size (p / q) - 53))) (N.size (p / q) - 53).
Proof.
  intros Hq. set (e := N.size (p / q) - 53). assert (He := pow2_pos e).
  assert (Hd : 0 < q * 2 ^ e) by nia. assert (D := N.div_mod p (q * 2 ^ e) ltac:(lia)). assert (R := N.mod_lt p (q * 2 ^ e) ltac:(lia)).
  set (m := p / (q * 2 ^ e)) in *.
  assert (Em : m = p / q / 2 ^ e) by (unfold m; rewrite N.div_div by lia; reflexivity).
  constructor.
  - exact Hq.
  - clearbody m. clear - D. generalize dependent (p mod (q * 2 ^ e)). intros r D. nia.
  - clearbody m. clear - D R. generalize dependent (p mod (q * 2 ^ e)). intros r D R. nia.
  - rewrite Em. apply N.div_lt_upper_bound; [lia|]. destruct (N.eq_0_gt_0_cases (p / q)) as [E|E].
    + rewrite E. assert (0 < 2 ^ 53) by reflexivity. nia.
    + destruct (size_bounds _ E) as [_ B]. eapply N.lt_le_trans; [exact B|]. rewrite <- N.pow_add_r. apply pow2_le. unfold e. lia.
  - destruct (N.eq_0_gt_0_cases e) as [E|E]; [left; exact E|right]. rewrite Em. apply N.div_le_lower_bound; [lia|].
    assert (Hv : 0 < p / q) by (apply N.neq_0_lt_0; intros H0; unfold e in E; rewrite H0 in E; cbn in E; lia).
    destruct (size_bounds _ Hv) as [B _]. eapply N.le_trans; [|exact B]. rewrite <- N.pow_add_r. apply pow2_le. unfold e in *. lia.
Qed.
Lemma double_low m e : m < 2 ^ 53 -> double (m * 2 ^ e). Proof. intros H. exists m, e. auto. Qed.
Lemma double_high m e : m <= 2 ^ 53 -> double (m * 2 ^ e).
Proof.
  intros H. destruct (N.lt_ge_cases m (2 ^ 53)) as [L|L]; [apply double_low; exact L|].
  exists 1, (53 + e). split; [reflexivity|]. rewrite N.pow_add_r. nia.
Qed.
(** No double lies strictly between the neighbours. *)
Lemma no_between m e y : m < 2 ^ 53 -> e = 0 \/ 2 ^ 52 <= m -> double y -> y <= m * 2 ^ e \/ (m + 1) * 2 ^ e <= y.
Proof.
  intros Hm Hn (m'&e'&Hm'&->). destruct (N.le_gt_cases e e') as [L|L].
  - rewrite (pow2_split e e' L). set (c := 2 ^ (e' - e)). rewrite N.mul_assoc. destruct (N.le_gt_cases (m' * c) m); [left|right]; apply N.mul_le_mono_r; lia.
  - left. destruct Hn as [->|Hn]; [lia|]. rewrite (pow2_split e' e) by lia. assert (0 < 2 ^ e') by apply pow2_pos.
    assert (2 <= 2 ^ (e - e')) by (change 2 with (2 ^ 1) at 1; apply pow2_le; lia).
    assert (E53 : 2 ^ 53 = 2 * 2 ^ 52) by reflexivity. rewrite N.mul_assoc. apply N.mul_le_mono_r.
    apply N.le_trans with (2 ^ 53); [lia|]. rewrite E53. rewrite (N.mul_comm m). apply N.mul_le_mono; assumption.
Qed.
Lemma odd_not_even m e : N.odd m = true -> e = 0 \/ 2 ^ 52 <= m -> ~ even_double (m * 2 ^ e).
Proof.
  intros Ho Hn (m'&e'&Hm'&E). assert (0 < 2 ^ e) by apply pow2_pos. destruct (N.le_gt_cases e e') as [L|L].
  - rewrite (pow2_split e e' L) in E. rewrite N.mul_assoc in E. apply N.mul_cancel_r in E; [|lia]. rewrite <- N.mul_assoc in E. rewrite E, N.odd_mul in Ho. discriminate.
  - destruct Hn as [->|Hn]; [lia|]. rewrite (pow2_split e' e) in E by lia. assert (0 < 2 ^ e') by apply pow2_pos.
    assert (2 <= 2 ^ (e - e')) by (change 2 with (2 ^ 1) at 1; apply pow2_le; lia).
    assert (E53 : 2 ^ 53 = 2 * 2 ^ 52) by reflexivity. rewrite N.mul_assoc in E. apply N.mul_cancel_r in E; [|lia].
    assert (2 * 2 ^ 52 <= 2 ^ (e - e') * m) by (apply N.mul_le_mono; assumption). lia.
Qed.
Lemma even_is_even m e : N.odd m = false -> m <= 2 ^ 53 -> even_double (m * 2 ^ e).
Proof.
  intros Ho Hm. assert (He : N.even m = true) by (rewrite <- N.negb_odd, Ho; reflexivity). apply N.even_spec in He. destruct He as [h ->].
  destruct (N.lt_ge_cases (2 * h) (2 ^ 53)) as [L|L].
  - exists h, e. auto.
  - exists 1, (52 + e). split; [reflexivity|]. rewrite N.pow_add_r. assert (2 * h = 2 * 2 ^ 52) by (change (2 * 2 ^ 52) with (2 ^ 53); lia). nia.
Qed.
Lemma not_both_even m e : e = 0 \/ 2 ^ 52 <= m -> even_double (m * 2 ^ e) -> even_double ((m + 1) * 2 ^ e) -> False.
Proof.
  intros Hn A B. destruct (N.odd m) eqn:O; [exact (odd_not_even m e O Hn A)|].
  refine (odd_not_even (m + 1) e _ _ B).
  - rewrite N.odd_add, O. reflexivity.
  - destruct Hn; [auto|right; lia].
Qed.

Definition rounded (p q m e : N) : N :=
  match 2 * (p mod (q * 2 ^ e)) ?= q * 2 ^ e with Lt => m | Gt => m + 1 | Eq => if N.odd m then m + 1 else m end * 2 ^ e.
Lemma round_rounded p q : round_half_even p q =
  rounded p q (p / (q * 2 ^ (N.size (p / q) - 53))) (N.size (p / q) - 53).
Proof. reflexivity. Qed.

Lemma nearest_iff p q m e x : around p q m e -> m = p / (q * 2 ^ e) -> (nearest p q x <-> x = rounded p q m e).
Proof.
  intros [Hq Hl Hh Hm Hn] Em.
  assert (Hp := pow2_pos e). assert (Hd : 0 < q * 2 ^ e) by nia.
  assert (D := N.div_mod p (q * 2 ^ e) ltac:(lia)). rewrite <- Em in D.
  unfold rounded. set (r := p mod (q * 2 ^ e)) in *. set (d := q * 2 ^ e) in *.
  assert (R : r < d) by (apply N.mod_lt; lia).
  assert (Dl : double (m * 2 ^ e)) by (apply double_low; exact Hm).
  assert (Dh : double ((m + 1) * 2 ^ e)) by (apply double_high; lia).
  assert (dl : distance p q (m * 2 ^ e) = Z.of_N r) by (unfold distance; rewrite D; unfold d; lia).
  assert (dh : distance p q ((m + 1) * 2 ^ e) = (Z.of_N d - Z.of_N r)%Z) by (unfold distance; rewrite D; unfold d; lia).
  assert (far : forall y, double y -> (y = m * 2 ^ e) \/ (y = (m + 1) * 2 ^ e) \/
            (y < m * 2 ^ e /\ (Z.of_N r < distance p q y)%Z) \/ ((m + 1) * 2 ^ e < y /\ (Z.of_N d - Z.of_N r < distance p q y)%Z)).
  { intros y Hy. destruct (no_between m e y Hm Hn Hy) as [L|L].
    - destruct (N.eq_dec y (m * 2 ^ e)) as [->|Ne]; [auto|]. right; right; left. split; [lia|]. unfold distance. rewrite D. unfold d. nia.
    - destruct (N.eq_dec y ((m + 1) * 2 ^ e)) as [->|Ne]; [auto|]. right; right; right. split; [lia|]. unfold distance. rewrite D. unfold d. nia. }
  assert (Hne : m * 2 ^ e <> (m + 1) * 2 ^ e) by nia.
  assert (both : even_double (m * 2 ^ e) -> even_double ((m + 1) * 2 ^ e) -> False) by (apply not_both_even; exact Hn).
  assert (evl : N.odd m = false -> even_double (m * 2 ^ e)) by (intros O; apply even_is_even; [exact O|lia]).
  assert (evh : N.odd m = true -> even_double ((m + 1) * 2 ^ e)) by (intros O; apply even_is_even; [rewrite N.odd_add, O; reflexivity|lia]).
  set (lo := m * 2 ^ e) in *. set (hi := (m + 1) * 2 ^ e) in *.
  split.
  - intros (Dx&Hmin&Htie). destruct (far x Dx) as [->|[->|[[Lt A]|[Gt A]]]].
    + assert (Hm1 := Hmin hi Dh). rewrite dl, dh in Hm1. destruct (N.compare_spec (2 * r) d) as [C|C|C]; [|reflexivity|lia].
      destruct (N.odd m) eqn:O; [|reflexivity]. exfalso. apply both; [|auto]. apply (Htie hi Dh); [auto|]. rewrite dl, dh. lia.
    + assert (Hm1 := Hmin lo Dl). rewrite dl, dh in Hm1. destruct (N.compare_spec (2 * r) d) as [C|C|C]; [|lia|reflexivity].
      destruct (N.odd m) eqn:O; [reflexivity|]. exfalso. apply both; [auto|]. apply (Htie lo Dl); [auto|]. rewrite dl, dh. lia.
    + assert (Hm1 := Hmin lo Dl). rewrite dl in Hm1. lia.
    + assert (Hm1 := Hmin hi Dh). rewrite dh in Hm1. lia.
  - assert (L : 2 * r < d \/ 2 * r = d /\ N.odd m = false -> nearest p q lo).
    { intros C. split; [exact Dl|]. rewrite dl. split.
      - intros y Dy. destruct (far y Dy) as [->|[->|[[Lt A]|[Gt A]]]]; rewrite ?dl, ?dh; lia.
      - intros y Dy Ny Ey. destruct C as [C|[C O]]; [|auto]. destruct (far y Dy) as [->|[->|[[Lt A]|[Gt A]]]]; rewrite ?dl, ?dh in *; try lia; try contradiction. }
    assert (H : d < 2 * r \/ 2 * r = d /\ N.odd m = true -> nearest p q hi).
    { intros C. split; [exact Dh|]. rewrite dh. split.
      - intros y Dy. destruct (far y Dy) as [->|[->|[[Lt A]|[Gt A]]]]; rewrite ?dl, ?dh; lia.
      - intros y Dy Ny Ey. destruct C as [C|[C O]]; [|auto]. destruct (far y Dy) as [->|[->|[[Lt A]|[Gt A]]]]; rewrite ?dl, ?dh in *; try lia; try contradiction. }
    intros ->. destruct (N.compare_spec (2 * r) d) as [C|C|C].
    + destruct (N.odd m) eqn:O; [apply H|apply L]; auto.
    + apply L; auto.
    + apply H; auto.
Qed.
Theorem round_nearest p q x : 0 < q -> (nearest p q x <-> x = round_half_even p q).
Proof. intros Hq. rewrite round_rounded. apply nearest_iff; [apply around_exists; exact Hq|reflexivity]. Qed.
Lemma round_is_nearest p q : 0 < q -> nearest p q (round_half_even p q).
Proof. intros Hq. apply round_nearest; [exact Hq|reflexivity]. Qed.

Lemma distance_scale c p q x : distance (c * p) (c * q) x = (Z.of_N c * distance p q x)%Z.
Proof.
  unfold distance. rewrite !N2Z.inj_mul. replace (Z.of_N c * Z.of_N p - Z.of_N c * Z.of_N q * Z.of_N x)%Z with (Z.of_N c * (Z.of_N p - Z.of_N q * Z.of_N x))%Z by ring.
  rewrite Z.abs_mul, (Z.abs_eq (Z.of_N c)) by lia. reflexivity.
Qed.
Lemma nearest_scale c p q x : 0 < c -> (nearest p q x <-> nearest (c * p) (c * q) x).
Proof.
  intros Hc. unfold nearest. assert (S := distance_scale c p q). split; intros (D&M&T); (split; [exact D|split]).
  - intros y Dy. rewrite !S. specialize (M y Dy). apply Z.mul_le_mono_nonneg_l; [lia|exact M].
  - intros y Dy Ny E. rewrite !S in E. apply (T y Dy Ny). apply Z.mul_cancel_l in E; [exact E|lia].
  - intros y Dy. specialize (M y Dy). rewrite !S in M. apply Z.mul_le_mono_pos_l in M; [exact M|lia].
  - intros y Dy Ny E. apply (T y Dy Ny). rewrite !S, E. reflexivity.
Qed.
Lemma round_scale c p q : 0 < c -> 0 < q -> round_half_even (c * p) (c * q) = round_half_even p q.
Proof.
  intros Hc Hq. symmetry. apply round_nearest; [apply N.mul_pos_pos; assumption|]. apply nearest_scale; [exact Hc|]. apply round_is_nearest. exact Hq.
Qed.
Lemma round_eq p1 q1 p2 q2 : 0 < q1 -> 0 < q2 -> p1 * q2 = p2 * q1 -> round_half_even p1 q1 = round_half_even p2 q2.
Proof.
  intros H1 H2 E. rewrite <- (round_scale q2 p1 q1), <- (round_scale q1 p2 q2) by assumption. f_equal; lia.
Qed.
Lemma round_double q x : 0 < q -> double x -> round_half_even (x * q) q = x.
Proof.
  intros Hq Dx. symmetry. apply round_nearest; [exact Hq|]. assert (Z0 : distance (x * q) q x = 0%Z) by (unfold distance; lia).
  split; [exact Dx|split].
  - intros y _. rewrite Z0. unfold distance. lia.
  - intros y _ Ny E. rewrite Z0 in E. unfold distance in E. exfalso. apply Ny. nia.
Qed.
Lemma round_mono_same p1 p2 q : 0 < q -> p1 <= p2 -> round_half_even p1 q <= round_half_even p2 q.
Proof.
  intros Hq L. destruct (round_is_nearest p1 q Hq) as (D1&M1&T1), (round_is_nearest p2 q Hq) as (D2&M2&T2).
  set (x1 := round_half_even p1 q) in *. set (x2 := round_half_even p2 q) in *.
  destruct (N.le_gt_cases x1 x2) as [C|C]; [exact C|exfalso].
  assert (A := M1 x2 D2). assert (B := M2 x1 D1). unfold distance in A, B.
  assert (Hqq : (Z.of_N q * Z.of_N x2 < Z.of_N q * Z.of_N x1)%Z) by nia.
  assert (p1 = p2) by lia. subst p2. unfold x1, x2 in C. lia.
Qed.
Lemma round_mono p1 q1 p2 q2 : 0 < q1 -> 0 < q2 -> p1 * q2 <= p2 * q1 -> round_half_even p1 q1 <= round_half_even p2 q2.
Proof.
  intros H1 H2 L. rewrite <- (round_scale q2 p1 q1), <- (round_scale q1 p2 q2) by assumption.
  rewrite (N.mul_comm q1 q2). apply round_mono_same; [apply N.mul_pos_pos; assumption|lia].
Qed.
(** What rounds to a double is an interval around it. *)
Lemma round_between p1 q1 p2 q2 x : double x -> 0 < q1 -> 0 < q2 -> round_half_even p1 q1 = x ->
  p1 * q2 <= p2 * q1 /\ p2 <= x * q2 \/ x * q2 <= p2 /\ p2 * q1 <= p1 * q2 -> round_half_even p2 q2 = x.
Proof.
  intros Dx H1 H2 E [[A B]|[A B]].
  - apply N.le_antisymm; [|rewrite <- E; apply round_mono; assumption].
    apply N.le_trans with (round_half_even (x * 1) 1); [apply round_mono; lia|]. rewrite (round_double 1 x ltac:(lia) Dx). lia.
  - apply N.le_antisymm; [rewrite <- E; apply round_mono; assumption|].
    apply N.le_trans with (round_half_even (x * 1) 1); [rewrite (round_double 1 x ltac:(lia) Dx); lia|apply round_mono; lia].
Qed.
(** A fraction nearer to a double than half the gap to its neighbours rounds to it. *)
Lemma round_near p q x g : 0 < q -> double x -> (forall y, double y -> y <> x -> (g <= 2 * Z.abs (Z.of_N y - Z.of_N x))%Z) ->
  (4 * distance p q x < Z.of_N q * g)%Z -> round_half_even p q = x.
Proof.
  intros Hq Dx G C. symmetry. apply round_nearest; [exact Hq|].
  assert (F : forall y, double y -> y <> x -> (distance p q x < distance p q y)%Z).
  { intros y Dy Ny. specialize (G y Dy Ny). unfold distance in *.
    assert (Gq : (Z.of_N q * g <= 2 * Z.abs (Z.of_N q * Z.of_N y - Z.of_N q * Z.of_N x))%Z).
    { rewrite <- Z.mul_sub_distr_l, Z.abs_mul, (Z.abs_eq (Z.of_N q)) by lia. nia. }
    lia. }
  split; [exact Dx|split].
  - intros y Dy. destruct (N.eq_dec y x) as [->|Ny]; [lia|]. specialize (F y Dy Ny). lia.
  - intros y Dy Ny E. specialize (F y Dy Ny). lia.
Qed.

(** ** Decimals *)
Lemma round_decimal_eq d k : round_decimal d k = round_half_even (numer d k) (denom k).
Proof.
  unfold round_decimal, numer, denom. destruct (Z.leb_spec 0 k) as [L|L].
  - replace (Z.to_N (- k)) with 0 by lia. reflexivity.
  - replace (Z.to_N k) with 0 by lia. rewrite N.pow_0_r, N.mul_1_r. reflexivity.
Qed.
Lemma denom_pos k : 0 < denom k. Proof. apply pow10_pos. Qed.
Lemma numer_mul d k : numer d k = d * numer 1 k. Proof. unfold numer. rewrite N.mul_1_l, N.mul_assoc. reflexivity. Qed.
Lemma unit1_pos : 0 < unit1. Proof. reflexivity. Qed.
Lemma numer1_pos k : 0 < numer 1 k. Proof. unfold numer. rewrite N.mul_1_l. apply N.mul_pos_pos; [apply pow10_pos|exact unit1_pos]. Qed.
Theorem stands_for_iff d k x : stands_for d k x <-> x = round_decimal d k.
Proof. unfold stands_for. rewrite round_decimal_eq. apply round_nearest. apply denom_pos. Qed.
(** numer 1 k / denom k is 10^k * 2^1074: going down one power of ten. *)
Lemma pow_step a b : (a <= b)%Z -> numer 1 b * denom a = 10 ^ Z.to_N (b - a) * (numer 1 a * denom b).
Proof.
  intros L. unfold numer, denom. rewrite !N.mul_1_l.
  assert (E : 10 ^ Z.to_N b * 10 ^ Z.to_N (- a) = 10 ^ Z.to_N (b - a) * (10 ^ Z.to_N a * 10 ^ Z.to_N (- b))) by (rewrite <- !N.pow_add_r; f_equal; lia).
  set (u := 2 ^ 1074). clearbody u. nia.
Qed.
(** Shifting digits. *)
Lemma round_decimal_shift s j i : (0 <= i)%Z -> round_decimal (s * 10 ^ Z.to_N i) j = round_decimal s (j + i).
Proof.
  intros Hi. rewrite !round_decimal_eq. apply round_eq; try apply denom_pos. rewrite (numer_mul (s * _)), (numer_mul s).
  assert (E := pow_step j (j + i) ltac:(lia)). replace (j + i - j)%Z with i in E by lia. nia.
Qed.

(** ** The shortest digits *)
Lemma canonical x : double x -> exists m e, x = m * 2 ^ e /\ m < 2 ^ 53 /\ (e = 0 \/ 2 ^ 52 <= m).
Proof.
  intros Dx. destruct (around_exists x 1 ltac:(lia)) as [_ A B C D]. eexists _, _. split; [|split; [exact C|exact D]].
  destruct (no_between _ _ x C D Dx) as [L|L]; lia.
Qed.
Lemma gap x : double x -> 0 < x -> exists g, (forall y, double y -> y <> x -> (g <= 2 * Z.abs (Z.of_N y - Z.of_N x))%Z) /\
  (2 * Z.of_N x < 10 ^ 16 * g)%Z.
Proof.
  intros Dx Hx. destruct (canonical x Dx) as (m&e&->&Hm&Hn). assert (He := pow2_pos e).
  assert (Up : forall y, double y -> m * 2 ^ e < y -> (m + 1) * 2 ^ e <= y) by (intros y Dy L; destruct (no_between m e y Hm Hn Dy); lia).
  assert (K : (2 ^ 53 < 10 ^ 16)%N) by reflexivity.
  destruct (N.eq_0_gt_0_cases e) as [E0|E0].
  - exists 2%Z. subst e. rewrite N.pow_0_r, !N.mul_1_r in *. split.
    + intros y Dy Ny. lia.
    + change (2 ^ 53) with 9007199254740992 in *. change (10 ^ 16)%Z with 10000000000000000%Z. lia.
  - destruct Hn as [->|Hn]; [lia|]. destruct (N.eq_dec m (2 ^ 52)) as [Em|Em].
    + exists (Z.of_N (2 ^ e)). split.
      * intros y Dy Ny. destruct (N.lt_ge_cases y (m * 2 ^ e)) as [L|L].
        -- destruct (no_between (2 ^ 53 - 1) (e - 1) y) as [B|B]; [reflexivity|right; discriminate|exact Dy| |].
           ++ assert (E2 : 2 ^ e = 2 * 2 ^ (e - 1)) by (rewrite <- N.pow_succ_r'; f_equal; lia). subst m. rewrite E2 in *.
              set (t := 2 ^ (e - 1)) in *. clearbody t. change (2 ^ 52) with 4503599627370496 in *. change (2 ^ 53 - 1) with 9007199254740991 in *. lia.
           ++ exfalso. assert (E2 : 2 ^ e = 2 * 2 ^ (e - 1)) by (rewrite <- N.pow_succ_r'; f_equal; lia). subst m. rewrite E2 in *.
              set (t := 2 ^ (e - 1)) in *. clearbody t. change (2 ^ 52) with 4503599627370496 in *. change (2 ^ 53 - 1 + 1) with 9007199254740992 in *. lia.
        -- assert (U := Up y Dy ltac:(lia)). lia.
      * subst m. set (t := 2 ^ e) in *. clearbody t. change (2 ^ 52) with 4503599627370496. change (10 ^ 16)%Z with 10000000000000000%Z. lia.
    + exists (2 * Z.of_N (2 ^ e))%Z. split.
      * intros y Dy Ny. destruct (N.lt_ge_cases y (m * 2 ^ e)) as [L|L].
        -- destruct (no_between (m - 1) e y) as [B|B]; [lia|right; lia|exact Dy| |].
           ++ rewrite N.mul_sub_distr_r, N.mul_1_l in B. assert (M1 : 1 <= m) by (change (2 ^ 52) with 4503599627370496 in *; lia).
              assert (M2 : 1 * 2 ^ e <= m * 2 ^ e) by (apply N.mul_le_mono_r; exact M1). set (a := m * 2 ^ e) in *. set (t := 2 ^ e) in *. clearbody a t. lia.
           ++ replace (m - 1 + 1) with m in B by (set (c := 2 ^ 52) in *; clearbody c; lia). lia.
        -- assert (U := Up y Dy ltac:(lia)). lia.
      * assert (L : m * 2 ^ e < 10 ^ 16 * 2 ^ e) by (apply N.mul_lt_mono_pos_r; lia). set (t := 2 ^ e) in *. clearbody t. change (10 ^ 16) with 10000000000000000 in *. change (10 ^ 16)%Z with 10000000000000000%Z. lia.
Qed.

Lemma at_least_iff x n : at_least x n = true <-> numer 1 n <= x * denom n.
Proof.
  unfold at_least, numer, denom. destruct (Z.leb_spec 0 n) as [L|L]; rewrite N.leb_le, N.mul_1_l.
  - replace (Z.to_N (- n)) with 0 by lia. rewrite N.pow_0_r, N.mul_1_r. reflexivity.
  - replace (Z.to_N n) with 0 by lia. rewrite N.pow_0_r, N.mul_1_l. reflexivity.
Qed.
Lemma point_pos_spec x : forall fuel n, at_least x n = false -> at_least x (n - Z.of_nat fuel) = true ->
  at_least x (point_pos fuel x n - 1) = true /\ at_least x (point_pos fuel x n) = false.
Proof.
  induction fuel as [|fuel IH]; intros n A B.
  - replace (n - Z.of_nat 0)%Z with n in B by lia. congruence.
  - cbn [point_pos]. destruct (at_least x (n - 1)) eqn:E; [auto|]. apply IH; [exact E|]. replace (n - 1 - Z.of_nat fuel)%Z with (n - Z.of_nat (S fuel))%Z by lia. exact B.
Qed.
Lemma point_pos_bounds x : 0 < x -> x < overflow -> let n := point_pos 640 x 310 in
  numer 1 (n - 1) <= x * denom (n - 1) /\ x * denom n < numer 1 n.
Proof.
  intros H0 H1. cbv zeta. destruct (point_pos_spec x 640 310) as [A B].
  - destruct (at_least x 310) eqn:E; [|reflexivity]. exfalso. unfold at_least in E. change (0 <=? 310)%Z with true in E. cbv iota in E. apply N.leb_le in E.
    assert (C : overflow < 10 ^ Z.to_N 310 * unit1) by (vm_compute; reflexivity). lia.
  - unfold at_least. change (310 - Z.of_nat 640)%Z with (-330)%Z. change (0 <=? -330)%Z with false. cbv iota. apply N.leb_le.
    assert (C : unit1 <= 10 ^ Z.to_N (- -330)) by (vm_compute; discriminate). apply N.le_trans with (1 * 10 ^ Z.to_N (- -330)); [rewrite N.mul_1_l; exact C|]. apply N.mul_le_mono_r. lia.
  - split; [apply at_least_iff; exact A|]. destruct (N.lt_ge_cases (x * denom (point_pos 640 x 310)) (numer 1 (point_pos 640 x 310))) as [C|C]; [exact C|].
    apply at_least_iff in C. congruence.
Qed.

Lemma at_least_mono x a b : (a <= b)%Z -> at_least x b = true -> at_least x a = true.
Proof.
  intros L. rewrite !at_least_iff. intros H. assert (E := pow_step a b L). assert (P := denom_pos b). assert (P10 : 1 <= 10 ^ Z.to_N (b - a)) by (apply N.lt_pred_le; apply pow10_pos).
  apply N.mul_le_mono_pos_r with (p := denom b); [exact P|].
  apply N.le_trans with (10 ^ Z.to_N (b - a) * (numer 1 a * denom b)); [rewrite <- (N.mul_1_l (numer 1 a * denom b)) at 1; apply N.mul_le_mono_r; exact P10|].
  rewrite <- E. replace (x * denom a * denom b) with (x * denom b * denom a) by lia. apply N.mul_le_mono_r. exact H.
Qed.
(** The place of the point, found without the search. *)
Lemma point_pos_at x n : (n <= 310)%Z -> (-330 < n)%Z -> at_least x (n - 1) = true -> at_least x n = false -> point_pos 640 x 310 = n.
Proof.
  intros H1 H2 A B.
  assert (G : forall fuel m, (n <= m)%Z -> (m <= n + Z.of_nat fuel - 1)%Z -> point_pos fuel x m = n).
  { induction fuel as [|fuel IH]; intros m L U; [lia|]. cbn [point_pos]. destruct (Z.eq_dec m n) as [->|Ne]; [rewrite A; reflexivity|].
    destruct (at_least x (m - 1)) eqn:E; [|apply IH; lia]. exfalso. assert (X := at_least_mono x n (m - 1) ltac:(lia) E). congruence. }
  apply G; lia.
Qed.

Section Shortest.
  Context (x : N) (n : Z) (Dx : double x) (Hx : 0 < x).
  Context (Hlow : numer 1 (n - 1) <= x * denom (n - 1)) (Hhigh : x * denom n < numer 1 n).

  Definition low (j : Z) : N := x * denom j / numer 1 j.
  Lemma scale_down_eq j : scale_down x j = (low j, 2 * ((x * denom j) mod numer 1 j) ?= numer 1 j).
  Proof.
    unfold scale_down, low, numer, denom. destruct (Z.leb_spec 0 j) as [L|L].
    - replace (Z.to_N (- j)) with 0 by lia. rewrite N.pow_0_r, N.mul_1_r, N.mul_1_l. unfold unit1. rewrite (N.mul_comm (2 ^ 1074)). reflexivity.
    - replace (Z.to_N j) with 0 by lia. rewrite N.pow_0_r, !N.mul_1_l. reflexivity.
  Qed.
  Lemma low_bounds j : numer (low j) j <= x * denom j < numer (low j + 1) j.
  Proof using.
    clear. rewrite (numer_mul (low j)), (numer_mul (low j + 1)). assert (P := numer1_pos j).
    assert (D := N.div_mod (x * denom j) (numer 1 j) ltac:(lia)). assert (R := N.mod_lt (x * denom j) (numer 1 j) ltac:(lia)).
    unfold low. generalize dependent (x * denom j / numer 1 j). generalize dependent ((x * denom j) mod numer 1 j). intros r R s D. nia.
  Qed.
  (** The size of the candidate with [k] digits. *)
  Lemma low_size k : (0 < k)%nat -> 10 ^ N.of_nat (k - 1) <= low (n - Z.of_nat k) < 10 ^ N.of_nat k.
  Proof.
    intros Hk. set (j := (n - Z.of_nat k)%Z). assert (P := numer1_pos j). assert (PD := denom_pos j).
    assert (E1 := pow_step j (n - 1) ltac:(lia)). assert (E2 := pow_step j n ltac:(lia)).
    replace (Z.to_N (n - 1 - j)) with (N.of_nat (k - 1)) in E1 by lia. replace (Z.to_N (n - j)) with (N.of_nat k) in E2 by lia.
    assert (P1 := denom_pos (n - 1)). assert (P2 := denom_pos n).
    unfold low. split.
    - apply N.div_le_lower_bound; [lia|]. apply N.mul_le_mono_pos_r with (p := denom (n - 1)); [exact P1|].
      apply N.mul_le_mono_r with (p := denom j) in Hlow. rewrite E1 in Hlow. clear - Hlow. nia.
    - apply N.div_lt_upper_bound; [lia|]. apply N.mul_lt_mono_pos_r with (p := denom n); [exact P2|].
      apply N.mul_lt_mono_pos_r with (p := denom j) in Hhigh; [|exact PD]. rewrite E2 in Hhigh. clear - Hhigh. nia.
  Qed.
  (** Decimals of at most [k] digits lie beyond the candidates. *)
  Lemma beyond k s' j' : (0 < k)%nat -> s' < 10 ^ N.of_nat k -> let j := (n - Z.of_nat k)%Z in
    numer s' j' * denom j <= numer (low j) j * denom j' \/ numer (low j + 1) j * denom j' <= numer s' j' * denom j.
  Proof.
    intros Hk Hs j. destruct (low_bounds j) as [B1 B2]. assert (P := numer1_pos j). assert (PD := denom_pos j). assert (PD' := denom_pos j').
    destruct (Z.le_gt_cases j j') as [L|L].
    - assert (E := pow_step j j' L). set (c := 10 ^ Z.to_N (j' - j)) in *. rewrite (numer_mul s'), (numer_mul (low j)), (numer_mul (low j + 1)) in *.
      replace (s' * numer 1 j' * denom j) with (s' * c * (numer 1 j * denom j')) by (clear - E; nia). set (q := numer 1 j) in *.
      destruct (N.le_gt_cases (s' * c) (low j)); [left|right].
      + replace (low j * q * denom j') with (low j * (q * denom j')) by lia. apply N.mul_le_mono_r. lia.
      + replace ((low j + 1) * q * denom j') with ((low j + 1) * (q * denom j')) by lia. apply N.mul_le_mono_r. lia.
    - left. destruct (low_size k Hk) as [S1 _]. fold j in S1. apply N.le_trans with (numer (10 ^ N.of_nat (k - 1)) j * denom j').
      2: { apply N.mul_le_mono_r. rewrite numer_mul, (numer_mul (low j)). apply N.mul_le_mono_r. exact S1. }
      assert (E := pow_step j' j ltac:(lia)). set (c := 10 ^ Z.to_N (j - j')) in *. rewrite (numer_mul s'), (numer_mul (10 ^ _)).
      replace (10 ^ N.of_nat (k - 1) * numer 1 j * denom j') with (10 ^ N.of_nat (k - 1) * c * (numer 1 j' * denom j)) by (clear - E; nia).
      replace (s' * numer 1 j' * denom j) with (s' * (numer 1 j' * denom j)) by lia. apply N.mul_le_mono_r.
      apply N.le_trans with (10 ^ N.of_nat k); [lia|]. replace (N.of_nat k) with (N.of_nat (k - 1) + 1) by lia. rewrite N.pow_add_r.
      apply N.mul_le_mono_l. unfold c. apply N.pow_le_mono_r; lia.
  Qed.
  Definition low_ok (k : nat) : bool := round_decimal (low (n - Z.of_nat k)) (n - Z.of_nat k) =? x.
  Definition high_ok (k : nat) : bool := round_decimal (low (n - Z.of_nat k) + 1) (n - Z.of_nat k) =? x.
  (** If [k] digits stand for the number, a candidate nearer to it does. *)
  Lemma covered k s' j' : (0 < k)%nat -> s' < 10 ^ N.of_nat k -> round_decimal s' j' = x -> let j := (n - Z.of_nat k)%Z in
    low_ok k = true /\ (distance (numer (low j) j) (denom j) x * Z.of_N (denom j') <= distance (numer s' j') (denom j') x * Z.of_N (denom j))%Z \/
    high_ok k = true /\ (distance (numer (low j + 1) j) (denom j) x * Z.of_N (denom j') <= distance (numer s' j') (denom j') x * Z.of_N (denom j))%Z.
  Proof.
    intros Hk Hs Hr j. destruct (low_bounds j) as [B1 B2]. rewrite round_decimal_eq in Hr. assert (PD := denom_pos j). assert (PD' := denom_pos j').
    unfold low_ok, high_ok. fold j. rewrite !N.eqb_eq, !round_decimal_eq.
    destruct (beyond k s' j' Hk Hs) as [L|L]; fold j in L; [left|right]; (split; [eapply round_between; [exact Dx|exact PD'|exact PD|exact Hr|]|]).
    - left. split; [exact L|exact B1].
    - unfold distance. clear - B1 L PD PD'. generalize dependent (numer (low j) j). generalize dependent (numer s' j'). generalize dependent (denom j). generalize dependent (denom j').
      intros d' Hd' d Hd a b B L. assert (B' : b * d' <= x * d * d') by (apply N.mul_le_mono_r; exact B).
      assert (A : a <= x * d') by (apply N.mul_le_mono_pos_r with (p := d); [exact Hd|]; lia).
      rewrite !Z.abs_neq by lia. nia.
    - right. split; [lia|exact L].
    - unfold distance. clear - B2 L PD PD'. generalize dependent (numer (low j + 1) j). generalize dependent (numer s' j'). generalize dependent (denom j). generalize dependent (denom j').
      intros d' Hd' d Hd a b B L. assert (B' : x * d * d' < b * d') by (apply N.mul_lt_mono_pos_r; assumption).
      assert (A : x * d' <= a) by (apply N.mul_le_mono_pos_r with (p := d); [exact Hd|]; lia).
      rewrite !Z.abs_eq by lia. nia.
  Qed.
  (** Seventeen digits are enough. *)
  Lemma seventeen : low_ok 17 = true \/ high_ok 17 = true.
  Proof.
    set (j := (n - Z.of_nat 17)%Z). destruct (low_bounds j) as [B1 B2]. assert (P := numer1_pos j). assert (PD := denom_pos j).
    destruct (gap x Dx Hx) as (g&G&Hg).
    assert (E := pow_step j (n - 1) ltac:(lia)). replace (Z.to_N (n - 1 - j)) with 16 in E by lia.
    assert (S : 10 ^ 16 * numer 1 j <= x * denom j).
    { apply N.mul_le_mono_pos_r with (p := denom (n - 1)); [apply denom_pos|]. apply N.mul_le_mono_r with (p := denom j) in Hlow. rewrite E in Hlow. clear - Hlow. nia. }
    assert (S' : (2 * Z.of_N (numer 1 j) < Z.of_N (denom j) * g)%Z).
    { assert (T : (2 * Z.of_N x * Z.of_N (denom j) < 10 ^ 16 * g * Z.of_N (denom j))%Z) by (apply Z.mul_lt_mono_pos_r; [lia|exact Hg]).
      change (10 ^ 16) with 10000000000000000 in S. change (10 ^ 16)%Z with 10000000000000000%Z in T. lia. }
    unfold low_ok, high_ok. fold j. rewrite !N.eqb_eq, !round_decimal_eq.
    rewrite (numer_mul (low j)), (numer_mul (low j + 1)) in *.
    destruct (N.le_gt_cases (2 * (x * denom j - low j * numer 1 j)) (numer 1 j)); [left|right];
      (apply round_near with (g := g); [exact PD|exact Dx|exact G|]; unfold distance; lia).
  Qed.

  Lemma shortest_spec : forall fuel k, (0 < k)%nat -> (k + fuel = 18)%nat ->
    (forall k', (0 < k' < k)%nat -> low_ok k' = false /\ high_ok k' = false) ->
    let '(s, k1) := shortest fuel x n k in let j := (n - Z.of_nat k1)%Z in
    (0 < k1 <= 17)%nat /\ (s = low j \/ s = low j + 1) /\ round_decimal s j = x /\
    (forall k', (0 < k' < k1)%nat -> low_ok k' = false /\ high_ok k' = false) /\
    (low_ok k1 = true -> (distance (numer s j) (denom j) x <= distance (numer (low j) j) (denom j) x)%Z) /\
    (high_ok k1 = true -> (distance (numer s j) (denom j) x <= distance (numer (low j + 1) j) (denom j) x)%Z) /\
    (low_ok k1 = true -> high_ok k1 = true -> 2 * ((x * denom j) mod numer 1 j) = numer 1 j -> N.even s = true).
  Proof.
    induction fuel as [|fuel IH]; intros k Hk Hf Hno.
    - exfalso. destruct (Hno 17%nat ltac:(lia)) as [A B]. destruct seventeen; congruence.
    - cbn [shortest]. rewrite scale_down_eq. set (j := (n - Z.of_nat k)%Z).
      change (round_decimal (low j) j =? x) with (low_ok k). change (round_decimal (low j + 1) j =? x) with (high_ok k).
      assert (Lo : low_ok k = true -> round_decimal (low j) j = x) by (apply N.eqb_eq).
      assert (Hi : high_ok k = true -> round_decimal (low j + 1) j = x) by (apply N.eqb_eq).
      assert (D := N.div_mod (x * denom j) (numer 1 j) ltac:(assert (P := numer1_pos j); lia)). assert (R := N.mod_lt (x * denom j) (numer 1 j) ltac:(assert (P := numer1_pos j); lia)).
      assert (dl : distance (numer (low j) j) (denom j) x = Z.of_N ((x * denom j) mod numer 1 j)).
      { unfold distance. rewrite numer_mul. fold (low j) in D. clear - D. generalize dependent (low j). generalize ((x * denom j) mod numer 1 j). intros r s D. lia. }
      assert (dh : distance (numer (low j + 1) j) (denom j) x = (Z.of_N (numer 1 j) - Z.of_N ((x * denom j) mod numer 1 j))%Z).
      { unfold distance. rewrite numer_mul. fold (low j) in D. clear - D R. generalize dependent (low j). generalize dependent ((x * denom j) mod numer 1 j). intros r R s D. lia. }
      assert (Hk17 : (k <= 17)%nat) by (clear - Hf; lia).
      destruct (low_ok k) eqn:El, (high_ok k) eqn:Eh; cbn [andb].
      + rewrite El, Eh. fold j. destruct (N.compare_spec (2 * ((x * denom j) mod numer 1 j)) (numer 1 j)) as [C|C|C];
          [destruct (N.odd (low j)) eqn:Eo|..];
          (split; [lia|split; [auto|split; [auto|split; [exact Hno|split; [rewrite dl; try rewrite dh; intros _; lia|split; [rewrite dh; try rewrite dl; intros _; lia|intros _ _ Etie]]]]]]).
        * rewrite N.even_add, <- N.negb_odd, Eo. reflexivity.
        * rewrite <- N.negb_odd, Eo. reflexivity.
        * lia.
        * lia.
      + rewrite El, Eh. fold j. split; [lia|split; [auto|split; [auto|split; [exact Hno|split; [lia|split; [discriminate|discriminate]]]]]].
      + rewrite El, Eh. fold j. split; [lia|split; [auto|split; [auto|split; [exact Hno|split; [discriminate|split; [lia|discriminate]]]]]].
      + apply IH; [lia|lia|]. intros k' Hk'. destruct (Nat.eq_dec k' k) as [->|Ne]; [auto|]. apply Hno. lia.
  Qed.
End Shortest.
