(** The texts of numbers: reading tokens, printing, and reading what was printed. *)
From Coq Require Import List Bool Arith NArith ZArith Lia.
From Coq Require Import Strings.String.
From Verif Require Import Text SymFacts JsonText SpecJson JsonFacts JsonMore JsNumber SpecJsNumber JsNumberFacts.
Import ListNotations.
Local Open Scope N_scope.

(** ** Reading *)
Lemma take_drop t : t = take_digits t ++ drop_digits t.
Proof. induction t as [|c t IH]; cbn; [reflexivity|]. destruct (is_digit c); cbn; [f_equal; exact IH|reflexivity]. Qed.
Lemma take_digits_digits t : Forall digit (take_digits t).
Proof.
  induction t as [|c t IH]; cbn; [constructor|]. destruct (is_digit c) eqn:E; [|constructor]. constructor; [|exact IH].
  unfold is_digit in E. apply andb_prop in E. destruct E as [A B]. apply N.leb_le in A, B. split; assumption.
Qed.
Definition no_digit_first (t : text) : Prop := match t with c :: _ => is_digit c = false | [] => True end.
Lemma drop_digits_first t : no_digit_first (drop_digits t).
Proof. induction t as [|c t IH]; cbn; [exact I|]. destruct (is_digit c) eqn:E; [exact IH|]. cbn. exact E. Qed.
Lemma digit_is c : digit c -> is_digit c = true.
Proof. intros [A B]. unfold is_digit. apply andb_true_intro. split; apply N.leb_le; assumption. Qed.
Lemma take_drop_app ds r : Forall digit ds -> no_digit_first r -> take_digits (ds ++ r) = ds /\ drop_digits (ds ++ r) = r.
Proof.
  intros Hd Hr. induction Hd as [|c ds Hc _ IH]; cbn [app].
  - destruct r as [|c r]; cbn; [auto|]. cbn in Hr. rewrite Hr. auto.
  - cbn. rewrite (digit_is c Hc). destruct IH as [-> ->]. auto.
Qed.
Lemma all_digits_iff t : all_digits t = true <-> digits t.
Proof. rewrite all_digits_spec. unfold digits, digit. reflexivity. Qed.
Lemma int_part_digits i : int_part i -> Forall digit i /\ int_digits i = true.
Proof.
  intros [->|(c&r&->&Hc&Hr)]; cbn.
  - split; [|reflexivity]. constructor; [split; discriminate|constructor].
  - split; [constructor; [split; lia|exact Hr]|]. destruct r; [reflexivity|]. apply negb_true_iff, N.eqb_neq. lia.
Qed.
Lemma int_digits_part i : Forall digit i -> int_digits i = true -> int_part i.
Proof.
  intros Hd Hi. destruct Hd as [|c r Hc Hr]; [discriminate|]. cbn in Hi. unfold digit in Hc.
  destruct (N.eq_dec c 48) as [->|Ne].
  - destruct r; [left; reflexivity|discriminate].
  - right. exists c, r. split; [reflexivity|]. split; [lia|exact Hr].
Qed.
Lemma digits_not_sign ds : digits ds -> exists c r, ds = c :: r /\ (c =? c_minus) = false /\ (c =? c_plus) = false.
Proof.
  intros [Hn Hd]. destruct Hd as [|c r Hc _]; [contradiction|]. exists c, r. split; [reflexivity|]. unfold digit in Hc.
  split; apply N.eqb_neq; unfold c_minus, c_plus; lia.
Qed.
Lemma exponent_iff t k : exponent_of t = Some k <-> exponent t k.
Proof.
  split.
  - destruct t as [|e r]; cbn [exponent_of]; [intros [= <-]; constructor|].
    destruct ((e =? 101) || (e =? 69)) eqn:E; [|discriminate].
    assert (He : [e] = lit "e" \/ [e] = lit "E") by (apply orb_prop in E; destruct E as [E|E]; apply N.eqb_eq in E; subst; auto).
    destruct r as [|s ds]; [discriminate|]. destruct (s =? c_minus) eqn:S1.
    + apply N.eqb_eq in S1. subst s. destruct (all_digits ds) eqn:A; [|discriminate]. intros [= <-]. apply all_digits_iff in A. exact (ex_minus [e] ds He A).
    + destruct (s =? c_plus) eqn:S2.
      * apply N.eqb_eq in S2. subst s. destruct (all_digits ds) eqn:A; [|discriminate]. intros [= <-]. apply all_digits_iff in A.
        exact (ex_plus [e] (lit "+") ds He (or_intror eq_refl) A).
      * destruct (all_digits (s :: ds)) eqn:A; [|discriminate]. intros [= <-]. apply all_digits_iff in A.
        exact (ex_plus [e] [] (s :: ds) He (or_introl eq_refl) A).
  - intros H. inversion H as [|e s ds He Hs Hd|e ds He Hd]; subst; [reflexivity| |].
    + assert (A := proj2 (all_digits_iff ds) Hd). destruct (digits_not_sign ds Hd) as (c&r&->&N1&N2).
      destruct He as [-> | ->], Hs as [-> | ->]; cbn [lit app exponent_of]; cbn -[all_digits digits_value]; rewrite ?N1, ?N2, A; reflexivity.
    + assert (A := proj2 (all_digits_iff ds) Hd).
      destruct He as [-> | ->]; cbn -[all_digits digits_value]; rewrite A; reflexivity.
Qed.
Lemma exponent_first t k : exponent t k -> no_digit_first t /\ (match t with c :: _ => (c =? 46) = false | [] => True end).
Proof. intros H. inversion H as [|e s ds He Hs Hd|e ds He Hd]; subst; [cbn; auto| |]; destruct He as [-> | ->]; cbn; auto. Qed.
Lemma fraction_iff fd r : no_digit_first r -> (match r with c :: _ => (c =? 46) = false | [] => True end) ->
  forall f, fraction f fd -> fraction_of (f ++ r) = Some (fd, r).
Proof.
  intros H1 H2 f Hf. inversion Hf as [|ds [Hn Hd]]; subst.
  - destruct r as [|c r]; [reflexivity|]. cbn. rewrite H2. reflexivity.
  - cbn. destruct (take_drop_app fd r Hd H1) as [A B]. rewrite A, B. destruct fd; [contradiction|reflexivity].
Qed.
Theorem decimal_iff t neg d k : decimal_of t = Some (neg, d, k) <-> decimal t neg d k.
Proof.
  split.
  - unfold decimal_of. destruct (match t with c :: r => if c =? c_minus then (true, r) else (false, t) | [] => (false, t) end) as [ng t0] eqn:Es.
    destruct (fraction_of (drop_digits t0)) as [[fp t1]|] eqn:Ef; [|discriminate].
    destruct (exponent_of t1) as [e|] eqn:Ee; [|discriminate]. destruct (int_digits (take_digits t0)) eqn:Ei; [|discriminate].
    intros [= <- <- <-]. apply exponent_iff in Ee. apply (int_digits_part _ (take_digits_digits t0)) in Ei.
    assert (Hf : exists f, drop_digits t0 = f ++ t1 /\ fraction f fp).
    { unfold fraction_of in Ef. destruct (drop_digits t0) as [|c r]; [injection Ef as <- <-; exists []; split; [reflexivity|constructor]|].
      destruct (c =? 46) eqn:Ec.
      - destruct (take_digits r) eqn:Et; [discriminate|]. injection Ef as <- <-. rewrite <- Et. exists (lit "." ++ take_digits r).
        split; [|constructor; split; [rewrite Et; discriminate|apply take_digits_digits]]. apply N.eqb_eq in Ec. subst c. cbn. f_equal. apply take_drop.
      - injection Ef as <- <-. exists []. split; [reflexivity|constructor]. }
    destruct Hf as (f&Ed&Hf). assert (E0 := take_drop t0). rewrite Ed in E0.
    assert (Et : t = (if ng then lit "-" else []) ++ t0).
    { destruct t as [|c r]; [injection Es as <- <-; reflexivity|]. destruct (c =? c_minus) eqn:Ec; injection Es as <- <-; [|reflexivity]. apply N.eqb_eq in Ec. subst c. reflexivity. }
    rewrite Et. clear Et Es. rewrite E0 at 1. destruct ng; cbn [app]; [apply (de_neg _ _ _ _ _ Ei Hf Ee)|apply (de_pos _ _ _ _ _ Ei Hf Ee)].
  - assert (G : forall i f fd e k0, int_part i -> fraction f fd -> exponent e k0 ->
      take_digits (i ++ f ++ e) = i /\ fraction_of (drop_digits (i ++ f ++ e)) = Some (fd, e) /\ exponent_of e = Some k0 /\ int_digits i = true).
    { intros i f fd e k0 Hi Hf He. destruct (int_part_digits i Hi) as [A B]. destruct (exponent_first e k0 He) as [C D].
      assert (F : no_digit_first (f ++ e)) by (inversion Hf; subst; [exact C|reflexivity]).
      destruct (take_drop_app i (f ++ e) A F) as [E1 E2]. rewrite E1, E2. split; [reflexivity|]. split; [apply (fraction_iff fd e C D f Hf)|].
      split; [apply exponent_iff; exact He|exact B]. }
    intros H. inversion H as [i f fd e k0 Hi Hf He|i f fd e k0 Hi Hf He]; subst; destruct (G i f fd e k0 Hi Hf He) as (A&B&C&D); unfold decimal_of.
    + destruct (int_part_digits i Hi) as [A0 B0]. destruct A0 as [|c i' Hc A0]; [discriminate|]. unfold digit in Hc.
      cbn [app]. assert (Nm : (c =? c_minus) = false) by (apply N.eqb_neq; unfold c_minus; lia). rewrite Nm.
      change (c :: i' ++ f ++ e) with ((c :: i') ++ f ++ e). rewrite A, B, C, D. reflexivity.
    + change (lit "-" ++ i ++ f ++ e) with (c_minus :: i ++ f ++ e). cbv iota beta zeta. change (c_minus =? c_minus) with true. cbv iota beta zeta. rewrite A, B, C, D. reflexivity.
Qed.
(** The number tokens of JSON are the decimals. *)
Theorem token_decimal t : number_token t <-> exists neg d k, decimal t neg d k.
Proof.
  split.
  - intros (s&i&f&e&->&Hs&Hi&Hf&He).
    assert (F : exists fd, fraction f fd) by (destruct Hf as [->|(ds&->&Hd)]; eexists; constructor; exact Hd).
    assert (X : exists k, exponent e k).
    { destruct He as [->|(e0&s0&ds&->&He0&Hs0&Hd)]; [eexists; constructor|]. destruct Hs0 as [->|[->| ->]].
      - eexists; apply (ex_plus e0 [] ds He0 (or_introl eq_refl) Hd).
      - eexists; apply (ex_plus e0 (lit "+") ds He0 (or_intror eq_refl) Hd).
      - eexists; apply (ex_minus e0 ds He0 Hd). }
    destruct F as [fd F], X as [k X]. destruct Hs as [->| ->]; do 3 eexists; [apply (de_pos i f fd e k Hi F X)|apply (de_neg i f fd e k Hi F X)].
  - intros (neg&d&k&H).
    assert (G : forall f fd e k0, fraction f fd -> exponent e k0 -> frac_part f /\ exp_part e).
    { intros f fd e k0 Hf He. split.
      - inversion Hf; subst; [left; reflexivity|right; eexists; split; [reflexivity|assumption]].
      - inversion He as [|e0 s ds He0 Hs Hd|e0 ds He0 Hd]; subst; [left; reflexivity|right; exists e0, s, ds|right; exists e0, (lit "-"), ds]; (split; [reflexivity|split; [exact He0|split; [|exact Hd]]]); intuition. }
    inversion H as [i f fd e k0 Hi Hf He|i f fd e k0 Hi Hf He]; subst; destruct (G f fd e k0 Hf He) as [A B].
    + exists [], i, f, e. auto.
    + exists (lit "-"), i, f, e. auto.
Qed.

(** ** Printing *)
Lemma dv_app a b : digits_value (a ++ b) = digits_value a * 10 ^ N.of_nat (List.length b) + digits_value b.
Proof.
  rewrite digits_value_app. generalize (digits_value a). unfold digits_value. induction b as [|c b IH]; intros n; cbn [fold_left List.length]; [cbn; lia|].
  rewrite IH, (IH (10 * 0 + _)), Nat2N.inj_succ, N.pow_succ_r'. generalize (10 ^ N.of_nat (List.length b)). intros. lia.
Qed.
Lemma dv_lt r : Forall digit r -> digits_value r < 10 ^ N.of_nat (List.length r).
Proof.
  induction 1 as [|c r Hc Hr IH]; [reflexivity|]. change (c :: r) with ([c] ++ r). rewrite dv_app. cbn [app List.length]. rewrite Nat2N.inj_succ, N.pow_succ_r'.
  change (digits_value [c]) with (10 * 0 + (c - 48)). unfold digit in Hc. revert IH. generalize (10 ^ N.of_nat (List.length r)) (digits_value r). intros. nia.
Qed.
(** The digits of a positive number: no zero in front, and their count. *)
Lemma dec_positive s : 0 < s -> exists c r, dec_text s = c :: r /\ 49 <= c <= 57 /\ Forall digit r.
Proof.
  intros Hs. destruct (dec_int_part s) as [E|H]; [|exact H]. exfalso. destruct (dec_text_spec s) as (_&_&V). rewrite E in V. cbn in V. lia.
Qed.
Lemma dec_length s k : (0 < k)%nat -> 10 ^ N.of_nat (k - 1) <= s < 10 ^ N.of_nat k -> List.length (dec_text s) = k.
Proof.
  intros Hk [A B]. assert (Hs : 0 < s) by (assert (P := pow10_pos (N.of_nat (k - 1))); lia).
  destruct (dec_positive s Hs) as (c&r&E&Hc&Hr). destruct (dec_text_spec s) as (_&_&V). rewrite E in *.
  assert (L : 10 ^ N.of_nat (List.length r) <= s < 10 ^ N.of_nat (S (List.length r))).
  { change (c :: r) with ([c] ++ r) in V. rewrite dv_app in V. assert (T := dv_lt r Hr). rewrite Nat2N.inj_succ, N.pow_succ_r'.
    change (digits_value [c]) with (10 * 0 + (c - 48)) in V. revert V T. generalize (10 ^ N.of_nat (List.length r)) (digits_value r). intros. nia. }
  cbn [List.length].
  assert (N1 : N.of_nat (k - 1) < N.of_nat (S (List.length r))) by (apply (N.pow_lt_mono_r_iff 10); lia).
  assert (N2 : N.of_nat (List.length r) < N.of_nat k) by (apply (N.pow_lt_mono_r_iff 10); lia).
  lia.
Qed.

(** Two decimals at the same distance: the candidates around a number halfway, or neighbours of a candidate. *)
Lemma tie_candidates x j s s' : s = low x j \/ s = low x j + 1 -> s' <> s ->
  distance (numer s' j) (denom j) x = distance (numer s j) (denom j) x ->
  2 * ((x * denom j) mod numer 1 j) = numer 1 j /\ (s = low x j /\ s' = low x j + 1 \/ s = low x j + 1 /\ s' = low x j) \/
  numer (low x j) j = x * denom j /\ s = low x j + 1.
Proof.
  intros Hs Ns Ed. assert (P := numer1_pos j).
  assert (D := N.div_mod (x * denom j) (numer 1 j) ltac:(lia)). assert (R := N.mod_lt (x * denom j) (numer 1 j) ltac:(lia)).
  fold (low x j) in D. unfold distance in Ed. rewrite (numer_mul s'), (numer_mul s) in Ed. rewrite (numer_mul (low x j)).
  generalize dependent ((x * denom j) mod numer 1 j). intros r D R. generalize dependent (low x j). intros l Hs D.
  generalize dependent (numer 1 j). intros u P Ed D R.
  assert (E : (Z.of_N s' * Z.of_N u + Z.of_N s * Z.of_N u = 2 * (Z.of_N u * Z.of_N l + Z.of_N r))%Z).
  { destruct (N.eq_dec s' s); [contradiction|]. assert (Nu : s' * u <> s * u) by (rewrite N.mul_cancel_r; lia). lia. }
  destruct Hs as [-> | ->].
  - assert (s' = l + 1) by nia. subst s'. left. split; [nia|auto].
  - assert (X : s' = l \/ s' + 1 = l) by nia. destruct X as [-> |X].
    + left. split; [nia|auto].
    + right. split; [|reflexivity]. nia.
Qed.
Lemma one_tie x n s' : 0 < x -> x * denom n < numer 1 n -> s' <> 1 -> stands_for s' n x ->
  distance (numer s' n) (denom n) x = distance (numer 1 n) (denom n) x -> False.
Proof.
  intros Hx B Ns St Ed. assert (S0 : s' <> 0).
  { intros ->. apply stands_for_iff in St. rewrite round_decimal_eq in St. unfold numer in St. rewrite !N.mul_0_l in St.
    rewrite <- (N.mul_0_l (denom n)) in St. rewrite round_double in St; [lia|apply denom_pos|]. exists 0, 0. split; reflexivity. }
  unfold distance in Ed. rewrite (numer_mul s') in Ed. assert (P := numer1_pos n).
  generalize dependent (numer 1 n). intros u B Ed P. assert (G : 2 * u <= s' * u) by (apply N.mul_le_mono_r; lia). lia.
Qed.
Lemma shortest_digits_exist x : double x -> 0 < x -> x < overflow ->
  exists s k n, shortest_digits x s k n /\ positive_text x = place_point (dec_text s) n.
Proof.
  intros Dx H0 H1. destruct (point_pos_bounds x H0 H1) as [A B]. set (n := point_pos 640 x 310) in *.
  assert (SP := shortest_spec x n Dx H0 A B 17 1 ltac:(lia) eq_refl ltac:(intros k' Hk'; lia)).
  unfold positive_text. fold n. destruct (shortest 17 x n 1) as [s k]. destruct SP as (Hk&Hs&Hr&Hmin&Hl&Hh&Htie).
  set (j := (n - Z.of_nat k)%Z) in *. assert (SZ := low_size x n H0 A B k ltac:(lia)). fold j in SZ.
  assert (Least : forall s' k' j', 0 < s' < 10 ^ N.of_nat k' -> stands_for s' j' x -> (k <= k')%nat /\
     (k' = k -> (distance (numer s j) (denom j) x * Z.of_N (denom j') <= distance (numer s' j') (denom j') x * Z.of_N (denom j))%Z)).
  { intros s' k' j' Hs' St. apply stands_for_iff in St. symmetry in St.
    assert (Hk' : (0 < k')%nat) by (destruct k'; [cbn in Hs'; lia|lia]).
    assert (Cov := covered x n Dx H0 A B k' s' j' Hk' (proj2 Hs') St). cbv zeta in Cov. split.
    - destruct (Nat.le_gt_cases k k') as [L|L]; [exact L|]. destruct (Hmin k' ltac:(lia)) as [F1 F2]. destruct Cov as [[C _]|[C _]]; congruence.
    - intros ->. fold j in Cov. assert (PD' := denom_pos j'). destruct Cov as [[C D]|[C D]].
      + specialize (Hl C). eapply Z.le_trans; [|exact D]. apply Z.mul_le_mono_nonneg_r; [lia|exact Hl].
      + specialize (Hh C). eapply Z.le_trans; [|exact D]. apply Z.mul_le_mono_nonneg_r; [lia|exact Hh]. }
  destruct (s =? 10 ^ N.of_nat k) eqn:E.
  - apply N.eqb_eq in E. exists 1, 1%nat, (n + 1)%Z.
    assert (St1 : round_decimal 1 n = x).
    { rewrite <- Hr, E. replace (10 ^ N.of_nat k) with (1 * 10 ^ Z.to_N (Z.of_nat k)) by (rewrite N.mul_1_l; f_equal; lia).
      rewrite round_decimal_shift by lia. f_equal. lia. }
    assert (St : stands_for 1 n x) by (apply stands_for_iff; symmetry; exact St1).
    destruct (Least 1 1%nat n ltac:(cbn; lia) St) as [K1 _]. assert (k = 1%nat) by lia. subst k.
    split; [|reflexivity]. split; [cbn; lia|]. split; [lia|]. replace (n + 1 - Z.of_nat 1)%Z with n by lia. split; [exact St|].
    split; [|intros s' Ns St' Ed; exfalso; exact (one_tie x n s' H0 B Ns St' Ed)].
    intros s' k' j' Hs' St'. destruct (Least s' k' j' Hs' St') as [L1 L2]. split; [exact L1|]. intros Ek. specialize (L2 Ek).
    assert (PJ := denom_pos j). assert (PN := denom_pos n). assert (PJ' := denom_pos j').
    assert (ES := pow_step j n ltac:(lia)). replace (Z.to_N (n - j)) with 1 in ES by lia. rewrite N.pow_1_r in ES.
    assert (Edist : (distance (numer s j) (denom j) x * Z.of_N (denom n) = distance (numer 1 n) (denom n) x * Z.of_N (denom j))%Z).
    { rewrite E. change (10 ^ N.of_nat 1) with 10. rewrite (numer_mul 10 j).
      rewrite (Z.mul_comm _ (Z.of_N (denom n))), (Z.mul_comm _ (Z.of_N (denom j))), <- !distance_scale. unfold distance. f_equal. lia. }
    revert L2 Edist. generalize (distance (numer s j) (denom j) x) (distance (numer s' j') (denom j') x) (distance (numer 1 n) (denom n) x). intros ds ds' d1 L2 Edist.
    clear - L2 Edist PJ PN PJ'. apply Z.mul_le_mono_pos_r with (p := Z.of_N (denom j)); [lia|].
    apply Z.mul_le_mono_nonneg_r with (p := Z.of_N (denom n)) in L2; [|lia]. nia.
  - apply N.eqb_neq in E. exists s, k, n. split; [|reflexivity]. split; [lia|]. split; [lia|]. fold j. split; [apply stands_for_iff; symmetry; exact Hr|].
    split; [exact Least|]. intros s' Ns St' Ed. assert (St0 := proj1 (stands_for_iff _ _ _) St').
    destruct (tie_candidates x j s s' Hs Ns Ed) as [Tie|[Ex ->]].
    + destruct Tie as (E1&E2). apply Htie; [| |exact E1]; unfold low_ok, high_ok; fold j; apply N.eqb_eq.
      * destruct E2 as [[E2 E3]|[E2 E3]]; rewrite <- E2 || rewrite <- E3; congruence.
      * destruct E2 as [[E2 E3]|[E2 E3]]; rewrite <- E3 || rewrite <- E2; congruence.
    + exfalso. assert (L0 : low_ok x n k = true).
      { unfold low_ok. fold j. apply N.eqb_eq. rewrite round_decimal_eq. rewrite Ex. apply round_double; [apply denom_pos|exact Dx]. }
      specialize (Hl L0). assert (Z0 : distance (numer (low x j) j) (denom j) x = 0%Z) by (unfold distance; rewrite Ex; lia).
      rewrite Z0 in Hl. unfold distance in Hl. rewrite (numer_mul (low x j + 1)) in Hl. rewrite (numer_mul (low x j)) in Ex.
      assert (P := numer1_pos j). lia.
Qed.
Lemma place_point_written ds n : ds <> [] -> printed_as ds n (place_point ds n).
Proof.
  intros Hd. unfold place_point. set (k := Z.of_nat (List.length ds)).
  destruct ((k <=? n) && (n <=? 21))%Z eqn:C1.
  { apply andb_prop in C1. destruct C1 as [A B]. apply Z.leb_le in A, B. unfold zeros. replace (Z.to_nat (n - k)) with (Z.to_nat n - List.length ds)%nat by lia. apply wr_integer. lia. }
  destruct ((0 <? n) && (n <=? 21))%Z eqn:C2.
  { apply andb_prop in C2. destruct C2 as [A B]. apply Z.ltb_lt in A. apply Z.leb_le in B.
    assert (L : (n < k)%Z) by (apply andb_false_iff in C1; destruct C1 as [C1|C1]; apply Z.leb_gt in C1; lia).
    apply wr_point; [symmetry; apply firstn_skipn|rewrite firstn_length; lia|lia|]. intros E. apply (f_equal (@List.length N)) in E. rewrite skipn_length in E. cbn in E. lia. }
  destruct ((-6 <? n) && (n <=? 0))%Z eqn:C3.
  { apply andb_prop in C3. destruct C3 as [A B]. apply Z.ltb_lt in A. apply Z.leb_le in B. apply wr_small. lia. }
  assert (Hn : (n <= -6 \/ 21 < n)%Z).
  { apply andb_false_iff in C2, C3. destruct C2 as [C2|C2]; [apply Z.ltb_ge in C2|apply Z.leb_gt in C2; lia]. destruct C3 as [C3|C3]; [apply Z.ltb_ge in C3; lia|apply Z.leb_gt in C3; lia]. }
  destruct ds as [|d ds]; [contradiction|]. destruct ds as [|d' ds].
  - apply (wr_exp1 [d] n _ d Hn eq_refl eq_refl).
  - apply (wr_exp (d :: d' :: ds) n _ d (d' :: ds) Hn eq_refl ltac:(discriminate) eq_refl).
Qed.
(** The decimal a printed number stands for. *)
Lemma written_decimal s n t : 0 < s -> printed_as (dec_text s) n t ->
  exists i, (0 <= i)%Z /\ decimal t false (s * 10 ^ Z.to_N i) (n - Z.of_nat (List.length (dec_text s)) - i).
Proof.
  intros Hs W. destruct (dec_positive s Hs) as (c&r&E&Hc&Hr). destruct (dec_text_spec s) as (_&_&V). rewrite E in *. clear E.
  assert (Dc : digit c) by (unfold digit; lia).
  assert (Sg : exponent (lit "e" ++ (if (n - 1 <? 0)%Z then lit "-" else lit "+") ++ dec_text (Z.to_N (Z.abs (n - 1)))) (n - 1)).
  { destruct (dec_text_spec (Z.to_N (Z.abs (n - 1)))) as (N1&N2&N3).
    assert (Dg : digits (dec_text (Z.to_N (Z.abs (n - 1))))) by (apply all_digits_iff; unfold all_digits; destruct (dec_text (Z.to_N (Z.abs (n - 1)))); [contradiction|exact N2]).
    destruct (Z.ltb_spec (n - 1) 0) as [L|L].
    - replace (n - 1)%Z with (- Z.of_N (digits_value (dec_text (Z.to_N (Z.abs (n - 1))))))%Z at 2 by lia. apply ex_minus; [left; reflexivity|exact Dg].
    - replace (n - 1)%Z with (Z.of_N (digits_value (dec_text (Z.to_N (Z.abs (n - 1))))))%Z at 2 by lia. apply ex_plus; [left; reflexivity|right; reflexivity|exact Dg]. }
  inversion W as [Hn|a b Eab Ha Hn Hb|Hn|sg d Hn Ed Esg|sg d ds' Hn Ed Hd' Esg]; subst t.
  - set (z := (Z.to_nat n - List.length (c :: r))%nat). exists (Z.of_nat z). split; [lia|].
    assert (Dz : Forall digit (repeat 48 z)) by (apply Forall_forall; intros y Hy; apply repeat_spec in Hy; subst y; split; discriminate).
    assert (Vz : digits_value (repeat 48 z) = 0).
    { clear. induction z as [|z IH]; [reflexivity|]. change (repeat 48 (S z)) with ([48] ++ repeat 48 z). rewrite dv_app, IH. reflexivity. }
    assert (De := de_pos ((c :: r) ++ repeat 48 z) [] [] [] 0 (or_intror (ex_intro _ c (ex_intro _ (r ++ repeat 48 z) (conj eq_refl (conj Hc (proj2 (Forall_app _ _ _) (conj Hr Dz))))))) fr_none ex_none).
    rewrite !app_nil_r in De. rewrite dv_app, V, Vz, repeat_length, N.add_0_r in De. cbn [List.length] in De.
    replace (Z.to_N (Z.of_nat z)) with (N.of_nat z) by lia. replace (n - Z.of_nat (List.length (c :: r)) - Z.of_nat z)%Z with (0 - Z.of_nat 0)%Z by lia. exact De.
  - exists 0%Z. split; [lia|]. rewrite Z.sub_0_r, N.mul_1_r. destruct a as [|a0 a]; [cbn in Ha; lia|]. cbn [app] in Eab. injection Eab as <- Er. subst r. apply Forall_app in Hr. destruct Hr as [Hra Hrb].
    assert (De := de_pos (c :: a) (lit "." ++ b) b [] 0 (or_intror (ex_intro _ c (ex_intro _ a (conj eq_refl (conj Hc Hra))))) (fr_some b (conj Hb Hrb)) ex_none).
    rewrite app_nil_r in De. cbn [app] in De. rewrite V in De. replace (n - Z.of_nat (List.length (c :: a ++ b)))%Z with (0 - Z.of_nat (List.length b))%Z; [exact De|].
    cbn [List.length] in *. rewrite app_length. lia.
  - exists 0%Z. split; [lia|]. rewrite Z.sub_0_r, N.mul_1_r. set (z := Z.to_nat (- n)).
    assert (Dz : Forall digit (repeat 48 z)) by (apply Forall_forall; intros y Hy; apply repeat_spec in Hy; subst y; split; discriminate).
    assert (Vz : digits_value (repeat 48 z) = 0).
    { clear. induction z as [|z IH]; [reflexivity|]. change (repeat 48 (S z)) with ([48] ++ repeat 48 z). rewrite dv_app, IH. reflexivity. }
    assert (De := de_pos (lit "0") (lit "." ++ repeat 48 z ++ c :: r) (repeat 48 z ++ c :: r) [] 0 (or_introl eq_refl)
              (fr_some _ (conj (fun H => app_cons_not_nil _ _ _ (eq_sym H)) (proj2 (Forall_app _ _ _) (conj Dz (Forall_cons c Dc Hr))))) ex_none).
    rewrite app_nil_r in De. rewrite (dv_app (lit "0")), (dv_app (repeat 48 z)), Vz, V in De. change (digits_value (lit "0")) with 0 in De. rewrite !N.mul_0_l, !N.add_0_l in De.
    replace (n - Z.of_nat (List.length (c :: r)))%Z with (0 - Z.of_nat (List.length (repeat 48%N z ++ c :: r)))%Z; [exact De|]. rewrite app_length, repeat_length. lia.
  - exists 0%Z. split; [lia|]. rewrite Z.sub_0_r, N.mul_1_r. injection Ed as <- ->. subst sg.
    assert (De := de_pos [c] [] [] _ (n - 1) (or_intror (ex_intro _ c (ex_intro _ [] (conj eq_refl (conj Hc (Forall_nil _)))))) fr_none Sg).
    cbn [app] in De. rewrite V in De. cbn [app]. replace (n - Z.of_nat (List.length [c]))%Z with (n - 1 - Z.of_nat (List.length (@nil N)))%Z by (cbn; lia). exact De.
  - exists 0%Z. split; [lia|]. rewrite Z.sub_0_r, N.mul_1_r. injection Ed as <- ->. subst sg.
    assert (De := de_pos [c] (lit "." ++ ds') ds' _ (n - 1) (or_intror (ex_intro _ c (ex_intro _ [] (conj eq_refl (conj Hc (Forall_nil _)))))) (fr_some ds' (conj Hd' Hr)) Sg).
    cbn [app] in De. rewrite V in De. cbn [app].
    replace (n - Z.of_nat (List.length (c :: ds')))%Z with (n - 1 - Z.of_nat (List.length ds'))%Z by (cbn [List.length]; lia). exact De.
Qed.

(** ** Numbers and their texts *)
Theorem number_of_iff t x : number_of t = Some x <->
  exists neg d k m, decimal t neg d k /\ stands_for d k m /\ m < 2 ^ (1024 + 1074) /\ x = signed neg m.
Proof.
  unfold number_of. change (2 ^ (1024 + 1074)) with overflow. split.
  - destruct (decimal_of t) as [[[neg d] k]|] eqn:E; [|discriminate]. apply decimal_iff in E. destruct (N.ltb_spec (round_decimal d k) overflow) as [L|L]; [|discriminate].
    intros [= <-]. exists neg, d, k, (round_decimal d k). split; [exact E|]. split; [apply stands_for_iff; reflexivity|]. split; [exact L|]. destruct neg; reflexivity.
  - intros (neg&d&k&m&Hd&Hs&L&->). apply decimal_iff in Hd. rewrite Hd. apply stands_for_iff in Hs. subst m. apply N.ltb_lt in L. rewrite L. destruct neg; reflexivity.
Qed.
Lemma decimal_fun t neg d k neg' d' k' : decimal t neg d k -> decimal t neg' d' k' -> neg = neg' /\ d = d' /\ k = k'.
Proof. rewrite <- !decimal_iff. intros -> [= <- <- <-]. auto. Qed.
Lemma decimal_minus t d k : decimal t false d k -> decimal (lit "-" ++ t) true d k.
Proof. intros H. inversion H; subst. apply de_neg; assumption. Qed.

Lemma positive_text_decimal m : finite m -> 0 < m -> exists s n i, 0 < s /\ (0 <= i)%Z /\ printed_as (dec_text s) n (positive_text m) /\
  shortest_digits m s (List.length (dec_text s)) n /\ decimal (positive_text m) false (s * 10 ^ Z.to_N i) (n - Z.of_nat (List.length (dec_text s)) - i).
Proof.
  intros [Dm Lm] Hm. destruct (shortest_digits_exist m Dm Hm Lm) as (s&k&n&Hs&Et). assert (Hs' := Hs). destruct Hs' as (B&Hk&_).
  assert (P : 0 < s) by (assert (Q := pow10_pos (N.of_nat (k - 1))); lia).
  assert (W := place_point_written (dec_text s) n (proj1 (dec_text_spec s))). rewrite <- Et in W.
  destruct (written_decimal s n _ P W) as (i&Hi&D). rewrite (dec_length s k Hk B) in D. exists s, n, i. rewrite (dec_length s k Hk B). auto 10.
Qed.
Lemma positive_text_stands m : finite m -> 0 < m -> exists d k, decimal (positive_text m) false d k /\ stands_for d k m.
Proof.
  intros F Hm. destruct (positive_text_decimal m F Hm) as (s&n&i&Hs&Hi&W&S&D). do 2 eexists. split; [exact D|].
  apply stands_for_iff. rewrite round_decimal_shift by exact Hi. destruct S as (_&_&S&_). apply stands_for_iff in S. rewrite S. f_equal. lia.
Qed.
Lemma double_0 : double 0. Proof. exists 0, 0. split; reflexivity. Qed.
Lemma number_text_stands neg m : finite m -> exists neg' d k, decimal (number_text (signed neg m)) neg' d k /\ stands_for d k m /\ signed neg' m = signed neg m.
Proof.
  intros F. unfold number_text. destruct (N.eq_0_gt_0_cases m) as [->|Hm].
  - exists false, 0, 0%Z. split; [|split; [apply stands_for_iff; vm_compute; reflexivity|destruct neg; reflexivity]]. destruct neg; apply decimal_iff; reflexivity.
  - destruct (positive_text_stands m F Hm) as (d&k&D&S). exists neg, d, k. destruct neg; cbn [signed].
    + assert (E1 : (- Z.of_N m =? 0)%Z = false) by (apply Z.eqb_neq; lia). assert (E2 : (- Z.of_N m <? 0)%Z = true) by (apply Z.ltb_lt; lia). rewrite E1, E2.
      replace (Z.to_N (- - Z.of_N m)) with m by lia. split; [apply decimal_minus; exact D|auto].
    + assert (E1 : (Z.of_N m =? 0)%Z = false) by (apply Z.eqb_neq; lia). assert (E2 : (Z.of_N m <? 0)%Z = false) by (apply Z.ltb_ge; lia). rewrite E1, E2.
      rewrite N2Z.id. auto.
Qed.
(** Reading what was printed. *)
Theorem number_text_round_trip neg m : finite m -> number_of (number_text (signed neg m)) = Some (signed neg m).
Proof.
  intros F. destruct (number_text_stands neg m F) as (neg'&d&k&D&S&E). apply number_of_iff. exists neg', d, k, m.
  split; [exact D|]. split; [exact S|]. split; [exact (proj2 F)|]. symmetry. exact E.
Qed.
Theorem number_bigint_iff t z : number_bigint t = Some z <->
  exists neg d k m w, decimal t neg d k /\ stands_for d k m /\ m < 2 ^ (1024 + 1074) /\ m = w * 2 ^ 1074 /\ z = signed neg w.
Proof.
  unfold number_bigint. assert (U : (0 < Z.of_N unit1)%Z) by (assert (H := unit1_pos); lia). split.
  - destruct (number_of t) as [x|] eqn:E; [|discriminate]. destruct (Z.eqb_spec (x mod Z.of_N unit1) 0) as [M|M]; [|discriminate]. intros [= <-].
    apply number_of_iff in E. destruct E as (neg&d&k&m&A&B&C&->). exists neg, d, k, m, (m / unit1). split; [exact A|]. split; [exact B|]. split; [exact C|].
    apply Z.mod_divide in M; [|lia]. destruct M as [q Hq]. assert (Em : m = Z.to_N (Z.abs q) * unit1) by (destruct neg; cbn [signed] in Hq; clear - Hq U; nia).
    rewrite Em, N.div_mul by (assert (H := unit1_pos); lia). split; [reflexivity|]. rewrite <- Em, Hq, Z.div_mul by lia.
    clear - Hq U. assert (Hp : (0 <= Z.of_N m)%Z) by lia. destruct neg; cbn [signed] in *; [assert (q <= 0)%Z by nia|assert (0 <= q)%Z by nia]; lia.
  - intros (neg&d&k&m&w&A&B&C&Em&->). assert (E : number_of t = Some (signed neg m)) by (apply number_of_iff; exists neg, d, k, m; auto). rewrite E.
    assert (Es : signed neg m = (signed neg w * Z.of_N unit1)%Z) by (rewrite Em; destruct neg; cbn [signed]; rewrite N2Z.inj_mul; unfold unit1; lia).
    rewrite Es, Z.mod_mul, Z.div_mul by lia. reflexivity.
Qed.

Theorem number_text_renders neg m : finite m -> renders (signed neg m) (number_text (signed neg m)).
Proof.
  intros F. unfold number_text, signed. destruct (N.eq_dec m 0) as [->|Hm]; [destruct neg; exact re_zero|].
  destruct (positive_text_decimal m F ltac:(lia)) as (s&n&i&Hs&Hi&W&Sd&_).
  destruct neg.
  - assert (E1 : (- Z.of_N m =? 0)%Z = false) by (apply Z.eqb_neq; lia). assert (E2 : (- Z.of_N m <? 0)%Z = true) by (apply Z.ltb_lt; lia). rewrite E1, E2.
    replace (Z.to_N (- - Z.of_N m)) with m by lia. eapply re_neg; [lia|exact Sd|exact W].
  - assert (E1 : (Z.of_N m =? 0)%Z = false) by (apply Z.eqb_neq; lia). assert (E2 : (Z.of_N m <? 0)%Z = false) by (apply Z.ltb_ge; lia). rewrite E1, E2.
    rewrite N2Z.id. eapply re_pos; [lia|exact Sd|exact W].
Qed.
