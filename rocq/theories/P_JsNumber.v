(** Property theorems C75: JavaScript Numbers, in JSON, as public inputs and in the witness calculator.
    Vocabulary: SpecJsNumber.v. *)
From Coq Require Import List Bool Arith NArith ZArith Lia Permutation.
From Coq Require Import Strings.String Strings.Byte.
From Verif Require Import Res Bytes Text Utf8 Fld Zp Groups Bn254 CS CSFacts Qap SpecCore Core CoreFacts CoreMore P_Core
  R1cs SpecR1cs R1csFacts R1csJs R1csJsFacts P_R1cs Wtns SpecWtns WtnsFacts P_Wtns Circuit SpecCircuit CircuitFacts P_Circuit
  ArkSer ArkSerFacts P_Ser Sym SpecSym SymFacts P_Sym Inputs SpecInputs InputsFacts P_Inputs
  Combined SpecCombined CombinedFacts P_Combined Gcm SpecGcm GcmFacts P_Gcm FileSys Commands SpecCommands CommandsFacts
  PartialEncap P_Commands JsZkenc JsZkencFacts P_JsZkenc SpecJs C44Facts P_JsApi JsIff SpecBound P_Bound
  SpecNumerals P_Numerals WitnessCalc SpecWitnessCalc WitnessCalcFacts P_WitnessCalc JsFull SpecEndToEnd EndToEndFacts P_EndToEnd
  SpecJsReports P_JsReports P_EndToEndExact JsonText SpecJson JsonFacts JsonMore JsonObj JsonWrite P_Json
  JsNumber SpecJsNumber JsNumberFacts JsNumberText.
Import ListNotations.
Local Open Scope N_scope.

Lemma double_whole z : z <= 2 ^ 53 -> double (z * 2 ^ 1074).
Proof. intros H. apply double_high. exact H. Qed.
Lemma round_exact z : double (z * 2 ^ 1074) -> round_decimal z 0 = z * 2 ^ 1074.
Proof.
  intros H. rewrite round_decimal_eq. unfold numer, denom. change (Z.to_N 0) with 0. change (Z.to_N (- 0)) with 0. rewrite N.pow_0_r, N.mul_1_r.
  rewrite <- (N.mul_1_r (z * 2 ^ 1074)) at 1. apply round_double; [reflexivity|exact H].
Qed.
Lemma decimal_int t z : int_value t z -> exists neg, decimal t neg (Z.abs_N z) 0 /\ signed neg (Z.abs_N z) = z.
Proof.
  intros [u Hu|u Hu].
  - exists false. split; [|unfold signed; lia]. assert (D := de_pos u [] [] [] 0 Hu fr_none ex_none). cbn [app List.length] in D. rewrite !app_nil_r in D.
    replace (Z.abs_N (Z.of_N (digits_value u))) with (digits_value u) by lia. exact D.
  - exists true. split; [|unfold signed; lia]. assert (D := de_neg u [] [] [] 0 Hu fr_none ex_none). cbn [app List.length] in D. rewrite !app_nil_r in D.
    replace (Z.abs_N (- Z.of_N (digits_value u))) with (digits_value u) by lia. exact D.
Qed.
Lemma decimal_sign t neg d k : decimal t neg d k -> exists c r, t = c :: r /\ (c =? c_minus) = neg.
Proof.
  intros [i f fd e k' Hi _ _|i f fd e k' Hi _ _].
  - apply int_part_no_minus in Hi as (c&r&->&Hc). exists c, (r ++ f ++ e). split; [reflexivity|exact Hc].
  - exists 45, (i ++ f ++ e). split; reflexivity.
Qed.
Lemma js_of_number_value neg x : double x -> x < 2 ^ (1024 + 1074) -> js_value neg x (js_of_number (signed neg x)).
Proof.
  intros Dx Hx. unfold js_of_number. assert (U := unit1_pos). change (2 ^ 1074) with unit1 in *.
  assert (Ab : Z.abs (signed neg x) = Z.of_N x) by (unfold signed; destruct neg; lia). rewrite Ab.
  destruct ((signed neg x mod Z.of_N unit1 =? 0) && (Z.of_N x <=? 2 ^ 53 * Z.of_N unit1))%Z eqn:E.
  - apply andb_prop in E as [E1 E2]. apply Z.eqb_eq in E1. apply Z.leb_le in E2.
    assert (D : (Z.of_N unit1 | Z.of_N x)%Z).
    { apply Z.mod_divide in E1; [|lia]. unfold signed in E1. destruct neg; [apply Z.divide_opp_r in E1; rewrite Z.opp_involutive in E1|]; exact E1. }
    destruct D as [q Hq]. assert (Q0 : (0 <= q)%Z) by nia.
    assert (Ez : x = Z.to_N q * unit1) by lia.
    assert (Ed : (signed neg x / Z.of_N unit1)%Z = signed neg (Z.to_N q)).
    { unfold signed. rewrite Hq. destruct neg; [rewrite <- Z.mul_opp_l|]; rewrite Z.div_mul by lia; lia. }
    rewrite Ed. apply jv_whole; [exact Ez|]. assert (q <= 2 ^ 53)%Z by (change (2 ^ 53)%Z with 9007199254740992%Z in *; nia).
    change (2 ^ 53) with 9007199254740992. change (2 ^ 53)%Z with 9007199254740992%Z in *. lia.
  - apply jv_other; [|exact Hx|apply number_text_renders; split; [exact Dx|exact Hx]].
    intros z Ez. change (2 ^ 1074) with unit1 in Ez. apply andb_false_iff in E as [E|E].
    + exfalso. apply Z.eqb_neq in E. apply E. apply Z.mod_divide; [lia|]. rewrite Ez. unfold signed. destruct neg.
      * exists (- Z.of_N z)%Z. lia.
      * exists (Z.of_N z). lia.
    + apply Z.leb_gt in E. rewrite Ez in E. change (2 ^ 53) with 9007199254740992. change (2 ^ 53)%Z with 9007199254740992%Z in *. nia.
Qed.

(** JSON.parse of a number token: the double nearest to its decimal value, ties to even. *)
Theorem C75_json_numbers :
  forall t neg d k x, decimal t neg d k -> stands_for d k x ->
    exists v, js_number js_round t = Some v /\ js_json_parse js_round t = Some v /\ js_value neg x v.
Proof.
  intros t neg d k x Hd Hs. assert (Dx : double x) by apply Hs.
  assert (G : exists v, js_number js_round t = Some v /\ js_value neg x v).
  { assert (R : js_value neg x (js_round t)).
    { unfold js_round, number_of. rewrite (proj2 (decimal_iff t neg d k) Hd). apply stands_for_iff in Hs. rewrite <- Hs.
      destruct (x <? overflow) eqn:E.
      - apply N.ltb_lt in E. apply (js_of_number_value neg x Dx E).
      - apply N.ltb_ge in E. destruct (decimal_sign t neg d k Hd) as (c&r&->&Hc). rewrite Hc.
        assert (J := jv_large neg x E). destruct neg; exact J. }
    unfold js_number. eexists. split; [reflexivity|]. destruct (int_token t) as [z|] eqn:Ei; [|exact R].
    destruct (Z.abs z <=? 2 ^ 53)%Z eqn:Ez; [|exact R]. apply Z.leb_le in Ez.
    assert (Hn : number_token t) by (apply token_decimal; eauto). apply (token_int_value t z Hn) in Ei.
    destruct (decimal_int t z Ei) as (neg'&Hd'&Hz). destruct (decimal_fun _ _ _ _ _ _ _ Hd Hd') as (->&->&->).
    assert (Hz' : Z.abs_N z <= 2 ^ 53) by (change (2 ^ 53) with 9007199254740992; change (2 ^ 53)%Z with 9007199254740992%Z in Ez; lia).
    apply stands_for_iff in Hs. rewrite (round_exact _ (double_whole _ Hz')) in Hs.
    rewrite <- Hz. apply jv_whole; [exact Hs|exact Hz']. }
  destruct G as (v&Hv&Hj). exists v. split; [exact Hv|]. split; [|exact Hj].
  apply C60_js_reads_exactly. exists 0%nat, [], t, []. split; [rewrite app_nil_r; reflexivity|]. split; [constructor|]. split; [constructor|].
  apply v_number; [apply token_decimal; eauto|exact Hv].
Qed.
Print Assumptions C75_json_numbers.

(** A rendering stands for the number it renders. *)
Lemma rendered_decimal z t : renders z t -> exists neg d k, decimal t neg d k /\ stands_for d k (Z.abs_N z) /\ signed neg (Z.abs_N z) = z.
Proof.
  assert (G : forall x s k n t, 0 < x -> shortest_digits x s k n -> printed_as (dec_text s) n t -> exists d j, decimal t false d j /\ stands_for d j x).
  { intros x s k n u Hx (Hs&Hk&St&_) Hp. assert (P := pow10_pos (N.of_nat (k - 1))).
    destruct (written_decimal s n u ltac:(lia) Hp) as (i&Hi&D). rewrite (dec_length s k Hk Hs) in D. eexists _, _. split; [exact D|].
    apply stands_for_iff. rewrite round_decimal_shift by exact Hi. apply stands_for_iff in St. rewrite St. f_equal. lia. }
  intros [|x s k n u Hx Hs Hp|x s k n u Hx Hs Hp].
  - exists false, 0, 0%Z. split; [apply (de_pos (lit "0") [] [] [] 0 (or_introl eq_refl) fr_none ex_none)|]. split; [|reflexivity].
    apply stands_for_iff. rewrite (round_exact 0); [reflexivity|]. apply double_whole. discriminate.
  - destruct (G x s k n u Hx Hs Hp) as (d&j&D&S). exists false, d, j. replace (Z.abs_N (Z.of_N x)) with x by lia. split; [exact D|]. split; [exact S|reflexivity].
  - destruct (G x s k n u Hx Hs Hp) as (d&j&D&S). exists true, d, j. replace (Z.abs_N (- Z.of_N x)) with x by lia. split; [apply decimal_minus; exact D|]. split; [exact S|reflexivity].
Qed.
(** A Number survives its text: toString and JSON.stringify write a shortest text that stands for it,
    any such text is read back as the same Number, and two Numbers never share a text. *)
Theorem C75_text_round_trip :
  (forall neg x, finite x -> renders (signed neg x) (number_text (signed neg x))) /\
  (forall z t, renders z t -> exists neg d k, decimal t neg d k /\ stands_for d k (Z.abs_N z) /\ signed neg (Z.abs_N z) = z) /\
  (forall z z' t, renders z t -> renders z' t -> z = z').
Proof.
  split; [intros; apply number_text_renders; assumption|]. split; [apply rendered_decimal|].
  intros z z' t H H'. apply rendered_decimal in H as (neg&d&k&D&S&E), H' as (neg'&d'&k'&D'&S'&E').
  destruct (decimal_fun _ _ _ _ _ _ _ D D') as (->&->&->). apply stands_for_iff in S, S'. rewrite <- S in S'. congruence.
Qed.
Print Assumptions C75_text_round_trip.

(** Every finite Number is data that JSON.stringify writes and JSON.parse reads back (C61). *)
Theorem C75_stringify_parse :
  forall neg x, finite x -> exists v, js_value neg x v /\ js_data js_round v /\ js_json_parse js_round (stringify v) = Some v.
Proof.
  intros neg x [Dx Hx]. exists (js_of_number (signed neg x)). assert (J := js_of_number_value neg x Dx Hx). split; [exact J|].
  assert (G : js_data js_round (js_of_number (signed neg x))); [|split; [exact G|apply C61_parse_stringify; exact G]]. unfold js_of_number in *.
  destruct ((signed neg x mod Z.of_N unit1 =? 0) && (Z.abs (signed neg x) <=? 2 ^ 53 * Z.of_N unit1))%Z eqn:E.
  - inversion J as [z Hz Hz' Eq| |]. apply jd_int. assert (Eq' : (signed neg x / Z.of_N unit1)%Z = signed neg z) by (symmetry; exact Eq). rewrite Eq'. change (2 ^ 53) with 9007199254740992 in Hz'. change (2 ^ 53)%Z with 9007199254740992%Z. unfold signed. destruct neg; lia.
  - assert (Sm : forall z, x = z * 2 ^ 1074 -> 2 ^ 53 < z).
    { inversion J as [z Hz Hz' Eq|t Hs Hlt Hr Eq|Hl Eq]; [exact Hs|]. exfalso. apply N.lt_nge in Hx. contradiction. }
    destruct (number_text_stands neg x (conj Dx Hx)) as (neg'&d&k&D&S&Es).
    apply jd_float.
    + apply token_decimal. eauto.
    + intros z Hz. destruct (decimal_int _ _ Hz) as (neg2&D2&E2). destruct (decimal_fun _ _ _ _ _ _ _ D D2) as (->&->&->).
      apply stands_for_iff in S. change (2 ^ 53)%Z with 9007199254740992%Z. destruct (Z.le_gt_cases (Z.abs z) 9007199254740992) as [L|L]; [exfalso|exact L].
      assert (Lz : Z.abs_N z <= 2 ^ 53) by (change (2 ^ 53) with 9007199254740992; lia).
      rewrite (round_exact _ (double_whole _ Lz)) in S. specialize (Sm _ S). apply N.lt_nge in Sm. contradiction.
    + unfold js_round. rewrite (number_text_round_trip neg x (conj Dx Hx)). unfold js_of_number. rewrite E. reflexivity.
Qed.
Print Assumptions C75_stringify_parse.

(** ** Whole Numbers beyond 2^53 *)
Lemma ten21_double : double (10 ^ 21 * 2 ^ 1074).
Proof. exists (5 ^ 21), (21 + 1074). split; [reflexivity|]. rewrite N.pow_add_r, N.mul_assoc. f_equal. Qed.
Lemma round_up_mono a i b : numer a i <= numer b 0 * denom i -> round_decimal a i <= round_decimal b 0.
Proof. intros H. rewrite !round_decimal_eq. apply round_mono; [apply denom_pos|reflexivity|]. change (denom 0) with 1. lia. Qed.
Lemma round_whole_mono a b : a <= b -> round_decimal a 0 <= round_decimal b 0.
Proof. intros H. apply round_up_mono. change (denom 0) with 1. rewrite N.mul_1_r, (numer_mul a), (numer_mul b). apply N.mul_le_mono_r. exact H. Qed.
Lemma pow10_le a b : a <= b -> 10 ^ a <= 10 ^ b.
Proof. intros H. apply N.pow_le_mono_r; [discriminate|exact H]. Qed.

(** The digits of a whole Number are those of a whole number. *)
Lemma whole_digits w s k n : double (w * 2 ^ 1074) -> 2 ^ 53 < w -> shortest_digits (w * 2 ^ 1074) s k n ->
  (Z.of_nat k <= n)%Z /\ round_decimal (s * 10 ^ Z.to_N (n - Z.of_nat k)) 0 = w * 2 ^ 1074 /\
  10 ^ Z.to_N (n - 1) <= s * 10 ^ Z.to_N (n - Z.of_nat k) < 10 ^ Z.to_N n /\
  ((n <= 21)%Z <-> w < 10 ^ 21).
Proof.
  intros Dw Hw Sd. assert (U := unit1_pos). change (2 ^ 1074) with unit1 in *. assert (Rw := round_exact w Dw). change (2 ^ 1074) with unit1 in Rw.
  assert (Sd' := Sd). destruct Sd' as (Hs&Hk&St&Hmin&_). apply stands_for_iff in St. change (2 ^ 53) with 9007199254740992 in Hw.
  assert (Kn : (Z.of_nat k <= n)%Z).
  { destruct (Z.le_gt_cases (Z.of_nat k) n) as [L|L]; [exact L|exfalso]. set (j := (n - Z.of_nat k)%Z) in *.
    assert (Ej : numer s j = s * unit1) by (unfold numer; replace (Z.to_N j) with 0 by (unfold j; lia); rewrite N.pow_0_r, N.mul_1_r; reflexivity).
    destruct (Z.le_gt_cases n 0) as [N0|N0].
    - assert (R1 := round_exact 1 (double_whole 1 ltac:(discriminate))). change (2 ^ 1074) with unit1 in R1.
      assert (Le : round_decimal s j <= round_decimal 1 0).
      { apply round_up_mono. rewrite Ej. change (numer 1 0) with unit1. rewrite (N.mul_comm unit1). apply N.mul_le_mono_r. unfold denom.
        apply N.le_trans with (10 ^ N.of_nat k); [lia|]. apply pow10_le. unfold j. lia. }
      rewrite <- St, R1 in Le. clear - Le U Hw. nia.
    - assert (P0 : 0 < w) by lia. destruct (dec_positive w P0) as (c&r&Ew&_). set (K := List.length (dec_text w)).
      assert (KP : (0 < K)%nat) by (unfold K; rewrite Ew; cbn; lia).
      assert (Bw : 10 ^ N.of_nat (K - 1) <= w < 10 ^ N.of_nat K).
      { assert (V := proj2 (proj2 (dec_text_spec w))). unfold K. rewrite Ew in *. assert (D' := dec_positive w P0). destruct D' as (c'&r'&E'&Hc'&Hr'). rewrite Ew in E'. injection E' as <- <-.
        change (c :: r) with ([c] ++ r) in V. rewrite dv_app in V. assert (T := dv_lt r Hr'). cbn [List.length]. replace (S (List.length r) - 1)%nat with (List.length r) by lia.
        rewrite Nat2N.inj_succ, N.pow_succ_r'. assert (Dc : digits_value [c] = c - 48) by (unfold digits_value; cbn; lia). rewrite Dc in V.
        generalize dependent (10 ^ N.of_nat (List.length r)). intros p V T. clear - V T Hc'. nia. }
      destruct (Hmin w K 0%Z ltac:(lia)) as [KK _]; [apply stands_for_iff; symmetry; exact Rw|].
      assert (Le : 10 ^ Z.to_N n <= w) by (apply N.le_trans with (10 ^ N.of_nat (K - 1)); [apply pow10_le; lia|lia]).
      assert (Lo : round_decimal s j <= round_decimal (10 ^ Z.to_N n) 0).
      { apply round_up_mono. rewrite Ej, (numer_mul (10 ^ _)). change (numer 1 0) with unit1. unfold denom.
        replace (10 ^ Z.to_N n * unit1 * 10 ^ Z.to_N (- j)) with (10 ^ Z.to_N n * 10 ^ Z.to_N (- j) * unit1) by lia. apply N.mul_le_mono_r.
        rewrite <- N.pow_add_r. apply N.le_trans with (10 ^ N.of_nat k); [lia|]. apply pow10_le. unfold j. lia. }
      assert (Hi := round_whole_mono _ _ Le). assert (E1 : round_decimal (10 ^ Z.to_N n) 0 = w * unit1) by lia.
      destruct (Hmin 1 1%nat n ltac:(cbn; lia)) as [K1 _]; [|lia]. apply stands_for_iff. rewrite <- E1.
      rewrite <- (N.mul_1_l (10 ^ Z.to_N n)). rewrite round_decimal_shift by lia. reflexivity. }
  split; [exact Kn|].
  assert (Rp : round_decimal (s * 10 ^ Z.to_N (n - Z.of_nat k)) 0 = w * unit1).
  { rewrite round_decimal_shift by lia. rewrite St. f_equal. }
  split; [exact Rp|].
  assert (Bp : 10 ^ Z.to_N (n - 1) <= s * 10 ^ Z.to_N (n - Z.of_nat k) < 10 ^ Z.to_N n).
  { replace (Z.to_N (n - 1)) with (N.of_nat (k - 1) + Z.to_N (n - Z.of_nat k)) by lia. assert (En : 10 ^ Z.to_N n = 10 ^ N.of_nat k * 10 ^ Z.to_N (n - Z.of_nat k)) by (rewrite <- N.pow_add_r; f_equal; lia).
    rewrite En, !N.pow_add_r. assert (P := pow10_pos (Z.to_N (n - Z.of_nat k))). split; [apply N.mul_le_mono_r; lia|apply N.mul_lt_mono_pos_r; [exact P|lia]]. }
  split; [exact Bp|].
  assert (R21 := round_exact _ ten21_double). change (2 ^ 1074) with unit1 in R21.
  set (p := s * 10 ^ Z.to_N (n - Z.of_nat k)) in *. split; intros H.
  - destruct (N.lt_ge_cases w (10 ^ 21)) as [L|L]; [exact L|exfalso].
    assert (Lp : p < 10 ^ 21) by (apply N.lt_le_trans with (10 ^ Z.to_N n); [lia|]; apply pow10_le; lia).
    assert (A := round_whole_mono p (10 ^ 21) ltac:(lia)). rewrite Rp, R21 in A. assert (Ew : w = 10 ^ 21).
    { apply N.le_antisymm; [|exact L]. apply N.mul_le_mono_pos_r with (p := unit1); [exact U|exact A]. }
    destruct (Hmin 1 1%nat 21%Z ltac:(cbn; lia)) as [K1 K2]; [apply stands_for_iff; rewrite Ew; symmetry; exact R21|].
    assert (k = 1%nat) by lia. subst k. specialize (K2 eq_refl).
    assert (Z0 : distance (numer 1 21) (denom 21) (w * unit1) = 0%Z).
    { unfold distance. rewrite Ew. unfold numer, denom, unit1. change (Z.to_N 21) with 21. change (Z.to_N (- (21))) with 0. rewrite N.pow_0_r. lia. }
    rewrite Z0 in K2. unfold distance in K2. change (denom 21) with 1 in K2.
    assert (Dn : denom (n - Z.of_nat 1) = 1) by (unfold denom; replace (Z.to_N (- (n - Z.of_nat 1))) with 0 by lia; reflexivity).
    rewrite Dn in K2. assert (En : numer s (n - Z.of_nat 1) = p * unit1) by reflexivity. rewrite En in K2.
    assert (Ep : p * unit1 = w * unit1) by lia. apply N.mul_cancel_r in Ep; lia.
  - destruct (Z.le_gt_cases n 21) as [L|L]; [exact L|exfalso].
    assert (Lp : 10 ^ 21 <= p) by (apply N.le_trans with (10 ^ Z.to_N (n - 1)); [apply pow10_le; lia|lia]).
    assert (A := round_whole_mono _ _ Lp). rewrite Rp, R21 in A. apply N.mul_le_mono_pos_r in A; [|exact U]. lia.
Qed.

Lemma plus_first t z : bigint_text t z -> In 43 t -> exists p r, Forall blank p /\ t = p ++ 43 :: r.
Proof.
  assert (B : forall p, Forall blank p -> ~ In 43 p).
  { intros p Hp Hi. rewrite Forall_forall in Hp. apply Hp in Hi. unfold blank in Hi. cbn [In] in Hi.
    destruct Hi as [Hi|[Hi|Hi]]; [lia| |lia]. repeat (destruct Hi as [Hi|Hi]; [discriminate Hi|]). exact Hi. }
  assert (C : forall d, ~ digit_char 43 d) by (intros d H; apply digit_char_range in H; lia).
  assert (D : forall r s v, spelled r s v -> ~ In 43 s).
  { intros r s v H. induction H as [c d Hd Hr|s v c d Hs IH Hd Hr]; intros Hi.
    - destruct Hi as [->|[]]. exact (C _ Hd).
    - apply in_app_or in Hi as [Hi|[->|[]]]; [exact (IH Hi)|]. exact (C _ Hd). }
  intros H Hi. inversion H as [s Hs|p l q z' Hp Hl Hq]; subst; [destruct (B _ Hs Hi)|].
  apply in_app_or in Hi as [Hi|Hi]; [destruct (B _ Hp Hi)|]. apply in_app_or in Hi as [Hi|Hi]; [|destruct (B _ Hq Hi)].
  inversion Hl as [s v Hs|s v Hs|s v Hs|x s v Hx Hs|x s v Hx Hs|x s v Hx Hs]; subst;
    try (exfalso; repeat (destruct Hi as [Hi|Hi]; [try discriminate Hi; try (subst x; destruct Hx; discriminate)|]); exact (D _ _ _ Hs Hi)).
  exists p, (s ++ q). split; [exact Hp|reflexivity].
Qed.
Lemma no_bigint u c r : u = c :: r -> 45 <= c <= 57 -> In 43 u -> forall z, ~ bigint_text u z.
Proof.
  intros -> Hc Hi z Hb. destruct (plus_first _ _ Hb Hi) as (p&q&Hp&E). destruct p as [|d p].
  - injection E as -> _. lia.
  - injection E as <- _. inversion Hp as [|d' p' Hd _]. unfold blank in Hd. cbn [In] in Hd.
    destruct Hd as [Hd|[Hd|Hd]]; [lia| |lia]. repeat (destruct Hd as [Hd|Hd]; [lia|]). exact Hd.
Qed.
Lemma digits_spelled t : digits t -> spelled 10 t (digits_value t).
Proof.
  intros [Hn Hd]. apply decimal_spelled. split; [exact Hn|]. split; [|reflexivity]. apply forallb_forall. intros x Hx.
  rewrite Forall_forall in Hd. apply is_digit_range. apply Hd. exact Hx.
Qed.
Lemma literal_text l y : integer_literal l y -> bigint_text l y.
Proof. intros Hl. assert (H := bt_literal [] l [] y (Forall_nil _) Hl (Forall_nil _)). rewrite app_nil_r in H. exact H. Qed.
Lemma dv_zeros n : digits_value (repeat 48 n) = 0.
Proof. induction n as [|n IH]; [reflexivity|]. change (repeat 48 (S n)) with ([48] ++ repeat 48 n). rewrite dv_app, IH. reflexivity. Qed.
Lemma printed_whole w s k n u : double (w * 2 ^ 1074) -> 2 ^ 53 < w -> shortest_digits (w * 2 ^ 1074) s k n -> printed_as (dec_text s) n u ->
  (w < 10 ^ 21 -> digits u /\ digits_value u = s * 10 ^ Z.to_N (n - Z.of_nat k)) /\
  (10 ^ 21 <= w -> exists c r, u = c :: r /\ 45 <= c <= 57 /\ In 43 u).
Proof.
  intros Dw Hw Sd Hp. destruct (whole_digits w s k n Dw Hw Sd) as (Kn&_&_&H21). destruct Sd as (Hs&Hk&_).
  assert (Ps : 0 < s) by (assert (P := pow10_pos (N.of_nat (k - 1))); lia).
  assert (Ln := dec_length s k Hk Hs). destruct (dec_positive s Ps) as (c&r&Ec&Hc&Hr).
  assert (V := proj2 (proj2 (dec_text_spec s))).
  split; intros L.
  - apply H21 in L. destruct Hp as [Hn|a b Eab Ea Hn Hb|Hn|sg d Hn Ed Es|sg d ds' Hn Ed Hd Es]; [| |lia|lia|lia].
    + rewrite Ln. split.
      * split; [rewrite Ec; discriminate|]. apply Forall_app. split; [rewrite Ec; constructor; [unfold digit; lia|exact Hr]|].
        apply Forall_forall. intros x Hx. apply repeat_spec in Hx. subst x. split; discriminate.
      * rewrite dv_app, V, dv_zeros, repeat_length, N.add_0_r. f_equal. f_equal. lia.
    + exfalso. rewrite Eab, app_length in Ln. destruct b; [contradiction|]. cbn [List.length] in Ln. lia.
  - assert (Hn21 : (21 < n)%Z) by (destruct (Z.le_gt_cases n 21) as [A|A]; [apply H21 in A; lia|exact A]).
    destruct Hp as [Hn|a b Eab Ea Hn Hb|Hn|sg d Hn Ed Es|sg d ds' Hn Ed Hd Es]; [lia|lia|lia| |];
      (assert (Sg : sg = lit "+") by (rewrite Es; destruct (Z.ltb_spec (n - 1) 0); [lia|reflexivity])); rewrite Sg, Ec in *; injection Ed as -> E'.
    + exists d, (lit "e" ++ lit "+" ++ dec_text (Z.to_N (Z.abs (n - 1)))). split; [reflexivity|]. split; [lia|]. right. right. left. reflexivity.
    + exists d, (lit "." ++ ds' ++ lit "e" ++ lit "+" ++ dec_text (Z.to_N (Z.abs (n - 1)))). split; [reflexivity|]. split; [lia|].
      right. right. apply (in_or_app ds' (101 :: 43 :: dec_text (Z.to_N (Z.abs (n - 1))))). right. right. left. reflexivity.
Qed.

Lemma renders_split neg x u : 0 < x -> renders (signed neg x) u -> exists s k n t, shortest_digits x s k n /\ printed_as (dec_text s) n t /\ u = (if neg then lit "-" else []) ++ t.
Proof.
  intros Hx H. remember (signed neg x) as y eqn:Ey. destruct H as [|x' s k n t Hx' Hs Hp|x' s k n t Hx' Hs Hp]; unfold signed in Ey; destruct neg; try lia.
  - assert (x' = x) by lia. subst x'. exists s, k, n, t. auto.
  - assert (x' = x) by lia. subst x'. exists s, k, n, t. auto.
Qed.

(** A whole Number beyond 2^53, given as an input: the witness calculator takes its exact value; encap,
    which goes through the text, takes the printed integer below 10^21 and refuses it from there on. *)
Theorem C75_whole_numbers :
  forall neg w u, 2 ^ 53 < w -> finite (w * 2 ^ 1074) -> renders (signed neg (w * 2 ^ 1074)) u ->
    (forall z, whole_number (JFloat u) z <-> z = signed neg w) /\
    (w < 10 ^ 21 -> exists p, printed_integer w p /\ forall z, bigint_text u z <-> z = signed neg p) /\
    (10 ^ 21 <= w -> forall z, ~ bigint_text u z).
Proof.
  intros neg w u Hw [Dw Fw] Hr. assert (U := unit1_pos). assert (Hx : 0 < w * 2 ^ 1074) by (apply N.mul_pos_pos; [lia|exact U]).
  split.
  - assert (A : whole_number (JFloat u) (signed neg w)).
    { destruct (rendered_decimal _ _ Hr) as (neg'&d&k&D&S&Es).
      assert (Ab : Z.abs_N (signed neg (w * 2 ^ 1074)) = w * 2 ^ 1074) by (unfold signed; destruct neg; lia). rewrite Ab in *.
      assert (neg' = neg) by (unfold signed in Es; destruct neg', neg; (reflexivity || lia)). subst neg'.
      exact (wn_number u neg d k _ w D S Fw eq_refl). }
    intros z. split; [intros B; eapply whole_number_fun; eassumption|intros ->; exact A].
  - destruct (renders_split neg _ u Hx Hr) as (s&k&n&t&Sd&Hp&Eu). destruct (printed_whole w s k n t Dw Hw Sd Hp) as [P1 P2]. split; intros L.
    + destruct (P1 L) as [Dt Vt]. exists (s * 10 ^ Z.to_N (n - Z.of_nat k)). split.
      * exists s, k, n. split; [exact Sd|]. split; [apply (whole_digits w s k n Dw Hw Sd)|reflexivity].
      * rewrite <- Vt. assert (B : bigint_text u (signed neg (digits_value t))).
        { subst u. apply literal_text. destruct neg; cbn [app]; [apply il_minus|apply il_decimal]; apply digits_spelled; exact Dt. }
        intros z. split; [intros H; eapply C57_one_reading; eassumption|intros ->; exact B].
    + destruct (P2 L) as (c&r&Et&Hc&Hi). destruct neg; cbn [app] in Eu.
      * apply (no_bigint u 45 t Eu); [split; discriminate|]. rewrite Eu. right. exact Hi.
      * subst u. eapply no_bigint; [exact Et|exact Hc|exact Hi].
Qed.
Print Assumptions C75_whole_numbers.

(** encap and the calculator read the same number exactly if the printed digits are its
    value. *)
Lemma printed_unique neg w u p : 2 ^ 53 < w -> finite (w * 2 ^ 1074) -> renders (signed neg (w * 2 ^ 1074)) u -> w < 10 ^ 21 ->
  bigint_text u (signed neg p) -> printed_integer w p.
Proof.
  intros Hw F Hr L Hb. destruct (C75_whole_numbers neg w u Hw F Hr) as (_&A&_). destruct (A L) as (p'&Hp'&Hz).
  apply Hz in Hb. assert (p = p') by (unfold signed in Hb; destruct neg; lia). subst p'. exact Hp'.
Qed.
Theorem C75_exact_iff :
  forall neg w u, 2 ^ 53 < w -> finite (w * 2 ^ 1074) -> renders (signed neg (w * 2 ^ 1074)) u ->
    (exact_text u <-> 10 ^ 21 <= w \/ bigint_text u (signed neg w)).
Proof.
  intros neg w u Hw F Hr. destruct (C75_whole_numbers neg w u Hw F Hr) as (Hn&A&B). split.
  - intros He. destruct (N.lt_ge_cases w (10 ^ 21)) as [L|L]; [right|left; exact L]. destruct (A L) as (p&_&Hz).
    rewrite <- (He (signed neg p) (signed neg w)); [apply Hz; reflexivity|apply Hz; reflexivity|apply Hn; reflexivity].
  - intros [L|Hb] z z' Hz Hz'; [destruct (B L z Hz)|]. apply Hn in Hz'. subst z'. eapply C57_one_reading; eassumption.
Qed.
Print Assumptions C75_exact_iff.

(** The neighbourhood that is rounded to a whole Number beyond 2^53. *)
Lemma rounded_close w p : double (w * 2 ^ 1074) -> 2 ^ 53 < w -> round_decimal p 0 = w * 2 ^ 1074 ->
  2 ^ 53 * (p - w) <= w /\ 2 ^ 53 * (w - p) <= w.
Proof.
  intros Dw Hw Rp. assert (U := unit1_pos). change (2 ^ 1074) with unit1 in *. destruct (canonical _ Dw) as (m&e&Ex&Hm&Hn).
  assert (He := pow2_pos e).
  assert (M52 : 2 ^ 52 <= m).
  { destruct Hn as [->|H]; [exfalso|exact H]. rewrite N.pow_0_r, N.mul_1_r in Ex. change (2 ^ 53) with 9007199254740992 in *. nia. }
  assert (Nr : nearest (p * unit1) 1 (w * unit1)).
  { assert (S := proj2 (stands_for_iff p 0 (w * unit1)) (eq_sym Rp)). unfold stands_for, numer, denom in S. change (Z.to_N 0) with 0 in S. change (Z.to_N (- 0)) with 0 in S.
    rewrite N.pow_0_r, N.mul_1_r in S. exact S. }
  destruct Nr as (_&Mi&_). unfold distance in Mi.
  assert (A := Mi _ (double_high (m + 1) e ltac:(lia))). assert (B := Mi _ (double_high (m - 1) e ltac:(lia))). rewrite Ex in A, B.
  assert (Em : Z.of_N ((m - 1) * 2 ^ e) = (Z.of_N (m * 2 ^ e) - Z.of_N (2 ^ e))%Z) by (change (2 ^ 52) with 4503599627370496 in M52; nia).
  assert (Ep : Z.of_N ((m + 1) * 2 ^ e) = (Z.of_N (m * 2 ^ e) + Z.of_N (2 ^ e))%Z) by lia.
  rewrite Em in B. rewrite Ep in A. rewrite <- Ex in A, B.
  assert (Big : 2 ^ 52 * 2 ^ e <= w * unit1) by (rewrite Ex; apply N.mul_le_mono_r; exact M52).
  change (2 ^ 52) with 4503599627370496 in Big. change (2 ^ 53) with 9007199254740992.
  clear - A B Big U He. set (q := 2 ^ e) in *. clearbody q. set (un := unit1) in *. clearbody un.
  assert (A' : 2 * (p * un) <= 2 * (w * un) + q) by lia. assert (B' : 2 * (w * un) <= 2 * (p * un) + q) by lia.
  split.
  - apply N.mul_le_mono_pos_r with (p := un); [exact U|]. destruct (N.le_gt_cases p w) as [L|L].
    + replace (p - w) with 0 by lia. lia.
    + replace (9007199254740992 * (p - w) * un) with (9007199254740992 * (p * un - w * un)) by nia. lia.
  - apply N.mul_le_mono_pos_r with (p := un); [exact U|]. destruct (N.le_gt_cases w p) as [L|L].
    + replace (w - p) with 0 by lia. lia.
    + replace (9007199254740992 * (w - p) * un) with (9007199254740992 * (w * un - p * un)) by nia. lia.
Qed.
(** Up to 15 significant digits, the digits are the value. *)
Theorem C75_fifteen_digits :
  forall neg w u s i, 2 ^ 53 < w < 10 ^ 21 -> finite (w * 2 ^ 1074) -> renders (signed neg (w * 2 ^ 1074)) u ->
    w = s * 10 ^ i -> s < 10 ^ 15 -> bigint_text u (signed neg w).
Proof.
  intros neg w u s i [Hw L] F Hr Ew Hs. destruct (C75_whole_numbers neg w u Hw F Hr) as (_&A&_). destruct (A L) as (p&Hp&Hz). apply Hz. f_equal.
  destruct Hp as (s'&k&n&Sd&Kn&Ep). destruct (whole_digits w s' k n (proj1 F) Hw Sd) as (_&Rp&_). rewrite <- Ep in Rp.
  destruct (rounded_close w p (proj1 F) Hw Rp) as [C1 C2].
  destruct Sd as (Hs'&Hk&St&Hmin&_).
  assert (K15 : (k <= 15)%nat).
  { apply (Hmin s 15%nat (Z.of_N i)).
    - split; [|exact Hs]. destruct s; [rewrite Ew in Hw; discriminate Hw|reflexivity].
    - apply stands_for_iff. rewrite <- (round_exact w (proj1 F)), Ew. replace i with (Z.to_N (Z.of_N i)) at 1 by lia.
      rewrite round_decimal_shift by lia. reflexivity. }
  assert (S15 : s' < 10 ^ 15) by (apply N.lt_le_trans with (10 ^ N.of_nat k); [lia|]; apply pow10_le; lia).
  set (i' := Z.to_N (n - Z.of_nat k)) in *. clear - Ew Hs Ep S15 C1 C2.
  change (2 ^ 53) with 9007199254740992 in *. change (10 ^ 15) with 1000000000000000 in *.
  destruct (N.le_gt_cases i i') as [I|I].
  - replace i' with (i' - i + i) in Ep by lia. rewrite N.pow_add_r, N.mul_assoc in Ep. assert (P := pow10_pos i).
    generalize dependent (10 ^ i). intros g Ew Ep P. generalize dependent (s' * 10 ^ (i' - i)). intros b Ep. subst w p.
    rewrite <- N.mul_sub_distr_r in C1, C2. nia.
  - replace i with (i - i' + i') in Ew by lia. rewrite N.pow_add_r, N.mul_assoc in Ew. assert (P := pow10_pos i').
    generalize dependent (10 ^ i'). intros g Ew Ep P. generalize dependent (s * 10 ^ (i - i')). intros b Ew. subst w p.
    rewrite <- N.mul_sub_distr_r in C1, C2. nia.
Qed.
Print Assumptions C75_fifteen_digits.

(** A public input whose digits are not its value is lost: encap and encrypt accept it, and decap and
    decrypt with the same inputs never succeed.  [u] is the text left on a public wire, by a Number. *)
Lemma below_modulus a b : a < 10 ^ 21 -> b < 10 ^ 21 -> fr (Z.of_N a mod 2 ^ 256) = fr (Z.of_N b) -> a = b.
Proof.
  intros A B H. change (10 ^ 21) with 1000000000000000000000 in A, B. rewrite Z.mod_small in H by (change (2 ^ 256)%Z with 115792089237316195423570985008687907853269984665640564039457584007913129639936%Z; lia).
  apply zp_eq_iff in H. rewrite !Z.mod_small in H by (change bn_r with 21888242871839275222246405745257275088548364400416034343698204186575808495617%Z; lia). lia.
Qed.
Lemma lost_reading sym pub n_pub name u w wire : 2 ^ 53 < w -> finite (w * 2 ^ 1074) -> renders (Z.of_N (w * 2 ^ 1074)) u ->
  w < 10 ^ 21 -> ~ bigint_text u (Z.of_N w) ->
  1 <= wire <= n_pub -> (forall j, 1 <= j <= wire -> exists t, leaves sym pub j t) -> leaves sym pub wire u ->
  doc_leaf pub name (JFloat u) -> js_wires sym name = Some wire -> ~ same_reading sym pub n_pub.
Proof.
  intros Hw F Hr L Hn H1 H2 H3 Hd Hwi Hs. destruct (C75_whole_numbers false w u Hw F Hr) as (Hz&A&_). destruct (A L) as (p&Hp&Hb).
  assert (Hbp : bigint_text u (Z.of_N p)) by (apply Hb; reflexivity).
  assert (Hbi : binds sym pub n_pub wire (Z.of_N p)) by (split; [exact H1|]; split; [exact H2|]; exists u; auto).
  assert (E := Hs wire (Z.of_N p) Hbi name (JFloat u) (Z.of_N w) Hd Hwi ltac:(apply Hz; reflexivity)).
  destruct Hp as (s&k&n&Sd&_&Ep). destruct (whole_digits w s k n (proj1 F) Hw Sd) as (_&_&Bp&H21). apply H21 in L as Ln.
  apply below_modulus in E; [subst w; contradiction| |exact L].
  rewrite Ep. apply N.lt_le_trans with (10 ^ Z.to_N n); [apply Bp|]. apply pow10_le. lia.
Qed.
Theorem C75_lost_inputs :
  forall (E : pairingT Fr) (C : codecT E) (D : domainT Fr) (kdf : GT E -> key) (aes : cipherT) stringify W fuel
         co cb sym pub full m r ins name u w wire,
    compiled m r ins (js_wires sym) -> circuit_file cb r -> js_usable r -> factors_below (r_n_wires r) (r_constraints r) ->
    fits_encrypt W fuel cb sym -> fits_calculated W fuel cb r ->
    shaped_doc ins full -> solves m full -> incl pub full ->
    2 ^ 53 < w -> finite (w * 2 ^ 1074) -> renders (Z.of_N (w * 2 ^ 1074)) u -> w < 10 ^ 21 -> ~ bigint_text u (Z.of_N w) ->
    1 <= wire <= r_n_pub_out r + r_n_pub_in r -> (forall j, 1 <= j <= wire -> exists t, leaves sym pub j t) -> leaves sym pub wire u ->
    doc_leaf pub name (JFloat u) -> js_wires sym name = Some wire ->
    (forall ctb k k', js_encap E C D kdf W fuel co cb sym pub = Ok (ctb, k) -> decap_inputs E C kdf W fuel m cb ctb full <> Ok k') /\
    (forall message inc f k a message',
       (forall g, List.length (kdf g) = 32%nat) -> List.length (c_nonce co) = 12%nat -> (inc = true -> blen (stringify pub) < 2 ^ 32) ->
       js_encrypt E C D kdf aes stringify W fuel co cb sym pub message inc = Ok (f, k) -> jb_valid a -> jb_window a = f ->
       decrypt_inputs E C kdf aes W fuel m cb a full <> Ok message').
Proof.
  intros E C D kdf aes stringify W fuel co cb sym pub full m r ins name u w wire Hc Hcf Hu Hfb Hf1 Hf2 Hsh Hso Hin Hw F Hr L Hn H1 H2 H3 Hd Hwi.
  assert (No := lost_reading sym pub _ name u w wire Hw F Hr L Hn H1 H2 H3 Hd Hwi). split.
  - intros ctb k k' He X. apply (C56_js_decap_iff E C D kdf W fuel co cb sym pub full ctb k m r ins k' Hc Hcf Hu Hfb Hf1 Hf2 He Hsh Hso Hin) in X. destruct X as [_ X]. contradiction.
  - intros message inc f k a message' Hk Hco Hq He Hva Hwa X.
    apply (C56_js_decrypt_iff E C D kdf aes stringify W fuel co cb sym pub full message inc f k m r ins a message' Hk Hco Hq Hc Hcf Hu Hfb Hf1 Hf2 He Hsh Hso Hin Hva Hwa) in X.
    destruct X as [_ X]. contradiction.
Qed.
Print Assumptions C75_lost_inputs.

(** An integer literal between 2^53 and 2^64: the CLI reads it exactly, JavaScript as the nearest
    double. *)
Theorem C75_cli_and_js_literals :
  forall huge t z, int_value t z -> (2 ^ 53 < z < 2 ^ 64)%Z ->
    serde_number huge t = Some (JInt z) /\
    exists x v, stands_for (Z.to_N z) 0 x /\ js_value false x v /\ js_number js_round t = Some v.
Proof.
  intros huge t z Hz B. assert (Hn := int_value_number_token t z Hz). destruct (C60_integers t z Hn Hz) as [A _]. split.
  - apply A; [split; [apply Z.le_trans with 0%Z; [discriminate|]; apply Z.le_trans with (2 ^ 53)%Z; [discriminate|lia]|apply B]|]. intros ->.
    apply int_value_token in Hz. cbn in Hz. injection Hz as <-. destruct B as [B _]. discriminate B.
  - destruct (decimal_int t z Hz) as (neg&D&E). assert (P : (0 < z)%Z) by (apply Z.lt_trans with (2 ^ 53)%Z; [reflexivity|apply B]).
    assert (neg = false) by (unfold signed in E; destruct neg; [lia|reflexivity]). subst neg.
    replace (Z.abs_N z) with (Z.to_N z) in D by lia.
    assert (S : stands_for (Z.to_N z) 0 (round_decimal (Z.to_N z) 0)) by (apply stands_for_iff; reflexivity).
    destruct (C75_json_numbers t false _ 0 _ D S) as (v&Hv&_&Hj). exists (round_decimal (Z.to_N z) 0), v. auto.
Qed.
Print Assumptions C75_cli_and_js_literals.

(** The hypotheses are met: the JSON text 600009999999999934464 is a Number that prints as
    600010000000000000000; it is a square in the field and so solves the y * y = x circuit, encrypt accepts it
    as the public input, and decrypt never opens the file. *)
Definition ex_lost : N := 600009999999999934464.
Definition ex_root : text := lit "21119503111766403535109528051078286754407674276734583800034662498568048427698".
Lemma lost_finite : finite (ex_lost * 2 ^ 1074).
Proof. split; [exists 4577713012695312, (17 + 1074); split; [reflexivity|rewrite N.pow_add_r; reflexivity]|vm_compute; reflexivity]. Qed.
Lemma lost_text : number_text (Z.of_N (ex_lost * 2 ^ 1074)) = lit "600010000000000000000".
Proof.
  assert (H0 : (Z.of_N (ex_lost * 2 ^ 1074) =? 0)%Z = false) by (vm_compute; reflexivity).
  assert (H1 : (Z.of_N (ex_lost * 2 ^ 1074) <? 0)%Z = false) by (vm_compute; reflexivity).
  unfold number_text. rewrite H0, H1, N2Z.id. unfold positive_text.
  rewrite (point_pos_at (ex_lost * 2 ^ 1074) 21); [vm_compute; reflexivity|discriminate|reflexivity|vm_compute; reflexivity|vm_compute; reflexivity].
Qed.
Lemma lost_renders : renders (Z.of_N (ex_lost * 2 ^ 1074)) (lit "600010000000000000000").
Proof. rewrite <- lost_text. apply (number_text_renders false). exact lost_finite. Qed.
Example C75_nonvacuous :
  (exists x, number_of (lit "600009999999999934464") = Some x /\ x = Z.of_N (ex_lost * 2 ^ 1074) /\ js_of_number x = JFloat (lit "600010000000000000000")) /\
  js_json_parse js_round (lit "[1e400, 9007199254740993, 1e-400]") = Some (JArr [JFloat (lit "Infinity"); JInt 9007199254740992; JInt 0]) /\
  forall (aes : cipherT) (inc : bool) (stringify : list (text * json) -> list byte), (forall kvs, blen (stringify kvs) < 2 ^ 32) ->
    exists f k,
      js_encrypt fr_pairing ex_codec bn_domain ex_kdf32 aes stringify (2 ^ 32) 1000 ex_coins ex_circuit_file ex_sym_text
        [(lit "x", JFloat (lit "600010000000000000000"))] [x68; x69] inc = Ok (f, k) /\
      forall message, decrypt_inputs fr_pairing ex_codec ex_kdf32 aes (2 ^ 32) 1000 ex_wmodule ex_circuit_file (whole f)
        [(lit "x", JFloat (lit "600010000000000000000")); (lit "y", JStr ex_root)] <> Ok message.
Proof.
  split.
  { eexists. split; [vm_compute; reflexivity|]. split; [vm_compute; reflexivity|]. transitivity (JFloat (number_text (Z.of_N (ex_lost * 2 ^ 1074)))); [|rewrite lost_text; reflexivity].
    unfold js_of_number. set (c := (_ && _)%bool). assert (E : c = false) by (vm_compute; reflexivity). rewrite E. reflexivity. }
  split; [vm_compute; reflexivity|]. intros aes inc stringify Hq.
  assert (Hkdf : forall g, List.length (ex_kdf32 g) = 32%nat) by (intros g; apply le_bytes_length).
  assert (Hfe : fits_encrypt (2 ^ 32) 1000 ex_circuit_file ex_sym_text) by (repeat split; vm_compute; auto; discriminate).
  assert (Hfc : fits_calculated (2 ^ 32) 1000 ex_circuit_file ex_circuit) by (repeat split; vm_compute; auto; discriminate).
  assert (Hde : c_delta ex_coins <> f0) by (intros Hd; apply (proj2 (feqb_true Fr _ _)) in Hd; vm_compute in Hd; discriminate).
  assert (Hu : js_usable ex_circuit) by (split; vm_compute; auto; discriminate).
  assert (Hfb : factors_below (r_n_wires ex_circuit) (r_constraints ex_circuit)) by (repeat constructor).
  assert (Hms : blen [x68; x69] <= gcm_limit) by (vm_compute; discriminate).
  assert (Bt : bigint_text (lit "600010000000000000000") 600010000000000000000) by (apply C57_bigint_texts; vm_compute; reflexivity).
  assert (Fi : finite (ex_lost * 2 ^ 1074)) by exact lost_finite.
  assert (Wn : whole_number (JFloat (lit "600010000000000000000")) (Z.of_N ex_lost)) by (apply (C75_whole_numbers false ex_lost _ eq_refl Fi lost_renders); reflexivity).
  destruct (js_encrypt_from_map fr_pairing ex_codec bn_domain ex_kdf32 aes stringify (2 ^ 32) 1000 ex_coins ex_circuit_file ex_sym_text
    [(lit "x", JFloat (lit "600010000000000000000"))] [x68; x69] inc ex_circuit Hkdf eq_refl Hde ex_circuit_is_file Hfe) as (f&k&He); [|exact Hms|].
  { exists [(1, lit "600010000000000000000")]. split; [reflexivity|]. intros w t Ht. cbn [nm_get] in Ht.
    destruct (w =? 1); [|discriminate]. assert (t = lit "600010000000000000000") by congruence. subst t. exists 600010000000000000000%Z. apply C57_bigint_texts. exact Bt. }
  exists f, k. split; [exact He|]. intros message.
  assert (Lv : leaves ex_sym_text [(lit "x", JFloat (lit "600010000000000000000"))] 1 (lit "600010000000000000000")).
  { exists [], (lit "x"), (JFloat (lit "600010000000000000000")), []. split; [reflexivity|]. split; [reflexivity|]. split; [reflexivity|]. intros ? ? []. }
  refine (proj2 (C75_lost_inputs fr_pairing ex_codec bn_domain ex_kdf32 aes stringify (2 ^ 32) 1000 ex_coins ex_circuit_file ex_sym_text
    [(lit "x", JFloat (lit "600010000000000000000"))] [(lit "x", JFloat (lit "600010000000000000000")); (lit "y", JStr ex_root)] ex_wmodule ex_circuit ex_ins
    (lit "x") (lit "600010000000000000000") ex_lost 1 ex_compiled ex_circuit_is_file Hu Hfb Hfe Hfc _ _ _ eq_refl Fi lost_renders eq_refl _ _ _ Lv _ eq_refl)
    [x68; x69] inc f k (whole f) message Hkdf eq_refl (fun _ => Hq _) He _ (window_whole f)).
  - intros k' v [H|[H|[]]]; injection H as <- <-; exists []; (split; [cbn; auto|constructor; discriminate]).
  - apply (ex_solves_numbers (Z.of_N ex_lost) 21119503111766403535109528051078286754407674276734583800034662498568048427698); [exact Wn|constructor; apply C57_bigint_texts; vm_compute; reflexivity|].
    apply (proj1 (feqb_true Fr _ _)). vm_compute. reflexivity.
  - intros e [<-|[]]. left. reflexivity.
  - intros H. assert (X := C57_one_reading _ _ _ H Bt). discriminate X.
  - split; [discriminate|]. vm_compute. discriminate.
  - intros j Hj. assert (j = 1) by lia. subst j. eexists. exact Lv.
  - exists (lit "x"), (JFloat (lit "600010000000000000000")). split; [left; reflexivity|]. apply leaf_here. discriminate.
  - unfold jb_valid, whole. cbn [jb_offset jb_length jb_buffer]. apply N.le_refl.
Qed.
