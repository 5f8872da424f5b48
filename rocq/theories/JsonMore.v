(** More facts about JSON texts: nesting, objects, numbers, what the writers write, prefixes. *)
From Coq Require Import List Bool Arith NArith ZArith Lia Sorted.
From Coq Require Import Strings.String.
From Verif Require Import Res Text Inputs InputsFacts JsonText SpecJson JsonFacts.
Import ListNotations.
Local Open Scope N_scope.

(** ** Nesting *)
Section Depth.
  Context (number : text -> option json) (object : list (text * json) -> list (text * json)) (lone : bool).
  Notation value := (value number object lone).
  Notation elements := (elements number object lone).
  Notation members := (members number object lone).
  Lemma depth_mono :
    (forall d s v, value d s v -> forall d', (d <= d')%nat -> value d' s v) /\
    (forall d s l, elements d s l -> forall d', (d <= d')%nat -> elements d' s l) /\
    (forall d s l, members d s l -> forall d', (d <= d')%nat -> members d' s l).
  Proof.
    apply json_mut; intros; try (destruct d'; [lia|]); constructor; auto; match goal with H : forall d', _ -> _ |- _ => apply H; lia end.
  Qed.
  Lemma depth_length :
    (forall d s v, value d s v -> value (List.length s) s v) /\
    (forall d s l, elements d s l -> elements (List.length s) s l) /\
    (forall d s l, members d s l -> members (List.length s) s l).
  Proof.
    destruct depth_mono as (Mv&Me&Mm).
    apply json_mut.
    - intros d; constructor.
    - intros d; constructor.
    - intros d; constructor.
    - intros; constructor; assumption.
    - intros; constructor; assumption.
    - intros d w Hw. cbn. apply (v_array_empty number object lone). exact Hw.
    - intros d s l _ IH. cbn. apply (v_array number object lone). eapply Me; [exact IH|]. rewrite app_length. lia.
    - intros d w Hw. cbn. apply (v_object_empty number object lone). exact Hw.
    - intros d s l _ IH. cbn. apply (v_object number object lone). eapply Mm; [exact IH|]. rewrite app_length. lia.
    - intros d w s w' v H1 H2 _ IH. apply el_last; try assumption. eapply Mv; [exact IH|]. rewrite !app_length. lia.
    - intros d w s w' rest v l H1 H2 _ IH _ IH2. apply el_more; try assumption; [eapply Mv; [exact IH|]|eapply Me; [exact IH2|]]; rewrite !app_length; lia.
    - intros d w k s w1 w2 w3 x v H1 H2 H3 H4 Hk _ IH. apply me_last; try assumption. eapply Mv; [exact IH|]. rewrite !app_length. lia.
    - intros d w k s w1 w2 w3 rest x v l H1 H2 H3 H4 Hk _ IH _ IH2.
      apply me_more; try assumption; [eapply Mv; [exact IH|]|eapply Mm; [exact IH2|]]; rewrite !app_length; lia.
  Qed.
  Lemma document_length t v : (exists d, document number object lone d t v) <-> document number object lone (List.length t) t v.
  Proof.
    split; [|eauto]. intros (d&w&s&w'&->&H1&H2&Hv). exists w, s, w'. repeat (split; [auto|]).
    apply (proj1 depth_mono) with (d := List.length s); [apply (proj1 depth_length) with (d := d); exact Hv|]. rewrite !app_length. lia.
  Qed.
  (** A text that opens an array or object is no document when its end is missing. *)
  Lemma no_prefix d d' s v p q v' : value d s v -> (exists c r, s = c :: r /\ (c = 91 \/ c = 123)) ->
    s = p ++ q -> q <> [] -> ~ document number object lone d' p v'.
  Proof.
    intros Hv (c&r&Ec&Hc) Hs Hq (w&s'&w'&Hp&Hw&Hw'&Hv').
    assert (Hwnil : w = []).
    { destruct w as [|x w]; [reflexivity|]. exfalso. pose proof (Forall_inv Hw) as Hx. cbn beta in Hx. rewrite Hp in Hs. rewrite Hs in Ec. cbn [app] in Ec. injection Ec as -> _. lia. }
    subst w. cbn [app] in Hp. subst p.
    set (D := Nat.max d d').
    assert (Hv1 : value D s v) by (apply (proj1 depth_mono) with (d := d); [exact Hv|unfold D; lia]).
    assert (Hv2 : value D s' v') by (apply (proj1 depth_mono) with (d := d'); [exact Hv'|unfold D; lia]).
    destruct (proj1 (read_complete number object lone) _ _ _ Hv1) as [_ R1].
    destruct (proj1 (read_complete number object lone) _ _ _ Hv2) as [_ R2].
    set (n := (2 * List.length s + 2 * List.length s' + 1)%nat).
    specialize (R1 [] n ltac:(unfold n; lia)). specialize (R2 (w' ++ q) n ltac:(unfold n; lia)).
    rewrite app_nil_r in R1. rewrite Hs, <- app_assoc in R1.
    assert (S2 : safe s' (w' ++ q)).
    { intros Hn. exfalso. apply number_start in Hn as (x&y&->&Hx). rewrite Hs in Ec. injection Ec as -> _. unfold digit in Hx. lia. }
    rewrite (R1 ltac:(intros _; exact I)) in R2. specialize (R2 S2). injection R2 as _ R2. symmetry in R2. apply app_eq_nil in R2 as [_ R2]. contradiction.
  Qed.
End Depth.

(** ** Numbers *)
Lemma digits_ok t : Forall digit t <-> forallb is_digit t = true.
Proof. rewrite forallb_forall, Forall_forall. split; intros H c Hc; apply is_digit_iff; auto. Qed.
Lemma int_part_digits t : int_part t -> t <> [] /\ Forall digit t.
Proof.
  intros [->|(c&r&->&Hc&Hr)]; (split; [discriminate|]).
  - repeat constructor; discriminate.
  - constructor; [unfold digit; lia|exact Hr].
Qed.
Lemma int_part_all t : int_part t -> all_digits t = true.
Proof. intros H. apply int_part_digits in H as [Hn H]. unfold all_digits. destruct t; [congruence|]. apply digits_ok. exact H. Qed.
Lemma int_part_no_minus t : int_part t -> exists c r, t = c :: r /\ (c =? c_minus) = false.
Proof.
  intros H. apply int_part_digits in H as [Hn H]. destruct t as [|c r]; [congruence|]. exists c, r. split; [reflexivity|].
  inversion H as [|? ? Hc _]; subst. apply N.eqb_neq. unfold c_minus, digit in *. lia.
Qed.
Lemma int_value_token t z : int_value t z -> int_token t = Some z.
Proof.
  intros [u Hu|u Hu]; unfold int_token.
  - destruct (int_part_no_minus u Hu) as (c&r&->&Hc). rewrite Hc, (int_part_all _ Hu). reflexivity.
  - change (lit "-" ++ u) with (c_minus :: u). cbv beta iota. rewrite N.eqb_refl, (int_part_all _ Hu). reflexivity.
Qed.
Lemma token_digits s i f e : number_token (s ++ i ++ f ++ e) -> int_part i -> frac_part f -> exp_part e ->
  all_digits (i ++ f ++ e) = true -> f ++ e = [].
Proof.
  intros _ Hi Hf He H. assert (H' : Forall digit (i ++ f ++ e)).
  { apply digits_ok. unfold all_digits in H. destruct (i ++ f ++ e); [discriminate|exact H]. }
  apply Forall_app in H' as [_ H']. apply Forall_app in H' as [H1 H2].
  assert (Ef : f = []). { destruct Hf as [->|(ds&->&_)]; [reflexivity|]. cbn in H1. inversion H1 as [|? ? Hd _]; subst. unfold digit in Hd. lia. }
  assert (Ee : e = []).
  { destruct He as [->|(x&sg&ds&->&Hx&_)]; [reflexivity|]. destruct Hx as [-> | ->]; cbn in H2; inversion H2 as [|? ? Hd _]; subst; unfold digit in Hd; lia. }
  subst. reflexivity.
Qed.
Lemma token_int_value t z : number_token t -> int_token t = Some z -> int_value t z.
Proof.
  intros Ht H. assert (Ht0 := Ht). destruct Ht as (s&i&f&e&->&Hs&Hi&Hf&He).
  destruct Hs as [-> | ->].
  - cbn [app] in *. unfold int_token in H. assert (Hi' := Hi). apply int_part_no_minus in Hi' as (c&r&->&Hc). cbn [app] in H. rewrite Hc in H.
    change (c :: r ++ f ++ e) with ((c :: r) ++ f ++ e) in H. destruct (all_digits ((c :: r) ++ f ++ e)) eqn:Ea; [|discriminate].
    assert (E := token_digits [] (c :: r) f e Ht0 Hi Hf He Ea). rewrite E, app_nil_r in *. injection H as <-. apply iv_pos. exact Hi.
  - unfold int_token in H. change (lit "-" ++ i ++ f ++ e) with (c_minus :: i ++ f ++ e) in H. cbv beta iota in H. rewrite N.eqb_refl in H.
    destruct (all_digits (i ++ f ++ e)) eqn:Ea; [|discriminate].
    assert (E := token_digits (lit "-") i f e Ht0 Hi Hf He Ea). rewrite E, app_nil_r in *. injection H as <-. apply iv_neg. exact Hi.
Qed.
Lemma int_value_number_token t z : int_value t z -> number_token t.
Proof.
  intros [u Hu|u Hu].
  - exists [], u, [], []. rewrite !app_nil_r. split; [reflexivity|]. split; [auto|]. split; [exact Hu|]. split; left; reflexivity.
  - exists (lit "-"), u, [], []. rewrite !app_nil_r. split; [reflexivity|]. split; [auto|]. split; [exact Hu|]. split; left; reflexivity.
Qed.
Lemma token_has_digit t : number_token t -> existsb is_digit t = true.
Proof.
  intros (s&i&f&e&->&_&Hi&_). rewrite !existsb_app. assert (E : existsb is_digit i = true).
  { destruct Hi as [->|(c&r&->&Hc&_)]; [reflexivity|]. cbn. apply orb_true_intro. left. unfold is_digit. apply andb_true_intro. split; apply N.leb_le; lia. }
  rewrite E. destruct (existsb is_digit s); reflexivity.
Qed.
(** Decimal numerals have no leading zero. *)
Lemma dec_rev_last fuel : forall n, n < 2 ^ N.of_nat fuel -> (0 < fuel)%nat -> 0 < n -> exists r c, dec_rev fuel n = r ++ [c] /\ 49 <= c.
Proof.
  induction fuel as [|fuel IH]; intros n Hn Hf H0; [inversion Hf|]. cbn [dec_rev].
  pose proof (N.div_mod' n 10) as Hdm.
  destruct (N.eqb_spec (n / 10) 0) as [Hz|Hz].
  - exists [], (48 + n mod 10). split; [reflexivity|]. rewrite Hz in Hdm. revert Hdm. generalize (n mod 10). clear - H0. intros; lia.
  - assert (Hlt : n / 10 < 2 ^ N.of_nat fuel).
    { rewrite Nat2N.inj_succ, N.pow_succ_r' in Hn. apply N.div_lt_upper_bound; [discriminate|].
      eapply N.lt_le_trans; [exact Hn|]. apply N.mul_le_mono_r. discriminate. }
    assert (Hf' : (0 < fuel)%nat).
    { destruct fuel; [|apply Nat.lt_0_succ]. exfalso. change (n / 10 < 1) in Hlt. apply N.lt_1_r in Hlt. contradiction. }
    destruct (IH (n / 10) Hlt Hf') as (r&c&E&Hc); [revert Hz; generalize (n / 10); clear; intros; lia|].
    rewrite E. exists ((48 + n mod 10) :: r), c. split; [reflexivity|exact Hc].
Qed.
Lemma dec_int_part n : int_part (dec_text n).
Proof.
  destruct (N.eq_dec n 0) as [->|Hn]; [left; reflexivity|]. right.
  assert (Hs : n < 2 ^ N.of_nat (S (N.size_nat n))).
  { rewrite Nat2N.inj_succ, N.pow_succ_r'. pose proof (N.size_gt n) as H.
    assert (E : N.of_nat (N.size_nat n) = N.size n).
    { clear. destruct n as [|p]; [reflexivity|]. cbn [N.size_nat N.size]. induction p; cbn [Pos.size_nat Pos.size];
        [rewrite Nat2N.inj_succ, IHp; reflexivity|rewrite Nat2N.inj_succ, IHp; reflexivity|reflexivity]. }
    rewrite E. clear E. set (m := 2 ^ N.size n) in *. clearbody m. lia. }
  destruct (dec_rev_last _ n Hs ltac:(lia) ltac:(lia)) as (r&c&E&Hc). destruct (dec_text_spec n) as (_&Hd&_). apply digits_ok in Hd.
  unfold dec_text in *. rewrite E, rev_app_distr in *. cbn [rev app] in *. exists c, (rev r). inversion Hd as [|? ? H1 H2]; subst.
  split; [reflexivity|]. split; [unfold digit in H1; lia|exact H2].
Qed.
Lemma dec_z_value z : int_value (dec_text_z z) z.
Proof.
  unfold dec_text_z. destruct (Z.ltb_spec z 0) as [Hz|Hz].
  - change (c_minus :: dec_text (Z.to_N (- z))) with (lit "-" ++ dec_text (Z.to_N (- z))).
    assert (H := iv_neg _ (dec_int_part (Z.to_N (- z)))). destruct (dec_text_spec (Z.to_N (- z))) as (_&_&E). rewrite E in H.
    replace (- Z.of_N (Z.to_N (- z)))%Z with z in H by lia. exact H.
  - assert (H := iv_pos _ (dec_int_part (Z.to_N z))). destruct (dec_text_spec (Z.to_N z)) as (_&_&E). rewrite E in H.
    replace (Z.of_N (Z.to_N z))%Z with z in H by lia. exact H.
Qed.
Lemma dec_z_not_neg_zero z : text_eqb (dec_text_z z) (lit "-0") = false.
Proof.
  apply text_eqb_neq. intros H. assert (Hz := int_value_token _ _ (dec_z_value z)). rewrite H in Hz. cbn in Hz. injection Hz as <-. discriminate H.
Qed.
Lemma serde_number_dec huge z : (- 2 ^ 63 <= z < 2 ^ 64)%Z -> serde_number huge (dec_text_z z) = Some (JInt z).
Proof.
  intros Hz. unfold serde_number. rewrite (int_value_token _ _ (dec_z_value z)), dec_z_not_neg_zero.
  assert (E : is_64_bit z = true) by (unfold is_64_bit; apply andb_true_intro; split; [apply Z.leb_le|apply Z.ltb_lt]; apply Hz).
  rewrite E. reflexivity.
Qed.
Lemma js_number_dec round z : (Z.abs z <= 2 ^ 53)%Z -> js_number round (dec_text_z z) = Some (JInt z).
Proof.
  intros Hz. unfold js_number. rewrite (int_value_token _ _ (dec_z_value z)). apply Z.leb_le in Hz. rewrite Hz. reflexivity.
Qed.
(** The tokens of an integer: its numeral, and -0. *)
Lemma int_part_canonical t : int_part t -> dec_text (digits_value t) = t.
Proof.
  intros Ht. assert (G : forall t t', int_part t -> int_part t' -> digits_value t = digits_value t' -> t = t').
  { clear. 
    assert (Hpow : forall r a, fold_left (fun a c => 10 * a + (c - 48)) r a = a * 10 ^ N.of_nat (List.length r) + fold_left (fun a c => 10 * a + (c - 48)) r 0).
    { induction r as [|c r IH]; intros a; cbn [fold_left List.length]; [cbn; lia|]. rewrite IH, (IH (10 * 0 + _)).
      rewrite Nat2N.inj_succ, N.pow_succ_r'. generalize (10 ^ N.of_nat (List.length r)). intros. lia. }
    assert (Hlt : forall r, Forall digit r -> fold_left (fun a c => 10 * a + (c - 48)) r 0 < 10 ^ N.of_nat (List.length r)).
    { induction 1 as [|c r Hc Hr IH]; cbn [fold_left List.length]; [cbn; lia|]. rewrite Hpow, Nat2N.inj_succ, N.pow_succ_r'.
      revert IH. generalize (10 ^ N.of_nat (List.length r)) (fold_left (fun a c => 10 * a + (c - 48)) r 0). unfold digit in Hc. intros. nia. }
    assert (Heq : forall r r', List.length r = List.length r' -> Forall digit r -> Forall digit r' ->
              fold_left (fun a c => 10 * a + (c - 48)) r 0 = fold_left (fun a c => 10 * a + (c - 48)) r' 0 -> r = r').
    { induction r as [|c r IH]; intros [|c' r'] Hl H1 H2 E; try discriminate; [reflexivity|]. injection Hl as Hl.
      inversion H1 as [|? ? D1 D2]; subst. inversion H2 as [|? ? D1' D2']; subst. cbn [fold_left] in E. rewrite Hpow, (Hpow r') in E.
      assert (L1 := Hlt r D2). assert (L2 := Hlt r' D2'). rewrite <- Hl in *.
      assert (c = c' /\ fold_left (fun a c => 10 * a + (c - 48)) r 0 = fold_left (fun a c => 10 * a + (c - 48)) r' 0) as [-> E'].
      { revert E L1 L2. generalize (10 ^ N.of_nat (List.length r)) (fold_left (fun a c => 10 * a + (c - 48)) r 0) (fold_left (fun a c => 10 * a + (c - 48)) r' 0).
        unfold digit in *. intros P x y E L1 L2. assert (c - 48 = c' - 48) by nia. split; [lia|]. nia. }
      f_equal. apply IH; assumption. }
    assert (Hlen : forall c r, 49 <= c <= 57 -> Forall digit r -> 10 ^ N.of_nat (List.length r) <= digits_value (c :: r) < 10 ^ N.of_nat (S (List.length r))).
    { intros c r Hc Hr. unfold digits_value. cbn [fold_left]. rewrite Hpow. assert (L := Hlt r Hr). rewrite Nat2N.inj_succ, N.pow_succ_r'.
      revert L. generalize (10 ^ N.of_nat (List.length r)) (fold_left (fun a c => 10 * a + (c - 48)) r 0). intros. nia. }
    assert (Hpos : forall n, 0 < 10 ^ N.of_nat n). { intros n. assert (10 ^ N.of_nat n <> 0) by (apply N.pow_nonzero; discriminate). lia. }
    intros t t' [->|(c&r&->&Hc&Hr)] [->|(c'&r'&->&Hc'&Hr')] E.
    - reflexivity.
    - exfalso. assert (L := Hlen c' r' Hc' Hr'). rewrite <- E in L. cbn in L. specialize (Hpos (List.length r')). lia.
    - exfalso. assert (L := Hlen c r Hc Hr). rewrite E in L. cbn in L. specialize (Hpos (List.length r)). lia.
    - assert (L := Hlen c r Hc Hr). assert (L' := Hlen c' r' Hc' Hr'). rewrite E in L.
      assert (Hl : List.length r = List.length r').
      { destruct (Nat.lt_trichotomy (List.length r) (List.length r')) as [H|[H|H]]; [|exact H|]; exfalso.
        - assert (10 ^ N.of_nat (S (List.length r)) <= 10 ^ N.of_nat (List.length r')) by (apply N.pow_le_mono_r; lia). lia.
        - assert (10 ^ N.of_nat (S (List.length r')) <= 10 ^ N.of_nat (List.length r)) by (apply N.pow_le_mono_r; lia). lia. }
      apply Heq; [cbn; congruence| | |exact E]; constructor; auto; unfold digit; lia. }
  apply G; [apply dec_int_part|exact Ht|]. apply (dec_text_spec (digits_value t)).
Qed.
