(** UTF-8: what std::fs::read_to_string accepts (commands.rs:41, 48, 177, 184) and what
    str::as_bytes gives back (commands.rs:237).  Standard library code, written out from the
    Unicode standard's table 3-7. *)
From Coq Require Import List Bool Arith NArith Lia.
From Coq Require Import Strings.Byte.
From Verif Require Import Res Bytes Text.
Import ListNotations.
Local Open Scope N_scope.

Definition in_range (lo hi : N) (b : byte) : bool := (lo <=? Byte.to_N b) && (Byte.to_N b <=? hi).
Definition cont (b : byte) : bool := in_range 128 191 b.
Definition low6 (b : byte) : N := Byte.to_N b - 128.

Fixpoint utf8_decode_fuel (fuel : nat) (bs : list byte) : option text :=
  match fuel with
  | O => match bs with [] => Some [] | _ => None end
  | S fuel =>
    match bs with
    | [] => Some []
    | b0 :: r =>
      if in_range 0 127 b0 then option_map (cons (Byte.to_N b0)) (utf8_decode_fuel fuel r)
      else if in_range 194 223 b0 then
        match r with
        | b1 :: r =>
          if cont b1 then option_map (cons ((Byte.to_N b0 - 192) * 64 + low6 b1)) (utf8_decode_fuel fuel r) else None
        | _ => None
        end
      else if in_range 224 239 b0 then
        match r with
        | b1 :: b2 :: r =>
          if in_range (if Byte.to_N b0 =? 224 then 160 else 128) (if Byte.to_N b0 =? 237 then 159 else 191) b1 && cont b2
          then option_map (cons (((Byte.to_N b0 - 224) * 64 + low6 b1) * 64 + low6 b2)) (utf8_decode_fuel fuel r) else None
        | _ => None
        end
      else if in_range 240 244 b0 then
        match r with
        | b1 :: b2 :: b3 :: r =>
          if in_range (if Byte.to_N b0 =? 240 then 144 else 128) (if Byte.to_N b0 =? 244 then 143 else 191) b1 && cont b2 && cont b3
          then option_map (cons ((((Byte.to_N b0 - 240) * 64 + low6 b1) * 64 + low6 b2) * 64 + low6 b3)) (utf8_decode_fuel fuel r)
          else None
        | _ => None
        end
      else None
    end
  end.
Definition utf8_decode (bs : list byte) : option text := utf8_decode_fuel (length bs) bs.

Definition utf8_char (c : N) : list byte :=
  if c <? 128 then [byte_of c]
  else if c <? 2048 then [byte_of (192 + c / 64); byte_of (128 + c mod 64)]
  else if c <? 65536 then [byte_of (224 + c / 4096); byte_of (128 + (c / 64) mod 64); byte_of (128 + c mod 64)]
  else [byte_of (240 + c / 262144); byte_of (128 + (c / 4096) mod 64); byte_of (128 + (c / 64) mod 64); byte_of (128 + c mod 64)].
Definition utf8_encode (t : text) : list byte := flat_map utf8_char t.

(** Unicode scalar values. *)
Definition scalar (c : N) : Prop := c < 55296 \/ 57344 <= c < 1114112.

Lemma to_N_byte_of_small n : n < 256 -> Byte.to_N (byte_of n) = n.
Proof. intros H. rewrite to_N_byte_of. apply N.mod_small. exact H. Qed.

Lemma in_range_iff lo hi b : in_range lo hi b = true <-> lo <= Byte.to_N b <= hi.
Proof. unfold in_range. rewrite andb_true_iff, !N.leb_le. reflexivity. Qed.
Lemma in_range_false lo hi b : in_range lo hi b = false <-> Byte.to_N b < lo \/ hi < Byte.to_N b.
Proof. unfold in_range. rewrite andb_false_iff, !N.leb_gt. reflexivity. Qed.

Lemma byte_eq_of b n : Byte.to_N b = n -> byte_of n = b.
Proof. intros <-. apply byte_of_to_N. Qed.

Lemma char2 a b : 2 <= a < 32 -> b < 64 -> utf8_char (a * 64 + b) = [byte_of (192 + a); byte_of (128 + b)].
Proof.
  intros Ha Hb. unfold utf8_char.
  assert (E1 : a * 64 + b <? 128 = false) by (apply N.ltb_ge; lia).
  assert (E2 : a * 64 + b <? 2048 = true) by (apply N.ltb_lt; lia). rewrite E1, E2.
  assert (D : (a * 64 + b) / 64 = a) by (rewrite N.div_add_l, N.div_small by lia; lia).
  assert (M : (a * 64 + b) mod 64 = b) by (rewrite N.add_comm, N.mod_add, N.mod_small by lia; reflexivity).
  rewrite D, M. reflexivity.
Qed.
Lemma div_64 a b : b < 64 -> (a * 64 + b) / 64 = a.
Proof. intros H. rewrite N.div_add_l, N.div_small by lia. lia. Qed.
Lemma mod_64 a b : b < 64 -> (a * 64 + b) mod 64 = b.
Proof. intros H. rewrite N.add_comm, N.mod_add, N.mod_small by lia. reflexivity. Qed.
Lemma div_4096 n : n / 4096 = (n / 64) / 64.
Proof. rewrite N.div_div by lia. reflexivity. Qed.
Lemma div_262144 n : n / 262144 = ((n / 64) / 64) / 64.
Proof. rewrite !N.div_div by lia. reflexivity. Qed.
Lemma char3 a b c : b < 64 -> c < 64 -> 2048 <= (a * 64 + b) * 64 + c < 65536 ->
  utf8_char ((a * 64 + b) * 64 + c) = [byte_of (224 + a); byte_of (128 + b); byte_of (128 + c)].
Proof.
  intros Hb Hc Hr. unfold utf8_char. set (n := (a * 64 + b) * 64 + c) in *.
  rewrite (proj2 (N.ltb_ge n 128)), (proj2 (N.ltb_ge n 2048)), (proj2 (N.ltb_lt n 65536)) by lia.
  rewrite div_4096. subst n. rewrite !mod_64, !div_64, !mod_64 by assumption. reflexivity.
Qed.
Lemma char4 a b c d : b < 64 -> c < 64 -> d < 64 -> 65536 <= ((a * 64 + b) * 64 + c) * 64 + d ->
  utf8_char (((a * 64 + b) * 64 + c) * 64 + d) = [byte_of (240 + a); byte_of (128 + b); byte_of (128 + c); byte_of (128 + d)].
Proof.
  intros Hb Hc Hd Hr. unfold utf8_char. set (n := ((a * 64 + b) * 64 + c) * 64 + d) in *.
  rewrite (proj2 (N.ltb_ge n 128)), (proj2 (N.ltb_ge n 2048)), (proj2 (N.ltb_ge n 65536)) by lia.
  rewrite div_262144, div_4096. subst n. rewrite !mod_64, !div_64, !mod_64 by assumption. reflexivity.
Qed.

Lemma pick_le (b : bool) x y lo : lo <= x -> lo <= y -> lo <= (if b then x else y).
Proof. destruct b; auto. Qed.
Lemma pick_ge (b : bool) x y hi : x <= hi -> y <= hi -> (if b then x else y) <= hi.
Proof. destruct b; auto. Qed.

(** Whatever is accepted is the encoding of the result, which consists of scalar values. *)
Lemma utf8_decode_fuel_sound fuel : forall bs t, utf8_decode_fuel fuel bs = Some t -> bs = utf8_encode t /\ Forall scalar t.
Proof.
  induction fuel as [|fuel IH]; intros bs t H.
  - destruct bs; cbn in H; [injection H as <-|discriminate]. split; [reflexivity|constructor].
  - destruct bs as [|b0 r]; cbn [utf8_decode_fuel] in H; [injection H as <-; split; [reflexivity|constructor]|].
    assert (K : forall c r' head, option_map (cons c) (utf8_decode_fuel fuel r') = Some t ->
              utf8_char c = head -> scalar c -> b0 :: r = head ++ r' -> b0 :: r = utf8_encode t /\ Forall scalar t).
    { intros c r' head E Hc Hs Hb. destruct (utf8_decode_fuel fuel r') as [t'|] eqn:Er; [|discriminate]. cbn in E. injection E as <-.
      destruct (IH _ _ Er) as [-> Hf]. split; [|constructor; assumption]. cbn [utf8_encode flat_map]. rewrite Hc. exact Hb. }
    destruct (in_range 0 127 b0) eqn:E1.
    { apply in_range_iff in E1. apply (K _ _ [b0] H); [|left; lia|reflexivity].
      unfold utf8_char. rewrite (proj2 (N.ltb_lt _ 128)) by lia. rewrite byte_of_to_N. reflexivity. }
    destruct (in_range 194 223 b0) eqn:E2.
    { apply in_range_iff in E2. destruct r as [|b1 r]; [discriminate|]. destruct (cont b1) eqn:C1; [|discriminate].
      apply in_range_iff in C1. unfold low6 in H. apply (K _ _ [b0; b1] H); [|left; lia|reflexivity].
      rewrite char2 by lia. f_equal; [apply byte_eq_of; lia|]. f_equal. apply byte_eq_of. lia. }
    destruct (in_range 224 239 b0) eqn:E3.
    { apply in_range_iff in E3. destruct r as [|b1 [|b2 r]]; try discriminate.
      destruct (in_range _ _ b1 && cont b2) eqn:C; [|discriminate]. apply andb_true_iff in C. destruct C as [C1 C2].
      apply in_range_iff in C1, C2. unfold low6 in H.
      assert (B1 : 128 <= Byte.to_N b1 <= 191).
      { split; [eapply N.le_trans; [|apply C1]; apply pick_le; lia|eapply N.le_trans; [apply C1|]; apply pick_ge; lia]. }
      apply (K _ _ [b0; b1; b2] H); [| |reflexivity].
      - destruct (N.eqb_spec (Byte.to_N b0) 224) as [Ea|Ea]; rewrite char3 by lia;
          (f_equal; [apply byte_eq_of; lia|f_equal; [apply byte_eq_of; lia|f_equal; apply byte_eq_of; lia]]).
      - destruct (N.eqb_spec (Byte.to_N b0) 237) as [Ea|Ea].
        + left. lia.
        + destruct (N.lt_ge_cases (Byte.to_N b0) 237); [left; lia|right; lia]. }
    destruct (in_range 240 244 b0) eqn:E4; [|discriminate].
    apply in_range_iff in E4. destruct r as [|b1 [|b2 [|b3 r]]]; try discriminate.
    destruct (in_range _ _ b1 && cont b2 && cont b3) eqn:C; [|discriminate].
    apply andb_true_iff in C. destruct C as [C C3]. apply andb_true_iff in C. destruct C as [C1 C2].
    apply in_range_iff in C1, C2, C3. unfold low6 in H.
    assert (B1 : 128 <= Byte.to_N b1 <= 191).
    { split; [eapply N.le_trans; [|apply C1]; apply pick_le; lia|eapply N.le_trans; [apply C1|]; apply pick_ge; lia]. }
    apply (K _ _ [b0; b1; b2; b3] H); [| |reflexivity].
    + destruct (N.eqb_spec (Byte.to_N b0) 240) as [Ea|Ea]; rewrite char4 by lia;
        (f_equal; [apply byte_eq_of; lia|f_equal; [apply byte_eq_of; lia|f_equal; [apply byte_eq_of; lia|f_equal; apply byte_eq_of; lia]]]).
    + right. destruct (N.eqb_spec (Byte.to_N b0) 240) as [Ea|Ea], (N.eqb_spec (Byte.to_N b0) 244) as [Eb|Eb]; lia.
Qed.
Lemma utf8_decode_sound bs t : utf8_decode bs = Some t -> bs = utf8_encode t /\ Forall scalar t.
Proof. apply utf8_decode_fuel_sound. Qed.

(** Every text of scalar values is read back. *)
Lemma utf8_decode_char fuel c r : scalar c ->
  utf8_decode_fuel (S fuel) (utf8_char c ++ r) = option_map (cons c) (utf8_decode_fuel fuel r).
Proof.
  intros Hs.
  assert (IR : forall lo hi b, lo <= Byte.to_N b <= hi -> in_range lo hi b = true) by (intros; apply in_range_iff; assumption).
  assert (NR : forall lo hi b, Byte.to_N b < lo \/ hi < Byte.to_N b -> in_range lo hi b = false) by (intros; apply in_range_false; assumption).
  assert (Q : forall n, n mod 64 < 64) by (intros; apply N.mod_lt; lia).
  assert (DM : forall n, n = (n / 64) * 64 + n mod 64) by (intros n; rewrite (N.mul_comm (n / 64)); apply N.div_mod; lia).
  unfold utf8_char.
  destruct (N.ltb_spec c 128) as [H1|H1].
  { cbn [app utf8_decode_fuel]. assert (E : Byte.to_N (byte_of c) = c) by (apply to_N_byte_of_small; lia).
    rewrite IR by lia. rewrite E. reflexivity. }
  pose proof (DM c) as D0. pose proof (Q c) as Q0. set (x := c / 64) in *. set (m0 := c mod 64) in *.
  destruct (N.ltb_spec c 2048) as [H2|H2].
  { clearbody x m0. cbn [app utf8_decode_fuel].
    assert (E0 : Byte.to_N (byte_of (192 + x)) = 192 + x) by (apply to_N_byte_of_small; lia).
    assert (E1 : Byte.to_N (byte_of (128 + m0)) = 128 + m0) by (apply to_N_byte_of_small; lia).
    rewrite NR by lia. rewrite IR by lia. unfold cont, low6. rewrite IR by lia. rewrite E0, E1. f_equal. f_equal. lia. }
  pose proof (DM x) as D1. pose proof (Q x) as Q1.
  destruct (N.ltb_spec c 65536) as [H3|H3].
  { rewrite div_4096. fold x. set (y := x / 64) in *. set (m1 := x mod 64) in *. clearbody y m1 m0 x. cbn [app utf8_decode_fuel].
    assert (E0 : Byte.to_N (byte_of (224 + y)) = 224 + y) by (apply to_N_byte_of_small; lia).
    assert (E1 : Byte.to_N (byte_of (128 + m1)) = 128 + m1) by (apply to_N_byte_of_small; lia).
    assert (E2 : Byte.to_N (byte_of (128 + m0)) = 128 + m0) by (apply to_N_byte_of_small; lia).
    rewrite NR by lia. rewrite NR by lia. rewrite IR by lia. rewrite E0.
    rewrite IR.
    - unfold cont, low6. rewrite IR by lia. rewrite E1, E2. cbn [andb]. f_equal. f_equal. lia.
    - rewrite E1. destruct Hs as [Hs|Hs]; destruct (N.eqb_spec (224 + y) 224), (N.eqb_spec (224 + y) 237); lia. }
  rewrite div_262144, div_4096. fold x. set (y := x / 64) in *. set (m1 := x mod 64) in *.
  pose proof (DM y) as D2. pose proof (Q y) as Q2. set (z := y / 64) in *. set (m2 := y mod 64) in *.
  clearbody z m2 y m1 m0 x. assert (Hc : c < 1114112) by (destruct Hs; lia). cbn [app utf8_decode_fuel].
  assert (E0 : Byte.to_N (byte_of (240 + z)) = 240 + z) by (apply to_N_byte_of_small; lia).
  assert (E1 : Byte.to_N (byte_of (128 + m2)) = 128 + m2) by (apply to_N_byte_of_small; lia).
  assert (E2 : Byte.to_N (byte_of (128 + m1)) = 128 + m1) by (apply to_N_byte_of_small; lia).
  assert (E3 : Byte.to_N (byte_of (128 + m0)) = 128 + m0) by (apply to_N_byte_of_small; lia).
  rewrite NR by lia. rewrite NR by lia. rewrite NR by lia. rewrite IR by lia. rewrite E0.
  rewrite IR.
  - unfold cont, low6. rewrite !IR by lia. rewrite E1, E2, E3. cbn [andb]. f_equal. f_equal. lia.
  - rewrite E1. destruct (N.eqb_spec (240 + z) 240), (N.eqb_spec (240 + z) 244); lia.
Qed.
Lemma utf8_char_length c : (1 <= length (utf8_char c))%nat.
Proof. unfold utf8_char. destruct (c <? 128), (c <? 2048), (c <? 65536); cbn; lia. Qed.
Lemma utf8_decode_fuel_encode t : forall fuel, Forall scalar t -> (length (utf8_encode t) <= fuel)%nat ->
  utf8_decode_fuel fuel (utf8_encode t) = Some t.
Proof.
  induction t as [|c t IH]; intros fuel Hs Hf; [destruct fuel; reflexivity|].
  inversion Hs as [|? ? Hc Ht]; subst. cbn [utf8_encode flat_map] in *. rewrite app_length in Hf.
  pose proof (utf8_char_length c). destruct fuel as [|fuel]; [lia|].
  rewrite utf8_decode_char by exact Hc. fold (utf8_encode t). rewrite IH; [reflexivity|exact Ht|]. unfold utf8_encode. lia.
Qed.
Lemma utf8_decode_encode t : Forall scalar t -> utf8_decode (utf8_encode t) = Some t.
Proof. intros H. apply utf8_decode_fuel_encode; [exact H|lia]. Qed.
