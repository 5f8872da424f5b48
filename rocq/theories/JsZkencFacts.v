(** What serializeWitnessSimple writes; circuits synthesised from a partial assignment; the JavaScript
    API on files that carry a circuit and a witness. *)
From Coq Require Import List Bool Arith NArith ZArith Lia.
From Coq Require Import Strings.Byte.
From Verif Require Import Res Bytes SpecR1cs SpecWtns Combined CombinedFacts JsZkenc.
Import ListNotations.
Local Open Scope N_scope.

(** ** Bytes of an integer *)
Lemma bigint_bytes n v : bigint_le_bytes n v = le_bytes n (Z.to_N (v mod 256 ^ Z.of_nat n)).
Proof.
  revert v. induction n as [|n IH]; intros v; [reflexivity|]. cbn [bigint_le_bytes le_bytes].
  assert (Hm : (v mod 256 ^ Z.of_nat (S n) = v mod 256 + 256 * (v / 256 mod 256 ^ Z.of_nat n))%Z).
  { rewrite Nat2Z.inj_succ, Z.pow_succ_r by lia.
    rewrite Z.rem_mul_r by (try apply Z.pow_pos_nonneg; lia). reflexivity. }
  assert (Hlo : (0 <= v mod 256 < 256)%Z) by (apply Z.mod_pos_bound; lia).
  assert (Hhi : (0 <= v / 256 mod 256 ^ Z.of_nat n)%Z) by (apply Z.mod_pos_bound, Z.pow_pos_nonneg; lia).
  set (lo := (v mod 256)%Z) in *. set (hi := (v / 256 mod 256 ^ Z.of_nat n)%Z) in *.
  assert (E : Z.to_N (v mod 256 ^ Z.of_nat (S n)) = Z.to_N lo + 256 * Z.to_N hi).
  { rewrite Hm, Z2N.inj_add, Z2N.inj_mul by lia. reflexivity. }
  rewrite E. f_equal.
  - change 255%Z with (Z.ones 8). rewrite Z.land_ones by lia. change (2 ^ 8)%Z with 256%Z. fold lo.
    rewrite <- (byte_of_mod (Z.to_N lo + _)). rewrite (N.mul_comm 256), N.mod_add by lia. rewrite byte_of_mod. reflexivity.
  - rewrite IH, Z.shiftr_div_pow2 by lia. change (2 ^ 8)%Z with 256%Z. fold hi. f_equal.
    rewrite (N.mul_comm 256), N.div_add by lia. rewrite N.div_small by lia. reflexivity.
Qed.
Lemma bigint32_bytes v : bigint_to_le32 v = le_bytes 32 (Z.to_N (v mod 2 ^ 256)).
Proof. apply bigint_bytes. Qed.

(** ** The layout *)
Lemma write_step {A} pre rem o bs (f : list byte -> res js_comb_error A) :
  blen pre = o -> (length bs <= rem)%nat ->
  rbind (js_write (pre ++ repeat x00 rem) o bs) f = f ((pre ++ bs) ++ repeat x00 (rem - length bs)).
Proof. intros Ho Hr. rewrite (js_write_at pre rem o (rem - length bs) bs Ho) by lia. reflexivity. Qed.
Lemma write_values_at vals : forall pre o, blen pre = o ->
  write_values (pre ++ repeat x00 (32 * length vals)) o vals = Ok (pre ++ List.concat (map bigint_to_le32 vals)).
Proof.
  induction vals as [|v vals IH]; intros pre o Ho.
  - cbn [length Nat.mul repeat write_values map concat]. rewrite !app_nil_r. reflexivity.
  - cbn [write_values map List.concat]. assert (L : length (bigint_to_le32 v) = 32%nat) by (rewrite bigint32_bytes; apply le_bytes_length).
    rewrite write_step; [|exact Ho|rewrite L; cbn [length]; lia]. rewrite L.
    replace (32 * length (v :: vals) - 32)%nat with (32 * length vals)%nat by (cbn [length]; lia).
    rewrite IH; [rewrite <- app_assoc; reflexivity|]. rewrite blen_app, Ho. unfold blen. rewrite L. reflexivity.
Qed.
Definition prime_bytes : list byte := le_bytes 32 (Z.to_N js_prime).
Lemma serialize_layout vals :
  serialize_witness vals =
  Ok (wtns_bytes [WHeader prime_bytes (N.of_nat (length vals)); WData (List.concat (map bigint_to_le32 vals))]).
Proof.
  unfold serialize_witness. cbv zeta.
  set (total := N.to_nat _). assert (Ht : total = (76 + 32 * length vals)%nat) by (unfold total; lia). clearbody total. subst total.
  rewrite <- (app_nil_l (repeat x00 _)).
  assert (Lp : length (bigint_to_le32 js_prime) = 32%nat) by (rewrite bigint32_bytes; apply le_bytes_length).
  do 4 (rewrite write_step; [|reflexivity|cbn [length]; lia]; cbn [length]).
  do 4 (rewrite write_step; [|reflexivity|rewrite le_bytes_length; lia]; rewrite le_bytes_length).
  rewrite write_step; [|reflexivity|rewrite le_bytes_length; lia]. rewrite le_bytes_length.
  rewrite write_step; [|reflexivity|rewrite Lp; lia]. rewrite Lp.
  assert (B : forall n v, blen (le_bytes n v) = N.of_nat n) by (intros; unfold blen; rewrite le_bytes_length; reflexivity).
  assert (Bp : blen (bigint_to_le32 js_prime) = 32) by (unfold blen; rewrite Lp; reflexivity).
  rewrite write_step; [|rewrite !blen_app, !B, Bp; reflexivity|rewrite le_bytes_length; lia]. rewrite le_bytes_length.
  rewrite write_step; [|rewrite !blen_app, !B, Bp; reflexivity|rewrite le_bytes_length; lia]. rewrite le_bytes_length.
  rewrite write_step; [|rewrite !blen_app, !B, Bp; reflexivity|rewrite le_bytes_length; lia]. rewrite le_bytes_length.
  match goal with |- context [repeat x00 ?n] => replace n with (32 * length vals)%nat by lia end.
  rewrite write_values_at by (rewrite !blen_app, !B, Bp; reflexivity).
  f_equal. unfold wtns_bytes, section_bytes. cbn [flat_map wsec_type wsec_payload fst snd length].
  assert (Ld : blen (List.concat (map bigint_to_le32 vals)) = N.of_nat (length vals) * 32).
  { clear. unfold blen. induction vals as [|v l IH]; [reflexivity|]. cbn [map List.concat length]. rewrite app_length, bigint32_bytes, le_bytes_length. lia. }
  rewrite Ld. unfold u32, u64. rewrite !blen_app, !B.
  assert (Hp : bigint_to_le32 js_prime = prime_bytes).
  { rewrite bigint32_bytes. unfold prime_bytes. f_equal. }
  rewrite Hp. change (blen prime_bytes) with 32. rewrite !app_nil_r, <- !app_assoc. reflexivity.
Qed.
