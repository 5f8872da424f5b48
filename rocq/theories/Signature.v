(** Model of the multi-signature circuit, packages/zkenc-cli/tests/circuits/signature.circom: the
    template as a relation between its input signals, and rows of the compiled file
    packages/zkenc-cli/tests/r1cs/signature.r1cs.  The circomlib templates used (comparators.circom:
    IsZero, IsEqual, LessThan, LessEqThan; bitify.circom: Num2Bits) are not in /repo: they are modelled
    as the compiled rows show them.  EdDSAPoseidonVerifier is a parameter. *)
From Coq Require Import List Bool Arith NArith ZArith.
From Coq Require Import Strings.Byte.
From Verif Require Import Bytes Fld Bn254 R1cs SpecSignature.
Import ListNotations.
Local Open Scope fld_scope.

(** IsZero: inv <-- ...; out <== -in*inv + 1; in*out === 0 (signature.circom:69-71, rows 0, 11-16). *)
Definition is_zero (input out : Fr) : Prop :=
  exists inv : Fr, out = fopp input * inv + fr 1 /\ input * out = fr 0.
(** IsEqual (signature.circom:14-24): IsZero of in[1] - in[0]. *)
Definition is_equal (x y out : Fr) : Prop := is_zero (y - x) out.
(** Num2Bits(n): every bit is 0 or 1 and they sum to the input, lowest first (rows 1-4). *)
Fixpoint bits_sum (bits : list Fr) (weight : Fr) : Fr :=
  match bits with [] => fr 0 | b :: bits => b * weight + bits_sum bits (weight + weight) end.
Definition num2bits (n : nat) (input : Fr) (bits : list Fr) : Prop :=
  List.length bits = n /\ Forall (fun b => b * (b - fr 1) = fr 0) bits /\ bits_sum bits (fr 1) = input.
(** LessThan(n): n2b = Num2Bits(n+1) of in[0] + 2^n - in[1]; out <== 1 - n2b.out[n]. *)
Definition less_than (n : nat) (x y out : Fr) : Prop :=
  exists bits, num2bits (S n) (x + fr (2 ^ Z.of_nat n) - y) bits /\ out = fr 1 - nth n bits (fr 0).
(** LessEqThan(n): LessThan(n) of in[0] and in[1] + 1 (signature.circom:58-66). *)
Definition less_eq_than (n : nat) (x y out : Fr) : Prop := less_than n x (y + fr 1) out.

(** template SelectPublicKey (signature.circom:8-42). *)
Definition select_public_key (keys : nat -> point) (index : Fr) (A : point) : Prop :=
  exists e0 e1 e2, is_equal index (fr 0) e0 /\ is_equal index (fr 1) e1 /\ is_equal index (fr 2) e2 /\
    fst A = e0 * fst (keys 0%nat) + e1 * fst (keys 1%nat) + e2 * fst (keys 2%nat) /\
    snd A = e0 * snd (keys 0%nat) + e1 * snd (keys 1%nat) + e2 * snd (keys 2%nat).
(** template MultiSig2of3 (signature.circom:48-99), with the verifier's relation for enabled = 1. *)
Definition multisig (V : verifier) (message : Fr) (keys R8 : nat -> point) (S : nat -> Fr) (indices : nat -> Fr) : Prop :=
  less_eq_than 2 (indices 0%nat) (fr 2) (fr 1) /\
  less_eq_than 2 (indices 1%nat) (fr 2) (fr 1) /\
  is_zero (indices 0%nat - indices 1%nat) (fr 0) /\
  exists A0 A1, select_public_key keys (indices 0%nat) A0 /\ select_public_key keys (indices 1%nat) A1 /\
    V A0 (R8 0%nat) (S 0%nat) message /\ V A1 (R8 1%nat) (S 1%nat) message.

(** ** Rows of the compiled file signature.r1cs (constraint section, first of the file, byte 24 on).
    Wires (signature.sym): 1 message, 2 to 7 publicKeys, 8 to 11 R8, 12 and 13 S, 14 and 15
    signerIndices. *)
Local Open Scope N_scope.
Definition lc (l : list (N * Z)) : lc_t := map (fun f => (fst f, le_bytes 32 (Z.to_N (snd f mod bn_r)))) l.
Definition row (x y z : list (N * Z)) : constraint_t := Constraint (lc x) (lc y) (lc z).
Definition half : Z := 10944121435919637611123202872628637544274182200208017171849102093287904247809.
(** Row 0: isDifferent (signature.circom:69-71). *)
Definition different_rows : list constraint_t := [row [(14, (1)%Z); (15, (-1)%Z)] [(16, 1%Z)] [(0, 1%Z)]].
(** Rows 1-2 and 3-4: rangeCheck0 and rangeCheck1 (signature.circom:58-66); the index is on wire [i],
    bit 0 on wire [b], bit 1 is left as an expression, bit 2 is the constant 0. *)
Definition range_rows (i b : N) : list constraint_t :=
  [row [(0, (-1)%Z); (b, (1)%Z)] [(b, 1%Z)] [];
   row [(0, (-half)%Z); (i, (half)%Z); (b, (-half)%Z)] [(0, (half)%Z); (i, (half)%Z); (b, (-half)%Z)] []].
(** Rows 5-16 and 17-28: selectKey0 and selectKey1 (signature.circom:74-80); the selected key is on the
    wires [o] and [o] + 1, then four terms, then out and inv of the three comparisons. *)
Definition select_rows (i o : N) : list constraint_t :=
  [row [(o + 6, (-1)%Z)] [(2, 1%Z)] [(o + 2, (-1)%Z)];
   row [(o + 8, (-1)%Z)] [(4, 1%Z)] [(o + 3, (-1)%Z)];
   row [(o + 10, (-1)%Z)] [(6, 1%Z)] [(o, (-1)%Z); (o + 2, (1)%Z); (o + 3, (1)%Z)];
   row [(o + 6, (-1)%Z)] [(3, 1%Z)] [(o + 4, (-1)%Z)];
   row [(o + 8, (-1)%Z)] [(5, 1%Z)] [(o + 5, (-1)%Z)];
   row [(o + 10, (-1)%Z)] [(7, 1%Z)] [(o + 1, (-1)%Z); (o + 4, (1)%Z); (o + 5, (1)%Z)];
   row [(i, (-1)%Z)] [(o + 7, 1%Z)] [(0, (1)%Z); (o + 6, (-1)%Z)];
   row [(i, (-1)%Z)] [(o + 6, 1%Z)] [];
   row [(0, (1)%Z); (i, (-1)%Z)] [(o + 9, 1%Z)] [(0, (1)%Z); (o + 8, (-1)%Z)];
   row [(0, (1)%Z); (i, (-1)%Z)] [(o + 8, 1%Z)] [];
   row [(0, (2)%Z); (i, (-1)%Z)] [(o + 11, 1%Z)] [(0, (1)%Z); (o + 10, (-1)%Z)];
   row [(0, (2)%Z); (i, (-1)%Z)] [(o + 10, 1%Z)] []].
(** Rows 0-28 of the file, in this order: everything of MultiSig2of3 but the two verifiers. *)
Definition front_rows : list constraint_t :=
  different_rows ++ range_rows 14 17 ++ range_rows 15 18 ++ select_rows 14 19 ++ select_rows 15 31.
(** A doubling on Baby Jubjub of the point on the wires [x], [x'], result on [d], [d] + 1 (rows 295-300,
    301-306, 4502-4507, 4508-4513: dbl1 and dbl2 of the verifiers). *)
Definition double_rows (x x' d : N) : list constraint_t :=
  [row [(x, (-1)%Z)] [(x', 1%Z)] [(d + 2, (-1)%Z)];
   row [(x', (-1)%Z)] [(x, 1%Z)] [(d + 3, (-1)%Z)];
   row [(x, (168700)%Z); (x', (-1)%Z)] [(x, (1)%Z); (x', (1)%Z)] [(d + 4, (-1)%Z)];
   row [(d + 2, (-1)%Z)] [(d + 3, 1%Z)] [(d + 5, (-1)%Z)];
   row [(0, (1)%Z); (d + 5, (168696)%Z)] [(d, 1%Z)] [(d + 2, (1)%Z); (d + 3, (1)%Z)];
   row [(0, (1)%Z); (d + 5, (-168696)%Z)] [(d + 1, 1%Z)] [(d + 2, (168700)%Z); (d + 3, (-1)%Z); (d + 4, (1)%Z)]].
(** Rows 1149 and 5356: the verifier's isZero of the x coordinate of dbl2, with its out = 0. *)
Definition nonzero_row (d inv : N) : constraint_t := row [(d, 1%Z)] [(inv, 1%Z)] [(0, 1%Z)].
(** Rows 295-306 with 1149, and 4502-4513 with 5356: how the two verifiers reject a key. *)
Definition key_rows0 : list constraint_t := double_rows 19 20 562 ++ double_rows 562 563 568 ++ [nonzero_row 568 1416].
Definition key_rows1 : list constraint_t := double_rows 31 32 4765 ++ double_rows 4765 4766 4771 ++ [nonzero_row 4771 5619].
Definition signature_rows : list constraint_t := front_rows ++ key_rows0 ++ key_rows1.
