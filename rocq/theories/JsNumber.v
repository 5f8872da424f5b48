(** JavaScript Numbers (IEEE 754 doubles), as far as the repository meets them: JSON.parse of a number
    token, Number.prototype.toString (sym_parser.ts:104, 116: [value.toString()]), and BigInt(number)
    (witness_calculator.ts:352, 358; witness_calculator.js:320).  Library code, written out from
    ECMA-262.

    A finite Number is [x / 2^1074] for an integer [x]: this is the granularity of the subnormal
    doubles, and the doubles are those whose [x] is [m * 2^q] with [m < 2^53], below 2^1024.  The sign of zero
    is not kept: toString, JSON.stringify and BigInt do not show it. *)
From Coq Require Import List Bool Arith NArith ZArith.
From Coq Require Import Strings.String.
From Verif Require Import Text.
Import ListNotations.
Local Open Scope N_scope.

Definition unit1 : N := 2 ^ 1074.
Definition overflow : N := 2 ^ 2098.

(** Rounding of the fraction [p / q] to the nearest double, ties to the even one. *)
Definition round_half_even (p q : N) : N :=
  let e := N.size (p / q) - 53 in
  let d := q * 2 ^ e in
  let m := p / d in
  let m := match 2 * (p mod d) ?= d with
           | Lt => m
           | Gt => m + 1
           | Eq => if N.odd m then m + 1 else m
           end in
  m * 2 ^ e.
(** The double nearest to [d * 10^k]. *)
Definition round_decimal (d : N) (k : Z) : N :=
  if (0 <=? k)%Z then round_half_even (d * 10 ^ Z.to_N k * unit1) 1
  else round_half_even (d * unit1) (10 ^ Z.to_N (- k)).

(** ** Reading a decimal numeral *)
Fixpoint drop_digits (t : text) : text :=
  match t with c :: r => if is_digit c then drop_digits r else t | [] => [] end.
(** The exponent part: nothing, or e, a sign and digits. *)
Definition exponent_of (t : text) : option Z :=
  match t with
  | [] => Some 0%Z
  | e :: r =>
      if (e =? 101) || (e =? 69) then
        match r with
        | s :: ds => if s =? c_minus then if all_digits ds then Some (- Z.of_N (digits_value ds))%Z else None
                     else let ds := if s =? c_plus then ds else r in
                          if all_digits ds then Some (Z.of_N (digits_value ds)) else None
        | [] => None
        end
      else None
  end.
(** The fraction digits and the rest. *)
Definition fraction_of (t : text) : option (text * text) :=
  match t with
  | c :: r => if c =? 46 then match take_digits r with [] => None | fp => Some (fp, drop_digits r) end else Some ([], t)
  | [] => Some ([], [])
  end.
(** Digits without a superfluous zero in front. *)
Definition int_digits (ip : text) : bool :=
  match ip with [] => false | [_] => true | c :: _ => negb (c =? 48) end.
(** Sign, digits and decimal exponent. *)
Definition decimal_of (t : text) : option (bool * N * Z) :=
  let '(neg, t) := match t with c :: r => if c =? c_minus then (true, r) else (false, t) | [] => (false, t) end in
  let ip := take_digits t in
  match fraction_of (drop_digits t) with
  | Some (fp, t) =>
      match exponent_of t with
      | Some e => if int_digits ip then Some (neg, digits_value (ip ++ fp), (e - Z.of_nat (List.length fp))%Z) else None
      | None => None
      end
  | None => None
  end.
(** The finite Number a numeral stands for; None: no numeral ("NaN", "Infinity"), or too large. *)
Definition number_of (t : text) : option Z :=
  match decimal_of t with
  | Some (neg, d, k) => let x := round_decimal d k in
                        if x <? overflow then Some (if neg : bool then (- Z.of_N x)%Z else Z.of_N x) else None
  | None => None
  end.
(** NumberToBigInt: the exact value of a whole Number; None is a RangeError.  Numbers are given by
    their toString, which stands for no other Number. *)
Definition number_bigint (t : text) : option Z :=
  match number_of t with
  | Some x => if (x mod Z.of_N unit1 =? 0)%Z then Some (x / Z.of_N unit1)%Z else None
  | None => None
  end.

(** ** Number::toString, radix 10 *)
(** [at_least x n]: whether 10^n <= x / 2^1074. *)
Definition at_least (x : N) (n : Z) : bool :=
  if (0 <=? n)%Z then 10 ^ Z.to_N n * unit1 <=? x else unit1 <=? x * 10 ^ Z.to_N (- n).
(** The position of the decimal point: the largest n, from [n] down, with 10^(n-1) <= x / 2^1074. *)
Fixpoint point_pos (fuel : nat) (x : N) (n : Z) : Z :=
  match fuel with
  | O => n
  | S fuel => if at_least x (n - 1) then n else point_pos fuel x (n - 1)
  end.
(** x / 2^1074 / 10^j, rounded down, and whether the remainder is below, at or above a half. *)
Definition scale_down (x : N) (j : Z) : N * comparison :=
  let p := if (0 <=? j)%Z then x else x * 10 ^ Z.to_N (- j) in
  let q := if (0 <=? j)%Z then unit1 * 10 ^ Z.to_N j else unit1 in
  (p / q, 2 * (p mod q) ?= q).
(** The shortest digits that stand for [x]: with [k] digits, the two candidates around [x]; if both
    do, the closer one, of two equally close ones the even one. *)
Fixpoint shortest (fuel : nat) (x : N) (n : Z) (k : nat) : N * nat :=
  match fuel with
  | O => (0, k)
  | S fuel =>
      let j := (n - Z.of_nat k)%Z in
      let '(s, h) := scale_down x j in
      let low := round_decimal s j =? x in
      let high := round_decimal (s + 1) j =? x in
      if low && high then (match h with Lt => s | Gt => s + 1 | Eq => if N.odd s then s + 1 else s end, k)
      else if low then (s, k)
      else if high then (s + 1, k)
      else shortest fuel x n (S k)
  end.
Definition zeros (n : nat) : text := repeat 48 n.
(** The digits [ds], with the decimal point after [n] places (steps 6 to 11). *)
Definition place_point (ds : text) (n : Z) : text :=
  let k := Z.of_nat (List.length ds) in
  if ((k <=? n) && (n <=? 21))%Z then ds ++ zeros (Z.to_nat (n - k))
  else if ((0 <? n) && (n <=? 21))%Z then firstn (Z.to_nat n) ds ++ lit "." ++ skipn (Z.to_nat n) ds
  else if ((-6 <? n) && (n <=? 0))%Z then lit "0." ++ zeros (Z.to_nat (- n)) ++ ds
  else
    let e := lit "e" ++ (if (n - 1 <? 0)%Z then lit "-" else lit "+") ++ dec_text (Z.to_N (Z.abs (n - 1))) in
    match ds with
    | [d] => [d] ++ e
    | d :: ds => [d] ++ lit "." ++ ds ++ e
    | [] => e
    end.
(** A candidate that reaches the next power of ten is written as a one. *)
Definition positive_text (x : N) : text :=
  let n := point_pos 640 x 310 in
  let '(s, k) := shortest 17 x n 1 in
  if s =? 10 ^ N.of_nat k then place_point (lit "1") (n + 1) else place_point (dec_text s) n.
Definition number_text (x : Z) : text :=
  if (x =? 0)%Z then lit "0"
  else if (x <? 0)%Z then lit "-" ++ positive_text (Z.to_N (- x))
  else positive_text (Z.to_N x).
