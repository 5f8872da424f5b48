(** JavaScript Numbers, independently of how they are computed.  A finite Number is [x / 2^1074] for a
    whole [x]; sizes are given by [x]. *)
From Coq Require Import List Bool Arith NArith ZArith.
From Coq Require Import Strings.String.
From Verif Require Import Text Inputs SpecJson.
Import ListNotations.
Local Open Scope N_scope.

(** The doubles (without a bound on the exponent): 53 bits times a power of two. *)
Definition double (x : N) : Prop := exists m e, m < 2 ^ 53 /\ x = m * 2 ^ e.
(** Those whose significand is even. *)
Definition even_double (x : N) : Prop := exists m e, 2 * m < 2 ^ 53 /\ x = 2 * m * 2 ^ e.
(** The finite ones: below 2^1024. *)
Definition finite (x : N) : Prop := double x /\ x < 2 ^ (1024 + 1074).

(** A fraction [p / q] and the double nearest to it; of two equally near ones the even one. *)
Definition distance (p q x : N) : Z := Z.abs (Z.of_N p - Z.of_N q * Z.of_N x).
Definition nearest (p q x : N) : Prop :=
  double x /\
  (forall y, double y -> (distance p q x <= distance p q y)%Z) /\
  (forall y, double y -> y <> x -> distance p q y = distance p q x -> even_double x).

(** [d * 10^k * 2^1074] as a fraction: numerator and denominator. *)
Definition numer (d : N) (k : Z) : N := d * 10 ^ Z.to_N k * 2 ^ 1074.
Definition denom (k : Z) : N := 10 ^ Z.to_N (- k).
(** [x] is the Number for the decimal [d * 10^k]. *)
Definition stands_for (d : N) (k : Z) (x : N) : Prop := nearest (numer d k) (denom k) x.

(** The value of a number token: sign, digits, decimal exponent. *)
Inductive exponent : text -> Z -> Prop :=
| ex_none : exponent [] 0
| ex_plus e s ds : e = lit "e" \/ e = lit "E" -> s = [] \/ s = lit "+" -> digits ds -> exponent (e ++ s ++ ds) (Z.of_N (digits_value ds))
| ex_minus e ds : e = lit "e" \/ e = lit "E" -> digits ds -> exponent (e ++ lit "-" ++ ds) (- Z.of_N (digits_value ds)).
Inductive fraction : text -> text -> Prop :=
| fr_none : fraction [] []
| fr_some ds : digits ds -> fraction (lit "." ++ ds) ds.
Inductive decimal : text -> bool -> N -> Z -> Prop :=
| de_pos i f fd e k : int_part i -> fraction f fd -> exponent e k ->
    decimal (i ++ f ++ e) false (digits_value (i ++ fd)) (k - Z.of_nat (List.length fd))
| de_neg i f fd e k : int_part i -> fraction f fd -> exponent e k ->
    decimal (lit "-" ++ i ++ f ++ e) true (digits_value (i ++ fd)) (k - Z.of_nat (List.length fd)).
Definition signed (neg : bool) (x : N) : Z := if neg then (- Z.of_N x)%Z else Z.of_N x.

(** The digits of Number::toString: [s], of [k] digits, with the decimal point after [n] of them,
    stands for [x], no fewer digits do, no other [k] digits are nearer to [x], and if others are as near
    then [s] is even. *)
Definition shortest_digits (x s : N) (k : nat) (n : Z) : Prop :=
  10 ^ N.of_nat (k - 1) <= s < 10 ^ N.of_nat k /\ (0 < k)%nat /\ stands_for s (n - Z.of_nat k) x /\
  (forall s' k' j, 0 < s' < 10 ^ N.of_nat k' -> stands_for s' j x ->
    (k <= k')%nat /\
    (k' = k -> (distance (numer s (n - Z.of_nat k)) (denom (n - Z.of_nat k)) x * Z.of_N (denom j) <=
                distance (numer s' j) (denom j) x * Z.of_N (denom (n - Z.of_nat k)))%Z)) /\
  (forall s', s' <> s -> stands_for s' (n - Z.of_nat k) x ->
    distance (numer s' (n - Z.of_nat k)) (denom (n - Z.of_nat k)) x = distance (numer s (n - Z.of_nat k)) (denom (n - Z.of_nat k)) x ->
    N.even s = true).
(** How ECMA-262 writes them. *)
Inductive printed_as (ds : text) (n : Z) : text -> Prop :=
| wr_integer : (Z.of_nat (List.length ds) <= n <= 21)%Z -> printed_as ds n (ds ++ repeat 48 (Z.to_nat n - List.length ds))
| wr_point a b : ds = a ++ b -> Z.of_nat (List.length a) = n -> (0 < n <= 21)%Z -> b <> [] -> printed_as ds n (a ++ lit "." ++ b)
| wr_small : (-6 < n <= 0)%Z -> printed_as ds n (lit "0." ++ repeat 48 (Z.to_nat (- n)) ++ ds)
| wr_exp1 sg d : (n <= -6 \/ 21 < n)%Z -> ds = [d] -> sg = (if (n - 1 <? 0)%Z then lit "-" else lit "+") ->
    printed_as ds n ([d] ++ lit "e" ++ sg ++ dec_text (Z.to_N (Z.abs (n - 1))))
| wr_exp sg d ds' : (n <= -6 \/ 21 < n)%Z -> ds = d :: ds' -> ds' <> [] -> sg = (if (n - 1 <? 0)%Z then lit "-" else lit "+") ->
    printed_as ds n ([d] ++ lit "." ++ ds' ++ lit "e" ++ sg ++ dec_text (Z.to_N (Z.abs (n - 1)))).

(** [renders x t]: [t] is the text of the finite Number [x / 2^1074]. *)
Inductive renders : Z -> text -> Prop :=
| re_zero : renders 0 (lit "0")
| re_pos x s k n t : 0 < x -> shortest_digits x s k n -> printed_as (dec_text s) n t -> renders (Z.of_N x) t
| re_neg x s k n t : 0 < x -> shortest_digits x s k n -> printed_as (dec_text s) n t -> renders (- Z.of_N x) (lit "-" ++ t).
(** The value JSON.parse gives a number token whose decimal is nearest to [x / 2^1074]. *)
Inductive js_value (neg : bool) (x : N) : json -> Prop :=
| jv_whole z : x = z * 2 ^ 1074 -> z <= 2 ^ 53 -> js_value neg x (JInt (signed neg z))
| jv_other t : (forall z, x = z * 2 ^ 1074 -> 2 ^ 53 < z) -> x < 2 ^ (1024 + 1074) -> renders (signed neg x) t -> js_value neg x (JFloat t)
| jv_large : 2 ^ (1024 + 1074) <= x -> js_value neg x (JFloat (if neg then lit "-Infinity" else lit "Infinity")).
(** [printed_integer w p]: the digits JavaScript prints for the whole Number [w], filled up with zeros,
    are those of [p]. *)
Definition printed_integer (w p : N) : Prop :=
  exists s k n, shortest_digits (w * 2 ^ 1074) s k n /\ (Z.of_nat k <= n)%Z /\ p = s * 10 ^ Z.to_N (n - Z.of_nat k).
