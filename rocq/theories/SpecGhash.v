(** GF(2^128) as GCM describes it: polynomials over GF(2) modulo x^128 + x^7 + x^2 + x + 1.  A
    polynomial is an N, bit i being the coefficient of x^i; a GCM block has its bits the other way
    round (the most significant bit is the coefficient of 1). *)
From Coq Require Import List NArith.
Import ListNotations.
Local Open Scope N_scope.

Definition gcm_poly : N := 2 ^ 128 + 2 ^ 7 + 2 ^ 2 + 2 + 1.
Definition xor_all (l : list N) : N := fold_right N.lxor 0 l.
(** Product of polynomials, the first one of degree below 128. *)
Definition poly_times (a b : N) : N :=
  xor_all (map (fun i => if N.testbit a (N.of_nat i) then N.shiftl b (N.of_nat i) else 0) (seq 0 128)).
(** A sum of shifted copies of [p], that is p times some polynomial. *)
Definition poly_multiple (p t : N) : Prop := exists shifts, t = xor_all (map (N.shiftl p) shifts).
(** The polynomial of a block. *)
Definition block_poly (a : N) : N :=
  xor_all (map (fun i => if N.testbit a (N.of_nat (127 - i)) then 2 ^ N.of_nat i else 0) (seq 0 128)).
