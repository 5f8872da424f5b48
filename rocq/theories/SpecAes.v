(** Specification: AES-256 as FIPS 197 describes it.  Bytes are numbers below 256, bit i being the
    coefficient of x^i; the state is an array of four rows and four columns. *)
From Coq Require Import List Bool Arith NArith.
From Coq Require Import Strings.Byte.
From Verif Require Import SpecGhash.
Local Open Scope N_scope.

(** FIPS 197, 4.2: products of bytes, as polynomials modulo x^8 + x^4 + x^3 + x + 1. *)
Definition aes_poly : N := 2 ^ 8 + 2 ^ 4 + 2 ^ 3 + 2 + 1.
Definition times (a b c : N) : Prop := c < 256 /\ poly_multiple aes_poly (N.lxor (poly_times a b) c).

(** 5.1.1: the S-box, the inverse (of 0: 0) followed by an affine map of the bits. *)
Definition inverse (a b : N) : Prop := b < 256 /\ ((a = 0 /\ b = 0) \/ times b a 1).
Definition s_box (a b : N) : Prop :=
  b < 256 /\ exists i, inverse a i /\
  forall k, k < 8 ->
    let bit j := N.testbit i ((k + j) mod 8) in
    N.testbit b k = xorb (xorb (xorb (xorb (xorb (bit 0) (bit 4)) (bit 5)) (bit 6)) (bit 7)) (N.testbit 0x63 k).

(** 3.4: the state; the byte of row r and column c. *)
Definition state := nat -> nat -> N.
Definition holds (block : list byte) (s : state) : Prop :=
  length block = 16%nat /\
  forall r c, (r < 4)%nat -> (c < 4)%nat -> s r c = Byte.to_N (nth (r + 4 * c) block x00).

(** 5.1.1 - 5.1.4: the four transformations. *)
Definition bytes_substituted (s s' : state) : Prop :=
  forall r c, (r < 4)%nat -> (c < 4)%nat -> s_box (s r c) (s' r c).
Definition rows_shifted (s s' : state) : Prop :=
  forall r c, (r < 4)%nat -> (c < 4)%nat -> s' r c = s r ((c + r) mod 4)%nat.
Definition columns_mixed (s s' : state) : Prop :=
  forall r c, (r < 4)%nat -> (c < 4)%nat ->
  exists double triple,
    times (s r c) 2 double /\ times (s ((r + 1) mod 4)%nat c) 3 triple /\
    s' r c = N.lxor (N.lxor (N.lxor double triple) (s ((r + 2) mod 4)%nat c)) (s ((r + 3) mod 4)%nat c).
(** [w i r] is byte r of word i of the key schedule. *)
Definition key_added (w : nat -> nat -> N) (round : nat) (s s' : state) : Prop :=
  forall r c, (r < 4)%nat -> (c < 4)%nat -> s' r c = N.lxor (s r c) (w (4 * round + c)%nat r).

(** 5.2: the key schedule of a 256-bit key, 60 words. *)
Inductive rcon_is : nat -> N -> Prop :=
| rcon_1 : rcon_is 1 1
| rcon_next j v v' : rcon_is j v -> times v 2 v' -> rcon_is (S j) v'.
Definition schedule (key : list byte) (w : nat -> nat -> N) : Prop :=
  length key = 32%nat /\
  (forall i r, (i < 8)%nat -> (r < 4)%nat -> w i r = Byte.to_N (nth (4 * i + r) key x00)) /\
  forall i, (8 <= i < 60)%nat -> exists temp : nat -> N,
    (forall r, (r < 4)%nat -> w i r = N.lxor (w (i - 8)%nat r) (temp r)) /\
    ((i mod 8 = 0)%nat -> exists v, rcon_is (i / 8) v /\
       forall r, (r < 4)%nat -> exists b, s_box (w (i - 1)%nat ((r + 1) mod 4)%nat) b /\
         temp r = N.lxor b (if Nat.eqb r 0 then v else 0)) /\
    ((i mod 8 = 4)%nat -> forall r, (r < 4)%nat -> s_box (w (i - 1)%nat r) (temp r)) /\
    ((i mod 8 <> 0)%nat -> (i mod 8 <> 4)%nat -> forall r, (r < 4)%nat -> temp r = w (i - 1)%nat r).

(** 5.1: the cipher: a key addition, 13 full rounds and a last one that mixes no columns. *)
Definition fips197 (key block out : list byte) : Prop :=
  exists w (first : state) (after : nat -> state),
    schedule key w /\ holds block first /\ key_added w 0 first (after 0%nat) /\
    (forall n, (1 <= n <= 13)%nat -> exists substituted shifted mixed,
       bytes_substituted (after (n - 1)%nat) substituted /\ rows_shifted substituted shifted /\
       columns_mixed shifted mixed /\ key_added w n mixed (after n)) /\
    exists substituted shifted last,
      bytes_substituted (after 13%nat) substituted /\ rows_shifted substituted shifted /\
      key_added w 14 shifted last /\ holds out last.
