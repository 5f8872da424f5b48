(** Model of the WASM r1cs reader, packages/zkenc-js/src/lib.rs:54-228. *)
From Coq Require Import List Bool Arith NArith ZArith Lia.
From Coq Require Import Strings.Byte.
From Verif Require Import Res Bytes Reader R1cs.
Import ListNotations.
Local Open Scope N_scope.
Local Open Scope rd_scope.

(** R1csHeader of lib.rs:54-60. *)
Record js_header := JsHeader {
  j_field_size : N; j_n_wires : N; j_n_pub_out : N; j_n_pub_in : N; j_n_constraints : N
}.

(** The String errors of lib.rs, by cause. *)
Inductive js_error :=
| JsOutOfFuel (* model only: the loop has not ended yet *)
| JsEof | JsWrongMagic | JsWrongVersion | JsNoHeader | JsNoConstraints | JsBadPrimeLen | JsOther.

(** State: the [pos] variable. *)
Definition J A := M N js_error A.

Section JsReader.
  (** 2^(pointer width): 2^32 for wasm32, 2^64 natively.  Release builds: additions wrap. *)
  Variable W : N.
  Variable data : list byte.

  Definition wadd (a b : N) : N := (a + b) mod W.

  (** Read [k] bytes at [pos] by indexing (lib.rs:78-103): the bounds check adds with wrapping,
      then [data[pos]], [data[pos+1]].. are indexed.  If the check passes without wrapping the
      bytes exist; if it passed because the sum wrapped then pos is past the end of the data
      and the first index panics. *)
  Definition js_index (k : N) (e : js_error) : J (list byte) := fun pos =>
    if blen data <? wadd pos k then (Err e, pos) else
    match slice data pos k with
    | Some b => (Ok b, wadd pos k)
    | None => (Panic, pos)
    end.

  (** read_u32 / read_u64 (lib.rs:78-103). *)
  Definition js_u32 : J N := do b <- js_index 4 JsEof ; ret (le_val b).
  Definition js_u64 : J N := do b <- js_index 8 JsEof ; ret (le_val b).

  Definition js_get : J N := fun pos => (Ok pos, pos).
  Definition js_goto (p : N) : J unit := fun _ => (Ok tt, p).

  (** The body of the first pass (lib.rs:122-128); [as usize] truncates. *)
  Definition js_section : J (N * N * N) :=
    do t <- js_u32 ;
    do l64 <- js_u64 ;
    do start <- js_get ;
    do _ <- js_goto (wadd start (l64 mod W)) ;
    ret (t, l64 mod W, start).

  (** Header (lib.rs:131-161). *)
  Definition js_parse_header : J js_header :=
    do fs <- js_u32 ;
    do p <- js_get ;
    check negb (blen data <? wadd p fs) else JsBadPrimeLen ;
    do _ <- js_goto (wadd p fs) ;
    do nw <- js_u32 ;
    do npo <- js_u32 ;
    do npi <- js_u32 ;
    do _ <- js_u32 ;
    do _ <- js_u64 ;
    do nc <- js_u32 ;
    ret (JsHeader fs nw npo npi nc).

  (** One factor (lib.rs:209-225). [data[pos..pos+value_len]] panics when the end wrapped. *)
  Definition js_factor (fs : N) : J (N * list byte) :=
    do w <- js_u32 ;
    do v <- js_index fs JsEof ;
    ret (w, v).

  (** parse_linear_combination (lib.rs:196-228). *)
  Definition js_lc (fs : N) : J lc_t :=
    do n <- js_u32 ;
    mmany n (js_factor fs).

  Definition js_constraint (fs : N) : J constraint_t :=
    do a <- js_lc fs ;
    do b <- js_lc fs ;
    do c <- js_lc fs ;
    ret (Constraint a b c).

  (** Magic, version and first pass (lib.rs:105-128). *)
  Definition js_sections : J (list (N * N * N)) :=
    do m <- js_index 4 JsWrongMagic ;
    check bytes_eqb m magic_r1cs else JsWrongMagic ;
    do v <- js_u32 ;
    check v =? 1 else JsWrongVersion ;
    do n <- js_u32 ;
    mmany n js_section.

  (** parse_r1cs (lib.rs:74-194). *)
  Definition js_parse_r1cs_m : J (js_header * list constraint_t) :=
    do secs <- js_sections ;
    match find_section 1 secs with
    | None => fail JsNoHeader
    | Some p =>
      do _ <- js_goto p ;
      do h <- js_parse_header ;
      match find_section 2 secs with
      | None => fail JsNoConstraints
      | Some p =>
        do _ <- js_goto p ;
        do cs <- mmany (j_n_constraints h) (js_constraint (j_field_size h)) ;
        ret (h, cs)
      end
    end.

  Definition js_parse_r1cs : res js_error (js_header * list constraint_t) := fst (js_parse_r1cs_m 0).
End JsReader.

(** R1csHeader::n_public_inputs (lib.rs:62-66): u32 addition, wrapping in release builds. *)
Definition js_n_public (h : js_header) : N := (j_n_pub_out h + j_n_pub_in h) mod 2 ^ 32.
