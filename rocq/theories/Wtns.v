(** Models of the two witness readers: packages/zkenc-cli/src/witness.rs and
    packages/zkenc-js/src/lib.rs:234-297. *)
From Coq Require Import List Bool Arith NArith ZArith Lia.
From Coq Require Import Strings.Byte.
From Verif Require Import Res Bytes Reader R1cs R1csJs Fld Bn254.
Import ListNotations.
Local Open Scope N_scope.
Local Open Scope rd_scope.

Definition magic_wtns : list byte := [x77; x74; x6e; x73].

(** WitnessFile (witness.rs:20-28).  [assignments] is a HashMap with keys 0..n_witness-1;
    here the list of its values in key order. *)
Record witness_file := WitnessFile { wf_prime : list byte; wf_n : N; wf_values : list (list byte) }.

Inductive wtns_error := WIo | WMagic | WVersion | WNoHeader | WNoData | WSizeMismatch | WBadElement.

(** State of the BufReader: position (no seeks in this reader). *)
Definition Wm A := M N wtns_error A.

Section CliReader.
  Variable file : list byte.

  (** Read::read_exact. *)
  Definition w_read (n : N) : Wm (list byte) := fun pos =>
    if n =? 0 then (Ok [], pos) else
    match slice file pos n with
    | Some b => (Ok b, pos + n)
    | None => (Err WIo, pos)
    end.
  (** read_u32_le / read_u64_le (witness.rs:142-153). *)
  Definition w_u32 : Wm N := do b <- w_read 4 ; ret (le_val b).
  Definition w_u64 : Wm N := do b <- w_read 8 ; ret (le_val b).
  (** [vec![0u8; n]] (witness.rs:67,75,80): panics (capacity overflow) above isize::MAX on a
      64-bit target.  Running out of memory is not modelled. *)
  Definition w_alloc (n : N) : Wm unit := fun pos =>
    if n <? 2 ^ 63 then (Ok tt, pos) else (Panic, pos).

  (** prime, n_witness, witness_data (witness.rs:52-54). *)
  Definition wacc : Type := (list byte * N * list byte)%type.

  (** One section (witness.rs:57-84); the size of a header section is ignored. *)
  Definition w_section (acc : wacc) : Wm wacc :=
    let '(prime, n, d) := acc in
    do ty <- w_u32 ;
    do sz <- w_u64 ;
    if ty =? 1 then
      do fs <- w_u32 ;
      do p <- w_read fs ;
      do n' <- w_u32 ;
      ret (p, n', d)
    else if ty =? 2 then
      do _ <- w_alloc sz ;
      do d' <- w_read sz ;
      ret (prime, n, d')
    else
      do _ <- w_alloc sz ;
      do _ <- w_read sz ;
      ret (prime, n, d).

  (** [witness_data[start..end]] for i in 0..n (witness.rs:108-114). *)
  Definition chunk (d : list byte) (fs i : nat) : list byte := firstn fs (skipn (i * fs) d).
  Definition chunks (d : list byte) (fs n : nat) : list (list byte) :=
    map (chunk d fs) (seq 0 n).

  (** Checks after the loop (witness.rs:86-120). *)
  Definition w_finish (acc : wacc) : Wm witness_file :=
    let '(prime, n, d) := acc in
    check negb (blen prime =? 0) else WNoHeader ;
    check negb (blen d =? 0) else WNoData ;
    check blen d =? n * blen prime else WSizeMismatch ;
    ret (WitnessFile prime n (chunks d (length prime) (N.to_nat n))).

  (** from_file (witness.rs:32-121) on the bytes of the file. *)
  Definition w_from_bytes_m : Wm witness_file :=
    do m <- w_read 4 ;
    check bytes_eqb m magic_wtns else WMagic ;
    do v <- w_u32 ;
    check v =? 2 else WVersion ;
    do n <- w_u32 ;
    do acc <- n_rep n w_section ([], 0, []) ;
    w_finish acc.
  Definition wtns_from_bytes : res wtns_error witness_file := fst (w_from_bytes_m 0).
End CliReader.

(** Fr::deserialize_uncompressed of a byte slice (ark-ff, EmptyFlags): the first 32 bytes,
    little endian, must be a canonical value; further bytes are not looked at. *)
Definition fr_deserialize (b : list byte) : option Fr :=
  if blen b <? 32 then None else
  let v := Z.of_N (le_val (firstn 32 b)) in
  if (v <? bn_r)%Z then Some (fr v) else None.

(** [let mut a = [0u8; 32]; let len = bytes.len().min(32);
    a[..len].copy_from_slice(&bytes[..len])] (circuit.rs:60-62, lib.rs:311-313, 282-284). *)
Definition array32 (b : list byte) : list byte :=
  let len := Nat.min (length b) 32 in firstn len b ++ skipn len (repeat x00 32).
(** bytes_to_fr (circuit.rs:54-66, lib.rs:310-315; lib.rs:282-286 does the same inline):
    Fr::from_le_bytes_mod_order of that array. *)
Definition bytes_to_fr (b : list byte) : Fr := fr (Z.of_N (le_val (array32 b))).

(** to_field_elements (witness.rs:123-137): fails if any element fails (the hash order only
    selects the message). *)
Fixpoint all_some {A} (l : list (option A)) : option (list A) :=
  match l with
  | [] => Some []
  | None :: _ => None
  | Some a :: l => match all_some l with Some l => Some (a :: l) | None => None end
  end.
Definition to_field_elements (w : witness_file) : res wtns_error (list Fr) :=
  of_option WBadElement (all_some (map fr_deserialize (wf_values w))).

(** What the CLI commands use: from_file then to_field_elements. *)
Definition cli_read_witness (file : list byte) : res wtns_error (list Fr) :=
  rbind (wtns_from_bytes file) to_field_elements.

(** ** The WASM reader *)
Section JsReader.
  Variable W : N.
  Variable data : list byte.

  (** Unchecked [data[pos], data[pos+1], ..] (lib.rs:244-272). *)
  Definition jw_index (k : N) : J (list byte) := fun pos =>
    match slice data pos k with
    | Some b => (Ok b, wadd W pos k)
    | None => (Panic, pos)
    end.
  Definition jw_u32 : J N := do b <- jw_index 4 ; ret (le_val b).
  Definition jw_u64 : J N := do b <- jw_index 8 ; ret (le_val b).

  (** [while pos + n8 <= section_end { .. }] (lib.rs:281-289). [fuel] bounds the number of
      iterations; JsOutOfFuel means that the loop was still running. *)
  Fixpoint jw_loop (fuel : nat) (n8 send : N) (acc : list Fr) : J (list Fr) := fun pos =>
    match fuel with
    | O => (Err JsOutOfFuel, pos)
    | S fuel =>
      if wadd W pos n8 <=? send then
        match slice data pos (N.min n8 32) with
        | None => (Panic, pos)
        | Some b => jw_loop fuel n8 send (acc ++ [bytes_to_fr b]) (wadd W pos n8)
        end
      else (Ok acc, pos)
    end.

  (** One section (lib.rs:257-293); the accumulator is (n8, witness). *)
  Definition jw_section (fuel : nat) (acc : N * list Fr) : J (N * list Fr) :=
    let '(n8, w) := acc in
    do ty <- jw_u32 ;
    do sl <- jw_u64 ;
    do p <- js_get ;
    let send := wadd W p (sl mod W) in
    do acc' <- (if ty =? 1 then do n8' <- jw_u32 ; ret (n8', w)
                else if ty =? 2 then do w' <- jw_loop fuel n8 send w ; ret (n8, w')
                else ret (n8, w)) ;
    do _ <- js_goto send ;
    ret acc'.

  (** parse_witness (lib.rs:234-297). *)
  Definition jw_parse_m (fuel : nat) : J (list Fr) :=
    do m <- js_index W data 4 JsWrongMagic ;
    check bytes_eqb m magic_wtns else JsWrongMagic ;
    do v <- jw_u32 ;
    check v =? 2 else JsWrongVersion ;
    do n <- jw_u32 ;
    do acc <- n_rep n (jw_section fuel) (0, []) ;
    ret (snd acc).
  Definition js_parse_witness (fuel : nat) : res js_error (list Fr) := fst (jw_parse_m fuel 0).
End JsReader.
