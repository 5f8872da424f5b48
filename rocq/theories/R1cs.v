(** Model of the CLI's r1cs reader, packages/zkenc-cli/src/r1cs.rs. *)
From Coq Require Import List Bool Arith NArith ZArith Lia.
From Coq Require Import Strings.Byte.
From Verif Require Import Res Bytes Reader.
Import ListNotations.
Local Open Scope N_scope.
Local Open Scope rd_scope.

(** LinearCombination (r1cs.rs:34-37): (wire, coefficient bytes) in file order. *)
Definition lc_t := list (N * list byte).

(** Constraint (r1cs.rs:27-32). *)
Record constraint_t := Constraint { c_a : lc_t; c_b : lc_t; c_c : lc_t }.

(** R1csFile (r1cs.rs:13-25). *)
Record r1cs_file := R1csFile {
  r_field_size : N; r_prime : list byte; r_n_wires : N; r_n_pub_out : N; r_n_pub_in : N;
  r_n_prv_in : N; r_n_labels : N; r_n_constraints : N;
  r_constraints : list constraint_t; r_wire2label : list N
}.

(** R1csHeader (r1cs.rs:246-256). *)
Record r1cs_header := R1csHeader {
  h_field_size : N; h_prime : list byte; h_n_wires : N; h_n_pub_out : N; h_n_pub_in : N;
  h_n_prv_in : N; h_n_labels : N; h_n_constraints : N
}.

(** The anyhow errors, by cause. *)
Inductive r1cs_error := IoError | WrongMagic | WrongVersion | HeaderNotFound | ConstraintsNotFound.

(** BufReader<File>: the logical stream position and, as a ghost, the number of bytes of each
    up-front reservation ([with_capacity], [vec![0u8; n]]), newest first.  Buffering is not
    modelled: BufReader gives the file's bytes at the logical position. *)
Record rstate := RState { rpos : N; reserved : list N }.
Definition R A := M rstate r1cs_error A.

Section Reader.
  Variable file : list byte.
  (** Largest file offset [lseek] accepts (file-system dependent, at most 2^63-1). *)
  Variable max_off : N.

  (** Read::read_exact: fails (UnexpectedEof) unless [n] bytes remain; an empty buffer is
      filled at any position. *)
  Definition read_exact (n : N) : R (list byte) := fun s =>
    if n =? 0 then (Ok [], s) else
    match slice file (rpos s) n with
    | Some b => (Ok b, RState (rpos s + n) (reserved s))
    | None => (Err IoError, s)
    end.

  Definition reserve (bytes : N) : R unit := fun s => (Ok tt, RState (rpos s) (bytes :: reserved s)).

  (** read_u32 / read_u64 (r1cs.rs:259-269). *)
  Definition read_u32 : R N := do b <- read_exact 4 ; ret (le_val b).
  Definition read_u64 : R N := do b <- read_exact 8 ; ret (le_val b).

  (** Seek::seek(SeekFrom::Start(p)). *)
  Definition seek_start (p : N) : R unit := fun s =>
    if p <=? max_off then (Ok tt, RState p (reserved s)) else (Err IoError, s).

  (** [section_size as i64] (r1cs.rs:122). *)
  Definition as_i64 (n : N) : Z :=
    if n <? 2 ^ 63 then Z.of_N n else (Z.of_N n - 2 ^ 64)%Z.

  (** BufReader::seek_relative: fails if the target is negative or beyond the largest offset;
      moving past the end of the file is allowed. *)
  Definition seek_relative (d : Z) : R unit := fun s =>
    let t := (Z.of_N (rpos s) + d)%Z in
    if ((0 <=? t) && (t <=? Z.of_N max_off))%Z
    then (Ok tt, RState (Z.to_N t) (reserved s)) else (Err IoError, s).

  Definition get_pos : R N := fun s => (Ok (rpos s), s).

  (** The body of the first pass (r1cs.rs:117-123). *)
  Definition read_section : R (N * N * N) :=
    do t <- read_u32 ;
    do sz <- read_u64 ;
    do p <- get_pos ;
    do _ <- seek_relative (as_i64 sz) ;
    ret (t, sz, p).

  (** [sections.iter().find(|(t, _, _)| *t == ty)]: position of the first such section. *)
  Definition find_section (ty : N) (secs : list (N * N * N)) : option N :=
    match find (fun x => fst (fst x) =? ty) secs with
    | Some (_, _, p) => Some p
    | None => None
    end.

  (** parse_header (r1cs.rs:175-197). *)
  Definition parse_header : R r1cs_header :=
    do fs <- read_u32 ;
    do _ <- reserve fs ;
    do prime <- read_exact fs ;
    do nw <- read_u32 ;
    do npo <- read_u32 ;
    do npi <- read_u32 ;
    do nprv <- read_u32 ;
    do nl <- read_u64 ;
    do nc <- read_u32 ;
    ret (R1csHeader fs prime nw npo npi nprv nl nc).

  Definition parse_factor (field_size : N) : R (N * list byte) :=
    do w <- read_u32 ;
    do _ <- reserve field_size ;
    do v <- read_exact field_size ;
    ret (w, v).

  (** parse_lc (r1cs.rs:217-229); a factor is (u32, Vec<u8>), 32 bytes on 64-bit targets. *)
  Definition parse_lc (field_size : N) : R lc_t :=
    do n <- read_u32 ;
    do _ <- reserve (n * 32) ;
    mmany n (parse_factor field_size).

  Definition parse_constraint (field_size : N) : R constraint_t :=
    do a <- parse_lc field_size ;
    do b <- parse_lc field_size ;
    do c <- parse_lc field_size ;
    ret (Constraint a b c).

  (** parse_constraints (r1cs.rs:199-215); a Constraint is three Vecs, 72 bytes. *)
  Definition parse_constraints (n_constraints field_size : N) : R (list constraint_t) :=
    do _ <- reserve (n_constraints * 72) ;
    mmany n_constraints (parse_constraint field_size).

  (** parse_wire2label (r1cs.rs:231-237). *)
  Definition parse_wire2label (n_wires : N) : R (list N) :=
    do _ <- reserve (n_wires * 8) ;
    mmany n_wires read_u64.

  (** [(0..header.n_wires as u64).collect()] (r1cs.rs:158). *)
  Definition default_labels (n_wires : N) : list N := map N.of_nat (seq 0 (N.to_nat n_wires)).

  Definition magic_r1cs : list byte := [x72; x31; x63; x73].
  Definition bytes_eqb (a b : list byte) : bool :=
    if list_eq_dec Byte.byte_eq_dec a b then true else false.

  (** First pass of from_file (r1cs.rs:101-124). *)
  Definition read_sections : R (list (N * N * N)) :=
    do magic <- read_exact 4 ;
    check bytes_eqb magic magic_r1cs else WrongMagic ;
    do version <- read_u32 ;
    check version =? 1 else WrongVersion ;
    do n <- read_u32 ;
    mmany n read_section.

  (** from_file (r1cs.rs:96-173), without opening the file. *)
  Definition from_bytes_m : R r1cs_file :=
    do secs <- read_sections ;
    match find_section 1 secs with
    | None => fail HeaderNotFound
    | Some p =>
      do _ <- seek_start p ;
      do h <- parse_header ;
      match find_section 2 secs with
      | None => fail ConstraintsNotFound
      | Some p =>
        do _ <- seek_start p ;
        do cs <- parse_constraints (h_n_constraints h) (h_field_size h) ;
        do wl <- match find_section 3 secs with
                 | Some p => do _ <- seek_start p ; parse_wire2label (h_n_wires h)
                 | None => do _ <- reserve (h_n_wires h * 8) ; ret (default_labels (h_n_wires h))
                 end ;
        ret (R1csFile (h_field_size h) (h_prime h) (h_n_wires h) (h_n_pub_out h) (h_n_pub_in h)
               (h_n_prv_in h) (h_n_labels h) (h_n_constraints h) cs wl)
      end
    end.
End Reader.

(** R1csFile::from_file (r1cs.rs:96-173) on a file with the given bytes. *)
Definition r1cs_from_bytes (max_off : N) (file : list byte) : res r1cs_error r1cs_file :=
  fst (from_bytes_m file max_off (RState 0 [])).

(** Ghost: the reservations made, in order, whatever the outcome. *)
Definition r1cs_reservations (max_off : N) (file : list byte) : list N :=
  rev (reserved (snd (from_bytes_m file max_off (RState 0 [])))).

(** n_public_inputs (r1cs.rs:240-242): u32 addition; wraps in release builds, panics in debug
    builds ([overflow_checks]). *)
Definition n_public_inputs (overflow_checks : bool) (r : r1cs_file) : res unit N :=
  let s := r_n_pub_out r + r_n_pub_in r in
  if s <? 2 ^ 32 then Ok s else if overflow_checks then Panic else Ok (s mod 2 ^ 32).
