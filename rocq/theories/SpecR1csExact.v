(** Specification: exactly which byte strings the two r1cs readers accept.
    Uses [occurs], [announces], [walks], [first_of] (SpecR1cs.v, R1csJsPanic.v). *)
From Coq Require Import List Bool Arith NArith ZArith Lia.
From Coq Require Import Strings.Byte.
From Verif Require Import Bytes R1cs SpecR1cs R1csJs R1csJsPanic.
Import ListNotations.
Local Open Scope N_scope.

(** A 64-bit integer read as two's complement. *)
Definition signed64 (len : N) : Z := ((Z.of_N len + 2 ^ 63) mod 2 ^ 64 - 2 ^ 63)%Z.

(** The command-line reader's walk over section headers, from [p] to [q]: the next header is
    [len] bytes (a signed number!) after the end of this one, anywhere from 0 to [max_off]. *)
Inductive cli_walks (data : list byte) (max_off : N) : N -> list (N * N) -> N -> Prop :=
| cli_walks_nil p : cli_walks data max_off p [] p
| cli_walks_cons p t len next l q :
    t < 2 ^ 32 -> len < 2 ^ 64 -> occurs data p (u32 t ++ u64 len) ->
    Z.of_N next = (Z.of_N (p + 12) + signed64 len)%Z -> next <= max_off ->
    cli_walks data max_off next l q ->
    cli_walks data max_off p ((t, p + 12) :: l) q.

(** The section table of the file as the command-line reader sees it. *)
Definition cli_table (data : list byte) (max_off : N) (l : list (N * N)) : Prop :=
  exists n q, announces data n /\ cli_walks data max_off 12 l q /\ N.of_nat (length l) = n.

(** The file [data], read by the command-line tool, holds [r]. *)
Definition cli_holds (data : list byte) (max_off : N) (r : r1cs_file) : Prop :=
  r1cs_ok r /\
  exists l p1 p2, cli_table data max_off l /\
    first_of 1 l p1 /\ occurs data p1 (header_payload r) /\
    first_of 2 l p2 /\ occurs data p2 (constraints_payload r) /\
    ((exists p3, first_of 3 l p3 /\ occurs data p3 (labels_payload r)) \/
     (~ In 3 (map fst l) /\ r_wire2label r = map N.of_nat (seq 0 (N.to_nat (r_n_wires r))))).

(** The section table as the WASM reader sees it (positions modulo 2^32). *)
Definition js_table (data : list byte) (l : list (N * N)) : Prop :=
  exists n q, announces data n /\ walks data 12 l q /\ N.of_nat (length l) = n.

(** Header of the WASM reader: the prime is skipped by position (modulo 2^32), the number of
    private inputs and labels is skipped. *)
Definition js_header_at (data : list byte) (p : N) (h : js_header) : Prop :=
  j_field_size h < 2 ^ 32 /\ j_n_wires h < 2 ^ 32 /\ j_n_pub_out h < 2 ^ 32 /\
  j_n_pub_in h < 2 ^ 32 /\ j_n_constraints h < 2 ^ 32 /\
  occurs data p (u32 (j_field_size h)) /\
  exists skipped, blen skipped = 12 /\
    occurs data ((p + 4 + j_field_size h) mod 2 ^ 32)
      (u32 (j_n_wires h) ++ u32 (j_n_pub_out h) ++ u32 (j_n_pub_in h) ++ skipped ++ u32 (j_n_constraints h)).

Definition js_holds (data : list byte) (h : js_header) (cs : list constraint_t) : Prop :=
  exists l p1 p2, js_table data l /\
    first_of 1 l p1 /\ js_header_at data p1 h /\
    first_of 2 l p2 /\ occurs data p2 (flat_map constraint_bytes cs) /\
    N.of_nat (length cs) = j_n_constraints h /\ Forall (constraint_ok (j_field_size h)) cs.

(** Every announced section lies inside the file. *)
Inductive inside (data : list byte) : N -> list (N * N) -> Prop :=
| inside_nil p : inside data p []
| inside_cons p t len l : t < 2 ^ 32 -> occurs data p (u32 t ++ u64 len) -> p + 12 + len <= blen data ->
    inside data (p + 12 + len) l -> inside data p ((t, p + 12) :: l).
Definition table_inside (data : list byte) (l : list (N * N)) : Prop :=
  announces data (N.of_nat (length l)) /\ inside data 12 l.

(** A whole header lies at [p]: field size, prime, four counts, the number of labels and the
    number of constraints. *)
Definition header_fits (data : list byte) (p : N) : Prop :=
  exists fs, fs < 2 ^ 32 /\ occurs data p (u32 fs) /\ p + 32 + fs <= blen data.
