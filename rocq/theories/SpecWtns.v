(** Specification: the snarkjs wtns format (version 2) as an encoder, and what each reader is
    expected to return for a sequence of sections. *)
From Coq Require Import List Bool Arith NArith ZArith Lia.
From Coq Require Import Strings.Byte.
From Verif Require Import Bytes SpecR1cs Fld Bn254.
Import ListNotations.
Local Open Scope N_scope.

(** A section: the header (prime, number of elements), the data, or anything else. *)
Inductive wsec :=
| WHeader (prime : list byte) (n : N)
| WData (d : list byte)
| WOther (ty : N) (payload : list byte).

Definition wsec_type (s : wsec) : N :=
  match s with WHeader _ _ => 1 | WData _ => 2 | WOther ty _ => ty end.
Definition wsec_payload (s : wsec) : list byte :=
  match s with WHeader p n => u32 (blen p) ++ p ++ u32 n | WData d => d | WOther _ p => p end.
Definition wsec_ok (s : wsec) : Prop :=
  match s with
  | WHeader p n => blen p < 2 ^ 32 /\ n < 2 ^ 32
  | WData d => True
  | WOther ty _ => ty <> 1 /\ ty <> 2 /\ ty < 2 ^ 32
  end.

Definition ascii_wtns : list byte := ["w"; "t"; "n"; "s"]%byte.
Definition wtns_bytes (secs : list wsec) : list byte :=
  ascii_wtns ++ u32 2 ++ u32 (N.of_nat (length secs))
  ++ flat_map (fun s => section_bytes (wsec_type s, wsec_payload s)) secs.

(** The last header and the last data section. *)
Definition last_header (secs : list wsec) : list byte * N :=
  fold_left (fun a s => match s with WHeader p n => (p, n) | _ => a end) secs ([], 0).
Definition last_data (secs : list wsec) : list byte :=
  fold_left (fun a s => match s with WData d => d | _ => a end) secs [].

(** Concatenated elements of equal width. *)
Definition elements (fs : N) (d : list byte) (vals : list (list byte)) : Prop :=
  concat vals = d /\ Forall (fun v => blen v = fs) vals.

(** A standard witness file: one 32-byte header and one data section after it, unknown
    sections anywhere. *)
Definition standard_secs (prime : list byte) (vals : list (list byte)) (secs : list wsec) : Prop :=
  exists u0 u1 u2, Forall (fun s => match s with WOther _ _ => True | _ => False end) (u0 ++ u1 ++ u2) /\
    secs = u0 ++ WHeader prime (N.of_nat (length vals)) :: u1 ++ WData (concat vals) :: u2.

(** The residue of a little-endian integer. *)
Definition residue (b : list byte) : Fr := fr (Z.of_N (le_val b)).

(** The value of an element as both tools should see it: its first 32 bytes. *)
Definition element_value (b : list byte) : Fr := residue (firstn 32 b).

(** What the WASM reader makes of the sections, given the element width in force: [None] when
    it meets a data section while the width is zero. *)
Inductive js_reads : N -> list wsec -> option (list Fr) -> Prop :=
| JRnil w : js_reads w [] (Some [])
| JRheader w p n secs r : js_reads (blen p) secs r -> js_reads w (WHeader p n :: secs) r
| JRother w ty pl secs r : js_reads w secs r -> js_reads w (WOther ty pl :: secs) r
| JRstuck d secs : js_reads 0 (WData d :: secs) None
| JRdata w d secs vals tail r : w <> 0 -> d = concat vals ++ tail ->
    Forall (fun v => blen v = w) vals -> blen tail < w ->
    js_reads w secs r ->
    js_reads w (WData d :: secs)
      (match r with Some l => Some (map element_value vals ++ l) | None => None end).

(** ** Specification: reading section after section, positions modulo 2^32 *)
(** The file starts with the magic, version 2 and [n] announced sections. *)
Definition wtns_announces (data : list byte) (n : N) : Prop :=
  n < 2 ^ 32 /\ occurs data 0 (ascii_wtns ++ u32 2 ++ u32 n).
(** Reading elements of width [w] from position [p] up to [e]: one more as long as its end does not
    pass [e]; all but the first 32 bytes of an element are skipped, and need not be there. *)
Inductive data_run (data : list byte) (w e : N) : N -> list Fr -> Prop :=
| run_end p : e < (p + w) mod 2 ^ 32 -> data_run data w e p []
| run_step p b l : (p + w) mod 2 ^ 32 <= e -> occurs data p b -> blen b = N.min w 32 ->
    data_run data w e ((p + w) mod 2 ^ 32) l -> data_run data w e p (element_value b :: l).
(** One section at [p] while the width is [w]: the width afterwards, the next position, the values. *)
Inductive passes1 (data : list byte) : N -> N -> N -> N -> list Fr -> Prop :=
| pass_header w p len w' : len < 2 ^ 64 -> w' < 2 ^ 32 -> occurs data p (u32 1 ++ u64 len ++ u32 w') ->
    passes1 data w p w' ((p + 12 + len) mod 2 ^ 32) []
| pass_data w p len l : len < 2 ^ 64 -> occurs data p (u32 2 ++ u64 len) ->
    data_run data w ((p + 12 + len) mod 2 ^ 32) (p + 12) l ->
    passes1 data w p w ((p + 12 + len) mod 2 ^ 32) l
| pass_other w p t len : len < 2 ^ 64 -> t < 2 ^ 32 -> t <> 1 -> t <> 2 -> occurs data p (u32 t ++ u64 len) ->
    passes1 data w p w ((p + 12 + len) mod 2 ^ 32) [].
Inductive passes (data : list byte) : N -> N -> nat -> N -> N -> list Fr -> Prop :=
| passes_nil w p : passes data w p 0 w p []
| passes_cons w p n w1 p1 l1 w2 p2 l2 : passes1 data w p w1 p1 l1 -> passes data w1 p1 n w2 p2 l2 ->
    passes data w p (S n) w2 p2 (l1 ++ l2).
(** A data section at [p] that the reader never leaves while the width is zero. *)
Definition endless (data : list byte) (p : N) : Prop :=
  exists len, len < 2 ^ 64 /\ occurs data p (u32 2 ++ u64 len) /\ p + 12 <= (p + 12 + len) mod 2 ^ 32.

