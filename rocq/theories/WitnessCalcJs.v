(** Model of packages/zkenc-js/src/witness_calculator.js, the CommonJS original that
    witness_calculator.ts rewrites ("This file is a TypeScript rewrite of the witness_calculator.js",
    witness_calculator.ts:4), and of one calculator object asked several times.
    The flag given to init is not modelled: this file always passes 1 ([options] is never falsy,
    witness_calculator.js:3, 66-67), the rewrite 0, and the code circom generates does not look at it. *)
From Coq Require Import List Bool Arith NArith ZArith.
From Coq Require Import Strings.String Strings.Byte.
From Verif Require Import Res Bytes Text Reader Inputs Combined WitnessCalc.
Import ListNotations.
Local Open Scope N_scope.
Local Open Scope rd_scope.

(** flatArray (witness_calculator.js:297-311): the values are not converted yet. *)
Fixpoint leaves (a : json) : list json :=
  match a with
  | JArr l => (fix go (l : list json) : list json := match l with [] => [] | x :: l => leaves x ++ go l end) l
  | _ => [a]
  end.

Section Js.
  Context (m : wmodule).
  (** The loop over the values of one key (witness_calculator.js:147-159): normalize, and so
      BigInt(n), runs outside the try block. *)
  Fixpoint set_values_js (prime : Z) (k : text) (msb lsb i : N) (vals : list json) : Wc N :=
    match vals with
    | [] => ret 0
    | v :: vals =>
        do z <- lift_res (bigint_value v) ;
        do _ <- write_words m (to_array32 (normalize z prime) (md_n32 m)) ;
        do _ <- lift_opt (fun s => x_set_signal m s msb lsb i) (WcSet k i) ;
        do n <- set_values_js prime k msb lsb (i + 1) vals ;
        ret (1 + n)
    end.
  (** One key (witness_calculator.js:132-159). *)
  Definition set_key_js (prime : Z) (k : text) (v : json) : Wc N :=
    let h := fnv_hash k in
    let msb := parse_hex (firstn 8 h) in
    let lsb := parse_hex (firstn 8 (skipn 8 h)) in
    let vals := leaves v in
    let size := x_signal_size m msb lsb in
    let n := Z.of_nat (List.length vals) in
    if (size <? 0)%Z then fail (WcSignalNotFound k)
    else if (n <? size)%Z then fail (WcNotEnough k)
    else if (size <? n)%Z then fail (WcTooMany k)
    else set_values_js prime k msb lsb 0 vals.
  Fixpoint set_keys_js (prime : Z) (kvs : list (text * json)) : Wc N :=
    match kvs with
    | [] => ret 0
    | (k, v) :: kvs => do a <- set_key_js prime k v ; do b <- set_keys_js prime kvs ; ret (a + b)
    end.
  (** _doCalculateWitness (witness_calculator.js:127-165). *)
  Definition do_calculate_js (prime : Z) (input : list (text * json)) : Wc unit :=
    do _ <- lift_opt (x_init m) WcInit ;
    do count <- set_keys_js prime input ;
    if count <? input_size m then fail WcNotAllInputs else ret tt.

  (** calculateWitness (witness_calculator.js:167-183). *)
  Definition calculate_witness_js (input : list (text * json)) : res wc_error (list Z) :=
    fst ((do _ <- do_calculate_js (wc_prime m (state0 m)) input ; read_witness m (seq 0 (N.to_nat (md_wsize m)))) (x_raw_prime m (state0 m))).
  (** calculateBinWitness (witness_calculator.js:186-201). *)
  Definition calculate_bin_witness_js (input : list (text * json)) : res wc_error (list byte) :=
    match do_calculate_js (wc_prime m (state0 m)) input (x_raw_prime m (state0 m)) with
    | (Ok _, s) => Ok (put_witness m s (seq 0 (N.to_nat (md_wsize m))) (repeat x00 (4 * (N.to_nat (md_wsize m) * md_n32 m))) 0)
    | (Err e, _) => Err e
    | (Panic, _) => Panic
    end.

  (** buff32[idx] = parseInt(hex.slice(0,8),16); buff32[idx+1] = parseInt(hex.slice(8,16),16)
      (witness_calculator.js:229-231, 256-258); parseInt of the empty text is NaN, stored as 0. *)
  Definition put_hex64 (buf : list byte) (idx v : N) : list byte :=
    let hex := to_hex v in
    let buf := put32 buf idx (parse_hex (firstn 8 hex)) in
    put32 buf (idx + 1) (parse_hex (firstn 8 (skipn 8 hex))).
  (** calculateWTNSBin (witness_calculator.js:204-269). *)
  Definition wtns_layout_js (s : wstate) : list byte :=
    let n32 := N.of_nat (md_n32 m) in
    let buf := repeat x00 (4 * (N.to_nat (md_wsize m) * md_n32 m + md_n32 m + 11)) in
    let buf := put8 buf 0 x77 in
    let buf := put8 buf 1 x74 in
    let buf := put8 buf 2 x6e in
    let buf := put8 buf 3 x73 in
    let buf := put32 buf 1 2 in
    let buf := put32 buf 2 2 in
    let buf := put32 buf 3 1 in
    let n8 := n32 * 4 in
    let buf := put_hex64 buf 4 (8 + n8) in
    let buf := put32 buf 6 n8 in
    let s := x_raw_prime m s in
    let pos := 7 in
    let buf := put_shared m s buf pos in
    let pos := pos + n32 in
    let buf := put32 buf pos (md_wsize m) in
    let pos := pos + 1 in
    let buf := put32 buf pos 2 in
    let pos := pos + 1 in
    let buf := put_hex64 buf pos (n8 * md_wsize m) in
    let pos := pos + 2 in
    put_witness m s (seq 0 (N.to_nat (md_wsize m))) buf pos.
  Definition calculate_wtns_js (input : list (text * json)) : res wc_error (list byte) :=
    match do_calculate_js (wc_prime m (state0 m)) input (x_raw_prime m (state0 m)) with
    | (Ok _, s) => Ok (wtns_layout_js s)
    | (Err e, _) => Err e
    | (Panic, _) => Panic
    end.

  (** ** One calculator, several calls *)
  (** The three methods (witness_calculator.ts:108-127, 129-148, 150-217; the same in
      witness_calculator.js).  Each runs to its [await] in one go: _doCalculateWitness awaits nothing.
      Then it resumes, reads the result off the instance and answers. *)
  Inductive request := AskNumbers (input : list (text * json)) | AskBytes (input : list (text * json)) | AskFile (input : list (text * json)).
  Inductive answer := Numbers (r : res wc_error (list Z)) | Binary (r : res wc_error (list byte)).
  Definition input_of (q : request) : list (text * json) := match q with AskNumbers x | AskBytes x | AskFile x => x end.
  (** The first part throws: the promise is rejected. *)
  Definition rejected (q : request) (e : wc_error) : answer :=
    match q with AskNumbers _ => Numbers (Err e) | _ => Binary (Err e) end.
  Definition stuck (q : request) : answer := match q with AskNumbers _ => Numbers Panic | _ => Binary Panic end.
  (** The state the second part leaves: the last getWitness. *)
  Definition after_reading (s : wstate) : wstate :=
    fold_left (fun s i => x_get_witness m s i) (seq 0 (N.to_nat (md_wsize m))) s.
  Definition finish (q : request) (s : wstate) : answer * wstate :=
    match q with
    | AskNumbers _ => let (r, s) := read_witness m (seq 0 (N.to_nat (md_wsize m))) s in (Numbers r, s)
    | AskBytes _ => (Binary (Ok (put_witness m s (seq 0 (N.to_nat (md_wsize m))) (repeat x00 (4 * (N.to_nat (md_wsize m) * md_n32 m))) 0)), after_reading s)
    | AskFile _ => (Binary (wtns_layout m s), after_reading (x_raw_prime m s))
    end.
  (** What happens to one calculator: call number [i] starts, or resumes.  Answers so far, calls
      waiting to resume, the instance. *)
  Inductive event := Start (i : nat) (q : request) | Finish (i : nat).
  Record calls := Calls { answered : list (nat * answer); waiting : list (nat * request); instance : wstate }.
  Definition step (prime : Z) (c : calls) (e : event) : calls :=
    match e with
    | Start i q =>
        match do_calculate m prime (input_of q) (instance c) with
        | (Ok _, s) => Calls (answered c) ((i, q) :: waiting c) s
        | (Err e, s) => Calls (answered c ++ [(i, rejected q e)]) (waiting c) s
        | (Panic, s) => Calls (answered c ++ [(i, stuck q)]) (waiting c) s
        end
    | Finish i =>
        match find (fun w => Nat.eqb (fst w) i) (waiting c) with
        | Some (_, q) => let (a, s) := finish q (instance c) in
                         Calls (answered c ++ [(i, a)]) (filter (fun w => negb (Nat.eqb (fst w) i)) (waiting c)) s
        | None => c
        end
    end.
  (** A new calculator (the constructor reads the prime, witness_calculator.ts:35-53), then the events. *)
  Definition history (evs : list event) : calls :=
    fold_left (step (wc_prime m (state0 m))) evs (Calls [] [] (x_raw_prime m (state0 m))).
  Definition answers (evs : list event) : list (nat * answer) := answered (history evs).
End Js.
