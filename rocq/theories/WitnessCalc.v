(** Model of packages/zkenc-js/src/witness_calculator.ts and witness.ts:23-34, 42-49.
    The compiled circuit (a circom WASM module) is external: [wmodule] gives its data and the
    functions [x_*] the behaviour of its exports, as circom's code generator writes them.
    WASM i32 results are signed JavaScript numbers, arguments are converted with ToInt32, and
    storing into a Uint32Array converts with ToUint32.  Typed arrays are little endian (as on every
    platform with WebAssembly).  Messages and the log are in Runtime.v.  A name is a list of
    Unicode scalar values, so lone surrogates are not covered. *)
From Coq Require Import List Bool Arith NArith ZArith.
From Coq Require Import Strings.String Strings.Byte.
From Verif Require Import Res Bytes Text Reader Inputs JsNumber Combined.
Import ListNotations.
Local Open Scope N_scope.
Local Open Scope rd_scope.

(** ** Helper functions *)
(** toArray32 (witness_calculator.ts:315-330): [while (rem)], [%] and [/] of BigInts truncate towards
    zero.  [fuel] is enough when it is at least the number of iterations. *)
Fixpoint to_array32_loop (fuel : nat) (rem : Z) (res : list Z) : list Z :=
  match fuel with
  | O => res
  | S fuel => if (rem =? 0)%Z then res
              else to_array32_loop fuel (Z.quot rem (2 ^ 32)) (Z.rem rem (2 ^ 32) :: res)
  end.
Definition to_array32 (rem : Z) (size : nat) : list Z :=
  let res := to_array32_loop (S (Z.to_nat (Z.log2 (Z.abs rem)))) rem [] in
  repeat 0%Z (size - List.length res) ++ res.
(** fromArray32 (witness_calculator.ts:332-339). *)
Definition from_array32 (arr : list N) : Z := fold_left (fun res a => (res * 2 ^ 32 + Z.of_N a)%Z) arr 0%Z.

(** BigInt(a) for a value that is not an array (witness_calculator.ts:352): a Number must be a whole
    one and stands for its exact value (RangeError otherwise), a boolean is 1 or 0, a string is read
    as in StringToBigInt, null is a TypeError, an object becomes "[object Object]". *)
Definition bigint_value (v : json) : res js_throw Z :=
  match v with
  | JNull => Err JsTypeError
  | JBool b => Ok (if b then 1%Z else 0%Z)
  | JInt z => Ok z
  | JFloat t => match number_bigint t with Some z => Ok z | None => Err JsRangeError end
  | JStr t => match js_bigint t with Some z => Ok z | None => Err JsSyntaxError end
  | JArr _ | JObj _ => Err JsSyntaxError
  end.
(** flatArray (witness_calculator.ts:341-355). *)
Fixpoint fill_array (acc : list Z) (a : json) : res js_throw (list Z) :=
  match a with
  | JArr l =>
      (fix go (acc : list Z) (l : list json) : res js_throw (list Z) :=
         match l with
         | [] => Ok acc
         | x :: l => match fill_array acc x with Ok acc => go acc l | Err e => Err e | Panic => Panic end
         end) acc l
  | _ => match bigint_value a with Ok z => Ok (acc ++ [z]) | Err e => Err e | Panic => Panic end
  end.
Definition flat_array (a : json) : res js_throw (list Z) := fill_array [] a.
(** normalize (witness_calculator.ts:357-361). *)
Definition normalize (n prime : Z) : Z :=
  let res := Z.rem n prime in if (res <? 0)%Z then (res + prime)%Z else res.

(** charCodeAt: UTF-16 code units. *)
Definition utf16_char (c : N) : list N :=
  if c <? 65536 then [c] else [55296 + (c - 65536) / 1024; 56320 + (c - 65536) mod 1024].
Definition utf16 (t : text) : list N := flat_map utf16_char t.
(** The loop of fnvHash (witness_calculator.ts:363-370). *)
Definition fnv_step (hash c : N) : N := (N.lxor hash c * 1099511628211) mod 2 ^ 64.
Definition fnv_units (cs : list N) : N := fold_left fnv_step cs 14695981039346656037.
(** toString(16), padded to 16 characters (witness_calculator.ts:371-374). *)
Definition hex_char (d : N) : N := if d <? 10 then 48 + d else 87 + d.
Fixpoint hex_loop (fuel : nat) (v : N) (acc : text) : text :=
  match fuel with
  | O => acc
  | S fuel => let acc := hex_char (v mod 16) :: acc in
              if v / 16 =? 0 then acc else hex_loop fuel (v / 16) acc
  end.
Definition to_hex (v : N) : text := hex_loop (S (N.to_nat (N.log2 v))) v [].
Definition fnv_hash (k : text) : text :=
  let shash := to_hex (fnv_units (utf16 k)) in
  repeat 48 (16 - List.length shash) ++ shash.
(** parseInt(h.slice(a, b), 16) (witness_calculator.ts:71-72). *)
Definition parse_hex (t : text) : N := match radix_value 16 t 0 with Some v => v | None => 0 end.

(** ** The compiled circuit *)
Definition u32_of (z : Z) : N := Z.to_N (z mod 2 ^ 32).
Definition i32_of (n : N) : Z := if n mod 2 ^ 32 <? 2 ^ 31 then Z.of_N (n mod 2 ^ 32) else (Z.of_N (n mod 2 ^ 32) - 2 ^ 32)%Z.

(** An assignment: hash of the signal name, index, value. *)
Definition setting : Type := (N * N * N)%type.
Record wmodule := WModule {
  md_version : N;
  md_n32 : nat;                              (* words of a field element *)
  md_prime : N;
  md_signals : list (N * N);                 (* input signals: 64-bit hash and number of values *)
  md_wsize : N;                              (* number of witness elements *)
  md_compute : list setting -> option (list N)   (* None: an assertion of the circuit fails *)
}.
(** Shared memory words (least significant first), settings so far, the computed witness. *)
Record wstate := WState { ws_shared : list N; ws_given : list setting; ws_witness : option (list N) }.

Inductive wc_error :=
| WcInit | WcValue (e : js_throw) | WcSignalNotFound (k : text) | WcNotEnough (k : text) | WcTooMany (k : text)
| WcSet (k : text) (i : N) | WcNotAllInputs | WcRange.
Definition Wc A := M wstate wc_error A.

(** [n] little-endian 32-bit words. *)
Fixpoint words_of (n : nat) (v : N) : list N :=
  match n with O => [] | S n => v mod 2 ^ 32 :: words_of n (v / 2 ^ 32) end.
Fixpoint words_val (ws : list N) : N := match ws with [] => 0 | w :: ws => w + 2 ^ 32 * words_val ws end.

Section Exports.
  Context (m : wmodule).
  Definition input_size : N := fold_right (fun s a => snd s + a) 0 (md_signals m).
  Definition find_signal (h : N) : option N :=
    match find (fun s => fst s =? h) (md_signals m) with Some (_, n) => Some n | None => None end.
  (** The 64-bit hash a call passes in two i32 halves. *)
  Definition join64 (msb lsb : N) : N := (msb mod 2 ^ 32) * 2 ^ 32 + lsb mod 2 ^ 32.

  Definition x_raw_prime (s : wstate) : wstate := WState (words_of (md_n32 m) (md_prime m)) (ws_given s) (ws_witness s).
  Definition x_read (s : wstate) (j : nat) : Z := i32_of (nth j (ws_shared s) 0).
  Definition x_write (s : wstate) (j : nat) (v : Z) : wstate :=
    WState (firstn j (ws_shared s) ++ u32_of v :: skipn (S j) (ws_shared s)) (ws_given s) (ws_witness s).
  (** When all inputs are set the circuit runs; a failing assertion calls exceptionHandler, which
      throws. *)
  Definition x_run (s : wstate) : option wstate :=
    if N.of_nat (List.length (ws_given s)) =? input_size
    then match md_compute m (ws_given s) with
         | Some w => Some (WState (ws_shared s) (ws_given s) (Some w))
         | None => None
         end
    else Some s.
  Definition x_init (s : wstate) : option wstate := x_run (WState (ws_shared s) [] None).
  Definition x_signal_size (msb lsb : N) : Z :=
    match find_signal (join64 msb lsb) with Some n => Z.of_N n | None => (-1)%Z end.
  Definition already_set (h i : N) (s : wstate) : bool :=
    existsb (fun g => (fst (fst g) =? h) && (snd (fst g) =? i)) (ws_given s).
  Definition x_set_signal (s : wstate) (msb lsb i : N) : option wstate :=
    let h := join64 msb lsb in
    match find_signal h with
    | None => None
    | Some n =>
        if n <=? i then None
        else if already_set h i s then None
        else x_run (WState (ws_shared s) (ws_given s ++ [(h, i, words_val (ws_shared s))]) (ws_witness s))
    end.
  Definition x_get_witness (s : wstate) (i : nat) : wstate :=
    WState (words_of (md_n32 m) (nth i (match ws_witness s with Some w => w | None => [] end) 0)) (ws_given s) (ws_witness s).

  (** ** The calculator *)
  Definition lift_state (f : wstate -> wstate) : Wc unit := fun s => (Ok tt, f s).
  Definition lift_opt (f : wstate -> option wstate) (e : wc_error) : Wc unit :=
    fun s => match f s with Some s' => (Ok tt, s') | None => (Err e, s) end.
  Definition lift_res {A} (x : res js_throw A) : Wc A :=
    fun s => (match x with Ok a => Ok a | Err e => Err (WcValue e) | Panic => Panic end, s).

  (** arr[n32 - 1 - i] = readSharedRWMemory(i) into a Uint32Array (witness_calculator.ts:45-48,
      118-121). *)
  Definition read_reversed (s : wstate) : list N := rev (map (fun j => u32_of (x_read s j)) (seq 0 (md_n32 m))).
  (** this.prime (witness_calculator.ts:43-49). *)
  Definition wc_prime (s : wstate) : Z := from_array32 (read_reversed (x_raw_prime s)).

  (** The two inner loops for one value (witness_calculator.ts:87-96); [i] is its index. *)
  Definition write_words (arr : list Z) : Wc unit :=
    lift_state (fun s => fold_left (fun s j => x_write s j (nth (md_n32 m - 1 - j) arr 0%Z)) (seq 0 (md_n32 m)) s).
  Fixpoint set_values (prime : Z) (k : text) (msb lsb i : N) (vals : list Z) : Wc N :=
    match vals with
    | [] => ret 0
    | v :: vals =>
        do _ <- write_words (to_array32 (normalize v prime) (md_n32 m)) ;
        do _ <- lift_opt (fun s => x_set_signal s msb lsb i) (WcSet k i) ;
        do n <- set_values prime k msb lsb (i + 1) vals ;
        ret (1 + n)
    end.
  (** One key (witness_calculator.ts:69-97); returns how many values were set. *)
  Definition set_key (prime : Z) (k : text) (v : json) : Wc N :=
    let h := fnv_hash k in
    let msb := parse_hex (firstn 8 h) in
    let lsb := parse_hex (firstn 8 (skipn 8 h)) in
    do vals <- lift_res (flat_array v) ;
    let size := x_signal_size msb lsb in
    let n := Z.of_nat (List.length vals) in
    if (size <? 0)%Z then fail (WcSignalNotFound k)
    else if (n <? size)%Z then fail (WcNotEnough k)
    else if (size <? n)%Z then fail (WcTooMany k)
    else set_values prime k msb lsb 0 vals.
  Fixpoint set_keys (prime : Z) (kvs : list (text * json)) : Wc N :=
    match kvs with
    | [] => ret 0
    | (k, v) :: kvs => do a <- set_key prime k v ; do b <- set_keys prime kvs ; ret (a + b)
    end.
  (** _doCalculateWitness (witness_calculator.ts:59-106). *)
  Definition do_calculate (prime : Z) (input : list (text * json)) : Wc unit :=
    do _ <- lift_opt x_init WcInit ;
    do count <- set_keys prime input ;
    if count <? input_size then fail WcNotAllInputs else ret tt.

  Definition state0 : wstate := WState (repeat 0 (md_n32 m)) [] None.

  (** calculateWitness (witness_calculator.ts:108-127) on a fresh instance. *)
  Fixpoint read_witness (is : list nat) : Wc (list Z) :=
    match is with
    | [] => ret []
    | i :: is =>
        do _ <- lift_state (fun s => x_get_witness s i) ;
        do w <- (fun s => (Ok (from_array32 (read_reversed s)), s)) ;
        do ws <- read_witness is ;
        ret (w :: ws)
    end.
  Definition calculate_witness_m (input : list (text * json)) : Wc (list Z) :=
    fun s0 => (do _ <- do_calculate (wc_prime s0) input ; read_witness (seq 0 (N.to_nat (md_wsize m)))) (x_raw_prime s0).
  (** calculateWitnessArray (witness.ts:42-49). *)
  Definition calculate_witness (input : list (text * json)) : res wc_error (list Z) := fst (calculate_witness_m input state0).

  (** buff32[idx] = v: outside the array nothing happens.  setBigUint64 outside it throws. *)
  Definition put32 (buf : list byte) (idx v : N) : list byte :=
    match js_write buf (4 * idx) (le_bytes 4 v) with Ok b => b | _ => buf end.
  Definition put8 (buf : list byte) (idx : N) (v : byte) : list byte :=
    match js_write buf idx [v] with Ok b => b | _ => buf end.
  Definition put_big64 (buf : list byte) (off v : N) : res wc_error (list byte) :=
    match js_write buf off (le_bytes 8 v) with Ok b => Ok b | _ => Err WcRange end.
  (** for (j = 0; j < n32; j++) buff32[pos + j] = readSharedRWMemory(j). *)
  Definition put_shared (s : wstate) (buf : list byte) (pos : N) : list byte :=
    fold_left (fun buf j => put32 buf (pos + N.of_nat j) (u32_of (x_read s j))) (seq 0 (md_n32 m)) buf.
  Fixpoint put_witness (s : wstate) (is : list nat) (buf : list byte) (pos : N) : list byte :=
    match is with
    | [] => buf
    | i :: is => let s := x_get_witness s i in
                 put_witness s is (put_shared s buf pos) (pos + N.of_nat (md_n32 m))
    end.

  (** calculateBinWitness (witness_calculator.ts:129-148). *)
  Definition calculate_bin_witness (input : list (text * json)) : res wc_error (list byte) :=
    match do_calculate (wc_prime state0) input (x_raw_prime state0) with
    | (Ok _, s) => Ok (put_witness s (seq 0 (N.to_nat (md_wsize m))) (repeat x00 (4 * (N.to_nat (md_wsize m) * md_n32 m))) 0)
    | (Err e, _) => Err e
    | (Panic, _) => Panic
    end.

  (** calculateWTNSBin (witness_calculator.ts:150-217). *)
  Definition wtns_layout (s : wstate) : res wc_error (list byte) :=
    let n32 := N.of_nat (md_n32 m) in
    let buf := repeat x00 (4 * (N.to_nat (md_wsize m) * md_n32 m + md_n32 m + 11)) in
    let buf := put8 buf 0 x77 in
    let buf := put8 buf 1 x74 in
    let buf := put8 buf 2 x6e in
    let buf := put8 buf 3 x73 in
    let buf := put32 buf 1 2 in
    let buf := put32 buf 2 2 in
    let buf := put32 buf 3 1 in
    let n8 := n32 * 4 in
    rbind (put_big64 buf 16 (8 + n8)) (fun buf =>
    let buf := put32 buf 6 n8 in
    let s := x_raw_prime s in
    let pos := 7 in
    let buf := put_shared s buf pos in
    let pos := pos + n32 in
    let buf := put32 buf pos (md_wsize m) in
    let pos := pos + 1 in
    let buf := put32 buf pos 2 in
    let pos := pos + 1 in
    rbind (put_big64 buf (pos * 4) (n8 * md_wsize m)) (fun buf =>
    let pos := pos + 2 in
    Ok (put_witness s (seq 0 (N.to_nat (md_wsize m))) buf pos))).
  (** calculateWitness of witness.ts:23-34: a copy of that array. *)
  Definition calculate_wtns (input : list (text * json)) : res wc_error (list byte) :=
    match do_calculate (wc_prime state0) input (x_raw_prime state0) with
    | (Ok _, s) => wtns_layout s
    | (Err e, _) => Err e
    | (Panic, _) => Panic
    end.
  (** getCircuitInfo (witness.ts:57-73). *)
  Definition circuit_info : N * nat * Z * N := (md_version m, md_n32 m, wc_prime state0, md_wsize m).
End Exports.
