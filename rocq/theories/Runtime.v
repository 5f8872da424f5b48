(** Model of the runtime callbacks of the witness calculator builder,
    packages/zkenc-js/src/witness_calculator.ts:226-311 (the same in witness_calculator.js:14-104),
    and of the texts its errors carry (witness_calculator.ts:74-105).
    The compiled circuit calls them; what it calls during one calculation is a list of [callback].
    The message a circuit hands over is the list of character codes getMessageChar returns before the
    terminating 0 (the loop of getMessage, witness_calculator.ts:245-253). *)
From Coq Require Import List Bool Arith NArith ZArith.
From Coq Require Import Strings.String Strings.Byte.
From Verif Require Import Res Bytes Text Reader Inputs WitnessCalc.
Import ListNotations.
Local Open Scope N_scope.

(** The four imports (witness_calculator.ts:269-308).  [words] are the i32 values
    readSharedRWMemory(0), readSharedRWMemory(1), ... returns. *)
Inductive callback :=
| PrintError (chars : list N)
| WriteBuffer (chars : list N)
| ShowShared (words : list Z)
| Exception (code : Z).
(** errStr, msgStr (witness_calculator.ts:242-243), and the lines given to console.log. *)
Record rt := Rt { err_str : text; msg_str : text; console : list text }.

(** getMessage (witness_calculator.ts:245-253): String.fromCharCode keeps 16 bits. *)
Definition get_message (chars : list N) : text := map (fun c => c mod 65536) chars.
Definition text_eqb (a b : text) : bool := if list_eq_dec N.eq_dec a b then true else false.
(** Appending an item to msgStr (witness_calculator.ts:262-265, 298-301). *)
Definition append_item (s item : text) : text := if text_eqb s [] then item else s ++ lit " " ++ item.
(** printSharedRWMemory (witness_calculator.ts:255-266). *)
Definition shared_text (words : list Z) : text := dec_text_z (from_array32 (rev (map u32_of words))).
(** The texts of exceptionHandler (witness_calculator.ts:271-286). *)
Definition newline : text := [10].
Definition exception_text (code : Z) : text :=
  (if code =? 1 then lit "Signal not found."
   else if code =? 2 then lit "Too many signals set."
   else if code =? 3 then lit "Signal already set."
   else if code =? 4 then lit "Assert Failed."
   else if code =? 5 then lit "Not enough memory."
   else if code =? 6 then lit "Input signal array access exceeds the size."
   else lit "Unknown error.")%Z ++ newline.

(** One callback: the state after it and the message of the Error thrown, if any. *)
Definition call_back (s : rt) (c : callback) : rt * option text :=
  match c with
  | PrintError m => (Rt (err_str s ++ get_message m ++ newline) (msg_str s) (console s), None)
  | WriteBuffer m =>
      let msg := get_message m in
      if text_eqb msg newline then (Rt (err_str s) [] (console s ++ [msg_str s]), None)
      else (Rt (err_str s) (append_item (msg_str s) msg) (console s), None)
  | ShowShared ws => (Rt (err_str s) (append_item (msg_str s) (shared_text ws)) (console s), None)
  | Exception code => (s, Some (exception_text code ++ err_str s))
  end.
(** The callbacks of one calculation: an exception unwinds the circuit. *)
Fixpoint run_callbacks (s : rt) (cs : list callback) : rt * option text :=
  match cs with
  | [] => (s, None)
  | c :: cs => match call_back s c with
               | (s, None) => run_callbacks s cs
               | (s, Some e) => (s, Some e)
               end
  end.
(** A calculator (builder call) and the calculations made with it, one after the other. *)
Definition rt0 : rt := Rt [] [] [].
Fixpoint run_all (s : rt) (runs : list (list callback)) : rt * list (option text) :=
  match runs with
  | [] => (s, [])
  | r :: runs => let (s, e) := run_callbacks s r in let (s, es) := run_all s runs in (s, e :: es)
  end.
Definition errors_of (runs : list (list callback)) : list (option text) := snd (run_all rt0 runs).
Definition console_of (runs : list (list callback)) : list text := console (fst (run_all rt0 runs)).
