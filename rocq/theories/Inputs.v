(** Model of the JSON input handling of both tools: packages/zkenc-cli/src/commands.rs:41-62,
    408-504 and packages/zkenc-js/src/sym_parser.ts:88-126, zkenc.ts:88-112.
    The JSON text itself is parsed by external code (serde_json, JSON.parse): the model starts
    from the parsed tree.  An object is the list of its entries in iteration order (serde_json's
    map without preserve_order iterates in key order; JavaScript puts integer-like keys first;
    theorems hold for every order). *)
From Coq Require Import List Bool Arith NArith ZArith.
From Coq Require Import Strings.String.
From Verif Require Import Res Text Fld Bn254.
Import ListNotations.
Local Open Scope N_scope.

(** serde_json::Value / a JavaScript value.  [JInt z]: an integer literal; in JavaScript the Number
    [z], up to 2^53, or the BigInt [z].  [JFloat t]: any other number, [t] being JavaScript's rendering
    of it (JsNumber.v). *)
Inductive json :=
| JNull
| JBool (b : bool)
| JInt (z : Z)
| JFloat (t : text)
| JStr (t : text)
| JArr (l : list json)
| JObj (l : list (text * json)).

(** ** Maps keyed by wire numbers (HashMap<u32, V>, Map<number, V>) *)
Section NMap.
  Context {V : Type}.
  Definition nmap := list (N * V).
  Fixpoint nm_get (k : N) (m : nmap) : option V :=
    match m with [] => None | (k', v) :: m => if k =? k' then Some v else nm_get k m end.
  Fixpoint nm_insert (k : N) (v : V) (m : nmap) : nmap :=
    match m with
    | [] => [(k, v)]
    | (k', v') :: m => if k =? k' then (k', v) :: m else (k', v') :: nm_insert k v m
    end.
End NMap.
Arguments nmap : clear implicits.

(** ** CLI *)
Inductive input_error := NotAnObject | UnsupportedNumber | BadFieldElement (s : text) | UnsupportedType.

(** num_bigint's BigInt::from_str, which ark_ff's Fr::from_str calls: an optional sign, then
    digits and underscores starting with a digit. *)
Definition drop_under (t : text) : text := filter (fun c => negb (c =? c_under)) t.
Definition digits_under (t : text) : bool :=
  match t with
  | [] => false
  | c :: r => is_digit c && forallb (fun c => is_digit c || (c =? c_under)) r
  end.
Definition bigint_from_str (t : text) : option Z :=
  let '(neg, t) := match t with
                   | c :: r => if c =? c_minus then (true, match r with d :: _ => if d =? c_plus then t else r | [] => r end)
                               else (false, t)
                   | [] => (false, t)
                   end in
  let t := match t with
           | c :: r => if c =? c_plus then (match r with d :: _ => if d =? c_plus then t else r | [] => r end) else t
           | [] => t
           end in
  if digits_under t then
    let v := Z.of_N (digits_value (drop_under t)) in
    Some (if neg : bool then (- v)%Z else v)
  else None.
(** ark_ff Fr::from_str: the residue of that integer. *)
Definition fr_from_str (t : text) : option Fr := option_map fr (bigint_from_str t).

(** The number branch (commands.rs:417-424, 471-478): as_u64, then as_i64 [as u64]. *)
Definition number_value (z : Z) : option Fr :=
  if ((0 <=? z) && (z <? 2 ^ 64))%Z then Some (fr z)
  else if ((- 2 ^ 63 <=? z) && (z <? 2 ^ 63))%Z then Some (fr (z mod 2 ^ 64))
  else None.
Definition scalar_value (v : json) : res input_error Fr :=
  match v with
  | JInt z => of_option UnsupportedNumber (number_value z)
  | JFloat _ => Err UnsupportedNumber
  | JStr t => of_option (BadFieldElement t) (fr_from_str t)
  | _ => Err UnsupportedType
  end.

(** format!("{}[{}]", key, idx) (commands.rs:489). *)
Definition index_key (key : text) (idx : N) : text := key ++ lit "[" ++ dec_text idx ++ lit "]".

(** flatten_value (commands.rs:465-497). *)
Fixpoint flatten_value (v : json) (key : text) (m : hmap Fr) : res input_error (hmap Fr) :=
  match v with
  | JArr l =>
      (fix go (idx : N) (l : list json) (m : hmap Fr) : res input_error (hmap Fr) :=
         match l with
         | [] => Ok m
         | x :: l => match flatten_value x (index_key key idx) m with
                     | Ok m => go (idx + 1) l m
                     | Err e => Err e
                     | Panic => Panic
                     end
         end) 0 l m
  | _ => match scalar_value v with Ok x => Ok (hm_insert key x m) | Err e => Err e | Panic => Panic end
  end.
Fixpoint flatten_entries (kvs : list (text * json)) (m : hmap Fr) : res input_error (hmap Fr) :=
  match kvs with
  | [] => Ok m
  | (k, v) :: kvs => match flatten_value v k m with
                     | Ok m => flatten_entries kvs m
                     | Err e => Err e
                     | Panic => Panic
                     end
  end.
(** parse_circuit_inputs_with_keys (commands.rs:456-504) on the parsed document. *)
Definition parse_inputs_with_keys (doc : json) : res input_error (hmap Fr) :=
  match doc with JObj kvs => flatten_entries kvs [] | _ => Err NotAnObject end.

(** parse_circuit_inputs (commands.rs:408-453): values in iteration order, without names. *)
Fixpoint flatten_plain (v : json) : res input_error (list Fr) :=
  match v with
  | JArr l =>
      (fix go (l : list json) : res input_error (list Fr) :=
         match l with
         | [] => Ok []
         | x :: l => match flatten_plain x with
                     | Ok a => match go l with Ok b => Ok (a ++ b) | Err e => Err e | Panic => Panic end
                     | Err e => Err e
                     | Panic => Panic
                     end
         end) l
  | _ => match scalar_value v with Ok x => Ok [x] | Err e => Err e | Panic => Panic end
  end.
Fixpoint flatten_plain_entries (kvs : list (text * json)) : res input_error (list Fr) :=
  match kvs with
  | [] => Ok []
  | (_, v) :: kvs => match flatten_plain v with
                     | Ok a => match flatten_plain_entries kvs with Ok b => Ok (a ++ b) | Err e => Err e | Panic => Panic end
                     | Err e => Err e
                     | Panic => Panic
                     end
  end.
Definition parse_circuit_inputs (doc : json) : res input_error (list Fr) :=
  match doc with JObj kvs => flatten_plain_entries kvs | _ => Err NotAnObject end.

(** The witness map (commands.rs:51-62, 187-198): wire 0 first, then every input whose name is an
    input signal, in the order in which inputs.iter() visits them. *)
Definition cli_witness (signals : hmap N) (inputs_iter : hmap Fr) : nmap Fr :=
  fold_left (fun w kv => match hm_get (fst kv) signals with
                         | Some wire => nm_insert wire (snd kv) w
                         | None => w
                         end) inputs_iter (nm_insert 0 (fr 1) []).

(** ** JavaScript *)
Inductive js_throw := JsTypeError | JsSyntaxError | JsRangeError.

Section JsToString.
  (** Array.prototype.toString: elements joined with ",", null as the empty string. *)
  Fixpoint js_to_string (v : json) : option text :=
    match v with
    | JNull => None                                  (* null.toString() is a TypeError *)
    | JBool b => Some (if b then lit "true" else lit "false")
    | JInt z => Some (dec_text_z z)                  (* a Number up to 2^53, or a BigInt *)
    | JFloat t => Some t
    | JStr t => Some t
    | JArr l =>
        Some (join c_comma
          ((fix go (l : list json) : list text :=
              match l with
              | [] => []
              | x :: l => match js_to_string x with Some t => t | None => [] end :: go l
              end) l))
    | JObj _ => Some (lit "[object Object]")
    end.
End JsToString.

(** wireValues.set(wireId, x.toString()) when the key is known (sym_parser.ts:101-105, 114-117). *)
Definition js_set (signals : hmap N) (key : text) (x : json) (m : nmap text) : res js_throw (nmap text) :=
  match hm_get key signals with
  | None => Ok m
  | Some w => match js_to_string x with Some t => Ok (nm_insert w t m) | None => Err JsTypeError end
  end.
Fixpoint js_array (signals : hmap N) (key : text) (i : N) (l : list json) (m : nmap text) : res js_throw (nmap text) :=
  match l with
  | [] => Ok m
  | x :: l => match js_set signals (index_key key i) x m with
              | Ok m => js_array signals key (i + 1) l m
              | Err e => Err e
              | Panic => Panic
              end
  end.
(** prefix ? `${prefix}.${key}` : key *)
Definition js_full_key (prefix key : text) : text := match prefix with [] => key | _ => prefix ++ lit "." ++ key end.
(** flattenInput (sym_parser.ts:94-118), on the full key. *)
Fixpoint js_flatten (signals : hmap N) (v : json) (full : text) (m : nmap text) : res js_throw (nmap text) :=
  match v with
  | JArr l => js_array signals full 0 l m
  | JObj kvs =>
      (fix go (kvs : list (text * json)) (m : nmap text) : res js_throw (nmap text) :=
         match kvs with
         | [] => Ok m
         | (k, x) :: kvs => match js_flatten signals x (js_full_key full k) m with
                            | Ok m => go kvs m
                            | Err e => Err e
                            | Panic => Panic
                            end
         end) kvs m
  | _ => js_set signals full v m
  end.
(** mapInputsToWires (sym_parser.ts:88-126). *)
Fixpoint js_map_inputs_loop (signals : hmap N) (kvs : list (text * json)) (m : nmap text) : res js_throw (nmap text) :=
  match kvs with
  | [] => Ok m
  | (k, v) :: kvs => match js_flatten signals v k m with
                     | Ok m => js_map_inputs_loop signals kvs m
                     | Err e => Err e
                     | Panic => Panic
                     end
  end.
Definition js_map_inputs (kvs : list (text * json)) (signals : hmap N) : res js_throw (nmap text) :=
  js_map_inputs_loop signals kvs [].

(** BigInt(string): white space around, the empty string is 0, an optionally signed decimal, or an
    unsigned 0x / 0o / 0b numeral. *)
Definition radix_digit (r c : N) : option N :=
  let v := if is_digit c then Some (c - 48)
           else if (97 <=? c) && (c <=? 102) then Some (c - 87)
           else if (65 <=? c) && (c <=? 70) then Some (c - 55) else None in
  match v with Some d => if d <? r then Some d else None | None => None end.
Fixpoint radix_value (r : N) (t : text) (acc : N) : option N :=
  match t with
  | [] => Some acc
  | c :: t => match radix_digit r c with Some d => radix_value r t (acc * r + d) | None => None end
  end.
Definition js_bigint (t : text) : option Z :=
  match trim js_ws t with
  | [] => Some 0%Z
  | [c] => if is_digit c then Some (Z.of_N (c - 48)) else None
  | c :: ((d :: ds) as r) =>
      if c =? c_minus then (if forallb is_digit r then Some (- Z.of_N (digits_value r))%Z else None)
      else if c =? c_plus then (if forallb is_digit r then Some (Z.of_N (digits_value r)) else None)
      else if forallb is_digit (c :: r) then Some (Z.of_N (digits_value (c :: r)))
      else if c =? 48 then
        let radix := if (d =? 120) || (d =? 88) then Some 16
                     else if (d =? 111) || (d =? 79) then Some 8
                     else if (d =? 98) || (d =? 66) then Some 2 else None in
        match radix, ds with
        | Some r, _ :: _ => option_map Z.of_N (radix_value r ds 0)
        | _, _ => None
        end
      else None
  end.

(** Math.max(...keys) and the loop of encap (zkenc.ts:94-112): values of wires 1, 2, .. up to the
    first wire without a value. *)
Definition js_max_wire (m : nmap text) : option N :=
  match m with [] => None | _ => Some (fold_left (fun a kv => N.max a (fst kv)) m 0) end.
Fixpoint js_prefix_loop (fuel : nat) (i mx : N) (m : nmap text) : res js_throw (list Z) :=
  match fuel with
  | O => Ok []
  | S fuel =>
      if i <=? mx then
        match nm_get i m with
        | Some t => match js_bigint t with
                    | None => Err JsSyntaxError
                    | Some z => match js_prefix_loop fuel (i + 1) mx m with
                                | Ok l => Ok (z :: l)
                                | Err e => Err e
                                | Panic => Panic
                                end
                    end
        | None => Ok []
        end
      else Ok []
  end.
(** The loop runs at most once per stored wire, so the number of entries is enough fuel. *)
Definition js_witness_array (m : nmap text) : res js_throw (list Z) :=
  match js_max_wire m with
  | None => Ok [1%Z]
  | Some mx => match js_prefix_loop (S (List.length m)) 1 mx m with
               | Ok l => Ok (1%Z :: l) | Err e => Err e | Panic => Panic
               end
  end.
