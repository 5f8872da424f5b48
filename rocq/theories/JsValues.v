(** Model of the JavaScript API on JavaScript values.  The inputs of encap, encrypt, decap and decrypt
    have type Record<string, any> (zkenc.ts:83, 250, 311, 408): a caller may pass what no JSON text
    gives: undefined, BigInts, NaN and the infinities.  The functions of Inputs.v, WitnessCalc.v,
    JsZkenc.v and JsFull.v that look at an input are modelled here once more on such values; what they
    call is shared.  Not covered: functions, symbols, and objects with methods of their own (Date,
    Map, typed arrays, toJSON). *)
From Coq Require Import List Bool NArith ZArith.
From Coq Require Import Strings.String Strings.Byte.
From Verif Require Import Res Bytes Text Fld Groups Bn254 Qap Core R1cs R1csJs Wtns Circuit ArkSer Sym Reader Inputs JsNumber
  Combined Gcm Commands JsZkenc WitnessCalc JsFull JsonText.
Import ListNotations.
Local Open Scope N_scope.
Local Open Scope res_scope.

Inductive jsval :=
| VUndefined | VNull | VBool (b : bool)
| VNumber (z : Z)                       (* a whole Number up to 2^53 *)
| VDouble (t : text)                    (* another finite Number, by its toString *)
| VNaN | VInfinity (negative : bool)
| VBigInt (z : Z)
| VString (t : text) | VArray (l : list jsval) | VObject (kvs : list (text * jsval)).

(** ** sym_parser.ts *)
Definition infinity_text (negative : bool) : text := if negative then lit "-Infinity" else lit "Infinity".
(** value.toString() (sym_parser.ts:104, 116); null and undefined have no methods.  Elements that
    are null or undefined are empty in Array.prototype.toString. *)
Fixpoint v_to_string (v : jsval) : option text :=
  match v with
  | VUndefined | VNull => None
  | VBool b => Some (if b then lit "true" else lit "false")
  | VNumber z => Some (dec_text_z z)
  | VDouble t => Some t
  | VNaN => Some (lit "NaN")
  | VInfinity n => Some (infinity_text n)
  | VBigInt z => Some (dec_text_z z)
  | VString t => Some t
  | VArray l =>
      Some (join c_comma
        ((fix go (l : list jsval) : list text :=
            match l with
            | [] => []
            | x :: l => match v_to_string x with Some t => t | None => [] end :: go l
            end) l))
  | VObject _ => Some (lit "[object Object]")
  end.
(** wireValues.set (sym_parser.ts:101-105, 114-117). *)
Definition v_set (signals : hmap N) (key : text) (x : jsval) (m : nmap text) : res js_throw (nmap text) :=
  match hm_get key signals with
  | None => Ok m
  | Some w => match v_to_string x with Some t => Ok (nm_insert w t m) | None => Err JsTypeError end
  end.
(** The loop over an array (sym_parser.ts:99-106). *)
Fixpoint v_array (signals : hmap N) (key : text) (i : N) (l : list jsval) (m : nmap text) : res js_throw (nmap text) :=
  match l with
  | [] => Ok m
  | x :: l => match v_set signals (index_key key i) x m with
              | Ok m => v_array signals key (i + 1) l m
              | Err e => Err e
              | Panic => Panic
              end
  end.
(** flattenInput (sym_parser.ts:94-118), on the full key. *)
Fixpoint v_flatten (signals : hmap N) (v : jsval) (full : text) (m : nmap text) : res js_throw (nmap text) :=
  match v with
  | VArray l => v_array signals full 0 l m
  | VObject kvs =>
      (fix go (kvs : list (text * jsval)) (m : nmap text) : res js_throw (nmap text) :=
         match kvs with
         | [] => Ok m
         | (k, x) :: kvs => match v_flatten signals x (js_full_key full k) m with
                            | Ok m => go kvs m
                            | Err e => Err e
                            | Panic => Panic
                            end
         end) kvs m
  | _ => v_set signals full v m
  end.
(** mapInputsToWires (sym_parser.ts:88-126). *)
Fixpoint v_map_inputs_loop (signals : hmap N) (kvs : list (text * jsval)) (m : nmap text) : res js_throw (nmap text) :=
  match kvs with
  | [] => Ok m
  | (k, v) :: kvs => match v_flatten signals v k m with
                     | Ok m => v_map_inputs_loop signals kvs m
                     | Err e => Err e
                     | Panic => Panic
                     end
  end.
Definition v_map_inputs (kvs : list (text * jsval)) (signals : hmap N) : res js_throw (nmap text) :=
  v_map_inputs_loop signals kvs [].

(** ** witness_calculator.ts *)
(** BigInt(a) for a value that is not an array (witness_calculator.ts:352): a BigInt is itself,
    undefined and null are TypeErrors, a Number that is not whole is a RangeError. *)
Definition v_bigint (v : jsval) : res js_throw Z :=
  match v with
  | VUndefined | VNull => Err JsTypeError
  | VBool b => Ok (if b then 1%Z else 0%Z)
  | VNumber z => Ok z
  | VDouble t => match number_bigint t with Some z => Ok z | None => Err JsRangeError end
  | VNaN | VInfinity _ => Err JsRangeError
  | VBigInt z => Ok z
  | VString t => match js_bigint t with Some z => Ok z | None => Err JsSyntaxError end
  | VArray _ | VObject _ => Err JsSyntaxError
  end.
(** flatArray (witness_calculator.ts:341-355). *)
Fixpoint v_fill_array (acc : list Z) (a : jsval) : res js_throw (list Z) :=
  match a with
  | VArray l =>
      (fix go (acc : list Z) (l : list jsval) : res js_throw (list Z) :=
         match l with
         | [] => Ok acc
         | x :: l => match v_fill_array acc x with Ok acc => go acc l | Err e => Err e | Panic => Panic end
         end) acc l
  | _ => match v_bigint a with Ok z => Ok (acc ++ [z]) | Err e => Err e | Panic => Panic end
  end.
Definition v_flat_array (a : jsval) : res js_throw (list Z) := v_fill_array [] a.

Section Calculator.
  Context (m : wmodule).
  Local Open Scope rd_scope.
  (** One key (witness_calculator.ts:69-97). *)
  Definition v_set_key (prime : Z) (k : text) (v : jsval) : Wc N :=
    let h := fnv_hash k in
    let msb := parse_hex (firstn 8 h) in
    let lsb := parse_hex (firstn 8 (skipn 8 h)) in
    do vals <- lift_res (v_flat_array v) ;
    let size := x_signal_size m msb lsb in
    let n := Z.of_nat (List.length vals) in
    if (size <? 0)%Z then fail (WcSignalNotFound k)
    else if (n <? size)%Z then fail (WcNotEnough k)
    else if (size <? n)%Z then fail (WcTooMany k)
    else set_values m prime k msb lsb 0 vals.
  Fixpoint v_set_keys (prime : Z) (kvs : list (text * jsval)) : Wc N :=
    match kvs with
    | [] => ret 0
    | (k, v) :: kvs => do a <- v_set_key prime k v ; do b <- v_set_keys prime kvs ; ret (a + b)
    end.
  (** _doCalculateWitness (witness_calculator.ts:59-106). *)
  Definition v_do_calculate (prime : Z) (input : list (text * jsval)) : Wc unit :=
    do _ <- lift_opt (x_init m) WcInit ;
    do count <- v_set_keys prime input ;
    if count <? input_size m then fail WcNotAllInputs else ret tt.
  (** calculateWitness of witness.ts:23-34. *)
  Definition v_calculate_wtns (input : list (text * jsval)) : res wc_error (list byte) :=
    match v_do_calculate (wc_prime m (state0 m)) input (x_raw_prime m (state0 m)) with
    | (Ok _, s) => wtns_layout m s
    | (Err e, _) => Err e
    | (Panic, _) => Panic
    end.
End Calculator.

(** ** JSON.stringify (zkenc.ts:331), after ECMAScript's SerializeJSONProperty: [Ok None] is the result
    undefined.  A BigInt is a TypeError; a member without a text is left out, an element without one
    is written as null; a Number that is not finite is written as null. *)
Fixpoint v_stringify (v : jsval) : res js_throw (option text) :=
  match v with
  | VUndefined => Ok None
  | VNull => Ok (Some (lit "null"))
  | VBool b => Ok (Some (if b then lit "true" else lit "false"))
  | VNumber z => Ok (Some (dec_text_z z))
  | VDouble t => Ok (Some t)
  | VNaN | VInfinity _ => Ok (Some (lit "null"))
  | VBigInt _ => Err JsTypeError
  | VString t => Ok (Some (write_string t))
  | VArray l =>
      let? texts := (fix go (l : list jsval) : res js_throw (list text) :=
         match l with
         | [] => Ok []
         | x :: l => let? t := v_stringify x in
                     let? ts := go l in
                     Ok (match t with Some t => t | None => lit "null" end :: ts)
         end) l in
      Ok (Some (lit "[" ++ sep_by (lit ",") texts ++ lit "]"))
  | VObject kvs =>
      let? texts := (fix go (kvs : list (text * jsval)) : res js_throw (list text) :=
         match kvs with
         | [] => Ok []
         | (k, x) :: kvs => let? t := v_stringify x in
                            let? ts := go kvs in
                            Ok (match t with Some t => (write_string k ++ lit ":" ++ t) :: ts | None => ts end)
         end) kvs in
      Ok (Some (lit "{" ++ sep_by (lit ",") texts ++ lit "}"))
  end.

(** ** zkenc.ts *)
Section Api.
  Context (E : pairingT Fr) (C : codecT E) (D : domainT Fr) (kdf : GT E -> key) (aes : cipherT) (W : N) (fuel : nat).
  (** encap (zkenc.ts:81-122). *)
  Definition v_encap (co : coins) (r1cs : list byte) (sym : text) (inputs : list (text * jsval))
    : res js_api_error (list byte * key) :=
    let signals := get_input_signals (js_parse_sym_file sym) None in
    let? wires := rmap_err AInput (v_map_inputs inputs signals) in
    let? witness := rmap_err AInput (js_witness_array wires) in
    let? bytes := rmap_err ACombined (serialize_witness witness) in
    wasm_encap E C D kdf W fuel co r1cs bytes.
  (** encrypt (zkenc.ts:309-380).  TextEncoder.encode(undefined) is empty. *)
  Definition v_encrypt (co : coins) (r1cs : list byte) (sym : text) (inputs : list (text * jsval))
             (message : list byte) (include_public_input : bool) : res js_api_error (list byte * key) :=
    let? ck := v_encap co r1cs sym inputs in
    let? encrypted := rmap_err ACrypt (aesGcmEncrypt aes (snd ck) (c_nonce co) message) in
    let? public_input_bytes :=
      if include_public_input
      then let? t := rmap_err AInput (v_stringify (VObject inputs)) in
           Ok (match t with Some t => text_encode t | None => [] end)
      else Ok [] in
    let? combined := rmap_err ACombined (js_combine include_public_input (fst ck) public_input_bytes encrypted) in
    Ok (combined, snd ck).
  (** decap (zkenc.ts:248-266). *)
  Definition v_decap (m : wmodule) (r1cs ciphertext : list byte) (inputs : list (text * jsval)) : res js_full_error key :=
    let? witness := rmap_err FWitness (v_calculate_wtns m inputs) in
    rmap_err FApi (js_decap E C kdf W fuel r1cs witness ciphertext).
  (** decrypt (zkenc.ts:405-456). *)
  Definition v_decrypt (m : wmodule) (r1cs : list byte) (ciphertext : js_bytes) (inputs : list (text * jsval)) : res js_full_error (list byte) :=
    let? wm := rmap_err (fun e => FApi (ACombined e)) (js_split ciphertext) in
    let? k := v_decap m r1cs (fst wm) inputs in
    rmap_err (fun e => FApi (ACrypt e)) (aesGcmDecrypt aes k (snd wm)).
End Api.
