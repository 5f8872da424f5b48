(** Model of the combined ciphertext file: packages/zkenc-cli/src/commands.rs:235-283, 294-354
    and packages/zkenc-js/src/zkenc.ts:327-375, 410-444, 474-529.
    usize is 64 bits, so that [offset + witness_len] cannot overflow. *)
From Coq Require Import List Bool Arith NArith.
From Coq Require Import Strings.Byte.
From Verif Require Import Res Bytes.
Import ListNotations.
Local Open Scope N_scope.
Local Open Scope res_scope.

(** The parts of a file: witness ciphertext, embedded public input, encrypted message. *)
Record parts := Parts { p_witness : list byte; p_public : option (list byte); p_message : list byte }.

(** ** CLI *)
(** encrypt_command (commands.rs:235-283): [len as u32] keeps the low 32 bits, which is what
    [be_bytes 4] does. *)
Definition cli_combine (include_public_input : bool) (witness_ct input_json encrypted : list byte) : list byte :=
  let public_input_bytes := if include_public_input then input_json else [] in
  let combined := [if include_public_input then x01 else x00] in
  let combined := combined ++ be_bytes 4 (blen witness_ct) in
  let combined := combined ++ witness_ct in
  let combined := if include_public_input
                  then (combined ++ be_bytes 4 (blen public_input_bytes)) ++ public_input_bytes
                  else combined in
  combined ++ encrypted.

Inductive cli_comb_error := CTooShort | CWitnessMismatch | CMissingPublic | CPublicMismatch.

(** [combined\[i\]] and [&combined\[a..b\]], [&combined\[a..\]]: a panic when out of range. *)
Definition at_ {E} (l : list byte) (i : N) : res E byte :=
  match nth_error l (N.to_nat i) with Some b => Ok b | None => Panic end.
Definition range_ {E} (l : list byte) (a b : N) : res E (list byte) :=
  if (a <=? b) && (b <=? blen l) then Ok (firstn (N.to_nat (b - a)) (skipn (N.to_nat a) l)) else Panic.
(** u32::from_be_bytes of four indexed bytes (commands.rs:307-312, 331-336). *)
Definition be_u32_at {E} (l : list byte) (o : N) : res E N :=
  let? b0 := at_ l o in
  let? b1 := at_ l (o + 1) in
  let? b2 := at_ l (o + 2) in
  let? b3 := at_ l (o + 3) in
  Ok (be_val [b0; b1; b2; b3]).

(** decrypt_command (commands.rs:294-354). *)
Definition cli_split (combined : list byte) : res cli_comb_error parts :=
  if blen combined <? 5 then Err CTooShort
  else
    let offset := 0 in
    let? flag := at_ combined offset in
    let offset := offset + 1 in
    let? witness_len := be_u32_at combined offset in
    let offset := offset + 4 in
    if blen combined <? offset + witness_len then Err CWitnessMismatch
    else
      let? witness := range_ combined offset (offset + witness_len) in
      let offset := offset + witness_len in
      if Byte.eqb flag x01 then
        if blen combined <? offset + 4 then Err CMissingPublic
        else
          let? public_len := be_u32_at combined offset in
          let offset := offset + 4 in
          if blen combined <? offset + public_len then Err CPublicMismatch
          else
            let? public := range_ combined offset (offset + public_len) in
            let offset := offset + public_len in
            let? message := range_ combined offset (blen combined) in
            Ok (Parts witness (Some public) message)
      else
        let? message := range_ combined offset (blen combined) in
        Ok (Parts witness None message).

(** ** JavaScript *)
Inductive js_comb_error :=
| JTooShort | JLengthMismatch | JMissingPublic | JPublicMismatch | JNotIncluded | JRangeError | JBadJson.

(** Writing into a typed array: DataView.setUint8 / setUint32 and Uint8Array.set throw a
    RangeError when the bytes do not fit. *)
Definition js_write (buf : list byte) (off : N) (bs : list byte) : res js_comb_error (list byte) :=
  if off + blen bs <=? blen buf
  then Ok (firstn (N.to_nat off) buf ++ bs ++ skipn (N.to_nat (off + blen bs)) buf)
  else Err JRangeError.

(** encrypt, steps 3 and 4 (zkenc.ts:327-375).  setUint32 stores ToUint32 of the length.
    Not modelled: the largest size a typed array can have. *)
Definition js_combine (include_public_input : bool) (witness_ct public_json encrypted : list byte)
  : res js_comb_error (list byte) :=
  let public_input_bytes := if include_public_input then public_json else [] in
  let flag := if include_public_input then x01 else x00 in
  let header_size := if include_public_input then 9 else 5 in
  let total := header_size + blen witness_ct + blen public_input_bytes + blen encrypted in
  let buf := repeat x00 (N.to_nat total) in
  let offset := 0 in
  let? buf := js_write buf offset [flag] in
  let offset := offset + 1 in
  let? buf := js_write buf offset (be_bytes 4 (blen witness_ct)) in
  let offset := offset + 4 in
  let? buf := js_write buf offset witness_ct in
  let offset := offset + blen witness_ct in
  let? buf_off :=
    (if include_public_input then
       let? buf := js_write buf offset (be_bytes 4 (blen public_input_bytes)) in
       let offset := offset + 4 in
       let? buf := js_write buf offset public_input_bytes in
       Ok (buf, offset + blen public_input_bytes)
     else Ok (buf, offset)) in
  js_write (fst buf_off) (snd buf_off) encrypted.

(** A Uint8Array: a window of a buffer. *)
Record js_bytes := JsBytes { jb_buffer : list byte; jb_offset : N; jb_length : N }.
Definition jb_valid (a : js_bytes) : Prop := jb_offset a + jb_length a <= blen (jb_buffer a).
(** Its elements. *)
Definition jb_window (a : js_bytes) : list byte :=
  firstn (N.to_nat (jb_length a)) (skipn (N.to_nat (jb_offset a)) (jb_buffer a)).
(** new DataView(a.buffer, a.byteOffset) reaches to the end of the buffer, not of the window. *)
Definition dv_bytes (a : js_bytes) (o n : N) : res js_comb_error (list byte) :=
  match slice (jb_buffer a) (jb_offset a + o) n with Some b => Ok b | None => Err JRangeError end.
Definition dv_u8 (a : js_bytes) (o : N) : res js_comb_error byte :=
  let? b := dv_bytes a o 1 in match b with x :: _ => Ok x | [] => Err JRangeError end.
Definition dv_u32 (a : js_bytes) (o : N) : res js_comb_error N :=
  let? b := dv_bytes a o 4 in Ok (be_val b).
(** a.slice(from, to): positions are clamped to the length. *)
Definition js_slice (a : js_bytes) (from to : N) : list byte :=
  let from := N.min from (jb_length a) in
  let to := N.min to (jb_length a) in
  firstn (N.to_nat (to - from)) (skipn (N.to_nat from) (jb_window a)).

(** decrypt, step 1 (zkenc.ts:410-444): witness ciphertext and encrypted message. *)
Definition js_split (a : js_bytes) : res js_comb_error (list byte * list byte) :=
  if jb_length a <? 5 then Err JTooShort
  else
    let? flag := dv_u8 a 0 in
    let? witness_len := dv_u32 a 1 in
    let offset := 5 in
    if jb_length a <? offset + witness_len then Err JLengthMismatch
    else
      let witness := js_slice a offset (offset + witness_len) in
      let offset := offset + witness_len in
      let? offset :=
        (if Byte.eqb flag x01 then
           if jb_length a <? offset + 4 then Err JMissingPublic
           else let? public_len := dv_u32 a offset in Ok (offset + 4 + public_len)
         else Ok offset) in
      Ok (witness, js_slice a offset (jb_length a)).

(** getPublicInput (zkenc.ts:474-529).  TextDecoder and JSON.parse are parameters. *)
Section GetPublicInput.
  Context {T J : Type} (text_decode : list byte -> T) (json_parse : T -> option J).
  Definition get_public_input (a : js_bytes) : res js_comb_error J :=
    if jb_length a <? 5 then Err JTooShort
    else
      let? flag := dv_u8 a 0 in
      if negb (Byte.eqb flag x01) then Err JNotIncluded
      else
        let? witness_len := dv_u32 a 1 in
        let offset := 5 in
        if jb_length a <? offset + witness_len then Err JLengthMismatch
        else
          let offset := offset + witness_len in
          if jb_length a <? offset + 4 then Err JMissingPublic
          else
            let? public_len := dv_u32 a offset in
            let offset := offset + 4 in
            if jb_length a <? offset + public_len then Err JPublicMismatch
            else match json_parse (text_decode (js_slice a offset (offset + public_len))) with
                 | Some j => Ok j
                 | None => Err JBadJson
                 end.
End GetPublicInput.
