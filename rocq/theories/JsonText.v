(** JSON texts: what serde_json::from_str (commands.rs:409, 457; serializable.rs:87, 135, 163) and
    JSON.parse (zkenc.ts:523) accept, and what serde_json::to_string_pretty (serializable.rs:82, 130,
    155) and JSON.stringify (zkenc.ts:330) write.  Library code, written out from RFC 8259,
    serde_json 1.0 and ECMA-262; the value of a number token that is no small integer is a parameter,
    which in JavaScript stands for [js_round]. *)
From Coq Require Import List Bool Arith NArith ZArith.
From Coq Require Import Strings.String Strings.Byte.
From Verif Require Import Res Text Inputs Utf8 JsNumber.
Import ListNotations.
Local Open Scope N_scope.

Definition c_quote : N := 34. Definition c_back : N := 92. Definition c_lbrack : N := 91. Definition c_rbrack : N := 93.
Definition c_lbrace : N := 123. Definition c_rbrace : N := 125. Definition c_colon : N := 58. Definition c_dot : N := 46.
Definition j_ws (c : N) : bool := (c =? 32) || (c =? 9) || (c =? 10) || (c =? 13).
Notation skip_ws := (trim_start j_ws).

(** ** Strings *)
Definition hex_val (c : N) : option N :=
  if is_digit c then Some (c - 48)
  else if (97 <=? c) && (c <=? 102) then Some (c - 87)
  else if (65 <=? c) && (c <=? 70) then Some (c - 55)
  else None.
Definition hex4 (a b c d : N) : option N :=
  match hex_val a, hex_val b, hex_val c, hex_val d with
  | Some a, Some b, Some c, Some d => Some (((a * 16 + b) * 16 + c) * 16 + d)
  | _, _, _, _ => None
  end.
Definition is_high (n : N) : bool := (55296 <=? n) && (n <=? 56319).
Definition is_low (n : N) : bool := (56320 <=? n) && (n <=? 57343).
Definition join_pair (hi lo : N) : N := 65536 + (hi - 55296) * 1024 + (lo - 56320).
(** The escapes of one letter. *)
Definition short_escape (e : N) : option N :=
  if e =? c_quote then Some c_quote else if e =? c_back then Some c_back else if e =? 47 then Some 47
  else if e =? 98 then Some 8 else if e =? 102 then Some 12 else if e =? 110 then Some 10
  else if e =? 114 then Some 13 else if e =? 116 then Some 9 else None.
Definition push (c : N) (x : option (text * text)) : option (text * text) :=
  match x with Some (t, r) => Some (c :: t, r) | None => None end.

Section Reader.
  (** [number]: the value of a number token, None if the reader refuses it; [object]: the object made
      of the members of a text, in their order there; [lone]: whether a surrogate escape without its
      partner is allowed (JavaScript). *)
  Context (number : text -> option json) (object : list (text * json) -> list (text * json)) (lone : bool).

  (** The rest of a string, after its opening quote. *)
  Fixpoint read_string_body (t : text) : option (text * text) :=
    match t with
    | [] => None
    | c :: r =>
        if c =? c_quote then Some ([], r)
        else if c =? c_back then
          match r with
          | [] => None
          | e :: r1 =>
              if e =? 117 then
                match r1 with
                | h1 :: h2 :: h3 :: h4 :: r2 =>
                    match hex4 h1 h2 h3 h4 with
                    | None => None
                    | Some n =>
                        if is_high n then
                          match r2 with
                          | b :: u :: l1 :: l2 :: l3 :: l4 :: r3 =>
                              match (if (b =? c_back) && (u =? 117) then hex4 l1 l2 l3 l4 else None) with
                              | Some m => if is_low m then push (join_pair n m) (read_string_body r3)
                                          else if lone then push n (read_string_body r2) else None
                              | None => if lone then push n (read_string_body r2) else None
                              end
                          | _ => if lone then push n (read_string_body r2) else None
                          end
                        else if is_low n then if lone then push n (read_string_body r2) else None
                        else push n (read_string_body r2)
                    end
                | _ => None
                end
              else match short_escape e with Some x => push x (read_string_body r1) | None => None end
          end
        else if c <? 32 then None
        else push c (read_string_body r)
    end.

  (** ** Numbers: a token as long as possible *)
  Fixpoint span_digits (t : text) : text * text :=
    match t with
    | c :: r => if is_digit c then let '(a, b) := span_digits r in (c :: a, b) else ([], t)
    | [] => ([], [])
    end.
  Definition lex_digits1 (t : text) : option (text * text) :=
    match span_digits t with ([], _) => None | p => Some p end.
  Definition lex_sign (t : text) : text * text :=
    match t with c :: r => if c =? c_minus then ([c], r) else ([], t) | [] => ([], []) end.
  Definition lex_int (t : text) : option (text * text) :=
    match t with
    | c :: r => if c =? 48 then Some ([c], r) else lex_digits1 t
    | [] => None
    end.
  Definition lex_frac (t : text) : option (text * text) :=
    match t with
    | c :: r => if c =? c_dot then match lex_digits1 r with Some (d, r) => Some (c :: d, r) | None => None end else Some ([], t)
    | [] => Some ([], [])
    end.
  Definition lex_exp (t : text) : option (text * text) :=
    match t with
    | c :: r =>
        if (c =? 101) || (c =? 69) then
          let '(s, r) := match r with d :: r' => if (d =? c_plus) || (d =? c_minus) then ([d], r') else ([], r) | [] => ([], []) end in
          match lex_digits1 r with Some (d, r) => Some (c :: s ++ d, r) | None => None end
        else Some ([], t)
    | [] => Some ([], [])
    end.
  Definition lex_number (t : text) : option (text * text) :=
    let '(s, t) := lex_sign t in
    match lex_int t with
    | None => None
    | Some (i, t) =>
        match lex_frac t with
        | None => None
        | Some (f, t) => match lex_exp t with None => None | Some (e, t) => Some (s ++ i ++ f ++ e, t) end
        end
    end.

  (** ** Values; [t] starts at the value.  [d]: how many arrays and objects may still be opened. *)
  Definition keyword (k : text) (v : json) (t : text) : option (json * text) :=
    if text_eqb (firstn (List.length k) t) k then Some (v, skipn (List.length k) t) else None.
  Fixpoint read_value (n : nat) (d : nat) (t : text) {struct n} : option (json * text) :=
    match n with
    | O => None
    | S n =>
        match t with
        | [] => None
        | c :: r =>
            if c =? c_quote then match read_string_body r with Some (s, r) => Some (JStr s, r) | None => None end
            else if c =? c_lbrack then
              match d with
              | O => None
              | S d => match skip_ws r with
                       | [] => None
                       | x :: r' => if x =? c_rbrack then Some (JArr [], r')
                                    else match read_elements n d (x :: r') with Some (l, r) => Some (JArr l, r) | None => None end
                       end
              end
            else if c =? c_lbrace then
              match d with
              | O => None
              | S d => match skip_ws r with
                       | [] => None
                       | x :: r' => if x =? c_rbrace then Some (JObj (object []), r')
                                    else match read_members n d (x :: r') with Some (l, r) => Some (JObj (object l), r) | None => None end
                       end
              end
            else if c =? 110 then keyword (lit "null") JNull t
            else if c =? 116 then keyword (lit "true") (JBool true) t
            else if c =? 102 then keyword (lit "false") (JBool false) t
            else match lex_number t with
                 | Some (tok, r) => match number tok with Some v => Some (v, r) | None => None end
                 | None => None
                 end
        end
    end
  with read_elements (n : nat) (d : nat) (t : text) {struct n} : option (list json * text) :=
    match n with
    | O => None
    | S n =>
        match read_value n d t with
        | None => None
        | Some (v, r) =>
            match skip_ws r with
            | [] => None
            | c :: r => if c =? c_comma then match read_elements n d (skip_ws r) with Some (l, r) => Some (v :: l, r) | None => None end
                        else if c =? c_rbrack then Some ([v], r) else None
            end
        end
    end
  with read_members (n : nat) (d : nat) (t : text) {struct n} : option (list (text * json) * text) :=
    match n with
    | O => None
    | S n =>
        match t with
        | [] => None
        | q :: r =>
            if q =? c_quote then
              match read_string_body r with
              | None => None
              | Some (k, r) =>
                  match skip_ws r with
                  | [] => None
                  | c :: r =>
                      if c =? c_colon then
                        match read_value n d (skip_ws r) with
                        | None => None
                        | Some (v, r) =>
                            match skip_ws r with
                            | [] => None
                            | c :: r => if c =? c_comma then match read_members n d (skip_ws r) with Some (l, r) => Some ((k, v) :: l, r) | None => None end
                                        else if c =? c_rbrace then Some ([(k, v)], r) else None
                            end
                        end
                      else None
                  end
              end
            else None
        end
    end.
  (** A document: one value, white space around it. *)
  Definition read_json (d : nat) (t : text) : option json :=
    match read_value (2 * List.length t + 1) d (skip_ws t) with
    | Some (v, r) => match skip_ws r with [] => Some v | _ => None end
    | None => None
    end.
End Reader.

(** ** serde_json *)
(** The integer a token without fraction and exponent stands for. *)
Definition int_token (t : text) : option Z :=
  match t with
  | c :: r => if c =? c_minus then if all_digits r then Some (- Z.of_N (digits_value r))%Z else None
              else if all_digits t then Some (Z.of_N (digits_value t)) else None
  | [] => None
  end.
Definition is_64_bit (z : Z) : bool := ((- 2 ^ 63 <=? z) && (z <? 2 ^ 64))%Z.
(** parse_any_number: u64, i64, else f64 (-0 too); [huge]: the tokens whose f64 would be infinite, which
    are refused. *)
Definition serde_number (huge : text -> bool) (t : text) : option json :=
  match int_token t with
  | Some z => if is_64_bit z && negb (text_eqb t (lit "-0")) then Some (JInt z)
              else if huge t then None else Some (if is_64_bit z then JFloat t else JInt z)
  | None => if huge t then None else Some (JFloat t)
  end.
(** Lexicographic order of texts: the byte order of their UTF-8. *)
Fixpoint text_ltb (a b : text) : bool :=
  match a, b with
  | _, [] => false
  | [], _ => true
  | x :: a, y :: b => if x =? y then text_ltb a b else x <? y
  end.
(** BTreeMap::insert on the sorted entries. *)
Fixpoint bt_insert {V} (k : text) (v : V) (m : list (text * V)) : list (text * V) :=
  match m with
  | [] => [(k, v)]
  | (k', v') :: m' => if text_ltb k k' then (k, v) :: m
                      else if text_eqb k k' then (k', v) :: m' else (k', v') :: bt_insert k v m'
  end.
(** serde_json's Map: a BTreeMap, or with the feature preserve_order (which packages/zkenc-js turns
    on, also for a build of the whole workspace) an IndexMap. *)
Definition serde_object (preserve_order : bool) (kvs : list (text * json)) : list (text * json) :=
  if preserve_order then fold_left (fun m kv => hm_insert (fst kv) (snd kv) m) kvs []
  else fold_left (fun m kv => bt_insert (fst kv) (snd kv) m) kvs [].
(** serde_json::from_str::<Value>: at most 127 arrays and objects inside one another. *)
Definition serde_parse (huge : text -> bool) (preserve_order : bool) (t : text) : option json :=
  read_json (serde_number huge) (serde_object preserve_order) false 127 t.

(** ** JavaScript *)
(** The Number of a token: an integer of at most 2^53 is exact, [round] gives the others. *)
Definition js_number (round : text -> json) (t : text) : option json :=
  Some (match int_token t with
        | Some z => if (Z.abs z <=? 2 ^ 53)%Z then JInt z else round t
        | None => round t
        end).
(** The Number nearest to a token (JsNumber.v). *)
Definition js_of_number (x : Z) : json :=
  if ((x mod Z.of_N unit1 =? 0) && (Z.abs x <=? 2 ^ 53 * Z.of_N unit1))%Z then JInt (x / Z.of_N unit1) else JFloat (number_text x).
Definition js_round (t : text) : json :=
  match number_of t with
  | Some x => js_of_number x
  | None => JFloat (match t with c :: _ => if c =? c_minus then lit "-Infinity" else lit "Infinity" | [] => lit "NaN" end)
  end.
(** Array indices: canonical numerals below 2^32 - 1. *)
Definition array_index (k : text) : option N :=
  if all_digits k then
    let n := digits_value k in if (n <? 2 ^ 32 - 1) && text_eqb (dec_text n) k then Some n else None
  else None.
(** The order of an object's properties: array indices ascending, then the others as they came. *)
Fixpoint index_insert (n : N) (k : text) (v : json) (m : list (text * json)) : list (text * json) :=
  match m with
  | [] => [(k, v)]
  | (k', v') :: m' =>
      match array_index k' with
      | Some n' => if n <? n' then (k, v) :: m else if n =? n' then (k', v) :: m' else (k', v') :: index_insert n k v m'
      | None => (k, v) :: m
      end
  end.
Definition js_put (m : list (text * json)) (kv : text * json) : list (text * json) :=
  match array_index (fst kv) with
  | Some n => index_insert n (fst kv) (snd kv) m
  | None => hm_insert (fst kv) (snd kv) m
  end.
Definition js_object (kvs : list (text * json)) : list (text * json) := fold_left js_put kvs [].
(** JSON.parse; running out of stack is not modelled. *)
Definition js_json_parse (round : text -> json) (t : text) : option json :=
  read_json (js_number round) js_object true (List.length t) t.

(** ** Writing *)
Definition hex_digit (n : N) : N := if n <? 10 then 48 + n else 87 + n.
Definition u_escape (n : N) : text :=
  [c_back; 117; hex_digit (n / 4096 mod 16); hex_digit (n / 256 mod 16); hex_digit (n / 16 mod 16); hex_digit (n mod 16)].
(** One character of a string: both writers use the same escapes; JSON.stringify also escapes a
    surrogate without its partner (the only surrogates a text has). *)
Definition write_char (c : N) : text :=
  if c =? c_quote then [c_back; c_quote] else if c =? c_back then [c_back; c_back]
  else if c =? 8 then lit "\b" else if c =? 12 then lit "\f" else if c =? 10 then lit "\n"
  else if c =? 13 then lit "\r" else if c =? 9 then lit "\t"
  else if (c <? 32) || is_high c || is_low c then u_escape c
  else [c].
Definition write_string (t : text) : text := [c_quote] ++ flat_map write_char t ++ [c_quote].
Definition write_scalar (v : json) : text :=
  match v with
  | JNull => lit "null"
  | JBool true => lit "true"
  | JBool false => lit "false"
  | JInt z => dec_text_z z
  | JFloat t => if existsb is_digit t then t else lit "null"   (* Infinity, -Infinity, NaN *)
  | JStr t => write_string t
  | _ => []
  end.
(** [sep_by s l]: the texts with [s] between them. *)
Fixpoint sep_by (s : text) (l : list text) : text :=
  match l with [] => [] | [x] => x | x :: l => x ++ s ++ sep_by s l end.
(** JSON.stringify without spacing. *)
Fixpoint stringify (v : json) : text :=
  match v with
  | JArr l => lit "[" ++ sep_by (lit ",") (map stringify l) ++ lit "]"
  | JObj kvs => lit "{" ++ sep_by (lit ",") (map (fun kv => match kv with (k, v) => write_string k ++ lit ":" ++ stringify v end) kvs) ++ lit "}"
  | _ => write_scalar v
  end.
(** serde_json's PrettyFormatter: a line for each item, two spaces for each level. *)
Definition indent (n : nat) : text := c_nl :: repeat 32 (2 * n).
Fixpoint pretty (n : nat) (v : json) : text :=
  match v with
  | JArr [] => lit "[]"
  | JObj [] => lit "{}"
  | JArr l => lit "[" ++ indent (S n) ++ sep_by (lit "," ++ indent (S n)) (map (pretty (S n)) l) ++ indent n ++ lit "]"
  | JObj kvs => lit "{" ++ indent (S n) ++
      sep_by (lit "," ++ indent (S n)) (map (fun kv => match kv with (k, v) => write_string k ++ lit ": " ++ pretty (S n) v end) kvs) ++
      indent n ++ lit "}"
  | _ => write_scalar v
  end.

(** ** TextEncoder and TextDecoder (zkenc.ts:331-332, 519-520): UTF-8; a surrogate without its partner
    becomes U+FFFD, a byte order mark at the start is dropped; [lossy]: what the decoder makes of
    bytes that are no UTF-8. *)
Definition text_encode (t : text) : list byte := utf8_encode (map (fun c => if is_high c || is_low c then 65533 else c) t).
Definition text_decode (lossy : list byte -> text) (b : list byte) : text :=
  match utf8_decode b with
  | Some (c :: t) => if c =? 65279 then t else c :: t
  | Some [] => []
  | None => lossy b
  end.
(** What encrypt embeds: new TextEncoder().encode(JSON.stringify(publicInputs)) (zkenc.ts:330-332). *)
Definition public_json (inputs : list (text * json)) : list byte := text_encode (stringify (JObj inputs)).
