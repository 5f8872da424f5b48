(** What a JSON text is (RFC 8259), independently of the readers. *)
From Coq Require Import List Bool Arith NArith ZArith Sorted Permutation.
From Coq Require Import Strings.String.
From Verif Require Import Text Inputs.
Import ListNotations.
Local Open Scope N_scope.

(** White space: space, tab, line feed, carriage return. *)
Definition blanks (t : text) : Prop := Forall (fun c => c = 32 \/ c = 9 \/ c = 10 \/ c = 13) t.

(** Number tokens. *)
Definition digit (c : N) : Prop := 48 <= c <= 57.
Definition digits (t : text) : Prop := t <> [] /\ Forall digit t.
Definition int_part (t : text) : Prop := t = lit "0" \/ exists c r, t = c :: r /\ 49 <= c <= 57 /\ Forall digit r.
Definition frac_part (t : text) : Prop := t = [] \/ exists ds, t = lit "." ++ ds /\ digits ds.
Definition exp_part (t : text) : Prop :=
  t = [] \/ exists e s ds, t = e ++ s ++ ds /\ (e = lit "e" \/ e = lit "E") /\ (s = [] \/ s = lit "+" \/ s = lit "-") /\ digits ds.
Definition number_token (t : text) : Prop :=
  exists s i f e, t = s ++ i ++ f ++ e /\ (s = [] \/ s = lit "-") /\ int_part i /\ frac_part f /\ exp_part e.

(** Four hexadecimal digits and their value. *)
Inductive hex_digit_is : N -> N -> Prop :=
| hd_digit c : 48 <= c <= 57 -> hex_digit_is c (c - 48)
| hd_lower c : 97 <= c <= 102 -> hex_digit_is c (c - 97 + 10)
| hd_upper c : 65 <= c <= 70 -> hex_digit_is c (c - 65 + 10).
Definition hex4_is (h : text) (n : N) : Prop :=
  exists a b c d a' b' c' d', h = [a; b; c; d] /\ hex_digit_is a a' /\ hex_digit_is b b' /\ hex_digit_is c c' /\ hex_digit_is d d' /\
    n = a' * 4096 + b' * 256 + c' * 16 + d'.
Definition high (n : N) : Prop := 55296 <= n <= 56319.
Definition low (n : N) : Prop := 56320 <= n <= 57343.
(** The escapes of one letter and the characters they stand for. *)
Definition escapes : list (N * N) :=
  [(34, 34); (92, 92); (47, 47); (98, 8); (102, 12); (110, 10); (114, 13); (116, 9)].

Section Grammar.
  (** [number tok]: the value of a number token, if the reader knows one; [object]: the object made of
      its members in the order of the text; [lone]: surrogates without their partner are allowed. *)
  Context (number : text -> option json) (object : list (text * json) -> list (text * json)) (lone : bool).

  (** [string_body s t]: the text [s] between the quotes of a string stands for [t]. *)
  Inductive string_body : text -> text -> Prop :=
  | sb_end : string_body [] []
  | sb_plain c s t : 32 <= c -> c <> 34 -> c <> 92 -> string_body s t -> string_body (c :: s) (c :: t)
  | sb_short e c s t : In (e, c) escapes -> string_body s t -> string_body ([92; e] ++ s) (c :: t)
  | sb_unicode h n s t : hex4_is h n -> ~ high n -> ~ low n -> string_body s t -> string_body ([92; 117] ++ h ++ s) (n :: t)
  | sb_pair h hi h' lo s t : hex4_is h hi -> high hi -> hex4_is h' lo -> low lo -> string_body s t ->
      string_body ([92; 117] ++ h ++ [92; 117] ++ h' ++ s) (65536 + (hi - 55296) * 1024 + (lo - 56320) :: t)
  | sb_lone h n s t : lone = true -> hex4_is h n -> high n \/ low n ->
      (high n -> forall h' m s', s = [92; 117] ++ h' ++ s' -> hex4_is h' m -> ~ low m) ->
      string_body s t -> string_body ([92; 117] ++ h ++ s) (n :: t).
  Definition string_text (s t : text) : Prop := exists b, s = [34] ++ b ++ [34] /\ string_body b t.

  (** [value d s v]: the text [s] stands for [v], and holds at most [d] arrays and objects inside one
      another. *)
  Inductive value : nat -> text -> json -> Prop :=
  | v_null d : value d (lit "null") JNull
  | v_true d : value d (lit "true") (JBool true)
  | v_false d : value d (lit "false") (JBool false)
  | v_number d t v : number_token t -> number t = Some v -> value d t v
  | v_string d s t : string_text s t -> value d s (JStr t)
  | v_array_empty d w : blanks w -> value (S d) (lit "[" ++ w ++ lit "]") (JArr [])
  | v_array d s l : elements d s l -> value (S d) (lit "[" ++ s ++ lit "]") (JArr l)
  | v_object_empty d w : blanks w -> value (S d) (lit "{" ++ w ++ lit "}") (JObj (object []))
  | v_object d s l : members d s l -> value (S d) (lit "{" ++ s ++ lit "}") (JObj (object l))
  with elements : nat -> text -> list json -> Prop :=
  | el_last d w s w' v : blanks w -> blanks w' -> value d s v -> elements d (w ++ s ++ w') [v]
  | el_more d w s w' rest v l : blanks w -> blanks w' -> value d s v -> elements d rest l ->
      elements d (w ++ s ++ w' ++ lit "," ++ rest) (v :: l)
  with members : nat -> text -> list (text * json) -> Prop :=
  | me_last d w k s w1 w2 w3 x v : blanks w -> blanks w1 -> blanks w2 -> blanks w3 -> string_text k x -> value d s v ->
      members d (w ++ k ++ w1 ++ lit ":" ++ w2 ++ s ++ w3) [(x, v)]
  | me_more d w k s w1 w2 w3 rest x v l : blanks w -> blanks w1 -> blanks w2 -> blanks w3 -> string_text k x -> value d s v ->
      members d rest l -> members d (w ++ k ++ w1 ++ lit ":" ++ w2 ++ s ++ w3 ++ lit "," ++ rest) ((x, v) :: l).
  Definition document (d : nat) (t : text) (v : json) : Prop :=
    exists w s w', t = w ++ s ++ w' /\ blanks w /\ blanks w' /\ value d s v.
End Grammar.

(** ** Objects *)
(** The last value a list of members gives a key. *)
Definition last_value {V} (k : text) (kvs : list (text * V)) (v : V) : Prop :=
  exists a b, kvs = a ++ (k, v) :: b /\ ~ In k (map fst b).
(** [m] has each key once, with its last value. *)
Definition last_values {V} (kvs m : list (text * V)) : Prop :=
  NoDup (map fst m) /\ forall k v, In (k, v) m <-> last_value k kvs v.
(** Each key once, where it appears first. *)
Fixpoint firsts (ks : list text) : list text :=
  match ks with [] => [] | k :: r => k :: filter (fun x => negb (text_eqb x k)) (firsts r) end.
(** The order of a dictionary. *)
Inductive lex_lt : text -> text -> Prop :=
| lex_nil c t : lex_lt [] (c :: t)
| lex_head c d s t : c < d -> lex_lt (c :: s) (d :: t)
| lex_tail c s t : lex_lt s t -> lex_lt (c :: s) (c :: t).
(** An array index of JavaScript: the canonical numeral of a number below 2^32 - 1. *)
Definition is_index (n : N) (k : text) : Prop := k = dec_text n /\ n < 2 ^ 32 - 1.
Definition index_lt (a b : text) : Prop := exists n m, is_index n a /\ is_index m b /\ n < m.
(** JavaScript's order: the array indices, ascending; then the other keys, as they first appear. *)
Definition property_order (ks order : list text) : Prop :=
  exists idx others, order = idx ++ others /\ StronglySorted index_lt idx /\ (forall k, In k idx -> exists n, is_index n k) /\
    (forall k n, In k others -> ~ is_index n k) /\
    (forall k, In k ks <-> In k order) /\
    exists keep : text -> bool, (forall k, keep k = false <-> exists n, is_index n k) /\ others = filter keep (firsts ks).

(** ** Numbers *)
(** The integer an integer token stands for. *)
Inductive int_value : text -> Z -> Prop :=
| iv_pos t : int_part t -> int_value t (Z.of_N (digits_value t))
| iv_neg t : int_part t -> int_value (lit "-" ++ t) (- Z.of_N (digits_value t)).

(** ** Strings that can be written *)
Definition no_surrogates (t : text) : Prop := Forall (fun c => ~ high c /\ ~ low c) t.
(** A JavaScript string: a high surrogate before a low one would be one character. *)
Definition well_paired (t : text) : Prop := forall a b hi lo, t = a ++ hi :: lo :: b -> high hi -> ~ low lo.
Definition js_string (t : text) : Prop := well_paired t /\ Forall (fun c => c < 1114112) t.

(** ** JavaScript data: what JSON.parse can give, and what may be passed as inputs (apart from BigInt
    and values JSON cannot hold).  [round]: see JsonText.js_number. *)
Inductive js_data (round : text -> json) : json -> Prop :=
| jd_null : js_data round JNull
| jd_bool b : js_data round (JBool b)
| jd_int z : (Z.abs z <= 2 ^ 53)%Z -> js_data round (JInt z)
| jd_float t : number_token t -> (forall z, int_value t z -> (2 ^ 53 < Z.abs z)%Z) -> round t = JFloat t -> js_data round (JFloat t)
| jd_str t : js_string t -> js_data round (JStr t)
| jd_arr l : Forall (js_data round) l -> js_data round (JArr l)
| jd_obj kvs : NoDup (map fst kvs) -> property_order (map fst kvs) (map fst kvs) ->
    Forall (fun kv => js_string (fst kv) /\ js_data round (snd kv)) kvs -> js_data round (JObj kvs).

(** ** The same data: objects compared without regard to the order of their members *)
Inductive same_data : json -> json -> Prop :=
| sd_null : same_data JNull JNull
| sd_bool b : same_data (JBool b) (JBool b)
| sd_int z : same_data (JInt z) (JInt z)
| sd_str t : same_data (JStr t) (JStr t)
| sd_arr l l' : Forall2 same_data l l' -> same_data (JArr l) (JArr l')
| sd_obj m m' m'' : Permutation m m'' -> Forall2 (fun a b => fst a = fst b /\ same_data (snd a) (snd b)) m'' m' -> same_data (JObj m) (JObj m').
(** All numbers are integers a JavaScript Number holds exactly. *)
Inductive exact_numbers : json -> Prop :=
| en_null : exact_numbers JNull
| en_bool b : exact_numbers (JBool b)
| en_int z : (Z.abs z <= 2 ^ 53)%Z -> exact_numbers (JInt z)
| en_str t : exact_numbers (JStr t)
| en_arr l : Forall exact_numbers l -> exact_numbers (JArr l)
| en_obj m : Forall (fun kv => exact_numbers (snd kv)) m -> exact_numbers (JObj m).
