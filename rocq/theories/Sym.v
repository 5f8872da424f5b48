(** Model of the symbol file parsers: packages/zkenc-cli/src/sym_parser.rs and
    packages/zkenc-js/src/sym_parser.ts:26-79. *)
From Coq Require Import List Bool Arith NArith ZArith.
From Coq Require Import Strings.String.
From Verif Require Import Res Text.
Import ListNotations.
Local Open Scope N_scope.

(** The only error: a wire field that is not an i32 (sym_parser.rs:35-42). *)
Inductive sym_error := SymBadWire.

(** One iteration of the loop of parse_sym_file (sym_parser.rs:23-54). *)
Definition sym_step (m : hmap N) (line : text) : res sym_error (hmap N) :=
  let line := trim rust_ws line in
  match line with
  | [] => Ok m
  | _ =>
    match split_on c_comma line with
    | [_; p1; _; p3] =>
        match parse_i32 (trim rust_ws p1) with
        | None => Err SymBadWire
        | Some z => if (z <? 0)%Z then Ok m else Ok (hm_insert (trim rust_ws p3) (Z.to_N z) m)
        end
    | _ => Ok m
    end
  end.
Fixpoint sym_loop (ls : list text) (m : hmap N) : res sym_error (hmap N) :=
  match ls with
  | [] => Ok m
  | l :: ls => match sym_step m l with Ok m => sym_loop ls m | Err e => Err e | Panic => Panic end
  end.
(** parse_sym_file (sym_parser.rs:20-57). *)
Definition parse_sym_file (t : text) : res sym_error (hmap N) := sym_loop (rust_lines t) [].

(** str::strip_prefix. *)
Fixpoint strip_prefix (p t : text) : option text :=
  match p, t with
  | [], _ => Some t
  | a :: p, b :: t => if a =? b then strip_prefix p t else None
  | _ :: _, [] => None
  end.
Definition main_dot : text := lit "main.".

(** get_input_signals (sym_parser.rs:68-89); also getInputSignals (sym_parser.ts:59-79), where
    startsWith + substring(5) is the same test and result.  [entries] is the map in the order in
    which iter() visits it. *)
Definition get_input_signals (entries : hmap N) (max_wire_id : option N) : hmap N :=
  fold_left (fun acc e =>
    let '(name, wire) := e in
    if match max_wire_id with Some mx => mx <? wire | None => false end then acc
    else match strip_prefix main_dot name with
         | Some simplified => hm_insert simplified wire acc
         | None => acc
         end) entries [].

(** parseSymFile (sym_parser.ts:26-49); labelId and componentId are not used. *)
Definition js_sym_step (m : hmap N) (line : text) : hmap N :=
  match split_on c_comma line with
  | [_; p1; _; p3] =>
      match js_parse_int p1 with
      | Some z => if (0 <=? z)%Z then hm_insert (trim js_ws p3) (Z.to_N z) m else m
      | None => m
      end
  | _ => m
  end.
Definition js_parse_sym_file (t : text) : hmap N :=
  fold_left js_sym_step (split_on c_nl (trim js_ws t)) [].
