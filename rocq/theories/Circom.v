(** Model of packages/zkenc-cli/src/circom.rs.  CircomCircuitWrapper (116-125) has no content. *)
From Coq Require Import List Bool NArith ZArith.
From Coq Require Import Strings.String Strings.Byte.
From Verif Require Import Res Bytes Text Utf8 Inputs FileSys.
Import ListNotations.
Local Open Scope N_scope.

Inductive circom_error := CReadR1cs | CReadWasm | CReadInput | CParseJson | CNotObject.

(** load_circom_circuit (circom.rs:13-37): both files are read, the counts come from the length. *)
Definition load_circom_circuit (s : fsys) (r1cs_path wasm_path : path) : res circom_error (N * N * N) :=
  match s r1cs_path with
  | None => Err CReadR1cs
  | Some r1cs_data =>
      match s wasm_path with
      | None => Err CReadWasm
      | Some _ =>
          let num_constraints := blen r1cs_data / 1000 in
          Ok (num_constraints, 3, num_constraints * 2)
      end
  end.

Section Circom.
  (** serde_json::from_str, and the text serde_json gives a number that is not a u64 or i64 (an f64). *)
  Context (json_parse : text -> option json) (f64_text : json -> text).

  (** n.to_string() (circom.rs:131). *)
  Definition number_text (v : json) (z : Z) : text :=
    if ((- 2 ^ 63 <=? z) && (z <? 2 ^ 64))%Z then dec_text_z z else f64_text v.
  (** flatten_value (circom.rs:128-141). *)
  Fixpoint flatten_texts (v : json) : list text :=
    match v with
    | JStr t => [t]
    | JInt z => [number_text v z]
    | JFloat _ => [f64_text v]
    | JArr l => (fix go (l : list json) : list text := match l with [] => [] | x :: l => flatten_texts x ++ go l end) l
    | JBool b => [if b then lit "1" else lit "0"]
    | JNull => [lit "0"]
    | JObj _ => []
    end.
  (** parse_inputs (circom.rs:43-60): one insertion for each entry of the object. *)
  Definition parse_inputs (s : fsys) (input_path : path) : res circom_error (hmap (list text)) :=
    match s input_path with
    | None => Err CReadInput
    | Some b =>
        match utf8_decode b with
        | None => Err CReadInput
        | Some content =>
            match json_parse content with
            | None => Err CParseJson
            | Some (JObj obj) => Ok (fold_left (fun m kv => hm_insert (fst kv) (flatten_texts (snd kv)) m) obj [])
            | Some _ => Err CNotObject
            end
        end
    end.
End Circom.
