(** Specification vocabulary for C56: the files circom makes from one source, and documents written
    in the shape of the circuit's inputs. *)
From Coq Require Import List NArith ZArith Permutation.
From Coq Require Import Strings.String Strings.Byte.
From Verif Require Import Bytes Text Fld Bn254 R1cs Sym SpecCommands Inputs SpecInputs SpecNumerals WitnessCalc SpecWitnessCalc.
Import ListNotations.
Local Open Scope N_scope.

(** An input signal has a name and dimensions (none for a number). *)
Fixpoint total (dims : list N) : N := match dims with [] => 1 | d :: ds => d * total ds end.
Definition item (k : text) (i : N) : text := k ++ lit "[" ++ dec_text i ++ lit "]".
(** [element dims k j name]: [name] is the element number [j], in row-major order, of signal [k]. *)
Inductive element : list N -> text -> N -> text -> Prop :=
| el_number k : element [] k 0 k
| el_array d ds k i j name : i < d -> element ds (item k i) j name -> element (d :: ds) k (i * total ds + j) name.
(** [indexed k n name]: [k] followed by [n] indices. *)
Inductive indexed : text -> nat -> text -> Prop :=
| ix_none k : indexed k 0 k
| ix_more k n i name : indexed (item k i) n name -> indexed k (S n) name.
(** A value in the shape of a signal, a document in the shape of the circuit's inputs. *)
Inductive shaped : list N -> json -> Prop :=
| sh_number v : (forall l, v <> JArr l) -> shaped [] v
| sh_array d ds l : N.of_nat (List.length l) = d -> Forall (shaped ds) l -> shaped (d :: ds) (JArr l).
Definition shaped_doc (ins : list (text * list N)) (kvs : list (text * json)) : Prop :=
  forall k v, In (k, v) kvs -> exists dims, In (k, dims) ins /\ shaped dims v.

(** The WASM module, the circuit file and the symbol file ([wire_of], by signal name without "main.")
    of one circom source with inputs [ins]: the module works in the BN254 field, has a witness element
    for each wire, knows the inputs by the hashes of their names; a witness it computes satisfies the
    constraints and carries, on the wire of an input, the value given; and the symbol file has no
    names with too few or too many indices. *)
Record compiled (m : wmodule) (r : r1cs_file) (ins : list (text * list N)) (wire_of : text -> option N) : Prop := {
  cp_module : module_ok m;
  cp_prime : md_prime m = Z.to_N bn_r;
  cp_words : md_n32 m = 8%nat;
  cp_size : md_wsize m = r_n_wires r;
  cp_signals : md_signals m = map (fun kd => (name_hash (fst kd), total (snd kd))) ins;
  cp_solves : forall gs w, Permutation (map fst gs) (slots m) -> Forall (fun g => snd g < md_prime m) gs -> md_compute m gs = Some w ->
    opens_circuit r (map (fun v => fr (Z.of_N v)) w) /\
    forall k dims i name v wire, In (k, dims) ins -> element dims k i name -> In (name_hash k, i, v) gs ->
      wire_of name = Some wire -> nth_error w (N.to_nat wire) = Some v;
  cp_names : forall k dims n name, In (k, dims) ins -> indexed k n name -> wire_of name <> None -> n = List.length dims
}.

(** The inputs solve the circuit: every signal gets its values, and the module computes a witness. *)
Definition solves (m : wmodule) (inputs : list (text * json)) : Prop :=
  exists gs w, complete_input m inputs gs /\ md_compute m gs = Some w.
(** The digits JavaScript writes for a Number give its value ([t] is what it writes; true of all whole
    Numbers up to 2^53, not of all larger ones, see C75). *)
Definition exact_text (t : text) : Prop := forall z z', bigint_text t z -> whole_number (JFloat t) z' -> z = z'.
(** Every number of the document is between 0 and 2^256 - 1, and Numbers beyond 2^53 are written
    exactly. *)
Definition ordinary (kvs : list (text * json)) : Prop :=
  (forall k v zs z, In (k, v) kvs -> numbers v zs -> In z zs -> (0 <= z < 2 ^ 256)%Z) /\
  (forall name t, doc_leaf kvs name (JFloat t) -> exact_text t).
(** Every JSON number (as opposed to text) of the document is at least 0. *)
Definition no_negative_number (kvs : list (text * json)) : Prop :=
  forall name z, doc_leaf kvs name (JInt z) -> (0 <= z)%Z.

(** Memory for decrypting with a calculated witness: the circuit file and the witness file, 76 bytes
    and 32 for each wire, fit the address space of the WASM target; [fuel] bounds the model's loop. *)
Definition fits_calculated (W : N) (fuel : nat) (cb : list byte) (r : r1cs_file) : Prop :=
  blen cb < W /\ 2 * (76 + 32 * r_n_wires r) < W /\ W <= 2 ^ 64 /\ 76 + 32 * r_n_wires r < N.of_nat fuel.
(** Reading the JavaScript symbol map. *)
Definition js_wires (sym : text) (name : text) : option N := hm_get (lit "main." ++ name) (js_parse_sym_file sym).
