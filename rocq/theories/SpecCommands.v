(** Specification vocabulary for the commands (C41-C43): when files open a ciphertext, when a
    witness agrees with the encrypted inputs, what an encryption writes. *)
From Coq Require Import List Bool NArith ZArith.
From Coq Require Import Strings.String Strings.Byte.
From Verif Require Import Res Bytes Text Utf8 Fld Groups Bn254 Qap Core R1cs Wtns Circuit SpecCircuit ArkSer Sym Inputs SpecInputs
  Combined Gcm SpecGcm FileSys.
Import ListNotations.
Local Open Scope N_scope.

(** Nothing but these paths differs. *)
Definition only_changed (ps : list path) (s s' : fsys) : Prop := forall p, ~ In p ps -> s' p = s p.
Definition unchanged (s s' : fsys) : Prop := forall p, s' p = s p.

(** Circuits the commands handle: there is a wire besides the public inputs, there are no more
    public wires than wires, and at most 2^24 public inputs (so that lengths fit 32 bits). *)
Definition usable (r : r1cs_file) : Prop :=
  r_n_pub_in r + 1 < r_n_wires r /\ r_n_pub_out r + r_n_pub_in r < r_n_wires r /\ r_n_pub_in r <= 2 ^ 24.
(** The witness has a value for every wire and satisfies every constraint, and the constraints
    mention existing wires only. *)
Definition opens_circuit (r : r1cs_file) (vals : list Fr) : Prop :=
  r_n_wires r <= N.of_nat (List.length vals) /\ factors_below (r_n_wires r) (r_constraints r) /\
  satisfies (wires (fun w => nth_error vals (N.to_nat w))) (r_constraints r).

Section SpecCommands.
  Context (E : pairingT Fr) (C : codecT E) (kdf : GT E -> key) (aes : cipherT)
          (json_parse : text -> option json) (max_off : N).

  (** Circuit file [cb] and witness file [wb] are readable and give key [k] for the ciphertext at
      the front of [bs]. *)
  Definition recovers (cb wb bs : list byte) (k : key) : Prop :=
    exists r vals ct rest,
      r1cs_from_bytes max_off cb = Ok r /\ cli_read_witness wb = Ok vals /\
      ct_deserialize C bs = Some (ct, rest) /\
      decap kdf (circom_prog (circom_of_cli r (fun w => nth_error vals (N.to_nat w)))) ct = Ok k.

  (** These files open the combined file [f] to the message [m]: the key they give authenticates
      the encrypted part, which is nonce || c || tag with [c] the masked message. *)
  Definition opens (cb wb f m : list byte) : Prop :=
    exists p k nonce c,
      cli_split f = Ok p /\ recovers cb wb (p_witness p) k /\ List.length k = 32%nat /\
      List.length nonce = 12%nat /\ blen c <= gcm_limit /\
      p_message p = nonce ++ c ++ spec_tag aes k nonce c /\ gcm_masked aes k nonce c m.

  (** The witness has the value the input file gives to every public input it names. *)
  Definition inputs_agree (sym_file input_file : list byte) (n_in : N) (vals : list Fr) : Prop :=
    forall st syms it kvs name x a w,
      utf8_decode sym_file = Some st -> parse_sym_file st = Ok syms ->
      utf8_decode input_file = Some it -> json_parse it = Some (JObj kvs) ->
      doc_leaf kvs name x -> numeric x a ->
      hm_get (lit "main." ++ name) syms = Some w -> 1 <= w <= n_in ->
      nth_error vals (N.to_nat w) = Some a.
End SpecCommands.
Arguments recovers {E}. Arguments opens {E}.
