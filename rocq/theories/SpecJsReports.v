(** Specification: how each call of the JavaScript API ends - the first of the listed things that is
    wrong decides (C73). *)
From Coq Require Import List Bool NArith ZArith.
From Coq Require Import Strings.String Strings.Byte.
From Verif Require Import Res Bytes Text Fld Groups Bn254 CS SpecCore Core R1cs R1csJs Circuit SpecCircuit ArkSer Sym Inputs SpecInputs SpecNumerals
  Combined Gcm SpecGcm Commands JsZkenc WitnessCalc SpecWitnessCalc JsFull.
Import ListNotations.
Local Open Scope N_scope.

(** The first condition of the list that some result meets, and a result that meets it. *)
Inductive first_of {R : Type} : list (R -> Prop) -> R -> Prop :=
| fo_here (P : R -> Prop) l r : P r -> first_of (P :: l) r
| fo_next (P : R -> Prop) l r : (forall r', ~ P r') -> first_of l r -> first_of (P :: l) r.
Definition because {R : Type} (P : Prop) (r0 : R) : R -> Prop := fun r => P /\ r = r0.

(** The named values of an input document in the order they are read: array elements as they are,
    objects entry by entry under "key.entry". *)
Fixpoint value_items (key : text) (v : json) : list (text * json) :=
  match v with
  | JArr l => map (fun ix => (key ++ lit "[" ++ dec_text (N.of_nat (fst ix)) ++ lit "]", snd ix)) (combine (seq 0 (List.length l)) l)
  | JObj o => (fix go o := match o with
                           | [] => []
                           | (k, x) :: o => value_items (match key with [] => k | _ => key ++ lit "." ++ k end) x ++ go o
                           end) o
  | _ => [(key, v)]
  end.
Definition doc_items (kvs : list (text * json)) : list (text * json) := flat_map (fun kv => value_items (fst kv) (snd kv)) kvs.

Section Inputs.
  Context (sym : text) (kvs : list (text * json)).
  Definition on_wire (name : text) (w : N) : Prop := hm_get (lit "main." ++ name) (js_parse_sym_file sym) = Some w.
  (** The text the document leaves on wire [w]: that of the last value on it. *)
  Definition leaves (w : N) (t : text) : Prop :=
    exists pre name x post, doc_items kvs = pre ++ (name, x) :: post /\ on_wire name w /\ js_to_string x = Some t /\
      forall name' x', In (name', x') post -> ~ on_wire name' w.
  (** A known name is given null; the first wire with a text that is no number, all before it having
      numbers. *)
  Definition null_given : Prop := exists name w, In (name, JNull) (doc_items kvs) /\ on_wire name w.
  Definition bad_number : Prop :=
    exists w t, 1 <= w /\ leaves w t /\ (forall z, ~ bigint_text t z) /\
      forall v, 1 <= v < w -> exists t' z', leaves v t' /\ bigint_text t' z'.
End Inputs.

(** Wire [w] is bound to the integer [z]: it is public, the document leaves [z] on it, and something on
    every wire before it. *)
Definition binds (sym : text) (kvs : list (text * json)) (n_pub w : N) (z : Z) : Prop :=
  1 <= w <= n_pub /\ (forall j, 1 <= j <= w -> exists t, leaves sym kvs j t) /\ exists t, leaves sym kvs w t /\ bigint_text t z.
(** Encapsulation and witness calculation read the same public inputs: the number bound to each public
    wire ([z], from the text of the value) and the number the calculator reads ([z'], from the value
    itself) are the same field element. *)
Definition same_reading (sym : text) (pub : list (text * json)) (n_pub : N) : Prop :=
  forall wire z, binds sym pub n_pub wire z ->
    forall name v z', doc_leaf pub name v -> on_wire sym name wire -> whole_number v z' ->
      fr (z mod 2 ^ 256) = fr z'.

Definition circuit_reports {A : Type} (wrap : js_api_error -> A) (W : N) (cb : list byte) : list (res A unit -> Prop) :=
  [ because (js_parse_r1cs W cb = Panic) Panic;
    (fun r => exists e, js_parse_r1cs W cb = Err e /\ r = Err (wrap (AR1cs e))) ].

Definition js_encap_reports (W : N) (co : coins) (cb : list byte) (sym : text) (kvs : list (text * json)) : list (res js_api_error unit -> Prop) :=
  [ because (null_given sym kvs) (Err (AInput JsTypeError));
    because (bad_number sym kvs) (Err (AInput JsSyntaxError)) ] ++
  circuit_reports (fun e => e) W cb ++
  [ because (c_delta co = f0) Panic ].
Definition js_encrypt_reports (W : N) (co : coins) (cb : list byte) (sym : text) (kvs : list (text * json)) (message : list byte)
  : list (res js_api_error unit -> Prop) :=
  js_encap_reports W co cb sym kvs ++ [ because (2 ^ 36 - 32 < blen message) (Err (ACrypt CipherError)) ].
(** Nothing is wrong. *)
Definition fine {A : Type} : list (res A unit -> Prop) := [ because True (Ok tt) ].

Section Decap.
  Context (E : pairingT Fr) (C : codecT E) (kdf : GT E -> key) (aes : cipherT) (W : N) (fuel : nat)
          (m : wmodule) (cb : list byte) (full : list (text * json)).
  (** The witness the compiled circuit computes from the inputs; what the circuit file says. *)
  Definition has_witness (vals : list Fr) : Prop :=
    exists gs w, complete_input m full gs /\ md_compute m gs = Some w /\ vals = map (fun v => fr (Z.of_N v)) w.
  Definition reads_as (h : js_header) (cs : list constraint_t) : Prop := js_parse_r1cs W cb = Ok (h, cs).
  Definition js_decap_reports (ctb : list byte) : list (res js_full_error unit -> Prop) :=
    [ (fun r => exists e, calculate_witness m full = Err e /\ r = Err (FWitness e)) ] ++
    circuit_reports FApi W cb ++
    [ because (exists h cs vals, reads_as h cs /\ has_witness vals /\ N.of_nat (List.length vals) <> j_n_wires h)
              (Err (FApi ASizeMismatch));
      because (ct_deserialize C ctb = None) (Err (FApi ADeserialize));
      because (exists h cs, reads_as h cs /\ j_n_wires h <= (j_n_pub_out h + j_n_pub_in h) mod 2 ^ 32)
              (Err (FApi (ADecap (SynthesisError AssignmentMissing))));
      because (exists h cs vals, reads_as h cs /\ has_witness vals /\ ~ satisfies (wires (fun i => nth_error vals (N.to_nat i))) cs)
              (Err (FApi (ADecap InvalidWitness)));
      because (exists ct rest vals, ct_deserialize C ctb = Some (ct, rest) /\ has_witness vals /\
                 ~ (exists others, tl vals = public_inputs ct ++ others))
              (Err (FApi (ADecap InvalidPublicInputs)));
      because (exists ct rest, ct_deserialize C ctb = Some (ct, rest) /\
                 (r_u_query_g1 (ct_key ct) = [] \/ r_v_query_g2 (ct_key ct) = [] \/ phi_delta_query_g1 (ct_key ct) = []))
              (Err (FApi (ADecap InvalidWitness))) ].

  (** The parts of a combined file: four-byte lengths, and what lies between and after. *)
  Definition length_field (f : list byte) (o : N) : N := be_val (firstn 4 (skipn (N.to_nat o) f)).
  Definition from (f : list byte) (o : N) : list byte := skipn (N.to_nat o) f.
  Definition with_public (f : list byte) : Prop := nth_error f 0 = Some x01.
  Definition witness_part (f : list byte) : list byte := firstn (N.to_nat (length_field f 1)) (from f 5).
  Definition is_message_part (f b : list byte) : Prop :=
    let n := length_field f 1 in
    (with_public f /\ b = from f (9 + n + length_field f (5 + n))) \/ (~ with_public f /\ b = from f (5 + n)).
  Definition authentic (k : key) (b : list byte) : Prop :=
    exists nonce c, List.length nonce = 12%nat /\ blen c <= 2 ^ 36 - 32 /\ b = nonce ++ c ++ spec_tag aes k nonce c.
  Definition js_decrypt_reports (f : list byte) : list (res js_full_error unit -> Prop) :=
    [ because (blen f < 5) (Err (FApi (ACombined JTooShort)));
      because (blen f < 5 + length_field f 1) (Err (FApi (ACombined JLengthMismatch)));
      because (with_public f /\ blen f < 9 + length_field f 1) (Err (FApi (ACombined JMissingPublic))) ] ++
    js_decap_reports (witness_part f) ++
    [ because (exists b, is_message_part f b /\ blen b < 28) (Err (FApi (ACrypt DataTooShort)));
      because (exists b k, is_message_part f b /\ decap_inputs E C kdf W fuel m cb (witness_part f) full = Ok k /\ ~ authentic k b)
              (Err (FApi (ACrypt CipherError))) ].
End Decap.
