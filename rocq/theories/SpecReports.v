(** Specification: how a run of each command ends when nothing disturbs it - the first of the listed
    things that is wrong with the files decides. *)
From Coq Require Import List Bool NArith ZArith.
From Coq Require Import Strings.Byte.
From Verif Require Import Res Bytes Text Utf8 Fld Groups Bn254 Core R1cs Wtns ArkSer Sym SpecSym Inputs SpecInputs
  Combined Gcm SpecGcm FileSys Commands SpecCommands.
Import ListNotations.
Local Open Scope N_scope.

(** The result paired with the first proposition of the list that holds. *)
Inductive first_that {R : Type} : list (Prop * R) -> R -> Prop :=
| ft_here (P : Prop) r l : P -> first_that ((P, r) :: l) r
| ft_next (P : Prop) r0 l r : ~ P -> first_that l r -> first_that ((P, r0) :: l) r.

(** Some line of the symbol file has four fields the second of which is no wire number. *)
Definition has_bad_line (t : text) : Prop :=
  exists ls l, Forall (free_of c_nl) ls /\ join c_nl ls = t /\ In l ls /\ says rust_ws l Bad.

Section SpecReports.
  Context (E : pairingT Fr) (C : codecT E) (kdf : GT E -> key) (aes : cipherT)
          (json_parse : text -> option json) (max_off : N) (s : fsys).

  Definition is_circuit (p : path) : Prop := exists b r, s p = Some b /\ r1cs_from_bytes max_off b = Ok r.
  Definition is_text (p : path) (t : text) : Prop := exists b, s p = Some b /\ utf8_decode b = Some t.
  (** A JSON object all of whose leaves are numeric. *)
  Definition is_input (p : path) : Prop :=
    exists t kvs, is_text p t /\ json_parse t = Some (JObj kvs) /\
      forall name x, doc_leaf kvs name x -> exists a, numeric x a.
  Definition is_witness_file (p : path) : Prop := exists b f, s p = Some b /\ wtns_from_bytes b = Ok f.
  Definition is_witness (p : path) : Prop := exists b vals, s p = Some b /\ cli_read_witness b = Ok vals.
  Definition kills_reader (p : path) : Prop := exists b, s p = Some b /\ wtns_from_bytes b = Panic.

  Definition prepare_reports (cp sp ip : path) : list (Prop * res cmd_error unit) :=
    [ (~ is_circuit cp, Err ELoadR1cs);
      (~ (exists t, is_text sp t), Err EReadSym);
      ((exists t, is_text sp t /\ has_bad_line t), Err EParseSym);
      (~ (exists t, is_text ip t), Err EReadInput);
      (~ is_input ip, Err EParseInput) ].
  Definition encap_reports (co : coins) (cp sp ip : path) : list (Prop * res cmd_error unit) :=
    prepare_reports cp sp ip ++
    [ (c_delta co = f0, Panic);
      (True, Ok tt) ].
  Definition encrypt_reports (co : coins) (cp sp ip mp : path) : list (Prop * res cmd_error unit) :=
    prepare_reports cp sp ip ++
    [ (c_delta co = f0, Panic);
      (s mp = None, Err EReadMessage);
      ((exists m, s mp = Some m /\ 2 ^ 36 - 32 < blen m <= 2 ^ 36), Panic);
      ((exists m, s mp = Some m /\ 2 ^ 36 < blen m), Err EEncryptMessage);
      (True, Ok tt) ].

  (** The ciphertext bytes that the circuit and witness files are tried on give a key. *)
  Definition gives_key (cp wp : path) (bs : list byte) : Prop :=
    exists cb wb k, s cp = Some cb /\ s wp = Some wb /\ recovers C kdf max_off cb wb bs k.
  Definition decap_reports (cp wp ctp : path) : list (Prop * res cmd_error unit) :=
    [ (~ is_circuit cp, Err ELoadR1cs);
      (kills_reader wp, Panic);
      (~ is_witness_file wp, Err ELoadWitness);
      (~ is_witness wp, Err EConvertWitness);
      (s ctp = None, Err EReadCiphertext);
      ((exists bs, s ctp = Some bs /\ ct_deserialize C bs = None), Err EDeserialize);
      (~ (exists bs, s ctp = Some bs /\ gives_key cp wp bs), Err EDecap);
      (True, Ok tt) ].

  (** The combined file opens to a message, except that the tag may be right for a message longer
      than the cipher allows. *)
  Definition combined (ctp : path) (p : parts) : Prop := exists f, s ctp = Some f /\ cli_split f = Ok p.
  Definition decrypt_reports (cp wp ctp : path) : list (Prop * res cmd_error unit) :=
    [ (s ctp = None, Err EReadCiphertext) ] ++
    map (fun e => ((exists f, s ctp = Some f /\ cli_split f = Err e), Err (EInvalidCiphertext e)))
        [CTooShort; CWitnessMismatch; CMissingPublic; CPublicMismatch] ++
    [ (~ is_circuit cp, Err ELoadR1cs);
      (kills_reader wp, Panic);
      (~ is_witness_file wp, Err ELoadWitness);
      (~ is_witness wp, Err EConvertWitness);
      ((exists p, combined ctp p /\ ct_deserialize C (p_witness p) = None), Err EDeserialize);
      (~ (exists p, combined ctp p /\ gives_key cp wp (p_witness p)), Err EDecap);
      ((exists p cb wb k nonce c, combined ctp p /\ s cp = Some cb /\ s wp = Some wb /\
          recovers C kdf max_off cb wb (p_witness p) k /\ List.length k = 32%nat /\ List.length nonce = 12%nat /\
          p_message p = nonce ++ c ++ spec_tag aes k nonce c /\ 2 ^ 36 - 32 < blen c <= 2 ^ 36 + 16), Panic);
      (~ (exists cb wb f m, s cp = Some cb /\ s wp = Some wb /\ s ctp = Some f /\ opens C kdf aes max_off cb wb f m),
         Err EDecryptMessage);
      (True, Ok tt) ].
End SpecReports.
