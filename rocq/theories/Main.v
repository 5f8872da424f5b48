(** Model of main (packages/zkenc-cli/src/main.rs:94-138): the command line, the command, the exit
    status.  Error messages are not modelled. *)
From Coq Require Import List Bool NArith ZArith.
From Coq Require Import Strings.Byte.
From Verif Require Import Res Bytes Text Fld Groups Bn254 Qap Core ArkSer Inputs Gcm FileSys Commands CliArgs.
Import ListNotations.
Local Open Scope N_scope.

Inductive main_error := Usage (e : cli_error) | Failed (e : cmd_error).

Definition map_outcome {E E'} (f : E -> E') (o : outcome E) : outcome E' :=
  match o with Finished r => Finished (rmap_err f r) | Killed => Killed end.
(** [?] on the command's result. *)
Fixpoint map_cmd {E E'} (f : E -> E') (c : cmd E) : cmd E' :=
  match c with
  | Ret r => Ret (rmap_err f r)
  | Read p k => Read p (fun b => map_cmd f (k b))
  | Write p b k => Write p b (fun ok => map_cmd f (k ok))
  end.

Section Main.
  Context (E : pairingT Fr) (C : codecT E) (D : domainT Fr) (kdf : GT E -> key) (aes : cipherT)
          (json_parse : text -> option json) (max_off : N).

  (** main.rs:97-135. *)
  Definition dispatch (v : visits) (co : coins) (r : request) : cmd cmd_error :=
    match r with
    | DoEncap circuit sym input ciphertext key =>
        encap_command C D kdf json_parse max_off v co circuit sym input ciphertext key
    | DoDecap circuit witness ciphertext key =>
        decap_command C kdf max_off circuit witness ciphertext key
    | DoEncrypt circuit sym input message output include_public_input =>
        encrypt_command C D kdf aes json_parse max_off v co circuit sym input message output include_public_input
    | DoDecrypt circuit witness ciphertext output =>
        decrypt_command C kdf aes max_off circuit witness ciphertext output
    end.
  (** main.rs:94-138. *)
  Definition main (debug : bool) (v : visits) (co : coins) (args : list text) : cmd main_error :=
    match cli_parse debug args with
    | Ok r => map_cmd Failed (dispatch v co r)
    | Err e => Ret (Err (Usage e))
    | Panic => Ret Panic
    end.
End Main.
Arguments main {E}. Arguments dispatch {E}.

(** The exit status: an error returned from main gives 1, clap's errors 2, its help 0, a panic 101. *)
Definition exit_status (r : res main_error unit) : N :=
  match r with
  | Ok _ => 0
  | Err (Failed _) => 1
  | Err (Usage DisplayHelp) => 0
  | Err (Usage _) => 2
  | Panic => 101
  end.
