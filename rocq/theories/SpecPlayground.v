(** Specification vocabulary for C77: histories of the playground page. *)
From Coq Require Import List Bool NArith ZArith.
From Coq Require Import Strings.String Strings.Byte.
From Verif Require Import Res Bytes Text Inputs SpecJson Playground.
Import ListNotations.

(** The ciphertext file uploaded last, on the Sudoku tab and on the custom tab. *)
Definition last_upload {coins} (h : list (@event coins)) : option (list byte) :=
  fold_left (fun last e => match e with Upload b => Some b | _ => last end) h None.
Definition last_custom_upload {coins} (h : list (@event coins)) : option (list byte) :=
  fold_left (fun last e => match e with CustomUpload b => Some b | _ => last end) h None.

(** No call of the library settles in this part of a history. *)
Definition none_settles {coins} (h : list (@event coins)) : Prop := forall i, ~ In (Settles i) h.

Section States.
  Context {coins enc_error dec_error : Type}.
  Notation page := (@page coins enc_error dec_error).
  (** The decrypt button of the Sudoku tab can be clicked and all checks pass: [ct] is decrypted with
      the circuit [r1cs], [wasm] and the inputs [puzzle], [solution]. *)
  Definition decrypt_starts (s : page) (r1cs wasm ct : list byte) (inputs : json) : Prop :=
    p_tab s = Sudoku /\ p_mode s = Decrypt /\ p_loading s = false /\
    (exists sym, p_circuit s = Some (Files r1cs wasm sym)) /\
    (p_uploaded s = Some ct \/ p_uploaded s = None /\ p_ciphertext s = Some ct) /\
    List.length (p_solution s) = 81 /\ ~ In (JInt 0%Z) (p_solution s) /\
    inputs = JObj [(lit "puzzle", JArr (p_puzzle s)); (lit "solution", JArr (p_solution s))].
  (** The same for the custom tab: the inputs are what is in the field for private inputs or, if that is
      empty, in the field for public inputs. *)
  Definition custom_decrypt_starts (parse : text -> option json) (s : page) (r1cs wasm ct : list byte) (inputs : json) : Prop :=
    p_tab s = Custom /\ p_mode s = Decrypt /\ p_loading s = false /\
    (exists sym, c_files s = Some (Files r1cs wasm sym)) /\ r1cs <> [] /\ wasm <> [] /\ c_ciphertext s = Some ct /\
    (c_private s <> [] /\ parse (c_private s) = Some inputs \/ c_private s = [] /\ parse (c_public s) = Some inputs).
  (** An encrypt button can be clicked and all checks pass. *)
  Definition encrypt_starts (s : page) : Prop :=
    p_tab s = Sudoku /\ p_mode s = Encrypt /\ p_loading s = false /\ p_message s <> [] /\ p_circuit s <> None /\ List.length (p_puzzle s) = 81.
  Definition custom_encrypt_starts (parse : text -> option json) (s : page) : Prop :=
    p_tab s = Custom /\ p_mode s = Encrypt /\ p_loading s = false /\ c_message s <> [] /\ c_public s <> [] /\ parse (c_public s) <> None /\
    exists fs, c_files s = Some fs /\ f_r1cs fs <> [] /\ f_wasm fs <> [].
End States.

(** What is left of a text after TextEncoder and TextDecoder: surrogates without partner become
    U+FFFD, one U+FEFF at the start is lost. *)
Definition written (c : N) (c' : N) : Prop := ((high c \/ low c) /\ c' = 65533%N) \/ (~ high c /\ ~ low c /\ c' = c).
Definition survives (m t : text) : Prop :=
  exists u, Forall2 written m u /\ (u = 65279%N :: t \/ (forall r, u <> 65279%N :: r) /\ u = t).

(** The circuit files uploaded last on the custom tab. *)
Definition last_r1cs {coins} (h : list (@event coins)) : option (list byte) :=
  fold_left (fun last e => match e with UploadR1cs b => Some b | _ => last end) h None.
Definition last_wasm {coins} (h : list (@event coins)) : option (list byte) :=
  fold_left (fun last e => match e with UploadWasm b => Some b | _ => last end) h None.
(** The circuit the page itself loaded last. *)
Definition last_circuit {coins} (h : list (@event coins)) : option (list byte * list byte) :=
  fold_left (fun last e => match e with CircuitLoaded r w => Some (r, w) | _ => last end) h None.
(** What was typed last. *)
Definition last_typed {coins} (h : list (@event coins)) : text :=
  fold_left (fun last e => match e with TypeMessage t => t | _ => last end) h [].
Definition last_typed_custom {coins} (h : list (@event coins)) : text :=
  fold_left (fun last e => match e with TypeCustomMessage t => t | _ => last end) h [].
Definition last_include {coins} (h : list (@event coins)) : bool :=
  fold_left (fun last e => match e with Include b => b | _ => last end) h true.
(** The history ends with an event that sets the private (public) inputs to the document [v], and the
    field is not touched again. *)
Definition sets_private {coins} (parse : text -> option json) (e : @event coins) (v : json) : Prop :=
  exists t, (e = TypePrivate t \/ e = PrivateFile t) /\ parse t = Some v.
Definition touches_private {coins} (e : @event coins) : Prop := exists t, e = TypePrivate t \/ e = PrivateFile t.
Definition sets_public {coins} (parse : text -> option json) (e : @event coins) (v : json) : Prop :=
  exists t, (e = TypePublic t \/ e = PublicFile t) /\ parse t = Some v.
Definition touches_public {coins} (e : @event coins) : Prop := exists t, e = TypePublic t \/ e = PublicFile t \/ exists b, e = CustomUpload b.
