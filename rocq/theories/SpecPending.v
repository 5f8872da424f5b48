(** Specification vocabulary for C84: at which moments a pending call looks at the caller's objects. *)
From Coq Require Import List Bool Arith NArith ZArith Sorted.
From Coq Require Import Strings.Byte.
From Verif Require Import Res Bytes Text Fld Groups Bn254 Qap Core ArkSer Inputs Combined Gcm Commands JsZkenc WitnessCalc JsFull
  JsonText JsValues Pending.
Import ListNotations.
Local Open Scope res_scope.

(** What the objects of call [i] held at its own turns, in order (the first one is the call itself). *)
Definition turns (i : nat) (tr : list (actor * (nat -> args))) : list args :=
  flat_map (fun m => match fst m with Turn j => if Nat.eqb j i then [snd m i] else [] | _ => [] end) tr.
(** [in_order l seen]: the elements of [l] are found in [seen], none before the one that precedes it. *)
Definition in_order (l seen : list args) : Prop :=
  exists ns : list nat, StronglySorted le ns /\ Forall2 (fun n a => nth_error seen n = Some a) ns l.

Section Reads.
  Context (E : pairingT Fr) (C : codecT E) (D : domainT Fr) (kdf : GT E -> key) (aes : cipherT) (W : N) (fuel : nat)
          (compile : list byte -> option wmodule).
  (** encrypt when the options are those of [call], the circuit, the symbols and the inputs those of
      [start], the message that of [later], the embedded inputs those of [last]. *)
  Definition encrypt_reads (co : coins) (call start later last : args) : res js_api_error (list byte * key) :=
    let? ck := v_encap E C D kdf W fuel co (o_r1cs start) (o_sym start) (o_inputs start) in
    let? encrypted := rmap_err ACrypt (aesGcmEncrypt aes (snd ck) (c_nonce co) (o_message later)) in
    let? bytes := (if o_include call
                   then let? t := rmap_err AInput (v_stringify (VObject (o_inputs last))) in
                        Ok (match t with Some t => text_encode t | None => [] end)
                   else Ok []) in
    let? file := rmap_err ACombined (js_combine (o_include call) (fst ck) bytes encrypted) in
    Ok (file, snd ck).
  (** decrypt when the ciphertext is that of [call], the WASM code that of [start], the inputs those of
      [later], the circuit that of [last]; None: the code cannot be compiled. *)
  Definition decrypt_reads (call start later last : args) : option (res js_full_error (list byte)) :=
    match js_split (o_ciphertext call), compile (o_wasm start) with
    | Ok wm, None => None
    | Ok wm, Some m =>
        Some (let? w := rmap_err FWitness (v_calculate_wtns m (o_inputs later)) in
              let? k := rmap_err FApi (js_decap E C kdf W fuel (o_r1cs last) w (fst wm)) in
              rmap_err (fun e => FApi (ACrypt e)) (aesGcmDecrypt aes k (snd wm)))
    | Err e, _ => Some (Err (FApi (ACombined e)))
    | Panic, _ => Some Panic
    end.
  (** decap: the ciphertext is read last, with the circuit. *)
  Definition decap_reads (start later last : args) : option (res js_full_error key) :=
    match compile (o_wasm start) with
    | None => None
    | Some m =>
        Some (let? w := rmap_err FWitness (v_calculate_wtns m (o_inputs later)) in
              rmap_err FApi (js_decap E C kdf W fuel (o_r1cs last) w (jb_window (o_ciphertext last))))
    end.
End Reads.

(** The results as the promise gives them. *)
Definition api_result {A} (f : A -> outcome) (r : res js_api_error A) : res call_error outcome := rmap f (rmap_err EApi r).
Definition full_result {A} (f : A -> outcome) (r : option (res js_full_error A)) : res call_error outcome :=
  match r with
  | None => Err ECompile
  | Some r => rmap f (rmap_err (fun e => match e with FApi e => EApi e | FWitness e => EWitness e end) r)
  end.
Definition file_and_key (fk : list byte * key) : outcome := RFile (fst fk) (snd fk).

(** The API: call number [i] draws the randomness [co i]. *)
Definition api (E : pairingT Fr) (C : codecT E) (D : domainT Fr) (kdf : GT E -> key) (aes : cipherT) (W : N) (fuel : nat)
           (compile : list byte -> option wmodule) (co : nat -> coins) : nat -> kind -> args -> async outcome :=
  fun i c a => call E C D kdf aes W fuel compile (co i) c a.
(** What a call gives on objects [a] that nobody changes ([m]: the compiled code): the API functions
    of JsValues.v. *)
Definition undisturbed (E : pairingT Fr) (C : codecT E) (D : domainT Fr) (kdf : GT E -> key) (aes : cipherT) (W : N) (fuel : nat)
           (m : wmodule) (co : coins) (c : kind) (a : args) : res call_error outcome :=
  match c with
  | KEncap => api_result file_and_key (v_encap E C D kdf W fuel co (o_r1cs a) (o_sym a) (o_inputs a))
  | KEncrypt => api_result file_and_key (v_encrypt E C D kdf aes W fuel co (o_r1cs a) (o_sym a) (o_inputs a) (o_message a) (o_include a))
  | KDecap => full_result RKey (Some (v_decap E C kdf W fuel m (o_r1cs a) (jb_window (o_ciphertext a)) (o_inputs a)))
  | KDecrypt => full_result RMessage (Some (v_decrypt E C kdf aes W fuel m (o_r1cs a) (o_ciphertext a) (o_inputs a)))
  end.
