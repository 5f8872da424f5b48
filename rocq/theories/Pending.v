(** Model of the JavaScript API calls as they run: encap, encrypt, decap and decrypt (zkenc.ts:81-122,
    248-266, 309-380, 405-456) with aesGcmEncrypt, aesGcmDecrypt (crypto.ts:12-99), calculateWitness
    (witness.ts:23-34) and witnessCalculatorBuilder (witness_calculator.ts:226-310), cut at their
    awaits.  JavaScript runs from one await to the next without interruption; in between, other calls
    may run and the page may change the objects it passed (byte arrays, the inputs object, the
    properties of circuitFiles), which the functions hold by reference.  Each piece is given what the
    objects of its call hold at that time.  WebAssembly.compile, subtle.importKey, subtle.encrypt and
    the generated bindings of wasm_encap and wasm_decap copy the bytes they are given when they are
    called.  Simplified: a rejected promise ends the calls that await it without a further turn. *)
From Coq Require Import List Bool Arith NArith ZArith.
From Coq Require Import Strings.Byte.
From Verif Require Import Res Bytes Text Fld Groups Bn254 Qap Core ArkSer Inputs Combined Gcm Commands JsZkenc WitnessCalc JsFull
  JsonText WasmInit JsValues.
Import ListNotations.
Local Open Scope res_scope.

(** What the objects of a call hold: circuitFiles (zkenc.ts:45-61), the inputs, the message, the
    ciphertext, options.includePublicInput. *)
Record args := Args {
  o_r1cs : list byte; o_wasm : list byte; o_sym : text;
  o_inputs : list (text * jsval);
  o_message : list byte; o_ciphertext : js_bytes; o_include : bool }.

Inductive call_error := EInit | ECompile | EApi (e : js_api_error) | EWitness (e : wc_error).
(** What a promise resolves to: encap and encrypt give bytes and a key, decap a key, decrypt bytes. *)
Inductive outcome := RFile (b : list byte) (k : key) | RKey (k : key) | RMessage (b : list byte).

(** A call between two pieces: over, at an await, or at the await of ensureWasmInit. *)
Inductive async (A : Type) :=
| Fin (r : res call_error A)
| Await (k : args -> async A)
| AwaitInit (k : args -> async A).
Arguments Fin {A} _.
Arguments Await {A} _.
Arguments AwaitInit {A} _.
(** [await p], then [f] in a later piece. *)
Fixpoint abind {A B} (p : async A) (f : A -> args -> async B) : async B :=
  match p with
  | Fin (Ok x) => Await (f x)
  | Fin (Err e) => Fin (Err e)
  | Fin Panic => Fin Panic
  | Await k => Await (fun a => abind (k a) f)
  | AwaitInit k => AwaitInit (fun a => abind (k a) f)
  end.

Section Calls.
  Context (E : pairingT Fr) (C : codecT E) (D : domainT Fr) (kdf : GT E -> key) (aes : cipherT) (W : N) (fuel : nat)
          (compile : list byte -> option wmodule).

  (** encap (zkenc.ts:81-122): one await, then everything at once. *)
  Definition encap_call (co : coins) : async (list byte * key) :=
    AwaitInit (fun a => Fin (rmap_err EApi (v_encap E C D kdf W fuel co (o_r1cs a) (o_sym a) (o_inputs a)))).
  (** aesGcmEncrypt (crypto.ts:12-49): importKey is awaited, then the data is read. *)
  Definition gcm_encrypt_call (co : coins) (k : key) : async (list byte) :=
    Await (fun a => let r := rmap_err (fun e => EApi (ACrypt e)) (aesGcmEncrypt aes k (c_nonce co) (o_message a)) in
                    Await (fun _ => Fin r)).
  (** zkenc.ts:327-379: the inputs are read once more. *)
  Definition embed (inc : bool) (ct : list byte) (k : key) (enc : list byte) (a : args) : res call_error (list byte * key) :=
    let? public_input_bytes :=
      if inc
      then let? t := rmap_err (fun e => EApi (AInput e)) (v_stringify (VObject (o_inputs a))) in
           Ok (match t with Some t => text_encode t | None => [] end)
      else Ok [] in
    let? combined := rmap_err (fun e => EApi (ACombined e)) (js_combine inc ct public_input_bytes enc) in
    Ok (combined, k).
  (** encrypt (zkenc.ts:309-380): the options are read in the call itself; import() is an await. *)
  Definition encrypt_call (co : coins) (a0 : args) : async (list byte * key) :=
    let inc := o_include a0 in
    abind (encap_call co) (fun ck _ =>
    Await (fun _ =>
    abind (gcm_encrypt_call co (snd ck)) (fun enc a =>
    Fin (embed inc (fst ck) (snd ck) enc a)))).

  (** witnessCalculatorBuilder, up to the constructor (witness_calculator.ts:226-310): the code is
      read by WebAssembly.compile; WebAssembly.instantiate is a second await. *)
  Definition builder_call (a : args) : async wmodule :=
    match compile (o_wasm a) with
    | None => Fin (Err ECompile)
    | Some m => Await (fun _ => Await (fun _ => Fin (Ok m)))
    end.
  (** calculateWTNSBin (witness_calculator.ts:150-217): the inputs are read at once, one await follows. *)
  Definition wtns_call (m : wmodule) (a : args) : async (list byte) :=
    match rmap_err EWitness (v_calculate_wtns m (o_inputs a)) with
    | Ok w => Await (fun _ => Fin (Ok w))
    | Err e => Fin (Err e)
    | Panic => Fin Panic
    end.
  (** calculateWitness (witness.ts:23-34). *)
  Definition witness_call (a : args) : async (list byte) :=
    abind (builder_call a) (fun m a => abind (wtns_call m a) (fun w _ => Fin (Ok w))).
  (** decap (zkenc.ts:248-266); [ct]: where its ciphertext argument is. *)
  Definition decap_call (ct : args -> list byte) : async key :=
    AwaitInit (fun a => abind (witness_call a) (fun w a => Fin (rmap_err EApi (js_decap E C kdf W fuel (o_r1cs a) w (ct a))))).
  (** aesGcmDecrypt (crypto.ts:58-99), on a copy of the caller's bytes. *)
  Definition gcm_decrypt_call (k : key) (enc : list byte) : async (list byte) :=
    Await (fun _ => let r := rmap_err (fun e => EApi (ACrypt e)) (aesGcmDecrypt aes k enc) in Await (fun _ => Fin r)).
  (** decrypt (zkenc.ts:405-456): the ciphertext is cut into copies in the call itself. *)
  Definition decrypt_call (a0 : args) : async (list byte) :=
    match rmap_err (fun e => EApi (ACombined e)) (js_split (o_ciphertext a0)) with
    | Ok wm =>
        abind (decap_call (fun _ => fst wm)) (fun k _ =>
        Await (fun _ =>
        abind (gcm_decrypt_call k (snd wm)) (fun m _ => Fin (Ok m))))
    | Err e => Fin (Err e)
    | Panic => Fin Panic
    end.

  (** The four calls with their arguments. *)
  Inductive kind := KEncap | KEncrypt | KDecap | KDecrypt.
  Fixpoint amap {A B} (f : A -> B) (p : async A) : async B :=
    match p with
    | Fin r => Fin (rmap f r)
    | Await k => Await (fun a => amap f (k a))
    | AwaitInit k => AwaitInit (fun a => amap f (k a))
    end.
  Definition call (co : coins) (c : kind) (a : args) : async outcome :=
    match c with
    | KEncap => amap (fun fk => RFile (fst fk) (snd fk)) (encap_call co)
    | KEncrypt => amap (fun fk => RFile (fst fk) (snd fk)) (encrypt_call co a)
    | KDecap => amap RKey (decap_call (fun a => jb_window (o_ciphertext a)))
    | KDecrypt => amap RMessage (decrypt_call a)
    end.
End Calls.

(** ** Many calls, and a page that changes its objects *)
(** A call that was not made yet, one at an await, one that is over. *)
Inductive status := NotYet (c : kind) | Waiting (p : async outcome) | Over (r : res call_error outcome).
(** What the objects of each call hold, wasmInitPromise (zkenc.ts:16-29, WasmInit.v; wasmInitialized is
    set exactly if it is resolved), the calls. *)
Record page := Page { heap : nat -> args; init : promise; calls : list status }.
(** Who does something: the page changes objects, call number [i] runs one piece, wasmInit ends. *)
Inductive actor := Outside | Turn (i : nat) | InitOver.
Definition settle (p : async outcome) : status := match p with Fin r => Over r | _ => Waiting p end.
(** ensureWasmInit (zkenc.ts:19-29) starts the initialisation if nobody has. *)
Definition starts_init (p : async outcome) (i : promise) : promise :=
  match p, i with AwaitInit _, PNull => PPending | _, _ => i end.
Fixpoint put {A} (l : list A) (i : nat) (x : A) : list A :=
  match l, i with
  | [], _ => []
  | _ :: l, O => x :: l
  | y :: l, S i => y :: put l i x
  end.
Definition goes_on (w : page) (i : nat) (p : async outcome) : page :=
  Page (heap w) (starts_init p (init w)) (put (calls w) i (settle p)).

Section Page.
  (** [code i c a]: call number [i], of kind [c], made with the objects [a]. *)
  Context (code : nat -> kind -> args -> async outcome).
  Inductive moves : page -> actor -> page -> Prop :=
  | mv_change w h : moves w Outside (Page h (init w) (calls w))
  | mv_call w i c : nth_error (calls w) i = Some (NotYet c) -> moves w (Turn i) (goes_on w i (code i c (heap w i)))
  | mv_resume w i k : nth_error (calls w) i = Some (Waiting (Await k)) -> moves w (Turn i) (goes_on w i (k (heap w i)))
  | mv_ready w i k : nth_error (calls w) i = Some (Waiting (AwaitInit k)) -> init w = PResolved ->
      moves w (Turn i) (goes_on w i (k (heap w i)))
  | mv_not_ready w i k : nth_error (calls w) i = Some (Waiting (AwaitInit k)) -> init w = PRejected ->
      moves w (Turn i) (goes_on w i (Fin (Err EInit)))
  | mv_init w (ok : bool) : init w = PPending -> moves w InitOver (Page (heap w) (if ok then PResolved else PRejected) (calls w)).
  (** [history cs tr w]: the page makes the calls [cs]; who acted, with what the objects then held, up
      to [w]. *)
  Inductive history (cs : list kind) : list (actor * (nat -> args)) -> page -> Prop :=
  | hi_start h : history cs [] (Page h PNull (map NotYet cs))
  | hi_step tr w act w' : history cs tr w -> moves w act w' -> history cs (tr ++ [(act, heap w')]) w'.
End Page.
