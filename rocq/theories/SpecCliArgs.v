(** Specification vocabulary for C49: what a command line says. *)
From Coq Require Import List NArith Permutation.
From Coq Require Import Strings.String.
From Verif Require Import Text CliArgs.
Import ListNotations.
Local Open Scope N_scope.

(** Arguments that give option [long] the value [v]: --long v, --long=v, and for each of its letters
    -s v, -s=v, -sv.  Written apart, the value must not look like an option (a lone dash does not). *)
Definition not_an_option (v : text) : Prop := v = [] \/ v = [45] \/ exists c r, v = c :: r /\ c <> 45.
Inductive gives (long : text) (letter : N -> Prop) (v : text) : list text -> Prop :=
| gv_long : not_an_option v -> gives long letter v [lit "--" ++ long; v]
| gv_long_eq : gives long letter v [lit "--" ++ long ++ lit "=" ++ v]
| gv_short s : letter s -> not_an_option v -> gives long letter v [[45; s]; v]
| gv_short_eq s : letter s -> gives long letter v [[45; s] ++ lit "=" ++ v]
| gv_attached s c r : letter s -> v = c :: r -> c <> 61 -> gives long letter v [[45; s] ++ v].
(** A letter belongs to the first option that has it. *)
Definition owns (os : list option_t) (o : option_t) (s : N) : Prop :=
  exists before after, os = before ++ o :: after /\ o_short o = Some s /\ Forall (fun o' => o_short o' <> Some s) before.
(** [writes os l args]: the arguments give these options these values, in this order; a lone
    double dash may end the line. *)
Inductive writes (os : list option_t) : list (text * text) -> list text -> Prop :=
| w_end : writes os [] []
| w_dashes : writes os [] [lit "--"]
| w_value o v p l args : In o os -> o_value o = true -> gives (o_long o) (owns os o) v p -> writes os l args ->
    writes os ((o_long o, v) :: l) (p ++ args)
| w_flag o l args : In o os -> o_value o = false -> writes os l args ->
    writes os ((o_long o, lit "true") :: l) ((lit "--" ++ o_long o) :: args).
(** The command that these options ask for. *)
Definition says (l : list (text * text)) (name : string) (v : text) : Prop := In (lit name, v) l.
Inductive asks (l : list (text * text)) : subcommand -> request -> Prop :=
| as_encap c s i ct k : says l "circuit" c -> says l "sym" s -> says l "input" i -> says l "ciphertext" ct -> says l "key" k ->
    asks l Encap (DoEncap c s i ct k)
| as_decap c w ct k : says l "circuit" c -> says l "witness" w -> says l "ciphertext" ct -> says l "key" k ->
    asks l Decap (DoDecap c w ct k)
| as_encrypt c s i m o : says l "circuit" c -> says l "sym" s -> says l "input" i -> says l "message" m -> says l "output" o ->
    ~ In (lit "no-public-input") (map fst l) -> asks l Encrypt (DoEncrypt c s i m o true)
| as_encrypt_without c s i m o : says l "circuit" c -> says l "sym" s -> says l "input" i -> says l "message" m -> says l "output" o ->
    In (lit "no-public-input") (map fst l) -> asks l Encrypt (DoEncrypt c s i m o false)
| as_decrypt c w ct o : says l "circuit" c -> says l "witness" w -> says l "ciphertext" ct -> says l "output" o ->
    asks l Decrypt (DoDecrypt c w ct o).
