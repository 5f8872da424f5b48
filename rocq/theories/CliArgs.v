(** Model of the command line of packages/zkenc-cli/src/main.rs: the options clap's derive makes of
    the fields (main.rs:24-92), clap 4.5's parsing of the arguments of a subcommand (from its
    documentation and source; help and error texts are not modelled), and the dispatch (main.rs:95-138). *)
From Coq Require Import List Bool NArith.
From Coq Require Import Strings.String.
From Verif Require Import Res Text.
Import ListNotations.
Local Open Scope N_scope.

(** An option: its long name, its short letter, whether it takes a value (a String field, required)
    or is a flag (a bool field, false by default). *)
Record option_t := Opt { o_long : text; o_short : option N; o_value : bool }.
Definition c_dash : N := 45. Definition c_eq : N := 61.
(** #[arg(short, long)] name: String: the short letter is the first letter of the name. *)
Definition field (name : string) : option_t := Opt (lit name) (hd_error (lit name)) true.

Inductive subcommand := Encap | Decap | Encrypt | Decrypt.
(** main.rs:25-92, the fields in order. *)
Definition options (c : subcommand) : list option_t :=
  match c with
  | Encap => [field "circuit"; field "sym"; field "input"; field "ciphertext"; field "key"]
  | Decap => [field "circuit"; field "witness"; field "ciphertext"; field "key"]
  | Encrypt => [field "circuit"; field "sym"; field "input"; field "message"; field "output";
                Opt (lit "no-public-input") None false]
  | Decrypt => [field "circuit"; field "witness"; Opt (lit "ciphertext") (Some 105) true; field "output"]
  end.
(** The variants' names in kebab case. *)
Definition subcommand_name (c : subcommand) : text :=
  match c with Encap => lit "encap" | Decap => lit "decap" | Encrypt => lit "encrypt" | Decrypt => lit "decrypt" end.

Inductive cli_error := UnknownArgument | MissingValue | TooManyValues | UsedTwice | MissingRequired | BadSubcommand | NoSubcommand | DisplayHelp.

(** clap looks a name up in the list of keys and takes the first match. *)
Definition find_long (os : list option_t) (name : text) : option option_t := find (fun o => text_eqb (o_long o) name) os.
Definition find_short (os : list option_t) (c : N) : option option_t :=
  find (fun o => match o_short o with Some s => s =? c | None => false end) os.
(** An argument that starts an option: a dash and something after it. *)
Definition looks_new (a : text) : bool := match a with c :: _ :: _ => c =? c_dash | _ => false end.
(** name and value of --name=value *)
Fixpoint cut_eq (t : text) : text * option text :=
  match t with
  | [] => ([], None)
  | c :: t => if c =? c_eq then ([], Some t) else let '(n, v) := cut_eq t in (c :: n, v)
  end.
(** The value right after a short letter, an equals sign dropped. *)
Definition attached (t : text) : option text :=
  match t with [] => None | c :: r => Some (if c =? c_eq then r else t) end.

Definition matches := list (text * text).
(** ArgAction::Set and SetTrue refuse a second use. *)
Definition put_match (o : option_t) (v : text) (m : matches) : res cli_error matches :=
  if existsb (fun kv => text_eqb (fst kv) (o_long o)) m then Err UsedTwice else Ok ((o_long o, v) :: m).

(** What an argument is, and the options it sets without looking at the next one. *)
Inductive arg_kind := KEscape | KHelp | KOption (o : option_t) (v : option text) | KUnknown | KPlain.
Definition arg_kind_of (os : list option_t) (a : text) : arg_kind :=
  match a with
  | c :: d :: r =>
      if c =? c_dash then
        if d =? c_dash then
          match r with
          | [] => KEscape
          | _ => let '(name, v) := cut_eq r in
                 match find_long os name with
                 | Some o => KOption o v
                 | None => if text_eqb name (lit "help") then match v with None => KHelp | Some _ => KUnknown end else KUnknown
                 end
          end
        else
          match find_short os d with
          | Some o => KOption o (attached r)
          | None => if d =? 104 then KHelp else KUnknown
          end
      else KPlain
  | _ => KPlain
  end.
(** The loop over the arguments (clap_builder's get_matches_with). *)
Fixpoint parse_args (os : list option_t) (args : list text) (m : matches) : res cli_error matches :=
  match args with
  | [] => Ok m
  | a :: rest =>
      match arg_kind_of os a with
      | KEscape => match rest with [] => Ok m | _ => Err UnknownArgument end
      | KHelp => Err DisplayHelp
      | KPlain | KUnknown => Err UnknownArgument
      | KOption o v =>
          if o_value o then
            match v with
            | Some v => match put_match o v m with Ok m => parse_args os rest m | Err e => Err e | Panic => Panic end
            | None =>
                match rest with
                | [] => Err MissingValue
                | v :: rest =>
                    if looks_new v then Err MissingValue
                    else match put_match o v m with Ok m => parse_args os rest m | Err e => Err e | Panic => Panic end
                end
            end
          else
            match v with
            | Some _ => Err TooManyValues
            | None => match put_match o (lit "true") m with Ok m => parse_args os rest m | Err e => Err e | Panic => Panic end
            end
      end
  end.

Definition get_match (name : string) (m : matches) : option text := hm_get (lit name) m.

(** What main calls. *)
Inductive request :=
| DoEncap (circuit sym input ciphertext key : text)
| DoDecap (circuit witness ciphertext key : text)
| DoEncrypt (circuit sym input message output : text) (include_public_input : bool)
| DoDecrypt (circuit witness ciphertext output : text).

Definition need {A} (x : option text) (k : text -> res cli_error A) : res cli_error A :=
  match x with Some t => k t | None => Err MissingRequired end.
(** main.rs:98-135: the fields of the variant, handed to the command in this order. *)
Definition to_request (c : subcommand) (m : matches) : res cli_error request :=
  match c with
  | Encap =>
      need (get_match "circuit" m) (fun circuit => need (get_match "sym" m) (fun sym => need (get_match "input" m) (fun input =>
      need (get_match "ciphertext" m) (fun ciphertext => need (get_match "key" m) (fun key =>
      Ok (DoEncap circuit sym input ciphertext key))))))
  | Decap =>
      need (get_match "circuit" m) (fun circuit => need (get_match "witness" m) (fun witness =>
      need (get_match "ciphertext" m) (fun ciphertext => need (get_match "key" m) (fun key =>
      Ok (DoDecap circuit witness ciphertext key)))))
  | Encrypt =>
      need (get_match "circuit" m) (fun circuit => need (get_match "sym" m) (fun sym => need (get_match "input" m) (fun input =>
      need (get_match "message" m) (fun message => need (get_match "output" m) (fun output =>
      let no_public_input := match get_match "no-public-input" m with Some _ => true | None => false end in
      Ok (DoEncrypt circuit sym input message output (negb no_public_input)))))))
  | Decrypt =>
      need (get_match "circuit" m) (fun circuit => need (get_match "witness" m) (fun witness =>
      need (get_match "ciphertext" m) (fun ciphertext => need (get_match "output" m) (fun output =>
      Ok (DoDecrypt circuit witness ciphertext output)))))
  end.

(** clap's debug assertion when a subcommand is built: short letters must be unique. *)
Fixpoint unique_shorts (os : list option_t) : bool :=
  match os with
  | [] => true
  | o :: os => match o_short o with
               | Some s => negb (existsb (fun o' => match o_short o' with Some s' => s' =? s | None => false end) os)
               | None => true
               end && unique_shorts os
  end.
Definition find_subcommand (a : text) : option subcommand :=
  find (fun c => text_eqb (subcommand_name c) a) [Encap; Decap; Encrypt; Decrypt].
(** --help, -h, and clap's help subcommand with at most one name after it. *)
Definition asks_for_help (a : text) (rest : list text) : bool :=
  text_eqb a (lit "--help") || text_eqb a (lit "-h") ||
  text_eqb a (lit "help") && match rest with
                             | [] => true
                             | [b] => text_eqb b (lit "help") || match find_subcommand b with Some _ => true | None => false end
                             | _ => false
                             end.
(** Cli::parse on the arguments after the program name; [debug]: built with debug assertions. *)
Definition cli_parse (debug : bool) (args : list text) : res cli_error request :=
  match args with
  | [] => Err NoSubcommand
  | a :: rest =>
      match find_subcommand a with
      | None => if asks_for_help a rest then Err DisplayHelp else Err BadSubcommand
      | Some c =>
          if debug && negb (unique_shorts (options c)) then Panic
          else match parse_args (options c) rest [] with
               | Ok m => to_request c m
               | Err e => Err e
               | Panic => Panic
               end
      end
  end.
