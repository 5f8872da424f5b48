(** Specification: command lines that ask for help (clap's --help, -h and help). *)
From Coq Require Import List NArith.
From Coq Require Import Strings.String.
From Verif Require Import Text CliArgs SpecCliArgs.
Import ListNotations.
Local Open Scope N_scope.

(** --help, or -h with anything written right after it. *)
Inductive help_flag : text -> Prop :=
| hf_long : help_flag (lit "--help")
| hf_short rest : help_flag (lit "-h" ++ rest).
(** At the top level: --help, -h (whatever follows), or the help command with at most one name. *)
Inductive top_help : list text -> Prop :=
| th_long rest : top_help (lit "--help" :: rest)
| th_short rest : top_help (lit "-h" :: rest)
| th_command : top_help [lit "help"]
| th_of_help : top_help [lit "help"; lit "help"]
| th_of c : top_help [lit "help"; subcommand_name c].
(** After a command: a help flag after complete options, none given twice and no lone double dash
    before it. *)
Inductive wants_help : list text -> Prop :=
| wh_top args : top_help args -> wants_help args
| wh_sub c l before h after : writes (options c) l before -> NoDup (map fst l) -> ~ In (lit "--") before ->
    help_flag h -> wants_help (subcommand_name c :: before ++ h :: after).
