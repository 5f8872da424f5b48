(** Executions of the commands (Commands.v) beside other processes that may change any file at any
    moment: each read gives whatever is there then, so any content at all.  Models the same calls as
    FileSys.v (std::fs::read, read_to_string, File::open, fs::write in
    packages/zkenc-cli/src/commands.rs); a write that another process overtakes is not modelled
    (the log says what this process wrote, not what the file then holds). *)
From Coq Require Import List NArith.
From Coq Require Import Strings.Byte.
From Verif Require Import Res Text FileSys.
Import ListNotations.

(** What one process does, in order: the contents it was given, the bytes it wrote. *)
Inductive event :=
| Saw (p : path) (content : option (list byte))
| Wrote (p : path) (b : list byte) (complete : bool).

Inductive beside {E} : cmd E -> list event -> outcome E -> Prop :=
| bs_ret r : beside (Ret r) [] (Finished r)
| bs_killed c : beside c [] Killed
| bs_read p k content l o : beside (k content) l o -> beside (Read p k) (Saw p content :: l) o
| bs_write p b k l o : beside (k true) l o -> beside (Write p b k) (Wrote p b true :: l) o
| bs_write_fails p b n k l o : beside (k false) l o -> beside (Write p b k) (Wrote p (firstn n b) false :: l) o
| bs_write_not p b k l o : beside (k false) l o -> beside (Write p b k) l o
| bs_write_killed p b n k : beside (Write p b k) [Wrote p (firstn n b) false] Killed.

(** Undisturbed executions are among them. *)
Lemma run_beside {E} (c : cmd E) : forall s, exists l, beside c l (Finished (snd (run c s))).
Proof.
  induction c as [r|p k IH|p b k IH]; intros s; cbn [run].
  - exists []. constructor.
  - destruct (IH (s p) s) as (l&H). eexists. constructor. exact H.
  - destruct (IH true (fs_write p b s)) as (l&H). eexists. apply bs_write. exact H.
Qed.
