(** Programs that read and write whole files, and how they run: std::fs::read, read_to_string,
    File::open and fs::write as used by packages/zkenc-cli/src/commands.rs.
    A path names one file: links, directories and permissions are not modelled, except that any
    operation may fail.  Printing is not modelled; a println! that panics is a crash at that point. *)
From Coq Require Import List Bool NArith.
From Coq Require Import Strings.Byte.
From Verif Require Import Res Text.
Import ListNotations.

Definition path := text.
(** File contents; [None]: no such readable file. *)
Definition fsys := path -> option (list byte).
Definition fs_write (p : path) (b : list byte) (s : fsys) : fsys :=
  fun q => if text_eqb q p then Some b else s q.

(** A command: it ends with a result, reads a file, or writes one. *)
Inductive cmd (E : Type) :=
| Ret (r : res E unit)
| Read (p : path) (k : option (list byte) -> cmd E)
| Write (p : path) (b : list byte) (k : bool -> cmd E).
Arguments Ret {E}. Arguments Read {E}. Arguments Write {E}.

(** [x.context(f)?] *)
Definition try_ {E E' A} (x : res E' A) (f : E' -> E) (k : A -> cmd E) : cmd E :=
  match x with Ok a => k a | Err e => Ret (Err (f e)) | Panic => Ret Panic end.
Definition try_opt {E A} (x : option A) (e : E) (k : A -> cmd E) : cmd E :=
  match x with Some a => k a | None => Ret (Err e) end.
(** [fs::write(p, b).context(e)?] *)
Definition write_ {E} (p : path) (b : list byte) (e : E) (k : cmd E) : cmd E :=
  Write p b (fun ok => if ok then k else Ret (Err e)).

(** A run in which every operation on an existing file works. *)
Fixpoint run {E} (c : cmd E) (s : fsys) : fsys * res E unit :=
  match c with
  | Ret r => (s, r)
  | Read p k => run (k (s p)) s
  | Write p b k => run (k true) (fs_write p b s)
  end.

(** Every possible execution: reads may fail, the process may be killed anywhere, and a write that
    fails or is interrupted may leave the file as it was or holding any part of the data from its
    beginning (fs::write truncates the file, then writes). *)
Inductive outcome (E : Type) := Finished (r : res E unit) | Killed.
Arguments Finished {E}. Arguments Killed {E}.
Inductive exec {E} : cmd E -> fsys -> fsys -> outcome E -> Prop :=
| ex_ret r s : exec (Ret r) s s (Finished r)
| ex_killed c s : exec c s s Killed
| ex_read p k s s' o : exec (k (s p)) s s' o -> exec (Read p k) s s' o
| ex_read_fails p k s s' o : exec (k None) s s' o -> exec (Read p k) s s' o
| ex_write p b k s s' o : exec (k true) (fs_write p b s) s' o -> exec (Write p b k) s s' o
| ex_write_fails p b k s s' o : exec (k false) s s' o -> exec (Write p b k) s s' o
| ex_write_short p b n k s s' o : exec (k false) (fs_write p (firstn n b) s) s' o -> exec (Write p b k) s s' o
| ex_write_killed p b n k s : exec (Write p b k) s (fs_write p (firstn n b) s) Killed.

Lemma run_exec {E} (c : cmd E) : forall s, exec c s (fst (run c s)) (Finished (snd (run c s))).
Proof. induction c as [r|p k IH|p b k IH]; intros s; cbn [run fst snd]; constructor; apply IH. Qed.
