(** Model of ensureWasmInit (packages/zkenc-js/src/zkenc.ts:15-29) under concurrent callers.
    JavaScript runs from one await to the next without interruption, so one step is such a piece;
    the scheduler picks any order.  When wasmInit ends, and whether it throws, is up to the environment. *)
From Coq Require Import List Bool Arith.
Import ListNotations.

(** wasmInitPromise: null, or a promise that is pending, resolved or rejected. *)
Inductive promise := PNull | PPending | PResolved | PRejected.
(** A caller: before the call, at [await wasmInitPromise], returned, threw. *)
Inductive caller := Before | Awaiting | Returned | Threw.
Record world := World { flag : bool; prom : promise; callers : list caller }.
(** What can be observed: a caller calls, wasmInit is called, wasmInit ends, a caller goes on or throws. *)
Inductive event := Call (i : nat) | InitStart | InitEnd (ok : bool) | Return (i : nat) | Throw (i : nat).

Fixpoint set_nth (l : list caller) (i : nat) (c : caller) : list caller :=
  match l, i with
  | [], _ => []
  | _ :: l, O => c :: l
  | x :: l, S i => x :: set_nth l i c
  end.

(** zkenc.ts:20-27 up to the first await: what the flag and the promise decide. *)
Definition ensure (i : nat) (w : world) : world * list event :=
  if flag w then (World (flag w) (prom w) (set_nth (callers w) i Returned), [Call i; Return i])
  else match prom w with
       | PNull => (World (flag w) PPending (set_nth (callers w) i Awaiting), [Call i; InitStart])
       | _ => (World (flag w) (prom w) (set_nth (callers w) i Awaiting), [Call i])
       end.
(** zkenc.ts:22-25 after the await of wasmInit: the flag is set and the promise resolved, or rejected. *)
Definition init_ends (ok : bool) (w : world) : world * list event :=
  if ok then (World true PResolved (callers w), [InitEnd true])
  else (World (flag w) PRejected (callers w), [InitEnd false]).
(** zkenc.ts:27: the await of the promise ends. *)
Definition wakes (i : nat) (w : world) : option (world * list event) :=
  match prom w with
  | PResolved => Some (World (flag w) (prom w) (set_nth (callers w) i Returned), [Return i])
  | PRejected => Some (World (flag w) (prom w) (set_nth (callers w) i Threw), [Throw i])
  | _ => None
  end.
Inductive step : world -> list event -> world -> Prop :=
| s_ensure i w : nth_error (callers w) i = Some Before -> step w (snd (ensure i w)) (fst (ensure i w))
| s_init ok w : prom w = PPending -> step w (snd (init_ends ok w)) (fst (init_ends ok w))
| s_wakes i w w' es : nth_error (callers w) i = Some Awaiting -> wakes i w = Some (w', es) -> step w es w'.
(** [runs n tr w]: with [n] callers, the events [tr] can lead to [w]. *)
Inductive runs (n : nat) : list event -> world -> Prop :=
| r_start : runs n [] (World false PNull (repeat Before n))
| r_step tr w es w' : runs n tr w -> step w es w' -> runs n (tr ++ es) w'.
