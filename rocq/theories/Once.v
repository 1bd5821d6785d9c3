(** Threads calling [Context::global] (lib.rs:521-524), as a transition system.

    [OnceLock::get_or_init] is modelled by its documented contract: the lock is
    unset, being initialised by one thread, or set; the three transitions below are
    atomic; a thread that finds the lock busy waits. The internals of
    std::sync::OnceLock are not modelled. *)
From Coq Require Import ZArith List Bool.
Import ListNotations.
From Verif Require Import CpuInfo Lib.

Inductive lock_state := Unset | Busy | Set_ (c : context).

(** Where a thread is: outside of the API, at the start of get_or_init, running
    Context::new (lib.rs:526-589), or back with a reference to a context. *)
Inductive thread := Outside | Asking | Building | Got (c : context).

Record world := World {
  lock : lock_state;
  threads : nat -> thread;
  built : nat;                  (* number of contexts built so far *)
  seen : list context }.        (* contexts handed out so far, latest first *)

Definition set_thread (f : nat -> thread) (t : nat) (s : thread) : nat -> thread :=
  fun t' => if Nat.eqb t' t then s else f t'.

Section Steps.
(** What the processor answers to thread [t] when it runs cpu_info::get. *)
Variable cpu_of : nat -> cpu.

(** lib.rs:521-524 and 526-589, one atomic step of thread [t]. *)
Inductive step (t : nat) : world -> world -> Prop :=
| step_call w : threads w t = Outside ->
    step t w (World (lock w) (set_thread (threads w) t Asking) (built w) (seen w))
| step_found w c : threads w t = Asking -> lock w = Set_ c ->
    step t w (World (lock w) (set_thread (threads w) t (Got c)) (built w) (c :: seen w))
| step_claim w : threads w t = Asking -> lock w = Unset ->
    step t w (World Busy (set_thread (threads w) t Building) (built w) (seen w))
| step_publish w : threads w t = Building ->
    let c := cpu_get (cpu_of t) in
    step t w (World (Set_ c) (set_thread (threads w) t (Got c)) (S (built w)) (c :: seen w))
| step_leave w c : threads w t = Got c ->
    step t w (World (lock w) (set_thread (threads w) t Outside) (built w) (seen w)).

Definition start : world := World Unset (fun _ => Outside) 0 [].

(** Any interleaving of any number of threads. *)
Inductive reachable : world -> Prop :=
| reach_start : reachable start
| reach_step w w' t : reachable w -> step t w w' -> reachable w'.
End Steps.
