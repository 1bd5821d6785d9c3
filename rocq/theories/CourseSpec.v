(** Vocabulary for the positions a call touches. *)
From Coq Require Import ZArith List Bool.
Import ListNotations.
From Verif Require Import Base Trace.
Open Scope Z_scope.

(** An access without the value that is read or written: whether it writes, the buffer and the
    position in it. *)
Definition position (x : access) : bool * plane * Z :=
  match x with
  | Reads p a => (false, p, a)
  | Writes p a _ => (true, p, a)
  end.
