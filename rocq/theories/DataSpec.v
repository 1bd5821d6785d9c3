(** What the contents of the buffers may change. *)
From Coq Require Import ZArith List Bool.
Import ListNotations.
From Verif Require Import Base.
Open Scope Z_scope.

(** As many buffers on both sides, of the same lengths. *)
Definition same_sizes (bufs bufs' : list (list Z)) : Prop :=
  map (@length Z) bufs = map (@length Z) bufs'.

(** Every element of every buffer is a byte. *)
Definition of_bytes (bufs : list (list Z)) : Prop := Forall (Forall (fun b => 0 <= b <= 255)) bufs.

(** Two calls that run the same course: the same fault, or the same answer with buffers of the
    same sizes. *)
Definition same_course {A} (r r' : res A) : Prop :=
  match r, r' with
  | Ok o m, Ok o' m' => o = o' /\ same_sizes (srcs m) (srcs m') /\ same_sizes (dsts m) (dsts m')
  | Fault f, Fault g => f = g
  | _, _ => False
  end.
