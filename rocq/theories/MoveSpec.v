(** Pictures with their pixels moved: mirrored, turned, cut. Independent of the model of the code. *)
From Coq Require Import ZArith List Permutation.
Import ListNotations.
From Verif Require Import Fmt Spec.
Open Scope Z_scope.

(** Where each pixel (x, y) of the new picture comes from. *)
Definition motion := Z -> Z -> Z * Z.

(** The four pixels of the 2x2 block (x, y). *)
Definition block (x y : Z) : list (Z * Z) :=
  [(2 * x, 2 * y); (2 * x + 1, 2 * y); (2 * x, 2 * y + 1); (2 * x + 1, 2 * y + 1)].

(** Every pixel of the new picture (w' x h') comes from the old one (w x h). *)
Definition comes_from (f : motion) (w h w' h' : Z) : Prop :=
  forall x y, 0 <= x < w' -> 0 <= y < h' -> 0 <= fst (f x y) < w /\ 0 <= snd (f x y) < h.

(** The pixels of each 2x2 block come from one block, in any order. *)
Definition blockwise (f : motion) (w' h' : Z) : Prop :=
  forall x y, 0 <= x < w' / 2 -> 0 <= y < h' / 2 ->
  exists bx by', Permutation (map (fun p => f (fst p) (snd p)) (block x y)) (block bx by').

Definition mirrored (w : Z) : motion := fun x y => (w - 1 - x, y).
Definition upside_down (h : Z) : motion := fun x y => (x, h - 1 - y).
Definition transposed : motion := fun x y => (y, x).
(** A quarter turn clockwise of a picture [h] pixels high. *)
Definition turned (h : Z) : motion := fun x y => (y, h - 1 - x).
(** The rectangle at (x0, y0). *)
Definition cut (x0 y0 : Z) : motion := fun x y => (x0 + x, y0 + y).
