(** The negative of a picture. *)
From Coq Require Import ZArith.
From Verif Require Import Fmt Spec Itu.
Open Scope Z_scope.

Definition negative (p : rgb) : rgb := let '(r, g, b) := p in (255 - r, 255 - g, 255 - b).

(** The luma of a pixel and that of its negative: together black and white (16 + 235 in the limited range spaces,
    0 + 255 in the others), up to one step. *)
Definition lumas_add (cs : color_space) (l l' : Z) : Prop :=
  if limited cs then Z.abs (l + l' - (16 + 235)) <= 1 else 0 <= l + l' - 255 <= 1.
