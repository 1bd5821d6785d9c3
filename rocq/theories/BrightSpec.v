(** Brightness: how far luma and the RGB components have to move together. *)
From Coq Require Import ZArith.
From Verif Require Import Fmt Spec Itu.
Open Scope Z_scope.

(** A grey of the same amount in each component. *)
Definition grey (k : Z) : rgb := (k, k, k).

(** A change [d] of luma answers a change [k] of all components: the same in the full range spaces, 219/255
    of it, up to one step, in the limited range ones. *)
Definition luma_follows (cs : color_space) (k d : Z) : Prop :=
  if limited cs then Z.abs (255 * d - 219 * k) <= 255 else d = k.

(** A change [d] of a component answers a change [k] of luma, unless the component was or is clamped. *)
Definition component_follows (cs : color_space) (k c c' : Z) : Prop :=
  0 < c < 255 -> 0 < c' < 255 -> if limited cs then Z.abs (219 * (c' - c) - 255 * k) <= 219 else c' = c + k.
