(** Pictures of one colour. *)
From Coq Require Import ZArith List.
From Verif Require Import Base Fmt Wrappers Lib Spec ApiSpec Api.
Open Scope Z_scope.

(** All pixels of the picture have the colour [p]. *)
Definition flat (im : image) (w h : Z) (b : list (list Z)) (p : Z * Z * Z) : Prop :=
  forall x y, 0 <= x < w -> 0 <= y < h -> pixel im w h b x y = p.
