(** Chains of re-orderings of an RGB image. *)
From Coq Require Import ZArith List Bool.
From Verif Require Import Base Fmt Wrappers Lib Sets Spec ApiSpec Api.
Open Scope Z_scope.

(** [im'] in buffers [b'] is what any number of re-orderings make of [im] in [b]: every call on
    its own instruction set, target and layout. *)
Inductive reordered (w h : Z) (im : image) (b : list (list Z)) : image -> list (list Z) -> Prop :=
| Re_0 : reordered w h im b im b
| Re_S im1 b1 set T im2 b2 m2 :
    reordered w h im b im1 b1 ->
    successful_call (converters set) T w h im1 im2 b1 b2 m2 -> is_rgb (i_pf im2) = true ->
    reordered w h im b im2 (dsts m2).
