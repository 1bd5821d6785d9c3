(** RGB images encoded as I444 and decoded again, many times. *)
From Coq Require Import ZArith List Bool.
From Verif Require Import Base Fmt Wrappers Lib Sets Spec ApiSpec Api.
Open Scope Z_scope.

(** An RGB image encoded in colour space [cs] and decoded again, [n] times: every call on its
    own instruction set, target and layout. [im] and [b] are the first image and its buffers,
    [im'] and [b'] the last ones. *)
Inductive rgb_generations (cs : color_space) (w h : Z) (im : image) (b : list (list Z)) :
  nat -> image -> list (list Z) -> Prop :=
| Rgb_0 : rgb_generations cs w h im b O im b
| Rgb_S n im1 b1 set T mid mb m1 set' T' im2 b2 m2 :
    rgb_generations cs w h im b n im1 b1 ->
    successful_call (converters set) T w h im1 mid b1 mb m1 ->
    successful_call (converters set') T' w h mid im2 (dsts m1) b2 m2 ->
    i_pf mid = I444 -> i_cs mid = cs -> is_rgb (i_pf im2) = true ->
    rgb_generations cs w h im b (S n) im2 (dsts m2).

(** No component is less than 2 or more than 253. *)
Definition off_the_ends (p : Z * Z * Z) : Prop :=
  let '(r, g, b) := p in 2 <= r <= 253 /\ 2 <= g <= 253 /\ 2 <= b <= 253.
