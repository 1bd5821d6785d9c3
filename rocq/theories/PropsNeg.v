(** The negative of a picture (C71). *)
From Coq Require Import ZArith List Bool Lia.
Import ListNotations.
From Verif Require Import Base Fmt CpuInfo Lib Sets Spec SetSpec ApiSpec Api PixelSpec PropsConvert PropsPixel NegSpec NegFacts.
Open Scope Z_scope.

(** C71: a picture and its negative, encoded on any two instruction sets: at every pixel the lumas add up to black
    plus white up to one step, the chroma values to 256, exactly unless the exact chroma is half way between two
    values and then up to one step. *)
Theorem C71_negative : forall set set' T T' w h src src' dst dst' sb sb' db db' m m',
  successful_call (converters set) T w h src dst sb db m ->
  successful_call (converters set') T' w h src' dst' sb' db' m' ->
  is_rgb (i_pf src) = true -> is_rgb (i_pf src') = true -> is_rgb (i_pf dst) = false ->
  i_pf dst' = i_pf dst -> i_cs dst' = i_cs dst ->
  (forall x y, 0 <= x < w -> 0 <= y < h -> pixel src' w h sb' x y = negative (pixel src w h sb x y)) ->
  forall x y, 0 <= x < w -> 0 <= y < h ->
  let '(l, cb, cr) := pixel dst w h (dsts m) x y in let '(l', cb', cr') := pixel dst' w h (dsts m') x y in
  let '(n, p) := chroma_area (i_pf dst) (pixel src w h sb) x y in
  lumas_add (i_cs dst) l l' /\ Z.abs (cb + cb' - 256) <= 1 /\ Z.abs (cr + cr' - 256) <= 1 /\
  (~ tie (cb_weights (i_cs dst)) n p -> cb + cb' = 256) /\ (~ tie (cr_weights (i_cs dst)) n p -> cr + cr' = 256).
Proof. exact encoded_negative. Qed.
Print Assumptions C71_negative.
(** Four pixels and their negatives. *)
Definition ex_positive : list (list Z) := [[10; 200; 30; 9;  40; 50; 60; 9;  70; 180; 90; 9;  100; 110; 120; 9]].
Definition ex_negative : list (list Z) := [[245; 55; 225; 0;  215; 205; 195; 0;  185; 75; 165; 0;  155; 145; 135; 0]].
Example C71_example set : exists m m',
  successful_call (converters set) T64_debug 2 2 ex_bgra ex_nv12 ex_positive ex_nv12_buffers m /\
  successful_call (converters set) T64_debug 2 2 ex_bgra ex_nv12 ex_negative ex_nv12_buffers m' /\
  (forall x y, 0 <= x < 2 -> 0 <= y < 2 -> pixel ex_bgra 2 2 ex_negative x y = negative (pixel ex_bgra 2 2 ex_positive x y)) /\
  (let '(n, p) := chroma_area (i_pf ex_nv12) (pixel ex_bgra 2 2 ex_positive) 0 0 in
   ~ tie (cb_weights (i_cs ex_nv12)) n p /\ ~ tie (cr_weights (i_cs ex_nv12)) n p).
Proof.
  eexists. eexists. split; [destruct set; check_success|]. split; [destruct set; check_success|]. split.
  - intros x y X Y. assert (A : x = 0 \/ x = 1) by lia. assert (B : y = 0 \/ y = 1) by lia.
    destruct A as [-> | ->], B as [-> | ->]; reflexivity.
  - vm_compute. split; discriminate.
Qed.
