(** Every generation of an RGB image that is encoded as I444 and decoded again, many times, for the
    four instruction sets and all colour spaces. Each theorem is followed by its assumptions
    and by a concrete case. *)
From Coq Require Import ZArith List Bool Lia.
Import ListNotations.
From Verif Require Import Base Fmt Exec CpuInfo Lib Sets Spec SimdSpec SetSpec ApiSpec Api PropsConvert
  Itu PixelSpec PropsPixel TripSpec PropsTrip RgbTripSpec PropsRgbTrip RecodeSpec RecodeFacts.
Open Scope Z_scope.

(** C52: what every pixel is after any number of generations, in all colour spaces and for all
    colours, on whatever instruction sets: the image never depends on more than its own pixel,
    and nothing overflows on the way. *)
Theorem C52_every_generation : forall cs w h im b n im' b',
  rgb_generations cs w h im b n im' b' -> is_rgb (i_pf im) = true ->
  forall x y, 0 <= x < w -> 0 <= y < h -> recodings cs (pixel im w h b x y) n (pixel im' w h b' x y).
Proof. exact every_generation. Qed.
Print Assumptions C52_every_generation.

(** C52: which pixels stay as they are and which ones change. *)
Theorem C52_exactly : forall cs w h im b, is_rgb (i_pf im) = true ->
  forall x y, 0 <= x < w -> 0 <= y < h -> let p := pixel im w h b x y in
  ((forall up, recoded up cs p = p) ->
     forall n im' b', rgb_generations cs w h im b n im' b' -> pixel im' w h b' x y = p) /\
  ((forall up, recoded up cs p <> p) ->
     forall im' b', rgb_generations cs w h im b 1 im' b' -> pixel im' w h b' x y <> p) /\
  (no_tie cs p -> recoded true cs p = recoded false cs p).
Proof. exact stays_exactly. Qed.
Print Assumptions C52_exactly.

(** C52: in the limited range spaces, every pixel whose samples are decoded without clamping
    changes the first time only, whatever the pixels around it are. *)
Theorem C52_settled_pixel_partial : forall cs w h im b im1 b1 n im' b',
  rgb_generations cs w h im b 1 im1 b1 -> rgb_generations cs w h im1 b1 n im' b' ->
  is_rgb (i_pf im) = true -> limited cs = true ->
  forall x y, 0 <= x < w -> 0 <= y < h -> (forall up, representable cs (encoded up cs (pixel im w h b x y))) ->
  pixel im' w h b' x y = pixel im1 w h b1 x y.
Proof. exact c52_pixel. Qed.
Print Assumptions C52_settled_pixel_partial.

(** Full-range BT.601: grey (100, 100, 100) becomes (101, 99, 102), then (103, 98, 104). *)
Example ex_recodings : recodings Bt601FR (100, 100, 100) 2 (103, 98, 104) /\
  pixel ex_bgra 1 1 [[100; 100; 100; 9]] 0 0 = (100, 100, 100) /\
  (forall up, recoded up Bt601FR (100, 100, 100) <> (100, 100, 100)) /\ no_tie Bt601FR (100, 100, 100).
Proof.
  split; [|split; [reflexivity|split]].
  - change (103, 98, 104) with (recoded true Bt601FR (recoded false Bt601FR (100, 100, 100))).
    repeat constructor.
  - intros []; discriminate.
  - split; discriminate.
Qed.
(** Black and white stay in BT.601. (1, 0, 250) has components at the ends, but its samples are
    decoded without clamping: it becomes (2, 0, 251) and stays. *)
Example ex_recoded_stays : (forall up, recoded up Bt601 (255, 255, 255) = (255, 255, 255)) /\
  (forall up, recoded up Bt601 (0, 0, 0) = (0, 0, 0)) /\ (forall up, representable Bt601 (encoded up Bt601 (1, 0, 250))).
Proof.
  split; [|split]; intros []; try reflexivity; unfold representable; vm_compute; repeat split; congruence.
Qed.
