(** Properties of encoding an RGB image as I444 and decoding it again, many times, for the four
    instruction sets. Each theorem is followed by its assumptions and by a concrete case. *)
From Coq Require Import ZArith List Bool Lia.
Import ListNotations.
From Verif Require Import Base Fmt Exec CpuInfo Lib Sets Spec SimdSpec SetSpec ApiSpec Api PropsConvert
  Itu PixelSpec PropsPixel PropsTrip RgbTripSpec RgbTripFacts.
Open Scope Z_scope.

(** C52: in the limited range spaces, an RGB image without components below 2 or above 253
    changes the first time only: encoded and decoded any number of times more, on whatever
    instruction sets, it stays what it was after the first. Missing: the full range spaces and
    the components at the ends, for which it is false ([C52_refuted]). *)
Theorem C52_settled_partial : forall cs w h im b im1 b1 n im' b',
  rgb_generations cs w h im b 1 im1 b1 -> rgb_generations cs w h im1 b1 n im' b' ->
  is_rgb (i_pf im) = true -> limited cs = true ->
  (forall x y, 0 <= x < w -> 0 <= y < h -> off_the_ends (pixel im w h b x y)) ->
  forall x y, 0 <= x < w -> 0 <= y < h -> pixel im' w h b' x y = pixel im1 w h b1 x y.
Proof. exact c52. Qed.
Print Assumptions C52_settled_partial.

(** C52: such an image never differs from the first one by more than (1, 1, 2). *)
Theorem C52_bounded_partial : forall cs w h im b n im' b',
  rgb_generations cs w h im b n im' b' -> is_rgb (i_pf im) = true -> limited cs = true ->
  (forall x y, 0 <= x < w -> 0 <= y < h -> off_the_ends (pixel im w h b x y)) ->
  forall x y, 0 <= x < w -> 0 <= y < h -> within (1, 1, 2) (pixel im' w h b' x y) (pixel im w h b x y).
Proof.
  intros cs w h im b n im' b' G R L HO. destruct cs; try discriminate L; exact (c52_bounded _ w h im b n im' b' G R eq_refl HO).
Qed.
Print Assumptions C52_bounded_partial.

Ltac one_generation st st' mid t := eapply (Rgb_S _ _ _ _ _ _ _ _ st T64_debug mid (zeros [1; 1; 1]) _ st' T64_debug ex_bgra (zeros [4]));
  [t|check_success|check_success|reflexivity|reflexivity|reflexivity].

(** (2, 4, 40) becomes (2, 3, 39), and stays. *)
Example C52_example : exists b1 b2, rgb_generations Bt601 1 1 ex_bgra [[40; 4; 2; 9]] 1 ex_bgra b1 /\
  rgb_generations Bt601 1 1 ex_bgra b1 2 ex_bgra b2 /\ b1 = [[39; 3; 2; 255]] /\ b2 = b1.
Proof.
  eexists. eexists. split; [|split; [|split]].
  - one_generation X86 Sse2 ex_i444_16 ltac:(apply Rgb_0).
  - one_generation Neon Avx2 ex_i444_16 ltac:(one_generation Avx2 Neon ex_i444_16 ltac:(apply Rgb_0)).
  - reflexivity.
  - reflexivity.
Qed.
Example ex_off_the_ends x y : 0 <= x < 1 -> 0 <= y < 1 -> off_the_ends (pixel ex_bgra 1 1 [[40; 4; 2; 9]] x y).
Proof. intros. replace x with 0 by lia. replace y with 0 by lia. cbv; repeat split; congruence. Qed.

(** C52 does not hold in full: in full-range BT.601 grey (100, 100, 100) becomes (101, 99, 102),
    then (103, 98, 104), then (104, 97, 105); in BT.601 (0, 0, 21) becomes (0, 0, 20), then
    (1, 0, 20). *)
Theorem C52_refuted :
  (exists b1 b2 b3, rgb_generations Bt601FR 1 1 ex_bgra [[100; 100; 100; 9]] 1 ex_bgra b1 /\
    rgb_generations Bt601FR 1 1 ex_bgra b1 1 ex_bgra b2 /\ rgb_generations Bt601FR 1 1 ex_bgra b2 1 ex_bgra b3 /\
    b1 = [[102; 99; 101; 255]] /\ b2 = [[104; 98; 103; 255]] /\ b3 = [[105; 97; 104; 255]]) /\
  (exists b1 b2, rgb_generations Bt601 1 1 ex_bgra [[21; 0; 0; 9]] 1 ex_bgra b1 /\
    rgb_generations Bt601 1 1 ex_bgra b1 1 ex_bgra b2 /\ b1 = [[20; 0; 0; 255]] /\ b2 = [[20; 0; 1; 255]]).
Proof.
  split.
  - eexists. eexists. eexists. split; [|split; [|split; [|split; [|split]]]].
    + one_generation X86 X86 ex_jpeg ltac:(apply Rgb_0).
    + one_generation X86 X86 ex_jpeg ltac:(apply Rgb_0).
    + one_generation X86 X86 ex_jpeg ltac:(apply Rgb_0).
    + reflexivity.
    + reflexivity.
    + reflexivity.
  - eexists. eexists. split; [|split; [|split]].
    + one_generation X86 X86 ex_i444_16 ltac:(apply Rgb_0).
    + one_generation X86 X86 ex_i444_16 ltac:(apply Rgb_0).
    + reflexivity.
    + reflexivity.
Qed.
Print Assumptions C52_refuted.
