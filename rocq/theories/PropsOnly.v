(** Only greys become grey, only black becomes black, only white becomes white (C66). *)
From Coq Require Import ZArith List Bool Lia.
Import ListNotations.
From Verif Require Import Base Fmt CpuInfo Lib Sets Spec SetSpec ApiSpec Api PropsConvert Itu PixelSpec PropsPixel PropsWrap OnlySpec OnlyFacts.
Open Scope Z_scope.

(** C66: a pixel whose chroma is neutral was grey: in I444 its red and blue differed from its green by
    at most 1; in I420 and NV12 the sums of its block by at most 6, so 3/2 on average. (With [C19_grey_to_neutral]:
    every grey has neutral chroma.) *)
Theorem C66_encoded_grey : forall set T w h src dst sb db m',
  successful_call (converters set) T w h src dst sb db m' ->
  is_rgb (i_pf src) = true -> is_rgb (i_pf dst) = false ->
  forall x y, 0 <= x < w -> 0 <= y < h -> forall l, pixel dst w h (dsts m') x y = (l, 128, 128) ->
  let '(n, (r, g, b)) := chroma_area (i_pf dst) (pixel src w h sb) x y in
  2 * Z.abs (r - g) <= 3 * n /\ 3 * Z.abs (b - g) <= 5 * n.
Proof. exact encoded_grey. Qed.
Print Assumptions C66_encoded_grey.

(** C66: a pixel with the lowest luma was black, and one with the highest was white, up to 2 in red and
    8 in blue, exactly in green. *)
Theorem C66_encoded_ends : forall set T w h src dst sb db m',
  successful_call (converters set) T w h src dst sb db m' ->
  is_rgb (i_pf src) = true -> is_rgb (i_pf dst) = false ->
  forall x y, 0 <= x < w -> 0 <= y < h ->
  let '(l, _, _) := pixel dst w h (dsts m') x y in
  let '(r, g, b) := pixel src w h sb x y in
  (l = y_min (i_cs dst) -> r <= 2 /\ g = 0 /\ b <= 8) /\ (l = y_max (i_cs dst) -> 253 <= r /\ g = 255 /\ 247 <= b).
Proof. exact encoded_ends. Qed.
Print Assumptions C66_encoded_ends.
(** BGRA pixels (b, g, r): greys off by one, black and white off by as much as it can be. *)
Definition ex_only_444 : image := Image I444 Bt709 3 None.
Definition ex_only : list (list Z) := [[8; 0; 0; 9;  247; 255; 255; 9;  100; 99; 99; 9;  0; 0; 2; 9;  255; 255; 253; 9;  9; 0; 0; 9]].
Example C66_encoded_example set : successful_call (converters set) T64_debug 6 1 ex_bgra ex_only_444 ex_only (zeros [6; 6; 6])
  (Mem ex_only [[16; 235; 101; 16; 235; 17]; [132; 124; 128; 128; 128; 132]; [128; 128; 128; 129; 127; 128]]).
Proof. destruct set; check_success. Qed.

(** C66: a decoded pixel is a grey between black and white exactly if its chroma is the one greys have:
    128, in the full range spaces 127. *)
Theorem C66_decoded_grey : forall set T w h src dst sb db m',
  successful_call (converters set) T w h src dst sb db m' ->
  is_rgb (i_pf src) = false -> is_rgb (i_pf dst) = true ->
  forall x y, 0 <= x < w -> 0 <= y < h ->
  (forall v, 0 < v < 255 -> pixel dst w h (dsts m') x y = (v, v, v) ->
     exists l, pixel src w h sb x y = (l, neutral (i_cs src), neutral (i_cs src))) /\
  (forall l, pixel src w h sb x y = (l, neutral (i_cs src), neutral (i_cs src)) ->
     exists v, pixel dst w h (dsts m') x y = (v, v, v)).
Proof. exact decoded_greys. Qed.
Print Assumptions C66_decoded_grey.
(** The pixels of C19_example and C19_full_example. *)
Example C66_decoded_example : forall set,
  successful_call (converters set) T64_debug 4 1 ex_i444_full ex_bgra ex_full_greys (zeros [16])
    (Mem ex_full_greys [[2; 0; 1; 255; 102; 99; 101; 255; 255; 254; 255; 255; 100; 100; 100; 255]]) /\
  pixel ex_bgra 4 1 [[2; 0; 1; 255; 102; 99; 101; 255; 255; 254; 255; 255; 100; 100; 100; 255]] 3 0 = (100, 100, 100) /\
  pixel ex_i444_full 4 1 ex_full_greys 3 0 = (100, neutral (i_cs ex_i444_full), neutral (i_cs ex_i444_full)).
Proof. intros set. split; [exact (C19_full_example set)|]. split; reflexivity. Qed.
