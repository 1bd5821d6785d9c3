(** Properties of the pixel values that convert_image computes, for the four instruction
    sets. Each theorem is followed by its assumptions and by a concrete case. *)
From Coq Require Import ZArith QArith List Bool Lia Lqa.
Import ListNotations.
From Verif Require Import Base Fmt CpuInfo Lib Sets Spec SimdSpec SetSpec ApiSpec Api PropsConvert
  Itu PixelSpec PixelApi.
Open Scope Z_scope.

(** ** The calls of the examples *)

(** BGRA 18x2 to I444, I420 and back: 16 columns of vector code on SSE2, AVX2 and NEON. *)
Definition ex_bgra_wide : list (list Z) := [ramp 144].
Definition ex_i420_709 : image := Image I420 Bt709 3 None.
Definition ex_i444_709 : image := Image I444 Bt709 3 None.
Definition zeros (l : list Z) : list (list Z) := map (fun n => repeat 0 (Z.to_nat n)) l.

Ltac check_success ::=
  unfold successful_call, is_target;
  split; [left; split; reflexivity|];
  split; [change (usz _) with (2 ^ 64); unfold well_formed, strides_below;
          repeat (split; [cbn; lia|]); repeat (split; [cbn; auto; solve [auto | repeat constructor; lia]|]);
          split; apply buffers_check; vm_compute; reflexivity|];
  split; [lia|]; split; [lia|];
  unfold laid_out, image_in, rows_apart, plane_in;
  split; [solve [split; repeat constructor; vm_compute; discriminate]|];
  split; [solve [split; repeat constructor; vm_compute; discriminate]|]; vm_compute; reflexivity.

Example ex_wide_444 set : exists m',
  successful_call (converters set) T64_debug 18 2 ex_bgra ex_i444_709 ex_bgra_wide (zeros [36; 36; 36]) m'.
Proof. eexists. destruct set; check_success. Qed.
Example ex_wide_420 set : exists m',
  successful_call (converters set) T64_debug 18 2 ex_bgra ex_i420_709 ex_bgra_wide (zeros [36; 9; 9]) m'.
Proof. eexists. destruct set; check_success. Qed.
Example ex_wide_back set : exists m1 m2,
  successful_call (converters set) T64_debug 18 2 ex_bgra ex_i444_709 ex_bgra_wide (zeros [36; 36; 36]) m1 /\
  successful_call (converters set) T64_debug 18 2 ex_i444_709 ex_bgra (dsts m1) (zeros [144]) m2.
Proof. destruct set; eexists; eexists; (split; [check_success|check_success]). Qed.

(** ** Accuracy *)

(** C16, RGB to YCbCr: the three samples are within 0.51 of the values that BT.601 and BT.709
    define for the pixel (Y) and for the average of the pixels that the chroma stands for. *)
Theorem C16_rgb_to_ycbcr_accuracy : forall set T w h src dst sb db m',
  successful_call (converters set) T w h src dst sb db m' ->
  is_rgb (i_pf src) = true -> is_rgb (i_pf dst) = false ->
  forall x y, 0 <= x < w -> 0 <= y < h ->
  let px := pixel src w h sb in
  let area := q_average (fst (chroma_area (i_pf dst) px x y)) (snd (chroma_area (i_pf dst) px x y)) in
  all_near (51 # 100) (pixel dst w h (dsts m') x y)
    (exact_y (i_cs dst) (q_of (px x y)), exact_cb (i_cs dst) area, exact_cr (i_cs dst) area).
Proof. exact c16_forward. Qed.
Print Assumptions C16_rgb_to_ycbcr_accuracy.

(** C16, YCbCr to RGB: the components are within 0.54 (limited range) or 2.4 (full range) of
    the exact ones, clamped. On SSE2 and AVX2, when blue is below 512.
    Missing: full range within 1, and other blues on SSE2 and AVX2; these are false. *)
Theorem C16_ycbcr_to_rgb_accuracy_partial : forall set T w h src dst sb db m',
  successful_call (converters set) T w h src dst sb db m' ->
  is_rgb (i_pf src) = false -> is_rgb (i_pf dst) = true ->
  forall x y, 0 <= x < w -> 0 <= y < h ->
  set = X86 \/ set = Neon \/ blue_fits (i_cs src) (pixel src w h sb x y) ->
  let '(l, cb, cr) := pixel src w h sb x y in
  all_near (rgb_error (i_cs src)) (pixel dst w h (dsts m') x y)
    (q_clamp_rgb (exact_rgb (i_cs src) (inject_Z l) (inject_Z cb) (inject_Z cr))).
Proof. exact c16_inverse. Qed.
Print Assumptions C16_ycbcr_to_rgb_accuracy_partial.

(** C16 does not hold in full: full-range BT.601, neutral mid-grey with red and blue
    differences; the exact blue is 128, the computed one 130. *)
Definition ex_i444_full : image := Image I444 Bt601FR 3 None.
Definition ex_neutral : list (list Z) := [repeat 128 32; repeat 128 32; repeat 128 32].
Theorem C16_refuted : forall set, exists w h src dst sb db m',
  successful_call (converters set) T64_release w h src dst sb db m' /\
  is_rgb (i_pf src) = false /\ is_rgb (i_pf dst) = true /\
  forall x y, 0 <= x < w -> 0 <= y < h ->
  pixel src w h sb x y = (128, 128, 128) /\ pixel dst w h (dsts m') x y = (129, 127, 130) /\
  (snd (q_clamp_rgb (exact_rgb (i_cs src) 128 128 128)) == 128)%Q.
Proof.
  intros set. exists 32, 1, ex_i444_full, ex_bgra, ex_neutral, (zeros [128]).
  exists (Mem ex_neutral [concat (repeat [130; 127; 129; 255] 32)]).
  split; [destruct set; check_success|]. split; [reflexivity|]. split; [reflexivity|].
  intros x y Hx Hy. assert (y = 0) by lia. subst y.
  assert (HI : In x (map Z.of_nat (seq 0 32))) by (apply in_map_iff; exists (Z.to_nat x); rewrite in_seq; lia).
  split; [|split; [|reflexivity]]; revert HI; clear;
  [cut (forallb (fun x => let '(a, b, c) := pixel ex_i444_full 32 1 ex_neutral x 0 in (a =? 128) && (b =? 128) && (c =? 128)) (map Z.of_nat (seq 0 32)) = true)
  |cut (forallb (fun x => let '(a, b, c) := pixel ex_bgra 32 1 [concat (repeat [130; 127; 129; 255] 32)] x 0 in (a =? 129) && (b =? 127) && (c =? 130)) (map Z.of_nat (seq 0 32)) = true)];
  try (vm_compute; reflexivity);
  intros F HI; rewrite forallb_forall in F; specialize (F x HI); cbn [dsts];
  match goal with |- ?p = _ => destruct p as [[a b] c] end;
  rewrite !andb_true_iff, !Z.eqb_eq in F; destruct F as [[-> ->] ->]; reflexivity.
Qed.
Print Assumptions C16_refuted.

(** ** Ranges *)

(** C17: luma and chroma are in the nominal range: 16 to 235 and 16 to 240 in the limited
    range spaces, 0 to 255 and 1 to 255 in the others. *)
Theorem C17_nominal_range : forall set T w h src dst sb db m',
  successful_call (converters set) T w h src dst sb db m' ->
  is_rgb (i_pf src) = true -> is_rgb (i_pf dst) = false ->
  forall x y, 0 <= x < w -> 0 <= y < h ->
  let '(l, cb, cr) := pixel dst w h (dsts m') x y in let cs := i_cs dst in
  y_min cs <= l <= y_max cs /\ c_min cs <= cb <= c_max cs /\ c_min cs <= cr <= c_max cs.
Proof. exact c17. Qed.
Print Assumptions C17_nominal_range.

(** C17: the formulas of C14 give these ranges before any truncation, so that none is
    lossy: for one pixel, and for the sums of 4. *)
Theorem C17_no_truncation : forall cs n r g b, cs <> CsRgb -> n = 1 \/ n = 4 ->
  0 <= r <= n * 255 -> 0 <= g <= n * 255 -> 0 <= b <= n * 255 ->
  (n = 1 -> y_min cs <= luma cs (r, g, b) <= y_max cs) /\
  c_min cs <= blue_diff cs n (r, g, b) <= c_max cs /\ c_min cs <= red_diff cs n (r, g, b) <= c_max cs /\
  c_min cs <= blue_diff_up cs n (r, g, b) <= c_max cs /\ c_min cs <= red_diff_up cs n (r, g, b) <= c_max cs.
Proof. exact formulas_in_range. Qed.
Print Assumptions C17_no_truncation.
Example C17_ends :
  luma Bt601 (0, 0, 0) = y_min Bt601 /\ luma Bt601 (255, 255, 255) = y_max Bt601 /\
  blue_diff Bt709 1 (255, 255, 0) = c_min Bt709 /\ blue_diff Bt709 1 (0, 0, 255) = c_max Bt709 /\
  blue_diff Bt709FR 4 (1020, 1020, 0) = c_min Bt709FR /\ red_diff Bt601FR 1 (255, 0, 0) = c_max Bt601FR.
Proof. repeat split; reflexivity. Qed.

(** ** Saturation *)

(** C18: negative components give 0, those above 255 give 255, the others are rounded
    downwards. On SSE2 and AVX2, when blue is below 512.
    Missing: other blues on SSE2 and AVX2, for which it is false. *)
Theorem C18_saturation_partial : forall set T w h src dst sb db m',
  successful_call (converters set) T w h src dst sb db m' ->
  is_rgb (i_pf src) = false -> is_rgb (i_pf dst) = true ->
  forall x y, 0 <= x < w -> 0 <= y < h ->
  set = X86 \/ set = Neon \/ blue_fits (i_cs src) (pixel src w h sb x y) ->
  let '(l, cb, cr) := pixel src w h sb x y in
  let '(r, g, b) := rgb64 (i_cs src) l cb cr in
  let '(r', g', b') := pixel dst w h (dsts m') x y in
  saturated r r' /\ saturated g g' /\ saturated b b'.
Proof. exact c18. Qed.
Print Assumptions C18_saturation_partial.
Example C18_example : rgb64 Bt601 16 255 0 = (-13042, 3508, 16427) /\
  saturated (-13042) 0 /\ saturated 3508 54 /\ saturated 16427 255.
Proof. unfold saturated. repeat split; try lia; reflexivity. Qed.

(** C18 does not hold in full: on SSE2 and AVX2, a blue above 255 becomes 0. *)
Theorem C18_refuted : forall set, set = Sse2 \/ set = Avx2 -> exists w h src dst sb db m',
  successful_call (converters set) T64_release w h src dst sb db m' /\
  is_rgb (i_pf src) = false /\ is_rgb (i_pf dst) = true /\
  exists l cb cr, pixel src w h sb 0 0 = (l, cb, cr) /\
  255 * 64 < snd (rgb64 (i_cs src) l cb cr) /\ snd (pixel dst w h (dsts m') 0 0) = 0.
Proof.
  intros set H. exists 17, 1, ex_i444_16, ex_bgra, ex_blue, (blues 17).
  destruct H as [-> | ->]; eexists; (split; [check_success|]);
    (split; [reflexivity|split; [reflexivity|]]); exists 255, 255, 128; (split; [|split]); vm_compute; reflexivity.
Qed.
Print Assumptions C18_refuted.

(** ** Greys *)

(** C19: grey pixels have neutral chroma. *)
Theorem C19_grey_to_neutral : forall set T w h src dst sb db m',
  successful_call (converters set) T w h src dst sb db m' ->
  is_rgb (i_pf src) = true -> is_rgb (i_pf dst) = false ->
  forall x y, 0 <= x < w -> 0 <= y < h ->
  forall v, snd (chroma_area (i_pf dst) (pixel src w h sb) x y) = (v, v, v) ->
  exists l, pixel dst w h (dsts m') x y = (l, 128, 128).
Proof. exact c19_grey. Qed.
Print Assumptions C19_grey_to_neutral.

(** C19: black and white have the extreme lumas. *)
Theorem C19_black_white : forall set T w h src dst sb db m',
  successful_call (converters set) T w h src dst sb db m' ->
  is_rgb (i_pf src) = true -> is_rgb (i_pf dst) = false ->
  forall x y, 0 <= x < w -> 0 <= y < h ->
  let '(l, _, _) := pixel dst w h (dsts m') x y in
  (pixel src w h sb x y = (0, 0, 0) -> l = y_min (i_cs dst)) /\
  (pixel src w h sb x y = (255, 255, 255) -> l = y_max (i_cs dst)).
Proof. exact c19_extremes. Qed.
Print Assumptions C19_black_white.

(** C19: in the limited range spaces, neutral chroma gives greys.
    Missing: full range spaces, for which it is false. *)
Theorem C19_neutral_to_grey_partial : forall set T w h src dst sb db m',
  successful_call (converters set) T w h src dst sb db m' ->
  is_rgb (i_pf src) = false -> is_rgb (i_pf dst) = true -> limited (i_cs src) = true ->
  forall x y, 0 <= x < w -> 0 <= y < h -> forall l, pixel src w h sb x y = (l, 128, 128) ->
  exists v, pixel dst w h (dsts m') x y = (v, v, v).
Proof. exact c19_neutral_grey. Qed.
Print Assumptions C19_neutral_to_grey_partial.

(** C19: in all spaces, neutral chroma gives components that differ by at most 3. *)
Theorem C19_neutral_close : forall set T w h src dst sb db m',
  successful_call (converters set) T w h src dst sb db m' ->
  is_rgb (i_pf src) = false -> is_rgb (i_pf dst) = true ->
  forall x y, 0 <= x < w -> 0 <= y < h -> forall l, pixel src w h sb x y = (l, 128, 128) ->
  let '(r, g, b) := pixel dst w h (dsts m') x y in
  Z.abs (r - g) <= 3 /\ Z.abs (g - b) <= 3 /\ Z.abs (r - b) <= 1.
Proof. exact c19_neutral_close. Qed.
Print Assumptions C19_neutral_close.

(** C19: in the limited range spaces, the extreme lumas give black and white exactly.
    Missing: full range spaces, for which it is false. *)
Theorem C19_black_white_back_partial : forall set T w h src dst sb db m',
  successful_call (converters set) T w h src dst sb db m' ->
  is_rgb (i_pf src) = false -> is_rgb (i_pf dst) = true -> limited (i_cs src) = true ->
  forall x y, 0 <= x < w -> 0 <= y < h ->
  (pixel src w h sb x y = (y_min (i_cs src), 128, 128) -> pixel dst w h (dsts m') x y = (0, 0, 0)) /\
  (pixel src w h sb x y = (y_max (i_cs src), 128, 128) -> pixel dst w h (dsts m') x y = (255, 255, 255)).
Proof. exact c19_back. Qed.
Print Assumptions C19_black_white_back_partial.
Definition ex_greys : list (list Z) := [[16; 235; 100; 200]; repeat 128 4; repeat 128 4].
Example C19_example set : successful_call (converters set) T64_debug 4 1 ex_i444_709 ex_bgra ex_greys (zeros [16])
  (Mem ex_greys [[0; 0; 0; 255; 255; 255; 255; 255; 98; 98; 98; 255; 214; 214; 214; 255]]).
Proof. destruct set; check_success. Qed.

(** C19 does not hold in full: in full-range BT.601, neutral mid-grey gives (129, 127, 130),
    and black does not come back: (1, 0, 2). *)
Theorem C19_refuted : forall set, exists w h src dst sb db m',
  successful_call (converters set) T64_release w h src dst sb db m' /\
  is_rgb (i_pf src) = false /\ is_rgb (i_pf dst) = true /\
  pixel src w h sb 0 0 = (128, 128, 128) /\ pixel dst w h (dsts m') 0 0 = (129, 127, 130) /\
  pixel src w h sb 1 0 = (y_min (i_cs src), 128, 128) /\ pixel dst w h (dsts m') 1 0 = (1, 0, 2).
Proof.
  intros set. exists 2, 1, ex_i444_full, ex_bgra, [[128; 0]; [128; 128]; [128; 128]], (zeros [8]).
  eexists. split; [destruct set; check_success|]. vm_compute. auto 10.
Qed.
Print Assumptions C19_refuted.

(** ** Round trip *)

(** C33: RGB to I444 and back, on any two instruction sets, changes the components by at most
    (1, 1, 2) in the limited range spaces, (3, 2, 3) in full-range BT.601, (3, 1, 3) in
    full-range BT.709. *)
Theorem C33_round_trip : forall set set' T T' w h src mid dst sb mb db m1 m2,
  successful_call (converters set) T w h src mid sb mb m1 ->
  successful_call (converters set') T' w h mid dst (dsts m1) db m2 ->
  is_rgb (i_pf src) = true -> i_pf mid = I444 ->
  forall x y, 0 <= x < w -> 0 <= y < h ->
  within (trip_error (i_cs mid)) (pixel dst w h (dsts m2) x y) (pixel src w h sb x y).
Proof. exact c33. Qed.
Print Assumptions C33_round_trip.

(** C33: through I420 and NV12, this is so for the pixels of blocks of equal ones. *)
Theorem C33_round_trip_uniform : forall set set' T T' w h src mid dst sb mb db m1 m2,
  successful_call (converters set) T w h src mid sb mb m1 ->
  successful_call (converters set') T' w h mid dst (dsts m1) db m2 ->
  is_rgb (i_pf src) = true -> is_rgb (i_pf mid) = false -> is_rgb (i_pf dst) = true ->
  forall x y, 0 <= x < w -> 0 <= y < h ->
  i_pf mid = I444 \/
  (forall x' y', x' / 2 = x / 2 -> y' / 2 = y / 2 -> pixel src w h sb x' y' = pixel src w h sb x y) ->
  within (trip_error (i_cs mid)) (pixel dst w h (dsts m2) x y) (pixel src w h sb x y).
Proof. exact c33_uniform. Qed.
Print Assumptions C33_round_trip_uniform.
(** The bound is reached: (0, 1, 20) comes back as (0, 1, 18). *)
Example C33_reached set : exists m1 m2,
  successful_call (converters set) T64_debug 1 1 ex_bgra ex_i444_16 [[20; 1; 0; 9]] (zeros [1; 1; 1]) m1 /\
  successful_call (converters set) T64_debug 1 1 ex_i444_16 ex_bgra (dsts m1) (zeros [4]) m2 /\
  dsts m2 = [[18; 1; 0; 255]].
Proof.
  exists (Mem [[20; 1; 0; 9]] [[18]; [136]; [126]]), (Mem [[18]; [136]; [126]] [[18; 1; 0; 255]]).
  split; [|split; [|reflexivity]]; destruct set; check_success.
Qed.

(** ** Monotonicity *)

(** C34: luma does not decrease when no component does, whatever the image, the
    instruction set and the position. *)
Theorem C34_luma_monotone : forall set set' T T' w w' h h' src src' dst dst' sb sb' db db' m1 m2,
  successful_call (converters set) T w h src dst sb db m1 ->
  successful_call (converters set') T' w' h' src' dst' sb' db' m2 ->
  is_rgb (i_pf src) = true -> is_rgb (i_pf dst) = false ->
  is_rgb (i_pf src') = true -> is_rgb (i_pf dst') = false -> i_cs dst = i_cs dst' ->
  forall x y x' y', 0 <= x < w -> 0 <= y < h -> 0 <= x' < w' -> 0 <= y' < h' ->
  below (pixel src w h sb x y) (pixel src' w' h' sb' x' y') ->
  fst (fst (pixel dst w h (dsts m1) x y)) <= fst (fst (pixel dst' w' h' (dsts m2) x' y')).
Proof. exact c34_luma. Qed.
Print Assumptions C34_luma_monotone.

(** C34: no component decreases when luma grows. On SSE2 and AVX2, when blue is below 512.
    Missing: other blues on SSE2 and AVX2, for which it is false. *)
Theorem C34_rgb_monotone_partial : forall set set' T T' w w' h h' src src' dst dst' sb sb' db db' m1 m2,
  successful_call (converters set) T w h src dst sb db m1 ->
  successful_call (converters set') T' w' h' src' dst' sb' db' m2 ->
  is_rgb (i_pf src) = false -> is_rgb (i_pf dst) = true ->
  is_rgb (i_pf src') = false -> is_rgb (i_pf dst') = true -> i_cs src = i_cs src' ->
  forall x y x' y', 0 <= x < w -> 0 <= y < h -> 0 <= x' < w' -> 0 <= y' < h' ->
  forall l l' cb cr, pixel src w h sb x y = (l, cb, cr) -> pixel src' w' h' sb' x' y' = (l', cb, cr) -> l <= l' ->
  set = X86 \/ set = Neon \/ blue_fits (i_cs src) (l, cb, cr) ->
  set' = X86 \/ set' = Neon \/ blue_fits (i_cs src') (l', cb, cr) ->
  below (pixel dst w h (dsts m1) x y) (pixel dst' w' h' (dsts m2) x' y').
Proof. exact c34_rgb. Qed.
Print Assumptions C34_rgb_monotone_partial.

(** C34 does not hold in full: on SSE2 and AVX2, luma 200 and 255 with the same chroma give
    blue 255 and 0. *)
Definition ex_bluer : list (list Z) := [200 :: repeat 255 16; repeat 255 17; repeat 128 17].
Theorem C34_refuted : forall set, set = Sse2 \/ set = Avx2 -> exists w h src dst sb db m',
  successful_call (converters set) T64_release w h src dst sb db m' /\
  is_rgb (i_pf src) = false /\ is_rgb (i_pf dst) = true /\
  pixel src w h sb 0 0 = (200, 255, 128) /\ pixel src w h sb 1 0 = (255, 255, 128) /\
  snd (pixel dst w h (dsts m') 0 0) = 255 /\ snd (pixel dst w h (dsts m') 1 0) = 0.
Proof.
  intros set H. exists 17, 1, ex_i444_16, ex_bgra, ex_bluer, (blues 17).
  destruct H as [-> | ->]; eexists; (split; [check_success|]); vm_compute; auto 10.
Qed.
Print Assumptions C34_refuted.

(** ** Subsampling *)

(** C35: in a block of equal pixels, I420 and NV12 have the samples of I444. *)
Theorem C35_uniform_block : forall set T T' w h src sub full sb db db' m1 m2,
  successful_call (converters set) T w h src sub sb db m1 ->
  successful_call (converters set) T' w h src full sb db' m2 ->
  is_rgb (i_pf src) = true -> is_rgb (i_pf sub) = false -> i_pf full = I444 -> i_cs sub = i_cs full ->
  forall x y, 0 <= x < w -> 0 <= y < h ->
  (forall x' y', x' / 2 = x / 2 -> y' / 2 = y / 2 -> pixel src w h sb x' y' = pixel src w h sb x y) ->
  pixel sub w h (dsts m1) x y = pixel full w h (dsts m2) x y.
Proof. exact c35_uniform. Qed.
Print Assumptions C35_uniform_block.

(** C35: in any block, the chroma of I420 and NV12 is in every range ([lo] to [hi], for Cb and
    Cr) that contains the four of I444. *)
Theorem C35_between : forall set T T' w h src sub full sb db db' m1 m2,
  successful_call (converters set) T w h src sub sb db m1 ->
  successful_call (converters set) T' w h src full sb db' m2 ->
  is_rgb (i_pf src) = true -> i_pf sub = I420 \/ i_pf sub = Nv12 -> i_pf full = I444 -> i_cs sub = i_cs full ->
  forall x y, 0 <= x < w -> 0 <= y < h ->
  forall lo hi,
  (forall x' y', x' / 2 = x / 2 -> y' / 2 = y / 2 ->
     let '(_, cb, cr) := pixel full w h (dsts m2) x' y' in
     fst lo <= cb <= fst hi /\ snd lo <= cr <= snd hi) ->
  let '(_, cb, cr) := pixel sub w h (dsts m1) x y in
  fst lo <= cb <= fst hi /\ snd lo <= cr <= snd hi.
Proof. exact c35_between. Qed.
Print Assumptions C35_between.
Example C35_example set : exists m1 m2,
  successful_call (converters set) T64_debug 18 2 ex_bgra ex_i420_709 ex_bgra_wide (zeros [36; 9; 9]) m1 /\
  successful_call (converters set) T64_debug 18 2 ex_bgra ex_i444_709 ex_bgra_wide (zeros [36; 36; 36]) m2.
Proof. destruct set; eexists; eexists; split; check_success. Qed.
