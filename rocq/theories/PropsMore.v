(** Properties of the documented formulas, of the constants, of images cut into bands or
    rectangles, and of processes. Each theorem is followed by its assumptions and by a concrete
    case. *)
From Coq Require Import ZArith QArith Qabs String List Bool Lia Lqa.
Import ListNotations.
From Verif Require Import Base Fmt Common PixelFacts CpuInfo Lib Sets Spec SimdSpec SetSpec ApiSpec Api
  PropsConvert Itu PixelSpec PixelApi PropsPixel PropFacts
  DocSpec DocFacts WeightSpec BandSpec BandFacts CropFacts Process ProcessSpec ProcessFacts
  AcceptSpec AcceptFacts CastFacts Scalar NeedFacts ExactFacts.
Open Scope Z_scope.

(** ** The documented formulas *)

(** C39, RGB to YCbCr: the samples are within 0.76 of the formulas of the documentation of
    [convert_image] ("Algorithm 1"), for BT.601 and the two full range spaces.
    Missing: BT.709 with limited range, for which it is false. *)
Theorem C39_documented_forward_partial : forall set T w h src dst sb db m',
  successful_call (converters set) T w h src dst sb db m' ->
  is_rgb (i_pf src) = true -> is_rgb (i_pf dst) = false -> i_cs dst <> Bt709 ->
  forall x y, 0 <= x < w -> 0 <= y < h ->
  let px := pixel src w h sb in
  let area := q_average (fst (chroma_area (i_pf dst) px x y)) (snd (chroma_area (i_pf dst) px x y)) in
  all_near (76 # 100) (pixel dst w h (dsts m') x y)
    (doc_y (i_cs dst) (q_of (px x y)), doc_cb (i_cs dst) area, doc_cr (i_cs dst) area).
Proof. exact doc_forward. Qed.
Print Assumptions C39_documented_forward_partial.
Definition ex_i420_601 : image := Image I420 Bt601 3 None.
Example C39_forward_example set : exists m',
  successful_call (converters set) T64_debug 18 2 ex_bgra ex_i420_601 ex_bgra_wide (zeros [36; 9; 9]) m' /\
  is_rgb (i_pf ex_bgra) = true /\ is_rgb (i_pf ex_i420_601) = false /\ i_cs ex_i420_601 <> Bt709.
Proof. eexists. split; [destruct set; check_success|repeat split; discriminate]. Qed.

(** C39, YCbCr to RGB ("Algorithm 2"): within 1 (limited range) or 2.5 (full range) of the
    formulas, clamped to 0 .. 255. On SSE2 and AVX2, when blue is below 512.
    Missing: full range within 1, and other blues on SSE2 and AVX2; these are false. *)
Theorem C39_documented_inverse_partial : forall set T w h src dst sb db m',
  successful_call (converters set) T w h src dst sb db m' ->
  is_rgb (i_pf src) = false -> is_rgb (i_pf dst) = true ->
  forall x y, 0 <= x < w -> 0 <= y < h ->
  set = X86 \/ set = Neon \/ blue_fits (i_cs src) (pixel src w h sb x y) ->
  let '(l, cb, cr) := pixel src w h sb x y in
  all_near (doc_rgb_error (i_cs src)) (pixel dst w h (dsts m') x y)
    (q_clamp_rgb (doc_rgb (i_cs src) (inject_Z l) (inject_Z cb) (inject_Z cr))).
Proof. exact doc_inverse. Qed.
Print Assumptions C39_documented_inverse_partial.
Example C39_inverse_example set : exists m1 m2,
  successful_call (converters set) T64_debug 18 2 ex_bgra ex_i444_709 ex_bgra_wide (zeros [36; 36; 36]) m1 /\
  successful_call (converters set) T64_debug 18 2 ex_i444_709 ex_bgra (dsts m1) (zeros [144]) m2 /\
  blue_fits Bt709 (pixel ex_i444_709 18 2 (dsts m1) 5 1).
Proof. destruct set; eexists; eexists; (split; [check_success|split; [check_success|vm_compute; reflexivity]]). Qed.

(** C39 does not hold for BT.709 with limited range: white gives 235, the documented formula
    (which has the coefficients of full range luma) gives 271. *)
Definition ex_white : list (list Z) := [repeat 255 16].
Theorem C39_refuted : forall set, exists w h src dst sb db m',
  successful_call (converters set) T64_release w h src dst sb db m' /\
  is_rgb (i_pf src) = true /\ is_rgb (i_pf dst) = false /\ i_cs dst = Bt709 /\
  pixel src w h sb 0 0 = (255, 255, 255) /\ pixel dst w h (dsts m') 0 0 = (235, 128, 128) /\
  (doc_y (i_cs dst) (q_of (255, 255, 255)%Z) == 271)%Q.
Proof.
  intros set. exists 4, 1, ex_bgra, ex_i444_709, ex_white, (zeros [4; 4; 4]).
  exists (Mem ex_white [repeat 235 4; repeat 128 4; repeat 128 4]).
  split; [destruct set; check_success|]. repeat split; vm_compute; reflexivity.
Qed.
Print Assumptions C39_refuted.

(** ** The constants *)

(** C41, RGB to YCbCr: the luma weights are the nearest integers to 65536 times the exact
    coefficients; the chroma weights are within 1.2 of them; chroma weights add up to zero, luma
    weights to the exact span, so that greys stay grey and white gets the nominal white; all
    weights fit in 17 bits, those of chroma in 16. *)
Theorem C41_forward_weights : forall c,
  let cs := cs_of c in
  let yb := - (YR c + YG c) in let zb := - (yb + ZG c) in
  let close p q := let '(i, j, k) := p in let '(x, y, z) := q in
    near (12 # 10) i (65536 * x) /\ near (12 # 10) j (65536 * y) /\ near (12 # 10) k (65536 * z) in
  (let '(r, g, b) := y_coef cs in
   XR c = nearest (65536 * r) /\ XG c = nearest (65536 * g) /\ XB c = nearest (65536 * b)) /\
  XR c + XG c + XB c = nearest (65536 * (y_span cs / 255)) /\
  close (YR c, YG c, yb) (cb_coef cs) /\ close (yb, ZG c, zb) (cr_coef cs) /\
  -32768 <= YR c /\ -32768 <= YG c /\ yb <= 32767 /\ -32768 <= ZG c /\ -32768 <= zb.
Proof. intros c. destruct c; cbv zeta; vm_compute; repeat split; congruence. Qed.
Print Assumptions C41_forward_weights.
Example C41_forward_example :
  (65536 * fst (fst (y_coef Bt601)) == 65536 * (299 # 1000) * (219 # 255))%Q /\ XR C601 = 16829.
Proof. split; vm_compute; reflexivity. Qed.

(** C41, YCbCr to RGB: the coefficients are the nearest integers to 16384 times the exact ones;
    the offsets are those of black and of the middle of the chroma codes, minus one half. *)
Theorem C41_inverse_weights : forall c,
  let cs := cs_of c in let m := chroma_middle cs in let black := nearest (y_black cs) in
  XXYM c = nearest (16384 * inv_y cs) /\
  RCRM c = nearest (16384 * inv_cr_r cs) /\ GCRM c = nearest (16384 * inv_cr_g cs) /\
  GCBM c = nearest (16384 * inv_cb_g cs) /\ BCBM c = nearest (16384 * inv_cb_b cs) /\
  RN c = (RCRM c * m + XXYM c * black - 8192) / 256 /\
  GP c = (GCRM c * m + GCBM c * m - XXYM c * black + 8192) / 256 /\
  BN c = (BCBM c * m + XXYM c * black - 8192) / 256.
Proof. intros c. destruct c; cbv zeta; vm_compute; repeat split; congruence. Qed.
Print Assumptions C41_inverse_weights.
Example C41_inverse_example : (inv_y Bt709 == 255 # 219)%Q /\ XXYM C709 = 19077.
Proof. split; vm_compute; reflexivity. Qed.

(** ** Images in pieces *)

(** C40, bands: converting rows [y0] to [y1] on their own, with the same strides, gives the rows
    of the conversion of the whole image. For chroma shared by two rows, [y0] has to be even. *)
Theorem C40_bands : forall set T T' w h y0 y1 src dst sb db m m',
  successful_call (converters set) T w h src dst sb db m ->
  successful_call (converters set) T' w (y1 - y0) src dst (band src w y0 y1 sb) (band dst w y0 y1 db) m' ->
  own_buffers src -> own_buffers dst -> 0 <= y0 -> y1 <= h ->
  cut_ok src dst y0 ->
  dsts m' = band dst w y0 y1 (dsts m).
Proof. exact band_call. Qed.
Print Assumptions C40_bands.

(** C40, bands: the same for all the rows from [y0] on and what follows them. *)
Theorem C40_last_band : forall set T T' w h y0 src dst sb db m m',
  successful_call (converters set) T w h src dst sb db m ->
  successful_call (converters set) T' w (h - y0) src dst (rest src w y0 sb) (rest dst w y0 db) m' ->
  own_buffers src -> own_buffers dst -> 0 <= y0 ->
  cut_ok src dst y0 ->
  dsts m' = rest dst w y0 (dsts m).
Proof. exact rest_call. Qed.
Print Assumptions C40_last_band.

(** C40, bands: an image cut into any number of bands, converted one by one (in any order: the
    results do not depend on each other): the bytes of the bands, one after the other, are the
    bytes of the whole image. *)
Theorem C40_all_bands : forall set T w h src dst sb db m rs,
  successful_call (converters set) T w h src dst sb db m -> own_buffers src -> own_buffers dst ->
  in_bands (fun n s d r => exists T' m', successful_call (converters set) T' w n src dst s d m' /\ r = dsts m')
    src dst w h sb db 0 rs ->
  forall p, nth p (dsts m) [] = concat (map (fun r => nth p r []) rs).
Proof. exact bands_whole. Qed.
Print Assumptions C40_all_bands.
Definition ex_band_source : list (list Z) := [ramp 144].
Definition ex_band_target : list (list Z) := zeros [36; 9; 9].
Example C40_bands_example : exists m1 m2 m3,
  successful_call (converters Sse2) T64_debug 6 6 ex_bgra ex_i420_601 ex_band_source ex_band_target m1 /\
  successful_call (converters Sse2) T64_debug 6 (4 - 2) ex_bgra ex_i420_601
    (band ex_bgra 6 2 4 ex_band_source) (band ex_i420_601 6 2 4 ex_band_target) m2 /\
  successful_call (converters Sse2) T64_debug 6 (6 - 4) ex_bgra ex_i420_601
    (rest ex_bgra 6 4 ex_band_source) (rest ex_i420_601 6 4 ex_band_target) m3 /\
  own_buffers ex_bgra /\ own_buffers ex_i420_601 /\
  row_start ex_i420_601 6 2 0 = 12 /\ row_start ex_i420_601 6 2 2 = 3 /\ dsts m2 <> dsts m3.
Proof.
  do 3 eexists; (split; [check_success|]); (split; [check_success|]); (split; [check_success|]);
    (split; [intros E; discriminate E|]); (split; [intros E; discriminate E|]);
    (split; [reflexivity|]); (split; [reflexivity|]); vm_compute; discriminate.
Qed.

Example C40_all_bands_example : exists rs, length rs = 3%nat /\
  in_bands (fun n s d r => exists T' m', successful_call (converters Sse2) T' 6 n ex_bgra ex_i420_601 s d m' /\ r = dsts m')
    ex_bgra ex_i420_601 6 6 ex_band_source ex_band_target 0 rs.
Proof.
  eexists. split; cycle 1.
  - eapply next_band with (y' := 2); [lia|right; left; reflexivity| |eapply next_band with (y' := 4); [lia|right; left; reflexivity| |apply last_band]];
      exists T64_debug; eexists; (split; [check_success|reflexivity]).
  - reflexivity.
Qed.

(** C45, rectangles: the pixels of the conversion of a rectangle of the image, laid out in any
    way, are those of the conversion of the whole image. [x0] and [y0] have to be even for
    subsampled targets.
    Missing: the vector and the scalar part of NEON differ on ties (C26), and blue above 511 on
    SSE2 and AVX2 (C15); both depend on the column. *)
Theorem C45_rectangles_partial : forall set set' T T' w h w' h' x0 y0 src src' dst dst' sb sb' db db' m m',
  successful_call (converters set) T w h src dst sb db m ->
  successful_call (converters set') T' w' h' src' dst' sb' db' m' ->
  i_pf src = i_pf src' -> i_cs src = i_cs src' -> i_pf dst = i_pf dst' -> i_cs dst = i_cs dst' ->
  0 <= x0 -> x0 + w' <= w -> 0 <= y0 -> y0 + h' <= h ->
  (i_pf dst = I420 \/ i_pf dst = Nv12 -> x0 mod 2 = 0 /\ y0 mod 2 = 0) ->
  (forall x y, 0 <= x < w' -> 0 <= y < h' -> pixel src' w' h' sb' x y = pixel src w h sb (x0 + x) (y0 + y)) ->
  (is_rgb (i_pf src) = true -> is_rgb (i_pf dst) = false -> set <> Neon /\ set' <> Neon) ->
  forall x y, 0 <= x < w' -> 0 <= y < h' ->
  (is_rgb (i_pf src) = false -> saturates set (i_cs src) (pixel src' w' h' sb' x y) /\
                                saturates set' (i_cs src) (pixel src' w' h' sb' x y)) ->
  pixel dst' w' h' (dsts m') x y = pixel dst w h (dsts m) (x0 + x) (y0 + y).
Proof. exact crop_pixels. Qed.
Print Assumptions C45_rectangles_partial.
Definition ex_crop_source : list (list Z) := [[40; 48; 56; 64; 72; 80; 88; 96; 200; 208; 216; 224; 232; 240; 248; 0]].
Definition ex_crop_whole : list (list Z) :=
  [[9; 9; 9; 9; 9; 9; 9; 9; 40; 48; 56; 64; 72; 80; 88; 96;
    9; 9; 9; 9; 9; 9; 9; 9; 200; 208; 216; 224; 232; 240; 248; 0]].
Example C45_rectangles_example : exists m m',
  successful_call (converters Sse2) T64_debug 4 2 ex_bgra ex_nv12 ex_crop_whole (zeros [8; 4]) m /\
  successful_call (converters X86) T64_debug 2 2 ex_bgra ex_nv12 ex_crop_source (zeros [4; 2]) m' /\
  (forall x y, 0 <= x < 2 -> 0 <= y < 2 ->
     pixel ex_bgra 2 2 ex_crop_source x y = pixel ex_bgra 4 2 ex_crop_whole (2 + x) (0 + y)).
Proof.
  do 2 eexists. split; [check_success|]. split; [check_success|].
  intros x y Hx Hy. assert (x = 0 \/ x = 1) as [-> | ->] by lia; assert (y = 0 \/ y = 1) as [-> | ->] by lia; reflexivity.
Qed.

(** C45 does not hold in full: I444 to BGRA, the first column of 17 on its own. *)
Theorem C45_refuted : forall set, set = Sse2 \/ set = Avx2 -> exists w h src dst sb sb' db db' m m',
  successful_call (converters set) T64_release w h src dst sb db m /\
  successful_call (converters set) T64_release 1 1 src dst sb' db' m' /\
  pixel src 1 1 sb' 0 0 = pixel src w h sb 0 0 /\
  pixel dst 1 1 (dsts m') 0 0 = (255, 229, 255) /\ pixel dst w h (dsts m) 0 0 = (255, 229, 0).
Proof.
  intros set H. exists 17, 1, ex_i444_16, ex_bgra, ex_blue, [[255]; [255]; [128]], (blues 17), (blues 1).
  destruct H as [-> | ->]; eexists; eexists; (split; [check_success|split; [check_success|]]); vm_compute; auto.
Qed.
Print Assumptions C45_refuted.

(** ** Casts of the scalar code *)

(** C17: the sums that the scalar kernels compute are in range and their casts to [u8] lose
    nothing: luma of one pixel, chroma of one pixel ([n] = 1) and of the sums of 4. *)
Theorem C17_luma_cast : forall c r g b T m, 0 <= r <= 255 -> 0 <= g <= 255 -> 0 <= b <= 255 ->
  exists v, affine_transform r g b (XR c) (XG c) (XB c) (YO c) T m = Ok v m /\
    u8 (fix_to_i32 v FIX16) = fix_to_i32 v FIX16.
Proof. exact luma_cast. Qed.
Print Assumptions C17_luma_cast.
Example C17_luma_cast_example : exists v,
  affine_transform 255 255 255 (XR C709FR) (XG C709FR) (XB C709FR) (YO C709FR) T64_debug (Mem [] []) = Ok v (Mem [] []) /\
  fix_to_i32 v FIX16 = 255.
Proof. eexists. split; reflexivity. Qed.

Theorem C17_chroma_cast : forall c n f co r g b T m,
  n = 1 /\ f = FIX16 /\ co = FIX16_C_HALF + (FIX16_HALF - 1) \/
  n = 4 /\ f = FIX18 /\ co = FIX18_C_HALF + (FIX18_HALF - 1) ->
  0 <= r <= n * 255 -> 0 <= g <= n * 255 -> 0 <= b <= n * 255 ->
  exists yb zb u v, fwd_yb c T m = Ok yb m /\ fwd_zb c yb T m = Ok zb m /\
    affine_transform r g b (YR c) (YG c) yb co T m = Ok u m /\
    affine_transform r g b yb (ZG c) zb co T m = Ok v m /\
    u8 (fix_to_i32 u f) = fix_to_i32 u f /\ u8 (fix_to_i32 v f) = fix_to_i32 v f.
Proof. exact chroma_cast. Qed.
Print Assumptions C17_chroma_cast.
(** Pure blue: Cb would be 256 with one unit more. *)
Example C17_chroma_cast_example : exists yb u,
  fwd_yb C601FR T64_debug (Mem [] []) = Ok yb (Mem [] []) /\
  affine_transform 0 0 1020 (YR C601FR) (YG C601FR) yb (FIX18_C_HALF + (FIX18_HALF - 1)) T64_debug (Mem [] []) = Ok u (Mem [] []) /\
  fix_to_i32 u FIX18 = 255.
Proof. do 2 eexists. split; [reflexivity|split; reflexivity]. Qed.

(** C18: the saturating cast is the exact quotient, clamped, for every [i32]. *)
Theorem C18_saturating_cast : forall x, - 2 ^ 31 <= x < 2 ^ 31 ->
  fix_to_u8_sat x FIX6 = Z.max 0 (Z.min 255 (x / 64)).
Proof. exact fix_to_u8_sat_model. Qed.
Print Assumptions C18_saturating_cast.
Example C18_saturating_cast_example :
  fix_to_u8_sat (-1) FIX6 = 0 /\ fix_to_u8_sat 16383 FIX6 = 255 /\ fix_to_u8_sat 16384 FIX6 = 255 /\
  fix_to_u8_sat 8255 FIX6 = 128 /\ fix_to_u8_sat (- 2 ^ 31) FIX6 = 0.
Proof. vm_compute. auto. Qed.

(** ** Which buffers are accepted *)

(** C46: a call with valid descriptions is answered by NotEnoughData exactly if [buffers_taken]
    does not hold. (64-bit targets; one-plane NV12 with a luma plane of at least 2^64 bytes
    overflows first.) *)
Theorem C46_exact_acceptance : forall set T w h src dst sb db, is_target64 T ->
  well_formed (usz T) w h src dst sb db -> 0 < w -> 0 < h ->
  (forall im, im = src \/ im = dst -> i_pf im = Nv12 -> i_planes im = 1 ->
     eff_stride (i_strides im) 0 w * h < 2 ^ 64) ->
  valid_image src w h -> valid_image dst w h -> supported (i_pf src) (i_pf dst) = true ->
  (convert (converters set) T w h src dst sb db = Ok (Err NotEnoughData) (Mem sb db) <->
   ~ buffers_taken src dst w h sb db).
Proof. exact exact_acceptance. Qed.
Print Assumptions C46_exact_acceptance.
Example C46_example set :
  convert (converters set) T64_debug 1 3 ex_short_bgra ex_i444 [repeat 0 23] (zeros [3; 3; 3]) =
    Ok (Err NotEnoughData) (Mem [repeat 0 23] (zeros [3; 3; 3])) /\
  buffers_taken ex_short_bgra ex_i444 1 3 [repeat 0 24] (zeros [3; 3; 3]) /\
  ~ image_in 0 ex_short_bgra 1 3 [repeat 0 24].
Proof.
  split; [destruct set; vm_compute; reflexivity|]. split.
  - repeat split; repeat constructor; vm_compute; discriminate.
  - intros H. pose proof (Forall_inv H) as G. vm_compute in G. apply G. reflexivity.
Qed.

(** C46: in particular, images that lie inside of their buffers with their rows apart are
    accepted if every plane has one whole stride. This asks less than C03: the last row need not
    be padded. *)
Theorem C46_laid_out_accepted : forall set T w h src dst sb db e m', is_target T ->
  well_formed (usz T) w h src dst sb db -> 0 < w -> 0 < h ->
  valid_image src w h -> valid_image dst w h -> supported (i_pf src) (i_pf dst) = true ->
  enough_planes src sb -> enough_planes dst db ->
  laid_out src w h sb -> laid_out dst w h db ->
  stride_in (buf_len sb) src w h -> stride_in (buf_len db) dst w h ->
  convert (converters set) T w h src dst sb db <> Ok (Err e) m'.
Proof. exact laid_out_accepted. Qed.
Print Assumptions C46_laid_out_accepted.
Example C46_laid_out_example :
  well_formed (2 ^ 64) 1 3 ex_short_bgra ex_i444 [repeat 0 36] (zeros [3; 3; 3]) /\
  valid_image ex_short_bgra 1 3 /\ valid_image ex_i444 1 3 /\
  enough_planes ex_short_bgra [repeat 0 36] /\ enough_planes ex_i444 (zeros [3; 3; 3]) /\
  laid_out ex_short_bgra 1 3 [repeat 0 36] /\ laid_out ex_i444 1 3 (zeros [3; 3; 3]) /\
  stride_in (buf_len [repeat 0 36]) ex_short_bgra 1 3 /\ stride_in (buf_len (zeros [3; 3; 3])) ex_i444 1 3 /\
  ~ image_fits ex_short_bgra 1 3 [repeat 0 36].
Proof.
  split; [check_call|].
  split; [repeat split; vm_compute; congruence|]. split; [repeat split; vm_compute; congruence|].
  split; [split; vm_compute; congruence|]. split; [split; [vm_compute; congruence|exact I]|].
  split; [split; repeat constructor; vm_compute; congruence|].
  split; [split; repeat constructor; vm_compute; congruence|].
  split; [repeat constructor; vm_compute; congruence|]. split; [repeat constructor; vm_compute; congruence|].
  intros H. pose proof (proj2 (Forall_inv H)) as G. vm_compute in G. apply G. reflexivity.
Qed.

(** C38, exactly: a documented call succeeds if the bytes that the registers of the instruction
    set cover are in the source buffer, and reads out of bounds if they are not. *)
Theorem C38_exactly_with_room : forall set T w h src dst sb db, is_target T ->
  documented_call (usz T) w h src dst sb db ->
  (room set src dst w h sb ->
   exists after, convert (converters set) T w h src dst sb db = Ok Success (Mem sb after) /\
     converted (set_cols set (i_pf src) (i_pf dst) w) src dst w h sb db after) /\
  (~ room set src dst w h sb -> convert (converters set) T w h src dst sb db = Fault OOB_read).
Proof. exact documented_exact. Qed.
Print Assumptions C38_exactly_with_room.
(** 13x2 BGR pixels (78 bytes), 14x2 pixels (84 bytes): SSE2 reads up to byte 79 and 82. *)
Example C38_exact_example :
  documented_call (2 ^ 64) 13 2 ex_bgr ex_i444 [ramp 78] (zeros [26; 26; 26]) /\
  ~ room Sse2 ex_bgr ex_i444 13 2 [ramp 78] /\
  documented_call (2 ^ 64) 14 2 ex_bgr ex_i444 [ramp 84] (zeros [28; 28; 28]) /\
  room Sse2 ex_bgr ex_i444 14 2 [ramp 84].
Proof.
  split; [check_call|]. split; [intros H; pose proof (Forall_inv H) as G; vm_compute in G; apply G; reflexivity|].
  split; [check_call|]. repeat constructor; vm_compute; congruence.
Qed.

(** C01: no successful call read a byte outside of its buffers: also the bytes that vector
    registers cover beyond the image are inside. *)
Theorem C01_registers_inside : forall set T w h src dst sb db m,
  successful_call (converters set) T w h src dst sb db m -> room set src dst w h sb.
Proof. exact success_has_room. Qed.
Print Assumptions C01_registers_inside.
Example C01_registers_example : exists m,
  successful_call (converters Sse2) T64_debug 12 1 ex_bgr ex_i444 [ramp 40] (zeros [12; 12; 12]) m /\
  over_read Sse2 Bgr I444 12 = 4.
Proof. eexists. split; [check_success|reflexivity]. Qed.

(** C47: the C function does not know the sizes of the buffers: it converts any images that lie
    inside of the caller's memory with their rows apart, also those for which the Rust function
    answers NotEnoughData. (Strides up to isize::MAX.) *)
Theorem C47_c_converts : forall set T w h src dst sb db error, is_target T ->
  well_formed (usz T) w h src dst sb db -> 0 < w -> 0 < h ->
  valid_image src w h -> valid_image dst w h -> supported (i_pf src) (i_pf dst) = true ->
  enough_planes src sb -> enough_planes dst db ->
  laid_out src w h sb -> laid_out dst w h db -> room set src dst w h sb ->
  stride_in (fun _ => usz T / 2 - 1) src w h -> stride_in (fun _ => usz T / 2 - 1) dst w h ->
  exists after, c_convert (converters set) T w h src dst sb db error = Ok (C_Ok, error) (Mem sb after) /\
    converted (set_cols set (i_pf src) (i_pf dst) w) src dst w h sb db after.
Proof. exact c_laid_out. Qed.
Print Assumptions C47_c_converts.
(** One row of one pixel, stride 16, in 4 bytes. *)
Example C47_example set : let sb := [[10; 20; 30; 255]] in let db := zeros [1; 1; 1] in
  well_formed (2 ^ 64) 1 1 ex_short_bgra ex_i444 sb db /\ valid_image ex_short_bgra 1 1 /\ valid_image ex_i444 1 1 /\
  laid_out ex_short_bgra 1 1 sb /\ laid_out ex_i444 1 1 db /\ room set ex_short_bgra ex_i444 1 1 sb /\
  stride_in (fun _ => 2 ^ 64 / 2 - 1) ex_short_bgra 1 1 /\
  convert (converters set) T64_debug 1 1 ex_short_bgra ex_i444 sb db = Ok (Err NotEnoughData) (Mem sb db) /\
  c_convert (converters set) T64_debug 1 1 ex_short_bgra ex_i444 sb db None = Ok (C_Ok, None) (Mem sb [[35]; [122]; [133]]).
Proof.
  cbv zeta. split; [check_call|].
  split; [repeat split; vm_compute; congruence|]. split; [repeat split; vm_compute; congruence|].
  split; [split; repeat constructor; vm_compute; congruence|].
  split; [split; repeat constructor; vm_compute; congruence|].
  split; [destruct set; repeat constructor; vm_compute; congruence|].
  split; [repeat constructor; vm_compute; congruence|].
  destruct set; split; vm_compute; reflexivity.
Qed.

(** C47: and it succeeds only if the memory has the bytes that the registers cover. *)
Theorem C47_room : forall set T w h src dst sb db error error' m, is_target T ->
  well_formed (usz T) w h src dst sb db -> 0 < w -> 0 < h -> image_in 0 src w h sb ->
  enough_planes src sb -> enough_planes dst db ->
  c_convert (converters set) T w h src dst sb db error = Ok (C_Ok, error') m -> room set src dst w h sb.
Proof. exact c_success_room. Qed.
Print Assumptions C47_room.
Example C47_room_example :
  c_convert (converters Sse2) T64_debug 12 1 ex_bgr ex_i444 [ramp 39] (zeros [12; 12; 12]) None = Fault OOB_read /\
  exists m, c_convert (converters Sse2) T64_debug 12 1 ex_bgr ex_i444 [ramp 40] (zeros [12; 12; 12]) None = Ok (C_Ok, None) m.
Proof. split; [vm_compute; reflexivity|eexists; vm_compute; reflexivity]. Qed.

(** ** Processes *)

(** C42: whatever strings a C program holds, [dcp_describe_acceleration] gives it a pointer that
    is not null, behind which is the whole description, NUL-terminated; the strings it already
    has do not change. *)
Theorem C42_description : forall ctx p hp,
  c_program hp -> p <> 0 -> live hp p = false ->
  let '(q, hp') := dcp_describe_acceleration ctx p hp in
  q <> 0 /\ c_string hp' q = Some (describe_acceleration ctx) /\
  (forall a s, c_string hp a = Some s -> c_string hp' a = Some s).
Proof. exact describe_pointer. Qed.
Print Assumptions C42_description.

(** C42: [dcp_unref_string] frees exactly that string, once; the pair of calls leaks nothing. *)
Theorem C42_unref : forall p hp s,
  c_program hp -> c_string hp p = Some s ->
  exists hp', dcp_unref_string p hp = Some hp' /\ c_string hp' p = None /\
    (forall q, q <> p -> c_string hp' q = c_string hp q).
Proof. exact unref_string. Qed.
Print Assumptions C42_unref.
Theorem C42_no_leak : forall ctx p hp,
  c_program hp -> p <> 0 -> live hp p = false ->
  let '(q, hp') := dcp_describe_acceleration ctx p hp in dcp_unref_string q hp' = Some hp.
Proof. exact unref_described. Qed.
Print Assumptions C42_no_leak.
Example C42_example : let ctx := cpu_get (Cpu_aarch64 true) in
  let hp := snd (dcp_describe_acceleration ctx 4096 []) in
  c_program hp /\ live hp 8192 = false /\
  c_string hp 4096 = Some "{cpu-manufacturer:Unknown,instruction-set:Neon}"%string.
Proof. cbv zeta. split; [apply c_describe; [constructor|lia|reflexivity]|split; reflexivity]. Qed.

(** C43: under [test_instruction_sets], no value of [TEST_SET] makes [convert_image] use
    instructions that the processor lacks; asking for a set that it has gives that set; nothing
    asked, or an unknown name, gives the best. *)
Theorem C43_test_sets : forall T ctx, is_target T ->
  (forall v, has_set (snd ctx) (used_set T ctx v) = true) /\
  (forall s, has_set (snd ctx) s = true ->
     used_set T ctx (initialize_with_instruction_set (set_name s)) = s) /\
  used_set T ctx TEST_SET_INIT = snd ctx /\
  (forall name, (forall s, name <> set_name s) -> used_set T ctx (initialize_with_instruction_set name) = snd ctx).
Proof.
  exact (fun T ctx H => conj (used_set_supported T ctx) (conj (fun s => used_set_requested T ctx s H)
    (conj (used_set_default T ctx H) (fun n => used_set_unknown T ctx n H)))).
Qed.
Print Assumptions C43_test_sets.
Example C43_example : let ctx := (Intel, Avx2) in
  used_set T64_debug ctx (initialize_with_instruction_set "sse2") = Sse2 /\
  used_set T64_debug ctx (initialize_with_instruction_set "neon") = Sse2 /\
  (forall s, "AVX-512"%string <> set_name s).
Proof. split; [|split]; [reflexivity..|]. intros s. destruct s; discriminate. Qed.

(** C44: all the calls of a process answer according to one and the same instruction set, the
    one that the processor had at some moment, even if cpuid answers something else later (on
    another core, or after a migration). *)
Theorem C44_one_set : forall cpus calls, exists ctx,
  (exists t, ctx = cpu_get (cpus t)) /\ session cpus calls = map (answer ctx) calls.
Proof. exact session_one_context. Qed.
Print Assumptions C44_one_set.
Definition ex_regs (l : Z) : regs := match l with 0 => Regs 7 1 2 3 | 1 => Regs 0 0 0 (2 ^ 26) | _ => Regs 0 32 0 0 end.
Example C44_example : let cpus t := match t with 0%nat => Cpu_x86 ex_regs | _ => Cpu_other end in
  session cpus [Describe; Describe; Convert T64_debug 2 2 ex_bgra ex_nv12 ex_pixels ex_nv12_buffers] =
    [Text "{cpu-manufacturer:Unknown,instruction-set:Avx2}"; Text "{cpu-manufacturer:Unknown,instruction-set:Avx2}";
     Converted (convert (converters Avx2) T64_debug 2 2 ex_bgra ex_nv12 ex_pixels ex_nv12_buffers)] /\
  cpu_get (cpus 1%nat) = (Unknown, X86).
Proof. split; reflexivity. Qed.

(** C44: a conversion from RGB gives the same bytes on any two x86 processors. *)
Theorem C44_x86_same : forall cpuid cpuid' T T' w h src dst sb db m m',
  successful_call (converters (snd (cpu_get (Cpu_x86 cpuid)))) T w h src dst sb db m ->
  successful_call (converters (snd (cpu_get (Cpu_x86 cpuid')))) T' w h src dst sb db m' ->
  is_rgb (i_pf src) = true -> m = m'.
Proof. exact x86_same. Qed.
Print Assumptions C44_x86_same.
Example C44_x86_example : exists m m',
  successful_call (converters (snd (cpu_get (Cpu_x86 ex_regs)))) T64_debug 18 2 ex_bgra ex_i420_601 ex_bgra_wide (zeros [36; 9; 9]) m /\
  successful_call (converters (snd (cpu_get (Cpu_x86 (fun _ => Regs 0 0 0 0))))) T64_debug 18 2 ex_bgra ex_i420_601 ex_bgra_wide (zeros [36; 9; 9]) m'.
Proof. do 2 eexists. split; check_success. Qed.
