(** Properties of convert_image, for the four instruction sets: [converters set] is what
    the dispatch table contains for [set]. Each theorem is followed by its assumptions and
    by a concrete call meeting its hypotheses. *)
From Coq Require Import ZArith List Bool Lia.
Import ListNotations.
From Verif Require Import Base Fmt CpuInfo Lib Sets Spec SimdSpec SetSpec ApiSpec Api PropFacts.
Open Scope Z_scope.

(** ** The calls of the examples *)

(** BGRA 2x2 to NV12 (two planes, a spare byte after the chroma). *)
Definition ex_bgra : image := Image Bgra CsRgb 1 None.
Definition ex_nv12 : image := Image Nv12 Bt601 2 None.
Definition ex_pixels : list (list Z) := [[10; 20; 30; 255; 200; 100; 50; 0; 0; 0; 0; 7; 255; 255; 255; 9]].
Definition ex_nv12_buffers : list (list Z) := [[1; 2; 3; 4]; [5; 6; 77]].

(** I420 2x2 with strides 3, 1 (automatic), 2 to BGRA with stride 12. *)
Definition ex_i420 : image := Image I420 Bt709 3 (Some [3; 0; 2]).
Definition ex_bgra_padded : image := Image Bgra CsRgb 1 (Some [12]).
Definition ex_i420_buffers : list (list Z) := [[16; 235; 3; 100; 200; 6]; [90]; [240; 9]].
Definition ex_padded_buffer : list (list Z) := [repeat 1 24].

(** BGR 3x1 to RGB. *)
Definition ex_bgr : image := Image Bgr CsRgb 1 None.
Definition ex_rgb : image := Image Rgb CsRgb 1 None.
Definition ex_bgr_buffer : list (list Z) := [[1; 2; 3; 4; 5; 6; 7; 8; 9]].
Definition ex_rgb_buffer : list (list Z) := [repeat 0 9].

Ltac check_call :=
  unfold documented_call, well_formed, strides_below, buffers_ok, valid_image, valid_colors,
    enough_planes, image_fits;
  repeat (first [ lia | reflexivity | discriminate | congruence | progress cbn | split | constructor | intros ]).

Example ex_forward_documented :
  documented_call (2 ^ 64) 2 2 ex_bgra ex_nv12 ex_pixels ex_nv12_buffers.
Proof. check_call. Qed.
Example ex_backward_documented :
  documented_call (2 ^ 64) 2 2 ex_i420 ex_bgra_padded ex_i420_buffers ex_padded_buffer.
Proof. check_call. Qed.
Example ex_reorder_documented :
  documented_call (2 ^ 64) 3 1 ex_bgr ex_rgb ex_bgr_buffer ex_rgb_buffer.
Proof. check_call. Qed.

(** ** Calls that follow the documentation *)

(** C38: with valid formats, strides that are 0 or at least the row size and buffers
    of stride * rows bytes, the conversion returns [Ok(())] and the destination contains the
    converted image; there is no error, no panic and no access out of bounds, except that
    SSE2 and AVX2 may read after the end of a BGR source ([over_read]) when the buffer has
    no spare bytes there ([room]). *)
Theorem C38_documented_call_partial : forall set T w h src dst sb db, is_target T ->
  documented_call (usz T) w h src dst sb db ->
  (exists after, convert (converters set) T w h src dst sb db = Ok Success (Mem sb after) /\
     converted (set_cols set (i_pf src) (i_pf dst) w) src dst w h sb db after) \/
  (convert (converters set) T w h src dst sb db = Fault OOB_read /\ ~ room set src dst w h sb).
Proof. exact any_documented. Qed.
Print Assumptions C38_documented_call_partial.
Example C38_example : exists after,
  convert (converters X86) T64_debug 2 2 ex_bgra ex_nv12 ex_pixels ex_nv12_buffers = Ok Success (Mem ex_pixels after) /\
  after = [[35; 99; 16; 235]; [139; 122; 77]].
Proof. eexists. split; vm_compute; reflexivity. Qed.

(** C38: the exception concerns conversions from BGR to YCbCr on SSE2 and AVX2 only. *)
Theorem C38_room : forall set src dst w h sb, image_in 0 src w h sb ->
  set = X86 \/ set = Neon \/ i_pf src <> Bgr \/ is_rgb (i_pf dst) = true -> room set src dst w h sb.
Proof. exact room_inside. Qed.
Print Assumptions C38_room.

(** A BGR image of n x 2 pixels, every byte different from its neighbours. *)
Definition ramp (n : Z) : list Z := map (fun k => (37 * Z.of_nat k) mod 256) (seq 0 (Z.to_nat n)).
Definition ex_nv12_wide (n : Z) : list (list Z) := [repeat 0 (Z.to_nat (2 * n)); repeat 0 (Z.to_nat n)].

(** C38 does not hold in full: a 12x2 (SSE2) or 24x2 (AVX2) BGR image in a buffer of
    exactly the documented size is read after its end. *)
Theorem C38_refuted :
  (exists src dst sb db, documented_call (2 ^ 64) 12 2 src dst sb db /\
     convert (converters Sse2) T64_release 12 2 src dst sb db = Fault OOB_read) /\
  (exists src dst sb db, documented_call (2 ^ 64) 24 2 src dst sb db /\
     convert (converters Avx2) T64_release 24 2 src dst sb db = Fault OOB_read).
Proof.
  split.
  - exists ex_bgr, ex_nv12, [ramp 72], (ex_nv12_wide 12). split; [check_call|vm_compute; reflexivity].
  - exists ex_bgr, ex_nv12, [ramp 144], (ex_nv12_wide 24). split; [check_call|vm_compute; reflexivity].
Qed.
Print Assumptions C38_refuted.

(** C03: such a call is never answered by NotEnoughData (or any other error). *)
Theorem C03_sufficient_buffers_accepted : forall set T w h src dst sb db e m', is_target T ->
  documented_call (usz T) w h src dst sb db ->
  convert (converters set) T w h src dst sb db <> Ok (Err e) m'.
Proof. exact any_accepted. Qed.
Print Assumptions C03_sufficient_buffers_accepted.

(** C32: integer arithmetic never overflows: the only possible fault is the read of
    C38, and builds with and without overflow checks give the same result. *)
Theorem C32_no_overflow : forall set T w h src dst sb db f, is_target T ->
  documented_call (usz T) w h src dst sb db ->
  convert (converters set) T w h src dst sb db = Fault f -> f = OOB_read.
Proof. exact any_fault. Qed.
Print Assumptions C32_no_overflow.
Theorem C32_same_result : forall set T T' w h src dst sb db, is_target T -> usz T' = usz T -> big T' = big T ->
  documented_call (usz T) w h src dst sb db -> room set src dst w h sb ->
  convert (converters set) T w h src dst sb db = convert (converters set) T' w h src dst sb db.
Proof. exact any_targets. Qed.
Print Assumptions C32_same_result.
Example C32_example :
  documented_call (2 ^ 64) 12 2 ex_bgr ex_nv12 [ramp 76] (ex_nv12_wide 12) /\
  room Sse2 ex_bgr ex_nv12 12 2 [ramp 76].
Proof. split; [check_call|]. repeat constructor; vm_compute; discriminate. Qed.

(** ** Errors *)

(** C04: whenever an error is returned, for any arguments, no byte has changed. *)
Theorem C04_errors_change_nothing : forall set T src dst w h ss sb ds db m e m',
  0 <= i_planes src < 2 ^ 32 -> 0 <= i_planes dst < 2 ^ 32 ->
  convert_image (converters set) w h (format_of src) ss sb (format_of dst) ds db T m = Ok (Err e) m' -> m' = m.
Proof. exact any_quiet. Qed.
Print Assumptions C04_errors_change_nothing.
Example C04_example :
  convert (converters X86) T64_debug 2 2 ex_bgra ex_nv12 ex_pixels [[1; 2; 3]; [4; 5]] =
  Ok (Err NotEnoughData) (Mem ex_pixels [[1; 2; 3]; [4; 5]]).
Proof. vm_compute. reflexivity. Qed.

(** C05: which error is returned. *)
Theorem C05_error_classification : forall set T src dst w h ss sb ds db m,
  0 <= i_planes src < 2 ^ 32 -> 0 <= i_planes dst < 2 ^ 32 ->
  let r := convert_image (converters set) w h (format_of src) ss sb (format_of dst) ds db T m in
  let valid := valid_image src w h /\ valid_image dst w h in
  ((exists m', r = Ok (Err InvalidValue) m') <-> ~ valid) /\
  ((exists m', r = Ok (Err InvalidOperation) m') <-> valid /\ supported (i_pf src) (i_pf dst) = false) /\
  ((exists m', r = Ok (Err NotEnoughData) m') -> valid /\ supported (i_pf src) (i_pf dst) = true).
Proof. exact any_errors. Qed.
Print Assumptions C05_error_classification.
Example C05_invalid_value :
  convert (converters X86) T64_debug 3 2 ex_bgra ex_nv12 ex_pixels ex_nv12_buffers = Ok (Err InvalidValue) (Mem ex_pixels ex_nv12_buffers).
Proof. vm_compute. reflexivity. Qed.
Example C05_invalid_operation :
  convert (converters X86) T64_debug 2 2 ex_bgra ex_bgr ex_pixels ex_nv12_buffers = Ok (Err InvalidOperation) (Mem ex_pixels ex_nv12_buffers).
Proof. vm_compute. reflexivity. Qed.

(** C31: an image without pixels is accepted and nothing is read or written, whatever
    the strides and buffers. *)
Theorem C31_empty_image : forall set T src dst w h ss sb ds db m,
  valid_image src w h -> valid_image dst w h -> supported (i_pf src) (i_pf dst) = true ->
  w = 0 \/ h = 0 ->
  convert_image (converters set) w h (format_of src) ss sb (format_of dst) ds db T m = Ok Success m.
Proof. exact any_empty. Qed.
Print Assumptions C31_empty_image.
Example C31_example :
  convert (converters X86) T64_debug 0 7 ex_bgra (Image I444 Bt709FR 3 (Some [])) [] [] = Ok Success (Mem [] []).
Proof. vm_compute. reflexivity. Qed.

(** ** Memory safety *)

(** C01, the part that holds: if both images lie inside of their buffers (and, for
    conversions between packed formats, rows do not overlap), no call accesses
    anything outside of the buffers, overflows or panics, except for the bytes SSE2 and AVX2
    read after a BGR source. Missing: these, and calls whose images do not lie inside of
    their buffers, see the next theorem. *)
Theorem C01_images_inside_buffers_partial : forall set T w h src dst sb db, is_target T ->
  well_formed (usz T) w h src dst sb db ->
  image_in 0 src w h sb -> image_in 0 dst w h db ->
  (is_rgb (i_pf src) && is_rgb (i_pf dst) = true -> rows_apart src w h /\ rows_apart dst w h) ->
  (exists o m', convert (converters set) T w h src dst sb db = Ok o m') \/
  (convert (converters set) T w h src dst sb db = Fault OOB_read /\ ~ room set src dst w h sb).
Proof. exact any_contained. Qed.
Print Assumptions C01_images_inside_buffers_partial.

(** A 1x3 BGRA image with stride 16 in 24 bytes. *)
Definition ex_short_bgra : image := Image Bgra CsRgb 1 (Some [16]).
Definition ex_i444 : image := Image I444 Bt601 3 None.

(** C01 does not hold in full: the size check compares stride + row * (rows - 1) with
    the length (arguments of [out_of_bounds] in the wrong order), so images with
    padding are accepted in buffers that are too small, and accessed. This is so for every
    instruction set; C38_refuted has the reads after BGR sources. *)
Theorem C01_refuted : forall set, exists w h src dst sb db sb' db',
  well_formed (2 ^ 64) w h src dst sb db /\ well_formed (2 ^ 64) w h dst src sb' db' /\
  convert (converters set) T64_release w h src dst sb db = Fault OOB_read /\
  convert (converters set) T64_release w h dst src sb' db' = Fault OOB_write.
Proof.
  intros set. exists 1, 3, ex_short_bgra, ex_i444, [repeat 0 24], [[0;0;0];[0;0;0];[0;0;0]],
    [[0;0;0];[0;0;0];[0;0;0]], [repeat 0 24].
  split; [|split; [|split]]; [check_call|check_call|destruct set; vm_compute; reflexivity|destruct set; vm_compute; reflexivity].
Qed.
Print Assumptions C01_refuted.

(** C02, the part that holds: when a conversion to or from YCbCr is not refused, every
    plane lies inside of its buffer, unless it has only one row and that is longer than the
    stride, or more than two rows with padding. (On 64-bit targets, row sizes never overflow.)
    Missing: these strides, and conversions between packed formats. *)
Theorem C02_accepted_planes_fit_partial : forall set T w h src dst sb db, is_target64 T ->
  well_formed (usz T) w h src dst sb db -> 0 < w -> 0 < h ->
  is_rgb (i_pf src) && is_rgb (i_pf dst) = false ->
  (forall im, im = src \/ im = dst -> i_pf im = Nv12 -> i_planes im = 1 ->
     eff_stride (i_strides im) 0 w * h < 2 ^ 64) ->
  (forall e m', convert (converters set) T w h src dst sb db <> Ok (Err e) m') ->
  forall im bufs, im = src /\ bufs = sb \/ im = dst /\ bufs = db ->
  forall g, In g (image_planes im w h) ->
  (g_rows g = 1 -> g_row g <= g_stride g) -> (2 < g_rows g -> g_stride g <= g_row g) ->
  plane_in 0 bufs g.
Proof. exact any_accepted_fits. Qed.
Print Assumptions C02_accepted_planes_fit_partial.

(** C01 when rows overlap (strides smaller than a row) or are packed: a conversion to or from
    YCbCr is refused or stays inside of the buffers, nothing overflows and nothing panics. *)
Theorem C01_short_strides : forall set T w h src dst sb db, is_target64 T ->
  well_formed (usz T) w h src dst sb db -> 0 < w -> 0 < h ->
  is_rgb (i_pf src) && is_rgb (i_pf dst) = false ->
  (forall im, im = src \/ im = dst -> i_pf im = Nv12 -> i_planes im = 1 ->
     eff_stride (i_strides im) 0 w * h < 2 ^ 64) ->
  (forall im, im = src \/ im = dst -> forall g, In g (image_planes im w h) ->
     (g_rows g = 1 -> g_row g <= g_stride g) /\ (2 < g_rows g -> g_stride g <= g_row g)) ->
  (exists o m', convert (converters set) T w h src dst sb db = Ok o m') \/
  (convert (converters set) T w h src dst sb db = Fault OOB_read /\ ~ room set src dst w h sb).
Proof. exact any_short. Qed.
Print Assumptions C01_short_strides.

(** 2x3 pixels whose rows overlap, in buffers as short as is accepted. *)
Definition ex_overlap_i444 : image := Image I444 Bt601 3 (Some [1; 1; 2]).
Definition ex_overlap_bgra : image := Image Bgra CsRgb 1 (Some [5]).
Example C01_short_example set :
  well_formed (2 ^ 64) 2 3 ex_overlap_i444 ex_overlap_bgra [repeat 9 5; repeat 8 5; repeat 7 6] [repeat 1 21] /\
  (forall im, im = ex_overlap_i444 \/ im = ex_overlap_bgra -> forall g, In g (image_planes im 2 3) ->
     (g_rows g = 1 -> g_row g <= g_stride g) /\ (2 < g_rows g -> g_stride g <= g_row g)) /\
  ~ rows_apart ex_overlap_i444 2 3 /\ ~ rows_apart ex_overlap_bgra 2 3 /\
  (exists m', convert (converters set) T64_debug 2 3 ex_overlap_i444 ex_overlap_bgra
     [repeat 9 5; repeat 8 5; repeat 7 6] [repeat 1 21] = Ok Success m').
Proof.
  split; [check_call|].
  split; [intros im [->| ->] g Hg; cbn in Hg; repeat (destruct Hg as [<-|Hg]; [split; vm_compute; congruence|]); destruct Hg|].
  split; [intros H; inversion_clear H; vm_compute in H0; apply H0; reflexivity|].
  split; [intros H; inversion_clear H; vm_compute in H0; apply H0; reflexivity|].
  destruct set; eexists; vm_compute; reflexivity.
Qed.

(** Between packed formats this is not so: 2x2 RGB pixels with stride 5 make a debug build panic
    (stride minus row size is computed in [usize]), and a release build convert the image. *)
Theorem C01_short_strides_refuted : forall set, exists w h src dst sb db,
  well_formed (2 ^ 64) w h src dst sb db /\ image_in 0 src w h sb /\ image_in 0 dst w h db /\
  convert (converters set) T64_debug w h src dst sb db = Fault Overflow /\
  exists m', convert (converters set) T64_release w h src dst sb db = Ok Success m'.
Proof.
  intros set. exists 2, 2, (Image Rgb CsRgb 1 (Some [5])), (Image Bgra CsRgb 1 None), [repeat 3 11], [repeat 0 16].
  split; [check_call|]. split; [repeat constructor; vm_compute; discriminate|]. split; [repeat constructor; vm_compute; discriminate|].
  split; [destruct set; vm_compute; reflexivity|]. destruct set; eexists; vm_compute; reflexivity.
Qed.
Print Assumptions C01_short_strides_refuted.

(** C02 does not hold in full: a call that is not refused although the source does
    not fit, with custom strides; and one with packed rows (the checks of the
    conversions between packed formats use the width instead of the row size). *)
Theorem C02_refuted : forall set,
  (exists w h src dst sb db, well_formed (2 ^ 64) w h src dst sb db /\
     ~ image_in 0 src w h sb /\
     convert (converters set) T64_release w h src dst sb db = Fault OOB_read) /\
  (exists w h src dst sb db, well_formed (2 ^ 64) w h src dst sb db /\
     i_strides src = None /\ i_strides dst = None /\ ~ image_in 0 src w h sb /\ ~ image_in 0 dst w h db /\
     convert (converters set) T64_release w h src dst sb db = Fault OOB_read).
Proof.
  intros set. split.
  - exists 1, 3, ex_short_bgra, ex_i444, [repeat 0 24], [[0;0;0];[0;0;0];[0;0;0]].
    split; [check_call|]. split; [|destruct set; vm_compute; reflexivity].
    intros H. inversion_clear H. vm_compute in H0. apply H0. reflexivity.
  - exists 2, 2, ex_bgr, ex_rgb, [repeat 0 8], [repeat 0 8].
    split; [check_call|]. split; [reflexivity|]. split; [reflexivity|].
    split; [|split; [|destruct set; vm_compute; reflexivity]]; intros H; inversion_clear H; vm_compute in H0; apply H0; reflexivity.
Qed.
Print Assumptions C02_refuted.

(** ** What a successful conversion has written *)

Ltac check_success :=
  unfold successful_call, is_target;
  split; [left; split; reflexivity|]; split; [change (usz _) with (2 ^ 64); solve [check_call]|]; split; [lia|]; split; [lia|];
  unfold laid_out, image_in, rows_apart, plane_in;
  split; [solve [split; repeat constructor; vm_compute; discriminate]|];
  split; [solve [split; repeat constructor; vm_compute; discriminate]|]; vm_compute; reflexivity.

Example ex_forward_success : successful_call (converters X86) T64_debug 2 2 ex_bgra ex_nv12 ex_pixels ex_nv12_buffers
  (Mem ex_pixels [[35; 99; 16; 235]; [139; 122; 77]]).
Proof. check_success. Qed.
Example ex_backward_success : successful_call (converters X86) T64_debug 2 2 ex_i420 ex_bgra_padded ex_i420_buffers ex_padded_buffer
  (Mem ex_i420_buffers [[0; 0; 201; 255; 175; 203; 255; 255; 1; 1; 1; 1; 18; 46; 255; 255; 134; 163; 255; 255; 1; 1; 1; 1]]).
Proof. check_success. Qed.
Example ex_reorder_success : successful_call (converters X86) T64_debug 3 1 ex_bgr ex_rgb ex_bgr_buffer ex_rgb_buffer
  (Mem ex_bgr_buffer [[3; 2; 1; 6; 5; 4; 9; 8; 7]]).
Proof. check_success. Qed.

(** C14: on the portable kernels, SSE2 and AVX2, every luma byte is the fixed-point luma of
    its pixel; every chroma byte the fixed-point chroma of its pixel (I444) or of its 2x2
    block (I420, NV12). *)
Theorem C14_rgb_to_ycbcr_formula : forall set T w h src dst sb db m',
  successful_call (converters set) T w h src dst sb db m' -> set <> Neon ->
  is_rgb (i_pf src) = true -> is_rgb (i_pf dst) = false ->
  let out p := sample (dsts m') (plane_of dst w h p) in
  let px := pixel src w h sb in
  (forall x y, 0 <= x < w -> 0 <= y < h -> out 0%nat y x = luma (i_cs dst) (px x y)) /\
  (i_pf dst = I444 -> forall x y, 0 <= x < w -> 0 <= y < h ->
     out 1%nat y x = blue_diff (i_cs dst) 1 (px x y) /\ out 2%nat y x = red_diff (i_cs dst) 1 (px x y)) /\
  (i_pf dst = I420 -> forall x y, 0 <= x < w / 2 -> 0 <= y < h / 2 ->
     out 1%nat y x = blue_diff (i_cs dst) 4 (block_sum px x y) /\
     out 2%nat y x = red_diff (i_cs dst) 4 (block_sum px x y)) /\
  (i_pf dst = Nv12 -> forall x y, 0 <= x < w / 2 -> 0 <= y < h / 2 ->
     out 1%nat y (2 * x) = blue_diff (i_cs dst) 4 (block_sum px x y) /\
     out 1%nat y (2 * x + 1) = red_diff (i_cs dst) 4 (block_sum px x y)).
Proof. exact c14_exact. Qed.
Print Assumptions C14_rgb_to_ycbcr_formula.

(** C14: NEON rounds chroma values that are exactly half way between two integers upwards
    in the columns done 8 at a time, and downwards in the others. *)
Theorem C14_neon : forall T w h src dst sb db m',
  successful_call (converters Neon) T w h src dst sb db m' ->
  is_rgb (i_pf src) = true -> is_rgb (i_pf dst) = false ->
  let cb x := if x <? 8 * (w / 8) then blue_diff_up (i_cs dst) else blue_diff (i_cs dst) in
  let cr x := if x <? 8 * (w / 8) then red_diff_up (i_cs dst) else red_diff (i_cs dst) in
  let out p := sample (dsts m') (plane_of dst w h p) in
  let px := pixel src w h sb in
  (forall x y, 0 <= x < w -> 0 <= y < h -> out 0%nat y x = luma (i_cs dst) (px x y)) /\
  (i_pf dst = I444 -> forall x y, 0 <= x < w -> 0 <= y < h ->
     out 1%nat y x = cb x 1 (px x y) /\ out 2%nat y x = cr x 1 (px x y)) /\
  (i_pf dst = I420 -> forall x y, 0 <= x < w / 2 -> 0 <= y < h / 2 ->
     out 1%nat y x = cb (2 * x) 4 (block_sum px x y) /\
     out 2%nat y x = cr (2 * x) 4 (block_sum px x y)) /\
  (i_pf dst = Nv12 -> forall x y, 0 <= x < w / 2 -> 0 <= y < h / 2 ->
     out 1%nat y (2 * x) = cb (2 * x) 4 (block_sum px x y) /\
     out 1%nat y (2 * x + 1) = cr (2 * x) 4 (block_sum px x y)).
Proof. exact c14_neon. Qed.
Print Assumptions C14_neon.

(** The calls below use vector code: BGR 28x2 (24 columns of it), with 8 spare bytes. *)
Definition ex_wide_source : list (list Z) := [ramp 176].
Example C14_wide set : exists m',
  successful_call (converters set) T64_debug 28 2 ex_bgr ex_nv12 ex_wide_source (ex_nv12_wide 28) m' /\
  0 < vector_part set Bgr Nv12 28 \/ set = X86.
Proof.
  eexists. destruct set; [right; reflexivity|left|left|left]; (split; [check_success|reflexivity]).
Qed.

(** C15: every pixel of the result is the saturated fixed-point transform of the
    luma sample of the pixel and of the chroma samples covering it. On SSE2 and AVX2 this
    needs the blue component to be below 512 before saturation. *)
Theorem C15_ycbcr_to_rgb_formula_partial : forall set T w h src dst sb db m',
  successful_call (converters set) T w h src dst sb db m' ->
  is_rgb (i_pf src) = false -> is_rgb (i_pf dst) = true ->
  forall x y, 0 <= x < w -> 0 <= y < h ->
  set = X86 \/ set = Neon \/ blue_fits (i_cs src) (pixel src w h sb x y) ->
  pixel dst w h (dsts m') x y =
  let '(l, cb, cr) := pixel src w h sb x y in ycc_to_rgb (i_cs src) l cb cr.
Proof. exact c15_exact. Qed.
Print Assumptions C15_ycbcr_to_rgb_formula_partial.

(** C15: this is so in the full-range colour spaces, and for samples in the nominal range. *)
Theorem C15_nominal_samples : forall set T w h src dst sb db m',
  successful_call (converters set) T w h src dst sb db m' ->
  is_rgb (i_pf src) = false -> is_rgb (i_pf dst) = true ->
  forall x y, 0 <= x < w -> 0 <= y < h ->
  forall l cb cr, pixel src w h sb x y = (l, cb, cr) ->
  set = X86 \/ set = Neon \/ i_cs src = Bt601FR \/ i_cs src = Bt709FR \/ (l <= 235 /\ cb <= 240) ->
  pixel dst w h (dsts m') x y = ycc_to_rgb (i_cs src) l cb cr.
Proof. exact c15_nominal. Qed.
Print Assumptions C15_nominal_samples.

(** C15: in all cases, in the columns done by vector code the components are those of the
    formula reduced to 16 bits. *)
Theorem C15_every_pixel : forall set T w h src dst sb db m',
  successful_call (converters set) T w h src dst sb db m' ->
  is_rgb (i_pf src) = false -> is_rgb (i_pf dst) = true ->
  forall x y, 0 <= x < w -> 0 <= y < h ->
  pixel dst w h (dsts m') x y =
  let '(l, cb, cr) := pixel src w h sb x y in
  if x <? vector_part set (i_pf src) (i_pf dst) w then ycc_to_rgb_wrap (i_cs src) l cb cr
  else ycc_to_rgb (i_cs src) l cb cr.
Proof. exact c15. Qed.
Print Assumptions C15_every_pixel.

(** I444 17x1, white with the strongest blue difference. *)
Definition ex_blue : list (list Z) := [repeat 255 17; repeat 255 17; repeat 128 17].
Definition ex_i444_16 : image := Image I444 Bt601 3 None.
Definition blues (n : Z) : list (list Z) := [repeat 0 (Z.to_nat (4 * n))].

(** C15 does not hold in full: there, SSE2 and AVX2 give blue = 0 instead of 255, except in
    the last column. *)
Theorem C15_refuted : forall set, set = Sse2 \/ set = Avx2 -> exists w h src dst sb db m',
  successful_call (converters set) T64_release w h src dst sb db m' /\
  is_rgb (i_pf src) = false /\ is_rgb (i_pf dst) = true /\
  pixel src w h sb 0 0 = (255, 255, 128) /\ pixel src w h sb 16 0 = (255, 255, 128) /\
  ycc_to_rgb (i_cs src) 255 255 128 = (255, 229, 255) /\
  pixel dst w h (dsts m') 0 0 = (255, 229, 0) /\ pixel dst w h (dsts m') 16 0 = (255, 229, 255).
Proof.
  intros set H. exists 17, 1, ex_i444_16, ex_bgra, ex_blue, (blues 17).
  destruct H as [-> | ->]; eexists; (split; [check_success|]); vm_compute; auto 10.
Qed.
Print Assumptions C15_refuted.

(** C20: written alpha bytes are 255. *)
Theorem C20_alpha_opaque : forall set T w h src dst sb db m',
  successful_call (converters set) T w h src dst sb db m' ->
  i_pf dst = Bgra \/ i_pf dst = Rgba ->
  forall x y, 0 <= x < w -> 0 <= y < h -> sample (dsts m') (plane_of dst w h 0) y (4 * x + 3) = 255.
Proof. exact c20_opaque. Qed.
Print Assumptions C20_alpha_opaque.

(** C20: sources with the same colours ([pixel] does not look at alpha bytes) give
    the same destination bytes. *)
Theorem C20_alpha_ignored : forall set T T' w h src src' dst sb sb' db m1 m2,
  successful_call (converters set) T w h src dst sb db m1 ->
  successful_call (converters set) T' w h src' dst sb' db m2 ->
  i_pf src = i_pf src' -> i_cs src = i_cs src' ->
  (forall x y, 0 <= x < w -> 0 <= y < h -> pixel src w h sb x y = pixel src' w h sb' x y) ->
  dsts m1 = dsts m2.
Proof. exact c20_ignored. Qed.
Print Assumptions C20_alpha_ignored.
Definition ex_pixels_alpha : list (list Z) := [[10; 20; 30; 1; 200; 100; 50; 2; 0; 0; 0; 3; 255; 255; 255; 4]].
Example C20_example :
  successful_call (converters X86) T64_debug 2 2 ex_bgra ex_nv12 ex_pixels_alpha ex_nv12_buffers
    (Mem ex_pixels_alpha [[35; 99; 16; 235]; [139; 122; 77]]) /\
  pixel ex_bgra 2 2 ex_pixels 1 0 = pixel ex_bgra 2 2 ex_pixels_alpha 1 0.
Proof. split; [check_success|reflexivity]. Qed.

(** C21: conversions between packed formats copy the colour of every pixel. *)
Theorem C21_reordering_exact : forall set T w h src dst sb db m',
  successful_call (converters set) T w h src dst sb db m' ->
  is_rgb (i_pf src) = true -> is_rgb (i_pf dst) = true ->
  forall x y, 0 <= x < w -> 0 <= y < h -> pixel dst w h (dsts m') x y = pixel src w h sb x y.
Proof. exact c21. Qed.
Print Assumptions C21_reordering_exact.

(** C21: RGB to BGRA to RGB is the identity on pixels. *)
Theorem C21_round_trip : forall set set' T T' w h src mid dst sb mb db m1 m2,
  successful_call (converters set) T w h src mid sb mb m1 ->
  successful_call (converters set') T' w h mid dst (dsts m1) db m2 ->
  is_rgb (i_pf src) = true -> is_rgb (i_pf mid) = true -> is_rgb (i_pf dst) = true ->
  forall x y, 0 <= x < w -> 0 <= y < h -> pixel dst w h (dsts m2) x y = pixel src w h sb x y.
Proof. exact c21_round_trip. Qed.
Print Assumptions C21_round_trip.
Example C21_example : exists m1 m2,
  successful_call (converters X86) T64_debug 3 1 ex_rgb ex_bgra ex_bgr_buffer [repeat 7 12] m1 /\
  successful_call (converters X86) T64_debug 3 1 ex_bgra ex_rgb (dsts m1) ex_rgb_buffer m2.
Proof.
  exists (Mem ex_bgr_buffer [[3; 2; 1; 255; 6; 5; 4; 255; 9; 8; 7; 255]]).
  exists (Mem [[3; 2; 1; 255; 6; 5; 4; 255; 9; 8; 7; 255]] ex_bgr_buffer).
  split; check_success.
Qed.

(** C22: only bytes of the destination image change: row padding, bytes after the
    last row and further buffers keep their value; the sources too. *)
Theorem C22_only_image_written : forall set T w h src dst sb db m',
  successful_call (converters set) T w h src dst sb db m' ->
  srcs m' = sb /\ map (@length Z) (dsts m') = map (@length Z) db /\
  (forall n a, 0 <= a < buf_len db n -> ~ in_image dst w h n a ->
     nth (Z.to_nat a) (nth n (dsts m') []) 0 = nth (Z.to_nat a) (nth n db []) 0).
Proof. exact c22. Qed.
Print Assumptions C22_only_image_written.

(** C23 and C36: a sample of the result only depends on the colours of the pixels it
    covers: neither on the other pixels, nor on strides, padding, number of planes,
    previous contents or the target. *)
Theorem C36_samples_local : forall set T T' w h src src' dst dst' sb sb' db db' m1 m2,
  successful_call (converters set) T w h src dst sb db m1 ->
  successful_call (converters set) T' w h src' dst' sb' db' m2 ->
  i_pf src = i_pf src' -> i_cs src = i_cs src' -> i_pf dst = i_pf dst' -> i_cs dst = i_cs dst' ->
  forall p y j, (p < length (image_planes dst w h))%nat -> 0 <= y < g_rows (plane_of dst w h p) ->
  0 <= j < g_row (plane_of dst w h p) ->
  (forall px py, 0 <= px < w -> 0 <= py < h -> covers (i_pf dst) p y j px py ->
     pixel src w h sb px py = pixel src' w h sb' px py) ->
  sample (dsts m1) (plane_of dst w h p) y j = sample (dsts m2) (plane_of dst' w h p) y j.
Proof. exact c23. Qed.
Print Assumptions C36_samples_local.

(** C23: so equal images give equal images, whatever their layouts. *)
Theorem C23_layout_independent : forall set T T' w h src src' dst dst' sb sb' db db' m1 m2,
  successful_call (converters set) T w h src dst sb db m1 ->
  successful_call (converters set) T' w h src' dst' sb' db' m2 ->
  i_pf src = i_pf src' -> i_cs src = i_cs src' -> i_pf dst = i_pf dst' -> i_cs dst = i_cs dst' ->
  (forall x y, 0 <= x < w -> 0 <= y < h -> pixel src w h sb x y = pixel src' w h sb' x y) ->
  forall p y j, (p < length (image_planes dst w h))%nat -> 0 <= y < g_rows (plane_of dst w h p) ->
  0 <= j < g_row (plane_of dst w h p) ->
  sample (dsts m1) (plane_of dst w h p) y j = sample (dsts m2) (plane_of dst' w h p) y j.
Proof. exact c23_layout. Qed.
Print Assumptions C23_layout_independent.
(** The same 2x2 image with stride 9, converted to one-plane NV12 with stride 3. *)
Definition ex_bgra9 : image := Image Bgra CsRgb 1 (Some [9]).
Definition ex_nv12_one : image := Image Nv12 Bt601 1 (Some [3]).
Definition ex_pixels9 : list (list Z) := [[10; 20; 30; 255; 200; 100; 50; 0; 77; 0; 0; 0; 7; 255; 255; 255; 9; 78]].
Example C23_example : exists m',
  successful_call (converters X86) T64_release 2 2 ex_bgra9 ex_nv12_one ex_pixels9 [repeat 1 10] m' /\
  dsts m' = [[35; 99; 1; 16; 235; 1; 139; 122; 1; 1]] /\
  (forall x y, 0 <= x < 2 -> 0 <= y < 2 -> pixel ex_bgra9 2 2 ex_pixels9 x y = pixel ex_bgra 2 2 ex_pixels x y).
Proof.
  exists (Mem ex_pixels9 [[35; 99; 1; 16; 235; 1; 139; 122; 1; 1]]).
  split; [|split; [reflexivity|]]; [check_success|].
  intros x y Hx Hy. assert (x = 0 \/ x = 1) as [->| ->] by lia; assert (y = 0 \/ y = 1) as [->| ->] by lia; reflexivity.
Qed.

(** C24: NV12 chroma is the interleaving of the I420 chroma planes (one or two NV12
    planes: C23). *)
Theorem C24_nv12_interleaves_i420 : forall set T T' w h src nv i420 sb nb ib m1 m2,
  successful_call (converters set) T w h src nv sb nb m1 ->
  successful_call (converters set) T' w h src i420 sb ib m2 ->
  is_rgb (i_pf src) = true -> i_pf nv = Nv12 -> i_pf i420 = I420 -> i_cs nv = i_cs i420 ->
  (forall x y, 0 <= x < w -> 0 <= y < h ->
     sample (dsts m1) (plane_of nv w h 0) y x = sample (dsts m2) (plane_of i420 w h 0) y x) /\
  (forall x y, 0 <= x < w / 2 -> 0 <= y < h / 2 ->
     sample (dsts m1) (plane_of nv w h 1) y (2 * x) = sample (dsts m2) (plane_of i420 w h 1) y x /\
     sample (dsts m1) (plane_of nv w h 1) y (2 * x + 1) = sample (dsts m2) (plane_of i420 w h 2) y x).
Proof. exact c24_i420. Qed.
Print Assumptions C24_nv12_interleaves_i420.
Example C24_example : successful_call (converters X86) T64_debug 2 2 ex_bgra (Image I420 Bt601 3 None) ex_pixels [[1; 2; 3; 4]; [5]; [6]]
  (Mem ex_pixels [[35; 99; 16; 235]; [139]; [122]]).
Proof. check_success. Qed.

(** C24: NV12 and I420 sources with equal samples give equal pixels. *)
Theorem C24_equal_sources : forall set T T' w h s1 s2 dst dst' sb1 sb2 db db' m1 m2,
  successful_call (converters set) T w h s1 dst sb1 db m1 ->
  successful_call (converters set) T' w h s2 dst' sb2 db' m2 ->
  i_pf s1 = Nv12 \/ i_pf s1 = I420 -> i_pf s2 = Nv12 \/ i_pf s2 = I420 -> i_cs s1 = i_cs s2 ->
  i_pf dst = i_pf dst' ->
  forall x y, 0 <= x < w -> 0 <= y < h -> pixel s1 w h sb1 x y = pixel s2 w h sb2 x y ->
  pixel dst w h (dsts m1) x y = pixel dst' w h (dsts m2) x y.
Proof. exact c24_source. Qed.
Print Assumptions C24_equal_sources.

(** C24: so do sources and destinations of any formats, I444 included, when no blue component reaches
    512 (or on instruction sets where this does not matter). *)
Theorem C24_equal_sources_all_formats : forall set set' T T' w h s1 s2 dst dst' sb1 sb2 db db' m1 m2,
  successful_call (converters set) T w h s1 dst sb1 db m1 ->
  successful_call (converters set') T' w h s2 dst' sb2 db' m2 ->
  is_rgb (i_pf s1) = false -> is_rgb (i_pf s2) = false -> i_cs s1 = i_cs s2 ->
  is_rgb (i_pf dst) = true -> is_rgb (i_pf dst') = true ->
  forall x y, 0 <= x < w -> 0 <= y < h -> pixel s1 w h sb1 x y = pixel s2 w h sb2 x y ->
  (set = X86 \/ set = Neon \/ blue_fits (i_cs s1) (pixel s1 w h sb1 x y)) ->
  (set' = X86 \/ set' = Neon \/ blue_fits (i_cs s1) (pixel s1 w h sb1 x y)) ->
  pixel dst w h (dsts m1) x y = pixel dst' w h (dsts m2) x y.
Proof. exact c24_fits. Qed.
Print Assumptions C24_equal_sources_all_formats.

(** ** Instruction sets against each other *)

(** C25: from RGB to YCbCr, the portable kernels, SSE2 and AVX2 give the same bytes. *)
Theorem C25_same_bytes_partial : forall set set' T T' w h src dst sb db m1 m2,
  successful_call (converters set) T w h src dst sb db m1 ->
  successful_call (converters set') T' w h src dst sb db m2 ->
  is_rgb (i_pf src) = true -> set <> Neon -> set' <> Neon -> m1 = m2.
Proof. exact c25. Qed.
Print Assumptions C25_same_bytes_partial.
(** C14_wide shows such calls. *)

(** C25: with NEON, the luma bytes are the same and the chroma bytes differ by at most 1. *)
Theorem C25_near : forall set set' T T' w h src dst sb db m1 m2,
  successful_call (converters set) T w h src dst sb db m1 ->
  successful_call (converters set') T' w h src dst sb db m2 ->
  is_rgb (i_pf src) = true -> is_rgb (i_pf dst) = false ->
  (forall x y, 0 <= x < w -> 0 <= y < h ->
     sample (dsts m1) (plane_of dst w h 0) y x = sample (dsts m2) (plane_of dst w h 0) y x) /\
  (forall p y j, (p < length (image_planes dst w h))%nat -> 0 <= y < g_rows (plane_of dst w h p) ->
     0 <= j < g_row (plane_of dst w h p) ->
     Z.abs (sample (dsts m1) (plane_of dst w h p) y j - sample (dsts m2) (plane_of dst w h p) y j) <= 1).
Proof. exact c25_near. Qed.
Print Assumptions C25_near.

(** C25 does not hold in full: an exact half, on NEON and on the others. *)
Theorem C25_refuted : exists w h src dst sb db m1 m2,
  successful_call (converters Neon) T64_release w h src dst sb db m1 /\
  successful_call (converters X86) T64_release w h src dst sb db m2 /\
  is_rgb (i_pf src) = true /\ is_rgb (i_pf dst) = false /\
  tie (cb_weights (i_cs dst)) 1 (pixel src w h sb 0 0) /\
  dsts m1 = [repeat 94 8; repeat 97 8; repeat 71 8] /\ dsts m2 = [repeat 94 8; repeat 96 8; repeat 71 8].
Proof.
  exists 8, 1, ex_bgra, ex_i444_16, [concat (repeat [27; 149; 0; 255] 8)], [repeat 0 8; repeat 0 8; repeat 0 8].
  do 2 eexists. split; [check_success|]. split; [check_success|]. vm_compute. auto 10.
Qed.
Print Assumptions C25_refuted.

(** C26: from YCbCr to RGB, the portable kernels and NEON give the same bytes; SSE2 and
    AVX2 too if no blue component reaches 512. *)
Theorem C26_same_bytes_partial : forall set set' T T' w h src dst sb db m1 m2,
  successful_call (converters set) T w h src dst sb db m1 ->
  successful_call (converters set') T' w h src dst sb db m2 ->
  is_rgb (i_pf src) = false ->
  (set = X86 \/ set = Neon) /\ (set' = X86 \/ set' = Neon) \/
  (forall x y, 0 <= x < w -> 0 <= y < h -> blue_fits (i_cs src) (pixel src w h sb x y)) -> m1 = m2.
Proof. exact c26. Qed.
Print Assumptions C26_same_bytes_partial.

(** C26: so all sets agree in the full-range colour spaces and on samples in the nominal range. *)
Theorem C26_nominal_samples : forall set set' T T' w h src dst sb db m1 m2,
  successful_call (converters set) T w h src dst sb db m1 ->
  successful_call (converters set') T' w h src dst sb db m2 ->
  is_rgb (i_pf src) = false ->
  i_cs src = Bt601FR \/ i_cs src = Bt709FR \/
  (forall x y, 0 <= x < w -> 0 <= y < h -> let '(l, cb, _) := pixel src w h sb x y in l <= 235 /\ cb <= 240) -> m1 = m2.
Proof. exact c26_nominal. Qed.
Print Assumptions C26_nominal_samples.

(** A 34x2 image, 32 columns of which are done by vector code on SSE2 and AVX2. *)
Definition ex_nv12_full : image := Image Nv12 Bt709FR 1 None.
Example C26_example set :
  (exists m', successful_call (converters set) T64_debug 34 2 ex_nv12_full ex_bgra [ramp 102] [repeat 0 272] m') /\
  (set = Sse2 \/ set = Avx2 -> vector_part set Nv12 Bgra 34 = 32).
Proof. split; [|intros [-> | ->]; reflexivity]. eexists. destruct set; check_success. Qed.

(** C26 does not hold in full. *)
Theorem C26_refuted : forall set, set = Sse2 \/ set = Avx2 -> exists w h src dst sb db m1 m2,
  successful_call (converters set) T64_release w h src dst sb db m1 /\
  successful_call (converters X86) T64_release w h src dst sb db m2 /\
  is_rgb (i_pf src) = false /\
  pixel dst w h (dsts m1) 0 0 = (255, 229, 0) /\ pixel dst w h (dsts m2) 0 0 = (255, 229, 255).
Proof.
  intros set H. exists 17, 1, ex_i444_16, ex_bgra, ex_blue, (blues 17).
  destruct H as [-> | ->]; do 2 eexists; (split; [check_success|]); (split; [check_success|]); vm_compute; auto 10.
Qed.
Print Assumptions C26_refuted.

(** C27: conversions between packed formats give the same bytes on every instruction set. *)
Theorem C27_same_bytes : forall set set' T T' w h src dst sb db m1 m2,
  successful_call (converters set) T w h src dst sb db m1 ->
  successful_call (converters set') T' w h src dst sb db m2 ->
  is_rgb (i_pf src) = true -> is_rgb (i_pf dst) = true -> m1 = m2.
Proof. exact c27. Qed.
Print Assumptions C27_same_bytes.
Example C27_example set : exists m',
  successful_call (converters set) T64_debug 37 1 ex_rgb ex_bgra [ramp 111] [repeat 0 148] m'.
Proof. eexists. destruct set; check_success. Qed.
