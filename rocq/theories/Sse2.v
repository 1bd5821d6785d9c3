(** Model of src/convert_image/sse2.rs.

    Registers and intrinsics are those of [Simd].  [loadu(p.add(i))] of a register is
    [ldn s i 16]; a function of the repository that ends in [storeu(image, r)] is
    modelled by the bytes [r] it stores, the store itself being written at the place of
    the call.  Conventions for indices as in [Scalar]. *)
From Coq Require Import ZArith List Bool.
Import ListNotations.
From Verif Require Import Base Common Scalar Wrappers Simd Vector.
Open Scope Z_scope.

(** sse2.rs:46 *)
Definition LANE_COUNT : Z := 16.
(** sse2.rs:47, 49: [LANE_COUNT / RGB_TO_YUV_WG_SIZE] *)
Definition RGB_TO_YUV_WAVES : Z := LANE_COUNT / 4.
(** sse2.rs:48, 50: [LANE_COUNT / YUV_TO_RGB_WG_SIZE] *)
Definition YUV_TO_RGB_WAVES : Z := LANE_COUNT / 1.

(** sse2.rs:53-55 *)
Definition mm_shuffle (z y x w : Z) : Z :=
  Z.lor (Z.lor (Z.lor (Z.shiftl z 6) (Z.shiftl y 4)) (Z.shiftl x 2)) w.

(** sse2.rs:57-61 *)
Definition zero : reg := setzero 16.

(** sse2.rs:63-67 *)
Definition xcgh_odd_even_words : Z := mm_shuffle 2 3 0 1.

(** sse2.rs:152-156 *)
Definition fix_to_i32_4x (fix_ : reg) (frac_bits : Z) : reg := srai_epi32 fix_ frac_bits.
(** sse2.rs:159-163 *)
Definition fix_to_i16_8x (fix_ : reg) (frac_bits : Z) : reg := srai_epi16 fix_ frac_bits.

(** sse2.rs:171-173 *)
Definition i16_to_i16x2_8x (x : reg) : reg * reg := (unpacklo 2 x x, unpackhi 2 x x).

(** sse2.rs:181-184; [_mm_set1_epi64x] repeats its 8 bytes *)
Definition unpack_ui8_i16be_8x (s : slice) (image : Z) : M reg :=
  q <- ldn s image 8 ;;
  let x := q ++ q in
  ret (unpacklo 1 zero x).

(** sse2.rs:193-199 *)
Definition unpack_ui8x2_i16be_8x (s : slice) (image : Z) : M (reg * reg) :=
  x <- ldn s image 16 ;;
  ret (slli_epi16 x 8, slli_epi16 (srli_epi16 x 8) 8).

(** sse2.rs:210-229: the 16 bytes stored at [image] and the 16 bytes after them *)
Definition pack_i16x3_8x (reversed : bool) (red green blue : reg) : reg * reg :=
  let x := if reversed then packus_epi16 red blue else packus_epi16 blue red in
  let y := packus_epi16 green (srli_epi16 (cmpeq_epi32 zero zero) 8) in
  let z := unpacklo 1 x y in
  let w := unpackhi 1 x y in
  (unpacklo 2 z w, unpackhi 2 z w).

(** The two stores of [pack_i16x3_8x]: sse2.rs:226-228 *)
Definition store_i16x3_8x (reversed : bool) (dst : slice) (image : Z) (red green blue : reg)
  : M unit :=
  let '(a, b) := pack_i16x3_8x reversed red green blue in
  stn dst image a ;; stn dst (image + 16) b.

(** sse2.rs:241-272: the register holds the bytes at [image] *)
Definition unpack_ui8x3_i16x2_4x (smp : sampler) (line : reg) : reg * reg :=
  match smp with
  | S_Bgr =>
      let line := unpacklo 8 (unpacklo 4 line (srli_si128 line 3))
                             (unpacklo 4 (srli_si128 line 6) (srli_si128 line 9)) in
      let red := srli_epi32 (slli_epi32 line 8) 24 in
      let blue := srli_epi32 (slli_epi32 line 24) 24 in
      let green := srli_epi32 (slli_epi32 (srli_epi32 line 8) 24) 8 in
      (or_si red green, or_si blue green)
  | S_Argb =>
      let red := srli_epi32 (slli_epi32 line 16) 24 in
      let blue := srli_epi32 line 24 in
      let green := srli_epi32 (slli_epi32 (srli_epi32 line 16) 24) 8 in
      (or_si red green, or_si blue green)
  | S_Bgra =>
      let red := srli_epi32 (slli_epi32 line 8) 24 in
      let blue := srli_epi32 (slli_epi32 line 24) 24 in
      let green := srli_epi32 (slli_epi32 (srli_epi32 line 8) 24) 8 in
      (or_si red green, or_si blue green)
  end.

(** sse2.rs:275-298: the 16 bytes stored at [output_buffer] *)
Definition rgb_to_bgra_4x (input : reg) : reg :=
  let alpha_mask := set1_epi32 4 0xff in
  let aligned_line := unpacklo 8 (unpacklo 4 (slli_si128 input 1) (srli_si128 input 2))
                                 (unpacklo 4 (srli_si128 input 5) (srli_si128 input 8)) in
  let res := or_si aligned_line alpha_mask in
  let shr := srli_epi16 res 8 in
  let shl := slli_epi16 res 8 in
  let ored := or_si shl shr in
  let pshuf32 := shuffle_epi32 ored (mm_shuffle 1 0 3 2) in
  let pshufl16 := shufflelo_epi16 pshuf32 (mm_shuffle 0 1 2 3) in
  let pshufh16 := shufflehi_epi16 pshufl16 (mm_shuffle 0 1 2 3) in
  shuffle_epi32 pshufh16 (mm_shuffle 0 1 2 3).

(** sse2.rs:305-309: the 4 bytes stored at [image] ([_mm_cvtsi128_si32] takes the
    lowest 32 bits) *)
Definition pack_i32_4x (red : reg) : list Z :=
  let y := packs_epi32 red red in
  let z := packus_epi16 y y in
  firstn 4 z.

(** sse2.rs:312-320 *)
Definition affine_transform_4x (xy zy : reg) (weights : reg * reg * reg) : reg :=
  let '(w0, w1, w2) := weights in
  add_epi32 (add_epi32 (madd_epi16 xy w0) (madd_epi16 zy w1)) w2.

(** sse2.rs:333-338 *)
Definition sum_i16x2_neighborhood_2x (xy0 xy1 : reg) : reg :=
  add_epi16 (add_epi16 xy0 (shuffle_epi32 xy0 xcgh_odd_even_words))
            (add_epi16 xy1 (shuffle_epi32 xy1 xcgh_odd_even_words)).

(** sse2.rs:342-368 *)
Definition rgb_to_yuv_4x (smp : sampler) (src : slice) (rgb0 rgb1 : Z)
           (ybuf : slice) (y0 y1 : Z) (uvbuf : slice) (uv : Z)
           (y_weights uv_weights : reg * reg * reg) : M unit :=
  l0 <- ldn src rgb0 16 ;;
  let '(rg0, bg0) := unpack_ui8x3_i16x2_4x smp l0 in
  stn ybuf y0 (pack_i32_4x (fix_to_i32_4x (affine_transform_4x rg0 bg0 y_weights) FIX16)) ;;
  l1 <- ldn src rgb1 16 ;;
  let '(rg1, bg1) := unpack_ui8x3_i16x2_4x smp l1 in
  stn ybuf y1 (pack_i32_4x (fix_to_i32_4x (affine_transform_4x rg1 bg1 y_weights) FIX16)) ;;
  let srg := sum_i16x2_neighborhood_2x rg0 rg1 in
  let sbg := sum_i16x2_neighborhood_2x bg0 bg1 in
  let t := affine_transform_4x srg sbg uv_weights in
  stn uvbuf uv (pack_i32_4x (fix_to_i32_4x t FIX18)).

(** sse2.rs:371-414 *)
Definition rgb_to_i420_4x (smp : sampler) (src : slice) (rgb0 rgb1 : Z)
           (ybuf : slice) (y0 y1 : Z) (ubuf : slice) (u : Z) (vbuf : slice) (v : Z)
           (y_weights uv_weights : reg * reg * reg) : M unit :=
  l0 <- ldn src rgb0 16 ;;
  let '(rg0, bg0) := unpack_ui8x3_i16x2_4x smp l0 in
  stn ybuf y0 (pack_i32_4x (fix_to_i32_4x (affine_transform_4x rg0 bg0 y_weights) FIX16)) ;;
  l1 <- ldn src rgb1 16 ;;
  let '(rg1, bg1) := unpack_ui8x3_i16x2_4x smp l1 in
  stn ybuf y1 (pack_i32_4x (fix_to_i32_4x (affine_transform_4x rg1 bg1 y_weights) FIX16)) ;;
  let srg := sum_i16x2_neighborhood_2x rg0 rg1 in
  let sbg := sum_i16x2_neighborhood_2x bg0 bg1 in
  let t := affine_transform_4x srg sbg uv_weights in
  let shuff := shuffle_epi32 (fix_to_i32_4x t FIX18) (mm_shuffle 3 1 2 0) in
  let packed_to_32 := packs_epi32 shuff shuff in
  let packed_to_16 := packus_epi16 packed_to_32 packed_to_32 in
  let uv_res := firstn 4 packed_to_16 in
  stn ubuf u (firstn 2 uv_res) ;;
  stn vbuf v (skipn 2 uv_res).

(** sse2.rs:417-437 *)
Definition rgb_to_i444_4x (smp : sampler) (src : slice) (rgb : Z)
           (ybuf : slice) (y : Z) (ubuf : slice) (u : Z) (vbuf : slice) (v : Z)
           (y_weights u_weights v_weights : reg * reg * reg) : M unit :=
  l <- ldn src rgb 16 ;;
  let '(rg, bg) := unpack_ui8x3_i16x2_4x smp l in
  stn ybuf y (pack_i32_4x (fix_to_i32_4x (affine_transform_4x rg bg y_weights) FIX16)) ;;
  let tu := affine_transform_4x rg bg u_weights in
  let tv := affine_transform_4x rg bg v_weights in
  stn ubuf u (pack_i32_4x (fix_to_i32_4x tu FIX16)) ;;
  stn vbuf v (pack_i32_4x (fix_to_i32_4x tv FIX16)).

(** sse2.rs:453-458, 500-505, 549-554 *)
Definition y_weights_4x (c : colorimetry) : reg * reg * reg :=
  (set1_epi32 4 (fw c 0), set1_epi32 4 (fw c 1), set1_epi32 4 (fw c 6)).
(** sse2.rs:460-464, 507-511 *)
Definition uv_weights_4x (c : colorimetry) : reg * reg * reg :=
  (set_epi32 [fw c 2; fw c 3; fw c 2; fw c 3], set_epi32 [fw c 4; fw c 5; fw c 4; fw c 5],
   set1_epi32 4 (FIX18_C_HALF + (FIX18_HALF - 1))).
(** sse2.rs:556-560 *)
Definition u_weights_4x (c : colorimetry) : reg * reg * reg :=
  (set1_epi32 4 (fw c 3), set1_epi32 4 (fw c 5),
   set1_epi32 4 (FIX16_C_HALF + (FIX16_HALF - 1))).
(** sse2.rs:562-566 *)
Definition v_weights_4x (c : colorimetry) : reg * reg * reg :=
  (set1_epi32 4 (fw c 2), set1_epi32 4 (fw c 4),
   set1_epi32 4 (FIX16_C_HALF + (FIX16_HALF - 1))).

(** sse2.rs:441-486 *)
Definition rgb_to_nv12_sse2 (smp : sampler) (depth : Z) (c : colorimetry) : kernel_1_2 :=
  fun width height src_stride src dst_strides dst =>
  let '(y_stride, uv_stride) := dst_strides in
  let '(ybuf, uvbuf) := dst in
  let src_depth := depth * RGB_TO_YUV_WAVES in
  for_ (height / 2) (fun y => for_ (width / RGB_TO_YUV_WAVES) (fun x =>
    i0 <- wg_index x (2 * y) src_depth src_stride ;;
    i1 <- wg_index x (2 * y + 1) src_depth src_stride ;;
    o0 <- wg_index x (2 * y) RGB_TO_YUV_WAVES y_stride ;;
    o1 <- wg_index x (2 * y + 1) RGB_TO_YUV_WAVES y_stride ;;
    o <- wg_index x y RGB_TO_YUV_WAVES uv_stride ;;
    rgb_to_yuv_4x smp src i0 i1 ybuf o0 o1 uvbuf o (y_weights_4x c) (uv_weights_4x c))).

(** sse2.rs:490-535 *)
Definition rgb_to_i420_sse2 (smp : sampler) (depth : Z) (c : colorimetry) : kernel_1_3 :=
  fun width height src_stride src dst_strides dst =>
  let '(y_stride, u_stride, v_stride) := dst_strides in
  let '(ybuf, ubuf, vbuf) := dst in
  let src_depth := depth * RGB_TO_YUV_WAVES in
  for_ (height / 2) (fun y => for_ (width / RGB_TO_YUV_WAVES) (fun x =>
    i0 <- wg_index x (2 * y) src_depth src_stride ;;
    i1 <- wg_index x (2 * y + 1) src_depth src_stride ;;
    o0 <- wg_index x (2 * y) RGB_TO_YUV_WAVES y_stride ;;
    o1 <- wg_index x (2 * y + 1) RGB_TO_YUV_WAVES y_stride ;;
    ou <- wg_index x y (RGB_TO_YUV_WAVES / 2) u_stride ;;
    ov <- wg_index x y (RGB_TO_YUV_WAVES / 2) v_stride ;;
    rgb_to_i420_4x smp src i0 i1 ybuf o0 o1 ubuf ou vbuf ov (y_weights_4x c) (uv_weights_4x c))).

(** sse2.rs:539-588 *)
Definition rgb_to_i444_sse2 (smp : sampler) (depth : Z) (c : colorimetry) : kernel_1_3 :=
  fun width height src_stride src dst_strides dst =>
  let '(y_stride, u_stride, v_stride) := dst_strides in
  let '(ybuf, ubuf, vbuf) := dst in
  let rgb_depth := depth * RGB_TO_YUV_WAVES in
  for_ height (fun y => for_ (width / RGB_TO_YUV_WAVES) (fun x =>
    i <- wg_index x y rgb_depth src_stride ;;
    oy <- wg_index x y RGB_TO_YUV_WAVES y_stride ;;
    ou <- wg_index x y RGB_TO_YUV_WAVES u_stride ;;
    ov <- wg_index x y RGB_TO_YUV_WAVES v_stride ;;
    rgb_to_i444_4x smp src i ybuf oy ubuf ou vbuf ov
                   (y_weights_4x c) (u_weights_4x c) (v_weights_4x c))).

(** [set1_epi16(weights[i])]: sse2.rs:605-613, 696-704, 788-796 *)
Definition bw8 (c : colorimetry) (i : nat) : reg := set1_epi16 8 (bw c i).

(** sse2.rs:627-632, 719-724, 824-829: the chroma terms (sr, sg, sb) *)
Definition chroma_8x (c : colorimetry) (cb cr : reg) : reg * reg * reg :=
  (sub_epi16 (mulhi_epu16 cr (bw8 c 1)) (bw8 c 5),
   sub_epi16 (bw8 c 6) (add_epi16 (mulhi_epu16 cb (bw8 c 3)) (mulhi_epu16 cr (bw8 c 2))),
   sub_epi16 (mulhi_epu16 cb (bw8 c 4)) (bw8 c 7)).

(** sse2.rs:641-646 and the like: one group of eight pixels; [y] is the luma term *)
Definition pixels_8x (reversed : bool) (dst : slice) (o : Z) (sr sg sb y : reg) : M unit :=
  store_i16x3_8x reversed dst o (fix_to_i16_8x (add_epi16 sr y) FIX6)
                 (fix_to_i16_8x (add_epi16 sg y) FIX6) (fix_to_i16_8x (add_epi16 sb y) FIX6).

(** sse2.rs:627-677 and 719-770 (the same text): a tile of 16 x 2 pixels, once the chroma
    samples are loaded *)
Definition tile_16x2 (c : colorimetry) (reversed : bool) (ybuf : slice) (y_stride : Z)
           (dst : slice) (dst_stride x y : Z) (cb cr : reg) : M unit :=
  let '(sr, sg, sb) := chroma_8x c cb cr in
  let '(sb_lo, sb_hi) := i16_to_i16x2_8x sb in
  let '(sr_lo, sr_hi) := i16_to_i16x2_8x sr in
  let '(sg_lo, sg_hi) := i16_to_i16x2_8x sg in
  let xxym := bw8 c 0 in
  i0 <- wg_index x (2 * y) YUV_TO_RGB_WAVES y_stride ;;
  y0 <- ldn ybuf i0 16 ;;
  let y00 := mulhi_epu16 (unpacklo 1 zero y0) xxym in
  o00 <- wg_index (2 * x) (2 * y) (2 * YUV_TO_RGB_WAVES) dst_stride ;;
  pixels_8x reversed dst o00 sr_lo sg_lo sb_lo y00 ;;
  let y10 := mulhi_epu16 (unpackhi 1 zero y0) xxym in
  o10 <- wg_index (2 * x + 1) (2 * y) (2 * YUV_TO_RGB_WAVES) dst_stride ;;
  pixels_8x reversed dst o10 sr_hi sg_hi sb_hi y10 ;;
  i1 <- wg_index x (2 * y + 1) YUV_TO_RGB_WAVES y_stride ;;
  y1 <- ldn ybuf i1 16 ;;
  let y01 := mulhi_epu16 (unpacklo 1 zero y1) xxym in
  o01 <- wg_index (2 * x) (2 * y + 1) (2 * YUV_TO_RGB_WAVES) dst_stride ;;
  pixels_8x reversed dst o01 sr_lo sg_lo sb_lo y01 ;;
  let y11 := mulhi_epu16 (unpackhi 1 zero y1) xxym in
  o11 <- wg_index (2 * x + 1) (2 * y + 1) (2 * YUV_TO_RGB_WAVES) dst_stride ;;
  pixels_8x reversed dst o11 sr_hi sg_hi sb_hi y11.

(** sse2.rs:592-679 *)
Definition nv12_to_bgra_sse2 (c : colorimetry) (reversed : bool) : kernel_2_1 :=
  fun width height src_strides src dst_stride dst =>
  let '(y_stride, uv_stride) := src_strides in
  let '(ybuf, uvbuf) := src in
  for_ (height / 2) (fun y => for_ (width / YUV_TO_RGB_WAVES) (fun x =>
    i <- wg_index x y YUV_TO_RGB_WAVES uv_stride ;;
    '(cb, cr) <- unpack_ui8x2_i16be_8x uvbuf i ;;
    tile_16x2 c reversed ybuf y_stride dst dst_stride x y cb cr)).

(** sse2.rs:683-771 *)
Definition i420_to_bgra_sse2 (c : colorimetry) (reversed : bool) : kernel_3_1 :=
  fun width height src_strides src dst_stride dst =>
  let '(y_stride, u_stride, v_stride) := src_strides in
  let '(ybuf, ubuf, vbuf) := src in
  for_ (height / 2) (fun y => for_ (width / YUV_TO_RGB_WAVES) (fun x =>
    iu <- wg_index x y (YUV_TO_RGB_WAVES / 2) u_stride ;;
    cb <- unpack_ui8_i16be_8x ubuf iu ;;
    iv <- wg_index x y (YUV_TO_RGB_WAVES / 2) v_stride ;;
    cr <- unpack_ui8_i16be_8x vbuf iv ;;
    tile_16x2 c reversed ybuf y_stride dst dst_stride x y cb cr)).

(** sse2.rs:807-818: [_mm_set_epi64x(0, loadu(..))] *)
Definition load_lo_8x (s : slice) (image : Z) : M reg :=
  q <- ldn s image 8 ;; ret (q ++ setzero 8).

(** sse2.rs:775-839 *)
Definition i444_to_bgra_sse2 (c : colorimetry) (reversed : bool) : kernel_3_1 :=
  fun width height src_strides src dst_stride dst =>
  let '(y_stride, u_stride, v_stride) := src_strides in
  let '(ybuf, ubuf, vbuf) := src in
  let src_depth := YUV_TO_RGB_WAVES / 2 in
  for_ height (fun y => for_ (width / src_depth) (fun x =>
    iu <- wg_index x y src_depth u_stride ;;
    cb0 <- load_lo_8x ubuf iu ;;
    iv <- wg_index x y src_depth v_stride ;;
    cr0 <- load_lo_8x vbuf iv ;;
    iy <- wg_index x y src_depth y_stride ;;
    y0 <- load_lo_8x ybuf iy ;;
    let cb_lo := unpacklo 1 zero cb0 in
    let cr_lo := unpacklo 1 zero cr0 in
    let y_lo := mulhi_epu16 (unpacklo 1 zero y0) (bw8 c 0) in
    let '(sr_lo, sg_lo, sb_lo) := chroma_8x c cb_lo cr_lo in
    o <- wg_index x y (2 * YUV_TO_RGB_WAVES) dst_stride ;;
    pixels_8x reversed dst o sr_lo sg_lo sb_lo y_lo)).

(** sse2.rs:867-905: sixteen pixels; the carried variables are (src_offset, dst_offset) *)
Definition rgb_to_bgra_step16 (src dst : slice) (st_ : Z * Z) : M (Z * Z) :=
  let '(so, do_) := st_ in
  let first_pixel_mask := set_epi32 [0; 0; 0; -1] in
  let first_two_pixels_mask := set_epi32 [0; 0; -1; -1] in
  input0 <- ldn src so 16 ;;
  input1 <- ldn src (so + 16) 16 ;;
  input2 <- ldn src (so + 32) 16 ;;
  stn dst do_ (rgb_to_bgra_4x input0) ;;
  let last4 := shuffle_epi32 input0 (mm_shuffle 0 0 0 3) in
  let first8 := shuffle_epi32 input1 (mm_shuffle 0 1 0 0) in
  let input := or_si (and_si last4 first_pixel_mask) (andnot_si first_pixel_mask first8) in
  stn dst (do_ + 16) (rgb_to_bgra_4x input) ;;
  let last8 := shuffle_epi32 input1 (mm_shuffle 0 0 3 2) in
  let first8 := shuffle_epi32 input2 (mm_shuffle 1 0 0 0) in
  let input := or_si (and_si last8 first_two_pixels_mask)
                     (andnot_si first_two_pixels_mask first8) in
  stn dst (do_ + 32) (rgb_to_bgra_4x input) ;;
  stn dst (do_ + 48) (rgb_to_bgra_4x (shuffle_epi32 input2 (mm_shuffle 0 3 2 1))) ;;
  so' <- uadd so (LANE_COUNT * 3) ;;
  do' <- uadd do_ (LANE_COUNT * 4) ;;
  ret (so', do').

(** sse2.rs:843-911; [(0..width).step_by(16)] has [ceil(width / 16)] items *)
Definition rgb_to_bgra_sse2 : kernel_1_1 :=
  fun width height src_stride src dst_stride dst =>
  sw <- umul 3 width ;; src_diff <- usub src_stride sw ;;
  dw <- umul 4 width ;; dst_diff <- usub dst_stride dw ;;
  loop (Z.to_nat height) (0, 0) (fun st_ =>
    '(so, do_) <- loop (Z.to_nat ((width + 15) / 16)) st_ (rgb_to_bgra_step16 src dst) ;;
    so' <- uadd so src_diff ;; do' <- uadd do_ dst_diff ;;
    ret (so', do')) ;;
  ret tt.

(** ** The converters: sse2.rs:915-1654 *)

(** sse2.rs:915-1016; DEPTH = 3 falls back to the scalar kernel (970-982) *)
Definition sse2_nv12_rgb (c : colorimetry) (depth : Z) (rev : bool) : converter :=
  nv12_rgb_w depth
    (if depth =? 3 then nv12_to_rgb c
     else hyb_2_1 (fun w => lower_multiple_of_pot w YUV_TO_RGB_WAVES) depth
                  (nv12_to_bgra_sse2 c rev) (nv12_to_bgra c rev)).
(** sse2.rs:1019-1106 *)
Definition sse2_i420_rgb (c : colorimetry) (depth : Z) (rev : bool) : converter :=
  i4xx_rgb_w 2 depth
    (hyb_3_1 (fun w => lower_multiple_of_pot w YUV_TO_RGB_WAVES) 2 depth
             (i420_to_bgra_sse2 c rev) (i420_to_bgra c rev)).
(** sse2.rs:1109-1192 *)
Definition sse2_i444_rgb (c : colorimetry) (depth : Z) (rev : bool) : converter :=
  i4xx_rgb_w 1 depth
    (hyb_3_1 (fun w => lower_multiple_of_pot w (YUV_TO_RGB_WAVES / 2)) 1 depth
             (i444_to_bgra_sse2 c rev) (i444_to_bgra c rev)).
(** sse2.rs:1382-1467 *)
Definition sse2_rgb_i444 (s : sampler) (depth : Z) (c : colorimetry) : converter :=
  rgb_i4xx_w 1 depth
    (hyb_1_3 (fwd_vector_part RGB_TO_YUV_WAVES depth) 1 depth
             (rgb_to_i444_sse2 s depth c) (rgb_to_i444 s depth c)).
(** sse2.rs:1291-1379 *)
Definition sse2_rgb_i420 (s : sampler) (depth : Z) (c : colorimetry) : converter :=
  rgb_i4xx_w 2 depth
    (hyb_1_3 (fwd_vector_part RGB_TO_YUV_WAVES depth) 2 depth
             (rgb_to_i420_sse2 s depth c) (rgb_to_i420 s depth c)).
(** sse2.rs:1195-1288 *)
Definition sse2_rgb_nv12 (s : sampler) (depth : Z) (c : colorimetry) : converter :=
  rgb_nv12_w depth
    (hyb_1_2 (fwd_vector_part RGB_TO_YUV_WAVES depth) depth
             (rgb_to_nv12_sse2 s depth c) (rgb_to_nv12 s depth c)).
(** sse2.rs:1578-1654 *)
Definition sse2_rgb_bgra : converter :=
  rgb_rgb_w 3 4 (hyb_1_1 (fun w => lower_multiple_of_pot w LANE_COUNT) 3 4
                         rgb_to_bgra_sse2 rgb_to_bgra).
(** sse2.rs:1556-1576 *)
Definition sse2_bgra_rgb : converter := x86_bgra_rgb.
(** sse2.rs:1534-1554 *)
Definition sse2_bgr_rgb : converter := x86_bgr_rgb.
